(** Bit reads with any number of bits. *)
From Verif Require Export SpecAnyWidth ProofLoose.
From Verif Require Import SpecReader.

Lemma documented_legal o : any_bit_op o -> documented o = true -> legal_bit_op o.
Proof. destruct o; cbn; intros; auto; lia. Qed.

(** * Debug builds *)
Lemma refused {S} (rb : ReadBytes S) fuel o st : documented o = false -> run_bit_op rb Debug fuel o st = (Panic "assertion failed", st).
Proof.
  destruct o; cbn [documented run_bit_op]; intros H; try discriminate H;
    unfold read_leq_u8, read_gt_u8_leq_u16, read_leq_u16, read_leq_u32, debug_assert; rewrite H; reflexivity.
Qed.
Theorem debug_going_on {S} (rb : ReadBytes S) t D : stream rb t D -> forall fuel ops st l,
  D st l -> (length l < fuel)%nat -> Forall any_bit_op ops ->
  going_on (run_bit_op rb Debug fuel) ops (bs_new st) = going_on (refusing_bit_op t Debug) ops (bytes_bits l).
Proof.
  intros HS fuel ops st l HD Hf. pose proof (bs_new_left rb t D HS fuel st l HD Hf) as HR. revert HR.
  generalize (bs_new st) as bs, (bytes_bits l) as bits. clear st l HD Hf.
  induction ops as [|o ops IH]; intros bs bits HR Ha; cbn [going_on]; [reflexivity|].
  apply Forall_cons_iff in Ha as [Ho Ha]. unfold refusing_bit_op at 1. destruct (documented o) eqn:Ed.
  - destruct (sim_fst (bits_left D fuel) (run_bit_op rb Debug fuel o) (bl_op t Debug o) bs bits
                (bit_op_sim rb t D HS Debug fuel o (documented_legal o Ho Ed)) HR) as [E HR'].
    rewrite (bl_op_counted t Debug o bits) in *.
    destruct (run_bit_op rb Debug fuel o bs) as [o1 s1'], (counted_bit_op t Debug o bits) as [o2 s2']; cbn [fst snd] in *. subst o2.
    f_equal. destruct o1; auto. apply IH; auto. apply HR'. eexists; reflexivity.
  - rewrite refused by exact Ed. f_equal. apply IH; auto.
Qed.

(** * Release builds *)
Section Release.
  Context {S} (rb : ReadBytes S) (t : tail) (D : S -> list Z -> Prop) (HS : stream rb t D) (fuel : nat).

  (** A value or an error, and the reader stands somewhere behind. *)
  Definition mild {A} (c : M (bitstream S) A) : Prop := forall st l, D (bs_reader st) l -> (length l < fuel)%nat ->
    value_or_error (fst (c st)) /\ (succeeded (fst (c st)) -> exists w l', l = w ++ l' /\ D (bs_reader (snd (c st))) l').
  Lemma mild_here {A} (a : A) (f : bitstream S -> bitstream S) : (forall st, bs_reader (f st) = bs_reader st) -> mild (fun st => (Ok a, f st)).
  Proof. intros Hf st l HD _. cbn. split; [apply voe_ok|]. intros _. exists [], l. rewrite Hf. auto. Qed.
  Lemma mild_ret {A} (a : A) : mild (ret a).
  Proof. apply (mild_here a (fun st => st)). auto. Qed.
  Lemma mild_set d bl : mild (bs_set d bl).
  Proof. apply (mild_here tt (fun st => mkBS (bs_reader st) d bl)). auto. Qed.
  Lemma mild_bind {A B} (c : M (bitstream S) A) (f : A -> M (bitstream S) B) : mild c -> (forall a, mild (f a)) -> mild (bind c f).
  Proof.
    intros Hc Hf st l HD Hl. destruct (Hc st l HD Hl) as [Hv Hs]. unfold bind. destruct (c st) as [o st'] eqn:E. cbn [fst snd] in *.
    destruct Hv as [[a ->]|[e ->]].
    - destruct (Hs ltac:(eexists; reflexivity)) as (w & l' & -> & HD'). rewrite app_length in Hl.
      destruct (Hf a st' l' HD' ltac:(lia)) as [Hv' Hs']. split; [exact Hv'|]. intros H. destruct (Hs' H) as (w' & l'' & -> & HD'').
      exists (w ++ w'), l''. rewrite app_assoc. auto.
    - split; [apply voe_err|]. intros [? X]; discriminate X.
  Qed.
  Lemma mild_get {A} (f : bitstream S -> M (bitstream S) A) : (forall s, mild (f s)) -> mild (bind get f).
  Proof. intros Hf st l HD Hl. exact (Hf st st l HD Hl). Qed.
  Definition fine_value {A} (o : outcome A) : Prop := exists a, o = Ok a.
  Lemma mild_lift {A B} (o : outcome A) (f : A -> M (bitstream S) B) : fine_value o -> (forall a, mild (f a)) -> mild (bind (lift o) f).
  Proof. intros [a ->] Hf st l HD Hl. rewrite bind_lift_ok. apply Hf; auto. Qed.
  Lemma mild_last {A} (o : outcome A) : fine_value o -> mild (lift o).
  Proof. intros [a ->]. apply mild_ret. Qed.
  Lemma mild_u8 : mild (bs_read_u8 rb).
  Proof.
    intros st l HD _. unfold bs_read_u8. destruct l as [|b l].
    - destruct (st_u8_end _ _ _ HS _ HD) as [st' ->]. cbn. split; [apply voe_err|]. intros [? X]; discriminate X.
    - destruct (st_u8 _ _ _ HS _ _ _ HD) as (st' & -> & HD'). cbn. split; [apply voe_ok|]. intros _. exists [b], l. auto.
  Qed.

  Lemma fv_chk w x : fine_value (chk Release w x).
  Proof. unfold chk. destruct (_ =? _); eexists; reflexivity. Qed.
  Lemma fv_assert b : fine_value (debug_assert Release b).
  Proof. eexists; reflexivity. Qed.
  Lemma fv_shl w n x s : fine_value (shl Release w n x s).
  Proof. unfold shl, chk_shift. destruct (_ && _); eexists; reflexivity. Qed.
  Lemma fv_shr n x s : fine_value (shr Release n x s).
  Proof. unfold shr, chk_shift. destruct (_ && _); eexists; reflexivity. Qed.
  Lemma fv_left x s : fine_value (shift_left Release x s).
  Proof. unfold shift_left. destruct (fv_shl u32 32 x s) as [r E]. cbn [obind debug_assert]. rewrite E. eexists; reflexivity. Qed.
  Lemma fv_right x s : fine_value (shift_right Release x s).
  Proof. unfold shift_right. destruct (fv_shr 32 x s) as [r E]. cbn [obind debug_assert]. rewrite E. eexists; reflexivity. Qed.
  Lemma fv_mask n : fine_value (mask_u8 Release n).
  Proof. unfold mask_u8. destruct (fv_chk u32 (8 - n)) as [r E]. cbn [obind debug_assert]. rewrite E. apply fv_left. Qed.
  Hint Resolve fv_chk fv_assert fv_shl fv_shr fv_left fv_right fv_mask : fv.

  Ltac fv := solve [auto with fv | match goal with |- fine_value (if ?b then _ else _) => destruct b; auto with fv end].
  Ltac go := repeat lazymatch goal with
    | |- mild (bind get _) => apply mild_get; intros ?
    | |- mild (bind (lift _) _) => apply mild_lift; [fv|intros ?]
    | |- mild (lift _) => apply mild_last; fv
    | |- mild (ret _) => apply mild_ret
    | |- mild (bs_set _ _) => apply mild_set
    | |- mild (bs_read_u8 _) => apply mild_u8
    | |- mild (bind _ _) => apply mild_bind; [|intros ?]
    | |- mild (if ?b then _ else _) => destruct b
    end.
  Lemma mild_bit : mild (read_bit rb Release).
  Proof. unfold read_bit. go. Qed.
  Lemma mild_leq_u8 n : mild (read_leq_u8 rb Release n).
  Proof. unfold read_leq_u8. cbv zeta. go. Qed.
  Lemma mild_gt_u8 n : mild (read_gt_u8_leq_u16 rb Release n).
  Proof. unfold read_gt_u8_leq_u16. cbv zeta. go. Qed.
  Lemma mild_leq_u16 n : mild (read_leq_u16 rb Release n).
  Proof. unfold read_leq_u16. go; apply mild_leq_u8. Qed.
  Lemma mild_leq_u32 n : mild (read_leq_u32 rb Release n).
  Proof. unfold read_leq_u32. go; apply mild_leq_u16. Qed.
  Lemma unary_loop_mild : forall f n st l, D (bs_reader st) l -> (length l < f)%nat ->
    value_or_error (fst (read_unary_loop rb Release f n st))
    /\ (succeeded (fst (read_unary_loop rb Release f n st)) -> exists w l', l = w ++ l' /\ D (bs_reader (snd (read_unary_loop rb Release f n st))) l').
  Proof.
    induction f as [|f IH]; intros n st l HD Hf; [lia|].
    set (g := fun fresh_byte => let zeros := leading_zeros_u8 fresh_byte in
        n <- lift (chk Release u32 (n + zeros)) ;;
        if zeros <? 8 then
          bl <- lift (chk Release u32 (8 - (zeros + 1))) ;;
          data <- lift (shift_left Release fresh_byte (zeros + 1)) ;;
          bs_set data bl ;;;
          ret n
        else read_unary_loop rb Release f n).
    change (read_unary_loop rb Release (Datatypes.S f) n) with (bind (bs_read_u8 rb) g).
    destruct l as [|b l].
    { destruct (st_u8_end _ _ _ HS _ HD) as [st' E]. unfold bind, bs_read_u8. rewrite E. cbn [fst snd].
      split; [apply voe_err|]. intros [? X]; discriminate X. }
    destruct (st_u8 _ _ _ HS _ _ _ HD) as (st' & E & HD').
    set (st1 := mkBS st' (bs_data st) (bs_bits_left st)).
    assert (bind (bs_read_u8 rb) g st = g b st1) as -> by (unfold bind, bs_read_u8; rewrite E; reflexivity).
    assert (D (bs_reader st1) l) as HD1 by exact HD'. subst g. cbv beta zeta.
    destruct (fv_chk u32 (n + leading_zeros_u8 b)) as [n' En]. rewrite En, !bind_lift_ok. cbn [length] in Hf.
    assert (forall c : M (bitstream S) Z, value_or_error (fst (c st1)) /\ (succeeded (fst (c st1)) ->
                exists w l', l = w ++ l' /\ D (bs_reader (snd (c st1))) l') ->
      value_or_error (fst (c st1)) /\ (succeeded (fst (c st1)) ->
                exists w l', b :: l = w ++ l' /\ D (bs_reader (snd (c st1))) l')) as Hcons.
    { intros c [Hv Hs]. split; [exact Hv|]. intros H. destruct (Hs H) as (w & l' & -> & HD''). exists (b :: w), l'. auto. }
    apply Hcons. destruct (leading_zeros_u8 b <? 8).
    - destruct (fv_chk u32 (8 - (leading_zeros_u8 b + 1))) as [bl Eb]. rewrite Eb, !bind_lift_ok.
      destruct (fv_left b (leading_zeros_u8 b + 1)) as [d Ed]. rewrite Ed, !bind_lift_ok. cbn.
      split; [apply voe_ok|]. intros _. exists [], l. auto.
    - apply (IH n' st1 l HD1). lia.
  Qed.
  Lemma mild_unary : mild (read_unary rb Release fuel).
  Proof.
    unfold read_unary. apply mild_get. intros s. cbv zeta. destruct (_ <? _); [go|].
    intros st l HD Hl. apply unary_loop_mild; auto.
  Qed.
  Lemma mild_op o : mild (run_bit_op rb Release fuel o).
  Proof.
    destruct o; cbn [run_bit_op]; [|apply mild_unary|apply mild_leq_u8|apply mild_gt_u8|apply mild_leq_u16|apply mild_leq_u32].
    apply mild_bind; [apply mild_bit|intros b; apply mild_ret].
  Qed.

  Theorem release_mild ops : forall st l, D (bs_reader st) l -> (length l < fuel)%nat ->
    Forall value_or_error (fst (history (run_bit_op rb Release fuel) ops st))
    /\ (Forall succeeded (fst (history (run_bit_op rb Release fuel) ops st)) ->
        exists w l', l = w ++ l' /\ D (bs_reader (snd (history (run_bit_op rb Release fuel) ops st))) l').
  Proof.
    induction ops as [|o ops IH]; intros st l HD Hl; cbn [history].
    - split; [constructor|]. intros _. exists [], l. auto.
    - destruct (mild_op o st l HD Hl) as [Hv Hs]. destruct (run_bit_op rb Release fuel o st) as [r st']. cbn [fst snd] in *.
      destruct Hv as [[a ->]|[e ->]].
      + destruct (Hs ltac:(eexists; reflexivity)) as (w & l' & -> & HD'). rewrite app_length in Hl.
        destruct (IH st' l' HD' ltac:(lia)) as [Hv' Hs']. destruct (history (run_bit_op rb Release fuel) ops st') as [rs st'']. cbn [fst snd] in *.
        split; [constructor; [apply voe_ok|exact Hv']|]. intros H. apply Forall_cons_iff in H as [_ H].
        destruct (Hs' H) as (w' & l'' & -> & HD''). exists (w ++ w'), l''. rewrite app_assoc. auto.
      + split; [constructor; [apply voe_err|constructor]|]. cbn [fst]. intros H. apply Forall_cons_iff in H as [[? X] _]. discriminate X.
  Qed.

  (** ** Nine bits as eight *)
  Lemma nine st b l : D st (b :: l) -> exists st', D st' l /\
    read_leq_u8 rb Release 9 (bs_new st) = (Ok 0, mkBS st' 0 (2 ^ 32 - 1)).
  Proof.
    intros HD. pose proof (st_bytes _ _ _ HS _ _ HD) as Hb. apply Forall_cons_iff in Hb as [Hb _]. unfold is_byte in Hb.
    destruct (st_u8 _ _ _ HS _ _ _ HD) as (st' & E & HD'). exists st'. split; [exact HD'|].
    unfold read_leq_u8, bs_new. cbn [debug_assert]. rewrite bind_lift_ok, bind_get. cbn [bs_bits_left bs_data]. cbv zeta.
    change (0 <? 9) with true. cbv iota. unfold bind at 1 2, bs_read_u8. cbn [bs_reader]. rewrite E.
    cbn [bs_data bs_bits_left]. unfold bs_set at 1. cbn [bs_reader].
    change (chk Release u32 (9 - 0)) with (@Ok Z 9). unfold bind at 1, bind at 1. cbn [lift].
    change (mask_u8 Release 9) with (@Ok Z 0). cbn [lift bind].
    rewrite Z.land_0_r. change (shr Release 8 0 0) with (@Ok Z 0).
    assert (shift_left Release b 9 = Ok 0) as ->.
    { unfold shift_left, shl. cbn -[Z.shiftl u32 u8 Z.modulo]. f_equal. rewrite Z.shiftl_mul_pow2 by lia. unfold u32, u8.
      rewrite (Z.mod_small (b * 2 ^ 9)) by lia. replace (b * 2 ^ 9) with (b * 2 * 2 ^ 8) by lia. apply Z.mod_mul. lia. }
    reflexivity.
  Qed.
  Lemma eight_zeros st bl : 8 <= bl < 2 ^ 32 -> read_leq_u8 rb Release 8 (mkBS st 0 bl) = (Ok 0, mkBS st 0 (bl - 8)).
  Proof.
    intros H. unfold read_leq_u8. cbn [debug_assert]. rewrite bind_lift_ok, bind_get. cbn [bs_bits_left bs_data]. cbv zeta.
    destruct (Z.ltb_spec bl 8); [lia|]. change (mask_u8 Release 8) with (@Ok Z 255). change (shl Release u8 8 0 8) with (@Ok Z 0).
    rewrite chk_u32 by lia. reflexivity.
  Qed.
  Theorem made_up n : Z.of_nat n < 2 ^ 29 -> forall st b l, D st (b :: l) -> exists st', D (bs_reader st') l /\
    history (run_bit_op rb Release fuel) (OpLeqU8 9 :: repeat (OpLeqU8 8) n) (bs_new st) = (repeat (Ok 0) (Datatypes.S n), st').
  Proof.
    intros Hn st b l HD. destruct (nine st b l HD) as (st' & HD' & E).
    assert (forall n bl, 8 * Z.of_nat n <= bl < 2 ^ 32 -> history (run_bit_op rb Release fuel) (repeat (OpLeqU8 8) n) (mkBS st' 0 bl)
              = (repeat (Ok 0) n, mkBS st' 0 (bl - 8 * Z.of_nat n))) as Hz.
    { clear. induction n as [|n IH]; intros bl H; cbn [repeat history].
      - f_equal. f_equal. lia.
      - cbn [run_bit_op]. rewrite eight_zeros by lia. rewrite IH by lia. f_equal. f_equal. lia. }
    exists (mkBS st' 0 (2 ^ 32 - 1 - 8 * Z.of_nat n)). split; [exact HD'|].
    cbn [history run_bit_op]. rewrite E, Hz by lia. reflexivity.
  Qed.
End Release.

Theorem widths_refuted : ~ widths_are_checked.
Proof.
  intros H.
  specialize (H _ _ _ _ (cu_stream Release) Release 10%nat [OpLeqU8 9; OpLeqU8 8] (mkCursor [255; 255; 255] 0) [255; 255; 255]).
  assert (going_on (run_bit_op (cu_rb Release) Release 10) [OpLeqU8 9; OpLeqU8 8] (bs_new (mkCursor [255; 255; 255] 0)) = [Ok 0; Ok 0]) as E
    by (vm_compute; reflexivity).
  rewrite E in H. clear E.
  assert (going_on (refusing_bit_op TEof Release) [OpLeqU8 9; OpLeqU8 8] (bytes_bits [255; 255; 255]) = [Panic "assertion failed"; Ok 255]) as E
    by (vm_compute; reflexivity).
  rewrite E in H. discriminate H.
  - exists []. repeat split; try (vm_compute; reflexivity). vm_compute. repeat constructor; discriminate.
  - cbn. lia.
  - repeat constructor; cbn; lia.
Qed.

(** * Sign extension with any number of bits *)
Lemma chk_shift_release s : 0 <= s -> chk_shift Release 32 s = Ok (s mod 32).
Proof.
  intros H. unfold chk_shift. destruct ((0 <=? s) && (s <? 32)) eqn:E; [|reflexivity].
  apply andb_true_iff in E as [_ E]. apply Z.ltb_lt in E. rewrite Z.mod_small by lia. reflexivity.
Qed.
Lemma extend_release val bits : 0 <= bits -> exists s, s = (- bits) mod 32 /\
  extend_sign_u32 Release val bits = Ok (Z.shiftr (i32 (u32 (Z.shiftl val s))) s).
Proof.
  intros Hb. exists ((- bits) mod 32). split; [reflexivity|].
  assert (chk Release u32 (32 - bits) = Ok (u32 (32 - bits))) as E.
  { unfold chk. destruct (Z.eqb_spec (u32 (32 - bits)) (32 - bits)) as [->|]; reflexivity. }
  assert (u32 (32 - bits) mod 32 = (- bits) mod 32) as Em.
  { unfold u32. change (2 ^ 32) with (32 * 134217728). rewrite Z.rem_mul_r by lia.
    rewrite Z.mul_comm, Z.mod_add by lia. rewrite Z.mod_mod by lia. replace (32 - bits) with (- bits + 1 * 32) by lia.
    apply Z.mod_add. lia. }
  assert (0 <= u32 (32 - bits)) as Hp by (unfold u32; apply Z.mod_pos_bound; lia).
  unfold extend_sign_u32, shl, shr. rewrite E. cbn [obind]. rewrite chk_shift_release by exact Hp. cbn [obind].
  rewrite Em. reflexivity.
Qed.
Theorem extend_other_widths m val bits : 0 <= val < 2 ^ 32 -> 0 <= bits < 2 ^ 32 -> bits = 0 \/ 32 < bits ->
  match m with
  | Debug => exists msg, extend_sign_u32 m val bits = Panic msg
  | Release => extend_sign_u32 m val bits = extend_sign_u32 m val ((bits - 1) mod 32 + 1)
  end.
Proof.
  intros Hv Hb Ho. destruct m.
  - unfold extend_sign_u32. destruct Ho as [->|Ho].
    + eexists. reflexivity.
    + assert (chk Debug u32 (32 - bits) = Panic "attempt to perform arithmetic with overflow") as ->.
      { unfold chk. destruct (Z.eqb_spec (u32 (32 - bits)) (32 - bits)) as [E|]; [|reflexivity].
        unfold u32 in E. pose proof (Z.mod_pos_bound (32 - bits) (2 ^ 32)). lia. }
      eexists. reflexivity.
  - destruct (extend_release val bits) as (s & Es & ->); [lia|].
    destruct (extend_release val ((bits - 1) mod 32 + 1)) as (s' & Es' & ->); [pose proof (Z.mod_pos_bound (bits - 1) 32); lia|].
    assert (s = s') as ->; [|reflexivity]. subst. pose proof (Z.div_mod (bits - 1) 32 ltac:(lia)) as E.
    replace (- bits) with (- ((bits - 1) mod 32 + 1) + (- ((bits - 1) / 32)) * 32) by lia. rewrite Z.mod_add by lia. reflexivity.
Qed.
Theorem extend_any m val bits : 0 <= val < 2 ^ 32 -> 0 <= bits < 2 ^ 32 -> bits = 0 \/ 32 < bits ->
  match m with
  | Debug => exists msg, extend_sign_u32 m val bits = Panic msg
  | Release => forall k, 1 <= k <= 32 -> k mod 32 = bits mod 32 -> exists r, extend_sign_u32 m val bits = Ok r
      /\ - 2 ^ (k - 1) <= r < 2 ^ (k - 1) /\ r mod 2 ^ k = val mod 2 ^ k
  end.
Proof.
  intros Hv Hb Ho. pose proof (extend_other_widths m val bits Hv Hb Ho) as H. destruct m; [exact H|]. intros k Hk Ek.
  assert ((bits - 1) mod 32 + 1 = k) as E.
  { rewrite Zminus_mod, <- Ek, <- Zminus_mod. rewrite Z.mod_small; lia. }
  rewrite E in H. rewrite H. apply extend_sign_u32_spec; lia.
Qed.
