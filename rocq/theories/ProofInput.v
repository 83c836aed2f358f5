(** Histories of read operations. *)
From Verif Require Export SpecOps ProofSub2.

Definition no_esc_eq {S1 S2 A} (R : S1 -> S2 -> Prop) (c1 : M S1 A) (c2 : M S2 A) :=
  sim no_esc R eq c1 c2.

(** A simulation without escapes, read as an equation. *)
Lemma sim_fst {S1 S2 A} (R : S1 -> S2 -> Prop) (c1 : M S1 A) (c2 : M S2 A) s1 s2 :
  sim no_esc R eq c1 c2 -> R s1 s2 ->
  fst (c1 s1) = fst (c2 s2) /\ (succeeded (fst (c2 s2)) -> R (snd (c1 s1)) (snd (c2 s2))).
Proof.
  intros H HR. specialize (H s1 s2 HR).
  destruct (fst (c1 s1)) as [a|e|w|w|] eqn:E.
  - destruct H as (b & E2 & <- & HR'). rewrite E2. auto.
  - destruct H as [[]|[H _]]. rewrite H. split; [reflexivity|]. intros [? ?]; discriminate.
  - rewrite H. split; [reflexivity|]. intros [? ?]; discriminate.
  - rewrite H. split; [reflexivity|]. intros [? ?]; discriminate.
  - rewrite H. split; [reflexivity|]. intros [? ?]; discriminate.
Qed.

(** The states stay related after errors of the decoder. *)
Lemma sim_ours {S1 S2 A} (R : S1 -> S2 -> Prop) (c1 : M S1 A) (c2 : M S2 A) s1 s2 e :
  sim no_esc R eq c1 c2 -> R s1 s2 -> fst (c2 s2) = Err e -> ours e -> R (snd (c1 s1)) (snd (c2 s2)).
Proof.
  intros H HR E Ho. destruct (sim_fst R c1 c2 s1 s2 H HR) as [E1 _]. specialize (H s1 s2 HR).
  rewrite E1, E in H. destruct H as [[]|[_ H]]. auto.
Qed.

Lemma history_sim {S1 S2 O A} (R : S1 -> S2 -> Prop) (f1 : O -> M S1 A) (f2 : O -> M S2 A)
    (legal : O -> Prop) :
  (forall o, legal o -> sim no_esc R eq (f1 o) (f2 o)) ->
  forall ops s1 s2, Forall legal ops -> R s1 s2 ->
  fst (history f1 ops s1) = fst (history f2 ops s2)
  /\ (Forall succeeded (fst (history f2 ops s2)) ->
      R (snd (history f1 ops s1)) (snd (history f2 ops s2))).
Proof.
  intros H. induction ops as [|o ops IH]; intros s1 s2 Hl HR; cbn [history].
  - auto.
  - inversion Hl as [|? ? Ho Hl']; subst.
    destruct (sim_fst R (f1 o) (f2 o) s1 s2 (H o Ho) HR) as [E HR'].
    destruct (f1 o s1) as [o1 s1'], (f2 o s2) as [o2 s2']; cbn [fst snd] in *. subst o2.
    destruct o1; cbn [fst snd]; try (split; [reflexivity|intros HF; inversion HF as [|? ? [? ?] ?]; discriminate]).
    specialize (IH s1' s2' Hl' (HR' ltac:(eexists; reflexivity))).
    destruct (history f1 ops s1') as [r1 t1], (history f2 ops s2') as [r2 t2]; cbn [fst snd] in *.
    destruct IH as [-> IH]. split; [reflexivity|]. intros HF. inversion HF; auto.
Qed.

Lemma history_app {S O A} (f : O -> M S A) ops1 ops2 : forall st rs st',
  history f ops1 st = (rs, st') -> Forall succeeded rs ->
  history f (ops1 ++ ops2) st
  = (rs ++ fst (history f ops2 st'), snd (history f ops2 st')).
Proof.
  induction ops1 as [|o ops IH]; intros st rs st' E HF; cbn [history app] in *.
  - injection E as <- <-. cbn. destruct (history f ops2 st); reflexivity.
  - destruct (f o st) as [[a|e|w|w|] s0] eqn:Ef;
      try (injection E as <- <-; inversion HF as [|? ? [? ?] ?]; discriminate).
    destruct (history f ops s0) as [rs0 t0] eqn:E0. injection E as <- <-.
    inversion HF; subst. rewrite (IH _ _ _ E0) by assumption.
    destruct (history f ops2 t0); reflexivity.
Qed.

(** * Bytes *)

Section Bytes.
  Context {S} (rb : ReadBytes S) (t : tail) (D : S -> list Z -> Prop) (HS : stream rb t D).
  Notation simD := (sim no_esc D eq).

  Lemma sim_take {A} (c : M S A) n (f : list Z -> A) :
    (forall st l1 l2, D st (l1 ++ l2) -> length l1 = n ->
       exists st', c st = (Ok (f l1), st') /\ D st' l2) ->
    (forall st l, D st l -> (length l < n)%nat -> exists st', c st = (Err (tail_error t), st')) ->
    simD c (fun l => if (n <=? length l)%nat then (Ok (f (firstn n l)), skipn n l)
                     else (Err (tail_error t), [])).
  Proof.
    intros H1 H2 st l HD. destruct (Nat.leb_spec n (length l)) as [Hn|Hn].
    - pose proof HD as HD0. rewrite <- (firstn_skipn n l) in HD.
      destruct (H1 st _ _ HD) as (st' & -> & HD'); [rewrite firstn_length; lia|].
      cbn. eauto.
    - destruct (H2 st l HD Hn) as (st' & ->). at_end.
  Qed.

  (** [n] single bytes in a row. *)
  Fixpoint u8s (n : nat) : M S (list Z) :=
    match n with
    | O => ret []
    | Datatypes.S n' => b <- read_u8 rb ;; r <- u8s n' ;; ret (b :: r)
    end.
  Lemma u8s_ok n : forall st l1 l2, D st (l1 ++ l2) -> length l1 = n ->
    exists st', u8s n st = (Ok l1, st') /\ D st' l2.
  Proof.
    induction n as [|n IH]; intros st l1 l2 HD Hn.
    - destruct l1; [|discriminate]. exists st; split; [reflexivity|exact HD].
    - destruct l1 as [|b l1]; [discriminate|]. cbn [app] in HD.
      destruct (st_u8 _ _ _ HS st b _ HD) as (st1 & E1 & HD1).
      destruct (IH st1 l1 l2 HD1) as (st2 & E2 & HD2); [cbn in Hn; lia|].
      exists st2. split; [|exact HD2]. cbn [u8s]. unfold bind. rewrite E1, E2. reflexivity.
  Qed.
  Lemma u8s_end n : forall st l, D st l -> (length l < n)%nat ->
    exists st', u8s n st = (Err (tail_error t), st').
  Proof.
    induction n as [|n IH]; intros st l HD Hn; [lia|]. cbn [u8s].
    destruct l as [|b l].
    - destruct (st_u8_end _ _ _ HS st HD) as (st' & E). unfold bind. rewrite E. eauto.
    - destruct (st_u8 _ _ _ HS st b _ HD) as (st1 & E1 & HD1).
      destruct (IH st1 l HD1) as (st2 & E2); [cbn in Hn; lia|].
      unfold bind. rewrite E1, E2. eauto.
  Qed.

  Lemma sim_u8s {A} (c : M S A) n (f g : list Z -> A) :
    (forall st, c st = (l <- u8s n ;; ret (g l)) st) ->
    (forall l, bytes_ok l -> length l = n -> g l = f l) ->
    simD c (fun l => if (n <=? length l)%nat then (Ok (f (firstn n l)), skipn n l)
                     else (Err (tail_error t), [])).
  Proof.
    intros Hc Hfg. apply sim_take.
    - intros st l1 l2 HD Hn. destruct (u8s_ok n st l1 l2 HD Hn) as (st' & E & HD').
      exists st'. split; [|exact HD']. rewrite Hc. unfold bind. rewrite E. cbn.
      rewrite Hfg; auto. apply (st_bytes _ _ _ HS) in HD. apply Forall_app in HD. apply HD.
    - intros st l HD Hn. destruct (u8s_end n st l HD Hn) as (st' & E).
      exists st'. rewrite Hc. unfold bind. rewrite E. reflexivity.
  Qed.

  Ltac unroll := intros st; unfold bind, ret; cbn [u8s]; unfold bind, ret;
    repeat match goal with |- context [read_u8 rb ?s] =>
             destruct (read_u8 rb s) as [[]]; try reflexivity end.
  Ltac bytes_cases Hb Hn :=
    repeat match type of Hn with
    | length ?l = Datatypes.S _ => destruct l as [|? l]; [discriminate|];
        inversion Hb; subst; cbn in Hn; apply eq_add_S in Hn; clear Hb;
        match goal with H : Forall is_byte _ |- _ => rename H into Hb end
    | length ?l = O => destruct l; [|discriminate]
    end.

  Lemma byte_op_sim o : legal_byte_op o -> simD (run_byte_op rb o) (spec_byte_op t o).
  Proof.
    intros Hl. destruct o as [| |buf|n| | | | |]; cbn [run_byte_op spec_byte_op].
    - apply (sim_u8s _ 1 _ (fun l => RNum (nth 0 l 0))); [unroll|].
      intros l Hb Hn. bytes_cases Hb Hn. unfold be_number; cbn [fold_left nth].
      f_equal.
    - intros st l HD. destruct l as [|b l].
      + cbn [Nat.leb length]. pose proof (st_eof_end _ _ _ HS st HD) as He. destruct t.
        * destruct He as (st' & E & HD'). unfold bind. rewrite E. cbn. eauto.
        * destruct He as (st' & E). unfold bind. rewrite E. at_end.
      + cbn [Nat.leb length]. destruct (st_eof _ _ _ HS st b l HD) as (st' & E & HD').
        unfold bind. rewrite E. cbn [ret fst snd firstn skipn]. eexists; repeat split; auto.
    - apply sim_take.
      + intros st l1 l2 HD Hn. destruct (st_into _ _ _ HS st l1 l2 buf HD) as (st' & E & HD'); auto.
        exists st'. unfold bind. rewrite E. auto.
      + intros st l HD Hn. destruct (st_into_end _ _ _ HS st l buf HD Hn) as (st' & E); auto.
        exists st'. unfold bind. rewrite E. auto.
    - cbn in Hl. apply (sim_take _ _ (fun _ => RDone)).
      + intros st l1 l2 HD Hn. destruct (st_skip _ _ _ HS st l1 l2 HD) as (st' & E & HD');
          [unfold len; lia|].
        exists st'. unfold bind. replace n with (len l1) by (unfold len; lia). rewrite E. auto.
      + intros st l HD Hn. destruct (st_skip_end _ _ _ HS st l n HD) as (st' & E);
          [unfold len; lia|].
        exists st'. unfold bind. rewrite E. auto.
    - apply (sim_u8s _ 2 _ (fun l => RNum (Z.lor (u16 (Z.shiftl (nth 0 l 0) 8)) (nth 1 l 0))));
        [unfold read_be_u16; unroll|].
      intros l Hb Hn. bytes_cases Hb Hn. cbn [nth]. unfold is_byte in *.
      rewrite be_u16_range by lia. unfold be_number; cbn [fold_left]. f_equal. lia.
    - intros st l HD. unfold read_be_u16_or_eof.
      destruct l as [|b0 l]; [|destruct l as [|b1 l]].
      + cbn [Nat.leb length]. pose proof (st_eof_end _ _ _ HS st HD) as He. destruct t.
        * destruct He as (st' & E & HD'). unfold bind. rewrite E. cbn. eauto.
        * destruct He as (st' & E). unfold bind. rewrite E. at_end.
      + cbn [Nat.leb length]. destruct (st_eof _ _ _ HS st b0 [] HD) as (st1 & E1 & HD1).
        pose proof (st_eof_end _ _ _ HS st1 HD1) as He.
        unfold bind. rewrite E1. destruct t.
        * destruct He as (st' & E & HD'). rewrite E. cbn. eauto.
        * destruct He as (st' & E). rewrite E. at_end.
      + cbn [Nat.leb length]. pose proof (st_bytes _ _ _ HS st _ HD) as Hb.
        apply Forall_cons_iff in Hb as [Hb0 Hb]; apply Forall_cons_iff in Hb as [Hb1 _]. unfold is_byte in *.
        destruct (st_eof _ _ _ HS st b0 _ HD) as (st1 & E1 & HD1).
        destruct (st_eof _ _ _ HS st1 b1 _ HD1) as (st2 & E2 & HD2).
        unfold bind. rewrite E1, E2. cbn [ret fst snd firstn skipn].
        rewrite be_u16_range by lia. eexists; repeat split; auto.
        unfold be_number; cbn [fold_left]. f_equal. cbn [firstn fold_left]. lia.
    - apply (sim_u8s _ 3 _ (fun l => RNum (Z.lor (Z.lor (u32 (Z.shiftl (nth 0 l 0) 16))
               (u32 (Z.shiftl (nth 1 l 0) 8))) (nth 2 l 0))));
        [unfold read_be_u24; unroll|].
      intros l Hb Hn. bytes_cases Hb Hn. cbn [nth]. unfold is_byte in *.
      rewrite be_u24_range by lia. unfold be_number; cbn [fold_left]. f_equal. lia.
    - apply (sim_u8s _ 4 _ (fun l => RNum (Z.lor (Z.lor (Z.lor (u32 (Z.shiftl (nth 0 l 0) 24))
               (u32 (Z.shiftl (nth 1 l 0) 16))) (u32 (Z.shiftl (nth 2 l 0) 8))) (nth 3 l 0))));
        [unfold read_be_u32; unroll|].
      intros l Hb Hn. bytes_cases Hb Hn. cbn [nth]. unfold is_byte in *.
      rewrite be_u32_range by lia. unfold be_number; cbn [fold_left]. f_equal. lia.
    - apply (sim_u8s _ 4 _ (fun l => RNum (Z.lor (Z.lor (Z.lor (u32 (Z.shiftl (nth 3 l 0) 24))
               (u32 (Z.shiftl (nth 2 l 0) 16))) (u32 (Z.shiftl (nth 1 l 0) 8))) (nth 0 l 0))));
        [unfold read_le_u32; unroll|].
      intros l Hb Hn. bytes_cases Hb Hn. cbn [nth]. unfold is_byte in *.
      rewrite be_u32_range by lia. unfold be_number; cbn [rev app fold_left]. f_equal. lia.
  Qed.

  Theorem byte_history ops st l : D st l -> Forall legal_byte_op ops ->
    fst (history (run_byte_op rb) ops st) = fst (history (spec_byte_op t) ops l)
    /\ (Forall succeeded (fst (history (spec_byte_op t) ops l)) ->
        D (snd (history (run_byte_op rb) ops st)) (snd (history (spec_byte_op t) ops l))).
  Proof.
    intros HD Hl. apply (history_sim D _ _ legal_byte_op); auto. apply byte_op_sim.
  Qed.
End Bytes.

(** * Bits *)

Lemma no_zero_run_suffix n a b : no_zero_run n (a ++ b) -> no_zero_run n b.
Proof.
  intros H x y E. apply (H (a ++ x) y). rewrite E, app_assoc. reflexivity.
Qed.

Lemma leading_zeros_split l :
  leading_zeros l = match snd (unary_split l) with
                    | Some r => Some (fst (unary_split l), r)
                    | None => None
                    end.
Proof.
  induction l as [|[] l IH]; cbn [leading_zeros unary_split]; auto.
  rewrite IH. destruct (unary_split l) as [z [r|]]; reflexivity.
Qed.

Lemma unary_short K l : 0 <= K -> ~ starts_with_zeros K l -> fst (unary_split l) < K.
Proof.
  intros HK H. destruct (unary_split l) as [z o] eqn:E. cbn [fst].
  destruct (Z.lt_ge_cases z K) as [|Hz]; [assumption|exfalso].
  assert (exists r, l = repeat false (Z.to_nat z) ++ r) as [r Hr].
  { destruct o as [r|].
    - apply unary_split_some in E as [-> _]. exists (true :: r). unfold unary.
      rewrite <- app_assoc. reflexivity.
    - apply unary_split_none in E as [-> _]. exists []. rewrite app_nil_r. reflexivity. }
  apply H. exists (repeat false (Z.to_nat z - Z.to_nat K) ++ r). rewrite Hr.
  rewrite app_assoc, <- repeat_app. f_equal. f_equal. lia.
Qed.

Lemma no_zero_run_start n l : no_zero_run n l -> ~ starts_with_zeros n l.
Proof. intros H [r E]. apply (H [] r). exact E. Qed.

Section Bits.
  Context {S} (rb : ReadBytes S) (t : tail) (D : S -> list Z -> Prop) (HS : stream rb t D).
  Context (m : build) (fuel : nat).
  Notation R := (bits_left D fuel).

  Lemma bits_left_sim {A B} (Q : A -> B -> Prop) (c : ReadBytes S -> M (bitstream S) A)
      (cf : M (bitstream (list Z)) A) (b : M (list bool) B) :
    sim no_esc (Rbits D) eq (c rb) cf -> sim no_esc (bitsrel fuel) Q cf b ->
    sim no_esc R Q (c rb) b.
  Proof.
    intros H1 H2 st bits (n & d & l & Hn & Hd & Hbl & Hda & Hbits & HD & Hb & Hl).
    assert (Rbits D st (mkBS l (bs_data st) (bs_bits_left st))) as HR1 by (repeat split; auto).
    assert (bitsrel fuel (mkBS l (bs_data st) (bs_bits_left st)) bits) as HR2
      by (exists n, d; cbn; auto 10).
    specialize (H1 _ _ HR1). specialize (H2 _ _ HR2).
    assert (forall st' sf bits', Rbits D st' sf -> bitsrel fuel sf bits' -> R st' bits') as X.
    { intros st' sf bits' (HRa & HRb & HRc) (n' & d' & Hn' & Hd' & Hbl' & Hda' & Hbits' & Hb' & Hl').
      exists n', d', (bs_reader sf). repeat split; try lia; auto; congruence. }
    destruct (fst (c rb st)); try (rewrite H1 in H2; auto; fail);
      [|destruct H1 as [[]|[H1 HR1']]; rewrite H1 in H2; destruct H2 as [[]|[H2 HR2']]; right; split; [exact H2|];
        intros Ho; eapply X; [exact (HR1' Ho)|exact (HR2' Ho)]].
    - destruct H1 as (b1 & E1 & <- & (HRa & HRb & HRc)). rewrite E1 in H2.
      destruct H2 as (b2 & E2 & HQ & HR').
      exists b2. split; [exact E2|]. split; [exact HQ|]. eapply X; [|exact HR']. repeat split; auto.
  Qed.

  Let Hrs : rb_sim no_esc D rb (fl_rb t) := stream_rb_sim rb t D HS no_esc.

  Definition bl_op (o : bit_op) : M (list bool) Z :=
    match o with
    | OpBit => b <- bl_bit t ;; ret (Z.b2z b)
    | OpUnary => bl_unary t m
    | OpLeqU8 n | OpGtU8LeqU16 n | OpLeqU16 n | OpLeqU32 n => bl_bits t (Z.to_nat n)
    end.

  Lemma bit_op_sim o : legal_bit_op o -> sim no_esc R eq (run_bit_op rb m fuel o) (bl_op o).
  Proof.
    intros Hl. destruct o as [| |n|n|n|n]; cbn [run_bit_op bl_op legal_bit_op] in *.
    - eapply sim_bind_eq; [|intros b; apply sim_ret; reflexivity].
      eapply (bits_left_sim eq (fun rb => read_bit rb m)); [apply ProofSim.read_bit_sim, Hrs|].
      apply ProofBits2.read_bit_sim.
    - eapply (bits_left_sim eq (fun rb => read_unary rb m fuel));
        [apply ProofSim.read_unary_sim, Hrs|apply ProofBits2.read_unary_sim].
    - eapply (bits_left_sim eq (fun rb => read_leq_u8 rb m n)); [apply ProofSim.read_leq_u8_sim, Hrs|].
      rewrite <- (Z2Nat.id n) at 1 by lia. apply ProofBits.read_leq_u8_sim. lia.
    - eapply (bits_left_sim eq (fun rb => read_gt_u8_leq_u16 rb m n));
        [apply ProofSim.read_gt_u8_leq_u16_sim, Hrs|].
      rewrite <- (Z2Nat.id n) at 1 by lia. apply ProofBits2.read_gt_u8_leq_u16_sim. lia.
    - eapply (bits_left_sim eq (fun rb => read_leq_u16 rb m n)); [apply ProofSim.read_leq_u16_sim, Hrs|].
      rewrite <- (Z2Nat.id n) at 1 by lia. apply ProofBits2.read_leq_u16_sim. lia.
    - eapply (bits_left_sim eq (fun rb => read_leq_u32 rb m n)); [apply ProofSim.read_leq_u32_sim, Hrs|].
      rewrite <- (Z2Nat.id n) at 1 by lia. apply ProofBits2.read_leq_u32_sim. lia.
  Qed.

  (** Without an overlong run ahead the pure operations are the specification. *)
  Lemma bl_op_spec o bits : legal_bit_op o ->
    (o = OpUnary -> ~ starts_with_zeros (2 ^ 32) bits) ->
    bl_op o bits = spec_bit_op t o bits.
  Proof.
    intros Hl Hz. destruct o; cbn [bl_op spec_bit_op]; try reflexivity.
    - unfold bind, bl_bit. destruct bits as [|b bits]; [reflexivity|].
      cbn. destruct b; reflexivity.
    - unfold bl_unary. rewrite leading_zeros_split.
      pose proof (unary_short (2 ^ 32) _ ltac:(lia) (Hz eq_refl)).
      pose proof (unary_split_nonneg bits).
      destruct (unary_split bits) as [z o]; cbn [fst snd] in *.
      replace (match m with Debug => 2 ^ 32 <=? z | Release => false end) with false
        by (destruct m; lia).
      rewrite u32_id by lia. destruct o; reflexivity.
  Qed.

  Lemma spec_bit_suffix o bits a bits' : spec_bit_op t o bits = (Ok a, bits') ->
    exists w, bits = w ++ bits'.
  Proof.
    assert (forall n, (if (n <=? length bits)%nat
               then (Ok (be_value (firstn n bits)), skipn n bits)
               else (Err (tail_error t), [])) = (Ok a, bits') -> exists w, bits = w ++ bits').
    { intros n. destruct (n <=? length bits)%nat; intros E; [|discriminate].
      injection E as _ <-. exists (firstn n bits). symmetry. apply firstn_skipn. }
    destruct o; cbn [spec_bit_op]; eauto.
    rewrite leading_zeros_split. destruct (unary_split bits) as [z o] eqn:E; cbn [fst snd].
    destruct o; [|discriminate]. intros E'. injection E' as <- <-.
    apply unary_split_some in E as [-> _]. eauto.
  Qed.

  Lemma bs_new_left st l : D st l -> (length l < fuel)%nat ->
    R (bs_new st) (bytes_bits l).
  Proof.
    intros HD Hf. exists 0%nat, 0, l. cbn.
    repeat split; auto; try lia. apply (st_bytes _ _ _ HS) in HD. exact HD.
  Qed.

  Lemma bit_history_gen : forall ops st bits, R st bits -> counts_fit t ops bits ->
    Forall legal_bit_op ops ->
    fst (history (run_bit_op rb m fuel) ops st) = fst (history (spec_bit_op t) ops bits)
    /\ (Forall succeeded (fst (history (spec_bit_op t) ops bits)) ->
        R (snd (history (run_bit_op rb m fuel) ops st))
          (snd (history (spec_bit_op t) ops bits))).
  Proof.
    induction ops as [|o ops IH]; intros st bits HR Hf Hl; cbn [history].
    - auto.
    - apply Forall_cons_iff in Hl as [Ho Hl]. cbn [counts_fit] in Hf. destruct Hf as [Hz Hf].
      destruct (sim_fst R (run_bit_op rb m fuel o) (bl_op o) st bits (bit_op_sim o Ho) HR) as [E HR'].
      rewrite (bl_op_spec o bits Ho Hz) in *.
      destruct (run_bit_op rb m fuel o st) as [o1 s1'], (spec_bit_op t o bits) as [o2 s2'];
        cbn [fst snd] in *. subst o2.
      destruct o1; cbn [fst snd]; try (split; [reflexivity|intros HF; inversion HF as [|? ? [? ?] ?]; discriminate]).
      specialize (IH s1' s2' (HR' ltac:(eexists; reflexivity)) Hf Hl).
      destruct (history (run_bit_op rb m fuel) ops s1') as [r1 t1],
               (history (spec_bit_op t) ops s2') as [r2 t2]; cbn [fst snd] in *.
      destruct IH as [-> IH]. split; [reflexivity|]. intros HF. inversion HF; auto.
  Qed.

  Lemma no_zero_run_fit ops : forall bits, no_zero_run (2 ^ 32) bits -> counts_fit t ops bits.
  Proof.
    induction ops as [|o ops IH]; intros bits Hz; cbn [counts_fit]; [exact I|].
    split; [intros _; apply no_zero_run_start, Hz|].
    destruct (spec_bit_op t o bits) as [[a| | | |] bits'] eqn:E; auto.
    apply IH. apply spec_bit_suffix in E as [w ->]. eapply no_zero_run_suffix, Hz.
  Qed.

  Theorem bit_history ops st l : D st l -> (length l < fuel)%nat ->
    counts_fit t ops (bytes_bits l) -> Forall legal_bit_op ops ->
    fst (history (run_bit_op rb m fuel) ops (bs_new st))
      = fst (history (spec_bit_op t) ops (bytes_bits l))
    /\ (Forall succeeded (fst (history (spec_bit_op t) ops (bytes_bits l))) ->
        R (snd (history (run_bit_op rb m fuel) ops (bs_new st)))
          (snd (history (spec_bit_op t) ops (bytes_bits l)))).
  Proof.
    intros HD Hf Hz Hl. apply bit_history_gen; auto. apply bs_new_left; auto.
  Qed.

  Lemma history_suffix ops : forall bits,
    Forall succeeded (fst (history (spec_bit_op t) ops bits)) ->
    exists w, bits = w ++ snd (history (spec_bit_op t) ops bits).
  Proof.
    induction ops as [|o ops IH]; intros bits HF; cbn [history] in *.
    - exists []. reflexivity.
    - destruct (spec_bit_op t o bits) as [[a|e|w|w|] b'] eqn:E;
        try (inversion HF as [|? ? [? ?] ?]; discriminate).
      destruct (history (spec_bit_op t) ops b') as [rs b''] eqn:E'. cbn [fst snd] in *.
      inversion HF; subst. specialize (IH b'). rewrite E' in IH. cbn [fst snd] in IH.
      destruct IH as [w Hw]; [assumption|].
      apply spec_bit_suffix in E as [w' ->]. rewrite Hw. exists (w' ++ w).
      rewrite app_assoc. reflexivity.
  Qed.

  Lemma bytes_bits_skipn l k : bytes_bits (skipn k l) = skipn (8 * k) (bytes_bits l).
  Proof.
    revert k. induction l as [|b l IH]; intros [|k].
    - reflexivity.
    - rewrite !skipn_nil. reflexivity.
    - rewrite Nat.mul_0_r. reflexivity.
    - cbn [skipn]. rewrite IH, bytes_bits_cons.
      rewrite skipn_app, bits_of_length.
      rewrite (skipn_all2 (bits_of 8 b)) by (rewrite bits_of_length; lia).
      cbn [app]. f_equal. lia.
  Qed.

  (** The bytes taken from the wrapped reader, given the bits left. *)
  Lemma bits_left_reader l bs w bits' : bytes_ok l -> bytes_bits l = w ++ bits' ->
    R bs bits' -> D (bs_reader bs) (skipn ((length w + 7) / 8) l).
  Proof.
    intros Hb Hw (n & d & l2 & Hn & Hd & Hbl & Hda & Hbits & HD & Hb2 & Hl).
    assert (length (bytes_bits l) = 8 * length l)%nat as E1 by apply bytes_bits_length.
    assert (length (bytes_bits l2) = 8 * length l2)%nat as E2 by apply bytes_bits_length.
    assert (8 * length l = length w + n + 8 * length l2)%nat as E3.
    { rewrite <- E1, Hw, Hbits, !app_length, bits_of_length, E2. lia. }
    assert (((length w + 7) / 8)%nat = (length l - length l2)%nat) as E4.
    { assert (length w + 7 = (length l - length l2) * 8 + (7 - n))%nat as -> by lia.
      rewrite Nat.div_add_l by lia. rewrite Nat.div_small by lia. lia. }
    rewrite E4.
    assert (l2 = skipn (length l - length l2) l) as <-; [|exact HD].
    apply bytes_bits_inj; auto; [apply Forall_skipn, Hb|].
    rewrite bytes_bits_skipn, Hw, Hbits.
    replace (8 * (length l - length l2))%nat with (length w + n)%nat by lia.
    rewrite skipn_app, skipn_all2 by lia. cbn [app].
    rewrite skipn_app, skipn_all2 by (rewrite bits_of_length; lia).
    rewrite bits_of_length. cbn [app].
    replace (length w + n - length w - n)%nat with 0%nat by lia. reflexivity.
  Qed.

  (** How far the wrapped reader is after successful reads. *)
  Theorem bit_history_reader ops st l : D st l -> (length l < fuel)%nat ->
    counts_fit t ops (bytes_bits l) -> Forall legal_bit_op ops ->
    let (rs, bs) := history (run_bit_op rb m fuel) ops (bs_new st) in
    Forall succeeded rs ->
    exists w, bytes_bits l = w ++ snd (history (spec_bit_op t) ops (bytes_bits l))
      /\ D (bs_reader bs) (skipn ((length w + 7) / 8) l).
  Proof.
    intros HD Hf Hz Hl. destruct (bit_history ops st l HD Hf Hz Hl) as [H1 H2].
    destruct (history (run_bit_op rb m fuel) ops (bs_new st)) as [rs bs]. cbn [fst snd] in *.
    intros HF. rewrite H1 in HF. destruct (history_suffix ops _ HF) as [w Hw].
    exists w. split; [exact Hw|].
    apply (bits_left_reader l bs w (snd (history (spec_bit_op t) ops (bytes_bits l)))); auto.
    apply (st_bytes _ _ _ HS st l HD).
  Qed.

  (** Unary after any successful reads. *)
  Theorem unary_anywhere ops1 ops2 st l q r : D st l -> (length l < fuel)%nat ->
    counts_fit t (ops1 ++ OpUnary :: ops2) (bytes_bits l) ->
    Forall legal_bit_op (ops1 ++ OpUnary :: ops2) ->
    Forall succeeded (fst (history (spec_bit_op t) ops1 (bytes_bits l))) ->
    snd (history (spec_bit_op t) ops1 (bytes_bits l)) = unary q ++ r -> 0 <= q ->
    fst (history (run_bit_op rb m fuel) (ops1 ++ OpUnary :: ops2) (bs_new st))
    = fst (history (spec_bit_op t) ops1 (bytes_bits l))
      ++ Ok q :: fst (history (spec_bit_op t) ops2 r).
  Proof.
    intros HD Hf Hz Hl HF Hr Hq.
    destruct (bit_history _ st l HD Hf Hz Hl) as [-> _].
    destruct (history (spec_bit_op t) ops1 (bytes_bits l)) as [rs bits'] eqn:E.
    cbn [fst snd] in *. rewrite (history_app _ _ _ _ _ _ E HF). cbn [fst]. f_equal.
    subst bits'. cbn [history].
    assert (spec_bit_op t OpUnary (unary q ++ r) = (Ok q, r)) as ->.
    { cbn [spec_bit_op]. rewrite leading_zeros_split, unary_split_app by lia. reflexivity. }
    destruct (history (spec_bit_op t) ops2 r). reflexivity.
  Qed.
End Bits.
