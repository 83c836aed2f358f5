(** The bitstream reads the bits of the underlying bytes. *)
From Verif Require Export SpecBits ProofReader.

(** * Finite sweeps *)

Definition zrange (n : nat) : list Z := map Z.of_nat (seq 0 n).
Lemma sweep (n : nat) (P : Z -> bool) :
  forallb P (zrange n) = true -> forall x, 0 <= x < Z.of_nat n -> P x = true.
Proof.
  intros H x Hx. rewrite forallb_forall in H. apply H.
  unfold zrange. apply in_map_iff. exists (Z.to_nat x). split; [lia|].
  apply in_seq. lia.
Qed.

(** * Lists of bits *)

Lemma skipn_skipn {A} a b (l : list A) : skipn a (skipn b l) = skipn (b + a) l.
Proof.
  revert l. induction b as [|b IH]; intros l; [reflexivity|].
  destruct l; [destruct a; reflexivity|]. apply IH.
Qed.

Lemma bits_of_length n v : length (bits_of n v) = n.
Proof. induction n; cbn [bits_of length]; congruence. Qed.

Lemma bits_of_mod n v k : (n <= k)%nat -> bits_of n (v mod 2 ^ Z.of_nat k) = bits_of n v.
Proof.
  intros H. induction n as [|n IH]; [reflexivity|]. cbn [bits_of].
  rewrite Z.mod_pow2_bits_low by lia. rewrite IH by lia. reflexivity.
Qed.

Lemma bits_of_app n k a b : 0 <= b < 2 ^ Z.of_nat k ->
  bits_of (n + k) (a * 2 ^ Z.of_nat k + b) = bits_of n a ++ bits_of k b.
Proof.
  intros Hb. induction n as [|n IH]; cbn [bits_of Nat.add app].
  - rewrite <- (bits_of_mod k _ k) by lia. f_equal.
    rewrite Z.add_comm, Z_mod_plus_full. apply Z.mod_small; lia.
  - rewrite <- IH. f_equal.
    rewrite <- lor_add by lia. rewrite Z.lor_spec.
    replace (Z.of_nat (n + k)) with (Z.of_nat k + Z.of_nat n) by lia.
    rewrite (Z.mul_pow2_bits_add a (Z.of_nat k) (Z.of_nat n)) by lia.
    destruct (Z.eq_dec b 0) as [->|Hnz]; [rewrite Z.bits_0; apply orb_false_r|].
    rewrite (Z.bits_above_log2 b); [apply orb_false_r|lia|].
    assert (Z.log2 b < Z.of_nat k) by (apply Z.log2_lt_pow2; lia). lia.
Qed.

Lemma be_value_acc l a :
  fold_left (fun a b => 2 * a + Z.b2z b) l a = a * 2 ^ len l + be_value l.
Proof.
  unfold be_value. revert a. induction l as [|b l IH]; intros a; cbn [fold_left].
  - unfold len; cbn. lia.
  - rewrite IH. rewrite (IH (2 * 0 + Z.b2z b)). rewrite len_cons.
    rewrite Z.pow_add_r by (try apply len_nonneg; lia). lia.
Qed.

Lemma be_value_cons b l : be_value (b :: l) = Z.b2z b * 2 ^ len l + be_value l.
Proof.
  unfold be_value at 1. cbn [fold_left]. rewrite be_value_acc. lia.
Qed.

Lemma be_value_app l r : be_value (l ++ r) = be_value l * 2 ^ len r + be_value r.
Proof. unfold be_value at 1. rewrite fold_left_app. apply be_value_acc. Qed.

Lemma be_value_range l : 0 <= be_value l < 2 ^ len l.
Proof.
  induction l as [|b l IH]; [cbn; lia|].
  rewrite be_value_cons, len_cons.
  rewrite Z.pow_add_r by (try apply len_nonneg; lia).
  destruct b; cbn [Z.b2z]; lia.
Qed.

Lemma be_value_bits_of n v : be_value (bits_of n v) = v mod 2 ^ Z.of_nat n.
Proof.
  induction n as [|n IH]; cbn [bits_of]; [cbn; rewrite Z.mod_1_r; reflexivity|].
  rewrite be_value_cons, IH. unfold len. rewrite bits_of_length.
  apply Z.bits_inj'; intros i Hi.
  pose proof (Z.mod_pos_bound v (2 ^ Z.of_nat n) ltac:(lia)).
  rewrite <- lor_add by lia. rewrite Z.lor_spec.
  rewrite <- Z.shiftl_mul_pow2 by lia.
  rewrite Z.shiftl_spec by lia.
  destruct (Z.ltb_spec i (Z.of_nat n)).
  - rewrite Z.testbit_neg_r by lia. cbn [orb].
    rewrite !Z.mod_pow2_bits_low by lia. reflexivity.
  - rewrite (Z.mod_pow2_bits_high v (Z.of_nat n)) by lia. rewrite orb_false_r.
    destruct (Z.eq_dec i (Z.of_nat n)) as [->|].
    + rewrite Z.mod_pow2_bits_low by lia. rewrite Z.sub_diag.
      apply Z.b2z_bit0.
    + rewrite Z.mod_pow2_bits_high by lia.
      destruct (Z.testbit v (Z.of_nat n)); cbn [Z.b2z].
      * apply Z.bits_above_log2; [lia|]. cbn. lia.
      * apply Z.bits_0.
Qed.

Lemma be_value_bits_of_id n v : 0 <= v < 2 ^ Z.of_nat n -> be_value (bits_of n v) = v.
Proof. intros. rewrite be_value_bits_of. apply Z.mod_small; lia. Qed.

Lemma bits_of_be_value l : bits_of (length l) (be_value l) = l.
Proof.
  induction l as [|b l IH]; [reflexivity|].
  rewrite be_value_cons. cbn [length].
  change (S (length l)) with (1 + length l)%nat.
  unfold len. rewrite bits_of_app.
  - rewrite IH. destruct b; reflexivity.
  - apply be_value_range.
Qed.

Lemma bits_of_inj n a b : 0 <= a < 2 ^ Z.of_nat n -> 0 <= b < 2 ^ Z.of_nat n ->
  bits_of n a = bits_of n b -> a = b.
Proof.
  intros Ha Hb H. rewrite <- (be_value_bits_of_id n a), <- (be_value_bits_of_id n b) by lia.
  congruence.
Qed.

Lemma bytes_bits_cons b l : bytes_bits (b :: l) = bits_of 8 b ++ bytes_bits l.
Proof. reflexivity. Qed.
Lemma bytes_bits_app l r : bytes_bits (l ++ r) = bytes_bits l ++ bytes_bits r.
Proof. apply flat_map_app. Qed.
Lemma bytes_bits_length l : length (bytes_bits l) = (8 * length l)%nat.
Proof.
  induction l as [|b l IH]; [reflexivity|].
  rewrite bytes_bits_cons, app_length, bits_of_length, IH. cbn [length]. lia.
Qed.
Lemma bytes_bits_inj l r : bytes_ok l -> bytes_ok r -> bytes_bits l = bytes_bits r -> l = r.
Proof.
  intros Hl. revert r. induction Hl as [|a l Ha Hl IH]; intros r Hr E.
  - destruct r; [reflexivity|]. apply (f_equal (@length bool)) in E.
    rewrite bytes_bits_length in E. cbn in E. discriminate.
  - destruct Hr as [|b r Hb Hr].
    + apply (f_equal (@length bool)) in E. rewrite bytes_bits_length in E. discriminate.
    + rewrite !bytes_bits_cons in E.
      apply app_inj_pair2 in E || idtac.
      assert (bits_of 8 a = bits_of 8 b /\ bytes_bits l = bytes_bits r) as [E1 E2].
      { split.
        - apply (f_equal (firstn 8)) in E.
          rewrite !firstn_app, !firstn_all2, !bits_of_length in E
            by (rewrite bits_of_length; lia).
          cbn [Nat.sub firstn] in E. rewrite !app_nil_r in E. exact E.
        - apply (f_equal (skipn 8)) in E.
          rewrite !skipn_app, !skipn_all2, !bits_of_length in E
            by (rewrite bits_of_length; lia).
          exact E. }
      f_equal; [|auto].
      apply bits_of_inj with 8%nat; unfold is_byte in *; cbn; lia || assumption.
Qed.

(** * Reading from a list of bits *)

Section BitList.
  Context (t : tail) (m : build).

  Definition bl_bits (n : nat) : M (list bool) Z := fun l =>
    if (n <=? length l)%nat then (Ok (be_value (firstn n l)), skipn n l)
    else (Err (tail_error t), []).

  Definition bl_bit : M (list bool) bool := fun l =>
    match l with
    | b :: r => (Ok b, r)
    | [] => (Err (tail_error t), [])
    end.

  Fixpoint unary_split (l : list bool) : Z * option (list bool) :=
    match l with
    | [] => (0, None)
    | true :: r => (0, Some r)
    | false :: r => let (z, o) := unary_split r in (z + 1, o)
    end.

  (** Exact, including the overflow of the [u32] count. *)
  Definition bl_unary : M (list bool) Z := fun l =>
    let (z, o) := unary_split l in
    if match m with Debug => 2 ^ 32 <=? z | Release => false end
    then (Panic "attempt to perform arithmetic with overflow", [])
    else match o with
         | Some r => (Ok (u32 z), r)
         | None => (Err (tail_error t), [])
         end.
End BitList.

Lemma bl_bits_app t n v r : 0 <= v < 2 ^ Z.of_nat n ->
  bl_bits t n (bits_of n v ++ r) = (Ok v, r).
Proof.
  intros H. unfold bl_bits. rewrite app_length, bits_of_length.
  destruct (Nat.leb_spec n (n + length r)); [|lia].
  rewrite firstn_app, skipn_app, bits_of_length, Nat.sub_diag.
  rewrite firstn_all2, skipn_all2 by (rewrite bits_of_length; lia).
  cbn. rewrite app_nil_r, be_value_bits_of_id by lia. reflexivity.
Qed.

Lemma bl_bits_inv t n l v r : bl_bits t n l = (Ok v, r) ->
  l = bits_of n v ++ r /\ 0 <= v < 2 ^ Z.of_nat n.
Proof.
  unfold bl_bits. destruct (Nat.leb_spec n (length l)) as [H|H]; [|discriminate].
  intros E; injection E as <- <-.
  assert (length (firstn n l) = n) as Hn by (rewrite firstn_length; lia).
  pose proof (be_value_range (firstn n l)) as Hr. unfold len in Hr.
  split; [|rewrite Hn in Hr; exact Hr].
  rewrite <- Hn at 1. rewrite bits_of_be_value, firstn_skipn. reflexivity.
Qed.

Lemma bl_bits_0 t l : bl_bits t 0 l = (Ok 0, l).
Proof. reflexivity. Qed.

(** Reading in two parts *)
Lemma bl_bits_split t a b l :
  bl_bits t (a + b) l
  = (x <- bl_bits t a ;; y <- bl_bits t b ;; ret (x * 2 ^ Z.of_nat b + y)) l.
Proof.
  unfold bind, ret, bl_bits at 2.
  destruct (Nat.leb_spec a (length l)) as [H|H].
  - unfold bl_bits. rewrite skipn_length.
    destruct (Nat.leb_spec (a + b) (length l)), (Nat.leb_spec b (length l - a)); try lia.
    + rewrite <- (firstn_skipn a l) at 1.
      rewrite firstn_app, firstn_length, (firstn_all2 (firstn a l))
        by (rewrite firstn_length; lia).
      replace (a + b - Nat.min a (length l))%nat with b by lia.
      rewrite be_value_app. f_equal.
      * do 4 f_equal. unfold len. rewrite firstn_length, skipn_length. f_equal. lia.
      * rewrite skipn_skipn. reflexivity.
    + reflexivity.
  - unfold bl_bits. destruct (Nat.leb_spec (a + b) (length l)); [lia|]. reflexivity.
Qed.

Lemma unary_split_app q r : 0 <= q -> unary_split (unary q ++ r) = (q, Some r).
Proof.
  intros Hq. unfold unary. rewrite <- (Z2Nat.id q) at 2 by lia.
  generalize (Z.to_nat q); intros n. clear. induction n as [|n IH]; [reflexivity|].
  cbn [repeat app unary_split]. rewrite IH. f_equal. lia.
Qed.

Lemma unary_split_some l z r : unary_split l = (z, Some r) -> l = unary z ++ r /\ 0 <= z.
Proof.
  revert z r. induction l as [|[] l IH]; intros z r; cbn [unary_split].
  - discriminate.
  - intros E; injection E as <- <-. split; [reflexivity|lia].
  - destruct (unary_split l) as [z' o]. intros E; injection E as <- ->.
    destruct (IH z' r eq_refl) as [-> Hz]. split; [|lia].
    unfold unary. replace (Z.to_nat (z' + 1)) with (S (Z.to_nat z')) by lia. reflexivity.
Qed.

Lemma unary_split_nonneg l : 0 <= fst (unary_split l).
Proof.
  induction l as [|[] l IH]; cbn [unary_split fst]; try lia.
  destruct (unary_split l); cbn in *; lia.
Qed.

Lemma unary_split_none l z : unary_split l = (z, None) -> l = repeat false (Z.to_nat z) /\ 0 <= z.
Proof.
  revert z. induction l as [|[] l IH]; intros z; cbn [unary_split].
  - intros E; injection E as <-. split; [reflexivity|lia].
  - discriminate.
  - destruct (unary_split l) as [z' o]. intros E; injection E as <- ->.
    destruct (IH z' eq_refl) as [-> Hz]. split; [|lia].
    replace (Z.to_nat (z' + 1)) with (S (Z.to_nat z')) by lia.
    cbn [repeat]. rewrite Z2Nat.id || idtac. reflexivity.
Qed.

Lemma bl_unary_app t m q r : 0 <= q < 2 ^ 32 -> bl_unary t m (unary q ++ r) = (Ok q, r).
Proof.
  intros H. unfold bl_unary. rewrite unary_split_app by lia.
  replace (match m with Debug => 2 ^ 32 <=? q | Release => false end) with false
    by (destruct m; lia).
  rewrite u32_id by lia. reflexivity.
Qed.

(** * Masks and shifts on bytes *)

Lemma mask_u8_ok m k : 0 <= k <= 8 -> mask_u8 m k = Ok (256 - 2 ^ (8 - k)).
Proof.
  intros H. assert (0 <= k < Z.of_nat 9) as Hk by lia.
  pose (P := fun k => match mask_u8 m k with Ok x => x =? 256 - 2 ^ (8 - k) | _ => false end).
  enough (P k = true) as HP.
  { unfold P in HP. destruct (mask_u8 m k); try discriminate. f_equal; lia. }
  revert k H Hk. intros k _ Hk. revert k Hk. apply (sweep 9).
  destruct m; vm_compute; reflexivity.
Qed.

Lemma land_mask f k : 0 <= f < 256 -> 0 <= k <= 8 ->
  Z.land f (256 - 2 ^ (8 - k)) = f / 2 ^ (8 - k) * 2 ^ (8 - k).
Proof.
  intros Hf Hk.
  enough (forallb (fun k => Z.land f (256 - 2 ^ (8 - k)) =? f / 2 ^ (8 - k) * 2 ^ (8 - k))
            (zrange 9) = true) as H.
  { assert (0 <= k < Z.of_nat 9) as Hk' by lia. pose proof (sweep 9 _ H k Hk'). lia. }
  assert (0 <= f < Z.of_nat 256) as Hf' by lia. revert f Hf Hf'. intros f _. revert f.
  apply (sweep 256). vm_compute. reflexivity.
Qed.

Lemma shift_left_ok m x s : 0 <= s <= 8 -> shift_left m x s = Ok (u8 (x * 2 ^ s)).
Proof.
  intros H. unfold shift_left. rewrite debug_assert_ok by lia. cbn [obind].
  rewrite shl_ok by lia. cbn [obind]. f_equal. unfold u8, u32.
  change (2 ^ 32) with (2 ^ 8 * 2 ^ 24).
  symmetry. apply Znumtheory.Zmod_div_mod; try lia. exists (2 ^ 24). lia.
Qed.

Lemma shift_right_ok m x s : 0 <= s <= 8 -> shift_right m x s = Ok (u8 (x / 2 ^ s)).
Proof.
  intros H. unfold shift_right. rewrite debug_assert_ok by lia. cbn [obind].
  rewrite shr_ok by lia. reflexivity.
Qed.

Lemma u8_shift f s : 0 <= s <= 8 -> u8 (f * 2 ^ s) = (f mod 2 ^ (8 - s)) * 2 ^ s.
Proof.
  intros H. unfold u8. replace 8 with ((8 - s) + s) at 1 by lia.
  rewrite Z.pow_add_r by lia. apply Z.mul_mod_distr_r; lia.
Qed.

Lemma pow2_pos k : 0 <= k -> 0 < 2 ^ k.
Proof. intros; apply Z.pow_pos_nonneg; lia. Qed.

Lemma lor_add_u8 a b k : 0 <= k -> 0 <= b < 2 ^ k ->
  Z.lor (a * 2 ^ k) b = a * 2 ^ k + b.
Proof. apply lor_add. Qed.

(** * The refinement *)

(** The bits a bitstream on a flat reader will deliver; [fuel] bounds the
    remaining bytes. *)
Definition bitsrel (fuel : nat) (st : bitstream (list Z)) (bits : list bool) : Prop :=
  exists n d, (n <= 7)%nat /\ 0 <= d < 2 ^ Z.of_nat n
    /\ bs_bits_left st = Z.of_nat n /\ bs_data st = d * 2 ^ (8 - Z.of_nat n)
    /\ bits = bits_of n d ++ bytes_bits (bs_reader st)
    /\ bytes_ok (bs_reader st) /\ (length (bs_reader st) < fuel)%nat.

Section Refine.
  Context (t : tail) (m : build) (fuel : nat).
  Notation rb := (fl_rb t).
  Notation R := (bitsrel fuel).

  Lemma bits_not_ours k l e : fst (bl_bits t k l) = Err e -> ~ ours e.
  Proof. unfold bl_bits. destruct (_ <=? _)%nat; intros [= <-] Ho. exact (tail_not_ours _ Ho). Qed.
  Lemma bit_not_ours l e : fst (bl_bit t l) = Err e -> ~ ours e.
  Proof. destruct l; intros [= <-] Ho. exact (tail_not_ours _ Ho). Qed.
  Lemma unary_not_ours l e : fst (bl_unary t m l) = Err e -> ~ ours e.
  Proof.
    unfold bl_unary. destruct (unary_split l) as [z [r|]]; destruct (match m with Debug => _ | Release => _ end);
      intros [= <-] Ho. exact (tail_not_ours _ Ho).
  Qed.

  (** A run whose result is given. *)
  Lemma sim_run {A} (c : M (bitstream (list Z)) A) (c' : M (list bool) A) :
    (forall n d l, (n <= 7)%nat -> 0 <= d < 2 ^ Z.of_nat n -> bytes_ok l ->
       (length l < fuel)%nat ->
       exists st', c (mkBS l (d * 2 ^ (8 - Z.of_nat n)) (Z.of_nat n))
         = (fst (c' (bits_of n d ++ bytes_bits l)), st')
         /\ (forall a, fst (c' (bits_of n d ++ bytes_bits l)) = Ok a ->
               R st' (snd (c' (bits_of n d ++ bytes_bits l))))) ->
    (forall l e, fst (c' l) = Err e -> ~ ours e) ->
    sim no_esc R eq c c'.
  Proof.
    intros H HE st bits (n & d & Hn & Hd & Hbl & Hda & -> & Hok & Hl).
    destruct st as [l data bl]; cbn [bs_bits_left bs_data bs_reader] in *. subst.
    destruct (H n d l Hn Hd Hok Hl) as (st' & E & HR). rewrite E. cbn [fst snd].
    destruct (fst (c' _)) eqn:E'; eauto. right. split; [reflexivity|]. intros Ho. destruct (HE _ _ E' Ho).
  Qed.

  Lemma bs_read_u8_nil data bl :
    bs_read_u8 rb (mkBS [] data bl) = (Err (tail_error t), mkBS [] data bl).
  Proof. reflexivity. Qed.
  Lemma bs_read_u8_cons b l data bl :
    bs_read_u8 rb (mkBS (b :: l) data bl) = (Ok b, mkBS l data bl).
  Proof. reflexivity. Qed.

  Lemma R_intro n d l data bits : (n <= 7)%nat -> 0 <= d < 2 ^ Z.of_nat n ->
    bytes_ok l -> (length l < fuel)%nat -> data = d * 2 ^ (8 - Z.of_nat n) ->
    bits = bits_of n d ++ bytes_bits l ->
    R (mkBS l data (Z.of_nat n)) bits.
  Proof. intros. exists n, d. cbn. auto 10. Qed.

  Lemma bind_run {S A B} (c : M S A) (f : A -> M S B) s a s' :
    c s = (Ok a, s') -> bind c f s = f a s'.
  Proof. intros H. unfold bind. rewrite H. reflexivity. Qed.
  Lemma bind_err {S A B} (c : M S A) (f : A -> M S B) s e s' :
    c s = (Err e, s') -> bind c f s = (Err e, s').
  Proof. intros H. unfold bind. rewrite H. reflexivity. Qed.

  Ltac step := first
    [ rewrite bind_get
    | rewrite bind_lift_ok
    | erewrite bind_run by reflexivity ].

  (** *** [read_leq_u8] *)
  Lemma read_leq_u8_sim k : (k <= 8)%nat ->
    sim no_esc R eq (read_leq_u8 rb m (Z.of_nat k)) (bl_bits t k).
  Proof.
    intros Hk. apply sim_run; [|apply bits_not_ours]. intros n d l Hn Hd Hok Hl.
    pose proof (pow2_pos (Z.of_nat n) ltac:(lia)).
    unfold read_leq_u8. rewrite debug_assert_ok by lia. rewrite bind_lift_ok, bind_get.
    cbn [bs_bits_left bs_data bs_reader].
    (* the tail of the function *)
    match goal with |- exists _, bind _ ?k _ = _ /\ _ => set (K := k) end.
    assert (forall v n' d' l' data, (n' <= 7)%nat -> 0 <= d' < 2 ^ Z.of_nat n' ->
              data = d' * 2 ^ (8 - Z.of_nat n') -> 0 <= v < 2 ^ Z.of_nat k ->
              forall w, w / 2 ^ (8 - Z.of_nat k) = v ->
              K w (mkBS l' data (Z.of_nat n')) = (Ok v, mkBS l' data (Z.of_nat n'))) as HK.
    { intros v n' d' l' data Hn' Hd' -> Hv w Hw. unfold K.
      rewrite bind_get. cbn [bs_bits_left bs_data bs_reader].
      rewrite debug_assert_ok by lia. rewrite bind_lift_ok.
      assert (forall s : bitstream (list Z),
        (match m with
         | Debug => mask <- lift (mask_u8 m (Z.of_nat n')) ;;
             lift (debug_assert m (Z.land (d' * 2 ^ (8 - Z.of_nat n')) (255 - mask) =? 0))
         | Release => ret tt end) s = (Ok tt, s)) as HD.
      { intros s. destruct m; [|reflexivity].
        rewrite mask_u8_ok by lia. rewrite bind_lift_ok.
        replace (255 - _) with (2 ^ (8 - Z.of_nat n') - 1) by lia.
        rewrite land_low by lia. rewrite Z.mod_mul by lia. reflexivity. }
      rewrite (bind_run _ _ _ _ _ (HD _)). rewrite chk_u32 by lia. rewrite bind_lift_ok.
      rewrite shift_right_ok by lia. unfold lift. rewrite Hw. f_equal. f_equal.
      apply u8_id. split; [lia|]. apply Z.lt_le_trans with (2 ^ Z.of_nat k); [lia|].
      change 256 with (2 ^ 8). apply Z.pow_le_mono_r; lia. }
    destruct (Z.ltb_spec (Z.of_nat n) (Z.of_nat k)) as [Hlt|Hge].
    - (* a fresh byte is needed *)
      rewrite !bind_assoc.
      destruct l as [|f l].
      + rewrite (bind_err _ _ _ _ _ (bs_read_u8_nil _ _)).
        eexists. unfold bl_bits. cbn [bytes_bits flat_map]. rewrite app_nil_r, bits_of_length.
        destruct (Nat.leb_spec k n); [lia|]. cbn [fst]. split; [reflexivity|discriminate].
      + inversion Hok as [|? ? Hf Hok']; subst. unfold is_byte in Hf.
        rewrite (bind_run _ _ _ _ _ (bs_read_u8_cons _ _ _ _)). rewrite !bind_assoc.
        unfold bs_set at 1. erewrite bind_run by reflexivity. cbn [bs_reader].
        rewrite !bind_assoc. rewrite chk_u32 by lia. rewrite bind_lift_ok.
        rewrite !bind_assoc. rewrite mask_u8_ok by lia. rewrite bind_lift_ok.
        rewrite !bind_assoc. rewrite land_mask by lia.
        rewrite shr_ok by lia. rewrite bind_lift_ok.
        rewrite !bind_assoc. rewrite shift_left_ok by lia. rewrite bind_lift_ok.
        rewrite !bind_assoc. rewrite chk_u32 by lia. rewrite bind_lift_ok.
        rewrite !bind_assoc. unfold bs_set at 1. erewrite bind_run by reflexivity.
        erewrite bind_run by reflexivity. cbn [bs_reader].
        set (need := Z.of_nat k - Z.of_nat n) in *.
        pose (f1 := f / 2 ^ (8 - need)). pose (f2 := f mod 2 ^ (8 - need)).
        fold f1.
        assert (f = f1 * 2 ^ (8 - need) + f2) as Ef
          by (unfold f1, f2; pose proof (Z.div_mod f (2 ^ (8 - need)) ltac:(pose proof (pow2_pos (8 - need) ltac:(lia)); lia)); lia).
        assert (0 <= f2 < 2 ^ (8 - need)) as Hf2
          by (apply Z.mod_pos_bound, pow2_pos; lia).
        assert (0 <= f1 < 2 ^ need) as Hf1.
        { unfold f1. split; [apply Z.div_pos; [lia|apply pow2_pos; lia]|].
          apply Z.div_lt_upper_bound; [apply pow2_pos; lia|].
          rewrite <- Z.pow_add_r by lia. replace (8 - need + need) with 8 by lia. lia. }
        assert (bl_bits t k (bits_of n d ++ bytes_bits (f :: l))
                = (Ok (d * 2 ^ need + f1), bits_of (Z.to_nat (8 - need)) f2 ++ bytes_bits l)) as EB.
        { rewrite bytes_bits_cons. rewrite Ef.
          replace 8%nat with (Z.to_nat need + Z.to_nat (8 - need))%nat by lia.
          replace (8 - need) with (Z.of_nat (Z.to_nat (8 - need))) at 2 by lia.
          rewrite bits_of_app by (rewrite Z2Nat.id by lia; exact Hf2).
          rewrite <- (app_assoc (bits_of (Z.to_nat need) f1)), app_assoc.
          rewrite <- bits_of_app by (rewrite Z2Nat.id by lia; exact Hf1).
          replace (n + Z.to_nat need)%nat with k by lia.
          rewrite bl_bits_app; [rewrite Z2Nat.id by lia; reflexivity|].
          rewrite Z2Nat.id by lia.
          assert (2 ^ Z.of_nat k = 2 ^ Z.of_nat n * 2 ^ need)
            by (rewrite <- Z.pow_add_r by lia; f_equal; lia).
          nia. }
        rewrite EB. cbn [fst snd].
        replace (8 - need) with (Z.of_nat (Z.to_nat (8 - need))) by lia.
        erewrite HK with (d' := f2).
        * eexists; split; [reflexivity|]. intros _ _.
          apply R_intro with (d := f2); try (cbn [length] in Hl; lia); auto.
          -- rewrite Z2Nat.id by lia. exact Hf2.
          -- rewrite u8_shift by lia. fold f2. f_equal. f_equal. lia.
          -- rewrite Nat2Z.id. reflexivity.
        * lia.
        * rewrite Z2Nat.id by lia. exact Hf2.
        * rewrite u8_shift by lia. fold f2. f_equal. f_equal. lia.
        * assert (2 ^ Z.of_nat k = 2 ^ Z.of_nat n * 2 ^ need)
            by (rewrite <- Z.pow_add_r by lia; f_equal; lia). nia.
        * rewrite Z2Nat.id by lia.
          assert (f1 * 2 ^ (8 - need) / 2 ^ Z.of_nat n = f1 * 2 ^ (8 - Z.of_nat k)) as ->.
          { replace (8 - need) with (8 - Z.of_nat k + Z.of_nat n) by lia.
            rewrite Z.pow_add_r by lia. rewrite Z.mul_assoc. apply Z.div_mul; lia. }
          rewrite lor_add_u8.
          -- replace (8 - Z.of_nat n) with (need + (8 - Z.of_nat k)) by lia.
             rewrite Z.pow_add_r by lia. rewrite Z.mul_assoc, <- Z.mul_add_distr_r.
             apply Z.div_mul. pose proof (pow2_pos (8 - Z.of_nat k) ltac:(lia)). lia.
          -- lia.
          -- replace (8 - Z.of_nat n) with (need + (8 - Z.of_nat k)) by lia.
             rewrite Z.pow_add_r by lia.
             pose proof (pow2_pos (8 - Z.of_nat k) ltac:(lia)). nia.
    - rewrite !bind_assoc. rewrite mask_u8_ok by lia. rewrite bind_lift_ok.
      rewrite !bind_assoc.
      pose (f1 := d / 2 ^ Z.of_nat (n - k)). pose (f2 := d mod 2 ^ Z.of_nat (n - k)).
      pose proof (pow2_pos (Z.of_nat (n - k)) ltac:(lia)).
      assert (d = f1 * 2 ^ Z.of_nat (n - k) + f2) as Ef
        by (unfold f1, f2; pose proof (Z.div_mod d (2 ^ Z.of_nat (n - k)) ltac:(lia)); lia).
      assert (0 <= f2 < 2 ^ Z.of_nat (n - k)) as Hf2 by (apply Z.mod_pos_bound; lia).
      assert (2 ^ Z.of_nat n = 2 ^ Z.of_nat k * 2 ^ Z.of_nat (n - k)) as Ep
        by (rewrite <- Z.pow_add_r by lia; f_equal; lia).
      assert (0 <= f1 < 2 ^ Z.of_nat k) as Hf1 by nia.
      rewrite shl_ok by lia. rewrite bind_lift_ok. rewrite !bind_assoc.
      rewrite chk_u32 by lia. rewrite bind_lift_ok. rewrite !bind_assoc.
      unfold bs_set at 1. erewrite bind_run by reflexivity.
      erewrite bind_run by reflexivity. cbn [bs_reader].
      assert (bl_bits t k (bits_of n d ++ bytes_bits l)
              = (Ok f1, bits_of (n - k) f2 ++ bytes_bits l)) as EB.
      { rewrite Ef. replace n with (k + (n - k))%nat at 1 by lia.
        rewrite bits_of_app by lia. rewrite <- app_assoc. apply bl_bits_app; lia. }
      rewrite EB. cbn [fst snd].
      replace (Z.of_nat n - Z.of_nat k) with (Z.of_nat (n - k)) by lia.
      assert (u8 (d * 2 ^ (8 - Z.of_nat n) * 2 ^ Z.of_nat k) = f2 * 2 ^ (8 - Z.of_nat (n - k))) as Eu.
      { rewrite <- Z.mul_assoc, <- Z.pow_add_r by lia.
        replace (8 - Z.of_nat n + Z.of_nat k) with (8 - Z.of_nat (n - k)) by lia.
        rewrite u8_shift by lia. unfold f2. do 3 f_equal. lia. }
      rewrite Eu.
      erewrite HK with (d' := f2) (v := f1); try lia.
      + eexists; split; [reflexivity|]. intros _ _.
        apply R_intro with (d := f2); auto; lia.
      + assert (2 ^ 8 = 2 ^ Z.of_nat n * 2 ^ (8 - Z.of_nat n)) as E8
          by (rewrite <- Z.pow_add_r by lia; f_equal; lia).
        pose proof (pow2_pos (8 - Z.of_nat n) ltac:(lia)).
        pose proof (pow2_pos (8 - Z.of_nat k) ltac:(lia)).
        rewrite land_mask; [|change 256 with (2 ^ 8); nia|lia].
        rewrite Z.div_mul by lia.
        replace (8 - Z.of_nat k) with (Z.of_nat (n - k) + (8 - Z.of_nat n)) by lia.
        rewrite Z.pow_add_r by lia. rewrite Z.div_mul_cancel_r by lia. reflexivity.
  Qed.
End Refine.
