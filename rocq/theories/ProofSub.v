(** The subframe decoder as a parser of bits, without buffers. *)
From Verif Require Export SpecFlac ProofBits2.

Definition P := M (list bool).

Section Parsers.
  Context (t : tail) (m : build).

  Fixpoint p_repeat {A} (n : nat) (p : P A) : P (list A) :=
    match n with
    | O => ret []
    | S n' => x <- p ;; xs <- p_repeat n' p ;; ret (x :: xs)
    end.

  Definition p_rice (k : nat) : P Z :=
    q <- bl_unary t m ;;
    r <- bl_bits t k ;;
    ret (unfold_sign ((q * 2 ^ Z.of_nat k + r) mod 2 ^ 32)).

  Definition p_partition (pbits : nat) (n : nat) : P (list Z) :=
    k <- bl_bits t pbits ;;
    if k =? 2 ^ Z.of_nat pbits - 1
    then fail (Unsupported "unencoded binary is not yet implemented")
    else p_repeat n (p_rice (Z.to_nat k)).

  Fixpoint p_partitions (pbits : nat) (lens : list nat) : P (list Z) :=
    match lens with
    | [] => ret []
    | n :: lens' =>
        a <- p_partition pbits n ;;
        b <- p_partitions pbits lens' ;;
        ret (a ++ b)
    end.

  Definition p_residual (bs order : Z) : P (list Z) :=
    method <- bl_bits t 2 ;;
    pbits <- (if method =? 0 then ret 4%nat
              else if method =? 1 then ret 5%nat
              else fmt_err "invalid residual, encountered reserved value") ;;
    po <- bl_bits t 4 ;;
    if negb (bs mod 2 ^ po =? 0) then fmt_err "invalid partition order"
    else if bs / 2 ^ po <? order then fmt_err "invalid residual"
    else p_partitions pbits
           (Z.to_nat (bs / 2 ^ po - order)
            :: repeat (Z.to_nat (bs / 2 ^ po)) (Z.to_nat (2 ^ po - 1))).

  (** A signed number of [k] bits. *)
  Definition p_signed (k : Z) : P Z :=
    x <- bl_bits t (Z.to_nat k) ;; ret (signed k x).

  Definition p_fixed (bps order : Z) (n : nat) : P (list Z) :=
    if Z.of_nat n <? order
    then fmt_err "invalid fixed subframe, order is larger than block size"
    else
      warm <- p_repeat (Z.to_nat order) (p_signed bps) ;;
      rs <- p_residual (Z.of_nat n) order ;;
      ret (warm ++ restore (fixed_predict order) (rev warm) rs).

  Definition p_lpc (bps order : Z) (n : nat) : P (list Z) :=
    if Z.of_nat n <? order
    then fmt_err "invalid LPC subframe, lpc order is larger than block size"
    else
      warm <- p_repeat (Z.to_nat order) (p_signed bps) ;;
      p <- bl_bits t 4 ;;
      if p =? 15 then fmt_err "invalid subframe, qlp precision value invalid"
      else
        shift <- p_signed 5 ;;
        if shift <? 0
        then fail (Unsupported "a negative quantized linear predictor coefficient shift is not supported, please file a bug.")
        else
          cs <- p_repeat (Z.to_nat order) (p_signed (p + 1)) ;;
          rs <- p_residual (Z.of_nat n) order ;;
          ret (warm ++ restore (lpc_predict cs shift) (rev warm) rs).

  Definition p_type : P coding :=
    n <- bl_bits t 6 ;;
    if n =? 0 then ret Constant
    else if n =? 1 then ret Verbatim
    else if (8 <=? n) && (n <=? 12) then ret (Fixed (n - 8))
    else if 32 <=? n then ret (Lpc (n - 31))
    else fmt_err "invalid subframe header, encountered reserved value".

  Definition p_wasted : P Z :=
    b <- bl_bit t ;;
    k <- (if (b : bool) then u <- bl_unary t m ;; lift (chk m u32 (1 + u)) else ret 0) ;;
    if 31 <? k then fmt_err "wasted bits per sample must not exceed 31" else ret k.

  Definition p_body (c : coding) (bps : Z) (n : nat) : P (list Z) :=
    match c with
    | Constant => v <- p_signed bps ;; ret (repeat v n)
    | Verbatim => p_repeat n (p_signed bps)
    | Fixed o => p_fixed bps o n
    | Lpc o => p_lpc bps o n
    end.

  Definition p_subframe (bps : Z) (n : nat) : P (list Z) :=
    pad <- bl_bit t ;;
    if (pad : bool) then fmt_err "invalid subframe header"
    else
      c <- p_type ;;
      k <- p_wasted ;;
      if bps <=? k then fmt_err "subframe has no non-wasted bits"
      else
        s <- p_body c (bps - k) n ;;
        ret (map (fun x => wrap32 (x * 2 ^ k)) s).
End Parsers.

(** * The decoder refines the parser *)

Definition isi32 (x : Z) : Prop := - 2 ^ 31 <= x < 2 ^ 31.

Lemma wrap32_i32 x : wrap32 x = i32 x.
Proof. reflexivity. Qed.
Lemma wrap32_range x : isi32 (wrap32 x).
Proof. apply i32_range. Qed.

Lemma signed_range n v : 1 <= n -> fits n (signed n v).
Proof.
  intros H. unfold fits, signed.
  assert (2 ^ n = 2 * 2 ^ (n - 1)) as E
    by (rewrite <- Z.pow_succ_r by lia; f_equal; lia).
  pose proof (pow2_pos (n - 1) ltac:(lia)).
  pose proof (Z.mod_pos_bound (v + 2 ^ (n - 1)) (2 ^ n) ltac:(lia)). lia.
Qed.

Lemma fits_i32 n v : 1 <= n <= 32 -> fits n v -> isi32 v.
Proof.
  intros H [H1 H2]. unfold isi32.
  assert (2 ^ (n - 1) <= 2 ^ 31) by (apply Z.pow_le_mono_r; lia). lia.
Qed.

(** [unfold_sign] is what the code computes. *)
Lemma rice_to_signed_ok u : 0 <= u < 2 ^ 32 ->
  rice_to_signed u = unfold_sign u /\ isi32 (unfold_sign u).
Proof.
  intros H. unfold rice_to_signed, unfold_sign, isi32.
  rewrite Z.shiftr_div_pow2 by lia. change (2 ^ 1) with 2.
  rewrite (i32_id (u / 2)) by lia.
  pose proof (Zeven_mod u) as Hm. rewrite Zeven_bool_iff || idtac.
  assert (u32 (Z.shiftl u 31) = (u mod 2) * 2 ^ 31) as E.
  { rewrite Z.shiftl_mul_pow2 by lia. unfold u32. change (2 ^ 32) with (2 * 2 ^ 31).
    apply Z.mul_mod_distr_r; lia. }
  rewrite E. rewrite Zmod_even. destruct (Z.even u) eqn:Ev.
  - cbn [Z.mul]. change (Z.shiftr (i32 0) 31) with 0. rewrite Z.lxor_0_r. split; lia.
  - change (Z.shiftr (i32 (1 * 2 ^ 31)) 31) with (-1).
    rewrite Z.lxor_m1_r. unfold Z.lnot. split; lia.
Qed.

(** Sign extension *)
Lemma extend_sign m val bits W wrapu wraps :
  (W = 16 /\ wrapu = u16 /\ wraps = i16 \/ W = 32 /\ wrapu = u32 /\ wraps = i32) ->
  1 <= bits <= W -> 0 <= val ->
  (s <~ chk m u32 (W - bits) ;; x <~ shl m wrapu W val s ;; shr m W (wraps x) s)
  = Ok (signed bits val).
Proof.
  intros HW Hb Hv.
  assert (wrapu = fun x => x mod 2 ^ W) as EU
    by (destruct HW as [(-> & -> & _)|(-> & -> & _)]; reflexivity).
  assert (wraps = signed W) as ES
    by (destruct HW as [(-> & _ & ->)|(-> & _ & ->)]; reflexivity).
  assert (W <= 32) as HW32 by lia.
  rewrite chk_u32 by lia. cbn [obind]. rewrite shl_ok by lia. cbn [obind].
  rewrite shr_ok by lia. f_equal. subst wrapu wraps. clear HW.
  assert (2 ^ W = 2 ^ bits * 2 ^ (W - bits)) as EW
    by (rewrite <- Z.pow_add_r by lia; f_equal; lia).
  assert (2 ^ (W - 1) = 2 ^ (bits - 1) * 2 ^ (W - bits)) as EW1
    by (rewrite <- Z.pow_add_r by lia; f_equal; lia).
  pose proof (pow2_pos (W - bits) ltac:(lia)). pose proof (pow2_pos bits ltac:(lia)).
  rewrite EW. rewrite Z.mul_mod_distr_r by lia.
  unfold signed. rewrite EW, EW1, <- Z.mul_add_distr_r, Z.mul_mod_distr_r by lia.
  rewrite <- Z.mul_sub_distr_r, Z.div_mul by lia.
  rewrite Z.add_mod_idemp_l by lia. reflexivity.
Qed.

Lemma extend_sign_u16_ok m val bits : 1 <= bits <= 16 -> 0 <= val ->
  extend_sign_u16 m val bits = Ok (signed bits val).
Proof. intros. apply (extend_sign m val bits 16 u16 i16); auto. Qed.
Lemma extend_sign_u32_ok m val bits : 1 <= bits <= 32 -> 0 <= val ->
  extend_sign_u32 m val bits = Ok (signed bits val).
Proof. intros. apply (extend_sign m val bits 32 u32 i32); auto. Qed.

Section Refine.
  Context (t : tail) (m : build) (fuel : nat).
  Notation rb := (fl_rb t).
  Notation R := (bitsrel fuel).
  Notation simE := (sim no_esc R eq).

  (** Equality of the results with a fact about them. *)
  Notation "c1 ~~ c2 | P" := (sim no_esc R (fun a b => a = b /\ P b) c1 c2)
    (at level 70, c2 at next level).

  Lemma sim_fact {A} (c1 : M (bitstream (list Z)) A) (c2 : M (list bool) A) (P : A -> Prop) :
    simE c1 c2 -> (forall s a s', c2 s = (Ok a, s') -> P a) -> c1 ~~ c2 | P.
  Proof.
    intros H HP s1 s2 HR. specialize (H s1 s2 HR).
    destruct (fst (c1 s1)); auto. destruct H as (b & E & -> & HR').
    exists b. repeat split; auto. apply (HP s2 b (snd (c2 s2))).
    rewrite (surjective_pairing (c2 s2)) at 1. congruence.
  Qed.

  Lemma sim_fact_bind {A B C} (c1 : M (bitstream (list Z)) A) c2 (P : A -> Prop)
      (Q : B -> C -> Prop) f1 f2 :
    c1 ~~ c2 | P -> (forall a, P a -> sim no_esc R Q (f1 a) (f2 a)) ->
    sim no_esc R Q (bind c1 f1) (bind c2 f2).
  Proof. intros Hc Hf. eapply sim_bind; [exact Hc|]. intros a ? [<- H]. auto. Qed.

  Lemma sim_weaken {A} (c1 : M (bitstream (list Z)) A) c2 (P : A -> Prop) :
    c1 ~~ c2 | P -> simE c1 c2.
  Proof. intros H. eapply sim_conseq; [| |exact H]; [auto|]. intros ? ? [? _]; auto. Qed.

  Lemma sim_ret_eq {A} (a b : A) : a = b -> simE (ret a) (ret b).
  Proof. intros ->. apply sim_ret. reflexivity. Qed.

  Lemma sim_ext_l {A B} (Q : A -> B -> Prop) (c1 d1 : M (bitstream (list Z)) A)
      (c2 : M (list bool) B) :
    (forall s, c1 s = d1 s) -> sim no_esc R Q d1 c2 -> sim no_esc R Q c1 c2.
  Proof. intros H1 H s1 s2 HR. rewrite H1. exact (H s1 s2 HR). Qed.

  Definition bits_range (k : nat) (v : Z) : Prop := 0 <= v < 2 ^ Z.of_nat k.

  Lemma bits_fact (c1 : M (bitstream (list Z)) Z) k :
    simE c1 (bl_bits t k) -> c1 ~~ bl_bits t k | bits_range k.
  Proof. intros H. apply sim_fact; [exact H|]. intros s a s' E. apply bl_bits_inv in E. apply E. Qed.

  Lemma leq_u8 k z : z = Z.of_nat k -> (k <= 8)%nat ->
    read_leq_u8 rb m z ~~ bl_bits t k | bits_range k.
  Proof. intros -> H. apply bits_fact, read_leq_u8_sim, H. Qed.
  Lemma leq_u16 k z : z = Z.of_nat k -> (k <= 16)%nat ->
    read_leq_u16 rb m z ~~ bl_bits t k | bits_range k.
  Proof. intros -> H. apply bits_fact, read_leq_u16_sim, H. Qed.
  Lemma leq_u32 k z : z = Z.of_nat k -> (k <= 32)%nat ->
    read_leq_u32 rb m z ~~ bl_bits t k | bits_range k.
  Proof. intros -> H. apply bits_fact, read_leq_u32_sim, H. Qed.

  Lemma bl_unary_range s a s' : bl_unary t m s = (Ok a, s') -> 0 <= a < 2 ^ 32.
  Proof.
    unfold bl_unary. destruct (unary_split s) as [z [r|]]; destruct m;
      try destruct (2 ^ 32 <=? z); intros E; inversion E; apply u32_range.
  Qed.
  Lemma unary_sim : read_unary rb m fuel ~~ bl_unary t m | (fun a => 0 <= a < 2 ^ 32).
  Proof. apply sim_fact; [apply read_unary_sim|apply bl_unary_range]. Qed.

  Lemma shl_lor q k r : 0 <= k <= 31 -> 0 <= r < 2 ^ k ->
    Z.lor (u32 (q * 2 ^ k)) r = (q * 2 ^ k + r) mod 2 ^ 32.
  Proof.
    intros Hk Hr. unfold u32.
    assert (2 ^ 32 = 2 ^ (32 - k) * 2 ^ k) as E
      by (rewrite <- Z.pow_add_r by lia; f_equal; lia).
    pose proof (pow2_pos k ltac:(lia)). pose proof (pow2_pos (32 - k) ltac:(lia)).
    rewrite E. rewrite Z.mul_mod_distr_r by lia. rewrite lor_add by lia.
    pose proof (Z.mod_pos_bound q (2 ^ (32 - k)) ltac:(lia)).
    apply Z.mod_unique_pos with (q / 2 ^ (32 - k)); [nia|].
    pose proof (Z.div_mod q (2 ^ (32 - k)) ltac:(lia)). nia.
  Qed.

  Lemma rice_tail q r k : 0 <= k <= 30 -> 0 <= r < 2 ^ k ->
    simE (hi <- lift (shl m u32 32 q k) ;; ret (rice_to_signed (Z.lor hi r)))
         (ret (unfold_sign ((q * 2 ^ k + r) mod 2 ^ 32))).
  Proof.
    intros Hk Hr. rewrite shl_ok by lia. apply sim_bind_lift_l. apply sim_ret_eq.
    rewrite shl_lor by lia. apply rice_to_signed_ok, Z.mod_pos_bound. lia.
  Qed.

  Lemma rice_sim k : (k <= 14)%nat -> simE (read_rice_sample rb m fuel (Z.of_nat k)) (p_rice t m k).
  Proof.
    intros Hk. unfold read_rice_sample, p_rice.
    eapply sim_fact_bind; [apply unary_sim|intros q Hq].
    destruct (Z.leb_spec (Z.of_nat k) 8).
    - eapply sim_fact_bind; [apply leq_u8; lia|intros r Hr]. apply rice_tail; [lia|exact Hr].
    - eapply sim_fact_bind; [apply bits_fact, read_gt_u8_leq_u16_sim; lia|intros r Hr].
      apply rice_tail; [lia|exact Hr].
  Qed.

  Lemma rice2_sim k : (k <= 30)%nat -> simE (read_rice2_sample rb m fuel (Z.of_nat k)) (p_rice t m k).
  Proof.
    intros Hk. unfold read_rice2_sample, p_rice.
    eapply sim_fact_bind; [apply unary_sim|intros q Hq].
    eapply sim_fact_bind; [apply leq_u32; lia|intros r Hr]. apply rice_tail; [lia|exact Hr].
  Qed.

  Lemma p_rice_range k s a s' : p_rice t m k s = (Ok a, s') -> isi32 a.
  Proof.
    unfold p_rice. intros E. apply bind_ok in E as (q & s0 & _ & E).
    apply bind_ok in E as (r & s1 & _ & E). inversion E.
    apply rice_to_signed_ok, Z.mod_pos_bound. lia.
  Qed.

  (** Lists of results *)
  Lemma p_repeat_length {A} n (p : P A) s l s' :
    p_repeat n p s = (Ok l, s') -> length l = n.
  Proof.
    revert s l s'. induction n as [|n IH]; intros s l s' E; cbn [p_repeat] in E.
    - inversion E. reflexivity.
    - apply bind_ok in E as (x & s0 & _ & E). apply bind_ok in E as (xs & s1 & E1 & E).
      inversion E. cbn. f_equal. eauto.
  Qed.
  Lemma p_repeat_Forall {A} (Q : A -> Prop) n (p : P A) :
    (forall s a s', p s = (Ok a, s') -> Q a) ->
    forall s l s', p_repeat n p s = (Ok l, s') -> Forall Q l.
  Proof.
    intros HQ. induction n as [|n IH]; intros s l s' E; cbn [p_repeat] in E.
    - inversion E. constructor.
    - apply bind_ok in E as (x & s0 & Ex & E). apply bind_ok in E as (xs & s1 & E1 & E).
      inversion E. constructor; eauto.
  Qed.

  Lemma fill_repeat c p buffer : simE c p -> simE (fill c buffer) (p_repeat (length buffer) p).
  Proof.
    intros H. induction buffer as [|x b IH]; cbn [fill p_repeat length]; [apply sim_ret_eq; auto|].
    eapply sim_bind_eq; [exact H|intros y]. eapply sim_bind_eq; [exact IH|intros ys].
    apply sim_ret_eq; auto.
  Qed.

  (** Facts about residuals: number and range. *)
  Definition resid_ok (n : nat) (l : list Z) : Prop := length l = n /\ Forall isi32 l.

  Lemma p_partition_ok pbits n s l s' : p_partition t m pbits n s = (Ok l, s') -> resid_ok n l.
  Proof.
    unfold p_partition. intros E. apply bind_ok in E as (k & s0 & _ & E).
    destruct (k =? _); [discriminate|].
    split; [eapply p_repeat_length, E|].
    eapply p_repeat_Forall, E. intros; eapply p_rice_range; eauto.
  Qed.

  Lemma rice_partition_sim b :
    decode_rice_partition rb m fuel b ~~ p_partition t m 4 (length b) | resid_ok (length b).
  Proof.
    apply sim_fact; [|apply p_partition_ok].
    unfold decode_rice_partition, p_partition.
    eapply sim_fact_bind; [apply (leq_u8 4); lia|intros k Hk]. change (2 ^ Z.of_nat 4 - 1) with 15.
    red in Hk. change (2 ^ Z.of_nat 4) with 16 in Hk.
    destruct (Z.eqb_spec k 15); [apply sim_fail|].
    apply fill_repeat. rewrite <- (Z2Nat.id k) at 1 by lia. apply rice_sim. lia.
  Qed.
  Lemma rice2_partition_sim b :
    decode_rice2_partition rb m fuel b ~~ p_partition t m 5 (length b) | resid_ok (length b).
  Proof.
    apply sim_fact; [|apply p_partition_ok].
    unfold decode_rice2_partition, p_partition.
    eapply sim_fact_bind; [apply (leq_u8 5); lia|intros k Hk]. change (2 ^ Z.of_nat 5 - 1) with 31.
    red in Hk. change (2 ^ Z.of_nat 5) with 32 in Hk.
    destruct (Z.eqb_spec k 31); [apply sim_fail|].
    apply fill_repeat. rewrite <- (Z2Nat.id k) at 1 by lia. apply rice2_sim. lia.
  Qed.

  Lemma p_partitions_ok pbits lens : forall s l s',
    p_partitions t m pbits lens s = (Ok l, s') -> resid_ok (list_sum lens) l.
  Proof.
    induction lens as [|n lens IH]; intros s l s' E; cbn [p_partitions] in E.
    - inversion E. split; [reflexivity|constructor].
    - apply bind_ok in E as (a & s0 & Ea & E). apply bind_ok in E as (b & s1 & Eb & E).
      inversion E. apply p_partition_ok in Ea as [Ha Ha']. apply IH in Eb as [Hb Hb'].
      split; [|apply Forall_app; auto]. rewrite app_length. cbn. unfold list_sum in Hb. lia.
  Qed.

  (** The loop over the remaining partitions; [done] is already written. *)
  Lemma partitions_loop_ok part pbits :
    (forall b, part b ~~ p_partition t m pbits (length b) | resid_ok (length b)) ->
    forall n L0 L done rest,
      length rest = list_sum (match n with O => [] | S n' => L0 :: repeat L n' end) ->
      sim no_esc R (fun a b => a = done ++ b)
        (partitions_loop part n (len done) (Z.of_nat L0) (Z.of_nat L) (done ++ rest))
        (p_partitions t m pbits (match n with O => [] | S n' => L0 :: repeat L n' end)).
  Proof.
    intros Hp. induction n as [|n IH]; intros L0 L done rest Hl; cbn [partitions_loop p_partitions].
    - destruct rest; [|discriminate]. apply sim_ret. reflexivity.
    - cbn [list_sum fold_right] in Hl.
      rewrite <- (firstn_skipn L0 rest).
      assert (length (firstn L0 rest) = L0) as H0 by (rewrite firstn_length; lia).
      rewrite slice_app; [|reflexivity|unfold len; lia].
      eapply sim_ext_l; [intros s; apply bind_lift_ok|].
      eapply sim_bind; [rewrite <- H0 at 2; apply Hp|].
      intros a b (-> & Ha & Ha').
      rewrite splice_app by (auto; lia).
      replace (len done + Z.of_nat L0) with (len (done ++ b)) by (rewrite len_app; unfold len; lia).
      rewrite app_assoc.
      destruct n as [|n].
      + cbn [partitions_loop repeat p_partitions].
        cbn [list_sum fold_right repeat] in Hl.
        rewrite skipn_all2 by lia. apply sim_ret. rewrite !app_nil_r. reflexivity.
      + assert (forall x, bind (p_partitions t m pbits (repeat L (S n))) (fun b0 => ret (b ++ b0)) x
                = bind (p_partitions t m pbits (L :: repeat L n)) (fun b0 => ret (b ++ b0)) x)
          as EQ by reflexivity.
        specialize (IH L L (done ++ b) (skipn L0 rest)).
        intros s1 s2 HR. rewrite EQ.
        assert (length (skipn L0 rest) = list_sum (L :: repeat L n)) as HL
          by (rewrite skipn_length; cbn [repeat] in Hl; unfold list_sum in *; lia).
        specialize (IH HL s1 s2 HR). unfold bind.
        destruct (partitions_loop _ _ _ _ _ _ s1) as [[]]; cbn [fst snd] in *;
          destruct (p_partitions _ _ _ _ s2) as [o2 s2']; cbn [fst snd] in *;
          try (destruct IH as [[]|[-> IH]]); try (rewrite IH); auto.
        destruct IH as (b' & -> & -> & HR'). cbn. exists (b ++ b').
        rewrite app_assoc. auto.
  Qed.

  Lemma list_sum_repeat L n : list_sum (repeat L n) = (n * L)%nat.
  Proof. induction n; cbn; [reflexivity|]. unfold list_sum in *. lia. Qed.

  Lemma p_residual_ok bs order s l s' : 0 <= order <= bs ->
    p_residual t m bs order s = (Ok l, s') -> resid_ok (Z.to_nat (bs - order)) l.
  Proof.
    intros Ho. unfold p_residual. intros E. apply bind_ok in E as (method & s0 & _ & E).
    apply bind_ok in E as (pbits & s1 & _ & E). apply bind_ok in E as (po & s2 & Epo & E).
    apply bl_bits_inv in Epo as [_ Hpo].
    destruct (Z.eqb_spec (bs mod 2 ^ po) 0) as [Hd|]; [|discriminate]. cbn [negb] in E.
    destruct (Z.ltb_spec (bs / 2 ^ po) order); [discriminate|].
    apply p_partitions_ok in E. cbn [list_sum fold_right] in E.
    fold (list_sum (repeat (Z.to_nat (bs / 2 ^ po)) (Z.to_nat (2 ^ po - 1)))) in E.
    rewrite list_sum_repeat in E.
    replace (Z.to_nat (bs - order)) with
      (Z.to_nat (bs / 2 ^ po - order) + Z.to_nat (2 ^ po - 1) * Z.to_nat (bs / 2 ^ po))%nat; [exact E|].
    pose proof (pow2_pos po ltac:(lia)). pose proof (Z.div_mod bs (2 ^ po) ltac:(lia)).
    rewrite <- Z2Nat.inj_mul by (try apply Z.div_pos; lia).
    rewrite <- Z2Nat.inj_add by (try apply Z.mul_nonneg_nonneg; try apply Z.div_pos; lia).
    f_equal. nia.
  Qed.

  Lemma residual_sim bs order tail' : 0 <= order <= bs -> 1 <= bs <= 65535 ->
    len tail' = bs - order ->
    decode_residual rb m fuel bs tail' ~~ p_residual t m bs order
      | resid_ok (Z.to_nat (bs - order)).
  Proof.
    intros Ho Hb Hl. apply sim_fact; [|intros; eapply p_residual_ok; eauto].
    unfold decode_residual, p_residual.
    eapply sim_fact_bind; [apply (leq_u8 2); lia|intros method Hm].
    eapply (sim_bind _ _ (fun part pbits =>
      forall b, part b ~~ p_partition t m pbits (length b) | resid_ok (length b))).
    { destruct (method =? 0); [apply sim_ret, rice_partition_sim|].
      destruct (method =? 1); [apply sim_ret, rice2_partition_sim|]. apply sim_fail. }
    intros part pbits Hp.
    eapply sim_fact_bind; [apply (leq_u8 4); lia|intros po Hpo].
    red in Hpo. change (2 ^ Z.of_nat 4) with 16 in Hpo.
    pose proof (pow2_pos po ltac:(lia)) as Hpp.
    assert (2 ^ po <= 2 ^ 15) as Hp15 by (apply Z.pow_le_mono_r; lia).
    rewrite shl_ok by lia. apply sim_bind_lift_l.
    rewrite shr_ok by lia. apply sim_bind_lift_l.
    rewrite Z.mul_1_l, u32_id by lia.
    rewrite chk_u32 by lia. apply sim_bind_lift_l.
    rewrite u16_id by lia. rewrite land_low by lia.
    destruct (Z.eqb_spec (bs mod 2 ^ po) 0) as [Hd|Hd]; cbn [negb]; [|apply sim_fail].
    assert (2 ^ po * (bs / 2 ^ po) = bs) as Hbs
      by (pose proof (Z.div_mod bs (2 ^ po) ltac:(lia)); lia).
    apply sim_ext_l with
      (n_warm_up <- lift (chk m u16 (bs - u16 (len tail'))) ;;
       (if bs / 2 ^ po <? n_warm_up then fmt_err "invalid residual"
        else
        l <- lift (chk m u16 (bs / 2 ^ po - n_warm_up)) ;;
        partitions_loop part (Z.to_nat (2 ^ po)) 0 l (bs / 2 ^ po) tail')).
    { intros s. destruct m; [|reflexivity].
      rewrite chk_u32 by lia. rewrite Hbs, bind_assoc, bind_lift_ok, debug_assert_ok by lia.
      reflexivity. }
    rewrite u16_id by lia. rewrite chk_u16 by lia. apply sim_bind_lift_l.
    replace (bs - len tail') with order by lia.
    destruct (Z.ltb_spec (bs / 2 ^ po) order) as [|Hlt]; [apply sim_fail|].
    assert (0 <= bs / 2 ^ po <= bs) by nia.
    rewrite chk_u16 by lia. apply sim_bind_lift_l.
    pose proof (partitions_loop_ok part pbits Hp (Z.to_nat (2 ^ po))
                  (Z.to_nat (bs / 2 ^ po - order)) (Z.to_nat (bs / 2 ^ po)) [] tail') as HL.
    destruct (Z.to_nat (2 ^ po)) as [|n] eqn:En; [lia|].
    replace (Z.to_nat (2 ^ po - 1)) with n by lia.
    rewrite !Z2Nat.id in HL by lia. cbn [app] in HL.
    eapply sim_conseq; [| |apply HL]; auto.
    cbn [list_sum fold_right]. fold (list_sum (repeat (Z.to_nat (bs / 2 ^ po)) n)).
    rewrite list_sum_repeat. replace n with (Z.to_nat (2 ^ po - 1)) by lia.
    rewrite <- Z2Nat.inj_mul by lia. rewrite <- Z2Nat.inj_add by nia.
    unfold len in Hl. apply Nat2Z.inj. rewrite Z2Nat.id by nia. nia.
  Qed.

  (** Verbatim samples *)
  Lemma p_signed_fits k s a s' : 1 <= k -> p_signed t k s = (Ok a, s') -> fits k a.
  Proof.
    intros Hk E. apply bind_ok in E as (x & s0 & _ & E). inversion E.
    apply signed_range. lia.
  Qed.

  Lemma verbatim_sample_sim bps : 1 <= bps <= 32 ->
    simE (read_verbatim_sample rb m bps) (p_signed t bps).
  Proof.
    intros Hb. unfold read_verbatim_sample, p_signed.
    eapply sim_fact_bind; [apply (leq_u32 (Z.to_nat bps)); lia|intros x Hx].
    rewrite extend_sign_u32_ok by (destruct Hx; lia).
    intros s1 s2 HR. cbn. eauto.
  Qed.

  Definition fits_list bps n (l : list Z) := length l = n /\ Forall (fits bps) l.

  Lemma verbatim_sim bps b : 1 <= bps <= 32 ->
    decode_verbatim rb m bps b ~~ p_repeat (length b) (p_signed t bps) | fits_list bps (length b).
  Proof.
    intros Hb. apply sim_fact.
    - unfold decode_verbatim. rewrite debug_assert_ok by lia. apply sim_bind_lift_l.
      apply fill_repeat, verbatim_sample_sim, Hb.
    - intros s l s' E. split; [eapply p_repeat_length, E|].
      eapply p_repeat_Forall, E. intros; eapply p_signed_fits; eauto; lia.
  Qed.
End Refine.
