(** Subframes decoded into a buffer of any length. *)
From Verif Require Export SpecAnySub ProofSubframe.
From Verif Require Import SpecReader.

Lemma predict_fixed_long m order warm rs : 0 <= order <= 4 -> len warm = order -> len (warm ++ rs) < 2 ^ 61 ->
  predict_fixed m order (warm ++ rs) = Ok (warm ++ restore (fixed_predict order) (rev warm) rs).
Proof.
  intros Ho Hw Hl. unfold predict_fixed. rewrite debug_assert_ok by lia. cbn [obind].
  destruct (fixed_coefficients order) as [cs|e|w|w|] eqn:Ec;
    try (unfold fixed_coefficients in Ec;
      assert (order = 0 \/ order = 1 \/ order = 2 \/ order = 3 \/ order = 4) as Hcase by lia;
      destruct Hcase as [E|[E|[E|[E|E]]]]; rewrite E in Ec; discriminate Ec).
  cbn [obind]. rewrite len_app in *. pose proof (len_nonneg rs).
  rewrite chk_u64 by lia. cbn [obind].
  replace (Z.to_nat (len warm + len rs - order)) with (length rs) by (unfold len in *; lia).
  pose proof (predict_fixed_loop_ok order cs Ec Ho rs warm ltac:(lia)) as H0.
  replace (len warm - order) with 0 in H0 by lia. exact H0.
Qed.
Lemma predict_lpc_low_long m cs shift warm rs :
  Forall coef_ok cs -> 1 <= len cs <= 12 -> 0 <= shift < 64 -> len warm = len cs ->
  Forall isi32 warm -> Forall isi32 rs ->  len (warm ++ rs) < 2 ^ 61 ->
  predict_lpc_low_order m cs shift (warm ++ rs)
  = Ok (warm ++ restore (lpc_predict (rev cs) shift) (rev warm) rs).
Proof.
  intros Hc Hl Hs Hw Hwi Hri Hlen. unfold predict_lpc_low_order.
  pose proof (len_nonneg rs). rewrite len_app in Hlen.
  rewrite !debug_assert_ok by lia. cbn [obind].
  rewrite chk_u64 by lia. cbn [obind].
  destruct (Z.leb_spec (len cs) 12); [|lia]. cbn [obind].
  rewrite chk_u64 by (rewrite len_app; lia). cbn [obind].
  rewrite len_app.
  set (k := Z.to_nat (Z.min 12 (len warm + len rs) - len cs)).
  assert (k <= length rs)%nat as Hk by (unfold k, len in *; lia).
  assert (length (firstn k rs) = k) as Hfk by (rewrite firstn_length; lia).
  assert (Forall isi32 (firstn k rs)) as H1 by (apply Forall_firstn, Hri).
  assert (Forall isi32 (skipn k rs)) as H2 by (apply Forall_skipn, Hri).
  rewrite <- Hw. rewrite <- (firstn_skipn k rs) at 1. rewrite <- Hfk at 1.
  rewrite lpc_loop_ok by (auto; lia). cbn [obind].
  set (f := lpc_predict (rev cs) shift).
  assert (restore f (rev warm) rs
          = restore f (rev warm) (firstn k rs)
            ++ restore f (rev (restore f (rev warm) (firstn k rs)) ++ rev warm) (skipn k rs)) as ER
    by (rewrite <- restore_app, firstn_skipn; reflexivity).
  rewrite !len_app.
  assert (len (skipn k rs) = len rs - Z.of_nat k) as Hsk by (unfold len; rewrite skipn_length; lia).
  set (d := restore f (rev warm) (firstn k rs)) in *.
  assert (len d = Z.of_nat k) as Hld by (unfold d, len; rewrite restore_length, Hfk; reflexivity).
  assert (Z.of_nat k = Z.min 12 (len warm + len rs) - len cs) as Hkz by lia.
  clearbody k.
  destruct (Z.leb_spec (len warm + (len d + len (skipn k rs))) 12) as [Hle|Hgt].
  - assert (skipn k rs = []) as E0.
    { apply skipn_all2. unfold len in *. lia. }
    rewrite ER, E0. cbn [restore]. rewrite !app_nil_r. reflexivity.
  - replace (Z.to_nat (len warm + (len d + len (skipn k rs)) - 12)) with (length (skipn k rs))
      by (rewrite skipn_length; unfold len in *; lia).
    assert (12 = len (warm ++ d)) as H12 by (rewrite len_app; lia).
    replace (lpc_loop m (repeat 0 (Z.to_nat (12 - len warm)) ++ cs) shift (length (skipn k rs)) 12)
      with (lpc_loop m (repeat 0 (Z.to_nat (12 - len warm)) ++ cs) shift (length (skipn k rs)) (len (warm ++ d)))
      by (f_equal; lia).
    rewrite app_assoc. rewrite <- (app_nil_r (skipn k rs)) at 2.
    rewrite lpc_loop_ok.
    + rewrite app_nil_r. rewrite ER. rewrite <- app_assoc. do 3 f_equal.
      rewrite (rev_app_distr warm). apply restore_ext. intros p. unfold f, lpc_predict.
      rewrite rev_app_distr, rev_repeat, dot_pad. reflexivity.
    + apply Forall_app. split; [|exact Hc]. apply Forall_forall. intros x Hx.
      apply repeat_spec in Hx as ->. unfold coef_ok. lia.
    + rewrite len_app, len_repeat. lia.
    + lia.
    + rewrite len_app, len_repeat. lia.
    + apply Forall_app. split; [exact Hwi|apply restore_i32].
    + exact H2.
Qed.

(** * Parsers *)
Section Parsers.
  Context (t : tail) (m : build).
  (** As [p_residual]; if there are fewer samples than warm-up samples a debug build panics. *)
  Definition q_residual (bs order : Z) : M (list bool) (list Z) :=
    method <- bl_bits t 2 ;;
    pbits <- (if method =? 0 then ret 4%nat
              else if method =? 1 then ret 5%nat
              else fmt_err "invalid residual, encountered reserved value") ;;
    po <- bl_bits t 4 ;;
    if negb (bs mod 2 ^ po =? 0) then fmt_err "invalid partition order"
    else if (match m with Debug => bs <? order | Release => false end) then lift (Panic "attempt to perform arithmetic with overflow")
    else if bs / 2 ^ po <? order then fmt_err "invalid residual"
    else p_partitions t m pbits
           (Z.to_nat (bs / 2 ^ po - order)
            :: repeat (Z.to_nat (bs / 2 ^ po)) (Z.to_nat (2 ^ po - 1))).
  Definition q_fixed (bps order : Z) (buffer : list Z) : M (list bool) (list Z) :=
    if len buffer <? order
    then fmt_err "invalid fixed subframe, order is larger than block size"
    else
      warm <- p_repeat (Z.to_nat order) (p_signed t bps) ;;
      rs <- q_residual (counted buffer) order ;;
      ret (warm ++ restore (fixed_predict order) (rev warm) (rs ++ skipn (Z.to_nat (counted buffer)) buffer)).
  Definition q_lpc (bps order : Z) (buffer : list Z) : M (list bool) (list Z) :=
    if len buffer <? order
    then fmt_err "invalid LPC subframe, lpc order is larger than block size"
    else
      warm <- p_repeat (Z.to_nat order) (p_signed t bps) ;;
      p <- bl_bits t 4 ;;
      if p =? 15 then fmt_err "invalid subframe, qlp precision value invalid"
      else
        shift <- p_signed t 5 ;;
        if shift <? 0
        then fail (Unsupported "a negative quantized linear predictor coefficient shift is not supported, please file a bug.")
        else
          cs <- p_repeat (Z.to_nat order) (p_signed t (p + 1)) ;;
          rs <- q_residual (counted buffer) order ;;
          ret (warm ++ restore (lpc_predict cs shift) (rev warm) (rs ++ skipn (Z.to_nat (counted buffer)) buffer)).
  Definition q_body (c : coding) (bps : Z) (buffer : list Z) : M (list bool) (list Z) :=
    match c with
    | Constant => v <- p_signed t bps ;; ret (repeat v (length buffer))
    | Verbatim => p_repeat (length buffer) (p_signed t bps)
    | Fixed o => q_fixed bps o buffer
    | Lpc o => q_lpc bps o buffer
    end.
  Definition q_subframe (bps : Z) (buffer : list Z) : M (list bool) (list Z) :=
    pad <- bl_bit t ;;
    if (pad : bool) then fmt_err "invalid subframe header"
    else
      c <- p_type t ;;
      k <- p_wasted t m ;;
      if bps <=? k then fmt_err "subframe has no non-wasted bits"
      else
        s <- q_body c (bps - k) buffer ;;
        ret (map (fun x => wrap32 (x * 2 ^ k)) s).

  (** If there is a result it is that of [p_residual]. *)
  Lemma q_residual_cases bs order s : 0 <= bs -> 0 <= order ->
    q_residual bs order s = p_residual t m bs order s
    \/ bs < order /\ (exists e s', p_residual t m bs order s = (Err e, s')) /\ (exists p s', q_residual bs order s = (Panic p, s')).
  Proof.
    intros Hbs Ho. unfold q_residual, p_residual.
    assert (forall pbits s1, let q := (po <- bl_bits t 4 ;;
        if negb (bs mod 2 ^ po =? 0) then fmt_err "invalid partition order"
        else if (match m with Debug => bs <? order | Release => false end) then lift (Panic "attempt to perform arithmetic with overflow")
        else if bs / 2 ^ po <? order then fmt_err "invalid residual"
        else p_partitions t m pbits (Z.to_nat (bs / 2 ^ po - order) :: repeat (Z.to_nat (bs / 2 ^ po)) (Z.to_nat (2 ^ po - 1)))) s1 in
      let p := (po <- bl_bits t 4 ;;
        if negb (bs mod 2 ^ po =? 0) then fmt_err "invalid partition order"
        else if bs / 2 ^ po <? order then fmt_err "invalid residual"
        else p_partitions t m pbits (Z.to_nat (bs / 2 ^ po - order) :: repeat (Z.to_nat (bs / 2 ^ po)) (Z.to_nat (2 ^ po - 1)))) s1 in
      q = p \/ bs < order /\ (exists e s', p = (Err e, s')) /\ (exists e s', q = (Panic e, s'))) as Hin.
    { intros pbits s1. unfold bind. destruct (bl_bits t 4 s1) as [[po| | | |] s3] eqn:Epo; auto. cbv zeta.
      apply bl_bits_inv in Epo as [_ Hpo].
      destruct (negb _); [auto|]. destruct (match m with Debug => bs <? order | Release => false end) eqn:E; [|auto]. right.
      assert (bs < order) as Hlt by (destruct m; [lia|discriminate]). pose proof (pow2_pos po ltac:(lia)).
      assert (bs / 2 ^ po <= bs) by (apply Z.div_le_upper_bound; nia).
      destruct (Z.ltb_spec (bs / 2 ^ po) order); [|lia]. split; [exact Hlt|]. split; eexists _, _; reflexivity. }
    unfold bind at 1 4 7 10. destruct (bl_bits t 2 s) as [[method| | | |] s1]; try (left; reflexivity).
    destruct (method =? 0); [exact (Hin 4%nat s1)|]. destruct (method =? 1); [exact (Hin 5%nat s1)|]. left. reflexivity.
  Qed.
  Lemma q_residual_ok bs order s a s' : 0 <= bs -> 0 <= order ->
    q_residual bs order s = (Ok a, s') <-> p_residual t m bs order s = (Ok a, s').
  Proof.
    intros Hbs Ho. destruct (q_residual_cases bs order s Hbs Ho) as [->|(_ & (e & x & ->) & p & y & ->)]; [tauto|].
    split; discriminate.
  Qed.
  Lemma q_residual_small bs order s : 0 <= order <= bs -> q_residual bs order s = p_residual t m bs order s.
  Proof. intros H. destruct (q_residual_cases bs order s ltac:(lia) ltac:(lia)) as [E|[Hlt _]]; [exact E|lia]. Qed.
End Parsers.

(** * The decoder refines them *)
Section Refine.
  Context (t : tail) (m : build) (fuel : nat).
  Notation rb := (fl_rb t).
  Notation R := (bitsrel fuel).
  Notation simE := (sim no_esc R eq).
  Notation "c1 ~~ c2 | P" := (sim no_esc R (fun a b => a = b /\ P b) c1 c2)
    (at level 70, c2 at next level).

  Lemma partitions_loop_more part pbits more :
    (forall b, part b ~~ p_partition t m pbits (length b) | resid_ok (length b)) ->
    forall n L0 L done rest,
      length rest = list_sum (match n with O => [] | Datatypes.S n' => L0 :: repeat L n' end) ->
      sim no_esc R (fun a b => a = done ++ b ++ more)
        (partitions_loop part n (len done) (Z.of_nat L0) (Z.of_nat L) (done ++ rest ++ more))
        (p_partitions t m pbits (match n with O => [] | Datatypes.S n' => L0 :: repeat L n' end)).
  Proof.
    intros Hp. induction n as [|n IH]; intros L0 L done rest Hl; cbn [partitions_loop p_partitions].
    - destruct rest; [|discriminate]. apply sim_ret. reflexivity.
    - cbn [list_sum fold_right] in Hl.
      rewrite <- (firstn_skipn L0 rest).
      assert (length (firstn L0 rest) = L0) as H0 by (rewrite firstn_length; lia).
      rewrite <- (app_assoc (firstn L0 rest)).
      rewrite slice_app; [|reflexivity|unfold len; lia].
      eapply sim_ext_l; [intros s; apply bind_lift_ok|].
      eapply sim_bind; [rewrite <- H0 at 2; apply Hp|].
      intros a b (-> & Ha & Ha').
      rewrite splice_app by (auto; lia).
      replace (len done + Z.of_nat L0) with (len (done ++ b)) by (rewrite len_app; unfold len; lia).
      rewrite app_assoc.
      destruct n as [|n].
      + cbn [partitions_loop repeat p_partitions].
        cbn [list_sum fold_right repeat] in Hl.
        rewrite skipn_all2 by lia. apply sim_ret. rewrite !app_nil_r, <- app_assoc. reflexivity.
      + assert (forall x, bind (p_partitions t m pbits (repeat L (Datatypes.S n))) (fun b0 => ret (b ++ b0)) x
                = bind (p_partitions t m pbits (L :: repeat L n)) (fun b0 => ret (b ++ b0)) x)
          as EQ by reflexivity.
        specialize (IH L L (done ++ b) (skipn L0 rest)).
        intros s1 s2 HR. rewrite EQ.
        assert (length (skipn L0 rest) = list_sum (L :: repeat L n)) as HL
          by (rewrite skipn_length; cbn [repeat] in Hl; unfold list_sum in *; lia).
        specialize (IH HL s1 s2 HR). unfold bind.
        destruct (partitions_loop _ _ _ _ _ _ s1) as [[]]; cbn [fst snd] in *;
          destruct (p_partitions _ _ _ _ s2) as [o2 s2']; cbn [fst snd] in *;
          try (destruct IH as [[]|[-> IH]]); try (rewrite IH); auto.
        destruct IH as (b' & -> & -> & HR'). cbn. exists (b ++ b').
        rewrite <- !app_assoc. auto.
  Qed.

  Lemma u16_mod x : u16 x = x mod 2 ^ 16.
  Proof. reflexivity. Qed.
  Lemma counted_range buffer : 0 <= counted buffer < 2 ^ 16.
  Proof. apply Z.mod_pos_bound. lia. Qed.

  Lemma sim_lift_any {A B C} (Q : B -> C -> Prop) (a : A) (f : A -> M (bitstream (list Z)) B) (c2 : M (list bool) C) :
    sim no_esc R Q (f a) c2 -> sim no_esc R Q (bind (lift (Ok a)) f) c2.
  Proof. intros H. eapply sim_ext_l; [intros s; apply bind_lift_ok|exact H]. Qed.

  Lemma residual_long buffer order tail' : 0 <= order <= 32 -> order <= len buffer -> len tail' = len buffer - order ->
    sim no_esc R (fun a b => a = b ++ skipn (Z.to_nat (counted buffer - order)) tail' /\ resid_ok (Z.to_nat (counted buffer - order)) b
                             /\ order <= counted buffer)
      (decode_residual rb m fuel (counted buffer) tail') (q_residual t m (counted buffer) order).
  Proof.
    intros Ho Hob Hl. pose proof (counted_range buffer) as Hb. set (bs := counted buffer) in *.
    assert (u16 (len tail') = if bs <? order then bs - order + 2 ^ 16 else bs - order) as Hu.
    { rewrite u16_mod, Hl. pose proof (Z.div_mod (len buffer) (2 ^ 16) ltac:(lia)) as E. change (len buffer mod 2 ^ 16) with bs in E.
      destruct (Z.ltb_spec bs order); symmetry.
      - apply Z.mod_unique with (len buffer / 2 ^ 16 - 1); lia.
      - apply Z.mod_unique with (len buffer / 2 ^ 16); lia. }
    assert (sim no_esc R (fun a b => a = b ++ skipn (Z.to_nat (bs - order)) tail' /\ order <= bs)
      (decode_residual rb m fuel bs tail') (q_residual t m bs order)) as Hsim.
    2: { intros s1 s2 HR. specialize (Hsim s1 s2 HR). destruct (fst (decode_residual rb m fuel bs tail' s1)); auto.
         destruct Hsim as (b & E & [-> Hle] & HR'). exists b. split; [exact E|]. split; [|exact HR']. split; [reflexivity|]. split; [|exact Hle].
         rewrite (surjective_pairing (q_residual t m bs order s2)) in E. destruct (q_residual t m bs order s2) as [o s'] eqn:Eq. cbn [fst] in E. subst o.
         apply q_residual_ok in Eq; [|lia|lia]. apply p_residual_ok in Eq; [exact Eq|lia]. }
    unfold decode_residual, q_residual.
    eapply sim_fact_bind; [apply (leq_u8 t m fuel 2); lia|intros method Hm].
    eapply (sim_bind _ _ (fun part pbits =>
      forall b, part b ~~ p_partition t m pbits (length b) | resid_ok (length b))).
    { destruct (method =? 0); [apply sim_ret, rice_partition_sim|].
      destruct (method =? 1); [apply sim_ret, rice2_partition_sim|]. apply sim_fail. }
    intros part pbits Hp.
    eapply sim_fact_bind; [apply (leq_u8 t m fuel 4); lia|intros po Hpo].
    red in Hpo. change (2 ^ Z.of_nat 4) with 16 in Hpo.
    pose proof (pow2_pos po ltac:(lia)) as Hpp.
    assert (2 ^ po <= 2 ^ 15) as Hp15 by (apply Z.pow_le_mono_r; lia).
    rewrite shl_ok by lia. apply sim_lift_any.
    rewrite shr_ok by lia. apply sim_lift_any.
    rewrite Z.mul_1_l, u32_id by lia.
    rewrite chk_u32 by lia. apply sim_lift_any.
    rewrite u16_id by lia. rewrite land_low by lia.
    destruct (Z.eqb_spec (bs mod 2 ^ po) 0) as [Hd|Hd]; cbn [negb]; [|apply sim_fail].
    assert (2 ^ po * (bs / 2 ^ po) = bs) as Hbs
      by (pose proof (Z.div_mod bs (2 ^ po) ltac:(lia)); lia).
    assert (0 <= bs / 2 ^ po <= bs) by nia.
    apply sim_ext_l with
      (n_warm_up <- lift (chk m u16 (bs - u16 (len tail'))) ;;
       (if bs / 2 ^ po <? n_warm_up then fmt_err "invalid residual"
        else
        l <- lift (chk m u16 (bs / 2 ^ po - n_warm_up)) ;;
        partitions_loop part (Z.to_nat (2 ^ po)) 0 l (bs / 2 ^ po) tail')).
    { intros s. destruct m; [|reflexivity].
      rewrite chk_u32 by lia. rewrite Hbs, bind_assoc, bind_lift_ok, debug_assert_ok by lia.
      reflexivity. }
    rewrite Hu. destruct (Z.ltb_spec bs order) as [Hlt|Hle].
    { (* fewer samples than warm-up samples *)
      replace (bs - (bs - order + 2 ^ 16)) with (order - 2 ^ 16) by lia.
      assert (chk m u16 (order - 2 ^ 16) = match m with Debug => Panic "attempt to perform arithmetic with overflow" | Release => Ok order end) as ->.
      { unfold chk. rewrite u16_mod. rewrite <- (Z.mod_unique (order - 2 ^ 16) (2 ^ 16) (-1) order) by lia.
        destruct (Z.eqb_spec order (order - 2 ^ 16)); [lia|reflexivity]. }
      destruct m; [destruct (Z.ltb_spec bs order); [intros s1 s2 HR; cbn; auto|lia]|]. apply sim_lift_any. destruct (Z.ltb_spec (bs / 2 ^ po) order); [|lia]. apply sim_fail. }
    replace (match m with Debug => false | Release => false end) with false by (destruct m; reflexivity).
    replace (bs - (bs - order)) with order by lia. rewrite chk_u16 by lia. apply sim_lift_any.
    destruct (Z.ltb_spec (bs / 2 ^ po) order) as [|Hlt]; [apply sim_fail|].
    rewrite chk_u16 by lia. apply sim_lift_any.
    pose proof (partitions_loop_more part pbits (skipn (Z.to_nat (bs - order)) tail') Hp (Z.to_nat (2 ^ po))
                  (Z.to_nat (bs / 2 ^ po - order)) (Z.to_nat (bs / 2 ^ po)) [] (firstn (Z.to_nat (bs - order)) tail')) as HL.
    destruct (Z.to_nat (2 ^ po)) as [|n] eqn:En; [lia|].
    replace (Z.to_nat (2 ^ po - 1)) with n by lia.
    rewrite !Z2Nat.id in HL by lia. cbn [app] in HL. rewrite firstn_skipn in HL.
    eapply sim_conseq; [intros e He; exact He| |apply HL].
    { cbv beta. intros a b ->. split; [reflexivity|lia]. }
    cbn [list_sum fold_right]. fold (list_sum (repeat (Z.to_nat (bs / 2 ^ po)) n)).
    rewrite list_sum_repeat. replace n with (Z.to_nat (2 ^ po - 1)) by lia.
    rewrite <- Z2Nat.inj_mul by lia. rewrite <- Z2Nat.inj_add by nia.
    assert (bs <= len buffer) as Hbl by (unfold bs, counted; apply Z.mod_le; [apply len_nonneg|lia]).
    rewrite firstn_length, Nat.min_l by (unfold len in *; lia). apply Nat2Z.inj. rewrite !Z2Nat.id by nia. nia.
  Qed.

  (** The warm-up samples and the rest in the buffer. *)
  Lemma skip_counted (buffer : list Z) order : 0 <= order <= counted buffer ->
    skipn (Z.to_nat (counted buffer - order)) (skipn (Z.to_nat order) buffer) = skipn (Z.to_nat (counted buffer)) buffer.
  Proof. intros H. rewrite skipn_skipn. f_equal. lia. Qed.
  Lemma counted_le (buffer : list Z) : counted buffer <= len buffer.
  Proof. apply Z.mod_le; [apply len_nonneg|lia]. Qed.
  Lemma skipn_i32 n (l : list Z) : Forall isi32 l -> Forall isi32 (skipn n l).
  Proof. apply Forall_skipn. Qed.

  Lemma fixed_long bps order buffer : 1 <= bps <= 32 -> 0 <= order <= 4 -> len buffer < 2 ^ 61 ->
    simE (decode_fixed rb m fuel bps order buffer) (q_fixed t m bps order buffer).
  Proof.
    intros Hb Ho Hl. unfold decode_fixed, q_fixed. pose proof (counted_le buffer) as Hcl. pose proof (counted_range buffer) as Hcr.
    destruct (Z.ltb_spec (len buffer) order) as [|Hlt]; [apply sim_fail|].
    rewrite slice_prefix by lia. apply sim_bind_lift_l.
    assert (length (firstn (Z.to_nat order) buffer) = Z.to_nat order) as Hf
      by (rewrite firstn_length; unfold len in *; lia).
    eapply sim_fact_bind; [rewrite <- Hf at 2; apply verbatim_sim, Hb|].
    rewrite Hf. intros warm [Hw Hwf].
    assert (len warm = order) as Hlw by (unfold len; lia).
    cbv zeta. rewrite (splice_prefix _ _ order) by lia.
    assert (len (warm ++ skipn (Z.to_nat order) buffer) = len buffer) as Hlb.
    { rewrite len_app. unfold len in *. rewrite skipn_length. lia. }
    rewrite slice_suffix by lia. apply sim_bind_lift_l.
    rewrite Hlb. change (u16 (len buffer)) with (counted buffer). rewrite skipn_exact by lia.
    eapply sim_bind; [apply residual_long; try lia; unfold len in *; rewrite skipn_length; lia|].
    intros a rs (-> & [Hr Hri] & Hoc). rewrite skip_counted by lia.
    rewrite splice_suffix by (rewrite ?app_length, ?Hr, ?skipn_length; unfold len in *; lia).
    rewrite predict_fixed_long; [|lia|lia|].
    - intros s1 s2 HR. cbn. eauto.
    - rewrite !len_app. unfold len in *. rewrite skipn_length. lia.
  Qed.
  Lemma lpc_long bps order buffer : 1 <= bps <= 32 -> 1 <= order <= 32 -> i32_slice buffer ->
    simE (decode_lpc rb m fuel bps order buffer) (q_lpc t m bps order buffer).
  Proof.
    intros Hb Ho [Hbi Hl]. unfold decode_lpc, q_lpc. pose proof (counted_le buffer) as Hcl. pose proof (counted_range buffer) as Hcrg.
    rewrite debug_assert_ok by lia. apply sim_bind_lift_l.
    destruct (Z.ltb_spec (len buffer) order) as [|Hlt]; [apply sim_fail|].
    rewrite slice_prefix by lia. apply sim_bind_lift_l.
    assert (length (firstn (Z.to_nat order) buffer) = Z.to_nat order) as Hf
      by (rewrite firstn_length; unfold len in *; lia).
    eapply sim_fact_bind; [rewrite <- Hf at 2; apply verbatim_sim, Hb|].
    rewrite Hf. intros warm [Hw Hwf].
    assert (len warm = order) as Hlw by (unfold len; lia).
    cbv zeta. rewrite (splice_prefix _ _ order) by lia.
    assert (len (warm ++ skipn (Z.to_nat order) buffer) = len buffer) as Hlb.
    { rewrite len_app. unfold len in *. rewrite skipn_length. lia. }
    eapply sim_fact_bind; [apply (leq_u8 t m fuel 4); lia|intros p Hp].
    red in Hp. change (2 ^ Z.of_nat 4) with 16 in Hp.
    rewrite chk_u32 by lia. apply sim_bind_lift_l.
    rewrite chk_u32 by lia. apply sim_bind_lift_l.
    replace (p + 1 - 1) with p by lia.
    destruct (Z.eqb_spec p 15); [apply sim_fail|].
    match goal with |- sim _ _ _ (bind (read_leq_u16 rb m 5) ?f) _ =>
      apply sim_ext_l with (bind (x <- read_leq_u16 rb m 5 ;; lift (extend_sign_u16 m x 5))
        (fun qlp_shift => if qlp_shift <? 0
          then fail (Unsupported "a negative quantized linear predictor coefficient shift is not supported, please file a bug.")
          else
          lift (if order <=? 32 then Ok tt else Panic "slice index out of range") ;;;
          cs <- read_coefficients rb m (p + 1) (Z.to_nat order) ;;
          let buffer := warm ++ skipn (Z.to_nat order) buffer in
          let coefficients := rev cs in
          tail <- lift (slice buffer order (len buffer)) ;;
          tail' <- decode_residual rb m fuel (u16 (len buffer)) tail ;;
          let buffer := splice buffer order tail' in
          if order <=? 12
          then lift (predict_lpc_low_order m coefficients qlp_shift buffer)
          else lift (predict_lpc_high_order m coefficients qlp_shift buffer)))
    end.
    { intros s. rewrite bind_assoc. reflexivity. }
    eapply sim_fact_bind; [apply signed16_sim; lia|intros sh Hshf].
    destruct Hshf as [_ Hsh]. change (2 ^ (5 - 1)) with 16 in Hsh.
    destruct (Z.ltb_spec sh 0) as [|Hsh0]; [apply sim_fail|].
    destruct (Z.leb_spec order 32); [|lia]. apply sim_bind_lift_l.
    eapply (sim_fact_bind _ _ _ (fun l => length l = Z.to_nat order /\ Forall (fits (p + 1)) l)).
    { apply sim_fact; [apply coefficients_sim; lia|]. intros s l s' E.
      split; [eapply p_repeat_length, E|].
      eapply p_repeat_Forall, E. intros; eapply p_signed_fits; eauto; lia. }
    intros cs [Hcl' Hcf]. cbv zeta.
    rewrite slice_suffix by lia. apply sim_bind_lift_l.
    rewrite Hlb. change (u16 (len buffer)) with (counted buffer). rewrite skipn_exact by lia.
    eapply sim_bind; [apply residual_long; try lia; unfold len in *; rewrite skipn_length; lia|].
    intros a rs (-> & [Hr Hri] & Hoc). rewrite skip_counted by lia.
    rewrite splice_suffix by (rewrite ?app_length, ?Hr, ?skipn_length; unfold len in *; lia).
    assert (Forall coef_ok (rev cs)) as Hcr
      by (apply Forall_rev, (fits_coef (p + 1)); [lia|exact Hcf]).
    assert (Forall isi32 warm) as Hwi by (apply (Forall_fits_i32 bps); [lia|exact Hwf]).
    assert (len (rev cs) = order) as Hlc by (rewrite len_rev; unfold len; lia).
    set (rs' := rs ++ skipn (Z.to_nat (counted buffer)) buffer).
    assert (Forall isi32 rs') as Hri' by (apply Forall_app; split; [exact Hri|apply skipn_i32, Hbi]).
    assert (simE
       (lift (Ok (warm ++ restore (lpc_predict (rev (rev cs)) sh) (rev warm) rs')))
       (ret (warm ++ restore (lpc_predict cs sh) (rev warm) rs'))) as Hfin.
    { rewrite rev_involutive. intros s1 s2 HR. cbn. eauto. }
    destruct (Z.leb_spec order 12).
    - rewrite predict_lpc_low_long; auto; try lia.
      unfold rs'. rewrite !len_app. unfold len in *. rewrite skipn_length. lia.
    - rewrite predict_lpc_high_ok; auto; try lia.
  Qed.

  Lemma q_body_i32 c bps buffer s l s' : 1 <= bps <= 32 -> coding_ok c ->
    q_body t m c bps buffer s = (Ok l, s') -> Forall isi32 l.
  Proof.
    intros Hb Hc E. destruct c as [| |o|o]; cbn [q_body coding_ok] in *.
    - apply bind_ok in E as (v & s0 & Ev & E). inversion E; subst. apply Forall_forall. intros x Hx. apply repeat_spec in Hx as ->.
      apply (fits_i32 bps); [lia|]. eapply p_signed_fits; eauto; lia.
    - eapply p_repeat_Forall, E. intros. apply (fits_i32 bps); [lia|]. eapply p_signed_fits; eauto; lia.
    - unfold q_fixed in E. destruct (_ <? _); [discriminate|]. apply bind_ok in E as (warm & s0 & Ew & E). apply bind_ok in E as (rs & s1 & Er & E).
      inversion E; subst. apply Forall_app. split; [|apply restore_i32].
      eapply p_repeat_Forall, Ew. intros. apply (fits_i32 bps); [lia|]. eapply p_signed_fits; eauto; lia.
    - unfold q_lpc in E. destruct (_ <? _); [discriminate|]. apply bind_ok in E as (warm & s0 & Ew & E). apply bind_ok in E as (p & s1 & _ & E).
      destruct (p =? 15); [discriminate|]. apply bind_ok in E as (sh & s2 & _ & E). destruct (sh <? 0); [discriminate|].
      apply bind_ok in E as (cs & s3 & _ & E). apply bind_ok in E as (rs & s4 & Er & E).
      inversion E; subst. apply Forall_app. split; [|apply restore_i32].
      eapply p_repeat_Forall, Ew. intros. apply (fits_i32 bps); [lia|]. eapply p_signed_fits; eauto; lia.
  Qed.
  Lemma body_long c bps buffer : 1 <= bps <= 32 -> coding_ok (coding_of c) -> i32_slice buffer ->
    (match c with
     | SfConstant => decode_constant rb m bps buffer
     | SfVerbatim => decode_verbatim rb m bps buffer
     | SfFixed ord => decode_fixed rb m fuel bps ord buffer
     | SfLpc ord => decode_lpc rb m fuel bps ord buffer
     end) ~~ q_body t m (coding_of c) bps buffer | Forall isi32.
  Proof.
    intros Hb Hc Hl. apply sim_fact; [|intros; eapply q_body_i32; eauto].
    destruct c as [| |o|o]; cbn [coding_of q_body coding_ok] in *.
    - unfold decode_constant.
      eapply sim_ext with (d1 := bind (read_verbatim_sample rb m bps)
          (fun sample => ret (map (fun _ => sample) buffer))).
      { intros s. unfold read_verbatim_sample. rewrite bind_assoc. reflexivity. }
      { intros s. reflexivity. }
      eapply sim_bind_eq; [apply verbatim_sample_sim, Hb|intros v].
      apply sim_ret_eq, repeat_const.
    - apply (sim_weaken _ _ _ (fits_list bps (length buffer))). apply verbatim_sim, Hb.
    - apply fixed_long; auto. apply Hl.
    - apply lpc_long; auto.
  Qed.
  Lemma subframe_long bps buffer : 1 <= bps <= 32 -> i32_slice buffer ->
    simE (decode rb m fuel bps buffer) (q_subframe t m bps buffer).
  Proof.
    intros Hb Hl. unfold decode, q_subframe.
    rewrite debug_assert_ok by lia. apply sim_bind_lift_l.
    apply (header_sim _ _ _ _ _ (fun c k => if bps <=? k then fmt_err "subframe has no non-wasted bits"
        else s <- q_body t m c (bps - k) buffer ;; ret (map (fun x => wrap32 (x * 2 ^ k)) s))).
    intros c k Hc Hk. cbn [sfh_type sfh_wasted].
    destruct (Z.leb_spec bps k) as [|Hk']; [apply sim_fail|].
    rewrite chk_u32 by lia. apply sim_bind_lift_l.
    eapply sim_fact_bind; [apply body_long; auto; lia|].
    intros s Hsi.
    destruct (Z.ltb_spec 0 k) as [Hk0|Hk0].
    - rewrite debug_assert_ok by lia. apply sim_bind_lift_l.
      apply sim_ret_eq. apply map_ext. intros x. rewrite Z.mod_small by lia.
      rewrite Z.shiftl_mul_pow2 by lia. reflexivity.
    - assert (k = 0) as -> by lia. apply sim_ret_eq.
      rewrite <- (map_id s) at 1. apply map_ext_in. intros x Hx.
      rewrite Z.mul_1_r. symmetry. apply wrap32_id.
      rewrite Forall_forall in Hsi. auto.
  Qed.
  (** Samples of no bits. *)
  Lemma subframe_zero buffer :
    simE (decode rb m fuel 0 buffer)
      (pad <- bl_bit t ;;
       if (pad : bool) then fmt_err "invalid subframe header"
       else c <- p_type t ;; k <- p_wasted t m ;; fmt_err "subframe has no non-wasted bits").
  Proof.
    unfold decode. rewrite debug_assert_ok by lia. apply sim_bind_lift_l.
    apply (header_sim _ _ _ _ _ (fun c k => fmt_err "subframe has no non-wasted bits")).
    intros c k Hc Hk. cbn [sfh_type sfh_wasted]. destruct (Z.leb_spec 0 k); [apply sim_fail|lia].
  Qed.
End Refine.
