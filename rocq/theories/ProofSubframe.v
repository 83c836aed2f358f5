(** Partitions, residuals and subframes decoded from any stream. *)
From Verif Require Export ProofGrammar.
From Verif Require Import SpecReader.

Section Stream.
  Context {S} (rb : ReadBytes S) (t : tail) (D : S -> list Z -> Prop) (HS : stream rb t D).
  Context (m : build) (fuel : nat).
  Notation R := (bits_left D fuel).
  Notation simR := (sim no_esc R eq).

  Let Hrs : rb_sim no_esc D rb (fl_rb t) := stream_rb_sim rb t D HS no_esc.

  Lemma fact_eq {A} (Q : A -> Prop) (c : M (bitstream (list Z)) A) p :
    sim no_esc (bitsrel fuel) (fun a b => a = b /\ Q b) c p ->
    sim no_esc (bitsrel fuel) eq c p.
  Proof. apply sim_conseq; [auto|]. intros ? ? [-> _]. reflexivity. Qed.

  Lemma rice_partition_left b :
    simR (decode_rice_partition rb m fuel b) (p_partition t m 4 (length b)).
  Proof.
    eapply (bits_left_sim rb D fuel eq (fun rb => decode_rice_partition rb m fuel b)).
    - apply ProofSim.decode_rice_partition_sim, Hrs.
    - eapply fact_eq, ProofSub.rice_partition_sim.
  Qed.
  Lemma rice2_partition_left b :
    simR (decode_rice2_partition rb m fuel b) (p_partition t m 5 (length b)).
  Proof.
    eapply (bits_left_sim rb D fuel eq (fun rb => decode_rice2_partition rb m fuel b)).
    - apply ProofSim.decode_rice2_partition_sim, Hrs.
    - eapply fact_eq, ProofSub.rice2_partition_sim.
  Qed.
  Lemma residual_left bs order b : 0 <= order <= bs -> 1 <= bs <= 65535 -> len b = bs - order ->
    simR (decode_residual rb m fuel bs b) (p_residual t m bs order).
  Proof.
    intros H1 H2 H3.
    eapply (bits_left_sim rb D fuel eq (fun rb => decode_residual rb m fuel bs b)).
    - apply ProofSim.decode_residual_sim, Hrs.
    - eapply fact_eq, ProofSub.residual_sim; auto.
  Qed.
  Lemma subframe_left bps b : 1 <= bps <= 32 -> 1 <= len b <= 65535 ->
    simR (decode rb m fuel bps b) (p_subframe t m bps (length b)).
  Proof.
    intros H1 H2.
    eapply (bits_left_sim rb D fuel eq (fun rb => decode rb m fuel bps b)).
    - apply ProofSim.decode_sim, Hrs.
    - eapply fact_eq, ProofSub2.subframe_sim; auto.
  Qed.

  (** Reading simulations backwards and forwards *)
  Lemma left_sound {A} (c : M (bitstream S) A) p G st bits a st' :
    simR c p -> sound m p G -> R st bits -> fine m bits -> c st = (Ok a, st') ->
    exists w rest, bits = w ++ rest /\ G w a /\ R st' rest.
  Proof.
    intros Hs Hp HR Hf E. destruct (sim_fst R c p st bits Hs HR) as [E1 E2].
    rewrite E in E1, E2. cbn [fst snd] in *.
    destruct (p bits) as [o bits'] eqn:Ep. cbn [fst snd] in *. subst o.
    destruct (Hp _ _ _ Hf Ep) as (w & -> & HG).
    exists w, bits'. split; [reflexivity|]. split; [exact HG|]. apply E2. eexists; reflexivity.
  Qed.
  Lemma left_run {A} (c : M (bitstream S) A) p st bits a bits' :
    simR c p -> R st bits -> p bits = (Ok a, bits') ->
    exists st', c st = (Ok a, st') /\ R st' bits'.
  Proof.
    intros Hs HR E. destruct (sim_fst R c p st bits Hs HR) as [E1 E2].
    rewrite E in E1, E2. cbn [fst snd] in *.
    destruct (c st) as [o st']. cbn [fst snd] in *. subst o. exists st'. split; [reflexivity|].
    apply E2. eexists; reflexivity.
  Qed.
  Lemma left_total {A} (c : M (bitstream S) A) p st bits :
    simR c p -> total m p -> R st bits -> calm m bits -> value_or_error (fst (c st)).
  Proof.
    intros Hs Hp HR Hq. destruct (sim_fst R c p st bits Hs HR) as [-> _]. apply Hp, Hq.
  Qed.

  (** * Rice codes of residuals *)
  Lemma fold_unfold r : - 2 ^ 31 <= r < 2 ^ 31 ->
    0 <= fold_sign r < 2 ^ 32 /\ unfold_sign (fold_sign r) = r.
  Proof.
    intros H. unfold fold_sign, unfold_sign. destruct (Z.leb_spec 0 r).
    - split; [lia|]. rewrite Z.even_mul. cbn [Z.even orb]. rewrite Z.mul_comm, Z.div_mul by lia. reflexivity.
    - split; [lia|]. replace (- 2 * r - 1) with (2 * (- r - 1) + 1) by lia.
      rewrite Z.even_add, Z.even_mul. cbn [Z.even orb Bool.eqb].
      replace ((2 * (- r - 1) + 1) / 2) with (- r - 1) by lia. lia.
  Qed.
  Lemma rice_bits_code k r : 0 <= k -> - 2 ^ 31 <= r < 2 ^ 31 -> rice_code k (rice_bits k r) r.
  Proof.
    intros Hk Hr. destruct (fold_unfold r Hr) as [Hu Eu].
    pose proof (pow2_pos k Hk).
    exists (fold_sign r / 2 ^ k), (fold_sign r mod 2 ^ k).
    split; [split; [apply Z.div_pos; lia|apply Z.div_lt_upper_bound; nia]|].
    split; [apply Z.mod_pos_bound; lia|]. split.
    - unfold rice_bits, word. f_equal.
      rewrite <- (bits_of_mod (Z.to_nat k) (fold_sign r) (Z.to_nat k)) by lia.
      rewrite Z2Nat.id by lia. reflexivity.
    - replace (fold_sign r / 2 ^ k * 2 ^ k + fold_sign r mod 2 ^ k) with (fold_sign r)
        by (rewrite (Z.div_mod (fold_sign r) (2 ^ k)) at 1 by lia; lia).
      rewrite Z.mod_small by lia. auto.
  Qed.
  Lemma partition_bits_code pbits k rs : 0 <= k < 2 ^ pbits - 1 ->
    Forall (fun r => - 2 ^ 31 <= r < 2 ^ 31) rs ->
    rice_partition pbits (partition_bits pbits k rs) rs.
  Proof.
    intros Hk HF. exists k, (map (rice_bits k) rs). split; [exact Hk|]. split.
    - induction HF; cbn [map]; constructor; auto. apply rice_bits_code; [lia|assumption].
    - unfold partition_bits. rewrite flat_map_concat_map. reflexivity.
  Qed.

  Theorem rice_round_trip buffer k rs st rest : 0 <= k <= 14 ->
    Forall (fun r => - 2 ^ 31 <= r < 2 ^ 31) rs -> length buffer = length rs ->
    R st (partition_bits 4 k rs ++ rest) ->
    exists st', decode_rice_partition rb m fuel buffer st = (Ok rs, st') /\ R st' rest.
  Proof.
    intros Hk HF Hl HR. eapply left_run; [apply rice_partition_left|exact HR|].
    rewrite Hl. apply partition_complete, partition_bits_code; [|assumption]. cbn. lia.
  Qed.
  Theorem rice2_round_trip buffer k rs st rest : 0 <= k <= 30 ->
    Forall (fun r => - 2 ^ 31 <= r < 2 ^ 31) rs -> length buffer = length rs ->
    R st (partition_bits 5 k rs ++ rest) ->
    exists st', decode_rice2_partition rb m fuel buffer st = (Ok rs, st') /\ R st' rest.
  Proof.
    intros Hk HF Hl HR. eapply left_run; [apply rice2_partition_left|exact HR|].
    rewrite Hl. apply partition_complete, partition_bits_code; [|assumption]. cbn. lia.
  Qed.

  (** * Residuals *)
  Lemma bad_residual bs order method po rest : 0 <= bs -> 0 <= method <= 1 -> 0 <= po <= 15 ->
    ~ (bs mod 2 ^ po = 0 /\ order <= bs / 2 ^ po) ->
    exists e, fst (p_residual t m bs order (word 2 method ++ word 4 po ++ rest)) = Err (FormatError e).
  Proof.
    intros Hbs Hm Hpo Hn. unfold p_residual. unfold bind at 1, word.
    change (Z.to_nat 2) with 2%nat. change (Z.to_nat 4) with 4%nat.
    rewrite bl_bits_app by (change (2 ^ Z.of_nat 2) with 4; lia).
    unfold bind at 1.
    assert (exists pbits : nat, forall s, (if method =? 0 then ret 4%nat
              else if method =? 1 then ret 5%nat
              else fmt_err "invalid residual, encountered reserved value") s
              = (Ok pbits, s :  list bool)) as (pbits & Hp).
    { destruct (Z.eqb_spec method 0); [exists 4%nat; reflexivity|].
      destruct (Z.eqb_spec method 1); [exists 5%nat; reflexivity|lia]. }
    rewrite Hp. unfold bind at 1. rewrite bl_bits_app by (change (2 ^ Z.of_nat 4) with 16; lia).
    destruct (Z.eqb_spec (bs mod 2 ^ po) 0); cbn [negb]; [|eexists; reflexivity].
    destruct (Z.ltb_spec (bs / 2 ^ po) order); [eexists; reflexivity|lia].
  Qed.

  Theorem residual_rejects bs order buffer method po rest st :
    0 <= order <= bs -> 1 <= bs <= 65535 -> len buffer = bs - order ->
    0 <= method <= 1 -> 0 <= po <= 15 ->
    ~ (bs mod 2 ^ po = 0 /\ order <= bs / 2 ^ po) ->
    R st (word 2 method ++ word 4 po ++ rest) ->
    exists e, fst (decode_residual rb m fuel bs buffer st) = Err (FormatError e).
  Proof.
    intros H1 H2 H3 H4 H5 H6 HR.
    destruct (sim_fst R _ _ st _ (residual_left bs order buffer H1 H2 H3) HR) as [-> _].
    apply bad_residual; auto; lia.
  Qed.

  Theorem residual_accepts bs order buffer w rs rest st :
    0 <= order <= bs -> 1 <= bs <= 65535 -> len buffer = bs - order ->
    residual_code bs order w rs -> R st (w ++ rest) ->
    exists st', decode_residual rb m fuel bs buffer st = (Ok rs, st') /\ R st' rest.
  Proof.
    intros H1 H2 H3 Hw HR. eapply left_run; [apply (residual_left bs order); auto|exact HR|].
    apply residual_complete; [lia|exact Hw].
  Qed.
  Theorem residual_accepts_only bs order buffer bits rs st st' :
    0 <= order <= bs -> 1 <= bs <= 65535 -> len buffer = bs - order ->
    fine m bits -> R st bits ->
    decode_residual rb m fuel bs buffer st = (Ok rs, st') ->
    exists w rest, bits = w ++ rest /\ residual_code bs order w rs /\ R st' rest.
  Proof.
    intros H1 H2 H3 Hf HR E. eapply left_sound; eauto.
    - apply (residual_left bs order); auto.
    - apply residual_sound. lia.
  Qed.

  (** * Subframes *)
  Theorem subframe_accepts bps buffer w s rest st :
    1 <= bps <= 32 -> 1 <= len buffer <= 65535 ->
    subframe bps (length buffer) w s -> R st (w ++ rest) ->
    exists st', decode rb m fuel bps buffer st = (Ok s, st') /\ R st' rest.
  Proof.
    intros H1 H2 Hw HR. eapply left_run; [apply subframe_left; auto|exact HR|].
    apply subframe_complete, Hw.
  Qed.
  Theorem subframe_accepts_only bps buffer bits s st st' :
    1 <= bps <= 32 -> 1 <= len buffer <= 65535 -> fine m bits -> R st bits ->
    decode rb m fuel bps buffer st = (Ok s, st') ->
    exists w rest, bits = w ++ rest /\ subframe bps (length buffer) w s /\ R st' rest.
  Proof.
    intros H1 H2 Hf HR E. eapply left_sound; eauto.
    - apply subframe_left; auto.
    - apply subframe_sound. lia.
  Qed.
  Theorem subframe_never_panics bps buffer bits st :
    1 <= bps <= 32 -> 1 <= len buffer <= 65535 -> calm m bits -> R st bits ->
    value_or_error (fst (decode rb m fuel bps buffer st)).
  Proof.
    intros H1 H2 Hq HR. eapply left_total; eauto.
    - apply subframe_left; auto.
    - apply subframe_total.
  Qed.

  (** * Wasted bits *)
  Theorem wasted_bits bps buffer c k wb s rest st :
    1 <= bps <= 32 -> 1 <= len buffer <= 65535 -> 0 <= k -> k < bps ->
    body (bps - k) (length buffer) c wb s ->
    R st (false :: word 6 (coding_code c) ++ wasted_field k ++ wb ++ rest) ->
    exists st', decode rb m fuel bps buffer st
                = (Ok (map (fun x => wrap32 (x * 2 ^ k)) s), st') /\ R st' rest.
  Proof.
    intros H1 H2 Hk Hkb Hw HR.
    apply subframe_accepts with (w := false :: word 6 (coding_code c) ++ wasted_field k ++ wb); auto.
    - exists c, k, wb, s. repeat split; auto; lia.
    - cbn [app]. rewrite <- !app_assoc. exact HR.
  Qed.
  Theorem wasted_bits_rejected bps buffer c k rest st :
    1 <= bps <= 32 -> 1 <= len buffer <= 65535 -> 1 <= k < 2 ^ 32 -> bps <= k ->
    coding_ok c ->
    R st (false :: word 6 (coding_code c) ++ wasted_field k ++ rest) ->
    exists e, fst (decode rb m fuel bps buffer st) = Err (FormatError e).
  Proof.
    intros H1 H2 Hk Hkb Hc HR.
    destruct (sim_fst R _ _ st _ (subframe_left bps buffer H1 H2) HR) as [-> _].
    unfold p_subframe. unfold bind at 1. cbn [bl_bit]. unfold bind at 1.
    rewrite (type_complete t (word 6 (coding_code c)) c) by auto.
    unfold bind at 1. unfold p_wasted, wasted_field.
    destruct (Z.eqb_spec k 0); [lia|]. unfold bind at 1. cbn [app bl_bit].
    unfold bind at 1. unfold bind at 1. rewrite bl_unary_app by lia.
    replace (1 + (k - 1)) with k by lia. rewrite chk_u32 by lia. unfold lift.
    destruct (Z.ltb_spec 31 k); [eexists; reflexivity|]. unfold ret.
    destruct (Z.leb_spec bps k); [eexists; reflexivity|lia].
  Qed.
End Stream.
