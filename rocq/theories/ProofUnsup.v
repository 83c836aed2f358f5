(** The parser reports Unsupported exactly for the unimplemented features. *)
From Verif Require Export ProofSubframe ProofStereo.
From Verif Require Import SpecReader.

Lemma bind_err {S A B} (c : M S A) (f : A -> M S B) s e s' :
  bind c f s = (Err e, s') ->
  c s = (Err e, s') \/ exists a s0, c s = (Ok a, s0) /\ f a s0 = (Err e, s').
Proof.
  unfold bind. destruct (c s) as [[a|e0|w|w|] s0] eqn:E; intros H; try discriminate.
  - right. eauto.
  - left. inversion H; subst. reflexivity.
Qed.

Section Unsupported.
  Context (t : tail) (m : build).

  (** Never Unsupported *)
  Definition supported {A} (p : P A) : Prop :=
    forall s u s', p s <> (Err (Unsupported u), s').

  Lemma sup_bind {A B} (p : P A) (f : A -> P B) :
    supported p -> (forall a, supported (f a)) -> supported (bind p f).
  Proof.
    intros Hp Hf s u s' E. apply bind_err in E as [E|(a & s0 & _ & E)].
    - apply (Hp _ _ _ E).
    - apply (Hf a _ _ _ E).
  Qed.
  Lemma sup_ret {A} (a : A) : supported (ret a).
  Proof. intros s u s' E; discriminate. Qed.
  Lemma sup_fmt {A} w : supported (@fmt_err (list bool) A w).
  Proof. intros s u s' E; discriminate. Qed.
  Lemma sup_tail u : tail_error t <> Unsupported u.
  Proof. destruct t; discriminate. Qed.
  Lemma sup_bits n : supported (bl_bits t n).
  Proof.
    intros s u s' E. unfold bl_bits in E. destruct (_ <=? _)%nat; [discriminate|].
    apply (f_equal fst) in E. cbn [fst] in E. apply (sup_tail u). congruence.
  Qed.
  Lemma sup_bit : supported (bl_bit t).
  Proof.
    intros [|b s] u s' E; [|discriminate]. cbn [bl_bit] in E.
    apply (f_equal fst) in E. cbn [fst] in E. apply (sup_tail u). congruence.
  Qed.
  Lemma sup_unary : supported (bl_unary t m).
  Proof.
    intros s u s' E. unfold bl_unary in E. destruct (unary_split s) as [z [r|]];
      destruct (match m with Debug => _ | Release => _ end); try discriminate.
    apply (f_equal fst) in E. cbn [fst] in E. apply (sup_tail u). congruence.
  Qed.
  Lemma sup_chk x : supported (lift (chk m u32 x)).
  Proof. intros s u s' E. unfold lift, chk in E. destruct (_ =? _); [|destruct m]; discriminate. Qed.
  Lemma sup_repeat {A} n (p : P A) : supported p -> supported (p_repeat n p).
  Proof.
    intros Hp. induction n as [|n IH]; cbn [p_repeat]; [apply sup_ret|].
    apply sup_bind; [exact Hp|intros x]. apply sup_bind; [exact IH|intros xs; apply sup_ret].
  Qed.
  Lemma sup_signed k : supported (p_signed t k).
  Proof. apply sup_bind; [apply sup_bits|intros; apply sup_ret]. Qed.
  Lemma sup_rice k : supported (p_rice t m k).
  Proof.
    apply sup_bind; [apply sup_unary|intros q].
    apply sup_bind; [apply sup_bits|intros; apply sup_ret].
  Qed.
  Lemma sup_type : supported (p_type t).
  Proof.
    apply sup_bind; [apply sup_bits|intros n].
    destruct (n =? 0); [apply sup_ret|]. destruct (n =? 1); [apply sup_ret|].
    destruct (_ && _); [apply sup_ret|]. destruct (_ <=? _); [apply sup_ret|apply sup_fmt].
  Qed.
  Lemma sup_wasted : supported (p_wasted t m).
  Proof.
    apply sup_bind; [apply sup_bit|intros b]. apply sup_bind.
    - destruct b; [|apply sup_ret]. apply sup_bind; [apply sup_unary|intros; apply sup_chk].
    - intros k. destruct (_ <? _); [apply sup_fmt|apply sup_ret].
  Qed.

  (** Unsupported after the bits [U]. *)
  Definition rejects {A} (p : P A) (U : list bool -> Prop) : Prop :=
    forall s u s', fine m s -> p s = (Err (Unsupported u), s') ->
    exists w rest, s = w ++ rest /\ U w.
  Definition refuses {A} (p : P A) (U : list bool -> Prop) : Prop :=
    forall w rest, U w -> exists u s', p (w ++ rest) = (Err (Unsupported u), s').

  Lemma partition_rejects pbits n :
    rejects (p_partition t m pbits n) (fun w => w = word (Z.of_nat pbits) (2 ^ Z.of_nat pbits - 1)).
  Proof.
    intros s u s' Hf E. unfold p_partition in E.
    apply bind_err in E as [E|(k & s0 & Ek & E)]; [exfalso; apply (sup_bits _ _ _ _ E)|].
    apply bl_bits_inv in Ek as [-> Hk].
    destruct (Z.eqb_spec k (2 ^ Z.of_nat pbits - 1)) as [->|];
      [|exfalso; apply (sup_repeat _ _ (sup_rice _) _ _ _ E)].
    exists (word (Z.of_nat pbits) (2 ^ Z.of_nat pbits - 1)), s0.
    unfold word. rewrite Nat2Z.id. auto.
  Qed.
  Lemma partition_refuses pbits n :
    refuses (p_partition t m pbits n) (fun w => w = word (Z.of_nat pbits) (2 ^ Z.of_nat pbits - 1)).
  Proof.
    intros w rest ->. unfold p_partition, bind, word. rewrite Nat2Z.id.
    pose proof (pow2_pos (Z.of_nat pbits) ltac:(lia)).
    rewrite bl_bits_app by lia. rewrite Z.eqb_refl. eexists _, _. reflexivity.
  Qed.

  Lemma partitions_rejects pbits lens :
    rejects (p_partitions t m pbits lens)
      (fun w => exists ws parts later, Forall2 (rice_partition (Z.of_nat pbits)) ws parts
         /\ map (@length Z) parts ++ later = lens /\ later <> []
         /\ w = concat ws ++ word (Z.of_nat pbits) (2 ^ Z.of_nat pbits - 1)).
  Proof.
    induction lens as [|n lens IH]; intros s u s' Hf E; cbn [p_partitions] in E; [discriminate|].
    apply bind_err in E as [E|(a & s0 & Ea & E)].
    - apply partition_rejects in E as (w & rest & -> & ->); [|exact Hf].
      eexists _, _. split; [reflexivity|]. exists [], [], (n :: lens).
      repeat split; [constructor|discriminate].
    - apply partition_sound in Ea as (w1 & -> & Hl & Hp); [|exact Hf].
      apply bind_err in E as [E|(b & s1 & Eb & E)]; [|discriminate].
      apply IH in E as (w & rest & -> & ws & parts & later & HF & Hm & Hne & ->);
        [|eapply fine_app, Hf].
      exists (w1 ++ concat ws ++ word (Z.of_nat pbits) (2 ^ Z.of_nat pbits - 1)), rest.
      rewrite <- !app_assoc. split; [reflexivity|].
      exists (w1 :: ws), (a :: parts), later. split; [constructor; auto|].
      split; [cbn [map app]; congruence|]. split; [exact Hne|].
      cbn [concat]. rewrite <- !app_assoc. reflexivity.
  Qed.
  Lemma partitions_refuses pbits ws parts later :
    Forall2 (rice_partition (Z.of_nat pbits)) ws parts -> later <> [] ->
    forall rest, exists u s',
    p_partitions t m pbits (map (@length Z) parts ++ later)
      (concat ws ++ word (Z.of_nat pbits) (2 ^ Z.of_nat pbits - 1) ++ rest)
    = (Err (Unsupported u), s').
  Proof.
    intros HF Hne rest. induction HF as [|w p ws parts Hp HF IH]; cbn [map app concat].
    - destruct later as [|n later]; [congruence|]. cbn [p_partitions].
      destruct (partition_refuses pbits n _ rest eq_refl) as (u & s' & E).
      unfold bind at 1. rewrite E. eauto.
    - destruct IH as (u & s' & E). cbn [p_partitions]. unfold bind at 1.
      rewrite <- app_assoc. rewrite (partition_complete t m pbits w p _ Hp).
      unfold bind. rewrite E. eauto.
  Qed.

  Lemma lengths_nat bs order po parts later : 0 <= bs -> 0 <= po -> order <= bs / 2 ^ po ->
    map (@length Z) parts ++ later
    = Z.to_nat (bs / 2 ^ po - order) :: repeat (Z.to_nat (bs / 2 ^ po)) (Z.to_nat (2 ^ po - 1)) ->
    map (fun p : list Z => Z.of_nat (length p)) parts ++ map Z.of_nat later
    = partition_lengths bs order po.
  Proof.
    intros Hb Hp Ho H. apply (f_equal (map Z.of_nat)) in H.
    rewrite map_app, map_map in H. rewrite H. cbn [map]. unfold partition_lengths.
    rewrite map_repeat. pose proof (pow2_pos po Hp).
    assert (0 <= bs / 2 ^ po) by (apply Z.div_pos; lia).
    rewrite !Z2Nat.id by lia. reflexivity.
  Qed.
  Lemma lengths_Z bs order po parts later :
    map (fun p : list Z => Z.of_nat (length p)) parts ++ later
    = partition_lengths bs order po ->
    map (@length Z) parts ++ map Z.to_nat later
    = Z.to_nat (bs / 2 ^ po - order) :: repeat (Z.to_nat (bs / 2 ^ po)) (Z.to_nat (2 ^ po - 1)).
  Proof.
    intros H. apply (f_equal (map Z.to_nat)) in H.
    rewrite map_app, map_map in H. unfold partition_lengths in H. cbn [map] in H.
    rewrite map_repeat in H. rewrite <- H. f_equal. apply map_ext. intros p. lia.
  Qed.

  Lemma residual_rejects' bs order : 0 <= bs ->
    rejects (p_residual t m bs order) (escaped_residual bs order).
  Proof.
    intros Hbs s u s' Hf E. unfold p_residual in E.
    apply bind_err in E as [E|(method & s1 & Em & E)]; [exfalso; apply (sup_bits _ _ _ _ E)|].
    apply bl_bits_inv in Em as [-> Hm].
    apply bind_err in E as [E|(pbits & s2 & Ep & E)].
    { destruct (method =? 0); [discriminate|]. destruct (method =? 1); discriminate. }
    assert (s2 = s1 /\ (method = 0 \/ method = 1) /\ Z.of_nat pbits = method_pbits method)
      as (-> & Hmethod & Hpb).
    { unfold method_pbits.
      destruct (Z.eqb_spec method 0); [inversion Ep; subst; split; [reflexivity|lia]|].
      destruct (Z.eqb_spec method 1); [inversion Ep; subst; split; [reflexivity|lia]|]. discriminate. }
    apply bind_err in E as [E|(po & s3 & Epo & E)]; [exfalso; apply (sup_bits _ _ _ _ E)|].
    apply bl_bits_inv in Epo as [-> Hpo].
    change (2 ^ Z.of_nat 4) with 16 in Hpo.
    destruct (Z.eqb_spec (bs mod 2 ^ po) 0) as [Hd|]; [|discriminate]. cbn [negb] in E.
    destruct (Z.ltb_spec (bs / 2 ^ po) order) as [|Ho]; [discriminate|].
    apply partitions_rejects in E as (w & rest & -> & ws & parts & later & HF & Hlen & Hne & ->);
      [|eapply fine_app, fine_app, Hf].
    exists (word 2 method ++ word 4 po ++ concat ws
            ++ word (method_pbits method) (2 ^ method_pbits method - 1)), rest.
    rewrite <- Hpb. rewrite <- !app_assoc. split; [reflexivity|].
    exists method, po, ws, parts, (map Z.of_nat later). rewrite <- Hpb.
    split; [assumption|]. split; [lia|]. split; [assumption|]. split; [assumption|].
    split; [assumption|]. split; [apply lengths_nat; auto; lia|]. split; [|reflexivity].
    destruct later; [congruence|discriminate].
  Qed.
  Lemma residual_refuses bs order : refuses (p_residual t m bs order) (escaped_residual bs order).
  Proof.
    intros w rest (method & po & ws & parts & later & Hm & Hpo & Hd & Ho & HF & Hlen & Hne & ->).
    unfold p_residual. unfold bind at 1, word at 1. change (Z.to_nat 2) with 2%nat.
    rewrite <- !app_assoc, bl_bits_app by (change (2 ^ Z.of_nat 2) with 4; lia).
    unfold bind at 1.
    assert (exists pbits : nat, (forall s, (if method =? 0 then ret 4%nat
              else if method =? 1 then ret 5%nat
              else fmt_err "invalid residual, encountered reserved value") s
              = (Ok pbits, s :  list bool)) /\ method_pbits method = Z.of_nat pbits)
      as (pbits & Hp & Hpb).
    { destruct Hm as [-> | ->]; [exists 4%nat|exists 5%nat]; split; reflexivity. }
    rewrite Hp. unfold bind at 1, word at 1. change (Z.to_nat 4) with 4%nat.
    rewrite bl_bits_app by (change (2 ^ Z.of_nat 4) with 16; lia).
    rewrite Hd. cbn [Z.eqb negb]. destruct (Z.ltb_spec (bs / 2 ^ po) order); [lia|].
    rewrite <- (lengths_Z bs order po parts later Hlen). rewrite Hpb in *.
    apply partitions_refuses; [exact HF|]. destruct later; [congruence|discriminate].
  Qed.

  Lemma body_rejects c bps n : 1 <= bps <= 32 -> coding_ok c ->
    rejects (p_body t m c bps n) (unsupported_body bps n c).
  Proof.
    intros Hb Hc s u s' Hf E. destruct c as [| |o|o]; cbn [p_body coding_ok] in *.
    - exfalso. revert E. apply sup_bind; [apply sup_signed|intros; apply sup_ret].
    - exfalso. revert E. apply sup_repeat, sup_signed.
    - unfold p_fixed in E. destruct (Z.ltb_spec (Z.of_nat n) o); [discriminate|].
      apply bind_err in E as [E|(warm & s1 & Ew & E)];
        [exfalso; revert E; apply sup_repeat, sup_signed|].
      apply signeds_sound with (m := m) in Ew as (w & -> & Hl & HF & ->); [|lia|assumption].
      apply bind_err in E as [E|(rs & s2 & Er & E)]; [|discriminate].
      apply residual_rejects' in E as (w & rest & -> & HR); [|lia|eapply fine_app, Hf].
      exists (words bps warm ++ w), rest. rewrite <- app_assoc. split; [reflexivity|].
      constructor; auto; lia.
    - unfold p_lpc in E. destruct (Z.ltb_spec (Z.of_nat n) o); [discriminate|].
      apply bind_err in E as [E|(warm & s1 & Ew & E)];
        [exfalso; revert E; apply sup_repeat, sup_signed|].
      apply signeds_sound with (m := m) in Ew as (w & -> & Hl & HF & ->); [|lia|assumption].
      apply bind_err in E as [E|(p & s2 & Ep & E)]; [exfalso; apply (sup_bits _ _ _ _ E)|].
      apply bl_bits_inv in Ep as [-> Hp]. change (2 ^ Z.of_nat 4) with 16 in Hp.
      destruct (Z.eqb_spec p 15); [discriminate|].
      apply bind_err in E as [E|(sh & s3 & Esh & E)]; [exfalso; apply (sup_signed _ _ _ _ E)|].
      apply signed_sound with (m := m) in Esh as (w & -> & Hsh & ->); [|lia|do 2 eapply fine_app; exact Hf].
      destruct Hsh as [Hsh1 Hsh2]. change (2 ^ (5 - 1)) with 16 in Hsh1, Hsh2.
      destruct (Z.ltb_spec sh 0).
      { exists (words bps warm ++ word 4 (p + 1 - 1) ++ word 5 sh), s3.
        replace (p + 1 - 1) with p by lia.
        rewrite <- !app_assoc. split; [unfold word; reflexivity|].
        replace p with (p + 1 - 1) at 1 by lia. constructor; auto; lia. }
      apply bind_err in E as [E|(cs & s4 & Ecs & E)];
        [exfalso; revert E; apply sup_repeat, sup_signed|].
      apply signeds_sound with (m := m) in Ecs as (w & -> & Hlc & HFc & ->); [|lia|do 3 eapply fine_app; exact Hf].
      apply bind_err in E as [E|(rs & s5 & Er & E)]; [|discriminate].
      apply residual_rejects' in E as (w & rest & -> & HR); [|lia|do 4 eapply fine_app; exact Hf].
      exists (words bps warm ++ word 4 (p + 1 - 1) ++ word 5 sh ++ words (p + 1) cs ++ w), rest.
      replace (p + 1 - 1) with p by lia.
      rewrite <- !app_assoc. split; [unfold word; reflexivity|].
      replace p with (p + 1 - 1) at 1 by lia. constructor; auto; lia.
  Qed.
  Lemma body_refuses c bps n : 1 <= bps -> refuses (p_body t m c bps n) (unsupported_body bps n c).
  Proof.
    intros Hb w rest H. destruct H as [o warm w Ho Hl Hn HF HR|o warm p sh Ho Hl Hn HF Hp Hsh
      |o warm p sh cs w Ho Hl Hn HF Hp Hsh Hlc HFc HR]; cbn [p_body].
    - unfold p_fixed. destruct (Z.ltb_spec (Z.of_nat n) o); [lia|].
      replace (Z.to_nat o) with (length warm) by lia.
      unfold bind at 1. rewrite <- app_assoc, signeds_complete by auto.
      unfold bind. destruct (residual_refuses _ _ _ rest HR) as (u & s' & E). rewrite E. eauto.
    - unfold p_lpc. destruct (Z.ltb_spec (Z.of_nat n) o); [lia|].
      replace (p_repeat (Z.to_nat o) (p_signed t bps)) with (p_repeat (length warm) (p_signed t bps)) by (do 2 f_equal; lia).
      unfold bind at 1. rewrite <- !app_assoc, signeds_complete by auto.
      unfold bind at 1. unfold word at 1. change (Z.to_nat 4) with 4%nat.
      rewrite bl_bits_app by (change (2 ^ Z.of_nat 4) with 16; lia).
      destruct (Z.eqb_spec (p - 1) 15); [lia|].
      unfold bind at 1. rewrite (signed_complete t 5 ltac:(lia) (word 5 sh) sh)
        by (split; [red; change (2 ^ (5 - 1)) with 16; lia|reflexivity]).
      destruct (Z.ltb_spec sh 0); [|lia]. eexists _, _. reflexivity.
    - unfold p_lpc. destruct (Z.ltb_spec (Z.of_nat n) o); [lia|].
      replace (p_repeat (Z.to_nat o) (p_signed t bps)) with (p_repeat (length warm) (p_signed t bps)) by (do 2 f_equal; lia).
      unfold bind at 1. rewrite <- !app_assoc, signeds_complete by auto.
      unfold bind at 1. unfold word at 1. change (Z.to_nat 4) with 4%nat.
      rewrite bl_bits_app by (change (2 ^ Z.of_nat 4) with 16; lia).
      destruct (Z.eqb_spec (p - 1) 15); [lia|].
      unfold bind at 1. rewrite (signed_complete t 5 ltac:(lia) (word 5 sh) sh)
        by (split; [red; change (2 ^ (5 - 1)) with 16; lia|reflexivity]).
      destruct (Z.ltb_spec sh 0); [lia|].
      replace (p - 1 + 1) with p by lia.
      replace (p_repeat (Z.to_nat o) (p_signed t p)) with (p_repeat (length cs) (p_signed t p)) by (do 2 f_equal; lia).
      unfold bind at 1. rewrite signeds_complete by (auto; lia).
      unfold bind. destruct (residual_refuses _ _ _ rest HR) as (u & s' & E). rewrite E. eauto.
  Qed.

  Theorem subframe_rejects bps n : 1 <= bps <= 32 ->
    rejects (p_subframe t m bps n) (unsupported_subframe bps n).
  Proof.
    intros Hb s u s' Hf E. unfold p_subframe in E.
    apply bind_err in E as [E|(pad & s1 & Epad & E)]; [exfalso; apply (sup_bit _ _ _ E)|].
    destruct s as [|b' s]; [discriminate|]. inversion Epad; subst.
    destruct pad; [discriminate|].
    apply bind_err in E as [E|(c & s2 & Ec & E)]; [exfalso; apply (sup_type _ _ _ E)|].
    apply type_sound with (m := m) in Ec as (w & -> & Hc & ->); [|eapply (fine_app _ [false]), Hf].
    apply bind_err in E as [E|(k & s3 & Ek & E)]; [exfalso; apply (sup_wasted _ _ _ E)|].
    apply wasted_sound in Ek as (w & -> & Hk & ->); [|eapply fine_app, (fine_app _ [false]), Hf].
    destruct (Z.leb_spec bps k); [discriminate|].
    apply bind_err in E as [E|(l & s4 & El & E)]; [|discriminate].
    apply body_rejects in E as (w & rest & -> & Hw); [|lia|assumption|eapply fine_app, fine_app, (fine_app _ [false]), Hf].
    exists (false :: word 6 (coding_code c) ++ wasted_field k ++ w), rest.
    cbn [app]. rewrite <- !app_assoc. split; [reflexivity|].
    exists c, k, w. auto.
  Qed.

  Lemma unsupported_coding c bps n w : unsupported_body bps n c w -> coding_ok c.
  Proof. destruct 1; cbn [coding_ok]; auto. Qed.

  Theorem subframe_refuses bps n : refuses (p_subframe t m bps n) (unsupported_subframe bps n).
  Proof.
    intros w rest (c & k & wb & Hk & Hkb & Hw & ->).
    unfold p_subframe. unfold bind at 1. cbn [app bl_bit]. rewrite <- !app_assoc.
    unfold bind at 1.
    rewrite (type_complete t (word 6 (coding_code c)) c)
      by (split; [eapply unsupported_coding, Hw|reflexivity]).
    unfold bind at 1. rewrite (wasted_complete t m (wasted_field k) k) by auto.
    destruct (Z.leb_spec bps k); [lia|]. unfold bind.
    destruct (body_refuses c (bps - k) n ltac:(lia) wb rest Hw) as (u & s' & E). rewrite E. eauto.
  Qed.
End Unsupported.
