(** Debug builds panic exactly on the frames of [frame_overflow]. *)
From Verif Require Export ProofLoose ProofFault.
From Verif Require Import SpecReader.

Lemma bind_panic {S A B} (c : M S A) (f : A -> M S B) s w s' :
  bind c f s = (Panic w, s') -> c s = (Panic w, s') \/ exists a s0, c s = (Ok a, s0) /\ f a s0 = (Panic w, s').
Proof.
  unfold bind. destruct (c s) as [[a|e|x|x|] s0]; intros E; try discriminate E; [right; eauto|left; congruence].
Qed.
Lemma bind_panics {S A B} (c : M S A) (f : A -> M S B) s :
  (exists w s', c s = (Panic w, s')) -> exists w s', bind c f s = (Panic w, s').
Proof. intros (w & s' & E). unfold bind. rewrite E. eauto. Qed.

Section Bits.
  Context (t : tail).
  Notation m := Debug.

  Definition bounded {A} (p : P A) : Prop := forall s w s', p s <> (Panic w, s').
  Definition bursts {A} (p : P A) (G : list bool -> Prop) : Prop :=
    forall s w s', p s = (Panic w, s') -> exists x r, s = x ++ r /\ G x.
  Definition breaks {A} (p : P A) (G : list bool -> Prop) : Prop :=
    forall x r, G x -> exists w s', p (x ++ r) = (Panic w, s').

  Lemma fine_debug s : fine m s.
  Proof. left. reflexivity. Qed.
  Hint Resolve fine_debug : core.

  Lemma bounded_ret {A} (a : A) : bounded (ret a).
  Proof. intros s w s' E. discriminate. Qed.
  Lemma bounded_bind {A B} (p : P A) (f : A -> P B) : bounded p -> (forall a, bounded (f a)) -> bounded (bind p f).
  Proof. intros Hp Hf s w s' E. apply bind_panic in E as [E|(a & s0 & _ & E)]; [apply (Hp _ _ _ E)|apply (Hf a _ _ _ E)]. Qed.
  Lemma bounded_bits n : bounded (bl_bits t n).
  Proof. intros s w s' E. unfold bl_bits in E. destruct (_ <=? _)%nat; discriminate. Qed.
  Lemma bounded_bit : bounded (bl_bit t).
  Proof. intros [|b s] w s' E; discriminate. Qed.
  Lemma bounded_repeat {A} n (p : P A) : bounded p -> bounded (p_repeat n p).
  Proof.
    intros Hp. induction n as [|n IH]; cbn [p_repeat]; [apply bounded_ret|].
    apply bounded_bind; [exact Hp|intros x]. apply bounded_bind; [exact IH|intros; apply bounded_ret].
  Qed.
  Lemma bounded_signed k : bounded (p_signed t k).
  Proof. apply bounded_bind; [apply bounded_bits|intros; apply bounded_ret]. Qed.
  Lemma bounded_signeds n k : bounded (p_repeat n (p_signed t k)).
  Proof. apply bounded_repeat, bounded_signed. Qed.

  (** ** Counting *)
  Lemma overlong_split s : 2 ^ 32 <= fst (unary_split s) -> exists r, s = overlong ++ r.
  Proof.
    intros H. unfold overlong. revert H. assert (0 <= 2 ^ 32) as H0 by lia. revert H0.
    generalize (2 ^ 32). intros K H0 H.
    assert (exists r, s = repeat false (Z.to_nat (fst (unary_split s))) ++ r) as [r Hr].
    { destruct (unary_split s) as [z [r|]] eqn:E; cbn [fst] in *.
      - apply unary_split_some in E as [-> _]. exists (true :: r). unfold unary. rewrite <- app_assoc. reflexivity.
      - apply unary_split_none in E as [-> _]. exists []. rewrite app_nil_r. reflexivity. }
    exists (repeat false (Z.to_nat (fst (unary_split s)) - Z.to_nat K) ++ r). rewrite Hr at 1.
    rewrite app_assoc, <- repeat_app. f_equal. f_equal. lia.
  Qed.
  Lemma split_overlong r : 2 ^ 32 <= fst (unary_split (overlong ++ r)).
  Proof.
    unfold overlong. assert (0 <= 2 ^ 32) as H0 by lia. revert H0. generalize (2 ^ 32). intros K H0.
    rewrite <- (Z2Nat.id K H0) at 1. clear H0. induction (Z.to_nat K) as [|n IH].
    - cbn [repeat app]. pose proof (unary_split_nonneg r). lia.
    - cbn [repeat app unary_split]. destruct (unary_split (repeat false n ++ r)). cbn [fst] in *. lia.
  Qed.
  Opaque overlong.
  Lemma unary_bursts : bursts (bl_unary t m) (fun x => x = overlong).
  Proof.
    intros s w s' E. unfold bl_unary in E. pose proof (overlong_split s) as H.
    destruct (unary_split s) as [z o]. cbn [fst] in H.
    destruct (Z.leb_spec (2 ^ 32) z); [|destruct o; discriminate].
    destruct (H ltac:(assumption)) as (r & ->). eauto.
  Qed.
  Lemma unary_breaks : breaks (bl_unary t m) (fun x => x = overlong).
  Proof.
    intros x r ->. unfold bl_unary. pose proof (split_overlong r) as H.
    destruct (unary_split (overlong ++ r)) as [z o]. cbn [fst] in H.
    destruct (Z.leb_spec (2 ^ 32) z); [eauto|lia].
  Qed.

  (** ** Residuals *)
  Lemma rice_bursts k : bursts (p_rice t m k) (fun x => x = overlong).
  Proof.
    intros s w s' E. apply bind_panic in E as [E|(q & s0 & _ & E)]; [apply unary_bursts in E; exact E|].
    exfalso. revert E. apply bounded_bind; [apply bounded_bits|intros; apply bounded_ret].
  Qed.
  Lemma rice_breaks k : breaks (p_rice t m k) (fun x => x = overlong).
  Proof. intros x r H. apply bind_panics, unary_breaks, H. Qed.
  Lemma rices_bursts k n : bursts (p_repeat n (p_rice t m k))
    (fun x => exists ws rs, Forall2 (rice_code (Z.of_nat k)) ws rs /\ (length rs < n)%nat /\ x = concat ws ++ overlong).
  Proof.
    induction n as [|n IH]; intros s w s' E; cbn [p_repeat] in E; [discriminate|].
    apply bind_panic in E as [E|(a & s0 & Ea & E)].
    - apply rice_bursts in E as (x & r & -> & ->). exists overlong, r. split; [reflexivity|].
      exists [], []. split; [constructor|]. split; [cbn; lia|reflexivity].
    - apply (rice_sound t m) in Ea as (w1 & -> & G1); [|auto].
      apply bind_panic in E as [E|(b & s1 & _ & E)]; [|discriminate].
      apply IH in E as (x & r & -> & ws & rs & HF & Hl & ->).
      exists (w1 ++ concat ws ++ overlong), r. rewrite <- !app_assoc. split; [reflexivity|].
      exists (w1 :: ws), (a :: rs). split; [constructor; auto|]. split; [cbn [length]; lia|].
      cbn [concat]. rewrite <- app_assoc. reflexivity.
  Qed.
  Lemma rices_breaks k ws rs : Forall2 (rice_code (Z.of_nat k)) ws rs -> forall x n r, x = overlong -> (length rs < n)%nat ->
    exists w s', p_repeat n (p_rice t m k) (concat ws ++ x ++ r) = (Panic w, s').
  Proof.
    intros HF x n r Hx. revert n. induction HF as [|w a ws rs Hw HF IH]; intros [|n] Hn; try (cbn in Hn; lia); cbn [p_repeat concat app].
    - apply bind_panics, rice_breaks, Hx.
    - unfold bind at 1. rewrite <- app_assoc, (rice_complete t m k _ _ _ Hw).
      apply bind_panics, IH. cbn [length] in Hn. lia.
  Qed.

  Lemma partition_bursts pbits n :
    bursts (p_partition t m pbits n) (partition_overflow (Z.of_nat pbits) (Z.of_nat n)).
  Proof.
    intros s w s' E. unfold p_partition in E.
    apply bind_panic in E as [E|(k & s0 & Ek & E)]; [destruct (bounded_bits _ _ _ _ E)|].
    apply bl_bits_inv in Ek as [-> Hk].
    destruct (Z.eqb_spec k (2 ^ Z.of_nat pbits - 1)); [discriminate|].
    apply rices_bursts in E as (x & r & -> & ws & rs & HF & Hl & ->). rewrite Z2Nat.id in HF by lia.
    exists (word (Z.of_nat pbits) k ++ concat ws ++ overlong), r. unfold word at 1. rewrite Nat2Z.id, <- !app_assoc.
    split; [reflexivity|]. exists k, ws, rs. repeat split; auto; lia.
  Qed.
  Lemma partition_breaks pbits n :
    breaks (p_partition t m pbits n) (partition_overflow (Z.of_nat pbits) (Z.of_nat n)).
  Proof.
    intros x r (k & ws & rs & Hk & HF & Hl & ->). unfold p_partition. unfold bind, word.
    rewrite Nat2Z.id, <- !app_assoc, bl_bits_app by lia.
    destruct (Z.eqb_spec k (2 ^ Z.of_nat pbits - 1)); [lia|].
    apply (rices_breaks (Z.to_nat k) ws rs); [|reflexivity|lia]. rewrite Z2Nat.id by lia. exact HF.
  Qed.

  Lemma partitions_bursts pbits lens : bursts (p_partitions t m pbits lens)
    (fun x => exists ws parts n later wp, Forall2 (rice_partition (Z.of_nat pbits)) ws parts
       /\ map (@length Z) parts ++ n :: later = lens
       /\ partition_overflow (Z.of_nat pbits) (Z.of_nat n) wp /\ x = concat ws ++ wp).
  Proof.
    induction lens as [|n lens IH]; intros s w s' E; cbn [p_partitions] in E; [discriminate|].
    apply bind_panic in E as [E|(a & s0 & Ea & E)].
    - apply partition_bursts in E as (x & r & -> & Hx). exists x, r. split; [reflexivity|].
      exists [], [], n, lens, x. repeat split; [constructor|exact Hx].
    - apply partition_sound in Ea as (w1 & -> & Hl & Hp); [|auto].
      apply bind_panic in E as [E|(b & s1 & _ & E)]; [|discriminate].
      apply IH in E as (x & r & -> & ws & parts & n' & later & wp & HF & Hm & Hwp & ->).
      exists (w1 ++ concat ws ++ wp), r. rewrite <- !app_assoc. split; [reflexivity|].
      exists (w1 :: ws), (a :: parts), n', later, wp. split; [constructor; auto|].
      split; [cbn [map app]; congruence|]. split; [exact Hwp|]. cbn [concat]. rewrite <- app_assoc. reflexivity.
  Qed.
  Lemma partitions_breaks pbits ws parts n later wp :
    Forall2 (rice_partition (Z.of_nat pbits)) ws parts ->
    partition_overflow (Z.of_nat pbits) (Z.of_nat n) wp -> forall r,
    exists w s', p_partitions t m pbits (map (@length Z) parts ++ n :: later) (concat ws ++ wp ++ r) = (Panic w, s').
  Proof.
    intros HF Hwp r. induction HF as [|w p ws parts Hp HF IH]; cbn [map app concat p_partitions].
    - apply bind_panics, partition_breaks, Hwp.
    - unfold bind at 1. rewrite <- app_assoc, (partition_complete t m pbits w p _ Hp).
      apply bind_panics, IH.
  Qed.

  Lemma residual_bursts bs order : 0 <= bs -> bursts (p_residual t m bs order) (residual_overflow bs order).
  Proof.
    intros Hbs s w s' E. unfold p_residual in E.
    apply bind_panic in E as [E|(method & s1 & Em & E)]; [destruct (bounded_bits _ _ _ _ E)|].
    apply bl_bits_inv in Em as [-> Hm]. change (2 ^ Z.of_nat 2) with 4 in Hm.
    apply bind_panic in E as [E|(pbits & s2 & Ep & E)].
    { destruct (Z.eqb_spec method 0); [discriminate|]. destruct (Z.eqb_spec method 1); discriminate. }
    assert (s2 = s1 /\ (method = 0 \/ method = 1) /\ Z.of_nat pbits = method_pbits method)
      as (-> & Hmethod & Hpb).
    { unfold method_pbits.
      destruct (Z.eqb_spec method 0); [inversion Ep; subst; split; [reflexivity|lia]|].
      destruct (Z.eqb_spec method 1); [inversion Ep; subst; split; [reflexivity|lia]|]. discriminate. }
    apply bind_panic in E as [E|(po & s3 & Epo & E)]; [destruct (bounded_bits _ _ _ _ E)|].
    apply bl_bits_inv in Epo as [-> Hpo]. change (2 ^ Z.of_nat 4) with 16 in Hpo.
    destruct (Z.eqb_spec (bs mod 2 ^ po) 0) as [Hd|Hd]; cbn [negb] in E; [|discriminate].
    destruct (Z.ltb_spec (bs / 2 ^ po) order) as [Ho|Ho]; [discriminate|].
    apply partitions_bursts in E as (x & r & -> & ws & parts & n & later & wp & HF & Hlen & Hwp & ->).
    exists (word 2 method ++ word 4 po ++ concat ws ++ wp), r.
    rewrite <- !app_assoc. split; [reflexivity|].
    exists method, po, ws, parts, (Z.of_nat n), (map Z.of_nat later), wp. rewrite <- Hpb.
    split; [assumption|]. split; [lia|]. split; [assumption|]. split; [assumption|].
    split; [assumption|]. split; [|auto]. apply (lengths_nat bs order po parts (n :: later)); auto; lia.
  Qed.
  Lemma residual_breaks bs order : breaks (p_residual t m bs order) (residual_overflow bs order).
  Proof.
    intros x r (method & po & ws & parts & n & later & wp & Hm & Hpo & Hd & Ho & HF & Hlen & Hwp & ->). unfold p_residual.
    assert (exists pbits : nat, (forall s : list bool, (if method =? 0 then ret 4%nat
              else if method =? 1 then ret 5%nat
              else fmt_err "invalid residual, encountered reserved value") s
              = (Ok pbits, s)) /\ method_pbits method = Z.of_nat pbits) as (pbits & Hp & Hpb).
    { destruct Hm as [-> | ->]; [exists 4%nat|exists 5%nat]; split; reflexivity. }
    unfold bind at 1, word at 1; change (Z.to_nat 2) with 2%nat;
      rewrite <- ?app_assoc, bl_bits_app by (change (2 ^ Z.of_nat 2) with 4; lia).
    unfold bind at 1. rewrite Hp.
    unfold bind at 1, word at 1. change (Z.to_nat 4) with 4%nat.
    rewrite bl_bits_app by (change (2 ^ Z.of_nat 4) with 16; lia).
    rewrite Hd. cbn [Z.eqb negb]. destruct (Z.ltb_spec (bs / 2 ^ po) order); [lia|].
    rewrite <- (lengths_Z bs order po parts (n :: later) Hlen). rewrite Hpb in *. cbn [map].
    apply partitions_breaks; [exact HF|].
    assert (0 <= n) as Hn.
    { destruct Hwp as (_ & _ & rs & _ & _ & Hl & _). lia. }
    rewrite Z2Nat.id by exact Hn. exact Hwp.
  Qed.

  (** ** Bodies *)
  Lemma body_bursts c bps n : 1 <= bps <= 32 -> coding_ok c -> bursts (p_body t m c bps n) (body_overflow bps n c).
  Proof.
    intros Hb Hc s w0 s' E. destruct c as [| |o|o]; cbn [p_body coding_ok] in *.
    - exfalso. revert E. apply bounded_bind; [apply bounded_signed|intros; apply bounded_ret].
    - exfalso. revert E. apply bounded_signeds.
    - unfold p_fixed in E. destruct (Z.ltb_spec (Z.of_nat n) o); [discriminate|].
      apply bind_panic in E as [E|(warm & s1 & Ew & E)]; [destruct (bounded_signeds _ _ _ _ _ E)|].
      apply signeds_sound with (m := m) in Ew as (w & -> & Hl & HF & ->); [|lia|auto].
      apply bind_panic in E as [E|(rs & s2 & Er & E)]; [|discriminate].
      apply residual_bursts in E as (w & r & -> & HR); [|lia].
      exists (words bps warm ++ w), r. rewrite <- app_assoc. split; [reflexivity|].
      constructor; auto; lia.
    - unfold p_lpc in E. destruct (Z.ltb_spec (Z.of_nat n) o); [discriminate|].
      apply bind_panic in E as [E|(warm & s1 & Ew & E)]; [destruct (bounded_signeds _ _ _ _ _ E)|].
      apply signeds_sound with (m := m) in Ew as (w & -> & Hl & HF & ->); [|lia|auto].
      apply bind_panic in E as [E|(p & s2 & Ep & E)]; [destruct (bounded_bits _ _ _ _ E)|].
      apply bl_bits_inv in Ep as [-> Hp]. change (2 ^ Z.of_nat 4) with 16 in Hp.
      destruct (Z.eqb_spec p 15) as [->|]; [discriminate|].
      apply bind_panic in E as [E|(sh & s3 & Esh & E)]; [destruct (bounded_signed _ _ _ _ E)|].
      apply signed_sound with (m := m) in Esh as (w & -> & Hsh & ->); [|lia|auto].
      destruct Hsh as [Hsh1 Hsh2]. change (2 ^ (5 - 1)) with 16 in Hsh1, Hsh2.
      destruct (Z.ltb_spec sh 0); [discriminate|].
      apply bind_panic in E as [E|(cs & s4 & Ecs & E)]; [destruct (bounded_signeds _ _ _ _ _ E)|].
      apply signeds_sound with (m := m) in Ecs as (w & -> & Hlc & HFc & ->); [|lia|auto].
      apply bind_panic in E as [E|(rs & s5 & Er & E)]; [|discriminate].
      apply residual_bursts in E as (w & r & -> & HR); [|lia].
      exists (words bps warm ++ word 4 (p + 1 - 1) ++ word 5 sh ++ words (p + 1) cs ++ w), r.
      replace (p + 1 - 1) with p by lia.
      rewrite <- !app_assoc. split; [unfold word; reflexivity|].
      replace p with (p + 1 - 1) at 1 by lia. constructor; auto; lia.
  Qed.
  Lemma body_breaks c bps n : 1 <= bps -> breaks (p_body t m c bps n) (body_overflow bps n c).
  Proof.
    intros Hb x r H. destruct H as [o warm w Ho Hl Hn HF HR
      |o warm p sh cs w Ho Hl Hn HF Hp Hsh Hlc HFc HR]; cbn [p_body].
    - unfold p_fixed. destruct (Z.ltb_spec (Z.of_nat n) o); [lia|].
      replace (Z.to_nat o) with (length warm) by lia.
      unfold bind at 1. rewrite <- app_assoc, signeds_complete by auto.
      apply bind_panics, residual_breaks, HR.
    - unfold p_lpc. destruct (Z.ltb_spec (Z.of_nat n) o); [lia|].
      replace (p_repeat (Z.to_nat o) (p_signed t bps)) with (p_repeat (length warm) (p_signed t bps)) by (do 2 f_equal; lia).
      unfold bind at 1. rewrite <- !app_assoc, signeds_complete by auto.
      unfold bind at 1. unfold word at 1. change (Z.to_nat 4) with 4%nat.
      rewrite bl_bits_app by (change (2 ^ Z.of_nat 4) with 16; lia).
      destruct (Z.eqb_spec (p - 1) 15); [lia|].
      unfold bind at 1. rewrite (signed_complete t 5 ltac:(lia) (word 5 sh) sh)
        by (split; [red; change (2 ^ (5 - 1)) with 16; lia|reflexivity]).
      destruct (Z.ltb_spec sh 0); [lia|].
      replace (p - 1 + 1) with p by lia.
      replace (p_repeat (Z.to_nat o) (p_signed t p)) with (p_repeat (length cs) (p_signed t p)) by (do 2 f_equal; lia).
      unfold bind at 1. rewrite signeds_complete by (auto; lia).
      apply bind_panics, residual_breaks, HR.
  Qed.

  (** ** Subframes *)
  Lemma bounded_type : bounded (p_type t).
  Proof.
    apply bounded_bind; [apply bounded_bits|intros n s w s' E].
    destruct (n =? 0); [discriminate|]. destruct (n =? 1); [discriminate|].
    destruct (_ && _); [discriminate|]. destruct (_ <=? _); discriminate.
  Qed.
  Definition wasted_overflow (x : list bool) : Prop := x = true :: overlong \/ x = true :: unary (2 ^ 32 - 1).
  Lemma wasted_bursts : bursts (p_wasted t m) wasted_overflow.
  Proof.
    intros s w s' E. unfold p_wasted in E.
    apply bind_panic in E as [E|(b & s1 & Eb & E)]; [destruct (bounded_bit _ _ _ E)|].
    destruct s as [|b' s]; [discriminate|]. inversion Eb; subst b' s1.
    apply bind_panic in E as [E|(k & s2 & Ek & E)].
    2: { destruct (31 <? k); discriminate. }
    destruct b; [|discriminate].
    apply bind_panic in E as [E|(u & s3 & Eu & E)].
    - apply unary_bursts in E as (x & r & -> & ->). exists (true :: overlong), r. split; [reflexivity|left; reflexivity].
    - apply (unary_inv t m) in Eu as (-> & Hu & _); [|auto].
      unfold lift, chk in E. destruct (Z.eqb_spec (u32 (1 + u)) (1 + u)) as [|Hne]; [discriminate|].
      assert (u = 2 ^ 32 - 1) as Eu.
      { destruct (Z.eq_dec u (2 ^ 32 - 1)); [assumption|]. exfalso. apply Hne. apply u32_id. lia. }
      exists (true :: unary u), s3. split; [reflexivity|right; rewrite Eu; reflexivity].
  Qed.
  Lemma wasted_breaks : breaks (p_wasted t m) wasted_overflow.
  Proof.
    assert (forall x r, x = overlong -> exists w s', p_wasted t m (true :: x ++ r) = (Panic w, s')) as H1.
    { intros x r Hx. unfold p_wasted. unfold bind at 1. cbn [bl_bit]. apply bind_panics, bind_panics, unary_breaks, Hx. }
    assert (forall u r, u = 2 ^ 32 - 1 -> exists w s', p_wasted t m (true :: unary u ++ r) = (Panic w, s')) as H2.
    { intros u r Hu. unfold p_wasted. unfold bind at 1. cbn [bl_bit]. apply bind_panics.
      unfold bind. rewrite bl_unary_app by lia. rewrite Hu. eexists _, _. reflexivity. }
    intros x r [-> | ->]; [apply H1|apply H2]; reflexivity.
  Qed.
  Theorem subframe_bursts bps n : 1 <= bps <= 32 -> bursts (p_subframe t m bps n) (subframe_overflow bps n).
  Proof.
    intros Hb s w0 s' E. unfold p_subframe in E.
    apply bind_panic in E as [E|(pad & s1 & Epad & E)]; [destruct (bounded_bit _ _ _ E)|].
    destruct s as [|b' s]; [discriminate|]. inversion Epad; subst b' s1.
    destruct pad; [discriminate|].
    apply bind_panic in E as [E|(c & s2 & Ec & E)]; [destruct (bounded_type _ _ _ E)|].
    apply type_sound with (m := m) in Ec as (w & -> & Hc & ->); [|auto].
    apply bind_panic in E as [E|(k & s3 & Ek & E)].
    { apply wasted_bursts in E as (x & r & -> & Hx).
      exists (false :: word 6 (coding_code c) ++ x), r. cbn [app]. rewrite <- app_assoc.
      split; [reflexivity|]. destruct Hx as [-> | ->]; [apply overflow_wasted|apply overflow_wasted_sum]; exact Hc. }
    apply wasted_sound in Ek as (w & -> & Hk & ->); [|auto].
    destruct (Z.leb_spec bps k); [discriminate|].
    apply bind_panic in E as [E|(l & s4 & El & E)]; [|discriminate].
    apply body_bursts in E as (w & r & -> & Hw); [|lia|assumption].
    exists (false :: word 6 (coding_code c) ++ wasted_field k ++ w), r.
    cbn [app]. rewrite <- !app_assoc. split; [reflexivity|]. apply overflow_body; assumption.
  Qed.
  Lemma overflow_coding c bps n w : body_overflow bps n c w -> coding_ok c.
  Proof. destruct 1; cbn [coding_ok]; auto. Qed.
  Theorem subframe_breaks bps n : breaks (p_subframe t m bps n) (subframe_overflow bps n).
  Proof.
    intros x r H. destruct H as [c Hc|c Hc|c k w Hk Hb Hw];
      unfold p_subframe; unfold bind at 1; cbn [app bl_bit]; rewrite <- ?app_assoc.
    - unfold bind at 1. rewrite (type_complete t (word 6 (coding_code c)) c) by auto.
      apply bind_panics, wasted_breaks. left. reflexivity.
    - unfold bind at 1. rewrite (type_complete t (word 6 (coding_code c)) c) by auto.
      apply bind_panics, wasted_breaks. right. reflexivity.
    - unfold bind at 1. rewrite (type_complete t (word 6 (coding_code c)) c) by (split; [eapply overflow_coding, Hw|reflexivity]).
      unfold bind at 1. rewrite (wasted_complete t m (wasted_field k) k) by auto.
      destruct (Z.leb_spec bps k); [lia|]. apply bind_panics, body_breaks; [lia|exact Hw].
  Qed.

  (** ** Channels *)
  Lemma seq_bursts n bs : Forall (fun b => 1 <= b <= 32) bs -> bursts (seq_channels t m n bs) (channels_overflow n bs).
  Proof.
    intros HF. induction HF as [|b bs Hb HF IH]; intros s w0 s' E; cbn [seq_channels] in E; [discriminate E|].
    apply bind_panic in E as [E|(a & s0 & E0 & E)].
    - apply subframe_bursts in E as (w & r & -> & Hw); [|exact Hb].
      exists w, r. split; [reflexivity|]. constructor. exact Hw.
    - apply subframe_sound in E0 as (w & -> & Hw); [|exact Hb|auto].
      apply IH in E as (w' & r & -> & Hw').
      exists (w ++ w'), r. rewrite <- app_assoc. split; [reflexivity|].
      econstructor; [exact Hw|exact Hw'].
  Qed.
  Lemma seq_breaks n bs : breaks (seq_channels t m n bs) (channels_overflow n bs).
  Proof.
    intros x r H. induction H as [b bs w Hw|b bs w0 s w Hw0 Hw IH]; cbn [seq_channels].
    - apply bind_panics, subframe_breaks, Hw.
    - unfold bind. rewrite <- app_assoc, (subframe_complete t m b n _ _ _ Hw0). exact IH.
  Qed.
  Lemma channels_panics ca bps n s w s' :
    p_channels t m ca bps n s = (Panic w, s') <-> seq_channels t m n (subframe_widths bps ca) s = (Panic w, s').
  Proof.
    destruct ca as [k| | |]; cbn [p_channels subframe_widths].
    - revert s. induction (Z.to_nat k) as [|i IH]; intros s; cbn [p_repeat repeat seq_channels].
      + split; intros E; discriminate E.
      + unfold bind. destruct (p_subframe t m bps n s) as [o s0]. destruct o; try (split; intros E; congruence).
        specialize (IH s0).
        destruct (p_repeat i (p_subframe t m bps n) s0) as [o1 s1], (seq_channels t m n (repeat bps i) s0) as [o2 s2].
        destruct o1; unfold ret; split; intros E; try discriminate E; try (apply IH; exact E);
          try (apply IH in E; discriminate E).
    - cbn [seq_channels]. unfold bind, ret.
      destruct (p_subframe t m bps n s) as [o s0]. destruct o; try (split; intros E; congruence).
      destruct (p_subframe t m (bps + 1) n s0) as [o s1]. destruct o; split; intros E; congruence.
    - cbn [seq_channels]. unfold bind, ret.
      destruct (p_subframe t m (bps + 1) n s) as [o s0]. destruct o; try (split; intros E; congruence).
      destruct (p_subframe t m bps n s0) as [o s1]. destruct o; split; intros E; congruence.
    - cbn [seq_channels]. unfold bind, ret.
      destruct (p_subframe t m bps n s) as [o s0]. destruct o; try (split; intros E; congruence).
      destruct (p_subframe t m (bps + 1) n s0) as [o s1]. destruct o; split; intros E; congruence.
  Qed.
End Bits.

(** ** Nothing else happens *)
Definition settled {A} (r : outcome A) : Prop := value_or_error r \/ exists w, r = Panic w.
Section Settled.
  Context (t : tail).
  Notation m := Debug.
  Definition settles {A} (p : P A) : Prop := forall s, settled (fst (p s)).

  Lemma settled_ok {A} (a : A) : settled (Ok a).
  Proof. left; left; eauto. Qed.
  Lemma settled_err {A} e : @settled A (Err e).
  Proof. left; right; eauto. Qed.
  Lemma settled_panic {A} w : @settled A (Panic w).
  Proof. right; eauto. Qed.
  Hint Resolve settled_ok settled_err settled_panic : core.
  Lemma settles_ret {A} (a : A) : settles (ret a).
  Proof. intros s. apply settled_ok. Qed.
  Lemma settles_fail {A} e : settles (@lift _ A (Err e)).
  Proof. intros s. apply settled_err. Qed.
  Lemma settled_bind {S A B} (c : M S A) (f : A -> M S B) s :
    settled (fst (c s)) -> (forall a s', c s = (Ok a, s') -> settled (fst (f a s'))) -> settled (fst (bind c f s)).
  Proof.
    unfold bind. destruct (c s) as [o s']. cbn [fst]. intros [[[a ->]|[e ->]]|[w ->]] H;
      [apply H; reflexivity|apply settled_err|apply settled_panic].
  Qed.
  Lemma settles_bind {A B} (p : P A) (f : A -> P B) : settles p -> (forall a, settles (f a)) -> settles (bind p f).
  Proof. intros Hp Hf s. apply settled_bind; [apply Hp|intros; apply Hf]. Qed.
  Lemma settles_bits n : settles (bl_bits t n).
  Proof. intros s. unfold bl_bits. destruct (_ <=? _)%nat; cbn [fst]; auto. Qed.
  Lemma settles_bit : settles (bl_bit t).
  Proof. intros [|b s]; cbn [bl_bit fst]; auto. Qed.
  Lemma settles_unary : settles (bl_unary t m).
  Proof.
    intros s. unfold bl_unary. destruct (unary_split s) as [z [r|]];
      destruct (_ <=? _); cbn [fst]; auto.
  Qed.
  Lemma settles_chk x : settles (lift (chk m u32 x)).
  Proof. intros s. unfold lift, chk. destruct (_ =? _); cbn [fst]; auto. Qed.
  Lemma settles_repeat {A} n (p : P A) : settles p -> settles (p_repeat n p).
  Proof.
    intros Hp. induction n as [|n IH]; cbn [p_repeat]; [apply settles_ret|].
    apply settles_bind; [exact Hp|intros x]. apply settles_bind; [exact IH|intros; apply settles_ret].
  Qed.
  Lemma settles_signed k : settles (p_signed t k).
  Proof. apply settles_bind; [apply settles_bits|intros; apply settles_ret]. Qed.
  Lemma settles_rice k : settles (p_rice t m k).
  Proof.
    apply settles_bind; [apply settles_unary|intros q].
    apply settles_bind; [apply settles_bits|intros; apply settles_ret].
  Qed.
  Lemma settles_partitions pbits lens : settles (p_partitions t m pbits lens).
  Proof.
    induction lens as [|n lens IH]; cbn [p_partitions]; [apply settles_ret|].
    apply settles_bind; [|intros; apply settles_bind; [exact IH|intros; apply settles_ret]].
    apply settles_bind; [apply settles_bits|intros k].
    destruct (k =? _); [apply settles_fail|]. apply settles_repeat, settles_rice.
  Qed.
  Lemma settles_residual bs order : settles (p_residual t m bs order).
  Proof.
    apply settles_bind; [apply settles_bits|intros method].
    apply settles_bind.
    { destruct (method =? 0); [apply settles_ret|]. destruct (method =? 1); [apply settles_ret|apply settles_fail]. }
    intros pbits. apply settles_bind; [apply settles_bits|intros po].
    destruct (negb _); [apply settles_fail|]. destruct (_ <? _); [apply settles_fail|].
    apply settles_partitions.
  Qed.
  Lemma settles_body c bps n : settles (p_body t m c bps n).
  Proof.
    destruct c as [| |o|o]; cbn [p_body].
    - apply settles_bind; [apply settles_signed|intros v; apply settles_ret].
    - apply settles_repeat, settles_signed.
    - unfold p_fixed. destruct (_ <? _); [apply settles_fail|].
      apply settles_bind; [apply settles_repeat, settles_signed|intros warm].
      apply settles_bind; [apply settles_residual|intros rs; apply settles_ret].
    - unfold p_lpc. destruct (_ <? _); [apply settles_fail|].
      apply settles_bind; [apply settles_repeat, settles_signed|intros warm].
      apply settles_bind; [apply settles_bits|intros p].
      destruct (p =? 15); [apply settles_fail|].
      apply settles_bind; [apply settles_signed|intros sh].
      destruct (sh <? 0); [apply settles_fail|].
      apply settles_bind; [apply settles_repeat, settles_signed|intros cs].
      apply settles_bind; [apply settles_residual|intros rs; apply settles_ret].
  Qed.
  Lemma settles_subframe bps n : settles (p_subframe t m bps n).
  Proof.
    apply settles_bind; [apply settles_bit|intros pad]. destruct pad; [apply settles_fail|].
    apply settles_bind.
    { apply settles_bind; [apply settles_bits|intros v].
      destruct (v =? 0); [apply settles_ret|]. destruct (v =? 1); [apply settles_ret|].
      destruct (_ && _); [apply settles_ret|]. destruct (_ <=? _); [apply settles_ret|apply settles_fail]. }
    intros c. apply settles_bind.
    { apply settles_bind; [apply settles_bit|intros b]. apply settles_bind.
      - destruct b; [|apply settles_ret]. apply settles_bind; [apply settles_unary|intros; apply settles_chk].
      - intros k. destruct (31 <? k); [apply settles_fail|apply settles_ret]. }
    intros k. destruct (_ <=? _); [apply settles_fail|].
    apply settles_bind; [apply settles_body|intros l]. apply settles_ret.
  Qed.
  Lemma settles_channels ca bps n : settles (p_channels t m ca bps n).
  Proof.
    destruct ca; cbn [p_channels].
    - apply settles_repeat, settles_subframe.
    - apply settles_bind; [apply settles_subframe|intros]. apply settles_bind; [apply settles_subframe|intros]. apply settles_ret.
    - apply settles_bind; [apply settles_subframe|intros]. apply settles_bind; [apply settles_subframe|intros]. apply settles_ret.
    - apply settles_bind; [apply settles_subframe|intros]. apply settles_bind; [apply settles_subframe|intros]. apply settles_ret.
  Qed.

  Theorem frame_settled l : bytes_ok l -> settled (fst (fl_frame t m l l)).
  Proof.
    intros Hb. unfold fl_frame. destruct (header_total t m l Hb) as [Hv Hl1]. apply settled_bind; [left; exact Hv|].
    intros [fh|] l1 E1; [|apply settled_ok]. rewrite E1 in Hl1. cbn [snd] in Hl1.
    apply settled_bind; [|intros; apply settled_ok]. unfold frame_rest.
    destruct (h_width (header_of fh)) as [x|]; [|apply settled_err]. rewrite bind_lift_ok.
    apply settled_bind.
    - unfold with_bits. pose proof (settles_channels (h_assignment (header_of fh)) x (Z.to_nat (h_size (header_of fh))) (bytes_bits l1)) as H.
      destruct (p_channels _ _ _ _ _ _). exact H.
    - intros chs l2 E2. apply with_bits_inv in E2 as (bits & _ & ->).
      set (l2 := skipn _ l).
      assert (bytes_ok l2) as Hb2.
      { unfold l2. rewrite <- (firstn_skipn (length l - length bits / 8) l) in Hb. apply bytes_app in Hb. tauto. }
      unfold bind at 1. unfold fl_crc. apply settled_bind; [left; apply be_u16_total, Hb2|].
      intros c l3 _. destruct (negb _); [apply settled_err|apply settled_ok].
  Qed.
End Settled.

(** ** Frames *)
Section Frames.
  Context (t : tail).
  Notation m := Debug.

  Theorem frame_bursts l w l' : bytes_ok l -> fl_frame t m l l = (Panic w, l') ->
    exists p rest, l = p ++ rest /\ frame_overflow p.
  Proof.
    intros Hb E. unfold fl_frame in E. apply bind_panic in E as [E|(o & l1 & E1 & E)].
    { destruct (header_total t m l Hb) as [[[? Hv]|[? Hv]] _]; rewrite E in Hv; discriminate Hv. }
    destruct o as [fh|]; [|discriminate E].
    destruct (header_sound t m l fh l1 Hb E1) as (h & hw & El & Hw & ->). rewrite header_of_fh in E.
    apply bind_panic in E as [E|(? & ? & _ & E)]; [|discriminate E].
    pose proof (header_decent _ _ Hw) as (Hsz & Has & Hn & Hn' & Hbps).
    unfold frame_rest in E. destruct (h_width h) as [x|] eqn:Ew; [|discriminate E]. rewrite bind_lift_ok in E.
    apply bind_panic in E as [E|(chs & l2 & E2 & E)].
    - unfold with_bits in E. destruct (p_channels t m (h_assignment h) x (Z.to_nat (h_size h)) (bytes_bits l1)) as [o bits] eqn:Ep.
      injection E as -> _. apply channels_panics in Ep.
      apply seq_bursts in Ep as (wb & r & E3 & Hx); [|apply assignment_widths; [lia|exact Has]].
      destruct (split_bits _ _ _ E3) as (body & rest & pad & -> & Ebody & Hpad & _ & _).
      exists (hw ++ body), rest. split; [rewrite El, app_assoc; reflexivity|].
      exists h, hw, x, wb, pad, body. repeat (split; [assumption|]).
      split; [|auto]. rewrite El in Hb. apply bytes_app in Hb as [_ Hb]. apply bytes_app in Hb. exact (proj1 Hb).
    - exfalso. apply with_bits_inv in E2 as (bits & _ & ->). set (l2 := skipn _ l) in E.
      assert (bytes_ok l2) as Hb2.
      { unfold l2. rewrite <- (firstn_skipn (length l - length bits / 8) l) in Hb. apply bytes_app in Hb. tauto. }
      unfold bind at 1 in E. unfold fl_crc in E. apply bind_panic in E as [E|(? & ? & _ & E)].
      + destruct (be_u16_total t l2 Hb2) as [[[? Hv]|[? Hv]] _]; rewrite E in Hv; discriminate Hv.
      + destruct (negb _); discriminate E.
  Qed.
  Theorem frame_breaks p rest : bytes_ok rest -> frame_overflow p ->
    exists w l', fl_frame t m (p ++ rest) (p ++ rest) = (Panic w, l').
  Proof.
    intros Hr (h & hw & bps & bits & pad & body & Hh & Hw & Hc & Hbody & Ebody & Hpad & ->).
    assert (bytes_ok (body ++ rest)) as Hb1 by (apply bytes_app; split; [exact Hbody|exact Hr]).
    rewrite <- app_assoc. unfold fl_frame.
    rewrite (bind_run _ _ _ _ _ (header_complete t m h hw (body ++ rest) Hh Hb1)). rewrite header_of_fh.
    apply bind_panics. unfold frame_rest. rewrite Hw, bind_lift_ok. apply bind_panics.
    unfold with_bits. rewrite bytes_bits_app, Ebody, <- app_assoc.
    destruct (seq_breaks t _ _ _ (pad ++ bytes_bits rest) Hc) as (w & s' & E). apply channels_panics in E.
    rewrite E. eauto.
  Qed.
End Frames.

Section Decoder.
  Context {S : Type} (rb : ReadBytes S) (t : tail) (D : S -> list Z -> Prop) (HS : stream rb t D).
  Let Hrs : rb_sim no_esc D rb (fl_rb t) := stream_rb_sim rb t D HS no_esc.
  Let Hes : eof_sim no_esc D rb (fl_rb t) := stream_eof_sim rb t D HS no_esc.
  Let Hbytes : forall st l, D st l -> bytes_ok l := st_bytes rb t D HS.
  Context (fuel : nat).
  Notation next := (read_next_or_eof rb Debug fuel).

  Theorem overflow_panics buffer st p rest : frame_overflow p -> D st (p ++ rest) ->
    (length (p ++ rest) < fuel)%nat -> exists w, fst (next buffer st) = Panic w.
  Proof.
    intros Hp HD Hf. pose proof (frame_left rb t D Hrs Hes Hbytes Debug fuel st _ buffer HD Hf) as H. cbv zeta in H.
    destruct (frame_breaks t p rest) as (w & l' & E); [|exact Hp|].
    { apply Hbytes, bytes_app in HD. tauto. }
    rewrite E in H. cbn [fst snd] in H. destruct (fst (next buffer st)); try discriminate H; [|eauto].
    destruct H as (x & H & _). discriminate H.
  Qed.
  Theorem panics_overflow buffer st l : D st l -> (length l < fuel)%nat ->
    value_or_error (fst (next buffer st)) \/ exists p rest, l = p ++ rest /\ frame_overflow p.
  Proof.
    intros HD Hf. pose proof (frame_left rb t D Hrs Hes Hbytes Debug fuel st _ buffer HD Hf) as H. cbv zeta in H.
    pose proof (frame_settled t l (Hbytes _ _ HD)) as Hs.
    destruct (fst (next buffer st)) as [o|e|w|w|].
    - left. left. eauto.
    - left. right. eauto.
    - right. apply (frame_bursts t l w (snd (fl_frame t Debug l l)) (Hbytes _ _ HD)).
      rewrite <- H. apply surjective_pairing.
    - rewrite H in Hs. destruct Hs as [[[? Hs]|[? Hs]]|[? Hs]]; discriminate Hs.
    - rewrite H in Hs. destruct Hs as [[[? Hs]|[? Hs]]|[? Hs]]; discriminate Hs.
  Qed.
End Decoder.

Lemma overflow_exists n : Z.of_nat n = 2 ^ 29 -> exists p, frame_overflow p.
Proof.
  intros Hn.
  pose proof (cursor_start (huge n []) (huge_bytes n [] (Forall_nil _))
                ltac:(rewrite (huge_len n Hn); unfold len; cbn [length]; lia)) as HD.
  destruct (panics_overflow _ _ _ (cu_stream Debug) (Datatypes.S (length (huge n []))) (mkVec [] 0) _ _ HD
              (Nat.lt_succ_diag_r _)) as [Hv|(p & rest & _ & Hp)]; [|eauto].
  destruct (huge_cursor_panics n Hn (Datatypes.S (length (huge n []))) (mkVec [] 0) (Nat.lt_succ_diag_r _)) as (w & E).
  rewrite E in Hv. destruct Hv as [[? Hv]|[? Hv]]; discriminate Hv.
Qed.
