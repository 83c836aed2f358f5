(** The parser of subframes accepts exactly the grammar of SpecFlac. *)
From Verif Require Export ProofSub2 ProofSafe ProofArith.
From Verif Require Import SpecReader.

(** * Soundness, completeness, totality of parsers *)

(** Runs of zeros that do not overflow the counter of [read_unary] (and the
    addition of one in the wasted-bits field). *)
Definition quiet (s : list bool) : Prop := no_zero_run (2 ^ 32 - 1) s.
(** In debug builds overflow is a panic, so a success needs no assumption. *)
Definition fine (m : build) (s : list bool) : Prop := m = Debug \/ quiet s.

(** In release builds it is not, so no panic needs no assumption. *)
Definition calm (m : build) (s : list bool) : Prop := m = Release \/ quiet s.

Lemma quiet_app a b : quiet (a ++ b) -> quiet b.
Proof.
  intros H x y E. apply (H (a ++ x) y). rewrite E, <- app_assoc. reflexivity.
Qed.
Lemma fine_app m a b : fine m (a ++ b) -> fine m b.
Proof. intros [?|H]; [left; auto|right; eapply quiet_app, H]. Qed.
Lemma quiet_nil : quiet [].
Proof.
  intros a b E. assert (length (@nil bool) = length (a ++ repeat false (Z.to_nat (2 ^ 32 - 1)) ++ b)) as L
    by (rewrite <- E; reflexivity).
  rewrite !app_length, repeat_length in L. cbn [length] in L. lia.
Qed.

Lemma calm_app m a b : calm m (a ++ b) -> calm m b.
Proof. intros [?|H]; [left; auto|right; eapply quiet_app, H]. Qed.
Lemma calm_nil m : calm m [].
Proof. right. apply quiet_nil. Qed.

Section Laws.
  Context (t : tail) (m : build).

  Definition sound {A} (p : P A) (G : list bool -> A -> Prop) : Prop :=
    forall s a s', fine m s -> p s = (Ok a, s') -> exists w, s = w ++ s' /\ G w a.
  Definition complete {A} (p : P A) (G : list bool -> A -> Prop) : Prop :=
    forall w a s', G w a -> p (w ++ s') = (Ok a, s').
  (** No panic, no undefined behaviour, and what is left is calm again. *)
  Definition total {A} (p : P A) : Prop := safe (calm m) p.

  Lemma bits_total n : total (bl_bits t n).
  Proof.
    intros s H. unfold bl_bits. destruct (n <=? length s)%nat; split; cbn [fst snd].
    - apply voe_ok.
    - apply (calm_app m (firstn n s)). rewrite firstn_skipn. exact H.
    - apply voe_err.
    - apply calm_nil.
  Qed.
  Lemma bit_total : total (bl_bit t).
  Proof.
    intros [|b s] H; split; cbn [fst snd bl_bit].
    - apply voe_err.
    - apply calm_nil.
    - apply voe_ok.
    - apply (calm_app m [b]), H.
  Qed.

  Lemma split_quiet s : quiet s -> fst (unary_split s) < 2 ^ 32 - 1.
  Proof.
    intros H. destruct (unary_split s) as [z [r|]] eqn:E; cbn [fst].
    - apply unary_split_some in E as [-> Hz]. destruct (Z.lt_ge_cases z (2 ^ 32 - 1)); [assumption|].
      exfalso. unfold quiet, no_zero_run in H. revert H H0. generalize (2 ^ 32 - 1). intros K H HK.
      destruct (Z.lt_ge_cases K 0).
      + apply (H [] (unary z ++ r)). replace (Z.to_nat K) with O by lia. reflexivity.
      + apply (H [] (repeat false (Z.to_nat (z - K)) ++ [true] ++ r)). unfold unary.
        replace (Z.to_nat z) with (Z.to_nat K + Z.to_nat (z - K))%nat by lia.
        rewrite repeat_app, <- !app_assoc. reflexivity.
    - apply unary_split_none in E as [-> Hz]. destruct (Z.lt_ge_cases z (2 ^ 32 - 1)); [assumption|].
      exfalso. unfold quiet, no_zero_run in H. revert H H0. generalize (2 ^ 32 - 1). intros K H HK.
      destruct (Z.lt_ge_cases K 0).
      + apply (H [] (repeat false (Z.to_nat z))). replace (Z.to_nat K) with O by lia. reflexivity.
      + apply (H [] (repeat false (Z.to_nat (z - K)))).
        replace (Z.to_nat z) with (Z.to_nat K + Z.to_nat (z - K))%nat by lia.
        rewrite repeat_app. reflexivity.
  Qed.

  (** Counting zeros *)
  Lemma unary_inv s q s' : fine m s -> bl_unary t m s = (Ok q, s') ->
    s = unary q ++ s' /\ 0 <= q < 2 ^ 32 /\ (m = Debug \/ q < 2 ^ 32 - 1).
  Proof.
    intros Hf E. unfold bl_unary in E. destruct (unary_split s) as [z o] eqn:Es.
    assert (0 <= z < 2 ^ 32 /\ (m = Debug \/ z < 2 ^ 32 - 1)) as [Hz Hm].
    { pose proof (unary_split_nonneg s) as H0. rewrite Es in H0. cbn [fst] in H0.
      destruct Hf as [->|Hq].
      - destruct (Z.leb_spec (2 ^ 32) z); [discriminate|]. split; [lia|left; reflexivity].
      - apply split_quiet in Hq. rewrite Es in Hq. cbn [fst] in Hq. split; [lia|right; lia]. }
    replace (match m with Debug => 2 ^ 32 <=? z | Release => false end) with false in E
      by (destruct m; lia).
    destruct o as [r|]; [|discriminate]. injection E as <- <-.
    rewrite u32_id by lia.
    apply unary_split_some in Es as [-> ?]. auto.
  Qed.
  Lemma unary_total : total (bl_unary t m).
  Proof.
    intros s H. unfold bl_unary. destruct (unary_split s) as [z o] eqn:Es.
    replace (match m with Debug => 2 ^ 32 <=? z | Release => false end) with false.
    2: { destruct H as [->|H]; [reflexivity|]. apply split_quiet in H. rewrite Es in H. cbn [fst] in H.
         destruct m; lia. }
    destruct o as [r|]; split; cbn [fst snd]; try apply voe_ok; try apply voe_err; try apply calm_nil.
    apply unary_split_some in Es as [-> _]. eapply calm_app, H.
  Qed.

  (** Repetition *)
  Lemma repeat_sound {A} n (p : P A) (G : list bool -> A -> Prop) : sound p G ->
    sound (p_repeat n p) (fun w l => length l = n /\ exists ws, Forall2 G ws l /\ w = concat ws).
  Proof.
    intros Hp. induction n as [|n IH]; intros s l s' Hf E; cbn [p_repeat] in E.
    - inversion E; subst. exists []. split; [reflexivity|]. split; [reflexivity|].
      exists []. split; [constructor|reflexivity].
    - apply bind_ok in E as (x & s1 & Ex & E). apply bind_ok in E as (xs & s2 & Exs & E).
      inversion E; subst.
      destruct (Hp _ _ _ Hf Ex) as (w1 & -> & G1).
      destruct (IH _ _ _ (fine_app _ _ _ Hf) Exs) as (w2 & -> & Hl & ws & G2 & ->).
      exists (w1 ++ concat ws). rewrite <- app_assoc. split; [reflexivity|].
      split; [cbn [length]; lia|]. exists (w1 :: ws). split; [constructor; auto|reflexivity].
  Qed.
  Lemma repeat_complete {A} (p : P A) (G : list bool -> A -> Prop) : complete p G ->
    forall ws l s', Forall2 G ws l ->
    p_repeat (length l) p (concat ws ++ s') = (Ok l, s').
  Proof.
    intros Hp ws l s' H. induction H as [|w a ws l Hw H IH]; cbn [p_repeat length concat].
    - reflexivity.
    - unfold bind. rewrite <- app_assoc, (Hp _ _ _ Hw), IH. reflexivity.
  Qed.
  Lemma repeat_total {A} n (p : P A) : total p -> total (p_repeat n p).
  Proof.
    intros Hp. induction n as [|n IH]; cbn [p_repeat]; [apply safe_ret|].
    apply safe_bind; [exact Hp|intros x]. apply safe_bind; [exact IH|intros xs]. apply safe_ret.
  Qed.

  (** * Residuals *)
  Lemma rice_sound k : sound (p_rice t m k) (rice_code (Z.of_nat k)).
  Proof.
    intros s a s' Hf E. unfold p_rice in E.
    apply bind_ok in E as (q & s1 & Eq & E). apply bind_ok in E as (lo & s2 & El & E).
    inversion E; subst. apply unary_inv in Eq as (-> & Hq & _); [|exact Hf].
    apply bl_bits_inv in El as [-> Hlo].
    exists (unary q ++ bits_of k lo). rewrite <- app_assoc. split; [reflexivity|].
    exists q, lo. unfold word. rewrite Nat2Z.id. auto.
  Qed.
  Lemma rice_complete k : complete (p_rice t m k) (rice_code (Z.of_nat k)).
  Proof.
    intros w a s' (q & lo & Hq & Hlo & -> & ->). unfold p_rice, bind, word.
    rewrite Nat2Z.id, <- app_assoc, bl_unary_app by exact Hq.
    rewrite bl_bits_app by exact Hlo. reflexivity.
  Qed.
  Lemma rice_total k : total (p_rice t m k).
  Proof.
    apply safe_bind; [apply unary_total|intros q].
    apply safe_bind; [apply bits_total|intros lo]. apply safe_ret.
  Qed.

  Lemma partition_sound pbits n :
    sound (p_partition t m pbits n)
      (fun w l => length l = n /\ rice_partition (Z.of_nat pbits) w l).
  Proof.
    intros s a s' Hf E. unfold p_partition in E.
    apply bind_ok in E as (k & s1 & Ek & E). apply bl_bits_inv in Ek as [-> Hk].
    destruct (Z.eqb_spec k (2 ^ Z.of_nat pbits - 1)) as [|Hne]; [discriminate|].
    apply (repeat_sound _ _ _ (rice_sound _)) in E as (w & -> & Hl & ws & Hws & ->);
      [|eapply fine_app, Hf].
    exists (bits_of pbits k ++ concat ws). rewrite <- app_assoc. split; [reflexivity|].
    split; [exact Hl|]. rewrite Z2Nat.id in Hws by lia.
    exists k, ws. unfold word. rewrite Nat2Z.id. repeat split; auto; lia.
  Qed.
  Lemma partition_complete pbits w l s' : rice_partition (Z.of_nat pbits) w l ->
    p_partition t m pbits (length l) (w ++ s') = (Ok l, s').
  Proof.
    intros (k & ws & Hk & Hws & ->). unfold p_partition. unfold bind at 1, word.
    rewrite Nat2Z.id, <- app_assoc, bl_bits_app by lia.
    destruct (Z.eqb_spec k (2 ^ Z.of_nat pbits - 1)); [lia|].
    apply (repeat_complete _ (rice_code k)); [|exact Hws].
    rewrite <- (Z2Nat.id k) at 2 by lia. apply rice_complete.
  Qed.
  Lemma partition_total pbits n : total (p_partition t m pbits n).
  Proof.
    apply safe_bind; [apply bits_total|intros k].
    destruct (k =? _); [apply safe_fail|]. apply repeat_total, rice_total.
  Qed.

  Lemma partitions_sound pbits lens :
    sound (p_partitions t m pbits lens)
      (fun w l => exists ws parts, Forall2 (rice_partition (Z.of_nat pbits)) ws parts
         /\ map (@length Z) parts = lens /\ w = concat ws /\ l = concat parts).
  Proof.
    induction lens as [|n lens IH]; intros s a s' Hf E; cbn [p_partitions] in E.
    - inversion E; subst. exists []. split; [reflexivity|].
      exists [], []. repeat split; constructor.
    - apply bind_ok in E as (x & s1 & Ex & E). apply bind_ok in E as (y & s2 & Ey & E).
      inversion E; subst.
      destruct (partition_sound _ _ _ _ _ Hf Ex) as (w1 & -> & Hl & H1).
      destruct (IH _ _ _ (fine_app _ _ _ Hf) Ey) as (w2 & -> & ws & parts & H2 & Hm & -> & ->).
      exists (w1 ++ concat ws). rewrite <- app_assoc. split; [reflexivity|].
      exists (w1 :: ws), (x :: parts). repeat split; [constructor; auto|].
      cbn [map]. congruence.
  Qed.
  Lemma partitions_complete pbits ws parts s' :
    Forall2 (rice_partition (Z.of_nat pbits)) ws parts ->
    p_partitions t m pbits (map (@length Z) parts) (concat ws ++ s') = (Ok (concat parts), s').
  Proof.
    intros H. induction H as [|w l ws parts Hw H IH]; cbn [p_partitions map concat]; [reflexivity|].
    unfold bind. rewrite <- app_assoc, (partition_complete _ _ _ _ Hw), IH. reflexivity.
  Qed.
  Lemma partitions_total pbits lens : total (p_partitions t m pbits lens).
  Proof.
    induction lens as [|n lens IH]; cbn [p_partitions]; [apply safe_ret|].
    apply safe_bind; [apply partition_total|intros a].
    apply safe_bind; [exact IH|intros b]. apply safe_ret.
  Qed.

  Lemma residual_sound bs order : 0 <= bs -> 
    sound (p_residual t m bs order) (residual_code bs order).
  Proof.
    intros Hbs s a s' Hf E. unfold p_residual in E.
    apply bind_ok in E as (method & s1 & Em & E). apply bl_bits_inv in Em as [-> Hm].
    apply bind_ok in E as (pbits & s2 & Ep & E).
    assert (s2 = s1 /\ (method = 0 \/ method = 1) /\ Z.of_nat pbits = method_pbits method)
      as (-> & Hmethod & Hpb).
    { unfold method_pbits.
      destruct (Z.eqb_spec method 0); [inversion Ep; subst; split; [reflexivity|lia]|].
      destruct (Z.eqb_spec method 1); [inversion Ep; subst; split; [reflexivity|lia]|]. discriminate. }
    apply bind_ok in E as (po & s3 & Epo & E). apply bl_bits_inv in Epo as [-> Hpo].
    change (2 ^ Z.of_nat 4) with 16 in Hpo.
    destruct (Z.eqb_spec (bs mod 2 ^ po) 0) as [Hd|]; [|discriminate]. cbn [negb] in E.
    destruct (Z.ltb_spec (bs / 2 ^ po) order) as [|Ho]; [discriminate|].
    apply partitions_sound in E as (w & -> & ws & parts & H & Hmap & -> & ->);
      [|eapply fine_app, fine_app, Hf].
    pose proof (pow2_pos po ltac:(lia)) as Hp2.
    assert (0 <= bs / 2 ^ po) by (apply Z.div_pos; lia).
    destruct parts as [|p0 parts]; [discriminate|].
    inversion H as [|w0 ? ws' ? Hw0 Hr]; subst. cbn [map] in Hmap.
    injection Hmap as Hl0 Hmap.
    exists (word 2 method ++ word 4 po ++ w0 ++ concat ws'). split.
    { unfold word. cbn [concat]. change (Z.to_nat 2) with 2%nat. change (Z.to_nat 4) with 4%nat.
      rewrite <- !app_assoc. reflexivity. }
    exists method, po, p0, parts, w0, ws'. rewrite <- Hpb.
    split; [assumption|]. split; [lia|]. split; [assumption|]. split; [assumption|].
    split; [lia|]. split.
    { apply (f_equal (@length nat)) in Hmap. rewrite map_length, repeat_length in Hmap. lia. }
    split.
    { apply Forall_forall. intros p Hp. apply (in_map (@length Z)) in Hp. rewrite Hmap in Hp.
      apply repeat_spec in Hp. lia. }
    repeat split; auto.
  Qed.
  Lemma residual_complete bs order : 0 <= bs -> 
    complete (p_residual t m bs order) (residual_code bs order).
  Proof.
    intros Hbs w rs s' (method & po & p0 & parts & w0 & ws & Hm & Hpo & Hd & Ho & Hl0 & Hlp & HF & H0 & HR & -> & ->).
    unfold p_residual. unfold bind at 1, word. change (Z.to_nat 2) with 2%nat. change (Z.to_nat 4) with 4%nat.
    rewrite <- !app_assoc, bl_bits_app by (change (2 ^ Z.of_nat 2) with 4; lia).
    unfold bind at 1.
    assert (exists pbits, (if method =? 0 then ret 4%nat
              else if method =? 1 then ret 5%nat
              else fmt_err "invalid residual, encountered reserved value")
              (bits_of 4 po ++ w0 ++ concat ws ++ s')
              = (Ok pbits, bits_of 4 po ++ w0 ++ concat ws ++ s')
              /\ method_pbits method = Z.of_nat pbits) as (pbits & -> & Hpb).
    { destruct Hm as [-> | ->]; [exists 4%nat|exists 5%nat]; split; reflexivity. }
    unfold bind at 1. rewrite bl_bits_app by (change (2 ^ Z.of_nat 4) with 16; lia).
    rewrite Hd. cbn [Z.eqb negb].
    destruct (Z.ltb_spec (bs / 2 ^ po) order); [lia|].
    rewrite Hpb in *.
    replace (Z.to_nat (bs / 2 ^ po - order) :: repeat (Z.to_nat (bs / 2 ^ po)) (Z.to_nat (2 ^ po - 1)))
      with (map (@length Z) (p0 :: parts)).
    - change (w0 ++ concat ws ++ s') with (w0 ++ (concat ws ++ s')). rewrite app_assoc.
      apply (partitions_complete pbits (w0 :: ws) (p0 :: parts)). constructor; assumption.
    - cbn [map]. f_equal; [lia|]. replace (Z.to_nat (2 ^ po - 1)) with (length parts) by lia.
      clear -HF. induction HF as [|p parts Hp HF IH]; [reflexivity|].
      cbn [map repeat length]. rewrite IH. f_equal. lia.
  Qed.
  Lemma residual_total bs order : total (p_residual t m bs order).
  Proof.
    apply safe_bind; [apply bits_total|intros method].
    apply safe_bind.
    { destruct (method =? 0); [apply safe_ret|]. destruct (method =? 1); [apply safe_ret|apply safe_fail]. }
    intros pbits. apply safe_bind; [apply bits_total|intros po].
    destruct (negb _); [apply safe_fail|]. destruct (_ <? _); [apply safe_fail|].
    apply partitions_total.
  Qed.

  (** * Samples *)
  Lemma signed_bits k x : 1 <= k -> 0 <= x < 2 ^ k ->
    bits_of (Z.to_nat k) x = word k (signed k x).
  Proof.
    intros Hk Hx. unfold word.
    rewrite <- (bits_of_mod (Z.to_nat k) (signed k x) (Z.to_nat k)) by lia.
    rewrite Z2Nat.id by lia. f_equal. unfold signed.
    pose proof (pow2_pos k ltac:(lia)).
    rewrite Zminus_mod_idemp_l. replace (x + 2 ^ (k - 1) - 2 ^ (k - 1)) with x by lia.
    symmetry. apply Z.mod_small. lia.
  Qed.
  Lemma signed_sound k : 1 <= k ->
    sound (p_signed t k) (fun w v => fits k v /\ w = word k v).
  Proof.
    intros Hk s a s' Hf E. pose proof (p_signed_fits t k s a s' Hk E) as Hfit.
    apply bind_ok in E as (x & s1 & Ex & E). inversion E; subst.
    apply bl_bits_inv in Ex as [-> Hx]. rewrite Z2Nat.id in Hx by lia.
    exists (word k (signed k x)). rewrite signed_bits by lia. auto.
  Qed.
  Lemma signed_fits k v : 1 <= k -> fits k v -> signed k (v mod 2 ^ k) = v.
  Proof.
    intros Hk [H1 H2]. unfold signed. rewrite Z.add_mod_idemp_l by (pose proof (pow2_pos k ltac:(lia)); lia).
    assert (2 ^ k = 2 * 2 ^ (k - 1)) by (rewrite <- Z.pow_succ_r by lia; f_equal; lia).
    rewrite Z.mod_small; lia.
  Qed.
  Lemma signed_complete k : 1 <= k ->
    complete (p_signed t k) (fun w v => fits k v /\ w = word k v).
  Proof.
    intros Hk w v s' [Hf ->]. unfold p_signed, bind, word.
    rewrite <- (bits_of_mod (Z.to_nat k) v (Z.to_nat k)) by lia. rewrite Z2Nat.id by lia.
    pose proof (pow2_pos k ltac:(lia)).
    rewrite bl_bits_app by (rewrite Z2Nat.id by lia; apply Z.mod_pos_bound; lia).
    unfold ret. rewrite signed_fits by assumption. reflexivity.
  Qed.
  Lemma signed_total k : total (p_signed t k).
  Proof. apply safe_bind; [apply bits_total|intros x; apply safe_ret]. Qed.

  Lemma signeds_sound n k : 1 <= k ->
    sound (p_repeat n (p_signed t k)) (fun w l => length l = n /\ Forall (fits k) l /\ w = words k l).
  Proof.
    intros Hk s a s' Hf E.
    apply (repeat_sound _ _ _ (signed_sound k Hk)) in E as (w & -> & Hl & ws & H & ->); [|exact Hf].
    exists (concat ws). split; [reflexivity|]. split; [exact Hl|].
    clear -H. unfold words. induction H as [|w v ws l [Hv ->] H [IH1 IH2]]; cbn [concat flat_map].
    - split; [constructor|reflexivity].
    - split; [constructor; auto|]. rewrite IH2. reflexivity.
  Qed.
  Lemma signeds_complete k l s' : 1 <= k -> Forall (fits k) l ->
    p_repeat (length l) (p_signed t k) (words k l ++ s') = (Ok l, s').
  Proof.
    intros Hk HF. unfold words. rewrite flat_map_concat_map.
    apply (repeat_complete _ _ (signed_complete k Hk)).
    induction HF as [|v l Hv HF IH]; cbn [map]; constructor; auto.
  Qed.

  (** * Bodies *)
  Lemma body_sound c bps n : 1 <= bps <= 32 -> coding_ok c ->
    sound (p_body t m c bps n) (body bps n c).
  Proof.
    intros Hb Hc s a s' Hf E. destruct c as [| |o|o]; cbn [p_body coding_ok] in *.
    - apply bind_ok in E as (v & s1 & Ev & E). inversion E; subst.
      apply signed_sound in Ev as (w & -> & Hv & ->); [|lia|assumption].
      exists (word bps v). split; [reflexivity|]. constructor. exact Hv.
    - apply signeds_sound in E as (w & -> & Hl & HF & ->); [|lia|assumption].
      exists (words bps a). split; [reflexivity|]. constructor; auto.
    - unfold p_fixed in E. destruct (Z.ltb_spec (Z.of_nat n) o); [discriminate|].
      apply bind_ok in E as (warm & s1 & Ew & E). apply bind_ok in E as (rs & s2 & Er & E).
      inversion E; subst.
      apply signeds_sound in Ew as (w & -> & Hl & HF & ->); [|lia|assumption].
      apply residual_sound in Er as (w & -> & HR); [|lia|eapply fine_app, Hf].
      exists (words bps warm ++ w). rewrite <- app_assoc. split; [reflexivity|].
      constructor; auto; lia.
    - unfold p_lpc in E. destruct (Z.ltb_spec (Z.of_nat n) o); [discriminate|].
      apply bind_ok in E as (warm & s1 & Ew & E).
      apply signeds_sound in Ew as (w & -> & Hl & HF & ->); [|lia|assumption].
      apply bind_ok in E as (p & s2 & Ep & E). apply bl_bits_inv in Ep as [-> Hp].
      change (2 ^ Z.of_nat 4) with 16 in Hp.
      destruct (Z.eqb_spec p 15); [discriminate|].
      apply bind_ok in E as (sh & s3 & Esh & E).
      apply signed_sound in Esh as (w & -> & Hsh & ->); [|lia|do 2 eapply fine_app; exact Hf].
      destruct (Z.ltb_spec sh 0); [discriminate|].
      apply bind_ok in E as (cs & s4 & Ecs & E).
      apply signeds_sound in Ecs as (w & -> & Hlc & HFc & ->); [|lia|do 3 eapply fine_app; exact Hf].
      apply bind_ok in E as (rs & s5 & Er & E). inversion E; subst.
      apply residual_sound in Er as (w & -> & HR); [|lia|do 4 eapply fine_app; exact Hf].
      exists (words bps warm ++ word 4 (p + 1 - 1) ++ word 5 sh ++ words (p + 1) cs ++ w).
      replace (p + 1 - 1) with p by lia.
      rewrite <- !app_assoc. split; [unfold word; reflexivity|].
      destruct Hsh as [_ Hsh]. change (2 ^ (5 - 1)) with 16 in Hsh.
      replace p with (p + 1 - 1) at 1 by lia.
      constructor; auto; lia.
  Qed.

  Lemma body_complete c bps n : 1 <= bps -> complete (p_body t m c bps n) (body bps n c).
  Proof.
    intros Hb w a s' H. destruct H as [v Hv|l Hl HF|o warm w rs Ho Hl Hn HF HR
      |o warm p sh cs w rs Ho Hl Hn HF Hp Hsh Hlc HFc HR]; cbn [p_body].
    - unfold bind. rewrite (signed_complete bps Hb (word bps v) v) by auto. reflexivity.
    - rewrite <- Hl. apply signeds_complete; auto.
    - unfold p_fixed. destruct (Z.ltb_spec (Z.of_nat n) o); [lia|].
      replace (Z.to_nat o) with (length warm) by lia.
      unfold bind at 1. rewrite <- app_assoc, signeds_complete by auto.
      unfold bind. rewrite (residual_complete (Z.of_nat n) o ltac:(lia) _ _ _ HR). reflexivity.
    - unfold p_lpc. destruct (Z.ltb_spec (Z.of_nat n) o); [lia|].
      replace (p_repeat (Z.to_nat o) (p_signed t bps)) with (p_repeat (length warm) (p_signed t bps)) by (do 2 f_equal; lia).
      unfold bind at 1. rewrite <- !app_assoc, signeds_complete by auto.
      unfold bind at 1. unfold word at 1. change (Z.to_nat 4) with 4%nat.
      rewrite bl_bits_app by (change (2 ^ Z.of_nat 4) with 16; lia).
      destruct (Z.eqb_spec (p - 1) 15); [lia|].
      unfold bind at 1. rewrite (signed_complete 5 ltac:(lia) (word 5 sh) sh)
        by (split; [red; change (2 ^ (5 - 1)) with 16; lia|reflexivity]).
      destruct (Z.ltb_spec sh 0); [lia|].
      replace (p - 1 + 1) with p by lia.
      replace (p_repeat (Z.to_nat o) (p_signed t p)) with (p_repeat (length cs) (p_signed t p)) by (do 2 f_equal; lia).
      unfold bind at 1. rewrite signeds_complete by (auto; lia).
      unfold bind. rewrite (residual_complete (Z.of_nat n) o ltac:(lia) _ _ _ HR). reflexivity.
  Qed.

  Lemma body_total c bps n : total (p_body t m c bps n).
  Proof.
    destruct c as [| |o|o]; cbn [p_body].
    - apply safe_bind; [apply signed_total|intros v; apply safe_ret].
    - apply repeat_total, signed_total.
    - unfold p_fixed. destruct (_ <? _); [apply safe_fail|].
      apply safe_bind; [apply repeat_total, signed_total|intros warm].
      apply safe_bind; [apply residual_total|intros rs; apply safe_ret].
    - unfold p_lpc. destruct (_ <? _); [apply safe_fail|].
      apply safe_bind; [apply repeat_total, signed_total|intros warm].
      apply safe_bind; [apply bits_total|intros p].
      destruct (p =? 15); [apply safe_fail|].
      apply safe_bind; [apply signed_total|intros sh].
      destruct (sh <? 0); [apply safe_fail|].
      apply safe_bind; [apply repeat_total, signed_total|intros cs].
      apply safe_bind; [apply residual_total|intros rs; apply safe_ret].
  Qed.

  (** * Subframe headers *)
  Lemma type_sound : sound (p_type t) (fun w c => coding_ok c /\ w = word 6 (coding_code c)).
  Proof.
    intros s a s' Hf E. unfold p_type in E.
    apply bind_ok in E as (n & s1 & En & E). apply bl_bits_inv in En as [-> Hn].
    change (2 ^ Z.of_nat 6) with 64 in Hn.
    exists (word 6 n). cut (s1 = s' /\ coding_ok a /\ n = coding_code a).
    { intros (-> & H & ->). auto. }
    destruct (Z.eqb_spec n 0); [inversion E; subst; cbn; auto|].
    destruct (Z.eqb_spec n 1); [inversion E; subst; cbn; auto|].
    destruct (Z.leb_spec 8 n), (Z.leb_spec n 12), (Z.leb_spec 32 n);
      cbn [andb] in E; inversion E; subst; cbn [coding_ok coding_code]; repeat split; lia.
  Qed.
  Lemma type_complete : complete (p_type t) (fun w c => coding_ok c /\ w = word 6 (coding_code c)).
  Proof.
    intros w c s' [Hc ->]. unfold p_type, bind, word. change (Z.to_nat 6) with 6%nat.
    assert (0 <= coding_code c < 64) by (destruct c; cbn [coding_ok coding_code] in *; lia).
    rewrite bl_bits_app by (change (2 ^ Z.of_nat 6) with 64; lia).
    destruct c as [| |o|o]; cbn [coding_ok coding_code] in *; try reflexivity.
    - destruct (Z.eqb_spec (8 + o) 0), (Z.eqb_spec (8 + o) 1), (Z.leb_spec 8 (8 + o)), (Z.leb_spec (8 + o) 12); try lia.
      cbn [andb]. unfold ret. do 3 f_equal. lia.
    - destruct (Z.eqb_spec (32 + (o - 1)) 0), (Z.eqb_spec (32 + (o - 1)) 1), (Z.leb_spec 8 (32 + (o - 1))), (Z.leb_spec (32 + (o - 1)) 12), (Z.leb_spec 32 (32 + (o - 1))); try lia.
      cbn [andb]. unfold ret. do 3 f_equal. lia.
  Qed.
  Lemma type_total : total (p_type t).
  Proof.
    apply safe_bind; [apply bits_total|intros n].
    destruct (n =? 0); [apply safe_ret|]. destruct (n =? 1); [apply safe_ret|].
    destruct (_ && _); [apply safe_ret|]. destruct (_ <=? _); [apply safe_ret|apply safe_fail].
  Qed.

  Lemma wasted_sound : sound (p_wasted t m) (fun w k => 0 <= k <= 31 /\ w = wasted_field k).
  Proof.
    intros s a s' Hf E. unfold p_wasted in E.
    apply bind_ok in E as (b & s1 & Eb & E). apply bind_ok in E as (k & s2 & Ek & E).
    destruct (Z.ltb_spec 31 k); [discriminate|]. inversion E; subst.
    destruct s as [|b' s]; [discriminate|]. inversion Eb; subst.
    unfold wasted_field. destruct b.
    - apply bind_ok in Ek as (u & s2 & Eu & Ek).
      apply unary_inv in Eu as (-> & Hu & Hm); [|eapply (fine_app _ [true]), Hf].
      unfold lift, chk in Ek.
      assert (Ok (1 + u) = Ok a /\ s2 = s') as [Ea ->].
      { destruct Hm as [->|Hm].
        - destruct (Z.eqb_spec (u32 (1 + u)) (1 + u)); inversion Ek; auto.
        - rewrite u32_id in Ek by lia. rewrite Z.eqb_refl in Ek. inversion Ek; auto. }
      assert (a = 1 + u) as -> by congruence.
      exists (true :: unary u). split; [reflexivity|]. split; [lia|].
      destruct (Z.eqb_spec (1 + u) 0); [lia|]. do 2 f_equal. lia.
    - inversion Ek; subst. exists [false]. split; [reflexivity|]. split; [lia|reflexivity].
  Qed.
  Lemma wasted_complete : complete (p_wasted t m) (fun w k => 0 <= k <= 31 /\ w = wasted_field k).
  Proof.
    intros w k s' [Hk ->]. unfold p_wasted, wasted_field.
    destruct (Z.eqb_spec k 0) as [->|Hk0]; [reflexivity|].
    unfold bind at 1. cbn [app bl_bit]. unfold bind. rewrite bl_unary_app by lia.
    rewrite chk_u32 by lia. unfold lift. destruct (Z.ltb_spec 31 (1 + (k - 1))); [lia|].
    unfold ret. do 2 f_equal. lia.
  Qed.
  Lemma wasted_total : total (p_wasted t m).
  Proof.
    intros s Hs. unfold p_wasted. unfold bind at 1.
    destruct (bl_bit t s) as [o s1] eqn:E.
    pose proof (bit_total s Hs) as [Hv Hq]. rewrite E in Hv, Hq. cbn [fst snd] in *.
    destruct Hv as [[b ->]|[e ->]]; [|split; [apply voe_err|exact Hq]].
    destruct b; [|cbn; split; [apply voe_ok|exact Hq]].
    unfold bind at 1. unfold bind at 1.
    destruct (bl_unary t m s1) as [o s2] eqn:Eu.
    pose proof (unary_total s1 Hq) as [Hv Hq']. rewrite Eu in Hv, Hq'. cbn [fst snd] in *.
    destruct Hv as [[u ->]|[e' ->]]; [|split; [apply voe_err|exact Hq']].
    assert (exists v, chk m u32 (1 + u) = Ok v) as [v ->].
    { destruct Hq as [->|Hq]; [unfold chk; destruct (_ =? _); eexists; reflexivity|].
      apply unary_inv in Eu as (-> & Hu & _); [|right; exact Hq].
      pose proof (split_quiet _ Hq) as Hz. rewrite unary_split_app in Hz by lia. cbn [fst] in Hz.
      rewrite chk_u32 by lia. eexists; reflexivity. }
    unfold lift. destruct (31 <? _); [apply safe_fail, Hq'|apply safe_ret, Hq'].
  Qed.

  (** * Subframes *)
  Theorem subframe_sound bps n : 1 <= bps <= 32 ->
    sound (p_subframe t m bps n) (subframe bps n).
  Proof.
    intros Hb s a s' Hf E. unfold p_subframe in E.
    apply bind_ok in E as (pad & s1 & Epad & E).
    destruct s as [|b' s]; [discriminate|]. inversion Epad; subst.
    destruct pad; [discriminate|].
    apply bind_ok in E as (c & s2 & Ec & E).
    apply type_sound in Ec as (w & -> & Hc & ->); [|eapply (fine_app _ [false]), Hf].
    apply bind_ok in E as (k & s3 & Ek & E).
    apply wasted_sound in Ek as (w & -> & Hk & ->); [|eapply fine_app, (fine_app _ [false]), Hf].
    destruct (Z.leb_spec bps k); [discriminate|].
    apply bind_ok in E as (l & s4 & El & E). inversion E; subst.
    apply body_sound in El as (w & -> & Hw); [|lia|assumption|eapply fine_app, fine_app, (fine_app _ [false]), Hf].
    exists (false :: word 6 (coding_code c) ++ wasted_field k ++ w).
    cbn [app]. rewrite <- !app_assoc. split; [reflexivity|].
    exists c, k, w, l. auto.
  Qed.

  Lemma body_coding c bps n w l : body bps n c w l -> coding_ok c.
  Proof. destruct 1; cbn [coding_ok]; auto. Qed.

  Theorem subframe_complete bps n : complete (p_subframe t m bps n) (subframe bps n).
  Proof.
    intros w a s' (c & k & wb & l & Hk & Hkb & Hbody & -> & ->).
    unfold p_subframe. unfold bind at 1. cbn [app bl_bit]. rewrite <- !app_assoc.
    unfold bind at 1.
    rewrite (type_complete (word 6 (coding_code c)) c) by (split; [eapply body_coding, Hbody|reflexivity]).
    unfold bind at 1. rewrite (wasted_complete (wasted_field k) k) by auto.
    destruct (Z.leb_spec bps k); [lia|]. unfold bind.
    rewrite (body_complete c (bps - k) n ltac:(lia) _ _ _ Hbody). reflexivity.
  Qed.

  Theorem subframe_total bps n : total (p_subframe t m bps n).
  Proof.
    apply safe_bind; [apply bit_total|intros pad]. destruct pad; [apply safe_fail|].
    apply safe_bind; [apply type_total|intros c].
    apply safe_bind; [apply wasted_total|intros k].
    destruct (_ <=? _); [apply safe_fail|].
    apply safe_bind; [apply body_total|intros l]. apply safe_ret.
  Qed.
End Laws.
