(** Errors that the decoder finds in the data: which, and where. *)
From Verif Require Export SpecFault ProofFrame4.
From Verif Require Import SpecReader.

Lemma bind_fail {S A B} (c : M S A) (f : A -> M S B) s e s' :
  c s = (Err e, s') -> bind c f s = (Err e, s').
Proof. intros E. unfold bind. rewrite E. reflexivity. Qed.

Section Bits.
  Context (t : tail) (m : build).

  (** [p] finds no fault in the data. *)
  Definition clean {A} (p : P A) : Prop := forall s e s', ours e -> p s <> (Err e, s').
  (** The faults that [p] finds. *)
  Definition finds {A} (p : P A) (G : error -> list bool -> Prop) : Prop :=
    forall s e s', fine m s -> ours e -> p s = (Err e, s') -> exists w, s = w ++ s' /\ G e w.
  Definition reports {A} (p : P A) (G : error -> list bool -> Prop) : Prop :=
    forall e w rest, G e w -> p (w ++ rest) = (Err e, rest).

  Lemma tail_not_ours e : ours e -> tail_error t <> e.
  Proof. intros He <-. destruct t; exact He. Qed.
  Lemma clean_ret {A} (a : A) : clean (ret a).
  Proof. intros s e s' _ E. discriminate. Qed.
  Lemma clean_bind {A B} (p : P A) (f : A -> P B) : clean p -> (forall a, clean (f a)) -> clean (bind p f).
  Proof.
    intros Hp Hf s e s' He E. apply bind_err in E as [E|(a & s0 & _ & E)]; [apply (Hp _ _ _ He E)|apply (Hf a _ _ _ He E)].
  Qed.
  Lemma clean_bits n : clean (bl_bits t n).
  Proof.
    intros s e s' He E. unfold bl_bits in E. destruct (_ <=? _)%nat; [discriminate|].
    apply (tail_not_ours e He). congruence.
  Qed.
  Lemma clean_bit : clean (bl_bit t).
  Proof. intros [|b s] e s' He E; [|discriminate]. cbn [bl_bit] in E. apply (tail_not_ours e He). congruence. Qed.
  Lemma clean_unary : clean (bl_unary t m).
  Proof.
    intros s e s' He E. unfold bl_unary in E. destruct (unary_split s) as [z [r|]];
      destruct (match m with Debug => _ | Release => _ end); try discriminate.
    apply (tail_not_ours e He). congruence.
  Qed.
  Lemma clean_chk x : clean (lift (chk m u32 x)).
  Proof. intros s e s' _ E. unfold lift, chk in E. destruct (_ =? _); [|destruct m]; discriminate. Qed.
  Lemma clean_repeat {A} n (p : P A) : clean p -> clean (p_repeat n p).
  Proof.
    intros Hp. induction n as [|n IH]; cbn [p_repeat]; [apply clean_ret|].
    apply clean_bind; [exact Hp|intros x]. apply clean_bind; [exact IH|intros xs; apply clean_ret].
  Qed.
  Lemma clean_signed k : clean (p_signed t k).
  Proof. apply clean_bind; [apply clean_bits|intros; apply clean_ret]. Qed.
  Lemma clean_signeds n k : clean (p_repeat n (p_signed t k)).
  Proof. apply clean_repeat, clean_signed. Qed.
  Lemma clean_rice k : clean (p_rice t m k).
  Proof.
    apply clean_bind; [apply clean_unary|intros q].
    apply clean_bind; [apply clean_bits|intros; apply clean_ret].
  Qed.

  (** ** Residuals *)
  Definition escape : error := Unsupported "unencoded binary is not yet implemented".
  Lemma partition_finds pbits n :
    finds (p_partition t m pbits n) (fun e w => e = escape /\ w = word (Z.of_nat pbits) (2 ^ Z.of_nat pbits - 1)).
  Proof.
    intros s e s' Hf He E. unfold p_partition in E.
    apply bind_err in E as [E|(k & s0 & Ek & E)]; [destruct (clean_bits _ _ _ _ He E)|].
    apply bl_bits_inv in Ek as [-> Hk].
    destruct (Z.eqb_spec k (2 ^ Z.of_nat pbits - 1)) as [->|];
      [|destruct (clean_repeat _ _ (clean_rice _) _ _ _ He E)].
    injection E as <- <-.
    exists (word (Z.of_nat pbits) (2 ^ Z.of_nat pbits - 1)). unfold word. rewrite Nat2Z.id. auto.
  Qed.
  Lemma partition_reports pbits n :
    reports (p_partition t m pbits n) (fun e w => e = escape /\ w = word (Z.of_nat pbits) (2 ^ Z.of_nat pbits - 1)).
  Proof.
    intros e w rest [-> ->]. unfold p_partition, bind, word. rewrite Nat2Z.id.
    pose proof (pow2_pos (Z.of_nat pbits) ltac:(lia)).
    rewrite bl_bits_app by lia. rewrite Z.eqb_refl. reflexivity.
  Qed.
  Lemma partitions_finds pbits lens :
    finds (p_partitions t m pbits lens)
      (fun e w => e = escape /\ exists ws parts later, Forall2 (rice_partition (Z.of_nat pbits)) ws parts
         /\ map (@length Z) parts ++ later = lens /\ later <> []
         /\ w = concat ws ++ word (Z.of_nat pbits) (2 ^ Z.of_nat pbits - 1)).
  Proof.
    induction lens as [|n lens IH]; intros s e s' Hf He E; cbn [p_partitions] in E; [discriminate|].
    apply bind_err in E as [E|(a & s0 & Ea & E)].
    - apply partition_finds in E as (w & -> & -> & ->); [|exact Hf|exact He].
      eexists. split; [reflexivity|]. split; [reflexivity|]. exists [], [], (n :: lens).
      repeat split; [constructor|discriminate].
    - apply partition_sound in Ea as (w1 & -> & Hl & Hp); [|exact Hf].
      apply bind_err in E as [E|(b & s1 & Eb & E)]; [|discriminate].
      apply IH in E as (w & -> & -> & ws & parts & later & HF & Hm & Hne & ->);
        [|eapply fine_app, Hf|exact He].
      exists (w1 ++ concat ws ++ word (Z.of_nat pbits) (2 ^ Z.of_nat pbits - 1)).
      rewrite <- !app_assoc. split; [reflexivity|]. split; [reflexivity|].
      exists (w1 :: ws), (a :: parts), later. split; [constructor; auto|].
      split; [cbn [map app]; congruence|]. split; [exact Hne|].
      cbn [concat]. rewrite <- !app_assoc. reflexivity.
  Qed.
  Lemma partitions_reports pbits ws parts later :
    Forall2 (rice_partition (Z.of_nat pbits)) ws parts -> later <> [] -> forall rest,
    p_partitions t m pbits (map (@length Z) parts ++ later)
      (concat ws ++ word (Z.of_nat pbits) (2 ^ Z.of_nat pbits - 1) ++ rest) = (Err escape, rest).
  Proof.
    intros HF Hne rest. induction HF as [|w p ws parts Hp HF IH]; cbn [map app concat].
    - destruct later as [|n later]; [congruence|]. cbn [p_partitions].
      apply bind_fail, partition_reports. auto.
    - cbn [p_partitions]. unfold bind at 1.
      rewrite <- app_assoc. rewrite (partition_complete t m pbits w p _ Hp).
      apply bind_fail, IH.
  Qed.

  Lemma residual_finds bs order : 0 <= bs ->
    finds (p_residual t m bs order) (residual_fault bs order).
  Proof.
    intros Hbs s e s' Hf He E. unfold p_residual in E.
    apply bind_err in E as [E|(method & s1 & Em & E)]; [destruct (clean_bits _ _ _ _ He E)|].
    apply bl_bits_inv in Em as [-> Hm]. change (2 ^ Z.of_nat 2) with 4 in Hm.
    apply bind_err in E as [E|(pbits & s2 & Ep & E)].
    { destruct (Z.eqb_spec method 0); [discriminate|]. destruct (Z.eqb_spec method 1); [discriminate|].
      injection E as <- <-. eexists. split; [reflexivity|]. constructor. lia. }
    assert (s2 = s1 /\ (method = 0 \/ method = 1) /\ Z.of_nat pbits = method_pbits method)
      as (-> & Hmethod & Hpb).
    { unfold method_pbits.
      destruct (Z.eqb_spec method 0); [inversion Ep; subst; split; [reflexivity|lia]|].
      destruct (Z.eqb_spec method 1); [inversion Ep; subst; split; [reflexivity|lia]|]. discriminate. }
    apply bind_err in E as [E|(po & s3 & Epo & E)]; [destruct (clean_bits _ _ _ _ He E)|].
    apply bl_bits_inv in Epo as [-> Hpo].
    change (2 ^ Z.of_nat 4) with 16 in Hpo.
    destruct (Z.eqb_spec (bs mod 2 ^ po) 0) as [Hd|Hd]; cbn [negb] in E.
    2: { injection E as <- <-. exists (word 2 method ++ word 4 po). rewrite <- app_assoc.
         split; [reflexivity|]. constructor; auto; lia. }
    destruct (Z.ltb_spec (bs / 2 ^ po) order) as [Ho|Ho].
    { injection E as <- <-. exists (word 2 method ++ word 4 po). rewrite <- app_assoc.
      split; [reflexivity|]. apply fault_first_partition; auto; lia. }
    apply partitions_finds in E as (w & -> & -> & ws & parts & later & HF & Hlen & Hne & ->);
      [|eapply fine_app, fine_app, Hf|exact He].
    exists (word 2 method ++ word 4 po ++ concat ws
            ++ word (method_pbits method) (2 ^ method_pbits method - 1)).
    rewrite <- Hpb. rewrite <- !app_assoc. split; [reflexivity|]. apply fault_escape.
    exists method, po, ws, parts, (map Z.of_nat later). rewrite <- Hpb.
    split; [assumption|]. split; [lia|]. split; [assumption|]. split; [assumption|].
    split; [assumption|]. split; [apply lengths_nat; auto; lia|]. split; [|reflexivity].
    destruct later; [congruence|discriminate].
  Qed.
  Lemma residual_reports bs order : reports (p_residual t m bs order) (residual_fault bs order).
  Proof.
    intros e w rest H. unfold p_residual.
    assert (forall method, method = 0 \/ method = 1 ->
      exists pbits : nat, (forall s : list bool, (if method =? 0 then ret 4%nat
              else if method =? 1 then ret 5%nat
              else fmt_err "invalid residual, encountered reserved value") s
              = (Ok pbits, s)) /\ method_pbits method = Z.of_nat pbits) as Hpbits.
    { intros method [-> | ->]; [exists 4%nat|exists 5%nat]; split; reflexivity. }
    destruct H as [method Hm|method po Hm Hpo Hd|method po Hm Hpo Hd Ho
      |w (method & po & ws & parts & later & Hm & Hpo & Hd & Ho & HF & Hlen & Hne & ->)];
      unfold bind at 1, word at 1; change (Z.to_nat 2) with 2%nat;
      rewrite <- ?app_assoc, bl_bits_app by (change (2 ^ Z.of_nat 2) with 4; lia).
    - apply bind_fail. destruct (Z.eqb_spec method 0); [lia|]. destruct (Z.eqb_spec method 1); [lia|]. reflexivity.
    - destruct (Hpbits _ Hm) as (pbits & Hp & _). unfold bind at 1. rewrite Hp.
      unfold bind at 1, word at 1. change (Z.to_nat 4) with 4%nat.
      rewrite bl_bits_app by (change (2 ^ Z.of_nat 4) with 16; lia).
      destruct (Z.eqb_spec (bs mod 2 ^ po) 0); [lia|reflexivity].
    - destruct (Hpbits _ Hm) as (pbits & Hp & _). unfold bind at 1. rewrite Hp.
      unfold bind at 1, word at 1. change (Z.to_nat 4) with 4%nat.
      rewrite bl_bits_app by (change (2 ^ Z.of_nat 4) with 16; lia).
      rewrite Hd. cbn [Z.eqb negb]. destruct (Z.ltb_spec (bs / 2 ^ po) order); [reflexivity|lia].
    - destruct (Hpbits _ Hm) as (pbits & Hp & Hpb). unfold bind at 1. rewrite Hp.
      unfold bind at 1, word at 1. change (Z.to_nat 4) with 4%nat.
      rewrite bl_bits_app by (change (2 ^ Z.of_nat 4) with 16; lia).
      rewrite Hd. cbn [Z.eqb negb]. destruct (Z.ltb_spec (bs / 2 ^ po) order); [lia|].
      rewrite <- (lengths_Z bs order po parts later Hlen). rewrite Hpb in *.
      apply partitions_reports; [exact HF|]. destruct later; [congruence|discriminate].
  Qed.

  (** ** Bodies *)
  Lemma body_finds c bps n : 1 <= bps <= 32 -> coding_ok c ->
    finds (p_body t m c bps n) (body_fault bps n c).
  Proof.
    intros Hb Hc s e s' Hf He E. destruct c as [| |o|o]; cbn [p_body coding_ok] in *.
    - exfalso. revert E. apply clean_bind; [apply clean_signed|intros; apply clean_ret|exact He].
    - exfalso. revert E. apply clean_signeds, He.
    - unfold p_fixed in E. destruct (Z.ltb_spec (Z.of_nat n) o).
      { injection E as <- <-. exists []. split; [reflexivity|]. constructor; lia. }
      apply bind_err in E as [E|(warm & s1 & Ew & E)]; [destruct (clean_signeds _ _ _ _ _ He E)|].
      apply signeds_sound with (m := m) in Ew as (w & -> & Hl & HF & ->); [|lia|assumption].
      apply bind_err in E as [E|(rs & s2 & Er & E)]; [|discriminate].
      apply residual_finds in E as (w & -> & HR); [|lia|eapply fine_app, Hf|exact He].
      exists (words bps warm ++ w). rewrite <- app_assoc. split; [reflexivity|].
      constructor; auto; lia.
    - unfold p_lpc in E. destruct (Z.ltb_spec (Z.of_nat n) o).
      { injection E as <- <-. exists []. split; [reflexivity|]. constructor; lia. }
      apply bind_err in E as [E|(warm & s1 & Ew & E)]; [destruct (clean_signeds _ _ _ _ _ He E)|].
      apply signeds_sound with (m := m) in Ew as (w & -> & Hl & HF & ->); [|lia|assumption].
      apply bind_err in E as [E|(p & s2 & Ep & E)]; [destruct (clean_bits _ _ _ _ He E)|].
      apply bl_bits_inv in Ep as [-> Hp]. change (2 ^ Z.of_nat 4) with 16 in Hp.
      destruct (Z.eqb_spec p 15) as [->|].
      { injection E as <- <-. exists (words bps warm ++ word 4 15). rewrite <- app_assoc.
        split; [reflexivity|]. constructor; auto; lia. }
      apply bind_err in E as [E|(sh & s3 & Esh & E)]; [destruct (clean_signed _ _ _ _ He E)|].
      apply signed_sound with (m := m) in Esh as (w & -> & Hsh & ->); [|lia|do 2 eapply fine_app; exact Hf].
      destruct Hsh as [Hsh1 Hsh2]. change (2 ^ (5 - 1)) with 16 in Hsh1, Hsh2.
      destruct (Z.ltb_spec sh 0).
      { injection E as <- <-. exists (words bps warm ++ word 4 (p + 1 - 1) ++ word 5 sh).
        replace (p + 1 - 1) with p by lia.
        rewrite <- !app_assoc. split; [unfold word; reflexivity|].
        replace p with (p + 1 - 1) at 1 by lia. constructor; auto; lia. }
      apply bind_err in E as [E|(cs & s4 & Ecs & E)]; [destruct (clean_signeds _ _ _ _ _ He E)|].
      apply signeds_sound with (m := m) in Ecs as (w & -> & Hlc & HFc & ->); [|lia|do 3 eapply fine_app; exact Hf].
      apply bind_err in E as [E|(rs & s5 & Er & E)]; [|discriminate].
      apply residual_finds in E as (w & -> & HR); [|lia|do 4 eapply fine_app; exact Hf|exact He].
      exists (words bps warm ++ word 4 (p + 1 - 1) ++ word 5 sh ++ words (p + 1) cs ++ w).
      replace (p + 1 - 1) with p by lia.
      rewrite <- !app_assoc. split; [unfold word; reflexivity|].
      replace p with (p + 1 - 1) at 1 by lia. constructor; auto; lia.
  Qed.
  Lemma body_reports c bps n : 1 <= bps -> reports (p_body t m c bps n) (body_fault bps n c).
  Proof.
    intros Hb e w rest H. destruct H as [o Ho Hn|o warm e w Ho Hl Hn HF HR|o Ho Hn|o warm Ho Hl Hn HF
      |o warm p sh Ho Hl Hn HF Hp Hsh|o warm p sh cs e w Ho Hl Hn HF Hp Hsh Hlc HFc HR]; cbn [p_body].
    - unfold p_fixed. destruct (Z.ltb_spec (Z.of_nat n) o); [reflexivity|lia].
    - unfold p_fixed. destruct (Z.ltb_spec (Z.of_nat n) o); [lia|].
      replace (Z.to_nat o) with (length warm) by lia.
      unfold bind at 1. rewrite <- app_assoc, signeds_complete by auto.
      apply bind_fail, residual_reports, HR.
    - unfold p_lpc. destruct (Z.ltb_spec (Z.of_nat n) o); [reflexivity|lia].
    - unfold p_lpc. destruct (Z.ltb_spec (Z.of_nat n) o); [lia|].
      replace (p_repeat (Z.to_nat o) (p_signed t bps)) with (p_repeat (length warm) (p_signed t bps)) by (do 2 f_equal; lia).
      unfold bind at 1. rewrite <- !app_assoc, signeds_complete by auto.
      unfold bind at 1. unfold word at 1. change (Z.to_nat 4) with 4%nat.
      rewrite bl_bits_app by (change (2 ^ Z.of_nat 4) with 16; lia). reflexivity.
    - unfold p_lpc. destruct (Z.ltb_spec (Z.of_nat n) o); [lia|].
      replace (p_repeat (Z.to_nat o) (p_signed t bps)) with (p_repeat (length warm) (p_signed t bps)) by (do 2 f_equal; lia).
      unfold bind at 1. rewrite <- !app_assoc, signeds_complete by auto.
      unfold bind at 1. unfold word at 1. change (Z.to_nat 4) with 4%nat.
      rewrite bl_bits_app by (change (2 ^ Z.of_nat 4) with 16; lia).
      destruct (Z.eqb_spec (p - 1) 15); [lia|].
      unfold bind at 1. rewrite (signed_complete t 5 ltac:(lia) (word 5 sh) sh)
        by (split; [red; change (2 ^ (5 - 1)) with 16; lia|reflexivity]).
      destruct (Z.ltb_spec sh 0); [reflexivity|lia].
    - unfold p_lpc. destruct (Z.ltb_spec (Z.of_nat n) o); [lia|].
      replace (p_repeat (Z.to_nat o) (p_signed t bps)) with (p_repeat (length warm) (p_signed t bps)) by (do 2 f_equal; lia).
      unfold bind at 1. rewrite <- !app_assoc, signeds_complete by auto.
      unfold bind at 1. unfold word at 1. change (Z.to_nat 4) with 4%nat.
      rewrite bl_bits_app by (change (2 ^ Z.of_nat 4) with 16; lia).
      destruct (Z.eqb_spec (p - 1) 15); [lia|].
      unfold bind at 1. rewrite (signed_complete t 5 ltac:(lia) (word 5 sh) sh)
        by (split; [red; change (2 ^ (5 - 1)) with 16; lia|reflexivity]).
      destruct (Z.ltb_spec sh 0); [lia|].
      replace (p - 1 + 1) with p by lia.
      replace (p_repeat (Z.to_nat o) (p_signed t p)) with (p_repeat (length cs) (p_signed t p)) by (do 2 f_equal; lia).
      unfold bind at 1. rewrite signeds_complete by (auto; lia).
      apply bind_fail, residual_reports, HR.
  Qed.

  (** ** Subframes *)
  Definition type_fault (e : error) (w : list bool) : Prop :=
    e = FormatError "invalid subframe header, encountered reserved value"
    /\ exists v, 0 <= v < 64 /\ (forall c, coding_ok c -> coding_code c <> v) /\ w = word 6 v.
  Lemma type_finds : finds (p_type t) type_fault.
  Proof.
    intros s e s' Hf He E. unfold p_type in E.
    apply bind_err in E as [E|(v & s1 & Ev & E)]; [destruct (clean_bits _ _ _ _ He E)|].
    apply bl_bits_inv in Ev as [-> Hv]. change (2 ^ Z.of_nat 6) with 64 in Hv.
    destruct (Z.eqb_spec v 0); [discriminate|]. destruct (Z.eqb_spec v 1); [discriminate|].
    destruct ((8 <=? v) && (v <=? 12)) eqn:E1; [discriminate|]. destruct (Z.leb_spec 32 v); [discriminate|].
    injection E as <- <-. exists (word 6 v). split; [reflexivity|]. split; [reflexivity|].
    exists v. split; [lia|]. split; [|reflexivity].
    intros [| |o|o] Hc; cbn [coding_ok coding_code] in *; lia.
  Qed.
  Lemma type_reports : reports (p_type t) type_fault.
  Proof.
    intros e w rest (-> & v & Hv & Hc & ->). unfold p_type, bind, word. change (Z.to_nat 6) with 6%nat.
    rewrite bl_bits_app by (change (2 ^ Z.of_nat 6) with 64; lia).
    destruct (Z.eqb_spec v 0); [destruct (Hc Constant I); cbn; lia|].
    destruct (Z.eqb_spec v 1); [destruct (Hc Verbatim I); cbn; lia|].
    destruct ((8 <=? v) && (v <=? 12)) eqn:E1; [destruct (Hc (Fixed (v - 8))); cbn [coding_ok coding_code]; lia|].
    destruct (Z.leb_spec 32 v); [destruct (Hc (Lpc (v - 31))); cbn [coding_ok coding_code]; lia|]. reflexivity.
  Qed.
  Definition wasted_fault (e : error) (w : list bool) : Prop :=
    e = FormatError "wasted bits per sample must not exceed 31"
    /\ exists k, 31 < k < 2 ^ 32 /\ w = wasted_field k.
  Lemma wasted_finds : finds (p_wasted t m) wasted_fault.
  Proof.
    intros s e s' Hf He E. unfold p_wasted in E.
    apply bind_err in E as [E|(b & s1 & Eb & E)]; [destruct (clean_bit _ _ _ He E)|].
    destruct s as [|b' s]; [discriminate|]. inversion Eb; subst b' s1.
    apply bind_err in E as [E|(k & s2 & Ek & E)].
    { exfalso. revert E. destruct b; [apply clean_bind; [apply clean_unary|intros; apply clean_chk|exact He]|apply clean_ret, He]. }
    destruct b; [|injection Ek as <- <-; discriminate E].
    apply bind_ok in Ek as (u & s3 & Eu & Ek).
    apply unary_inv in Eu as (-> & Hu & Hm); [|eapply (fine_app _ [true]), Hf].
    assert (1 + u < 2 ^ 32 /\ k = 1 + u /\ s2 = s3) as (Hu' & -> & ->).
    { unfold lift, chk in Ek. destruct Hm as [->|Hm].
      - destruct (Z.eqb_spec (u32 (1 + u)) (1 + u)); [|discriminate Ek]. split; [|inversion Ek; auto].
        rewrite <- e0. apply u32_range.
      - rewrite u32_id in Ek by lia. rewrite Z.eqb_refl in Ek. split; [lia|inversion Ek; auto]. }
    destruct (Z.ltb_spec 31 (1 + u)); [|discriminate]. injection E as <- <-.
    exists (wasted_field (1 + u)). split; [|split; [reflexivity|exists (1 + u); split; [lia|reflexivity]]].
    unfold wasted_field. destruct (Z.eqb_spec (1 + u) 0); [lia|]. replace (1 + u - 1) with u by lia. reflexivity.
  Qed.
  Lemma wasted_reports : reports (p_wasted t m) wasted_fault.
  Proof.
    intros e w rest (-> & k & Hk & ->). unfold p_wasted, wasted_field.
    destruct (Z.eqb_spec k 0); [lia|].
    unfold bind at 1. cbn [app bl_bit]. unfold bind. rewrite bl_unary_app by lia.
    rewrite chk_u32 by lia. unfold lift. destruct (Z.ltb_spec 31 (1 + (k - 1))); [reflexivity|lia].
  Qed.

  Theorem subframe_finds bps n : 1 <= bps <= 32 ->
    finds (p_subframe t m bps n) (subframe_fault bps n).
  Proof.
    intros Hb s e s' Hf He E. unfold p_subframe in E.
    apply bind_err in E as [E|(pad & s1 & Epad & E)]; [destruct (clean_bit _ _ _ He E)|].
    destruct s as [|b' s]; [discriminate|]. inversion Epad; subst b' s1.
    destruct pad; [injection E as <- <-; exists [true]; split; [reflexivity|constructor]|].
    apply bind_err in E as [E|(c & s2 & Ec & E)].
    { apply type_finds in E as (w & -> & -> & v & Hv & Hc & ->); [|eapply (fine_app _ [false]), Hf|exact He].
      exists (false :: word 6 v). split; [reflexivity|]. constructor; assumption. }
    apply type_sound with (m := m) in Ec as (w & -> & Hc & ->); [|eapply (fine_app _ [false]), Hf].
    apply bind_err in E as [E|(k & s3 & Ek & E)].
    { apply wasted_finds in E as (w & -> & -> & k & Hk & ->); [|eapply fine_app, (fine_app _ [false]), Hf|exact He].
      exists (false :: word 6 (coding_code c) ++ wasted_field k). cbn [app]. rewrite <- app_assoc.
      split; [reflexivity|]. constructor; assumption. }
    apply wasted_sound in Ek as (w & -> & Hk & ->); [|eapply fine_app, (fine_app _ [false]), Hf].
    destruct (Z.leb_spec bps k).
    { injection E as <- <-. exists (false :: word 6 (coding_code c) ++ wasted_field k). cbn [app]. rewrite <- app_assoc.
      split; [reflexivity|]. apply fault_all_wasted; assumption. }
    apply bind_err in E as [E|(l & s4 & El & E)]; [|discriminate].
    apply body_finds in E as (w & -> & Hw); [|lia|assumption|eapply fine_app, fine_app, (fine_app _ [false]), Hf|exact He].
    exists (false :: word 6 (coding_code c) ++ wasted_field k ++ w).
    cbn [app]. rewrite <- !app_assoc. split; [reflexivity|]. apply fault_body; assumption.
  Qed.
  Lemma fault_coding c bps n e w : body_fault bps n c e w -> coding_ok c.
  Proof. destruct 1; cbn [coding_ok]; auto. Qed.
  Theorem subframe_reports bps n : reports (p_subframe t m bps n) (subframe_fault bps n).
  Proof.
    intros e w rest H. destruct H as [|v Hv Hc|c k Hc Hk|c k Hc Hk Hb|c k e w Hk Hb Hw]; [reflexivity|..];
      unfold p_subframe; unfold bind at 1; cbn [app bl_bit]; rewrite <- ?app_assoc.
    - apply bind_fail, type_reports. split; [reflexivity|]. exists v. auto.
    - unfold bind at 1. rewrite (type_complete t (word 6 (coding_code c)) c) by auto.
      apply bind_fail, wasted_reports. split; [reflexivity|]. exists k. auto.
    - unfold bind at 1. rewrite (type_complete t (word 6 (coding_code c)) c) by auto.
      unfold bind at 1. rewrite (wasted_complete t m (wasted_field k) k) by auto.
      destruct (Z.leb_spec bps k); [reflexivity|lia].
    - unfold bind at 1. rewrite (type_complete t (word 6 (coding_code c)) c) by (split; [eapply fault_coding, Hw|reflexivity]).
      unfold bind at 1. rewrite (wasted_complete t m (wasted_field k) k) by auto.
      destruct (Z.leb_spec bps k); [lia|]. apply bind_fail, body_reports; [lia|exact Hw].
  Qed.

  Lemma seq_finds n bs : Forall (fun b => 1 <= b <= 32) bs ->
    finds (seq_channels t m n bs) (channels_fault n bs).
  Proof.
    intros HF. induction HF as [|b bs Hb HF IH]; intros s e s' Hf He E; cbn [seq_channels] in E; [discriminate E|].
    apply bind_err in E as [E|(a & s0 & E0 & E)].
    - apply subframe_finds in E as (w & -> & Hw); [|exact Hb|exact Hf|exact He].
      exists w. split; [reflexivity|]. constructor. exact Hw.
    - apply subframe_sound in E0 as (w & -> & Hw); [|exact Hb|exact Hf].
      apply IH in E as (w' & -> & Hw'); [|eapply fine_app, Hf|exact He].
      exists (w ++ w'). rewrite <- app_assoc. split; [reflexivity|].
      econstructor; [exact Hw|exact Hw'].
  Qed.
  Lemma seq_reports n bs : reports (seq_channels t m n bs) (channels_fault n bs).
  Proof.
    intros e w rest H. induction H as [b bs e w Hw|b bs e w0 s w Hw0 Hw IH]; cbn [seq_channels].
    - apply bind_fail, subframe_reports, Hw.
    - unfold bind. rewrite <- app_assoc, (subframe_complete t m b n _ _ _ Hw0). exact IH.
  Qed.
  Lemma channels_finds ca bps n : 1 <= bps <= 31 -> assignment_ok ca ->
    finds (p_channels t m ca bps n) (channels_fault n (subframe_widths bps ca)).
  Proof.
    intros Hb Ha s e s' Hf He E. apply channels_seq in E; [|exact Ha].
    apply seq_finds in E; auto. apply assignment_widths; assumption.
  Qed.
  Lemma channels_reports ca bps n : assignment_ok ca ->
    reports (p_channels t m ca bps n) (channels_fault n (subframe_widths bps ca)).
  Proof. intros Ha e w rest H. apply channels_seq; [exact Ha|]. apply seq_reports, H. Qed.
End Bits.
