(** Errors that release builds find in the data: exactly those of SpecLooseFault.v.
    Along the lines of ProofFault.v and ProofFault2.v. *)
From Verif Require Export SpecLooseFault ProofLoose ProofFault3 ProofOverflow.
From Verif Require Import SpecReader.

Section Bits.
  Context (t : tail).
  Notation m := Release.
  Definition lfinds {A} (p : P A) (G : error -> list bool -> Prop) : Prop :=
    forall s e s', ours e -> p s = (Err e, s') -> exists w, s = w ++ s' /\ G e w.

  (** ** Residuals *)
  Lemma lpartition_finds pbits n :
    lfinds (p_partition t m pbits n) (fun e w => e = escape /\ w = word (Z.of_nat pbits) (2 ^ Z.of_nat pbits - 1)).
  Proof.
    intros s e s' He E. unfold p_partition in E.
    apply bind_err in E as [E|(k & s0 & Ek & E)]; [destruct (clean_bits t _ _ _ _ He E)|].
    apply bl_bits_inv in Ek as [-> Hk].
    destruct (Z.eqb_spec k (2 ^ Z.of_nat pbits - 1)) as [->|];
      [|destruct (clean_repeat _ _ (clean_rice t m _) _ _ _ He E)].
    injection E as <- <-.
    exists (word (Z.of_nat pbits) (2 ^ Z.of_nat pbits - 1)). unfold word. rewrite Nat2Z.id. auto.
  Qed.
  Lemma lpartitions_finds pbits lens :
    lfinds (p_partitions t m pbits lens)
      (fun e w => e = escape /\ exists ws parts later, Forall2 (loose_partition (Z.of_nat pbits)) ws parts
         /\ map (@length Z) parts ++ later = lens /\ later <> []
         /\ w = concat ws ++ word (Z.of_nat pbits) (2 ^ Z.of_nat pbits - 1)).
  Proof.
    induction lens as [|n lens IH]; intros s e s' He E; cbn [p_partitions] in E; [discriminate|].
    apply bind_err in E as [E|(a & s0 & Ea & E)].
    - apply lpartition_finds in E as (w & -> & -> & ->); [|exact He].
      eexists. split; [reflexivity|]. split; [reflexivity|]. exists [], [], (n :: lens).
      repeat split; [constructor|discriminate].
    - apply lpartition_sound in Ea as (w1 & -> & Hl & Hp).
      apply bind_err in E as [E|(b & s1 & Eb & E)]; [|discriminate].
      apply IH in E as (w & -> & -> & ws & parts & later & HF & Hm & Hne & ->);
        [|exact He].
      exists (w1 ++ concat ws ++ word (Z.of_nat pbits) (2 ^ Z.of_nat pbits - 1)).
      rewrite <- !app_assoc. split; [reflexivity|]. split; [reflexivity|].
      exists (w1 :: ws), (a :: parts), later. split; [constructor; auto|].
      split; [cbn [map app]; congruence|]. split; [exact Hne|].
      cbn [concat]. rewrite <- !app_assoc. reflexivity.
  Qed.
  Lemma lpartitions_reports pbits ws parts later :
    Forall2 (loose_partition (Z.of_nat pbits)) ws parts -> later <> [] -> forall rest,
    p_partitions t m pbits (map (@length Z) parts ++ later)
      (concat ws ++ word (Z.of_nat pbits) (2 ^ Z.of_nat pbits - 1) ++ rest) = (Err escape, rest).
  Proof.
    intros HF Hne rest. induction HF as [|w p ws parts Hp HF IH]; cbn [map app concat].
    - destruct later as [|n later]; [congruence|]. cbn [p_partitions].
      apply bind_fail, partition_reports. auto.
    - cbn [p_partitions]. unfold bind at 1.
      rewrite <- app_assoc. rewrite (lpartition_complete t pbits w p _ Hp).
      apply bind_fail, IH.
  Qed.

  Lemma lresidual_finds bs order : 0 <= bs ->
    lfinds (p_residual t m bs order) (loose_residual_fault bs order).
  Proof.
    intros Hbs s e s' He E. unfold p_residual in E.
    apply bind_err in E as [E|(method & s1 & Em & E)]; [destruct (clean_bits t _ _ _ _ He E)|].
    apply bl_bits_inv in Em as [-> Hm]. change (2 ^ Z.of_nat 2) with 4 in Hm.
    apply bind_err in E as [E|(pbits & s2 & Ep & E)].
    { destruct (Z.eqb_spec method 0); [discriminate|]. destruct (Z.eqb_spec method 1); [discriminate|].
      injection E as <- <-. eexists. split; [reflexivity|]. constructor. lia. }
    assert (s2 = s1 /\ (method = 0 \/ method = 1) /\ Z.of_nat pbits = method_pbits method)
      as (-> & Hmethod & Hpb).
    { unfold method_pbits.
      destruct (Z.eqb_spec method 0); [inversion Ep; subst; split; [reflexivity|lia]|].
      destruct (Z.eqb_spec method 1); [inversion Ep; subst; split; [reflexivity|lia]|]. discriminate. }
    apply bind_err in E as [E|(po & s3 & Epo & E)]; [destruct (clean_bits t _ _ _ _ He E)|].
    apply bl_bits_inv in Epo as [-> Hpo].
    change (2 ^ Z.of_nat 4) with 16 in Hpo.
    destruct (Z.eqb_spec (bs mod 2 ^ po) 0) as [Hd|Hd]; cbn [negb] in E.
    2: { injection E as <- <-. exists (word 2 method ++ word 4 po). rewrite <- app_assoc.
         split; [reflexivity|]. constructor; auto; lia. }
    destruct (Z.ltb_spec (bs / 2 ^ po) order) as [Ho|Ho].
    { injection E as <- <-. exists (word 2 method ++ word 4 po). rewrite <- app_assoc.
      split; [reflexivity|]. apply loose_fault_first_partition; auto; lia. }
    apply lpartitions_finds in E as (w & -> & -> & ws & parts & later & HF & Hlen & Hne & ->);
      [|exact He].
    exists (word 2 method ++ word 4 po ++ concat ws
            ++ word (method_pbits method) (2 ^ method_pbits method - 1)).
    rewrite <- Hpb. rewrite <- !app_assoc. split; [reflexivity|]. apply loose_fault_escape.
    exists method, po, ws, parts, (map Z.of_nat later). rewrite <- Hpb.
    split; [assumption|]. split; [lia|]. split; [assumption|]. split; [assumption|].
    split; [assumption|]. split; [apply lengths_nat; auto; lia|]. split; [|reflexivity].
    destruct later; [congruence|discriminate].
  Qed.
  Lemma lresidual_reports bs order : reports (p_residual t m bs order) (loose_residual_fault bs order).
  Proof.
    intros e w rest H. unfold p_residual.
    assert (forall method, method = 0 \/ method = 1 ->
      exists pbits : nat, (forall s : list bool, (if method =? 0 then ret 4%nat
              else if method =? 1 then ret 5%nat
              else fmt_err "invalid residual, encountered reserved value") s
              = (Ok pbits, s)) /\ method_pbits method = Z.of_nat pbits) as Hpbits.
    { intros method [-> | ->]; [exists 4%nat|exists 5%nat]; split; reflexivity. }
    destruct H as [method Hm|method po Hm Hpo Hd|method po Hm Hpo Hd Ho
      |w (method & po & ws & parts & later & Hm & Hpo & Hd & Ho & HF & Hlen & Hne & ->)];
      unfold bind at 1, word at 1; change (Z.to_nat 2) with 2%nat;
      rewrite <- ?app_assoc, bl_bits_app by (change (2 ^ Z.of_nat 2) with 4; lia).
    - apply bind_fail. destruct (Z.eqb_spec method 0); [lia|]. destruct (Z.eqb_spec method 1); [lia|]. reflexivity.
    - destruct (Hpbits _ Hm) as (pbits & Hp & _). unfold bind at 1. rewrite Hp.
      unfold bind at 1, word at 1. change (Z.to_nat 4) with 4%nat.
      rewrite bl_bits_app by (change (2 ^ Z.of_nat 4) with 16; lia).
      destruct (Z.eqb_spec (bs mod 2 ^ po) 0); [lia|reflexivity].
    - destruct (Hpbits _ Hm) as (pbits & Hp & _). unfold bind at 1. rewrite Hp.
      unfold bind at 1, word at 1. change (Z.to_nat 4) with 4%nat.
      rewrite bl_bits_app by (change (2 ^ Z.of_nat 4) with 16; lia).
      rewrite Hd. cbn [Z.eqb negb]. destruct (Z.ltb_spec (bs / 2 ^ po) order); [reflexivity|lia].
    - destruct (Hpbits _ Hm) as (pbits & Hp & Hpb). unfold bind at 1. rewrite Hp.
      unfold bind at 1, word at 1. change (Z.to_nat 4) with 4%nat.
      rewrite bl_bits_app by (change (2 ^ Z.of_nat 4) with 16; lia).
      rewrite Hd. cbn [Z.eqb negb]. destruct (Z.ltb_spec (bs / 2 ^ po) order); [lia|].
      rewrite <- (lengths_Z bs order po parts later Hlen). rewrite Hpb in *.
      apply lpartitions_reports; [exact HF|]. destruct later; [congruence|discriminate].
  Qed.

  (** ** Bodies *)
  Lemma lbody_finds c bps n : 1 <= bps <= 32 -> coding_ok c ->
    lfinds (p_body t m c bps n) (loose_body_fault bps n c).
  Proof.
    intros Hb Hc s e s' He E. destruct c as [| |o|o]; cbn [p_body coding_ok] in *.
    - exfalso. revert E. apply clean_bind; [apply clean_signed|intros; apply clean_ret|exact He].
    - exfalso. revert E. apply clean_signeds, He.
    - unfold p_fixed in E. destruct (Z.ltb_spec (Z.of_nat n) o).
      { injection E as <- <-. exists []. split; [reflexivity|]. constructor; lia. }
      apply bind_err in E as [E|(warm & s1 & Ew & E)]; [destruct (clean_signeds t _ _ _ _ _ He E)|].
      apply lsigneds_sound in Ew as (w & -> & Hl & HF & ->); [|lia].
      apply bind_err in E as [E|(rs & s2 & Er & E)]; [|discriminate].
      apply lresidual_finds in E as (w & -> & HR); [|lia|exact He].
      exists (words bps warm ++ w). rewrite <- app_assoc. split; [reflexivity|].
      constructor; auto; lia.
    - unfold p_lpc in E. destruct (Z.ltb_spec (Z.of_nat n) o).
      { injection E as <- <-. exists []. split; [reflexivity|]. constructor; lia. }
      apply bind_err in E as [E|(warm & s1 & Ew & E)]; [destruct (clean_signeds t _ _ _ _ _ He E)|].
      apply lsigneds_sound in Ew as (w & -> & Hl & HF & ->); [|lia].
      apply bind_err in E as [E|(p & s2 & Ep & E)]; [destruct (clean_bits t _ _ _ _ He E)|].
      apply bl_bits_inv in Ep as [-> Hp]. change (2 ^ Z.of_nat 4) with 16 in Hp.
      destruct (Z.eqb_spec p 15) as [->|].
      { injection E as <- <-. exists (words bps warm ++ word 4 15). rewrite <- app_assoc.
        split; [reflexivity|]. constructor; auto; lia. }
      apply bind_err in E as [E|(sh & s3 & Esh & E)]; [destruct (clean_signed t _ _ _ _ He E)|].
      apply lsigned_sound in Esh as (w & -> & Hsh & ->); [|lia].
      destruct Hsh as [Hsh1 Hsh2]. change (2 ^ (5 - 1)) with 16 in Hsh1, Hsh2.
      destruct (Z.ltb_spec sh 0).
      { injection E as <- <-. exists (words bps warm ++ word 4 (p + 1 - 1) ++ word 5 sh).
        replace (p + 1 - 1) with p by lia.
        rewrite <- !app_assoc. split; [unfold word; reflexivity|].
        replace p with (p + 1 - 1) at 1 by lia. constructor; auto; lia. }
      apply bind_err in E as [E|(cs & s4 & Ecs & E)]; [destruct (clean_signeds t _ _ _ _ _ He E)|].
      apply lsigneds_sound in Ecs as (w & -> & Hlc & HFc & ->); [|lia].
      apply bind_err in E as [E|(rs & s5 & Er & E)]; [|discriminate].
      apply lresidual_finds in E as (w & -> & HR); [|lia|exact He].
      exists (words bps warm ++ word 4 (p + 1 - 1) ++ word 5 sh ++ words (p + 1) cs ++ w).
      replace (p + 1 - 1) with p by lia.
      rewrite <- !app_assoc. split; [unfold word; reflexivity|].
      replace p with (p + 1 - 1) at 1 by lia. constructor; auto; lia.
  Qed.
  Lemma lbody_reports c bps n : 1 <= bps -> reports (p_body t m c bps n) (loose_body_fault bps n c).
  Proof.
    intros Hb e w rest H. destruct H as [o Ho Hn|o warm e w Ho Hl Hn HF HR|o Ho Hn|o warm Ho Hl Hn HF
      |o warm p sh Ho Hl Hn HF Hp Hsh|o warm p sh cs e w Ho Hl Hn HF Hp Hsh Hlc HFc HR]; cbn [p_body].
    - unfold p_fixed. destruct (Z.ltb_spec (Z.of_nat n) o); [reflexivity|lia].
    - unfold p_fixed. destruct (Z.ltb_spec (Z.of_nat n) o); [lia|].
      replace (Z.to_nat o) with (length warm) by lia.
      unfold bind at 1. rewrite <- app_assoc, signeds_complete by auto.
      apply bind_fail, lresidual_reports, HR.
    - unfold p_lpc. destruct (Z.ltb_spec (Z.of_nat n) o); [reflexivity|lia].
    - unfold p_lpc. destruct (Z.ltb_spec (Z.of_nat n) o); [lia|].
      replace (p_repeat (Z.to_nat o) (p_signed t bps)) with (p_repeat (length warm) (p_signed t bps)) by (do 2 f_equal; lia).
      unfold bind at 1. rewrite <- !app_assoc, signeds_complete by auto.
      unfold bind at 1. unfold word at 1. change (Z.to_nat 4) with 4%nat.
      rewrite bl_bits_app by (change (2 ^ Z.of_nat 4) with 16; lia). reflexivity.
    - unfold p_lpc. destruct (Z.ltb_spec (Z.of_nat n) o); [lia|].
      replace (p_repeat (Z.to_nat o) (p_signed t bps)) with (p_repeat (length warm) (p_signed t bps)) by (do 2 f_equal; lia).
      unfold bind at 1. rewrite <- !app_assoc, signeds_complete by auto.
      unfold bind at 1. unfold word at 1. change (Z.to_nat 4) with 4%nat.
      rewrite bl_bits_app by (change (2 ^ Z.of_nat 4) with 16; lia).
      destruct (Z.eqb_spec (p - 1) 15); [lia|].
      unfold bind at 1. rewrite (signed_complete t 5 ltac:(lia) (word 5 sh) sh)
        by (split; [red; change (2 ^ (5 - 1)) with 16; lia|reflexivity]).
      destruct (Z.ltb_spec sh 0); [reflexivity|lia].
    - unfold p_lpc. destruct (Z.ltb_spec (Z.of_nat n) o); [lia|].
      replace (p_repeat (Z.to_nat o) (p_signed t bps)) with (p_repeat (length warm) (p_signed t bps)) by (do 2 f_equal; lia).
      unfold bind at 1. rewrite <- !app_assoc, signeds_complete by auto.
      unfold bind at 1. unfold word at 1. change (Z.to_nat 4) with 4%nat.
      rewrite bl_bits_app by (change (2 ^ Z.of_nat 4) with 16; lia).
      destruct (Z.eqb_spec (p - 1) 15); [lia|].
      unfold bind at 1. rewrite (signed_complete t 5 ltac:(lia) (word 5 sh) sh)
        by (split; [red; change (2 ^ (5 - 1)) with 16; lia|reflexivity]).
      destruct (Z.ltb_spec sh 0); [lia|].
      replace (p - 1 + 1) with p by lia.
      replace (p_repeat (Z.to_nat o) (p_signed t p)) with (p_repeat (length cs) (p_signed t p)) by (do 2 f_equal; lia).
      unfold bind at 1. rewrite signeds_complete by (auto; lia).
      apply bind_fail, lresidual_reports, HR.
  Qed.

  (** ** Subframes *)
  Definition lwasted_fault (e : error) (w : list bool) : Prop :=
    e = FormatError "wasted bits per sample must not exceed 31" /\ exists k, 31 < k /\ loose_wasted k w.
  Lemma lsum z : u32 (1 + u32 z) = (z + 1) mod 2 ^ 32.
  Proof. unfold u32. rewrite Z.add_mod_idemp_r by lia. f_equal. lia. Qed.
  Lemma lwasted_finds : lfinds (p_wasted t m) lwasted_fault.
  Proof.
    intros s e s' He E. unfold p_wasted in E.
    apply bind_err in E as [E|(b & s1 & Eb & E)]; [destruct (clean_bit t _ _ _ He E)|].
    destruct s as [|b' s]; [discriminate|]. inversion Eb; subst b' s1.
    apply bind_err in E as [E|(k & s2 & Ek & E)].
    { exfalso. revert E. destruct b; [apply clean_bind; [apply clean_unary|intros; apply clean_chk|exact He]|apply clean_ret, He]. }
    destruct b; [|injection Ek as <- <-; discriminate E].
    apply bind_ok in Ek as (u & s3 & Eu & Ek).
    apply lunary_inv in Eu as (z & -> & Hz & ->).
    unfold lift in Ek. rewrite chk_release, lsum in Ek.
    assert (k = (z + 1) mod 2 ^ 32 /\ s2 = s3) as [Hk ->] by (split; congruence). clear Ek.
    destruct (Z.ltb_spec 31 k); [|discriminate]. injection E as <- <-.
    exists (true :: unary z). split; [reflexivity|]. split; [reflexivity|]. exists k. split; [assumption|]. right. eauto.
  Qed.
  Lemma lwasted_reports : reports (p_wasted t m) lwasted_fault.
  Proof.
    intros e w rest (-> & k & Hk & [[-> ->]|(z & Hz & -> & ->)]); [lia|]. unfold p_wasted.
    unfold bind at 1. cbn [app bl_bit]. unfold bind. rewrite lunary_app by lia.
    rewrite chk_release, lsum. unfold lift. destruct (Z.ltb_spec 31 ((z + 1) mod 2 ^ 32)); [reflexivity|lia].
  Qed.

  Theorem lsubframe_finds bps n : 1 <= bps <= 32 ->
    lfinds (p_subframe t m bps n) (loose_subframe_fault bps n).
  Proof.
    intros Hb s e s' He E. unfold p_subframe in E.
    apply bind_err in E as [E|(pad & s1 & Epad & E)]; [destruct (clean_bit t _ _ _ He E)|].
    destruct s as [|b' s]; [discriminate|]. inversion Epad; subst b' s1.
    destruct pad; [injection E as <- <-; exists [true]; split; [reflexivity|constructor]|].
    apply bind_err in E as [E|(c & s2 & Ec & E)].
    { apply (type_finds t Debug) in E as (w & -> & -> & v & Hv & Hc & ->); [|left; reflexivity|exact He].
      exists (false :: word 6 v). split; [reflexivity|]. constructor; assumption. }
    apply ltype_sound in Ec as (w & -> & Hc & ->).
    apply bind_err in E as [E|(k & s3 & Ek & E)].
    { apply lwasted_finds in E as (wk & -> & -> & k & Hk & Hwk); [|exact He].
      exists (false :: word 6 (coding_code c) ++ wk). cbn [app]. rewrite <- app_assoc.
      split; [reflexivity|]. eapply loose_fault_wasted; eassumption. }
    apply lwasted_sound in Ek as (wk & -> & Hk & Hwk).
    destruct (Z.leb_spec bps k).
    { injection E as <- <-. exists (false :: word 6 (coding_code c) ++ wk). cbn [app]. rewrite <- app_assoc.
      split; [reflexivity|]. eapply loose_fault_all_wasted; eassumption. }
    apply bind_err in E as [E|(l & s4 & El & E)]; [|discriminate].
    apply lbody_finds in E as (w & -> & Hw); [|lia|assumption|exact He].
    exists (false :: word 6 (coding_code c) ++ wk ++ w).
    cbn [app]. rewrite <- !app_assoc. split; [reflexivity|]. eapply loose_fault_body; eassumption.
  Qed.
  Lemma lfault_coding c bps n e w : loose_body_fault bps n c e w -> coding_ok c.
  Proof. destruct 1; cbn [coding_ok]; auto. Qed.
  Theorem lsubframe_reports bps n : reports (p_subframe t m bps n) (loose_subframe_fault bps n).
  Proof.
    intros e w rest H. destruct H as [|v Hv Hc|c k wk Hc Hk Hwk|c k wk Hc Hk Hb Hwk|c k wk e w Hk Hb Hwk Hw]; [reflexivity|..];
      unfold p_subframe; unfold bind at 1; cbn [app bl_bit]; rewrite <- ?app_assoc.
    - apply bind_fail, type_reports. split; [reflexivity|]. exists v. auto.
    - unfold bind at 1. rewrite (type_complete t (word 6 (coding_code c)) c) by auto.
      apply bind_fail, lwasted_reports. split; [reflexivity|]. exists k. auto.
    - unfold bind at 1. rewrite (type_complete t (word 6 (coding_code c)) c) by auto.
      unfold bind at 1. rewrite (lwasted_complete t wk k) by auto.
      destruct (Z.leb_spec bps k); [reflexivity|lia].
    - unfold bind at 1. rewrite (type_complete t (word 6 (coding_code c)) c) by (split; [eapply lfault_coding, Hw|reflexivity]).
      unfold bind at 1. rewrite (lwasted_complete t wk k) by auto.
      destruct (Z.leb_spec bps k); [lia|]. apply bind_fail, lbody_reports; [lia|exact Hw].
  Qed.

  Lemma lseq_finds n bs : Forall (fun b => 1 <= b <= 32) bs ->
    lfinds (seq_channels t m n bs) (loose_channels_fault n bs).
  Proof.
    intros HF. induction HF as [|b bs Hb HF IH]; intros s e s' He E; cbn [seq_channels] in E; [discriminate E|].
    apply bind_err in E as [E|(a & s0 & E0 & E)].
    - apply lsubframe_finds in E as (w & -> & Hw); [|exact Hb|exact He].
      exists w. split; [reflexivity|]. constructor. exact Hw.
    - apply lsubframe_sound in E0 as (w & -> & Hw); [|exact Hb].
      apply IH in E as (w' & -> & Hw'); [|exact He].
      exists (w ++ w'). rewrite <- app_assoc. split; [reflexivity|].
      econstructor; [exact Hw|exact Hw'].
  Qed.
  Lemma lseq_reports n bs : reports (seq_channels t m n bs) (loose_channels_fault n bs).
  Proof.
    intros e w rest H. induction H as [b bs e w Hw|b bs e w0 s w Hw0 Hw IH]; cbn [seq_channels].
    - apply bind_fail, lsubframe_reports, Hw.
    - unfold bind. rewrite <- app_assoc, (lsubframe_complete t b n _ _ _ Hw0). exact IH.
  Qed.
  Lemma lchannels_finds ca bps n : 1 <= bps <= 31 -> assignment_ok ca ->
    lfinds (p_channels t m ca bps n) (loose_channels_fault n (subframe_widths bps ca)).
  Proof.
    intros Hb Ha s e s' He E. apply channels_seq in E; [|exact Ha].
    apply lseq_finds in E; auto. apply assignment_widths; assumption.
  Qed.
  Lemma lchannels_reports ca bps n : assignment_ok ca ->
    reports (p_channels t m ca bps n) (loose_channels_fault n (subframe_widths bps ca)).
  Proof. intros Ha e w rest H. apply channels_seq; [exact Ha|]. apply lseq_reports, H. Qed.
End Bits.

Section Frame.
  Context (t : tail).
  Notation m := Release.

  Theorem lframe_finds l e l' : bytes_ok l -> ours e ->
    fl_frame t m l l = (Err e, l') -> exists w, l = w ++ l' /\ loose_fault e w.
  Proof.
    intros Hb He E. unfold fl_frame in E. apply bind_err in E as [E|([fh|] & l1 & E1 & E)]; [| |discriminate E].
    { apply header_finds in E as (w & -> & Hw); auto. exists w. split; [reflexivity|]. apply loose_fault_header, Hw. }
    destruct (header_sound t m l fh l1 Hb E1) as (h & hw & El & Hw & ->). rewrite header_of_fh in E.
    apply bind_err in E as [E|(chs & l2 & _ & E)]; [|discriminate E].
    pose proof (header_decent _ _ Hw) as (Hsz & Has & Hn & Hn' & Hbps).
    unfold frame_rest in E. destruct (h_width h) as [x|] eqn:Ew.
    2: { injection E as <- <-. exists hw. split; [exact El|]. eapply loose_fault_width; eauto. }
    rewrite bind_lift_ok in E.
    assert (bytes_ok l1) as Hb1 by (rewrite El in Hb; apply bytes_app in Hb; tauto).
    apply bind_err in E as [E|(c & l4 & E4 & E)].
    - unfold with_bits in E.
      destruct (p_channels t m (h_assignment h) x (Z.to_nat (h_size h)) (bytes_bits l1)) as [o bits] eqn:Ec.
      assert (o = Err e) as -> by congruence. injection E as E.
      apply lchannels_finds in Ec as (w & E5 & Hc); [|lia|exact Has|exact He].
      destruct (split_bits _ _ _ E5) as (body & rest & pad & -> & Ebody & Hpad & -> & Hlen).
      assert (rest = l') as ->.
      { rewrite <- E, El. symmetry. apply ProofFault2.position, Hlen. }
      exists (hw ++ body). split; [rewrite El, <- app_assoc; reflexivity|].
      apply bytes_app in Hb1. eapply loose_fault_subframe; eauto. apply Hb1.
    - apply with_bits_inv in E4 as (bits & E4 & ->).
      destruct (lchannels_sound t (h_assignment h) x (Z.to_nat (h_size h)) ltac:(lia) Has _ _ _ E4) as (w & E5 & Hc).
      destruct (split_bits _ _ _ E5) as (body & rest & pad & -> & Ebody & Hpad & -> & Hlen).
      rewrite <- Hlen in E. rewrite El in E. rewrite ProofFault2.position in E by reflexivity.
      apply bind_err in E as [E|(computed & l5 & E6 & E)]; [discriminate E|].
      unfold fl_crc in E6. injection E6 as <- <-.
      apply bytes_app in Hb1 as [Hbody Hrest].
      apply bind_err in E as [E|(presumed & l6 & E6 & E)]; [exfalso; eapply be_u16_err; eauto|].
      apply be_u16_inv in E6 as (a & b & -> & Ha & Hb' & ->); [|exact Hrest].
      rewrite app_assoc, consumed in E.
      destruct (Z.eqb_spec (crc16_of (hw ++ body)) (256 * a + b)) as [|Hne]; [discriminate E|].
      injection E as <- <-.
      exists (hw ++ body ++ [a; b]). split; [rewrite El, <- !app_assoc; reflexivity|].
      eapply loose_fault_crc; eauto.
      apply crc16_of_ok, bytes_app. split; [eapply header_bytes, Hw|exact Hbody].
  Qed.

  Theorem lframe_reports e w l : loose_fault e w -> bytes_ok l ->
    fl_frame t m (w ++ l) (w ++ l) = (Err e, l).
  Proof.
    intros H Hl.
    destruct H as [e w H|h hw Hh Hw|h hw bps e bits pad body Hh Hw Hc Hbody Ebody Hpad
                  |h hw bps chs bits pad body crc a b Hh Hw Hc Hbody Ebody Hpad Hcrc Ha Hb Hne].
    - unfold fl_frame. apply bind_fail, header_reports; assumption.
    - unfold fl_frame. rewrite (bind_run _ _ _ _ _ (header_complete t m h hw l Hh Hl)). rewrite header_of_fh.
      unfold bind at 1. unfold frame_rest. rewrite Hw. reflexivity.
    - assert (bytes_ok (body ++ l)) as Hb1 by (apply bytes_app; split; [exact Hbody|exact Hl]).
      rewrite <- !app_assoc.
      unfold fl_frame. rewrite (bind_run _ _ _ _ _ (header_complete t m h hw (body ++ l) Hh Hb1)). rewrite header_of_fh.
      pose proof (header_decent _ _ Hh) as (_ & Has & _).
      apply bind_fail. unfold frame_rest. rewrite Hw, bind_lift_ok. apply bind_fail.
      unfold with_bits. rewrite bytes_bits_app, Ebody, <- app_assoc.
      rewrite (lchannels_reports t _ bps _ Has _ _ (pad ++ bytes_bits l) Hc). f_equal.
      rewrite (app_length pad), bytes_bits_length.
      replace ((length pad + 8 * length l) / 8)%nat with (length l)
        by (rewrite Nat.mul_comm, Nat.div_add, Nat.div_small by lia; lia).
      apply ProofFault2.position. reflexivity.
    - rewrite (lframe_any_crc t h chs hw bps bits pad body a b) by (auto; unfold is_byte; lia).
      rewrite (crc16_unique _ _ _ (crc16_of_ok (hw ++ body) ltac:(apply bytes_app; split; [apply (header_bytes h), Hh|exact Hbody])) Hcrc).
      destruct (Z.eqb_spec crc (256 * a + b)); [congruence|reflexivity].
  Qed.
End Frame.

Lemma lfault_ours e w : loose_fault e w -> ours e.
Proof.
  assert (forall bs o e w, loose_residual_fault bs o e w -> ours e) as Hr by (intros ? ? ? ? []; exact Logic.I).
  assert (forall bps n c e w, loose_body_fault bps n c e w -> ours e) as Hb
    by (intros ? ? ? ? ? []; try exact Logic.I; eapply Hr; eassumption).
  assert (forall bps n e w, loose_subframe_fault bps n e w -> ours e) as Hs
    by (intros ? ? ? ? []; try exact Logic.I; eapply Hb; eassumption).
  assert (forall n bs e w, loose_channels_fault n bs e w -> ours e) as Hc.
  { intros n bs e0 w0 H. induction H; [eapply Hs; eassumption|assumption]. }
  intros [? ? []| | | ]; try exact Logic.I. eapply Hc; eassumption.
Qed.

(** * Any stream *)
Section Stream.
  Context {S : Type} (rb : ReadBytes S) (t : tail) (D : S -> list Z -> Prop) (HS : stream rb t D).
  Context (fuel : nat).
  Notation Hrs := (stream_rb_sim rb t D HS no_esc).
  Notation Hes := (stream_eof_sim rb t D HS no_esc).
  Notation Hbytes := (st_bytes rb t D HS).

  Theorem loose_reported buffer st e w rest : loose_fault e w -> D st (w ++ rest) ->
    (length (w ++ rest) < fuel)%nat ->
    exists st', read_next_or_eof rb Release fuel buffer st = (Err e, st') /\ D st' rest.
  Proof.
    intros Hw HD Hf. pose proof (Hbytes _ _ HD) as Hb. apply bytes_app in Hb as [_ Hb].
    pose proof (frame_left_full rb t D Hrs Hes Hbytes Release fuel st _ buffer HD Hf) as H. cbv zeta in H.
    rewrite (lframe_reports t e w rest Hw Hb) in H. cbn [fst snd] in H.
    destruct (read_next_or_eof rb Release fuel buffer st) as [o st']. cbn [fst snd] in H.
    destruct o; try discriminate H.
    - destruct H as (? & H & _). discriminate H.
    - destruct H as [H1 H]. injection H1 as ->. exists st'. split; [reflexivity|]. apply H. eapply lfault_ours, Hw.
  Qed.
  Theorem loose_explained buffer st l e st' : D st l -> (length l < fuel)%nat -> (forall k, e <> IoError k) ->
    read_next_or_eof rb Release fuel buffer st = (Err e, st') ->
    exists w rest, l = w ++ rest /\ loose_fault e w /\ D st' rest.
  Proof.
    intros HD Hf He E. pose proof (Hbytes _ _ HD) as Hb.
    assert (ours e) as Ho by (destruct e; cbn; [exact (He _ eq_refl)|exact Logic.I..]).
    pose proof (frame_left_full rb t D Hrs Hes Hbytes Release fuel st _ buffer HD Hf) as H. cbv zeta in H.
    rewrite E in H. cbn [fst snd] in H. destruct H as [Ef H]. specialize (H Ho).
    destruct (fl_frame t Release l l) as [o l'] eqn:E1. cbn [fst snd] in *. subst o.
    apply lframe_finds in E1 as (w & -> & Hw); auto. exists w, l'. auto.
  Qed.
  Theorem release_cases buffer st l : D st l -> (length l < fuel)%nat -> (1 < fuel)%nat ->
    let r := read_next_or_eof rb Release fuel buffer st in
    (exists h chs w rest b, l = w ++ rest /\ loose_frame h chs w
       /\ fst r = Ok (Some b) /\ block_shows b h chs /\ D (snd r) rest)
    \/ (exists e w rest, l = w ++ rest /\ loose_fault e w /\ fst r = Err e /\ D (snd r) rest)
    \/ (t = TEof /\ (length l <= 1)%nat /\ fst r = Ok None /\ D (snd r) [])
    \/ (loose_incomplete l /\ fst r = Err (tail_error t)).
  Proof.
    intros HD Hf H1. cbv zeta. pose proof (next_progress rb t D HS Release fuel buffer st l HD Hf H1) as Hp. cbv zeta in Hp.
    pose proof (frame_safe rb t D HS Release fuel buffer st l (or_introl eq_refl) HD Hf) as Hv.
    destruct (read_next_or_eof rb Release fuel buffer st) as [o st'] eqn:E. cbn [fst snd] in *.
    destruct o as [[b|]|[k|w|w]|w|w|]; try (destruct Hv as [[? Hv]|[? Hv]]; discriminate Hv).
    - left. destruct (loose_only rb t D HS fuel buffer st l b st' HD Hf E) as (h & chs & w & rest & El & HD' & Hw & Hs).
      exists h, chs, w, rest, b. auto.
    - right; right; left. tauto.
    - right; right; right. rewrite Hp. split; [|reflexivity].
      intros w rest ->. split.
      + intros h chs Hw. destruct (loose_decoded rb t D HS fuel buffer st h chs w rest Hw HD Hf) as (b & st2 & E2 & _). congruence.
      + intros e Hw. destruct (loose_reported buffer st e w rest Hw HD Hf) as (st2 & E2 & _).
        assert (e = IoError k) as -> by congruence. apply lfault_ours in Hw. exact Hw.
    - right; left. destruct (loose_explained buffer st l (FormatError w) st' HD Hf ltac:(discriminate) E) as (w' & rest & El & Hw & HD'). eauto 8.
    - right; left. destruct (loose_explained buffer st l (Unsupported w) st' HD Hf ltac:(discriminate) E) as (w' & rest & El & Hw & HD'). eauto 8.
  Qed.
  Theorem debug_cases buffer st l : D st l -> (length l < fuel)%nat -> (1 < fuel)%nat ->
    let r := read_next_or_eof rb Debug fuel buffer st in
    (exists h chs w rest b, l = w ++ rest /\ frame_code h chs w
       /\ fst r = Ok (Some b) /\ block_shows b h chs /\ D (snd r) rest)
    \/ (exists e w rest, l = w ++ rest /\ frame_fault e w /\ fst r = Err e /\ D (snd r) rest)
    \/ (t = TEof /\ (length l <= 1)%nat /\ fst r = Ok None /\ D (snd r) [])
    \/ (exists p rest why, l = p ++ rest /\ frame_overflow p /\ fst r = Panic why)
    \/ (incomplete l /\ (forall p rest, l = p ++ rest -> ~ frame_overflow p) /\ fst r = Err (tail_error t)).
  Proof.
    intros HD Hf H1. cbv zeta. pose proof (next_progress rb t D HS Debug fuel buffer st l HD Hf H1) as Hp. cbv zeta in Hp.
    destruct (panics_overflow rb t D HS fuel buffer st l HD Hf) as [Hv|(p & rest & -> & Ho)].
    2: { do 3 right; left. destruct (overflow_panics rb t D HS fuel buffer st p rest Ho HD Hf) as (why & Ew). eauto 8. }
    destruct (read_next_or_eof rb Debug fuel buffer st) as [o st'] eqn:E. cbn [fst snd] in *.
    destruct o as [[b|]|[k|w|w]|w|w|]; try (destruct Hv as [[? Hv]|[? Hv]]; discriminate Hv).
    - left. destruct (frame_only rb t D HS Debug fuel buffer st l b st' (or_introl eq_refl) HD Hf E) as (h & chs & w & rest & El & HD' & Hw & Hs).
      exists h, chs, w, rest, b. auto.
    - right; right; left. tauto.
    - do 4 right. rewrite Hp. split; [|split; [|reflexivity]].
      + intros w rest ->. split.
        * intros h chs Hw. destruct (frame_decoded rb t D HS Debug fuel buffer st h chs w rest Hw HD Hf) as (b & st2 & E2 & _). congruence.
        * intros e Hw. destruct (next_reports rb t D HS Debug fuel buffer st e w rest Hw HD Hf) as (st2 & E2 & _).
          assert (e = IoError k) as -> by congruence. apply fault_ours in Hw. exact Hw.
      + intros p rest -> Ho. destruct (overflow_panics rb t D HS fuel buffer st p rest Ho HD Hf) as (why & Ew).
        rewrite E in Ew. discriminate Ew.
    - right; left. destruct (next_explained rb t D HS Debug fuel buffer st l (FormatError w) st' (or_introl eq_refl) HD Hf ltac:(discriminate) E) as (w' & rest & El & Hw & HD'). eauto 8.
    - right; left. destruct (next_explained rb t D HS Debug fuel buffer st l (Unsupported w) st' (or_introl eq_refl) HD Hf ltac:(discriminate) E) as (w' & rest & El & Hw & HD'). eauto 8.
  Qed.
End Stream.

(** * Against the strict grammar *)
Lemma header_fault_bytes e w : header_fault e w -> bytes_ok w.
Proof.
  assert (forall s, second_byte s -> 0 <= s < 256) as H2 by (intros s [-> | ->]; lia).
  intros H. destruct H as [a b Ha Hb Hs|b Hb|s x Hs Hx H0|s x Hs Hx H0 H15|s x y Hs Hx Hy Hn
      |s x y num Hs Hx Hy Hn|x y num v Hx Hy Hn Hv|s x y num v Hs Hx Hy H7 Hn Hv|h front crc c Hf Hcrc Hc Hne].
  - repeat (apply bytes_cons; split; [assumption|]). constructor.
  - repeat (apply bytes_cons; split; [lia|]). constructor.
  - apply H2 in Hs. repeat (apply bytes_cons; split; [lia|]). constructor.
  - apply H2 in Hs. repeat (apply bytes_cons; split; [lia|]). constructor.
  - apply H2 in Hs. destruct Hx as [Hx _]. repeat (apply bytes_cons; split; [lia|]). constructor.
  - apply H2 in Hs. destruct Hx as [Hx _], Hy as [Hy _]. cbn [app]. repeat (apply bytes_cons; split; [lia|]).
    destruct Hn as [b Hb|first k cs b Ha Hcs Hk Hb Hn]; [apply bytes_cons; unfold continues in Hb; split; [lia|constructor]|].
    destruct (class_announces _ _ Ha) as (_ & _ & Hf). apply bytes_cons. split; [exact Hf|].
    apply bytes_app. split; [|apply bytes_cons; split; [exact Hb|constructor]].
    eapply Forall_impl; [|exact Hcs]. unfold continues, is_byte. lia.
  - destruct Hx as [Hx _], Hy as [Hy _]. cbn [app]. repeat (apply bytes_cons; split; [lia|]). eapply accepted_bytes, Hn.
  - apply H2 in Hs. destruct Hx as [Hx _], Hy as [Hy _]. cbn [app]. repeat (apply bytes_cons; split; [lia|]).
    apply bytes_app. split; [eapply accepted_bytes, Hn|]. repeat (apply bytes_cons; split; [lia|]). constructor.
  - apply bytes_app. split; [apply (front_bytes h), Hf|]. apply bytes_cons. split; [exact Hc|constructor].
Qed.
Lemma fault_bytes e w : frame_fault e w -> bytes_ok w.
Proof.
  intros [e0 w0 H|h hw Hh Hw|h hw bps e0 bits pad body Hh Hw Hc Hbody Ebody Hpad
                  |h hw bps chs bits pad body crc a b Hh Hw Hc Hbody Ebody Hpad Hcrc Ha Hb Hne].
  - eapply header_fault_bytes, H.
  - apply (header_bytes h), Hh.
  - apply bytes_app. split; [apply (header_bytes h), Hh|exact Hbody].
  - apply bytes_app. split; [apply (header_bytes h), Hh|]. apply bytes_app. split; [exact Hbody|].
    repeat (apply bytes_cons; split; [lia|]). constructor.
Qed.
Lemma loose_fault_bytes e w : loose_fault e w -> bytes_ok w.
Proof.
  intros [e0 w0 H|h hw Hh Hw|h hw bps e0 bits pad body Hh Hw Hc Hbody Ebody Hpad
                  |h hw bps chs bits pad body crc a b Hh Hw Hc Hbody Ebody Hpad Hcrc Ha Hb Hne].
  - eapply header_fault_bytes, H.
  - apply (header_bytes h), Hh.
  - apply bytes_app. split; [apply (header_bytes h), Hh|exact Hbody].
  - apply bytes_app. split; [apply (header_bytes h), Hh|]. apply bytes_app. split; [exact Hbody|].
    repeat (apply bytes_cons; split; [lia|]). constructor.
Qed.
Theorem loose_fault_cases e w : loose_fault e w ->
  frame_fault e w \/ ~ no_zero_run (2 ^ 32 - 1) (bytes_bits w).
Proof.
  intros H. destruct (zero_run_dec (2 ^ 32 - 1) (bytes_bits w)) as [Hq|Hq]; [left|right; exact Hq].
  pose proof (lframe_reports TEof e w [] H (Forall_nil _)) as E. rewrite app_nil_r in E.
  destruct (frame_finds TEof Release w e [] (loose_fault_bytes e w H) (or_intror Hq) (lfault_ours e w H) E) as (w' & Ew & Hw).
  rewrite app_nil_r in Ew. subst w'. exact Hw.
Qed.
Theorem fault_is_loose e w : frame_fault e w -> loose_fault e w.
Proof.
  intros H. pose proof (frame_reports TEof Release e w [] H (Forall_nil _)) as E. rewrite app_nil_r in E.
  destruct (lframe_finds TEof w e [] (fault_bytes e w H) (fault_ours e w H) E) as (w' & Ew & Hw).
  rewrite app_nil_r in Ew. subst w'. exact Hw.
Qed.
Lemma loose_fault_unique e w r e' w' r' : loose_fault e w -> loose_fault e' w' -> bytes_ok r -> bytes_ok r' ->
  w ++ r = w' ++ r' -> e = e' /\ w = w'.
Proof.
  intros H H' Hr Hr' E. pose proof (lframe_reports TEof e w r H Hr) as E1.
  pose proof (lframe_reports TEof e' w' r' H' Hr') as E2. rewrite E, E2 in E1. injection E1 as -> ->.
  split; [reflexivity|]. eapply app_inv_tail, E.
Qed.
Lemma loose_fault_or_frame e w r h chs w' r' : loose_fault e w -> loose_frame h chs w' -> bytes_ok r -> bytes_ok r' ->
  w ++ r <> w' ++ r'.
Proof.
  intros H H' Hr Hr' E. pose proof (lframe_reports TEof e w r H Hr) as E1.
  pose proof (lframe_complete TEof h chs w' r' Hr' H') as E2. rewrite E, E2 in E1. discriminate.
Qed.

(** An overflow excludes a frame and a fault. *)
Lemma overflow_no_frame p r h chs w r' : frame_overflow p -> frame_code h chs w -> bytes_ok r -> bytes_ok r' ->
  p ++ r <> w ++ r'.
Proof.
  intros H H' Hr Hr' E. destruct (frame_breaks TEof p r Hr H) as (why & l & E1).
  rewrite E, (frame_complete TEof Debug h chs w r' Hr' H') in E1. discriminate.
Qed.
Lemma overflow_no_fault p r e w r' : frame_overflow p -> frame_fault e w -> bytes_ok r -> bytes_ok r' ->
  p ++ r <> w ++ r'.
Proof.
  intros H H' Hr Hr' E. destruct (frame_breaks TEof p r Hr H) as (why & l & E1).
  rewrite E, (frame_reports TEof Debug e w r' H' Hr') in E1. discriminate.
Qed.
