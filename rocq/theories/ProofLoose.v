(** In release builds the decoder accepts exactly the frames of SpecLoose.v.
    Along the lines of ProofGrammar.v, ProofFrame.v and ProofFrame2.v. *)
From Verif Require Export SpecLoose ProofInput ProofFrames ProofPlay.
From Verif Require Import SpecReader.

Section Laws.
  Context (t : tail).
  Notation m := Release.

  Definition lsound {A} (p : P A) (G : list bool -> A -> Prop) : Prop :=
    forall s a s', p s = (Ok a, s') -> exists w, s = w ++ s' /\ G w a.

  Lemma lunary_inv s q s' : bl_unary t m s = (Ok q, s') ->
    exists z, s = unary z ++ s' /\ 0 <= z /\ q = u32 z.
  Proof.
    intros E. unfold bl_unary in E. destruct (unary_split s) as [z o] eqn:Es.
    destruct o as [r|]; [|discriminate]. injection E as <- <-.
    apply unary_split_some in Es as [-> ?]. eauto.
  Qed.
  Lemma lunary_app z r : 0 <= z -> bl_unary t m (unary z ++ r) = (Ok (u32 z), r).
  Proof. intros Hz. unfold bl_unary. rewrite unary_split_app by exact Hz. reflexivity. Qed.

  Lemma lrepeat_sound {A} n (p : P A) (G : list bool -> A -> Prop) : lsound p G ->
    lsound (p_repeat n p) (fun w l => length l = n /\ exists ws, Forall2 G ws l /\ w = concat ws).
  Proof.
    intros Hp. induction n as [|n IH]; intros s l s' E; cbn [p_repeat] in E.
    - inversion E; subst. exists []. split; [reflexivity|]. split; [reflexivity|].
      exists []. split; [constructor|reflexivity].
    - apply bind_ok in E as (x & s1 & Ex & E). apply bind_ok in E as (xs & s2 & Exs & E).
      inversion E; subst.
      destruct (Hp _ _ _ Ex) as (w1 & -> & G1).
      destruct (IH _ _ _ Exs) as (w2 & -> & Hl & ws & G2 & ->).
      exists (w1 ++ concat ws). rewrite <- app_assoc. split; [reflexivity|].
      split; [cbn [length]; lia|]. exists (w1 :: ws). split; [constructor; auto|reflexivity].
  Qed.
  Lemma rice_mod z k lo : (u32 z * 2 ^ k + lo) mod 2 ^ 32 = (z * 2 ^ k + lo) mod 2 ^ 32.
  Proof.
    unfold u32. rewrite Z.add_mod by lia. rewrite Z.mul_mod_idemp_l by lia. rewrite <- Z.add_mod by lia. reflexivity.
  Qed.
  Lemma lrice_sound k : lsound (p_rice t m k) (loose_rice (Z.of_nat k)).
  Proof.
    intros s a s' E. unfold p_rice in E.
    apply bind_ok in E as (q & s1 & Eq & E). apply bind_ok in E as (lo & s2 & El & E).
    inversion E; subst. apply lunary_inv in Eq as (z & -> & Hz & ->).
    apply bl_bits_inv in El as [-> Hlo].
    exists (unary z ++ bits_of k lo). rewrite <- app_assoc. split; [reflexivity|].
    exists z, lo. unfold word. rewrite Nat2Z.id, rice_mod. auto.
  Qed.
  Lemma lrice_complete k : complete (p_rice t m k) (loose_rice (Z.of_nat k)).
  Proof.
    intros w a s' (q & lo & Hq & Hlo & -> & ->). unfold p_rice, bind, word.
    rewrite Nat2Z.id, <- app_assoc, lunary_app by exact Hq.
    rewrite bl_bits_app by exact Hlo. unfold ret. rewrite rice_mod. reflexivity.
  Qed.
  Lemma lpartition_sound pbits n :
    lsound (p_partition t m pbits n)
      (fun w l => length l = n /\ loose_partition (Z.of_nat pbits) w l).
  Proof.
    intros s a s' E. unfold p_partition in E.
    apply bind_ok in E as (k & s1 & Ek & E). apply bl_bits_inv in Ek as [-> Hk].
    destruct (Z.eqb_spec k (2 ^ Z.of_nat pbits - 1)) as [|Hne]; [discriminate|].
    apply (lrepeat_sound _ _ _ (lrice_sound _)) in E as (w & -> & Hl & ws & Hws & ->).
    exists (bits_of pbits k ++ concat ws). rewrite <- app_assoc. split; [reflexivity|].
    split; [exact Hl|]. rewrite Z2Nat.id in Hws by lia.
    exists k, ws. unfold word. rewrite Nat2Z.id. repeat split; auto; lia.
  Qed.
  Lemma lpartition_complete pbits w l s' : loose_partition (Z.of_nat pbits) w l ->
    p_partition t m pbits (length l) (w ++ s') = (Ok l, s').
  Proof.
    intros (k & ws & Hk & Hws & ->). unfold p_partition. unfold bind at 1, word.
    rewrite Nat2Z.id, <- app_assoc, bl_bits_app by lia.
    destruct (Z.eqb_spec k (2 ^ Z.of_nat pbits - 1)); [lia|].
    apply (repeat_complete _ (loose_rice k)); [|exact Hws].
    rewrite <- (Z2Nat.id k) at 2 by lia. apply lrice_complete.
  Qed.
  Lemma lpartitions_sound pbits lens :
    lsound (p_partitions t m pbits lens)
      (fun w l => exists ws parts, Forall2 (loose_partition (Z.of_nat pbits)) ws parts
         /\ map (@length Z) parts = lens /\ w = concat ws /\ l = concat parts).
  Proof.
    induction lens as [|n lens IH]; intros s a s' E; cbn [p_partitions] in E.
    - inversion E; subst. exists []. split; [reflexivity|].
      exists [], []. repeat split; constructor.
    - apply bind_ok in E as (x & s1 & Ex & E). apply bind_ok in E as (y & s2 & Ey & E).
      inversion E; subst.
      destruct (lpartition_sound _ _ _ _ _ Ex) as (w1 & -> & Hl & H1).
      destruct (IH _ _ _ Ey) as (w2 & -> & ws & parts & H2 & Hm & -> & ->).
      exists (w1 ++ concat ws). rewrite <- app_assoc. split; [reflexivity|].
      exists (w1 :: ws), (x :: parts). repeat split; [constructor; auto|].
      cbn [map]. congruence.
  Qed.
  Lemma lpartitions_complete pbits ws parts s' :
    Forall2 (loose_partition (Z.of_nat pbits)) ws parts ->
    p_partitions t m pbits (map (@length Z) parts) (concat ws ++ s') = (Ok (concat parts), s').
  Proof.
    intros H. induction H as [|w l ws parts Hw H IH]; cbn [p_partitions map concat]; [reflexivity|].
    unfold bind. rewrite <- app_assoc, (lpartition_complete _ _ _ _ Hw), IH. reflexivity.
  Qed.
  Lemma lresidual_sound bs order : 0 <= bs -> 
    lsound (p_residual t m bs order) (loose_residual bs order).
  Proof.
    intros Hbs s a s' E. unfold p_residual in E.
    apply bind_ok in E as (method & s1 & Em & E). apply bl_bits_inv in Em as [-> Hm].
    apply bind_ok in E as (pbits & s2 & Ep & E).
    assert (s2 = s1 /\ (method = 0 \/ method = 1) /\ Z.of_nat pbits = method_pbits method)
      as (-> & Hmethod & Hpb).
    { unfold method_pbits.
      destruct (Z.eqb_spec method 0); [inversion Ep; subst; split; [reflexivity|lia]|].
      destruct (Z.eqb_spec method 1); [inversion Ep; subst; split; [reflexivity|lia]|]. discriminate. }
    apply bind_ok in E as (po & s3 & Epo & E). apply bl_bits_inv in Epo as [-> Hpo].
    change (2 ^ Z.of_nat 4) with 16 in Hpo.
    destruct (Z.eqb_spec (bs mod 2 ^ po) 0) as [Hd|]; [|discriminate]. cbn [negb] in E.
    destruct (Z.ltb_spec (bs / 2 ^ po) order) as [|Ho]; [discriminate|].
    apply lpartitions_sound in E as (w & -> & ws & parts & H & Hmap & -> & ->).
    pose proof (pow2_pos po ltac:(lia)) as Hp2.
    assert (0 <= bs / 2 ^ po) by (apply Z.div_pos; lia).
    destruct parts as [|p0 parts]; [discriminate|].
    inversion H as [|w0 ? ws' ? Hw0 Hr]; subst. cbn [map] in Hmap.
    injection Hmap as Hl0 Hmap.
    exists (word 2 method ++ word 4 po ++ w0 ++ concat ws'). split.
    { unfold word. cbn [concat]. change (Z.to_nat 2) with 2%nat. change (Z.to_nat 4) with 4%nat.
      rewrite <- !app_assoc. reflexivity. }
    exists method, po, p0, parts, w0, ws'. rewrite <- Hpb.
    split; [assumption|]. split; [lia|]. split; [assumption|]. split; [assumption|].
    split; [lia|]. split.
    { apply (f_equal (@length nat)) in Hmap. rewrite map_length, repeat_length in Hmap. lia. }
    split.
    { apply Forall_forall. intros p Hp. apply (in_map (@length Z)) in Hp. rewrite Hmap in Hp.
      apply repeat_spec in Hp. lia. }
    repeat split; auto.
  Qed.
  Lemma lresidual_complete bs order : 0 <= bs -> 
    complete (p_residual t m bs order) (loose_residual bs order).
  Proof.
    intros Hbs w rs s' (method & po & p0 & parts & w0 & ws & Hm & Hpo & Hd & Ho & Hl0 & Hlp & HF & H0 & HR & -> & ->).
    unfold p_residual. unfold bind at 1, word. change (Z.to_nat 2) with 2%nat. change (Z.to_nat 4) with 4%nat.
    rewrite <- !app_assoc, bl_bits_app by (change (2 ^ Z.of_nat 2) with 4; lia).
    unfold bind at 1.
    assert (exists pbits, (if method =? 0 then ret 4%nat
              else if method =? 1 then ret 5%nat
              else fmt_err "invalid residual, encountered reserved value")
              (bits_of 4 po ++ w0 ++ concat ws ++ s')
              = (Ok pbits, bits_of 4 po ++ w0 ++ concat ws ++ s')
              /\ method_pbits method = Z.of_nat pbits) as (pbits & -> & Hpb).
    { destruct Hm as [-> | ->]; [exists 4%nat|exists 5%nat]; split; reflexivity. }
    unfold bind at 1. rewrite bl_bits_app by (change (2 ^ Z.of_nat 4) with 16; lia).
    rewrite Hd. cbn [Z.eqb negb].
    destruct (Z.ltb_spec (bs / 2 ^ po) order); [lia|].
    rewrite Hpb in *.
    replace (Z.to_nat (bs / 2 ^ po - order) :: repeat (Z.to_nat (bs / 2 ^ po)) (Z.to_nat (2 ^ po - 1)))
      with (map (@length Z) (p0 :: parts)).
    - change (w0 ++ concat ws ++ s') with (w0 ++ (concat ws ++ s')). rewrite app_assoc.
      apply (lpartitions_complete pbits (w0 :: ws) (p0 :: parts)). constructor; assumption.
    - cbn [map]. f_equal; [lia|]. replace (Z.to_nat (2 ^ po - 1)) with (length parts) by lia.
      clear -HF. induction HF as [|p parts Hp HF IH]; [reflexivity|].
      cbn [map repeat length]. rewrite IH. f_equal. lia.
  Qed.
  Lemma lsigned_sound k : 1 <= k ->
    lsound (p_signed t k) (fun w v => fits k v /\ w = word k v).
  Proof.
    intros Hk s a s' E. pose proof (p_signed_fits t k s a s' Hk E) as Hfit.
    apply bind_ok in E as (x & s1 & Ex & E). inversion E; subst.
    apply bl_bits_inv in Ex as [-> Hx]. rewrite Z2Nat.id in Hx by lia.
    exists (word k (signed k x)). rewrite signed_bits by lia. auto.
  Qed.
  Lemma lsigneds_sound n k : 1 <= k ->
    lsound (p_repeat n (p_signed t k)) (fun w l => length l = n /\ Forall (fits k) l /\ w = words k l).
  Proof.
    intros Hk s a s' E.
    apply (lrepeat_sound _ _ _ (lsigned_sound k Hk)) in E as (w & -> & Hl & ws & H & ->).
    exists (concat ws). split; [reflexivity|]. split; [exact Hl|].
    clear -H. unfold words. induction H as [|w v ws l [Hv ->] H [IH1 IH2]]; cbn [concat flat_map].
    - split; [constructor|reflexivity].
    - split; [constructor; auto|]. rewrite IH2. reflexivity.
  Qed.
  Lemma lbody_sound c bps n : 1 <= bps <= 32 -> coding_ok c ->
    lsound (p_body t m c bps n) (loose_body bps n c).
  Proof.
    intros Hb Hc s a s' E. destruct c as [| |o|o]; cbn [p_body coding_ok] in *.
    - apply bind_ok in E as (v & s1 & Ev & E). inversion E; subst.
      apply lsigned_sound in Ev as (w & -> & Hv & ->); [|lia].
      exists (word bps v). split; [reflexivity|]. constructor. exact Hv.
    - apply lsigneds_sound in E as (w & -> & Hl & HF & ->); [|lia].
      exists (words bps a). split; [reflexivity|]. constructor; auto.
    - unfold p_fixed in E. destruct (Z.ltb_spec (Z.of_nat n) o); [discriminate|].
      apply bind_ok in E as (warm & s1 & Ew & E). apply bind_ok in E as (rs & s2 & Er & E).
      inversion E; subst.
      apply lsigneds_sound in Ew as (w & -> & Hl & HF & ->); [|lia].
      apply lresidual_sound in Er as (w & -> & HR); [|lia].
      exists (words bps warm ++ w). rewrite <- app_assoc. split; [reflexivity|].
      constructor; auto; lia.
    - unfold p_lpc in E. destruct (Z.ltb_spec (Z.of_nat n) o); [discriminate|].
      apply bind_ok in E as (warm & s1 & Ew & E).
      apply lsigneds_sound in Ew as (w & -> & Hl & HF & ->); [|lia].
      apply bind_ok in E as (p & s2 & Ep & E). apply bl_bits_inv in Ep as [-> Hp].
      change (2 ^ Z.of_nat 4) with 16 in Hp.
      destruct (Z.eqb_spec p 15); [discriminate|].
      apply bind_ok in E as (sh & s3 & Esh & E).
      apply lsigned_sound in Esh as (w & -> & Hsh & ->); [|lia].
      destruct (Z.ltb_spec sh 0); [discriminate|].
      apply bind_ok in E as (cs & s4 & Ecs & E).
      apply lsigneds_sound in Ecs as (w & -> & Hlc & HFc & ->); [|lia].
      apply bind_ok in E as (rs & s5 & Er & E). inversion E; subst.
      apply lresidual_sound in Er as (w & -> & HR); [|lia].
      exists (words bps warm ++ word 4 (p + 1 - 1) ++ word 5 sh ++ words (p + 1) cs ++ w).
      replace (p + 1 - 1) with p by lia.
      rewrite <- !app_assoc. split; [unfold word; reflexivity|].
      destruct Hsh as [_ Hsh]. change (2 ^ (5 - 1)) with 16 in Hsh.
      replace p with (p + 1 - 1) at 1 by lia.
      constructor; auto; lia.
  Qed.
  Lemma lbody_complete c bps n : 1 <= bps -> complete (p_body t m c bps n) (loose_body bps n c).
  Proof.
    intros Hb w a s' H. destruct H as [v Hv|l Hl HF|o warm w rs Ho Hl Hn HF HR
      |o warm p sh cs w rs Ho Hl Hn HF Hp Hsh Hlc HFc HR]; cbn [p_body].
    - unfold bind. rewrite (signed_complete t bps Hb (word bps v) v) by auto. reflexivity.
    - rewrite <- Hl. apply signeds_complete; auto.
    - unfold p_fixed. destruct (Z.ltb_spec (Z.of_nat n) o); [lia|].
      replace (Z.to_nat o) with (length warm) by lia.
      unfold bind at 1. rewrite <- app_assoc, signeds_complete by auto.
      unfold bind. rewrite (lresidual_complete (Z.of_nat n) o ltac:(lia) _ _ _ HR). reflexivity.
    - unfold p_lpc. destruct (Z.ltb_spec (Z.of_nat n) o); [lia|].
      replace (p_repeat (Z.to_nat o) (p_signed t bps)) with (p_repeat (length warm) (p_signed t bps)) by (do 2 f_equal; lia).
      unfold bind at 1. rewrite <- !app_assoc, signeds_complete by auto.
      unfold bind at 1. unfold word at 1. change (Z.to_nat 4) with 4%nat.
      rewrite bl_bits_app by (change (2 ^ Z.of_nat 4) with 16; lia).
      destruct (Z.eqb_spec (p - 1) 15); [lia|].
      unfold bind at 1. rewrite (signed_complete t 5 ltac:(lia) (word 5 sh) sh)
        by (split; [red; change (2 ^ (5 - 1)) with 16; lia|reflexivity]).
      destruct (Z.ltb_spec sh 0); [lia|].
      replace (p - 1 + 1) with p by lia.
      replace (p_repeat (Z.to_nat o) (p_signed t p)) with (p_repeat (length cs) (p_signed t p)) by (do 2 f_equal; lia).
      unfold bind at 1. rewrite signeds_complete by (auto; lia).
      unfold bind. rewrite (lresidual_complete (Z.of_nat n) o ltac:(lia) _ _ _ HR). reflexivity.
  Qed.
  Lemma ltype_sound : lsound (p_type t) (fun w c => coding_ok c /\ w = word 6 (coding_code c)).
  Proof.
    intros s a s' E. unfold p_type in E.
    apply bind_ok in E as (n & s1 & En & E). apply bl_bits_inv in En as [-> Hn].
    change (2 ^ Z.of_nat 6) with 64 in Hn.
    exists (word 6 n). cut (s1 = s' /\ coding_ok a /\ n = coding_code a).
    { intros (-> & H & ->). auto. }
    destruct (Z.eqb_spec n 0); [inversion E; subst; cbn; auto|].
    destruct (Z.eqb_spec n 1); [inversion E; subst; cbn; auto|].
    destruct (Z.leb_spec 8 n), (Z.leb_spec n 12), (Z.leb_spec 32 n);
      cbn [andb] in E; inversion E; subst; cbn [coding_ok coding_code]; repeat split; lia.
  Qed.
  Lemma chk_release x : chk m u32 x = Ok (u32 x).
  Proof. unfold chk. destruct (Z.eqb_spec (u32 x) x); [congruence|reflexivity]. Qed.
  Lemma lwasted_sound : lsound (p_wasted t m) (fun w k => 0 <= k <= 31 /\ loose_wasted k w).
  Proof.
    intros s a s' E. unfold p_wasted in E.
    apply bind_ok in E as (b & s1 & Eb & E). apply bind_ok in E as (k & s2 & Ek & E).
    destruct (Z.ltb_spec 31 k); [discriminate|]. inversion E; subst.
    destruct s as [|b' s]; [discriminate|]. inversion Eb; subst. destruct b.
    - apply bind_ok in Ek as (u & s2 & Eu & Ek).
      apply lunary_inv in Eu as (z & -> & Hz & ->).
      unfold lift in Ek. rewrite chk_release in Ek.
      assert (u32 (1 + u32 z) = (z + 1) mod 2 ^ 32) as Ez
        by (unfold u32; rewrite Z.add_mod_idemp_r by lia; f_equal; lia).
      rewrite Ez in Ek. injection Ek as <- <-. exists (true :: unary z). split; [reflexivity|].
      split; [pose proof (Z.mod_pos_bound (z + 1) (2 ^ 32)); lia|]. right. exists z. auto.
    - inversion Ek; subst. exists [false]. split; [reflexivity|]. split; [lia|left; auto].
  Qed.
  Lemma lwasted_complete : complete (p_wasted t m) (fun w k => 0 <= k <= 31 /\ loose_wasted k w).
  Proof.
    intros w k s' [Hk [[-> ->]|(z & Hz & E & ->)]]; [reflexivity|]. unfold p_wasted.
    unfold bind at 1. cbn [app bl_bit]. unfold bind. rewrite lunary_app by lia.
    rewrite chk_release. unfold lift.
    assert (u32 (1 + u32 z) = k) as ->
      by (unfold u32; rewrite Z.add_mod_idemp_r by lia; rewrite E; f_equal; lia).
    destruct (Z.ltb_spec 31 k); [lia|]. reflexivity.
  Qed.
  Theorem lsubframe_sound bps n : 1 <= bps <= 32 ->
    lsound (p_subframe t m bps n) (loose_subframe bps n).
  Proof.
    intros Hb s a s' E. unfold p_subframe in E.
    apply bind_ok in E as (pad & s1 & Epad & E).
    destruct s as [|b' s]; [discriminate|]. inversion Epad; subst.
    destruct pad; [discriminate|].
    apply bind_ok in E as (c & s2 & Ec & E).
    apply ltype_sound in Ec as (w & -> & Hc & ->).
    apply bind_ok in E as (k & s3 & Ek & E).
    apply lwasted_sound in Ek as (wk & -> & Hk & Hwk).
    destruct (Z.leb_spec bps k); [discriminate|].
    apply bind_ok in E as (l & s4 & El & E). inversion E; subst.
    apply lbody_sound in El as (w & -> & Hw); [|lia|assumption].
    exists (false :: word 6 (coding_code c) ++ wk ++ w).
    cbn [app]. rewrite <- !app_assoc. split; [reflexivity|].
    exists c, k, wk, w, l. repeat (split; [assumption|]). auto.
  Qed.
  Lemma lbody_coding c bps n w l : loose_body bps n c w l -> coding_ok c.
  Proof. destruct 1; cbn [coding_ok]; auto. Qed.

  Theorem lsubframe_complete bps n : complete (p_subframe t m bps n) (loose_subframe bps n).
  Proof.
    intros w a s' (c & k & wk & wb & l & Hk & Hkb & Hwk & Hbody & -> & ->).
    unfold p_subframe. unfold bind at 1. cbn [app bl_bit]. rewrite <- !app_assoc.
    unfold bind at 1.
    rewrite (type_complete t (word 6 (coding_code c)) c) by (split; [eapply lbody_coding, Hbody|reflexivity]).
    unfold bind at 1. rewrite (lwasted_complete wk k) by auto.
    destruct (Z.leb_spec bps k); [lia|]. unfold bind.
    rewrite (lbody_complete c (bps - k) n ltac:(lia) _ _ _ Hbody). reflexivity.
  Qed.

  (** * Channels *)
  Lemma lchannels_sound ca bps n : 1 <= bps <= 31 -> assignment_ok ca ->
    lsound (p_channels t m ca bps n) (loose_channels bps n ca).
  Proof.
    intros Hb Hca s chs s' E. destruct ca as [k| | |]; cbn [p_channels assignment_ok] in *.
    - eapply lrepeat_sound in E; [|apply lsubframe_sound; lia].
      destruct E as (w & -> & Hl & ws & HF & ->). exists (concat ws). split; [reflexivity|].
      constructor; [lia|exact HF].
    - apply bind_ok in E as (x & s1 & E1 & E). apply bind_ok in E as (y & s2 & E2 & E).
      apply lsubframe_sound in E1 as (w1 & -> & G1); [|lia].
      apply lsubframe_sound in E2 as (w2 & -> & G2); [|lia].
      injection E as <- <-. exists (w1 ++ w2). split; [apply app_assoc|]. constructor; assumption.
    - apply bind_ok in E as (x & s1 & E1 & E). apply bind_ok in E as (y & s2 & E2 & E).
      apply lsubframe_sound in E1 as (w1 & -> & G1); [|lia].
      apply lsubframe_sound in E2 as (w2 & -> & G2); [|lia].
      injection E as <- <-. exists (w1 ++ w2). split; [apply app_assoc|]. constructor; assumption.
    - apply bind_ok in E as (x & s1 & E1 & E). apply bind_ok in E as (y & s2 & E2 & E).
      apply lsubframe_sound in E1 as (w1 & -> & G1); [|lia].
      apply lsubframe_sound in E2 as (w2 & -> & G2); [|lia].
      injection E as <- <-. exists (w1 ++ w2). split; [apply app_assoc|]. constructor; assumption.
  Qed.
  Lemma lchannels_complete ca bps n : complete (p_channels t m ca bps n) (loose_channels bps n ca).
  Proof.
    intros w chs s' H. destruct H; cbn [p_channels].
    - replace (Z.to_nat k) with (length chs) by lia.
      apply (repeat_complete _ _ (lsubframe_complete bps n)). assumption.
    - unfold bind. rewrite <- app_assoc, (lsubframe_complete bps n _ left) by assumption.
      rewrite (lsubframe_complete (bps + 1) n _ side) by assumption. reflexivity.
    - unfold bind. rewrite <- app_assoc, (lsubframe_complete (bps + 1) n _ side) by assumption.
      rewrite (lsubframe_complete bps n _ right) by assumption. reflexivity.
    - unfold bind. rewrite <- app_assoc, (lsubframe_complete bps n _ mid) by assumption.
      rewrite (lsubframe_complete (bps + 1) n _ side) by assumption. reflexivity.
  Qed.

  (** * Frames *)
  Theorem lframe_sound l h chs l' : bytes_ok l ->
    fl_frame t m l l = (Ok (Some (h, chs)), l') ->
    exists w, l = w ++ l' /\ loose_frame h chs w.
  Proof.
    intros Hb E. unfold fl_frame in E. apply bind_ok in E as ([fh|] & l1 & E1 & E); [|discriminate E].
    destruct (header_sound t m l fh l1 Hb E1) as (h' & hw & El & Hw & ->). rewrite header_of_fh in E.
    apply bind_ok in E as (chs' & l2 & E2 & E). injection E as <- <- <-.
    pose proof (header_decent _ _ Hw) as (Hsz & Has & Hn & Hn' & Hbps).
    unfold frame_rest in E2. apply bind_ok in E2 as (bps & l3 & E3 & E2).
    destruct (h_width h') as [x|] eqn:Ew; [|discriminate E3]. injection E3 as <- <-.
    apply bind_ok in E2 as (c & l4 & E4 & E2). apply with_bits_inv in E4 as (bits & E4 & ->).
    destruct (lchannels_sound (h_assignment h') x (Z.to_nat (h_size h')) ltac:(lia) Has _ _ _ E4) as (w & E5 & Hc).
    destruct (split_bits _ _ _ E5) as (body & rest & pad & -> & Ebody & Hpad & -> & Hlen).
    rewrite <- Hlen in E2.
    replace (skipn (length l - length rest) l) with rest in E2.
    2: { rewrite El, app_assoc, app_length. replace (length (hw ++ body) + length rest - length rest)%nat with (length (hw ++ body)) by lia.
         rewrite skipn_app, skipn_all, Nat.sub_diag. reflexivity. }
    apply bind_ok in E2 as (computed & l5 & E6 & E2). unfold fl_crc in E6. injection E6 as <- <-.
    apply bind_ok in E2 as (presumed & l6 & E6 & E2).
    destruct (negb _) eqn:Ec; [discriminate E2|]. injection E2 as <- <-.
    apply be_u16_inv in E6 as (a & b & -> & Ha & Hb' & Ep).
    2: { rewrite El in Hb. apply bytes_app in Hb as [_ Hb]. apply bytes_app in Hb. tauto. }
    rewrite El, app_assoc, consumed in Ec.
    assert (crc16_of (hw ++ body) = 256 * a + b) as Ecrc by lia.
    exists (hw ++ body ++ [a; b]). split; [rewrite El, <- !app_assoc; reflexivity|].
    assert (bytes_ok (hw ++ body)) as Hhb.
    { rewrite El, app_assoc in Hb. apply bytes_app in Hb. tauto. }
    exists hw, x, w, pad, body, (256 * a + b). split; [assumption|]. split; [assumption|].
    split; [assumption|]. split; [apply bytes_app in Hhb; tauto|]. split; [assumption|].
    split; [assumption|]. split; [rewrite <- Ecrc; apply crc16_of_ok, Hhb|].
    do 2 f_equal. f_equal; [|f_equal]; lia.
  Qed.
  Lemma lframe_any_crc h chs hw bps bits pad body a b l' : bytes_ok l' -> is_byte a -> is_byte b ->
    header_code h hw -> h_width h = Some bps ->
    loose_channels bps (Z.to_nat (h_size h)) (h_assignment h) bits chs ->
    byte_string body -> bytes_bits body = bits ++ pad -> (length pad < 8)%nat ->
    let w := hw ++ body ++ [a; b] in
    fl_frame t m (w ++ l') (w ++ l')
    = (if crc16_of (hw ++ body) =? 256 * a + b then Ok (Some (h, chs)) else Err (FormatError "frame CRC mismatch"), l').
  Proof.
    intros Hb' Ha Hb Hh Hw Hc Hbody Ebody Hpad. cbv zeta.
    assert (bytes_ok (body ++ [a; b] ++ l')) as Hb1.
    { apply bytes_app. split; [exact Hbody|]. apply bytes_cons. split; [exact Ha|]. apply bytes_cons. split; [exact Hb|exact Hb']. }
    set (l0 := (hw ++ body ++ [a; b]) ++ l').
    assert (l0 = (hw ++ body) ++ [a; b] ++ l') as El0
      by (unfold l0; rewrite <- !app_assoc; reflexivity).
    unfold fl_frame.
    assert (fl_header t m l0 l0 = (Ok (Some (fh_of h)), body ++ [a; b] ++ l')) as Eh.
    { unfold l0. rewrite <- !app_assoc. apply header_complete; assumption. }
    rewrite (bind_run _ _ _ _ _ Eh). rewrite header_of_fh.
    assert (frame_rest t m h l0 (body ++ [a; b] ++ l')
      = (if crc16_of (hw ++ body) =? 256 * a + b then Ok chs else Err (FormatError "frame CRC mismatch"), l')) as Er.
    { unfold frame_rest. rewrite Hw, bind_lift_ok.
      assert (with_bits l0 (p_channels t m (h_assignment h) bps (Z.to_nat (h_size h))) (body ++ [a; b] ++ l') = (Ok chs, [a; b] ++ l')) as Ec.
      { unfold with_bits. rewrite bytes_bits_app, Ebody, <- app_assoc.
        rewrite (lchannels_complete _ _ _ _ _ _ Hc). f_equal.
        rewrite app_length, bytes_bits_length.
        set (tl := [a; b] ++ l') in *.
        replace ((length pad + 8 * length tl) / 8)%nat with (length tl)
          by (rewrite Nat.mul_comm, Nat.div_add, Nat.div_small by lia; lia).
        rewrite El0, app_length.
        rewrite skipn_app. rewrite skipn_all2 by lia. cbn [app].
        match goal with |- skipn ?k _ = _ => replace k with 0%nat by lia end. reflexivity. }
      rewrite (bind_run _ _ _ _ _ Ec).
      unfold bind at 1. unfold fl_crc. rewrite El0, consumed.
      unfold bind at 1. cbn [app]. rewrite be_u16_cons by assumption.
      destruct (crc16_of (hw ++ body) =? 256 * a + b); reflexivity. }
    unfold bind. rewrite Er. destruct (crc16_of (hw ++ body) =? 256 * a + b); reflexivity.
  Qed.
  Theorem lframe_complete h chs w l' : bytes_ok l' -> loose_frame h chs w ->
    fl_frame t m (w ++ l') (w ++ l') = (Ok (Some (h, chs)), l').
  Proof.
    intros Hb' (hw & bps & bits & pad & body & crc & Hh & Hw & Hc & Hbody & Ebody & Hpad & Hcrc & ->).
    assert (0 <= crc < 2 ^ 16) as Hr by (destruct Hcrc; assumption).
    rewrite (lframe_any_crc h chs hw bps bits pad body (crc / 256) (crc mod 256)) by (auto; unfold is_byte; lia).
    rewrite (crc16_unique _ _ _ (crc16_of_ok (hw ++ body) ltac:(apply bytes_app; split; [apply (header_bytes h), Hh|exact Hbody])) Hcrc).
    replace (crc =? 256 * (crc / 256) + crc mod 256) with true by lia. reflexivity.
  Qed.
End Laws.

(** * Against the strict grammar *)
Theorem frame_is_loose h chs w : frame_code h chs w -> loose_frame h chs w.
Proof.
  intros H. pose proof (frame_bytes h chs w H) as Hb.
  pose proof (frame_complete TEof Release h chs w [] (Forall_nil _) H) as E. rewrite app_nil_r in E.
  destruct (lframe_sound TEof w h chs [] Hb E) as (w' & Ew & Hw). rewrite app_nil_r in Ew. subst w'. exact Hw.
Qed.
Lemma loose_bytes h chs w : loose_frame h chs w -> bytes_ok w.
Proof.
  intros (hw & bps & bits & pad & body & crc & Hh & Hw & Hc & Hbody & Ebody & Hpad & Hcrc & ->).
  assert (0 <= crc < 2 ^ 16) as Hr by (destruct Hcrc; assumption).
  apply bytes_app. split; [apply (header_bytes h), Hh|]. apply bytes_app. split; [exact Hbody|].
  repeat constructor; lia.
Qed.
Theorem loose_is_frame h chs w : no_zero_run (2 ^ 32 - 1) (bytes_bits w) -> loose_frame h chs w -> frame_code h chs w.
Proof.
  intros Hq H. pose proof (loose_bytes h chs w H) as Hb.
  pose proof (lframe_complete TEof h chs w [] (Forall_nil _) H) as E. rewrite app_nil_r in E.
  destruct (frame_sound TEof Release w h chs [] Hb (or_intror Hq) E) as (w' & Ew & Hw).
  rewrite app_nil_r in Ew. subst w'. exact Hw.
Qed.

(** * The decoder *)
Section Release.
  Context {S : Type} (rb : ReadBytes S) (t : tail) (D : S -> list Z -> Prop) (HS : stream rb t D).
  Let Hrs : rb_sim no_esc D rb (fl_rb t) := stream_rb_sim rb t D HS no_esc.
  Let Hes : eof_sim no_esc D rb (fl_rb t) := stream_eof_sim rb t D HS no_esc.
  Let Hbytes : forall st l, D st l -> bytes_ok l := st_bytes rb t D HS.
  Context (fuel : nat).
  Notation next := (read_next_or_eof rb Release fuel).

  Theorem loose_decoded buffer st h chs w rest : loose_frame h chs w -> D st (w ++ rest) ->
    (length (w ++ rest) < fuel)%nat ->
    exists b st', next buffer st = (Ok (Some b), st') /\ block_shows b h chs /\ D st' rest.
  Proof.
    intros Hw HD Hf. pose proof (Hbytes _ _ HD) as Hb. apply bytes_app in Hb as [_ Hb].
    pose proof (frame_left rb t D Hrs Hes Hbytes Release fuel st _ buffer HD Hf) as H. cbv zeta in H.
    rewrite (lframe_complete t h chs w rest Hb Hw) in H. cbn [fst snd] in H.
    destruct (next buffer st) as [o st']. cbn [fst snd] in H. destruct o; try discriminate H.
    destruct H as (x & E & Hs & HD'). injection E as <-. destruct Hs as (b & -> & Hs & _).
    exists b, st'. auto.
  Qed.
  Theorem loose_only buffer st l b st' :
    D st l -> (length l < fuel)%nat -> next buffer st = (Ok (Some b), st') ->
    exists h chs w rest, l = w ++ rest /\ D st' rest /\ loose_frame h chs w /\ block_shows b h chs.
  Proof.
    intros HD Hf E.
    pose proof (frame_left rb t D Hrs Hes Hbytes Release fuel st _ buffer HD Hf) as H. cbv zeta in H.
    rewrite E in H. cbn [fst snd] in H. destruct H as (x & E1 & Hs & HD').
    destruct x as [[h chs]|]; [|discriminate Hs]. destruct Hs as (b' & E2 & Hs & _). injection E2 as <-.
    destruct (lframe_sound t l h chs _ (Hbytes _ _ HD) (surj _ _ E1)) as (w & El & Hw).
    eexists h, chs, w, _. split; [exact El|]. split; [exact HD'|]. auto.
  Qed.
End Release.

(** There are loose frames that are no frames. *)
Lemma loose_more n : Z.of_nat n = 2 ^ 29 -> exists h chs w, loose_frame h chs w /\ ~ frame_code h chs w.
Proof.
  intros Hn. destruct (huge_accepted n Hn) as (data & b & st' & Hb & Hl & E & He & Hno).
  destruct (loose_only _ _ _ (cu_stream Release) _ _ _ data b st' (cursor_start data Hb Hl) (Nat.lt_succ_diag_r _) E)
    as (h & chs & w & rest & El & HD & Hw & Hs).
  assert (rest = []) as -> by (exact (cursor_unambiguous _ _ _ HD He)).
  rewrite app_nil_r in El. subst w. exists h, chs, data. split; [exact Hw|exact (Hno h chs Hs)].
Qed.

(** * Bit reads *)
Lemma zeros_first_split l : zeros_first l = fst (unary_split l).
Proof.
  induction l as [|[|] l IH]; cbn [zeros_first unary_split]; [reflexivity|reflexivity|].
  rewrite IH. destruct (unary_split l). cbn [fst]. lia.
Qed.

Section Bits.
  Context {S} (rb : ReadBytes S) (t : tail) (D : S -> list Z -> Prop) (HS : stream rb t D).
  Context (m : build) (fuel : nat).
  Notation R := (bits_left D fuel).

  Lemma bl_op_counted o bits : bl_op t m o bits = counted_bit_op t m o bits.
  Proof.
    destruct o; cbn [bl_op counted_bit_op spec_bit_op]; try (destruct m; reflexivity).
    - transitivity (spec_bit_op t OpBit bits); [|destruct m; reflexivity].
      unfold bind, bl_bit. destruct bits as [|b bits]; [reflexivity|].
      cbn. destruct b; reflexivity.
    - unfold bl_unary. rewrite leading_zeros_split, zeros_first_split.
      pose proof (unary_split_nonneg bits).
      destruct (unary_split bits) as [z o]; cbn [fst snd] in *. destruct m.
      + destruct (Z.leb_spec (2 ^ 32) z), (Z.ltb_spec z (2 ^ 32)); try lia; [reflexivity|].
        rewrite u32_id by lia. destruct o; reflexivity.
      + destruct o; reflexivity.
  Qed.
  Lemma counted_suffix o bits a bits' : counted_bit_op t m o bits = (Ok a, bits') ->
    exists w, bits = w ++ bits'.
  Proof.
    intros E. destruct o; cbn [counted_bit_op] in E;
      try (destruct m; exact (spec_bit_suffix t _ _ _ _ E)). destruct m.
    - destruct (_ <? _); [exact (spec_bit_suffix t _ _ _ _ E)|discriminate].
    - destruct (spec_bit_op t OpUnary bits) as [[n|e|w|w|] r] eqn:E1; try discriminate.
      injection E as _ <-. exact (spec_bit_suffix t _ _ _ _ E1).
  Qed.

  Lemma counted_gen : forall ops st bits, R st bits -> Forall legal_bit_op ops ->
    fst (history (run_bit_op rb m fuel) ops st) = fst (history (counted_bit_op t m) ops bits)
    /\ (Forall succeeded (fst (history (counted_bit_op t m) ops bits)) ->
        R (snd (history (run_bit_op rb m fuel) ops st))
          (snd (history (counted_bit_op t m) ops bits))).
  Proof.
    induction ops as [|o ops IH]; intros st bits HR Hl; cbn [history].
    - auto.
    - apply Forall_cons_iff in Hl as [Ho Hl].
      destruct (sim_fst R (run_bit_op rb m fuel o) (bl_op t m o) st bits (bit_op_sim rb t D HS m fuel o Ho) HR) as [E HR'].
      rewrite (bl_op_counted o bits) in *.
      destruct (run_bit_op rb m fuel o st) as [o1 s1'], (counted_bit_op t m o bits) as [o2 s2'];
        cbn [fst snd] in *. subst o2.
      destruct o1; cbn [fst snd]; try (split; [reflexivity|intros HF; inversion HF as [|? ? [? ?] ?]; discriminate]).
      specialize (IH s1' s2' (HR' ltac:(eexists; reflexivity)) Hl).
      destruct (history (run_bit_op rb m fuel) ops s1') as [r1 t1],
               (history (counted_bit_op t m) ops s2') as [r2 t2]; cbn [fst snd] in *.
      destruct IH as [-> IH]. split; [reflexivity|]. intros HF. inversion HF; auto.
  Qed.
  Lemma counted_history_suffix ops : forall bits,
    Forall succeeded (fst (history (counted_bit_op t m) ops bits)) ->
    exists w, bits = w ++ snd (history (counted_bit_op t m) ops bits).
  Proof.
    induction ops as [|o ops IH]; intros bits HF; cbn [history] in *.
    - exists []. reflexivity.
    - destruct (counted_bit_op t m o bits) as [[a|e|w|w|] b'] eqn:E;
        try (inversion HF as [|? ? [? ?] ?]; discriminate).
      destruct (history (counted_bit_op t m) ops b') as [rs b''] eqn:E'. cbn [fst snd] in *.
      inversion HF; subst. specialize (IH b'). rewrite E' in IH. cbn [fst snd] in IH.
      destruct IH as [w Hw]; [assumption|].
      apply counted_suffix in E as [w' ->]. rewrite Hw. exists (w' ++ w).
      rewrite app_assoc. reflexivity.
  Qed.

  Theorem counted_history ops st l : D st l -> (length l < fuel)%nat -> Forall legal_bit_op ops ->
    fst (history (run_bit_op rb m fuel) ops (bs_new st))
    = fst (history (counted_bit_op t m) ops (bytes_bits l)).
  Proof. intros HD Hf Hl. apply counted_gen; auto. apply (bs_new_left rb t D HS); auto. Qed.
  Theorem counted_reader ops st l : D st l -> (length l < fuel)%nat -> Forall legal_bit_op ops ->
    let (rs, bs) := history (run_bit_op rb m fuel) ops (bs_new st) in
    Forall succeeded rs ->
    exists w, bytes_bits l = w ++ snd (history (counted_bit_op t m) ops (bytes_bits l))
      /\ D (bs_reader bs) (skipn ((length w + 7) / 8) l).
  Proof.
    intros HD Hf Hl.
    destruct (counted_gen ops (bs_new st) (bytes_bits l) (bs_new_left rb t D HS fuel st l HD Hf) Hl) as [H1 H2].
    destruct (history (run_bit_op rb m fuel) ops (bs_new st)) as [rs bs]. cbn [fst snd] in *.
    intros HF. rewrite H1 in HF. destruct (counted_history_suffix ops _ HF) as [w Hw].
    exists w. split; [exact Hw|].
    apply (bits_left_reader D fuel l bs w (snd (history (counted_bit_op t m) ops (bytes_bits l)))); auto.
    apply (st_bytes _ _ _ HS st l HD).
  Qed.
End Bits.

Lemma count_wraps t K r : K = 2 ^ 32 ->
  counted_bit_op t Release OpUnary (repeat false (Z.to_nat K) ++ true :: r) = (Ok 0, r)
  /\ fst (counted_bit_op t Debug OpUnary (repeat false (Z.to_nat K) ++ true :: r))
     = Panic "attempt to perform arithmetic with overflow".
Proof.
  intros HK. assert (0 <= K) as H0 by lia.
  pose proof (unary_split_app K r H0) as E. unfold unary in E. rewrite <- app_assoc in E. cbn [app] in E.
  unfold counted_bit_op, spec_bit_op. rewrite zeros_first_split, leading_zeros_split, E. cbn [fst snd].
  rewrite HK. split; reflexivity.
Qed.

(** Checking for a run of zeros. *)
Fixpoint starts (n : nat) (l : list bool) : bool :=
  match n, l with
  | O, _ => true
  | Datatypes.S n, false :: l => starts n l
  | _, _ => false
  end.
Fixpoint occurs (n : nat) (l : list bool) : bool :=
  starts n l || match l with [] => false | _ :: l => occurs n l end.
Lemma starts_spec n : forall l, starts n l = true <-> exists r, l = repeat false n ++ r.
Proof.
  induction n as [|n IH]; intros l; cbn [starts repeat app].
  - split; eauto.
  - destruct l as [|[|] l].
    + split; [discriminate|intros (r & E); discriminate].
    + split; [discriminate|intros (r & E); discriminate].
    + rewrite IH. split; intros (r & E); exists r; congruence.
Qed.
Lemma occurs_spec n : forall l, occurs n l = true <-> exists a r, l = a ++ repeat false n ++ r.
Proof.
  induction l as [|b l IH]; cbn [occurs]; rewrite Bool.orb_true_iff, starts_spec.
  - split.
    + intros [(r & E)|E]; [exists [], r; exact E|discriminate].
    + intros (a & r & E). left. destruct a; [exists r; exact E|discriminate].
  - rewrite IH. split.
    + intros [(r & E)|(a & r & E)]; [exists [], r; exact E|exists (b :: a), r; rewrite E; reflexivity].
    + intros ([|x a] & r & E); [left; exists r; exact E|right; exists a, r; cbn [app] in E; congruence].
Qed.
Lemma zero_run_dec K l : no_zero_run K l \/ ~ no_zero_run K l.
Proof.
  unfold no_zero_run. destruct (occurs (Z.to_nat K) l) eqn:E.
  - right. apply occurs_spec in E as (a & r & E). intros H. exact (H a r E).
  - left. intros a r Ea. assert (occurs (Z.to_nat K) l = true) as X by (apply occurs_spec; eauto). congruence.
Qed.
Theorem loose_cases h chs w : loose_frame h chs w ->
  frame_code h chs w \/ ~ no_zero_run (2 ^ 32 - 1) (bytes_bits w).
Proof.
  intros H. destruct (zero_run_dec (2 ^ 32 - 1) (bytes_bits w)) as [Hq|Hq]; [left|right; exact Hq].
  apply loose_is_frame; assumption.
Qed.
