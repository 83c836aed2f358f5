(** Exactly what the configuration [fuzzing] reads: frames.  C95. *)
From Verif Require Export SpecAnyFuzzing ProofFuzz2 ProofAnyFuzz ProofProgress.
From Verif Require Import SpecReader.

(** * Headers *)
Section Header.
  Context (t : tail) (m : build).

  Lemma flat_header_upto l0 : forall l, fst (fl_header t m l0 l) = Err (FormatError "frame header CRC mismatch")
    \/ fl_header t m l0 l = fl_header_fz t m l0 l.
  Proof.
    assert (forall A B (c : M (list Z) A) (f1 f2 : A -> M (list Z) B) e,
      (forall a l, fst (f1 a l) = Err e \/ f1 a l = f2 a l) -> forall l, fst (bind c f1 l) = Err e \/ bind c f1 l = bind c f2 l) as Hb.
    { intros A B c f1 f2 e H l. unfold bind. destruct (c l) as [[a| | | |] l']; auto. }
    unfold fl_header, fl_header_fz. apply Hb. intros o. unfold header_generic, header_generic_fz. destruct o as [s|]; [|auto].
    intros l. destruct (negb _); [auto|]. destruct (negb _); [auto|]. revert l.
    do 6 (apply Hb; intros ?). destruct (negb _); [auto|].
    unfold h_tail, h_tail_fz.
    repeat match goal with |- context [let '(_, _) := ?p in _] => destruct p end.
    do 8 (apply Hb; intros ?). destruct (negb _); intros l; [left; reflexivity|auto].
  Qed.

  Lemma header_finds_fz l e l' : bytes_ok l -> ours e -> fl_header_fz t m l l = (Err e, l') ->
    exists w, l = w ++ l' /\ header_fault e w /\ ~ checksum_error e.
  Proof.
    intros Hl He E. destruct (flat_header_upto l l) as [Hc|Eq].
    - destruct (fl_header t m l l) as [o l1] eqn:E1. cbn [fst] in Hc. subst o.
      apply header_finds in E1 as (w & -> & Hw); [|exact Hl|exact Logic.I]. exfalso.
      inversion Hw as [| | | | | | | |h front crc c Hf Hcrc Hcb Hne]; subst.
      apply bytes_app in Hl as [_ Hl]. rewrite (header_complete_fz t m h front c l1 Hf Hcb Hl) in E. discriminate E.
    - rewrite E in Eq. pose proof (header_finds t m l e l' Hl He Eq) as (w & -> & Hw). exists w. split; [reflexivity|]. split; [exact Hw|].
      intros [-> | ->].
      + inversion Hw as [| | | | | | | |h front crc c Hf Hcrc Hcb Hne]; subst.
        apply bytes_app in Hl as [_ Hl]. rewrite (header_complete_fz t m h front c l' Hf Hcb Hl) in E. discriminate E.
      + inversion Hw.
  Qed.
  Lemma header_reports_fz e w l : header_fault e w -> ~ checksum_error e -> bytes_ok l ->
    fl_header_fz t m (w ++ l) (w ++ l) = (Err e, l).
  Proof.
    intros Hw Hn Hl. pose proof (header_reports t m e w l Hw Hl) as E.
    destruct (flat_header_upto (w ++ l) (w ++ l)) as [Hc|Eq]; [|congruence].
    exfalso. apply Hn. left. rewrite E in Hc. cbn [fst] in Hc. congruence.
  Qed.
  Lemma header_complete_fz' h hw l : unchecked_header h hw -> bytes_ok l -> fl_header_fz t m (hw ++ l) (hw ++ l) = (Ok (Some (fh_of h)), l).
  Proof. intros (front & c & Hf & Hc & ->) Hl. apply header_complete_fz; assumption. Qed.
End Header.

(** * Frames, in either kind of build, with what is known of the channels *)
Section Frame.
  Context (t : tail) (m : build).
  Context (codes : Z -> nat -> assignment -> list bool -> list (list Z) -> Prop) (faults : nat -> list Z -> error -> list bool -> Prop).
  Context (ch_sound : forall ca bps n, 1 <= bps <= 31 -> assignment_ok ca -> forall s chs s',
    p_channels t m ca bps n s = (Ok chs, s') -> exists w, s = w ++ s' /\ codes bps n ca w chs).
  Context (ch_complete : forall ca bps n w chs s', codes bps n ca w chs -> p_channels t m ca bps n (w ++ s') = (Ok chs, s')).
  Context (ch_finds : forall ca bps n, 1 <= bps <= 31 -> assignment_ok ca -> forall s e s', ours e ->
    p_channels t m ca bps n s = (Err e, s') -> exists w, s = w ++ s' /\ faults n (subframe_widths bps ca) e w).
  Context (ch_reports : forall ca bps n, assignment_ok ca -> forall e w rest, faults n (subframe_widths bps ca) e w ->
    p_channels t m ca bps n (w ++ rest) = (Err e, rest)).

  Definition gframe (h : header) (chs : list (list Z)) (w : list Z) : Prop :=
    exists hw bps bits pad body a b,
      unchecked_header h hw
      /\ h_width h = Some bps
      /\ codes bps (Z.to_nat (h_size h)) (h_assignment h) bits chs
      /\ byte_string body /\ bytes_bits body = bits ++ pad /\ (length pad < 8)%nat
      /\ 0 <= a < 256 /\ 0 <= b < 256
      /\ w = hw ++ body ++ [a; b].
  Inductive gfault : error -> list Z -> Prop :=
  | gfault_header : forall e w, header_fault e w -> ~ checksum_error e -> gfault e w
  | gfault_width : forall h hw, unchecked_header h hw -> h_width h = None ->
      gfault (Unsupported "header without bits per sample info") hw
  | gfault_subframe : forall h hw bps e bits pad body, unchecked_header h hw -> h_width h = Some bps ->
      faults (Z.to_nat (h_size h)) (subframe_widths bps (h_assignment h)) e bits ->
      byte_string body -> bytes_bits body = bits ++ pad -> (length pad < 8)%nat ->
      gfault e (hw ++ body).

  Lemma gframe_sound l h chs l' : bytes_ok l -> fl_frame_fz t m l l = (Ok (Some (h, chs)), l') ->
    exists w, l = w ++ l' /\ gframe h chs w.
  Proof.
    intros Hb E. unfold fl_frame_fz in E. apply bind_ok in E as ([fh|] & l1 & E1 & E); [|discriminate E].
    destruct (header_sound_fz t m l fh l1 Hb E1) as (h' & hw & El & Hw & ->). rewrite header_of_fh in E.
    apply bind_ok in E as (chs' & l2 & E2 & E). injection E as <- <- <-.
    pose proof (header_decent_fz _ _ Hw) as (Hsz & Has & Hn & Hn' & Hbps).
    unfold frame_rest_fz in E2. apply bind_ok in E2 as (bps & l3 & E3 & E2).
    destruct (h_width h') as [x|] eqn:Ew; [|discriminate E3]. injection E3 as <- <-.
    apply bind_ok in E2 as (c & l4 & E4 & E2). apply with_bits_inv in E4 as (bits & E4 & ->).
    destruct (ch_sound (h_assignment h') x (Z.to_nat (h_size h')) ltac:(lia) Has _ _ _ E4) as (w & E5 & Hc).
    destruct (split_bits _ _ _ E5) as (body & rest & pad & -> & Ebody & Hpad & -> & Hlen).
    rewrite <- Hlen in E2.
    replace (skipn (length l - length rest) l) with rest in E2.
    2: { rewrite El, app_assoc, app_length. replace (length (hw ++ body) + length rest - length rest)%nat with (length (hw ++ body)) by lia.
         rewrite skipn_app, skipn_all, Nat.sub_diag. reflexivity. }
    apply bind_ok in E2 as (computed & l5 & E6 & E2). unfold fl_crc in E6. injection E6 as <- <-.
    apply bind_ok in E2 as (presumed & l6 & E6 & E2).
    injection E2 as <- <-.
    apply be_u16_inv in E6 as (a & b & -> & Ha & Hb' & Ep).
    2: { rewrite El in Hb. apply bytes_app in Hb as [_ Hb]. apply bytes_app in Hb. tauto. }
    exists (hw ++ body ++ [a; b]). split; [rewrite El, <- !app_assoc; reflexivity|].
    assert (bytes_ok (hw ++ body)) as Hhb.
    { rewrite El, app_assoc in Hb. apply bytes_app in Hb. tauto. }
    exists hw, x, w, pad, body, a, b. repeat (split; [assumption|]).
    split; [apply bytes_app in Hhb; tauto|]. repeat (split; [assumption|]). reflexivity.
  Qed.
  Lemma gframe_complete h chs w l' : bytes_ok l' -> gframe h chs w ->
    fl_frame_fz t m (w ++ l') (w ++ l') = (Ok (Some (h, chs)), l').
  Proof.
    intros Hb' (hw & bps & bits & pad & body & a & b & Hh & Hw & Hc & Hbody & Ebody & Hpad & Ha & Hb & ->).
    assert (bytes_ok (body ++ [a; b] ++ l')) as Hb1.
    { apply bytes_app. split; [exact Hbody|]. apply bytes_cons. split; [exact Ha|]. apply bytes_cons. split; [exact Hb|exact Hb']. }
    rewrite <- !app_assoc. unfold fl_frame_fz. rewrite (bind_run _ _ _ _ _ (header_complete_fz' t m h hw _ Hh Hb1)). rewrite header_of_fh.
    set (l0 := hw ++ body ++ [a; b] ++ l').
    assert (frame_rest_fz t m h l0 (body ++ [a; b] ++ l') = (Ok chs, l')) as Er.
    { unfold frame_rest_fz. rewrite Hw, bind_lift_ok.
      assert (with_bits l0 (p_channels t m (h_assignment h) bps (Z.to_nat (h_size h))) (body ++ [a; b] ++ l') = (Ok chs, [a; b] ++ l')) as Ec.
      { unfold with_bits. rewrite bytes_bits_app, Ebody, <- app_assoc.
        rewrite (ch_complete _ _ _ _ _ _ Hc). f_equal.
        rewrite app_length, bytes_bits_length.
        set (tl := [a; b] ++ l') in *.
        replace ((length pad + 8 * length tl) / 8)%nat with (length tl)
          by (rewrite Nat.mul_comm, Nat.div_add, Nat.div_small by lia; lia).
        unfold l0. apply ProofFault2.position. reflexivity. }
      rewrite (bind_run _ _ _ _ _ Ec).
      unfold bind at 1. unfold fl_crc.
      unfold bind at 1. cbn [app]. rewrite be_u16_cons by assumption.
      reflexivity. }
    unfold bind. rewrite Er. reflexivity.
  Qed.
  Lemma gframe_finds l e l' : bytes_ok l -> ours e ->
    fl_frame_fz t m l l = (Err e, l') -> exists w, l = w ++ l' /\ gfault e w.
  Proof.
    intros Hb He E. unfold fl_frame_fz in E. apply bind_err in E as [E|([fh|] & l1 & E1 & E)]; [| |discriminate E].
    { apply header_finds_fz in E as (w & -> & Hw & Hn); auto. exists w. split; [reflexivity|]. apply gfault_header; assumption. }
    destruct (header_sound_fz t m l fh l1 Hb E1) as (h & hw & El & Hw & ->). rewrite header_of_fh in E.
    apply bind_err in E as [E|(chs & l2 & _ & E)]; [|discriminate E].
    pose proof (header_decent_fz _ _ Hw) as (Hsz & Has & Hn & Hn' & Hbps).
    unfold frame_rest_fz in E. destruct (h_width h) as [x|] eqn:Ew.
    2: { injection E as <- <-. exists hw. split; [exact El|]. eapply gfault_width; eauto. }
    rewrite bind_lift_ok in E.
    assert (bytes_ok l1) as Hb1 by (rewrite El in Hb; apply bytes_app in Hb; tauto).
    apply bind_err in E as [E|(c & l4 & E4 & E)].
    - unfold with_bits in E.
      destruct (p_channels t m (h_assignment h) x (Z.to_nat (h_size h)) (bytes_bits l1)) as [o bits] eqn:Ec.
      assert (o = Err e) as -> by congruence. injection E as E.
      apply ch_finds in Ec as (w & E5 & Hc); [|lia|exact Has|exact He].
      destruct (split_bits _ _ _ E5) as (body & rest & pad & -> & Ebody & Hpad & -> & Hlen).
      assert (rest = l') as ->.
      { rewrite <- E, El. symmetry. apply ProofFault2.position, Hlen. }
      exists (hw ++ body). split; [rewrite El, <- app_assoc; reflexivity|].
      apply bytes_app in Hb1. eapply gfault_subframe; eauto. apply Hb1.
    - exfalso. apply with_bits_inv in E4 as (bits & E4 & ->).
      apply bind_err in E as [E|(computed & l5 & E6 & E)]; [discriminate E|].
      unfold fl_crc in E6. injection E6 as <- <-.
      apply bind_err in E as [E|(presumed & l6 & E6 & E)]; [|discriminate E]. eapply be_u16_err; eauto.
  Qed.
  Lemma gframe_reports e w l : gfault e w -> bytes_ok l -> fl_frame_fz t m (w ++ l) (w ++ l) = (Err e, l).
  Proof.
    intros H Hl.
    destruct H as [e w H Hn|h hw Hh Hw|h hw bps e bits pad body Hh Hw Hc Hbody Ebody Hpad].
    - unfold fl_frame_fz. apply bind_fail, header_reports_fz; assumption.
    - unfold fl_frame_fz. rewrite (bind_run _ _ _ _ _ (header_complete_fz' t m h hw l Hh Hl)). rewrite header_of_fh.
      unfold bind at 1. unfold frame_rest_fz. rewrite Hw. reflexivity.
    - assert (bytes_ok (body ++ l)) as Hb1 by (apply bytes_app; split; [exact Hbody|exact Hl]).
      rewrite <- !app_assoc.
      unfold fl_frame_fz. rewrite (bind_run _ _ _ _ _ (header_complete_fz' t m h hw (body ++ l) Hh Hb1)). rewrite header_of_fh.
      pose proof (header_decent_fz _ _ Hh) as (_ & Has & _).
      apply bind_fail. unfold frame_rest_fz. rewrite Hw, bind_lift_ok. apply bind_fail.
      unfold with_bits. rewrite bytes_bits_app, Ebody, <- app_assoc.
      rewrite (ch_reports _ bps _ Has _ _ (pad ++ bytes_bits l) Hc). f_equal.
      rewrite (app_length pad), bytes_bits_length.
      replace ((length pad + 8 * length l) / 8)%nat with (length l)
        by (rewrite Nat.mul_comm, Nat.div_add, Nat.div_small by lia; lia).
      apply ProofFault2.position. reflexivity.
  Qed.
End Frame.

(** * Either kind of build *)
Section Builds.
  Context (t : tail) (m : build).

  Definition codes_of := match m with Debug => channels_code | Release => loose_channels end.
  Definition faults_of := match m with Debug => channels_fault | Release => loose_channels_fault end.
  Lemma of_sound ca bps n : 1 <= bps <= 31 -> assignment_ok ca -> forall s chs s',
    p_channels t m ca bps n s = (Ok chs, s') -> exists w, s = w ++ s' /\ codes_of bps n ca w chs.
  Proof.
    intros Hb Ha s c s' E. unfold codes_of. destruct m.
    - exact (channels_sound t Debug ca bps n Hb Ha s c s' (or_introl eq_refl) E).
    - exact (lchannels_sound t ca bps n Hb Ha s c s' E).
  Qed.
  Lemma of_complete ca bps n w chs s' : codes_of bps n ca w chs -> p_channels t m ca bps n (w ++ s') = (Ok chs, s').
  Proof. unfold codes_of. destruct m; intros H; [apply channels_complete|apply lchannels_complete]; exact H. Qed.
  Lemma of_finds ca bps n : 1 <= bps <= 31 -> assignment_ok ca -> forall s e s', ours e ->
    p_channels t m ca bps n s = (Err e, s') -> exists w, s = w ++ s' /\ faults_of n (subframe_widths bps ca) e w.
  Proof.
    intros Hb Ha s e s' He E. unfold faults_of. destruct m.
    - exact (channels_finds t Debug ca bps n Hb Ha s e s' (or_introl eq_refl) He E).
    - exact (lchannels_finds t ca bps n Hb Ha s e s' He E).
  Qed.
  Lemma of_reports ca bps n : assignment_ok ca -> forall e w rest, faults_of n (subframe_widths bps ca) e w ->
    p_channels t m ca bps n (w ++ rest) = (Err e, rest).
  Proof.
    intros Ha e w rest H. unfold faults_of in H. destruct m.
    - exact (channels_reports t Debug ca bps n Ha e w rest H).
    - exact (lchannels_reports t ca bps n Ha e w rest H).
  Qed.
  Lemma uframe_general h chs w : unchecked_any_frame m (h, chs) w <-> gframe codes_of h chs w.
  Proof. unfold codes_of. destruct m; reflexivity. Qed.
  Lemma ufault_general e w : unchecked_any_fault m e w <-> gfault faults_of e w.
  Proof. unfold faults_of. destruct m; split; intros []; econstructor; eassumption. Qed.

  Lemma uframe_sound l h chs l' : bytes_ok l -> fl_frame_fz t m l l = (Ok (Some (h, chs)), l') ->
    exists w, l = w ++ l' /\ unchecked_any_frame m (h, chs) w.
  Proof.
    intros Hb E. destruct (gframe_sound t m codes_of faults_of of_sound of_complete of_finds of_reports l h chs l' Hb E) as (w & El & Hw).
    exists w. split; [exact El|]. apply uframe_general, Hw.
  Qed.
  Lemma uframe_complete f w l' : bytes_ok l' -> unchecked_any_frame m f w ->
    fl_frame_fz t m (w ++ l') (w ++ l') = (Ok (Some f), l').
  Proof.
    destruct f as [h chs]. intros Hb H. apply uframe_general in H.
    exact (gframe_complete t m codes_of faults_of of_sound of_complete of_finds of_reports h chs w l' Hb H).
  Qed.
  Lemma uframe_finds l e l' : bytes_ok l -> ours e ->
    fl_frame_fz t m l l = (Err e, l') -> exists w, l = w ++ l' /\ unchecked_any_fault m e w.
  Proof.
    intros Hb He E. destruct (gframe_finds t m codes_of faults_of of_sound of_complete of_finds of_reports l e l' Hb He E) as (w & El & Hw).
    exists w. split; [exact El|]. apply ufault_general, Hw.
  Qed.
  Lemma uframe_reports e w l : unchecked_any_fault m e w -> bytes_ok l -> fl_frame_fz t m (w ++ l) (w ++ l) = (Err e, l).
  Proof.
    intros H Hb. apply ufault_general in H.
    exact (gframe_reports t m codes_of faults_of of_sound of_complete of_finds of_reports e w l H Hb).
  Qed.
  Lemma ufault_ours e w : unchecked_any_fault m e w -> ours e.
  Proof.
    assert (forall bs o e w, residual_fault bs o e w -> ours e) as Hr by (intros ? ? ? ? []; exact Logic.I).
    assert (forall bps n c e w, body_fault bps n c e w -> ours e) as Hb
      by (intros ? ? ? ? ? []; try exact Logic.I; eapply Hr; eassumption).
    assert (forall bps n e w, subframe_fault bps n e w -> ours e) as Hs
      by (intros ? ? ? ? []; try exact Logic.I; eapply Hb; eassumption).
    assert (forall n bs e w, channels_fault n bs e w -> ours e) as Hc.
    { intros n bs e0 w0 H. induction H; [eapply Hs; eassumption|assumption]. }
    assert (forall bs o e w, loose_residual_fault bs o e w -> ours e) as Hr' by (intros ? ? ? ? []; exact Logic.I).
    assert (forall bps n c e w, loose_body_fault bps n c e w -> ours e) as Hb'
      by (intros ? ? ? ? ? []; try exact Logic.I; eapply Hr'; eassumption).
    assert (forall bps n e w, loose_subframe_fault bps n e w -> ours e) as Hs'
      by (intros ? ? ? ? []; try exact Logic.I; eapply Hb'; eassumption).
    assert (forall n bs e w, loose_channels_fault n bs e w -> ours e) as Hc'.
    { intros n bs e0 w0 H. induction H; [eapply Hs'; eassumption|assumption]. }
    destruct m; intros [? ? []| | ]; try exact Logic.I; [eapply Hc|eapply Hc']; eassumption.
  Qed.
End Builds.

(** * Overflow *)
Section Overflow.
  Context (t : tail).
  Theorem frame_settled_fz m l : bytes_ok l -> m = Debug -> settled (fst (fl_frame_fz t m l l)).
  Proof.
    intros Hb ->. unfold fl_frame_fz. destruct (header_total_fz t Debug l Hb) as [Hv Hl1]. apply settled_bind; [left; exact Hv|].
    intros [fh|] l1 E1; [|apply settled_ok]. rewrite E1 in Hl1. cbn [snd] in Hl1.
    apply settled_bind; [|intros; apply settled_ok]. unfold frame_rest_fz.
    destruct (h_width (header_of fh)) as [x|]; [|apply settled_err]. rewrite bind_lift_ok.
    apply settled_bind.
    - unfold with_bits. pose proof (settles_channels t (h_assignment (header_of fh)) x (Z.to_nat (h_size (header_of fh))) (bytes_bits l1)) as H.
      destruct (p_channels _ _ _ _ _ _). exact H.
    - intros chs l2 E2. apply with_bits_inv in E2 as (bits & _ & ->).
      set (l2 := skipn _ l).
      assert (bytes_ok l2) as Hb2.
      { unfold l2. rewrite <- (firstn_skipn (length l - length bits / 8) l) in Hb. apply bytes_app in Hb. tauto. }
      unfold bind at 1. unfold fl_crc. apply settled_bind; [left; apply be_u16_total, Hb2|].
      intros c l3 _. apply settled_ok.
  Qed.
  Theorem frame_bursts_fz l w l' : bytes_ok l -> fl_frame_fz t Debug l l = (Panic w, l') ->
    exists p rest, l = p ++ rest /\ unchecked_overflow p.
  Proof.
    intros Hb E. unfold fl_frame_fz in E. apply bind_panic in E as [E|(o & l1 & E1 & E)].
    { destruct (header_total_fz t Debug l Hb) as [[[? Hv]|[? Hv]] _]; rewrite E in Hv; discriminate Hv. }
    destruct o as [fh|]; [|discriminate E].
    destruct (header_sound_fz t Debug l fh l1 Hb E1) as (h & hw & El & Hw & ->). rewrite header_of_fh in E.
    apply bind_panic in E as [E|(? & ? & _ & E)]; [|discriminate E].
    pose proof (header_decent_fz _ _ Hw) as (Hsz & Has & Hn & Hn' & Hbps).
    unfold frame_rest_fz in E. destruct (h_width h) as [x|] eqn:Ew; [|discriminate E]. rewrite bind_lift_ok in E.
    apply bind_panic in E as [E|(chs & l2 & E2 & E)].
    - unfold with_bits in E. destruct (p_channels t Debug (h_assignment h) x (Z.to_nat (h_size h)) (bytes_bits l1)) as [o bits] eqn:Ep.
      injection E as -> _. apply channels_panics in Ep.
      apply seq_bursts in Ep as (wb & r & E3 & Hx); [|apply assignment_widths; [lia|exact Has]].
      destruct (split_bits _ _ _ E3) as (body & rest & pad & -> & Ebody & Hpad & _ & _).
      exists (hw ++ body), rest. split; [rewrite El, app_assoc; reflexivity|].
      exists h, hw, x, wb, pad, body. repeat (split; [assumption|]).
      split; [|auto]. rewrite El in Hb. apply bytes_app in Hb as [_ Hb]. apply bytes_app in Hb. exact (proj1 Hb).
    - exfalso. apply with_bits_inv in E2 as (bits & _ & ->). set (l2 := skipn _ l) in E.
      assert (bytes_ok l2) as Hb2.
      { unfold l2. rewrite <- (firstn_skipn (length l - length bits / 8) l) in Hb. apply bytes_app in Hb. tauto. }
      unfold bind at 1 in E. unfold fl_crc in E. apply bind_panic in E as [E|(? & ? & _ & E)]; [|discriminate E].
      destruct (be_u16_total t l2 Hb2) as [[[? Hv]|[? Hv]] _]; rewrite E in Hv; discriminate Hv.
  Qed.
  Theorem frame_breaks_fz p rest : bytes_ok rest -> unchecked_overflow p ->
    exists w l', fl_frame_fz t Debug (p ++ rest) (p ++ rest) = (Panic w, l').
  Proof.
    intros Hr (h & hw & bps & bits & pad & body & Hh & Hw & Hc & Hbody & Ebody & Hpad & ->).
    assert (bytes_ok (body ++ rest)) as Hb1 by (apply bytes_app; split; [exact Hbody|exact Hr]).
    rewrite <- app_assoc. unfold fl_frame_fz.
    rewrite (bind_run _ _ _ _ _ (header_complete_fz' t Debug h hw (body ++ rest) Hh Hb1)). rewrite header_of_fh.
    apply bind_panics. unfold frame_rest_fz. rewrite Hw, bind_lift_ok. apply bind_panics.
    unfold with_bits. rewrite bytes_bits_app, Ebody, <- app_assoc.
    destruct (seq_breaks t _ _ _ (pad ++ bytes_bits rest) Hc) as (w & s' & E). apply channels_panics in E.
    rewrite E. eauto.
  Qed.
End Overflow.

(** * Errors of the source *)
Section Own.
  Context {S : Type} (I : S -> Prop) (E : io_kind -> S -> Prop) (F : S -> Prop) (rb : ReadBytes S) (H : owns I E F rb) (m : build) (fuel : nat).
  Lemma own_header_fz : owne I E F (read_frame_header_or_eof_fz rb m).
  Proof.
    assert (owne (fun st => I (c8_inner st)) (fun k st => E k (c8_inner st)) (fun st => F (c8_inner st)) (read_frame_header_body_fz rb m)) as Hb.
    { pose proof (owns_crc8 I E F rb H) as H8. unfold read_frame_header_body_fz, crc8_crc. cbv zeta.
      apply owne_bind; [eapply own_be16_eof; eassumption| |reflexivity]. intros sync. apply owne_own; [|never].
      repeat first [ (eapply own_be16; eassumption) | (eapply own_vli; eassumption) | own1 ]. }
    intros st HI. unfold read_frame_header_or_eof_fz, with_crc8. destruct (Hb (crc8_new st) HI) as (H1 & H2 & H3).
    destruct (read_frame_header_body_fz rb m (crc8_new st)) as [o st']. auto.
  Qed.
End Own.
Section OwnNext.
  Context {S : Type} (I : S -> Prop) (E : io_kind -> S -> Prop) (F : S -> Prop) (rb : ReadBytes S) (H : owns I E F rb) (m : build) (fuel : nat).
  Lemma own_next_fz buffer : owne I E F (read_next_or_eof_fz rb m fuel buffer).
  Proof.
    assert (owne (fun st => I (c16_inner st)) (fun k st => E k (c16_inner st)) (fun st => F (c16_inner st)) (read_next_body_fz rb m fuel buffer)) as Hb.
    { pose proof (owns_crc16 I E F rb H) as H16. unfold read_next_body_fz, crc16_crc, block_new. cbv zeta.
      apply owne_bind; [eapply own_header_fz; eassumption| |reflexivity]. intros header. apply owne_own; [|never].
      repeat first [ (eapply own_be16; eassumption)
        | (apply own_with_bits; eapply (own_channels (fun st => I (c16_inner st)) (fun k st => E k (c16_inner st)) (fun st => F (c16_inner st))); exact H16) | own1 ]. }
    intros st HI. unfold read_next_or_eof_fz, with_crc16. destruct (Hb (crc16_new st) HI) as (H1 & H2 & H3).
    destruct (read_next_body_fz rb m fuel buffer (crc16_new st)) as [o st']. auto.
  Qed.
End OwnNext.

(** * Any stream *)
Section Stream.
  Context {S : Type} (rb : ReadBytes S) (t : tail) (D : S -> list Z -> Prop) (HS : stream rb t D).
  Context (m : build) (fuel : nat).
  Notation Hrs := (stream_rb_sim rb t D HS no_esc).
  Notation Hes := (stream_eof_sim rb t D HS no_esc).
  Notation Hbytes := (st_bytes rb t D HS).
  Notation next := (read_next_or_eof_fz rb m fuel).

  Lemma source_error_fz buffer st l k : D st l -> (length l < fuel)%nat -> fst (next buffer st) = Err (IoError k) -> IoError k = tail_error t.
  Proof.
    intros HD Hf E.
    pose proof (frame_left_full_fz rb t D Hrs Hes Hbytes m fuel st l buffer HD Hf) as H. cbv zeta in H. rewrite E in H. destruct H as [H _].
    pose proof (frame_left_full_fz (fl_rb t) t _ (stream_rb_sim _ t _ (fl_stream t) no_esc) (stream_eof_sim _ t _ (fl_stream t) no_esc) (st_bytes _ t _ (fl_stream t)) m fuel l l buffer (conj eq_refl (Hbytes _ _ HD)) Hf) as H2.
    cbv zeta in H2. apply (own_next_fz _ _ _ (fl_rb t) (flat_owns t) m fuel buffer l Logic.I).
    destruct (fst (read_next_or_eof_fz (fl_rb t) m fuel buffer l)) as [o|e|w|w|].
    - destruct H2 as (x & H2 & _). congruence.
    - destruct H2 as [H2 _]. congruence.
    - congruence.
    - congruence.
    - congruence.
  Qed.

  Theorem unchecked_decoded buffer st f w rest : unchecked_any_frame m f w -> D st (w ++ rest) -> (length (w ++ rest) < fuel)%nat ->
    exists b st', next buffer st = (Ok (Some b), st') /\ block_shows b (fst f) (snd f) /\ block_holds b (snd f) /\ D st' rest.
  Proof.
    intros Hw HD Hf. pose proof (Hbytes _ _ HD) as Hb. apply bytes_app in Hb as [_ Hb].
    pose proof (frame_left_fz rb t D Hrs Hes Hbytes m fuel st _ buffer HD Hf) as H. cbv zeta in H.
    rewrite (uframe_complete t m f w rest Hb Hw) in H. cbn [fst snd] in H.
    destruct (next buffer st) as [o st']. cbn [fst snd] in H. destruct o; try discriminate H.
    destruct H as (x & E & Hs & HD'). injection E as <-. destruct f as [h chs]. destruct Hs as (b & -> & Hs & _).
    exists b, st'. split; [reflexivity|]. split; [exact Hs|]. split; [|exact HD'].
    assert (exists hw, unchecked_header h hw) as [hw Hh].
    { destruct m; destruct Hw as (hw & ? & ? & ? & ? & ? & ? & Hh & _); eauto. }
    destruct (header_decent_fz h hw Hh) as (Hsz & Ha & _).
    destruct Hs as (_ & Hd & Hc & Hn & HF & Hi). cbn [fst snd] in *. split; [|split; [|split; [|split]]].
    - rewrite Hc. destruct (h_assignment h); cbn in *; lia.
    - rewrite Hd. exact Hsz.
    - congruence.
    - rewrite Hd. exact HF.
    - exact Hi.
  Qed.
  Theorem unchecked_reported buffer st e w rest : unchecked_any_fault m e w -> D st (w ++ rest) -> (length (w ++ rest) < fuel)%nat ->
    exists st', next buffer st = (Err e, st') /\ D st' rest.
  Proof.
    intros Hw HD Hf. pose proof (Hbytes _ _ HD) as Hb. apply bytes_app in Hb as [_ Hb].
    pose proof (frame_left_full_fz rb t D Hrs Hes Hbytes m fuel st _ buffer HD Hf) as H. cbv zeta in H.
    rewrite (uframe_reports t m e w rest Hw Hb) in H. cbn [fst snd] in H.
    destruct (next buffer st) as [o st']. cbn [fst snd] in H.
    destruct o; try discriminate H.
    - destruct H as (? & H & _). discriminate H.
    - destruct H as [H1 H]. injection H1 as ->. exists st'. split; [reflexivity|]. apply H. eapply ufault_ours, Hw.
  Qed.
  Theorem unchecked_panics buffer st p rest : unchecked_any_overflow m p -> D st (p ++ rest) ->
    (length (p ++ rest) < fuel)%nat -> exists why, fst (next buffer st) = Panic why.
  Proof.
    intros [Em Hp] HD Hf. destruct m; [|discriminate Em]. clear Em. pose proof (frame_left_fz rb t D Hrs Hes Hbytes Debug fuel st _ buffer HD Hf) as H. cbv zeta in H.
    destruct (frame_breaks_fz t p rest) as (w & l' & E); [|exact Hp|].
    { apply Hbytes, bytes_app in HD. tauto. }
    rewrite E in H. cbn [fst snd] in H. destruct (fst (read_next_or_eof_fz rb Debug fuel buffer st)); try discriminate H; [|eauto].
    destruct H as (x & H & _). discriminate H.
  Qed.
  Theorem unchecked_cases buffer st l : D st l -> (length l < fuel)%nat -> (1 < fuel)%nat ->
    let r := next buffer st in
    (exists f w rest b, l = w ++ rest /\ unchecked_any_frame m f w
       /\ fst r = Ok (Some b) /\ block_shows b (fst f) (snd f) /\ D (snd r) rest)
    \/ (exists e w rest, l = w ++ rest /\ unchecked_any_fault m e w /\ fst r = Err e /\ D (snd r) rest)
    \/ (t = TEof /\ (length l <= 1)%nat /\ fst r = Ok None /\ D (snd r) [])
    \/ (exists p rest why, l = p ++ rest /\ unchecked_any_overflow m p /\ fst r = Panic why)
    \/ (unchecked_incomplete m l /\ fst r = Err (tail_error t)).
  Proof.
    intros HD Hf H1. cbv zeta. pose proof (Hbytes _ _ HD) as Hb.
    pose proof (frame_left_full_fz rb t D Hrs Hes Hbytes m fuel st l buffer HD Hf) as H. cbv zeta in H.
    destruct (fl_frame_fz t m l l) as [fo l'] eqn:Ef.
    destruct (fst (next buffer st)) as [o|e|w|w|] eqn:En; cbn [fst snd] in H.
    - destruct H as (x & -> & Hs & HD'). destruct x as [[h chs]|].
      + destruct Hs as (b & -> & Hs & _). destruct (uframe_sound t m l h chs l' Hb Ef) as (w & El & Hw).
        left. exists (h, chs), w, l', b. auto 8.
      + cbn in Hs. subst o. destruct (frame_none_fz t m l l' Hb Ef) as (Ht & Hl & ->). right; right; left. auto.
    - destruct H as [-> HD']. assert ((exists k, e = IoError k) \/ ours e) as [[k ->]|Ho] by (destruct e; cbn; eauto).
      + do 4 right. split; [|rewrite <- (source_error_fz buffer st l k HD Hf En); reflexivity].
        intros w rest ->. split; [|split].
        * intros f Hw. destruct (unchecked_decoded buffer st f w rest Hw HD Hf) as (b & st2 & E2 & _). rewrite E2 in En. discriminate En.
        * intros e Hw. destruct (unchecked_reported buffer st e w rest Hw HD Hf) as (st2 & E2 & _). rewrite E2 in En. cbn in En.
          injection En as ->. apply ufault_ours in Hw. exact Hw.
        * intros Hw. destruct (unchecked_panics buffer st w rest Hw HD Hf) as (why & E2). congruence.
      + right; left. destruct (uframe_finds t m l e l' Hb Ho Ef) as (w & El & Hw). exists e, w, l'. auto.
    - do 3 right; left. destruct m eqn:Em.
      + destruct (frame_bursts_fz t l w l' Hb ltac:(congruence)) as (p & rest & El & Hp). exists p, rest, w. split; [exact El|]. split; [split; auto|reflexivity].
      + pose proof (frame_total_fz t Release l Hb (or_introl eq_refl)) as [[? Ht]|[? Ht]]; rewrite Ef in Ht; cbn in Ht; congruence.
    - exfalso. destruct m eqn:Em.
      + pose proof (frame_settled_fz t Debug l Hb eq_refl) as Ht. rewrite Ef in Ht. cbn [fst] in Ht. subst fo.
        destruct Ht as [[[? Ht]|[? Ht]]|[? Ht]]; discriminate Ht.
      + pose proof (frame_total_fz t Release l Hb (or_introl eq_refl)) as [[? Ht]|[? Ht]]; rewrite Ef in Ht; cbn in Ht; congruence.
    - exfalso. destruct m eqn:Em.
      + pose proof (frame_settled_fz t Debug l Hb eq_refl) as Ht. rewrite Ef in Ht. cbn [fst] in Ht. subst fo.
        destruct Ht as [[[? Ht]|[? Ht]]|[? Ht]]; discriminate Ht.
      + pose proof (frame_total_fz t Release l Hb (or_introl eq_refl)) as [[? Ht]|[? Ht]]; rewrite Ef in Ht; cbn in Ht; congruence.
  Qed.
End Stream.
