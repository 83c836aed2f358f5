(** Exactly what the configuration [fuzzing] reads: samples and fuzz targets.  C95. *)
From Verif Require Export ProofAnyFuzzing.
From Verif Require Import SpecReader.

(** * Iterating over samples, whatever reads the blocks (see ProofSamples.v) *)
Section With.
  Context {S : Type} (m : build) (next : vec -> M S (option block)).
  Notation step := (samples_with m next).

  (** See [blocks_read]. *)
  Inductive reads_with : vec -> S -> list block -> outcome (option block) -> S -> Prop :=
  | with_last : forall buffer s last s', next buffer s = (last, s') -> (forall b, last <> Ok (Some b)) ->
      reads_with buffer s [] last s'
  | with_one : forall buffer s b s1 bs last s', next buffer s = (Ok (Some b), s1) ->
      reads_with (block_into_buffer b) s1 bs last s' -> reads_with buffer s (b :: bs) last s'.

  (** ** Inside a block *)
  Section Block.
    Context (b : block) (chs : list (list Z)) (Hb : block_holds b chs) (s : S).
    Notation nch := (length chs).
    Notation dur := (Z.to_nat (block_duration b)).

    Lemma step_channel_w i k c : nth_error chs (Datatypes.S k) = Some c -> (i < dur)%nat ->
      step ((ProofSamples.at_pos b s) i k) = (Ok (Some (ROk (nth i c 0))), (ProofSamples.at_pos b s) i (Datatypes.S k)).
    Proof.
      intros Hc Hi. destruct (holds_nch b chs Hb) as (N1 & N2 & N3 & N4).
      assert (Datatypes.S k < nch)%nat as Hk by (apply nth_error_Some; congruence).
      unfold samples_with. rewrite bind_get. cbn [ProofSamples.at_pos fs_has_failed fs_channel fs_block]. cbv iota.
      rewrite chk_u32 by lia. rewrite bind_lift_ok.
      unfold bind at 1, fs_set_channel at 1. cbn [ProofSamples.at_pos fs_frame_reader fs_block fs_sample fs_has_failed].
      replace (block_channels b <=? Z.of_nat k + 1) with false by lia.
      replace (Z.of_nat k + 1) with (Z.of_nat (Datatypes.S k)) by lia.
      apply (yield_at b chs Hb s); assumption.
    Qed.
    Lemma step_sample_w i k c : Datatypes.S k = nch -> nth_error chs 0 = Some c -> (Datatypes.S i < dur)%nat ->
      step ((ProofSamples.at_pos b s) i k) = (Ok (Some (ROk (nth (Datatypes.S i) c 0))), (ProofSamples.at_pos b s) (Datatypes.S i) 0).
    Proof.
      intros Hk Hc Hi. destruct (holds_nch b chs Hb) as (N1 & N2 & N3 & N4).
      unfold samples_with. rewrite bind_get. cbn [ProofSamples.at_pos fs_has_failed fs_channel fs_block fs_sample]. cbv iota.
      rewrite chk_u32 by lia. rewrite bind_lift_ok.
      unfold bind at 1, fs_set_channel at 1. cbn [fs_frame_reader fs_block fs_sample fs_has_failed].
      replace (block_channels b <=? Z.of_nat k + 1) with true by lia.
      unfold bind at 1, fs_set_channel at 1. cbn [fs_frame_reader fs_block fs_sample fs_has_failed].
      rewrite chk_u32 by lia. rewrite bind_lift_ok.
      unfold bind at 1, fs_set_sample at 1. cbn [fs_frame_reader fs_block fs_channel fs_has_failed].
      replace (block_duration b <=? Z.of_nat i + 1) with false by lia.
      replace (Z.of_nat i + 1) with (Z.of_nat (Datatypes.S i)) by lia.
      apply (yield_at b chs Hb s _ 0); assumption.
    Qed.

    (** From a position to the last. *)
    Lemma block_runs_w : forall todo i k, (i < dur)%nat -> (k < nch)%nat ->
      (i * nch + k + 1 + todo = dur * nch)%nat ->
      runs step ((ProofSamples.at_pos b s) i k) (map (fun x => Ok (Some (ROk x))) (skipn (i * nch + k + 1) (interleave dur chs)))
        ((ProofSamples.at_pos b s) (dur - 1) (nch - 1)).
    Proof.
      induction todo as [|todo IH]; intros i k Hi Hk Ht; destruct (holds_nch b chs Hb) as (N1 & N2 & N3 & N4).
      - rewrite skipn_all2 by (rewrite interleave_length; lia).
        assert (i = dur - 1 /\ k = nch - 1)%nat as [-> ->] by nia. apply runs_nil.
      - destruct (Nat.eq_dec (Datatypes.S k) nch) as [Ek|Ek].
        + destruct (nth_error chs 0) as [c|] eqn:Ec; [|apply nth_error_None in Ec; lia].
          assert (Datatypes.S i < dur)%nat as Hi' by nia.
          replace (i * nch + k + 1)%nat with (Datatypes.S i * nch + 0)%nat by (cbn; lia).
          rewrite (skipn_nth _ _ _ (interleave_nth dur chs (Datatypes.S i) 0 c Hi' Ec)). cbn [map].
          eapply runs_cons; [apply (step_sample_w i k c Ek Ec Hi')|].
          replace (Datatypes.S (Datatypes.S i * nch + 0)) with (Datatypes.S i * nch + 0 + 1)%nat by lia.
          apply IH; nia.
        + destruct (nth_error chs (Datatypes.S k)) as [c|] eqn:Ec; [|apply nth_error_None in Ec; lia].
          replace (i * nch + k + 1)%nat with (i * nch + Datatypes.S k)%nat by lia.
          rewrite (skipn_nth _ _ _ (interleave_nth dur chs i (Datatypes.S k) c Hi Ec)). cbn [map].
          eapply runs_cons; [apply (step_channel_w i k c Ec Hi)|].
          replace (Datatypes.S (i * nch + Datatypes.S k)) with (i * nch + Datatypes.S k + 1)%nat by lia.
          apply IH; lia.
    Qed.
  End Block.

  (** ** Between blocks *)

  Lemma step_boundary_w st buffer s r s' : boundary st buffer s -> next buffer s = (r, s') ->
    step st = match r with
              | Ok (Some b) => fs_yield (mkFs s' b 0 0 false)
              | Ok None => (Ok None, mkFs s' block_empty 0 0 false)
              | Err e => (Ok (Some (RErr e)), mkFs s' block_empty 0 0 true)
              | Panic w => (Panic w, mkFs s' block_empty 0 0 false)
              | UB w => (UB w, mkFs s' block_empty 0 0 false)
              | OutOfFuel => (OutOfFuel, mkFs s' block_empty 0 0 false)
              end.
  Proof.
    intros (Hf & Hs & Hi & Hcap & Hc & Hsa & Hnc & Hd) E.
    destruct st as [s0 b sa ch f]. cbn [fs_has_failed fs_frame_reader fs_block fs_channel fs_sample] in *. subst f s0.
    assert (block_into_buffer b = buffer) as Hbuf.
    { unfold block_into_buffer. destruct (bl_buffer b), buffer. cbn in *. congruence. }
    unfold samples_with. rewrite bind_get. cbn [fs_has_failed fs_channel fs_block fs_sample]. cbv iota.
    rewrite chk_u32 by lia. rewrite bind_lift_ok.
    unfold bind at 1, fs_set_channel at 1. cbn [fs_frame_reader fs_block fs_sample fs_has_failed].
    replace (block_channels b <=? ch + 1) with true by lia.
    unfold bind at 1, fs_set_channel at 1. cbn [fs_frame_reader fs_block fs_sample fs_has_failed].
    rewrite chk_u32 by lia. rewrite bind_lift_ok.
    unfold bind at 1, fs_set_sample at 1. cbn [fs_frame_reader fs_block fs_channel fs_has_failed].
    replace (block_duration b <=? sa + 1) with true by lia.
    unfold bind at 1, fs_set_sample at 1. cbn [fs_frame_reader fs_block fs_channel fs_has_failed].
    unfold bind at 1, fs_set_block at 1. cbn [fs_frame_reader fs_sample fs_channel fs_has_failed].
    unfold bind at 1, catch, fs_lift. cbn [fs_frame_reader fs_block fs_sample fs_channel fs_has_failed].
    rewrite Hbuf, E.
    destruct r as [[b'|]|e|w|w|]; reflexivity.
  Qed.

  (** All samples of one more block. *)
  Lemma read_runs_w st buffer s b s' chs : boundary st buffer s -> next buffer s = (Ok (Some b), s') -> block_holds b chs ->
    runs step st (map (fun x => Ok (Some (ROk x))) (interleave (Z.to_nat (block_duration b)) chs))
      (at_pos b s' (Z.to_nat (block_duration b) - 1) (length chs - 1)).
  Proof.
    intros HB E Hb. destruct (holds_nch b chs Hb) as (N1 & N2 & N3 & N4).
    destruct (nth_error chs 0) as [c|] eqn:Ec; [|apply nth_error_None in Ec; lia].
    pose proof (skipn_nth _ _ _ (interleave_nth (Z.to_nat (block_duration b)) chs 0 0 c ltac:(lia) Ec)) as E0.
    cbn [Nat.mul Nat.add skipn] in E0. rewrite E0. cbn [map].
    eapply runs_cons.
    - rewrite (step_boundary_w st buffer s _ s' HB E). apply (yield_at b chs Hb s' 0 0 c Ec). lia.
    - destruct (interleave (Z.to_nat (block_duration b)) chs) as [|x l] eqn:Ei; [discriminate|].
      pose proof (block_runs_w b chs Hb s' (Z.to_nat (block_duration b) * length chs - 1) 0 0 ltac:(lia) ltac:(lia) ltac:(nia)) as H.
      cbn [Nat.mul Nat.add] in H. rewrite Ei in H. exact H.
  Qed.

  Theorem blocks_runs_w buffer s bs last s' : reads_with buffer s bs last s' ->
    forall ls st, Forall2 block_interleaved bs ls -> boundary st buffer s ->
    exists st' buffer' s'', runs step st (map (fun x => Ok (Some (ROk x))) (concat ls)) st'
      /\ boundary st' buffer' s'' /\ next buffer' s'' = (last, s').
  Proof.
    induction 1 as [buffer s last s' E Hn|buffer s b s1 bs last s' E HR IH]; intros ls st HF HB.
    - inversion HF; subst. exists st, buffer, s. split; [apply runs_nil|]. auto.
    - inversion HF as [|? l ? ls' (chs & Hb & El) HF']; subst.
      destruct (IH ls' (at_pos b s1 (Z.to_nat (block_duration b) - 1) (length chs - 1)) HF' (boundary_last b chs s1 Hb))
        as (st' & buffer' & s'' & HRn & HB' & El).
      exists st', buffer', s''. split; [|auto]. cbn [concat]. rewrite map_app.
      eapply runs_app; [eapply read_runs_w; eassumption|exact HRn].
  Qed.

  (** ** Errors *)
  Lemma step_failed_w st : fs_has_failed st = true -> step st = (Ok None, st).
  Proof. intros H. unfold samples_with. rewrite bind_get, H. reflexivity. Qed.
  Lemma failed_forever_w n st : fs_has_failed st = true -> nexts step n st = (repeat (Ok None) n, st).
  Proof.
    intros H. induction n as [|n IH]; [reflexivity|]. rewrite nexts_S, (step_failed_w st H). cbn [fst snd]. rewrite IH. reflexivity.
  Qed.
End With.

(** * Playing *)
Section Play.
  Context {S : Type} (rb : ReadBytes S) (t : tail) (D : S -> list Z -> Prop) (HS : stream rb t D).
  Context (m : build) (fuel : nat).
  Notation next := (read_next_or_eof_fz rb m fuel).
  Notation step := (fs_next_fz rb m fuel).

  Lemma unchecked_next buffer s rest o : unchecked_stop t m rest o -> D s rest -> (length rest < fuel)%nat -> (1 < fuel)%nat ->
    ending_outcome o (fst (next buffer s)) /\ (o = AtEnd -> D (snd (next buffer s)) []).
  Proof.
    intros Hs HD Hf H1. destruct Hs as [l Ht Hl|e w rest Hw|p rest Hp|l Hi Hl]; cbn.
    - destruct (frame_ends_fz rb t D HS m fuel buffer s l Ht Hl H1 HD) as (s' & -> & HD'). auto.
    - destruct (unchecked_reported rb t D HS m fuel buffer s e w rest Hw HD Hf) as (s' & -> & _). split; [reflexivity|discriminate].
    - split; [exact (unchecked_panics rb t D HS m fuel buffer s p rest Hp HD Hf)|discriminate].
    - split; [|discriminate]. pose proof (unchecked_cases rb t D HS m fuel buffer s l HD Hf H1) as H. cbv zeta in H.
      destruct H as [(f & w & rest & b & -> & Hw & _)|[(e & w & rest & -> & Hw & _)|[(Ht & Hl' & _)|[(p & rest & why & -> & Hp & _)|(_ & E)]]]].
      + destruct (Hi w rest eq_refl) as (H & _). destruct (H f Hw).
      + destruct (Hi w rest eq_refl) as (_ & H & _). destruct (H e Hw).
      + specialize (Hl Ht). lia.
      + destruct (Hi p rest eq_refl) as (_ & _ & H). destruct (H Hp).
      + exact E.
  Qed.

  Lemma unchecked_blocks frames ws : Forall2 (unchecked_any_frame m) frames ws ->
    forall buffer s rest o, unchecked_stop t m rest o -> D s (concat ws ++ rest) ->
    (length (concat ws ++ rest) < fuel)%nat -> (1 < fuel)%nat ->
    exists bs r s', reads_with next buffer s bs r s' /\ ending_outcome o r /\ (o = AtEnd -> D s' [])
      /\ Forall2 (fun b f => block_shows b (fst f) (snd f) /\ block_holds b (snd f)) bs frames.
  Proof.
    intros HF. induction HF as [|f w frames ws Hw HF IH]; intros buffer s rest o Hs HD Hf H1.
    - cbn [concat app] in *. pose proof (unchecked_next buffer s rest o Hs HD Hf H1) as [E HE].
      destruct (next buffer s) as [r s'] eqn:En. cbn [fst snd] in *. exists [], r, s'. split; [|split; [exact E|split; [exact HE|constructor]]].
      apply with_last; [exact En|]. intros b ->. destruct o; cbn in E; try discriminate E. destruct E as [? E]. discriminate E.
    - cbn [concat] in *. rewrite <- app_assoc in *.
      destruct (unchecked_decoded rb t D HS m fuel buffer s f w _ Hw HD Hf) as (b & s1 & E & Hb & Hh & HD').
      destruct (IH (block_into_buffer b) s1 rest o Hs HD' ltac:(rewrite app_length in Hf; lia) H1) as (bs & r & s' & HR & Hr & HE & HB).
      exists (b :: bs), r, s'. split; [eapply with_one; eassumption|]. split; [exact Hr|]. split; [exact HE|]. constructor; [|exact HB]. auto.
  Qed.

  Lemma interleaved_frames bs frames : Forall2 (fun b f => block_shows b (fst f) (snd f) /\ block_holds b (snd f)) bs frames ->
    exists ls, Forall2 block_interleaved bs ls /\ concat ls = pcm_of frames.
  Proof.
    intros HB. assert (exists ls, Forall2 block_interleaved bs ls) as [ls HI].
    { induction HB as [|b f bs frames [_ Hh] HB IH]; [exists []; constructor|]. destruct IH as [ls IH].
      eexists (_ :: ls). constructor; [exists (snd f); split; [exact Hh|reflexivity]|exact IH]. }
    exists ls. split; [exact HI|]. exact (blocks_pcm bs ls frames HI HB).
  Qed.
  Lemma nones_fz n : (1 < fuel)%nat -> t = TEof -> forall s, D s [] ->
    fst (nexts step n (mkFs s block_empty 0 0 false)) = repeat (Ok None) n.
  Proof.
    intros Hf Ht. induction n as [|n IH]; intros s HD; [reflexivity|].
    destruct (frame_ends_fz rb t D HS m fuel (mkVec [] 0) s [] Ht ltac:(cbn; lia) Hf HD) as (s' & E & HD').
    change step with (samples_with m next) in *.
    rewrite nexts_S, (step_boundary_w m next _ _ s _ s' (boundary_start s) E).
    cbn [fst snd repeat]. rewrite IH by exact HD'. reflexivity.
  Qed.
  Lemma unchecked_end l : unchecked_stop t m l AtEnd -> t = TEof.
  Proof. intros H. inversion H. assumption. Qed.

  Theorem unchecked_samples s l frames o : unchecked_plays m t l frames o -> D s l -> (length l < fuel)%nat -> (1 < fuel)%nat ->
    sounds step (mkFs s block_empty 0 0 false) (pcm_of frames) o.
  Proof.
    intros (ws & rest & -> & HF & Hs) HD Hf H1.
    destruct (unchecked_blocks frames ws HF (mkVec [] 0) s rest o Hs HD Hf H1) as (bs & r & s' & HR & Hr & HE & HB).
    destruct (interleaved_frames bs frames HB) as (ls & HI & El). rewrite <- El.
    destruct (blocks_runs_w m next _ _ _ _ _ HR ls _ HI (boundary_start s)) as (st' & buffer' & s'' & HRn & HBd & E).
    pose proof (step_boundary_w m next _ _ _ _ _ HBd E) as Es.
    change step with (samples_with m next).
    destruct o as [|e|]; cbn [ending_outcome] in Hr.
    - rewrite Hr in *. apply (runs_yields _ _ _ st'); [rewrite map_map; exact HRn|].
      intros [|n]; [reflexivity|]. rewrite nexts_S, Es. cbn [fst snd repeat]. f_equal.
      apply nones_fz; [exact H1|exact (unchecked_end _ Hs)|exact (HE eq_refl)].
    - rewrite Hr in *. cbn [sounds].
      assert (runs (samples_with m next) (mkFs s block_empty 0 0 false) (map (fun x => Ok (Some x)) (map ROk (concat ls) ++ [RErr e]))
                (mkFs s' block_empty 0 0 true)) as HR2.
      { rewrite map_app, map_map. eapply runs_app; [exact HRn|]. apply runs_one. exact Es. }
      eapply runs_yields; [exact HR2|]. intros n. rewrite failed_forever_w by reflexivity. reflexivity.
    - destruct Hr as [why Hr]. rewrite Hr in *. exists why. rewrite nexts_app. unfold runs in HRn. rewrite map_length in HRn. rewrite HRn. cbn [fst snd].
      rewrite nexts_S, Es. reflexivity.
  Qed.

  Lemma unchecked_case (buffer : vec) s l : D s l -> (length l < fuel)%nat -> (1 < fuel)%nat ->
    (exists f w rest st', l = w ++ rest /\ unchecked_any_frame m f w /\ D st' rest) \/ exists o, unchecked_stop t m l o.
  Proof.
    intros HD Hf H1. pose proof (unchecked_cases rb t D HS m fuel buffer s l HD Hf H1) as H. cbv zeta in H.
    destruct H as [(f & w & rest & b & El & Hw & _ & _ & HD')|[(e & w & rest & -> & Hw & _)|[(Ht & Hl' & _)|[(p & rest & why & -> & Hp & _)|(Hi & E)]]]].
    - left. exists f, w, rest. eauto.
    - right. eexists. apply unchecked_on_fault, Hw.
    - right. eexists. apply unchecked_at_end; assumption.
    - right. eexists. apply unchecked_on_overflow, Hp.
    - right. eexists. apply unchecked_on_source; [assumption|]. intros Ht. destruct (le_lt_dec (length l) 1) as [Hs|Hs]; [|lia].
      destruct (frame_ends_fz rb t D HS m fuel buffer s l Ht Hs H1 HD) as (s' & E' & _). rewrite E' in E. discriminate E.
  Qed.
  Lemma unchecked_frame_long f w : unchecked_any_frame m f w -> (1 <= length w)%nat.
  Proof.
    destruct m; intros (hw & bps & bits & pad & body & a & b & _ & _ & _ & _ & _ & _ & _ & _ & ->); rewrite !app_length; cbn; lia.
  Qed.
  Lemma unchecked_exist_from n : forall l st, (length l <= n)%nat -> D st l -> (length l < fuel)%nat -> (1 < fuel)%nat ->
    exists frames o, unchecked_plays m t l frames o.
  Proof.
    induction n as [|n IH]; intros l st Hn HD Hf H1;
      (destruct (unchecked_case (mkVec [] 0) st l HD Hf H1) as [(f & w & rest & st' & El & Hw & HD')|[o Ho]];
       [|exists [], o, [], l; repeat split; [constructor|exact Ho]]);
      pose proof (unchecked_frame_long f w Hw) as Hlong; subst l; rewrite app_length in *; [lia|].
    destruct (IH rest st') as (frames & o & ws & x & -> & HF & Hs); auto; try lia.
    exists (f :: frames), o, (w :: ws), x. cbn [concat]. rewrite app_assoc. repeat split; auto.
  Qed.
End Play.

Theorem unchecked_exist m t l : bytes_ok l -> exists frames o, unchecked_plays m t l frames o.
Proof.
  intros Hb. apply (unchecked_exist_from (fl_rb t) t _ (fl_stream t) m (length l + 2) (length l) l l); auto; try lia.
Qed.

(** The frames and the end are determined. *)
Section Unique.
  Context (m : build) (t : tail).
  Lemma unchecked_stop_now l o : bytes_ok l -> unchecked_stop t m l o ->
    ending_outcome o (fst (read_next_or_eof_fz (fl_rb t) m (length l + 2) (mkVec [] 0) l)).
  Proof.
    intros Hb H. exact (proj1 (unchecked_next (fl_rb t) t _ (fl_stream t) m (length l + 2) (mkVec [] 0) l l o H (conj eq_refl Hb) ltac:(lia) ltac:(lia))).
  Qed.
  Lemma unchecked_stop_unique l o o' : bytes_ok l -> unchecked_stop t m l o -> unchecked_stop t m l o' -> o = o'.
  Proof.
    intros Hb H H'. apply unchecked_stop_now in H, H'; try exact Hb. revert H H'.
    generalize (fst (read_next_or_eof_fz (fl_rb t) m (length l + 2) (mkVec [] 0) l)). intros r H H'.
    destruct o as [|e|]; [| |destruct H as [why H]]; (destruct o' as [|e'|]; [| |destruct H' as [why' H']]); cbn in H, H'; congruence.
  Qed.
  Lemma unchecked_frame_or_stop f w rest o : bytes_ok (w ++ rest) -> unchecked_any_frame m f w -> unchecked_stop t m (w ++ rest) o -> False.
  Proof.
    intros Hb Hw H. apply unchecked_stop_now in H; [|exact Hb].
    destruct (unchecked_decoded (fl_rb t) t _ (fl_stream t) m (length (w ++ rest) + 2) (mkVec [] 0) (w ++ rest) f w rest Hw (conj eq_refl Hb) ltac:(lia)) as (b & st & E & _).
    rewrite E in H. destruct o; [discriminate H..|]. destruct H as [? H]. discriminate H.
  Qed.
  Lemma unchecked_frame_unique f w r f' w' r' : unchecked_any_frame m f w -> unchecked_any_frame m f' w' -> bytes_ok (w ++ r) ->
    w ++ r = w' ++ r' -> f = f' /\ w = w' /\ r = r'.
  Proof.
    intros H H' Hb E. pose proof Hb as Hb'. rewrite E in Hb'. apply bytes_app in Hb as [_ Hb]. apply bytes_app in Hb' as [_ Hb'].
    pose proof (uframe_complete t m f w r Hb H) as E1. rewrite E, (uframe_complete t m f' w' r' Hb' H') in E1.
    injection E1 as -> ->. split; [reflexivity|]. split; [|reflexivity]. exact (app_inv_tail _ _ _ E).
  Qed.
  Theorem unchecked_unique frames : forall l frames' o o', bytes_ok l -> unchecked_plays m t l frames o -> unchecked_plays m t l frames' o' ->
    frames = frames' /\ o = o'.
  Proof.
    induction frames as [|f frames IH]; intros l [|f' frames'] o o' Hb (ws & rest & E & HF & Hs) (ws' & rest' & E' & HF' & Hs').
    - inversion HF; inversion HF'; subst. cbn [concat app] in *. subst rest'. split; [reflexivity|]. exact (unchecked_stop_unique _ _ _ Hb Hs Hs').
    - exfalso. inversion HF as [|]; subst. inversion HF' as [|? w ? ws1 Hw HF1]; subst. cbn [concat app] in *. rewrite <- app_assoc in E'. subst rest.
      exact (unchecked_frame_or_stop f' w _ o Hb Hw Hs).
    - exfalso. inversion HF' as [|]; subst. inversion HF as [|? w ? ws1 Hw HF1]; subst. cbn [concat app] in *. subst rest'. rewrite <- app_assoc in *.
      exact (unchecked_frame_or_stop f w _ o' Hb Hw Hs').
    - inversion HF as [|? w ? ws1 Hw HF1]; subst. inversion HF' as [|? w' ? ws1' Hw' HF1']; subst. cbn [concat app] in *. rewrite <- !app_assoc in *.
      destruct (unchecked_frame_unique f w _ f' w' _ Hw Hw' Hb E') as (<- & <- & Er).
      apply bytes_app in Hb as [_ Hb].
      destruct (IH (concat ws1 ++ rest) frames' o o' Hb) as [-> ->]; [exists ws1, rest; auto|exists ws1', rest'; auto|auto].
  Qed.
End Unique.

(** * The size of what is played *)
Lemma unchecked_frame_dense m f w : unchecked_any_frame m f w -> bytes_ok w -> len (interleave (Z.to_nat (h_size (fst f))) (snd f)) <= 8 * 65535.
Proof.
  intros H Hb. rewrite <- (app_nil_r w) in Hb.
  destruct (unchecked_decoded (fl_rb TEof) TEof _ (fl_stream TEof) m (length (w ++ []) + 2) (mkVec [] 0) (w ++ []) f w [] H (conj eq_refl Hb) ltac:(lia)) as (b & st & _ & Hs & Hh & _).
  destruct Hs as (_ & Hd & _). destruct Hh as (Hc & Hn & Hl & _). unfold len in *. rewrite interleave_length. nia.
Qed.
Theorem unchecked_dense m t l frames o : bytes_ok l -> unchecked_plays m t l frames o -> len (pcm_of frames) <= 8 * 65535 * len l.
Proof.
  intros Hb (ws & rest & -> & HF & _). apply bytes_app in Hb as [Hb _].
  assert (len (pcm_of frames) <= 8 * 65535 * len (concat ws)) as H; [|unfold len in *; rewrite app_length; lia].
  induction HF as [|f w frames ws Hw HF IH]; [cbn; lia|]. cbn [pcm_of flat_map concat] in *. fold (pcm_of frames). apply bytes_app in Hb as [Hb Hb'].
  specialize (IH Hb'). pose proof (unchecked_frame_dense m f w Hw Hb) as Hd. pose proof (unchecked_frame_long m f w Hw) as Hl. unfold len in *. rewrite !app_length. lia.
Qed.

(** * Files and fuzzers *)
Section Files.
  Context (m : build) (un : nat -> list Z) (Hun : forall n, length (un n) = n) (fuel : nat).
  Notation cs t := (cap_stream 31 cap31 m t).

  Lemma opens_fz script t w rest si vc : delivers_in 31 t script (w ++ rest) -> (length (w ++ rest) < fuel)%nat ->
    well_formed si vc w -> exists r inp, flac_new_fz m un fuel script = Ok r
      /\ fr_get_streaminfo r = si /\ fr_vorbis_comment r = vc /\ fr_blocks r = Ok inp
      /\ fr_samples r = Ok (mkFs inp block_empty 0 0 false) /\ buffered_in 31 t inp rest.
  Proof.
    intros Hd Hf Hw.
    destruct (new_accepts (br_rb m) t (buffered_in 31 t) (cs t) m un Hun fuel (br_of 31 script) si vc w rest Hw (cap_new 31 cap31 t _ _ Hd) Hf) as (r & inp & E1 & E2 & E3 & E4 & HD).
    exists r, inp. split; [exact E1|]. destruct (iterators r inp E4) as [E5 _]. auto 8.
  Qed.
  Lemma fails_fz script t l : delivers_in 31 t script l -> (length l < fuel)%nat ->
    (exists si vc w rest, l = w ++ rest /\ well_formed si vc w) \/ (exists e, flac_new_fz m un fuel script = Err e).
  Proof.
    intros Hd Hf.
    pose proof (open_cases (br_rb m) t (buffered_in 31 t) (cs t) m un Hun fuel default_options _ l (cap_new 31 cap31 t _ l Hd) Hf) as H.
    unfold flac_new_fz, flac_new_ext_fz. change (br_of 31 ?x) with (br_new_fz x) in H.
    destruct (new_ext _ _ _ _ _ _) as [[r|e| | |] s]; cbn [fst] in *; try contradiction; [|eauto].
    left. destruct H as (w & rest & inp & E & Ho & _). eauto 6.
  Qed.

  Theorem unchecked_file_samples script t l si vc frames o : delivers_in 31 t script l -> (length l + 1 < fuel)%nat ->
    file_unchecked_plays m t l si vc frames o ->
    exists r it, flac_new_fz m un fuel script = Ok r /\ fr_get_streaminfo r = si /\ fr_vorbis_comment r = vc
      /\ fr_samples r = Ok it /\ sounds (fs_next_fz (br_rb m) m fuel) it (pcm_of frames) o.
  Proof.
    intros Hd Hf (w & rest & -> & Hw & Hp).
    destruct (opens_fz script t w rest si vc Hd ltac:(lia) Hw) as (r & inp & E & Es & Ev & _ & Ei & HD).
    exists r, (mkFs inp block_empty 0 0 false). repeat (split; [assumption|]). rewrite app_length in Hf.
    apply (unchecked_samples (br_rb m) t (buffered_in 31 t) (cs t) m fuel inp rest); auto; lia.
  Qed.
  Theorem unchecked_file_cases script t l : delivers_in 31 t script l -> bytes_ok l -> (length l + 1 < fuel)%nat ->
    (exists e, flac_new_fz m un fuel script = Err e)
    \/ (exists si vc frames o, file_unchecked_plays m t l si vc frames o).
  Proof.
    intros Hd Hb Hf. destruct (fails_fz script t l Hd ltac:(lia)) as [(si & vc & w & rest & El & Hw)|(e & E)]; [right|left; eauto].
    rewrite El in Hb. apply bytes_app in Hb as [_ Hb].
    destruct (unchecked_exist m t rest Hb) as (frames & o & Hp). exists si, vc, frames, o, w, rest. auto.
  Qed.

  Notation nx := (read_next_or_eof_fz (br_rb m) m fuel).
  Lemma first_next_fz data : bytes_ok data -> (length data + 1 < fuel)%nat ->
    (exists e, new_on_fz m un fuel data = Err e /\ ~ unchecked_overflows_first m data)
    \/ exists r inp, new_on_fz m un fuel data = Ok r /\ fr_blocks r = Ok inp /\
       ((unchecked_overflows_first m data /\ forall buffer, exists why, fst (nx buffer inp) = Panic why)
        \/ (~ unchecked_overflows_first m data /\ forall buffer, value_or_error (fst (nx buffer inp)))) .
  Proof.
    intros Hb Hf. unfold new_on_fz. set (script := slice_reads_fz _ data).
    pose proof (slice_delivers_fz data Hb (Datatypes.S (length data)) ltac:(lia)) as Hat. fold script in Hat. clearbody script.
    assert (forall si vc w p rest, data = w ++ p ++ rest -> well_formed si vc w -> unchecked_any_overflow m p ->
      exists r inp, flac_new_fz m un fuel script = Ok r /\ fr_blocks r = Ok inp
        /\ forall buffer, exists why, fst (nx buffer inp) = Panic why) as Hover.
    { intros si vc w p rest -> Hw Hp.
      destruct (opens_fz script TEof w (p ++ rest) si vc Hat ltac:(lia) Hw) as (r & inp & E & _ & _ & Ei & _ & HD).
      exists r, inp. split; [exact E|]. split; [exact Ei|]. intros buffer. rewrite !app_length in Hf.
      exact (unchecked_panics (br_rb m) TEof _ (cs TEof) m fuel buffer inp p rest Hp HD ltac:(rewrite app_length; lia)). }
    destruct (unchecked_file_cases script TEof data Hat Hb Hf) as [(e & E)|(si & vc & frames & o & w & rest & El & Hw & (ws & x & Er & HF & Hs))].
    - left. exists e. split; [exact E|]. intros (si & vc & w & p & rest & El & Hw & Hp).
      destruct (Hover si vc w p rest El Hw Hp) as (r & _ & E' & _). congruence.
    - right. rewrite El in Hat. destruct (opens_fz script TEof w rest si vc Hat ltac:(rewrite <- El; lia) Hw) as (r & inp & E & _ & _ & Ei & _ & HD).
      exists r, inp. split; [exact E|]. split; [exact Ei|].
      assert ((forall buffer, value_or_error (fst (nx buffer inp))) -> ~ unchecked_overflows_first m data) as Hno.
      { intros Hv (si' & vc' & w1 & p & rest1 & El1 & Hw1 & Hp1).
        destruct (Hover si' vc' w1 p rest1 El1 Hw1 Hp1) as (r' & inp' & E' & Ei' & HP).
        assert (inp' = inp) as -> by congruence. destruct (HP (mkVec [] 0)) as [why HP'].
        destruct (Hv (mkVec [] 0)) as [[a Hv']|[a Hv']]; congruence. }
      assert ((forall buffer, value_or_error (fst (nx buffer inp))) \/ frames = [] /\ x = rest /\ o = OnPanic) as [Hv|(-> & -> & ->)].
      { inversion HF as [|f w' fs' ws' Hw' HF']; subst.
        - cbn [concat app] in *.
          assert (forall buffer, ending_outcome o (fst (nx buffer inp))) as Ho.
          { intros buffer. apply (proj1 (unchecked_next (br_rb m) TEof _ (cs TEof) m fuel buffer inp x o Hs HD ltac:(rewrite app_length in Hf; lia) ltac:(lia))). }
          destruct o as [|e|]; [left; intros buffer; left; rewrite (Ho buffer); eauto|left; intros buffer; right; rewrite (Ho buffer); eauto|right; auto].
        - left. intros buffer. cbn [concat] in *. rewrite <- app_assoc in *. rewrite app_length in Hf.
          destruct (unchecked_decoded (br_rb m) TEof _ (cs TEof) m fuel buffer inp f w' _ Hw' HD ltac:(lia)) as (b & st & Eb & _).
          rewrite Eb. left. eexists. reflexivity. }
      + right. split; [exact (Hno Hv)|exact Hv].
      + left. split.
        * inversion Hs as [| |p rest1 Hp E1 E2|]; subst. exists si, vc, w, p, rest1. auto.
        * intros buffer. apply (proj1 (unchecked_next (br_rb m) TEof _ (cs TEof) m fuel buffer inp rest OnPanic Hs HD ltac:(rewrite El, app_length in Hf; lia) ltac:(lia))).
  Qed.

  Theorem fuzz_block_any_fz data : bytes_ok data -> (length data + 1 < fuel)%nat ->
    (unchecked_overflows_first m data -> exists why, fuzz_decode_single_block_fz m un fuel data = Panic why)
    /\ (~ unchecked_overflows_first m data -> fuzz_decode_single_block_fz m un fuel data = Ok tt).
  Proof.
    intros Hb Hf. unfold fuzz_decode_single_block_fz.
    destruct (first_next_fz data Hb Hf) as [(e & E & Hn)|(r & inp & E & Ei & [[Ho HP]|[Hn HV]])]; rewrite E; [|rewrite Ei; cbn [obind]..].
    - split; [intros H; destruct (Hn H)|reflexivity].
    - destruct (HP (mkVec [] 0)) as [why E']. rewrite E'. split; [intros _; exists why; reflexivity|intros H; destruct (H Ho)].
    - split; [intros H; destruct (Hn H)|]. intros _. destruct (HV (mkVec [] 0)) as [[a E']|[a E']]; rewrite E'; reflexivity.
  Qed.

  Theorem fuzz_diff_any_fz data : bytes_ok data -> (length data + 1 < fuel)%nat ->
    let overflows := exists d0 d1 data', data = d0 :: d1 :: data' /\ d0 <> d1 /\ unchecked_overflows_first m data' in
    (overflows -> exists why, fuzz_diff_fz m un fuel data = Panic why)
    /\ (~ overflows -> fuzz_diff_fz m un fuel data = Ok tt).
  Proof.
    intros Hb Hf. cbv zeta.
    assert (forall d0 d1 data', data = d0 :: d1 :: data' -> d0 <> d1 ->
      (unchecked_overflows_first m data' -> exists why, fuzz_diff_fz m un fuel data = Panic why)
      /\ (~ unchecked_overflows_first m data' -> fuzz_diff_fz m un fuel data = Ok tt)) as H.
    { intros d0 d1 data' -> Hd. cbn [length] in Hf.
      assert (bytes_ok data') as Hb' by (inversion Hb as [|? ? _ Hb1]; inversion Hb1; assumption).
      unfold fuzz_diff_fz. replace (d0 =? d1) with false by lia.
      destruct (first_next_fz data' Hb' ltac:(lia)) as [(e & E & Hn)|(r & inp & E & Ei & [[Ho HP]|[Hn HV]])]; rewrite E.
      - split; [intros H; destruct (Hn H)|reflexivity].
      - split; [|intros H; destruct (H Ho)]. intros _. unfold first_block_fz at 1. rewrite Ei. cbn [obind].
        destruct (HP (mkVec (repeat d0 (Z.to_nat (1024 * 8))) (1024 * 8))) as [why E']. rewrite E'. exists why. reflexivity.
      - split; [intros H; destruct (Hn H)|]. intros _.
        assert (exists rest, buffered_in 31 TEof inp rest /\ (length rest < fuel)%nat) as (rest & HD & Hr).
        { destruct (new_on_cases_fz m un Hun fuel data' Hb' ltac:(lia)) as [(e & E1)|(r1 & inp1 & w & rest & E1 & El & HD & Ei1 & _)]; [congruence|].
          exists rest. assert (inp1 = inp) as -> by congruence. split; [exact HD|]. subst data'. rewrite app_length in Hf. lia. }
        set (v0 := mkVec (repeat d0 _) _). set (v1 := mkVec (repeat d1 _) _).
        assert (exists o o', first_block_fz m fuel r v0 = Ok o /\ first_block_fz m fuel r v1 = Ok o' /\ same_result o o' = true) as (o & o' & E0 & E1 & Es).
        { unfold first_block_fz. rewrite Ei. cbn [obind].
          pose proof (frame_buffers_fz (br_rb m) TEof (buffered_in 31 TEof) (cs TEof) m fuel v0 v1 inp rest HD Hr) as Hbuf.
          destruct (HV v0) as [[[b|] Es]|[e Es]]; rewrite Es in Hbuf |- *.
          - destruct (fst (nx v1 inp)) as [[b'|]| | | |]; try discriminate Hbuf.
            destruct Hbuf as (_ & _ & _ & Hv). do 2 eexists. split; [reflexivity|]. split; [reflexivity|]. cbn [same_result].
            destruct (list_eq_dec Z.eq_dec _ _) as [|Hne]; [reflexivity|]. destruct (Hne Hv).
          - rewrite <- Hbuf. do 2 eexists. split; [reflexivity|]. split; reflexivity.
          - rewrite <- Hbuf. do 2 eexists. split; [reflexivity|]. split; reflexivity. }
        rewrite E0. cbn [obind]. destruct (match o with Some v => _ | None => _ end); [reflexivity|]. cbn [expect obind].
        rewrite E1. cbn [obind]. rewrite Es. reflexivity. }
    split.
    - intros (d0 & d1 & data' & El & Hd & Ho). exact (proj1 (H d0 d1 data' El Hd) Ho).
    - intros Hn. destruct data as [|d0 [|d1 data']]; try reflexivity. destruct (Z.eq_dec d0 d1) as [->|Hd].
      + unfold fuzz_diff_fz. rewrite Z.eqb_refl. reflexivity.
      + apply (H d0 d1 data' eq_refl Hd). intros Ho. apply Hn. eauto 6.
  Qed.

  Lemma fuzz_loop_any_fz o pcm : forall turns it, sounds (fs_next_fz (br_rb m) m fuel) it pcm o -> (length pcm < turns)%nat ->
    match o with OnPanic => exists why, fuzz_loop_fz m fuel turns it = Panic why | _ => fuzz_loop_fz m fuel turns it = Ok tt end.
  Proof.
    destruct o as [|e|].
    - intros turns it HY Ht. apply (fuzz_loop_ok_fz m un Hun fuel turns it pcm None); [rewrite app_nil_r; exact HY|exact Ht].
    - intros turns it HY Ht. apply (fuzz_loop_ok_fz m un Hun fuel turns it pcm (Some e)); [exact HY|exact Ht].
    - induction pcm as [|x pcm IH]; intros [|turns] it HY Ht; cbn [length] in Ht; try lia; destruct HY as [why HY]; cbn [fuzz_loop_fz map app length Nat.add] in *;
        rewrite nexts_S in HY; cbn [fst] in HY.
      + injection HY as HY. destruct (fs_next_fz (br_rb m) m fuel it) as [r it'] eqn:E. cbn [fst] in HY. subst r. exists why. reflexivity.
      + injection HY as HY HY'. destruct (fs_next_fz (br_rb m) m fuel it) as [r it'] eqn:E. cbn [fst snd] in *. subst r.
        apply IH; [exists why; exact HY'|lia].
  Qed.
  Theorem fuzz_full_any_fz turns data : bytes_ok data -> (length data + 1 < fuel)%nat -> 8 * 65535 * len data < Z.of_nat turns ->
    let panics := exists si vc frames, file_unchecked_plays m TEof data si vc frames OnPanic in
    (panics -> exists why, fuzz_decode_full_fz m un fuel turns data = Panic why)
    /\ (~ panics -> fuzz_decode_full_fz m un fuel turns data = Ok tt).
  Proof.
    intros Hb Hf Ht. cbv zeta. unfold fuzz_decode_full_fz, new_on_fz. set (script := slice_reads_fz _ data).
    pose proof (slice_delivers_fz data Hb (Datatypes.S (length data)) ltac:(lia)) as Hat. fold script in Hat. clearbody script.
    assert (forall si vc frames o, file_unchecked_plays m TEof data si vc frames o -> exists r it, flac_new_fz m un fuel script = Ok r /\ fr_samples r = Ok it
      /\ match o with OnPanic => exists why, fuzz_loop_fz m fuel turns it = Panic why | _ => fuzz_loop_fz m fuel turns it = Ok tt end) as H.
    { intros si vc frames o Hp. destruct (unchecked_file_samples script TEof data si vc frames o Hat Hf Hp) as (r & it & E & _ & _ & Ei & HY).
      exists r, it. repeat (split; [assumption|]). apply (fuzz_loop_any_fz o (pcm_of frames)); [exact HY|].
      destruct Hp as (w & rest & -> & _ & Hp). apply bytes_app in Hb as [_ Hb]. apply unchecked_dense in Hp; [|exact Hb].
      unfold len in *. rewrite app_length in Ht. lia. }
    split.
    - intros (si & vc & frames & Hp). destruct (H si vc frames OnPanic Hp) as (r & it & E & Ei & why & El). rewrite E, Ei. cbn [obind]. eauto.
    - intros Hn. destruct (unchecked_file_cases script TEof data Hat Hb Hf) as [(e & E)|(si & vc & frames & o & Hp)].
      + rewrite E. reflexivity.
      + destruct (H si vc frames o Hp) as (r & it & E & Ei & El). rewrite E, Ei. cbn [obind].
        destruct o; [exact El|exact El|]. destruct Hn. eauto.
  Qed.
End Files.

(** * The published configuration *)

(** It plays the same, but may stop earlier, with an error about a checksum. *)
Lemma checked_is_unchecked m f w : any_frame m f w -> unchecked_any_frame m f w.
Proof.
  destruct m; intros (hw & bps & bits & pad & body & crc & (front & c & Hh & Hc & ->) & Hw & Hch & Hb & Ebits & Hpad & Hcrc & ->);
    (exists (front ++ [c]), bps, bits, pad, body, (crc / 256), (crc mod 256);
     split; [exists front, c; split; [exact Hh|split; [destruct Hc; assumption|reflexivity]]|];
     do 5 (split; [assumption|]); assert (0 <= crc < 2 ^ 16) by (destruct Hcrc; assumption);
     split; [lia|]; split; [lia|]; reflexivity).
Qed.

Lemma published_stop m t l o : bytes_ok l -> any_stop t m l o -> (exists e, o = OnError e /\ checksum_error e) \/ unchecked_stop t m l o.
Proof.
  intros Hb H. apply any_stop_now in H; [|exact Hb].
  destruct (frames_differ (fl_rb t) m (length l + 2) (mkVec [] 0) l) as [(e & E & He)|E].
  - left. exists e. rewrite E in H. destruct o as [|e'|]; cbn in H; [discriminate H| |destruct H as [? H]; discriminate H].
    split; [congruence|exact He].
  - right. rewrite E in H.
    destruct (unchecked_case (fl_rb t) t _ (fl_stream t) m (length l + 2) (mkVec [] 0) l l (conj eq_refl Hb) ltac:(lia) ltac:(lia))
      as [(f & w & rest & st & -> & Hw & _)|[o' Ho]].
    + exfalso. destruct (unchecked_decoded (fl_rb t) t _ (fl_stream t) m (length (w ++ rest) + 2) (mkVec [] 0) (w ++ rest) f w rest Hw (conj eq_refl Hb) ltac:(lia)) as (b & st' & E' & _).
      rewrite E' in H. destruct o; [discriminate H..|]. destruct H as [? H]. discriminate H.
    + replace o with o'; [exact Ho|]. apply unchecked_stop_now in Ho; [|exact Hb].
      destruct o as [|e|]; [| |destruct H as [why H]]; (destruct o' as [|e'|]; [| |destruct Ho as [why' Ho]]); cbn in H, Ho; congruence.
Qed.
Theorem published_plays m t l frames o : bytes_ok l -> any_plays m t l frames o ->
  unchecked_plays m t l frames o
  \/ exists e more o', o = OnError e /\ checksum_error e /\ unchecked_plays m t l (frames ++ more) o'.
Proof.
  intros Hb (ws & rest & -> & HF & Hs). apply bytes_app in Hb as [_ Hb].
  assert (Forall2 (unchecked_any_frame m) frames ws) as HF'.
  { clear - HF. induction HF; constructor; [apply checked_is_unchecked|]; assumption. }
  destruct (published_stop m t rest o Hb Hs) as [(e & -> & He)|Hs'].
  - right. destruct (unchecked_exist m t rest Hb) as (more & o' & ws' & x & -> & HF2 & Hx).
    exists e, more, o'. split; [reflexivity|]. split; [exact He|]. exists (ws ++ ws'), x.
    rewrite concat_app, <- app_assoc. split; [reflexivity|]. split; [apply Forall2_app; assumption|exact Hx].
  - left. exists ws, rest. auto.
Qed.
