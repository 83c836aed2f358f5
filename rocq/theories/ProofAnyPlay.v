(** Playing any string of bytes: C85. *)
From Verif Require Export SpecAnyPlay ProofPrograms ProofLooseFault ProofUnique.
From Verif Require Import SpecReader.

Lemma any_frame_header m f w : any_frame m f w -> exists hw body, header_code (fst f) hw /\ w = hw ++ body.
Proof.
  destruct m; intros (hw & bps & bits & pad & body & crc & Hh & _ & _ & _ & _ & _ & _ & ->); eauto.
Qed.
Lemma any_frame_long m f w : any_frame m f w -> (1 <= length w)%nat.
Proof.
  intros H. apply any_frame_header in H as (hw & body & (front & c & _ & _ & ->) & ->). rewrite !app_length. cbn. lia.
Qed.

Section Play.
  Context {S : Type} (rb : ReadBytes S) (t : tail) (D : S -> list Z -> Prop) (HS : stream rb t D).
  Context (m : build) (fuel : nat).
  Notation next := (read_next_or_eof rb m fuel).

  Lemma any_decoded buffer st f w rest : any_frame m f w -> D st (w ++ rest) -> (length (w ++ rest) < fuel)%nat ->
    exists b st', next buffer st = (Ok (Some b), st') /\ block_shows b (fst f) (snd f) /\ block_holds b (snd f) /\ D st' rest.
  Proof.
    intros Hw HD Hf. destruct (any_frame_header m f w Hw) as (hw & body & Hh & _).
    assert (exists b st', next buffer st = (Ok (Some b), st') /\ block_shows b (fst f) (snd f) /\ D st' rest) as (b & st' & E & Hb & HD').
    { destruct m; [exact (frame_decoded rb t D HS Debug fuel buffer st _ _ w rest Hw HD Hf)|exact (loose_decoded rb t D HS fuel buffer st _ _ w rest Hw HD Hf)]. }
    exists b, st'. repeat (split; [assumption|]). split; [exact (shows_holds b _ _ hw Hh Hb)|exact HD'].
  Qed.

  Definition ending_outcome (o : ending) (r : outcome (option block)) : Prop :=
    match o with AtEnd => r = Ok None | OnError e => r = Err e | OnPanic => exists w, r = Panic w end.

  Lemma any_next buffer s rest o : any_stop t m rest o -> D s rest -> (length rest < fuel)%nat -> (1 < fuel)%nat ->
    ending_outcome o (fst (next buffer s)).
  Proof.
    intros Hs HD Hf H1. destruct Hs as [m l Ht Hl|e w rest Hw|p rest Hp|l Hi Hn Hl|e w rest Hw|l Hi Hl]; cbn.
    - destruct (frame_ends rb t D HS m fuel buffer s l Ht Hl H1 HD) as (s' & -> & _). reflexivity.
    - destruct (next_reports rb t D HS Debug fuel buffer s e w rest Hw HD Hf) as (s' & -> & _). reflexivity.
    - exact (overflow_panics rb t D HS fuel buffer s p rest Hp HD Hf).
    - pose proof (debug_cases rb t D HS fuel buffer s l HD Hf H1) as H. cbv zeta in H.
      destruct H as [(h & chs & w & rest & b & -> & Hw & _)|[(e & w & rest & -> & Hw & _)|[(Ht & Hl' & _)|[(p & rest & why & -> & Hp & _)|(_ & _ & E)]]]].
      + destruct (proj1 (Hi w rest eq_refl) h chs Hw).
      + destruct (proj2 (Hi w rest eq_refl) e Hw).
      + specialize (Hl Ht). lia.
      + destruct (Hn p rest eq_refl Hp).
      + exact E.
    - destruct (loose_reported rb t D HS fuel buffer s e w rest Hw HD Hf) as (s' & -> & _). reflexivity.
    - pose proof (release_cases rb t D HS fuel buffer s l HD Hf H1) as H. cbv zeta in H.
      destruct H as [(h & chs & w & rest & b & -> & Hw & _)|[(e & w & rest & -> & Hw & _)|[(Ht & Hl' & _)|(_ & E)]]].
      + destruct (proj1 (Hi w rest eq_refl) h chs Hw).
      + destruct (proj2 (Hi w rest eq_refl) e Hw).
      + specialize (Hl Ht). lia.
      + exact E.
  Qed.

  Lemma any_blocks frames ws : Forall2 (any_frame m) frames ws ->
    forall buffer s rest o, any_stop t m rest o -> D s (concat ws ++ rest) ->
    (length (concat ws ++ rest) < fuel)%nat -> (1 < fuel)%nat ->
    exists bs r s', blocks_read rb m fuel buffer s bs r s' /\ ending_outcome o r
      /\ Forall2 (fun b f => block_shows b (fst f) (snd f) /\ block_holds b (snd f)) bs frames.
  Proof.
    intros HF. induction HF as [|f w frames ws Hw HF IH]; intros buffer s rest o Hs HD Hf H1.
    - cbn [concat app] in *. pose proof (any_next buffer s rest o Hs HD Hf H1) as E.
      destruct (next buffer s) as [r s'] eqn:En. cbn [fst] in E. exists [], r, s'. split; [|split; [exact E|constructor]].
      apply read_last; [exact En|]. intros b ->. destruct o; cbn in E; try discriminate E. destruct E as [? E]. discriminate E.
    - cbn [concat] in *. rewrite <- app_assoc in *.
      destruct (any_decoded buffer s f w _ Hw HD Hf) as (b & s1 & E & Hb & Hh & HD').
      destruct (IH (block_into_buffer b) s1 rest o Hs HD' ltac:(rewrite app_length in Hf; lia) H1) as (bs & r & s' & HR & Hr & HB).
      exists (b :: bs), r, s'. split; [eapply read_one; eassumption|]. split; [exact Hr|]. constructor; [|exact HB]. auto.
  Qed.

  Theorem any_samples s l frames o : any_plays m t l frames o -> D s l -> (length l < fuel)%nat -> (1 < fuel)%nat ->
    sounds (fs_next rb m fuel) (mkFs s block_empty 0 0 false) (pcm_of frames) o.
  Proof.
    intros (ws & rest & -> & HF & Hs) HD Hf H1.
    destruct (any_blocks frames ws HF (mkVec [] 0) s rest o Hs HD Hf H1) as (bs & r & s' & HR & Hr & HB).
    destruct (samples_yield rb t D HS m fuel s _ HD Hf H1 bs _ s' HR) as (ls & HI & HY).
    rewrite (blocks_pcm bs ls frames HI HB) in HY. destruct o; cbn in Hr.
    - rewrite Hr in HY. exact HY.
    - rewrite Hr in HY. exact (proj1 HY).
    - destruct Hr as [why ->]. exists why. exact HY.
  Qed.

  Lemma any_case (buffer : vec) s l : D s l -> (length l < fuel)%nat -> (1 < fuel)%nat ->
    (exists f w rest st', l = w ++ rest /\ any_frame m f w /\ D st' rest) \/ exists o, any_stop t m l o.
  Proof.
    intros HD Hf H1. destruct m.
    - pose proof (debug_cases rb t D HS fuel buffer s l HD Hf H1) as H. cbv zeta in H.
      destruct H as [(h & chs & w & rest & b & El & Hw & _ & _ & HD')|[(e & w & rest & -> & Hw & _)|[(Ht & Hl' & _)|[(p & rest & why & -> & Hp & _)|(Hi & Hn & E)]]]].
      + left. exists (h, chs), w, rest. eauto.
      + right. eexists. apply any_fault, Hw.
      + right. eexists. apply any_end; assumption.
      + right. eexists. apply any_overflow, Hp.
      + right. eexists. apply any_source; [assumption..|]. intros Ht. destruct (le_lt_dec (length l) 1) as [Hs|Hs]; [|lia].
        destruct (frame_ends rb t D HS Debug fuel buffer s l Ht Hs H1 HD) as (s' & E' & _). rewrite E' in E. discriminate E.
    - pose proof (release_cases rb t D HS fuel buffer s l HD Hf H1) as H. cbv zeta in H.
      destruct H as [(h & chs & w & rest & b & El & Hw & _ & _ & HD')|[(e & w & rest & -> & Hw & _)|[(Ht & Hl' & _)|(Hi & E)]]].
      + left. exists (h, chs), w, rest. eauto.
      + right. eexists. apply any_loose_fault, Hw.
      + right. eexists. apply any_end; assumption.
      + right. eexists. apply any_loose_source; [assumption..|]. intros Ht. destruct (le_lt_dec (length l) 1) as [Hs|Hs]; [|lia].
        destruct (frame_ends rb t D HS Release fuel buffer s l Ht Hs H1 HD) as (s' & E' & _). rewrite E' in E. discriminate E.
  Qed.
  Lemma any_exist_from n : forall l st, (length l <= n)%nat -> D st l -> (length l < fuel)%nat -> (1 < fuel)%nat ->
    exists frames o, any_plays m t l frames o.
  Proof.
    induction n as [|n IH]; intros l st Hn HD Hf H1;
      (destruct (any_case (mkVec [] 0) st l HD Hf H1) as [(f & w & rest & st' & El & Hw & HD')|[o Ho]];
       [|exists [], o, [], l; repeat split; [constructor|exact Ho]]);
      pose proof (any_frame_long m f w Hw) as Hlong; subst l; rewrite app_length in *; [lia|].
    destruct (IH rest st') as (frames & o & ws & x & -> & HF & Hs); auto; try lia.
    exists (f :: frames), o, (w :: ws), x. cbn [concat]. rewrite app_assoc. repeat split; auto.
  Qed.
End Play.

Theorem any_exist m t l : bytes_ok l -> exists frames o, any_plays m t l frames o.
Proof.
  intros Hb. apply (any_exist_from (fl_rb t) t _ (fl_stream t) m (length l + 2) (length l) l l); auto; try lia.
Qed.

Lemma header_assignment_few a : assignment_ok a -> channel_count a <= 8.
Proof. destruct a; cbn; lia. Qed.

(** The frames and the end are determined. *)
Section Unique.
  Context (m : build) (t : tail).
  Lemma any_stop_now l o : bytes_ok l -> any_stop t m l o ->
    ending_outcome o (fst (read_next_or_eof (fl_rb t) m (length l + 2) (mkVec [] 0) l)).
  Proof.
    intros Hb H. exact (any_next (fl_rb t) t _ (fl_stream t) m (length l + 2) (mkVec [] 0) l l o H (conj eq_refl Hb) ltac:(lia) ltac:(lia)).
  Qed.
  Lemma any_stop_unique l o o' : bytes_ok l -> any_stop t m l o -> any_stop t m l o' -> o = o'.
  Proof.
    intros Hb H H'. apply any_stop_now in H, H'; try exact Hb. revert H H'.
    generalize (fst (read_next_or_eof (fl_rb t) m (length l + 2) (mkVec [] 0) l)). intros r H H'.
    destruct o as [|e|]; [| |destruct H as [why H]]; (destruct o' as [|e'|]; [| |destruct H' as [why' H']]); cbn in H, H'; congruence.
  Qed.
  Lemma any_frame_or_stop f w rest o : bytes_ok (w ++ rest) -> any_frame m f w -> any_stop t m (w ++ rest) o -> False.
  Proof.
    intros Hb Hw H. apply any_stop_now in H; [|exact Hb].
    destruct (any_decoded (fl_rb t) t _ (fl_stream t) m (length (w ++ rest) + 2) (mkVec [] 0) (w ++ rest) f w rest Hw (conj eq_refl Hb) ltac:(lia)) as (b & st & E & _).
    rewrite E in H. destruct o; [discriminate H..|]. destruct H as [? H]. discriminate H.
  Qed.
  Lemma any_frame_unique f w r f' w' r' : any_frame m f w -> any_frame m f' w' -> bytes_ok (w ++ r) ->
    w ++ r = w' ++ r' -> f = f' /\ w = w' /\ r = r'.
  Proof.
    intros H H' Hb E. destruct f as [h chs], f' as [h' chs'].
    assert ((h, chs) = (h', chs') /\ r = r') as [Ef Er].
    { destruct m; cbn [any_frame fst snd] in H, H'.
      - destruct (frame_unique h chs w r h' chs' w' r' H H' Hb E) as (-> & -> & -> & ->). auto.
      - pose proof Hb as Hb'. rewrite E in Hb'. apply bytes_app in Hb as [_ Hb]. apply bytes_app in Hb' as [_ Hb'].
        pose proof (lframe_complete TEof h chs w r Hb H) as E1. rewrite E, (lframe_complete TEof h' chs' w' r' Hb' H') in E1.
        injection E1 as -> -> ->. auto. }
    subst r'. split; [exact Ef|]. split; [|reflexivity]. exact (app_inv_tail _ _ _ E).
  Qed.
  Theorem any_unique frames : forall l frames' o o', bytes_ok l -> any_plays m t l frames o -> any_plays m t l frames' o' ->
    frames = frames' /\ o = o'.
  Proof.
    induction frames as [|f frames IH]; intros l [|f' frames'] o o' Hb (ws & rest & E & HF & Hs) (ws' & rest' & E' & HF' & Hs').
    - inversion HF; inversion HF'; subst. cbn [concat app] in *. subst rest'. split; [reflexivity|]. exact (any_stop_unique _ _ _ Hb Hs Hs').
    - exfalso. inversion HF as [|]; subst. inversion HF' as [|? w ? ws1 Hw HF1]; subst. cbn [concat app] in *. rewrite <- app_assoc in E'. subst rest.
      exact (any_frame_or_stop f' w _ o Hb Hw Hs).
    - exfalso. inversion HF' as [|]; subst. inversion HF as [|? w ? ws1 Hw HF1]; subst. cbn [concat app] in *. subst rest'. rewrite <- app_assoc in *.
      exact (any_frame_or_stop f w _ o' Hb Hw Hs').
    - inversion HF as [|? w ? ws1 Hw HF1]; subst. inversion HF' as [|? w' ? ws1' Hw' HF1']; subst. cbn [concat app] in *. rewrite <- !app_assoc in *.
      destruct (any_frame_unique f w _ f' w' _ Hw Hw' Hb E') as (<- & <- & Er).
      apply bytes_app in Hb as [_ Hb].
      destruct (IH (concat ws1 ++ rest) frames' o o' Hb) as [-> ->]; [exists ws1, rest; auto|exists ws1', rest'; auto|auto].
  Qed.
End Unique.

(** Without long runs of zeros there is nothing new. *)
Lemma usual_stop m t l o : bytes_ok l -> no_zero_run (2 ^ 32 - 1) (bytes_bits l) -> stop t l o -> any_stop t m l (ending_of o).
Proof.
  intros Hb Hz Hs.
  destruct (any_case (fl_rb t) t _ (fl_stream t) m (length l + 2) (mkVec [] 0) l l (conj eq_refl Hb) ltac:(lia) ltac:(lia))
    as [(f & w & rest & st & -> & Hw & _)|[o' Ho]].
  - exfalso. assert (frame_code (fst f) (snd f) w) as Hw'.
    { destruct m; [exact Hw|]. destruct (loose_cases _ _ _ Hw) as [H|H]; [exact H|]. destruct H.
      rewrite bytes_bits_app in Hz. intros p q E. apply (Hz p (q ++ bytes_bits rest)).
      rewrite E, <- !app_assoc. reflexivity. }
    exact (stop_frame t _ _ w rest o Hb Hw' Hs).
  - replace (ending_of o) with o'; [exact Ho|]. pose proof (any_stop_now m t l o' Hb Ho) as E.
    destruct (stop_next (fl_rb t) t _ (fl_stream t) m (length l + 2) (mkVec [] 0) l l o (or_intror Hz) Hs (conj eq_refl Hb) ltac:(lia) ltac:(lia)) as (s & E').
    rewrite E' in E. cbn [fst] in E. destruct o as [e|], o' as [|e'|]; cbn in E |- *; try congruence; destruct E as [? E]; congruence.
Qed.
Lemma plays_any m t l frames o : bytes_ok l -> no_zero_run (2 ^ 32 - 1) (bytes_bits l) -> plays t l frames o ->
  any_plays m t l frames (ending_of o).
Proof.
  intros Hb Hz (ws & rest & -> & HF & Hs). exists ws, rest. split; [reflexivity|]. split.
  - clear - HF. induction HF as [|f w frames ws Hw HF IH]; constructor; [|exact IH].
    destruct m; [exact Hw|]. apply frame_is_loose, Hw.
  - apply usual_stop; [apply bytes_app in Hb; tauto| |exact Hs]. rewrite bytes_bits_app in Hz. eapply no_zero_run_suffix, Hz.
Qed.
Theorem any_usual m t l frames e : bytes_ok l -> no_zero_bytes (2 ^ 29 - 1) l ->
  any_plays m t l frames e <-> exists o, e = ending_of o /\ plays t l frames o.
Proof.
  intros Hb Hz. pose proof (no_zero_bits l Hb Hz) as Hz'. split.
  - intros H. destruct (plays_exist t l Hb Hz) as (frames' & o & Hp). exists o.
    destruct (any_unique m t frames l frames' e (ending_of o) Hb H (plays_any m t l frames' o Hb Hz' Hp)) as [-> ->]. auto.
  - intros (o & -> & Hp). exact (plays_any m t l frames o Hb Hz' Hp).
Qed.

(** * The size of what is played *)

Lemma any_frame_dense m f w : any_frame m f w -> bytes_ok w -> len (interleave (Z.to_nat (h_size (fst f))) (snd f)) <= 8 * 65535.
Proof.
  intros H Hb. rewrite <- (app_nil_r w) in Hb.
  destruct (any_decoded (fl_rb TEof) TEof _ (fl_stream TEof) m (length (w ++ []) + 2) (mkVec [] 0) (w ++ []) f w [] H (conj eq_refl Hb) ltac:(lia)) as (b & st & _ & Hs & Hh & _).
  destruct Hs as (_ & Hd & _). destruct Hh as (Hc & Hn & Hl & _). unfold len in *. rewrite interleave_length. nia.
Qed.
Theorem any_dense m t l frames o : bytes_ok l -> any_plays m t l frames o -> len (pcm_of frames) <= 8 * 65535 * len l.
Proof.
  intros Hb (ws & rest & -> & HF & _). apply bytes_app in Hb as [Hb _].
  assert (len (pcm_of frames) <= 8 * 65535 * len (concat ws)) as H; [|unfold len in *; rewrite app_length; lia].
  induction HF as [|f w frames ws Hw HF IH]; [cbn; lia|]. cbn [pcm_of flat_map concat] in *. fold (pcm_of frames). apply bytes_app in Hb as [Hb Hb'].
  specialize (IH Hb'). pose proof (any_frame_dense m f w Hw Hb) as Hd. pose proof (any_frame_long m f w Hw) as Hl. unfold len in *. rewrite !app_length. lia.
Qed.

(** * Files *)
Section Files.
  Context (m : build) (un : nat -> list Z) (Hun : forall n, length (un n) = n) (fuel : nat).

  Theorem any_file_samples fs path t l si vc frames o : file_at fs path t l -> (length l + 1 < fuel)%nat ->
    file_any_plays m t l si vc frames o ->
    exists r it, flac_open m un fuel fs path = Ok r /\ fr_get_streaminfo r = si /\ fr_vorbis_comment r = vc
      /\ fr_samples r = Ok it /\ sounds (fs_next (br_rb m) m fuel) it (pcm_of frames) o.
  Proof.
    intros Hat Hf (w & rest & -> & Hw & Hp).
    destruct (path_opens m un Hun fuel fs path t w rest si vc Hat ltac:(lia) Hw) as (r & inp & E & Es & Ev & _ & Ei & HD).
    exists r, (mkFs inp block_empty 0 0 false). repeat (split; [assumption|]). rewrite app_length in Hf.
    apply (any_samples (br_rb m) t (buffered t) (br_stream m t) m fuel inp rest); auto; lia.
  Qed.
  Theorem any_file_cases fs path t l : file_at fs path t l -> (length l + 1 < fuel)%nat ->
    (exists e, file_unopened t l e /\ flac_open m un fuel fs path = Err e)
    \/ (exists si vc frames o, file_any_plays m t l si vc frames o).
  Proof.
    intros Hat Hf. destruct (path_fails m un Hun fuel fs path t l Hat ltac:(lia)) as [(si & vc & w & rest & El & Hw)|(e & E & Hu)]; [right|left; eauto].
    pose proof (file_delivers _ _ _ _ Hat) as Hb. rewrite El in Hb. apply bytes_app in Hb as [_ Hb].
    destruct (any_exist m t rest Hb) as (frames & o & Hp). exists si, vc, frames, o, w, rest. auto.
  Qed.

  Lemma any_simple_loop {S} (rb : ReadBytes S) o spec pcm : forall turns it acc,
    sounds (fs_next rb m fuel) it pcm o -> (length pcm < turns)%nat ->
    exists r, simple_loop m fuel rb turns it (Some (spec, acc)) = (r, Some (spec, acc ++ pcm)) /\ ends o r.
  Proof.
    destruct o as [|e|].
    - intros turns it acc HY Ht. eexists. split; [|reflexivity]. apply (simple_loop_plays m un Hun fuel rb None); [|exact Ht]. rewrite app_nil_r. exact HY.
    - intros turns it acc HY Ht. eexists. split; [|reflexivity]. apply (simple_loop_plays m un Hun fuel rb (Some e)); [|exact Ht]. exact HY.
    - induction pcm as [|x pcm IH]; intros [|turns] it acc HY Ht; cbn [length] in Ht; try lia; destruct HY as [why HY]; cbn [simple_loop map app length Nat.add] in *.
      + rewrite nexts_S in HY. cbn [fst] in HY. injection HY as HY. destruct (fs_next rb m fuel it) as [r it'] eqn:E. cbn [fst] in HY. subst r.
        exists (Panic why). rewrite app_nil_r. split; [|exists why; reflexivity]. unfold bind, call_on. rewrite E. reflexivity.
      + rewrite nexts_S in HY. cbn [fst] in HY. injection HY as HY HY'. destruct (fs_next rb m fuel it) as [r it'] eqn:E. cbn [fst snd] in *. subst r.
        destruct (IH turns it' (acc ++ [x])) as (r & Er & Hr); [exists why; exact HY'|lia|].
        exists r. split; [|exact Hr]. unfold bind at 1. unfold call_on. rewrite E. cbn. rewrite Er, <- app_assoc. reflexivity.
  Qed.
  Theorem any_simple turns fs path t l si vc frames o : file_at fs path t l -> (length l + 1 < fuel)%nat ->
    (length (pcm_of frames) < turns)%nat -> file_any_plays m t l si vc frames o ->
    exists r, decode_simple m un fuel turns fs path None = (r, audio si (pcm_of frames)) /\ ends o r.
  Proof.
    intros Hat Hf Ht Hp. destruct (any_file_samples fs path t l si vc frames o Hat Hf Hp) as (r & it & E & Es & _ & Ei & HY).
    unfold decode_simple, bind, lift. rewrite E, Es. cbn. rewrite Ei.
    destruct (any_simple_loop (br_rb m) o (spec_of si) (pcm_of frames) turns it [] HY Ht) as (r' & Er & Hr).
    exists r'. split; [|exact Hr]. rewrite Er. cbn [app]. f_equal. apply audio_spec. destruct Hp as (w & rest & _ & Hw & _). eapply info_spec, Hw.
  Qed.
  Theorem any_simple_cases turns fs path t l : file_at fs path t l -> (length l + 1 < fuel)%nat ->
    8 * 65535 * len l < Z.of_nat turns ->
    (exists e, file_unopened t l e /\ decode_simple m un fuel turns fs path None = (Err e, None))
    \/ (exists si vc frames o r, file_any_plays m t l si vc frames o
        /\ decode_simple m un fuel turns fs path None = (r, audio si (pcm_of frames)) /\ ends o r).
  Proof.
    intros Hat Hf Ht. destruct (any_file_cases fs path t l Hat Hf) as [(e & Hu & E)|(si & vc & frames & o & Hp)].
    - left. exists e. split; [exact Hu|]. unfold decode_simple, bind, lift. rewrite E. reflexivity.
    - right. exists si, vc, frames, o. destruct (any_simple turns fs path t l si vc frames o Hat Hf) as (r & Er & Hr); [|exact Hp|eauto].
      destruct Hp as (w & rest & -> & _ & Hp). pose proof (file_delivers _ _ _ _ Hat) as Hb. apply bytes_app in Hb as [_ Hb].
      apply any_dense in Hp; [|exact Hb]. unfold len in *. rewrite app_length in Ht. lia.
  Qed.
End Files.

Section Stereo.
  Context (m : build) (un : nat -> list Z) (Hun : forall n, length (un n) = n) (fuel : nat).

  Lemma any_decode_loop {S} (rb : ReadBytes S) t D (HS : stream rb t D) spec bad o rest wsb :
    any_stop t m rest o ->
    Forall2 (any_frame m) bad wsb -> (forall f bad', bad = f :: bad' -> ~ stereo_frame f) -> (1 < fuel)%nat ->
    forall good ws, Forall2 (any_frame m) good ws -> Forall stereo_frame good ->
    forall turns b s acc, D s (concat ws ++ concat wsb ++ rest) -> (length (concat ws ++ concat wsb ++ rest) < fuel)%nat ->
    (length good < turns)%nat ->
    exists r, decode_loop m fuel rb turns b s (Some (spec, acc)) = (r, Some (spec, acc ++ pcm_of good)) /\ any_stereo_outcome bad o r.
  Proof.
    intros Hs HB Hbad H1 good ws HF. induction HF as [|f w good ws Hw HF IH]; intros Hst [|turns] b s acc HD Hf Ht;
      cbn [length] in Ht; try lia; cbn [decode_loop concat app pcm_of flat_map] in *.
    - rewrite app_nil_r. destruct bad as [|f bad].
      + inversion HB; subst. cbn [concat app] in *. pose proof (any_next rb t D HS m fuel (block_into_buffer b) s rest o Hs HD Hf H1) as E.
        unfold bind, call_on, catch. destruct (read_next_or_eof rb m fuel (block_into_buffer b) s) as [r s']. cbn [fst] in E.
        destruct o as [|e|]; [| |destruct E as [why E]]; cbn in E; subst r; cbn; eexists; (split; [reflexivity|cbn; eauto]).
      + inversion HB as [|? w ? wsb' Hw HB']; subst. cbn [concat] in *. rewrite <- app_assoc in *.
        destruct (any_decoded rb t D HS m fuel (block_into_buffer b) s f w _ Hw HD Hf) as (b' & s1 & E & Hb & Hh & HD').
        unfold bind, call_on, catch. rewrite E. unfold lift.
        assert (1 <= block_duration b' <= 65535) as Hd by apply Hh. rewrite chk_u32 by lia.
        destruct (no_stereo b') as (why & Ew).
        { destruct Hb as (_ & _ & -> & _). intros Ec. apply (Hbad _ _ eq_refl). exact Ec. }
        rewrite Ew. eexists. split; [reflexivity|]. cbn. eauto.
    - inversion Hst as [|? ? Hst1 Hst']; subst. rewrite <- app_assoc in *. destruct f as [h chs].
      destruct (any_decoded rb t D HS m fuel (block_into_buffer b) s (h, chs) w _ Hw HD Hf) as (b' & s1 & E & Hb & Hh & HD'). cbn [fst snd] in *.
      unfold bind at 1. unfold call_on, catch. rewrite E.
      assert (1 <= block_duration b' <= 65535) as Hd by apply Hh.
      destruct (stereo_block b' h chs Hb Hh Hst1) as (st & ps & Est & HY & Hl & Hps).
      unfold bind at 1. unfold lift at 1. rewrite chk_u32 by lia.
      unfold bind at 1. rewrite Est. unfold lift at 1. unfold bind at 1.
      rewrite (pairs_unchecked m un Hun fuel spec ps _ st _ acc (HY m)) by (unfold len in *; lia).
      replace (block_duration b' * 2 - 2 * len ps) with 0 by lia. cbn [Z.eqb]. unfold bind at 1, ret at 1.
      destruct (IH Hst' turns b' s1 (acc ++ flat_pairs ps) HD' ltac:(rewrite app_length in Hf; lia) ltac:(lia)) as (r & Er & Hr).
      exists r. rewrite Er, Hps, <- app_assoc. auto.
  Qed.

  Theorem any_stereo turns fs path t l si vc good bad o : file_at fs path t l -> (length l + 1 < fuel)%nat ->
    (length good < turns)%nat -> file_any_plays m t l si vc (good ++ bad) o -> si_bits_per_sample si = 16 -> si_channels si = 2 ->
    Forall stereo_frame good -> (forall f bad', bad = f :: bad' -> ~ stereo_frame f) ->
    exists r, decode_stereo m un fuel turns fs path None = (r, audio si (pcm_of good)) /\ any_stereo_outcome bad o r.
  Proof.
    intros Hat Hf Ht (w & rest & -> & Hw & (ws & x & -> & HF & Hs)) Hbps Hch Hgood Hbad.
    destruct (path_opens m un Hun fuel fs path t w _ si vc Hat ltac:(lia) Hw) as (r & inp & E & Es & _ & Ei & _ & HD).
    unfold decode_stereo, bind at 1, lift. rewrite E. cbn [expect]. rewrite Es, Hbps, Hch. cbn [Z.eqb negb andb Pos.eqb].
    unfold bind at 1. cbn [wav_create put]. unfold bind at 1. rewrite Ei.
    apply Forall2_app_inv_l in HF as (wsg & wsb & HFg & HFb & ->). rewrite concat_app, <- app_assoc in *.
    rewrite <- (audio_spec si (info_spec _ _ _ Hw)). rewrite !app_length in Hf.
    destruct (any_decode_loop (br_rb m) t (buffered t) (br_stream m t) (spec_of si) bad o x wsb) with (good := good) (ws := wsg) (turns := turns) (b := block_empty) (s := inp) (acc := @nil Z) as (r' & Er & Hr);
      rewrite ?app_length; auto; try lia.
    exists r'. auto.
  Qed.
  Theorem any_stereo_cases turns fs path t l : file_at fs path t l -> (length l + 1 < fuel)%nat -> (length l < turns)%nat ->
    (exists e why, file_unopened t l e /\ decode_stereo m un fuel turns fs path None = (Panic why, None))
    \/ (exists si vc frames o, file_any_plays m t l si vc frames o
        /\ ((si_bits_per_sample si <> 16 \/ si_channels si <> 2)
            /\ (exists why, decode_stereo m un fuel turns fs path None = (Panic why, None))
            \/ si_bits_per_sample si = 16 /\ si_channels si = 2 /\ exists good bad r, frames = good ++ bad /\ Forall stereo_frame good
              /\ (forall f bad', bad = f :: bad' -> ~ stereo_frame f)
              /\ decode_stereo m un fuel turns fs path None = (r, audio si (pcm_of good)) /\ any_stereo_outcome bad o r)).
  Proof.
    intros Hat Hf Ht. destruct (any_file_cases m un Hun fuel fs path t l Hat Hf) as [(e & Hu & E)|(si & vc & frames & o & Hp)].
    { left. exists e. unfold decode_stereo, bind, lift. rewrite E. cbn. eauto. }
    right. exists si, vc, frames, o. split; [exact Hp|].
    destruct (Z.eq_dec (si_bits_per_sample si) 16) as [Hbps|Hbps]; [destruct (Z.eq_dec (si_channels si) 2) as [Hch|Hch]|].
    - right. split; [exact Hbps|]. split; [exact Hch|]. destruct (ProofPrograms.stereo_split frames) as (good & bad & -> & Hg & Hbad). exists good, bad.
      destruct (any_stereo turns fs path t l si vc good bad o Hat Hf) as (r & Er & Hr); auto; [|exists r; auto].
      destruct Hp as (w & rest & -> & _ & ws & x & -> & HF & _). rewrite !app_length in Ht.
      apply Forall2_app_inv_l in HF as (wsg & wsb & HFg & HFb & ->). rewrite concat_app, app_length in Ht.
      enough (length good <= length (concat wsg))%nat by lia. clear - HFg.
      induction HFg as [|f w good ws Hw HF IH]; [cbn; lia|]. cbn [concat length]. rewrite app_length. apply any_frame_long in Hw. lia.
    - left. split; [auto|]. destruct Hp as (w & rest & -> & Hw & _).
      destruct (path_opens m un Hun fuel fs path t w _ si vc Hat ltac:(lia) Hw) as (r & inp & E & Es & _).
      unfold decode_stereo, bind at 1, lift. rewrite E. cbn [expect]. rewrite Es.
      replace (si_channels si =? 2) with false by lia. rewrite andb_false_r. cbn [negb]. eauto 6.
    - left. split; [auto|]. destruct Hp as (w & rest & -> & Hw & _).
      destruct (path_opens m un Hun fuel fs path t w _ si vc Hat ltac:(lia) Hw) as (r & inp & E & Es & _).
      unfold decode_stereo, bind at 1, lift. rewrite E. cbn [expect]. rewrite Es.
      replace (si_bits_per_sample si =? 16) with false by lia. cbn [negb andb]. eauto 6.
  Qed.
End Stereo.

(** There are files that play a frame and then panic. *)
Lemma delivers_singly t r : delivers t r [] -> forall l, bytes_ok l -> delivers t (map (fun b => EvData [b]) l ++ r) l.
Proof.
  intros Hr. induction l as [|b l IH]; intros Hb; [exact Hr|]. inversion Hb as [|? ? Hb1 Hb2]; subst. cbn [map app].
  change (b :: l) with ([b] ++ l). apply delivers_chunk; [|exact (IH Hb2)].
  split; [constructor; [exact Hb1|constructor]|]. unfold len; cbn; lia.
Qed.
Lemma panicking_file n si vc frames w ws : Z.of_nat n = 2 ^ 29 -> well_formed si vc w -> bytes_ok w ->
  Forall2 (any_frame Debug) frames ws -> bytes_ok (concat ws) ->
  exists fs path l, file_at fs path TEof l /\ file_any_plays Debug TEof l si vc frames OnPanic.
Proof.
  intros Hn Hw Hb HF Hbs.
  pose proof (cursor_start (huge n []) (huge_bytes n [] (Forall_nil _))
                ltac:(rewrite (huge_len n Hn); unfold len; cbn [length]; lia)) as HD.
  destruct (panics_overflow _ _ _ (cu_stream Debug) (Datatypes.S (length (huge n []))) (mkVec [] 0) _ _ HD
              (Nat.lt_succ_diag_r _)) as [Hv|(p & rest & Ep & Hp)].
  { destruct (huge_cursor_panics n Hn (Datatypes.S (length (huge n []))) (mkVec [] 0) (Nat.lt_succ_diag_r _)) as (why & E).
    rewrite E in Hv. destruct Hv as [[? Hv]|[? Hv]]; discriminate Hv. }
  pose proof (huge_bytes n [] (Forall_nil _)) as Hh. rewrite Ep in Hh.
  assert (bytes_ok (w ++ concat ws ++ p ++ rest)) as Hl by (repeat (apply bytes_app; split; [assumption|]); assumption).
  exists (fun _ => inr (map (fun b => EvData [b]) (w ++ concat ws ++ p ++ rest) ++ [])), [], (w ++ concat ws ++ p ++ rest). split.
  - eexists. split; [reflexivity|]. apply delivers_singly; [constructor; reflexivity|exact Hl].
  - exists w, (concat ws ++ p ++ rest). split; [reflexivity|]. split; [exact Hw|]. exists ws, (p ++ rest). split; [reflexivity|]. split; [exact HF|].
    apply any_overflow, Hp.
Qed.
