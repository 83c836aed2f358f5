(** Frames in other containers and the fuzzers, on any input: C87, C88. *)
From Verif Require Export SpecAnyContainers ProofAnyPlay ProofPrograms3.
From Verif Require Import SpecReader.

(** * One frame *)
Section Frames.
  Context {S : Type} (rb : ReadBytes S) (t : tail) (D : S -> list Z -> Prop) (HS : stream rb t D).
  Context (m : build) (fuel : nat).

  Lemma any_written buffer s spec acc f w rest : any_frame m f w -> stereo_frame f ->
    D s (w ++ rest) -> (length (w ++ rest) < fuel)%nat ->
    exists buffer' s', write_frame m fuel rb buffer s (Some (spec, acc))
        = (Ok (buffer', s'), Some (spec, acc ++ pcm_of [f])) /\ D s' rest.
  Proof.
    intros Hw Hst HD Hf. destruct f as [h chs].
    destruct (any_decoded rb t D HS m fuel buffer s (h, chs) w _ Hw HD Hf) as (b & s1 & E & Hb & Hh & HD'). cbn [fst snd] in *.
    destruct (stereo_block b h chs Hb Hh Hst) as (st & ps & Est & HY & Hl & Hps).
    unfold write_frame, bind at 1, call_on, expect_m. rewrite E. cbn [expect]. unfold bind at 1, lift at 1. cbn [expect_some].
    unfold bind at 1, lift at 1. rewrite Est. unfold bind at 1.
    assert (1 <= block_duration b <= 65535) as Hd by apply Hh.
    rewrite (pairs_written m fuel spec ps _ st acc (HY m)) by (unfold len in Hl; lia).
    rewrite Hps. cbn [pcm_of flat_map fst snd]. rewrite app_nil_r. unfold ret. eauto.
  Qed.
  Lemma any_unwritten buffer s spec acc l : D s l -> (length l < fuel)%nat -> (1 < fuel)%nat ->
    (forall f w rest, l = w ++ rest -> any_frame m f w -> ~ stereo_frame f) ->
    exists why, write_frame m fuel rb buffer s (Some (spec, acc)) = (Panic why, Some (spec, acc)).
  Proof.
    intros HD Hf H1 Hn. unfold write_frame, bind, call_on, expect_m.
    destruct (any_case rb t D HS m fuel buffer s l HD Hf H1) as [(f & w & rest & st' & -> & Hw & _)|[o Ho]].
    - destruct (any_decoded rb t D HS m fuel buffer s f w _ Hw HD Hf) as (b & s1 & E & Hb & _). rewrite E. cbn [expect lift expect_some].
      destruct (no_stereo b) as (why & Ew); [destruct Hb as (_ & _ & -> & _); exact (Hn f w rest eq_refl Hw)|]. unfold lift. rewrite Ew. eauto.
    - pose proof (any_next rb t D HS m fuel buffer s l o Ho HD Hf H1) as E. destruct (read_next_or_eof rb m fuel buffer s) as [r s'].
      cbn [fst] in E. destruct o as [|e|]; [| |destruct E as [why E]]; cbn in E; subst r; cbn; eauto.
  Qed.
End Frames.

Lemma stereo_dec f : {stereo_frame f} + {~ stereo_frame f}.
Proof. apply Z.eq_dec. Qed.
Lemma any_front m l : bytes_ok l ->
  (exists f w rest, l = w ++ rest /\ any_frame m f w /\ stereo_frame f)
  \/ (forall f w rest, l = w ++ rest -> any_frame m f w -> ~ stereo_frame f).
Proof.
  intros Hb. destruct (any_case (fl_rb TEof) TEof _ (fl_stream TEof) m (length l + 2) (mkVec [] 0) l l (conj eq_refl Hb) ltac:(lia) ltac:(lia))
    as [(f & w & rest & st & El & Hw & _)|[o Ho]].
  - destruct (stereo_dec f) as [Hs|Hs]; [left; eauto 6|]. right. intros f' w' rest' El' Hw'. subst l.
    destruct (any_frame_unique m f w rest f' w' rest' Hw Hw' Hb El') as (<- & _). exact Hs.
  - right. intros f w rest El Hw. subst l. destruct (any_frame_or_stop m TEof f w rest o Hb Hw Ho).
Qed.

(** * Ogg *)
Section Ogg.
  Context (m : build) (un : nat -> list Z) (Hun : forall n, length (un n) = n) (fuel : nat).
  Notation cu := (cu_rb m).
  Notation HS := (cu_stream m).

  Lemma front_read si front rest : Forall (packet_ok fuel) (front ++ rest) -> ogg_front si front ->
    decode_ogg m un fuel (front ++ rest) None = ogg_frames m fuel (buffer_for si) rest (Some (spec_of si, []))
    /\ streaminfo_fits si.
  Proof.
    intros HF (first & headers & lead & n & native & last & w & x & -> & Efirst & H7 & H4 & Hn & Hn16 & Hc & HH).
    pose proof (Forall_inv HF) as (Hb & Hl & _). cbn [app] in HF. apply Forall_inv_tail, Forall_app in HF as [HFh _].
    assert (first_code first si n) as Hfc.
    { exists lead, native, last, w, x. pose proof (len_nonneg headers). repeat split; auto; lia. }
    split; [|exact (first_info _ _ _ Hfc)]. cbn [app].
    unfold decode_ogg, bind at 1, lift at 1. rewrite (first_reads m un Hun fuel first si n Hb Hl Hfc). unfold bind at 1, lift.
    replace (Z.to_nat n) with (length headers) by (rewrite Hn; unfold len; lia).
    rewrite (headers_skipped m un Hun fuel headers rest HFh HH). reflexivity.
  Qed.
  Lemma packets_any spec parts good bad : Forall2 (any_packet m) parts good -> Forall (packet_ok fuel) (good ++ bad) -> (1 < fuel)%nat ->
    (forall p bad', bad = p :: bad' -> forall part, ~ any_packet m part p) ->
    forall buffer acc, exists r, ogg_frames m fuel buffer (good ++ bad) (Some (spec, acc)) = (r, Some (spec, acc ++ pcm_of (concat parts)))
      /\ panics_at bad r.
  Proof.
    intros HP HF H1 Hbad. induction HP as [|part p parts good Hp HP IH]; intros buffer acc; cbn [app concat pcm_of flat_map].
    - rewrite app_nil_r. destruct bad as [|p bad]; cbn [ogg_frames panics_at]; [eexists; split; reflexivity|].
      pose proof (Forall_inv HF) as (Hb & Hl & Hf). specialize (Hbad p bad eq_refl).
      destruct (len p =? 0) eqn:Ep.
      { assert (p = []) as -> by (destruct p; [reflexivity|discriminate Ep]). destruct (Hbad [] (any_packet_empty m)). }
      destruct (any_unwritten cu TEof cursor_at HS m fuel buffer (mkCursor p 0) spec acc p (at_start _ Hb Hl) Hf H1) as (why & E).
      { intros f w rest -> Hw Hs. exact (Hbad [f] (any_packet_frame m f w rest Hw Hs)). }
      unfold bind. rewrite E. eauto.
    - cbn [app] in HF. pose proof (Forall_inv HF) as (Hb & Hl & Hf). specialize (IH (Forall_inv_tail HF)). cbn [ogg_frames].
      destruct Hp as [|f w rest Hw Hs].
      + cbn [len length Z.of_nat Z.eqb app]. apply IH.
      + pose proof (any_frame_long _ _ _ Hw) as Hlong.
        replace (len (w ++ rest) =? 0) with false by (unfold len; rewrite app_length; lia).
        destruct (any_written cu TEof cursor_at HS m fuel buffer _ spec acc f w rest Hw Hs (at_start _ Hb Hl) Hf) as (buffer' & s' & E & _).
        unfold bind. rewrite E. destruct (IH buffer' (acc ++ pcm_of [f])) as (r & Er & Hr). exists r. rewrite Er. split; [|exact Hr].
        unfold pcm_of. rewrite flat_map_app, app_assoc. reflexivity.
  Qed.
  Theorem ogg_any si front parts good bad : Forall (packet_ok fuel) (front ++ good ++ bad) -> (1 < fuel)%nat ->
    ogg_front si front -> Forall2 (any_packet m) parts good ->
    (forall p bad', bad = p :: bad' -> forall part, ~ any_packet m part p) ->
    exists r, decode_ogg m un fuel (front ++ good ++ bad) None = (r, audio si (pcm_of (concat parts))) /\ panics_at bad r.
  Proof.
    intros HF H1 Hfr HP Hbad. destruct (front_read si front (good ++ bad) HF Hfr) as (E & Hsi). rewrite E.
    apply Forall_app in HF as [_ HF].
    destruct (packets_any (spec_of si) parts good bad HP HF H1 Hbad (buffer_for si) []) as (r & Er & Hr).
    exists r. rewrite Er. cbn [app]. rewrite (audio_spec si Hsi). auto.
  Qed.
  Theorem ogg_no_front packets : Forall (packet_ok fuel) packets ->
    (forall si front rest, packets = front ++ rest -> ~ ogg_front si front) ->
    exists why, decode_ogg m un fuel packets None = (Panic why, None).
  Proof.
    intros HF Hn. destruct packets as [|first packets]; [eexists; reflexivity|].
    pose proof (Forall_inv HF) as (Hb & Hl & _). apply Forall_inv_tail in HF as HF'. unfold decode_ogg, bind, lift.
    destruct (first_cases m un Hun fuel first Hb Hl) as [(si & n & Hfc & E)|(why & E)]; rewrite E; [|eauto].
    destruct (headers_cases m un Hun fuel (Z.to_nat n) packets HF') as [(headers & rest & -> & Hh & HH & E2)|(why & E2)]; rewrite E2; [|eauto].
    destruct Hfc as (lead & native & last & w & x & Efirst & H7 & H4 & Hn16 & Hc).
    destruct (Hn si (first :: headers) rest eq_refl). exists first, headers, lead, n, native, last, w, x. unfold len. repeat split; auto; lia.
  Qed.
End Ogg.
Lemma packets_split m packets : Forall bytes_ok packets ->
  exists parts good bad, packets = good ++ bad /\ Forall2 (any_packet m) parts good
    /\ (forall p bad', bad = p :: bad' -> forall part, ~ any_packet m part p).
Proof.
  induction 1 as [|p packets Hb HF (parts & good & bad & -> & HP & Hbad)].
  - exists [], [], []. repeat split; [constructor|discriminate].
  - assert ((exists part, any_packet m part p) \/ (forall part, ~ any_packet m part p)) as [[part Hp]|Hp].
    { destruct p as [|b p]; [left; eexists; constructor|]. destruct (any_front m (b :: p) Hb) as [(f & w & rest & -> & Hw & Hs)|Hn].
      - left. eexists. exact (any_packet_frame m f w rest Hw Hs).
      - right. intros part Hp. inversion Hp as [|f w rest Hw Hs E1 E2]; subst. exact (Hn f w rest (eq_sym E2) Hw Hs). }
    + exists (part :: parts), (p :: good), bad. repeat split; auto.
    + exists [], [], (p :: good ++ bad). repeat split; [constructor|]. intros p' bad' E. injection E as <- <-. exact Hp.
Qed.
Theorem ogg_each m fuel packets : Forall (packet_ok fuel) packets -> (1 < fuel)%nat ->
  (exists si front parts good bad, packets = front ++ good ++ bad /\ ogg_front si front /\ Forall2 (any_packet m) parts good
     /\ (forall p bad', bad = p :: bad' -> forall part, ~ any_packet m part p))
  \/ (forall si front rest, packets = front ++ rest -> ~ ogg_front si front).
Proof.
  intros HF H1. pose proof (repeat_length 0) as Hun. specialize (Hun : forall n, length (repeat 0 n) = n).
  assert (forall si front rest, packets = front ++ rest -> ogg_front si front ->
    exists parts good bad, rest = good ++ bad /\ Forall2 (any_packet m) parts good
     /\ (forall p bad', bad = p :: bad' -> forall part, ~ any_packet m part p)
     /\ exists r w, decode_ogg m (repeat 0) fuel packets None = (r, Some w)) as Hall.
  { intros si front rest -> Hfr.
    assert (Forall bytes_ok rest) as Hb.
    { apply Forall_app in HF as [_ HF]. revert HF. apply Forall_impl. intros p H. apply H. }
    destruct (packets_split m rest Hb) as (parts & good & bad & -> & HP & Hbad).
    exists parts, good, bad. repeat (split; [auto|]).
    destruct (ogg_any m (repeat 0) Hun fuel si front parts good bad HF H1 Hfr HP Hbad) as (r & E & _). rewrite E. unfold audio. eauto. }
  assert ((exists si front rest, packets = front ++ rest /\ ogg_front si front)
    \/ exists why, decode_ogg m (repeat 0) fuel packets None = (Panic why, None)) as H.
  { destruct packets as [|first packets]; [right; eexists; reflexivity|].
    pose proof (Forall_inv HF) as (Hb & Hl & _). apply Forall_inv_tail in HF as HF'. unfold decode_ogg, bind, lift.
    destruct (first_cases m (repeat 0) Hun fuel first Hb Hl) as [(si & n & Hfc & E)|(why & E)]; rewrite E; [|eauto].
    destruct (headers_cases m (repeat 0) Hun fuel (Z.to_nat n) packets HF') as [(headers & rest & -> & Hh & HH & E2)|(why & E2)]; rewrite E2; [|eauto].
    destruct Hfc as (lead & native & last & w & x & Efirst & H7 & H4 & Hn16 & Hc).
    left. exists si, (first :: headers), rest. split; [reflexivity|]. exists first, headers, lead, n, native, last, w, x. unfold len. repeat split; auto; lia. }
  destruct H as [(si & front & rest & E & Hfr)|[why E]].
  - left. destruct (Hall si front rest E Hfr) as (parts & good & bad & -> & HP & Hbad & _). exists si, front, parts, good, bad. auto.
  - right. intros si front rest Ep Hfr. destruct (Hall si front rest Ep Hfr) as (parts & good & bad & _ & _ & _ & r & w & E'). congruence.
Qed.

(** * Mp4 *)
Section Mp4.
  Context (m : build) (un : nat -> list Z) (Hun : forall n, length (un n) = n) (fuel : nat).

  Lemma chunk_any {S} (rb : ReadBytes S) t D (HS : stream rb t D) spec frames ws : Forall2 (any_frame m) frames ws ->
    Forall stereo_frame frames -> forall n buffer s acc rest, D s (concat ws ++ rest) -> (length (concat ws ++ rest) < fuel)%nat -> (1 < fuel)%nat ->
    (length frames = n -> mp4_frames m fuel rb n buffer s (Some (spec, acc)) = (Ok tt, Some (spec, acc ++ pcm_of frames)))
    /\ ((length frames < n)%nat -> (forall f w rest', rest = w ++ rest' -> any_frame m f w -> ~ stereo_frame f) ->
        exists why, mp4_frames m fuel rb n buffer s (Some (spec, acc)) = (Panic why, Some (spec, acc ++ pcm_of frames))).
  Proof.
    induction 1 as [|f w frames ws Hw HF IH]; intros Hst n buffer s acc rest HD Hf H1; cbn [length pcm_of flat_map concat app] in *.
    - rewrite app_nil_r. split; [intros <-; reflexivity|]. intros Hn Hbad. destruct n as [|n]; [lia|]. cbn [mp4_frames].
      destruct (any_unwritten rb t D HS m fuel buffer s spec acc rest HD Hf H1 Hbad) as (why & E). unfold bind. rewrite E. eauto.
    - rewrite <- app_assoc in *. pose proof (Forall_inv Hst) as Hs. apply Forall_inv_tail in Hst.
      destruct n as [|n]; [split; [discriminate|lia]|]. cbn [mp4_frames].
      destruct (any_written rb t D HS m fuel buffer s spec acc f w _ Hw Hs HD Hf) as (buffer' & s' & E & HD').
      unfold bind. rewrite E. destruct (IH Hst n buffer' s' (acc ++ pcm_of [f]) rest HD' ltac:(rewrite app_length in Hf; lia) H1) as [IH1 IH2].
      unfold pcm_of in *. cbn [flat_map] in *. rewrite !app_nil_r, <- app_assoc in *. split; [intros Hn; apply IH1; lia|intros Hn; apply IH2; lia].
  Qed.

  Lemma chunks_any reads table si offsets : (1 < fuel)%nat -> forall i frames complete next iter n acc,
    any_chunks m reads table (i + 1) offsets frames complete ->
    ascending i (remaining next iter) ->
    (forall j, i < j -> frames_in_chunk table j 0 = frames_in_chunk (remaining next iter) j n) ->
    0 <= i -> i + len offsets < 2 ^ 32 ->
    (forall offset t l, In offset offsets -> delivers t (reads offset) l -> (length l < fuel)%nat) ->
    exists r, mp4_chunks m fuel reads si i offsets next iter n (Some (spec_of si, acc)) = (r, Some (spec_of si, acc ++ pcm_of frames))
      /\ if complete then r = Ok tt else exists why, r = Panic why.
  Proof.
    intros H1. induction offsets as [|offset offsets IH]; intros i frames complete next iter n acc HC Ha Ht Hi Hl Hfu; cbn [mp4_chunks].
    - inversion HC; subst. cbn. rewrite app_nil_r. eexists. split; reflexivity.
    - unfold len in Hl. cbn [length] in Hl. unfold bind at 1, lift at 1.
      replace (u32 i) with i by (unfold u32; rewrite Z.mod_small by lia; reflexivity). rewrite chk_u32 by lia.
      rewrite (Z.add_comm 1 i). pose proof (step_table un Hun fuel table i next iter n Ha Ht) as Hstep.
      change (match next with Some (first_chunk, n0) => _ | None => _ end) with (step (i + 1) next iter n).
      destruct (step (i + 1) next iter n) as [[next' iter'] n']. destruct Hstep as (Ha' & Hn' & Ht').
      assert (forall t fr ws rest, delivers t (reads offset) (concat ws ++ rest) -> Forall2 (any_frame m) fr ws -> Forall stereo_frame fr -> _) as HX
        by exact (fun t fr ws rest Hd HF Hst => chunk_any (br_rb m) t (buffered t) (br_stream m t) (spec_of si) fr ws HF Hst (Z.to_nat n') (buffer_for si) _ acc rest
             (br_new_buffered _ _ _ Hd) (Hfu offset t _ (or_introl eq_refl) Hd) H1).
      inversion HC as [|i' off offs t fr ws rest more complete' Hd HF Hst Hn HC'|i' off offs t fr ws rest Hd HF Hst Hn Hbad]; subst i' off offs;
        rewrite Hn' in Hn; unfold bind at 1.
      + subst. destruct (HX t fr ws rest Hd HF Hst) as [E1 _]. rewrite (E1 Hn).
        destruct (IH (i + 1) more complete next' iter' _ (acc ++ pcm_of fr) HC' Ha' Ht') as (r & Er & Hr); [lia|unfold len; lia|intros ? ? ? Hin; apply Hfu; right; exact Hin|].
        exists r. rewrite Er. split; [|exact Hr]. unfold pcm_of. rewrite flat_map_app, <- app_assoc. reflexivity.
      + subst fr complete. destruct (HX t frames ws rest Hd HF Hst) as [_ E2]. destruct (E2 Hn Hbad) as (why & E). rewrite E. eauto.
  Qed.

  Theorem mp4_any blocks reads offsets table si frames complete : Forall raw_block_ok blocks -> track_info si blocks ->
    ascending 0 table -> len offsets < 2 ^ 32 -> (1 < fuel)%nat ->
    (forall offset t l, In offset offsets -> delivers t (reads offset) l -> (length l < fuel)%nat) ->
    any_chunks m reads table 1 offsets frames complete ->
    exists r, decode_mp4 m un fuel blocks reads offsets table None = (r, audio si (pcm_of frames))
      /\ if complete then r = Ok tt else exists why, r = Panic why.
  Proof.
    intros HB HT Ha Hl H1 Hfu HC. unfold decode_mp4, bind, lift. rewrite (info_read m un Hun fuel si blocks HB HT). cbn [expect_some wav_create put].
    pose proof (chunks_any reads table si offsets H1 0 frames complete) as H.
    rewrite <- (audio_spec si (track_fits _ _ HT)). destruct table as [|ns table].
    - apply H; auto; lia.
    - apply H; auto; lia.
  Qed.
  Theorem mp4_no_info blocks reads offsets table : Forall raw_block_ok blocks -> (forall si, ~ track_info si blocks) ->
    exists why, decode_mp4 m un fuel blocks reads offsets table None = (Panic why, None).
  Proof.
    intros HB Hn. unfold decode_mp4, bind, lift. destruct (info_cases m un Hun fuel blocks HB) as [(si & HT & _)|[E|(why & E)]].
    - destruct (Hn si HT).
    - rewrite E. cbn. eauto.
    - rewrite E. eauto.
  Qed.
End Mp4.

Lemma chunk_split m n : forall l, bytes_ok l -> exists frames ws rest, l = concat ws ++ rest /\ Forall2 (any_frame m) frames ws
  /\ Forall stereo_frame frames
  /\ (length frames = n \/ (length frames < n)%nat /\ forall f w rest', rest = w ++ rest' -> any_frame m f w -> ~ stereo_frame f).
Proof.
  induction n as [|n IH]; intros l Hb; [exists [], [], l; auto 6|].
  destruct (any_front m l Hb) as [(f & w & rest & -> & Hw & Hs)|Hn].
  - apply bytes_app in Hb as [_ Hb]. destruct (IH rest Hb) as (frames & ws & rest' & -> & HF & Hst & H).
    exists (f :: frames), (w :: ws), rest'. cbn [concat length]. rewrite app_assoc. repeat split; auto.
    destruct H as [H|[H H']]; [left; lia|right; split; [lia|exact H']].
  - exists [], [], l. cbn. split; [reflexivity|]. repeat (split; [constructor|]). right. split; [lia|exact Hn].
Qed.
Theorem mp4_each m reads table offsets : (forall offset, In offset offsets -> exists t l, delivers t (reads offset) l) ->
  forall i, exists frames complete, any_chunks m reads table i offsets frames complete.
Proof.
  induction offsets as [|offset offsets IH]; intros Hd i; [exists [], true; constructor|].
  destruct (Hd offset (or_introl eq_refl)) as (t & l & H). pose proof (br_new_buffered _ _ _ H) as HD.
  pose proof (st_bytes _ _ _ (br_stream m t) _ _ HD) as Hb.
  destruct (chunk_split m (Z.to_nat (frames_in_chunk table i 0)) l Hb) as (frames & ws & rest & -> & HF & Hst & Hc).
  destruct Hc as [Hc|[Hc Hbad]].
  - destruct (IH (fun o Ho => Hd o (or_intror Ho)) (i + 1)) as (more & complete & HC).
    exists (frames ++ more), complete. eapply any_chunks_cons; eauto.
  - exists frames, false. eapply any_chunks_bad; eauto.
Qed.
