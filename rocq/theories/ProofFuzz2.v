(** The fuzzing configuration on streams: frames, samples and the fuzz targets. *)
From Verif Require Export ProofFuzz ProofPrograms3.
From Verif Require Import SpecReader.

(** * The difference to the configuration of the published crate *)

Definition upto {S A} (c1 c2 : M S A) : Prop :=
  forall s, (exists e, fst (c1 s) = Err e /\ checksum_error e) \/ c1 s = c2 s.
Lemma upto_refl {S A} (c : M S A) : upto c c.
Proof. right. reflexivity. Qed.
Lemma upto_bind {S A B} (c1 c2 : M S A) (f1 f2 : A -> M S B) : upto c1 c2 -> (forall a, upto (f1 a) (f2 a)) -> upto (bind c1 f1) (bind c2 f2).
Proof.
  intros Hc Hf s. destruct (Hc s) as [(e & E & He)|E].
  - left. exists e. split; [|exact He]. unfold bind. destruct (c1 s). cbn in E. subst. reflexivity.
  - unfold bind. rewrite <- E. destruct (c1 s) as [[a| | | |] s']; try (right; reflexivity). apply Hf.
Qed.
Lemma upto_same {S A B} (c : M S A) (f1 f2 : A -> M S B) : (forall a, upto (f1 a) (f2 a)) -> upto (bind c f1) (bind c f2).
Proof. apply upto_bind, upto_refl. Qed.

Lemma header_upto {S} (rb : ReadBytes S) m : upto (read_frame_header_or_eof rb m) (read_frame_header_or_eof_fz rb m).
Proof.
  assert (upto (read_frame_header_body rb m) (read_frame_header_body_fz rb m)) as H.
  { rewrite read_frame_header_body_eq, read_frame_header_body_eq_fz. apply upto_same. intros o s.
    rewrite header_after_sync_eq, header_after_sync_eq_fz. revert s. change (upto (header_generic (crc8_rb rb) crc8_crc m o) (header_generic_fz (crc8_rb rb) crc8_crc m o)).
    unfold header_generic, header_generic_fz. destruct o as [s|]; [|apply upto_refl].
    destruct (negb _); [apply upto_refl|]. destruct (negb _); [apply upto_refl|].
    do 6 (apply upto_same; intros ?). destruct (negb _); [apply upto_refl|].
    unfold h_tail, h_tail_fz. repeat match goal with |- upto (let '(_, _) := ?p in _) _ => destruct p end.
    do 8 (apply upto_same; intros ?). destruct (negb _); [left; eexists; split; [reflexivity|left; reflexivity]|apply upto_refl]. }
  intros s. unfold read_frame_header_or_eof, read_frame_header_or_eof_fz, with_crc8. destruct (H (crc8_new s)) as [(e & E & He)|E].
  - left. destruct (read_frame_header_body rb m (crc8_new s)). eauto.
  - right. rewrite E. reflexivity.
Qed.
Lemma frame_upto {S} (rb : ReadBytes S) m fuel buffer : upto (read_next_or_eof rb m fuel buffer) (read_next_or_eof_fz rb m fuel buffer).
Proof.
  assert (upto (read_next_body rb m fuel buffer) (read_next_body_fz rb m fuel buffer)) as H.
  { rewrite read_next_body_eq, read_next_body_eq_fz. apply upto_bind; [apply header_upto|]. intros o.
    unfold frame_after_header, frame_after_header_fz. destruct o as [h|]; [|apply upto_refl].
    apply upto_same. intros total. destruct (ensure_buffer_len buffer total) as [v al].
    do 6 (apply upto_same; intros ?). destruct (negb _); [left; eexists; split; [reflexivity|right; reflexivity]|apply upto_refl]. }
  intros s. unfold read_next_or_eof, read_next_or_eof_fz, with_crc16. destruct (H (crc16_new s)) as [(e & E & He)|E].
  - left. destruct (read_next_body rb m fuel buffer (crc16_new s)). eauto.
  - right. rewrite E. reflexivity.
Qed.
Theorem frames_differ {S} (rb : ReadBytes S) m fuel buffer s :
  (exists e, fst (read_next_or_eof rb m fuel buffer s) = Err e /\ checksum_error e)
  \/ read_next_or_eof rb m fuel buffer s = read_next_or_eof_fz rb m fuel buffer s.
Proof. exact (frame_upto rb m fuel buffer s). Qed.
(** The iterator over samples, for any function that reads the next block. *)
Section With.
  Context {S : Type} (m : build).
  Definition samples_with (next : vec -> M S (option block)) : M (flac_samples S) (option (result Z)) :=
    st <- get ;;
    if fs_has_failed st then ret None
    else
      ch <- lift (chk m u32 (fs_channel st + 1)) ;;
      fs_set_channel ch ;;;
      if block_channels (fs_block st) <=? ch then
        fs_set_channel 0 ;;;
        sa <- lift (chk m u32 (fs_sample st + 1)) ;;
        fs_set_sample sa ;;;
        if block_duration (fs_block st) <=? sa then
          fs_set_sample 0 ;;;
          let current_block := fs_block st in
          fs_set_block block_empty ;;;
          r <- catch (fs_lift (next (block_into_buffer current_block))) ;;
          match r with
          | ROk (Some next_block) =>
              fs_set_block next_block ;;;
              fs_yield
          | ROk None => ret None
          | RErr error =>
              fs_set_has_failed true ;;;
              ret (Some (RErr error))
          end
        else fs_yield
      else fs_yield.

  Definition iupto {T A} (c1 c2 : M T (option (result A))) : Prop :=
    forall s, (exists e, fst (c1 s) = Ok (Some (RErr e)) /\ checksum_error e) \/ c1 s = c2 s.
  Lemma iupto_refl {T A} (c : M T (option (result A))) : iupto c c.
  Proof. right. reflexivity. Qed.
  Lemma iupto_same {T A B} (c : M T A) (f1 f2 : A -> M T (option (result B))) : (forall a, iupto (f1 a) (f2 a)) -> iupto (bind c f1) (bind c f2).
  Proof. intros H s. unfold bind. destruct (c s) as [[a| | | |] s']; try (right; reflexivity). apply H. Qed.
  Lemma with_upto n1 n2 : (forall buffer, upto (n1 buffer) (n2 buffer)) -> iupto (samples_with n1) (samples_with n2).
  Proof.
    intros H. unfold samples_with. apply iupto_same. intros st. destruct (fs_has_failed st); [apply iupto_refl|].
    do 2 (apply iupto_same; intros ?). destruct (_ <=? _); [|apply iupto_refl].
    do 3 (apply iupto_same; intros ?). destruct (_ <=? _); [|apply iupto_refl].
    do 2 (apply iupto_same; intros ?). intros it. unfold bind, catch, fs_lift.
    destruct (H (block_into_buffer (fs_block st)) (fs_frame_reader it)) as [(e & E & He)|E].
    - left. exists e. destruct (n1 _ _) as [o s']. cbn in E. subst o. split; [reflexivity|exact He].
    - right. rewrite E. reflexivity.
  Qed.
End With.
Theorem samples_differ {S} (rb : ReadBytes S) m fuel it :
  (exists e, fst (fs_next rb m fuel it) = Ok (Some (RErr e)) /\ checksum_error e)
  \/ fs_next rb m fuel it = fs_next_fz rb m fuel it.
Proof. exact (with_upto m _ _ (frame_upto rb m fuel) it). Qed.


(** * Frames *)
Section FrameFz.
  Context {S : Type} (rb : ReadBytes S) (t : tail) (D : S -> list Z -> Prop) (HS : stream rb t D).
  Let Hrs : rb_sim no_esc D rb (fl_rb t) := stream_rb_sim rb t D HS no_esc.
  Let Hes : eof_sim no_esc D rb (fl_rb t) := stream_eof_sim rb t D HS no_esc.
  Let Hbytes : forall st l, D st l -> bytes_ok l := st_bytes rb t D HS.
  Context (m : build) (fuel : nat).
  Notation next := (read_next_or_eof_fz rb m fuel).

  Theorem frame_decoded_fz buffer st h chs w rest : unchecked_frame h chs w -> D st (w ++ rest) ->
    (length (w ++ rest) < fuel)%nat ->
    exists b st', next buffer st = (Ok (Some b), st') /\ block_shows b h chs /\ D st' rest.
  Proof.
    intros Hw HD Hf. pose proof (Hbytes _ _ HD) as Hb. apply bytes_app in Hb as [_ Hb].
    pose proof (frame_left_fz rb t D Hrs Hes Hbytes m fuel st _ buffer HD Hf) as H. cbv zeta in H.
    rewrite (frame_complete_fz t m h chs w rest Hb Hw) in H. cbn [fst snd] in H.
    destruct (next buffer st) as [o st']. cbn [fst snd] in H. destruct o; try discriminate H.
    destruct H as (x & E & Hs & HD'). injection E as <-. destruct Hs as (b & -> & Hs & _).
    exists b, st'. auto.
  Qed.
  Theorem frame_only_fz buffer st l b st' : m = Debug \/ no_zero_run (2 ^ 32 - 1) (bytes_bits l) ->
    D st l -> (length l < fuel)%nat -> next buffer st = (Ok (Some b), st') ->
    exists h chs w rest, l = w ++ rest /\ D st' rest /\ unchecked_frame h chs w /\ block_shows b h chs.
  Proof.
    intros Hq HD Hf E.
    pose proof (frame_left_fz rb t D Hrs Hes Hbytes m fuel st _ buffer HD Hf) as H. cbv zeta in H.
    rewrite E in H. cbn [fst snd] in H. destruct H as (x & E1 & Hs & HD').
    destruct x as [[h chs]|]; [|discriminate Hs]. destruct Hs as (b' & E2 & Hs & _). injection E2 as <-.
    destruct (frame_sound_fz t m l h chs _ (Hbytes _ _ HD) Hq (surj _ _ E1)) as (w & El & Hw).
    eexists h, chs, w, _. split; [exact El|]. split; [exact HD'|]. auto.
  Qed.
  Theorem frame_safe_fz buffer st l : m = Release \/ no_zero_run (2 ^ 32 - 1) (bytes_bits l) ->
    D st l -> (length l < fuel)%nat -> value_or_error (fst (next buffer st)).
  Proof.
    intros Hq HD Hf.
    pose proof (frame_left_fz rb t D Hrs Hes Hbytes m fuel st _ buffer HD Hf) as H. cbv zeta in H.
    pose proof (frame_total_fz t m l (Hbytes _ _ HD) Hq) as [[x Ht]|[x Ht]];
      destruct (fst (next buffer st)); [left|right| | | |left|right| | |]; eauto; rewrite H in Ht; discriminate.
  Qed.
  Theorem frame_end_fz buffer st l st' : D st l -> (length l < fuel)%nat ->
    next buffer st = (Ok None, st') -> t = TEof /\ (length l <= 1)%nat /\ D st' [].
  Proof.
    intros HD Hf E.
    pose proof (frame_left_fz rb t D Hrs Hes Hbytes m fuel st _ buffer HD Hf) as H. cbv zeta in H.
    rewrite E in H. cbn [fst snd] in H. destruct H as (x & E1 & Hs & HD').
    destruct x as [[h chs]|]; [destruct Hs as (? & ? & _); discriminate|].
    destruct (frame_none_fz t m l _ (Hbytes _ _ HD) (surj _ _ E1)) as (Ht & Hl & El).
    rewrite El in HD'. auto.
  Qed.
  Theorem frame_ends_fz buffer st l : t = TEof -> (length l <= 1)%nat -> (1 < fuel)%nat -> D st l ->
    exists st', next buffer st = (Ok None, st') /\ D st' [].
  Proof.
    intros Ht Hl Hf HD.
    pose proof (frame_left_fz rb t D Hrs Hes Hbytes m fuel st _ buffer HD ltac:(lia)) as H. cbv zeta in H.
    rewrite (frame_at_end_fz t m l Hl Ht) in H. cbn [fst snd] in H.
    destruct (next buffer st) as [o st']. cbn [fst snd] in H. destruct o; try discriminate H.
    destruct H as (x & E & Hs & HD'). injection E as <-. cbn in Hs. subst. eauto.
  Qed.
  Theorem frame_buffers_fz buffer1 buffer2 st l : D st l -> (length l < fuel)%nat ->
    match fst (next buffer1 st), fst (next buffer2 st) with
    | Ok (Some b1), Ok (Some b2) =>
        block_time_of b1 = block_time_of b2 /\ block_duration b1 = block_duration b2
        /\ block_channels b1 = block_channels b2
        /\ v_items (block_into_buffer b1) = v_items (block_into_buffer b2)
    | r1, r2 => r1 = r2
    end.
  Proof.
    intros HD Hf.
    pose proof (frame_left_fz rb t D Hrs Hes Hbytes m fuel st _ buffer1 HD Hf) as H1. cbv zeta in H1.
    pose proof (frame_left_fz rb t D Hrs Hes Hbytes m fuel st _ buffer2 HD Hf) as H2. cbv zeta in H2.
    destruct (fst (next buffer1 st)) as [o1| | | |], (fst (next buffer2 st)) as [o2| | | |];
      try (destruct H1 as (x1 & E1 & Hs1 & _)); try (destruct H2 as (x2 & E2 & Hs2 & _)); try congruence;
      try (destruct o1; congruence).
    assert (x1 = x2) as <- by congruence. destruct x1 as [[h chs]|].
    - destruct Hs1 as (b1 & -> & (A1 & A2 & A3 & A4 & A5 & A6) & _), Hs2 as (b2 & -> & (B1 & B2 & B3 & B4 & B5 & B6) & _).
      repeat split; congruence.
    - cbn in Hs1, Hs2. subst. reflexivity.
  Qed.

  (** Without a restriction on the input. *)
  Lemma next_long_fz buffer st l b st' : D st l -> (length l < fuel)%nat -> next buffer st = (Ok (Some b), st') ->
    exists chs w rest, l = w ++ rest /\ D st' rest /\ block_holds b chs /\ (8 <= length w)%nat.
  Proof.
    intros HD Hf E.
    pose proof (frame_left_fz rb t D Hrs Hes Hbytes m fuel st _ buffer HD Hf) as H. cbv zeta in H.
    rewrite E in H. cbn [fst snd] in H. destruct H as (x & E1 & Hs & HD').
    destruct x as [[h chs]|]; [|discriminate Hs]. destruct Hs as (b' & E2 & Hs & _). injection E2 as <-.
    destruct (frame_parts_fz t m l h chs _ (Hbytes _ _ HD) (surj _ _ E1)) as (hw & body & Hw & El & Hl).
    destruct (header_decent_fz h hw Hw) as (Hsz & Ha & _).
    exists chs, (hw ++ body), (snd (fl_frame_fz t m l l)). split; [rewrite <- app_assoc; exact El|]. split; [exact HD'|].
    split; [|rewrite app_length; apply header_long_fz in Hw; lia].
    destruct Hs as (_ & Hd & Hc & Hn & HF & Hi). split; [|split; [|split; [|split]]].
    - rewrite Hc. destruct (h_assignment h); cbn in *; lia.
    - rewrite Hd. exact Hsz.
    - congruence.
    - rewrite Hd. exact HF.
    - exact Hi.
  Qed.
  Theorem iterator_ends_fz s l : D s l -> (length l < fuel)%nat -> (1 < fuel)%nat -> m = Release \/ no_zero_bytes (2 ^ 29 - 1) l ->
    exists pcm last, yields (fs_next_fz rb m fuel) (mkFs s block_empty 0 0 false) (map ROk pcm ++ last) /\ len pcm <= 65535 * len l
      /\ (last = [] \/ exists e, last = [RErr e]).
  Proof.
    intros HD Hf H1 Hz.
    apply (samples_end t D m fuel (fun l => m = Release \/ no_zero_bytes (2 ^ 29 - 1) l) next) with (it := mkFs s block_empty 0 0 false); auto.
    - intros a b. apply calm_suffix.
    - intros buffer st l' Hz' HD' Hf'. apply (frame_safe_fz buffer st l'); auto. apply calm_bits; [|exact Hz'].
      exact (st_bytes _ _ _ HS _ _ HD').
    - exact next_long_fz.
    - exact frame_end_fz.
    - exact frame_ends_fz.
    - repeat split; auto.
  Qed.
End FrameFz.

Theorem samples_bounded_fz {S} (rb : ReadBytes S) t D : stream rb t D -> forall m fuel (r : flac_reader S) s it l,
  fr_blocks r = Ok s -> fr_samples r = Ok it \/ fr_into_samples r = Ok it ->
  D s l -> (length l < fuel)%nat -> (1 < fuel)%nat -> m = Release \/ no_zero_bytes (2 ^ 29 - 1) l ->
  exists pcm last, yields (fs_next_fz rb m fuel) it (map ROk pcm ++ last) /\ len pcm <= 65535 * len l
    /\ (last = [] \/ exists e, last = [RErr e]).
Proof.
  intros HS m fuel r s it l Eb Ei HD Hf H1 Hz. rewrite (fr_iter r s it Eb Ei).
  exact (iterator_ends_fz rb t D HS m fuel s l HD Hf H1 Hz).
Qed.

(** * Opening *)
Theorem open_fz m un un' t fuel script script' l opts : (forall n, length (un n) = n) -> (forall n, length (un' n) = n) ->
  delivers t script l -> delivers_in 31 t script' l ->
  opened_alike (fun r r' => match fr_input r, fr_input r' with
                            | Full inp, Full inp' | MetadataOnly inp, MetadataOnly inp' =>
                                exists rest, buffered t inp rest /\ buffered_in 31 t inp' rest
                            | _, _ => False
                            end)
    (flac_new_ext m un fuel script opts) (flac_new_ext_fz m un' fuel script' opts).
Proof.
  intros Hun Hun' Hd Hd'. pose proof (br_new_buffered _ _ _ Hd) as HD. pose proof (cap_new 31 ltac:(lia) _ _ _ Hd') as HD'.
  pose proof (cap_stream 31 ltac:(lia) m t) as HS'. pose proof (br_stream m t) as HS.
  pose proof (new_ext_sim no_esc (Rsame (buffered t) (buffered_in 31 t)) (br_rb m) (br_rb m) m un un' Hun Hun'
    (same_rb _ _ t _ _ HS HS') (same_bulk _ _ t _ _ HS HS') fuel opts _ _ (ex_intro _ l (conj HD HD'))) as H.
  unfold opened_alike, discard, flac_new_ext, flac_new_ext_fz. change (br_of 31 script') with (br_new_fz script') in H.
  destruct (fst (new_ext (br_rb m) m un fuel opts (br_new script))) as [r|e|w|w|].
  - destruct H as (r' & -> & (E1 & E2 & E3) & _). auto.
  - destruct H as [[]|[-> _]]. reflexivity.
  - rewrite H. reflexivity.
  - rewrite H. reflexivity.
  - rewrite H. reflexivity.
Qed.

(** * Fuzz targets *)

Lemma slice_delivers_fz data : bytes_ok data -> forall turns, (length data < turns)%nat -> delivers_in 31 TEof (slice_reads_fz turns data) data.
Proof.
  intros Hb turns. revert data Hb. induction turns as [|turns IH]; intros data Hb Ht; [lia|]. cbn [slice_reads_fz].
  destruct data as [|x data]; [constructor; reflexivity|]. set (l := x :: data) in *.
  rewrite <- (firstn_skipn (Z.to_nat CAPACITY_fz) l) at 3. constructor.
  - split.
    + rewrite <- (firstn_skipn (Z.to_nat CAPACITY_fz) l) in Hb. apply bytes_app in Hb. apply Hb.
    + unfold len. rewrite firstn_length. unfold CAPACITY_fz. subst l. cbn [length]. lia.
  - apply IH.
    + rewrite <- (firstn_skipn (Z.to_nat CAPACITY_fz) l) in Hb. apply bytes_app in Hb. apply Hb.
    + rewrite skipn_length. unfold CAPACITY_fz. subst l. cbn [length] in *. lia.
Qed.

Lemma cap31 : 0 < 31 <= 2048.
Proof. lia. Qed.

Section FuzzFz.
  Context (m : build) (un : nat -> list Z) (Hun : forall n, length (un n) = n) (fuel : nat).

  Lemma new_on_cases_fz data : bytes_ok data -> (length data < fuel)%nat ->
    (exists e, new_on_fz m un fuel data = Err e)
    \/ (exists r inp w rest, new_on_fz m un fuel data = Ok r /\ data = w ++ rest /\ buffered_in 31 TEof inp rest
        /\ fr_blocks r = Ok inp /\ fr_samples r = Ok (mkFs inp block_empty 0 0 false)).
  Proof.
    intros Hb Hf. unfold new_on_fz. pose proof (slice_delivers_fz data Hb (Datatypes.S (length data)) ltac:(lia)) as Hd.
    pose proof (open_cases (br_rb m) TEof (buffered_in 31 TEof) (cap_stream 31 cap31 m TEof) m un Hun fuel default_options _ data (cap_new 31 cap31 TEof _ data Hd) Hf) as H.
    unfold flac_new_fz, flac_new_ext_fz. change (br_of 31 ?x) with (br_new_fz x) in H.
    destruct (new_ext _ _ _ _ _ _) as [[r|e| | |] s]; cbn [fst] in *; try contradiction; [|eauto].
    right. destruct H as (w & rest & inp & E & _ & HD & Ei). exists r, inp, w, rest. unfold fr_blocks, fr_samples. rewrite Ei. cbn. auto.
  Qed.

  Theorem fuzz_header_ok_fz data : bytes_ok data -> (length data < fuel)%nat -> fuzz_decode_header_fz m un fuel data = Ok tt.
  Proof.
    intros Hb Hf. unfold fuzz_decode_header_fz. destruct (new_on_cases_fz data Hb Hf) as [(e & E)|(r & inp & w & rest & E & _)]; rewrite E; reflexivity.
  Qed.
  Lemma rest_ok_fz w rest inp : m = Release \/ no_zero_bytes (2 ^ 29 - 1) (w ++ rest) -> buffered_in 31 TEof inp rest -> m = Release \/ no_zero_run (2 ^ 32 - 1) (bytes_bits rest).
  Proof.
    intros Hz HD. apply calm_bits; [exact (st_bytes _ _ _ (cap_stream 31 cap31 m TEof) _ _ HD)|]. eapply calm_suffix, Hz.
  Qed.
  Theorem fuzz_block_ok_fz data : bytes_ok data -> (length data < fuel)%nat -> m = Release \/ no_zero_bytes (2 ^ 29 - 1) data ->
    fuzz_decode_single_block_fz m un fuel data = Ok tt.
  Proof.
    intros Hb Hf Hz. unfold fuzz_decode_single_block_fz. destruct (new_on_cases_fz data Hb Hf) as [(e & E)|(r & inp & w & rest & E & -> & HD & Ei & _)]; rewrite E; [reflexivity|].
    rewrite Ei. cbn [obind]. rewrite app_length in Hf.
    pose proof (frame_safe_fz (br_rb m) TEof (buffered_in 31 TEof) (cap_stream 31 cap31 m TEof) m fuel (mkVec [] 0) inp rest (rest_ok_fz w rest inp Hz HD) HD ltac:(lia)) as Hs.
    destruct Hs as [[a Es]|[e Es]]; rewrite Es; reflexivity.
  Qed.
  Lemma fuzz_loop_ok_fz turns : forall it pcm o, yields (fs_next_fz (br_rb m) m fuel) it (map ROk pcm ++ match o with None => [] | Some e => [RErr e] end) ->
    (length pcm < turns)%nat -> fuzz_loop_fz m fuel turns it = Ok tt.
  Proof.
    induction turns as [|turns IH]; intros it pcm o HY Ht; [lia|]. cbn [fuzz_loop_fz].
    destruct pcm as [|x pcm]; cbn [map app length] in *.
    - destruct o as [e|]; [apply yields_cons in HY as (it' & E & _)|apply yields_nil in HY as (it' & E & _)]; rewrite E; reflexivity.
    - apply yields_cons in HY as (it' & E & HY). rewrite E. eapply IH; [exact HY|lia].
  Qed.
  Theorem fuzz_full_ok_fz turns data : bytes_ok data -> (length data + 1 < fuel)%nat -> m = Release \/ no_zero_bytes (2 ^ 29 - 1) data ->
    65535 * len data < Z.of_nat turns -> fuzz_decode_full_fz m un fuel turns data = Ok tt.
  Proof.
    intros Hb Hf Hz Ht. unfold fuzz_decode_full_fz. destruct (new_on_cases_fz data Hb ltac:(lia)) as [(e & E)|(r & inp & w & rest & E & -> & HD & _ & Ei)]; rewrite E; [reflexivity|].
    rewrite Ei. cbn [obind]. rewrite app_length in Hf. apply bytes_app in Hb as [_ Hb].
    destruct (iterator_ends_fz (br_rb m) TEof (buffered_in 31 TEof) (cap_stream 31 cap31 m TEof) m fuel inp rest HD ltac:(lia) ltac:(lia)
      ltac:(eapply calm_suffix, Hz)) as (pcm & last & HY & Hl & Hlast).
    assert (exists o, last = match o with None => [] | Some e => [RErr e] end) as (o & ->)
      by (destruct Hlast as [->|(e & ->)]; [exists None|exists (Some e)]; reflexivity).
    eapply fuzz_loop_ok_fz; [exact HY|]. unfold len in *. rewrite app_length in Ht. lia.
  Qed.

  Lemma first_blocks_same_fz r inp rest v v' : fr_blocks r = Ok inp -> buffered_in 31 TEof inp rest -> (length rest < fuel)%nat ->
    m = Release \/ no_zero_run (2 ^ 32 - 1) (bytes_bits rest) ->
    exists o o', first_block_fz m fuel r v = Ok o /\ first_block_fz m fuel r v' = Ok o' /\ same_result o o' = true.
  Proof.
    intros Ei HD Hf Hz. unfold first_block_fz. rewrite Ei. cbn [obind].
    pose proof (frame_safe_fz (br_rb m) TEof (buffered_in 31 TEof) (cap_stream 31 cap31 m TEof) m fuel v inp rest Hz HD Hf) as Hs.
    pose proof (frame_buffers_fz (br_rb m) TEof (buffered_in 31 TEof) (cap_stream 31 cap31 m TEof) m fuel v v' inp rest HD Hf) as Hb.
    destruct Hs as [[[b|] Es]|[e Es]]; rewrite Es in Hb |- *.
    - destruct (fst (read_next_or_eof_fz (br_rb m) m fuel v' inp)) as [[b'|]| | | |]; try discriminate Hb.
      destruct Hb as (_ & _ & _ & Hv). do 2 eexists. split; [reflexivity|]. split; [reflexivity|]. cbn [same_result].
      destruct (list_eq_dec Z.eq_dec _ _) as [|Hn]; [reflexivity|]. destruct (Hn Hv).
    - rewrite <- Hb. do 2 eexists. split; [reflexivity|]. split; reflexivity.
    - rewrite <- Hb. do 2 eexists. split; [reflexivity|]. split; reflexivity.
  Qed.
  Theorem fuzz_diff_ok_fz data : bytes_ok data -> (length data < fuel)%nat -> m = Release \/ no_zero_bytes (2 ^ 29 - 1) data ->
    fuzz_diff_fz m un fuel data = Ok tt.
  Proof.
    intros Hb Hf Hz. unfold fuzz_diff_fz. destruct data as [|d0 [|d1 data]]; try reflexivity. destruct (d0 =? d1); [reflexivity|].
    cbn [length] in Hf. assert (bytes_ok data) as Hb' by (inversion Hb as [|? ? _ Hb1]; inversion Hb1; assumption).
    assert (m = Release \/ no_zero_bytes (2 ^ 29 - 1) data) as Hz' by (apply (calm_suffix m _ [d0; d1]) in Hz; exact Hz).
    destruct (new_on_cases_fz data Hb' ltac:(lia)) as [(e & E)|(r & inp & w & rest & E & El & HD & Ei & _)]; rewrite E; [reflexivity|].
    subst data. rewrite app_length in Hf.
    destruct (first_blocks_same_fz r inp rest (mkVec (repeat d0 (Z.to_nat (1024 * 8))) (1024 * 8)) (mkVec (repeat d1 (Z.to_nat (1024 * 8))) (1024 * 8)) Ei HD ltac:(lia) (rest_ok_fz w rest inp Hz' HD))
      as (o & o' & E0 & E1 & Es).
    rewrite E0. cbn [obind]. destruct (match o with Some v => _ | None => _ end); [reflexivity|]. cbn [expect obind].
    rewrite E1. cbn [obind]. rewrite Es. reflexivity.
  Qed.
End FuzzFz.
