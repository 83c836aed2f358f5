(** Which values samples can have, what headers say about them, and where decoding can start.

    [frame_code] (SpecFrame.v), [well_formed] (SpecFile.v), [pcm_of] (SpecWhole.v): the
    grammar of frames and of metadata, the samples of frames in the order of time.
    [samples_fit], [unpredicted_frame], [sound_frames] (SpecRange.v): all samples of a block
    fit so many bits; frames of constant and verbatim subframes; the frames of a sound in
    numbered blocks.  [pcm] (SpecEncode.v): channels of so many samples of so many bits. *)
From Verif Require Import ProofRange PropertiesPrograms PropertiesFrame PropertiesMeta PropertiesWhole.
From Verif Require Import SpecReader.

(** * C89: the samples fit the declared bits per sample *)

(** They do not: a frame that declares 8 bits can hold a 200. *)
Theorem C89_refuted : ~ forall m fuel buffer l h chs w rest width b,
  l = w ++ rest -> bytes_ok l -> (length l < fuel)%nat -> frame_code h chs w -> h_width h = Some width ->
  fst (read_next_or_eof (fl_rb TEof) m fuel buffer l) = Ok (Some b) -> samples_fit width b.
Proof. exact width_exceeded. Qed.
(** What is declared says nothing: any channels of 32-bit values are those of a frame that
    declares any width. *)
Theorem C89_any : forall {S} (rb : ReadBytes S) t D, stream rb t D -> forall width n chs, In width widths ->
  1 <= Z.of_nat n <= 65535 -> 1 <= Z.of_nat (length chs) <= 8 -> pcm 32 n chs ->
  exists h w, frame_code h chs w /\ h_width h = Some width
    /\ forall m fuel buffer st rest, D st (w ++ rest) -> (length (w ++ rest) < fuel)%nat ->
       exists b st', read_next_or_eof rb m fuel buffer st = (Ok (Some b), st') /\ block_holds b chs.
Proof. exact (@any_values). Qed.
(** All samples fit 32 bits, in every block, of every input, in either build. *)
Theorem C89_i32 : forall {S} (rb : ReadBytes S) t D, stream rb t D -> forall m fuel buffer st l b st',
  D st l -> (length l < fuel)%nat -> read_next_or_eof rb m fuel buffer st = (Ok (Some b), st') -> samples_fit 32 b.
Proof. exact (@decoded_32). Qed.
(** The claim holds of frames without prediction. *)
Theorem C89_unpredicted_partial : forall {S} (rb : ReadBytes S) t D, stream rb t D ->
  forall m fuel buffer st h chs w rest width,
  unpredicted_frame h chs w -> h_width h = Some width -> D st (w ++ rest) -> (length (w ++ rest) < fuel)%nat ->
  exists b st', read_next_or_eof rb m fuel buffer st = (Ok (Some b), st') /\ samples_fit width b.
Proof. exact (@unpredicted_decoded). Qed.
(** And of those that encoders make, which start from samples that fit. *)
Theorem C89_encoded_partial : forall {S} (rb : ReadBytes S) t D, stream rb t D -> forall m fuel buffer st f chs rest,
  info_ok f chs -> D st (encode_frame f chs ++ rest) -> (length (encode_frame f chs ++ rest) < fuel)%nat ->
  exists b st', read_next_or_eof rb m fuel buffer st = (Ok (Some b), st') /\ samples_fit (fi_width f) b.
Proof. exact (@encoded_fit). Qed.

(** * C90: the blocks agree with the streaminfo *)

(** They need not: behind every metadata, whatever its streaminfo says, there can be a
    frame with another number of channels, more samples than the maximum, and another
    number of samples in total. *)
Theorem C90_refuted : forall {S} (rb : ReadBytes S) D, stream rb TEof D -> forall si vc w, well_formed si vc w ->
  exists l, forall m un fuel buffer st, (forall k, length (un k) = k) -> D st (w ++ l) -> (length (w ++ l) + 1 < fuel)%nat ->
    exists r inp b inp', fst (new_ext rb m un fuel default_options st) = Ok r
      /\ fr_get_streaminfo r = si /\ fr_blocks r = Ok inp
      /\ read_next_or_eof rb m fuel buffer inp = (Ok (Some b), inp')
      /\ block_channels b <> si_channels si
      /\ (si_max_block_size si < 65534 -> si_max_block_size si < block_duration b)
      /\ si_samples si <> Some (block_duration b)
      /\ forall buffer', fst (read_next_or_eof rb m fuel buffer' inp') = Ok None.
Proof. exact (@streaminfo_unrelated). Qed.

(** * C91: decoding can start at any frame *)

(** One reader decodes some frames and goes on to whatever follows; another one, of any
    kind, starts behind these frames.  From there on they give the same. *)
Theorem C91_random_access : forall {S1 S2} (rb1 : ReadBytes S1) (rb2 : ReadBytes S2) t D1 D2,
  stream rb1 t D1 -> stream rb2 t D2 ->
  forall m fuel frames ws, Forall2 (fun f w => frame_code (fst f) (snd f) w) frames ws ->
  forall rest s1 s2 buffers, D1 s1 (concat ws ++ rest) -> D2 s2 rest -> (length (concat ws ++ rest) < fuel)%nat ->
  length buffers = length frames ->
  Forall2 shows_frame (fst (history_all (read_next_or_eof rb1 m fuel) buffers s1)) frames
  /\ forall fuel' buffers',
       fst (history_until_io (read_next_or_eof rb1 m fuel') buffers' (snd (history_all (read_next_or_eof rb1 m fuel) buffers s1)))
       = fst (history_until_io (read_next_or_eof rb2 m fuel') buffers' s2).
Proof. exact (@random_access). Qed.

(** * C92: every sound can be stored and played back *)

(** Up to 2^36 samples of up to 8 channels, cut into blocks of any size: there are frames
    that, behind any metadata, play exactly these samples, in either build. *)
Theorem C92_sound : forall {S} (rb : ReadBytes S) D, stream rb TEof D -> forall width size n chs si vc w,
  In width widths -> 1 <= size <= 65535 -> 1 <= Z.of_nat (length chs) <= 8 -> pcm 32 n chs -> Z.of_nat n <= 2 ^ 36 ->
  well_formed si vc w ->
  exists frames ws, sound_frames width size (length chs) frames ws
    /\ forall m un fuel st, (forall k, length (un k) = k) -> D st (w ++ concat ws) -> (length (w ++ concat ws) + 1 < fuel)%nat ->
      exists r it, fst (new_ext rb m un fuel default_options st) = Ok r
        /\ fr_get_streaminfo r = si /\ fr_vorbis_comment r = vc /\ fr_samples r = Ok it
        /\ yields (fs_next rb m fuel) it (map ROk (interleave n chs)).
Proof. exact (@sound_plays). Qed.

(** * Examples: the hypotheses are met *)

Example C89_example : unpredicted_frame tiny_header [repeat (-3) 16] tiny_frame /\ h_width tiny_header = Some 8
  /\ info_ok stereo_info stereo_pcm
  /\ In 8 widths /\ pcm 32 3 [[2147483647; -2147483648; 200]].
Proof.
  split; [|split; [reflexivity|]; split; [apply C26_round_trip_example|]; split; [cbn; tauto|repeat constructor; cbn; lia]].
  eexists _, 8, [_], [], [0; 253], 31907. split; [exact tiny_header_ok|]. split; [reflexivity|]. split; [reflexivity|].
  split; [constructor; [|constructor]|].
  - exists Constant, 0, (word 8 (-3)), (repeat (-3) 16). split; [auto|]. split; [lia|]. split; [lia|].
    split; [apply (body_constant 8 16 (-3)); unfold fits; lia|]. split; reflexivity.
  - split; [repeat constructor; lia|]. split; [reflexivity|]. split; [cbn; lia|].
    split; [|reflexivity]. split; [lia|]. exists 3148362377540863079391. split; [lia|reflexivity].
Qed.
Example C90_example : well_formed PropertiesMeta.info
  (Some (vorbis_of PropertiesMeta.example_vendor (present PropertiesMeta.example_entries))) example_metadata.
Proof. exact PropertiesMeta.C47_example. Qed.
Example C91_example : Forall2 (fun f w => frame_code (fst f) (snd f) w) [(tiny_header, [repeat (-3) 16])] [tiny_frame]
  /\ cursor_at (mkCursor (concat [tiny_frame] ++ encode_frame stereo_info stereo_pcm) 0) (concat [tiny_frame] ++ encode_frame stereo_info stereo_pcm)
  /\ delivers TEof [EvData (encode_frame stereo_info stereo_pcm)] (encode_frame stereo_info stereo_pcm).
Proof.
  split; [constructor; [exact tiny_frame_ok|constructor]|]. split.
  - apply cursor_start; [apply bytes_check; vm_compute; reflexivity|vm_compute; reflexivity].
  - rewrite <- (app_nil_r (encode_frame _ _)) at 2. apply delivers_chunk; [|constructor; reflexivity].
    split; [apply bytes_check; vm_compute; reflexivity|]. vm_compute. split; congruence.
Qed.
Example C92_example : In 16 widths /\ pcm 32 5 [[1; 2; 3; 4; -5]; [300; -32768; 32767; 0; 9]]
  /\ interleave 5 [[1; 2; 3; 4; -5]; [300; -32768; 32767; 0; 9]] = [1; 300; 2; -32768; 3; 32767; 4; 0; -5; 9].
Proof. split; [cbn; tauto|]. split; [repeat constructor; cbn; lia|reflexivity]. Qed.

Print Assumptions C89_refuted.
Print Assumptions C89_any.
Print Assumptions C89_i32.
Print Assumptions C89_unpredicted_partial.
Print Assumptions C89_encoded_partial.
Print Assumptions C90_refuted.
Print Assumptions C91_random_access.
Print Assumptions C92_sound.
