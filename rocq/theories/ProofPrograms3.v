(** Programs that use the crate: mp4, fuzz targets; C67 and C68. *)
From Verif Require Export ProofPrograms2 ProofBounded.
From Verif Require Import SpecReader.

(** * Mp4 *)

Section Mp4.
  Context (m : build) (un : nat -> list Z) (Hun : forall n, length (un n) = n) (fuel : nat).

  (** ** Metadata blocks *)

  Lemma info_read si blocks : Forall raw_block_ok blocks -> track_info si blocks -> get_streaminfo m un blocks = Ok (Some si).
  Proof.
    intros HF HT. induction HT as [ty data blocks Hty Hl Hc|ty data b blocks Hty Hl Hc Hn HT IH]; apply Forall_inv in HF as Hr;
      apply Forall_inv_tail in HF; destruct Hr as (_ & Hb & _); cbn [fst snd get_streaminfo] in *;
      pose proof (len_nonneg data);
      (replace (u32 (len data)) with (len data) by (unfold u32; rewrite Z.mod_small by lia; reflexivity));
      destruct (block_accepts (cu_rb m) TEof cursor_at (cu_stream m) m un Hun (mkCursor data 0) ty data _ [] Hc Hl) as (s' & E & _);
      try (rewrite app_nil_r; apply at_start; [exact Hb|lia]); rewrite E; cbn [expect fst obind]; [reflexivity|].
    destruct b as [si'| | | |]; try (apply IH, HF). destruct (Hn si' eq_refl).
  Qed.
  Lemma info_cases blocks : Forall raw_block_ok blocks ->
    (exists si, track_info si blocks /\ get_streaminfo m un blocks = Ok (Some si))
    \/ get_streaminfo m un blocks = Ok None \/ (exists why, get_streaminfo m un blocks = Panic why).
  Proof.
    induction 1 as [|[ty data] blocks (Hty & Hb & Hl) _ IH]; [auto|]. cbn [fst snd get_streaminfo] in *. pose proof (len_nonneg data).
    replace (u32 (len data)) with (len data) by (unfold u32; rewrite Z.mod_small by lia; reflexivity).
    pose proof (block_result (cu_rb m) TEof cursor_at (cu_stream m) m un Hun (mkCursor data 0) ty (len data) data Hty ltac:(lia) (at_start data Hb ltac:(lia))) as HB.
    destruct (read_metadata_block (cu_rb m) m un ty (len data) (mkCursor data 0)) as [[b|e| | |] s']; try contradiction; cbn [expect fst obind]; [|eauto].
    destruct HB as (w & rest & E & Hw & Hc & _).
    assert (rest = []) as -> by (apply (f_equal len) in E; unfold len in *; rewrite app_length in E; destruct rest; [reflexivity|cbn in E; lia]).
    rewrite app_nil_r in E. subst w.
    destruct b as [si| | | |]; [left; exists si; split; [constructor; auto; lia|reflexivity]|..];
      (destruct IH as [(si & HT & E)|IH]; [left; exists si; split; [|exact E]; eapply info_later; eauto; discriminate|right; exact IH]).
  Qed.
  Lemma track_fits si blocks : track_info si blocks -> streaminfo_fits si.
  Proof. induction 1 as [ty data blocks _ _ Hc|]; [inversion Hc; assumption|assumption]. Qed.

  (** ** The frames of one chunk *)

  Lemma chunk_written {S} (rb : ReadBytes S) t D (HS : stream rb t D) spec frames ws :
    Forall2 (fun f w => frame_code (fst f) (snd f) w) frames ws -> Forall stereo_frame frames ->
    forall buffer s acc rest, D s (concat ws ++ rest) -> (length (concat ws ++ rest) < fuel)%nat ->
    mp4_frames m fuel rb (length frames) buffer s (Some (spec, acc)) = (Ok tt, Some (spec, acc ++ pcm_of frames)).
  Proof.
    induction 1 as [|[h chs] w frames ws Hw HF IH]; intros Hst buffer s acc rest HD Hf; cbn [length mp4_frames pcm_of flat_map concat] in *.
    - rewrite app_nil_r. reflexivity.
    - rewrite <- app_assoc in *. cbn [fst snd] in *. pose proof (Forall_inv Hst) as Hs. apply Forall_inv_tail in Hst.
      destruct (frame_written rb t D HS m fuel buffer s spec acc h chs w _ Hw Hs HD Hf) as (buffer' & s' & E & HD').
      unfold bind. rewrite E. rewrite (IH Hst buffer' s' _ rest HD') by (rewrite app_length in Hf; lia). rewrite <- app_assoc. reflexivity.
  Qed.
  Lemma chunk_cases {S} (rb : ReadBytes S) t D (HS : stream rb t D) spec n : (1 < fuel)%nat ->
    forall buffer s acc l, D s l -> (length l < fuel)%nat -> no_zero_run (2 ^ 32 - 1) (bytes_bits l) ->
    exists frames ws rest, l = concat ws ++ rest /\ Forall2 (fun f w => frame_code (fst f) (snd f) w) frames ws
      /\ Forall stereo_frame frames
      /\ ((length frames = n /\ mp4_frames m fuel rb n buffer s (Some (spec, acc)) = (Ok tt, Some (spec, acc ++ pcm_of frames)))
          \/ (exists why, (length frames < n)%nat /\ mp4_frames m fuel rb n buffer s (Some (spec, acc)) = (Panic why, Some (spec, acc ++ pcm_of frames)))).
  Proof.
    intros H1. induction n as [|n IH]; intros buffer s acc l HD Hf Hz; cbn [mp4_frames].
    - exists [], [], l. cbn. rewrite app_nil_r. auto 6.
    - destruct (frame_written_or rb t D HS m fuel buffer s l spec acc Hz HD Hf H1) as [(h & chs & w & rest & buffer' & s' & -> & Hw & Hs & E & HD')|(why & E)].
      + rewrite app_length in Hf. rewrite bytes_bits_app in Hz. apply no_zero_run_suffix in Hz.
        destruct (IH buffer' s' (acc ++ interleave (Z.to_nat (h_size h)) chs) rest HD' ltac:(lia) Hz) as (frames & ws & rest' & -> & HF & Hst & H).
        exists ((h, chs) :: frames), (w :: ws), rest'. cbn [concat length pcm_of flat_map fst snd]. rewrite <- app_assoc. split; [reflexivity|].
        split; [constructor; auto|]. split; [constructor; auto|]. unfold bind. rewrite E.
        destruct H as [(Hn & E')|(why & Hn & E')]; rewrite E', <- app_assoc; [left; split; [lia|reflexivity]|right; exists why; split; [lia|reflexivity]].
      + exists [], [], l. cbn [concat app pcm_of flat_map length]. split; [reflexivity|]. split; [constructor|]. split; [constructor|].
        right. exists why. rewrite app_nil_r. split; [lia|]. unfold bind. rewrite E. reflexivity.
  Qed.

  (** ** Chunks *)

  Definition remaining (next : option (Z * Z)) (iter : list (Z * Z)) : list (Z * Z) :=
    match next with None => [] | Some ns => ns :: iter end.
  Definition step (first : Z) (next : option (Z * Z)) (iter : list (Z * Z)) (n : Z) : option (Z * Z) * list (Z * Z) * Z :=
    match next with
    | Some (first_chunk, n') =>
        if first_chunk =? first
        then match iter with [] => (None, [], n') | ns :: rest => (Some ns, rest, n') end
        else (Some (first_chunk, n'), iter, n)
    | None => (None, iter, n)
    end.
  Lemma step_table table i next iter n : ascending i (remaining next iter) ->
    (forall j, i < j -> frames_in_chunk table j 0 = frames_in_chunk (remaining next iter) j n) ->
    let '(next', iter', n') := step (i + 1) next iter n in
    ascending (i + 1) (remaining next' iter') /\ frames_in_chunk table (i + 1) 0 = n'
    /\ (forall j, i + 1 < j -> frames_in_chunk table j 0 = frames_in_chunk (remaining next' iter') j n').
  Proof.
    intros Ha Ht. destruct next as [[first n']|]; cbn [step remaining] in *.
    - inversion Ha as [|? ? ? ? Hlt Ha']; subst. destruct (first =? i + 1) eqn:E.
      + assert (first = i + 1) as -> by lia.
        assert (forall iter', ascending (i + 1) iter' -> frames_in_chunk iter' (i + 1) n' = n') as Hsame.
        { intros iter' Hi. destruct Hi as [|lo f k tb Hf]; [reflexivity|]. cbn. replace (f <=? lo) with false by lia. reflexivity. }
        assert (forall j, i < j -> frames_in_chunk table j 0 = frames_in_chunk iter j n') as Ht'.
        { intros j Hj. rewrite (Ht j Hj). cbn. replace (i + 1 <=? j) with true by lia. reflexivity. }
        destruct iter as [|ns iter]; cbn [remaining].
        * split; [constructor|]. split; [rewrite Ht' by lia; reflexivity|]. intros j Hj. apply Ht'. lia.
        * split; [exact Ha'|]. split; [rewrite Ht' by lia; apply Hsame, Ha'|]. intros j Hj. apply Ht'. lia.
      + cbn [remaining]. split; [constructor; [lia|exact Ha']|]. split; [rewrite Ht by lia; cbn; replace (first <=? i + 1) with false by lia; reflexivity|].
        intros j Hj. apply Ht. lia.
    - cbn [remaining]. split; [constructor|]. split; [rewrite Ht by lia; reflexivity|]. intros j Hj. apply Ht. lia.
  Qed.

  Lemma chunks_written reads table si offsets : forall i frames next iter n acc,
    chunks_code reads table (i + 1) offsets frames -> Forall stereo_frame frames ->
    ascending i (remaining next iter) ->
    (forall j, i < j -> frames_in_chunk table j 0 = frames_in_chunk (remaining next iter) j n) ->
    0 <= i -> i + len offsets < 2 ^ 32 ->
    (forall offset t l, In offset offsets -> delivers t (reads offset) l -> (length l < fuel)%nat) ->
    mp4_chunks m fuel reads si i offsets next iter n (Some (spec_of si, acc)) = (Ok tt, Some (spec_of si, acc ++ pcm_of frames)).
  Proof.
    induction offsets as [|offset offsets IH]; intros i frames next iter n acc HC Hst Ha Ht Hi Hl Hfu; cbn [mp4_chunks].
    - inversion HC; subst. cbn. rewrite app_nil_r. reflexivity.
    - inversion HC as [|i' off offs t fr ws rest more Hd HF Hn HC']; subst. apply Forall_app in Hst as [Hs1 Hs2].
      unfold len in Hl. cbn [length] in Hl. unfold bind at 1, lift at 1.
      replace (u32 i) with i by (unfold u32; rewrite Z.mod_small by lia; reflexivity). rewrite chk_u32 by lia.
      rewrite (Z.add_comm 1 i). pose proof (step_table table i next iter n Ha Ht) as Hstep.
      change (match next with Some (first_chunk, n0) => _ | None => _ end) with (step (i + 1) next iter n).
      destruct (step (i + 1) next iter n) as [[next' iter'] n']. destruct Hstep as (Ha' & Hn' & Ht').
      rewrite Hn' in Hn. unfold bind at 1. rewrite <- Hn.
      rewrite (chunk_written (br_rb m) t (buffered t) (br_stream m t) (spec_of si) fr ws HF Hs1 _ _ acc rest (br_new_buffered _ _ _ Hd)
        (Hfu offset t _ (or_introl eq_refl) Hd)).
      rewrite (IH (i + 1) more next' iter' n' (acc ++ pcm_of fr) HC' Hs2 Ha' Ht'); [|lia|unfold len; lia|intros ? ? ? Hin; apply Hfu; right; exact Hin].
      unfold pcm_of. rewrite flat_map_app, <- app_assoc. reflexivity.
  Qed.

  Theorem mp4_decoded blocks reads offsets table si frames : Forall raw_block_ok blocks -> track_info si blocks ->
    ascending 0 table -> len offsets < 2 ^ 32 ->
    (forall offset t l, In offset offsets -> delivers t (reads offset) l -> (length l < fuel)%nat) ->
    chunks_code reads table 1 offsets frames -> Forall stereo_frame frames ->
    decode_mp4 m un fuel blocks reads offsets table None = (Ok tt, audio si (pcm_of frames)).
  Proof.
    intros HB HT Ha Hl Hfu HC Hst. unfold decode_mp4, bind, lift. rewrite (info_read si blocks HB HT). cbn [expect_some wav_create put].
    pose proof (chunks_written reads table si offsets 0 frames) as H.
    rewrite <- (audio_spec si (track_fits _ _ HT)). destruct table as [|ns table].
    - apply H; auto; lia.
    - apply H; auto; lia.
  Qed.

  Lemma chunks_cases reads table si offsets : (1 < fuel)%nat -> forall i next iter n acc,
    ascending i (remaining next iter) ->
    (forall j, i < j -> frames_in_chunk table j 0 = frames_in_chunk (remaining next iter) j n) ->
    0 <= i -> i + len offsets < 2 ^ 32 ->
    (forall offset, In offset offsets -> exists t l, delivers t (reads offset) l /\ (length l < fuel)%nat /\ no_zero_bytes (2 ^ 29 - 1) l) ->
    (exists frames, chunks_code reads table (i + 1) offsets frames /\ Forall stereo_frame frames
      /\ mp4_chunks m fuel reads si i offsets next iter n (Some (spec_of si, acc)) = (Ok tt, Some (spec_of si, acc ++ pcm_of frames)))
    \/ (exists why w, mp4_chunks m fuel reads si i offsets next iter n (Some (spec_of si, acc)) = (Panic why, w)).
  Proof.
    intros H1. induction offsets as [|offset offsets IH]; intros i next iter n acc Ha Ht Hi Hl Hfu; cbn [mp4_chunks].
    - left. exists []. split; [constructor|]. split; [constructor|]. cbn. rewrite app_nil_r. reflexivity.
    - unfold len in Hl. cbn [length] in Hl. unfold bind, lift.
      replace (u32 i) with i by (unfold u32; rewrite Z.mod_small by lia; reflexivity). rewrite chk_u32 by lia.
      rewrite (Z.add_comm 1 i). pose proof (step_table table i next iter n Ha Ht) as Hstep.
      change (match next with Some (first_chunk, n0) => _ | None => _ end) with (step (i + 1) next iter n).
      destruct (step (i + 1) next iter n) as [[next' iter'] n']. destruct Hstep as (Ha' & Hn' & Ht').
      destruct (Hfu offset (or_introl eq_refl)) as (t & l & Hd & Hf & Hz). pose proof (br_new_buffered _ _ _ Hd) as HD.
      pose proof (no_zero_bits l (st_bytes _ _ _ (br_stream m t) _ _ HD) Hz) as Hz'.
      destruct (chunk_cases (br_rb m) t (buffered t) (br_stream m t) (spec_of si) (Z.to_nat n') H1 (buffer_for si) _ acc l HD Hf Hz') as (fr & ws & rest & -> & HF & Hs & [(Hn & E)|(why & _ & E)]);
        rewrite E; [|right; eauto].
      destruct (IH (i + 1) next' iter' n' (acc ++ pcm_of fr) Ha' Ht' ltac:(lia) ltac:(unfold len; lia) ltac:(intros; apply Hfu; right; assumption)) as [(more & HC & Hst & E')|(why & w & E')].
      + left. exists (fr ++ more). split; [|split].
        * eapply chunks_cons; eauto. rewrite Hn'. exact Hn.
        * apply Forall_app. auto.
        * rewrite E'. unfold pcm_of. rewrite flat_map_app, <- app_assoc. reflexivity.
      + right. rewrite E'. eauto.
  Qed.

  Theorem mp4_cases blocks reads offsets table : Forall raw_block_ok blocks -> ascending 0 table -> len offsets < 2 ^ 32 -> (1 < fuel)%nat ->
    (forall offset, In offset offsets -> exists t l, delivers t (reads offset) l /\ (length l < fuel)%nat /\ no_zero_bytes (2 ^ 29 - 1) l) ->
    (exists si frames, track_info si blocks /\ chunks_code reads table 1 offsets frames /\ Forall stereo_frame frames
       /\ decode_mp4 m un fuel blocks reads offsets table None = (Ok tt, audio si (pcm_of frames)))
    \/ (exists why w, decode_mp4 m un fuel blocks reads offsets table None = (Panic why, w)).
  Proof.
    intros HB Ha Hl H1 Hfu. unfold decode_mp4, bind, lift.
    destruct (info_cases blocks HB) as [(si & HT & E)|[E|(why & E)]]; rewrite E; cbn [expect_some]; [|right; eauto|right; eauto].
    cbn [wav_create put]. pose proof (chunks_cases reads table si offsets H1 0) as H. pose proof (audio_spec si (track_fits _ _ HT)) as Hsp.
    destruct table as [|ns table].
    - destruct (H None [] 0 [] ltac:(constructor) ltac:(reflexivity) ltac:(lia) ltac:(lia) Hfu) as [(frames & HC & Hst & E')|(why & w & E')]; [|right; eauto].
      left. exists si, frames. rewrite E', Hsp. auto.
    - destruct (H (Some ns) table 0 [] ltac:(exact Ha) ltac:(reflexivity) ltac:(lia) ltac:(lia) Hfu) as [(frames & HC & Hst & E')|(why & w & E')]; [|right; eauto].
      left. exists si, frames. rewrite E', Hsp. auto.
  Qed.
End Mp4.

(** * Fuzz targets *)

Lemma slice_delivers data : bytes_ok data -> forall turns, (length data < turns)%nat -> delivers TEof (slice_reads turns data) data.
Proof.
  intros Hb turns. revert data Hb. induction turns as [|turns IH]; intros data Hb Ht; [lia|]. cbn [slice_reads].
  destruct data as [|x data]; [constructor; reflexivity|]. set (l := x :: data) in *.
  rewrite <- (firstn_skipn (Z.to_nat CAPACITY) l) at 3. constructor.
  - split.
    + rewrite <- (firstn_skipn (Z.to_nat CAPACITY) l) in Hb. apply bytes_app in Hb. apply Hb.
    + unfold len. rewrite firstn_length. unfold CAPACITY. subst l. cbn [length]. lia.
  - apply IH.
    + rewrite <- (firstn_skipn (Z.to_nat CAPACITY) l) in Hb. apply bytes_app in Hb. apply Hb.
    + rewrite skipn_length. unfold CAPACITY. subst l. cbn [length] in *. lia.
Qed.

Section Fuzz.
  Context (m : build) (un : nat -> list Z) (Hun : forall n, length (un n) = n) (fuel : nat).

  Lemma new_on_cases data : bytes_ok data -> (length data < fuel)%nat ->
    (exists e, new_on m un fuel data = Err e)
    \/ (exists r inp w rest, new_on m un fuel data = Ok r /\ data = w ++ rest /\ buffered TEof inp rest
        /\ fr_blocks r = Ok inp /\ fr_samples r = Ok (mkFs inp block_empty 0 0 false)).
  Proof.
    intros Hb Hf. unfold new_on. pose proof (slice_delivers data Hb (Datatypes.S (length data)) ltac:(lia)) as Hd.
    pose proof (flac_open_cases TEof m un fuel _ data default_options Hun Hd Hf) as H.
    unfold flac_new. destruct (flac_new_ext m un fuel _ default_options) as [r|e| | |]; try contradiction; [|eauto].
    right. destruct H as (w & rest & inp & E & _ & HD & Ei). exists r, inp, w, rest. unfold fr_blocks, fr_samples. rewrite Ei. cbn. auto.
  Qed.

  Theorem fuzz_header_ok data : bytes_ok data -> (length data < fuel)%nat -> fuzz_decode_header m un fuel data = Ok tt.
  Proof.
    intros Hb Hf. unfold fuzz_decode_header. destruct (new_on_cases data Hb Hf) as [(e & E)|(r & inp & w & rest & E & _)]; rewrite E; reflexivity.
  Qed.
  Lemma rest_ok w rest inp : m = Release \/ no_zero_bytes (2 ^ 29 - 1) (w ++ rest) -> buffered TEof inp rest -> m = Release \/ no_zero_run (2 ^ 32 - 1) (bytes_bits rest).
  Proof.
    intros Hz HD. apply calm_bits; [exact (st_bytes _ _ _ (br_stream m TEof) _ _ HD)|]. eapply calm_suffix, Hz.
  Qed.
  Theorem fuzz_block_ok data : bytes_ok data -> (length data < fuel)%nat -> m = Release \/ no_zero_bytes (2 ^ 29 - 1) data ->
    fuzz_decode_single_block m un fuel data = Ok tt.
  Proof.
    intros Hb Hf Hz. unfold fuzz_decode_single_block. destruct (new_on_cases data Hb Hf) as [(e & E)|(r & inp & w & rest & E & -> & HD & Ei & _)]; rewrite E; [reflexivity|].
    rewrite Ei. cbn [obind]. rewrite app_length in Hf.
    pose proof (frame_safe (br_rb m) TEof (buffered TEof) (br_stream m TEof) m fuel (mkVec [] 0) inp rest (rest_ok w rest inp Hz HD) HD ltac:(lia)) as Hs.
    destruct Hs as [[a Es]|[e Es]]; rewrite Es; reflexivity.
  Qed.
  Lemma fuzz_loop_ok turns : forall it pcm o, yields (fs_next (br_rb m) m fuel) it (map ROk pcm ++ match o with None => [] | Some e => [RErr e] end) ->
    (length pcm < turns)%nat -> fuzz_loop m fuel turns it = Ok tt.
  Proof.
    induction turns as [|turns IH]; intros it pcm o HY Ht; [lia|]. cbn [fuzz_loop].
    destruct pcm as [|x pcm]; cbn [map app length] in *.
    - destruct o as [e|]; [apply yields_cons in HY as (it' & E & _)|apply yields_nil in HY as (it' & E & _)]; rewrite E; reflexivity.
    - apply yields_cons in HY as (it' & E & HY). rewrite E. eapply IH; [exact HY|lia].
  Qed.
  Theorem fuzz_full_ok turns data : bytes_ok data -> (length data + 1 < fuel)%nat -> m = Release \/ no_zero_bytes (2 ^ 29 - 1) data ->
    65535 * len data < Z.of_nat turns -> fuzz_decode_full m un fuel turns data = Ok tt.
  Proof.
    intros Hb Hf Hz Ht. unfold fuzz_decode_full. destruct (new_on_cases data Hb ltac:(lia)) as [(e & E)|(r & inp & w & rest & E & -> & HD & _ & Ei)]; rewrite E; [reflexivity|].
    rewrite Ei. cbn [obind]. rewrite app_length in Hf. apply bytes_app in Hb as [_ Hb].
    destruct (iterator_ends (br_rb m) TEof (buffered TEof) (br_stream m TEof) m fuel inp rest HD ltac:(lia) ltac:(lia)
      ltac:(eapply calm_suffix, Hz)) as (pcm & last & HY & Hl & Hlast).
    assert (exists o, last = match o with None => [] | Some e => [RErr e] end) as (o & ->)
      by (destruct Hlast as [->|(e & ->)]; [exists None|exists (Some e)]; reflexivity).
    eapply fuzz_loop_ok; [exact HY|]. unfold len in *. rewrite app_length in Ht. lia.
  Qed.

  Lemma first_blocks_same r inp rest v v' : fr_blocks r = Ok inp -> buffered TEof inp rest -> (length rest < fuel)%nat ->
    m = Release \/ no_zero_run (2 ^ 32 - 1) (bytes_bits rest) ->
    exists o o', first_block m fuel r v = Ok o /\ first_block m fuel r v' = Ok o' /\ same_result o o' = true.
  Proof.
    intros Ei HD Hf Hz. unfold first_block. rewrite Ei. cbn [obind].
    pose proof (frame_safe (br_rb m) TEof (buffered TEof) (br_stream m TEof) m fuel v inp rest Hz HD Hf) as Hs.
    pose proof (frame_buffers (br_rb m) TEof (buffered TEof) (br_stream m TEof) m fuel v v' inp rest HD Hf) as Hb.
    destruct Hs as [[[b|] Es]|[e Es]]; rewrite Es in Hb |- *.
    - destruct (fst (read_next_or_eof (br_rb m) m fuel v' inp)) as [[b'|]| | | |]; try discriminate Hb.
      destruct Hb as (_ & _ & _ & Hv). do 2 eexists. split; [reflexivity|]. split; [reflexivity|]. cbn [same_result].
      destruct (list_eq_dec Z.eq_dec _ _) as [|Hn]; [reflexivity|]. destruct (Hn Hv).
    - rewrite <- Hb. do 2 eexists. split; [reflexivity|]. split; reflexivity.
    - rewrite <- Hb. do 2 eexists. split; [reflexivity|]. split; reflexivity.
  Qed.
  Theorem fuzz_diff_ok data : bytes_ok data -> (length data < fuel)%nat -> m = Release \/ no_zero_bytes (2 ^ 29 - 1) data ->
    fuzz_diff m un fuel data = Ok tt.
  Proof.
    intros Hb Hf Hz. unfold fuzz_diff. destruct data as [|d0 [|d1 data]]; try reflexivity. destruct (d0 =? d1); [reflexivity|].
    cbn [length] in Hf. assert (bytes_ok data) as Hb' by (inversion Hb as [|? ? _ Hb1]; inversion Hb1; assumption).
    assert (m = Release \/ no_zero_bytes (2 ^ 29 - 1) data) as Hz' by (apply (calm_suffix m _ [d0; d1]) in Hz; exact Hz).
    destruct (new_on_cases data Hb' ltac:(lia)) as [(e & E)|(r & inp & w & rest & E & El & HD & Ei & _)]; rewrite E; [reflexivity|].
    subst data. rewrite app_length in Hf.
    destruct (first_blocks_same r inp rest (mkVec (repeat d0 (Z.to_nat (1024 * 8))) (1024 * 8)) (mkVec (repeat d1 (Z.to_nat (1024 * 8))) (1024 * 8)) Ei HD ltac:(lia) (rest_ok w rest inp Hz' HD))
      as (o & o' & E0 & E1 & Es).
    rewrite E0. cbn [obind]. destruct (match o with Some v => _ | None => _ end); [reflexivity|]. cbn [expect obind].
    rewrite E1. cbn [obind]. rewrite Es. reflexivity.
  Qed.
End Fuzz.
