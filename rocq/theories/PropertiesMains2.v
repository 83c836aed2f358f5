(** The examples for other containers on lists of files, and the programs that measure time.

    [ogg_result], [mp4_result] (SpecMains2.v): whether a file is accepted, and what is
    written for it.  [ran], [apart]: as in PropertiesMains.v.  [measurable], [tagged],
    [untagged]: the files that the programs can measure, or cannot.  [measured] and
    [durations]: differences of the readings of a clock.  [has_rank k l x] (SpecBench.v):
    [x] is the element of rank [k] in [l], by size of the quotients. *)
From Verif Require Import SpecMains2 ProofMains2 PropertiesFrame PropertiesFault PropertiesMeta PropertiesWhole PropertiesPrograms PropertiesAnyPlay PropertiesAnyContainers PropertiesBench.
From Verif Require Import SpecReader.

Section ForAllBuilds.
Context (m : build) (un : nat -> list Z).
Notation memory := (forall n, length (un n) = n).

(** * C93: other containers *)

Theorem C93_ogg : memory -> forall fuel, (1 < fuel)%nat -> forall wav_path files args results,
  Forall (ogg_within fuel files) args -> apart wav_path args ->
  Forall2 (fun path f => ogg_result m files path true f) args results ->
  ran wav_path (ogg_main m un fuel wav_path files args started) true [] (combine args results).
Proof. exact (ogg_all m un). Qed.
(** The first file that is not accepted ends the program. *)
Theorem C93_ogg_panic : memory -> forall fuel, (1 < fuel)%nat -> forall wav_path files args results path f rest,
  Forall (ogg_within fuel files) (args ++ path :: rest) -> apart wav_path (args ++ path :: rest) ->
  Forall2 (fun path f => ogg_result m files path true f) args results -> ogg_result m files path false f ->
  ran wav_path (ogg_main m un fuel wav_path files (args ++ path :: rest) started) false [] (combine args results ++ [(path, f)]).
Proof. exact (ogg_up_to m un). Qed.
(** There are no other files. *)
Theorem C93_ogg_each : forall fuel, (1 < fuel)%nat -> forall files path,
  ogg_within fuel files path -> exists ok f, ogg_result m files path ok f.
Proof. exact (ogg_some m). Qed.

Theorem C93_mp4 : memory -> forall fuel, (1 < fuel)%nat -> forall wav_path files args results,
  Forall (mp4_within fuel files) args -> apart wav_path args ->
  Forall2 (fun path f => mp4_result m files path true f) args results ->
  ran wav_path (mp4_main m un fuel wav_path files args started) true [] (combine args results).
Proof. exact (mp4_all m un). Qed.
Theorem C93_mp4_panic : memory -> forall fuel, (1 < fuel)%nat -> forall wav_path files args results path f rest,
  Forall (mp4_within fuel files) (args ++ path :: rest) -> apart wav_path (args ++ path :: rest) ->
  Forall2 (fun path f => mp4_result m files path true f) args results -> mp4_result m files path false f ->
  ran wav_path (mp4_main m un fuel wav_path files (args ++ path :: rest) started) false [] (combine args results ++ [(path, f)]).
Proof. exact (mp4_up_to m un). Qed.
Theorem C93_mp4_each : memory -> forall fuel files path,
  mp4_within fuel files path -> exists ok f, mp4_result m files path ok f.
Proof. exact (mp4_some m un). Qed.

(** * C94: measuring *)

(** [bench_decode] measures the file five times. *)
Theorem C94_decode : memory -> forall fuel turns fs path others t data si n metadata frames clock,
  file_at fs path t data -> (length data + 1 < fuel)%nat -> len data < Z.of_nat turns -> len data < 2 ^ 56 ->
  (forall run, clock_ok (clock run)) -> measurable t data si n metadata frames ->
  exists rs, bench_decode_main m un fuel turns fs clock (path :: others) = Ok rs /\ length rs = 5%nat
    /\ forall run st p, nth_error rs run = Some (st, p) ->
         st_data_bytes st = Z.max 0 (len data - 2048 * ((len metadata + 2047) / 2048))
         /\ st_num_samples st = n * si_channels si
         /\ st_total_ns st = clock run (S (length frames)) - clock run O
         /\ st_sample_times st = measured (clock run) O frames
         /\ are_percentiles (measured (clock run) O frames) p.
Proof. exact (decode_main_ok m un). Qed.
(** All other files, and none, make it panic. *)
Theorem C94_decode_panic : memory -> forall fuel turns fs path others t data clock,
  file_at fs path t data -> (length data + 1 < fuel)%nat -> len data < Z.of_nat turns -> len data < 2 ^ 56 ->
  (forall run, clock_ok (clock run)) -> no_zero_bytes (2 ^ 29 - 1) data ->
  (forall si n metadata frames, ~ measurable t data si n metadata frames) ->
  exists why, bench_decode_main m un fuel turns fs clock (path :: others) = Panic why.
Proof. exact (decode_main_panics m un). Qed.
Theorem C94_decode_missing : forall fuel turns fs clock args,
  (args = [] \/ exists path others k, args = path :: others /\ fs path = inl k) ->
  exists why, bench_decode_main m un fuel turns fs clock args = Panic why.
Proof. exact (decode_main_missing m un). Qed.

(** [bench_metadata] prints percentiles of the times for ten openings of a file, and the
    10th percentile of the rates of bytes per time. *)
Theorem C94_metadata : memory -> forall fuel fs walk metadata clock,
  clock_ok clock -> forward clock -> flac_files walk <> [] ->
  Forall2 (fun path x => tagged fs fuel path (fst x) (snd x)) (flac_files walk) metadata ->
  exists ps p10 p50 p90 p10_rate, bench_metadata_main m un fuel fs clock walk = Ok (p10, p50, p90, p10_rate)
    /\ Forall2 (fun x p => len (fst x) <= p < len (fst x) + 2048 /\ p <= len (fst x ++ snd x)) metadata ps
    /\ let times := durations clock (length ps) in
       are_percentiles (map (fun d => (d, 1)) times) (p10, p50, p90)
       /\ has_rank (10 * len times / 100) (combine (map (fun p => 10 * p) ps) times) p10_rate.
Proof. exact (metadata_main_ok m un). Qed.
Theorem C94_metadata_panic : memory -> forall fuel fs walk clock, clock_ok clock ->
  (flac_files walk = []
   \/ exists good metadata bad rest, flac_files walk = good ++ bad :: rest
      /\ Forall2 (fun path x => tagged fs fuel path (fst x) (snd x)) good metadata /\ untagged fs fuel bad) ->
  exists why, bench_metadata_main m un fuel fs clock walk = Panic why.
Proof. exact (metadata_main_panics m un). Qed.
Theorem C94_metadata_each : memory -> forall fuel fs path, readable fs path ->
  (forall t l, file_at fs path t l -> (length l < fuel)%nat /\ len l < 2 ^ 60) ->
  (exists w rest, tagged fs fuel path w rest) \/ untagged fs fuel path.
Proof. exact (tagged_or_not m un). Qed.
End ForAllBuilds.

(** * Examples *)

(** A good file, one with a bad packet, and none. *)
Definition example_ogg : ogg_files := fun path =>
  match path with
  | [97] => inr (ogg_head ++ ogg_good, false)
  | [98] => inr (ogg_head ++ ogg_good ++ ogg_bad, false)
  | [99] => inr (ogg_head ++ ogg_good, true)
  | _ => inl (OtherIo 2)
  end.
Example C93_ogg_example : forall m,
  ogg_result m example_ogg [97] true (audio info (pcm_of (program_good ++ program_good)))
  /\ ogg_result m example_ogg [98] false (audio info (pcm_of (program_good ++ program_good)))
  /\ ogg_result m example_ogg [99] false (audio info (pcm_of (program_good ++ program_good)))
  /\ ogg_result m example_ogg [100] false None
  /\ Forall (ogg_within 1000 example_ogg) [[97]; [98]; [99]; [100]]
  /\ apart (fun p => p ++ literal ".wav") [[97]; [98]; [99]; [100]].
Proof.
  intros m. destruct (C87_ogg_example m) as (HF & Hfr & HP & Hbad).
  split; [exact (ogg_played m example_ogg [97] info ogg_head _ ogg_good eq_refl Hfr HP)|].
  split; [exact (ogg_broken m example_ogg [98] info ogg_head _ ogg_good ogg_bad false eq_refl Hfr HP (Hbad _ _ eq_refl))|].
  split; [exact (ogg_broken m example_ogg [99] info ogg_head _ ogg_good [] true ltac:(rewrite app_nil_r; reflexivity) Hfr HP eq_refl)|].
  split; [exact (ogg_no_file m example_ogg [100] (OtherIo 2) eq_refl)|]. split.
  - pose proof HF as HF1. rewrite app_assoc in HF1. apply Forall_app in HF1 as [HF1 _]. apply Forall_forall.
    assert (forall (p : list (list Z)) (b : bool) packets broken, @inr io_kind _ (p, b) = inr (packets, broken) -> p = packets) as Hin by congruence.
    intros path [<-|[<-|[<-|[<-|[]]]]] packets broken E; [rewrite <- (Hin _ _ _ _ E)..|discriminate E]; [exact HF1|exact HF|exact HF1].
  - intros a b [<-|[<-|[<-|[<-|[]]]]] [<-|[<-|[<-|[<-|[]]]]]; discriminate.
Qed.
Example C93_ogg_run : let wav_path p := p ++ literal ".wav" in
  let r := ogg_main Release (repeat 7) 1000 wav_path example_ogg [[97]; [98]; [99]] started in
  (exists why, fst r = Panic why) /\ w_printed (snd r) = []
  /\ w_audio (snd r) (wav_path [97]) = Some (mkSpec 2 44100 16, concat (repeat [10; 9; 12; 10; -15; 1600; 20; -22] 2))
  /\ w_audio (snd r) (wav_path [98]) = w_audio (snd r) (wav_path [97])
  /\ w_audio (snd r) (wav_path [99]) = None.
Proof. vm_compute. repeat split. eexists. reflexivity. Qed.

(** A FLAC track behind another one, and tracks with something missing. *)
Definition other_track : track := mkTrack false None None None.
Definition example_mp4 : mp4_files := fun path =>
  match path with
  | [97] => inr (Some ([other_track; mkTrack true (Some (Some mp4_blocks)) (Some mp4_offsets) (Some mp4_table); other_track], mp4_reads))
  | [98] => inr (Some ([other_track], mp4_reads))
  | [99] => inr (Some ([mkTrack true (Some (Some mp4_blocks)) (Some mp4_offsets) None], mp4_reads))
  | [100] => inr (Some ([mkTrack true (Some None) (Some mp4_offsets) (Some mp4_table)], mp4_reads))
  | [101] => inr None
  | _ => inl (OtherIo 2)
  end.
Lemma mp4_read_ok offset : (exists t l, delivers t (mp4_reads offset) l) /\ forall t l, delivers t (mp4_reads offset) l -> (length l < 1000)%nat.
Proof.
  assert (exists w, mp4_reads offset = [EvData w] /\ (length w < 500)%nat /\ bytes_ok w /\ 0 < len w <= 2048) as (w & E & Hw & Hb & Hl).
  { unfold mp4_reads. destruct (offset =? 100); eexists; (split; [reflexivity|]); (split; [apply Nat.ltb_lt; vm_compute; reflexivity|]);
      (split; [apply bytes_check; vm_compute; reflexivity|vm_compute; split; congruence]). }
  rewrite E. split.
  - exists TEof, (w ++ []). apply delivers_chunk; [split; assumption|constructor; reflexivity].
  - intros t l Hd. inversion Hd as [| |c r l' Hc Hr]; subst. inversion Hr; subst. rewrite app_nil_r. lia.
Qed.
Lemma first_here (before : list track) t after : t_flac t = true -> Forall (fun t => t_flac t = false) before -> first_flac t (before ++ t :: after).
Proof. intros Ht HF. exists before, after. auto. Qed.
Example C93_mp4_example : forall m,
  (exists frames, pcm_of frames = concat (repeat [10; 9; 12; 10; -15; 1600; 20; -22] 4)
     /\ mp4_result m example_mp4 [97] true (audio info (pcm_of frames)))
  /\ mp4_result m example_mp4 [98] true None
  /\ mp4_result m example_mp4 [99] false (audio info [])
  /\ mp4_result m example_mp4 [100] false None
  /\ mp4_result m example_mp4 [101] false None
  /\ mp4_result m example_mp4 [102] false None
  /\ Forall (mp4_within 1000 example_mp4) [[97]; [98]; [99]; [100]; [101]; [102]].
Proof.
  intros m. destruct C67_mp4_example as (HB & HT & Ha & HC & _).
  assert (forall offsets table, track_streaminfo (mkTrack true (Some (Some mp4_blocks)) offsets table) info) as Hsi.
  { intros offsets table. exists mp4_blocks. auto. }
  split; [|split; [|split; [|split; [|split; [|split]]]]].
  - exists (program_good ++ program_good ++ program_good ++ program_good). split; [vm_compute; reflexivity|].
    eapply (mp4_played m example_mp4 [97] _ mp4_reads _ info mp4_offsets mp4_table); try reflexivity.
    + apply (first_here [other_track]); [reflexivity|constructor; [reflexivity|constructor]].
    + apply Hsi.
    + reflexivity.
    + reflexivity.
    + assert (forall i offsets frames, chunks_code mp4_reads mp4_table i offsets frames -> Forall stereo_frame frames ->
        any_chunks m mp4_reads mp4_table i offsets frames true) as H.
      { induction 1 as [i|i offset offsets t frames ws rest more Hd HF Hl HC' IH]; intros Hst; [constructor|]. apply Forall_app in Hst as [Hs1 Hs2].
        eapply any_chunks_cons; eauto. clear - HF. induction HF; constructor; auto. apply any_of_frame; assumption. }
      apply H; [exact HC|]. repeat constructor.
  - apply (mp4_no_flac m example_mp4 [98] [other_track] mp4_reads eq_refl). repeat constructor.
  - eapply (mp4_no_chunks m example_mp4 [99] _ mp4_reads _ info eq_refl); [apply (first_here []); [reflexivity|constructor]|apply Hsi|right; reflexivity].
  - eapply (mp4_no_streaminfo m example_mp4 [100] _ mp4_reads _ eq_refl); [apply (first_here []); [reflexivity|constructor]|].
    intros si (blocks & E & _). discriminate E.
  - exact (mp4_no_mp4 m example_mp4 [101] eq_refl).
  - exact (mp4_no_file m example_mp4 [102] (OtherIo 2) eq_refl).
  - assert (forall t, In t [other_track; mkTrack true (Some (Some mp4_blocks)) (Some mp4_offsets) (Some mp4_table);
        mkTrack true (Some (Some mp4_blocks)) (Some mp4_offsets) None; mkTrack true (Some None) (Some mp4_offsets) (Some mp4_table)] ->
      (forall blocks, t_blocks t = Some (Some blocks) -> Forall raw_block_ok blocks)
      /\ (forall table, t_table t = Some table -> ascending 0 table)
      /\ forall offsets, t_offsets t = Some offsets -> len offsets < 2 ^ 32
         /\ forall offset, In offset offsets -> (exists t l, delivers t (mp4_reads offset) l)
              /\ forall t l, delivers t (mp4_reads offset) l -> (length l < 1000)%nat) as H.
    { intros t Ht. split; [|split].
      - intros blocks E. destruct Ht as [<-|[<-|[<-|[<-|[]]]]]; try discriminate E; injection E as <-; exact HB.
      - intros table E. destruct Ht as [<-|[<-|[<-|[<-|[]]]]]; try discriminate E; injection E as <-; exact Ha.
      - intros offsets E. split; [destruct Ht as [<-|[<-|[<-|[<-|[]]]]]; try discriminate E; injection E as <-; vm_compute; reflexivity|].
        intros offset _. apply mp4_read_ok. }
    apply Forall_forall. intros path [<-|[<-|[<-|[<-|[<-|[<-|[]]]]]]] tracks reads t E Hi; try discriminate E; injection E as <- <-; apply H; cbn in *; tauto.
Qed.
Example C93_mp4_run : let wav_path p := p ++ literal ".wav" in
  let r := mp4_main Debug (repeat 7) 1000 wav_path example_mp4 [[97]; [98]; [99]; [97]] started in
  (exists why, fst r = Panic why)
  /\ w_audio (snd r) (wav_path [97]) = Some (mkSpec 2 44100 16, concat (repeat [10; 9; 12; 10; -15; 1600; 20; -22] 4))
  /\ w_audio (snd r) (wav_path [98]) = None
  /\ w_audio (snd r) (wav_path [99]) = Some (mkSpec 2 44100 16, []).
Proof. vm_compute. repeat split. eexists. reflexivity. Qed.

(** The file of C73, and the one of C66, which has a damaged frame and no such tags. *)
Example C94_example : measurable TEof tagged_file info 1000000 tagged_metadata tagged_frames
  /\ (forall si n w frames, ~ measurable TEof program_file si n w frames)
  /\ tagged tagged_files 1000 program_path tagged_metadata (stereo_bytes ++ tiny_frame)
  /\ untagged tagged_files 1000 [98]
  /\ flac_files [([99], false); (program_path, true); ([97], false); (program_path, true)] = [program_path; program_path].
Proof.
  destruct C74_example as (Hb & Hl & _ & El & Hw & Hp & Hn). destruct C73_example as (Hat & _ & Hno).
  split; [|split; [|split; [|split]]].
  - split; [reflexivity|]. split; [exists tagged_vc, (stereo_bytes ++ tiny_frame); auto|]. split; [exact Hn|discriminate].
  - intros si n w frames (_ & (vc & rest & El' & Hw' & Hp') & _).
    assert (bytes_ok program_file) as Hbp by (apply bytes_check; vm_compute; reflexivity).
    pose proof (proj1 C66_example) as Hp0.
    destruct (file_unique TEof program_file _ _ _ _ si vc frames None Hbp Hp0) as (_ & _ & _ & E); [exists w, rest; auto|discriminate E].
  - exists TEof, info, tagged_vc, (present tagged_entries). destruct C73_metadata_example as (_ & Hc & _).
    split; [exact Hat|]. split; [apply Nat.ltb_lt; vm_compute; reflexivity|]. split; [exact Hw|]. split; [exact Hc|].
    split; [vm_compute; reflexivity|apply C76_example].
  - left. eauto.
  - reflexivity.
Qed.
Example C94_run :
  (let r := bench_decode_main Debug (repeat 7) 1000 1000 tagged_files (fun run i => Z.of_nat run + Z.of_nat i * 100) [program_path] in
   r = Ok (repeat (mkStats 0 2000000 300 [(100, 8); (100, 16)], ((100, 16), (100, 8), (100, 8))) 5))
  /\ (exists why, bench_decode_main Debug (repeat 7) 1000 1000 program_files (fun run i => Z.of_nat i * 100) [program_path] = Panic why)
  /\ bench_metadata_main Debug (repeat 7) 1000 tagged_files (fun i => Z.of_nat i * Z.of_nat i)
       [([99], false); (program_path, true); ([97], false); (program_path, true)] = Ok ((1, 1), (5, 1), (5, 1), (6090, 5)).
Proof. vm_compute. repeat split. eexists. reflexivity. Qed.
Print Assumptions C93_ogg.
Print Assumptions C93_ogg_panic.
Print Assumptions C93_ogg_each.
Print Assumptions C93_mp4.
Print Assumptions C93_mp4_panic.
Print Assumptions C93_mp4_each.
Print Assumptions C94_decode.
Print Assumptions C94_decode_panic.
Print Assumptions C94_decode_missing.
Print Assumptions C94_metadata.
Print Assumptions C94_metadata_panic.
Print Assumptions C94_metadata_each.
