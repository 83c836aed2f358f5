(** Frames in other containers, and the fuzzers: exactly what happens on any input, in
    either kind of build.

    [any_frame m f w] (SpecAnyPlay.v): [w] is the frame [f] to a build [m].  [any_packet m
    part p], [ogg_front si front], [any_chunks m reads table i offsets frames complete],
    [overflows_first m data]: SpecAnyContainers.v. *)
From Verif Require Import SpecAnyContainers ProofAnyFuzz PropertiesFrame PropertiesFault PropertiesMeta PropertiesWhole PropertiesPrograms PropertiesAnyPlay.
From Verif Require Import SpecReader.

Section ForAllBuilds.
Context (m : build) (un : nat -> list Z).
Notation memory := (forall n, length (un n) = n).

(** * C87: containers *)

(** [decode_ogg] writes the frames of the packets up to the first bad one, and panics there. *)
Theorem C87_ogg : memory -> forall fuel si front parts good bad,
  Forall (packet_ok fuel) (front ++ good ++ bad) -> (1 < fuel)%nat ->
  ogg_front si front -> Forall2 (any_packet m) parts good ->
  (forall p bad', bad = p :: bad' -> forall part, ~ any_packet m part p) ->
  exists r, decode_ogg m un fuel (front ++ good ++ bad) None = (r, audio si (pcm_of (concat parts)))
    /\ panics_at bad r.
Proof. exact (ogg_any m un). Qed.
Theorem C87_ogg_front : memory -> forall fuel packets, Forall (packet_ok fuel) packets ->
  (forall si front rest, packets = front ++ rest -> ~ ogg_front si front) ->
  exists why, decode_ogg m un fuel packets None = (Panic why, None).
Proof. exact (ogg_no_front m un). Qed.
(** There are no other lists of packets. *)
Theorem C87_ogg_each : forall fuel packets, Forall (packet_ok fuel) packets -> (1 < fuel)%nat ->
  (exists si front parts good bad, packets = front ++ good ++ bad /\ ogg_front si front
     /\ Forall2 (any_packet m) parts good
     /\ (forall p bad', bad = p :: bad' -> forall part, ~ any_packet m part p))
  \/ (forall si front rest, packets = front ++ rest -> ~ ogg_front si front).
Proof. exact (ogg_each m). Qed.

(** [decode_mp4] writes the frames up to the first that is missing, and panics there. *)
Theorem C87_mp4 : memory -> forall fuel blocks reads offsets table si frames complete,
  Forall raw_block_ok blocks -> track_info si blocks -> ascending 0 table -> len offsets < 2 ^ 32 ->
  (1 < fuel)%nat -> (forall offset t l, In offset offsets -> delivers t (reads offset) l -> (length l < fuel)%nat) ->
  any_chunks m reads table 1 offsets frames complete ->
  exists r, decode_mp4 m un fuel blocks reads offsets table None = (r, audio si (pcm_of frames))
    /\ if complete then r = Ok tt else exists why, r = Panic why.
Proof. exact (mp4_any m un). Qed.
Theorem C87_mp4_info : memory -> forall fuel blocks reads offsets table,
  Forall raw_block_ok blocks -> (forall si, ~ track_info si blocks) ->
  exists why, decode_mp4 m un fuel blocks reads offsets table None = (Panic why, None).
Proof. exact (mp4_no_info m un). Qed.
(** There are no other chunks. *)
Theorem C87_mp4_each : forall reads table offsets,
  (forall offset, In offset offsets -> exists t l, delivers t (reads offset) l) ->
  forall i, exists frames complete, any_chunks m reads table i offsets frames complete.
Proof. exact (mp4_each m). Qed.

(** * C88: the fuzzers *)

Theorem C88_single_block : memory -> forall fuel data, bytes_ok data -> (length data + 1 < fuel)%nat ->
  (overflows_first m data -> exists why, fuzz_decode_single_block m un fuel data = Panic why)
  /\ (~ overflows_first m data -> fuzz_decode_single_block m un fuel data = Ok tt).
Proof. exact (fuzz_block_any m un). Qed.
Theorem C88_full : memory -> forall fuel turns data, bytes_ok data -> (length data + 1 < fuel)%nat ->
  8 * 65535 * len data < Z.of_nat turns ->
  let panics := exists si vc frames, file_any_plays m TEof data si vc frames OnPanic in
  (panics -> exists why, fuzz_decode_full m un fuel turns data = Panic why)
  /\ (~ panics -> fuzz_decode_full m un fuel turns data = Ok tt).
Proof. exact (fuzz_full_any m un). Qed.
(** The first two bytes are what the buffers are filled with. *)
Theorem C88_diff : memory -> forall fuel data, bytes_ok data -> (length data + 1 < fuel)%nat ->
  let overflows := exists d0 d1 data', data = d0 :: d1 :: data' /\ d0 <> d1 /\ overflows_first m data' in
  (overflows -> exists why, fuzz_diff m un fuel data = Panic why)
  /\ (~ overflows -> fuzz_diff m un fuel data = Ok tt).
Proof. exact (fuzz_diff_any m un). Qed.
End ForAllBuilds.

(** * Examples *)

Lemma any_of_frame m f w : frame_code (fst f) (snd f) w -> any_frame m f w.
Proof. destruct m; [auto|apply frame_is_loose]. Qed.
Definition ogg_head : list (list Z) := firstn 2 ogg_packets.
Definition ogg_good : list (list Z) := skipn 2 ogg_packets.
Definition ogg_bad : list (list Z) := [tiny_frame; stereo_bytes].
Example C87_ogg_example : forall m, Forall (packet_ok 1000) (ogg_head ++ ogg_good ++ ogg_bad)
  /\ ogg_front info ogg_head /\ Forall2 (any_packet m) [program_good; []; program_good] ogg_good
  /\ (forall p bad', ogg_bad = p :: bad' -> forall part, ~ any_packet m part p).
Proof.
  intros m. split; [|split; [|split]].
  - repeat (apply Forall_cons; [split; [apply bytes_check; vm_compute; reflexivity|split; [vm_compute; reflexivity|apply Nat.ltb_lt; vm_compute; reflexivity]]|]). constructor.
  - eexists _, [_], (repeat 9 7), 1, (repeat 9 4), false, ([0] ++ [0; 0; 34] ++ info_bytes), [].
    split; [reflexivity|]. split; [reflexivity|]. do 4 (split; [reflexivity|]). split; [exact (info_block false)|].
    constructor; [|constructor]. exists true, example_comments. eexists. exists []. split; [symmetry; apply app_nil_r|exact (example_block true)].
  - pose proof (any_of_frame m (info_header stereo_info 4, stereo_pcm) stereo_bytes stereo_bytes_ok) as Hw.
    constructor; [rewrite <- (app_nil_r stereo_bytes); apply any_packet_frame; [exact Hw|reflexivity]|].
    constructor; [constructor|]. constructor; [apply any_packet_frame; [exact Hw|reflexivity]|constructor].
  - intros p bad' E. injection E as <- <-. intros part Hp. inversion Hp as [|f w rest Hw Hs E1 E2]; subst.
    pose proof (any_of_frame m (tiny_header, [repeat (-3) 16]) tiny_frame tiny_frame_ok) as Ht.
    destruct (any_frame_unique m _ tiny_frame [] f w rest Ht Hw) as (<- & _).
    + rewrite app_nil_r. apply bytes_check. reflexivity.
    + rewrite app_nil_r. auto.
    + discriminate Hs.
Qed.
Example C87_ogg_run : exists why, decode_ogg Release (repeat 7) 1000 (ogg_head ++ ogg_good ++ ogg_bad) None
  = (Panic why, Some (mkSpec 2 44100 16, [10; 9; 12; 10; -15; 1600; 20; -22] ++ [10; 9; 12; 10; -15; 1600; 20; -22])).
Proof. eexists. vm_compute. reflexivity. Qed.

(** The second chunk should have two frames. *)
Example C87_mp4_example : forall m, ascending 0 [(1, 2)]
  /\ any_chunks m mp4_reads [(1, 2)] 1 mp4_offsets ((program_good ++ program_good) ++ program_good) false.
Proof.
  intros m. split; [repeat constructor; lia|].
  assert (forall w, bytes_ok w -> 0 < len w <= 2048 -> delivers TEof [EvData w] w) as One.
  { intros w Hb Hl. rewrite <- (app_nil_r w) at 2. apply delivers_chunk; [|constructor; reflexivity]. split; [exact Hb|exact Hl]. }
  pose proof (any_of_frame m (info_header stereo_info 4, stereo_pcm) stereo_bytes stereo_bytes_ok) as Hw.
  apply (any_chunks_cons m mp4_reads [(1, 2)] 1 100 [300; 200] TEof (program_good ++ program_good) [stereo_bytes; stereo_bytes] [1] program_good false).
  - apply (One (stereo_bytes ++ stereo_bytes ++ [1])); [apply bytes_check; vm_compute; reflexivity|vm_compute; split; congruence].
  - repeat constructor; exact Hw.
  - repeat constructor.
  - reflexivity.
  - apply (any_chunks_bad m mp4_reads [(1, 2)] 2 300 [200] TEof program_good [stereo_bytes] [255]).
    + apply (One (stereo_bytes ++ [255])); [apply bytes_check; vm_compute; reflexivity|vm_compute; split; congruence].
    + repeat constructor. exact Hw.
    + repeat constructor.
    + apply Nat.ltb_lt. reflexivity.
    + intros f w rest E Hf _. assert (bytes_ok [255]) as Hb by (apply bytes_check; reflexivity). rewrite E in Hb.
      apply (any_frame_or_stop m TEof f w rest AtEnd Hb Hf). rewrite <- E. apply any_end; [reflexivity|cbn; lia].
Qed.
Example C87_mp4_run : exists why, decode_mp4 Debug (repeat 7) 1000 mp4_blocks mp4_reads mp4_offsets [(1, 2)] None
  = (Panic why, Some (mkSpec 2 44100 16, concat (repeat [10; 9; 12; 10; -15; 1600; 20; -22] 3))).
Proof. eexists. vm_compute. reflexivity. Qed.

Example C88_example : bytes_ok program_file /\ ~ overflows_first Debug program_file
  /\ exists data, bytes_ok data /\ overflows_first Debug data.
Proof.
  assert (bytes_ok program_file) as Hb by (apply bytes_check; vm_compute; reflexivity).
  split; [exact Hb|]. split.
  - intros H. destruct (proj1 (C88_single_block Debug (repeat 7) (repeat_length 7) 1000 program_file Hb ltac:(apply Nat.ltb_lt; vm_compute; reflexivity)) H) as (why & E).
    vm_compute in E. discriminate E.
  - destruct (panicking_file (Z.to_nat (2 ^ 29)) info program_vc [] example_metadata [] (Z2Nat.id (2 ^ 29) ltac:(lia))) as (fs & path & l & Hat & (w & rest & El & Hw & (ws & x & Ex & HF & Hs))).
    + exact C47_example.
    + apply bytes_check. vm_compute. reflexivity.
    + constructor.
    + constructor.
    + exists l. split; [exact (file_delivers _ _ _ _ Hat)|]. split; [reflexivity|].
      inversion HF; subst. cbn [concat app] in *. inversion Hs as [| |p rest1 Hp E1 E2 E3| | |]; subst. exists info, program_vc, w, p, rest1. auto.
Qed.

Print Assumptions C87_ogg.
Print Assumptions C87_ogg_front.
Print Assumptions C87_ogg_each.
Print Assumptions C87_mp4.
Print Assumptions C87_mp4_info.
Print Assumptions C87_mp4_each.
Print Assumptions C88_single_block.
Print Assumptions C88_full.
Print Assumptions C88_diff.
