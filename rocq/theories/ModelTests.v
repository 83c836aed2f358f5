(** Model of the comparisons in /repo/tests/testsamples.rs.  What the programs [flac] and
    [metaflac] give is a parameter. *)
From Verif Require Export ModelPrograms.
From Coq Require Import DecimalString.

Section Tests.
  (** [fuel], [turns]: as in ModelPrograms.v. *)
  Context (m : build) (uninit : nat -> list Z) (fuel : nat).

  (** ** compare_decoded_stream *)

  (** tests/testsamples.rs:192-205: one sample of every channel.  [refs]: the samples of
      the reference that were not compared yet. *)
  Fixpoint compare_point (channels : list (list Z)) (refs : list Z) : outcome (list (list Z) * list Z) :=
    match channels with
    | [] => Ok ([], refs)
    | c :: channels =>
        let same := match hd_error refs, hd_error c with
                    | Some a, Some b => a =? b
                    | None, None => true
                    | _, _ => false
                    end in
        if same then
          r <~ compare_point channels (tl refs) ;;
          Ok (tl c :: fst r, snd r)
        else Panic "decoding differs from reference decoder"
    end.
  (** tests/testsamples.rs:191 *)
  Fixpoint compare_points (n : nat) (channels : list (list Z)) (refs : list Z) : outcome (list Z) :=
    match n with
    | O => Ok refs
    | Datatypes.S n =>
        r <~ compare_point channels refs ;;
        compare_points n (fst r) (snd r)
    end.
  (** tests/testsamples.rs:188-190 *)
  Fixpoint collect_channels (b : block) (chs : list Z) : outcome (list (list Z)) :=
    match chs with
    | [] => Ok []
    | i :: chs => c <~ block_channel b i ;; rest <~ collect_channels b chs ;; Ok (c :: rest)
    end.
  (** tests/testsamples.rs:185-211 *)
  Fixpoint compare_loop {S} (rb : ReadBytes S) (turns : nat) (samples n_channels : Z) (refs : list Z)
      (sample b : Z) (buffer : vec) (blocks : S) : outcome unit :=
    if sample <? samples then
      match turns with
      | O => OutOfFuel
      | Datatypes.S turns =>
          let (next, blocks) := read_next_or_eof rb m fuel buffer blocks in
          next <~ expect next "unwrap" ;;
          block <~ expect_some next "unwrap" ;;
          channels <~ collect_channels block (map Z.of_nat (seq 0 (Z.to_nat n_channels))) ;;
          refs <~ compare_points (Z.to_nat (block_duration block)) channels refs ;;
          sample <~ chk m u64 (sample + block_duration block) ;;
          b <~ chk m u64 (b + 1) ;;
          compare_loop rb turns samples n_channels refs sample b (block_into_buffer block) blocks
      end
    else Ok tt.
  (** tests/testsamples.rs:164-212.  [refs]: the samples that [hound] reads from the output
      of [flac]; it reads them without an error. *)
  Definition compare_decoded_stream (turns : nat) (fs : file_system) (fname refs : list Z) : outcome unit :=
    reader <~ expect (flac_open m uninit fuel fs fname) "unwrap" ;;
    let si := fr_get_streaminfo reader in
    samples <~ expect_some (si_samples si) "unwrap" ;;
    blocks <~ fr_blocks reader ;;
    compare_loop (br_rb m) turns samples (si_channels si) refs 0 0 (mkVec [] 0) blocks.

  (** ** compare_metaflac_streaminfo *)

  (** [format!("{}", n)].  tests/testsamples.rs:76-84. *)
  Definition decimal (n : Z) : string := NilZero.string_of_uint (N.to_uint (Z.to_N n)).
  (** tests/testsamples.rs:66-69 [print_hex] *)
  Definition hex_digit (d : Z) : string := nth (Z.to_nat d)
    ["0"; "1"; "2"; "3"; "4"; "5"; "6"; "7"; "8"; "9"; "a"; "b"; "c"; "d"; "e"; "f"]%string ""%string.
  (** tests/testsamples.rs:66-69 *)
  Fixpoint print_hex (seq : list Z) : string :=
    match seq with
    | [] => ""%string
    | x :: seq => (hex_digit (x / 16) ++ hex_digit (x mod 16) ++ print_hex seq)%string
    end.
  (** [unwrap_or(0)] (tests/testsamples.rs:79, :80, :84). *)
  Definition unwrap_or_0 (o : option Z) : Z := match o with Some x => x | None => 0 end.
  (** tests/testsamples.rs:71-86 [read_streaminfo], as a list of lines.  Simplification:
      they are not put together and split again. *)
  Definition streaminfo_lines (si : stream_info) : list string :=
    [decimal (si_min_block_size si); decimal (si_max_block_size si);
     decimal (unwrap_or_0 (si_min_frame_size si)); decimal (unwrap_or_0 (si_max_frame_size si));
     decimal (si_sample_rate si); decimal (si_channels si); decimal (si_bits_per_sample si);
     decimal (unwrap_or_0 (si_samples si)); print_hex (si_md5sum si)].
  (** tests/testsamples.rs:91-99 *)
  Fixpoint compare_lines (mf_lines si_lines : list string) : outcome unit :=
    match mf_lines, si_lines with
    | mf :: mf_lines, si :: si_lines =>
        if string_dec mf si then compare_lines mf_lines si_lines
        else Panic "metaflac disagrees on parsed streaminfo"
    | _, _ => Ok tt
    end.
  (** tests/testsamples.rs:88-100.  [metaflac]: the lines that the program prints. *)
  Definition compare_metaflac_streaminfo (fs : file_system) (fname : list Z) (metaflac : list string) : outcome unit :=
    reader <~ expect (flac_open m uninit fuel fs fname) "unwrap" ;;
    compare_lines metaflac (streaminfo_lines (fr_get_streaminfo reader)).
End Tests.
