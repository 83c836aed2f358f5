(** The crate as the fuzzers build it, with [cfg(fuzzing)]: a small buffer, and
    checksums that are read but not compared.  Everything that does not appear here is the
    same in both configurations. *)
From Verif Require Export ModelPrograms.

(** src/input.rs:49-50 *)
Definition CAPACITY_fz : Z := 31.

(** src/input.rs:41-59 (configuration [fuzzing]) *)
Definition br_new_fz (inner : list event) : breader :=
  mkBR inner (repeat 0 (Z.to_nat CAPACITY_fz)) 0 0.

(** src/frame.rs:131-316 after the creation of the CRC-8 reader
    (configuration [fuzzing]: lines 305-306 instead of 297-303) *)
Definition read_frame_header_body_fz {S} (rb : ReadBytes S) (m : build)
    : M (crc8reader S) (option frame_header) :=
  let crb := crc8_rb rb in
  osync <- read_be_u16_or_eof crb ;;
  match osync with
  | None => ret None
  | Some sync_res_block =>
    if negb (Z.land sync_res_block 65532 =? 65528)
    then fmt_err "frame sync code missing"
    else if negb (Z.land sync_res_block 2 =? 0)
    then fmt_err "invalid frame header, encountered reserved value"
    else
      let variable := negb (Z.land sync_res_block 1 =? 0) in
      bs_sr <- read_u8 crb ;;
      (* block size: the value if predefined, else whether 8 or 16 bits follow *)
      let n := Z.shiftr bs_sr 4 in
      bs <-
        (if n =? 0 then fmt_err "invalid frame header, encountered reserved value"
         else if n =? 1 then ret (192, false, false)
         else if (2 <=? n) && (n <=? 5) then
           p <- lift (shl m u16 16 1 (n - 2)) ;;
           v <- lift (chk m u16 (576 * p)) ;;
           ret (v, false, false)
         else if n =? 6 then ret (0, true, false)
         else if n =? 7 then ret (0, false, true)
         else
           p <- lift (shl m u16 16 1 (n - 8)) ;;
           v <- lift (chk m u16 (256 * p)) ;;
           ret (v, false, false)) ;;
      let '(block_size, read_8bit_bs, read_16bit_bs) := (bs : Z * bool * bool) in
      let k := Z.land bs_sr 15 in
      sr <-
        (if k =? 0 then ret (None, false, false, false)
         else if k =? 1 then ret (Some 88200, false, false, false)
         else if k =? 2 then ret (Some 176400, false, false, false)
         else if k =? 3 then ret (Some 192000, false, false, false)
         else if k =? 4 then ret (Some 8000, false, false, false)
         else if k =? 5 then ret (Some 16000, false, false, false)
         else if k =? 6 then ret (Some 22050, false, false, false)
         else if k =? 7 then ret (Some 24000, false, false, false)
         else if k =? 8 then ret (Some 32000, false, false, false)
         else if k =? 9 then ret (Some 44100, false, false, false)
         else if k =? 10 then ret (Some 48000, false, false, false)
         else if k =? 11 then ret (Some 96000, false, false, false)
         else if k =? 12 then ret (None, true, false, false)
         else if k =? 13 then ret (None, false, true, false)
         else if k =? 14 then ret (None, false, false, true)
         else fmt_err "invalid frame header") ;;
      let '(sample_rate, read_8bit_sr, read_16bit_sr, read_16bit_sr_ten) :=
        (sr : option Z * bool * bool * bool) in
      chan_bps_res <- read_u8 crb ;;
      let c := Z.shiftr chan_bps_res 4 in
      channel_assignment <-
        (if c <? 8 then
           ch <- lift (chk m u8 (c + 1)) ;;
           ret (Independent ch)
         else if c =? 8 then ret LeftSideStereo
         else if c =? 9 then ret RightSideStereo
         else if c =? 10 then ret MidSideStereo
         else fmt_err "invalid frame header, encountered reserved value") ;;
      let b := Z.shiftr (Z.land chan_bps_res 14) 1 in
      bits_per_sample <-
        (if b =? 0 then ret None
         else if b =? 1 then ret (Some 8)
         else if b =? 2 then ret (Some 12)
         else if b =? 4 then ret (Some 16)
         else if b =? 5 then ret (Some 20)
         else if b =? 6 then ret (Some 24)
         else fmt_err "invalid frame header, encountered reserved value") ;;
      if negb (Z.land chan_bps_res 1 =? 0)
      then fmt_err "invalid frame header, encountered reserved value"
      else
        block_time <-
          (if (variable : bool) then
             sample <- read_var_length_int crb m ;;
             ret (SampleNumber sample)
           else
             frame <- read_var_length_int crb m ;;
             if 2147483647 <? frame
             then fmt_err "invalid frame header, frame number too large"
             else ret (FrameNumber (u32 frame))) ;;
        block_size <-
          (if (read_8bit_bs : bool) then
             bs <- read_u8 crb ;;
             lift (chk m u16 (bs + 1))
           else ret block_size) ;;
        block_size <-
          (if (read_16bit_bs : bool) then
             bs <- read_be_u16 crb ;;
             if bs =? 65535 then fmt_err "invalid block size, exceeds 65535"
             else lift (chk m u16 (bs + 1))
           else ret block_size) ;;
        sample_rate <-
          (if (read_8bit_sr : bool) then
             sr <- read_u8 crb ;; ret (Some sr)
           else ret sample_rate) ;;
        sample_rate <-
          (if (read_16bit_sr : bool) then
             sr <- read_be_u16 crb ;; ret (Some sr)
           else ret sample_rate) ;;
        sample_rate <-
          (if (read_16bit_sr_ten : bool) then
             sr_ten <- read_be_u16 crb ;;
             v <- lift (chk m u32 (sr_ten * 10)) ;;
             ret (Some v)
           else ret sample_rate) ;;
        computed_crc <- crc8_crc ;;
        presumed_crc <- read_u8 crb ;;
        (* [let _ = computed_crc == presumed_crc;] *)
        ret (Some (mkFh block_time block_size sample_rate
                        channel_assignment bits_per_sample))
  end.

(** src/frame.rs:131-316 (configuration [fuzzing]) *)
Definition read_frame_header_or_eof_fz {S} (rb : ReadBytes S) (m : build)
    : M S (option frame_header) :=
  with_crc8 (read_frame_header_body_fz rb m).

(** src/frame.rs:667-779 after the creation of the CRC-16 reader
    (configuration [fuzzing]: lines 766-767 instead of 758-764) *)
Definition read_next_body_fz {S} (rb : ReadBytes S) (m : build) (fuel : nat)
    (buffer : vec) : M (crc16reader S) (option block) :=
  let crb := crc16_rb rb in
  oheader <- read_frame_header_or_eof_fz crb m ;;
  match oheader with
  | None => ret None
  | Some header =>
    total_samples <- lift (chk m u64 (fh_channels header * fh_block_size header)) ;;
    let '(buffer, alloc) := ensure_buffer_len buffer total_samples in
    (match alloc with
     | Some n => rb_alloc crb n 4
     | None => ret tt
     end) ;;;
    bps <- lift (match fh_bits_per_sample header with
                 | Some x => Ok x
                 | None => Err (Unsupported "header without bits per sample info")
                 end) ;;
    lift (debug_assert m (bps <=? 32)) ;;;
    items <- with_bitstream
      (decode_channels crb m fuel (fh_channel_assignment header) bps
                       (fh_block_size header) (v_items buffer)) ;;
    let buffer := mkVec items (v_cap buffer) in
    computed_crc <- crc16_crc ;;
    presumed_crc <- read_be_u16 crb ;;
    (* [let _ = computed_crc == presumed_crc;] *)
    time <- lift (match fh_block_time header with
                  | FrameNumber fnr => chk m u64 (fh_block_size header * fnr)
                  | SampleNumber snr => Ok snr
                  end) ;;
    b <- lift (block_new time (fh_block_size header) buffer) ;;
    ret (Some b)
  end.

(** src/frame.rs:667-779 (configuration [fuzzing]) *)
Definition read_next_or_eof_fz {S} (rb : ReadBytes S) (m : build) (fuel : nat)
    (buffer : vec) : M S (option block) :=
  with_crc16 (read_next_body_fz rb m fuel buffer).

Section SamplesFz.
  Context {S : Type} (rb : ReadBytes S) (m : build) (fuel : nat).

  (** src/lib.rs:476-519 *)
  Definition fs_next_fz : M (flac_samples S) (option (result Z)) :=
    st <- get ;;
    if fs_has_failed st then ret None
    else
      ch <- lift (chk m u32 (fs_channel st + 1)) ;;
      fs_set_channel ch ;;;
      if block_channels (fs_block st) <=? ch then
        fs_set_channel 0 ;;;
        sa <- lift (chk m u32 (fs_sample st + 1)) ;;
        fs_set_sample sa ;;;
        if block_duration (fs_block st) <=? sa then
          fs_set_sample 0 ;;;
          let current_block := fs_block st in
          fs_set_block block_empty ;;;
          r <- catch (fs_lift (read_next_or_eof_fz rb m fuel
                                 (block_into_buffer current_block))) ;;
          match r with
          | ROk (Some next_block) =>
              fs_set_block next_block ;;;
              fs_yield
          | ROk None => ret None
          | RErr error =>
              fs_set_has_failed true ;;;
              ret (Some (RErr error))
          end
        else fs_yield
      else fs_yield.
End SamplesFz.

(** src/lib.rs:217-219, 230-307 (configuration [fuzzing]) *)
Definition flac_new_ext_fz (m : build) (uninit : nat -> list Z) (fuel : nat)
    (reader : list event) (options : flac_reader_options)
    : outcome (flac_reader breader) :=
  fst (new_ext (br_rb m) m uninit fuel options (br_new_fz reader)).
(** src/lib.rs:217-219 *)
Definition flac_new_fz (m : build) (uninit : nat -> list Z) (fuel : nat)
    (reader : list event) : outcome (flac_reader breader) :=
  flac_new_ext_fz m uninit fuel reader default_options.

Section Targets.
  Context (m : build) (uninit : nat -> list Z) (fuel : nat).

  (** [io::Read] of a [Cursor] over [data], through a [BufferedReader]: up to 31 bytes
      per call.  ([turns] exceeds the number of calls.).
      fuzz/fuzzers/decode_header.rs:17-18. *)
  Fixpoint slice_reads_fz (turns : nat) (data : list Z) : list event :=
    match turns with
    | O => []
    | Datatypes.S turns =>
        match data with
        | [] => []
        | _ => EvData (firstn (Z.to_nat CAPACITY_fz) data) :: slice_reads_fz turns (skipn (Z.to_nat CAPACITY_fz) data)
        end
    end.
  (** fuzz/fuzzers/decode_header.rs:17-18 *)
  Definition new_on_fz (data : list Z) : outcome (flac_reader breader) :=
    flac_new_fz m uninit fuel (slice_reads_fz (Datatypes.S (length data)) data).

  (** fuzz/fuzzers/decode_header.rs:16-22 *)
  Definition fuzz_decode_header_fz (data : list Z) : outcome unit :=
    match new_on_fz data with Err _ => Ok tt | o => _ <~ o ;; Ok tt end.
  (** fuzz/fuzzers/decode_single_block.rs:16-27 *)
  Definition fuzz_decode_single_block_fz (data : list Z) : outcome unit :=
    match new_on_fz data with
    | Ok r =>
        inp <~ fr_blocks r ;;
        match fst (read_next_or_eof_fz (br_rb m) m fuel (mkVec [] 0) inp) with Err _ => Ok tt | o => _ <~ o ;; Ok tt end
    | Err _ => Ok tt
    | o => _ <~ o ;; Ok tt
    end.
  (** fuzz/fuzzers/decode_full.rs:23-28 *)
  Fixpoint fuzz_loop_fz (turns : nat) (it : flac_samples breader) : outcome unit :=
    match turns with
    | O => OutOfFuel
    | Datatypes.S turns =>
        match fs_next_fz (br_rb m) m fuel it with
        | (Ok (Some (ROk _)), it) => fuzz_loop_fz turns it
        | (Ok (Some (RErr _)), _) => Ok tt
        | (Ok None, _) => Ok tt
        | (o, _) => _ <~ o ;; Ok tt
        end
    end.
  (** fuzz/fuzzers/decode_full.rs:16-29 *)
  Definition fuzz_decode_full_fz (turns : nat) (data : list Z) : outcome unit :=
    match new_on_fz data with
    | Ok r => it <~ fr_samples r ;; fuzz_loop_fz turns it
    | Err _ => Ok tt
    | o => _ <~ o ;; Ok tt
    end.
  (** fuzz/fuzzers/diff.rs:40-50, 63-73 *)
  Definition first_block_fz (r : flac_reader breader) (buffer : vec) : outcome (option vec) :=
    inp <~ fr_blocks r ;;
    match fst (read_next_or_eof_fz (br_rb m) m fuel buffer inp) with
    | Ok (Some b) => Ok (Some (block_into_buffer b))
    | Ok None => Ok None
    | Err _ => Ok None
    | o => _ <~ o ;; Ok None
    end.
  (** fuzz/fuzzers/diff.rs:18-78 *)
  Definition fuzz_diff_fz (data : list Z) : outcome unit :=
    match data with
    | d0 :: d1 :: data =>
        if d0 =? d1 then Ok tt
        else
          let n := 1024 * 8 in
          match new_on_fz data with
          | Err _ => Ok tt
          | Ok r =>
              result0 <~ first_block_fz r (mkVec (repeat d0 (Z.to_nat n)) n) ;;
              if (match result0 with Some v => negb (v_cap v =? n) | None => false end) then Ok tt
              else
                r <~ expect (new_on_fz data) "First time decoded fine, second time should too." ;;
                result1 <~ first_block_fz r (mkVec (repeat d1 (Z.to_nat n)) n) ;;
                if same_result result0 result1 then Ok tt else Panic "assertion failed"
          | o => _ <~ o ;; Ok tt
          end
    | _ => Ok tt
    end.
End Targets.
