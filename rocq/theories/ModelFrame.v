(** Model of src/frame.rs. *)
From Verif Require Export ModelCrc ModelSubframe.

(** src/frame.rs:24-27 *)
Inductive block_time := FrameNumber (n : Z) | SampleNumber (n : Z).

(** src/frame.rs:30-39 *)
Inductive channel_assignment :=
| Independent (n : Z)
| LeftSideStereo
| RightSideStereo
| MidSideStereo.

(** src/frame.rs:42-48 *)
Record frame_header := mkFh {
  fh_block_time : block_time;
  fh_block_size : Z;
  fh_sample_rate : option Z;
  fh_channel_assignment : channel_assignment;
  fh_bits_per_sample : option Z
}.

(** src/frame.rs:51-58 *)
Definition fh_channels (h : frame_header) : Z :=
  match fh_channel_assignment h with
  | Independent n => n
  | LeftSideStereo => 2
  | RightSideStereo => 2
  | MidSideStereo => 2
  end.

Section Header.
  Context {S : Type} (rb : ReadBytes S) (m : build).

  (** The loop at src/frame.rs:73-77.  [mask_mark] is 0 after 8 iterations, so
      9 is enough fuel. *)
  Fixpoint vli_prefix_loop (fuel : nat) (first read_additional mask_data mask_mark : Z)
      : outcome (Z * Z) :=
    if Z.land first mask_mark =? 0 then Ok (read_additional, mask_data)
    else
      match fuel with
      | O => OutOfFuel
      | Datatypes.S fuel' =>
          ra <~ chk m u8 (read_additional + 1) ;;
          vli_prefix_loop fuel' first ra (Z.shiftr mask_data 1) (Z.shiftr mask_mark 1)
      end.

  (** The loop at src/frame.rs:93-102, [i] counting down. *)
  Fixpoint vli_rest_loop (i : nat) (result : Z) : M S Z :=
    match i with
    | O => ret result
    | Datatypes.S i' =>
        byte <- read_u8 rb ;;
        if negb (Z.land byte 192 =? 128)
        then fmt_err "invalid variable-length integer"
        else
          bits <- lift (shl m u64 64 (Z.land byte 63) (6 * Z.of_nat i')) ;;
          vli_rest_loop i' (Z.lor result bits)
    end.

  (** src/frame.rs:64-105 *)
  Definition read_var_length_int : M S Z :=
    first <- read_u8 rb ;;
    rd <- lift (vli_prefix_loop 9 first 0 127 128) ;;
    let (read_additional, mask_data) := (rd : Z * Z) in
    read_additional <-
      (if 0 <? read_additional then
         if read_additional =? 1 then fmt_err "invalid variable-length integer"
         else lift (chk m u8 (read_additional - 1))
       else ret read_additional) ;;
    sh <- lift (chk m u8 (6 * read_additional)) ;;
    result <- lift (shl m u64 64 (Z.land first mask_data) sh) ;;
    vli_rest_loop (Z.to_nat read_additional) result.
End Header.

(** src/frame.rs:131-316 after the creation of the CRC-8 reader: [rb] reads
    through the CRC. *)
Definition read_frame_header_body {S} (rb : ReadBytes S) (m : build)
    : M (crc8reader S) (option frame_header) :=
  let crb := crc8_rb rb in
  osync <- read_be_u16_or_eof crb ;;
  match osync with
  | None => ret None
  | Some sync_res_block =>
    if negb (Z.land sync_res_block 65532 =? 65528)
    then fmt_err "frame sync code missing"
    else if negb (Z.land sync_res_block 2 =? 0)
    then fmt_err "invalid frame header, encountered reserved value"
    else
      let variable := negb (Z.land sync_res_block 1 =? 0) in
      bs_sr <- read_u8 crb ;;
      (* block size: the value if predefined, else whether 8 or 16 bits follow *)
      let n := Z.shiftr bs_sr 4 in
      bs <-
        (if n =? 0 then fmt_err "invalid frame header, encountered reserved value"
         else if n =? 1 then ret (192, false, false)
         else if (2 <=? n) && (n <=? 5) then
           p <- lift (shl m u16 16 1 (n - 2)) ;;
           v <- lift (chk m u16 (576 * p)) ;;
           ret (v, false, false)
         else if n =? 6 then ret (0, true, false)
         else if n =? 7 then ret (0, false, true)
         else
           p <- lift (shl m u16 16 1 (n - 8)) ;;
           v <- lift (chk m u16 (256 * p)) ;;
           ret (v, false, false)) ;;
      let '(block_size, read_8bit_bs, read_16bit_bs) := (bs : Z * bool * bool) in
      let k := Z.land bs_sr 15 in
      sr <-
        (if k =? 0 then ret (None, false, false, false)
         else if k =? 1 then ret (Some 88200, false, false, false)
         else if k =? 2 then ret (Some 176400, false, false, false)
         else if k =? 3 then ret (Some 192000, false, false, false)
         else if k =? 4 then ret (Some 8000, false, false, false)
         else if k =? 5 then ret (Some 16000, false, false, false)
         else if k =? 6 then ret (Some 22050, false, false, false)
         else if k =? 7 then ret (Some 24000, false, false, false)
         else if k =? 8 then ret (Some 32000, false, false, false)
         else if k =? 9 then ret (Some 44100, false, false, false)
         else if k =? 10 then ret (Some 48000, false, false, false)
         else if k =? 11 then ret (Some 96000, false, false, false)
         else if k =? 12 then ret (None, true, false, false)
         else if k =? 13 then ret (None, false, true, false)
         else if k =? 14 then ret (None, false, false, true)
         else fmt_err "invalid frame header") ;;
      let '(sample_rate, read_8bit_sr, read_16bit_sr, read_16bit_sr_ten) :=
        (sr : option Z * bool * bool * bool) in
      chan_bps_res <- read_u8 crb ;;
      let c := Z.shiftr chan_bps_res 4 in
      channel_assignment <-
        (if c <? 8 then
           ch <- lift (chk m u8 (c + 1)) ;;
           ret (Independent ch)
         else if c =? 8 then ret LeftSideStereo
         else if c =? 9 then ret RightSideStereo
         else if c =? 10 then ret MidSideStereo
         else fmt_err "invalid frame header, encountered reserved value") ;;
      let b := Z.shiftr (Z.land chan_bps_res 14) 1 in
      bits_per_sample <-
        (if b =? 0 then ret None
         else if b =? 1 then ret (Some 8)
         else if b =? 2 then ret (Some 12)
         else if b =? 4 then ret (Some 16)
         else if b =? 5 then ret (Some 20)
         else if b =? 6 then ret (Some 24)
         else fmt_err "invalid frame header, encountered reserved value") ;;
      if negb (Z.land chan_bps_res 1 =? 0)
      then fmt_err "invalid frame header, encountered reserved value"
      else
        block_time <-
          (if (variable : bool) then
             sample <- read_var_length_int crb m ;;
             ret (SampleNumber sample)
           else
             frame <- read_var_length_int crb m ;;
             if 2147483647 <? frame
             then fmt_err "invalid frame header, frame number too large"
             else ret (FrameNumber (u32 frame))) ;;
        block_size <-
          (if (read_8bit_bs : bool) then
             bs <- read_u8 crb ;;
             lift (chk m u16 (bs + 1))
           else ret block_size) ;;
        block_size <-
          (if (read_16bit_bs : bool) then
             bs <- read_be_u16 crb ;;
             if bs =? 65535 then fmt_err "invalid block size, exceeds 65535"
             else lift (chk m u16 (bs + 1))
           else ret block_size) ;;
        sample_rate <-
          (if (read_8bit_sr : bool) then
             sr <- read_u8 crb ;; ret (Some sr)
           else ret sample_rate) ;;
        sample_rate <-
          (if (read_16bit_sr : bool) then
             sr <- read_be_u16 crb ;; ret (Some sr)
           else ret sample_rate) ;;
        sample_rate <-
          (if (read_16bit_sr_ten : bool) then
             sr_ten <- read_be_u16 crb ;;
             v <- lift (chk m u32 (sr_ten * 10)) ;;
             ret (Some v)
           else ret sample_rate) ;;
        computed_crc <- crc8_crc ;;
        presumed_crc <- read_u8 crb ;;
        if negb (computed_crc =? presumed_crc) then fmt_err "frame header CRC mismatch"
        else ret (Some (mkFh block_time block_size sample_rate
                             channel_assignment bits_per_sample))
  end.

(** src/frame.rs:131-316 (configuration [not(fuzzing)]) *)
Definition read_frame_header_or_eof {S} (rb : ReadBytes S) (m : build)
    : M S (option frame_header) :=
  with_crc8 (read_frame_header_body rb m).

(** * Stereo decorrelation *)

(** [for (fst, snd) in mids.iter_mut().zip(sides)] with [f] giving the new
    pair.  src/frame.rs:322, :348, :374. *)
Fixpoint zip_update (f : Z -> Z -> Z * Z) (mids sides : list Z)
    : list Z * list Z :=
  match mids, sides with
  | a :: mids', b :: sides' =>
      let '(a', b') := f a b in
      let '(ms, ss) := zip_update f mids' sides' in
      (a' :: ms, b' :: ss)
  | _, _ => (mids, sides)
  end.

(** src/frame.rs:320-321, :346-347, :372-373: [buffer.split_at_mut(buffer.len() / 2)] and the loop. *)
Definition halves_update (f : Z -> Z -> Z * Z) (buffer : list Z) : list Z :=
  let block_size := Nat.div (length buffer) 2 in
  let '(ms, ss) := zip_update f (firstn block_size buffer) (skipn block_size buffer) in
  ms ++ ss.

(** src/frame.rs:319-334 *)
Definition decode_left_side : list Z -> list Z :=
  halves_update (fun left side => (left, i32 (left - side))).

(** src/frame.rs:345-360 *)
Definition decode_right_side : list Z -> list Z :=
  halves_update (fun side right => (i32 (side + right), right)).

(** src/frame.rs:371-389.  Rust's [/] truncates. *)
Definition decode_mid_side : list Z -> list Z :=
  halves_update (fun mid side =>
    let mid := Z.lor (i32 (mid * 2)) (Z.land side 1) in
    (Z.quot (i32 (mid + side)) 2, Z.quot (i32 (mid - side)) 2)).

(** * Blocks *)

(** [Vec<i32>]: contents and capacity.  src/frame.rs:615-647. *)
Record vec := mkVec { v_items : list Z; v_cap : Z }.

(** src/frame.rs:402-411 *)
Record block := mkBlock {
  bl_first_sample_number : Z;
  bl_block_size : Z;
  bl_channels : Z;
  bl_buffer : vec
}.

(** src/frame.rs:414-421 *)
Definition block_new (time bs : Z) (buffer : vec) : outcome block :=
  if bs =? 0 then Panic "attempt to divide by zero"
  else Ok (mkBlock time bs (u32 (len (v_items buffer)) / bs) buffer).

(** src/frame.rs:424-431 *)
Definition block_empty : block := mkBlock 0 0 0 (mkVec [] 0).

(** src/frame.rs:438-440 *)
Definition block_time_of (b : block) : Z := bl_first_sample_number b.
(** src/frame.rs:446-450 *)
Definition block_len (m : build) (b : block) : outcome Z :=
  chk m u32 (bl_block_size b * bl_channels b).
(** src/frame.rs:459-461 *)
Definition block_duration (b : block) : Z := bl_block_size b.
(** src/frame.rs:467-469 *)
Definition block_channels (b : block) : Z := bl_channels b.
(** src/frame.rs:477-481 (64-bit usize: the products of u32 values cannot
    overflow) *)
Definition block_channel (b : block) (ch : Z) : outcome (list Z) :=
  slice (v_items (bl_buffer b)) (ch * bl_block_size b) ((ch + 1) * bl_block_size b).
(** src/frame.rs:494-497 (64-bit usize) *)
Definition block_sample (b : block) (ch sample : Z) : outcome Z :=
  index (v_items (bl_buffer b)) (ch * bl_block_size b + sample).
(** src/frame.rs:503-505 *)
Definition block_into_buffer (b : block) : vec := bl_buffer b.

(** src/frame.rs:548-552 *)
Record stereo_samples := mkStereo {
  ss_buffer : list Z;
  ss_block_duration : Z;
  ss_current_sample : Z
}.

(** src/frame.rs:516-528 *)
Definition block_stereo_samples (b : block) : outcome stereo_samples :=
  if negb (bl_channels b =? 2)
  then Panic "stereo_samples() must only be called for blocks with two channels."
  else if bl_block_size b * 2 <=? len (v_items (bl_buffer b))
  then Ok (mkStereo (v_items (bl_buffer b)) (bl_block_size b) 0)
  else Panic "assertion failed".

(** src/frame.rs:558-579 *)
Definition stereo_next (m : build) : M stereo_samples (option (Z * Z)) :=
  st <- get ;;
  if ss_current_sample st =? ss_block_duration st then ret None
  else
    left <- lift (index_unchecked (ss_buffer st) (ss_current_sample st)) ;;
    right <- lift (index_unchecked (ss_buffer st)
                     (ss_current_sample st + ss_block_duration st)) ;;
    c <- lift (chk m u32 (ss_current_sample st + 1)) ;;
    put (mkStereo (ss_buffer st) (ss_block_duration st) c) ;;;
    ret (Some (left, right)).

(** * Frames *)

(** src/frame.rs:616-637.  Returns the buffer and, if a new vector is allocated,
    its length. *)
Definition ensure_buffer_len (buffer : vec) (new_len : Z) : vec * option Z :=
  if len (v_items buffer) <? new_len then
    if v_cap buffer <? new_len
    then (mkVec (repeat 0 (Z.to_nat new_len)) new_len, Some new_len)
    else (mkVec (v_items buffer
                 ++ repeat 0 (Z.to_nat (new_len - len (v_items buffer))))
                (v_cap buffer), None)
  else (mkVec (firstn (Z.to_nat new_len) (v_items buffer)) (v_cap buffer), None).

Section Frame.
  Context {S : Type} (rb : ReadBytes S) (m : build) (fuel : nat).

  (** [try!(subframe::decode(&mut bitstream, bps, &mut buffer[a..b]))].
      src/frame.rs:708-737. *)
  Definition decode_into (bps : Z) (buffer : list Z) (a b : Z)
      : M (bitstream S) (list Z) :=
    sl <- lift (slice buffer a b) ;;
    sl' <- decode rb m fuel bps sl ;;
    ret (splice buffer a sl').

  (** The loop at src/frame.rs:707-711; [n] channels left, [ch] the current. *)
  Fixpoint independent_loop (bps bs : Z) (n : nat) (ch : Z) (buffer : list Z)
      : M (bitstream S) (list Z) :=
    match n with
    | O => ret buffer
    | Datatypes.S n' =>
        buffer <- decode_into bps buffer (ch * bs) ((ch + 1) * bs) ;;
        independent_loop bps bs n' (ch + 1) buffer
    end.

  (** [f(&mut buffer[..e])].  src/frame.rs:721, :729, :740. *)
  Definition on_prefix (f : list Z -> list Z) (buffer : list Z) (e : Z)
      : outcome (list Z) :=
    sl <~ slice buffer 0 e ;;
    Ok (splice buffer 0 (f sl)).

  (** src/frame.rs:705-742 *)
  Definition decode_channels (ca : channel_assignment) (bps bs : Z)
      (buffer : list Z) : M (bitstream S) (list Z) :=
    match ca with
    | Independent n_ch => independent_loop bps bs (Z.to_nat n_ch) 0 buffer
    | LeftSideStereo =>
        buffer <- decode_into bps buffer 0 bs ;;
        bps1 <- lift (chk m u32 (bps + 1)) ;;
        buffer <- decode_into bps1 buffer bs (bs * 2) ;;
        lift (on_prefix decode_left_side buffer (bs * 2))
    | RightSideStereo =>
        bps1 <- lift (chk m u32 (bps + 1)) ;;
        buffer <- decode_into bps1 buffer 0 bs ;;
        buffer <- decode_into bps buffer bs (bs * 2) ;;
        lift (on_prefix decode_right_side buffer (bs * 2))
    | MidSideStereo =>
        buffer <- decode_into bps buffer 0 bs ;;
        bps1 <- lift (chk m u32 (bps + 1)) ;;
        buffer <- decode_into bps1 buffer bs (bs * 2) ;;
        lift (on_prefix decode_mid_side buffer (bs * 2))
    end.
End Frame.

(** src/frame.rs:667-779 after the creation of the CRC-16 reader
    (configuration [not(fuzzing)]) *)
Definition read_next_body {S} (rb : ReadBytes S) (m : build) (fuel : nat)
    (buffer : vec) : M (crc16reader S) (option block) :=
  let crb := crc16_rb rb in
  oheader <- read_frame_header_or_eof crb m ;;
  match oheader with
  | None => ret None
  | Some header =>
    total_samples <- lift (chk m u64 (fh_channels header * fh_block_size header)) ;;
    let '(buffer, alloc) := ensure_buffer_len buffer total_samples in
    (match alloc with
     | Some n => rb_alloc crb n 4
     | None => ret tt
     end) ;;;
    bps <- lift (match fh_bits_per_sample header with
                 | Some x => Ok x
                 | None => Err (Unsupported "header without bits per sample info")
                 end) ;;
    lift (debug_assert m (bps <=? 32)) ;;;
    items <- with_bitstream
      (decode_channels crb m fuel (fh_channel_assignment header) bps
                       (fh_block_size header) (v_items buffer)) ;;
    let buffer := mkVec items (v_cap buffer) in
    computed_crc <- crc16_crc ;;
    presumed_crc <- read_be_u16 crb ;;
    if negb (computed_crc =? presumed_crc) then fmt_err "frame CRC mismatch"
    else
      time <- lift (match fh_block_time header with
                    | FrameNumber fnr => chk m u64 (fh_block_size header * fnr)
                    | SampleNumber snr => Ok snr
                    end) ;;
      b <- lift (block_new time (fh_block_size header) buffer) ;;
      ret (Some b)
  end.

(** src/frame.rs:667-779 [FrameReader::read_next_or_eof]; a [FrameReader] is its
    input (src/frame.rs:603-605, 652-656, 782-784). *)
Definition read_next_or_eof {S} (rb : ReadBytes S) (m : build) (fuel : nat)
    (buffer : vec) : M S (option block) :=
  with_crc16 (read_next_body rb m fuel buffer).
