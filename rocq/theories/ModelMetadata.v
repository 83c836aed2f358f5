(** Model of src/metadata.rs.  A [String]/[&str] is its list of bytes. *)
From Verif Require Export ModelInput.

(** * Strings (Rust standard library) *)

(** UTF-8 continuation byte.  For src/metadata.rs:439, :492. *)
Definition is_cont (b : Z) : bool := (128 <=? b) && (b <=? 191).

(** What [String::from_utf8] accepts (Unicode standard, table 3-7).
    src/metadata.rs:439, :492. *)
Fixpoint utf8_valid (l : list Z) : bool :=
  match l with
  | [] => true
  | b0 :: r0 =>
      if b0 <? 128 then (0 <=? b0) && utf8_valid r0
      else if (194 <=? b0) && (b0 <=? 223) then
        match r0 with
        | b1 :: r1 => is_cont b1 && utf8_valid r1
        | _ => false
        end
      else if (224 <=? b0) && (b0 <=? 239) then
        match r0 with
        | b1 :: b2 :: r2 =>
            is_cont b1 && is_cont b2
            && (if b0 =? 224 then 160 <=? b1 else true)
            && (if b0 =? 237 then b1 <=? 159 else true)
            && utf8_valid r2
        | _ => false
        end
      else if (240 <=? b0) && (b0 <=? 244) then
        match r0 with
        | b1 :: b2 :: b3 :: r3 =>
            is_cont b1 && is_cont b2 && is_cont b3
            && (if b0 =? 240 then 144 <=? b1 else true)
            && (if b0 =? 244 then b1 <=? 143 else true)
            && utf8_valid r3
        | _ => false
        end
      else false
  end.

(** [String::from_utf8] followed by [try!], src/error.rs:88-94. *)
Definition from_utf8 (l : list Z) : outcome (list Z) :=
  if utf8_valid l then Ok l
  else Err (FormatError "Vorbis comment or vendor string is not valid UTF-8").

(** [str::is_char_boundary].  For the slices of strings at src/metadata.rs:155, :204-205. *)
Definition is_char_boundary (s : list Z) (i : Z) : bool :=
  (i =? 0) || (i =? len s)
  || ((0 <=? i) && (i <? len s)
      && match nth_error s (Z.to_nat i) with
         | Some b => negb (is_cont b)
         | None => false
         end).

(** [&s[a..]] and [&s[..b]] on strings.  src/metadata.rs:155, :205. *)
Definition str_from (s : list Z) (a : Z) : outcome (list Z) :=
  if is_char_boundary s a then Ok (skipn (Z.to_nat a) s)
  else Panic "byte index is not a char boundary".
(** src/metadata.rs:155, :204 *)
Definition str_to (s : list Z) (b : Z) : outcome (list Z) :=
  if is_char_boundary s b then Ok (firstn (Z.to_nat b) s)
  else Panic "byte index is not a char boundary".

(** [u8::to_ascii_lowercase].  For src/metadata.rs:204. *)
Definition to_ascii_lowercase (b : Z) : Z :=
  if (65 <=? b) && (b <=? 90) then b + 32 else b.

(** [str::eq_ignore_ascii_case].  src/metadata.rs:204. *)
Fixpoint eq_ignore_ascii_case (a b : list Z) : bool :=
  match a, b with
  | [], [] => true
  | x :: a', y :: b' =>
      (to_ascii_lowercase x =? to_ascii_lowercase y) && eq_ignore_ascii_case a' b'
  | _, _ => false
  end.

(** * Data types *)

(** src/metadata.rs:16-20 *)
Record metadata_block_header := mkMbh {
  mbh_is_last : bool;
  mbh_block_type : Z;
  mbh_length : Z
}.

(** src/metadata.rs:24-54 *)
Record stream_info := mkSi {
  si_min_block_size : Z;
  si_max_block_size : Z;
  si_min_frame_size : option Z;
  si_max_frame_size : option Z;
  si_sample_rate : Z;
  si_channels : Z;
  si_bits_per_sample : Z;
  si_samples : option Z;
  si_md5sum : list Z
}.

(** src/metadata.rs:76-101 *)
Record vorbis_comment := mkVc {
  vc_vendor : list Z;
  vc_comments : list (list Z * Z)
}.

(** src/metadata.rs:104-129.  [SeekTable], [CueSheet] and [Picture] are never
    constructed by the crate and left out. *)
Inductive metadata_block :=
| MbStreamInfo (si : stream_info)
| MbPadding (length : Z)
| MbApplication (id : Z) (data : list Z)
| MbVorbisComment (vc : vorbis_comment)
| MbReserved.

(** * Tag iterators *)

(** src/metadata.rs:134-147: [Tags] is the remaining slice. *)
Definition tags := list (list Z * Z).
(** src/metadata.rs:142-146 *)
Definition tags_new (comments : list (list Z * Z)) : tags := comments.

(** src/metadata.rs:153-157 *)
Definition tags_next : M tags (option (list Z * list Z)) := fun st =>
  match st with
  | [] => (Ok None, [])
  | (comment, sep_idx) :: rest =>
      (a <~ str_to comment sep_idx ;;
       b <~ str_from comment (sep_idx + 1) ;;
       Ok (Some (a, b)), rest)
  end.

(** src/metadata.rs:160-162 *)
Definition tags_size_hint (st : tags) : Z * option Z := (len st, Some (len st)).

(** src/metadata.rs:170-177 *)
Record get_tag := mkGt {
  gt_comments : list (list Z * Z);
  gt_needle : list Z;
  gt_index : Z
}.

(** src/metadata.rs:182-188 *)
Definition get_tag_new (comments : list (list Z * Z)) (needle : list Z) : get_tag :=
  mkGt comments needle 0.

(** The loop of src/metadata.rs:200-207; [index] only grows up to the number of
    comments, which bounds the fuel. *)
Fixpoint get_tag_loop (fuel : nat) : M get_tag (option (list Z)) :=
  st <- get ;;
  if gt_index st <? len (gt_comments st) then
    match fuel with
    | O => lift OutOfFuel
    | S fuel' =>
        p <- lift (index (gt_comments st) (gt_index st)) ;;
        let '(comment, sep_idx) := (p : list Z * Z) in
        put (mkGt (gt_comments st) (gt_needle st) (gt_index st + 1)) ;;;
        name <- lift (str_to comment sep_idx) ;;
        if eq_ignore_ascii_case name (gt_needle st) then
          v <- lift (str_from comment (sep_idx + 1)) ;;
          ret (Some v)
        else get_tag_loop fuel'
    end
  else ret None.

(** src/metadata.rs:195-210 *)
Definition get_tag_next : M get_tag (option (list Z)) :=
  st <- get ;;
  get_tag_loop (S (length (gt_comments st))).

(** * Reading metadata blocks *)

Section Read.
  Context {S : Type} (rb : ReadBytes S) (m : build).
  (** The contents of freshly allocated, uninitialised memory of a given
      length ([Vec::with_capacity] followed by the unsafe [set_len]). *)
  Context (uninit : nat -> list Z).

  (** src/metadata.rs:214-231 *)
  Definition read_metadata_block_header : M S metadata_block_header :=
    byte <- read_u8 rb ;;
    let is_last := Z.shiftr byte 7 =? 1 in
    let block_type := Z.land byte 127 in
    length <- read_be_u24 rb ;;
    ret (mkMbh is_last block_type length).

  (** src/metadata.rs:321-400 *)
  Definition read_streaminfo_block : M S stream_info :=
    min_block_size <- read_be_u16 rb ;;
    max_block_size <- read_be_u16 rb ;;
    min_frame_size <- read_be_u24 rb ;;
    max_frame_size <- read_be_u24 rb ;;
    sample_rate_msb <- read_be_u16 rb ;;
    sample_rate_lsb <- read_u8 rb ;;
    let sample_rate :=
      Z.lor (u32 (Z.shiftl sample_rate_msb 4)) (Z.shiftr sample_rate_lsb 4) in
    let n_channels_bps := sample_rate_lsb in
    n_channels <- lift (chk m u8 (Z.land (Z.shiftr n_channels_bps 1) 7 + 1)) ;;
    let bps_msb := Z.land n_channels_bps 1 in
    bps_lsb_n_samples <- read_u8 rb ;;
    bits_per_sample <-
      lift (chk m u8 (Z.lor (u8 (Z.shiftl bps_msb 4)) (Z.shiftr bps_lsb_n_samples 4) + 1)) ;;
    let n_samples_msb := Z.land bps_lsb_n_samples 15 in
    n_samples_lsb <- read_be_u32 rb ;;
    let n_samples := Z.lor (u64 (Z.shiftl n_samples_msb 32)) n_samples_lsb in
    md5sum <- read_into rb (repeat 0 16) ;;
    if max_block_size <? min_block_size
    then fmt_err "inconsistent bounds, min block size > max block size"
    else if min_block_size <? 16
    then fmt_err "invalid block size, must be at least 16"
    else if (max_frame_size <? min_frame_size) && negb (max_frame_size =? 0)
    then fmt_err "inconsistent bounds, min frame size > max frame size"
    else if (sample_rate =? 0) || (655350 <? sample_rate)
    then fmt_err "invalid sample rate"
    else
      ret (mkSi min_block_size max_block_size
             (if min_frame_size =? 0 then None else Some min_frame_size)
             (if max_frame_size =? 0 then None else Some max_frame_size)
             sample_rate n_channels bits_per_sample
             (if n_samples =? 0 then None else Some n_samples)
             md5sum).

  (** [iter().position(|&x| x == b)], counting from [i].  src/metadata.rs:479. *)
  Fixpoint position (b : Z) (l : list Z) (i : Z) : option Z :=
    match l with
    | [] => None
    | x :: r => if x =? b then Some i else position b r (i + 1)
    end.

  (** The loop at src/metadata.rs:455-497.  Every iteration takes 4 or more off
      [bytes_left]. *)
  Fixpoint vorbis_loop (fuel : nat) (bytes_left comments_len : Z)
      (comments : list (list Z * Z))
      : M S (Z * Z * list (list Z * Z)) :=
    if (4 <=? bytes_left) && (len comments <? comments_len) then
      match fuel with
      | O => lift OutOfFuel
      | Datatypes.S fuel' =>
          comment_len <- read_le_u32 rb ;;
          bytes_left <- lift (chk m u32 (bytes_left - 4)) ;;
          if bytes_left <? comment_len
          then fmt_err "Vorbis comment too long for Vorbis comment block"
          else if comment_len =? 0 then
            comments_len <- lift (chk m u32 (comments_len - 1)) ;;
            vorbis_loop fuel' bytes_left comments_len comments
          else
            rb_alloc rb comment_len 1 ;;;
            comment_bytes <- read_into rb (uninit (Z.to_nat comment_len)) ;;
            bytes_left <- lift (chk m u32 (bytes_left - comment_len)) ;;
            match position 61 comment_bytes 0 with
            | Some sep_index =>
                name_bytes <- lift (slice comment_bytes 0 sep_index) ;;
                if existsb (fun x => (x <? 32) || (125 <? x)) name_bytes
                then fmt_err "Vorbis comment field name contains invalid byte"
                else
                  comment <- lift (from_utf8 comment_bytes) ;;
                  vorbis_loop fuel' bytes_left comments_len
                    (comments ++ [(comment, sep_index)])
            | None => fmt_err "Vorbis comment does not contain '='"
            end
      end
    else ret (bytes_left, comments_len, comments).

  (** src/metadata.rs:402-513.  A [(String, usize)] takes 32 bytes. *)
  Definition read_vorbis_comment_block (length : Z) : M S vorbis_comment :=
    if length <? 8 then fmt_err "Vorbis comment block is too short"
    else if 10 * 1024 * 1024 <? length
    then fail (Unsupported "Vorbis comment blocks larger than 10 MiB are not supported")
    else
      vendor_len <- read_le_u32 rb ;;
      l8 <- lift (chk m u32 (length - 8)) ;;
      if l8 <? vendor_len then fmt_err "vendor string too long"
      else
        rb_alloc rb vendor_len 1 ;;;
        vendor_bytes <- read_into rb (uninit (Z.to_nat vendor_len)) ;;
        vendor <- lift (from_utf8 vendor_bytes) ;;
        comments_len <- read_le_u32 rb ;;
        if length / 4 <=? comments_len
        then fmt_err "too many entries for Vorbis comment block"
        else
          rb_alloc rb comments_len 32 ;;;
          bytes_left <- lift (chk m u32 (l8 - vendor_len)) ;;
          r <- vorbis_loop (Z.to_nat bytes_left) bytes_left comments_len [] ;;
          let '(bytes_left, comments_len, comments) :=
            (r : Z * Z * list (list Z * Z)) in
          if negb (bytes_left =? 0)
          then fmt_err "Vorbis comment block has excess data"
          else if negb (len comments =? comments_len)
          then fmt_err "Vorbis comment block contains wrong number of entries"
          else ret (mkVc vendor comments).

  (** src/metadata.rs:515-522 *)
  Definition read_padding_block (length : Z) : M S unit := skip rb length.

  (** src/metadata.rs:524-549 *)
  Definition read_application_block (length : Z) : M S (Z * list Z) :=
    if length <? 4 then fmt_err "application block length must be at least 4 bytes"
    else if 10 * 1024 * 1024 <? length
    then fail (Unsupported "application blocks larger than 10 MiB are not supported")
    else
      id <- read_be_u32 rb ;;
      l4 <- lift (chk m u64 (length - 4)) ;;
      rb_alloc rb l4 1 ;;;
      data <- read_into rb (uninit (Z.to_nat l4)) ;;
      ret (id, data).

  (** src/metadata.rs:261-319 *)
  Definition read_metadata_block (block_type length : Z) : M S metadata_block :=
    if block_type =? 0 then
      if length =? 34 then
        streaminfo <- read_streaminfo_block ;;
        ret (MbStreamInfo streaminfo)
      else fmt_err "invalid streaminfo metadata block length"
    else if block_type =? 1 then
      read_padding_block length ;;;
      ret (MbPadding length)
    else if block_type =? 2 then
      r <- read_application_block length ;;
      let '(id, data) := (r : Z * list Z) in
      ret (MbApplication id data)
    else if block_type =? 3 then skip rb length ;;; ret (MbPadding length)
    else if block_type =? 4 then
      vc <- read_vorbis_comment_block length ;;
      ret (MbVorbisComment vc)
    else if block_type =? 5 then skip rb length ;;; ret (MbPadding length)
    else if block_type =? 6 then skip rb length ;;; ret (MbPadding length)
    else if block_type =? 127 then fmt_err "invalid metadata block type"
    else skip rb length ;;; ret MbReserved.

  (** src/metadata.rs:244-248 *)
  Definition read_metadata_block_with_header : M S metadata_block :=
    header <- read_metadata_block_header ;;
    read_metadata_block (mbh_block_type header) (mbh_length header).
End Read.

(** src/metadata.rs:557-560 *)
Record mreader (S : Type) := mkMr { mr_input : S; mr_done : bool }.
Arguments mkMr {S}.
Arguments mr_input {S}.
Arguments mr_done {S}.

(** src/metadata.rs:567-572 *)
Definition mr_new {S} (input : S) : mreader S := mkMr input false.

Section Iterator.
  Context {S : Type} (rb : ReadBytes S) (m : build) (uninit : nat -> list Z).

  (** [read_metadata_block_header(&mut self.input)] and the like (src/metadata.rs:576-577). *)
  Definition mr_lift {A} (c : M S A) : M (mreader S) A := fun st =>
    let (o, s) := c (mr_input st) in (o, mkMr s (mr_done st)).
  (** [self.done = d] (src/metadata.rs:578, :596). *)
  Definition mr_set_done (d : bool) : M (mreader S) unit := fun st =>
    (Ok tt, mkMr (mr_input st) d).

  (** src/metadata.rs:575-580 *)
  Definition mr_read_next : M (mreader S) metadata_block :=
    header <- mr_lift (read_metadata_block_header rb) ;;
    block <- mr_lift (read_metadata_block rb m uninit (mbh_block_type header)
                                          (mbh_length header)) ;;
    mr_set_done (mbh_is_last header) ;;;
    ret block.

  (** src/metadata.rs:587-601 *)
  Definition mr_next : M (mreader S) (option (result metadata_block)) :=
    st <- get ;;
    if mr_done st then ret None
    else
      block <- catch mr_read_next ;;
      (match block with
       | ROk _ => ret tt
       | RErr _ => mr_set_done true
       end) ;;;
      ret (Some block).
End Iterator.

(** src/metadata.rs:604-608 *)
Definition mr_size_hint {S} (st : mreader S) : Z * option Z :=
  if mr_done st then (0, Some 0) else (1, None).
