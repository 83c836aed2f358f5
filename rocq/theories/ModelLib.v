(** Model of src/lib.rs and of the equality in src/error.rs. *)
From Verif Require Export ModelFrame ModelMetadata.

(** src/error.rs:34-45 *)
Definition error_eqb (a b : error) : bool :=
  match a, b with
  | FormatError r1, FormatError r2 => String.eqb r1 r2
  | Unsupported f1, Unsupported f2 => String.eqb f1 f2
  | IoError _, _ => false
  | FormatError _, _ => false
  | Unsupported _, _ => false
  end.

(** src/lib.rs:99-104 *)
Inductive flac_reader_state (T : Type) := Full (inp : T) | MetadataOnly (inp : T).
Arguments Full {T}.
Arguments MetadataOnly {T}.

(** src/lib.rs:93-97.  The reader type is left generic here; [FlacReader] uses
    it at [breader]. *)
Record flac_reader (T : Type) := mkFr {
  fr_streaminfo : stream_info;
  fr_vorbis_comment : option vorbis_comment;
  fr_input : flac_reader_state T
}.
Arguments mkFr {T}.
Arguments fr_streaminfo {T}.
Arguments fr_vorbis_comment {T}.
Arguments fr_input {T}.

(** src/lib.rs:123-142 *)
Record flac_reader_options := mkOpts {
  metadata_only : bool;
  opt_read_vorbis_comment : bool
}.

(** src/lib.rs:144-151 *)
Definition default_options : flac_reader_options := mkOpts false true.

(** src/lib.rs:155-165 *)
Definition has_desired_blocks (o : flac_reader_options) : bool :=
  if negb (metadata_only o) then true else opt_read_vorbis_comment o.

(** src/lib.rs:186-205 *)
Definition read_stream_header {S} (rb : ReadBytes S) : M S unit :=
  header <- read_be_u32 rb ;;
  if negb (header =? 0x664c6143) then
    if Z.land header 0xffffff00 =? 0x49443300
    then fmt_err "stream starts with ID3 header rather than FLAC header"
    else fmt_err "invalid stream header"
  else ret tt.

Section New.
  Context {S : Type} (rb : ReadBytes S) (m : build) (uninit : nat -> list Z)
          (fuel : nat).

  (** The loop at src/lib.rs:253-279; returns the Vorbis comment. *)
  Fixpoint metadata_loop (fuel : nat) (opts_current : flac_reader_options)
      (vorbis_comment : option vorbis_comment)
      : M (mreader S) (option ModelMetadata.vorbis_comment) :=
    match fuel with
    | O => lift OutOfFuel
    | Datatypes.S fuel' =>
        item <- mr_next rb m uninit ;;
        match item with
        | None => ret vorbis_comment
        | Some block_result =>
            block <- lift (of_result block_result) ;;
            r <-
              (match block with
               | MbVorbisComment vc =>
                   match vorbis_comment with
                   | Some _ => fmt_err "encountered second Vorbis comment block"
                   | None =>
                       ret (Some vc, mkOpts (metadata_only opts_current) false)
                   end
               | MbStreamInfo _ => fmt_err "encountered second streaminfo block"
               | _ => ret (vorbis_comment, opts_current)
               end) ;;
            let '(vorbis_comment, opts_current) :=
              (r : option ModelMetadata.vorbis_comment * flac_reader_options) in
            if negb (has_desired_blocks opts_current) then ret vorbis_comment
            else metadata_loop fuel' opts_current vorbis_comment
        end
    end.

  (** The block at src/lib.rs:239-288, on the metadata block reader. *)
  Definition read_metadata (options : flac_reader_options)
      : M (mreader S) (stream_info * option vorbis_comment) :=
    item <- mr_next rb m uninit ;;
    block_result <- lift (match item with
                          | Some r => Ok r
                          | None => Panic "called unwrap on a None value"
                          end) ;;
    streaminfo_block <- lift (of_result block_result) ;;
    streaminfo <-
      (match streaminfo_block with
       | MbStreamInfo info => ret info
       | _ => fmt_err "streaminfo block missing"
       end) ;;
    vc <- metadata_loop fuel options None ;;
    let vc := if negb (opt_read_vorbis_comment options) then None else vc in
    ret (streaminfo, vc).

  (** src/lib.rs:243-288: the metadata reader borrows the input and is dropped. *)
  Definition with_mreader {A} (c : M (mreader S) A) : M S A := fun s =>
    let (o, st) := c (mr_new s) in (o, mr_input st).

  (** src/lib.rs:230-307 after the creation of the buffered reader. *)
  Definition new_ext (options : flac_reader_options) : M S (flac_reader S) :=
    read_stream_header rb ;;;
    r <- with_mreader (read_metadata options) ;;
    let '(streaminfo, vc) := (r : stream_info * option vorbis_comment) in
    buf_reader <- get ;;
    let state := if metadata_only options then MetadataOnly buf_reader
                 else Full buf_reader in
    ret (mkFr streaminfo vc state).
End New.

(** src/lib.rs:230-307 [FlacReader::new_ext] on an arbitrary [io::Read]. *)
Definition flac_new_ext (m : build) (uninit : nat -> list Z) (fuel : nat)
    (reader : list event) (options : flac_reader_options)
    : outcome (flac_reader breader) :=
  fst (new_ext (br_rb m) m uninit fuel options (br_new reader)).

(** src/lib.rs:217-219 [FlacReader::new] *)
Definition flac_new (m : build) (uninit : nat -> list Z) (fuel : nat)
    (reader : list event) : outcome (flac_reader breader) :=
  flac_new_ext m uninit fuel reader default_options.

(** src/lib.rs:312-314 *)
Definition fr_get_streaminfo {T} (r : flac_reader T) : stream_info := fr_streaminfo r.
(** src/lib.rs:321-323 *)
Definition fr_vendor {T} (r : flac_reader T) : option (list Z) :=
  option_map vc_vendor (fr_vorbis_comment r).
(** src/lib.rs:335-340 *)
Definition fr_tags {T} (r : flac_reader T) : tags :=
  match fr_vorbis_comment r with
  | Some vc => tags_new (vc_comments vc)
  | None => tags_new []
  end.
(** src/lib.rs:354-359 *)
Definition fr_get_tag {T} (r : flac_reader T) (tag_name : list Z) : get_tag :=
  match fr_vorbis_comment r with
  | Some vc => get_tag_new (vc_comments vc) tag_name
  | None => get_tag_new [] tag_name
  end.

(** src/lib.rs:169-178 *)
Record flac_samples (T : Type) := mkFs {
  fs_frame_reader : T;
  fs_block : block;
  fs_sample : Z;
  fs_channel : Z;
  fs_has_failed : bool
}.
Arguments mkFs {T}.
Arguments fs_frame_reader {T}.
Arguments fs_block {T}.
Arguments fs_sample {T}.
Arguments fs_channel {T}.
Arguments fs_has_failed {T}.

(** src/lib.rs:367-374: the frame reader borrows the input. *)
Definition fr_blocks {T} (r : flac_reader T) : outcome T :=
  match fr_input r with
  | Full inp => Ok inp
  | MetadataOnly _ => Panic "FlacReaderOptions::metadata_only must be false to be able to use FlacReader::blocks()"
  end.

(** src/lib.rs:396-412 *)
Definition fr_samples {T} (r : flac_reader T) : outcome (flac_samples T) :=
  match fr_input r with
  | Full inp => Ok (mkFs inp block_empty 0 0 false)
  | MetadataOnly _ => Panic "FlacReaderOptions::metadata_only must be false to be able to use FlacReader::samples()"
  end.

(** src/lib.rs:417-435.  [FlacIntoSamples] (181-184, 522-532) forwards to
    [FlacSamples]. *)
Definition fr_into_samples {T} (r : flac_reader T) : outcome (flac_samples T) :=
  match fr_input r with
  | Full inp => Ok (mkFs inp block_empty 0 0 false)
  | MetadataOnly _ => Panic "FlacReaderOptions::metadata_only must be false to be able to use FlacReader::into_samples()"
  end.

(** src/lib.rs:441-446 *)
Definition fr_into_inner (r : flac_reader breader) : list event :=
  match fr_input r with
  | Full inp => br_into_inner inp
  | MetadataOnly inp => br_into_inner inp
  end.

Section Samples.
  Context {S : Type} (rb : ReadBytes S) (m : build) (fuel : nat).

  (** [self.frame_reader.read_next_or_eof(..)] (src/lib.rs:499). *)
  Definition fs_lift {A} (c : M S A) : M (flac_samples S) A := fun st =>
    let (o, s) := c (fs_frame_reader st) in
    (o, mkFs s (fs_block st) (fs_sample st) (fs_channel st) (fs_has_failed st)).
  (** [self.channel = c] (src/lib.rs:484, :488). *)
  Definition fs_set_channel (c : Z) : M (flac_samples S) unit := fun st =>
    (Ok tt, mkFs (fs_frame_reader st) (fs_block st) (fs_sample st) c (fs_has_failed st)).
  (** [self.sample = x] (src/lib.rs:489, :493). *)
  Definition fs_set_sample (x : Z) : M (flac_samples S) unit := fun st =>
    (Ok tt, mkFs (fs_frame_reader st) (fs_block st) x (fs_channel st) (fs_has_failed st)).
  (** [self.block = b] (src/lib.rs:497, :501). *)
  Definition fs_set_block (b : block) : M (flac_samples S) unit := fun st =>
    (Ok tt, mkFs (fs_frame_reader st) b (fs_sample st) (fs_channel st) (fs_has_failed st)).
  (** [self.has_failed = f] (src/lib.rs:511). *)
  Definition fs_set_has_failed (b : bool) : M (flac_samples S) unit := fun st =>
    (Ok tt, mkFs (fs_frame_reader st) (fs_block st) (fs_sample st) (fs_channel st) b).

  (** src/lib.rs:518 *)
  Definition fs_yield : M (flac_samples S) (option (result Z)) :=
    st <- get ;;
    x <- lift (block_sample (fs_block st) (fs_channel st) (fs_sample st)) ;;
    ret (Some (ROk x)).

  (** src/lib.rs:476-519 *)
  Definition fs_next : M (flac_samples S) (option (result Z)) :=
    st <- get ;;
    if fs_has_failed st then ret None
    else
      ch <- lift (chk m u32 (fs_channel st + 1)) ;;
      fs_set_channel ch ;;;
      if block_channels (fs_block st) <=? ch then
        fs_set_channel 0 ;;;
        sa <- lift (chk m u32 (fs_sample st + 1)) ;;
        fs_set_sample sa ;;;
        if block_duration (fs_block st) <=? sa then
          fs_set_sample 0 ;;;
          let current_block := fs_block st in
          fs_set_block block_empty ;;;
          r <- catch (fs_lift (read_next_or_eof rb m fuel
                                 (block_into_buffer current_block))) ;;
          match r with
          | ROk (Some next_block) =>
              fs_set_block next_block ;;;
              fs_yield
          | ROk None => ret None
          | RErr error =>
              fs_set_has_failed true ;;;
              ret (Some (RErr error))
          end
        else fs_yield
      else fs_yield.
End Samples.
