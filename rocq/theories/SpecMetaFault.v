(** What is wrong with the beginning of a file, for every error that reading metadata
    and opening report: the bytes up to and including the field that gives the fault
    away.  Written from the format documentation and the error messages. *)
From Verif Require Export SpecFile.
From Verif Require Import SpecReader.

(** * Blocks *)

(** In the values of a streaminfo block. *)
Inductive streaminfo_fault (si : stream_info) : error -> Prop :=
| fault_block_bounds :
    si_max_block_size si < si_min_block_size si ->
    streaminfo_fault si (FormatError "inconsistent bounds, min block size > max block size")
| fault_block_small :
    si_min_block_size si <= si_max_block_size si -> si_min_block_size si < 16 ->
    streaminfo_fault si (FormatError "invalid block size, must be at least 16")
| fault_frame_bounds : forall a b,
    si_min_block_size si <= si_max_block_size si -> 16 <= si_min_block_size si ->
    si_min_frame_size si = Some a -> si_max_frame_size si = Some b -> b < a ->
    streaminfo_fault si (FormatError "inconsistent bounds, min frame size > max frame size")
| fault_sample_rate :
    si_min_block_size si <= si_max_block_size si -> 16 <= si_min_block_size si ->
    (forall a b, si_min_frame_size si = Some a -> si_max_frame_size si = Some b -> a <= b) ->
    si_sample_rate si = 0 \/ 655350 < si_sample_rate si ->
    streaminfo_fault si (FormatError "invalid sample rate").

Definition no_equals (l : list Z) : Prop := Forall (fun b => b <> 61) l.
Definition printable (b : Z) : Prop := 32 <= b <= 125.

(** In one comment with its length, where [room] bytes are left for its text. *)
Inductive comment_fault (room : Z) : error -> list Z -> Prop :=
| fault_comment_long : forall n, room < n < 2 ^ 32 ->
    comment_fault room (FormatError "Vorbis comment too long for Vorbis comment block") (le_bytes 4 n)
| fault_comment_equals : forall text, text <> [] -> len text <= room -> no_equals text ->
    comment_fault room (FormatError "Vorbis comment does not contain '='") (with_length text)
| fault_comment_name : forall c, len (comment_text c) <= room -> no_equals (fst c) ->
    ~ Forall printable (fst c) ->
    comment_fault room (FormatError "Vorbis comment field name contains invalid byte")
      (with_length (comment_text c))
| fault_comment_utf8 : forall c, len (comment_text c) <= room -> no_equals (fst c) ->
    Forall printable (fst c) -> ~ utf8 (snd c) ->
    comment_fault room (FormatError "Vorbis comment or vendor string is not valid UTF-8")
      (with_length (comment_text c)).

(** The vendor string, the announced number of entries and the first entries. *)
Definition comments_start (vendor : list Z) (count : Z) (entries : list (option comment)) : list Z :=
  with_length vendor ++ le_bytes 4 count ++ flat_map (fun e => with_length (entry_text e)) entries.

(** In the contents of a Vorbis comment block of [n] bytes. *)
Inductive comments_fault (n : Z) : error -> list Z -> Prop :=
| fault_comments_short : n < 8 ->
    comments_fault n (FormatError "Vorbis comment block is too short") []
| fault_comments_large : MiB10 < n ->
    comments_fault n (Unsupported "Vorbis comment blocks larger than 10 MiB are not supported") []
| fault_vendor_long : forall v, 8 <= n <= MiB10 -> n - 8 < v < 2 ^ 32 ->
    comments_fault n (FormatError "vendor string too long") (le_bytes 4 v)
| fault_vendor_utf8 : forall vendor, 8 + len vendor <= n <= MiB10 -> ~ utf8 vendor ->
    comments_fault n (FormatError "Vorbis comment or vendor string is not valid UTF-8")
      (with_length vendor)
| fault_count : forall vendor count, 8 + len vendor <= n <= MiB10 -> utf8 vendor ->
    n / 4 <= count < 2 ^ 32 ->
    comments_fault n (FormatError "too many entries for Vorbis comment block")
      (with_length vendor ++ le_bytes 4 count)
| fault_comment : forall vendor count entries e w, n <= MiB10 -> utf8 vendor ->
    0 <= count < n / 4 -> Forall entry_ok entries -> len entries < count ->
    len (comments_start vendor count entries) + 4 <= n ->
    comment_fault (n - len (comments_start vendor count entries) - 4) e w ->
    comments_fault n e (comments_start vendor count entries ++ w)
| fault_excess : forall vendor count entries, n <= MiB10 -> utf8 vendor ->
    0 <= count < n / 4 -> Forall entry_ok entries -> len entries <= count ->
    (let left := n - len (comments_start vendor count entries) in
     0 < left /\ (left < 4 \/ len entries = count)) ->
    comments_fault n (FormatError "Vorbis comment block has excess data")
      (comments_start vendor count entries)
| fault_missing : forall vendor count entries, n <= MiB10 -> utf8 vendor ->
    0 <= count < n / 4 -> Forall entry_ok entries -> len entries < count ->
    len (comments_start vendor count entries) = n ->
    comments_fault n (FormatError "Vorbis comment block contains wrong number of entries")
      (comments_start vendor count entries).

(** In the contents of a block of type [ty] that is announced to have [n] bytes. *)
Inductive content_fault (ty n : Z) : error -> list Z -> Prop :=
| fault_streaminfo_length : ty = 0 -> n <> 34 ->
    content_fault ty n (FormatError "invalid streaminfo metadata block length") []
| fault_streaminfo : forall si e w, ty = 0 -> n = 34 -> streaminfo_fits si -> streaminfo_code si w ->
    streaminfo_fault si e -> content_fault ty n e w
| fault_application_short : ty = 2 -> n < 4 ->
    content_fault ty n (FormatError "application block length must be at least 4 bytes") []
| fault_application_large : ty = 2 -> MiB10 < n ->
    content_fault ty n (Unsupported "application blocks larger than 10 MiB are not supported") []
| fault_comments : forall e w, ty = 4 -> comments_fault n e w -> content_fault ty n e w
| fault_type : ty = 127 -> content_fault ty n (FormatError "invalid metadata block type") [].

(** In a block with its header. *)
Definition block_fault (e : error) (w : list Z) : Prop :=
  exists last ty n content, 0 <= ty <= 127 /\ 0 <= n < 2 ^ 24 /\ content_fault ty n e content
    /\ w = [128 * Z.b2z last + ty] ++ be_bytes 3 n ++ content.

(** The bytes end before the block that starts with them does: in its header, or there
    are fewer bytes behind it than it announces. *)
Inductive cut_short : list Z -> Prop :=
| cut_header : forall l, (length l < 4)%nat -> cut_short l
| cut_content : forall x n l, 0 <= n < 2 ^ 24 -> len l < n -> cut_short ([x] ++ be_bytes 3 n ++ l).

(** * Opening *)

(** After these blocks behind the streaminfo, none of them the last, there is more to
    read. *)
Definition reads_on (opts : flac_reader_options) (bs : list metadata_block) : Prop :=
  Forall not_streaminfo bs
  /\ match metadata_only opts, opt_read_vorbis_comment opts with
     | false, _ => exists vc, only_comment bs vc
     | true, true => Forall not_comment bs
     | true, false => bs = []
     end.

Inductive open_fault (opts : flac_reader_options) : error -> list Z -> Prop :=
| fault_id3 : forall x,
    open_fault opts (FormatError "stream starts with ID3 header rather than FLAC header") [73; 68; 51; x]
| fault_signature : forall a b c d, [a; b; c; d] <> signature -> [a; b; c] <> [73; 68; 51] ->
    open_fault opts (FormatError "invalid stream header") [a; b; c; d]
| fault_first_block : forall e w, block_fault e w -> open_fault opts e (signature ++ w)
| fault_no_streaminfo : forall last b w, block_code last b w -> not_streaminfo b ->
    open_fault opts (FormatError "streaminfo block missing") (signature ++ w)
| fault_later_block : forall si bs w w' e,
    open_blocks (MbStreamInfo si :: bs) w -> reads_on opts bs -> block_fault e w' ->
    open_fault opts e (signature ++ w ++ w')
| fault_second_streaminfo : forall si bs w last si' w',
    open_blocks (MbStreamInfo si :: bs) w -> reads_on opts bs -> block_code last (MbStreamInfo si') w' ->
    open_fault opts (FormatError "encountered second streaminfo block") (signature ++ w ++ w')
| fault_second_comment : forall si bs w vc last vc' w',
    metadata_only opts = false -> open_blocks (MbStreamInfo si :: bs) w -> Forall not_streaminfo bs ->
    only_comment bs (Some vc) -> block_code last (MbVorbisComment vc') w' ->
    open_fault opts (FormatError "encountered second Vorbis comment block") (signature ++ w ++ w').

(** The bytes end while there is more to read. *)
Inductive open_cut (opts : flac_reader_options) : list Z -> Prop :=
| cut_signature : forall l, (length l < 4)%nat -> open_cut opts l
| cut_first_block : forall l, cut_short l -> open_cut opts (signature ++ l)
| cut_later_block : forall si bs w l, open_blocks (MbStreamInfo si :: bs) w -> reads_on opts bs ->
    cut_short l -> open_cut opts (signature ++ w ++ l).

(** * The iterator *)

(** What iterating over the metadata blocks at the start of [l] yields: the blocks up to
    and including the first flagged last, or up to the first fault, and its error; if the
    bytes end within a block, the error [e0] of the source. *)
Inductive diagnosed_items (e0 : error) : list Z -> list (result metadata_block) -> Prop :=
| diagnosed_last : forall b w rest, block_code true b w -> diagnosed_items e0 (w ++ rest) [ROk b]
| diagnosed_more : forall b w l items, block_code false b w -> diagnosed_items e0 l items ->
    diagnosed_items e0 (w ++ l) (ROk b :: items)
| diagnosed_fault : forall e w rest, block_fault e w -> diagnosed_items e0 (w ++ rest) [RErr e]
| diagnosed_end : forall l, cut_short l ->
    (forall e w rest, l = w ++ rest -> ~ block_fault e w) ->
    diagnosed_items e0 l [RErr e0].
