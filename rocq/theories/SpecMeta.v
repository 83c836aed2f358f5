(** The metadata blocks at the start of a FLAC stream, written from the format
    documentation (https://xiph.org/flac/format.html and the Vorbis comment
    specification).  [stream_info], [vorbis_comment] and [metadata_block] are the
    crate's public data types. *)
From Verif Require Export SpecFlac SpecFrame ModelMetadata.
From Verif Require Import SpecReader.

(** * Numbers and text *)

(** [v] in [n] bytes, most significant first. *)
Fixpoint be_bytes (n : nat) (v : Z) : list Z :=
  match n with
  | O => []
  | S n' => v / 256 ^ Z.of_nat n' mod 256 :: be_bytes n' v
  end.
(** Least significant first. *)
Definition le_bytes (n : nat) (v : Z) : list Z := rev (be_bytes n v).

(** Unicode scalar values and their encoding. *)
Definition scalar (c : Z) : Prop := 0 <= c < 0xD800 \/ 0xE000 <= c <= 0x10FFFF.
Definition utf8_char (c : Z) : list Z :=
  if c <? 0x80 then [c]
  else if c <? 0x800 then [192 + c / 64; 128 + c mod 64]
  else if c <? 0x10000 then [224 + c / 4096; 128 + c / 64 mod 64; 128 + c mod 64]
  else [240 + c / 262144; 128 + c / 4096 mod 64; 128 + c / 64 mod 64; 128 + c mod 64].
Definition utf8 (l : list Z) : Prop :=
  exists cs, Forall scalar cs /\ l = flat_map utf8_char cs.

(** * Streaminfo *)

(** 0 stands for unknown. *)
Definition known (o : option Z) : Z := match o with Some x => x | None => 0 end.
Definition known_ok (limit : Z) (o : option Z) : Prop :=
  match o with Some x => 0 < x < limit | None => True end.

Definition streaminfo_bits (si : stream_info) : list bool :=
  word 16 (si_min_block_size si) ++ word 16 (si_max_block_size si)
  ++ word 24 (known (si_min_frame_size si)) ++ word 24 (known (si_max_frame_size si))
  ++ word 20 (si_sample_rate si) ++ word 3 (si_channels si - 1)
  ++ word 5 (si_bits_per_sample si - 1) ++ word 36 (known (si_samples si)).

Definition streaminfo_code (si : stream_info) (w : list Z) : Prop :=
  exists front, w = front ++ si_md5sum si /\ byte_string front
    /\ bytes_bits front = streaminfo_bits si.

(** The values have the right number of bits. *)
Definition streaminfo_fits (si : stream_info) : Prop :=
  0 <= si_min_block_size si < 2 ^ 16 /\ 0 <= si_max_block_size si < 2 ^ 16
  /\ known_ok (2 ^ 24) (si_min_frame_size si) /\ known_ok (2 ^ 24) (si_max_frame_size si)
  /\ 0 <= si_sample_rate si < 2 ^ 20 /\ 1 <= si_channels si <= 8
  /\ 1 <= si_bits_per_sample si <= 32 /\ known_ok (2 ^ 36) (si_samples si)
  /\ byte_string (si_md5sum si) /\ length (si_md5sum si) = 16%nat.
(** They make sense. *)
Definition streaminfo_valid (si : stream_info) : Prop :=
  si_min_block_size si <= si_max_block_size si
  /\ 16 <= si_min_block_size si
  /\ match si_min_frame_size si, si_max_frame_size si with
     | Some a, Some b => a <= b
     | _, _ => True
     end
  /\ 1 <= si_sample_rate si <= 655350.

(** * Vorbis comments *)

(** A comment is a name and a value; empty ones (which carry nothing) occur. *)
Definition comment := (list Z * list Z)%type.
Definition comment_text (c : comment) : list Z := fst c ++ [61] ++ snd c.
Definition comment_ok (c : comment) : Prop :=
  Forall (fun b => 32 <= b <= 125 /\ b <> 61) (fst c) /\ utf8 (snd c).
Definition entry_text (e : option comment) : list Z :=
  match e with Some c => comment_text c | None => [] end.
Definition entry_ok (e : option comment) : Prop :=
  match e with Some c => comment_ok c | None => True end.

Definition with_length (l : list Z) : list Z := le_bytes 4 (len l) ++ l.
Definition comments_bytes (vendor : list Z) (entries : list (option comment)) : list Z :=
  with_length vendor ++ le_bytes 4 (len entries)
  ++ flat_map (fun e => with_length (entry_text e)) entries.

(** The comments that are not empty. *)
Definition present (entries : list (option comment)) : list comment :=
  flat_map (fun e => match e with Some c => [c] | None => [] end) entries.

(** The crate's representation: the text and the index of the '='. *)
Definition vorbis_of (vendor : list Z) (cs : list comment) : vorbis_comment :=
  mkVc vendor (map (fun c => (comment_text c, len (fst c))) cs).

(** * Blocks *)

Definition MiB10 : Z := 10 * 1024 * 1024.

(** The contents of a block of type [ty]. *)
Inductive body_code : Z -> list Z -> metadata_block -> Prop :=
| body_streaminfo : forall si w, streaminfo_fits si -> streaminfo_valid si ->
    streaminfo_code si w -> body_code 0 w (MbStreamInfo si)
| body_padding : forall w, byte_string w -> body_code 1 w (MbPadding (len w))
| body_application : forall id data, 0 <= id < 2 ^ 32 -> byte_string data ->
    4 + len data <= MiB10 -> body_code 2 (be_bytes 4 id ++ data) (MbApplication id data)
| body_comments : forall vendor entries, utf8 vendor -> Forall entry_ok entries ->
    len (comments_bytes vendor entries) <= MiB10 ->
    body_code 4 (comments_bytes vendor entries) (MbVorbisComment (vorbis_of vendor (present entries)))
| body_skipped : forall ty w, ty = 3 \/ ty = 5 \/ ty = 6 -> byte_string w ->
    body_code ty w (MbPadding (len w))
| body_reserved : forall ty w, 7 <= ty <= 126 -> byte_string w -> body_code ty w MbReserved.

(** With the header; [last] is set in the last block. *)
Definition block_code (last : bool) (b : metadata_block) (w : list Z) : Prop :=
  exists ty body, body_code ty body b /\ len body < 2 ^ 24
    /\ w = [128 * Z.b2z last + ty] ++ be_bytes 3 (len body) ++ body.

(** All metadata blocks of a stream. *)
Inductive blocks_code : list metadata_block -> list Z -> Prop :=
| blocks_last : forall b w, block_code true b w -> blocks_code [b] w
| blocks_more : forall b w bs w', block_code false b w -> blocks_code bs w' ->
    blocks_code (b :: bs) (w ++ w').
