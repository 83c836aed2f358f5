(** Requests for memory.  The model calls [rb_alloc count size] where the code
    requests memory for [count] elements of [size] bytes. *)
From Verif Require Export SpecWhole.
From Verif Require Import SpecReader.

(** A reader that also records the requests, the last one at the end.  Nothing else
    changes ([C46_traced]). *)
Definition requests := list (Z * Z).
Definition traced {S} (rb : ReadBytes S) : ReadBytes (S * requests) :=
  let on {A} (c : M S A) : M (S * requests) A := fun s =>
    let (o, s') := c (fst s) in (o, (s', snd s)) in
  mkRB (on (read_u8 rb)) (on (read_u8_or_eof rb))
    (fun buf => on (read_into rb buf)) (fun n => on (skip rb n))
    (fun count size s =>
       let (o, s') := rb_alloc rb count size (fst s) in (o, (s', snd s ++ [(count, size)]))).

(** A reader of bytes, as long as its states satisfy [I]: also when it fails.
    [read_into] overwrites what was in the buffer. *)
Record byte_reader {S} (rb : ReadBytes S) (I : S -> Prop) : Prop := {
  by_u8 : forall s, I s -> I (snd (read_u8 rb s))
    /\ forall b, fst (read_u8 rb s) = Ok b -> is_byte b;
  by_eof : forall s, I s -> I (snd (read_u8_or_eof rb s))
    /\ forall b, fst (read_u8_or_eof rb s) = Ok (Some b) -> is_byte b;
  by_into : forall s buf, I s -> len buf < 2 ^ 32 -> I (snd (read_into rb buf s))
    /\ forall buf', length buf' = length buf -> read_into rb buf' s = read_into rb buf s;
  by_skip : forall s n, I s -> 0 <= n < 2 ^ 32 -> I (snd (skip rb n s));
  by_alloc : forall s n sz, rb_alloc rb n sz s = (Ok tt, s)
}.

(** 10 MiB *)
Definition limit : Z := 10 * 1024 * 1024.

(** What may be requested for a metadata block of [length] bytes: strings and
    application data, at most the block without its first four bytes; or the vector of comments,
    less than a fourth of the length, at 32 bytes (one [String] and one
    [usize]) each. *)
Definition block_request (length : Z) (r : Z * Z) : Prop :=
  length <= limit /\ 0 <= fst r
  /\ (snd r = 1 /\ fst r <= length - 4 \/ snd r = 32 /\ 4 * fst r < length).
Definition some_block_request (r : Z * Z) : Prop :=
  0 <= fst r /\ (snd r = 1 /\ fst r <= limit - 4 \/ snd r = 32 /\ 4 * fst r < limit).
(** For the samples of a frame: 8 channels of 65535 samples of 4 bytes. *)
Definition frame_request (r : Z * Z) : Prop :=
  0 <= fst r <= 8 * 65535 /\ snd r = 4.

(** The number of bytes requested. *)
Definition requested (q : requests) : Z := fold_right (fun r n => fst r * snd r + n) 0 q.

(** A vector is never longer than its capacity. *)
Definition vec_ok (v : vec) : Prop := len (v_items v) <= v_cap v.

(** Requests when blocks of the given numbers of samples go through one recycled
    buffer, of the capacity [cap] at first: only to make it larger. *)
Fixpoint growth (cap : Z) (sizes : list Z) : requests :=
  match sizes with
  | [] => []
  | n :: r => if cap <? n then (n, 4) :: growth n r else growth cap r
  end.
Definition block_samples (b : block) : Z := block_channels b * block_duration b.
