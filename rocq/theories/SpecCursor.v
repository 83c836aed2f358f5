(** A [Cursor] at any position, also behind the end of its data, where
    [set_position] or [seek] can put it.  Used in statements. *)
From Verif Require Export SpecOps.
From Verif Require Import SpecReader.

(** The [n] bytes of [data] that start at [pos] are [l]. *)
Definition bytes_at (data : list Z) (pos n : Z) (l : list Z) : Prop :=
  exists pre post, data = pre ++ l ++ post /\ len pre = pos /\ len l = n.

(** The call [c] returns a value and moves the cursor from [pos] to [pos']. *)
Definition moves {A} (c : M cursor A) (data : list Z) (pos : Z) (a : A) (pos' : Z) : Prop :=
  c (mkCursor data pos) = (Ok a, mkCursor data pos').
(** The call fails for lack of data and leaves the cursor where it is. *)
Definition lacks {A} (c : M cursor A) (data : list Z) (pos : Z) : Prop :=
  c (mkCursor data pos) = (Err (IoError UnexpectedEof), mkCursor data pos).

(** A slice is shorter than 2^63 bytes; a position is a [u64]. *)
Definition a_cursor (data : list Z) (pos : Z) : Prop := len data < 2 ^ 63 /\ 0 <= pos < 2 ^ 64.

(** A buffer is a slice; the amount to skip is a [u32].  If there are so many bytes from the position on,
    they are returned, and the cursor moves behind them; if not, the call fails. *)
Definition reads_right (m : build) (data : list Z) (pos : Z) (buf : list Z) : Prop :=
  (exists l, bytes_at data pos (len buf) l /\ moves (read_into (cu_rb m) buf) data pos l (pos + len buf))
  \/ len data < pos + len buf /\ lacks (read_into (cu_rb m) buf) data pos.
Definition skips_right (m : build) (data : list Z) (pos n : Z) : Prop :=
  (pos + n <= len data /\ moves (skip (cu_rb m) n) data pos tt (pos + n))
  \/ len data < pos + n /\ lacks (skip (cu_rb m) n) data pos.

(** The property, for the operations that take a length. *)
Definition cursors_work : Prop := forall m data pos, a_cursor data pos ->
  (forall buf, len buf < 2 ^ 63 -> reads_right m data pos buf)
  /\ forall n, 0 <= n < 2 ^ 32 -> skips_right m data pos n.

(** The results behind the end. *)
Definition nothing (o : byte_op) : outcome byte_result :=
  match o with
  | OpU8OrEof | OpBe16OrEof => Ok RNone
  | _ => Err (IoError UnexpectedEof)
  end.
