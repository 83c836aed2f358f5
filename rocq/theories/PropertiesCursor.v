(** Properties of a [Cursor] at any position.

    [cu_rb]: [Cursor] as a reader (ModelInput.v).  [a_cursor], [bytes_at], [moves], [lacks], [reads_right],
    [skips_right], [nothing]: SpecCursor.v.  [run_byte_op], [spec_byte_op], [history], [history_all]: SpecOps.v. *)
From Verif Require Import SpecCursor ProofCursor.
From Verif Require Import SpecReader.

(** * C99: a Cursor can be read from any position *)

(** Single bytes: at any position, in both builds. *)
Theorem C99_byte : forall m data pos, a_cursor data pos ->
  (pos < len data -> exists b, bytes_at data pos 1 [b]
     /\ moves (read_u8 (cu_rb m)) data pos b (pos + 1) /\ moves (read_u8_or_eof (cu_rb m)) data pos (Some b) (pos + 1))
  /\ (len data <= pos -> lacks (read_u8 (cu_rb m)) data pos /\ moves (read_u8_or_eof (cu_rb m)) data pos None pos).
Proof. exact (fun m data pos H => conj (byte_in m data pos H) (byte_out m data pos)). Qed.

(** Ranges: this is how it should be ([cursors_work], SpecCursor.v), but it is not. *)
Theorem C99_refuted : ~ cursors_work.
Proof. exact cursors_refuted. Qed.
(** What holds: as long as position and length together are below 2^64. *)
Theorem C99_range_partial : forall m data pos, a_cursor data pos ->
  (forall buf, pos + len buf < 2 ^ 64 -> reads_right m data pos buf)
  /\ forall n, 0 <= n -> pos + n < 2 ^ 64 -> skips_right m data pos n.
Proof. exact (fun m data pos H => conj (range_into m data pos H) (range_skip m data pos H)). Qed.
(** What happens if not: a debug build panics; a release build goes on from the front of the data when it skips,
    and it panics when it reads where it should have reported the end. *)
Theorem C99_wrap_into : forall m data pos, a_cursor data pos -> forall buf, len buf < 2 ^ 63 -> 2 ^ 64 <= pos + len buf ->
  read_into (cu_rb m) buf (mkCursor data pos)
  = (match m with
     | Debug => Panic "attempt to perform arithmetic with overflow"
     | Release => if pos + len buf - 2 ^ 64 <=? len data then Panic "slice index out of range" else Err (IoError UnexpectedEof)
     end, mkCursor data pos).
Proof. exact wrap_into. Qed.
Theorem C99_wrap_skip : forall m data pos, a_cursor data pos -> forall n, n < 2 ^ 32 -> 2 ^ 64 <= pos + n ->
  skip (cu_rb m) n (mkCursor data pos)
  = match m with
    | Debug => (Panic "attempt to perform arithmetic with overflow", mkCursor data pos)
    | Release => if pos + n - 2 ^ 64 <=? len data then (Ok tt, mkCursor data (pos + n - 2 ^ 64))
                 else (Err (IoError UnexpectedEof), mkCursor data pos)
    end.
Proof. exact wrap_skip. Qed.

(** Any calls: from within the data they give what they give on the rest of the data. *)
Theorem C99_within : forall m pre data ops, bytes_ok data -> len (pre ++ data) < 2 ^ 63 -> Forall legal_byte_op ops ->
  fst (history (run_byte_op (cu_rb m)) ops (mkCursor (pre ++ data) (len pre))) = fst (history (spec_byte_op TEof) ops data).
Proof. exact within_histories. Qed.
(** Behind the end they find nothing, and the position stays.  (Up to 2^63: no sum can be too large.) *)
Theorem C99_behind : forall m data pos ops, len data < pos <= 2 ^ 63 -> Forall legal_byte_op ops ->
  history_all (run_byte_op (cu_rb m)) ops (mkCursor data pos) = (map nothing ops, mkCursor data pos).
Proof. exact behind_histories. Qed.
(** At the end and anywhere behind it there are no frames, and no metadata. *)
Theorem C99_no_frame : forall m fuel buffer data pos, len data <= pos ->
  read_next_or_eof (cu_rb m) m fuel buffer (mkCursor data pos) = (Ok None, mkCursor data pos).
Proof. exact behind_frame. Qed.
Theorem C99_no_metadata : forall m un data pos, len data <= pos ->
  read_metadata_block_with_header (cu_rb m) m un (mkCursor data pos) = (Err (IoError UnexpectedEof), mkCursor data pos).
Proof. exact behind_header. Qed.

(** ** Examples *)

Example C99_example : a_cursor [1; 2; 3] 1 /\ a_cursor [1; 2; 3] (2 ^ 64 - 1)
  /\ history_all (run_byte_op (cu_rb Debug)) [OpBe16; OpSkip 0; OpU8OrEof] (mkCursor [1; 2; 3] 1)
     = ([Ok (RNum 515); Ok RDone; Ok RNone], mkCursor [1; 2; 3] 3)
  /\ history_all (run_byte_op (cu_rb Debug)) [OpBe16; OpSkip 0; OpU8OrEof] (mkCursor [1; 2; 3] 4)
     = ([Err (IoError UnexpectedEof); Err (IoError UnexpectedEof); Ok RNone], mkCursor [1; 2; 3] 4).
Proof. split; [split; [vm_compute; reflexivity|lia]|]. split; [split; [vm_compute; reflexivity|lia]|]. split; vm_compute; reflexivity. Qed.
(** From the last position there is, a release build skips to the second byte of the data. *)
Example C99_example_wrap :
  history_all (run_byte_op (cu_rb Release)) [OpU8; OpSkip 2; OpU8] (mkCursor [1; 2; 3] (2 ^ 64 - 1))
  = ([Err (IoError UnexpectedEof); Ok RDone; Ok (RNum 2)], mkCursor [1; 2; 3] 2)
  /\ fst (run_byte_op (cu_rb Debug) (OpSkip 2) (mkCursor [1; 2; 3] (2 ^ 64 - 1))) = Panic "attempt to perform arithmetic with overflow"
  /\ fst (run_byte_op (cu_rb Release) (OpInto [0; 0]) (mkCursor [1; 2; 3] (2 ^ 64 - 1))) = Panic "slice index out of range".
Proof. split; [|split]; vm_compute; reflexivity. Qed.
(** Four bytes of padding: there, not there, and made up. *)
Example C99_example_block : forall m un,
  fst (read_metadata_block (cu_rb m) m un 1 4 (mkCursor [0; 0; 0; 0] 0)) = Ok (MbPadding 4)
  /\ fst (read_metadata_block (cu_rb m) m un 1 4 (mkCursor [0; 0; 0; 0] 1)) = Err (IoError UnexpectedEof)
  /\ fst (read_metadata_block (cu_rb Release) m un 1 4 (mkCursor [0; 0; 0; 0] (2 ^ 64 - 4))) = Ok (MbPadding 4).
Proof. intros [|] un; split; [|split| |split]; vm_compute; reflexivity. Qed.

Print Assumptions C99_byte.
Print Assumptions C99_refuted.
Print Assumptions C99_range_partial.
Print Assumptions C99_wrap_into.
Print Assumptions C99_wrap_skip.
Print Assumptions C99_within.
Print Assumptions C99_behind.
Print Assumptions C99_no_frame.
Print Assumptions C99_no_metadata.
