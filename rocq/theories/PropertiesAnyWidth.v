(** * C102: bit reads with any number of bits (src/input.rs)

    All methods of [Bitstream] are public, and take any [u32] as the number of bits.  C05 and C80 are about the
    documented numbers. *)
From Verif Require Import SpecAnyWidth ProofAnyWidth.
From Verif Require Import SpecReader.

(** A release build does not refuse the others. *)
Theorem C102_refuted : ~ widths_are_checked.
Proof. exact widths_refuted. Qed.

Section ForAllReaders.
  Context {S : Type} (rb : ReadBytes S) (t : tail) (D : S -> list Z -> Prop).

(** A debug build does: it panics, and later reads return the bits that follow as if nothing had happened. *)
Theorem C102_debug_partial : stream rb t D -> forall fuel ops st l,
  D st l -> (length l < fuel)%nat -> Forall any_bit_op ops ->
  going_on (run_bit_op rb Debug fuel) ops (bs_new st) = going_on (refusing_bit_op t Debug) ops (bytes_bits l).
Proof. exact (debug_going_on rb t D). Qed.

(** On any reader, in any state, nothing is touched. *)
Theorem C102_refuses : forall fuel o st, documented o = false ->
  run_bit_op rb Debug fuel o st = (Panic "assertion failed", st).
Proof. exact (refused rb). Qed.

(** In a release build, one read of nine bits as a byte returns 0, and so do the next 2^29 - 1 reads of a byte, whatever
    follows, and if nothing does: they do not look at the reader. *)
Theorem C102_made_up : stream rb t D -> forall fuel n, Z.of_nat n < 2 ^ 29 -> forall st b l, D st (b :: l) ->
  exists st', D (bs_reader st') l /\
  history (run_bit_op rb Release fuel) (OpLeqU8 9 :: repeat (OpLeqU8 8) n) (bs_new st)
  = (repeat (Ok 0) (Datatypes.S n), st').
Proof. exact (made_up rb t D). Qed.

(** But it does not panic, and the reader is not harmed: it stands behind some of the bytes, in order. *)
Theorem C102_release : stream rb t D -> forall fuel ops st l, D (bs_reader st) l -> (length l < fuel)%nat ->
  Forall value_or_error (fst (history (run_bit_op rb Release fuel) ops st))
  /\ (Forall succeeded (fst (history (run_bit_op rb Release fuel) ops st)) ->
      exists w l', l = w ++ l' /\ D (bs_reader (snd (history (run_bit_op rb Release fuel) ops st))) l').
Proof. exact (release_mild rb t D). Qed.
End ForAllReaders.

(** C17 for the other widths ([extend_sign_u32] is public too): a debug build panics, a release build uses the width modulo 32. *)
Theorem C17_other_widths : forall m val bits, 0 <= val < 2 ^ 32 -> 0 <= bits < 2 ^ 32 -> bits = 0 \/ 32 < bits ->
  match m with
  | Debug => exists msg, extend_sign_u32 m val bits = Panic msg
  | Release => forall k, 1 <= k <= 32 -> k mod 32 = bits mod 32 -> exists r, extend_sign_u32 m val bits = Ok r
      /\ - 2 ^ (k - 1) <= r < 2 ^ (k - 1) /\ r mod 2 ^ k = val mod 2 ^ k
  end.
Proof. exact extend_any. Qed.

(** * Concrete cases *)
Example C17_other_widths_example : extend_sign_u32 Release 13 36 = Ok (-3) /\ extend_sign_u32 Release 4294967295 0 = Ok (-1)
  /\ extend_sign_u32 Debug 13 36 = Panic "attempt to perform arithmetic with overflow"
  /\ extend_sign_u32 Debug 13 0 = Panic "attempt to shift with overflow".
Proof. repeat split. Qed.
Example C102_example :
  let ops := [OpLeqU8 3; OpLeqU8 9; OpGtU8LeqU16 8; OpLeqU16 17; OpLeqU32 33; OpLeqU8 5; OpLeqU32 4294967295; OpBit] in
  Forall any_bit_op ops
  /\ going_on (run_bit_op (cu_rb Debug) Debug 10) ops (bs_new (mkCursor [170; 128] 0))
     = [Ok 5; Panic "assertion failed"; Panic "assertion failed"; Panic "assertion failed"; Panic "assertion failed"; Ok 10;
        Panic "assertion failed"; Ok 1]
  /\ going_on (refusing_bit_op TEof Debug) ops (bytes_bits [170; 128])
     = [Ok 5; Panic "assertion failed"; Panic "assertion failed"; Panic "assertion failed"; Panic "assertion failed"; Ok 10;
        Panic "assertion failed"; Ok 1].
Proof. split; [repeat constructor; cbn; lia|]. split; vm_compute; reflexivity. Qed.
(** A release build on the same bytes. *)
Example C102_example_release :
  fst (history (run_bit_op (cu_rb Release) Release 10) [OpLeqU8 3; OpLeqU8 9; OpLeqU8 8; OpLeqU8 8; OpLeqU8 8; OpLeqU8 8]
         (bs_new (mkCursor [170; 128] 0)))
  = [Ok 5; Ok 0; Err (IoError UnexpectedEof)].
Proof. vm_compute. reflexivity. Qed.
Example C102_example_made_up :
  fst (history (run_bit_op (cu_rb Release) Release 10) (OpLeqU8 9 :: repeat (OpLeqU8 8) 5) (bs_new (mkCursor [255] 0)))
  = [Ok 0; Ok 0; Ok 0; Ok 0; Ok 0; Ok 0].
Proof. vm_compute. reflexivity. Qed.

Print Assumptions C102_refuted.
Print Assumptions C102_debug_partial.
Print Assumptions C102_refuses.
Print Assumptions C102_made_up.
Print Assumptions C102_release.
Print Assumptions C17_other_widths.
