(** Bit reads with any number of bits: all methods of [Bitstream] are public.  Used in statements. *)
From Verif Require Export SpecLoose.
From Verif Require Import SpecReader.

(** The documented widths, as a test. *)
Definition documented (o : bit_op) : bool :=
  match o with
  | OpBit | OpUnary => true
  | OpLeqU8 n => n <=? 8
  | OpGtU8LeqU16 n => (8 <? n) && (n <=? 16)
  | OpLeqU16 n => n <=? 16
  | OpLeqU32 n => n <=? 32
  end.
(** A width is a [u32]. *)
Definition any_bit_op (o : bit_op) : Prop :=
  match o with
  | OpBit | OpUnary => True
  | OpLeqU8 n | OpGtU8LeqU16 n | OpLeqU16 n | OpLeqU32 n => 0 <= n < 2 ^ 32
  end.

(** A read with another width is refused: it panics and reads nothing. *)
Definition refusing_bit_op (t : tail) (m : build) (o : bit_op) : M (list bool) Z := fun l =>
  if documented o then counted_bit_op t m o l else (Panic "assertion failed", l).

(** The results of a sequence of reads that goes on after a refused one, and stops at any other failure. *)
Fixpoint going_on {S} (step : bit_op -> M S Z) (ops : list bit_op) (st : S) : list (outcome Z) :=
  match ops with
  | [] => []
  | o :: rest =>
      let (r, st') := step o st in
      r :: match r with
           | Ok _ => going_on step rest st'
           | Panic _ => if documented o then [] else going_on step rest st'
           | _ => []
           end
  end.

(** What one would expect: a read with a width that is not allowed is refused, and does no harm. *)
Definition widths_are_checked : Prop := forall S (rb : ReadBytes S) t D, stream rb t D ->
  forall m fuel ops st l, D st l -> (length l < fuel)%nat -> Forall any_bit_op ops ->
  going_on (run_bit_op rb m fuel) ops (bs_new st) = going_on (refusing_bit_op t m) ops (bytes_bits l).
