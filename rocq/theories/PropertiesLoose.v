(** Numbers in unary that do not fit 32 bits: what [Bitstream] and
    [FrameReader::read_next_or_eof] do on any input at all.

    [rb], [t], [D], [fuel] as in PropertiesFrame.v. *)
From Verif Require Import SpecOps SpecFlac SpecFrame SpecApi SpecLoose ProofLoose ProofOverflow.
From Verif Require Import SpecReader.

Section ForAllReaders.
  Context {S : Type} (rb : ReadBytes S) (t : tail) (D : S -> list Z -> Prop).

(** * C80: bit reads on any input *)

(** C05 without its proviso: with overflow checks (debug builds) a count of 2^32 or
    more zeros is a panic, without them (release builds) it is taken modulo 2^32. *)
Theorem C80_any_bits : stream rb t D -> forall m fuel ops st l,
  D st l -> (length l < fuel)%nat -> Forall legal_bit_op ops ->
  fst (history (run_bit_op rb m fuel) ops (bs_new st))
  = fst (history (counted_bit_op t m) ops (bytes_bits l)).
Proof. exact (counted_history rb t D). Qed.

(** C06 without its proviso. *)
Theorem C80_no_over_read : stream rb t D -> forall m fuel ops st l,
  D st l -> (length l < fuel)%nat -> Forall legal_bit_op ops ->
  let (rs, bs) := history (run_bit_op rb m fuel) ops (bs_new st) in
  Forall succeeded rs ->
  exists w, bytes_bits l = w ++ snd (history (counted_bit_op t m) ops (bytes_bits l))
    /\ D (bs_reader bs) (skipn ((length w + 7) / 8) l).
Proof. exact (counted_reader rb t D). Qed.

(** * C81: the frames a release build accepts *)

(** Exactly those of SpecLoose.v, on any input. *)
Theorem C81_decoded : stream rb t D -> forall fuel buffer st h chs w rest,
  loose_frame h chs w -> D st (w ++ rest) -> (length (w ++ rest) < fuel)%nat ->
  exists b st', read_next_or_eof rb Release fuel buffer st = (Ok (Some b), st')
    /\ block_shows b h chs /\ D st' rest.
Proof. exact (loose_decoded rb t D). Qed.

Theorem C81_only : stream rb t D -> forall fuel buffer st l b st',
  D st l -> (length l < fuel)%nat ->
  read_next_or_eof rb Release fuel buffer st = (Ok (Some b), st') ->
  exists h chs w rest, l = w ++ rest /\ D st' rest /\ loose_frame h chs w /\ block_shows b h chs.
Proof. exact (loose_only rb t D). Qed.

(** * C82: the inputs on which a debug build panics *)

(** Exactly those that start like a frame up to a number in unary that a u32 cannot
    count ([frame_overflow] in SpecLoose.v). *)
Theorem C82_panics : stream rb t D -> forall fuel buffer st p rest,
  frame_overflow p -> D st (p ++ rest) -> (length (p ++ rest) < fuel)%nat ->
  exists w, fst (read_next_or_eof rb Debug fuel buffer st) = Panic w.
Proof. exact (overflow_panics rb t D). Qed.

Theorem C82_otherwise : stream rb t D -> forall fuel buffer st l,
  D st l -> (length l < fuel)%nat ->
  value_or_error (fst (read_next_or_eof rb Debug fuel buffer st))
  \/ exists p rest, l = p ++ rest /\ frame_overflow p.
Proof. exact (panics_overflow rb t D). Qed.
End ForAllReaders.

(** They are the well-formed frames, and strings with 2^32 - 1 zeros in a row. *)
Theorem C81_frames : forall h chs w, frame_code h chs w -> loose_frame h chs w.
Proof. exact frame_is_loose. Qed.
Theorem C81_others : forall h chs w, loose_frame h chs w ->
  frame_code h chs w \/ ~ no_zero_run (2 ^ 32 - 1) (bytes_bits w).
Proof. exact loose_cases. Qed.
(** Of which there are some. *)
Theorem C81_more : exists h chs w, loose_frame h chs w /\ ~ frame_code h chs w.
Proof. exact (loose_more (Z.to_nat (2 ^ 29)) (Z2Nat.id (2 ^ 29) ltac:(lia))). Qed.

(** There is such an input. *)
Theorem C82_some : exists p, frame_overflow p.
Proof. exact (overflow_exists (Z.to_nat (2 ^ 29)) (Z2Nat.id (2 ^ 29) ltac:(lia))). Qed.

(** A usual frame ([C82_some] has what [C82_panics] speaks of). *)
Example C81_example : loose_frame tiny_header [repeat (-3) 16] tiny_frame
  /\ exists b, fst (read_next_or_eof (cu_rb Release) Release 100 (mkVec [] 0) (mkCursor (tiny_frame ++ [1]) 0)) = Ok (Some b)
       /\ v_items (block_into_buffer b) = repeat (-3) 16.
Proof. split; [exact (C81_frames _ _ _ tiny_frame_ok)|]. eexists. split; [vm_compute; reflexivity|reflexivity]. Qed.
(** The counts: 2^32 zeros and a one in a release build, and in a debug build. *)
Example C80_wraps : forall t r,
  counted_bit_op t Release OpUnary (repeat false (Z.to_nat (2 ^ 32)) ++ true :: r) = (Ok 0, r)
  /\ fst (counted_bit_op t Debug OpUnary (repeat false (Z.to_nat (2 ^ 32)) ++ true :: r))
     = Panic "attempt to perform arithmetic with overflow".
Proof. exact (fun t r => count_wraps t (2 ^ 32) r eq_refl). Qed.

Example C80_example :
  fst (history (counted_bit_op TEof Release) [OpBit; OpUnary; OpLeqU8 3] (bytes_bits [133; 178]))
  = [Ok 1; Ok 4; Ok 3]
  /\ fst (history (run_bit_op (cu_rb Release) Release 10) [OpBit; OpUnary; OpLeqU8 3] (bs_new (mkCursor [133; 178] 0)))
     = [Ok 1; Ok 4; Ok 3].
Proof. split; reflexivity. Qed.

Print Assumptions C80_any_bits.
Print Assumptions C80_no_over_read.
Print Assumptions C81_decoded.
Print Assumptions C81_only.
Print Assumptions C81_frames.
Print Assumptions C81_others.
Print Assumptions C81_more.
Print Assumptions C82_panics.
Print Assumptions C82_otherwise.
Print Assumptions C82_some.
