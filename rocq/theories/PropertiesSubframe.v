(** Properties of src/subframe.rs: residuals and subframes.

    All theorems are about a [Bitstream] over any reader [rb] that behaves as a
    byte stream ([stream], shown for [BufferedReader] and [Cursor] in
    PropertiesInput.v), standing at any bit: [bits_left D fuel st bits] says that
    in state [st] exactly the bits [bits] are still to come. *)
From Verif Require Import SpecOps SpecFlac SpecEncoder ProofSubframe ProofUnsup.
From Verif Require Import SpecReader.

Section ForAllReaders.
  Context {S : Type} (rb : ReadBytes S) (t : tail) (D : S -> list Z -> Prop).

(** * C19: Rice-coded partitions decode to the encoded residuals *)

Theorem C19_rice : stream rb t D -> forall m fuel buffer k rs st rest, 0 <= k <= 14 ->
  Forall (fun r => - 2 ^ 31 <= r < 2 ^ 31) rs -> length buffer = length rs ->
  bits_left D fuel st (partition_bits 4 k rs ++ rest) ->
  exists st', decode_rice_partition rb m fuel buffer st = (Ok rs, st')
              /\ bits_left D fuel st' rest.
Proof. exact (rice_round_trip rb t D). Qed.

Theorem C19_rice2 : stream rb t D -> forall m fuel buffer k rs st rest, 0 <= k <= 30 ->
  Forall (fun r => - 2 ^ 31 <= r < 2 ^ 31) rs -> length buffer = length rs ->
  bits_left D fuel st (partition_bits 5 k rs ++ rest) ->
  exists st', decode_rice2_partition rb m fuel buffer st = (Ok rs, st')
              /\ bits_left D fuel st' rest.
Proof. exact (rice2_round_trip rb t D). Qed.

(** * C20: residual partitions tile the block *)

(** [bs] is the block size, [order] the number of warm-up samples, [buffer] the rest
    of the block.  A partition order that does not fit is rejected... *)
Theorem C20_rejected : stream rb t D ->
  forall m fuel bs order buffer method po rest st,
  0 <= order <= bs -> 1 <= bs <= 65535 -> len buffer = bs - order ->
  0 <= method <= 1 -> 0 <= po <= 15 ->
  ~ (bs mod 2 ^ po = 0 /\ order <= bs / 2 ^ po) ->
  bits_left D fuel st (word 2 method ++ word 4 po ++ rest) ->
  exists e, fst (decode_residual rb m fuel bs buffer st) = Err (FormatError e).
Proof. exact (residual_rejects rb t D). Qed.

(** ...and one that fits is accepted, with the values of the partitions in order:
    see [residual_code]. *)
Theorem C20_accepted : stream rb t D ->
  forall m fuel bs order buffer w rs rest st,
  0 <= order <= bs -> 1 <= bs <= 65535 -> len buffer = bs - order ->
  residual_code bs order w rs -> bits_left D fuel st (w ++ rest) ->
  exists st', decode_residual rb m fuel bs buffer st = (Ok rs, st')
              /\ bits_left D fuel st' rest.
Proof. exact (residual_accepts rb t D). Qed.

Theorem C20_only : stream rb t D ->
  forall m fuel bs order buffer bits rs st st',
  0 <= order <= bs -> 1 <= bs <= 65535 -> len buffer = bs - order ->
  m = Debug \/ no_zero_run (2 ^ 32 - 1) bits -> bits_left D fuel st bits ->
  decode_residual rb m fuel bs buffer st = (Ok rs, st') ->
  exists w rest, bits = w ++ rest /\ residual_code bs order w rs
                 /\ bits_left D fuel st' rest.
Proof. exact (residual_accepts_only rb t D). Qed.

(** * C23: wasted bits are restored *)

Theorem C23_restored : stream rb t D ->
  forall m fuel bps buffer c k wb s rest st,
  1 <= bps <= 32 -> 1 <= len buffer <= 65535 -> 0 <= k -> k < bps ->
  body (bps - k) (length buffer) c wb s ->
  bits_left D fuel st (false :: word 6 (coding_code c) ++ wasted_field k ++ wb ++ rest) ->
  exists st', decode rb m fuel bps buffer st
              = (Ok (map (fun x => wrap32 (x * 2 ^ k)) s), st')
              /\ bits_left D fuel st' rest.
Proof. exact (wasted_bits rb t D). Qed.

(** A sample width is at most 32, so this includes all [k] above 31. *)
Theorem C23_rejected : stream rb t D ->
  forall m fuel bps buffer c k rest st,
  1 <= bps <= 32 -> 1 <= len buffer <= 65535 -> 1 <= k < 2 ^ 32 -> bps <= k ->
  coding_ok c ->
  bits_left D fuel st (false :: word 6 (coding_code c) ++ wasted_field k ++ rest) ->
  exists e, fst (decode rb m fuel bps buffer st) = Err (FormatError e).
Proof. exact (wasted_bits_rejected rb t D). Qed.

(** * C24: subframe decoding matches the format grammar exactly *)

(** Every string of bits of the grammar is accepted, and exactly it is consumed. *)
Theorem C24_complete : stream rb t D ->
  forall m fuel bps buffer w s rest st,
  1 <= bps <= 32 -> 1 <= len buffer <= 65535 ->
  subframe bps (length buffer) w s -> bits_left D fuel st (w ++ rest) ->
  exists st', decode rb m fuel bps buffer st = (Ok s, st') /\ bits_left D fuel st' rest.
Proof. exact (subframe_accepts rb t D). Qed.

(** Nothing else is: if decoding succeeds, it consumed a string of the grammar that
    encodes the result.  In release builds, where u32 arithmetic wraps, this needs
    an input without a run of 2^32 - 1 zero bits. *)
Theorem C24_sound : stream rb t D ->
  forall m fuel bps buffer bits s st st',
  1 <= bps <= 32 -> 1 <= len buffer <= 65535 ->
  m = Debug \/ no_zero_run (2 ^ 32 - 1) bits -> bits_left D fuel st bits ->
  decode rb m fuel bps buffer st = (Ok s, st') ->
  exists w rest, bits = w ++ rest /\ subframe bps (length buffer) w s
                 /\ bits_left D fuel st' rest.
Proof. exact (subframe_accepts_only rb t D). Qed.

(** On everything else it returns an error. *)
Theorem C24_total : stream rb t D ->
  forall m fuel bps buffer bits st,
  1 <= bps <= 32 -> 1 <= len buffer <= 65535 ->
  m = Release \/ no_zero_run (2 ^ 32 - 1) bits -> bits_left D fuel st bits ->
  value_or_error (fst (decode rb m fuel bps buffer st)).
Proof. exact (subframe_never_panics rb t D). Qed.
End ForAllReaders.

(** * Concrete cases *)

(** The stream of the examples: a cursor; at its start all bits are to come. *)
Definition at_bits (bits : list bool) : bitstream cursor := bs_new (mkCursor (pack bits) 0).

Example C19_example :
  let bits := partition_bits 4 2 [0; -1; 7; -2147483648 / 2 ^ 28] in
  len bits = 22 /\ bytes_bits (pack bits) = bits ++ [false; false]
  /\ fst (decode_rice_partition (cu_rb Debug) Debug 100 [0; 0; 0; 0] (at_bits bits))
     = Ok [0; -1; 7; -8].
Proof. vm_compute. repeat split; reflexivity. Qed.

(** A fixed subframe of order 1: four samples in two partitions. *)
Definition example_subframe : list bool :=
  false :: word 6 9 ++ [false] ++ word 8 5
  ++ word 2 1 ++ word 4 1 ++ partition_bits 5 2 [1] ++ partition_bits 5 0 [-2; 3].

Example C20_example : residual_code 4 1
  (word 2 1 ++ word 4 1 ++ partition_bits 5 2 [1] ++ partition_bits 5 0 [-2; 3]) [1; -2; 3].
Proof.
  exists 1, 1, [1], [[-2; 3]], (partition_bits 5 2 [1]), [partition_bits 5 0 [-2; 3]].
  repeat split; try lia; try reflexivity.
  - repeat constructor.
  - apply (partition_bits_code 5 2 [1]); [lia|]. repeat constructor; lia.
  - constructor; [|constructor].
    apply (partition_bits_code 5 0 [-2; 3]); [lia|]. repeat constructor; lia.
Qed.

Example C24_example : subframe 8 4 example_subframe [5; 6; 4; 7]
  /\ fst (decode (cu_rb Debug) Debug 100 8 [0; 0; 0; 0] (at_bits example_subframe))
     = Ok [5; 6; 4; 7].
Proof.
  split; [|vm_compute; reflexivity].
  exists (Fixed 1), 0,
    (words 8 [5] ++ word 2 1 ++ word 4 1 ++ partition_bits 5 2 [1] ++ partition_bits 5 0 [-2; 3]),
    [5; 6; 4; 7].
  split; [lia|]. split; [lia|]. split; [|split; reflexivity].
  change [5; 6; 4; 7] with ([5] ++ restore (fixed_predict 1) (rev [5]) [1; -2; 3]).
  apply body_fixed; try (cbn; lia).
  - repeat constructor; cbn; lia.
  - apply C20_example.
Qed.

(** A verbatim subframe with 3 wasted bits. *)
Example C23_example :
  body (8 - 3) 2 Verbatim (words (8 - 3) [-16; 15]) [-16; 15]
  /\ fst (decode (cu_rb Release) Release 100 8 [0; 0]
       (at_bits (false :: word 6 1 ++ wasted_field 3 ++ words 5 [-16; 15]))) = Ok [-128; 120]
  /\ fst (decode (cu_rb Release) Release 100 8 [0; 0]
       (at_bits (false :: word 6 1 ++ wasted_field 8 ++ words 5 [-16; 15])))
     = Err (FormatError "subframe has no non-wasted bits").
Proof.
  split; [|vm_compute; split; reflexivity].
  constructor; [reflexivity|]. repeat constructor; cbn; lia.
Qed.

(** The position of the examples is one in the sense of [bits_left]. *)
Example bits_left_example :
  bits_left cursor_at 100 (at_bits example_subframe) (bytes_bits (pack example_subframe)).
Proof.
  apply (bs_new_left _ _ _ (cu_stream Debug) 100 (mkCursor (pack example_subframe) 0)
           (pack example_subframe)).
  - exists []. repeat split; try (vm_compute; reflexivity).
    vm_compute. repeat constructor; discriminate.
  - vm_compute. lia.
Qed.

Print Assumptions C19_rice.
Print Assumptions C19_rice2.
Print Assumptions C20_rejected.
Print Assumptions C20_accepted.
Print Assumptions C20_only.
Print Assumptions C23_restored.
Print Assumptions C23_rejected.
Print Assumptions C24_complete.
Print Assumptions C24_sound.
Print Assumptions C24_total.
