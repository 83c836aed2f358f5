(** * C101: subframes decoded with any sample width into any slice (src/subframe.rs)

    [subframe::decode] is public: it can be called with any width and with a slice of any length, not only with those
    of a frame (C24).  See SpecAnySub.v for the statements and PropertiesSubframe.v for [bits_left]. *)
From Verif Require Import SpecAnySub ProofAnySub2.
From Verif Require Import SpecReader.

(** It is not true that what is put into the slice is what the bits say: the length of the slice is cut to 16 bits. *)
Theorem C101_refuted : ~ subframes_any.
Proof. exact any_refuted. Qed.

Section ForAllReaders.
  Context {S : Type} (rb : ReadBytes S) (t : tail) (D : S -> list Z -> Prop).

(** It is true of slices of less than 2^16 samples: also of the empty one, and if the samples have no bits (there are
    no such subframes, so it never succeeds). *)
Theorem C101_short_partial : stream rb t D -> forall m fuel bps buffer bits s st, 0 <= bps <= 32 ->
  i32_slice buffer -> len buffer < 2 ^ 16 -> bits_left D fuel st bits ->
  (forall w rest, bits = w ++ rest -> subframe bps (length buffer) w s ->
     exists st', decode rb m fuel bps buffer st = (Ok s, st') /\ bits_left D fuel st' rest)
  /\ (m = Debug \/ no_zero_run (2 ^ 32 - 1) bits -> forall st', decode rb m fuel bps buffer st = (Ok s, st') ->
     exists w rest, bits = w ++ rest /\ subframe bps (length buffer) w s /\ bits_left D fuel st' rest)
  /\ (m = Release \/ no_zero_run (2 ^ 32 - 1) bits -> value_or_error (fst (decode rb m fuel bps buffer st))).
Proof. exact (short_exact rb t D). Qed.

(** A slice of any length: what is accepted, and what is put into it.  In a longer slice, the residual has fewer values,
    and what was in the slice behind them is taken for the others: see [subframe_into]. *)
Theorem C101_accepts : stream rb t D -> forall m fuel bps buffer w s rest st, 0 <= bps <= 32 -> i32_slice buffer ->
  subframe_into bps buffer w s -> bits_left D fuel st (w ++ rest) ->
  exists st', decode rb m fuel bps buffer st = (Ok s, st') /\ bits_left D fuel st' rest.
Proof. exact (any_accepts rb t D). Qed.

Theorem C101_only : stream rb t D -> forall m fuel bps buffer bits s st st', 0 <= bps <= 32 -> i32_slice buffer ->
  m = Debug \/ no_zero_run (2 ^ 32 - 1) bits -> bits_left D fuel st bits ->
  decode rb m fuel bps buffer st = (Ok s, st') ->
  exists w rest, bits = w ++ rest /\ subframe_into bps buffer w s /\ bits_left D fuel st' rest.
Proof. exact (any_only rb t D). Qed.

(** If the length is a multiple of 2^16, 18 bits make a subframe that leaves the slice as it was. *)
Theorem C101_unchanged : forall m fuel bps buffer rest st, stream rb t D -> 1 <= bps <= 32 -> i32_slice buffer ->
  len buffer mod 2 ^ 16 = 0 -> bits_left D fuel st (empty_residual ++ rest) ->
  exists st', decode rb m fuel bps buffer st = (Ok buffer, st') /\ bits_left D fuel st' rest.
Proof. exact (any_unchanged rb t D). Qed.

(** Release builds do not panic. *)
Theorem C101_release : forall fuel bps buffer bits st, stream rb t D -> 0 <= bps <= 32 -> i32_slice buffer ->
  bits_left D fuel st bits -> value_or_error (fst (decode rb Release fuel bps buffer st)).
Proof. exact (any_release rb t D). Qed.

(** Debug builds do, exactly if the number kept of the length is less than that of the warm-up samples; release builds
    return an error then. *)
Theorem C101_debug : forall fuel bps buffer bits st, stream rb t D -> 0 <= bps <= 32 -> i32_slice buffer ->
  no_zero_run (2 ^ 32 - 1) bits -> bits_left D fuel st bits ->
  ~ value_or_error (fst (decode rb Debug fuel bps buffer st)) <-> short_count bps buffer bits.
Proof. exact (any_debug rb t D). Qed.
Theorem C101_short_count : stream rb t D -> forall m fuel bps buffer bits st, 0 <= bps <= 32 -> i32_slice buffer ->
  bits_left D fuel st bits -> short_count bps buffer bits ->
  fst (decode rb m fuel bps buffer st)
  = match m with
    | Debug => Panic "attempt to perform arithmetic with overflow"
    | Release => Err (FormatError "invalid residual")
    end.
Proof. exact (any_short rb t D). Qed.

(** Samples of more than 32 bits make a debug build panic before anything is read. *)
Theorem C101_wide : forall fuel bps buffer st, 32 < bps ->
  exists p, decode rb Debug fuel bps buffer st = (Panic p, st).
Proof. exact (any_wide rb). Qed.
End ForAllReaders.

(** * Concrete cases *)

(** A slice of 65537 samples: its last one is taken for the residual of the last sample. *)
Definition long_slice : list Z := repeat 9 (Z.to_nat 65537).
Example C101_example_slice : i32_slice long_slice /\ counted long_slice = 1 /\ len long_slice = 65537.
Proof.
  assert (len long_slice = 65537) as H by (unfold long_slice; rewrite len_repeat, Z2Nat.id by lia; reflexivity).
  split; [split|split; [|exact H]].
  - apply Forall_forall. intros x Hx. apply repeat_spec in Hx as ->. lia.
  - rewrite H. lia.
  - unfold counted. rewrite H. reflexivity.
Qed.
(** One value of order 0; the other samples stay as they were. *)
Definition one_value : list bool := false :: word 6 8 ++ [false] ++ word 2 0 ++ word 4 0 ++ word 4 0 ++ unary 8.
Definition cursor_on (bits : list bool) : bitstream cursor := bs_new (mkCursor (pack bits) 0).
Example C101_example : subframe_into 8 long_slice one_value (4 :: tl long_slice)
  /\ exists st', decode (cu_rb Release) Release 100 8 long_slice (cursor_on one_value) = (Ok (4 :: tl long_slice), st').
Proof.
  destruct C101_example_slice as (Hs & Hc & Hl).
  assert (subframe_into 8 long_slice one_value (4 :: tl long_slice)) as HI.
  { assert (Forall isi32 (4 :: tl long_slice)) as HF.
    { constructor; [red; lia|]. destruct Hs as [Hs _]. destruct Hs; [constructor|assumption]. }
    exists (Fixed 0), 0, (words (8 - 0) [] ++ word 2 0 ++ word 4 0 ++ word 4 0 ++ unary 8), (4 :: tl long_slice).
    split; [lia|]. split; [lia|]. split; [|split; [reflexivity|]].
    - assert (restore (fixed_predict 0) (rev []) ([4] ++ skipn (Z.to_nat (counted long_slice)) long_slice) = 4 :: tl long_slice) as E.
      { rewrite Hc. replace (skipn (Z.to_nat 1) long_slice) with (tl long_slice) by (destruct long_slice; reflexivity). apply (restore_order_0 (4 :: tl long_slice)), HF. }
      rewrite <- E. apply (into_fixed (8 - 0) long_slice 0 []); [lia|reflexivity|apply Nat.le_0_l|constructor|].
      rewrite Hc. exists 0, 0, [4], [], (word 4 0 ++ unary 8), []. split; [auto|]. split; [lia|]. split; [reflexivity|]. split; [discriminate|].
      split; [reflexivity|]. split; [reflexivity|]. split; [constructor|]. split; [|split; [constructor|split; reflexivity]].
      apply (partition_bits_code 4 0 [4]); [cbn; lia|]. repeat constructor; lia.
    - symmetry. rewrite <- (map_id (4 :: tl long_slice)) at 2. apply map_ext_in. intros x Hx. rewrite Z.mul_1_r. apply wrap32_id.
      rewrite Forall_forall in HF. apply HF, Hx. }
  split; [exact HI|].
  destruct (C101_accepts (cu_rb Release) TEof cursor_at (cu_stream Release) Release 100 8 long_slice one_value (4 :: tl long_slice) (repeat false 5)
              (cursor_on one_value) ltac:(lia) Hs HI) as (st' & E & _); [|exists st'; exact E].
  change (one_value ++ repeat false 5) with (bytes_bits (pack one_value)).
  apply (bs_new_left _ _ _ (cu_stream Debug) 100 (mkCursor (pack one_value) 0) (pack one_value)).
  - exists []. repeat split; try (vm_compute; reflexivity). vm_compute. repeat constructor; discriminate.
  - vm_compute. lia.
Qed.

(** Two warm-up samples in a slice of 65537. *)
Definition two_warm : list bool := false :: word 6 10 ++ [false] ++ words 8 [1; 2] ++ word 2 0 ++ word 4 0 ++ repeat false 20.
Example C101_example_short_count : short_count 8 long_slice two_warm
  /\ fst (decode (cu_rb Debug) Debug 100 8 long_slice (cursor_on two_warm))
     = Panic "attempt to perform arithmetic with overflow"
  /\ fst (decode (cu_rb Release) Release 100 8 long_slice (cursor_on two_warm)) = Err (FormatError "invalid residual").
Proof.
  split; [|vm_compute; split; reflexivity]. destruct C101_example_slice as (_ & Hc & Hl).
  exists (Fixed 2), 0, (words 8 [1; 2]), 0, 0, (repeat false 20). rewrite Hc, Hl.
  split; [reflexivity|]. split; [lia|]. split; [lia|]. split; [|cbn [coding_order]; split; [lia|]; split; [auto|]; split; [lia|reflexivity]].
  apply (before_fixed 8 2 [1; 2]); [lia|reflexivity|]. repeat constructor; cbn; lia.
Qed.
(** The empty slice. *)
Example C101_example_empty : subframe 8 0 (false :: word 6 0 ++ [false] ++ word 8 5) []
  /\ fst (decode (cu_rb Debug) Debug 100 8 [] (cursor_on (false :: word 6 0 ++ [false] ++ word 8 5))) = Ok [].
Proof.
  split; [|vm_compute; reflexivity]. exists Constant, 0, (word 8 5), []. split; [lia|]. split; [lia|].
  split; [|split; reflexivity]. apply (body_constant (8 - 0) 0 5). red. change (2 ^ (8 - 0 - 1)) with 128. lia.
Qed.

Print Assumptions C101_refuted.
Print Assumptions C101_short_partial.
Print Assumptions C101_accepts.
Print Assumptions C101_only.
Print Assumptions C101_unchanged.
Print Assumptions C101_release.
Print Assumptions C101_debug.
Print Assumptions C101_short_count.
Print Assumptions C101_wide.
