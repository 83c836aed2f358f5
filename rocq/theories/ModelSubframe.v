(** Model of src/subframe.rs. *)
From Verif Require Export ModelInput.

(** src/subframe.rs:16-21 *)
Inductive subframe_type :=
| SfConstant
| SfVerbatim
| SfFixed (order : Z)
| SfLpc (order : Z).

(** src/subframe.rs:24-27 *)
Record subframe_header := mkSfh {
  sfh_type : subframe_type;
  sfh_wasted : Z
}.

(** src/subframe.rs:96-101 *)
Definition extend_sign_u16 (m : build) (val bits : Z) : outcome Z :=
  s <~ chk m u32 (16 - bits) ;;
  x <~ shl m u16 16 val s ;;
  shr m 16 (i16 x) s.

(** src/subframe.rs:117-122 *)
Definition extend_sign_u32 (m : build) (val bits : Z) : outcome Z :=
  s <~ chk m u32 (32 - bits) ;;
  x <~ shl m u32 32 val s ;;
  shr m 32 (i32 x) s.

(** src/subframe.rs:157-170 *)
Definition rice_to_signed (val : Z) : Z :=
  let half := i32 (Z.shiftr val 1) in
  let extended_bit_0 := Z.shiftr (i32 (u32 (Z.shiftl val 31))) 31 in
  Z.lxor half extended_bit_0.

(** [for s in buffer.iter_mut() { *s = try!(c) }]: every element is replaced by
    the result of [c], in order.  src/subframe.rs:337-346, :369-375, :410-412. *)
Fixpoint fill {S} (c : M S Z) (buffer : list Z) : M S (list Z) :=
  match buffer with
  | [] => ret []
  | _ :: rest =>
      x <- c ;;
      xs <- fill c rest ;;
      ret (x :: xs)
  end.

Section Subframe.
  Context {S : Type} (rb : ReadBytes S) (m : build) (fuel : nat).

  (** src/subframe.rs:29-91 *)
  Definition read_subframe_header : M (bitstream S) subframe_header :=
    pad <- read_bit rb m ;;
    if (pad : bool) then fmt_err "invalid subframe header"
    else
      n <- read_leq_u8 rb m 6 ;;
      sf_type <-
        (if n =? 0 then ret SfConstant
         else if n =? 1 then ret SfVerbatim
         else if (Z.land n 62 =? 2) || (Z.land n 60 =? 4) || (Z.land n 48 =? 16)
         then fmt_err "invalid subframe header, encountered reserved value"
         else if Z.land n 56 =? 8 then
           let order := Z.land n 7 in
           if 4 <? order
           then fmt_err "invalid subframe header, encountered reserved value"
           else ret (SfFixed order)
         else
           let order_mo := Z.land n 31 in
           order <- lift (chk m u8 (order_mo + 1)) ;;
           ret (SfLpc order)) ;;
      wastes_bits <- read_bit rb m ;;
      wasted_bits <-
        (if (wastes_bits : bool) then
           u <- read_unary rb m fuel ;;
           lift (chk m u32 (1 + u))
         else ret 0) ;;
      if 31 <? wasted_bits then fmt_err "wasted bits per sample must not exceed 31"
      else ret (mkSfh sf_type wasted_bits).

  (** src/subframe.rs:310-351, one iteration of the sample loops at 337-341 and
      343-347. *)
  Definition read_rice_sample (rice_param : Z) : M (bitstream S) Z :=
    q <- read_unary rb m fuel ;;
    r <- (if rice_param <=? 8 then read_leq_u8 rb m rice_param
          else read_gt_u8_leq_u16 rb m rice_param) ;;
    hi <- lift (shl m u32 32 q rice_param) ;;
    ret (rice_to_signed (Z.lor hi r)).

  (** src/subframe.rs:310-351 *)
  Definition decode_rice_partition (buffer : list Z) : M (bitstream S) (list Z) :=
    rice_param <- read_leq_u8 rb m 4 ;;
    if rice_param =? 15
    then fail (Unsupported "unencoded binary is not yet implemented")
    else fill (read_rice_sample rice_param) buffer.

  (** src/subframe.rs:369-377, one iteration of the loop *)
  Definition read_rice2_sample (rice_param : Z) : M (bitstream S) Z :=
    q <- read_unary rb m fuel ;;
    r <- read_leq_u32 rb m rice_param ;;
    hi <- lift (shl m u32 32 q rice_param) ;;
    ret (rice_to_signed (Z.lor hi r)).

  (** src/subframe.rs:358-380 *)
  Definition decode_rice2_partition (buffer : list Z) : M (bitstream S) (list Z) :=
    rice_param <- read_leq_u8 rb m 5 ;;
    if rice_param =? 31
    then fail (Unsupported "unencoded binary is not yet implemented")
    else fill (read_rice2_sample rice_param) buffer.

  (** The partition loops at src/subframe.rs:284-289 and 294-299: [n] partitions
      left, [start], [length] as in the code, [part] the partition decoder. *)
  Fixpoint partitions_loop (part : list Z -> M (bitstream S) (list Z)) (n : nat)
      (start length n_samples_per_partition : Z) (buffer : list Z)
      : M (bitstream S) (list Z) :=
    match n with
    | O => ret buffer
    | Datatypes.S n' =>
        sl <- lift (slice buffer start (start + length)) ;;
        sl' <- part sl ;;
        partitions_loop part n' (start + length) n_samples_per_partition
          n_samples_per_partition (splice buffer start sl')
    end.

  (** src/subframe.rs:236-304.  The two arms of the final match are the same
      loop around different partition decoders. *)
  Definition decode_residual (block_size : Z) (buffer : list Z)
      : M (bitstream S) (list Z) :=
    method <- read_leq_u8 rb m 2 ;;
    part <-
      (if method =? 0 then ret decode_rice_partition
       else if method =? 1 then ret decode_rice2_partition
       else fmt_err "invalid residual, encountered reserved value") ;;
    order <- read_leq_u8 rb m 4 ;;
    n_partitions <- lift (shl m u32 32 1 order) ;;
    n_samples_per_partition <- lift (shr m 16 block_size order) ;;
    npm1 <- lift (chk m u32 (n_partitions - 1)) ;;
    if negb (Z.land block_size (u16 npm1) =? 0)
    then fmt_err "invalid partition order"
    else
      (match m with
       | Debug =>
           prod <- lift (chk m u32 (n_partitions * n_samples_per_partition)) ;;
           lift (debug_assert m (prod =? block_size))
       | Release => ret tt
       end) ;;;
      n_warm_up <- lift (chk m u16 (block_size - u16 (len buffer))) ;;
      if n_samples_per_partition <? n_warm_up then fmt_err "invalid residual"
      else
        l <- lift (chk m u16 (n_samples_per_partition - n_warm_up)) ;;
        partitions_loop part (Z.to_nat n_partitions) 0 l
          n_samples_per_partition buffer.

  (** src/subframe.rs:382-394 *)
  Definition decode_constant (bps : Z) (buffer : list Z) : M (bitstream S) (list Z) :=
    sample_u32 <- read_leq_u32 rb m bps ;;
    sample <- lift (extend_sign_u32 m sample_u32 bps) ;;
    ret (map (fun _ => sample) buffer).

  (** src/subframe.rs:410-412, one iteration *)
  Definition read_verbatim_sample (bps : Z) : M (bitstream S) Z :=
    x <- read_leq_u32 rb m bps ;;
    lift (extend_sign_u32 m x bps).

  (** src/subframe.rs:397-415 *)
  Definition decode_verbatim (bps : Z) (buffer : list Z) : M (bitstream S) (list Z) :=
    lift (debug_assert m (bps <=? 32)) ;;;
    fill (read_verbatim_sample bps) buffer.
End Subframe.

(** * Prediction *)

(** src/subframe.rs:427-431 *)
Definition fixed_coefficients (order : Z) : outcome (list Z) :=
  if order =? 0 then Ok []
  else if order =? 1 then Ok [1]
  else if order =? 2 then Ok [-1; 2]
  else if order =? 3 then Ok [1; -3; 3]
  else if order =? 4 then Ok [-1; 4; -6; 4]
  else Panic "internal error: entered unreachable code".

(** src/subframe.rs:461-466, sum of [Wrapping<i32>] products *)
Definition wrapping_dot (cs ss : list Z) : Z :=
  fold_left (fun a x => i32 (a + x))
            (map (fun p => i32 (fst p * snd p)) (combine cs ss)) 0.

(** The loop at src/subframe.rs:450-471; [n] iterations left, starting at
    [i]. *)
Fixpoint predict_fixed_loop (cs : list Z) (n : nat) (i : Z) (buffer : list Z)
    : outcome (list Z) :=
  match n with
  | O => Ok buffer
  | S n' =>
      window <~ slice buffer i (i + (len cs + 1)) ;;
      let prediction := wrapping_dot cs window in
      delta <~ index window (len cs) ;;
      predict_fixed_loop cs n' (i + 1)
        (splice buffer (i + len cs) [i32 (prediction + delta)])
  end.

(** src/subframe.rs:417-474 *)
Definition predict_fixed (m : build) (order : Z) (buffer : list Z)
    : outcome (list Z) :=
  _ <~ debug_assert m (order <=? 4) ;;
  cs <~ fixed_coefficients order ;;
  n <~ chk m u64 (len buffer - order) ;;
  predict_fixed_loop cs (Z.to_nat n) 0 buffer.

(** Sum of i64 products, e.g. src/subframe.rs:560-563 before the shift. *)
Fixpoint checked_sum (m : build) (acc : Z) (l : list (Z * Z)) : outcome Z :=
  match l with
  | [] => Ok acc
  | (c, s) :: rest =>
      p <~ chk m i64 (c * s) ;;
      a <~ chk m i64 (acc + p) ;;
      checked_sum m a rest
  end.

(** One LPC step: predict sample [i] from the [order] samples before it
    (src/subframe.rs:560-565, 576-581, 607-612). *)
Definition lpc_step (m : build) (cs : list Z) (qlp_shift i : Z) (buffer : list Z)
    : outcome (list Z) :=
  window <~ slice buffer (i - len cs) i ;;
  sum <~ checked_sum m 0 (combine cs window) ;;
  prediction <~ shr m 64 sum qlp_shift ;;
  delta <~ index buffer i ;;
  x <~ chk m i64 (prediction + delta) ;;
  Ok (splice buffer i [i32 x]).

(** src/subframe.rs:559-566, :575-582 and :606-613: [for i in ..], from [i] on, [n] times. *)
Fixpoint lpc_loop (m : build) (cs : list Z) (qlp_shift : Z) (n : nat) (i : Z)
    (buffer : list Z) : outcome (list Z) :=
  match n with
  | O => Ok buffer
  | S n' =>
      buffer' <~ lpc_step m cs qlp_shift i buffer ;;
      lpc_loop m cs qlp_shift n' (i + 1) buffer'
  end.

(** src/subframe.rs:524-583.  The first loop (559-566) runs [i] from 0 to [left]
    and predicts [buffer[order + i]]; in the model the index is the predicted
    position itself. *)
Definition predict_lpc_low_order (m : build) (raw_coefficients : list Z)
    (qlp_shift : Z) (buffer : list Z) : outcome (list Z) :=
  _ <~ debug_assert m (0 <=? qlp_shift) ;;
  _ <~ debug_assert m (qlp_shift <? 64) ;;
  let order := len raw_coefficients in
  pad <~ chk m u64 (12 - order) ;;
  (* the writes buf[i] at 547 are in range iff order <= 12 *)
  _ <~ (if order <=? 12 then Ok tt else Panic "index out of bounds") ;;
  let coefficients := repeat 0 (Z.to_nat pad) ++ raw_coefficients in
  left <~ chk m u64 (Z.min 12 (len buffer) - order) ;;
  buffer <~ lpc_loop m raw_coefficients qlp_shift (Z.to_nat left) order buffer ;;
  if len buffer <=? 12 then Ok buffer
  else lpc_loop m coefficients qlp_shift (Z.to_nat (len buffer - 12)) 12 buffer.

(** src/subframe.rs:586-614.  For a buffer shorter than the order the range
    [order..buffer.len()] is empty. *)
Definition predict_lpc_high_order (m : build) (coefficients : list Z)
    (qlp_shift : Z) (buffer : list Z) : outcome (list Z) :=
  let order := len coefficients in
  _ <~ debug_assert m (0 <=? qlp_shift) ;;
  _ <~ debug_assert m (qlp_shift <? 64) ;;
  _ <~ debug_assert m (12 <? order) ;;
  _ <~ debug_assert m (order <=? len buffer) ;;
  lpc_loop m coefficients qlp_shift (Z.to_nat (len buffer - order)) order buffer.

Section Decode.
  Context {S : Type} (rb : ReadBytes S) (m : build) (fuel : nat).

  (** src/subframe.rs:492-516 *)
  Definition decode_fixed (bps order : Z) (buffer : list Z)
      : M (bitstream S) (list Z) :=
    if len buffer <? order
    then fmt_err "invalid fixed subframe, order is larger than block size"
    else
      head <- lift (slice buffer 0 order) ;;
      head' <- decode_verbatim rb m bps head ;;
      let buffer := splice buffer 0 head' in
      tail <- lift (slice buffer order (len buffer)) ;;
      tail' <- decode_residual rb m fuel (u16 (len buffer)) tail ;;
      let buffer := splice buffer order tail' in
      lift (predict_fixed m order buffer).

  (** src/subframe.rs:697-701: [n] coefficients in the order they are read. *)
  Fixpoint read_coefficients (qlp_precision : Z) (n : nat)
      : M (bitstream S) (list Z) :=
    match n with
    | O => ret []
    | Datatypes.S n' =>
        coef_unsig <- read_leq_u16 rb m qlp_precision ;;
        coef <- lift (extend_sign_u16 m coef_unsig qlp_precision) ;;
        rest <- read_coefficients qlp_precision n' ;;
        ret (coef :: rest)
    end.

  (** src/subframe.rs:651-721.  The coefficients are stored in reverse order of
      reading (iter_mut().rev() at 697). *)
  Definition decode_lpc (bps order : Z) (buffer : list Z)
      : M (bitstream S) (list Z) :=
    lift (debug_assert m (order <=? 32)) ;;;
    if len buffer <? order
    then fmt_err "invalid LPC subframe, lpc order is larger than block size"
    else
      head <- lift (slice buffer 0 order) ;;
      head' <- decode_verbatim rb m bps head ;;
      let buffer := splice buffer 0 head' in
      p <- read_leq_u8 rb m 4 ;;
      qlp_precision <- lift (chk m u32 (p + 1)) ;;
      pm1 <- lift (chk m u32 (qlp_precision - 1)) ;;
      if pm1 =? 15 then fmt_err "invalid subframe, qlp precision value invalid"
      else
        qlp_shift_unsig <- read_leq_u16 rb m 5 ;;
        qlp_shift <- lift (extend_sign_u16 m qlp_shift_unsig 5) ;;
        if qlp_shift <? 0
        then fail (Unsupported "a negative quantized linear predictor coefficient shift is not supported, please file a bug.")
        else
          (* coefficients[..order]: the array has 32 elements *)
          lift (if order <=? 32 then Ok tt else Panic "slice index out of range") ;;;
          cs <- read_coefficients qlp_precision (Z.to_nat order) ;;
          let coefficients := rev cs in
          tail <- lift (slice buffer order (len buffer)) ;;
          tail' <- decode_residual rb m fuel (u16 (len buffer)) tail ;;
          let buffer := splice buffer order tail' in
          if order <=? 12
          then lift (predict_lpc_low_order m coefficients qlp_shift buffer)
          else lift (predict_lpc_high_order m coefficients qlp_shift buffer).

  (** src/subframe.rs:184-228 *)
  Definition decode (bps : Z) (buffer : list Z) : M (bitstream S) (list Z) :=
    lift (debug_assert m (bps <=? 32)) ;;;
    header <- read_subframe_header rb m fuel ;;
    if bps <=? sfh_wasted header then fmt_err "subframe has no non-wasted bits"
    else
      sf_bps <- lift (chk m u32 (bps - sfh_wasted header)) ;;
      buffer <-
        (match sfh_type header with
         | SfConstant => decode_constant rb m sf_bps buffer
         | SfVerbatim => decode_verbatim rb m sf_bps buffer
         | SfFixed ord => decode_fixed sf_bps ord buffer
         | SfLpc ord => decode_lpc sf_bps ord buffer
         end) ;;
      if 0 <? sfh_wasted header then
        lift (debug_assert m (sfh_wasted header <=? 31)) ;;;
        (* wrapping_shl masks the shift amount *)
        ret (map (fun s => i32 (Z.shiftl s (sfh_wasted header mod 32))) buffer)
      else ret buffer.
End Decode.
