(** Properties of the arithmetic in src/subframe.rs and src/frame.rs, and of error
    equality (src/error.rs). *)
From Verif Require Import ProofArith.

(** * C17: sign extension is two's complement *)

Theorem C17_extend_sign_u32 : forall m val bits, 0 <= val < 2 ^ 32 -> 1 <= bits <= 32 ->
  exists r, extend_sign_u32 m val bits = Ok r
    /\ - 2 ^ (bits - 1) <= r < 2 ^ (bits - 1) /\ r mod 2 ^ bits = val mod 2 ^ bits.
Proof. exact extend_sign_u32_spec. Qed.

Theorem C17_extend_sign_u16 : forall m val bits, 0 <= val < 2 ^ 16 -> 1 <= bits <= 16 ->
  exists r, extend_sign_u16 m val bits = Ok r
    /\ - 2 ^ (bits - 1) <= r < 2 ^ (bits - 1) /\ r mod 2 ^ bits = val mod 2 ^ bits.
Proof. exact extend_sign_u16_spec. Qed.

Example C17_example : extend_sign_u16 Debug 5 3 = Ok (-3) /\ extend_sign_u32 Debug 3 32 = Ok 3
  /\ extend_sign_u32 Release 4294967295 32 = Ok (-1).
Proof. repeat split. Qed.

(** * C18: Rice sign folding is a bijection *)

Theorem C18_even : forall k, 0 <= k < 2 ^ 31 -> rice_to_signed (2 * k) = k.
Proof. exact rice_even. Qed.
Theorem C18_odd : forall k, 0 <= k < 2 ^ 31 -> rice_to_signed (2 * k + 1) = - 1 - k.
Proof. exact rice_odd. Qed.
Theorem C18_bijection :
  (forall u, 0 <= u < 2 ^ 32 -> - 2 ^ 31 <= rice_to_signed u < 2 ^ 31)
  /\ (forall r, - 2 ^ 31 <= r < 2 ^ 31 ->
        exists u, 0 <= u < 2 ^ 32 /\ rice_to_signed u = r
          /\ forall v, 0 <= v < 2 ^ 32 -> rice_to_signed v = r -> v = u).
Proof. exact rice_bijection. Qed.

Example C18_example : map rice_to_signed [0; 1; 2; 3; 4294967294; 4294967295]
  = [0; -1; 1; -2; 2147483647; -2147483648].
Proof. reflexivity. Qed.

(** * C21: fixed prediction is lossless *)

(** From the first [order] samples and the [order]-th differences modulo 2^32 the
    predictor restores all samples. *)
Theorem C21_fixed_prediction : forall m order s,
  (order <= 4)%nat -> (order <= length s)%nat -> len s < 2 ^ 32 ->
  Forall (fun x => - 2 ^ 31 <= x < 2 ^ 31) s ->
  predict_fixed m (Z.of_nat order) (firstn order s ++ nth_differences order s) = Ok s.
Proof. exact fixed_lossless. Qed.

Example C21_example :
  nth_differences 2 [5; -7; 2147483647; -2147483648; 0] = [-2147483630; -2147483653 + 4294967296; 2147483647]
  /\ predict_fixed Debug 2 [5; -7; -2147483630; 2147483643; 2147483647]
     = Ok [5; -7; 2147483647; -2147483648; 0].
Proof. split; reflexivity. Qed.

(** * C22: LPC prediction is lossless and its two implementations agree *)

(** [cs] are the coefficients, first the one of the latest sample; the functions
    take them in reverse.  The result is [Ok] in debug builds too, so no
    intermediate computation overflows. *)
Theorem C22_lpc_prediction : forall m cs shift warm xs,
  1 <= len cs <= 32 -> Forall (fits 15) cs -> 0 <= shift <= 15 -> len warm = len cs ->
  Forall (fun x => - 2 ^ 31 <= x < 2 ^ 31) (warm ++ xs) -> len (warm ++ xs) < 2 ^ 32 ->
  let buffer := warm ++ residual_of (lpc_predict cs shift) (rev warm) xs in
  (if len cs <=? 12 then predict_lpc_low_order m (rev cs) shift buffer
   else predict_lpc_high_order m (rev cs) shift buffer) = Ok (warm ++ xs).
Proof. exact lpc_lossless. Qed.

(** Up to order 12 the fast path computes the same as the general predictor, whose
    assertion that the order is above 12 is only checked in debug builds. *)
Theorem C22_fast_path : forall m cs shift buffer,
  1 <= len cs <= 12 -> Forall (fits 15) cs -> 0 <= shift <= 15 ->
  len cs <= len buffer < 2 ^ 32 -> Forall (fun x => - 2 ^ 31 <= x < 2 ^ 31) buffer ->
  exists s, predict_lpc_low_order m cs shift buffer = Ok s
    /\ predict_lpc_high_order Release cs shift buffer = Ok s.
Proof. exact lpc_paths_agree. Qed.

Example C22_example :
  residual_of (lpc_predict [3; -2] 1) [20; 10] [31; 44; 2147483647] = [11; 18; 2147483612]
  /\ predict_lpc_low_order Debug [-2; 3] 1 [10; 20; 11; 18; 2147483612]
     = Ok [10; 20; 31; 44; 2147483647].
Proof. split; reflexivity. Qed.

(** * C25: stereo decorrelation is inverted exactly *)

Theorem C25_left_side : forall left right, length left = length right ->
  Forall (fun x => - 2 ^ 31 <= x < 2 ^ 31) left -> Forall (fun x => - 2 ^ 31 <= x < 2 ^ 31) right ->
  decode_left_side (left ++ side_of left right) = left ++ right.
Proof. exact left_side_lossless. Qed.
Theorem C25_right_side : forall left right, length left = length right ->
  Forall (fun x => - 2 ^ 31 <= x < 2 ^ 31) left -> Forall (fun x => - 2 ^ 31 <= x < 2 ^ 31) right ->
  decode_right_side (side_of left right ++ right) = left ++ right.
Proof. exact right_side_lossless. Qed.
Theorem C25_mid_side : forall left right, length left = length right ->
  Forall (fun x => - 2 ^ 30 <= x < 2 ^ 30) left -> Forall (fun x => - 2 ^ 30 <= x < 2 ^ 30) right ->
  decode_mid_side (mid_of left right ++ side_of left right) = left ++ right.
Proof. exact mid_side_lossless. Qed.

Example C25_example :
  mid_of [5; -8; 3] [-2; -3; 4] = [1; -6; 3] /\ side_of [5; -8; 3] [-2; -3; 4] = [7; -5; -1]
  /\ decode_mid_side [1; -6; 3; 7; -5; -1] = [5; -8; 3; -2; -3; 4].
Proof. repeat split. Qed.

(** The bound for mid/side is sharp: with left = right = 2^30 the result differs. *)
Example C25_mid_side_bound :
  decode_mid_side (mid_of [2 ^ 30] [2 ^ 30] ++ side_of [2 ^ 30] [2 ^ 30]) <> [2 ^ 30; 2 ^ 30].
Proof. discriminate. Qed.

(** * C51: error equality *)

Theorem C51_error_equality : forall a b, error_eqb a b = true <->
  (exists r, a = FormatError r /\ b = FormatError r)
  \/ (exists f, a = Unsupported f /\ b = Unsupported f).
Proof. exact error_eqb_spec. Qed.
Theorem C51_symmetric : forall a b, error_eqb a b = error_eqb b a.
Proof. exact error_eqb_sym. Qed.
Theorem C51_transitive : forall a b c,
  error_eqb a b = true -> error_eqb b c = true -> error_eqb a c = true.
Proof. exact error_eqb_trans. Qed.

Example C51_example : error_eqb (FormatError "a") (FormatError "a") = true
  /\ error_eqb (FormatError "a") (Unsupported "a") = false
  /\ error_eqb (IoError UnexpectedEof) (IoError UnexpectedEof) = false.
Proof. repeat split. Qed.

Print Assumptions C17_extend_sign_u32.
Print Assumptions C17_extend_sign_u16.
Print Assumptions C18_even.
Print Assumptions C18_odd.
Print Assumptions C18_bijection.
Print Assumptions C21_fixed_prediction.
Print Assumptions C22_lpc_prediction.
Print Assumptions C22_fast_path.
Print Assumptions C25_left_side.
Print Assumptions C25_right_side.
Print Assumptions C25_mid_side.
Print Assumptions C51_error_equality.
Print Assumptions C51_symmetric.
Print Assumptions C51_transitive.
