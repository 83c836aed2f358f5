(** The FLAC subframe format, as a relation between strings of bits and lists of
    samples.  Written from the format documentation, independently of the model.

    Like the decoder, the relation is lenient where the format leaves values that
    do not fit 32 bits undefined: residuals and samples are taken modulo 2^32. *)
From Verif Require Export SpecBits.

(** The representative of [x] modulo 2^32 in [-2^31, 2^31). *)
Definition wrap32 (x : Z) : Z := signed 32 x.

(** [v] is representable in [n] bits two's complement. *)
Definition fits (n v : Z) : Prop := - 2 ^ (n - 1) <= v < 2 ^ (n - 1).

(** A number in [n] bits; negative numbers in two's complement. *)
Definition word (n v : Z) : list bool := bits_of (Z.to_nat n) v.

(** Numbers written one after the other, [n] bits each. *)
Definition words (n : Z) (vs : list Z) : list bool := flat_map (word n) vs.

(** * Residuals *)

(** Even numbers stand for non-negative, odd for negative residuals. *)
Definition unfold_sign (u : Z) : Z := if Z.even u then u / 2 else - (u / 2) - 1.
Definition fold_sign (r : Z) : Z := if 0 <=? r then 2 * r else - 2 * r - 1.

(** One Rice code with parameter [k]: quotient in unary, remainder in binary. *)
Definition rice_code (k : Z) (w : list bool) (r : Z) : Prop :=
  exists q lo, 0 <= q < 2 ^ 32 /\ 0 <= lo < 2 ^ k
    /\ w = unary q ++ word k lo
    /\ r = unfold_sign ((q * 2 ^ k + lo) mod 2 ^ 32).

(** A partition: the parameter in [pbits] bits (all ones is the escape code,
    not a parameter), then the codes. *)
Definition rice_partition (pbits : Z) (w : list bool) (rs : list Z) : Prop :=
  exists k ws, 0 <= k < 2 ^ pbits - 1
    /\ Forall2 (rice_code k) ws rs
    /\ w = word pbits k ++ concat ws.

(** Residual coding methods: 4-bit and 5-bit Rice parameters. *)
Definition method_pbits (method : Z) : Z := 4 + method.

(** The residual of a block of [bs] samples, of which the first [order] are
    warm-up samples: 2^po partitions of equal length, except that the first lacks
    the warm-up samples. *)
Definition residual_code (bs order : Z) (w : list bool) (rs : list Z) : Prop :=
  exists method po p0 parts w0 ws,
    (method = 0 \/ method = 1) /\ 0 <= po <= 15
    /\ bs mod 2 ^ po = 0
    /\ order <= bs / 2 ^ po
    /\ Z.of_nat (length p0) = bs / 2 ^ po - order
    /\ Z.of_nat (length parts) = 2 ^ po - 1
    /\ Forall (fun p => Z.of_nat (length p) = bs / 2 ^ po) parts
    /\ rice_partition (method_pbits method) w0 p0
    /\ Forall2 (rice_partition (method_pbits method)) ws parts
    /\ w = word 2 method ++ word 4 po ++ w0 ++ concat ws
    /\ rs = p0 ++ concat parts.

(** * Prediction *)

(** The samples restored from the residual [rs] by a predictor that sees the
    previous samples, latest first. *)
Fixpoint restore (predict : list Z -> Z) (past : list Z) (rs : list Z) : list Z :=
  match rs with
  | [] => []
  | r :: rs' =>
      let x := wrap32 (predict past + r) in
      x :: restore predict (x :: past) rs'
  end.

(** The fixed predictors of order 0 to 4. *)
Definition fixed_predict (order : Z) (past : list Z) : Z :=
  match order, past with
  | 0, _ => 0
  | 1, a :: _ => a
  | 2, a :: b :: _ => 2 * a - b
  | 3, a :: b :: c :: _ => 3 * a - 3 * b + c
  | 4, a :: b :: c :: d :: _ => 4 * a - 6 * b + 4 * c - d
  | _, _ => 0
  end.

(** Sum of products, the first coefficient with the latest sample. *)
Fixpoint dot (cs past : list Z) : Z :=
  match cs, past with
  | c :: cs', s :: past' => c * s + dot cs' past'
  | _, _ => 0
  end.

(** Linear prediction: an arithmetic shift right, rounding down. *)
Definition lpc_predict (cs : list Z) (shift : Z) (past : list Z) : Z :=
  dot cs past / 2 ^ shift.

(** * Subframes *)

Inductive coding := Constant | Verbatim | Fixed (order : Z) | Lpc (order : Z).

(** The 6-bit type codes. *)
Definition coding_code (c : coding) : Z :=
  match c with
  | Constant => 0
  | Verbatim => 1
  | Fixed o => 8 + o
  | Lpc o => 32 + (o - 1)
  end.

(** The orders that exist. *)
Definition coding_ok (c : coding) : Prop :=
  match c with
  | Fixed o => 0 <= o <= 4
  | Lpc o => 1 <= o <= 32
  | _ => True
  end.

(** The body of a subframe of [n] samples of [bps] bits. *)
Inductive body (bps : Z) (n : nat) : coding -> list bool -> list Z -> Prop :=
| body_constant : forall v, fits bps v ->
    body bps n Constant (word bps v) (repeat v n)
| body_verbatim : forall s, length s = n -> Forall (fits bps) s ->
    body bps n Verbatim (words bps s) s
| body_fixed : forall order warm w rs,
    0 <= order <= 4 -> Z.of_nat (length warm) = order -> (length warm <= n)%nat ->
    Forall (fits bps) warm ->
    residual_code (Z.of_nat n) order w rs ->
    body bps n (Fixed order) (words bps warm ++ w)
      (warm ++ restore (fixed_predict order) (rev warm) rs)
| body_lpc : forall order warm precision shift cs w rs,
    1 <= order <= 32 -> Z.of_nat (length warm) = order -> (length warm <= n)%nat ->
    Forall (fits bps) warm ->
    1 <= precision <= 15 -> 0 <= shift < 16 ->
    Z.of_nat (length cs) = order -> Forall (fits precision) cs ->
    residual_code (Z.of_nat n) order w rs ->
    body bps n (Lpc order)
      (words bps warm ++ word 4 (precision - 1) ++ word 5 shift
       ++ words precision cs ++ w)
      (warm ++ restore (lpc_predict cs shift) (rev warm) rs).

(** The wasted-bits field for [k] wasted bits. *)
Definition wasted_field (k : Z) : list bool :=
  if k =? 0 then [false] else true :: unary (k - 1).

(** A whole subframe: [n] samples of [bps] bits. *)
Definition subframe (bps : Z) (n : nat) (w : list bool) (s : list Z) : Prop :=
  exists c k wb s',
    0 <= k <= 31 /\ k < bps
    /\ body (bps - k) n c wb s'
    /\ w = false :: word 6 (coding_code c) ++ wasted_field k ++ wb
    /\ s = map (fun x => wrap32 (x * 2 ^ k)) s'.

(** * Features of the format that the decoder does not implement *)

(** The lengths of the partitions of a residual. *)
Definition partition_lengths (bs order po : Z) : list Z :=
  (bs / 2 ^ po - order) :: repeat (bs / 2 ^ po) (Z.to_nat (2 ^ po - 1)).

(** The beginning of a residual up to and including an escape code (a Rice
    parameter of all ones), after some complete partitions. *)
Definition escaped_residual (bs order : Z) (w : list bool) : Prop :=
  exists method po ws parts later,
    (method = 0 \/ method = 1) /\ 0 <= po <= 15
    /\ bs mod 2 ^ po = 0
    /\ order <= bs / 2 ^ po
    /\ Forall2 (rice_partition (method_pbits method)) ws parts
    /\ map (fun p => Z.of_nat (length p)) parts ++ later = partition_lengths bs order po
    /\ later <> []
    /\ w = word 2 method ++ word 4 po ++ concat ws
           ++ word (method_pbits method) (2 ^ method_pbits method - 1).

(** The beginning of a subframe body up to the feature: an escape code, or a
    negative LPC shift. *)
Inductive unsupported_body (bps : Z) (n : nat) : coding -> list bool -> Prop :=
| unsupported_fixed : forall order warm w,
    0 <= order <= 4 -> Z.of_nat (length warm) = order -> (length warm <= n)%nat ->
    Forall (fits bps) warm ->
    escaped_residual (Z.of_nat n) order w ->
    unsupported_body bps n (Fixed order) (words bps warm ++ w)
| unsupported_shift : forall order warm precision shift,
    1 <= order <= 32 -> Z.of_nat (length warm) = order -> (length warm <= n)%nat ->
    Forall (fits bps) warm ->
    1 <= precision <= 15 -> -16 <= shift < 0 ->
    unsupported_body bps n (Lpc order)
      (words bps warm ++ word 4 (precision - 1) ++ word 5 shift)
| unsupported_lpc : forall order warm precision shift cs w,
    1 <= order <= 32 -> Z.of_nat (length warm) = order -> (length warm <= n)%nat ->
    Forall (fits bps) warm ->
    1 <= precision <= 15 -> 0 <= shift < 16 ->
    Z.of_nat (length cs) = order -> Forall (fits precision) cs ->
    escaped_residual (Z.of_nat n) order w ->
    unsupported_body bps n (Lpc order)
      (words bps warm ++ word 4 (precision - 1) ++ word 5 shift
       ++ words precision cs ++ w).

Definition unsupported_subframe (bps : Z) (n : nat) (w : list bool) : Prop :=
  exists c k wb,
    0 <= k <= 31 /\ k < bps
    /\ unsupported_body (bps - k) n c wb
    /\ w = false :: word 6 (coding_code c) ++ wasted_field k ++ wb.
