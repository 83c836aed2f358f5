(** Subframes decoded into a buffer of any length.  Used in statements. *)
From Verif Require Export SpecFlac SpecOps ModelSubframe.
From Verif Require Import SpecReader.

(** What the decoder takes for the number of samples when it reads a residual: it keeps this number in 16 bits. *)
Definition counted (buffer : list Z) : Z := len buffer mod 2 ^ 16.

(** The body of a subframe, as [body] (SpecFlac.v) is for a buffer of at most 65535 samples.  If it is longer, the
    residual is that of a shorter block, and what is in the buffer behind it is taken for the rest of it. *)
Inductive body_into (bps : Z) (buffer : list Z) : coding -> list bool -> list Z -> Prop :=
| into_constant : forall v, fits bps v ->
    body_into bps buffer Constant (word bps v) (repeat v (length buffer))
| into_verbatim : forall s, length s = length buffer -> Forall (fits bps) s ->
    body_into bps buffer Verbatim (words bps s) s
| into_fixed : forall order warm w rs,
    0 <= order <= 4 -> Z.of_nat (length warm) = order -> (length warm <= length buffer)%nat ->
    Forall (fits bps) warm ->
    residual_code (counted buffer) order w rs ->
    body_into bps buffer (Fixed order) (words bps warm ++ w)
      (warm ++ restore (fixed_predict order) (rev warm) (rs ++ skipn (Z.to_nat (counted buffer)) buffer))
| into_lpc : forall order warm precision shift cs w rs,
    1 <= order <= 32 -> Z.of_nat (length warm) = order -> (length warm <= length buffer)%nat ->
    Forall (fits bps) warm ->
    1 <= precision <= 15 -> 0 <= shift < 16 ->
    Z.of_nat (length cs) = order -> Forall (fits precision) cs ->
    residual_code (counted buffer) order w rs ->
    body_into bps buffer (Lpc order)
      (words bps warm ++ word 4 (precision - 1) ++ word 5 shift
       ++ words precision cs ++ w)
      (warm ++ restore (lpc_predict cs shift) (rev warm) (rs ++ skipn (Z.to_nat (counted buffer)) buffer)).

(** As [subframe]. *)
Definition subframe_into (bps : Z) (buffer : list Z) (w : list bool) (s : list Z) : Prop :=
  exists c k wb s',
    0 <= k <= 31 /\ k < bps
    /\ body_into (bps - k) buffer c wb s'
    /\ w = false :: word 6 (coding_code c) ++ wasted_field k ++ wb
    /\ s = map (fun x => wrap32 (x * 2 ^ k)) s'.

(** A slice of [i32]: it has less than 2^63 bytes. *)
Definition i32_slice (buffer : list Z) : Prop := Forall (fun x => - 2 ^ 31 <= x < 2 ^ 31) buffer /\ len buffer < 2 ^ 61.

(** What a fixed or linear prediction subframe has before its residual. *)
Inductive before_residual (bps : Z) : coding -> list bool -> Prop :=
| before_fixed : forall order warm,
    0 <= order <= 4 -> Z.of_nat (length warm) = order -> Forall (fits bps) warm ->
    before_residual bps (Fixed order) (words bps warm)
| before_lpc : forall order warm precision shift cs,
    1 <= order <= 32 -> Z.of_nat (length warm) = order -> Forall (fits bps) warm ->
    1 <= precision <= 15 -> 0 <= shift < 16 ->
    Z.of_nat (length cs) = order -> Forall (fits precision) cs ->
    before_residual bps (Lpc order) (words bps warm ++ word 4 (precision - 1) ++ word 5 shift ++ words precision cs).
Definition coding_order (c : coding) : Z := match c with Fixed o | Lpc o => o | _ => 0 end.

(** The bits begin with a subframe up to the partition order of its residual; the buffer has room for the warm-up
    samples, but the number kept of its length is smaller than theirs, and can be divided into that many partitions. *)
Definition short_count (bps : Z) (buffer : list Z) (bits : list bool) : Prop :=
  exists c k w method po rest,
    bits = false :: word 6 (coding_code c) ++ wasted_field k ++ w ++ word 2 method ++ word 4 po ++ rest
    /\ 0 <= k <= 31 /\ k < bps /\ before_residual (bps - k) c w
    /\ counted buffer < coding_order c <= len buffer
    /\ (method = 0 \/ method = 1) /\ 0 <= po <= 15 /\ counted buffer mod 2 ^ po = 0.

(** What one would expect of [subframe::decode]: whatever slice it is given, what it puts there is what the bits say. *)
Definition subframes_any : Prop := forall S (rb : ReadBytes S) t D, stream rb t D ->
  forall m fuel bps buffer bits s st st', 1 <= bps <= 32 -> i32_slice buffer ->
  m = Debug \/ no_zero_run (2 ^ 32 - 1) bits -> bits_left D fuel st bits ->
  decode rb m fuel bps buffer st = (Ok s, st') ->
  exists w rest, bits = w ++ rest /\ subframe bps (length buffer) w s /\ bits_left D fuel st' rest.

(** A fixed subframe of order 0 without wasted bits, whose residual has one partition, without values: 18 bits. *)
Definition empty_residual : list bool := false :: word 6 8 ++ [false] ++ word 2 0 ++ word 4 0 ++ word 4 0.
