(** Numbers in unary that do not fit 32 bits: bit reads, and frames as a build
    without overflow checks reads them.

    For frames, the grammar of SpecFlac.v and SpecFrame.v with two changes: the unary number in
    a Rice code has no bound (the residual is that number modulo 2^32, as it is
    anyway), and the unary number in the wasted-bits field counts modulo 2^32.  The
    numbers that do not fit 32 bits take at least half a gibibyte of zeros. *)
From Verif Require Export SpecFrame SpecOps.

(** * Bit reads *)

(** How many zeros come first. *)
Fixpoint zeros_first (l : list bool) : Z :=
  match l with false :: r => 1 + zeros_first r | _ => 0 end.

(** The operations on the list of bits still to come (see [spec_bit_op]) when a
    count has 32 bits: with overflow checks the 2^32nd zero is a panic, without
    them the count is modulo 2^32. *)
Definition counted_bit_op (t : tail) (m : build) (o : bit_op) : M (list bool) Z := fun l =>
  match o, m with
  | OpUnary, Debug =>
      if zeros_first l <? 2 ^ 32 then spec_bit_op t OpUnary l
      else (Panic "attempt to perform arithmetic with overflow", [])
  | OpUnary, Release =>
      match spec_bit_op t OpUnary l with
      | (Ok n, r) => (Ok (n mod 2 ^ 32), r)
      | failure => failure
      end
  | _, _ => spec_bit_op t o l
  end.

(** * Frames *)

(** One Rice code with parameter [k]; see [rice_code]. *)
Definition loose_rice (k : Z) (w : list bool) (r : Z) : Prop :=
  exists q lo, 0 <= q /\ 0 <= lo < 2 ^ k
    /\ w = unary q ++ word k lo
    /\ r = unfold_sign ((q * 2 ^ k + lo) mod 2 ^ 32).

(** See [rice_partition]. *)
Definition loose_partition (pbits : Z) (w : list bool) (rs : list Z) : Prop :=
  exists k ws, 0 <= k < 2 ^ pbits - 1
    /\ Forall2 (loose_rice k) ws rs
    /\ w = word pbits k ++ concat ws.

(** See [residual_code]. *)
Definition loose_residual (bs order : Z) (w : list bool) (rs : list Z) : Prop :=
  exists method po p0 parts w0 ws,
    (method = 0 \/ method = 1) /\ 0 <= po <= 15
    /\ bs mod 2 ^ po = 0
    /\ order <= bs / 2 ^ po
    /\ Z.of_nat (length p0) = bs / 2 ^ po - order
    /\ Z.of_nat (length parts) = 2 ^ po - 1
    /\ Forall (fun p => Z.of_nat (length p) = bs / 2 ^ po) parts
    /\ loose_partition (method_pbits method) w0 p0
    /\ Forall2 (loose_partition (method_pbits method)) ws parts
    /\ w = word 2 method ++ word 4 po ++ w0 ++ concat ws
    /\ rs = p0 ++ concat parts.

(** See [body]. *)
Inductive loose_body (bps : Z) (n : nat) : coding -> list bool -> list Z -> Prop :=
| loose_constant : forall v, fits bps v ->
    loose_body bps n Constant (word bps v) (repeat v n)
| loose_verbatim : forall s, length s = n -> Forall (fits bps) s ->
    loose_body bps n Verbatim (words bps s) s
| loose_fixed : forall order warm w rs,
    0 <= order <= 4 -> Z.of_nat (length warm) = order -> (length warm <= n)%nat ->
    Forall (fits bps) warm ->
    loose_residual (Z.of_nat n) order w rs ->
    loose_body bps n (Fixed order) (words bps warm ++ w)
      (warm ++ restore (fixed_predict order) (rev warm) rs)
| loose_lpc : forall order warm precision shift cs w rs,
    1 <= order <= 32 -> Z.of_nat (length warm) = order -> (length warm <= n)%nat ->
    Forall (fits bps) warm ->
    1 <= precision <= 15 -> 0 <= shift < 16 ->
    Z.of_nat (length cs) = order -> Forall (fits precision) cs ->
    loose_residual (Z.of_nat n) order w rs ->
    loose_body bps n (Lpc order)
      (words bps warm ++ word 4 (precision - 1) ++ word 5 shift
       ++ words precision cs ++ w)
      (warm ++ restore (lpc_predict cs shift) (rev warm) rs).

(** The field for [k] wasted bits; see [wasted_field]. *)
Definition loose_wasted (k : Z) (w : list bool) : Prop :=
  k = 0 /\ w = [false] \/ exists z, 0 <= z /\ k = (z + 1) mod 2 ^ 32 /\ w = true :: unary z.

(** See [subframe]. *)
Definition loose_subframe (bps : Z) (n : nat) (w : list bool) (s : list Z) : Prop :=
  exists c k wk wb s',
    0 <= k <= 31 /\ k < bps
    /\ loose_wasted k wk
    /\ loose_body (bps - k) n c wb s'
    /\ w = false :: word 6 (coding_code c) ++ wk ++ wb
    /\ s = map (fun x => wrap32 (x * 2 ^ k)) s'.

(** See [channels_code]. *)
Inductive loose_channels (bps : Z) (n : nat) : assignment -> list bool -> list (list Z) -> Prop :=
| loose_separate : forall k ws chs, Z.of_nat (length chs) = k ->
    Forall2 (loose_subframe bps n) ws chs ->
    loose_channels bps n (Separate k) (concat ws) chs
| loose_left_side : forall w0 w1 left side,
    loose_subframe bps n w0 left -> loose_subframe (bps + 1) n w1 side ->
    loose_channels bps n LeftSide (w0 ++ w1)
      [left; map2 (fun l s => wrap32 (l - s)) left side]
| loose_side_right : forall w0 w1 side right,
    loose_subframe (bps + 1) n w0 side -> loose_subframe bps n w1 right ->
    loose_channels bps n SideRight (w0 ++ w1)
      [map2 (fun s r => wrap32 (s + r)) side right; right]
| loose_mid_side : forall w0 w1 mid side,
    loose_subframe bps n w0 mid -> loose_subframe (bps + 1) n w1 side ->
    loose_channels bps n MidSide (w0 ++ w1) [map2 mid_left mid side; map2 mid_right mid side].

(** See [frame_code]. *)
Definition loose_frame (h : header) (chs : list (list Z)) (w : list Z) : Prop :=
  exists hw bps bits pad body crc,
    header_code h hw
    /\ h_width h = Some bps
    /\ loose_channels bps (Z.to_nat (h_size h)) (h_assignment h) bits chs
    /\ byte_string body /\ bytes_bits body = bits ++ pad /\ (length pad < 8)%nat
    /\ is_crc 16 poly16 (hw ++ body) crc
    /\ w = hw ++ body ++ [crc / 256; crc mod 256].

(** * Frames on which a build with overflow checks panics *)

(** The beginning of a frame up to the zero that a 32-bit counter cannot count any
    more (in the wasted-bits field: up to the one that ends the number, if the zeros
    can be counted, but not the one added to them). *)
Definition overlong : list bool := repeat false (Z.to_nat (2 ^ 32)).

(** In a partition of [n] residuals, after less than [n] codes. *)
Definition partition_overflow (pbits n : Z) (w : list bool) : Prop :=
  exists k ws rs, 0 <= k < 2 ^ pbits - 1
    /\ Forall2 (rice_code k) ws rs /\ Z.of_nat (length rs) < n
    /\ w = word pbits k ++ concat ws ++ overlong.

(** In one of the partitions of a residual, after complete ones. *)
Definition residual_overflow (bs order : Z) (w : list bool) : Prop :=
  exists method po ws parts n later wp,
    (method = 0 \/ method = 1) /\ 0 <= po <= 15
    /\ bs mod 2 ^ po = 0
    /\ order <= bs / 2 ^ po
    /\ Forall2 (rice_partition (method_pbits method)) ws parts
    /\ map (fun p => Z.of_nat (length p)) parts ++ n :: later = partition_lengths bs order po
    /\ partition_overflow (method_pbits method) n wp
    /\ w = word 2 method ++ word 4 po ++ concat ws ++ wp.

Inductive body_overflow (bps : Z) (n : nat) : coding -> list bool -> Prop :=
| overflow_fixed : forall order warm w,
    0 <= order <= 4 -> Z.of_nat (length warm) = order -> (length warm <= n)%nat ->
    Forall (fits bps) warm ->
    residual_overflow (Z.of_nat n) order w ->
    body_overflow bps n (Fixed order) (words bps warm ++ w)
| overflow_lpc : forall order warm precision shift cs w,
    1 <= order <= 32 -> Z.of_nat (length warm) = order -> (length warm <= n)%nat ->
    Forall (fits bps) warm ->
    1 <= precision <= 15 -> 0 <= shift < 16 ->
    Z.of_nat (length cs) = order -> Forall (fits precision) cs ->
    residual_overflow (Z.of_nat n) order w ->
    body_overflow bps n (Lpc order)
      (words bps warm ++ word 4 (precision - 1) ++ word 5 shift
       ++ words precision cs ++ w).

Inductive subframe_overflow (bps : Z) (n : nat) : list bool -> Prop :=
| overflow_wasted : forall c, coding_ok c ->
    subframe_overflow bps n (false :: word 6 (coding_code c) ++ true :: overlong)
| overflow_wasted_sum : forall c, coding_ok c ->
    subframe_overflow bps n (false :: word 6 (coding_code c) ++ true :: unary (2 ^ 32 - 1))
| overflow_body : forall c k w, 0 <= k <= 31 -> k < bps -> body_overflow (bps - k) n c w ->
    subframe_overflow bps n (false :: word 6 (coding_code c) ++ wasted_field k ++ w).

(** In one of several subframes of the given widths, after complete ones. *)
Inductive channels_overflow (n : nat) : list Z -> list bool -> Prop :=
| overflow_here : forall b bs w, subframe_overflow b n w -> channels_overflow n (b :: bs) w
| overflow_later : forall b bs w0 s w, subframe b n w0 s -> channels_overflow n bs w ->
    channels_overflow n (b :: bs) (w0 ++ w).

(** The bytes up to the one with the last bit. *)
Definition frame_overflow (w : list Z) : Prop :=
  exists h hw bps bits pad body,
    header_code h hw /\ h_width h = Some bps
    /\ channels_overflow (Z.to_nat (h_size h)) (subframe_widths bps (h_assignment h)) bits
    /\ byte_string body /\ bytes_bits body = bits ++ pad /\ (length pad < 8)%nat
    /\ w = hw ++ body.
