(** What is wrong with a string of bytes, for every error that a build without
    overflow checks reports: SpecFault.v with the subframes of SpecLoose.v, and
    wasted bits counted modulo 2^32. *)
From Verif Require Export SpecLoose SpecFault.

(** See [escaped_residual]. *)
Definition loose_escape (bs order : Z) (w : list bool) : Prop :=
  exists method po ws parts later,
    (method = 0 \/ method = 1) /\ 0 <= po <= 15
    /\ bs mod 2 ^ po = 0
    /\ order <= bs / 2 ^ po
    /\ Forall2 (loose_partition (method_pbits method)) ws parts
    /\ map (fun p => Z.of_nat (length p)) parts ++ later = partition_lengths bs order po
    /\ later <> []
    /\ w = word 2 method ++ word 4 po ++ concat ws
           ++ word (method_pbits method) (2 ^ method_pbits method - 1).

(** See [residual_fault]. *)
Inductive loose_residual_fault (bs order : Z) : error -> list bool -> Prop :=
| loose_fault_method : forall method, 2 <= method <= 3 ->
    loose_residual_fault bs order (FormatError "invalid residual, encountered reserved value")
      (word 2 method)
| loose_fault_partition_order : forall method po, method = 0 \/ method = 1 -> 0 <= po <= 15 ->
    bs mod 2 ^ po <> 0 ->
    loose_residual_fault bs order (FormatError "invalid partition order") (word 2 method ++ word 4 po)
| loose_fault_first_partition : forall method po, method = 0 \/ method = 1 -> 0 <= po <= 15 ->
    bs mod 2 ^ po = 0 -> bs / 2 ^ po < order ->
    loose_residual_fault bs order (FormatError "invalid residual") (word 2 method ++ word 4 po)
| loose_fault_escape : forall w, loose_escape bs order w ->
    loose_residual_fault bs order (Unsupported "unencoded binary is not yet implemented") w.

(** See [body_fault]. *)
Inductive loose_body_fault (bps : Z) (n : nat) : coding -> error -> list bool -> Prop :=
| loose_fault_fixed_order : forall order, 0 <= order <= 4 -> Z.of_nat n < order ->
    loose_body_fault bps n (Fixed order)
      (FormatError "invalid fixed subframe, order is larger than block size") []
| loose_fault_fixed_residual : forall order warm e w,
    0 <= order <= 4 -> Z.of_nat (length warm) = order -> (length warm <= n)%nat ->
    Forall (fits bps) warm -> loose_residual_fault (Z.of_nat n) order e w ->
    loose_body_fault bps n (Fixed order) e (words bps warm ++ w)
| loose_fault_lpc_order : forall order, 1 <= order <= 32 -> Z.of_nat n < order ->
    loose_body_fault bps n (Lpc order)
      (FormatError "invalid LPC subframe, lpc order is larger than block size") []
| loose_fault_precision : forall order warm,
    1 <= order <= 32 -> Z.of_nat (length warm) = order -> (length warm <= n)%nat ->
    Forall (fits bps) warm ->
    loose_body_fault bps n (Lpc order) (FormatError "invalid subframe, qlp precision value invalid")
      (words bps warm ++ word 4 15)
| loose_fault_shift : forall order warm precision shift,
    1 <= order <= 32 -> Z.of_nat (length warm) = order -> (length warm <= n)%nat ->
    Forall (fits bps) warm -> 1 <= precision <= 15 -> -16 <= shift < 0 ->
    loose_body_fault bps n (Lpc order)
      (Unsupported "a negative quantized linear predictor coefficient shift is not supported, please file a bug.")
      (words bps warm ++ word 4 (precision - 1) ++ word 5 shift)
| loose_fault_lpc_residual : forall order warm precision shift cs e w,
    1 <= order <= 32 -> Z.of_nat (length warm) = order -> (length warm <= n)%nat ->
    Forall (fits bps) warm -> 1 <= precision <= 15 -> 0 <= shift < 16 ->
    Z.of_nat (length cs) = order -> Forall (fits precision) cs ->
    loose_residual_fault (Z.of_nat n) order e w ->
    loose_body_fault bps n (Lpc order) e
      (words bps warm ++ word 4 (precision - 1) ++ word 5 shift ++ words precision cs ++ w).

(** See [subframe_fault]. *)
Inductive loose_subframe_fault (bps : Z) (n : nat) : error -> list bool -> Prop :=
| loose_fault_padding : loose_subframe_fault bps n (FormatError "invalid subframe header") [true]
| loose_fault_type : forall v, 0 <= v < 64 -> (forall c, coding_ok c -> coding_code c <> v) ->
    loose_subframe_fault bps n (FormatError "invalid subframe header, encountered reserved value")
      (false :: word 6 v)
| loose_fault_wasted : forall c k wk, coding_ok c -> 31 < k -> loose_wasted k wk ->
    loose_subframe_fault bps n (FormatError "wasted bits per sample must not exceed 31")
      (false :: word 6 (coding_code c) ++ wk)
| loose_fault_all_wasted : forall c k wk, coding_ok c -> 0 <= k <= 31 -> bps <= k -> loose_wasted k wk ->
    loose_subframe_fault bps n (FormatError "subframe has no non-wasted bits")
      (false :: word 6 (coding_code c) ++ wk)
| loose_fault_body : forall c k wk e w, 0 <= k <= 31 -> k < bps -> loose_wasted k wk ->
    loose_body_fault (bps - k) n c e w ->
    loose_subframe_fault bps n e (false :: word 6 (coding_code c) ++ wk ++ w).

(** See [channels_fault]. *)
Inductive loose_channels_fault (n : nat) : list Z -> error -> list bool -> Prop :=
| loose_fault_here : forall b bs e w, loose_subframe_fault b n e w -> loose_channels_fault n (b :: bs) e w
| loose_fault_later : forall b bs e w0 s w, loose_subframe b n w0 s -> loose_channels_fault n bs e w ->
    loose_channels_fault n (b :: bs) e (w0 ++ w).

(** See [frame_fault]. *)
Inductive loose_fault : error -> list Z -> Prop :=
| loose_fault_header : forall e w, header_fault e w -> loose_fault e w
| loose_fault_width : forall h hw, header_code h hw -> h_width h = None ->
    loose_fault (Unsupported "header without bits per sample info") hw
| loose_fault_subframe : forall h hw bps e bits pad body, header_code h hw -> h_width h = Some bps ->
    loose_channels_fault (Z.to_nat (h_size h)) (subframe_widths bps (h_assignment h)) e bits ->
    byte_string body -> bytes_bits body = bits ++ pad -> (length pad < 8)%nat ->
    loose_fault e (hw ++ body)
| loose_fault_crc : forall h hw bps chs bits pad body crc a b, header_code h hw -> h_width h = Some bps ->
    loose_channels bps (Z.to_nat (h_size h)) (h_assignment h) bits chs ->
    byte_string body -> bytes_bits body = bits ++ pad -> (length pad < 8)%nat ->
    is_crc 16 poly16 (hw ++ body) crc -> 0 <= a < 256 -> 0 <= b < 256 -> 256 * a + b <> crc ->
    loose_fault (FormatError "frame CRC mismatch") (hw ++ body ++ [a; b]).

(** Bytes that start with neither. *)
Definition loose_incomplete (l : list Z) : Prop :=
  forall w rest, l = w ++ rest -> (forall h chs, ~ loose_frame h chs w) /\ (forall e, ~ loose_fault e w).
