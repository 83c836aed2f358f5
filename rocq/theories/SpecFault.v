(** What is wrong with a string of bytes that is not a frame, for every error that
    the decoder reports: the bytes up to and including the faulty field.  Written
    from the format documentation and the error messages. *)
From Verif Require Export SpecFrame ModelBase.

(** * Subframes *)

(** In the residual of [bs] samples, of which [order] are warm-up samples. *)
Inductive residual_fault (bs order : Z) : error -> list bool -> Prop :=
| fault_method : forall method, 2 <= method <= 3 ->
    residual_fault bs order (FormatError "invalid residual, encountered reserved value")
      (word 2 method)
| fault_partition_order : forall method po, method = 0 \/ method = 1 -> 0 <= po <= 15 ->
    bs mod 2 ^ po <> 0 ->
    residual_fault bs order (FormatError "invalid partition order") (word 2 method ++ word 4 po)
| fault_first_partition : forall method po, method = 0 \/ method = 1 -> 0 <= po <= 15 ->
    bs mod 2 ^ po = 0 -> bs / 2 ^ po < order ->
    residual_fault bs order (FormatError "invalid residual") (word 2 method ++ word 4 po)
| fault_escape : forall w, escaped_residual bs order w ->
    residual_fault bs order (Unsupported "unencoded binary is not yet implemented") w.

(** In the body of a subframe of [n] samples of [bps] bits. *)
Inductive body_fault (bps : Z) (n : nat) : coding -> error -> list bool -> Prop :=
| fault_fixed_order : forall order, 0 <= order <= 4 -> Z.of_nat n < order ->
    body_fault bps n (Fixed order)
      (FormatError "invalid fixed subframe, order is larger than block size") []
| fault_fixed_residual : forall order warm e w,
    0 <= order <= 4 -> Z.of_nat (length warm) = order -> (length warm <= n)%nat ->
    Forall (fits bps) warm -> residual_fault (Z.of_nat n) order e w ->
    body_fault bps n (Fixed order) e (words bps warm ++ w)
| fault_lpc_order : forall order, 1 <= order <= 32 -> Z.of_nat n < order ->
    body_fault bps n (Lpc order)
      (FormatError "invalid LPC subframe, lpc order is larger than block size") []
| fault_precision : forall order warm,
    1 <= order <= 32 -> Z.of_nat (length warm) = order -> (length warm <= n)%nat ->
    Forall (fits bps) warm ->
    body_fault bps n (Lpc order) (FormatError "invalid subframe, qlp precision value invalid")
      (words bps warm ++ word 4 15)
| fault_shift : forall order warm precision shift,
    1 <= order <= 32 -> Z.of_nat (length warm) = order -> (length warm <= n)%nat ->
    Forall (fits bps) warm -> 1 <= precision <= 15 -> -16 <= shift < 0 ->
    body_fault bps n (Lpc order)
      (Unsupported "a negative quantized linear predictor coefficient shift is not supported, please file a bug.")
      (words bps warm ++ word 4 (precision - 1) ++ word 5 shift)
| fault_lpc_residual : forall order warm precision shift cs e w,
    1 <= order <= 32 -> Z.of_nat (length warm) = order -> (length warm <= n)%nat ->
    Forall (fits bps) warm -> 1 <= precision <= 15 -> 0 <= shift < 16 ->
    Z.of_nat (length cs) = order -> Forall (fits precision) cs ->
    residual_fault (Z.of_nat n) order e w ->
    body_fault bps n (Lpc order) e
      (words bps warm ++ word 4 (precision - 1) ++ word 5 shift ++ words precision cs ++ w).

(** In a subframe of [n] samples of [bps] bits. *)
Inductive subframe_fault (bps : Z) (n : nat) : error -> list bool -> Prop :=
| fault_padding : subframe_fault bps n (FormatError "invalid subframe header") [true]
| fault_type : forall v, 0 <= v < 64 -> (forall c, coding_ok c -> coding_code c <> v) ->
    subframe_fault bps n (FormatError "invalid subframe header, encountered reserved value")
      (false :: word 6 v)
| fault_wasted : forall c k, coding_ok c -> 31 < k < 2 ^ 32 ->
    subframe_fault bps n (FormatError "wasted bits per sample must not exceed 31")
      (false :: word 6 (coding_code c) ++ wasted_field k)
| fault_all_wasted : forall c k, coding_ok c -> 0 <= k <= 31 -> bps <= k ->
    subframe_fault bps n (FormatError "subframe has no non-wasted bits")
      (false :: word 6 (coding_code c) ++ wasted_field k)
| fault_body : forall c k e w, 0 <= k <= 31 -> k < bps -> body_fault (bps - k) n c e w ->
    subframe_fault bps n e (false :: word 6 (coding_code c) ++ wasted_field k ++ w).

(** In one of several subframes of the given widths, after complete ones. *)
Inductive channels_fault (n : nat) : list Z -> error -> list bool -> Prop :=
| fault_here : forall b bs e w, subframe_fault b n e w -> channels_fault n (b :: bs) e w
| fault_later : forall b bs e w0 s w, subframe b n w0 s -> channels_fault n bs e w ->
    channels_fault n (b :: bs) e (w0 ++ w).

(** * Headers *)

Definition reserved_value : error :=
  FormatError "invalid frame header, encountered reserved value".

(** The first four bytes of a header without reserved values, after the first
    (255): sync and blocking strategy, block size and rate, channels and width. *)
Definition second_byte (s : Z) : Prop := s = 248 \/ s = 249.
Definition third_byte (x : Z) : Prop := 0 <= x < 256 /\ x / 16 <> 0 /\ x mod 16 <> 15.
Definition fourth_byte (y : Z) : Prop :=
  0 <= y < 256 /\ y / 16 <= 10 /\ (y / 2) mod 8 <> 3 /\ (y / 2) mod 8 <> 7 /\ y mod 2 = 0.

Inductive header_fault : error -> list Z -> Prop :=
| fault_sync : forall a b, 0 <= a < 256 -> 0 <= b < 256 -> (256 * a + b) / 4 <> 16382 (* 0x3ffe *) ->
    header_fault (FormatError "frame sync code missing") [a; b]
| fault_sync_bit : forall b, b = 250 \/ b = 251 -> header_fault reserved_value [255; b]
| fault_size_code : forall s x, second_byte s -> 0 <= x < 256 -> x / 16 = 0 ->
    header_fault reserved_value [255; s; x]
| fault_rate_code : forall s x, second_byte s -> 0 <= x < 256 -> x / 16 <> 0 -> x mod 16 = 15 ->
    header_fault (FormatError "invalid frame header") [255; s; x]
| fault_fourth_byte : forall s x y, second_byte s -> third_byte x ->
    0 <= y < 256 -> ~ fourth_byte y -> header_fault reserved_value [255; s; x; y]
| fault_number : forall s x y num, second_byte s -> third_byte x -> fourth_byte y ->
    malformed_number num ->
    header_fault (FormatError "invalid variable-length integer") ([255; s; x; y] ++ num)
| fault_frame_number : forall x y num v, third_byte x -> fourth_byte y ->
    accepted_number num v -> 2 ^ 31 <= v ->
    header_fault (FormatError "invalid frame header, frame number too large")
      ([255; 248; x; y] ++ num)
| fault_size : forall s x y num v, second_byte s -> third_byte x -> fourth_byte y ->
    x / 16 = 7 -> accepted_number num v -> (s = 248 -> v < 2 ^ 31) ->
    header_fault (FormatError "invalid block size, exceeds 65535")
      ([255; s; x; y] ++ num ++ [255; 255])
| fault_header_crc : forall h front crc c, header_front h front -> is_crc 8 poly8 front crc ->
    0 <= c < 256 -> c <> crc ->
    header_fault (FormatError "frame header CRC mismatch") (front ++ [c]).

(** * Frames *)

(** The bytes up to the one in which the faulty field ends. *)
Inductive frame_fault : error -> list Z -> Prop :=
| fault_header : forall e w, header_fault e w -> frame_fault e w
| fault_width : forall h hw, header_code h hw -> h_width h = None ->
    frame_fault (Unsupported "header without bits per sample info") hw
| fault_subframe : forall h hw bps e bits pad body, header_code h hw -> h_width h = Some bps ->
    channels_fault (Z.to_nat (h_size h)) (subframe_widths bps (h_assignment h)) e bits ->
    byte_string body -> bytes_bits body = bits ++ pad -> (length pad < 8)%nat ->
    frame_fault e (hw ++ body)
| fault_crc : forall h hw bps chs bits pad body crc a b, header_code h hw -> h_width h = Some bps ->
    channels_code bps (Z.to_nat (h_size h)) (h_assignment h) bits chs ->
    byte_string body -> bytes_bits body = bits ++ pad -> (length pad < 8)%nat ->
    is_crc 16 poly16 (hw ++ body) crc -> 0 <= a < 256 -> 0 <= b < 256 -> 256 * a + b <> crc ->
    frame_fault (FormatError "frame CRC mismatch") (hw ++ body ++ [a; b]).

(** * Byte strings with neither *)

(** Bytes that neither start with a frame nor with a fault: a frame is missing its
    end, or there are only one or no bytes. *)
Definition incomplete (l : list Z) : Prop :=
  forall w rest, l = w ++ rest -> (forall h chs, ~ frame_code h chs w) /\ (forall e, ~ frame_fault e w).
