(** The FLAC frame format, as a relation between strings of bytes and decoded
    frames.  Written from the format documentation, independently of the model. *)
From Verif Require Export SpecFlac SpecCrc.

(** * Numbers of variable length (the scheme of UTF-8) *)

(** The low [6 k] bits of [v], six per byte. *)
Fixpoint continuation (k : nat) (v : Z) : list Z :=
  match k with
  | O => []
  | S k' => (128 + v / 64 ^ Z.of_nat k' mod 64) :: continuation k' v
  end.
(** [v] in [k + 1] bytes: the first starts with [k + 1] ones and a zero, or is
    just the number if [k] is 0. *)
Definition number_bytes (k : nat) (v : Z) : list Z :=
  match k with
  | O => [v]
  | S _ => (256 - 2 ^ (7 - Z.of_nat k) + v / 64 ^ Z.of_nat k) :: continuation k v
  end.
(** How much fits. *)
Definition number_limit (k : nat) : Z :=
  match k with O => 2 ^ 7 | S _ => 2 ^ (6 + 5 * Z.of_nat k) end.

(** A number in 1 to 7 bytes, not necessarily the shortest form. *)
Definition number_code (w : list Z) (v : Z) : Prop :=
  exists k, (k <= 6)%nat /\ 0 <= v < number_limit k /\ w = number_bytes k v.
(** Not in the format, but accepted by the decoder: 8 bytes, the first of which is
    0xff. *)
Definition long_number (w : list Z) (v : Z) : Prop :=
  0 <= v < 2 ^ 42 /\ w = number_bytes 7 v.
Definition accepted_number (w : list Z) (v : Z) : Prop := number_code w v \/ long_number w v.

(** * Headers *)

(** Code, extra bytes after the number, block size. *)
Inductive size_code : Z -> list Z -> Z -> Prop :=
| size_192 : size_code 1 [] 192
| size_576 : forall c, 2 <= c <= 5 -> size_code c [] (576 * 2 ^ (c - 2))
| size_8bit : forall n, 1 <= n <= 256 -> size_code 6 [n - 1] n
| size_16bit : forall n, 1 <= n <= 65535 -> size_code 7 [(n - 1) / 256; (n - 1) mod 256] n
| size_256 : forall c, 8 <= c <= 15 -> size_code c [] (256 * 2 ^ (c - 8)).

(** Code, extra bytes after those of the block size, sample rate in Hz (none: as
    in the streaminfo).  By the format, the byte of code 12 is in kHz; the decoder
    takes it as Hz, which no caller can observe. *)
Inductive rate_code : Z -> list Z -> option Z -> Prop :=
| rate_streaminfo : rate_code 0 [] None
| rate_table : forall c r,
    In (c, r) [(1, 88200); (2, 176400); (3, 192000); (4, 8000); (5, 16000); (6, 22050);
               (7, 24000); (8, 32000); (9, 44100); (10, 48000); (11, 96000)] ->
    rate_code c [] (Some r)
| rate_8bit : forall b, 0 <= b < 256 -> rate_code 12 [b] (Some b)
| rate_16bit : forall a b, 0 <= a < 256 -> 0 <= b < 256 ->
    rate_code 13 [a; b] (Some (256 * a + b))
| rate_tens : forall a b, 0 <= a < 256 -> 0 <= b < 256 ->
    rate_code 14 [a; b] (Some (10 * (256 * a + b))).

(** Code, bits per sample (none: as in the streaminfo). *)
Definition width_code (c : Z) (bps : option Z) : Prop :=
  In (c, bps) [(0, None); (1, Some 8); (2, Some 12); (4, Some 16); (5, Some 20); (6, Some 24)].

(** Channel assignments: n + 1 independent channels, or one of three forms of
    stereo. *)
Inductive assignment := Separate (n : Z) | LeftSide | SideRight | MidSide.
Definition assignment_code (a : assignment) : Z :=
  match a with Separate n => n - 1 | LeftSide => 8 | SideRight => 9 | MidSide => 10 end.
Definition assignment_ok (a : assignment) : Prop :=
  match a with Separate n => 1 <= n <= 8 | _ => True end.
Definition channel_count (a : assignment) : Z :=
  match a with Separate n => n | _ => 2 end.

Record header := mkHeader {
  h_variable : bool;        (* variable block size: the number counts samples *)
  h_number : Z;             (* otherwise it counts frames *)
  h_size : Z;
  h_rate : option Z;
  h_assignment : assignment;
  h_width : option Z
}.

(** The bytes of a header before the checksum. *)
Definition header_front (h : header) (w : list Z) : Prop :=
  exists sc sx rc rx bc num,
    size_code sc sx (h_size h) /\ rate_code rc rx (h_rate h)
    /\ assignment_ok (h_assignment h) /\ width_code bc (h_width h)
    /\ accepted_number num (h_number h)
    /\ (h_variable h = false -> h_number h < 2 ^ 31)
    /\ w = [255; 248 + Z.b2z (h_variable h); 16 * sc + rc;
            16 * assignment_code (h_assignment h) + 2 * bc] ++ num ++ sx ++ rx.

Definition header_code (h : header) (w : list Z) : Prop :=
  exists front crc, header_front h front /\ is_crc 8 poly8 front crc /\ w = front ++ [crc].

(** The number of the first sample of the block, if all blocks of a stream with
    fixed block size have the size in this header. *)
Definition header_time (h : header) : Z :=
  if h_variable h then h_number h else h_number h * h_size h.

(** * Channels *)

Definition map2 (f : Z -> Z -> Z) (l r : list Z) : list Z :=
  map (fun p => f (fst p) (snd p)) (combine l r).

(** 2 * mid lacks the lowest bit of left + right, which is that of the side
    channel. *)
Definition mid_left (mid side : Z) : Z := wrap32 (2 * mid + side mod 2 + side) / 2.
Definition mid_right (mid side : Z) : Z := wrap32 (2 * mid + side mod 2 - side) / 2.

(** The subframes of [n] samples and the channels they stand for.  The side
    channel has one bit more. *)
Inductive channels_code (bps : Z) (n : nat) : assignment -> list bool -> list (list Z) -> Prop :=
| channels_separate : forall k ws chs, Z.of_nat (length chs) = k ->
    Forall2 (subframe bps n) ws chs ->
    channels_code bps n (Separate k) (concat ws) chs
| channels_left_side : forall w0 w1 left side,
    subframe bps n w0 left -> subframe (bps + 1) n w1 side ->
    channels_code bps n LeftSide (w0 ++ w1)
      [left; map2 (fun l s => wrap32 (l - s)) left side]
| channels_side_right : forall w0 w1 side right,
    subframe (bps + 1) n w0 side -> subframe bps n w1 right ->
    channels_code bps n SideRight (w0 ++ w1)
      [map2 (fun s r => wrap32 (s + r)) side right; right]
| channels_mid_side : forall w0 w1 mid side,
    subframe bps n w0 mid -> subframe (bps + 1) n w1 side ->
    channels_code bps n MidSide (w0 ++ w1) [map2 mid_left mid side; map2 mid_right mid side].

(** * Frames *)

Definition byte_string (l : list Z) : Prop := Forall (fun b => 0 <= b < 256) l.

(** Header, subframes filled up to whole bytes, checksum of all that. *)
Definition frame_code (h : header) (chs : list (list Z)) (w : list Z) : Prop :=
  exists hw bps bits pad body crc,
    header_code h hw
    /\ h_width h = Some bps
    /\ channels_code bps (Z.to_nat (h_size h)) (h_assignment h) bits chs
    /\ byte_string body /\ bytes_bits body = bits ++ pad /\ (length pad < 8)%nat
    /\ is_crc 16 poly16 (hw ++ body) crc
    /\ w = hw ++ body ++ [crc / 256; crc mod 256].

(** * What is not a header *)

(** How many continuation bytes (10xxxxxx) a first byte announces: [k] if it
    starts with [k + 1] ones and a zero, 7 for 0xff.  (The last bound is 256 for
    [k = 7]: [2 ^ (-1)] is 0.) *)
Definition announces (first : Z) (k : nat) : Prop :=
  (1 <= k <= 7)%nat /\ 256 - 2 ^ (7 - Z.of_nat k) <= first < 256 - 2 ^ (6 - Z.of_nat k).
Definition continues (b : Z) : Prop := 128 <= b < 192.

(** Starts that no number has: a lone continuation byte, or another byte where one
    is due. *)
Inductive malformed_number : list Z -> Prop :=
| malformed_first : forall b, continues b -> malformed_number [b]
| malformed_continuation : forall first k cs b,
    announces first k -> Forall continues cs -> (length cs < k)%nat ->
    0 <= b < 256 -> ~ continues b -> malformed_number (first :: cs ++ [b]).

(** Reserved patterns: starts of byte strings that must not be decoded. *)
Inductive reserved_header : list Z -> Prop :=
| reserved_sync : forall a b, 0 <= a < 256 -> 0 <= b < 256 ->
    (256 * a + b) / 4 <> 16382 (* 0x3ffe *) -> reserved_header [a; b]
| reserved_sync_bit : forall a b, 0 <= a < 256 -> 0 <= b < 256 ->
    (b / 2) mod 2 = 1 -> reserved_header [a; b]
| reserved_size_code : forall a b x, 0 <= a < 256 -> 0 <= b < 256 -> 0 <= x < 256 ->
    x / 16 = 0 -> reserved_header [a; b; x]
| reserved_rate_code : forall a b x, 0 <= a < 256 -> 0 <= b < 256 -> 0 <= x < 256 ->
    x mod 16 = 15 -> reserved_header [a; b; x]
| reserved_channel_code : forall a b x y, Forall (fun z => 0 <= z < 256) [a; b; x; y] ->
    11 <= y / 16 -> reserved_header [a; b; x; y]
| reserved_width_code : forall a b x y, Forall (fun z => 0 <= z < 256) [a; b; x; y] ->
    (y / 2) mod 8 = 3 \/ (y / 2) mod 8 = 7 -> reserved_header [a; b; x; y]
| reserved_last_bit : forall a b x y, Forall (fun z => 0 <= z < 256) [a; b; x; y] ->
    y mod 2 = 1 -> reserved_header [a; b; x; y]
| reserved_number : forall a b x y num, Forall (fun z => 0 <= z < 256) [a; b; x; y] ->
    malformed_number num -> reserved_header ([a; b; x; y] ++ num)
| reserved_frame_number : forall a b x y num v, Forall (fun z => 0 <= z < 256) [a; b; x; y] ->
    b mod 2 = 0 -> number_code num v -> 2 ^ 31 <= v -> reserved_header ([a; b; x; y] ++ num)
| reserved_size : forall a b x y num v, Forall (fun z => 0 <= z < 256) [a; b; x; y] ->
    x / 16 = 7 -> number_code num v -> reserved_header ([a; b; x; y] ++ num ++ [255; 255]).

(** * Features that the decoder does not implement *)

Definition subframe_widths (bps : Z) (a : assignment) : list Z :=
  match a with
  | Separate k => repeat bps (Z.to_nat k)
  | LeftSide => [bps; bps + 1]
  | SideRight => [bps + 1; bps]
  | MidSide => [bps; bps + 1]
  end.

(** Subframes of the given widths, up to an unsupported feature in one of them. *)
Inductive unsupported_channels (n : nat) : list Z -> list bool -> Prop :=
| unsupported_here : forall b bs w, unsupported_subframe b n w -> unsupported_channels n (b :: bs) w
| unsupported_later : forall b bs w0 s w, subframe b n w0 s -> unsupported_channels n bs w ->
    unsupported_channels n (b :: bs) (w0 ++ w).

(** The input starts with a frame header that refers to the streaminfo for the
    sample width, or with a header and subframes up to an unsupported feature. *)
Definition unsupported_frame (l : list Z) : Prop :=
  exists h hw body, l = hw ++ body /\ header_code h hw
    /\ match h_width h with
       | None => True
       | Some bps => exists w rest, bytes_bits body = w ++ rest
           /\ unsupported_channels (Z.to_nat (h_size h)) (subframe_widths bps (h_assignment h)) w
       end.
