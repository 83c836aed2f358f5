(** Sources and frames as the fuzzing configuration sees them; used in the statements
    of C71 and C72. *)
From Verif Require Export SpecFrame SpecApi SpecEncode ModelFuzzing.
From Verif Require Export SpecReader.

(** A script of [read] results for a buffer of [cap] bytes that delivers the bytes [l],
    in any chunks, and then [t] (as [delivers], which is for 2048 bytes). *)
Inductive delivers_in (cap : Z) (t : tail) : list event -> list Z -> Prop :=
| delivers_in_eof : t = TEof -> delivers_in cap t [] []
| delivers_in_err : forall k r, t = TErr k -> delivers_in cap t (EvErr k :: r) []
| delivers_in_chunk : forall c r l, bytes_ok c /\ 0 < len c <= cap -> delivers_in cap t r l ->
    delivers_in cap t (EvData c :: r) (c ++ l).

(** A [BufferedReader] with a buffer of [cap] bytes in the middle of such a script. *)
Definition buffered_in (cap : Z) (t : tail) (st : breader) (l : list Z) : Prop :=
  exists pre mid post l',
    br_buf st = pre ++ mid ++ post
    /\ len (br_buf st) = cap
    /\ br_pos st = len pre
    /\ br_num_valid st = len pre + len mid
    /\ bytes_ok mid
    /\ delivers_in cap t (br_inner st) l'
    /\ l = mid ++ l'.

(** Frames with any bytes in the places of the two checksums. *)
Definition unchecked_header (h : header) (w : list Z) : Prop :=
  exists front c, header_front h front /\ 0 <= c < 256 /\ w = front ++ [c].
Definition unchecked_frame (h : header) (chs : list (list Z)) (w : list Z) : Prop :=
  exists hw bps bits pad body a b,
    unchecked_header h hw
    /\ h_width h = Some bps
    /\ channels_code bps (Z.to_nat (h_size h)) (h_assignment h) bits chs
    /\ byte_string body /\ bytes_bits body = bits ++ pad /\ (length pad < 8)%nat
    /\ 0 <= a < 256 /\ 0 <= b < 256
    /\ w = hw ++ body ++ [a; b].

(** What the fuzzing configuration does not report. *)
Definition checksum_error (e : error) : Prop :=
  e = FormatError "frame header CRC mismatch" \/ e = FormatError "frame CRC mismatch".
