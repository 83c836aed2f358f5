(** Which values samples have, and how they relate to what headers declare. *)
From Verif Require Export SpecWhole SpecTimes.

(** * Frames whose subframes are constant or verbatim *)

(** See [subframe]. *)
Definition unpredicted (bps : Z) (n : nat) (w : list bool) (s : list Z) : Prop :=
  exists c k wb s',
    (c = Constant \/ c = Verbatim)
    /\ 0 <= k <= 31 /\ k < bps
    /\ body (bps - k) n c wb s'
    /\ w = false :: word 6 (coding_code c) ++ wasted_field k ++ wb
    /\ s = map (fun x => wrap32 (x * 2 ^ k)) s'.

(** See [frame_code]; the channels are separate. *)
Definition unpredicted_frame (h : header) (chs : list (list Z)) (w : list Z) : Prop :=
  exists hw bps ws pad body crc,
    header_code h hw
    /\ h_width h = Some bps
    /\ h_assignment h = Separate (Z.of_nat (length chs))
    /\ Forall2 (unpredicted bps (Z.to_nat (h_size h))) ws chs
    /\ byte_string body /\ bytes_bits body = concat ws ++ pad /\ (length pad < 8)%nat
    /\ is_crc 16 poly16 (hw ++ body) crc
    /\ w = hw ++ body ++ [crc / 256; crc mod 256].

(** The bits per sample that frame headers can declare. *)
Definition widths : list Z := [8; 12; 16; 20; 24].

(** All samples of the block fit [n] bits. *)
Definition samples_fit (n : Z) (b : block) : Prop :=
  Forall (fits n) (v_items (block_into_buffer b)).

(** * Sounds *)

(** The frames of a sound with [k] channels in [width] bits per sample, in blocks of at most
    [size] samples, each of which carries its position. *)
Definition sound_frames (width size : Z) (k : nat) (frames : list (header * list (list Z))) (ws : list (list Z)) : Prop :=
  Forall2 (fun f w => frame_code (fst f) (snd f) w) frames ws
  /\ Forall (fun f => h_size (fst f) <= size /\ h_width (fst f) = Some width /\ length (snd f) = k) frames
  /\ numbered_by_sample (map fst frames).
