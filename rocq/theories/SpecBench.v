(** What the benchmarks and the examples in the documentation are expected to do. *)
From Verif Require Export SpecPrograms ModelBench.
From Verif Require Import SpecReader.

(** The number of samples of a frame, over all channels. *)
Definition frame_samples (f : header * list (list Z)) : Z :=
  h_size (fst f) * channel_count (h_assignment (fst f)).

(** The comments of a file. *)
Definition has_comments (vc : option vorbis_comment) (cs : list comment) : Prop :=
  match vc with Some v => exists vendor, v = vorbis_of vendor cs | None => cs = [] end.

(** A clock whose differences fit in 64 bits. *)
Definition clock_ok (clock : nat -> Z) : Prop := forall i j, - 2 ^ 63 <= clock j - clock i < 2 ^ 63.

(** One time per frame: from the end of the frame before to the end of this one. *)
Fixpoint measured (clock : nat -> Z) (i : nat) (frames : list (header * list (list Z))) : list (Z * Z) :=
  match frames with
  | [] => []
  | f :: frames => (clock (S i) - clock i, frame_samples f) :: measured clock (S i) frames
  end.

(** How many quotients are smaller than [x], or not greater; denominators are positive. *)
Fixpoint count_below (x : Z * Z) (l : list (Z * Z)) : Z :=
  match l with
  | [] => 0
  | y :: l => (if fst y * snd x <? fst x * snd y then 1 else 0) + count_below x l
  end.
Fixpoint count_upto (x : Z * Z) (l : list (Z * Z)) : Z :=
  match l with
  | [] => 0
  | y :: l => (if fst y * snd x <=? fst x * snd y then 1 else 0) + count_upto x l
  end.
(** [x] is the element of rank [k] (from 0) in [l], by size. *)
Definition has_rank (k : Z) (l : list (Z * Z)) (x : Z * Z) : Prop :=
  In x l /\ count_below x l <= k < count_upto x l.

(** What [n] turns of reading a file over and over give: all frames, then its end. *)
Definition over_and_over (frames : list (header * list (list Z))) (n : nat) : list (option (header * list (list Z))) :=
  firstn n (concat (repeat (map Some frames ++ [None]) n)).
Fixpoint samples_read (fs : list (option (header * list (list Z)))) : Z :=
  match fs with
  | [] => 0
  | Some f :: fs => frame_samples f + samples_read fs
  | None :: fs => samples_read fs
  end.
Fixpoint frames_read (fs : list (option (header * list (list Z)))) : Z :=
  match fs with
  | [] => 0
  | Some _ :: fs => 1 + frames_read fs
  | None :: fs => frames_read fs
  end.

(** ASCII text. *)
Definition text (s : string) : list Z := map (fun c => Z.of_nat (Ascii.nat_of_ascii c)) (list_ascii_of_string s).
(** The sixteen names that the benchmark of metadata looks up, in this order. *)
Definition metadata_names : list string :=
  ["date"; "originaldate"; "tracknumber"; "tracktotal"; "discnumber"; "disctotal"; "title"; "album";
   "artist"; "albumartist"; "artistsort"; "albumartistsort"; "musicbrainz_trackid";
   "musicbrainz_albumid"; "musicbrainz_artistid"; "musicbrainz_albumartistid"]%string.
Definition has_name (cs : list comment) (name : string) : Prop :=
  exists v vs, values_of (text name) cs (v :: vs).
