(** What a FLAC encoder computes: differences, residuals, decorrelated channels. *)
From Verif Require Export SpecFlac.

(** Differences of successive samples, as 32-bit numbers. *)
Fixpoint differences (l : list Z) : list Z :=
  match l with
  | a :: (b :: _) as r => wrap32 (b - a) :: differences r
  | _ => []
  end.

(** The [n]-th order differences. *)
Definition nth_differences (n : nat) (l : list Z) : list Z := Nat.iter n differences l.

(** The residual of the samples [xs] after [past] (latest first). *)
Fixpoint residual_of (predict : list Z -> Z) (past xs : list Z) : list Z :=
  match xs with
  | [] => []
  | x :: xs' => wrap32 (x - predict past) :: residual_of predict (x :: past) xs'
  end.

(** Stereo decorrelation. *)
Definition side_of (left right : list Z) : list Z :=
  map (fun p => wrap32 (fst p - snd p)) (combine left right).
Definition mid_of (left right : list Z) : list Z :=
  map (fun p => (fst p + snd p) / 2) (combine left right).

(** The Rice code of one residual with parameter [k]. *)
Definition rice_bits (k r : Z) : list bool :=
  unary (fold_sign r / 2 ^ k) ++ word k (fold_sign r).

(** A partition: the parameter in [pbits] bits, then the codes. *)
Definition partition_bits (pbits k : Z) (rs : list Z) : list bool :=
  word pbits k ++ flat_map (rice_bits k) rs.

(** Bits packed into bytes; the last byte is filled up with zeros. *)
Fixpoint pack (l : list bool) : list Z :=
  match l with
  | [] => []
  | a :: b :: c :: d :: e :: f :: g :: h :: r => be_value [a; b; c; d; e; f; g; h] :: pack r
  | _ => [be_value (l ++ repeat false (8 - length l))]
  end.
