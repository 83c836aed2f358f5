(** Bits and bytes, most significant bit first. *)
From Coq Require Export ZArith List Bool.
Export ListNotations.
Open Scope Z_scope.

(** The [n] low bits of [v], most significant first. *)
Fixpoint bits_of (n : nat) (v : Z) : list bool :=
  match n with
  | O => []
  | S k => Z.testbit v (Z.of_nat k) :: bits_of k v
  end.

(** The number written by a list of bits, most significant first. *)
Definition be_value (l : list bool) : Z :=
  fold_left (fun a b => 2 * a + Z.b2z b) l 0.

(** The bits of a string of bytes. *)
Definition bytes_bits (l : list Z) : list bool := flat_map (bits_of 8) l.

(** [q] zero bits followed by a one bit. *)
Definition unary (q : Z) : list bool := repeat false (Z.to_nat q) ++ [true].

(** The number in [-2^(n-1), 2^(n-1)) congruent to [v] modulo [2^n]. *)
Definition signed (n v : Z) : Z := (v + 2 ^ (n - 1)) mod 2 ^ n - 2 ^ (n - 1).

(** No run of [n] zero bits. *)
Definition no_zero_run (n : Z) (l : list bool) : Prop :=
  forall a b, l <> a ++ repeat false (Z.to_nat n) ++ b.
