(** Checksums as polynomial arithmetic over GF(2), and classes of errors. *)
From Verif Require Export SpecBits.

(** A polynomial over GF(2) is a non-negative integer: bit [i] is the coefficient
    of x^i.  Addition is [Z.lxor]; this is multiplication. *)
Fixpoint pmul (q : positive) (g : Z) : Z :=
  match q with
  | xH => g
  | xO q' => 2 * pmul q' g
  | xI q' => Z.lxor (2 * pmul q' g) g
  end.
Definition clmul (q g : Z) : Z := match q with Zpos p => pmul p g | _ => 0 end.

Definition divides (g a : Z) : Prop := exists q, 0 <= q /\ a = clmul q g.

(** The message as a polynomial: the first bit has the highest power. *)
Definition message (bytes : list Z) : Z := be_value (bytes_bits bytes).

(** [c] is the remainder of message * x^w modulo the polynomial [g] of degree
    [w]. *)
Definition is_crc (w g : Z) (bytes : list Z) (c : Z) : Prop :=
  0 <= c < 2 ^ w /\ divides g (Z.lxor (message bytes * 2 ^ w) c).

(** x^8 + x^2 + x + 1 and x^16 + x^15 + x^2 + 1 *)
Definition poly8 : Z := 2 ^ 8 + 2 ^ 2 + 2 + 1.
Definition poly16 : Z := 2 ^ 16 + 2 ^ 15 + 2 ^ 2 + 1.

(** * Differences between byte strings of the same length *)

Definition difference (l l' : list Z) : list bool :=
  map (fun p => xorb (fst p) (snd p)) (combine (bytes_bits l) (bytes_bits l')).

(** All differing bits lie within [k] consecutive ones. *)
Definition burst (k : nat) (d : list bool) : Prop :=
  exists a mid b, d = repeat false a ++ mid ++ repeat false b
    /\ (length mid <= k)%nat /\ In true mid.
(** An odd number of bits differ. *)
Definition odd_flips (d : list bool) : Prop :=
  Nat.odd (count_occ Bool.bool_dec d true) = true.
(** Exactly two bits differ, less than [n] apart. *)
Definition two_flips (n : nat) (d : list bool) : Prop :=
  exists a gap b, d = repeat false a ++ [true] ++ repeat false gap ++ [true] ++ repeat false b
    /\ (gap + 1 < n)%nat.

(** The errors that a checksum with [poly8] or [poly16] cannot miss. *)
Definition detected8 (d : list bool) : Prop := burst 8 d \/ odd_flips d \/ two_flips 127 d.
Definition detected16 (d : list bool) : Prop :=
  burst 16 d \/ odd_flips d \/ two_flips (Z.to_nat 32767) d.
