(** Sequences of read operations on byte and bit readers, and what they mean on
    the list of bytes or bits still to come.  Used in the statements about
    src/input.rs. *)
From Verif Require Export SpecBits SpecReader.

(** Running operations one after the other up to the first failure: the results,
    the last of which may be the failure, and the final state. *)
Fixpoint history {S O A} (step : O -> M S A) (ops : list O) (st : S)
    : list (outcome A) * S :=
  match ops with
  | [] => ([], st)
  | o :: rest =>
      match step o st with
      | (Ok a, st') => let (rs, st'') := history step rest st' in (Ok a :: rs, st'')
      | (failure, st') => ([failure], st')
      end
  end.

(** The same without stopping at a failure (errors are values in Rust; the caller
    may go on). *)
Fixpoint history_all {S O A} (step : O -> M S A) (ops : list O) (st : S)
    : list (outcome A) * S :=
  match ops with
  | [] => ([], st)
  | o :: rest =>
      let (r, st') := step o st in
      let (rs, st'') := history_all step rest st' in (r :: rs, st'')
  end.

(** The same, stopping at a failure of the source (and at a panic), but not at an error
    that the decoder found in the data. *)
Definition from_source {A} (r : outcome A) : bool :=
  match r with
  | Ok _ | Err (FormatError _) | Err (Unsupported _) => false
  | Err (IoError _) | Panic _ | UB _ | OutOfFuel => true
  end.
Fixpoint history_until_io {S O A} (step : O -> M S A) (ops : list O) (st : S)
    : list (outcome A) * S :=
  match ops with
  | [] => ([], st)
  | o :: rest =>
      let (r, st') := step o st in
      if from_source r then ([r], st')
      else let (rs, st'') := history_until_io step rest st' in (r :: rs, st'')
  end.

Definition succeeded {A} (r : outcome A) : Prop := exists a, r = Ok a.
Definition value_or_error {A} (r : outcome A) : Prop :=
  (exists a, r = Ok a) \/ (exists e, r = Err e).

(** * Bytes *)

Inductive byte_op :=
| OpU8 | OpU8OrEof | OpInto (buffer : list Z) | OpSkip (amount : Z)
| OpBe16 | OpBe16OrEof | OpBe24 | OpBe32 | OpLe32.

Inductive byte_result :=
| RNum (n : Z)            (* a number *)
| RNone                   (* None: end of file *)
| RBytes (l : list Z)     (* the new contents of the buffer *)
| RDone.                  (* () *)

(** The operation as performed by a reader. *)
Definition run_byte_op {S} (rb : ReadBytes S) (o : byte_op) : M S byte_result :=
  let num c := x <- c ;; ret (RNum x) in
  let opt c := x <- c ;; ret (match x with Some b => RNum b | None => RNone end) in
  match o with
  | OpU8 => num (read_u8 rb)
  | OpU8OrEof => opt (read_u8_or_eof rb)
  | OpInto buffer => x <- read_into rb buffer ;; ret (RBytes x)
  | OpSkip amount => skip rb amount ;;; ret RDone
  | OpBe16 => num (read_be_u16 rb)
  | OpBe16OrEof => opt (read_be_u16_or_eof rb)
  | OpBe24 => num (read_be_u24 rb)
  | OpBe32 => num (read_be_u32 rb)
  | OpLe32 => num (read_le_u32 rb)
  end.

(** Numbers written in base 256, most significant byte first. *)
Definition be_number (l : list Z) : Z := fold_left (fun a b => 256 * a + b) l 0.

(** The operation on the list of bytes still to come. *)
Definition spec_byte_op (t : tail) (o : byte_op) : M (list Z) byte_result := fun l =>
  let take n (f : list Z -> byte_result) :=
    if (n <=? length l)%nat then (Ok (f (firstn n l)), skipn n l)
    else (Err (tail_error t), []) in
  let take_or_eof n (f : list Z -> byte_result) :=
    if (n <=? length l)%nat then (Ok (f (firstn n l)), skipn n l)
    else match t with TEof => (Ok RNone, []) | TErr k => (Err (IoError k), []) end in
  match o with
  | OpU8 => take 1%nat (fun bs => RNum (be_number bs))
  | OpU8OrEof => take_or_eof 1%nat (fun bs => RNum (be_number bs))
  | OpInto buffer => take (length buffer) RBytes
  | OpSkip amount => take (Z.to_nat amount) (fun _ => RDone)
  | OpBe16 => take 2%nat (fun bs => RNum (be_number bs))
  | OpBe16OrEof => take_or_eof 2%nat (fun bs => RNum (be_number bs))
  | OpBe24 => take 3%nat (fun bs => RNum (be_number bs))
  | OpBe32 => take 4%nat (fun bs => RNum (be_number bs))
  | OpLe32 => take 4%nat (fun bs => RNum (be_number (rev bs)))
  end.

(** What the types of the arguments allow. *)
Definition legal_byte_op (o : byte_op) : Prop :=
  match o with
  | OpInto buffer => len buffer < 2 ^ 63
  | OpSkip amount => 0 <= amount < 2 ^ 32
  | _ => True
  end.

(** * Bits *)

Inductive bit_op :=
| OpBit | OpUnary | OpLeqU8 (bits : Z) | OpGtU8LeqU16 (bits : Z)
| OpLeqU16 (bits : Z) | OpLeqU32 (bits : Z).

Definition run_bit_op {S} (rb : ReadBytes S) (m : build) (fuel : nat) (o : bit_op)
    : M (bitstream S) Z :=
  match o with
  | OpBit => b <- read_bit rb m ;; ret (Z.b2z b)
  | OpUnary => read_unary rb m fuel
  | OpLeqU8 n => read_leq_u8 rb m n
  | OpGtU8LeqU16 n => read_gt_u8_leq_u16 rb m n
  | OpLeqU16 n => read_leq_u16 rb m n
  | OpLeqU32 n => read_leq_u32 rb m n
  end.

(** The number of zero bits before the first one bit, and what follows that. *)
Fixpoint leading_zeros (l : list bool) : option (Z * list bool) :=
  match l with
  | [] => None
  | true :: r => Some (0, r)
  | false :: r =>
      match leading_zeros r with
      | Some (n, r') => Some (n + 1, r')
      | None => None
      end
  end.

(** The operation on the list of bits still to come. *)
Definition spec_bit_op (t : tail) (o : bit_op) : M (list bool) Z := fun l =>
  let take n :=
    if (Z.to_nat n <=? length l)%nat
    then (Ok (be_value (firstn (Z.to_nat n) l)), skipn (Z.to_nat n) l)
    else (Err (tail_error t), []) in
  match o with
  | OpBit => take 1
  | OpUnary =>
      match leading_zeros l with
      | Some (n, r) => (Ok n, r)
      | None => (Err (tail_error t), [])
      end
  | OpLeqU8 n | OpGtU8LeqU16 n | OpLeqU16 n | OpLeqU32 n => take n
  end.

(** The documented widths. *)
Definition legal_bit_op (o : bit_op) : Prop :=
  match o with
  | OpBit | OpUnary => True
  | OpLeqU8 n => 0 <= n <= 8
  | OpGtU8LeqU16 n => 8 < n <= 16
  | OpLeqU16 n => 0 <= n <= 16
  | OpLeqU32 n => 0 <= n <= 32
  end.

(** No [OpUnary] of the history meets a run of zeros that a u32 cannot count. *)
Definition starts_with_zeros (n : Z) (l : list bool) : Prop :=
  exists r, l = repeat false (Z.to_nat n) ++ r.
Fixpoint counts_fit (t : tail) (ops : list bit_op) (l : list bool) : Prop :=
  match ops with
  | [] => True
  | o :: rest =>
      (o = OpUnary -> ~ starts_with_zeros (2 ^ 32) l)
      /\ match spec_bit_op t o l with
         | (Ok _, l') => counts_fit t rest l'
         | _ => True
         end
  end.

(** The bytes a wrapped reader hands over, in a script that obeys the [io::Read]
    contract for a 2048-byte buffer but may fail, or report end of file, at any
    time. *)
Definition contract_ok (e : event) : Prop :=
  match e with EvData l => bytes_ok l /\ len l <= 2048 | EvErr _ => True end.

(** All the bytes in a script. *)
Definition script_data (sc : list event) : list Z :=
  flat_map (fun e => match e with EvData l => l | EvErr _ => [] end) sc.

(** The bits still to come from a [Bitstream] over a reader of which [D] says what
    it still delivers: the (less than 8) bits left over from the last byte read,
    then the bits of the remaining bytes.  [fuel] exceeds the number of those, as
    needed by the model of [read_unary]'s loop; every reader starts in
    such a position (lemma [bs_new_left]). *)
Definition bits_left {S} (D : S -> list Z -> Prop) (fuel : nat) (st : bitstream S)
    (bits : list bool) : Prop :=
  exists n d l, (n <= 7)%nat /\ 0 <= d < 2 ^ Z.of_nat n
    /\ bs_bits_left st = Z.of_nat n /\ bs_data st = d * 2 ^ (8 - Z.of_nat n)
    /\ bits = bits_of n d ++ bytes_bits l
    /\ D (bs_reader st) l /\ bytes_ok l /\ (length l < fuel)%nat.
