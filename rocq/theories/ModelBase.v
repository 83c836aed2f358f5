(** Base of the executable model of claxon: outcomes, the state monad and
    machine integers.  Nothing in this file is specific to FLAC. *)
From Coq Require Export String.
From Coq Require Export ZArith List Bool.
Export ListNotations.
Open Scope Z_scope.

(** How the crate was compiled.  [Debug]: integer overflow, over-wide shifts and
    failed [debug_assert!]s panic.  [Release]: they wrap, mask the shift amount,
    and are skipped.  This is a choice of compiler options, not a line of code; it matters
    at src/input.rs:397, src/subframe.rs:194 and wherever there is arithmetic. *)
Inductive build := Debug | Release.

(** [std::io::ErrorKind], abstracted: the one kind claxon itself creates, and
    whatever else an underlying reader may report.
    src/input.rs:140, :183, :205, :242, :265, :275. *)
Inductive io_kind := UnexpectedEof | OtherIo (code : Z).

(** src/error.rs:16-32 [enum Error].  Simplification: an [io::Error] is
    represented by its kind, its message is dropped. *)
Inductive error :=
| IoError (k : io_kind)
| FormatError (reason : string)
| Unsupported (feature : string).

(** The outcome of running a Rust function: [Ok]/[Err] are [Result] (both
    [io::Result] and [claxon::Result]; [try!] converts the former by
    [IoError], src/error.rs:82-86), [Panic] is an unwinding panic, [UB] an
    out-of-bounds unchecked access, [OutOfFuel] a loop that did not finish
    within the fuel given to the model. *)
Inductive outcome (A : Type) :=
| Ok (a : A)
| Err (e : error)
| Panic (why : string)
| UB (why : string)
| OutOfFuel.
Arguments Ok {A} a.
Arguments Err {A} e.
Arguments Panic {A} why.
Arguments UB {A} why.
Arguments OutOfFuel {A}.

(** A [Result] that is passed around as a value (items of iterators).
    src/error.rs:97 [type Result]. *)
Inductive result (A : Type) := ROk (a : A) | RErr (e : error).
Arguments ROk {A} a.
Arguments RErr {A} e.

(** Computations that mutate a state [S].  Models [&mut self] arguments, as in src/input.rs:133. *)
Definition M (S A : Type) := S -> outcome A * S.

(** A statement sequence that ends in [a], as src/input.rs:150. *)
Definition ret {S A} (a : A) : M S A := fun s => (Ok a, s).

(** [try!] (src/input.rs:137 and throughout src/): an error, and a panic, ends the function. *)
Definition bind {S A B} (m : M S A) (f : A -> M S B) : M S B :=
  fun s =>
    match m s with
    | (Ok a, s') => f a s'
    | (Err e, s') => (Err e, s')
    | (Panic w, s') => (Panic w, s')
    | (UB w, s') => (UB w, s')
    | (OutOfFuel, s') => (OutOfFuel, s')
    end.

(** An expression that does not touch the state, as src/frame.rs:320. *)
Definition lift {S A} (o : outcome A) : M S A := fun s => (o, s).
(** [return Err(e)] (src/input.rs:140 and throughout src/). *)
Definition fail {S A} (e : error) : M S A := lift (Err e).
(** Reading a field of [self], as in src/crc.rs:86. *)
Definition get {S} : M S S := fun s => (Ok s, s).
(** Assigning to a field of [self], as in src/crc.rs:91. *)
Definition put {S} (s : S) : M S unit := fun _ => (Ok tt, s).

(** src/error.rs:100-102 [fmt_err]. *)
Definition fmt_err {S A} (reason : string) : M S A := fail (FormatError reason).

(** Turning an outcome into an iterator item: errors become values, panics
    still propagate.  src/metadata.rs:590-599, src/lib.rs:499-514. *)
Definition catch {S A} (m : M S A) : M S (result A) :=
  fun s =>
    match m s with
    | (Ok a, s') => (Ok (ROk a), s')
    | (Err e, s') => (Ok (RErr e), s')
    | (Panic w, s') => (Panic w, s')
    | (UB w, s') => (UB w, s')
    | (OutOfFuel, s') => (OutOfFuel, s')
    end.

(** [try!] on such an item.  src/lib.rs:244, :254. *)
Definition of_result {A} (r : result A) : outcome A :=
  match r with ROk a => Ok a | RErr e => Err e end.

(** [try!] and sequencing outside of a method with state, as src/subframe.rs:386-387. *)
Definition obind {A B} (o : outcome A) (f : A -> outcome B) : outcome B :=
  match o with
  | Ok a => f a
  | Err e => Err e
  | Panic w => Panic w
  | UB w => UB w
  | OutOfFuel => OutOfFuel
  end.

Notation "x <- m ;; k" := (bind m (fun x => k))
  (at level 61, m at next level, right associativity).
Notation "m ;;; k" := (bind m (fun _ => k))
  (at level 61, right associativity).
Notation "x <~ o ;; k" := (obind o (fun x => k))
  (at level 61, o at next level, right associativity).

(** * Machine integers *)

(** [as u8], [u8] arithmetic (src/crc.rs:111, src/input.rs:396-412). *)
Definition u8 (x : Z) : Z := x mod 2 ^ 8.
(** [as u16], [u16] arithmetic (src/crc.rs:110-112, src/frame.rs:264, src/subframe.rs:271). *)
Definition u16 (x : Z) : Z := x mod 2 ^ 16.
(** [as u32], [u32] arithmetic (src/input.rs:137, src/frame.rs:776 and others). *)
Definition u32 (x : Z) : Z := x mod 2 ^ 32.
(** [as u64], [u64] and (on 64-bit targets) [usize] arithmetic (src/input.rs:239, src/frame.rs:772 and others). *)
Definition u64 (x : Z) : Z := x mod 2 ^ 64.
(** [as i16] (src/subframe.rs:100, src/frame.rs:93). *)
Definition i16 (x : Z) : Z := (x + 2 ^ 15) mod 2 ^ 16 - 2 ^ 15.
(** [as i32] and wrapping arithmetic (src/subframe.rs:121, :167-168, :565, src/frame.rs:319-393). *)
Definition i32 (x : Z) : Z := (x + 2 ^ 31) mod 2 ^ 32 - 2 ^ 31.
(** [as i64] (src/subframe.rs:547-612). *)
Definition i64 (x : Z) : Z := (x + 2 ^ 63) mod 2 ^ 64 - 2 ^ 63.

(** The result of a plain [+], [-] or [*] whose exact value is [x], at a type
    with wrapping function [wrap] (src/input.rs:149, src/subframe.rs:564-565 and others). *)
Definition chk (m : build) (wrap : Z -> Z) (x : Z) : outcome Z :=
  if wrap x =? x then Ok x
  else match m with
       | Debug => Panic "attempt to perform arithmetic with overflow"
       | Release => Ok (wrap x)
       end.

(** The shift amount used for a shift of a [width]-bit integer (src/subframe.rs:100, :121 and others). *)
Definition chk_shift (m : build) (width s : Z) : outcome Z :=
  if (0 <=? s) && (s <? width) then Ok s
  else match m with
       | Debug => Panic "attempt to shift with overflow"
       | Release => Ok (s mod width)
       end.

(** [x << s] (src/subframe.rs:100, :121, :340 and others). *)
Definition shl (m : build) (wrap : Z -> Z) (width x s : Z) : outcome Z :=
  s' <~ chk_shift m width s ;; Ok (wrap (Z.shiftl x s')).

(** [x >> s] (src/subframe.rs:100, :121, :563 and others). *)
Definition shr (m : build) (width x s : Z) : outcome Z :=
  s' <~ chk_shift m width s ;; Ok (Z.shiftr x s').

(** [debug_assert!] (src/input.rs:397, :437; src/subframe.rs:194, :529; and others). *)
Definition debug_assert (m : build) (b : bool) : outcome unit :=
  match m with
  | Debug => if b then Ok tt else Panic "assertion failed"
  | Release => Ok tt
  end.

(** * Slices *)

(** [len()] of slices and vectors (src/frame.rs:320, src/subframe.rs:271 and others). *)
Definition len {A} (l : list A) : Z := Z.of_nat (length l).

(** [&l[a..b]].  src/frame.rs:708-740, src/subframe.rs:285, :295 and others. *)
Definition slice {A} (l : list A) (a b : Z) : outcome (list A) :=
  if (0 <=? a) && (a <=? b) && (b <=? len l)
  then Ok (firstn (Z.to_nat (b - a)) (skipn (Z.to_nat a) l))
  else Panic "slice index out of range".

(** [l] with the elements from index [a] on replaced by [new] (writing back
    through a [&mut l[a..a + new.len()]]).
    src/frame.rs:708-740, src/subframe.rs:285, :295 and others. *)
Definition splice {A} (l : list A) (a : Z) (new : list A) : list A :=
  firstn (Z.to_nat a) l ++ new ++ skipn (Z.to_nat a + length new) l.

(** [l[i]].  src/frame.rs:496, src/crc.rs:91, :111 and others. *)
Definition index {A} (l : list A) (i : Z) : outcome A :=
  if 0 <=? i
  then match nth_error l (Z.to_nat i) with
       | Some x => Ok x
       | None => Panic "index out of bounds"
       end
  else Panic "index out of bounds".

(** [*l.get_unchecked(i)].  src/input.rs:148, src/frame.rs:570-571. *)
Definition index_unchecked {A} (l : list A) (i : Z) : outcome A :=
  if 0 <=? i
  then match nth_error l (Z.to_nat i) with
       | Some x => Ok x
       | None => UB "get_unchecked out of bounds"
       end
  else UB "get_unchecked out of bounds".
