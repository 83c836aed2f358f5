(** What safe code may do to the crate, and what must not happen.  Used in statements. *)
From Verif Require Export ModelHostile SpecOps SpecWhole.
From Verif Require Import SpecReader.

(** * Undefined behaviour *)

(** Not an access to memory that the program must not touch.  (A panic is no such access.) *)
Definition not_ub {A} (o : outcome A) : Prop := forall why, o <> UB why.

(** * Sources that are any implementation of [io::Read] *)

(** All that the types enforce: the number is a [usize]; the buffer is a slice of 2048
    bytes, and a slice cannot change its length. *)
Definition possible (e : hevent) : Prop :=
  match e with
  | HRead n buf => 0 <= n < 2 ^ 64 /\ bytes_ok buf /\ len buf = 2048
  | HErr _ buf => bytes_ok buf /\ len buf = 2048
  end.

(** The number returned is at most the length of the buffer.  ([io::Read] asks
    implementations for this, and says that callers must not rely on it for safety.)
    The crate uses its lower 32 bits only, so these count. *)
Definition within (e : hevent) : Prop :=
  match e with HRead n _ => n mod 2 ^ 32 <= 2048 | HErr _ _ => True end.

(** The bytes that a [read] hands over are the first [n] in the buffer, with [n] as above. *)
Definition handed_over (e : hevent) : event :=
  match e with
  | HRead n buf => EvData (firstn (Z.to_nat (n mod 2 ^ 32)) buf)
  | HErr k _ => EvErr k
  end.

(** A source that delivers the data of [script] and does nothing else: what it does with a
    buffer that holds [buf] at first. *)
Fixpoint plain (buf : list Z) (script : list event) : list hevent :=
  match script with
  | [] => []
  | EvErr k :: rest => HErr k buf :: plain buf rest
  | EvData l :: rest =>
      let buf' := l ++ skipn (length l) buf in HRead (len l) buf' :: plain buf' rest
  end.

(** A [BufferedReader] that is about to deliver [l] and then [t].  [mid] is what is buffered and
    not yet consumed; what else the buffer holds does not matter. *)
Definition hbuffered (t : tail) (st : hreader) (l : list Z) : Prop :=
  exists pre mid post l',
    hr_buf st = pre ++ mid ++ post
    /\ len (hr_buf st) = 2048
    /\ hr_pos st = len pre
    /\ hr_num_valid st = len pre + len mid
    /\ bytes_ok mid
    /\ Forall possible (hr_inner st) /\ Forall within (hr_inner st)
    /\ delivers t (map handed_over (hr_inner st)) l'
    /\ l = mid ++ l'.

(** [FlacReader::new_ext] on such a source. *)
Definition open_any (m : build) (un : nat -> list Z) (fuel : nat) (script : list hevent)
    (opts : flac_reader_options) : outcome (flac_reader hreader) :=
  fst (new_ext (hr_rb m) m un fuel opts (hr_new script)).

(** * Readers that are any implementation of [ReadBytes] *)

(** The operations of [rb] do not themselves cause undefined behaviour in any state in
    [I], and stay in [I]. *)
Definition op_sound {S A} (I : S -> Prop) (c : M S A) : Prop :=
  forall st, I st -> not_ub (fst (c st)) /\ I (snd (c st)).
Record reader_sound {S} (I : S -> Prop) (rb : ReadBytes S) : Prop := {
  rs_u8 : op_sound I (read_u8 rb);
  rs_eof : op_sound I (read_u8_or_eof rb);
  rs_into : forall buf, op_sound I (read_into rb buf);
  rs_skip : forall n, op_sound I (skip rb n);
  rs_alloc : forall n sz, op_sound I (rb_alloc rb n sz)
}.

(** What [read_into] returns does not depend on what the buffer held before. *)
Definition overwrites {S} (rb : ReadBytes S) : Prop :=
  forall buf buf' st, length buf = length buf' -> len buf < 2 ^ 63 ->
  read_into rb buf st = read_into rb buf' st.

(** Memory that was not initialised: any bytes, as many as were asked for. *)
Definition uninitialised (un : nat -> list Z) : Prop := forall n, length (un n) = n /\ bytes_ok (un n).

(** A reader that safe code can implement: it returns zeroes, and its [read_into] succeeds
    without touching the buffer. *)
Definition idle_rb : ReadBytes unit :=
  mkRB (ret 0) (ret (Some 0)) (fun buf => ret buf) (fun _ => ret tt) (fun _ _ => ret tt).

(** * The property *)

(** Opening a file never causes undefined behaviour, whatever the source does. *)
Definition sources_are_harmless : Prop := forall m un fuel script opts,
  uninitialised un -> Forall possible script ->
  not_ub (open_any m un fuel script opts).

(** What a metadata block reads as never depends on memory that was not initialised,
    whatever the reader does. *)
Definition readers_are_harmless : Prop := forall S (rb : ReadBytes S) m un un' ty n st,
  uninitialised un -> uninitialised un' -> reader_sound (fun _ => True) rb ->
  fst (read_metadata_block rb m un ty n st) = fst (read_metadata_block rb m un' ty n st).
