(** What a byte source delivers.  Used in the statements of the theorems; needs
    only the [ReadBytes] interface and the representation of an [io::Read]. *)
From Verif Require Export ModelInput.

Definition is_byte (b : Z) : Prop := 0 <= b < 256.
Definition bytes_ok (l : list Z) : Prop := Forall is_byte l.

(** What happens after the last byte: end of file for ever, or an I/O error. *)
Inductive tail := TEof | TErr (k : io_kind).

(** The error reported when a byte is required but none is left. *)
Definition tail_error (t : tail) : error :=
  match t with TEof => IoError UnexpectedEof | TErr k => IoError k end.

(** [stream rb t D]: the reader [rb] behaves as a byte stream with end [t];
    [D st l] says that in state [st] the bytes still to come are [l]. *)
Record stream {S} (rb : ReadBytes S) (t : tail) (D : S -> list Z -> Prop) : Prop := {
  (* only bytes are delivered *)
  st_bytes : forall st l, D st l -> bytes_ok l;
  (* read_u8 returns the next byte *)
  st_u8 : forall st b l, D st (b :: l) ->
    exists st', read_u8 rb st = (Ok b, st') /\ D st' l;
  st_u8_end : forall st, D st [] ->
    exists st', read_u8 rb st = (Err (tail_error t), st');
  (* read_u8_or_eof returns the next byte or None at the end *)
  st_eof : forall st b l, D st (b :: l) ->
    exists st', read_u8_or_eof rb st = (Ok (Some b), st') /\ D st' l;
  st_eof_end : forall st, D st [] ->
    match t with
    | TEof => exists st', read_u8_or_eof rb st = (Ok None, st') /\ D st' []
    | TErr k => exists st', read_u8_or_eof rb st = (Err (IoError k), st')
    end;
  (* read_into fills the whole buffer, whatever was in it *)
  st_into : forall st l1 l2 buf, D st (l1 ++ l2) -> length buf = length l1 ->
    len buf < 2 ^ 63 ->
    exists st', read_into rb buf st = (Ok l1, st') /\ D st' l2;
  st_into_end : forall st l buf, D st l -> (length l < length buf)%nat ->
    len buf < 2 ^ 63 ->
    exists st', read_into rb buf st = (Err (tail_error t), st');
  (* skip passes over the next bytes *)
  st_skip : forall st l1 l2, D st (l1 ++ l2) -> len l1 < 2 ^ 32 ->
    exists st', skip rb (len l1) st = (Ok tt, st') /\ D st' l2;
  st_skip_end : forall st l n, D st l -> len l < n < 2 ^ 32 ->
    exists st', skip rb n st = (Err (tail_error t), st');
  (* the ghost allocation hook leaves the stream alone *)
  st_alloc : forall st l n sz, D st l ->
    exists st', rb_alloc rb n sz st = (Ok tt, st') /\ D st' l
}.

(** One result of a [read] call into the 2048-byte buffer that obeys the
    [io::Read] contract: between 1 and 2048 bytes. *)
Definition chunk_ok (c : list Z) : Prop := bytes_ok c /\ 0 < len c <= 2048.

(** A script of [read] results that delivers the bytes [l], in any chunks, and
    then [t].  After an I/O error the script may go on arbitrarily. *)
Inductive delivers (t : tail) : list event -> list Z -> Prop :=
| delivers_eof : t = TEof -> delivers t [] []
| delivers_err : forall k r, t = TErr k -> delivers t (EvErr k :: r) []
| delivers_chunk : forall c r l, chunk_ok c -> delivers t r l ->
    delivers t (EvData c :: r) (c ++ l).

(** A [BufferedReader] in the middle of such a script: [mid] is what is buffered
    and not yet consumed. *)
Definition buffered (t : tail) (st : breader) (l : list Z) : Prop :=
  exists pre mid post l',
    br_buf st = pre ++ mid ++ post
    /\ len (br_buf st) = 2048
    /\ br_pos st = len pre
    /\ br_num_valid st = len pre + len mid
    /\ bytes_ok mid
    /\ delivers t (br_inner st) l'
    /\ l = mid ++ l'.

(** A [Cursor] with the bytes [l] left.  The data of a [Cursor<T: AsRef<[u8]>>]
    is a slice, so it is shorter than 2^63 bytes. *)
Definition cursor_at (st : cursor) (l : list Z) : Prop :=
  exists pre, cu_data st = pre ++ l /\ cu_pos st = len pre
              /\ bytes_ok l /\ len (cu_data st) < 2 ^ 63.
