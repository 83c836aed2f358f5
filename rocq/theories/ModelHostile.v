(** [BufferedReader] over any [io::Read] that safe code can implement.

    ModelInput.v describes a [read] by the bytes it delivers: it writes them to the
    front of the buffer, leaves the rest of the buffer alone, and returns their number.
    That is what the contract of [io::Read] asks for, but [io::Read] is a safe trait and
    nothing enforces it.  Here a [read] may leave anything in the buffer, also when it
    fails or returns 0, and may return any number.  Everything else of the code is the same:
    the functions below are those of ModelInput.v with another [inner_read]. *)
From Verif Require Export ModelInput.

(** One result of [inner.read(&mut buf)]: the number returned, or the error, and
    the contents of the buffer when the call returns.  src/input.rs:137, :157, :181,
    :202. *)
Inductive hevent := HRead (n : Z) (buf : list Z) | HErr (k : io_kind) (buf : list Z).

(** src/input.rs:24-36.  [hr_inner] is the script of results the wrapped reader will
    give, one per [read] call; when it is used up, [read] returns 0 and writes
    nothing. *)
Record hreader := mkHR {
  hr_inner : list hevent;
  hr_buf : list Z;
  hr_pos : Z;
  hr_num_valid : Z
}.

(** src/input.rs:41-59 *)
Definition hr_new (inner : list hevent) : hreader :=
  mkHR inner (repeat 0 (Z.to_nat CAPACITY)) 0 0.

(** [self.inner.read(&mut self.buf)].  src/input.rs:137, :157, :181, :202. *)
Definition hr_inner_read : M hreader Z := fun st =>
  match hr_inner st with
  | [] => (Ok 0, st)
  | HErr k buf :: r => (Err (IoError k), mkHR r buf (hr_pos st) (hr_num_valid st))
  | HRead n buf :: r => (Ok n, mkHR r buf (hr_pos st) (hr_num_valid st))
  end.

(** [self.pos = p] (src/input.rs:136, :149, :176, :196). *)
Definition hr_set_pos (p : Z) : M hreader unit := fun st =>
  (Ok tt, mkHR (hr_inner st) (hr_buf st) p (hr_num_valid st)).
(** [self.num_valid = n] (src/input.rs:137, :157, :181, :202). *)
Definition hr_set_num_valid (n : Z) : M hreader unit := fun st =>
  (Ok tt, mkHR (hr_inner st) (hr_buf st) (hr_pos st) n).

(** [self.pos = 0; self.num_valid = try!(self.inner.read(&mut self.buf)) as u32;]
    as in src/input.rs:136-137, 156-157, 180-181 and 201-202. *)
Definition hr_refill : M hreader unit :=
  hr_set_pos 0 ;;;
  n <- hr_inner_read ;;
  hr_set_num_valid (u32 n).

(** src/input.rs:133-151 *)
Definition hr_read_u8 (m : build) : M hreader Z :=
  st <- get ;;
  (if hr_pos st =? hr_num_valid st then
     hr_refill ;;;
     st <- get ;;
     if hr_num_valid st =? 0 then fail (IoError UnexpectedEof) else ret tt
   else ret tt) ;;;
  st <- get ;;
  byte <- lift (index_unchecked (hr_buf st) (hr_pos st)) ;;
  p <- lift (chk m u32 (hr_pos st + 1)) ;;
  hr_set_pos p ;;;
  ret byte.

(** src/input.rs:153-165 *)
Definition hr_read_u8_or_eof (m : build) : M hreader (option Z) :=
  st <- get ;;
  eof <- (if hr_pos st =? hr_num_valid st then
            hr_refill ;;;
            st <- get ;;
            ret (hr_num_valid st =? 0)
          else ret false) ;;
  if (eof : bool) then ret None
  else b <- hr_read_u8 m ;; ret (Some b).

(** The loop of src/input.rs:167-190, with fuel as in ModelInput.v. *)
Fixpoint hr_read_into_loop (m : build) (fuel : nat) (buffer : list Z)
    (bytes_left : Z) : M hreader (list Z) :=
  if 0 <? bytes_left then
    match fuel with
    | O => lift OutOfFuel
    | S fuel' =>
        st <- get ;;
        from <- lift (chk m u64 (len buffer - bytes_left)) ;;
        avail <- lift (chk m u32 (hr_num_valid st - hr_pos st)) ;;
        let count := Z.min bytes_left avail in
        _dst <- lift (slice buffer from (from + count)) ;;
        src <- lift (slice (hr_buf st) (hr_pos st) (hr_pos st + count)) ;;
        let buffer := splice buffer from src in
        left <- lift (chk m u64 (bytes_left - count)) ;;
        p <- lift (chk m u32 (hr_pos st + u32 count)) ;;
        hr_set_pos p ;;;
        if 0 <? left then
          hr_refill ;;;
          st <- get ;;
          if hr_num_valid st =? 0 then fail (IoError UnexpectedEof)
          else hr_read_into_loop m fuel' buffer left
        else hr_read_into_loop m fuel' buffer left
    end
  else ret buffer.

(** src/input.rs:167-190 *)
Definition hr_read_into (m : build) (buffer : list Z) : M hreader (list Z) :=
  st <- get ;;
  hr_read_into_loop m (2 + length (hr_inner st)) buffer (len buffer).

(** The loop of src/input.rs:192-211, with fuel as above. *)
Fixpoint hr_skip_loop (m : build) (fuel : nat) (amount : Z) : M hreader unit :=
  if 0 <? amount then
    match fuel with
    | O => lift OutOfFuel
    | S fuel' =>
        st <- get ;;
        num_left <- lift (chk m u32 (hr_num_valid st - hr_pos st)) ;;
        let read_now := Z.min amount num_left in
        p <- lift (chk m u32 (hr_pos st + read_now)) ;;
        hr_set_pos p ;;;
        amount <- lift (chk m u32 (amount - read_now)) ;;
        if 0 <? amount then
          hr_refill ;;;
          st <- get ;;
          if hr_num_valid st =? 0 then fail (IoError UnexpectedEof)
          else hr_skip_loop m fuel' amount
        else hr_skip_loop m fuel' amount
    end
  else ret tt.

(** src/input.rs:192-211 *)
Definition hr_skip (m : build) (amount : Z) : M hreader unit :=
  st <- get ;;
  hr_skip_loop m (2 + length (hr_inner st)) amount.

(** src/input.rs:130-212 [impl ReadBytes for BufferedReader]. *)
Definition hr_rb (m : build) : ReadBytes hreader :=
  mkRB (hr_read_u8 m) (hr_read_u8_or_eof m) (hr_read_into m) (hr_skip m)
       (fun _ _ => ret tt).

(** * [io::Cursor<T>] with any [T: AsRef<[u8]>] *)

(** [as_ref] is a function that safe code provides and that is called again for every access:
    [hc_ref n] is the slice that the [n]-th call returns, [None] if this call panics.
    [hc_calls]: how many calls there were; [hc_pos]: the position.  src/input.rs:234. *)
Record hcursor := mkHC { hc_ref : nat -> option (list Z); hc_calls : nat; hc_pos : Z }.

(** [self.get_ref().as_ref()] (src/input.rs:238, :240, :248, :250, :258, :261, :271). *)
Definition hc_as_ref : M hcursor (list Z) := fun st =>
  (match hc_ref st (hc_calls st) with Some l => Ok l | None => Panic "as_ref" end,
   mkHC (hc_ref st) (S (hc_calls st)) (hc_pos st)).

(** [self.set_position(p)] (src/input.rs:239, :249, :262, :272). *)
Definition hc_set_position (p : Z) : M hcursor unit := fun st =>
  (Ok tt, mkHC (hc_ref st) (hc_calls st) p).

(** src/input.rs:236-244 *)
Definition hc_read_u8 (m : build) : M hcursor Z :=
  st <- get ;;
  l <- hc_as_ref ;;
  if hc_pos st <? len l then
    p <- lift (chk m u64 (hc_pos st + 1)) ;;
    hc_set_position p ;;;
    l <- hc_as_ref ;;
    lift (index l (hc_pos st))
  else fail (IoError UnexpectedEof).

(** src/input.rs:246-254 *)
Definition hc_read_u8_or_eof (m : build) : M hcursor (option Z) :=
  st <- get ;;
  l <- hc_as_ref ;;
  if hc_pos st <? len l then
    p <- lift (chk m u64 (hc_pos st + 1)) ;;
    hc_set_position p ;;;
    l <- hc_as_ref ;;
    b <- lift (index l (hc_pos st)) ;;
    ret (Some b)
  else ret None.

(** src/input.rs:256-267.  What is copied to [buffer] is as long as it, so [copy_from_slice]
    does not panic. *)
Definition hc_read_into (m : build) (buffer : list Z) : M hcursor (list Z) :=
  st <- get ;;
  e <- lift (chk m u64 (hc_pos st + len buffer)) ;;
  l <- hc_as_ref ;;
  if e <=? len l then
    l <- hc_as_ref ;;
    src <- lift (slice l (hc_pos st) e) ;;
    hc_set_position e ;;;
    ret src
  else fail (IoError UnexpectedEof).

(** src/input.rs:269-277 *)
Definition hc_skip (m : build) (amount : Z) : M hcursor unit :=
  st <- get ;;
  e <- lift (chk m u64 (hc_pos st + amount)) ;;
  l <- hc_as_ref ;;
  if e <=? len l then hc_set_position e
  else fail (IoError UnexpectedEof).

(** src/input.rs:234-278 *)
Definition hc_rb (m : build) : ReadBytes hcursor :=
  mkRB (hc_read_u8 m) (hc_read_u8_or_eof m) (hc_read_into m) (hc_skip m)
       (fun _ _ => ret tt).
