(** Model of src/input.rs. *)
From Verif Require Export ModelBase.

(** * The [ReadBytes] trait *)

(** src/input.rs:71-84, the required methods.  [read_into] receives the old
    contents of the buffer and returns the new contents; its contents after an
    error are not modelled (all callers in the crate drop it).
    [rb_alloc count size] is not part of the trait: it is a ghost hook called
    where the Rust code requests memory for [count] elements of [size] bytes, so
    that allocation can be stated as a property.  It does nothing for real
    readers. *)
Record ReadBytes (S : Type) := mkRB {
  read_u8 : M S Z;
  read_u8_or_eof : M S (option Z);
  read_into : list Z -> M S (list Z);
  skip : Z -> M S unit;
  rb_alloc : Z -> Z -> M S unit
}.
Arguments mkRB {S}.
Arguments read_u8 {S} _ _.
Arguments read_u8_or_eof {S} _ _.
Arguments read_into {S} _ _ _.
Arguments skip {S} _ _ _.
Arguments rb_alloc {S} _ _ _ _.

Section Provided.
  Context {S : Type} (rb : ReadBytes S).

  (** src/input.rs:87-91 *)
  Definition read_be_u16 : M S Z :=
    b0 <- read_u8 rb ;;
    b1 <- read_u8 rb ;;
    ret (Z.lor (u16 (Z.shiftl b0 8)) b1).

  (** src/input.rs:94-101 *)
  Definition read_be_u16_or_eof : M S (option Z) :=
    o0 <- read_u8_or_eof rb ;;
    match o0 with
    | Some b0 =>
        o1 <- read_u8_or_eof rb ;;
        match o1 with
        | Some b1 => ret (Some (Z.lor (u16 (Z.shiftl b0 8)) b1))
        | None => ret None
        end
    | None => ret None
    end.

  (** src/input.rs:104-109 *)
  Definition read_be_u24 : M S Z :=
    b0 <- read_u8 rb ;;
    b1 <- read_u8 rb ;;
    b2 <- read_u8 rb ;;
    ret (Z.lor (Z.lor (u32 (Z.shiftl b0 16)) (u32 (Z.shiftl b1 8))) b2).

  (** src/input.rs:112-118 *)
  Definition read_be_u32 : M S Z :=
    b0 <- read_u8 rb ;;
    b1 <- read_u8 rb ;;
    b2 <- read_u8 rb ;;
    b3 <- read_u8 rb ;;
    ret (Z.lor (Z.lor (Z.lor (u32 (Z.shiftl b0 24)) (u32 (Z.shiftl b1 16)))
                      (u32 (Z.shiftl b2 8))) b3).

  (** src/input.rs:121-127 *)
  Definition read_le_u32 : M S Z :=
    b0 <- read_u8 rb ;;
    b1 <- read_u8 rb ;;
    b2 <- read_u8 rb ;;
    b3 <- read_u8 rb ;;
    ret (Z.lor (Z.lor (Z.lor (u32 (Z.shiftl b3 24)) (u32 (Z.shiftl b2 16)))
                      (u32 (Z.shiftl b1 8))) b0).
End Provided.

(** * [BufferedReader] *)

(** One result of [inner.read(&mut buf)], [inner] being any [io::Read].
    src/input.rs:137, :157, :181, :202. *)
Inductive event := EvData (l : list Z) | EvErr (k : io_kind).

(** src/input.rs:24-36.  [br_inner] is the script of results the wrapped reader
    will give, one per [read] call; when it is used up, [read] returns 0
    bytes. *)
Record breader := mkBR {
  br_inner : list event;
  br_buf : list Z;
  br_pos : Z;
  br_num_valid : Z
}.

(** src/input.rs:46-47 (for the [fuzzing] configuration see ModelFuzzing.v). *)
Definition CAPACITY : Z := 2048.

(** src/input.rs:41-59 *)
Definition br_new (inner : list event) : breader :=
  mkBR inner (repeat 0 (Z.to_nat CAPACITY)) 0 0.

(** src/input.rs:64-66 *)
Definition br_into_inner (st : breader) : list event := br_inner st.

(** [self.inner.read(&mut self.buf)]: stores the bytes in the buffer (as many
    as fit; more would break the [io::Read] contract) and returns their number.
    Simplification: the rest of the buffer, and all of it if the call fails, stays as it
    was; sources that do otherwise are in ModelHostile.v.
    src/input.rs:137, :157, :181, :202. *)
Definition inner_read : M breader Z := fun st =>
  match br_inner st with
  | [] => (Ok 0, st)
  | EvErr k :: r =>
      (Err (IoError k), mkBR r (br_buf st) (br_pos st) (br_num_valid st))
  | EvData l :: r =>
      (Ok (len l),
       mkBR r (firstn (length (br_buf st)) (l ++ skipn (length l) (br_buf st)))
            (br_pos st) (br_num_valid st))
  end.

(** [self.pos = p] (src/input.rs:136, :149, :176, :196). *)
Definition br_set_pos (p : Z) : M breader unit := fun st =>
  (Ok tt, mkBR (br_inner st) (br_buf st) p (br_num_valid st)).
(** [self.num_valid = n] (src/input.rs:137, :157, :181, :202). *)
Definition br_set_num_valid (n : Z) : M breader unit := fun st =>
  (Ok tt, mkBR (br_inner st) (br_buf st) (br_pos st) n).

(** [self.pos = 0; self.num_valid = try!(self.inner.read(&mut self.buf)) as u32;]
    as in src/input.rs:136-137, 156-157, 180-181 and 201-202. *)
Definition br_refill : M breader unit :=
  br_set_pos 0 ;;;
  n <- inner_read ;;
  br_set_num_valid (u32 n).

(** src/input.rs:133-151 *)
Definition br_read_u8 (m : build) : M breader Z :=
  st <- get ;;
  (if br_pos st =? br_num_valid st then
     br_refill ;;;
     st <- get ;;
     if br_num_valid st =? 0 then fail (IoError UnexpectedEof) else ret tt
   else ret tt) ;;;
  st <- get ;;
  byte <- lift (index_unchecked (br_buf st) (br_pos st)) ;;
  p <- lift (chk m u32 (br_pos st + 1)) ;;
  br_set_pos p ;;;
  ret byte.

(** src/input.rs:153-165 *)
Definition br_read_u8_or_eof (m : build) : M breader (option Z) :=
  st <- get ;;
  eof <- (if br_pos st =? br_num_valid st then
            br_refill ;;;
            st <- get ;;
            ret (br_num_valid st =? 0)
          else ret false) ;;
  if (eof : bool) then ret None
  else b <- br_read_u8 m ;; ret (Some b).

(** The loop of src/input.rs:167-190.  Every iteration but the last takes an
    element off the script (or fails), so the length of the script is enough
    fuel. *)
Fixpoint br_read_into_loop (m : build) (fuel : nat) (buffer : list Z)
    (bytes_left : Z) : M breader (list Z) :=
  if 0 <? bytes_left then
    match fuel with
    | O => lift OutOfFuel
    | S fuel' =>
        st <- get ;;
        from <- lift (chk m u64 (len buffer - bytes_left)) ;;
        avail <- lift (chk m u32 (br_num_valid st - br_pos st)) ;;
        let count := Z.min bytes_left avail in
        _dst <- lift (slice buffer from (from + count)) ;;
        src <- lift (slice (br_buf st) (br_pos st) (br_pos st + count)) ;;
        let buffer := splice buffer from src in
        left <- lift (chk m u64 (bytes_left - count)) ;;
        p <- lift (chk m u32 (br_pos st + u32 count)) ;;
        br_set_pos p ;;;
        if 0 <? left then
          br_refill ;;;
          st <- get ;;
          if br_num_valid st =? 0 then fail (IoError UnexpectedEof)
          else br_read_into_loop m fuel' buffer left
        else br_read_into_loop m fuel' buffer left
    end
  else ret buffer.

(** src/input.rs:167-190 *)
Definition br_read_into (m : build) (buffer : list Z) : M breader (list Z) :=
  st <- get ;;
  br_read_into_loop m (2 + length (br_inner st)) buffer (len buffer).

(** The loop of src/input.rs:192-211, with fuel as above. *)
Fixpoint br_skip_loop (m : build) (fuel : nat) (amount : Z) : M breader unit :=
  if 0 <? amount then
    match fuel with
    | O => lift OutOfFuel
    | S fuel' =>
        st <- get ;;
        num_left <- lift (chk m u32 (br_num_valid st - br_pos st)) ;;
        let read_now := Z.min amount num_left in
        p <- lift (chk m u32 (br_pos st + read_now)) ;;
        br_set_pos p ;;;
        amount <- lift (chk m u32 (amount - read_now)) ;;
        if 0 <? amount then
          br_refill ;;;
          st <- get ;;
          if br_num_valid st =? 0 then fail (IoError UnexpectedEof)
          else br_skip_loop m fuel' amount
        else br_skip_loop m fuel' amount
    end
  else ret tt.

(** src/input.rs:192-211 *)
Definition br_skip (m : build) (amount : Z) : M breader unit :=
  st <- get ;;
  br_skip_loop m (2 + length (br_inner st)) amount.

(** src/input.rs:130-212 [impl ReadBytes for BufferedReader].  The impl for
    [&mut R] (src/input.rs:214-232) forwards every call, so a borrowed reader is
    modelled by the same record. *)
Definition br_rb (m : build) : ReadBytes breader :=
  mkRB (br_read_u8 m) (br_read_u8_or_eof m) (br_read_into m) (br_skip m)
       (fun _ _ => ret tt).

(** * [io::Cursor] *)

(** [std::io::Cursor]: the data and a u64 position.  src/input.rs:234. *)
Record cursor := mkCursor { cu_data : list Z; cu_pos : Z }.

(** [self.set_position(p)] (src/input.rs:239, :249, :262, :272). *)
Definition cu_set_position (p : Z) : M cursor unit := fun st =>
  (Ok tt, mkCursor (cu_data st) p).

(** src/input.rs:236-244 *)
Definition cu_read_u8 (m : build) : M cursor Z :=
  st <- get ;;
  if cu_pos st <? len (cu_data st) then
    p <- lift (chk m u64 (cu_pos st + 1)) ;;
    cu_set_position p ;;;
    lift (index (cu_data st) (cu_pos st))
  else fail (IoError UnexpectedEof).

(** src/input.rs:246-254 *)
Definition cu_read_u8_or_eof (m : build) : M cursor (option Z) :=
  st <- get ;;
  if cu_pos st <? len (cu_data st) then
    p <- lift (chk m u64 (cu_pos st + 1)) ;;
    cu_set_position p ;;;
    b <- lift (index (cu_data st) (cu_pos st)) ;;
    ret (Some b)
  else ret None.

(** src/input.rs:256-267 *)
Definition cu_read_into (m : build) (buffer : list Z) : M cursor (list Z) :=
  st <- get ;;
  e <- lift (chk m u64 (cu_pos st + len buffer)) ;;
  if e <=? len (cu_data st) then
    src <- lift (slice (cu_data st) (cu_pos st) (cu_pos st + len buffer)) ;;
    cu_set_position e ;;;
    ret src
  else fail (IoError UnexpectedEof).

(** src/input.rs:269-277 *)
Definition cu_skip (m : build) (amount : Z) : M cursor unit :=
  st <- get ;;
  e <- lift (chk m u64 (cu_pos st + amount)) ;;
  if e <=? len (cu_data st) then cu_set_position e
  else fail (IoError UnexpectedEof).

(** src/input.rs:234-278 *)
Definition cu_rb (m : build) : ReadBytes cursor :=
  mkRB (cu_read_u8 m) (cu_read_u8_or_eof m) (cu_read_into m) (cu_skip m)
       (fun _ _ => ret tt).

(** * [Bitstream] *)

(** src/input.rs:396-402 *)
Definition shift_left (m : build) (x shift : Z) : outcome Z :=
  _ <~ debug_assert m (shift <=? 8) ;;
  r <~ shl m u32 32 x shift ;;
  Ok (u8 r).

(** src/input.rs:406-412 *)
Definition shift_right (m : build) (x shift : Z) : outcome Z :=
  _ <~ debug_assert m (shift <=? 8) ;;
  r <~ shr m 32 x shift ;;
  Ok (u8 r).

(** src/input.rs:415-422 *)
Record bitstream (S : Type) := mkBS {
  bs_reader : S;
  bs_data : Z;
  bs_bits_left : Z
}.
Arguments mkBS {S}.
Arguments bs_reader {S}.
Arguments bs_data {S}.
Arguments bs_bits_left {S}.

(** src/input.rs:426-432 *)
Definition bs_new {S} (reader : S) : bitstream S := mkBS reader 0 0.

(** src/input.rs:436-440 *)
Definition mask_u8 (m : build) (bits : Z) : outcome Z :=
  _ <~ debug_assert m (bits <=? 8) ;;
  s <~ chk m u32 (8 - bits) ;;
  shift_left m 255 s.

(** [u8::leading_zeros].  src/input.rs:478, :499. *)
Definition leading_zeros_u8 (x : Z) : Z :=
  if x <=? 0 then 8 else 7 - Z.log2 x.

Section Bitstream.
  Context {S : Type} (rb : ReadBytes S) (m : build) (fuel : nat).

  (** [self.reader.read_u8()] (src/input.rs:451, :498, :526, :573, :590). *)
  Definition bs_read_u8 : M (bitstream S) Z := fun st =>
    let (o, r) := read_u8 rb (bs_reader st) in
    (o, mkBS r (bs_data st) (bs_bits_left st)).
  (** [self.data = data; self.bits_left = bits_left] (src/input.rs:447-600). *)
  Definition bs_set (data bits_left : Z) : M (bitstream S) unit := fun st =>
    (Ok tt, mkBS (bs_reader st) data bits_left).

  (** src/input.rs:447-468 *)
  Definition read_bit : M (bitstream S) bool :=
    st <- get ;;
    result <-
      (if bs_bits_left st =? 0 then
         fresh_byte <- bs_read_u8 ;;
         bs_set (u8 (Z.shiftl fresh_byte 1)) 7 ;;;
         ret (Z.land fresh_byte 128)
       else
         let bit := Z.land (bs_data st) 128 in
         bl <- lift (chk m u32 (bs_bits_left st - 1)) ;;
         bs_set (u8 (Z.shiftl (bs_data st) 1)) bl ;;;
         ret bit) ;;
    ret (negb (result =? 0)).

  (** The loop at src/input.rs:497-507, [n] being the count so far. *)
  Fixpoint read_unary_loop (fuel : nat) (n : Z) : M (bitstream S) Z :=
    match fuel with
    | O => lift OutOfFuel
    | Datatypes.S fuel' =>
        fresh_byte <- bs_read_u8 ;;
        let zeros := leading_zeros_u8 fresh_byte in
        n <- lift (chk m u32 (n + zeros)) ;;
        if zeros <? 8 then
          bl <- lift (chk m u32 (8 - (zeros + 1))) ;;
          data <- lift (shift_left m fresh_byte (zeros + 1)) ;;
          bs_set data bl ;;;
          ret n
        else read_unary_loop fuel' n
    end.

  (** src/input.rs:475-511 *)
  Definition read_unary : M (bitstream S) Z :=
    st <- get ;;
    let n := leading_zeros_u8 (bs_data st) in
    if n <? bs_bits_left st then
      data <- lift (shl m u8 8 (bs_data st) (n + 1)) ;;
      bl <- lift (chk m u32 (bs_bits_left st - (n + 1))) ;;
      bs_set data bl ;;;
      ret n
    else read_unary_loop fuel (bs_bits_left st).

  (** src/input.rs:515-558 *)
  Definition read_leq_u8 (bits : Z) : M (bitstream S) Z :=
    lift (debug_assert m (bits <=? 8)) ;;;
    st <- get ;;
    result <-
      (if bs_bits_left st <? bits then
         let msb := bs_data st in
         data <- bs_read_u8 ;;
         bs_set data (bs_bits_left st) ;;;
         need <- lift (chk m u32 (bits - bs_bits_left st)) ;;
         mask <- lift (mask_u8 m need) ;;
         lsb <- lift (shr m 8 (Z.land data mask) (bs_bits_left st)) ;;
         data <- lift (shift_left m data need) ;;
         bl <- lift (chk m u32 (8 - need)) ;;
         bs_set data bl ;;;
         ret (Z.lor msb lsb)
       else
         mask <- lift (mask_u8 m bits) ;;
         let result := Z.land (bs_data st) mask in
         data <- lift (shl m u8 8 (bs_data st) bits) ;;
         bl <- lift (chk m u32 (bs_bits_left st - bits)) ;;
         bs_set data bl ;;;
         ret result) ;;
    st <- get ;;
    lift (debug_assert m (bs_bits_left st <? 8)) ;;;
    (match m with
     | Debug =>
         mask <- lift (mask_u8 m (bs_bits_left st)) ;;
         lift (debug_assert m (Z.land (bs_data st) (255 - mask) =? 0))
     | Release => ret tt
     end) ;;;
    s <- lift (chk m u32 (8 - bits)) ;;
    lift (shift_right m result s).

  (** src/input.rs:562-602 *)
  Definition read_gt_u8_leq_u16 (bits : Z) : M (bitstream S) Z :=
    lift (debug_assert m ((8 <? bits) && (bits <=? 16))) ;;;
    st <- get ;;
    sh <- lift (chk m u32 (bits - bs_bits_left st)) ;;
    mask_msb <- lift (shl m u32 32 4294967295 sh) ;;
    sh8 <- lift (chk m u32 (bits - 8)) ;;
    msb0 <- lift (shl m u32 32 (bs_data st) sh8) ;;
    let msb := Z.land msb0 mask_msb in
    bits_to_read <- lift (chk m u32 (bits - bs_bits_left st)) ;;
    fresh_byte <- bs_read_u8 ;;
    lsb <- lift (if 8 <=? bits_to_read
                 then shl m u32 32 fresh_byte (bits_to_read - 8)
                 else shr m 32 fresh_byte (8 - bits_to_read)) ;;
    let combined := Z.lor msb lsb in
    if bits_to_read <=? 8 then
      let bl := 8 - bits_to_read in
      (* wrapping_shl masks the shift amount *)
      let data := u8 (u32 (Z.shiftl fresh_byte ((8 - bl) mod 32))) in
      bs_set data bl ;;;
      ret combined
    else
      fresher_byte <- bs_read_u8 ;;
      sh2 <- lift (chk m u32 (16 - bits_to_read)) ;;
      lsb <- lift (shr m 32 fresher_byte sh2) ;;
      let bl := sh2 in
      bl8 <- lift (chk m u32 (8 - bl)) ;;
      let data := u8 (u32 (Z.shiftl fresher_byte (bl8 mod 32))) in
      bs_set data bl ;;;
      ret (Z.lor combined lsb).

  (** src/input.rs:606-622 *)
  Definition read_leq_u16 (bits : Z) : M (bitstream S) Z :=
    lift (debug_assert m (bits <=? 16)) ;;;
    if bits <=? 8 then read_leq_u8 bits
    else
      msb <- read_leq_u8 8 ;;
      lsb <- read_leq_u8 (bits - 8) ;;
      hi <- lift (shl m u16 16 msb (bits - 8)) ;;
      ret (Z.lor hi lsb).

  (** src/input.rs:626-642 *)
  Definition read_leq_u32 (bits : Z) : M (bitstream S) Z :=
    lift (debug_assert m (bits <=? 32)) ;;;
    if bits <=? 16 then read_leq_u16 bits
    else
      msb <- read_leq_u16 16 ;;
      lsb <- read_leq_u16 (bits - 16) ;;
      hi <- lift (shl m u32 32 msb (bits - 16)) ;;
      ret (Z.lor hi lsb).
End Bitstream.

(** Running a computation on [Bitstream::new(&mut reader)] and dropping the
    bitstream afterwards.  src/frame.rs:701-750. *)
Definition with_bitstream {S A} (c : M (bitstream S) A) : M S A := fun s =>
  let (o, st) := c (bs_new s) in (o, bs_reader st).
