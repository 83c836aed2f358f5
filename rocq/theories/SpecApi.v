(** What the results of the API say, in the terms of the format. *)
From Verif Require Export SpecOps SpecFrame ModelFrame.

(** The block stands for the frame with header [h] and channels [chs]. *)
Definition block_shows (b : block) (h : header) (chs : list (list Z)) : Prop :=
  block_time_of b = header_time h
  /\ block_duration b = h_size h
  /\ block_channels b = channel_count (h_assignment h)
  /\ len chs = channel_count (h_assignment h)
  /\ Forall (fun c => len c = h_size h) chs
  /\ v_items (block_into_buffer b) = concat chs.

(** A result of [read_next_or_eof] that stands for a frame. *)
Definition shows_frame (r : outcome (option block)) (f : header * list (list Z)) : Prop :=
  exists b, r = Ok (Some b) /\ block_shows b (fst f) (snd f).

(** [b] is a block with the channels [chs]. *)
Definition block_holds (b : block) (chs : list (list Z)) : Prop :=
  1 <= block_channels b <= 8 /\ 1 <= block_duration b <= 65535
  /\ block_channels b = len chs
  /\ Forall (fun c => len c = block_duration b) chs
  /\ v_items (block_into_buffer b) = concat chs.

(** The samples of [n] points in time, each with one sample per channel. *)
Definition interleave (n : nat) (chs : list (list Z)) : list Z :=
  flat_map (fun i => map (fun c => nth i c 0) chs) (seq 0 n).

(** [next()] called [n] times on an iterator. *)
Definition nexts {S A} (next : M S (option A)) (n : nat) (st : S)
    : list (outcome (option A)) * S :=
  history_all (fun _ : unit => next) (repeat tt n) st.

(** What calls of [next()] give: the items of [l], then [None] for ever. *)
Definition yields {S A} (next : M S (option A)) (st : S) (l : list A) : Prop :=
  forall n, fst (nexts next n st) = firstn n (map (fun x => Ok (Some x)) l ++ repeat (Ok None) n).

(** The usual loop over the blocks: call [read_next_or_eof], each time with the
    buffer of the last block, until it does not return a block.  [bs] are the
    blocks, [last] is the last result and [s'] the state of the reader then. *)
Inductive blocks_read {S} (rb : ReadBytes S) (m : build) (fuel : nat)
    : vec -> S -> list block -> outcome (option block) -> S -> Prop :=
| read_last : forall buffer s last s',
    read_next_or_eof rb m fuel buffer s = (last, s') -> (forall b, last <> Ok (Some b)) ->
    blocks_read rb m fuel buffer s [] last s'
| read_one : forall buffer s b s1 bs last s',
    read_next_or_eof rb m fuel buffer s = (Ok (Some b), s1) ->
    blocks_read rb m fuel (block_into_buffer b) s1 bs last s' ->
    blocks_read rb m fuel buffer s (b :: bs) last s'.

(** The samples of a block in the order of time. *)
Definition block_interleaved (b : block) (l : list Z) : Prop :=
  exists chs, block_holds b chs /\ l = interleave (Z.to_nat (block_duration b)) chs.

(** The decoded header carries the values of [h]. *)
Definition header_shows (fh : frame_header) (h : header) : Prop :=
  fh_block_time fh = (if h_variable h then SampleNumber (h_number h) else FrameNumber (h_number h))
  /\ fh_block_size fh = h_size h
  /\ fh_sample_rate fh = h_rate h
  /\ fh_channels fh = channel_count (h_assignment h)
  /\ fh_channel_assignment fh = match h_assignment h with
                                | Separate n => Independent n
                                | LeftSide => LeftSideStereo
                                | SideRight => RightSideStereo
                                | MidSide => MidSideStereo
                                end
  /\ fh_bits_per_sample fh = h_width h.

(** A reader's state determines what it still delivers. *)
Definition unambiguous {S} (D : S -> list Z -> Prop) : Prop :=
  forall st l l', D st l -> D st l' -> l = l'.

(** Operations that the CRC readers support. *)
Definition crc_op (o : byte_op) : Prop :=
  match o with OpInto _ | OpSkip _ => False | _ => True end.
