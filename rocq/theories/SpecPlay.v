(** What a program sees that mixes the ways of reading an open file, and goes on
    behind damaged frames. *)
From Verif Require Export SpecWhole SpecFault.
From Verif Require Import SpecReader.

(** Frames, and stretches in which the decoder finds a fault (SpecFault.v: the error,
    and the bytes that are gone afterwards). *)
Inductive item := Frame (h : header) (chs : list (list Z)) | Fault (e : error).
Inductive item_code : item -> list Z -> Prop :=
| code_frame : forall h chs w, frame_code h chs w -> item_code (Frame h chs) w
| code_fault : forall e w, frame_fault e w -> item_code (Fault e) w.

(** The audio part of a file; a single byte at the end counts for nothing. *)
Inductive items_code : list item -> list Z -> Prop :=
| items_over : forall l, bytes_ok l -> (length l <= 1)%nat -> items_code [] l
| items_and : forall i w its l, item_code i w -> items_code its l -> items_code (i :: its) (w ++ l).

(** * What the calls return *)

Inductive answer :=
| ABlock (f : option (header * list (list Z)))
| ASample (x : option Z)
| ADropped
| AError (e : error).

(** What is left: items; the samples of the block that the iterator is in the
    middle of; whether that iterator has met an error. *)
Record player := mkPlayer { p_items : list item; p_rest : list Z; p_failed : bool }.

(** At the end, [t] tells what the source does. *)
Definition when_over (t : tail) (a : answer) : answer :=
  match t with TEof => a | TErr _ => AError (tail_error t) end.

Definition answer_step (t : tail) (c : call) (p : player) : answer * player :=
  match c with
  | DropSamples => (ADropped, mkPlayer (p_items p) [] false)
  | ReadBlock _ =>
      match p_items p with
      | [] => (when_over t (ABlock None), mkPlayer [] [] false)
      | Frame h chs :: its => (ABlock (Some (h, chs)), mkPlayer its [] false)
      | Fault e :: its => (AError e, mkPlayer its [] false)
      end
  | NextSample =>
      if p_failed p then (ASample None, p)
      else match p_rest p with
           | x :: r => (ASample (Some x), mkPlayer (p_items p) r false)
           | [] =>
               match p_items p with
               | [] => (when_over t (ASample None), p)
               | Frame h chs :: its =>
                   match interleave (Z.to_nat (h_size h)) chs with
                   | x :: r => (ASample (Some x), mkPlayer its r false)
                   | [] => (ASample None, p) (* there are no empty frames *)
                   end
               | Fault e :: its => (AError e, mkPlayer its [] true)
               end
           end
  end.

(** Up to an I/O error. *)
Fixpoint answers (t : tail) (calls : list call) (p : player) : list answer :=
  match calls with
  | [] => []
  | c :: rest =>
      let (a, p') := answer_step t c p in
      match a with
      | AError (IoError _) => [a]
      | _ => a :: answers t rest p'
      end
  end.

Definition answered (r : outcome reply) (a : answer) : Prop :=
  match a with
  | ABlock None => r = Ok (GotBlock None)
  | ABlock (Some (h, chs)) => exists b, r = Ok (GotBlock (Some b)) /\ block_shows b h chs
  | ASample x => r = Ok (GotSample x)
  | ADropped => r = Ok Dropped
  | AError e => r = Err e
  end.

(** * A whole file with damaged frames *)
Definition damaged_file_code (si : stream_info) (vc : option vorbis_comment) (its : list item) (l : list Z) : Prop :=
  exists w l', well_formed si vc w /\ items_code its l' /\ l = w ++ l'.
