(** Files that end too early, or that are damaged from some place on. *)
From Verif Require Export SpecAnyPlay.
From Verif Require Import SpecReader.

(** Playing stopped because of the bytes that were there, not because they came to an end:
    at a fault, or with a panic. *)
Definition for_good (o : ending) : Prop :=
  match o with
  | AtEnd | OnError (IoError _) => False
  | OnError _ | OnPanic => True
  end.

(** How playing stops when a source that ends with [t] breaks off behind [part], the beginning
    of a frame. *)
Definition cut_ending (t : tail) (part : list Z) : ending :=
  match t with
  | TEof => if (length part <=? 1)%nat then AtEnd else OnError (IoError UnexpectedEof)
  | TErr k => OnError (IoError k)
  end.

(** The beginning of something, but not all of it. *)
Definition begins {A} (part whole : list A) : Prop := exists x, x <> [] /\ whole = part ++ x.
