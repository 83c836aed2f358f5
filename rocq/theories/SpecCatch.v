(** Panics that are caught.  Used in statements. *)
From Verif Require Export SpecApi ModelLib.
From Verif Require Import SpecReader.

(** A reader that has come to the end of its data stays there. *)
Definition ends_for_good {S} (rb : ReadBytes S) (D : S -> list Z -> Prop) : Prop := forall st, D st [] ->
  D (snd (read_u8 rb st)) [] /\ D (snd (read_u8_or_eof rb st)) [].

(** The reader stands behind some of the bytes [l], in order. *)
Definition behind {S} (D : S -> list Z -> Prop) (l : list Z) (st : S) : Prop := exists w l', l = w ++ l' /\ D st l'.

Definition caught {A} (o : outcome A) : Prop := exists w, o = Panic w.

(** What [samples()] returns if it is called with the reader in this state. *)
Definition begins {S} (it : flac_samples S) : Prop := forall r : flac_reader S,
  fr_blocks r = Ok (fs_frame_reader it) -> fr_samples r = Ok it.
