(** What [metaflac --list] prints for a block of Vorbis comments, and what comparing with it is
    expected to find out. *)
From Verif Require Export SpecTests SpecBench ModelComments.
From Verif Require Import SpecReader.

(** Decimal digits: no leading zeros, the value is [n]. *)
Fixpoint digits_value (l : list Z) (acc : Z) : Z :=
  match l with [] => acc | d :: l => digits_value l (10 * acc + (d - 48)) end.
Definition digits (n : Z) (l : list Z) : Prop :=
  l <> [] /\ Forall (fun d => 48 <= d <= 57) l /\ digits_value l 0 = n.

(** The lines for the comments, numbered from [i]. *)
Inductive comments_printed : Z -> list comment -> list Z -> Prop :=
| printed_none : forall i, comments_printed i [] []
| printed_comment : forall i num c cs w, digits i num -> comments_printed (i + 1) cs w ->
    comments_printed i (c :: cs)
      (text "    comment[" ++ num ++ text "]: " ++ comment_text c ++ [10] ++ w).

(** All that is printed: some lines with the type and length of the block; the vendor; the
    number of comments; and the comments. *)
Definition front_line (l : list Z) : Prop :=
  ~ In 10 l /\ forall r, l <> text "  vendor string: " ++ r.
Definition printed (vendor : list Z) (cs : list comment) (w : list Z) : Prop :=
  exists front num w', Forall front_line front /\ digits (len cs) num /\ comments_printed 0 cs w'
    /\ w = flat_map (fun l => l ++ [10]) front ++ text "  vendor string: " ++ vendor ++ [10]
           ++ text "  comments: " ++ num ++ [10] ++ w'.

(** A program in C prints nothing of a vendor that starts with a null byte. *)
Definition vendor_in_c (vendor : list Z) : list Z :=
  match vendor with 0 :: _ => [] | _ => vendor end.

(** On one line, and not changed by [str::lines]. *)
Definition ends_with (b : Z) (l : list Z) : Prop := exists l', l = l' ++ [b].
Definition one_line (l : list Z) : Prop := ~ In 10 l /\ ~ ends_with 13 l.

(** Text without carriage returns, no line of which, but perhaps the first, looks like a listed comment. *)
Definition plain_value (v : list Z) : Prop :=
  ~ In 13 v /\ forall a b, v <> a ++ [10] ++ text "    comment[" ++ b.
(** The value [v] of the file agrees with the listed value [v'] as far as it goes: after [v],
    without the newline at its end if there is one, a line ends in the listing. *)
Definition value_listed (v v' : list Z) : Prop :=
  exists v0 x, (v = v0 \/ v = v0 ++ [10]) /\ v' ++ [10] = v0 ++ [10] ++ x.
(** The comments of a file agree with the listed ones. *)
Definition comments_listed (cs cs' : list comment) : Prop :=
  exists cs1 more, cs = cs1 ++ more
    /\ Forall2 (fun c c' => fst c = fst c' /\ value_listed (snd c) (snd c')) cs1 cs'.
