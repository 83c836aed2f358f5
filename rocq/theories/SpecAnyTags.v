(** The iterators over comments on any list of strings and indices, as anyone can make it: [Tags::new] and
    [GetTag::new] are public.  Used in statements. *)
From Verif Require Export SpecFile SpecOps.
From Verif Require Import SpecReader.

(** The string [s] is cut at the [i]-th byte into [a] and [b]; this cannot be done in the middle of
    a character. *)
Definition cut (s : list Z) (i : Z) (a b : list Z) : Prop := s = a ++ b /\ len a = i /\ utf8 a /\ utf8 b.
Definition no_cut (s : list Z) (i : Z) : Prop := forall a b, ~ cut s i a b.

(** The name is what precedes the index, the value what follows the byte there.  (It should be
    an equals sign, but this is not looked at.) *)
Definition name_of (c : list Z * Z) (name : list Z) : Prop := exists b, cut (fst c) (snd c) name b.
Definition value_of (c : list Z * Z) (value : list Z) : Prop := exists a, cut (fst c) (snd c + 1) a value.
Definition no_name (c : list Z * Z) : Prop := no_cut (fst c) (snd c).
Definition no_value (c : list Z * Z) : Prop := no_cut (fst c) (snd c + 1).

(** What any number of calls of [Tags::next] return: every comment is shown, or makes the call panic, and
    after the last one there is nothing. *)
Inductive lists : list (list Z * Z) -> list (outcome (option (list Z * list Z))) -> Prop :=
| lists_stop : forall cs, lists cs []
| lists_end : forall rs, lists [] rs -> lists [] (Ok None :: rs)
| lists_tag : forall c cs rs name value, name_of c name -> value_of c value -> lists cs rs ->
    lists (c :: cs) (Ok (Some (name, value)) :: rs)
| lists_bad : forall c cs rs why, no_name c \/ no_value c -> lists cs rs -> lists (c :: cs) (Panic why :: rs).

(** What any number of calls of [GetTag::next] return: the values of the comments of that name in order.  A comment
    without a name makes the call panic, and so does one of that name without a value; others are passed over. *)
Inductive finds (needle : list Z) : list (list Z * Z) -> list (outcome (option (list Z))) -> Prop :=
| finds_stop : forall cs, finds needle cs []
| finds_end : forall rs, finds needle [] rs -> finds needle [] (Ok None :: rs)
| finds_value : forall c cs rs name value, name_of c name -> same_name name needle -> value_of c value ->
    finds needle cs rs -> finds needle (c :: cs) (Ok (Some value) :: rs)
| finds_other : forall c cs rs name, name_of c name -> ~ same_name name needle ->
    finds needle cs rs -> finds needle (c :: cs) rs
| finds_no_name : forall c cs rs why, no_name c ->
    finds needle cs rs -> finds needle (c :: cs) (Panic why :: rs)
| finds_no_value : forall c cs rs name why, name_of c name -> same_name name needle -> no_value c ->
    finds needle cs rs -> finds needle (c :: cs) (Panic why :: rs).

(** The same result, up to the message of a panic. *)
Definition same_result {A} (a b : outcome A) : Prop := a = b \/ exists v w, a = Panic v /\ b = Panic w.
