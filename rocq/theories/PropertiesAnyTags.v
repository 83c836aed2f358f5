(** Properties of the iterators over comments, on any list of comments.

    [tags_new], [tags_next], [tags_size_hint], [get_tag_new], [get_tag_next]: ModelMetadata.v.  [lists], [finds],
    [name_of], [value_of], [no_name], [no_value], [same_result]: SpecAnyTags.v.  [utf8], [same_name]: SpecFile.v.
    [history_all]: SpecOps.v; it goes on after a panic, as code can that catches it. *)
From Verif Require Import SpecAnyTags ProofAnyTags.
From Verif Require Import SpecReader.

(** * C100: the tag iterators do what they say on any list of comments *)

(** [Tags]: one result for every comment, in order, then nothing.  The size hint is always exact. *)
Theorem C100_tags : forall n comments, Forall (fun c => utf8 (fst c)) comments ->
  let h := history_all (fun _ : unit => tags_next) (repeat tt n) (tags_new comments) in
  lists comments (fst h) /\ tags_size_hint (snd h) = (len (skipn n comments), Some (len (skipn n comments))).
Proof. exact tags_lists. Qed.
(** [GetTag]: the values of the comments of that name, in order, then nothing. *)
Theorem C100_get : forall needle n comments, Forall (fun c => utf8 (fst c)) comments ->
  finds needle comments (fst (history_all (fun _ : unit => get_tag_next) (repeat tt n) (get_tag_new comments needle))).
Proof. exact get_finds. Qed.
(** There is only one way to do so, apart from the message of a panic. *)
Theorem C100_tags_determined : forall comments rs, lists comments rs ->
  forall rs', lists comments rs' -> length rs = length rs' -> Forall2 same_result rs rs'.
Proof. exact lists_determined. Qed.
Theorem C100_get_determined : forall needle comments rs, finds needle comments rs ->
  forall rs', finds needle comments rs' -> length rs = length rs' -> Forall2 same_result rs rs'.
Proof. exact finds_determined. Qed.
(** A comment either has a name or it has none, and so for the value. *)
Theorem C100_cases : forall text sep, utf8 text ->
  ((exists name, name_of (text, sep) name) \/ no_name (text, sep))
  /\ ((exists value, value_of (text, sep) value) \/ no_value (text, sep)).
Proof. exact parts_cases. Qed.
(** A comment that has an equals sign where the index says so has both. *)
Theorem C100_good : forall name value, utf8 name -> utf8 value ->
  name_of (name ++ 61 :: value, len name) name /\ value_of (name ++ 61 :: value, len name) value.
Proof. exact good_parts. Qed.

(** ** Cases that meet the hypotheses *)

(** "A=1"; "é=2" with the index in the middle of the first character; "a" with the index behind its end; "AB" with no equals
    sign; "a=é". *)
Definition any_comments : list (list Z * Z) :=
  [([65; 61; 49], 1); ([195; 169; 61; 50], 1); ([97], 1); ([65; 66], 0); ([97; 61; 195; 169], 1)].
Example C100_example_utf8 : Forall (fun c => utf8 (fst c)) any_comments.
Proof.
  repeat apply Forall_cons; try apply Forall_nil; cbn [fst];
    [exists [65; 61; 49]|exists [233; 61; 50]|exists [97]|exists [65; 66]|exists [97; 61; 233]];
    (split; [|reflexivity]); repeat constructor; unfold scalar; lia.
Qed.
Example C100_example_tags : exists v w,
  fst (history_all (fun _ : unit => tags_next) (repeat tt 7) (tags_new any_comments))
  = [Ok (Some ([65], [49])); Panic v; Panic w; Ok (Some ([], [66])); Ok (Some ([97], [195; 169])); Ok None; Ok None].
Proof. eexists _, _. vm_compute. reflexivity. Qed.
Example C100_example_get : exists v w,
  fst (history_all (fun _ : unit => get_tag_next) (repeat tt 6) (get_tag_new any_comments [97]))
  = [Ok (Some [49]); Panic v; Panic w; Ok (Some [195; 169]); Ok None; Ok None].
Proof. eexists _, _. vm_compute. reflexivity. Qed.

Print Assumptions C100_tags.
Print Assumptions C100_get.
Print Assumptions C100_tags_determined.
Print Assumptions C100_get_determined.
Print Assumptions C100_cases.
Print Assumptions C100_good.
