(** Model of [compare_metaflac_vorbis_comment] in /repo/tests/testsamples.rs.  Strings are
    their bytes.  What the program [metaflac] prints is a parameter. *)
From Verif Require Export ModelTests ModelBench.

(** [str::lines].  In older versions of Rust a carriage return at the end of a last line without
    newline is removed too; [bare] is whether it is kept.
    tests/testsamples.rs:106, :145. *)
Definition strip_cr (l : list Z) : list Z :=
  match rev l with
  | b :: r => if b =? 13 then rev r else l
  | [] => l
  end.
(** [line]: the line so far, last byte first.  tests/testsamples.rs:106, :145. *)
Fixpoint lines_from (bare : bool) (line s : list Z) : list (list Z) :=
  match s with
  | [] => match line with
          | [] => []
          | _ => [if bare then rev line else strip_cr (rev line)]
          end
  | b :: s => if b =? 10 then strip_cr (rev line) :: lines_from bare [] s
              else lines_from bare (b :: line) s
  end.
(** tests/testsamples.rs:106, :145: [lines()]. *)
Definition str_lines (bare : bool) (s : list Z) : list (list Z) := lines_from bare [] s.

(** [str::starts_with].  tests/testsamples.rs:111, :118, :135. *)
Fixpoint starts_with (prefix s : list Z) : bool :=
  match prefix, s with
  | [], _ => true
  | p :: prefix, b :: s => (p =? b) && starts_with prefix s
  | _, [] => false
  end.
(** [assert_eq!] on strings.  tests/testsamples.rs:119-158. *)
Definition assert_eq_str (a b : list Z) : outcome unit :=
  if list_eq_dec Z.eq_dec a b then Ok tt else Panic "assertion failed: `(left == right)`".

Section Comments.
  (** [fuel]: as in ModelPrograms.v. *)
  Context (m : build) (uninit : nat -> list Z) (fuel : nat) (bare : bool).

  (** tests/testsamples.rs:109-128: the lines after the one with the vendor string. *)
  Fixpoint compare_vendor (vendor : option (list Z)) (mf_lines : list (list Z)) : outcome (list (list Z)) :=
    match mf_lines with
    | [] => Ok []
    | line :: mf_lines =>
        let prefix := literal "  vendor string: " in
        if starts_with prefix line then
          mf_vendor_string <~ str_from line (len prefix) ;;
          if match vendor with Some x => starts_with [0] x | None => false end then
            _ <~ assert_eq_str [] mf_vendor_string ;;
            Ok mf_lines
          else
            match vendor with
            | Some x => _ <~ assert_eq_str x mf_vendor_string ;; Ok mf_lines
            | None => Panic "assertion failed: `(left == right)`"
            end
        else compare_vendor vendor mf_lines
    end.
  (** tests/testsamples.rs:132-161.  [value_lines]: what is left of [value_lines_iter] in the
      loop of lines 157-159; none left is the loop of line 133. *)
  Fixpoint compare_comments (value_lines mf_lines : list (list Z)) (tags : tags) : outcome unit :=
    match value_lines, mf_lines with
    | actual_line :: value_lines, line :: mf_lines =>
        _ <~ assert_eq_str actual_line line ;;
        compare_comments value_lines mf_lines tags
    | _ :: _, [] => Panic "unwrap"
    | [], line :: mf_lines =>
        let prefix := literal "    comment[" in
        if starts_with prefix line then
          mf_line <~ str_from line (len prefix) ;;
          prefix_sep_index <~ expect_some (position 32 mf_line 0) "unwrap" ;;
          mf_pair <~ str_from mf_line (prefix_sep_index + 1) ;;
          sep_index <~ expect_some (position 61 mf_pair 0) "unwrap" ;;
          mf_name <~ str_to mf_pair sep_index ;;
          mf_value <~ str_from mf_pair (sep_index + 1) ;;
          let (next, tags) := tags_next tags in
          next <~ next ;;
          pair <~ expect_some next "unwrap" ;;
          let value_lines := str_lines bare (snd pair) in
          _ <~ assert_eq_str (fst pair) mf_name ;;
          _ <~ assert_eq_str (hd [] value_lines) mf_value ;;
          compare_comments (tl value_lines) mf_lines tags
        else compare_comments [] mf_lines tags
    | [], [] => Ok tt
    end.
  (** tests/testsamples.rs:102-162.  [metaflac]: what the program prints. *)
  Definition compare_metaflac_vorbis_comment (fs : file_system) (fname metaflac : list Z) : outcome unit :=
    reader <~ expect (flac_open m uninit fuel fs fname) "unwrap" ;;
    mf_lines <~ compare_vendor (fr_vendor reader) (str_lines bare metaflac) ;;
    compare_comments [] mf_lines (fr_tags reader).
End Comments.
