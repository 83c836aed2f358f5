(** How much of its source a [BufferedReader] has taken.  Used in statements. *)
From Verif Require Export SpecOps SpecWhole.
From Verif Require Import SpecReader.

(** Of the script of [read] results, all but [left] was taken: chunks which the
    first [n] bytes need, and no more.  Without the last chunk that was taken, there are
    less than [n] bytes. *)
Definition taken_for (script : list event) (n : Z) (left : list event) : Prop :=
  exists chunks, script = map EvData chunks ++ left
    /\ n <= len (concat chunks)
    /\ (chunks = [] \/ len (concat (removelast chunks)) < n).

(** A [BufferedReader] made on [script], which delivers [all], that is about to
    deliver [l] and has taken from its source what was needed so far. *)
Definition lazily (t : tail) (script : list event) (all : list Z) (st : breader) (l : list Z) : Prop :=
  buffered t st l
  /\ exists used, all = used ++ l /\ taken_for script (len used) (br_into_inner st).

(** A [read] that returned no bytes took [before] to [after]: as an element of the script, or
    behind its end, where every [read] returns none. *)
Definition read_nothing (before after : list event) : Prop :=
  before = EvData [] :: after \/ (before = [] /\ after = []).

(** What a call reports: an I/O error, the end, [None] of an iterator that may have come to its
    end before, or anything else. *)
Inductive report := Failed (k : io_kind) | Ended | NoMore | Other.

(** One call took all but [after] of the script [before].  Each [read] that it made returned
    data, except for the last one if it reported an I/O error [k] or the end.  In the
    first case that [read] failed with [k], or [k] is [UnexpectedEof] and it returned no bytes.
    In the second case it returned no bytes.  An iterator that had come to its end before made
    no [read] at all. *)
Definition took (before : list event) (r : report) (after : list event) : Prop :=
  exists chunks rest, before = map EvData chunks ++ rest /\ Forall (fun c => c <> []) chunks
    /\ match r with
       | Failed k => rest = EvErr k :: after \/ (k = UnexpectedEof /\ read_nothing rest after)
       | Ended => read_nothing rest after
       | NoMore => read_nothing rest after \/ before = after
       | Other => rest = after
       end.

Definition io_failure {A} (o : outcome A) : option io_kind :=
  match o with Err (IoError k) => Some k | _ => None end.
Definition report_of {A} (o : outcome A) : report :=
  match o with Err (IoError k) => Failed k | _ => Other end.
(** The iterator over metadata blocks returns errors as items. *)
Definition item_report {A} (o : outcome (option (result A))) : report :=
  match o with
  | Ok (Some (RErr (IoError k))) => Failed k
  | o => report_of o
  end.
(** Some operations report the end. *)
Definition op_report (o : outcome byte_result) : report :=
  match o with Ok RNone => Ended | o => report_of o end.
Definition call_report (o : outcome reply) : report :=
  match o with
  | Ok (GotBlock None) => Ended
  | Ok (GotSample None) => NoMore
  | o => report_of o
  end.
