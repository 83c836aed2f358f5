(** Debug and release builds of the same program. *)
From Verif Require Export SpecOps SpecWhole.

Definition panicked {A} (o : outcome A) : Prop := exists w, o = Panic w.

(** The results of a sequence of calls in a debug build and in a release build: the
    same, up to the call in which the debug build panics, if there is one. *)
Inductive alike_until_panic {A} : list (outcome A) -> list (outcome A) -> Prop :=
| alike_end : alike_until_panic [] []
| alike_next : forall r debug release,
    alike_until_panic debug release -> alike_until_panic (r :: debug) (r :: release)
| alike_panic : forall w debug r release,
    alike_until_panic (Panic w :: debug) (r :: release).
