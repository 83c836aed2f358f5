(** The examples in the documentation, the programs that measure and the comparisons of the
    tests, with any file. *)
From Verif Require Export SpecAnyPlay SpecMains2 SpecTests.
From Verif Require Import SpecReader.

(** How a program ends that panics on errors. *)
Definition ends_or_panics {A} (o : ending) (x : A) (r : outcome A) : Prop :=
  match o with
  | AtEnd => r = Ok x
  | OnError _ | OnPanic => exists why, r = Panic why
  end.

(** A file that [bench_decode] can measure: all of it plays, there is at least one frame,
    and the streaminfo has the number of samples. *)
Definition any_measurable (m : build) (t : tail) (data : list Z) (si : stream_info) (n : Z) (metadata : list Z)
    (frames : list (header * list (list Z))) : Prop :=
  t = TEof /\ (exists vc rest, data = metadata ++ rest /\ well_formed si vc metadata /\ any_plays m TEof rest frames AtEnd)
  /\ si_samples si = Some n /\ frames <> [].
