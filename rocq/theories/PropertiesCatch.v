(** * C103: going on after a panic (src/frame.rs, src/lib.rs)

    In debug builds some data make the decoder panic (C82).  This is about programs that catch the panic
    ([std::panic::catch_unwind]) and use the reader again, also several times. *)
From Verif Require Import SpecCatch ProofCatch.
From Verif Require Import SpecReader.

(** The readers here are those whose data ends: [std::io::Cursor], and [BufferedReader] over a source that ends. *)
Theorem C103_cursor : forall m, stream (cu_rb m) TEof cursor_at /\ ends_for_good (cu_rb m) cursor_at.
Proof. exact (fun m => conj (cu_stream m) (cursor_ends m)). Qed.
Theorem C103_buffered : forall m, stream (br_rb m) TEof (buffered TEof) /\ ends_for_good (br_rb m) (buffered TEof).
Proof. exact (fun m => conj (br_stream m TEof) (buffered_ends m)). Qed.

Section ForAllReaders.
  Context {S : Type} (rb : ReadBytes S) (D : S -> list Z -> Prop).

(** After any calls, whether they returned blocks or errors, or panicked, the reader stands behind some of the bytes, in
    order: no byte comes twice, and none is made up. *)
Theorem C103_calls : stream rb TEof D -> ends_for_good rb D -> forall m fuel buffers l st, D st l ->
  behind D l (snd (history_all (read_next_or_eof rb m fuel) buffers st)).
Proof. exact (fun HS HE m fuel buffers l st HD => calls_behind rb D HS HE m fuel l buffers st (ex_intro _ [] (ex_intro _ l (conj eq_refl HD)))). Qed.

(** Every call takes at least one byte, unless there is none, also if it panics... *)
Theorem C103_takes : stream rb TEof D -> ends_for_good rb D -> forall m fuel buffer b l st, D st (b :: l) ->
  behind D l (snd (read_next_or_eof rb m fuel buffer st)).
Proof. exact (next_takes rb D). Qed.
(** ...hence a program that goes on after errors and panics comes to the end of the data. *)
Theorem C103_ends : stream rb TEof D -> ends_for_good rb D -> forall m fuel buffers l st, D st l ->
  (length l <= length buffers)%nat -> D (snd (history_all (read_next_or_eof rb m fuel) buffers st)) [].
Proof. exact (calls_end rb D). Qed.

(** [samples()] and [into_samples()]: every [next()] returns or panics, the reader stands behind some of the bytes, and
    after a panic the iterator is what [samples()] returns for the reader at that place. *)
Theorem C103_samples : stream rb TEof D -> ends_for_good rb D -> forall m fuel (r : flac_reader S) s it l n,
  fr_blocks r = Ok s -> fr_samples r = Ok it \/ fr_into_samples r = Ok it -> D s l -> (length l < fuel)%nat ->
  let h := nexts (fs_next rb m fuel) n it in
  Forall (fun o => value_or_error o \/ caught o) (fst h)
  /\ behind D l (fs_frame_reader (snd h))
  /\ (caught (fst (fs_next rb m fuel (snd h))) -> begins (snd (fs_next rb m fuel (snd h)))).
Proof. exact (samples_caught rb D). Qed.
End ForAllReaders.

(** There are panics: a block read and an iterator. *)
Example C103_panics : exists l st fuel, cursor_at st l /\ (length l < fuel)%nat
  /\ caught (fst (read_next_or_eof (cu_rb Debug) Debug fuel (mkVec [] 0) st))
  /\ caught (fst (fs_next (cu_rb Debug) Debug fuel (mkFs st block_empty 0 0 false))).
Proof. exact (catch_exists (Z.to_nat (2 ^ 29)) (Z2Nat.id (2 ^ 29) ltac:(lia))). Qed.
(** After two errors the third call finds the frame. *)
Example C103_example : exists b,
  fst (history_all (read_next_or_eof (cu_rb Debug) Debug 100) (repeat (mkVec [] 0) 3) (mkCursor ([1; 2; 3; 4] ++ tiny_frame) 0))
  = [Err (FormatError "frame sync code missing"); Err (FormatError "frame sync code missing"); Ok (Some b)].
Proof. eexists. vm_compute. reflexivity. Qed.

Print Assumptions C103_cursor.
Print Assumptions C103_buffered.
Print Assumptions C103_calls.
Print Assumptions C103_takes.
Print Assumptions C103_ends.
Print Assumptions C103_samples.
