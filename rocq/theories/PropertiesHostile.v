(** Properties of the crate in the hands of any safe code.

    [hevent] (ModelHostile.v): what one [read] call of any implementation of [io::Read]
    does, namely the number that it returns, or its error, and the contents of the buffer
    afterwards; [hr_rb]: [BufferedReader] over such a source; [hc_rb]: [Cursor] over any [AsRef].  [possible], [within],
    [handed_over], [plain], [not_ub], [reader_sound], [overwrites], [uninitialised]:
    SpecHostile.v.  [run_byte_op], [history], [history_all]: SpecOps.v; [session_step]: SpecWhole.v;
    [nexts]: SpecApi.v.  [un]: what memory that was not initialised holds. *)
From Verif Require Import SpecHostile SpecFile ProofUnseen.
From Verif Require PropertiesMeta.
From Verif Require Import SpecReader.

(** * C98: safe code cannot cause undefined behaviour *)

(** ** It fails for sources *)

(** A metadata section with a padding block that ends with the buffer.  The source says that it
    returned 4096 bytes, in a buffer of 2048. *)
Definition overclaimed : list Z :=
  signature ++ [0; 0; 0; 34] ++ PropertiesMeta.info_bytes ++ [1; 0; 7; 210] ++ repeat 0 2002.
Theorem C98_source_witness : Forall possible [HRead 4096 overclaimed] /\ forall m un fuel,
  open_any m un (2 + fuel) [HRead 4096 overclaimed] default_options = UB "get_unchecked out of bounds".
Proof.
  split.
  - constructor; [|constructor]. split; [lia|]. split; [|vm_compute; reflexivity]. apply is_bytes_ok. vm_compute. reflexivity.
  - intros [|] un fuel; vm_compute; reflexivity.
Qed.
Theorem C98_sources_refuted : ~ sources_are_harmless.
Proof.
  exact (fun H => H Debug (repeat 0) 2%nat _ default_options
    (uninitialised_repeat 0 ltac:(unfold is_byte; lia)) (proj1 C98_source_witness)
    _ (proj2 C98_source_witness Debug (repeat 0) 0%nat)).
Qed.

(** Exactly when: a source that claims more than the 2048 bytes of the buffer, in the lower 32 bits of the
    number.  The bytes in the buffer are read as usual, and the next byte is read from behind it. *)
Theorem C98_overrun : forall m n, 2048 < n mod 2 ^ 32 -> forall script buf, len buf = 2048 ->
  history (run_byte_op (hr_rb m)) (repeat OpU8 2048) (hr_new (HRead n buf :: script))
  = (map (fun b => Ok (RNum b)) buf, mkHR script buf 2048 (n mod 2 ^ 32))
  /\ forall o, In o [OpU8; OpU8OrEof; OpBe16; OpBe16OrEof; OpBe24; OpBe32; OpLe32] ->
     exists why, fst (run_byte_op (hr_rb m) o (mkHR script buf 2048 (n mod 2 ^ 32))) = UB why.
Proof. exact overrun_claim. Qed.
(** [read_into] and [skip] check, whatever the source does and has done before. *)
Theorem C98_checked : forall m buf n st,
  not_ub (fst (read_into (hr_rb m) buf st)) /\ not_ub (fst (skip (hr_rb m) n st)).
Proof. exact hr_checked. Qed.

(** ** It holds for sources that claim at most 2048 bytes, in the lower 32 bits *)

(** Whatever they write to the buffer, where, and when: in particular behind the bytes
    that they claim, less than these, or when they fail. *)
Theorem C98_bytes_partial : forall m script ops,
  Forall possible script -> Forall within script -> Forall legal_byte_op ops ->
  Forall value_or_error (fst (history_all (run_byte_op (hr_rb m)) ops (hr_new script))).
Proof. exact hr_histories. Qed.
Theorem C98_open_partial : forall m un fuel script opts,
  Forall possible script -> Forall within script ->
  not_ub (open_any m un fuel script opts)
  /\ forall r calls, open_any m un fuel script opts = Ok r ->
     Forall not_ub (fst (history_all (session_step (hr_rb m) m fuel) calls (mkSession r None))).
Proof.
  exact (fun m un fuel script opts Hp Hw =>
    conj (proj1 (sound_new hr_inv (hr_rb m) (hr_sound m) m un fuel opts (hr_new script) (hr_new_inv script (fits_all script Hp Hw))))
      (fun r calls E => sound_session hr_inv (hr_rb m) (hr_sound m) m un fuel opts fuel calls (hr_new script) r _
         (hr_new_inv script (fits_all script Hp Hw)) (surjective_pairing_eq _ _ E))).
Qed.

(** They are byte streams in the sense of the other properties: they deliver the first bytes of the
    buffer, as many as they claim, and nothing else in the buffer matters. *)
Theorem C98_delivers : forall m t, stream (hr_rb m) t (hbuffered t)
  /\ forall script l, Forall possible script -> Forall within script ->
     delivers t (map handed_over script) l -> hbuffered t (hr_new script) l.
Proof. exact (fun m t => conj (hr_stream m t) (hr_new_buffered t)). Qed.

(** The sources of the other properties are among these, and a [BufferedReader] gives the same results
    with them here and there. *)
Theorem C98_same : forall m script ops, Forall contract_ok script ->
  Forall possible (plain (repeat 0 2048) script) /\ Forall within (plain (repeat 0 2048) script)
  /\ fst (history_all (run_byte_op (hr_rb m)) ops (hr_new (plain (repeat 0 2048) script)))
     = fst (history_all (run_byte_op (br_rb m)) ops (br_new script)).
Proof. exact same_results. Qed.

(** ** It holds for readers that do not themselves cause undefined behaviour *)

(** Any implementation of [ReadBytes], even one that returns numbers that are no bytes or forgets to fill
    buffers: nothing else in the crate can go wrong.  (Panics are possible.) *)
Theorem C98_reader_open : forall S (rb : ReadBytes S) I, reader_sound I rb -> forall m un fuel opts st, I st ->
  not_ub (fst (new_ext rb m un fuel opts st))
  /\ forall r st' calls, new_ext rb m un fuel opts st = (Ok r, st') ->
     Forall not_ub (fst (history_all (session_step rb m fuel) calls (mkSession r None))).
Proof.
  exact (fun S rb I H m un fuel opts st HI =>
    conj (proj1 (sound_new I rb H m un fuel opts st HI))
      (fun r st' calls E => sound_session I rb H m un fuel opts fuel calls st r st' HI E)).
Qed.
Theorem C98_reader_metadata : forall S (rb : ReadBytes S) I, reader_sound I rb -> forall m un st, I st ->
  (forall ty n, not_ub (fst (read_metadata_block rb m un ty n st)))
  /\ not_ub (fst (read_metadata_block_with_header rb m un st))
  /\ forall n, Forall not_ub (fst (nexts (mr_next rb m un) n (mr_new st))).
Proof.
  exact (fun S rb I H m un st HI =>
    conj (fun ty n => proj1 (sound_block I rb H m un ty n st HI))
      (conj (proj1 (sound_block_with_header I rb H m un st HI))
         (fun n => sound_items I rb H m un n (mr_new st) HI))).
Qed.
Theorem C98_reader_frames : forall S (rb : ReadBytes S) I, reader_sound I rb -> forall m fuel buffers st, I st ->
  Forall not_ub (fst (history_all (read_next_or_eof rb m fuel) buffers st)).
Proof.
  exact (fun S rb I H m fuel buffers st HI =>
    proj1 (sound_history I (read_next_or_eof rb m fuel) (sound_next I rb H m fuel) buffers st HI)).
Qed.
Theorem C98_reader_bits : forall S (rb : ReadBytes S) I, reader_sound I rb -> forall m fuel st, I st ->
  (forall ops, Forall not_ub (fst (history_all (run_bit_op rb m fuel) ops (bs_new st))))
  /\ forall bps buffers, Forall not_ub (fst (history_all (decode rb m fuel bps) buffers (bs_new st))).
Proof.
  exact (fun S rb I H m fuel st HI =>
    conj (fun ops => proj1 (sound_history (fun b => I (bs_reader b)) (run_bit_op rb m fuel)
            (sound_bit_op I rb H m fuel) ops (bs_new st) HI))
      (fun bps buffers => proj1 (sound_history (fun b => I (bs_reader b)) (decode rb m fuel bps)
            (sound_decode I rb H m fuel bps) buffers (bs_new st) HI))).
Qed.

(** [Cursor<T>] is such a reader for any [T: AsRef<[u8]>], also if every call of [as_ref] returns another
    slice or panics ([hc_rb], ModelHostile.v). *)
Theorem C98_cursor : forall m, reader_sound (fun _ => True) (hc_rb m).
Proof. exact hc_sound. Qed.
(** If they all return the same slice it is the [Cursor] of the other properties. *)
Theorem C98_cursor_same : forall m data, len data < 2 ^ 63 -> forall pos ops, 0 <= pos < 2 ^ 64 -> Forall legal_byte_op ops ->
  fst (history_all (run_byte_op (hc_rb m)) ops (mkHC (fun _ => Some data) 0 pos))
  = fst (history_all (run_byte_op (cu_rb m)) ops (mkCursor data pos)).
Proof. exact cursor_same. Qed.

(** ** Memory that was not initialised *)

(** It can be seen through a reader that does not fill the buffer ([idle_rb], SpecHostile.v). *)
Theorem C98_readers_refuted : ~ readers_are_harmless.
Proof. exact readers_refuted. Qed.

(** It cannot be seen through a reader that does, whatever else it does. *)
Theorem C98_unseen_partial : forall S (rb : ReadBytes S) m un un', overwrites rb -> uninitialised un -> uninitialised un' ->
  forall st,
  (forall ty n, read_metadata_block rb m un ty n st = read_metadata_block rb m un' ty n st)
  /\ read_metadata_block_with_header rb m un st = read_metadata_block_with_header rb m un' st
  /\ (forall n, nexts (mr_next rb m un) n (mr_new st) = nexts (mr_next rb m un') n (mr_new st))
  /\ forall fuel opts, new_ext rb m un fuel opts st = new_ext rb m un' fuel opts st.
Proof.
  exact (fun S rb m un un' Ho Hu Hu' st =>
    conj (fun ty n => eq_block rb m un un' Ho Hu Hu' ty n st)
      (conj (eq_with_header rb m un un' Ho Hu Hu' st)
        (conj (fun n => eq_items rb m un un' Ho Hu Hu' n (mr_new st))
          (fun fuel opts => eq_new rb m un un' Ho Hu Hu' fuel opts st)))).
Qed.
(** [BufferedReader] does, for every source, and so does [Cursor], for every slice and every [as_ref]. *)
Theorem C98_overwrites : forall m, overwrites (hr_rb m) /\ overwrites (cu_rb m) /\ overwrites (hc_rb m).
Proof. exact (fun m => conj (hr_overwrites m) (conj (cu_overwrites m) (hc_overwrites m))). Qed.

(** ** Examples *)

(** A source that claims two of four bytes that it wrote, then claims 2^32 + 1 bytes, which is
    one in 32 bits, without writing anything, then
    fails and leaves something else in the buffer. *)
Definition sloppy : list hevent :=
  [HRead 2 ([1; 2; 3; 4] ++ repeat 9 2044); HRead (2 ^ 32 + 1) ([1; 2; 3; 4] ++ repeat 9 2044); HErr (OtherIo 4) (repeat 77 2048)].
Example C98_example_source : Forall possible sloppy /\ Forall within sloppy
  /\ delivers (TErr (OtherIo 4)) (map handed_over sloppy) ([1; 2] ++ [1] ++ [])
  /\ fst (history_all (run_byte_op (hr_rb Debug)) [OpBe16; OpU8; OpU8; OpU8; OpU8] (hr_new sloppy))
     = [Ok (RNum 258); Ok (RNum 1); Err (IoError (OtherIo 4)); Ok (RNum 77); Err (IoError UnexpectedEof)].
Proof.
  split; [|split; [|split]].
  - repeat (apply Forall_cons || apply Forall_nil); cbn -[Z.pow repeat app]; repeat split; try lia; try (vm_compute; congruence); try (apply is_bytes_ok; vm_compute; reflexivity); vm_compute; reflexivity.
  - repeat (apply Forall_cons || apply Forall_nil); try exact I; vm_compute; congruence.
  - cbn [sloppy map handed_over]. change (firstn (Z.to_nat (2 mod 2 ^ 32)) ([1; 2; 3; 4] ++ repeat 9 2044)) with [1; 2].
    change (firstn (Z.to_nat ((2 ^ 32 + 1) mod 2 ^ 32)) ([1; 2; 3; 4] ++ repeat 9 2044)) with [1].
    apply delivers_chunk; [split; [repeat constructor; unfold is_byte; lia|vm_compute; split; [reflexivity|discriminate]]|].
    apply delivers_chunk; [split; [repeat constructor; unfold is_byte; lia|vm_compute; split; [reflexivity|discriminate]]|].
    apply delivers_err. reflexivity.
  - vm_compute. reflexivity.
Qed.
Example C98_example_overrun :
  fst (history (run_byte_op (hr_rb Release)) (repeat OpU8 2049) (hr_new [HRead 2049 (repeat 5 2048)]))
  = repeat (Ok (RNum 5)) 2048 ++ [UB "get_unchecked out of bounds"].
Proof. vm_compute. reflexivity. Qed.
(** An [as_ref] that returns a shorter slice when it is called the second time: the index is checked. *)
Example C98_example_cursor :
  fst (history_all (run_byte_op (hc_rb Release)) [OpU8; OpU8OrEof; OpU8; OpInto [0; 0]; OpSkip 1]
         (mkHC (fun n => nth n [Some [1; 2]; Some [3]; Some [1; 2]; Some []; None; Some [1; 2; 3; 4]; Some [5; 6; 7; 8; 9]; Some [4; 4; 4; 4; 4]] None) 0 0))
  = [Ok (RNum 3); Panic "index out of bounds"; Panic "as_ref"; Ok (RBytes [7; 8]); Ok RDone].
Proof. vm_compute. reflexivity. Qed.
(** The content of an application block is what was in memory. *)
Example C98_example_reader : reader_sound (fun _ => True) idle_rb
  /\ fst (read_metadata_block idle_rb Release (repeat 42) 2 9 tt) = Ok (MbApplication 0 [42; 42; 42; 42; 42])
  /\ fst (nexts (mr_next idle_rb Debug (repeat 42)) 2 (mr_new tt))
     = [Ok (Some (RErr (FormatError "invalid streaminfo metadata block length"))); Ok None].
Proof. split; [exact idle_sound|]. split; vm_compute; reflexivity. Qed.

Print Assumptions C98_source_witness.
Print Assumptions C98_sources_refuted.
Print Assumptions C98_overrun.
Print Assumptions C98_checked.
Print Assumptions C98_bytes_partial.
Print Assumptions C98_open_partial.
Print Assumptions C98_delivers.
Print Assumptions C98_same.
Print Assumptions C98_reader_open.
Print Assumptions C98_reader_metadata.
Print Assumptions C98_reader_frames.
Print Assumptions C98_reader_bits.
Print Assumptions C98_cursor.
Print Assumptions C98_cursor_same.
Print Assumptions C98_readers_refuted.
Print Assumptions C98_unseen_partial.
Print Assumptions C98_overwrites.
