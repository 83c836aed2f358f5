(** Properties of the memory that the library requests.

    [traced rb] (SpecAlloc.v): the reader [rb], which in addition records every
    request for memory, as a number of elements and the size of one.
    [byte_reader rb I]: [rb] gives bytes in all states that satisfy [I], and stays in
    them, also when it fails; the two readers of the library are such readers
    ([C46_source], [C46_memory]).  [un], [fuel], [session_step], [history_all] as in
    PropertiesWhole.v. *)
From Verif Require Import SpecOps SpecWhole SpecAlloc ProofAlloc ProofTaken.
From Verif Require PropertiesMeta PropertiesWhole ProofTimes.
From Verif Require Import SpecReader.

(** * C46: requests for memory are bounded *)

(** A metadata block that claims [n] bytes. *)
Theorem C46_block : forall {S} (rb : ReadBytes S) I, byte_reader rb I ->
  forall m un, (forall n, length (un n) = n) -> forall ty n s q0, 0 <= n < 2 ^ 32 -> I s ->
  exists q, snd (snd (read_metadata_block (traced rb) m un ty n (s, q0))) = q0 ++ q
    /\ Forall (block_request n) q.
Proof. exact (@block_requests). Qed.

(** All of them together: at most nine times the claimed length. *)
Theorem C46_block_total : forall {S} (rb : ReadBytes S) I, byte_reader rb I ->
  forall m un, (forall n, length (un n) = n) -> forall ty n s q0, 0 <= n < 2 ^ 32 -> I s ->
  requested (snd (snd (read_metadata_block (traced rb) m un ty n (s, q0)))) <= requested q0 + 9 * n.
Proof. exact (@block_total). Qed.

(** Comments and application data that claim more than 10 MiB: nothing is read,
    nothing is requested. *)
Theorem C46_too_large : forall {S} (rb : ReadBytes S) m un ty n s q0,
  ty = 4 \/ ty = 2 -> limit < n ->
  exists why, read_metadata_block (traced rb) m un ty n (s, q0) = (Err (Unsupported why), (s, q0)).
Proof. exact (@too_large). Qed.

(** The other functions that read metadata. *)
Theorem C46_with_header : forall {S} (rb : ReadBytes S) I, byte_reader rb I ->
  forall m un, (forall n, length (un n) = n) -> forall s q0, I s ->
  exists q, snd (snd (read_metadata_block_with_header (traced rb) m un (s, q0))) = q0 ++ q
    /\ Forall some_block_request q.
Proof. exact (@header_requests). Qed.
Theorem C46_iterator : forall {S} (rb : ReadBytes S) I, byte_reader rb I ->
  forall m un, (forall n, length (un n) = n) -> forall n s q0, I s ->
  exists q, snd (mr_input (snd (nexts (mr_next (traced rb) m un) n (mr_new (s, q0))))) = q0 ++ q
    /\ Forall some_block_request q.
Proof. exact (@iterator_requests). Qed.
Theorem C46_open : forall {S} (rb : ReadBytes S) I, byte_reader rb I ->
  forall m un, (forall n, length (un n) = n) -> forall fuel opts s q0, I s ->
  exists q, snd (snd (new_ext (traced rb) m un fuel opts (s, q0))) = q0 ++ q
    /\ Forall some_block_request q.
Proof. exact (@open_requests). Qed.

(** One frame, and a whole file from opening it to the last of any calls. *)
Theorem C46_frame : forall {S} (rb : ReadBytes S) I, byte_reader rb I -> forall m fuel buffer s q0, I s ->
  exists q, snd (snd (read_next_or_eof (traced rb) m fuel buffer (s, q0))) = q0 ++ q
    /\ Forall frame_request q.
Proof. exact (@frame_requests). Qed.
Theorem C46_whole : forall {S} (rb : ReadBytes S) I, byte_reader rb I ->
  forall m un, (forall n, length (un n) = n) -> forall fuel opts s q0 r inp,
  I s -> fst (new_ext (traced rb) m un fuel opts (s, q0)) = Ok r -> fr_blocks r = Ok inp ->
  exists q1, snd inp = q0 ++ q1 /\ Forall some_block_request q1
    /\ forall fuel' calls, exists s' q2,
      fr_blocks (drop_samples (snd (history_all (session_step (traced rb) m fuel') calls (mkSession r None))))
      = Ok (s', q0 ++ q1 ++ q2)
      /\ Forall frame_request q2.
Proof. exact (@whole_requests). Qed.

(** A [BufferedReader] over any source that keeps to the contract of [Read], and a
    [Cursor], are such readers. *)
Theorem C46_source : forall m script, Forall contract_ok script ->
  exists I, byte_reader (br_rb m) I /\ I (br_new script).
Proof. exact source_reader_ex. Qed.
Theorem C46_memory : forall m data, bytes_ok data -> len data < 2 ^ 63 ->
  exists I, byte_reader (cu_rb m) I /\ I (mkCursor data 0).
Proof. exact memory_reader_ex. Qed.

(** Recording the requests changes nothing else. *)
Theorem C46_traced_open : forall {S} (rb : ReadBytes S) I, byte_reader rb I ->
  forall m un, (forall n, length (un n) = n) -> forall fuel opts s q, I s ->
  opened_alike (fun r1 r2 => forall fuel' calls,
      fst (history_all (session_step (traced rb) m fuel') calls (mkSession r1 None))
      = fst (history_all (session_step rb m fuel') calls (mkSession r2 None)))
    (fst (new_ext (traced rb) m un fuel opts (s, q))) (fst (new_ext rb m un fuel opts s)).
Proof. exact (@traced_open). Qed.
Theorem C46_traced_block : forall {S} (rb : ReadBytes S) I, byte_reader rb I ->
  forall m un, (forall n, length (un n) = n) -> forall ty n s q, 0 <= n < 2 ^ 32 -> I s ->
  fst (read_metadata_block (traced rb) m un ty n (s, q)) = fst (read_metadata_block rb m un ty n s)
  /\ fst (snd (read_metadata_block (traced rb) m un ty n (s, q))) = snd (read_metadata_block rb m un ty n s).
Proof. exact (@traced_block). Qed.
Theorem C46_traced_header : forall {S} (rb : ReadBytes S) I, byte_reader rb I ->
  forall m un, (forall n, length (un n) = n) -> forall s q, I s ->
  fst (read_metadata_block_with_header (traced rb) m un (s, q)) = fst (read_metadata_block_with_header rb m un s)
  /\ fst (snd (read_metadata_block_with_header (traced rb) m un (s, q))) = snd (read_metadata_block_with_header rb m un s).
Proof. exact (@traced_header). Qed.
Theorem C46_traced_iterator : forall {S} (rb : ReadBytes S) I, byte_reader rb I ->
  forall m un, (forall n, length (un n) = n) -> forall n s q, I s ->
  fst (nexts (mr_next (traced rb) m un) n (mr_new (s, q))) = fst (nexts (mr_next rb m un) n (mr_new s)).
Proof. exact (@traced_iterator). Qed.
Theorem C46_traced_frame : forall {S} (rb : ReadBytes S) I, byte_reader rb I -> forall m fuel buffer s q, I s ->
  fst (read_next_or_eof (traced rb) m fuel buffer (s, q)) = fst (read_next_or_eof rb m fuel buffer s)
  /\ fst (snd (read_next_or_eof (traced rb) m fuel buffer (s, q))) = snd (read_next_or_eof rb m fuel buffer s).
Proof. exact (@traced_frame). Qed.

(** * C55: a recycled buffer saves the request *)

(** One block: a request only if the buffer is too small for it, of exactly its size,
    and what [into_buffer] gives back is as large as the larger of the two. *)
Theorem C55_block : forall {S} (rb : ReadBytes S) I, byte_reader rb I ->
  forall m fuel t D buffer s q0 l b, stream rb t D -> I s -> D s l -> (length l < fuel)%nat -> vec_ok buffer ->
  let r := read_next_or_eof (traced rb) m fuel buffer (s, q0) in
  fst r = Ok (Some b) ->
  let n := block_channels b * block_duration b in
  v_cap (block_into_buffer b) = Z.max (v_cap buffer) n
  /\ snd (snd r) = q0 ++ (if v_cap buffer <? n then [(n, 4)] else [])
  /\ vec_ok (block_into_buffer b).
Proof. exact (@block_requests_exact). Qed.

(** The usual loop, up to the end of the stream: the requests are those of [growth]. *)
Theorem C55_loop : forall {S} (rb : ReadBytes S) I, byte_reader rb I ->
  forall m fuel t D, stream rb t D -> forall bs buffer s q0 s' q l,
  blocks_read (traced rb) m fuel buffer (s, q0) bs (Ok None) (s', q) ->
  I s -> D s l -> (length l < fuel)%nat -> vec_ok buffer ->
  q = q0 ++ growth (v_cap buffer) (map block_samples bs).
Proof. exact (@recycled). Qed.

(** No request at all if the first buffer has room for the largest block; just one if
    it is empty and the blocks have the same size. *)
Theorem C55_none : forall {S} (rb : ReadBytes S) I t D, byte_reader rb I -> stream rb t D ->
  forall m fuel bs buffer s q0 s' q l,
  blocks_read (traced rb) m fuel buffer (s, q0) bs (Ok None) (s', q) ->
  I s -> D s l -> (length l < fuel)%nat -> vec_ok buffer ->
  Forall (fun b => block_samples b <= v_cap buffer) bs -> q = q0.
Proof. exact (@recycled_none). Qed.
Theorem C55_once : forall {S} (rb : ReadBytes S) I t D, byte_reader rb I -> stream rb t D ->
  forall m fuel bs s q0 s' q l n,
  blocks_read (traced rb) m fuel (mkVec [] 0) (s, q0) bs (Ok None) (s', q) ->
  I s -> D s l -> (length l < fuel)%nat ->
  bs <> [] -> 0 < n -> Forall (fun b => block_samples b = n) bs -> q = q0 ++ [(n, 4)].
Proof. exact (@recycled_once). Qed.

(** [samples()] and [into_samples()] recycle the buffer too: over a whole file, [n] calls
    of [next] where [n] exceeds the number of samples, the requests are those of
    the loop. *)
Theorem C55_samples : forall {S} (rb : ReadBytes S) I t D, byte_reader rb I -> stream rb t D ->
  forall m fuel (r : flac_reader (S * list (Z * Z))) it s q0 l bs s' q n,
  fr_blocks r = Ok (s, q0) -> sample_iterator r it -> I s -> D s l -> (length l < fuel)%nat -> (1 < fuel)%nat ->
  blocks_read (traced rb) m fuel (mkVec [] 0) (s, q0) bs (Ok None) (s', q) ->
  fold_right Z.add 0 (map block_samples bs) < Z.of_nat n ->
  snd (fs_frame_reader (snd (nexts (fs_next (traced rb) m fuel) n it))) = q0 ++ growth 0 (map block_samples bs).
Proof. exact (@iterator_recycles). Qed.

(** * Examples *)

(** The file of PropertiesWhole.v: a vendor string, two comments, and two frames of
    which the second one is smaller. *)
Definition whole_run (calls : list call) : option (list (Z * Z)) :=
  match fst (new_ext (traced (br_rb Debug)) Debug (repeat 7) 500%nat (mkOpts false true)
               (br_new [EvData PropertiesWhole.example_file], [])) with
  | Ok r => match fr_blocks (drop_samples (snd (history_all
                     (session_step (traced (br_rb Debug)) Debug 500%nat) calls (mkSession r None)))) with
            | Ok s => Some (snd s)
            | _ => None
            end
  | _ => None
  end.
Example C46_example :
  exists qs, whole_run [] = Some qs /\ qs <> [] /\
  whole_run [ReadBlock (mkVec [] 0); ReadBlock (mkVec [] 0); ReadBlock (mkVec [] 0)] = Some (qs ++ [(17, 4); (16, 4)])
  /\ whole_run [ReadBlock (mkVec [] 20); ReadBlock (mkVec [1; 2] 2)] = Some (qs ++ [(16, 4)]).
Proof. eexists. vm_compute. repeat split; congruence. Qed.
Example C46_source_example : Forall contract_ok PropertiesWhole.example_script.
Proof.
  eapply Forall_impl; [|exact (proj1 PropertiesWhole.C30_example)]. intros [c|k]; cbn; [|auto].
  unfold chunk_ok. intros [H1 H2]. split; [exact H1|lia].
Qed.
Example C46_too_large_example :
  fst (read_metadata_block (traced (cu_rb Debug)) Debug (repeat 7) 4 (limit + 1) (mkCursor [0; 0] 0, []))
  = Err (Unsupported "Vorbis comment blocks larger than 10 MiB are not supported").
Proof. reflexivity. Qed.
Example C55_example : exists b1 b2 s,
  blocks_read (traced (cu_rb Release)) Release 50%nat (mkVec [] 0)
    (mkCursor (concat ProofTimes.two_bytes) 0, []) [b1; b2] (Ok None) (s, [(17, 4)])
  /\ map block_samples [b1; b2] = [17; 16].
Proof.
  eexists _, _, _. split; [|].
  - eapply read_one; [vm_compute; reflexivity|]. eapply read_one; [vm_compute; reflexivity|].
    eapply read_last; [vm_compute; reflexivity|discriminate].
  - vm_compute. reflexivity.
Qed.
Example C55_samples_example :
  let it := mkFs (mkCursor (concat ProofTimes.two_bytes) 0, []) block_empty 0 0 false in
  snd (fs_frame_reader (snd (nexts (fs_next (traced (cu_rb Release)) Release 50%nat) 40 it))) = [(17, 4)].
Proof. vm_compute. reflexivity. Qed.
Print Assumptions C46_block.
Print Assumptions C46_block_total.
Print Assumptions C46_too_large.
Print Assumptions C46_with_header.
Print Assumptions C46_iterator.
Print Assumptions C46_open.
Print Assumptions C46_frame.
Print Assumptions C46_whole.
Print Assumptions C46_source.
Print Assumptions C46_memory.
Print Assumptions C46_traced_open.
Print Assumptions C46_traced_block.
Print Assumptions C46_traced_header.
Print Assumptions C46_traced_iterator.
Print Assumptions C46_traced_frame.
Print Assumptions C55_block.
Print Assumptions C55_loop.
Print Assumptions C55_none.
Print Assumptions C55_once.
Print Assumptions C55_samples.
