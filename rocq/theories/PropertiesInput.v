(** Properties of src/input.rs: byte and bit readers. *)
From Verif Require Import SpecOps ProofInput ProofSafe ProofStereo.

(** Closes the side conditions of the concrete cases. *)
Ltac concrete :=
  repeat match goal with
  | |- _ /\ _ => split
  | |- Forall _ _ => constructor
  | |- bytes_ok _ => unfold bytes_ok
  | |- delivers _ (EvData _ :: _) _ => apply delivers_chunk
  | |- delivers _ [] _ => apply delivers_eof
  | |- chunk_ok _ => unfold chunk_ok
  | |- contract_ok _ => unfold contract_ok
  | |- is_byte _ => unfold is_byte
  end; try reflexivity; try exact I; unfold len; cbn; lia.

(** * C02: [ReadBytes] operations return the next bytes of the stream *)

(** A [BufferedReader] over any [io::Read] that delivers the bytes [l] in any
    chunks and then ends or fails ([t]): any sequence of operations gives the
    results that the same sequence has on the list [l], up to and including the
    first failure. *)
Theorem C02_buffered_reader : forall m t script l ops,
  delivers t script l -> Forall legal_byte_op ops ->
  fst (history (run_byte_op (br_rb m)) ops (br_new script))
  = fst (history (spec_byte_op t) ops l).
Proof.
  exact (fun m t sc l ops Hd Hl =>
    proj1 (byte_history (br_rb m) t (buffered t) (br_stream m t) ops (br_new sc) l
             (br_new_buffered t sc l Hd) Hl)).
Qed.

(** The same for an [io::Cursor]. *)
Theorem C02_cursor : forall m data ops,
  bytes_ok data -> len data < 2 ^ 63 -> Forall legal_byte_op ops ->
  fst (history (run_byte_op (cu_rb m)) ops (mkCursor data 0))
  = fst (history (spec_byte_op TEof) ops data).
Proof.
  exact (fun m data ops Hb Hlen Hl =>
    proj1 (byte_history (cu_rb m) TEof cursor_at (cu_stream m) ops (mkCursor data 0) data
             (ex_intro _ [] (conj eq_refl (conj eq_refl (conj Hb Hlen)))) Hl)).
Qed.

Example C02_example :
  fst (history (run_byte_op (br_rb Debug))
         [OpU8; OpBe16; OpSkip 1; OpLe32; OpInto [0; 0]; OpU8OrEof; OpU8]
         (br_new [EvData [1; 2]; EvData [3; 4; 1; 2; 0]; EvData [0; 7; 8]]))
  = [Ok (RNum 1); Ok (RNum 515); Ok RDone; Ok (RNum 513); Ok (RBytes [7; 8]);
     Ok RNone; Err (IoError UnexpectedEof)]
  /\ delivers TEof [EvData [1; 2]; EvData [3; 4; 1; 2; 0]; EvData [0; 7; 8]]
       ([1; 2] ++ [3; 4; 1; 2; 0] ++ [0; 7; 8] ++ []).
Proof.
  split; [reflexivity|].
  concrete.
Qed.

(** * C03: reads after an I/O error *)

(** The desired property: the bytes that successive [read_u8] calls return, with
    errors ignored (the caller retries), are the first bytes of the source. *)
Definition ok_bytes (rs : list (outcome byte_result)) : list Z :=
  flat_map (fun r => match r with Ok (RNum b) => [b] | _ => [] end) rs.
Definition no_replay (m : build) : Prop :=
  forall script n, Forall contract_ok script ->
  exists rest, ok_bytes (fst (history_all (run_byte_op (br_rb m)) (repeat OpU8 n) (br_new script)))
               ++ rest = script_data script.

(** It fails: with the chunks 1 2, an error, 3 4, the fourth call returns 1. *)
Theorem C03_refuted : forall m, ~ no_replay m.
Proof.
  exact (fun m H =>
    match H [EvData [1; 2]; EvErr (OtherIo 4); EvData [3; 4]] 4%nat
            ltac:(concrete) with
    | ex_intro _ rest E =>
        match m return ok_bytes (fst (history_all (run_byte_op (br_rb m)) (repeat OpU8 4)
                 (br_new [EvData [1; 2]; EvErr (OtherIo 4); EvData [3; 4]]))) ++ rest
              = [1; 2; 3; 4] -> False with
        | Debug | Release => fun E => ltac:(cbv in E; discriminate E)
        end E
    end).
Qed.

(** Exactly what happens: when all chunks were consumed and the next [read] of the
    source fails, the error is reported and the whole last chunk is delivered
    again before the rest of the source. *)
Theorem C03_replays_last_chunk : forall m t chunks last k script l,
  Forall chunk_ok chunks -> chunk_ok last -> delivers t script l ->
  let data := concat chunks ++ last in
  let st0 := br_new (map EvData chunks ++ EvData last :: EvErr k :: script) in
  exists st1 st2,
    history (run_byte_op (br_rb m)) (repeat OpU8 (length data)) st0
      = (map (fun b => Ok (RNum b)) data, st1)
    /\ run_byte_op (br_rb m) OpU8 st1 = (Err (IoError k), st2)
    /\ forall ops, Forall legal_byte_op ops ->
         fst (history (run_byte_op (br_rb m)) ops st2)
         = fst (history (spec_byte_op t) ops (last ++ l)).
Proof.
  exact (fun m t chunks last k script l Hc Hlast Hd =>
    match br_replay m t chunks last k script l Hc Hlast Hd with
    | ex_intro _ st1 (ex_intro _ st2 (conj A (conj B C))) =>
        ex_intro _ st1 (ex_intro _ st2 (conj A (conj B (fun ops Hl =>
          proj1 (byte_history (br_rb m) t (buffered t) (br_stream m t) ops st2 (last ++ l) C Hl)))))
    end).
Qed.

Example C03_example :
  Forall chunk_ok [[1; 2]] /\ chunk_ok [3; 4] /\ delivers TEof [EvData [5]] ([5] ++ [])
  /\ fst (history_all (run_byte_op (br_rb Release)) (repeat OpU8 9)
           (br_new [EvData [1; 2]; EvData [3; 4]; EvErr (OtherIo 4); EvData [5]]))
     = [Ok (RNum 1); Ok (RNum 2); Ok (RNum 3); Ok (RNum 4); Err (IoError (OtherIo 4));
        Ok (RNum 3); Ok (RNum 4); Ok (RNum 5); Err (IoError UnexpectedEof)].
Proof. split; [concrete|]. split; [concrete|]. split; [concrete|reflexivity]. Qed.

(** * C04: unchecked indexing stays in bounds *)

(** For any source that obeys the [io::Read] contract (it returns at most as many
    bytes as were asked for) but may fail or end at any time, and any sequence of
    calls, also after failures, every call of a [BufferedReader] returns a value or
    an error: no panic and in particular no out-of-bounds unchecked access. *)
Theorem C04_buffered_reader : forall m script ops,
  Forall contract_ok script -> Forall legal_byte_op ops ->
  Forall value_or_error (fst (history_all (run_byte_op (br_rb m)) ops (br_new script))).
Proof. exact br_histories. Qed.

(** Any number of calls of [StereoSamples::next], on any block for which
    [stereo_samples] returned (even one that no decoder made). *)
Theorem C04_stereo_samples : forall m b st n,
  0 <= bl_block_size b < 2 ^ 32 -> block_stereo_samples b = Ok st ->
  Forall value_or_error (fst (history_all (fun _ : unit => stereo_next m) (repeat tt n) st)).
Proof. exact stereo_safe. Qed.

Example C04_example :
  Forall contract_ok [EvData [1; 2]; EvErr (OtherIo 4); EvData []; EvData [3]]
  /\ fst (history_all (run_byte_op (br_rb Debug)) [OpBe24; OpSkip 5; OpU8; OpU8; OpU8; OpU8]
         (br_new [EvData [1; 2]; EvErr (OtherIo 4); EvData []; EvData [3]]))
     = [Err (IoError (OtherIo 4)); Err (IoError UnexpectedEof); Ok (RNum 3);
        Err (IoError UnexpectedEof); Err (IoError UnexpectedEof); Err (IoError UnexpectedEof)].
Proof.
  split; [|reflexivity].
  concrete.
Qed.

(** * C05: bitstream reads return exactly the bits of the stream *)

(** Over any reader that delivers the bytes [l] (see [stream]), any sequence of bit
    reads gives the results of the same sequence on the flat list of bits, most
    significant bit of each byte first.  The only proviso is that no [read_unary]
    starts at 2^32 or more zero bits, whose count a u32 cannot hold; [fuel] bounds
    the iterations of the loop in [read_unary] and any number above the length of
    the input will do. *)
Theorem C05_bits_of_the_stream : forall S (rb : ReadBytes S) t D m fuel ops st l,
  stream rb t D -> D st l -> (length l < fuel)%nat ->
  counts_fit t ops (bytes_bits l) -> Forall legal_bit_op ops ->
  fst (history (run_bit_op rb m fuel) ops (bs_new st))
  = fst (history (spec_bit_op t) ops (bytes_bits l)).
Proof.
  exact (fun S rb t D m fuel ops st l HS HD Hf Hz Hl =>
    proj1 (bit_history rb t D HS m fuel ops st l HD Hf Hz Hl)).
Qed.

(** The proviso holds in particular if there is no such run of zeros at all. *)
Theorem C05_short_runs : forall t ops l,
  no_zero_run (2 ^ 32) (bytes_bits l) -> counts_fit t ops (bytes_bits l).
Proof. exact (fun t ops l => no_zero_run_fit t ops (bytes_bits l)). Qed.

(** The readers of the crate are streams in this sense. *)
Theorem C05_buffered_reader_is_a_stream : forall m t,
  stream (br_rb m) t (buffered t)
  /\ forall script l, delivers t script l -> buffered t (br_new script) l.
Proof. exact (fun m t => conj (br_stream m t) (br_new_buffered t)). Qed.
Theorem C05_cursor_is_a_stream : forall m, stream (cu_rb m) TEof cursor_at.
Proof. exact cu_stream. Qed.

Example C05_example :
  fst (history (run_bit_op (cu_rb Debug) Debug 10)
         [OpBit; OpUnary; OpLeqU8 3; OpGtU8LeqU16 11; OpLeqU32 20; OpBit]
         (bs_new (mkCursor [133; 178; 3; 4; 5] 0)))
  = fst (history (spec_bit_op TEof)
         [OpBit; OpUnary; OpLeqU8 3; OpGtU8LeqU16 11; OpLeqU32 20; OpBit]
         (bytes_bits [133; 178; 3; 4; 5]))
  /\ fst (history (run_bit_op (cu_rb Debug) Debug 10)
         [OpBit; OpUnary; OpLeqU8 3; OpGtU8LeqU16 11; OpLeqU32 20; OpBit]
         (bs_new (mkCursor [133; 178; 3; 4; 5] 0)))
     = [Ok 1; Ok 4; Ok 3; Ok 800; Ok 197637; Err (IoError UnexpectedEof)]
  /\ cursor_at (mkCursor [133; 178; 3; 4; 5] 0) [133; 178; 3; 4; 5].
Proof.
  split; [reflexivity|]. split; [reflexivity|].
  exists []. concrete.
Qed.

(** * C06: the bitstream never over-reads *)

(** After successful reads of the bits [w] the wrapped reader stands
    [ceil (length w / 8)] bytes further. *)
Theorem C06_no_over_read : forall S (rb : ReadBytes S) t D m fuel ops st l,
  stream rb t D -> D st l -> (length l < fuel)%nat ->
  counts_fit t ops (bytes_bits l) -> Forall legal_bit_op ops ->
  let (rs, bs) := history (run_bit_op rb m fuel) ops (bs_new st) in
  Forall succeeded rs ->
  exists w, bytes_bits l = w ++ snd (history (spec_bit_op t) ops (bytes_bits l))
    /\ D (bs_reader bs) (skipn ((length w + 7) / 8) l).
Proof.
  exact (fun S rb t D m fuel ops st l HS => bit_history_reader rb t D HS m fuel ops st l).
Qed.

Example C06_example :
  snd (history (run_bit_op (cu_rb Debug) Debug 10) [OpLeqU8 3; OpLeqU8 6] (bs_new (mkCursor [1; 2; 3] 0)))
  = mkBS (mkCursor [1; 2; 3] 2) 4 7.
Proof. reflexivity. Qed.

(** * C07: unary counts are exact *)

(** Wherever the stream stands after any successful reads [ops1]: if [q] zero bits
    and a one bit come next, [read_unary] returns [q] and later reads go on after
    the one bit. *)
Theorem C07_unary_exact : forall S (rb : ReadBytes S) t D m fuel ops1 ops2 st l q r,
  stream rb t D -> D st l -> (length l < fuel)%nat ->
  counts_fit t (ops1 ++ OpUnary :: ops2) (bytes_bits l) ->
  Forall legal_bit_op (ops1 ++ OpUnary :: ops2) ->
  Forall succeeded (fst (history (spec_bit_op t) ops1 (bytes_bits l))) ->
  snd (history (spec_bit_op t) ops1 (bytes_bits l)) = unary q ++ r -> 0 <= q ->
  fst (history (run_bit_op rb m fuel) (ops1 ++ OpUnary :: ops2) (bs_new st))
  = fst (history (spec_bit_op t) ops1 (bytes_bits l))
    ++ Ok q :: fst (history (spec_bit_op t) ops2 r).
Proof.
  exact (fun S rb t D m fuel ops1 ops2 st l q r HS =>
    unary_anywhere rb t D HS m fuel ops1 ops2 st l q r).
Qed.

Example C07_example :
  fst (history (run_bit_op (cu_rb Debug) Debug 10) [OpLeqU8 3; OpUnary; OpLeqU8 2]
         (bs_new (mkCursor [224; 0; 0; 12] 0)))
  = [Ok 7; Ok 25; Ok 2]
  /\ snd (history (spec_bit_op TEof) [OpLeqU8 3] (bytes_bits [224; 0; 0; 12]))
     = unary 25 ++ [true; false; false].
Proof. split; reflexivity. Qed.

Print Assumptions C02_buffered_reader.
Print Assumptions C02_cursor.
Print Assumptions C03_refuted.
Print Assumptions C03_replays_last_chunk.
Print Assumptions C04_buffered_reader.
Print Assumptions C04_stereo_samples.
Print Assumptions C05_bits_of_the_stream.
Print Assumptions C05_short_runs.
Print Assumptions C05_buffered_reader_is_a_stream.
Print Assumptions C05_cursor_is_a_stream.
Print Assumptions C06_no_over_read.
Print Assumptions C07_unary_exact.
