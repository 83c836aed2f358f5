(** C59: a release build computes what a debug build computes.

    The first argument of the model's functions says how the crate was compiled.
    [alike_until_panic] (SpecBuild.v): the results are the same up to the first
    panic of the debug build. *)
From Verif Require Import SpecBuild ProofBuild ProofTotal ProofWhole.
From Verif Require PropertiesWhole PropertiesInput.
From Verif Require Import SpecReader.

(** Opening a file, over any source. *)
Theorem C59_open : forall un fuel script opts,
  panicked (flac_new_ext Debug un fuel script opts)
  \/ flac_new_ext Debug un fuel script opts = flac_new_ext Release un fuel script opts.
Proof. exact open_builds. Qed.

(** Any calls on an open file, also after failures, ... *)
Theorem C59_calls : forall fuel calls (s : session breader),
  alike_until_panic (fst (history_all (session_step (br_rb Debug) Debug fuel) calls s))
                    (fst (history_all (session_step (br_rb Release) Release fuel) calls s)).
Proof. exact (fun fuel => alike_history _ _ (agree_step _ _ br_agrees fuel)). Qed.

(** ... with a [Cursor] too. *)
Theorem C59_calls_memory : forall fuel calls (s : session cursor),
  alike_until_panic (fst (history_all (session_step (cu_rb Debug) Debug fuel) calls s))
                    (fst (history_all (session_step (cu_rb Release) Release fuel) calls s)).
Proof. exact (fun fuel => alike_history _ _ (agree_step _ _ cu_agrees fuel)). Qed.

(** Together with C30: on every source without very long runs of zero bytes the two builds
    are indistinguishable. *)
Theorem C59_same : forall un, (forall n, length (un n) = n) -> forall fuel script opts calls,
  Forall contract_ok script -> no_zero_bytes (2 ^ 29 - 2049) (script_data script) ->
  (Z.to_nat 2048 + length (script_data script) < fuel)%nat ->
  flac_new_ext Debug un fuel script opts = flac_new_ext Release un fuel script opts
  /\ forall r inp, flac_new_ext Debug un fuel script opts = Ok r -> fr_blocks r = Ok inp ->
     fst (history_all (session_step (br_rb Debug) Debug fuel) calls (mkSession r None))
     = fst (history_all (session_step (br_rb Release) Release fuel) calls (mkSession r None)).
Proof. exact same_builds. Qed.

(** The functions of the modules [metadata] and [input]. *)
Theorem C59_metadata : forall un n (st : mreader breader),
  alike_until_panic (fst (nexts (mr_next (br_rb Debug) Debug un) n st))
                    (fst (nexts (mr_next (br_rb Release) Release un) n st)).
Proof. exact (fun un => nexts_builds _ _ (agree_mr_next _ _ br_agrees un)). Qed.
Theorem C59_bytes : forall ops (st : breader),
  alike_until_panic (fst (history_all (run_byte_op (br_rb Debug)) ops st))
                    (fst (history_all (run_byte_op (br_rb Release)) ops st)).
Proof. exact (alike_history _ _ (byte_op_agree _ _ br_agrees)). Qed.
Theorem C59_bits : forall fuel ops (st : bitstream breader),
  alike_until_panic (fst (history_all (run_bit_op (br_rb Debug) Debug fuel) ops st))
                    (fst (history_all (run_bit_op (br_rb Release) Release fuel) ops st)).
Proof. exact (fun fuel => alike_history _ _ (fun o => bit_op_agree _ _ fuel br_agrees o)). Qed.

(** * Examples *)

(** The source of C30's example: it fails in the middle. *)
Example C59_example :
  match flac_new_ext Release (repeat 7) 3000%nat PropertiesWhole.example_script (mkOpts false true) with
  | Ok r =>
      fst (history_all (session_step (br_rb Release) Release 3000%nat)
             [ReadBlock (mkVec [] 0); ReadBlock (mkVec [] 0); NextSample] (mkSession r None))
      = fst (history_all (session_step (br_rb Debug) Debug 3000%nat)
             [ReadBlock (mkVec [] 0); ReadBlock (mkVec [] 0); NextSample] (mkSession r None))
  | _ => False
  end.
Proof. vm_compute. reflexivity. Qed.
(** The exception is needed: nine bits asked of [read_leq_u8]. *)
Example C59_panic_example :
  fst (history_all (run_bit_op (br_rb Debug) Debug 9%nat) [OpLeqU8 9] (bs_new (br_new [EvData [1; 2]])))
    = [Panic "assertion failed"]
  /\ fst (history_all (run_bit_op (br_rb Release) Release 9%nat) [OpLeqU8 9] (bs_new (br_new [EvData [1; 2]])))
    = [Ok 0].
Proof. vm_compute. split; reflexivity. Qed.

Print Assumptions C59_open.
Print Assumptions C59_calls.
Print Assumptions C59_calls_memory.
Print Assumptions C59_same.
Print Assumptions C59_metadata.
Print Assumptions C59_bytes.
Print Assumptions C59_bits.
