(** Where the blocks of a stream begin. *)
From Verif Require Export SpecApi.

(** The first sample of each block, for blocks of the given sizes. *)
Fixpoint positions (from : Z) (sizes : list Z) : list Z :=
  match sizes with
  | [] => []
  | n :: sizes' => from :: positions (from + n) sizes'
  end.

(** A variable-blocksize stream: the headers carry the sample numbers. *)
Definition numbered_by_sample (hs : list header) : Prop :=
  Forall (fun h => h_variable h = true) hs
  /\ map h_number hs = positions 0 (map h_size hs).

(** A fixed-blocksize stream: the headers carry the frame numbers, and all blocks
    but the last have the same size, which the last does not exceed. *)
Definition numbered_by_frame (hs : list header) : Prop :=
  Forall (fun h => h_variable h = false) hs
  /\ map h_number hs = map Z.of_nat (seq 0 (length hs))
  /\ exists size, (forall i h, nth_error hs i = Some h -> (Datatypes.S i < length hs)%nat -> h_size h = size)
                  /\ Forall (fun h => h_size h <= size) hs.

(** All blocks have the same size. *)
Definition same_sizes (hs : list header) : Prop :=
  exists size, Forall (fun h => h_size h = size) hs.

(** A result of [read_next_or_eof] that is a block with the given time. *)
Definition has_time (r : outcome (option block)) (time : Z) : Prop :=
  exists b, r = Ok (Some b) /\ block_time_of b = time.
