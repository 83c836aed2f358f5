(** A [Cursor] at any position. *)
From Verif Require Export SpecCursor SpecMeta SpecApi ProofUnseen.
From Verif Require Import SpecReader.

Lemma chk_wraps m x : 2 ^ 64 <= x < 2 ^ 65 -> chk m u64 x = match m with Debug => Panic "attempt to perform arithmetic with overflow" | Release => Ok (x - 2 ^ 64) end.
Proof.
  intros H. unfold chk, u64. assert (x mod 2 ^ 64 = x - 2 ^ 64) as ->.
  { symmetry. apply Z.mod_unique with 1; lia. }
  destruct (Z.eqb_spec (x - 2 ^ 64) x); [lia|reflexivity].
Qed.

Section At.
  Context (m : build) (data : list Z) (pos : Z) (HC : a_cursor data pos).
  Lemma byte_in : pos < len data -> exists b, bytes_at data pos 1 [b]
    /\ moves (read_u8 (cu_rb m)) data pos b (pos + 1) /\ moves (read_u8_or_eof (cu_rb m)) data pos (Some b) (pos + 1).
  Proof.
    intros Hp. destruct HC as [Hl H0]. destruct (nth_error data (Z.to_nat pos)) as [b|] eqn:E.
    2: { apply nth_error_None in E. unfold len in *. lia. }
    exists b. assert (index data pos = Ok b) as Hi by (unfold index; destruct (Z.leb_spec 0 pos); [|lia]; rewrite E; reflexivity).
    split.
    - destruct (nth_error_split _ _ E) as (pre & post & -> & Hn). exists pre, post. split; [reflexivity|]. unfold len in *. cbn. lia.
    - unfold moves. cbn [cu_rb read_u8 read_u8_or_eof]. unfold cu_read_u8, cu_read_u8_or_eof. rewrite !bind_get. cbn [cu_pos cu_data].
      destruct (Z.ltb_spec pos (len data)); [|lia]. rewrite chk_u64 by lia. rewrite !bind_lift_ok. unfold bind, cu_set_position. cbn [cu_data].
      rewrite Hi. split; reflexivity.
  Qed.
  Lemma byte_out : len data <= pos -> lacks (read_u8 (cu_rb m)) data pos /\ moves (read_u8_or_eof (cu_rb m)) data pos None pos.
  Proof.
    intros Hp. unfold lacks, moves. cbn [cu_rb read_u8 read_u8_or_eof]. unfold cu_read_u8, cu_read_u8_or_eof. rewrite !bind_get. cbn [cu_pos cu_data].
    destruct (Z.ltb_spec pos (len data)); [lia|]. split; reflexivity.
  Qed.
  Lemma range_into buf : pos + len buf < 2 ^ 64 -> reads_right m data pos buf.
  Proof.
    intros Hp. destruct HC as [Hl H0]. pose proof (len_nonneg buf). unfold reads_right, moves, lacks. cbn [cu_rb read_into]. unfold cu_read_into.
    rewrite bind_get. cbn [cu_pos cu_data]. rewrite chk_u64 by lia. rewrite bind_lift_ok.
    destruct (Z.leb_spec (pos + len buf) (len data)) as [L|L]; [left|right; split; [lia|reflexivity]].
    rewrite slice_ok by lia. rewrite bind_lift_ok. eexists. split; [|reflexivity].
    exists (firstn (Z.to_nat pos) data), (skipn (Z.to_nat (pos + len buf - pos)) (skipn (Z.to_nat pos) data)).
    rewrite !firstn_skipn. split; [reflexivity|]. unfold len in *. rewrite !firstn_length, skipn_length. lia.
  Qed.
  Lemma range_skip n : 0 <= n -> pos + n < 2 ^ 64 -> skips_right m data pos n.
  Proof.
    intros Hn Hp. destruct HC as [Hl H0]. unfold skips_right, moves, lacks. cbn [cu_rb skip]. unfold cu_skip.
    rewrite bind_get. cbn [cu_pos cu_data]. rewrite chk_u64 by lia. rewrite bind_lift_ok.
    destruct (Z.leb_spec (pos + n) (len data)) as [L|L]; [left|right]; (split; [lia|reflexivity]).
  Qed.
  Lemma wrap_into buf : len buf < 2 ^ 63 -> 2 ^ 64 <= pos + len buf ->
    read_into (cu_rb m) buf (mkCursor data pos)
    = (match m with
       | Debug => Panic "attempt to perform arithmetic with overflow"
       | Release => if pos + len buf - 2 ^ 64 <=? len data then Panic "slice index out of range" else Err (IoError UnexpectedEof)
       end, mkCursor data pos).
  Proof.
    intros Hb Hp. destruct HC as [Hl H0]. cbn [cu_rb read_into]. unfold cu_read_into. rewrite bind_get. cbn [cu_pos cu_data]. rewrite chk_wraps by lia.
    destruct m; [reflexivity|]. rewrite bind_lift_ok. destruct (Z.leb_spec (pos + len buf - 2 ^ 64) (len data)) as [L|L]; [|reflexivity].
    unfold slice. destruct (Z.leb_spec (pos + len buf) (len data)); [lia|]. rewrite andb_false_r. reflexivity.
  Qed.
  Lemma wrap_skip n : n < 2 ^ 32 -> 2 ^ 64 <= pos + n ->
    skip (cu_rb m) n (mkCursor data pos)
    = match m with
      | Debug => (Panic "attempt to perform arithmetic with overflow", mkCursor data pos)
      | Release => if pos + n - 2 ^ 64 <=? len data then (Ok tt, mkCursor data (pos + n - 2 ^ 64)) else (Err (IoError UnexpectedEof), mkCursor data pos)
      end.
  Proof.
    intros Hb Hp. destruct HC as [Hl H0]. cbn [cu_rb skip]. unfold cu_skip. rewrite bind_get. cbn [cu_pos cu_data]. rewrite chk_wraps by lia.
    destruct m; [reflexivity|]. rewrite bind_lift_ok. destruct (Z.leb_spec (pos + n - 2 ^ 64) (len data)) as [L|L]; reflexivity.
  Qed.

  Lemma behind_op o : legal_byte_op o -> len data < pos -> pos <= 2 ^ 63 ->
    run_byte_op (cu_rb m) o (mkCursor data pos) = (nothing o, mkCursor data pos).
  Proof.
    intros Hlo Hp Hq. destruct (byte_out ltac:(lia)) as [U V]. unfold lacks, moves in U, V.
    assert (forall buf, len buf < 2 ^ 63 -> read_into (cu_rb m) buf (mkCursor data pos) = (Err (IoError UnexpectedEof), mkCursor data pos)) as R.
    { intros buf Hb. pose proof (len_nonneg buf). destruct (range_into buf ltac:(lia)) as [(l & (pre & post & E & E1 & E2) & _)|[_ X]]; [|exact X].
      rewrite E, !len_app in Hp. pose proof (len_nonneg post). rewrite E1 in Hp. pose proof (len_nonneg l). lia. }
    assert (forall n, 0 <= n < 2 ^ 32 -> skip (cu_rb m) n (mkCursor data pos) = (Err (IoError UnexpectedEof), mkCursor data pos)) as K.
    { intros n Hn. destruct (range_skip n ltac:(lia) ltac:(lia)) as [[X _]|[_ X]]; [lia|exact X]. }
    destruct o; cbn [run_byte_op nothing legal_byte_op] in *;
      unfold read_be_u16, read_be_u16_or_eof, read_be_u24, read_be_u32, read_le_u32; unfold bind; rewrite ?U, ?V, ?R, ?K by assumption; reflexivity.
  Qed.
End At.
Theorem behind_histories m data pos ops : len data < pos <= 2 ^ 63 -> Forall legal_byte_op ops ->
  history_all (run_byte_op (cu_rb m)) ops (mkCursor data pos) = (map nothing ops, mkCursor data pos).
Proof.
  intros Hp H. pose proof (len_nonneg data). induction H as [|o ops Ho H IH]; [reflexivity|]. cbn [history_all map].
  rewrite behind_op; [|split; lia|exact Ho|lia|lia]. rewrite IH. reflexivity.
Qed.
Theorem cursors_refuted : ~ cursors_work.
Proof.
  intros H. destruct (H Release [1; 2; 3] (2 ^ 64 - 1) ltac:(split; [vm_compute; reflexivity|lia])) as [_ X].
  destruct (X 2 ltac:(lia)) as [[X1 _]|[_ X1]]; vm_compute in X1; [apply X1; reflexivity|discriminate].
Qed.
(** From within the data on. *)
Theorem within_histories m pre data ops : bytes_ok data -> len (pre ++ data) < 2 ^ 63 -> Forall legal_byte_op ops ->
  fst (history (run_byte_op (cu_rb m)) ops (mkCursor (pre ++ data) (len pre))) = fst (history (spec_byte_op TEof) ops data).
Proof.
  intros Hb Hl Ho. apply (proj1 (byte_history (cu_rb m) TEof cursor_at (cu_stream m) ops (mkCursor (pre ++ data) (len pre)) data
    (ex_intro _ pre (conj eq_refl (conj eq_refl (conj Hb Hl)))) Ho)).
Qed.
(** Frames and metadata behind the end. *)
Theorem behind_frame m fuel buffer data pos : len data <= pos ->
  read_next_or_eof (cu_rb m) m fuel buffer (mkCursor data pos) = (Ok None, mkCursor data pos).
Proof.
  intros Hp. assert (cu_read_u8_or_eof m (mkCursor data pos) = (Ok None, mkCursor data pos)) as V.
  { unfold cu_read_u8_or_eof. rewrite bind_get. cbn [cu_pos cu_data]. destruct (Z.ltb_spec pos (len data)); [lia|reflexivity]. }
  unfold read_next_or_eof, with_crc16, read_next_body, read_frame_header_or_eof, with_crc8, read_frame_header_body, read_be_u16_or_eof.
  cbv zeta. cbn [crc8_rb crc16_rb read_u8_or_eof cu_rb]. unfold bind, crc8_new, crc16_new, c8_lift, c16_lift. cbn [c8_inner c16_inner].
  rewrite V. reflexivity.
Qed.
Theorem behind_header m un data pos : len data <= pos ->
  read_metadata_block_with_header (cu_rb m) m un (mkCursor data pos) = (Err (IoError UnexpectedEof), mkCursor data pos).
Proof.
  intros Hp. unfold read_metadata_block_with_header, read_metadata_block_header. cbn [cu_rb read_u8].
  assert (cu_read_u8 m (mkCursor data pos) = (Err (IoError UnexpectedEof), mkCursor data pos)) as V.
  { unfold cu_read_u8. rewrite bind_get. cbn [cu_pos cu_data]. destruct (Z.ltb_spec pos (len data)); [lia|reflexivity]. }
  unfold bind. rewrite V. reflexivity.
Qed.
