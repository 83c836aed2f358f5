(** Times of blocks. *)
From Verif Require Export SpecTimes ProofEncode.
From Verif Require Import SpecReader.

Lemma number_times hs : numbered_by_sample hs -> map header_time hs = positions 0 (map h_size hs).
Proof.
  intros [Hv Hn]. rewrite <- Hn. apply map_ext_in. intros h Hh. rewrite Forall_forall in Hv.
  unfold header_time. rewrite (Hv h Hh). reflexivity.
Qed.
Lemma frame_times hs : numbered_by_frame hs -> same_sizes hs -> map header_time hs = positions 0 (map h_size hs).
Proof.
  intros (Hv & Hn & _) (size & Hs).
  assert (forall hs a, Forall (fun h => h_variable h = false) hs -> Forall (fun h => h_size h = size) hs ->
    map h_number hs = map Z.of_nat (seq a (length hs)) -> map header_time hs = positions (Z.of_nat a * size) (map h_size hs)) as X;
    [|apply (X hs 0%nat); assumption].
  clear. induction hs as [|h hs IH]; intros a Hv Hs Hn; [reflexivity|].
  inversion Hv; subst. inversion Hs; subst. cbn [map length seq positions] in *.
  injection Hn as Hn Hns. f_equal.
  - unfold header_time. rewrite H1, Hn. reflexivity.
  - rewrite (IH (Datatypes.S a)) by assumption. f_equal. lia.
Qed.

Section Times.
  Context {S : Type} (rb : ReadBytes S) (t : tail) (D : S -> list Z -> Prop) (HS : stream rb t D).

  (** Each block has the time of its own header. *)
  Theorem own_times m fuel frames ws :
    Forall2 (fun f w => frame_code (fst f) (snd f) w) frames ws ->
    forall buffers rest st, length buffers = length frames -> D st (concat ws ++ rest) ->
    (length (concat ws ++ rest) < fuel)%nat ->
    Forall2 has_time (fst (history_all (read_next_or_eof rb m fuel) buffers st)) (map header_time (map fst frames)).
  Proof.
    intros HF buffers rest st Hl HD Hf.
    destruct (frames_in_order rb t D HS m fuel frames ws HF buffers rest st Hl HD Hf) as [H _].
    clear - H. induction H as [|r f rs fs (b & E & Hb) H IH]; [constructor|]. cbn [map]. constructor; [|exact IH].
    exists b. split; [exact E|]. apply Hb.
  Qed.
  Theorem times_by_sample m fuel frames ws :
    Forall2 (fun f w => frame_code (fst f) (snd f) w) frames ws ->
    numbered_by_sample (map fst frames) ->
    forall buffers rest st, length buffers = length frames -> D st (concat ws ++ rest) ->
    (length (concat ws ++ rest) < fuel)%nat ->
    Forall2 has_time (fst (history_all (read_next_or_eof rb m fuel) buffers st)) (positions 0 (map h_size (map fst frames))).
  Proof. intros HF Hn. rewrite <- number_times by exact Hn. apply own_times, HF. Qed.
  Theorem times_by_frame m fuel frames ws :
    Forall2 (fun f w => frame_code (fst f) (snd f) w) frames ws ->
    numbered_by_frame (map fst frames) -> same_sizes (map fst frames) ->
    forall buffers rest st, length buffers = length frames -> D st (concat ws ++ rest) ->
    (length (concat ws ++ rest) < fuel)%nat ->
    Forall2 has_time (fst (history_all (read_next_or_eof rb m fuel) buffers st)) (positions 0 (map h_size (map fst frames))).
  Proof. intros HF Hn Hs. rewrite <- frame_times by assumption. apply own_times, HF. Qed.
End Times.

(** A stream of two constant blocks, the second shorter. *)
Definition quiet_info (n : Z) : frame_info :=
  mkInfo false n (Some 44100) (Separate 1) 8 (mkForm 0 6 9) [mkPlan 0 PlanConstant].
Definition quiet (n : nat) : list (list Z) := [repeat (-3) n].

Lemma quiet_ok k n : 0 <= k < 128 -> (1 <= n <= 200)%nat -> info_ok (quiet_info k) (quiet n).
Proof.
  intros Hk Hn. unfold info_ok, quiet_info, quiet.
  cbn [hd length fi_assignment fi_width fi_plans fi_number fi_variable fi_form fi_rate fm_number fm_size fm_rate].
  rewrite !repeat_length.
  split; [cbn; lia|]. split; [reflexivity|]. split; [cbn; tauto|].
  split; [repeat constructor; [apply repeat_length|apply Forall_forall; intros x Hx; apply repeat_spec in Hx; subst; vm_compute; intuition congruence]|].
  split.
  - change (subframe_widths 8 (Separate 1)) with [8]. change (coded_channels (Separate 1) [repeat (-3) n]) with [repeat (-3) n].
    cbn [plans_ok]. split; [|exact I]. unfold plan_ok. cbn [pl_wasted pl_body body_plan_ok].
    split; [lia|]. split; [lia|]. split.
    + apply Forall_forall. intros x _. apply Z.mod_1_r.
    + destruct n as [|n]; [lia|]. cbn [repeat hd]. constructor; [reflexivity|].
      apply Forall_forall. intros x Hx. apply repeat_spec in Hx. congruence.
  - split; [lia|]. split; [cbn; lia|]. split; [lia|].
    split; [|apply rate_table; cbn; tauto]. unfold size_extra. cbn [Z.eqb Pos.eqb]. apply size_8bit. lia.
Qed.

Definition two_quiet : list (header * list (list Z)) :=
  [(info_header (quiet_info 0) 17, quiet 17); (info_header (quiet_info 1) 16, quiet 16)].
Definition two_bytes : list (list Z) :=
  [encode_frame (quiet_info 0) (quiet 17); encode_frame (quiet_info 1) (quiet 16)].
Lemma two_quiet_ok : Forall2 (fun f w => frame_code (fst f) (snd f) w) two_quiet two_bytes.
Proof.
  constructor; [|constructor; [|constructor]].
  - apply (encode_frame_ok (quiet_info 0) (quiet 17)). apply quiet_ok; lia.
  - apply (encode_frame_ok (quiet_info 1) (quiet 16)). apply quiet_ok; lia.
Qed.
Lemma two_quiet_numbers : numbered_by_frame (map fst two_quiet).
Proof.
  split; [repeat constructor|]. split; [reflexivity|]. exists 17. split.
  - intros [|[|i]] h E Hi; cbn in *; try lia. injection E as <-. reflexivity.
  - repeat constructor; cbn; lia.
Qed.
Lemma short_last_block : ~ (forall m fuel frames ws buffers,
  Forall2 (fun f w => frame_code (fst f) (snd f) w) frames ws ->
  numbered_by_frame (map fst frames) -> length buffers = length frames ->
  (length (concat ws) < fuel)%nat ->
  Forall2 has_time (fst (history_all (read_next_or_eof (cu_rb m) m fuel) buffers (mkCursor (concat ws) 0)))
    (positions 0 (map h_size (map fst frames)))).
Proof.
  intros H. specialize (H Debug 50%nat two_quiet two_bytes [mkVec [] 0; mkVec [] 0] two_quiet_ok two_quiet_numbers eq_refl).
  assert (exists b1 b2, fst (history_all (read_next_or_eof (cu_rb Debug) Debug 50) [mkVec [] 0; mkVec [] 0] (mkCursor (concat two_bytes) 0))
    = [Ok (Some b1); Ok (Some b2)] /\ block_time_of b2 = 16) as (b1 & b2 & E & Ht).
  { eexists _, _. split; [vm_compute; reflexivity|vm_compute; reflexivity]. }
  rewrite E in H. specialize (H ltac:(vm_compute; lia)). cbn [map two_quiet fst positions h_size info_header] in H.
  inversion H as [|? ? ? ? _ H1]. inversion H1 as [|? ? ? ? (b & Eb & Hb) _]. injection Eb as <-. lia.
Qed.

Section Api.
  Context {S : Type} (rb : ReadBytes S) (t : tail) (D : S -> list Z -> Prop) (HS : stream rb t D).

  Lemma decoded_holds m fuel buffer st h chs w rest b st' :
    frame_code h chs w -> D st (w ++ rest) -> (length (w ++ rest) < fuel)%nat ->
    read_next_or_eof rb m fuel buffer st = (Ok (Some b), st') -> block_holds b chs.
  Proof.
    intros Hc HD Hf E. destruct (frame_decoded rb t D HS m fuel buffer st h chs w rest Hc HD Hf) as (b1 & st1 & E1 & Hb & _).
    rewrite E in E1. injection E1 as <- <-.
    destruct Hc as (hw & ? & ? & ? & ? & ? & Hh & _). exact (shows_holds b _ chs hw Hh Hb).
  Qed.

  Lemma fr_iter (r : flac_reader S) s it : fr_blocks r = Ok s -> fr_samples r = Ok it \/ fr_into_samples r = Ok it ->
    it = mkFs s block_empty 0 0 false.
  Proof.
    unfold fr_blocks, fr_samples, fr_into_samples. destruct (fr_input r); [|discriminate].
    intros E [H|H]; injection H as <-; injection E as <-; reflexivity.
  Qed.
  Theorem fr_samples_end m fuel (r : flac_reader S) s it l bs s' :
    fr_blocks r = Ok s -> fr_samples r = Ok it \/ fr_into_samples r = Ok it ->
    D s l -> (length l < fuel)%nat -> (1 < fuel)%nat ->
    blocks_read rb m fuel (mkVec [] 0) s bs (Ok None) s' ->
    exists ls, Forall2 block_interleaved bs ls
      /\ yields (fs_next rb m fuel) it (map ROk (concat ls)).
  Proof.
    intros Hs Hi HD Hf H1 HR. rewrite (fr_iter r s it Hs Hi).
    exact (samples_yield rb t D HS m fuel s l HD Hf H1 bs _ s' HR).
  Qed.
  Theorem fr_samples_error m fuel (r : flac_reader S) s it l bs e s' :
    fr_blocks r = Ok s -> fr_samples r = Ok it \/ fr_into_samples r = Ok it ->
    D s l -> (length l < fuel)%nat -> (1 < fuel)%nat ->
    blocks_read rb m fuel (mkVec [] 0) s bs (Err e) s' ->
    exists ls, Forall2 block_interleaved bs ls
      /\ yields (fs_next rb m fuel) it (map ROk (concat ls) ++ [RErr e])
      /\ forall n, (length (concat ls) < n)%nat ->
         fs_frame_reader (snd (nexts (fs_next rb m fuel) n it)) = s'.
  Proof.
    intros Hs Hi HD Hf H1 HR. rewrite (fr_iter r s it Hs Hi).
    exact (samples_yield rb t D HS m fuel s l HD Hf H1 bs _ s' HR).
  Qed.
End Api.

Lemma no_stereo b : block_channels b <> 2 -> exists w, block_stereo_samples b = Panic w.
Proof.
  intros Hn. unfold block_stereo_samples. unfold block_channels in Hn.
  replace (bl_channels b =? 2) with false by lia. cbn [negb]. eauto.
Qed.
