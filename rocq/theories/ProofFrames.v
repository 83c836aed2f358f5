(** Successive frames. *)
From Verif Require Export ProofLimits.
From Verif Require Import SpecReader.

Section Frames.
  Context {S : Type} (rb : ReadBytes S) (t : tail) (D : S -> list Z -> Prop) (HS : stream rb t D).
  Context (m : build) (fuel : nat).
  Notation next := (read_next_or_eof rb m fuel).

  Lemma nones buffers : forall st, t = TEof -> (1 < fuel)%nat -> D st [] ->
    fst (history_all next buffers st) = repeat (Ok None) (length buffers).
  Proof.
    induction buffers as [|b bs IH]; intros st Ht Hf HD; cbn [history_all repeat length]; [reflexivity|].
    destruct (frame_ends rb t D HS m fuel b st [] Ht ltac:(cbn; lia) Hf HD) as (st' & E & HD'). rewrite E.
    specialize (IH st' Ht Hf HD'). destruct (history_all next bs st'). cbn [fst] in *. congruence.
  Qed.

  Theorem frames_in_order frames ws : Forall2 (fun f w => frame_code (fst f) (snd f) w) frames ws ->
    forall buffers rest st, length buffers = length frames -> D st (concat ws ++ rest) ->
    (length (concat ws ++ rest) < fuel)%nat ->
    Forall2 shows_frame (fst (history_all next buffers st)) frames
    /\ D (snd (history_all next buffers st)) rest.
  Proof.
    induction 1 as [|[h chs] w frames ws Hw HF IH]; intros buffers rest st Hl HD Hf;
      (destruct buffers as [|b bs]; [try discriminate Hl|try discriminate Hl]); cbn [history_all].
    - split; [constructor|exact HD].
    - cbn [concat] in *. rewrite <- app_assoc in *.
      destruct (frame_decoded rb t D HS m fuel b st h chs w _ Hw HD Hf) as (bl & st' & E & Hb & HD'). rewrite E.
      specialize (IH bs rest st' ltac:(cbn in Hl; lia) HD' ltac:(rewrite app_length in Hf; lia)).
      destruct (history_all next bs st'). cbn [fst snd] in *. destruct IH as [IH1 IH2].
      split; [|exact IH2]. constructor; [|exact IH1]. exists bl. auto.
  Qed.

  Theorem frames_to_the_end frames ws : Forall2 (fun f w => frame_code (fst f) (snd f) w) frames ws ->
    forall buffers more st, length buffers = length frames -> t = TEof -> D st (concat ws) ->
    (length (concat ws) + 1 < fuel)%nat ->
    exists blocks, fst (history_all next (buffers ++ more) st) = blocks ++ repeat (Ok None) (length more)
      /\ Forall2 shows_frame blocks frames.
  Proof.
    intros HF buffers more st Hl Ht HD Hf.
    destruct (frames_in_order frames ws HF buffers [] st Hl) as [H1 H2].
    - rewrite app_nil_r. exact HD.
    - rewrite app_nil_r. lia.
    - exists (fst (history_all next buffers st)). split; [|exact H1].
      assert (forall bs st, fst (history_all next (bs ++ more) st)
                = fst (history_all next bs st) ++ fst (history_all next more (snd (history_all next bs st)))) as X.
      { clear. induction bs as [|b bs IH]; intros st; cbn [history_all app]; [reflexivity|].
        destruct (next b st) as [r s]. specialize (IH s).
        destruct (history_all next (bs ++ more) s), (history_all next bs s). cbn [fst snd] in *. rewrite IH. reflexivity. }
      rewrite X. f_equal. apply nones; [exact Ht|lia|exact H2].
  Qed.
End Frames.

(** ** The size of numbers *)
Lemma accepted_bound w v : accepted_number w v -> 0 <= v < 2 ^ 42 /\ (nth 0 w 0 <> 255 -> v < 2 ^ 36) /\ w <> [].
Proof.
  intros H. apply accepted_number_form in H as [[Hv ->]|(k & Hk & Hv & ->)].
  - split; [lia|]. split; [lia|discriminate].
  - split; [|split].
    + destruct Hv as [[-> Hv]|[Hk' Hv]]; [exact Hv|].
      assert (number_limit k <= 2 ^ 36); [|lia].
      do 7 (destruct k as [|k]; [cbn; lia|]). lia.
    + destruct Hv as [[-> Hv]|[Hk' Hv]].
      * cbn [number_bytes nth]. intros Hne. exfalso. apply Hne.
        change (64 ^ Z.of_nat 7) with (2 ^ 42). rewrite Z.div_small by lia. reflexivity.
      * assert (number_limit k <= 2 ^ 36); [|lia].
        do 7 (destruct k as [|k]; [cbn; lia|]). lia.
    + destruct k; discriminate.
Qed.

Theorem sample_number_bound {S} (rb : ReadBytes S) t D : stream rb t D -> forall m st l fh st' n,
  D st l -> read_frame_header_or_eof rb m st = (Ok (Some fh), st') ->
  fh_block_time fh = SampleNumber n -> 0 <= n < 2 ^ 42 /\ (nth 4 l 0 <> 255 -> n < 2 ^ 36).
Proof.
  intros HS m st l fh st' n HD E Hn.
  destruct (header_only rb t D HS m st l fh st' HD E) as (h & w & rest & -> & _ & Hw & Hs).
  destruct Hs as (Ht & _). rewrite Hn in Ht.
  destruct Hw as (front & crc & (sc & sx & rc & rx & bc & num & _ & _ & _ & _ & Hnum & _ & ->) & _ & ->).
  destruct (h_variable h); [|discriminate Ht]. injection Ht as ->.
  destruct (accepted_bound _ _ Hnum) as (H1 & H2 & H3). split; [exact H1|].
  intros H. apply H2. destruct num; [congruence|]. exact H.
Qed.

(** ** Huge inputs *)
Lemma cursor_start data : bytes_ok data -> len data < 2 ^ 63 -> cursor_at (mkCursor data 0) data.
Proof. intros Hb Hl. exists []. repeat split; try assumption. Qed.

Section Huge.
  Context (n : nat) (Hn : Z.of_nat n = 2 ^ 29).

  Lemma huge_bytes rest : bytes_ok rest -> bytes_ok (huge n rest).
  Proof.
    intros Hr. unfold huge. apply bytes_app. split; [repeat constructor; lia|].
    apply bytes_cons. split; [lia|]. apply bytes_app. split; [apply bytes_zeros|exact Hr].
  Qed.
  Lemma huge_len rest : len (huge n rest) = 2 ^ 29 + 8 + len rest.
  Proof. unfold huge, len. rewrite app_length. change (length (tiny_front ++ [246])) with 7%nat. cbn [length].
    rewrite app_length, repeat_length. lia. Qed.

  Lemma huge_cursor_panics fuel buffer : (length (huge n []) < fuel)%nat ->
    exists w, fst (read_next_or_eof (cu_rb Debug) Debug fuel buffer (mkCursor (huge n []) 0)) = Panic w.
  Proof.
    intros Hf. pose proof (cursor_start (huge n []) (huge_bytes [] (Forall_nil _)) ltac:(rewrite huge_len; unfold len; cbn [length]; lia)) as HD.
    pose proof (frame_left _ _ _ (stream_rb_sim _ _ _ (cu_stream Debug) no_esc)
      (stream_eof_sim _ _ _ (cu_stream Debug) no_esc) (st_bytes _ _ _ (cu_stream Debug)) Debug fuel _ _ buffer HD Hf) as H.
    cbv zeta in H. destruct (huge_panics TEof n ltac:(lia) [] (Forall_nil _)) as (w & E). rewrite E in H.
    destruct (fst (read_next_or_eof (cu_rb Debug) Debug fuel buffer (mkCursor (huge n []) 0))); try discriminate H.
    - destruct H as (? & ? & _). discriminate.
    - eauto.
  Qed.

  (** In release builds, something that is no frame is accepted. *)
  Lemma huge_accepted : exists data b st', bytes_ok data /\ len data < 2 ^ 63
    /\ read_next_or_eof (cu_rb Release) Release (Datatypes.S (length data)) (mkVec [] 0) (mkCursor data 0) = (Ok (Some b), st')
    /\ cursor_at st' []
    /\ forall h chs, block_shows b h chs -> ~ frame_code h chs data.
  Proof.
    destruct (wraps TEof n Hn) as (crc & w & Hc & E).
    set (tl := [128; crc / 256; crc mod 256]) in *.
    assert (bytes_ok tl) as Ht by (apply bytes_cons; split; [lia|exact Hc]).
    pose proof (cursor_start (huge n tl) (huge_bytes tl Ht) ltac:(rewrite huge_len; unfold len, tl; cbn [length]; lia)) as HD.
    pose proof (frame_left _ _ _ (stream_rb_sim _ _ _ (cu_stream Release) no_esc)
      (stream_eof_sim _ _ _ (cu_stream Release) no_esc) (st_bytes _ _ _ (cu_stream Release)) Release
      (Datatypes.S (length (huge n tl))) _ _ (mkVec [] 0) HD ltac:(lia)) as H.
    cbv zeta in H. rewrite E in H. cbn [fst snd] in H.
    destruct (read_next_or_eof (cu_rb Release) Release (Datatypes.S (length (huge n tl))) (mkVec [] 0) (mkCursor (huge n tl) 0)) as [o st'] eqn:E1.
    cbn [fst snd] in H. destruct o; try discriminate H.
    destruct H as (x & Ex & Hs & HD'). injection Ex as <-. destruct Hs as (b & -> & Hs & _).
    exists (huge n tl), b, st'. split; [apply huge_bytes, Ht|]. split; [rewrite huge_len; unfold len, tl; cbn [length]; lia|].
    split; [exact E1|]. split; [exact HD'|].
    intros h chs _ Hw.
    pose proof (frame_complete TEof Debug h chs _ [] (Forall_nil _) Hw) as Hd. rewrite app_nil_r in Hd.
    destruct (huge_panics TEof n ltac:(lia) tl Ht) as (p & Ep). rewrite Hd in Ep. discriminate.
  Qed.
End Huge.

Lemma huge_refutes n : Z.of_nat n = 2 ^ 29 -> ~ (forall m fuel buffer data,
  bytes_ok data -> len data < 2 ^ 63 -> (length data < fuel)%nat ->
  value_or_error (fst (read_next_or_eof (cu_rb m) m fuel buffer (mkCursor data 0)))).
Proof.
  intros Hn H.
  destruct (huge_cursor_panics n Hn (Datatypes.S (length (huge n []))) (mkVec [] 0) ltac:(lia)) as (w & E).
  specialize (H Debug (Datatypes.S (length (huge n []))) (mkVec [] 0) (huge n [])
                (huge_bytes n [] (Forall_nil _))
                ltac:(rewrite huge_len by exact Hn; unfold len; cbn [length]; lia) ltac:(lia)).
  rewrite E in H. destruct H as [[? H]|[? H]]; discriminate.
Qed.
