(** No panics, no undefined behaviour, termination: C30. *)
From Verif Require Export ProofSession ProofSafe ProofTimes ProofPause.
From Verif Require Import SpecReader.

(** * Runs of zeros *)
Lemma bits_skipn : forall p l, skipn (8 * p) (bytes_bits l) = bytes_bits (skipn p l).
Proof.
  induction p as [|p IH]; intros [|x l]; try reflexivity.
  replace (8 * Datatypes.S p)%nat with (8 + 8 * p)%nat by lia. cbn [skipn]. rewrite <- IH. reflexivity.
Qed.
Lemma bits_firstn : forall p l, firstn (8 * p) (bytes_bits l) = bytes_bits (firstn p l).
Proof.
  induction p as [|p IH]; intros [|x l]; try reflexivity.
  replace (8 * Datatypes.S p)%nat with (8 + 8 * p)%nat by lia. cbn [firstn bytes_bits flat_map]. fold (bytes_bits (firstn p l)). rewrite <- IH. reflexivity.
Qed.
Lemma bits_length l : length (bytes_bits l) = (8 * length l)%nat.
Proof. induction l as [|x l IH]; [reflexivity|]. cbn [bytes_bits flat_map length]. rewrite app_length. fold (bytes_bits l). rewrite IH. cbn [bits_of length]. lia. Qed.
Lemma zero_byte x : is_byte x -> bits_of 8 x = repeat false 8 -> x = 0.
Proof.
  intros Hx E. cbn [bits_of repeat] in E. injection E as E7 E6 E5 E4 E3 E2 E1 E0.
  apply Z.bits_inj'. intros n Hn. rewrite Z.bits_0.
  destruct (Z.ltb_spec n 8).
  - assert (n = 0 \/ n = 1 \/ n = 2 \/ n = 3 \/ n = 4 \/ n = 5 \/ n = 6 \/ n = 7) as Hc by lia.
    repeat (destruct Hc as [->|Hc]; [assumption|]). subst n. assumption.
  - apply Z.bits_above_log2; [unfold is_byte in Hx; lia|].
    destruct (Z.eq_dec x 0) as [->|]; [cbn; lia|]. assert (Z.log2 x < 8); [|lia]. apply Z.log2_lt_pow2; unfold is_byte in Hx; lia.
Qed.
Lemma zero_bytes : forall l, bytes_ok l -> bytes_bits l = repeat false (8 * length l) -> l = repeat 0 (length l).
Proof.
  induction l as [|x l IH]; intros Hb E; [reflexivity|]. inversion Hb as [|? ? Hx Hl]; subst.
  cbn [length] in E. replace (8 * Datatypes.S (length l))%nat with (8 + 8 * length l)%nat in E by lia.
  rewrite repeat_app in E. cbn [bytes_bits flat_map] in E. fold (bytes_bits l) in E.
  assert (bits_of 8 x = repeat false 8 /\ bytes_bits l = repeat false (8 * length l)) as [E1 E2].
  { split.
    - apply (f_equal (firstn 8)) in E. exact E.
    - apply (f_equal (skipn 8)) in E. exact E. }
  cbn [length repeat]. rewrite (zero_byte x Hx E1). f_equal. apply IH; assumption.
Qed.
Lemma skipn_repeat {A} (x : A) : forall n k, skipn k (repeat x n) = repeat x (n - k).
Proof. induction n as [|n IH]; intros [|k]; try reflexivity. cbn. apply IH. Qed.
Lemma firstn_repeat {A} (x : A) : forall n k, (k <= n)%nat -> firstn k (repeat x n) = repeat x k.
Proof. induction n as [|n IH]; intros [|k] H; try reflexivity; [lia|]. cbn. f_equal. apply IH. lia. Qed.

Lemma zero_bits_bytes (k : nat) l : bytes_ok l ->
  (forall a b, l <> a ++ repeat 0 k ++ b) -> forall a b, bytes_bits l <> a ++ repeat false (8 * k + 7) ++ b.
Proof.
  intros Hb Hl a b E. set (p := ((length a + 7) / 8)%nat).
  assert (length a <= 8 * p /\ 8 * p <= length a + 7)%nat as [Hp1 Hp2].
  { unfold p. pose proof (Nat.div_mod (length a + 7) 8 ltac:(lia)). pose proof (Nat.mod_upper_bound (length a + 7) 8 ltac:(lia)). lia. }
  assert (firstn (8 * k) (skipn (8 * p) (bytes_bits l)) = repeat false (8 * k)) as E1.
  { rewrite E, skipn_app, (skipn_all2 a) by lia. cbn [app]. rewrite skipn_app, skipn_repeat, firstn_app, repeat_length.
    replace (8 * k - (8 * k + 7 - (8 * p - length a)))%nat with 0%nat by lia. cbn [firstn]. rewrite app_nil_r, firstn_repeat by lia. reflexivity. }
  rewrite bits_skipn, bits_firstn in E1.
  assert (length (firstn k (skipn p l)) = k) as Hk.
  { apply (f_equal (@length bool)) in E1. rewrite bits_length, repeat_length in E1. lia. }
  apply (Hl (firstn p l) (skipn k (skipn p l))).
  replace (repeat 0 k) with (firstn k (skipn p l)); [rewrite !firstn_skipn; reflexivity|].
  rewrite <- Hk at 2. apply zero_bytes; [|rewrite Hk; exact E1]. apply Forall_firstn, Forall_skipn, Hb.
Qed.
Lemma no_zero_bits l : bytes_ok l -> no_zero_bytes (2 ^ 29 - 1) l -> no_zero_run (2 ^ 32 - 1) (bytes_bits l).
Proof.
  intros Hb H a b. replace (Z.to_nat (2 ^ 32 - 1)) with (8 * Z.to_nat (2 ^ 29 - 1) + 7)%nat by lia. apply zero_bits_bytes; assumption.
Qed.
Lemma no_zero_bytes_suffix n a b : no_zero_bytes n (a ++ b) -> no_zero_bytes n b.
Proof. intros H x y E. apply (H (a ++ x) y). rewrite E, app_assoc. reflexivity. Qed.
Lemma no_zero_bytes_prefix n a b : no_zero_bytes n (a ++ b) -> no_zero_bytes n a.
Proof. intros H x y E. apply (H x (y ++ b)). rewrite E, <- !app_assoc. reflexivity. Qed.

Lemma calm_bits (m : build) l : bytes_ok l -> m = Release \/ no_zero_bytes (2 ^ 29 - 1) l -> m = Release \/ no_zero_run (2 ^ 32 - 1) (bytes_bits l).
Proof. intros Hb [H|H]; [auto|right]. apply no_zero_bits; assumption. Qed.
Lemma calm_suffix (m : build) n a b : m = Release \/ no_zero_bytes n (a ++ b) -> m = Release \/ no_zero_bytes n b.
Proof. intros [H|H]; [auto|right]. eapply no_zero_bytes_suffix, H. Qed.

(** A few bytes in front make a run longer by at most their number. *)
Lemma no_zero_bytes_front n k a b : 0 <= k -> 0 <= n -> len a <= k -> no_zero_bytes n b -> no_zero_bytes (n + k) (a ++ b).
Proof.
  intros Hk Hn Ha H x y E.
  assert (skipn (length a) (a ++ b) = b) as Eb by (rewrite skipn_app, skipn_all, Nat.sub_diag; reflexivity).
  rewrite E in Eb. rewrite skipn_app, skipn_app, skipn_repeat in Eb. rewrite repeat_length in Eb.
  set (d := (length a - length x)%nat) in *.
  apply (H (skipn (length a) x ++ repeat 0 (Z.to_nat (n + k) - d - Z.to_nat n)) (skipn (d - Z.to_nat (n + k)) y)).
  rewrite <- Eb, <- !app_assoc. f_equal. rewrite (app_assoc (repeat 0 _)), <- repeat_app. do 2 f_equal.
  unfold len in Ha. lia.
Qed.

(** * Sessions *)
Section Sessions.
  Context {S : Type} (rb : ReadBytes S) (m : build) (fuel : nat) (I : S -> Prop).
  Definition diag (a b : S) : Prop := a = b /\ I a.
  Context (H : rb_ssim (fun _ _ => True) diag rb rb) (He : eof_ssim diag rb rb).
  Context (Hsee : forall st, I st -> exists rb' t D l, (forall buffer, until_none (read_next_or_eof rb m fuel buffer) (read_next_or_eof rb' m fuel buffer))
                    /\ stream rb' t D /\ D st l /\ (length l < fuel)%nat /\ (m = Release \/ no_zero_run (2 ^ 32 - 1) (bytes_bits l))).

  Lemma next_keeps buffer st : I st -> let r := read_next_or_eof rb m fuel buffer st in
    value_or_error (fst r) /\ I (snd r)
    /\ forall b, fst r = Ok (Some b) -> exists chs, block_holds b chs.
  Proof.
    intros HI r. destruct (read_next_or_eof_ssim (fun _ _ => True) diag rb rb m fuel H (fun _ _ => Logic.I) He buffer st st (conj eq_refl HI)) as [[_ HI'] _].
    destruct (Hsee st HI) as (rb' & t & D & l & Hsame & HS & HD & Hf & Hz). destruct (Hsame buffer st) as [E1 _]. unfold r. rewrite E1.
    split; [exact (frame_safe rb' t D HS m fuel buffer st l Hz HD Hf)|].
    split; [exact HI'|]. intros b Eb. destruct (read_next_or_eof rb' m fuel buffer st) as [o st'] eqn:E. cbn [fst] in Eb. subst o.
    exact (next_holds rb' t D HS m fuel buffer st l b st' HD Hf E).
  Qed.

  (** The position of an iterator over samples. *)
  Definition inside (it : flac_samples S) : Prop :=
    (fs_block it = block_empty /\ fs_sample it = 0 /\ fs_channel it = 0)
    \/ (exists chs, block_holds (fs_block it) chs)
       /\ 0 <= fs_sample it < block_duration (fs_block it) /\ 0 <= fs_channel it < block_channels (fs_block it).
  Definition Iit (it : flac_samples S) : Prop :=
    I (fs_frame_reader it) /\ (fs_has_failed it = true \/ inside it).

  Definition kept (r : outcome (option (result Z)) * flac_samples S) : Prop := value_or_error (fst r) /\ Iit (snd r).
  Lemma yield_keeps it : I (fs_frame_reader it) -> (exists chs, block_holds (fs_block it) chs) ->
    0 <= fs_sample it < block_duration (fs_block it) -> 0 <= fs_channel it < block_channels (fs_block it) ->
    kept (fs_yield it).
  Proof.
    intros HI (chs & Hb) Hs Hc. unfold fs_yield. rewrite bind_get.
    destruct (holds_sample_any _ _ Hb (fs_channel it) (fs_sample it) ltac:(lia) ltac:(lia)) as [[(x & ->) _]|[_ Hn]]; [|nia].
    unfold kept; cbn. split; [left; eauto|]. split; [exact HI|]. right. right. split; [eauto|auto].
  Qed.

  Lemma samples_keep it : Iit it -> kept (fs_next rb m fuel it).
  Proof.
    intros [HI Hp]. unfold fs_next. rewrite bind_get. destruct (fs_has_failed it) eqn:Ef.
    { unfold kept; cbn. split; [left; eauto|]. split; [exact HI|auto]. }
    destruct Hp as [Hp|Hp]; [discriminate|].
    assert (0 <= fs_channel it < 8 /\ 0 <= fs_sample it < 65535) as [Hc Hs].
    { destruct Hp as [(_ & -> & ->)|((chs & Hb) & H1 & H2)]; [lia|]. destruct Hb as (? & ? & _). lia. }
    rewrite (chk_u32 m (fs_channel it + 1)), bind_lift_ok by lia. unfold bind at 1, fs_set_channel at 1.
    destruct (block_channels (fs_block it) <=? fs_channel it + 1) eqn:Ec.
    2:{ destruct Hp as [(Eb & _ & Ec')|((chs & Hb) & H1 & H2)]; [rewrite Eb, Ec' in Ec; discriminate Ec|].
        cbn [fs_frame_reader fs_block fs_sample fs_channel fs_has_failed]. apply yield_keeps; cbn [fs_frame_reader fs_block fs_sample fs_channel fs_has_failed]; eauto. lia. }
    unfold bind at 1, fs_set_channel at 1. rewrite (chk_u32 m (fs_sample it + 1)), bind_lift_ok by lia.
    unfold bind at 1, fs_set_sample at 1.
    destruct (block_duration (fs_block it) <=? fs_sample it + 1) eqn:Es.
    2:{ destruct Hp as [(Eb & Es' & _)|((chs & Hb) & H1 & H2)]; [rewrite Eb, Es' in Es; discriminate Es|].
        cbn [fs_frame_reader fs_block fs_sample fs_channel fs_has_failed]. apply yield_keeps; cbn [fs_frame_reader fs_block fs_sample fs_channel fs_has_failed]; eauto; [lia|]. destruct Hb as (? & _). lia. }
    unfold bind at 1, fs_set_sample at 1. unfold bind at 1, fs_set_block at 1. unfold bind at 1, catch, fs_lift.
    cbn [fs_frame_reader fs_block fs_sample fs_channel fs_has_failed].
    destruct (next_keeps (block_into_buffer (fs_block it)) (fs_frame_reader it) HI) as (Hv & HI' & Hb).
    destruct (read_next_or_eof rb m fuel (block_into_buffer (fs_block it)) (fs_frame_reader it)) as [o st']. cbn [fst snd] in *.
    destruct Hv as [[[b|] ->]|[e ->]].
    - destruct (Hb b eq_refl) as (chs & Hh). pose proof Hh as (? & ? & _). apply yield_keeps; cbn; eauto; lia.
    - unfold kept; cbn. split; [left; eauto|]. split; [exact HI'|]. right. left. auto.
    - unfold kept; cbn. split; [left; eauto|]. split; [exact HI'|]. left. reflexivity.
  Qed.

  Definition Ise (s : session S) : Prop :=
    (exists inp, fr_input (se_reader s) = Full inp /\ I inp)
    /\ match se_samples s with Some it => Iit it | None => True end.

  Lemma session_safe c : safe Ise (session_step rb m fuel c).
  Proof.
    intros s [(inp & Ei & HI) Hs].
    assert (exists inp', fr_input (drop_samples s) = Full inp' /\ I inp') as (inp' & Ei' & HI').
    { unfold drop_samples. destruct (se_samples s) as [it|]; [|eauto]. cbn [with_input fr_input]. rewrite Ei. destruct Hs. eauto. }
    destruct c as [buffer| |]; cbn [session_step]; unfold good.
    - unfold fr_blocks. rewrite Ei'. destruct (next_keeps buffer inp' HI') as (Hv & HI'' & _).
      destruct (read_next_or_eof rb m fuel buffer inp') as [o st']. cbn [fst snd] in *. split.
      + destruct Hv as [[x ->]|[e ->]]; cbn; [left|right]; eauto.
      + split; [|exact Logic.I]. cbn. rewrite Ei'. eauto.
    - assert (forall it, Iit it -> let p := fs_next rb m fuel it in
        value_or_error (x <~ fst p ;; match x with Some (ROk v) => Ok (GotSample (Some v)) | Some (RErr e) => Err e | None => Ok (GotSample None) end)
        /\ Ise (mkSession (se_reader s) (Some (snd p)))) as X.
      { intros it Hit p. destruct (samples_keep it Hit) as [Hv Hit']. fold p in Hv, Hit'. split.
        - destruct Hv as [[[[v|e]|] ->]|[e ->]]; cbn; [left|right|left|right]; eauto.
        - split; [cbn; eauto|exact Hit']. }
      destruct (se_samples s) as [it|].
      + specialize (X it Hs). destruct (fs_next rb m fuel it). exact X.
      + unfold fr_samples. rewrite Ei. specialize (X (mkFs inp block_empty 0 0 false)).
        destruct (fs_next rb m fuel _). apply X. split; [exact HI|]. right. left. auto.
    - unfold good; cbn [fst snd]. split; [left; eauto|]. split; [|exact Logic.I]. cbn. eauto.
  Qed.

  Theorem sessions_safe r inp calls : fr_input r = Full inp -> I inp ->
    Forall value_or_error (fst (history_all (session_step rb m fuel) calls (mkSession r None))).
  Proof.
    intros Ei HI. apply (history_all_safe Ise _ (fun _ => True)).
    - intros c _. apply session_safe.
    - apply Forall_forall. auto.
    - split; [cbn; eauto|exact Logic.I].
  Qed.
End Sessions.

(** * Any stream, up to the first failure *)
Definition flat_ok (m : build) (fuel : nat) (l : list Z) : Prop :=
  bytes_ok l /\ (length l < fuel)%nat /\ (m = Release \/ no_zero_bytes (2 ^ 29 - 1) l).
Lemma flat_suffix m fuel a b : flat_ok m fuel (a ++ b) -> flat_ok m fuel b.
Proof.
  intros (H1 & H2 & H3). split; [apply Forall_app in H1; apply H1|]. rewrite app_length in H2. split; [lia|]. eapply calm_suffix, H3.
Qed.
Lemma flat_see t m fuel l : flat_ok m fuel l -> exists rb' t' D l',
  (forall buffer, until_none (read_next_or_eof (fl_rb t) m fuel buffer) (read_next_or_eof rb' m fuel buffer))
  /\ stream rb' t' D /\ D l l' /\ (length l' < fuel)%nat /\ (m = Release \/ no_zero_run (2 ^ 32 - 1) (bytes_bits l')).
Proof.
  intros (H1 & H2 & H3). exists (fl_rb t), t, (fun st l => st = l /\ bytes_ok l), l. split; [intros; apply until_refl|]. split; [apply fl_stream|]. split; [auto|]. split; [exact H2|].
  apply calm_bits; assumption.
Qed.
Lemma flat_rb t m fuel : rb_ssim (fun _ _ => True) (diag (flat_ok m fuel)) (fl_rb t) (fl_rb t).
Proof.
  split.
  - intros l ? [<- Hl]. destruct l as [|b l]; cbn.
    { split; [|reflexivity]. split; [reflexivity|exact Hl]. }
    split; [split; [reflexivity|exact (flat_suffix m fuel [b] l Hl)]|].
    exists b. destruct Hl as [Hb _]. inversion Hb. repeat split; auto; unfold is_byte in *; lia.
  - intros n sz _ l ? [<- Hl]. cbn. split; [split; [reflexivity|exact Hl]|eauto].
Qed.
Lemma flat_eof t m fuel : eof_ssim (diag (flat_ok m fuel)) (fl_rb t) (fl_rb t).
Proof.
  intros l ? [<- Hl]. destruct l as [|b l]; cbn.
  - split; [split; auto|]. destruct t; eauto.
  - split; [split; [reflexivity|exact (flat_suffix m fuel [b] l Hl)]|].
    exists (Some b). destruct Hl as [Hb _]. inversion Hb. repeat split; auto; unfold is_byte in *; lia.
Qed.

Lemma history_prefix {S O A} (f : O -> M S A) : forall ops st, exists rest, fst (history_all f ops st) = fst (history f ops st) ++ rest.
Proof.
  induction ops as [|o ops IH]; intros st; cbn [history history_all]; [exists []; reflexivity|].
  destruct (f o st) as [r st']. destruct (IH st') as (rest & E). destruct r; destruct (history_all f ops st') as [rs s1].
  1: destruct (history f ops st') as [rs' s2]; cbn [fst] in *; subst rs; exists rest; reflexivity.
  all: exists rs; reflexivity.
Qed.

Section AnyStream.
  Context {S : Type} (rb : ReadBytes S) (t : tail) (D : S -> list Z -> Prop) (HS : stream rb t D).
  Context (m : build) (un : nat -> list Z) (Hun : forall n, length (un n) = n).

  Theorem open_safe fuel opts st l : D st l -> (length l < fuel)%nat -> value_or_error (fst (new_ext rb m un fuel opts st)).
  Proof.
    intros HD Hf. pose proof (new_ext_result rb t D HS m un Hun fuel opts st l HD Hf) as H.
    destruct (new_ext rb m un fuel opts st) as [[r|e| | |] s]; [left|right|contradiction..]; cbn; eauto.
  Qed.
  Theorem stream_safe fuel r inp l calls : fr_blocks r = Ok inp -> D inp l -> (length l < fuel)%nat ->
    m = Release \/ no_zero_bytes (2 ^ 29 - 1) l ->
    Forall value_or_error (fst (history_until_io (session_step rb m fuel) calls (mkSession r None))).
  Proof.
    intros Ei HD Hf Hz. unfold fr_blocks in Ei. destruct (fr_input r) as [x|x] eqn:E; [injection Ei as ->|discriminate].
    set (r' := mkFr (fr_streaminfo r) (fr_vorbis_comment r) (Full l)).
    rewrite (history_until_io_sim (Rses D) (session_step rb m fuel) (session_step (fl_rb t) m fuel)
      (fun c => session_sim D rb (fl_rb t) m fuel (stream_rb_sim rb t D HS no_esc) (stream_eof_sim rb t D HS no_esc) c)
      calls (mkSession r None) (mkSession r' None)).
    2:{ split; [|exact I]. repeat split; cbn. rewrite E. exact HD. }
    - destruct (history_until_io_prefix (session_step (fl_rb t) m fuel) calls (mkSession r' None)) as (rest & Er).
      assert (Forall value_or_error (fst (history_all (session_step (fl_rb t) m fuel) calls (mkSession r' None)))) as Hall.
      { apply (sessions_safe (fl_rb t) m fuel (flat_ok m fuel) (flat_rb t m fuel) (flat_eof t m fuel) (flat_see t m fuel) r' l); [reflexivity|].
        split; [apply (st_bytes _ _ _ HS) in HD; exact HD|]. auto. }
      rewrite Er in Hall. apply Forall_app in Hall. apply Hall.
  Qed.
  Theorem opened_safe fuel opts st l r calls : D st l -> (length l < fuel)%nat -> m = Release \/ no_zero_bytes (2 ^ 29 - 1) l ->
    metadata_only opts = false -> fst (new_ext rb m un fuel opts st) = Ok r ->
    Forall value_or_error (fst (history_until_io (session_step rb m fuel) calls (mkSession r None))).
  Proof.
    intros HD Hf Hz Hm E. pose proof (new_ext_result rb t D HS m un Hun fuel opts st l HD Hf) as H.
    destruct (new_ext rb m un fuel opts st) as [o s]. cbn [fst] in E. subst o. destruct H as (w & rest & inp & -> & _ & HD' & Ei).
    rewrite Hm in Ei. apply (stream_safe fuel r inp rest); [unfold fr_blocks; rewrite Ei; reflexivity|exact HD'| |].
    - rewrite app_length in Hf. lia.
    - apply calm_suffix in Hz. exact Hz.
  Qed.
  Theorem metadata_safe ty n st l : 0 <= ty <= 255 -> 0 <= n < 2 ^ 32 -> D st l ->
    value_or_error (fst (read_metadata_block rb m un ty n st))
    /\ value_or_error (fst (read_metadata_block_with_header rb m un st)).
  Proof.
    intros Hty Hn HD. split.
    - destruct (Z.leb_spec ty 127).
      + pose proof (block_result rb t D HS m un Hun st ty n l ltac:(lia) Hn HD) as H0.
        destruct (read_metadata_block rb m un ty n st) as [[r|e| | |] s]; [left|right|contradiction..]; cbn; eauto.
      + pose proof (block_result rb t D HS m un Hun st 126 n l ltac:(lia) Hn HD) as H0.
        replace (read_metadata_block rb m un ty n st) with (read_metadata_block rb m un 126 n st).
        * destruct (read_metadata_block rb m un 126 n st) as [[r|e| | |] s]; [left|right|contradiction..]; cbn; eauto.
        * unfold read_metadata_block.
          repeat match goal with |- context [ty =? ?k] => replace (ty =? k) with false by lia end. reflexivity.
    - pose proof (header_result rb t D HS m un Hun st l HD) as H0.
      destruct (read_metadata_block_with_header rb m un st) as [[r|e| | |] s]; [left|right|contradiction..]; cbn; eauto.
  Qed.
  Theorem metadata_iter_safe n st l : D st l -> Forall succeeded (fst (nexts (mr_next rb m un) n (mr_new st))).
  Proof.
    intros HD. unfold nexts.
    assert (forall k a, (mr_done a = false -> exists l, D (mr_input a) l) ->
      Forall succeeded (fst (history_all (fun _ : unit => mr_next rb m un) (repeat tt k) a))) as Y.
    { induction k as [|k IH]; intros [inp d] Ha; [constructor|]. cbn [repeat history_all]. cbn [mr_done mr_input] in Ha. destruct d.
      - rewrite next_done. specialize (IH (mkMr inp true)). destruct (history_all _ _ _). cbn [fst] in *. constructor; [eexists; reflexivity|].
        apply IH. discriminate.
      - destruct (Ha eq_refl) as (l' & HD').
        destruct (next_result rb t D HS m un Hun inp l' HD') as [(last & b & w & rest & st1 & _ & _ & HD'' & E)|(e & st1 & _ & E)]; rewrite E.
        + specialize (IH (mkMr st1 last)). destruct (history_all _ _ _). cbn [fst] in *. constructor; [eexists; reflexivity|]. apply IH. eauto.
        + specialize (IH (mkMr st1 true)). destruct (history_all _ _ _). cbn [fst] in *. constructor; [eexists; reflexivity|]. apply IH. discriminate. }
    apply Y. intros _. exists l. exact HD.
  Qed.
End AnyStream.

(** * A [BufferedReader] over a source that may fail at any time *)
Lemma ssim_diag {S A} (I : S -> Prop) (c c' : M S A) : (forall st, I st -> c st = c' st) -> (forall st, I st -> I (snd (c st))) ->
  ssim (diag I) eq c c'.
Proof.
  intros E K st ? [<- HI]. rewrite <- (E st HI). split; [split; [reflexivity|apply K, HI]|].
  destruct (fst (c st)); eauto.
Qed.
Definition keeps {S A} (I : S -> Prop) (c : M S A) : Prop := forall st, I st -> I (snd (c st)).
Lemma keeps_bind {S A B} (I : S -> Prop) (c : M S A) (f : A -> M S B) : keeps I c -> (forall a, keeps I (f a)) -> keeps I (bind c f).
Proof.
  intros Hc Hf st HI. specialize (Hc st HI). unfold bind. destruct (c st) as [[a|e|w|w|] s]; cbn [snd] in *; auto. apply Hf, Hc.
Qed.
Lemma keeps_lift {S A} (I : S -> Prop) (o : outcome A) : keeps I (lift o).
Proof. intros st HI. exact HI. Qed.
Lemma keeps_get {S} (I : S -> Prop) : keeps I get.
Proof. intros st HI. exact HI. Qed.

Section Source.
  Context (m : build).

  (** What never changes: the buffer holds bytes, and what is left of the script. *)
  Definition Jbr (sc : list event) (st : breader) : Prop :=
    bytes_ok (br_buf st) /\ Forall contract_ok (br_inner st) /\ exists used, sc = used ++ br_inner st.

  Lemma set_pos_keeps sc p : keeps (Jbr sc) (br_set_pos p).
  Proof. intros st HJ. exact HJ. Qed.
  Lemma set_num_keeps sc p : keeps (Jbr sc) (br_set_num_valid p).
  Proof. intros st HJ. exact HJ. Qed.
  Lemma inner_keeps sc : keeps (Jbr sc) inner_read.
  Proof.
    intros st (Hb & Hs & used & E). unfold inner_read. destruct (br_inner st) as [|[c|k] r] eqn:Ei; cbn [snd].
    - split; [exact Hb|]. rewrite Ei. split; [constructor|eauto].
    - apply Forall_cons_iff in Hs as [[Hc _] Hs]. split; cbn [br_buf br_inner].
      + apply Forall_firstn, bytes_ok_app; [exact Hc|]. apply Forall_skipn, Hb.
      + split; [exact Hs|]. exists (used ++ [EvData c]). rewrite <- app_assoc. exact E.
    - apply Forall_cons_iff in Hs as [_ Hs]. split; [exact Hb|]. split; [exact Hs|]. cbn. exists (used ++ [EvErr k]). rewrite <- app_assoc. exact E.
  Qed.
  Ltac ktac := repeat first
    [ apply keeps_bind; [|intros ?] | apply keeps_lift | apply keeps_get | apply set_pos_keeps | apply set_num_keeps | apply inner_keeps
    | assumption | match goal with |- keeps _ (if ?c then _ else _) => destruct c end ].
  Lemma refill_keeps sc : keeps (Jbr sc) br_refill.
  Proof. unfold br_refill. ktac. Qed.
  Lemma u8_keeps sc : keeps (Jbr sc) (br_read_u8 m).
  Proof. pose proof (refill_keeps sc). unfold br_read_u8. ktac. Qed.
  Lemma eof_keeps sc : keeps (Jbr sc) (br_read_u8_or_eof m).
  Proof. pose proof (refill_keeps sc). pose proof (u8_keeps sc). unfold br_read_u8_or_eof. ktac. Qed.
  Lemma into_keeps sc buffer : keeps (Jbr sc) (br_read_into m buffer).
  Proof.
    pose proof (refill_keeps sc).
    assert (forall fuel buffer left, keeps (Jbr sc) (br_read_into_loop m fuel buffer left)) as X.
    { induction fuel as [|fuel IH]; intros b left; cbn [br_read_into_loop]; ktac; apply IH. }
    unfold br_read_into. apply keeps_bind; [apply keeps_get|]. intros; apply X.
  Qed.
  Lemma skip_keeps sc n : keeps (Jbr sc) (br_skip m n).
  Proof.
    pose proof (refill_keeps sc).
    assert (forall fuel amount, keeps (Jbr sc) (br_skip_loop m fuel amount)) as X.
    { induction fuel as [|fuel IH]; intros amount; cbn [br_skip_loop]; ktac; apply IH. }
    unfold br_skip. apply keeps_bind; [apply keeps_get|]. intros; apply X.
  Qed.

  (** [read_into] does not look at what was in the buffer. *)
  Lemma into_loop_alike : forall fuel b1 b2 left st, br_inv st -> length b1 = length b2 -> 0 <= left <= len b1 -> len b1 < 2 ^ 63 ->
    firstn (Z.to_nat (len b1 - left)) b1 = firstn (Z.to_nat (len b1 - left)) b2 ->
    br_read_into_loop m fuel b1 left st = br_read_into_loop m fuel b2 left st.
  Proof.
    induction fuel as [|fuel IH]; intros b1 b2 left st HI Hl Hleft Hlen Hf; cbn [br_read_into_loop];
      (destruct (Z.ltb_spec 0 left) as [Hp|Hp];
       [|assert (left = 0) as -> by lia; unfold len in *; replace (Z.to_nat (Z.of_nat (length b1) - 0)) with (length b1) in Hf by lia;
         rewrite firstn_all, Hl, firstn_all in Hf; subst; reflexivity]); [reflexivity|].
    pose proof HI as (Hb & Hpos & Hn & Hc). rewrite !bind_get. replace (len b2) with (len b1) by (unfold len; lia).
    rewrite chk_u64 by lia. rewrite !bind_lift_ok.
    rewrite chk_u32 by lia. rewrite !bind_lift_ok. cbv zeta.
    set (count := Z.min left (br_num_valid st - br_pos st)) in *.
    rewrite !slice_ok by (unfold len in *; lia). rewrite !bind_lift_ok.
    rewrite chk_u64 by lia. rewrite !bind_lift_ok.
    rewrite u32_id by lia. rewrite chk_u32 by lia. rewrite !bind_lift_ok.
    set (src := firstn _ (skipn (Z.to_nat (br_pos st)) (br_buf st))).
    assert (len src = count) as Hsrc. { unfold src, len in *. rewrite firstn_length, skipn_length. lia. }
    unfold bind, br_set_pos.
    set (st1 := mkBR (br_inner st) (br_buf st) (br_pos st + count) (br_num_valid st)).
    assert (br_inv st1) as HI1
      by (unfold br_inv; cbn [st1 br_inner br_buf br_pos br_num_valid]; repeat split; auto; lia).
    assert (forall b, length b = length b1 -> length (splice b (len b1 - left) src) = length b1
      /\ firstn (Z.to_nat (len b1 - (left - count))) (splice b (len b1 - left) src) = firstn (Z.to_nat (len b1 - left)) b ++ src) as HS.
    { intros b Hbl. unfold splice, len in *. split.
      - rewrite !app_length, firstn_length, skipn_length. lia.
      - rewrite app_assoc. rewrite firstn_app.
        assert (length (firstn (Z.to_nat (Z.of_nat (length b1) - left)) b ++ src) = Z.to_nat (Z.of_nat (length b1) - (left - count))) as El
          by (rewrite app_length, firstn_length; lia).
        rewrite <- El, firstn_all, Nat.sub_diag. cbn [firstn]. apply app_nil_r. }
    destruct (HS b1 eq_refl) as [L1 F1], (HS b2 (eq_sym Hl)) as [L2 F2].
    assert (forall s, br_inv s -> br_read_into_loop m fuel (splice b1 (len b1 - left) src) (left - count) s
              = br_read_into_loop m fuel (splice b2 (len b1 - left) src) (left - count) s) as X.
    { intros s Hs. assert (len (splice b1 (len b1 - left) src) = len b1) as Hlb by exact (f_equal Z.of_nat L1).
      apply IH; auto; try lia. rewrite Hlb, F1, F2, Hf. reflexivity. }
    destruct (0 <? left - count); [|apply X, HI1].
    destruct (refill_inv st1 HI1) as (o & st' & Hr & HI' & Hp' & [[err ->]|[-> Ho]]); rewrite Hr; [reflexivity|].
    cbn [get]. destruct (br_num_valid st' =? 0); [reflexivity|]. apply X, HI'.
  Qed.
  Lemma into_alike b1 b2 st : br_inv st -> length b1 = length b2 -> len b1 < 2 ^ 63 -> br_read_into m b1 st = br_read_into m b2 st.
  Proof.
    intros HI Hl Hlen. unfold br_read_into. rewrite !bind_get. replace (len b2) with (len b1) by (unfold len; lia).
    pose proof (len_nonneg b1). apply into_loop_alike; auto; [lia|]. replace (len b1 - len b1) with 0 by lia. reflexivity.
  Qed.

  Definition source_ok (sc : list event) (st : breader) : Prop := br_inv st /\ Jbr sc st.

  Lemma source_start sc : Forall contract_ok sc -> source_ok sc (br_new sc).
  Proof.
    intros Hs. split; [apply br_new_inv, Hs|]. split; [|split; [exact Hs|exists []; reflexivity]].
    cbn [br_new br_buf]. apply Forall_forall. intros x Hx. apply repeat_spec in Hx as ->. unfold is_byte. lia.
  Qed.

  Lemma source_rb sc : rb_ssim (fun _ _ => True) (diag (source_ok sc)) (br_rb m) (br_rb m).
  Proof.
    split; [|intros n sz _; apply ssim_diag; auto]. intros st ? [<- [HI HJ]]. cbn [br_rb read_u8].
    destruct (br_u8_safe m st HI) as [Hv HI']. pose proof (u8_keeps sc st HJ) as HJ'.
    split; [split; [reflexivity|split; assumption]|].
    assert (forall a, fst (br_read_u8 m st) = Ok a -> 0 <= a < 256) as X.
    { clear - HJ. intros a. unfold br_read_u8. rewrite bind_get.
      assert (forall s, Jbr sc s -> fst ((st0 <- get;; byte <- lift (index_unchecked (br_buf st0) (br_pos st0));; p <- lift (chk m u32 (br_pos st0 + 1));; br_set_pos p;;; ret byte) s) = Ok a -> 0 <= a < 256) as Y.
      { intros s (Hb & _) Es. rewrite bind_get in Es. unfold index_unchecked in Es. destruct (_ <=? _); cbn in Es; [|discriminate Es].
        destruct (nth_error _ _) eqn:En; cbn in Es; [|discriminate Es]. destruct (chk m u32 _) eqn:Ec; cbn in Es; try discriminate Es.
        injection Es as <-. apply nth_error_In in En. unfold bytes_ok in Hb. rewrite Forall_forall in Hb. apply Hb, En. }
      destruct (_ =? _).
      - pose proof (refill_keeps sc st HJ) as HJ'. unfold bind at 1. unfold bind at 1. destruct (br_refill st) as [[u|e|w|w|] s]; cbn [fst snd] in *; try discriminate.
        rewrite bind_get. destruct (_ =? _); [discriminate|]. apply Y, HJ'.
      - apply Y, HJ. }
    destruct (fst (br_read_u8 m st)) as [a| | | |]; auto. exists a. repeat split; auto; apply (X a eq_refl).
  Qed.
  Lemma source_eof sc : eof_ssim (diag (source_ok sc)) (br_rb m) (br_rb m).
  Proof.
    intros st ? [<- [HI HJ]]. cbn [br_rb read_u8_or_eof].
    destruct (br_eof_safe m st HI) as [Hv HI']. pose proof (eof_keeps sc st HJ) as HJ'.
    split; [split; [reflexivity|split; assumption]|].
    assert (forall a, fst (br_read_u8_or_eof m st) = Ok a -> match a with Some x => 0 <= x < 256 | None => True end) as X.
    { intros a. unfold br_read_u8_or_eof. rewrite bind_get.
      assert (forall s, source_ok sc s -> fst ((b <- br_read_u8 m ;; ret (Some b)) s) = Ok a -> match a with Some x => 0 <= x < 256 | None => True end) as Y.
      { intros s Hs. destruct (rss_u8 _ _ _ _ (source_rb sc) s s (conj eq_refl Hs)) as [_ Hx]. cbn [br_rb read_u8] in Hx. unfold bind.
        destruct (br_read_u8 m s) as [[x|e|w|w|] s']; cbn [fst] in *; try discriminate. intros [= <-].
        destruct Hx as (b & [= <-] & Hb). destruct Hb. assumption. }
      destruct (_ =? _).
      - pose proof (refill_keeps sc st HJ) as HJ2. destruct (refill_inv st HI) as (o & st' & Hr & HI2 & _ & Ho).
        unfold bind at 1. unfold bind at 1. rewrite Hr in *. cbn [snd] in HJ2. destruct Ho as [[e ->]|[-> _]]; [discriminate|].
        rewrite bind_get. cbn [ret]. destruct (_ =? _); [intros [= <-]; exact I|]. apply Y. split; assumption.
      - apply Y. split; assumption. }
    destruct (fst (br_read_u8_or_eof m st)) as [a| | | |]; auto. exists a. repeat split; auto; apply (X a eq_refl).
  Qed.
  Lemma source_bulk sc : bulk_ssim (diag (source_ok sc)) (br_rb m) (br_rb m).
  Proof.
    split.
    - intros b1 b2 Hl Hb. apply ssim_diag; intros st [HI HJ]; cbn [br_rb read_into].
      + apply into_alike; auto. lia.
      + split; [|apply into_keeps, HJ]. assert (len b1 < 2 ^ 63) as Hb' by lia. 
        pose proof (byte_op_safe m (OpInto b1) Hb' st HI) as [_ X]. cbn [run_byte_op br_rb read_into] in X. unfold bind in X.
        destruct (br_read_into m b1 st) as [[] ?]; exact X.
    - intros n Hn. apply ssim_diag; intros st [HI HJ]; [reflexivity|]. cbn [br_rb skip].
      split; [|apply skip_keeps, HJ].
      pose proof (byte_op_safe m (OpSkip n) Hn st HI) as [_ X]. cbn [run_byte_op br_rb skip] in X. unfold bind in X.
      destruct (br_skip m n st) as [[] ?]; exact X.
  Qed.

  Lemma script_until sc : Forall contract_ok sc -> exists t l rest, until_pause t sc l /\ script_data sc = l ++ rest.
  Proof.
    induction 1 as [|e r He Hr IH].
    - exists TEof, [], []. split; [constructor; reflexivity|reflexivity].
    - destruct e as [[|x c]|k]; cbn [contract_ok] in He.
      + exists TEof, [], (script_data r). split; [apply until_zero; reflexivity|reflexivity].
      + destruct IH as (t & l & rest & Hd & E). exists t, ((x :: c) ++ l), rest. split.
        * constructor; [|assumption]. destruct He as [He1 He2]. split; [exact He1|]. split; [|exact He2]. unfold len. cbn [length]. lia.
        * cbn [script_data flat_map]. fold (script_data r). rewrite E, app_assoc. reflexivity.
      + exists (TErr k), [], (script_data r). split; [apply until_err; reflexivity|reflexivity].
  Qed.

  Lemma source_see sc fuel : Forall contract_ok sc -> m = Release \/ no_zero_bytes (2 ^ 29 - 2049) (script_data sc) -> (Z.to_nat 2048 + length (script_data sc) < fuel)%nat ->
    forall st, source_ok sc st -> exists rb' t D l,
      (forall buffer, until_none (read_next_or_eof (br_rb m) m fuel buffer) (read_next_or_eof rb' m fuel buffer))
      /\ stream rb' t D /\ D st l /\ (length l < fuel)%nat /\ (m = Release \/ no_zero_run (2 ^ 32 - 1) (bytes_bits l)).
  Proof.
    intros Hsc Hz Hf st [(Hb & Hp & Hn & Hc) (Hbuf & _ & used & E)].
    assert (Forall contract_ok (br_inner st)) as Hs by (rewrite E in Hsc; apply Forall_app in Hsc; apply Hsc).
    destruct (script_until _ Hs) as (t & l & rest & Hd & El).
    assert (script_data sc = script_data used ++ l ++ rest) as Esc.
    { rewrite E at 1. unfold script_data at 1. rewrite flat_map_app. fold (script_data used) (script_data (br_inner st)). rewrite El. reflexivity. }
    set (pre := firstn (Z.to_nat (br_pos st)) (br_buf st)).
    set (mid := firstn (Z.to_nat (br_num_valid st - br_pos st)) (skipn (Z.to_nat (br_pos st)) (br_buf st))).
    set (post := skipn (Z.to_nat (br_num_valid st - br_pos st)) (skipn (Z.to_nat (br_pos st)) (br_buf st))).
    assert (len pre = br_pos st /\ len mid = br_num_valid st - br_pos st) as [Lp Lm].
    { unfold pre, mid, len in *. rewrite !firstn_length, !skipn_length. lia. }
    assert (pausing t st (mid ++ l)) as HB.
    { exists pre, mid, post, l. split; [unfold pre, mid, post; rewrite !firstn_skipn; reflexivity|]. repeat split; auto; [lia|].
      apply Forall_firstn, Forall_skipn, Hbuf. }
    exists (pause_rb m), t, (pausing t), (mid ++ l). split; [intros; apply stop_frames|]. split; [apply pause_stream|]. split; [exact HB|].
    rewrite Esc in Hz, Hf. rewrite !app_length in Hf. split; [rewrite app_length; unfold len in *; lia|].
    destruct Hz as [Hz|Hz]; [auto|right]. apply no_zero_bits; [apply (st_bytes _ _ _ (pause_stream m t) st), HB|].
    replace (2 ^ 29 - 1) with (2 ^ 29 - 2049 + 2048) by lia. apply no_zero_bytes_front; try lia.
    apply (no_zero_bytes_prefix _ l rest), (no_zero_bytes_suffix _ (script_data used)), Hz.
  Qed.

  Context (un : nat -> list Z) (Hun : forall n, length (un n) = n).

  Theorem source_sessions fuel sc opts r inp calls : Forall contract_ok sc ->
    m = Release \/ no_zero_bytes (2 ^ 29 - 2049) (script_data sc) -> (Z.to_nat 2048 + length (script_data sc) < fuel)%nat ->
    flac_new_ext m un fuel sc opts = Ok r -> fr_blocks r = Ok inp ->
    Forall value_or_error (fst (history_all (session_step (br_rb m) m fuel) calls (mkSession r None))).
  Proof.
    intros Hs Hz Hf Eo Ei. unfold fr_blocks in Ei. destruct (fr_input r) as [x|x] eqn:E; [injection Ei as ->|discriminate].
    apply (sessions_safe (br_rb m) m fuel (source_ok sc) (source_rb sc) (source_eof sc) (source_see sc fuel Hs Hz Hf) r inp calls E).
    assert (forall length, allows (fun _ _ => True) length) as Ha by (intros length _; auto).
    destruct (new_ext_ssim (fun _ _ => True) (diag (source_ok sc)) (br_rb m) (br_rb m) m un un Hun Hun (source_rb sc) (source_bulk sc) Ha fuel opts
      (br_new sc) (br_new sc) (conj eq_refl (source_start sc Hs))) as [_ H].
    unfold flac_new_ext, discard in Eo. destruct (new_ext (br_rb m) m un fuel opts (br_new sc)) as [o s]. cbn [fst] in *. subst o.
    destruct H as (r2 & [= <-] & (_ & _ & HR)). rewrite E in HR. apply HR.
  Qed.
  Theorem source_open fuel sc opts : Forall contract_ok sc -> (length (script_data sc) < fuel)%nat ->
    value_or_error (flac_new_ext m un fuel sc opts).
  Proof.
    intros Hs Hf. destruct (script_until _ Hs) as (t & l & rest & Hd & El). rewrite El, app_length in Hf.
    unfold flac_new_ext, discard. rewrite <- stop_open.
    apply (open_safe (pause_rb m) t (pausing t) (pause_stream m t) m un Hun fuel opts (br_new sc) l (pause_new_buffered t sc l Hd)). lia.
  Qed.
End Source.

(** * A [Cursor] *)
Section Memory.
  Context (m : build).
  Definition memory_ok (fuel : nat) (st : cursor) : Prop := exists l, cursor_at st l /\ flat_ok m fuel l.

  Lemma cursor_end st : cursor_at st [] -> (cu_pos st <? len (cu_data st)) = false.
  Proof. intros (pre & E & Hp & _). rewrite E, app_nil_r, Hp. lia. Qed.
  Lemma memory_rb fuel : rb_ssim (fun _ _ => True) (diag (memory_ok fuel)) (cu_rb m) (cu_rb m).
  Proof.
    split; [|intros n sz _; apply ssim_diag; auto]. intros st ? [<- (l & HD & Hl)]. destruct l as [|b l].
    - assert (read_u8 (cu_rb m) st = (Err (IoError UnexpectedEof), st)) as ->
        by (cbn [cu_rb read_u8]; unfold cu_read_u8; rewrite bind_get, (cursor_end st HD); reflexivity).
      cbn. split; [|reflexivity]. split; [reflexivity|]. exists []. auto.
    - destruct (st_u8 _ _ _ (cu_stream m) st b l HD) as (st' & -> & HD'). cbn. split.
      + split; [reflexivity|]. exists l. split; [exact HD'|exact (flat_suffix m fuel [b] l Hl)].
      + exists b. destruct Hl as [Hb _]. inversion Hb. repeat split; auto; unfold is_byte in *; lia.
  Qed.
  Lemma memory_eof fuel : eof_ssim (diag (memory_ok fuel)) (cu_rb m) (cu_rb m).
  Proof.
    intros st ? [<- (l & HD & Hl)]. destruct l as [|b l].
    - destruct (st_eof_end _ _ _ (cu_stream m) st HD) as (st' & -> & HD'). cbn. split.
      + split; [reflexivity|]. exists []. auto.
      + eauto.
    - destruct (st_eof _ _ _ (cu_stream m) st b l HD) as (st' & -> & HD'). cbn. split.
      + split; [reflexivity|]. exists l. split; [exact HD'|exact (flat_suffix m fuel [b] l Hl)].
      + exists (Some b). destruct Hl as [Hb _]. inversion Hb. repeat split; auto; unfold is_byte in *; lia.
  Qed.
  Lemma memory_see fuel st : memory_ok fuel st -> exists rb' t D l,
    (forall buffer, until_none (read_next_or_eof (cu_rb m) m fuel buffer) (read_next_or_eof rb' m fuel buffer))
    /\ stream rb' t D /\ D st l /\ (length l < fuel)%nat /\ (m = Release \/ no_zero_run (2 ^ 32 - 1) (bytes_bits l)).
  Proof.
    intros (l & HD & H1 & H2 & H3). exists (cu_rb m), TEof, cursor_at, l. split; [intros; apply until_refl|]. split; [apply cu_stream|]. split; [exact HD|]. split; [exact H2|].
    apply calm_bits; assumption.
  Qed.
  Theorem memory_sessions fuel r inp l calls : fr_blocks r = Ok inp -> cursor_at inp l -> (length l < fuel)%nat ->
    m = Release \/ no_zero_bytes (2 ^ 29 - 1) l ->
    Forall value_or_error (fst (history_all (session_step (cu_rb m) m fuel) calls (mkSession r None))).
  Proof.
    intros Ei HD Hf Hz. unfold fr_blocks in Ei. destruct (fr_input r) as [x|x] eqn:E; [injection Ei as ->|discriminate].
    apply (sessions_safe (cu_rb m) m fuel (memory_ok fuel) (memory_rb fuel) (memory_eof fuel) (memory_see fuel) r inp calls E).
    exists l. split; [exact HD|]. split; [|auto]. apply (st_bytes _ _ _ (cu_stream m)) in HD. exact HD.
  Qed.
End Memory.
