(** The first bytes of a file; how much of a source was taken; the buffer of the
    sample iterator. *)
From Verif Require Export ProofBlame ProofOptions ProofFrames ProofSamples ProofAlloc ProofInput.
From Verif Require Import SpecReader.

(** * The first four bytes *)
Section Start.
  Context {S : Type} (rb : ReadBytes S) (t : tail) (D : S -> list Z -> Prop) (HS : stream rb t D).

  Lemma be32_start st a b c d l : D st (a :: b :: c :: d :: l) ->
    exists st', read_be_u32 rb st = (Ok (((a * 256 + b) * 256 + c) * 256 + d), st') /\ D st' l.
  Proof.
    intros HD. pose proof (st_bytes _ _ _ HS st _ HD) as Hb.
    inversion Hb as [|? ? Ha Hb1]; subst. inversion Hb1 as [|? ? Hb' Hb2]; subst. inversion Hb2 as [|? ? Hc Hb3]; subst. inversion Hb3 as [|? ? Hd _]; subst.
    destruct (st_u8 _ _ _ HS _ _ _ HD) as (s1 & E1 & HD1). destruct (st_u8 _ _ _ HS _ _ _ HD1) as (s2 & E2 & HD2).
    destruct (st_u8 _ _ _ HS _ _ _ HD2) as (s3 & E3 & HD3). destruct (st_u8 _ _ _ HS _ _ _ HD3) as (s4 & E4 & HD4).
    exists s4. split; [|exact HD4]. unfold read_be_u32, bind. rewrite E1, E2, E3, E4. unfold ret. f_equal. f_equal.
    rewrite be_u32_range by assumption. lia.
  Qed.
  Lemma be32_short st l : D st l -> (length l < 4)%nat ->
    exists st', read_be_u32 rb st = (Err (tail_error t), st').
  Proof.
    intros HD Hl. unfold read_be_u32, bind.
    destruct l as [|a l]. { destruct (st_u8_end _ _ _ HS _ HD) as (s & ->). eauto. }
    destruct (st_u8 _ _ _ HS _ _ _ HD) as (s1 & -> & HD1).
    destruct l as [|b l]. { destruct (st_u8_end _ _ _ HS _ HD1) as (s & ->). eauto. }
    destruct (st_u8 _ _ _ HS _ _ _ HD1) as (s2 & -> & HD2).
    destruct l as [|c l]. { destruct (st_u8_end _ _ _ HS _ HD2) as (s & ->). eauto. }
    destruct (st_u8 _ _ _ HS _ _ _ HD2) as (s3 & -> & HD3).
    destruct l as [|d l]. { destruct (st_u8_end _ _ _ HS _ HD3) as (s & ->). eauto. }
    cbn in Hl. lia.
  Qed.

  Lemma id3_bits v : 0 <= v < 2 ^ 32 -> Z.land v 0xffffff00 = v / 256 * 256.
  Proof.
    intros Hv. change 0xffffff00 with (Z.ldiff (Z.ones 32) (Z.ones 8)).
    apply Z.bits_inj'. intros n Hn. rewrite Z.land_spec, Z.ldiff_spec.
    change 256 with (2 ^ 8). rewrite <- Z.shiftr_div_pow2, <- Z.shiftl_mul_pow2 by lia.
    destruct (Z.lt_ge_cases n 8).
    - rewrite Z.shiftl_spec_low by lia. rewrite (Z.ones_spec_low 8 n) by lia. cbn [negb]. rewrite andb_false_r, andb_false_r. reflexivity.
    - rewrite Z.shiftl_spec, Z.shiftr_spec by lia. replace (n - 8 + 8) with n by lia.
      rewrite (Z.ones_spec_high 8) by lia. cbn [negb]. destruct (Z.lt_ge_cases n 32).
      + rewrite Z.ones_spec_low by lia. rewrite ?andb_true_r. reflexivity.
      + rewrite (Z.ones_spec_high 32) by lia. cbn [andb]; rewrite ?andb_false_r.
        symmetry. destruct (Z.eq_dec v 0) as [->|]; [apply Z.bits_0|]. apply Z.bits_above_log2; [lia|].
        apply Z.lt_le_trans with 32; [|lia]. apply Z.log2_lt_pow2; lia.
  Qed.

  Context (m : build) (un : nat -> list Z) (fuel : nat) (opts : flac_reader_options).

  Theorem starts_id3 st x rest : D st ([73; 68; 51; x] ++ rest) ->
    fst (new_ext rb m un fuel opts st) = Err (FormatError "stream starts with ID3 header rather than FLAC header").
  Proof.
    intros HD. cbn [app] in HD. destruct (be32_start _ _ _ _ _ _ HD) as (s & E & _).
    unfold new_ext, read_stream_header, bind. rewrite E.
    pose proof (st_bytes _ _ _ HS st _ HD) as Hb. inversion Hb as [|? ? _ Hb1]; subst. inversion Hb1 as [|? ? _ Hb2]; subst.
    inversion Hb2 as [|? ? _ Hb3]; subst. inversion Hb3 as [|? ? Hx _]; subst. unfold is_byte in Hx.
    rewrite id3_bits by lia.
    match goal with |- context [negb (?a =? ?b)] => replace (a =? b) with false by lia end. cbn [negb].
    match goal with |- context [?a =? ?b] => replace (a =? b) with true by lia end. reflexivity.
  Qed.
  Theorem starts_other st a b c d rest : D st ([a; b; c; d] ++ rest) -> [a; b; c; d] <> signature -> [a; b; c] <> [73; 68; 51] ->
    fst (new_ext rb m un fuel opts st) = Err (FormatError "invalid stream header").
  Proof.
    intros HD Hn1 Hn2. cbn [app] in HD. destruct (be32_start _ _ _ _ _ _ HD) as (s & E & _).
    unfold new_ext, read_stream_header, bind. rewrite E.
    pose proof (st_bytes _ _ _ HS st _ HD) as Hby. inversion Hby as [|? ? Ha Hb1]; subst. inversion Hb1 as [|? ? Hb Hb2]; subst.
    inversion Hb2 as [|? ? Hc Hb3]; subst. inversion Hb3 as [|? ? Hd _]; subst. unfold is_byte in *.
    rewrite id3_bits by lia.
    match goal with |- context [negb (?a =? ?b)] => destruct (Z.eqb_spec a b) as [Ev|_] end.
    { destruct Hn1. unfold signature. assert (a = 102 /\ b = 76 /\ c = 97 /\ d = 67) as (-> & -> & -> & ->) by lia. reflexivity. }
    cbn [negb]. match goal with |- context [?a =? ?b] => destruct (Z.eqb_spec a b) as [Ev|_] end; [|reflexivity].
    destruct Hn2. assert (a = 73 /\ b = 68 /\ c = 51) as (-> & -> & ->) by lia. reflexivity.
  Qed.
  Theorem starts_short st l : D st l -> (length l < 4)%nat -> fst (new_ext rb m un fuel opts st) = Err (tail_error t).
  Proof.
    intros HD Hl. destruct (be32_short st l HD Hl) as (s & E). unfold new_ext, read_stream_header, bind. rewrite E. reflexivity.
  Qed.
End Start.

(** * What was taken *)
Section Taken.
  Context (m : build) (t : tail) (script : list event) (l : list Z) (Hd : delivers t script l).

  Lemma lazily_taken st rest : lazily t script l st rest ->
    taken_for script (len l - len rest) (br_into_inner st).
  Proof. intros (_ & used & E & HT). rewrite E, len_app. replace (len used + len rest - len rest) with (len used) by lia. exact HT. Qed.

  Theorem bytes_taken ops : Forall legal_byte_op ops ->
    Forall succeeded (fst (history (spec_byte_op t) ops l)) ->
    taken_for script (len l - len (snd (history (spec_byte_op t) ops l)))
      (br_into_inner (snd (history (run_byte_op (br_rb m)) ops (br_new script)))).
  Proof.
    intros Hl Hs. apply lazily_taken.
    apply (byte_history (br_rb m) t (lazily t script l) (lazy_stream m t script l Hd) ops (br_new script) l (lazy_new t script l Hd) Hl). exact Hs.
  Qed.

  Context (un : nat -> list Z) (Hun : forall n, length (un n) = n) (fuel : nat) (Hf : (length l < fuel)%nat).

  Theorem open_taken opts r : flac_new_ext m un fuel script opts = Ok r ->
    exists w rest, l = w ++ rest /\ opens opts (fr_get_streaminfo r) (fr_vorbis_comment r) w
      /\ taken_for script (len w) (fr_into_inner r).
  Proof.
    unfold flac_new_ext. intros Hr.
    pose proof (new_ext_result (br_rb m) t (lazily t script l) (lazy_stream m t script l Hd) m un Hun fuel opts (br_new script) l (lazy_new t script l Hd) Hf) as H.
    destruct (new_ext _ _ _ _ _ _) as [o st]. cbn [fst] in Hr. subst o. destruct H as (w & rest & inp & El & Ho & HL & Hi).
    exists w, rest. split; [exact El|]. split; [exact Ho|].
    apply lazily_taken in HL. rewrite El, len_app in HL. replace (len w + len rest - len rest) with (len w) in HL by lia.
    unfold fr_into_inner. rewrite Hi. destruct (metadata_only opts); exact HL.
  Qed.

  Lemma read_blocks {S} (rb : ReadBytes S) buffers : forall (r : flac_reader S) inp, fr_input r = Full inp ->
    let h := history_all (read_next_or_eof rb m fuel) buffers inp in
    history_all (session_step rb m fuel) (map ReadBlock buffers) (mkSession r None)
    = (map (fun o => b <~ o ;; Ok (GotBlock b)) (fst h), mkSession (with_input r (snd h)) None).
  Proof.
    cbv zeta. induction buffers as [|b buffers IH]; intros r inp Hi.
    - cbn. do 2 f_equal. unfold with_input. rewrite Hi. destruct r as [si vc i]. cbn in *. congruence.
    - cbn [map history_all]. unfold session_step at 1. cbn [drop_samples se_samples se_reader]. unfold fr_blocks. rewrite Hi.
      destruct (read_next_or_eof rb m fuel b inp) as [o inp1].
      rewrite (IH (with_input r inp1) inp1) by (unfold with_input; cbn; rewrite Hi; reflexivity).
      destruct (history_all (read_next_or_eof rb m fuel) buffers inp1) as [os inp2]. cbn [fst snd map]. do 2 f_equal.
      unfold with_input. cbn. rewrite Hi. reflexivity.
  Qed.

  Theorem frames_taken opts si vc w frames ws rest buffers : opens opts si vc w -> metadata_only opts = false ->
    Forall2 (fun f w => frame_code (fst f) (snd f) w) frames ws ->
    l = w ++ concat ws ++ rest -> length buffers = length frames ->
    exists r, flac_new_ext m un fuel script opts = Ok r
      /\ let h := history_all (session_step (br_rb m) m fuel) (map ReadBlock buffers) (mkSession r None) in
         Forall2 (fun o f => exists b, o = Ok (GotBlock (Some b)) /\ block_shows b (fst f) (snd f)) (fst h) frames
         /\ taken_for script (len (w ++ concat ws)) (fr_into_inner (drop_samples (snd h))).
  Proof.
    intros Ho Hm HF El Hb. unfold flac_new_ext.
    pose proof (lazy_stream m t script l Hd) as HS.
    pose proof (new_ext_result (br_rb m) t _ HS m un Hun fuel opts (br_new script) l (lazy_new t script l Hd) Hf) as H.
    destruct (new_ext _ _ _ _ _ _) as [[r|e| | |] st]; try contradiction.
    2:{ exfalso. exact (H si vc w _ El Ho). }
    destruct H as (w' & rest' & inp & El' & Ho' & HL & Hi). rewrite Hm in Hi.
    assert (rest' = concat ws ++ rest) as ->.
    { rewrite El in El'. symmetry. eapply (opens_unique _ _ _ _ _ _ _ _ _ Ho Ho'); [|exact El']. rewrite <- El.
      exact (st_bytes _ _ _ HS _ _ (lazy_new t script l Hd)). }
    exists r. split; [reflexivity|]. cbv zeta. rewrite (read_blocks (br_rb m) buffers r inp Hi).
    assert (length (concat ws ++ rest) < fuel)%nat as Hf' by (rewrite El, app_length in Hf; lia).
    destruct (frames_in_order (br_rb m) t _ HS m fuel frames ws HF buffers rest inp Hb HL Hf') as [H1 H2].
    destruct (history_all (read_next_or_eof (br_rb m) m fuel) buffers inp) as [os inp']. cbn [fst snd] in *. split.
    - clear - H1. induction H1 as [|o f os fs (b & -> & Hb) _ IH]; cbn [map]; constructor; [|exact IH]. exists b. auto.
    - cbn [drop_samples se_samples se_reader]. unfold fr_into_inner, with_input. cbn [fr_input]. rewrite Hi.
      apply lazily_taken in H2. rewrite El, app_assoc, len_app in H2.
      replace (len (w ++ concat ws) + len rest - len rest) with (len (w ++ concat ws)) in H2 by lia. exact H2.
  Qed.

  (** Any calls. *)
  Lemma history_all_rel {S1 S2 O A} (R : S1 -> S2 -> Prop) (f1 : O -> M S1 A) (f2 : O -> M S2 A) :
    (forall o, sim no_esc R eq (f1 o) (f2 o)) -> forall ops s1 s2, R s1 s2 ->
    Forall (fun o => from_source o = false) (fst (history_all f1 ops s1)) ->
    R (snd (history_all f1 ops s1)) (snd (history_all f2 ops s2)).
  Proof.
    intros H. induction ops as [|o ops IH]; intros s1 s2 HR; [auto|]. cbn [history_all]. intros HF.
    specialize (H o s1 s2 HR). destruct (f1 o s1) as [o1 s1'], (f2 o s2) as [o2 s2']. cbn [fst snd] in H.
    specialize (IH s1' s2'). destruct (history_all f1 ops s1'), (history_all f2 ops s2'). cbn [fst snd] in *.
    inversion HF as [|? ? Hn HF']; subst. apply IH; [|exact HF'].
    destruct o1 as [a|e| | |]; try discriminate Hn.
    - destruct H as (? & _ & _ & H). exact H.
    - destruct H as [[]|[_ H]]. apply H. destruct e; [discriminate Hn|exact Logic.I..].
  Qed.
  Theorem calls_taken opts r calls : flac_new_ext m un fuel script opts = Ok r ->
    let h := history_all (session_step (br_rb m) m fuel) calls (mkSession r None) in
    Forall (fun o => from_source o = false) (fst h) ->
    exists w rest, l = w ++ rest
      /\ match fr_input (drop_samples (snd h)) with Full inp | MetadataOnly inp => buffered t inp rest end
      /\ taken_for script (len w) (fr_into_inner (drop_samples (snd h))).
  Proof.
    intros Hr h HF. unfold flac_new_ext in Hr. pose proof (lazy_stream m t script l Hd) as HS.
    pose proof (new_ext_result (br_rb m) t _ HS m un Hun fuel opts (br_new script) l (lazy_new t script l Hd) Hf) as H.
    destruct (new_ext _ _ _ _ _ _) as [o st]. cbn [fst] in Hr. subst o. destruct H as (w & rest & inp & El & Ho & HL & Hi).
    set (r' := mkFr (fr_streaminfo r) (fr_vorbis_comment r) (if metadata_only opts then MetadataOnly rest else Full rest)).
    assert (Rses (lazily t script l) (mkSession r None) (mkSession r' None)) as HR.
    { split; [|exact Logic.I]. repeat split; cbn. rewrite Hi. destruct (metadata_only opts); exact HL. }
    pose proof (history_all_rel (Rses (lazily t script l)) (session_step (br_rb m) m fuel) (session_step (fl_rb t) m fuel)
      (fun c => session_sim _ (br_rb m) (fl_rb t) m fuel (stream_rb_sim (br_rb m) t _ HS no_esc) (stream_eof_sim (br_rb m) t _ HS no_esc) c)
      calls _ _ HR HF) as HX. fold h in HX.
    apply drop_rels in HX. destruct HX as (_ & _ & HX).
    destruct (fr_input (drop_samples (snd h))) as [i|i] eqn:Ei, (fr_input _) as [j|j] in HX; try contradiction;
      pose proof HX as (HB & used & Eu & HT); exists used, j; unfold fr_into_inner; rewrite Ei; auto.
  Qed.
End Taken.

(** * The sample iterator recycles its buffer *)
Section Recycle.
  Context {S : Type} (rb : ReadBytes S) (I : S -> Prop) (HR : byte_reader rb I) (m : build) (fuel : nat).
  Context (t : tail) (D : S -> list Z -> Prop) (HS : stream rb t D).
  Notation step := (fs_next (traced rb) m fuel).

  Lemma no_more n : (1 < fuel)%nat -> t = TEof -> forall s q, I s -> D s [] ->
    snd (fs_frame_reader (snd (nexts step n (mkFs (s, q) block_empty 0 0 false)))) = q.
  Proof.
    intros Hf Ht. induction n as [|n IH]; intros s q HI HD; [reflexivity|].
    destruct (frame_ends (traced rb) t (fun s l => D (fst s) l) (traced_stream rb t D HS) m fuel (mkVec [] 0) (s, q) [] Ht ltac:(cbn; lia) Hf HD) as ([s' q'] & E & HD').
    rewrite nexts_S, (step_boundary (traced rb) m fuel _ _ (s, q) _ _ (boundary_start (s, q)) E).
    cbn [snd]. destruct (buffer_requests rb I HR m fuel (mkVec [] 0) s q HI) as [[Eq _]|(k & _ & _ & _ & Ec & _)].
    - rewrite E in Eq. cbn [snd] in Eq. subst q'. apply IH; [|exact HD'].
      destruct (read_next_or_eof_ssim al_frame (diag (Iq I al_frame q)) (traced rb) (traced rb) m fuel (traced_rb rb I HR al_frame q) al_frame_4
          (traced_eof rb I HR al_frame q) (mkVec [] 0) (s, q) (s, q) (conj eq_refl (start_q I al_frame q s HI))) as [[_ [X _]] _]. rewrite E in X. exact X.
    - rewrite E in Ec. contradiction Ec. reflexivity.
  Qed.

  Lemma pcm_length (bs : list block) ls : Forall2 block_interleaved bs ls ->
    Z.of_nat (length (concat ls)) = fold_right Z.add 0 (map block_samples bs).
  Proof.
    induction 1 as [|b l bs ls (chs & Hb & ->) _ IH]; [reflexivity|]. cbn [concat map fold_right]. rewrite app_length, Nat2Z.inj_add, IH, interleave_length.
    unfold block_samples. destruct (holds_nch b chs Hb) as (N1 & N2 & N3 & N4). lia.
  Qed.

  Lemma blocks_inv bs : forall buffer s q0 s' q last, blocks_read (traced rb) m fuel buffer (s, q0) bs last (s', q) -> I s -> I s'.
  Proof.
    assert (forall buffer s q o s' q', read_next_or_eof (traced rb) m fuel buffer (s, q) = (o, (s', q')) -> I s -> I s') as X.
    { intros buffer s q o s' q' E HI.
      destruct (read_next_or_eof_ssim al_frame (diag (Iq I al_frame q)) (traced rb) (traced rb) m fuel (traced_rb rb I HR al_frame q) al_frame_4
          (traced_eof rb I HR al_frame q) buffer (s, q) (s, q) (conj eq_refl (start_q I al_frame q s HI))) as [[_ [X _]] _]. rewrite E in X. exact X. }
    induction bs as [|b bs IH]; intros buffer s q0 s' q last H HI; inversion H as [? ? ? ? E|? ? ? [s1 q1] ? ? ? E H']; subst.
    - exact (X _ _ _ _ _ _ E HI).
    - exact (IH _ _ _ _ _ _ H' (X _ _ _ _ _ _ E HI)).
  Qed.

  Theorem samples_recycle s q0 l bs s' q n : I s -> D s l -> (length l < fuel)%nat -> (1 < fuel)%nat ->
    blocks_read (traced rb) m fuel (mkVec [] 0) (s, q0) bs (Ok None) (s', q) ->
    fold_right Z.add 0 (map block_samples bs) < Z.of_nat n ->
    snd (fs_frame_reader (snd (nexts step n (mkFs (s, q0) block_empty 0 0 false))))
    = q0 ++ growth 0 (map block_samples bs).
  Proof.
    intros HI HD Hf Hf1 HB Hn. pose proof (traced_stream rb t D HS) as HT.
    destruct (blocks_hold (traced rb) t _ HT m fuel _ _ _ _ _ HB l HD Hf) as (ls & HF).
    destruct (blocks_runs (traced rb) m fuel _ _ _ _ _ HB ls _ HF (boundary_start (s, q0))) as (st' & buffer' & s'' & HRn & HBd & E).
    pose proof (step_boundary (traced rb) m fuel _ _ _ _ _ HBd E) as Es. cbv iota in Es.
    rewrite <- (pcm_length bs ls HF) in Hn.
    destruct (blocks_end (traced rb) t _ HT m fuel _ _ _ _ HB l HD Hf) as [Ht HD'].
    replace n with (length (concat ls) + Datatypes.S (n - length (concat ls) - 1))%nat by lia.
    rewrite nexts_app. cbn [snd]. unfold runs in HRn. rewrite map_length in HRn. rewrite HRn. cbn [snd].
    rewrite nexts_S, Es. cbn [snd]. rewrite (no_more _ Hf1 Ht s' q (blocks_inv _ _ _ _ _ _ _ HB HI) HD').
    exact (recycled rb I HR m fuel t D HS bs _ s q0 s' q l HB HI HD Hf ltac:(unfold vec_ok; cbn; lia)).
  Qed.
End Recycle.

Theorem iterator_recycles {S} (rb : ReadBytes S) I t D : byte_reader rb I -> stream rb t D ->
  forall m fuel (r : flac_reader (S * list (Z * Z))) it s q0 l bs s' q n,
  fr_blocks r = Ok (s, q0) -> sample_iterator r it -> I s -> D s l -> (length l < fuel)%nat -> (1 < fuel)%nat ->
  blocks_read (traced rb) m fuel (mkVec [] 0) (s, q0) bs (Ok None) (s', q) ->
  fold_right Z.add 0 (map block_samples bs) < Z.of_nat n ->
  snd (fs_frame_reader (snd (nexts (fs_next (traced rb) m fuel) n it))) = q0 ++ growth 0 (map block_samples bs).
Proof.
  intros HR HS m fuel r it s q0 l bs s' q n Hb Hit. unfold fr_blocks in Hb. unfold sample_iterator, fr_samples, fr_into_samples in Hit.
  destruct (fr_input r) as [inp|inp]; [|discriminate]. injection Hb as ->.
  assert (it = mkFs (s, q0) block_empty 0 0 false) as -> by (destruct Hit; congruence).
  apply (samples_recycle rb I HR m fuel t D HS).
Qed.
