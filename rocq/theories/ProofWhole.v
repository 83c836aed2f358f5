(** Whole files: C50 and C54. *)
From Verif Require Export SpecWhole ProofOptions ProofTimes ProofFile.
From Verif Require Import SpecReader.

Lemma same_pieces (n : nat) : forall a b : list (list Z),
  Forall (fun c => length c = n) a -> Forall (fun c => length c = n) b -> length a = length b ->
  concat a = concat b -> a = b.
Proof.
  induction a as [|x a IH]; intros [|y b] Ha Hb Hl E; try discriminate Hl; [reflexivity|].
  inversion Ha as [|? ? Hx Ha']. inversion Hb as [|? ? Hy Hb']. subst. cbn [concat] in E.
  assert (x = y /\ concat a = concat b) as [-> E'].
  { clear - E Hy. revert y Hy E. induction x as [|u x IH]; intros [|v y] Hy E; try discriminate Hy; [auto|].
    cbn in E. injection E as -> E. cbn in Hy. destruct (IH y ltac:(lia) E) as [-> H]. auto. }
  f_equal. apply IH; auto.
Qed.
Lemma holds_unique b chs chs' : block_holds b chs -> block_holds b chs' -> chs = chs'.
Proof.
  intros (_ & _ & H1 & H2 & H3) (_ & _ & G1 & G2 & G3).
  apply (same_pieces (Z.to_nat (block_duration b))).
  - eapply Forall_impl; [|exact H2]. cbv beta. unfold len. lia.
  - eapply Forall_impl; [|exact G2]. cbv beta. unfold len. lia.
  - unfold len in *. lia.
  - congruence.
Qed.

(** What was yielded. *)
Definition somes {A} (l : list (outcome (option A))) : list A :=
  flat_map (fun o => match o with Ok (Some x) => [x] | _ => [] end) l.
Lemma somes_yield {A} (l : list A) n : (length l <= n)%nat ->
  somes (firstn n (map (fun x => Ok (Some x)) l ++ repeat (Ok None) n)) = l.
Proof.
  intros H. rewrite firstn_app, map_length, (firstn_all2 (map _ l)) by (rewrite map_length; lia).
  unfold somes. rewrite flat_map_app.
  assert (forall k n, flat_map (fun o : outcome (option A) => match o with Ok (Some x) => [x] | _ => [] end) (firstn k (repeat (Ok None) n)) = []) as ->.
  { induction k; intros [|j]; cbn; auto. }
  rewrite app_nil_r. clear. induction l; cbn; [reflexivity|]. congruence.
Qed.
Lemma yields_unique {S A} (next : M S (option A)) st l1 l2 : yields next st l1 -> yields next st l2 -> l1 = l2.
Proof.
  intros H1 H2. specialize (H1 (length l1 + length l2)%nat). specialize (H2 (length l1 + length l2)%nat).
  rewrite H1 in H2. apply (f_equal somes) in H2. rewrite !somes_yield in H2 by lia. exact H2.
Qed.
Lemma yields_ok {S A} (next : M S (option A)) st l n : yields next st l -> Forall succeeded (fst (nexts next n st)).
Proof.
  intros H. rewrite H. apply Forall_forall. intros x Hx.
  assert (In x (map (fun x => Ok (Some x)) l ++ repeat (Ok None) n)) as Hi.
  { rewrite <- (firstn_skipn n). apply in_or_app. left. exact Hx. }
  apply in_app_or in Hi as [Hi|Hi].
  - apply in_map_iff in Hi as (y & <- & _). eexists. reflexivity.
  - apply repeat_spec in Hi as ->. eexists. reflexivity.
Qed.

Section Frames.
  Context {S : Type} (rb : ReadBytes S) (t : tail) (D : S -> list Z -> Prop) (HS : stream rb t D).
  Context (m : build) (fuel : nat).

  (** The usual loop over a list of frames. *)
  Lemma frames_blocks frames ws : Forall2 (fun f w => frame_code (fst f) (snd f) w) frames ws ->
    t = TEof -> (1 < fuel)%nat ->
    forall buffer s x, (length x <= 1)%nat -> D s (concat ws ++ x) -> (length (concat ws ++ x) < fuel)%nat ->
    exists bs s', blocks_read rb m fuel buffer s bs (Ok None) s'
      /\ Forall2 (fun b f => block_shows b (fst f) (snd f) /\ block_holds b (snd f)) bs frames.
  Proof.
    intros HF Ht H1. induction HF as [|[h chs] w frames ws Hw HF IH]; intros buffer s x Hx HD Hf.
    - cbn [concat app] in *. destruct (frame_ends rb t D HS m fuel buffer s x Ht Hx H1 HD) as (s' & E & _).
      exists [], s'. split; [|constructor]. apply read_last; [exact E|discriminate].
    - cbn [concat] in *. rewrite <- app_assoc in *. cbn [fst snd] in Hw.
      destruct (frame_decoded rb t D HS m fuel buffer s h chs w _ Hw HD Hf) as (b & s1 & E & Hb & HD').
      destruct (IH (block_into_buffer b) s1 x Hx HD' ltac:(rewrite app_length in Hf; lia)) as (bs & s' & HR & HB).
      exists (b :: bs), s'. split; [eapply read_one; eassumption|]. constructor; [|exact HB]. split; [exact Hb|].
      exact (decoded_holds rb t D HS m fuel buffer s h chs w _ b s1 Hw HD Hf E).
  Qed.

  (** The blocks of the loop determine the samples. *)
  Lemma blocks_pcm bs ls frames : Forall2 block_interleaved bs ls ->
    Forall2 (fun b f => block_shows b (fst f) (snd f) /\ block_holds b (snd f)) bs frames ->
    concat ls = pcm_of frames.
  Proof.
    intros H. revert frames. induction H as [|b l bs ls (chs & Hb & ->) H IH]; intros frames HF; inversion HF as [|? f ? fs [Hs Hh] HF']; subst; [reflexivity|].
    cbn [concat pcm_of flat_map]. fold (pcm_of fs). rewrite (IH _ HF'), (holds_unique _ _ _ Hb Hh).
    destruct Hs as (_ & -> & _). reflexivity.
  Qed.

  Theorem frames_samples frames ws : Forall2 (fun f w => frame_code (fst f) (snd f) w) frames ws ->
    t = TEof -> (1 < fuel)%nat ->
    forall s x, (length x <= 1)%nat -> D s (concat ws ++ x) -> (length (concat ws ++ x) < fuel)%nat ->
    yields (fs_next rb m fuel) (mkFs s block_empty 0 0 false) (map ROk (pcm_of frames)).
  Proof.
    intros HF Ht H1 s x Hx HD Hf. destruct (frames_blocks frames ws HF Ht H1 (mkVec [] 0) s x Hx HD Hf) as (bs & s' & HR & HB).
    destruct (samples_yield rb t D HS m fuel s _ HD Hf H1 bs _ s' HR) as (ls & HI & HY).
    rewrite (blocks_pcm bs ls frames HI HB) in HY. exact HY.
  Qed.

  (** And back. *)
  Lemma blocks_frames buffer s bs s' : blocks_read rb m fuel buffer s bs (Ok None) s' ->
    forall l, D s l -> (length l < fuel)%nat -> m = Debug \/ no_zero_run (2 ^ 32 - 1) (bytes_bits l) ->
    t = TEof /\ exists frames ws x, l = concat ws ++ x /\ (length x <= 1)%nat
      /\ Forall2 (fun f w => frame_code (fst f) (snd f) w) frames ws
      /\ Forall2 (fun b f => block_shows b (fst f) (snd f) /\ block_holds b (snd f)) bs frames.
  Proof.
    remember (Ok None) as last eqn:El.
    induction 1 as [buffer s last s' E Hn|buffer s b s1 bs last s' E HR IH]; intros l HD Hf Hz.
    - subst last. destruct (frame_end rb t D HS m fuel buffer s l s' HD Hf E) as (Ht & Hl & _). split; [exact Ht|].
      exists [], [], l. repeat split; auto.
    - destruct (frame_only rb t D HS m fuel buffer s l b s1 Hz HD Hf E) as (h & chs & w & rest & -> & HD' & Hw & Hb).
      pose proof (decoded_holds rb t D HS m fuel buffer s h chs w rest b s1 Hw HD Hf E) as Hh.
      destruct (IH El rest HD' ltac:(rewrite app_length in Hf; lia)) as (Ht & frames & ws & x & -> & Hx & HF & HB).
      { destruct Hz as [Hz|Hz]; [auto|right]. rewrite bytes_bits_app in Hz. eapply no_zero_run_suffix, Hz. }
      split; [exact Ht|]. exists ((h, chs) :: frames), (w :: ws), x. cbn [concat]. rewrite app_assoc. repeat split; auto.
  Qed.
  Theorem samples_frames s l pcm : D s l -> (length l < fuel)%nat -> (1 < fuel)%nat ->
    m = Debug \/ no_zero_run (2 ^ 32 - 1) (bytes_bits l) ->
    yields (fs_next rb m fuel) (mkFs s block_empty 0 0 false) (map ROk pcm) ->
    t = TEof /\ exists frames ws x, l = concat ws ++ x /\ (length x <= 1)%nat
      /\ Forall2 (fun f w => frame_code (fst f) (snd f) w) frames ws /\ pcm = pcm_of frames.
  Proof.
    intros HD Hf H1 Hz HY. destruct (blocks_exist rb t D HS m fuel (length l) (mkVec [] 0) s l (le_n _) HD Hf) as (bs & last & s' & HR).
    destruct (samples_yield rb t D HS m fuel s l HD Hf H1 bs last s' HR) as (ls & HI & HL).
    assert (forall o : outcome (option (result Z)), (forall a, o <> Ok a) ->
      fst (nexts (fs_next rb m fuel) (length (concat ls) + 1) (mkFs s block_empty 0 0 false)) = map (fun x => Ok (Some (ROk x))) (concat ls) ++ [o] -> False) as X.
    { intros o Ho E. pose proof (yields_ok _ _ _ (length (concat ls) + 1)%nat HY) as H. rewrite E in H.
      apply Forall_app in H as [_ H]. inversion H as [|? ? [a Ha] _]. exact (Ho a Ha). }
    destruct last as [o|e|w|w|].
    - assert (map ROk pcm = map ROk (concat ls)) as E by exact (yields_unique _ _ _ _ HY HL).
      assert (pcm = concat ls) as ->.
      { clear - E. revert E. generalize (concat ls). induction pcm as [|x p IH]; intros [|y q] E; try discriminate E; [reflexivity|].
        cbn in E. injection E as -> E. f_equal. auto. }
      destruct o as [b|].
      { exfalso. clear - HR. remember (Ok (Some b)) as last. induction HR as [? ? ? ? ? Hn|]; [|auto]. apply (Hn b). assumption. }
      destruct (blocks_frames _ _ _ _ HR l HD Hf Hz) as (Ht & frames & ws & x & -> & Hx & HF & HB).
      split; [exact Ht|]. exists frames, ws, x. repeat split; auto. exact (blocks_pcm bs ls frames HI HB).
    - destruct HL as [HL _]. pose proof (yields_unique _ _ _ _ HY HL) as E. exfalso.
      assert (In (RErr e) (map (ROk (A:=Z)) pcm)) as Hi by (rewrite E; apply in_or_app; right; left; reflexivity).
      apply in_map_iff in Hi as (? & Hi & _). discriminate Hi.
    - destruct (X (Panic w)); [discriminate|exact HL].
    - destruct (X (UB w)); [discriminate|exact HL].
    - destruct (X OutOfFuel); [discriminate|exact HL].
  Qed.
End Frames.

Section Files.
  Context {S : Type} (rb : ReadBytes S) (t : tail) (D : S -> list Z -> Prop) (HS : stream rb t D).
  Context (m : build) (un : nat -> list Z) (Hun : forall n, length (un n) = n) (fuel : nat).

  Lemma iterators (r : flac_reader S) inp : fr_blocks r = Ok inp ->
    fr_samples r = Ok (mkFs inp block_empty 0 0 false) /\ fr_into_samples r = Ok (mkFs inp block_empty 0 0 false).
  Proof. unfold fr_blocks, fr_samples, fr_into_samples. destruct (fr_input r); [|discriminate]. intros E. injection E as ->. auto. Qed.

  Theorem file_samples si vc frames st l : t = TEof ->
    file_code si vc frames l -> D st l -> (length l + 1 < fuel)%nat ->
    exists r it, fst (new_ext rb m un fuel default_options st) = Ok r
      /\ fr_get_streaminfo r = si /\ fr_vorbis_comment r = vc
      /\ fr_samples r = Ok it /\ fr_into_samples r = Ok it
      /\ yields (fs_next rb m fuel) it (map ROk (pcm_of frames)).
  Proof.
    intros Ht (w & ws & Hw & HF & ->) HD Hf.
    destruct (new_accepts rb t D HS m un Hun fuel st si vc w (concat ws) Hw HD ltac:(lia)) as (r & inp & E1 & E2 & E3 & E4 & HD').
    exists r, (mkFs inp block_empty 0 0 false). destruct (iterators r inp E4) as [E5 E6].
    repeat (split; [assumption|]). apply (frames_samples rb t D HS m fuel frames ws HF Ht ltac:(lia) inp []).
    - cbn; lia.
    - rewrite app_nil_r. exact HD'.
    - rewrite app_nil_r. rewrite app_length in Hf. lia.
  Qed.

  Theorem file_only st l r it pcm : D st l -> (length l + 1 < fuel)%nat ->
    m = Debug \/ no_zero_run (2 ^ 32 - 1) (bytes_bits l) ->
    fst (new_ext rb m un fuel default_options st) = Ok r -> sample_iterator r it ->
    yields (fs_next rb m fuel) it (map ROk pcm) ->
    t = TEof /\ exists frames l' x, l = l' ++ x /\ (length x <= 1)%nat
      /\ file_code (fr_get_streaminfo r) (fr_vorbis_comment r) frames l' /\ pcm = pcm_of frames.
  Proof.
    intros HD Hf Hz E Hi HY. pose proof (new_result rb t D HS m un Hun fuel st l HD ltac:(lia)) as H.
    destruct (new_ext rb m un fuel default_options st) as [o s]. cbn [fst] in E. subst o.
    destruct H as (w & rest & inp & -> & Hw & E4 & HD').
    rewrite (fr_iter r inp it E4 Hi) in HY. rewrite app_length in Hf.
    destruct (samples_frames rb t D HS m fuel inp rest pcm HD' ltac:(lia) ltac:(lia)) as (Ht & frames & ws & x & -> & Hx & HF & ->).
    - destruct Hz as [Hz|Hz]; [auto|right]. rewrite bytes_bits_app in Hz. eapply no_zero_run_suffix, Hz.
    - exact HY.
    - split; [exact Ht|]. exists frames, (w ++ concat ws), x. rewrite app_assoc. repeat (split; [auto; fail|]). split; [|reflexivity].
      exists w, ws. auto.
  Qed.
End Files.

(** From a source that delivers the file in any chunks. *)
Theorem source_samples m un fuel script si vc frames l : (forall n, length (un n) = n) ->
  file_code si vc frames l -> delivers TEof script l -> (length l + 1 < fuel)%nat ->
  exists r it, flac_new m un fuel script = Ok r
    /\ fr_get_streaminfo r = si /\ fr_vorbis_comment r = vc
    /\ fr_samples r = Ok it /\ fr_into_samples r = Ok it
    /\ yields (fs_next (br_rb m) m fuel) it (map ROk (pcm_of frames)).
Proof.
  intros Hun Hc Hd Hf. exact (file_samples (br_rb m) TEof (buffered TEof) (br_stream m TEof) m un Hun fuel si vc frames
    (br_new script) l eq_refl Hc (br_new_buffered TEof script l Hd) Hf).
Qed.

(** What an encoder writes comes back. *)
Theorem encoder_samples m un fuel script si vc w parts : (forall n, length (un n) = n) ->
  well_formed si vc w -> Forall (fun p => info_ok (fst p) (snd p)) parts ->
  let l := w ++ flat_map (fun p => encode_frame (fst p) (snd p)) parts in
  delivers TEof script l -> (length l + 1 < fuel)%nat ->
  exists r it, flac_new m un fuel script = Ok r
    /\ fr_get_streaminfo r = si /\ fr_vorbis_comment r = vc
    /\ fr_samples r = Ok it /\ fr_into_samples r = Ok it
    /\ yields (fs_next (br_rb m) m fuel) it
         (map ROk (flat_map (fun p => interleave (length (hd [] (snd p))) (snd p)) parts)).
Proof.
  intros Hun Hw Hp l Hd Hf.
  set (frames := map (fun p => (info_header (fst p) (Z.of_nat (length (hd [] (snd p)))), snd p)) parts).
  destruct (source_samples m un fuel script si vc frames l Hun) as (r & it & H); [|exact Hd|exact Hf|].
  - exists w, (map (fun p => encode_frame (fst p) (snd p)) parts). split; [exact Hw|]. split; [|unfold l; rewrite flat_map_concat_map; reflexivity].
    unfold frames. clear - Hp. induction Hp as [|p ps H _ IH]; [constructor|]. cbn [map]. constructor; [|exact IH]. apply encode_frame_ok, H.
  - exists r, it. replace (flat_map _ parts) with (pcm_of frames); [exact H|].
    unfold frames, pcm_of. rewrite flat_map_concat_map, map_map, <- flat_map_concat_map. cbn [fst snd info_header h_size].
    clear. induction parts as [|p ps IH]; [reflexivity|]. cbn [flat_map]. rewrite Nat2Z.id, IH. reflexivity.
Qed.
