(** Programs that use the crate: C64 to C66. *)
From Verif Require Export SpecPrograms ProofFault3 ProofMetaFault4 ProofWhole ProofTotal.
From Verif Require Import SpecReader.

(** * Iterators, one step at a time *)

Section Steps.
  Context {S A : Type} (next : M S (option A)).
  Lemma firstn_more (l : list (outcome (option A))) : forall n k, firstn n (l ++ repeat (Ok None) (n + k)) = firstn n (l ++ repeat (Ok None) n).
  Proof.
    intros n k. rewrite !firstn_app. f_equal. generalize (length l) as j. intros j.
    replace (repeat (Ok (A := option A) None) (n + k)) with (repeat (Ok (A := option A) None) n ++ repeat (Ok None) k) by (rewrite <- repeat_app; reflexivity).
    rewrite firstn_app, repeat_length. replace (n - j - n)%nat with 0%nat by lia. cbn [firstn]. apply app_nil_r.
  Qed.
  Lemma yields_cons st x l : yields next st (x :: l) -> exists st', next st = (Ok (Some x), st') /\ yields next st' l.
  Proof.
    intros H. exists (snd (next st)). split.
    - specialize (H 1%nat). rewrite nexts_S in H. cbn in H. injection H as H. destruct (next st). cbn in *. congruence.
    - intros n. specialize (H (Datatypes.S n)). rewrite nexts_S in H. cbn [fst map app firstn] in H. injection H as _ H.
      rewrite H. rewrite <- (firstn_more _ n 1). rewrite Nat.add_1_r. reflexivity.
  Qed.
  Lemma yields_nil st : yields next st [] -> exists st', next st = (Ok None, st') /\ yields next st' [].
  Proof.
    intros H. exists (snd (next st)). split.
    - specialize (H 1%nat). rewrite nexts_S in H. cbn in H. injection H as H. destruct (next st). cbn in *. congruence.
    - intros n. specialize (H (Datatypes.S n)). rewrite nexts_S in H. cbn [fst map app firstn repeat] in H. injection H as _ H. exact H.
  Qed.
End Steps.

(** * The sizes of frames *)

Lemma subframe_long bps n w s : subframe bps n w s -> (8 <= length w)%nat.
Proof.
  intros (c & k & wb & s' & Hk & _ & _ & -> & _). cbn [length]. rewrite !app_length, word_length by lia.
  assert (1 <= length (wasted_field k))%nat by (unfold wasted_field; destruct (k =? 0); cbn [length]; lia).
  change (Z.to_nat 6) with 6%nat. lia.
Qed.
Lemma channels_long bps n a bits chs : channels_code bps n a bits chs ->
  channel_count a = len chs /\ (8 * length chs <= length bits)%nat.
Proof.
  destruct 1 as [k ws chs Hk HF|w0 w1 l s H0 H1|w0 w1 s r H0 H1|w0 w1 mid s H0 H1].
  - split; [symmetry; exact Hk|]. clear Hk. induction HF as [|w c ws chs Hw HF IH]; [cbn; lia|]. cbn [concat length]. rewrite app_length.
    apply subframe_long in Hw. lia.
  - apply subframe_long in H0, H1. rewrite app_length. cbn [length]. split; [reflexivity|lia].
  - apply subframe_long in H0, H1. rewrite app_length. cbn [length]. split; [reflexivity|lia].
  - apply subframe_long in H0, H1. rewrite app_length. cbn [length]. split; [reflexivity|lia].
Qed.
Lemma frame_long h chs w : frame_code h chs w -> (8 + length chs <= length w)%nat /\ 1 <= h_size h <= 65535
  /\ channel_count (h_assignment h) = len chs /\ assignment_ok (h_assignment h).
Proof.
  intros (hw & bps & bits & pad & body & crc & Hh & _ & Hc & _ & Eb & _ & _ & ->).
  destruct (header_decent h hw Hh) as (Hs & Ha & _). apply channels_long in Hc as [Hc Hl]. split; [|auto].
  destruct Hh as (front & c & (sc & sx & rc & rx & bc & num & _ & _ & _ & _ & Hn & _ & ->) & _ & ->).
  assert (1 <= length num)%nat.
  { destruct num; [|cbn; lia]. exfalso. destruct Hn as [(k & _ & _ & E)|(_ & E)]; [destruct k|]; discriminate E. }
  apply (f_equal (@length bool)) in Eb. rewrite bytes_bits_length, app_length in Eb.
  rewrite !app_length. cbn [length]. lia.
Qed.
Lemma interleave_length n chs : length (interleave n chs) = (n * length chs)%nat.
Proof.
  unfold interleave. generalize 0%nat as k. induction n as [|n IH]; intros k; [reflexivity|]. cbn [seq flat_map].
  rewrite app_length, map_length, IH. lia.
Qed.
Lemma frame_dense h chs w : frame_code h chs w ->
  len (interleave (Z.to_nat (h_size h)) chs) <= 65535 * len w.
Proof.
  intros H. apply frame_long in H as (Hl & Hs & _). unfold len. rewrite interleave_length. nia.
Qed.
Theorem pcm_dense frames ws : Forall2 (fun f w => frame_code (fst f) (snd f) w) frames ws ->
  len (pcm_of frames) <= 65535 * len (concat ws).
Proof.
  induction 1 as [|f w frames ws Hw HF IH]; [cbn; lia|]. cbn [pcm_of flat_map concat]. fold (pcm_of frames).
  unfold len in *. rewrite !app_length. apply frame_dense in Hw. unfold len in Hw. lia.
Qed.

(** * Playing *)

Section Play.
  Context {S : Type} (rb : ReadBytes S) (t : tail) (D : S -> list Z -> Prop) (HS : stream rb t D).
  Context (m : build) (fuel : nat).
  Notation next := (read_next_or_eof rb m fuel).

  Lemma stop_next buffer s rest o : (o = None \/ no_zero_run (2 ^ 32 - 1) (bytes_bits rest)) ->
    stop t rest o -> D s rest -> (length rest < fuel)%nat -> (1 < fuel)%nat ->
    exists s', next buffer s = (match o with None => Ok None | Some e => Err e end, s').
  Proof.
    intros Hz Hs HD Hf H1. destruct Hs as [l Ht Hl|e w rest Hw|l Hi Hl].
    - destruct (frame_ends rb t D HS m fuel buffer s l Ht Hl H1 HD) as (s' & E & _). eauto.
    - destruct (next_reports rb t D HS m fuel buffer s e w rest Hw HD Hf) as (s' & E & _). eauto.
    - destruct Hz as [Hz|Hz]; [discriminate Hz|].
      pose proof (ProofFault3.next_cases rb t D HS m fuel buffer s l Hz HD Hf H1) as H. cbv zeta in H.
      destruct (next buffer s) as [r s']. cbn [fst snd] in H. exists s'. f_equal.
      destruct H as [(h & chs & w & rest & b & -> & Hw & _)|[(e & w & rest & -> & Hw & _)|[(Ht & Hl' & _)|(_ & E)]]].
      + exfalso. exact (proj1 (Hi w rest eq_refl) h chs Hw).
      + exfalso. exact (proj2 (Hi w rest eq_refl) e Hw).
      + specialize (Hl Ht). lia.
      + exact E.
  Qed.

  Lemma plays_blocks frames ws : Forall2 (fun f w => frame_code (fst f) (snd f) w) frames ws ->
    forall buffer s rest o, (o = None \/ no_zero_run (2 ^ 32 - 1) (bytes_bits rest)) ->
    stop t rest o -> D s (concat ws ++ rest) -> (length (concat ws ++ rest) < fuel)%nat -> (1 < fuel)%nat ->
    exists bs s', blocks_read rb m fuel buffer s bs (match o with None => Ok None | Some e => Err e end) s'
      /\ Forall2 (fun b f => block_shows b (fst f) (snd f) /\ block_holds b (snd f)) bs frames.
  Proof.
    intros HF. induction HF as [|[h chs] w frames ws Hw HF IH]; intros buffer s rest o Hz Hs HD Hf H1.
    - cbn [concat app] in *. destruct (stop_next buffer s rest o Hz Hs HD Hf H1) as (s' & E).
      exists [], s'. split; [|constructor]. apply read_last; [exact E|]. destruct o; discriminate.
    - cbn [concat] in *. rewrite <- app_assoc in *. cbn [fst snd] in Hw.
      destruct (frame_decoded rb t D HS m fuel buffer s h chs w _ Hw HD Hf) as (b & s1 & E & Hb & HD').
      destruct (IH (block_into_buffer b) s1 rest o Hz Hs HD' ltac:(rewrite app_length in Hf; lia) H1) as (bs & s' & HR & HB).
      exists (b :: bs), s'. split; [eapply read_one; eassumption|]. constructor; [|exact HB]. split; [exact Hb|].
      exact (decoded_holds rb t D HS m fuel buffer s h chs w _ b s1 Hw HD Hf E).
  Qed.

  Theorem plays_samples s l frames o : (o = None \/ no_zero_run (2 ^ 32 - 1) (bytes_bits l)) ->
    plays t l frames o -> D s l -> (length l < fuel)%nat -> (1 < fuel)%nat ->
    yields (fs_next rb m fuel) (mkFs s block_empty 0 0 false)
      (map ROk (pcm_of frames) ++ match o with None => [] | Some e => [RErr e] end).
  Proof.
    intros Hz (ws & rest & -> & HF & Hs) HD Hf H1.
    destruct (plays_blocks frames ws HF (mkVec [] 0) s rest o) as (bs & s' & HR & HB); auto.
    { destruct Hz as [Hz|Hz]; [auto|right]. rewrite bytes_bits_app in Hz. eapply no_zero_run_suffix, Hz. }
    destruct (samples_yield rb t D HS m fuel s _ HD Hf H1 bs _ s' HR) as (ls & HI & HY).
    rewrite (blocks_pcm bs ls frames HI HB) in HY. destruct o; [exact (proj1 HY)|]. rewrite app_nil_r. exact HY.
  Qed.

  (** Every string of bytes plays somehow. *)
  Lemma plays_exist_from n : forall l st, (length l <= n)%nat -> no_zero_run (2 ^ 32 - 1) (bytes_bits l) ->
    D st l -> (length l < fuel)%nat -> (1 < fuel)%nat -> exists frames o, plays t l frames o.
  Proof.
    induction n as [|n IH]; intros l st Hn Hz HD Hf H1;
    pose proof (ProofFault3.next_cases rb t D HS m fuel (mkVec [] 0) st l Hz HD Hf H1) as H; cbv zeta in H;
    (destruct H as [(h & chs & w & rest & b & El & Hw & _ & _ & HD')|[(e & w & rest & El & Hw & _)|[(Ht & Hl' & _)|(Hi & E)]]];
     [|exists [], (Some e), [], l; cbn; rewrite El; repeat split; [constructor|]; apply stop_fault, Hw
      |exists [], None, [], l; cbn; repeat split; [constructor|]; apply stop_end; auto
      |exists [], (Some (tail_error t)), [], l; cbn; repeat split; [constructor|]; apply stop_source; [exact Hi|]]);
    try (intros Ht; destruct (le_lt_dec (length l) 1) as [Hs|Hs]; [|lia];
         destruct (frame_ends rb t D HS m fuel (mkVec [] 0) st l Ht Hs H1 HD) as (s' & E' & _);
         rewrite E' in E; discriminate E);
    pose proof (frame_long h chs w Hw) as [Hlong _]; rewrite El, app_length in Hn; [lia|].
    subst l. rewrite app_length in Hf. destruct (IH rest (snd (next (mkVec [] 0) st))) as (frames & o & ws & x & -> & HF & Hs); auto; try lia.
    { rewrite bytes_bits_app in Hz. eapply no_zero_run_suffix, Hz. }
    exists ((h, chs) :: frames), o, (w :: ws), x. cbn [concat]. rewrite app_assoc. repeat split; auto.
  Qed.
End Play.

Lemma plays_dense t l frames o : plays t l frames o -> len (pcm_of frames) <= 65535 * len l.
Proof. intros (ws & rest & -> & HF & _). apply pcm_dense in HF. unfold len in *. rewrite app_length. lia. Qed.

Theorem plays_exist t l : bytes_ok l -> no_zero_bytes (2 ^ 29 - 1) l -> exists frames o, plays t l frames o.
Proof.
  intros Hb Hz. apply (plays_exist_from (fl_rb t) t _ (fl_stream t) Debug (length l + 2) (length l) l l); auto; try lia.
  exact (no_zero_bits l Hb Hz).
Qed.

(** * Opening *)

Lemma file_delivers fs path t l : file_at fs path t l -> bytes_ok l.
Proof. intros (script & _ & Hd). eapply (st_bytes _ _ _ (br_stream Debug t)), (br_new_buffered t script l Hd). Qed.

Section Open.
  Context (m : build) (un : nat -> list Z) (Hun : forall n, length (un n) = n) (fuel : nat).

  Theorem path_missing fs path k opts : fs path = inl k ->
    flac_open_ext m un fuel fs path opts = Err (IoError k) /\ flac_open m un fuel fs path = Err (IoError k).
  Proof. unfold flac_open_ext, flac_open. intros ->. auto. Qed.
  Theorem path_cases fs path t l opts : file_at fs path t l -> (length l < fuel)%nat ->
    match flac_open_ext m un fuel fs path opts with
    | Ok r => exists w rest inp, l = w ++ rest
        /\ opens opts (fr_get_streaminfo r) (fr_vorbis_comment r) w /\ buffered t inp rest
        /\ fr_input r = (if metadata_only opts then MetadataOnly inp else Full inp)
    | Err e => (exists w rest, l = w ++ rest /\ open_fault opts e w) \/ (e = tail_error t /\ open_cut opts l)
    | _ => False
    end.
  Proof. unfold flac_open_ext. intros (script & -> & Hd) Hf. apply flac_open_cases; auto. Qed.
  Theorem path_default fs path : flac_open m un fuel fs path = flac_open_ext m un fuel fs path default_options.
  Proof. reflexivity. Qed.
  Theorem path_reports fs path t w rest opts e : file_at fs path t (w ++ rest) -> (length (w ++ rest) < fuel)%nat ->
    open_fault opts e w -> flac_open_ext m un fuel fs path opts = Err e.
  Proof. unfold flac_open_ext. intros (script & -> & Hd) Hf He. eapply flac_open_reports; eauto. Qed.
End Open.

Lemma info_spec si vc w : well_formed si vc w -> streaminfo_fits si.
Proof.
  intros (bs & blocks & _ & Hb & _). inversion Hb; subst; match goal with Hc : block_code _ _ _ |- _ => destruct Hc as (ty & body & Hc & _); inversion Hc; assumption end.
Qed.
Lemma audio_spec si : streaminfo_fits si -> forall pcm, Some (spec_of si, pcm) = audio si pcm.
Proof. intros (_ & _ & _ & _ & _ & Hc & Hb & _) pcm. unfold spec_of, audio, u16. rewrite !Z.mod_small by lia. reflexivity. Qed.

(** The state of a file after opening it. *)
Section Opened.
  Context (m : build) (un : nat -> list Z) (Hun : forall n, length (un n) = n) (fuel : nat).

  Lemma path_opens fs path t w rest si vc : file_at fs path t (w ++ rest) -> (length (w ++ rest) < fuel)%nat ->
    well_formed si vc w -> exists r inp, flac_open m un fuel fs path = Ok r
      /\ fr_get_streaminfo r = si /\ fr_vorbis_comment r = vc /\ fr_blocks r = Ok inp
      /\ fr_samples r = Ok (mkFs inp block_empty 0 0 false) /\ buffered t inp rest.
  Proof.
    intros (script & E & Hd) Hf Hw.
    destruct (new_accepts (br_rb m) t (buffered t) (br_stream m t) m un Hun fuel (br_new script) si vc w rest Hw (br_new_buffered t script _ Hd) Hf) as (r & inp & E1 & E2 & E3 & E4 & HD).
    exists r, inp. unfold flac_open. rewrite E. destruct (iterators r inp E4) as [E5 _]. auto 8.
  Qed.
  Lemma path_fails fs path t l : file_at fs path t l -> (length l < fuel)%nat ->
    (exists si vc w rest, l = w ++ rest /\ well_formed si vc w)
    \/ (exists e, flac_open m un fuel fs path = Err e /\ file_unopened t l e).
  Proof.
    intros Hat Hf. pose proof (path_cases m un Hun fuel fs path t l default_options Hat Hf) as H.
    rewrite <- path_default in H. destruct (flac_open m un fuel fs path) as [r|e| | |] eqn:E; try contradiction.
    - left. destruct H as (w & rest & inp & -> & Ho & _). eauto 6.
    - right. exists e. split; [reflexivity|]. destruct H as [H|[-> H]]; [left; exact H|right]. split; [reflexivity|]. split; [exact H|].
      intros e' w rest -> Hw. pose proof (path_reports m un Hun fuel fs path t w rest default_options e' Hat Hf Hw) as E'.
      rewrite <- path_default, E in E'. injection E' as <-.
      (* the error of the source is not the error of a fault *)
      pose proof (open_fault_ours _ _ _ Hw) as Ho. destruct t; exact Ho.
  Qed.
End Opened.

(** * decode_simple *)

Section Simple.
  Context (m : build) (un : nat -> list Z) (Hun : forall n, length (un n) = n) (fuel : nat).

  Lemma simple_loop_plays {S} (rb : ReadBytes S) o spec pcm : forall turns it acc,
    yields (fs_next rb m fuel) it (map ROk pcm ++ match o with None => [] | Some e => [RErr e] end) ->
    (length pcm < turns)%nat ->
    simple_loop m fuel rb turns it (Some (spec, acc)) = (outcome_of o, Some (spec, acc ++ pcm)).
  Proof.
    induction pcm as [|x pcm IH]; intros [|turns] it acc HY Ht; cbn [length] in Ht; try lia; cbn [simple_loop map app] in *.
    - rewrite app_nil_r. unfold bind, call_on. destruct o as [e|].
      + apply yields_cons in HY as (it' & E & _). rewrite E. reflexivity.
      + apply yields_nil in HY as (it' & E & _). rewrite E. reflexivity.
    - apply yields_cons in HY as (it' & E & HY). unfold bind at 1. unfold call_on. rewrite E.
      cbn. rewrite (IH turns it' (acc ++ [x]) HY ltac:(lia)), <- app_assoc. reflexivity.
  Qed.

  Theorem simple_plays turns fs path t l si vc frames o : file_at fs path t l -> (length l + 1 < fuel)%nat ->
    (length (pcm_of frames) < turns)%nat -> (o = None \/ no_zero_bytes (2 ^ 29 - 1) l) ->
    file_plays t l si vc frames o ->
    decode_simple m un fuel turns fs path None = (outcome_of o, audio si (pcm_of frames)).
  Proof.
    intros Hat Hf Ht Hz (w & rest & -> & Hw & Hp).
    destruct (path_opens m un Hun fuel fs path t w rest si vc Hat ltac:(lia) Hw) as (r & inp & E & Es & _ & _ & Ei & HD).
    unfold decode_simple, bind, lift. rewrite E, Es. cbn. rewrite Ei.
    rewrite app_length in Hf.
    rewrite (simple_loop_plays (br_rb m) o (spec_of si) (pcm_of frames)); [|  |exact Ht].
    - f_equal. apply audio_spec. eapply info_spec, Hw.
    - apply (plays_samples (br_rb m) t (buffered t) (br_stream m t) m fuel inp rest); auto; try lia.
      destruct Hz as [Hz|Hz]; [auto|right]. apply no_zero_bits; [eapply (st_bytes _ _ _ (br_stream m t)), HD|].
      eapply no_zero_bytes_suffix, Hz.
  Qed.
  Theorem simple_missing turns fs path k : fs path = inl k -> decode_simple m un fuel turns fs path None = (Err (IoError k), None).
  Proof. intros E. unfold decode_simple, bind, lift, flac_open. rewrite E. reflexivity. Qed.

  Theorem simple_cases turns fs path t l : file_at fs path t l -> (length l + 1 < fuel)%nat ->
    65535 * len l < Z.of_nat turns -> no_zero_bytes (2 ^ 29 - 1) l ->
    (exists e, file_unopened t l e /\ decode_simple m un fuel turns fs path None = (Err e, None))
    \/ (exists si vc frames o, file_plays t l si vc frames o
        /\ decode_simple m un fuel turns fs path None = (outcome_of o, audio si (pcm_of frames))).
  Proof.
    intros Hat Hf Ht Hz. destruct (path_fails m un Hun fuel fs path t l Hat ltac:(lia)) as [(si & vc & w & rest & El & Hw)|(e & E & Hu)].
    - right. pose proof (file_delivers _ _ _ _ Hat) as Hb. rewrite El in Hb. apply bytes_app in Hb as [_ Hb].
      assert (no_zero_bytes (2 ^ 29 - 1) rest) as Hzr by (rewrite El in Hz; eapply no_zero_bytes_suffix, Hz).
      destruct (plays_exist t rest Hb Hzr) as (frames & o & Hp). exists si, vc, frames, o.
      assert (file_plays t l si vc frames o) as Hfp by (exists w, rest; auto). split; [exact Hfp|].
      eapply simple_plays; eauto. apply plays_dense in Hp. rewrite El in Ht. unfold len in *. rewrite app_length in Ht. lia.
    - left. exists e. split; [exact Hu|]. unfold decode_simple, bind, lift. rewrite E. reflexivity.
  Qed.
End Simple.

(** * decode *)

Definition flat_pairs (ps : list (Z * Z)) : list Z := flat_map (fun p => [fst p; snd p]) ps.
Lemma interleave_two n : forall c0 c1, length c0 = n -> length c1 = n -> interleave n [c0; c1] = flat_pairs (combine c0 c1).
Proof.
  unfold interleave. induction n as [|n IH]; intros [|x c0] [|y c1] H0 H1; try discriminate; [reflexivity|].
  cbn [seq flat_map combine flat_pairs map nth fst snd app]. rewrite <- seq_shift, flat_map_concat_map, map_map, <- flat_map_concat_map.
  cbn [nth map]. f_equal. f_equal. apply (IH c0 c1); cbn in *; lia.
Qed.

Lemma stereo_block b h chs : block_shows b h chs -> block_holds b chs -> stereo_frame (h, chs) ->
  exists st ps, block_stereo_samples b = Ok st /\ (forall m, yields (stereo_next m) st ps)
    /\ len ps = block_duration b /\ flat_pairs ps = interleave (Z.to_nat (h_size h)) chs.
Proof.
  intros (_ & Hd & Hc & Hn & HF & _) Hh Hst. unfold stereo_frame in Hst. cbn [fst] in Hst.
  destruct chs as [|c0 [|c1 [|? ?]]]; unfold len in Hn; cbn [length] in Hn; try lia.
  inversion HF as [|? ? L0 HF1]. inversion HF1 as [|? ? L1 _]. subst.
  destruct (holds_stereo b [c0; c1] Hh c0 c1 eq_refl) as (st & E & HY).
  exists st, (combine c0 c1). split; [exact E|]. split; [exact HY|]. unfold len in *. split.
  - rewrite combine_length. lia.
  - symmetry. apply interleave_two; lia.
Qed.

Section Stereo.
  Context (m : build) (un : nat -> list Z) (Hun : forall n, length (un n) = n) (fuel : nat).

  Lemma pairs_unchecked spec ps : forall turns ss room acc, yields (stereo_next m) ss ps -> (length ps < turns)%nat ->
    2 * len ps <= room ->
    unchecked_pairs m turns ss room (Some (spec, acc)) = (Ok (room - 2 * len ps), Some (spec, acc ++ flat_pairs ps)).
  Proof.
    induction ps as [|[x y] ps IH]; intros [|turns] ss room acc HY Ht Hr; cbn [length] in Ht; try lia; cbn [unchecked_pairs].
    - apply yields_nil in HY as (ss' & E & _). unfold bind, call_on. rewrite E. cbn. rewrite app_nil_r, Z.sub_0_r. reflexivity.
    - apply yields_cons in HY as (ss' & E & HY). unfold bind, call_on. rewrite E.
      unfold len in *. cbn [length] in *. unfold write_sample_unchecked at 1. replace (room <=? 0) with false by lia.
      cbn [wav_write bind ret]. unfold write_sample_unchecked. replace (room - 1 <=? 0) with false by lia.
      cbn [wav_write bind ret]. unfold len in *.
      match goal with |- unchecked_pairs _ _ _ _ ?w = _ => change w with (Some (spec, (acc ++ [x]) ++ [y])) end.
      rewrite IH by (auto; lia). rewrite <- !app_assoc. f_equal. f_equal. lia.
  Qed.

  Lemma decode_loop_plays {S} (rb : ReadBytes S) t D (HS : stream rb t D) spec bad o rest wsb :
    (o = None \/ no_zero_run (2 ^ 32 - 1) (bytes_bits rest)) -> stop t rest o ->
    Forall2 (fun f w => frame_code (fst f) (snd f) w) bad wsb -> (forall f bad', bad = f :: bad' -> ~ stereo_frame f) -> (1 < fuel)%nat ->
    forall good ws, Forall2 (fun f w => frame_code (fst f) (snd f) w) good ws -> Forall stereo_frame good ->
    forall turns b s acc, D s (concat ws ++ concat wsb ++ rest) -> (length (concat ws ++ concat wsb ++ rest) < fuel)%nat ->
    (length good < turns)%nat ->
    exists r, decode_loop m fuel rb turns b s (Some (spec, acc)) = (r, Some (spec, acc ++ pcm_of good)) /\ stereo_outcome bad o r.
  Proof.
    intros Hz Hs HB Hbad H1 good ws HF. induction HF as [|[h chs] w good ws Hw HF IH]; intros Hst [|turns] b s acc HD Hf Ht;
      cbn [length] in Ht; try lia; cbn [decode_loop concat app pcm_of flat_map] in *.
    - rewrite app_nil_r. destruct bad as [|[h chs] bad].
      + inversion HB; subst. cbn [concat app] in *. destruct (stop_next rb t D HS m fuel (block_into_buffer b) s rest o Hz Hs HD Hf H1) as (s' & E).
        unfold bind, call_on, catch. rewrite E. destruct o as [e|]; cbn; eexists; (split; [reflexivity|cbn; eauto]).
      + inversion HB as [|? w ? wsb' Hw HB']; subst. cbn [concat] in *. rewrite <- app_assoc in *. cbn [fst snd] in Hw.
        destruct (frame_decoded rb t D HS m fuel (block_into_buffer b) s h chs w _ Hw HD Hf) as (b' & s1 & E & Hb & HD').
        pose proof (decoded_holds rb t D HS m fuel _ s h chs w _ b' s1 Hw HD Hf E) as Hh.
        unfold bind, call_on, catch. rewrite E. unfold lift.
        assert (1 <= block_duration b' <= 65535) as Hd by apply Hh. rewrite chk_u32 by lia.
        destruct (no_stereo b') as (why & Ew).
        { destruct Hb as (_ & _ & -> & _). intros Ec. apply (Hbad _ _ eq_refl). exact Ec. }
        rewrite Ew. eexists. split; [reflexivity|]. cbn. eauto.
    - inversion Hst as [|? ? Hst1 Hst']; subst. rewrite <- app_assoc in *. cbn [fst snd] in *.
      destruct (frame_decoded rb t D HS m fuel (block_into_buffer b) s h chs w _ Hw HD Hf) as (b' & s1 & E & Hb & HD').
      pose proof (decoded_holds rb t D HS m fuel _ s h chs w _ b' s1 Hw HD Hf E) as Hh.
      unfold bind at 1. unfold call_on, catch. rewrite E.
      assert (1 <= block_duration b' <= 65535) as Hd by apply Hh.
      destruct (stereo_block b' h chs Hb Hh Hst1) as (st & ps & Est & HY & Hl & Hps).
      unfold bind at 1. unfold lift at 1. rewrite chk_u32 by lia.
      unfold bind at 1. rewrite Est. unfold lift at 1. unfold bind at 1.
      rewrite (pairs_unchecked spec ps _ st _ acc (HY m)) by (unfold len in *; lia).
      replace (block_duration b' * 2 - 2 * len ps) with 0 by lia. cbn [Z.eqb]. unfold bind at 1, ret at 1.
      destruct (IH Hst' turns b' s1 (acc ++ flat_pairs ps) HD' ltac:(rewrite app_length in Hf; lia) ltac:(lia)) as (r & Er & Hr).
      exists r. rewrite Er, Hps, <- app_assoc. auto.
  Qed.

  Theorem stereo_plays turns fs path t l si vc good bad o : file_at fs path t l -> (length l + 1 < fuel)%nat ->
    (length good < turns)%nat -> (o = None \/ no_zero_bytes (2 ^ 29 - 1) l) ->
    file_plays t l si vc (good ++ bad) o -> si_bits_per_sample si = 16 -> si_channels si = 2 ->
    Forall stereo_frame good -> (forall f bad', bad = f :: bad' -> ~ stereo_frame f) ->
    exists r, decode_stereo m un fuel turns fs path None = (r, audio si (pcm_of good)) /\ stereo_outcome bad o r.
  Proof.
    intros Hat Hf Ht Hz (w & rest & -> & Hw & (ws & x & -> & HF & Hs)) Hbps Hch Hgood Hbad.
    destruct (path_opens m un Hun fuel fs path t w _ si vc Hat ltac:(lia) Hw) as (r & inp & E & Es & _ & Ei & _ & HD).
    unfold decode_stereo, bind at 1, lift. rewrite E. cbn [expect]. rewrite Es, Hbps, Hch. cbn [Z.eqb negb andb Pos.eqb].
    unfold bind at 1. cbn [wav_create put]. unfold bind at 1. rewrite Ei.
    apply Forall2_app_inv_l in HF as (wsg & wsb & HFg & HFb & ->). rewrite concat_app, <- app_assoc in *.
    rewrite <- (audio_spec si (info_spec _ _ _ Hw)). rewrite !app_length in Hf.
    destruct (decode_loop_plays (br_rb m) t (buffered t) (br_stream m t) (spec_of si) bad o x wsb) with (good := good) (ws := wsg) (turns := turns) (b := block_empty) (s := inp) (acc := @nil Z) as (r' & Er & Hr);
      rewrite ?app_length; auto; try lia.
    - destruct Hz as [Hz|Hz]; [auto|right]. apply no_zero_bits.
      + apply (st_bytes _ _ _ (br_stream m t)) in HD. apply bytes_app in HD as [_ HD]. apply bytes_app in HD. apply HD.
      + do 3 apply no_zero_bytes_suffix in Hz. exact Hz.
    - exists r'. auto.
  Qed.

  Lemma stereo_split frames : exists good bad, frames = good ++ bad /\ Forall stereo_frame good
    /\ (forall f bad', bad = f :: bad' -> ~ stereo_frame f).
  Proof.
    induction frames as [|f frames (good & bad & -> & Hg & Hb)]; [exists [], []; repeat split; auto; discriminate|].
    destruct (Z.eq_dec (channel_count (h_assignment (fst f))) 2) as [Hf|Hf].
    - exists (f :: good), bad. repeat split; auto.
    - exists [], (f :: good ++ bad). repeat split; auto. intros ? ? Ef. injection Ef as <- <-. exact Hf.
  Qed.

  Theorem stereo_missing turns fs path k : fs path = inl k -> exists why, decode_stereo m un fuel turns fs path None = (Panic why, None).
  Proof. intros Ek. unfold decode_stereo, bind, lift, flac_open. rewrite Ek. cbn. eauto. Qed.

  Theorem stereo_safe turns fs path t l : file_at fs path t l -> (length l + 1 < fuel)%nat -> (length l < turns)%nat ->
    no_zero_bytes (2 ^ 29 - 1) l ->
    exists r w, decode_stereo m un fuel turns fs path None = (r, w) /\ (r = Ok tt \/ exists why, r = Panic why).
  Proof.
    intros Hat Hf Ht Hz.
    destruct (path_fails m un Hun fuel fs path t l Hat ltac:(lia)) as [(si & vc & w & rest & El & Hw)|(e & E & Hu)].
    2:{ unfold decode_stereo, bind, lift. rewrite E. cbn. eauto 6. }
    pose proof (file_delivers _ _ _ _ Hat) as Hb. rewrite El in Hb. apply bytes_app in Hb as [_ Hb].
    assert (no_zero_bytes (2 ^ 29 - 1) rest) as Hzr by (rewrite El in Hz; eapply no_zero_bytes_suffix, Hz).
    destruct (plays_exist t rest Hb Hzr) as (frames & o & Hp). destruct (stereo_split frames) as (good & bad & -> & Hg & Hbad).
    assert (file_plays t l si vc (good ++ bad) o) as Hfp by (exists w, rest; auto).
    destruct (Z.eq_dec (si_bits_per_sample si) 16) as [Hbps|Hbps]; [destruct (Z.eq_dec (si_channels si) 2) as [Hch|Hch]|].
    - destruct (stereo_plays turns fs path t l si vc good bad o) as (r & Er & Hr); auto.
      { destruct Hp as (ws & x & Ex & HF & _). subst rest l. rewrite !app_length in Ht.
        apply Forall2_app_inv_l in HF as (wsg & wsb & HFg & HFb & ->). rewrite concat_app, app_length in Ht.
        enough (length good <= length (concat wsg))%nat by lia. clear - HFg.
        induction HFg as [|f w good ws Hw HF IH]; [cbn; lia|]. cbn [concat length]. rewrite app_length. apply frame_long in Hw. lia. }
      exists r. eexists. split; [exact Er|]. destruct bad, o; cbn in Hr; auto.
    - subst l. destruct (path_opens m un Hun fuel fs path t w _ si vc Hat ltac:(lia) Hw) as (r & inp & E & Es & _).
      unfold decode_stereo, bind at 1, lift. rewrite E. cbn [expect]. rewrite Es.
      replace (si_channels si =? 2) with false by lia. rewrite andb_false_r. cbn [negb]. eauto 6.
    - subst l. destruct (path_opens m un Hun fuel fs path t w _ si vc Hat ltac:(lia) Hw) as (r & inp & E & Es & _).
      unfold decode_stereo, bind at 1, lift. rewrite E. cbn [expect]. rewrite Es.
      replace (si_bits_per_sample si =? 16) with false by lia. cbn [negb andb]. eauto 6.
  Qed.
  Theorem stereo_others turns fs path t l : file_at fs path t l -> (length l < fuel)%nat ->
    (forall si vc w rest, l = w ++ rest -> well_formed si vc w -> si_bits_per_sample si <> 16 \/ si_channels si <> 2) ->
    exists why, decode_stereo m un fuel turns fs path None = (Panic why, None).
  Proof.
    intros Hat Hf H. destruct (path_fails m un Hun fuel fs path t l Hat Hf) as [(si & vc & w & rest & El & Hw)|(e & E & Hu)].
    - specialize (H si vc w rest El Hw). subst l. destruct (path_opens m un Hun fuel fs path t w _ si vc Hat Hf Hw) as (r & inp & E & Es & _).
      unfold decode_stereo, bind at 1, lift. rewrite E. cbn [expect]. rewrite Es.
      replace ((si_bits_per_sample si =? 16) && (si_channels si =? 2)) with false by lia. cbn [negb]. eauto.
    - unfold decode_stereo, bind, lift. rewrite E. cbn. eauto.
  Qed.
End Stereo.
