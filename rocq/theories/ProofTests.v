(** What the comparisons of the tests find out. *)
From Verif Require Export SpecTests ProofPrograms3 ProofUnique.
From Coq Require Import DecimalFacts DecimalN DecimalString.
From Verif Require Import SpecReader.

(** * Samples *)

Lemma interleave_step n : forall chs, interleave (Datatypes.S n) chs
  = map (fun c => nth 0 c 0) chs ++ interleave n (map (@tl Z) chs).
Proof.
  intros chs. unfold interleave. cbn [seq flat_map]. f_equal. rewrite <- seq_shift, flat_map_concat_map, map_map, <- flat_map_concat_map.
  apply flat_map_ext. intros i. rewrite map_map. apply map_ext. intros [|x c]; [destruct i; reflexivity|reflexivity].
Qed.
(** Comparing succeeds exactly if the samples are next in the reference. *)
Lemma point_ok chs : forall refs, Forall (fun c => c <> []) chs ->
  (exists more, refs = map (fun c => nth 0 c 0) chs ++ more /\ compare_point chs refs = Ok (map (@tl Z) chs, more))
  \/ ((forall more, refs <> map (fun c => nth 0 c 0) chs ++ more) /\ exists why, compare_point chs refs = Panic why).
Proof.
  induction chs as [|[|x c] chs IH]; intros refs H; cbn [compare_point map].
  - left. exists refs. auto.
  - inversion H. congruence.
  - inversion H as [|? ? _ H']; subst. cbn [nth tl hd_error]. destruct refs as [|r refs]; cbn [hd_error tl].
    + right. split; [intros more; discriminate|eauto].
    + destruct (Z.eqb_spec r x) as [->|Hne].
      * destruct (IH refs H') as [(more & -> & ->)|(Hn & why & ->)]; cbn.
        -- left. exists more. auto.
        -- right. split; [|cbn [obind fst snd]; eauto]. intros more [= E]. exact (Hn more E).
      * right. split; [|cbn [obind fst snd]; eauto]. intros more [= E _]. auto.
Qed.
Lemma points_ok n : forall chs refs, Forall (fun c => length c = n) chs ->
  (exists more, refs = interleave n chs ++ more /\ compare_points n chs refs = Ok more)
  \/ ((forall more, refs <> interleave n chs ++ more) /\ exists why, compare_points n chs refs = Panic why).
Proof.
  induction n as [|n IH]; intros chs refs H.
  - left. exists refs. auto.
  - rewrite interleave_step. cbn [compare_points].
    assert (Forall (fun c : list Z => c <> []) chs) as Hne by (eapply Forall_impl; [|exact H]; intros [|]; [discriminate|congruence]).
    destruct (point_ok chs refs Hne) as [(more & -> & ->)|(Hn & why & ->)]; cbn [fst snd].
    + cbn [obind fst snd]. destruct (IH (map (@tl Z) chs) more) as [(more' & -> & ->)|(Hn' & why & ->)].
      * apply Forall_map. eapply Forall_impl; [|exact H]. intros [|x c]; cbn [length tl]; congruence.
      * left. exists more'. split; [rewrite <- app_assoc; reflexivity|reflexivity].
      * right. split; [|cbn [obind fst snd]; eauto]. intros more' E. rewrite <- app_assoc in E. apply app_inv_head in E. exact (Hn' more' E).
    + right. split; [|cbn [obind fst snd]; eauto]. intros more E. rewrite <- app_assoc in E. exact (Hn _ E).
Qed.
Lemma skipn_nth {A} (l : list A) : forall k c, nth_error l k = Some c -> skipn k l = c :: skipn (Datatypes.S k) l.
Proof. induction l as [|x l IH]; intros [|k] c E; try discriminate; cbn in *; [congruence|]. apply IH, E. Qed.
Lemma collect_ok b chs : block_holds b chs -> forall n k, (k + n <= length chs)%nat ->
  collect_channels b (map Z.of_nat (seq k n)) = Ok (firstn n (skipn k chs)).
Proof.
  intros Hb. induction n as [|n IH]; intros k Hk; cbn [seq map collect_channels]; [destruct (skipn k chs); reflexivity|].
  destruct (nth_error chs k) as [c|] eqn:Ec; [|apply nth_error_None in Ec; lia].
  rewrite (holds_channel b chs Hb k c Ec). rewrite IH by lia.
  cbn [obind]. rewrite (skipn_nth chs k c Ec). reflexivity.
Qed.
Lemma collect_fails b chs : block_holds b chs -> forall n k, (k <= length chs)%nat -> (length chs < k + n)%nat ->
  exists why, collect_channels b (map Z.of_nat (seq k n)) = Panic why.
Proof.
  intros Hb. assert (block_channels b = len chs) as Hc by apply Hb. induction n as [|n IH]; intros k Hk Hn; [lia|]. cbn [seq map collect_channels].
  destruct (nth_error chs k) as [c|] eqn:Ec.
  - rewrite (holds_channel b chs Hb k c Ec). destruct (IH (Datatypes.S k)) as (why & ->); [|lia|cbn; eauto].
    assert (nth_error chs k <> None) as Hx by congruence. apply nth_error_Some in Hx. lia.
  - apply nth_error_None in Ec. destruct (holds_no_channel b chs Hb (Z.of_nat k)) as (w & ->); [unfold len in Hc; lia|]. cbn. eauto.
Qed.

Section Compare.
  Context (m : build) (un : nat -> list Z) (Hun : forall n, length (un n) = n) (fuel : nat).

  Lemma compare_runs {S} (rb : ReadBytes S) t D (HS : stream rb t D) samples n o rest :
    (o = None \/ no_zero_run (2 ^ 32 - 1) (bytes_bits rest)) -> stop t rest o -> (1 < fuel)%nat -> samples < 2 ^ 36 -> 0 <= n ->
    forall frames ws, Forall2 (fun f w => frame_code (fst f) (snd f) w) frames ws ->
    forall turns refs sample b buffer s, D s (concat ws ++ rest) -> (length (concat ws ++ rest) < fuel)%nat ->
    (length frames < turns)%nat -> 0 <= b <= sample ->
    (exists first more, reaches (samples - sample) frames first
       /\ Forall (fun f => n <= channel_count (h_assignment (fst f))) first
       /\ refs = pcm_channels n first ++ more
       /\ compare_loop m fuel rb turns samples n refs sample b buffer s = Ok tt)
    \/ ((forall first more, reaches (samples - sample) frames first ->
           Forall (fun f => n <= channel_count (h_assignment (fst f))) first -> refs <> pcm_channels n first ++ more)
        /\ exists why, compare_loop m fuel rb turns samples n refs sample b buffer s = Panic why).
  Proof.
    intros Hz Hs H1 Hsam Hn frames ws HF. induction HF as [|[h chs] w frames ws Hw HF IH]; intros [|turns] refs sample b buffer s HD Hf Ht Hb;
      cbn [length] in Ht; try lia; cbn [compare_loop concat app] in *.
    - destruct (Z.ltb_spec sample samples) as [L|L].
      + right. split; [intros first more Hc; inversion Hc; lia|].
        destruct (stop_next rb t D HS m fuel buffer s rest o Hz Hs HD Hf H1) as (s' & ->).
        destruct o; cbn; eauto.
      + left. exists [], refs. split; [constructor; lia|]. repeat split. constructor.
    - destruct (Z.ltb_spec sample samples) as [L|L]; [|left; exists [], refs; split; [constructor; lia|]; repeat split; constructor].
      rewrite <- app_assoc in *. cbn [fst snd] in Hw.
      destruct (frame_decoded rb t D HS m fuel buffer s h chs w _ Hw HD Hf) as (b' & s1 & E & Hb' & HD').
      pose proof (decoded_holds rb t D HS m fuel _ s h chs w _ b' s1 Hw HD Hf E) as Hh.
      rewrite E. cbn [expect obind expect_some].
      assert (block_duration b' = h_size h /\ len chs = channel_count (h_assignment h) /\ Forall (fun c => len c = h_size h) chs) as (Ed & El & Hlen) by (split; [|split]; apply Hb').
      assert (1 <= block_duration b' <= 65535) as Hd by apply Hh.
      destruct (Z.leb_spec n (len chs)) as [Hc|Hc].
      + rewrite (collect_ok b' chs Hh (Z.to_nat n) 0) by (unfold len in Hc; lia). cbn [obind skipn].
        destruct (points_ok (Z.to_nat (h_size h)) (firstn (Z.to_nat n) chs) refs) as [(more & -> & Ep)|(Hne & why & Ep)].
        { apply Forall_forall. intros c Hin. rewrite <- (firstn_skipn (Z.to_nat n) chs) in Hlen. apply Forall_app in Hlen as [Hlen _]. rewrite Forall_forall in Hlen. specialize (Hlen c Hin). unfold len in Hlen. lia. }
        * rewrite Ed, Ep. cbn [obind]. rewrite !chk_u64 by lia. cbn [obind].
          destruct (IH turns more (sample + h_size h) (b + 1) (block_into_buffer b') s1 HD' ltac:(rewrite app_length in Hf; lia) ltac:(lia) ltac:(lia)) as [(first & more' & Hcov & Hall & -> & El')|(Hne & why & El')].
          -- left. exists ((h, chs) :: first), more'. split; [constructor; [lia|]; cbn [fst]; replace (samples - sample - h_size h) with (samples - (sample + h_size h)) by lia; exact Hcov|].
             split; [constructor; [cbn [fst]; lia|exact Hall]|]. split; [cbn [pcm_channels flat_map fst snd]; rewrite <- app_assoc; reflexivity|exact El'].
          -- right. split; [|cbn [obind fst snd]; eauto]. intros first more' Hcov Hall Er. inversion Hcov as [|? ? ? first' Hpos Hcov']; subst; [lia|].
             inversion Hall; subst. cbn [pcm_channels flat_map fst snd] in *. rewrite <- app_assoc in Er. apply app_inv_head in Er.
             replace (samples - sample - h_size h) with (samples - (sample + h_size h)) in Hcov' by lia. exact (Hne first' more' Hcov' ltac:(assumption) Er).
        * rewrite Ed, Ep. cbn [obind]. right. split; [|cbn [obind fst snd]; eauto]. intros first more' Hcov Hall. inversion Hcov as [|? ? ? first' Hpos Hcov']; subst; [lia|]. intros Er.
          cbn [pcm_channels flat_map fst snd] in Er. rewrite <- app_assoc in Er. exact (Hne _ Er).
      + destruct (collect_fails b' chs Hh (Z.to_nat n) 0) as (why & ->); [lia|unfold len in Hc; lia|]. right. split; [|cbn; eauto].
        intros first more' Hcov Hall _. inversion Hcov as [|? ? ? first' Hpos Hcov']; subst; [lia|]. inversion Hall; subst. cbn [fst] in *. lia.
  Qed.

  Theorem compare_file turns fs path t l si vc frames o refs : file_at fs path t l -> (length l + 1 < fuel)%nat -> (length frames < turns)%nat ->
    o = None \/ no_zero_bytes (2 ^ 29 - 1) l -> file_plays t l si vc frames o ->
    (agrees si frames refs /\ compare_decoded_stream m un fuel turns fs path refs = Ok tt)
    \/ (~ agrees si frames refs /\ exists why, compare_decoded_stream m un fuel turns fs path refs = Panic why).
  Proof.
    intros Hat Hf Ht Hz (w & rest & -> & Hw & ws & x & -> & HF & Hs).
    destruct (path_opens m un Hun fuel fs path t w _ si vc Hat ltac:(lia) Hw) as (r & inp & E & <- & _ & Eb & _ & HD).
    unfold compare_decoded_stream. rewrite E. cbn [expect obind]. pose proof (info_spec _ _ _ Hw) as Hfit.
    destruct (si_samples (fr_get_streaminfo r)) as [samples|] eqn:Es; cbn [expect_some obind].
    - rewrite Eb. cbn [obind].
      assert (samples < 2 ^ 36 /\ 0 <= si_channels (fr_get_streaminfo r)) as [Hsam Hch].
      { unfold streaminfo_fits in Hfit. rewrite Es in Hfit. cbn [known_ok] in Hfit. lia. }
      destruct (compare_runs (br_rb m) t (buffered t) (br_stream m t) samples (si_channels (fr_get_streaminfo r)) o x) with (frames := frames) (ws := ws) (turns := turns) (refs := refs) (sample := 0) (b := 0) (buffer := mkVec [] 0) (s := inp)
        as [(first & more & Hcov & Hall & Er & El)|(Hne & why & El)]; auto; try lia.
      + destruct Hz as [Hz|Hz]; [left; exact Hz|right]. apply no_zero_bytes_suffix, no_zero_bytes_suffix in Hz.
        apply no_zero_bits; [|exact Hz]. apply (st_bytes _ _ _ (br_stream m t)), app_bytes in HD. apply HD.
      + rewrite app_length in Hf. lia.
      + left. split; [|exact El]. exists samples, first, more. rewrite Z.sub_0_r in Hcov. auto.
      + right. split; [|cbn [obind fst snd]; eauto]. intros (samples' & first & more & Es' & Hcov & Hall & Er). rewrite Es in Es'. injection Es' as <-.
        rewrite Z.sub_0_r in Hne. exact (Hne first more Hcov Hall Er).
    - right. split; [|cbn [obind fst snd]; eauto]. intros (samples' & _ & _ & Es' & _). congruence.
  Qed.
End Compare.

Lemma pcm_all_channels n frames : Forall (fun f => len (snd f) = n) frames -> pcm_channels n frames = pcm_of frames.
Proof.
  induction 1 as [|f frames H _ IH]; [reflexivity|]. cbn [pcm_channels pcm_of flat_map]. unfold pcm_channels, pcm_of in IH. rewrite IH. f_equal. f_equal.
  apply firstn_all2. unfold len in H. lia.
Qed.
Lemma plays_frames t l frames o : plays t l frames o -> (2 * length frames <= length l)%nat.
Proof.
  intros (ws & rest & -> & HF & _). rewrite app_length. induction HF as [|[h chs] w frames ws Hw HF IH]; cbn [length concat]; [lia|].
  pose proof (frame_two h chs w [] Hw) as H2. rewrite app_nil_r in H2. rewrite app_length. lia.
Qed.
Theorem compare_cases m un (Hun : forall n, length (un n) = n) fuel turns fs path t l refs :
  file_at fs path t l -> (length l + 1 < fuel)%nat -> (length l < turns)%nat -> no_zero_bytes (2 ^ 29 - 1) l ->
  (compare_decoded_stream m un fuel turns fs path refs = Ok tt
   /\ exists si vc frames o, file_plays t l si vc frames o /\ agrees si frames refs)
  \/ ((exists why, compare_decoded_stream m un fuel turns fs path refs = Panic why)
      /\ forall si vc frames o, file_plays t l si vc frames o -> ~ agrees si frames refs).
Proof.
  intros Hat Hf Ht Hz.
  assert (bytes_ok l) as Hb by (destruct Hat as (sc & _ & Hd); exact (delivers_bytes t sc l Hd)).
  destruct (file_exists t l Hb Hz) as [(e & He)|(si & vc & frames & o & Hp)].
  - right. split; [|intros si vc frames o Hp; exfalso; exact (unopened_or_plays t l e si vc frames o Hb He Hp)].
    destruct (path_fails m un Hun fuel fs path t l Hat ltac:(lia)) as [(si & vc & w & rest & -> & Hw)|(e' & E & _)].
    + exfalso. destruct (plays_exist t rest) as (frames & o & Hp).
      * apply app_bytes in Hb. apply Hb.
      * apply no_zero_bytes_suffix in Hz. exact Hz.
      * apply (unopened_or_plays t (w ++ rest) e si vc frames o Hb He). exists w, rest. auto.
    + unfold compare_decoded_stream. rewrite E. cbn. eauto.
  - assert (length frames < turns)%nat as Hl.
    { destruct Hp as (w & rest & -> & _ & Hp). apply plays_frames in Hp. rewrite app_length in Ht. lia. }
    destruct (compare_file m un Hun fuel turns fs path t l si vc frames o refs Hat Hf Hl (or_intror Hz) Hp) as [(Ha & E)|(Hn & E)].
    + left. split; [exact E|]. exists si, vc, frames, o. auto.
    + right. split; [exact E|]. intros si' vc' frames' o' Hp'. destruct (file_unique _ _ _ _ _ _ _ _ _ _ Hb Hp Hp') as (<- & _ & <- & _). exact Hn.
Qed.

(** * Streaminfo *)

Lemma lines_ok mf : forall si, (compare_lines mf si = Ok tt /\ forall i a b, nth_error mf i = Some a -> nth_error si i = Some b -> a = b)
  \/ ((exists why, compare_lines mf si = Panic why) /\ exists i a b, nth_error mf i = Some a /\ nth_error si i = Some b /\ a <> b).
Proof.
  induction mf as [|a mf IH]; intros [|b si]; cbn [compare_lines]; try (left; split; [reflexivity|]; intros [|i] x y E F; try discriminate E; discriminate F).
  destruct (string_dec a b) as [<-|Hne].
  - destruct (IH si) as [(E & H)|(E & i & x & y & H)].
    + left. split; [exact E|]. intros [|i] x y Ex Ey; cbn in Ex, Ey; [congruence|]. exact (H i x y Ex Ey).
    + right. split; [exact E|]. exists (Datatypes.S i), x, y. exact H.
  - right. split; [eauto|]. exists O, a, b. auto.
Qed.
Theorem streaminfo_compared m un (Hun : forall n, length (un n) = n) fuel fs path t w rest si vc metaflac :
  file_at fs path t (w ++ rest) -> (length (w ++ rest) < fuel)%nat -> well_formed si vc w ->
  (compare_metaflac_streaminfo m un fuel fs path metaflac = Ok tt
   /\ forall i a b, nth_error metaflac i = Some a -> nth_error (streaminfo_lines si) i = Some b -> a = b)
  \/ ((exists why, compare_metaflac_streaminfo m un fuel fs path metaflac = Panic why)
      /\ exists i a b, nth_error metaflac i = Some a /\ nth_error (streaminfo_lines si) i = Some b /\ a <> b).
Proof.
  intros Hat Hf Hw. destruct (path_opens m un Hun fuel fs path t w rest si vc Hat Hf Hw) as (r & inp & E & <- & _).
  unfold compare_metaflac_streaminfo. rewrite E. apply lines_ok.
Qed.
Lemma decimal_inj a b : 0 <= a -> 0 <= b -> decimal a = decimal b -> a = b.
Proof.
  unfold decimal. intros Ha Hb E. apply (f_equal NilZero.uint_of_string) in E.
  assert (forall n, N.to_uint n <> Decimal.Nil) as X by (intros [|p]; [discriminate|apply DecimalPos.Unsigned.to_uint_nonnil]).
  rewrite !NilZero.usu in E by apply X.
  injection E as E. apply DecimalN.Unsigned.to_uint_inj in E. lia.
Qed.
Lemma hex_inj a b c d : 0 <= a < 256 -> 0 <= b < 256 -> (hex_digit (a / 16) ++ hex_digit (a mod 16) ++ c)%string = (hex_digit (b / 16) ++ hex_digit (b mod 16) ++ d)%string ->
  a = b /\ c = d.
Proof.
  intros Ha Hb.
  assert (forall x y u v, 0 <= x < 16 -> 0 <= y < 16 -> (hex_digit x ++ u)%string = (hex_digit y ++ v)%string -> x = y /\ u = v) as X.
  { intros x y u v Hx Hy E.
    assert (In x [0;1;2;3;4;5;6;7;8;9;10;11;12;13;14;15] /\ In y [0;1;2;3;4;5;6;7;8;9;10;11;12;13;14;15]) as [Ix Iy] by (cbn [In]; lia).
    cbn [In] in Ix, Iy. repeat destruct Ix as [<-|Ix]; repeat destruct Iy as [<-|Iy]; try contradiction; cbn in E; injection E; intros; subst; auto; discriminate. }
  intros E. apply X in E as [E1 E]; [|lia..]. apply X in E as [E2 E]; [|lia..]. split; [lia|exact E].
Qed.
Lemma print_hex_inj a : forall b, length a = length b -> byte_string a -> byte_string b -> print_hex a = print_hex b -> a = b.
Proof.
  induction a as [|x a IH]; intros [|y b] Hl Ha Hb E; try discriminate Hl; [reflexivity|]. cbn [print_hex] in E.
  inversion Ha; inversion Hb; subst. apply hex_inj in E as [<- E]; [|assumption..]. f_equal. apply IH; auto.
Qed.
Lemma lines_inj a b : streaminfo_fits a -> streaminfo_fits b -> (streaminfo_lines a = streaminfo_lines b <-> same_streaminfo a b).
Proof.
  intros Ha Hb. unfold streaminfo_fits in Ha, Hb. unfold same_streaminfo.
  assert (forall o n, known_ok n o -> 0 <= unwrap_or_0 o) as X by (intros [x|] n H; cbn in *; lia).
  assert (forall o, unwrap_or_0 o = known o) as Y by (intros [x|]; reflexivity).
  split.
  - unfold streaminfo_lines. intros [= E1 E2 E3 E4 E5 E6 E7 E8 E9].
    destruct Ha as (A1 & A2 & A3 & A4 & A5 & A6 & A7 & A8 & A9 & A10), Hb as (B1 & B2 & B3 & B4 & B5 & B6 & B7 & B8 & B9 & B10).
    apply X in A3, A4, A8, B3, B4, B8. rewrite <- !Y.
    apply decimal_inj in E1, E2, E3, E4, E5, E6, E7, E8; try lia. apply print_hex_inj in E9; [|congruence|assumption..]. repeat split; assumption.
  - intros (E1 & E2 & E3 & E4 & E5 & E6 & E7 & E8 & E9). unfold streaminfo_lines. rewrite !Y. congruence.
Qed.
Lemma same_lines {A} (xs : list A) : forall ys, length xs = length ys ->
  (forall i a b, nth_error xs i = Some a -> nth_error ys i = Some b -> a = b) -> xs = ys.
Proof.
  induction xs as [|x xs IH]; intros [|y ys] Hl H; try discriminate Hl; [reflexivity|]. f_equal; [exact (H O x y eq_refl eq_refl)|].
  apply IH; [cbn in Hl; lia|]. intros i a b Ea Eb. exact (H (Datatypes.S i) a b Ea Eb).
Qed.
Theorem streaminfo_agrees m un (Hun : forall n, length (un n) = n) fuel fs path t w rest si vc si' more :
  file_at fs path t (w ++ rest) -> (length (w ++ rest) < fuel)%nat -> well_formed si vc w -> streaminfo_fits si' ->
  (same_streaminfo si' si /\ compare_metaflac_streaminfo m un fuel fs path (streaminfo_lines si' ++ more) = Ok tt)
  \/ (~ same_streaminfo si' si /\ exists why, compare_metaflac_streaminfo m un fuel fs path (streaminfo_lines si' ++ more) = Panic why).
Proof.
  intros Hat Hf Hw Hfit. rewrite <- (lines_inj si' si Hfit (info_spec _ _ _ Hw)).
  destruct (streaminfo_compared m un Hun fuel fs path t w rest si vc (streaminfo_lines si' ++ more) Hat Hf Hw) as [(E & H)|(E & i & a & b & Ea & Eb & Hne)].
  - left. split; [|exact E]. 
    assert (forall i a b, nth_error (streaminfo_lines si') i = Some a -> nth_error (streaminfo_lines si) i = Some b -> a = b) as H'.
    { intros i a b Ea Eb. apply (H i a b); [|exact Eb]. rewrite nth_error_app1; [exact Ea|]. apply nth_error_Some. congruence. }
    apply (same_lines (streaminfo_lines si') (streaminfo_lines si) eq_refl H').
  - right. split; [|exact E]. intros El. apply Hne. rewrite El, nth_error_app1 in Ea by (apply nth_error_Some; congruence). congruence.
Qed.
