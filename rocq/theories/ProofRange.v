(** Proofs about the values of samples. *)
From Verif Require Export SpecRange ProofEncode ProofWhole ProofLoose ProofSession.
From Verif Require Import SpecReader.

(** ** Frames from subframes *)

Lemma separate_frame h hw width ws chs : header_code h hw -> h_width h = Some width ->
  h_assignment h = Separate (Z.of_nat (length chs)) ->
  Forall2 (subframe width (Z.to_nat (h_size h))) ws chs ->
  exists w, frame_code h chs w.
Proof.
  intros Hh Hw Ha Hs. destruct (pack_ok (concat ws)) as (pad & Epad & Hpad & Hbs).
  eexists. exists hw, width, (concat ws), pad, (pack (concat ws)), (crc_of 16 poly16 (hw ++ pack (concat ws))).
  split; [exact Hh|]. split; [exact Hw|]. split; [rewrite Ha; apply channels_separate; [reflexivity|exact Hs]|].
  split; [exact Hbs|]. split; [exact Epad|]. split; [exact Hpad|]. split; [apply crc16_encoded|reflexivity].
Qed.

(** A header for [n] samples of [k] channels at sample [num]. *)
Lemma some_header width n k num : In width widths -> 1 <= n <= 65535 -> 1 <= k <= 8 -> 0 <= num < 2 ^ 36 ->
  exists hw, header_code (mkHeader true num n None (Separate k) (Some width)) hw.
Proof.
  intros Hw Hn Hk Hnum.
  eexists _, _, _. split; [|split; [apply crc8_encoded|reflexivity]].
  exists 7, [(n - 1) / 256; (n - 1) mod 256], 0, [], (width_bits width), (number_bytes 6 num).
  cbn [h_size h_rate h_assignment h_width h_number h_variable].
  split; [apply size_16bit; exact Hn|]. split; [constructor|]. split; [exact Hk|].
  split; [apply width_bits_ok; exact Hw|].
  split; [left; exists 6%nat; split; [lia|]; split; [cbn; lia|reflexivity]|]. split; [discriminate|reflexivity].
Qed.

Lemma fits_32 x : fits 32 x <-> - 2 ^ 31 <= x < 2 ^ 31.
Proof. unfold fits. change (32 - 1) with 31. lia. Qed.

(** ** Any values with any declared width *)

Lemma any_subframe width s : 1 <= width -> s <> [] -> Forall (fits 32) s ->
  exists w, subframe width (length s) w s.
Proof.
  intros Hw Hne Hs.
  assert (Forall (fun x => - 2 ^ 31 <= x < 2 ^ 31) s) as Hi by (eapply Forall_impl; [|exact Hs]; intros; apply fits_32; assumption).
  eexists. exists (Fixed 0), 0, (words (width - 0) []
    ++ residual_bits (Z.of_nat (length s)) 0 (mkRice 1 0 [30]) (residual_of (fixed_predict 0) [] s)), s.
  split; [lia|]. split; [lia|]. split; [|split; [reflexivity|]].
  - set (rs := residual_of _ _ _). replace s with ([] ++ restore (fixed_predict 0) (rev []) rs) at 3 by (apply restored; exact Hi).
    apply (body_fixed (width - 0) (length s) 0 []); [lia|reflexivity|cbn; lia|constructor|].
    apply residual_bits_code; [lia| |unfold rs; rewrite residual_of_length; lia|apply residual_of_i32].
    unfold rice_plan_ok. cbn [rp_method rp_order rp_params]. change (2 ^ 0) with 1. rewrite Z.mod_1_r, Z.div_1_r.
    repeat split; try lia. repeat constructor; cbn; lia.
  - rewrite <- (map_id s) at 1. apply map_ext_in. intros x Hx. change (2 ^ 0) with 1. rewrite Z.mul_1_r.
    symmetry. rewrite Forall_forall in Hi. apply ProofEncode.wrap32_id. auto.
Qed.

Lemma any_subframes width n chs : 1 <= width -> (0 < n)%nat -> pcm 32 n chs ->
  exists ws, Forall2 (subframe width n) ws chs.
Proof.
  intros Hw Hn H. induction H as [|c chs [Hl Hc] H (ws & IH)]; [exists []; constructor|].
  destruct (any_subframe width c Hw ltac:(intros ->; cbn in Hl; lia) Hc) as [w Hs].
  exists (w :: ws). constructor; [rewrite <- Hl; exact Hs|exact IH].
Qed.

Lemma width_pos width : In width widths -> 8 <= width <= 24.
Proof. intros H. apply width_bits_ok in H. tauto. Qed.

Theorem any_frame_exists width n chs num : In width widths -> 1 <= Z.of_nat n <= 65535 ->
  1 <= Z.of_nat (length chs) <= 8 -> pcm 32 n chs -> 0 <= num < 2 ^ 36 ->
  exists w, frame_code (mkHeader true num (Z.of_nat n) None (Separate (Z.of_nat (length chs))) (Some width)) chs w.
Proof.
  intros Hw Hn Hc Hp Hnum. destruct (some_header width (Z.of_nat n) (Z.of_nat (length chs)) num Hw Hn Hc Hnum) as [hw Hh].
  destruct (any_subframes width n chs ltac:(pose proof (width_pos _ Hw); lia) ltac:(lia) Hp) as [ws Hs].
  eapply separate_frame; [exact Hh|reflexivity|reflexivity|]. cbn [h_size]. rewrite Nat2Z.id. exact Hs.
Qed.

(** ** 32 bits always suffice *)

Lemma wrap32_fits x : fits 32 (wrap32 x).
Proof. apply fits_32, wrap32_range. Qed.

Lemma loose_subframe_32 bps n w s : loose_subframe bps n w s -> Forall (fits 32) s.
Proof.
  intros (c & k & wk & wb & s' & _ & _ & _ & _ & _ & ->). apply Forall_map, Forall_forall. intros; apply wrap32_fits.
Qed.
Lemma map2_Forall (P : Z -> Prop) f a b : (forall x y, P (f x y)) -> Forall P (map2 f a b).
Proof. intros H. apply Forall_map, Forall_forall. intros [x y] _. apply H. Qed.
Lemma half_32 x : fits 32 (wrap32 x / 2).
Proof.
  apply fits_32. pose proof (wrap32_range x) as H. unfold isi32 in H. split; [apply Z.div_le_lower_bound; lia|apply Z.div_lt_upper_bound; lia].
Qed.
Lemma loose_channels_32 bps n a w chs : loose_channels bps n a w chs -> Forall (Forall (fits 32)) chs.
Proof.
  intros [k ws chs' _ H|w0 w1 l s H1 H2|w0 w1 s r H1 H2|w0 w1 mid s H1 H2].
  - clear - H. induction H; constructor; [eapply loose_subframe_32; eassumption|assumption].
  - repeat constructor; [eapply loose_subframe_32; eassumption|]. apply map2_Forall. intros; apply wrap32_fits.
  - repeat constructor; [|eapply loose_subframe_32; eassumption]. apply map2_Forall. intros; apply wrap32_fits.
  - repeat constructor; apply map2_Forall; intros; apply half_32.
Qed.

Theorem decoded_32 {S} (rb : ReadBytes S) t D : stream rb t D -> forall m fuel buffer st l b st',
  D st l -> (length l < fuel)%nat -> read_next_or_eof rb m fuel buffer st = (Ok (Some b), st') -> samples_fit 32 b.
Proof.
  intros HS m fuel buffer st l b st' HD Hf E.
  assert (exists h chs w, loose_frame h chs w /\ block_shows b h chs) as (h & chs & w & Hl & Hb).
  { destruct m.
    - destruct (frame_only rb t D HS Debug fuel buffer st l b st' (or_introl eq_refl) HD Hf E) as (h & chs & w & rest & _ & _ & Hc & Hb).
      exists h, chs, w. split; [apply frame_is_loose; exact Hc|exact Hb].
    - destruct (loose_only rb t D HS fuel buffer st l b st' HD Hf E) as (h & chs & w & rest & _ & _ & Hc & Hb). eauto. }
  destruct Hb as (_ & _ & _ & _ & _ & Hv). unfold samples_fit. rewrite Hv.
  destruct Hl as (? & ? & ? & ? & ? & ? & _ & _ & Hc & _). apply loose_channels_32 in Hc.
  clear - Hc. induction Hc; cbn [concat]; [constructor|]. apply Forall_app. auto.
Qed.

(** ** Without prediction *)

Lemma unpredicted_subframe bps n w s : unpredicted bps n w s -> subframe bps n w s.
Proof. intros (c & k & wb & s' & _ & H). exists c, k, wb, s'. exact H. Qed.

Lemma unpredicted_fits bps n w s : bps <= 32 -> unpredicted bps n w s -> Forall (fits bps) s.
Proof.
  intros Hb (c & k & wb & s' & Hc & Hk & Hkb & Hbody & _ & ->).
  assert (Forall (fits (bps - k)) s') as H.
  { inversion Hbody; subst; try (destruct Hc; discriminate).
    - apply Forall_forall. intros x Hx. apply repeat_spec in Hx. subst. assumption.
    - assumption. }
  apply Forall_map. eapply Forall_impl; [|exact H]. intros x Hx.
  assert (fits bps (x * 2 ^ k)) as Hf.
  { unfold fits in *. assert (2 ^ (bps - 1) = 2 ^ (bps - k - 1) * 2 ^ k) as -> by (rewrite <- Z.pow_add_r by lia; f_equal; lia).
    assert (0 < 2 ^ k) by lia. nia. }
  rewrite ProofEncode.wrap32_id; [exact Hf|]. apply (ProofEncode.fits_i32 bps); [exact Hb|exact Hf].
Qed.

Lemma unpredicted_frame_code h chs w : unpredicted_frame h chs w -> frame_code h chs w.
Proof.
  intros (hw & bps & ws & pad & bd & crc & Hh & Hw & Ha & Hs & Hbs & Eb & Hp & Hc & E).
  exists hw, bps, (concat ws), pad, bd, crc. split; [exact Hh|]. split; [exact Hw|].
  split; [|split; [exact Hbs|]; split; [exact Eb|]; split; [exact Hp|]; split; [exact Hc|exact E]].
  rewrite Ha. apply channels_separate; [reflexivity|].
  clear - Hs. induction Hs; constructor; [apply unpredicted_subframe; assumption|assumption].
Qed.

Theorem unpredicted_decoded {S} (rb : ReadBytes S) t D : stream rb t D -> forall m fuel buffer st h chs w rest width,
  unpredicted_frame h chs w -> h_width h = Some width -> D st (w ++ rest) -> (length (w ++ rest) < fuel)%nat ->
  exists b st', read_next_or_eof rb m fuel buffer st = (Ok (Some b), st') /\ samples_fit width b.
Proof.
  intros HS m fuel buffer st h chs w rest width Hu Hw HD Hf.
  destruct (frame_decoded rb t D HS m fuel buffer st h chs w rest (unpredicted_frame_code _ _ _ Hu) HD Hf) as (b & st' & E & Hb & _).
  exists b, st'. split; [exact E|]. destruct Hb as (_ & _ & _ & _ & _ & Hv). unfold samples_fit. rewrite Hv.
  destruct Hu as (hw & bps & ws & pad & bd & crc & Hh & Hw' & Ha & Hs & _).
  assert (bps <= 32) as Hbps.
  { destruct Hh as (front & crc8 & (sc & sx & rc & rx & bc & num & _ & _ & _ & Hwc & _) & _). rewrite Hw' in Hwc.
    unfold width_code in Hwc. cbn [In] in Hwc. intuition (match goal with H : (_, _) = (_, _) |- _ => injection H as _ X end; first [discriminate|lia]). }
  rewrite Hw' in Hw. injection Hw as ->.
  clear - Hs Hbps. induction Hs; cbn [concat]; [constructor|]. apply Forall_app. split; [|assumption].
  eapply unpredicted_fits; eassumption.
Qed.

Theorem encoded_fit {S} (rb : ReadBytes S) t D : stream rb t D -> forall m fuel buffer st f chs rest,
  info_ok f chs -> D st (encode_frame f chs ++ rest) -> (length (encode_frame f chs ++ rest) < fuel)%nat ->
  exists b st', read_next_or_eof rb m fuel buffer st = (Ok (Some b), st') /\ samples_fit (fi_width f) b.
Proof.
  intros HS m fuel buffer st f chs rest Hi HD Hf.
  destruct (round_trip rb t D HS m fuel buffer st f chs rest Hi HD Hf) as (b & st' & E & Hb & _).
  exists b, st'. split; [exact E|]. destruct Hb as (_ & _ & _ & _ & Hv). unfold samples_fit. rewrite Hv.
  destruct Hi as (_ & _ & _ & Hp & _). clear - Hp. induction Hp as [|c chs0 [_ Hc] H IH]; cbn [concat]; [constructor|].
  apply Forall_app. auto.
Qed.

(** ** Sounds *)

Lemma interleave_split a : forall b chs, Forall (fun c => length c = (a + b)%nat) chs ->
  interleave (a + b) chs = interleave a (map (firstn a) chs) ++ interleave b (map (skipn a) chs).
Proof.
  intros b chs H. unfold interleave. rewrite seq_app, flat_map_app. f_equal.
  - rewrite !flat_map_concat_map. f_equal. apply map_ext_in. intros i Hi%in_seq. rewrite map_map. apply map_ext_in.
    intros c Hc. rewrite <- (firstn_skipn a c) at 1. apply app_nth1. rewrite firstn_length.
    rewrite Forall_forall in H. specialize (H c Hc). lia.
  - rewrite Nat.add_0_l. rewrite <- (Nat.add_0_r a) at 1. generalize 0%nat as from. clear H.
    induction b as [|b IH]; intros from; [reflexivity|]. cbn [seq flat_map]. f_equal.
    + rewrite map_map. apply map_ext. intros c. rewrite <- (firstn_skipn a c) at 1.
      destruct (Nat.le_gt_cases (length c) a) as [Hle|Hgt].
      * rewrite firstn_all2, skipn_all2 by exact Hle. rewrite app_nil_r. rewrite (nth_overflow c) by lia. destruct from; reflexivity.
      * rewrite app_nth2 by (rewrite firstn_length; lia). f_equal. rewrite firstn_length. lia.
    + rewrite <- Nat.add_succ_r. apply IH.
Qed.

Lemma pcm_firstn width a b chs : pcm width (a + b) chs -> pcm width a (map (firstn a) chs).
Proof.
  intros H. apply Forall_map. eapply Forall_impl; [|exact H]. intros c [Hl Hc].
  split; [rewrite firstn_length; lia|]. rewrite <- (firstn_skipn a c) in Hc. apply Forall_app in Hc. tauto.
Qed.
Lemma pcm_skipn width a b chs : pcm width (a + b) chs -> pcm width b (map (skipn a) chs).
Proof.
  intros H. apply Forall_map. eapply Forall_impl; [|exact H]. intros c [Hl Hc].
  split; [rewrite skipn_length; lia|]. rewrite <- (firstn_skipn a c) in Hc. apply Forall_app in Hc. tauto.
Qed.
Lemma store_from width size : In width widths -> 1 <= size <= 65535 -> forall k n chs from, (n <= k)%nat ->
  1 <= Z.of_nat (length chs) <= 8 -> pcm 32 n chs -> 0 <= from -> from + Z.of_nat n <= 2 ^ 36 ->
  exists frames ws, Forall2 (fun f w => frame_code (fst f) (snd f) w) frames ws
    /\ Forall (fun f => h_size (fst f) <= size /\ h_width (fst f) = Some width /\ length (snd f) = length chs) frames
    /\ Forall (fun h => h_variable h = true) (map fst frames)
    /\ map h_number (map fst frames) = positions from (map h_size (map fst frames))
    /\ pcm_of frames = interleave n chs.
Proof.
  intros Hw Hsz k. induction k as [|k IH]; intros n chs from Hn Hk Hp Hfrom Hto.
  - exists [], []. assert (n = 0)%nat as -> by lia. repeat constructor.
  - destruct n as [|n']; [exists [], []; repeat constructor|]. set (n := Datatypes.S n') in *.
    assert (1 <= n)%nat as Hn1 by (unfold n; lia). clearbody n.
    pose (a := Nat.min n (Z.to_nat size)). pose (b := (n - a)%nat).
    assert (n = a + b)%nat as En by lia. assert (1 <= Z.of_nat a <= size) as Ha by lia.
    clearbody a b. subst n.
    destruct (any_frame_exists width a (map (firstn a) chs) from Hw ltac:(lia) ltac:(rewrite map_length; lia)
      (pcm_firstn _ _ _ _ Hp) ltac:(lia)) as (w & Hc).
    destruct (IH b (map (skipn a) chs) (from + Z.of_nat a) ltac:(lia) ltac:(rewrite map_length; lia)
      (pcm_skipn _ _ _ _ Hp) ltac:(lia) ltac:(lia)) as (frames & ws & H1 & H2 & H3 & H4 & H5).
    eexists ((_, map (firstn a) chs) :: frames), (w :: ws).
    split; [constructor; [exact Hc|exact H1]|]. split; [|split; [|split]].
    + constructor; [cbn [fst snd h_size h_width]; rewrite map_length; repeat split; lia|].
      rewrite map_length in H2. exact H2.
    + constructor; [reflexivity|exact H3].
    + cbn [map fst h_number h_size positions]. f_equal. exact H4.
    + unfold pcm_of in *. cbn [flat_map fst snd h_size]. rewrite H5, Nat2Z.id. symmetry. apply interleave_split.
      eapply Forall_impl; [|exact Hp]. intros c [Hl _]. exact Hl.
Qed.

Theorem sound_stored : forall width size n chs, In width widths -> 1 <= size <= 65535 ->
  1 <= Z.of_nat (length chs) <= 8 -> pcm 32 n chs -> Z.of_nat n <= 2 ^ 36 ->
  exists frames ws, sound_frames width size (length chs) frames ws /\ pcm_of frames = interleave n chs.
Proof.
  intros width size n chs Hw Hs Hk Hp Hn.
  destruct (store_from width size Hw Hs n n chs 0 ltac:(lia) Hk Hp ltac:(lia) ltac:(lia)) as (frames & ws & H1 & H2 & H3 & H4 & H5).
  exists frames, ws. split; [|exact H5]. split; [exact H1|]. split; [exact H2|]. split; assumption.
Qed.

Theorem sound_plays {S} (rb : ReadBytes S) D : stream rb TEof D -> forall width size n chs si vc w,
  In width widths -> 1 <= size <= 65535 -> 1 <= Z.of_nat (length chs) <= 8 -> pcm 32 n chs -> Z.of_nat n <= 2 ^ 36 ->
  well_formed si vc w ->
  exists frames ws, sound_frames width size (length chs) frames ws
    /\ forall m un fuel st, (forall k, length (un k) = k) -> D st (w ++ concat ws) -> (length (w ++ concat ws) + 1 < fuel)%nat ->
      exists r it, fst (new_ext rb m un fuel default_options st) = Ok r
        /\ fr_get_streaminfo r = si /\ fr_vorbis_comment r = vc /\ fr_samples r = Ok it
        /\ yields (fs_next rb m fuel) it (map ROk (interleave n chs)).
Proof.
  intros HS width size n chs si vc w Hw Hs Hk Hp Hn Hwf.
  destruct (sound_stored width size n chs Hw Hs Hk Hp Hn) as (frames & ws & Hf & Epcm).
  exists frames, ws. split; [exact Hf|]. intros m un fuel st Hun HD Hfu.
  destruct (file_samples rb TEof D HS m un Hun fuel si vc frames st _ eq_refl
    ltac:(exists w, ws; split; [exact Hwf|]; split; [apply Hf|reflexivity]) HD Hfu) as (r & it & E1 & E2 & E3 & E4 & _ & E5).
  exists r, it. rewrite <- Epcm. auto.
Qed.

(** ** What streaminfo says is not checked *)

Theorem streaminfo_unrelated {S} (rb : ReadBytes S) D : stream rb TEof D -> forall si vc w, well_formed si vc w ->
  exists l, forall m un fuel buffer st, (forall k, length (un k) = k) -> D st (w ++ l) -> (length (w ++ l) + 1 < fuel)%nat ->
    exists r inp b inp', fst (new_ext rb m un fuel default_options st) = Ok r
      /\ fr_get_streaminfo r = si /\ fr_blocks r = Ok inp
      /\ read_next_or_eof rb m fuel buffer inp = (Ok (Some b), inp')
      /\ block_channels b <> si_channels si
      /\ (si_max_block_size si < 65534 -> si_max_block_size si < block_duration b)
      /\ si_samples si <> Some (block_duration b)
      /\ forall buffer', fst (read_next_or_eof rb m fuel buffer' inp') = Ok None.
Proof.
  intros HS si vc w Hwf.
  pose (k := if si_channels si =? 1 then 2%nat else 1%nat).
  assert (Z.of_nat k <> si_channels si /\ 1 <= Z.of_nat k <= 8) as [Hk Hk8] by (unfold k; destruct (Z.eqb_spec (si_channels si) 1); lia).
  clearbody k.
  assert (exists n, si_samples si <> Some n /\ 65534 <= n <= 65535) as (n & Hn & Hn').
  { destruct (si_samples si) as [x|]; [|exists 65535; split; [discriminate|lia]].
    destruct (Z.eq_dec x 65535); [exists 65534|exists 65535]; split; try lia; intros [= E]; lia. }
  assert (pcm 32 (Z.to_nat n) (repeat (repeat 0 (Z.to_nat n)) k)) as Hp.
  { apply Forall_forall. intros c Hc. apply repeat_spec in Hc as ->. split; [apply repeat_length|].
    apply Forall_forall. intros x Hx. apply repeat_spec in Hx as ->. apply fits_32. lia. }
  destruct (any_frame_exists 16 (Z.to_nat n) (repeat (repeat 0 (Z.to_nat n)) k) 0 ltac:(cbn; tauto) ltac:(lia) ltac:(rewrite repeat_length; lia) Hp ltac:(lia)) as (l & Hl).
  rewrite Z2Nat.id in Hl by lia. exists l. intros m un fuel buffer st Hun HD Hf.
  destruct (new_accepts rb TEof D HS m un Hun fuel st si vc w l Hwf HD ltac:(lia)) as (r & inp & E1 & E2 & _ & E4 & HD').
  rewrite app_length in Hf.
  destruct (frame_decoded rb TEof D HS m fuel buffer inp _ _ l [] Hl ltac:(rewrite app_nil_r; exact HD') ltac:(rewrite app_nil_r; lia))
    as (b & inp' & E & Hb & HD'').
  exists r, inp, b, inp'. repeat (split; [assumption|]).
  destruct Hb as (_ & Hd & Hc & _). cbn [h_size h_assignment channel_count] in Hd, Hc. rewrite repeat_length in Hc.
  rewrite Hd, Hc. split; [exact Hk|]. split; [lia|]. split; [exact Hn|]. intros buffer'.
  destruct (frame_ends rb TEof D HS m fuel buffer' inp' [] eq_refl ltac:(cbn; lia) ltac:(lia) HD'') as (? & -> & _). reflexivity.
Qed.

(** ** Starting at any frame *)

Section Access.
  Context {S1 S2 : Type} (rb1 : ReadBytes S1) (rb2 : ReadBytes S2) (t : tail) (D1 : S1 -> list Z -> Prop) (D2 : S2 -> list Z -> Prop).
  Context (H1 : stream rb1 t D1) (H2 : stream rb2 t D2).
  Theorem random_access m fuel frames ws : Forall2 (fun f w => frame_code (fst f) (snd f) w) frames ws ->
    forall rest s1 s2 buffers, D1 s1 (concat ws ++ rest) -> D2 s2 rest -> (length (concat ws ++ rest) < fuel)%nat ->
    length buffers = length frames ->
    Forall2 shows_frame (fst (history_all (read_next_or_eof rb1 m fuel) buffers s1)) frames
    /\ forall fuel' buffers', fst (history_until_io (read_next_or_eof rb1 m fuel') buffers' (snd (history_all (read_next_or_eof rb1 m fuel) buffers s1)))
        = fst (history_until_io (read_next_or_eof rb2 m fuel') buffers' s2).
  Proof.
    intros HF. induction HF as [|f w frames ws Hw HF IH]; intros rest s1 s2 buffers HD1 HD2 Hf Hl.
    - destruct buffers; [|discriminate]. cbn [history_all fst snd]. split; [constructor|]. intros fuel' buffers'.
      apply (history_until_io_sim (Rsame D1 D2)).
      + intros b. apply read_next_or_eof_sim; [apply (same_rb rb1 rb2 t D1 D2 H1 H2)|apply (same_eof rb1 rb2 t D1 D2 H1 H2)].
      + exists rest. auto.
    - destruct buffers as [|buffer buffers]; [discriminate|]. cbn [concat] in HD1, Hf. rewrite <- app_assoc in HD1, Hf.
      destruct (frame_decoded rb1 t D1 H1 m fuel buffer s1 _ _ w _ Hw HD1 Hf) as (b & s1' & E & Hb & HD').
      cbn [history_all]. rewrite E. rewrite app_length in Hf.
      specialize (IH rest s1' s2 buffers HD' HD2 ltac:(lia) ltac:(cbn in Hl; lia)).
      destruct (history_all (read_next_or_eof rb1 m fuel) buffers s1') as [rs s'']. cbn [fst snd] in *.
      destruct IH as [I1 I2]. split; [constructor; [exists b; auto|exact I1]|exact I2].
  Qed.
End Access.

Theorem any_values {S} (rb : ReadBytes S) t D : stream rb t D -> forall width n chs, In width widths ->
  1 <= Z.of_nat n <= 65535 -> 1 <= Z.of_nat (length chs) <= 8 -> pcm 32 n chs ->
  exists h w, frame_code h chs w /\ h_width h = Some width
    /\ forall m fuel buffer st rest, D st (w ++ rest) -> (length (w ++ rest) < fuel)%nat ->
       exists b st', read_next_or_eof rb m fuel buffer st = (Ok (Some b), st') /\ block_holds b chs.
Proof.
  intros HS width n chs Hw Hn Hk Hp.
  destruct (any_frame_exists width n chs 0 Hw Hn Hk Hp ltac:(lia)) as (w & Hc).
  eexists _, w. split; [exact Hc|]. split; [reflexivity|]. intros m fuel buffer st rest HD Hf.
  destruct (frame_decoded rb t D HS m fuel buffer st _ _ w rest Hc HD Hf) as (b & st' & E & Hb & _).
  exists b, st'. split; [exact E|]. exact (decoded_holds rb t D HS m fuel buffer st _ _ w rest b st' Hc HD Hf E).
Qed.

Theorem width_exceeded : ~ forall m fuel buffer l h chs w rest width b,
  l = w ++ rest -> bytes_ok l -> (length l < fuel)%nat -> frame_code h chs w -> h_width h = Some width ->
  fst (read_next_or_eof (fl_rb TEof) m fuel buffer l) = Ok (Some b) -> samples_fit width b.
Proof.
  intros X.
  assert (pcm 32 1 [[200]]) as Hp by (repeat constructor; cbn; lia).
  destruct (any_frame_exists 8 1 [[200]] 0 ltac:(cbn; tauto) ltac:(lia) ltac:(cbn; lia) Hp ltac:(lia)) as (w & Hc).
  assert (bytes_ok w) as Hb by (eapply frame_bytes; exact Hc).
  destruct (frame_decoded (fl_rb TEof) TEof _ (fl_stream TEof) Debug (Datatypes.S (length (w ++ []))) (mkVec [] 0) (w ++ []) _ _ w [] Hc
    ltac:(split; [reflexivity|rewrite app_nil_r; exact Hb]) ltac:(lia)) as (b & st' & E & Hs & _).
  specialize (X Debug _ (mkVec [] 0) (w ++ []) _ _ w [] 8 b eq_refl ltac:(rewrite app_nil_r; exact Hb) ltac:(apply Nat.lt_succ_diag_r) Hc eq_refl ltac:(rewrite E; reflexivity)).
  destruct Hs as (_ & _ & _ & _ & _ & Hv). unfold samples_fit in X. rewrite Hv in X. inversion X as [|? ? Hx]; subst.
  unfold fits in Hx. cbn in Hx. lia.
Qed.
