(** Frames, part 2: decoding a frame from a list of bytes. *)
From Verif Require Export ProofFrame SpecApi.
From Verif Require Import SpecReader.

Section Lists.
  Context (t : tail) (m : build).

  (** Running a bit parser on the bytes [l] that are left of [l0]; bytes of which
      a bit was used are gone. *)
  Definition with_bits {A} (l0 : list Z) (p : P A) : M (list Z) A := fun l =>
    let (o, bits) := p (bytes_bits l) in (o, skipn (length l0 - length bits / 8) l0).

  Definition frame_rest (h : header) (l0 : list Z) : M (list Z) (list (list Z)) :=
    bps <- lift (match h_width h with
                 | Some x => Ok x
                 | None => Err (Unsupported "header without bits per sample info")
                 end) ;;
    chs <- with_bits l0 (p_channels t m (h_assignment h) bps (Z.to_nat (h_size h))) ;;
    computed <- fl_crc crc16_of l0 ;;
    presumed <- read_be_u16 (fl_rb t) ;;
    if negb (computed =? presumed) then fmt_err "frame CRC mismatch" else ret chs.

  Definition header_of (fh : frame_header) : header :=
    mkHeader (match fh_block_time fh with SampleNumber _ => true | FrameNumber _ => false end)
             (match fh_block_time fh with SampleNumber n | FrameNumber n => n end)
             (fh_block_size fh) (fh_sample_rate fh)
             (match fh_channel_assignment fh with
              | Independent n => Separate n | LeftSideStereo => LeftSide
              | RightSideStereo => SideRight | MidSideStereo => MidSide end)
             (fh_bits_per_sample fh).
  Lemma header_of_fh h : header_of (fh_of h) = h.
  Proof. destruct h as [[] n s r [| | |] w]; reflexivity. Qed.

  Definition fl_frame (l0 : list Z) : M (list Z) (option (header * list (list Z))) :=
    o <- fl_header t m l0 ;;
    match o with
    | None => ret None
    | Some fh => chs <- frame_rest (header_of fh) l0 ;; ret (Some (header_of fh, chs))
    end.
End Lists.

Lemma sim_post2 {S1 S2 A B} esc (R : S1 -> S2 -> Prop) (Q : A -> B -> Prop) (T : B -> Prop) c1 c2 :
  sim esc R Q c1 c2 -> (forall s b s', c2 s = (Ok b, s') -> T b) ->
  sim esc R (fun a b => Q a b /\ T b) c1 c2.
Proof.
  intros H HT s1 s2 HR. specialize (H s1 s2 HR). destruct (fst (c1 s1)); auto.
  destruct H as (b & E & HQ & HR'). exists b. repeat split; auto.
  apply (HT s2 b (snd (c2 s2))). rewrite <- E. apply surjective_pairing.
Qed.

Lemma bind_run {S A B} (c : M S A) (f : A -> M S B) s a s' :
  c s = (Ok a, s') -> bind c f s = f a s'.
Proof. unfold bind. intros ->. reflexivity. Qed.

  (** What header decoding guarantees. *)
  Definition decent (h : header) : Prop :=
    1 <= h_size h <= 65535 /\ assignment_ok (h_assignment h) /\ 0 <= h_number h < 2 ^ 42
    /\ (h_variable h = false -> h_number h < 2 ^ 31)
    /\ match h_width h with Some x => 8 <= x <= 24 | None => True end.
  Lemma header_decent h w : header_code h w -> decent h.
  Proof.
    intros (front & crc & (sc & sx & rc & rx & bc & num & Hs & Hr & Ha & Hb & Hn & Hv & _) & _).
    apply size_code_range in Hs. apply width_code_range in Hb.
    repeat split; try tauto; try lia.
    - destruct Hn as [(k & _ & ? & _)|[? _]]; lia.
    - destruct Hn as [(k & Hk & Hn & _)|[? _]]; [|lia].
      assert (number_limit k <= 2 ^ 42); [|lia].
      do 7 (destruct k as [|k]; [cbn; lia|]). lia.
  Qed.

  Lemma ensure_len buffer n : 0 <= n -> len (v_items (fst (ensure_buffer_len buffer n))) = n.
  Proof.
    intros Hn. unfold ensure_buffer_len. pose proof (len_nonneg (v_items buffer)).
    destruct (Z.ltb_spec (len (v_items buffer)) n).
    - destruct (v_cap buffer <? n); cbn [fst v_items].
      + unfold len. rewrite repeat_length. lia.
      + rewrite len_app. unfold len at 2. rewrite repeat_length. lia.
    - cbn [fst v_items]. unfold len in *. rewrite firstn_length. lia.
  Qed.

Section Frame.
  Context {S : Type} (rb : ReadBytes S) (t : tail) (D : S -> list Z -> Prop).
  Context (Hrs : rb_sim no_esc D rb (fl_rb t)) (Hes : eof_sim no_esc D rb (fl_rb t)).
  Context (Hbytes : forall st l, D st l -> bytes_ok l).
  Context (m : build) (fuel : nat).

  Lemma with_bits_left {A B} (Q : A -> B -> Prop) l0 (c : M (bitstream (crc16reader S)) A) p :
    (length l0 < fuel)%nat ->
    sim no_esc (bits_left (D16 D l0) fuel) Q c p ->
    sim no_esc (D16 D l0) Q (with_bitstream c) (with_bits l0 p).
  Proof.
    intros Hf H st l HD. unfold with_bitstream, with_bits.
    assert (bits_left (D16 D l0) fuel (bs_new st) (bytes_bits l)) as HR.
    { exists 0%nat, 0, l. cbn. destruct HD as (pre & -> & HD & Hc). rewrite app_length in Hf.
      repeat split; auto; try lia; [|eapply Hbytes, HD]. exists pre. auto. }
    specialize (H _ _ HR). destruct (c (bs_new st)) as [o st'], (p (bytes_bits l)) as [o2 bits'].
    cbn [fst snd] in *.
    assert (bits_left (D16 D l0) fuel st' bits' -> D16 D l0 (bs_reader st') (skipn (length l0 - length bits' / 8) l0)) as X.
    { intros (n & d & l2 & Hn & Hd & _ & _ & -> & HD2 & _).
      rewrite app_length, bits_of_length, bytes_bits_length.
      replace ((n + 8 * length l2) / 8)%nat with (length l2)
        by (rewrite Nat.mul_comm, Nat.div_add, Nat.div_small by lia; lia).
      destruct HD2 as (pre & E & HD2 & Hc). replace (skipn (length l0 - length l2) l0) with l2; [exists pre; auto|].
      rewrite E, app_length. replace (length pre + length l2 - length l2)%nat with (length pre) by lia.
      rewrite skipn_app, skipn_all, Nat.sub_diag. reflexivity. }
    destruct o; auto.
    - destruct H as (b & -> & HQ & HR2). exists b. auto.
    - destruct H as [H|[H Hk]]; auto.
  Qed.

  Definition next_cap (buffer : vec) (total : Z) : Z := v_cap (fst (ensure_buffer_len buffer total)).

  Definition block_is (buffer : vec) (h : header) (ob : option block) (chs : list (list Z)) : Prop :=
    exists b, ob = Some b /\ block_shows b h chs
      /\ v_cap (bl_buffer b) = next_cap buffer (channel_count (h_assignment h) * h_size h).

  Lemma frame_after_header_left l0 buffer h : (length l0 < fuel)%nat -> bytes_ok l0 -> decent h ->
    sim no_esc (D16 D l0) (block_is buffer h)
      (frame_after_header rb m fuel buffer (Some (fh_of h))) (frame_rest t m h l0).
  Proof.
    intros Hf Hl0 (Hsz & Has & Hn & Hn' & Hw). unfold frame_after_header, frame_rest.
    assert (fh_channels (fh_of h) = channel_count (h_assignment h)) as Ech
      by (destruct h as [v n s r [| | |] w]; reflexivity).
    assert (1 <= channel_count (h_assignment h) <= 8) as Hch
      by (destruct (h_assignment h); cbn in *; lia).
    rewrite Ech. cbn [fh_of fh_block_size fh_block_time fh_channel_assignment fh_bits_per_sample].
    set (total := channel_count (h_assignment h) * h_size h) in *.
    assert (1 <= total <= 524280) as Htot by nia.
    rewrite chk_u64 by lia.
    pose proof (ensure_len buffer total ltac:(lia)) as Elen.
    eapply sim_ext; [intros; apply bind_lift_ok|reflexivity|].
    cbv beta.
    destruct (ensure_buffer_len buffer total) as [buf al] eqn:Eb. cbn [fst] in Elen.
    assert (v_cap buf = next_cap buffer total) as Ecap by (unfold next_cap; rewrite Eb; reflexivity).
    eapply sim_ext with (d2 := bind (ret tt) (fun _ => frame_rest t m h l0)); [reflexivity..|].
    eapply sim_bind_eq.
    { destruct al as [n|]; [|apply sim_ret; reflexivity].
      apply (rs_alloc _ _ _ _ (crc16_left_rb rb t D Hrs l0) n 4). }
    intros _. unfold frame_rest.
    destruct (h_width h) as [bps|]; [|intros st l ?; cbn; auto].
    eapply sim_ext; [intros; apply bind_lift_ok|intros; apply bind_lift_ok|]. cbv beta.
    assert (debug_assert m (bps <=? 32) = Ok tt) as -> by
      (unfold debug_assert; destruct m; [replace (bps <=? 32) with true by lia|]; reflexivity).
    eapply sim_ext; [intros; apply bind_lift_ok|reflexivity|]. cbv beta.
    eapply sim_bind.
    { eapply with_bits_left; [exact Hf|].
      apply sim_post2 with (T := fun chs => Z.of_nat (length chs) = channel_count (h_assignment h)
        /\ Forall (fun c => length c = Z.to_nat (h_size h)) chs).
      2: { intros s chs s' E. apply channels_lengths in E; auto; lia. }
      eapply bits_left_sim with (c := fun rb => decode_channels rb m fuel (fh_assign (h_assignment h)) bps (h_size h) (v_items buf)).
      - apply decode_channels_sim, (crc16_left_rb rb t D Hrs l0).
      - apply channels_left; auto; lia. }
    intros x chs [-> [Hlen Hall]].
    eapply sim_bind_eq; [apply crc16_crc_left, Hl0|]. intros computed.
    eapply sim_bind_eq; [eapply sim_eq_of, read_be_u16_sim, (crc16_left_rb rb t D Hrs l0)|]. intros presumed.
    destruct (negb (computed =? presumed)); [apply sim_fail|].
    assert (len (concat chs) = total) as Etot.
    { unfold len. rewrite (concat_length _ _ Hall). unfold total. nia. }
    replace (match (if h_variable h then SampleNumber (h_number h) else FrameNumber (h_number h)) with
             | FrameNumber fnr => chk m u64 (h_size h * fnr)
             | SampleNumber snr => Ok snr end) with (Ok (header_time h)).
    2: { unfold header_time. destruct (h_variable h); [reflexivity|].
         specialize (Hn' eq_refl). rewrite chk_u64 by nia. f_equal. lia. }
    unfold block_new. replace (h_size h =? 0) with false by lia. cbn [v_items]. rewrite Etot, u32_id by lia.
    eapply sim_ext; [intros; apply bind_lift_ok|reflexivity|]. cbv beta.
    eapply sim_ext; [intros; apply bind_lift_ok|reflexivity|]. cbv beta.
    apply sim_ret. eexists. split; [reflexivity|]. unfold block_shows. cbn.
    repeat split; auto.
    - unfold total. apply Z.div_mul. lia.
    - revert Hall. apply Forall_impl. unfold len. intros; lia.
  Qed.

  Definition frame_shows (buffer : vec) (o : option block) (r : option (header * list (list Z))) : Prop :=
    match r with
    | None => o = None
    | Some (h, chs) => block_is buffer h o chs
    end.

  Theorem frame_left_full st l buffer : D st l -> (length l < fuel)%nat ->
    let r := read_next_or_eof rb m fuel buffer st in
    let f := fl_frame t m l l in
    match fst r with
    | Ok o => exists x, fst f = Ok x /\ frame_shows buffer o x /\ D (snd r) (snd f)
    | Err e => fst f = Err e /\ (ours e -> D (snd r) (snd f))
    | Panic w => fst f = Panic w
    | UB w => fst f = UB w
    | OutOfFuel => fst f = OutOfFuel
    end.
  Proof.
    intros HD Hf. cbv zeta. unfold read_next_or_eof, with_crc16. rewrite read_next_body_eq.
    unfold fl_frame. pose proof (Hbytes _ _ HD) as Hb.
    assert (D16 D l (crc16_new st) l) as HD0 by (apply D16_new, HD).
    destruct (header_left (crc16_rb rb) t (D16 D l) (crc16_left_rb rb t D Hrs l)
                (crc16_left_eof rb t D Hrs Hes l)
                (fun s x (H : D16 D l s x) => ltac:(destruct H as (pre & E & _); rewrite E in Hb; apply bytes_app in Hb; tauto))
                m (crc16_new st) l HD0) as [E1 HD1].
    destruct (read_frame_header_or_eof (crc16_rb rb) m (crc16_new st)) as [o1 st1] eqn:Er.
    destruct (fl_header t m l l) as [o2 l1] eqn:Ef. cbn [fst snd] in *. subst o2.
    pose proof (fun e => header_left_ours (crc16_rb rb) t (D16 D l) (crc16_left_rb rb t D Hrs l)
                (crc16_left_eof rb t D Hrs Hes l)
                (fun s x (H : D16 D l s x) => ltac:(destruct H as (pre & E & _); rewrite E in Hb; apply bytes_app in Hb; tauto))
                m (crc16_new st) l e HD0) as HDe. rewrite Er, Ef in HDe. cbn [fst snd] in HDe.
    destruct o1 as [[fh|]|e|w|w|];
      [rewrite (bind_run _ _ _ _ _ Er), (bind_run _ _ _ _ _ Ef)
      |rewrite (bind_run _ _ _ _ _ Er), (bind_run _ _ _ _ _ Ef)
      |unfold bind; rewrite Er, Ef; try reflexivity..].
    - specialize (HD1 ltac:(eexists; reflexivity)). destruct (header_sound t m l fh l1 Hb Ef) as (h & w & El & Hw & ->).
      rewrite header_of_fh.
      pose proof (frame_after_header_left l buffer h Hf Hb (header_decent _ _ Hw) st1 l1 HD1) as H.
      unfold bind.
      destruct (frame_after_header rb m fuel buffer (Some (fh_of h)) st1) as [o st2].
      destruct (frame_rest t m h l l1) as [o' l2]. cbn [fst snd] in *.
      destruct o; try (rewrite H; reflexivity).
      2: { destruct H as [[]|[H Hk]]. subst o'. split; [reflexivity|]. intros Ho. destruct (Hk Ho) as (pre & _ & ? & _). assumption. }
      destruct H as (chs & -> & Hs & HD2). exists (Some (h, chs)). split; [reflexivity|].
      split; [exact Hs|]. destruct HD2 as (pre & _ & ? & _). assumption.
    - specialize (HD1 ltac:(eexists; reflexivity)). cbn. exists None. repeat split.
      destruct HD1 as (pre & _ & ? & _). assumption.
    - cbn [fst snd]. split; [reflexivity|]. intros Ho. destruct (HDe e eq_refl Ho) as (pre & _ & ? & _). assumption.
  Qed.
  Theorem frame_left st l buffer : D st l -> (length l < fuel)%nat ->
    let r := read_next_or_eof rb m fuel buffer st in
    let f := fl_frame t m l l in
    match fst r with
    | Ok o => exists x, fst f = Ok x /\ frame_shows buffer o x /\ D (snd r) (snd f)
    | Err e => fst f = Err e
    | Panic w => fst f = Panic w
    | UB w => fst f = UB w
    | OutOfFuel => fst f = OutOfFuel
    end.
  Proof.
    intros HD Hf. pose proof (frame_left_full st l buffer HD Hf) as H. cbv zeta in *.
    destruct (fst (read_next_or_eof rb m fuel buffer st)); try exact H. apply H.
  Qed.
End Frame.

(** ** What [fl_frame] accepts *)
Section Pure.
  Context (t : tail) (m : build).

  Lemma with_bits_inv {A} l0 (p : P A) l a l' : with_bits l0 p l = (Ok a, l') ->
    exists bits, p (bytes_bits l) = (Ok a, bits) /\ l' = skipn (length l0 - length bits / 8) l0.
  Proof.
    unfold with_bits. destruct (p (bytes_bits l)) as [o bits] eqn:E. intros H.
    exists bits. split; congruence.
  Qed.

  (** A bit string that is a suffix of [bytes_bits l] splits [l]. *)
  Lemma split_bits l w r : bytes_bits l = w ++ r ->
    exists body rest pad, l = body ++ rest /\ bytes_bits body = w ++ pad /\ (length pad < 8)%nat
      /\ r = pad ++ bytes_bits rest /\ length rest = (length r / 8)%nat.
  Proof.
    intros E. pose proof (f_equal (@length _) E) as El. rewrite app_length, bytes_bits_length in El.
    set (k := (length l - length r / 8)%nat).
    exists (firstn k l), (skipn k l).
    assert (length (skipn k l) = length r / 8)%nat as Hk.
    { rewrite skipn_length. unfold k. assert (length r / 8 <= length l)%nat; [|lia].
      apply Nat.div_le_upper_bound; lia. }
    assert (bytes_bits (firstn k l) ++ bytes_bits (skipn k l) = w ++ r) as E2
      by (rewrite <- bytes_bits_app, firstn_skipn; exact E).
    assert (length r = length r mod 8 + 8 * (length r / 8))%nat as Hr by (pose proof (Nat.div_mod (length r) 8); lia).
    assert (length w <= length (bytes_bits (firstn k l)))%nat as Hle.
    { pose proof (f_equal (@length _) E2) as E3. rewrite !app_length, !bytes_bits_length in *. lia. }
    exists (skipn (length w) (bytes_bits (firstn k l))).
    assert (w = firstn (length w) (bytes_bits (firstn k l))) as Ew.
    { pose proof (f_equal (firstn (length w)) E2) as E3. rewrite !firstn_app in E3.
      replace (length w - length (bytes_bits (firstn k l)))%nat with 0%nat in E3 by lia.
      rewrite Nat.sub_diag, firstn_all in E3. cbn [firstn] in E3. rewrite !app_nil_r in E3. auto. }
    assert (r = skipn (length w) (bytes_bits (firstn k l)) ++ bytes_bits (skipn k l)) as Er.
    { pose proof (f_equal (skipn (length w)) E2) as E3. rewrite !skipn_app in E3.
      replace (length w - length (bytes_bits (firstn k l)))%nat with 0%nat in E3 by lia.
      rewrite Nat.sub_diag, skipn_all in E3. cbn [skipn app] in E3. auto. }
    repeat split; auto.
    - symmetry. apply firstn_skipn.
    - rewrite Ew at 1. symmetry. apply firstn_skipn.
    - pose proof (f_equal (@length _) Er) as E3. rewrite app_length, bytes_bits_length in E3.
      pose proof (Nat.mod_upper_bound (length r) 8). lia.
  Qed.

  Definition quiet_bytes (l : list Z) : Prop := m = Debug \/ quiet (bytes_bits l).

  Theorem frame_sound l h chs l' : bytes_ok l -> fine m (bytes_bits l) ->
    fl_frame t m l l = (Ok (Some (h, chs)), l') ->
    exists w, l = w ++ l' /\ frame_code h chs w.
  Proof.
    intros Hb Hf E. unfold fl_frame in E. apply bind_ok in E as ([fh|] & l1 & E1 & E); [|discriminate E].
    destruct (header_sound t m l fh l1 Hb E1) as (h' & hw & El & Hw & ->). rewrite header_of_fh in E.
    apply bind_ok in E as (chs' & l2 & E2 & E). injection E as <- <- <-.
    pose proof (header_decent _ _ Hw) as (Hsz & Has & Hn & Hn' & Hbps).
    unfold frame_rest in E2. apply bind_ok in E2 as (bps & l3 & E3 & E2).
    destruct (h_width h') as [x|] eqn:Ew; [|discriminate E3]. injection E3 as <- <-.
    apply bind_ok in E2 as (c & l4 & E4 & E2). apply with_bits_inv in E4 as (bits & E4 & ->).
    assert (fine m (bytes_bits l1)) as Hf1.
    { destruct Hf as [?|Hf]; [left; assumption|right]. rewrite El, bytes_bits_app in Hf.
      apply quiet_app in Hf. exact Hf. }
    destruct (channels_sound t m (h_assignment h') x (Z.to_nat (h_size h')) ltac:(lia) Has _ _ _ Hf1 E4) as (w & E5 & Hc).
    destruct (split_bits _ _ _ E5) as (body & rest & pad & -> & Ebody & Hpad & -> & Hlen).
    rewrite <- Hlen in E2.
    replace (skipn (length l - length rest) l) with rest in E2.
    2: { rewrite El, app_assoc, app_length. replace (length (hw ++ body) + length rest - length rest)%nat with (length (hw ++ body)) by lia.
         rewrite skipn_app, skipn_all, Nat.sub_diag. reflexivity. }
    apply bind_ok in E2 as (computed & l5 & E6 & E2). unfold fl_crc in E6. injection E6 as <- <-.
    apply bind_ok in E2 as (presumed & l6 & E6 & E2).
    destruct (negb _) eqn:Ec; [discriminate E2|]. injection E2 as <- <-.
    apply be_u16_inv in E6 as (a & b & -> & Ha & Hb' & Ep).
    2: { rewrite El in Hb. apply bytes_app in Hb as [_ Hb]. apply bytes_app in Hb. tauto. }
    rewrite El, app_assoc, consumed in Ec.
    assert (crc16_of (hw ++ body) = 256 * a + b) as Ecrc by lia.
    exists (hw ++ body ++ [a; b]). split; [rewrite El, <- !app_assoc; reflexivity|].
    assert (bytes_ok (hw ++ body)) as Hhb.
    { rewrite El, app_assoc in Hb. apply bytes_app in Hb. tauto. }
    exists hw, x, w, pad, body, (256 * a + b). split; [assumption|]. split; [assumption|].
    split; [assumption|]. split; [apply bytes_app in Hhb; tauto|]. split; [assumption|].
    split; [assumption|]. split; [rewrite <- Ecrc; apply crc16_of_ok, Hhb|].
    do 2 f_equal. f_equal; [|f_equal]; lia.
  Qed.
  
  (** Any two bytes in the place of the checksum. *)
  Lemma frame_any_crc h chs hw bps bits pad body a b l' : bytes_ok l' -> is_byte a -> is_byte b ->
    header_code h hw -> h_width h = Some bps ->
    channels_code bps (Z.to_nat (h_size h)) (h_assignment h) bits chs ->
    byte_string body -> bytes_bits body = bits ++ pad -> (length pad < 8)%nat ->
    let w := hw ++ body ++ [a; b] in
    fl_frame t m (w ++ l') (w ++ l')
    = (if crc16_of (hw ++ body) =? 256 * a + b then Ok (Some (h, chs)) else Err (FormatError "frame CRC mismatch"), l').
  Proof.
    intros Hb' Ha Hb Hh Hw Hc Hbody Ebody Hpad. cbv zeta.
    assert (bytes_ok (body ++ [a; b] ++ l')) as Hb1.
    { apply bytes_app. split; [exact Hbody|]. apply bytes_cons. split; [exact Ha|]. apply bytes_cons. split; [exact Hb|exact Hb']. }
    set (l0 := (hw ++ body ++ [a; b]) ++ l').
    assert (l0 = (hw ++ body) ++ [a; b] ++ l') as El0
      by (unfold l0; rewrite <- !app_assoc; reflexivity).
    unfold fl_frame.
    assert (fl_header t m l0 l0 = (Ok (Some (fh_of h)), body ++ [a; b] ++ l')) as Eh.
    { unfold l0. rewrite <- !app_assoc. apply header_complete; assumption. }
    rewrite (bind_run _ _ _ _ _ Eh). rewrite header_of_fh.
    assert (frame_rest t m h l0 (body ++ [a; b] ++ l')
      = (if crc16_of (hw ++ body) =? 256 * a + b then Ok chs else Err (FormatError "frame CRC mismatch"), l')) as Er.
    { unfold frame_rest. rewrite Hw, bind_lift_ok.
      assert (with_bits l0 (p_channels t m (h_assignment h) bps (Z.to_nat (h_size h))) (body ++ [a; b] ++ l') = (Ok chs, [a; b] ++ l')) as Ec.
      { unfold with_bits. rewrite bytes_bits_app, Ebody, <- app_assoc.
        rewrite (channels_complete t m _ _ _ _ _ _ Hc). f_equal.
        rewrite app_length, bytes_bits_length.
        set (tl := [a; b] ++ l') in *.
        replace ((length pad + 8 * length tl) / 8)%nat with (length tl)
          by (rewrite Nat.mul_comm, Nat.div_add, Nat.div_small by lia; lia).
        rewrite El0, app_length.
        rewrite skipn_app. rewrite skipn_all2 by lia. cbn [app].
        match goal with |- skipn ?k _ = _ => replace k with 0%nat by lia end. reflexivity. }
      rewrite (bind_run _ _ _ _ _ Ec).
      unfold bind at 1. unfold fl_crc. rewrite El0, consumed.
      unfold bind at 1. cbn [app]. rewrite be_u16_cons by assumption.
      destruct (crc16_of (hw ++ body) =? 256 * a + b); reflexivity. }
    unfold bind. rewrite Er. destruct (crc16_of (hw ++ body) =? 256 * a + b); reflexivity.
  Qed.
  Theorem frame_complete h chs w l' : bytes_ok l' -> frame_code h chs w ->
    fl_frame t m (w ++ l') (w ++ l') = (Ok (Some (h, chs)), l').
  Proof.
    intros Hb' (hw & bps & bits & pad & body & crc & Hh & Hw & Hc & Hbody & Ebody & Hpad & Hcrc & ->).
    assert (0 <= crc < 2 ^ 16) as Hr by (destruct Hcrc; assumption).
    rewrite (frame_any_crc h chs hw bps bits pad body (crc / 256) (crc mod 256)) by (auto; unfold is_byte; lia).
    rewrite (crc16_unique _ _ _ (crc16_of_ok (hw ++ body) ltac:(apply bytes_app; split; [apply (header_bytes h), Hh|exact Hbody])) Hcrc).
    replace (crc =? 256 * (crc / 256) + crc mod 256) with true by lia. reflexivity.
  Qed.

  Theorem frame_total l : bytes_ok l -> calm m (bytes_bits l) -> value_or_error (fst (fl_frame t m l l)).
  Proof.
    intros Hb Hq. destruct (header_total t m l Hb) as [Hv Hl1].
    unfold fl_frame. destruct (fl_header t m l l) as [o l1] eqn:E. cbn [fst snd] in *.
    destruct Hv as [[a ->]|[e ->]]; [|unfold bind; rewrite E; right; eexists; reflexivity].
    rewrite (bind_run _ _ _ _ _ E). destruct a as [fh|]; [|left; eexists; reflexivity].
    destruct (header_sound t m l fh l1 Hb E) as (h & hw & El & Hw & ->). rewrite header_of_fh.
    assert (value_or_error (fst (frame_rest t m h l l1))) as H.
    2: { unfold bind. destruct (frame_rest t m h l l1) as [o l2]. cbn [fst] in H.
         destruct H as [[? ->]|[? ->]]; [left|right]; eexists; reflexivity. }
    pose proof (header_decent _ _ Hw) as (Hsz & Has & Hn & Hn' & Hbps).
    unfold frame_rest. destruct (h_width h) as [x|]; [|right; eexists; reflexivity].
    rewrite bind_lift_ok.
    assert (calm m (bytes_bits l1)) as Hq1 by (rewrite El, bytes_bits_app in Hq; apply calm_app in Hq; exact Hq).
    pose proof (channels_total t m (h_assignment h) x (Z.to_nat (h_size h)) _ Hq1) as [Hv _].
    unfold bind at 1. unfold with_bits.
    destruct (p_channels _ _ _ _ _ _) as [o bits] eqn:Ec. cbn [fst] in Hv.
    destruct Hv as [[a ->]|[e ->]]; [|right; eexists; reflexivity].
    set (l2 := skipn _ l).
    assert (bytes_ok l2) as Hb2.
    { unfold l2. rewrite <- (firstn_skipn (length l - length bits / 8) l) in Hb. apply bytes_app in Hb. tauto. }
    unfold bind at 1. unfold fl_crc.
    destruct (be_u16_total t l2 Hb2) as [Hv _]. unfold bind.
    destruct (read_be_u16 (fl_rb t) l2) as [o l3]. cbn [fst] in Hv.
    destruct Hv as [[c ->]|[e ->]]; [|right; eexists; reflexivity].
    destruct (negb _); [right|left]; eexists; reflexivity.
  Qed.

  (** The end of the stream. *)
  Lemma header_generic_some {A} (rb : ReadBytes A) crc x l l' :
    header_generic rb crc m (Some x) l <> (Ok None, l').
  Proof.
    intros E. unfold header_generic in E.
    destruct (negb _); [discriminate E|]. destruct (negb _); [discriminate E|].
    do 6 (apply bind_ok in E as (? & ? & _ & E)). destruct (negb _); [discriminate E|].
    unfold h_tail in E.
    repeat match type of E with context [let '(_, _) := ?p in _] => destruct p end.
    repeat (first [discriminate E | apply bind_ok in E as (? & ? & _ & E) | destruct (negb _)]).
  Qed.
  Theorem frame_none l l' : bytes_ok l -> fl_frame t m l l = (Ok None, l') ->
    t = TEof /\ (length l <= 1)%nat /\ l' = [].
  Proof.
    unfold fl_frame. intros Hb E. apply bind_ok in E as ([fh|] & l1 & E1 & E).
    { apply bind_ok in E as (? & ? & _ & E). discriminate E. }
    injection E as <-. apply bind_ok in E1 as ([x|] & l2 & E2 & E1).
    - exfalso. exact (header_generic_some _ _ _ _ _ E1).
    - injection E1 as <-. apply be_u16_or_eof_inv in E2; tauto.
  Qed.
  Lemma frame_at_end l : (length l <= 1)%nat -> t = TEof -> fl_frame t m l l = (Ok None, []).
  Proof. destruct l as [|a [|b l]]; cbn [length]; intros H ->; [reflexivity|reflexivity|lia]. Qed.
End Pure.
