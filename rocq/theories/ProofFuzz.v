(** Frames in the fuzzing configuration: checksums are not compared. *)
From Verif Require Export ProofFrame2 ProofReaderCap SpecFuzzing ProofFrame3.
From Verif Require Import SpecReader.

Definition header_after_sync_fz {S} (rb : ReadBytes S) (m : build) (osync : option Z)
    : M (crc8reader S) (option frame_header) :=
  match osync with
  | None => ret None
  | Some sync_res_block =>
    ltac:(let t := eval cbv beta iota zeta delta [read_frame_header_body_fz] in
            (read_frame_header_body_fz rb m) in
          match t with
          | bind _ (fun o => match o with None => _ | Some s => @?b s end) =>
              let u := eval cbv beta in (b sync_res_block) in exact u
          end)
  end.

Lemma read_frame_header_body_eq_fz {S} (rb : ReadBytes S) m :
  read_frame_header_body_fz rb m
  = bind (read_be_u16_or_eof (crc8_rb rb)) (header_after_sync_fz rb m).
Proof. reflexivity. Qed.

Section GenericFz.
  Context {S : Type} (crb : ReadBytes S) (crc : M S Z) (m : build).
  Definition h_tail_fz (variable : bool) (sizes : Z * bool * bool)
      (rates : option Z * bool * bool * bool) (ca : channel_assignment) (bps : option Z)
      : M S (option frame_header) :=
    let '(v, s8, s16) := sizes in
    let '(r, r8, r16, r10) := rates in
    time <- h_times crb m variable ;;
    v <- h_size8 crb m s8 v ;;
    v <- h_size16 crb m s16 v ;;
    r <- h_rate8 crb r8 r ;;
    r <- h_rate16 crb r16 r ;;
    r <- h_rate_ten crb m r10 r ;;
    computed <- crc ;;
    presumed <- read_u8 crb ;;
    ret (Some (mkFh time v r ca bps)).

  Definition header_generic_fz (o : option Z) : M S (option frame_header) :=
    match o with
    | None => ret None
    | Some s =>
      if negb (Z.land s 65532 =? 65528) then fmt_err "frame sync code missing"
      else if negb (Z.land s 2 =? 0)
      then fmt_err "invalid frame header, encountered reserved value"
      else
        x <- read_u8 crb ;;
        sizes <- h_sizes m (Z.shiftr x 4) ;;
        rates <- h_rates (Z.land x 15) ;;
        y <- read_u8 crb ;;
        ca <- h_assign m (Z.shiftr y 4) ;;
        bps <- h_widths (Z.shiftr (Z.land y 14) 1) ;;
        if negb (Z.land y 1 =? 0)
        then fmt_err "invalid frame header, encountered reserved value"
        else h_tail_fz (negb (Z.land s 1 =? 0)) sizes rates ca bps
    end.
End GenericFz.

  Lemma header_after_sync_eq_fz {S} (rb : ReadBytes S) m o s :
  header_after_sync_fz rb m o s = header_generic_fz (crc8_rb rb) crc8_crc m o s.
Proof.
  unfold header_after_sync_fz, header_generic_fz. destruct o as [x|]; [|reflexivity].
  destruct (negb _); [reflexivity|]. destruct (negb _); [reflexivity|].
  apply bind_ext; [reflexivity|]. intros a s1.
  apply bind_ext; [reflexivity|]. intros [[v s8] s16] s2.
  apply bind_ext; [reflexivity|]. intros [[[r r8] r16] r10] s3. reflexivity.
Qed.
  Lemma header_generic_sim_fz {S1 S2} esc (R : S1 -> S2 -> Prop) rb1 rb2 c1 c2 m o :
  rb_sim esc R rb1 rb2 -> sim esc R eq c1 c2 ->
  sim esc R eq (header_generic_fz rb1 c1 m o) (header_generic_fz rb2 c2 m o).
Proof.
  intros H Hc. pose proof (read_u8_sim_eq _ _ _ _ H). pose proof (read_var_length_int_sim _ _ _ _ m H).
  pose proof (sim_eq_of _ _ _ _ _ (read_be_u16_sim _ _ _ _ H)).
  unfold header_generic_fz, h_tail_fz, h_sizes, h_rates, h_assign, h_widths, h_times, h_size8, h_size16,
    h_rate8, h_rate16, h_rate_ten. sim_tac.
Qed.

Section TrackingFz.
  Context {S : Type} (rb : ReadBytes S) (t : tail) (D : S -> list Z -> Prop).
  Context (Hrs : rb_sim no_esc D rb (fl_rb t)) (Hes : eof_sim no_esc D rb (fl_rb t)).
  Definition fl_header_fz (m : build) (l0 : list Z) : M (list Z) (option frame_header) :=
    o <- read_be_u16_or_eof (fl_rb t) ;;
    header_generic_fz (fl_rb t) (fl_crc crc8_of l0) m o.

  Context (Hbytes : forall st l, D st l -> bytes_ok l).

  Lemma header_body_left_fz m (st : S) l : D st l -> sim no_esc (D8 D l) eq (read_frame_header_body_fz rb m) (fl_header_fz m l).
  Proof.
    intros HD. rewrite read_frame_header_body_eq_fz. unfold fl_header_fz. eapply sim_bind_eq.
    - apply read_be_u16_or_eof_sim, (crc8_left_eof rb t D Hrs Hes).
    - intros o. eapply sim_ext; [intros s; apply header_after_sync_eq_fz|reflexivity|].
      apply header_generic_sim_fz; [apply (crc8_left_rb rb t D Hrs)|]. apply crc8_crc_left, (Hbytes st), HD.
  Qed.
  Lemma header_left_fz m st l : D st l ->
    fst (read_frame_header_or_eof_fz rb m st) = fst (fl_header_fz m l l)
    /\ (succeeded (fst (fl_header_fz m l l)) ->
        D (snd (read_frame_header_or_eof_fz rb m st)) (snd (fl_header_fz m l l))).
  Proof.
    intros HD. unfold read_frame_header_or_eof_fz, with_crc8.
    destruct (sim_fst (D8 D l) _ _ (crc8_new st) l (header_body_left_fz m st l HD) (D8_new D st l HD)) as [E H].
    destruct (read_frame_header_body_fz rb m (crc8_new st)) as [o st']. cbn [fst snd] in *.
    split; [exact E|]. intros Hs. destruct (H Hs) as (pre & _ & ? & _). assumption.
  Qed.
  Lemma header_left_ours_fz m st l e : D st l -> fst (fl_header_fz m l l) = Err e -> ours e ->
    D (snd (read_frame_header_or_eof_fz rb m st)) (snd (fl_header_fz m l l)).
  Proof.
    intros HD E Ho. unfold read_frame_header_or_eof_fz, with_crc8.
    pose proof (sim_ours (D8 D l) _ _ (crc8_new st) l e (header_body_left_fz m st l HD) (D8_new D st l HD) E Ho) as H.
    destruct (read_frame_header_body_fz rb m (crc8_new st)) as [o st']. cbn [fst snd] in *.
    destruct H as (pre & _ & ? & _). assumption.
  Qed.
End TrackingFz.

Section FlatFz.
  Context (t : tail) (m : build).
  Notation rb := (fl_rb t).
  Lemma tail_unfold_fz c variable x y ca bps l :
    h_tail_fz rb c m variable x y ca bps l
    = bind (h_times rb m variable) (fun time =>
      bind (x_size t m x) (fun v =>
      bind (x_rate t m y) (fun r =>
      bind c (fun computed =>
      bind (read_u8 rb) (fun presumed =>
      ret (Some (mkFh time v r ca bps))))))) l.
  Proof.
    destruct x as [[v s8] s16], y as [[[r r8] r16] r10]. unfold h_tail_fz, x_size, x_rate. cbn [fst snd].
    apply bind_ext; [reflexivity|]. intros time s1.
    rewrite bind_assoc. apply bind_ext; [reflexivity|]. intros v1 s2.
    apply bind_ext; [reflexivity|]. intros v2 s3.
    rewrite bind_assoc. apply bind_ext; [reflexivity|]. intros r1 s4.
    rewrite bind_assoc. reflexivity.
  Qed.
  Theorem header_sound_fz l fh l' : bytes_ok l -> fl_header_fz t m l l = (Ok (Some fh), l') ->
    exists h w, l = w ++ l' /\ unchecked_header h w /\ fh = fh_of h.
  Proof.
    intros Hl E. unfold fl_header_fz in E. apply bind_ok in E as (o & l1 & E0 & E).
    apply be_u16_or_eof_inv in E0; [|exact Hl]. unfold header_generic_fz in E.
    destruct o as [s|]; [|discriminate E].
    destruct E0 as (a & b & -> & Ha & Hb & ->).
    destruct (sync_bits a b Ha Hb) as [Es1 Es2].
    rewrite Es1 in E. destruct ((a =? 255) && ((248 <=? b) && (b <=? 251))) eqn:Hsync; [|discriminate E].
    destruct (Es2 eq_refl) as [Es3 Es4]. rewrite Es3, Es4 in E. cbn [negb] in E.
    destruct (b <=? 249) eqn:Hb2; [|discriminate E]. cbn [negb] in E.
    apply bytes_cons in Hl as [_ Hl]. apply bytes_cons in Hl as [_ Hl].
    apply bind_ok in E as (x & l2 & E1 & E). apply u8_inv in E1. subst l1.
    apply bytes_cons in Hl as [Hx Hl]. destruct (nibbles x Hx) as (Ex1 & Ex2 & _ & _).
    rewrite Ex1, Ex2 in E.
    apply bind_ok in E as (sizes & l3 & E1 & E). rewrite h_sizes_eq in E1 by lia.
    destruct (size_entry (x / 16)) as [se|] eqn:Hse; [|discriminate E1]. injection E1 as <- <-.
    apply bind_ok in E as (rates & l3 & E1 & E). rewrite h_rates_eq in E1 by lia.
    destruct (rate_entry (x mod 16)) as [re|] eqn:Hre; [|discriminate E1]. injection E1 as <- <-.
    apply bind_ok in E as (y & l3 & E1 & E). apply u8_inv in E1. subst l2.
    apply bytes_cons in Hl as [Hy Hl]. destruct (nibbles y Hy) as (Ey1 & _ & Ey2 & Ey3).
    rewrite Ey1, Ey2, Ey3 in E.
    apply bind_ok in E as (ca & l4 & E1 & E). rewrite h_assign_eq in E1 by lia.
    destruct (assign_entry (y / 16)) as [asg|] eqn:Has; [|discriminate E1]. injection E1 as <- <-.
    apply assign_entry_iff in Has; [|lia]. destruct Has as [Hasg Easg].
    apply bind_ok in E as (bps & l4 & E1 & E). rewrite h_widths_eq in E1 by lia.
    destruct (width_entry (y mod 16 / 2)) as [wd|] eqn:Hwd; [|discriminate E1]. injection E1 as <- <-.
    apply width_entry_iff in Hwd; [|lia].
    destruct (Z.eqb_spec (y mod 2) 0) as [Ey4|]; [|discriminate E]. cbn [negb] in E.
    rewrite tail_unfold_fz in E.
    apply bind_ok in E as (time & l4 & E1 & E). apply times_sound in E1; [|exact Hl].
    destruct E1 as (wn & -> & num & Hnum & Hnum2 & ->). apply bytes_app in Hl as [Hwn Hl].
    apply bind_ok in E as (v & l5 & E1 & E). apply (size_sound t m (x / 16)) in E1; [|lia|assumption|assumption].
    destruct E1 as (ws & -> & Hsize). apply bytes_app in Hl as [Hws Hl].
    apply bind_ok in E as (r & l6 & E1 & E). apply (rate_sound t m (x mod 16)) in E1; [|lia|assumption|assumption].
    destruct E1 as (wr & -> & Hrate). apply bytes_app in Hl as [Hwr Hl].
    apply bind_ok in E as (crc & l7 & E1 & E). unfold fl_crc in E1.
    apply bind_ok in E as (crc' & l8 & E2 & E). apply u8_inv in E2. subst l7.
    set (front := a :: b :: x :: y :: wn ++ ws ++ wr) in *.
    assert (a :: b :: x :: y :: wn ++ ws ++ wr ++ l6 = front ++ l6) as Eall.
    { unfold front. cbn [app]. do 4 f_equal. rewrite <- !app_assoc. reflexivity. }
    rewrite Eall in E1. rewrite skip_consumed in E1.
    apply (f_equal fst) in E1 as F1; apply (f_equal snd) in E1 as F2; cbn [fst snd] in F1, F2.
    injection F1 as <-.
    assert (is_byte crc') as Hc' by (rewrite F2 in Hl; apply bytes_cons in Hl; apply Hl).
    unfold ret in E. injection E as <- <-.
    assert (bytes_ok front) as Hfront.
    { unfold front. do 4 (apply bytes_cons; split; [assumption|]). apply bytes_app. split; [assumption|].
      apply bytes_app. auto. }
    exists (mkHeader (b mod 2 =? 1) num v r asg wd), (front ++ [crc']).
    split; [rewrite Eall, F2, <- app_assoc; reflexivity|].
    assert (b = 248 + Z.b2z (b mod 2 =? 1)) as Eb by lia.
    assert (negb (b mod 2 =? 0) = (b mod 2 =? 1)) as Enb by lia.
    split.
    - exists front, crc'. split; [|split; [exact Hc'|reflexivity]].
      exists (x / 16), ws, (x mod 16), wr, (y mod 16 / 2), wn. cbn [h_size h_rate h_assignment h_width h_number h_variable].
      split; [assumption|]. split; [assumption|]. split; [assumption|]. split; [assumption|].
      split; [assumption|]. split; [rewrite <- Enb; exact Hnum2|].
      unfold front. cbn [app]. f_equal; [lia|]. f_equal; [exact Eb|].
      f_equal; [lia|]. f_equal. lia.
    - unfold fh_of. cbn [h_size h_rate h_assignment h_width h_number h_variable].
      rewrite Enb. reflexivity.
  Qed.
  Lemma header_complete_fz h front crc l' : header_front h front -> is_byte crc -> bytes_ok l' ->
    fl_header_fz t m ((front ++ [crc]) ++ l') ((front ++ [crc]) ++ l')
    = (Ok (Some (fh_of h)), l').
  Proof.
    intros Hf Hcb Hl'. pose proof (front_bytes h front Hf) as Hfb.
    assert (bytes_ok (front ++ [crc])) as Hwb by (apply bytes_app; split; [exact Hfb|apply bytes_cons; split; [exact Hcb|constructor]]).
    destruct Hf as (sc & sx & rc & rx & bc & num & Hs & Hr & Ha & Hb & Hn & Hv & Hfront).
    pose proof (size_code_range _ _ _ Hs) as (Hs1 & Hs2 & Hs3).
    pose proof (rate_code_range _ _ _ Hr) as (Hr1 & Hr2).
    pose proof (width_code_range _ _ Hb) as (Hb1 & _).
    assert (0 <= assignment_code (h_assignment h) <= 10) as Ha1
      by (destruct (h_assignment h); cbn in *; lia).
    set (b := 248 + Z.b2z (h_variable h)) in *. assert (248 <= b <= 249) as Hb2 by (unfold b; destruct (h_variable h); cbn; lia).
    set (x := 16 * sc + rc) in *. set (y := 16 * assignment_code (h_assignment h) + 2 * bc) in *.
    assert ((front ++ [crc]) ++ l' = 255 :: b :: x :: y :: num ++ sx ++ rx ++ [crc] ++ l') as Eall.
    { rewrite Hfront. cbn [app]. do 4 f_equal. rewrite <- !app_assoc. reflexivity. }
    transitivity (fl_header_fz t m ((front ++ [crc]) ++ l') (255 :: b :: x :: y :: num ++ sx ++ rx ++ [crc] ++ l'));
      [f_equal; exact Eall|].
    unfold fl_header_fz, bind at 1.
    rewrite be_u16_or_eof_cons by lia. unfold header_generic_fz.
    destruct (sync_bits 255 b ltac:(lia) ltac:(lia)) as [-> Es2].
    replace ((255 =? 255) && ((248 <=? b) && (b <=? 251))) with true in * by lia.
    destruct (Es2 eq_refl) as [-> ->]. replace (b <=? 249) with true by lia. cbn [negb].
    unfold bind at 1. cbn [fl_rb read_u8].
    destruct (nibbles x ltac:(lia)) as (-> & -> & _ & _).
    replace (x / 16) with sc by lia. replace (x mod 16) with rc by lia.
    destruct (size_complete t m _ _ _ Hs) as (se & Hse & Hsz). destruct (rate_complete t m _ _ _ Hr) as (re & Hre & Hrt).
    unfold bind at 1. rewrite h_sizes_eq, Hse by lia.
    unfold bind at 1. rewrite h_rates_eq, Hre by lia.
    unfold bind at 1. cbn [fl_rb read_u8].
    destruct (nibbles y ltac:(lia)) as (-> & _ & -> & ->).
    replace (y / 16) with (assignment_code (h_assignment h)) by lia.
    replace (y mod 16 / 2) with bc by lia. replace (y mod 2) with 0 by lia.
    unfold bind at 1. rewrite h_assign_eq by lia.
    rewrite (proj2 (assign_entry_iff (assignment_code (h_assignment h)) (h_assignment h) ltac:(lia))) by auto.
    unfold bind at 1. rewrite h_widths_eq by lia. rewrite (proj2 (width_entry_iff bc (h_width h) ltac:(lia))) by exact Hb.
    change (negb (0 =? 0)) with false. cbv iota.
    fold (fl_rb t). rewrite tail_unfold_fz.
    assert (bytes_ok (num ++ sx ++ rx ++ [crc] ++ l')) as Hrest.
    { assert (bytes_ok ((front ++ [crc]) ++ l')) as H1 by (apply bytes_app; auto).
      rewrite Eall in H1. do 4 (apply bytes_cons in H1 as [_ H1]). exact H1. }
    assert (negb (b mod 2 =? 0) = h_variable h) as -> by (unfold b; destruct (h_variable h); reflexivity).
    unfold bind at 1. rewrite (times_complete t m _ num (h_number h)) by assumption.
    unfold bind at 1. rewrite Hsz. unfold bind at 1. rewrite Hrt.
    reflexivity.
  Qed.
  Theorem header_total_fz l : bytes_ok l -> good bytes_ok (fl_header_fz t m l l).
  Proof.
    intros Hl. assert (forall l0, btotal (fl_crc crc8_of l0)) as Hcrc.
    { intros l0 s Hs. split; cbn; [apply voe_ok|exact Hs]. }
    unfold fl_header_fz.
    destruct l as [|a [|b l]].
    - unfold read_be_u16_or_eof, bind. cbn [fl_rb read_u8_or_eof].
      destruct t; cbn; (split; [first [apply voe_ok|apply voe_err]|constructor]).
    - unfold read_be_u16_or_eof, bind. cbn [fl_rb read_u8_or_eof].
      destruct t; cbn; (split; [first [apply voe_ok|apply voe_err]|constructor]).
    - apply bytes_cons in Hl as Hl1. destruct Hl1 as [Ha Hl1]. apply bytes_cons in Hl1 as [Hb Hl1].
      eapply good_step; [apply be_u16_or_eof_cons; assumption|]. unfold header_generic_fz.
      assert (forall e l, bytes_ok l -> good bytes_ok (@fail _ (option frame_header) e l)) as Hfail
        by (intros; split; cbn; [apply voe_err|assumption]).
      destruct (negb _); [apply Hfail, Hl1|]. destruct (negb _); [apply Hfail, Hl1|].
      generalize (a :: b :: l) as l0. intros l0.
      destruct l as [|x l]; [eapply good_stop; [reflexivity|constructor]|].
      eapply good_step; [reflexivity|].
      apply bytes_cons in Hl1 as [Hx Hl1]. destruct (nibbles x Hx) as (-> & -> & _ & _).
      eapply read_entry; [apply h_sizes_eq; lia|exact Hl1|]. intros se Hse.
      eapply read_entry; [apply h_rates_eq; lia|exact Hl1|]. intros re Hre.
      destruct l as [|y l]; [eapply good_stop; [reflexivity|constructor]|].
      eapply good_step; [reflexivity|].
      apply bytes_cons in Hl1 as [Hy Hl1]. destruct (nibbles y Hy) as (-> & _ & -> & ->).
      destruct (assign_entry (y / 16)) as [asg|] eqn:Has;
        [|eapply good_stop; [rewrite h_assign_eq, Has by lia; reflexivity|exact Hl1]].
      eapply good_step; [rewrite h_assign_eq, Has by lia; reflexivity|].
      eapply read_entry; [apply h_widths_eq; lia|exact Hl1|]. intros wd Hwd.
      destruct (negb _); [apply Hfail, Hl1|].
      rewrite tail_unfold_fz.
      apply (safe_bind bytes_ok); [apply times_total| |exact Hl1]. intros time.
      apply safe_bind; [apply (size_total t m (x / 16)); [lia|assumption]|]. intros v.
      apply safe_bind; [apply rate_total|]. intros r.
      apply safe_bind; [apply Hcrc|]. intros computed.
      apply safe_bind; [apply u8_total|]. intros presumed.
      apply safe_ret.
  Qed.
End FlatFz.


Definition frame_after_header_fz {S} (rb : ReadBytes S) (m : build) (fuel : nat)
    (buffer : vec) (oheader : option frame_header)
    : M (crc16reader S) (option block) :=
  match oheader with
  | None => ret None
  | Some header =>
    ltac:(let t := eval cbv beta iota zeta delta [read_next_body_fz] in
            (read_next_body_fz rb m fuel buffer) in
          match t with
          | bind _ (fun o => match o with None => _ | Some s => @?b s end) =>
              let u := eval cbv beta in (b header) in exact u
          end)
  end.

Lemma read_next_body_eq_fz {S} (rb : ReadBytes S) m fuel buffer :
  read_next_body_fz rb m fuel buffer
  = bind (read_frame_header_or_eof_fz (crc16_rb rb) m) (frame_after_header_fz rb m fuel buffer).
Proof. reflexivity. Qed.

Section ListsFz.
  Context (t : tail) (m : build).
  Definition frame_rest_fz (h : header) (l0 : list Z) : M (list Z) (list (list Z)) :=
    bps <- lift (match h_width h with
                 | Some x => Ok x
                 | None => Err (Unsupported "header without bits per sample info")
                 end) ;;
    chs <- with_bits l0 (p_channels t m (h_assignment h) bps (Z.to_nat (h_size h))) ;;
    computed <- fl_crc crc16_of l0 ;;
    presumed <- read_be_u16 (fl_rb t) ;;
    ret chs.
  Definition fl_frame_fz (l0 : list Z) : M (list Z) (option (header * list (list Z))) :=
    o <- fl_header_fz t m l0 ;;
    match o with
    | None => ret None
    | Some fh => chs <- frame_rest_fz (header_of fh) l0 ;; ret (Some (header_of fh, chs))
    end.
End ListsFz.

  Lemma header_decent_fz h w : unchecked_header h w -> decent h.
  Proof.
    intros (front & crc & (sc & sx & rc & rx & bc & num & Hs & Hr & Ha & Hb & Hn & Hv & _) & _).
    apply size_code_range in Hs. apply width_code_range in Hb.
    repeat split; try tauto; try lia.
    - destruct Hn as [(k & _ & ? & _)|[? _]]; lia.
    - destruct Hn as [(k & Hk & Hn & _)|[? _]]; [|lia].
      assert (number_limit k <= 2 ^ 42); [|lia].
      do 7 (destruct k as [|k]; [cbn; lia|]). lia.
  Qed.
Section FrameFz.
  Context {S : Type} (rb : ReadBytes S) (t : tail) (D : S -> list Z -> Prop).
  Context (Hrs : rb_sim no_esc D rb (fl_rb t)) (Hes : eof_sim no_esc D rb (fl_rb t)).
  Context (Hbytes : forall st l, D st l -> bytes_ok l).
  Context (m : build) (fuel : nat).
  Lemma frame_after_header_left_fz l0 buffer h : (length l0 < fuel)%nat -> bytes_ok l0 -> decent h ->
    sim no_esc (D16 D l0) (block_is buffer h)
      (frame_after_header_fz rb m fuel buffer (Some (fh_of h))) (frame_rest_fz t m h l0).
  Proof.
    intros Hf Hl0 (Hsz & Has & Hn & Hn' & Hw). unfold frame_after_header_fz, frame_rest_fz.
    assert (fh_channels (fh_of h) = channel_count (h_assignment h)) as Ech
      by (destruct h as [v n s r [| | |] w]; reflexivity).
    assert (1 <= channel_count (h_assignment h) <= 8) as Hch
      by (destruct (h_assignment h); cbn in *; lia).
    rewrite Ech. cbn [fh_of fh_block_size fh_block_time fh_channel_assignment fh_bits_per_sample].
    set (total := channel_count (h_assignment h) * h_size h) in *.
    assert (1 <= total <= 524280) as Htot by nia.
    rewrite chk_u64 by lia.
    pose proof (ensure_len buffer total ltac:(lia)) as Elen.
    eapply sim_ext; [intros; apply bind_lift_ok|reflexivity|].
    cbv beta.
    destruct (ensure_buffer_len buffer total) as [buf al] eqn:Eb. cbn [fst] in Elen.
    assert (v_cap buf = next_cap buffer total) as Ecap by (unfold next_cap; rewrite Eb; reflexivity).
    eapply sim_ext with (d2 := bind (ret tt) (fun _ => frame_rest_fz t m h l0)); [reflexivity..|].
    eapply sim_bind_eq.
    { destruct al as [n|]; [|apply sim_ret; reflexivity].
      apply (rs_alloc _ _ _ _ (crc16_left_rb rb t D Hrs l0) n 4). }
    intros _. unfold frame_rest_fz.
    destruct (h_width h) as [bps|]; [|intros st l ?; cbn; auto].
    eapply sim_ext; [intros; apply bind_lift_ok|intros; apply bind_lift_ok|]. cbv beta.
    assert (debug_assert m (bps <=? 32) = Ok tt) as -> by
      (unfold debug_assert; destruct m; [replace (bps <=? 32) with true by lia|]; reflexivity).
    eapply sim_ext; [intros; apply bind_lift_ok|reflexivity|]. cbv beta.
    eapply sim_bind.
    { apply (with_bits_left D Hbytes fuel); [exact Hf|].
      apply sim_post2 with (T := fun chs => Z.of_nat (length chs) = channel_count (h_assignment h)
        /\ Forall (fun c => length c = Z.to_nat (h_size h)) chs).
      2: { intros s chs s' E. apply channels_lengths in E; auto; lia. }
      eapply bits_left_sim with (c := fun rb => decode_channels rb m fuel (fh_assign (h_assignment h)) bps (h_size h) (v_items buf)).
      - apply decode_channels_sim, (crc16_left_rb rb t D Hrs l0).
      - apply channels_left; auto; lia. }
    intros x chs [-> [Hlen Hall]].
    eapply sim_bind_eq; [apply crc16_crc_left, Hl0|]. intros computed.
    eapply sim_bind_eq; [eapply sim_eq_of, read_be_u16_sim, (crc16_left_rb rb t D Hrs l0)|]. intros presumed.
    assert (len (concat chs) = total) as Etot.
    { unfold len. rewrite (concat_length _ _ Hall). unfold total. nia. }
    replace (match (if h_variable h then SampleNumber (h_number h) else FrameNumber (h_number h)) with
             | FrameNumber fnr => chk m u64 (h_size h * fnr)
             | SampleNumber snr => Ok snr end) with (Ok (header_time h)).
    2: { unfold header_time. destruct (h_variable h); [reflexivity|].
         specialize (Hn' eq_refl). rewrite chk_u64 by nia. f_equal. lia. }
    unfold block_new. replace (h_size h =? 0) with false by lia. cbn [v_items]. rewrite Etot, u32_id by lia.
    eapply sim_ext; [intros; apply bind_lift_ok|reflexivity|]. cbv beta.
    eapply sim_ext; [intros; apply bind_lift_ok|reflexivity|]. cbv beta.
    apply sim_ret. eexists. split; [reflexivity|]. unfold block_shows. cbn.
    repeat split; auto.
    - unfold total. apply Z.div_mul. lia.
    - revert Hall. apply Forall_impl. unfold len. intros; lia.
  Qed.
  Theorem frame_left_full_fz st l buffer : D st l -> (length l < fuel)%nat ->
    let r := read_next_or_eof_fz rb m fuel buffer st in
    let f := fl_frame_fz t m l l in
    match fst r with
    | Ok o => exists x, fst f = Ok x /\ frame_shows buffer o x /\ D (snd r) (snd f)
    | Err e => fst f = Err e /\ (ours e -> D (snd r) (snd f))
    | Panic w => fst f = Panic w
    | UB w => fst f = UB w
    | OutOfFuel => fst f = OutOfFuel
    end.
  Proof.
    intros HD Hf. cbv zeta. unfold read_next_or_eof_fz, with_crc16. rewrite read_next_body_eq_fz.
    unfold fl_frame_fz. pose proof (Hbytes _ _ HD) as Hb.
    assert (D16 D l (crc16_new st) l) as HD0 by (apply D16_new, HD).
    destruct (header_left_fz (crc16_rb rb) t (D16 D l) (crc16_left_rb rb t D Hrs l)
                (crc16_left_eof rb t D Hrs Hes l)
                (fun s x (H : D16 D l s x) => ltac:(destruct H as (pre & E & _); rewrite E in Hb; apply bytes_app in Hb; tauto))
                m (crc16_new st) l HD0) as [E1 HD1].
    destruct (read_frame_header_or_eof_fz (crc16_rb rb) m (crc16_new st)) as [o1 st1] eqn:Er.
    destruct (fl_header_fz t m l l) as [o2 l1] eqn:Ef. cbn [fst snd] in *. subst o2.
    pose proof (fun e => header_left_ours_fz (crc16_rb rb) t (D16 D l) (crc16_left_rb rb t D Hrs l)
                (crc16_left_eof rb t D Hrs Hes l)
                (fun s x (H : D16 D l s x) => ltac:(destruct H as (pre & E & _); rewrite E in Hb; apply bytes_app in Hb; tauto))
                m (crc16_new st) l e HD0) as HDe. rewrite Er, Ef in HDe. cbn [fst snd] in HDe.
    destruct o1 as [[fh|]|e|w|w|];
      [rewrite (bind_run _ _ _ _ _ Er), (bind_run _ _ _ _ _ Ef)
      |rewrite (bind_run _ _ _ _ _ Er), (bind_run _ _ _ _ _ Ef)
      |unfold bind; rewrite Er, Ef; try reflexivity..].
    - specialize (HD1 ltac:(eexists; reflexivity)). destruct (header_sound_fz t m l fh l1 Hb Ef) as (h & w & El & Hw & ->).
      rewrite header_of_fh.
      pose proof (frame_after_header_left_fz l buffer h Hf Hb (header_decent_fz _ _ Hw) st1 l1 HD1) as H.
      unfold bind.
      destruct (frame_after_header_fz rb m fuel buffer (Some (fh_of h)) st1) as [o st2].
      destruct (frame_rest_fz t m h l l1) as [o' l2]. cbn [fst snd] in *.
      destruct o; try (rewrite H; reflexivity).
      2: { destruct H as [[]|[H Hk]]. subst o'. split; [reflexivity|]. intros Ho. destruct (Hk Ho) as (pre & _ & ? & _). assumption. }
      destruct H as (chs & -> & Hs & HD2). exists (Some (h, chs)). split; [reflexivity|].
      split; [exact Hs|]. destruct HD2 as (pre & _ & ? & _). assumption.
    - specialize (HD1 ltac:(eexists; reflexivity)). cbn. exists None. repeat split.
      destruct HD1 as (pre & _ & ? & _). assumption.
    - cbn [fst snd]. split; [reflexivity|]. intros Ho. destruct (HDe e eq_refl Ho) as (pre & _ & ? & _). assumption.
  Qed.
  Theorem frame_left_fz st l buffer : D st l -> (length l < fuel)%nat ->
    let r := read_next_or_eof_fz rb m fuel buffer st in
    let f := fl_frame_fz t m l l in
    match fst r with
    | Ok o => exists x, fst f = Ok x /\ frame_shows buffer o x /\ D (snd r) (snd f)
    | Err e => fst f = Err e
    | Panic w => fst f = Panic w
    | UB w => fst f = UB w
    | OutOfFuel => fst f = OutOfFuel
    end.
  Proof.
    intros HD Hf. pose proof (frame_left_full_fz st l buffer HD Hf) as H. cbv zeta in *.
    destruct (fst (read_next_or_eof_fz rb m fuel buffer st)); try exact H. apply H.
  Qed.
End FrameFz.

Section PureFz.
  Context (t : tail) (m : build).
  (** Without a restriction on the input. *)
  Lemma header_long_fz h hw : unchecked_header h hw -> (6 <= length hw)%nat.
  Proof.
    intros (front & c & (sc & sx & rc & rx & bc & num & _ & _ & _ & _ & Hn & _ & ->) & _ & ->).
    assert (1 <= length num)%nat.
    { destruct num; [|cbn; lia]. exfalso. destruct Hn as [(k & _ & _ & E)|(_ & E)]; [destruct k|]; discriminate E. }
    rewrite !app_length. cbn [length]. lia.
  Qed.
  Theorem frame_parts_fz l h chs l' : bytes_ok l -> fl_frame_fz t m l l = (Ok (Some (h, chs)), l') ->
    exists hw body, unchecked_header h hw /\ l = hw ++ body ++ l' /\ (2 <= length body)%nat.
  Proof.
    intros Hb E. unfold fl_frame_fz in E. apply bind_ok in E as ([fh|] & l1 & E1 & E); [|discriminate E].
    destruct (header_sound_fz t m l fh l1 Hb E1) as (h' & hw & El & Hw & ->). rewrite header_of_fh in E.
    apply bind_ok in E as (chs' & l2 & E2 & E). injection E as <- <- <-.
    unfold frame_rest_fz in E2. apply bind_ok in E2 as (bps & l3 & E3 & E2).
    destruct (h_width h') as [x|] eqn:Ew; [|discriminate E3]. injection E3 as <- <-.
    apply bind_ok in E2 as (c & l4 & E4 & E2). apply with_bits_inv in E4 as (bits & E4 & ->).
    destruct (shr_channels t m (h_assignment h') x (Z.to_nat (h_size h')) (bytes_bits l1)) as [w E5].
    rewrite E4 in E5. cbn [snd] in E5.
    destruct (split_bits _ _ _ E5) as (body & rest & pad & -> & Ebody & Hpad & -> & Hlen).
    rewrite <- Hlen in E2.
    replace (skipn (length l - length rest) l) with rest in E2.
    2: { rewrite El, app_assoc, app_length. replace (length (hw ++ body) + length rest - length rest)%nat with (length (hw ++ body)) by lia.
         rewrite skipn_app, skipn_all, Nat.sub_diag. reflexivity. }
    apply bind_ok in E2 as (computed & l5 & E6 & E2). unfold fl_crc in E6. injection E6 as <- <-.
    apply bind_ok in E2 as (presumed & l6 & E6 & E2).
    injection E2 as <- <-.
    apply be_u16_inv in E6 as (a & b & -> & Ha & Hb' & Ep).
    2: { rewrite El in Hb. apply bytes_app in Hb as [_ Hb]. apply bytes_app in Hb. tauto. }
    exists hw, (body ++ [a; b]). split; [exact Hw|]. split; [rewrite El, <- !app_assoc; reflexivity|].
    rewrite app_length. cbn [length]. lia.
  Qed.
  Theorem frame_sound_fz l h chs l' : bytes_ok l -> fine m (bytes_bits l) ->
    fl_frame_fz t m l l = (Ok (Some (h, chs)), l') ->
    exists w, l = w ++ l' /\ unchecked_frame h chs w.
  Proof.
    intros Hb Hf E. unfold fl_frame_fz in E. apply bind_ok in E as ([fh|] & l1 & E1 & E); [|discriminate E].
    destruct (header_sound_fz t m l fh l1 Hb E1) as (h' & hw & El & Hw & ->). rewrite header_of_fh in E.
    apply bind_ok in E as (chs' & l2 & E2 & E). injection E as <- <- <-.
    pose proof (header_decent_fz _ _ Hw) as (Hsz & Has & Hn & Hn' & Hbps).
    unfold frame_rest_fz in E2. apply bind_ok in E2 as (bps & l3 & E3 & E2).
    destruct (h_width h') as [x|] eqn:Ew; [|discriminate E3]. injection E3 as <- <-.
    apply bind_ok in E2 as (c & l4 & E4 & E2). apply with_bits_inv in E4 as (bits & E4 & ->).
    assert (fine m (bytes_bits l1)) as Hf1.
    { destruct Hf as [?|Hf]; [left; assumption|right]. rewrite El, bytes_bits_app in Hf.
      apply quiet_app in Hf. exact Hf. }
    destruct (channels_sound t m (h_assignment h') x (Z.to_nat (h_size h')) ltac:(lia) Has _ _ _ Hf1 E4) as (w & E5 & Hc).
    destruct (split_bits _ _ _ E5) as (body & rest & pad & -> & Ebody & Hpad & -> & Hlen).
    rewrite <- Hlen in E2.
    replace (skipn (length l - length rest) l) with rest in E2.
    2: { rewrite El, app_assoc, app_length. replace (length (hw ++ body) + length rest - length rest)%nat with (length (hw ++ body)) by lia.
         rewrite skipn_app, skipn_all, Nat.sub_diag. reflexivity. }
    apply bind_ok in E2 as (computed & l5 & E6 & E2). unfold fl_crc in E6. injection E6 as <- <-.
    apply bind_ok in E2 as (presumed & l6 & E6 & E2).
    injection E2 as <- <-.
    apply be_u16_inv in E6 as (a & b & -> & Ha & Hb' & Ep).
    2: { rewrite El in Hb. apply bytes_app in Hb as [_ Hb]. apply bytes_app in Hb. tauto. }
    exists (hw ++ body ++ [a; b]). split; [rewrite El, <- !app_assoc; reflexivity|].
    assert (bytes_ok (hw ++ body)) as Hhb.
    { rewrite El, app_assoc in Hb. apply bytes_app in Hb. tauto. }
    exists hw, x, w, pad, body, a, b. repeat (split; [assumption|]).
    split; [apply bytes_app in Hhb; tauto|]. repeat (split; [assumption|]). reflexivity.
  Qed.
  Theorem frame_complete_fz h chs w l' : bytes_ok l' -> unchecked_frame h chs w ->
    fl_frame_fz t m (w ++ l') (w ++ l') = (Ok (Some (h, chs)), l').
  Proof.
    intros Hb' (hw & bps & bits & pad & body & a & b & (front & c & Hh & Hcb & ->) & Hw & Hc & Hbody & Ebody & Hpad & Ha & Hb & ->).
    set (hw := front ++ [c]).
    assert (bytes_ok (body ++ [a; b] ++ l')) as Hb1.
    { apply bytes_app. split; [exact Hbody|]. apply bytes_cons. split; [exact Ha|]. apply bytes_cons. split; [exact Hb|exact Hb']. }
    set (l0 := (hw ++ body ++ [a; b]) ++ l').
    assert (l0 = (hw ++ body) ++ [a; b] ++ l') as El0
      by (unfold l0; rewrite <- !app_assoc; reflexivity).
    unfold fl_frame_fz.
    assert (fl_header_fz t m l0 l0 = (Ok (Some (fh_of h)), body ++ [a; b] ++ l')) as Eh.
    { unfold l0. rewrite <- !app_assoc. unfold hw. apply header_complete_fz; assumption. }
    rewrite (bind_run _ _ _ _ _ Eh). rewrite header_of_fh.
    assert (frame_rest_fz t m h l0 (body ++ [a; b] ++ l')
      = (Ok chs, l')) as Er.
    { unfold frame_rest_fz. rewrite Hw, bind_lift_ok.
      assert (with_bits l0 (p_channels t m (h_assignment h) bps (Z.to_nat (h_size h))) (body ++ [a; b] ++ l') = (Ok chs, [a; b] ++ l')) as Ec.
      { unfold with_bits. rewrite bytes_bits_app, Ebody, <- app_assoc.
        rewrite (channels_complete t m _ _ _ _ _ _ Hc). f_equal.
        rewrite app_length, bytes_bits_length.
        set (tl := [a; b] ++ l') in *.
        replace ((length pad + 8 * length tl) / 8)%nat with (length tl)
          by (rewrite Nat.mul_comm, Nat.div_add, Nat.div_small by lia; lia).
        rewrite El0, app_length.
        rewrite skipn_app. rewrite skipn_all2 by lia. cbn [app].
        match goal with |- skipn ?k _ = _ => replace k with 0%nat by lia end. reflexivity. }
      rewrite (bind_run _ _ _ _ _ Ec).
      unfold bind at 1. unfold fl_crc.
      unfold bind at 1. cbn [app]. rewrite be_u16_cons by assumption.
      reflexivity. }
    unfold bind. rewrite Er. reflexivity.
  Qed.
  Theorem frame_total_fz l : bytes_ok l -> calm m (bytes_bits l) -> value_or_error (fst (fl_frame_fz t m l l)).
  Proof.
    intros Hb Hq. destruct (header_total_fz t m l Hb) as [Hv Hl1].
    unfold fl_frame_fz. destruct (fl_header_fz t m l l) as [o l1] eqn:E. cbn [fst snd] in *.
    destruct Hv as [[a ->]|[e ->]]; [|unfold bind; rewrite E; right; eexists; reflexivity].
    rewrite (bind_run _ _ _ _ _ E). destruct a as [fh|]; [|left; eexists; reflexivity].
    destruct (header_sound_fz t m l fh l1 Hb E) as (h & hw & El & Hw & ->). rewrite header_of_fh.
    assert (value_or_error (fst (frame_rest_fz t m h l l1))) as H.
    2: { unfold bind. destruct (frame_rest_fz t m h l l1) as [o l2]. cbn [fst] in H.
         destruct H as [[? ->]|[? ->]]; [left|right]; eexists; reflexivity. }
    pose proof (header_decent_fz _ _ Hw) as (Hsz & Has & Hn & Hn' & Hbps).
    unfold frame_rest_fz. destruct (h_width h) as [x|]; [|right; eexists; reflexivity].
    rewrite bind_lift_ok.
    assert (calm m (bytes_bits l1)) as Hq1 by (rewrite El, bytes_bits_app in Hq; apply calm_app in Hq; exact Hq).
    pose proof (channels_total t m (h_assignment h) x (Z.to_nat (h_size h)) _ Hq1) as [Hv _].
    unfold bind at 1. unfold with_bits.
    destruct (p_channels _ _ _ _ _ _) as [o bits] eqn:Ec. cbn [fst] in Hv.
    destruct Hv as [[a ->]|[e ->]]; [|right; eexists; reflexivity].
    set (l2 := skipn _ l).
    assert (bytes_ok l2) as Hb2.
    { unfold l2. rewrite <- (firstn_skipn (length l - length bits / 8) l) in Hb. apply bytes_app in Hb. tauto. }
    unfold bind at 1. unfold fl_crc.
    destruct (be_u16_total t l2 Hb2) as [Hv _]. unfold bind.
    destruct (read_be_u16 (fl_rb t) l2) as [o l3]. cbn [fst] in Hv.
    destruct Hv as [[c ->]|[e ->]]; [|right; eexists; reflexivity].
    left; eexists; reflexivity.
  Qed.
  (** The end of the stream. *)
  Lemma header_generic_some_fz {A} (rb : ReadBytes A) crc x l l' :
    header_generic_fz rb crc m (Some x) l <> (Ok None, l').
  Proof.
    intros E. unfold header_generic_fz in E.
    destruct (negb _); [discriminate E|]. destruct (negb _); [discriminate E|].
    do 6 (apply bind_ok in E as (? & ? & _ & E)). destruct (negb _); [discriminate E|].
    unfold h_tail_fz in E.
    repeat match type of E with context [let '(_, _) := ?p in _] => destruct p end.
    repeat (first [discriminate E | apply bind_ok in E as (? & ? & _ & E) | destruct (negb _)]).
  Qed.
  Theorem frame_none_fz l l' : bytes_ok l -> fl_frame_fz t m l l = (Ok None, l') ->
    t = TEof /\ (length l <= 1)%nat /\ l' = [].
  Proof.
    unfold fl_frame_fz. intros Hb E. apply bind_ok in E as ([fh|] & l1 & E1 & E).
    { apply bind_ok in E as (? & ? & _ & E). discriminate E. }
    injection E as <-. apply bind_ok in E1 as ([x|] & l2 & E2 & E1).
    - exfalso. exact (header_generic_some_fz _ _ _ _ _ E1).
    - injection E1 as <-. apply be_u16_or_eof_inv in E2; tauto.
  Qed.
  Lemma frame_at_end_fz l : (length l <= 1)%nat -> t = TEof -> fl_frame_fz t m l l = (Ok None, []).
  Proof. destruct l as [|a [|b l]]; cbn [length]; intros H ->; [reflexivity|reflexivity|lia]. Qed.
End PureFz.
