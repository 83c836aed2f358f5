(** Panics that are caught. *)
From Verif Require Export SpecCatch ProofSound ProofTotal ProofOverflow.
From Verif Require Import SpecReader.

Lemma only_bytes {S} (a : M S Z) b c c' d d' e m fuel buffer :
  read_next_or_eof (mkRB a b c d e) m fuel buffer = read_next_or_eof (mkRB a b c' d' e) m fuel buffer.
Proof. reflexivity. Qed.

Section Catch.
  Context {S} (rb : ReadBytes S) (D : S -> list Z -> Prop) (HS : stream rb TEof D) (HE : ends_for_good rb D).

  Definition nothing_else : ReadBytes S :=
    mkRB (read_u8 rb) (read_u8_or_eof rb) (fun _ => lift (Panic "")) (fun _ => lift (Panic "")) (rb_alloc rb).
  Lemma nothing_else_next m fuel buffer : read_next_or_eof rb m fuel buffer = read_next_or_eof nothing_else m fuel buffer.
  Proof. unfold nothing_else. clear HS HE. destruct rb as [a b c d e]. apply only_bytes. Qed.
  Lemma behind_sound l : reader_sound (behind D l) nothing_else.
  Proof.
    split; cbn [nothing_else read_u8 read_u8_or_eof read_into skip rb_alloc].
    - intros st (w & l' & El & HD). destruct l' as [|b l'].
      + destruct (HE st HD) as [H _]. destruct (st_u8_end _ _ _ HS st HD) as [st' E]. rewrite E in *. split; [nubs|]. exists w, []. auto.
      + destruct (st_u8 _ _ _ HS _ _ _ HD) as (st' & E & HD'). rewrite E. split; [nubs|]. exists (w ++ [b]), l'. cbn [snd].
        rewrite <- app_assoc. auto.
    - intros st (w & l' & El & HD). destruct l' as [|b l'].
      + destruct (HE st HD) as [_ H]. destruct (st_eof_end _ _ _ HS st HD) as (st' & E & _). rewrite E in *. split; [nubs|]. exists w, []. auto.
      + destruct (st_eof _ _ _ HS _ _ _ HD) as (st' & E & HD'). rewrite E. split; [nubs|]. exists (w ++ [b]), l'. cbn [snd].
        rewrite <- app_assoc. auto.
    - intros buf. apply sound_lift. nubs.
    - intros n. apply sound_lift. nubs.
    - intros n sz st (w & l' & El & HD). destruct (st_alloc _ _ _ HS _ _ n sz HD) as (st' & E & HD'). rewrite E. split; [nubs|].
      exists w, l'. auto.
  Qed.

  (** Whatever a call returns, or if it panics. *)
  Theorem next_behind m fuel buffer l st : behind D l st -> behind D l (snd (read_next_or_eof rb m fuel buffer st)).
  Proof. intros HI. rewrite nothing_else_next. apply (sound_next (behind D l) nothing_else (behind_sound l) m fuel buffer st HI). Qed.
  Theorem calls_behind m fuel l : forall buffers st, behind D l st ->
    behind D l (snd (history_all (read_next_or_eof rb m fuel) buffers st)).
  Proof.
    induction buffers as [|buffer buffers IH]; intros st HI; cbn [history_all]; [exact HI|].
    pose proof (next_behind m fuel buffer l st HI) as HI'. destruct (read_next_or_eof rb m fuel buffer st) as [r st'].
    specialize (IH st' HI'). destruct (history_all _ buffers st'). exact IH.
  Qed.

  Lemma behind_at l st : behind D l st -> exists l', (length l' <= length l)%nat /\ D st l'.
  Proof. intros (w & l' & -> & HD). exists l'. rewrite app_length. split; [lia|exact HD]. Qed.
  Lemma next_comes_back m fuel buffer st l : D st l -> (length l < fuel)%nat ->
    value_or_error (fst (read_next_or_eof rb m fuel buffer st)) \/ caught (fst (read_next_or_eof rb m fuel buffer st)).
  Proof.
    intros HD Hf. destruct m.
    - destruct (panics_overflow rb TEof D HS fuel buffer st l HD Hf) as [H|(p & rest & -> & Hp)]; [auto|].
      right. exact (overflow_panics rb TEof D HS fuel buffer st p rest Hp HD Hf).
    - left. apply (frame_safe rb TEof D HS Release fuel buffer st l); auto.
  Qed.

  Definition placed (l : list Z) (it : flac_samples S) : Prop :=
    behind D l (fs_frame_reader it) /\ (fs_has_failed it = true \/ inside it).
  Definition good_step (l : list Z) (r : outcome (option (result Z)) * flac_samples S) : Prop :=
    placed l (snd r) /\ (value_or_error (fst r) \/ caught (fst r) /\ snd r = mkFs (fs_frame_reader (snd r)) block_empty 0 0 false).

  Lemma yield_step l it : behind D l (fs_frame_reader it) -> (exists chs, block_holds (fs_block it) chs) ->
    0 <= fs_sample it < block_duration (fs_block it) -> 0 <= fs_channel it < block_channels (fs_block it) ->
    good_step l (fs_yield it).
  Proof.
    intros HI (chs & Hb) Hs Hc. unfold fs_yield. rewrite bind_get.
    destruct (holds_sample_any _ _ Hb (fs_channel it) (fs_sample it) ltac:(lia) ltac:(lia)) as [[(x & ->) _]|[_ Hn]]; [|nia].
    unfold good_step; cbn. split; [|left; left; eauto]. split; [exact HI|]. right. right. split; [eauto|auto].
  Qed.
  Lemma sample_step m fuel l it : (length l < fuel)%nat -> placed l it -> good_step l (fs_next rb m fuel it).
  Proof.
    intros Hf [HI Hp]. unfold fs_next. rewrite bind_get. destruct (fs_has_failed it) eqn:Ef.
    { unfold good_step; cbn. split; [|left; left; eauto]. split; [exact HI|auto]. }
    destruct Hp as [Hp|Hp]; [discriminate|].
    assert (0 <= fs_channel it < 8 /\ 0 <= fs_sample it < 65535) as [Hc Hs].
    { destruct Hp as [(_ & -> & ->)|((chs & Hb) & H1 & H2)]; [lia|]. destruct Hb as (? & ? & _). lia. }
    rewrite (chk_u32 m (fs_channel it + 1)), bind_lift_ok by lia. unfold bind at 1, fs_set_channel at 1.
    destruct (block_channels (fs_block it) <=? fs_channel it + 1) eqn:Ec.
    2:{ destruct Hp as [(Eb & _ & Ec')|((chs & Hb) & H1 & H2)]; [rewrite Eb, Ec' in Ec; discriminate Ec|].
        cbn [fs_frame_reader fs_block fs_sample fs_channel fs_has_failed]. apply yield_step; cbn [fs_frame_reader fs_block fs_sample fs_channel fs_has_failed]; eauto. lia. }
    unfold bind at 1, fs_set_channel at 1. rewrite (chk_u32 m (fs_sample it + 1)), bind_lift_ok by lia.
    unfold bind at 1, fs_set_sample at 1.
    destruct (block_duration (fs_block it) <=? fs_sample it + 1) eqn:Es.
    2:{ destruct Hp as [(Eb & Es' & _)|((chs & Hb) & H1 & H2)]; [rewrite Eb, Es' in Es; discriminate Es|].
        cbn [fs_frame_reader fs_block fs_sample fs_channel fs_has_failed]. apply yield_step; cbn [fs_frame_reader fs_block fs_sample fs_channel fs_has_failed]; eauto; [lia|]. destruct Hb as (? & _). lia. }
    unfold bind at 1, fs_set_sample at 1. unfold bind at 1, fs_set_block at 1. unfold bind at 1, catch, fs_lift.
    cbn [fs_frame_reader fs_block fs_sample fs_channel fs_has_failed].
    destruct (behind_at l _ HI) as (l' & Hl' & HD). set (buffer := block_into_buffer (fs_block it)).
    pose proof (next_behind m fuel buffer l _ HI) as HI'.
    pose proof (next_comes_back m fuel buffer _ l' HD ltac:(lia)) as Hv.
    assert (forall b, fst (read_next_or_eof rb m fuel buffer (fs_frame_reader it)) = Ok (Some b) -> exists chs, block_holds b chs) as Hb.
    { intros b Eb. destruct (read_next_or_eof rb m fuel buffer (fs_frame_reader it)) as [o st'] eqn:E. cbn [fst] in Eb. subst o.
      exact (next_holds rb TEof D HS m fuel buffer _ l' b st' HD ltac:(lia) E). }
    destruct (read_next_or_eof rb m fuel buffer (fs_frame_reader it)) as [o st']. cbn [fst snd] in *.
    destruct Hv as [[[[b|] ->]|[e ->]]|[w ->]].
    - destruct (Hb b eq_refl) as (chs & Hh). pose proof Hh as (? & ? & _). apply yield_step; cbn; eauto; lia.
    - unfold good_step; cbn. split; [|left; left; eauto]. split; [exact HI'|]. right. left. auto.
    - unfold good_step; cbn. split; [|left; left; eauto]. split; [exact HI'|]. left. reflexivity.
    - unfold good_step; cbn. split; [|right; split; [eexists; reflexivity|rewrite Ef; reflexivity]]. split; [exact HI'|]. right. left. auto.
  Qed.
  Lemma samples_placed m fuel l : (length l < fuel)%nat -> forall n it, placed l it ->
    placed l (snd (nexts (fs_next rb m fuel) n it)) /\ Forall (fun o => value_or_error o \/ caught o) (fst (nexts (fs_next rb m fuel) n it)).
  Proof.
    intros Hf. unfold nexts. induction n as [|n IH]; intros it Hit; cbn [repeat history_all]; [split; [exact Hit|constructor]|].
    destruct (sample_step m fuel l it Hf Hit) as [Hp Hv]. destruct (fs_next rb m fuel it) as [o it']. cbn [fst snd] in *.
    specialize (IH it' Hp). destruct (history_all _ (repeat tt n) it') as [rs it'']. cbn [fst snd] in *.
    destruct IH as [IH1 IH2]. split; [exact IH1|]. constructor; [tauto|exact IH2].
  Qed.

  Theorem samples_caught m fuel (r : flac_reader S) s it l n : fr_blocks r = Ok s -> fr_samples r = Ok it \/ fr_into_samples r = Ok it ->
    D s l -> (length l < fuel)%nat ->
    let h := nexts (fs_next rb m fuel) n it in
    Forall (fun o => value_or_error o \/ caught o) (fst h)
    /\ behind D l (fs_frame_reader (snd h))
    /\ (caught (fst (fs_next rb m fuel (snd h))) -> begins (snd (fs_next rb m fuel (snd h)))).
  Proof.
    intros Hr Hi HD Hf h.
    assert (it = mkFs s block_empty 0 0 false) as Eit.
    { unfold fr_blocks, fr_samples, fr_into_samples in *. destruct (fr_input r); [|discriminate Hr]. destruct Hi; congruence. }
    assert (placed l it) as Hp.
    { rewrite Eit. split; [exists [], l; auto|]. right. left. auto. }
    destruct (samples_placed m fuel l Hf n it Hp) as [Hp' Hv]. fold h in Hp', Hv. split; [exact Hv|]. split; [apply Hp'|].
    intros [w Ew]. destruct (sample_step m fuel l (snd h) Hf Hp') as [_ [[[? E]|[? E]]|[_ E]]]; [congruence|congruence|].
    intros r' Hr'. unfold fr_blocks, fr_samples in *. destruct (fr_input r') as [inp|]; [|discriminate Hr']. injection Hr' as ->. f_equal. symmetry. exact E.
  Qed.
  (** ** Every call takes at least one byte *)
  Definition into {T A} (P I : T -> Prop) (c : M T A) : Prop := forall st, P st -> I (snd (c st)).
  Lemma into_bind {T A B} (P I : T -> Prop) (c : M T A) (f : A -> M T B) : into P I c -> (forall a, op_sound I (f a)) -> into P I (bind c f).
  Proof.
    intros Hc Hf st HP. specialize (Hc st HP). unfold bind. destruct (c st) as [o st']. cbn [snd] in Hc.
    destruct o as [a|e|w|w|]; [apply (Hf a st' Hc)|exact Hc..].
  Qed.
  Lemma first_byte b l : into (fun st => D st (b :: l)) (behind D l) (read_u8_or_eof nothing_else).
  Proof. intros st HD. destruct (st_eof _ _ _ HS _ _ _ HD) as (st' & E & HD'). cbn. rewrite E. exists [], l. auto. Qed.
  Lemma first_crc16 (P I : S -> Prop) r : reader_sound I r -> into P I (read_u8_or_eof r) ->
    into (fun st => P (c16_inner st)) (fun st => I (c16_inner st)) (read_u8_or_eof (crc16_rb r)).
  Proof.
    intros Hr Hp. pose proof (sound_crc16 I r Hr) as H16. cbn [crc16_rb read_u8_or_eof]. apply into_bind.
    - intros st HP. specialize (Hp _ HP). unfold c16_lift. destruct (read_u8_or_eof r (c16_inner st)). exact Hp.
    - intros [x|]; [|apply sound_lift; nubs]. apply sound_bind; [|intros; apply sound_lift; nubs].
      apply sound_keep. intros st. unfold c16_update_state. rewrite bind_get. unfold bind, lift.
      assert (not_ub (crc16_update (c16_state st) x)) as N by (unfold crc16_update; nubs).
      destruct (crc16_update (c16_state st) x) as [a|e|w|w|] eqn:Ec; cbn; split; try reflexivity; nubs. destruct (N w eq_refl).
  Qed.
End Catch.
Lemma first_crc8 {T} (P I : T -> Prop) r : reader_sound I r -> into P I (read_u8_or_eof r) ->
  into (fun st => P (c8_inner st)) (fun st => I (c8_inner st)) (read_u8_or_eof (crc8_rb r)).
Proof.
  intros Hr Hp. pose proof (sound_crc8 I r Hr) as H8. cbn [crc8_rb read_u8_or_eof]. apply into_bind.
  - intros st HP. specialize (Hp _ HP). unfold c8_lift. destruct (read_u8_or_eof r (c8_inner st)). exact Hp.
  - intros [x|]; [|apply sound_lift; nubs]. apply sound_bind; [|intros; apply sound_lift; nubs].
    apply sound_keep. intros st. unfold c8_update_state. rewrite bind_get. unfold bind, lift.
    assert (not_ub (crc8_update (c8_state st) x)) as N by (unfold crc8_update; nubs).
    destruct (crc8_update (c8_state st) x) as [a|e|w|w|] eqn:Ec; cbn; split; try reflexivity; nubs. destruct (N w eq_refl).
Qed.
Lemma first_header {T} (P I : T -> Prop) (r : ReadBytes T) m : reader_sound I r -> into P I (read_u8_or_eof r) ->
  into P I (read_frame_header_or_eof r m).
Proof.
  intros H Hp. pose proof (sound_crc8 I r H) as H8. pose proof (first_crc8 P I r H Hp) as Hp8.
  assert (into (fun st => P (c8_inner st)) (fun st => I (c8_inner st)) (read_frame_header_body r m)) as Hb.
  { unfold read_frame_header_body, crc8_crc. cbv zeta. apply into_bind.
    - unfold read_be_u16_or_eof. apply into_bind; [exact Hp8|]. intros a. snds.
    - intros a. repeat first [ (eapply sound_be16_eof; eassumption) | (eapply sound_be16; eassumption) | (eapply sound_vli; eassumption) | snd1 ]. }
  intros st HP. specialize (Hb (crc8_new st) HP). unfold read_frame_header_or_eof, with_crc8.
  destruct (read_frame_header_body r m (crc8_new st)) as [o st']. exact Hb.
Qed.
Theorem next_takes {S} (rb : ReadBytes S) (D : S -> list Z -> Prop) (HS : stream rb TEof D) (HE : ends_for_good rb D) m fuel buffer b l st :
  D st (b :: l) -> behind D l (snd (read_next_or_eof rb m fuel buffer st)).
Proof.
  intros HD. rewrite (nothing_else_next rb m fuel buffer).
  set (r := nothing_else rb). pose proof (behind_sound rb D HS HE l : reader_sound (behind D l) r) as H.
  pose proof (sound_crc16 (behind D l) r H) as H16.
  pose proof (first_crc16 (fun st => D st (b :: l)) (behind D l) r H (first_byte rb D HS b l)) as Hp.
  assert (into (fun st => D (c16_inner st) (b :: l)) (fun st => behind D l (c16_inner st)) (read_next_body r m fuel buffer)) as Hb.
  { unfold read_next_body, crc16_crc, block_new. cbv zeta. apply into_bind; [apply first_header; assumption|]. intros a.
    repeat first [ (eapply sound_be16; eassumption) | (eapply sound_header; eassumption)
        | (apply sound_with_bits; eapply (sound_channels (fun st => behind D l (c16_inner st))); exact H16) | snd1 ]. }
  specialize (Hb (crc16_new st) HD). unfold read_next_or_eof, with_crc16.
  destruct (read_next_body r m fuel buffer (crc16_new st)) as [o st']. exact Hb.
Qed.

Theorem cursor_ends m : ends_for_good (cu_rb m) cursor_at.
Proof.
  intros [d p] (pre & Hd & Hp & Hb & Hl). cbn [cu_data cu_pos] in *. rewrite app_nil_r in Hd. subst d p.
  cbn [cu_rb read_u8 read_u8_or_eof]. unfold cu_read_u8, cu_read_u8_or_eof. rewrite !bind_get. cbn [cu_data cu_pos].
  rewrite Z.ltb_irrefl. cbn. split; exists pre; cbn; rewrite app_nil_r; auto.
Qed.
Theorem buffered_ends m : ends_for_good (br_rb m) (buffered TEof).
Proof.
  intros st HB. cbn [br_rb read_u8 read_u8_or_eof]. split.
  - assert (br_pos st =? br_num_valid st = true) as E.
    { destruct HB as (pre & mid & post & l' & Hbuf & Hlen & Hpos & Hnv & Hb & Hd & Hl).
      symmetry in Hl; apply app_eq_nil in Hl as [-> ->]. cbn in Hnv. lia. }
    pose proof (buffered_refill TEof st _ HB E) as Hr. cbv iota in Hr.
    unfold br_read_u8. rewrite bind_get, E. unfold bind at 1; unfold bind at 1.
    destruct Hr as (st' & -> & Hn & Hi & Hp & Hbf). rewrite bind_get. rewrite Hn. cbn.
    destruct HB as (pre & mid & post & l' & Hbuf & Hlen & _).
    exists [], [], (br_buf st'), []. rewrite Hi, Hp, Hn, Hbf. repeat split; auto; constructor; auto.
  - destruct (br_eof_end m TEof st HB) as (st' & -> & H). exact H.
Qed.
(** Hence whoever goes on after errors and panics comes to the end. *)
Theorem calls_end {S} (rb : ReadBytes S) (D : S -> list Z -> Prop) (HS : stream rb TEof D) (HE : ends_for_good rb D) m fuel :
  forall buffers l st, D st l -> (length l <= length buffers)%nat -> D (snd (history_all (read_next_or_eof rb m fuel) buffers st)) [].
Proof.
  induction buffers as [|buffer buffers IH]; intros l st HD Hl; cbn [history_all length] in *.
  { destruct l; [exact HD|cbn in Hl; lia]. }
  assert (exists l', D (snd (read_next_or_eof rb m fuel buffer st)) l' /\ (length l' <= length buffers)%nat) as (l' & HD' & Hl').
  { destruct l as [|b l].
    - destruct (next_behind rb D HS HE m fuel buffer [] st) as (w & l' & El & HD'); [exists [], []; auto|].
      symmetry in El. apply app_eq_nil in El. destruct El as [_ ->]. exists []. split; [exact HD'|cbn; lia].
    - destruct (next_takes rb D HS HE m fuel buffer b l st HD) as (w & l' & -> & HD'). exists l'. split; [exact HD'|].
      cbn [length] in Hl. rewrite app_length in Hl. lia. }
  destruct (read_next_or_eof rb m fuel buffer st) as [r st']. cbn [snd] in HD'.
  specialize (IH l' st' HD' Hl'). destruct (history_all _ buffers st'). exact IH.
Qed.
Lemma catch_exists n : Z.of_nat n = 2 ^ 29 -> exists l st fuel, cursor_at st l /\ (length l < fuel)%nat
  /\ caught (fst (read_next_or_eof (cu_rb Debug) Debug fuel (mkVec [] 0) st))
  /\ caught (fst (fs_next (cu_rb Debug) Debug fuel (mkFs st block_empty 0 0 false))).
Proof.
  intros Hn.
  pose proof (cursor_start (huge n []) (huge_bytes n [] (Forall_nil _))
                ltac:(rewrite (huge_len n Hn); unfold len; cbn [length]; lia)) as HD.
  exists (huge n []), (mkCursor (huge n []) 0), (Datatypes.S (length (huge n []))).
  split; [exact HD|]. split; [apply Nat.lt_succ_diag_r|].
  destruct (huge_cursor_panics n Hn (Datatypes.S (length (huge n []))) (mkVec [] 0) (Nat.lt_succ_diag_r _)) as (w & E).
  split; [exists w; exact E|].
  exists w. unfold fs_next. rewrite bind_get. cbn [fs_has_failed fs_channel]. rewrite (chk_u32 Debug (0 + 1)), bind_lift_ok by lia.
  unfold bind at 1, fs_set_channel at 1. cbn [fs_block fs_channel fs_sample fs_frame_reader fs_has_failed].
  replace (block_channels block_empty <=? 0 + 1) with true by reflexivity.
  unfold bind at 1, fs_set_channel at 1. cbn [fs_block fs_channel fs_sample fs_frame_reader fs_has_failed]. rewrite (chk_u32 Debug (0 + 1)), bind_lift_ok by lia.
  unfold bind at 1, fs_set_sample at 1. cbn [fs_block fs_channel fs_sample fs_frame_reader fs_has_failed].
  replace (block_duration block_empty <=? 0 + 1) with true by reflexivity.
  unfold bind at 1, fs_set_sample at 1. unfold bind at 1, fs_set_block at 1. unfold bind at 1, catch, fs_lift.
  cbn [fs_frame_reader fs_block fs_sample fs_channel fs_has_failed].
  change (block_into_buffer block_empty) with (mkVec [] 0).
  destruct (read_next_or_eof (cu_rb Debug) Debug _ (mkVec [] 0) (mkCursor (huge n []) 0)) as [o st']. cbn [fst] in E. subst o. reflexivity.
Qed.
