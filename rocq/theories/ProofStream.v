(** Frame headers and frames on any stream of bytes. *)
From Verif Require Export ProofFrame4.
From Verif Require Import SpecReader.

Lemma sim_trans_bytes {S1 A} (R : S1 -> list Z -> Prop) (c1 : M S1 A) c2 c3 :
  sim no_esc R eq c1 c2 -> sim no_esc (fun a b => a = b /\ bytes_ok a) eq c2 c3 ->
  (forall s l, R s l -> bytes_ok l) -> sim no_esc R eq c1 c3.
Proof.
  intros H12 H23 Hb s1 l HR. specialize (H12 s1 l HR). specialize (H23 l l (conj eq_refl (Hb _ _ HR))).
  destruct (fst (c1 s1)) as [a|e|w|w|].
  - destruct H12 as (b & E & <- & HR'). rewrite E in H23. destruct H23 as (b & E' & <- & E2 & _).
    exists a. rewrite <- E2. auto.
  - destruct H12 as [[]|[H12 HR']]. rewrite H12 in H23. destruct H23 as [[]|[E HR'']]. right. split; [exact E|].
    intros Ho. destruct (HR'' Ho) as [<- _]. auto.
  - rewrite H12 in H23. exact H23.
  - rewrite H12 in H23. exact H23.
  - rewrite H12 in H23. exact H23.
Qed.

Lemma app_inj_length {A} (a b c d : list A) : a ++ b = c ++ d -> length a = length c -> a = c /\ b = d.
Proof.
  revert c. induction a as [|x a IH]; intros [|y c] E Hl; try discriminate Hl; [auto|].
  cbn [app] in E. injection E as -> E. injection Hl as Hl. destruct (IH c E Hl) as [-> ->]. auto.
Qed.

(** ** CRC readers *)
Section Crc.
  Context {S0 : Type} (rb : ReadBytes S0) (t : tail) (R : S0 -> list Z -> Prop).
  Context (Hb : forall s l, R s l -> bytes_ok l).

  Lemma crc_op_sim o : rb_sim no_esc R rb (fl_rb t) -> eof_sim no_esc R rb (fl_rb t) ->
    crc_op o -> sim no_esc R eq (run_byte_op rb o) (spec_byte_op t o).
  Proof.
    intros H He Ho. apply sim_trans_bytes with (c2 := run_byte_op (fl_rb t) o); [| |exact Hb].
    - destruct o; cbn [crc_op] in Ho; try contradiction; cbn [run_byte_op].
      + eapply sim_bind_eq; [apply (read_u8_sim_eq _ _ _ _ H)|intros a; apply sim_ret; reflexivity].
      + eapply sim_bind_eq; [eapply sim_eq_of; exact He|intros a; apply sim_ret; reflexivity].
      + eapply sim_bind_eq; [eapply sim_eq_of; apply (read_be_u16_sim _ _ _ _ H)|intros a; apply sim_ret; reflexivity].
      + eapply sim_bind_eq; [apply read_be_u16_or_eof_sim, He|intros a; apply sim_ret; reflexivity].
      + eapply sim_bind_eq; [eapply sim_eq_of; apply (read_be_u24_sim _ _ _ _ H)|intros a; apply sim_ret; reflexivity].
      + eapply sim_bind_eq; [eapply sim_eq_of; apply (read_be_u32_sim _ _ _ _ H)|intros a; apply sim_ret; reflexivity].
      + eapply sim_bind_eq; [eapply sim_eq_of; apply (read_le_u32_sim _ _ _ _ H)|intros a; apply sim_ret; reflexivity].
    - intros l l' [<- Hl].
      pose proof (byte_op_sim (fl_rb t) t _ (fl_stream t) o) as X.
      specialize (X ltac:(destruct o; cbn in *; tauto) l l (conj eq_refl Hl)).
      destruct (fst (run_byte_op (fl_rb t) o l)) as [a|e|w|w|]; auto.
      2: { destruct X as [X|[X Hk]]; [left; exact X|right; split; [exact X|]]. intros Ho'. destruct (Hk Ho') as [E2 Hb2]. split; [exact E2|]. rewrite E2. exact Hb2. }
      destruct X as (b & E & Eab & E2 & Hb2). exists b. split; [exact E|]. split; [exact Eab|].
      split; [exact E2|]. rewrite E2. exact Hb2.
  Qed.
End Crc.

Section Stream.
  Context {S : Type} (rb : ReadBytes S) (t : tail) (D : S -> list Z -> Prop) (HS : stream rb t D).
  Notation Hrs := (stream_rb_sim rb t D HS no_esc).
  Notation Hes := (stream_eof_sim rb t D HS no_esc).
  Notation Hbytes := (st_bytes rb t D HS).

  Theorem crc8_history ops st l : D st l -> Forall crc_op ops ->
    let r := history (run_byte_op (crc8_rb rb)) ops (crc8_new st) in
    fst r = fst (history (spec_byte_op t) ops l)
    /\ (Forall succeeded (fst r) ->
        exists consumed rest, l = consumed ++ rest /\ D (c8_inner (snd r)) rest
          /\ exists c, fst (crc8_crc (snd r)) = Ok c /\ is_crc 8 poly8 consumed c).
  Proof.
    intros HD Ho r. pose proof (Hbytes _ _ HD) as Hb.
    destruct (history_sim (D8 D l) (run_byte_op (crc8_rb rb)) (spec_byte_op t) crc_op
                (fun o Ho => crc_op_sim (crc8_rb rb) t (D8 D l)
                   (fun s x (H : D8 D l s x) => ltac:(destruct H as (pre & E & _); rewrite E in Hb; apply bytes_app in Hb; tauto))
                   o (crc8_left_rb rb t D Hrs l) (crc8_left_eof rb t D Hrs Hes l) Ho)
                ops (crc8_new st) l Ho (D8_new D st l HD)) as [E HR].
    fold r in E, HR. split; [exact E|]. intros HF. rewrite E in HF. destruct (HR HF) as (pre & El & HD' & Hc).
    eexists pre, _. split; [exact El|]. split; [exact HD'|]. exists (c8_state (snd r)). split; [reflexivity|exact Hc].
  Qed.
  Theorem crc16_history ops st l : D st l -> Forall crc_op ops ->
    let r := history (run_byte_op (crc16_rb rb)) ops (crc16_new st) in
    fst r = fst (history (spec_byte_op t) ops l)
    /\ (Forall succeeded (fst r) ->
        exists consumed rest, l = consumed ++ rest /\ D (c16_inner (snd r)) rest
          /\ exists c, fst (crc16_crc (snd r)) = Ok c /\ is_crc 16 poly16 consumed c).
  Proof.
    intros HD Ho r. pose proof (Hbytes _ _ HD) as Hb.
    destruct (history_sim (D16 D l) (run_byte_op (crc16_rb rb)) (spec_byte_op t) crc_op
                (fun o Ho => crc_op_sim (crc16_rb rb) t (D16 D l)
                   (fun s x (H : D16 D l s x) => ltac:(destruct H as (pre & E & _); rewrite E in Hb; apply bytes_app in Hb; tauto))
                   o (crc16_left_rb rb t D Hrs l) (crc16_left_eof rb t D Hrs Hes l) Ho)
                ops (crc16_new st) l Ho (D16_new D st l HD)) as [E HR].
    fold r in E, HR. split; [exact E|]. intros HF. rewrite E in HF. destruct (HR HF) as (pre & El & HD' & Hc).
    eexists pre, _. split; [exact El|]. split; [exact HD'|]. exists (c16_state (snd r)). split; [reflexivity|exact Hc].
  Qed.

  (** ** Numbers *)
  Lemma sim_ok {A} (c1 : M S A) c2 st l a l' : sim no_esc D eq c1 c2 -> D st l -> c2 l = (Ok a, l') ->
    exists st', c1 st = (Ok a, st') /\ D st' l'.
  Proof.
    intros H HD E. destruct (sim_fst D c1 c2 st l H HD) as [E1 H1]. rewrite E in *. cbn [fst snd] in *.
    exists (snd (c1 st)). split; [apply surj, E1|apply H1; eexists; reflexivity].
  Qed.
  Theorem number_decoded m st w v rest : number_code w v -> D st (w ++ rest) ->
    exists st', read_var_length_int rb m st = (Ok v, st') /\ D st' rest.
  Proof.
    intros Hw HD. eapply sim_ok; [apply (read_var_length_int_sim _ _ _ _ m Hrs)|exact HD|].
    apply vli_complete; [exact (Hbytes _ _ HD)|left; exact Hw].
  Qed.
  Theorem number_malformed m st w rest : malformed_number w -> D st (w ++ rest) ->
    exists e, fst (read_var_length_int rb m st) = Err (FormatError e).
  Proof.
    intros Hw HD. destruct (sim_fst D _ _ st _ (read_var_length_int_sim _ _ _ _ m Hrs) HD) as [-> _].
    apply vli_malformed, Hw.
  Qed.
  Theorem number_only m st l v st' : D st l -> read_var_length_int rb m st = (Ok v, st') ->
    exists w rest, l = w ++ rest /\ D st' rest /\ accepted_number w v.
  Proof.
    intros HD E. destruct (sim_fst D _ _ st _ (read_var_length_int_sim _ _ _ _ m Hrs) HD) as [E1 H1].
    rewrite E in *. cbn [fst snd] in *. symmetry in E1.
    destruct (vli_sound t m l v _ (Hbytes _ _ HD) (surj _ _ E1)) as (w & El & Hw).
    eexists w, _. split; [exact El|]. split; [apply H1; rewrite E1; eexists; reflexivity|exact Hw].
  Qed.

  (** ** Headers *)
  Lemma fh_shows h : header_shows (fh_of h) h.
  Proof. destruct h as [[] n s r [| | |] w]; repeat split. Qed.

  Theorem header_decoded m st h w rest : header_code h w -> D st (w ++ rest) ->
    exists fh st', read_frame_header_or_eof rb m st = (Ok (Some fh), st')
      /\ header_shows fh h /\ D st' rest.
  Proof.
    intros Hw HD. pose proof (Hbytes _ _ HD) as Hb. apply bytes_app in Hb as [_ Hb].
    destruct (header_left rb t D Hrs Hes Hbytes m st _ HD) as [E H].
    rewrite (header_complete t m h w rest Hw Hb) in *. cbn [fst snd] in *.
    exists (fh_of h), (snd (read_frame_header_or_eof rb m st)). split; [apply surj, E|].
    split; [apply fh_shows|apply H; eexists; reflexivity].
  Qed.
  Theorem header_only m st l fh st' : D st l ->
    read_frame_header_or_eof rb m st = (Ok (Some fh), st') ->
    exists h w rest, l = w ++ rest /\ D st' rest /\ header_code h w /\ header_shows fh h.
  Proof.
    intros HD E. destruct (header_left rb t D Hrs Hes Hbytes m st _ HD) as [E1 H].
    rewrite E in *. cbn [fst snd] in *. symmetry in E1.
    destruct (header_sound t m l fh _ (Hbytes _ _ HD) (surj _ _ E1)) as (h & w & El & Hw & ->).
    eexists h, w, _. split; [exact El|]. split; [apply H; rewrite E1; eexists; reflexivity|].
    split; [exact Hw|apply fh_shows].
  Qed.
  Theorem header_rejected m st w rest : reserved_header w -> D st (w ++ rest) ->
    exists e, fst (read_frame_header_or_eof rb m st) = Err (FormatError e).
  Proof.
    intros Hw HD. pose proof (Hbytes _ _ HD) as Hb. apply bytes_app in Hb as [_ Hb].
    destruct (header_left rb t D Hrs Hes Hbytes m st _ HD) as [-> _].
    apply header_reserved; assumption.
  Qed.
  Theorem header_none m st l st' : D st l -> read_frame_header_or_eof rb m st = (Ok None, st') ->
    t = TEof /\ (length l <= 1)%nat.
  Proof.
    intros HD E. destruct (header_left rb t D Hrs Hes Hbytes m st _ HD) as [E1 _].
    rewrite E in E1. cbn [fst] in E1. symmetry in E1.
    destruct (frame_none t m l (snd (fl_header t m l l)) (Hbytes _ _ HD)) as (Ht & Hl & _); [|auto].
    unfold fl_frame, bind. rewrite (surj _ _ E1). reflexivity.
  Qed.

  (** ** Frames *)
  Context (m : build) (fuel : nat).
  Notation next := (read_next_or_eof rb m fuel).

  Theorem frame_decoded buffer st h chs w rest : frame_code h chs w -> D st (w ++ rest) ->
    (length (w ++ rest) < fuel)%nat ->
    exists b st', next buffer st = (Ok (Some b), st') /\ block_shows b h chs /\ D st' rest.
  Proof.
    intros Hw HD Hf. pose proof (Hbytes _ _ HD) as Hb. apply bytes_app in Hb as [_ Hb].
    pose proof (frame_left rb t D Hrs Hes Hbytes m fuel st _ buffer HD Hf) as H. cbv zeta in H.
    rewrite (frame_complete t m h chs w rest Hb Hw) in H. cbn [fst snd] in H.
    destruct (next buffer st) as [o st']. cbn [fst snd] in H. destruct o; try discriminate H.
    destruct H as (x & E & Hs & HD'). injection E as <-. destruct Hs as (b & -> & Hs & _).
    exists b, st'. auto.
  Qed.

  Theorem frame_only buffer st l b st' : m = Debug \/ no_zero_run (2 ^ 32 - 1) (bytes_bits l) ->
    D st l -> (length l < fuel)%nat -> next buffer st = (Ok (Some b), st') ->
    exists h chs w rest, l = w ++ rest /\ D st' rest /\ frame_code h chs w /\ block_shows b h chs.
  Proof.
    intros Hq HD Hf E.
    pose proof (frame_left rb t D Hrs Hes Hbytes m fuel st _ buffer HD Hf) as H. cbv zeta in H.
    rewrite E in H. cbn [fst snd] in H. destruct H as (x & E1 & Hs & HD').
    destruct x as [[h chs]|]; [|discriminate Hs]. destruct Hs as (b' & E2 & Hs & _). injection E2 as <-.
    destruct (frame_sound t m l h chs _ (Hbytes _ _ HD) Hq (surj _ _ E1)) as (w & El & Hw).
    eexists h, chs, w, _. split; [exact El|]. split; [exact HD'|]. auto.
  Qed.

  Theorem frame_checksums buffer st l b st' : D st l -> (length l < fuel)%nat ->
    next buffer st = (Ok (Some b), st') ->
    exists front crc8 body crc16 rest,
      l = front ++ [crc8] ++ body ++ [crc16 / 256; crc16 mod 256] ++ rest
      /\ D st' rest
      /\ (exists h, header_front h front)
      /\ is_crc 8 poly8 front crc8 /\ is_crc 16 poly16 (front ++ [crc8] ++ body) crc16.
  Proof.
    intros HD Hf E.
    pose proof (frame_left rb t D Hrs Hes Hbytes m fuel st _ buffer HD Hf) as H. cbv zeta in H.
    rewrite E in H. cbn [fst snd] in H. destruct H as (x & E1 & Hs & HD').
    destruct x as [[h chs]|]; [|discriminate Hs].
    destruct (frame_checked t m l h chs _ (Hbytes _ _ HD) (surj _ _ E1)) as (hw & body & crc & (front & c8 & Hfr & Hc8 & ->) & _ & Hc & El).
    eexists front, c8, body, crc, _. rewrite <- !app_assoc in *. split; [exact El|].
    split; [exact HD'|]. split; [exists h; exact Hfr|]. auto.
  Qed.

  Theorem frame_safe buffer st l : m = Release \/ no_zero_run (2 ^ 32 - 1) (bytes_bits l) ->
    D st l -> (length l < fuel)%nat -> value_or_error (fst (next buffer st)).
  Proof.
    intros Hq HD Hf.
    pose proof (frame_left rb t D Hrs Hes Hbytes m fuel st _ buffer HD Hf) as H. cbv zeta in H.
    pose proof (frame_total t m l (Hbytes _ _ HD) Hq) as [[x Ht]|[x Ht]];
      destruct (fst (next buffer st)); [left|right| | | |left|right| | |]; eauto; rewrite H in Ht; discriminate.
  Qed.

  Theorem frame_end buffer st l st' : D st l -> (length l < fuel)%nat ->
    next buffer st = (Ok None, st') -> t = TEof /\ (length l <= 1)%nat /\ D st' [].
  Proof.
    intros HD Hf E.
    pose proof (frame_left rb t D Hrs Hes Hbytes m fuel st _ buffer HD Hf) as H. cbv zeta in H.
    rewrite E in H. cbn [fst snd] in H. destruct H as (x & E1 & Hs & HD').
    destruct x as [[h chs]|]; [destruct Hs as (? & ? & _); discriminate|].
    destruct (frame_none t m l _ (Hbytes _ _ HD) (surj _ _ E1)) as (Ht & Hl & El).
    rewrite El in HD'. auto.
  Qed.
  Theorem frame_ends buffer st l : t = TEof -> (length l <= 1)%nat -> (1 < fuel)%nat -> D st l ->
    exists st', next buffer st = (Ok None, st') /\ D st' [].
  Proof.
    intros Ht Hl Hf HD.
    pose proof (frame_left rb t D Hrs Hes Hbytes m fuel st _ buffer HD ltac:(lia)) as H. cbv zeta in H.
    rewrite (frame_at_end t m l Hl Ht) in H. cbn [fst snd] in H.
    destruct (next buffer st) as [o st']. cbn [fst snd] in H. destruct o; try discriminate H.
    destruct H as (x & E & Hs & HD'). injection E as <-. cbn in Hs. subst. eauto.
  Qed.

  Theorem frame_reserved buffer st w rest : reserved_header w -> D st (w ++ rest) ->
    (length (w ++ rest) < fuel)%nat -> exists e, fst (next buffer st) = Err (FormatError e).
  Proof.
    intros Hw HD Hf. pose proof (Hbytes _ _ HD) as Hb. apply bytes_app in Hb as [_ Hb].
    pose proof (frame_left rb t D Hrs Hes Hbytes m fuel st _ buffer HD Hf) as H. cbv zeta in H.
    destruct (header_reserved t m w rest (w ++ rest) Hw Hb) as [e Ee].
    unfold fl_frame, bind in H. rewrite (surj _ _ Ee) in H. cbn [fst snd] in H.
    destruct (fst (next buffer st)); try discriminate H.
    - destruct H as (? & ? & _). discriminate.
    - exists e. congruence.
  Qed.

  Theorem frame_unsup_only buffer st l u : m = Debug \/ no_zero_run (2 ^ 32 - 1) (bytes_bits l) ->
    D st l -> (length l < fuel)%nat ->
    fst (next buffer st) = Err (Unsupported u) -> unsupported_frame l.
  Proof.
    intros Hq HD Hf E.
    pose proof (frame_left rb t D Hrs Hes Hbytes m fuel st _ buffer HD Hf) as H. cbv zeta in H.
    rewrite E in H. eapply frame_unsupported_only; eauto using (st_bytes rb t D HS).
  Qed.
  Theorem frame_unsup buffer st l : unsupported_frame l -> D st l -> (length l < fuel)%nat ->
    exists u, fst (next buffer st) = Err (Unsupported u).
  Proof.
    intros Hu HD Hf.
    pose proof (frame_left rb t D Hrs Hes Hbytes m fuel st _ buffer HD Hf) as H. cbv zeta in H.
    destruct (frame_unsupported t m l (Hbytes _ _ HD) Hu) as [u Eu]. rewrite Eu in H.
    destruct (fst (next buffer st)); try discriminate H.
    - destruct H as (? & ? & _). discriminate.
    - exists u. congruence.
  Qed.

  (** The buffer has no influence but on the capacity of the result. *)
  Theorem frame_buffers buffer1 buffer2 st l : D st l -> (length l < fuel)%nat ->
    match fst (next buffer1 st), fst (next buffer2 st) with
    | Ok (Some b1), Ok (Some b2) =>
        block_time_of b1 = block_time_of b2 /\ block_duration b1 = block_duration b2
        /\ block_channels b1 = block_channels b2
        /\ v_items (block_into_buffer b1) = v_items (block_into_buffer b2)
    | r1, r2 => r1 = r2
    end.
  Proof.
    intros HD Hf.
    pose proof (frame_left rb t D Hrs Hes Hbytes m fuel st _ buffer1 HD Hf) as H1. cbv zeta in H1.
    pose proof (frame_left rb t D Hrs Hes Hbytes m fuel st _ buffer2 HD Hf) as H2. cbv zeta in H2.
    destruct (fst (next buffer1 st)) as [o1| | | |], (fst (next buffer2 st)) as [o2| | | |];
      try (destruct H1 as (x1 & E1 & Hs1 & _)); try (destruct H2 as (x2 & E2 & Hs2 & _)); try congruence;
      try (destruct o1; congruence).
    assert (x1 = x2) as <- by congruence. destruct x1 as [[h chs]|].
    - destruct Hs1 as (b1 & -> & (A1 & A2 & A3 & A4 & A5 & A6) & _), Hs2 as (b2 & -> & (B1 & B2 & B3 & B4 & B5 & B6) & _).
      repeat split; congruence.
    - cbn in Hs1, Hs2. subst. reflexivity.
  Qed.
  (** Every block, without a restriction on the input. *)
  Theorem frame_block buffer st l b st' : D st l -> (length l < fuel)%nat ->
    next buffer st = (Ok (Some b), st') ->
    exists h chs hw rest, l = hw ++ rest /\ header_code h hw /\ block_shows b h chs.
  Proof.
    intros HD Hf E.
    pose proof (frame_left rb t D Hrs Hes Hbytes m fuel st _ buffer HD Hf) as H. cbv zeta in H.
    rewrite E in H. cbn [fst snd] in H. destruct H as (x & E1 & Hs & HD').
    destruct x as [[h chs]|]; [|discriminate Hs]. destruct Hs as (b' & E2 & Hs & _). injection E2 as <-.
    destruct (frame_checked t m l h chs _ (Hbytes _ _ HD) (surj _ _ E1)) as (hw & body & crc & Hw & _ & _ & El).
    eexists h, chs, hw, _. split; [exact El|]. auto.
  Qed.

  (** ** Damaged headers and frames *)
  Lemma header_codeword h w : header_code h w -> divides poly8 (message w).
  Proof.
    intros (front & crc & Hf & Hc & ->). apply (codeword 8 poly8 front crc); [lia|exact Hc|reflexivity|].
    destruct Hc as [Hc _]. unfold message, bytes_bits. cbn [flat_map]. rewrite app_nil_r.
    apply be_value_bits_of_id. exact Hc.
  Qed.
  Lemma sixteen a b : 0 <= a < 256 -> 0 <= b < 256 -> message [a; b] = 256 * a + b.
  Proof.
    intros Ha Hb. change [a; b] with ([a] ++ [b]). rewrite message_app.
    assert (forall x, 0 <= x < 256 -> message [x] = x) as M1.
    { intros x Hx. unfold message, bytes_bits. cbn [flat_map]. rewrite app_nil_r. apply be_value_bits_of_id. exact Hx. }
    rewrite !M1 by assumption. change (2 ^ (8 * len [b])) with 256. lia.
  Qed.

  Theorem header_damage m' st w rest fh st1 st2 w' rest' fh' st3 : unambiguous D ->
    D st (w ++ rest) -> read_frame_header_or_eof rb m' st = (Ok (Some fh), st1) -> D st1 rest ->
    D st2 (w' ++ rest') -> length w' = length w -> detected8 (difference w w') ->
    read_frame_header_or_eof rb m' st2 = (Ok (Some fh'), st3) -> ~ D st3 rest'.
  Proof.
    intros Hu HD1 E1 HR1 HD2 Hlen Hdet E2 HR2.
    destruct (header_only m' st _ fh st1 HD1 E1) as (h & v & r & El & HDr & Hw & _).
    rewrite (Hu _ _ _ HDr HR1) in El. apply app_inv_tail in El as <-.
    destruct (header_only m' st2 _ fh' st3 HD2 E2) as (h' & v & r' & El & HDr' & Hw' & _).
    rewrite (Hu _ _ _ HDr' HR2) in El. apply app_inv_tail in El as <-.
    apply (detected8_ok _ Hdet). apply codewords_differ; eauto using header_codeword.
  Qed.

  Theorem frame_damage buffer buffer' st w rest b st1 st2 w' rest' b' st3 : unambiguous D ->
    (length (w ++ rest) < fuel)%nat -> (length (w' ++ rest') < fuel)%nat ->
    D st (w ++ rest) -> next buffer st = (Ok (Some b), st1) -> D st1 rest ->
    D st2 (w' ++ rest') -> length w' = length w -> detected16 (difference w w') ->
    next buffer' st2 = (Ok (Some b'), st3) -> ~ D st3 rest'.
  Proof.
    intros Hu Hf1 Hf2 HD1 E1 HR1 HD2 Hlen Hdet E2 HR2.
    assert (forall buf s v r b0 s', D s (v ++ r) -> (length (v ++ r) < fuel)%nat ->
              next buf s = (Ok (Some b0), s') -> D s' r -> divides poly16 (message v)) as X.
    { clear - HS Hu. intros buf s v r b0 s' HD Hf E HR.
      destruct (frame_checksums buf s _ b0 s' HD Hf E) as (fr & c8 & body & c16 & r0 & El & HDr & _ & _ & Hc).
      rewrite (Hu _ _ _ HDr HR) in El. rewrite !app_assoc in El. apply app_inv_tail in El. subst v.
      rewrite <- (app_assoc fr [c8] body).
      apply (codeword 16 poly16 (fr ++ [c8] ++ body) c16); [lia|exact Hc|reflexivity|].
      destruct Hc as [Hc _]. change (2 ^ 16) with 65536 in Hc. rewrite sixteen by lia. lia. }
    apply (detected16_ok _ Hdet). apply codewords_differ; [auto| |].
    - apply (X buffer st w rest b st1); assumption.
    - apply (X buffer' st2 w' rest' b' st3); assumption.
  Qed.
End Stream.

Lemma delivers_unique t sc l : delivers t sc l -> forall l', delivers t sc l' -> l = l'.
Proof.
  induction 1 as [Ht|k r Ht|c r l Hc H IH]; intros l' H'; inversion H'; subst; try reflexivity.
  f_equal. auto.
Qed.
Lemma buffered_unambiguous t : unambiguous (buffered t).
Proof.
  intros st l l' (p1 & m1 & q1 & r1 & E1 & _ & P1 & V1 & _ & H1 & ->) (p2 & m2 & q2 & r2 & E2 & _ & P2 & V2 & _ & H2 & ->).
  unfold len in *. rewrite E1 in E2.
  assert (length p1 = length p2) by lia. assert (length m1 = length m2) by lia.
  assert (p1 = p2 /\ m1 ++ q1 = m2 ++ q2) as [_ E3] by (apply app_inj_length; assumption).
  assert (m1 = m2) as -> by (apply app_inj_length in E3; tauto).
  f_equal. eapply delivers_unique; eassumption.
Qed.
Lemma cursor_unambiguous : unambiguous cursor_at.
Proof.
  intros st l l' (p1 & E1 & P1 & _) (p2 & E2 & P2 & _). unfold len in *. rewrite E1 in E2.
  apply app_inj_length in E2; [tauto|lia].
Qed.
