(** The metadata iterator, opening a file, tags. *)
From Verif Require Export SpecFile ProofMeta4.
From Verif Require Import SpecReader.

Lemma block_unique last b w rest last' b' w' rest' : bytes_ok (w ++ rest) -> block_code last b w -> block_code last' b' w' ->
  w ++ rest = w' ++ rest' -> last = last' /\ b = b' /\ w = w' /\ rest = rest'.
Proof.
  intros Hb Hc Hc' E.
  destruct (next_parses TEof Debug (repeat 0) (fun n => repeat_length 0 n)) as [_ H].
  pose proof (H (last, b) w rest Hb Hc) as H1. rewrite E in Hb.
  pose proof (H (last', b') w' rest' Hb Hc') as H2. rewrite E in H1. rewrite H1 in H2. injection H2 as -> -> ->.
  apply app_inv_tail in E. auto.
Qed.

Section Stream.
  Context {S : Type} (rb : ReadBytes S) (t : tail) (D : S -> list Z -> Prop) (HS : stream rb t D).
  Context (m : build) (un : nat -> list Z) (Hun : forall n, length (un n) = n).
  Notation Hrs := (stream_rb_sim rb t D HS no_esc).
  Notation Hbytes := (st_bytes rb t D HS).
  Notation nexts n := (history_all (fun _ : unit => mr_next rb m un) (repeat tt n)).

  Lemma next_done st : mr_next rb m un (mkMr st true) = (Ok None, mkMr st true).
  Proof. reflexivity. Qed.
  Lemma nexts_done n st : nexts n (mkMr st true) = (repeat (Ok None) n, mkMr st true).
  Proof. induction n as [|n IH]; [reflexivity|]. cbn [repeat history_all]. rewrite next_done, IH. reflexivity. Qed.
  Lemma nexts_succ n st : nexts (Datatypes.S n) st = (let (r, st') := mr_next rb m un st in let (rs, st'') := nexts n st' in (r :: rs, st'')).
  Proof. reflexivity. Qed.

  Lemma firstn_repeat_app {A} (l : list A) x n k : (n <= k)%nat -> firstn n (l ++ repeat x k) = firstn n (l ++ repeat x n).
  Proof.
    revert n k. induction l as [|y l IH]; intros n k Hk; cbn [app].
    - replace k with (n + (k - n))%nat by lia. rewrite repeat_app, firstn_app, repeat_length, Nat.sub_diag. cbn [firstn]. rewrite app_nil_r. reflexivity.
    - destruct n as [|n]; [reflexivity|]. cbn [firstn repeat]. f_equal. rewrite (IH n k) by lia.
      change (x :: repeat x n) with (repeat x (Datatypes.S n)). rewrite (IH n (Datatypes.S n)) by lia. reflexivity.
  Qed.

  Definition iterates (st : mreader S) (items : list (result metadata_block)) : Prop :=
    forall n, fst (nexts n st) = firstn n (map (fun x => Ok (Some x)) items ++ repeat (Ok None) n)
      /\ mr_done (snd (nexts n st)) = (length items <=? n)%nat
      /\ ((length items <= n)%nat -> snd (nexts n st) = snd (nexts (length items) st)).
  Lemma iterates_last r st st' : mr_next rb m un (mkMr st false) = (Ok (Some r), mkMr st' true) -> iterates (mkMr st false) [r].
  Proof.
    intros E n. destruct n as [|n]; [repeat split; cbn; lia|]. rewrite nexts_succ, E, nexts_done. cbn [map app firstn repeat length fst snd mr_done].
    repeat split.
    - f_equal. pose proof (firstn_repeat_app [] (@Ok (option (result metadata_block)) None) n (Datatypes.S n) ltac:(lia)) as E2.
      cbn [app repeat] in E2. rewrite E2. rewrite <- (repeat_length (@Ok (option (result metadata_block)) None) n) at 2. rewrite firstn_all. reflexivity.
    - intros _. cbn [history_all]. rewrite E. reflexivity.
  Qed.
  Lemma iterates_cons r st st' items : mr_next rb m un (mkMr st false) = (Ok (Some r), st') -> iterates st' items -> iterates (mkMr st false) (r :: items).
  Proof.
    intros E H n. destruct n as [|n].
    { repeat split; cbn; lia. }
    destruct (H n) as (H1 & H2 & H3). cbn [length]. rewrite !nexts_succ, E.
    destruct (nexts n st') as [rs s] eqn:En. destruct (nexts (length items) st') as [rs' s'] eqn:En'. cbn [fst snd] in *.
    cbn [map app firstn]. repeat split; auto.
    - rewrite (firstn_repeat_app _ _ n (Datatypes.S n)) by lia. f_equal. exact H1.
    - intros Hn. apply H3. lia.
  Qed.

  Lemma iterate : forall k st l, (length l <= k)%nat -> D st l -> exists items, metadata_items l items /\ iterates (mkMr st false) items.
  Proof.
    induction k as [|k IH]; intros st l Hk HD;
    destruct (next_result rb t D HS m un Hun st l HD) as [(last & b & w & rest & st' & Hc & -> & HD' & E)|(e & st' & Hn & E)].
    - pose proof (block_code_len _ _ _ Hc). rewrite app_length in Hk. lia.
    - exists [RErr e]. split; [constructor; exact Hn|]. eapply iterates_last, E.
    - pose proof (block_code_len _ _ _ Hc). rewrite app_length in Hk. destruct last.
      + exists [ROk b]. split; [constructor; exact Hc|]. eapply iterates_last, E.
      + destruct (IH st' rest ltac:(lia) HD') as (items & H1 & H2). exists (ROk b :: items).
        split; [constructor; assumption|]. eapply iterates_cons; [exact E|exact H2].
    - exists [RErr e]. split; [constructor; exact Hn|]. eapply iterates_last, E.
  Qed.

  Lemma items_nonempty l items : metadata_items l items -> items <> [].
  Proof. intros H. inversion H; discriminate. Qed.

  Theorem iterator st l : D st l -> exists items, metadata_items l items /\ items <> [] /\ forall n,
    let r := nexts n (mr_new st) in
    fst r = firstn n (map (fun x => Ok (Some x)) items ++ repeat (Ok None) n)
    /\ ((length items <= n)%nat -> snd r = snd (nexts (length items) (mr_new st)))
    /\ (let remaining := Z.max 0 (len items - Z.of_nat n) in
        fst (mr_size_hint (snd r)) <= remaining
        /\ match snd (mr_size_hint (snd r)) with Some u => remaining <= u | None => True end).
  Proof.
    intros HD. destruct (iterate (length l) st l (le_n _) HD) as (items & H1 & H2). exists items. split; [exact H1|].
    split; [eapply items_nonempty, H1|].
    intros n. change (mr_new st) with (mkMr st false). cbv zeta. destruct (H2 n) as (E1 & E2 & E3). split; [exact E1|]. split; [exact E3|].
    unfold mr_size_hint. rewrite E2. unfold len. destruct (length items <=? n)%nat eqn:E; cbn [fst snd]; lia.
  Qed.

  (** ** Opening *)
  Lemma signature_parses : parses (read_stream_header (fl_rb t)) (fun _ w => w = signature).
  Proof.
    unfold read_stream_header. eapply parses_conseq.
    { eapply (parses_bind _ _ _ (fun v _ w => v = 0x664c6143 /\ w = [])); [apply be32_parses|]. intros v _.
      destruct (v =? 0x664c6143) eqn:E; cbn [negb].
      - eapply parses_conseq; [apply parses_ret|]. intros [] w _. cbv beta. split; [intros [_ ->]; split; [lia|reflexivity]|tauto].
      - destruct (Z.land v 0xffffff00 =? 0x49443300); apply parses_false; intros a w _ [H _]; lia. }
    intros [] w _. cbv beta. split.
    - intros (v & w1 & w2 & -> & (-> & _) & -> & ->). rewrite app_nil_r. reflexivity.
    - intros ->. exists 0x664c6143, signature, []. repeat split; lia.
  Qed.
  Lemma signature_result st l : D st l ->
    (exists rest st', l = signature ++ rest /\ read_stream_header rb st = (Ok tt, st') /\ D st' rest)
    \/ (exists e st', read_stream_header rb st = (Err e, st') /\ forall rest, l <> signature ++ rest).
  Proof.
    intros HD. pose proof (parses_result rb t D HS _ _ _ st l (read_stream_header_sim no_esc D rb (fl_rb t) Hrs) signature_parses HD) as H.
    destruct (read_stream_header rb st) as [[[]|e| | |] st']; try contradiction.
    - left. destruct H as (w & rest & -> & -> & HD'). eauto 6.
    - right. exists e, st'. split; [reflexivity|]. intros rest El. exact (H tt _ rest El eq_refl).
  Qed.

  (** Comments seen so far, and to come. *)
  Definition comment_from (vc : option vorbis_comment) (bs : list metadata_block) (o : option vorbis_comment) : Prop :=
    match vc with
    | None => only_comment bs o
    | Some v => Forall not_comment bs /\ o = Some v
    end.
  Lemma only_cons_other b bs o : not_comment b -> (only_comment (b :: bs) o <-> only_comment bs o).
  Proof.
    intros Hb. split.
    - intros H. inversion H as [bs' H1 E1 E2|a c vc Ha Hc E1 E2]; subst.
      + constructor. inversion H1; assumption.
      + destruct a as [|x a]; [injection E1 as E1 E3; subst; exfalso; eapply Hb; reflexivity|]. injection E1 as E1 E3. subst. inversion Ha; subst. constructor; assumption.
    - intros H. inversion H as [bs' H1 E1 E2|a c vc Ha Hc E1 E2]; subst.
      + constructor. constructor; assumption.
      + apply (comment_one (b :: a) c vc); [constructor; assumption|assumption].
  Qed.
  Lemma only_cons_comment vc bs o : only_comment (MbVorbisComment vc :: bs) o <-> Forall not_comment bs /\ o = Some vc.
  Proof.
    split.
    - intros H. inversion H as [bs' H1 E1 E2|a c vc' Ha Hc E1 E2]; subst.
      + inversion H1 as [|? ? Hx]; subst. exfalso. eapply Hx; reflexivity.
      + destruct a as [|x a]; [injection E1 as E1 E3; subst; auto|]. injection E1 as E1 E3. subst. inversion Ha as [|? ? Hx]; subst. exfalso. eapply Hx; reflexivity.
    - intros [H ->]. apply (comment_one [] bs vc); [constructor|exact H].
  Qed.
  Lemma comment_from_other vc b bs o : not_comment b -> (comment_from vc (b :: bs) o <-> comment_from vc bs o).
  Proof.
    intros Hb. destruct vc as [v|]; cbn [comment_from]; [|apply only_cons_other, Hb].
    split; intros [H ->]; (split; [|reflexivity]); [inversion H; assumption|constructor; assumption].
  Qed.

  Lemma blocks_inv bs w : blocks_code bs w -> exists last b w1 w2, block_code last b w1 /\ w = w1 ++ w2
    /\ ((last = true /\ bs = [b] /\ w2 = []) \/ (last = false /\ exists bs', bs = b :: bs' /\ blocks_code bs' w2)).
  Proof.
    intros H. inversion H; subst.
    - exists true, b, w, []. rewrite app_nil_r. auto 10.
    - exists false, b, w0, w'. split; [assumption|]. split; [reflexivity|]. right. eauto.
  Qed.

  Definition keep (vc : option vorbis_comment) (opts : flac_reader_options) (b : metadata_block) : outcome (option vorbis_comment * flac_reader_options) :=
    match b with
    | MbVorbisComment v =>
        match vc with
        | Some _ => Err (FormatError "encountered second Vorbis comment block")
        | None => Ok (Some v, mkOpts (metadata_only opts) false)
        end
    | MbStreamInfo _ => Err (FormatError "encountered second streaminfo block")
    | _ => Ok (vc, opts)
    end.
  Lemma loop_step fuel opts vc st : metadata_loop rb m un (Datatypes.S fuel) opts vc st =
    bind (mr_next rb m un) (fun item => match item with
      | None => ret vc
      | Some r => block <- lift (of_result r) ;; r <- lift (keep vc opts block) ;;
          if negb (has_desired_blocks (snd r)) then ret (fst r) else metadata_loop rb m un fuel (snd r) (fst r)
      end) st.
  Proof.
    cbn [metadata_loop]. unfold bind. destruct (mr_next rb m un st) as [[[[b|e]|]| | | |] s]; try reflexivity.
    cbn [of_result]. unfold lift. destruct b; cbn [keep]; unfold ret, fmt_err, fail; cbn [fst snd]; try reflexivity; destruct vc; reflexivity.
  Qed.
  Lemma loop_done fuel opts vc st : metadata_loop rb m un (Datatypes.S fuel) opts vc (mkMr st true) = (Ok vc, mkMr st true).
  Proof. rewrite loop_step. unfold bind. rewrite next_done. reflexivity. Qed.
  Lemma loop_block fuel opts vc st st' last b : mr_next rb m un (mkMr st false) = (Ok (Some (ROk b)), mkMr st' last) ->
    metadata_loop rb m un (Datatypes.S fuel) opts vc (mkMr st false) =
    match keep vc opts b with
    | Ok (vc', opts') => if negb (has_desired_blocks opts') then (Ok vc', mkMr st' last) else metadata_loop rb m un fuel opts' vc' (mkMr st' last)
    | Err e => (Err e, mkMr st' last)
    | Panic w => (Panic w, mkMr st' last)
    | UB w => (UB w, mkMr st' last)
    | OutOfFuel => (OutOfFuel, mkMr st' last)
    end.
  Proof.
    intros E. rewrite loop_step. unfold bind. rewrite E. cbn [of_result]. unfold lift. destruct (keep vc opts b) as [[vc' opts']| | | |]; try reflexivity.
    cbn [fst snd]. destruct (negb (has_desired_blocks opts')); reflexivity.
  Qed.
  Lemma loop_error fuel opts vc st st' d e : mr_next rb m un (mkMr st false) = (Ok (Some (RErr e)), mkMr st' d) ->
    metadata_loop rb m un (Datatypes.S fuel) opts vc (mkMr st false) = (Err e, mkMr st' d).
  Proof. intros E. rewrite loop_step. unfold bind. rewrite E. reflexivity. Qed.

  (** What [keep] means. *)
  Lemma keep_cases vc opts b :
    (exists v, b = MbVorbisComment v /\ vc = None /\ keep vc opts b = Ok (Some v, mkOpts (metadata_only opts) false))
    \/ (exists v v' e, b = MbVorbisComment v /\ vc = Some v' /\ keep vc opts b = Err e)
    \/ (exists si e, b = MbStreamInfo si /\ keep vc opts b = Err e)
    \/ (not_comment b /\ not_streaminfo b /\ keep vc opts b = Ok (vc, opts)).
  Proof.
    destruct b; cbn [keep]; try (right; right; right; repeat split; intros ? ?; discriminate).
    - right; right; left. eauto.
    - destruct vc; [right; left; eauto 10|left; eauto 10].
  Qed.

  (** The whole metadata section. *)
  Lemma loop_all : forall fuel opts vc st l, metadata_only opts = false -> D st l -> (length l < fuel)%nat ->
    match metadata_loop rb m un fuel opts vc (mkMr st false) with
    | (Ok o, s') => exists bs w rest, blocks_code bs w /\ l = w ++ rest /\ Forall not_streaminfo bs /\ comment_from vc bs o /\ D (mr_input s') rest
    | (Err _, _) => forall bs w rest o, l = w ++ rest -> blocks_code bs w -> Forall not_streaminfo bs -> ~ comment_from vc bs o
    | _ => False
    end.
  Proof.
    induction fuel as [|fuel IH]; intros opts vc st l Ho HD Hf; [lia|].
    pose proof (Hbytes _ _ HD) as Hb.
    destruct (next_result rb t D HS m un Hun st l HD) as [(last & b & w & rest & st' & Hc & -> & HD' & E)|(e & st' & Hn & E)].
    2:{ rewrite (loop_error _ _ _ _ _ _ _ E). intros bs w rest o El Hbs _ _. apply blocks_inv in Hbs as (last & b & w1 & w2 & Hc & -> & _).
        rewrite <- app_assoc in El. exact (Hn _ _ _ _ El Hc). }
    rewrite (loop_block _ _ _ _ _ _ _ E).
    assert (forall bs w' rest' , w ++ rest = w' ++ rest' -> blocks_code bs w' ->
      (last = true /\ bs = [b]) \/ (last = false /\ exists bs' w2, bs = b :: bs' /\ blocks_code bs' w2 /\ rest = w2 ++ rest')) as Huniq.
    { intros bs w' rest' El Hbs. apply blocks_inv in Hbs as (last' & b' & w1 & w2 & Hc' & -> & HH). rewrite <- app_assoc in El.
      destruct (block_unique _ _ _ _ _ _ _ _ Hb Hc Hc' El) as (<- & <- & <- & E2).
      destruct HH as [(-> & -> & ->)|(-> & bs' & -> & Hbs')]; [left; auto|right; eauto 10]. }
    pose proof (block_code_len _ _ _ Hc) as Hlen. rewrite app_length in Hf.
    assert (forall v, metadata_only (mkOpts (metadata_only opts) v) = false) as Ho' by (intros; exact Ho).
    assert (forall opts', metadata_only opts' = false -> has_desired_blocks opts' = true) as Hd.
    { intros o Hm. unfold has_desired_blocks. rewrite Hm. reflexivity. }
    (* the continuation *)
    assert (forall vc' opts', metadata_only opts' = false -> not_streaminfo b ->
      (forall bs o, comment_from vc (b :: bs) o <-> comment_from vc' bs o) ->
      match metadata_loop rb m un fuel opts' vc' (mkMr st' last) with
      | (Ok o, s') => exists bs w0 rest0, blocks_code bs w0 /\ w ++ rest = w0 ++ rest0 /\ Forall not_streaminfo bs /\ comment_from vc bs o /\ D (mr_input s') rest0
      | (Err _, _) => forall bs w0 rest0 o, w ++ rest = w0 ++ rest0 -> blocks_code bs w0 -> Forall not_streaminfo bs -> ~ comment_from vc bs o
      | _ => False
      end) as Hcont.
    { intros vc' opts' Hopt Hns Hcf. destruct last.
      - destruct fuel as [|fuel']; [lia|]. rewrite loop_done. exists [b], w, rest. split; [constructor; exact Hc|]. split; [reflexivity|].
        split; [constructor; [exact Hns|constructor]|]. split; [|exact HD']. apply Hcf. destruct vc'; cbn [comment_from]; [split; [constructor|reflexivity]|constructor; constructor].
      - specialize (IH opts' vc' st' rest Hopt HD' ltac:(lia)). destruct (metadata_loop rb m un fuel opts' vc' (mkMr st' false)) as [[o|e| | |] s']; auto.
        + destruct IH as (bs & w2 & rest2 & H1 & -> & H2 & H3 & H4). exists (b :: bs), (w ++ w2), rest2.
          split; [constructor; assumption|]. split; [apply app_assoc|]. split; [constructor; assumption|]. split; [apply Hcf, H3|exact H4].
        + intros bs w0 rest0 o El Hbs Hns' Hcf'. destruct (Huniq _ _ _ El Hbs) as [[? _]|(_ & bs' & w2 & -> & Hbs' & ->)]; [discriminate|].
          inversion Hns'; subst. eapply IH; [reflexivity|exact Hbs'|assumption|apply Hcf, Hcf']. }
    destruct (keep_cases vc opts b) as [(v & -> & -> & ->)|[(v & v' & e & -> & -> & ->)|[(si & e & -> & ->)|(Hnc & Hns & ->)]]].
    - rewrite (Hd _ (Ho' false)). cbn [negb]. apply Hcont; [exact (Ho' false)|intros ? ?; discriminate|].
      intros bs o. cbn [comment_from]. apply only_cons_comment.
    - intros bs w0 rest0 o El Hbs _ [Hnc _]. destruct (Huniq _ _ _ El Hbs) as [[_ ->]|(_ & bs' & w2 & -> & _)]; inversion Hnc as [|? ? Hx]; subst; eapply Hx; reflexivity.
    - intros bs w0 rest0 o El Hbs Hns _. destruct (Huniq _ _ _ El Hbs) as [[_ ->]|(_ & bs' & w2 & -> & _)]; inversion Hns as [|? ? Hx]; subst; eapply Hx; reflexivity.
    - rewrite (Hd _ Ho). cbn [negb]. apply Hcont; [exact Ho|exact Hns|]. intros bs o. apply comment_from_other, Hnc.
  Qed.

  (** Up to the Vorbis comment. *)
  Definition to_comment (o : option vorbis_comment) (w : list Z) : Prop :=
    match o with
    | None => exists bs, blocks_code bs w /\ Forall not_streaminfo bs /\ Forall not_comment bs
    | Some v => exists bs w1 last w2, w = w1 ++ w2 /\ open_blocks bs w1 /\ block_code last (MbVorbisComment v) w2
        /\ Forall not_streaminfo bs /\ Forall not_comment bs
    end.
  Lemma to_comment_inv o w : to_comment o w -> exists last b w1 w2, block_code last b w1 /\ w = w1 ++ w2 /\ not_streaminfo b
    /\ ((exists v, b = MbVorbisComment v /\ o = Some v /\ w2 = [])
        \/ (not_comment b /\ ((last = true /\ o = None /\ w2 = []) \/ (last = false /\ to_comment o w2)))).
  Proof.
    destruct o as [v|]; cbn [to_comment].
    - intros (bs & w1 & last & w2 & -> & Ho & Hc & H1 & H2). inversion Ho; subst.
      + exists last, (MbVorbisComment v), w2, []. rewrite app_nil_r. split; [exact Hc|]. split; [reflexivity|]. split; [intros ? ?; discriminate|]. left. eauto.
      + inversion H1; subst. inversion H2; subst. exists false, b, w, (w' ++ w2). split; [assumption|]. split; [symmetry; apply app_assoc|].
        split; [assumption|]. right. split; [assumption|]. right. split; [reflexivity|]. exists bs0, w', last, w2. auto.
    - intros (bs & Hb & H1 & H2). apply blocks_inv in Hb as (last & b & w1 & w2 & Hc & -> & HH). exists last, b, w1, w2. split; [exact Hc|]. split; [reflexivity|].
      destruct HH as [(-> & -> & ->)|(-> & bs' & -> & Hbs')]; inversion H1; subst; inversion H2; subst.
      + split; [assumption|]. right. split; [assumption|]. auto.
      + split; [assumption|]. right. split; [assumption|]. right. split; [reflexivity|]. exists bs'. auto.
  Qed.

  Lemma loop_to_comment : forall fuel st l, D st l -> (length l < fuel)%nat ->
    match metadata_loop rb m un fuel (mkOpts true true) None (mkMr st false) with
    | (Ok o, s') => exists w rest, to_comment o w /\ l = w ++ rest /\ D (mr_input s') rest
    | (Err _, _) => forall o w rest, l = w ++ rest -> ~ to_comment o w
    | _ => False
    end.
  Proof.
    induction fuel as [|fuel IH]; intros st l HD Hf; [lia|].
    pose proof (Hbytes _ _ HD) as Hb.
    destruct (next_result rb t D HS m un Hun st l HD) as [(last & b & w & rest & st' & Hc & -> & HD' & E)|(e & st' & Hn & E)].
    2:{ rewrite (loop_error _ _ _ _ _ _ _ E). intros o w rest El Ht. apply to_comment_inv in Ht as (last & b & w1 & w2 & Hc & -> & _).
        rewrite <- app_assoc in El. exact (Hn _ _ _ _ El Hc). }
    rewrite (loop_block _ _ _ _ _ _ _ E).
    pose proof (block_code_len _ _ _ Hc) as Hlen. rewrite app_length in Hf.
    destruct (keep_cases None (mkOpts true true) b) as [(v & -> & _ & ->)|[(v & v' & e & -> & ? & ->)|[(si & e & -> & ->)|(Hnc & Hns & ->)]]]; [|discriminate|..].
    - cbn [metadata_only has_desired_blocks opt_read_vorbis_comment negb]. exists w, rest. split; [|auto]. cbn [to_comment].
      exists [], [], last, w. split; [reflexivity|]. split; [constructor|]. split; [exact Hc|]. split; constructor.
    - intros o w0 rest0 El Ht. apply to_comment_inv in Ht as (last' & b' & w1 & w2 & Hc' & -> & Hns & _). rewrite <- app_assoc in El.
      destruct (block_unique _ _ _ _ _ _ _ _ Hb Hc Hc' El) as (_ & <- & _). eapply Hns; reflexivity.
    - cbn [metadata_only has_desired_blocks opt_read_vorbis_comment negb]. destruct last.
      + destruct fuel as [|fuel']; [lia|]. rewrite loop_done. exists w, rest. split; [|auto]. cbn [to_comment]. exists [b].
        split; [constructor; exact Hc|]. split; repeat constructor; assumption.
      + specialize (IH st' rest HD' ltac:(lia)). destruct (metadata_loop rb m un fuel (mkOpts true true) None (mkMr st' false)) as [[o|e| | |] s']; auto.
        * destruct IH as (w2 & rest2 & Ht & -> & HD2). exists (w ++ w2), rest2. split; [|split; [apply app_assoc|exact HD2]]. destruct o as [v|]; cbn [to_comment] in *.
          -- destruct Ht as (bs & x1 & last & x2 & -> & Hob & Hcb & H1 & H2). exists (b :: bs), (w ++ x1), last, x2. split; [apply app_assoc|].
             split; [constructor; assumption|]. split; [exact Hcb|]. split; constructor; assumption.
          -- destruct Ht as (bs & Hbs & H1 & H2). exists (b :: bs). split; [constructor; assumption|]. split; constructor; assumption.
        * intros o w0 rest0 El Ht. apply to_comment_inv in Ht as (last' & b' & w1 & w2 & Hc' & -> & _ & HH). rewrite <- app_assoc in El.
          destruct (block_unique _ _ _ _ _ _ _ _ Hb Hc Hc' El) as (<- & <- & <- & E2).
          destruct HH as [(v & -> & _)|(_ & [[? _]|[_ Ht]])]; [eapply Hnc; reflexivity|discriminate|]. exact (IH o w2 rest0 E2 Ht).
  Qed.

  (** One block. *)
  Definition one_block (w : list Z) : Prop := exists last b, block_code last b w /\ not_streaminfo b.
  Lemma loop_one fuel st l : D st l -> (length l < fuel)%nat ->
    match metadata_loop rb m un fuel (mkOpts true false) None (mkMr st false) with
    | (Ok _, s') => exists w rest, one_block w /\ l = w ++ rest /\ D (mr_input s') rest
    | (Err _, _) => forall w rest, l = w ++ rest -> ~ one_block w
    | _ => False
    end.
  Proof.
    intros HD Hf. destruct fuel as [|fuel]; [lia|]. pose proof (Hbytes _ _ HD) as Hb.
    destruct (next_result rb t D HS m un Hun st l HD) as [(last & b & w & rest & st' & Hc & -> & HD' & E)|(e & st' & Hn & E)].
    2:{ rewrite (loop_error _ _ _ _ _ _ _ E). intros w rest El (last & b & Hc & _). exact (Hn _ _ _ _ El Hc). }
    rewrite (loop_block _ _ _ _ _ _ _ E).
    destruct (keep_cases None (mkOpts true false) b) as [(v & -> & _ & ->)|[(v & v' & e & -> & ? & ->)|[(si & e & -> & ->)|(Hnc & Hns & ->)]]]; [|discriminate|..].
    - cbn [metadata_only has_desired_blocks opt_read_vorbis_comment negb]. exists w, rest. split; [|auto]. exists last, (MbVorbisComment v). split; [exact Hc|intros ? ?; discriminate].
    - intros w0 rest0 El (last' & b' & Hc' & Hns). destruct (block_unique _ _ _ _ _ _ _ _ Hb Hc Hc' El) as (_ & <- & _). eapply Hns; reflexivity.
    - cbn [metadata_only has_desired_blocks opt_read_vorbis_comment negb]. exists w, rest. split; [|auto]. exists last, b. auto.
  Qed.
End Stream.
