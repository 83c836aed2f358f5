(** Options, framing, and uninitialised memory. *)
From Verif Require Export ProofTags.
From Verif Require Import SpecReader.

Lemma blocks_split a x c w : blocks_code (a ++ x :: c) w -> exists w1 last w2 w3, w = w1 ++ w2 ++ w3 /\ open_blocks a w1 /\ block_code last x w2.
Proof.
  revert w. induction a as [|b a IH]; intros w H; cbn [app] in H; apply blocks_inv in H as (last & b' & w1 & w2 & Hc & -> & HH).
  - exists [], last, w1, w2. split; [reflexivity|]. split; [constructor|].
    destruct HH as [(_ & E & _)|(_ & bs & E & _)]; injection E as <- _; exact Hc.
  - destruct HH as [(_ & E & _)|(-> & bs & E & Hbs)].
    + destruct a; discriminate.
    + injection E as <- <-. destruct (IH w2 Hbs) as (x1 & last & x2 & x3 & -> & Hob & Hcb). exists (w1 ++ x1), last, x2, x3.
      split; [apply app_assoc|]. split; [constructor; assumption|exact Hcb].
Qed.
Lemma opens_other opts si v w : well_formed si v w ->
  exists w' w'' , w = w' ++ w'' /\ opens opts si (if opt_read_vorbis_comment opts then v else None) w'.
Proof.
  intros H. unfold opens. destruct (metadata_only opts), (opt_read_vorbis_comment opts).
  - destruct v as [vc|]; [|exists w, []; rewrite app_nil_r; auto].
    destruct H as (bs & blocks & -> & Hb & Hn & Ho). inversion Ho as [|a c vc' Ha Hc E1 E2]; subst.
    change (MbStreamInfo si :: a ++ MbVorbisComment vc :: c) with ((MbStreamInfo si :: a) ++ MbVorbisComment vc :: c) in Hb.
    apply blocks_split in Hb as (w1 & last & w2 & w3 & -> & Hob & Hcb). exists (signature ++ w1 ++ w2), w3. split; [rewrite <- !app_assoc; reflexivity|].
    cbn [well_formed_to_comment]. exists a, w1, last, w2. apply Forall_app in Hn as [Hn _]. auto.
  - destruct H as (bs & blocks & -> & Hb & Hn & Ho). apply blocks_inv in Hb as (last & b & w1 & w2 & Hc & -> & HH).
    destruct HH as [(-> & E & ->)|(-> & bs' & E & Hbs)]; injection E as <- E2; subst.
    + exists (signature ++ w1 ++ []), []. rewrite !app_nil_r. split; [reflexivity|]. split; [reflexivity|]. exists true, w1, []. rewrite app_nil_r. auto.
    + apply blocks_inv in Hbs as (last2 & b2 & x1 & x2 & Hc2 & -> & HH). exists (signature ++ w1 ++ x1), x2. split; [rewrite <- !app_assoc; reflexivity|].
      split; [reflexivity|]. exists false, w1, x1. split; [reflexivity|]. split; [exact Hc|]. exists last2, b2. split; [exact Hc2|].
      destruct HH as [(_ & -> & _)|(_ & bs & -> & _)]; inversion Hn; assumption.
  - exists w, []. rewrite app_nil_r. auto.
  - exists w, []. rewrite app_nil_r. split; [reflexivity|]. split; [reflexivity|]. eauto.
Qed.

Section Stream.
  Context {S : Type} (rb : ReadBytes S) (t : tail) (D : S -> list Z -> Prop) (HS : stream rb t D).
  Context (m : build).
  Notation Hrs := (stream_rb_sim rb t D HS no_esc).
  Notation Hbs := (stream_bulk_sim rb t D HS no_esc).
  Notation Hbytes := (st_bytes rb t D HS).

  (** ** Options *)
  Theorem options_agree un (Hun : forall n, length (un n) = n) fuel opts opts' st st' l r r' : D st l -> D st' l -> (length l < fuel)%nat ->
    fst (new_ext rb m un fuel opts st) = Ok r -> fst (new_ext rb m un fuel opts' st') = Ok r' ->
    fr_get_streaminfo r = fr_get_streaminfo r'.
  Proof.
    intros HD HD' Hf E E'.
    pose proof (new_ext_result rb t D HS m un Hun fuel opts st l HD Hf) as H. pose proof (new_ext_result rb t D HS m un Hun fuel opts' st' l HD' Hf) as H'.
    destruct (new_ext rb m un fuel opts st) as [o s], (new_ext rb m un fuel opts' st') as [o' s']. cbn [fst] in *. subst o o'.
    destruct H as (w & rest & inp & -> & Ho & _). destruct H' as (w' & rest' & inp' & El & Ho' & _). pose proof (Hbytes _ _ HD) as Hb.
    apply opens_inv in Ho as (last & w1 & w2 & -> & Hc & _). apply opens_inv in Ho' as (last' & x1 & x2 & -> & Hc' & _).
    rewrite <- !app_assoc in *. apply sig_inj in El. apply app_bytes in Hb as [_ Hb].
    destruct (block_unique _ _ _ _ _ _ _ _ Hb Hc Hc' El) as (_ & Es & _). congruence.
  Qed.
  Theorem options_accept un (Hun : forall n, length (un n) = n) fuel opts st st' l r : D st l -> D st' l -> (length l < fuel)%nat ->
    fst (new_ext rb m un fuel default_options st) = Ok r ->
    exists r', fst (new_ext rb m un fuel opts st') = Ok r' /\ fr_get_streaminfo r' = fr_get_streaminfo r
      /\ fr_vorbis_comment r' = (if opt_read_vorbis_comment opts then fr_vorbis_comment r else None).
  Proof.
    intros HD HD' Hf E.
    pose proof (new_ext_result rb t D HS m un Hun fuel default_options st l HD Hf) as H.
    destruct (new_ext rb m un fuel default_options st) as [o s]. cbn [fst] in *. subst o. destruct H as (w & rest & inp & -> & Ho & _).
    change (opens default_options (fr_get_streaminfo r) (fr_vorbis_comment r) w) with (well_formed (fr_get_streaminfo r) (fr_vorbis_comment r) w) in Ho.
    destruct (opens_other opts _ _ _ Ho) as (w' & w'' & -> & Ho'). rewrite <- app_assoc in *.
    destruct (new_ext_accepts rb t D HS m un Hun fuel opts st' _ _ _ _ Ho' HD' Hf) as (r' & inp' & E1 & E2 & E3 & _). eauto.
  Qed.
  Theorem options_audio un (Hun : forall n, length (un n) = n) fuel opts st l r : D st l -> (length l < fuel)%nat ->
    fst (new_ext rb m un fuel opts st) = Ok r ->
    (opt_read_vorbis_comment opts = false -> shows r None [])
    /\ (metadata_only opts = true -> (exists w1, fr_blocks r = Panic w1) /\ (exists w2, fr_samples r = Panic w2) /\ (exists w3, fr_into_samples r = Panic w3))
    /\ (metadata_only opts = false -> succeeded (fr_blocks r) /\ succeeded (fr_samples r) /\ succeeded (fr_into_samples r)).
  Proof.
    intros HD Hf E. pose proof (new_ext_result rb t D HS m un Hun fuel opts st l HD Hf) as H.
    destruct (new_ext rb m un fuel opts st) as [o s]. cbn [fst] in *. subst o. destruct H as (w & rest & inp & -> & Ho & _ & Hi). split; [|split].
    - intros Hv. apply shows_none. unfold opens in Ho. rewrite Hv in Ho. destruct (metadata_only opts); destruct Ho as [-> _]; reflexivity.
    - intros Hm. rewrite Hm in Hi. unfold fr_blocks, fr_samples, fr_into_samples. rewrite Hi. repeat split; eexists; reflexivity.
    - intros Hm. rewrite Hm in Hi. unfold fr_blocks, fr_samples, fr_into_samples, succeeded. rewrite Hi. repeat split; eexists; reflexivity.
  Qed.

  (** ** Uninitialised memory *)
  Section Memory.
    Context (un un' : nat -> list Z) (Hun : forall n, length (un n) = n) (Hun' : forall n, length (un' n) = n).
    Theorem memory_block ty n st st' l : 0 <= n < 2 ^ 32 -> D st l -> D st' l ->
      fst (read_metadata_block rb m un ty n st) = fst (read_metadata_block rb m un' ty n st').
    Proof.
      intros Hn HD HD'.
      destruct (sim_fst D _ _ st l (read_metadata_block_sim no_esc D rb (fl_rb t) m un (repeat 0) Hun (fun n => repeat_length 0 n) Hrs Hbs ty n Hn) HD) as [-> _].
      destruct (sim_fst D _ _ st' l (read_metadata_block_sim no_esc D rb (fl_rb t) m un' (repeat 0) Hun' (fun n => repeat_length 0 n) Hrs Hbs ty n Hn) HD') as [-> _].
      reflexivity.
    Qed.
    Theorem memory_with_header st st' l : D st l -> D st' l ->
      fst (read_metadata_block_with_header rb m un st) = fst (read_metadata_block_with_header rb m un' st').
    Proof.
      intros HD HD'.
      destruct (sim_fst D _ _ st l (read_metadata_block_with_header_sim no_esc D rb (fl_rb t) m un (repeat 0) Hun (fun n => repeat_length 0 n) Hrs Hbs) HD) as [-> _].
      destruct (sim_fst D _ _ st' l (read_metadata_block_with_header_sim no_esc D rb (fl_rb t) m un' (repeat 0) Hun' (fun n => repeat_length 0 n) Hrs Hbs) HD') as [-> _].
      reflexivity.
    Qed.
    Theorem memory_new_ext fuel opts st st' l : D st l -> D st' l ->
      match fst (new_ext rb m un fuel opts st), fst (new_ext rb m un' fuel opts st') with
      | Ok r, Ok r' => same_reader D r r'
      | Err e, Err e' => e = e'
      | Panic w, Panic w' => w = w'
      | UB w, UB w' => w = w'
      | OutOfFuel, OutOfFuel => True
      | _, _ => False
      end.
    Proof.
      intros HD HD'.
      pose proof (new_ext_sim no_esc D rb (fl_rb t) m un (repeat 0) Hun (fun n => repeat_length 0 n) Hrs Hbs fuel opts st l HD) as H.
      pose proof (new_ext_sim no_esc D rb (fl_rb t) m un' (repeat 0) Hun' (fun n => repeat_length 0 n) Hrs Hbs fuel opts st' l HD') as H'.
      destruct (fst (new_ext rb m un fuel opts st)) as [r|e|w|w|], (fst (new_ext rb m un' fuel opts st')) as [r'|e'|w'|w'|];
        repeat match goal with
        | X : _ /\ _ |- _ => destruct X
        | X : exists _, _ |- _ => destruct X
        | X : no_esc _ \/ _ |- _ => destruct X as [[]|[X _]]
        end; try congruence; auto.
      assert (x0 = x) as -> by congruence. unfold Rfr in *.
      repeat match goal with X : _ /\ _ |- _ => destruct X end.
      unfold same_reader, fr_get_streaminfo. split; [congruence|]. split; [congruence|].
      destruct (fr_input x) as [y|y], (fr_input r) as [i|i], (fr_input r') as [i'|i']; try contradiction; exists i, i', y; auto.
    Qed.
  End Memory.
End Stream.

(** ** Restatements *)
Lemma values_defined name cs : exists vs, values_of name cs vs /\ forall vs', values_of name cs vs' -> vs' = vs.
Proof. destruct (values_exist name cs) as [vs H]. exists vs. split; [exact H|]. intros vs' H'. exact (values_unique _ _ _ _ H' H). Qed.

Section Restate.
  Context {S : Type} (rb : ReadBytes S) (t : tail) (D : S -> list Z -> Prop) (HS : stream rb t D).
  Context (m : build) (un : nat -> list Z) (Hun : forall n, length (un n) = n).

  Theorem accepted_comments st l ty n vc st' : 0 <= ty <= 127 -> 0 <= n < 2 ^ 32 -> D st l ->
    read_metadata_block rb m un ty n st = (Ok (MbVorbisComment vc), st') ->
    utf8 (vc_vendor vc)
    /\ Forall (fun p => utf8 (fst p) /\ exists name value, fst p = name ++ [61] ++ value
         /\ snd p = len name /\ Forall (fun b => 32 <= b <= 125 /\ b <> 61) name) (vc_comments vc).
  Proof.
    intros Hty Hn HD E. pose proof (block_result rb t D HS m un Hun st ty n l Hty Hn HD) as H. rewrite E in H.
    destruct H as (w & rest & _ & _ & Hc & _). destruct (body_vc _ _ _ Hc) as (v & cs & -> & Hu & Hcs). cbn [vorbis_of vc_vendor vc_comments].
    split; [exact Hu|]. clear - Hcs. induction Hcs as [|c cs [Hn Hv] _ IH]; [constructor|]. cbn [map]. constructor; [|exact IH]. cbn [fst snd]. split.
    - unfold comment_text. rewrite app_assoc. apply utf8_ascii_app; [|exact Hv]. apply Forall_app. split; [|repeat constructor; lia].
      eapply Forall_impl; [|exact Hn]. cbv beta. lia.
    - exists (fst c), (snd c). auto.
  Qed.
  Theorem new_result fuel st l : D st l -> (length l < fuel)%nat ->
    match new_ext rb m un fuel default_options st with
    | (Ok r, _) => exists w rest inp, l = w ++ rest /\ well_formed (fr_get_streaminfo r) (fr_vorbis_comment r) w /\ fr_blocks r = Ok inp /\ D inp rest
    | (Err _, _) => forall si vc w rest, l = w ++ rest -> ~ well_formed si vc w
    | _ => False
    end.
  Proof.
    intros HD Hf. pose proof (new_ext_result rb t D HS m un Hun fuel default_options st l HD Hf) as H.
    destruct (new_ext rb m un fuel default_options st) as [[r|e| | |] s]; auto.
    destruct H as (w & rest & inp & -> & Ho & HD' & Hi). exists w, rest, inp. split; [reflexivity|]. split; [exact Ho|]. split; [|exact HD'].
    unfold fr_blocks. rewrite Hi. reflexivity.
  Qed.
  Theorem new_accepts fuel st si vc w rest : well_formed si vc w -> D st (w ++ rest) -> (length (w ++ rest) < fuel)%nat ->
    exists r inp, fst (new_ext rb m un fuel default_options st) = Ok r
      /\ fr_get_streaminfo r = si /\ fr_vorbis_comment r = vc /\ fr_blocks r = Ok inp /\ D inp rest.
  Proof.
    intros Hw HD Hf. destruct (new_ext_accepts rb t D HS m un Hun fuel default_options st si vc w rest Hw HD Hf) as (r & inp & E1 & E2 & E3 & E4 & E5).
    exists r, inp. repeat (split; [assumption|]). split; [|exact E4]. unfold fr_blocks. rewrite E5. reflexivity.
  Qed.
  Theorem stops_after_comment fuel st si vc w rest : well_formed_to_comment si (Some vc) w -> D st (w ++ rest) -> (length (w ++ rest) < fuel)%nat ->
    exists r inp, fst (new_ext rb m un fuel (mkOpts true true) st) = Ok r
      /\ fr_get_streaminfo r = si /\ fr_vorbis_comment r = Some vc /\ fr_input r = MetadataOnly inp /\ D inp rest.
  Proof.
    intros Hw HD Hf. destruct (new_ext_accepts rb t D HS m un Hun fuel (mkOpts true true) st si (Some vc) w rest Hw HD Hf) as (r & inp & E1 & E2 & E3 & E4 & E5).
    exists r, inp. auto 10.
  Qed.
  Theorem stops_after_second fuel st si w rest : well_formed_to_second si w -> D st (w ++ rest) -> (length (w ++ rest) < fuel)%nat ->
    exists r inp, fst (new_ext rb m un fuel (mkOpts true false) st) = Ok r
      /\ fr_get_streaminfo r = si /\ fr_vorbis_comment r = None /\ fr_input r = MetadataOnly inp /\ D inp rest.
  Proof.
    intros Hw HD Hf. destruct (new_ext_accepts rb t D HS m un Hun fuel (mkOpts true false) st si None w rest (conj eq_refl Hw) HD Hf) as (r & inp & E1 & E2 & E3 & E4 & E5).
    exists r, inp. auto 10.
  Qed.
  Theorem tags_of_file fuel st si bs bs' vendor entries blocks rest :
    blocks_code (MbStreamInfo si :: bs ++ MbVorbisComment (vorbis_of vendor (present entries)) :: bs') blocks ->
    Forall not_streaminfo (bs ++ bs') -> Forall not_comment (bs ++ bs') -> Forall entry_ok entries ->
    D st (signature ++ blocks ++ rest) -> (length (signature ++ blocks ++ rest) < fuel)%nat ->
    exists r, fst (new_ext rb m un fuel default_options st) = Ok r /\ shows r (Some vendor) (present entries).
  Proof.
    intros Hb Hn Hc He HD Hf. apply Forall_app in Hn as [Hn1 Hn2], Hc as [Hc1 Hc2]. rewrite app_assoc in HD, Hf.
    destruct (new_accepts fuel st si (Some (vorbis_of vendor (present entries))) (signature ++ blocks) rest) as (r & inp & E1 & E2 & E3 & _); [|exact HD|exact Hf|].
    - eexists _, blocks. split; [reflexivity|]. split; [exact Hb|]. split; [|constructor; assumption].
      apply Forall_app. split; [exact Hn1|]. constructor; [intros ? ?; discriminate|exact Hn2].
    - exists r. split; [exact E1|]. apply shows_some; [exact E3|]. apply present_ok, He.
  Qed.
End Restate.

Theorem flac_new_result t m un fuel script l : (forall n, length (un n) = n) -> delivers t script l -> (length l < fuel)%nat ->
  match flac_new m un fuel script with
  | Ok r => exists w rest inp, l = w ++ rest /\ well_formed (fr_get_streaminfo r) (fr_vorbis_comment r) w /\ fr_blocks r = Ok inp /\ buffered t inp rest
  | Err _ => forall si vc w rest, l = w ++ rest -> ~ well_formed si vc w
  | _ => False
  end.
Proof.
  intros Hun Hd Hf. unfold flac_new, flac_new_ext.
  pose proof (new_result (br_rb m) t (buffered t) (br_stream m t) m un Hun fuel (br_new script) l (br_new_buffered t script l Hd) Hf) as H.
  destruct (new_ext _ _ _ _ _ _) as [[r|e| | |] s]; exact H.
Qed.

Section MemoryIter.
  Context {S : Type} (rb : ReadBytes S) (t : tail) (D : S -> list Z -> Prop) (HS : stream rb t D).
  Context (m : build) (un un' : nat -> list Z) (Hun : forall n, length (un n) = n) (Hun' : forall n, length (un' n) = n).
  Theorem memory_iterator n st st' l : D st l -> D st' l ->
    fst (history_all (fun _ : unit => mr_next rb m un) (repeat tt n) (mr_new st))
    = fst (history_all (fun _ : unit => mr_next rb m un') (repeat tt n) (mr_new st')).
  Proof.
    intros HD HD'.
    assert (forall u, (forall n, length (u n) = n) -> forall n s1 s2, Rmri D s1 s2 ->
      fst (history_all (fun _ : unit => mr_next rb m u) (repeat tt n) s1) = fst (history_all (fun _ : unit => mr_next (fl_rb t) m (repeat 0)) (repeat tt n) s2)
      ) as Hgen.
    { intros u Hu. induction n0 as [|k IH]; intros s1 s2 HR; [reflexivity|]. rewrite !history_succ.
      pose proof (mr_next_sim D rb (fl_rb t) m u (repeat 0) Hu (fun n => repeat_length 0 n) (stream_rb_sim rb t D HS no_esc) (stream_bulk_sim rb t D HS no_esc) s1 s2 HR) as H.
      destruct s1 as [i1 d1], s2 as [i2 d2]. destruct HR as [Hd HR]. cbn [mr_done mr_input] in Hd, HR. subst d2.
      destruct d1.
      - rewrite !next_done. specialize (IH (mkMr i1 true) (mkMr i2 true)). 
        destruct (history_all _ _ (mkMr i1 true)) as [a b], (history_all _ _ (mkMr i2 true)) as [a' b']. cbn [fst] in *. f_equal. apply IH. split; [reflexivity|discriminate].
      - destruct (next_result rb t D HS m u Hu i1 i2 (HR eq_refl)) as [(last & b & w & rest & st1 & _ & _ & HD1 & E)|(e & st1 & _ & E)]; rewrite E in *; cbn [fst snd] in H.
        + destruct H as (b' & E2 & <- & HR2). destruct (mr_next (fl_rb t) m (repeat 0) (mkMr i2 false)) as [o s]. cbn [fst snd] in E2, HR2. subst o.
          specialize (IH _ _ HR2). destruct (history_all _ _ (mkMr st1 last)) as [x y], (history_all _ _ s) as [x' y']. cbn [fst] in *. congruence.
        + destruct H as (b' & E2 & <- & HR2). destruct (mr_next (fl_rb t) m (repeat 0) (mkMr i2 false)) as [o s]. cbn [fst snd] in E2, HR2. subst o.
          specialize (IH _ _ HR2). destruct (history_all _ _ (mkMr st1 true)) as [x y], (history_all _ _ s) as [x' y']. cbn [fst] in *. congruence. }
    rewrite (Hgen un Hun n (mr_new st) (mkMr l false)), (Hgen un' Hun' n (mr_new st') (mkMr l false)); [reflexivity|..]; split; auto.
  Qed.
End MemoryIter.
