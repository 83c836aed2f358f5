(** Opening a file. *)
From Verif Require Export ProofMeta5.
From Verif Require Import SpecReader.

(** ** Uniqueness *)
Lemma app_bytes (a b : list Z) : bytes_ok (a ++ b) -> bytes_ok a /\ bytes_ok b.
Proof. intros H. apply Forall_app in H. exact H. Qed.
Lemma blocks_unique bs w : blocks_code bs w -> forall bs' w' r r', blocks_code bs' w' -> bytes_ok (w ++ r) -> w ++ r = w' ++ r' ->
  bs = bs' /\ w = w'.
Proof.
  induction 1 as [b w Hc|b w bs w2 Hc Hbs IH]; intros bs' w' r r' H' Hb E.
  - apply blocks_inv in H' as (last & b' & x1 & x2 & Hc' & -> & HH). rewrite <- app_assoc in E.
    destruct (block_unique _ _ _ _ _ _ _ _ Hb Hc Hc' E) as (<- & <- & <- & E2).
    destruct HH as [(_ & -> & ->)|(? & _)]; [|discriminate]. rewrite app_nil_r. auto.
  - apply blocks_inv in H' as (last & b' & x1 & x2 & Hc' & -> & HH). rewrite <- !app_assoc in *.
    destruct (block_unique _ _ _ _ _ _ _ _ Hb Hc Hc' E) as (<- & <- & <- & E2).
    destruct HH as [(? & _)|(_ & bs2 & -> & Hbs2)]; [discriminate|]. apply app_bytes in Hb as [_ Hb].
    destruct (IH bs2 x2 r r' Hbs2 Hb E2) as [-> ->]. auto.
Qed.
Lemma only_unique bs o o' : only_comment bs o -> only_comment bs o' -> o = o'.
Proof.
  revert o o'. induction bs as [|b bs IH]; intros o o' H H'.
  - inversion H as [|a c vc ? ? E]; [|destruct a; discriminate]. inversion H' as [|a c vc ? ? E]; [|destruct a; discriminate]. reflexivity.
  - assert (not_comment b \/ exists v, b = MbVorbisComment v) as [Hn|[v ->]].
    { destruct b; try (left; intros ? ?; discriminate). right. eauto. }
    + apply only_cons_other in H; [|exact Hn]. apply only_cons_other in H'; [|exact Hn]. auto.
    + apply only_cons_comment in H as [_ ->]. apply only_cons_comment in H' as [_ ->]. reflexivity.
Qed.
Lemma to_comment_unique : forall n o w o' w' r r', (length w <= n)%nat -> to_comment o w -> to_comment o' w' -> bytes_ok (w ++ r) -> w ++ r = w' ++ r' ->
  o = o' /\ w = w'.
Proof.
  induction n as [|n IH]; intros o w o' w' r r' Hn Ht Ht' Hb E;
    apply to_comment_inv in Ht as (last & b & w1 & w2 & Hc & -> & _ & HH); pose proof (block_code_len _ _ _ Hc); rewrite app_length in Hn; [lia|].
  apply to_comment_inv in Ht' as (last' & b' & x1 & x2 & Hc' & -> & _ & HH'). rewrite <- !app_assoc in *.
  destruct (block_unique _ _ _ _ _ _ _ _ Hb Hc Hc' E) as (<- & <- & <- & E2). apply app_bytes in Hb as [_ Hb].
  destruct HH as [(v & -> & -> & ->)|(Hnc & HH)].
  - destruct HH' as [(v' & Ev & -> & ->)|(Hnc & _)]; [|exfalso; eapply Hnc; reflexivity]. injection Ev as ->. auto.
  - destruct HH' as [(v' & -> & _ & _)|(_ & HH')]; [exfalso; eapply Hnc; reflexivity|].
    destruct HH as [(-> & -> & ->)|(-> & Ht)]; destruct HH' as [(? & -> & ->)|(? & Ht')]; try discriminate; [auto|].
    destruct (IH o w2 o' x2 r r') as [-> ->]; auto. lia.
Qed.

(** Splitting off the streaminfo. *)
Definition after (opts : flac_reader_options) (vc : option vorbis_comment) (w : list Z) : Prop :=
  match metadata_only opts, opt_read_vorbis_comment opts with
  | false, true => exists bs, blocks_code bs w /\ Forall not_streaminfo bs /\ only_comment bs vc
  | false, false => vc = None /\ exists bs v, blocks_code bs w /\ Forall not_streaminfo bs /\ only_comment bs v
  | true, true => to_comment vc w
  | true, false => vc = None /\ one_block w
  end.
Lemma opens_inv opts si vc w : opens opts si vc w <-> exists last w1 w2, w = signature ++ w1 ++ w2 /\ block_code last (MbStreamInfo si) w1
  /\ (if last then vc = None /\ w2 = [] else after opts vc w2).
Proof.
  unfold opens, after.
  assert (forall v, well_formed si v w <-> exists last w1 w2, w = signature ++ w1 ++ w2 /\ block_code last (MbStreamInfo si) w1
    /\ (if last then v = None /\ w2 = [] else exists bs, blocks_code bs w2 /\ Forall not_streaminfo bs /\ only_comment bs v)) as HW.
  { intros v. split.
    - intros (bs & blocks & -> & Hb & Hn & Ho). apply blocks_inv in Hb as (last & b & w1 & w2 & Hc & -> & HH). exists last, w1, w2.
      split; [reflexivity|]. destruct HH as [(-> & E & ->)|(-> & bs' & E & Hbs)]; injection E as <- ->.
      + split; [exact Hc|]. split; [|reflexivity]. inversion Ho as [|a c vc' ? ? E]; [reflexivity|]. destruct a; discriminate.
      + split; [exact Hc|]. eauto.
    - intros (last & w1 & w2 & -> & Hc & HH). destruct last.
      + destruct HH as [-> ->]. exists [], (w1 ++ []). split; [reflexivity|]. rewrite app_nil_r. split; [constructor; exact Hc|]. split; [constructor|]. constructor; constructor.
      + destruct HH as (bs & Hbs & Hn & Ho). exists bs, (w1 ++ w2). split; [reflexivity|]. split; [constructor; assumption|]. auto. }
  destruct (metadata_only opts), (opt_read_vorbis_comment opts).
  - destruct vc as [v|]; cbn [well_formed_to_comment to_comment].
    + split.
      * intros (bs & w1 & last & w2 & -> & Hob & Hc & Hn & Hnc). inversion Hob as [|b x bs0 x' Hx Hob' E1 E2]. subst. exists false, x, (x' ++ w2). rewrite <- app_assoc. split; [reflexivity|].
        split; [assumption|]. exists bs, x', last, w2. auto.
      * intros (last & w1 & w2 & -> & Hc & HH). destruct last; [destruct HH; discriminate|]. destruct HH as (bs & x1 & last & x2 & -> & Hob & Hcb & Hn & Hnc).
        exists bs, (w1 ++ x1), last, x2. rewrite <- app_assoc. split; [reflexivity|]. split; [constructor; assumption|]. auto.
    + rewrite HW. split; intros (last & w1 & w2 & Ew & Hc & HH); exists last, w1, w2; (split; [exact Ew|]); (split; [exact Hc|]); destruct last; auto.
      * destruct HH as (bs & Hbs & Hn & Ho). exists bs. split; [exact Hbs|]. split; [exact Hn|]. inversion Ho; assumption.
      * destruct HH as (bs & Hbs & Hn & Ho). exists bs. split; [exact Hbs|]. split; [exact Hn|]. constructor; assumption.
  - unfold well_formed_to_second, one_block. split.
    + intros (-> & last & w1 & w2 & -> & Hc & HH). exists last, w1, w2. split; [reflexivity|]. split; [exact Hc|]. destruct last; auto.
    + intros (last & w1 & w2 & -> & Hc & HH). destruct last.
      * destruct HH as [-> ->]. split; [reflexivity|]. exists true, w1, []. auto.
      * destruct HH as [-> HH]. split; [reflexivity|]. exists false, w1, w2. auto.
  - apply HW.
  - split.
    + intros (-> & v & H). apply HW in H as (last & w1 & w2 & Ew & Hc & HH). exists last, w1, w2. split; [exact Ew|]. split; [exact Hc|]. destruct last; [tauto|].
      destruct HH as (bs & H). split; [reflexivity|]. eauto.
    + intros (last & w1 & w2 & Ew & Hc & HH). destruct last.
      * destruct HH as [-> ->]. split; [reflexivity|]. exists None. apply HW. exists true, w1, []. auto.
      * destruct HH as (-> & bs & v & H). split; [reflexivity|]. exists v. apply HW. exists false, w1, w2. split; [exact Ew|]. split; [exact Hc|]. eauto.
Qed.
Lemma after_unique opts vc w vc' w' r r' : after opts vc w -> after opts vc' w' -> bytes_ok (w ++ r) -> w ++ r = w' ++ r' -> vc = vc' /\ w = w'.
Proof.
  unfold after. destruct (metadata_only opts), (opt_read_vorbis_comment opts).
  - intros H H' Hb E. eapply to_comment_unique; eauto.
  - intros (-> & last & b & Hc & _) (-> & last' & b' & Hc' & _) Hb E. destruct (block_unique _ _ _ _ _ _ _ _ Hb Hc Hc' E) as (_ & _ & <- & _). auto.
  - intros (bs & Hbs & _ & Ho) (bs' & Hbs' & _ & Ho') Hb E. destruct (blocks_unique _ _ Hbs _ _ _ _ Hbs' Hb E) as [<- <-].
    split; [eapply only_unique; eauto|reflexivity].
  - intros (-> & bs & v & Hbs & _) (-> & bs' & v' & Hbs' & _) Hb E. destruct (blocks_unique _ _ Hbs _ _ _ _ Hbs' Hb E) as [<- <-]. auto.
Qed.
Lemma sig_inj a b : signature ++ a = signature ++ b -> a = b.
Proof. apply app_inv_head. Qed.
Lemma opens_unique opts si vc w si' vc' w' r r' : opens opts si vc w -> opens opts si' vc' w' -> bytes_ok (w ++ r) -> w ++ r = w' ++ r' ->
  si = si' /\ vc = vc' /\ w = w' /\ r = r'.
Proof.
  intros H H' Hb E. apply opens_inv in H as (last & w1 & w2 & -> & Hc & HH). apply opens_inv in H' as (last' & x1 & x2 & -> & Hc' & HH').
  rewrite <- !app_assoc in *. apply sig_inj in E. apply app_bytes in Hb as [_ Hb].
  destruct (block_unique _ _ _ _ _ _ _ _ Hb Hc Hc' E) as (<- & Es & <- & E2). injection Es as <-. apply app_bytes in Hb as [_ Hb].
  assert (vc = vc' /\ w2 = x2) as [<- <-].
  { destruct last; [destruct HH as [-> ->]; destruct HH' as [-> ->]; auto|]. eapply after_unique; eauto. }
  apply app_inv_head in E2. auto.
Qed.

Section Stream.
  Context {S : Type} (rb : ReadBytes S) (t : tail) (D : S -> list Z -> Prop) (HS : stream rb t D).
  Context (m : build) (un : nat -> list Z) (Hun : forall n, length (un n) = n).
  Notation Hbytes := (st_bytes rb t D HS).

  Lemma after_loop fuel opts st l : D st l -> (length l < fuel)%nat ->
    match metadata_loop rb m un fuel opts None (mkMr st false) with
    | (Ok o, s') => exists w rest, after opts (if opt_read_vorbis_comment opts then o else None) w /\ l = w ++ rest /\ D (mr_input s') rest
    | (Err _, _) => forall o w rest, l = w ++ rest -> ~ after opts o w
    | _ => False
    end.
  Proof.
    intros HD Hf. unfold after. destruct opts as [[] []]; cbn [metadata_only opt_read_vorbis_comment].
    - exact (loop_to_comment rb t D HS m un Hun fuel st l HD Hf).
    - pose proof (loop_one rb t D HS m un Hun fuel st l HD Hf) as H.
      destruct (metadata_loop _ _ _ _ _ _ _) as [[o|e| | |] s']; auto.
      + destruct H as (w & rest & H1 & H2 & H3). eauto 10.
      + intros o w rest El [_ Ho]. exact (H w rest El Ho).
    - pose proof (loop_all rb t D HS m un Hun fuel (mkOpts false true) None st l eq_refl HD Hf) as H.
      destruct (metadata_loop _ _ _ _ _ _ _) as [[o|e| | |] s']; auto.
      + destruct H as (bs & w & rest & H1 & H2 & H3 & H4 & H5). eauto 10.
      + intros o w rest El (bs & H1 & H2 & H3). exact (H bs w rest o El H1 H2 H3).
    - pose proof (loop_all rb t D HS m un Hun fuel (mkOpts false false) None st l eq_refl HD Hf) as H.
      destruct (metadata_loop _ _ _ _ _ _ _) as [[o|e| | |] s']; auto.
      + destruct H as (bs & w & rest & H1 & H2 & H3 & H4 & H5). exists w, rest. split; [|auto]. split; [reflexivity|]. exists bs, o. auto.
      + intros o w rest El (_ & bs & v & H1 & H2 & H3). exact (H bs w rest v El H1 H2 H3).
  Qed.

  Theorem new_ext_result fuel opts st l : D st l -> (length l < fuel)%nat ->
    match new_ext rb m un fuel opts st with
    | (Ok r, _) => exists w rest inp, l = w ++ rest /\ opens opts (fr_get_streaminfo r) (fr_vorbis_comment r) w /\ D inp rest
        /\ fr_input r = (if metadata_only opts then MetadataOnly inp else Full inp)
    | (Err _, _) => forall si vc w rest, l = w ++ rest -> ~ opens opts si vc w
    | _ => False
    end.
  Proof.
    intros HD Hf. pose proof (Hbytes _ _ HD) as Hb. unfold new_ext. unfold bind at 1.
    destruct (signature_result rb t D HS st l HD) as [(l1 & st1 & -> & -> & HD1)|(e & st1 & -> & Hn)].
    2:{ intros si vc w rest -> Ho. apply opens_inv in Ho as (last & w1 & w2 & -> & _). apply (Hn ((w1 ++ w2) ++ rest)). symmetry; apply app_assoc. }
    apply app_bytes in Hb as [_ Hb]. rewrite app_length in Hf.
    unfold bind at 1. unfold with_mreader. change (mr_new st1) with (mkMr st1 false). unfold read_metadata. unfold bind at 1.
    destruct (next_result rb t D HS m un Hun st1 l1 HD1) as [(last & b & w & rest & st2 & Hc & -> & HD2 & E)|(e & st2 & Hn & E)]; rewrite E.
    2:{ cbn. intros si vc w rest El Ho. apply opens_inv in Ho as (last & w1 & w2 & -> & Hc & _). rewrite <- !app_assoc in El. apply sig_inj in El.
        exact (Hn _ _ _ _ El Hc). }
    rewrite bind_lift_ok. cbn [of_result]. rewrite bind_lift_ok.
    destruct (match b with MbStreamInfo _ => true | _ => false end) eqn:Eb.
    2:{ destruct b; try discriminate Eb; cbn; intros si1 vc1 w0 rest0 El Ho; apply opens_inv in Ho as (last' & w1 & w2 & -> & Hc' & _); rewrite <- !app_assoc in El; apply sig_inj in El;
        destruct (block_unique _ _ _ _ _ _ _ _ Hb Hc Hc' El) as (_ & E3 & _); discriminate. }
    destruct b as [si| | | |]; try discriminate Eb. clear Eb. unfold bind at 1, ret at 1.
    assert (forall si' vc w0 rest0, signature ++ w ++ rest = w0 ++ rest0 -> opens opts si' vc w0 -> si' = si /\ exists w2, w0 = signature ++ w ++ w2 /\ rest = w2 ++ rest0
      /\ if last then vc = None /\ w2 = [] else after opts vc w2) as Hinv.
    { intros si' vc w0 rest0 El Ho. apply opens_inv in Ho as (last' & w1 & w2 & -> & Hc' & HH). rewrite <- !app_assoc in El. apply sig_inj in El.
      destruct (block_unique _ _ _ _ _ _ _ _ Hb Hc Hc' El) as (<- & E3 & <- & E4). injection E3 as <-. split; [reflexivity|]. eauto. }
    rewrite app_length in Hf. pose proof (block_code_len _ _ _ Hc) as Hlen.
    unfold bind at 1. destruct last.
    - destruct fuel as [|fuel]; [lia|]. rewrite loop_done. cbn [ret mr_input]. unfold bind, get, ret. cbn [fr_get_streaminfo fr_streaminfo fr_vorbis_comment fr_input mr_input].
      exists (signature ++ w), rest, st2. split; [apply app_assoc|]. split; [|auto]. apply opens_inv. exists true, w, []. rewrite app_nil_r. split; [reflexivity|].
      split; [exact Hc|]. split; [|reflexivity]. destruct (negb (opt_read_vorbis_comment opts)); reflexivity.
    - pose proof (after_loop fuel opts st2 rest HD2 ltac:(lia)) as H.
      destruct (metadata_loop rb m un fuel opts None (mkMr st2 false)) as [[o|e| | |] s']; auto.
      + destruct H as (w2 & rest2 & Ha & -> & HD3). unfold bind, get, ret. cbn [fr_get_streaminfo fr_streaminfo fr_vorbis_comment fr_input mr_input].
        exists (signature ++ w ++ w2), rest2, (mr_input s'). split; [rewrite <- !app_assoc; reflexivity|]. split; [|auto]. apply opens_inv. exists false, w, w2.
        split; [reflexivity|]. split; [exact Hc|]. destruct (opt_read_vorbis_comment opts); exact Ha.
      + intros si' vc w0 rest0 El Ho. destruct (Hinv _ _ _ _ El Ho) as (_ & w2 & _ & Er & HH). exact (H vc w2 rest0 Er HH).
  Qed.

  Theorem new_ext_accepts fuel opts st si vc w rest : opens opts si vc w -> D st (w ++ rest) -> (length (w ++ rest) < fuel)%nat ->
    exists r inp, fst (new_ext rb m un fuel opts st) = Ok r /\ fr_get_streaminfo r = si /\ fr_vorbis_comment r = vc /\ D inp rest
      /\ fr_input r = (if metadata_only opts then MetadataOnly inp else Full inp).
  Proof.
    intros Ho HD Hf. pose proof (new_ext_result fuel opts st _ HD Hf) as H.
    destruct (new_ext rb m un fuel opts st) as [[r|e| | |] s']; try contradiction.
    - destruct H as (w' & rest' & inp & E & Ho' & HD' & Hi).
      destruct (opens_unique _ _ _ _ _ _ _ _ _ Ho Ho' (Hbytes _ _ HD) E) as (E1 & E2 & _ & E3). subst rest'. exists r, inp. auto 10.
    - exfalso. exact (H si vc w rest eq_refl Ho).
  Qed.
End Stream.
