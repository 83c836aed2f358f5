(** The [main] functions of the remaining examples: C93, C94. *)
From Verif Require Export SpecMains2 ProofMains ProofAnyContainers ProofBench.
From Verif Require Import SpecReader.

(** * Containers *)
Section Containers.
  Context (m : build) (un : nat -> list Z) (Hun : forall n, length (un n) = n) (fuel : nat) (H1 : (1 < fuel)%nat)
    (wav_path : list Z -> list Z).

  Definition file_ends (ok : bool) (r : outcome unit) : Prop := if ok then r = Ok tt else exists why, r = Panic why.

  Lemma ogg_once files path ok f : ogg_within fuel files path -> ogg_result m files path ok f ->
    exists r, ogg_file m un fuel files path None = (r, f) /\ file_ends ok r.
  Proof.
    intros Hin H. unfold ogg_file. destruct H as [k E|packets broken E Hn|si front parts good E Hfr HP|si front parts good bad broken E Hfr HP Hbad]; rewrite E.
    - eexists. split; [reflexivity|]. eexists. reflexivity.
    - destruct (ogg_no_front m un Hun fuel packets (Hin _ _ E) Hn) as (why & Er). unfold bind. rewrite Er. eexists. split; [reflexivity|]. eexists. reflexivity.
    - destruct (ogg_any m un Hun fuel si front parts good []) as (r & Er & Hr); rewrite ?app_nil_r in *; auto; [exact (Hin _ _ E)|discriminate|].
      unfold bind. rewrite Er. cbn in Hr. subst r. eexists. split; reflexivity.
    - destruct (ogg_any m un Hun fuel si front parts good bad) as (r & Er & Hr); auto; [exact (Hin _ _ E)|intros p bad' ->; exact Hbad|].
      unfold bind. rewrite Er. destruct bad as [|p bad]; cbn in Hr.
      + subst r broken. eexists. split; [reflexivity|]. eexists. reflexivity.
      + destruct Hr as [why ->]. eexists. split; [reflexivity|]. eexists. reflexivity.
  Qed.
  Lemma ogg_some files path : ogg_within fuel files path -> exists ok f, ogg_result m files path ok f.
  Proof.
    intros Hin. destruct (files path) as [k|[packets broken]] eqn:E; [eexists _, _; exact (ogg_no_file m files path k E)|].
    destruct (ogg_each m fuel packets (Hin _ _ E) H1) as [(si & front & parts & good & bad & -> & Hfr & HP & Hbad)|Hn].
    - destruct bad as [|p bad]; [destruct broken|].
      + eexists _, _. exact (ogg_broken m files path si front parts good [] true E Hfr HP eq_refl).
      + rewrite app_nil_r in E. eexists _, _. exact (ogg_played m files path si front parts good E Hfr HP).
      + eexists _, _. exact (ogg_broken m files path si front parts good (p :: bad) broken E Hfr HP (Hbad p bad eq_refl)).
    - eexists _, _. exact (ogg_frontless m files path packets broken E Hn).
  Qed.

  Lemma tracks_first t tracks reads f : first_flac t tracks -> mp4_tracks m un fuel tracks reads f = mp4_track m un fuel t reads f.
  Proof.
    intros (before & after & -> & Ht & HF). induction HF as [|x before Hx HF IH]; cbn [app mp4_tracks]; [rewrite Ht; reflexivity|rewrite Hx; exact IH].
  Qed.
  Lemma first_in t tracks : first_flac t tracks -> In t tracks.
  Proof. intros (before & after & -> & _). apply in_app_iff. right. left. reflexivity. Qed.
  Lemma first_or_none tracks : Forall (fun t => t_flac t = false) tracks \/ exists t, first_flac t tracks.
  Proof.
    induction tracks as [|t tracks IH]; [left; constructor|]. destruct (t_flac t) eqn:E; [right; exists t, [], tracks; auto|].
    destruct IH as [HF|(x & before & after & -> & Hx & HF)]; [left; constructor; auto|right; exists x, (t :: before), after; auto].
  Qed.
  Lemma track_no_info t reads : (forall blocks, t_blocks t = Some (Some blocks) -> Forall raw_block_ok blocks) ->
    (forall si, ~ track_streaminfo t si) -> exists why, mp4_track m un fuel t reads None = (Panic why, None).
  Proof.
    intros HB Hn. unfold mp4_track, bind, lift. destruct (t_blocks t) as [ob|] eqn:Eb; [|cbn; eauto]. cbn [expect_some].
    set (blocks := match ob with Some blocks => blocks | None => [] end).
    assert (Forall raw_block_ok blocks) as HF by (destruct ob as [b|]; [exact (HB b eq_refl)|constructor]).
    assert (forall si, ~ track_info si blocks) as Hi.
    { intros si HT. destruct ob as [b|]; [exact (Hn si (ex_intro _ b (conj Eb HT)))|inversion HT]. }
    assert (get_streaminfo m un blocks = Ok None \/ exists why, get_streaminfo m un blocks = Panic why) as Hc.
    { destruct (info_cases m un Hun fuel blocks HF) as [(si & HT & _)|H]; [destruct (Hi si HT)|exact H]. }
    destruct (t_offsets t) as [offsets|]; [destruct (t_table t) as [table|]|].
    - exact (mp4_no_info m un Hun fuel blocks reads offsets table HF Hi).
    - destruct Hc as [Ei|[why Ei]]; rewrite Ei; cbn; eauto.
    - destruct Hc as [Ei|[why Ei]]; rewrite Ei; cbn; eauto.
  Qed.
  Lemma mp4_once files path ok f : mp4_within fuel files path -> mp4_result m files path ok f ->
    exists r, mp4_file m un fuel files path None = (r, f) /\ file_ends ok r.
  Proof.
    intros Hin H. unfold mp4_file.
    destruct H as [k E|E|tracks reads E HF|tracks reads t E Ht Hn|tracks reads t si E Ht (blocks & Eb & HT) Hc|tracks reads t si offsets table frames complete E Ht (blocks & Eb & HT) Eo Et HC];
      rewrite E; rewrite ?(tracks_first t tracks reads None Ht).
    - eexists. split; [reflexivity|]. eexists. reflexivity.
    - eexists. split; [reflexivity|]. eexists. reflexivity.
    - exists (Ok tt). split; [|reflexivity]. clear E Hin. induction HF as [|x tracks Hx HF IH]; cbn [mp4_tracks]; [reflexivity|rewrite Hx; exact IH].
    - destruct (Hin tracks reads t E (first_in t tracks Ht)) as (HB & _).
      destruct (track_no_info t reads HB Hn) as (why & Er). eexists. split; [exact Er|]. eexists. reflexivity.
    - destruct (Hin tracks reads t E (first_in t tracks Ht)) as (HB & _). specialize (HB blocks Eb).
      unfold mp4_track, bind, lift. rewrite Eb. cbn [expect_some].
      destruct (t_offsets t) as [offsets|]; [destruct (t_table t) as [table|]; [destruct Hc; discriminate|]|];
        rewrite (info_read m un Hun fuel si blocks HB HT); cbn [expect_some wav_create put];
        rewrite (audio_spec si (track_fits _ _ HT)); (eexists; split; [reflexivity|]; eexists; reflexivity).
    - destruct (Hin tracks reads t E (first_in t tracks Ht)) as (HB & Ha & Hd). specialize (HB blocks Eb). destruct (Hd offsets Eo) as [Hl Hd'].
      unfold mp4_track, bind at 1, lift. rewrite Eb, Eo, Et. cbn [expect_some].
      destruct (mp4_any m un Hun fuel blocks reads offsets table si frames complete HB HT (Ha table Et) Hl H1) as (r & Er & Hr); [|exact HC|eauto].
      intros offset t' l Hi Hd2. exact (proj2 (Hd' offset Hi) t' l Hd2).
  Qed.
  Lemma mp4_some files path : mp4_within fuel files path -> exists ok f, mp4_result m files path ok f.
  Proof.
    intros Hin. destruct (files path) as [k|[[tracks reads]|]] eqn:E; [eexists _, _; exact (mp4_no_file m files path k E)| |eexists _, _; exact (mp4_no_mp4 m files path E)].
    destruct (first_or_none tracks) as [HF|(t & Ht)]; [eexists _, _; exact (mp4_no_flac m files path tracks reads E HF)|].
    destruct (Hin tracks reads t E (first_in t tracks Ht)) as (HB & Ha & Hd).
    assert ((exists si, track_streaminfo t si) \/ forall si, ~ track_streaminfo t si) as [(si & HT)|Hn].
    { destruct (t_blocks t) as [[blocks|]|] eqn:Eb; [|right; intros si (b & Eb' & _); congruence..].
      destruct (info_cases m un Hun fuel blocks (HB blocks eq_refl)) as [(si & HT & _)|Hc]; [left; exists si, blocks; auto|right].
      intros si (b & Eb' & HT). rewrite Eb in Eb'. injection Eb' as <-.
      rewrite (info_read m un Hun fuel si blocks (HB blocks eq_refl) HT) in Hc. destruct Hc as [Hc|[why Hc]]; discriminate. }
    - destruct (t_offsets t) as [offsets|] eqn:Eo; [destruct (t_table t) as [table|] eqn:Et|].
      + destruct (Hd offsets eq_refl) as [_ Hd']. destruct (mp4_each m reads table offsets (fun o Ho => proj1 (Hd' o Ho)) 1) as (frames & complete & HC).
        eexists _, _. exact (mp4_played m files path tracks reads t si offsets table frames complete E Ht HT Eo Et HC).
      + eexists _, _. exact (mp4_no_chunks m files path tracks reads t si E Ht HT (or_intror Et)).
      + eexists _, _. exact (mp4_no_chunks m files path tracks reads t si E Ht HT (or_introl Eo)).
    - eexists _, _. exact (mp4_no_streaminfo m files path tracks reads t E Ht Hn).
  Qed.

  Lemma quiet_turn (c : list Z -> M wav unit) path ok f : (exists r, c path None = (r, f) /\ file_ends ok r) ->
    turn wav_path (run_file wav_path c) path [] f ok.
  Proof.
    intros (r & E & Hr) w Hw Hne. destruct (run_file_spec wav_path c path w r f Hw Hne E) as (R1 & R2 & R3).
    rewrite R1, R2, app_nil_r. split; [exact Hr|]. split; [reflexivity|exact R3].
  Qed.
  Lemma quiet_texts {A} (l : list A) : concat (map (fun _ => @nil Z) l) = [].
  Proof. induction l; auto. Qed.
  Lemma quiet_turns (c : list Z -> M wav unit) args results : Forall2 (fun path f => exists r, c path None = (r, f) /\ file_ends true r) args results ->
    Forall2 (fun path r => turn wav_path (run_file wav_path c) path (fst r) (snd r) true) args (combine (map (fun _ => @nil Z) results) results).
  Proof. induction 1 as [|path f args results H HF IH]; cbn [map combine]; constructor; auto. cbn [fst snd]. apply quiet_turn, H. Qed.
  Lemma quiet_all (c : list Z -> M wav unit) args results : apart wav_path args ->
    Forall2 (fun path f => exists r, c path None = (r, f) /\ file_ends true r) args results ->
    ran wav_path (for_each (run_file wav_path c) args started) true [] (combine args results).
  Proof.
    intros Hap HF. rewrite <- (quiet_texts results). apply loop_ok; [exact (quiet_turns c args results HF)|apply map_length|exact Hap].
  Qed.
  Lemma quiet_up_to (c : list Z -> M wav unit) args results path f rest : apart wav_path (args ++ path :: rest) ->
    Forall2 (fun path f => exists r, c path None = (r, f) /\ file_ends true r) args results ->
    (exists r, c path None = (r, f) /\ file_ends false r) ->
    ran wav_path (for_each (run_file wav_path c) (args ++ path :: rest) started) false [] (combine args results ++ [(path, f)]).
  Proof.
    intros Hap HF Hp. rewrite <- (app_nil_r []), <- (quiet_texts results) at 1.
    apply loop_panics; [exact (quiet_turns c args results HF)|apply map_length|apply quiet_turn, Hp|exact Hap].
  Qed.
  Lemma all_once (within_ : list Z -> Prop) (result : list Z -> wav -> Prop) c args results :
    (forall path f, within_ path -> result path f -> exists r, c path (None : wav) = (r, f) /\ file_ends true r) ->
    Forall within_ args -> Forall2 result args results ->
    Forall2 (fun path f => exists r, c path None = (r, f) /\ file_ends true r) args results.
  Proof. intros H HW HF. induction HF; inversion HW; subst; constructor; auto. Qed.

  Theorem ogg_all files args results : Forall (ogg_within fuel files) args -> apart wav_path args ->
    Forall2 (fun path f => ogg_result m files path true f) args results ->
    ran wav_path (ogg_main m un fuel wav_path files args started) true [] (combine args results).
  Proof.
    intros HW Hap HF. apply quiet_all; [exact Hap|].
    eapply all_once; [|exact HW|exact HF]. intros path f. exact (ogg_once files path true f).
  Qed.
  Theorem ogg_up_to files args results path f rest : Forall (ogg_within fuel files) (args ++ path :: rest) -> apart wav_path (args ++ path :: rest) ->
    Forall2 (fun path f => ogg_result m files path true f) args results -> ogg_result m files path false f ->
    ran wav_path (ogg_main m un fuel wav_path files (args ++ path :: rest) started) false [] (combine args results ++ [(path, f)]).
  Proof.
    intros HW Hap HF Hp. apply Forall_app in HW as [HW HW']. apply quiet_up_to; [exact Hap| |].
    - eapply all_once; [|exact HW|exact HF]. intros path' f'. exact (ogg_once files path' true f').
    - exact (ogg_once files path false f (Forall_inv HW') Hp).
  Qed.
  Theorem mp4_all files args results : Forall (mp4_within fuel files) args -> apart wav_path args ->
    Forall2 (fun path f => mp4_result m files path true f) args results ->
    ran wav_path (mp4_main m un fuel wav_path files args started) true [] (combine args results).
  Proof.
    intros HW Hap HF. apply quiet_all; [exact Hap|].
    eapply all_once; [|exact HW|exact HF]. intros path f. exact (mp4_once files path true f).
  Qed.
  Theorem mp4_up_to files args results path f rest : Forall (mp4_within fuel files) (args ++ path :: rest) -> apart wav_path (args ++ path :: rest) ->
    Forall2 (fun path f => mp4_result m files path true f) args results -> mp4_result m files path false f ->
    ran wav_path (mp4_main m un fuel wav_path files (args ++ path :: rest) started) false [] (combine args results ++ [(path, f)]).
  Proof.
    intros HW Hap HF Hp. apply Forall_app in HW as [HW HW']. apply quiet_up_to; [exact Hap| |].
    - eapply all_once; [|exact HW|exact HF]. intros path' f'. exact (mp4_once files path' true f').
    - exact (mp4_once files path false f (Forall_inv HW') Hp).
  Qed.
End Containers.

(** * Measuring *)
Section Measuring.
  Context (m : build) (un : nat -> list Z) (Hun : forall n, length (un n) = n) (fuel turns : nat) (fs : file_system).

  Lemma read_all t script l : delivers t script l ->
    read_to_end script = match t with TEof => Ok l | TErr k => Err (IoError k) end.
  Proof.
    induction 1 as [->|k r ->|c r l Hc Hd IH]; cbn [read_to_end]; [reflexivity..|]. rewrite IH.
    destruct Hc as [_ Hc]. destruct c as [|x c]; [cbn in Hc; lia|]. destruct t; reflexivity.
  Qed.

  Theorem decode_main_ok path others t data si n w frames clock : file_at fs path t data -> (length data + 1 < fuel)%nat ->
    len data < Z.of_nat turns -> len data < 2 ^ 56 -> (forall run, clock_ok (clock run)) -> measurable t data si n w frames ->
    exists rs, bench_decode_main m un fuel turns fs clock (path :: others) = Ok rs /\ length rs = 5%nat
      /\ forall run st p, nth_error rs run = Some (st, p) ->
           st_data_bytes st = Z.max 0 (len data - 2048 * ((len w + 2047) / 2048))
           /\ st_num_samples st = n * si_channels si
           /\ st_total_ns st = clock run (S (length frames)) - clock run O
           /\ st_sample_times st = measured (clock run) O frames
           /\ are_percentiles (measured (clock run) O frames) p.
  Proof.
    intros Hat Hf Ht Hl Hc (-> & (vc & rest & El & Hw & Hp) & Hn & Hne). pose proof (file_delivers _ _ _ _ Hat) as Hb.
    destruct Hat as (script & Efs & Hd). unfold bench_decode_main. cbn [nth_error expect_some obind]. unfold read_file.
    rewrite Efs, (read_all TEof script data Hd). cbn [expect obind].
    pose proof Hp as (ws & x & Er & HF & _).
    assert (length frames < turns)%nat as Hlf.
    { pose proof (frames_short un Hun fuel _ _ HF) as HLs. unfold len in *. subst data rest. rewrite !app_length in Ht. lia. }
    pose proof (runs_ok m un Hun fuel turns data w rest si vc frames n Hb Hf Hlf El Hw Hp Hl Hn (map clock (seq 0 5))) as H.
    destruct frames as [|f0 frames0] eqn:Ef; [congruence|]. rewrite <- Ef in *. clear f0 frames0 Ef.
    destruct H as (rs & E & HR). { apply Forall_map, Forall_forall. intros; apply Hc. }
    exists rs. split; [exact E|]. split; [rewrite <- (Forall2_len _ _ _ HR); reflexivity|].
    intros run st p En. assert (run < 5)%nat as Hr.
    { apply Forall2_len in HR. change (length (map clock (seq 0 5))) with 5%nat in HR. rewrite HR. apply nth_error_Some. congruence. }
    assert (exists c, nth_error (map clock (seq 0 5)) run = Some c /\ c = clock run) as (c & Ec & ->).
    { do 5 (destruct run as [|run]; [eexists; split; reflexivity|]). lia. }
    assert (forall A B (P : A -> B -> Prop) l l' i a b, Forall2 P l l' -> nth_error l i = Some a -> nth_error l' i = Some b -> P a b) as F2.
    { clear. intros A B P l l' i a b H. revert i. induction H; intros [|i] Ha Hb; try discriminate; cbn in *; [congruence|eauto]. }
    destruct (F2 _ _ _ _ _ _ _ _ HR Ec En) as [E1 E2]. cbn [fst snd] in *.
    pose proof (decode_file_runs m un Hun fuel turns (clock run) data w rest si vc frames None Hb Hf Hlf El Hw Hp (or_introl eq_refl) ltac:(lia) (Hc run)) as HD.
    rewrite Hn in HD. destruct HD as (st' & Es & D1 & D2 & D3 & D4). rewrite E1 in Es. injection Es as <-.
    split; [exact D1|]. split; [exact D2|]. split; [exact D3|]. split; [exact D4|].
    assert (Forall ProofBench.positive (measured (clock run) 0 frames)) as HP by (exact (proj1 (measured_positive un Hun frames ws (clock run) HF 0%nat))).
    pose proof (percentiles_ok m _ HP) as Hper.
    assert (len (measured (clock run) 0 frames) = len frames) as Hlm.
    { unfold len. f_equal. exact (proj2 (measured_positive un Hun frames ws (clock run) HF 0%nat)). }
    rewrite Hlm in Hper. assert (len frames < 2 ^ 56) as Hf56.
    { pose proof (frames_short un Hun fuel _ _ HF) as HLs. unfold len in *. subst data rest. rewrite !app_length in Hl. lia. }
    specialize (Hper Hf56). destruct (measured (clock run) 0 frames) as [|q qs] eqn:Em.
    { destruct frames; [congruence|discriminate Em]. }
    destruct Hper as (p10 & p50 & p90 & Ep & H10 & H50 & H90). rewrite E2 in Ep. injection Ep as ->.
    unfold are_percentiles. rewrite Hlm. auto.
  Qed.
  Theorem decode_main_panics path others t data clock : file_at fs path t data -> (length data + 1 < fuel)%nat ->
    len data < Z.of_nat turns -> len data < 2 ^ 56 -> (forall run, clock_ok (clock run)) -> no_zero_bytes (2 ^ 29 - 1) data ->
    (forall si n w frames, ~ measurable t data si n w frames) ->
    exists why, bench_decode_main m un fuel turns fs clock (path :: others) = Panic why.
  Proof.
    intros Hat Hf Ht Hl Hc Hz Hn. pose proof (file_delivers _ _ _ _ Hat) as Hb.
    destruct (path_fails m un Hun fuel fs path t data Hat ltac:(lia)) as [(si & vc & w & rest & El & Hw)|(e & E & Hu)];
    destruct Hat as (script & Efs & Hd); unfold bench_decode_main; cbn [nth_error expect_some obind]; unfold read_file;
      rewrite Efs, (read_all t script data Hd); (destruct t as [|k]; [|cbn; eauto]); cbn [expect obind].
    - assert (no_zero_bytes (2 ^ 29 - 1) rest) as Hzr by (rewrite El in Hz; eapply no_zero_bytes_suffix, Hz).
      assert (bytes_ok rest) as Hbr by (rewrite El in Hb; apply app_bytes in Hb; apply Hb).
      destruct (plays_exist TEof rest Hbr Hzr) as (frames & o & Hp).
      assert (length frames < turns)%nat as Hlf.
      { destruct Hp as (ws & x & Er & HF & _). pose proof (frames_short un Hun fuel _ _ HF) as HLs. unfold len in *. subst data rest. rewrite !app_length in Ht. lia. }
      pose proof (decode_file_runs m un Hun fuel turns (clock 0%nat) data w rest si vc frames o Hb Hf Hlf El Hw Hp (or_intror Hz) ltac:(lia) (Hc 0%nat)) as HD.
      destruct o as [e|].
      { destruct HD as [why E]. cbn [map seq bench_runs]. rewrite E. cbn. eauto. }
      destruct (si_samples si) as [n|] eqn:En.
      2:{ destruct HD as [why E]. cbn [map seq bench_runs]. rewrite E. cbn. eauto. }
      pose proof (runs_ok m un Hun fuel turns data w rest si vc frames n Hb Hf Hlf El Hw Hp Hl En (map clock (seq 0 5))) as H.
      destruct frames as [|f frames].
      + apply H; [apply Forall_map, Forall_forall; intros; apply Hc|discriminate].
      + exfalso. apply (Hn si n w (f :: frames)). split; [reflexivity|]. split; [exists vc, rest; auto|]. split; [exact En|discriminate].
    - destruct (decode_file_unopened m un Hun fuel turns (clock 0%nat) data Hb ltac:(lia)) as [why Ew].
      + intros si vc w rest -> Hw. exact (unopened_or_formed TEof e si vc w rest Hb Hu Hw).
      + cbn [map seq bench_runs]. rewrite Ew. cbn. eauto.
  Qed.
  Theorem decode_main_missing clock args : (args = [] \/ exists path others k, args = path :: others /\ fs path = inl k) ->
    exists why, bench_decode_main m un fuel turns fs clock args = Panic why.
  Proof.
    intros [->|(path & others & k & -> & E)]; [cbn; eauto|]. unfold bench_decode_main. cbn [nth_error expect_some obind]. unfold read_file. rewrite E. cbn. eauto.
  Qed.

End Measuring.

Section MeasuringMetadata.
  Context (m : build) (un : nat -> list Z) (Hun : forall n, length (un n) = n) (fuel : nat) (fs : file_system).
  Lemma comments_exist path t w rest si vc : file_at fs path t (w ++ rest) -> (length (w ++ rest) < fuel)%nat -> well_formed si vc w ->
    exists cs, has_comments vc cs.
  Proof.
    intros Hat Hf Hw.
    destruct (tags_unopened m un Hun fuel (S (length (w ++ rest))) fs path t (w ++ rest) Hat Hf ltac:(unfold len; lia)) as [(si' & vc' & w' & rest' & cs & E & Hw' & Hvc & _)|(why & e & _ & Hu)].
      - destruct (path_opens m un Hun fuel fs path t w rest si vc Hat Hf Hw) as (r & inp & E1 & _ & Ev & _).
        rewrite E in Hat, Hf. destruct (path_opens m un Hun fuel fs path t w' rest' si' vc' Hat Hf Hw') as (r' & inp' & E1' & _ & Ev' & _).
        rewrite E1 in E1'. injection E1' as <-. exists cs. unfold has_comments. rewrite <- Ev, Ev'. exact Hvc.
      - destruct (unopened_or_formed t e si vc w rest (file_delivers _ _ _ _ Hat) Hu Hw).
  Qed.
  Lemma names_or_not cs names : Forall (has_name cs) names \/ exists front name back, names = front ++ name :: back /\ Forall (has_name cs) front /\ ~ has_name cs name.
  Proof.
    induction names as [|name names IH]; [left; constructor|].
    assert (has_name cs name \/ ~ has_name cs name) as [Hh|Hh].
    { destruct (values_defined (text name) cs) as (vs & Hv & Hu). destruct vs as [|v vs]; [right|left; exists v, vs; exact Hv].
      intros (v & vs & Hv'). apply Hu in Hv'. discriminate. }
    - destruct IH as [HF|(front & n & back & -> & HF & Hn)]; [left; constructor; auto|right; exists (name :: front), n, back; auto].
    - right. exists [], name, names. auto.
  Qed.
  Lemma untagged_panics path : untagged fs fuel path -> exists why, bench_metadata m un fuel fs path = Panic why.
  Proof.
    intros [(k & E)|(t & l & Hat & Hf & Hn)].
    { unfold bench_metadata. cbn [metadata_opens]. unfold flac_open. rewrite E. cbn. eauto. }
    destruct (path_fails m un Hun fuel fs path t l Hat Hf) as [(si & vc & w & rest & -> & Hw)|(e & E & _)].
    2:{ unfold bench_metadata. cbn [metadata_opens]. rewrite E. cbn. eauto. }
    destruct (comments_exist path t w rest si vc Hat Hf Hw) as (cs & Hvc).
    specialize (Hn w rest si vc cs eq_refl Hw Hvc).
    destruct (names_or_not cs metadata_names) as [HF|(front & name & back & En & HF & Hh)]; [contradiction|].
    exists name. exact (metadata_missing m un Hun fuel fs path t w rest si vc cs front name back Hat Hf Hw Hvc En HF Hh).
  Qed.
  Lemma tagged_or_not path : readable fs path -> (forall t l, file_at fs path t l -> (length l < fuel)%nat /\ len l < 2 ^ 60) ->
    (exists w rest, tagged fs fuel path w rest) \/ untagged fs fuel path.
  Proof.
    intros [Hk|(t & l & Hat)] Hl; [right; left; exact Hk|]. destruct (Hl t l Hat) as [Hf H60].
    destruct (path_fails m un Hun fuel fs path t l Hat Hf) as [(si & vc & w & rest & -> & Hw)|(e & E & Hu)].
    2:{ right. right. exists t, l. split; [exact Hat|]. split; [exact Hf|]. intros w rest si vc cs -> Hw.
        destruct (unopened_or_formed t e si vc w rest (file_delivers _ _ _ _ Hat) Hu Hw). }
    destruct (comments_exist path t w rest si vc Hat Hf Hw) as (cs & Hvc).
    destruct (names_or_not cs metadata_names) as [HF|(front & name & back & En & HF & Hh)].
    { left. exists w, rest, t, si, vc, cs. auto 7. }
    right. right. exists t, (w ++ rest). split; [exact Hat|]. split; [exact Hf|].
    intros w' rest' si' vc' cs' E Hw' Hvc' HF'.
    destruct (path_opens m un Hun fuel fs path t w rest si vc Hat Hf Hw) as (r & inp & E1 & _ & Ev & _).
    rewrite E in Hat, Hf. destruct (path_opens m un Hun fuel fs path t w' rest' si' vc' Hat Hf Hw') as (r' & inp' & E1' & _ & Ev' & _).
    rewrite E1 in E1'. injection E1' as <-. rewrite Ev in Ev'. subst vc'.
    assert (cs' = cs) as ->.
    { unfold has_comments in *. destruct vc as [v|]; [|congruence]. destruct Hvc as (v1 & E2), Hvc' as (v2 & E3). rewrite E2 in E3.
      apply vorbis_inj in E3. symmetry. apply E3. }
    rewrite En in HF'. apply Forall_app in HF' as [_ HF']. exact (Hh (Forall_inv HF')).
  Qed.
  Definition flac_of (entries : list (list Z * bool)) : list (list Z) := map fst (filter snd entries).
  Fixpoint durations_from (clock : nat -> Z) (ticks n : nat) : list Z :=
    match n with O => [] | S n => clock (S ticks) - clock ticks :: durations_from clock (S (S ticks)) n end.
  Lemma durations_are clock n : durations clock n = durations_from clock 0 n.
  Proof.
    unfold durations. enough (forall i, map (fun i => clock (2 * i + 1)%nat - clock (2 * i)%nat) (seq i n) = durations_from clock (2 * i) n) as H by exact (H 0%nat).
    induction n as [|n IH]; intros i; [reflexivity|]. cbn [seq map durations_from]. rewrite IH. f_equal.
    - f_equal; f_equal; lia.
    - f_equal. lia.
  Qed.
  Lemma loop_measures clock : clock_ok clock -> forall entries ps ticks times rates,
    Forall2 (fun path p => bench_metadata m un fuel fs path = Ok (10 * p)) (flac_of entries) ps ->
    measure_loop m un fuel fs clock ticks entries times rates
    = Ok (times ++ map (fun d => (d, 1)) (durations_from clock ticks (length ps)),
          rates ++ combine (map (fun p => 10 * p) ps) (durations_from clock ticks (length ps))).
  Proof.
    intros Hc. induction entries as [|[path [|]] entries IH]; intros ps ticks times rates HF; cbn [flac_of filter snd map fst] in HF; cbn [measure_loop].
    - inversion HF; subst. cbn. rewrite !app_nil_r. reflexivity.
    - inversion HF as [|? p ? ps' Hp HF' E1 E2]; subst. rewrite Hp. cbn [obind]. unfold nanoseconds.
      assert (i64 (clock (S ticks) - clock ticks) = clock (S ticks) - clock ticks) as E.
      { pose proof (Hc ticks (S ticks)). unfold i64. rewrite Z.mod_small by lia. lia. }
      rewrite E, Z.eqb_refl. cbn [obind]. rewrite (IH ps' (S (S ticks)) _ _ HF'). cbn [length durations_from map combine].
      rewrite <- !app_assoc. reflexivity.
    - exact (IH ps ticks times rates HF).
  Qed.
  Lemma loop_breaks clock bad : clock_ok clock -> (exists why, bench_metadata m un fuel fs bad = Panic why) ->
    forall entries ps rest ticks times rates, flac_of entries = map fst ps ++ bad :: rest ->
    Forall (fun p => bench_metadata m un fuel fs (fst p) = Ok (snd p)) ps ->
    exists why, measure_loop m un fuel fs clock ticks entries times rates = Panic why.
  Proof.
    intros Hc [why Hbad]. induction entries as [|[path [|]] entries IH]; intros ps rest ticks times rates Ee HF; cbn [flac_of filter snd map fst] in Ee; cbn [measure_loop].
    - destruct ps; discriminate.
    - destruct ps as [|[p0 b] ps]; injection Ee as -> Ee; [rewrite Hbad; cbn; eauto|].
      apply Forall_cons_iff in HF as [Hb HF]. cbn [fst snd] in Hb. rewrite Hb. cbn [obind]. unfold nanoseconds.
      assert (i64 (clock (S ticks) - clock ticks) = clock (S ticks) - clock ticks) as E.
      { pose proof (Hc ticks (S ticks)). unfold i64. rewrite Z.mod_small by lia. lia. }
      rewrite E, Z.eqb_refl. cbn [obind]. eauto.
    - eauto.
  Qed.
  Lemma percentile_rank times k r : Forall ProofBench.positive times -> sort_times times = Ok r -> 0 < len times < 2 ^ 56 -> 0 <= k < 100 ->
    exists x, percentile m k r = Ok x /\ has_rank (k * len times / 100) times x.
  Proof.
    intros HP Er Hl Hk. destruct (times_sorted times HP) as (r' & Er' & HPr & HSr). rewrite Er in Er'. injection Er' as <-.
    assert (len r = len times) as Hlr by (unfold len; rewrite (Permutation.Permutation_length HPr); reflexivity).
    unfold percentile. rewrite Hlr, chk_u64 by nia. cbn [obind]. apply index_rank; auto.
    split; [apply Z.div_pos; nia|apply Z.div_lt_upper_bound; nia].
  Qed.
  Lemma durations_length clock n : length (durations clock n) = n.
  Proof. unfold durations. rewrite map_length, seq_length. reflexivity. Qed.
  Theorem metadata_main_ok walk metadata clock : clock_ok clock -> forward clock -> flac_files walk <> [] ->
    Forall2 (fun path x => tagged fs fuel path (fst x) (snd x)) (flac_files walk) metadata ->
    exists ps p10 p50 p90 p10_rate, bench_metadata_main m un fuel fs clock walk = Ok (p10, p50, p90, p10_rate)
      /\ Forall2 (fun x p => len (fst x) <= p < len (fst x) + 2048 /\ p <= len (fst x ++ snd x)) metadata ps
      /\ let times := durations clock (length ps) in
         are_percentiles (map (fun d => (d, 1)) times) (p10, p50, p90)
         /\ has_rank (10 * len times / 100) (combine (map (fun p => 10 * p) ps) times) p10_rate.
  Proof.
    intros Hc Hfw Hne HF.
    assert (exists ps, Forall2 (fun path p => bench_metadata m un fuel fs path = Ok (10 * p)) (flac_files walk) ps
      /\ Forall2 (fun x p => len (fst x) <= p < len (fst x) + 2048 /\ p <= len (fst x ++ snd x)) metadata ps) as (ps & HB & HM).
    { clear Hne. induction HF as [|path x paths metadata Hx HF (ps & HB & HM)]; [exists []; split; constructor|].
      destruct Hx as (t & si & vc & cs & Hat & Hf & Hw & Hvc & Hl & Hn).
      destruct (metadata_ok m un Hun fuel fs path t (fst x) (snd x) si vc cs Hat Hf Hw Hvc Hl Hn) as (p & E & Hp).
      exists (p :: ps). split; constructor; auto. }
    exists ps. set (times := durations clock (length ps)).
    set (T := map (fun d => (d, 1)) times). set (R := combine (map (fun p => 10 * p) ps) times).
    assert (len ps <= 1024) as Hlp.
    { apply Forall2_len in HB. unfold len. rewrite <- HB. unfold flac_files. rewrite map_length.
      assert (length (filter snd (firstn 1024 walk)) <= length (firstn 1024 walk))%nat as H1.
      { generalize (firstn 1024 walk). intros l. induction l as [|[? b] l IH]; cbn [filter length snd]; [lia|]. destruct b; cbn [length]; lia. }
      pose proof (firstn_le_length 1024 walk). apply inj_le in H1. change 1024 with (Z.of_nat (Z.to_nat 1024)). lia. }
    assert (0 < len ps) as H0.
    { apply Forall2_len in HB. unfold len. destruct (flac_files walk); [congruence|]. destruct ps; [discriminate|]. cbn [length]. lia. }
    assert (len times = len ps) as Hlt by (unfold len, times; rewrite durations_length; reflexivity).
    assert (len T = len ps) as HlT by (unfold T, len; rewrite map_length; exact Hlt).
    assert (len R = len ps) as HlR.
    { unfold R, len. rewrite combine_length, map_length. unfold len in Hlt. lia. }
    assert (Forall (fun d => 0 < d) times) as Hpos.
    { unfold times, durations. apply Forall_map, Forall_forall. intros i _. pose proof (Hfw (2 * i)%nat (2 * i + 1)%nat ltac:(lia)). lia. }
    assert (Forall ProofBench.positive T) as HPT by (unfold T; apply Forall_map, Forall_forall; intros d _; unfold ProofBench.positive; cbn; lia).
    assert (Forall ProofBench.positive R) as HPR.
    { apply Forall_forall. intros [a d] Hi. apply in_combine_r in Hi. rewrite Forall_forall in Hpos. exact (Hpos d Hi). }
    unfold bench_metadata_main. rewrite (loop_measures clock Hc (firstn 1024 walk) ps 0 [] [] HB). cbn [obind app].
    rewrite <- durations_are. fold times. fold T. fold R.
    destruct (times_sorted T HPT) as (rT & ET & _). destruct (times_sorted R HPR) as (rR & ER & _). rewrite ET, ER. cbn [obind].
    destruct (percentile_rank T 10 rT HPT ET ltac:(lia) ltac:(lia)) as (p10 & -> & H10).
    destruct (percentile_rank T 50 rT HPT ET ltac:(lia) ltac:(lia)) as (p50 & -> & H50).
    destruct (percentile_rank T 90 rT HPT ET ltac:(lia) ltac:(lia)) as (p90 & -> & H90).
    destruct (percentile_rank R 10 rR HPR ER ltac:(lia) ltac:(lia)) as (pr & -> & Hr). cbn [obind].
    exists p10, p50, p90, pr. split; [reflexivity|]. split; [exact HM|]. cbv zeta. split; [split; [exact H10|split; [exact H50|exact H90]]|].
    rewrite Hlt, <- HlR. exact Hr.
  Qed.
  Theorem metadata_main_panics walk clock : clock_ok clock ->
    (flac_files walk = []
     \/ exists good metadata bad rest, flac_files walk = good ++ bad :: rest
        /\ Forall2 (fun path x => tagged fs fuel path (fst x) (snd x)) good metadata /\ untagged fs fuel bad) ->
    exists why, bench_metadata_main m un fuel fs clock walk = Panic why.
  Proof.
    intros Hc [He|(good & metadata & bad & rest & He & HF & Hu)]; unfold bench_metadata_main.
    - rewrite (loop_measures clock Hc (firstn 1024 walk) [] 0 [] []) by (change (flac_of (firstn 1024 walk)) with (flac_files walk); rewrite He; constructor).
      cbn. eauto.
    - assert (exists ps, good = map fst ps /\ Forall (fun p => bench_metadata m un fuel fs (fst p) = Ok (snd p)) ps) as (ps & -> & HP).
      { clear He. induction HF as [|path x paths metadata Hx HF (ps & -> & HP)]; [exists []; split; [reflexivity|constructor]|].
        destruct Hx as (t & si & vc & cs & Hat & Hf & Hw & Hvc & Hl & Hn).
        destruct (metadata_ok m un Hun fuel fs path t (fst x) (snd x) si vc cs Hat Hf Hw Hvc Hl Hn) as (p & E & _).
        exists ((path, 10 * p) :: ps). split; [reflexivity|]. constructor; auto. }
      destruct (loop_breaks clock bad Hc (untagged_panics bad Hu) (firstn 1024 walk) ps rest 0 [] [] He HP) as [why E]. rewrite E. cbn. eauto.
  Qed.
End MeasuringMetadata.
