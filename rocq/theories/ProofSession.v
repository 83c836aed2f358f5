(** Independence of how the source splits its data: C01. *)
From Verif Require Export SpecWhole ProofStrong ProofReader ProofInput ProofOptions.
From Verif Require Import SpecReader.

(** * Up to the first failure of the source *)
Lemma history_until_io_sim {S1 S2 O A} (R : S1 -> S2 -> Prop) (f1 : O -> M S1 A) (f2 : O -> M S2 A) :
  (forall o, sim no_esc R eq (f1 o) (f2 o)) -> forall ops s1 s2, R s1 s2 ->
  fst (history_until_io f1 ops s1) = fst (history_until_io f2 ops s2).
Proof.
  intros H. induction ops as [|o ops IH]; intros s1 s2 HR; [reflexivity|]. cbn [history_until_io].
  destruct (sim_fst R (f1 o) (f2 o) s1 s2 (H o) HR) as [E HR'].
  pose proof (fun e => sim_ours R (f1 o) (f2 o) s1 s2 e (H o) HR) as HE.
  destruct (f1 o s1) as [o1 s1'], (f2 o s2) as [o2 s2']; cbn [fst snd] in *. subst o2.
  assert (from_source o1 = false -> R s1' s2') as HR2.
  { destruct o1 as [a|[k|w|w]| | |]; try discriminate; intros _; [apply HR'; eexists; reflexivity| |]; eapply HE; try reflexivity; exact I. }
  destruct (from_source o1); [reflexivity|]. specialize (IH s1' s2' (HR2 eq_refl)).
  destruct (history_until_io f1 ops s1'), (history_until_io f2 ops s2'). cbn [fst] in *. congruence.
Qed.
Lemma history_until_io_prefix {S O A} (f : O -> M S A) ops : forall st,
  exists rest, fst (history_all f ops st) = fst (history_until_io f ops st) ++ rest.
Proof.
  induction ops as [|o ops IH]; intros st; [exists []; reflexivity|]. cbn [history_all history_until_io].
  destruct (f o st) as [r st']. destruct (IH st') as [rest E].
  destruct (history_all f ops st'), (history_until_io f ops st'). cbn [fst] in *.
  destruct (from_source r); cbn [fst]; [eexists; reflexivity|]. exists rest. rewrite E. reflexivity.
Qed.

Section Sessions.
  Context {S1 S2 : Type} (R : S1 -> S2 -> Prop).
  Definition Rses (a : session S1) (b : session S2) : Prop :=
    Rfr R (se_reader a) (se_reader b) /\
    match se_samples a, se_samples b with
    | None, None => True
    | Some x, Some y => Rfss R x y
    | _, _ => False
    end.
  Lemma with_input_rel a b x y : Rfr R a b -> R x y -> Rfr R (with_input a x) (with_input b y).
  Proof.
    intros (E1 & E2 & E3) HR. repeat split; cbn; auto. destruct (fr_input a), (fr_input b); auto.
  Qed.
  Lemma drop_rels a b : Rses a b -> Rfr R (drop_samples a) (drop_samples b).
  Proof.
    intros [Hr Hi]. unfold drop_samples. destruct (se_samples a), (se_samples b); try contradiction; [|exact Hr].
    destruct Hi as (_ & _ & _ & _ & HR). apply with_input_rel; auto.
  Qed.
End Sessions.

Section UntilIo.
  Context {S1 S2 : Type} (R : S1 -> S2 -> Prop) (rb1 : ReadBytes S1) (rb2 : ReadBytes S2) (m : build) (fuel : nat).
  Context (H : rb_sim no_esc R rb1 rb2) (He : eof_sim no_esc R rb1 rb2).

  Lemma fs_yield_keeps : sim no_esc (Rfss R) eq (@fs_yield S1) (@fs_yield S2).
  Proof.
    unfold fs_yield. eapply sim_bind; [apply sim_get|]. intros s1 s2 (Hb & Hs & Hc & ? & ?).
    rewrite Hb, Hs, Hc. sim_tac.
  Qed.

  (** The readers stand at the same place, but after a failure of the source. *)
  Lemma fs_next_keeps s1 s2 : Rfss R s1 s2 ->
    let r1 := fs_next rb1 m fuel s1 in
    let r2 := fs_next rb2 m fuel s2 in
    match fst r1 with
    | Ok x => fst r2 = Ok x /\ ((forall e, x = Some (RErr e) -> ours e) -> Rfss R (snd r1) (snd r2))
    | Err e => fst r2 = Err e /\ Rfss R (snd r1) (snd r2)
    | o => fst r2 = o
    end.
  Proof.
    intros HR. pose proof HR as (Hb & Hs & Hc & Hf & HRr). cbv zeta.
    assert (forall t1 t2, Rfss R t1 t2 ->
      match fst (fs_yield t1) with
      | Ok x => fst (fs_yield t2) = Ok x /\ ((forall e, x = Some (RErr e) -> ours e) -> Rfss R (snd (fs_yield t1)) (snd (fs_yield t2)))
      | Err e => fst (fs_yield t2) = Err e /\ Rfss R (snd (fs_yield t1)) (snd (fs_yield t2))
      | o => fst (fs_yield t2) = o
      end) as Hy.
    { intros t1 t2 Ht. pose proof (fs_yield_keeps t1 t2 Ht) as Hy. destruct (fst (fs_yield t1)) eqn:E; try exact Hy.
      - destruct Hy as (b & -> & <- & HR'). auto.
      - exfalso. unfold fs_yield in E. rewrite bind_get in E. unfold block_sample, index in E.
        repeat match type of E with context [match ?x with _ => _ end] => destruct x; try discriminate E end. }
    unfold fs_next.
    rewrite !bind_get.
    rewrite <- Hf. destruct (fs_has_failed s1) eqn:EF.
    { cbn. split; [reflexivity|auto]. }
    rewrite <- Hc, <- Hb, <- Hs.
    destruct (chk m u32 (fs_channel s1 + 1)) as [ch|e|w|w|] eqn:Ech;
      try (cbn; auto; fail).
    cbn [bind lift fs_set_channel].
    destruct (block_channels (fs_block s1) <=? ch).
    2:{ apply (Hy (mkFs _ _ _ _ _) (mkFs _ _ _ _ _)).
        repeat split; cbn; auto; congruence. }
    cbn [bind fs_set_channel].
    destruct (chk m u32 (fs_sample s1 + 1)) as [sa|e|w|w|] eqn:Esa;
      try (cbn; auto; fail); [|cbn; repeat split; cbn; auto; congruence].
    cbn [bind lift fs_set_sample].
    destruct (block_duration (fs_block s1) <=? sa).
    2:{ apply (Hy (mkFs _ _ _ _ _) (mkFs _ _ _ _ _)).
        repeat split; cbn; auto; congruence. }
    pose proof (read_next_or_eof_sim no_esc R rb1 rb2 m fuel H He
                  (block_into_buffer (fs_block s1)) _ _ HRr) as Hn.
    unfold bind, catch, fs_lift, fs_set_sample, fs_set_block;
      cbn [fs_frame_reader fs_block fs_sample fs_channel fs_has_failed].
    destruct (read_next_or_eof rb1 m fuel (block_into_buffer (fs_block s1))
                (fs_frame_reader s1)) as [o1 t1],
             (read_next_or_eof rb2 m fuel (block_into_buffer (fs_block s1))
                (fs_frame_reader s2)) as [o2 t2]; cbn in Hn.
    destruct o1 as [b|e|w|w|].
    - destruct Hn as (b' & -> & <- & HR'). destruct b as [b|].
      + apply (Hy (mkFs _ _ _ _ _) (mkFs _ _ _ _ _)).
        repeat split; cbn; auto; congruence.
      + cbn. repeat split; auto; cbn; congruence.
    - destruct Hn as [[]|[-> Hk]]. cbn. split; [reflexivity|]. intros Ho. repeat split; auto; try (cbn; congruence).
    - rewrite Hn; reflexivity.
    - rewrite Hn; reflexivity.
    - rewrite Hn; reflexivity.
  Qed.

  Lemma session_sim c : sim no_esc (Rses R) eq (session_step rb1 m fuel c) (session_step rb2 m fuel c).
  Proof.
    intros s1 s2 HR. pose proof (drop_rels _ _ _ HR) as HD. destruct c as [buffer| |]; cbn [session_step].
    - pose proof HD as (_ & _ & Hi). unfold fr_blocks.
      destruct (fr_input (drop_samples s1)) as [x|x], (fr_input (drop_samples s2)) as [y|y]; try contradiction; [|reflexivity].
      pose proof (read_next_or_eof_sim no_esc R rb1 rb2 m fuel H He buffer x y Hi) as Hn.
      destruct (read_next_or_eof rb1 m fuel buffer x) as [o1 x'], (read_next_or_eof rb2 m fuel buffer y) as [o2 y']. cbn [fst snd] in Hn.
      destruct o1; cbn [fst snd obind].
      + destruct Hn as (b & -> & <- & HR'). exists (GotBlock a). repeat split; auto. all: try apply (with_input_rel _ _ _ _ _ HD HR').
      + destruct Hn as [[]|[-> Hk]]. right. split; [reflexivity|]. intros Ho. specialize (Hk Ho). repeat split; auto. all: try apply (with_input_rel _ _ _ _ _ HD Hk).
      + rewrite Hn. reflexivity.
      + rewrite Hn. reflexivity.
      + rewrite Hn. reflexivity.
    - destruct HR as [Hr Hi].
      assert (forall i1 i2, Rfss R i1 i2 ->
        let k (S : Type) (r : flac_reader S) (p : outcome (option (result Z)) * flac_samples S) :=
          (x <~ fst p ;; match x with Some (ROk v) => Ok (GotSample (Some v)) | Some (RErr e) => Err e | None => Ok (GotSample None) end,
           mkSession r (Some (snd p))) in
        let p := k _ (se_reader s1) (fs_next rb1 m fuel i1) in
        let q := k _ (se_reader s2) (fs_next rb2 m fuel i2) in
        match fst p with
        | Ok a => exists b, fst q = Ok b /\ a = b /\ Rses R (snd p) (snd q)
        | Err e => no_esc e \/ fst q = Err e /\ (ours e -> Rses R (snd p) (snd q))
        | Panic w => fst q = Panic w
        | UB w => fst q = UB w
        | OutOfFuel => fst q = OutOfFuel
        end) as X.
      { intros i1 i2 HI. cbv zeta. pose proof (fs_next_keeps i1 i2 HI) as Hn. cbv zeta in Hn.
        destruct (fs_next rb1 m fuel i1) as [o1 j1], (fs_next rb2 m fuel i2) as [o2 j2]. cbn [fst snd] in *.
        destruct o1 as [x|e|w|w|]; cbn [obind].
        - destruct Hn as (-> & HI'). cbn [obind]. destruct x as [[v|e]|].
          + exists (GotSample (Some v)). split; [reflexivity|]. split; [reflexivity|]. split; [exact Hr|]. apply HI'. discriminate.
          + right. split; [reflexivity|]. intros Ho. split; [exact Hr|]. apply HI'. intros e' E. injection E as <-. exact Ho.
          + exists (GotSample None). split; [reflexivity|]. split; [reflexivity|]. split; [exact Hr|]. apply HI'. discriminate.
        - destruct Hn as [-> HI']. right. split; [reflexivity|]. intros _. split; [exact Hr|exact HI'].
        - rewrite Hn. reflexivity.
        - rewrite Hn. reflexivity.
        - rewrite Hn. reflexivity. }
      destruct (se_samples s1) as [i1|], (se_samples s2) as [i2|]; try contradiction.
      + specialize (X i1 i2 Hi). destruct (fs_next rb1 m fuel i1), (fs_next rb2 m fuel i2). exact X.
      + destruct Hr as (E1 & E2 & E3). unfold fr_samples.
        destruct (fr_input (se_reader s1)) as [x|x], (fr_input (se_reader s2)) as [y|y]; try contradiction; [|reflexivity].
        specialize (X (mkFs x block_empty 0 0 false) (mkFs y block_empty 0 0 false) (conj eq_refl (conj eq_refl (conj eq_refl (conj eq_refl E3))))).
        destruct (fs_next rb1 m fuel _), (fs_next rb2 m fuel _). exact X.
    - exists Dropped. repeat split; auto; apply HD.
  Qed.
End UntilIo.

Section TwoStreams.
  Context {S1 S2 : Type} (rb1 : ReadBytes S1) (rb2 : ReadBytes S2) (t : tail) (D1 : S1 -> list Z -> Prop) (D2 : S2 -> list Z -> Prop).
  Context (H1 : stream rb1 t D1) (H2 : stream rb2 t D2).
  Context (m : build) (un1 un2 : nat -> list Z) (Hun1 : forall n, length (un1 n) = n) (Hun2 : forall n, length (un2 n) = n).

  (** Both stand before the same bytes. *)
  Definition Rsame (s1 : S1) (s2 : S2) : Prop := exists l, D1 s1 l /\ D2 s2 l.

  Lemma same_rb : rb_sim no_esc Rsame rb1 rb2.
  Proof.
    split.
    - intros s1 s2 ([|b l] & HD1 & HD2).
      + destruct (st_u8_end _ _ _ H1 s1 HD1) as (s1' & ->), (st_u8_end _ _ _ H2 s2 HD2) as (s2' & ->). at_end.
      + destruct (st_u8 _ _ _ H1 s1 b l HD1) as (s1' & -> & HD1'), (st_u8 _ _ _ H2 s2 b l HD2) as (s2' & -> & HD2'). cbn.
        exists b. apply (st_bytes _ _ _ H1) in HD1. inversion HD1. repeat split; eauto; unfold is_byte in *; try lia. exists l; auto.
    - intros n sz s1 s2 (l & HD1 & HD2).
      destruct (st_alloc _ _ _ H1 s1 l n sz HD1) as (s1' & -> & HD1'), (st_alloc _ _ _ H2 s2 l n sz HD2) as (s2' & -> & HD2'). cbn.
      exists tt. repeat split. exists l; auto.
  Qed.
  Lemma same_eof : eof_sim no_esc Rsame rb1 rb2.
  Proof.
    intros s1 s2 ([|b l] & HD1 & HD2).
    - pose proof (st_eof_end _ _ _ H1 s1 HD1) as E1. pose proof (st_eof_end _ _ _ H2 s2 HD2) as E2. destruct t.
      + destruct E1 as (s1' & -> & HD1'), E2 as (s2' & -> & HD2'). cbn. exists None. repeat split. exists []; auto.
      + destruct E1 as (s1' & ->), E2 as (s2' & ->). at_end.
    - destruct (st_eof _ _ _ H1 s1 b l HD1) as (s1' & -> & HD1'), (st_eof _ _ _ H2 s2 b l HD2) as (s2' & -> & HD2'). cbn.
      exists (Some b). apply (st_bytes _ _ _ H1) in HD1. inversion HD1. repeat split; eauto; unfold is_byte in *; try lia. exists l; auto.
  Qed.
  Lemma same_bulk : bulk_sim no_esc Rsame rb1 rb2.
  Proof.
    split.
    - intros b1 b2 Hb Hl s1 s2 (l & HD1 & HD2). assert (len b1 < 2 ^ 63 /\ len b2 < 2 ^ 63) as [? ?] by (unfold len in *; lia).
      destruct (Nat.leb_spec (length b1) (length l)).
      + rewrite <- (firstn_skipn (length b1) l) in HD1, HD2.
        destruct (st_into _ _ _ H1 s1 _ _ b1 HD1) as (s1' & -> & HD1'); [rewrite firstn_length; lia|assumption|].
        destruct (st_into _ _ _ H2 s2 _ _ b2 HD2) as (s2' & -> & HD2'); [rewrite firstn_length; lia|assumption|].
        cbn. eexists. repeat split. eexists; eauto.
      + destruct (st_into_end _ _ _ H1 s1 l b1 HD1 ltac:(lia) ltac:(lia)) as (s1' & ->), (st_into_end _ _ _ H2 s2 l b2 HD2 ltac:(lia) ltac:(lia)) as (s2' & ->). at_end.
    - intros n Hn s1 s2 (l & HD1 & HD2). destruct (Z.leb_spec n (len l)).
      + rewrite <- (firstn_skipn (Z.to_nat n) l) in HD1, HD2.
        assert (len (firstn (Z.to_nat n) l) = n) as El by (unfold len in *; rewrite firstn_length; lia).
        destruct (st_skip _ _ _ H1 s1 _ _ HD1) as (s1' & E1 & HD1'); [lia|].
        destruct (st_skip _ _ _ H2 s2 _ _ HD2) as (s2' & E2 & HD2'); [lia|]. rewrite El in *.
        rewrite E1, E2. cbn. eexists. repeat split. eexists; eauto.
      + destruct (st_skip_end _ _ _ H1 s1 l n HD1 ltac:(lia)) as (s1' & ->), (st_skip_end _ _ _ H2 s2 l n HD2 ltac:(lia)) as (s2' & ->). at_end.
  Qed.

  Theorem open_alike fuel opts s1 s2 l : D1 s1 l -> D2 s2 l ->
    opened_alike (fun r1 r2 => forall fuel' calls,
        fst (history_until_io (session_step rb1 m fuel') calls (mkSession r1 None))
        = fst (history_until_io (session_step rb2 m fuel') calls (mkSession r2 None)))
      (fst (new_ext rb1 m un1 fuel opts s1)) (fst (new_ext rb2 m un2 fuel opts s2)).
  Proof.
    intros HD1 HD2.
    pose proof (new_ext_sim no_esc Rsame rb1 rb2 m un1 un2 Hun1 Hun2 same_rb same_bulk fuel opts s1 s2 (ex_intro _ l (conj HD1 HD2))) as H.
    unfold opened_alike, discard. destruct (fst (new_ext rb1 m un1 fuel opts s1)) as [r1|e|w|w|].
    - destruct H as (r2 & -> & HR & _). pose proof HR as (E1 & E2 & _). split; [exact E1|]. split; [exact E2|].
      intros fuel' calls. apply (history_until_io_sim (Rses Rsame)).
      + intros c. apply session_sim; [exact same_rb|exact same_eof].
      + split; [exact HR|exact I].
    - destruct H as [[]|[-> _]]. reflexivity.
    - rewrite H. reflexivity.
    - rewrite H. reflexivity.
    - rewrite H. reflexivity.
  Qed.

  Theorem metadata_alike n s1 s2 l : D1 s1 l -> D2 s2 l ->
    fst (nexts (mr_next rb1 m un1) n (mr_new s1)) = fst (nexts (mr_next rb2 m un2) n (mr_new s2)).
  Proof.
    intros HD1 HD2. unfold nexts.
    assert (forall k a b, Rmri Rsame a b ->
      Forall succeeded (fst (history_all (fun _ : unit => mr_next rb1 m un1) (repeat tt k) a)) ->
      fst (history_all (fun _ : unit => mr_next rb1 m un1) (repeat tt k) a) = fst (history_all (fun _ : unit => mr_next rb2 m un2) (repeat tt k) b)) as X.
    { induction k as [|k IH]; intros a b HR Hs; [reflexivity|]. cbn [repeat history_all] in *.
      pose proof (mr_next_sim Rsame rb1 rb2 m un1 un2 Hun1 Hun2 same_rb same_bulk a b HR) as Hn.
      destruct (mr_next rb1 m un1 a) as [o1 a'], (mr_next rb2 m un2 b) as [o2 b']. cbn [fst snd] in Hn.
      specialize (IH a' b'). destruct (history_all _ (repeat tt k) a') as [x xs], (history_all _ (repeat tt k) b') as [y ys]. cbn [fst] in *.
      inversion Hs as [|? ? [v ->] Hs']. subst. destruct Hn as (v' & -> & <- & HR'). f_equal. apply IH; auto. }
    apply X; [split; [reflexivity|intros _; exists l; auto]|].
    clear X. generalize (conj (eq_refl (mr_done (mr_new s1))) HD1).
    assert (forall k a, (mr_done a = false -> exists l, D1 (mr_input a) l) ->
      Forall succeeded (fst (history_all (fun _ : unit => mr_next rb1 m un1) (repeat tt k) a))) as Y.
    { induction k as [|k IH]; intros [inp d] Ha; [constructor|]. cbn [repeat history_all]. cbn [mr_done mr_input] in Ha. destruct d.
      - rewrite next_done. specialize (IH (mkMr inp true)). destruct (history_all _ _ _). cbn [fst] in *. constructor; [eexists; reflexivity|].
        apply IH. discriminate.
      - destruct (Ha eq_refl) as (l' & HD').
        destruct (next_result rb1 t D1 H1 m un1 Hun1 inp l' HD') as [(last & b & w & rest & st1 & _ & _ & HD'' & E)|(e & st1 & _ & E)]; rewrite E.
        + specialize (IH (mkMr st1 last)). destruct (history_all _ _ _). cbn [fst] in *. constructor; [eexists; reflexivity|]. apply IH. eauto.
        + specialize (IH (mkMr st1 true)). destruct (history_all _ _ _). cbn [fst] in *. constructor; [eexists; reflexivity|]. apply IH. discriminate. }
    intros _. apply Y. intros _. exists l. exact HD1.
  Qed.

  Theorem block_alike ty n s1 s2 l : 0 <= n < 2 ^ 32 -> D1 s1 l -> D2 s2 l ->
    fst (read_metadata_block rb1 m un1 ty n s1) = fst (read_metadata_block rb2 m un2 ty n s2)
    /\ fst (read_metadata_block_with_header rb1 m un1 s1) = fst (read_metadata_block_with_header rb2 m un2 s2).
  Proof.
    intros Hn HD1 HD2. split.
    - apply (sim_fst Rsame), (ex_intro _ l (conj HD1 HD2)).
      apply read_metadata_block_sim; auto using same_rb, same_bulk.
    - apply (sim_fst Rsame), (ex_intro _ l (conj HD1 HD2)).
      apply read_metadata_block_with_header_sim; auto using same_rb, same_bulk.
  Qed.
End TwoStreams.

(** * Going on after failures *)
Section Always.
  Context {S1 S2 : Type} (R : S1 -> S2 -> Prop) (rb1 : ReadBytes S1) (rb2 : ReadBytes S2) (m : build) (fuel : nat)
    (al : Z -> Z -> Prop).
  Context (H : rb_ssim al R rb1 rb2) (Hal4 : forall n, 0 <= n <= 8 * 65535 -> al n 4) (He : eof_ssim R rb1 rb2).

  Lemma session_ssim c : ssim (Rses R) eq (session_step rb1 m fuel c) (session_step rb2 m fuel c).
  Proof.
    intros s1 s2 HR. pose proof (drop_rels _ _ _ HR) as HD. destruct c as [buffer| |]; cbn [session_step].
    - pose proof HD as (_ & _ & Hi). unfold fr_blocks.
      destruct (fr_input (drop_samples s1)) as [x|x], (fr_input (drop_samples s2)) as [y|y]; try contradiction; [|repeat split; auto; apply HD].
      destruct (read_next_or_eof_ssim al R rb1 rb2 m fuel H Hal4 He buffer x y Hi) as [HR' Hn].
      destruct (read_next_or_eof rb1 m fuel buffer x) as [o1 x'], (read_next_or_eof rb2 m fuel buffer y) as [o2 y']. cbn [fst snd] in Hn, HR'.
      split; [split; [exact (with_input_rel R _ _ _ _ HD HR')|exact I]|]. destruct o1; cbn [fst snd obind]; try (rewrite Hn; reflexivity).
      destruct Hn as (b & -> & <-). exists (GotBlock a). auto.
    - destruct HR as [Hr Hi].
      assert (forall i1 i2, Rfss R i1 i2 ->
        let k (S : Type) (r : flac_reader S) (p : outcome (option (result Z)) * flac_samples S) :=
          (x <~ fst p ;; match x with Some (ROk v) => Ok (GotSample (Some v)) | Some (RErr e) => Err e | None => Ok (GotSample None) end,
           mkSession r (Some (snd p))) in
        let p := k _ (se_reader s1) (fs_next rb1 m fuel i1) in
        let q := k _ (se_reader s2) (fs_next rb2 m fuel i2) in
        Rses R (snd p) (snd q) /\
        match fst p with
        | Ok a => exists b, fst q = Ok b /\ a = b
        | Err e => fst q = Err e
        | Panic w => fst q = Panic w
        | UB w => fst q = UB w
        | OutOfFuel => fst q = OutOfFuel
        end) as X.
      { intros i1 i2 HI. cbv zeta. destruct (fs_next_ssim al R rb1 rb2 m fuel H Hal4 He i1 i2 HI) as [HR' Hn].
        destruct (fs_next rb1 m fuel i1) as [o1 j1], (fs_next rb2 m fuel i2) as [o2 j2]. cbn [fst snd] in *.
        split; [split; [exact Hr|exact HR']|]. destruct o1 as [x|e|w|w|]; cbn [obind]; try (rewrite Hn; reflexivity).
        destruct Hn as (b & -> & <-). cbn [obind]. destruct x as [[v|e]|]; eauto. }
      destruct (se_samples s1) as [i1|] eqn:E1, (se_samples s2) as [i2|] eqn:E2; try contradiction.
      + specialize (X i1 i2 Hi). destruct (fs_next rb1 m fuel i1), (fs_next rb2 m fuel i2). exact X.
      + pose proof Hr as (F1 & F2 & F3). unfold fr_samples.
        destruct (fr_input (se_reader s1)) as [x|x], (fr_input (se_reader s2)) as [y|y]; try contradiction.
        2:{ split; [split; [exact Hr|]|reflexivity]. cbn [snd]. rewrite E1, E2. exact I. }
        specialize (X (mkFs x block_empty 0 0 false) (mkFs y block_empty 0 0 false) (conj eq_refl (conj eq_refl (conj eq_refl (conj eq_refl F3))))).
        destruct (fs_next rb1 m fuel _), (fs_next rb2 m fuel _). exact X.
    - split; [split; [exact HD|exact I]|]. exists Dropped. auto.
  Qed.
End Always.

(** A flat reader whose failing bulk operations consume what is left, as those of
    [BufferedReader] do. *)
Definition fd_rb : ReadBytes (list Z) :=
  mkRB (read_u8 (fl_rb TEof)) (read_u8_or_eof (fl_rb TEof))
    (fun buf l => if (length buf <=? length l)%nat
                  then (Ok (firstn (length buf) l), skipn (length buf) l)
                  else (Err (IoError UnexpectedEof), []))
    (fun n l => if n <=? len l
                then (Ok tt, skipn (Z.to_nat n) l)
                else (Err (IoError UnexpectedEof), []))
    (fun _ _ => ret tt).

Section Drain.
  Context (m : build).

  (** Only data to come. *)
  Definition plain (st : breader) : Prop :=
    len (br_buf st) = 2048 /\ Forall (fun e => exists c, e = EvData c /\ chunk_ok c) (br_inner st).
  Definition drained (st : breader) : Prop :=
    len (br_buf st) = 2048 /\ br_inner st = [] /\ br_pos st = 0 /\ br_num_valid st = 0.
  Lemma drained_buffered st : drained st -> buffered TEof st [].
  Proof.
    intros (Hb & Hi & Hp & Hn). exists [], [], (br_buf st), []. rewrite Hi, Hp, Hn. repeat split; auto; constructor; auto.
  Qed.
  Lemma delivers_plain sc l : delivers TEof sc l -> Forall (fun e => exists c, e = EvData c /\ chunk_ok c) sc.
  Proof. induction 1; [constructor|discriminate|]. constructor; eauto. Qed.
  Lemma buffered_plain st l : buffered TEof st l -> plain st.
  Proof. intros (pre & mid & post & l' & _ & Hl & _ & _ & _ & Hd & _). split; [exact Hl|]. eapply delivers_plain, Hd. Qed.

  Lemma refill_plain st : plain st ->
    (exists st', br_refill st = (Ok tt, st') /\ drained st')
    \/ (exists st', br_refill st = (Ok tt, st') /\ plain st' /\ br_num_valid st' <> 0).
  Proof.
    intros [Hb Hf]. destruct st as [inner buf p n]. cbn [br_inner br_buf] in *. destruct Hf as [|e r (c & -> & Hc) Hf].
    - left. rewrite refill_end by reflexivity. eexists. split; [reflexivity|]. repeat split; auto.
    - right. unfold br_refill, br_set_pos, inner_read, bind, br_set_num_valid. cbn [br_inner br_buf br_pos br_num_valid].
      eexists. split; [reflexivity|]. destruct Hc as [_ Hc]. split; [split; [|exact Hf]|].
      + cbn [br_buf]. unfold len in *. rewrite firstn_length, app_length, skipn_length. lia.
      + cbn [br_num_valid]. rewrite u32_id by lia. lia.
  Qed.

  Lemma chk_no_err w x e : chk m w x <> Err e.
  Proof. unfold chk. destruct (_ =? _); [discriminate|]. destruct m; discriminate. Qed.
  Lemma slice_no_err A (l : list A) a b e : slice l a b <> Err e.
  Proof. unfold slice. destruct (_ && _); discriminate. Qed.

  Lemma skip_drains : forall fuel amount st e st', plain st ->
    br_skip_loop m fuel amount st = (Err e, st') -> drained st'.
  Proof.
    induction fuel as [|fuel IH]; intros amount st e st' Hp E; cbn [br_skip_loop] in E.
    - destruct (0 <? amount); discriminate E.
    - destruct (0 <? amount); [|discriminate E]. rewrite bind_get in E.
      destruct (chk m u32 (br_num_valid st - br_pos st)) as [x|x|x|x|] eqn:E1; try discriminate E; [|destruct (chk_no_err _ _ _ E1)].
      rewrite bind_lift_ok in E.
      destruct (chk m u32 (br_pos st + Z.min amount x)) as [y|y|y|y|] eqn:E2; try discriminate E; [|destruct (chk_no_err _ _ _ E2)].
      rewrite bind_lift_ok in E. unfold bind at 1, br_set_pos at 1 in E.
      destruct (chk m u32 (amount - Z.min amount x)) as [z|z|z|z|] eqn:E3; try discriminate E; [|destruct (chk_no_err _ _ _ E3)].
      rewrite bind_lift_ok in E.
      destruct (0 <? z); [|eapply IH; [|exact E]; exact Hp].
      unfold bind at 1 in E. destruct (refill_plain (mkBR (br_inner st) (br_buf st) y (br_num_valid st)) Hp) as [(s & Er & Hd)|(s & Er & Hp' & Hn)]; rewrite Er, bind_get in E.
      + pose proof Hd as (_ & _ & _ & Hz). rewrite Hz in E. cbn in E. injection E as _ <-. exact Hd.
      + destruct (Z.eqb_spec (br_num_valid s) 0); [contradiction|]. eapply IH; eassumption.
  Qed.
  Lemma into_drains : forall fuel buffer amount st e st', plain st ->
    br_read_into_loop m fuel buffer amount st = (Err e, st') -> drained st'.
  Proof.
    induction fuel as [|fuel IH]; intros buffer amount st e st' Hp E; cbn [br_read_into_loop] in E.
    - destruct (0 <? amount); discriminate E.
    - destruct (0 <? amount); [|discriminate E]. rewrite bind_get in E.
      repeat match type of E with
      | bind (lift ?o) _ _ = _ => let H := fresh in destruct o eqn:H; try discriminate E;
          [rewrite bind_lift_ok in E|exfalso; first [exact (chk_no_err _ _ _ H)|exact (slice_no_err _ _ _ _ _ H)]]
      end.
      unfold bind at 1, br_set_pos at 1 in E.
      destruct (0 <? _); [|eapply IH; [|exact E]; exact Hp].
      unfold bind at 1 in E. match type of E with context [br_refill ?s] => destruct (refill_plain s Hp) as [(s' & Er & Hd)|(s' & Er & Hp' & Hn)] end; rewrite Er, bind_get in E.
      + pose proof Hd as (_ & _ & _ & Hz). rewrite Hz in E. cbn in E. injection E as _ <-. exact Hd.
      + destruct (Z.eqb_spec (br_num_valid s') 0); [contradiction|]. eapply IH; eassumption.
  Qed.

  Lemma u8_drains st e st' : plain st -> br_read_u8 m st = (Err e, st') -> drained st'.
  Proof.
    intros Hp E. unfold br_read_u8 in E. rewrite bind_get in E.
    assert (forall s, (st0 <- get;; byte <- lift (index_unchecked (br_buf st0) (br_pos st0));; p <- lift (chk m u32 (br_pos st0 + 1));; br_set_pos p;;; ret byte) s = (Err e, st') -> False) as X.
    { intros s Es. rewrite bind_get in Es. unfold index_unchecked in Es. destruct (_ <=? _); cbn in Es; [destruct (nth_error _ _); cbn in Es|]; try discriminate Es.
      destruct (chk m u32 _) eqn:Ec; cbn in Es; try discriminate Es. exact (chk_no_err _ _ _ Ec). }
    destruct (_ =? _).
    - unfold bind at 1 in E. unfold bind at 1 in E. destruct (refill_plain st Hp) as [(s & Er & Hd)|(s & Er & Hp' & Hn)]; rewrite Er, bind_get in E.
      + pose proof Hd as (_ & _ & _ & Hz). rewrite Hz in E. cbn in E. injection E as _ <-. exact Hd.
      + destruct (Z.eqb_spec (br_num_valid s) 0); [contradiction|]. destruct (X _ E).
    - destruct (X _ E).
  Qed.

  Lemma br_rb_ssim : rb_ssim (fun _ _ => True) (buffered TEof) (br_rb m) fd_rb.
  Proof.
    pose proof (br_stream m TEof) as HS. split.
    - intros st [|b l] HB.
      + destruct (st_u8_end _ _ _ HS st HB) as (st' & E). cbn [br_rb read_u8] in *. rewrite E. cbn. split; [|reflexivity].
        eapply drained_buffered, u8_drains, E. eapply buffered_plain, HB.
      + destruct (st_u8 _ _ _ HS st b l HB) as (st' & E & HB'). cbn [br_rb read_u8] in *. rewrite E. cbn. split; [exact HB'|].
        exists b. apply (st_bytes _ _ _ HS) in HB. inversion HB. repeat split; auto; unfold is_byte in *; lia.
    - intros n sz _ st l HB. cbn. split; [exact HB|]. exists tt. auto.
  Qed.
  Lemma br_eof_ssim : eof_ssim (buffered TEof) (br_rb m) fd_rb.
  Proof.
    pose proof (br_stream m TEof) as HS. intros st [|b l] HB.
    - destruct (st_eof_end _ _ _ HS st HB) as (st' & E & HB'). rewrite E. cbn. split; [exact HB'|]. exists None. auto.
    - destruct (st_eof _ _ _ HS st b l HB) as (st' & E & HB'). rewrite E. cbn. split; [exact HB'|].
      exists (Some b). apply (st_bytes _ _ _ HS) in HB. inversion HB. repeat split; auto; unfold is_byte in *; lia.
  Qed.
  Lemma br_bulk_ssim : bulk_ssim (buffered TEof) (br_rb m) fd_rb.
  Proof.
    pose proof (br_stream m TEof) as HS. split.
    - intros b1 b2 Hb Hl st l HB. assert (len b1 < 2 ^ 63) as Hl' by lia. cbn [fd_rb read_into]. rewrite <- Hb.
      destruct (Nat.leb_spec (length b1) (length l)).
      + pose proof HB as HB0. rewrite <- (firstn_skipn (length b1) l) in HB0.
        destruct (st_into _ _ _ HS st _ _ b1 HB0) as (st' & E & HB'); [rewrite firstn_length; lia|assumption|]. rewrite E. cbn.
        split; [exact HB'|eauto].
      + destruct (st_into_end _ _ _ HS st l b1 HB ltac:(lia) Hl') as (st' & E). rewrite E. cbn. split; [|reflexivity].
        cbn [br_rb read_into] in E. unfold br_read_into in E. rewrite bind_get in E.
        eapply drained_buffered, into_drains, E. eapply buffered_plain, HB.
    - intros n Hn st l HB. cbn [fd_rb skip]. destruct (Z.leb_spec n (len l)).
      + pose proof HB as HB0. rewrite <- (firstn_skipn (Z.to_nat n) l) in HB0.
        assert (len (firstn (Z.to_nat n) l) = n) as El by (unfold len in *; rewrite firstn_length; lia).
        destruct (st_skip _ _ _ HS st _ _ HB0) as (st' & E & HB'); [lia|]. rewrite El in E. rewrite E. cbn. split; [exact HB'|eauto].
      + destruct (st_skip_end _ _ _ HS st l n HB ltac:(lia)) as (st' & E). rewrite E. cbn. split; [|reflexivity].
        cbn [br_rb skip] in E. unfold br_skip in E. rewrite bind_get in E.
        eapply drained_buffered, skip_drains, E. eapply buffered_plain, HB.
  Qed.
End Drain.

Section Scripts.
  Context (m : build) (un un' : nat -> list Z) (Hun : forall n, length (un n) = n) (Hun' : forall n, length (un' n) = n).

  Lemma opened_flat fuel opts sc l : delivers TEof sc l ->
    opened_alike (fun r1 r2 => forall fuel' calls,
        fst (history_all (session_step (br_rb m) m fuel') calls (mkSession r1 None))
        = fst (history_all (session_step fd_rb m fuel') calls (mkSession r2 None)))
      (flac_new_ext m un fuel sc opts) (fst (new_ext fd_rb m (repeat 0) fuel opts l)).
  Proof.
    intros Hd. unfold flac_new_ext.
    assert (forall length, allows (fun _ _ => True) length) as Ha by (intros length _; auto).
    destruct (new_ext_ssim (fun _ _ => True) (buffered TEof) (br_rb m) fd_rb m un (repeat 0) Hun (fun n => repeat_length 0 n)
      (br_rb_ssim m) (br_bulk_ssim m) Ha fuel opts (br_new sc) l (br_new_buffered TEof sc l Hd)) as [_ H].
    unfold opened_alike, discard. destruct (fst (new_ext (br_rb m) m un fuel opts (br_new sc))) as [r1|e|w|w|].
    - destruct H as (r2 & -> & HR). pose proof HR as (E1 & E2 & _). split; [exact E1|]. split; [exact E2|].
      intros fuel' calls. apply (history_all_ssim (Rses (buffered TEof))).
      + apply Forall_forall. intros c _. apply (session_ssim _ _ _ m fuel' (fun _ _ => True)); auto using br_rb_ssim, br_eof_ssim.
      + split; [exact HR|exact I].
    - rewrite H. reflexivity.
    - rewrite H. reflexivity.
    - rewrite H. reflexivity.
    - rewrite H. reflexivity.
  Qed.

  Theorem scripts_alike fuel opts sc sc' l : delivers TEof sc l -> delivers TEof sc' l ->
    opened_alike (fun r1 r2 => forall fuel' calls,
        fst (history_all (session_step (br_rb m) m fuel') calls (mkSession r1 None))
        = fst (history_all (session_step (br_rb m) m fuel') calls (mkSession r2 None)))
      (flac_new_ext m un fuel sc opts) (flac_new_ext m un fuel sc' opts).
  Proof.
    intros Hd Hd'. pose proof (opened_flat fuel opts sc l Hd) as H. pose proof (opened_flat fuel opts sc' l Hd') as H'.
    unfold opened_alike in *.
    destruct (flac_new_ext m un fuel sc opts), (fst (new_ext fd_rb m (repeat 0) fuel opts l)), (flac_new_ext m un fuel sc' opts);
      try discriminate H; try discriminate H'; try congruence.
    destruct H as (E1 & E2 & E3), H' as (F1 & F2 & F3). split; [congruence|]. split; [congruence|].
    intros fuel' calls. rewrite E3, F3. reflexivity.
  Qed.
End Scripts.
