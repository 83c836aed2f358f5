(** The errors of reading metadata and opening, on any stream of bytes. *)
From Verif Require Export ProofMetaFault2 ProofFile.
From Verif Require Import SpecReader.

Lemma content_fault_ours ty n e w : content_fault ty n e w -> ours e.
Proof.
  intros H. destruct H as [| si e w _ _ _ _ H| | |e w _ H|]; try exact Logic.I.
  - destruct H; exact Logic.I.
  - destruct H as [| | | | |v c es e w _ _ _ _ _ _ H| |]; try exact Logic.I. destruct H; exact Logic.I.
Qed.
Lemma block_fault_ours e w : block_fault e w -> ours e.
Proof. intros (last & ty & n & c & _ & _ & H & _). eapply content_fault_ours, H. Qed.
Lemma open_fault_ours opts e w : open_fault opts e w -> ours e.
Proof.
  intros H. destruct H as [| |e w H| |si bs w w' e _ _ H| |]; try exact Logic.I; eapply block_fault_ours, H.
Qed.
Lemma block_not_fault last b w rest e w' rest' : bytes_ok (w ++ rest) -> block_code last b w -> block_fault e w' -> w ++ rest <> w' ++ rest'.
Proof.
  intros Hb Hc Hf E.
  destruct (next_parses TEof Debug (repeat 0) (fun n => repeat_length 0 n)) as [_ H].
  destruct (next_flaws TEof Debug (repeat 0) (fun n => repeat_length 0 n)) as [_ H'].
  pose proof (H (last, b) w rest Hb Hc) as H1. rewrite E in *. rewrite (H' e w' rest' Hb Hf) in H1. discriminate.
Qed.
Lemma block_fault_unique e w rest e' w' rest' : bytes_ok (w ++ rest) -> block_fault e w -> block_fault e' w' -> w ++ rest = w' ++ rest' ->
  e = e' /\ w = w' /\ rest = rest'.
Proof.
  intros Hb Hf Hf' E. destruct (next_flaws TEof Debug (repeat 0) (fun n => repeat_length 0 n)) as [_ H].
  pose proof (H e w rest Hb Hf) as H1. rewrite E in *. rewrite (H e' w' rest' Hb Hf') in H1. injection H1 as -> ->.
  apply app_inv_tail in E. auto.
Qed.

(** ** The loop over the blocks behind the streaminfo *)
Definition second_streaminfo : error := FormatError "encountered second streaminfo block".
Definition second_comment : error := FormatError "encountered second Vorbis comment block".
Inductive loop_fault : flac_reader_options -> option vorbis_comment -> error -> list Z -> Prop :=
| loop_block_fault : forall opts vc e w, block_fault e w -> loop_fault opts vc e w
| loop_streaminfo : forall opts vc last si w, block_code last (MbStreamInfo si) w -> loop_fault opts vc second_streaminfo w
| loop_comment : forall opts v last v' w, block_code last (MbVorbisComment v') w -> loop_fault opts (Some v) second_comment w
| loop_on : forall opts vc b w opts' vc' e w', block_code false b w -> keep vc opts b = Ok (vc', opts') -> has_desired_blocks opts' = true ->
    loop_fault opts' vc' e w' -> loop_fault opts vc e (w ++ w').

Inductive loop_cut : flac_reader_options -> option vorbis_comment -> list Z -> Prop :=
| loop_cut_here : forall opts vc l, cut_short l -> loop_cut opts vc l
| loop_cut_on : forall opts vc b w opts' vc' l, block_code false b w -> keep vc opts b = Ok (vc', opts') -> has_desired_blocks opts' = true ->
    loop_cut opts' vc' l -> loop_cut opts vc (w ++ l).

Lemma keep_err vc opts b e : keep vc opts b = Err e -> (exists si, b = MbStreamInfo si /\ e = second_streaminfo)
  \/ (exists v v', b = MbVorbisComment v' /\ vc = Some v /\ e = second_comment).
Proof.
  destruct b; cbn [keep]; try discriminate.
  - intros E. injection E as <-. left. eexists. split; reflexivity.
  - destruct vc as [v|]; [|discriminate]. intros E. injection E as <-. right. eexists _, _. repeat split.
Qed.
Lemma keep_value vc opts b : (exists vc' opts', keep vc opts b = Ok (vc', opts')) \/ (exists e, keep vc opts b = Err e).
Proof. destruct b; cbn [keep]; eauto. destruct vc; eauto. Qed.

(** In terms of the blocks read so far. *)
Definition goes_on (opts : flac_reader_options) (vc : option vorbis_comment) (bs : list metadata_block) : Prop :=
  Forall not_streaminfo bs
  /\ match metadata_only opts, opt_read_vorbis_comment opts with
     | false, _ => exists o, comment_from vc bs o
     | true, true => Forall not_comment bs
     | true, false => bs = []
     end.
Lemma goes_nil opts vc : goes_on opts vc [].
Proof.
  split; [constructor|]. destruct (metadata_only opts), (opt_read_vorbis_comment opts); try constructor;
    (destruct vc as [v|]; [exists (Some v); split; [constructor|reflexivity]|exists None; constructor; constructor]).
Qed.
Lemma goes_cons opts vc b bs : metadata_only opts = false \/ vc = None ->
  (goes_on opts vc (b :: bs) <-> exists vc' opts', keep vc opts b = Ok (vc', opts') /\ has_desired_blocks opts' = true /\ goes_on opts' vc' bs
    /\ (metadata_only opts' = false \/ vc' = None)).
Proof.
  intros Hi. unfold goes_on. destruct opts as [mo rv]. cbn [metadata_only opt_read_vorbis_comment] in *.
  destruct (keep_cases vc (mkOpts mo rv) b) as [(v & -> & -> & ->)|[(v & v' & e & -> & -> & ->)|[(si & e & -> & ->)|(Hnc & Hns & ->)]]].
  - split.
    + intros [H1 H2]. inversion H1; subst. destruct mo.
      * destruct rv; [inversion H2 as [|? ? Hx]; subst; exfalso; eapply Hx; reflexivity|discriminate].
      * exists (Some v), (mkOpts false false). cbn [metadata_only opt_read_vorbis_comment]. destruct H2 as (o & H2). cbn [comment_from] in *.
        apply only_cons_comment in H2. repeat split; auto. exists o. exact H2.
    + intros (vc' & opts' & E & Hd & [H1 H2] & _). injection E as <- <-. cbn [metadata_only opt_read_vorbis_comment] in *. destruct mo; [discriminate|].
      split; [constructor; [intros ? ?; discriminate|exact H1]|]. destruct H2 as (o & H2). exists o. cbn [comment_from] in *. apply only_cons_comment. exact H2.
  - split; [|intros (vc' & opts' & E & _); discriminate]. intros [H1 H2]. destruct Hi as [->|?]; [|discriminate]. destruct H2 as (o & H2 & _).
    inversion H2 as [|? ? Hx]; subst. exfalso. eapply Hx; reflexivity.
  - split; [|intros (vc' & opts' & E & _); discriminate]. intros [H1 _]. inversion H1 as [|? ? Hx]; subst. exfalso. eapply Hx; reflexivity.
  - split.
    + intros [H1 H2]. inversion H1; subst. exists vc, (mkOpts mo rv). cbn [metadata_only opt_read_vorbis_comment]. split; [reflexivity|].
      destruct mo.
      * destruct rv; [|discriminate]. inversion H2; subst. auto.
      * destruct H2 as (o & H2). apply comment_from_other in H2; [|exact Hnc]. repeat split; auto. eauto.
    + intros (vc' & opts' & E & Hd & [H1 H2] & _). injection E as <- <-. cbn [metadata_only opt_read_vorbis_comment] in *.
      split; [constructor; assumption|]. destruct mo.
      * destruct rv; [constructor; assumption|discriminate].
      * destruct H2 as (o & H2). exists o. apply comment_from_other; assumption.
Qed.
Lemma keep_comment opts vc b vc' opts' : keep vc opts b = Ok (vc', opts') -> metadata_only opts' = metadata_only opts
  /\ (forall bs v, comment_from vc (b :: bs) (Some v) <-> comment_from vc' bs (Some v)) /\ not_streaminfo b.
Proof.
  destruct (keep_cases vc opts b) as [(v & -> & -> & ->)|[(v & v' & e & -> & -> & ->)|[(si & e & -> & ->)|(Hnc & Hns & ->)]]]; intros E; try discriminate;
    injection E as <- <-; (split; [reflexivity|]).
  - split; [|intros ? ?; discriminate]. intros bs v'. cbn [comment_from]. apply only_cons_comment.
  - split; [|exact Hns]. intros bs v. apply comment_from_other, Hnc.
Qed.

Definition fault_here (opts : flac_reader_options) (e : error) (w : list Z) : Prop :=
  block_fault e w \/ (e = second_streaminfo /\ exists last si, block_code last (MbStreamInfo si) w).
Lemma loop_fault_blocks opts vc e w : metadata_only opts = false \/ vc = None ->
  (loop_fault opts vc e w <-> exists bs w1 w2, w = w1 ++ w2 /\ open_blocks bs w1
    /\ ((goes_on opts vc bs /\ fault_here opts e w2)
        \/ (metadata_only opts = false /\ Forall not_streaminfo bs /\ (exists v, comment_from vc bs (Some v))
            /\ e = second_comment /\ exists last v', block_code last (MbVorbisComment v') w2))).
Proof.
  intros Hi. split.
  - intros H. induction H as [opts vc e w H|opts vc last si w H|opts v last v' w H|opts vc b w opts' vc' e w' Hc Hk Hd H IH].
    + exists [], [], w. split; [reflexivity|]. split; [constructor|]. left. split; [apply goes_nil|]. left. exact H.
    + exists [], [], w. split; [reflexivity|]. split; [constructor|]. left. split; [apply goes_nil|]. right. eauto.
    + destruct Hi as [Hi|Hi]; [|discriminate]. exists [], [], w. split; [reflexivity|]. split; [constructor|]. right. split; [exact Hi|]. split; [constructor|].
      split; [exists v; split; [constructor|reflexivity]|]. eauto.
    + assert (metadata_only opts' = false \/ vc' = None) as Hi'.
      { destruct (keep_comment _ _ _ _ _ Hk) as (Em & _). destruct (metadata_only opts) eqn:Emo; [|left; congruence]. right.
        destruct Hi as [?|Hv]; [discriminate|]. subst vc. destruct b; cbn [keep] in Hk; try discriminate; injection Hk as <- <-; try reflexivity.
        unfold has_desired_blocks in Hd. cbn [metadata_only opt_read_vorbis_comment] in Hd. rewrite Emo in Hd. discriminate. }
      destruct (IH Hi') as (bs & w1 & w2 & -> & Hob & HH). exists (b :: bs), (w ++ w1), w2. split; [apply app_assoc|]. split; [constructor; assumption|].
      destruct (keep_comment _ _ _ _ _ Hk) as (Em & Hcf & Hns). destruct HH as [[Hg Hh]|(Hm & Hn & (v & Hv) & -> & HH)]; [left|right].
      * split; [|exact Hh]. apply goes_cons; [exact Hi|]. exists vc', opts'. auto.
      * split; [congruence|]. split; [constructor; assumption|]. split; [exists v; apply Hcf, Hv|]. auto.
  - intros (bs & w1 & w2 & -> & Hob & HH). revert opts vc Hi HH.
    induction Hob as [|b w bs w' Hc Hob IH]; intros opts vc Hi HH; cbn [app].
    + destruct HH as [[_ [H|[-> (last & si & H)]]]|(_ & _ & (v & Hv) & -> & last & v' & H)].
      * apply loop_block_fault, H.
      * eapply loop_streaminfo, H.
      * destruct vc as [v0|]; cbn [comment_from] in Hv; [eapply loop_comment, H|]. inversion Hv as [|a c vc ? ? E]. destruct a; discriminate.
    + rewrite <- app_assoc. destruct HH as [[Hg Hh]|(Hm & Hn & (v & Hv) & -> & HH)].
      * apply goes_cons in Hg as (vc' & opts' & Hk & Hd & Hg & Hi'); [|exact Hi]. eapply loop_on; [exact Hc|exact Hk|exact Hd|]. apply IH; auto.
      * inversion Hn; subst. destruct (keep_value vc opts b) as [(vc' & opts' & Hk)|(e & Hk)].
        -- destruct (keep_comment _ _ _ _ _ Hk) as (Em & Hcf & Hns).
           eapply loop_on; [exact Hc|exact Hk|unfold has_desired_blocks; rewrite Em, Hm; reflexivity|]. apply IH; [left; congruence|]. right.
           split; [congruence|]. split; [assumption|]. split; [exists v; apply Hcf, Hv|]. auto.
        -- exfalso. apply keep_err in Hk as [(si & -> & _)|(v0 & v1 & -> & -> & _)].
           ++ eapply H1; reflexivity.
           ++ destruct Hv as [Hv _]. inversion Hv as [|? ? Hx]; subst. eapply Hx; reflexivity.
Qed.
Lemma loop_cut_blocks opts vc l : metadata_only opts = false \/ vc = None ->
  loop_cut opts vc l -> exists bs w l', l = w ++ l' /\ open_blocks bs w /\ goes_on opts vc bs /\ cut_short l'.
Proof.
  intros Hi H. induction H as [opts vc l H|opts vc b w opts' vc' l Hc Hk Hd H IH].
  - exists [], [], l. split; [reflexivity|]. split; [constructor|]. split; [apply goes_nil|exact H].
  - assert (metadata_only opts' = false \/ vc' = None) as Hi'.
    { destruct (keep_comment _ _ _ _ _ Hk) as (Em & _). destruct (metadata_only opts) eqn:Emo; [|left; congruence]. right.
      destruct Hi as [?|Hv]; [discriminate|]. subst vc. destruct b; cbn [keep] in Hk; try discriminate; injection Hk as <- <-; try reflexivity.
      unfold has_desired_blocks in Hd. cbn [metadata_only opt_read_vorbis_comment] in Hd. rewrite Emo in Hd. discriminate. }
    destruct (IH Hi') as (bs & w1 & l' & -> & Hob & Hg & Hcut). exists (b :: bs), (w ++ w1), l'. split; [apply app_assoc|]. split; [constructor; assumption|].
    split; [|exact Hcut]. apply goes_cons; [exact Hi|]. exists vc', opts'. auto.
Qed.
Section Stream.
  Context {S : Type} (rb : ReadBytes S) (t : tail) (D : S -> list Z -> Prop) (HS : stream rb t D).
  Context (m : build) (un : nat -> list Z) (Hun : forall n, length (un n) = n).
  Notation Hrs := (stream_rb_sim rb t D HS no_esc).
  Notation Hbytes := (st_bytes rb t D HS).

  Lemma flaws_reports {A} (c : M S A) (c' : M (list Z) A) F st e w rest : sim no_esc D eq c c' -> flaws t c' F ->
    D st (w ++ rest) -> F e w -> ours e -> exists st', c st = (Err e, st') /\ D st' rest.
  Proof.
    intros Hs [_ HF] HD Hf Ho. specialize (HF e w rest (Hbytes _ _ HD) Hf). specialize (Hs st _ HD). rewrite HF in Hs. cbn [fst snd] in Hs.
    destruct (c st) as [[a|e'| | |] st']; cbn [fst snd] in *; try discriminate; [destruct Hs as (b & E & _); discriminate|].
    destruct Hs as [[]|[E HD']]. injection E as <-. exists st'. auto.
  Qed.
  Lemma flaws_explains {A} (c : M S A) (c' : M (list Z) A) F st l e st' : sim no_esc D eq c c' -> flaws t c' F -> (forall e w, F e w -> ours e) ->
    D st l -> c st = (Err e, st') -> (exists w rest, l = w ++ rest /\ F e w /\ D st' rest) \/ e = tail_error t.
  Proof.
    intros Hs [HF _] Ho HD E. specialize (Hs st l HD). rewrite E in Hs. cbn [fst snd] in Hs. destruct Hs as [[]|[E' HD']].
    destruct (c' l) as [o l'] eqn:El. cbn [fst snd] in *. subst o. destruct (HF l e l' (Hbytes _ _ HD) El) as [(w & -> & Hw)|H]; [left|auto].
    exists w, l'. split; [reflexivity|]. split; [exact Hw|]. apply HD'. eapply Ho, Hw.
  Qed.

  (** ** Blocks *)
  Theorem content_reports st ty n e w rest : 0 <= n < 2 ^ 32 -> content_fault ty n e w -> D st (w ++ rest) ->
    exists st', read_metadata_block rb m un ty n st = (Err e, st') /\ D st' rest.
  Proof.
    intros Hn Hf HD. eapply flaws_reports; [apply (block_sim rb t D HS m un Hun ty n Hn)|apply (block_flaws t m un Hun ty n Hn)|exact HD|exact Hf|].
    eapply content_fault_ours, Hf.
  Qed.
  Theorem content_cases st ty n l : 0 <= ty <= 127 -> 0 <= n < 2 ^ 32 -> D st l ->
    match read_metadata_block rb m un ty n st with
    | (Ok b, st') => exists w rest, l = w ++ rest /\ len w = n /\ body_code ty w b /\ D st' rest
    | (Err e, st') => (exists w rest, l = w ++ rest /\ content_fault ty n e w /\ D st' rest) \/ (e = tail_error t /\ len l < n)
    | _ => False
    end.
  Proof.
    intros Hty Hn HD. pose proof (block_result rb t D HS m un Hun st ty n l Hty Hn HD) as H.
    destruct (read_metadata_block rb m un ty n st) as [[b|e| | |] st'] eqn:E; auto. clear H.
    destruct (flaws_explains _ _ _ st l e st' (block_sim rb t D HS m un Hun ty n Hn) (block_flaws t m un Hun ty n Hn) (content_fault_ours ty n) HD E) as [H| ->];
      [left; exact H|]. right. split; [reflexivity|]. destruct (Z.lt_ge_cases (len l) n) as [Hlt|Hge]; [exact Hlt|]. exfalso.
    pose proof (block_covers t m un Hun ty n Hn l (Hbytes _ _ HD) Hge) as HC.
    destruct (sim_fst D _ _ st l (block_sim rb t D HS m un Hun ty n Hn) HD) as [E' _]. rewrite E in E'. cbn [fst] in E'.
    destruct (read_metadata_block (fl_rb t) m un ty n l) as [o l']. cbn [fst] in E'. subst o. exact (tail_not_ours t HC).
  Qed.
  Theorem block_reports st e w rest : block_fault e w -> D st (w ++ rest) ->
    exists st', read_metadata_block_with_header rb m un st = (Err e, st') /\ D st' rest.
  Proof.
    intros Hf HD. eapply flaws_reports; [apply (with_header_sim rb t D HS m un Hun)|apply (with_header_flaws t m un Hun)|exact HD|exact Hf|].
    eapply block_fault_ours, Hf.
  Qed.

  (** The error of the source comes only if bytes are missing. *)
  Lemma header_cut l e l' : bytes_ok l -> read_metadata_block_header (fl_rb t) l = (Err e, l') -> (length l < 4)%nat.
  Proof.
    intros _. unfold read_metadata_block_header, read_be_u24, bind, fl_rb. cbn [read_u8].
    destruct l as [|? [|? [|? [|? l]]]]; cbn [length]; [lia..|]. intros E; discriminate.
  Qed.
  Lemma flat_cut l l' : bytes_ok l ->
    (h <- read_metadata_block_header (fl_rb t) ;; b <- read_metadata_block (fl_rb t) m un (mbh_block_type h) (mbh_length h) ;; ret (mbh_is_last h, b)) l
      = (Err (tail_error t), l') -> cut_short l.
  Proof.
    intros Hb. unfold bind at 1. destruct (read_metadata_block_header (fl_rb t) l) as [[h|e| | |] l1] eqn:E; try discriminate.
    2:{ intros _. apply cut_header. eapply header_cut; eauto. }
    pose proof (proj1 (header_parses t) l Hb) as H. rewrite E in H. destruct H as (w & -> & H1 & H2 & ->). apply Forall_app in Hb as [_ Hb].
    intros E2. rewrite <- app_assoc. apply cut_content; [exact H2|]. destruct (Z.lt_ge_cases (len l1) (mbh_length h)) as [Hlt|Hge]; [exact Hlt|]. exfalso.
    pose proof (block_covers t m un Hun (mbh_block_type h) (mbh_length h) ltac:(lia) l1 Hb Hge) as HC. unfold bind in E2.
    destruct (read_metadata_block (fl_rb t) m un (mbh_block_type h) (mbh_length h) l1) as [[b|e| | |] l2]; try discriminate. injection E2 as -> _.
    exact (tail_not_ours t HC).
  Qed.
  Lemma with_header_pair s : read_metadata_block_with_header rb m un s
    = (let (o, s') := (h <- read_metadata_block_header rb ;; b <- read_metadata_block rb m un (mbh_block_type h) (mbh_length h) ;; ret (mbh_is_last h, b)) s in
       (p <~ o ;; Ok (snd p), s')).
  Proof.
    unfold read_metadata_block_with_header, bind. destruct (read_metadata_block_header rb s) as [[h| | | |] s1]; try reflexivity.
    destruct (read_metadata_block rb m un _ _ s1) as [[b| | | |] s2]; reflexivity.
  Qed.

  (** All results of reading a block with its header. *)
  Lemma pair_cases st l : D st l ->
    match (h <- read_metadata_block_header rb ;; b <- read_metadata_block rb m un (mbh_block_type h) (mbh_length h) ;; ret (mbh_is_last h, b)) st with
    | (Ok (last, b), st') => exists w rest, l = w ++ rest /\ block_code last b w /\ D st' rest
    | (Err e, st') => (exists w rest, l = w ++ rest /\ block_fault e w /\ D st' rest) \/ (e = tail_error t /\ cut_short l)
    | _ => False
    end.
  Proof.
    intros HD. pose proof (parses_result rb t D HS _ _ _ st l (next_pair_sim rb t D HS m un Hun) (next_parses t m un Hun) HD) as H.
    destruct ((h <- read_metadata_block_header rb ;; _) st) as [[[last b]|e| | |] st'] eqn:E; try contradiction.
    - destruct H as (w & rest & -> & Hc & HD'). exists w, rest. auto.
    - destruct (flaws_explains _ _ _ st l e st' (next_pair_sim rb t D HS m un Hun) (next_flaws t m un Hun) block_fault_ours HD E) as [HF| ->]; [left; exact HF|right].
      split; [reflexivity|]. destruct (sim_fst D _ _ st l (next_pair_sim rb t D HS m un Hun) HD) as [E' _]. rewrite E in E'. cbn [fst] in E'.
      eapply flat_cut; [exact (Hbytes _ _ HD)|]. eapply surj. symmetry. exact E'.
  Qed.
  Theorem block_cases st l : D st l ->
    match read_metadata_block_with_header rb m un st with
    | (Ok b, st') => exists last w rest, l = w ++ rest /\ block_code last b w /\ D st' rest
    | (Err e, st') => (exists w rest, l = w ++ rest /\ block_fault e w /\ D st' rest) \/ (e = tail_error t /\ cut_short l)
    | _ => False
    end.
  Proof.
    intros HD. rewrite with_header_pair. pose proof (pair_cases st l HD) as H.
    destruct ((h <- read_metadata_block_header rb ;; _) st) as [[[last b]|e| | |] st'] eqn:E; try contradiction; [|exact H].
    cbn [obind snd]. exists last. exact H.
  Qed.

  (** ** The iterator *)
  Lemma next_cases st l : D st l ->
    (exists last b w rest st', block_code last b w /\ l = w ++ rest /\ D st' rest /\ mr_next rb m un (mkMr st false) = (Ok (Some (ROk b)), mkMr st' last))
    \/ (exists e w rest st', block_fault e w /\ l = w ++ rest /\ D st' rest /\ mr_next rb m un (mkMr st false) = (Ok (Some (RErr e)), mkMr st' true))
    \/ (exists st', cut_short l /\ (forall e w rest, l = w ++ rest -> ~ block_fault e w)
        /\ mr_next rb m un (mkMr st false) = (Ok (Some (RErr (tail_error t))), mkMr st' true)).
  Proof.
    intros HD. unfold mr_next. rewrite bind_get. cbn [mr_done]. unfold bind, catch. rewrite read_next_pair. cbn [mr_input mr_done].
    pose proof (pair_cases st l HD) as H.
    destruct ((h <- read_metadata_block_header rb ;; _) st) as [[[last b]|e| | |] st'] eqn:E; try contradiction.
    - left. destruct H as (w & rest & -> & Hc & HD'). exists last, b, w, rest, st'. auto.
    - right. destruct H as [(w & rest & -> & Hf & HD')|[-> Hcut]]; [left; exists e, w, rest, st'; auto|right]. exists st'. split; [exact Hcut|].
      split; [|reflexivity]. intros e w rest -> Hf.
      destruct (flaws_reports _ _ _ st e w rest (next_pair_sim rb t D HS m un Hun) (next_flaws t m un Hun) HD Hf (block_fault_ours _ _ Hf)) as (st2 & E2 & _).
      pose proof (eq_trans (eq_sym E) E2) as E3. injection E3 as <- _. exact (tail_not_ours t (block_fault_ours _ _ Hf)).
  Qed.
  Lemma diagnosed : forall k st l, (length l <= k)%nat -> D st l ->
    exists items, diagnosed_items (tail_error t) l items /\ iterates rb m un (mkMr st false) items.
  Proof.
    induction k as [|k IH]; intros st l Hk HD;
    destruct (next_cases st l HD) as [(last & b & w & rest & st' & Hc & -> & HD' & E)|[(e & w & rest & st' & Hf & -> & HD' & E)|(st' & Hcut & Hn & E)]].
    - pose proof (block_code_len _ _ _ Hc). rewrite app_length in Hk. lia.
    - exists [RErr e]. split; [apply diagnosed_fault, Hf|]. eapply iterates_last; [exact Hun|exact E].
    - exists [RErr (tail_error t)]. split; [apply diagnosed_end; assumption|]. eapply iterates_last; [exact Hun|exact E].
    - pose proof (block_code_len _ _ _ Hc). rewrite app_length in Hk. destruct last.
      + exists [ROk b]. split; [apply diagnosed_last, Hc|]. eapply iterates_last; [exact Hun|exact E].
      + destruct (IH st' rest ltac:(lia) HD') as (items & H1 & H2). exists (ROk b :: items).
        split; [apply diagnosed_more; assumption|]. eapply iterates_cons; [exact Hun|exact E|exact H2].
    - exists [RErr e]. split; [apply diagnosed_fault, Hf|]. eapply iterates_last; [exact Hun|exact E].
    - exists [RErr (tail_error t)]. split; [apply diagnosed_end; assumption|]. eapply iterates_last; [exact Hun|exact E].
  Qed.
  Theorem iterator_diagnosed st l : D st l -> exists items, diagnosed_items (tail_error t) l items /\ forall n,
    fst (history_all (fun _ : unit => mr_next rb m un) (repeat tt n) (mr_new st)) = firstn n (map (fun x => Ok (Some x)) items ++ repeat (Ok None) n).
  Proof.
    intros HD. destruct (diagnosed (length l) st l (le_n _) HD) as (items & H1 & H2). exists items. split; [exact H1|].
    intros n. change (mr_new st) with (mkMr st false). destruct (H2 n) as (E1 & _). exact E1.
  Qed.

  (** ** Opening *)
  Lemma loop_cases : forall fuel opts vc st l, D st l -> (length l < fuel)%nat ->
    match metadata_loop rb m un fuel opts vc (mkMr st false) with
    | (Err e, s') => (exists w rest, l = w ++ rest /\ loop_fault opts vc e w /\ D (mr_input s') rest) \/ (e = tail_error t /\ loop_cut opts vc l)
    | _ => True
    end.
  Proof.
    induction fuel as [|fuel IH]; intros opts vc st l HD Hf; [lia|].
    destruct (next_cases st l HD) as [(last & b & w & rest & st' & Hc & -> & HD' & E)|[(e & w & rest & st' & Hfl & -> & HD' & E)|(st' & Hcut & Hn & E)]].
    2:{ rewrite (loop_error _ _ _ _ _ _ _ _ _ _ E). left. exists w, rest. split; [reflexivity|]. split; [apply loop_block_fault, Hfl|exact HD']. }
    2:{ rewrite (loop_error _ _ _ _ _ _ _ _ _ _ E). right. split; [reflexivity|]. apply loop_cut_here, Hcut. }
    rewrite (loop_block _ _ _ _ _ _ _ _ _ _ E). pose proof (block_code_len _ _ _ Hc) as Hlen. rewrite app_length in Hf.
    destruct (keep_value vc opts b) as [(vc' & opts' & Hk)|(e & Hk)]; rewrite Hk.
    - destruct (has_desired_blocks opts') eqn:Hd; cbn [negb]; [|exact Logic.I]. destruct last.
      + destruct fuel as [|fuel']; [lia|]. rewrite loop_done. exact Logic.I.
      + specialize (IH opts' vc' st' rest HD' ltac:(lia)). destruct (metadata_loop rb m un fuel opts' vc' (mkMr st' false)) as [[o|e| | |] s']; auto.
        destruct IH as [(w2 & rest2 & -> & Hl & HD2)|[-> Hl]].
        * left. exists (w ++ w2), rest2. split; [apply app_assoc|]. split; [eapply loop_on; eauto|exact HD2].
        * right. split; [reflexivity|]. eapply loop_cut_on; eauto.
    - left. exists w, rest. split; [reflexivity|]. split; [|exact HD'].
      apply keep_err in Hk as [(si & -> & ->)|(v & v' & -> & -> & ->)]; [eapply loop_streaminfo, Hc|eapply loop_comment, Hc].
  Qed.
  Lemma next_block st last b w rest : block_code last b w -> D st (w ++ rest) ->
    exists st', mr_next rb m un (mkMr st false) = (Ok (Some (ROk b)), mkMr st' last) /\ D st' rest.
  Proof.
    intros Hc HD. pose proof (Hbytes _ _ HD) as Hb.
    destruct (next_result rb t D HS m un Hun st _ HD) as [(last' & b' & w' & rest' & st' & Hc' & El & HD' & E)|(e & st' & Hn & E)].
    - destruct (block_unique _ _ _ _ _ _ _ _ Hb Hc Hc' El) as (<- & <- & <- & <-). eauto.
    - exfalso. exact (Hn _ _ _ _ eq_refl Hc).
  Qed.
  Lemma next_fault st e w rest : block_fault e w -> D st (w ++ rest) ->
    exists st', mr_next rb m un (mkMr st false) = (Ok (Some (RErr e)), mkMr st' true) /\ D st' rest.
  Proof.
    intros Hf HD. pose proof (Hbytes _ _ HD) as Hb.
    destruct (next_cases st _ HD) as [(last & b & w' & rest' & st' & Hc & El & HD' & E)|[(e' & w' & rest' & st' & Hfl & El & HD' & E)|(st' & Hcut & Hn & E)]].
    - exfalso. symmetry in El. rewrite <- El in Hb. exact (block_not_fault _ _ _ _ _ _ _ Hb Hc Hf El).
    - destruct (block_fault_unique _ _ _ _ _ _ Hb Hf Hfl El) as (<- & <- & <-). eauto.
    - exfalso. exact (Hn _ _ _ eq_refl Hf).
  Qed.
  Lemma loop_reports opts vc e w : loop_fault opts vc e w -> forall fuel st rest, D st (w ++ rest) -> (length (w ++ rest) < fuel)%nat ->
    exists s', metadata_loop rb m un fuel opts vc (mkMr st false) = (Err e, s') /\ D (mr_input s') rest.
  Proof.
    intros H. induction H as [opts vc e w H|opts vc last si w H|opts v last v' w H|opts vc b w opts' vc' e w' Hc Hk Hd H IH]; intros fuel st rest HD Hf;
      (destruct fuel as [|fuel]; [lia|]).
    - destruct (next_fault st e w rest H HD) as (st' & E & HD'). exists (mkMr st' true). rewrite (loop_error _ _ _ _ _ _ _ _ _ _ E). auto.
    - destruct (next_block st _ _ w rest H HD) as (st' & E & HD'). eexists. rewrite (loop_block _ _ _ _ _ _ _ _ _ _ E). split; [reflexivity|exact HD'].
    - destruct (next_block st _ _ w rest H HD) as (st' & E & HD'). eexists. rewrite (loop_block _ _ _ _ _ _ _ _ _ _ E). split; [reflexivity|exact HD'].
    - rewrite <- app_assoc in *. destruct (next_block st _ _ w _ Hc HD) as (st' & E & HD'). rewrite (loop_block _ _ _ _ _ _ _ _ _ _ E), Hk, Hd.
      cbn [negb]. apply IH; [exact HD'|]. pose proof (block_code_len _ _ _ Hc). rewrite (app_length w) in Hf. lia.
  Qed.
End Stream.
