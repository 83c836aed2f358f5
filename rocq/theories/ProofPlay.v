(** Mixed calls on files with damaged frames: C60 and C61. *)
From Verif Require Export SpecPlay ProofWhole ProofSession ProofFault2.
From Verif Require Import SpecReader.

(** * Damaged frames *)
Section Flat.
  Context (t : tail) (m : build).

  Lemma frame_bytes h chs w : frame_code h chs w -> bytes_ok w.
  Proof.
    intros (hw & bps & bits & pad & body & crc & Hh & _ & _ & Hb & _ & _ & [Hc _] & ->).
    apply bytes_app. split; [apply (header_bytes h), Hh|]. apply bytes_app. split; [exact Hb|].
    apply bytes_cons. split; [unfold is_byte; lia|]. apply bytes_cons. split; [unfold is_byte; lia|constructor].
  Qed.
  Lemma end_flat l : (length l <= 1)%nat -> forall k, t = TErr k -> fst (fl_frame t m l l) = Err (tail_error t).
  Proof. destruct l as [|a [|b l]]; cbn [length]; intros H k ->; [reflexivity|reflexivity|lia]. Qed.
End Flat.

Section Play.
  Context {S : Type} (rb : ReadBytes S) (t : tail) (D : S -> list Z -> Prop) (HS : stream rb t D).
  Context (m : build) (fuel : nat).
  Notation next := (read_next_or_eof rb m fuel).
  Notation Hrs := (stream_rb_sim rb t D HS no_esc).
  Notation Hes := (stream_eof_sim rb t D HS no_esc).
  Notation Hbytes := (st_bytes rb t D HS).

  Theorem next_reports buffer st e w rest : frame_fault e w -> D st (w ++ rest) -> (length (w ++ rest) < fuel)%nat ->
    exists st', next buffer st = (Err e, st') /\ D st' rest.
  Proof.
    intros Hw HD Hf. pose proof (Hbytes _ _ HD) as Hb. apply bytes_app in Hb as [_ Hb].
    pose proof (frame_left_full rb t D Hrs Hes Hbytes m fuel st _ buffer HD Hf) as H. cbv zeta in H.
    rewrite (frame_reports t m e w rest Hw Hb) in H. cbn [fst snd] in H.
    destruct (next buffer st) as [o st']. cbn [fst snd] in H. destruct o; try discriminate H.
    - destruct H as (x & E & _). discriminate E.
    - destruct H as [E H]. injection E as <-. exists st'. split; [reflexivity|]. apply H. eapply fault_ours, Hw.
  Qed.
  Lemma frame_breaks buffer st l k : t = TErr k -> (length l <= 1)%nat -> (1 < fuel)%nat -> D st l ->
    fst (next buffer st) = Err (tail_error t).
  Proof.
    intros Ht Hl Hf HD. pose proof (frame_left rb t D Hrs Hes Hbytes m fuel st _ buffer HD ltac:(lia)) as H. cbv zeta in H.
    pose proof (end_flat t m l Hl k Ht) as E. rewrite E in H.
    destruct (fst (next buffer st)); try discriminate H; [destruct H as (x & E' & _); discriminate E'|congruence].
  Qed.

  (** What the iterator holds. *)
  Definition holds (it : flac_samples S) (inp : S) (p : player) : Prop :=
    fs_frame_reader it = inp /\
    ((p_failed p = true /\ fs_has_failed it = true)
     \/ (p_failed p = false /\ p_rest p = [] /\ exists buffer, boundary it buffer inp)
     \/ (p_failed p = false /\ exists b chs i k, it = at_pos b inp i k /\ block_holds b chs
          /\ (i < Z.to_nat (block_duration b))%nat /\ (k < length chs)%nat
          /\ p_rest p = skipn (i * length chs + k + 1) (interleave (Z.to_nat (block_duration b)) chs))).
  Definition stands (s : session S) (p : player) : Prop :=
    exists inp l, items_code (p_items p) l /\ D inp l /\ (length l + 1 < fuel)%nat
      /\ match se_samples s with
         | None => fr_input (se_reader s) = Full inp /\ p_rest p = [] /\ p_failed p = false
         | Some it => (exists x, fr_input (se_reader s) = Full x) /\ holds it inp p
         end.

  Lemma stands_dropped s p : stands s p -> exists inp l, items_code (p_items p) l /\ D inp l /\ (length l + 1 < fuel)%nat
    /\ fr_input (drop_samples s) = Full inp.
  Proof.
    intros (inp & l & Hi & HD & Hf & H). exists inp, l. repeat (split; [assumption|]). unfold drop_samples.
    destruct (se_samples s) as [it|]; [|apply H]. destruct H as [[x Hx] [Hh _]]. unfold with_input. rewrite Hx. cbn. congruence.
  Qed.

  Definition io_answer (a : answer) : bool := match a with AError (IoError _) => true | _ => false end.

  (** One item read. *)
  Lemma item_read buffer inp its l : items_code its l -> D inp l -> (length l + 1 < fuel)%nat ->
    match its with
    | [] => (forall a, when_over t a = a) /\ (exists inp', next buffer inp = (Ok None, inp') /\ D inp' [])
        \/ exists k, (forall a, when_over t a = AError (IoError k)) /\ fst (next buffer inp) = Err (IoError k)
    | Frame h chs :: its' => exists b inp' l', next buffer inp = (Ok (Some b), inp') /\ block_shows b h chs /\ block_holds b chs
        /\ items_code its' l' /\ D inp' l' /\ (length l' + 1 < fuel)%nat
    | Fault e :: its' => exists inp' l', next buffer inp = (Err e, inp') /\ ours e
        /\ items_code its' l' /\ D inp' l' /\ (length l' + 1 < fuel)%nat
    end.
  Proof.
    intros Hi HD Hf. destruct Hi as [l Hb Hl|i w its l Hi Hits].
    - assert (t = TEof \/ exists k, t = TErr k) as [Et|[k Et]] by (destruct t; eauto); [left|right; exists k].
      + split; [rewrite Et; reflexivity|]. apply (frame_ends rb t D HS m fuel buffer inp l Et Hl ltac:(lia) HD).
      + split; [rewrite Et; reflexivity|]. rewrite (frame_breaks buffer inp l k Et Hl); [rewrite Et; reflexivity|lia|exact HD].
    - assert (length (w ++ l) < fuel)%nat as Hf' by lia. rewrite app_length in Hf. destruct Hi as [h chs w Hw|e w Hw].
      + destruct (frame_decoded rb t D HS m fuel buffer inp h chs w l Hw HD Hf') as (b & inp' & E & Hb & HD').
        exists b, inp', l. repeat (split; [assumption|]). split; [|split; [assumption|]; split; [assumption|lia]].
        destruct Hw as (hw & ? & ? & ? & ? & ? & Hh & _). exact (shows_holds b h chs hw Hh Hb).
      + destruct (next_reports buffer inp e w l Hw HD Hf') as (inp' & E & HD').
        exists inp', l. split; [assumption|]. split; [eapply fault_ours, Hw|]. split; [assumption|]. split; [assumption|lia].
  Qed.

  (** The first sample of a block. *)
  Lemma first_sample b chs (inp : S) : block_holds b chs ->
    exists x r, interleave (Z.to_nat (block_duration b)) chs = x :: r
      /\ fs_yield (mkFs inp b 0 0 false) = (Ok (Some (ROk x)), mkFs inp b 0 0 false).
  Proof.
    intros Hb. destruct (holds_nch b chs Hb) as (N1 & N2 & N3 & N4).
    destruct (nth_error chs 0) as [c|] eqn:Ec; [|apply nth_error_None in Ec; lia].
    pose proof (skipn_nth _ _ _ (interleave_nth (Z.to_nat (block_duration b)) chs 0 0 c ltac:(lia) Ec)) as E0.
    cbn [Nat.mul Nat.add] in E0. change (skipn 0 ?l) with l in E0. eexists _, _. split; [exact E0|].
    exact (yield_at b chs Hb inp 0 0 c Ec ltac:(lia)).
  Qed.

  (** One sample. *)
  Lemma iterator_step it inp p l : holds it inp p -> items_code (p_items p) l -> D inp l -> (length l + 1 < fuel)%nat ->
    let (a, p') := answer_step t NextSample p in
    let (o, it') := fs_next rb m fuel it in
    answered (x <~ o ;; match x with Some (ROk v) => Ok (GotSample (Some v)) | Some (RErr e) => Err e | None => Ok (GotSample None) end) a
    /\ (io_answer a = false -> exists inp' l', holds it' inp' p' /\ items_code (p_items p') l' /\ D inp' l' /\ (length l' + 1 < fuel)%nat).
  Proof.
    intros [Hr Hh] Hi HD Hf. cbn [answer_step].
    assert (forall buffer, boundary it buffer inp -> p_failed p = false -> p_rest p = [] ->
      let (a, p') := answer_step t NextSample p in
      let (o, it') := fs_next rb m fuel it in
      answered (x <~ o ;; match x with Some (ROk v) => Ok (GotSample (Some v)) | Some (RErr e) => Err e | None => Ok (GotSample None) end) a
      /\ (io_answer a = false -> exists inp' l', holds it' inp' p' /\ items_code (p_items p') l' /\ D inp' l' /\ (length l' + 1 < fuel)%nat)) as X.
    { intros buffer HB Ep Er. cbn [answer_step]. rewrite Ep, Er.
      pose proof (item_read buffer inp (p_items p) l Hi HD Hf) as HI.
      destruct (p_items p) as [|[h chs|e] its] eqn:Eits.
      - destruct HI as [(-> & inp' & E & HD')|(k & -> & HI)].
        + rewrite (step_boundary rb m fuel it buffer inp _ inp' HB E).
          split; [reflexivity|]. intros _. exists inp', []. split; [|split; [rewrite Eits; constructor; [constructor|cbn; lia]|split; [exact HD'|cbn; lia]]].
          split; [reflexivity|]. right. left. split; [exact Ep|]. split; [exact Er|]. eexists. apply boundary_start.
        + destruct (next buffer inp) as [o inp'] eqn:E. cbn [fst] in HI. subst o.
          rewrite (step_boundary rb m fuel it buffer inp _ inp' HB E). split; [reflexivity|discriminate].
      - destruct HI as (b & inp' & l' & E & Hb & Hbh & Hi' & HD' & Hf').
        rewrite (step_boundary rb m fuel it buffer inp _ inp' HB E).
        destruct (first_sample b chs inp' Hbh) as (x & r & Ex & Ey). rewrite Ey.
        assert (h_size h = block_duration b) as -> by (destruct Hb as (_ & -> & _); reflexivity). rewrite Ex.
        split; [reflexivity|]. intros _. exists inp', l'. split; [|auto]. split; [reflexivity|]. right. right. split; [reflexivity|].
        destruct (holds_nch b chs Hbh) as (N1 & N2 & N3 & N4).
        exists b, chs, 0%nat, 0%nat. split; [reflexivity|]. split; [exact Hbh|]. split; [lia|]. split; [lia|]. rewrite Ex. reflexivity.
      - destruct HI as (inp' & l' & E & Ho & Hi' & HD' & Hf').
        rewrite (step_boundary rb m fuel it buffer inp _ inp' HB E). split; [reflexivity|]. intros _.
        exists inp', l'. split; [|auto]. split; [reflexivity|]. left. auto. }
    destruct Hh as [[Ep Hfail]|[(Ep & Er & buffer & HB)|(Ep & b & chs & i & k & -> & Hb & Hbi & Hbk & Er)]].
    - rewrite Ep. rewrite (step_failed rb m fuel it Hfail). split; [reflexivity|]. intros _. exists inp, l. split; [|auto].
      split; [exact Hr|]. left. auto.
    - exact (X buffer HB Ep Er).
    - destruct (holds_nch b chs Hb) as (N1 & N2 & N3 & N4).
      destruct (Nat.eq_dec (Datatypes.S k) (length chs)) as [Ek|Ek].
      + destruct (Nat.eq_dec (Datatypes.S i) (Z.to_nat (block_duration b))) as [Ei|Ei].
        * apply (X (block_into_buffer b)); [|exact Ep|].
          -- pose proof (boundary_last b chs inp Hb) as HB.
             replace (Z.to_nat (block_duration b) - 1)%nat with i in HB by lia. replace (length chs - 1)%nat with k in HB by lia. exact HB.
          -- rewrite Er, skipn_all2; [reflexivity|]. rewrite interleave_length. nia.
        * destruct (nth_error chs 0) as [c|] eqn:Ec; [|apply nth_error_None in Ec; lia].
          assert (Datatypes.S i < Z.to_nat (block_duration b))%nat as Hi' by lia.
          replace (i * length chs + k + 1)%nat with (Datatypes.S i * length chs + 0)%nat in Er by (cbn; lia).
          rewrite (skipn_nth _ _ _ (interleave_nth _ chs (Datatypes.S i) 0 c Hi' Ec)) in Er.
          rewrite (step_sample rb m fuel b chs Hb inp i k c Ek Ec Hi'). rewrite Ep, Er. split; [reflexivity|]. intros _.
          exists inp, l. split; [|auto]. split; [reflexivity|]. right. right. split; [reflexivity|].
          exists b, chs, (Datatypes.S i), 0%nat. split; [reflexivity|]. split; [exact Hb|]. split; [lia|]. split; [lia|].
          cbn [p_rest]. f_equal. lia.
      + destruct (nth_error chs (Datatypes.S k)) as [c|] eqn:Ec; [|apply nth_error_None in Ec; lia].
        replace (i * length chs + k + 1)%nat with (i * length chs + Datatypes.S k)%nat in Er by lia.
        rewrite (skipn_nth _ _ _ (interleave_nth _ chs i (Datatypes.S k) c Hbi Ec)) in Er.
        rewrite (step_channel rb m fuel b chs Hb inp i k c Ec Hbi). rewrite Ep, Er. split; [reflexivity|]. intros _.
        exists inp, l. split; [|auto]. split; [reflexivity|]. right. right. split; [reflexivity|].
        exists b, chs, i, (Datatypes.S k). split; [reflexivity|]. split; [exact Hb|]. split; [lia|]. split; [lia|].
        cbn [p_rest]. f_equal. lia.
  Qed.

  Lemma play_step c s p : stands s p ->
    let (a, p') := answer_step t c p in
    let (o, s') := session_step rb m fuel c s in
    answered o a /\ (io_answer a = false -> stands s' p').
  Proof.
    intros Hs. destruct c as [buffer| |].
    - destruct (stands_dropped s p Hs) as (inp & l & Hi & HD & Hf & Ei). cbn [answer_step session_step].
      unfold fr_blocks. rewrite Ei. pose proof (item_read buffer inp (p_items p) l Hi HD Hf) as HI.
      assert (forall inp' l' its, items_code its l' -> D inp' l' -> (length l' + 1 < fuel)%nat ->
        stands (mkSession (with_input (drop_samples s) inp') None) (mkPlayer its [] false)) as X.
      { intros inp' l' its A1 A2 A3. exists inp', l'. cbn [p_items se_samples se_reader p_rest p_failed with_input fr_input]. rewrite Ei. repeat split; auto. }
      destruct (p_items p) as [|[h chs|e] its].
      + destruct HI as [(-> & inp' & E & HD')|(k & -> & HI)].
        * rewrite E. split; [reflexivity|]. intros _. apply (X inp' []); [|exact HD'|cbn; lia].
          constructor; [constructor|cbn; lia].
        * destruct (next buffer inp) as [o inp']. cbn [fst] in HI. subst o. split; [reflexivity|discriminate].
      + destruct HI as (b & inp' & l' & E & Hb & _ & Hi' & HD' & Hf'). rewrite E. split; [exists b; auto|]. intros _. eapply X; eassumption.
      + destruct HI as (inp' & l' & E & _ & Hi' & HD' & Hf'). rewrite E. split; [reflexivity|]. intros _. eapply X; eassumption.
    - destruct Hs as (inp & l & Hi & HD & Hf & Hs). cbn [session_step].
      assert (forall it, (exists x, fr_input (se_reader s) = Full x) -> holds it inp p ->
        let (a, p') := answer_step t NextSample p in
        let (o, s') := (let (o, it') := fs_next rb m fuel it in
          (x <~ o ;; match x with Some (ROk v) => Ok (GotSample (Some v)) | Some (RErr e) => Err e | None => Ok (GotSample None) end,
           mkSession (se_reader s) (Some it'))) in
        answered o a /\ (io_answer a = false -> stands s' p')) as X.
      { intros it Hx Hh. pose proof (iterator_step it inp p l Hh Hi HD Hf) as H.
        destruct (answer_step t NextSample p) as [a p'], (fs_next rb m fuel it) as [o it'].
        destruct H as [H1 H2]. split; [exact H1|]. intros Hio. destruct (H2 Hio) as (inp' & l' & A1 & A2 & A3 & A4).
        exists inp', l'. cbn [se_samples se_reader]. auto. }
      destruct (se_samples s) as [it|].
      + destruct Hs as [Hx Hh]. exact (X it Hx Hh).
      + destruct Hs as (E1 & E2 & E3). unfold fr_samples. rewrite E1. apply X; [eauto|]. split; [reflexivity|].
        right. left. split; [exact E3|]. split; [exact E2|]. eexists. apply boundary_start.
    - destruct (stands_dropped s p Hs) as (inp & l & Hi & HD & Hf & Ei). cbn [answer_step session_step].
      split; [reflexivity|]. intros _. exists inp, l. cbn. repeat split; auto.
  Qed.

  Lemma answered_source o a : answered o a -> from_source o = io_answer a.
  Proof.
    destruct a as [[[h chs]|]|x| |e]; cbn [answered io_answer].
    - intros (b & -> & _). reflexivity.
    - intros ->. reflexivity.
    - intros ->. reflexivity.
    - intros ->. reflexivity.
    - intros ->. destruct e; reflexivity.
  Qed.

  Theorem play calls : forall s p, stands s p ->
    Forall2 answered (fst (history_until_io (session_step rb m fuel) calls s)) (answers t calls p).
  Proof.
    induction calls as [|c calls IH]; intros s p Hs; [constructor|]. cbn [history_until_io answers].
    pose proof (play_step c s p Hs) as H. destruct (answer_step t c p) as [a p'], (session_step rb m fuel c s) as [o s'].
    destruct H as [H1 H2]. rewrite (answered_source o a H1). specialize (IH s' p').
    destruct (history_until_io (session_step rb m fuel) calls s') as [rs s'']. cbn [fst] in IH.
    assert (match a with AError (IoError _) => [a] | _ => a :: answers t calls p' end
            = if io_answer a then [a] else a :: answers t calls p') as -> by (destruct a as [| | |[]]; reflexivity).
    destruct (io_answer a); cbn [fst]; constructor; auto.
  Qed.

  Theorem play_input r inp its l calls : fr_blocks r = Ok inp -> D inp l -> items_code its l -> (length l + 1 < fuel)%nat ->
    Forall2 answered (fst (history_until_io (session_step rb m fuel) calls (mkSession r None))) (answers t calls (mkPlayer its [] false)).
  Proof.
    intros Hr HD Hi Hf. apply play. exists inp, l. cbn [p_items se_samples se_reader p_rest p_failed].
    repeat (split; [assumption|]). split; [|auto]. unfold fr_blocks in Hr. destruct (fr_input r); [congruence|discriminate].
  Qed.
End Play.

Section File.
  Context {S : Type} (rb : ReadBytes S) (t : tail) (D : S -> list Z -> Prop) (HS : stream rb t D).
  Context (m : build) (un : nat -> list Z) (Hun : forall n, length (un n) = n) (fuel : nat).

  Theorem play_file si vc its st l : damaged_file_code si vc its l -> D st l -> (length l + 1 < fuel)%nat ->
    exists r, fst (new_ext rb m un fuel default_options st) = Ok r
      /\ fr_get_streaminfo r = si /\ fr_vorbis_comment r = vc
      /\ forall calls, Forall2 answered (fst (history_until_io (session_step rb m fuel) calls (mkSession r None)))
                                (answers t calls (mkPlayer its [] false)).
  Proof.
    intros (w & l' & Hw & Hi & ->) HD Hf.
    destruct (new_accepts rb t D HS m un Hun fuel st si vc w l' Hw HD ltac:(lia)) as (r & inp & E1 & E2 & E3 & E4 & HD').
    exists r. repeat (split; [assumption|]). intros calls. rewrite app_length in Hf.
    exact (play_input rb t D HS m fuel r inp its l' calls E4 HD' Hi ltac:(lia)).
  Qed.
End File.

(** * Sources that just end *)
Lemma history_until_io_all {S O A} (f : O -> M S A) ops : forall st,
  Forall (fun r => from_source r = false) (fst (history_until_io f ops st)) ->
  history_all f ops st = history_until_io f ops st.
Proof.
  induction ops as [|o ops IH]; intros st HF; [reflexivity|]. cbn [history_all history_until_io] in *.
  destruct (f o st) as [r st']. destruct (from_source r) eqn:E; [inversion HF; congruence|].
  specialize (IH st'). destruct (history_until_io f ops st') as [rs s2]. cbn [fst] in *. inversion HF. rewrite IH by assumption. reflexivity.
Qed.
Lemma items_ours its l : items_code its l -> Forall (fun i => match i with Fault e => ours e | _ => True end) its.
Proof.
  induction 1 as [|i w its l Hi _ IH]; [constructor|]. constructor; [|exact IH]. destruct Hi as [|e w Hw]; [exact I|eapply fault_ours, Hw].
Qed.
Lemma answers_eof calls : forall p, Forall (fun i => match i with Fault e => ours e | _ => True end) (p_items p) ->
  Forall (fun a => io_answer a = false) (answers TEof calls p) /\ length (answers TEof calls p) = length calls.
Proof.
  induction calls as [|c calls IH]; intros p Hp; [split; [constructor|reflexivity]|]. cbn [answers].
  assert (let (a, p') := answer_step TEof c p in io_answer a = false
    /\ Forall (fun i => match i with Fault e => ours e | _ => True end) (p_items p')) as H.
  { destruct p as [its rest failed]. cbn [p_items] in Hp. destruct c; cbn [answer_step p_items p_failed p_rest].
    - destruct Hp as [|[h chs|e] its Hi Hp]; cbn; auto. destruct e; [destruct Hi|..]; auto.
    - destruct failed; [cbn; auto|]. destruct rest; [|cbn; auto].
      destruct Hp as [|[h chs|e] its Hi Hp]; cbn; auto.
      + destruct (interleave _ _); cbn; auto.
      + destruct e; [destruct Hi|..]; auto.
    - cbn. auto. }
  destruct (answer_step TEof c p) as [a p']. destruct H as [H1 H2]. destruct (IH p' H2) as [I1 I2].
  assert (match a with AError (IoError _) => [a] | _ => a :: answers TEof calls p' end = a :: answers TEof calls p') as ->
    by (destruct a as [| | |[]]; try reflexivity; discriminate H1).
  split; [constructor; assumption|]. cbn [length]. congruence.
Qed.
Lemma answered_eof os answers : Forall2 answered os answers -> Forall (fun a => io_answer a = false) answers ->
  Forall (fun r : outcome reply => from_source r = false) os.
Proof.
  induction 1 as [|o a os answers H _ IH]; intros HF; [constructor|]. inversion HF. subst. constructor; [|auto].
  rewrite (answered_source o a H). assumption.
Qed.

(** The whole history. *)
Theorem play_new m un fuel script si vc its l : (forall n, length (un n) = n) ->
  damaged_file_code si vc its l -> delivers TEof script l -> (length l + 1 < fuel)%nat ->
  exists r, flac_new m un fuel script = Ok r
    /\ fr_get_streaminfo r = si /\ fr_vorbis_comment r = vc
    /\ forall calls, Forall2 answered (fst (history_all (session_step (br_rb m) m fuel) calls (mkSession r None)))
                              (answers TEof calls (mkPlayer its [] false))
         /\ length (answers TEof calls (mkPlayer its [] false)) = length calls.
Proof.
  intros Hun Hc Hd Hf.
  destruct (play_file (br_rb m) TEof (buffered TEof) (br_stream m TEof) m un Hun fuel si vc its
    (br_new script) l Hc (br_new_buffered TEof script l Hd) Hf) as (r & E1 & E2 & E3 & H).
  exists r. split; [exact E1|]. split; [exact E2|]. split; [exact E3|]. intros calls.
  destruct Hc as (w & l' & _ & Hi & _). destruct (answers_eof calls (mkPlayer its [] false) (items_ours its l' Hi)) as [Ha Hl].
  split; [|exact Hl]. rewrite history_until_io_all; [exact (H calls)|]. exact (answered_eof _ _ (H calls) Ha).
Qed.
