(** A [BufferedReader] reads from its source only what is needed. *)
From Verif Require Export ProofSafe SpecSource.
From Verif Require Import SpecReader.

(** The last chunk that was taken is used in part. *)
Definition lz (sc : list event) (st : breader) : Prop :=
  exists taken, sc = map EvData taken ++ br_inner st
    /\ (taken = [] \/ exists t' c, taken = t' ++ [c] /\ 0 < len c /\ br_num_valid st - br_pos st < len c).
(** The last chunk was taken just now. *)
Definition fresh (sc : list event) (st : breader) : Prop :=
  exists t' c, sc = map EvData (t' ++ [c]) ++ br_inner st /\ 0 < len c /\ br_pos st = 0 /\ br_num_valid st = len c.
(** Positions make sense, and so does the rest of the script. *)
Definition sane (t : tail) (st : breader) : Prop :=
  0 <= br_pos st <= br_num_valid st /\ br_num_valid st <= 2048 /\ exists l, delivers t (br_inner st) l.

Lemma buffered_sane t st l : buffered t st l -> sane t st.
Proof.
  intros (pre & mid & post & l' & Hbuf & Hlen & Hpos & Hnv & Hb & Hd & Hl).
  pose proof (len_nonneg pre). pose proof (len_nonneg mid). pose proof (len_nonneg post).
  rewrite Hbuf, !len_app in Hlen. repeat split; eauto; lia.
Qed.

Lemma refill_cases st st' : br_refill st = (Ok tt, st') ->
  (br_inner st = [] /\ br_inner st' = [] /\ br_num_valid st' = 0 /\ br_pos st' = 0)
  \/ exists c, br_inner st = EvData c :: br_inner st' /\ br_num_valid st' = u32 (len c) /\ br_pos st' = 0.
Proof.
  unfold br_refill, br_set_pos, inner_read, bind, br_set_num_valid. cbn [br_inner br_buf br_pos br_num_valid].
  destruct (br_inner st) as [|[c|k] r] eqn:E; cbn [br_inner br_buf br_pos br_num_valid]; intros H; inversion H; cbn; auto.
  right. exists c. auto.
Qed.

Lemma refill_lz t sc st st' : sane t st -> lz sc st -> br_refill st = (Ok tt, st') ->
  sane t st' /\ ((br_num_valid st' = 0 /\ lz sc st') \/ (br_num_valid st' <> 0 /\ fresh sc st')).
Proof.
  intros (Hp & Hn & l & Hd) (taken & Es & Ht) Hr. destruct (refill_cases _ _ Hr) as [(E & E' & Hv & Hp')|(c & E & Hv & Hp')].
  - split; [unfold sane; rewrite Hv, Hp', E'; rewrite E in Hd; repeat split; eauto; lia|].
    left. split; [exact Hv|]. exists taken. rewrite E'. rewrite E in Es. split; [exact Es|].
    destruct Ht as [->|(t' & c & -> & Hc & _)]; [left; reflexivity|]. right. exists t', c. repeat split; auto.
    rewrite Hv, Hp'. lia.
  - rewrite E in Hd, Es. inversion Hd as [| |c' r l' Hc Hd' E1]; subst. pose proof Hc as [_ Hcl]. rewrite u32_id in Hv by lia.
    split; [unfold sane; rewrite Hv, Hp'; repeat split; eauto; lia|].
    right. split; [lia|]. exists taken, c. rewrite map_app, <- app_assoc. repeat split; auto; lia.
Qed.

(** Moving on in the buffer. *)
Lemma move_lz t sc st p st' : sane t st -> lz sc st \/ (fresh sc st /\ br_pos st < p) ->
  br_inner st' = br_inner st -> br_num_valid st' = br_num_valid st -> br_pos st' = p ->
  br_pos st <= p <= br_num_valid st -> sane t st' /\ lz sc st'.
Proof.
  intros (Hp & Hn & l & Hd) H Ei Ev Ep Hle. split; [unfold sane; rewrite Ei, Ev, Ep; repeat split; eauto; lia|].
  unfold lz. rewrite Ei, Ev, Ep. destruct H as [(taken & Es & Ht)|[(t' & c & Es & Hc & H0 & Hv) Hlt]].
  - exists taken. split; [exact Es|]. destruct Ht as [->|(t' & c & -> & Hc & Hl)]; [auto|]. right. exists t', c. repeat split; auto; lia.
  - exists (t' ++ [c]). split; [exact Es|]. right. exists t', c. repeat split; auto; lia.
Qed.

Lemma index_unchecked_lt {A} (l : list A) i x : index_unchecked l i = Ok x -> 0 <= i < len l.
Proof.
  unfold index_unchecked, len. destruct (Z.leb_spec 0 i); [|discriminate].
  destruct (nth_error l (Z.to_nat i)) eqn:E; [|discriminate]. intros _.
  apply nth_error_Some_lt in E || (assert (nth_error l (Z.to_nat i) <> None) as E' by congruence; apply nth_error_Some in E'). lia.
Qed.

Ltac run H := apply bind_ok in H as (? & ? & ? & H).

Section Buffered.
  Context (m : build) (t : tail) (sc : list event).

  Lemma u8_lz st b st' : sane t st -> lz sc st \/ fresh sc st -> br_pos st <> br_num_valid st \/ lz sc st ->
    br_read_u8 m st = (Ok b, st') -> sane t st' /\ lz sc st'.
  Proof.
    intros HI HL Hne H. unfold br_read_u8 in H. rewrite bind_get in H. apply bind_ok in H as ([] & st1 & H1 & H).
    rewrite bind_get in H. apply bind_ok in H as (x & s2 & H2 & H).
    assert (s2 = st1) as -> by (unfold lift in H2; congruence). clear H2.
    apply bind_ok in H as (p & s2 & H2 & H).
    unfold lift in H2. injection H2 as H2 <-. unfold br_set_pos, bind, ret in H. injection H as _ <-.
    assert (sane t st1 /\ br_pos st1 < br_num_valid st1 /\ (lz sc st1 \/ fresh sc st1)) as (HI1 & Hlt & HL1).
    { destruct (Z.eqb_spec (br_pos st) (br_num_valid st)) as [E|E].
      - apply bind_ok in H1 as ([] & s & Hr & H1). rewrite bind_get in H1.
        destruct Hne as [|HL']; [contradiction|].
        destruct (refill_lz t sc st s HI HL' Hr) as [Hs Hc].
        destruct (Z.eqb_spec (br_num_valid s) 0); [discriminate|]. injection H1 as ->.
        destruct Hc as [[]|[_ Hf]]; [contradiction|]. split; [exact Hs|]. split; [|auto].
        destruct Hs as (? & ? & _). destruct Hf as (? & ? & _ & ? & ? & ?). lia.
      - injection H1 as <-. split; [exact HI|]. split; [|exact HL]. destruct HI as (? & _). lia. }
    pose proof HI1 as (Hp1 & Hn1 & _). rewrite chk_u32 in H2 by lia. injection H2 as <-.
    eapply (move_lz t sc st1); try reflexivity; auto; cbn; [|lia].
    destruct HL1; [auto|right; split; [assumption|lia]].
  Qed.

  Lemma eof_lz st b st' : sane t st -> lz sc st -> br_read_u8_or_eof m st = (Ok b, st') -> sane t st' /\ lz sc st'.
  Proof.
    intros HI HL H. unfold br_read_u8_or_eof in H. rewrite bind_get in H. apply bind_ok in H as (e & st1 & H1 & H).
    assert (sane t st1 /\ if e : bool then lz sc st1 else (lz sc st1 \/ fresh sc st1) /\ (br_pos st1 <> br_num_valid st1 \/ lz sc st1)) as (HI1 & HL1).
    { destruct (Z.eqb_spec (br_pos st) (br_num_valid st)) as [E|E].
      - apply bind_ok in H1 as ([] & s & Hr & H1). rewrite bind_get in H1. unfold ret in H1. injection H1 as <- <-.
        destruct (refill_lz t sc st s HI HL Hr) as [Hs Hc]. split; [exact Hs|].
        destruct (Z.eqb_spec (br_num_valid s) 0).
        + destruct Hc as [[]|[]]; [assumption|contradiction].
        + destruct Hc as [[]|[_ Hf]]; [contradiction|]. split; [auto|]. left. destruct Hf as (? & ? & _ & ? & ? & ?). lia.
      - injection H1 as <- <-. auto. }
    destruct e.
    - injection H as _ <-. auto.
    - apply bind_ok in H as (x & s & Hu & H). injection H as _ <-. eapply u8_lz; try eassumption; apply HL1.
  Qed.

  Lemma skip_lz : forall fuel amount st st', 0 <= amount < 2 ^ 32 -> sane t st ->
    lz sc st \/ (fresh sc st /\ 0 < amount) ->
    br_skip_loop m fuel amount st = (Ok tt, st') -> sane t st' /\ lz sc st'.
  Proof.
    induction fuel as [|fuel IH]; intros amount st st' Ha HI HL H; cbn [br_skip_loop] in H;
      (destruct (Z.ltb_spec 0 amount) as [Hp|Hp];
        [|injection H as <-; split; [exact HI|]; destruct HL as [|[_ ?]]; [assumption|lia]]); [discriminate|].
    pose proof HI as (Hpp & Hn & _).
    rewrite bind_get in H. rewrite chk_u32 in H by lia. rewrite bind_lift_ok in H.
    rewrite chk_u32 in H by lia. rewrite bind_lift_ok in H. unfold bind at 1, br_set_pos at 1 in H.
    rewrite chk_u32 in H by lia. rewrite bind_lift_ok in H.
    set (k := Z.min amount (br_num_valid st - br_pos st)) in *.
    assert (sane t (mkBR (br_inner st) (br_buf st) (br_pos st + k) (br_num_valid st))
      /\ lz sc (mkBR (br_inner st) (br_buf st) (br_pos st + k) (br_num_valid st))) as [HI1 HL1].
    { eapply (move_lz t sc st); try reflexivity; cbn; auto; [|lia].
      destruct HL as [|[Hf _]]; [auto|right]. split; [exact Hf|]. destruct Hf as (? & ? & _ & ? & ? & ?). lia. }
    destruct (Z.ltb_spec 0 (amount - k)).
    - apply bind_ok in H as ([] & s & Hr & H). rewrite bind_get in H.
      destruct (refill_lz t sc _ s HI1 HL1 Hr) as [Hs Hc].
      destruct (Z.eqb_spec (br_num_valid s) 0); [discriminate|].
      destruct Hc as [[]|[_ Hf]]; [contradiction|]. apply (IH (amount - k) s st'); [lia|exact Hs|right; split; [exact Hf|lia]|exact H].
    - eapply (IH (amount - k)); [lia|exact HI1|left; exact HL1|exact H].
  Qed.

  Lemma slice_inv {A} (l : list A) a b x : slice l a b = Ok x -> 0 <= a <= b /\ b <= len l.
  Proof. unfold slice. destruct (_ && _) eqn:E; [|discriminate]. lia. Qed.

  Lemma into_lz : forall fuel buffer left st r st', 0 <= left <= len buffer -> len buffer < 2 ^ 63 -> sane t st ->
    lz sc st \/ (fresh sc st /\ 0 < left) ->
    br_read_into_loop m fuel buffer left st = (Ok r, st') -> sane t st' /\ lz sc st'.
  Proof.
    induction fuel as [|fuel IH]; intros buffer left st r st' Ha Hb HI HL H; cbn [br_read_into_loop] in H;
      (destruct (Z.ltb_spec 0 left) as [Hp|Hp];
        [|injection H as _ <-; split; [exact HI|]; destruct HL as [|[_ ?]]; [assumption|lia]]); [discriminate|].
    pose proof HI as (Hpp & Hn & _).
    rewrite bind_get in H. rewrite chk_u64 in H by lia. rewrite bind_lift_ok in H. rewrite chk_u32 in H by lia. rewrite bind_lift_ok in H.
    set (k := Z.min left (br_num_valid st - br_pos st)) in *. cbv zeta in H.
    apply bind_ok in H as (d & s & Hd & H). unfold lift in Hd. injection Hd as Hd <-.
    apply bind_ok in H as (src & s & Hsrc & H). unfold lift in Hsrc. injection Hsrc as Hsrc <-.
    rewrite chk_u64 in H by lia. rewrite bind_lift_ok in H.
    assert (0 <= k < 2 ^ 32) as Hk by lia. rewrite (u32_id k) in H by exact Hk. rewrite (chk_u32 m (br_pos st + k)) in H by lia. rewrite bind_lift_ok in H. unfold bind at 1, br_set_pos at 1 in H.
    assert (len (splice buffer (len buffer - left) src) = len buffer) as Hsp.
    { pose proof (slice_inv _ _ _ _ Hsrc) as Hsl. rewrite slice_ok in Hsrc by lia.
      injection Hsrc as <-. unfold splice, len in *. rewrite !app_length, !firstn_length, !skipn_length. lia. }
    assert (sane t (mkBR (br_inner st) (br_buf st) (br_pos st + k) (br_num_valid st))
      /\ lz sc (mkBR (br_inner st) (br_buf st) (br_pos st + k) (br_num_valid st))) as [HI1 HL1].
    { eapply (move_lz t sc st); try reflexivity; cbn; auto; [|lia].
      destruct HL as [|[Hf _]]; [auto|right]. split; [exact Hf|]. destruct Hf as (? & ? & _ & ? & ? & ?). lia. }
    destruct (Z.ltb_spec 0 (left - k)).
    - apply bind_ok in H as ([] & s & Hr & H). rewrite bind_get in H.
      destruct (refill_lz t sc _ s HI1 HL1 Hr) as [Hs Hc].
      destruct (Z.eqb_spec (br_num_valid s) 0); [discriminate|].
      destruct Hc as [[]|[_ Hf]]; [contradiction|]. eapply (IH _ (left - k) s r st'); [|rewrite Hsp; exact Hb|exact Hs|right; split; [exact Hf|lia]|exact H]. rewrite Hsp. lia.
    - eapply (IH _ (left - k)); [|rewrite Hsp; exact Hb|exact HI1|left; exact HL1|exact H]. rewrite Hsp. lia.
  Qed.

  (** In terms of the bytes. *)
  Context (all : list Z) (Hall : delivers t sc all).

  Lemma delivers_fun : forall sc l, delivers t sc l -> forall l', delivers t sc l' -> l = l'.
  Proof.
    induction 1 as [E|k r E|c r l Hc Hd IH]; intros l' H'; inversion H'; subst; try congruence. f_equal. auto.
  Qed.

  Lemma delivers_app : forall a b l l', delivers t (map EvData a ++ b) l -> delivers t b l' -> l = concat a ++ l'.
  Proof.
    induction a as [|e a IH]; intros b l l' H Hb; cbn [app map concat] in *.
    - eapply delivers_fun; eassumption.
    - inversion H as [| |c' r l0 Hc H']; subst. rewrite (IH _ _ _ H' Hb). apply app_assoc.
  Qed.

  (** What both descriptions have in common. *)
  Lemma used_length st l taken used : buffered t st l -> sc = map EvData taken ++ br_inner st -> all = used ++ l ->
    len used = len (concat taken) - (br_num_valid st - br_pos st) /\ 0 <= br_num_valid st - br_pos st.
  Proof.
    intros (pre & mid & post & l' & Hbuf & Hlen & Hpos & Hnv & Hb & Hdl & Hl) Es Hu.
    pose proof Hall as Ha. rewrite Es in Ha. pose proof (delivers_app _ _ _ _ Ha Hdl) as E.
    rewrite Hu, Hl in E. apply (f_equal len) in E. rewrite !len_app in E. pose proof (len_nonneg mid). lia.
  Qed.

  Lemma lz_lazily st l : buffered t st l -> lz sc st -> (exists used, all = used ++ l) -> lazily t sc all st l.
  Proof.
    intros HB (taken & Es & Ht) (used & Hu). split; [exact HB|]. exists used. split; [exact Hu|].
    destruct (used_length st l taken used HB Es Hu). pose proof (len_nonneg used).
    exists taken. split; [exact Es|]. split; [lia|].
    destruct Ht as [->|(t' & c & -> & Hc & Hlt)]; [auto|]. right.
    rewrite removelast_last. rewrite concat_app, len_app in *. cbn [concat] in *. rewrite app_nil_r in *. lia.
  Qed.

  Lemma lazily_lz st l : lazily t sc all st l -> buffered t st l /\ lz sc st /\ exists used, all = used ++ l.
  Proof.
    intros [HB (used & Hu & taken & Es & Hle & Ht)]. split; [exact HB|]. split; [|eauto].
    destruct (used_length st l taken used HB Es Hu).
    exists taken. split; [exact Es|].
    destruct taken as [|x y] using rev_ind; [auto|]. right. clear IHy. exists y, x. split; [reflexivity|].
    rewrite removelast_last in Ht. rewrite concat_app, len_app in *. cbn [concat] in *. rewrite app_nil_r in *.
    destruct Ht as [E|Ht]; [destruct y; discriminate|]. lia.
  Qed.

  Lemma lazy_stream : stream (br_rb m) t (lazily t sc all).
  Proof.
    pose proof (br_stream m t) as HS.
    split; cbn [br_rb read_u8 read_u8_or_eof read_into skip rb_alloc].
    - intros st l [HB _]. exact (st_bytes _ _ _ HS st l HB).
    - intros st b l H. apply lazily_lz in H as (HB & HL & used & Hu).
      destruct (st_u8 _ _ _ HS st b l HB) as (st' & E & HB'). exists st'. split; [exact E|].
      apply lz_lazily; [exact HB'| |exists (used ++ [b]); rewrite <- app_assoc; exact Hu].
      eapply u8_lz; try exact E; eauto using buffered_sane.
    - intros st [HB _]. exact (st_u8_end _ _ _ HS st HB).
    - intros st b l H. apply lazily_lz in H as (HB & HL & used & Hu).
      destruct (st_eof _ _ _ HS st b l HB) as (st' & E & HB'). exists st'. split; [exact E|].
      apply lz_lazily; [exact HB'| |exists (used ++ [b]); rewrite <- app_assoc; exact Hu].
      eapply eof_lz; try exact E; eauto using buffered_sane.
    - intros st H. apply lazily_lz in H as (HB & HL & used & Hu).
      pose proof (st_eof_end _ _ _ HS st HB) as H. destruct t as [|k] eqn:Et; [|exact H].
      destruct H as (st' & E & HB'). exists st'. split; [exact E|]. rewrite <- Et in *.
      apply lz_lazily; [exact HB'| |eauto]. eapply eof_lz; try exact E; eauto using buffered_sane.
    - intros st l1 l2 buf H Hb Hlt. apply lazily_lz in H as (HB & HL & used & Hu).
      destruct (st_into _ _ _ HS st l1 l2 buf HB Hb Hlt) as (st' & E & HB'). exists st'. split; [exact E|].
      apply lz_lazily; [exact HB'| |exists (used ++ l1); rewrite <- app_assoc; exact Hu].
      cbn [br_rb read_into] in E. unfold br_read_into in E. rewrite bind_get in E.
      eapply into_lz; try exact E; eauto using buffered_sane. pose proof (len_nonneg buf). lia.
    - intros st l buf [HB _]. exact (st_into_end _ _ _ HS st l buf HB).
    - intros st l1 l2 H Hlt. apply lazily_lz in H as (HB & HL & used & Hu).
      destruct (st_skip _ _ _ HS st l1 l2 HB Hlt) as (st' & E & HB'). exists st'. split; [exact E|].
      apply lz_lazily; [exact HB'| |exists (used ++ l1); rewrite <- app_assoc; exact Hu].
      cbn [br_rb skip] in E. unfold br_skip in E. rewrite bind_get in E.
      eapply skip_lz; try exact E; eauto using buffered_sane. pose proof (len_nonneg l1). lia.
    - intros st l n [HB _]. exact (st_skip_end _ _ _ HS st l n HB).
    - intros st l n sz H. eexists. split; [reflexivity|exact H].
  Qed.

  Lemma lazy_new : lazily t sc all (br_new sc) all.
  Proof.
    apply lz_lazily; [apply br_new_buffered; exact Hall| |exists []; reflexivity].
    exists []. auto.
  Qed.
End Buffered.
