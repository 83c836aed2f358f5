(** What a hostile source delivers, and that memory which was not initialised is not seen. *)
From Verif Require Export ProofHostile.
From Verif Require Import SpecReader.

(** * As a stream *)

Section Alike.
  Context (m : build).
  (** The same data, in buffers that may differ elsewhere. *)
  Definition alike (h : hreader) (b : breader) : Prop :=
    br_inner b = map handed_over (hr_inner h) /\ br_pos b = hr_pos h /\ br_num_valid b = hr_num_valid h
    /\ hr_inv h /\ len (br_buf b) = 2048
    /\ firstn (Z.to_nat (hr_num_valid h)) (br_buf b) = firstn (Z.to_nat (hr_num_valid h)) (hr_buf h).
  Definition simat {A} (c : M hreader A) (d : M breader A) (h : hreader) (b : breader) : Prop :=
    fst (c h) = fst (d b) /\ forall a, fst (c h) = Ok a -> alike (snd (c h)) (snd (d b)).
  Definition sim {A} (c : M hreader A) (d : M breader A) : Prop := forall h b, alike h b -> simat c d h b.

  Lemma simat_lift {A} (o : outcome A) h b : alike h b -> simat (lift o) (lift o) h b.
  Proof. intros H. split; [reflexivity|auto]. Qed.
  Lemma simat_bind {A B} (c : M hreader A) d (f : A -> M hreader B) g h b :
    simat c d h b -> (forall a, fst (c h) = Ok a -> alike (snd (c h)) (snd (d b)) -> simat (f a) (g a) (snd (c h)) (snd (d b))) ->
    simat (bind c f) (bind d g) h b.
  Proof.
    intros [E H] Hf. unfold simat, bind. destruct (c h) as [o h']. destruct (d b) as [o' b']. cbn [fst snd] in *. subst o'.
    destruct o as [a|e|w|w|]; cbn [fst snd]; try (split; [reflexivity|discriminate]).
    apply (Hf a eq_refl (H a eq_refl)).
  Qed.
  Lemma simat_get {B} (f : hreader -> M hreader B) g h b : simat (f h) (g b) h b -> simat (bind get f) (bind get g) h b.
  Proof. unfold simat. rewrite !bind_get. auto. Qed.
  Lemma alike_pos h b p : alike h b -> 0 <= p <= hr_num_valid h ->
    alike (mkHR (hr_inner h) (hr_buf h) p (hr_num_valid h)) (mkBR (br_inner b) (br_buf b) p (br_num_valid b)).
  Proof.
    intros (H1 & H2 & H3 & (H4 & H5 & H6 & H7) & H8 & H9) Hp. unfold alike, hr_inv. cbn. repeat split; auto; lia.
  Qed.
  Lemma simat_pos h b p : alike h b -> 0 <= p <= hr_num_valid h -> simat (hr_set_pos p) (br_set_pos p) h b.
  Proof. intros H Hp. split; [reflexivity|]. intros _ _. apply alike_pos; assumption. Qed.
  Lemma simat_refill h b : alike h b -> simat hr_refill br_refill h b /\ hr_pos (snd (hr_refill h)) = 0.
  Proof.
    intros (H1 & H2 & H3 & (H4 & H5 & H6 & H7) & H8 & H9). unfold simat, hr_refill, br_refill, hr_set_pos, br_set_pos, hr_inner_read, inner_read, hr_set_num_valid, br_set_num_valid, bind.
    cbn [hr_inner hr_buf hr_pos hr_num_valid br_inner br_buf br_pos br_num_valid]. rewrite H1.
    destruct (hr_inner h) as [|[n buf|k buf] r] eqn:Ei; cbn [map handed_over hr_inner hr_buf hr_pos hr_num_valid br_inner br_buf br_pos br_num_valid fst snd].
    - split; [|reflexivity]. split; [reflexivity|]. intros _ _. unfold alike, hr_inv. cbn [hr_inner hr_buf hr_pos hr_num_valid br_inner br_buf br_pos br_num_valid].
      change (u32 0) with 0. cbn. repeat split; auto; lia.
    - apply Forall_cons_iff in H7 as [[(P1 & P2 & P3) P4] P5]. cbn -[Z.pow] in P4. pose proof (u32_range n) as Pn. change (n mod 2 ^ 32) with (u32 n) in *. set (v := u32 n) in *. clearbody v.
      assert (len (firstn (Z.to_nat v) buf) = v) as El by (unfold len in *; rewrite firstn_length; lia).
      rewrite El, u32_id by lia. split; [|reflexivity]. split; [reflexivity|]. intros _ _. unfold alike, hr_inv. cbn [hr_inner hr_buf hr_pos hr_num_valid br_inner br_buf br_pos br_num_valid].
      repeat split; auto; try lia.
      + unfold len in *. rewrite firstn_length, app_length, skipn_length. lia.
      + rewrite firstn_firstn. unfold len in *. replace (Nat.min (Z.to_nat v) (length (br_buf b))) with (Z.to_nat v) by lia.
        rewrite firstn_app, firstn_firstn, Nat.min_id. rewrite firstn_length.
        replace (Z.to_nat v - Nat.min (Z.to_nat v) (length buf))%nat with O by lia. cbn. apply app_nil_r.
    - split; [|reflexivity]. split; [reflexivity|discriminate].
  Qed.
  Lemma alike_index h b i : alike h b -> 0 <= i < hr_num_valid h -> index_unchecked (hr_buf h) i = index_unchecked (br_buf b) i.
  Proof.
    intros (H1 & H2 & H3 & (H4 & H5 & H6 & H7) & H8 & H9) Hi. unfold index_unchecked.
    assert (forall l : list Z, nth_error l (Z.to_nat i) = nth_error (firstn (Z.to_nat (hr_num_valid h)) l) (Z.to_nat i)) as X.
    { intros l. rewrite <- (firstn_skipn (Z.to_nat (hr_num_valid h)) l) at 1. destruct (Nat.lt_ge_cases (Z.to_nat i) (length (firstn (Z.to_nat (hr_num_valid h)) l))) as [L|L].
      - apply nth_error_app1, L.
      - rewrite firstn_length in L. assert (length l <= Z.to_nat i)%nat by lia.
        rewrite firstn_skipn. rewrite firstn_all2 by lia. reflexivity. }
    rewrite (X (hr_buf h)), (X (br_buf b)), H9. reflexivity.
  Qed.
  Lemma alike_slice h b i j : alike h b -> 0 <= i <= j -> j <= hr_num_valid h -> slice (hr_buf h) i j = slice (br_buf b) i j.
  Proof.
    intros (H1 & H2 & H3 & (H4 & H5 & H6 & H7) & H8 & H9) Hi Hj. rewrite !slice_ok by lia. f_equal.
    assert (forall l : list Z, firstn (Z.to_nat (j - i)) (skipn (Z.to_nat i) l) = firstn (Z.to_nat (j - i)) (skipn (Z.to_nat i) (firstn (Z.to_nat (hr_num_valid h)) l))) as X.
    { intros l. rewrite skipn_firstn_comm, firstn_firstn. f_equal. lia. }
    rewrite (X (hr_buf h)), (X (br_buf b)), H9. reflexivity.
  Qed.
  (** A refill followed by a check for the end. *)
  Lemma simat_more {A} (c : M hreader A) d h b (e : error) : alike h b ->
    (forall h' b', alike h' b' -> hr_pos h' = 0 -> 0 < hr_num_valid h' -> simat c d h' b') ->
    simat (hr_refill ;;; st <- get ;; if hr_num_valid st =? 0 then fail e else c)
          (br_refill ;;; st <- get ;; if br_num_valid st =? 0 then fail e else d) h b.
  Proof.
    intros H Hc. destruct (simat_refill h b H) as [HR Hz]. apply simat_bind; [exact HR|]. intros _ _ H'. apply simat_get.
    pose proof H' as (H1 & H2 & H3 & (H4 & H5 & H6 & H7) & H8 & H9). rewrite H3.
    destruct (Z.eqb_spec (hr_num_valid (snd (hr_refill h))) 0); [apply simat_lift, H'|]. apply Hc; [exact H'|exact Hz|lia].
  Qed.
  Lemma sim_take h b : alike h b -> hr_pos h < hr_num_valid h -> simat (st <- get ;; byte <- lift (index_unchecked (hr_buf st) (hr_pos st)) ;; p <- lift (chk m u32 (hr_pos st + 1)) ;; hr_set_pos p ;;; ret byte)
      (st <- get ;; byte <- lift (index_unchecked (br_buf st) (br_pos st)) ;; p <- lift (chk m u32 (br_pos st + 1)) ;; br_set_pos p ;;; ret byte) h b.
  Proof.
    intros H Hp. apply simat_get. pose proof H as (H1 & H2 & H3 & (H4 & H5 & H6 & H7) & H8 & H9). rewrite H2, <- (alike_index h b) by (auto; lia).
    apply simat_bind; [apply simat_lift, H|]. intros a _ _. cbn [snd lift]. rewrite chk_u32 by lia.
    apply simat_bind; [apply simat_lift, H|]. intros p Ep _. cbn [snd lift fst] in *. injection Ep as <-.
    apply simat_bind; [apply simat_pos; [exact H|lia]|]. intros ? _ H'. apply simat_lift, H'.
  Qed.
  Lemma simat_eq {A} (c c' : M hreader A) (d d' : M breader A) h b : c h = c' h -> d b = d' b -> simat c' d' h b -> simat c d h b.
  Proof. unfold simat. intros -> ->. auto. Qed.
  Lemma sim_u8 : sim (hr_read_u8 m) (br_read_u8 m).
  Proof.
    intros h b H. unfold hr_read_u8, br_read_u8. apply simat_get. pose proof H as (H1 & H2 & H3 & (H4 & H5 & H6 & H7) & H8 & H9). rewrite H2, H3.
    destruct (Z.eqb_spec (hr_pos h) (hr_num_valid h)).
    - eapply simat_eq; cycle 2; [eapply simat_more; [exact H|]; intros h' b' H' Hz Hv; apply sim_take; [exact H'|lia]|..].
      + unfold bind, get. destruct (hr_refill h) as [[[]|e'|w|w|] h']; try reflexivity. destruct (hr_num_valid h' =? 0); reflexivity.
      + unfold bind, get. destruct (br_refill b) as [[[]|e'|w|w|] b']; try reflexivity. destruct (br_num_valid b' =? 0); reflexivity.
    - apply simat_bind; [apply simat_lift, H|]. intros _ _ _. apply sim_take; [exact H|cbn; lia].
  Qed.
  Lemma sim_eof : sim (hr_read_u8_or_eof m) (br_read_u8_or_eof m).
  Proof.
    intros h b H. unfold hr_read_u8_or_eof, br_read_u8_or_eof. apply simat_get. pose proof H as (H1 & H2 & H3 & (H4 & H5 & H6 & H7) & H8 & H9). rewrite H2, H3.
    apply simat_bind.
    - destruct (hr_pos h =? hr_num_valid h); [|apply simat_lift, H]. destruct (simat_refill h b H) as [HR _]. apply simat_bind; [exact HR|].
      intros _ _ H'. apply simat_get. pose proof H' as (G1 & G2 & G3 & G). rewrite G3. apply simat_lift, H'.
    - intros [|] _ H'; [apply simat_lift, H'|]. apply simat_bind; [apply sim_u8, H'|]. intros a _ H''. apply simat_lift, H''.
  Qed.
  Lemma sim_skip_loop fuel : forall n, sim (hr_skip_loop m fuel n) (br_skip_loop m fuel n).
  Proof.
    induction fuel as [|fuel IH]; intros n h b H; cbn [hr_skip_loop br_skip_loop]; destruct (Z.ltb_spec 0 n); try (apply simat_lift, H).
    apply simat_get. pose proof H as (H1 & H2 & H3 & (H4 & H5 & H6 & H7) & H8 & H9). rewrite H2, H3. rewrite chk_u32 by lia.
    apply simat_bind; [apply simat_lift, H|]. intros nl Ep _. cbn [snd lift fst] in *. injection Ep as <-. cbv zeta. rewrite chk_u32 by lia.
    apply simat_bind; [apply simat_lift, H|]. intros p Ep _. cbn [snd lift fst] in *. injection Ep as <-.
    apply simat_bind; [apply simat_pos; [exact H|lia]|]. intros _ _ H'. apply simat_bind; [apply simat_lift, H'|]. intros left _ H''. cbn [snd lift] in *.
    destruct (0 <? left); [|apply IH, H'']. apply simat_more; [exact H''|]. intros h' b' G _ _. apply IH, G.
  Qed.
  Lemma sim_into_loop fuel : forall buf n, sim (hr_read_into_loop m fuel buf n) (br_read_into_loop m fuel buf n).
  Proof.
    induction fuel as [|fuel IH]; intros buf n h b H; cbn [hr_read_into_loop br_read_into_loop]; destruct (Z.ltb_spec 0 n); try (apply simat_lift, H).
    apply simat_get. pose proof H as (H1 & H2 & H3 & (H4 & H5 & H6 & H7) & H8 & H9). rewrite H2, H3.
    apply simat_bind; [apply simat_lift, H|]. intros from _ _. cbn [snd lift]. rewrite chk_u32 by lia.
    apply simat_bind; [apply simat_lift, H|]. intros nl Ep _. cbn [snd lift fst] in *. injection Ep as <-. cbv zeta.
    apply simat_bind; [apply simat_lift, H|]. intros _ _ _. cbn [snd lift]. rewrite (alike_slice h b) by (auto; lia).
    apply simat_bind; [apply simat_lift, H|]. intros src _ _. cbn [snd lift].
    apply simat_bind; [apply simat_lift, H|]. intros left _ _. cbn [snd lift]. rewrite u32_id by lia. rewrite chk_u32 by lia.
    apply simat_bind; [apply simat_lift, H|]. intros p Ep _. cbn [snd lift fst] in *. injection Ep as <-.
    apply simat_bind; [apply simat_pos; [exact H|lia]|]. intros _ _ H'.
    destruct (0 <? left); [|apply IH, H']. apply simat_more; [exact H'|]. intros h' b' G _ _. apply IH, G.
  Qed.
  Lemma sim_into buf : sim (hr_read_into m buf) (br_read_into m buf).
  Proof.
    intros h b H. apply simat_get. pose proof H as (H1 & _). rewrite H1, map_length. apply sim_into_loop, H.
  Qed.
  Lemma sim_skip n : sim (hr_skip m n) (br_skip m n).
  Proof.
    intros h b H. apply simat_get. pose proof H as (H1 & _). rewrite H1, map_length. apply sim_skip_loop, H.
  Qed.

  (** The relation to what is delivered. *)
  Lemma fits_split sc : Forall fits sc -> Forall possible sc /\ Forall within sc.
  Proof. intros H. split; eapply Forall_impl; try exact H; intros e He; apply He. Qed.
  Lemma hbuffered_alike t h l : hbuffered t h l -> exists b, alike h b /\ buffered t b l.
  Proof.
    intros (pre & mid & post & l' & E1 & E2 & E3 & E4 & E5 & E6 & E7 & E8 & E9).
    exists (mkBR (map handed_over (hr_inner h)) (hr_buf h) (hr_pos h) (hr_num_valid h)).
    pose proof (len_nonneg pre). pose proof (len_nonneg mid). pose proof (len_nonneg post).
    assert (len pre + (len mid + len post) = 2048) by (rewrite E1, !len_app in E2; exact E2).
    split.
    - unfold alike, hr_inv. cbn. repeat split; auto; try lia. apply fits_all; assumption.
    - exists pre, mid, post, l'. cbn. auto 10.
  Qed.
  Lemma alike_hbuffered t h b l : alike h b -> buffered t b l -> hbuffered t h l.
  Proof.
    intros (H1 & H2 & H3 & (H4 & H5 & H6 & H7) & H8 & H9) (pre & mid & post & l' & E1 & E2 & E3 & E4 & E5 & E6 & E7).
    pose proof (len_nonneg pre). pose proof (len_nonneg mid). pose proof (len_nonneg post).
    destruct (fits_split _ H7) as [P1 P2]. rewrite H3 in E4. rewrite H2 in E3. rewrite H1 in E6.
    assert (firstn (Z.to_nat (hr_num_valid h)) (hr_buf h) = pre ++ mid) as F.
    { rewrite <- H9, E1, app_assoc. rewrite E4. unfold len. rewrite firstn_app. rewrite app_length.
      replace (Z.to_nat (Z.of_nat (length pre) + Z.of_nat (length mid))) with (length pre + length mid)%nat by lia.
      rewrite Nat.sub_diag. cbn [firstn]. rewrite app_nil_r. apply firstn_all2. rewrite app_length. lia. }
    exists pre, mid, (skipn (Z.to_nat (hr_num_valid h)) (hr_buf h)), l'.
    split; [rewrite app_assoc, <- F, firstn_skipn; reflexivity|]. auto 10.
  Qed.
  Lemma step_ok {A} (c : M hreader A) d t h b l a b' : sim c d -> alike h b -> d b = (Ok a, b') -> buffered t b' l ->
    exists h', c h = (Ok a, h') /\ hbuffered t h' l.
  Proof.
    intros Hs H E Hb. destruct (Hs h b H) as [S1 S2]. rewrite E in S1, S2. cbn [fst snd] in *. destruct (c h) as [o h']. cbn [fst snd] in *. subst o.
    exists h'. split; [reflexivity|]. eapply alike_hbuffered; [apply (S2 a eq_refl)|exact Hb].
  Qed.
  Lemma step_err {A} (c : M hreader A) d h b e b' : sim c d -> alike h b -> d b = (Err e, b') -> exists h', c h = (Err e, h').
  Proof.
    intros Hs H E. destruct (Hs h b H) as [S1 S2]. rewrite E in S1. cbn [fst] in *. destruct (c h) as [o h']. cbn [fst] in *. subst o. eauto.
  Qed.

  Theorem hr_stream t : stream (hr_rb m) t (hbuffered t).
  Proof.
    pose proof (br_stream m t) as B.
    split; cbn [hr_rb read_u8 read_u8_or_eof read_into skip rb_alloc].
    - intros h l H. destruct (hbuffered_alike t h l H) as (b & _ & Hb). eapply (st_bytes _ _ _ B), Hb.
    - intros h x l H. destruct (hbuffered_alike _ _ _ H) as (b & Ha & Hb). destruct (st_u8 _ _ _ B b x l Hb) as (b' & E & Hb').
      eapply step_ok; eauto using sim_u8.
    - intros h H. destruct (hbuffered_alike _ _ _ H) as (b & Ha & Hb). destruct (st_u8_end _ _ _ B b Hb) as (b' & E).
      eapply step_err; eauto using sim_u8.
    - intros h x l H. destruct (hbuffered_alike _ _ _ H) as (b & Ha & Hb). destruct (st_eof _ _ _ B b x l Hb) as (b' & E & Hb').
      eapply step_ok; eauto using sim_eof.
    - intros h H. destruct (hbuffered_alike _ _ _ H) as (b & Ha & Hb). pose proof (st_eof_end _ _ _ B b Hb) as X.
      destruct t as [|k]; [destruct X as (b' & E & Hb'); eapply step_ok; eauto using sim_eof|destruct X as (b' & E); eapply step_err; eauto using sim_eof].
    - intros h l1 l2 buf H H1 H2. destruct (hbuffered_alike _ _ _ H) as (b & Ha & Hb). destruct (st_into _ _ _ B b l1 l2 buf Hb H1 H2) as (b' & E & Hb').
      eapply step_ok; eauto using sim_into.
    - intros h l buf H H1 H2. destruct (hbuffered_alike _ _ _ H) as (b & Ha & Hb). destruct (st_into_end _ _ _ B b l buf Hb H1 H2) as (b' & E).
      eapply step_err; eauto using sim_into.
    - intros h l1 l2 H H1. destruct (hbuffered_alike _ _ _ H) as (b & Ha & Hb). destruct (st_skip _ _ _ B b l1 l2 Hb H1) as (b' & E & Hb').
      eapply step_ok; eauto using sim_skip.
    - intros h l n H H1. destruct (hbuffered_alike _ _ _ H) as (b & Ha & Hb). destruct (st_skip_end _ _ _ B b l n Hb H1) as (b' & E).
      eapply step_err; eauto using sim_skip.
    - intros h l n sz H. exists h. split; [reflexivity|exact H].
  Qed.
  Theorem hr_new_buffered t sc l : Forall possible sc -> Forall within sc -> delivers t (map handed_over sc) l -> hbuffered t (hr_new sc) l.
  Proof.
    intros H1 H2 H3. exists [], [], (repeat 0 2048), l. unfold hr_new. cbn [hr_inner hr_buf hr_pos hr_num_valid app]. repeat split; auto; constructor.
  Qed.
End Alike.

(** * Memory that was not initialised *)

Definition eqp {S A} (c d : M S A) : Prop := forall st, c st = d st.
Lemma eqp_refl {S A} (c : M S A) : eqp c c. Proof. intros st. reflexivity. Qed.
Lemma eqp_bind {S A B} (c d : M S A) (f g : A -> M S B) : eqp c d -> (forall a, eqp (f a) (g a)) -> eqp (bind c f) (bind d g).
Proof. intros H Hf st. unfold bind. rewrite H. destruct (d st) as [[a|e|w|w|] st']; try reflexivity. apply Hf. Qed.
Lemma eqp_chk {S B} m w (f g : Z -> M S B) x : (forall a, 0 <= a < 2 ^ 32 -> eqp (f a) (g a)) ->
  w = u32 -> eqp (bind (lift (chk m w x)) f) (bind (lift (chk m w x)) g).
Proof.
  intros Hf -> st. unfold chk. destruct (Z.eqb_spec (u32 x) x) as [E|E]; [|destruct m; [reflexivity|]]; rewrite !bind_lift_ok; apply Hf.
  - rewrite <- E. unfold u32. apply Z.mod_pos_bound. lia.
  - unfold u32. apply Z.mod_pos_bound. lia.
Qed.
Lemma eqp_get {S B} (f g : S -> M S B) : (forall s, eqp (f s) (g s)) -> eqp (bind get f) (bind get g).
Proof. intros H st. rewrite !bind_get. apply H. Qed.
Lemma eqp_catch {S A} (c d : M S A) : eqp c d -> eqp (catch c) (catch d).
Proof. intros H st. unfold catch. rewrite H. reflexivity. Qed.

Section Unseen.
  Context {S : Type} (rb : ReadBytes S) (m : build) (un un' : nat -> list Z).
  Context (Ho : overwrites rb) (Hu : uninitialised un) (Hu' : uninitialised un').
  Lemma eqp_into k : k < 2 ^ 32 -> eqp (read_into rb (un (Z.to_nat k))) (read_into rb (un' (Z.to_nat k))).
  Proof.
    intros Hk st. destruct (Hu (Z.to_nat k)) as [E1 _]. destruct (Hu' (Z.to_nat k)) as [E2 _]. apply Ho; [congruence|]. unfold len. rewrite E1. lia.
  Qed.
  Ltac eq1 := lazymatch goal with
    | |- eqp ?c ?c => apply eqp_refl
    | |- eqp (bind get _) (bind get _) => apply eqp_get; intros ?
    | |- eqp (bind (lift (chk m u32 _)) _) _ => apply eqp_chk; [intros ? ?|reflexivity]
    | |- eqp (bind _ _) (bind _ _) => apply eqp_bind; [|intros ?]
    | |- eqp (read_into rb (un _)) _ => apply eqp_into; lia
    | |- eqp (if ?a <? ?b then _ else _) _ => destruct (Z.ltb_spec a b)
    | |- eqp (if ?a =? ?b then _ else _) _ => destruct (Z.eqb_spec a b)
    | |- eqp (if ?c then _ else _) _ => destruct c
    | |- eqp (match ?x with _ => _ end) _ => destruct x
    end.
  Ltac eqs := repeat eq1.
  Lemma eq_vorbis_loop fuel : forall a b c, eqp (vorbis_loop rb m un fuel a b c) (vorbis_loop rb m un' fuel a b c).
  Proof. induction fuel as [|fuel IH]; intros a b c; cbn [vorbis_loop]; eqs; apply IH. Qed.
  Lemma eq_block ty n : eqp (read_metadata_block rb m un ty n) (read_metadata_block rb m un' ty n).
  Proof.
    unfold read_metadata_block. eqs.
    - unfold read_application_block. destruct (Z.ltb_spec n 4); [apply eqp_refl|]. destruct (Z.ltb_spec (10 * 1024 * 1024) n); [apply eqp_refl|].
      rewrite chk_u64 by lia. apply eqp_bind; [apply eqp_refl|intros id]. intros st. rewrite !bind_lift_ok. revert st.
      match goal with |- forall st, ?c st = ?d st => change (eqp c d) end. eqs.
    - unfold read_vorbis_comment_block. eqs. apply eq_vorbis_loop.
  Qed.
  Lemma eq_with_header : eqp (read_metadata_block_with_header rb m un) (read_metadata_block_with_header rb m un').
  Proof. unfold read_metadata_block_with_header. eqs. apply eq_block. Qed.
  Lemma eq_mr_next : eqp (mr_next rb m un) (mr_next rb m un').
  Proof.
    unfold mr_next. eqs. apply eqp_catch. unfold mr_read_next. eqs.
    intros st. unfold mr_lift. match goal with |- context [read_metadata_block rb m un ?t ?n ?s] => assert (read_metadata_block rb m un t n s = read_metadata_block rb m un' t n s) as -> by apply eq_block end. reflexivity.
  Qed.
  Lemma eq_items n : forall st, nexts (mr_next rb m un) n st = nexts (mr_next rb m un') n st.
  Proof.
    unfold nexts. induction n as [|n IH]; intros st; cbn [repeat history_all]; [reflexivity|].
    assert (mr_next rb m un st = mr_next rb m un' st) as E by apply eq_mr_next.
    cbn [repeat history_all]. rewrite E. destruct (mr_next rb m un' st) as [o st']. rewrite IH. reflexivity.
  Qed.
  Lemma eq_loop fuel : forall opts vc, eqp (metadata_loop rb m un fuel opts vc) (metadata_loop rb m un' fuel opts vc).
  Proof. induction fuel as [|fuel IH]; intros opts vc; cbn [metadata_loop]; repeat first [apply eq_mr_next | apply IH | eq1]. Qed.
  Lemma eq_new fuel opts : eqp (new_ext rb m un fuel opts) (new_ext rb m un' fuel opts).
  Proof.
    unfold new_ext. eqs. intros st. unfold with_mreader.
    assert (eqp (read_metadata rb m un fuel opts) (read_metadata rb m un' fuel opts)) as ->; [|reflexivity].
    unfold read_metadata. repeat first [apply eq_mr_next | apply eq_loop | eq1].
  Qed.
End Unseen.

(** A [BufferedReader] fills the buffer it is given, whatever its source does. *)
Section Overwrites.
  Context (m : build).
  Definition same_up_to (k : Z) (buf buf' : list Z) : Prop := length buf = length buf' /\ firstn (Z.to_nat k) buf = firstn (Z.to_nat k) buf'.
  Lemma into_same fuel : forall buf buf' left st, len buf < 2 ^ 63 -> 0 <= left <= len buf -> same_up_to (len buf - left) buf buf' ->
    hr_read_into_loop m fuel buf left st = hr_read_into_loop m fuel buf' left st.
  Proof.
    induction fuel as [|fuel IH]; intros buf buf' left st Hb Hl [E1 E2]; cbn [hr_read_into_loop]; destruct (Z.ltb_spec 0 left) as [Hleft|Hleft].
    - reflexivity.
    - unfold ret, lift. do 2 f_equal. assert (left = 0) by lia. subst. rewrite Z.sub_0_r in E2. unfold len in E2. rewrite Nat2Z.id in E2.
      rewrite firstn_all in E2. rewrite E1, firstn_all in E2. exact E2.
    - assert (len buf' = len buf) as E3 by (unfold len; lia). rewrite !bind_get, E3. rewrite chk_u64 by lia. rewrite !bind_lift_ok.
      assert (forall {A B} (o : outcome A) (f g : A -> M hreader B), (forall a, o = Ok a -> f a st = g a st) -> bind (lift o) f st = bind (lift o) g st) as L.
      { intros A B o f g Hf. unfold bind, lift. destruct o; cbn; auto. }
      apply L. intros avail Ea. cbv zeta.
      assert (0 <= avail) as Ha.
      { unfold chk in Ea. destruct (Z.eqb_spec (u32 (hr_num_valid st - hr_pos st)) (hr_num_valid st - hr_pos st)) as [E|E]; [|destruct m; [discriminate|]];
          injection Ea as <-; [rewrite <- E|]; unfold u32; apply Z.mod_pos_bound; lia. }
      set (count := Z.min left avail) in *. rewrite (slice_ok buf), (slice_ok buf') by lia. rewrite !bind_lift_ok.
      apply L. intros src Es. apply L. intros left' El. assert (left' = left - count) as ->.
      { rewrite chk_u64 in El by lia. congruence. }
      assert (len src = count) as Hs.
      { unfold slice in Es. destruct (_ && _) eqn:Eb; [|discriminate]. injection Es as <-.
        apply andb_prop in Eb as [Eb Eb3]. apply andb_prop in Eb as [Eb1 Eb2].
        apply Z.leb_le in Eb1, Eb2, Eb3. unfold len in *. rewrite firstn_length, skipn_length. lia. }
      set (from := len buf - left) in *.
      assert (same_up_to (len (splice buf from src) - (left - count)) (splice buf from src) (splice buf' from src) /\ len (splice buf from src) = len buf) as [Hn Hln].
      { assert (len (splice buf from src) = len buf) as Hln.
        { unfold splice, len in *. rewrite !app_length, !firstn_length, !skipn_length. lia. }
        split; [|exact Hln]. rewrite Hln. split.
        - unfold splice, len in *. rewrite !app_length, !firstn_length, !skipn_length. lia.
        - unfold splice. rewrite E2, !app_assoc. rewrite !(firstn_app _ (firstn (Z.to_nat from) buf' ++ src)).
          assert (length (firstn (Z.to_nat from) buf' ++ src) = Z.to_nat (len buf - (left - count))) as ->.
          { unfold len in *. rewrite app_length, firstn_length. lia. }
          rewrite Nat.sub_diag. reflexivity. }
      apply L. intros p _. unfold bind at 1. unfold bind at 3.
      destruct (hr_set_pos p st) as [[[]|e|w|w|] st1]; try reflexivity.
      destruct (0 <? left - count).
      + unfold bind. destruct (hr_refill st1) as [[[]|e|w|w|] st2]; try reflexivity. unfold get. destruct (hr_num_valid st2 =? 0); [reflexivity|].
        apply IH; [lia|lia|exact Hn].
      + apply IH; [lia|lia|exact Hn].
    - unfold ret, lift. do 2 f_equal. assert (left = 0) by lia. subst. rewrite Z.sub_0_r in E2. unfold len in E2. rewrite Nat2Z.id in E2.
      rewrite firstn_all in E2. rewrite E1, firstn_all in E2. exact E2.
  Qed.
  Theorem hr_overwrites : overwrites (hr_rb m).
  Proof.
    intros buf buf' st E Hb. cbn [hr_rb read_into]. unfold hr_read_into. rewrite !bind_get.
    assert (len buf' = len buf) as -> by (unfold len; lia). pose proof (len_nonneg buf).
    apply into_same; [lia|lia|]. split; [exact E|]. rewrite Z.sub_diag. reflexivity.
  Qed.
End Overwrites.
Lemma cu_overwrites m : overwrites (cu_rb m).
Proof.
  intros buf buf' st E _. cbn [cu_rb read_into]. unfold cu_read_into. assert (len buf' = len buf) as -> by (unfold len; lia). reflexivity.
Qed.

(** * Cursors over any [AsRef] *)

Section AnyCursor.
  Context (m : build).
  Lemma sound_as_ref (I : hcursor -> Prop) : (forall st, I st -> I (snd (hc_as_ref st))) -> op_sound I hc_as_ref.
  Proof. intros H st HI. split; [|apply H, HI]. unfold hc_as_ref. cbn [fst]. destruct (hc_ref st (hc_calls st)); nubs. Qed.
  Lemma hc_sound : reader_sound (fun _ => True) (hc_rb m).
  Proof.
    assert (op_sound (fun _ => True) hc_as_ref) as R by (apply sound_as_ref; auto).
    assert (forall p, op_sound (fun _ => True) (hc_set_position p)) as P by (intros p s _; split; [cbn; nubs|exact Logic.I]).
    split; cbn [hc_rb read_u8 read_u8_or_eof read_into skip rb_alloc]; intros;
      unfold hc_read_u8, hc_read_u8_or_eof, hc_read_into, hc_skip; repeat first [ apply P | exact R | snd1 ].
  Qed.
  Lemma hc_overwrites : overwrites (hc_rb m).
  Proof.
    intros buf buf' st E _. cbn [hc_rb read_into]. unfold hc_read_into. assert (len buf' = len buf) as -> by (unfold len; lia). reflexivity.
  Qed.

  (** A slice that stays the same. *)
  Context (data : list Z) (Hdata : len data < 2 ^ 63).
  Definition fixed_at (h : hcursor) (c : cursor) : Prop :=
    (forall n, hc_ref h n = Some data) /\ cu_data c = data /\ hc_pos h = cu_pos c /\ 0 <= cu_pos c < 2 ^ 64.
  Definition follows {A} (c : M hcursor A) (d : M cursor A) : Prop := forall h b, fixed_at h b ->
    fst (c h) = fst (d b) /\ fixed_at (snd (c h)) (snd (d b)).
  Lemma follows_lift {A} (o : outcome A) : follows (lift o) (lift o).
  Proof. intros h b H. split; [reflexivity|exact H]. Qed.
  Lemma follows_bind {A B} (c : M hcursor A) d (f : A -> M hcursor B) g :
    follows c d -> (forall a, follows (f a) (g a)) -> follows (bind c f) (bind d g).
  Proof.
    intros Hc Hf h b H. destruct (Hc h b H) as [E H']. unfold bind. destruct (c h) as [o h']. destruct (d b) as [o' b']. cbn [fst snd] in *. subst o'.
    destruct o as [a|e|w|w|]; cbn [fst snd] in *; auto. apply Hf, H'.
  Qed.
  Lemma as_ref_fixed {B} (f : list Z -> M hcursor B) h b : fixed_at h b ->
    exists h', bind hc_as_ref f h = f data h' /\ fixed_at h' b.
  Proof.
    intros (H1 & H2 & H3). exists (mkHC (hc_ref h) (Datatypes.S (hc_calls h)) (hc_pos h)). split.
    - unfold bind, hc_as_ref. rewrite H1. reflexivity.
    - split; [exact H1|]. split; [exact H2|exact H3].
  Qed.
  Lemma set_fixed {B} p (f : unit -> M hcursor B) h b : fixed_at h b -> 0 <= p < 2 ^ 64 ->
    exists h', bind (hc_set_position p) f h = f tt h' /\ fixed_at h' (mkCursor (cu_data b) p).
  Proof.
    intros (H1 & H2 & H3 & H4) Hp. exists (mkHC (hc_ref h) (hc_calls h) p). split; [reflexivity|]. split; [exact H1|]. split; [exact H2|]. split; [reflexivity|exact Hp].
  Qed.
  Lemma set_cursor {B} p (g : unit -> M cursor B) b : bind (cu_set_position p) g b = g tt (mkCursor (cu_data b) p).
  Proof. reflexivity. Qed.
  Lemma chk_range x p : chk m u64 x = Ok p -> 0 <= p < 2 ^ 64.
  Proof.
    unfold chk. pose proof (Z.mod_pos_bound x (2 ^ 64) ltac:(lia)) as B. fold (u64 x) in B.
    destruct (Z.eqb_spec (u64 x) x); [intros [= <-]; lia|]. destruct m; [discriminate|]. intros [= <-]. exact B.
  Qed.
  Lemma follows_u8 : follows (hc_read_u8 m) (cu_read_u8 m).
  Proof.
    intros h b H. pose proof H as (H1 & H2 & H3 & H4). unfold hc_read_u8, cu_read_u8. rewrite !bind_get. rewrite H3, H2.
    edestruct (as_ref_fixed (B := Z)) as (h' & E & G); [exact H|]. rewrite E. clear E. cbv beta.
    destruct (_ <? _); [|split; [reflexivity|exact G]].
    destruct (chk m u64 _) as [p|e|w|w|] eqn:Ec; try (split; [reflexivity|exact G]). rewrite !bind_lift_ok.
    edestruct (set_fixed (B := Z)) as (h1 & E & G1); [exact G|eapply chk_range, Ec|]. rewrite E, set_cursor. clear E. cbv beta.
    edestruct (as_ref_fixed (B := Z)) as (h2 & E & G2); [exact G1|]. rewrite E. split; [reflexivity|exact G2].
  Qed.
  Lemma follows_eof : follows (hc_read_u8_or_eof m) (cu_read_u8_or_eof m).
  Proof.
    intros h b H. pose proof H as (H1 & H2 & H3 & H4). unfold hc_read_u8_or_eof, cu_read_u8_or_eof. rewrite !bind_get. rewrite H3, H2.
    edestruct (as_ref_fixed (B := option Z)) as (h' & E & G); [exact H|]. rewrite E. clear E. cbv beta.
    destruct (_ <? _); [|split; [reflexivity|exact G]].
    destruct (chk m u64 _) as [p|e|w|w|] eqn:Ec; try (split; [reflexivity|exact G]). rewrite !bind_lift_ok.
    edestruct (set_fixed (B := option Z)) as (h1 & E & G1); [exact G|eapply chk_range, Ec|]. rewrite E, set_cursor. clear E. cbv beta.
    edestruct (as_ref_fixed (B := option Z)) as (h2 & E & G2); [exact G1|]. rewrite E. clear E. cbv beta.
    destruct (index data _); (split; [reflexivity|exact G2]).
  Qed.
  Lemma chk_wrapped x e : chk m u64 x = Ok e -> 0 <= x -> e = x \/ e < x.
  Proof.
    unfold chk. destruct (Z.eqb_spec (u64 x) x); [intros [= <-]; auto|]. destruct m; [discriminate|]. intros [= <-] Hx. right.
    unfold u64 in *. pose proof (Z.mod_le x (2 ^ 64) Hx ltac:(lia)). lia.
  Qed.
  Lemma chk_far x e : chk m u64 x = Ok e -> 0 <= x -> e < x -> 2 ^ 64 <= x.
  Proof.
    unfold chk. destruct (Z.eqb_spec (u64 x) x); [intros [= <-]; lia|]. intros _ Hx _. destruct (Z.lt_ge_cases x (2 ^ 64)); [|assumption].
    exfalso. apply n. unfold u64. apply Z.mod_small. lia.
  Qed.
  Lemma follows_into buf : len buf < 2 ^ 63 -> follows (hc_read_into m buf) (cu_read_into m buf).
  Proof.
    intros Hb h b H. pose proof H as (H1 & H2 & H3 & Hp). pose proof (len_nonneg buf). unfold hc_read_into, cu_read_into. rewrite !bind_get. rewrite H3, H2.
    destruct (chk m u64 _) as [e|x|w|w|] eqn:Ec; try (split; [reflexivity|exact H]). rewrite !bind_lift_ok.
    edestruct (as_ref_fixed (B := list Z)) as (h' & E & G); [exact H|]. rewrite E. clear E. cbv beta.
    destruct (_ <=? _); [|split; [reflexivity|exact G]].
    edestruct (as_ref_fixed (B := list Z)) as (h2 & E & G'); [exact G|]. rewrite E. clear E. cbv beta.
    assert (slice data (cu_pos b) e = slice data (cu_pos b) (cu_pos b + len buf)) as ->.
    { destruct (chk_wrapped _ _ Ec ltac:(lia)) as [->|L]; [reflexivity|]. pose proof (chk_far _ _ Ec ltac:(lia) L).
      unfold slice. destruct (Z.leb_spec (cu_pos b + len buf) (len data)); [lia|]. rewrite !andb_false_r.
      assert (cu_pos b <=? e = false) as ->; [|rewrite andb_false_r; reflexivity].
      apply Z.leb_gt. unfold chk in Ec. destruct (Z.eqb_spec (u64 (cu_pos b + len buf)) (cu_pos b + len buf)); [injection Ec; lia|]. destruct m; [discriminate|]. injection Ec as <-.
      unfold u64. assert ((cu_pos b + len buf) mod 2 ^ 64 = cu_pos b + len buf - 2 ^ 64) as -> by (symmetry; apply Z.mod_unique with 1; lia). lia. }
    destruct (slice data _ _); try (split; [reflexivity|exact G']). rewrite !bind_lift_ok.
    edestruct (set_fixed (B := list Z)) as (h3 & E & G3); [exact G'|eapply chk_range, Ec|]. rewrite E, set_cursor. split; [reflexivity|exact G3].
  Qed.
  Lemma follows_skip n : follows (hc_skip m n) (cu_skip m n).
  Proof.
    intros h b H. pose proof H as (H1 & H2 & H3 & H4). unfold hc_skip, cu_skip. rewrite !bind_get. rewrite H3, H2.
    destruct (chk m u64 _) as [e|x|w|w|] eqn:Ec; try (split; [reflexivity|exact H]). rewrite !bind_lift_ok.
    edestruct (as_ref_fixed (B := unit)) as (h' & E & G); [exact H|]. rewrite E. clear E. cbv beta.
    destruct (_ <=? _); (split; [reflexivity|]); [|exact G]. destruct G as (G1 & G2 & G3). split; [exact G1|split; [exact G2|split; [reflexivity|eapply chk_range, Ec]]].
  Qed.
  Lemma follows_op o : legal_byte_op o -> follows (run_byte_op (hc_rb m) o) (run_byte_op (cu_rb m) o).
  Proof.
    intros Hl. destruct o; cbn [run_byte_op legal_byte_op] in *; unfold read_be_u16, read_be_u16_or_eof, read_be_u24, read_be_u32, read_le_u32;
      cbn [hc_rb cu_rb read_u8 read_u8_or_eof read_into skip];
      repeat first [ apply follows_u8 | apply follows_eof | apply follows_into; exact Hl | apply follows_skip | apply follows_lift
                   | apply follows_bind; [|intros ?]
                   | match goal with |- follows (match ?x with Some _ => _ | None => _ end) _ => destruct x end ].
  Qed.
  Theorem cursor_same pos ops : 0 <= pos < 2 ^ 64 -> Forall legal_byte_op ops ->
    fst (history_all (run_byte_op (hc_rb m)) ops (mkHC (fun _ => Some data) 0 pos))
    = fst (history_all (run_byte_op (cu_rb m)) ops (mkCursor data pos)).
  Proof.
    intros Hp Ho. assert (fixed_at (mkHC (fun _ => Some data) 0 pos) (mkCursor data pos)) as H by (split; [reflexivity|split; [reflexivity|split; [reflexivity|exact Hp]]]).
    revert H. generalize (mkHC (fun _ => Some data) 0 pos) (mkCursor data pos). clear Hp.
    induction Ho as [|o ops Hl Ho IH]; intros h b H; [reflexivity|]. cbn [history_all]. destruct (follows_op o Hl h b H) as [E H'].
    destruct (run_byte_op (hc_rb m) o h) as [r h']. destruct (run_byte_op (cu_rb m) o b) as [r' b']. cbn [fst snd] in *. subst r'. specialize (IH h' b' H').
    destruct (history_all (run_byte_op (hc_rb m)) ops h'). destruct (history_all (run_byte_op (cu_rb m)) ops b'). cbn [fst] in *. congruence.
  Qed.
End AnyCursor.

(** * Witnesses *)

Lemma uninitialised_repeat b : is_byte b -> uninitialised (repeat b).
Proof. intros Hb n. split; [apply repeat_length|]. apply Forall_forall. intros x Hx. apply repeat_spec in Hx. subst. exact Hb. Qed.

Lemma idle_sound : reader_sound (fun _ => True) idle_rb.
Proof. split; intros; intros st _; cbn; (split; [nubs|exact Logic.I]). Qed.
Theorem readers_refuted : ~ readers_are_harmless.
Proof.
  intros H. specialize (H unit idle_rb Debug (repeat 7) (repeat 8) 2 6 tt (uninitialised_repeat 7 ltac:(unfold is_byte; lia))
    (uninitialised_repeat 8 ltac:(unfold is_byte; lia)) idle_sound). cbv in H. discriminate.
Qed.

Definition is_bytes (l : list Z) : bool := forallb (fun b => (0 <=? b) && (b <? 256)) l.
Lemma is_bytes_ok l : is_bytes l = true -> bytes_ok l.
  Proof.
    unfold is_bytes. rewrite forallb_forall. intros H. apply Forall_forall. intros x Hx. specialize (H x Hx).
    apply andb_prop in H as [H1 H2]. apply Z.leb_le in H1. apply Z.ltb_lt in H2. unfold is_byte. lia.
Qed.
Lemma surjective_pairing_eq {A B} (p : A * B) a : fst p = a -> p = (a, snd p).
Proof. destruct p; cbn; intros ->; reflexivity. Qed.
