(** A source that says it has ended and later goes on.  [pause_rb] is a
    [BufferedReader] that believes it for good; it gives the same frames one by one. *)
From Verif Require Export ProofReader.
From Verif Require Import SpecReader.

Inductive until_pause (t : tail) : list event -> list Z -> Prop :=
| until_eof : t = TEof -> until_pause t [] []
| until_zero : forall r, t = TEof -> until_pause t (EvData [] :: r) []
| until_err : forall k r, t = TErr k -> until_pause t (EvErr k :: r) []
| until_chunk : forall c r l, chunk_ok c -> until_pause t r l ->
    until_pause t (EvData c :: r) (c ++ l).
Definition pausing (t : tail) (st : breader) (l : list Z) : Prop :=
  exists pre mid post l',
    br_buf st = pre ++ mid ++ post
    /\ len (br_buf st) = 2048
    /\ br_pos st = len pre
    /\ br_num_valid st = len pre + len mid
    /\ bytes_ok mid
    /\ until_pause t (br_inner st) l'
    /\ l = mid ++ l'.

Definition stop_eof (m : build) : M breader (option Z) := fun st =>
  match br_read_u8_or_eof m st with
  | (Ok None, st') => (Ok None, mkBR [] (br_buf st') 0 0)
  | r => r
  end.
Definition pause_rb (m : build) : ReadBytes breader :=
  mkRB (read_u8 (br_rb m)) (stop_eof m) (read_into (br_rb m)) (skip (br_rb m)) (rb_alloc (br_rb m)).

Lemma until_bytes t sc l : until_pause t sc l -> bytes_ok l.
Proof.
  induction 1 as [| | |c r l Hc Hd IH]; [constructor|constructor|constructor|].
  apply Forall_app. split; [apply Hc|exact IH].
Qed.
Lemma refill_zero st r : br_inner st = EvData [] :: r ->
  br_refill st = (Ok tt, mkBR r (br_buf st) 0 0).
Proof.
  intros Hin. unfold br_refill, br_set_pos, inner_read, bind, br_set_num_valid.
  cbn [br_inner br_buf br_pos br_num_valid]. rewrite Hin. cbn [length skipn app]. rewrite firstn_all. reflexivity.
Qed.

Lemma refill_data st c r :
  len (br_buf st) = 2048 -> br_inner st = EvData c :: r -> chunk_ok c ->
  exists post, br_refill st = (Ok tt, mkBR r (c ++ post) 0 (len c))
               /\ len (c ++ post) = 2048.
Proof.
  intros Hlen Hin [Hb Hc]. unfold br_refill, br_set_pos, inner_read, bind, br_set_num_valid.
  cbn [br_inner br_buf br_pos br_num_valid]. rewrite Hin.
  cbn [br_inner br_buf br_pos br_num_valid].
  rewrite u32_id by lia.
  exists (skipn (length c) (br_buf st)).
  assert (length (c ++ skipn (length c) (br_buf st)) = length (br_buf st)) as He.
  { rewrite app_length, skipn_length. unfold len in *. lia. }
  split; [|unfold len in *; lia].
  rewrite firstn_all2; [reflexivity|lia].
Qed.

Lemma pause_buffered_cons inner pre b mid post p n l t :
  len (pre ++ (b :: mid) ++ post) = 2048 -> p = len pre ->
  n = len pre + len (b :: mid) -> bytes_ok (b :: mid) ->
  until_pause t inner l ->
  pausing t (mkBR inner (pre ++ (b :: mid) ++ post) (p + 1) n) (mid ++ l).
Proof.
  intros Hl Hp Hn Hb Hd. exists (pre ++ [b]), mid, post, l.
  cbn [br_buf br_pos br_num_valid br_inner].
  assert (len (pre ++ [b]) = len pre + 1) as E by (rewrite len_app; reflexivity).
  rewrite len_cons in Hn.
  inversion Hb; subst.
  repeat split; auto; try lia.
  rewrite <- app_assoc. reflexivity.
Qed.

Lemma pause_u8 m t st b l : pausing t st (b :: l) ->
  exists st', br_read_u8 m st = (Ok b, st') /\ pausing t st' l.
Proof.
  intros (pre & mid & post & l' & Hbuf & Hlen & Hpos & Hnv & Hb & Hd & Hl).
  destruct st as [inner buf p n]; cbn [br_buf br_pos br_num_valid br_inner] in *.
  subst buf.
  destruct mid as [|x mid].
  - cbn [app] in Hl. destruct Hd as [?|? ?|? ? ?|c r l0 Hc Hd]; try discriminate.
    pose proof Hc as [Hcb Hcl].
    destruct c as [|x c]; [cbn in Hcl; lia|].
    injection Hl as <- ->.
    destruct (refill_data (mkBR (EvData (b :: c) :: r) (pre ++ [] ++ post) p n)
                _ _ Hlen eq_refl Hc) as (post' & E & Hl').
    assert (br_read_u8 m (mkBR (EvData (b :: c) :: r) (pre ++ [] ++ post) p n)
            = br_read_u8 m (mkBR r ((b :: c) ++ post') 0 (len (b :: c)))) as ->.
    { unfold br_read_u8 at 1. rewrite bind_get. cbn [br_pos br_num_valid].
      destruct (Z.eqb_spec p n) as [_|Hne]; [|cbn in Hnv; lia].
      unfold bind at 1. unfold bind at 1. rewrite E. rewrite bind_get.
      cbn [br_num_valid].
      destruct (Z.eqb_spec (len (b :: c)) 0); [lia|].
      unfold br_read_u8. rewrite bind_get. cbn [br_pos br_num_valid].
      destruct (Z.eqb_spec 0 (len (b :: c))); [lia|]. reflexivity. }
    pose proof (br_read_u8_buffered m r [] b c post' 0 (len (b :: c)) eq_refl) as E'.
    cbn [app] in *. rewrite E' by (auto; lia).
    eexists; split; [reflexivity|].
    apply (pause_buffered_cons r [] b c post' 0); auto.
  - injection Hl as <- ->.
    rewrite br_read_u8_buffered; auto.
    + eexists; split; [reflexivity|]. apply pause_buffered_cons; auto.
    + rewrite Hnv, len_cons. pose proof (len_nonneg mid). lia.
Qed.

Lemma pause_u8_end m t st : pausing t st [] ->
  exists st', br_read_u8 m st = (Err (tail_error t), st').
Proof.
  intros (pre & mid & post & l' & Hbuf & Hlen & Hpos & Hnv & Hb & Hd & Hl).
  symmetry in Hl; apply app_eq_nil in Hl as [-> ->].
  destruct st as [inner buf p n]; cbn [br_buf br_pos br_num_valid br_inner] in *.
  unfold br_read_u8. rewrite bind_get. cbn [br_pos br_num_valid].
  destruct (Z.eqb_spec p n) as [_|Hne]; [|cbn in Hnv; lia].
  unfold bind at 1. unfold bind at 1.
  inversion Hd as [Ht|r Ht|k r Ht|c r l Hc Hd' E1 E2]; subst.
  - rewrite refill_end by reflexivity.
    rewrite bind_get. cbn. eauto.
  - rewrite (refill_zero _ r) by reflexivity.
    rewrite bind_get. cbn. eauto.
  - rewrite (refill_err _ k r) by reflexivity. cbn. eauto.
  - apply app_eq_nil in E2 as [-> _]. destruct Hc as [_ Hc]. cbn in Hc. lia.
Qed.

Lemma pause_buffered_refill t st l :
  pausing t st l -> (br_pos st =? br_num_valid st) = true ->
  match l with
  | [] => match t with
          | TEof => exists st', br_refill st = (Ok tt, st') /\ br_num_valid st' = 0
                                /\ br_pos st' = 0
                                /\ br_buf st' = br_buf st
          | TErr k => exists st', br_refill st = (Err (IoError k), st')
          end
  | _ :: _ => exists st', br_refill st = (Ok tt, st') /\ pausing t st' l
                          /\ br_num_valid st' <> 0
                          /\ br_pos st' = 0
                          /\ length (br_inner st) = S (length (br_inner st'))
  end.
Proof.
  intros (pre & mid & post & l' & Hbuf & Hlen & Hpos & Hnv & Hb & Hd & Hl) E.
  assert (mid = []) as ->.
  { destruct mid; [reflexivity|]. rewrite len_cons in Hnv.
    pose proof (len_nonneg mid). lia. }
  cbn [app] in Hl. subst l'.
  destruct st as [inner buf p n]; cbn [br_buf br_pos br_num_valid br_inner] in *.
  destruct Hd as [Ht|r Ht|k r Ht|c r l0 Hc Hd'].
  - subst t. rewrite refill_end by reflexivity.
    eexists; split; [reflexivity|]. cbn. auto.
  - subst t. rewrite (refill_zero _ r) by reflexivity.
    eexists; split; [reflexivity|]. cbn. auto.
  - subst t. rewrite (refill_err _ k r) by reflexivity. eauto.
  - pose proof Hc as [Hcb Hcl].
    destruct c as [|x c]; [cbn in Hcl; lia|].
    destruct (refill_data (mkBR (EvData (x :: c) :: r) buf p n)
                _ _ Hlen eq_refl Hc) as (post' & -> & Hl').
    cbn [app].
    eexists; split; [reflexivity|]. cbn [br_num_valid br_inner length br_pos].
    repeat split; try lia.
    exists [], (x :: c), post', l0. cbn [br_buf br_pos br_num_valid br_inner].
    repeat split; auto.
Qed.

Lemma pause_eof m t st b l : pausing t st (b :: l) ->
  exists st', stop_eof m st = (Ok (Some b), st') /\ pausing t st' l.
Proof.
  intros HB. destruct (br_pos st =? br_num_valid st) eqn:E.
  - destruct (pause_buffered_refill t st _ HB E) as (st' & Hr & HB' & Hnz & Hp & _).
    unfold stop_eof, br_read_u8_or_eof. rewrite bind_get, E.
    unfold bind at 1. unfold bind at 1. rewrite Hr. rewrite bind_get. cbn [ret].
    destruct (Z.eqb_spec (br_num_valid st') 0); [contradiction|].
    destruct (pause_u8 m t st' b l HB') as (st'' & Hu & HB'').
    unfold bind. rewrite Hu. eexists; split; [reflexivity|auto].
  - unfold stop_eof. rewrite br_eof_nonempty by exact E.
    destruct (pause_u8 m t st b l HB) as (st'' & Hu & HB'').
    unfold bind. rewrite Hu. eexists; split; [reflexivity|auto].
Qed.

Lemma pause_eof_end m t st : pausing t st [] ->
  match t with
  | TEof => exists st', stop_eof m st = (Ok None, st') /\ pausing t st' []
  | TErr k => exists st', stop_eof m st = (Err (IoError k), st')
  end.
Proof.
  intros HB. assert (br_pos st =? br_num_valid st = true) as E.
  { destruct HB as (pre & mid & post & l' & Hbuf & Hlen & Hpos & Hnv & Hb & Hd & Hl).
    symmetry in Hl; apply app_eq_nil in Hl as [-> ->]. cbn in Hnv. lia. }
  pose proof (pause_buffered_refill t st _ HB E) as Hr. cbv iota in Hr.
  unfold stop_eof, br_read_u8_or_eof. rewrite bind_get, E.
  destruct t; unfold bind at 1; unfold bind at 1.
  - destruct Hr as (st' & -> & Hn & Hp & Hbf). rewrite bind_get. rewrite Hn. cbn.
    eexists; split; [reflexivity|].
    destruct HB as (pre & mid & post & l' & Hbuf & Hlen & _).
    exists [], [], (br_buf st'), []. cbn [br_buf br_pos br_num_valid br_inner].
    rewrite Hbf. repeat split; auto; constructor; auto.
  - destruct Hr as (st' & ->). eauto.
Qed.

(** The loops of [read_into] and [skip] consume the pausing part first. *)
Lemma pause_buffered_split t st l :
  pausing t st l ->
  exists mid l', l = mid ++ l' /\ br_num_valid st - br_pos st = len mid
    /\ 0 <= br_pos st /\ br_num_valid st <= 2048
    /\ forall k, 0 <= k <= len mid ->
         slice (br_buf st) (br_pos st) (br_pos st + k) = Ok (firstn (Z.to_nat k) mid)
         /\ pausing t (mkBR (br_inner st) (br_buf st) (br_pos st + k) (br_num_valid st))
                     (skipn (Z.to_nat k) mid ++ l').
Proof.
  intros (pre & mid & post & l' & Hbuf & Hlen & Hpos & Hnv & Hb & Hd & Hl).
  exists mid, l'. pose proof (len_nonneg pre). pose proof (len_nonneg mid).
  pose proof (len_nonneg post).
  assert (len (pre ++ mid ++ post) = 2048) as Hlen' by (rewrite <- Hbuf; exact Hlen).
  rewrite !len_app in Hlen'.
  repeat split; auto; try lia.
  - rewrite slice_ok by lia. rewrite Hbuf, Hpos. unfold len.
    rewrite Nat2Z.id, skipn_app, skipn_all, Nat.sub_diag. cbn [skipn app].
    f_equal. replace (Z.to_nat _) with (Z.to_nat k) by lia.
    rewrite firstn_app. replace (Z.to_nat k - length mid)%nat with 0%nat by (unfold len in *; lia).
    cbn. apply app_nil_r.
  - exists (pre ++ firstn (Z.to_nat k) mid), (skipn (Z.to_nat k) mid), post, l'.
    cbn [br_buf br_pos br_num_valid br_inner].
    assert (len (firstn (Z.to_nat k) mid) = k) as Hf.
    { unfold len in *. rewrite firstn_length. lia. }
    assert (len (skipn (Z.to_nat k) mid) = len mid - k) as Hsk.
    { unfold len in *. rewrite skipn_length. lia. }
    rewrite len_app. repeat split; auto; try lia.
    + rewrite Hbuf. rewrite <- app_assoc. f_equal.
      rewrite app_assoc, firstn_skipn. reflexivity.
    + apply Forall_skipn; auto.
Qed.

Lemma pause_skip_loop_ok m t : forall fuel amount st l,
  pausing t st l -> 0 <= amount < 2 ^ 32 ->
  (length (br_inner st) + 1 < fuel)%nat \/ ((length (br_inner st) < fuel)%nat /\ br_pos st < br_num_valid st) ->
  exists st', br_skip_loop m fuel amount st
              = (if amount <=? len l then Ok tt else Err (tail_error t), st')
    /\ (amount <= len l -> pausing t st' (skipn (Z.to_nat amount) l)).
Proof.
  induction fuel as [|fuel IH]; intros amount st l HB Ha Hf; [lia|].
  cbn [br_skip_loop].
  destruct (Z.ltb_spec 0 amount) as [Hpos|Hz].
  2:{ assert (amount = 0) as -> by lia. pose proof (len_nonneg l).
      destruct (Z.leb_spec 0 (len l)); [|lia].
      eexists; split; [reflexivity|]. intros _; exact HB. }
  destruct (pause_buffered_split t st l HB) as (mid & l' & Hl & Hlm & Hp & Hn & Hk).
  rewrite bind_get, Hlm. pose proof (len_nonneg mid). pose proof (len_nonneg l').
  rewrite chk_u32 by lia. rewrite bind_lift_ok.
  set (k := Z.min amount (len mid)).
  destruct (Hk k) as [_ HB']; [lia|].
  rewrite chk_u32 by lia. rewrite bind_lift_ok. unfold bind at 1, br_set_pos at 1.
  rewrite chk_u32 by lia. rewrite bind_lift_ok.
  destruct (Z.ltb_spec 0 (amount - k)) as [Hm|Hm].
  - assert (k = len mid) as Ek by lia.
    assert (skipn (Z.to_nat k) mid = []) as Es.
    { rewrite Ek. unfold len. rewrite Nat2Z.id. apply skipn_all. }
    rewrite Es in HB'. cbn [app] in HB'.
    pose proof (pause_buffered_refill t _ _ HB') as Hr. cbn [br_pos br_num_valid br_inner br_buf] in Hr.
    replace (br_pos st + k =? br_num_valid st) with true in Hr by lia.
    specialize (Hr eq_refl).
    rewrite Hl, len_app.
    unfold bind at 1. destruct l' as [|x l'].
    + destruct (Z.leb_spec amount (len mid + len (@nil Z))); [cbn in *; lia|].
      destruct t.
      * destruct Hr as (st' & -> & Hnv & _). rewrite bind_get, Hnv. cbn.
        eexists; split; [reflexivity|lia].
      * destruct Hr as (st' & ->). eexists; split; [reflexivity|lia].
    + destruct Hr as (st' & -> & HB'' & Hnz & Hp0 & Hi). rewrite bind_get.
      destruct (Z.eqb_spec (br_num_valid st') 0); [contradiction|].
      specialize (IH (amount - k) st' (x :: l') HB'').
      destruct HB'' as (pre2 & mid2 & post2 & l2 & ? & ? & ? & Hv & _).
      assert (br_pos st' < br_num_valid st') as Hlt.
      { pose proof (len_nonneg pre2). pose proof (len_nonneg mid2). lia. }
      specialize (IH ltac:(lia) ltac:(right; lia)).
      replace (amount - k <=? len (x :: l')) with (amount <=? len mid + len (x :: l')) in IH by lia.
      destruct IH as (st2 & -> & HB2). exists st2. split; [reflexivity|].
      intros Hle.
      replace (skipn (Z.to_nat amount) (mid ++ x :: l'))
        with (skipn (Z.to_nat (amount - k)) (x :: l')); [apply HB2; lia|].
      rewrite skipn_app. rewrite (skipn_all2 mid) by (unfold len in *; lia).
      cbn [app]. f_equal. unfold len in *; lia.
  - assert (k = amount) as Ek by lia.
    replace (amount - k) with 0 by lia.
    rewrite Hl, len_app. destruct (Z.leb_spec amount (len mid + len l')); [|lia].
    assert (forall s, br_skip_loop m fuel 0 s = (Ok tt, s)) as ->.
    { intros; destruct fuel; reflexivity. }
    eexists; split; [reflexivity|]. intros _.
    destruct (firstn_skipn_app (Z.to_nat amount) mid l') as [_ ->]; [unfold len in *; lia|].
    rewrite <- Ek. exact HB'.
Qed.

Lemma pause_read_into_loop_ok m t : forall fuel done rest st l,
  pausing t st l -> len done + len rest < 2 ^ 63 ->
  (length (br_inner st) + 1 < fuel)%nat \/ ((length (br_inner st) < fuel)%nat /\ br_pos st < br_num_valid st) ->
  exists st', br_read_into_loop m fuel (done ++ rest) (len rest) st
              = (if (length rest <=? length l)%nat
                 then Ok (done ++ firstn (length rest) l)
                 else Err (tail_error t), st')
    /\ ((length rest <= length l)%nat -> pausing t st' (skipn (length rest) l)).
Proof.
  induction fuel as [|fuel IH]; intros done rest st l HB Ha Hf; [lia|].
  cbn [br_read_into_loop]. pose proof (len_nonneg done).
  destruct (Z.ltb_spec 0 (len rest)) as [Hpos|Hz].
  2:{ destruct rest; [|rewrite len_cons in Hz; pose proof (len_nonneg rest); lia].
      cbn. eexists; split; [reflexivity|]. intros _; exact HB. }
  destruct (pause_buffered_split t st l HB) as (mid & l' & Hl & Hlm & Hp & Hn & Hk).
  rewrite bind_get, Hlm. pose proof (len_nonneg mid). pose proof (len_nonneg l').
  rewrite len_app, chk_u64 by lia. rewrite bind_lift_ok.
  rewrite chk_u32 by lia. rewrite bind_lift_ok.
  set (k := Z.min (len rest) (len mid)).
  destruct (Hk k) as [Hsl HB']; [lia|].
  rewrite (slice_ok (done ++ rest)) by (rewrite ?len_app; lia). rewrite bind_lift_ok.
  rewrite Hsl, bind_lift_ok.
  rewrite chk_u64 by lia. rewrite bind_lift_ok.
  rewrite (u32_id k) by lia.
  rewrite chk_u32 by lia. rewrite bind_lift_ok. unfold bind at 1, br_set_pos at 1.
  assert (length (firstn (Z.to_nat k) mid) = Z.to_nat k) as Hlf.
  { rewrite firstn_length. unfold len in *. lia. }
  replace (len done + len rest - len rest) with (len done) by lia.
  rewrite splice_step by (rewrite Hlf; unfold len in *; lia).
  rewrite Hlf.
  assert (len (skipn (Z.to_nat k) rest) = len rest - k) as Hls.
  { unfold len in *. rewrite skipn_length. lia. }
  destruct (Z.ltb_spec 0 (len rest - k)) as [Hm|Hm].
  - assert (k = len mid) as Ek by lia.
    assert (skipn (Z.to_nat k) mid = [] /\ firstn (Z.to_nat k) mid = mid) as [Es Ef].
    { rewrite Ek. unfold len. rewrite Nat2Z.id. split; [apply skipn_all|apply firstn_all]. }
    rewrite Es in HB'. rewrite Ef. cbn [app] in HB'.
    pose proof (pause_buffered_refill t _ _ HB') as Hr. cbn [br_pos br_num_valid br_inner br_buf] in Hr.
    replace (br_pos st + k =? br_num_valid st) with true in Hr by lia.
    specialize (Hr eq_refl).
    rewrite Hl, app_length.
    unfold bind at 1. destruct l' as [|x l'].
    + destruct (Nat.leb_spec (length rest) (length mid + length (@nil Z)));
        [cbn in *; unfold len in *; lia|].
      destruct t.
      * destruct Hr as (st' & -> & Hnv & _). rewrite bind_get, Hnv. cbn.
        eexists; split; [reflexivity|lia].
      * destruct Hr as (st' & ->). eexists; split; [reflexivity|lia].
    + destruct Hr as (st' & -> & HB'' & Hnz & Hp0 & Hi). rewrite bind_get.
      destruct (Z.eqb_spec (br_num_valid st') 0); [contradiction|].
      specialize (IH (done ++ mid) (skipn (Z.to_nat k) rest) st' (x :: l') HB'').
      destruct HB'' as (pre2 & mid2 & post2 & l2 & ? & ? & ? & Hv & _).
      assert (br_pos st' < br_num_valid st') as Hlt.
      { pose proof (len_nonneg pre2). pose proof (len_nonneg mid2). lia. }
      rewrite len_app, Hls in IH.
      specialize (IH ltac:(lia) ltac:(right; lia)).
      assert (length (skipn (Z.to_nat k) rest) = length rest - length mid)%nat as Hle.
      { rewrite skipn_length. unfold len in *. lia. }
      rewrite Hle in IH.
      replace (length rest - length mid <=? length (x :: l'))%nat
        with (length rest <=? length mid + length (x :: l'))%nat in IH
        by (unfold len in *; lia).
      assert (length mid <= length rest)%nat by (unfold len in *; lia).
      destruct IH as (st2 & IH & HB2). exists st2. rewrite IH. split.
      * rewrite <- app_assoc. rewrite firstn_app, (firstn_all2 mid) by lia. reflexivity.
      * intros Hle2. rewrite skipn_app, (skipn_all2 mid) by lia. apply HB2. lia.
  - assert (k = len rest) as Ek by lia.
    replace (len rest - k) with 0 by lia.
    rewrite Hl, app_length.
    destruct (Nat.leb_spec (length rest) (length mid + length l')); [|unfold len in *; lia].
    assert (skipn (Z.to_nat k) rest = []) as ->.
    { apply skipn_all2. unfold len in *; lia. }
    assert (forall b s, br_read_into_loop m fuel b 0 s = (Ok b, s)) as Hz.
    { intros. destruct fuel; reflexivity. }
    rewrite Hz. rewrite app_nil_r.
    replace (Z.to_nat k) with (length rest) by (unfold len in *; lia).
    destruct (firstn_skipn_app (length rest) mid l') as [-> ->]; [unfold len in *; lia|].
    eexists; split; [reflexivity|]. intros _.
    replace (length rest) with (Z.to_nat k) by (unfold len in *; lia).
    exact HB'.
Qed.

Theorem pause_stream m t : stream (pause_rb m) t (pausing t).
Proof.
  split; cbn [pause_rb br_rb read_u8 read_u8_or_eof read_into skip rb_alloc].
  - intros st l (pre & mid & post & l' & _ & _ & _ & _ & Hb & Hd & ->).
    apply Forall_app; split; [exact Hb|]. eapply until_bytes; eauto.
  - apply pause_u8.
  - apply pause_u8_end.
  - apply pause_eof.
  - apply pause_eof_end.
  - intros st l1 l2 buf HB Hl H32. unfold br_read_into. rewrite bind_get.
    pose proof (pause_read_into_loop_ok m t (2 + length (br_inner st)) [] buf st _ HB
                  ltac:(cbn; lia) ltac:(left; lia)) as Hi.
    rewrite Hl, app_length in Hi.
    destruct (Nat.leb_spec (length l1) (length l1 + length l2)); [|lia].
    cbn [app] in Hi.
    rewrite firstn_app, firstn_all, Nat.sub_diag, skipn_app, skipn_all, Nat.sub_diag in Hi.
    cbn [firstn skipn app] in Hi. rewrite app_nil_r in Hi.
    destruct Hi as (st' & Hi & HB'). exists st'. split; [exact Hi|apply HB'; lia].
  - intros st l buf HB Hl H32. unfold br_read_into. rewrite bind_get.
    pose proof (pause_read_into_loop_ok m t (2 + length (br_inner st)) [] buf st _ HB
                  ltac:(cbn; lia) ltac:(left; lia)) as Hi.
    destruct (Nat.leb_spec (length buf) (length l)); [lia|].
    destruct Hi as (st' & Hi & _). eauto.
  - intros st l1 l2 HB H32. unfold br_skip. rewrite bind_get.
    pose proof (len_nonneg l1). pose proof (len_nonneg l2).
    pose proof (pause_skip_loop_ok m t (2 + length (br_inner st)) (len l1) st _ HB
                  ltac:(lia) ltac:(left; lia)) as Hi.
    rewrite len_app in Hi.
    destruct (Z.leb_spec (len l1) (len l1 + len l2)); [|lia].
    replace (Z.to_nat (len l1)) with (length l1) in Hi by (unfold len; lia).
    rewrite skipn_app, skipn_all, Nat.sub_diag in Hi.
    destruct Hi as (st' & Hi & HB'). exists st'. split; [exact Hi|apply HB'; lia].
  - intros st l n HB Hn. unfold br_skip. rewrite bind_get. pose proof (len_nonneg l).
    pose proof (pause_skip_loop_ok m t (2 + length (br_inner st)) n st _ HB
                  ltac:(lia) ltac:(left; lia)) as Hi.
    destruct (Z.leb_spec n (len l)); [lia|].
    destruct Hi as (st' & Hi & _). eauto.
  - intros st l n sz HB. eexists; split; [reflexivity|exact HB].
Qed.

Lemma pause_new_buffered t sc l : until_pause t sc l -> pausing t (br_new sc) l.
Proof.
  intros Hd. exists [], [], (repeat 0 (Z.to_nat CAPACITY)), l. cbn [br_new br_buf br_pos br_num_valid br_inner app].
  repeat split; auto; constructor.
Qed.


(** Frames: nothing is read after a [None]. *)
Definition until_none {S A} (c1 c2 : M S (option A)) : Prop :=
  forall st, fst (c1 st) = fst (c2 st) /\ (fst (c1 st) <> Ok None -> snd (c1 st) = snd (c2 st)).
Lemma until_refl {S A} (c : M S (option A)) : until_none c c.
Proof. split; auto. Qed.
Lemma until_bind {S A B} (c1 c2 : M S (option A)) (f1 f2 : option A -> M S (option B)) :
  until_none c1 c2 -> (forall st, f1 None st = (Ok None, st)) -> (forall st, f2 None st = (Ok None, st)) ->
  (forall a, until_none (f1 (Some a)) (f2 (Some a))) -> until_none (bind c1 f1) (bind c2 f2).
Proof.
  intros Hc H1 H2 Hf st. destruct (Hc st) as [E1 E2]. unfold bind.
  destruct (c1 st) as [o1 s1], (c2 st) as [o2 s2]. cbn [fst snd] in *. subst o2.
  destruct o1 as [[a|]|e|w|w|].
  - rewrite E2 by discriminate. apply Hf.
  - rewrite H1, H2. split; [reflexivity|]. intros X. contradict X. reflexivity.
  - rewrite E2 by discriminate. split; auto.
  - rewrite E2 by discriminate. split; auto.
  - rewrite E2 by discriminate. split; auto.
  - rewrite E2 by discriminate. split; auto.
Qed.
Lemma until_lift16 {S A} (c1 c2 : M S (option A)) : until_none c1 c2 -> until_none (c16_lift c1) (c16_lift c2).
Proof.
  intros Hc st. destruct (Hc (c16_inner st)) as [E1 E2]. unfold c16_lift.
  destruct (c1 (c16_inner st)) as [o1 s1], (c2 (c16_inner st)) as [o2 s2]. cbn [fst snd] in *. split; [exact E1|]. intros X. rewrite E2 by exact X. reflexivity.
Qed.
Lemma until_lift8 {S A} (c1 c2 : M S (option A)) : until_none c1 c2 -> until_none (c8_lift c1) (c8_lift c2).
Proof.
  intros Hc st. destruct (Hc (c8_inner st)) as [E1 E2]. unfold c8_lift.
  destruct (c1 (c8_inner st)) as [o1 s1], (c2 (c8_inner st)) as [o2 s2]. cbn [fst snd] in *. split; [exact E1|]. intros X. rewrite E2 by exact X. reflexivity.
Qed.
Lemma until_with8 {S A} (c1 c2 : M _ (option A)) : until_none c1 c2 -> until_none (@with_crc8 S _ c1) (with_crc8 c2).
Proof.
  intros Hc st. destruct (Hc (crc8_new st)) as [E1 E2]. unfold with_crc8.
  destruct (c1 (crc8_new st)) as [o1 s1], (c2 (crc8_new st)) as [o2 s2]. cbn [fst snd] in *. split; [exact E1|]. intros X. rewrite E2 by exact X. reflexivity.
Qed.
Lemma until_with16 {S A} (c1 c2 : M _ (option A)) : until_none c1 c2 -> until_none (@with_crc16 S _ c1) (with_crc16 c2).
Proof.
  intros Hc st. destruct (Hc (crc16_new st)) as [E1 E2]. unfold with_crc16.
  destruct (c1 (crc16_new st)) as [o1 s1], (c2 (crc16_new st)) as [o2 s2]. cbn [fst snd] in *. split; [exact E1|]. intros X. rewrite E2 by exact X. reflexivity.
Qed.
Lemma stop_until m : until_none (read_u8_or_eof (br_rb m)) (read_u8_or_eof (pause_rb m)).
Proof.
  intros st. cbn [br_rb pause_rb read_u8_or_eof]. unfold stop_eof. destruct (br_read_u8_or_eof m st) as [[[b|]|e|w|w|] s]; cbn [fst snd]; split; auto.
  intros X. contradict X. reflexivity.
Qed.
Lemma stop_frames m fuel buffer :
  until_none (read_next_or_eof (br_rb m) m fuel buffer) (read_next_or_eof (pause_rb m) m fuel buffer).
Proof.
  unfold read_next_or_eof. apply until_with16. rewrite !read_next_body_eq.
  change (frame_after_header (pause_rb m)) with (frame_after_header (br_rb m)).
  apply until_bind; [|reflexivity|reflexivity|intros; apply until_refl].
  unfold read_frame_header_or_eof. apply until_with8. rewrite !read_frame_header_body_eq.
  change (header_after_sync (crc16_rb (pause_rb m))) with (header_after_sync (crc16_rb (br_rb m))).
  apply until_bind; [|reflexivity|reflexivity|intros; apply until_refl].
  assert (until_none (read_u8_or_eof (crc8_rb (crc16_rb (br_rb m)))) (read_u8_or_eof (crc8_rb (crc16_rb (pause_rb m))))) as X.
  { cbn [crc8_rb read_u8_or_eof]. apply until_bind; [|reflexivity|reflexivity|intros; apply until_refl]. apply until_lift8.
    cbn [crc16_rb read_u8_or_eof]. apply until_bind; [|reflexivity|reflexivity|intros; apply until_refl]. apply until_lift16.
    apply stop_until. }
  unfold read_be_u16_or_eof. apply until_bind; [exact X|reflexivity|reflexivity|]. intros a.
  apply until_bind; [exact X|reflexivity|reflexivity|]. intros; apply until_refl.
Qed.
Lemma stop_open m un fuel opts st : new_ext (pause_rb m) m un fuel opts st = new_ext (br_rb m) m un fuel opts st.
Proof. reflexivity. Qed.
