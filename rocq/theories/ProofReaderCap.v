(** [BufferedReader] with a buffer of any size up to 2048 bytes is a byte stream. *)
From Verif Require Export ProofReader SpecFuzzing.
From Verif Require Import SpecReader.

Definition br_of (cap : Z) (sc : list event) : breader := mkBR sc (repeat 0 (Z.to_nat cap)) 0 0.

Section Capacity.
  Context (cap : Z) (Hcap : 0 < cap <= 2048).
  Notation chunk_ok c := (bytes_ok c /\ 0 < len c <= cap).

Lemma cap_delivers_bytes t sc l : delivers_in cap t sc l -> bytes_ok l.
Proof.
  induction 1 as [| |c r l Hc Hd IH]; [constructor|constructor|].
  apply Forall_app. split; [apply Hc|exact IH].
Qed.

(** Refilling an empty buffer. *)
Lemma cap_refill_chunk t st c r l :
  len (br_buf st) = cap -> br_inner st = EvData c :: r -> chunk_ok c ->
  delivers_in cap t r l ->
  exists post, br_refill st = (Ok tt, mkBR r (c ++ post) 0 (len c))
               /\ len (c ++ post) = cap.
Proof.
  intros Hlen Hin [Hb Hc] Hd. unfold br_refill, br_set_pos, inner_read, bind, br_set_num_valid.
  cbn [br_inner br_buf br_pos br_num_valid]. rewrite Hin.
  cbn [br_inner br_buf br_pos br_num_valid].
  rewrite u32_id by lia.
  exists (skipn (length c) (br_buf st)).
  assert (length (c ++ skipn (length c) (br_buf st)) = length (br_buf st)) as He.
  { rewrite app_length, skipn_length. unfold len in *. lia. }
  split; [|unfold len in *; lia].
  rewrite firstn_all2; [reflexivity|lia].
Qed.

Lemma cap_read_u8_buffered m inner pre b mid post p n :
  p = len pre -> p <> n -> len (pre ++ (b :: mid) ++ post) = cap ->
  br_read_u8 m (mkBR inner (pre ++ (b :: mid) ++ post) p n)
  = (Ok b, mkBR inner (pre ++ (b :: mid) ++ post) (p + 1) n).
Proof.
  intros Hp Hn Hl. unfold br_read_u8. rewrite bind_get. cbn [br_pos br_num_valid].
  destruct (Z.eqb_spec p n); [contradiction|].
  unfold bind at 1. cbn [ret]. rewrite bind_get. cbn [br_buf br_pos].
  change ((b :: mid) ++ post) with (b :: (mid ++ post)).
  rewrite index_unchecked_app by exact Hp. rewrite bind_lift_ok.
  rewrite chk_u32; [reflexivity|].
  rewrite !len_app, len_cons in Hl. pose proof (len_nonneg pre).
  pose proof (len_nonneg mid). pose proof (len_nonneg post). lia.
Qed.

Lemma cap_buffered_cons inner pre b mid post p n l t :
  len (pre ++ (b :: mid) ++ post) = cap -> p = len pre ->
  n = len pre + len (b :: mid) -> bytes_ok (b :: mid) ->
  delivers_in cap t inner l ->
  buffered_in cap t (mkBR inner (pre ++ (b :: mid) ++ post) (p + 1) n) (mid ++ l).
Proof.
  intros Hl Hp Hn Hb Hd. exists (pre ++ [b]), mid, post, l.
  cbn [br_buf br_pos br_num_valid br_inner].
  assert (len (pre ++ [b]) = len pre + 1) as E by (rewrite len_app; reflexivity).
  rewrite len_cons in Hn.
  inversion Hb; subst.
  repeat split; auto; try lia.
  rewrite <- app_assoc. reflexivity.
Qed.

Lemma cap_u8 m t st b l : buffered_in cap t st (b :: l) ->
  exists st', br_read_u8 m st = (Ok b, st') /\ buffered_in cap t st' l.
Proof.
  intros (pre & mid & post & l' & Hbuf & Hlen & Hpos & Hnv & Hb & Hd & Hl).
  destruct st as [inner buf p n]; cbn [br_buf br_pos br_num_valid br_inner] in *.
  subst buf.
  destruct mid as [|x mid].
  - cbn [app] in Hl. destruct Hd as [?|? ? ?|c r l0 Hc Hd]; try discriminate.
    pose proof Hc as [Hcb Hcl].
    destruct c as [|x c]; [cbn in Hcl; lia|].
    injection Hl as <- ->.
    destruct (cap_refill_chunk t (mkBR (EvData (b :: c) :: r) (pre ++ [] ++ post) p n)
                _ _ _ Hlen eq_refl Hc Hd) as (post' & E & Hl').
    assert (br_read_u8 m (mkBR (EvData (b :: c) :: r) (pre ++ [] ++ post) p n)
            = br_read_u8 m (mkBR r ((b :: c) ++ post') 0 (len (b :: c)))) as ->.
    { unfold br_read_u8 at 1. rewrite bind_get. cbn [br_pos br_num_valid].
      destruct (Z.eqb_spec p n) as [_|Hne]; [|cbn in Hnv; lia].
      unfold bind at 1. unfold bind at 1. rewrite E. rewrite bind_get.
      cbn [br_num_valid].
      destruct (Z.eqb_spec (len (b :: c)) 0); [lia|].
      unfold br_read_u8. rewrite bind_get. cbn [br_pos br_num_valid].
      destruct (Z.eqb_spec 0 (len (b :: c))); [lia|]. reflexivity. }
    pose proof (cap_read_u8_buffered m r [] b c post' 0 (len (b :: c)) eq_refl) as E'.
    cbn [app] in *. rewrite E' by (auto; lia).
    eexists; split; [reflexivity|].
    apply (cap_buffered_cons r [] b c post' 0); auto.
  - injection Hl as <- ->.
    rewrite cap_read_u8_buffered; auto.
    + eexists; split; [reflexivity|]. apply cap_buffered_cons; auto.
    + rewrite Hnv, len_cons. pose proof (len_nonneg mid). lia.
Qed.

Lemma cap_u8_end m t st : buffered_in cap t st [] ->
  exists st', br_read_u8 m st = (Err (tail_error t), st').
Proof.
  intros (pre & mid & post & l' & Hbuf & Hlen & Hpos & Hnv & Hb & Hd & Hl).
  symmetry in Hl; apply app_eq_nil in Hl as [-> ->].
  destruct st as [inner buf p n]; cbn [br_buf br_pos br_num_valid br_inner] in *.
  unfold br_read_u8. rewrite bind_get. cbn [br_pos br_num_valid].
  destruct (Z.eqb_spec p n) as [_|Hne]; [|cbn in Hnv; lia].
  unfold bind at 1. unfold bind at 1.
  inversion Hd as [Ht|k r Ht|c r l Hc Hd' E1 E2]; subst.
  - rewrite refill_end by reflexivity.
    rewrite bind_get. cbn. eauto.
  - rewrite (refill_err _ k r) by reflexivity. cbn. eauto.
  - apply app_eq_nil in E2 as [-> _]. destruct Hc as [_ Hc]. cbn in Hc. lia.
Qed.

Lemma cap_buffered_refill t st l :
  buffered_in cap t st l -> (br_pos st =? br_num_valid st) = true ->
  match l with
  | [] => match t with
          | TEof => exists st', br_refill st = (Ok tt, st') /\ br_num_valid st' = 0
                                /\ br_inner st' = [] /\ br_pos st' = 0
                                /\ br_buf st' = br_buf st
          | TErr k => exists st', br_refill st = (Err (IoError k), st')
          end
  | _ :: _ => exists st', br_refill st = (Ok tt, st') /\ buffered_in cap t st' l
                          /\ br_num_valid st' <> 0
                          /\ br_pos st' = 0
                          /\ length (br_inner st) = S (length (br_inner st'))
  end.
Proof.
  intros (pre & mid & post & l' & Hbuf & Hlen & Hpos & Hnv & Hb & Hd & Hl) E.
  assert (mid = []) as ->.
  { destruct mid; [reflexivity|]. rewrite len_cons in Hnv.
    pose proof (len_nonneg mid). lia. }
  cbn [app] in Hl. subst l'.
  destruct st as [inner buf p n]; cbn [br_buf br_pos br_num_valid br_inner] in *.
  destruct Hd as [Ht|k r Ht|c r l0 Hc Hd'].
  - subst t. rewrite refill_end by reflexivity.
    eexists; split; [reflexivity|]. cbn. auto.
  - subst t. rewrite (refill_err _ k r) by reflexivity. eauto.
  - pose proof Hc as [Hcb Hcl].
    destruct c as [|x c]; [cbn in Hcl; lia|].
    destruct (cap_refill_chunk t (mkBR (EvData (x :: c) :: r) buf p n)
                _ _ _ Hlen eq_refl Hc Hd') as (post' & -> & Hl').
    cbn [app].
    eexists; split; [reflexivity|]. cbn [br_num_valid br_inner length br_pos].
    repeat split; try lia.
    exists [], (x :: c), post', l0. cbn [br_buf br_pos br_num_valid br_inner].
    repeat split; auto.
Qed.

Lemma cap_eof m t st b l : buffered_in cap t st (b :: l) ->
  exists st', br_read_u8_or_eof m st = (Ok (Some b), st') /\ buffered_in cap t st' l.
Proof.
  intros HB. destruct (br_pos st =? br_num_valid st) eqn:E.
  - destruct (cap_buffered_refill t st _ HB E) as (st' & Hr & HB' & Hnz & Hp & _).
    unfold br_read_u8_or_eof. rewrite bind_get, E.
    unfold bind at 1. unfold bind at 1. rewrite Hr. rewrite bind_get. cbn [ret].
    destruct (Z.eqb_spec (br_num_valid st') 0); [contradiction|].
    destruct (cap_u8 m t st' b l HB') as (st'' & Hu & HB'').
    unfold bind. rewrite Hu. eexists; split; [reflexivity|auto].
  - rewrite br_eof_nonempty by exact E.
    destruct (cap_u8 m t st b l HB) as (st'' & Hu & HB'').
    unfold bind. rewrite Hu. eexists; split; [reflexivity|auto].
Qed.

Lemma cap_eof_end m t st : buffered_in cap t st [] ->
  match t with
  | TEof => exists st', br_read_u8_or_eof m st = (Ok None, st') /\ buffered_in cap t st' []
  | TErr k => exists st', br_read_u8_or_eof m st = (Err (IoError k), st')
  end.
Proof.
  intros HB. assert (br_pos st =? br_num_valid st = true) as E.
  { destruct HB as (pre & mid & post & l' & Hbuf & Hlen & Hpos & Hnv & Hb & Hd & Hl).
    symmetry in Hl; apply app_eq_nil in Hl as [-> ->]. cbn in Hnv. lia. }
  pose proof (cap_buffered_refill t st _ HB E) as Hr. cbv iota in Hr.
  unfold br_read_u8_or_eof. rewrite bind_get, E.
  destruct t; unfold bind at 1; unfold bind at 1.
  - destruct Hr as (st' & -> & Hn & Hi & Hp & Hbf). rewrite bind_get. rewrite Hn. cbn.
    eexists; split; [reflexivity|].
    destruct HB as (pre & mid & post & l' & Hbuf & Hlen & _).
    exists [], [], (br_buf st'), [].
    rewrite Hi, Hp, Hn, Hbf. repeat split; auto; constructor; auto.
  - destruct Hr as (st' & ->). eauto.
Qed.

(** The loops of [read_into] and [skip] consume the buffered_in cap part first. *)
Lemma cap_buffered_split t st l :
  buffered_in cap t st l ->
  exists mid l', l = mid ++ l' /\ br_num_valid st - br_pos st = len mid
    /\ 0 <= br_pos st /\ br_num_valid st <= cap
    /\ forall k, 0 <= k <= len mid ->
         slice (br_buf st) (br_pos st) (br_pos st + k) = Ok (firstn (Z.to_nat k) mid)
         /\ buffered_in cap t (mkBR (br_inner st) (br_buf st) (br_pos st + k) (br_num_valid st))
                     (skipn (Z.to_nat k) mid ++ l').
Proof.
  intros (pre & mid & post & l' & Hbuf & Hlen & Hpos & Hnv & Hb & Hd & Hl).
  exists mid, l'. pose proof (len_nonneg pre). pose proof (len_nonneg mid).
  pose proof (len_nonneg post).
  assert (len (pre ++ mid ++ post) = cap) as Hlen' by (rewrite <- Hbuf; exact Hlen).
  rewrite !len_app in Hlen'.
  repeat split; auto; try lia.
  - rewrite slice_ok by lia. rewrite Hbuf, Hpos. unfold len.
    rewrite Nat2Z.id, skipn_app, skipn_all, Nat.sub_diag. cbn [skipn app].
    f_equal. replace (Z.to_nat _) with (Z.to_nat k) by lia.
    rewrite firstn_app. replace (Z.to_nat k - length mid)%nat with 0%nat by (unfold len in *; lia).
    cbn. apply app_nil_r.
  - exists (pre ++ firstn (Z.to_nat k) mid), (skipn (Z.to_nat k) mid), post, l'.
    cbn [br_buf br_pos br_num_valid br_inner].
    assert (len (firstn (Z.to_nat k) mid) = k) as Hf.
    { unfold len in *. rewrite firstn_length. lia. }
    assert (len (skipn (Z.to_nat k) mid) = len mid - k) as Hsk.
    { unfold len in *. rewrite skipn_length. lia. }
    rewrite len_app. repeat split; auto; try lia.
    + rewrite Hbuf. rewrite <- app_assoc. f_equal.
      rewrite app_assoc, firstn_skipn. reflexivity.
    + apply Forall_skipn; auto.
Qed.

Lemma cap_skip_loop_ok m t : forall fuel amount st l,
  buffered_in cap t st l -> 0 <= amount < 2 ^ 32 ->
  (length (br_inner st) + 1 < fuel)%nat \/ ((length (br_inner st) < fuel)%nat /\ br_pos st < br_num_valid st) ->
  exists st', br_skip_loop m fuel amount st
              = (if amount <=? len l then Ok tt else Err (tail_error t), st')
    /\ (amount <= len l -> buffered_in cap t st' (skipn (Z.to_nat amount) l)).
Proof.
  induction fuel as [|fuel IH]; intros amount st l HB Ha Hf; [lia|].
  cbn [br_skip_loop].
  destruct (Z.ltb_spec 0 amount) as [Hpos|Hz].
  2:{ assert (amount = 0) as -> by lia. pose proof (len_nonneg l).
      destruct (Z.leb_spec 0 (len l)); [|lia].
      eexists; split; [reflexivity|]. intros _; exact HB. }
  destruct (cap_buffered_split t st l HB) as (mid & l' & Hl & Hlm & Hp & Hn & Hk).
  rewrite bind_get, Hlm. pose proof (len_nonneg mid). pose proof (len_nonneg l').
  rewrite chk_u32 by lia. rewrite bind_lift_ok.
  set (k := Z.min amount (len mid)).
  destruct (Hk k) as [_ HB']; [lia|].
  rewrite chk_u32 by lia. rewrite bind_lift_ok. unfold bind at 1, br_set_pos at 1.
  rewrite chk_u32 by lia. rewrite bind_lift_ok.
  destruct (Z.ltb_spec 0 (amount - k)) as [Hm|Hm].
  - assert (k = len mid) as Ek by lia.
    assert (skipn (Z.to_nat k) mid = []) as Es.
    { rewrite Ek. unfold len. rewrite Nat2Z.id. apply skipn_all. }
    rewrite Es in HB'. cbn [app] in HB'.
    pose proof (cap_buffered_refill t _ _ HB') as Hr. cbn [br_pos br_num_valid br_inner br_buf] in Hr.
    replace (br_pos st + k =? br_num_valid st) with true in Hr by lia.
    specialize (Hr eq_refl).
    rewrite Hl, len_app.
    unfold bind at 1. destruct l' as [|x l'].
    + destruct (Z.leb_spec amount (len mid + len (@nil Z))); [cbn in *; lia|].
      destruct t.
      * destruct Hr as (st' & -> & Hnv & _). rewrite bind_get, Hnv. cbn.
        eexists; split; [reflexivity|lia].
      * destruct Hr as (st' & ->). eexists; split; [reflexivity|lia].
    + destruct Hr as (st' & -> & HB'' & Hnz & Hp0 & Hi). rewrite bind_get.
      destruct (Z.eqb_spec (br_num_valid st') 0); [contradiction|].
      specialize (IH (amount - k) st' (x :: l') HB'').
      destruct HB'' as (pre2 & mid2 & post2 & l2 & ? & ? & ? & Hv & _).
      assert (br_pos st' < br_num_valid st') as Hlt.
      { pose proof (len_nonneg pre2). pose proof (len_nonneg mid2). lia. }
      specialize (IH ltac:(lia) ltac:(right; lia)).
      replace (amount - k <=? len (x :: l')) with (amount <=? len mid + len (x :: l')) in IH by lia.
      destruct IH as (st2 & -> & HB2). exists st2. split; [reflexivity|].
      intros Hle.
      replace (skipn (Z.to_nat amount) (mid ++ x :: l'))
        with (skipn (Z.to_nat (amount - k)) (x :: l')); [apply HB2; lia|].
      rewrite skipn_app. rewrite (skipn_all2 mid) by (unfold len in *; lia).
      cbn [app]. f_equal. unfold len in *; lia.
  - assert (k = amount) as Ek by lia.
    replace (amount - k) with 0 by lia.
    rewrite Hl, len_app. destruct (Z.leb_spec amount (len mid + len l')); [|lia].
    assert (forall s, br_skip_loop m fuel 0 s = (Ok tt, s)) as ->.
    { intros; destruct fuel; reflexivity. }
    eexists; split; [reflexivity|]. intros _.
    destruct (firstn_skipn_app (Z.to_nat amount) mid l') as [_ ->]; [unfold len in *; lia|].
    rewrite <- Ek. exact HB'.
Qed.

Lemma cap_read_into_loop_ok m t : forall fuel done rest st l,
  buffered_in cap t st l -> len done + len rest < 2 ^ 63 ->
  (length (br_inner st) + 1 < fuel)%nat \/ ((length (br_inner st) < fuel)%nat /\ br_pos st < br_num_valid st) ->
  exists st', br_read_into_loop m fuel (done ++ rest) (len rest) st
              = (if (length rest <=? length l)%nat
                 then Ok (done ++ firstn (length rest) l)
                 else Err (tail_error t), st')
    /\ ((length rest <= length l)%nat -> buffered_in cap t st' (skipn (length rest) l)).
Proof.
  induction fuel as [|fuel IH]; intros done rest st l HB Ha Hf; [lia|].
  cbn [br_read_into_loop]. pose proof (len_nonneg done).
  destruct (Z.ltb_spec 0 (len rest)) as [Hpos|Hz].
  2:{ destruct rest; [|rewrite len_cons in Hz; pose proof (len_nonneg rest); lia].
      cbn. eexists; split; [reflexivity|]. intros _; exact HB. }
  destruct (cap_buffered_split t st l HB) as (mid & l' & Hl & Hlm & Hp & Hn & Hk).
  rewrite bind_get, Hlm. pose proof (len_nonneg mid). pose proof (len_nonneg l').
  rewrite len_app, chk_u64 by lia. rewrite bind_lift_ok.
  rewrite chk_u32 by lia. rewrite bind_lift_ok.
  set (k := Z.min (len rest) (len mid)).
  destruct (Hk k) as [Hsl HB']; [lia|].
  rewrite (slice_ok (done ++ rest)) by (rewrite ?len_app; lia). rewrite bind_lift_ok.
  rewrite Hsl, bind_lift_ok.
  rewrite chk_u64 by lia. rewrite bind_lift_ok.
  rewrite (u32_id k) by lia.
  rewrite chk_u32 by lia. rewrite bind_lift_ok. unfold bind at 1, br_set_pos at 1.
  assert (length (firstn (Z.to_nat k) mid) = Z.to_nat k) as Hlf.
  { rewrite firstn_length. unfold len in *. lia. }
  replace (len done + len rest - len rest) with (len done) by lia.
  rewrite splice_step by (rewrite Hlf; unfold len in *; lia).
  rewrite Hlf.
  assert (len (skipn (Z.to_nat k) rest) = len rest - k) as Hls.
  { unfold len in *. rewrite skipn_length. lia. }
  destruct (Z.ltb_spec 0 (len rest - k)) as [Hm|Hm].
  - assert (k = len mid) as Ek by lia.
    assert (skipn (Z.to_nat k) mid = [] /\ firstn (Z.to_nat k) mid = mid) as [Es Ef].
    { rewrite Ek. unfold len. rewrite Nat2Z.id. split; [apply skipn_all|apply firstn_all]. }
    rewrite Es in HB'. rewrite Ef. cbn [app] in HB'.
    pose proof (cap_buffered_refill t _ _ HB') as Hr. cbn [br_pos br_num_valid br_inner br_buf] in Hr.
    replace (br_pos st + k =? br_num_valid st) with true in Hr by lia.
    specialize (Hr eq_refl).
    rewrite Hl, app_length.
    unfold bind at 1. destruct l' as [|x l'].
    + destruct (Nat.leb_spec (length rest) (length mid + length (@nil Z)));
        [cbn in *; unfold len in *; lia|].
      destruct t.
      * destruct Hr as (st' & -> & Hnv & _). rewrite bind_get, Hnv. cbn.
        eexists; split; [reflexivity|lia].
      * destruct Hr as (st' & ->). eexists; split; [reflexivity|lia].
    + destruct Hr as (st' & -> & HB'' & Hnz & Hp0 & Hi). rewrite bind_get.
      destruct (Z.eqb_spec (br_num_valid st') 0); [contradiction|].
      specialize (IH (done ++ mid) (skipn (Z.to_nat k) rest) st' (x :: l') HB'').
      destruct HB'' as (pre2 & mid2 & post2 & l2 & ? & ? & ? & Hv & _).
      assert (br_pos st' < br_num_valid st') as Hlt.
      { pose proof (len_nonneg pre2). pose proof (len_nonneg mid2). lia. }
      rewrite len_app, Hls in IH.
      specialize (IH ltac:(lia) ltac:(right; lia)).
      assert (length (skipn (Z.to_nat k) rest) = length rest - length mid)%nat as Hle.
      { rewrite skipn_length. unfold len in *. lia. }
      rewrite Hle in IH.
      replace (length rest - length mid <=? length (x :: l'))%nat
        with (length rest <=? length mid + length (x :: l'))%nat in IH
        by (unfold len in *; lia).
      assert (length mid <= length rest)%nat by (unfold len in *; lia).
      destruct IH as (st2 & IH & HB2). exists st2. rewrite IH. split.
      * rewrite <- app_assoc. rewrite firstn_app, (firstn_all2 mid) by lia. reflexivity.
      * intros Hle2. rewrite skipn_app, (skipn_all2 mid) by lia. apply HB2. lia.
  - assert (k = len rest) as Ek by lia.
    replace (len rest - k) with 0 by lia.
    rewrite Hl, app_length.
    destruct (Nat.leb_spec (length rest) (length mid + length l')); [|unfold len in *; lia].
    assert (skipn (Z.to_nat k) rest = []) as ->.
    { apply skipn_all2. unfold len in *; lia. }
    assert (forall b s, br_read_into_loop m fuel b 0 s = (Ok b, s)) as Hz.
    { intros. destruct fuel; reflexivity. }
    rewrite Hz. rewrite app_nil_r.
    replace (Z.to_nat k) with (length rest) by (unfold len in *; lia).
    destruct (firstn_skipn_app (length rest) mid l') as [-> ->]; [unfold len in *; lia|].
    eexists; split; [reflexivity|]. intros _.
    replace (length rest) with (Z.to_nat k) by (unfold len in *; lia).
    exact HB'.
Qed.

Theorem cap_stream m t : stream (br_rb m) t (buffered_in cap t).
Proof.
  split; cbn [br_rb read_u8 read_u8_or_eof read_into skip rb_alloc].
  - intros st l (pre & mid & post & l' & _ & _ & _ & _ & Hb & Hd & ->).
    apply Forall_app; split; [exact Hb|]. eapply cap_delivers_bytes; eauto.
  - apply cap_u8.
  - apply cap_u8_end.
  - apply cap_eof.
  - apply cap_eof_end.
  - intros st l1 l2 buf HB Hl H32. unfold br_read_into. rewrite bind_get.
    pose proof (cap_read_into_loop_ok m t (2 + length (br_inner st)) [] buf st _ HB
                  ltac:(cbn; lia) ltac:(left; lia)) as Hi.
    rewrite Hl, app_length in Hi.
    destruct (Nat.leb_spec (length l1) (length l1 + length l2)); [|lia].
    cbn [app] in Hi.
    rewrite firstn_app, firstn_all, Nat.sub_diag, skipn_app, skipn_all, Nat.sub_diag in Hi.
    cbn [firstn skipn app] in Hi. rewrite app_nil_r in Hi.
    destruct Hi as (st' & Hi & HB'). exists st'. split; [exact Hi|apply HB'; lia].
  - intros st l buf HB Hl H32. unfold br_read_into. rewrite bind_get.
    pose proof (cap_read_into_loop_ok m t (2 + length (br_inner st)) [] buf st _ HB
                  ltac:(cbn; lia) ltac:(left; lia)) as Hi.
    destruct (Nat.leb_spec (length buf) (length l)); [lia|].
    destruct Hi as (st' & Hi & _). eauto.
  - intros st l1 l2 HB H32. unfold br_skip. rewrite bind_get.
    pose proof (len_nonneg l1). pose proof (len_nonneg l2).
    pose proof (cap_skip_loop_ok m t (2 + length (br_inner st)) (len l1) st _ HB
                  ltac:(lia) ltac:(left; lia)) as Hi.
    rewrite len_app in Hi.
    destruct (Z.leb_spec (len l1) (len l1 + len l2)); [|lia].
    replace (Z.to_nat (len l1)) with (length l1) in Hi by (unfold len; lia).
    rewrite skipn_app, skipn_all, Nat.sub_diag in Hi.
    destruct Hi as (st' & Hi & HB'). exists st'. split; [exact Hi|apply HB'; lia].
  - intros st l n HB Hn. unfold br_skip. rewrite bind_get. pose proof (len_nonneg l).
    pose proof (cap_skip_loop_ok m t (2 + length (br_inner st)) n st _ HB
                  ltac:(lia) ltac:(left; lia)) as Hi.
    destruct (Z.leb_spec n (len l)); [lia|].
    destruct Hi as (st' & Hi & _). eauto.
  - intros st l n sz HB. eexists; split; [reflexivity|exact HB].
Qed.

Lemma cap_new t sc l : delivers_in cap t sc l -> buffered_in cap t (br_of cap sc) l.
Proof.
  intros Hd. exists [], [], (repeat 0 (Z.to_nat cap)), l. cbn [br_of br_buf br_pos br_num_valid br_inner app].
  repeat split; auto; try constructor. unfold len. rewrite repeat_length. lia.
Qed.
End Capacity.
