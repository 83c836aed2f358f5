(** The flat list reader, and that [stream] readers simulate it. *)
From Verif Require Export ProofSimMeta SpecReader.

(** A reader over a plain list of bytes. *)
Definition fl_rb (t : tail) : ReadBytes (list Z) :=
  mkRB
    (fun l => match l with b :: r => (Ok b, r) | [] => (Err (tail_error t), []) end)
    (fun l => match l with
              | b :: r => (Ok (Some b), r)
              | [] => (match t with TEof => Ok None | TErr k => Err (IoError k) end, [])
              end)
    (fun buf l => if (length buf <=? length l)%nat
                  then (Ok (firstn (length buf) l), skipn (length buf) l)
                  else (Err (tail_error t), l))
    (fun n l => if n <=? len l
                then (Ok tt, skipn (Z.to_nat n) l)
                else (Err (tail_error t), l))
    (fun _ _ => ret tt).

Lemma tail_not_ours t : ours (tail_error t) -> False.
Proof. destruct t; intros []. Qed.
Ltac at_end := cbn; right; split; [reflexivity|intros Ho; try destruct (tail_not_ours _ Ho); try destruct Ho].

(** The relation used for simulations with the flat reader. *)
Section Stream.
  Context {S : Type} (rb : ReadBytes S) (t : tail) (D : S -> list Z -> Prop).
  Context (HS : stream rb t D) (esc : error -> Prop).

  Lemma stream_rb_sim : rb_sim esc D rb (fl_rb t).
  Proof.
    split.
    - intros st l HD. destruct l as [|b l].
      + destruct (st_u8_end _ _ _ HS st HD) as (st' & ->). at_end.
      + destruct (st_u8 _ _ _ HS st b l HD) as (st' & -> & HD'). cbn.
        exists b. repeat split; auto; apply (st_bytes _ _ _ HS) in HD;
          inversion HD; subst; unfold is_byte in *; lia.
    - intros n sz st l HD. destruct (st_alloc _ _ _ HS st l n sz HD) as (st' & -> & HD').
      cbn. eauto.
  Qed.

  Lemma stream_eof_sim : eof_sim esc D rb (fl_rb t).
  Proof.
    intros st l HD. destruct l as [|b l].
    - pose proof (st_eof_end _ _ _ HS st HD) as He. cbn [fl_rb read_u8_or_eof].
      destruct t.
      + destruct He as (st' & -> & HD'). cbn. eauto.
      + destruct He as (st' & ->). at_end.
    - destruct (st_eof _ _ _ HS st b l HD) as (st' & -> & HD'). cbn.
      exists (Some b). repeat split; auto; apply (st_bytes _ _ _ HS) in HD;
        inversion HD; subst; unfold is_byte in *; lia.
  Qed.

  Lemma stream_bulk_sim : bulk_sim esc D rb (fl_rb t).
  Proof.
    split.
    - intros b1 b2 Hb Hl st l HD. cbn [fl_rb read_into]. rewrite <- Hb.
      assert (len b1 < 2 ^ 63) by lia.
      destruct (Nat.leb_spec (length b1) (length l)).
      + rewrite <- (firstn_skipn (length b1) l) in HD.
        destruct (st_into _ _ _ HS st _ _ b1 HD) as (st' & -> & HD'); auto.
        * rewrite firstn_length; lia.
        * cbn. eauto.
      + destruct (st_into_end _ _ _ HS st _ b1 HD) as (st' & ->); auto. at_end.
    - intros n Hn st l HD. cbn [fl_rb skip].
      destruct (Z.leb_spec n (len l)).
      + rewrite <- (firstn_skipn (Z.to_nat n) l) in HD.
        assert (len (firstn (Z.to_nat n) l) = n) as Hl.
        { unfold len in *. rewrite firstn_length. lia. }
        destruct (st_skip _ _ _ HS st _ _ HD) as (st' & E & HD'); [lia|].
        rewrite Hl in E. rewrite E. cbn. eauto.
      + destruct (st_skip_end _ _ _ HS st _ n HD) as (st' & ->); [lia|]. at_end.
  Qed.
End Stream.

(** The flat reader is a stream itself. *)
Lemma fl_stream t : stream (fl_rb t) t (fun st l => st = l /\ bytes_ok l).
Proof.
  split; cbn [fl_rb read_u8 read_u8_or_eof read_into skip rb_alloc].
  - intros st l []; auto.
  - intros st b l [-> Hb]. eexists; split; [reflexivity|]. inversion Hb; auto.
  - intros st [-> _]. eauto.
  - intros st b l [-> Hb]. eexists; split; [reflexivity|]. inversion Hb; auto.
  - intros st [-> Hb]. destruct t; eexists; [split; [reflexivity|auto]|reflexivity].
  - intros st l1 l2 buf [-> Hb] Hl _. rewrite Hl, app_length.
    destruct (Nat.leb_spec (length l1) (length l1 + length l2)); [|lia].
    rewrite firstn_app, firstn_all, Nat.sub_diag, skipn_app, skipn_all, Nat.sub_diag.
    cbn. rewrite app_nil_r. eexists; split; [reflexivity|].
    apply Forall_app in Hb as []; auto.
  - intros st l buf [-> Hb] Hl _. destruct (Nat.leb_spec (length buf) (length l)); [lia|].
    eauto.
  - intros st l1 l2 [-> Hb] Hl. pose proof (len_nonneg l2). rewrite len_app.
    destruct (Z.leb_spec (len l1) (len l1 + len l2)); [|lia].
    replace (Z.to_nat (len l1)) with (length l1) by (unfold len; lia).
    rewrite skipn_app, skipn_all, Nat.sub_diag. cbn. eexists; split; [reflexivity|].
    apply Forall_app in Hb as []; auto.
  - intros st l n [-> Hb] Hl. destruct (Z.leb_spec n (len l)); [lia|]. eauto.
  - intros st l n sz [-> Hb]. eexists; split; [reflexivity|auto].
Qed.

(** * [BufferedReader] *)

Lemma delivers_bytes t sc l : delivers t sc l -> bytes_ok l.
Proof.
  induction 1 as [| |c r l Hc Hd IH]; [constructor|constructor|].
  apply Forall_app. split; [apply Hc|exact IH].
Qed.

(** Refilling an empty buffer. *)
Lemma refill_chunk t st c r l :
  len (br_buf st) = 2048 -> br_inner st = EvData c :: r -> chunk_ok c ->
  delivers t r l ->
  exists post, br_refill st = (Ok tt, mkBR r (c ++ post) 0 (len c))
               /\ len (c ++ post) = 2048.
Proof.
  intros Hlen Hin [Hb Hc] Hd. unfold br_refill, br_set_pos, inner_read, bind, br_set_num_valid.
  cbn [br_inner br_buf br_pos br_num_valid]. rewrite Hin.
  cbn [br_inner br_buf br_pos br_num_valid].
  rewrite u32_id by lia.
  exists (skipn (length c) (br_buf st)).
  assert (length (c ++ skipn (length c) (br_buf st)) = length (br_buf st)) as He.
  { rewrite app_length, skipn_length. unfold len in *. lia. }
  split; [|unfold len in *; lia].
  rewrite firstn_all2; [reflexivity|lia].
Qed.

Lemma refill_end st : br_inner st = [] ->
  br_refill st = (Ok tt, mkBR [] (br_buf st) 0 0).
Proof.
  intros Hin. unfold br_refill, br_set_pos, inner_read, bind, br_set_num_valid.
  cbn [br_inner br_buf br_pos br_num_valid]. rewrite Hin. reflexivity.
Qed.

Lemma refill_err st k r : br_inner st = EvErr k :: r ->
  br_refill st = (Err (IoError k), mkBR r (br_buf st) 0 (br_num_valid st)).
Proof.
  intros Hin. unfold br_refill, br_set_pos, inner_read, bind, br_set_num_valid.
  cbn [br_inner br_buf br_pos br_num_valid]. rewrite Hin. reflexivity.
Qed.

Lemma index_unchecked_app {A} (l1 l2 : list A) x i :
  i = len l1 -> index_unchecked (l1 ++ x :: l2) i = Ok x.
Proof.
  intros ->. unfold index_unchecked, len.
  destruct (Z.leb_spec 0 (Z.of_nat (length l1))); [|lia].
  rewrite Nat2Z.id, nth_error_app_mid. reflexivity.
Qed.

Lemma br_read_u8_buffered m inner pre b mid post p n :
  p = len pre -> p <> n -> len (pre ++ (b :: mid) ++ post) = 2048 ->
  br_read_u8 m (mkBR inner (pre ++ (b :: mid) ++ post) p n)
  = (Ok b, mkBR inner (pre ++ (b :: mid) ++ post) (p + 1) n).
Proof.
  intros Hp Hn Hl. unfold br_read_u8. rewrite bind_get. cbn [br_pos br_num_valid].
  destruct (Z.eqb_spec p n); [contradiction|].
  unfold bind at 1. cbn [ret]. rewrite bind_get. cbn [br_buf br_pos].
  change ((b :: mid) ++ post) with (b :: (mid ++ post)).
  rewrite index_unchecked_app by exact Hp. rewrite bind_lift_ok.
  rewrite chk_u32; [reflexivity|].
  rewrite !len_app, len_cons in Hl. pose proof (len_nonneg pre).
  pose proof (len_nonneg mid). pose proof (len_nonneg post). lia.
Qed.

Lemma buffered_cons inner pre b mid post p n l t :
  len (pre ++ (b :: mid) ++ post) = 2048 -> p = len pre ->
  n = len pre + len (b :: mid) -> bytes_ok (b :: mid) ->
  delivers t inner l ->
  buffered t (mkBR inner (pre ++ (b :: mid) ++ post) (p + 1) n) (mid ++ l).
Proof.
  intros Hl Hp Hn Hb Hd. exists (pre ++ [b]), mid, post, l.
  cbn [br_buf br_pos br_num_valid br_inner].
  assert (len (pre ++ [b]) = len pre + 1) as E by (rewrite len_app; reflexivity).
  rewrite len_cons in Hn.
  inversion Hb; subst.
  repeat split; auto; try lia.
  rewrite <- app_assoc. reflexivity.
Qed.

Lemma br_u8 m t st b l : buffered t st (b :: l) ->
  exists st', br_read_u8 m st = (Ok b, st') /\ buffered t st' l.
Proof.
  intros (pre & mid & post & l' & Hbuf & Hlen & Hpos & Hnv & Hb & Hd & Hl).
  destruct st as [inner buf p n]; cbn [br_buf br_pos br_num_valid br_inner] in *.
  subst buf.
  destruct mid as [|x mid].
  - cbn [app] in Hl. destruct Hd as [?|? ? ?|c r l0 Hc Hd]; try discriminate.
    pose proof Hc as [Hcb Hcl].
    destruct c as [|x c]; [cbn in Hcl; lia|].
    injection Hl as <- ->.
    destruct (refill_chunk t (mkBR (EvData (b :: c) :: r) (pre ++ [] ++ post) p n)
                _ _ _ Hlen eq_refl Hc Hd) as (post' & E & Hl').
    assert (br_read_u8 m (mkBR (EvData (b :: c) :: r) (pre ++ [] ++ post) p n)
            = br_read_u8 m (mkBR r ((b :: c) ++ post') 0 (len (b :: c)))) as ->.
    { unfold br_read_u8 at 1. rewrite bind_get. cbn [br_pos br_num_valid].
      destruct (Z.eqb_spec p n) as [_|Hne]; [|cbn in Hnv; lia].
      unfold bind at 1. unfold bind at 1. rewrite E. rewrite bind_get.
      cbn [br_num_valid].
      destruct (Z.eqb_spec (len (b :: c)) 0); [lia|].
      unfold br_read_u8. rewrite bind_get. cbn [br_pos br_num_valid].
      destruct (Z.eqb_spec 0 (len (b :: c))); [lia|]. reflexivity. }
    pose proof (br_read_u8_buffered m r [] b c post' 0 (len (b :: c)) eq_refl) as E'.
    cbn [app] in *. rewrite E' by (auto; lia).
    eexists; split; [reflexivity|].
    apply (buffered_cons r [] b c post' 0); auto.
  - injection Hl as <- ->.
    rewrite br_read_u8_buffered; auto.
    + eexists; split; [reflexivity|]. apply buffered_cons; auto.
    + rewrite Hnv, len_cons. pose proof (len_nonneg mid). lia.
Qed.

Lemma br_u8_end m t st : buffered t st [] ->
  exists st', br_read_u8 m st = (Err (tail_error t), st').
Proof.
  intros (pre & mid & post & l' & Hbuf & Hlen & Hpos & Hnv & Hb & Hd & Hl).
  symmetry in Hl; apply app_eq_nil in Hl as [-> ->].
  destruct st as [inner buf p n]; cbn [br_buf br_pos br_num_valid br_inner] in *.
  unfold br_read_u8. rewrite bind_get. cbn [br_pos br_num_valid].
  destruct (Z.eqb_spec p n) as [_|Hne]; [|cbn in Hnv; lia].
  unfold bind at 1. unfold bind at 1.
  inversion Hd as [Ht|k r Ht|c r l Hc Hd' E1 E2]; subst.
  - rewrite refill_end by reflexivity.
    rewrite bind_get. cbn. eauto.
  - rewrite (refill_err _ k r) by reflexivity. cbn. eauto.
  - apply app_eq_nil in E2 as [-> _]. destruct Hc as [_ Hc]. cbn in Hc. lia.
Qed.

(** Both operations only differ at the end. *)
Lemma br_eof_nonempty m st :
  (br_pos st =? br_num_valid st) = false ->
  br_read_u8_or_eof m st = (b <- br_read_u8 m ;; ret (Some b)) st.
Proof.
  intros E. unfold br_read_u8_or_eof. rewrite bind_get, E. reflexivity.
Qed.

Lemma buffered_refill t st l :
  buffered t st l -> (br_pos st =? br_num_valid st) = true ->
  match l with
  | [] => match t with
          | TEof => exists st', br_refill st = (Ok tt, st') /\ br_num_valid st' = 0
                                /\ br_inner st' = [] /\ br_pos st' = 0
                                /\ br_buf st' = br_buf st
          | TErr k => exists st', br_refill st = (Err (IoError k), st')
          end
  | _ :: _ => exists st', br_refill st = (Ok tt, st') /\ buffered t st' l
                          /\ br_num_valid st' <> 0
                          /\ br_pos st' = 0
                          /\ length (br_inner st) = S (length (br_inner st'))
  end.
Proof.
  intros (pre & mid & post & l' & Hbuf & Hlen & Hpos & Hnv & Hb & Hd & Hl) E.
  assert (mid = []) as ->.
  { destruct mid; [reflexivity|]. rewrite len_cons in Hnv.
    pose proof (len_nonneg mid). lia. }
  cbn [app] in Hl. subst l'.
  destruct st as [inner buf p n]; cbn [br_buf br_pos br_num_valid br_inner] in *.
  destruct Hd as [Ht|k r Ht|c r l0 Hc Hd'].
  - subst t. rewrite refill_end by reflexivity.
    eexists; split; [reflexivity|]. cbn. auto.
  - subst t. rewrite (refill_err _ k r) by reflexivity. eauto.
  - pose proof Hc as [Hcb Hcl].
    destruct c as [|x c]; [cbn in Hcl; lia|].
    destruct (refill_chunk t (mkBR (EvData (x :: c) :: r) buf p n)
                _ _ _ Hlen eq_refl Hc Hd') as (post' & -> & Hl').
    cbn [app].
    eexists; split; [reflexivity|]. cbn [br_num_valid br_inner length br_pos].
    repeat split; try lia.
    exists [], (x :: c), post', l0. cbn [br_buf br_pos br_num_valid br_inner].
    repeat split; auto.
Qed.

Lemma br_eof m t st b l : buffered t st (b :: l) ->
  exists st', br_read_u8_or_eof m st = (Ok (Some b), st') /\ buffered t st' l.
Proof.
  intros HB. destruct (br_pos st =? br_num_valid st) eqn:E.
  - destruct (buffered_refill t st _ HB E) as (st' & Hr & HB' & Hnz & Hp & _).
    unfold br_read_u8_or_eof. rewrite bind_get, E.
    unfold bind at 1. unfold bind at 1. rewrite Hr. rewrite bind_get. cbn [ret].
    destruct (Z.eqb_spec (br_num_valid st') 0); [contradiction|].
    destruct (br_u8 m t st' b l HB') as (st'' & Hu & HB'').
    unfold bind. rewrite Hu. eexists; split; [reflexivity|auto].
  - rewrite br_eof_nonempty by exact E.
    destruct (br_u8 m t st b l HB) as (st'' & Hu & HB'').
    unfold bind. rewrite Hu. eexists; split; [reflexivity|auto].
Qed.

Lemma br_eof_end m t st : buffered t st [] ->
  match t with
  | TEof => exists st', br_read_u8_or_eof m st = (Ok None, st') /\ buffered t st' []
  | TErr k => exists st', br_read_u8_or_eof m st = (Err (IoError k), st')
  end.
Proof.
  intros HB. assert (br_pos st =? br_num_valid st = true) as E.
  { destruct HB as (pre & mid & post & l' & Hbuf & Hlen & Hpos & Hnv & Hb & Hd & Hl).
    symmetry in Hl; apply app_eq_nil in Hl as [-> ->]. cbn in Hnv. lia. }
  pose proof (buffered_refill t st _ HB E) as Hr. cbv iota in Hr.
  unfold br_read_u8_or_eof. rewrite bind_get, E.
  destruct t; unfold bind at 1; unfold bind at 1.
  - destruct Hr as (st' & -> & Hn & Hi & Hp & Hbf). rewrite bind_get. rewrite Hn. cbn.
    eexists; split; [reflexivity|].
    destruct HB as (pre & mid & post & l' & Hbuf & Hlen & _).
    exists [], [], (br_buf st'), [].
    rewrite Hi, Hp, Hn, Hbf. repeat split; auto; constructor; auto.
  - destruct Hr as (st' & ->). eauto.
Qed.

(** The loops of [read_into] and [skip] consume the buffered part first. *)
Lemma buffered_split t st l :
  buffered t st l ->
  exists mid l', l = mid ++ l' /\ br_num_valid st - br_pos st = len mid
    /\ 0 <= br_pos st /\ br_num_valid st <= 2048
    /\ forall k, 0 <= k <= len mid ->
         slice (br_buf st) (br_pos st) (br_pos st + k) = Ok (firstn (Z.to_nat k) mid)
         /\ buffered t (mkBR (br_inner st) (br_buf st) (br_pos st + k) (br_num_valid st))
                     (skipn (Z.to_nat k) mid ++ l').
Proof.
  intros (pre & mid & post & l' & Hbuf & Hlen & Hpos & Hnv & Hb & Hd & Hl).
  exists mid, l'. pose proof (len_nonneg pre). pose proof (len_nonneg mid).
  pose proof (len_nonneg post).
  assert (len (pre ++ mid ++ post) = 2048) as Hlen' by (rewrite <- Hbuf; exact Hlen).
  rewrite !len_app in Hlen'.
  repeat split; auto; try lia.
  - rewrite slice_ok by lia. rewrite Hbuf, Hpos. unfold len.
    rewrite Nat2Z.id, skipn_app, skipn_all, Nat.sub_diag. cbn [skipn app].
    f_equal. replace (Z.to_nat _) with (Z.to_nat k) by lia.
    rewrite firstn_app. replace (Z.to_nat k - length mid)%nat with 0%nat by (unfold len in *; lia).
    cbn. apply app_nil_r.
  - exists (pre ++ firstn (Z.to_nat k) mid), (skipn (Z.to_nat k) mid), post, l'.
    cbn [br_buf br_pos br_num_valid br_inner].
    assert (len (firstn (Z.to_nat k) mid) = k) as Hf.
    { unfold len in *. rewrite firstn_length. lia. }
    assert (len (skipn (Z.to_nat k) mid) = len mid - k) as Hsk.
    { unfold len in *. rewrite skipn_length. lia. }
    rewrite len_app. repeat split; auto; try lia.
    + rewrite Hbuf. rewrite <- app_assoc. f_equal.
      rewrite app_assoc, firstn_skipn. reflexivity.
    + apply Forall_skipn; auto.
Qed.

Lemma firstn_skipn_app {A} n (a b : list A) : (n <= length a)%nat ->
  firstn n (a ++ b) = firstn n a /\ skipn n (a ++ b) = skipn n a ++ b.
Proof.
  intros. rewrite firstn_app, skipn_app.
  replace (n - length a)%nat with 0%nat by lia. cbn. rewrite app_nil_r. auto.
Qed.

Lemma br_skip_loop_ok m t : forall fuel amount st l,
  buffered t st l -> 0 <= amount < 2 ^ 32 ->
  (length (br_inner st) + 1 < fuel)%nat \/ ((length (br_inner st) < fuel)%nat /\ br_pos st < br_num_valid st) ->
  exists st', br_skip_loop m fuel amount st
              = (if amount <=? len l then Ok tt else Err (tail_error t), st')
    /\ (amount <= len l -> buffered t st' (skipn (Z.to_nat amount) l)).
Proof.
  induction fuel as [|fuel IH]; intros amount st l HB Ha Hf; [lia|].
  cbn [br_skip_loop].
  destruct (Z.ltb_spec 0 amount) as [Hpos|Hz].
  2:{ assert (amount = 0) as -> by lia. pose proof (len_nonneg l).
      destruct (Z.leb_spec 0 (len l)); [|lia].
      eexists; split; [reflexivity|]. intros _; exact HB. }
  destruct (buffered_split t st l HB) as (mid & l' & Hl & Hlm & Hp & Hn & Hk).
  rewrite bind_get, Hlm. pose proof (len_nonneg mid). pose proof (len_nonneg l').
  rewrite chk_u32 by lia. rewrite bind_lift_ok.
  set (k := Z.min amount (len mid)).
  destruct (Hk k) as [_ HB']; [lia|].
  rewrite chk_u32 by lia. rewrite bind_lift_ok. unfold bind at 1, br_set_pos at 1.
  rewrite chk_u32 by lia. rewrite bind_lift_ok.
  destruct (Z.ltb_spec 0 (amount - k)) as [Hm|Hm].
  - assert (k = len mid) as Ek by lia.
    assert (skipn (Z.to_nat k) mid = []) as Es.
    { rewrite Ek. unfold len. rewrite Nat2Z.id. apply skipn_all. }
    rewrite Es in HB'. cbn [app] in HB'.
    pose proof (buffered_refill t _ _ HB') as Hr. cbn [br_pos br_num_valid br_inner br_buf] in Hr.
    replace (br_pos st + k =? br_num_valid st) with true in Hr by lia.
    specialize (Hr eq_refl).
    rewrite Hl, len_app.
    unfold bind at 1. destruct l' as [|x l'].
    + destruct (Z.leb_spec amount (len mid + len (@nil Z))); [cbn in *; lia|].
      destruct t.
      * destruct Hr as (st' & -> & Hnv & _). rewrite bind_get, Hnv. cbn.
        eexists; split; [reflexivity|lia].
      * destruct Hr as (st' & ->). eexists; split; [reflexivity|lia].
    + destruct Hr as (st' & -> & HB'' & Hnz & Hp0 & Hi). rewrite bind_get.
      destruct (Z.eqb_spec (br_num_valid st') 0); [contradiction|].
      specialize (IH (amount - k) st' (x :: l') HB'').
      destruct HB'' as (pre2 & mid2 & post2 & l2 & ? & ? & ? & Hv & _).
      assert (br_pos st' < br_num_valid st') as Hlt.
      { pose proof (len_nonneg pre2). pose proof (len_nonneg mid2). lia. }
      specialize (IH ltac:(lia) ltac:(right; lia)).
      replace (amount - k <=? len (x :: l')) with (amount <=? len mid + len (x :: l')) in IH by lia.
      destruct IH as (st2 & -> & HB2). exists st2. split; [reflexivity|].
      intros Hle.
      replace (skipn (Z.to_nat amount) (mid ++ x :: l'))
        with (skipn (Z.to_nat (amount - k)) (x :: l')); [apply HB2; lia|].
      rewrite skipn_app. rewrite (skipn_all2 mid) by (unfold len in *; lia).
      cbn [app]. f_equal. unfold len in *; lia.
  - assert (k = amount) as Ek by lia.
    replace (amount - k) with 0 by lia.
    rewrite Hl, len_app. destruct (Z.leb_spec amount (len mid + len l')); [|lia].
    assert (forall s, br_skip_loop m fuel 0 s = (Ok tt, s)) as ->.
    { intros; destruct fuel; reflexivity. }
    eexists; split; [reflexivity|]. intros _.
    destruct (firstn_skipn_app (Z.to_nat amount) mid l') as [_ ->]; [unfold len in *; lia|].
    rewrite <- Ek. exact HB'.
Qed.

Lemma splice_step {A} (done : list A) (rest src : list A) :
  (length src <= length rest)%nat ->
  splice (done ++ rest) (len done) src = (done ++ src) ++ skipn (length src) rest.
Proof.
  intros H. unfold splice, len. rewrite Nat2Z.id.
  rewrite firstn_app, firstn_all, Nat.sub_diag. cbn [firstn]. rewrite app_nil_r.
  rewrite <- app_assoc. do 2 f_equal.
  rewrite skipn_app, skipn_all2 by lia. cbn [app]. f_equal. lia.
Qed.

Lemma br_read_into_loop_ok m t : forall fuel done rest st l,
  buffered t st l -> len done + len rest < 2 ^ 63 ->
  (length (br_inner st) + 1 < fuel)%nat \/ ((length (br_inner st) < fuel)%nat /\ br_pos st < br_num_valid st) ->
  exists st', br_read_into_loop m fuel (done ++ rest) (len rest) st
              = (if (length rest <=? length l)%nat
                 then Ok (done ++ firstn (length rest) l)
                 else Err (tail_error t), st')
    /\ ((length rest <= length l)%nat -> buffered t st' (skipn (length rest) l)).
Proof.
  induction fuel as [|fuel IH]; intros done rest st l HB Ha Hf; [lia|].
  cbn [br_read_into_loop]. pose proof (len_nonneg done).
  destruct (Z.ltb_spec 0 (len rest)) as [Hpos|Hz].
  2:{ destruct rest; [|rewrite len_cons in Hz; pose proof (len_nonneg rest); lia].
      cbn. eexists; split; [reflexivity|]. intros _; exact HB. }
  destruct (buffered_split t st l HB) as (mid & l' & Hl & Hlm & Hp & Hn & Hk).
  rewrite bind_get, Hlm. pose proof (len_nonneg mid). pose proof (len_nonneg l').
  rewrite len_app, chk_u64 by lia. rewrite bind_lift_ok.
  rewrite chk_u32 by lia. rewrite bind_lift_ok.
  set (k := Z.min (len rest) (len mid)).
  destruct (Hk k) as [Hsl HB']; [lia|].
  rewrite (slice_ok (done ++ rest)) by (rewrite ?len_app; lia). rewrite bind_lift_ok.
  rewrite Hsl, bind_lift_ok.
  rewrite chk_u64 by lia. rewrite bind_lift_ok.
  rewrite (u32_id k) by lia.
  rewrite chk_u32 by lia. rewrite bind_lift_ok. unfold bind at 1, br_set_pos at 1.
  assert (length (firstn (Z.to_nat k) mid) = Z.to_nat k) as Hlf.
  { rewrite firstn_length. unfold len in *. lia. }
  replace (len done + len rest - len rest) with (len done) by lia.
  rewrite splice_step by (rewrite Hlf; unfold len in *; lia).
  rewrite Hlf.
  assert (len (skipn (Z.to_nat k) rest) = len rest - k) as Hls.
  { unfold len in *. rewrite skipn_length. lia. }
  destruct (Z.ltb_spec 0 (len rest - k)) as [Hm|Hm].
  - assert (k = len mid) as Ek by lia.
    assert (skipn (Z.to_nat k) mid = [] /\ firstn (Z.to_nat k) mid = mid) as [Es Ef].
    { rewrite Ek. unfold len. rewrite Nat2Z.id. split; [apply skipn_all|apply firstn_all]. }
    rewrite Es in HB'. rewrite Ef. cbn [app] in HB'.
    pose proof (buffered_refill t _ _ HB') as Hr. cbn [br_pos br_num_valid br_inner br_buf] in Hr.
    replace (br_pos st + k =? br_num_valid st) with true in Hr by lia.
    specialize (Hr eq_refl).
    rewrite Hl, app_length.
    unfold bind at 1. destruct l' as [|x l'].
    + destruct (Nat.leb_spec (length rest) (length mid + length (@nil Z)));
        [cbn in *; unfold len in *; lia|].
      destruct t.
      * destruct Hr as (st' & -> & Hnv & _). rewrite bind_get, Hnv. cbn.
        eexists; split; [reflexivity|lia].
      * destruct Hr as (st' & ->). eexists; split; [reflexivity|lia].
    + destruct Hr as (st' & -> & HB'' & Hnz & Hp0 & Hi). rewrite bind_get.
      destruct (Z.eqb_spec (br_num_valid st') 0); [contradiction|].
      specialize (IH (done ++ mid) (skipn (Z.to_nat k) rest) st' (x :: l') HB'').
      destruct HB'' as (pre2 & mid2 & post2 & l2 & ? & ? & ? & Hv & _).
      assert (br_pos st' < br_num_valid st') as Hlt.
      { pose proof (len_nonneg pre2). pose proof (len_nonneg mid2). lia. }
      rewrite len_app, Hls in IH.
      specialize (IH ltac:(lia) ltac:(right; lia)).
      assert (length (skipn (Z.to_nat k) rest) = length rest - length mid)%nat as Hle.
      { rewrite skipn_length. unfold len in *. lia. }
      rewrite Hle in IH.
      replace (length rest - length mid <=? length (x :: l'))%nat
        with (length rest <=? length mid + length (x :: l'))%nat in IH
        by (unfold len in *; lia).
      assert (length mid <= length rest)%nat by (unfold len in *; lia).
      destruct IH as (st2 & IH & HB2). exists st2. rewrite IH. split.
      * rewrite <- app_assoc. rewrite firstn_app, (firstn_all2 mid) by lia. reflexivity.
      * intros Hle2. rewrite skipn_app, (skipn_all2 mid) by lia. apply HB2. lia.
  - assert (k = len rest) as Ek by lia.
    replace (len rest - k) with 0 by lia.
    rewrite Hl, app_length.
    destruct (Nat.leb_spec (length rest) (length mid + length l')); [|unfold len in *; lia].
    assert (skipn (Z.to_nat k) rest = []) as ->.
    { apply skipn_all2. unfold len in *; lia. }
    assert (forall b s, br_read_into_loop m fuel b 0 s = (Ok b, s)) as Hz.
    { intros. destruct fuel; reflexivity. }
    rewrite Hz. rewrite app_nil_r.
    replace (Z.to_nat k) with (length rest) by (unfold len in *; lia).
    destruct (firstn_skipn_app (length rest) mid l') as [-> ->]; [unfold len in *; lia|].
    eexists; split; [reflexivity|]. intros _.
    replace (length rest) with (Z.to_nat k) by (unfold len in *; lia).
    exact HB'.
Qed.

Theorem br_stream m t : stream (br_rb m) t (buffered t).
Proof.
  split; cbn [br_rb read_u8 read_u8_or_eof read_into skip rb_alloc].
  - intros st l (pre & mid & post & l' & _ & _ & _ & _ & Hb & Hd & ->).
    apply Forall_app; split; [exact Hb|]. eapply delivers_bytes; eauto.
  - apply br_u8.
  - apply br_u8_end.
  - apply br_eof.
  - apply br_eof_end.
  - intros st l1 l2 buf HB Hl H32. unfold br_read_into. rewrite bind_get.
    pose proof (br_read_into_loop_ok m t (2 + length (br_inner st)) [] buf st _ HB
                  ltac:(cbn; lia) ltac:(left; lia)) as Hi.
    rewrite Hl, app_length in Hi.
    destruct (Nat.leb_spec (length l1) (length l1 + length l2)); [|lia].
    cbn [app] in Hi.
    rewrite firstn_app, firstn_all, Nat.sub_diag, skipn_app, skipn_all, Nat.sub_diag in Hi.
    cbn [firstn skipn app] in Hi. rewrite app_nil_r in Hi.
    destruct Hi as (st' & Hi & HB'). exists st'. split; [exact Hi|apply HB'; lia].
  - intros st l buf HB Hl H32. unfold br_read_into. rewrite bind_get.
    pose proof (br_read_into_loop_ok m t (2 + length (br_inner st)) [] buf st _ HB
                  ltac:(cbn; lia) ltac:(left; lia)) as Hi.
    destruct (Nat.leb_spec (length buf) (length l)); [lia|].
    destruct Hi as (st' & Hi & _). eauto.
  - intros st l1 l2 HB H32. unfold br_skip. rewrite bind_get.
    pose proof (len_nonneg l1). pose proof (len_nonneg l2).
    pose proof (br_skip_loop_ok m t (2 + length (br_inner st)) (len l1) st _ HB
                  ltac:(lia) ltac:(left; lia)) as Hi.
    rewrite len_app in Hi.
    destruct (Z.leb_spec (len l1) (len l1 + len l2)); [|lia].
    replace (Z.to_nat (len l1)) with (length l1) in Hi by (unfold len; lia).
    rewrite skipn_app, skipn_all, Nat.sub_diag in Hi.
    destruct Hi as (st' & Hi & HB'). exists st'. split; [exact Hi|apply HB'; lia].
  - intros st l n HB Hn. unfold br_skip. rewrite bind_get. pose proof (len_nonneg l).
    pose proof (br_skip_loop_ok m t (2 + length (br_inner st)) n st _ HB
                  ltac:(lia) ltac:(left; lia)) as Hi.
    destruct (Z.leb_spec n (len l)); [lia|].
    destruct Hi as (st' & Hi & _). eauto.
  - intros st l n sz HB. eexists; split; [reflexivity|exact HB].
Qed.

Lemma br_new_buffered t sc l : delivers t sc l -> buffered t (br_new sc) l.
Proof.
  intros Hd. exists [], [], (repeat 0 (Z.to_nat CAPACITY)), l. cbn [br_new br_buf br_pos br_num_valid br_inner app].
  repeat split; auto; constructor.
Qed.

(** * [Cursor] *)

Theorem cu_stream m : stream (cu_rb m) TEof cursor_at.
Proof.
  split; cbn [cu_rb read_u8 read_u8_or_eof read_into skip rb_alloc].
  - intros st l (pre & _ & _ & H & _); exact H.
  - intros [d p] b l (pre & Hd & Hp & Hb & Hl); cbn [cu_data cu_pos] in *. subst d p.
    unfold cu_read_u8. rewrite bind_get; cbn [cu_data cu_pos].
    rewrite len_app, len_cons in *. pose proof (len_nonneg pre). pose proof (len_nonneg l).
    destruct (Z.ltb_spec (len pre) (len pre + (len l + 1))); [|lia].
    rewrite chk_u64 by lia. rewrite bind_lift_ok. unfold bind, cu_set_position.
    rewrite index_app by reflexivity. cbn. eexists; split; [reflexivity|].
    exists (pre ++ [b]). cbn [cu_data cu_pos]. rewrite <- app_assoc, !len_app.
    cbn [app]. rewrite len_cons. change (len [b]) with 1.
    inversion Hb; subst. repeat split; auto; rewrite ?len_cons; lia.
  - intros [d p] (pre & Hd & Hp & Hb & Hl); cbn [cu_data cu_pos] in *. rewrite app_nil_r in Hd. subst d p.
    unfold cu_read_u8. rewrite bind_get; cbn [cu_data cu_pos].
    rewrite Z.ltb_irrefl. eexists; reflexivity.
  - intros [d p] b l (pre & Hd & Hp & Hb & Hl); cbn [cu_data cu_pos] in *. subst d p.
    unfold cu_read_u8_or_eof. rewrite bind_get; cbn [cu_data cu_pos].
    rewrite len_app, len_cons in *. pose proof (len_nonneg pre). pose proof (len_nonneg l).
    destruct (Z.ltb_spec (len pre) (len pre + (len l + 1))); [|lia].
    rewrite chk_u64 by lia. rewrite bind_lift_ok. unfold bind, cu_set_position.
    rewrite index_app by reflexivity. cbn. eexists; split; [reflexivity|].
    exists (pre ++ [b]). cbn [cu_data cu_pos]. rewrite <- app_assoc, !len_app.
    cbn [app]. rewrite len_cons. change (len [b]) with 1.
    inversion Hb; subst. repeat split; auto; rewrite ?len_cons; lia.
  - intros [d p] (pre & Hd & Hp & Hb & Hl); cbn [cu_data cu_pos] in *. rewrite app_nil_r in Hd. subst d p.
    unfold cu_read_u8_or_eof. rewrite bind_get; cbn [cu_data cu_pos].
    rewrite Z.ltb_irrefl. cbn. eexists; split; [reflexivity|].
    exists pre. cbn. rewrite app_nil_r. auto.
  - intros [d p] l1 l2 buf (pre & Hd & Hp & Hb & Hl) Hlen H32; cbn [cu_data cu_pos] in *. subst d p.
    unfold cu_read_into. rewrite bind_get; cbn [cu_data cu_pos].
    assert (len buf = len l1) as -> by (unfold len; lia).
    rewrite !len_app in *. pose proof (len_nonneg pre). pose proof (len_nonneg l1).
    pose proof (len_nonneg l2).
    rewrite chk_u64 by lia. rewrite bind_lift_ok.
    destruct (Z.leb_spec (len pre + len l1) (len pre + (len l1 + len l2))); [|lia].
    rewrite slice_app by reflexivity. cbn. eexists; split; [reflexivity|].
    exists (pre ++ l1). cbn [cu_data cu_pos]. rewrite <- app_assoc, !len_app.
    apply Forall_app in Hb as []. repeat split; auto; lia.
  - intros [d p] l buf (pre & Hd & Hp & Hb & Hl) Hlen H32; cbn [cu_data cu_pos] in *. subst d p.
    unfold cu_read_into. rewrite bind_get; cbn [cu_data cu_pos].
    rewrite !len_app in *. pose proof (len_nonneg pre). pose proof (len_nonneg l).
    pose proof (len_nonneg buf).
    rewrite chk_u64 by lia. rewrite bind_lift_ok.
    destruct (Z.leb_spec (len pre + len buf) (len pre + len l)); [unfold len in *; lia|].
    eexists; reflexivity.
  - intros [d p] l1 l2 (pre & Hd & Hp & Hb & Hl) H32; cbn [cu_data cu_pos] in *. subst d p.
    unfold cu_skip. rewrite bind_get; cbn [cu_data cu_pos].
    rewrite !len_app in *. pose proof (len_nonneg pre). pose proof (len_nonneg l1).
    pose proof (len_nonneg l2).
    rewrite chk_u64 by lia. rewrite bind_lift_ok.
    destruct (Z.leb_spec (len pre + len l1) (len pre + (len l1 + len l2))); [|lia].
    cbn. eexists; split; [reflexivity|].
    exists (pre ++ l1). cbn [cu_data cu_pos]. rewrite <- app_assoc, !len_app.
    apply Forall_app in Hb as []. repeat split; auto; lia.
  - intros [d p] l n (pre & Hd & Hp & Hb & Hl) Hlen; cbn [cu_data cu_pos] in *. subst d p.
    unfold cu_skip. rewrite bind_get; cbn [cu_data cu_pos].
    rewrite !len_app in *. pose proof (len_nonneg pre). pose proof (len_nonneg l).
    rewrite chk_u64 by lia. rewrite bind_lift_ok.
    destruct (Z.leb_spec (len pre + n) (len pre + len l)); [unfold len in *; lia|].
    eexists; reflexivity.
  - intros st l n sz HB. eexists; split; [reflexivity|exact HB].
Qed.
