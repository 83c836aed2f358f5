(** The buffered reader under arbitrary histories, including failures. *)
From Verif Require Export ProofInput.

Definition good {S A} (I : S -> Prop) (r : outcome A * S) : Prop :=
  value_or_error (fst r) /\ I (snd r).
Definition safe {S A} (I : S -> Prop) (c : M S A) : Prop :=
  forall st, I st -> good I (c st).

Lemma voe_ok {A} (a : A) : value_or_error (Ok a).
Proof. left; eauto. Qed.
Lemma voe_err {A} e : value_or_error (@Err A e).
Proof. right; eauto. Qed.
Ltac triv := unfold ret, fail, lift, good; cbn [fst snd]; split; [first [apply voe_ok | apply voe_err] | assumption].

Lemma safe_ret {S A} (I : S -> Prop) (a : A) : safe I (ret a).
Proof. intros st HI. triv. Qed.
Lemma safe_fail {S A} (I : S -> Prop) e : safe I (@fail S A e).
Proof. intros st HI. triv. Qed.
Lemma safe_bind {S A B} (I : S -> Prop) (c : M S A) (f : A -> M S B) :
  safe I c -> (forall a, safe I (f a)) -> safe I (bind c f).
Proof.
  intros Hc Hf st HI. destruct (Hc st HI) as [Hv HI']. unfold bind, good.
  destruct (c st) as [o st']; cbn [fst snd] in *.
  destruct Hv as [[a ->]|[e ->]]; [apply Hf, HI'|triv].
Qed.

Lemma history_all_safe {S O A} (I : S -> Prop) (f : O -> M S A) (legal : O -> Prop) :
  (forall o, legal o -> safe I (f o)) ->
  forall ops st, Forall legal ops -> I st ->
  Forall value_or_error (fst (history_all f ops st)) /\ I (snd (history_all f ops st)).
Proof.
  intros H. induction ops as [|o ops IH]; intros st Hl HI; cbn [history_all].
  - split; [constructor|assumption].
  - inversion Hl as [|? ? Ho Hl']; subst. destruct (H o Ho st HI) as [Hv HI']. 
    destruct (f o st) as [r st']; cbn [fst snd] in *.
    destruct (IH st' Hl' HI') as [Hv' HI''].
    destruct (history_all f ops st') as [rs st'']; cbn [fst snd] in *. auto.
Qed.

Section Buffered.
  Context (m : build).

  Definition br_inv (st : breader) : Prop :=
    len (br_buf st) = 2048 /\ 0 <= br_pos st <= br_num_valid st
    /\ br_num_valid st <= 2048 /\ Forall contract_ok (br_inner st).

  Lemma br_new_inv sc : Forall contract_ok sc -> br_inv (br_new sc).
  Proof. intros H. repeat split; cbn; auto; try lia. Qed.

  Lemma refill_inv st : br_inv st ->
    exists o st', br_refill st = (o, st') /\ br_inv st' /\ br_pos st' = 0
      /\ ((exists e, o = Err e) \/
          o = Ok tt /\ (br_num_valid st' = 0 \/ (length (br_inner st') < length (br_inner st))%nat)).
  Proof.
    intros (Hb & Hp & Hn & Hc). destruct st as [inner buf p n]; cbn [br_buf br_pos br_num_valid br_inner] in *.
    unfold br_refill, br_set_pos, inner_read, bind, br_set_num_valid.
    cbn [br_inner br_buf br_pos br_num_valid].
    destruct inner as [|[c|k] r]; cbn [br_inner br_buf br_pos br_num_valid].
    - eexists _, _. split; [reflexivity|]. unfold br_inv; cbn [br_inner br_buf br_pos br_num_valid].
      change (u32 0) with 0. repeat split; auto; try lia.
    - apply Forall_cons_iff in Hc as [[Hcb Hcl] Hc']. pose proof (len_nonneg c).
      eexists _, _. split; [reflexivity|]. unfold br_inv; cbn [br_inner br_buf br_pos br_num_valid].
      rewrite u32_id by lia. repeat split; auto; try lia.
      unfold len in *. rewrite firstn_length, app_length, skipn_length. lia.
    - inversion Hc; subst.
      eexists _, _. split; [reflexivity|]. unfold br_inv; cbn [br_inner br_buf br_pos br_num_valid].
      repeat split; auto; try lia. left. eauto.
  Qed.

  Lemma index_unchecked_ok {A} (l : list A) i : 0 <= i < len l -> exists x, index_unchecked l i = Ok x.
  Proof.
    intros H. unfold index_unchecked, len in *. destruct (Z.leb_spec 0 i); [|lia].
    destruct (nth_error l (Z.to_nat i)) eqn:E; [eauto|].
    apply nth_error_None in E. lia.
  Qed.

  (** With a byte available. *)
  Lemma br_u8_avail st : br_inv st -> br_pos st <> br_num_valid st ->
    exists b, br_read_u8 m st
              = (Ok b, mkBR (br_inner st) (br_buf st) (br_pos st + 1) (br_num_valid st))
      /\ br_inv (mkBR (br_inner st) (br_buf st) (br_pos st + 1) (br_num_valid st)).
  Proof.
    intros (Hb & Hp & Hn & Hc) Hne. unfold br_read_u8. rewrite bind_get.
    destruct (Z.eqb_spec (br_pos st) (br_num_valid st)); [contradiction|].
    unfold bind at 1. cbn [ret]. rewrite bind_get.
    destruct (index_unchecked_ok (br_buf st) (br_pos st) ltac:(lia)) as [b ->].
    rewrite bind_lift_ok, chk_u32 by lia. rewrite bind_lift_ok. exists b. split; [reflexivity|].
    unfold br_inv; cbn [br_inner br_buf br_pos br_num_valid]. repeat split; auto; lia.
  Qed.

  Lemma br_u8_safe : safe br_inv (br_read_u8 m).
  Proof.
    intros st HI. destruct (Z.eq_dec (br_pos st) (br_num_valid st)) as [E|E].
    - unfold br_read_u8. rewrite bind_get. destruct (Z.eqb_spec (br_pos st) (br_num_valid st)); [|contradiction].
      destruct (refill_inv st HI) as (o & st' & Hr & HI' & Hp & [[err ->]|[-> Ho]]).
      + unfold bind at 1. unfold bind at 1. rewrite Hr. triv.
      + unfold bind at 1. unfold bind at 1. rewrite Hr. rewrite bind_get.
        destruct (Z.eqb_spec (br_num_valid st') 0) as [E0|E0]; [triv|].
        cbn [ret]. destruct HI' as (Hb & Hp' & Hn & Hc).
        rewrite bind_get.
        destruct (index_unchecked_ok (br_buf st') (br_pos st') ltac:(lia)) as [b ->].
        rewrite bind_lift_ok, chk_u32 by lia. rewrite bind_lift_ok.
        split; [apply voe_ok|]. cbn [snd ret bind br_set_pos]. unfold br_inv; cbn [br_inner br_buf br_pos br_num_valid]. repeat split; auto; lia.
    - destruct (br_u8_avail st HI E) as (b & -> & HI'). triv.
  Qed.

  Lemma br_eof_safe : safe br_inv (br_read_u8_or_eof m).
  Proof.
    assert (safe br_inv (b <- br_read_u8 m ;; ret (Some b))) as H1
      by (apply safe_bind; [apply br_u8_safe|intros; apply safe_ret]).
    intros st HI. unfold br_read_u8_or_eof. rewrite bind_get.
    destruct (br_pos st =? br_num_valid st).
    - destruct (refill_inv st HI) as (o & st' & Hr & HI' & Hp & [[err ->]|[-> Ho]]).
      + unfold bind at 1. unfold bind at 1. rewrite Hr. triv.
      + unfold bind at 1. unfold bind at 1. rewrite Hr. rewrite bind_get. cbn [ret].
        destruct (br_num_valid st' =? 0); [triv|]. apply H1, HI'.
    - apply H1, HI.
  Qed.

  Lemma br_skip_loop_safe : forall fuel amount st, br_inv st -> 0 <= amount < 2 ^ 32 ->
    (length (br_inner st) + 1 < fuel)%nat \/ ((length (br_inner st) < fuel)%nat /\ br_pos st < br_num_valid st) ->
    good br_inv (br_skip_loop m fuel amount st).
  Proof.
    induction fuel as [|fuel IH]; intros amount st HI Ha Hf; [lia|].
    cbn [br_skip_loop]. destruct (Z.ltb_spec 0 amount); [|triv].
    pose proof HI as (Hb & Hp & Hn & Hc). rewrite bind_get.
    rewrite chk_u32 by lia. rewrite bind_lift_ok. cbv zeta.
    rewrite chk_u32 by lia. rewrite bind_lift_ok.
    set (now := Z.min amount (br_num_valid st - br_pos st)) in *.
    unfold bind at 1. cbn [br_set_pos].
    set (st1 := mkBR (br_inner st) (br_buf st) (br_pos st + now) (br_num_valid st)).
    assert (br_inv st1) as HI1
      by (unfold br_inv; cbn [st1 br_inner br_buf br_pos br_num_valid]; repeat split; auto; lia).
    rewrite chk_u32 by lia. rewrite bind_lift_ok.
    destruct (Z.ltb_spec 0 (amount - now)) as [Hleft|Hleft].
    - destruct (refill_inv st1 HI1) as (o & st' & Hr & HI' & Hp' & [[err ->]|[-> Ho]]).
      + unfold bind at 1. rewrite Hr. triv.
      + unfold bind at 1. rewrite Hr. rewrite bind_get.
        destruct (Z.eqb_spec (br_num_valid st') 0); [triv|].
        apply IH; auto; [lia|]. right. destruct HI' as (? & ? & ? & ?).
        destruct Ho as [|Ho]; [lia|]. cbn [st1 br_inner] in Ho. lia.
    - destruct fuel; cbn [br_skip_loop]; (destruct (Z.ltb_spec 0 (amount - now)); [lia|]);
        triv.
  Qed.

  Lemma br_read_into_loop_safe : forall fuel buffer left st, br_inv st ->
    0 <= left <= len buffer -> len buffer < 2 ^ 63 ->
    (length (br_inner st) + 1 < fuel)%nat \/ ((length (br_inner st) < fuel)%nat /\ br_pos st < br_num_valid st) ->
    good br_inv (br_read_into_loop m fuel buffer left st).
  Proof.
    induction fuel as [|fuel IH]; intros buffer left st HI Ha Hlen Hf; [lia|].
    cbn [br_read_into_loop]. destruct (Z.ltb_spec 0 left); [|triv].
    pose proof HI as (Hb & Hp & Hn & Hc). rewrite bind_get.
    rewrite chk_u64 by lia. rewrite bind_lift_ok.
    rewrite chk_u32 by lia. rewrite bind_lift_ok. cbv zeta.
    set (count := Z.min left (br_num_valid st - br_pos st)) in *.
    rewrite slice_ok by lia. rewrite bind_lift_ok.
    rewrite slice_ok by lia. rewrite bind_lift_ok.
    rewrite chk_u64 by lia. rewrite bind_lift_ok.
    rewrite u32_id by lia. rewrite chk_u32 by lia. rewrite bind_lift_ok.
    match goal with |- context [splice buffer ?a ?s] => set (buffer' := splice buffer a s) end.
    assert (len buffer' = len buffer) as Hbl.
    { unfold buffer', splice, len in *. rewrite !app_length, !firstn_length, !skipn_length.
      lia. }
    unfold bind at 1. cbn [br_set_pos].
    set (st1 := mkBR (br_inner st) (br_buf st) (br_pos st + count) (br_num_valid st)).
    assert (br_inv st1) as HI1
      by (unfold br_inv; cbn [st1 br_inner br_buf br_pos br_num_valid]; repeat split; auto; lia).
    destruct (Z.ltb_spec 0 (left - count)) as [Hleft|Hleft].
    - destruct (refill_inv st1 HI1) as (o & st' & Hr & HI' & Hp' & [[err ->]|[-> Ho]]).
      + unfold bind at 1. rewrite Hr. triv.
      + unfold bind at 1. rewrite Hr. rewrite bind_get.
        destruct (Z.eqb_spec (br_num_valid st') 0); [triv|].
        apply IH; auto; [lia|lia|]. right. destruct HI' as (? & ? & ? & ?).
        destruct Ho as [|Ho]; [lia|]. cbn [st1 br_inner] in Ho. lia.
    - destruct fuel; cbn [br_read_into_loop]; (destruct (Z.ltb_spec 0 (left - count)); [lia|]);
        triv.
  Qed.

  Lemma byte_op_safe o : legal_byte_op o -> safe br_inv (run_byte_op (br_rb m) o).
  Proof.
    assert (safe br_inv (read_u8 (br_rb m))) as Hu by apply br_u8_safe.
    assert (safe br_inv (read_u8_or_eof (br_rb m))) as He by apply br_eof_safe.
    assert (forall buf, len buf < 2 ^ 63 -> safe br_inv (read_into (br_rb m) buf)) as Hi.
    { intros buf Hbuf st HI. cbn [br_rb read_into]. unfold br_read_into. rewrite bind_get.
      pose proof (len_nonneg buf). apply br_read_into_loop_safe; auto; [lia|]. left. lia. }
    assert (forall n, 0 <= n < 2 ^ 32 -> safe br_inv (skip (br_rb m) n)) as Hs.
    { intros n Hn st HI. cbn [br_rb skip]. unfold br_skip. rewrite bind_get.
      apply br_skip_loop_safe; auto. left. lia. }
    intros Hl. destruct o as [| |buf|n| | | | |]; cbn [run_byte_op legal_byte_op] in *;
      unfold read_be_u16, read_be_u16_or_eof, read_be_u24, read_be_u32, read_le_u32;
      repeat first [ exact Hu | exact He | apply Hi; (lia || tauto) | apply Hs; lia | apply safe_ret
                   | apply safe_bind; [|intros ?]
                   | match goal with |- safe _ (match ?o with Some _ => _ | None => _ end) =>
                       destruct o end ].
  Qed.

  Theorem br_histories sc ops : Forall contract_ok sc -> Forall legal_byte_op ops ->
    Forall value_or_error (fst (history_all (run_byte_op (br_rb m)) ops (br_new sc))).
  Proof.
    intros Hc Hl. apply (history_all_safe br_inv _ legal_byte_op byte_op_safe); auto.
    apply br_new_inv, Hc.
  Qed.

  (** Reading the bytes of a chunk one by one. *)
  Lemma read_mid inner : forall mid pre post n,
    len (pre ++ mid ++ post) = 2048 -> n = len pre + len mid ->
    history (run_byte_op (br_rb m)) (repeat OpU8 (length mid)) (mkBR inner (pre ++ mid ++ post) (len pre) n)
    = (map (fun b => Ok (RNum b)) mid, mkBR inner (pre ++ mid ++ post) (len pre + len mid) n).
  Proof.
    induction mid as [|b mid IH]; intros pre post n Hl Hn; cbn [length repeat history map].
    - cbn. rewrite Z.add_0_r. reflexivity.
    - rewrite len_cons in *. pose proof (len_nonneg mid).
      assert (run_byte_op (br_rb m) OpU8 (mkBR inner (pre ++ (b :: mid) ++ post) (len pre) n)
              = (Ok (RNum b), mkBR inner (pre ++ (b :: mid) ++ post) (len pre + 1) n)) as E.
      { cbn [run_byte_op br_rb read_u8]. unfold bind.
        rewrite br_read_u8_buffered by (auto; lia). reflexivity. }
      rewrite E.
      replace (pre ++ (b :: mid) ++ post) with ((pre ++ [b]) ++ mid ++ post) in *
        by (rewrite <- app_assoc; reflexivity).
      replace (len pre + 1) with (len (pre ++ [b])) by (rewrite len_app; reflexivity).
      rewrite IH; [|auto|rewrite len_app; cbn; lia].
      rewrite len_app. do 2 f_equal. cbn. lia.
  Qed.

  Lemma read_chunk inner c buf p : chunk_ok c -> len buf = 2048 ->
    exists post,
    history (run_byte_op (br_rb m)) (repeat OpU8 (length c)) (mkBR (EvData c :: inner) buf p p)
    = (map (fun b => Ok (RNum b)) c, mkBR inner (c ++ post) (len c) (len c))
    /\ len (c ++ post) = 2048.
  Proof.
    intros Hc Hl.
    destruct c as [|b c]; [destruct Hc as [_ Hc]; cbn in Hc; lia|].
    pose proof Hc as [Hcb Hcl]. pose proof (len_nonneg c). rewrite len_cons in *.
    exists (skipn (length (b :: c)) buf).
    assert (firstn (length buf) ((b :: c) ++ skipn (length (b :: c)) buf)
            = (b :: c) ++ skipn (length (b :: c)) buf) as EQ.
    { apply firstn_all2. unfold len in *. rewrite app_length, skipn_length. cbn [length]. lia. }
    assert (len ((b :: c) ++ skipn (length (b :: c)) buf) = 2048) as HL.
    { unfold len in *. rewrite app_length, skipn_length. cbn [length]. lia. }
    split; [|exact HL].
    cbn [length repeat history map].
    set (post := skipn (S (length c)) buf) in *.
    assert (run_byte_op (br_rb m) OpU8 (mkBR (EvData (b :: c) :: inner) buf p p)
            = (Ok (RNum b), mkBR inner ((b :: c) ++ post) 1 (len c + 1))) as E.
    { cbn [run_byte_op br_rb read_u8]. unfold bind at 1.
      unfold br_read_u8. rewrite bind_get. cbn [br_pos br_num_valid]. rewrite Z.eqb_refl.
      unfold bind at 1. unfold bind at 1.
      unfold br_refill, br_set_pos, inner_read. unfold bind at 1. unfold bind at 1.
      cbn [br_inner br_buf br_pos br_num_valid br_set_num_valid].
      rewrite bind_get. cbn [br_num_valid]. rewrite len_cons, u32_id by lia.
      destruct (Z.eqb_spec (len c + 1) 0); [lia|]. cbn [ret]. rewrite bind_get.
      cbn [br_inner br_buf br_pos br_num_valid]. cbn [length] in EQ. cbn [length]. rewrite EQ. fold post.
      change (index_unchecked ((b :: c) ++ post) 0) with (Ok b).
      rewrite bind_lift_ok. rewrite chk_u32 by lia. rewrite bind_lift_ok. reflexivity. }
    rewrite E. change ((b :: c) ++ post) with ([b] ++ c ++ post). change 1 with (len [b]).
    rewrite read_mid; [|exact HL|apply Z.add_comm].
    rewrite (Z.add_comm (len [b])). reflexivity.
  Qed.

  Lemma read_chunks inner : forall chunks buf p, Forall chunk_ok chunks -> len buf = 2048 ->
    exists buf' p',
    history (run_byte_op (br_rb m)) (repeat OpU8 (length (concat chunks)))
            (mkBR (map EvData chunks ++ inner) buf p p)
    = (map (fun b => Ok (RNum b)) (concat chunks), mkBR inner buf' p' p') /\ len buf' = 2048.
  Proof.
    induction chunks as [|c cs IH]; intros buf p Hc Hl; cbn [concat map app].
    - exists buf, p. cbn. auto.
    - inversion Hc as [|? ? Hc1 Hc2]; subst.
      destruct (read_chunk (map EvData cs ++ inner) c buf p Hc1 Hl) as (post & E & HL).
      destruct (IH (c ++ post) (len c) Hc2 HL) as (buf' & p' & E' & HL').
      exists buf', p'. split; [|exact HL'].
      rewrite app_length, repeat_app, map_app.
      rewrite (history_app _ _ _ _ _ _ E), E'; [reflexivity|].
      apply Forall_map, Forall_forall. intros; red; eauto.
  Qed.

  (** After an I/O error the last chunk is delivered again. *)
  Theorem br_replay t chunks last k r l :
    Forall chunk_ok chunks -> chunk_ok last -> delivers t r l ->
    let data := concat chunks ++ last in
    let st0 := br_new (map EvData chunks ++ EvData last :: EvErr k :: r) in
    exists st1 st2,
      history (run_byte_op (br_rb m)) (repeat OpU8 (length data)) st0
        = (map (fun b => Ok (RNum b)) data, st1)
      /\ run_byte_op (br_rb m) OpU8 st1 = (Err (IoError k), st2)
      /\ buffered t st2 (last ++ l).
  Proof.
    intros Hc Hlast Hd data st0.
    destruct (read_chunks (EvData last :: EvErr k :: r) chunks
                (repeat 0 (Z.to_nat CAPACITY)) 0 Hc ltac:(reflexivity)) as (buf & p & E & Hl).
    destruct (read_chunk (EvErr k :: r) last buf p Hlast Hl) as (post & E' & HL).
    eexists _, _. split; [|split].
    - unfold data. rewrite app_length, repeat_app, map_app.
      unfold st0, br_new. rewrite (history_app _ _ _ _ _ _ E), E'; [reflexivity|].
      apply Forall_map, Forall_forall. intros; red; eauto.
    - cbn [run_byte_op br_rb read_u8]. unfold br_read_u8. unfold bind at 1. rewrite bind_get.
      cbn [br_pos br_num_valid fst snd]. rewrite Z.eqb_refl. reflexivity.
    - exists [], last, post, l. cbn [br_inner br_buf br_pos br_num_valid app].
      destruct Hlast. repeat split; auto.
  Qed.
End Buffered.
