(** [BufferedReader] over any [io::Read]. *)
From Verif Require Export ProofSound ProofSafe ProofReader.
From Verif Require Import SpecReader.

(** * Claims that fit *)

Section Within.
  Context (m : build).
  Definition fits (e : hevent) : Prop := possible e /\ within e.
  Definition hr_inv (st : hreader) : Prop :=
    len (hr_buf st) = 2048 /\ 0 <= hr_pos st <= hr_num_valid st
    /\ hr_num_valid st <= 2048 /\ Forall fits (hr_inner st).

  Lemma fits_all sc : Forall possible sc -> Forall within sc -> Forall fits sc.
  Proof. intros H1 H2. induction H1; inversion H2; subst; constructor; [split|]; auto. Qed.
  Lemma hr_new_inv sc : Forall fits sc -> hr_inv (hr_new sc).
  Proof. intros H. repeat split; cbn; auto; try lia. Qed.

  Lemma hr_refill_inv st : hr_inv st ->
    exists o st', hr_refill st = (o, st') /\ hr_inv st' /\ hr_pos st' = 0
      /\ ((exists e, o = Err e) \/
          o = Ok tt /\ (hr_num_valid st' = 0 \/ (length (hr_inner st') < length (hr_inner st))%nat)).
  Proof.
    intros (Hb & Hp & Hn & Hc). destruct st as [inner buf p n]; cbn [hr_buf hr_pos hr_num_valid hr_inner] in *.
    unfold hr_refill, hr_set_pos, hr_inner_read, bind, hr_set_num_valid.
    cbn [hr_inner hr_buf hr_pos hr_num_valid].
    destruct inner as [|[c b|k b] r]; cbn [hr_inner hr_buf hr_pos hr_num_valid].
    - eexists _, _. split; [reflexivity|]. unfold hr_inv; cbn [hr_inner hr_buf hr_pos hr_num_valid].
      change (u32 0) with 0. repeat split; auto; try lia.
    - apply Forall_cons_iff in Hc as [[Hcb Hcl] Hc']. cbn in Hcb, Hcl.
      eexists _, _. split; [reflexivity|]. unfold hr_inv; cbn [hr_inner hr_buf hr_pos hr_num_valid].
      pose proof (u32_range c). change (u32 c) with (c mod 2 ^ 32) in *. repeat split; auto; try lia.
    - apply Forall_cons_iff in Hc as [[Hcb Hcl] Hc']. cbn in Hcb, Hcl.
      eexists _, _. split; [reflexivity|]. unfold hr_inv; cbn [hr_inner hr_buf hr_pos hr_num_valid].
      repeat split; auto; try lia. left. eauto.
  Qed.

  Lemma hr_u8_avail st : hr_inv st -> hr_pos st <> hr_num_valid st ->
    exists b, hr_read_u8 m st
              = (Ok b, mkHR (hr_inner st) (hr_buf st) (hr_pos st + 1) (hr_num_valid st))
      /\ hr_inv (mkHR (hr_inner st) (hr_buf st) (hr_pos st + 1) (hr_num_valid st)).
  Proof.
    intros (Hb & Hp & Hn & Hc) Hne. unfold hr_read_u8. rewrite bind_get.
    destruct (Z.eqb_spec (hr_pos st) (hr_num_valid st)); [contradiction|].
    unfold bind at 1. cbn [ret]. rewrite bind_get.
    destruct (index_unchecked_ok (hr_buf st) (hr_pos st) ltac:(lia)) as [b ->].
    rewrite bind_lift_ok, chk_u32 by lia. rewrite bind_lift_ok. exists b. split; [reflexivity|].
    unfold hr_inv; cbn [hr_inner hr_buf hr_pos hr_num_valid]. repeat split; auto; lia.
  Qed.

  Lemma hr_u8_safe : safe hr_inv (hr_read_u8 m).
  Proof.
    intros st HI. destruct (Z.eq_dec (hr_pos st) (hr_num_valid st)) as [E|E].
    - unfold hr_read_u8. rewrite bind_get. destruct (Z.eqb_spec (hr_pos st) (hr_num_valid st)); [|contradiction].
      destruct (hr_refill_inv st HI) as (o & st' & Hr & HI' & Hp & [[err ->]|[-> Ho]]).
      + unfold bind at 1. unfold bind at 1. rewrite Hr. triv.
      + unfold bind at 1. unfold bind at 1. rewrite Hr. rewrite bind_get.
        destruct (Z.eqb_spec (hr_num_valid st') 0) as [E0|E0]; [triv|].
        cbn [ret]. destruct HI' as (Hb & Hp' & Hn & Hc).
        rewrite bind_get.
        destruct (index_unchecked_ok (hr_buf st') (hr_pos st') ltac:(lia)) as [b ->].
        rewrite bind_lift_ok, chk_u32 by lia. rewrite bind_lift_ok.
        split; [apply voe_ok|]. cbn [snd ret bind hr_set_pos]. unfold hr_inv; cbn [hr_inner hr_buf hr_pos hr_num_valid]. repeat split; auto; lia.
    - destruct (hr_u8_avail st HI E) as (b & -> & HI'). triv.
  Qed.

  Lemma hr_eof_safe : safe hr_inv (hr_read_u8_or_eof m).
  Proof.
    assert (safe hr_inv (b <- hr_read_u8 m ;; ret (Some b))) as H1
      by (apply safe_bind; [apply hr_u8_safe|intros; apply safe_ret]).
    intros st HI. unfold hr_read_u8_or_eof. rewrite bind_get.
    destruct (hr_pos st =? hr_num_valid st).
    - destruct (hr_refill_inv st HI) as (o & st' & Hr & HI' & Hp & [[err ->]|[-> Ho]]).
      + unfold bind at 1. unfold bind at 1. rewrite Hr. triv.
      + unfold bind at 1. unfold bind at 1. rewrite Hr. rewrite bind_get. cbn [ret].
        destruct (hr_num_valid st' =? 0); [triv|]. apply H1, HI'.
    - apply H1, HI.
  Qed.

  Lemma hr_skip_loop_safe : forall fuel amount st, hr_inv st -> 0 <= amount < 2 ^ 32 ->
    (length (hr_inner st) + 1 < fuel)%nat \/ ((length (hr_inner st) < fuel)%nat /\ hr_pos st < hr_num_valid st) ->
    good hr_inv (hr_skip_loop m fuel amount st).
  Proof.
    induction fuel as [|fuel IH]; intros amount st HI Ha Hf; [lia|].
    cbn [hr_skip_loop]. destruct (Z.ltb_spec 0 amount); [|triv].
    pose proof HI as (Hb & Hp & Hn & Hc). rewrite bind_get.
    rewrite chk_u32 by lia. rewrite bind_lift_ok. cbv zeta.
    rewrite chk_u32 by lia. rewrite bind_lift_ok.
    set (now := Z.min amount (hr_num_valid st - hr_pos st)) in *.
    unfold bind at 1. cbn [hr_set_pos].
    set (st1 := mkHR (hr_inner st) (hr_buf st) (hr_pos st + now) (hr_num_valid st)).
    assert (hr_inv st1) as HI1
      by (unfold hr_inv; cbn [st1 hr_inner hr_buf hr_pos hr_num_valid]; repeat split; auto; lia).
    rewrite chk_u32 by lia. rewrite bind_lift_ok.
    destruct (Z.ltb_spec 0 (amount - now)) as [Hleft|Hleft].
    - destruct (hr_refill_inv st1 HI1) as (o & st' & Hr & HI' & Hp' & [[err ->]|[-> Ho]]).
      + unfold bind at 1. rewrite Hr. triv.
      + unfold bind at 1. rewrite Hr. rewrite bind_get.
        destruct (Z.eqb_spec (hr_num_valid st') 0); [triv|].
        apply IH; auto; [lia|]. right. destruct HI' as (? & ? & ? & ?).
        destruct Ho as [|Ho]; [lia|]. cbn [st1 hr_inner] in Ho. lia.
    - destruct fuel; cbn [hr_skip_loop]; (destruct (Z.ltb_spec 0 (amount - now)); [lia|]);
        triv.
  Qed.

  Lemma hr_read_into_loop_safe : forall fuel buffer left st, hr_inv st ->
    0 <= left <= len buffer -> len buffer < 2 ^ 63 ->
    (length (hr_inner st) + 1 < fuel)%nat \/ ((length (hr_inner st) < fuel)%nat /\ hr_pos st < hr_num_valid st) ->
    good hr_inv (hr_read_into_loop m fuel buffer left st).
  Proof.
    induction fuel as [|fuel IH]; intros buffer left st HI Ha Hlen Hf; [lia|].
    cbn [hr_read_into_loop]. destruct (Z.ltb_spec 0 left); [|triv].
    pose proof HI as (Hb & Hp & Hn & Hc). rewrite bind_get.
    rewrite chk_u64 by lia. rewrite bind_lift_ok.
    rewrite chk_u32 by lia. rewrite bind_lift_ok. cbv zeta.
    set (count := Z.min left (hr_num_valid st - hr_pos st)) in *.
    rewrite slice_ok by lia. rewrite bind_lift_ok.
    rewrite slice_ok by lia. rewrite bind_lift_ok.
    rewrite chk_u64 by lia. rewrite bind_lift_ok.
    rewrite u32_id by lia. rewrite chk_u32 by lia. rewrite bind_lift_ok.
    match goal with |- context [splice buffer ?a ?s] => set (buffer' := splice buffer a s) end.
    assert (len buffer' = len buffer) as Hbl.
    { unfold buffer', splice, len in *. rewrite !app_length, !firstn_length, !skipn_length.
      lia. }
    unfold bind at 1. cbn [hr_set_pos].
    set (st1 := mkHR (hr_inner st) (hr_buf st) (hr_pos st + count) (hr_num_valid st)).
    assert (hr_inv st1) as HI1
      by (unfold hr_inv; cbn [st1 hr_inner hr_buf hr_pos hr_num_valid]; repeat split; auto; lia).
    destruct (Z.ltb_spec 0 (left - count)) as [Hleft|Hleft].
    - destruct (hr_refill_inv st1 HI1) as (o & st' & Hr & HI' & Hp' & [[err ->]|[-> Ho]]).
      + unfold bind at 1. rewrite Hr. triv.
      + unfold bind at 1. rewrite Hr. rewrite bind_get.
        destruct (Z.eqb_spec (hr_num_valid st') 0); [triv|].
        apply IH; auto; [lia|lia|]. right. destruct HI' as (? & ? & ? & ?).
        destruct Ho as [|Ho]; [lia|]. cbn [st1 hr_inner] in Ho. lia.
    - destruct fuel; cbn [hr_read_into_loop]; (destruct (Z.ltb_spec 0 (left - count)); [lia|]);
        triv.
  Qed.

  Lemma hr_op_safe o : legal_byte_op o -> safe hr_inv (run_byte_op (hr_rb m) o).
  Proof.
    assert (safe hr_inv (read_u8 (hr_rb m))) as Hu by apply hr_u8_safe.
    assert (safe hr_inv (read_u8_or_eof (hr_rb m))) as He by apply hr_eof_safe.
    assert (forall buf, len buf < 2 ^ 63 -> safe hr_inv (read_into (hr_rb m) buf)) as Hi.
    { intros buf Hbuf st HI. cbn [hr_rb read_into]. unfold hr_read_into. rewrite bind_get.
      pose proof (len_nonneg buf). apply hr_read_into_loop_safe; auto; [lia|]. left. lia. }
    assert (forall n, 0 <= n < 2 ^ 32 -> safe hr_inv (skip (hr_rb m) n)) as Hs.
    { intros n Hn st HI. cbn [hr_rb skip]. unfold hr_skip. rewrite bind_get.
      apply hr_skip_loop_safe; auto. left. lia. }
    intros Hl. destruct o as [| |buf|n| | | | |]; cbn [run_byte_op legal_byte_op] in *;
      unfold read_be_u16, read_be_u16_or_eof, read_be_u24, read_be_u32, read_le_u32;
      repeat first [ exact Hu | exact He | apply Hi; (lia || tauto) | apply Hs; lia | apply safe_ret
                   | apply safe_bind; [|intros ?]
                   | match goal with |- safe _ (match ?o with Some _ => _ | None => _ end) =>
                       destruct o end ].
  Qed.

  Theorem hr_histories sc ops : Forall possible sc -> Forall within sc -> Forall legal_byte_op ops ->
    Forall value_or_error (fst (history_all (run_byte_op (hr_rb m)) ops (hr_new sc))).
  Proof.
    intros Hp Hw Hl. apply (history_all_safe hr_inv _ legal_byte_op); auto; [apply hr_op_safe|].
    apply hr_new_inv, fits_all; assumption.
  Qed.

  (** The same as a sound reader: also for arguments that no type allows. *)
  Lemma voe_nub {A} (o : outcome A) : value_or_error o -> not_ub o.
  Proof. intros [[a ->]|[e ->]]; nubs. Qed.
  Lemma safe_sound {A} (c : M hreader A) : safe hr_inv c -> op_sound hr_inv c.
  Proof. intros H st HI. destruct (H st HI) as [H1 H2]. split; [apply voe_nub, H1|exact H2]. Qed.

  (** Where the buffer is indexed with a check. *)
  Lemma refill_nub st : not_ub (fst (hr_refill st)).
  Proof.
    unfold hr_refill, hr_set_pos, hr_inner_read, bind, hr_set_num_valid. destruct (hr_inner st) as [|[c b|k b] r]; cbn; nubs.
  Qed.
  Lemma sound_refill : op_sound hr_inv hr_refill.
  Proof.
    intros st HI. destruct (hr_refill_inv st HI) as (o & st' & E & HI' & _). rewrite E. split; [|exact HI'].
    pose proof (refill_nub st) as N. rewrite E in N. exact N.
  Qed.
  Lemma nub_skip fuel : forall n st, not_ub (fst (hr_skip_loop m fuel n st)).
  Proof.
    intros n st. refine (proj1 ((_ : op_sound (fun _ => True) (hr_skip_loop m fuel n)) st Logic.I)).
    revert n. assert (op_sound (fun _ => True) hr_refill) as R by (intros s _; split; [apply refill_nub|exact Logic.I]).
    assert (forall p, op_sound (fun _ => True) (hr_set_pos p)) as P by (intros p s _; split; [cbn; nubs|exact Logic.I]).
    induction fuel as [|fuel IH]; intros n; cbn [hr_skip_loop]; repeat first [apply P | exact R | apply IH | snd1].
  Qed.
  Lemma nub_into fuel : forall b n st, not_ub (fst (hr_read_into_loop m fuel b n st)).
  Proof.
    intros b n st. refine (proj1 ((_ : op_sound (fun _ => True) (hr_read_into_loop m fuel b n)) st Logic.I)).
    revert b n. assert (op_sound (fun _ => True) hr_refill) as R by (intros s _; split; [apply refill_nub|exact Logic.I]).
    assert (forall p, op_sound (fun _ => True) (hr_set_pos p)) as P by (intros p s _; split; [cbn; nubs|exact Logic.I]).
    induction fuel as [|fuel IH]; intros b n; cbn [hr_read_into_loop]; cbv zeta; repeat first [apply P | exact R | apply IH | snd1].
  Qed.
  Theorem hr_checked buf n st : not_ub (fst (hr_read_into m buf st)) /\ not_ub (fst (hr_skip m n st)).
  Proof. unfold hr_read_into, hr_skip. rewrite !bind_get. split; [apply nub_into|apply nub_skip]. Qed.

  Lemma pos_inv p st : hr_inv st -> 0 <= p <= hr_num_valid st -> hr_inv (snd (hr_set_pos p st)).
  Proof. intros (H1 & H2 & H3 & H4) Hp. unfold hr_inv. cbn. repeat split; auto; lia. Qed.
  Lemma skip_inv fuel : forall n st, hr_inv st -> hr_inv (snd (hr_skip_loop m fuel n st)).
  Proof.
    induction fuel as [|fuel IH]; intros n st HI; cbn [hr_skip_loop]; destruct (Z.ltb_spec 0 n); try exact HI.
    pose proof HI as (Hb & Hp & Hn & Hc). rewrite bind_get. rewrite chk_u32 by lia. rewrite bind_lift_ok. cbv zeta.
    rewrite chk_u32 by lia. rewrite bind_lift_ok.
    match goal with |- context [hr_set_pos ?p] => assert (hr_inv (snd (hr_set_pos p st))) as HI1 by (apply pos_inv; [exact HI|lia]); set (now := p) in * end.
    unfold bind at 1. set (st1 := snd (hr_set_pos now st)) in HI1. change (hr_set_pos now st) with (Ok tt, st1). cbv beta iota. clearbody st1.
    unfold bind at 1, lift at 1. destruct (chk m u32 _) as [left|e|w|w|]; try exact HI1.
    all: match goal with |- context [if ?c then _ else _] => destruct c end; try (apply IH, HI1).
    all: unfold bind at 1; pose proof (sound_refill st1 HI1) as [_ HI2]; destruct (hr_refill st1) as [[[]|e|w|w|] st2]; cbn [snd] in *; try exact HI2;
      rewrite bind_get; destruct (_ =? 0); [exact HI2|apply IH, HI2].
  Qed.
  Lemma into_inv fuel : forall b n st, hr_inv st -> hr_inv (snd (hr_read_into_loop m fuel b n st)).
  Proof.
    induction fuel as [|fuel IH]; intros b n st HI; cbn [hr_read_into_loop]; destruct (Z.ltb_spec 0 n); try exact HI.
    pose proof HI as (Hb & Hp & Hn & Hc). rewrite bind_get.
    assert (forall {A B} (o : outcome A) (f : A -> M hreader B), (forall a, hr_inv (snd (f a st))) -> hr_inv (snd (bind (lift o) f st))) as L.
    { intros A B o f Hf. unfold bind, lift. destruct o; cbn; auto. }
    apply L. intros from. rewrite chk_u32 by lia. rewrite bind_lift_ok. cbv zeta.
    apply L. intros _. apply L. intros src. apply L. intros left. rewrite u32_id by lia. rewrite chk_u32 by lia. rewrite bind_lift_ok.
    match goal with |- context [hr_set_pos ?p] => assert (hr_inv (snd (hr_set_pos p st))) as HI1 by (apply pos_inv; [exact HI|lia]); set (now := p) in * end.
    unfold bind at 1. set (st1 := snd (hr_set_pos now st)) in HI1. change (hr_set_pos now st) with (Ok tt, st1). cbv beta iota. clearbody st1.
    match goal with |- context [if ?c then _ else _] => destruct c end; try (apply IH, HI1).
    all: unfold bind at 1; pose proof (sound_refill st1 HI1) as [_ HI2]; destruct (hr_refill st1) as [[[]|e|w|w|] st2]; cbn [snd] in *; try exact HI2;
      rewrite bind_get; destruct (_ =? 0); [exact HI2|apply IH, HI2].
  Qed.
  Theorem hr_sound : reader_sound hr_inv (hr_rb m).
  Proof.
    split; cbn [hr_rb read_u8 read_u8_or_eof read_into skip rb_alloc].
    - apply safe_sound, hr_u8_safe.
    - apply safe_sound, hr_eof_safe.
    - intros buf st HI. split; [apply hr_checked; exact 0|]. unfold hr_read_into. rewrite bind_get. apply into_inv, HI.
    - intros n st HI. split; [apply hr_checked; exact []|]. unfold hr_skip. rewrite bind_get. apply skip_inv, HI.
    - intros. snds.
  Qed.
End Within.

(** * Claims that do not fit *)

Lemma index_unchecked_past {A} (l : list A) i : len l <= i -> index_unchecked l i = UB "get_unchecked out of bounds".
Proof.
  intros H. unfold index_unchecked. destruct (Z.leb_spec 0 i); [|reflexivity].
  destruct (nth_error l (Z.to_nat i)) eqn:E; [|reflexivity]. assert (nth_error l (Z.to_nat i) <> None) as N by congruence.
  apply nth_error_Some in N. unfold len in H. lia.
Qed.

Section Overrun.
  Context (m : build) (n : Z) (Hn : 2048 < n < 2 ^ 32) (claim : Z) (Hclaim : u32 claim = n) (script : list hevent).
  Lemma overrun_next pre b suf : len (pre ++ b :: suf) = 2048 ->
    hr_read_u8 m (mkHR script (pre ++ b :: suf) (len pre) n) = (Ok b, mkHR script (pre ++ b :: suf) (len pre + 1) n).
  Proof.
    intros Hl. unfold hr_read_u8. rewrite bind_get. cbn [hr_inner hr_buf hr_pos hr_num_valid].
    pose proof (len_nonneg pre). pose proof (len_nonneg suf). rewrite len_app, len_cons in Hl.
    destruct (Z.eqb_spec (len pre) n); [lia|]. unfold bind at 1. cbn [ret]. rewrite bind_get. cbn [hr_inner hr_buf hr_pos hr_num_valid].
    rewrite index_unchecked_app by reflexivity. rewrite bind_lift_ok, chk_u32 by lia. rewrite bind_lift_ok. reflexivity.
  Qed.
  Lemma overrun_run suf : forall pre, len (pre ++ suf) = 2048 ->
    history (run_byte_op (hr_rb m)) (repeat OpU8 (length suf)) (mkHR script (pre ++ suf) (len pre) n)
    = (map (fun b => Ok (RNum b)) suf, mkHR script (pre ++ suf) 2048 n).
  Proof.
    induction suf as [|b suf IH]; intros pre Hl; cbn [length repeat history map].
    - rewrite app_nil_r in *. rewrite Hl. reflexivity.
    - cbn [run_byte_op]. unfold bind at 1. cbn [hr_rb read_u8]. rewrite overrun_next by exact Hl. cbn [ret].
      specialize (IH (pre ++ [b])). assert (len (pre ++ [b]) = len pre + 1) as El by (rewrite len_app; reflexivity).
      rewrite El, <- app_assoc in IH. cbn [app] in IH. rewrite (IH Hl). reflexivity.
  Qed.
  Theorem overrun buf : len buf = 2048 ->
    history (run_byte_op (hr_rb m)) (repeat OpU8 2048) (hr_new (HRead claim buf :: script))
    = (map (fun b => Ok (RNum b)) buf, mkHR script buf 2048 n)
    /\ forall o, In o [OpU8; OpU8OrEof; OpBe16; OpBe16OrEof; OpBe24; OpBe32; OpLe32] ->
       exists why, fst (run_byte_op (hr_rb m) o (mkHR script buf 2048 n)) = UB why.
  Proof.
    intros Hl. split.
    - assert (length buf = 2048%nat) as E by (unfold len in Hl; lia).
      destruct buf as [|b buf]; [discriminate|].
      pose proof (overrun_run buf [b] Hl) as R. cbn [app] in R.
      replace 2048%nat with (S (length buf)) by (cbn in E; lia). cbn [repeat history map].
      assert (run_byte_op (hr_rb m) OpU8 (hr_new (HRead claim (b :: buf) :: script)) = (Ok (RNum b), mkHR script (b :: buf) 1 n)) as ->.
      { pose proof (overrun_next [] b buf Hl) as F. cbn [app] in F. change (len (@nil Z)) with 0 in F.
        cbn [run_byte_op]. unfold bind at 1. cbn [hr_rb read_u8].
        assert (hr_read_u8 m (hr_new (HRead claim (b :: buf) :: script)) = hr_read_u8 m (mkHR script (b :: buf) 0 n)) as ->.
        { unfold hr_read_u8. rewrite !bind_get. unfold hr_new. cbn [hr_inner hr_buf hr_pos hr_num_valid]. change (0 =? 0) with true.
          unfold hr_refill, hr_set_pos, hr_inner_read, hr_set_num_valid, bind, get. cbn [hr_inner hr_buf hr_pos hr_num_valid].
          rewrite Hclaim. destruct (Z.eqb_spec n 0); [lia|]. destruct (Z.eqb_spec 0 n); [lia|]. reflexivity. }
        rewrite F. reflexivity. }
      change (len [b]) with 1 in R. rewrite R. reflexivity.
    - assert (hr_read_u8 m (mkHR script buf 2048 n) = (UB "get_unchecked out of bounds", mkHR script buf 2048 n)) as U.
      { unfold hr_read_u8. rewrite bind_get. cbn [hr_inner hr_buf hr_pos hr_num_valid]. destruct (Z.eqb_spec 2048 n); [lia|].
        unfold bind at 1. cbn [ret]. rewrite bind_get. cbn [hr_inner hr_buf hr_pos hr_num_valid].
        rewrite index_unchecked_past by lia. reflexivity. }
      assert (hr_read_u8_or_eof m (mkHR script buf 2048 n) = (UB "get_unchecked out of bounds", mkHR script buf 2048 n)) as V.
      { unfold hr_read_u8_or_eof. rewrite bind_get. cbn [hr_inner hr_buf hr_pos hr_num_valid]. destruct (Z.eqb_spec 2048 n); [lia|].
        unfold bind at 1. cbn [ret]. unfold bind. rewrite U. reflexivity. }
      intros o Ho. exists "get_unchecked out of bounds"%string.
      cbn [In] in Ho. intuition subst; cbn [run_byte_op];
        unfold read_be_u16, read_be_u16_or_eof, read_be_u24, read_be_u32, read_le_u32; unfold bind; cbn [hr_rb read_u8 read_u8_or_eof];
        rewrite ?U, ?V; reflexivity.
  Qed.
End Overrun.
Theorem overrun_claim m n : 2048 < n mod 2 ^ 32 -> forall script buf, len buf = 2048 ->
  history (run_byte_op (hr_rb m)) (repeat OpU8 2048) (hr_new (HRead n buf :: script))
  = (map (fun b => Ok (RNum b)) buf, mkHR script buf 2048 (n mod 2 ^ 32))
  /\ forall o, In o [OpU8; OpU8OrEof; OpBe16; OpBe16OrEof; OpBe24; OpBe32; OpLe32] ->
     exists why, fst (run_byte_op (hr_rb m) o (mkHR script buf 2048 (n mod 2 ^ 32))) = UB why.
Proof. intros Hn script buf. pose proof (u32_range n). apply overrun; [unfold u32 in *; lia|reflexivity]. Qed.

(** * The same as in ModelInput.v *)

Section Same.
  Context (m : build).
  Definition to_h (st : breader) : hreader := mkHR (plain (br_buf st) (br_inner st)) (br_buf st) (br_pos st) (br_num_valid st).
  Definition plain_ok (st : breader) : Prop := len (br_buf st) = 2048 /\ Forall contract_ok (br_inner st).
  Definition tracks {A} (c : M hreader A) (d : M breader A) : Prop :=
    forall st, plain_ok st -> c (to_h st) = (fst (d st), to_h (snd (d st))) /\ plain_ok (snd (d st)).

  Lemma tracks_lift {A} (o : outcome A) : tracks (lift o) (lift o).
  Proof. intros st H. split; [reflexivity|exact H]. Qed.
  Lemma tracks_bind {A B} (c : M hreader A) d (f : A -> M hreader B) g :
    tracks c d -> (forall a, tracks (f a) (g a)) -> tracks (bind c f) (bind d g).
  Proof.
    intros Hc Hf st H. destruct (Hc st H) as [E H']. unfold bind. rewrite E. destruct (d st) as [[a|e|w|w|] st']; cbn [fst snd] in *; auto.
    apply Hf, H'.
  Qed.
  Lemma tracks_get {B} (f : hreader -> M hreader B) g : (forall st, plain_ok st -> tracks (f (to_h st)) (g st)) -> tracks (bind get f) (bind get g).
  Proof. intros Hf st H. rewrite !bind_get. apply Hf; exact H. Qed.
  Lemma tracks_pos p : tracks (hr_set_pos p) (br_set_pos p).
  Proof. intros st H. split; [reflexivity|exact H]. Qed.
  Lemma tracks_valid p : tracks (hr_set_num_valid p) (br_set_num_valid p).
  Proof. intros st H. split; [reflexivity|exact H]. Qed.
  Lemma tracks_inner : tracks hr_inner_read inner_read.
  Proof.
    intros st [Hb Hc]. unfold hr_inner_read, inner_read. destruct st as [inner buf p n]. unfold to_h, plain_ok in *. cbn [br_inner br_buf br_pos br_num_valid hr_inner] in *.
    destruct inner as [|[l|k] r]; cbn [plain br_inner br_buf br_pos br_num_valid fst snd].
    - auto.
    - apply Forall_cons_iff in Hc as [[_ Hl] Hr]. pose proof (len_nonneg l).
      assert (firstn (length buf) (l ++ skipn (length l) buf) = l ++ skipn (length l) buf) as ->.
      { apply firstn_all2. rewrite app_length, skipn_length. unfold len in *. lia. }
      split; [reflexivity|]. split; [|exact Hr]. unfold len in *. rewrite app_length, skipn_length. lia.
    - inversion Hc; subst. auto.
  Qed.
  Lemma tracks_refill : tracks hr_refill br_refill.
  Proof. unfold hr_refill, br_refill. apply tracks_bind; [apply tracks_pos|intros _]. apply tracks_bind; [apply tracks_inner|intros z]. apply tracks_valid. Qed.
  Ltac trk1 := lazymatch goal with
    | |- tracks (bind get _) (bind get _) => apply tracks_get; intros ? ?; unfold to_h; cbn [hr_buf hr_pos hr_num_valid hr_inner]
    | |- tracks (bind _ _) (bind _ _) => apply tracks_bind; [|intros ?]
    | |- tracks (lift _) (lift _) => apply tracks_lift
    | |- tracks (ret _) (ret _) => apply tracks_lift
    | |- tracks (fail _) (fail _) => apply tracks_lift
    | |- tracks hr_refill br_refill => apply tracks_refill
    | |- tracks (hr_set_pos _) (br_set_pos _) => apply tracks_pos
    | |- tracks (if ?c then _ else _) (if ?c then _ else _) => destruct c
    | |- tracks (match ?c with Some _ => _ | None => _ end) _ => destruct c
    end.
  Ltac trk := repeat trk1.
  Lemma tracks_u8 : tracks (hr_read_u8 m) (br_read_u8 m).
  Proof. unfold hr_read_u8, br_read_u8. trk. Qed.
  Lemma tracks_eof : tracks (hr_read_u8_or_eof m) (br_read_u8_or_eof m).
  Proof. unfold hr_read_u8_or_eof, br_read_u8_or_eof. trk. apply tracks_u8. Qed.
  Lemma tracks_skip_loop fuel : forall n, tracks (hr_skip_loop m fuel n) (br_skip_loop m fuel n).
  Proof. induction fuel as [|fuel IH]; intros n; cbn [hr_skip_loop br_skip_loop]; cbv zeta; trk; apply IH. Qed.
  Lemma tracks_into_loop fuel : forall b n, tracks (hr_read_into_loop m fuel b n) (br_read_into_loop m fuel b n).
  Proof. induction fuel as [|fuel IH]; intros b n; cbn [hr_read_into_loop br_read_into_loop]; cbv zeta; trk; apply IH. Qed.
  Lemma plain_length sc : forall buf, length (plain buf sc) = length sc.
  Proof. induction sc as [|[l|k] sc IH]; intros buf; cbn; auto. Qed.
  Lemma tracks_op o : tracks (run_byte_op (hr_rb m) o) (run_byte_op (br_rb m) o).
  Proof.
    assert (forall b, tracks (hr_read_into m b) (br_read_into m b)) as Hi.
    { intros b. unfold hr_read_into, br_read_into. trk. rewrite plain_length. apply tracks_into_loop. }
    assert (forall n, tracks (hr_skip m n) (br_skip m n)) as Hs.
    { intros n. unfold hr_skip, br_skip. trk. rewrite plain_length. apply tracks_skip_loop. }
    destruct o; cbn [run_byte_op]; unfold read_be_u16, read_be_u16_or_eof, read_be_u24, read_be_u32, read_le_u32; cbn [hr_rb br_rb read_u8 read_u8_or_eof read_into skip];
      repeat first [ apply tracks_u8 | apply tracks_eof | apply Hi | apply Hs | trk1 ].
  Qed.
  Lemma plain_possible sc : Forall contract_ok sc -> forall buf, bytes_ok buf -> len buf = 2048 -> Forall possible (plain buf sc) /\ Forall within (plain buf sc).
  Proof.
    induction 1 as [|[l|k] sc Hc H IH]; intros buf Hb Hl; cbn [plain]; [split; constructor| |].
    - destruct Hc as [Hc Hcl]. pose proof (len_nonneg l).
      assert (bytes_ok (l ++ skipn (length l) buf)) as B.
      { apply Forall_app. split; [exact Hc|]. apply Forall_forall. intros x Hx. rewrite <- (firstn_skipn (length l) buf) in Hb.
        apply Forall_app in Hb as [_ Hb]. rewrite Forall_forall in Hb. auto. }
      assert (len (l ++ skipn (length l) buf) = 2048) as L.
      { unfold len in *. rewrite app_length, skipn_length. lia. }
      destruct (IH _ B L) as [I1 I2]. split; (constructor; [|assumption]); cbn -[Z.pow]; auto; [split; [lia|auto]|rewrite Z.mod_small by lia; lia].
    - destruct (IH buf Hb Hl). split; (constructor; [|assumption]); cbn; auto.
  Qed.
  Definition zeroes : list Z := repeat 0 2048.
  Lemma zeroes_ok : bytes_ok zeroes /\ len zeroes = 2048.
  Proof. split; [|reflexivity]. unfold zeroes. apply Forall_forall. intros x Hx. apply repeat_spec in Hx. subst. unfold is_byte. lia. Qed.
  Theorem same_results sc ops : Forall contract_ok sc ->
    Forall possible (plain (repeat 0 2048) sc) /\ Forall within (plain (repeat 0 2048) sc)
    /\ fst (history_all (run_byte_op (hr_rb m)) ops (hr_new (plain (repeat 0 2048) sc)))
       = fst (history_all (run_byte_op (br_rb m)) ops (br_new sc)).
  Proof.
    intros Hc. destruct zeroes_ok as [Z1 Z2]. destruct (plain_possible sc Hc zeroes Z1 Z2) as [P1 P2].
    split; [exact P1|]. split; [exact P2|].
    assert (forall ops st, plain_ok st -> fst (history_all (run_byte_op (hr_rb m)) ops (to_h st)) = fst (history_all (run_byte_op (br_rb m)) ops st)) as X.
    { intros os. induction os as [|o os IH]; intros st H; [reflexivity|]. cbn [history_all]. destruct (tracks_op o st H) as [E H'].
      rewrite E. destruct (run_byte_op (br_rb m) o st) as [r st']. cbn [fst snd] in *. specialize (IH st' H').
      destruct (history_all (run_byte_op (hr_rb m)) os (to_h st')). destruct (history_all (run_byte_op (br_rb m)) os st'). cbn in *. congruence. }
    apply (X ops (br_new sc)). split; [reflexivity|exact Hc].
  Qed.
End Same.
