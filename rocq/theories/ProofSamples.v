(** The sample iterator. *)
From Verif Require Export ProofBlock.
From Verif Require Import SpecReader.

(** ** Repeated calls *)
Section Nexts.
  Context {S A : Type} (next : M S (option A)).

  Lemma nexts_S n st : nexts next (Datatypes.S n) st
    = (fst (next st) :: fst (nexts next n (snd (next st))), snd (nexts next n (snd (next st)))).
  Proof.
    unfold nexts. cbn [repeat history_all]. destruct (next st) as [r s]. cbn [fst snd].
    destruct (history_all _ (repeat tt n) s). reflexivity.
  Qed.
  Lemma nexts_length n : forall st, length (fst (nexts next n st)) = n.
  Proof. induction n as [|n IH]; intros st; [reflexivity|]. rewrite nexts_S. cbn [fst length]. rewrite IH. reflexivity. Qed.
  Lemma nexts_app n k : forall st, nexts next (n + k) st
    = (fst (nexts next n st) ++ fst (nexts next k (snd (nexts next n st))), snd (nexts next k (snd (nexts next n st)))).
  Proof.
    induction n as [|n IH]; intros st; cbn [Nat.add].
    - cbn. destruct (nexts next k st). reflexivity.
    - rewrite !nexts_S, IH. cbn [fst snd app]. reflexivity.
  Qed.
  Lemma nexts_firstn n k st : (n <= k)%nat -> fst (nexts next n st) = firstn n (fst (nexts next k st)).
  Proof.
    intros Hn. replace k with (n + (k - n))%nat by lia. rewrite nexts_app. cbn [fst].
    rewrite firstn_app, nexts_length, Nat.sub_diag. cbn [firstn]. rewrite app_nil_r.
    rewrite <- (nexts_length n st) at 2. rewrite firstn_all. reflexivity.
  Qed.

  Definition runs (st : S) (l : list (outcome (option A))) (st' : S) : Prop := nexts next (length l) st = (l, st').
  Lemma runs_nil st : runs st [] st.
  Proof. reflexivity. Qed.
  Lemma runs_one st r st' : next st = (r, st') -> runs st [r] st'.
  Proof. intros E. unfold runs. cbn [length]. rewrite nexts_S, E. reflexivity. Qed.
  Lemma runs_app st l st1 l' st2 : runs st l st1 -> runs st1 l' st2 -> runs st (l ++ l') st2.
  Proof. unfold runs. intros H1 H2. rewrite app_length, nexts_app, H1. cbn [fst snd]. rewrite H2. reflexivity. Qed.
  Lemma runs_cons st r st1 l st2 : next st = (r, st1) -> runs st1 l st2 -> runs st (r :: l) st2.
  Proof. intros E H. apply (runs_app st [r] st1 l st2); [apply runs_one, E|exact H]. Qed.

  (** Enough to know all results. *)
  Lemma runs_yields st l st' : runs st (map (fun x => Ok (Some x)) l) st' ->
    (forall n, fst (nexts next n st') = repeat (Ok None) n) -> yields next st l.
  Proof.
    intros H HN n. rewrite (nexts_firstn n (length l + n)) by lia. rewrite nexts_app. cbn [fst].
    unfold runs in H. rewrite map_length in H. rewrite H. cbn [fst snd]. rewrite HN. reflexivity.
  Qed.
  Lemma nones_of (Q : S -> Prop) : (forall st, Q st -> exists st', next st = (Ok None, st') /\ Q st') ->
    forall n st, Q st -> fst (nexts next n st) = repeat (Ok None) n.
  Proof.
    intros H. induction n as [|n IH]; intros st HQ; [reflexivity|]. rewrite nexts_S.
    destruct (H st HQ) as (st' & E & HQ'). rewrite E. cbn [fst snd repeat]. rewrite IH by exact HQ'. reflexivity.
  Qed.
End Nexts.

(** ** Interleaving *)
Lemma interleave_length n chs : length (interleave n chs) = (n * length chs)%nat.
Proof.
  unfold interleave. rewrite flat_map_concat_map.
  assert (forall a, length (concat (map (fun i => map (fun c => nth i c 0) chs) (seq a n))) = (n * length chs)%nat) as X; [|apply X].
  induction n as [|n IH]; intros a; [reflexivity|]. cbn [seq map concat]. rewrite app_length, map_length, IH. lia.
Qed.
Lemma interleave_nth n chs i k c : (i < n)%nat -> nth_error chs k = Some c ->
  nth_error (interleave n chs) (i * length chs + k) = Some (nth i c 0).
Proof.
  intros Hi Hk. unfold interleave.
  assert (k < length chs)%nat as Hk' by (apply nth_error_Some; congruence).
  assert (forall a, nth_error (flat_map (fun i => map (fun c => nth i c 0) chs) (seq a n)) (i * length chs + k) = Some (nth (a + i) c 0)) as X.
  { revert i Hi. induction n as [|n IH]; intros i Hi a; [lia|]. cbn [seq flat_map].
    destruct i as [|i].
    - cbn [Nat.mul Nat.add]. rewrite nth_error_app1 by (rewrite map_length; exact Hk').
      rewrite nth_error_map, Hk. cbn. rewrite Nat.add_0_r. reflexivity.
    - rewrite nth_error_app2 by (rewrite map_length; cbn; lia). rewrite map_length.
      replace (Datatypes.S i * length chs + k - length chs)%nat with (i * length chs + k)%nat by (cbn; lia).
      rewrite IH by lia. do 2 f_equal. lia. }
  apply X.
Qed.
Lemma skipn_nth {A} (l : list A) n x : nth_error l n = Some x -> skipn n l = x :: skipn (Datatypes.S n) l.
Proof.
  revert l. induction n as [|n IH]; intros [|y l] E; try discriminate; cbn in *; [congruence|]. apply IH, E.
Qed.

Section Samples.
  Context {S : Type} (rb : ReadBytes S) (m : build) (fuel : nat).
  Notation next := (read_next_or_eof rb m fuel).
  Notation step := (fs_next rb m fuel).

  (** ** Inside a block *)
  Section Block.
    Context (b : block) (chs : list (list Z)) (Hb : block_holds b chs) (s : S).
    Notation nch := (length chs).
    Notation dur := (Z.to_nat (block_duration b)).
    Definition at_pos (i k : nat) : flac_samples S := mkFs s b (Z.of_nat i) (Z.of_nat k) false.

    Lemma yield_at i k c : nth_error chs k = Some c -> (i < dur)%nat ->
      fs_yield (at_pos i k) = (Ok (Some (ROk (nth i c 0))), at_pos i k).
    Proof.
      intros Hc Hi. unfold fs_yield. rewrite bind_get. cbn [at_pos fs_block fs_channel fs_sample].
      assert (len c = block_duration b) as Hl.
      { destruct Hb as (_ & _ & _ & HF & _). rewrite Forall_forall in HF. apply HF. eapply nth_error_In, Hc. }
      rewrite (holds_sample b chs Hb k c i (nth i c 0) Hc).
      - reflexivity.
      - apply nth_error_nth'. unfold len in *. lia.
    Qed.

    Lemma holds_nch : Z.of_nat nch = block_channels b /\ (1 <= nch <= 8)%nat /\ (1 <= dur)%nat
      /\ (Z.of_nat dur = block_duration b /\ block_duration b <= 65535).
    Proof. destruct Hb as (H1 & H2 & H3 & _). unfold len in *. lia. Qed.

    Lemma step_channel i k c : nth_error chs (Datatypes.S k) = Some c -> (i < dur)%nat ->
      step (at_pos i k) = (Ok (Some (ROk (nth i c 0))), at_pos i (Datatypes.S k)).
    Proof.
      intros Hc Hi. destruct holds_nch as (N1 & N2 & N3 & N4).
      assert (Datatypes.S k < nch)%nat as Hk by (apply nth_error_Some; congruence).
      unfold fs_next. rewrite bind_get. cbn [at_pos fs_has_failed fs_channel fs_block]. cbv iota.
      rewrite chk_u32 by lia. rewrite bind_lift_ok.
      unfold bind at 1, fs_set_channel at 1. cbn [at_pos fs_frame_reader fs_block fs_sample fs_has_failed].
      replace (block_channels b <=? Z.of_nat k + 1) with false by lia.
      replace (Z.of_nat k + 1) with (Z.of_nat (Datatypes.S k)) by lia.
      apply yield_at; assumption.
    Qed.
    Lemma step_sample i k c : Datatypes.S k = nch -> nth_error chs 0 = Some c -> (Datatypes.S i < dur)%nat ->
      step (at_pos i k) = (Ok (Some (ROk (nth (Datatypes.S i) c 0))), at_pos (Datatypes.S i) 0).
    Proof.
      intros Hk Hc Hi. destruct holds_nch as (N1 & N2 & N3 & N4).
      unfold fs_next. rewrite bind_get. cbn [at_pos fs_has_failed fs_channel fs_block fs_sample]. cbv iota.
      rewrite chk_u32 by lia. rewrite bind_lift_ok.
      unfold bind at 1, fs_set_channel at 1. cbn [fs_frame_reader fs_block fs_sample fs_has_failed].
      replace (block_channels b <=? Z.of_nat k + 1) with true by lia.
      unfold bind at 1, fs_set_channel at 1. cbn [fs_frame_reader fs_block fs_sample fs_has_failed].
      rewrite chk_u32 by lia. rewrite bind_lift_ok.
      unfold bind at 1, fs_set_sample at 1. cbn [fs_frame_reader fs_block fs_channel fs_has_failed].
      replace (block_duration b <=? Z.of_nat i + 1) with false by lia.
      replace (Z.of_nat i + 1) with (Z.of_nat (Datatypes.S i)) by lia.
      apply (yield_at _ 0); assumption.
    Qed.

    (** From a position to the last. *)
    Lemma block_runs : forall todo i k, (i < dur)%nat -> (k < nch)%nat ->
      (i * nch + k + 1 + todo = dur * nch)%nat ->
      runs step (at_pos i k) (map (fun x => Ok (Some (ROk x))) (skipn (i * nch + k + 1) (interleave dur chs)))
        (at_pos (dur - 1) (nch - 1)).
    Proof.
      induction todo as [|todo IH]; intros i k Hi Hk Ht; destruct holds_nch as (N1 & N2 & N3 & N4).
      - rewrite skipn_all2 by (rewrite interleave_length; lia).
        assert (i = dur - 1 /\ k = nch - 1)%nat as [-> ->] by nia. apply runs_nil.
      - destruct (Nat.eq_dec (Datatypes.S k) nch) as [Ek|Ek].
        + destruct (nth_error chs 0) as [c|] eqn:Ec; [|apply nth_error_None in Ec; lia].
          assert (Datatypes.S i < dur)%nat as Hi' by nia.
          replace (i * nch + k + 1)%nat with (Datatypes.S i * nch + 0)%nat by (cbn; lia).
          rewrite (skipn_nth _ _ _ (interleave_nth dur chs (Datatypes.S i) 0 c Hi' Ec)). cbn [map].
          eapply runs_cons; [apply (step_sample i k c Ek Ec Hi')|].
          replace (Datatypes.S (Datatypes.S i * nch + 0)) with (Datatypes.S i * nch + 0 + 1)%nat by lia.
          apply IH; nia.
        + destruct (nth_error chs (Datatypes.S k)) as [c|] eqn:Ec; [|apply nth_error_None in Ec; lia].
          replace (i * nch + k + 1)%nat with (i * nch + Datatypes.S k)%nat by lia.
          rewrite (skipn_nth _ _ _ (interleave_nth dur chs i (Datatypes.S k) c Hi Ec)). cbn [map].
          eapply runs_cons; [apply (step_channel i k c Ec Hi)|].
          replace (Datatypes.S (i * nch + Datatypes.S k)) with (i * nch + Datatypes.S k + 1)%nat by lia.
          apply IH; lia.
    Qed.
  End Block.

  (** ** Between blocks *)

  (** The next call reads a block into [buffer]. *)
  Definition boundary (st : flac_samples S) (buffer : vec) (s : S) : Prop :=
    fs_has_failed st = false /\ fs_frame_reader st = s /\ v_items (bl_buffer (fs_block st)) = v_items buffer
    /\ v_cap (bl_buffer (fs_block st)) = v_cap buffer
    /\ -1 <= fs_channel st < 2 ^ 31 /\ -1 <= fs_sample st < 2 ^ 31
    /\ block_channels (fs_block st) <= fs_channel st + 1
    /\ block_duration (fs_block st) <= fs_sample st + 1.

  Lemma boundary_start s : boundary (mkFs s block_empty 0 0 false) (mkVec [] 0) s.
  Proof. repeat split; cbn; lia. Qed.

  Lemma step_boundary st buffer s r s' : boundary st buffer s -> next buffer s = (r, s') ->
    step st = match r with
              | Ok (Some b) => fs_yield (mkFs s' b 0 0 false)
              | Ok None => (Ok None, mkFs s' block_empty 0 0 false)
              | Err e => (Ok (Some (RErr e)), mkFs s' block_empty 0 0 true)
              | Panic w => (Panic w, mkFs s' block_empty 0 0 false)
              | UB w => (UB w, mkFs s' block_empty 0 0 false)
              | OutOfFuel => (OutOfFuel, mkFs s' block_empty 0 0 false)
              end.
  Proof.
    intros (Hf & Hs & Hi & Hcap & Hc & Hsa & Hnc & Hd) E.
    destruct st as [s0 b sa ch f]. cbn [fs_has_failed fs_frame_reader fs_block fs_channel fs_sample] in *. subst f s0.
    assert (block_into_buffer b = buffer) as Hbuf.
    { unfold block_into_buffer. destruct (bl_buffer b), buffer. cbn in *. congruence. }
    unfold fs_next. rewrite bind_get. cbn [fs_has_failed fs_channel fs_block fs_sample]. cbv iota.
    rewrite chk_u32 by lia. rewrite bind_lift_ok.
    unfold bind at 1, fs_set_channel at 1. cbn [fs_frame_reader fs_block fs_sample fs_has_failed].
    replace (block_channels b <=? ch + 1) with true by lia.
    unfold bind at 1, fs_set_channel at 1. cbn [fs_frame_reader fs_block fs_sample fs_has_failed].
    rewrite chk_u32 by lia. rewrite bind_lift_ok.
    unfold bind at 1, fs_set_sample at 1. cbn [fs_frame_reader fs_block fs_channel fs_has_failed].
    replace (block_duration b <=? sa + 1) with true by lia.
    unfold bind at 1, fs_set_sample at 1. cbn [fs_frame_reader fs_block fs_channel fs_has_failed].
    unfold bind at 1, fs_set_block at 1. cbn [fs_frame_reader fs_sample fs_channel fs_has_failed].
    unfold bind at 1, catch, fs_lift. cbn [fs_frame_reader fs_block fs_sample fs_channel fs_has_failed].
    rewrite Hbuf, E.
    destruct r as [[b'|]|e|w|w|]; reflexivity.
  Qed.

  Lemma boundary_last b chs s : block_holds b chs ->
    boundary (at_pos b s (Z.to_nat (block_duration b) - 1) (length chs - 1)) (block_into_buffer b) s.
  Proof.
    intros Hb. destruct (holds_nch b chs Hb) as (N1 & N2 & N3 & N4).
    repeat split; cbn [at_pos fs_channel fs_sample fs_block]; try lia.
  Qed.

  (** All samples of one more block. *)
  Lemma read_runs st buffer s b s' chs : boundary st buffer s -> next buffer s = (Ok (Some b), s') -> block_holds b chs ->
    runs step st (map (fun x => Ok (Some (ROk x))) (interleave (Z.to_nat (block_duration b)) chs))
      (at_pos b s' (Z.to_nat (block_duration b) - 1) (length chs - 1)).
  Proof.
    intros HB E Hb. destruct (holds_nch b chs Hb) as (N1 & N2 & N3 & N4).
    destruct (nth_error chs 0) as [c|] eqn:Ec; [|apply nth_error_None in Ec; lia].
    pose proof (skipn_nth _ _ _ (interleave_nth (Z.to_nat (block_duration b)) chs 0 0 c ltac:(lia) Ec)) as E0.
    cbn [Nat.mul Nat.add skipn] in E0. rewrite E0. cbn [map].
    eapply runs_cons.
    - rewrite (step_boundary st buffer s _ s' HB E). apply (yield_at b chs Hb s' 0 0 c Ec). lia.
    - destruct (interleave (Z.to_nat (block_duration b)) chs) as [|x l] eqn:Ei; [discriminate|].
      pose proof (block_runs b chs Hb s' (Z.to_nat (block_duration b) * length chs - 1) 0 0 ltac:(lia) ltac:(lia) ltac:(nia)) as H.
      cbn [Nat.mul Nat.add] in H. rewrite Ei in H. exact H.
  Qed.

  Theorem blocks_runs buffer s bs last s' : blocks_read rb m fuel buffer s bs last s' ->
    forall ls st, Forall2 block_interleaved bs ls -> boundary st buffer s ->
    exists st' buffer' s'', runs step st (map (fun x => Ok (Some (ROk x))) (concat ls)) st'
      /\ boundary st' buffer' s'' /\ next buffer' s'' = (last, s').
  Proof.
    induction 1 as [buffer s last s' E Hn|buffer s b s1 bs last s' E HR IH]; intros ls st HF HB.
    - inversion HF; subst. exists st, buffer, s. split; [apply runs_nil|]. auto.
    - inversion HF as [|? l ? ls' (chs & Hb & El) HF']; subst.
      destruct (IH ls' (at_pos b s1 (Z.to_nat (block_duration b) - 1) (length chs - 1)) HF' (boundary_last b chs s1 Hb))
        as (st' & buffer' & s'' & HRn & HB' & El).
      exists st', buffer', s''. split; [|auto]. cbn [concat]. rewrite map_app.
      eapply runs_app; [eapply read_runs; eassumption|exact HRn].
  Qed.

  (** ** Errors *)
  Lemma step_failed st : fs_has_failed st = true -> step st = (Ok None, st).
  Proof. intros H. unfold fs_next. rewrite bind_get, H. reflexivity. Qed.
  Lemma failed_forever n st : fs_has_failed st = true -> nexts step n st = (repeat (Ok None) n, st).
  Proof.
    intros H. induction n as [|n IH]; [reflexivity|]. rewrite nexts_S, (step_failed st H). cbn [fst snd]. rewrite IH. reflexivity.
  Qed.
  Lemma step_error st e st' : step st = (Ok (Some (RErr e)), st') -> fs_has_failed st' = true.
  Proof.
    unfold fs_next. rewrite bind_get. destruct (fs_has_failed st); [discriminate|].
    assert (forall st e st', @fs_yield S st <> (Ok (Some (RErr e)), st')) as HY.
    { clear. intros st e st'. unfold fs_yield. rewrite bind_get. unfold bind, lift. destruct (block_sample _ _ _); discriminate. }
    destruct (chk m u32 (fs_channel st + 1)); try discriminate. rewrite bind_lift_ok. unfold bind at 1, fs_set_channel at 1.
    destruct (_ <=? _); [|intros H; apply HY in H as []].
    unfold bind at 1, fs_set_channel at 1. destruct (chk m u32 (fs_sample st + 1)); try discriminate. rewrite bind_lift_ok.
    unfold bind at 1, fs_set_sample at 1. destruct (_ <=? _); [|intros H; apply HY in H as []].
    unfold bind at 1, fs_set_sample at 1. unfold bind at 1, fs_set_block at 1. unfold bind at 1, catch, fs_lift.
    destruct (next _ _) as [[[b|]|err|w|w|] s1]; try discriminate.
    - unfold bind at 1, fs_set_block at 1. intros H. apply HY in H as [].
    - unfold bind, fs_set_has_failed, ret. intros [= _ <-]. reflexivity.
  Qed.
End Samples.

Section Streams.
  Context {S : Type} (rb : ReadBytes S) (t : tail) (D : S -> list Z -> Prop) (HS : stream rb t D).
  Context (m : build) (fuel : nat).
  Notation next := (read_next_or_eof rb m fuel).
  Notation step := (fs_next rb m fuel).

  (** The loop over the blocks always ends. *)
  Theorem blocks_exist : forall n buffer s l, (length l <= n)%nat -> D s l -> (length l < fuel)%nat ->
    exists bs last s', blocks_read rb m fuel buffer s bs last s'.
  Proof.
    induction n as [|n IH]; intros buffer s l Hn HD Hf; destruct (next buffer s) as [r s1] eqn:E;
      (destruct (match r with Ok (Some _) => true | _ => false end) eqn:Er;
       [destruct r as [[b|]| | | |]; try discriminate Er
       |exists [], r, s1; apply read_last; [exact E|intros b ->; discriminate Er]]);
      destruct (next_shrinks rb t D HS m fuel buffer s l b s1 HD Hf E) as (l' & HD' & Hl); [lia|].
    destruct (IH (block_into_buffer b) s1 l' ltac:(lia) HD' ltac:(lia)) as (bs & last & s' & HR).
    exists (b :: bs), last, s'. eapply read_one; eassumption.
  Qed.

  Lemma blocks_hold buffer s bs last s' : blocks_read rb m fuel buffer s bs last s' ->
    forall l, D s l -> (length l < fuel)%nat ->
    exists ls, Forall2 block_interleaved bs ls.
  Proof.
    induction 1 as [buffer s last s' E Hn|buffer s b s1 bs last s' E HR IH]; intros l HD Hf.
    - exists []. constructor.
    - destruct (next_holds rb t D HS m fuel buffer s l b s1 HD Hf E) as (chs & Hb).
      destruct (next_shrinks rb t D HS m fuel buffer s l b s1 HD Hf E) as (l' & HD' & Hl).
      destruct (IH l' HD' ltac:(lia)) as (ls & HF).
      eexists (_ :: ls). constructor; [exists chs; split; [exact Hb|reflexivity]|exact HF].
  Qed.
  Lemma blocks_end buffer s bs s' : blocks_read rb m fuel buffer s bs (Ok None) s' ->
    forall l, D s l -> (length l < fuel)%nat -> t = TEof /\ D s' [].
  Proof.
    remember (Ok None) as last eqn:El.
    induction 1 as [buffer s last s' E Hn|buffer s b s1 bs last s' E HR IH]; intros l HD Hf.
    - subst last. destruct (frame_end rb t D HS m fuel buffer s l s' HD Hf E) as (? & _ & ?). auto.
    - destruct (next_shrinks rb t D HS m fuel buffer s l b s1 HD Hf E) as (l' & HD' & Hl).
      apply (IH El l' HD' ltac:(lia)).
  Qed.

  Lemma nones_samples n : (1 < fuel)%nat -> t = TEof -> forall s, D s [] ->
    fst (nexts step n (mkFs s block_empty 0 0 false)) = repeat (Ok None) n.
  Proof.
    intros Hf Ht. induction n as [|n IH]; intros s HD; [reflexivity|].
    destruct (frame_ends rb t D HS m fuel (mkVec [] 0) s [] Ht ltac:(cbn; lia) Hf HD) as (s' & E & HD').
    rewrite nexts_S, (step_boundary rb m fuel _ _ s _ s' (boundary_start s) E).
    cbn [fst snd repeat]. rewrite IH by exact HD'. reflexivity.
  Qed.

  (** What the iterator yields. *)
  Theorem samples_yield s l : D s l -> (length l < fuel)%nat -> (1 < fuel)%nat ->
    forall bs last s', blocks_read rb m fuel (mkVec [] 0) s bs last s' ->
    exists ls, Forall2 block_interleaved bs ls
      /\ match last with
         | Ok _ => yields step (mkFs s block_empty 0 0 false) (map ROk (concat ls))
         | Err e => yields step (mkFs s block_empty 0 0 false) (map ROk (concat ls) ++ [RErr e])
             /\ forall n, (length (concat ls) < n)%nat ->
                fs_frame_reader (snd (nexts step n (mkFs s block_empty 0 0 false))) = s'
         | Panic w => fst (nexts step (length (concat ls) + 1) (mkFs s block_empty 0 0 false))
             = map (fun x => Ok (Some (ROk x))) (concat ls) ++ [Panic w]
         | UB w => fst (nexts step (length (concat ls) + 1) (mkFs s block_empty 0 0 false))
             = map (fun x => Ok (Some (ROk x))) (concat ls) ++ [UB w]
         | OutOfFuel => fst (nexts step (length (concat ls) + 1) (mkFs s block_empty 0 0 false))
             = map (fun x => Ok (Some (ROk x))) (concat ls) ++ [OutOfFuel]
         end.
  Proof.
    intros HD Hf Hf1 bs last s' HR.
    destruct (blocks_hold _ _ _ _ _ HR l HD Hf) as (ls & HF). exists ls. split; [exact HF|].
    destruct (blocks_runs rb m fuel _ _ _ _ _ HR ls _ HF (boundary_start s)) as (st' & buffer' & s'' & HRn & HB & E).
    pose proof (step_boundary rb m fuel _ _ _ _ _ HB E) as Es.
    assert (forall r st'', step st' = (r, st'') -> (forall b, r <> Ok b) ->
       fst (nexts step (length (concat ls) + 1) (mkFs s block_empty 0 0 false)) = map (fun x => Ok (Some (ROk x))) (concat ls) ++ [r]) as X.
    { intros r st'' Er _. rewrite nexts_app. unfold runs in HRn. rewrite map_length in HRn. rewrite HRn. cbn [fst snd].
      rewrite nexts_S, Er. reflexivity. }
    destruct last as [o|e|w|w|].
    - destruct o as [b|].
      { exfalso. clear - HR. remember (Ok (Some b)) as last. induction HR as [? ? ? ? ? Hn|]; [|auto]. apply (Hn b). assumption. }
      destruct (blocks_end _ _ _ _ HR l HD Hf) as [Ht HD'].
      apply (runs_yields step _ _ st'); [rewrite map_map; exact HRn|].
      intros [|n]; [reflexivity|]. rewrite nexts_S, Es. cbn [fst snd repeat]. f_equal. apply nones_samples; assumption.
    - assert (runs step (mkFs s block_empty 0 0 false) (map (fun x => Ok (Some x)) (map ROk (concat ls) ++ [RErr e]))
                (mkFs s' block_empty 0 0 true)) as HR2.
      { rewrite map_app, map_map. eapply runs_app; [exact HRn|]. apply runs_one. exact Es. }
      split.
      + eapply runs_yields; [exact HR2|]. intros n. rewrite failed_forever by reflexivity. reflexivity.
      + intros n Hn. replace n with (length (map (fun x : result Z => @Ok (option (result Z)) (Some x)) (map ROk (concat ls) ++ [RErr e])) + (n - length (concat ls) - 1))%nat
          by (rewrite map_length, app_length, map_length; cbn [length]; lia).
        rewrite nexts_app. cbn [snd]. unfold runs in HR2. rewrite HR2. cbn [snd]. rewrite failed_forever by reflexivity. reflexivity.
    - eapply X; [exact Es|discriminate].
    - eapply X; [exact Es|discriminate].
    - eapply X; [exact Es|discriminate].
  Qed.
End Streams.
