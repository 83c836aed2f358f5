(** The stereo sample iterator. *)
From Verif Require Export ProofSafe ModelFrame.

Lemma map_repeat {A B} (f : A -> B) x n : map f (repeat x n) = repeat (f x) n.
Proof. induction n; cbn; congruence. Qed.

Section Stereo.
  Context (m : build) (l1 l2 rest : list Z) (dur : Z).
  Context (H1 : len l1 = dur) (H2 : len l2 = dur) (Hd : 0 <= dur < 2 ^ 32).

  Notation st k := (mkStereo (l1 ++ l2 ++ rest) dur (Z.of_nat k)).

  Lemma stereo_some k a b : nth_error l1 k = Some a -> nth_error l2 k = Some b ->
    stereo_next m (st k) = (Ok (Some (a, b)), st (S k)).
  Proof.
    intros Ea Eb. unfold stereo_next. rewrite bind_get. cbn [ss_current_sample ss_block_duration ss_buffer].
    assert (k < length l1)%nat as Hk by (apply nth_error_Some; congruence).
    unfold len in *.
    destruct (Z.eqb_spec (Z.of_nat k) dur); [lia|].
    unfold index_unchecked at 1. destruct (Z.leb_spec 0 (Z.of_nat k)); [|lia].
    rewrite Nat2Z.id, nth_error_app1, Ea by lia. rewrite bind_lift_ok.
    unfold index_unchecked. destruct (Z.leb_spec 0 (Z.of_nat k + dur)); [|lia].
    replace (Z.to_nat (Z.of_nat k + dur)) with (length l1 + k)%nat by lia.
    rewrite nth_error_app2 by lia. replace (length l1 + k - length l1)%nat with k by lia.
    rewrite nth_error_app1, Eb by lia. rewrite bind_lift_ok.
    rewrite chk_u32 by lia. rewrite bind_lift_ok. unfold put, bind, ret.
    do 2 f_equal. lia.
  Qed.

  Lemma stereo_none : stereo_next m (st (length l1)) = (Ok None, st (length l1)).
  Proof.
    unfold stereo_next. rewrite bind_get. cbn [ss_current_sample ss_block_duration].
    unfold len in *. destruct (Z.eqb_spec (Z.of_nat (length l1)) dur); [reflexivity|lia].
  Qed.

  Definition stereos (k : nat) := history_all (fun _ : unit => stereo_next m) (repeat tt k).

  Lemma stereo_nones n : fst (stereos n (st (length l1))) = repeat (Ok None) n.
  Proof.
    induction n as [|n IH]; unfold stereos in *; cbn [repeat history_all]; [reflexivity|].
    rewrite stereo_none.
    destruct (history_all _ (repeat tt n) _) as [rs s]. cbn [fst] in *. congruence.
  Qed.

  Lemma stereo_nexts n : forall k, (k <= length l1)%nat ->
    fst (stereos n (st k))
    = map (fun o => Ok o) (firstn n (map Some (skipn k (combine l1 l2)) ++ repeat None n)).
  Proof.
    induction n as [|n IH]; intros k Hk; [reflexivity|].
    assert (length l1 = length l2) as HL by (unfold len in *; lia).
    destruct (Nat.eq_dec k (length l1)) as [->|Hne].
    - rewrite stereo_nones. rewrite skipn_all2 by (rewrite combine_length; lia).
      cbn [map app]. rewrite firstn_all2 by (rewrite repeat_length; lia).
      rewrite map_repeat. reflexivity.
    - destruct (nth_error l1 k) as [a|] eqn:Ea; [|apply nth_error_None in Ea; lia].
      destruct (nth_error l2 k) as [b|] eqn:Eb; [|apply nth_error_None in Eb; lia].
      unfold stereos in *. cbn [repeat history_all]. rewrite (stereo_some k a b Ea Eb).
      specialize (IH (S k) ltac:(lia)).
      destruct (history_all _ (repeat tt n) _) as [rs s]. cbn [fst] in *. rewrite IH.
      assert (skipn k (combine l1 l2) = (a, b) :: skipn (S k) (combine l1 l2)) as ->.
      { clear -Ea Eb. revert l1 l2 Ea Eb.
        induction k as [|k IH]; intros [|x l1] [|y l2] Ea Eb; try discriminate.
        - cbn in *. congruence.
        - cbn [combine]. change (skipn (S k) ((x, y) :: combine l1 l2)) with (skipn k (combine l1 l2)).
          rewrite (IH l1 l2 Ea Eb). reflexivity. }
      cbn [map app firstn]. f_equal. f_equal.
      rewrite !firstn_app. f_equal.
      rewrite repeat_cons. rewrite firstn_app, repeat_length.
      replace (n - _ - n)%nat with 0%nat by lia. cbn [firstn]. rewrite app_nil_r. reflexivity.
  Qed.
End Stereo.

Lemma stereo_split b st : 0 <= bl_block_size b -> block_stereo_samples b = Ok st ->
  exists l1 l2 rest, v_items (bl_buffer b) = l1 ++ l2 ++ rest
    /\ len l1 = bl_block_size b /\ len l2 = bl_block_size b
    /\ st = mkStereo (l1 ++ l2 ++ rest) (bl_block_size b) 0.
Proof.
  intros Hb. unfold block_stereo_samples. destruct (negb _); [discriminate|].
  destruct (Z.leb_spec (bl_block_size b * 2) (len (v_items (bl_buffer b)))) as [Hl|]; [|discriminate].
  intros E. set (l := v_items (bl_buffer b)) in *. set (n := Z.to_nat (bl_block_size b)).
  exists (firstn n l), (firstn n (skipn n l)), (skipn n (skipn n l)).
  rewrite !firstn_skipn. split; [reflexivity|]. unfold len in *.
  rewrite !firstn_length, skipn_length. split; [lia|]. split; [lia|]. congruence.
Qed.

Theorem stereo_safe m b st n : 0 <= bl_block_size b < 2 ^ 32 -> block_stereo_samples b = Ok st ->
  Forall value_or_error (fst (history_all (fun _ : unit => stereo_next m) (repeat tt n) st)).
Proof.
  intros Hb E. destruct (stereo_split b st ltac:(lia) E) as (l1 & l2 & rest & _ & H1 & H2 & ->).
  fold (stereos m n). change 0 with (Z.of_nat 0).
  rewrite (stereo_nexts m l1 l2 rest _ H1 H2) by lia.
  apply Forall_map, Forall_forall. intros x _. apply voe_ok.
Qed.
