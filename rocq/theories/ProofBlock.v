(** Blocks and their accessors. *)
From Verif Require Export ProofFrames.
From Verif Require Import SpecReader.

(** ** Equal pieces *)
Lemma concat_len (chs : list (list Z)) n : Forall (fun c => len c = n) chs -> len (concat chs) = len chs * n.
Proof.
  induction 1 as [|c chs Hc H IH]; [reflexivity|]. cbn [concat]. rewrite len_app, len_cons, IH, Hc. lia.
Qed.
Lemma concat_split (chs : list (list Z)) n k c : Forall (fun c => len c = n) chs -> nth_error chs k = Some c ->
  exists a b, concat chs = a ++ c ++ b /\ len a = Z.of_nat k * n.
Proof.
  intros HF. revert k. induction HF as [|c0 chs Hc H IH]; intros k E; [destruct k; discriminate|].
  destruct k as [|k]; cbn [nth_error] in E.
  - injection E as ->. exists [], (concat chs). split; [reflexivity|]. cbn. lia.
  - destruct (IH k E) as (a & b & E1 & Ha). exists (c0 ++ a), b. cbn [concat]. rewrite E1, <- !app_assoc.
    split; [reflexivity|]. rewrite len_app, Ha, Hc. lia.
Qed.

Section Accessors.
  Context (b : block) (chs : list (list Z)) (H : block_holds b chs).

  Lemma holds_items : len (v_items (bl_buffer b)) = block_channels b * block_duration b.
  Proof. destruct H as (_ & _ & Hc & HF & Hi). unfold block_into_buffer in Hi. rewrite Hi, Hc. apply concat_len, HF. Qed.
  Lemma holds_len m : block_len m b = Ok (block_duration b * block_channels b).
  Proof.
    destruct H as (H1 & H2 & _). unfold block_len, block_duration, block_channels in *.
    rewrite chk_u32; [reflexivity|nia].
  Qed.
  Lemma holds_channel k c : nth_error chs k = Some c -> block_channel b (Z.of_nat k) = Ok c.
  Proof.
    intros E. destruct H as (H1 & H2 & Hc & HF & Hi).
    destruct (concat_split chs _ k c HF E) as (x & y & E1 & Hx).
    unfold block_channel, block_into_buffer, block_duration in *. rewrite Hi, E1.
    apply slice_app; [lia|]. rewrite Hx.
    rewrite Forall_forall in HF. rewrite (HF c (nth_error_In _ _ E)). lia.
  Qed.
  Lemma holds_no_channel k : block_channels b <= k -> exists w, block_channel b k = Panic w.
  Proof.
    intros Hk. pose proof holds_items as Hl. destruct H as (H1 & H2 & Hc & HF & Hi).
    unfold block_channel. exists "slice index out of range"%string. apply slice_panic. intros [_ H4].
    unfold block_duration in *. nia.
  Qed.
  Lemma holds_sample k c i x : nth_error chs k = Some c -> nth_error c i = Some x ->
    block_sample b (Z.of_nat k) (Z.of_nat i) = Ok x.
  Proof.
    intros E Ex. destruct H as (H1 & H2 & Hc & HF & Hi).
    destruct (concat_split chs _ k c HF E) as (u & v & E1 & Hx).
    unfold block_sample, block_into_buffer, block_duration in *. rewrite Hi, E1.
    apply nth_error_split in Ex as (a & a' & -> & Ha). rewrite <- !app_assoc, app_assoc. cbn [app].
    apply index_app. rewrite len_app, Hx. unfold len. lia.
  Qed.
  Lemma holds_sample_any k i : 0 <= k -> 0 <= i ->
    (exists x, block_sample b k i = Ok x) /\ k * block_duration b + i < block_duration b * block_channels b
    \/ (exists w, block_sample b k i = Panic w) /\ block_duration b * block_channels b <= k * block_duration b + i.
  Proof.
    intros Hk Hi0. pose proof holds_items as Hl. destruct H as (H1 & H2 & Hc & HF & Hi).
    unfold block_sample, index. unfold block_duration in *.
    replace (0 <=? k * bl_block_size b + i) with true by nia.
    destruct (nth_error _ _) eqn:E.
    - left. split; [eauto|]. assert (Z.to_nat (k * bl_block_size b + i) < length (v_items (bl_buffer b)))%nat
        by (apply nth_error_Some; congruence). unfold len in *. nia.
    - right. split; [eauto|]. apply nth_error_None in E. unfold len in *. nia.
  Qed.

  Lemma holds_stereo c0 c1 : chs = [c0; c1] -> exists st, block_stereo_samples b = Ok st
    /\ forall m, yields (stereo_next m) st (combine c0 c1).
  Proof.
    intros Ec. pose proof holds_items as Hl. pose proof H as (H1 & H2 & Hc & HF & Hi).
    rewrite Ec in Hc, HF, Hi.
    unfold block_stereo_samples. unfold block_channels, block_duration, block_into_buffer in *.
    change (len [c0; c1]) with 2 in Hc. rewrite Hc in *. change (negb (2 =? 2)) with false. cbv iota.
    replace (bl_block_size b * 2 <=? len (v_items (bl_buffer b))) with true by lia.
    eexists. split; [reflexivity|]. intros m n. rewrite Hi. cbn [concat].
    inversion HF as [|? ? Hc0 HF1]; subst. inversion HF1 as [|? ? Hc1 _]; subst.
    change 0 with (Z.of_nat 0). unfold nexts.
    fold (stereos m n). rewrite (stereo_nexts m c0 c1 [] _ Hc0 Hc1 ltac:(lia)) by lia.
    rewrite <- firstn_map, map_app, map_map, map_repeat. reflexivity.
  Qed.
  Lemma holds_no_stereo : block_channels b <> 2 -> exists w, block_stereo_samples b = Panic w.
  Proof.
    intros Hn. unfold block_stereo_samples. unfold block_channels in Hn.
    replace (bl_channels b =? 2) with false by lia. cbn [negb]. eauto.
  Qed.
End Accessors.

Lemma shows_holds b h chs w : header_code h w -> block_shows b h chs -> block_holds b chs.
Proof.
  intros Hh (_ & Hd & Hc & Hn & HF & Hi).
  destruct (header_decent h w Hh) as (Hs & Ha & _).
  split; [|split; [|split; [|split]]].
  - rewrite Hc. destruct (h_assignment h); cbn in *; lia.
  - rewrite Hd. exact Hs.
  - congruence.
  - rewrite Hd. exact HF.
  - exact Hi.
Qed.

Lemma channels_unique b chs chs' : block_holds b chs -> block_holds b chs' -> chs = chs'.
Proof.
  intros (_ & _ & H1 & HF & Hi) (_ & _ & H1' & HF' & Hi').
  assert (length chs = length chs') as HL by (unfold len in *; lia). rewrite Hi in Hi'.
  clear H1 Hi H1'. revert chs' HF' HL Hi'. induction HF as [|c chs Hc HF IH]; intros [|c' chs'] HF' HL E; try discriminate; [reflexivity|].
  inversion HF' as [|? ? Hc' HF1]; subst. cbn [concat] in E.
  apply app_inj_length in E as [-> E]; [|unfold len in *; lia]. f_equal. apply IH; auto.
Qed.

Section Blocks.
  Context {S : Type} (rb : ReadBytes S) (t : tail) (D : S -> list Z -> Prop) (HS : stream rb t D).
  Context (m : build) (fuel : nat).
  Notation next := (read_next_or_eof rb m fuel).

  (** Any block that is returned. *)
  Lemma next_holds buffer st l b st' : D st l -> (length l < fuel)%nat -> next buffer st = (Ok (Some b), st') ->
    exists chs, block_holds b chs.
  Proof.
    intros HD Hf E. destruct (frame_block rb t D HS m fuel buffer st l b st' HD Hf E) as (h & chs & hw & rest & _ & Hh & Hs).
    exists chs. eapply shows_holds; eassumption.
  Qed.
  Lemma next_shrinks buffer st l b st' : D st l -> (length l < fuel)%nat -> next buffer st = (Ok (Some b), st') ->
    exists l', D st' l' /\ (length l' < length l)%nat.
  Proof.
    intros HD Hf E. destruct (frame_checksums rb t D HS m fuel buffer st l b st' HD Hf E)
      as (front & c8 & body & c16 & rest & -> & HD' & _).
    exists rest. split; [exact HD'|]. rewrite !app_length. cbn. lia.
  Qed.
End Blocks.
