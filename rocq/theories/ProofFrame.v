(** Frames, part 1: the decoding of the channels refines a bit parser. *)
From Verif Require Export ProofHeader3 ProofSubframe ProofArith.
From Verif Require Import SpecReader.

Lemma wrap32_i32 x : wrap32 x = i32 x.
Proof. reflexivity. Qed.

Section Channels.
  Context (t : tail) (m : build).

  Definition p_channels (ca : assignment) (bps : Z) (n : nat) : P (list (list Z)) :=
    match ca with
    | Separate k => p_repeat (Z.to_nat k) (p_subframe t m bps n)
    | LeftSide =>
        l <- p_subframe t m bps n ;;
        s <- p_subframe t m (bps + 1) n ;;
        ret [l; map2 (fun l s => wrap32 (l - s)) l s]
    | SideRight =>
        s <- p_subframe t m (bps + 1) n ;;
        r <- p_subframe t m bps n ;;
        ret [map2 (fun s r => wrap32 (s + r)) s r; r]
    | MidSide =>
        a <- p_subframe t m bps n ;;
        s <- p_subframe t m (bps + 1) n ;;
        ret [map2 mid_left a s; map2 mid_right a s]
    end.

  (** ** Against the grammar *)
  Lemma channels_sound ca bps n : 1 <= bps <= 31 -> assignment_ok ca ->
    sound m (p_channels ca bps n) (channels_code bps n ca).
  Proof.
    intros Hb Hca s chs s' Hf E. destruct ca as [k| | |]; cbn [p_channels assignment_ok] in *.
    - eapply repeat_sound in E; [|apply subframe_sound; lia|exact Hf].
      destruct E as (w & -> & Hl & ws & HF & ->). exists (concat ws). split; [reflexivity|].
      constructor; [lia|exact HF].
    - apply bind_ok in E as (x & s1 & E1 & E). apply bind_ok in E as (y & s2 & E2 & E).
      apply subframe_sound in E1 as (w1 & -> & G1); [|lia|exact Hf].
      apply subframe_sound in E2 as (w2 & -> & G2); [|lia|eapply fine_app, Hf].
      injection E as <- <-. exists (w1 ++ w2). split; [apply app_assoc|]. constructor; assumption.
    - apply bind_ok in E as (x & s1 & E1 & E). apply bind_ok in E as (y & s2 & E2 & E).
      apply subframe_sound in E1 as (w1 & -> & G1); [|lia|exact Hf].
      apply subframe_sound in E2 as (w2 & -> & G2); [|lia|eapply fine_app, Hf].
      injection E as <- <-. exists (w1 ++ w2). split; [apply app_assoc|]. constructor; assumption.
    - apply bind_ok in E as (x & s1 & E1 & E). apply bind_ok in E as (y & s2 & E2 & E).
      apply subframe_sound in E1 as (w1 & -> & G1); [|lia|exact Hf].
      apply subframe_sound in E2 as (w2 & -> & G2); [|lia|eapply fine_app, Hf].
      injection E as <- <-. exists (w1 ++ w2). split; [apply app_assoc|]. constructor; assumption.
  Qed.
  Lemma channels_complete ca bps n : complete (p_channels ca bps n) (channels_code bps n ca).
  Proof.
    intros w chs s' H. destruct H; cbn [p_channels].
    - replace (Z.to_nat k) with (length chs) by lia.
      apply (repeat_complete _ _ (subframe_complete t m bps n)). assumption.
    - unfold bind. rewrite <- app_assoc, (subframe_complete t m bps n _ left) by assumption.
      rewrite (subframe_complete t m (bps + 1) n _ side) by assumption. reflexivity.
    - unfold bind. rewrite <- app_assoc, (subframe_complete t m (bps + 1) n _ side) by assumption.
      rewrite (subframe_complete t m bps n _ right) by assumption. reflexivity.
    - unfold bind. rewrite <- app_assoc, (subframe_complete t m bps n _ mid) by assumption.
      rewrite (subframe_complete t m (bps + 1) n _ side) by assumption. reflexivity.
  Qed.
  Lemma channels_total ca bps n : total m (p_channels ca bps n).
  Proof.
    destruct ca; cbn [p_channels].
    - apply repeat_total, subframe_total.
    - apply safe_bind; [apply subframe_total|intros]. apply safe_bind; [apply subframe_total|intros]. apply safe_ret.
    - apply safe_bind; [apply subframe_total|intros]. apply safe_bind; [apply subframe_total|intros]. apply safe_ret.
    - apply safe_bind; [apply subframe_total|intros]. apply safe_bind; [apply subframe_total|intros]. apply safe_ret.
  Qed.

  Lemma map2_length f l r : length l = length r -> length (map2 f l r) = length l.
  Proof. intros H. unfold map2. rewrite map_length, combine_length. lia. Qed.

  Lemma channels_lengths ca bps n s chs s' : 1 <= bps <= 31 -> assignment_ok ca ->
    p_channels ca bps n s = (Ok chs, s') ->
    Z.of_nat (length chs) = channel_count ca /\ Forall (fun c => length c = n) chs.
  Proof.
    intros Hb Hca E. destruct ca as [k| | |]; cbn [p_channels assignment_ok channel_count] in *.
    - split; [apply p_repeat_length in E; lia|].
      eapply p_repeat_Forall, E. intros ? ? ? E'. apply p_subframe_ok in E' as [? _]; [assumption|lia].
    - apply bind_ok in E as (x & s1 & E1 & E). apply bind_ok in E as (y & s2 & E2 & E).
      apply p_subframe_ok in E1 as [L1 _]; [|lia]. apply p_subframe_ok in E2 as [L2 _]; [|lia].
      injection E as <- <-. split; [reflexivity|]. repeat constructor; rewrite ?map2_length; congruence.
    - apply bind_ok in E as (x & s1 & E1 & E). apply bind_ok in E as (y & s2 & E2 & E).
      apply p_subframe_ok in E1 as [L1 _]; [|lia]. apply p_subframe_ok in E2 as [L2 _]; [|lia].
      injection E as <- <-. split; [reflexivity|]. repeat constructor; rewrite ?map2_length; congruence.
    - apply bind_ok in E as (x & s1 & E1 & E). apply bind_ok in E as (y & s2 & E2 & E).
      apply p_subframe_ok in E1 as [L1 _]; [|lia]. apply p_subframe_ok in E2 as [L2 _]; [|lia].
      injection E as <- <-. split; [reflexivity|]. repeat constructor; rewrite ?map2_length; congruence.
  Qed.
  Lemma concat_length (n : nat) (chs : list (list Z)) : Forall (fun c => length c = n) chs ->
    length (concat chs) = (length chs * n)%nat.
  Proof. induction 1; cbn [concat length]; [reflexivity|]. rewrite app_length. lia. Qed.

  (** ** The decoder on lists of bytes *)
  Section Refine.
    Context (fuel : nat).
    Notation rb := (fl_rb t).
    Notation R := (bitsrel fuel).
    Notation simE := (sim no_esc R eq).

    Lemma decode_into_left bps pre mid post a b : 1 <= bps <= 32 -> 1 <= len mid <= 65535 ->
      a = len pre -> b = len pre + len mid ->
      sim no_esc R (fun x s => x = pre ++ s ++ post /\ samples_ok (length mid) s)
        (decode_into rb m fuel bps (pre ++ mid ++ post) a b) (p_subframe t m bps (length mid)).
    Proof.
      intros Hb Hl Ha Hb'. unfold decode_into. rewrite (slice_app pre mid post) by assumption.
      eapply sim_ext; [intros; apply bind_lift_ok|reflexivity|]. cbv beta. intros st bits HR.
      pose proof (ProofSub2.subframe_sim t m fuel bps mid Hb Hl st bits HR) as H.
      unfold bind. destruct (decode rb m fuel bps mid st) as [o st'].
      destruct o; cbn [fst snd] in *; auto.
      destruct H as (s & E & [-> Hs] & HR'). cbn [ret fst snd]. exists s. split; [exact E|].
      split; [|exact HR']. split; [|exact Hs]. apply splice_app; [exact Ha|apply Hs].
    Qed.

    Lemma independent_left bps bs n : 1 <= bps <= 32 -> 1 <= bs <= 65535 -> forall done ch buffer rest,
      buffer = done ++ rest -> len done = ch * bs -> len rest = Z.of_nat n * bs ->
      sim no_esc R (fun x chs => x = done ++ concat chs)
        (independent_loop rb m fuel bps bs n ch buffer)
        (p_repeat n (p_subframe t m bps (Z.to_nat bs))).
    Proof.
      intros Hb Hbs. induction n as [|n IH]; intros done ch buffer rest -> Hd Hr;
        cbn [independent_loop p_repeat].
      - apply sim_ret. cbn [concat]. destruct rest; [reflexivity|rewrite len_cons in Hr; pose proof (len_nonneg rest); lia].
      - assert (exists mid post, rest = mid ++ post /\ len mid = bs /\ len post = Z.of_nat n * bs) as (mid & post & -> & Hm & Hp).
        { exists (firstn (Z.to_nat bs) rest), (skipn (Z.to_nat bs) rest).
          split; [symmetry; apply firstn_skipn|]. unfold len in *. rewrite firstn_length, skipn_length. lia. }
        eapply sim_bind.
        + replace (Z.to_nat bs) with (length mid) by (unfold len in Hm; lia).
          apply decode_into_left; lia.
        + intros x s [-> [Hs _]].
          apply (sim_ext no_esc R _ _ _
                   (bind (independent_loop rb m fuel bps bs n (ch + 1) (done ++ s ++ post)) ret)
                   (bind (p_repeat n (p_subframe t m bps (Z.to_nat bs))) (fun xs => ret (s :: xs))));
            [intros st; rewrite bind_ret; reflexivity|reflexivity|].
          eapply sim_bind.
          * apply (IH (done ++ s) (ch + 1) _ post); [apply app_assoc| |exact Hp].
            rewrite len_app, Hd. unfold len in *. lia.
          * intros y chs ->. apply sim_ret. cbn [concat]. symmetry. apply app_assoc.
    Qed.

    Lemma map2_map f l r :
      map (fun p => f (fst p) (snd p)) (combine l r) = map2 f l r.
    Proof. reflexivity. Qed.
    Lemma mid_model a s :
      Z.quot (i32 (Z.lor (i32 (a * 2)) (Z.land s 1) + s)) 2 = mid_left a s
      /\ Z.quot (i32 (Z.lor (i32 (a * 2)) (Z.land s 1) - s)) 2 = mid_right a s.
    Proof.
      change 1 with (2 ^ 1 - 1). rewrite land_low by lia. change (2 ^ 1) with 2.
      assert (exists k, i32 (a * 2) = 2 * (a + k * 2 ^ 31)) as [k Hk].
      { exists (- ((a * 2 + 2 ^ 31) / 2 ^ 32)). unfold i32.
        pose proof (Z.div_mod (a * 2 + 2 ^ 31) (2 ^ 32) ltac:(lia)). lia. }
      rewrite Hk, lor_low_bit. unfold mid_left, mid_right. change wrap32 with i32.
      assert (forall x, i32 (x + k * 2 ^ 32) = i32 x) as Hi.
      { intros x. unfold i32. replace (x + k * 2 ^ 32 + 2 ^ 31) with (x + 2 ^ 31 + k * 2 ^ 32) by lia.
        rewrite Z.mod_add by lia. reflexivity. }
      assert (forall x, x mod 2 = 0 -> Z.quot (i32 x) 2 = i32 x / 2) as Hq.
      { intros x Hx. assert (i32 x mod 2 = 0) as H0.
        { unfold i32. pose proof (Z.div_mod (x + 2 ^ 31) (2 ^ 32) ltac:(lia)). lia. }
        generalize dependent (i32 x). intros y Hy.
        assert (y = 2 * (y / 2)) as Ey by lia. rewrite Ey at 1.
        rewrite Z.mul_comm, Z.quot_mul by lia. reflexivity. }
      replace (2 * (a + k * 2 ^ 31) + s mod 2 + s) with (2 * a + s mod 2 + s + k * 2 ^ 32) by lia.
      replace (2 * (a + k * 2 ^ 31) + s mod 2 - s) with (2 * a + s mod 2 - s + k * 2 ^ 32) by lia.
      rewrite !Hi, !Hq by lia. auto.
    Qed.

    Lemma stereo_left (f : list Z -> list Z) (bps1 bps2 bs : Z) buffer
        (k : list Z -> list Z -> list (list Z)) :
      1 <= bps1 <= 32 -> 1 <= bps2 <= 32 -> 1 <= bs <= 65535 -> len buffer = 2 * bs ->
      (forall a b, length a = length b ->
         f (a ++ b) = concat (k a b) /\ length (concat (k a b)) = length (a ++ b)) ->
      sim no_esc R (fun x chs => x = concat chs)
        (buffer <- decode_into rb m fuel bps1 buffer 0 bs ;;
         buffer <- decode_into rb m fuel bps2 buffer bs (bs * 2) ;;
         lift (on_prefix f buffer (bs * 2)))
        (a <- p_subframe t m bps1 (Z.to_nat bs) ;;
         b <- p_subframe t m bps2 (Z.to_nat bs) ;; ret (k a b)).
    Proof.
      intros Hb1 Hb2 Hbs Hl Hf.
      assert (exists b1 b2, buffer = b1 ++ b2 /\ len b1 = bs /\ len b2 = bs) as (b1 & b2 & -> & H1 & H2).
      { exists (firstn (Z.to_nat bs) buffer), (skipn (Z.to_nat bs) buffer).
        split; [symmetry; apply firstn_skipn|]. unfold len in *. rewrite firstn_length, skipn_length. lia. }
      eapply sim_bind.
      - replace (Z.to_nat bs) with (length b1) by (unfold len in H1; lia).
        apply (decode_into_left bps1 [] b1 b2); [lia|lia|reflexivity|cbn; lia].
      - intros x a [-> [La _]]. cbn [app].
        replace (a ++ b2) with (a ++ b2 ++ []) by (rewrite app_nil_r; reflexivity).
        eapply sim_bind.
        + replace (Z.to_nat bs) with (length b2) by (unfold len in H2; lia).
          apply (decode_into_left bps2 a b2 []); unfold len in *; lia.
        + intros x b [-> [Lb _]]. unfold on_prefix.
          destruct (Hf a b ltac:(unfold len in *; lia)) as [Hf1 Hf2].
          replace (a ++ b ++ []) with ([] ++ (a ++ b) ++ []) by (cbn [app]; rewrite !app_nil_r; reflexivity).
          rewrite (slice_app [] (a ++ b) []); [|reflexivity|unfold len in *; rewrite app_length; cbn; lia].
          cbn [obind]. rewrite (splice_app [] (a ++ b) []); [|reflexivity|congruence].
          change (@lift (bitstream (list Z)) (list Z) (Ok ?x)) with (@ret (bitstream (list Z)) (list Z) x).
          apply sim_ret. cbn [app]. rewrite app_nil_r. exact Hf1.
    Qed.

    Lemma channels_left ca bps bs buffer : 1 <= bps <= 31 -> assignment_ok ca -> 1 <= bs <= 65535 ->
      len buffer = channel_count ca * bs ->
      sim no_esc R (fun x chs => x = concat chs)
        (decode_channels rb m fuel (fh_assign ca) bps bs buffer) (p_channels ca bps (Z.to_nat bs)).
    Proof.
      intros Hb Hca Hbs Hl.
      destruct ca as [k| | |]; cbn [fh_assign decode_channels p_channels channel_count assignment_ok] in *.
      - apply (independent_left bps bs (Z.to_nat k) ltac:(lia) Hbs [] 0 buffer buffer); [reflexivity|reflexivity|lia].
      - rewrite chk_u32 by lia.
        apply (stereo_left decode_left_side bps (bps + 1) bs buffer
                 (fun l s => [l; map2 (fun l s => wrap32 (l - s)) l s])); try lia.
        intros a b E. split; [|cbn [concat]; rewrite app_nil_r, !app_length, map2_length by exact E; lia].
        unfold decode_left_side. rewrite halves_update_app by exact E. cbn [fst snd concat].
        rewrite (map_fst_combine a b E), app_nil_r. reflexivity.
      - rewrite chk_u32 by lia.
        apply (stereo_left decode_right_side (bps + 1) bps bs buffer
                 (fun s r => [map2 (fun s r => wrap32 (s + r)) s r; r])); try lia.
        intros a b E. split; [|cbn [concat]; rewrite app_nil_r, !app_length, map2_length by exact E; lia].
        unfold decode_right_side. rewrite halves_update_app by exact E. cbn [fst snd concat].
        rewrite (map_snd_combine a b E), app_nil_r. reflexivity.
      - rewrite chk_u32 by lia.
        apply (stereo_left decode_mid_side bps (bps + 1) bs buffer
                 (fun a s => [map2 mid_left a s; map2 mid_right a s])); try lia.
        intros a b E. split; [|cbn [concat]; rewrite app_nil_r, !app_length, !map2_length by exact E; lia].
        unfold decode_mid_side. rewrite halves_update_app by exact E. cbn [concat]. rewrite app_nil_r.
        unfold map2. f_equal; apply map_ext; intros [x y]; cbn [fst snd]; apply (mid_model x y).
    Qed.
  End Refine.
End Channels.
