(** The encoder's output is in the format. *)
From Verif Require Export SpecEncode ProofSamples.
From Verif Require Import SpecReader.

(** ** Checksums *)
Section Crc.
  Context (w g : Z) (Hw : 0 < w) (Hg : 2 ^ w <= g < 2 ^ (w + 1)).

  Lemma crc_step_ok a r b : 0 <= r < 2 ^ w -> 0 <= a -> divides g (Z.lxor a r) ->
    0 <= crc_step w g r b < 2 ^ w /\ divides g (Z.lxor (2 * a + Z.b2z b) (crc_step w g r b)).
  Proof.
    intros Hr Ha H. unfold crc_step.
    assert (2 ^ (w + 1) = 2 * 2 ^ w) as Ep by (rewrite Z.pow_add_r by lia; lia).
    assert (divides g (Z.lxor (2 * a + Z.b2z b) (2 * r + Z.b2z b))) as H2.
    { rewrite lxor_step. replace (xorb b b) with false by (destruct b; reflexivity). cbn [Z.b2z]. rewrite Z.add_0_r, Z.mul_comm.
      apply (divides_shift g _ 1); [lia|exact H]. }
    assert (0 <= Z.b2z b <= 1) as Hb by (destruct b; cbn [Z.b2z]; lia).
    destruct (Z.leb_spec (2 ^ w) (2 * r + Z.b2z b)) as [Hl|Hl]; [|split; [lia|exact H2]].
    split.
    - assert (0 <= Z.lxor (2 * r + Z.b2z b) g) as H0 by (apply Z.lxor_nonneg; lia).
      split; [exact H0|].
      assert (Z.lxor (2 * r + Z.b2z b) g = Z.lxor (2 * r + Z.b2z b - 2 ^ w) (g - 2 ^ w)) as ->.
      { assert (forall x, 2 ^ w <= x < 2 ^ (w + 1) -> x = Z.lxor (2 ^ w) (x - 2 ^ w)) as X.
        { clear - Hw Ep. intros x Hx. pose proof (add_lxor 1 (x - 2 ^ w) w ltac:(lia) ltac:(lia)) as E.
          rewrite Z.mul_1_l in E. rewrite <- E. lia. }
        rewrite (X (2 * r + Z.b2z b)) at 1 by lia. rewrite (X g) at 1 by lia.
        rewrite <- Z.lxor_assoc. rewrite (Z.lxor_comm (2 ^ w) (_ - _)), (Z.lxor_assoc _ (2 ^ w) (2 ^ w)), Z.lxor_nilpotent, Z.lxor_0_r. reflexivity. }
      apply lxor_range; lia.
    - rewrite <- Z.lxor_assoc. apply divides_lxor; [exact H2|]. exists 1. split; [lia|reflexivity].
  Qed.
  Lemma crc_fold l : forall a r, 0 <= r < 2 ^ w -> 0 <= a -> divides g (Z.lxor a r) ->
    0 <= fold_left (crc_step w g) l r < 2 ^ w
    /\ divides g (Z.lxor (a * 2 ^ len l + be_value l) (fold_left (crc_step w g) l r)).
  Proof.
    induction l as [|b l IH]; intros a r Hr Ha H; cbn [fold_left].
    - change (2 ^ len []) with 1. change (be_value []) with 0. rewrite Z.mul_1_r, Z.add_0_r. auto.
    - destruct (crc_step_ok a r b Hr Ha H) as [H1 H2].
      destruct (IH (2 * a + Z.b2z b) _ H1 ltac:(destruct b; cbn [Z.b2z]; lia) H2) as [H3 H4]. split; [exact H3|].
      replace (a * 2 ^ len (b :: l) + be_value (b :: l)) with ((2 * a + Z.b2z b) * 2 ^ len l + be_value l); [exact H4|].
      rewrite be_value_cons, len_cons, Z.pow_add_r by (unfold len; lia). lia.
  Qed.
  Lemma crc_of_ok l : is_crc w g l (crc_of w g l).
  Proof.
    unfold is_crc, crc_of.
    destruct (crc_fold (bytes_bits l ++ repeat false (Z.to_nat w)) 0 0 ltac:(lia) ltac:(lia) ltac:(exists 0; split; [lia|reflexivity])) as [H1 H2].
    split; [exact H1|]. rewrite Z.mul_0_l, Z.add_0_l in H2.
    rewrite be_value_app, be_value_zeros, Z.add_0_r in H2. unfold len in H2. rewrite repeat_length, Z2Nat.id in H2 by lia. exact H2.
  Qed.
End Crc.
Lemma crc8_encoded l : is_crc 8 poly8 l (crc_of 8 poly8 l).
Proof. apply crc_of_ok; [lia|unfold poly8; lia]. Qed.
Lemma crc16_encoded l : is_crc 16 poly16 l (crc_of 16 poly16 l).
Proof. apply crc_of_ok; [lia|unfold poly16; lia]. Qed.

(** ** Subframes *)
Lemma fits_i32 bps x : bps <= 32 -> fits bps x -> - 2 ^ 31 <= x < 2 ^ 31.
Proof.
  unfold fits. intros Hb Hx. destruct (Z.lt_ge_cases bps 1) as [H|H].
  - rewrite Z.pow_neg_r in Hx by lia. lia.
  - assert (2 ^ (bps - 1) <= 2 ^ 31) by (apply Z.pow_le_mono_r; lia). lia.
Qed.
Lemma wrap32_id x : - 2 ^ 31 <= x < 2 ^ 31 -> wrap32 x = x.
Proof. intros H. unfold wrap32, signed. change (32 - 1) with 31. destruct (Z.ltb_spec (x mod 2 ^ 32) (2 ^ 31)); lia. Qed.

Lemma pieces_length lens : forall l, length (pieces lens l) = length lens.
Proof. induction lens; intros l; cbn [pieces length]; [reflexivity|]. rewrite IHlens. reflexivity. Qed.
Lemma pieces_ok lens : forall l, length l = list_sum lens ->
  Forall2 (fun n p => length p = n) lens (pieces lens l) /\ concat (pieces lens l) = l.
Proof.
  induction lens as [|n lens IH]; intros l Hl; cbn [pieces concat].
  - split; [constructor|]. destruct l; [reflexivity|discriminate].
  - change (list_sum (n :: lens)) with (n + list_sum lens)%nat in Hl.
    destruct (IH (skipn n l)) as [H1 H2]; [rewrite skipn_length; lia|].
    split; [constructor; [rewrite firstn_length; lia|exact H1]|]. rewrite H2. apply firstn_skipn.
Qed.
Lemma pieces_Forall (P : Z -> Prop) lens : forall l, Forall P l -> Forall (Forall P) (pieces lens l).
Proof.
  induction lens as [|n lens IH]; intros l H; cbn [pieces]; constructor.
  - apply Forall_firstn, H.
  - apply IH, Forall_skipn, H.
Qed.
Lemma sum_repeat n k : list_sum (repeat n k) = (k * n)%nat.
Proof. induction k; cbn [repeat]; [reflexivity|]. change (list_sum (n :: repeat n k)) with (n + list_sum (repeat n k))%nat. rewrite IHk. cbn. reflexivity. Qed.

Lemma residual_bits_code bs order p rs : 0 <= order <= bs -> rice_plan_ok bs order p ->
  Z.of_nat (length rs) = bs - order -> Forall (fun r => - 2 ^ 31 <= r < 2 ^ 31) rs ->
  residual_code bs order (residual_bits bs order p rs) rs.
Proof.
  intros Ho (Hm & Hpo & Hmod & Hfirst & Hk & HF) Hl Hr.
  set (po := rp_order p) in *. set (lens := map Z.to_nat (partition_lengths bs order po)).
  assert (0 < 2 ^ po) as Hp by lia.
  assert (list_sum lens = length rs) as Hsum.
  { unfold lens, partition_lengths. cbn [map]. rewrite map_repeat.
    change (list_sum (?a :: ?b)) with (a + list_sum b)%nat.
    rewrite sum_repeat. apply Nat2Z.inj. rewrite Nat2Z.inj_add, Nat2Z.inj_mul, !Z2Nat.id by (try lia; apply Z.div_pos; lia).
    rewrite Hl. pose proof (Z.div_mod bs (2 ^ po) ltac:(lia)). nia. }
  destruct (pieces_ok lens rs (eq_sym Hsum)) as [H1 H2].
  pose proof (pieces_Forall _ lens rs Hr) as H3.
  assert (length (rp_params p) = length (pieces lens rs)) as HL.
  { rewrite pieces_length. unfold lens. rewrite map_length. cbn [partition_lengths length]. rewrite repeat_length. lia. }
  unfold lens in H1 at 1. cbn [partition_lengths map] in H1. rewrite map_repeat in H1.
  destruct (pieces lens rs) as [|p0 parts] eqn:Ep; [inversion H1|].
  destruct (rp_params p) as [|k0 ks] eqn:Ek; [discriminate HL|].
  inversion H1 as [|? ? ? ? Hp0 Hparts]; subst. inversion H3 as [|? ? Hr0 Hrs]; subst. inversion HF as [|? ? Hk0 Hks]; subst.
  exists (rp_method p), po, p0, parts, (partition_bits (method_pbits (rp_method p)) k0 p0),
    (map (fun kp => partition_bits (method_pbits (rp_method p)) (fst kp) (snd kp)) (combine ks parts)).
  split; [exact Hm|]. split; [exact Hpo|]. split; [exact Hmod|]. split; [exact Hfirst|].
  split; [lia|]. split; [cbn [length] in HL, Hk; lia|].
  split.
  { clear - Hparts Ho Hp. remember (repeat _ _) as lens0 eqn:El.
    assert (Forall (fun n => n = Z.to_nat (bs / 2 ^ po)) lens0) as HF by (subst; apply Forall_forall; intros x Hx; apply repeat_spec in Hx; exact Hx).
    clear El. induction Hparts as [|n q lens0 qs Hq H IH]; constructor; inversion HF as [|? ? En HF2]; [|auto].
    rewrite Hq, En, Z2Nat.id; [reflexivity|apply Z.div_pos; lia]. }
  split; [apply partition_bits_code; assumption|].
  split.
  { clear - HL Hrs Hks. cbn [length] in HL. injection HL as HL.
    revert ks Hks HL. induction Hrs as [|q qs Hq H IH]; intros [|k ks] Hks HL; try discriminate; cbn [combine map]; constructor.
    - inversion Hks; subst. apply partition_bits_code; assumption.
    - inversion Hks; subst. apply IH; auto. }
  split; [|reflexivity].
  unfold residual_bits. fold po. fold lens. rewrite Ep, Ek. cbn [combine flat_map fst snd]. rewrite flat_map_concat_map. reflexivity.
Qed.

Lemma restored f past xs : Forall (fun x => - 2 ^ 31 <= x < 2 ^ 31) xs -> restore f past (residual_of f past xs) = xs.
Proof. intros H. apply restore_residual. exact H. Qed.

Lemma body_bits_code bps s p : 1 <= bps <= 32 -> Forall (fits bps) s -> s <> [] -> body_plan_ok s p ->
  body bps (length s) (plan_coding p) (body_bits bps p s) s.
Proof.
  intros Hb Hs Hne Hp.
  assert (Forall (fun x => - 2 ^ 31 <= x < 2 ^ 31) s) as Hi by (eapply Forall_impl; [|exact Hs]; intros x Hx; apply (fits_i32 bps); [lia|exact Hx]).
  destruct p as [| |o res|cs precision shift res]; cbn [plan_coding body_bits body_plan_ok] in *.
  - destruct s as [|x s]; [congruence|]. cbn [hd] in *.
    assert (x :: s = repeat x (length (x :: s))) as E.
    { clear - Hp. cbn [length repeat]. f_equal. inversion Hp as [|? ? _ H]; subst. clear Hp.
      induction H as [|y s Hy H IH]; [reflexivity|]. cbn [length repeat]. congruence. }
    rewrite E at 2. apply body_constant. inversion Hs; assumption.
  - apply body_verbatim; [reflexivity|exact Hs].
  - destruct Hp as [Ho Hr].
    pose proof Hr as (_ & Hpo & _ & Hlen & _). assert (Z.of_nat o <= Z.of_nat (length s)) as Hos.
    { assert (Z.of_nat (length s) / 2 ^ rp_order res <= Z.of_nat (length s)); [|lia].
      apply Z.div_le_upper_bound; [lia|]. assert (1 <= 2 ^ rp_order res) by lia. nia. }
    rewrite <- (firstn_skipn o s) at 6.
    rewrite <- (restored (fixed_predict (Z.of_nat o)) (rev (firstn o s)) (skipn o s)) at 2 by (apply Forall_skipn, Hi).
    apply body_fixed; [lia|rewrite firstn_length; lia|rewrite firstn_length; lia|apply Forall_firstn, Hs|].
    apply residual_bits_code; [lia|exact Hr| |apply residual_of_i32].
    rewrite residual_of_length, skipn_length. lia.
  - destruct Hp as (Ho & Hpr & Hsh & Hcs & Hr). set (o := length cs) in *.
    pose proof Hr as (_ & Hpo & _ & Hlen & _). assert (Z.of_nat o <= Z.of_nat (length s)) as Hos.
    { assert (Z.of_nat (length s) / 2 ^ rp_order res <= Z.of_nat (length s)); [|lia].
      apply Z.div_le_upper_bound; [lia|]. assert (1 <= 2 ^ rp_order res) by lia. nia. }
    rewrite <- (firstn_skipn o s) at 6.
    rewrite <- (restored (lpc_predict cs shift) (rev (firstn o s)) (skipn o s)) at 2 by (apply Forall_skipn, Hi).
    apply body_lpc; [lia|rewrite firstn_length; lia|rewrite firstn_length; lia|apply Forall_firstn, Hs|lia|lia|reflexivity|exact Hcs|].
    apply residual_bits_code; [lia|exact Hr| |apply residual_of_i32].
    rewrite residual_of_length, skipn_length. lia.
Qed.

Lemma body_plan_map f s p : s <> [] -> body_plan_ok s p -> body_plan_ok (map f s) p.
Proof.
  intros Hne. destruct p; cbn [body_plan_ok]; rewrite ?map_length; auto.
  destruct s as [|x s]; [congruence|]. cbn [hd map]. intros H. inversion H as [|? ? _ H']; subst.
  constructor; [reflexivity|]. apply Forall_map. eapply Forall_impl; [|exact H']. intros; subst; reflexivity.
Qed.

Lemma subframe_bits_code bps p s : bps <= 32 -> Forall (fits bps) s -> s <> [] -> plan_ok bps p s ->
  subframe bps (length s) (subframe_bits bps p s) s.
Proof.
  intros Hb Hs Hne (Hk & Hkb & Hm & Hp). set (k := pl_wasted p) in *.
  exists (plan_coding (pl_body p)), k, (body_bits (bps - k) (pl_body p) (map (fun x => x / 2 ^ k) s)), (map (fun x => x / 2 ^ k) s).
  split; [lia|]. split; [exact Hkb|]. split; [|split; [reflexivity|]].
  - rewrite <- (map_length (fun x => x / 2 ^ k) s) at 1. apply body_bits_code; [lia| |destruct s; [congruence|discriminate]|apply body_plan_map; assumption].
    apply Forall_map. rewrite Forall_forall in *. intros x Hx. specialize (Hs x Hx). specialize (Hm x Hx). unfold fits in *.
    assert (2 ^ (bps - 1) = 2 ^ (bps - k - 1) * 2 ^ k) as E by (rewrite <- Z.pow_add_r by lia; f_equal; lia).
    assert (0 < 2 ^ k) by lia. pose proof (Z.div_mod x (2 ^ k) ltac:(lia)). rewrite Hm in *. nia.
  - rewrite map_map. rewrite <- (map_id s) at 1. apply map_ext_in. intros x Hx. rewrite Forall_forall in *.
    specialize (Hm x Hx). pose proof (Z.div_mod x (2 ^ k) ltac:(lia)) as E. rewrite Hm in E.
    replace (x / 2 ^ k * 2 ^ k) with x by lia. symmetry. apply wrap32_id, (fits_i32 bps); [exact Hb|auto].
Qed.

(** ** Channels *)
Lemma fits_le w x : 8 <= w <= 24 -> fits w x -> - 2 ^ 23 <= x < 2 ^ 23.
Proof. unfold fits. intros Hw Hx. assert (2 ^ (w - 1) <= 2 ^ 23) by (apply Z.pow_le_mono_r; lia). lia. Qed.

Lemma separate_bits bps n plans chs : bps <= 32 -> (0 < n)%nat -> pcm bps n chs ->
  plans_ok (repeat bps (length chs)) plans chs ->
  exists ws, channels_bits (repeat bps (length chs)) plans chs = concat ws /\ Forall2 (subframe bps n) ws chs.
Proof.
  intros Hb Hn H. revert plans. induction H as [|c chs [Hl Hc] H IH]; intros plans Hp.
  - exists []. split; [reflexivity|constructor].
  - destruct plans as [|p plans]; [destruct Hp|]. cbn [length repeat plans_ok channels_bits] in *. destruct Hp as [Hp Hps].
    destruct (IH plans Hps) as (ws & E & HF). exists (subframe_bits bps p c :: ws). cbn [concat]. rewrite E.
    split; [reflexivity|]. constructor; [|exact HF]. rewrite <- Hl. apply subframe_bits_code; auto.
    intros ->. cbn in Hl. lia.
Qed.

Lemma two_bits b0 b1 plans c0 c1 : plans_ok [b0; b1] plans [c0; c1] -> b0 <= 32 -> b1 <= 32 -> c0 <> [] -> c1 <> [] ->
  Forall (fits b0) c0 -> Forall (fits b1) c1 ->
  exists w0 w1, channels_bits [b0; b1] plans [c0; c1] = w0 ++ w1
    /\ subframe b0 (length c0) w0 c0 /\ subframe b1 (length c1) w1 c1.
Proof.
  intros Hp H0 H1 N0 N1 F0 F1. destruct plans as [|p0 [|p1 [|p2 plans]]]; cbn [plans_ok] in Hp; try tauto.
  destruct Hp as (P0 & P1 & _). exists (subframe_bits b0 p0 c0), (subframe_bits b1 p1 c1).
  cbn [channels_bits]. rewrite app_nil_r. split; [reflexivity|]. split; apply subframe_bits_code; assumption.
Qed.

Section Stereo.
  Context (bps : Z) (Hb : 8 <= bps <= 24).
  Lemma side_fits l r : Forall (fits bps) l -> Forall (fits bps) r -> Forall (fits (bps + 1)) (side_of l r).
  Proof.
    intros Hl Hr. unfold side_of. apply Forall_map, Forall_forall. intros [x y] Hxy. cbn [fst snd].
    rewrite Forall_forall in Hl, Hr. pose proof (Hl x (in_combine_l _ _ _ _ Hxy)) as Hx. pose proof (Hr y (in_combine_r _ _ _ _ Hxy)) as Hy.
    pose proof (fits_le _ _ Hb Hx). pose proof (fits_le _ _ Hb Hy). rewrite wrap32_id by lia. unfold fits in *.
    replace (bps + 1 - 1) with (bps - 1 + 1) by lia. rewrite Z.pow_add_r by lia. lia.
  Qed.
  Lemma mid_fits l r : Forall (fits bps) l -> Forall (fits bps) r -> Forall (fits bps) (mid_of l r).
  Proof.
    intros Hl Hr. unfold mid_of. apply Forall_map, Forall_forall. intros [x y] Hxy. cbn [fst snd].
    rewrite Forall_forall in Hl, Hr. pose proof (Hl x (in_combine_l _ _ _ _ Hxy)) as Hx. pose proof (Hr y (in_combine_r _ _ _ _ Hxy)) as Hy.
    unfold fits in *. lia.
  Qed.
  Lemma map2_right (f g : Z -> Z -> Z) l r : length l = length r -> Forall (fits bps) l -> Forall (fits bps) r ->
    (forall x y, fits bps x -> fits bps y -> f x (g x y) = y) ->
    map2 f l (map (fun p => g (fst p) (snd p)) (combine l r)) = r.
  Proof.
    intros HL Hl Hr Hf. unfold map2. revert r HL Hr. induction Hl as [|x l Hx Hl IH]; intros [|y r] HL Hr; try discriminate; [reflexivity|].
    cbn [combine map fst snd]. inversion Hr; subst. rewrite Hf by assumption. f_equal. apply IH; auto.
  Qed.
  Lemma map2_left (f g : Z -> Z -> Z) l r : length l = length r -> Forall (fits bps) l -> Forall (fits bps) r ->
    (forall x y, fits bps x -> fits bps y -> f (g x y) y = x) ->
    map2 f (map (fun p => g (fst p) (snd p)) (combine l r)) r = l.
  Proof.
    intros HL Hl Hr Hf. unfold map2. revert r HL Hr. induction Hl as [|x l Hx Hl IH]; intros [|y r] HL Hr; try discriminate; [reflexivity|].
    cbn [combine map fst snd]. inversion Hr; subst. rewrite Hf by assumption. f_equal. apply IH; auto.
  Qed.
  Lemma map2_both (f g h k : Z -> Z -> Z) l r : length l = length r -> Forall (fits bps) l -> Forall (fits bps) r ->
    (forall x y, fits bps x -> fits bps y -> f (g x y) (h x y) = k x y) ->
    map2 f (map (fun p => g (fst p) (snd p)) (combine l r)) (map (fun p => h (fst p) (snd p)) (combine l r))
    = map (fun p => k (fst p) (snd p)) (combine l r).
  Proof.
    intros HL Hl Hr Hf. unfold map2. revert r HL Hr. induction Hl as [|x l Hx Hl IH]; intros [|y r] HL Hr; try discriminate; [reflexivity|].
    cbn [combine map fst snd]. inversion Hr; subst. rewrite Hf by assumption. f_equal. apply IH; auto.
  Qed.
  Lemma map_fst_combine (l r : list Z) : length l = length r -> map (fun p => fst p) (combine l r) = l.
  Proof. revert r. induction l as [|x l IH]; intros [|y r] H; try discriminate; [reflexivity|]. cbn. f_equal. apply IH. cbn in H. lia. Qed.
  Lemma map_snd_combine (l r : list Z) : length l = length r -> map (fun p => snd p) (combine l r) = r.
  Proof. revert r. induction l as [|x l IH]; intros [|y r] H; try discriminate; [reflexivity|]. cbn. f_equal. apply IH. cbn in H. lia. Qed.
End Stereo.

Lemma channels_bits_code a bps n plans chs : 8 <= bps <= 24 -> (0 < n)%nat -> assignment_ok a ->
  Z.of_nat (length chs) = channel_count a -> pcm bps n chs ->
  plans_ok (subframe_widths bps a) plans (coded_channels a chs) ->
  channels_code bps n a (channels_bits (subframe_widths bps a) plans (coded_channels a chs)) chs.
Proof.
  intros Hb Hn Ha Hlen Hp Hok.
  destruct a as [k| | |].
  - cbn [channel_count assignment_ok subframe_widths coded_channels] in *.
    replace (coded_channels (Separate k) chs) with chs by (destruct chs as [|? [|? [|? ?]]]; reflexivity).
    replace (coded_channels (Separate k) chs) with chs in Hok by (destruct chs as [|? [|? [|? ?]]]; reflexivity).
    replace (Z.to_nat k) with (length chs) in * by lia.
    destruct (separate_bits bps n plans chs ltac:(lia) Hn Hp Hok) as (ws & -> & HF).
    apply channels_separate; assumption.
  - cbn [channel_count] in Hlen. destruct chs as [|l [|r [|? ?]]]; try (cbn [length] in Hlen; lia).
    cbn [subframe_widths coded_channels] in *.
    inversion Hp as [|? ? [Hl Fl] Hp1]; subst. inversion Hp1 as [|? ? [Hr Fr] _]; subst.
    assert (length (side_of l r) = length l) as Hs by (unfold side_of; rewrite map_length, combine_length; lia).
    destruct (two_bits _ _ _ _ _ Hok) as (w0 & w1 & -> & S0 & S1); try lia; auto using side_fits.
    1, 2: intros E; rewrite ?E in *; cbn in *; lia.
    rewrite Hs in S1.
    replace [l; r] with [l; map2 (fun l s => wrap32 (l - s)) l (side_of l r)].
    + apply channels_left_side; assumption.
    + do 2 f_equal. unfold side_of. apply (map2_right bps _ (fun x y => wrap32 (x - y))); auto.
      intros x y Hx Hy. apply fits_le in Hx, Hy; try assumption. rewrite (wrap32_id (x - y)) by lia.
      replace (x - (x - y)) with y by lia. apply wrap32_id. lia.
  - cbn [channel_count] in Hlen. destruct chs as [|l [|r [|? ?]]]; try (cbn [length] in Hlen; lia).
    cbn [subframe_widths coded_channels] in *.
    inversion Hp as [|? ? [Hl Fl] Hp1]; subst. inversion Hp1 as [|? ? [Hr Fr] _]; subst.
    assert (length (side_of l r) = length l) as Hs by (unfold side_of; rewrite map_length, combine_length; lia).
    destruct (two_bits _ _ _ _ _ Hok) as (w0 & w1 & -> & S0 & S1); try lia; auto using side_fits.
    1, 2: intros E; rewrite ?E in *; cbn in *; lia.
    rewrite Hs in S0. rewrite Hr in S1.
    replace [l; r] with [map2 (fun s r => wrap32 (s + r)) (side_of l r) r; r].
    + apply channels_side_right; assumption.
    + f_equal. unfold side_of. apply (map2_left bps _ (fun x y => wrap32 (x - y))); auto.
      intros x y Hx Hy. apply fits_le in Hx, Hy; try assumption. rewrite (wrap32_id (x - y)) by lia.
      replace (x - y + y) with x by lia. apply wrap32_id. lia.
  - cbn [channel_count] in Hlen. destruct chs as [|l [|r [|? ?]]]; try (cbn [length] in Hlen; lia).
    cbn [subframe_widths coded_channels] in *.
    inversion Hp as [|? ? [Hl Fl] Hp1]; subst. inversion Hp1 as [|? ? [Hr Fr] _]; subst.
    assert (length (side_of l r) = length l) as Hs by (unfold side_of; rewrite map_length, combine_length; lia).
    assert (length (mid_of l r) = length l) as Hm by (unfold mid_of; rewrite map_length, combine_length; lia).
    destruct (two_bits _ _ _ _ _ Hok) as (w0 & w1 & -> & S0 & S1); try lia; auto using side_fits, mid_fits.
    1, 2: intros E; rewrite ?E in *; cbn in *; lia.
    rewrite Hm in S0. rewrite Hs in S1.
    replace [l; r] with [map2 mid_left (mid_of l r) (side_of l r); map2 mid_right (mid_of l r) (side_of l r)].
    + apply channels_mid_side; assumption.
    + unfold mid_of, side_of.
      rewrite (map2_both bps mid_left (fun x y => (x + y) / 2) (fun x y => wrap32 (x - y)) (fun x y => x)); auto.
      rewrite (map2_both bps mid_right (fun x y => (x + y) / 2) (fun x y => wrap32 (x - y)) (fun x y => y)); auto.
      rewrite map_fst_combine, map_snd_combine by congruence. reflexivity.
      * intros x y Hx Hy. apply fits_le in Hx, Hy; try assumption. unfold mid_right. rewrite (wrap32_id (x - y)) by lia.
        rewrite wrap32_id by lia. lia.
      * intros x y Hx Hy. apply fits_le in Hx, Hy; try assumption. unfold mid_left. rewrite (wrap32_id (x - y)) by lia.
        rewrite wrap32_id by lia. lia.
Qed.

(** ** Bytes *)
Lemma pack_short l : (0 < length l < 8)%nat -> pack l = [be_value (l ++ repeat false (8 - length l))].
Proof. do 8 (destruct l as [|? l]; [cbn [length]; intros; try lia; reflexivity|]). cbn [length]. lia. Qed.

Lemma pack_ok l : exists pad, bytes_bits (pack l) = l ++ pad /\ (length pad < 8)%nat /\ byte_string (pack l).
Proof.
  assert (forall n l, (length l <= n)%nat -> exists pad, bytes_bits (pack l) = l ++ pad /\ (length pad < 8)%nat /\ byte_string (pack l)) as X;
    [|apply (X (length l)); lia].
  clear l. induction n as [|n IH]; intros l Hl.
  - destruct l; [|cbn in Hl; lia]. exists []. split; [reflexivity|]. split; [cbn; lia|constructor].
  - destruct (Nat.lt_ge_cases (length l) 8) as [Hs|Hs].
    + destruct (Nat.eq_dec (length l) 0) as [H0|H0].
      { destruct l; [|discriminate H0]. exists []. split; [reflexivity|]. split; [cbn; lia|constructor]. }
      rewrite pack_short by lia. exists (repeat false (8 - length l)).
      set (w := l ++ repeat false (8 - length l)). assert (length w = 8%nat) as Hw by (unfold w; rewrite app_length, repeat_length; lia).
      cbn [bytes_bits flat_map]. rewrite app_nil_r. split; [|split].
      * rewrite <- Hw. apply bits_of_be_value.
      * rewrite repeat_length. lia.
      * pose proof (be_value_range w) as Hr. unfold len in Hr. rewrite Hw in Hr. constructor; [exact Hr|constructor].
    + do 8 (destruct l as [|? l]; [cbn [length] in Hs; lia|]). cbn [pack].
      destruct (IH l ltac:(cbn [length] in Hl; lia)) as (pad & E & Hp & Hb). exists pad.
      match goal with |- context [be_value ?w :: pack l] => set (v := w) end.
      change (bytes_bits (be_value v :: pack l)) with (bits_of 8 (be_value v) ++ bytes_bits (pack l)). rewrite E.
      split; [|split; [exact Hp|]].
      * change 8%nat with (length v). rewrite bits_of_be_value. reflexivity.
      * constructor; [|exact Hb]. pose proof (be_value_range v) as Hr. exact Hr.
Qed.

(** ** Frames *)
Lemma width_bits_ok w : In w [8; 12; 16; 20; 24] -> width_code (width_bits w) (Some w) /\ 8 <= w <= 24.
Proof. cbn [In]. intros [<-|[<-|[<-|[<-|[<-|[]]]]]]; (split; [cbn; tauto|lia]). Qed.

Theorem encode_header_ok f chs : info_ok f chs ->
  let size := Z.of_nat (length (hd [] chs)) in
  header_code (info_header f size) (encode_header f size).
Proof.
  intros (Ha & _ & Hw & _ & _ & Hn & Hnum & Hv & Hs & Hr) size. fold size in Hs.
  destruct (width_bits_ok _ Hw) as [Hwc _]. unfold encode_header.
  eexists _, _. split; [|split; [apply crc8_encoded|reflexivity]].
  exists (fm_size (fi_form f)), (size_extra (fm_size (fi_form f)) size), (fm_rate (fi_form f)),
    (rate_extra (fm_rate (fi_form f)) (fi_rate f)), (width_bits (fi_width f)), (number_bytes (fm_number (fi_form f)) (fi_number f)).
  unfold info_header. cbn [h_size h_rate h_assignment h_width h_number h_variable].
  split; [exact Hs|]. split; [exact Hr|]. split; [exact Ha|]. split; [exact Hwc|].
  split; [left; eexists; eauto|]. split; [exact Hv|]. reflexivity.
Qed.

Theorem encode_frame_ok f chs : info_ok f chs ->
  frame_code (info_header f (Z.of_nat (length (hd [] chs)))) chs (encode_frame f chs).
Proof.
  intros H. pose proof (encode_header_ok f chs H) as Hh. cbv zeta in Hh.
  pose proof (header_decent _ _ Hh) as (Hsz & _). unfold info_header in Hsz at 1. cbn [h_size] in Hsz.
  destruct H as (Ha & Hlen & Hw & Hp & Hok & _). set (n := length (hd [] chs)) in *.
  destruct (width_bits_ok _ Hw) as [_ Hwr].
  pose proof (channels_bits_code (fi_assignment f) (fi_width f) n (fi_plans f) chs Hwr ltac:(lia) Ha Hlen Hp Hok) as Hc.
  set (bits := channels_bits _ _ _) in *. destruct (pack_ok bits) as (pad & Epad & Hpad & Hbs).
  unfold encode_frame. fold n bits.
  eexists _, (fi_width f), bits, pad, (pack bits), _.
  split; [exact Hh|]. split; [reflexivity|].
  split; [unfold info_header; cbn [h_size h_assignment]; rewrite Nat2Z.id; exact Hc|].
  split; [exact Hbs|]. split; [exact Epad|]. split; [exact Hpad|]. split; [apply crc16_encoded|].
  rewrite <- app_assoc. reflexivity.
Qed.

Theorem round_trip {S} (rb : ReadBytes S) t (D : S -> list Z -> Prop) : stream rb t D ->
  forall m fuel buffer st f chs rest, info_ok f chs ->
  D st (encode_frame f chs ++ rest) -> (length (encode_frame f chs ++ rest) < fuel)%nat ->
  exists b st', read_next_or_eof rb m fuel buffer st = (Ok (Some b), st')
    /\ block_holds b chs
    /\ block_time_of b = (if fi_variable f then fi_number f else fi_number f * block_duration b)
    /\ D st' rest.
Proof.
  intros HS m fuel buffer st f chs rest Hi HD Hf.
  pose proof (encode_frame_ok f chs Hi) as Hc.
  destruct (frame_decoded rb t D HS m fuel buffer st _ chs _ rest Hc HD Hf) as (b & st' & E & Hb & HD').
  exists b, st'. split; [exact E|]. split; [|split; [|exact HD']].
  - destruct Hc as (hw & ? & ? & ? & ? & ? & Hh & _). exact (shows_holds b _ chs hw Hh Hb).
  - destruct Hb as (Ht & Hd & _). rewrite Ht, Hd. reflexivity.
Qed.
