(** Arithmetic of the decoder: sign extension, prediction, decorrelation. *)
From Verif Require Export SpecEncoder ProofInput ModelFrame ModelLib.

Theorem extend_sign_u32_spec m val bits : 0 <= val < 2 ^ 32 -> 1 <= bits <= 32 ->
  exists r, extend_sign_u32 m val bits = Ok r
    /\ - 2 ^ (bits - 1) <= r < 2 ^ (bits - 1) /\ r mod 2 ^ bits = val mod 2 ^ bits.
Proof.
  intros Hv Hb. exists (signed bits val). rewrite extend_sign_u32_ok by lia.
  split; [reflexivity|]. split; [apply signed_range; lia|].
  pose proof (pow2_pos bits ltac:(lia)). unfold signed.
  rewrite Zminus_mod_idemp_l. f_equal. lia.
Qed.
Theorem extend_sign_u16_spec m val bits : 0 <= val < 2 ^ 16 -> 1 <= bits <= 16 ->
  exists r, extend_sign_u16 m val bits = Ok r
    /\ - 2 ^ (bits - 1) <= r < 2 ^ (bits - 1) /\ r mod 2 ^ bits = val mod 2 ^ bits.
Proof.
  intros Hv Hb. exists (signed bits val). rewrite extend_sign_u16_ok by lia.
  split; [reflexivity|]. split; [apply signed_range; lia|].
  pose proof (pow2_pos bits ltac:(lia)). unfold signed.
  rewrite Zminus_mod_idemp_l. f_equal. lia.
Qed.

Theorem rice_even k : 0 <= k < 2 ^ 31 -> rice_to_signed (2 * k) = k.
Proof.
  intros H. destruct (rice_to_signed_ok (2 * k)) as [-> _]; [lia|]. unfold unfold_sign.
  destruct (Z.even (2 * k)) eqn:E; [lia|]. rewrite Z.even_mul in E. discriminate.
Qed.
Theorem rice_odd k : 0 <= k < 2 ^ 31 -> rice_to_signed (2 * k + 1) = - 1 - k.
Proof.
  intros H. destruct (rice_to_signed_ok (2 * k + 1)) as [-> _]; [lia|]. unfold unfold_sign.
  destruct (Z.even (2 * k + 1)) eqn:E; [|lia]. rewrite Z.even_add, Z.even_mul in E. discriminate.
Qed.
Theorem rice_bijection :
  (forall u, 0 <= u < 2 ^ 32 -> - 2 ^ 31 <= rice_to_signed u < 2 ^ 31)
  /\ (forall r, - 2 ^ 31 <= r < 2 ^ 31 ->
        exists u, 0 <= u < 2 ^ 32 /\ rice_to_signed u = r
          /\ forall v, 0 <= v < 2 ^ 32 -> rice_to_signed v = r -> v = u).
Proof.
  assert (forall v, 0 <= v < 2 ^ 32 -> exists k, 0 <= k < 2 ^ 31 /\ (v = 2 * k \/ v = 2 * k + 1)) as Hv.
  { intros v Hv. exists (v / 2). split; lia. }
  split.
  - intros u Hu. destruct (rice_to_signed_ok u Hu) as [-> H]. exact H.
  - intros r Hr.
    assert (exists u, 0 <= u < 2 ^ 32 /\ rice_to_signed u = r) as (u & Hu & Eu).
    { destruct (Z.lt_ge_cases r 0).
      - exists (2 * (- 1 - r) + 1). rewrite rice_odd by lia. lia.
      - exists (2 * r). rewrite rice_even by lia. lia. }
    exists u. split; [exact Hu|]. split; [exact Eu|]. intros v Hv2 Ev.
    destruct (Hv u Hu) as (k & Hk & [->| ->]), (Hv v Hv2) as (k' & Hk' & [->| ->]);
      rewrite ?rice_even, ?rice_odd in * by lia; lia.
Qed.

(** * Prediction *)

(** Wrapping adds a multiple of 2^32. *)
Lemma wrap32_eq x : exists k, wrap32 x = x + k * 2 ^ 32.
Proof.
  exists (- ((x + 2 ^ 31) / 2 ^ 32)). unfold wrap32, signed.
  pose proof (Z.div_mod (x + 2 ^ (32 - 1)) (2 ^ 32) ltac:(lia)).
  change (2 ^ (32 - 1)) with (2 ^ 31) in *. lia.
Qed.
Lemma wrap32_intro x y k : isi32 y -> x = y + k * 2 ^ 32 -> wrap32 x = y.
Proof.
  intros Hy ->. unfold wrap32, signed, isi32 in *. change (2 ^ (32 - 1)) with (2 ^ 31).
  replace (y + k * 2 ^ 32 + 2 ^ 31) with (y + 2 ^ 31 + k * 2 ^ 32) by lia.
  rewrite Z.mod_add by lia. rewrite Z.mod_small by lia. lia.
Qed.
Lemma restore_residual f xs : Forall isi32 xs -> forall past,
  restore f past (residual_of f past xs) = xs.
Proof.
  induction 1 as [|x xs Hx _ IH]; intros past; cbn [residual_of restore]; [reflexivity|].
  destruct (wrap32_eq (x - f past)) as [k Hk].
  rewrite (wrap32_intro (f past + wrap32 (x - f past)) x k Hx) by lia.
  rewrite IH. reflexivity.
Qed.
Lemma residual_of_length f xs : forall past, length (residual_of f past xs) = length xs.
Proof. induction xs; intros; cbn; auto. Qed.
Lemma residual_of_i32 f xs : forall past, Forall isi32 (residual_of f past xs).
Proof. induction xs; intros; cbn [residual_of]; constructor; auto. apply wrap32_range. Qed.

Lemma differences_cons a b l : differences (a :: b :: l) = wrap32 (b - a) :: differences (b :: l).
Proof. reflexivity. Qed.

Lemma fixed_differences order warm xs : (order <= 4)%nat -> length warm = order ->
  Forall isi32 xs ->
  restore (fixed_predict (Z.of_nat order)) (rev warm) (nth_differences order (warm ++ xs)) = xs.
Proof.
  intros Ho Hw Hx.
  destruct order as [|[|[|[|[|order]]]]]; [| | | | |lia].
  - destruct warm; [|discriminate]. unfold nth_differences. cbn [Nat.iter nat_rect rev app].
    generalize (@nil Z). induction Hx as [|x xs Hx _ IH]; intros past; cbn [restore]; [reflexivity|].
    rewrite (wrap32_intro _ x 0 Hx) by (cbn [fixed_predict Z.of_nat]; lia). rewrite IH. reflexivity.
  - destruct warm as [|a [|]]; try discriminate. cbn [rev app].
    enough (forall past, restore (fixed_predict 1) (a :: past) (nth_differences 1 (a :: xs)) = xs) by auto.
    revert a Hw. induction Hx as [|x xs Hx _ IH]; intros a _ past; [reflexivity|].
    unfold nth_differences in *. cbn [Nat.iter nat_rect] in *.
    rewrite differences_cons. cbn [restore fixed_predict].
    destruct (wrap32_eq (x - a)) as [k Hk].
    rewrite (wrap32_intro _ x k Hx) by lia. rewrite IH; auto.
  - destruct warm as [|b [|a [|]]]; try discriminate. cbn [rev app].
    enough (forall past, restore (fixed_predict 2) (a :: b :: past) (nth_differences 2 (b :: a :: xs)) = xs) by auto.
    clear Hw. revert a b. induction Hx as [|x xs Hx _ IH]; intros a b past; [reflexivity|].
    unfold nth_differences in *. cbn [Nat.iter nat_rect] in *.
    rewrite !differences_cons in *. cbn [restore fixed_predict].
    specialize (IH x a (b :: past)). rewrite differences_cons in IH.
    match goal with |- wrap32 ?e :: _ = _ => assert (wrap32 e = x) as -> end.
    { destruct (wrap32_eq (x - a)) as [k1 H1]. destruct (wrap32_eq (a - b)) as [k2 H2].
      destruct (wrap32_eq (wrap32 (x - a) - wrap32 (a - b))) as [k3 H3].
      apply (wrap32_intro _ x (k1 - k2 + k3) Hx). lia. }
    f_equal. exact IH.
  - destruct warm as [|c [|b [|a [|]]]]; try discriminate. cbn [rev app].
    enough (forall past, restore (fixed_predict 3) (a :: b :: c :: past) (nth_differences 3 (c :: b :: a :: xs)) = xs) by auto.
    clear Hw. revert a b c. induction Hx as [|x xs Hx _ IH]; intros a b c past; [reflexivity|].
    unfold nth_differences in *. cbn [Nat.iter nat_rect] in *.
    specialize (IH x a b (c :: past)).
    rewrite !differences_cons in *. cbn [restore fixed_predict].
    match goal with |- wrap32 ?e :: _ = _ => assert (wrap32 e = x) as -> end.
    { destruct (wrap32_eq (x - a)) as [k1 H1]. destruct (wrap32_eq (a - b)) as [k2 H2].
      destruct (wrap32_eq (b - c)) as [k3 H3].
      destruct (wrap32_eq (wrap32 (x - a) - wrap32 (a - b))) as [k4 H4].
      destruct (wrap32_eq (wrap32 (a - b) - wrap32 (b - c))) as [k5 H5].
      match goal with |- wrap32 (_ + wrap32 ?e) = _ => destruct (wrap32_eq e) as [k6 H6] end.
      apply (wrap32_intro _ x (k1 - 2 * k2 + k3 + k4 - k5 + k6) Hx). lia. }
    f_equal. exact IH.
  - destruct warm as [|d [|c [|b [|a [|]]]]]; try discriminate. cbn [rev app].
    enough (forall past, restore (fixed_predict 4) (a :: b :: c :: d :: past) (nth_differences 4 (d :: c :: b :: a :: xs)) = xs) by auto.
    clear Hw. revert a b c d. induction Hx as [|x xs Hx _ IH]; intros a b c d past; [reflexivity|].
    unfold nth_differences in *. cbn [Nat.iter nat_rect] in *.
    specialize (IH x a b c (d :: past)).
    rewrite !differences_cons in *. cbn [restore fixed_predict].
    match goal with |- wrap32 ?e :: _ = _ => assert (wrap32 e = x) as -> end.
    { destruct (wrap32_eq (x - a)) as [k1 H1]. destruct (wrap32_eq (a - b)) as [k2 H2].
      destruct (wrap32_eq (b - c)) as [k3 H3]. destruct (wrap32_eq (c - d)) as [k4 H4].
      destruct (wrap32_eq (wrap32 (x - a) - wrap32 (a - b))) as [k5 H5].
      destruct (wrap32_eq (wrap32 (a - b) - wrap32 (b - c))) as [k6 H6].
      destruct (wrap32_eq (wrap32 (b - c) - wrap32 (c - d))) as [k7 H7].
      match goal with |- wrap32 (_ + wrap32 (wrap32 ?e - wrap32 ?f)) = _ =>
        destruct (wrap32_eq e) as [k8 H8]; destruct (wrap32_eq f) as [k9 H9];
        destruct (wrap32_eq (wrap32 e - wrap32 f)) as [k10 H10] end.
      apply (wrap32_intro _ x (k1 - 3 * k2 + 3 * k3 - k4 + k5 - 2 * k6 + k7 + k8 - k9 + k10) Hx). lia. }
    f_equal. exact IH.
Qed.

Lemma differences_length l : length (differences l) = (length l - 1)%nat.
Proof.
  induction l as [|a [|b l] IH]; try reflexivity. rewrite differences_cons. cbn [length] in *. lia.
Qed.
Lemma nth_differences_length n l : length (nth_differences n l) = (length l - n)%nat.
Proof.
  unfold nth_differences. induction n as [|n IH]; cbn [Nat.iter nat_rect]; [lia|].
  rewrite differences_length. unfold Nat.iter in IH. lia.
Qed.

Theorem fixed_lossless m order s : (order <= 4)%nat -> (order <= length s)%nat ->
  len s < 2 ^ 32 -> Forall isi32 s ->
  predict_fixed m (Z.of_nat order) (firstn order s ++ nth_differences order s) = Ok s.
Proof.
  intros Ho Hl Hs Hi.
  assert (length (firstn order s) = order) as Hw by (rewrite firstn_length; lia).
  rewrite predict_fixed_ok; [|lia|unfold len; lia|].
  - f_equal. rewrite <- (firstn_skipn order s) at 3.
    rewrite fixed_differences; auto; [apply firstn_skipn|apply Forall_skipn, Hi].
  - rewrite len_app. unfold len in *. rewrite nth_differences_length. lia.
Qed.

Theorem lpc_lossless m cs shift warm xs :
  1 <= len cs <= 32 -> Forall (fits 15) cs -> 0 <= shift <= 15 ->
  len warm = len cs -> Forall isi32 (warm ++ xs) -> len (warm ++ xs) < 2 ^ 32 ->
  let buffer := warm ++ residual_of (lpc_predict cs shift) (rev warm) xs in
  (if len cs <=? 12 then predict_lpc_low_order m (rev cs) shift buffer
   else predict_lpc_high_order m (rev cs) shift buffer) = Ok (warm ++ xs).
Proof.
  intros Hc Hf Hs Hw Hi Hl buffer. apply Forall_app in Hi as [Hi1 Hi2].
  assert (Forall coef_ok (rev cs)) as Hco by (apply Forall_rev, (fits_coef 15); [lia|exact Hf]).
  pose proof (len_rev cs).
  destruct (Z.leb_spec (len cs) 12); unfold buffer.
  - rewrite predict_lpc_low_ok; auto; try lia; [|apply residual_of_i32|].
    + rewrite rev_involutive, restore_residual by exact Hi2. reflexivity.
    + rewrite len_app in *. unfold len in *. rewrite residual_of_length. lia.
  - rewrite predict_lpc_high_ok; auto; try lia; [|apply residual_of_i32].
    rewrite rev_involutive, restore_residual by exact Hi2. reflexivity.
Qed.

(** The general predictor, without the assertion on the order. *)
Lemma predict_lpc_high_release cs shift warm rs :
  Forall coef_ok cs -> 1 <= len cs <= 32 -> 0 <= shift < 64 -> len warm = len cs ->
  Forall isi32 warm -> Forall isi32 rs ->
  predict_lpc_high_order Release cs shift (warm ++ rs)
  = Ok (warm ++ restore (lpc_predict (rev cs) shift) (rev warm) rs).
Proof.
  intros Hc Hn Hs Hw Hwi Hr. unfold predict_lpc_high_order, debug_assert. cbn [obind].
  rewrite len_app. replace (Z.to_nat (len warm + len rs - len cs)) with (length rs) by (unfold len in *; lia).
  rewrite <- Hw. rewrite <- (app_nil_r rs) at 2. rewrite lpc_loop_ok by (auto; lia).
  rewrite app_nil_r. reflexivity.
Qed.

Theorem lpc_paths_agree m cs shift buffer :
  1 <= len cs <= 12 -> Forall (fits 15) cs -> 0 <= shift <= 15 ->
  len cs <= len buffer < 2 ^ 32 -> Forall isi32 buffer ->
  exists s, predict_lpc_low_order m cs shift buffer = Ok s
    /\ predict_lpc_high_order Release cs shift buffer = Ok s.
Proof.
  intros Hc Hf Hs Hl Hi.
  rewrite <- (firstn_skipn (length cs) buffer) in *. apply Forall_app in Hi as [Hi1 Hi2].
  assert (len (firstn (length cs) buffer) = len cs) as Hw.
  { unfold len in *. rewrite app_length, skipn_length in Hl. rewrite firstn_length in *. lia. }
  assert (Forall coef_ok cs) by (apply (fits_coef 15); [lia|exact Hf]).
  eexists. split; [apply predict_lpc_low_ok; auto; lia|apply predict_lpc_high_release; auto; lia].
Qed.

(** * Decorrelation *)

Lemma zip_update_map f l1 : forall l2, length l1 = length l2 ->
  zip_update f l1 l2 = (map (fun p => fst (f (fst p) (snd p))) (combine l1 l2),
                        map (fun p => snd (f (fst p) (snd p))) (combine l1 l2)).
Proof.
  induction l1 as [|a l1 IH]; intros [|b l2] H; try discriminate; [reflexivity|].
  cbn [zip_update combine map fst snd]. rewrite (IH l2) by (cbn in H; lia).
  destruct (f a b) as [a' b']. reflexivity.
Qed.
Lemma halves_update_app f l1 l2 : length l1 = length l2 ->
  halves_update f (l1 ++ l2)
  = map (fun p => fst (f (fst p) (snd p))) (combine l1 l2)
    ++ map (fun p => snd (f (fst p) (snd p))) (combine l1 l2).
Proof.
  intros H. unfold halves_update.
  assert ((length (l1 ++ l2) / 2)%nat = length l1) as ->.
  { rewrite app_length, <- H. replace (length l1 + length l1)%nat with (length l1 * 2)%nat by lia.
    apply Nat.div_mul. lia. }
  rewrite firstn_app, firstn_all, Nat.sub_diag, skipn_app, skipn_all, Nat.sub_diag.
  cbn [firstn skipn app]. rewrite app_nil_r, zip_update_map by exact H. reflexivity.
Qed.

Lemma map_combine2 (f g h : Z -> Z -> Z) (P : Z -> Prop) l : forall r, length l = length r ->
  Forall P l -> Forall P r ->
  (forall a b, P a -> P b -> f (g a b) (h a b) = a) ->
  map (fun p => f (fst p) (snd p))
      (combine (map (fun p => g (fst p) (snd p)) (combine l r))
               (map (fun p => h (fst p) (snd p)) (combine l r))) = l.
Proof.
  induction l as [|a l IH]; intros [|b r] HL Hl Hr Hf; try discriminate; [reflexivity|].
  cbn [combine map fst snd]. inversion Hl; inversion Hr; subst. rewrite Hf by auto.
  f_equal. apply IH; auto.
Qed.
Lemma map_fst_combine (l : list Z) : forall r : list Z, length l = length r -> map (fun p => fst p) (combine l r) = l.
Proof. induction l; intros [|b r] H; try discriminate; cbn; f_equal; auto. Qed.
Lemma map_snd_combine (l : list Z) : forall r : list Z, length l = length r -> map (fun p => snd p) (combine l r) = r.
Proof. induction l; intros [|b r] H; try discriminate; cbn; f_equal; auto. Qed.
Lemma map_combine_swap (f : Z -> Z -> Z) l : forall r,
  map (fun p => f (fst p) (snd p)) (combine l r) = map (fun p => f (snd p) (fst p)) (combine r l).
Proof. induction l; intros [|b r]; cbn [combine map fst snd]; f_equal; auto. Qed.

Theorem left_side_lossless l r : length l = length r -> Forall isi32 l -> Forall isi32 r ->
  decode_left_side (l ++ side_of l r) = l ++ r.
Proof.
  intros HL Hl Hr. unfold decode_left_side, side_of.
  rewrite halves_update_app by (rewrite map_length, combine_length; lia). cbn [fst snd]. f_equal.
  - apply map_fst_combine. rewrite map_length, combine_length. lia.
  - revert r HL Hr. induction Hl as [|a l Ha _ IH]; intros [|b r] HL Hr; try discriminate; [reflexivity|].
    cbn [combine map fst snd]. inversion Hr; subst. f_equal; [|apply IH; auto].
    change (wrap32 (a - wrap32 (a - b)) = b). destruct (wrap32_eq (a - b)) as [k Hk].
    apply (wrap32_intro _ b (- k)); [assumption|lia].
Qed.
Theorem right_side_lossless l r : length l = length r -> Forall isi32 l -> Forall isi32 r ->
  decode_right_side (side_of l r ++ r) = l ++ r.
Proof.
  intros HL Hl Hr. unfold decode_right_side, side_of.
  rewrite halves_update_app by (rewrite map_length, combine_length; lia). cbn [fst snd]. f_equal.
  - revert r HL Hr. induction Hl as [|a l Ha _ IH]; intros [|b r] HL Hr; try discriminate; [reflexivity|].
    cbn [combine map fst snd]. inversion Hr; subst. f_equal; [|apply IH; auto].
    change (wrap32 (wrap32 (a - b) + b) = a). destruct (wrap32_eq (a - b)) as [k Hk].
    apply (wrap32_intro _ a k); [assumption|lia].
  - apply map_snd_combine. rewrite map_length, combine_length. lia.
Qed.

Lemma lor_low_bit a b : Z.lor (2 * a) (b mod 2) = 2 * a + b mod 2.
Proof.
  rewrite (Z.mul_comm 2 a). change 2 with (2 ^ 1) at 1 3. apply lor_add; [lia|].
  change (2 ^ 1) with 2. lia.
Qed.
Lemma mid_side_double l r : isi32 (l + r) ->
  Z.lor (i32 ((l + r) / 2 * 2)) (Z.land (l - r) 1) = l + r.
Proof.
  intros H. unfold isi32 in H. change 1 with (2 ^ 1 - 1). rewrite land_low by lia. change (2 ^ 1) with 2.
  rewrite i32_id by lia. rewrite (Z.mul_comm _ 2), lor_low_bit. lia.
Qed.
Theorem mid_side_lossless l r : length l = length r ->
  Forall (fun x => - 2 ^ 30 <= x < 2 ^ 30) l -> Forall (fun x => - 2 ^ 30 <= x < 2 ^ 30) r ->
  decode_mid_side (mid_of l r ++ side_of l r) = l ++ r.
Proof.
  intros HL Hl Hr. unfold decode_mid_side, side_of, mid_of.
  rewrite halves_update_app by (rewrite !map_length; reflexivity). cbn [fst snd]. f_equal.
  - revert r HL Hr. induction Hl as [|a l Ha _ IH]; intros [|b r] HL Hr; try discriminate; [reflexivity|].
    cbn [combine map fst snd]. inversion Hr; subst. f_equal; [|apply IH; auto].
    rewrite (wrap32_id (a - b)) by (unfold isi32; lia).
    rewrite mid_side_double by (unfold isi32; lia). rewrite i32_id by lia.
    replace (a + b + (a - b)) with (a * 2) by lia. apply Z.quot_mul. lia.
  - revert r HL Hr. induction Hl as [|a l Ha _ IH]; intros [|b r] HL Hr; try discriminate; [reflexivity|].
    cbn [combine map fst snd]. inversion Hr; subst. f_equal; [|apply IH; auto].
    rewrite (wrap32_id (a - b)) by (unfold isi32; lia).
    rewrite mid_side_double by (unfold isi32; lia). rewrite i32_id by lia.
    replace (a + b - (a - b)) with (b * 2) by lia. apply Z.quot_mul. lia.
Qed.

(** * Errors *)

Theorem error_eqb_spec a b : error_eqb a b = true <->
  (exists r, a = FormatError r /\ b = FormatError r) \/ (exists f, a = Unsupported f /\ b = Unsupported f).
Proof.
  split.
  - destruct a, b; cbn; try discriminate; intros H; apply String.eqb_eq in H; subst; eauto.
  - intros [(r & -> & ->)|(r & -> & ->)]; cbn; apply String.eqb_refl.
Qed.
Theorem error_eqb_sym a b : error_eqb a b = error_eqb b a.
Proof. destruct a, b; cbn; auto using String.eqb_sym. Qed.
Theorem error_eqb_trans a b c :
  error_eqb a b = true -> error_eqb b c = true -> error_eqb a c = true.
Proof.
  rewrite !error_eqb_spec.
  intros [(r & -> & ->)|(r & -> & ->)] [(r' & E & ->)|(r' & E & ->)]; inversion E; subst; eauto.
Qed.
