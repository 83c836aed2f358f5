(** Prediction: the in-place loops compute [restore]. *)
From Verif Require Export ProofSub.

Lemma restore_ext f g rs : (forall p, f p = g p) -> forall past, restore f past rs = restore g past rs.
Proof.
  intros H. induction rs as [|r rs IH]; intros past; cbn [restore]; [reflexivity|].
  rewrite H, IH. reflexivity.
Qed.
Lemma restore_app f rs1 rs2 : forall past,
  restore f past (rs1 ++ rs2)
  = restore f past rs1 ++ restore f (rev (restore f past rs1) ++ past) rs2.
Proof.
  induction rs1 as [|r rs IH]; intros past; cbn [restore app rev]; [reflexivity|].
  f_equal. rewrite IH. rewrite <- app_assoc. reflexivity.
Qed.
Lemma restore_length f rs : forall past, length (restore f past rs) = length rs.
Proof. induction rs as [|r rs IH]; intros past; cbn [restore length]; [reflexivity|]. rewrite IH; auto. Qed.
Lemma restore_i32 f rs : forall past, Forall isi32 (restore f past rs).
Proof.
  induction rs as [|r rs IH]; intros past; cbn [restore]; constructor; [apply wrap32_range|apply IH].
Qed.

(** * Dot products *)

Lemma dot_app cs1 cs2 s1 s2 : length cs1 = length s1 ->
  dot (cs1 ++ cs2) (s1 ++ s2) = dot cs1 s1 + dot cs2 s2.
Proof.
  revert s1. induction cs1 as [|c cs1 IH]; intros [|s s1] H; try discriminate; [reflexivity|].
  cbn [app dot]. rewrite IH by (cbn in H; lia). lia.
Qed.
Lemma dot_nil_r cs : dot cs [] = 0.
Proof. destruct cs; reflexivity. Qed.
Lemma dot_rev cs s : length cs = length s -> dot (rev cs) (rev s) = dot cs s.
Proof.
  revert s. induction cs as [|c cs IH]; intros [|x s] H; try discriminate; [reflexivity|].
  cbn [rev dot]. rewrite dot_app by (rewrite !rev_length; cbn in H; lia).
  rewrite IH by (cbn in H; lia). cbn [dot]. lia.
Qed.
Lemma dot_extra cs s s' : length cs = length s -> dot cs (s ++ s') = dot cs s.
Proof. intros H. rewrite <- (app_nil_r cs) at 1. rewrite dot_app by exact H. cbn. lia. Qed.
Lemma dot_zeros k s : dot (repeat 0 k) s = 0.
Proof. revert s. induction k as [|k IH]; intros [|x s]; cbn [repeat dot]; auto. rewrite IH. lia. Qed.
Lemma dot_pad cs k s : dot (cs ++ repeat 0 k) s = dot cs s.
Proof.
  revert s. induction cs as [|c cs IH]; intros s; [apply dot_zeros|].
  destruct s; cbn [app dot]; [reflexivity|]. rewrite IH. lia.
Qed.

Lemma rev_repeat {A} (x : A) k : rev (repeat x k) = repeat x k.
Proof. induction k; cbn; [reflexivity|]. rewrite IHk, <- repeat_cons. reflexivity. Qed.

(** The predictor on the reversed past sees the last samples. *)
Lemma dot_past cs pre h : length cs = length h ->
  dot (rev cs) (rev (pre ++ h)) = dot cs h.
Proof.
  intros H. rewrite rev_app_distr, dot_extra by (rewrite !rev_length; exact H).
  apply dot_rev, H.
Qed.

(** * Fixed prediction *)

Lemma i32_add_mod a b : i32 (i32 a + b) = i32 (a + b).
Proof.
  unfold i32. f_equal.
  replace ((a + 2 ^ 31) mod 2 ^ 32 - 2 ^ 31 + b + 2 ^ 31) with ((a + 2 ^ 31) mod 2 ^ 32 + b) by lia.
  rewrite Z.add_mod_idemp_l by lia. f_equal. lia.
Qed.
Lemma i32_add_mod_r a b : i32 (a + i32 b) = i32 (a + b).
Proof. rewrite Z.add_comm, i32_add_mod. f_equal. lia. Qed.

Lemma wrapping_dot_ok cs w x : i32 (wrapping_dot cs w + x) = i32 (dot cs w + x).
Proof.
  unfold wrapping_dot.
  assert (forall l s a, i32 (fold_left (fun a x => i32 (a + x))
            (map (fun p => i32 (fst p * snd p)) (combine l s)) a + x)
          = i32 (a + dot l s + x)) as H.
  { induction l as [|c l IH]; intros s a; [cbn; rewrite Z.add_0_r; reflexivity|].
    destruct s as [|y s]; [cbn; rewrite Z.add_0_r; reflexivity|].
    cbn [combine map fold_left dot fst snd]. rewrite IH.
    rewrite <- !Z.add_assoc. rewrite i32_add_mod.
    rewrite <- Z.add_assoc, (Z.add_comm a).
    rewrite <- (Z.add_assoc (i32 (c * y))), i32_add_mod. f_equal. lia. }
  rewrite H. reflexivity.
Qed.

Lemma split_last {A} (l : list A) k : (k <= length l)%nat ->
  exists pre h, l = pre ++ h /\ length h = k.
Proof.
  intros H. exists (firstn (length l - k) l), (skipn (length l - k) l).
  split; [symmetry; apply firstn_skipn|]. rewrite skipn_length. lia.
Qed.

Lemma fixed_predict_dot order cs pre h :
  fixed_coefficients order = Ok cs -> 0 <= order <= 4 -> Z.of_nat (length h) = order ->
  fixed_predict order (rev (pre ++ h)) = dot cs h /\ length cs = length h.
Proof.
  intros Hc Ho Hh. rewrite rev_app_distr. unfold fixed_coefficients in Hc.
  assert (order = 0 \/ order = 1 \/ order = 2 \/ order = 3 \/ order = 4) as Hcase by lia.
  destruct Hcase as [->|[->|[->|[->| ->]]]]; cbn in Hc; injection Hc as <-;
    do 5 (destruct h as [|? h]; try (cbn [length] in Hh; lia); try (cbn [rev app fixed_predict dot length]; split; lia)).
Qed.

Lemma predict_fixed_loop_ok order cs : fixed_coefficients order = Ok cs -> 0 <= order <= 4 ->
  forall rs done, order <= len done ->
  predict_fixed_loop cs (length rs) (len done - order) (done ++ rs)
  = Ok (done ++ restore (fixed_predict order) (rev done) rs).
Proof.
  intros Hc Ho. induction rs as [|r rs IH]; intros done Hd; cbn [predict_fixed_loop length restore];
    [reflexivity|].
  destruct (split_last done (Z.to_nat order)) as (pre & h & -> & Hh); [unfold len in Hd; lia|].
  destruct (fixed_predict_dot order cs pre h Hc Ho ltac:(lia)) as [Hp Hcs].
  rewrite len_app in *. assert (len h = order) as Hlh by (unfold len; lia).
  assert (len cs = order) as Hlc by (unfold len; lia).
  replace ((pre ++ h) ++ r :: rs) with (pre ++ (h ++ [r]) ++ rs)
    by (rewrite <- !app_assoc; reflexivity).
  rewrite slice_app; [|lia|rewrite len_app, len_cons, len_nil; lia].
  cbn [obind]. rewrite index_app by lia. cbn [obind].
  rewrite wrapping_dot_ok.
  rewrite dot_extra by exact Hcs. rewrite <- Hp.
  replace (pre ++ (h ++ [r]) ++ rs) with ((pre ++ h) ++ [r] ++ rs)
    by (rewrite <- !app_assoc; reflexivity).
  rewrite splice_app; [|rewrite len_app; lia|reflexivity].
  change (i32 ?x) with (wrap32 x).
  specialize (IH ((pre ++ h) ++ [wrap32 (fixed_predict order (rev (pre ++ h)) + r)])).
  rewrite !len_app, len_cons, len_nil in IH.
  replace (len pre + len h + (0 + 1) - order) with (len pre + len h - order + 1) in IH by lia.
  rewrite <- app_assoc in IH. rewrite IH by lia. rewrite <- app_assoc. cbn [app].
  rewrite (rev_app_distr (pre ++ h)). reflexivity.
Qed.

Lemma predict_fixed_ok m order warm rs : 0 <= order <= 4 -> len warm = order ->
  len (warm ++ rs) < 2 ^ 32 ->
  predict_fixed m order (warm ++ rs)
  = Ok (warm ++ restore (fixed_predict order) (rev warm) rs).
Proof.
  intros Ho Hw Hl. unfold predict_fixed. rewrite debug_assert_ok by lia. cbn [obind].
  destruct (fixed_coefficients order) as [cs|e|w|w|] eqn:Ec;
    try (unfold fixed_coefficients in Ec;
      assert (order = 0 \/ order = 1 \/ order = 2 \/ order = 3 \/ order = 4) as Hcase by lia;
      destruct Hcase as [E|[E|[E|[E|E]]]]; rewrite E in Ec; discriminate Ec).
  cbn [obind]. rewrite len_app in *. pose proof (len_nonneg rs).
  rewrite chk_u64 by lia. cbn [obind].
  replace (Z.to_nat (len warm + len rs - order)) with (length rs) by (unfold len in *; lia).
  pose proof (predict_fixed_loop_ok order cs Ec Ho rs warm ltac:(lia)) as H0.
  replace (len warm - order) with 0 in H0 by lia. exact H0.
Qed.

(** * Linear prediction *)

Definition coef_ok (c : Z) : Prop := - 2 ^ 14 <= c < 2 ^ 14.

Lemma dot_bound cs w : Forall coef_ok cs -> Forall isi32 w ->
  - len cs * 2 ^ 45 <= dot cs w <= len cs * 2 ^ 45.
Proof.
  intros Hc. revert w. induction Hc as [|c cs Hc Hcs IH]; intros w Hw.
  - cbn. lia.
  - rewrite len_cons. pose proof (len_nonneg cs). destruct Hw as [|s w Hs Hw]; cbn [dot]; [lia|].
    specialize (IH w Hw). unfold coef_ok, isi32 in *.
    assert (- 2 ^ 45 <= c * s <= 2 ^ 45) by nia. lia.
Qed.

Lemma checked_sum_ok m cs w : Forall coef_ok cs -> Forall isi32 w ->
  forall acc, - 2 ^ 62 + len cs * 2 ^ 45 <= acc <= 2 ^ 62 - len cs * 2 ^ 45 ->
  checked_sum m acc (combine cs w) = Ok (acc + dot cs w).
Proof.
  intros Hc. revert w. induction Hc as [|c cs Hc Hcs IH]; intros w Hw acc Ha.
  - cbn. rewrite Z.add_0_r. reflexivity.
  - rewrite len_cons in Ha. pose proof (len_nonneg cs).
    destruct Hw as [|s w Hs Hw]; cbn [combine checked_sum dot].
    + rewrite Z.add_0_r. reflexivity.
    + unfold coef_ok, isi32 in *.
      assert (- 2 ^ 45 <= c * s <= 2 ^ 45) by nia.
      rewrite chk_i64 by lia. cbn [obind]. rewrite chk_i64 by lia. cbn [obind].
      rewrite IH by (auto; lia). f_equal. lia.
Qed.

Lemma div_bound x s : 0 <= s -> - 2 ^ 62 <= x <= 2 ^ 62 -> - 2 ^ 62 <= x / 2 ^ s <= 2 ^ 62.
Proof.
  intros Hs Hx. pose proof (pow2_pos s Hs). split.
  - apply Z.div_le_lower_bound; [lia|]. nia.
  - apply Z.div_le_upper_bound; [lia|]. nia.
Qed.

Lemma lpc_loop_ok m cs shift : Forall coef_ok cs -> len cs <= 32 -> 0 <= shift < 64 ->
  forall rs1 rs2 done, len cs <= len done -> Forall isi32 done -> Forall isi32 rs1 ->
  lpc_loop m cs shift (length rs1) (len done) (done ++ rs1 ++ rs2)
  = Ok (done ++ restore (lpc_predict (rev cs) shift) (rev done) rs1 ++ rs2).
Proof.
  intros Hc Hlc Hs. induction rs1 as [|r rs IH]; intros rs2 done Hd Hdi Hri;
    cbn [lpc_loop length restore]; [reflexivity|].
  destruct (split_last done (length cs)) as (pre & h & -> & Hh); [unfold len in Hd; lia|].
  rewrite len_app in *. assert (len h = len cs) as Hlh by (unfold len; lia).
  apply Forall_app in Hdi as Hdi'. destruct Hdi' as [_ Hhi].
  inversion Hri as [|? ? Hr Hri']; subst.
  unfold lpc_step.
  replace ((pre ++ h) ++ (r :: rs) ++ rs2) with (pre ++ h ++ (r :: rs ++ rs2))
    by (rewrite <- !app_assoc; reflexivity).
  rewrite slice_app by lia. cbn [obind].
  pose proof (len_nonneg cs).
  rewrite checked_sum_ok by (auto; lia). cbn [obind]. rewrite Z.add_0_l.
  rewrite shr_ok by lia. cbn [obind].
  rewrite app_assoc. rewrite index_app by (rewrite len_app; lia). cbn [obind].
  pose proof (dot_bound cs h Hc Hhi) as Hdb.
  pose proof (div_bound (dot cs h) shift ltac:(lia) ltac:(lia)) as Hdb'.
  unfold isi32 in Hr. rewrite chk_i64 by lia. cbn [obind].
  change (r :: rs ++ rs2) with ([r] ++ rs ++ rs2).
  rewrite splice_app; [|rewrite len_app; lia|reflexivity].
  change (i32 ?x) with (wrap32 x).
  assert (lpc_predict (rev cs) shift (rev (pre ++ h)) = dot cs h / 2 ^ shift) as Ep
    by (unfold lpc_predict; rewrite dot_past by lia; reflexivity).
  rewrite Ep.
  specialize (IH rs2 ((pre ++ h) ++ [wrap32 (dot cs h / 2 ^ shift + r)])).
  rewrite !len_app, len_cons, len_nil in IH.
  replace (len pre + len h + (0 + 1)) with (len pre + len h + 1) in IH by lia.
  rewrite app_assoc. rewrite IH; [|lia| |exact Hri'].
  - rewrite <- !app_assoc. cbn [app]. rewrite !app_assoc, (rev_app_distr (pre ++ h)).
    reflexivity.
  - apply Forall_app. split; [exact Hdi|]. constructor; [apply wrap32_range|constructor].
Qed.

Lemma predict_lpc_high_ok m cs shift warm rs :
  Forall coef_ok cs -> 12 < len cs <= 32 -> 0 <= shift < 64 -> len warm = len cs ->
  Forall isi32 warm -> Forall isi32 rs ->
  predict_lpc_high_order m cs shift (warm ++ rs)
  = Ok (warm ++ restore (lpc_predict (rev cs) shift) (rev warm) rs).
Proof.
  intros Hc Hl Hs Hw Hwi Hri. unfold predict_lpc_high_order.
  pose proof (len_nonneg rs).
  rewrite !debug_assert_ok by (rewrite ?len_app; lia). cbn [obind].
  replace (Z.to_nat (len (warm ++ rs) - len cs)) with (length rs)
    by (rewrite len_app; unfold len in *; lia).
  rewrite <- Hw. rewrite <- (app_nil_r rs) at 2.
  rewrite lpc_loop_ok by (auto; lia). rewrite app_nil_r. reflexivity.
Qed.

Lemma predict_lpc_low_ok m cs shift warm rs :
  Forall coef_ok cs -> 1 <= len cs <= 12 -> 0 <= shift < 64 -> len warm = len cs ->
  Forall isi32 warm -> Forall isi32 rs ->  len (warm ++ rs) < 2 ^ 32 ->
  predict_lpc_low_order m cs shift (warm ++ rs)
  = Ok (warm ++ restore (lpc_predict (rev cs) shift) (rev warm) rs).
Proof.
  intros Hc Hl Hs Hw Hwi Hri Hlen. unfold predict_lpc_low_order.
  pose proof (len_nonneg rs). rewrite len_app in Hlen.
  rewrite !debug_assert_ok by lia. cbn [obind].
  rewrite chk_u64 by lia. cbn [obind].
  destruct (Z.leb_spec (len cs) 12); [|lia]. cbn [obind].
  rewrite chk_u64 by (rewrite len_app; lia). cbn [obind].
  rewrite len_app.
  set (k := Z.to_nat (Z.min 12 (len warm + len rs) - len cs)).
  assert (k <= length rs)%nat as Hk by (unfold k, len in *; lia).
  assert (length (firstn k rs) = k) as Hfk by (rewrite firstn_length; lia).
  assert (Forall isi32 (firstn k rs)) as H1 by (apply Forall_firstn, Hri).
  assert (Forall isi32 (skipn k rs)) as H2 by (apply Forall_skipn, Hri).
  rewrite <- Hw. rewrite <- (firstn_skipn k rs) at 1. rewrite <- Hfk at 1.
  rewrite lpc_loop_ok by (auto; lia). cbn [obind].
  set (f := lpc_predict (rev cs) shift).
  assert (restore f (rev warm) rs
          = restore f (rev warm) (firstn k rs)
            ++ restore f (rev (restore f (rev warm) (firstn k rs)) ++ rev warm) (skipn k rs)) as ER
    by (rewrite <- restore_app, firstn_skipn; reflexivity).
  rewrite !len_app.
  assert (len (skipn k rs) = len rs - Z.of_nat k) as Hsk by (unfold len; rewrite skipn_length; lia).
  set (d := restore f (rev warm) (firstn k rs)) in *.
  assert (len d = Z.of_nat k) as Hld by (unfold d, len; rewrite restore_length, Hfk; reflexivity).
  assert (Z.of_nat k = Z.min 12 (len warm + len rs) - len cs) as Hkz by lia.
  clearbody k.
  destruct (Z.leb_spec (len warm + (len d + len (skipn k rs))) 12) as [Hle|Hgt].
  - assert (skipn k rs = []) as E0.
    { apply skipn_all2. unfold len in *. lia. }
    rewrite ER, E0. cbn [restore]. rewrite !app_nil_r. reflexivity.
  - replace (Z.to_nat (len warm + (len d + len (skipn k rs)) - 12)) with (length (skipn k rs))
      by (rewrite skipn_length; unfold len in *; lia).
    assert (12 = len (warm ++ d)) as H12 by (rewrite len_app; lia).
    replace (lpc_loop m (repeat 0 (Z.to_nat (12 - len warm)) ++ cs) shift (length (skipn k rs)) 12)
      with (lpc_loop m (repeat 0 (Z.to_nat (12 - len warm)) ++ cs) shift (length (skipn k rs)) (len (warm ++ d)))
      by (f_equal; lia).
    rewrite app_assoc. rewrite <- (app_nil_r (skipn k rs)) at 2.
    rewrite lpc_loop_ok.
    + rewrite app_nil_r. rewrite ER. rewrite <- app_assoc. do 3 f_equal.
      rewrite (rev_app_distr warm). apply restore_ext. intros p. unfold f, lpc_predict.
      rewrite rev_app_distr, rev_repeat, dot_pad. reflexivity.
    + apply Forall_app. split; [|exact Hc]. apply Forall_forall. intros x Hx.
      apply repeat_spec in Hx as ->. unfold coef_ok. lia.
    + rewrite len_app, len_repeat. lia.
    + lia.
    + rewrite len_app, len_repeat. lia.
    + apply Forall_app. split; [exact Hwi|apply restore_i32].
    + exact H2.
Qed.
