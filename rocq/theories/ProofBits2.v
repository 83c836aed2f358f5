(** The rest of the bitstream refinement. *)
From Verif Require Export ProofBits.

Lemma sweep2 (n k : nat) (P : Z -> Z -> bool) :
  forallb (fun x => forallb (P x) (zrange k)) (zrange n) = true ->
  forall x y, 0 <= x < Z.of_nat n -> 0 <= y < Z.of_nat k -> P x y = true.
Proof. intros H x y Hx Hy. apply (sweep k); [|exact Hy]. exact (sweep n _ H x Hx). Qed.

(** The leading zeros of the [n] bits [d], held in the top of a byte. *)
Definition lz_check (n d : Z) : bool :=
  if 2 ^ n <=? d then true else
  let data := d * 2 ^ (8 - n) in
  let lz := leading_zeros_u8 data in
  if lz <? n then
    let d' := d mod 2 ^ (n - 1 - lz) in
    (if list_eq_dec bool_dec (bits_of (Z.to_nat n) d)
          (repeat false (Z.to_nat lz) ++ true :: bits_of (Z.to_nat (n - 1 - lz)) d')
     then true else false)
    && (u8 (data * 2 ^ (lz + 1)) =? d' * 2 ^ (8 - (n - 1 - lz)))
    && (0 <=? lz)
  else
    (if list_eq_dec bool_dec (bits_of (Z.to_nat n) d) (repeat false (Z.to_nat n))
     then true else false)
    && (if n =? 8 then lz =? 8 else true).

Lemma lz_check_ok n d : 0 <= n <= 8 -> 0 <= d < 2 ^ n -> lz_check n d = true.
Proof.
  intros Hn Hd. apply (sweep2 9 256); [vm_compute; reflexivity|lia|].
  split; [lia|]. apply Z.lt_le_trans with (2 ^ n); [lia|].
  change (Z.of_nat 256) with (2 ^ 8). apply Z.pow_le_mono_r; lia.
Qed.

Lemma lz_some n d : (n <= 8)%nat -> 0 <= d < 2 ^ Z.of_nat n ->
  leading_zeros_u8 (d * 2 ^ (8 - Z.of_nat n)) < Z.of_nat n ->
  exists z d', leading_zeros_u8 (d * 2 ^ (8 - Z.of_nat n)) = Z.of_nat z
    /\ (z < n)%nat
    /\ bits_of n d = repeat false z ++ true :: bits_of (n - 1 - z) d'
    /\ 0 <= d' < 2 ^ Z.of_nat (n - 1 - z)
    /\ u8 (d * 2 ^ (8 - Z.of_nat n) * 2 ^ (Z.of_nat z + 1)) = d' * 2 ^ (8 - Z.of_nat (n - 1 - z)).
Proof.
  intros Hn Hd Hlt. pose proof (lz_check_ok (Z.of_nat n) d ltac:(lia) Hd) as H.
  unfold lz_check in H.
  destruct (Z.leb_spec (2 ^ Z.of_nat n) d); [lia|].
  destruct (Z.ltb_spec (leading_zeros_u8 (d * 2 ^ (8 - Z.of_nat n))) (Z.of_nat n)); [|lia].
  set (lz := leading_zeros_u8 _) in *.
  apply andb_true_iff in H as [H Hp]. apply andb_true_iff in H as [H Hu].
  destruct (list_eq_dec _ _ _) as [E|]; [|discriminate].
  exists (Z.to_nat lz), (d mod 2 ^ (Z.of_nat n - 1 - lz)).
  replace (Z.of_nat (n - 1 - Z.to_nat lz)) with (Z.of_nat n - 1 - lz) by lia.
  replace (n - 1 - Z.to_nat lz)%nat with (Z.to_nat (Z.of_nat n - 1 - lz)) by lia.
  rewrite !Z2Nat.id by lia. rewrite Nat2Z.id in E.
  split; [reflexivity|]. split; [lia|]. split; [exact E|].
  split; [apply Z.mod_pos_bound, pow2_pos; lia|]. lia.
Qed.

Lemma lz_none n d : (n <= 8)%nat -> 0 <= d < 2 ^ Z.of_nat n ->
  Z.of_nat n <= leading_zeros_u8 (d * 2 ^ (8 - Z.of_nat n)) ->
  bits_of n d = repeat false n
  /\ (n = 8%nat -> leading_zeros_u8 (d * 2 ^ (8 - Z.of_nat n)) = 8).
Proof.
  intros Hn Hd Hlt. pose proof (lz_check_ok (Z.of_nat n) d ltac:(lia) Hd) as H.
  unfold lz_check in H.
  destruct (Z.leb_spec (2 ^ Z.of_nat n) d); [lia|].
  destruct (Z.ltb_spec (leading_zeros_u8 (d * 2 ^ (8 - Z.of_nat n))) (Z.of_nat n)); [lia|].
  apply andb_true_iff in H as [H Hu].
  destruct (list_eq_dec _ _ _) as [E|]; [|discriminate].
  rewrite !Nat2Z.id in E. split; [exact E|]. intros ->. change (Z.of_nat 8 =? 8) with true in Hu. cbv iota in Hu. lia.
Qed.

Lemma unary_split_zeros k r :
  unary_split (repeat false k ++ r)
  = (Z.of_nat k + fst (unary_split r), snd (unary_split r)).
Proof.
  induction k as [|k IH]; cbn [repeat app].
  - destruct (unary_split r); reflexivity.
  - cbn [unary_split]. rewrite IH. f_equal. lia.
Qed.

Section Refine.
  Context (t : tail) (m : build) (fuel : nat).
  Notation rb := (fl_rb t).
  Notation R := (bitsrel fuel).

  Lemma R_intro' n d l data bl bits : (n <= 7)%nat -> 0 <= d < 2 ^ Z.of_nat n ->
    bytes_ok l -> (length l < fuel)%nat -> data = d * 2 ^ (8 - Z.of_nat n) ->
    bits = bits_of n d ++ bytes_bits l -> bl = Z.of_nat n ->
    R (mkBS l data bl) bits.
  Proof. intros. subst bl. eapply R_intro; eauto. Qed.

  Lemma read_bit_sim : sim no_esc R eq (read_bit rb m) (bl_bit t).
  Proof.
    apply sim_run; [|apply bit_not_ours]. intros n d l Hn Hd Hok Hl.
    unfold read_bit. rewrite bind_get. cbn [bs_bits_left bs_data bs_reader].
    destruct (Z.eqb_spec (Z.of_nat n) 0) as [E|E].
    - assert (n = 0%nat) as -> by lia. cbn [bits_of app].
      rewrite !bind_assoc. destruct l as [|f l].
      + rewrite (bind_err _ _ _ _ _ (bs_read_u8_nil _ _ _)).
        eexists; split; [reflexivity|discriminate].
      + inversion Hok as [|? ? Hf Hok']; subst. unfold is_byte in Hf.
        rewrite (bind_run _ _ _ _ _ (bs_read_u8_cons _ _ _ _ _)). rewrite !bind_assoc.
        unfold bs_set at 1. erewrite bind_run by reflexivity.
        erewrite bind_run by reflexivity. cbn [bs_reader].
        rewrite bytes_bits_cons. change (bits_of 8 f) with (Z.testbit f 7 :: bits_of 7 f).
        cbn [app bl_bit fst snd].
        enough (forall f, 0 <= f < Z.of_nat 256 ->
                 Bool.eqb (negb (Z.land f 128 =? 0)) (Z.testbit f 7)
                 && (u8 (Z.shiftl f 1) =? f mod 2 ^ 7 * 2) = true) as HS.
        { specialize (HS f ltac:(lia)). apply andb_true_iff in HS as [H1 H2].
          apply eqb_prop in H1. rewrite <- H1. eexists; split; [reflexivity|].
          intros _ _. apply (R_intro fuel 7 (f mod 2 ^ 7)); auto; try (cbn [length] in Hl; lia).
          f_equal. symmetry. apply (bits_of_mod 7 f 7). lia. }
        apply sweep. vm_compute. reflexivity.
    - rewrite !bind_assoc. rewrite chk_u32 by lia. rewrite bind_lift_ok, !bind_assoc.
      unfold bs_set at 1. erewrite bind_run by reflexivity.
      erewrite bind_run by reflexivity. cbn [bs_reader].
      destruct n as [|n]; [lia|]. cbn [bits_of app bl_bit fst snd].
      enough (forall n d, 0 <= n < Z.of_nat 7 -> 0 <= d < Z.of_nat 128 ->
               implb (d <? 2 ^ (n + 1))
                 (Bool.eqb (negb (Z.land (d * 2 ^ (7 - n)) 128 =? 0)) (Z.testbit d n)
                  && (u8 (Z.shiftl (d * 2 ^ (7 - n)) 1) =? d mod 2 ^ n * 2 ^ (8 - n)))
               = true) as HS.
      { assert (2 ^ Z.of_nat (S n) <= 2 ^ 7) by (apply Z.pow_le_mono_r; lia).
        specialize (HS (Z.of_nat n) d ltac:(lia) ltac:(lia)).
        replace (8 - Z.of_nat (S n)) with (7 - Z.of_nat n) by lia.
        replace (Z.of_nat (S n)) with (Z.of_nat n + 1) in * by lia.
        destruct (Z.ltb_spec d (2 ^ (Z.of_nat n + 1))); [|lia]. cbn [implb] in HS.
        apply andb_true_iff in HS as [H1 H2].
        apply eqb_prop in H1. rewrite <- H1. eexists; split; [reflexivity|].
        intros _ _. replace (Z.of_nat n + 1 - 1) with (Z.of_nat n) by lia.
        apply (R_intro fuel n (d mod 2 ^ Z.of_nat n)); auto; try lia.
        rewrite (bits_of_mod n d n) by lia. reflexivity. }
      apply sweep2. vm_compute. reflexivity.
  Qed.

  (** [bl_unary] with [a] zeros already seen. *)
  Definition bl_unary_from (a : Z) : M (list bool) Z := fun bits =>
    let (z, o) := unary_split bits in
    if match m with Debug => 2 ^ 32 <=? a + z | Release => false end
    then (Panic "attempt to perform arithmetic with overflow", [])
    else match o with
         | Some r => (Ok (u32 (a + z)), r)
         | None => (Err (tail_error t), [])
         end.

  Lemma chk_count a k : 0 <= a -> 0 <= k <= 8 ->
    (m = Debug -> a < 2 ^ 32) ->
    chk m u32 (u32 a + k) =
    if match m with Debug => 2 ^ 32 <=? a + k | Release => false end
    then Panic "attempt to perform arithmetic with overflow" else Ok (u32 (a + k)).
  Proof.
    intros Ha Hk Hd. unfold chk.
    assert (u32 (u32 a + k) = u32 (a + k)) as ->
      by (unfold u32; rewrite Z.add_mod_idemp_l by lia; reflexivity).
    destruct m.
    - rewrite (u32_id a) by (specialize (Hd eq_refl); lia).
      destruct (Z.leb_spec (2 ^ 32) (a + k)).
      + destruct (Z.eqb_spec (u32 (a + k)) (a + k)); [|reflexivity].
        pose proof (u32_range (a + k)). lia.
      + rewrite u32_id by lia. rewrite Z.eqb_refl. reflexivity.
    - destruct (Z.eqb_spec (u32 (a + k)) (u32 a + k)); congruence.
  Qed.

  Lemma read_unary_loop_run l : forall F a data bl,
    0 <= a -> (m = Debug -> a < 2 ^ 32) ->
    bytes_ok l -> (length l < F)%nat -> (F <= fuel)%nat ->
    exists st', read_unary_loop rb m F (u32 a) (mkBS l data bl)
      = (fst (bl_unary_from a (bytes_bits l)), st')
      /\ (forall x, fst (bl_unary_from a (bytes_bits l)) = Ok x ->
            R st' (snd (bl_unary_from a (bytes_bits l)))).
  Proof.
    induction l as [|f l IH]; intros F a data bl Ha Hd Hok HF HFf;
      (destruct F as [|F]; [cbn [length] in HF; lia|]); cbn [read_unary_loop].
    - rewrite (bind_err _ _ _ _ _ (bs_read_u8_nil _ _ _)).
      unfold bl_unary_from. cbn [bytes_bits flat_map unary_split].
      replace (match m with Debug => 2 ^ 32 <=? a + 0 | Release => false end) with false
        by (destruct m; [specialize (Hd eq_refl)|]; lia).
      eexists; split; [reflexivity|discriminate].
    - inversion Hok as [|? ? Hf Hok']; subst. unfold is_byte in Hf.
      rewrite (bind_run _ _ _ _ _ (bs_read_u8_cons _ _ _ _ _)).
      rewrite bytes_bits_cons.
      assert (leading_zeros_u8 f = leading_zeros_u8 (f * 2 ^ (8 - Z.of_nat 8))) as Ef
        by (f_equal; cbn; lia).
      rewrite Ef.
      destruct (Z_lt_le_dec (leading_zeros_u8 (f * 2 ^ (8 - Z.of_nat 8))) (Z.of_nat 8)) as [Hlt|Hge].
      + destruct (lz_some 8 f ltac:(lia) ltac:(cbn; lia) Hlt) as (z & d' & Ez & Hz & Eb & Hd' & Eu).
        rewrite Ez, Eb. rewrite <- app_assoc. cbn [app].
        unfold bl_unary_from. rewrite unary_split_zeros. cbn [unary_split fst snd].
        rewrite chk_count by (auto; lia). rewrite Z.add_0_r.
        destruct (match m with Debug => 2 ^ 32 <=? a + Z.of_nat z | Release => false end) eqn:Ed.
        * eexists; split; [reflexivity|discriminate].
        * rewrite bind_lift_ok.
          destruct (Z.ltb_spec (Z.of_nat z) 8); [|lia].
          rewrite chk_u32 by lia. rewrite bind_lift_ok.
          rewrite shift_left_ok by lia. rewrite bind_lift_ok.
          unfold bs_set. erewrite bind_run by reflexivity. cbn [bs_reader].
          eexists; split; [reflexivity|]. intros _ _. cbn [fst snd].
          replace (8 - (Z.of_nat z + 1)) with (Z.of_nat (8 - 1 - z)) by lia.
          apply (R_intro fuel _ d'); auto; try (cbn [length] in HF; lia).
          rewrite <- Eu. f_equal. cbn. lia.
      + destruct (lz_none 8 f ltac:(lia) ltac:(cbn; lia) Hge) as [Eb E8].
        rewrite E8 by reflexivity. rewrite Eb.
        rewrite chk_count by (auto; lia).
        assert (bl_unary_from a (repeat false 8 ++ bytes_bits l)
                = bl_unary_from (a + 8) (bytes_bits l)) as EB.
        { unfold bl_unary_from. rewrite unary_split_zeros.
          destruct (unary_split (bytes_bits l)) as [z o]; cbn [fst snd].
          rewrite Z.add_assoc. reflexivity. }
        rewrite EB.
        destruct (match m with Debug => 2 ^ 32 <=? a + 8 | Release => false end) eqn:Ed.
        * pose proof (unary_split_nonneg (bytes_bits l)).
          unfold bl_unary_from. destruct (unary_split (bytes_bits l)) as [z o]; cbn [fst] in *.
          destruct m; [|discriminate].
          destruct (Z.leb_spec (2 ^ 32) (a + 8 + z)); [|lia].
          eexists; split; [reflexivity|discriminate].
        * rewrite bind_lift_ok. change (8 <? 8) with false. cbv iota.
          apply IH; auto; try (cbn [length] in HF; lia).
          intros ->. lia.
  Qed.

  Lemma read_unary_sim : sim no_esc R eq (read_unary rb m fuel) (bl_unary t m).
  Proof.
    apply sim_run; [|apply unary_not_ours]. intros n d l Hn Hd Hok Hl.
    unfold read_unary. rewrite bind_get. cbn [bs_bits_left bs_data bs_reader].
    destruct (Z.ltb_spec (leading_zeros_u8 (d * 2 ^ (8 - Z.of_nat n))) (Z.of_nat n)) as [Hlt|Hge].
    - destruct (lz_some n d ltac:(lia) Hd Hlt) as (z & d' & Ez & Hz & Eb & Hd' & Eu).
      rewrite Ez, Eb. rewrite <- app_assoc. cbn [app].
      unfold bl_unary. rewrite unary_split_zeros. cbn [unary_split fst snd]. rewrite Z.add_0_r.
      replace (match m with Debug => 2 ^ 32 <=? Z.of_nat z | Release => false end) with false
        by (destruct m; lia).
      rewrite u32_id by lia.
      rewrite shl_ok by lia. rewrite bind_lift_ok.
      rewrite chk_u32 by lia. rewrite bind_lift_ok.
      unfold bs_set. erewrite bind_run by reflexivity. cbn [bs_reader].
      eexists; split; [reflexivity|]. intros _ _. cbn [fst snd].
      replace (Z.of_nat n - (Z.of_nat z + 1)) with (Z.of_nat (n - 1 - z)) by lia.
      apply (R_intro fuel _ d'); auto; lia.
    - destruct (lz_none n d ltac:(lia) Hd Hge) as [Eb _]. rewrite Eb.
      assert (bl_unary t m (repeat false n ++ bytes_bits l)
              = bl_unary_from (Z.of_nat n) (bytes_bits l)) as EB.
      { unfold bl_unary, bl_unary_from. rewrite unary_split_zeros.
        destruct (unary_split (bytes_bits l)) as [z o]; reflexivity. }
      rewrite EB.
      replace (read_unary_loop rb m fuel (Z.of_nat n))
        with (read_unary_loop rb m fuel (u32 (Z.of_nat n))) by (rewrite u32_id by lia; reflexivity).
      apply read_unary_loop_run; auto; lia.
  Qed.

  Lemma div_parts f s : 0 <= s <= 8 -> 0 <= f < 256 ->
    f = f / 2 ^ (8 - s) * 2 ^ (8 - s) + f mod 2 ^ (8 - s)
    /\ 0 <= f / 2 ^ (8 - s) < 2 ^ s /\ 0 <= f mod 2 ^ (8 - s) < 2 ^ (8 - s).
  Proof.
    intros Hs Hf. pose proof (pow2_pos (8 - s) ltac:(lia)).
    pose proof (Z.div_mod f (2 ^ (8 - s)) ltac:(lia)).
    pose proof (Z.mod_pos_bound f (2 ^ (8 - s)) ltac:(lia)).
    repeat split; try lia.
    - apply Z.div_pos; lia.
    - apply Z.div_lt_upper_bound; [lia|]. rewrite <- Z.pow_add_r by lia.
      replace (8 - s + s) with 8 by lia. lia.
  Qed.

  (** A word assembled from two pieces. *)
  Lemma bits_of_app_z n s a b : 0 <= s -> 0 <= b < 2 ^ s ->
    bits_of n a ++ bits_of (Z.to_nat s) b = bits_of (n + Z.to_nat s) (a * 2 ^ s + b).
  Proof.
    intros Hs Hb. rewrite <- bits_of_app; rewrite Z2Nat.id by lia; [reflexivity|exact Hb].
  Qed.

  Lemma bits_of_split8 f s : 0 <= s <= 8 -> 0 <= f < 256 ->
    bits_of 8 f = bits_of (Z.to_nat s) (f / 2 ^ (8 - s))
                  ++ bits_of (Z.to_nat (8 - s)) (f mod 2 ^ (8 - s)).
  Proof.
    intros Hs Hf. destruct (div_parts f s Hs Hf) as (E & H1 & H2).
    rewrite bits_of_app_z by lia. rewrite <- E. f_equal. lia.
  Qed.

  Lemma land_msb d s : 0 <= d < 128 -> 0 <= s <= 16 ->
    Z.land (d * 2 ^ s) (u32 (4294967295 * 2 ^ s)) = d * 2 ^ s.
  Proof.
    intros Hd Hs.
    enough (forall d s, 0 <= d < Z.of_nat 128 -> 0 <= s < Z.of_nat 17 ->
      (Z.land (d * 2 ^ s) (u32 (4294967295 * 2 ^ s)) =? d * 2 ^ s) = true) as H.
    { specialize (H d s ltac:(lia) ltac:(lia)). lia. }
    apply sweep2. vm_compute. reflexivity.
  Qed.

  Lemma u8_u32 x : u8 (u32 x) = u8 x.
  Proof.
    unfold u8, u32. symmetry. apply Znumtheory.Zmod_div_mod; try lia. exists (2 ^ 24). lia.
  Qed.

  Lemma read_gt_u8_leq_u16_sim k : (8 < k <= 16)%nat ->
    sim no_esc R eq (read_gt_u8_leq_u16 rb m (Z.of_nat k)) (bl_bits t k).
  Proof.
    intros Hk. apply sim_run; [|apply bits_not_ours]. intros n d l Hn Hd Hok Hl.
    unfold read_gt_u8_leq_u16. rewrite debug_assert_ok by lia. rewrite bind_lift_ok, bind_get.
    cbn [bs_bits_left bs_data bs_reader].
    set (s := Z.of_nat k - Z.of_nat n). assert (2 <= s <= 16) as Hs by lia.
    assert (2 ^ Z.of_nat n <= 2 ^ 7) as Hn7 by (apply Z.pow_le_mono_r; lia).
    rewrite chk_u32 by lia. rewrite bind_lift_ok.
    rewrite shl_ok by lia. rewrite bind_lift_ok.
    rewrite chk_u32 by lia. rewrite bind_lift_ok.
    rewrite shl_ok by lia. rewrite bind_lift_ok.
    rewrite bind_lift_ok. fold s.
    assert (u32 (d * 2 ^ (8 - Z.of_nat n) * 2 ^ (Z.of_nat k - 8)) = d * 2 ^ s) as Em.
    { rewrite <- Z.mul_assoc, <- Z.pow_add_r by lia.
      replace (8 - Z.of_nat n + (Z.of_nat k - 8)) with s by lia.
      apply u32_id. assert (2 ^ s <= 2 ^ 16) by (apply Z.pow_le_mono_r; lia).
      pose proof (pow2_pos s ltac:(lia)). nia. }
    rewrite Em, land_msb by lia.
    assert (2 ^ Z.of_nat k = 2 ^ Z.of_nat n * 2 ^ s) as Ek
      by (rewrite <- Z.pow_add_r by lia; f_equal; lia).
    destruct l as [|f l].
    - rewrite (bind_err _ _ _ _ _ (bs_read_u8_nil _ _ _)).
      unfold bl_bits. cbn [bytes_bits flat_map]. rewrite app_nil_r, bits_of_length.
      destruct (Nat.leb_spec k n); [lia|].
      eexists; split; [reflexivity|discriminate].
    - inversion Hok as [|? ? Hf Hok']; subst. unfold is_byte in Hf.
      rewrite (bind_run _ _ _ _ _ (bs_read_u8_cons _ _ _ _ _)).
      destruct (Z.leb_spec s 8) as [Hs8|Hs8].
      + (* one byte is enough *)
        destruct (div_parts f s ltac:(lia) Hf) as (Ef & Hf1 & Hf2).
        assert (bl_bits t k (bits_of n d ++ bytes_bits (f :: l))
                = (Ok (d * 2 ^ s + f / 2 ^ (8 - s)),
                   bits_of (Z.to_nat (8 - s)) (f mod 2 ^ (8 - s)) ++ bytes_bits l)) as EB.
        { rewrite bytes_bits_cons, (bits_of_split8 f s) by lia.
          rewrite <- app_assoc, app_assoc, bits_of_app_z by lia.
          replace (n + Z.to_nat s)%nat with k by lia.
          apply bl_bits_app. nia. }
        rewrite EB. cbn [fst snd].
        assert ((if 8 <=? s then shl m u32 32 f (s - 8) else shr m 32 f (8 - s))
                = Ok (f / 2 ^ (8 - s))) as El.
        { destruct (Z.leb_spec 8 s).
          - assert (s = 8) as -> by lia. rewrite shl_ok by lia.
            cbn [Z.sub Z.pow]. f_equal. rewrite Z.mul_1_r, Z.div_1_r. apply u32_id; lia.
          - rewrite shr_ok by lia. reflexivity. }
        rewrite El, bind_lift_ok. cbv zeta.
        unfold bs_set. erewrite bind_run by reflexivity. cbn [bs_reader].
        rewrite lor_add by lia.
        eexists; split; [reflexivity|]. intros _ _.
        apply (R_intro' (Z.to_nat (8 - s)) (f mod 2 ^ (8 - s))); auto; try (cbn [length] in Hl; lia).
        * rewrite Z2Nat.id by lia. exact Hf2.
        * replace (8 - (8 - s)) with s by lia. rewrite Z.mod_small by lia.
          rewrite Z.shiftl_mul_pow2 by lia. rewrite u8_u32, u8_shift by lia.
          rewrite Z2Nat.id by lia. f_equal. f_equal. lia.
      + (* two bytes *)
        destruct (Z.leb_spec 8 s); [|lia].
        rewrite shl_ok by lia. rewrite bind_lift_ok. cbv zeta.
        assert (2 ^ s = 2 ^ 8 * 2 ^ (s - 8)) as E8
          by (rewrite <- Z.pow_add_r by lia; f_equal; lia).
        assert (2 ^ (s - 8) <= 2 ^ 8) by (apply Z.pow_le_mono_r; lia).
        pose proof (pow2_pos (s - 8) ltac:(lia)).
        rewrite (u32_id (f * _)) by nia. rewrite lor_add by nia.
        destruct l as [|g l].
        * rewrite (bind_err _ _ _ _ _ (bs_read_u8_nil _ _ _)).
          unfold bl_bits. cbn [bytes_bits flat_map]. rewrite app_nil_r, app_length, !bits_of_length.
          destruct (Nat.leb_spec k (n + 8)); [lia|].
          eexists; split; [reflexivity|discriminate].
        * inversion Hok' as [|? ? Hg Hok'']; subst. unfold is_byte in Hg.
          rewrite (bind_run _ _ _ _ _ (bs_read_u8_cons _ _ _ _ _)).
          rewrite chk_u32 by lia. rewrite bind_lift_ok.
          rewrite shr_ok by lia. rewrite bind_lift_ok.
          rewrite chk_u32 by lia. rewrite bind_lift_ok.
          unfold bs_set. erewrite bind_run by reflexivity. cbn [bs_reader].
          replace (16 - s) with (8 - (s - 8)) by lia.
          destruct (div_parts g (s - 8) ltac:(lia) Hg) as (Eg & Hg1 & Hg2).
          assert (bl_bits t k (bits_of n d ++ bytes_bits (f :: g :: l))
                = (Ok ((d * 2 ^ 8 + f) * 2 ^ (s - 8) + g / 2 ^ (8 - (s - 8))),
                   bits_of (Z.to_nat (8 - (s - 8))) (g mod 2 ^ (8 - (s - 8))) ++ bytes_bits l)) as EB.
          { rewrite !bytes_bits_cons, (bits_of_split8 g (s - 8)) by lia.
            rewrite <- (app_assoc (bits_of (Z.to_nat (s - 8)) _)).
            rewrite app_assoc. change 8%nat with (Z.to_nat 8) at 1.
            rewrite (bits_of_app_z n 8) by lia.
            rewrite app_assoc. rewrite bits_of_app_z by lia.
            replace (n + Z.to_nat 8 + Z.to_nat (s - 8))%nat with k by lia.
            apply bl_bits_app. nia. }
          rewrite EB. cbn [fst snd].
          replace (d * 2 ^ s + f * 2 ^ (s - 8)) with ((d * 2 ^ 8 + f) * 2 ^ (s - 8)) by nia.
          rewrite lor_add by lia.
          eexists; split; [reflexivity|]. intros _ _.
          apply (R_intro' (Z.to_nat (8 - (s - 8))) (g mod 2 ^ (8 - (s - 8)))); auto; try (cbn [length] in Hl; lia).
          -- rewrite Z2Nat.id by lia. exact Hg2.
          -- replace (8 - (8 - (s - 8))) with (s - 8) by lia. rewrite Z.mod_small by lia.
             rewrite Z.shiftl_mul_pow2 by lia. rewrite u8_u32, u8_shift by lia.
             rewrite Z2Nat.id by lia. f_equal. f_equal. lia.
  Qed.

  Lemma bl_bits_mask k l v r : bl_bits t k l = (Ok v, r) -> 0 <= v < 2 ^ Z.of_nat k.
  Proof. intros H. apply bl_bits_inv in H. tauto. Qed.

  (** Two pieces read one after the other and combined. *)
  Lemma sim_two (c1 c2 : M (bitstream (list Z)) Z) f a b :
    sim no_esc R eq c1 (bl_bits t a) -> sim no_esc R eq c2 (bl_bits t b) ->
    (forall x y, 0 <= x < 2 ^ Z.of_nat a -> 0 <= y < 2 ^ Z.of_nat b ->
       forall s, f x y s = (Ok (x * 2 ^ Z.of_nat b + y), s)) ->
    sim no_esc R eq (x <- c1 ;; y <- c2 ;; f x y) (bl_bits t (a + b)).
  Proof.
    intros H1 H2 Hf s1 s2 HR. rewrite bl_bits_split.
    specialize (H1 s1 s2 HR). unfold bind.
    destruct (bl_bits t a s2) as [o2 s2'] eqn:E2. cbn [fst snd] in H1.
    destruct (c1 s1) as [[x|e|w|w|] s1']; cbn [fst snd] in H1.
    2-5: destruct H1 as [[]|[-> H1]] || rewrite H1; cbn; auto.
    destruct H1 as (b' & -> & <- & HR').
    apply bl_bits_mask in E2.
    specialize (H2 _ _ HR').
    destruct (bl_bits t b s2') as [o3 s3'] eqn:E3. cbn [fst snd] in H2.
    destruct (c2 s1') as [[y|e|w|w|] s1'']; cbn [fst snd] in H2.
    2-5: destruct H2 as [[]|[-> H2]] || rewrite H2; cbn; auto.
    destruct H2 as (b' & -> & <- & HR'').
    apply bl_bits_mask in E3.
    rewrite Hf by assumption. cbn. eauto.
  Qed.

  Lemma sim_bind_lift_l {A B} (a : A) (f : A -> M (bitstream (list Z)) B) (c : M (list bool) B) :
    sim no_esc R eq (f a) c -> sim no_esc R eq (bind (lift (Ok a)) f) c.
  Proof. intros H s1 s2 HR. exact (H s1 s2 HR). Qed.

  Lemma read_leq_u16_sim k : (k <= 16)%nat ->
    sim no_esc R eq (read_leq_u16 rb m (Z.of_nat k)) (bl_bits t k).
  Proof.
    intros Hk. unfold read_leq_u16. rewrite debug_assert_ok by lia.
    apply sim_bind_lift_l.
    destruct (Z.leb_spec (Z.of_nat k) 8) as [H|H]; [apply read_leq_u8_sim; lia|].
    replace (bl_bits t k) with (bl_bits t (8 + (k - 8))) by (f_equal; lia).
    apply sim_two.
    - apply (read_leq_u8_sim t m fuel 8); lia.
    - replace (Z.of_nat k - 8) with (Z.of_nat (k - 8)) by lia.
      apply read_leq_u8_sim; lia.
    - intros x y Hx Hy s. rewrite shl_ok by lia. rewrite bind_lift_ok. unfold ret.
      replace (Z.of_nat k - 8) with (Z.of_nat (k - 8)) by lia.
      assert (2 ^ Z.of_nat (k - 8) <= 2 ^ 8) by (apply Z.pow_le_mono_r; lia).
      pose proof (pow2_pos (Z.of_nat (k - 8)) ltac:(lia)).
      change (2 ^ Z.of_nat 8) with 256 in Hx. change (2 ^ 8) with 256 in *.
      rewrite u16_id by nia. rewrite lor_add by lia. reflexivity.
  Qed.

  Lemma read_leq_u32_sim k : (k <= 32)%nat ->
    sim no_esc R eq (read_leq_u32 rb m (Z.of_nat k)) (bl_bits t k).
  Proof.
    intros Hk. unfold read_leq_u32. rewrite debug_assert_ok by lia.
    apply sim_bind_lift_l.
    destruct (Z.leb_spec (Z.of_nat k) 16) as [H|H]; [apply read_leq_u16_sim; lia|].
    replace (bl_bits t k) with (bl_bits t (16 + (k - 16))) by (f_equal; lia).
    apply sim_two.
    - apply (read_leq_u16_sim 16); lia.
    - replace (Z.of_nat k - 16) with (Z.of_nat (k - 16)) by lia.
      apply read_leq_u16_sim; lia.
    - intros x y Hx Hy s. rewrite shl_ok by lia. rewrite bind_lift_ok. unfold ret.
      replace (Z.of_nat k - 16) with (Z.of_nat (k - 16)) by lia.
      assert (2 ^ Z.of_nat (k - 16) <= 2 ^ 16) by (apply Z.pow_le_mono_r; lia).
      pose proof (pow2_pos (Z.of_nat (k - 16)) ltac:(lia)).
      change (2 ^ Z.of_nat 16) with (2 ^ 16) in Hx.
      rewrite u32_id by nia. rewrite lor_add by lia. reflexivity.
  Qed.
End Refine.
