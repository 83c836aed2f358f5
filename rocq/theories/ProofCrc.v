(** The table-driven checksums are the polynomial ones; what they detect. *)
From Verif Require Export SpecCrc ProofBits ProofInput.
From Verif Require Import SpecReader.

(** * Polynomials over GF(2) *)

Lemma bin_ind (P : Z -> Prop) : P 0 ->
  (forall a b, 0 <= a -> P a -> P (2 * a + Z.b2z b)) -> forall n, 0 <= n -> P n.
Proof.
  intros H0 HS n0 Hn0. revert Hn0. cut (0 <= n0 -> 0 <= n0 -> P n0); [auto|]. revert n0.
  apply (Z_lt_induction (fun n => 0 <= n -> P n)). intros n IH Hn.
  destruct (Z.eq_dec n 0) as [->|Hne]; [exact H0|].
  rewrite (Z.div2_odd n). apply HS; [apply Z.div2_nonneg; lia|].
  apply IH; [|apply Z.div2_nonneg; lia]. rewrite Z.div2_div. lia.
Qed.

Lemma lxor_step a b x y :
  Z.lxor (2 * a + Z.b2z x) (2 * b + Z.b2z y) = 2 * Z.lxor a b + Z.b2z (xorb x y).
Proof.
  apply Z.bits_inj'. intros i Hi. rewrite Z.lxor_spec.
  destruct (Z.eq_dec i 0) as [->|].
  - rewrite !Z.testbit_0_r. reflexivity.
  - replace i with (Z.succ (i - 1)) by lia.
    rewrite !Z.testbit_succ_r by lia. rewrite Z.lxor_spec. reflexivity.
Qed.
Lemma lxor_double a b : Z.lxor (2 * a) (2 * b) = 2 * Z.lxor a b.
Proof.
  pose proof (lxor_step a b false false) as H. cbn [Z.b2z xorb] in H. rewrite !Z.add_0_r in H. exact H.
Qed.
Lemma lxor_mul_pow a b k : 0 <= k -> Z.lxor (a * 2 ^ k) (b * 2 ^ k) = Z.lxor a b * 2 ^ k.
Proof.
  intros Hk. rewrite <- !Z.shiftl_mul_pow2 by lia. symmetry. apply Z.shiftl_lxor.
Qed.

Lemma clmul_step a b g : 0 <= a ->
  clmul (2 * a + Z.b2z b) g = Z.lxor (2 * clmul a g) (if b then g else 0).
Proof.
  intros Ha. destruct a as [|p|p]; [| |lia].
  - destruct b; cbn [Z.b2z clmul pmul Z.mul Z.add]; [rewrite Z.lxor_0_l|]; reflexivity.
  - destruct b; cbn [Z.b2z]; [reflexivity|]. rewrite Z.add_0_r, Z.lxor_0_r. reflexivity.
Qed.
Lemma clmul_0 g : clmul 0 g = 0.
Proof. reflexivity. Qed.

Lemma clmul_nonneg q g : 0 <= g -> 0 <= clmul q g.
Proof.
  intros Hg. destruct q as [|p|p]; cbn [clmul]; try lia.
  induction p; cbn [pmul]; try lia. apply Z.lxor_nonneg. lia.
Qed.

Lemma clmul_lxor g a : 0 <= a -> forall b, 0 <= b ->
  clmul (Z.lxor a b) g = Z.lxor (clmul a g) (clmul b g).
Proof.
  intros Ha. pattern a. apply bin_ind; [| |exact Ha].
  - intros b Hb. rewrite Z.lxor_0_l, clmul_0, Z.lxor_0_l. reflexivity.
  - clear a Ha. intros a x Ha IH b Hb. rewrite (Z.div2_odd b).
    pose proof (proj2 (Z.div2_nonneg b) Hb) as Hb2.
    rewrite lxor_step, !clmul_step by (try apply Z.lxor_nonneg; lia).
    rewrite IH by lia. rewrite <- lxor_double.
    destruct x, (Z.odd b); cbn [xorb]; rewrite ?Z.lxor_0_r.
    + rewrite Z.lxor_assoc, (Z.lxor_comm g). rewrite !Z.lxor_assoc, Z.lxor_nilpotent, Z.lxor_0_r. reflexivity.
    + rewrite !Z.lxor_assoc. f_equal. apply Z.lxor_comm.
    + rewrite Z.lxor_assoc. reflexivity.
    + reflexivity.
Qed.

Lemma clmul_shift q g k : 0 <= k -> clmul (q * 2 ^ k) g = clmul q g * 2 ^ k.
Proof.
  intros Hk. revert q. pattern k. apply natlike_ind; [| |exact Hk].
  - intros q. rewrite !Z.mul_1_r. reflexivity.
  - clear k Hk. intros k Hk IH q. rewrite Z.pow_succ_r by lia.
    replace (q * (2 * 2 ^ k)) with ((2 * q) * 2 ^ k) by lia. rewrite IH.
    assert (clmul (2 * q) g = 2 * clmul q g) as -> by (destruct q; reflexivity). lia.
Qed.

Lemma lxor_small a b n : 0 <= n -> 2 ^ n <= a < 2 ^ (n + 1) -> 0 <= b < 2 ^ n ->
  2 ^ n <= Z.lxor a b < 2 ^ (n + 1).
Proof.
  intros Hn Ha Hb.
  assert (a = 1 * 2 ^ n + a mod 2 ^ n) as Ea.
  { rewrite (Z.div_mod a (2 ^ n)) at 1 by lia.
    replace (a / 2 ^ n) with 1; [lia|]. rewrite Z.pow_add_r in Ha by lia.
    apply Z.div_unique with (a - 2 ^ n); lia. }
  pose proof (Z.mod_pos_bound a (2 ^ n) ltac:(lia)) as Hm.
  assert (Z.lxor a b = 1 * 2 ^ n + Z.lxor (a mod 2 ^ n) b) as ->.
  { rewrite Ea at 1. rewrite <- (lor_add 1 (a mod 2 ^ n) n) by lia.
    assert (forall y, 0 <= y < 2 ^ n -> 1 * 2 ^ n + y = Z.lxor (1 * 2 ^ n) y) as Hx.
    { intros y Hy. apply Z.add_nocarry_lxor. apply Z.bits_inj'. intros i Hi.
      rewrite Z.land_spec, Z.bits_0, Z.mul_1_l.
      rewrite Z.pow2_bits_eqb by lia. destruct (Z.eqb_spec n i) as [->|]; [|reflexivity].
      cbn [andb]. rewrite <- (Z.mod_small y (2 ^ i)) by lia.
      apply Z.mod_pow2_bits_high. lia. }
    rewrite lor_add by lia.
    assert (0 <= Z.lxor (a mod 2 ^ n) b < 2 ^ n) as Hl.
    { split; [apply Z.lxor_nonneg; lia|].
      destruct (Z.eq_dec (Z.lxor (a mod 2 ^ n) b) 0) as [->|Hne]; [lia|].
      apply Z.log2_lt_pow2; [pose proof (proj2 (Z.lxor_nonneg (a mod 2 ^ n) b) ltac:(lia)); lia|].
      assert (n <> 0).
      { intros ->. change (2 ^ 0) with 1 in *. assert (a mod 1 = 0) as E by apply Z.mod_1_r.
        apply Hne. rewrite E. assert (b = 0) as -> by lia. reflexivity. }
      eapply Z.le_lt_trans; [apply Z.log2_lxor; lia|].
      apply Z.max_lub_lt.
      - destruct (Z.eq_dec (a mod 2 ^ n) 0) as [->|]; [change (Z.log2 0) with 0; lia|].
        apply Z.log2_lt_pow2; lia.
      - destruct (Z.eq_dec b 0) as [->|]; [change (Z.log2 0) with 0; lia|].
        apply Z.log2_lt_pow2; lia. }
    rewrite (Hx _ Hm), (Hx _ Hl), Z.lxor_assoc. reflexivity. }
  assert (0 <= Z.lxor (a mod 2 ^ n) b < 2 ^ n) as Hl.
  { split; [apply Z.lxor_nonneg; lia|].
    destruct (Z.eq_dec (Z.lxor (a mod 2 ^ n) b) 0) as [->|Hne]; [lia|].
    apply Z.log2_lt_pow2; [pose proof (proj2 (Z.lxor_nonneg (a mod 2 ^ n) b) ltac:(lia)); lia|].
    assert (n <> 0).
    { intros ->. change (2 ^ 0) with 1 in *. assert (a mod 1 = 0) as E by apply Z.mod_1_r.
      apply Hne. rewrite E. assert (b = 0) as -> by lia. reflexivity. }
    eapply Z.le_lt_trans; [apply Z.log2_lxor; lia|].
    apply Z.max_lub_lt.
    - destruct (Z.eq_dec (a mod 2 ^ n) 0) as [->|]; [change (Z.log2 0) with 0; lia|].
      apply Z.log2_lt_pow2; lia.
    - destruct (Z.eq_dec b 0) as [->|]; [change (Z.log2 0) with 0; lia|].
      apply Z.log2_lt_pow2; lia. }
  rewrite Z.pow_add_r by lia. lia.
Qed.

(** Degrees add up. *)
Lemma clmul_degree w g : 0 <= w -> 2 ^ w <= g < 2 ^ (w + 1) ->
  forall q, 0 <= q -> q = 0 \/ exists k, 0 <= k /\ 2 ^ (k + w) <= clmul q g < 2 ^ (k + w + 1).
Proof.
  intros Hw Hg q Hq. pattern q. apply bin_ind; [left; reflexivity| |exact Hq].
  clear q Hq. intros a b Ha IH. rewrite clmul_step by lia.
  destruct IH as [->|(k & Hk & IH)].
  - destruct b; [right|left; reflexivity]. exists 0. split; [lia|].
    change (2 * clmul 0 g) with 0. rewrite Z.lxor_0_l, Z.add_0_l. exact Hg.
  - right. exists (k + 1). split; [lia|].
    assert (2 ^ (k + w + 1) <= 2 * clmul a g < 2 ^ (k + w + 1 + 1)) as H2.
    { rewrite (Z.pow_add_r 2 (k + w + 1) 1) by lia.
      rewrite (Z.pow_add_r 2 (k + w) 1) in * by lia. lia. }
    replace (k + 1 + w) with (k + w + 1) by lia.
    destruct b; [|rewrite Z.lxor_0_r; exact H2].
    apply lxor_small; [lia|exact H2|]. split; [lia|].
    apply Z.lt_le_trans with (2 ^ (w + 1)); [lia|]. apply Z.pow_le_mono_r; lia.
Qed.

Lemma divides_small w g e : 0 <= w -> 2 ^ w <= g < 2 ^ (w + 1) ->
  0 <= e < 2 ^ w -> divides g e -> e = 0.
Proof.
  intros Hw Hg He (q & Hq & ->).
  destruct (clmul_degree w g Hw Hg q Hq) as [->|(k & Hk & Hd)]; [reflexivity|].
  assert (2 ^ w <= 2 ^ (k + w)) by (apply Z.pow_le_mono_r; lia). lia.
Qed.

Lemma divides_lxor g a b : divides g a -> divides g b -> divides g (Z.lxor a b).
Proof.
  intros (p & Hp & ->) (q & Hq & ->). exists (Z.lxor p q).
  split; [apply Z.lxor_nonneg; lia|]. symmetry. apply clmul_lxor; assumption.
Qed.
Lemma divides_shift g a k : 0 <= k -> divides g a -> divides g (a * 2 ^ k).
Proof.
  intros Hk (q & Hq & ->). exists (q * 2 ^ k). split; [nia|]. symmetry. apply clmul_shift, Hk.
Qed.

(** If the constant term is 1, factors of x can be removed. *)
Lemma divides_unshift g e k : Z.odd g = true -> 0 <= e -> 0 <= k ->
  divides g (e * 2 ^ k) -> divides g e.
Proof.
  intros Hg He Hk. revert e He. pattern k. apply natlike_ind; [| |exact Hk].
  - intros e He. rewrite Z.mul_1_r. auto.
  - clear k Hk. intros k Hk IH e He H.
    rewrite Z.pow_succ_r in H by lia. replace (e * (2 * 2 ^ k)) with ((2 * e) * 2 ^ k) in H by lia.
    apply IH in H; [|lia]. destruct H as (q & Hq & E).
    rewrite (Z.div2_odd q), clmul_step in E by (apply Z.div2_nonneg; lia).
    assert (Z.odd q = false) as Ho.
    { apply (f_equal Z.odd) in E. rewrite Z.odd_mul in E. cbn [Z.odd andb] in E.
      destruct (Z.odd q); [|reflexivity]. rewrite <- Z.bit0_odd, Z.lxor_spec, !Z.bit0_odd in E.
      rewrite Z.odd_mul, Hg in E. discriminate. }
    rewrite Ho, Z.lxor_0_r in E. exists (Z.div2 q). split; [apply Z.div2_nonneg; lia|]. lia.
Qed.

(** * Lists of bits as polynomials *)
Lemma be_value_lxor l l' : length l = length l' ->
  Z.lxor (be_value l) (be_value l')
  = be_value (map (fun p => xorb (fst p) (snd p)) (combine l l')).
Proof.
  revert l'. induction l as [|x l IH] using rev_ind; intros l' Hl.
  - destruct l'; [reflexivity|discriminate].
  - destruct l' as [|y l'] using rev_ind; [rewrite app_length in Hl; cbn in Hl; lia|].
    clear IHl'. rewrite !app_length in Hl. cbn [length] in Hl.
    assert (length l = length l') as Hl' by lia.
    assert (combine (l ++ [x]) (l' ++ [y]) = combine l l' ++ [(x, y)]) as ->.
    { clear -Hl'. revert l' Hl'. induction l as [|a l IH]; intros [|b l'] H; try discriminate; [reflexivity|].
      cbn [app combine]. f_equal. apply IH. cbn in H. lia. }
    rewrite map_app. cbn [map fst snd]. rewrite !be_value_app. change (2 ^ len [x]) with 2.
    change (2 ^ len [y]) with 2. change (2 ^ len [xorb x y]) with 2.
    rewrite <- (IH l' Hl').
    replace (be_value [x]) with (Z.b2z x) by (destruct x; reflexivity).
    replace (be_value [y]) with (Z.b2z y) by (destruct y; reflexivity).
    replace (be_value [xorb x y]) with (Z.b2z (xorb x y)) by (destruct x, y; reflexivity).
    rewrite !(Z.mul_comm _ 2). apply lxor_step.
Qed.

Lemma message_lxor l l' : length l = length l' ->
  Z.lxor (message l) (message l') = be_value (difference l l').
Proof.
  intros H. apply be_value_lxor. rewrite !bytes_bits_length. lia.
Qed.

Lemma be_value_zeros n : be_value (repeat false n) = 0.
Proof.
  induction n as [|n IH]; [reflexivity|]. cbn [repeat]. rewrite be_value_cons, IH. reflexivity.
Qed.

Lemma be_value_in l : In true l -> 0 < be_value l.
Proof.
  induction l as [|b l IH]; [intros []|]. intros H. rewrite be_value_cons.
  pose proof (be_value_range l). destruct b; cbn [Z.b2z].
  - lia.
  - destruct H as [H|H]; [discriminate|]. specialize (IH H). lia.
Qed.

Lemma message_nil : message [] = 0.
Proof. reflexivity. Qed.
Lemma message_snoc l b : 0 <= b < 256 -> message (l ++ [b]) = message l * 2 ^ 8 + b.
Proof.
  intros Hb. unfold message. rewrite bytes_bits_app, be_value_app.
  cbn [bytes_bits flat_map]. rewrite app_nil_r.
  unfold len. rewrite bits_of_length. rewrite be_value_bits_of_id by (cbn; lia). reflexivity.
Qed.
Lemma message_app l r : message (l ++ r) = message l * 2 ^ (8 * len r) + message r.
Proof.
  unfold message. rewrite bytes_bits_app, be_value_app. do 2 f_equal. f_equal.
  unfold len. rewrite bytes_bits_length. lia.
Qed.

(** ** Errors that are not multiples of the polynomial *)
Section Detect.
  Context (w g : Z) (Hw : 0 < w) (Hg : 2 ^ w <= g < 2 ^ (w + 1)) (Hodd : Z.odd g = true).

  Lemma burst_detected k d : Z.of_nat k <= w -> burst k d -> ~ divides g (be_value d).
  Proof.
    intros Hk (a & mid & b & -> & Hl & Hin) H.
    rewrite be_value_app, be_value_zeros, Z.mul_0_l, Z.add_0_l in H.
    rewrite be_value_app, be_value_zeros, Z.add_0_r in H.
    pose proof (be_value_range mid) as Hr. pose proof (be_value_in mid Hin) as Hp.
    apply divides_unshift in H; [|assumption|lia|apply len_nonneg].
    apply (divides_small w g) in H; try lia.
    split; [lia|]. apply Z.lt_le_trans with (2 ^ len mid); [lia|].
    apply Z.pow_le_mono_r; unfold len; lia.
  Qed.

  (** Parity *)
  Fixpoint ppar (p : positive) : bool :=
    match p with xH => true | xO p => ppar p | xI p => negb (ppar p) end.
  Definition par (z : Z) : bool := match z with Zpos p => ppar p | _ => false end.

  Lemma par_step a b : 0 <= a -> par (2 * a + Z.b2z b) = xorb (par a) b.
  Proof.
    intros Ha. destruct a as [|p|p]; [destruct b; reflexivity| |lia].
    destruct b; cbn [Z.b2z].
    - change (2 * Z.pos p + 1) with (Z.pos p~1). cbn [par ppar]. destruct (ppar p); reflexivity.
    - change (2 * Z.pos p + 0) with (Z.pos p~0). cbn [par ppar]. destruct (ppar p); reflexivity.
  Qed.
  Lemma par_lxor a : 0 <= a -> forall b, 0 <= b -> par (Z.lxor a b) = xorb (par a) (par b).
  Proof.
    intros Ha. pattern a. apply bin_ind; [| |exact Ha].
    - intros b Hb. rewrite Z.lxor_0_l. destruct (par b); reflexivity.
    - clear a Ha. intros a x Ha IH b Hb. rewrite (Z.div2_odd b).
      pose proof (proj2 (Z.div2_nonneg b) Hb) as Hb2.
      rewrite lxor_step, !par_step by (try apply Z.lxor_nonneg; lia).
      rewrite IH by lia. destruct (par a), x, (par (Z.div2 b)), (Z.odd b); reflexivity.
  Qed.
  Lemma par_clmul q : par g = false -> 0 <= q -> par (clmul q g) = false.
  Proof.
    intros Hp Hq. assert (0 <= g) by lia. pattern q. apply bin_ind; [reflexivity| |exact Hq].
    clear q Hq. intros a b Ha IH. rewrite clmul_step by lia.
    pose proof (clmul_nonneg a g ltac:(lia)).
    rewrite par_lxor by (destruct b; lia).
    pose proof (par_step (clmul a g) false ltac:(lia)) as E. cbn [Z.b2z] in E. rewrite Z.add_0_r in E.
    rewrite E, IH. destruct b; [rewrite Hp|]; reflexivity.
  Qed.
  Lemma par_be_value l : par (be_value l) = Nat.odd (count_occ Bool.bool_dec l true).
  Proof.
    induction l as [|b l IH] using rev_ind; [reflexivity|].
    rewrite be_value_app, count_occ_app. change (2 ^ len [b]) with 2.
    replace (be_value [b]) with (Z.b2z b) by (destruct b; reflexivity).
    pose proof (be_value_range l). rewrite Z.mul_comm, par_step by lia. rewrite IH.
    rewrite Nat.odd_add. destruct b; cbn [count_occ]; destruct (Bool.bool_dec _ _); try congruence; reflexivity.
  Qed.
  Lemma odd_detected d : par g = false -> odd_flips d -> ~ divides g (be_value d).
  Proof.
    intros Hp Ho (q & Hq & E). unfold odd_flips in Ho. rewrite <- par_be_value, E, par_clmul in Ho by auto.
    discriminate.
  Qed.

  (** Powers of x modulo g *)
  Definition times_x (r : Z) : Z :=
    let r' := 2 * r in if 2 ^ w <=? r' then Z.lxor r' g else r'.
  Lemma times_x_ok a r : 0 <= r < 2 ^ w -> 0 <= a -> divides g (Z.lxor a r) ->
    0 <= times_x r < 2 ^ w /\ divides g (Z.lxor (2 * a) (times_x r)).
  Proof.
    intros Hr Ha H. unfold times_x.
    assert (2 ^ (w + 1) = 2 * 2 ^ w) as E1 by (rewrite Z.pow_add_r by lia; lia).
    assert (divides g (Z.lxor (2 * a) (2 * r))) as H2.
    { rewrite lxor_double. replace (2 * Z.lxor a r) with (Z.lxor a r * 2 ^ 1) by lia.
      apply divides_shift; [lia|exact H]. }
    destruct (Z.leb_spec (2 ^ w) (2 * r)).
    - split.
      + split; [apply Z.lxor_nonneg; lia|].
        destruct (Z.lt_ge_cases (Z.lxor (2 * r) g) (2 ^ w)) as [|Hge]; [assumption|exfalso].
        assert (Z.testbit (Z.lxor (2 * r) g) w = true) as Ht.
        { destruct (Z.lt_ge_cases (Z.lxor (2 * r) g) (2 ^ (w + 1))) as [Hlt|Hge'].
          - rewrite Z.testbit_true by lia.
            replace (Z.lxor (2 * r) g / 2 ^ w) with 1; [reflexivity|].
            apply Z.div_unique with (Z.lxor (2 * r) g - 2 ^ w); lia.
          - exfalso. assert (Z.log2 (Z.lxor (2 * r) g) <= Z.max (Z.log2 (2 * r)) (Z.log2 g)) as Hl
              by (apply Z.log2_lxor; lia).
            assert (Z.log2 (2 * r) < w + 1) by (apply Z.log2_lt_pow2; lia).
            assert (Z.log2 g < w + 1) by (apply Z.log2_lt_pow2; lia).
            assert (w + 1 <= Z.log2 (Z.lxor (2 * r) g)) by (apply Z.log2_le_pow2; lia). lia. }
        assert (forall y, 2 ^ w <= y < 2 ^ (w + 1) -> Z.testbit y w = true) as Hy.
        { intros y Hy. rewrite Z.testbit_true by lia. replace (y / 2 ^ w) with 1; [reflexivity|].
          apply Z.div_unique with (y - 2 ^ w); lia. }
        rewrite Z.lxor_spec, (Hy (2 * r)), (Hy g) in Ht by lia. discriminate.
      + rewrite <- Z.lxor_assoc. apply divides_lxor; [exact H2|].
        exists 1. split; [lia|]. reflexivity.
    - split; [lia|exact H2].
  Qed.

  Fixpoint no_one (n : nat) (r : Z) : bool :=
    match n with O => true | S n => negb (r =? 1) && no_one n (times_x r) end.
  Lemma no_one_ok n : forall a r, 0 <= r < 2 ^ w -> 0 <= a -> divides g (Z.lxor a r) ->
    no_one n r = true -> forall i, (i < n)%nat -> ~ divides g (Z.lxor (a * 2 ^ Z.of_nat i) 1).
  Proof.
    assert (1 < 2 ^ w) as H1 by (change 1 with (2 ^ 0) at 1; apply Z.pow_lt_mono_r; lia).
    induction n as [|n IH]; intros a r Hr Ha Hd Hn i Hi; [lia|].
    cbn [no_one] in Hn. apply andb_prop in Hn as [Hn1 Hn2].
    destruct i as [|i].
    - change (2 ^ Z.of_nat 0) with 1. rewrite Z.mul_1_r. intros Hd'.
      assert (divides g (Z.lxor r 1)) as Hd2.
      { replace (Z.lxor r 1) with (Z.lxor (Z.lxor a r) (Z.lxor a 1)); [apply divides_lxor; assumption|].
        rewrite (Z.lxor_comm a r), Z.lxor_assoc, <- (Z.lxor_assoc a a 1), Z.lxor_nilpotent, Z.lxor_0_l.
        reflexivity. }
      assert (Z.lxor r 1 = 0) as E.
      { apply (divides_small w g); try lia; [|assumption].
        split; [apply Z.lxor_nonneg; lia|].
        destruct (Z.eq_dec (Z.lxor r 1) 0) as [->|Hne]; [lia|].
        apply Z.log2_lt_pow2; [pose proof (proj2 (Z.lxor_nonneg r 1) ltac:(lia)); lia|].
        eapply Z.le_lt_trans; [apply Z.log2_lxor; lia|]. apply Z.max_lub_lt.
        - destruct (Z.eq_dec r 0) as [->|]; [change (Z.log2 0) with 0; lia|].
          apply Z.log2_lt_pow2; lia.
        - change (Z.log2 1) with 0. lia. }
      apply Z.lxor_eq in E. subst r. discriminate.
    - destruct (times_x_ok a r Hr Ha Hd) as [Hr' Hd'].
      specialize (IH (2 * a) (times_x r) Hr' ltac:(lia) Hd' Hn2 i ltac:(lia)).
      replace (a * 2 ^ Z.of_nat (S i)) with (2 * a * 2 ^ Z.of_nat i); [exact IH|].
      rewrite Nat2Z.inj_succ, Z.pow_succ_r by lia. lia.
  Qed.

  (** [n] is a lower bound of the order of x. *)
  Lemma two_flips_detected n d : (2 <= n)%nat -> 2 <= 2 ^ w - 1 -> no_one (n - 1) 2 = true ->
    two_flips n d -> ~ divides g (be_value d).
  Proof.
    intros Hn Hw2 Hc (a & gap & b & -> & Hgap) H.
    rewrite be_value_app, be_value_zeros, Z.mul_0_l, Z.add_0_l in H.
    assert (be_value ([true] ++ repeat false gap ++ [true] ++ repeat false b)
            = Z.lxor (2 * 2 ^ Z.of_nat gap) 1 * 2 ^ Z.of_nat b) as E.
    { rewrite !be_value_app, be_value_zeros. unfold len. rewrite !app_length, !repeat_length.
      cbn [length]. change (be_value [true]) with 1.
      rewrite !be_value_zeros. 
      pose proof (lxor_step (2 ^ Z.of_nat gap) 0 false true) as L. cbn [Z.b2z xorb] in L.
      change (2 * 0) with 0 in L. rewrite Z.add_0_r, Z.add_0_l, Z.lxor_0_r in L. rewrite L.
      replace (Z.of_nat (gap + (1 + b))) with (Z.of_nat gap + 1 + Z.of_nat b) by lia.
      rewrite !Z.pow_add_r by lia. lia. }
    rewrite E in H.
    apply divides_unshift in H; [|assumption|apply Z.lxor_nonneg; lia|lia].
    revert H. apply (no_one_ok (n - 1) 2 2); try lia; [|assumption].
    rewrite Z.lxor_nilpotent. exists 0. split; [lia|reflexivity].
  Qed.
End Detect.

Lemma poly16_two n d : n = Z.to_nat 32767 -> two_flips n d -> ~ divides poly16 (be_value d).
Proof.
  intros -> . apply (two_flips_detected 16 poly16); try (unfold poly16; lia); vm_compute; reflexivity.
Qed.
Lemma poly8_two d : two_flips 127 d -> ~ divides poly8 (be_value d).
Proof.
  apply (two_flips_detected 8 poly8); try (unfold poly8; lia); try reflexivity.
Qed.

(** * The tables *)

(** Quotient of a polynomial of less than [n + w] bits by [g], long division. *)
Fixpoint quotient (w g : Z) (n : nat) (a : Z) : Z :=
  match n with
  | O => 0
  | S n' =>
      if Z.testbit a (Z.of_nat n' + w)
      then 2 ^ Z.of_nat n' + quotient w g n' (Z.lxor a (g * 2 ^ Z.of_nat n'))
      else quotient w g n' a
  end.

Definition table_ok (w g : Z) (table : list Z) (x : Z) : bool :=
  match index table x with
  | Ok y => let a := Z.lxor (x * 2 ^ w) y in
            let q := quotient w g 8 a in
            (clmul q g =? a) && (0 <=? q) && (0 <=? y) && (y <? 2 ^ w)
  | _ => false
  end.

Lemma table_correct w g table : forallb (table_ok w g table) (zrange 256) = true ->
  forall x, 0 <= x < 256 -> exists y, index table x = Ok y /\ 0 <= y < 2 ^ w
    /\ divides g (Z.lxor (x * 2 ^ w) y).
Proof.
  intros H x Hx. pose proof (sweep 256 _ H x ltac:(lia)) as Ht. unfold table_ok in Ht.
  destruct (index table x) as [y| | | |]; try discriminate.
  exists y. split; [reflexivity|]. 
  repeat (apply andb_prop in Ht as [Ht ?]). split; [lia|].
  exists (quotient w g 8 (Z.lxor (x * 2 ^ w) y)). lia.
Qed.
Lemma table8 x : 0 <= x < 256 -> exists y, index CRC8_TABLE x = Ok y /\ 0 <= y < 2 ^ 8
    /\ divides poly8 (Z.lxor (x * 2 ^ 8) y).
Proof. apply table_correct. vm_compute. reflexivity. Qed.
Lemma table16 x : 0 <= x < 256 -> exists y, index CRC16_TABLE x = Ok y /\ 0 <= y < 2 ^ 16
    /\ divides poly16 (Z.lxor (x * 2 ^ 16) y).
Proof. apply table_correct. vm_compute. reflexivity. Qed.

Lemma lxor_range n a b : 0 <= n -> 0 <= a < 2 ^ n -> 0 <= b < 2 ^ n -> 0 <= Z.lxor a b < 2 ^ n.
Proof.
  intros Hn Ha Hb. split; [apply Z.lxor_nonneg; lia|].
  destruct (Z.eq_dec (Z.lxor a b) 0) as [->|Hne]; [lia|].
  apply Z.log2_lt_pow2; [pose proof (proj2 (Z.lxor_nonneg a b) ltac:(lia)); lia|].
  assert (0 < n).
  { destruct (Z.eq_dec n 0) as [->|]; [|lia]. change (2 ^ 0) with 1 in *.
    exfalso. apply Hne. assert (a = 0) as -> by lia. assert (b = 0) as -> by lia. reflexivity. }
  eapply Z.le_lt_trans; [apply Z.log2_lxor; lia|]. apply Z.max_lub_lt.
  - destruct (Z.eq_dec a 0) as [->|]; [change (Z.log2 0) with 0; lia|]. apply Z.log2_lt_pow2; lia.
  - destruct (Z.eq_dec b 0) as [->|]; [change (Z.log2 0) with 0; lia|]. apply Z.log2_lt_pow2; lia.
Qed.

Lemma add_lxor a b k : 0 <= k -> 0 <= b < 2 ^ k -> a * 2 ^ k + b = Z.lxor (a * 2 ^ k) b.
Proof.
  intros Hk Hb. apply Z.add_nocarry_lxor. apply Z.bits_inj'. intros i Hi.
  rewrite Z.land_spec, Z.bits_0.
  destruct (Z.lt_ge_cases i k).
  - rewrite Z.mul_pow2_bits_low by lia. reflexivity.
  - rewrite <- (Z.mod_small b (2 ^ k)) by lia. rewrite (Z.mod_pow2_bits_high b) by lia.
    apply andb_false_r.
Qed.

Lemma crc8_step l c b : is_crc 8 poly8 l c -> 0 <= b < 256 ->
  exists c', crc8_update c b = Ok c' /\ is_crc 8 poly8 (l ++ [b]) c'.
Proof.
  intros [Hc Hd] Hb. unfold crc8_update.
  destruct (table8 (Z.lxor c b)) as (y & -> & Hy & Hdy); [apply (lxor_range 8); lia|].
  exists y. split; [reflexivity|]. split; [exact Hy|].
  rewrite message_snoc by lia. rewrite add_lxor by lia.
  replace (Z.lxor (Z.lxor (message l * 2 ^ 8) b * 2 ^ 8) y)
    with (Z.lxor (Z.lxor (message l * 2 ^ 8) c * 2 ^ 8) (Z.lxor (Z.lxor c b * 2 ^ 8) y)).
  - apply divides_lxor; [apply divides_shift; [lia|exact Hd]|exact Hdy].
  - rewrite <- !lxor_mul_pow by lia. rewrite !Z.lxor_assoc.
    f_equal. rewrite <- (Z.lxor_assoc (c * 2 ^ 8) (c * 2 ^ 8)), Z.lxor_nilpotent, Z.lxor_0_l. reflexivity.
Qed.

Lemma crc16_step l c b : is_crc 16 poly16 l c -> 0 <= b < 256 ->
  exists c', crc16_update c b = Ok c' /\ is_crc 16 poly16 (l ++ [b]) c'.
Proof.
  intros [Hc Hd] Hb. unfold crc16_update. rewrite Z.shiftr_div_pow2 by lia.
  rewrite u8_id by lia. rewrite Z.shiftl_mul_pow2 by lia.
  destruct (table16 (Z.lxor (c / 2 ^ 8) b)) as (y & -> & Hy & Hdy);
    [apply (lxor_range 8); try lia|].
  cbn [obind]. eexists. split; [reflexivity|].
  assert (u16 (c * 2 ^ 8) = c mod 2 ^ 8 * 2 ^ 8) as Eu.
  { unfold u16. change (2 ^ 16) with (2 ^ 8 * 2 ^ 8). apply Z.mul_mod_distr_r; lia. }
  rewrite Eu. pose proof (Z.mod_pos_bound c (2 ^ 8) ltac:(lia)) as Hlo.
  split; [apply lxor_range; lia|].
  rewrite message_snoc by lia. rewrite add_lxor by lia.
  set (hi := c / 2 ^ 8) in *. set (lo := c mod 2 ^ 8) in *.
  assert (c * 2 ^ 8 = Z.lxor (hi * 2 ^ 16) (lo * 2 ^ 8)) as Ec.
  { rewrite <- add_lxor by lia. unfold hi, lo. pose proof (Z.div_mod c (2 ^ 8) ltac:(lia)). lia. }
  replace (Z.lxor (Z.lxor (message l * 2 ^ 8) b * 2 ^ 16) (Z.lxor (lo * 2 ^ 8) y))
    with (Z.lxor (Z.lxor (message l * 2 ^ 16) c * 2 ^ 8) (Z.lxor (Z.lxor hi b * 2 ^ 16) y)).
  - apply divides_lxor; [apply divides_shift; [lia|exact Hd]|exact Hdy].
  - rewrite <- !lxor_mul_pow by lia. rewrite Ec.
    replace (message l * 2 ^ 8 * 2 ^ 16) with (message l * 2 ^ 16 * 2 ^ 8) by lia.
    rewrite !Z.lxor_assoc. f_equal.
    rewrite <- (Z.lxor_assoc (lo * 2 ^ 8)), (Z.lxor_comm (lo * 2 ^ 8)).
    rewrite <- !Z.lxor_assoc. rewrite Z.lxor_nilpotent, Z.lxor_0_l.
    rewrite (Z.lxor_comm (lo * 2 ^ 8)). rewrite !Z.lxor_assoc. reflexivity.
Qed.

Lemma is_crc_nil w g : 0 <= w -> is_crc w g [] 0.
Proof.
  intros Hw. split; [pose proof (pow2_pos w Hw); lia|]. rewrite message_nil, Z.mul_0_l. cbn [Z.lxor].
  exists 0. split; [lia|reflexivity].
Qed.

Lemma is_crc_unique w g l c c' : 0 <= w -> 2 ^ w <= g < 2 ^ (w + 1) ->
  is_crc w g l c -> is_crc w g l c' -> c = c'.
Proof.
  intros Hw Hg [Hc Hd] [Hc' Hd']. apply Z.lxor_eq.
  apply (divides_small w g); auto; [apply lxor_range; lia|].
  replace (Z.lxor c c') with (Z.lxor (Z.lxor (message l * 2 ^ w) c) (Z.lxor (message l * 2 ^ w) c')).
  - apply divides_lxor; assumption.
  - rewrite (Z.lxor_comm (message l * 2 ^ w) c), Z.lxor_assoc.
    rewrite <- (Z.lxor_assoc (message l * 2 ^ w)), Z.lxor_nilpotent, Z.lxor_0_l. reflexivity.
Qed.

(** A string followed by its checksum is a multiple of the polynomial. *)
Lemma codeword w g l c cs : 0 <= w -> is_crc w g l c -> len cs * 8 = w -> message cs = c ->
  divides g (message (l ++ cs)).
Proof.
  intros Hw [Hc Hd] Hl Hm. rewrite message_app, Hm.
  replace (8 * len cs) with w by lia. rewrite add_lxor by lia. exact Hd.
Qed.

Lemma codewords_differ g l l' : length l = length l' ->
  divides g (message l) -> divides g (message l') -> divides g (be_value (difference l l')).
Proof.
  intros Hl H H'. rewrite <- message_lxor by assumption. apply divides_lxor; assumption.
Qed.

Lemma detected8_ok d : detected8 d -> ~ divides poly8 (be_value d).
Proof.
  intros [H|[H|H]].
  - apply (burst_detected 8 poly8 ltac:(lia) ltac:(unfold poly8; lia) eq_refl 8); [lia|exact H].
  - apply (odd_detected 8); [lia|unfold poly8; lia|reflexivity|exact H].
  - apply poly8_two, H.
Qed.
Lemma detected16_ok d : detected16 d -> ~ divides poly16 (be_value d).
Proof.
  intros [H|[H|H]].
  - apply (burst_detected 16 poly16 ltac:(lia) ltac:(unfold poly16; lia) eq_refl 16); [lia|exact H].
  - apply (odd_detected 16); [lia|unfold poly16; lia|reflexivity|exact H].
  - eapply poly16_two; [reflexivity|exact H].
Qed.
