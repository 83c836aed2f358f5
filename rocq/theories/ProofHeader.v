(** Frame headers: the decoder accepts exactly the grammar of SpecFrame. *)
From Verif Require Export SpecFrame ProofCrc ProofSafe ProofGrammar.
From Verif Require Import SpecReader.
From Coq Require Znumtheory.

(** * Parsers of bytes *)

Lemma bytes_app l r : bytes_ok (l ++ r) <-> bytes_ok l /\ bytes_ok r.
Proof. apply Forall_app. Qed.
Lemma bytes_cons b l : bytes_ok (b :: l) <-> 0 <= b < 256 /\ bytes_ok l.
Proof.
  split.
  - intros H. inversion H; subst. split; assumption.
  - intros [? ?]. constructor; assumption.
Qed.

(** Computes powers of two with literal exponents. *)
Ltac pow2s :=
  repeat match goal with
         | |- context [2 ^ ?e] =>
             let v := eval vm_compute in (2 ^ e) in
             lazymatch v with Zpos _ => change (2 ^ e) with v end
         | H : context [2 ^ ?e] |- _ =>
             let v := eval vm_compute in (2 ^ e) in
             lazymatch v with Zpos _ => change (2 ^ e) with v in H end
         end.

Definition bsound {A} (p : M (list Z) A) (G : list Z -> A -> Prop) : Prop :=
  forall l a l', bytes_ok l -> p l = (Ok a, l') -> exists w, l = w ++ l' /\ G w a.
Definition bcomplete {A} (p : M (list Z) A) (G : list Z -> A -> Prop) : Prop :=
  forall w a l', bytes_ok (w ++ l') -> G w a -> p (w ++ l') = (Ok a, l').
Definition btotal {A} (p : M (list Z) A) : Prop := safe bytes_ok p.

Section Flat.
  Context (t : tail) (m : build).
  Notation rb := (fl_rb t).

  Lemma u8_inv l b l' : read_u8 rb l = (Ok b, l') <-> l = b :: l'.
  Proof.
    cbn [fl_rb read_u8]. destruct l as [|x l]; split; intros H; try discriminate H.
    - injection H as <- <-. reflexivity.
    - injection H as <- <-. reflexivity.
  Qed.
  Lemma u8_total : btotal (read_u8 rb).
  Proof.
    intros [|b l] H; cbn [fl_rb read_u8]; split; cbn [fst snd]; auto using voe_ok, voe_err.
    apply bytes_cons in H. tauto.
  Qed.
  Lemma be_u16_cons a b l : 0 <= a < 256 -> 0 <= b < 256 ->
    read_be_u16 rb (a :: b :: l) = (Ok (256 * a + b), l).
  Proof.
    intros Ha Hb. unfold read_be_u16, bind. cbn [fl_rb read_u8]. unfold ret. do 2 f_equal.
    rewrite be_u16_range by lia. lia.
  Qed.
  Lemma be_u16_inv l x l' : bytes_ok l -> read_be_u16 rb l = (Ok x, l') ->
    exists a b, l = a :: b :: l' /\ 0 <= a < 256 /\ 0 <= b < 256 /\ x = 256 * a + b.
  Proof.
    intros Hl E. destruct l as [|a [|b l]]; try discriminate E.
    apply bytes_cons in Hl as [Ha Hl]. apply bytes_cons in Hl as [Hb Hl].
    rewrite be_u16_cons in E by assumption.
    apply (f_equal fst) in E as E1; apply (f_equal snd) in E as E2; cbn [fst snd] in E1, E2.
    exists a, b. subst l'. split; [reflexivity|]. split; [assumption|]. split; [assumption|]. congruence.
  Qed.
  Lemma be_u16_total : btotal (read_be_u16 rb).
  Proof.
    unfold read_be_u16. apply safe_bind; [apply u8_total|]. intros a.
    apply safe_bind; [apply u8_total|]. intros b. apply safe_ret.
  Qed.

  (** * Numbers of variable length *)

  (** The part of [read_var_length_int] between the first byte and the loop. *)
  Definition vli_head (first : Z) : outcome (Z * Z) :=
    rd <~ vli_prefix_loop m 9 first 0 127 128 ;;
    ra <~ (if 0 <? fst rd then
             if fst rd =? 1 then Err (FormatError "invalid variable-length integer")
             else chk m u8 (fst rd - 1)
           else Ok (fst rd)) ;;
    sh <~ chk m u8 (6 * ra) ;;
    result <~ shl m u64 64 (Z.land first (snd rd)) sh ;;
    Ok (ra, result).

  Definition vli_class (b : Z) : option (Z * Z) :=
    if b <? 128 then Some (0, b)
    else if b <? 192 then None
    else if b <? 224 then Some (1, b - 192)
    else if b <? 240 then Some (2, b - 224)
    else if b <? 248 then Some (3, b - 240)
    else if b <? 252 then Some (4, b - 248)
    else if b <? 254 then Some (5, b - 252)
    else if b <? 255 then Some (6, 0)
    else Some (7, 0).

  Definition head_ok (b : Z) : bool :=
    match vli_head b, vli_class b with
    | Ok (ra, r), Some (k, hi) => (ra =? k) && (r =? hi * 64 ^ k)
    | Err (FormatError _), None => true
    | _, _ => false
    end.
  Lemma vli_head_spec b : 0 <= b < 256 ->
    match vli_class b with
    | Some (k, hi) => vli_head b = Ok (k, hi * 64 ^ k)
    | None => exists e, vli_head b = Err (FormatError e)
    end.
  Proof.
    intros Hb.
    assert (forallb head_ok (zrange 256) = true) as H by (unfold head_ok, vli_head; destruct m; vm_compute; reflexivity).
    apply (sweep 256) with (x := b) in H; [|lia].
    unfold head_ok in H.
    destruct (vli_head b) as [[ra r]|e| | |], (vli_class b) as [[k hi]|]; try discriminate H;
      try (destruct e; try discriminate H; eauto; fail).
    apply andb_prop in H as [H1 H2]. apply Z.eqb_eq in H1, H2. subst. reflexivity.
  Qed.

  Lemma vli_unfold l :
    read_var_length_int rb m l
    = match l with
      | [] => (Err (tail_error t), [])
      | b :: r => match vli_head b with
                  | Ok (ra, x) => vli_rest_loop rb m (Z.to_nat ra) x r
                  | Err e => (Err e, r)
                  | Panic w => (Panic w, r)
                  | UB w => (UB w, r)
                  | OutOfFuel => (OutOfFuel, r)
                  end
      end.
  Proof.
    unfold read_var_length_int, vli_head. destruct l as [|b r]; [reflexivity|].
    unfold bind at 1. cbn [fl_rb read_u8].
    destruct (vli_prefix_loop m 9 b 0 127 128) as [[ra md]| | | |]; try reflexivity.
    cbn [obind fst snd]. unfold bind at 1, lift at 1.
    destruct (0 <? ra); [destruct (ra =? 1); [reflexivity|]|]; unfold bind, lift, ret.
    - destruct (chk m u8 (ra - 1)) as [ra'| | | |]; try reflexivity. cbn [obind].
      destruct (chk m u8 (6 * ra')) as [sh| | | |]; try reflexivity. cbn [obind].
      destruct (shl m u64 64 (Z.land b md) sh); reflexivity.
    - cbn [obind]. destruct (chk m u8 (6 * ra)) as [sh| | | |]; try reflexivity. cbn [obind].
      destruct (shl m u64 64 (Z.land b md) sh); reflexivity.
  Qed.

  Lemma continuation_mod k v : continuation k (v mod 64 ^ Z.of_nat k) = continuation k v.
  Proof.
    assert (forall j, (j <= k)%nat -> continuation j (v mod 64 ^ Z.of_nat k) = continuation j v) as H.
    { induction j as [|j IH]; intros Hj; cbn [continuation]; [reflexivity|].
      rewrite IH by lia. do 2 f_equal.
      assert (0 < 64 ^ Z.of_nat j) by (apply Z.pow_pos_nonneg; lia).
      replace (Z.of_nat k) with (Z.of_nat j + (1 + Z.of_nat (k - j - 1))) by lia.
      rewrite (Z.pow_add_r 64 (Z.of_nat j)), (Z.pow_add_r 64 1) by lia.
      assert (0 < 64 ^ Z.of_nat (k - j - 1)) by (apply Z.pow_pos_nonneg; lia).
      rewrite Z.rem_mul_r by lia. rewrite (Z.mul_comm (64 ^ Z.of_nat j)), Z.div_add by lia.
      rewrite (Z.div_small (v mod _)) by (apply Z.mod_pos_bound; lia).
      rewrite Z.add_0_l. rewrite <- Znumtheory.Zmod_div_mod; [reflexivity|lia|lia|]. exists (64 ^ Z.of_nat (k - j - 1)). lia. }
    apply H. lia.
  Qed.
  Lemma continuation_length k v : length (continuation k v) = k.
  Proof. induction k; cbn [continuation length]; auto. Qed.
  Lemma continuation_bytes k v : bytes_ok (continuation k v).
  Proof.
    induction k as [|k IH]; cbn [continuation]; constructor; [|exact IH].
    unfold is_byte. lia.
  Qed.

  Lemma cont_byte b : 0 <= b < 256 ->
    (Z.land b 192 =? 128) = (128 <=? b) && (b <? 192) /\ Z.land b 63 = b mod 64.
  Proof.
    intros Hb.
    assert (forallb (fun b => Bool.eqb (Z.land b 192 =? 128) ((128 <=? b) && (b <? 192))
                              && (Z.land b 63 =? b mod 64)) (zrange 256) = true) as H by (vm_compute; reflexivity).
    apply (sweep 256) with (x := b) in H; [|lia].
    apply andb_prop in H as [H1 H2]. apply Bool.eqb_prop in H1. apply Z.eqb_eq in H2. auto.
  Qed.

  Lemma rest_step i r b : (i <= 6)%nat -> 0 <= r -> r mod 64 ^ Z.of_nat (S i) = 0 -> 0 <= b < 64 ->
    shl m u64 64 b (6 * Z.of_nat i) = Ok (b * 64 ^ Z.of_nat i)
    /\ Z.lor r (b * 64 ^ Z.of_nat i) = r + b * 64 ^ Z.of_nat i
    /\ (r + b * 64 ^ Z.of_nat i) mod 64 ^ Z.of_nat i = 0.
  Proof.
    intros Hi Hr Hm Hb.
    assert (64 ^ Z.of_nat i = 2 ^ (6 * Z.of_nat i)) as E.
    { change 64 with (2 ^ 6). rewrite <- Z.pow_mul_r by lia. reflexivity. }
    assert (64 ^ Z.of_nat (S i) = 2 ^ (6 * Z.of_nat (S i))) as E'.
    { change 64 with (2 ^ 6). rewrite <- Z.pow_mul_r by lia. reflexivity. }
    assert (0 < 2 ^ (6 * Z.of_nat i)) by (apply Z.pow_pos_nonneg; lia).
    assert (2 ^ (6 * Z.of_nat i) <= 2 ^ 36) by (apply Z.pow_le_mono_r; lia).
    assert (64 ^ Z.of_nat (S i) = 64 * 64 ^ Z.of_nat i) as E2 by (rewrite Nat2Z.inj_succ, Z.pow_succ_r by lia; reflexivity).
    split; [|split].
    - rewrite shl_ok by lia. rewrite E, u64_id by nia. reflexivity.
    - apply Z.mod_divide in Hm; [|lia]. destruct Hm as (q & ->).
      rewrite E' , lor_add by (rewrite ?E2, <- ?E'; nia). reflexivity.
    - apply Z.mod_divide in Hm; [|lia]. destruct Hm as (q & ->). rewrite E2.
      replace (q * (64 * 64 ^ Z.of_nat i) + b * 64 ^ Z.of_nat i)
        with ((q * 64 + b) * 64 ^ Z.of_nat i) by lia.
      apply Z.mod_mul. lia.
  Qed.

  Lemma rest_complete i : forall r v l, (i <= 7)%nat -> 0 <= r -> r mod 64 ^ Z.of_nat i = 0 ->
    vli_rest_loop rb m i r (continuation i v ++ l) = (Ok (r + v mod 64 ^ Z.of_nat i), l).
  Proof.
    induction i as [|i IH]; intros r v l Hi Hr Hm.
    - cbn [continuation app vli_rest_loop]. unfold ret.
      rewrite Z.mod_1_r, Z.add_0_r. reflexivity.
    - cbn [continuation app vli_rest_loop]. unfold bind at 1. cbn [fl_rb read_u8].
      set (d := v / 64 ^ Z.of_nat i mod 64). assert (0 <= d < 64) as Hd by (apply Z.mod_pos_bound; lia).
      destruct (cont_byte (128 + d)) as [-> ->]; [lia|].
      replace ((128 <=? 128 + d) && (128 + d <? 192)) with true by lia. cbn [negb].
      replace ((128 + d) mod 64) with d by lia.
      destruct (rest_step i r d ltac:(lia) Hr Hm Hd) as (-> & E2 & E3).
      rewrite bind_lift_ok. rewrite E2, IH; [|lia|assert (0 < 64 ^ Z.of_nat i) by (apply Z.pow_pos_nonneg; lia); nia|exact E3].
      do 2 f_equal. rewrite Nat2Z.inj_succ, Z.pow_succ_r by lia.
      assert (0 < 64 ^ Z.of_nat i) by (apply Z.pow_pos_nonneg; lia).
      rewrite (Z.mul_comm 64), Z.rem_mul_r by lia. fold d. lia.
  Qed.

  Lemma rest_sound i : forall r l x l', (i <= 7)%nat -> 0 <= r -> r mod 64 ^ Z.of_nat i = 0 ->
    bytes_ok l -> vli_rest_loop rb m i r l = (Ok x, l') ->
    exists v, 0 <= v < 64 ^ Z.of_nat i /\ l = continuation i v ++ l' /\ x = r + v.
  Proof.
    induction i as [|i IH]; intros r l x l' Hi Hr Hm Hl E.
    - cbn [vli_rest_loop] in E. unfold ret in E. injection E as <- <-. exists 0.
      change (64 ^ Z.of_nat 0) with 1. cbn [continuation app]. split; [lia|]. split; [reflexivity|lia].
    - cbn [vli_rest_loop] in E. apply bind_ok in E as (b & l1 & E1 & E).
      apply u8_inv in E1. subst l. apply bytes_cons in Hl as [Hb Hl].
      destruct (cont_byte b Hb) as [Eb Eb2]. rewrite Eb in E.
      destruct ((128 <=? b) && (b <? 192)) eqn:Hc; cbn [negb] in E; [|discriminate E].
      rewrite Eb2 in E. assert (0 <= b mod 64 < 64) as Hd by (apply Z.mod_pos_bound; lia).
      destruct (rest_step i r (b mod 64) ltac:(lia) Hr Hm Hd) as (E1 & E2 & E3).
      rewrite E1, bind_lift_ok, E2 in E.
      assert (0 < 64 ^ Z.of_nat i) by (apply Z.pow_pos_nonneg; lia).
      apply IH in E; [|lia|nia|exact E3|exact Hl].
      destruct E as (v & Hv & -> & ->).
      exists (b mod 64 * 64 ^ Z.of_nat i + v).
      assert (64 ^ Z.of_nat (S i) = 64 * 64 ^ Z.of_nat i) as E4 by (rewrite Nat2Z.inj_succ, Z.pow_succ_r by lia; reflexivity).
      split; [rewrite E4; nia|]. split; [|lia].
      cbn [continuation app]. f_equal.
      + rewrite Z.div_add_l by lia. rewrite (Z.div_small v) by lia. lia.
      + f_equal. rewrite <- (continuation_mod i (b mod 64 * 64 ^ Z.of_nat i + v)).
        rewrite Z.add_comm, Z.mod_add, Z.mod_small by lia. reflexivity.
  Qed.

  Lemma rest_total i : forall r, (i <= 7)%nat -> btotal (vli_rest_loop rb m i r).
  Proof.
    induction i as [|i IH]; intros r Hi; cbn [vli_rest_loop]; [apply safe_ret|].
    apply safe_bind; [apply u8_total|]. intros b.
    destruct (negb _); [apply safe_fail|].
    rewrite shl_ok by lia. apply (safe_bind bytes_ok (lift _)).
    - intros l Hl. split; cbn; [apply voe_ok|assumption].
    - intros a. apply IH. lia.
  Qed.

  (** ** The codes are what the specification says *)
  Lemma class_inv b k hi : 0 <= b < 256 -> vli_class b = Some (k, hi) ->
    (k = 0 /\ hi = b /\ b < 128)
    \/ (1 <= k <= 6 /\ 0 <= hi < 2 ^ (6 - k) /\ b = 256 - 2 ^ (7 - k) + hi)
    \/ (k = 7 /\ hi = 0 /\ b = 255).
  Proof.
    intros Hb E. unfold vli_class in E.
    repeat match type of E with
           | (if ?c then _ else _) = _ => destruct c eqn:?; [try discriminate E; injection E as <- <-|]
           end; try (injection E as <- <-);
      first [ left; lia
            | right; left; split; [lia|]; pow2s; lia
            | right; right; lia ].
  Qed.
  Lemma class_of_first k hi : 1 <= k <= 6 -> 0 <= hi < 2 ^ (6 - k) ->
    vli_class (256 - 2 ^ (7 - k) + hi) = Some (k, hi)
    /\ 0 <= 256 - 2 ^ (7 - k) + hi < 256.
  Proof.
    intros Hk Hh.
    assert (k = 1 \/ k = 2 \/ k = 3 \/ k = 4 \/ k = 5 \/ k = 6) as [->|[->|[->|[->|[->| ->]]]]] by lia;
      pow2s; (split; [|lia]); unfold vli_class;
      repeat match goal with |- (if ?c then _ else _) = _ => destruct c eqn:?; try lia end;
      f_equal; f_equal; lia.
  Qed.

  Lemma limit_split k v : (1 <= k <= 6)%nat -> 0 <= v < number_limit k ->
    0 <= v / 64 ^ Z.of_nat k < 2 ^ (6 - Z.of_nat k).
  Proof.
    intros Hk Hv. unfold number_limit in Hv. destruct k as [|k]; [lia|].
    assert (2 ^ (6 + 5 * Z.of_nat (S k)) = 2 ^ (6 - Z.of_nat (S k)) * 64 ^ Z.of_nat (S k)) as E.
    { change 64 with (2 ^ 6). rewrite <- Z.pow_mul_r, <- Z.pow_add_r by lia. f_equal. lia. }
    assert (0 < 64 ^ Z.of_nat (S k)) by (apply Z.pow_pos_nonneg; lia).
    split; [apply Z.div_pos; lia|]. apply Z.div_lt_upper_bound; lia.
  Qed.

  Lemma number_first k v : (1 <= k <= 7)%nat ->
    (k = 7%nat /\ 0 <= v < 2 ^ 42 \/ (k <= 6)%nat /\ 0 <= v < number_limit k) ->
    0 <= 256 - 2 ^ (7 - Z.of_nat k) + v / 64 ^ Z.of_nat k < 256
    /\ vli_class (256 - 2 ^ (7 - Z.of_nat k) + v / 64 ^ Z.of_nat k)
       = Some (Z.of_nat k, v / 64 ^ Z.of_nat k).
  Proof.
    intros Hk [[-> Hv]|[Hk6 Hv]].
    - change (Z.of_nat 7) with 7. change (64 ^ 7) with (2 ^ 42). rewrite Z.div_small by lia.
      split; [lia|reflexivity].
    - pose proof (limit_split k v ltac:(lia) Hv) as Hh.
      destruct (class_of_first (Z.of_nat k) (v / 64 ^ Z.of_nat k) ltac:(lia) Hh). auto.
  Qed.

  Lemma accepted_number_form w v : accepted_number w v <->
    (0 <= v < 128 /\ w = [v])
    \/ exists k, (1 <= k <= 7)%nat
        /\ (k = 7%nat /\ 0 <= v < 2 ^ 42 \/ (k <= 6)%nat /\ 0 <= v < number_limit k)
        /\ w = number_bytes k v.
  Proof.
    split.
    - intros [(k & Hk & Hv & ->)|[Hv ->]].
      + destruct k as [|k]; [left; split; [exact Hv|reflexivity]|]. right. exists (S k).
        split; [lia|]. split; [right; split; [lia|exact Hv]|reflexivity].
      + right. exists 7%nat. split; [lia|]. split; [left; auto|reflexivity].
    - intros [[Hv ->]|(k & Hk & [[-> Hv]|[Hk6 Hv]] & ->)].
      + left. exists O. split; [lia|]. split; [exact Hv|reflexivity].
      + right. split; [exact Hv|reflexivity].
      + left. exists k. auto.
  Qed.

  Lemma vli_complete : bcomplete (read_var_length_int rb m) accepted_number.
  Proof.
    intros w v l' _ H. apply accepted_number_form in H.
    destruct H as [[Hv ->]|(k & Hk & Hv & ->)]; rewrite vli_unfold.
    - cbn [app]. pose proof (vli_head_spec v ltac:(lia)) as H. unfold vli_class in H.
      replace (v <? 128) with true in H by lia. rewrite H. cbn [Z.to_nat vli_rest_loop]. unfold ret.
      rewrite Z.mul_1_r. reflexivity.
    - destruct (number_first k v Hk Hv) as [Hb Hc].
      unfold number_bytes. destruct k as [|k]; [lia|]. cbn [app].
      pose proof (vli_head_spec _ Hb) as H. rewrite Hc in H. rewrite H.
      rewrite Nat2Z.id.
      assert (0 < 64 ^ Z.of_nat (S k)) by (apply Z.pow_pos_nonneg; lia).
      assert (0 <= v) by (destruct Hv as [[_ Hv]|[_ Hv]]; lia).
      rewrite rest_complete; [|lia|apply Z.mul_nonneg_nonneg; [apply Z.div_pos; lia|lia]|apply Z.mod_mul; lia].
      do 2 f_equal. rewrite Z.mul_comm. symmetry. apply Z.div_mod. lia.
  Qed.

  Lemma vli_sound : bsound (read_var_length_int rb m) accepted_number.
  Proof.
    intros l x l' Hl E. rewrite vli_unfold in E. destruct l as [|b l]; [discriminate E|].
    apply bytes_cons in Hl as [Hb Hl].
    pose proof (vli_head_spec b Hb) as H.
    destruct (vli_class b) as [[k hi]|] eqn:Ec.
    - rewrite H in E. apply class_inv in Ec as Hcase; [|exact Hb].
      destruct Hcase as [(-> & -> & Hb')|Hcase].
      + cbn [Z.to_nat vli_rest_loop] in E. unfold ret in E.
        apply (f_equal fst) in E as E1; apply (f_equal snd) in E as E2; cbn [fst snd] in E1, E2.
        exists [b]. subst l'. split; [reflexivity|]. apply accepted_number_form. left.
        rewrite Z.mul_1_r in E1. assert (b = x) as <- by congruence. split; [lia|reflexivity].
      + assert (1 <= k <= 7 /\ 0 <= hi /\ b = 256 - 2 ^ (7 - k) + hi
                /\ (k = 7 /\ hi = 0 \/ k <= 6 /\ hi < 2 ^ (6 - k))) as (Hk & Hhi & Eb & Hlim).
        { destruct Hcase as [(H1 & H2 & H3)|(H1 & H2 & H3)].
          - split; [lia|]. split; [lia|]. split; [exact H3|]. right. lia.
          - subst k hi. split; [lia|]. split; [lia|]. split; [exact H3|]. left. auto. }
        assert (0 < 64 ^ k) by (apply Z.pow_pos_nonneg; lia).
        apply rest_sound in E; rewrite ?Z2Nat.id by lia; [|lia|nia|apply Z.mod_mul; lia|exact Hl].
        rewrite Z2Nat.id in E by lia. destruct E as (v & Hv & -> & ->).
        exists (b :: continuation (Z.to_nat k) v). split; [reflexivity|].
        apply accepted_number_form. right. exists (Z.to_nat k). split; [lia|].
        assert ((hi * 64 ^ k + v) / 64 ^ k = hi) as Ed.
        { rewrite Z.div_add_l by lia. rewrite (Z.div_small v) by lia. lia. }
        split.
        * destruct Hlim as [[-> ->]|[Hk6 Hh]]; [left|right].
          -- split; [reflexivity|]. change (64 ^ 7) with (2 ^ 42) in *. lia.
          -- split; [lia|]. unfold number_limit. destruct (Z.to_nat k) as [|k'] eqn:Ek; [lia|].
             rewrite <- Ek, Z2Nat.id by lia.
             assert (2 ^ (6 + 5 * k) = 2 ^ (6 - k) * 64 ^ k) as ->.
             { change 64 with (2 ^ 6). rewrite <- Z.pow_mul_r, <- Z.pow_add_r by lia. f_equal. lia. }
             nia.
        * unfold number_bytes. destruct (Z.to_nat k) as [|k'] eqn:Ek; [lia|].
          rewrite <- Ek, Z2Nat.id by lia. rewrite Ed. f_equal; [exact Eb|].
          rewrite <- (continuation_mod _ (hi * 64 ^ k + v)), Z2Nat.id by lia.
          rewrite Z.add_comm, Z.mod_add, Z.mod_small by lia. reflexivity.
    - destruct H as (e & H). rewrite H in E. discriminate E.
  Qed.

  Lemma vli_total : btotal (read_var_length_int rb m).
  Proof.
    intros l Hl. rewrite vli_unfold. destruct l as [|b l].
    - split; cbn; [apply voe_err|constructor].
    - apply bytes_cons in Hl as [Hb Hl]. pose proof (vli_head_spec b Hb) as H.
      destruct (vli_class b) as [[k hi]|] eqn:Ec.
      + rewrite H. apply class_inv in Ec; [|exact Hb]. apply rest_total; [lia|exact Hl].
      + destruct H as (e & ->). split; cbn; [apply voe_err|exact Hl].
  Qed.
End Flat.
