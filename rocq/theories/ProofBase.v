(** Simulation between two runs of a program on different states, with its
    composition lemmas, and a few general facts. *)
From Coq Require Export Lia ZifyBool ZifyNat ZifyN.
From Verif Require Export ModelBase.

Ltac Zify.zify_post_hook ::= Z.div_mod_to_equations.

(** Errors found by the decoder, as opposed to those of the source. *)
Definition ours (e : error) : Prop := match e with IoError _ => False | _ => True end.

(** [c1] and [c2] behave alike on states related by [R], which stay related except
    after errors of the source; an error in [esc] of [c1] releases [c2] from all
    obligations. *)
Definition sim {S1 S2 A B} (esc : error -> Prop) (R : S1 -> S2 -> Prop)
    (Q : A -> B -> Prop) (c1 : M S1 A) (c2 : M S2 B) : Prop :=
  forall s1 s2, R s1 s2 ->
    match fst (c1 s1) with
    | Ok a => exists b, fst (c2 s2) = Ok b /\ Q a b /\ R (snd (c1 s1)) (snd (c2 s2))
    | Err e => esc e \/ fst (c2 s2) = Err e /\ (ours e -> R (snd (c1 s1)) (snd (c2 s2)))
    | Panic w => fst (c2 s2) = Panic w
    | UB w => fst (c2 s2) = UB w
    | OutOfFuel => fst (c2 s2) = OutOfFuel
    end.

Definition no_esc : error -> Prop := fun _ => False.

Lemma sim_ret {S1 S2 A B} esc (R : S1 -> S2 -> Prop) (Q : A -> B -> Prop) a b :
  Q a b -> sim esc R Q (ret a) (ret b).
Proof. intros HQ s1 s2 HR; cbn. eauto. Qed.

Lemma sim_lift {S1 S2 A} esc (R : S1 -> S2 -> Prop) (o : outcome A) :
  sim esc R eq (lift o) (lift o).
Proof. intros s1 s2 HR; destruct o; cbn; eauto. Qed.

Lemma sim_fail {S1 S2 A B} esc (R : S1 -> S2 -> Prop) (Q : A -> B -> Prop) e :
  sim esc R Q (fail e) (fail e).
Proof. intros s1 s2 HR; cbn; auto. Qed.

Lemma sim_bind {S1 S2 A1 A2 B1 B2} esc (R : S1 -> S2 -> Prop)
    (Q : A1 -> A2 -> Prop) (Q' : B1 -> B2 -> Prop) c1 c2 f1 f2 :
  sim esc R Q c1 c2 ->
  (forall a b, Q a b -> sim esc R Q' (f1 a) (f2 b)) ->
  sim esc R Q' (bind c1 f1) (bind c2 f2).
Proof.
  intros Hc Hf s1 s2 HR. specialize (Hc s1 s2 HR). unfold bind.
  destruct (c1 s1) as [o1 s1']; destruct (c2 s2) as [o2 s2']; cbn in *.
  destruct o1 as [a|e|w|w|]; cbn.
  - destruct Hc as (b & -> & HQ & HR'). exact (Hf a b HQ s1' s2' HR').
  - destruct Hc as [Hc|[-> Hc]]; auto.
  - rewrite Hc; reflexivity.
  - rewrite Hc; reflexivity.
  - rewrite Hc; reflexivity.
Qed.

Lemma sim_bind_eq {S1 S2 A B1 B2} esc (R : S1 -> S2 -> Prop)
    (Q' : B1 -> B2 -> Prop) (c1 : M S1 A) c2 f1 f2 :
  sim esc R eq c1 c2 ->
  (forall a, sim esc R Q' (f1 a) (f2 a)) ->
  sim esc R Q' (bind c1 f1) (bind c2 f2).
Proof. intros Hc Hf. eapply sim_bind; [exact Hc|]. intros a ? <-. auto. Qed.

Lemma sim_get {S1 S2} esc (R : S1 -> S2 -> Prop) : sim esc R R get get.
Proof. intros s1 s2 HR; cbn; eauto. Qed.

Lemma sim_put {S1 S2} esc (R : S1 -> S2 -> Prop) s1 s2 :
  R s1 s2 -> sim esc R eq (put s1) (put s2).
Proof. intros HR ? ? _; cbn; eauto. Qed.

Lemma sim_catch {S1 S2 A B} (R : S1 -> S2 -> Prop)
    (Q : A -> B -> Prop) c1 c2 :
  sim no_esc R Q c1 c2 ->
  (forall s1 s2, R s1 s2 ->
     match fst (catch c1 s1) with
     | Ok (ROk a) => exists b, fst (catch c2 s2) = Ok (ROk b) /\ Q a b
                               /\ R (snd (catch c1 s1)) (snd (catch c2 s2))
     | Ok (RErr e) => fst (catch c2 s2) = Ok (RErr e)
         /\ (ours e -> R (snd (catch c1 s1)) (snd (catch c2 s2)))
     | Err e => False
     | Panic w => fst (catch c2 s2) = Panic w
     | UB w => fst (catch c2 s2) = UB w
     | OutOfFuel => fst (catch c2 s2) = OutOfFuel
     end).
Proof.
  intros H s1 s2 HR. specialize (H s1 s2 HR). unfold catch.
  destruct (c1 s1) as [o1 s1']; destruct (c2 s2) as [o2 s2']; cbn in *.
  destruct o1; cbn; destruct o2; cbn in *;
    repeat match goal with
    | H : _ \/ _ |- _ => destruct H
    | H : exists _, _ |- _ => destruct H
    | H : _ /\ _ |- _ => destruct H
    | H : no_esc _ |- _ => destruct H
    end; try discriminate; try congruence.
  - match goal with H : Ok _ = Ok _ |- _ => inversion H; subst end. eauto.
  - match goal with H : Err _ = Err _ |- _ => inversion H; subst end. auto.
Qed.

Lemma sim_conseq {S1 S2 A B} (esc esc' : error -> Prop) (R : S1 -> S2 -> Prop)
    (Q Q' : A -> B -> Prop) c1 c2 :
  (forall e, esc e -> esc' e) -> (forall a b, Q a b -> Q' a b) ->
  sim esc R Q c1 c2 -> sim esc' R Q' c1 c2.
Proof.
  intros He HQ H s1 s2 HR. specialize (H s1 s2 HR).
  destruct (fst (c1 s1)); auto.
  - destruct H as (b & ? & ? & ?); eauto.
  - destruct H; auto.
Qed.

(** The case of an error in a simulation with a changed relation. *)
Ltac sim_err H :=
  let Hk := fresh "Hk" in let Ho := fresh "Ho" in
  destruct H as [H|[H Hk]];
  [left; exact H|right; split; [exact H|intros Ho; specialize (Hk Ho);
      first [exact Hk|exact (proj1 Hk)|repeat split; auto; apply Hk]]].

(** Equal programs *)
Lemma sim_ext {S1 S2 A B} esc (R : S1 -> S2 -> Prop) (Q : A -> B -> Prop) c1 c2 d1 d2 :
  (forall s, c1 s = d1 s) -> (forall s, c2 s = d2 s) ->
  sim esc R Q d1 d2 -> sim esc R Q c1 c2.
Proof. intros H1 H2 H s1 s2 HR. rewrite H1, H2. exact (H s1 s2 HR). Qed.

(** Walks two copies of the same program. *)
Ltac sim_step :=
  match goal with
  | |- sim _ _ _ (bind _ _) (bind _ _) => eapply sim_bind_eq; [|intro]
  | |- sim _ _ _ (lift _) (lift _) => apply sim_lift
  | |- sim _ _ _ (ret _) (ret _) => apply sim_ret; try reflexivity
  | |- sim _ _ _ (fail _) (fail _) => apply sim_fail
  | |- sim _ _ _ (fmt_err _) (fmt_err _) => apply sim_fail
  | |- sim _ _ _ (let '(_, _) := ?x in _) _ => destruct x
  | |- sim _ _ _ (if ?x then _ else _) _ => destruct x
  | |- sim _ _ _ (match ?x with _ => _ end) _ => destruct x
  end.
Ltac sim_tac := repeat (try solve [auto]; sim_step); auto.

(** * Computing with the monads *)

Lemma bind_ok {S A B} (c : M S A) (f : A -> M S B) s b s' :
  bind c f s = (Ok b, s') <-> exists a s0, c s = (Ok a, s0) /\ f a s0 = (Ok b, s').
Proof.
  unfold bind. destruct (c s) as [[a|e|w|w|] s0] eqn:E; split.
  all: try (intros H; discriminate H).
  all: try (intros (a' & s1 & H & H'); inversion H; subst; assumption).
  intros H; eauto.
Qed.

Lemma bind_assoc {S A B C} (c : M S A) (f : A -> M S B) (g : B -> M S C) s :
  bind (bind c f) g s = bind c (fun a => bind (f a) g) s.
Proof. unfold bind. destruct (c s) as [[]]; reflexivity. Qed.

Lemma bind_ret {S A} (c : M S A) s : bind c ret s = c s.
Proof. unfold bind, ret. destruct (c s) as [[]]; reflexivity. Qed.

Lemma bind_get {S A} (f : S -> M S A) s : bind get f s = f s s.
Proof. reflexivity. Qed.

Lemma bind_lift_ok {S A B} (a : A) (f : A -> M S B) s : bind (lift (Ok a)) f s = f a s.
Proof. reflexivity. Qed.

Lemma obind_ok {A B} (c : outcome A) (f : A -> outcome B) b :
  obind c f = Ok b <-> exists a, c = Ok a /\ f a = Ok b.
Proof.
  destruct c; cbn; split; intros H; try discriminate H; eauto;
    destruct H as (? & H & ?); try discriminate H; inversion H; subst; auto.
Qed.

Definition is_value {A} (o : outcome A) : Prop :=
  match o with Ok _ | Err _ => True | _ => False end.

(** * Machine arithmetic *)

Ltac unfold_wraps := unfold u8, u16, u32, u64, i16, i32, i64 in *.

Lemma chk_ok m wrap x : wrap x = x -> chk m wrap x = Ok x.
Proof. intros H. unfold chk. rewrite H, Z.eqb_refl. reflexivity. Qed.

Lemma u8_id x : 0 <= x < 256 -> u8 x = x.
Proof. unfold u8; intros; apply Z.mod_small; lia. Qed.
Lemma u16_id x : 0 <= x < 65536 -> u16 x = x.
Proof. unfold u16; intros; apply Z.mod_small; lia. Qed.
Lemma u32_id x : 0 <= x < 2 ^ 32 -> u32 x = x.
Proof. unfold u32; intros; apply Z.mod_small; lia. Qed.
Lemma u64_id x : 0 <= x < 2 ^ 64 -> u64 x = x.
Proof. unfold u64; intros; apply Z.mod_small; lia. Qed.
Lemma i16_id x : - 2 ^ 15 <= x < 2 ^ 15 -> i16 x = x.
Proof. unfold i16; intros. rewrite Z.mod_small; lia. Qed.
Lemma i32_id x : - 2 ^ 31 <= x < 2 ^ 31 -> i32 x = x.
Proof. unfold i32; intros. rewrite Z.mod_small; lia. Qed.
Lemma i64_id x : - 2 ^ 63 <= x < 2 ^ 63 -> i64 x = x.
Proof. unfold i64; intros. rewrite Z.mod_small; lia. Qed.
Lemma u8_range x : 0 <= u8 x < 256.
Proof. unfold u8; pose proof (Z.mod_pos_bound x (2^8)); lia. Qed.
Lemma u16_range x : 0 <= u16 x < 65536.
Proof. unfold u16; pose proof (Z.mod_pos_bound x (2^16)); lia. Qed.
Lemma u32_range x : 0 <= u32 x < 2 ^ 32.
Proof. unfold u32; pose proof (Z.mod_pos_bound x (2^32)); lia. Qed.
Lemma u64_range x : 0 <= u64 x < 2 ^ 64.
Proof. unfold u64; pose proof (Z.mod_pos_bound x (2^64)); lia. Qed.
Lemma i32_range x : - 2 ^ 31 <= i32 x < 2 ^ 31.
Proof. unfold i32; pose proof (Z.mod_pos_bound (x + 2^31) (2^32)); lia. Qed.

Lemma chk_u8 m x : 0 <= x < 256 -> chk m u8 x = Ok x.
Proof. intros; apply chk_ok, u8_id; lia. Qed.
Lemma chk_u16 m x : 0 <= x < 65536 -> chk m u16 x = Ok x.
Proof. intros; apply chk_ok, u16_id; lia. Qed.
Lemma chk_u32 m x : 0 <= x < 2 ^ 32 -> chk m u32 x = Ok x.
Proof. intros; apply chk_ok, u32_id; lia. Qed.
Lemma chk_u64 m x : 0 <= x < 2 ^ 64 -> chk m u64 x = Ok x.
Proof. intros; apply chk_ok, u64_id; lia. Qed.
Lemma chk_i64 m x : - 2 ^ 63 <= x < 2 ^ 63 -> chk m i64 x = Ok x.
Proof. intros; apply chk_ok, i64_id; lia. Qed.

Lemma chk_shift_ok m width s : 0 <= s < width -> chk_shift m width s = Ok s.
Proof.
  intros H. unfold chk_shift.
  destruct (Z.leb_spec 0 s), (Z.ltb_spec s width); cbn; try lia; reflexivity.
Qed.

Lemma shl_ok m wrap width x s :
  0 <= s < width -> shl m wrap width x s = Ok (wrap (x * 2 ^ s)).
Proof.
  intros H. unfold shl. rewrite chk_shift_ok by lia. cbn.
  rewrite Z.shiftl_mul_pow2 by lia. reflexivity.
Qed.

Lemma shr_ok m width x s :
  0 <= s < width -> shr m width x s = Ok (x / 2 ^ s).
Proof.
  intros H. unfold shr. rewrite chk_shift_ok by lia. cbn.
  rewrite Z.shiftr_div_pow2 by lia. reflexivity.
Qed.

Lemma debug_assert_ok m b : b = true -> debug_assert m b = Ok tt.
Proof. intros ->; destruct m; reflexivity. Qed.

(** [lor] of disjoint numbers is their sum. *)
Lemma lor_add a b k : 0 <= k -> 0 <= b < 2 ^ k -> Z.lor (a * 2 ^ k) b = a * 2 ^ k + b.
Proof.
  intros Hk Hb.
  assert (Z.land (a * 2 ^ k) b = 0) as Hd;
    [|rewrite Z.add_nocarry_lxor by exact Hd; symmetry; apply Z.lxor_lor, Hd].
  apply Z.bits_inj'; intros i Hi. rewrite Z.land_spec, Z.bits_0.
  rewrite <- Z.shiftl_mul_pow2 by lia.
  destruct (Z.ltb_spec i k).
  - rewrite Z.shiftl_spec_low by lia. reflexivity.
  - destruct (Z.eq_dec b 0) as [->|]; [rewrite Z.bits_0; apply andb_false_r|].
    rewrite (Z.bits_above_log2 b i); [apply andb_false_r|lia|].
    apply Z.log2_lt_pow2; [lia|].
    apply Z.lt_le_trans with (2 ^ k); [lia|]. apply Z.pow_le_mono_r; lia.
Qed.

Lemma land_low x k : 0 <= k -> Z.land x (2 ^ k - 1) = x mod 2 ^ k.
Proof.
  intros. rewrite <- Z.land_ones by lia. rewrite Z.ones_equiv.
  reflexivity.
Qed.

(** * Lists *)

Lemma len_nonneg {A} (l : list A) : 0 <= len l.
Proof. unfold len; lia. Qed.
Lemma len_app {A} (l r : list A) : len (l ++ r) = len l + len r.
Proof. unfold len; rewrite app_length; lia. Qed.
Lemma len_cons {A} (x : A) l : len (x :: l) = len l + 1.
Proof. unfold len; cbn [length]; lia. Qed.
Lemma len_nil {A} : len (@nil A) = 0.
Proof. reflexivity. Qed.
Lemma len_repeat {A} (x : A) n : len (repeat x n) = Z.of_nat n.
Proof. unfold len; rewrite repeat_length; reflexivity. Qed.
Lemma len_map {A B} (f : A -> B) l : len (map f l) = len l.
Proof. unfold len; rewrite map_length; reflexivity. Qed.
Lemma len_rev {A} (l : list A) : len (rev l) = len l.
Proof. unfold len; rewrite rev_length; reflexivity. Qed.

Lemma slice_ok {A} (l : list A) a b :
  0 <= a <= b -> b <= len l ->
  slice l a b = Ok (firstn (Z.to_nat (b - a)) (skipn (Z.to_nat a) l)).
Proof.
  intros H1 H2. unfold slice.
  destruct (Z.leb_spec 0 a), (Z.leb_spec a b), (Z.leb_spec b (len l)); cbn; try lia.
  reflexivity.
Qed.

Lemma slice_panic {A} (l : list A) a b :
  ~ (0 <= a <= b /\ b <= len l) -> slice l a b = Panic "slice index out of range".
Proof.
  intros H. unfold slice.
  destruct (Z.leb_spec 0 a), (Z.leb_spec a b), (Z.leb_spec b (len l)); cbn; try lia;
  reflexivity.
Qed.

Lemma slice_app {A} (l1 l2 l3 : list A) a b :
  a = len l1 -> b = len l1 + len l2 -> slice (l1 ++ l2 ++ l3) a b = Ok l2.
Proof.
  intros -> ->. pose proof (len_nonneg l1). pose proof (len_nonneg l2).
  pose proof (len_nonneg l3).
  rewrite slice_ok; [|lia|rewrite !len_app; lia].
  f_equal. unfold len.
  replace (Z.to_nat (Z.of_nat (length l1))) with (length l1) by lia.
  replace (Z.to_nat _) with (length l2) by lia.
  rewrite skipn_app, skipn_all, Nat.sub_diag; cbn [app skipn].
  rewrite firstn_app, firstn_all, Nat.sub_diag; cbn [firstn].
  apply app_nil_r.
Qed.

Lemma splice_app {A} (l1 l2 l3 new : list A) a :
  a = len l1 -> length new = length l2 ->
  splice (l1 ++ l2 ++ l3) a new = l1 ++ new ++ l3.
Proof.
  intros -> Hn. unfold splice, len.
  replace (Z.to_nat (Z.of_nat (length l1))) with (length l1) by lia.
  f_equal.
  - rewrite firstn_app, firstn_all, Nat.sub_diag. cbn. apply app_nil_r.
  - f_equal. rewrite skipn_app.
    rewrite skipn_all2 by lia. cbn [app].
    rewrite skipn_app. rewrite skipn_all2 by lia. cbn [app].
    replace (_ - _ - _)%nat with 0%nat by lia. reflexivity.
Qed.

Lemma index_ok {A} (l : list A) i x :
  0 <= i -> nth_error l (Z.to_nat i) = Some x -> index l i = Ok x.
Proof.
  intros H1 H2. unfold index. destruct (Z.leb_spec 0 i); [|lia].
  rewrite H2. reflexivity.
Qed.

Lemma nth_error_app_mid {A} (l1 l2 : list A) x :
  nth_error (l1 ++ x :: l2) (length l1) = Some x.
Proof. rewrite nth_error_app2 by lia. rewrite Nat.sub_diag. reflexivity. Qed.

Lemma index_app {A} (l1 l2 : list A) x i :
  i = len l1 -> index (l1 ++ x :: l2) i = Ok x.
Proof.
  intros ->. apply index_ok; [apply len_nonneg|]. unfold len.
  replace (Z.to_nat _) with (length l1) by lia. apply nth_error_app_mid.
Qed.

Lemma Forall_skipn {A} (P : A -> Prop) l n : Forall P l -> Forall P (skipn n l).
Proof.
  revert l; induction n; intros l H; [exact H|].
  destruct H; cbn; [constructor|]. auto.
Qed.
Lemma Forall_firstn {A} (P : A -> Prop) l n : Forall P l -> Forall P (firstn n l).
Proof.
  revert l; induction n; intros l H; [constructor|].
  destruct H; cbn; constructor; auto.
Qed.
