(** A stronger simulation: the states stay related whatever the outcome.  With equal
    states this is preservation of an invariant, also when an operation fails.
    Follows ProofSim.v and ProofSimMeta.v. *)
From Verif Require Export ProofSim ProofSimMeta SpecOps.

Definition ssim {S1 S2 A B} (R : S1 -> S2 -> Prop) (Q : A -> B -> Prop)
    (c1 : M S1 A) (c2 : M S2 B) : Prop :=
  forall s1 s2, R s1 s2 -> R (snd (c1 s1)) (snd (c2 s2)) /\
    match fst (c1 s1) with
    | Ok a => exists b, fst (c2 s2) = Ok b /\ Q a b
    | Err e => fst (c2 s2) = Err e
    | Panic w => fst (c2 s2) = Panic w
    | UB w => fst (c2 s2) = UB w
    | OutOfFuel => fst (c2 s2) = OutOfFuel
    end.

Lemma ssim_ret {S1 S2 A B} (R : S1 -> S2 -> Prop) (Q : A -> B -> Prop) a b :
  Q a b -> ssim R Q (ret a) (ret b).
Proof. intros HQ s1 s2 HR; cbn. eauto. Qed.
Lemma ssim_lift {S1 S2 A} (R : S1 -> S2 -> Prop) (o : outcome A) :
  ssim R eq (lift o) (lift o).
Proof. intros s1 s2 HR; destruct o; cbn; eauto. Qed.
Lemma ssim_fail {S1 S2 A B} (R : S1 -> S2 -> Prop) (Q : A -> B -> Prop) e :
  ssim R Q (fail e) (fail e).
Proof. intros s1 s2 HR; cbn; auto. Qed.
Lemma ssim_bind {S1 S2 A1 A2 B1 B2} (R : S1 -> S2 -> Prop)
    (Q : A1 -> A2 -> Prop) (Q' : B1 -> B2 -> Prop) c1 c2 f1 f2 :
  ssim R Q c1 c2 ->
  (forall a b, Q a b -> ssim R Q' (f1 a) (f2 b)) ->
  ssim R Q' (bind c1 f1) (bind c2 f2).
Proof.
  intros Hc Hf s1 s2 HR. specialize (Hc s1 s2 HR). unfold bind.
  destruct (c1 s1) as [o1 s1']; destruct (c2 s2) as [o2 s2']; cbn in *.
  destruct Hc as [HR' Hc]. destruct o1 as [a|e|w|w|]; cbn.
  - destruct Hc as (b & -> & HQ). exact (Hf a b HQ s1' s2' HR').
  - rewrite Hc. auto.
  - rewrite Hc. auto.
  - rewrite Hc. auto.
  - rewrite Hc. auto.
Qed.
Lemma ssim_bind_eq {S1 S2 A B1 B2} (R : S1 -> S2 -> Prop)
    (Q' : B1 -> B2 -> Prop) (c1 : M S1 A) c2 f1 f2 :
  ssim R eq c1 c2 ->
  (forall a, ssim R Q' (f1 a) (f2 a)) ->
  ssim R Q' (bind c1 f1) (bind c2 f2).
Proof. intros Hc Hf. eapply ssim_bind; [exact Hc|]. intros a ? <-. auto. Qed.
Lemma ssim_get {S1 S2} (R : S1 -> S2 -> Prop) : ssim R R get get.
Proof. intros s1 s2 HR; cbn; eauto. Qed.
Lemma ssim_put {S1 S2} (R : S1 -> S2 -> Prop) s1 s2 :
  R s1 s2 -> ssim R eq (put s1) (put s2).
Proof. intros HR ? ? _; cbn; eauto. Qed.
Definition result_rel {A B} (Q : A -> B -> Prop) (a : result A) (b : result B) : Prop :=
  match a, b with
  | ROk x, ROk y => Q x y
  | RErr e, RErr e' => e = e'
  | _, _ => False
  end.
Lemma ssim_catch {S1 S2 A B} (R : S1 -> S2 -> Prop) (Q : A -> B -> Prop) c1 c2 :
  ssim R Q c1 c2 -> ssim R (result_rel Q) (catch c1) (catch c2).
Proof.
  intros H s1 s2 HR. specialize (H s1 s2 HR). unfold catch.
  destruct (c1 s1) as [o1 s1']; destruct (c2 s2) as [o2 s2']; cbn in *.
  destruct H as [HR' H]. destruct o1; cbn.
  - destruct H as (b & -> & HQ). cbn. eauto.
  - rewrite H. cbn. split; [exact HR'|]. eexists. split; reflexivity.
  - rewrite H. auto.
  - rewrite H. auto.
  - rewrite H. auto.
Qed.
Lemma ssim_conseq {S1 S2 A B} (R : S1 -> S2 -> Prop)
    (Q Q' : A -> B -> Prop) c1 c2 :
  (forall a b, Q a b -> Q' a b) -> ssim R Q c1 c2 -> ssim R Q' c1 c2.
Proof.
  intros HQ H s1 s2 HR. destruct (H s1 s2 HR) as [HR' Hm]. split; [exact HR'|].
  destruct (fst (c1 s1)); auto. destruct Hm as (b & ? & ?); eauto.
Qed.

Ltac ssim_step :=
  match goal with
  | |- ssim _ _ (bind _ _) (bind _ _) => eapply ssim_bind_eq; [|intro]
  | |- ssim _ _ (lift _) (lift _) => apply ssim_lift
  | |- ssim _ _ (ret _) (ret _) => apply ssim_ret; try reflexivity
  | |- ssim _ _ (fail _) (fail _) => apply ssim_fail
  | |- ssim _ _ (fmt_err _) (fmt_err _) => apply ssim_fail
  | |- ssim _ _ (let '(_, _) := ?x in _) _ => destruct x
  | |- ssim _ _ (if ?x then _ else _) _ => destruct x
  | |- ssim _ _ (match ?x with _ => _ end) _ => destruct x
  end.
Ltac ssim_tac := repeat (try solve [auto]; ssim_step); auto.

Lemma ssim_bind_lift {S1 S2 A B1 B2} (R : S1 -> S2 -> Prop)
    (Q : B1 -> B2 -> Prop) (o : outcome A) f1 f2 :
  (forall a, o = Ok a -> ssim R Q (f1 a) (f2 a)) ->
  ssim R Q (bind (lift o) f1) (bind (lift o) f2).
Proof.
  intros H s1 s2 HR. destruct o as [a|e|w|w|]; try (cbn; auto; fail).
  exact (H a eq_refl s1 s2 HR).
Qed.
Lemma ssim_byte_bind {S1 S2 B1 B2} (R : S1 -> S2 -> Prop)
    (Q' : B1 -> B2 -> Prop) (c1 : M S1 Z) (c2 : M S2 Z) f1 f2 :
  ssim R byteq c1 c2 ->
  (forall a, 0 <= a < 256 -> ssim R Q' (f1 a) (f2 a)) ->
  ssim R Q' (bind c1 f1) (bind c2 f2).
Proof. intros Hc Hf. eapply ssim_bind; [exact Hc|]. intros a ? [<- H]. auto. Qed.

(** What is required of two readers; [al] are the allocations that are allowed. *)
Record rb_ssim (al : Z -> Z -> Prop) {S1 S2} (R : S1 -> S2 -> Prop)
    (rb1 : ReadBytes S1) (rb2 : ReadBytes S2) : Prop := {
  rss_u8 : ssim R byteq (read_u8 rb1) (read_u8 rb2);
  rss_alloc : forall n sz, al n sz -> ssim R eq (rb_alloc rb1 n sz) (rb_alloc rb2 n sz)
}.
Definition eof_ssim {S1 S2} (R : S1 -> S2 -> Prop)
    (rb1 : ReadBytes S1) (rb2 : ReadBytes S2) : Prop :=
  ssim R (fun a b => a = b /\ match a with Some x => 0 <= x < 256 | None => True end)
      (read_u8_or_eof rb1) (read_u8_or_eof rb2).
Record bulk_ssim {S1 S2} (R : S1 -> S2 -> Prop)
    (rb1 : ReadBytes S1) (rb2 : ReadBytes S2) : Prop := {
  bss_into : forall b1 b2, length b1 = length b2 -> len b1 < 2 ^ 32 ->
    ssim R eq (read_into rb1 b1) (read_into rb2 b2);
  bss_skip : forall n, 0 <= n < 2 ^ 32 -> ssim R eq (skip rb1 n) (skip rb2 n)
}.

Section Strong.
  Context (al : Z -> Z -> Prop) {S1 S2 : Type} (R : S1 -> S2 -> Prop)
          (rb1 : ReadBytes S1) (rb2 : ReadBytes S2) (m : build) (fuel : nat).
  Context (H : rb_ssim al R rb1 rb2).

  Lemma read_u8_ssim_eq : ssim R eq (read_u8 rb1) (read_u8 rb2).
  Proof.
    eapply ssim_conseq; [|apply H]. intros a b [? _]; auto.
  Qed.

  (** ** Provided methods *)




  Lemma read_be_u16_ssim :
    ssim R (fun a b => a = b /\ 0 <= a < 65536) (read_be_u16 rb1) (read_be_u16 rb2).
  Proof.
    unfold read_be_u16. eapply ssim_byte_bind; [apply H|intros b0 ?].
    eapply ssim_byte_bind; [apply H|intros b1 ?].
    apply ssim_ret. rewrite be_u16_range by lia. lia.
  Qed.

  Lemma read_be_u24_ssim :
    ssim R (fun a b => a = b /\ 0 <= a < 2 ^ 24) (read_be_u24 rb1) (read_be_u24 rb2).
  Proof.
    unfold read_be_u24. eapply ssim_byte_bind; [apply H|intros b0 ?].
    eapply ssim_byte_bind; [apply H|intros b1 ?].
    eapply ssim_byte_bind; [apply H|intros b2 ?].
    apply ssim_ret. rewrite be_u24_range by lia. lia.
  Qed.

  Lemma read_be_u32_ssim :
    ssim R (fun a b => a = b /\ 0 <= a < 2 ^ 32) (read_be_u32 rb1) (read_be_u32 rb2).
  Proof.
    unfold read_be_u32. eapply ssim_byte_bind; [apply H|intros b0 ?].
    eapply ssim_byte_bind; [apply H|intros b1 ?].
    eapply ssim_byte_bind; [apply H|intros b2 ?].
    eapply ssim_byte_bind; [apply H|intros b3 ?].
    apply ssim_ret. rewrite be_u32_range by lia. lia.
  Qed.

  Lemma read_le_u32_ssim :
    ssim R (fun a b => a = b /\ 0 <= a < 2 ^ 32) (read_le_u32 rb1) (read_le_u32 rb2).
  Proof.
    unfold read_le_u32. eapply ssim_byte_bind; [apply H|intros b0 ?].
    eapply ssim_byte_bind; [apply H|intros b1 ?].
    eapply ssim_byte_bind; [apply H|intros b2 ?].
    eapply ssim_byte_bind; [apply H|intros b3 ?].
    apply ssim_ret. rewrite be_u32_range by lia. lia.
  Qed.

  Lemma ssim_eq_of {A} (P : A -> Prop) c1 c2 :
    ssim R (fun a b => a = b /\ P a) c1 c2 -> ssim R eq c1 c2.
  Proof. intros Hs. eapply ssim_conseq; [|exact Hs]. intros ? ? [? ?]; auto. Qed.

  Lemma read_be_u16_or_eof_ssim : eof_ssim R rb1 rb2 ->
    ssim R eq (read_be_u16_or_eof rb1) (read_be_u16_or_eof rb2).
  Proof.
    intros He. pose proof (ssim_eq_of _ _ _ He) as He'.
    unfold read_be_u16_or_eof. ssim_tac.
  Qed.

  (** ** Bitstream *)


  Lemma bs_read_u8_ssim : ssim (Rbits R) eq (bs_read_u8 rb1) (bs_read_u8 rb2).
  Proof.
    intros s1 s2 (HR & Hd & Hb). unfold bs_read_u8.
    pose proof (read_u8_ssim_eq _ _ HR) as Hs.
    destruct (read_u8 rb1 (bs_reader s1)) as [o1 r1],
             (read_u8 rb2 (bs_reader s2)) as [o2 r2]; cbn in *.
    destruct Hs as [HR' Hs]. split; [repeat split; auto|].
    destruct o1; auto.
  Qed.

  Lemma bs_set_ssim d b : ssim (Rbits R) eq (bs_set d b) (bs_set d b).
  Proof. intros s1 s2 (HR & Hd & Hb). cbn. split; [repeat split; auto|]. exists tt. auto. Qed.

  Lemma bs_get_bind {B1 B2} (Q : B1 -> B2 -> Prop) f1 f2 :
    (forall s1 s2, R (bs_reader s1) (bs_reader s2) -> bs_data s1 = bs_data s2 ->
       bs_bits_left s1 = bs_bits_left s2 -> ssim (Rbits R) Q (f1 s1) (f2 s2)) ->
    ssim (Rbits R) Q (bind get f1) (bind get f2).
  Proof.
    intros Hf. eapply ssim_bind; [apply ssim_get|].
    intros a b (? & ? & ?). auto.
  Qed.

  Ltac bs_get :=
    apply bs_get_bind;
    let s1 := fresh "s1" in let s2 := fresh "s2" in
    intros s1 s2 _ Hd Hb; rewrite ?Hd, ?Hb; clear Hd Hb.

  Hint Resolve bs_read_u8_ssim bs_set_ssim : core.

  Lemma read_bit_ssim : ssim (Rbits R) eq (read_bit rb1 m) (read_bit rb2 m).
  Proof. unfold read_bit. bs_get. ssim_tac. Qed.

  Lemma read_unary_loop_ssim : forall f n,
    ssim (Rbits R) eq (read_unary_loop rb1 m f n) (read_unary_loop rb2 m f n).
  Proof.
    induction f as [|f IH]; intros n; cbn [read_unary_loop]; ssim_tac.
  Qed.
  Hint Resolve read_unary_loop_ssim : core.

  Lemma read_unary_ssim : ssim (Rbits R) eq (read_unary rb1 m fuel) (read_unary rb2 m fuel).
  Proof. unfold read_unary. bs_get. ssim_tac. Qed.

  Lemma read_leq_u8_ssim bits : ssim (Rbits R) eq (read_leq_u8 rb1 m bits) (read_leq_u8 rb2 m bits).
  Proof.
    unfold read_leq_u8. ssim_step; [ssim_tac|]. bs_get.
    ssim_step; [ssim_tac|]. bs_get. ssim_tac.
  Qed.

  Lemma read_gt_u8_leq_u16_ssim bits :
    ssim (Rbits R) eq (read_gt_u8_leq_u16 rb1 m bits) (read_gt_u8_leq_u16 rb2 m bits).
  Proof. unfold read_gt_u8_leq_u16. ssim_step; [ssim_tac|]. bs_get. ssim_tac. Qed.
  Hint Resolve read_bit_ssim read_unary_ssim read_leq_u8_ssim read_gt_u8_leq_u16_ssim : core.

  Lemma read_leq_u16_ssim bits : ssim (Rbits R) eq (read_leq_u16 rb1 m bits) (read_leq_u16 rb2 m bits).
  Proof. unfold read_leq_u16. ssim_tac. Qed.
  Hint Resolve read_leq_u16_ssim : core.
  Lemma read_leq_u32_ssim bits : ssim (Rbits R) eq (read_leq_u32 rb1 m bits) (read_leq_u32 rb2 m bits).
  Proof. unfold read_leq_u32. ssim_tac. Qed.
  Hint Resolve read_leq_u32_ssim : core.

  (** ** Subframes *)

  Lemma fill_ssim {T1 T2} (R' : T1 -> T2 -> Prop) c1 c2 b : ssim R' eq c1 c2 ->
    ssim R' eq (fill c1 b) (fill c2 b).
  Proof. intros Hc. induction b; cbn [fill]; ssim_tac. Qed.

  Lemma read_subframe_header_ssim :
    ssim (Rbits R) eq (read_subframe_header rb1 m fuel) (read_subframe_header rb2 m fuel).
  Proof. unfold read_subframe_header. ssim_tac. Qed.

  Lemma read_rice_sample_ssim k :
    ssim (Rbits R) eq (read_rice_sample rb1 m fuel k) (read_rice_sample rb2 m fuel k).
  Proof. unfold read_rice_sample. ssim_tac. Qed.
  Lemma read_rice2_sample_ssim k :
    ssim (Rbits R) eq (read_rice2_sample rb1 m fuel k) (read_rice2_sample rb2 m fuel k).
  Proof. unfold read_rice2_sample. ssim_tac. Qed.
  Hint Resolve fill_ssim read_subframe_header_ssim read_rice_sample_ssim
       read_rice2_sample_ssim : core.

  Lemma decode_rice_partition_ssim b :
    ssim (Rbits R) eq (decode_rice_partition rb1 m fuel b) (decode_rice_partition rb2 m fuel b).
  Proof. unfold decode_rice_partition. ssim_tac. Qed.
  Lemma decode_rice2_partition_ssim b :
    ssim (Rbits R) eq (decode_rice2_partition rb1 m fuel b) (decode_rice2_partition rb2 m fuel b).
  Proof. unfold decode_rice2_partition. ssim_tac. Qed.
  Hint Resolve decode_rice_partition_ssim decode_rice2_partition_ssim : core.

  Lemma partitions_loop_ssim {T1 T2} (R' : bitstream T1 -> bitstream T2 -> Prop) p1 p2 :
    (forall b, ssim R' eq (p1 b) (p2 b)) ->
    forall n start l nspp b,
    ssim R' eq (partitions_loop p1 n start l nspp b) (partitions_loop p2 n start l nspp b).
  Proof.
    intros Hp. induction n as [|n IH]; intros; cbn [partitions_loop]; ssim_tac.
  Qed.

  Lemma decode_residual_ssim bs b :
    ssim (Rbits R) eq (decode_residual rb1 m fuel bs b) (decode_residual rb2 m fuel bs b).
  Proof.
    unfold decode_residual. ssim_step; [auto|].
    eapply ssim_bind with
      (Q := fun p1 p2 => forall b, ssim (Rbits R) eq (p1 b) (p2 b)).
    - repeat match goal with |- context [if ?x then _ else _] => destruct x end;
        [apply ssim_ret|apply ssim_ret|apply ssim_fail]; auto.
    - intros p1 p2 Hp.
      pose proof (partitions_loop_ssim (Rbits R) p1 p2 Hp).
      ssim_tac.
  Qed.

  Lemma decode_constant_ssim bps b :
    ssim (Rbits R) eq (decode_constant rb1 m bps b) (decode_constant rb2 m bps b).
  Proof. unfold decode_constant. ssim_tac. Qed.
  Lemma read_verbatim_sample_ssim bps :
    ssim (Rbits R) eq (read_verbatim_sample rb1 m bps) (read_verbatim_sample rb2 m bps).
  Proof. unfold read_verbatim_sample. ssim_tac. Qed.
  Hint Resolve decode_residual_ssim decode_constant_ssim read_verbatim_sample_ssim : core.
  Lemma decode_verbatim_ssim bps b :
    ssim (Rbits R) eq (decode_verbatim rb1 m bps b) (decode_verbatim rb2 m bps b).
  Proof. unfold decode_verbatim. ssim_tac. Qed.
  Hint Resolve decode_verbatim_ssim : core.
  Lemma decode_fixed_ssim bps ord b :
    ssim (Rbits R) eq (decode_fixed rb1 m fuel bps ord b) (decode_fixed rb2 m fuel bps ord b).
  Proof. unfold decode_fixed. ssim_tac. Qed.
  Lemma read_coefficients_ssim q n :
    ssim (Rbits R) eq (read_coefficients rb1 m q n) (read_coefficients rb2 m q n).
  Proof. induction n; cbn [read_coefficients]; ssim_tac. Qed.
  Hint Resolve decode_fixed_ssim read_coefficients_ssim : core.
  Lemma decode_lpc_ssim bps ord b :
    ssim (Rbits R) eq (decode_lpc rb1 m fuel bps ord b) (decode_lpc rb2 m fuel bps ord b).
  Proof. unfold decode_lpc. ssim_tac. Qed.
  Hint Resolve decode_lpc_ssim : core.
  Lemma decode_ssim bps b :
    ssim (Rbits R) eq (decode rb1 m fuel bps b) (decode rb2 m fuel bps b).
  Proof. unfold decode. ssim_tac. Qed.
  Hint Resolve decode_ssim : core.

  Lemma with_bitstream_ssim {A} (c1 : M (bitstream S1) A) c2 :
    ssim (Rbits R) eq c1 c2 -> ssim R eq (with_bitstream c1) (with_bitstream c2).
  Proof.
    intros Hc s1 s2 HR. unfold with_bitstream.
    assert (Rbits R (bs_new s1) (bs_new s2)) as HB by (repeat split; auto).
    specialize (Hc _ _ HB).
    destruct (c1 (bs_new s1)) as [o1 t1], (c2 (bs_new s2)) as [o2 t2]; cbn in *.
    destruct Hc as [(HR' & _) Hc]. split; [exact HR'|].
    destruct o1; auto.
  Qed.

  (** ** Variable-length integers *)

  Hint Resolve read_u8_ssim_eq : core.

  Lemma vli_rest_loop_ssim n x :
    ssim R eq (vli_rest_loop rb1 m n x) (vli_rest_loop rb2 m n x).
  Proof. revert x; induction n; intros x; cbn [vli_rest_loop]; ssim_tac. Qed.
  Hint Resolve vli_rest_loop_ssim : core.
  Lemma read_var_length_int_ssim :
    ssim R eq (read_var_length_int rb1 m) (read_var_length_int rb2 m).
  Proof. unfold read_var_length_int. ssim_tac. Qed.

  (** ** Channels of a frame *)

  Lemma decode_into_ssim bps b x y :
    ssim (Rbits R) eq (decode_into rb1 m fuel bps b x y) (decode_into rb2 m fuel bps b x y).
  Proof. unfold decode_into. ssim_tac. Qed.
  Hint Resolve decode_into_ssim : core.
  Lemma independent_loop_ssim bps bs n : forall ch b,
    ssim (Rbits R) eq (independent_loop rb1 m fuel bps bs n ch b)
                     (independent_loop rb2 m fuel bps bs n ch b).
  Proof. induction n; intros; cbn [independent_loop]; ssim_tac. Qed.
  Hint Resolve independent_loop_ssim : core.
  Lemma decode_channels_ssim ca bps bs b :
    ssim (Rbits R) eq (decode_channels rb1 m fuel ca bps bs b)
                     (decode_channels rb2 m fuel ca bps bs b).
  Proof. unfold decode_channels. ssim_tac. Qed.

  (** ** CRC readers *)


  Lemma c8_lift_ssim {A B} (Q : A -> B -> Prop) c1 c2 :
    ssim R Q c1 c2 -> ssim (Rcrc8 R) Q (c8_lift c1) (c8_lift c2).
  Proof.
    intros Hc s1 s2 (HR & Hs). unfold c8_lift. specialize (Hc _ _ HR).
    destruct (c1 (c8_inner s1)) as [o1 t1], (c2 (c8_inner s2)) as [o2 t2]; cbn in *.
    destruct Hc as [HR' Hc]. split; [repeat split; auto|].
    destruct o1; auto.
  Qed.
  Lemma c16_lift_ssim {A B} (Q : A -> B -> Prop) c1 c2 :
    ssim R Q c1 c2 -> ssim (Rcrc16 R) Q (c16_lift c1) (c16_lift c2).
  Proof.
    intros Hc s1 s2 (HR & Hs). unfold c16_lift. specialize (Hc _ _ HR).
    destruct (c1 (c16_inner s1)) as [o1 t1], (c2 (c16_inner s2)) as [o2 t2]; cbn in *.
    destruct Hc as [HR' Hc]. split; [repeat split; auto|].
    destruct o1; auto.
  Qed.

  Lemma c8_update_state_ssim b : ssim (Rcrc8 R) eq (c8_update_state b) (c8_update_state b).
  Proof.
    unfold c8_update_state. eapply ssim_bind; [apply ssim_get|].
    intros s1 s2 (HR & Hs). rewrite Hs. ssim_step; [ssim_tac|].
    apply ssim_put. split; auto.
  Qed.
  Lemma c16_update_state_ssim b : ssim (Rcrc16 R) eq (c16_update_state b) (c16_update_state b).
  Proof.
    unfold c16_update_state. eapply ssim_bind; [apply ssim_get|].
    intros s1 s2 (HR & Hs). rewrite Hs. ssim_step; [ssim_tac|].
    apply ssim_put. split; auto.
  Qed.
  Hint Resolve c8_update_state_ssim c16_update_state_ssim : core.

  Lemma crc8_rb_ssim : rb_ssim al (Rcrc8 R) (crc8_rb rb1) (crc8_rb rb2).
  Proof.
    split.
    - cbn [crc8_rb read_u8]. eapply ssim_byte_bind; [apply c8_lift_ssim, H|].
      intros a Ha. ssim_step; [auto|]. apply ssim_ret; split; auto.
    - intros; cbn [crc8_rb rb_alloc]. apply c8_lift_ssim, H; assumption.
  Qed.
  Lemma crc16_rb_ssim : rb_ssim al (Rcrc16 R) (crc16_rb rb1) (crc16_rb rb2).
  Proof.
    split.
    - cbn [crc16_rb read_u8]. eapply ssim_byte_bind; [apply c16_lift_ssim, H|].
      intros a Ha. ssim_step; [auto|]. apply ssim_ret; split; auto.
    - intros; cbn [crc16_rb rb_alloc]. apply c16_lift_ssim, H; assumption.
  Qed.

  Lemma crc8_eof_ssim : eof_ssim R rb1 rb2 -> eof_ssim (Rcrc8 R) (crc8_rb rb1) (crc8_rb rb2).
  Proof.
    intros He. unfold eof_ssim. cbn [crc8_rb read_u8_or_eof].
    eapply ssim_bind; [apply c8_lift_ssim, He|].
    intros a b [<- Ha]. destruct a as [a|].
    - ssim_step; [auto|]. apply ssim_ret; split; auto.
    - apply ssim_ret; split; auto.
  Qed.
  Lemma crc16_eof_ssim : eof_ssim R rb1 rb2 -> eof_ssim (Rcrc16 R) (crc16_rb rb1) (crc16_rb rb2).
  Proof.
    intros He. unfold eof_ssim. cbn [crc16_rb read_u8_or_eof].
    eapply ssim_bind; [apply c16_lift_ssim, He|].
    intros a b [<- Ha]. destruct a as [a|].
    - ssim_step; [auto|]. apply ssim_ret; split; auto.
    - apply ssim_ret; split; auto.
  Qed.

  Lemma crc8_crc_ssim : ssim (Rcrc8 R) eq (@crc8_crc S1) (@crc8_crc S2).
  Proof.
    unfold crc8_crc. eapply ssim_bind; [apply ssim_get|].
    intros s1 s2 (_ & Hs). apply ssim_ret; auto.
  Qed.
  Lemma crc16_crc_ssim : ssim (Rcrc16 R) eq (@crc16_crc S1) (@crc16_crc S2).
  Proof.
    unfold crc16_crc. eapply ssim_bind; [apply ssim_get|].
    intros s1 s2 (_ & Hs). apply ssim_ret; auto.
  Qed.

  Lemma with_crc8_ssim {A B} (Q : A -> B -> Prop) c1 c2 :
    ssim (Rcrc8 R) Q c1 c2 -> ssim R Q (with_crc8 c1) (with_crc8 c2).
  Proof.
    intros Hc s1 s2 HR. unfold with_crc8.
    assert (Rcrc8 R (crc8_new s1) (crc8_new s2)) as HB by (split; auto).
    specialize (Hc _ _ HB).
    destruct (c1 (crc8_new s1)) as [o1 t1], (c2 (crc8_new s2)) as [o2 t2]; cbn in *.
    destruct Hc as [(HR' & _) Hc]. split; [exact HR'|].
    destruct o1; auto.
  Qed.
  Lemma with_crc16_ssim {A B} (Q : A -> B -> Prop) c1 c2 :
    ssim (Rcrc16 R) Q c1 c2 -> ssim R Q (with_crc16 c1) (with_crc16 c2).
  Proof.
    intros Hc s1 s2 HR. unfold with_crc16.
    assert (Rcrc16 R (crc16_new s1) (crc16_new s2)) as HB by (split; auto).
    specialize (Hc _ _ HB).
    destruct (c1 (crc16_new s1)) as [o1 t1], (c2 (crc16_new s2)) as [o2 t2]; cbn in *.
    destruct Hc as [(HR' & _) Hc]. split; [exact HR'|].
    destruct o1; auto.
  Qed.
End Strong.

Section StrongFrame.
  Context (al : Z -> Z -> Prop) {S1 S2 : Type} (R : S1 -> S2 -> Prop)
          (rb1 : ReadBytes S1) (rb2 : ReadBytes S2) (m : build) (fuel : nat).
  Context (H : rb_ssim al R rb1 rb2).

  Lemma chk_u16_small x v : chk m u16 x = Ok v -> 0 <= v < 65536.
  Proof.
    unfold chk. pose proof (u16_range x) as Hr. destruct (u16 x =? x) eqn:E; [intros [= <-]; lia|].
    destruct m; [discriminate|intros [= <-]; lia].
  Qed.
  (** The sizes in a header are bounded. *)
  Definition header_small (o : option frame_header) : Prop :=
    match o with
    | Some h => 0 <= fh_block_size h < 65536 /\ 0 <= fh_channels h <= 8
    | None => True
    end.
  Let Qsmall (a b : option frame_header) : Prop := a = b /\ header_small a.

  Lemma header_after_sync_ssim o :
    ssim (Rcrc8 R) Qsmall (header_after_sync rb1 m o) (header_after_sync rb2 m o).
  Proof.
    pose proof (crc8_rb_ssim _ _ _ _ H) as H8.
    pose proof (read_u8_ssim_eq _ _ _ _ H8) as Hu8.
    pose proof (read_var_length_int_ssim _ _ _ _ m H8) as Hv.
    pose proof (ssim_eq_of _ _ _ _ (read_be_u16_ssim _ _ _ _ H8)) as H16.
    pose proof (crc8_crc_ssim R) as Hcrc.
    unfold header_after_sync. destruct o as [sy|]; [|apply ssim_ret; split; [reflexivity|exact I]].
    destruct (negb _); [apply ssim_fail|]. destruct (negb _); [apply ssim_fail|].
    ssim_step; [exact Hu8|].
    eapply ssim_bind with (Q := fun x y => x = y /\ 0 <= fst (fst x) < 65536).
    { destruct (_ =? 0); [apply ssim_fail|]. destruct (_ =? 1); [apply ssim_ret; cbn; split; [reflexivity|lia]|].
      destruct ((2 <=? _) && _).
      - apply ssim_bind_lift; intros p _. apply ssim_bind_lift; intros v Hc. apply chk_u16_small in Hc. apply ssim_ret; cbn; auto.
      - destruct (_ =? 6); [apply ssim_ret; cbn; split; [reflexivity|lia]|].
        destruct (_ =? 7); [apply ssim_ret; cbn; split; [reflexivity|lia]|].
        apply ssim_bind_lift; intros p _. apply ssim_bind_lift; intros v Hc. apply chk_u16_small in Hc. apply ssim_ret; cbn; auto. }
    intros [[bs r8] r16] ? [<- Hbs]. cbn [fst] in Hbs.
    ssim_step; [ssim_tac|]. destruct a0 as [[[sr x1] x2] x3].
    eapply ssim_byte_bind; [apply H8|]. intros cb Hcb.
    eapply ssim_bind with (Q := fun x y => x = y /\ match x with Independent n => 0 <= n <= 8 | _ => True end).
    { assert (0 <= Z.shiftr cb 4) by (apply Z.shiftr_nonneg; lia).
      destruct (_ <? 8) eqn:E.
      - apply ssim_bind_lift; intros v Hc. rewrite chk_ok in Hc by (unfold u8; rewrite Z.mod_small by lia; reflexivity).
        injection Hc as <-. apply ssim_ret. split; [reflexivity|lia].
      - destruct (_ =? 8); [apply ssim_ret; auto|]. destruct (_ =? 9); [apply ssim_ret; auto|].
        destruct (_ =? 10); [apply ssim_ret; auto|]. apply ssim_fail. }
    intros ca ? [<- Hca].
    ssim_step; [ssim_tac|]. destruct (negb _); [apply ssim_fail|].
    ssim_step; [ssim_tac|].
    eapply ssim_bind with (Q := fun x y => x = y /\ 0 <= x < 65536).
    { destruct r8; [|apply ssim_ret; auto]. ssim_step; [exact Hu8|].
      intros s1 s2 HR. split; [exact HR|]. cbn. destruct (chk m u16 (a2 + 1)) eqn:Hc; auto. apply chk_u16_small in Hc. eauto. }
    intros bs1 ? [<- Hbs1].
    eapply ssim_bind with (Q := fun x y => x = y /\ 0 <= x < 65536).
    { destruct r16; [|apply ssim_ret; auto]. ssim_step; [exact H16|]. destruct (_ =? 65535); [apply ssim_fail|].
      intros s1 s2 HR. split; [exact HR|]. cbn. destruct (chk m u16 (a2 + 1)) eqn:Hc; auto. apply chk_u16_small in Hc. eauto. }
    intros bs2 ? [<- Hbs2].
    ssim_step; [ssim_tac|]. ssim_step; [ssim_tac|]. ssim_step; [ssim_tac|].
    ssim_step; [exact Hcrc|]. ssim_step; [exact Hu8|]. destruct (negb _); [apply ssim_fail|].
    apply ssim_ret. split; [reflexivity|]. cbn [header_small fh_block_size]. split; [exact Hbs2|].
    unfold fh_channels. cbn [fh_channel_assignment]. destruct ca; lia.
  Qed.

  Lemma read_frame_header_or_eof_ssim (He : eof_ssim R rb1 rb2) :
    ssim R Qsmall (read_frame_header_or_eof rb1 m) (read_frame_header_or_eof rb2 m).
  Proof.
    unfold read_frame_header_or_eof. apply with_crc8_ssim.
    rewrite !read_frame_header_body_eq.
    eapply ssim_bind_eq; [|apply header_after_sync_ssim].
    apply read_be_u16_or_eof_ssim.
    apply crc8_eof_ssim; auto.
  Qed.
End StrongFrame.

Section StrongNext.
  Context (al : Z -> Z -> Prop) {S1 S2 : Type} (R : S1 -> S2 -> Prop)
          (rb1 : ReadBytes S1) (rb2 : ReadBytes S2) (m : build) (fuel : nat).
  Context (H : rb_ssim al R rb1 rb2).

  Context (Hal4 : forall n, 0 <= n <= 8 * 65535 -> al n 4).

  Lemma frame_after_header_ssim buffer o : header_small o ->
    ssim (Rcrc16 R) eq (frame_after_header rb1 m fuel buffer o)
                          (frame_after_header rb2 m fuel buffer o).
  Proof.
    intros Ho.
    pose proof (crc16_rb_ssim _ _ _ _ H) as H16.
    pose proof (crc16_crc_ssim R).
    pose proof (ssim_eq_of _ _ _ _ (read_be_u16_ssim _ _ _ _ H16)).
    unfold frame_after_header. destruct o as [h|]; [|ssim_tac]. destruct Ho as [Hbs Hch].
    apply ssim_bind_lift; intros total Hc. rewrite chk_u64 in Hc by nia. injection Hc as <-.
    assert (forall n, snd (ensure_buffer_len buffer (fh_channels h * fh_block_size h)) = Some n -> al n 4) as Hsome.
    { intros n. unfold ensure_buffer_len. destruct (_ <? _); [destruct (_ <? _)|]; cbn [snd]; intros E; inversion E. apply Hal4. nia. }
    destruct (ensure_buffer_len buffer _) as [buf a]. cbn [snd] in Hsome.
    ssim_step; [destruct a as [n|]; [apply (rss_alloc _ _ _ _ H16), Hsome; reflexivity|ssim_tac]|].
    ssim_step; [ssim_tac|]. ssim_step; [ssim_tac|].
    ssim_step; [eapply with_bitstream_ssim, decode_channels_ssim, H16|].
    ssim_tac.
  Qed.

  Lemma read_next_or_eof_ssim (He : eof_ssim R rb1 rb2) buffer :
    ssim R eq (read_next_or_eof rb1 m fuel buffer) (read_next_or_eof rb2 m fuel buffer).
  Proof.
    unfold read_next_or_eof. apply with_crc16_ssim.
    rewrite !read_next_body_eq.
    eapply ssim_bind; [eapply read_frame_header_or_eof_ssim; [apply crc16_rb_ssim, H|apply crc16_eof_ssim; auto]|].
    intros o ? [<- Ho]. apply frame_after_header_ssim, Ho.
  Qed.
End StrongNext.
Section StrongMeta.
  Context (al : Z -> Z -> Prop) {S1 S2 : Type} (R : S1 -> S2 -> Prop)
          (rb1 : ReadBytes S1) (rb2 : ReadBytes S2) (m : build).
  Context (un1 un2 : nat -> list Z)
          (Hun1 : forall n, length (un1 n) = n) (Hun2 : forall n, length (un2 n) = n).
  Context (H : rb_ssim al R rb1 rb2) (HB : bulk_ssim R rb1 rb2).

  Let Hu8 := rss_u8 _ _ _ _ H.
  Let Hu8e := read_u8_ssim_eq _ _ _ _ H.
  Let H16 := ssim_eq_of _ _ _ _ (read_be_u16_ssim _ _ _ _ H).
  Let H24 := ssim_eq_of _ _ _ _ (read_be_u24_ssim _ _ _ _ H).
  Let H32 := ssim_eq_of _ _ _ _ (read_be_u32_ssim _ _ _ _ H).
  Let L32 := ssim_eq_of _ _ _ _ (read_le_u32_ssim _ _ _ _ H).
  Let Hal := rss_alloc _ _ _ _ H.

  Lemma read_metadata_block_header_ssim :
    ssim R (fun a b => a = b /\ 0 <= mbh_length a < 2 ^ 24)
        (read_metadata_block_header rb1) (read_metadata_block_header rb2).
  Proof.
    unfold read_metadata_block_header. ssim_step; [exact Hu8e|].
    eapply ssim_bind; [eapply read_be_u24_ssim, H|].
    intros a0 b0 [<- Hr]. apply ssim_ret. split; [reflexivity|exact Hr].
  Qed.

  Lemma read_streaminfo_block_ssim :
    ssim R eq (read_streaminfo_block rb1 m) (read_streaminfo_block rb2 m).
  Proof.
    assert (ssim R eq (read_into rb1 (repeat 0 16)) (read_into rb2 (repeat 0 16)))
      by (apply HB; [reflexivity|cbn; lia]).
    unfold read_streaminfo_block. ssim_tac.
  Qed.

  Lemma uninit_ssim n : n < 2 ^ 32 ->
    ssim R eq (read_into rb1 (un1 (Z.to_nat n))) (read_into rb2 (un2 (Z.to_nat n))).
  Proof.
    intros. apply HB; [rewrite Hun1, Hun2; reflexivity|].
    unfold len. rewrite Hun1. lia.
  Qed.

  (** The allocations allowed for a block of the given length. *)
  Definition allows (length : Z) : Prop :=
    length <= 10 * 1024 * 1024 ->
    (forall n, 0 <= n <= length - 4 -> al n 1) /\ (forall n, 0 <= n -> 4 * n < length -> al n 32).

  Lemma vorbis_loop_ssim : forall fuel bl n cs, bl < 2 ^ 32 -> (forall k, 0 <= k <= bl -> al k 1) ->
    ssim R eq (vorbis_loop rb1 m un1 fuel bl n cs) (vorbis_loop rb2 m un2 fuel bl n cs).
  Proof.
    induction fuel as [|fuel IH]; intros bl n cs Hbl Ha; cbn [vorbis_loop]; [ssim_tac|].
    destruct ((4 <=? bl) && (len cs <? n)) eqn:E; [|ssim_tac].
    eapply ssim_bind; [eapply read_le_u32_ssim, H|]. intros cl ? [<- Hcl].
    apply ssim_bind_lift; intros bl' Hc.
    rewrite chk_u32 in Hc by lia. injection Hc as <-.
    destruct (bl - 4 <? cl) eqn:E1; [ssim_tac|].
    destruct (cl =? 0) eqn:E2.
    - ssim_step; [ssim_tac|]. apply IH; [lia|]. intros; apply Ha; lia.
    - ssim_step; [apply Hal, Ha; lia|].
      ssim_step; [apply uninit_ssim; lia|].
      apply ssim_bind_lift; intros bl' Hc. rewrite chk_u32 in Hc by lia. injection Hc as <-.
      destruct (position 61 a0 0) as [sep|]; [|ssim_tac].
      ssim_step; [ssim_tac|]. destruct (existsb _ _); [ssim_tac|].
      ssim_step; [ssim_tac|]. apply IH; [lia|]. intros; apply Ha; lia.
  Qed.

  Lemma read_vorbis_comment_block_ssim length : allows length ->
    ssim R eq (read_vorbis_comment_block rb1 m un1 length)
                 (read_vorbis_comment_block rb2 m un2 length).
  Proof.
    intros Ha. unfold read_vorbis_comment_block.
    destruct (length <? 8) eqn:E1; [ssim_tac|].
    destruct (10 * 1024 * 1024 <? length) eqn:E2; [ssim_tac|].
    destruct (Ha ltac:(lia)) as [Ha1 Ha2].
    eapply ssim_bind; [eapply read_le_u32_ssim, H|]. intros vl ? [<- Hvl].
    apply ssim_bind_lift; intros l8 Hc.
    rewrite chk_u32 in Hc by lia. injection Hc as <-.
    destruct (length - 8 <? vl) eqn:E3; [ssim_tac|].
    ssim_step; [apply Hal, Ha1; lia|].
    ssim_step; [apply uninit_ssim; lia|].
    ssim_step; [ssim_tac|]. eapply ssim_bind; [eapply read_le_u32_ssim, H|]. intros cl ? [<- Hcl].
    destruct (length / 4 <=? cl) eqn:E4; [ssim_tac|].
    ssim_step; [apply Hal, Ha2; lia|].
    apply ssim_bind_lift; intros bl' Hc. rewrite chk_u32 in Hc by lia. injection Hc as <-.
    ssim_step; [apply vorbis_loop_ssim; [lia|intros; apply Ha1; lia]|].
    ssim_tac.
  Qed.

  Lemma read_application_block_ssim length : allows length ->
    ssim R eq (read_application_block rb1 m un1 length)
                 (read_application_block rb2 m un2 length).
  Proof.
    intros Ha. unfold read_application_block.
    destruct (length <? 4) eqn:E1; [ssim_tac|].
    destruct (10 * 1024 * 1024 <? length) eqn:E2; [ssim_tac|].
    ssim_step; [exact H32|].
    apply ssim_bind_lift; intros l4 Hc.
    rewrite chk_u64 in Hc by lia. injection Hc as <-.
    ssim_step; [apply Hal, Ha; lia|]. ssim_step; [apply uninit_ssim; lia|]. ssim_tac.
  Qed.

  Lemma read_metadata_block_ssim ty length : 0 <= length < 2 ^ 32 -> allows length ->
    ssim R eq (read_metadata_block rb1 m un1 ty length)
                 (read_metadata_block rb2 m un2 ty length).
  Proof.
    intros Hl Ha.
    pose proof (bss_skip _ _ _ HB length Hl).
    pose proof read_streaminfo_block_ssim.
    pose proof (read_vorbis_comment_block_ssim length Ha).
    pose proof (read_application_block_ssim length Ha).
    unfold read_metadata_block, read_padding_block. ssim_tac.
  Qed.

  Context (Hany : forall length, allows length).

  Lemma read_metadata_block_with_header_ssim :
    ssim R eq (read_metadata_block_with_header rb1 m un1)
                 (read_metadata_block_with_header rb2 m un2).
  Proof.
    unfold read_metadata_block_with_header.
    eapply ssim_bind; [apply read_metadata_block_header_ssim|].
    intros a b [<- Hl]. apply read_metadata_block_ssim; [lia|apply Hany].
  Qed.

  (** ** The metadata block reader *)


  Lemma mr_lift_ssim {A B} (Q : A -> B -> Prop) c1 c2 :
    ssim R Q c1 c2 -> ssim (Rmr R) Q (mr_lift c1) (mr_lift c2).
  Proof.
    intros Hc s1 s2 (HR & Hs). unfold mr_lift. specialize (Hc _ _ HR).
    destruct (c1 (mr_input s1)) as [o1 t1], (c2 (mr_input s2)) as [o2 t2]; cbn in *.
    destruct Hc as [HR' Hc]. split; [repeat split; auto|].
    destruct o1; auto.
  Qed.

  Lemma mr_read_next_ssim :
    ssim (Rmr R) eq (mr_read_next rb1 m un1) (mr_read_next rb2 m un2).
  Proof.
    unfold mr_read_next.
    eapply ssim_bind; [apply mr_lift_ssim, read_metadata_block_header_ssim|].
    intros a b [<- Hl].
    ssim_step; [apply mr_lift_ssim, read_metadata_block_ssim; [lia|apply Hany]|].
    ssim_step; [|ssim_tac].
    intros s1 s2 (HR & Hs). cbn. split; [repeat split; auto|]. exists tt. auto.
  Qed.

  Lemma result_eq {A} (a b : result A) : result_rel eq a b -> a = b.
  Proof. destruct a, b; cbn; intros Hr; try contradiction; congruence. Qed.

  Lemma mr_next_ssim : ssim (Rmr R) eq (mr_next rb1 m un1) (mr_next rb2 m un2).
  Proof.
    unfold mr_next. eapply ssim_bind; [apply ssim_get|]. intros s1 s2 [HR HD]. rewrite <- HD.
    destruct (mr_done s1); [ssim_tac|].
    eapply ssim_bind; [apply ssim_catch, mr_read_next_ssim|]. intros a b Hr. apply result_eq in Hr as <-.
    ssim_step; [|ssim_tac]. destruct a; [ssim_tac|].
    intros x y (HR' & Hs). cbn. split; [repeat split; auto|]. exists tt. auto.
  Qed.

  (** ** Opening a stream *)

  Lemma read_stream_header_ssim :
    ssim R eq (read_stream_header rb1) (read_stream_header rb2).
  Proof. unfold read_stream_header. ssim_tac. Qed.

  Lemma metadata_loop_ssim : forall fuel o vc,
    ssim (Rmr R) eq (metadata_loop rb1 m un1 fuel o vc) (metadata_loop rb2 m un2 fuel o vc).
  Proof.
    induction fuel as [|fuel IH]; intros o vc; cbn [metadata_loop]; [ssim_tac|].
    pose proof mr_next_ssim. ssim_tac.
  Qed.

  Lemma read_metadata_ssim fuel opts :
    ssim (Rmr R) eq (read_metadata rb1 m un1 fuel opts) (read_metadata rb2 m un2 fuel opts).
  Proof.
    pose proof (metadata_loop_ssim fuel opts None).
    pose proof mr_next_ssim. unfold read_metadata. ssim_tac.
  Qed.

  (** Results of [new_ext] carry the reader. *)

  Lemma new_ext_ssim fuel opts :
    ssim R (Rfr R) (new_ext rb1 m un1 fuel opts) (new_ext rb2 m un2 fuel opts).
  Proof.
    unfold new_ext. ssim_step; [apply read_stream_header_ssim|].
    ssim_step.
    - intros s1 s2 HR. unfold with_mreader.
      assert (Rmr R (mr_new s1) (mr_new s2)) as HM by (split; auto).
      pose proof (read_metadata_ssim fuel opts _ _ HM) as Hs.
      destruct (read_metadata rb1 m un1 fuel opts (mr_new s1)) as [o1 t1],
               (read_metadata rb2 m un2 fuel opts (mr_new s2)) as [o2 t2]; cbn in *.
      destruct Hs as [(HR' & _) Hs]. split; [exact HR'|]. destruct o1; auto.
    - destruct a0 as [si vc].
      eapply ssim_bind; [apply ssim_get|]. intros x y HR.
      apply ssim_ret. repeat split. cbn.
      destruct (metadata_only opts); exact HR.
  Qed.
End StrongMeta.

(** ** Samples *)
Section StrongSamples.
  Context (al : Z -> Z -> Prop) {S1 S2 : Type} (R : S1 -> S2 -> Prop)
          (rb1 : ReadBytes S1) (rb2 : ReadBytes S2) (m : build) (fuel : nat).
  Context (H : rb_ssim al R rb1 rb2) (Hal4 : forall n, 0 <= n <= 8 * 65535 -> al n 4)
          (He : eof_ssim R rb1 rb2).

  Definition Rfss (a : flac_samples S1) (b : flac_samples S2) : Prop :=
    fs_block a = fs_block b /\ fs_sample a = fs_sample b
    /\ fs_channel a = fs_channel b /\ fs_has_failed a = fs_has_failed b
    /\ R (fs_frame_reader a) (fs_frame_reader b).

  Ltac fs_set := intros s1 s2 (? & ? & ? & ? & ?); cbn; split; [repeat split; auto|exists tt; auto].
  Lemma fs_set_channel_ssim c : ssim Rfss eq (fs_set_channel c) (fs_set_channel c).
  Proof. fs_set. Qed.
  Lemma fs_set_sample_ssim c : ssim Rfss eq (fs_set_sample c) (fs_set_sample c).
  Proof. fs_set. Qed.
  Lemma fs_set_block_ssim c : ssim Rfss eq (fs_set_block c) (fs_set_block c).
  Proof. fs_set. Qed.
  Lemma fs_set_has_failed_ssim c : ssim Rfss eq (fs_set_has_failed c) (fs_set_has_failed c).
  Proof. fs_set. Qed.
  Lemma fs_lift_ssim {A} (c1 : M S1 A) c2 : ssim R eq c1 c2 -> ssim Rfss eq (fs_lift c1) (fs_lift c2).
  Proof.
    intros Hc s1 s2 (? & ? & ? & ? & HR). unfold fs_lift. specialize (Hc _ _ HR).
    destruct (c1 (fs_frame_reader s1)) as [o1 t1], (c2 (fs_frame_reader s2)) as [o2 t2]; cbn in *.
    destruct Hc as [HR' Hc]. split; [repeat split; auto|]. destruct o1; auto.
  Qed.
  Lemma fs_yield_ssim : ssim Rfss eq (@fs_yield S1) (@fs_yield S2).
  Proof.
    unfold fs_yield. eapply ssim_bind; [apply ssim_get|]. intros s1 s2 (Hb & Hs & Hc & ? & ?).
    rewrite Hb, Hs, Hc. ssim_tac.
  Qed.
  Lemma fs_next_ssim : ssim Rfss eq (fs_next rb1 m fuel) (fs_next rb2 m fuel).
  Proof.
    pose proof fs_set_channel_ssim. pose proof fs_set_sample_ssim. pose proof fs_set_block_ssim.
    pose proof fs_set_has_failed_ssim. pose proof fs_yield_ssim.
    unfold fs_next. eapply ssim_bind; [apply ssim_get|]. intros s1 s2 (Hb & Hs & Hc & Hf & _).
    rewrite Hb, Hs, Hc, Hf. destruct (fs_has_failed s2); [ssim_tac|].
    ssim_step; [ssim_tac|]. ssim_step; [auto|]. destruct (_ <=? a); [|auto].
    ssim_step; [auto|]. ssim_step; [ssim_tac|]. ssim_step; [auto|]. destruct (_ <=? a2); [|auto].
    ssim_step; [auto|]. ssim_step; [auto|].
    eapply ssim_bind; [apply ssim_catch, fs_lift_ssim, (read_next_or_eof_ssim al); auto|].
    intros x y Hr. apply result_eq in Hr as <-. ssim_tac.
  Qed.
End StrongSamples.

(** ** Histories *)
Lemma history_all_ssim {S1 S2 O A} (R : S1 -> S2 -> Prop) (f1 : O -> M S1 A) (f2 : O -> M S2 A) ops :
  Forall (fun o => ssim R eq (f1 o) (f2 o)) ops -> forall s1 s2, R s1 s2 ->
  fst (history_all f1 ops s1) = fst (history_all f2 ops s2)
  /\ R (snd (history_all f1 ops s1)) (snd (history_all f2 ops s2)).
Proof.
  induction 1 as [|o ops Ho _ IH]; intros s1 s2 HR; [auto|]. cbn [history_all].
  destruct (Ho s1 s2 HR) as [HR' Hm]. destruct (f1 o s1) as [r1 t1], (f2 o s2) as [r2 t2]. cbn [fst snd] in *.
  destruct (IH t1 t2 HR') as [E1 E2]. destruct (history_all f1 ops t1), (history_all f2 ops t2). cbn [fst snd] in *.
  split; [|exact E2]. f_equal; [|exact E1]. destruct r1; try (symmetry; exact Hm). destruct Hm as (b & -> & ->). reflexivity.
Qed.

