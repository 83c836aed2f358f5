(** Every reader-generic function of the model, run on two readers whose
    operations simulate each other, gives simulating runs. *)
From Verif Require Export ProofBase ModelLib.

Definition byteq (a b : Z) : Prop := a = b /\ 0 <= a < 256.

Lemma sim_bind_lift {S1 S2 A B1 B2} esc (R : S1 -> S2 -> Prop)
    (Q : B1 -> B2 -> Prop) (o : outcome A) f1 f2 :
  (forall a, o = Ok a -> sim esc R Q (f1 a) (f2 a)) ->
  sim esc R Q (bind (lift o) f1) (bind (lift o) f2).
Proof.
  intros H s1 s2 HR. destruct o as [a|e|w|w|]; try (cbn; auto; fail).
  exact (H a eq_refl s1 s2 HR).
Qed.

Lemma sim_byte_bind {S1 S2 B1 B2} esc (R : S1 -> S2 -> Prop)
    (Q' : B1 -> B2 -> Prop) (c1 : M S1 Z) (c2 : M S2 Z) f1 f2 :
  sim esc R byteq c1 c2 ->
  (forall a, 0 <= a < 256 -> sim esc R Q' (f1 a) (f2 a)) ->
  sim esc R Q' (bind c1 f1) (bind c2 f2).
Proof. intros Hc Hf. eapply sim_bind; [exact Hc|]. intros a ? [<- H]. auto. Qed.

(** What is required of two readers; the flags of [full] add the operations only
    metadata reading needs. *)
Record rb_sim {S1 S2} (esc : error -> Prop) (R : S1 -> S2 -> Prop)
    (rb1 : ReadBytes S1) (rb2 : ReadBytes S2) : Prop := {
  rs_u8 : sim esc R byteq (read_u8 rb1) (read_u8 rb2);
  rs_alloc : forall n sz, sim esc R eq (rb_alloc rb1 n sz) (rb_alloc rb2 n sz)
}.

Definition eof_sim {S1 S2} (esc : error -> Prop) (R : S1 -> S2 -> Prop)
    (rb1 : ReadBytes S1) (rb2 : ReadBytes S2) : Prop :=
  sim esc R (fun a b => a = b /\ match a with Some x => 0 <= x < 256 | None => True end)
      (read_u8_or_eof rb1) (read_u8_or_eof rb2).

Record bulk_sim {S1 S2} (esc : error -> Prop) (R : S1 -> S2 -> Prop)
    (rb1 : ReadBytes S1) (rb2 : ReadBytes S2) : Prop := {
  bs_into : forall b1 b2, length b1 = length b2 -> len b1 < 2 ^ 32 ->
    sim esc R eq (read_into rb1 b1) (read_into rb2 b2);
  bs_skip : forall n, 0 <= n < 2 ^ 32 -> sim esc R eq (skip rb1 n) (skip rb2 n)
}.

Section Sim.
  Context {S1 S2 : Type} (esc : error -> Prop) (R : S1 -> S2 -> Prop)
          (rb1 : ReadBytes S1) (rb2 : ReadBytes S2) (m : build) (fuel : nat).
  Context (H : rb_sim esc R rb1 rb2).

  Lemma read_u8_sim_eq : sim esc R eq (read_u8 rb1) (read_u8 rb2).
  Proof.
    eapply sim_conseq; [intros e He; exact He| |apply H]. intros a b [? _]; auto.
  Qed.

  (** ** Provided methods *)

  Lemma be_u16_range b0 b1 : 0 <= b0 < 256 -> 0 <= b1 < 256 ->
    Z.lor (u16 (Z.shiftl b0 8)) b1 = b0 * 256 + b1.
  Proof.
    intros. rewrite Z.shiftl_mul_pow2 by lia. rewrite u16_id by lia.
    rewrite lor_add by lia. lia.
  Qed.

  Lemma be_u24_range b0 b1 b2 : 0 <= b0 < 256 -> 0 <= b1 < 256 -> 0 <= b2 < 256 ->
    Z.lor (Z.lor (u32 (Z.shiftl b0 16)) (u32 (Z.shiftl b1 8))) b2
    = (b0 * 256 + b1) * 256 + b2.
  Proof.
    intros. rewrite !Z.shiftl_mul_pow2 by lia. rewrite !u32_id by lia.
    rewrite (lor_add b0) by lia.
    replace (b0 * 2 ^ 16 + b1 * 2 ^ 8) with ((b0 * 256 + b1) * 2 ^ 8) by lia.
    rewrite lor_add by lia. lia.
  Qed.

  Lemma be_u32_range b0 b1 b2 b3 :
    0 <= b0 < 256 -> 0 <= b1 < 256 -> 0 <= b2 < 256 -> 0 <= b3 < 256 ->
    Z.lor (Z.lor (Z.lor (u32 (Z.shiftl b0 24)) (u32 (Z.shiftl b1 16)))
                 (u32 (Z.shiftl b2 8))) b3
    = ((b0 * 256 + b1) * 256 + b2) * 256 + b3.
  Proof.
    intros. rewrite !Z.shiftl_mul_pow2 by lia. rewrite !u32_id by lia.
    rewrite (lor_add b0) by lia.
    replace (b0 * 2 ^ 24 + b1 * 2 ^ 16) with ((b0 * 256 + b1) * 2 ^ 16) by lia.
    rewrite lor_add by lia.
    replace ((b0 * 256 + b1) * 2 ^ 16 + b2 * 2 ^ 8)
      with (((b0 * 256 + b1) * 256 + b2) * 2 ^ 8) by lia.
    rewrite lor_add by lia. lia.
  Qed.

  Lemma read_be_u16_sim :
    sim esc R (fun a b => a = b /\ 0 <= a < 65536) (read_be_u16 rb1) (read_be_u16 rb2).
  Proof.
    unfold read_be_u16. eapply sim_byte_bind; [apply H|intros b0 ?].
    eapply sim_byte_bind; [apply H|intros b1 ?].
    apply sim_ret. rewrite be_u16_range by lia. lia.
  Qed.

  Lemma read_be_u24_sim :
    sim esc R (fun a b => a = b /\ 0 <= a < 2 ^ 24) (read_be_u24 rb1) (read_be_u24 rb2).
  Proof.
    unfold read_be_u24. eapply sim_byte_bind; [apply H|intros b0 ?].
    eapply sim_byte_bind; [apply H|intros b1 ?].
    eapply sim_byte_bind; [apply H|intros b2 ?].
    apply sim_ret. rewrite be_u24_range by lia. lia.
  Qed.

  Lemma read_be_u32_sim :
    sim esc R (fun a b => a = b /\ 0 <= a < 2 ^ 32) (read_be_u32 rb1) (read_be_u32 rb2).
  Proof.
    unfold read_be_u32. eapply sim_byte_bind; [apply H|intros b0 ?].
    eapply sim_byte_bind; [apply H|intros b1 ?].
    eapply sim_byte_bind; [apply H|intros b2 ?].
    eapply sim_byte_bind; [apply H|intros b3 ?].
    apply sim_ret. rewrite be_u32_range by lia. lia.
  Qed.

  Lemma read_le_u32_sim :
    sim esc R (fun a b => a = b /\ 0 <= a < 2 ^ 32) (read_le_u32 rb1) (read_le_u32 rb2).
  Proof.
    unfold read_le_u32. eapply sim_byte_bind; [apply H|intros b0 ?].
    eapply sim_byte_bind; [apply H|intros b1 ?].
    eapply sim_byte_bind; [apply H|intros b2 ?].
    eapply sim_byte_bind; [apply H|intros b3 ?].
    apply sim_ret. rewrite be_u32_range by lia. lia.
  Qed.

  Lemma sim_eq_of {A} (P : A -> Prop) c1 c2 :
    sim esc R (fun a b => a = b /\ P a) c1 c2 -> sim esc R eq c1 c2.
  Proof. intros Hs. eapply sim_conseq; [eauto| |exact Hs]. intros ? ? [? ?]; auto. Qed.

  Lemma read_be_u16_or_eof_sim : eof_sim esc R rb1 rb2 ->
    sim esc R eq (read_be_u16_or_eof rb1) (read_be_u16_or_eof rb2).
  Proof.
    intros He. pose proof (sim_eq_of _ _ _ He) as He'.
    unfold read_be_u16_or_eof. sim_tac.
  Qed.

  (** ** Bitstream *)

  Definition Rbits (b1 : bitstream S1) (b2 : bitstream S2) : Prop :=
    R (bs_reader b1) (bs_reader b2) /\ bs_data b1 = bs_data b2
    /\ bs_bits_left b1 = bs_bits_left b2.

  Lemma bs_read_u8_sim : sim esc Rbits eq (bs_read_u8 rb1) (bs_read_u8 rb2).
  Proof.
    intros s1 s2 (HR & Hd & Hb). unfold bs_read_u8.
    pose proof (read_u8_sim_eq _ _ HR) as Hs.
    destruct (read_u8 rb1 (bs_reader s1)) as [o1 r1],
             (read_u8 rb2 (bs_reader s2)) as [o2 r2]; cbn in *.
    destruct o1; auto; [|sim_err Hs].
    destruct Hs as (b & ? & ? & ?). exists b. repeat split; auto.
  Qed.

  Lemma bs_set_sim d b : sim esc Rbits eq (bs_set d b) (bs_set d b).
  Proof. intros s1 s2 (HR & Hd & Hb). cbn. exists tt. repeat split; auto. Qed.

  Lemma bs_get_bind {B1 B2} (Q : B1 -> B2 -> Prop) f1 f2 :
    (forall s1 s2, R (bs_reader s1) (bs_reader s2) -> bs_data s1 = bs_data s2 ->
       bs_bits_left s1 = bs_bits_left s2 -> sim esc Rbits Q (f1 s1) (f2 s2)) ->
    sim esc Rbits Q (bind get f1) (bind get f2).
  Proof.
    intros Hf. eapply sim_bind; [apply sim_get|].
    intros a b (? & ? & ?). auto.
  Qed.

  Ltac bs_get :=
    apply bs_get_bind;
    let s1 := fresh "s1" in let s2 := fresh "s2" in
    intros s1 s2 _ Hd Hb; rewrite ?Hd, ?Hb; clear Hd Hb.

  Hint Resolve bs_read_u8_sim bs_set_sim : core.

  Lemma read_bit_sim : sim esc Rbits eq (read_bit rb1 m) (read_bit rb2 m).
  Proof. unfold read_bit. bs_get. sim_tac. Qed.

  Lemma read_unary_loop_sim : forall f n,
    sim esc Rbits eq (read_unary_loop rb1 m f n) (read_unary_loop rb2 m f n).
  Proof.
    induction f as [|f IH]; intros n; cbn [read_unary_loop]; sim_tac.
  Qed.
  Hint Resolve read_unary_loop_sim : core.

  Lemma read_unary_sim : sim esc Rbits eq (read_unary rb1 m fuel) (read_unary rb2 m fuel).
  Proof. unfold read_unary. bs_get. sim_tac. Qed.

  Lemma read_leq_u8_sim bits : sim esc Rbits eq (read_leq_u8 rb1 m bits) (read_leq_u8 rb2 m bits).
  Proof.
    unfold read_leq_u8. sim_step; [sim_tac|]. bs_get.
    sim_step; [sim_tac|]. bs_get. sim_tac.
  Qed.

  Lemma read_gt_u8_leq_u16_sim bits :
    sim esc Rbits eq (read_gt_u8_leq_u16 rb1 m bits) (read_gt_u8_leq_u16 rb2 m bits).
  Proof. unfold read_gt_u8_leq_u16. sim_step; [sim_tac|]. bs_get. sim_tac. Qed.
  Hint Resolve read_bit_sim read_unary_sim read_leq_u8_sim read_gt_u8_leq_u16_sim : core.

  Lemma read_leq_u16_sim bits : sim esc Rbits eq (read_leq_u16 rb1 m bits) (read_leq_u16 rb2 m bits).
  Proof. unfold read_leq_u16. sim_tac. Qed.
  Hint Resolve read_leq_u16_sim : core.
  Lemma read_leq_u32_sim bits : sim esc Rbits eq (read_leq_u32 rb1 m bits) (read_leq_u32 rb2 m bits).
  Proof. unfold read_leq_u32. sim_tac. Qed.
  Hint Resolve read_leq_u32_sim : core.

  (** ** Subframes *)

  Lemma fill_sim {T1 T2} (R' : T1 -> T2 -> Prop) c1 c2 b : sim esc R' eq c1 c2 ->
    sim esc R' eq (fill c1 b) (fill c2 b).
  Proof. intros Hc. induction b; cbn [fill]; sim_tac. Qed.

  Lemma read_subframe_header_sim :
    sim esc Rbits eq (read_subframe_header rb1 m fuel) (read_subframe_header rb2 m fuel).
  Proof. unfold read_subframe_header. sim_tac. Qed.

  Lemma read_rice_sample_sim k :
    sim esc Rbits eq (read_rice_sample rb1 m fuel k) (read_rice_sample rb2 m fuel k).
  Proof. unfold read_rice_sample. sim_tac. Qed.
  Lemma read_rice2_sample_sim k :
    sim esc Rbits eq (read_rice2_sample rb1 m fuel k) (read_rice2_sample rb2 m fuel k).
  Proof. unfold read_rice2_sample. sim_tac. Qed.
  Hint Resolve fill_sim read_subframe_header_sim read_rice_sample_sim
       read_rice2_sample_sim : core.

  Lemma decode_rice_partition_sim b :
    sim esc Rbits eq (decode_rice_partition rb1 m fuel b) (decode_rice_partition rb2 m fuel b).
  Proof. unfold decode_rice_partition. sim_tac. Qed.
  Lemma decode_rice2_partition_sim b :
    sim esc Rbits eq (decode_rice2_partition rb1 m fuel b) (decode_rice2_partition rb2 m fuel b).
  Proof. unfold decode_rice2_partition. sim_tac. Qed.
  Hint Resolve decode_rice_partition_sim decode_rice2_partition_sim : core.

  Lemma partitions_loop_sim {T1 T2} (R' : bitstream T1 -> bitstream T2 -> Prop) p1 p2 :
    (forall b, sim esc R' eq (p1 b) (p2 b)) ->
    forall n start l nspp b,
    sim esc R' eq (partitions_loop p1 n start l nspp b) (partitions_loop p2 n start l nspp b).
  Proof.
    intros Hp. induction n as [|n IH]; intros; cbn [partitions_loop]; sim_tac.
  Qed.

  Lemma decode_residual_sim bs b :
    sim esc Rbits eq (decode_residual rb1 m fuel bs b) (decode_residual rb2 m fuel bs b).
  Proof.
    unfold decode_residual. sim_step; [auto|].
    eapply sim_bind with
      (Q := fun p1 p2 => forall b, sim esc Rbits eq (p1 b) (p2 b)).
    - repeat match goal with |- context [if ?x then _ else _] => destruct x end;
        [apply sim_ret|apply sim_ret|apply sim_fail]; auto.
    - intros p1 p2 Hp.
      pose proof (partitions_loop_sim Rbits p1 p2 Hp).
      sim_tac.
  Qed.

  Lemma decode_constant_sim bps b :
    sim esc Rbits eq (decode_constant rb1 m bps b) (decode_constant rb2 m bps b).
  Proof. unfold decode_constant. sim_tac. Qed.
  Lemma read_verbatim_sample_sim bps :
    sim esc Rbits eq (read_verbatim_sample rb1 m bps) (read_verbatim_sample rb2 m bps).
  Proof. unfold read_verbatim_sample. sim_tac. Qed.
  Hint Resolve decode_residual_sim decode_constant_sim read_verbatim_sample_sim : core.
  Lemma decode_verbatim_sim bps b :
    sim esc Rbits eq (decode_verbatim rb1 m bps b) (decode_verbatim rb2 m bps b).
  Proof. unfold decode_verbatim. sim_tac. Qed.
  Hint Resolve decode_verbatim_sim : core.
  Lemma decode_fixed_sim bps ord b :
    sim esc Rbits eq (decode_fixed rb1 m fuel bps ord b) (decode_fixed rb2 m fuel bps ord b).
  Proof. unfold decode_fixed. sim_tac. Qed.
  Lemma read_coefficients_sim q n :
    sim esc Rbits eq (read_coefficients rb1 m q n) (read_coefficients rb2 m q n).
  Proof. induction n; cbn [read_coefficients]; sim_tac. Qed.
  Hint Resolve decode_fixed_sim read_coefficients_sim : core.
  Lemma decode_lpc_sim bps ord b :
    sim esc Rbits eq (decode_lpc rb1 m fuel bps ord b) (decode_lpc rb2 m fuel bps ord b).
  Proof. unfold decode_lpc. sim_tac. Qed.
  Hint Resolve decode_lpc_sim : core.
  Lemma decode_sim bps b :
    sim esc Rbits eq (decode rb1 m fuel bps b) (decode rb2 m fuel bps b).
  Proof. unfold decode. sim_tac. Qed.
  Hint Resolve decode_sim : core.

  Lemma with_bitstream_sim {A} (c1 : M (bitstream S1) A) c2 :
    sim esc Rbits eq c1 c2 -> sim esc R eq (with_bitstream c1) (with_bitstream c2).
  Proof.
    intros Hc s1 s2 HR. unfold with_bitstream.
    assert (Rbits (bs_new s1) (bs_new s2)) as HB by (repeat split; auto).
    specialize (Hc _ _ HB).
    destruct (c1 (bs_new s1)) as [o1 t1], (c2 (bs_new s2)) as [o2 t2]; cbn in *.
    destruct o1; auto; [|sim_err Hc].
    destruct Hc as (b & ? & ? & (? & _)). eauto.
  Qed.

  (** ** Variable-length integers *)

  Hint Resolve read_u8_sim_eq : core.

  Lemma vli_rest_loop_sim n x :
    sim esc R eq (vli_rest_loop rb1 m n x) (vli_rest_loop rb2 m n x).
  Proof. revert x; induction n; intros x; cbn [vli_rest_loop]; sim_tac. Qed.
  Hint Resolve vli_rest_loop_sim : core.
  Lemma read_var_length_int_sim :
    sim esc R eq (read_var_length_int rb1 m) (read_var_length_int rb2 m).
  Proof. unfold read_var_length_int. sim_tac. Qed.

  (** ** Channels of a frame *)

  Lemma decode_into_sim bps b x y :
    sim esc Rbits eq (decode_into rb1 m fuel bps b x y) (decode_into rb2 m fuel bps b x y).
  Proof. unfold decode_into. sim_tac. Qed.
  Hint Resolve decode_into_sim : core.
  Lemma independent_loop_sim bps bs n : forall ch b,
    sim esc Rbits eq (independent_loop rb1 m fuel bps bs n ch b)
                     (independent_loop rb2 m fuel bps bs n ch b).
  Proof. induction n; intros; cbn [independent_loop]; sim_tac. Qed.
  Hint Resolve independent_loop_sim : core.
  Lemma decode_channels_sim ca bps bs b :
    sim esc Rbits eq (decode_channels rb1 m fuel ca bps bs b)
                     (decode_channels rb2 m fuel ca bps bs b).
  Proof. unfold decode_channels. sim_tac. Qed.

  (** ** CRC readers *)

  Definition Rcrc8 (b1 : crc8reader S1) (b2 : crc8reader S2) : Prop :=
    R (c8_inner b1) (c8_inner b2) /\ c8_state b1 = c8_state b2.
  Definition Rcrc16 (b1 : crc16reader S1) (b2 : crc16reader S2) : Prop :=
    R (c16_inner b1) (c16_inner b2) /\ c16_state b1 = c16_state b2.

  Lemma c8_lift_sim {A B} (Q : A -> B -> Prop) c1 c2 :
    sim esc R Q c1 c2 -> sim esc Rcrc8 Q (c8_lift c1) (c8_lift c2).
  Proof.
    intros Hc s1 s2 (HR & Hs). unfold c8_lift. specialize (Hc _ _ HR).
    destruct (c1 (c8_inner s1)) as [o1 t1], (c2 (c8_inner s2)) as [o2 t2]; cbn in *.
    destruct o1; auto; [|sim_err Hc].
    destruct Hc as (b & ? & ? & ?). exists b. repeat split; auto.
  Qed.
  Lemma c16_lift_sim {A B} (Q : A -> B -> Prop) c1 c2 :
    sim esc R Q c1 c2 -> sim esc Rcrc16 Q (c16_lift c1) (c16_lift c2).
  Proof.
    intros Hc s1 s2 (HR & Hs). unfold c16_lift. specialize (Hc _ _ HR).
    destruct (c1 (c16_inner s1)) as [o1 t1], (c2 (c16_inner s2)) as [o2 t2]; cbn in *.
    destruct o1; auto; [|sim_err Hc].
    destruct Hc as (b & ? & ? & ?). exists b. repeat split; auto.
  Qed.

  Lemma c8_update_state_sim b : sim esc Rcrc8 eq (c8_update_state b) (c8_update_state b).
  Proof.
    unfold c8_update_state. eapply sim_bind; [apply sim_get|].
    intros s1 s2 (HR & Hs). rewrite Hs. sim_step; [sim_tac|].
    apply sim_put. split; auto.
  Qed.
  Lemma c16_update_state_sim b : sim esc Rcrc16 eq (c16_update_state b) (c16_update_state b).
  Proof.
    unfold c16_update_state. eapply sim_bind; [apply sim_get|].
    intros s1 s2 (HR & Hs). rewrite Hs. sim_step; [sim_tac|].
    apply sim_put. split; auto.
  Qed.
  Hint Resolve c8_update_state_sim c16_update_state_sim : core.

  Lemma crc8_rb_sim : rb_sim esc Rcrc8 (crc8_rb rb1) (crc8_rb rb2).
  Proof.
    split.
    - cbn [crc8_rb read_u8]. eapply sim_byte_bind; [apply c8_lift_sim, H|].
      intros a Ha. sim_step; [auto|]. apply sim_ret; split; auto.
    - intros; cbn [crc8_rb rb_alloc]. apply c8_lift_sim, H.
  Qed.
  Lemma crc16_rb_sim : rb_sim esc Rcrc16 (crc16_rb rb1) (crc16_rb rb2).
  Proof.
    split.
    - cbn [crc16_rb read_u8]. eapply sim_byte_bind; [apply c16_lift_sim, H|].
      intros a Ha. sim_step; [auto|]. apply sim_ret; split; auto.
    - intros; cbn [crc16_rb rb_alloc]. apply c16_lift_sim, H.
  Qed.

  Lemma crc8_eof_sim : eof_sim esc R rb1 rb2 -> eof_sim esc Rcrc8 (crc8_rb rb1) (crc8_rb rb2).
  Proof.
    intros He. unfold eof_sim. cbn [crc8_rb read_u8_or_eof].
    eapply sim_bind; [apply c8_lift_sim, He|].
    intros a b [<- Ha]. destruct a as [a|].
    - sim_step; [auto|]. apply sim_ret; split; auto.
    - apply sim_ret; split; auto.
  Qed.
  Lemma crc16_eof_sim : eof_sim esc R rb1 rb2 -> eof_sim esc Rcrc16 (crc16_rb rb1) (crc16_rb rb2).
  Proof.
    intros He. unfold eof_sim. cbn [crc16_rb read_u8_or_eof].
    eapply sim_bind; [apply c16_lift_sim, He|].
    intros a b [<- Ha]. destruct a as [a|].
    - sim_step; [auto|]. apply sim_ret; split; auto.
    - apply sim_ret; split; auto.
  Qed.

  Lemma crc8_crc_sim : sim esc Rcrc8 eq (@crc8_crc S1) (@crc8_crc S2).
  Proof.
    unfold crc8_crc. eapply sim_bind; [apply sim_get|].
    intros s1 s2 (_ & Hs). apply sim_ret; auto.
  Qed.
  Lemma crc16_crc_sim : sim esc Rcrc16 eq (@crc16_crc S1) (@crc16_crc S2).
  Proof.
    unfold crc16_crc. eapply sim_bind; [apply sim_get|].
    intros s1 s2 (_ & Hs). apply sim_ret; auto.
  Qed.

  Lemma with_crc8_sim {A B} (Q : A -> B -> Prop) c1 c2 :
    sim esc Rcrc8 Q c1 c2 -> sim esc R Q (with_crc8 c1) (with_crc8 c2).
  Proof.
    intros Hc s1 s2 HR. unfold with_crc8.
    assert (Rcrc8 (crc8_new s1) (crc8_new s2)) as HB by (split; auto).
    specialize (Hc _ _ HB).
    destruct (c1 (crc8_new s1)) as [o1 t1], (c2 (crc8_new s2)) as [o2 t2]; cbn in *.
    destruct o1; auto; [|sim_err Hc].
    destruct Hc as (b & ? & ? & (? & _)). eauto.
  Qed.
  Lemma with_crc16_sim {A B} (Q : A -> B -> Prop) c1 c2 :
    sim esc Rcrc16 Q c1 c2 -> sim esc R Q (with_crc16 c1) (with_crc16 c2).
  Proof.
    intros Hc s1 s2 HR. unfold with_crc16.
    assert (Rcrc16 (crc16_new s1) (crc16_new s2)) as HB by (split; auto).
    specialize (Hc _ _ HB).
    destruct (c1 (crc16_new s1)) as [o1 t1], (c2 (crc16_new s2)) as [o2 t2]; cbn in *.
    destruct o1; auto; [|sim_err Hc].
    destruct Hc as (b & ? & ? & (? & _)). eauto.
  Qed.
End Sim.

(** ** Frame headers and frames *)

(** [read_frame_header_body] after the sync word. *)
Definition header_after_sync {S} (rb : ReadBytes S) (m : build) (osync : option Z)
    : M (crc8reader S) (option frame_header) :=
  match osync with
  | None => ret None
  | Some sync_res_block =>
    ltac:(let t := eval cbv beta iota zeta delta [read_frame_header_body] in
            (read_frame_header_body rb m) in
          match t with
          | bind _ (fun o => match o with None => _ | Some s => @?b s end) =>
              let u := eval cbv beta in (b sync_res_block) in exact u
          end)
  end.

Lemma read_frame_header_body_eq {S} (rb : ReadBytes S) m :
  read_frame_header_body rb m
  = bind (read_be_u16_or_eof (crc8_rb rb)) (header_after_sync rb m).
Proof. reflexivity. Qed.

Section SimFrame.
  Context {S1 S2 : Type} (esc : error -> Prop) (R : S1 -> S2 -> Prop)
          (rb1 : ReadBytes S1) (rb2 : ReadBytes S2) (m : build) (fuel : nat).
  Context (H : rb_sim esc R rb1 rb2).

  Lemma header_after_sync_sim o :
    sim esc (Rcrc8 R) eq (header_after_sync rb1 m o) (header_after_sync rb2 m o).
  Proof.
    pose proof (crc8_rb_sim _ _ _ _ H) as H8.
    pose proof (read_u8_sim_eq _ _ _ _ H8).
    pose proof (read_var_length_int_sim _ _ _ _ m H8).
    pose proof (sim_eq_of _ _ _ _ _ (read_be_u16_sim _ _ _ _ H8)).
    pose proof (crc8_crc_sim esc R).
    unfold header_after_sync. sim_tac.
  Qed.

  Lemma read_frame_header_or_eof_sim (He : eof_sim esc R rb1 rb2) :
    sim esc R eq (read_frame_header_or_eof rb1 m) (read_frame_header_or_eof rb2 m).
  Proof.
    unfold read_frame_header_or_eof. apply with_crc8_sim.
    rewrite !read_frame_header_body_eq.
    eapply sim_bind_eq; [|apply header_after_sync_sim].
    apply read_be_u16_or_eof_sim.
    apply crc8_eof_sim; auto.
  Qed.
End SimFrame.

(** [read_next_body] after the header. *)
Definition frame_after_header {S} (rb : ReadBytes S) (m : build) (fuel : nat)
    (buffer : vec) (oheader : option frame_header)
    : M (crc16reader S) (option block) :=
  match oheader with
  | None => ret None
  | Some header =>
    ltac:(let t := eval cbv beta iota zeta delta [read_next_body] in
            (read_next_body rb m fuel buffer) in
          match t with
          | bind _ (fun o => match o with None => _ | Some s => @?b s end) =>
              let u := eval cbv beta in (b header) in exact u
          end)
  end.

Lemma read_next_body_eq {S} (rb : ReadBytes S) m fuel buffer :
  read_next_body rb m fuel buffer
  = bind (read_frame_header_or_eof (crc16_rb rb) m) (frame_after_header rb m fuel buffer).
Proof. reflexivity. Qed.

Section SimNext.
  Context {S1 S2 : Type} (esc : error -> Prop) (R : S1 -> S2 -> Prop)
          (rb1 : ReadBytes S1) (rb2 : ReadBytes S2) (m : build) (fuel : nat).
  Context (H : rb_sim esc R rb1 rb2).

  Lemma frame_after_header_sim buffer o :
    sim esc (Rcrc16 R) eq (frame_after_header rb1 m fuel buffer o)
                          (frame_after_header rb2 m fuel buffer o).
  Proof.
    pose proof (crc16_rb_sim _ _ _ _ H) as H16.
    pose proof (crc16_crc_sim esc R).
    pose proof (sim_eq_of _ _ _ _ _ (read_be_u16_sim _ _ _ _ H16)).
    pose proof (rs_alloc _ _ _ _ H16).
    unfold frame_after_header. destruct o as [h|]; [|sim_tac].
    sim_step; [sim_tac|].
    destruct (ensure_buffer_len buffer a) as [buf al].
    sim_step; [sim_tac|]. sim_step; [sim_tac|]. sim_step; [sim_tac|].
    sim_step; [apply with_bitstream_sim, decode_channels_sim, H16|].
    sim_tac.
  Qed.

  Lemma read_next_or_eof_sim (He : eof_sim esc R rb1 rb2) buffer :
    sim esc R eq (read_next_or_eof rb1 m fuel buffer) (read_next_or_eof rb2 m fuel buffer).
  Proof.
    unfold read_next_or_eof. apply with_crc16_sim.
    rewrite !read_next_body_eq.
    eapply sim_bind_eq; [|apply frame_after_header_sim].
    apply read_frame_header_or_eof_sim; [apply crc16_rb_sim, H|].
    apply crc16_eof_sim; auto.
  Qed.
End SimNext.
