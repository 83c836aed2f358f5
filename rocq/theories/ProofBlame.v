(** Where I/O errors come from. *)
From Verif Require Export ProofSource ModelLib SpecWhole.
From Verif Require Import SpecReader.

Definition pure {A} (o : outcome A) : Prop := forall k, o <> Err (IoError k).

(** Programs that keep [I] unless they report an I/O error, which satisfies [E]. *)
Definition own {S} (I : S -> Prop) (E : io_kind -> S -> Prop) {A} (c : M S A) : Prop :=
  forall st, I st -> (pure (fst (c st)) -> I (snd (c st))) /\ forall k, fst (c st) = Err (IoError k) -> E k (snd (c st)).

(** The same for programs that return [None] at the end, where [F] holds. *)
Definition owne {S} (I : S -> Prop) (E : io_kind -> S -> Prop) (F : S -> Prop) {A} (c : M S (option A)) : Prop :=
  forall st, I st -> (pure (fst (c st)) -> fst (c st) <> Ok None -> I (snd (c st)))
    /\ (fst (c st) = Ok None -> F (snd (c st)))
    /\ forall k, fst (c st) = Err (IoError k) -> E k (snd (c st)).

Section Pure.
  Lemma pure_ok {A} (a : A) : pure (Ok a). Proof. intros k E; discriminate. Qed.
  Lemma pure_panic {A} w : pure (@Panic A w). Proof. intros k E; discriminate. Qed.
  Lemma pure_ub {A} w : pure (@UB A w). Proof. intros k E; discriminate. Qed.
  Lemma pure_fuel {A} : pure (@OutOfFuel A). Proof. intros k E; discriminate. Qed.
  Lemma pure_format {A} w : pure (@Err A (FormatError w)). Proof. intros k E; discriminate. Qed.
  Lemma pure_unsupported {A} w : pure (@Err A (Unsupported w)). Proof. intros k E; discriminate. Qed.
  Lemma pure_bind {A B} (o : outcome A) (f : A -> outcome B) : pure o -> (forall a, pure (f a)) -> pure (obind o f).
  Proof. intros Ho Hf k E. destruct o; cbn in E; try discriminate; [apply (Hf a k E)|]. apply (Ho k). congruence. Qed.
  Lemma pure_chk m f x : pure (chk m f x).
  Proof. intros k E. unfold chk in E. destruct (_ =? _); [|destruct m]; discriminate. Qed.
  Lemma pure_chk_shift m w s : pure (chk_shift m w s).
  Proof. intros k E. unfold chk_shift in E. destruct (_ && _); [|destruct m]; discriminate. Qed.
  Lemma pure_shl m f w x s : pure (shl m f w x s).
  Proof. unfold shl. apply pure_bind; [apply pure_chk_shift|intros; apply pure_ok]. Qed.
  Lemma pure_shr m w x s : pure (shr m w x s).
  Proof. unfold shr. apply pure_bind; [apply pure_chk_shift|intros; apply pure_ok]. Qed.
  Lemma pure_assert m b : pure (debug_assert m b).
  Proof. intros k E. unfold debug_assert in E. destruct m, b; discriminate. Qed.
  Lemma pure_slice {A} (l : list A) a b : pure (slice l a b).
  Proof. intros k E. unfold slice in E. destruct (_ && _); discriminate. Qed.
  Lemma pure_index {A} (l : list A) i : pure (index l i).
  Proof. intros k E. unfold index in E. destruct (_ <=? _); [destruct (nth_error _ _)|]; discriminate. Qed.
  Lemma pure_index_unchecked {A} (l : list A) i : pure (index_unchecked l i).
  Proof. intros k E. unfold index_unchecked in E. destruct (_ <=? _); [destruct (nth_error _ _)|]; discriminate. Qed.
End Pure.

Ltac pure1 := first
  [ apply pure_ok | apply pure_panic | apply pure_ub | apply pure_fuel | apply pure_format | apply pure_unsupported
  | apply pure_chk | apply pure_shl | apply pure_shr | apply pure_assert | apply pure_slice | apply pure_index
  | apply pure_index_unchecked | apply pure_chk_shift | assumption
  | apply pure_bind; [|intros ?]
  | match goal with
    | |- pure (if ?c then _ else _) => destruct c
    | |- pure (match ?x with _ => _ end) => destruct x
    end ].
Ltac pures := repeat pure1.

Section Own.
  Context {S : Type} (I : S -> Prop) (E : io_kind -> S -> Prop).
  Local Notation own := (own I E).

  Lemma own_ret {A} (a : A) : own (ret a).
  Proof. intros st HI. split; [intros _; exact HI|intros k Ek; discriminate]. Qed.
  Lemma own_lift {A} (o : outcome A) : pure o -> own (lift o).
  Proof. intros Ho st HI. split; [intros _; exact HI|]. intros k Ek. destruct (Ho k Ek). Qed.
  Lemma own_fmt {A} w : own (@fmt_err S A w).
  Proof. apply own_lift, pure_format. Qed.
  Lemma own_unsupported {A} w : own (@fail S A (Unsupported w)).
  Proof. apply own_lift, pure_unsupported. Qed.
  Lemma own_bind {A B} (c : M S A) (f : A -> M S B) : own c -> (forall a, own (f a)) -> own (bind c f).
  Proof.
    intros Hc Hf st HI. destruct (Hc st HI) as [HI' He]. unfold bind. destruct (c st) as [o st']. cbn [fst snd] in *.
    destruct o as [a|e| | |]; cbn [fst snd]; [apply Hf, HI', pure_ok| |..]; (split; [intros Hp; apply HI'; intros k Ek; try discriminate; apply (Hp k); congruence|intros k Ek; try discriminate]).
    apply He. congruence.
  Qed.
  Lemma own_value {A B} (P : A -> Prop) (c : M S A) (f : A -> M S B) : own c ->
    (forall st a st', c st = (Ok a, st') -> P a) -> (forall a, P a -> own (f a)) -> own (bind c f).
  Proof.
    intros Hc Hp Hf st HI. destruct (Hc st HI) as [HI' He]. specialize (Hp st). unfold bind. destruct (c st) as [o st']. cbn [fst snd] in *.
    destruct o as [a|e| | |]; cbn [fst snd]; [apply Hf; [eapply Hp; reflexivity|apply HI', pure_ok]| |..];
      (split; [intros Hq; apply HI'; intros k Ek; try discriminate; apply (Hq k); congruence|intros k Ek; try discriminate]).
    apply He. congruence.
  Qed.
  Lemma own_get {A} (f : S -> M S A) : (forall s, own (f s)) -> own (bind get f).
  Proof. intros Hf st HI. rewrite bind_get. apply Hf, HI. Qed.
  Lemma own_lift_ok {A B} (a : A) (f : A -> M S B) : own (f a) -> own (bind (lift (Ok a)) f).
  Proof. intros Hf st HI. rewrite bind_lift_ok. apply Hf, HI. Qed.
End Own.

Section OwnEnd.
  Context {S : Type} (I : S -> Prop) (E : io_kind -> S -> Prop) (F : S -> Prop).
  (** Programs that do not return [None] at all. *)
  Definition never_none {A} (c : M S (option A)) : Prop := forall st, fst (c st) <> Ok None.
  Lemma owne_own {A} (c : M S (option A)) : own I E c -> never_none c -> owne I E F c.
  Proof.
    intros Hc Hn st HI. destruct (Hc st HI) as [H1 H2]. split; [intros Hp _; auto|]. split; [|exact H2].
    intros Ec. destruct (Hn st Ec).
  Qed.
  Lemma owne_bind {A B} (c : M S (option A)) (f : option A -> M S (option B)) : owne I E F c ->
    (forall a, owne I E F (f (Some a))) -> f None = ret None -> owne I E F (bind c f).
  Proof.
    intros Hc Hf Hn st HI. destruct (Hc st HI) as (H1 & H2 & H3). unfold bind. destruct (c st) as [o st']. cbn [fst snd] in *.
    destruct o as [[a|]|e| | |]; cbn [fst snd].
    - apply Hf, H1; [apply pure_ok|discriminate].
    - rewrite Hn. cbn. split; [congruence|]. split; [auto|discriminate].
    - split; [intros Hp _; apply H1; [intros k Ek; apply (Hp k); congruence|discriminate]|]. split; [discriminate|].
      intros k Ek. apply H3. congruence.
    - split; [intros _ _; apply H1; [apply pure_panic|discriminate]|]. split; discriminate.
    - split; [intros _ _; apply H1; [apply pure_ub|discriminate]|]. split; discriminate.
    - split; [intros _ _; apply H1; [apply pure_fuel|discriminate]|]. split; discriminate.
  Qed.
  Lemma never_bind {A B} (c : M S A) (f : A -> M S (option B)) : (forall a, never_none (f a)) -> never_none (bind c f).
  Proof. intros Hf st. unfold bind. destruct (c st) as [[a| | | |] st']; cbn; try discriminate. apply Hf. Qed.
  Lemma never_some {A} (a : A) : never_none (ret (Some a)). Proof. intros st. cbn. discriminate. Qed.
  Lemma never_fmt {A} w : never_none (@fmt_err S (option A) w). Proof. intros st. cbn. discriminate. Qed.
End OwnEnd.
Ltac never := repeat first [ apply never_some | apply never_fmt | apply never_bind; intros ?
  | match goal with |- never_none (if ?c then _ else _) => destruct c | |- never_none (match ?x with _ => _ end) => destruct x end ].

(** Running on a component of the state. *)
Lemma own_zoom {S T A} (I : S -> Prop) (E : io_kind -> S -> Prop) (view : T -> S) (c : M S A) (d : M T A) :
  (forall st, fst (d st) = fst (c (view st)) /\ view (snd (d st)) = snd (c (view st))) ->
  own I E c -> own (fun st => I (view st)) (fun k st => E k (view st)) d.
Proof.
  intros H Hc st HI. destruct (H st) as [H1 H2]. destruct (Hc _ HI) as [HI' He]. rewrite H1, H2. auto.
Qed.
Lemma own_keep {S T A} (I : S -> Prop) (E : io_kind -> S -> Prop) (view : T -> S) (d : M T A) :
  (forall st, pure (fst (d st)) /\ view (snd (d st)) = view st) ->
  own (fun st => I (view st)) (fun k st => E k (view st)) d.
Proof.
  intros H st HI. destruct (H st) as [H1 H2]. rewrite H2. split; [intros _; exact HI|]. intros k Ek. destruct (H1 k Ek).
Qed.

Lemma owne_zoom {S T A} (I : S -> Prop) (E : io_kind -> S -> Prop) (F : S -> Prop) (view : T -> S) (c : M S (option A)) (d : M T (option A)) :
  (forall st, fst (d st) = fst (c (view st)) /\ view (snd (d st)) = snd (c (view st))) ->
  owne I E F c -> owne (fun st => I (view st)) (fun k st => E k (view st)) (fun st => F (view st)) d.
Proof.
  intros H Hc st HI. destruct (H st) as [H1 H2]. destruct (Hc _ HI) as (Ha & Hb & He). rewrite H1, H2. auto.
Qed.

Record owns {S} (I : S -> Prop) (E : io_kind -> S -> Prop) (F : S -> Prop) (rb : ReadBytes S) : Prop := {
  ow_u8 : own I E (read_u8 rb);
  ow_eof : owne I E F (read_u8_or_eof rb);
  ow_into : forall b, own I E (read_into rb b);
  ow_skip : forall n, own I E (skip rb n);
  ow_alloc : forall n sz, own I E (rb_alloc rb n sz)
}.

Ltac own1 := lazymatch goal with
  | |- own _ _ (ret _) => apply own_ret
  | |- own _ _ (fmt_err _) => apply own_fmt
  | |- own _ _ (fail (Unsupported _)) => apply own_unsupported
  | |- own _ _ (lift _) => apply own_lift; solve [pures]
  | |- own _ _ (read_u8 _) => eapply ow_u8; eassumption
  | |- own _ _ (read_into _ _) => eapply ow_into; eassumption
  | |- own _ _ (skip _ _) => eapply ow_skip; eassumption
  | |- own _ _ (rb_alloc _ _ _) => eapply ow_alloc; eassumption
  | |- own _ _ (bind get _) => apply own_get; intros ?
  | |- own _ _ (bind _ _) => apply own_bind; [|intros ?]
  | |- own _ _ (if ?c then _ else _) => destruct c
  | |- own _ _ (match ?x with _ => _ end) => destruct x
  | |- own _ _ _ => assumption
  end.
Ltac owned := repeat own1.

Section Bytes.
  Context {S : Type} (I : S -> Prop) (E : io_kind -> S -> Prop) (F : S -> Prop) (rb : ReadBytes S) (H : owns I E F rb).
  Lemma own_be16 : own I E (read_be_u16 rb). Proof. unfold read_be_u16. owned. Qed.
  Lemma own_be16_eof : owne I E F (read_be_u16_or_eof rb).
  Proof.
    unfold read_be_u16_or_eof. apply owne_bind; [apply H| |reflexivity]. intros a.
    apply owne_bind; [apply H| |reflexivity]. intros b. apply owne_own; [owned|never].
  Qed.
  Lemma own_be24 : own I E (read_be_u24 rb). Proof. unfold read_be_u24. owned. Qed.
  Lemma own_be32 : own I E (read_be_u32 rb). Proof. unfold read_be_u32. owned. Qed.
  Lemma own_le32 : own I E (read_le_u32 rb). Proof. unfold read_le_u32. owned. Qed.

  Lemma owns_crc8 : owns (fun st => I (c8_inner st)) (fun k st => E k (c8_inner st)) (fun st => F (c8_inner st)) (crc8_rb rb).
  Proof.
    assert (forall A (c : M S A), own I E c -> own (fun st => I (c8_inner st)) (fun k st => E k (c8_inner st)) (c8_lift c)) as Z.
    { intros A c Hc. apply (own_zoom I E c8_inner c); [|exact Hc]. intros st. unfold c8_lift. destruct (c _); auto. }
    assert (owne (fun st => I (c8_inner st)) (fun k st => E k (c8_inner st)) (fun st => F (c8_inner st)) (c8_lift (read_u8_or_eof rb))) as Ze.
    { apply (owne_zoom I E F c8_inner (read_u8_or_eof rb)); [|apply H]. intros st. unfold c8_lift. destruct (read_u8_or_eof rb _); auto. }
    assert (forall b, own (fun st => I (c8_inner st)) (fun k st => E k (c8_inner st)) (@c8_update_state S b)) as U.
    { intros b. apply own_keep. intros st. unfold c8_update_state. rewrite bind_get. unfold bind, lift.
      destruct (crc8_update (c8_state st) b) eqn:Ec; cbn; split; try reflexivity; pures.
      intros k Ek. injection Ek as ->. exact (pure_index _ _ k Ec). }
    split; cbn [crc8_rb read_u8 read_u8_or_eof read_into skip rb_alloc]; intros.
    2: { apply owne_bind; [exact Ze| |reflexivity]. intros a. apply owne_own; [owned; apply U|never]. }
    all: owned; try apply U; try apply Z; try apply H.
  Qed.
  Lemma owns_crc16 : owns (fun st => I (c16_inner st)) (fun k st => E k (c16_inner st)) (fun st => F (c16_inner st)) (crc16_rb rb).
  Proof.
    assert (forall A (c : M S A), own I E c -> own (fun st => I (c16_inner st)) (fun k st => E k (c16_inner st)) (c16_lift c)) as Z.
    { intros A c Hc. apply (own_zoom I E c16_inner c); [|exact Hc]. intros st. unfold c16_lift. destruct (c _); auto. }
    assert (owne (fun st => I (c16_inner st)) (fun k st => E k (c16_inner st)) (fun st => F (c16_inner st)) (c16_lift (read_u8_or_eof rb))) as Ze.
    { apply (owne_zoom I E F c16_inner (read_u8_or_eof rb)); [|apply H]. intros st. unfold c16_lift. destruct (read_u8_or_eof rb _); auto. }
    assert (forall b, own (fun st => I (c16_inner st)) (fun k st => E k (c16_inner st)) (@c16_update_state S b)) as U.
    { intros b. apply own_keep. intros st. unfold c16_update_state. rewrite bind_get. unfold bind, lift.
      destruct (crc16_update (c16_state st) b) eqn:Ec; cbn; split; try reflexivity; pures.
      intros k Ek. injection Ek as ->. unfold crc16_update in Ec. revert Ec.
      match goal with |- ?o = _ -> _ => assert (pure o) as P by pures; apply P end. }
    split; cbn [crc16_rb read_u8 read_u8_or_eof read_into skip rb_alloc]; intros.
    2: { apply owne_bind; [exact Ze| |reflexivity]. intros a. apply owne_own; [owned; apply U|never]. }
    all: owned; try apply U; try apply Z; try apply H.
  Qed.
End Bytes.

Section Bits.
  Context {S : Type} (I : S -> Prop) (E : io_kind -> S -> Prop) (F : S -> Prop) (rb : ReadBytes S) (H : owns I E F rb) (m : build) (fuel : nat).
  Local Notation ownb := (own (fun st => I (bs_reader st)) (fun k st => E k (bs_reader st))).

  Lemma own_bs_u8 : ownb (bs_read_u8 rb).
  Proof. apply (own_zoom I E bs_reader (read_u8 rb)); [|apply H]. intros st. unfold bs_read_u8. destruct (read_u8 rb _); auto. Qed.
  Lemma own_bs_set d b : ownb (@bs_set S d b).
  Proof. apply own_keep. intros st. split; [apply pure_ok|reflexivity]. Qed.
  Lemma pure_mask n : pure (mask_u8 m n). Proof. unfold mask_u8, shift_left. pures. Qed.
  Lemma pure_left x n : pure (shift_left m x n). Proof. unfold shift_left. pures. Qed.
  Lemma pure_right x n : pure (shift_right m x n). Proof. unfold shift_right. pures. Qed.
  Ltac ownb1 := first [ apply own_bs_u8 | apply own_bs_set | (apply own_lift; first [apply pure_mask | apply pure_left | apply pure_right]) | own1 ].
  Ltac ownedb := repeat ownb1.
  Lemma own_read_bit : ownb (read_bit rb m). Proof. unfold read_bit. ownedb. Qed.
  Lemma own_unary_loop n x : ownb (read_unary_loop rb m n x).
  Proof. revert x. induction n as [|n IH]; intros x; cbn [read_unary_loop]; ownedb. apply IH. Qed.
  Lemma own_unary : ownb (read_unary rb m fuel). Proof. unfold read_unary. ownedb. apply own_unary_loop. Qed.
  Lemma own_leq8 n : ownb (read_leq_u8 rb m n). Proof. unfold read_leq_u8. ownedb. Qed.
  Lemma own_gt8 n : ownb (read_gt_u8_leq_u16 rb m n). Proof. unfold read_gt_u8_leq_u16. ownedb. Qed.
  Lemma own_leq16 n : ownb (read_leq_u16 rb m n). Proof. unfold read_leq_u16. ownedb; apply own_leq8. Qed.
  Lemma own_leq32 n : ownb (read_leq_u32 rb m n). Proof. unfold read_leq_u32. ownedb; apply own_leq16. Qed.
  Ltac ownc1 := first [ apply own_read_bit | apply own_unary | apply own_leq8 | apply own_gt8 | apply own_leq16 | apply own_leq32 | ownb1 ].
  Ltac ownedc := repeat ownc1.

  Lemma own_fill (c : M (bitstream S) Z) b : ownb c -> ownb (fill c b).
  Proof. intros Hc. induction b as [|x b IH]; cbn [fill]; ownedc. Qed.
  Lemma own_subheader : ownb (read_subframe_header rb m fuel). Proof. unfold read_subframe_header. ownedc. Qed.
  Lemma own_rice b : ownb (decode_rice_partition rb m fuel b).
  Proof. unfold decode_rice_partition. ownedc. apply own_fill. unfold read_rice_sample. ownedc. Qed.
  Lemma own_rice2 b : ownb (decode_rice2_partition rb m fuel b).
  Proof. unfold decode_rice2_partition. ownedc. apply own_fill. unfold read_rice2_sample. ownedc. Qed.
  Lemma own_partitions part n a b c d : (forall b, ownb (part b)) -> ownb (partitions_loop part n a b c d).
  Proof. intros Hp. revert a b c d. induction n as [|n IH]; intros a b c d; cbn [partitions_loop]; ownedc; auto. Qed.
  Lemma own_residual n b : ownb (decode_residual rb m fuel n b).
  Proof.
    unfold decode_residual. apply own_bind; [ownedc|intros meth].
    apply (own_value _ _ (fun part => forall b, ownb (part b))).
    - ownedc.
    - intros st a st' Ea. destruct (meth =? 0); [|destruct (meth =? 1)]; try discriminate; injection Ea as <- _; [apply own_rice|apply own_rice2].
    - intros part Hp. ownedc. apply own_partitions, Hp.
  Qed.

  Lemma pure_sign16 x n : pure (extend_sign_u16 m x n). Proof. unfold extend_sign_u16. pures. Qed.
  Lemma pure_sign32 x n : pure (extend_sign_u32 m x n). Proof. unfold extend_sign_u32. pures. Qed.
  Lemma pure_fixed_loop cs n i b : pure (predict_fixed_loop cs n i b).
  Proof. revert i b. induction n as [|n IH]; intros i b; cbn [predict_fixed_loop]; pures. apply IH. Qed.
  Lemma pure_fixed o b : pure (predict_fixed m o b).
  Proof. unfold predict_fixed, fixed_coefficients. pures; apply pure_fixed_loop. Qed.
  Lemma pure_sum l : forall a, pure (checked_sum m a l).
  Proof. induction l as [|[c s] l IH]; intros a; cbn [checked_sum]; pures. apply IH. Qed.
  Lemma pure_lpc_loop cs q n : forall i b, pure (lpc_loop m cs q n i b).
  Proof. induction n as [|n IH]; intros i b; cbn [lpc_loop]; unfold lpc_step; pures; first [apply pure_sum|apply IH]. Qed.
  Lemma pure_low cs q b : pure (predict_lpc_low_order m cs q b).
  Proof. unfold predict_lpc_low_order. pures; try apply pure_lpc_loop. Qed.
  Lemma pure_high cs q b : pure (predict_lpc_high_order m cs q b).
  Proof. unfold predict_lpc_high_order. pures; apply pure_lpc_loop. Qed.
  Ltac ownd1 := first [ (apply own_lift; first [apply pure_sign16 | apply pure_sign32 | apply pure_fixed | apply pure_low | apply pure_high])
    | apply own_residual | apply own_subheader | ownc1 ].
  Ltac ownedd := repeat ownd1.
  Lemma own_constant n b : ownb (decode_constant rb m n b). Proof. unfold decode_constant. ownedd. Qed.
  Lemma own_verbatim n b : ownb (decode_verbatim rb m n b).
  Proof. unfold decode_verbatim. ownedd. apply own_fill. unfold read_verbatim_sample. ownedd. Qed.
  Lemma own_coefficients q n : ownb (read_coefficients rb m q n).
  Proof. induction n as [|n IH]; cbn [read_coefficients]; ownedd. Qed.
  Lemma own_fixed n o b : ownb (decode_fixed rb m fuel n o b).
  Proof. unfold decode_fixed. ownedd. apply own_verbatim. Qed.
  Lemma own_lpc n o b : ownb (decode_lpc rb m fuel n o b).
  Proof. unfold decode_lpc. ownedd; first [apply own_verbatim|apply own_coefficients]. Qed.
  Lemma own_decode n b : ownb (decode rb m fuel n b).
  Proof. unfold decode. ownedd; first [apply own_constant|apply own_verbatim|apply own_fixed|apply own_lpc]. Qed.
  Lemma own_decode_into n b x y : ownb (decode_into rb m fuel n b x y).
  Proof. unfold decode_into. ownedd. apply own_decode. Qed.
  Lemma own_independent n bs k : forall ch b, ownb (independent_loop rb m fuel n bs k ch b).
  Proof. induction k as [|k IH]; intros ch b; cbn [independent_loop]; ownedd; [apply own_decode_into|apply IH]. Qed.
  Lemma own_channels ca n bs b : ownb (decode_channels rb m fuel ca n bs b).
  Proof. unfold decode_channels, on_prefix. destruct ca; ownedd; first [apply own_independent|apply own_decode_into]. Qed.

  Lemma own_with_bits {A} (c : M (bitstream S) A) : ownb c -> own I E (with_bitstream c).
  Proof.
    intros Hc st HI. unfold with_bitstream. destruct (Hc (bs_new st) HI) as [H1 H2]. destruct (c (bs_new st)) as [o st']. auto.
  Qed.
End Bits.

Section Header.
  Context {S : Type} (I : S -> Prop) (E : io_kind -> S -> Prop) (F : S -> Prop) (rb : ReadBytes S) (H : owns I E F rb) (m : build).
  Lemma pure_prefix n : forall f r d k, pure (vli_prefix_loop m n f r d k).
  Proof. induction n as [|n IH]; intros; cbn [vli_prefix_loop]; pures. apply IH. Qed.
  Lemma own_rest n : forall x, own I E (vli_rest_loop rb m n x).
  Proof. induction n as [|n IH]; intros; cbn [vli_rest_loop]; owned. apply IH. Qed.
  Lemma own_vli : own I E (read_var_length_int rb m).
  Proof. unfold read_var_length_int. owned; try apply own_rest. apply own_lift, pure_prefix. Qed.
End Header.

Section Frame.
  Context {S : Type} (I : S -> Prop) (E : io_kind -> S -> Prop) (F : S -> Prop) (rb : ReadBytes S) (H : owns I E F rb) (m : build) (fuel : nat).

  Lemma own_header : owne I E F (read_frame_header_or_eof rb m).
  Proof.
    assert (owne (fun st => I (c8_inner st)) (fun k st => E k (c8_inner st)) (fun st => F (c8_inner st)) (read_frame_header_body rb m)) as Hb.
    { pose proof (owns_crc8 I E F rb H) as H8. unfold read_frame_header_body, crc8_crc. cbv zeta.
      apply owne_bind; [eapply own_be16_eof; eassumption| |reflexivity]. intros sync. apply owne_own; [|never].
      repeat first [ (eapply own_be16; eassumption) | (eapply own_vli; eassumption) | own1 ]. }
    intros st HI. unfold read_frame_header_or_eof, with_crc8. destruct (Hb (crc8_new st) HI) as (H1 & H2 & H3).
    destruct (read_frame_header_body rb m (crc8_new st)) as [o st']. auto.
  Qed.
End Frame.

Section Next.
  Context {S : Type} (I : S -> Prop) (E : io_kind -> S -> Prop) (F : S -> Prop) (rb : ReadBytes S) (H : owns I E F rb) (m : build) (fuel : nat).
  Lemma own_next buffer : owne I E F (read_next_or_eof rb m fuel buffer).
  Proof.
    assert (owne (fun st => I (c16_inner st)) (fun k st => E k (c16_inner st)) (fun st => F (c16_inner st)) (read_next_body rb m fuel buffer)) as Hb.
    { pose proof (owns_crc16 I E F rb H) as H16. unfold read_next_body, crc16_crc, block_new. cbv zeta.
      apply owne_bind; [eapply own_header; eassumption| |reflexivity]. intros header. apply owne_own; [|never].
      repeat first [ (eapply own_be16; eassumption)
        | (apply own_with_bits; eapply (own_channels (fun st => I (c16_inner st)) (fun k st => E k (c16_inner st)) (fun st => F (c16_inner st))); exact H16) | own1 ]. }
    intros st HI. unfold read_next_or_eof, with_crc16. destruct (Hb (crc16_new st) HI) as (H1 & H2 & H3).
    destruct (read_next_body rb m fuel buffer (crc16_new st)) as [o st']. auto.
  Qed.
End Next.

Section Metadata.
  Context {S : Type} (I : S -> Prop) (E : io_kind -> S -> Prop) (F : S -> Prop) (rb : ReadBytes S) (H : owns I E F rb) (m : build) (un : nat -> list Z).
  Lemma pure_utf8 l : pure (from_utf8 l). Proof. unfold from_utf8. pures. Qed.
  Ltac ownm1 := first [ (eapply own_be16; eassumption) | (eapply own_be24; eassumption) | (eapply own_be32; eassumption) | (eapply own_le32; eassumption)
    | (apply own_lift, pure_utf8) | own1 ].
  Ltac ownedm := repeat ownm1.
  Lemma own_vorbis_loop n : forall a b c, own I E (vorbis_loop rb m un n a b c).
  Proof. induction n as [|n IH]; intros; cbn [vorbis_loop]; ownedm; apply IH. Qed.
  Lemma own_block_header : own I E (read_metadata_block_header rb).
  Proof. unfold read_metadata_block_header. ownedm. Qed.
  Lemma own_block ty n : own I E (read_metadata_block rb m un ty n).
  Proof.
    unfold read_metadata_block, read_streaminfo_block, read_padding_block, read_application_block, read_vorbis_comment_block.
    repeat first [ apply own_vorbis_loop | ownm1 ].
  Qed.
  Lemma own_block_with_header : own I E (read_metadata_block_with_header rb m un).
  Proof. unfold read_metadata_block_with_header. ownedm; [apply own_block_header|apply own_block]. Qed.
  Lemma own_stream_header : own I E (read_stream_header rb).
  Proof. unfold read_stream_header. ownedm. Qed.

  Local Notation ownr := (own (fun st => I (mr_input st)) (fun k st => E k (mr_input st))).
  Lemma own_mr_lift {A} (c : M S A) : own I E c -> ownr (mr_lift c).
  Proof. intros Hc. apply (own_zoom I E mr_input c); [|exact Hc]. intros st. unfold mr_lift. destruct (c _); auto. Qed.
  Lemma own_set_done b : ownr (@mr_set_done S b).
  Proof. apply own_keep. intros st. split; [apply pure_ok|reflexivity]. Qed.
  Lemma own_read_next : ownr (mr_read_next rb m un).
  Proof. unfold mr_read_next. owned; first [apply own_mr_lift|apply own_set_done]; [apply own_block_header|apply own_block]. Qed.
  (** Errors are items. *)
  Lemma mr_next_item st : I (mr_input st) -> let r := mr_next rb m un st in
    pure (fst r) /\ (forall k, fst r = Ok (Some (RErr (IoError k))) -> E k (mr_input (snd r)))
    /\ ((forall k, fst r <> Ok (Some (RErr (IoError k)))) -> I (mr_input (snd r))).
  Proof.
    intros HI. unfold mr_next. rewrite bind_get. destruct (mr_done st).
    { cbn. split; [pures|]. split; [discriminate|auto]. }
    destruct (own_read_next st HI) as [H1 He]. unfold catch, bind. destruct (mr_read_next rb m un st) as [o s]. cbn [fst snd] in *.
    destruct o as [a|e|w|w|]; cbn; (split; [pures|]); (split; [intros k Ek; try discriminate|intros Hn; try (apply H1; pures)]).
    - injection Ek as ->. apply He. reflexivity.
    - intros k Ek. injection Ek as ->. apply (Hn k). reflexivity.
  Qed.

  Lemma own_item {A} (f : option (result metadata_block) -> M (mreader S) A) :
    (forall x, (forall k, x <> Some (RErr (IoError k))) -> ownr (f x)) ->
    (forall k, f (Some (RErr (IoError k))) = lift (Err (IoError k))) ->
    ownr (bind (mr_next rb m un) f).
  Proof.
    intros Hf Hk st HI. destruct (mr_next_item st HI) as (Hp & Hi & HI').
    unfold bind. destruct (mr_next rb m un st) as [o s]. cbn [fst snd] in *.
    destruct o as [x|e| | |]; cbn [fst snd];
      try (split; [intros _; apply HI'; intros; discriminate|intros k Ek; try discriminate; destruct (Hp k); congruence]).
    assert ((forall k, x <> Some (RErr (IoError k))) \/ exists k, x = Some (RErr (IoError k))) as [Hx|(k & ->)].
    { destruct x as [[b|[k|w|w]]|]; try (left; intros; discriminate). right. eauto. }
    - apply Hf; [exact Hx|]. apply HI'. intros k Ek. apply (Hx k). congruence.
    - rewrite Hk. split; cbn; [intros Hq; destruct (Hq k eq_refl)|]. intros k' Ek. injection Ek as <-. apply Hi. reflexivity.
  Qed.
  Lemma own_loop n : forall opts vc, ownr (metadata_loop rb m un n opts vc).
  Proof.
    induction n as [|n IH]; intros opts vc; cbn [metadata_loop]; [owned|].
    apply own_item; [|intros; reflexivity].
    intros x Hx. destruct x as [[b|e]|]; [| |owned].
    - cbn [of_result]. owned; apply IH.
    - cbn [of_result]. destruct e as [k|w|w]; [destruct (Hx k eq_refl)| |]; owned; apply IH.
  Qed.
  Lemma own_metadata n opts : ownr (read_metadata rb m un n opts).
  Proof.
    unfold read_metadata. apply own_item; [|intros; reflexivity].
    intros x Hx. destruct x as [[b|e]|].
    - apply own_lift_ok. cbn [of_result]. owned; apply own_loop.
    - apply own_lift_ok. cbn [of_result]. destruct e as [k|w|w]; [destruct (Hx k eq_refl)| |]; owned; apply own_loop.
    - intros st HI. cbn. split; [intros _; exact HI|intros; discriminate].
  Qed.
  Lemma own_new n opts : own I E (new_ext rb m un n opts).
  Proof.
    unfold new_ext. repeat first [apply own_stream_header | own1].
    intros st HI. unfold with_mreader. destruct (own_metadata n opts (mr_new st) HI) as [H1 H2].
    destruct (read_metadata rb m un n opts (mr_new st)) as [o st']. auto.
  Qed.
End Metadata.

(** * The source itself *)

Section Source.
  Context (m : build) (sc : list event) (Hsc : Forall contract_ok sc).
  Definition only_data (st : breader) : Prop := took sc Other (br_inner st).
  Definition blamed (k : io_kind) (st : breader) : Prop := took sc (Failed k) (br_inner st).
  Definition at_end (st : breader) : Prop := took sc Ended (br_inner st).
  Local Notation owns_ := (own only_data blamed).

  (** A failed [read] is to blame; after one that returned nothing, the source has
      ended. *)
  Lemma refill_own st : only_data st -> let r := br_refill st in
    (fst r = Ok tt -> br_num_valid (snd r) <> 0 -> only_data (snd r))
    /\ (forall k, fst r = Err (IoError k) -> blamed k (snd r))
    /\ (fst r = Ok tt -> br_num_valid (snd r) = 0 -> at_end (snd r))
    /\ ((fst r = Ok tt) \/ exists k, fst r = Err (IoError k)).
  Proof.
    intros (taken & rest & Es & Hn & ->). unfold br_refill, br_set_pos, inner_read, bind, br_set_num_valid, only_data, blamed, at_end, took.
    cbn [br_inner br_buf br_pos br_num_valid].
    destruct (br_inner st) as [|[c|k] r] eqn:Ei; cbn [br_inner br_buf br_pos br_num_valid fst snd].
    - split; [intros _ H; destruct (H eq_refl)|]. split; [discriminate|]. split; [|auto].
      intros _ _. exists taken, []. split; [exact Es|]. split; [exact Hn|]. right. auto.
    - assert (0 <= len c <= 2048) as Hl.
      { rewrite Es in Hsc. apply Forall_app in Hsc as [_ Hc]. apply Forall_inv in Hc. destruct Hc as [_ Hl].
        pose proof (len_nonneg c). lia. }
      rewrite u32_id by lia. split; [|split; [discriminate|split; [|auto]]].
      + intros _ Hc. exists (taken ++ [c]), r. rewrite map_app, <- app_assoc. split; [exact Es|]. split; [|reflexivity].
        apply Forall_app. split; [exact Hn|]. constructor; [|constructor]. intros ->. apply Hc. reflexivity.
      + intros _ Hc. exists taken, (EvData c :: r). split; [exact Es|]. split; [exact Hn|]. left. do 2 f_equal.
        destruct c; [reflexivity|rewrite len_cons in *; pose proof (len_nonneg c); lia].
    - split; [discriminate|]. split; [|split; [discriminate|eauto]].
      intros k' Ek. injection Ek as <-. exists taken, (EvErr k :: r). split; [exact Es|]. split; [exact Hn|]. left. reflexivity.
  Qed.
  Lemma end_blamed st : at_end st -> blamed UnexpectedEof st.
  Proof. intros (chunks & rest & Es & Hn & H). exists chunks, rest. auto. Qed.
  Lemma own_pos p : owns_ (br_set_pos p).
  Proof. intros st HI. split; [intros _; exact HI|intros; discriminate]. Qed.
  (** A refill, and then a check for the end. *)
  Lemma own_refill {A} (c : M breader A) : owns_ c ->
    owns_ (bind br_refill (fun _ => bind get (fun st => if br_num_valid st =? 0 then fail (IoError UnexpectedEof) else c))).
  Proof.
    intros Hc st HI. destruct (refill_own st HI) as (H1 & H2 & H3 & H4).
    match goal with |- (pure (fst (?d st)) -> _) /\ _ =>
      assert (d st = match br_refill st with
                     | (Ok _, s) => if br_num_valid s =? 0 then (Err (IoError UnexpectedEof), s) else c s
                     | (Err e, s) => (Err e, s) | (Panic w, s) => (Panic w, s) | (UB w, s) => (UB w, s) | (OutOfFuel, s) => (OutOfFuel, s)
                     end) as -> end.
    { unfold bind. destruct (br_refill st) as [[[]|e|w|w|] s]; cbn; try reflexivity. destruct (_ =? _); reflexivity. }
    destruct (br_refill st) as [o s]. cbn [fst snd] in *. destruct H4 as [->|(k & ->)].
    - destruct (Z.eqb_spec (br_num_valid s) 0) as [E0|E0]; [|apply Hc, H1; auto].
      cbn. split; [intros Hp; destruct (Hp _ eq_refl)|]. intros k Ek. injection Ek as <-. apply end_blamed. auto.
    - cbn. split; [intros Hp; destruct (Hp _ eq_refl)|]. intros k' Ek. injection Ek as <-. apply H2. reflexivity.
  Qed.
  Ltac ownr1 := lazymatch goal with
    | |- own _ _ (br_set_pos _) => apply own_pos
    | |- own _ _ (bind br_refill (fun _ => bind get (fun st => if _ then fail _ else _))) => apply own_refill
    | |- _ => own1
    end.
  Ltac ownedr := repeat ownr1.
  Lemma own_br_u8 : owns_ (br_read_u8 m).
  Proof. unfold br_read_u8. ownedr. Qed.
  Lemma own_br_eof : owne only_data blamed at_end (br_read_u8_or_eof m).
  Proof.
    assert (owne only_data blamed at_end (bind (br_read_u8 m) (fun b => ret (Some b)))) as Hr.
    { apply owne_own; [apply own_bind; [apply own_br_u8|intros; apply own_ret]|never]. }
    intros st HI. unfold br_read_u8_or_eof. rewrite bind_get. destruct (br_pos st =? br_num_valid st).
    2: { match goal with |- context [bind (ret false) ?f] => change (bind (ret false) f st) with (bind (br_read_u8 m) (fun b => ret (Some b)) st) end.
         apply Hr, HI. }
    destruct (refill_own st HI) as (H1 & H2 & H3 & H4).
    match goal with |- context [fst (bind ?c ?f st)] =>
      assert (bind c f st = match br_refill st with
                     | (Ok _, s) => if br_num_valid s =? 0 then (Ok None, s) else bind (br_read_u8 m) (fun b => ret (Some b)) s
                     | (Err e, s) => (Err e, s) | (Panic w, s) => (Panic w, s) | (UB w, s) => (UB w, s) | (OutOfFuel, s) => (OutOfFuel, s)
                     end) as -> end.
    { unfold bind. destruct (br_refill st) as [[[]|e|w|w|] s]; cbn; try reflexivity. destruct (_ =? _); reflexivity. }
    destruct (br_refill st) as [o s]. cbn [fst snd] in *. destruct H4 as [->|(k & ->)].
    - destruct (Z.eqb_spec (br_num_valid s) 0) as [E0|E0]; [|apply Hr, H1; auto].
      cbn. split; [congruence|]. split; [auto|discriminate].
    - cbn. split; [intros Hp; destruct (Hp _ eq_refl)|]. split; [discriminate|]. intros k' Ek. injection Ek as <-. apply H2. reflexivity.
  Qed.
  Lemma own_br_skip n : forall a, owns_ (br_skip_loop m n a).
  Proof. induction n as [|n IH]; intros a; cbn [br_skip_loop]; ownedr; apply IH. Qed.
  Lemma own_br_into n : forall b a, owns_ (br_read_into_loop m n b a).
  Proof. induction n as [|n IH]; intros b a; cbn [br_read_into_loop]; ownedr; apply IH. Qed.
  Lemma br_owns : owns only_data blamed at_end (br_rb m).
  Proof.
    split; cbn [br_rb read_u8 read_u8_or_eof read_into skip rb_alloc]; intros.
    - apply own_br_u8.
    - apply own_br_eof.
    - unfold br_read_into. ownedr. apply own_br_into.
    - unfold br_skip. ownedr. apply own_br_skip.
    - ownedr.
  Qed.
  Lemma data_self st : br_inner st = sc -> only_data st.
  Proof. intros E. exists [], sc. auto. Qed.
End Source.

Section Session.
  Context {S : Type} (I : S -> Prop) (E : io_kind -> S -> Prop) (F : S -> Prop) (rb : ReadBytes S) (H : owns I E F rb) (m : build) (fuel : nat).

  (** What [next] on the iterator [it] may return. *)
  Definition blame (it : flac_samples S) (r : outcome (option (result Z)) * flac_samples S) : Prop :=
    pure (fst r)
    /\ (forall k, fst r = Ok (Some (RErr (IoError k))) -> E k (fs_frame_reader (snd r)))
    /\ (fst r = Ok None -> F (fs_frame_reader (snd r)) \/ fs_frame_reader (snd r) = fs_frame_reader it)
    /\ (fst r <> Ok None -> (forall k, fst r <> Ok (Some (RErr (IoError k)))) -> I (fs_frame_reader (snd r))).
  Lemma yield_blame it0 it : I (fs_frame_reader it) -> blame it0 (fs_yield it).
  Proof.
    intros HI. unfold fs_yield. rewrite bind_get. unfold bind, lift. assert (pure (block_sample (fs_block it) (fs_channel it) (fs_sample it))) as P.
    { unfold block_sample. pures. }
    unfold blame. destruct (block_sample (fs_block it) (fs_channel it) (fs_sample it)); cbn; (split; [|split; [discriminate|split; [discriminate|auto]]]); pures.
    intros k Ek. injection Ek as ->. apply (P k). reflexivity.
  Qed.
  Lemma chk_blame {it0 it} f x (g : Z -> M (flac_samples S) (option (result Z))) : I (fs_frame_reader it) ->
    (forall z, blame it0 (g z it)) -> blame it0 (bind (lift (chk m f x)) g it).
  Proof.
    intros HI Hg. unfold chk. destruct (_ =? _); [rewrite bind_lift_ok; apply Hg|]. destruct m; [|rewrite bind_lift_ok; apply Hg].
    unfold blame; cbn. split; [pures|split; [discriminate|split; [discriminate|auto]]].
  Qed.
  Lemma samples_blame it : I (fs_frame_reader it) -> blame it (fs_next rb m fuel it).
  Proof.
    intros HI. unfold fs_next. rewrite bind_get. destruct (fs_has_failed it).
    { unfold blame; cbn. split; [pures|split; [discriminate|split; [auto|congruence]]]. }
    apply chk_blame; [exact HI|intros ch]. unfold bind at 1, fs_set_channel at 1.
    destruct (block_channels _ <=? ch); [|apply yield_blame; exact HI].
    unfold bind at 1, fs_set_channel at 1. cbn [fs_sample fs_block fs_frame_reader fs_channel fs_has_failed].
    apply chk_blame; [exact HI|intros sa]. unfold bind at 1, fs_set_sample at 1.
    destruct (block_duration _ <=? sa); [|apply yield_blame; exact HI].
    unfold bind at 1, fs_set_sample at 1. unfold bind at 1, fs_set_block at 1. unfold bind at 1, catch, fs_lift.
    cbn [fs_sample fs_block fs_frame_reader fs_channel fs_has_failed].
    destruct (own_next I E F rb H m fuel (block_into_buffer (fs_block it)) (fs_frame_reader it) HI) as (HI' & Hn & He).
    destruct (read_next_or_eof rb m fuel (block_into_buffer (fs_block it)) (fs_frame_reader it)) as [o st']. cbn [fst snd] in *.
    destruct o as [[b|]|e|w|w|].
    - unfold bind at 1, fs_set_block at 1. apply yield_blame. apply HI'; [apply pure_ok|discriminate].
    - unfold blame; cbn. split; [pures|split; [discriminate|]]. split; [auto|congruence].
    - unfold blame; cbn. split; [pures|]. split; [intros k Ek; injection Ek as ->; auto|]. split; [discriminate|].
      intros _ Hq. apply HI'; [|discriminate]. intros k Ek. injection Ek as ->. apply (Hq k). reflexivity.
    - unfold blame; cbn. split; [pures|split; [discriminate|split; [discriminate|]]]. intros _ _. apply HI'; [pures|discriminate].
    - unfold blame; cbn. split; [pures|split; [discriminate|split; [discriminate|]]]. intros _ _. apply HI'; [pures|discriminate].
    - unfold blame; cbn. split; [pures|split; [discriminate|split; [discriminate|]]]. intros _ _. apply HI'; [pures|discriminate].
  Qed.

  Definition input_of (r : flac_reader S) : S := match fr_input r with Full inp => inp | MetadataOnly inp => inp end.
  Definition source_of (s : session S) : S := input_of (drop_samples s).

  Lemma new_input un n opts st r st' : new_ext rb m un n opts st = (Ok r, st') -> input_of r = st'.
  Proof.
    unfold new_ext. intros Hr. apply bind_ok in Hr as (? & ? & _ & Hr). apply bind_ok in Hr as ([si vc] & ? & _ & Hr).
    rewrite bind_get in Hr. unfold ret in Hr. injection Hr as <- <-. unfold input_of. cbn. destruct (metadata_only opts); reflexivity.
  Qed.

  Lemma input_with r inp : input_of (with_input r inp) = inp.
  Proof. unfold input_of, with_input. cbn. destruct (fr_input r); reflexivity. Qed.

  Lemma session_own c s : I (source_of s) -> let r := session_step rb m fuel c s in
    match call_report (fst r) with
    | Failed k => E k (source_of (snd r))
    | Ended => F (source_of (snd r))
    | NoMore => F (source_of (snd r)) \/ source_of (snd r) = source_of s
    | Other => I (source_of (snd r))
    end.
  Proof.
    intros HI. unfold session_step. destruct c as [buffer| |]; cbv zeta.
    - unfold fr_blocks. unfold source_of in HI. unfold input_of in HI. destruct (fr_input (drop_samples s)) as [inp|inp] eqn:Ei.
      + destruct (own_next I E F rb H m fuel buffer inp HI) as (HI' & Hn & He).
        destruct (read_next_or_eof rb m fuel buffer inp) as [o inp']. cbn [fst snd] in *.
        unfold source_of, drop_samples. cbn [se_samples se_reader]. rewrite !input_with.
        destruct o as [[b|]|[k|w|w]|w|w|]; cbn [obind call_report report_of]; auto; apply HI'; pures; discriminate.
      + cbn [obind fst snd call_report report_of]. unfold source_of, drop_samples at 1. cbn [se_samples se_reader]. unfold input_of. rewrite Ei. exact HI.
    - assert (forall it, I (fs_frame_reader it) -> fs_frame_reader it = source_of s ->
        let r := (let (o, it') := fs_next rb m fuel it in
          (x <~ o ;; match x with Some (ROk v) => Ok (GotSample (Some v)) | Some (RErr e) => Err e | None => Ok (GotSample None) end,
           mkSession (se_reader s) (Some it'))) in
        match call_report (fst r) with
        | Failed k => E k (source_of (snd r))
        | Ended => F (source_of (snd r))
        | NoMore => F (source_of (snd r)) \/ source_of (snd r) = source_of s
        | Other => I (source_of (snd r))
        end) as X.
      { intros it Hit Es. destruct (samples_blame it Hit) as (H1 & H2 & H3 & H4).
        destruct (fs_next rb m fuel it) as [o it']. cbn [fst snd] in *. rewrite Es in H3.
        assert (source_of (mkSession (se_reader s) (Some it')) = fs_frame_reader it') as ->.
        { unfold source_of, drop_samples. cbn [se_samples se_reader]. apply input_with. }
        destruct o as [[[v|[k|w|w]]|]|[k|w|w]|w|w|]; cbn [obind call_report report_of]; auto;
          try (apply H4; intros; discriminate). destruct (H1 k eq_refl). }
      unfold source_of, drop_samples in HI.
      destruct (se_samples s) as [it|] eqn:Es.
      + assert (source_of s = fs_frame_reader it) as Eq by (unfold source_of, drop_samples; rewrite Es; apply input_with).
        apply (X it); [rewrite input_with in HI; exact HI|auto].
      + unfold fr_samples. destruct (fr_input (se_reader s)) as [i|i] eqn:Ei.
        * assert (source_of s = i) as Eq by (unfold source_of, drop_samples, input_of; rewrite Es, Ei; reflexivity).
          apply (X (mkFs i block_empty 0 0 false)); [unfold input_of in HI; rewrite Ei in HI; exact HI|auto].
        * cbn. unfold source_of, drop_samples. rewrite Es. exact HI.
    - cbn [fst snd call_report report_of]. unfold source_of at 1. unfold drop_samples at 1. cbn. exact HI.
  Qed.
End Session.

(** * Single calls *)

Lemma own_took {T A} (view : T -> breader) (c : M T A) sc st :
  own (fun st => only_data sc (view st)) (fun k st => blamed sc k (view st)) c -> br_inner (view st) = sc ->
  took sc (report_of (fst (c st))) (br_inner (view (snd (c st)))).
Proof.
  intros Hc E. destruct (Hc st (data_self sc _ E)) as [H1 H2]. unfold only_data, blamed in *.
  destruct (fst (c st)) as [a|[k|w|w]|w|w|]; cbn [report_of]; try (apply H1; pures). apply H2. reflexivity.
Qed.

Lemma took_suffix before f after : took before f after -> exists x, before = x ++ after.
Proof.
  assert (forall rest after, read_nothing rest after -> exists x, rest = x ++ after) as X.
  { intros r a [->|[-> ->]]; [exists [EvData []]|exists []]; reflexivity. }
  assert (forall chunks rest, (exists x, rest = x ++ after) -> exists x, map EvData chunks ++ rest = x ++ after) as Y.
  { intros chunks rest (x & ->). exists (map EvData chunks ++ x). apply app_assoc. }
  intros (chunks & rest & -> & _ & H). destruct f as [k| | |].
  - apply Y. destruct H as [->|[_ H]]; [exists [EvErr k]; reflexivity|apply X, H].
  - apply Y, X, H.
  - destruct H as [H|H]; [apply Y, X, H|exists []; exact H].
  - subst. eauto.
Qed.
Lemma took_contract before f after : took before f after -> Forall contract_ok before -> Forall contract_ok after.
Proof. intros H Hb. apply took_suffix in H as [x ->]. apply Forall_app in Hb. apply Hb. Qed.

Section Calls.
  Context (m : build) (un : nat -> list Z) (fuel : nat).

  Lemma into_inner_of (r : flac_reader breader) : fr_into_inner r = br_inner (input_of r).
  Proof. unfold fr_into_inner, input_of. destruct (fr_input r); reflexivity. Qed.

  Theorem open_took script opts : Forall contract_ok script ->
    let r := new_ext (br_rb m) m un fuel opts (br_new script) in
    took script (report_of (fst r)) (br_into_inner (snd r))
    /\ forall f, fst r = Ok f -> fr_into_inner f = br_into_inner (snd r).
  Proof.
    intros Hs. cbv zeta. split.
    - apply (own_took (fun x => x) (new_ext (br_rb m) m un fuel opts)); [|reflexivity].
      eapply own_new. apply br_owns, Hs.
    - intros f Ef. destruct (new_ext _ _ _ _ _ _) as [o st] eqn:E. cbn [fst snd] in *. subst o.
      rewrite into_inner_of, (new_input _ _ _ _ _ _ _ _ E). reflexivity.
  Qed.

  Lemma call_took_any c (s : session breader) : Forall contract_ok (fr_into_inner (drop_samples s)) ->
    let r := session_step (br_rb m) m fuel c s in
    took (fr_into_inner (drop_samples s)) (call_report (fst r)) (fr_into_inner (drop_samples (snd r))).
  Proof.
    intros Hs. cbv zeta. rewrite !into_inner_of in *.
    pose proof (session_own _ _ _ (br_rb m) (br_owns m _ Hs) m fuel c s (data_self _ _ eq_refl)) as X.
    unfold only_data, blamed, at_end in X. destruct (call_report _); try exact X.
    destruct X as [(chunks & rest & Es & Hn & X)|X]; [exists chunks, rest; auto|].
    exists [], (br_inner (source_of s)). unfold source_of in X at 1. rewrite X. auto.
  Qed.
  Lemma calls_contract calls : forall s : session breader, Forall contract_ok (fr_into_inner (drop_samples s)) ->
    Forall contract_ok (fr_into_inner (drop_samples (snd (history_all (session_step (br_rb m) m fuel) calls s)))).
  Proof.
    induction calls as [|c calls IH]; intros s Hs; [exact Hs|]. cbn [history_all].
    pose proof (took_contract _ _ _ (call_took_any c s Hs) Hs) as H1.
    destruct (session_step (br_rb m) m fuel c s) as [o s1]. cbn [snd] in H1. specialize (IH s1 H1).
    destruct (history_all _ calls s1) as [os s2]. exact IH.
  Qed.
  Theorem call_took script opts r calls c : Forall contract_ok script -> flac_new_ext m un fuel script opts = Ok r ->
    let s := snd (history_all (session_step (br_rb m) m fuel) calls (mkSession r None)) in
    let reply := session_step (br_rb m) m fuel c s in
    took (fr_into_inner (drop_samples s)) (call_report (fst reply)) (fr_into_inner (drop_samples (snd reply))).
  Proof.
    intros Hs Hr. cbv zeta. apply call_took_any, calls_contract. cbn [drop_samples se_samples se_reader].
    destruct (open_took script opts Hs) as [H1 H2]. rewrite (H2 r Hr). exact (took_contract _ _ _ H1 Hs).
  Qed.

  Lemma item_took_any st : Forall contract_ok (br_inner (mr_input st)) ->
    let r := mr_next (br_rb m) m un st in
    took (br_inner (mr_input st)) (item_report (fst r)) (br_inner (mr_input (snd r))).
  Proof.
    intros Hs. cbv zeta.
    destruct (mr_next_item _ _ _ (br_rb m) (br_owns m _ Hs) m un st (data_self _ _ eq_refl)) as (H1 & H2 & H3).
    unfold only_data, blamed in *.
    destruct (fst (mr_next (br_rb m) m un st)) as [[[b|[k|w|w]]|]|[k|w|w]|w|w|]; cbn [item_report report_of];
      try (apply H3; intros; discriminate); [apply H2; reflexivity|destruct (H1 k eq_refl)].
  Qed.
  Lemma items_contract n : forall st, Forall contract_ok (br_inner (mr_input st)) ->
    Forall contract_ok (br_inner (mr_input (snd (nexts (mr_next (br_rb m) m un) n st)))).
  Proof.
    unfold nexts. induction n as [|n IH]; intros st Hs; [exact Hs|]. cbn [repeat history_all].
    pose proof (took_contract _ _ _ (item_took_any st Hs) Hs) as H1.
    destruct (mr_next (br_rb m) m un st) as [o s1]. cbn [snd] in H1. specialize (IH s1 H1).
    destruct (history_all _ (repeat tt n) s1) as [os s2]. exact IH.
  Qed.
  Theorem item_took script n : Forall contract_ok script ->
    let st := snd (nexts (mr_next (br_rb m) m un) n (mr_new (br_new script))) in
    let r := mr_next (br_rb m) m un st in
    took (br_into_inner (mr_input st)) (item_report (fst r)) (br_into_inner (mr_input (snd r))).
  Proof. intros Hs. cbv zeta. apply item_took_any, items_contract. exact Hs. Qed.

  Theorem block_took script ty n : Forall contract_ok script ->
    (let r := read_metadata_block (br_rb m) m un ty n (br_new script) in
     took script (report_of (fst r)) (br_into_inner (snd r)))
    /\ (let r := read_metadata_block_with_header (br_rb m) m un (br_new script) in
        took script (report_of (fst r)) (br_into_inner (snd r))).
  Proof.
    intros Hs. cbv zeta. split.
    - apply (own_took (fun x => x) (read_metadata_block (br_rb m) m un ty n)); [|reflexivity]. eapply own_block. apply br_owns, Hs.
    - apply (own_took (fun x => x) (read_metadata_block_with_header (br_rb m) m un)); [|reflexivity]. eapply own_block_with_header. apply br_owns, Hs.
  Qed.

  Lemma op_took_any o st : Forall contract_ok (br_inner st) ->
    let r := run_byte_op (br_rb m) o st in
    took (br_inner st) (op_report (fst r)) (br_inner (snd r)).
  Proof.
    intros Hs. cbv zeta. pose proof (br_owns m _ Hs) as H.
    assert (forall A B (c : M breader A) (g : A -> B) st, fst ((x <- c ;; ret (g x)) st) = obind (fst (c st)) (fun a => Ok (g a)) /\ snd ((x <- c ;; ret (g x)) st) = snd (c st)) as X.
    { intros A B c g s. unfold bind. destruct (c s) as [[a|e|w|w|] s']; auto. }
    assert (forall A (c : M breader A) (g : A -> byte_result), own (only_data (br_inner st)) (blamed (br_inner st)) c -> (forall a, g a <> RNone) ->
      took (br_inner st) (op_report (fst ((x <- c ;; ret (g x)) st))) (br_inner (snd ((x <- c ;; ret (g x)) st)))) as Y.
    { intros A c g Hc Hg. destruct (X A _ c g st) as [-> ->]. pose proof (own_took (fun x => x) c _ st Hc eq_refl) as T.
      destruct (fst (c st)) as [a|e|w|w|]; cbn [obind] in *; try exact T. specialize (Hg a). destruct (g a); try exact T. destruct (Hg eq_refl). }
    assert (forall c : M breader (option Z), owne (only_data (br_inner st)) (blamed (br_inner st)) (at_end (br_inner st)) c ->
      took (br_inner st) (op_report (fst ((x <- c ;; ret (match x with Some b => RNum b | None => RNone end)) st)))
        (br_inner (snd ((x <- c ;; ret (match x with Some b => RNum b | None => RNone end)) st)))) as Z.
    { intros c Hc. match goal with |- context [ret (?g _)] => idtac | |- context [bind c ?f] => destruct (X _ _ c (fun x => match x with Some b => RNum b | None => RNone end) st) as [-> ->] end.
      destruct (Hc st (data_self _ _ eq_refl)) as (H1 & H2 & H3). unfold only_data, blamed, at_end in *.
      destruct (fst (c st)) as [[a|]|[k|w|w]|w|w|]; cbn [obind op_report report_of] in *; auto; apply H1; pures; discriminate. }
    unfold run_byte_op. destruct o.
    - apply Y; [apply H|discriminate].
    - apply Z, H.
    - apply Y; [apply H|discriminate].
    - apply Y; [apply H|discriminate].
    - apply Y; [eapply own_be16; exact H|discriminate].
    - apply Z. eapply own_be16_eof; exact H.
    - apply Y; [eapply own_be24; exact H|discriminate].
    - apply Y; [eapply own_be32; exact H|discriminate].
    - apply Y; [eapply own_le32; exact H|discriminate].
  Qed.
  Lemma ops_contract ops : forall st, Forall contract_ok (br_inner st) ->
    Forall contract_ok (br_inner (snd (history_all (run_byte_op (br_rb m)) ops st))).
  Proof.
    induction ops as [|o ops IH]; intros st Hs; [exact Hs|]. cbn [history_all].
    pose proof (took_contract _ _ _ (op_took_any o st Hs) Hs) as H1.
    destruct (run_byte_op (br_rb m) o st) as [r s1]. cbn [snd] in H1. specialize (IH s1 H1).
    destruct (history_all _ ops s1) as [os s2]. exact IH.
  Qed.
  Theorem op_took script ops o : Forall contract_ok script ->
    let st := snd (history_all (run_byte_op (br_rb m)) ops (br_new script)) in
    let r := run_byte_op (br_rb m) o st in
    took (br_into_inner st) (op_report (fst r)) (br_into_inner (snd r)).
  Proof. intros Hs. cbv zeta. apply op_took_any, ops_contract. exact Hs. Qed.
End Calls.
