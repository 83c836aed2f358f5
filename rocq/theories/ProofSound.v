(** No undefined behaviour beyond that of the reader. *)
From Verif Require Export ProofBlame SpecHostile SpecApi.
From Verif Require Import SpecReader.

Section Nub.
  Lemma nub_ok {A} (a : A) : not_ub (Ok a). Proof. intros k E; discriminate. Qed.
  Lemma nub_err {A} e : not_ub (@Err A e). Proof. intros k E; discriminate. Qed.
  Lemma nub_panic {A} w : not_ub (@Panic A w). Proof. intros k E; discriminate. Qed.
  Lemma nub_fuel {A} : not_ub (@OutOfFuel A). Proof. intros k E; discriminate. Qed.
  Lemma nub_bind {A B} (o : outcome A) (f : A -> outcome B) : not_ub o -> (forall a, not_ub (f a)) -> not_ub (obind o f).
  Proof. intros Ho Hf k E. destruct o; cbn in E; try discriminate; [apply (Hf a k E)|]. apply (Ho k). congruence. Qed.
  Lemma nub_chk m f x : not_ub (chk m f x).
  Proof. intros k E. unfold chk in E. destruct (_ =? _); [|destruct m]; discriminate. Qed.
  Lemma nub_chk_shift m w s : not_ub (chk_shift m w s).
  Proof. intros k E. unfold chk_shift in E. destruct (_ && _); [|destruct m]; discriminate. Qed.
  Lemma nub_shl m f w x s : not_ub (shl m f w x s).
  Proof. unfold shl. apply nub_bind; [apply nub_chk_shift|intros; apply nub_ok]. Qed.
  Lemma nub_shr m w x s : not_ub (shr m w x s).
  Proof. unfold shr. apply nub_bind; [apply nub_chk_shift|intros; apply nub_ok]. Qed.
  Lemma nub_assert m b : not_ub (debug_assert m b).
  Proof. intros k E. unfold debug_assert in E. destruct m, b; discriminate. Qed.
  Lemma nub_slice {A} (l : list A) a b : not_ub (slice l a b).
  Proof. intros k E. unfold slice in E. destruct (_ && _); discriminate. Qed.
  Lemma nub_index {A} (l : list A) i : not_ub (index l i).
  Proof. intros k E. unfold index in E. destruct (_ <=? _); [destruct (nth_error _ _)|]; discriminate. Qed.
End Nub.
Ltac nub1 := first
  [ apply nub_ok | apply nub_err | apply nub_panic | apply nub_fuel
  | apply nub_chk | apply nub_shl | apply nub_shr | apply nub_assert | apply nub_slice | apply nub_index
  | apply nub_chk_shift | assumption
  | apply nub_bind; [|intros ?]
  | match goal with
    | |- not_ub (if ?c then _ else _) => destruct c
    | |- not_ub (match ?x with _ => _ end) => destruct x
    end ].
Ltac nubs := repeat nub1.

Section Sound.
  Context {S : Type} (I : S -> Prop).
  Local Notation sound := (op_sound I).
  Lemma sound_lift {A} (o : outcome A) : not_ub o -> sound (lift o).
  Proof. intros Ho st HI. split; [exact Ho|exact HI]. Qed.
  Lemma sound_bind {A B} (c : M S A) (f : A -> M S B) : sound c -> (forall a, sound (f a)) -> sound (bind c f).
  Proof.
    intros Hc Hf st HI. destruct (Hc st HI) as [Hn HI']. unfold bind. destruct (c st) as [o st']. cbn [fst snd] in *.
    destruct o as [a|e|w|w|]; cbn [fst snd]; [apply Hf, HI'|..]; (split; [nubs|exact HI']). destruct (Hn w eq_refl).
  Qed.
  Lemma sound_value {A B} (P : A -> Prop) (c : M S A) (f : A -> M S B) : sound c ->
    (forall st a st', c st = (Ok a, st') -> P a) -> (forall a, P a -> sound (f a)) -> sound (bind c f).
  Proof.
    intros Hc Hp Hf st HI. destruct (Hc st HI) as [Hn HI']. specialize (Hp st). unfold bind. destruct (c st) as [o st']. cbn [fst snd] in *.
    destruct o as [a|e|w|w|]; cbn [fst snd]; [apply Hf; [eapply Hp; reflexivity|apply HI']|..]; (split; [nubs|exact HI']). destruct (Hn w eq_refl).
  Qed.
  Lemma sound_get {A} (f : S -> M S A) : (forall s, sound (f s)) -> sound (bind get f).
  Proof. intros Hf st HI. rewrite bind_get. apply Hf, HI. Qed.
  Lemma sound_catch {A} (c : M S A) : sound c -> sound (catch c).
  Proof.
    intros Hc st HI. destruct (Hc st HI) as [Hn HI']. unfold catch. destruct (c st) as [[a|e|w|w|] st']; cbn [fst snd] in *;
      (split; [nubs|exact HI']). destruct (Hn w eq_refl).
  Qed.
End Sound.
Lemma sound_zoom {S T A} (I : S -> Prop) (view : T -> S) (c : M S A) (d : M T A) :
  (forall st, fst (d st) = fst (c (view st)) /\ view (snd (d st)) = snd (c (view st))) ->
  op_sound I c -> op_sound (fun st => I (view st)) d.
Proof. intros H Hc st HI. destruct (H st) as [H1 H2]. destruct (Hc _ HI) as [HI' He]. rewrite H1, H2. auto. Qed.
Lemma sound_keep {S T A} (I : S -> Prop) (view : T -> S) (d : M T A) :
  (forall st, not_ub (fst (d st)) /\ view (snd (d st)) = view st) -> op_sound (fun st => I (view st)) d.
Proof. intros H st HI. destruct (H st) as [H1 H2]. rewrite H2. auto. Qed.

Ltac snd1 := lazymatch goal with
  | |- op_sound _ (ret _) => apply sound_lift; apply nub_ok
  | |- op_sound _ (fmt_err _) => apply sound_lift; apply nub_err
  | |- op_sound _ (fail _) => apply sound_lift; apply nub_err
  | |- op_sound _ (lift _) => apply sound_lift; solve [nubs]
  | |- op_sound _ (read_u8 _) => eapply rs_u8; eassumption
  | |- op_sound _ (read_u8_or_eof _) => eapply rs_eof; eassumption
  | |- op_sound _ (read_into _ _) => eapply rs_into; eassumption
  | |- op_sound _ (skip _ _) => eapply rs_skip; eassumption
  | |- op_sound _ (rb_alloc _ _ _) => eapply rs_alloc; eassumption
  | |- op_sound _ (bind get _) => apply sound_get; intros ?
  | |- op_sound _ (bind _ _) => apply sound_bind; [|intros ?]
  | |- op_sound _ (catch _) => apply sound_catch
  | |- op_sound _ (if ?c then _ else _) => destruct c
  | |- op_sound _ (match ?x with _ => _ end) => destruct x
  | |- op_sound _ _ => assumption
  end.
Ltac snds := repeat snd1.

Section Bytes.
  Context {S : Type} (I : S -> Prop) (rb : ReadBytes S) (H : reader_sound I rb).
  Lemma sound_be16 : op_sound I (read_be_u16 rb). Proof. unfold read_be_u16. snds. Qed.
  Lemma sound_be16_eof : op_sound I (read_be_u16_or_eof rb). Proof. unfold read_be_u16_or_eof. snds. Qed.
  Lemma sound_be24 : op_sound I (read_be_u24 rb). Proof. unfold read_be_u24. snds. Qed.
  Lemma sound_be32 : op_sound I (read_be_u32 rb). Proof. unfold read_be_u32. snds. Qed.
  Lemma sound_le32 : op_sound I (read_le_u32 rb). Proof. unfold read_le_u32. snds. Qed.
  Lemma sound_op o : op_sound I (run_byte_op rb o).
  Proof.
    unfold run_byte_op. destruct o; cbv zeta;
      repeat first [ apply sound_be16 | apply sound_be16_eof | apply sound_be24 | apply sound_be32 | apply sound_le32 | snd1 ].
  Qed.

  Lemma sound_crc8 : reader_sound (fun st => I (c8_inner st)) (crc8_rb rb).
  Proof.
    assert (forall A (c : M S A), op_sound I c -> op_sound (fun st => I (c8_inner st)) (c8_lift c)) as Z.
    { intros A c Hc. apply (sound_zoom I c8_inner c); [|exact Hc]. intros st. unfold c8_lift. destruct (c _); auto. }
    assert (forall b, op_sound (fun st => I (c8_inner st)) (@c8_update_state S b)) as U.
    { intros b. apply sound_keep. intros st. unfold c8_update_state. rewrite bind_get. unfold bind, lift.
      assert (not_ub (crc8_update (c8_state st) b)) as P by (unfold crc8_update; nubs).
      destruct (crc8_update (c8_state st) b) as [a|e|w|w|] eqn:Ec; cbn; split; try reflexivity; nubs.
      destruct (P w eq_refl). }
    split; cbn [crc8_rb read_u8 read_u8_or_eof read_into skip rb_alloc]; intros;
      repeat first [apply U | (apply Z; solve [snds]) | snd1].
  Qed.
  Lemma sound_crc16 : reader_sound (fun st => I (c16_inner st)) (crc16_rb rb).
  Proof.
    assert (forall A (c : M S A), op_sound I c -> op_sound (fun st => I (c16_inner st)) (c16_lift c)) as Z.
    { intros A c Hc. apply (sound_zoom I c16_inner c); [|exact Hc]. intros st. unfold c16_lift. destruct (c _); auto. }
    assert (forall b, op_sound (fun st => I (c16_inner st)) (@c16_update_state S b)) as U.
    { intros b. apply sound_keep. intros st. unfold c16_update_state. rewrite bind_get. unfold bind, lift.
      assert (not_ub (crc16_update (c16_state st) b)) as P by (unfold crc16_update; nubs).
      destruct (crc16_update (c16_state st) b) as [a|e|w|w|] eqn:Ec; cbn; split; try reflexivity; nubs.
      destruct (P w eq_refl). }
    split; cbn [crc16_rb read_u8 read_u8_or_eof read_into skip rb_alloc]; intros;
      repeat first [apply U | (apply Z; solve [snds]) | snd1].
  Qed.
End Bytes.

Section Bits.
  Context {S : Type} (I : S -> Prop) (rb : ReadBytes S) (H : reader_sound I rb) (m : build) (fuel : nat).
  Local Notation soundb := (op_sound (fun st => I (bs_reader st))).

  Lemma sound_bs_u8 : soundb (bs_read_u8 rb).
  Proof. apply (sound_zoom I bs_reader (read_u8 rb)); [|apply H]. intros st. unfold bs_read_u8. destruct (read_u8 rb _); auto. Qed.
  Lemma sound_bs_set d b : soundb (@bs_set S d b).
  Proof. apply sound_keep. intros st. split; [apply nub_ok|reflexivity]. Qed.
  Lemma nub_mask n : not_ub (mask_u8 m n). Proof. unfold mask_u8, shift_left. nubs. Qed.
  Lemma nub_left x n : not_ub (shift_left m x n). Proof. unfold shift_left. nubs. Qed.
  Lemma nub_right x n : not_ub (shift_right m x n). Proof. unfold shift_right. nubs. Qed.
  Ltac sndb1 := first [ apply sound_bs_u8 | apply sound_bs_set | (apply sound_lift; first [apply nub_mask | apply nub_left | apply nub_right]) | snd1 ].
  Ltac sndbs := repeat sndb1.
  Lemma sound_read_bit : soundb (read_bit rb m). Proof. unfold read_bit. sndbs. Qed.
  Lemma sound_unary_loop n x : soundb (read_unary_loop rb m n x).
  Proof. revert x. induction n as [|n IH]; intros x; cbn [read_unary_loop]; sndbs. apply IH. Qed.
  Lemma sound_unary : soundb (read_unary rb m fuel). Proof. unfold read_unary. sndbs. apply sound_unary_loop. Qed.
  Lemma sound_leq8 n : soundb (read_leq_u8 rb m n). Proof. unfold read_leq_u8. sndbs. Qed.
  Lemma sound_gt8 n : soundb (read_gt_u8_leq_u16 rb m n). Proof. unfold read_gt_u8_leq_u16. sndbs. Qed.
  Lemma sound_leq16 n : soundb (read_leq_u16 rb m n). Proof. unfold read_leq_u16. sndbs; apply sound_leq8. Qed.
  Lemma sound_leq32 n : soundb (read_leq_u32 rb m n). Proof. unfold read_leq_u32. sndbs; apply sound_leq16. Qed.
  Ltac sndc1 := first [ apply sound_read_bit | apply sound_unary | apply sound_leq8 | apply sound_gt8 | apply sound_leq16 | apply sound_leq32 | sndb1 ].
  Ltac sndcs := repeat sndc1.

  Lemma sound_fill (c : M (bitstream S) Z) b : soundb c -> soundb (fill c b).
  Proof. intros Hc. induction b as [|x b IH]; cbn [fill]; sndcs. Qed.
  Lemma sound_subheader : soundb (read_subframe_header rb m fuel). Proof. unfold read_subframe_header. sndcs. Qed.
  Lemma sound_rice b : soundb (decode_rice_partition rb m fuel b).
  Proof. unfold decode_rice_partition. sndcs. apply sound_fill. unfold read_rice_sample. sndcs. Qed.
  Lemma sound_rice2 b : soundb (decode_rice2_partition rb m fuel b).
  Proof. unfold decode_rice2_partition. sndcs. apply sound_fill. unfold read_rice2_sample. sndcs. Qed.
  Lemma sound_partitions part n a b c d : (forall b, soundb (part b)) -> soundb (partitions_loop part n a b c d).
  Proof. intros Hp. revert a b c d. induction n as [|n IH]; intros a b c d; cbn [partitions_loop]; sndcs; auto. Qed.
  Lemma sound_residual n b : soundb (decode_residual rb m fuel n b).
  Proof.
    unfold decode_residual. apply sound_bind; [sndcs|intros meth].
    apply (sound_value _ (fun part => forall b, soundb (part b))).
    - sndcs.
    - intros st a st' Ea. destruct (meth =? 0); [|destruct (meth =? 1)]; try discriminate; injection Ea as <- _; [apply sound_rice|apply sound_rice2].
    - intros part Hp. sndcs. apply sound_partitions, Hp.
  Qed.

  Lemma nub_sign16 x n : not_ub (extend_sign_u16 m x n). Proof. unfold extend_sign_u16. nubs. Qed.
  Lemma nub_sign32 x n : not_ub (extend_sign_u32 m x n). Proof. unfold extend_sign_u32. nubs. Qed.
  Lemma nub_fixed_loop cs n i b : not_ub (predict_fixed_loop cs n i b).
  Proof. revert i b. induction n as [|n IH]; intros i b; cbn [predict_fixed_loop]; nubs. apply IH. Qed.
  Lemma nub_fixed o b : not_ub (predict_fixed m o b).
  Proof. unfold predict_fixed, fixed_coefficients. nubs; apply nub_fixed_loop. Qed.
  Lemma nub_sum l : forall a, not_ub (checked_sum m a l).
  Proof. induction l as [|[c s] l IH]; intros a; cbn [checked_sum]; nubs. apply IH. Qed.
  Lemma nub_lpc_loop cs q n : forall i b, not_ub (lpc_loop m cs q n i b).
  Proof. induction n as [|n IH]; intros i b; cbn [lpc_loop]; unfold lpc_step; nubs; first [apply nub_sum|apply IH]. Qed.
  Lemma nub_low cs q b : not_ub (predict_lpc_low_order m cs q b).
  Proof. unfold predict_lpc_low_order. nubs; try apply nub_lpc_loop. Qed.
  Lemma nub_high cs q b : not_ub (predict_lpc_high_order m cs q b).
  Proof. unfold predict_lpc_high_order. nubs; apply nub_lpc_loop. Qed.
  Ltac sndd1 := first [ (apply sound_lift; first [apply nub_sign16 | apply nub_sign32 | apply nub_fixed | apply nub_low | apply nub_high])
    | apply sound_residual | apply sound_subheader | sndc1 ].
  Ltac sndds := repeat sndd1.
  Lemma sound_constant n b : soundb (decode_constant rb m n b). Proof. unfold decode_constant. sndds. Qed.
  Lemma sound_verbatim n b : soundb (decode_verbatim rb m n b).
  Proof. unfold decode_verbatim. sndds. apply sound_fill. unfold read_verbatim_sample. sndds. Qed.
  Lemma sound_coefficients q n : soundb (read_coefficients rb m q n).
  Proof. induction n as [|n IH]; cbn [read_coefficients]; sndds. Qed.
  Lemma sound_fixed n o b : soundb (decode_fixed rb m fuel n o b).
  Proof. unfold decode_fixed. sndds. apply sound_verbatim. Qed.
  Lemma sound_lpc n o b : soundb (decode_lpc rb m fuel n o b).
  Proof. unfold decode_lpc. sndds; first [apply sound_verbatim|apply sound_coefficients]. Qed.
  Lemma sound_decode n b : soundb (decode rb m fuel n b).
  Proof. unfold decode. sndds; first [apply sound_constant|apply sound_verbatim|apply sound_fixed|apply sound_lpc]. Qed.
  Lemma sound_decode_into n b x y : soundb (decode_into rb m fuel n b x y).
  Proof. unfold decode_into. sndds. apply sound_decode. Qed.
  Lemma sound_independent n bs k : forall ch b, soundb (independent_loop rb m fuel n bs k ch b).
  Proof. induction k as [|k IH]; intros ch b; cbn [independent_loop]; sndds; [apply sound_decode_into|apply IH]. Qed.
  Lemma sound_channels ca n bs b : soundb (decode_channels rb m fuel ca n bs b).
  Proof. unfold decode_channels, on_prefix. destruct ca; sndds; first [apply sound_independent|apply sound_decode_into]. Qed.
  Lemma sound_with_bits {A} (c : M (bitstream S) A) : soundb c -> op_sound I (with_bitstream c).
  Proof.
    intros Hc st HI. unfold with_bitstream. destruct (Hc (bs_new st) HI) as [H1 H2]. destruct (c (bs_new st)) as [o st']. auto.
  Qed.
  (** The public bit reader and subframe decoder. *)
  Lemma sound_bit_op o : soundb (run_bit_op rb m fuel o).
  Proof. unfold run_bit_op. destruct o; sndcs. Qed.
End Bits.

Section Header.
  Context {S : Type} (I : S -> Prop) (rb : ReadBytes S) (H : reader_sound I rb) (m : build).
  Lemma nub_prefix n : forall f r d k, not_ub (vli_prefix_loop m n f r d k).
  Proof. induction n as [|n IH]; intros; cbn [vli_prefix_loop]; nubs. apply IH. Qed.
  Lemma sound_rest n : forall x, op_sound I (vli_rest_loop rb m n x).
  Proof. induction n as [|n IH]; intros; cbn [vli_rest_loop]; snds. apply IH. Qed.
  Lemma sound_vli : op_sound I (read_var_length_int rb m).
  Proof. unfold read_var_length_int. snds; try apply sound_rest. apply sound_lift, nub_prefix. Qed.
End Header.

Section Frame.
  Context {S : Type} (I : S -> Prop) (rb : ReadBytes S) (H : reader_sound I rb) (m : build).
  Lemma sound_header : op_sound I (read_frame_header_or_eof rb m).
  Proof.
    assert (op_sound (fun st => I (c8_inner st)) (read_frame_header_body rb m)) as Hb.
    { pose proof (sound_crc8 I rb H) as H8. unfold read_frame_header_body, crc8_crc. cbv zeta.
      repeat first [ (eapply sound_be16_eof; eassumption) | (eapply sound_be16; eassumption) | (eapply sound_vli; eassumption) | snd1 ]. }
    intros st HI. unfold read_frame_header_or_eof, with_crc8. destruct (Hb (crc8_new st) HI) as (H1 & H2).
    destruct (read_frame_header_body rb m (crc8_new st)) as [o st']. auto.
  Qed.
End Frame.

Section Next.
  Context {S : Type} (I : S -> Prop) (rb : ReadBytes S) (H : reader_sound I rb) (m : build) (fuel : nat).
  Lemma sound_next buffer : op_sound I (read_next_or_eof rb m fuel buffer).
  Proof.
    assert (op_sound (fun st => I (c16_inner st)) (read_next_body rb m fuel buffer)) as Hb.
    { pose proof (sound_crc16 I rb H) as H16. unfold read_next_body, crc16_crc, block_new. cbv zeta.
      repeat first [ (eapply sound_be16; eassumption) | (eapply sound_header; eassumption)
        | (apply sound_with_bits; eapply (sound_channels (fun st => I (c16_inner st))); exact H16) | snd1 ]. }
    intros st HI. unfold read_next_or_eof, with_crc16. destruct (Hb (crc16_new st) HI) as (H1 & H2).
    destruct (read_next_body rb m fuel buffer (crc16_new st)) as [o st']. auto.
  Qed.

  Local Notation sounds := (op_sound (fun it => I (fs_frame_reader it))).
  Lemma sound_yield : sounds (@fs_yield S).
  Proof. unfold fs_yield, block_sample. snds. Qed.
  Lemma sound_samples : sounds (fs_next rb m fuel).
  Proof.
    assert (forall x, sounds (@fs_set_channel S x)) as K1 by (intros x; apply sound_keep; intros; split; [nubs|reflexivity]).
    assert (forall x, sounds (@fs_set_sample S x)) as K2 by (intros x; apply sound_keep; intros; split; [nubs|reflexivity]).
    assert (forall x, sounds (@fs_set_block S x)) as K3 by (intros x; apply sound_keep; intros; split; [nubs|reflexivity]).
    assert (forall b, sounds (fs_lift (read_next_or_eof rb m fuel b))) as K4.
    { intros b. apply (sound_zoom I fs_frame_reader (read_next_or_eof rb m fuel b)); [|apply sound_next].
      intros st. unfold fs_lift. destruct (read_next_or_eof _ _ _ _ _); auto. }
    unfold fs_next. repeat first [ apply K1 | apply K2 | apply K3 | apply K4 | apply sound_yield | snd1 ].
    apply sound_keep. intros; split; [nubs|reflexivity].
  Qed.
  Lemma sound_call c : op_sound (fun s => I (source_of s)) (session_step rb m fuel c).
  Proof.
    intros s HI. unfold session_step. destruct c as [buffer| |]; cbv zeta.
    - unfold fr_blocks. unfold source_of in HI. unfold input_of in HI. destruct (fr_input (drop_samples s)) as [inp|inp] eqn:Ei.
      + destruct (sound_next buffer inp HI) as [H1 H2]. destruct (read_next_or_eof rb m fuel buffer inp) as [o inp']. cbn [fst snd] in *.
        unfold source_of, drop_samples. cbn [se_samples se_reader]. rewrite !input_with. split; [nubs|exact H2].
      + cbn [obind fst snd]. split; [nubs|]. unfold source_of, drop_samples at 1. cbn [se_samples se_reader]. unfold input_of. rewrite Ei. exact HI.
    - assert (forall it, I (fs_frame_reader it) ->
        let r := (let (o, it') := fs_next rb m fuel it in
          (x <~ o ;; match x with Some (ROk v) => Ok (GotSample (Some v)) | Some (RErr e) => Err e | None => Ok (GotSample None) end,
           mkSession (se_reader s) (Some it'))) in
        not_ub (fst r) /\ I (source_of (snd r))) as X.
      { intros it Hit. destruct (sound_samples it Hit) as (H1 & H2).
        destruct (fs_next rb m fuel it) as [o it']. cbn [fst snd] in *. split; [nubs|].
        unfold source_of, drop_samples. cbn [se_samples se_reader]. rewrite input_with. exact H2. }
      unfold source_of, drop_samples in HI. destruct (se_samples s) as [it|] eqn:Es.
      + apply X. rewrite input_with in HI. exact HI.
      + unfold fr_samples. destruct (fr_input (se_reader s)) as [i|i] eqn:Ei.
        * apply X. unfold input_of in HI. rewrite Ei in HI. exact HI.
        * cbn. split; [nubs|]. unfold source_of, drop_samples. rewrite Es. exact HI.
    - cbn [fst snd]. split; [nubs|]. unfold source_of at 1. unfold drop_samples at 1. cbn. exact HI.
  Qed.
End Next.

Lemma sound_history {S O A} (I : S -> Prop) (f : O -> M S A) : (forall o, op_sound I (f o)) ->
  forall ops st, I st -> Forall not_ub (fst (history_all f ops st)) /\ I (snd (history_all f ops st)).
Proof.
  intros H. induction ops as [|o ops IH]; intros st HI; cbn [history_all]; [split; [constructor|exact HI]|].
  destruct (H o st HI) as [H1 H2]. destruct (f o st) as [r st']. cbn [fst snd] in *. destruct (IH st' H2) as [H3 H4].
  destruct (history_all f ops st') as [rs st'']. cbn [fst snd] in *. auto.
Qed.

Section Metadata.
  Context {S : Type} (I : S -> Prop) (rb : ReadBytes S) (H : reader_sound I rb) (m : build) (un : nat -> list Z).
  Lemma nub_utf8 l : not_ub (from_utf8 l). Proof. unfold from_utf8. nubs. Qed.
  Ltac sndm1 := first [ (eapply sound_be16; eassumption) | (eapply sound_be24; eassumption) | (eapply sound_be32; eassumption) | (eapply sound_le32; eassumption)
    | (apply sound_lift, nub_utf8) | snd1 ].
  Ltac sndms := repeat sndm1.
  Lemma sound_vorbis_loop n : forall a b c, op_sound I (vorbis_loop rb m un n a b c).
  Proof. induction n as [|n IH]; intros; cbn [vorbis_loop]; sndms; apply IH. Qed.
  Lemma sound_block_header : op_sound I (read_metadata_block_header rb).
  Proof. unfold read_metadata_block_header. sndms. Qed.
  Lemma sound_block ty n : op_sound I (read_metadata_block rb m un ty n).
  Proof.
    unfold read_metadata_block, read_streaminfo_block, read_padding_block, read_application_block, read_vorbis_comment_block.
    repeat first [ apply sound_vorbis_loop | sndm1 ].
  Qed.
  Lemma sound_block_with_header : op_sound I (read_metadata_block_with_header rb m un).
  Proof. unfold read_metadata_block_with_header. sndms; [apply sound_block_header|apply sound_block]. Qed.
  Lemma sound_stream_header : op_sound I (read_stream_header rb).
  Proof. unfold read_stream_header. sndms. Qed.

  Local Notation soundr := (op_sound (fun st => I (mr_input st))).
  Lemma sound_mr_lift {A} (c : M S A) : op_sound I c -> soundr (mr_lift c).
  Proof. intros Hc. apply (sound_zoom I mr_input c); [|exact Hc]. intros st. unfold mr_lift. destruct (c _); auto. Qed.
  Lemma sound_set_done b : soundr (@mr_set_done S b).
  Proof. apply sound_keep. intros st. split; [apply nub_ok|reflexivity]. Qed.
  Lemma sound_mr_next : soundr (mr_next rb m un).
  Proof.
    unfold mr_next, mr_read_next. repeat first [apply sound_mr_lift | apply sound_set_done | apply sound_block_header | apply sound_block | snd1].
  Qed.
  Lemma nub_result {A} (r : result A) : not_ub (of_result r). Proof. destruct r; cbn; nubs. Qed.
  Lemma sound_loop n : forall opts vc, soundr (metadata_loop rb m un n opts vc).
  Proof.
    induction n as [|n IH]; intros opts vc; cbn [metadata_loop];
      repeat first [apply sound_mr_next | apply IH | (apply sound_lift, nub_result) | snd1].
  Qed.
  Lemma sound_metadata n opts : soundr (read_metadata rb m un n opts).
  Proof.
    unfold read_metadata. repeat first [apply sound_mr_next | apply sound_loop | (apply sound_lift, nub_result) | snd1].
  Qed.
  Lemma sound_new n opts : op_sound I (new_ext rb m un n opts).
  Proof.
    unfold new_ext. repeat first [apply sound_stream_header | snd1].
    intros st HI. unfold with_mreader. destruct (sound_metadata n opts (mr_new st) HI) as [H1 H2].
    destruct (read_metadata rb m un n opts (mr_new st)) as [o st']. auto.
  Qed.
  (** Opening, and then any calls. *)
  Lemma sound_session n opts fuel calls st r st' : I st -> new_ext rb m un n opts st = (Ok r, st') ->
    Forall not_ub (fst (history_all (session_step rb m fuel) calls (mkSession r None))).
  Proof.
    intros HI Hr. destruct (sound_new n opts st HI) as [_ H1]. rewrite Hr in H1. cbn [snd] in H1.
    apply (sound_history (fun s => I (source_of s))); [intros c; apply sound_call, H|].
    unfold source_of, drop_samples. cbn [se_samples se_reader]. rewrite (new_input _ _ _ _ _ _ _ _ Hr). exact H1.
  Qed.
  Lemma sound_items n st : I (mr_input st) -> Forall not_ub (fst (nexts (mr_next rb m un) n st)).
  Proof.
    intros HI. unfold nexts. apply (sound_history (fun st => I (mr_input st))); [|exact HI]. intros _. apply sound_mr_next.
  Qed.
End Metadata.
