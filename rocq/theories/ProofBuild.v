(** Debug and release builds compute the same unless the debug build panics. *)
From Verif Require Export SpecBuild ModelLib.
From Verif Require Import ProofBase.
From Verif Require Import SpecReader.

(** [o] in a debug build, [o'] in a release build. *)
Definition oagree {A} (o o' : outcome A) : Prop := panicked o \/ o = o'.
Definition agree {S A} (c c' : M S A) : Prop := forall st, panicked (fst (c st)) \/ c st = c' st.

Section Outcomes.
  Lemma oagree_refl {A} (o : outcome A) : oagree o o. Proof. right. reflexivity. Qed.
  Lemma oagree_bind {A B} (o o' : outcome A) (f f' : A -> outcome B) : oagree o o' -> (forall a, oagree (f a) (f' a)) ->
    oagree (obind o f) (obind o' f').
  Proof.
    intros [[w ->]| <-] Hf; [left; exists w; reflexivity|]. destruct o; cbn; try (right; reflexivity). apply Hf.
  Qed.
  (** Checks that only a debug build makes. *)
  Lemma oagree_check {B} (o : outcome unit) (o' : outcome unit) (f f' : unit -> outcome B) :
    panicked o \/ o = Ok tt -> o' = Ok tt -> oagree (f tt) (f' tt) -> oagree (obind o f) (obind o' f').
  Proof. intros [[w ->]| ->] -> H; [left; exists w; reflexivity|exact H]. Qed.
  Lemma oagree_chk f x : oagree (chk Debug f x) (chk Release f x).
  Proof. unfold chk. destruct (_ =? _); [right; reflexivity|left; eexists; reflexivity]. Qed.
  Lemma oagree_chk_shift w s : oagree (chk_shift Debug w s) (chk_shift Release w s).
  Proof. unfold chk_shift. destruct (_ && _); [right; reflexivity|left; eexists; reflexivity]. Qed.
  Lemma oagree_assert b : oagree (debug_assert Debug b) (debug_assert Release b).
  Proof. unfold debug_assert. destruct b; [right; reflexivity|left; eexists; reflexivity]. Qed.
  Lemma oagree_shl f w x s : oagree (shl Debug f w x s) (shl Release f w x s).
  Proof. unfold shl. apply oagree_bind; [apply oagree_chk_shift|intros; apply oagree_refl]. Qed.
  Lemma oagree_shr w x s : oagree (shr Debug w x s) (shr Release w x s).
  Proof. unfold shr. apply oagree_bind; [apply oagree_chk_shift|intros; apply oagree_refl]. Qed.
End Outcomes.

Ltac oag1 := lazymatch goal with
  | |- oagree ?o ?o => apply oagree_refl
  | |- oagree (chk _ _ _) _ => apply oagree_chk
  | |- oagree (shl _ _ _ _ _) _ => apply oagree_shl
  | |- oagree (shr _ _ _ _) _ => apply oagree_shr
  | |- oagree (debug_assert _ _) _ => apply oagree_assert
  | |- oagree (obind _ _) (obind _ _) => apply oagree_bind; [|intros ?]
  | |- oagree (if ?c then _ else _) _ => destruct c
  | |- oagree (match ?x with _ => _ end) _ => destruct x
  end.
Ltac oag := repeat oag1.

Section Agree.
  Context {S : Type}.
  Local Notation agree := (@agree S _).
  Lemma agree_refl {A} (c : M S A) : agree c c. Proof. right. reflexivity. Qed.
  Lemma agree_lift {A} (o o' : outcome A) : oagree o o' -> agree (lift o) (lift o').
  Proof. intros [H| <-] st; [left; exact H|right; reflexivity]. Qed.
  Lemma agree_bind {A B} (c c' : M S A) (f f' : A -> M S B) : agree c c' -> (forall a, agree (f a) (f' a)) -> agree (bind c f) (bind c' f').
  Proof.
    intros Hc Hf st. destruct (Hc st) as [[w Hw]|E].
    - left. exists w. unfold bind. destruct (c st) as [o s]. cbn [fst] in Hw. rewrite Hw. reflexivity.
    - unfold bind. rewrite <- E. destruct (c st) as [o s]. destruct o as [a| | | |]; try (right; reflexivity). apply Hf.
  Qed.
  Lemma agree_ret {A B} (a a' : A) (f f' : A -> M S B) : agree (f a) (f' a') -> agree (bind (ret a) f) (bind (ret a') f').
  Proof. intros H st. exact (H st). Qed.
  Lemma agree_get {A} (f f' : S -> M S A) : (forall s, agree (f s) (f' s)) -> agree (bind get f) (bind get f').
  Proof. intros H st. exact (H st st). Qed.
  Lemma agree_check {B} (o : outcome unit) (c : M S unit) (f f' : unit -> M S B) :
    c = lift o -> panicked o \/ o = Ok tt -> agree (f tt) (f' tt) -> agree (bind c f) (bind (ret tt) f').
  Proof. intros -> [[w ->]| ->] H st; [left; exists w; reflexivity|exact (H st)]. Qed.
  Lemma agree_catch {A} (c c' : M S A) : agree c c' -> agree (catch c) (catch c').
  Proof.
    intros H st. unfold catch. destruct (H st) as [[w Hw]|E]; [left|right; rewrite E; reflexivity].
    exists w. destruct (c st) as [o s]. cbn [fst] in Hw. rewrite Hw. reflexivity.
  Qed.
End Agree.

(** Running on a component of the state. *)
Lemma agree_zoom {S T A} (view : T -> S) (put : T -> S -> T) (c c' : M S A) :
  agree c c' -> agree (fun st => let (o, s) := c (view st) in (o, put st s)) (fun st => let (o, s) := c' (view st) in (o, put st s)).
Proof.
  intros H st. destruct (H (view st)) as [[w Hw]|E]; [left|right; rewrite E; reflexivity].
  exists w. destruct (c (view st)) as [o s]. cbn [fst] in Hw. rewrite Hw. reflexivity.
Qed.

Record agrees {S} (rb rb' : ReadBytes S) : Prop := {
  ag_u8 : agree (read_u8 rb) (read_u8 rb');
  ag_eof : agree (read_u8_or_eof rb) (read_u8_or_eof rb');
  ag_into : forall b, agree (read_into rb b) (read_into rb' b);
  ag_skip : forall n, agree (skip rb n) (skip rb' n);
  ag_alloc : forall n sz, agree (rb_alloc rb n sz) (rb_alloc rb' n sz)
}.

Ltac ag1 := lazymatch goal with
  | |- agree ?c ?c => apply agree_refl
  | |- agree (lift _) (lift _) => apply agree_lift; solve [oag]
  | |- agree (read_u8 _) _ => apply ag_u8; assumption
  | |- agree (read_u8_or_eof _) _ => apply ag_eof; assumption
  | |- agree (read_into _ _) _ => apply ag_into; assumption
  | |- agree (skip _ _) _ => apply ag_skip; assumption
  | |- agree (rb_alloc _ _ _) _ => apply ag_alloc; assumption
  | |- agree (bind get _) (bind get _) => apply agree_get; intros ?
  | |- agree (bind _ _) (bind _ _) => apply agree_bind; [|intros ?]
  | |- agree (if ?c then _ else _) _ => destruct c
  | |- agree (match ?x with _ => _ end) _ => destruct x
  | |- agree _ _ => assumption
  end.
Ltac ag := repeat ag1.

(** * Readers *)
Section Readers.
  Lemma agree_br_u8 : agree (br_read_u8 Debug) (br_read_u8 Release).
  Proof. unfold br_read_u8. ag. Qed.
  Lemma agree_br_eof : agree (br_read_u8_or_eof Debug) (br_read_u8_or_eof Release).
  Proof. unfold br_read_u8_or_eof. ag. apply agree_br_u8. Qed.
  Lemma agree_br_into_loop n : forall b k, agree (br_read_into_loop Debug n b k) (br_read_into_loop Release n b k).
  Proof. induction n as [|n IH]; intros b k; cbn [br_read_into_loop]; ag; apply IH. Qed.
  Lemma agree_br_skip_loop n : forall k, agree (br_skip_loop Debug n k) (br_skip_loop Release n k).
  Proof. induction n as [|n IH]; intros k; cbn [br_skip_loop]; ag; apply IH. Qed.
  Lemma br_agrees : agrees (br_rb Debug) (br_rb Release).
  Proof.
    split; cbn [br_rb read_u8 read_u8_or_eof read_into skip rb_alloc]; intros.
    - apply agree_br_u8.
    - apply agree_br_eof.
    - unfold br_read_into. ag. apply agree_br_into_loop.
    - unfold br_skip. ag. apply agree_br_skip_loop.
    - ag.
  Qed.
  Lemma cu_agrees : agrees (cu_rb Debug) (cu_rb Release).
  Proof.
    split; cbn [cu_rb read_u8 read_u8_or_eof read_into skip rb_alloc]; intros;
      unfold cu_read_u8, cu_read_u8_or_eof, cu_read_into, cu_skip; ag.
  Qed.
End Readers.

Section Bytes.
  Context {S : Type} (rb rb' : ReadBytes S) (H : agrees rb rb').
  Lemma agree_be16 : agree (read_be_u16 rb) (read_be_u16 rb'). Proof. unfold read_be_u16. ag. Qed.
  Lemma agree_be16_eof : agree (read_be_u16_or_eof rb) (read_be_u16_or_eof rb'). Proof. unfold read_be_u16_or_eof. ag. Qed.
  Lemma agree_be24 : agree (read_be_u24 rb) (read_be_u24 rb'). Proof. unfold read_be_u24. ag. Qed.
  Lemma agree_be32 : agree (read_be_u32 rb) (read_be_u32 rb'). Proof. unfold read_be_u32. ag. Qed.
  Lemma agree_le32 : agree (read_le_u32 rb) (read_le_u32 rb'). Proof. unfold read_le_u32. ag. Qed.
  Lemma agree_c8 {A} (c c' : M S A) : agree c c' -> agree (c8_lift c) (c8_lift c').
  Proof. apply (agree_zoom c8_inner (fun st s => mkCrc8 s (c8_state st))). Qed.
  Lemma agree_c16 {A} (c c' : M S A) : agree c c' -> agree (c16_lift c) (c16_lift c').
  Proof. apply (agree_zoom c16_inner (fun st s => mkCrc16 s (c16_state st))). Qed.
  Lemma agrees_crc8 : agrees (crc8_rb rb) (crc8_rb rb').
  Proof. split; cbn [crc8_rb read_u8 read_u8_or_eof read_into skip rb_alloc]; intros; ag; apply agree_c8, H. Qed.
  Lemma agrees_crc16 : agrees (crc16_rb rb) (crc16_rb rb').
  Proof. split; cbn [crc16_rb read_u8 read_u8_or_eof read_into skip rb_alloc]; intros; ag; apply agree_c16, H. Qed.
End Bytes.

(** * Bits and subframes *)
Section Bits.
  Context {S : Type} (rb rb' : ReadBytes S) (H : agrees rb rb') (fuel : nat).
  Lemma oagree_left x s : oagree (shift_left Debug x s) (shift_left Release x s). Proof. unfold shift_left. oag. Qed.
  Lemma oagree_right x s : oagree (shift_right Debug x s) (shift_right Release x s). Proof. unfold shift_right. oag. Qed.
  Lemma oagree_mask n : oagree (mask_u8 Debug n) (mask_u8 Release n). Proof. unfold mask_u8. oag. apply oagree_left. Qed.
  Lemma agree_bs_u8 : agree (bs_read_u8 rb) (bs_read_u8 rb').
  Proof. apply (agree_zoom bs_reader (fun st s => mkBS s (bs_data st) (bs_bits_left st))). apply H. Qed.
  Ltac agb1 := first [ apply agree_bs_u8 | (apply agree_lift; first [apply oagree_mask|apply oagree_left|apply oagree_right]) | ag1 ].
  Ltac agb := repeat agb1.
  Lemma agree_bit : agree (read_bit rb Debug) (read_bit rb' Release). Proof. unfold read_bit. agb. Qed.
  Lemma agree_unary_loop n : forall x, agree (read_unary_loop rb Debug n x) (read_unary_loop rb' Release n x).
  Proof. induction n as [|n IH]; intros x; cbn [read_unary_loop]; agb. apply IH. Qed.
  Lemma agree_unary : agree (read_unary rb Debug fuel) (read_unary rb' Release fuel).
  Proof. unfold read_unary. agb. apply agree_unary_loop. Qed.
  Lemma mask_total n : panicked (mask_u8 Debug n) \/ exists k, mask_u8 Debug n = Ok k.
  Proof.
    unfold mask_u8, shift_left, shl, chk_shift, chk, debug_assert.
    repeat (match goal with |- context[if ?c then _ else _] => destruct c end; cbn [obind]);
    first [left; eexists; reflexivity|right; eexists; reflexivity].
  Qed.
  Lemma agree_leq8 n : agree (read_leq_u8 rb Debug n) (read_leq_u8 rb' Release n).
  Proof.
    unfold read_leq_u8. apply agree_bind; [ag|intros _]. apply agree_get. intros st. apply agree_bind; [agb|intros x].
    apply agree_get. intros st'. apply agree_bind; [ag|intros _].
    eapply (agree_check (mask <~ mask_u8 Debug (bs_bits_left st') ;; debug_assert Debug (Z.land (bs_data st') (255 - mask) =? 0))).
    - destruct (mask_u8 Debug (bs_bits_left st')); reflexivity.
    - destruct (mask_total (bs_bits_left st')) as [[w ->]|[k ->]]; [left; exists w; reflexivity|].
      cbn [obind]. unfold debug_assert. destruct (_ =? _); [right; reflexivity|left; eexists; reflexivity].
    - agb.
  Qed.
  Lemma agree_gt8 n : agree (read_gt_u8_leq_u16 rb Debug n) (read_gt_u8_leq_u16 rb' Release n).
  Proof. unfold read_gt_u8_leq_u16. agb. Qed.
  Lemma agree_leq16 n : agree (read_leq_u16 rb Debug n) (read_leq_u16 rb' Release n).
  Proof. unfold read_leq_u16. agb; apply agree_leq8. Qed.
  Lemma agree_leq32 n : agree (read_leq_u32 rb Debug n) (read_leq_u32 rb' Release n).
  Proof. unfold read_leq_u32. agb; apply agree_leq16. Qed.
  Ltac agc1 := first [ apply agree_bit | apply agree_unary | apply agree_leq8 | apply agree_gt8 | apply agree_leq16 | apply agree_leq32 | agb1 ].
  Ltac agc := repeat agc1.

  Lemma agree_fill (c c' : M (bitstream S) Z) b : agree c c' -> agree (fill c b) (fill c' b).
  Proof. intros Hc. induction b as [|x b IH]; cbn [fill]; agc. Qed.
  Lemma agree_subheader : agree (read_subframe_header rb Debug fuel) (read_subframe_header rb' Release fuel).
  Proof. unfold read_subframe_header. agc. Qed.
  Lemma agree_rice b : agree (decode_rice_partition rb Debug fuel b) (decode_rice_partition rb' Release fuel b).
  Proof. unfold decode_rice_partition. agc. apply agree_fill. unfold read_rice_sample. agc. Qed.
  Lemma agree_rice2 b : agree (decode_rice2_partition rb Debug fuel b) (decode_rice2_partition rb' Release fuel b).
  Proof. unfold decode_rice2_partition. agc. apply agree_fill. unfold read_rice2_sample. agc. Qed.
  Lemma agree_partitions (part part' : list Z -> M (bitstream S) (list Z)) n : (forall b, agree (part b) (part' b)) ->
    forall a b c d, agree (partitions_loop part n a b c d) (partitions_loop part' n a b c d).
  Proof. intros Hp. induction n as [|n IH]; intros a b c d; cbn [partitions_loop]; agc; auto. Qed.
  Lemma agree_residual n b : agree (decode_residual rb Debug fuel n b) (decode_residual rb' Release fuel n b).
  Proof.
    assert (forall part part' : list Z -> M (bitstream S) (list Z), (forall b, agree (part b) (part' b)) -> forall order,
      agree (n_partitions <- lift (shl Debug u32 32 1 order) ;; n_samples_per_partition <- lift (shr Debug 16 n order) ;;
             npm1 <- lift (chk Debug u32 (n_partitions - 1)) ;;
             if negb (Z.land n (u16 npm1) =? 0) then fmt_err "invalid partition order"
             else (prod <- lift (chk Debug u32 (n_partitions * n_samples_per_partition)) ;; lift (debug_assert Debug (prod =? n))) ;;;
               n_warm_up <- lift (chk Debug u16 (n - u16 (len b))) ;;
               if n_samples_per_partition <? n_warm_up then fmt_err "invalid residual"
               else l <- lift (chk Debug u16 (n_samples_per_partition - n_warm_up)) ;;
                 partitions_loop part (Z.to_nat n_partitions) 0 l n_samples_per_partition b)
            (n_partitions <- lift (shl Release u32 32 1 order) ;; n_samples_per_partition <- lift (shr Release 16 n order) ;;
             npm1 <- lift (chk Release u32 (n_partitions - 1)) ;;
             if negb (Z.land n (u16 npm1) =? 0) then fmt_err "invalid partition order"
             else ret tt ;;;
               n_warm_up <- lift (chk Release u16 (n - u16 (len b))) ;;
               if n_samples_per_partition <? n_warm_up then fmt_err "invalid residual"
               else l <- lift (chk Release u16 (n_samples_per_partition - n_warm_up)) ;;
                 partitions_loop part' (Z.to_nat n_partitions) 0 l n_samples_per_partition b)) as Hrest.
    { intros part part' Hp order. do 3 (apply agree_bind; [ag|intros ?]). ag1; [ag|].
      eapply (agree_check (prod <~ chk Debug u32 (a * a0) ;; debug_assert Debug (prod =? n))).
      - destruct (chk Debug u32 (a * a0)); reflexivity.
      - unfold chk. destruct (_ =? _); [|left; eexists; reflexivity]. cbn [obind]. unfold debug_assert. destruct (_ =? _); [right; reflexivity|left; eexists; reflexivity].
      - ag. apply agree_partitions, Hp. }
    unfold decode_residual. apply agree_bind; [agc|intros meth].
    destruct (meth =? 0); [|destruct (meth =? 1); [|intros st; right; reflexivity]]; apply agree_ret; (apply agree_bind; [agc|intros order]); apply Hrest; [apply agree_rice|apply agree_rice2].
  Qed.

  Lemma oagree_sign16 x n : oagree (extend_sign_u16 Debug x n) (extend_sign_u16 Release x n). Proof. unfold extend_sign_u16. oag. Qed.
  Lemma oagree_sign32 x n : oagree (extend_sign_u32 Debug x n) (extend_sign_u32 Release x n). Proof. unfold extend_sign_u32. oag. Qed.
  Lemma oagree_fixed o b : oagree (predict_fixed Debug o b) (predict_fixed Release o b). Proof. unfold predict_fixed. oag. Qed.
  Lemma oagree_sum l : forall a, oagree (checked_sum Debug a l) (checked_sum Release a l).
  Proof. induction l as [|[c s] l IH]; intros a; cbn [checked_sum]; oag. apply IH. Qed.
  Lemma oagree_lpc_loop cs q n : forall i b, oagree (lpc_loop Debug cs q n i b) (lpc_loop Release cs q n i b).
  Proof. induction n as [|n IH]; intros i b; cbn [lpc_loop]; unfold lpc_step; oag; first [apply oagree_sum|apply IH]. Qed.
  Lemma oagree_low cs q b : oagree (predict_lpc_low_order Debug cs q b) (predict_lpc_low_order Release cs q b).
  Proof. unfold predict_lpc_low_order. oag; apply oagree_lpc_loop. Qed.
  Lemma oagree_high cs q b : oagree (predict_lpc_high_order Debug cs q b) (predict_lpc_high_order Release cs q b).
  Proof. unfold predict_lpc_high_order. oag; apply oagree_lpc_loop. Qed.
  Ltac agd1 := first [ (apply agree_lift; first [apply oagree_sign16 | apply oagree_sign32 | apply oagree_fixed | apply oagree_low | apply oagree_high])
    | apply agree_residual | apply agree_subheader | agc1 ].
  Ltac agd := repeat agd1.
  Lemma agree_constant n b : agree (decode_constant rb Debug n b) (decode_constant rb' Release n b). Proof. unfold decode_constant. agd. Qed.
  Lemma agree_verbatim n b : agree (decode_verbatim rb Debug n b) (decode_verbatim rb' Release n b).
  Proof. unfold decode_verbatim. agd. apply agree_fill. unfold read_verbatim_sample. agd. Qed.
  Lemma agree_coefficients q n : agree (read_coefficients rb Debug q n) (read_coefficients rb' Release q n).
  Proof. induction n as [|n IH]; cbn [read_coefficients]; agd. Qed.
  Lemma agree_fixed n o b : agree (decode_fixed rb Debug fuel n o b) (decode_fixed rb' Release fuel n o b).
  Proof. unfold decode_fixed. agd. apply agree_verbatim. Qed.
  Lemma agree_lpc n o b : agree (decode_lpc rb Debug fuel n o b) (decode_lpc rb' Release fuel n o b).
  Proof. unfold decode_lpc. agd; first [apply agree_verbatim|apply agree_coefficients]. Qed.
  Lemma agree_decode n b : agree (decode rb Debug fuel n b) (decode rb' Release fuel n b).
  Proof. unfold decode. agd; first [apply agree_constant|apply agree_verbatim|apply agree_fixed|apply agree_lpc]. Qed.
  Lemma agree_decode_into n b x y : agree (decode_into rb Debug fuel n b x y) (decode_into rb' Release fuel n b x y).
  Proof. unfold decode_into. agd. apply agree_decode. Qed.
  Lemma agree_independent n bs k : forall ch b, agree (independent_loop rb Debug fuel n bs k ch b) (independent_loop rb' Release fuel n bs k ch b).
  Proof. induction k as [|k IH]; intros ch b; cbn [independent_loop]; agd; [apply agree_decode_into|apply IH]. Qed.
  Lemma agree_channels ca n bs b : agree (decode_channels rb Debug fuel ca n bs b) (decode_channels rb' Release fuel ca n bs b).
  Proof. unfold decode_channels. destruct ca; agd; first [apply agree_independent|apply agree_decode_into]. Qed.
End Bits.

(** * Frames *)
Lemma agree_with_bits {S A} (c c' : M (bitstream S) A) : agree c c' -> agree (with_bitstream c) (with_bitstream c').
Proof.
  intros H st. unfold with_bitstream. destruct (H (bs_new st)) as [[w Hw]|E]; [left|right; rewrite E; reflexivity].
  exists w. destruct (c (bs_new st)) as [o s]. exact Hw.
Qed.
Section Frame.
  Context {S : Type} (rb rb' : ReadBytes S) (H : agrees rb rb').
  Lemma oagree_prefix n : forall f r d k, oagree (vli_prefix_loop Debug n f r d k) (vli_prefix_loop Release n f r d k).
  Proof. induction n as [|n IH]; intros; cbn [vli_prefix_loop]; oag. apply IH. Qed.
  Lemma agree_rest n : forall x, agree (vli_rest_loop rb Debug n x) (vli_rest_loop rb' Release n x).
  Proof. induction n as [|n IH]; intros; cbn [vli_rest_loop]; ag. apply IH. Qed.
  Lemma agree_vli : agree (read_var_length_int rb Debug) (read_var_length_int rb' Release).
  Proof. unfold read_var_length_int. ag; try apply agree_rest. apply agree_lift, oagree_prefix. Qed.
End Frame.
Section Header.
  Context {S : Type} (rb rb' : ReadBytes S) (H : agrees rb rb').
  Lemma agree_header : agree (read_frame_header_or_eof rb Debug) (read_frame_header_or_eof rb' Release).
  Proof.
    assert (agree (read_frame_header_body rb Debug) (read_frame_header_body rb' Release)) as Hb.
    { pose proof (agrees_crc8 rb rb' H) as H8. unfold read_frame_header_body, crc8_crc. cbv zeta.
      repeat first [ (apply agree_be16; assumption) | (apply agree_be16_eof; assumption) | (apply agree_vli; assumption) | ag1 ]. }
    intros st. unfold read_frame_header_or_eof, with_crc8. destruct (Hb (crc8_new st)) as [[w Hw]|E]; [left|right; rewrite E; reflexivity].
    exists w. destruct (read_frame_header_body rb Debug (crc8_new st)) as [o s]. exact Hw.
  Qed.
End Header.
Section Next.
  Context {S : Type} (rb rb' : ReadBytes S) (H : agrees rb rb') (fuel : nat).
  Lemma agree_next buffer : agree (read_next_or_eof rb Debug fuel buffer) (read_next_or_eof rb' Release fuel buffer).
  Proof.
    assert (agree (read_next_body rb Debug fuel buffer) (read_next_body rb' Release fuel buffer)) as Hb.
    { pose proof (agrees_crc16 rb rb' H) as H16. unfold read_next_body, crc16_crc. cbv zeta.
      repeat first [ (apply agree_be16; assumption) | (apply agree_header; assumption)
        | (apply agree_with_bits; apply agree_channels; assumption) | ag1 ]. }
    intros st. unfold read_next_or_eof, with_crc16. destruct (Hb (crc16_new st)) as [[w Hw]|E]; [left|right; rewrite E; reflexivity].
    exists w. destruct (read_next_body rb Debug fuel buffer (crc16_new st)) as [o s]. exact Hw.
  Qed.
End Next.

(** * Metadata *)
Section Metadata.
  Context {S : Type} (rb rb' : ReadBytes S) (H : agrees rb rb') (un : nat -> list Z).
  Ltac agm1 := first [ (apply agree_be16; assumption) | (apply agree_be24; assumption) | (apply agree_be32; assumption) | (apply agree_le32; assumption) | ag1 ].
  Ltac agm := repeat agm1.
  Lemma agree_vorbis_loop n : forall a b c, agree (vorbis_loop rb Debug un n a b c) (vorbis_loop rb' Release un n a b c).
  Proof. induction n as [|n IH]; intros; cbn [vorbis_loop]; agm; apply IH. Qed.
  Lemma agree_block_header : agree (read_metadata_block_header rb) (read_metadata_block_header rb').
  Proof. unfold read_metadata_block_header. agm. Qed.
  Lemma agree_block ty n : agree (read_metadata_block rb Debug un ty n) (read_metadata_block rb' Release un ty n).
  Proof.
    unfold read_metadata_block, read_streaminfo_block, read_padding_block, read_application_block, read_vorbis_comment_block.
    repeat first [ apply agree_vorbis_loop | agm1 ].
  Qed.
  Lemma agree_block_with_header : agree (read_metadata_block_with_header rb Debug un) (read_metadata_block_with_header rb' Release un).
  Proof. unfold read_metadata_block_with_header. agm; [apply agree_block_header|apply agree_block]. Qed.
  Lemma agree_stream_header : agree (read_stream_header rb) (read_stream_header rb').
  Proof. unfold read_stream_header. agm. Qed.
  Lemma agree_mr_lift {A} (c c' : M S A) : agree c c' -> agree (mr_lift c) (mr_lift c').
  Proof. apply (agree_zoom mr_input (fun st s => mkMr s (mr_done st))). Qed.
  Lemma agree_read_next : agree (mr_read_next rb Debug un) (mr_read_next rb' Release un).
  Proof. unfold mr_read_next. ag; apply agree_mr_lift; [apply agree_block_header|apply agree_block]. Qed.
  Lemma agree_mr_next : agree (mr_next rb Debug un) (mr_next rb' Release un).
  Proof. unfold mr_next. ag. apply agree_catch, agree_read_next. Qed.
  Lemma agree_loop n : forall opts vc, agree (metadata_loop rb Debug un n opts vc) (metadata_loop rb' Release un n opts vc).
  Proof. induction n as [|n IH]; intros opts vc; cbn [metadata_loop]; ag; first [apply agree_mr_next|apply IH]. Qed.
  Lemma agree_metadata n opts : agree (read_metadata rb Debug un n opts) (read_metadata rb' Release un n opts).
  Proof. unfold read_metadata. ag; first [apply agree_mr_next|apply agree_loop]. Qed.
  Lemma agree_new_ext n opts : agree (new_ext rb Debug un n opts) (new_ext rb' Release un n opts).
  Proof.
    unfold new_ext. apply agree_bind; [apply agree_stream_header|intros _]. apply agree_bind.
    - intros st. unfold with_mreader. destruct (agree_metadata n opts (mr_new st)) as [[w Hw]|E]; [left|right; rewrite E; reflexivity].
      exists w. destruct (read_metadata rb Debug un n opts (mr_new st)) as [o s]. exact Hw.
    - intros r. ag.
  Qed.
End Metadata.

(** * Calls *)
Section Calls.
  Context {S : Type} (rb rb' : ReadBytes S) (H : agrees rb rb') (fuel : nat).
  Lemma agree_fs_next : agree (fs_next rb Debug fuel) (fs_next rb' Release fuel).
  Proof.
    unfold fs_next. ag. apply agree_catch.
    apply (agree_zoom fs_frame_reader (fun st s => mkFs s (fs_block st) (fs_sample st) (fs_channel st) (fs_has_failed st))).
    apply agree_next, H.
  Qed.
  Lemma agree_step c : agree (session_step rb Debug fuel c) (session_step rb' Release fuel c).
  Proof.
    intros s. unfold session_step. destruct c as [buffer| |]; [| |right; reflexivity].
    - destruct (fr_blocks (drop_samples s)) as [inp| | | |]; try (right; reflexivity).
      destruct (agree_next rb rb' H fuel buffer inp) as [[w Hw]|E]; [left|right; rewrite E; reflexivity].
      destruct (read_next_or_eof rb Debug fuel buffer inp) as [o i]. cbn [fst] in Hw. rewrite Hw. exists w. reflexivity.
    - destruct (match se_samples s with Some it => Ok it | None => fr_samples (se_reader s) end) as [it| | | |]; try (right; reflexivity).
      destruct (agree_fs_next it) as [[w Hw]|E]; [left|right; rewrite E; reflexivity].
      destruct (fs_next rb Debug fuel it) as [o i]. cbn [fst] in Hw. rewrite Hw. exists w. reflexivity.
  Qed.
End Calls.

Lemma alike_refl {A} (l : list (outcome A)) : alike_until_panic l l.
Proof. induction l; constructor; assumption. Qed.
Lemma alike_history {S O A} (step step' : O -> M S A) : (forall o, agree (step o) (step' o)) ->
  forall ops st, alike_until_panic (fst (history_all step ops st)) (fst (history_all step' ops st)).
Proof.
  intros H. induction ops as [|o ops IH]; intros st; cbn [history_all]; [constructor|].
  destruct (H o st) as [[w Hw]|E].
  - destruct (step o st) as [r s], (step' o st) as [r' s']. cbn [fst] in Hw. subst r.
    destruct (history_all step ops s), (history_all step' ops s'). apply alike_panic.
  - rewrite <- E. destruct (step o st) as [r s]. specialize (IH s).
    destruct (history_all step ops s), (history_all step' ops s). apply alike_next, IH.
Qed.
Lemma alike_same {A} (l l' : list (outcome A)) : alike_until_panic l l' -> Forall value_or_error l -> l = l'.
Proof.
  intros H. induction H; intros Hl; [reflexivity|inversion Hl; f_equal; auto|].
  inversion Hl as [|x y [[a E]|[e E]]]; discriminate.
Qed.

(** * The statements *)
Lemma open_builds un fuel script opts :
  panicked (flac_new_ext Debug un fuel script opts)
  \/ flac_new_ext Debug un fuel script opts = flac_new_ext Release un fuel script opts.
Proof.
  unfold flac_new_ext. destruct (agree_new_ext _ _ br_agrees un fuel opts (br_new script)) as [Hp|E]; [left; exact Hp|right; rewrite E; reflexivity].
Qed.
Lemma nexts_builds {S A} (next next' : M S (option A)) : agree next next' ->
  forall n st, alike_until_panic (fst (nexts next n st)) (fst (nexts next' n st)).
Proof. intros H n st. unfold nexts. apply alike_history. intros _. exact H. Qed.
Lemma byte_op_agree {S} (rb rb' : ReadBytes S) : agrees rb rb' -> forall o, agree (run_byte_op rb o) (run_byte_op rb' o).
Proof.
  intros H o. destruct o; cbn [run_byte_op]; cbv zeta;
    repeat first [ (apply agree_be16; assumption) | (apply agree_be16_eof; assumption) | (apply agree_be24; assumption)
                 | (apply agree_be32; assumption) | (apply agree_le32; assumption) | ag1 ].
Qed.
Lemma bit_op_agree {S} (rb rb' : ReadBytes S) fuel : agrees rb rb' -> forall o, agree (run_bit_op rb Debug fuel o) (run_bit_op rb' Release fuel o).
Proof.
  intros H o. destruct o; cbn [run_bit_op].
  - apply agree_bind; [apply agree_bit, H|intros; ag].
  - apply agree_unary, H.
  - apply agree_leq8, H.
  - apply agree_gt8, H.
  - apply agree_leq16, H.
  - apply agree_leq32, H.
Qed.
From Verif Require Import ProofTotal.
Lemma same_builds : forall un, (forall n, length (un n) = n) -> forall fuel script opts calls,
  Forall contract_ok script -> no_zero_bytes (2 ^ 29 - 2049) (script_data script) ->
  (Z.to_nat 2048 + length (script_data script) < fuel)%nat ->
  flac_new_ext Debug un fuel script opts = flac_new_ext Release un fuel script opts
  /\ forall r inp, flac_new_ext Debug un fuel script opts = Ok r -> fr_blocks r = Ok inp ->
     fst (history_all (session_step (br_rb Debug) Debug fuel) calls (mkSession r None))
     = fst (history_all (session_step (br_rb Release) Release fuel) calls (mkSession r None)).
Proof.
  intros un Hun fuel script opts calls Hs Hz Hf. split.
  - destruct (open_builds un fuel script opts) as [[w Hw]|E]; [|exact E].
    assert (value_or_error (flac_new_ext Debug un fuel script opts)) as [[a E]|[e E]] by (apply source_open; [exact Hun|exact Hs|lia]); congruence.
  - intros r inp Hr Hi. apply alike_same.
    + apply alike_history, agree_step, br_agrees.
    + eapply source_sessions; [exact Hun|exact Hs|right; exact Hz|eassumption..].
Qed.
