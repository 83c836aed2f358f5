(** The subframe decoder refines the parser, part 2. *)
From Verif Require Export ProofPredict.

Section Refine.
  Context (t : tail) (m : build) (fuel : nat).
  Notation rb := (fl_rb t).
  Notation R := (bitsrel fuel).
  Notation simE := (sim no_esc R eq).
  Notation "c1 ~~ c2 | P" := (sim no_esc R (fun a b => a = b /\ P b) c1 c2)
    (at level 70, c2 at next level).

  Lemma Forall_fits_i32 n l : 1 <= n <= 32 -> Forall (fits n) l -> Forall isi32 l.
  Proof. intros Hn. apply Forall_impl. intros a. apply fits_i32, Hn. Qed.

  Lemma slice_prefix {A} (l : list A) k : 0 <= k <= len l ->
    slice l 0 k = Ok (firstn (Z.to_nat k) l).
  Proof. intros H. rewrite slice_ok by lia. rewrite Z.sub_0_r. reflexivity. Qed.
  Lemma slice_suffix {A} (l : list A) k : 0 <= k <= len l ->
    slice l k (len l) = Ok (skipn (Z.to_nat k) l).
  Proof.
    intros H. rewrite slice_ok by lia. f_equal. apply firstn_all2.
    rewrite skipn_length. unfold len in *. lia.
  Qed.
  Lemma splice_prefix {A} (l new : list A) k : 0 <= k <= len l -> len new = k ->
    splice l 0 new = new ++ skipn (Z.to_nat k) l.
  Proof.
    intros H Hn. unfold splice. cbn [Z.to_nat firstn app]. f_equal. f_equal.
    unfold len in *. lia.
  Qed.
  Lemma splice_suffix {A} (l1 l2 new : list A) k : k = len l1 -> length new = length l2 ->
    splice (l1 ++ l2) k new = l1 ++ new.
  Proof.
    intros -> H. rewrite <- (app_nil_r l2). rewrite splice_app by auto.
    rewrite app_nil_r. reflexivity.
  Qed.

  Lemma skipn_exact {A} (l1 l2 : list A) k : length l1 = k -> skipn k (l1 ++ l2) = l2.
  Proof. intros <-. rewrite skipn_app, skipn_all, Nat.sub_diag. reflexivity. Qed.

  (** The parts common to fixed and LPC subframes: warm-up samples and residual
      written into the buffer. *)
  Lemma fixed_sim bps order buffer : 1 <= bps <= 32 -> 0 <= order <= 4 ->
    1 <= len buffer <= 65535 ->
    simE (decode_fixed rb m fuel bps order buffer) (p_fixed t m bps order (length buffer)).
  Proof.
    intros Hb Ho Hl. unfold decode_fixed, p_fixed. fold (len buffer).
    destruct (Z.ltb_spec (len buffer) order) as [|Hlt]; [apply sim_fail|].
    rewrite slice_prefix by lia. apply sim_bind_lift_l.
    assert (length (firstn (Z.to_nat order) buffer) = Z.to_nat order) as Hf
      by (rewrite firstn_length; unfold len in *; lia).
    eapply sim_fact_bind; [rewrite <- Hf at 2; apply verbatim_sim, Hb|].
    rewrite Hf. intros warm [Hw Hwf].
    assert (len warm = order) as Hlw by (unfold len; lia).
    cbv zeta. rewrite (splice_prefix _ _ order) by lia.
    assert (len (warm ++ skipn (Z.to_nat order) buffer) = len buffer) as Hlb.
    { rewrite len_app. unfold len in *. rewrite skipn_length. lia. }
    rewrite slice_suffix by lia. apply sim_bind_lift_l.
    rewrite Hlb, u16_id by lia. rewrite skipn_exact by lia.
    eapply sim_fact_bind; [apply residual_sim; try lia; unfold len in *; rewrite skipn_length; lia|].
    intros rs [Hr Hri].
    rewrite splice_suffix by (rewrite ?Hr, ?skipn_length; unfold len in *; lia).
    rewrite predict_fixed_ok; [|lia|lia|].
    - intros s1 s2 HR. cbn. eauto.
    - rewrite len_app. unfold len in *. lia.
  Qed.

  Lemma coefficients_sim q n : 1 <= q <= 16 ->
    simE (read_coefficients rb m q n) (p_repeat n (p_signed t q)).
  Proof.
    intros Hq. induction n as [|n IH]; cbn [read_coefficients p_repeat]; [apply sim_ret_eq; auto|].
    unfold p_signed at 1.
    eapply sim_ext; [intros s; reflexivity|intros s; apply bind_assoc|].
    eapply sim_fact_bind; [apply (leq_u16 t m fuel (Z.to_nat q)); lia|intros x Hx].
    rewrite extend_sign_u16_ok by (destruct Hx; lia). apply sim_bind_lift_l.
    change (simE (rest <- read_coefficients rb m q n ;; ret (signed q x :: rest))
                 (rest <- p_repeat n (p_signed t q) ;; ret (signed q x :: rest))).
    eapply sim_bind_eq; [exact IH|intros ys]. apply sim_ret_eq. reflexivity.
  Qed.

  Lemma signed16_sim q : 1 <= q <= 16 ->
    (x <- read_leq_u16 rb m q ;; lift (extend_sign_u16 m x q)) ~~ p_signed t q | fits q.
  Proof.
    intros Hq. apply sim_fact; [|intros; eapply p_signed_fits; eauto; lia].
    eapply sim_fact_bind; [apply (leq_u16 t m fuel (Z.to_nat q)); lia|intros x Hx].
    rewrite extend_sign_u16_ok by (destruct Hx; lia). intros s1 s2 HR. cbn. eauto.
  Qed.

  Lemma fits_coef q l : 1 <= q <= 15 -> Forall (fits q) l -> Forall coef_ok l.
  Proof.
    intros Hq. apply Forall_impl. intros a [H1 H2]. unfold coef_ok.
    assert (2 ^ (q - 1) <= 2 ^ 14) by (apply Z.pow_le_mono_r; lia). lia.
  Qed.

  Lemma lpc_sim bps order buffer : 1 <= bps <= 32 -> 1 <= order <= 32 ->
    1 <= len buffer <= 65535 ->
    simE (decode_lpc rb m fuel bps order buffer) (p_lpc t m bps order (length buffer)).
  Proof.
    intros Hb Ho Hl. unfold decode_lpc, p_lpc. fold (len buffer).
    rewrite debug_assert_ok by lia. apply sim_bind_lift_l.
    destruct (Z.ltb_spec (len buffer) order) as [|Hlt]; [apply sim_fail|].
    rewrite slice_prefix by lia. apply sim_bind_lift_l.
    assert (length (firstn (Z.to_nat order) buffer) = Z.to_nat order) as Hf
      by (rewrite firstn_length; unfold len in *; lia).
    eapply sim_fact_bind; [rewrite <- Hf at 2; apply verbatim_sim, Hb|].
    rewrite Hf. intros warm [Hw Hwf].
    assert (len warm = order) as Hlw by (unfold len; lia).
    cbv zeta. rewrite (splice_prefix _ _ order) by lia.
    assert (len (warm ++ skipn (Z.to_nat order) buffer) = len buffer) as Hlb.
    { rewrite len_app. unfold len in *. rewrite skipn_length. lia. }
    eapply sim_fact_bind; [apply (leq_u8 t m fuel 4); lia|intros p Hp].
    red in Hp. change (2 ^ Z.of_nat 4) with 16 in Hp.
    rewrite chk_u32 by lia. apply sim_bind_lift_l.
    rewrite chk_u32 by lia. apply sim_bind_lift_l.
    replace (p + 1 - 1) with p by lia.
    destruct (Z.eqb_spec p 15); [apply sim_fail|].
    match goal with |- sim _ _ _ (bind (read_leq_u16 rb m 5) ?f) _ =>
      apply sim_ext_l with (bind (x <- read_leq_u16 rb m 5 ;; lift (extend_sign_u16 m x 5))
        (fun qlp_shift => if qlp_shift <? 0
          then fail (Unsupported "a negative quantized linear predictor coefficient shift is not supported, please file a bug.")
          else
          lift (if order <=? 32 then Ok tt else Panic "slice index out of range") ;;;
          cs <- read_coefficients rb m (p + 1) (Z.to_nat order) ;;
          let buffer := warm ++ skipn (Z.to_nat order) buffer in
          let coefficients := rev cs in
          tail <- lift (slice buffer order (len buffer)) ;;
          tail' <- decode_residual rb m fuel (u16 (len buffer)) tail ;;
          let buffer := splice buffer order tail' in
          if order <=? 12
          then lift (predict_lpc_low_order m coefficients qlp_shift buffer)
          else lift (predict_lpc_high_order m coefficients qlp_shift buffer)))
    end.
    { intros s. rewrite bind_assoc. reflexivity. }
    eapply sim_fact_bind; [apply signed16_sim; lia|intros sh Hshf].
    destruct Hshf as [_ Hsh]. change (2 ^ (5 - 1)) with 16 in Hsh.
    destruct (Z.ltb_spec sh 0) as [|Hsh0]; [apply sim_fail|].
    destruct (Z.leb_spec order 32); [|lia]. apply sim_bind_lift_l.
    eapply (sim_fact_bind _ _ _ (fun l => length l = Z.to_nat order /\ Forall (fits (p + 1)) l)).
    { apply sim_fact; [apply coefficients_sim; lia|]. intros s l s' E.
      split; [eapply p_repeat_length, E|].
      eapply p_repeat_Forall, E. intros; eapply p_signed_fits; eauto; lia. }
    intros cs [Hcl Hcf]. cbv zeta.
    rewrite slice_suffix by lia. apply sim_bind_lift_l.
    rewrite Hlb, u16_id by lia. rewrite skipn_exact by lia.
    eapply sim_fact_bind; [apply residual_sim; try lia; unfold len in *; rewrite skipn_length; lia|].
    intros rs [Hr Hri].
    rewrite splice_suffix by (rewrite ?Hr, ?skipn_length; unfold len in *; lia).
    assert (Forall coef_ok (rev cs)) as Hcr
      by (apply Forall_rev, (fits_coef (p + 1)); [lia|exact Hcf]).
    assert (Forall isi32 warm) as Hwi by (apply (Forall_fits_i32 bps); [lia|exact Hwf]).
    assert (len (rev cs) = order) as Hlc by (rewrite len_rev; unfold len; lia).
    assert (simE
       (lift (Ok (warm ++ restore (lpc_predict (rev (rev cs)) sh) (rev warm) rs)))
       (ret (warm ++ restore (lpc_predict cs sh) (rev warm) rs))) as Hfin.
    { rewrite rev_involutive. intros s1 s2 HR. cbn. eauto. }
    destruct (Z.leb_spec order 12).
    - rewrite predict_lpc_low_ok; auto; try lia.
      rewrite len_app. unfold len in *. lia.
    - rewrite predict_lpc_high_ok; auto; try lia.
  Qed.

  (** ** Headers *)
  Definition coding_of (c : subframe_type) : coding :=
    match c with
    | SfConstant => Constant
    | SfVerbatim => Verbatim
    | SfFixed o => Fixed o
    | SfLpc o => Lpc o
    end.

  (** The type field as decoded by the code, with the meaning given to it. *)
  Definition type_code (n : Z) : outcome subframe_type :=
    if n =? 0 then Ok SfConstant
    else if n =? 1 then Ok SfVerbatim
    else if (Z.land n 62 =? 2) || (Z.land n 60 =? 4) || (Z.land n 48 =? 16)
    then Err (FormatError "invalid subframe header, encountered reserved value")
    else if Z.land n 56 =? 8 then
      let order := Z.land n 7 in
      if 4 <? order
      then Err (FormatError "invalid subframe header, encountered reserved value")
      else Ok (SfFixed order)
    else
      order <~ chk m u8 (Z.land n 31 + 1) ;; Ok (SfLpc order).

  Definition type_spec (n : Z) : option coding :=
    if n =? 0 then Some Constant
    else if n =? 1 then Some Verbatim
    else if (8 <=? n) && (n <=? 12) then Some (Fixed (n - 8))
    else if 32 <=? n then Some (Lpc (n - 31))
    else None.

  Definition type_check (n : Z) : bool :=
    match type_code n, type_spec n with
    | Ok SfConstant, Some Constant => true
    | Ok SfVerbatim, Some Verbatim => true
    | Ok (SfFixed a), Some (Fixed b) => (a =? b) && (0 <=? b) && (b <=? 4)
    | Ok (SfLpc a), Some (Lpc b) => (a =? b) && (1 <=? b) && (b <=? 32)
    | Err (FormatError s), None =>
        String.eqb s "invalid subframe header, encountered reserved value"
    | _, _ => false
    end.

  Lemma type_check_ok n : 0 <= n < 64 -> type_check n = true.
  Proof.
    intros H. apply (sweep 64); [|lia]. unfold type_check, type_code.
    destruct m; vm_compute; reflexivity.
  Qed.

  (** [read_subframe_header] split into its fields. *)
  Lemma header_sim {A B} (Q : A -> B -> Prop) f g :
    (forall c k, coding_ok (coding_of c) -> 0 <= k <= 31 ->
       sim no_esc R Q (f (mkSfh c k)) (g (coding_of c) k)) ->
    sim no_esc R Q (bind (read_subframe_header rb m fuel) f)
      (pad <- bl_bit t ;;
       if (pad : bool) then fmt_err "invalid subframe header"
       else c <- p_type t ;; k <- p_wasted t m ;; g c k).
  Proof.
    intros Hfg. unfold read_subframe_header.
    eapply sim_ext; [intros s; apply bind_assoc|intros s; reflexivity|].
    eapply sim_bind_eq; [apply read_bit_sim|intros pad].
    destruct pad; [apply sim_fail|].
    unfold p_type.
    eapply sim_ext; [intros s; apply bind_assoc|intros s; apply bind_assoc|].
    eapply sim_fact_bind; [apply (leq_u8 t m fuel 6); lia|intros n Hn].
    red in Hn. change (2 ^ Z.of_nat 6) with 64 in Hn.
    pose proof (type_check_ok n Hn) as HT.
    eapply sim_ext; [intros s; apply bind_assoc|intros s; reflexivity|].
    eapply (sim_bind _ _ (fun c d => coding_of c = d /\ coding_ok d)).
    { apply sim_ext_l with (lift (type_code n)).
      { intros s. unfold type_code, fmt_err, fail, ret, lift.
        repeat (match goal with |- context [if ?b then _ else _] => destruct b end;
                try reflexivity).
        unfold bind, obind. destruct (chk m u8 _); reflexivity. }
      unfold type_check, type_spec in HT.
      destruct (type_code n) as [[| |a|a]|[]| | |] eqn:E; try discriminate HT;
        destruct (n =? 0); try discriminate HT;
        destruct (n =? 1); try discriminate HT;
        destruct ((8 <=? n) && (n <=? 12)); try discriminate HT;
        destruct (32 <=? n); try discriminate HT.
      all: try (apply sim_ext_l with (ret SfConstant); [reflexivity|];
                apply sim_ret; cbn; auto; fail).
      all: try (apply sim_ext_l with (ret SfVerbatim); [reflexivity|];
                apply sim_ret; cbn; auto; fail).
      all: try (apply sim_ext_l with (ret (SfFixed a)); [reflexivity|];
                apply sim_ret; cbn; split; [f_equal|]; lia).
      all: try (apply sim_ext_l with (ret (SfLpc a)); [reflexivity|];
                apply sim_ret; cbn; split; [f_equal|]; lia).
      apply String.eqb_eq in HT as ->. apply sim_fail. }
    intros c ? [<- Hc].
    unfold p_wasted.
    eapply sim_ext; [intros s; apply bind_assoc|intros s; apply bind_assoc|].
    eapply sim_bind_eq; [apply read_bit_sim|intros wb].
    eapply sim_ext; [intros s; apply bind_assoc|intros s; apply bind_assoc|].
    eapply (sim_bind _ _ (fun a b => a = b /\ 0 <= b)).
    { destruct wb; [|apply sim_ret; lia].
      eapply sim_fact_bind; [apply unary_sim|intros u Hu; cbv beta in Hu].
      eapply sim_conseq; [| |apply (sim_fact _ _ _ (fun a => 0 <= a)); [apply sim_lift|]]; auto.
      intros s a s' E. unfold lift, chk in E. apply (f_equal fst) in E; cbn [fst] in E.
      destruct (_ =? _) in E; [assert (a = 1 + u) by congruence; lia|].
      destruct m; [discriminate|]. injection E as <-. apply u32_range. }
    intros k ? [<- Hk].
    destruct (Z.ltb_spec 31 k); [apply sim_fail|].
    intros s1 s2 HR. apply (Hfg c k); auto.
  Qed.

  (** ** Bodies *)
  Lemma repeat_const {A B} (v : A) (l : list B) : map (fun _ => v) l = repeat v (length l).
  Proof. induction l; cbn; congruence. Qed.

  Definition samples_ok n (l : list Z) := length l = n /\ Forall isi32 l.

  Lemma p_body_ok c bps n s l s' : 1 <= bps <= 32 -> coding_ok c ->
    p_body t m c bps n s = (Ok l, s') -> samples_ok n l.
  Proof.
    intros Hb Hc E. destruct c as [| |o|o]; cbn [p_body] in E.
    - apply bind_ok in E as (v & s0 & Ev & E). inversion E; subst.
      split; [apply repeat_length|]. apply Forall_forall. intros x Hx.
      apply repeat_spec in Hx as ->. apply (fits_i32 bps); [lia|].
      eapply p_signed_fits, Ev; lia.
    - split; [eapply p_repeat_length, E|].
      eapply p_repeat_Forall, E. intros. apply (fits_i32 bps); [lia|].
      eapply p_signed_fits; eauto; lia.
    - cbn in Hc. unfold p_fixed in E.
      destruct (Z.ltb_spec (Z.of_nat n) o); [discriminate|].
      apply bind_ok in E as (warm & s0 & Ew & E). apply bind_ok in E as (rs & s1 & Er & E).
      inversion E; subst. apply p_residual_ok in Er as [Hr _]; [|lia].
      pose proof (p_repeat_length _ _ _ _ _ Ew).
      split; [rewrite app_length, restore_length; lia|].
      apply Forall_app. split; [|apply restore_i32].
      eapply p_repeat_Forall, Ew. intros. apply (fits_i32 bps); [lia|].
      eapply p_signed_fits; eauto; lia.
    - cbn in Hc. unfold p_lpc in E.
      destruct (Z.ltb_spec (Z.of_nat n) o); [discriminate|].
      apply bind_ok in E as (warm & s0 & Ew & E). apply bind_ok in E as (p & s1 & _ & E).
      destruct (p =? 15); [discriminate|].
      apply bind_ok in E as (sh & s2 & _ & E).
      destruct (sh <? 0); [discriminate|].
      apply bind_ok in E as (cs & s3 & _ & E).
      apply bind_ok in E as (rs & s4 & Er & E).
      inversion E; subst. apply p_residual_ok in Er as [Hr _]; [|lia].
      pose proof (p_repeat_length _ _ _ _ _ Ew).
      split; [rewrite app_length, restore_length; lia|].
      apply Forall_app. split; [|apply restore_i32].
      eapply p_repeat_Forall, Ew. intros. apply (fits_i32 bps); [lia|].
      eapply p_signed_fits; eauto; lia.
  Qed.

  Lemma body_sim c bps buffer : 1 <= bps <= 32 -> coding_ok (coding_of c) ->
    1 <= len buffer <= 65535 ->
    (match c with
     | SfConstant => decode_constant rb m bps buffer
     | SfVerbatim => decode_verbatim rb m bps buffer
     | SfFixed ord => decode_fixed rb m fuel bps ord buffer
     | SfLpc ord => decode_lpc rb m fuel bps ord buffer
     end) ~~ p_body t m (coding_of c) bps (length buffer) | samples_ok (length buffer).
  Proof.
    intros Hb Hc Hl. apply sim_fact; [|intros; eapply p_body_ok; eauto].
    destruct c as [| |o|o]; cbn [coding_of p_body coding_ok] in *.
    - unfold decode_constant.
      eapply sim_ext with (d1 := bind (read_verbatim_sample rb m bps)
          (fun sample => ret (map (fun _ => sample) buffer))).
      { intros s. unfold read_verbatim_sample. rewrite bind_assoc. reflexivity. }
      { intros s. reflexivity. }
      eapply sim_bind_eq; [apply verbatim_sample_sim, Hb|intros v].
      apply sim_ret_eq, repeat_const.
    - apply (sim_weaken _ _ _ (fits_list bps (length buffer))). apply verbatim_sim, Hb.
    - apply fixed_sim; auto.
    - apply lpc_sim; auto.
  Qed.

  Lemma wrap32_id x : isi32 x -> wrap32 x = x.
  Proof. intros H. rewrite wrap32_i32. apply i32_id, H. Qed.

  Lemma p_subframe_ok bps n s l s' : 1 <= bps <= 32 ->
    p_subframe t m bps n s = (Ok l, s') -> samples_ok n l.
  Proof.
    intros Hb E. unfold p_subframe in E. apply bind_ok in E as (pad & s0 & _ & E).
    destruct pad; [discriminate|].
    apply bind_ok in E as (c & s1 & Ec & E). apply bind_ok in E as (k & s2 & Ek & E).
    destruct (Z.leb_spec bps k); [discriminate|].
    apply bind_ok in E as (l' & s3 & El & E). inversion E; subst.
    assert (coding_ok c) as Hc.
    { unfold p_type in Ec. apply bind_ok in Ec as (n' & s0' & En & Ec).
      apply bl_bits_inv in En as [_ Hn]. change (2 ^ Z.of_nat 6) with 64 in Hn.
      destruct (n' =? 0); [inversion Ec; exact I|].
      destruct (n' =? 1); [inversion Ec; exact I|].
      destruct (Z.leb_spec 8 n'), (Z.leb_spec n' 12), (Z.leb_spec 32 n');
        cbn [andb] in Ec; inversion Ec; cbn; lia. }
    assert (0 <= k) as Hk.
    { unfold p_wasted in Ek. apply bind_ok in Ek as (b & s0' & Eb & Ek).
      apply bind_ok in Ek as (k' & s1' & Ek' & Ek).
      destruct (31 <? k'); [discriminate|]. inversion Ek; subst.
      destruct b; [|inversion Ek'; lia].
      apply bind_ok in Ek' as (u & s4 & Eu & Ek').
      apply bl_unary_range in Eu.
      unfold lift, chk in Ek'. apply (f_equal fst) in Ek'. cbn [fst] in Ek'.
      destruct (_ =? _) in Ek'; [assert (k = 1 + u) by congruence; lia|].
      destruct m; [discriminate|]. assert (k = u32 (1 + u)) as -> by congruence.
      apply u32_range. }
    eapply p_body_ok in El as [Hl Hi]; [|lia|exact Hc].
    split; [rewrite map_length; exact Hl|].
    apply Forall_map, Forall_forall. intros. apply wrap32_range.
  Qed.

  Lemma subframe_sim bps buffer : 1 <= bps <= 32 -> 1 <= len buffer <= 65535 ->
    decode rb m fuel bps buffer ~~ p_subframe t m bps (length buffer) | samples_ok (length buffer).
  Proof.
    intros Hb Hl. apply sim_fact; [|intros; eapply p_subframe_ok; eauto].
    unfold decode, p_subframe.
    rewrite debug_assert_ok by lia. apply sim_bind_lift_l.
    apply (header_sim _ _ (fun c k => if bps <=? k then fmt_err "subframe has no non-wasted bits"
        else s <- p_body t m c (bps - k) (length buffer) ;; ret (map (fun x => wrap32 (x * 2 ^ k)) s))).
    intros c k Hc Hk. cbn [sfh_type sfh_wasted].
    destruct (Z.leb_spec bps k) as [|Hk']; [apply sim_fail|].
    rewrite chk_u32 by lia. apply sim_bind_lift_l.
    eapply sim_fact_bind; [apply body_sim; auto; lia|].
    intros s [Hsl Hsi].
    destruct (Z.ltb_spec 0 k) as [Hk0|Hk0].
    - rewrite debug_assert_ok by lia. apply sim_bind_lift_l.
      apply sim_ret_eq. apply map_ext. intros x. rewrite Z.mod_small by lia.
      rewrite Z.shiftl_mul_pow2 by lia. reflexivity.
    - assert (k = 0) as -> by lia. apply sim_ret_eq.
      rewrite <- (map_id s) at 1. apply map_ext_in. intros x Hx.
      rewrite Z.mul_1_r. symmetry. apply wrap32_id.
      rewrite Forall_forall in Hsi. auto.
  Qed.
End Refine.
