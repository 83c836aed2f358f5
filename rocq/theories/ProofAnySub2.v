(** Subframes decoded into a buffer of any length: the grammar. *)
From Verif Require Export ProofAnySub.
From Verif Require Import SpecReader.

Section Laws.
  Context (t : tail) (m : build).
  Notation sound := (sound m).
  Notation total := (total m).

  Lemma q_body_sound c bps buffer : 1 <= bps <= 32 -> coding_ok c ->
    sound (q_body t m c bps buffer) (body_into bps buffer c).
  Proof.
    intros Hb Hc s a s' Hf E. pose proof (counted_range buffer) as Hcr. destruct c as [| |o|o]; cbn [q_body coding_ok] in *.
    - apply bind_ok in E as (v & s1 & Ev & E). inversion E; subst.
      apply (signed_sound t m) in Ev as (w & -> & Hv & ->); [|lia|assumption].
      exists (word bps v). split; [reflexivity|]. constructor. exact Hv.
    - apply (signeds_sound t m) in E as (w & -> & Hl & HF & ->); [|lia|assumption].
      exists (words bps a). split; [reflexivity|]. constructor; auto.
    - unfold q_fixed in E. destruct (Z.ltb_spec (len buffer) o); [discriminate|]. unfold len in *.
      apply bind_ok in E as (warm & s1 & Ew & E). apply bind_ok in E as (rs & s2 & Er & E).
      inversion E; subst.
      apply (signeds_sound t m) in Ew as (w & -> & Hl & HF & ->); [|lia|assumption].
      apply q_residual_ok in Er; [|lia|lia].
      apply residual_sound in Er as (w & -> & HR); [|lia|eapply fine_app, Hf].
      exists (words bps warm ++ w). rewrite <- app_assoc. split; [reflexivity|].
      constructor; auto; lia.
    - unfold q_lpc in E. destruct (Z.ltb_spec (len buffer) o); [discriminate|]. unfold len in *.
      apply bind_ok in E as (warm & s1 & Ew & E).
      apply (signeds_sound t m) in Ew as (w & -> & Hl & HF & ->); [|lia|assumption].
      apply bind_ok in E as (p & s2 & Ep & E). apply bl_bits_inv in Ep as [-> Hp].
      change (2 ^ Z.of_nat 4) with 16 in Hp.
      destruct (Z.eqb_spec p 15); [discriminate|].
      apply bind_ok in E as (sh & s3 & Esh & E).
      apply (signed_sound t m) in Esh as (w & -> & Hsh & ->); [|lia|do 2 eapply fine_app; exact Hf].
      destruct (Z.ltb_spec sh 0); [discriminate|].
      apply bind_ok in E as (cs & s4 & Ecs & E).
      apply (signeds_sound t m) in Ecs as (w & -> & Hlc & HFc & ->); [|lia|do 3 eapply fine_app; exact Hf].
      apply bind_ok in E as (rs & s5 & Er & E). inversion E; subst.
      apply q_residual_ok in Er; [|lia|lia].
      apply residual_sound in Er as (w & -> & HR); [|lia|do 4 eapply fine_app; exact Hf].
      exists (words bps warm ++ word 4 (p + 1 - 1) ++ word 5 sh ++ words (p + 1) cs ++ w).
      replace (p + 1 - 1) with p by lia.
      rewrite <- !app_assoc. split; [unfold word; reflexivity|].
      destruct Hsh as [_ Hsh]. change (2 ^ (5 - 1)) with 16 in Hsh.
      replace p with (p + 1 - 1) at 1 by lia.
      constructor; auto; lia.
  Qed.

  Lemma q_residual_complete bs order w rs s' : 0 <= bs -> 0 <= order -> residual_code bs order w rs ->
    q_residual t m bs order (w ++ s') = (Ok rs, s').
  Proof. intros Hb Ho H. apply q_residual_ok; auto. apply (residual_complete t m bs order Hb _ _ _ H). Qed.

  Lemma q_body_complete c bps buffer : 1 <= bps -> complete (q_body t m c bps buffer) (body_into bps buffer c).
  Proof.
    intros Hb w a s' H. pose proof (counted_range buffer) as Hcr. destruct H as [v Hv|l Hl HF|o warm w rs Ho Hl Hn HF HR
      |o warm p sh cs w rs Ho Hl Hn HF Hp Hsh Hlc HFc HR]; cbn [q_body].
    - unfold bind. rewrite (signed_complete t bps Hb (word bps v) v) by auto. reflexivity.
    - rewrite <- Hl. apply signeds_complete; auto.
    - unfold q_fixed. destruct (Z.ltb_spec (len buffer) o); [unfold len in *; lia|].
      replace (Z.to_nat o) with (length warm) by lia.
      unfold bind at 1. rewrite <- app_assoc, signeds_complete by auto.
      unfold bind. rewrite (q_residual_complete (counted buffer) o _ _ _ ltac:(lia) ltac:(lia) HR). reflexivity.
    - unfold q_lpc. destruct (Z.ltb_spec (len buffer) o); [unfold len in *; lia|].
      replace (p_repeat (Z.to_nat o) (p_signed t bps)) with (p_repeat (length warm) (p_signed t bps)) by (do 2 f_equal; lia).
      unfold bind at 1. rewrite <- !app_assoc, signeds_complete by auto.
      unfold bind at 1. unfold word at 1. change (Z.to_nat 4) with 4%nat.
      rewrite bl_bits_app by (change (2 ^ Z.of_nat 4) with 16; lia).
      destruct (Z.eqb_spec (p - 1) 15); [lia|].
      unfold bind at 1. rewrite (signed_complete t 5 ltac:(lia) (word 5 sh) sh)
        by (split; [red; change (2 ^ (5 - 1)) with 16; lia|reflexivity]).
      destruct (Z.ltb_spec sh 0); [lia|].
      replace (p - 1 + 1) with p by lia.
      replace (p_repeat (Z.to_nat o) (p_signed t p)) with (p_repeat (length cs) (p_signed t p)) by (do 2 f_equal; lia).
      unfold bind at 1. rewrite signeds_complete by (auto; lia).
      unfold bind. rewrite (q_residual_complete (counted buffer) o _ _ _ ltac:(lia) ltac:(lia) HR). reflexivity.
  Qed.

  Lemma q_subframe_sound bps buffer : 1 <= bps <= 32 ->
    sound (q_subframe t m bps buffer) (subframe_into bps buffer).
  Proof.
    intros Hb s a s' Hf E. unfold q_subframe in E.
    apply bind_ok in E as (pad & s1 & Epad & E).
    destruct s as [|b' s]; [discriminate|]. inversion Epad; subst.
    destruct pad; [discriminate|].
    apply bind_ok in E as (c & s2 & Ec & E).
    apply (type_sound t m) in Ec as (w & -> & Hc & ->); [|eapply (fine_app _ [false]), Hf].
    apply bind_ok in E as (k & s3 & Ek & E).
    apply (wasted_sound t m) in Ek as (w & -> & Hk & ->); [|eapply fine_app, (fine_app _ [false]), Hf].
    destruct (Z.leb_spec bps k); [discriminate|].
    apply bind_ok in E as (l & s4 & El & E). inversion E; subst.
    apply q_body_sound in El as (w & -> & Hw); [|lia|assumption|eapply fine_app, fine_app, (fine_app _ [false]), Hf].
    exists (false :: word 6 (coding_code c) ++ wasted_field k ++ w).
    cbn [app]. rewrite <- !app_assoc. split; [reflexivity|].
    exists c, k, w, l. auto.
  Qed.
  Lemma body_into_coding c bps buffer w l : body_into bps buffer c w l -> coding_ok c.
  Proof. destruct 1; cbn [coding_ok]; auto. Qed.
  Lemma q_subframe_complete bps buffer : complete (q_subframe t m bps buffer) (subframe_into bps buffer).
  Proof.
    intros w a s' (c & k & wb & l & Hk & Hkb & Hbody & -> & ->).
    unfold q_subframe. unfold bind at 1. cbn [app bl_bit]. rewrite <- !app_assoc.
    unfold bind at 1.
    rewrite (type_complete t (word 6 (coding_code c)) c) by (split; [eapply body_into_coding, Hbody|reflexivity]).
    unfold bind at 1. rewrite (wasted_complete t m (wasted_field k) k) by auto.
    destruct (Z.leb_spec bps k); [lia|]. unfold bind.
    rewrite (q_body_complete c (bps - k) buffer ltac:(lia) _ _ _ Hbody). reflexivity.
  Qed.

  (** * Panics *)
  Lemma step {A B} (c : P A) (f : A -> P B) s (X : Prop) : total c -> calm m s ->
    (forall a s', c s = (Ok a, s') -> calm m s' -> value_or_error (fst (f a s')) \/ X) ->
    value_or_error (fst (bind c f s)) \/ X.
  Proof.
    intros Hc Hs Hf. unfold bind. destruct (Hc s Hs) as [Hv Hq]. destruct (c s) as [o s'] eqn:E. cbn [fst snd] in *.
    destruct Hv as [[a ->]|[e ->]]; [apply Hf; auto|left; apply voe_err].
  Qed.
  Lemma voe_bind_ret {A B} (c : P A) (f : A -> B) s : value_or_error (fst (c s)) -> value_or_error (fst ((x <- c ;; ret (f x)) s)).
  Proof.
    intros H. unfold bind. destruct (c s) as [o s']. cbn [fst] in *. destruct H as [[a ->]|[e ->]]; [apply voe_ok|apply voe_err].
  Qed.
  Lemma q_residual_shape bs order s : 0 <= bs -> 0 <= order -> calm m s ->
    value_or_error (fst (q_residual t m bs order s))
    \/ m = Debug /\ bs < order /\ exists method po rest, s = word 2 method ++ word 4 po ++ rest
       /\ (method = 0 \/ method = 1) /\ 0 <= po <= 15 /\ bs mod 2 ^ po = 0.
  Proof.
    intros Hbs Ho Hs. destruct (q_residual_cases t m bs order s Hbs Ho) as [E|(Hlt & _ & p & s' & Eq)].
    { left. rewrite E. apply (residual_total t m bs order s Hs). }
    apply or_comm. unfold q_residual.
    apply or_comm, step; [apply bits_total|exact Hs|intros method s1 E1 Hs1]. apply bl_bits_inv in E1 as [-> Hm].
    apply step; [destruct (method =? 0); [apply safe_ret|destruct (method =? 1); [apply safe_ret|apply safe_fail]]|exact Hs1|intros pbits s2 E2 Hs2].
    assert (s2 = s1 /\ (method = 0 \/ method = 1)) as [-> Hm'].
    { destruct (Z.eqb_spec method 0); [inversion E2; auto|]. destruct (Z.eqb_spec method 1); [inversion E2; auto|discriminate]. }
    apply step; [apply bits_total|exact Hs2|intros po s3 E3 Hs3]. apply bl_bits_inv in E3 as [-> Hpo]. change (2 ^ Z.of_nat 4) with 16 in Hpo.
    destruct (Z.eqb_spec (bs mod 2 ^ po) 0) as [Hd|]; cbn [negb]; [|left; apply voe_err].
    destruct (match m with Debug => bs <? order | Release => false end) eqn:Em.
    - right. split; [destruct m; [reflexivity|discriminate]|]. split; [exact Hlt|]. exists method, po, s3. repeat split; auto; lia.
    - left. destruct (Z.ltb_spec (bs / 2 ^ po) order); [apply voe_err|]. apply (partitions_total t m), Hs3.
  Qed.

  Lemma q_body_shape c bps buffer s : 0 <= coding_order c -> calm m s ->
    value_or_error (fst (q_body t m c bps buffer s))
    \/ m = Debug /\ (1 <= bps -> coding_ok c -> exists w method po rest, s = w ++ word 2 method ++ word 4 po ++ rest
       /\ before_residual bps c w /\ counted buffer < coding_order c <= len buffer
       /\ (method = 0 \/ method = 1) /\ 0 <= po <= 15 /\ counted buffer mod 2 ^ po = 0).
  Proof.
    intros Ho Hs. pose proof (counted_range buffer) as Hcr.
    assert (forall x, fine Debug x) as HD by (intros; left; reflexivity).
    destruct c as [| |o|o]; cbn [q_body coding_order coding_ok] in *.
    - left. apply voe_bind_ret, (signed_total t m), Hs.
    - left. apply (repeat_total m), Hs. apply signed_total.
    - unfold q_fixed. destruct (Z.ltb_spec (len buffer) o); [left; apply voe_err|].
      apply step; [apply repeat_total, signed_total|exact Hs|intros warm s1 E1 Hs1].
      destruct (q_residual_shape (counted buffer) o s1 ltac:(lia) Ho Hs1) as [Hv|(Hm & Hlt & method & po & rest & -> & H1 & H2 & H3)].
      { left. apply voe_bind_ret, Hv. }
      right. split; [exact Hm|]. intros Hb Hc. apply (signeds_sound t Debug) in E1 as (w & -> & Hl & HF & ->); [|exact Hb|apply HD].
      exists (words bps warm), method, po, rest. split; [reflexivity|]. split; [constructor; auto; lia|]. repeat split; auto; lia.
    - unfold q_lpc. destruct (Z.ltb_spec (len buffer) o); [left; apply voe_err|].
      apply step; [apply repeat_total, signed_total|exact Hs|intros warm s1 E1 Hs1].
      apply step; [apply bits_total|exact Hs1|intros p s2 Ep Hs2]. apply bl_bits_inv in Ep as [-> Hp]. change (2 ^ Z.of_nat 4) with 16 in Hp.
      destruct (Z.eqb_spec p 15); [left; apply voe_err|].
      apply step; [apply signed_total|exact Hs2|intros sh s3 Esh Hs3].
      apply (signed_sound t Debug) in Esh as (w & -> & Hsh & ->); [|lia|apply HD].
      destruct (Z.ltb_spec sh 0); [left; apply voe_err|].
      apply step; [apply repeat_total, signed_total|exact Hs3|intros cs s4 Ecs Hs4].
      apply (signeds_sound t Debug) in Ecs as (w & -> & Hlc & HFc & ->); [|lia|apply HD].
      destruct (q_residual_shape (counted buffer) o s4 ltac:(lia) Ho Hs4) as [Hv|(Hm & Hlt & method & po & rest & -> & H1 & H2 & H3)].
      { left. apply voe_bind_ret, Hv. }
      right. split; [exact Hm|]. intros Hb Hc. apply (signeds_sound t Debug) in E1 as (w & -> & Hl & HF & ->); [|exact Hb|apply HD].
      exists (words bps warm ++ word 4 (p + 1 - 1) ++ word 5 sh ++ words (p + 1) cs), method, po, rest.
      split; [rewrite <- !app_assoc; unfold word at 6; replace (p + 1 - 1) with p by lia; reflexivity|].
      destruct Hsh as [_ Hsh]. change (2 ^ (5 - 1)) with 16 in Hsh.
      split; [constructor; auto; lia|]. repeat split; auto; lia.
  Qed.
  Lemma q_subframe_shape bps buffer s : calm m s ->
    value_or_error (fst (q_subframe t m bps buffer s)) \/ m = Debug /\ short_count bps buffer s.
  Proof.
    intros Hs. assert (forall x, fine Debug x) as HD by (intros; left; reflexivity). unfold q_subframe.
    apply step; [apply bit_total|exact Hs|intros pad s1 E1 Hs1].
    destruct s as [|b' s]; [discriminate|]. inversion E1; subst. destruct pad; [left; apply voe_err|].
    apply step; [apply type_total|exact Hs1|intros c s2 Ec Hs2].
    apply (type_sound t Debug) in Ec as (w & -> & Hc & ->); [|apply HD].
    apply step; [apply wasted_total|exact Hs2|intros k s3 Ek Hs3].
    destruct (Z.leb_spec bps k); [left; apply voe_err|].
    destruct (q_body_shape c (bps - k) buffer s3) as [Hv|(Hm & Hx)]; [destruct c; cbn in *; lia|exact Hs3|left; apply voe_bind_ret, Hv|].
    right. split; [exact Hm|]. rewrite Hm in Ek. apply (wasted_sound t Debug) in Ek as (w & -> & Hk & ->); [|apply HD].
    destruct (Hx ltac:(lia) Hc) as (w & method & po & rest & -> & Hw & H1 & H2 & H3 & H4).
    exists c, k, w, method, po, rest. rewrite ?app_comm_cons. auto 10.
  Qed.

  (** Conversely. *)
  Lemma q_residual_short bs order method po rest : 0 <= bs < order -> (method = 0 \/ method = 1) -> 0 <= po <= 15 -> bs mod 2 ^ po = 0 ->
    fst (q_residual t m bs order (word 2 method ++ word 4 po ++ rest))
    = match m with Debug => Panic "attempt to perform arithmetic with overflow" | Release => Err (FormatError "invalid residual") end.
  Proof.
    intros Hbs Hm Hpo Hd. unfold q_residual. unfold bind at 1, word.
    change (Z.to_nat 2) with 2%nat. change (Z.to_nat 4) with 4%nat.
    rewrite bl_bits_app by (change (2 ^ Z.of_nat 2) with 4; lia).
    unfold bind at 1.
    assert (exists pbits : nat, forall s, (if method =? 0 then ret 4%nat
              else if method =? 1 then ret 5%nat
              else fmt_err "invalid residual, encountered reserved value") s
              = (Ok pbits, s :  list bool)) as (pbits & Hp).
    { destruct (Z.eqb_spec method 0); [exists 4%nat; reflexivity|].
      destruct (Z.eqb_spec method 1); [exists 5%nat; reflexivity|lia]. }
    rewrite Hp. unfold bind at 1. rewrite bl_bits_app by (change (2 ^ Z.of_nat 4) with 16; lia).
    rewrite Hd. cbn [Z.eqb negb]. pose proof (pow2_pos po ltac:(lia)).
    assert (bs / 2 ^ po <= bs) by (apply Z.div_le_upper_bound; nia).
    destruct m.
    - destruct (Z.ltb_spec bs order); [reflexivity|lia].
    - destruct (Z.ltb_spec (bs / 2 ^ po) order); [reflexivity|lia].
  Qed.
  Lemma fst_bind_not_ok {A B} (c : P A) (f : A -> P B) s :
    match fst (c s) with
    | Ok _ => True | Err e => fst (bind c f s) = Err e | Panic w => fst (bind c f s) = Panic w
    | UB w => fst (bind c f s) = UB w | OutOfFuel => fst (bind c f s) = OutOfFuel
    end.
  Proof. unfold bind. destruct (c s) as [[] s']; reflexivity || exact I. Qed.
  Lemma q_subframe_short bps buffer s : short_count bps buffer s ->
    fst (q_subframe t m bps buffer s)
    = match m with Debug => Panic "attempt to perform arithmetic with overflow" | Release => Err (FormatError "invalid residual") end.
  Proof.
    intros (c & k & w & method & po & rest & -> & Hk & Hkb & Hw & Hcnt & Hm & Hpo & Hd). pose proof (counted_range buffer) as Hcr.
    unfold q_subframe. unfold bind at 1. cbn [app bl_bit]. unfold bind at 1.
    rewrite (type_complete t (word 6 (coding_code c)) c) by (split; [destruct Hw; cbn; auto|reflexivity]).
    unfold bind at 1. rewrite (wasted_complete t m (wasted_field k) k) by auto.
    destruct (Z.leb_spec bps k); [lia|]. set (b := bps - k) in *.
    assert (fst (q_body t m c b buffer (w ++ word 2 method ++ word 4 po ++ rest))
      = match m with Debug => Panic "attempt to perform arithmetic with overflow" | Release => Err (FormatError "invalid residual") end) as HB.
    2: { pose proof (fst_bind_not_ok (q_body t m c b buffer) (fun s => ret (map (fun x => wrap32 (x * 2 ^ k)) s))
           (w ++ word 2 method ++ word 4 po ++ rest)) as HF. rewrite HB in HF. destruct m; exact HF. }
    destruct Hw as [o warm Ho Hl HF|o warm p sh cs Ho Hl HF Hp Hsh Hlc HFc]; cbn [q_body coding_order] in *.
    - unfold q_fixed. destruct (Z.ltb_spec (len buffer) o); [lia|].
      replace (Z.to_nat o) with (length warm) by lia.
      unfold bind at 1. rewrite signeds_complete by (auto; lia).
      pose proof (q_residual_short (counted buffer) o method po rest ltac:(lia) Hm Hpo Hd) as HR.
      match goal with |- fst (bind ?c ?f ?s) = _ => pose proof (fst_bind_not_ok c f s) as HX end. rewrite HR in HX. destruct m; exact HX.
    - unfold q_lpc. destruct (Z.ltb_spec (len buffer) o); [lia|].
      replace (p_repeat (Z.to_nat o) (p_signed t b)) with (p_repeat (length warm) (p_signed t b)) by (do 2 f_equal; lia).
      unfold bind at 1. rewrite <- !app_assoc, signeds_complete by (auto; lia).
      unfold bind at 1. unfold word at 1. change (Z.to_nat 4) with 4%nat.
      rewrite bl_bits_app by (change (2 ^ Z.of_nat 4) with 16; lia).
      destruct (Z.eqb_spec (p - 1) 15); [lia|].
      unfold bind at 1. rewrite (signed_complete t 5 ltac:(lia) (word 5 sh) sh)
        by (split; [red; change (2 ^ (5 - 1)) with 16; lia|reflexivity]).
      destruct (Z.ltb_spec sh 0); [lia|].
      replace (p - 1 + 1) with p by lia.
      replace (p_repeat (Z.to_nat o) (p_signed t p)) with (p_repeat (length cs) (p_signed t p)) by (do 2 f_equal; lia).
      unfold bind at 1. rewrite signeds_complete by (auto; lia).
      pose proof (q_residual_short (counted buffer) o method po rest ltac:(lia) Hm Hpo Hd) as HR.
      match goal with |- fst (bind ?c ?f ?s) = _ => pose proof (fst_bind_not_ok c f s) as HX end. rewrite HR in HX. destruct m; exact HX.
  Qed.

  Definition q_zero : P (list Z) :=
    pad <- bl_bit t ;;
    if (pad : bool) then fmt_err "invalid subframe header"
    else c <- p_type t ;; k <- p_wasted t m ;; fmt_err "subframe has no non-wasted bits".
  Lemma q_zero_total : total q_zero.
  Proof.
    apply safe_bind; [apply bit_total|intros pad]. destruct pad; [apply safe_fail|].
    apply safe_bind; [apply type_total|intros c]. apply safe_bind; [apply wasted_total|intros k]. apply safe_fail.
  Qed.
  Lemma q_zero_none s l s' : q_zero s = (Ok l, s') -> False.
  Proof.
    intros E. apply bind_ok in E as (pad & s1 & _ & E). destruct pad; [discriminate|].
    apply bind_ok in E as (c & s2 & _ & E). apply bind_ok in E as (k & s3 & _ & E). discriminate.
  Qed.
End Laws.

(** Short buffers. *)
Lemma counted_short (buffer : list Z) : len buffer < 2 ^ 16 -> counted buffer = Z.of_nat (length buffer).
Proof. intros H. unfold counted. apply Z.mod_small. unfold len in *. lia. Qed.
Lemma skip_short (buffer : list Z) : len buffer < 2 ^ 16 -> skipn (Z.to_nat (counted buffer)) buffer = [].
Proof. intros H. rewrite counted_short by exact H. rewrite Nat2Z.id. apply skipn_all. Qed.
Lemma body_into_short bps buffer c w s : len buffer < 2 ^ 16 -> body_into bps buffer c w s <-> body bps (length buffer) c w s.
Proof.
  intros H. pose proof (skip_short buffer H) as Hs. pose proof (counted_short buffer H) as Hc. split; intros HB; destruct HB.
  - constructor; auto.
  - constructor; auto.
  - rewrite Hs, app_nil_r. rewrite Hc in *. constructor; auto.
  - rewrite Hs, app_nil_r. rewrite Hc in *. constructor; auto.
  - constructor; auto.
  - constructor; auto.
  - rewrite <- (app_nil_r rs), <- Hs. rewrite <- Hc in *. constructor; auto.
  - rewrite <- (app_nil_r rs), <- Hs. rewrite <- Hc in *. constructor; auto.
Qed.
Theorem subframe_into_short bps buffer w s : len buffer < 2 ^ 16 -> subframe_into bps buffer w s <-> subframe bps (length buffer) w s.
Proof.
  intros H. split; intros (c & k & wb & s' & H1 & H2 & H3 & H4); exists c, k, wb, s'; (split; [exact H1|]; split; [exact H2|]; split; [|exact H4]);
    apply (body_into_short _ _ _ _ _ H), H3.
Qed.
Lemma short_count_short bps buffer bits : short_count bps buffer bits -> 2 ^ 16 <= len buffer.
Proof.
  intros (c & k & w & method & po & rest & _ & _ & _ & _ & [H1 H2] & _). destruct (Z.lt_ge_cases (len buffer) (2 ^ 16)) as [H|]; [|lia].
  unfold counted in H1. rewrite Z.mod_small in H1 by (pose proof (len_nonneg buffer); lia). lia.
Qed.

Section Stream.
  Context {S} (rb : ReadBytes S) (t : tail) (D : S -> list Z -> Prop) (HS : stream rb t D).
  Context (m : build) (fuel : nat).
  Notation R := (bits_left D fuel).
  Notation simR := (sim no_esc R eq).
  Let Hrs : rb_sim no_esc D rb (fl_rb t) := stream_rb_sim rb t D HS no_esc.

  Lemma any_left bps b : 1 <= bps <= 32 -> i32_slice b -> simR (decode rb m fuel bps b) (q_subframe t m bps b).
  Proof.
    intros H1 H2. eapply (bits_left_sim rb D fuel eq (fun rb => decode rb m fuel bps b)).
    - apply ProofSim.decode_sim, Hrs.
    - apply subframe_long; auto.
  Qed.
  Lemma zero_left b : simR (decode rb m fuel 0 b) (q_zero t m).
  Proof.
    eapply (bits_left_sim rb D fuel eq (fun rb => decode rb m fuel 0 b)).
    - apply ProofSim.decode_sim, Hrs.
    - apply subframe_zero.
  Qed.

  Theorem any_accepts bps buffer w s rest st : 0 <= bps <= 32 -> i32_slice buffer ->
    subframe_into bps buffer w s -> R st (w ++ rest) ->
    exists st', decode rb m fuel bps buffer st = (Ok s, st') /\ R st' rest.
  Proof.
    intros H1 H2 Hw HR. assert (bps = 0 \/ 1 <= bps <= 32) as [->|Hb] by lia.
    { destruct Hw as (c & k & wb & s' & Hk & Hk' & _). lia. }
    eapply left_run; [apply any_left; auto|exact HR|]. apply q_subframe_complete, Hw.
  Qed.
  Theorem any_only bps buffer bits s st st' : 0 <= bps <= 32 -> i32_slice buffer -> fine m bits -> R st bits ->
    decode rb m fuel bps buffer st = (Ok s, st') ->
    exists w rest, bits = w ++ rest /\ subframe_into bps buffer w s /\ R st' rest.
  Proof.
    intros H1 H2 Hf HR E. assert (bps = 0 \/ 1 <= bps <= 32) as [->|Hb] by lia.
    { exfalso. destruct (sim_fst R _ _ st _ (zero_left buffer) HR) as [E1 _]. rewrite E in E1.
      destruct (q_zero t m bits) as [o b'] eqn:Eq. cbn [fst] in E1. subst o. eapply q_zero_none, Eq. }
    eapply left_sound; eauto; [apply any_left; auto|apply q_subframe_sound; lia].
  Qed.
  Theorem any_shape bps buffer bits st : 0 <= bps <= 32 -> i32_slice buffer -> calm m bits -> R st bits ->
    value_or_error (fst (decode rb m fuel bps buffer st)) \/ m = Debug /\ short_count bps buffer bits.
  Proof.
    intros H1 H2 Hq HR. assert (bps = 0 \/ 1 <= bps <= 32) as [->|Hb] by lia.
    - left. destruct (sim_fst R _ _ st _ (zero_left buffer) HR) as [-> _]. apply q_zero_total, Hq.
    - destruct (sim_fst R _ _ st _ (any_left bps buffer Hb H2) HR) as [-> _]. apply q_subframe_shape, Hq.
  Qed.
  Theorem any_short bps buffer bits st : 0 <= bps <= 32 -> i32_slice buffer -> R st bits -> short_count bps buffer bits ->
    fst (decode rb m fuel bps buffer st)
    = match m with Debug => Panic "attempt to perform arithmetic with overflow" | Release => Err (FormatError "invalid residual") end.
  Proof.
    intros H1 H2 HR HC. assert (1 <= bps <= 32) as Hb by (destruct HC as (c & k & w & method & po & rest & _ & Hk & Hk' & _); lia).
    destruct (sim_fst R _ _ st _ (any_left bps buffer Hb H2) HR) as [-> _]. apply q_subframe_short, HC.
  Qed.
End Stream.

(** Release builds return a value or an error; debug builds panic exactly on short counts. *)
Theorem any_release {S} (rb : ReadBytes S) t D fuel bps buffer bits st : stream rb t D -> 0 <= bps <= 32 -> i32_slice buffer ->
  bits_left D fuel st bits -> value_or_error (fst (decode rb Release fuel bps buffer st)).
Proof.
  intros HS H1 H2 HR. destruct (any_shape rb t D HS Release fuel bps buffer bits st H1 H2 (or_introl eq_refl) HR) as [H|[H _]]; [exact H|discriminate].
Qed.
Theorem any_debug {S} (rb : ReadBytes S) t D fuel bps buffer bits st : stream rb t D -> 0 <= bps <= 32 -> i32_slice buffer ->
  quiet bits -> bits_left D fuel st bits ->
  ~ value_or_error (fst (decode rb Debug fuel bps buffer st)) <-> short_count bps buffer bits.
Proof.
  intros HS H1 H2 Hq HR. split.
  - intros H. destruct (any_shape rb t D HS Debug fuel bps buffer bits st H1 H2 (or_intror Hq) HR) as [H'|[_ H']]; [contradiction|exact H'].
  - intros H. rewrite (any_short rb t D HS Debug fuel bps buffer bits st H1 H2 HR H). intros [[? X]|[? X]]; discriminate X.
Qed.
Theorem any_wide {S} (rb : ReadBytes S) fuel bps buffer st : 32 < bps ->
  exists p, decode rb Debug fuel bps buffer st = (Panic p, st).
Proof. intros H. unfold decode, debug_assert. destruct (Z.leb_spec bps 32); [lia|]. eexists; reflexivity. Qed.

(** * A buffer of a multiple of 2^16 samples *)
Lemma restore_order_0 l : Forall isi32 l -> forall past, restore (fixed_predict 0) past l = l.
Proof.
  induction 1 as [|x l Hx _ IH]; intros past; cbn [restore]; [reflexivity|]. f_equal; [|apply IH].
  unfold fixed_predict. cbn. rewrite ?Z.add_0_l, ?Z.add_0_r. apply wrap32_id. exact Hx.
Qed.
Lemma empty_into bps buffer : 1 <= bps -> i32_slice buffer -> len buffer mod 2 ^ 16 = 0 -> subframe_into bps buffer empty_residual buffer.
Proof.
  intros Hb [Hi Hl] H0. exists (Fixed 0), 0, (words (bps - 0) [] ++ word 2 0 ++ word 4 0 ++ word 4 0), buffer.
  split; [lia|]. split; [lia|]. split; [|split; [reflexivity|]].
  - assert (restore (fixed_predict 0) (rev []) ([] ++ skipn (Z.to_nat (counted buffer)) buffer) = buffer) as E.
    { unfold counted. rewrite H0. apply restore_order_0, Hi. }
    rewrite <- E at 2. apply (into_fixed (bps - 0) buffer 0 []); try (cbn; lia); [constructor|].
    unfold counted. rewrite H0. exists 0, 0, [], [], (word 4 0), [].
    repeat (split; [first [lia|left; reflexivity|reflexivity|constructor]|]).
    split; [exists 0, []; split; [cbn; lia|split; [constructor|reflexivity]]|]. split; [constructor|]. split; reflexivity.
  - symmetry. rewrite <- (map_id buffer) at 2. apply map_ext_in. intros x Hx. rewrite Z.mul_1_r. apply wrap32_id.
    rewrite Forall_forall in Hi. apply Hi, Hx.
Qed.
Theorem any_unchanged {S} (rb : ReadBytes S) t D m fuel bps buffer rest st : stream rb t D ->
  1 <= bps <= 32 -> i32_slice buffer -> len buffer mod 2 ^ 16 = 0 -> bits_left D fuel st (empty_residual ++ rest) ->
  exists st', decode rb m fuel bps buffer st = (Ok buffer, st') /\ bits_left D fuel st' rest.
Proof.
  intros HS Hb Hi H0 HR. apply (any_accepts rb t D HS m fuel bps buffer empty_residual buffer rest st); auto; [lia|].
  apply empty_into; auto; lia.
Qed.

Definition sevens : list Z := repeat 7 (Z.to_nat 65536).
Lemma sevens_slice : i32_slice sevens /\ len sevens = 2 ^ 16.
Proof.
  assert (len sevens = 2 ^ 16) as H by (unfold sevens; rewrite len_repeat, Z2Nat.id by lia; reflexivity).
  split; [split|exact H].
  - apply Forall_forall. intros x Hx. apply repeat_spec in Hx as ->. lia.
  - rewrite H. lia.
Qed.
Theorem any_refuted : ~ subframes_any.
Proof.
  intros H. destruct sevens_slice as [Hs Hl].
  set (bytes := pack empty_residual). set (st := bs_new (mkCursor bytes 0)).
  assert (bytes_bits bytes = empty_residual ++ repeat false 6) as Hbb by reflexivity.
  assert (bits_left cursor_at 100 st (empty_residual ++ repeat false 6)) as HR.
  { rewrite <- Hbb. apply (bs_new_left _ _ _ (cu_stream Debug) 100 (mkCursor bytes 0) bytes).
    - exists []. repeat split; try (vm_compute; reflexivity). vm_compute. repeat constructor; discriminate.
    - vm_compute. lia. }
  destruct (any_unchanged _ _ _ Debug 100 8 sevens (repeat false 6) st (cu_stream Debug) ltac:(lia) Hs) as (st' & E & _);
    [rewrite Hl; reflexivity|exact HR|].
  destruct (H _ _ _ _ (cu_stream Debug) Debug 100%nat 8 sevens _ _ _ _ ltac:(lia) Hs (or_introl eq_refl) HR E) as (w & rest & Eb & Hw & _).
  pose proof (subframe_complete TEof Release 8 (length sevens) w sevens rest Hw) as C. rewrite <- Eb in C.
  replace (length sevens) with (Z.to_nat 65536) in C by (symmetry; apply repeat_length).
  assert (match fst (p_subframe TEof Release 8 (Z.to_nat 65536) (empty_residual ++ repeat false 6)) with Err _ => True | _ => False end) as C'
    by (vm_compute; exact I).
  rewrite C in C'. exact C'.
Qed.

Theorem short_exact {S} (rb : ReadBytes S) t D : stream rb t D -> forall m fuel bps buffer bits s st, 0 <= bps <= 32 ->
  i32_slice buffer -> len buffer < 2 ^ 16 -> bits_left D fuel st bits ->
  (forall w rest, bits = w ++ rest -> subframe bps (length buffer) w s ->
     exists st', decode rb m fuel bps buffer st = (Ok s, st') /\ bits_left D fuel st' rest)
  /\ (m = Debug \/ no_zero_run (2 ^ 32 - 1) bits -> forall st', decode rb m fuel bps buffer st = (Ok s, st') ->
     exists w rest, bits = w ++ rest /\ subframe bps (length buffer) w s /\ bits_left D fuel st' rest)
  /\ (m = Release \/ no_zero_run (2 ^ 32 - 1) bits -> value_or_error (fst (decode rb m fuel bps buffer st))).
Proof.
  intros HS m fuel bps buffer bits s st Hb Hi Hl HR. split; [|split].
  - intros w rest -> Hw. apply (any_accepts rb t D HS m fuel bps buffer w s rest st Hb Hi); [|exact HR].
    apply subframe_into_short; auto.
  - intros Hf st' E. destruct (any_only rb t D HS m fuel bps buffer bits s st st' Hb Hi Hf HR E) as (w & rest & E1 & Hw & HR').
    exists w, rest. split; [exact E1|]. split; [|exact HR']. apply subframe_into_short; auto.
  - intros Hq. destruct (any_shape rb t D HS m fuel bps buffer bits st Hb Hi Hq HR) as [H|[_ H]]; [exact H|].
    apply short_count_short in H. lia.
Qed.
