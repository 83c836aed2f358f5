(** The iterators over comments on any list. *)
From Verif Require Export SpecAnyTags ProofTags.
From Verif Require Import SpecReader.

Lemma utf8_nil : utf8 [].
Proof. exists []. split; [constructor|reflexivity]. Qed.
Lemma utf8_cons c l : scalar c -> utf8 l -> utf8 (utf8_char c ++ l).
Proof. intros Hc (cs & Hs & ->). exists (c :: cs). split; [constructor; assumption|reflexivity]. Qed.
Lemma char_tail c : scalar c -> exists b t, utf8_char c = b :: t /\ Forall (fun x => is_cont x = true) t.
Proof.
  intros Hc. unfold scalar in Hc. unfold utf8_char, is_cont.
  destruct (c <? 0x80) eqn:E1; [eexists _, _; split; [reflexivity|constructor]|].
  destruct (c <? 0x800) eqn:E2; [|destruct (c <? 0x10000) eqn:E3]; (eexists _, _; split; [reflexivity|]);
    repeat constructor; try (match goal with |- context [?x mod 64] => pose proof (Z.mod_pos_bound x 64 ltac:(lia)) end; lia).
Qed.
Lemma boundary_cut s i : utf8 s -> is_char_boundary s i = true -> exists a b, cut s i a b.
Proof.
  intros (cs & Hs & ->). revert i. induction Hs as [|c cs Hc Hs IH]; intros i Hb.
  - exists [], []. assert (i = 0) as ->.
    { unfold is_char_boundary in Hb. cbn -[Z.leb Z.ltb] in Hb. change (len (@nil Z)) with 0 in Hb. lia. }
    repeat split; apply utf8_nil.
  - cbn [flat_map] in *. assert (utf8 (flat_map utf8_char cs)) as Hr by (exists cs; split; [exact Hs|reflexivity]).
    destruct (Z.eq_dec i 0) as [->|N0].
    { exists [], (utf8_char c ++ flat_map utf8_char cs). split; [reflexivity|]. split; [reflexivity|]. split; [apply utf8_nil|apply utf8_cons; assumption]. }
    destruct (char_tail c Hc) as (b & t & Eu & Ht). pose proof (len_nonneg (flat_map utf8_char cs)) as L1. pose proof (len_nonneg (utf8_char c)) as L2.
    assert (len (utf8_char c) = len t + 1) as Lu by (rewrite Eu; apply len_cons).
    unfold is_char_boundary in Hb. rewrite len_app in Hb.
    destruct (Z.lt_ge_cases i (len (utf8_char c))) as [Hi|Hi].
    + exfalso. pose proof (len_nonneg t). destruct (Z.lt_ge_cases i 0) as [Hneg|Hneg]; [lia|].
      assert (nth_error (utf8_char c ++ flat_map utf8_char cs) (Z.to_nat i) = nth_error t (Z.to_nat (i - 1))) as En.
      { rewrite Eu. replace (Z.to_nat i) with (Datatypes.S (Z.to_nat (i - 1))) by lia. cbn [app nth_error]. apply nth_error_app1. unfold len in *. lia. }
      rewrite En in Hb. destruct (nth_error t (Z.to_nat (i - 1))) as [x|] eqn:Ex.
      * apply nth_error_In in Ex. rewrite Forall_forall in Ht. rewrite (Ht x Ex) in Hb. cbn in Hb. lia.
      * lia.
    + destruct (IH (i - len (utf8_char c))) as (x & y & E & El & Hx & Hy).
      { unfold is_char_boundary. destruct (Z.eqb_spec (i - len (utf8_char c)) 0); [reflexivity|].
        assert (nth_error (utf8_char c ++ flat_map utf8_char cs) (Z.to_nat i) = nth_error (flat_map utf8_char cs) (Z.to_nat (i - len (utf8_char c)))) as En.
        { rewrite nth_error_app2 by (unfold len in *; lia). f_equal. unfold len in *. lia. }
        rewrite En in Hb. destruct (nth_error (flat_map utf8_char cs) _) as [x|]; [destruct (is_cont x); cbn in *|]; lia. }
      exists (utf8_char c ++ x), y. split; [rewrite E, app_assoc; reflexivity|]. split; [rewrite len_app; lia|]. split; [apply utf8_cons; assumption|exact Hy].
Qed.
Lemma cut_boundary s i a b : cut s i a b -> is_char_boundary s i = true.
Proof. intros (-> & <- & _ & Hb). apply boundary_at, utf8_head, Hb. Qed.
Lemma cut_parts s i a b : cut s i a b -> firstn (Z.to_nat i) s = a /\ skipn (Z.to_nat i) s = b.
Proof.
  intros (-> & <- & _). unfold len. rewrite Nat2Z.id, firstn_app, skipn_app, Nat.sub_diag, firstn_all, skipn_all. split; [apply app_nil_r|reflexivity].
Qed.
(** Either a cut, and both halves, or a panic. *)
Lemma str_to_cases s i : utf8 s ->
  (exists a b, cut s i a b /\ str_to s i = Ok a /\ str_from s i = Ok b)
  \/ no_cut s i /\ (exists why, str_to s i = Panic why) /\ exists why, str_from s i = Panic why.
Proof.
  intros Hs. unfold str_to, str_from. destruct (is_char_boundary s i) eqn:E; [left|right].
  - destruct (boundary_cut s i Hs E) as (a & b & C). destruct (cut_parts s i a b C) as [-> ->]. exists a, b. auto.
  - split; [|eauto]. intros a b C. rewrite (cut_boundary s i a b C) in E. discriminate.
Qed.

Theorem tags_lists n : forall cs, Forall (fun c => utf8 (fst c)) cs ->
  let h := history_all (fun _ : unit => tags_next) (repeat tt n) (tags_new cs) in
  lists cs (fst h) /\ tags_size_hint (snd h) = (len (skipn n cs), Some (len (skipn n cs))).
Proof.
  unfold tags_new. induction n as [|n IH]; intros cs Hu; cbv zeta in *.
  - split; [constructor|reflexivity].
  - rewrite history_succ. destruct Hu as [|[s i] cs Hc Hu].
    + cbn [tags_next]. specialize (IH [] (Forall_nil _)). destruct (history_all (fun _ : unit => tags_next) (repeat tt n) []) as [rs st]. cbn [fst snd] in *. destruct IH as [I1 I2].
      split; [constructor; exact I1|]. rewrite I2. rewrite !skipn_nil. reflexivity.
    + cbn [tags_next fst] in *. specialize (IH cs Hu). destruct (history_all (fun _ : unit => tags_next) (repeat tt n) cs) as [rs st]. cbn [fst snd skipn] in *. destruct IH as [I1 I2]. split; [|exact I2].
      destruct (str_to_cases s i Hc) as [(a & b & C & -> & _)|(N & (w & ->) & _)]; cbn.
      * destruct (str_to_cases s (i + 1) Hc) as [(a' & b' & C' & _ & ->)|(N & _ & w & ->)]; cbn.
        -- apply lists_tag; [exists b; exact C|exists a'; exact C'|exact I1].
        -- apply lists_bad; [right; exact N|exact I1].
      * apply lists_bad; [left; exact N|exact I1].
Qed.

Section Find.
  Context (needle : list Z).
  Definition standing (pre todo : list (list Z * Z)) : get_tag := mkGt (pre ++ todo) needle (len pre).
  Definition one (todo : list (list Z * Z)) (r : outcome (option (list Z))) (rest : list (list Z * Z)) : Prop :=
    forall rs, finds needle rest rs -> finds needle todo (r :: rs).
  Lemma loop_finds : forall todo pre fuel, Forall (fun c => utf8 (fst c)) todo -> (length todo < fuel)%nat ->
    exists r p rest, get_tag_loop fuel (standing pre todo) = (r, standing p rest) /\ p ++ rest = pre ++ todo
      /\ Forall (fun c => utf8 (fst c)) rest /\ one todo r rest.
  Proof.
    induction todo as [|[s i] todo IH]; intros pre fuel Hu Hf; (destruct fuel as [|fuel]; [lia|]); cbn [get_tag_loop]; rewrite bind_get; repeat match goal with |- context [gt_comments (standing pre ?t)] => change (gt_comments (standing pre t)) with (pre ++ t) | |- context [gt_index (standing pre ?t)] => change (gt_index (standing pre t)) with (len pre) | |- context [gt_needle (standing pre ?t)] => change (gt_needle (standing pre t)) with needle end.
    - rewrite !app_nil_r. replace (len pre <? len pre) with false by lia. exists (Ok None), pre, []. unfold standing. rewrite !app_nil_r. split; [reflexivity|]. split; [reflexivity|].
      split; [constructor|]. intros rs H. apply finds_end, H.
    - rewrite len_app, len_cons. pose proof (len_nonneg todo). replace (len pre <? len pre + (len todo + 1)) with true by lia.
      assert (index (pre ++ (s, i) :: todo) (len pre) = Ok (s, i)) as ->.
      { unfold index. pose proof (len_nonneg pre). destruct (Z.leb_spec 0 (len pre)); [|lia]. replace (Z.to_nat (len pre)) with (length pre) by (unfold len; lia).
        rewrite nth_error_app2, Nat.sub_diag by lia. reflexivity. }
      rewrite bind_lift_ok. cbv beta iota. unfold bind at 1. cbn [put]. cbv beta iota.
      assert (mkGt (pre ++ (s, i) :: todo) needle (len pre + 1) = standing (pre ++ [(s, i)]) todo) as Est.
      { unfold standing. rewrite <- app_assoc, len_app. reflexivity. }
      rewrite Est.
      inversion_clear Hu as [|? ? Hc Hu']. cbn [fst] in Hc. cbn [length] in Hf.
      destruct (str_to_cases s i Hc) as [(a & b & C & -> & _)|(N & (w & ->) & _)].
      + rewrite bind_lift_ok. destruct (eq_ignore_ascii_case a needle) eqn:E.
        * apply name_ok in E. destruct (str_to_cases s (i + 1) Hc) as [(a' & b' & C' & _ & ->)|(N & _ & w & ->)].
          -- rewrite bind_lift_ok. eexists _, _, _. split; [reflexivity|]. split; [rewrite <- app_assoc; reflexivity|]. split; [exact Hu'|].
             intros rs H'. apply finds_value with a; [exists b; exact C|exact E|exists a'; exact C'|exact H'].
          -- eexists _, _, _. split; [reflexivity|]. split; [rewrite <- app_assoc; reflexivity|]. split; [exact Hu'|].
             intros rs H'. apply finds_no_value with a; [exists b; exact C|exact E|exact N|exact H'].
        * destruct (IH (pre ++ [(s, i)]) fuel Hu' ltac:(lia)) as (r & p & rest & El & Ep & Hr & H1). exists r, p, rest. split; [exact El|].
          split; [rewrite Ep, <- app_assoc; reflexivity|]. split; [exact Hr|]. intros rs H'. apply finds_other with a; [exists b; exact C| |apply H1, H'].
          intros X. apply name_ok in X. congruence.
      + eexists _, _, _. split; [reflexivity|]. split; [rewrite <- app_assoc; reflexivity|]. split; [exact Hu'|]. intros rs H'. apply finds_no_name; [exact N|exact H'].
  Qed.
  Theorem get_finds n cs : Forall (fun c => utf8 (fst c)) cs ->
    finds needle cs (fst (history_all (fun _ : unit => get_tag_next) (repeat tt n) (get_tag_new cs needle))).
  Proof.
    change (get_tag_new cs needle) with (standing [] cs). generalize (@nil (list Z * Z)) as pre. revert cs.
    induction n as [|n IH]; intros cs pre Hu; [constructor|]. rewrite history_succ. unfold get_tag_next at 1. rewrite bind_get.
    destruct (loop_finds cs pre (Datatypes.S (length (gt_comments (standing pre cs)))) Hu) as (r & p & rest & -> & _ & Hr & H1).
    { cbn [standing gt_comments]. rewrite app_length. lia. }
    specialize (IH rest p Hr). destruct (history_all (fun _ : unit => get_tag_next) (repeat tt n) (standing p rest)) as [rs st]. cbn [fst] in *. apply H1, IH.
  Qed.
End Find.

(** The results are determined. *)
Lemma cut_unique s i a b a' b' : cut s i a b -> cut s i a' b' -> a = a' /\ b = b'.
Proof. intros H H'. apply cut_parts in H as [<- <-]. apply cut_parts in H' as [<- <-]. auto. Qed.
Ltac clash := exfalso; unfold name_of, value_of, no_name, no_value, no_cut in *; repeat match goal with
  | H : exists _, cut _ _ _ _ |- _ => destruct H
  | N : forall a b, ~ cut ?s ?i a b, C : cut ?s ?i _ _ |- _ => exact (N _ _ C)
  end.
Lemma name_unique c a b : name_of c a -> name_of c b -> a = b.
Proof. intros [x H] [y H']. apply (cut_unique _ _ _ _ _ _ H H'). Qed.
Lemma value_unique c a b : value_of c a -> value_of c b -> a = b.
Proof. intros [x H] [y H']. apply (cut_unique _ _ _ _ _ _ H H'). Qed.
Theorem lists_determined cs rs : lists cs rs -> forall rs', lists cs rs' -> length rs = length rs' -> Forall2 same_result rs rs'.
Proof.
  induction 1; intros rs' H' Hl; inversion H'; subst; cbn in Hl; try discriminate; constructor; auto.
  - left. reflexivity.
  - left. rewrite (name_unique c name name0), (value_unique c value value0) by assumption. reflexivity.
  - match goal with H : _ \/ _ |- _ => destruct H end; clash.
  - match goal with H : no_name _ \/ _ |- _ => destruct H end; clash.
  - right. eauto.
Qed.
Theorem finds_determined needle cs rs : finds needle cs rs -> forall rs', finds needle cs rs' -> length rs = length rs' -> Forall2 same_result rs rs'.
Proof.
  assert (forall c n n', name_of c n -> name_of c n' -> same_name n needle -> ~ same_name n' needle -> False) as Cl.
  { intros c n n' H H' Y N. rewrite (name_unique c n n' H H') in Y. exact (N Y). }
  induction 1; intros rs' H' Hl.
  - destruct rs'; [constructor|discriminate].
  - inversion H'; subst; [discriminate|]. constructor; [left; reflexivity|auto].
  - inversion H'; subst; [discriminate| | | |]; cbn in Hl; try (exfalso; eauto; fail); try (constructor; [|auto]; fail); try (solve [clash]).
    constructor; [|auto]. left. rewrite (value_unique c value value0) by assumption. reflexivity.
  - inversion H'; subst; [|exfalso; eauto; fail|auto|clash|exfalso; eauto; fail]. destruct rs; [constructor|discriminate].
  - inversion H'; subst; [discriminate|clash|clash|constructor; [right; eauto|auto]|clash].
  - inversion H'; subst; [discriminate|clash|exfalso; eauto; fail|clash|constructor; [right; eauto|auto]].
Qed.

Theorem parts_cases text sep : utf8 text ->
  ((exists name, name_of (text, sep) name) \/ no_name (text, sep))
  /\ ((exists value, value_of (text, sep) value) \/ no_value (text, sep)).
Proof.
  intros H. split.
  - destruct (str_to_cases text sep H) as [(a & b & C & _)|(N & _)]; [left; exists a, b; exact C|right; exact N].
  - destruct (str_to_cases text (sep + 1) H) as [(a & b & C & _)|(N & _)]; [left; exists b, a; exact C|right; exact N].
Qed.
Theorem good_parts name value : utf8 name -> utf8 value ->
  name_of (name ++ 61 :: value, len name) name /\ value_of (name ++ 61 :: value, len name) value.
Proof.
  intros Hn Hv. assert (utf8 [61]) as H1 by (apply (utf8_cons 61 []); [unfold scalar; lia|apply utf8_nil]).
  assert (forall a b, utf8 a -> utf8 b -> utf8 (a ++ b)) as App.
  { intros a b (cs & Hc & ->) (ds & Hd & ->). exists (cs ++ ds). split; [apply Forall_app; auto|symmetry; apply flat_map_app]. }
  split.
  - exists (61 :: value). cbn [fst snd]. split; [reflexivity|]. split; [reflexivity|]. split; [exact Hn|]. apply (App [61] value H1 Hv).
  - exists (name ++ [61]). cbn [fst snd]. split; [rewrite <- app_assoc; reflexivity|]. split; [rewrite len_app; reflexivity|]. split; [apply App; assumption|exact Hv].
Qed.
