(** The comparison of comments in the tests. *)
From Verif Require Import SpecComments ProofTests ProofBench ProofPrograms2.
From Verif Require Import SpecReader.

(** * Lines *)
Lemma strip_plain l : ~ ends_with 13 l -> strip_cr l = l.
Proof.
  intros H. unfold strip_cr. destruct (rev l) as [|b r] eqn:E; [reflexivity|]. destruct (Z.eqb_spec b 13) as [->|]; [|reflexivity].
  exfalso. apply H. exists (rev r). rewrite <- (rev_involutive l), E. reflexivity.
Qed.
Lemma strip_app p l : l <> [] \/ ~ ends_with 13 p -> strip_cr (p ++ l) = p ++ strip_cr l.
Proof.
  intros H. unfold strip_cr at 2. destruct (rev l) as [|b r] eqn:E.
  - apply (f_equal (@rev Z)) in E. rewrite rev_involutive in E. cbn in E. subst l. rewrite app_nil_r.
    destruct H as [H|H]; [congruence|]. apply strip_plain, H.
  - unfold strip_cr. rewrite rev_app_distr, E. cbn [app]. destruct (b =? 13); [|reflexivity].
    rewrite rev_app_distr, rev_involutive. reflexivity.
Qed.
Lemma strip_head l : strip_cr l = [] \/ hd_error (strip_cr l) = hd_error l.
Proof.
  unfold strip_cr. destruct (rev l) as [|b r] eqn:E; [right; reflexivity|]. destruct (b =? 13); [|right; reflexivity].
  apply (f_equal (@rev Z)) in E. rewrite rev_involutive in E. cbn in E. subst l. destruct (rev r); [left|right]; reflexivity.
Qed.

Section Lines.
  Context (bare : bool).
  Lemma lines_plain l : forall cur s, ~ In 10 l -> lines_from bare cur (l ++ s) = lines_from bare (rev l ++ cur) s.
  Proof.
    induction l as [|b l IH]; intros cur s H; [reflexivity|]. cbn [app lines_from]. destruct (Z.eqb_spec b 10) as [->|]; [destruct H; left; reflexivity|].
    rewrite IH by (intros X; apply H; right; exact X). cbn [rev]. rewrite <- app_assoc. reflexivity.
  Qed.
  (** A terminated piece of text. *)
  Lemma lines_cut v : forall cur s, lines_from bare cur (v ++ 10 :: s) = lines_from bare cur (v ++ [10]) ++ lines_from bare [] s.
  Proof.
    induction v as [|b v IH]; intros cur s; cbn [app lines_from].
    - reflexivity.
    - destruct (b =? 10); rewrite IH; reflexivity.
  Qed.
  Lemma line_first l s : ~ In 10 l -> lines_from bare [] (l ++ 10 :: s) = strip_cr l :: lines_from bare [] s.
  Proof. intros H. rewrite lines_plain by exact H. rewrite app_nil_r. cbn [lines_from Z.eqb Pos.eqb]. rewrite rev_involutive. reflexivity. Qed.
  (** With a newline behind: the same lines, or an empty one more. *)
  Lemma lines_terminated v : forall cur, (bare = true -> ~ ends_with 13 (rev cur ++ v)) ->
    lines_from bare cur (v ++ [10]) = lines_from bare cur v \/ lines_from bare cur (v ++ [10]) = lines_from bare cur v ++ [[]].
  Proof.
    induction v as [|b v IH]; intros cur H; cbn [app lines_from].
    - cbn [Z.eqb Pos.eqb]. destruct cur as [|c cur]; [right; reflexivity|]. left. rewrite app_nil_r in H.
      destruct bare; [|reflexivity]. rewrite strip_plain by (apply H; reflexivity). reflexivity.
    - destruct (Z.eqb_spec b 10) as [->|Hb].
      + destruct (IH []) as [E|E]; [|left|right].
        * intros Hbare. specialize (H Hbare). intros [l' E]. apply H. cbn in E. exists (rev cur ++ 10 :: l'). rewrite E, <- app_assoc. reflexivity.
        * rewrite E. reflexivity.
        * rewrite E. reflexivity.
      + apply IH. intros Hbare. specialize (H Hbare). cbn [rev]. rewrite <- app_assoc. exact H.
  Qed.
  Lemma lines_behind p : p <> [] -> ~ ends_with 13 p -> forall v cur,
    lines_from bare (cur ++ rev p) v = match lines_from bare cur v with [] => [p] | h :: t => (p ++ h) :: t end.
  Proof.
    intros Hp Hc. induction v as [|b v IH]; intros cur; cbn [lines_from].
    - destruct cur as [|c cur]; cbn [app].
      + destruct (rev p) as [|x r] eqn:E; [apply (f_equal (@rev Z)) in E; rewrite rev_involutive in E; contradiction|].
        rewrite <- E, rev_involutive, strip_plain by exact Hc. destruct bare; reflexivity.
      + change (c :: cur ++ rev p) with ((c :: cur) ++ rev p). rewrite rev_app_distr, rev_involutive.
        destruct bare; [reflexivity|]. rewrite strip_app by (right; exact Hc). reflexivity.
    - destruct (b =? 10).
      + rewrite rev_app_distr, rev_involutive, strip_app by (right; exact Hc). reflexivity.
      + apply (IH (b :: cur)).
  Qed.
  Lemma lines_head v : forall cur h t, lines_from bare cur v = h :: t -> h = [] \/ hd_error h = hd_error (rev cur ++ v).
  Proof.
    induction v as [|b v IH]; intros cur h t; cbn [lines_from].
    - destruct cur as [|c cur]; [discriminate|]. intros E. injection E as <- _. rewrite app_nil_r.
      destruct bare; [right; reflexivity|]. apply strip_head.
    - destruct (b =? 10).
      + intros E. injection E as <- _. destruct (strip_head (rev cur)) as [E|E]; [left; exact E|].
        destruct (rev cur) as [|c r] eqn:Er; [left; reflexivity|]. right. rewrite E. reflexivity.
      + intros E. apply IH in E. cbn [rev] in E. rewrite <- app_assoc in E. exact E.
  Qed.
  Lemma lines_one v : one_line v -> str_lines bare v = match v with [] => [] | _ => [v] end.
  Proof.
    intros [H1 H2]. unfold str_lines. rewrite <- (app_nil_r v) at 1. rewrite lines_plain, app_nil_r by exact H1. cbn [lines_from].
    destruct (rev v) as [|x r] eqn:E.
    - apply (f_equal (@rev Z)) in E. rewrite rev_involutive in E. cbn in E. subst v. reflexivity.
    - rewrite <- E, rev_involutive, strip_plain by exact H2. destruct v; [discriminate|]. destruct bare; reflexivity.
  Qed.
End Lines.

(** * Strings *)
Lemma starts_app p s : starts_with p (p ++ s) = true.
Proof. induction p as [|b p IH]; [reflexivity|]. cbn. rewrite Z.eqb_refl. exact IH. Qed.
Lemma starts_only p : forall s, starts_with p s = true -> exists r, s = p ++ r.
Proof.
  induction p as [|b p IH]; intros s H; [exists s; reflexivity|]. destruct s as [|c s]; [discriminate|]. cbn in H.
  apply andb_true_iff in H as [H1 H2]. apply Z.eqb_eq in H1 as ->. apply IH in H2 as [r ->]. exists r. reflexivity.
Qed.
Lemma starts_strip p l : starts_with p (strip_cr l) = true -> exists r, l = p ++ r.
Proof.
  intros H. apply starts_only in H as [r E]. unfold strip_cr in E. destruct (rev l) as [|b x] eqn:El; [exists r; exact E|].
  destruct (b =? 13); [|exists r; exact E]. apply (f_equal (@rev Z)) in El. rewrite rev_involutive in El. cbn in El.
  exists (r ++ [b]). rewrite app_assoc, <- E. exact El.
Qed.
Lemma from_app p s : (s = [] \/ exists x r, s = x :: r /\ is_cont x = false) -> str_from (p ++ s) (len p) = Ok s.
Proof.
  intros H. unfold str_from. rewrite boundary_at by exact H. f_equal. unfold len. rewrite Nat2Z.id, skipn_app, Nat.sub_diag, skipn_all. reflexivity.
Qed.
Lemma to_app p s : (s = [] \/ exists x r, s = x :: r /\ is_cont x = false) -> str_to (p ++ s) (len p) = Ok p.
Proof.
  intros H. unfold str_to. rewrite boundary_at by exact H. f_equal. unfold len. rewrite Nat2Z.id, firstn_app, Nat.sub_diag, firstn_all. apply app_nil_r.
Qed.
Lemma position_app b l s : ~ In b l -> forall i, position b (l ++ b :: s) i = Some (i + len l).
Proof.
  induction l as [|x l IH]; intros H i; cbn [app position].
  - rewrite Z.eqb_refl. f_equal. change (len (@nil Z)) with 0. lia.
  - destruct (Z.eqb_spec x b) as [->|]; [destruct H; left; reflexivity|]. rewrite IH by (intros X; apply H; right; exact X).
    f_equal. rewrite len_cons. lia.
Qed.
Lemma assert_same a : assert_eq_str a a = Ok tt.
Proof. unfold assert_eq_str. destruct (list_eq_dec _ a a); congruence. Qed.
Lemma assert_other a b : a <> b -> assert_eq_str a b = Panic "assertion failed: `(left == right)`".
Proof. unfold assert_eq_str. destruct (list_eq_dec _ a b); congruence. Qed.
Lemma head_utf8 v h t bare : utf8 v -> str_lines bare v = h :: t -> h = [] \/ exists x r, h = x :: r /\ is_cont x = false.
Proof.
  intros Hv E. apply lines_head in E. destruct E as [->|E]; [left; reflexivity|]. cbn in E.
  destruct h as [|x r]; [left; reflexivity|]. right. exists x, r. split; [reflexivity|].
  apply utf8_head in Hv as [->|(b & r' & -> & Hb)]; [discriminate|]. cbn in E. congruence.
Qed.
Lemma literal_is s : literal s = text s.
Proof. exact (literal_text s). Qed.

(** * Vendor *)
Lemma vendor_front bare vendor front s : Forall front_line front ->
  compare_vendor vendor (str_lines bare (flat_map (fun l => l ++ [10]) front ++ s)) = compare_vendor vendor (str_lines bare s).
Proof.
  induction 1 as [|l front [H1 H2] HF IH]; [reflexivity|]. cbn [flat_map]. rewrite <- !app_assoc. unfold str_lines in *. cbn [app].
  rewrite line_first by exact H1. cbn [compare_vendor]. rewrite literal_is.
  destruct (starts_with (text "  vendor string: ") (strip_cr l)) eqn:E.
  - apply starts_strip in E as [r E]. destruct (H2 r E).
  - exact IH.
Qed.
Lemma digits_no b n num : digits n num -> b < 48 -> ~ In b num.
Proof. intros (_ & H & _) Hb Hi. rewrite Forall_forall in H. apply H in Hi. lia. Qed.
Lemma text_vendor_plain : ~ In 10 (text "  vendor string: ").
Proof. vm_compute. intuition discriminate. Qed.
Lemma vendor_line bare vendor v s : one_line v -> utf8 v ->
  compare_vendor vendor (str_lines bare (text "  vendor string: " ++ v ++ 10 :: s))
  = match vendor with
    | Some x => if list_eq_dec Z.eq_dec (vendor_in_c x) v then Ok (str_lines bare s)
                else Panic "assertion failed: `(left == right)`"
    | None => Panic "assertion failed: `(left == right)`"
    end.
Proof.
  intros [H1 H2] Hu. unfold str_lines. rewrite app_assoc, line_first by (intros Hi; apply in_app_or in Hi as [Hi|Hi]; [exact (text_vendor_plain Hi)|auto]).
  rewrite strip_app by (right; intros [l E]; change (text "  vendor string: ") with (text "  vendor string:" ++ [32]) in E; apply app_inj_tail in E as [_ E]; discriminate).
  rewrite strip_plain by exact H2. cbn [compare_vendor]. rewrite literal_is, starts_app, from_app by (apply utf8_head, Hu). cbn [obind].
  destruct vendor as [x|]; [|reflexivity].
  assert (starts_with [0] x = true \/ starts_with [0] x = false) as [E|E] by (destruct (starts_with [0] x); auto); rewrite E.
  - destruct x as [|b x]; [discriminate|]. destruct b; [|discriminate..]. cbn [vendor_in_c].
    unfold assert_eq_str. destruct (list_eq_dec _ [] v); reflexivity.
  - assert (vendor_in_c x = x) as ->.
    { destruct x as [|b x]; [reflexivity|]. destruct b; [discriminate|reflexivity..]. }
    unfold assert_eq_str. destruct (list_eq_dec _ x v); reflexivity.
Qed.

(** * Comments *)
Lemma comment_line bare num name h L it : Forall (fun d => 48 <= d <= 57) num -> Forall (fun b => 32 <= b <= 125 /\ b <> 61) name ->
  (h = [] \/ exists x r, h = x :: r /\ is_cont x = false) ->
  compare_comments bare [] (((text "    comment[" ++ num ++ text "]: " ++ name ++ [61]) ++ h) :: L) it
  = (let (next, it') := tags_next it in
     next <~ next ;;
     pair <~ expect_some next "unwrap" ;;
     _ <~ assert_eq_str (fst pair) name ;;
     _ <~ assert_eq_str (hd [] (str_lines bare (snd pair))) h ;;
     compare_comments bare (tl (str_lines bare (snd pair))) L it').
Proof.
  intros Hn Hm Hh. cbn [compare_comments]. rewrite literal_is, <- app_assoc, starts_app.
  assert (forall x r, 32 <= x < 128 -> (x :: r = [] \/ exists y s, x :: r = y :: s /\ is_cont y = false)) as A.
  { intros x r Hx. right. exists x, r. split; [reflexivity|]. unfold is_cont. lia. }
  rewrite from_app.
  2:{ destruct num as [|d num]; [|inversion_clear Hn; apply A; lia]. change (text "]: ") with [93; 58; 32]. apply A. lia. }
  cbn [obind].
  replace ((num ++ text "]: " ++ name ++ [61]) ++ h) with ((num ++ [93; 58]) ++ 32 :: name ++ [61] ++ h)
    by (change (text "]: ") with [93; 58; 32]; rewrite <- !app_assoc; reflexivity).
  rewrite position_app. 2:{ intros Hi. apply in_app_or in Hi as [Hi|[Hi|[Hi|[]]]]; [|discriminate..]. rewrite Forall_forall in Hn. apply Hn in Hi. lia. }
  cbn [expect_some obind]. rewrite Z.add_0_l. change (32 :: name ++ [61] ++ h) with ([32] ++ (name ++ [61] ++ h)). rewrite app_assoc.
  replace (len (num ++ [93; 58]) + 1) with (len ((num ++ [93; 58]) ++ [32])) by (rewrite len_app; reflexivity).
  rewrite from_app. 2:{ destruct name as [|d name]; [|inversion_clear Hm; apply A; lia]. apply A. lia. }
  cbn [obind app]. rewrite position_app. 2:{ intros Hi. rewrite Forall_forall in Hm. apply Hm in Hi. lia. }
  cbn [expect_some obind]. rewrite Z.add_0_l, to_app by (apply A; lia). cbn [obind].
  change (61 :: h) with ([61] ++ h). rewrite app_assoc. replace (len name + 1) with (len (name ++ [61])) by (rewrite len_app; reflexivity).
  rewrite from_app by exact Hh. cbn [obind]. reflexivity.
Qed.
Lemma comments_pending bare vs L it : compare_comments bare vs (vs ++ L) it = compare_comments bare [] L it.
Proof. induction vs as [|v vs IH]; [reflexivity|]. cbn [app compare_comments]. rewrite assert_same. cbn [obind]. exact IH. Qed.
Lemma comments_empty_line bare L it : compare_comments bare [] ([] :: L) it = compare_comments bare [] L it.
Proof. reflexivity. Qed.

Section Prefix.
  Context (num name : list Z) (Hnum : Forall (fun d => 48 <= d <= 57) num) (Hname : Forall (fun b => 32 <= b <= 125 /\ b <> 61) name).
  Let p := text "    comment[" ++ num ++ text "]: " ++ name ++ [61].
  Lemma prefix_plain : ~ In 10 p.
  Proof.
    unfold p. intros Hi. rewrite Forall_forall in Hnum, Hname.
    apply in_app_or in Hi as [Hi|Hi]; [vm_compute in Hi; intuition discriminate|].
    apply in_app_or in Hi as [Hi|Hi]; [apply Hnum in Hi; lia|].
    apply in_app_or in Hi as [Hi|Hi]; [vm_compute in Hi; intuition discriminate|].
    apply in_app_or in Hi as [Hi|Hi]; [apply Hname in Hi; lia|]. destruct Hi as [Hi|[]]. discriminate.
  Qed.
  Lemma prefix_end v : ~ ends_with 13 v -> ~ ends_with 13 (p ++ v).
  Proof.
    intros Hv [l E]. destruct v as [|x v] using rev_ind.
    - unfold p in E. rewrite app_nil_r, !app_assoc in E. apply app_inj_tail in E as [_ E]. discriminate.
    - rewrite app_assoc in E. apply app_inj_tail in E as [_ ->]. apply Hv. exists v. reflexivity.
  Qed.
  Lemma prefix_some : p <> [].
  Proof. discriminate. Qed.
  Lemma prefix_lines bare v w : (bare = true -> ~ ends_with 13 v) -> exists more, (more = [] \/ more = [[]])
    /\ str_lines bare (p ++ v ++ 10 :: w) = (p ++ hd [] (str_lines bare v)) :: tl (str_lines bare v) ++ more ++ str_lines bare w.
  Proof.
    intros Hv. unfold str_lines. rewrite lines_plain by exact prefix_plain. rewrite app_nil_r, lines_cut.
    pose proof (lines_behind bare p prefix_some) as X.
    assert (~ ends_with 13 p) as Hp. { rewrite <- (app_nil_r p). apply prefix_end. intros [l E]. destruct l; discriminate. }
    specialize (X Hp v []). cbn [app] in X.
    destruct (lines_terminated bare v (rev p)) as [E|E].
    - intros Hb. rewrite rev_involutive. apply prefix_end. auto.
    - exists []. split; [left; reflexivity|]. rewrite E, X. destruct (lines_from bare [] v); cbn [hd tl app]; rewrite ?app_nil_r; reflexivity.
    - exists [[]]. split; [right; reflexivity|]. rewrite E, X. destruct (lines_from bare [] v); cbn [hd tl app]; rewrite ?app_nil_r, <- ?app_assoc; reflexivity.
  Qed.
End Prefix.

Lemma hd_lines bare v : utf8 v -> hd [] (str_lines bare v) = [] \/ exists x r, hd [] (str_lines bare v) = x :: r /\ is_cont x = false.
Proof. intros Hv. destruct (str_lines bare v) as [|h t] eqn:E; [left; reflexivity|]. cbn [hd]. eapply head_utf8; eassumption. Qed.

Lemma comments_same bare cs : forall i w it more, comments_printed i cs w -> yields tags_next it (cs ++ more) ->
  Forall comment_ok cs -> (bare = true -> Forall (fun c => ~ ends_with 13 (snd c)) cs) ->
  compare_comments bare [] (str_lines bare w) it = Ok tt.
Proof.
  induction cs as [|[n v] cs IH]; intros i w it more Hp HY Hok Hb; inversion Hp as [|i' num c cs' w' Hd Hp']; subst; [reflexivity|].
  inversion_clear Hok as [|? ? [Hn Hv] Hok']. cbn [fst snd] in *. destruct Hd as (_ & Hd & _).
  unfold comment_text. cbn [fst snd].
  replace (text "    comment[" ++ num ++ text "]: " ++ (n ++ [61] ++ v) ++ [10] ++ w')
    with ((text "    comment[" ++ num ++ text "]: " ++ n ++ [61]) ++ v ++ 10 :: w') by (rewrite <- !app_assoc; reflexivity).
  destruct (prefix_lines num n Hd Hn bare v w') as (m & Hm & E).
  { intros E. specialize (Hb E). inversion_clear Hb. assumption. }
  rewrite E, comment_line by (auto using hd_lines). cbn [app] in HY. apply yields_cons in HY as (it' & E' & HY). rewrite E'. cbn [obind expect_some fst snd].
  rewrite !assert_same. cbn [obind]. rewrite comments_pending.
  assert (compare_comments bare [] (str_lines bare w') it' = Ok tt) as R.
  { eapply IH; [exact Hp'|exact HY|exact Hok'|]. intros Eb. specialize (Hb Eb). inversion_clear Hb. assumption. }
  destruct Hm as [->| ->]; exact R.
Qed.

Lemma comments_one bare cs' : forall i w it cs, comments_printed i cs' w -> yields tags_next it cs ->
  Forall comment_ok cs' -> Forall (fun c => one_line (snd c)) cs' -> Forall (fun c => one_line (snd c)) cs ->
  (compare_comments bare [] (str_lines bare w) it = Ok tt /\ exists more, cs = cs' ++ more)
  \/ ((exists why, compare_comments bare [] (str_lines bare w) it = Panic why) /\ forall more, cs <> cs' ++ more).
Proof.
  induction cs' as [|[n v] cs' IH]; intros i w it cs Hp HY Hok H1 H2; inversion Hp as [|i' num c cs1 w' Hd Hp']; subst.
  { left. split; [reflexivity|]. exists cs. reflexivity. }
  inversion_clear Hok as [|? ? [Hn Hv] Hok']. inversion_clear H1 as [|? ? H1v H1']. cbn [fst snd] in *. destruct Hd as (_ & Hd & _).
  unfold comment_text. cbn [fst snd].
  replace (text "    comment[" ++ num ++ text "]: " ++ (n ++ [61] ++ v) ++ [10] ++ w')
    with ((text "    comment[" ++ num ++ text "]: " ++ n ++ [61]) ++ v ++ 10 :: w') by (rewrite <- !app_assoc; reflexivity).
  destruct (prefix_lines num n Hd Hn bare v w') as (m & Hm & E).
  { intros _. apply H1v. }
  assert (forall v, one_line v -> hd [] (str_lines bare v) = v /\ tl (str_lines bare v) = []) as HL.
  { intros u Hu. rewrite lines_one by exact Hu. destruct u; auto. }
  destruct (HL v H1v) as [Eh Et].
  rewrite E, comment_line by (auto using hd_lines). rewrite Eh, Et. cbn [app].
  destruct cs as [|[n' v'] cs].
  { apply yields_nil in HY as (it' & E' & _). rewrite E'. right. split; [eexists; reflexivity|]. intros more. discriminate. }
  apply yields_cons in HY as (it' & E' & HY). rewrite E'. cbn [obind expect_some fst snd].
  inversion_clear H2 as [|? ? H2v H2']. cbn [snd] in H2v. destruct (HL v' H2v) as [Eh' Et']. rewrite Eh', Et'.
  destruct (list_eq_dec Z.eq_dec n' n) as [->|Hne].
  2:{ rewrite assert_other by exact Hne. right. split; [eexists; reflexivity|]. intros more E0. injection E0 as E0 _ _. contradiction. }
  rewrite assert_same. cbn [obind]. destruct (list_eq_dec Z.eq_dec v' v) as [->|Hne].
  2:{ rewrite assert_other by exact Hne. right. split; [eexists; reflexivity|]. intros more E0. injection E0 as E0 _. contradiction. }
  rewrite assert_same. cbn [obind].
  assert (compare_comments bare [] (m ++ str_lines bare w') it' = compare_comments bare [] (str_lines bare w') it') as ->
    by (destruct Hm as [->| ->]; reflexivity).
  destruct (IH _ w' it' cs Hp' HY Hok' H1' H2') as [(R & more & ->)|(R & Hno)].
  - left. split; [exact R|]. exists more. reflexivity.
  - right. split; [exact R|]. intros more E0. injection E0 as E0. exact (Hno more E0).
Qed.
Lemma count_line bare num w it : Forall (fun d => 48 <= d <= 57) num ->
  compare_comments bare [] (str_lines bare (text "  comments: " ++ num ++ 10 :: w)) it = compare_comments bare [] (str_lines bare w) it.
Proof.
  intros H. unfold str_lines. rewrite app_assoc, line_first.
  - cbn [compare_comments]. rewrite literal_is. destruct (starts_with _ (strip_cr _)) eqn:E; [|reflexivity].
    apply starts_strip in E as [r E]. discriminate E.
  - intros Hi. apply in_app_or in Hi as [Hi|Hi]; [vm_compute in Hi; intuition discriminate|]. rewrite Forall_forall in H. apply H in Hi. lia.
Qed.

(** ** Values with another number of lines *)
Lemma comments_prefix bare cs : forall cs2 i w it more, comments_printed i (cs ++ cs2) w -> yields tags_next it (cs ++ more) ->
  Forall comment_ok cs -> (bare = true -> Forall (fun c => ~ ends_with 13 (snd c)) cs) ->
  exists j w' it', comments_printed j cs2 w' /\ yields tags_next it' more
    /\ compare_comments bare [] (str_lines bare w) it = compare_comments bare [] (str_lines bare w') it'.
Proof.
  induction cs as [|[n v] cs IH]; intros cs2 i w it more Hp HY Hok Hb; cbn [app] in Hp, HY; [exists i, w, it; auto|].
  inversion Hp as [|i' num c cs' w' Hd Hp']; subst.
  inversion_clear Hok as [|? ? [Hn Hv] Hok']. cbn [fst snd] in *. destruct Hd as (_ & Hd & _).
  unfold comment_text. cbn [fst snd].
  replace (text "    comment[" ++ num ++ text "]: " ++ (n ++ [61] ++ v) ++ [10] ++ w')
    with ((text "    comment[" ++ num ++ text "]: " ++ n ++ [61]) ++ v ++ 10 :: w') by (rewrite <- !app_assoc; reflexivity).
  destruct (prefix_lines num n Hd Hn bare v w') as (m & Hm & E).
  { intros E. specialize (Hb E). inversion_clear Hb. assumption. }
  apply yields_cons in HY as (it' & E' & HY).
  destruct (IH cs2 _ w' it' more Hp' HY Hok') as (j & w2 & it2 & H1 & H2 & H3).
  { intros Eb. specialize (Hb Eb). inversion_clear Hb. assumption. }
  exists j, w2, it2. split; [exact H1|]. split; [exact H2|].
  rewrite E, comment_line by (auto using hd_lines). rewrite E'. cbn [obind expect_some fst snd].
  rewrite !assert_same. cbn [obind]. rewrite comments_pending, <- H3.
  destruct Hm as [->| ->]; reflexivity.
Qed.
(** The lines of a listed value, however its lines end. *)
Lemma listed_lines num n bare v w : Forall (fun d => 48 <= d <= 57) num -> Forall (fun b => 32 <= b <= 125 /\ b <> 61) n ->
  str_lines bare ((text "    comment[" ++ num ++ text "]: " ++ n ++ [61]) ++ v ++ 10 :: w)
  = ((text "    comment[" ++ num ++ text "]: " ++ n ++ [61]) ++ hd [] (str_lines bare (v ++ [10])))
    :: tl (str_lines bare (v ++ [10])) ++ str_lines bare w.
Proof.
  intros Hd Hn. set (p := text "    comment[" ++ _). unfold str_lines. rewrite lines_plain by exact (prefix_plain num n Hd Hn).
  rewrite app_nil_r, lines_cut.
  pose proof (lines_behind bare p) as X. specialize (X ltac:(discriminate)).
  assert (~ ends_with 13 p) as Hp.
  { rewrite <- (app_nil_r p). apply (prefix_end num n). intros [l E]. destruct l; discriminate. }
  specialize (X Hp (v ++ [10]) []). cbn [app] in X. rewrite X.
  destruct (lines_from bare [] (v ++ [10])); cbn [hd tl app]; rewrite ?app_nil_r; reflexivity.
Qed.
Lemma lines_some bare s : forall cur, cur <> [] \/ s <> [] -> lines_from bare cur s <> [].
Proof.
  induction s as [|b s IH]; intros cur H; cbn [lines_from].
  - destruct cur; [destruct H; congruence|discriminate].
  - destruct (b =? 10); [discriminate|]. apply IH. left. discriminate.
Qed.
Lemma lines_in bare s l : forall cur, In l (lines_from bare cur s) -> exists a b, 10 :: rev cur ++ s = a ++ 10 :: l ++ b.
Proof.
  assert (forall l, exists r, l = strip_cr l ++ r) as HS.
  { intros k. unfold strip_cr. destruct (rev k) as [|b r] eqn:E; [exists []; rewrite app_nil_r; reflexivity|].
    destruct (b =? 13); [|exists []; rewrite app_nil_r; reflexivity]. exists [b].
    apply (f_equal (@rev Z)) in E. rewrite rev_involutive in E. exact E. }
  induction s as [|b s IH]; intros cur H; cbn [lines_from] in H.
  - destruct cur as [|c cur]; [destruct H|]. destruct H as [<-|[]]. destruct (HS (rev (c :: cur))) as [r Er].
    destruct bare; [exists [], []|exists [], r]; cbn [app]; [rewrite ?app_nil_r; reflexivity|rewrite app_nil_r, <- Er; reflexivity].
  - destruct (Z.eqb_spec b 10) as [->|Hb].
    + destruct H as [<-|H].
      * destruct (HS (rev cur)) as [r Er]. exists [], (r ++ 10 :: s). cbn [app]. f_equal. rewrite app_assoc, <- Er. reflexivity.
      * destruct (IH [] H) as (a & c & E). exists (10 :: rev cur ++ a), c. cbn [rev app] in *. rewrite E, <- app_assoc. reflexivity.
    + destruct (IH _ H) as (a & c & E). exists a, c. cbn [rev] in E. rewrite <- app_assoc in E. exact E.
Qed.
Lemma lines_skipped bare L M it : Forall (fun l => starts_with (text "    comment[") l = false) L ->
  compare_comments bare [] (L ++ M) it = compare_comments bare [] M it.
Proof.
  induction 1 as [|l L Hl H IH]; [reflexivity|]. cbn [app compare_comments]. rewrite literal_is, Hl. exact IH.
Qed.

(** ** Exactly which listings pass *)
Lemma no_cr_end l : ~ In 13 l -> ~ ends_with 13 l.
Proof. intros H [l' ->]. apply H, in_or_app. right. left. reflexivity. Qed.
Lemma lines_joined bare u : forall cur, ~ In 13 (rev cur ++ u) ->
  flat_map (fun l => l ++ [10]) (lines_from bare cur (u ++ [10])) = rev cur ++ u ++ [10].
Proof.
  induction u as [|b u IH]; intros cur H; cbn [app lines_from].
  - cbn [Z.eqb Pos.eqb flat_map lines_from]. rewrite app_nil_r in *. rewrite strip_plain by (apply no_cr_end, H). reflexivity.
  - destruct (Z.eqb_spec b 10) as [->|Hb].
    + cbn [flat_map]. rewrite IH by (intros X; apply H, in_or_app; right; right; exact X).
      rewrite strip_plain by (apply no_cr_end; intros X; apply H, in_or_app; left; exact X).
      cbn [rev app]. rewrite <- app_assoc. reflexivity.
    + rewrite IH; cbn [rev]; rewrite <- app_assoc; [reflexivity|exact H].
Qed.
Lemma lines_cut_end v0 bare : ~ ends_with 13 v0 -> ~ ends_with 10 v0 -> v0 <> [] -> str_lines bare v0 = str_lines bare (v0 ++ [10]).
Proof.
  intros Hc Hn Hne. unfold str_lines.
  assert (forall v cur, (v = [] -> cur <> []) -> ~ ends_with 13 (rev cur ++ v) -> ~ ends_with 10 v ->
    lines_from bare cur v = lines_from bare cur (v ++ [10])) as X.
  { induction v as [|b v IH]; intros cur H H1 H2; cbn [app lines_from].
    - cbn [Z.eqb Pos.eqb]. rewrite app_nil_r in H1. destruct cur as [|c cur]; [destruct H; reflexivity|].
      rewrite (strip_plain _ H1). destruct bare; reflexivity.
    - assert (v = [] -> b <> 10) as Hb. { intros -> ->. apply H2. exists []. reflexivity. }
      assert (~ ends_with 10 v) as H2'. { intros [l ->]. apply H2. exists (b :: l). reflexivity. }
      destruct (Z.eqb_spec b 10) as [->|Hb'].
      + destruct v as [|c v]; [destruct (Hb eq_refl); reflexivity|]. f_equal. apply IH; [discriminate| |exact H2'].
        cbn [rev app]. intros [l E]. apply H1. exists (rev cur ++ 10 :: l). rewrite E, <- app_assoc. reflexivity.
      + apply IH; [discriminate| |exact H2']. cbn [rev]. rewrite <- app_assoc. exact H1. }
  apply X; [congruence|exact Hc|exact Hn].
Qed.
(** The value without its last newline. *)
Lemma value_end (v : list Z) : exists v0, (v = v0 ++ [10] \/ v = v0 /\ ~ ends_with 10 v).
Proof.
  destruct v as [|b v _] using rev_ind; [exists []; right; split; [reflexivity|intros [l E]; destruct l; discriminate]|].
  destruct (Z.eq_dec b 10) as [->|Hb]; [exists v; left; reflexivity|]. exists (v ++ [b]). right. split; [reflexivity|].
  intros [l E]. apply app_inj_tail in E as [_ E]. contradiction.
Qed.
Lemma head_tail bare v v0 : ~ In 13 v -> (v = v0 ++ [10] \/ v = v0 /\ ~ ends_with 10 v) ->
  hd [] (str_lines bare v) = hd [] (str_lines bare (v0 ++ [10])) /\ tl (str_lines bare v) = tl (str_lines bare (v0 ++ [10])).
Proof.
  intros Hc [->|[-> Hn]]; [auto|]. destruct v0 as [|b v0]; [auto|].
  rewrite (lines_cut_end (b :: v0)); [auto|apply no_cr_end, Hc|exact Hn|discriminate].
Qed.
Lemma listed_iff bare v v' v0 : ~ In 13 v -> ~ In 13 v' -> (v = v0 ++ [10] \/ v = v0 /\ ~ ends_with 10 v) ->
  value_listed v v' <-> exists R, str_lines bare (v' ++ [10]) = str_lines bare (v0 ++ [10]) ++ R.
Proof.
  intros Hc Hc' Hv. split.
  - intros (v1 & x & H1 & E).
    assert (exists y, v' ++ [10] = v0 ++ [10] ++ y) as [y Ey].
    { destruct Hv as [->|[-> Hn]].
      - destruct H1 as [<-|H1]; [exists ([10] ++ x); rewrite E, <- !app_assoc; reflexivity|].
        apply app_inj_tail in H1 as [-> _]. eauto.
      - destruct H1 as [->| ->]; [eauto|]. destruct Hn. exists v1. reflexivity. }
    exists (str_lines bare y). rewrite Ey. unfold str_lines. apply lines_cut.
  - intros [R E]. assert (~ In 13 v0) as H0 by (intros X; destruct Hv as [->|[-> _]]; [apply Hc, in_or_app; left|apply Hc]; exact X).
    apply (f_equal (flat_map (fun l => l ++ [10]))) in E. unfold str_lines in E.
    rewrite flat_map_app in E. rewrite !lines_joined in E by (cbn [rev app]; assumption). cbn [rev app] in E.
    exists v0, (flat_map (fun l => l ++ [10]) R). split; [destruct Hv as [->|[-> _]]; auto|].
    rewrite E, <- app_assoc. reflexivity.
Qed.
Lemma tail_plain bare v l : (forall a b, v <> a ++ [10] ++ text "    comment[" ++ b) -> In l (tl (str_lines bare (v ++ [10]))) ->
  starts_with (text "    comment[") l = false.
Proof.
  intros Hv Hl. destruct (starts_with _ l) eqn:Es; [|reflexivity]. exfalso. apply starts_only in Es as [r ->].
  assert (forall s l cur, In l (tl (lines_from bare cur s)) -> exists a b, s = a ++ 10 :: l ++ b) as X.
  { clear. intros s l. induction s as [|c s IH]; intros cur H; cbn [lines_from] in H.
    - destruct cur; destruct H.
    - destruct (Z.eqb_spec c 10) as [->|Hc].
      + cbn [tl] in H. apply lines_in in H as (a & b & E). exists a, b. exact E.
      + destruct (IH _ H) as (a & b & ->). exists (c :: a), b. reflexivity. }
  apply X in Hl as (a & b & E). rewrite <- app_assoc in E.
  destruct (r ++ b) as [|y z _] using rev_ind.
  - rewrite app_nil_r in E. change (a ++ 10 :: text "    comment[") with (a ++ (10 :: text "    comment") ++ [91]) in E.
    rewrite app_assoc in E. apply app_inj_tail in E as [_ E]. discriminate.
  - apply (Hv a z). cbn [app]. change (10 :: text "    comment[" ++ z ++ [y]) with ((10 :: text "    comment[") ++ z ++ [y]) in E.
    rewrite !app_assoc in E. apply app_inj_tail in E as [E _]. rewrite E, <- app_assoc. reflexivity.
Qed.
(** The further lines of a value, against the rest of the listing. *)
Lemma further_lines bare F : forall L W it, Forall (fun l => starts_with (text "    comment[") l = false) F ->
  Forall (fun l => starts_with (text "    comment[") l = false) L ->
  (W = [] \/ exists x W', W = x :: W' /\ starts_with (text "    comment[") x = true) ->
  (exists R, L = F ++ R) /\ compare_comments bare F (L ++ W) it = compare_comments bare [] W it
  \/ (forall R, L <> F ++ R) /\ exists why, compare_comments bare F (L ++ W) it = Panic why.
Proof.
  induction F as [|f F IH]; intros L W it HF HL HW.
  - left. split; [exists L; reflexivity|]. apply lines_skipped, HL.
  - inversion_clear HF as [|? ? Hf HF']. destruct L as [|l L].
    + right. split; [intros R; discriminate|]. cbn [app]. destruct HW as [->|(x & W' & -> & Hx)]; [eexists; reflexivity|].
      cbn [compare_comments]. rewrite assert_other by congruence. eexists; reflexivity.
    + inversion_clear HL as [|? ? Hl HL']. cbn [app compare_comments]. destruct (list_eq_dec Z.eq_dec f l) as [->|Hne].
      * rewrite assert_same. cbn [obind]. destruct (IH L W it HF' HL' HW) as [[[R ->] E]|[Hn E]].
        -- left. split; [exists R; reflexivity|exact E].
        -- right. split; [|exact E]. intros R [= ER]. exact (Hn R ER).
      * rewrite assert_other by exact Hne. right. split; [intros R [= ER _]; congruence|]. eexists; reflexivity.
Qed.
Lemma printed_first bare i cs w : comments_printed i cs w -> Forall comment_ok cs ->
  str_lines bare w = [] \/ exists x W', str_lines bare w = x :: W' /\ starts_with (text "    comment[") x = true.
Proof.
  intros H Hok. destruct H as [|i num [n v] cs w (_ & Hd & _) H]; [left; reflexivity|right].
  inversion_clear Hok as [|? ? [Hn _] _]. cbn [fst snd] in Hn. unfold comment_text. cbn [fst snd].
  match goal with |- exists x W', str_lines _ ?X = _ /\ _ =>
    replace X with ((text "    comment[" ++ num ++ text "]: " ++ n ++ [61]) ++ v ++ 10 :: w) by (rewrite <- !app_assoc; reflexivity) end.
  rewrite listed_lines by assumption. eexists _, _. split; [reflexivity|]. rewrite <- app_assoc. apply starts_app.
Qed.
Lemma utf8_newline v : utf8 v -> utf8 (v ++ [10]).
Proof.
  intros (cps & Hc & ->). exists (cps ++ [10]). split; [apply Forall_app; split; [exact Hc|repeat constructor; unfold scalar; lia]|].
  rewrite flat_map_app. reflexivity.
Qed.
Lemma comments_exact bare cs' : forall i w it cs, comments_printed i cs' w -> yields tags_next it cs ->
  Forall comment_ok cs' -> Forall (fun c => plain_value (snd c)) cs' -> Forall (fun c => plain_value (snd c)) cs ->
  (compare_comments bare [] (str_lines bare w) it = Ok tt /\ comments_listed cs cs')
  \/ ((exists why, compare_comments bare [] (str_lines bare w) it = Panic why) /\ ~ comments_listed cs cs').
Proof.
  induction cs' as [|[n v] cs' IH]; intros i w it cs Hp HY Hok H1 H2.
  { inversion Hp; subst. left. split; [reflexivity|]. exists [], cs. split; [reflexivity|constructor]. }
  inversion Hp as [|i' num c cs1 w' Hd Hp']; subst.
  inversion_clear Hok as [|? ? [Hn Hv] Hok']. inversion_clear H1 as [|? ? [H1c H1v] H1']. cbn [fst snd] in *. destruct Hd as (_ & Hd & _).
  unfold comment_text. cbn [fst snd].
  replace (text "    comment[" ++ num ++ text "]: " ++ (n ++ [61] ++ v) ++ [10] ++ w')
    with ((text "    comment[" ++ num ++ text "]: " ++ n ++ [61]) ++ v ++ 10 :: w') by (rewrite <- !app_assoc; reflexivity).
  rewrite listed_lines by assumption. rewrite comment_line by (auto using hd_lines, utf8_newline).
  destruct cs as [|[n' u] cs].
  { apply yields_nil in HY as (it' & E' & _). rewrite E'. right. split; [eexists; reflexivity|].
    intros (cs1 & more & E0 & HF). destruct cs1; [inversion HF|discriminate]. }
  apply yields_cons in HY as (it' & E' & HY). rewrite E'. cbn [obind expect_some fst snd].
  inversion_clear H2 as [|? ? [H2c H2v] H2']. cbn [snd] in *.
  assert (forall A B, comments_listed ((n', u) :: cs) ((n, v) :: cs') -> (n' = n -> value_listed u v -> comments_listed cs cs' -> A /\ B) -> A /\ B) as HL.
  { intros A B (cs1 & more & E0 & HF) K. inversion HF as [|c0 c1 l0 l1 [F1 F2] HF']; subst. cbn [app] in E0. injection E0 as <- E0.
    cbn [fst snd] in *. apply K; [exact F1|exact F2|]. exists l0, more. auto. }
  destruct (list_eq_dec Z.eq_dec n' n) as [->|Hne].
  2:{ rewrite assert_other by exact Hne. right. split; [eexists; reflexivity|]. intros X. apply (HL False False X). contradiction. }
  rewrite assert_same. cbn [obind].
  destruct (value_end u) as [u0 Hu0]. destruct (head_tail bare u u0 H2c Hu0) as [Eh Et]. rewrite Eh, Et.
  pose proof (listed_iff bare u v u0 H2c H1c Hu0) as Hiff.
  destruct (str_lines bare (v ++ [10])) as [|h L] eqn:EL; [exfalso; revert EL; apply lines_some; right; destruct v; discriminate|].
  destruct (str_lines bare (u0 ++ [10])) as [|g F] eqn:EF; [exfalso; revert EF; apply lines_some; right; destruct u0; discriminate|].
  cbn [hd tl].
  destruct (list_eq_dec Z.eq_dec g h) as [->|Hne].
  2:{ rewrite assert_other by exact Hne. right. split; [eexists; reflexivity|]. intros X. apply (HL False False X). intros _ Y _.
      apply Hiff in Y as [R Y]. injection Y as Y _. congruence. }
  rewrite assert_same. cbn [obind].
  assert (Forall (fun l => starts_with (text "    comment[") l = false) L) as HLp.
  { apply Forall_forall. intros l Hl. apply (tail_plain bare v l H1v). rewrite EL. exact Hl. }
  assert (Forall (fun l => starts_with (text "    comment[") l = false) F) as HFp.
  { apply Forall_forall. intros l Hl. apply (tail_plain bare u0 l); [|rewrite EF; exact Hl].
    intros a b E0. destruct Hu0 as [->|[-> _]]; [|exact (H2v a b E0)]. apply (H2v a (b ++ [10])). rewrite E0, <- !app_assoc. reflexivity. }
  destruct (further_lines bare F L (str_lines bare w') it' HFp HLp (printed_first bare _ _ _ Hp' Hok')) as [[[R ->] E0]|[HnR [why E0]]].
  - rewrite E0. assert (value_listed u v) as Huv by (apply Hiff; exists R; reflexivity).
    destruct (IH _ w' it' cs Hp' HY Hok' H1' H2') as [[X (cs1 & more & -> & HF)]|[X Y]].
    + left. split; [exact X|]. exists ((n, u) :: cs1), more. split; [reflexivity|]. constructor; [auto|exact HF].
    + right. split; [exact X|]. intros Z0. apply (HL False False Z0). intros _ _ Z1. contradiction.
  - rewrite E0. right. split; [eauto|]. intros X. apply (HL False False X). intros _ Y _. apply Hiff in Y as [R Y].
    injection Y as Y. exfalso. exact (HnR R Y).
Qed.

(** * Files *)
Section Files.
  Context (m : build) (un : nat -> list Z) (Hun : forall n, length (un n) = n) (fuel : nat) (bare : bool).

  Lemma reader_shows fs path t w rest si vendor cs : file_at fs path t (w ++ rest) -> (length (w ++ rest) < fuel)%nat ->
    well_formed si (Some (vorbis_of vendor cs)) w -> exists r, flac_open m un fuel fs path = Ok r
      /\ fr_vendor r = Some vendor /\ yields tags_next (fr_tags r) cs /\ Forall comment_ok cs /\ utf8 vendor.
  Proof.
    intros Hat Hf Hw. pose proof Hat as (script & Efs & Hd).
    destruct (path_opens m un Hun fuel fs path t w rest si _ Hat Hf Hw) as (r & inp & E & _ & Ev & _).
    exists r. split; [exact E|]. unfold flac_open in E. rewrite Efs in E.
    destruct (tags_of_reader (br_rb m) t (buffered t) (br_stream m t) m un Hun fuel default_options (br_new script) (w ++ rest) r (br_new_buffered t script _ Hd) Hf E) as (vendor' & cs' & Hok & Hs & Hv).
    rewrite Ev in Hv. destruct Hv as (v1 & Ev1 & Hu & E1). apply vorbis_inj in E1 as [E0 <-]. subst.
    split; [rewrite (proj1 Hs); congruence|]. split; [|split; [exact Hok|congruence]]. intros n. apply (proj1 (proj2 Hs) n).
  Qed.

  Lemma printed_runs vendor' cs' out vendor it : printed vendor' cs' out -> one_line vendor' -> utf8 vendor' ->
    exists w, comments_printed 0 cs' w /\
    (lines <~ compare_vendor vendor (str_lines bare out) ;; compare_comments bare [] lines it)
    = match vendor with
      | Some x => if list_eq_dec Z.eq_dec (vendor_in_c x) vendor' then compare_comments bare [] (str_lines bare w) it
                  else Panic "assertion failed: `(left == right)`"
      | None => Panic "assertion failed: `(left == right)`"
      end.
  Proof.
    intros (front & num & w & Hfr & (_ & Hd & _) & Hp & ->) H1 Hu. exists w. split; [exact Hp|].
    rewrite vendor_front by exact Hfr. cbn [app]. rewrite vendor_line by assumption.
    destruct vendor as [x|]; [|reflexivity]. destruct (list_eq_dec _ _ _); [|reflexivity]. cbn [obind]. apply count_line, Hd.
  Qed.
  Theorem comments_pass fs path t w rest si vendor cs out : file_at fs path t (w ++ rest) -> (length (w ++ rest) < fuel)%nat ->
    well_formed si (Some (vorbis_of vendor cs)) w -> printed (vendor_in_c vendor) cs out ->
    one_line (vendor_in_c vendor) -> (bare = true -> Forall (fun c => ~ ends_with 13 (snd c)) cs) ->
    compare_metaflac_vorbis_comment m un fuel bare fs path out = Ok tt.
  Proof.
    intros Hat Hf Hw Hp H1 Hb. destruct (reader_shows fs path t w rest si vendor cs Hat Hf Hw) as (r & E & Ev & HY & Hok & Hu).
    unfold compare_metaflac_vorbis_comment. rewrite E. cbn [expect obind]. rewrite Ev.
    destruct (printed_runs _ cs out (Some vendor) (fr_tags r) Hp H1) as (w' & Hp' & R).
    { destruct vendor as [|[| |] v]; [exact Hu|exists []; split; [constructor|reflexivity]|exact Hu..]. }
    rewrite R. destruct (list_eq_dec _ _ _) as [_|]; [|congruence].
    apply (comments_same bare cs 0 w' (fr_tags r) [] Hp'); [rewrite app_nil_r; exact HY|exact Hok|exact Hb].
  Qed.
  Theorem comments_compared fs path t w rest si vendor cs vendor' cs' out : file_at fs path t (w ++ rest) -> (length (w ++ rest) < fuel)%nat ->
    well_formed si (Some (vorbis_of vendor cs)) w -> printed vendor' cs' out ->
    utf8 vendor' -> Forall comment_ok cs' -> one_line vendor' ->
    Forall (fun c => one_line (snd c)) cs -> Forall (fun c => one_line (snd c)) cs' ->
    (compare_metaflac_vorbis_comment m un fuel bare fs path out = Ok tt
     /\ vendor' = vendor_in_c vendor /\ exists more, cs = cs' ++ more)
    \/ ((exists why, compare_metaflac_vorbis_comment m un fuel bare fs path out = Panic why)
        /\ ~ (vendor' = vendor_in_c vendor /\ exists more, cs = cs' ++ more)).
  Proof.
    intros Hat Hf Hw Hp Hu' Hok' H1 H2 H3. destruct (reader_shows fs path t w rest si vendor cs Hat Hf Hw) as (r & E & Ev & HY & Hok & Hu).
    unfold compare_metaflac_vorbis_comment. rewrite E. cbn [expect obind]. rewrite Ev.
    destruct (printed_runs _ cs' out (Some vendor) (fr_tags r) Hp H1 Hu') as (w' & Hp' & R). rewrite R.
    destruct (list_eq_dec _ _ _) as [<-|Hne].
    - destruct (comments_one bare cs' 0 w' (fr_tags r) cs Hp' HY Hok' H3 H2) as [(X & more & Y)|(X & Y)].
      + left. eauto.
      + right. split; [exact X|]. intros (_ & more & Z0). exact (Y more Z0).
    - right. split; [eexists; reflexivity|]. intros (X & _). congruence.
  Qed.
  Theorem comments_without fs path t w rest si : file_at fs path t (w ++ rest) -> (length (w ++ rest) < fuel)%nat ->
    well_formed si None w -> compare_metaflac_vorbis_comment m un fuel bare fs path [] = Ok tt
      /\ forall vendor' cs' out, printed vendor' cs' out -> utf8 vendor' -> one_line vendor' ->
         exists why, compare_metaflac_vorbis_comment m un fuel bare fs path out = Panic why.
  Proof.
    intros Hat Hf Hw. destruct (path_opens m un Hun fuel fs path t w rest si _ Hat Hf Hw) as (r & inp & E & _ & Ev & _).
    unfold compare_metaflac_vorbis_comment. rewrite E. cbn [expect obind]. split; [reflexivity|].
    intros vendor' cs' out Hp Hu H1. unfold fr_vendor. rewrite Ev. cbn [option_map].
    destruct (printed_runs _ cs' out None (fr_tags r) Hp H1 Hu) as (w' & _ & R). rewrite R. eauto.
  Qed.
  Theorem comments_unopened fs path t l out : file_at fs path t l -> (length l < fuel)%nat ->
    (exists si vc w rest, l = w ++ rest /\ well_formed si vc w)
    \/ exists why e, compare_metaflac_vorbis_comment m un fuel bare fs path out = Panic why /\ file_unopened t l e.
  Proof.
    intros Hat Hf. destruct (path_fails m un Hun fuel fs path t l Hat Hf) as [H|(e & E & Hu)]; [left; exact H|right].
    unfold compare_metaflac_vorbis_comment. rewrite E. cbn. eauto.
  Qed.
  Theorem comments_cut fs path t w rest si vendor cs n v x more out : file_at fs path t (w ++ rest) -> (length (w ++ rest) < fuel)%nat ->
    well_formed si (Some (vorbis_of vendor (cs ++ (n, v ++ [10] ++ x) :: more))) w -> x <> [] ->
    printed (vendor_in_c vendor) (cs ++ [(n, v)]) out -> utf8 v ->
    one_line (vendor_in_c vendor) -> (bare = true -> Forall (fun c => ~ ends_with 13 (snd c)) cs) ->
    exists why, compare_metaflac_vorbis_comment m un fuel bare fs path out = Panic why.
  Proof.
    intros Hat Hf Hw Hx Hp Hv H1 Hb. destruct (reader_shows fs path t w rest si vendor _ Hat Hf Hw) as (r & E & Ev & HY & Hok & Hu).
    unfold compare_metaflac_vorbis_comment. rewrite E. cbn [expect obind]. rewrite Ev.
    destruct (printed_runs _ _ out (Some vendor) (fr_tags r) Hp H1) as (w' & Hp' & R).
    { destruct vendor as [|[| |] ?]; [exact Hu|exists []; split; [constructor|reflexivity]|exact Hu..]. }
    rewrite R. destruct (list_eq_dec _ _ _) as [_|]; [|congruence]. clear R.
    apply Forall_app in Hok as [Hok1 Hok2]. inversion_clear Hok2 as [|? ? [Hn _] _]. cbn [fst snd] in Hn.
    destruct (comments_prefix bare cs _ 0 w' (fr_tags r) _ Hp' HY Hok1 Hb) as (j & w2 & it & Hp2 & HY2 & ->).
    inversion Hp2 as [|i' num c cs' w3 (_ & Hd & _) Hp3]; subst. inversion Hp3; subst. unfold comment_text. cbn [fst snd].
    replace (text "    comment[" ++ num ++ text "]: " ++ (n ++ [61] ++ v) ++ [10] ++ [])
      with ((text "    comment[" ++ num ++ text "]: " ++ n ++ [61]) ++ v ++ 10 :: []) by (rewrite <- !app_assoc; reflexivity).
    rewrite listed_lines by assumption.
    assert (hd [] (str_lines bare (v ++ [10])) = [] \/ exists y r0, hd [] (str_lines bare (v ++ [10])) = y :: r0 /\ is_cont y = false) as Hh.
    { apply hd_lines. destruct Hv as (cps & Hc & ->). exists (cps ++ [10]). split; [apply Forall_app; split; [exact Hc|repeat constructor; unfold scalar; lia]|].
      rewrite flat_map_app. reflexivity. }
    rewrite comment_line by assumption.
    apply yields_cons in HY2 as (it' & E' & _). rewrite E'. cbn [obind expect_some fst snd].
    assert (str_lines bare (v ++ [10] ++ x) = str_lines bare (v ++ [10]) ++ str_lines bare x) as -> by (unfold str_lines; apply lines_cut).
    rewrite assert_same. cbn [obind].
    destruct (str_lines bare (v ++ [10])) as [|h L] eqn:EL; [exfalso; revert EL; apply lines_some; right; destruct v; discriminate|].
    cbn [hd tl app]. rewrite assert_same. cbn [obind]. change (str_lines bare []) with (@nil (list Z)).
    destruct (str_lines bare x) as [|y Y] eqn:EX; [exfalso; revert EX; apply lines_some; right; exact Hx|].
    clear - L. induction L as [|l L IH]; [eexists; reflexivity|]. cbn [app compare_comments]. rewrite assert_same. exact IH.
  Qed.
  Theorem comments_overlooked fs path t w rest si vendor cs n v x more out : file_at fs path t (w ++ rest) -> (length (w ++ rest) < fuel)%nat ->
    well_formed si (Some (vorbis_of vendor (cs ++ (n, v) :: more))) w ->
    (forall a b, 10 :: x <> a ++ [10] ++ text "    comment[" ++ b) ->
    printed (vendor_in_c vendor) (cs ++ (n, v ++ [10] ++ x) :: more) out ->
    one_line (vendor_in_c vendor) -> (bare = true -> Forall (fun c => ~ ends_with 13 (snd c)) (cs ++ (n, v) :: more)) ->
    compare_metaflac_vorbis_comment m un fuel bare fs path out = Ok tt.
  Proof.
    intros Hat Hf Hw Hx Hp H1 Hb. destruct (reader_shows fs path t w rest si vendor _ Hat Hf Hw) as (r & E & Ev & HY & Hok & Hu).
    unfold compare_metaflac_vorbis_comment. rewrite E. cbn [expect obind]. rewrite Ev.
    destruct (printed_runs _ _ out (Some vendor) (fr_tags r) Hp H1) as (w' & Hp' & R).
    { destruct vendor as [|[| |] ?]; [exact Hu|exists []; split; [constructor|reflexivity]|exact Hu..]. }
    rewrite R. destruct (list_eq_dec _ _ _) as [_|]; [|congruence]. clear R.
    assert (forall Eb : bare = true, Forall (fun c => ~ ends_with 13 (snd c)) cs /\ ~ ends_with 13 v /\ Forall (fun c => ~ ends_with 13 (snd c)) more) as Hb'.
    { intros Eb. specialize (Hb Eb). apply Forall_app in Hb as [B1 B2]. inversion_clear B2. auto. }
    apply Forall_app in Hok as [Hok1 Hok2]. inversion_clear Hok2 as [|? ? [Hn Hv] Hok3]. cbn [fst snd] in Hn, Hv.
    destruct (comments_prefix bare cs _ 0 w' (fr_tags r) _ Hp' HY Hok1 ltac:(intros Eb; apply (Hb' Eb))) as (j & w2 & it & Hp2 & HY2 & ->).
    inversion Hp2 as [|i' num c cs' w3 (_ & Hd & _) Hp3]; subst. unfold comment_text. cbn [fst snd].
    match goal with |- compare_comments _ _ (str_lines _ ?X) _ = _ =>
      replace X with ((text "    comment[" ++ num ++ text "]: " ++ n ++ [61]) ++ v ++ 10 :: (x ++ 10 :: w3)) by (rewrite <- !app_assoc; cbn [app]; rewrite <- ?app_assoc; reflexivity)
    end.
    destruct (prefix_lines num n Hd Hn bare v (x ++ 10 :: w3)) as (k & Hk & El); [intros Eb; apply (Hb' Eb)|]. rewrite El.
    rewrite comment_line by (auto using hd_lines).
    apply yields_cons in HY2 as (it' & E' & HY3). rewrite E'. cbn [obind expect_some fst snd].
    rewrite !assert_same. cbn [obind]. rewrite comments_pending.
    assert (compare_comments bare [] (k ++ str_lines bare (x ++ 10 :: w3)) it' = compare_comments bare [] (str_lines bare (x ++ 10 :: w3)) it') as ->
      by (destruct Hk as [->| ->]; reflexivity).
    unfold str_lines at 1. rewrite lines_cut, lines_skipped.
    - apply (comments_same bare more _ w3 it' [] Hp3); [rewrite app_nil_r; exact HY3|exact Hok3|intros Eb; apply (Hb' Eb)].
    - apply Forall_forall. intros l Hl. destruct (starts_with _ l) eqn:Es; [|reflexivity]. exfalso.
      apply starts_only in Es as [r0 ->]. apply lines_in in Hl as (a & b & Ea). cbn [rev app] in Ea.
      rewrite <- app_assoc in Ea. change (10 :: x ++ [10]) with ((10 :: x) ++ [10]) in Ea.
      destruct (r0 ++ b) as [|y z _] using rev_ind.
      + rewrite app_nil_r in Ea. change (a ++ 10 :: text "    comment[") with (a ++ (10 :: text "    comment") ++ [91]) in Ea.
        rewrite app_assoc in Ea. apply app_inj_tail in Ea as [_ Ea]. discriminate.
      + apply (Hx a z). cbn [app]. change (10 :: text "    comment[" ++ z ++ [y]) with ((10 :: text "    comment[") ++ z ++ [y]) in Ea.
        rewrite !app_assoc in Ea. apply app_inj_tail in Ea as [Ea _]. rewrite Ea, <- app_assoc. reflexivity.
  Qed.
  Theorem comments_exactly fs path t w rest si vendor cs vendor' cs' out : file_at fs path t (w ++ rest) -> (length (w ++ rest) < fuel)%nat ->
    well_formed si (Some (vorbis_of vendor cs)) w -> printed vendor' cs' out ->
    utf8 vendor' -> Forall comment_ok cs' -> one_line vendor' ->
    Forall (fun c => plain_value (snd c)) cs -> Forall (fun c => plain_value (snd c)) cs' ->
    (compare_metaflac_vorbis_comment m un fuel bare fs path out = Ok tt
     /\ vendor' = vendor_in_c vendor /\ comments_listed cs cs')
    \/ ((exists why, compare_metaflac_vorbis_comment m un fuel bare fs path out = Panic why)
        /\ ~ (vendor' = vendor_in_c vendor /\ comments_listed cs cs')).
  Proof.
    intros Hat Hf Hw Hp Hu' Hok' H1 H2 H3. destruct (reader_shows fs path t w rest si vendor cs Hat Hf Hw) as (r & E & Ev & HY & Hok & Hu).
    unfold compare_metaflac_vorbis_comment. rewrite E. cbn [expect obind]. rewrite Ev.
    destruct (printed_runs _ cs' out (Some vendor) (fr_tags r) Hp H1 Hu') as (w' & Hp' & R). rewrite R.
    destruct (list_eq_dec _ _ _) as [<-|Hne].
    - destruct (comments_exact bare cs' 0 w' (fr_tags r) cs Hp' HY Hok' H3 H2) as [[X Y]|[X Y]].
      + left. auto.
      + right. split; [exact X|]. intros (_ & Z0). exact (Y Z0).
    - right. split; [eexists; reflexivity|]. intros (X & _). congruence.
  Qed.
End Files.
