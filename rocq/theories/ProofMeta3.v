(** Vorbis comments and metadata blocks. *)
From Verif Require Export ProofMeta2.
From Verif Require Import SpecReader.

Lemma parses_bind_lift {A B} (a : A) o (f : A -> M (list Z) B) P : o = Ok a -> parses (f a) P -> parses (bind (lift o) f) P.
Proof. intros -> H. exact H. Qed.
Lemma parses_bind_alloc {B} t n sz (k : M (list Z) B) P : parses k P -> parses (rb_alloc (fl_rb t) n sz ;;; k) P.
Proof. intros H. exact H. Qed.
Lemma parses_false {A} e (P : A -> list Z -> Prop) : (forall a w, bytes_ok w -> ~ P a w) -> parses (fail e) P.
Proof. intros H. eapply parses_conseq; [apply parses_fail|]. intros a w Hw. cbv beta. split; [tauto|apply H, Hw]. Qed.

(** ** One comment *)
Lemma position_some b l i k : position b l i = Some k <->
  exists n v, l = n ++ [b] ++ v /\ Forall (fun x => x <> b) n /\ k = i + len n.
Proof.
  revert i. induction l as [|x l IH]; intros i; cbn [position].
  - split; [discriminate|]. intros (n & v & E & _). destruct n; discriminate.
  - destruct (x =? b) eqn:E.
    + split.
      * intros H. injection H as <-. exists [], l. replace x with b by lia. repeat split; [constructor|cbn; lia].
      * intros (n & v & El & Hn & ->). destruct n as [|y n]; [cbn; f_equal; lia|]. injection El as <- _. inversion Hn; subst. lia.
    + rewrite IH. split.
      * intros (n & v & -> & Hn & ->). exists (x :: n), v. repeat split; [constructor; [lia|exact Hn]|rewrite len_cons; lia].
      * intros (n & v & El & Hn & ->). destruct n as [|y n]; [injection El as -> _; lia|]. injection El as <- ->.
        inversion Hn; subst. exists n, v. repeat split; auto. rewrite len_cons. lia.
Qed.
Lemma position_none b l i : position b l i = None -> Forall (fun x => x <> b) l.
Proof.
  revert i. induction l as [|x l IH]; intros i; cbn [position]; [constructor|].
  destruct (x =? b) eqn:E; [discriminate|]. intros H. constructor; [lia|apply (IH _ H)].
Qed.
Lemma name_unique (n n' v v' : list Z) b : n ++ [b] ++ v = n' ++ [b] ++ v' -> Forall (fun x => x <> b) n -> Forall (fun x => x <> b) n' ->
  n = n' /\ v = v'.
Proof.
  revert n'. induction n as [|x n IH]; intros [|y n'] E Hn Hn'; cbn in E.
  - injection E as ->. auto.
  - injection E as <- _. inversion Hn'; subst. congruence.
  - injection E as -> _. inversion Hn; subst. congruence.
  - injection E as <- E. inversion Hn; subst. inversion Hn'; subst. destruct (IH n' E) as [-> ->]; auto.
Qed.
Lemma bad_name n : existsb (fun x => (x <? 32) || (125 <? x)) n = false <-> Forall (fun b => 32 <= b <= 125) n.
Proof.
  induction n as [|x n IH]; cbn [existsb]; [split; constructor|]. rewrite orb_false_iff, IH. split.
  - intros [H1 H2]. constructor; [lia|exact H2].
  - intros H. inversion H; subst. split; [lia|assumption].
Qed.
Lemma comment_len c : 1 <= len (comment_text c).
Proof. unfold comment_text. rewrite !len_app. cbn [len length]. unfold len. cbn [length]. lia. Qed.

(** The checks on a comment, and the continuation. *)
Definition comment_check {A} (l : list Z) (k : list Z -> Z -> M (list Z) A) : M (list Z) A :=
  match position 61 l 0 with
  | Some sep_index =>
      name_bytes <- lift (slice l 0 sep_index) ;;
      if existsb (fun x => (x <? 32) || (125 <? x)) name_bytes
      then fmt_err "Vorbis comment field name contains invalid byte"
      else comment <- lift (from_utf8 l) ;; k comment sep_index
  | None => fmt_err "Vorbis comment does not contain '='"
  end.
Lemma slice_prefix (a b : list Z) : slice (a ++ b) 0 (len a) = Ok a.
Proof.
  unfold slice. rewrite len_app. pose proof (len_nonneg a). pose proof (len_nonneg b).
  replace ((0 <=? 0) && (0 <=? len a) && (len a <=? len a + len b)) with true by lia.
  unfold len. rewrite Z.sub_0_r, Nat2Z.id. cbn [Z.to_nat skipn]. rewrite firstn_app, Nat.sub_diag, firstn_all. cbn. rewrite app_nil_r. reflexivity.
Qed.
Lemma comment_check_ok {A} l (k : list Z -> Z -> M (list Z) A) (P : comment -> A -> list Z -> Prop) :
  (forall c, comment_ok c -> l = comment_text c -> parses (k l (len (fst c))) (P c)) ->
  parses (comment_check l k) (fun a w => exists c, comment_ok c /\ l = comment_text c /\ P c a w).
Proof.
  intros HK. unfold comment_check. destruct (position 61 l 0) as [i|] eqn:E.
  - apply position_some in E as (n & v & El & Hn & ->). rewrite Z.add_0_l.
    apply (parses_bind_lift n); [rewrite El; apply slice_prefix|].
    destruct (existsb _ n) eqn:Eb.
    + apply parses_false. intros a w _ ((n' & v') & [Hc _] & Et & _). cbn [fst] in Hc. unfold comment_text in Et. cbn [fst snd] in Et.
      rewrite El in Et. apply name_unique in Et as [<- <-]; [|exact Hn|eapply Forall_impl; [|exact Hc]; cbv beta; tauto].
      assert (Forall (fun b => 32 <= b <= 125) n) as Hr by (eapply Forall_impl; [|exact Hc]; cbv beta; tauto).
      apply bad_name in Hr. congruence.
    + apply bad_name in Eb.
      assert (Forall (fun b => 0 <= b < 128) (n ++ [61])) as Hascii.
      { apply Forall_app. split; [eapply Forall_impl; [|exact Eb]; cbv beta; lia|repeat constructor; lia]. }
      unfold from_utf8. destruct (utf8_valid l) eqn:Ev.
      * apply (parses_bind_lift l); [reflexivity|].
        assert (comment_ok (n, v)) as Hc.
        { split; cbn [fst snd].
          - rewrite Forall_forall in *. intros x Hx. specialize (Hn x Hx). specialize (Eb x Hx). auto.
          - apply utf8_valid_ok in Ev. rewrite El, app_assoc in Ev. apply (utf8_ascii_app (n ++ [61]) v Hascii). exact Ev. }
        eapply parses_conseq; [exact (HK (n, v) Hc El)|]. intros a w _. cbv beta. split.
        -- intros HP. exists (n, v). auto.
        -- intros ((n' & v') & [Hc' _] & Et & HP). cbn [fst] in Hc'. unfold comment_text in Et. cbn [fst snd] in Et. rewrite El in Et.
           apply name_unique in Et as [<- <-]; [|exact Hn|eapply Forall_impl; [|exact Hc']; cbv beta; tauto]. exact HP.
      * change (bind (lift (Err (FormatError "Vorbis comment or vendor string is not valid UTF-8"))) (fun c => k c (len n)))
          with (@fail (list Z) A (FormatError "Vorbis comment or vendor string is not valid UTF-8")).
        apply parses_false. intros a w _ ((n' & v') & [Hc Hu] & Et & _). cbn [fst snd] in *. unfold comment_text in Et. cbn [fst snd] in Et.
        rewrite El in Et. apply name_unique in Et as [<- <-]; [|exact Hn|eapply Forall_impl; [|exact Hc]; cbv beta; tauto].
        apply (utf8_ascii_app (n ++ [61]) v Hascii) in Hu. rewrite <- app_assoc in Hu. rewrite <- El in Hu. apply utf8_valid_ok in Hu. congruence.
  - apply parses_false. intros a w _ (c & _ & -> & _). apply position_none in E. rewrite Forall_forall in E.
    apply (E 61); [|reflexivity]. unfold comment_text. rewrite !in_app_iff. right. left. left. reflexivity.
Qed.

(** ** The comment list *)
Definition rep (c : comment) : list Z * Z := (comment_text c, len (fst c)).
Definition entry_bytes (e : option comment) : list Z := with_length (entry_text e).
Definition entries_bytes (es : list (option comment)) : list Z := flat_map entry_bytes es.

Definition reads_from (bl n : Z) (cs : list (list Z * Z)) (es : list (option comment)) (r : Z * Z * list (list Z * Z)) : Prop :=
  r = (bl - len (entries_bytes es), n - (len es - len (present es)), cs ++ map rep (present es))
  /\ 0 <= bl - len (entries_bytes es) /\ len cs + len es <= n
  /\ ~ (4 <= bl - len (entries_bytes es) /\ len cs + len es < n).

Lemma with_length_len l : len (with_length l) = 4 + len l.
Proof. unfold with_length. rewrite len_app. unfold len at 1. rewrite le_bytes_length. lia. Qed.
Lemma entries_cons e es : len (entries_bytes (e :: es)) = 4 + len (entry_text e) + len (entries_bytes es).
Proof. unfold entries_bytes. cbn [flat_map]. rewrite len_app. unfold entry_bytes at 1. rewrite with_length_len. lia. Qed.

Lemma reads_none bl n cs es r : reads_from bl n cs (None :: es) r <-> reads_from (bl - 4) (n - 1) cs es r.
Proof.
  unfold reads_from. rewrite entries_cons, len_cons. cbn [present flat_map app entry_text]. change (len (@nil Z)) with 0.
  fold (present es).
  replace (bl - (4 + 0 + len (entries_bytes es))) with (bl - 4 - len (entries_bytes es)) by lia.
  replace (n - (len es + 1 - len (present es))) with (n - 1 - (len es - len (present es))) by lia.
  split; intros (H1 & H2 & H3 & H4); (split; [exact H1|split; [exact H2|split; [lia|intros ?; apply H4; lia]]]).
Qed.
Lemma reads_some bl n cs c es r : reads_from bl n cs (Some c :: es) r
  <-> reads_from (bl - 4 - len (comment_text c)) n (cs ++ [rep c]) es r.
Proof.
  unfold reads_from. rewrite entries_cons, !len_cons. cbn [present flat_map app entry_text map]. fold (present es).
  rewrite !len_cons, len_app. change (len [rep c]) with 1. rewrite <- app_assoc. cbn [app].
  replace (bl - (4 + len (comment_text c) + len (entries_bytes es))) with (bl - 4 - len (comment_text c) - len (entries_bytes es)) by lia.
  replace (n - (len es + 1 - (len (present es) + 1))) with (n - (len es - len (present es))) by lia.
  split; intros (H1 & H2 & H3 & H4); (split; [exact H1|split; [exact H2|split; [lia|intros ?; apply H4; lia]]]).
Qed.

Section Fl.
  Context (t : tail) (m : build) (un : nat -> list Z) (Hun : forall n, length (un n) = n).
  Notation rb := (fl_rb t).

  Lemma vorbis_loop_parses : forall fuel bl n cs, 0 <= bl < 2 ^ 32 -> bl <= Z.of_nat fuel -> 0 <= n < 2 ^ 32 -> len cs <= n ->
    parses (vorbis_loop rb m un fuel bl n cs)
      (fun r w => exists es, Forall entry_ok es /\ w = entries_bytes es /\ reads_from bl n cs es r).
  Proof.
    induction fuel as [|fuel IH]; intros bl n cs Hbl Hf Hn Hcs; cbn [vorbis_loop].
    - replace ((4 <=? bl) && (len cs <? n)) with false by lia. eapply parses_conseq; [apply parses_ret|].
      intros r w _. cbv beta. split.
      + intros [-> ->]. exists []. split; [constructor|]. split; [reflexivity|]. unfold reads_from. cbn. rewrite app_nil_r.
        split; [do 2 f_equal; change (len (@nil Z)) with 0; change (len (@nil (option comment))) with 0; change (len (@nil comment)) with 0; lia|]. change (len (@nil Z)) with 0; change (len (@nil (option comment))) with 0. lia.
      + intros (es & _ & -> & Hr & H1 & H2 & H3). destruct es as [|e es].
        * split; [|reflexivity]. rewrite Hr. cbn. rewrite app_nil_r. do 2 f_equal; lia.
        * rewrite entries_cons in *. pose proof (len_nonneg (entry_text e)). pose proof (len_nonneg (entries_bytes es)). lia.
    - pose proof (len_nonneg cs) as Hcs0. destruct ((4 <=? bl) && (len cs <? n)) eqn:EC.
      2:{ eapply parses_conseq; [apply parses_ret|].
      intros r w _. cbv beta. split.
      + intros [-> ->]. exists []. split; [constructor|]. split; [reflexivity|]. unfold reads_from. cbn. rewrite app_nil_r.
        split; [do 2 f_equal; change (len (@nil Z)) with 0; change (len (@nil (option comment))) with 0; change (len (@nil comment)) with 0; lia|]. change (len (@nil Z)) with 0; change (len (@nil (option comment))) with 0. lia.
      + intros (es & _ & -> & Hr & H1 & H2 & H3). destruct es as [|e es].
        * split; [|reflexivity]. rewrite Hr. cbn. rewrite app_nil_r. do 2 f_equal; lia.
        * rewrite entries_cons, len_cons in *. pose proof (len_nonneg (entry_text e)). pose proof (len_nonneg (entries_bytes es)).
          pose proof (len_nonneg es). lia. }
      eapply parses_conseq.
      { eapply (parses_bind _ _ _ (fun cl r w => exists e es, entry_ok e /\ Forall entry_ok es /\ len (entry_text e) = cl
          /\ w = entry_text e ++ entries_bytes es /\ reads_from bl n cs (e :: es) r)); [apply le32_parses|].
        intros cl (? & (_ & Hcl) & _).
        apply (parses_bind_lift (bl - 4)); [apply chk_u32; lia|].
        destruct (bl - 4 <? cl) eqn:E1.
        { apply parses_false. intros r w _ (e & es & _ & _ & He & _ & _ & H1 & _). rewrite entries_cons in H1.
          pose proof (len_nonneg (entries_bytes es)). lia. }
        destruct (cl =? 0) eqn:E2.
        { apply (parses_bind_lift (n - 1)); [apply chk_u32; pose proof (len_nonneg cs); lia|].
          eapply parses_conseq; [apply IH; lia|]. intros r w _. cbv beta. split.
          - intros (es & Hes & -> & Hr). exists None, es. split; [exact I|]. split; [exact Hes|]. split; [cbn; lia|].
            split; [reflexivity|]. apply reads_none, Hr.
          - intros (e & es & He & Hes & Hl & -> & Hr). destruct e as [c|].
            + cbn [entry_text] in Hl. pose proof (comment_len c). lia.
            + exists es. split; [exact Hes|]. split; [reflexivity|]. apply reads_none, Hr. }
        apply parses_bind_alloc.
        eapply parses_conseq.
        { eapply parses_bind; [apply into_parses|]. intros text (? & (<- & Ht) & Hb). rewrite Hun in Ht.
          apply (parses_bind_lift (bl - 4 - cl)); [apply chk_u32; lia|].
          apply (comment_check_ok text (fun comment sep_index => vorbis_loop rb m un fuel (bl - 4 - cl) n (cs ++ [(comment, sep_index)]))
            (fun c r w => exists es, Forall entry_ok es /\ w = entries_bytes es /\ reads_from (bl - 4 - cl) n (cs ++ [rep c]) es r)).
          intros c Hc Et. rewrite Et at 1. apply IH; try lia. rewrite len_app. change (len [rep c]) with 1. lia. }
        intros r w Hw. cbv beta. rewrite Hun. split.
        - intros (text & ? & ? & -> & (<- & Ht) & c & Hc & Et & es & Hes & -> & Hr). exists (Some c), es.
          assert (len (comment_text c) = cl) as El by (rewrite <- Et; unfold len; lia).
          split; [exact Hc|]. split; [exact Hes|]. split; [exact El|]. split; [rewrite Et; reflexivity|].
          apply reads_some. rewrite El. exact Hr.
        - intros (e & es & He & Hes & Hl & -> & Hr). destruct e as [c|]; [|cbn in Hl; lia]. cbn [entry_text entry_ok] in *.
          apply reads_some in Hr. rewrite Hl in Hr.
          exists (comment_text c), (comment_text c), (entries_bytes es). split; [reflexivity|].
          split; [split; [reflexivity|unfold len in Hl; lia]|]. exists c. split; [exact He|]. split; [reflexivity|]. eauto. }
      intros r w Hw. cbv beta. split.
      + intros (cl & ? & ? & -> & (-> & Hcl) & e & es & He & Hes & <- & -> & Hr). exists (e :: es).
        split; [constructor; assumption|]. split; [|exact Hr]. unfold entries_bytes. cbn [flat_map]. unfold entry_bytes at 2, with_length.
        rewrite <- app_assoc. reflexivity.
      + intros (es & Hes & -> & Hr). destruct es as [|e es].
        { destruct Hr as (_ & _ & _ & H). exfalso. apply H. cbn. change (len (@nil (option comment))) with 0. lia. }
        inversion Hes; subst. exists (len (entry_text e)), (le_bytes 4 (len (entry_text e))), (entry_text e ++ entries_bytes es).
        split; [unfold entries_bytes; cbn [flat_map]; unfold entry_bytes at 1, with_length; rewrite <- app_assoc; reflexivity|].
        split.
        * split; [reflexivity|]. destruct Hr as (_ & Hr & _). rewrite entries_cons in Hr.
          pose proof (len_nonneg (entry_text e)). pose proof (len_nonneg (entries_bytes es)). lia.
        * exists e, es. auto.
  Qed.

  Lemma utf8_from l : parses (lift (from_utf8 l)) (fun x w => x = l /\ utf8 l /\ w = []).
  Proof.
    unfold from_utf8. destruct (utf8_valid l) eqn:E.
    - apply utf8_valid_ok in E. eapply parses_conseq; [apply parses_lift; reflexivity|]. intros a w _. cbv beta. tauto.
    - change (parses (@fail (list Z) (list Z) (FormatError "Vorbis comment or vendor string is not valid UTF-8")) (fun x w => x = l /\ utf8 l /\ w = [])).
      apply parses_false. intros a w _ (_ & Hu & _). apply utf8_valid_ok in Hu. congruence.
  Qed.

  Definition vorbis_accepted (n : Z) (vc : vorbis_comment) (w : list Z) : Prop :=
    exists vendor es, utf8 vendor /\ Forall entry_ok es /\ w = comments_bytes vendor es /\ len w = n /\ n <= MiB10
      /\ vc = vorbis_of vendor (present es).

  Lemma comments_bytes_len vendor es : len (comments_bytes vendor es) = 8 + len vendor + len (entries_bytes es).
  Proof.
    unfold comments_bytes. rewrite !len_app, with_length_len. unfold len at 2. rewrite le_bytes_length.
    unfold entries_bytes, entry_bytes. lia.
  Qed.
  Lemma entries_bytes_len es : 4 * len es <= len (entries_bytes es).
  Proof.
    induction es as [|e es IH]; [cbn; lia|]. rewrite entries_cons, len_cons. pose proof (len_nonneg (entry_text e)). lia.
  Qed.

  Lemma vorbis_parses n : 0 <= n -> parses (read_vorbis_comment_block rb m un n) (vorbis_accepted n).
  Proof.
    intros Hn0. unfold read_vorbis_comment_block. destruct (n <? 8) eqn:E1.
    { apply parses_false. intros vc w _ (v & es & _ & _ & -> & H & _). rewrite comments_bytes_len in H.
      pose proof (len_nonneg v). pose proof (len_nonneg (entries_bytes es)). lia. }
    destruct (10 * 1024 * 1024 <? n) eqn:E2.
    { apply parses_false. intros vc w _ (v & es & _ & _ & -> & _ & H & _). unfold MiB10 in H. lia. }
    eapply parses_conseq.
    { eapply (parses_bind _ _ _ (fun vl vc w => exists vendor es, len vendor = vl /\ utf8 vendor /\ Forall entry_ok es
        /\ w = vendor ++ le_bytes 4 (len es) ++ entries_bytes es /\ 8 + vl + len (entries_bytes es) = n
        /\ vc = vorbis_of vendor (present es))); [apply le32_parses|].
      intros vl (? & (_ & Hvl) & _).
      apply (parses_bind_lift (n - 8)); [apply chk_u32; lia|].
      destruct (n - 8 <? vl) eqn:E3.
      { apply parses_false. intros vc w _ (v & es & _ & _ & _ & _ & H & _). pose proof (len_nonneg (entries_bytes es)). lia. }
      apply parses_bind_alloc.
      eapply parses_conseq.
      { eapply (parses_bind _ _ _ (fun vendor vc w => exists es, utf8 vendor /\ Forall entry_ok es
        /\ w = le_bytes 4 (len es) ++ entries_bytes es /\ 8 + vl + len (entries_bytes es) = n
        /\ vc = vorbis_of vendor (present es))); [apply into_parses|].
        intros vendor (? & (<- & Hlv) & Hbv). rewrite Hun in Hlv.
        eapply parses_conseq.
        { eapply (parses_bind _ _ _ (fun vendor vc w => exists es, Forall entry_ok es
            /\ w = le_bytes 4 (len es) ++ entries_bytes es /\ 8 + vl + len (entries_bytes es) = n
            /\ vc = vorbis_of vendor (present es))); [apply utf8_from|].
          intros vendor' _.
          eapply parses_conseq.
          { eapply (parses_bind _ _ _ (fun cl vc w => exists es, Forall entry_ok es /\ len es = cl
              /\ w = entries_bytes es /\ 8 + vl + len (entries_bytes es) = n
              /\ vc = vorbis_of vendor' (present es))); [apply le32_parses|].
            intros cl (? & (_ & Hcl) & _).
            destruct (n / 4 <=? cl) eqn:E4.
            { apply parses_false. intros vc w _ (es & _ & H & _ & H' & _). pose proof (entries_bytes_len es). lia. }
            apply parses_bind_alloc. apply (parses_bind_lift (n - 8 - vl)); [apply chk_u32; lia|].
            eapply parses_conseq.
            { eapply (parses_bind _ _ _ (fun r vc w => vc = mkVc vendor' (snd r) /\ fst (fst r) = 0 /\ len (snd r) = snd (fst r) /\ w = []));
                [apply vorbis_loop_parses; try lia; change (len (@nil (list Z * Z))) with 0; lia|].
              intros [[bl cl'] cs] _. cbn [fst snd]. destruct (bl =? 0) eqn:E5; cbn [negb].
              2:{ apply parses_false. intros a0 w0 _ (_ & H0 & _); lia. }
              destruct (len cs =? cl') eqn:E6; cbn [negb].
              2:{ apply parses_false. intros a0 w0 _ (_ & _ & H0 & _); lia. }
              eapply parses_conseq; [apply parses_ret|]. intros a w _. cbv beta. split; [intros [-> ->]; repeat split; lia|tauto]. }
            intros vc w _. cbv beta. split.
            - intros (r & w1 & w2 & -> & (es & Hes & -> & Hr & _) & -> & H1 & H2 & ->). exists es. subst r. cbn [fst snd] in *.
              rewrite app_nil_r. cbn [app] in *. unfold len in H2 at 1. rewrite map_length in H2. fold (len (present es)) in H2.
              repeat split; auto; try lia.
            - intros (es & Hes & <- & -> & H & ->). exists (0, len (present es), map rep (present es)), (entries_bytes es), [].
              rewrite app_nil_r. split; [reflexivity|]. split.
              + exists es. split; [exact Hes|]. split; [reflexivity|]. unfold reads_from. change (len (@nil (list Z * Z))) with 0. cbn [app].
                split; [f_equal; f_equal; lia|]. lia.
              + cbn [fst snd]. unfold len at 1. rewrite map_length. repeat split. }
          intros vc w _. cbv beta. split.
          - intros (cl & w1 & w2 & -> & (-> & Hcl) & es & Hes & <- & -> & H & ->). exists es. repeat split; auto.
          - intros (es & Hes & -> & H & ->). exists (len es), (le_bytes 4 (len es)), (entries_bytes es). split; [reflexivity|].
            split; [split; [reflexivity|]|exists es; auto]. pose proof (entries_bytes_len es). pose proof (len_nonneg es). lia. }
        intros vc w _. cbv beta. split.
        - intros (v' & w1 & w2 & -> & (-> & Hu & ->) & es & H1 & -> & H2 & ->). exists es. repeat split; auto.
        - intros (es & Hu & H1 & -> & H2 & ->). exists vendor, [], (le_bytes 4 (len es) ++ entries_bytes es). split; [reflexivity|]. eauto 10. }
      intros vc w _. cbv beta. split.
      - intros (vendor & w1 & w2 & -> & (<- & Hl) & es & Hu & H1 & -> & H2 & ->). rewrite Hun in Hl. exists vendor, es.
        split; [unfold len; lia|]. auto 10.
      - intros (vendor & es & Hl & Hu & H1 & -> & H2 & ->). exists vendor, vendor, (le_bytes 4 (len es) ++ entries_bytes es).
        split; [reflexivity|]. split; [split; [reflexivity|rewrite Hun; unfold len in Hl; lia]|]. exists es. auto. }
    intros vc w _. cbv beta. split.
    - intros (vl & w1 & w2 & -> & (-> & Hvl) & v & es & <- & Hu & H1 & -> & H2 & ->). exists v, es.
      assert (le_bytes 4 (len v) ++ v ++ le_bytes 4 (len es) ++ entries_bytes es = comments_bytes v es) as E.
      { unfold comments_bytes, with_length. rewrite <- app_assoc. reflexivity. }
      rewrite E, comments_bytes_len. unfold MiB10. repeat split; auto; lia.
    - intros (v & es & Hu & H1 & -> & H2 & H3 & ->). rewrite comments_bytes_len in H2.
      pose proof (len_nonneg v). pose proof (len_nonneg (entries_bytes es)). unfold MiB10 in H3.
      exists (len v), (le_bytes 4 (len v)), (v ++ le_bytes 4 (len es) ++ entries_bytes es).
      split; [unfold comments_bytes, with_length; rewrite <- app_assoc; reflexivity|]. split; [split; [reflexivity|lia]|].
      exists v, es. repeat split; auto.
  Qed.

  Lemma application_parses n : 0 <= n -> parses (read_application_block rb m un n)
    (fun r w => 0 <= fst r < 2 ^ 32 /\ w = be_bytes 4 (fst r) ++ snd r /\ len w = n /\ n <= MiB10).
  Proof.
    intros Hn. unfold read_application_block.
    assert (forall id (d : list Z), len (be_bytes 4 id ++ d) = 4 + len d) as HL.
    { intros. rewrite len_app. unfold len at 1. rewrite be_bytes_length. lia. }
    destruct (n <? 4) eqn:E1.
    { apply parses_false. intros [id d] w _ (_ & -> & H & _). rewrite HL in H. cbn [fst snd] in *. pose proof (len_nonneg d). lia. }
    destruct (10 * 1024 * 1024 <? n) eqn:E2.
    { apply parses_false. intros [id d] w _ (_ & _ & _ & H). unfold MiB10 in H. lia. }
    eapply parses_conseq.
    { eapply (parses_bind _ _ _ (fun id r w => fst r = id /\ snd r = w /\ len w = n - 4)); [apply be32_parses|].
      intros id _. apply (parses_bind_lift (n - 4)); [apply chk_u64; lia|]. apply parses_bind_alloc.
      eapply parses_conseq.
      { eapply (parses_bind _ _ _ (fun data r w => fst r = id /\ snd r = data /\ w = [])); [apply into_parses|].
        intros data _. eapply parses_conseq; [apply parses_ret|]. intros [id' d'] w _. cbv beta. cbn [fst snd]. split.
        - intros [E ->]. injection E as -> ->. auto.
        - intros (-> & -> & ->). auto. }
      intros [id' d'] w _. cbv beta. cbn [fst snd]. rewrite Hun. split.
      - intros (d & w1 & w2 & -> & (<- & Hl) & -> & -> & ->). rewrite app_nil_r. repeat split. unfold len. lia.
      - intros (-> & -> & H). exists w, w, []. rewrite app_nil_r. unfold len in H. repeat split. lia. }
    intros [id d] w _. cbv beta. cbn [fst snd]. split.
    - intros (id' & w1 & w2 & -> & (-> & Hi) & -> & -> & H). rewrite HL. unfold MiB10. repeat split; lia.
    - intros (Hi & -> & H & _). rewrite HL in H. exists id, (be_bytes 4 id), d. repeat split; lia.
  Qed.

  (** ** Blocks *)
  Lemma skip_block n (b : metadata_block) : 0 <= n -> parses (skip rb n ;;; ret b) (fun a w => a = b /\ len w = n).
  Proof.
    intros Hn. eapply parses_conseq.
    { eapply (parses_bind _ _ _ (fun _ a w => a = b /\ w = [])); [apply skip_parses, Hn|]. intros [] _. apply parses_ret. }
    intros a w _. cbv beta. split.
    - intros (u & w1 & w2 & -> & H & -> & ->). rewrite app_nil_r. auto.
    - intros [-> H]. exists tt, w, []. rewrite app_nil_r. auto.
  Qed.
  Lemma map_parses {A B} (c : M (list Z) A) (f : A -> B) P : parses c P -> parses (x <- c ;; ret (f x)) (fun b w => exists a, b = f a /\ P a w).
  Proof.
    intros H. eapply parses_conseq.
    { eapply (parses_bind _ _ _ (fun a b w => b = f a /\ w = [])); [exact H|]. intros a _. apply parses_ret. }
    intros b w _. cbv beta. split.
    - intros (a & w1 & w2 & -> & HP & -> & ->). rewrite app_nil_r. eauto.
    - intros (a & -> & HP). exists a, w, []. rewrite app_nil_r. auto.
  Qed.

  Lemma streaminfo_code_len si w : streaminfo_fits si -> streaminfo_code si w -> len w = 34.
  Proof.
    intros (_ & _ & _ & _ & _ & _ & _ & _ & _ & H) (front & -> & _ & E).
    assert (length (bytes_bits front) = length (streaminfo_bits si)) as El by congruence.
    unfold streaminfo_bits in El. rewrite !app_length, !word_length in El by lia.
    rewrite bytes_bits_length in El. rewrite len_app. unfold len. lia.
  Qed.

  Lemma block_parses ty n : 0 <= ty <= 127 -> 0 <= n < 2 ^ 32 ->
    parses (read_metadata_block rb m un ty n) (fun b w => body_code ty w b /\ len w = n).
  Proof.
    intros Hty Hn. unfold read_metadata_block.
    destruct (ty =? 0) eqn:E0.
    { assert (ty = 0) as -> by lia. destruct (n =? 34) eqn:E.
      - eapply parses_conseq; [apply map_parses, streaminfo_parses|]. intros b w _. cbv beta. split.
        + intros (si & -> & H1 & H2 & H3). split; [constructor; assumption|]. rewrite (streaminfo_code_len si w H1 H3). lia.
        + intros [H H']. inversion H; subst; try lia. exists si. split; [reflexivity|]. repeat split; try assumption; apply H0 || apply H1.
      - apply parses_false. intros b w _ [H H']. inversion H; subst; try lia. rewrite (streaminfo_code_len si w) in E; [lia|assumption..]. }
    assert (forall k, ty = k -> (k = 1 \/ k = 3 \/ k = 5 \/ k = 6) -> parses (skip rb n ;;; ret (MbPadding n)) (fun b w => body_code ty w b /\ len w = n)) as Hskip.
    { intros k -> Hk. eapply parses_conseq; [apply skip_block; lia|]. intros b w Hw. cbv beta. split.
      - intros [-> <-]. split; [|reflexivity]. destruct Hk as [->|Hk]; constructor; auto.
      - intros [H <-]. split; [|reflexivity]. inversion H; subst; try reflexivity; lia. }
    destruct (ty =? 1) eqn:E1; [apply (Hskip 1); lia|].
    destruct (ty =? 2) eqn:E2.
    { assert (ty = 2) as -> by lia.
      eapply parses_conseq.
      { eapply (parses_bind _ _ _ (fun r b w => b = MbApplication (fst r) (snd r) /\ w = [])); [apply application_parses; lia|].
        intros [id d] _. apply parses_ret. }
      intros b w Hw. cbv beta. split.
      - intros ([id d] & w1 & w2 & -> & (H1 & -> & H2 & H3) & -> & ->). cbn [fst snd] in *. rewrite app_nil_r in *. split; [|exact H2].
        apply Forall_app in Hw as [_ Hw]. constructor; [exact H1|exact Hw|]. rewrite len_app in H2. unfold len in H2 at 1.
        rewrite be_bytes_length in H2. lia.
      - intros [H <-]. inversion H; subst; try lia. exists (id, data), (be_bytes 4 id ++ data), []. cbn [fst snd]. rewrite app_nil_r.
        repeat split; try lia. rewrite len_app. unfold len at 1. rewrite be_bytes_length. lia. }
    destruct (ty =? 3) eqn:E3; [apply (Hskip 3); lia|].
    destruct (ty =? 4) eqn:E4.
    { assert (ty = 4) as -> by lia.
      eapply parses_conseq; [apply map_parses, vorbis_parses; lia|]. intros b w _. cbv beta. split.
      - intros (vc & -> & v & es & H1 & H2 & -> & H3 & H4 & ->). split; [|exact H3]. constructor; auto. lia.
      - intros [H <-]. inversion H; subst; try lia. eexists. split; [reflexivity|]. exists vendor, entries. repeat split; auto. }
    destruct (ty =? 5) eqn:E5; [apply (Hskip 5); lia|].
    destruct (ty =? 6) eqn:E6; [apply (Hskip 6); lia|].
    destruct (ty =? 127) eqn:E7.
    { apply parses_false. intros b w _ [H _]. inversion H; subst; lia. }
    eapply parses_conseq; [apply skip_block; lia|]. intros b w Hw. cbv beta. split.
    - intros [-> <-]. split; [|reflexivity]. constructor; [lia|exact Hw].
    - intros [H <-]. split; [|reflexivity]. inversion H; subst; try reflexivity; lia.
  Qed.

  Lemma header_parses : parses (read_metadata_block_header rb)
    (fun h w => 0 <= mbh_block_type h <= 127 /\ 0 <= mbh_length h < 2 ^ 24
       /\ w = [128 * Z.b2z (mbh_is_last h) + mbh_block_type h] ++ be_bytes 3 (mbh_length h)).
  Proof.
    unfold read_metadata_block_header. eapply parses_conseq.
    { eapply (parses_bind _ _ _ (fun b h w => mbh_is_last h = (128 <=? b) /\ mbh_block_type h = b mod 128 /\ 0 <= mbh_length h < 2 ^ 24
        /\ w = be_bytes 3 (mbh_length h))); [apply u8_parses|].
      intros b (? & (_ & Hb) & _). eapply parses_conseq.
      { eapply (parses_bind _ _ _ (fun n h w => mbh_is_last h = (128 <=? b) /\ mbh_block_type h = b mod 128 /\ mbh_length h = n /\ w = []));
          [apply be24_parses|].
        intros n _. eapply parses_conseq; [apply parses_ret|]. intros [l ty n'] w _. cbv beta. cbn [mbh_is_last mbh_block_type mbh_length].
        rewrite Z.shiftr_div_pow2 by lia. change 127 with (Z.ones 7). rewrite Z.land_ones by lia. change (2 ^ 7) with 128.
        unfold is_byte in Hb. split.
        - intros [E ->]. injection E as -> -> ->. repeat split. lia.
        - intros (-> & -> & -> & ->). split; [|reflexivity]. f_equal. lia. }
      intros h w _. cbv beta. split.
      - intros (n & w1 & w2 & -> & (-> & Hn) & H1 & H2 & <- & ->). rewrite app_nil_r. auto.
      - intros (H1 & H2 & H3 & ->). exists (mbh_length h), (be_bytes 3 (mbh_length h)), []. rewrite app_nil_r. auto 10. }
    intros [l ty n] w Hw. cbv beta. cbn [mbh_is_last mbh_block_type mbh_length]. split.
    - intros (b & w1 & w2 & -> & (-> & Hb) & -> & -> & Hn & ->). unfold is_byte in Hb. split; [lia|]. split; [exact Hn|].
      f_equal. f_equal. destruct (128 <=? b) eqn:E; cbn [Z.b2z]; lia.
    - intros (Hty & Hn & ->). exists (128 * Z.b2z l + ty), [128 * Z.b2z l + ty], (be_bytes 3 n). split; [reflexivity|].
      unfold is_byte. destruct l; cbn [Z.b2z]; repeat split; lia.
  Qed.

  Lemma block_with_header_parses : parses (read_metadata_block_with_header rb m un) (fun b w => exists last, block_code last b w).
  Proof.
    unfold read_metadata_block_with_header. eapply parses_conseq.
    { eapply parses_bind; [apply header_parses|]. intros h (? & (H1 & H2 & _) & _). apply (block_parses (mbh_block_type h) (mbh_length h)); lia. }
    intros b w _. cbv beta. split.
    - intros (h & w1 & w2 & -> & (H1 & H2 & ->) & H3 & H4). exists (mbh_is_last h), (mbh_block_type h), w2. split; [exact H3|].
      split; [lia|]. rewrite H4, <- app_assoc. reflexivity.
    - intros (last & ty & body & H1 & H2 & ->). exists (mkMbh last ty (len body)), ([128 * Z.b2z last + ty] ++ be_bytes 3 (len body)), body.
      cbn [mbh_is_last mbh_block_type mbh_length]. split; [rewrite <- app_assoc; reflexivity|]. pose proof (len_nonneg body).
      split; [|split; [exact H1|reflexivity]]. split; [inversion H1; subst; lia|]. split; [lia|reflexivity].
  Qed.
End Fl.
