(** The errors of Vorbis comments and of metadata blocks. *)
From Verif Require Export ProofMetaFault.
From Verif Require Import SpecReader.

(** ** One comment *)
Definition text_fault (l : list Z) (e : error) : Prop :=
  (no_equals l /\ e = FormatError "Vorbis comment does not contain '='")
  \/ (exists c, l = comment_text c /\ no_equals (fst c)
      /\ ((~ Forall printable (fst c) /\ e = FormatError "Vorbis comment field name contains invalid byte")
          \/ (Forall printable (fst c) /\ ~ utf8 (snd c) /\ e = FormatError "Vorbis comment or vendor string is not valid UTF-8"))).

Lemma text_split n v c : comment_text c = n ++ [61] ++ v -> no_equals n -> no_equals (fst c) -> c = (n, v).
Proof.
  destruct c as [n' v']. unfold comment_text. cbn [fst snd]. intros E Hn Hn'. apply name_unique in E as [-> ->]; auto.
Qed.
Lemma text_has_equals c : ~ no_equals (comment_text c).
Proof.
  unfold no_equals, comment_text. rewrite Forall_forall. intros H. apply (H 61); [|reflexivity]. rewrite !in_app_iff. right. left. left. reflexivity.
Qed.
Lemma comment_ok_no_equals c : comment_ok c -> no_equals (fst c) /\ Forall printable (fst c).
Proof.
  intros [H _]. split; (eapply Forall_impl; [|exact H]); cbv beta; unfold printable; tauto.
Qed.

Lemma comment_check_flaws {A} t l (k : list Z -> Z -> M (list Z) A) (G : comment -> error -> list Z -> Prop) :
  (forall c, comment_ok c -> l = comment_text c -> flaws t (k l (len (fst c))) (G c)) ->
  flaws t (comment_check l k) (fun e w => (w = [] /\ text_fault l e) \/ exists c, comment_ok c /\ l = comment_text c /\ G c e w).
Proof.
  intros HK. unfold comment_check. destruct (position 61 l 0) as [i|] eqn:E.
  - apply position_some in E as (n & v & El & Hn & ->). rewrite Z.add_0_l.
    apply (flaws_lift t n); [rewrite El; apply slice_prefix|].
    assert (forall c, l = comment_text c -> no_equals (fst c) -> c = (n, v)) as HU.
    { intros c Hc Hc'. apply text_split; auto. rewrite <- Hc. exact El. }
    assert (~ no_equals l) as Hl by (rewrite El; exact (text_has_equals (n, v))).
    destruct (existsb _ n) eqn:Eb.
    + assert (~ Forall printable n) as Hb by (intros H; apply bad_name in H; congruence).
      apply flaws_one. intros e w _. split.
      * intros [[-> [[H _]|(c & Hc & Hc' & H)]]|(c & Hok & Hc & _)].
        -- contradiction.
        -- rewrite (HU c Hc Hc') in H. cbn [fst snd] in H. destruct H as [[_ ->]|[H _]]; [auto|contradiction].
        -- pose proof (comment_ok_no_equals c Hok) as [H1 H2]. rewrite (HU c Hc H1) in H2. contradiction.
      * intros [-> ->]. left. split; [reflexivity|]. right. exists (n, v). cbn [fst snd]. auto.
    + apply bad_name in Eb.
      assert (Forall (fun b => 0 <= b < 128) (n ++ [61])) as Hascii.
      { apply Forall_app. split; [eapply Forall_impl; [|exact Eb]; cbv beta; lia|repeat constructor; lia]. }
      assert (utf8 v <-> utf8 l) as Huv.
      { rewrite El, app_assoc. symmetry. apply (utf8_ascii_app (n ++ [61]) v Hascii). }
      unfold from_utf8. destruct (utf8_valid l) eqn:Ev.
      * apply (flaws_lift t l); [reflexivity|]. apply utf8_valid_ok in Ev.
        assert (comment_ok (n, v)) as Hc.
        { split; cbn [fst snd]; [|apply Huv, Ev]. rewrite Forall_forall in *. intros x Hx. specialize (Hn x Hx). specialize (Eb x Hx). auto. }
        eapply flaws_conseq; [exact (HK (n, v) Hc El)|]. intros e w _. cbv beta. split.
        -- intros HP. right. exists (n, v). auto.
        -- intros [[-> [[H _]|(c & Hc1 & Hc' & H)]]|(c & Hok & Hc1 & H)].
           ++ contradiction.
           ++ rewrite (HU c Hc1 Hc') in H. cbn [fst snd] in H. destruct H as [[H _]|(_ & H & _)]; [contradiction|]. exfalso. apply H, Huv, Ev.
           ++ rewrite (HU c Hc1 (proj1 (comment_ok_no_equals c Hok))) in H. exact H.
      * assert (~ utf8 v) as Hnu by (rewrite Huv; intros H; apply utf8_valid_ok in H; congruence).
        change (bind (lift (Err (FormatError "Vorbis comment or vendor string is not valid UTF-8"))) (fun c => k c (len n)))
          with (@fail (list Z) A (FormatError "Vorbis comment or vendor string is not valid UTF-8")).
        apply flaws_one. intros e w _. split.
        -- intros [[-> [[H _]|(c & Hc1 & Hc' & H)]]|(c & Hok & Hc1 & H)].
           ++ contradiction.
           ++ rewrite (HU c Hc1 Hc') in H. cbn [fst snd] in H. destruct H as [[H _]|(_ & H & ->)]; [contradiction|auto].
           ++ pose proof (HU c Hc1 (proj1 (comment_ok_no_equals c Hok))) as ->. destruct Hok as [_ Hok]. contradiction.
        -- intros [-> ->]. left. split; [reflexivity|]. right. exists (n, v). cbn [fst snd]. split; [exact El|]. split; [exact Hn|].
           right. split; [exact Eb|]. auto.
  - apply position_none in E. apply flaws_one. intros e w _. split.
    + intros [[-> [[_ ->]|(c & -> & _)]]|(c & _ & -> & _)]; [auto|destruct (text_has_equals c E)..].
    + intros [-> ->]. left. split; [reflexivity|]. left. auto.
Qed.

(** A faulty comment with its length. *)
Lemma comment_fault_text room e w : comment_fault room e w <->
  (exists n, room < n < 2 ^ 32 /\ w = le_bytes 4 n /\ e = FormatError "Vorbis comment too long for Vorbis comment block")
  \/ (exists text, text <> [] /\ len text <= room /\ w = with_length text /\ text_fault text e).
Proof.
  split.
  - intros H. destruct H as [n H|text H1 H2 H3|c H1 H2 H3|c H1 H2 H3 H4].
    + left. exists n. auto.
    + right. exists text. repeat split; auto. left. auto.
    + right. exists (comment_text c). split; [intros E; pose proof (comment_len c) as Hl; rewrite E in Hl; cbn in Hl; lia|]. repeat split; auto.
      right. exists c. auto.
    + right. exists (comment_text c). split; [intros E; pose proof (comment_len c) as Hl; rewrite E in Hl; cbn in Hl; lia|]. repeat split; auto.
      right. exists c. auto 10.
  - intros [(n & H & -> & ->)|(text & H1 & H2 & -> & [[H3 ->]|(c & -> & H3 & [[H4 ->]|(H4 & H5 & ->)])])]; constructor; auto.
Qed.

(** ** The comment list *)
Definition stops_in (bl n : Z) (cs : list (list Z * Z)) (es : list (option comment)) (e : error) (w : list Z) : Prop :=
  4 <= bl - len (entries_bytes es) /\ len cs + len es < n /\ comment_fault (bl - len (entries_bytes es) - 4) e w.

Lemma stops_none bl n cs es e w : stops_in bl n cs (None :: es) e w <-> stops_in (bl - 4) (n - 1) cs es e w.
Proof.
  unfold stops_in. rewrite entries_cons, len_cons. cbn [entry_text]. change (len (@nil Z)) with 0.
  replace (bl - (4 + 0 + len (entries_bytes es))) with (bl - 4 - len (entries_bytes es)) by lia.
  split; intros (H1 & H2 & H3); (split; [exact H1|split; [lia|exact H3]]).
Qed.
Lemma stops_some bl n cs c es e w : stops_in bl n cs (Some c :: es) e w
  <-> stops_in (bl - 4 - len (comment_text c)) n (cs ++ [rep c]) es e w.
Proof.
  unfold stops_in. rewrite entries_cons, len_cons, len_app. cbn [entry_text]. change (len [rep c]) with 1.
  replace (bl - (4 + len (comment_text c) + len (entries_bytes es))) with (bl - 4 - len (comment_text c) - len (entries_bytes es)) by lia.
  split; intros (H1 & H2 & H3); (split; [exact H1|split; [lia|exact H3]]).
Qed.
Lemma stops_here bl n cs e w : stops_in bl n cs [] e w <-> 4 <= bl /\ len cs < n /\ comment_fault (bl - 4) e w.
Proof.
  unfold stops_in. change (len (entries_bytes [])) with 0. change (len (@nil (option comment))) with 0.
  rewrite Z.sub_0_r, Z.add_0_r. tauto.
Qed.
Lemma with_length_length l : (length (with_length l) = 4 + length l)%nat.
Proof. pose proof (with_length_len l) as H. unfold len in H. lia. Qed.

Section Fl.
  Context (t : tail) (m : build) (un : nat -> list Z) (Hun : forall n, length (un n) = n).
  Notation rb := (fl_rb t).

  (** What can be wrong behind the length of a comment. *)
  Definition rest_fault (bl n : Z) (cs : list (list Z * Z)) (cl : Z) (e : error) (w : list Z) : Prop :=
    (bl - 4 < cl /\ w = [] /\ e = FormatError "Vorbis comment too long for Vorbis comment block")
    \/ (cl <> 0 /\ cl <= bl - 4 /\ len w = cl /\ text_fault w e)
    \/ (exists en es w', entry_ok en /\ Forall entry_ok es /\ len (entry_text en) = cl /\ cl <= bl - 4
        /\ w = entry_text en ++ entries_bytes es ++ w' /\ stops_in bl n cs (en :: es) e w').

  Lemma vorbis_loop_flaws : forall fuel bl n cs, 0 <= bl < 2 ^ 32 -> bl <= Z.of_nat fuel -> 0 <= n < 2 ^ 32 -> len cs <= n ->
    flaws t (vorbis_loop rb m un fuel bl n cs)
      (fun e w => exists es w', Forall entry_ok es /\ w = entries_bytes es ++ w' /\ stops_in bl n cs es e w').
  Proof.
    induction fuel as [|fuel IH]; intros bl n cs Hbl Hf Hn Hcs; cbn [vorbis_loop].
    - replace ((4 <=? bl) && (len cs <? n)) with false by lia. apply flaws_false; [apply flaws_ret|].
      intros e w _ (es & w' & _ & _ & H & _). pose proof (len_nonneg (entries_bytes es)). lia.
    - pose proof (len_nonneg cs) as Hcs0. destruct ((4 <=? bl) && (len cs <? n)) eqn:EC.
      2:{ apply flaws_false; [apply flaws_ret|]. intros e w _ (es & w' & _ & _ & H & H' & _).
          pose proof (len_nonneg (entries_bytes es)). pose proof (len_nonneg es). lia. }
      eapply flaws_conseq.
      { eapply (flaws_then _ _ _ _ (rest_fault bl n cs)); [apply le32_parses|apply le32_flaws|].
        intros cl (? & (_ & Hcl) & _).
        apply (flaws_lift t (bl - 4)); [apply chk_u32; lia|].
        destruct (bl - 4 <? cl) eqn:E1.
        { apply flaws_one. intros e w _. unfold rest_fault. split.
          - intros [(_ & -> & ->)|[(_ & H & _)|(en & es & w' & _ & _ & _ & H & _)]]; [auto|lia|lia].
          - intros [-> ->]. left. repeat split. lia. }
        destruct (cl =? 0) eqn:E2.
        { apply (flaws_lift t (n - 1)); [apply chk_u32; lia|].
          eapply flaws_conseq; [apply IH; lia|]. intros e w _. cbv beta. unfold rest_fault. split.
          - intros (es & w' & Hes & -> & Hr). right. right. exists None, es, w'. split; [exact I|]. split; [exact Hes|]. split; [cbn; lia|].
            split; [lia|]. split; [reflexivity|]. apply stops_none, Hr.
          - intros [(H & _)|[(H & _)|(en & es & w' & He & Hes & Hl & _ & -> & Hr)]]; [lia|lia|]. destruct en as [c|].
            + cbn [entry_text] in Hl. pose proof (comment_len c). lia.
            + exists es, w'. split; [exact Hes|]. split; [reflexivity|]. apply stops_none, Hr. }
        apply flaws_alloc.
        eapply flaws_conseq.
        { eapply flaws_then; [apply into_parses|apply into_flaws|]. intros text (? & (<- & Ht) & Hb). rewrite Hun in Ht.
          apply (flaws_lift t (bl - 4 - cl)); [apply chk_u32; lia|].
          apply (comment_check_flaws t text (fun comment sep_index => vorbis_loop rb m un fuel (bl - 4 - cl) n (cs ++ [(comment, sep_index)]))
            (fun c e w => exists es w', Forall entry_ok es /\ w = entries_bytes es ++ w' /\ stops_in (bl - 4 - cl) n (cs ++ [rep c]) es e w')).
          intros c Hc Et. rewrite Et at 1. apply IH; try lia. rewrite len_app. change (len [rep c]) with 1. lia. }
        intros e w Hw. cbv beta. rewrite Hun. unfold rest_fault. split.
        - intros (text & ? & w2 & -> & (<- & Ht) & [[-> Htf]|(c & Hc & Et & es & w' & Hes & -> & Hr)]).
          + right. left. rewrite app_nil_r. split; [lia|]. split; [lia|]. split; [unfold len; lia|exact Htf].
          + right. right. exists (Some c), es, w'.
            assert (len (comment_text c) = cl) as El by (rewrite <- Et; unfold len; lia).
            split; [exact Hc|]. split; [exact Hes|]. split; [exact El|]. split; [lia|]. split; [rewrite Et; reflexivity|].
            apply stops_some. rewrite El. exact Hr.
        - intros [(H & _)|[(H1 & H2 & H3 & H4)|(en & es & w' & He & Hes & Hl & _ & -> & Hr)]].
          + lia.
          + exists w, w, []. rewrite app_nil_r. split; [reflexivity|]. split; [split; [reflexivity|unfold len in H3; lia]|]. left. auto.
          + destruct en as [c|]; [|cbn in Hl; lia]. cbn [entry_text entry_ok] in *. apply stops_some in Hr. rewrite Hl in Hr.
            exists (comment_text c), (comment_text c), (entries_bytes es ++ w'). split; [reflexivity|].
            split; [split; [reflexivity|unfold len in Hl; lia]|]. right. exists c. split; [exact He|]. split; [reflexivity|]. eauto. }
      intros e w Hw. cbv beta. unfold rest_fault. split.
      + intros (cl & ? & w2 & -> & (-> & Hcl) & [(H & -> & ->)|[(H1 & H2 & H3 & H4)|(en & es & w' & He & Hes & <- & _ & -> & Hr)]]).
        * exists [], (le_bytes 4 cl). split; [constructor|]. split; [apply app_nil_r|]. apply stops_here. split; [lia|]. split; [lia|].
          apply comment_fault_text. left. exists cl. repeat split; lia.
        * exists [], (le_bytes 4 cl ++ w2). split; [constructor|]. split; [reflexivity|]. apply stops_here. split; [lia|]. split; [lia|].
          apply comment_fault_text. right. exists w2. split; [intros ->; apply H1; rewrite <- H3; reflexivity|]. split; [lia|].
          split; [unfold with_length; rewrite H3; reflexivity|exact H4].
        * exists (en :: es), w'. split; [constructor; assumption|]. split; [|exact Hr]. unfold entries_bytes. cbn [flat_map].
          unfold entry_bytes at 2, with_length. rewrite <- !app_assoc. reflexivity.
      + intros (es & w' & Hes & -> & Hr). destruct es as [|en es].
        * apply stops_here in Hr as (H1 & H2 & Hr). apply comment_fault_text in Hr as [(k & Hk & -> & ->)|(text & H3 & H4 & -> & H5)].
          -- exists k, (le_bytes 4 k), []. rewrite app_nil_r. split; [reflexivity|]. split; [split; [reflexivity|lia]|]. left. repeat split; lia.
          -- exists (len text), (le_bytes 4 (len text)), text. split; [reflexivity|]. pose proof (len_nonneg text). split; [split; [reflexivity|lia]|].
             right. left. split; [|repeat split; [lia|exact H5]]. intros E. apply H3. destruct text; [reflexivity|]. rewrite len_cons in E.
             pose proof (len_nonneg text). lia.
        * inversion Hes; subst. exists (len (entry_text en)), (le_bytes 4 (len (entry_text en))), (entry_text en ++ entries_bytes es ++ w').
          split; [unfold entries_bytes; cbn [flat_map]; unfold entry_bytes at 1, with_length; rewrite <- !app_assoc; reflexivity|].
          assert (4 <= bl - len (entries_bytes (en :: es))) as Hr0 by (apply Hr). rewrite entries_cons in Hr0.
          pose proof (len_nonneg (entry_text en)). pose proof (len_nonneg (entries_bytes es)). split; [split; [reflexivity|lia]|].
          right. right. exists en, es, w'. split; [assumption|]. split; [assumption|]. split; [reflexivity|]. split; [lia|].
          split; [reflexivity|exact Hr].
  Qed.

  Definition bad_utf8 : error := FormatError "Vorbis comment or vendor string is not valid UTF-8".
  Lemma utf8_from_flaws l : flaws t (lift (from_utf8 l)) (fun e w => ~ utf8 l /\ w = [] /\ e = bad_utf8).
  Proof.
    unfold from_utf8. destruct (utf8_valid l) eqn:E.
    - apply utf8_valid_ok in E. change (lift (Ok l)) with (@ret (list Z) (list Z) l). apply flaws_false; [apply flaws_ret|]. intros e w _ [H _]. contradiction.
    - assert (~ utf8 l) as H by (intros H; apply utf8_valid_ok in H; congruence). unfold bad_utf8.
      change (lift (Err (FormatError "Vorbis comment or vendor string is not valid UTF-8"))) with (@fail (list Z) (list Z) (FormatError "Vorbis comment or vendor string is not valid UTF-8")).
      apply flaws_one. intros e w _. tauto.
  Qed.

  (** Behind the number of entries, with [bl] bytes left; behind the vendor string; behind
      its length. *)
  Definition list_fault (bl cl : Z) (e : error) (w : list Z) : Prop :=
    (exists es w', Forall entry_ok es /\ w = entries_bytes es ++ w' /\ stops_in bl cl [] es e w')
    \/ (exists es, Forall entry_ok es /\ w = entries_bytes es /\ len es <= cl
        /\ 0 < bl - len (entries_bytes es) /\ (bl - len (entries_bytes es) < 4 \/ len es = cl)
        /\ e = FormatError "Vorbis comment block has excess data")
    \/ (exists es, Forall entry_ok es /\ w = entries_bytes es /\ len es < cl /\ bl - len (entries_bytes es) = 0
        /\ e = FormatError "Vorbis comment block contains wrong number of entries").
  Definition count_fault (n bl cl : Z) (e : error) (w : list Z) : Prop :=
    (n / 4 <= cl /\ w = [] /\ e = FormatError "too many entries for Vorbis comment block")
    \/ (cl < n / 4 /\ list_fault bl cl e w).
  Definition vendor_fault (n vl : Z) (e : error) (w : list Z) : Prop :=
    (n - 8 < vl /\ w = [] /\ e = FormatError "vendor string too long")
    \/ (vl <= n - 8 /\ len w = vl /\ ~ utf8 w /\ e = bad_utf8)
    \/ (exists vendor cl w', vl <= n - 8 /\ len vendor = vl /\ utf8 vendor /\ 0 <= cl < 2 ^ 32 /\ w = vendor ++ le_bytes 4 cl ++ w'
        /\ count_fault n (n - 8 - vl) cl e w').

  Lemma list_flaws bl cl vendor : 0 <= bl < 2 ^ 32 -> 0 <= cl < 2 ^ 32 ->
    flaws t (r <- vorbis_loop rb m un (Z.to_nat bl) bl cl [] ;;
             let '(bytes_left, comments_len, comments) := (r : Z * Z * list (list Z * Z)) in
             if negb (bytes_left =? 0) then fmt_err "Vorbis comment block has excess data"
             else if negb (len comments =? comments_len) then fmt_err "Vorbis comment block contains wrong number of entries"
             else ret (mkVc vendor comments)) (list_fault bl cl).
  Proof.
    intros Hbl Hcl. eapply flaws_conseq.
    { eapply (flaws_bind _ _ _ _ _ (fun r e w => w = [] /\
        ((fst (fst r) <> 0 /\ e = FormatError "Vorbis comment block has excess data")
         \/ (fst (fst r) = 0 /\ len (snd r) <> snd (fst r) /\ e = FormatError "Vorbis comment block contains wrong number of entries"))));
        [apply (vorbis_loop_parses t m un Hun); try lia; change (len (@nil (list Z * Z))) with 0; lia
        |apply vorbis_loop_flaws; try lia; change (len (@nil (list Z * Z))) with 0; lia|].
      intros [[bl' cl'] cs] _. cbn [fst snd]. destruct (bl' =? 0) eqn:E5; cbn [negb].
      2:{ apply flaws_one. intros e w _. split; [intros (-> & [(_ & ->)|(H & _)]); [auto|lia]|intros [-> ->]; split; [reflexivity|left; split; [lia|reflexivity]]]. }
      destruct (len cs =? cl') eqn:E6; cbn [negb].
      2:{ apply flaws_one. intros e w _. split; [intros (-> & [(H & _)|(_ & _ & ->)]); [lia|auto]|intros [-> ->]; split; [reflexivity|right; repeat split; lia]]. }
      apply flaws_false; [apply flaws_ret|]. intros e w _ (_ & [(H & _)|(_ & H & _)]); lia. }
    intros e w _. cbv beta. unfold list_fault.
    assert (forall es : list comment, len (map rep es) = len es) as HM by (intros; unfold len; rewrite map_length; reflexivity).
    split.
    - intros [H|(r & w1 & w2 & -> & (es & Hes & -> & (-> & H1 & H2 & H3)) & -> & H)]; [left; exact H|].
      rewrite app_nil_r. cbn [fst snd] in H. cbn [app] in H. rewrite HM in H. change (len (@nil (list Z * Z))) with 0 in *. right.
      destruct H as [(H & ->)|(H & H' & ->)].
      + left. exists es. repeat split; auto; lia.
      + right. exists es. repeat split; auto; lia.
    - intros [H|[(es & Hes & -> & H1 & H2 & H3 & ->)|(es & Hes & -> & H1 & H2 & ->)]]; [left; exact H|right..].
      + eexists _, (entries_bytes es), []. rewrite app_nil_r. split; [reflexivity|]. split.
        * exists es. split; [exact Hes|]. split; [reflexivity|]. unfold reads_from. change (len (@nil (list Z * Z))) with 0. split; [reflexivity|lia].
        * cbn [fst snd]. split; [reflexivity|]. left. split; [lia|reflexivity].
      + eexists _, (entries_bytes es), []. rewrite app_nil_r. split; [reflexivity|]. split.
        * exists es. split; [exact Hes|]. split; [reflexivity|]. unfold reads_from. change (len (@nil (list Z * Z))) with 0. split; [reflexivity|lia].
        * cbn [fst snd app]. rewrite HM. split; [reflexivity|]. right. split; [lia|]. split; [lia|reflexivity].
  Qed.

  Lemma vorbis_flaws n : 0 <= n -> flaws t (read_vorbis_comment_block rb m un n) (comments_fault n).
  Proof.
    intros Hn0. unfold read_vorbis_comment_block.
    assert (forall v es c, len (comments_start v c es) = 8 + len v + len (entries_bytes es)) as HL.
    { intros v es c. unfold comments_start. rewrite !len_app, with_length_len. unfold len at 2. rewrite le_bytes_length. unfold entries_bytes, entry_bytes. lia. }
    destruct (n <? 8) eqn:E1.
    { apply flaws_one. intros e w _. split; [|intros [-> ->]; constructor; lia].
      intros H. destruct H; auto; unfold MiB10 in *; try lia; try (pose proof (len_nonneg vendor); lia); exfalso.
      - rewrite HL in *. pose proof (len_nonneg vendor). pose proof (len_nonneg (entries_bytes entries)). lia.
      - cbv zeta in *. rewrite HL in *. pose proof (len_nonneg vendor). pose proof (len_nonneg (entries_bytes entries)). lia.
      - rewrite HL in *. pose proof (len_nonneg vendor). pose proof (len_nonneg (entries_bytes entries)). lia. }
    destruct (10 * 1024 * 1024 <? n) eqn:E2.
    { apply flaws_one. intros e w _. split; [|intros [-> ->]; constructor; unfold MiB10; lia].
      intros H. destruct H; auto; unfold MiB10 in *; lia. }
    eapply flaws_conseq.
    { eapply (flaws_then _ _ _ _ (vendor_fault n)); [apply le32_parses|apply le32_flaws|].
      intros vl (? & (_ & Hvl) & _).
      apply (flaws_lift t (n - 8)); [apply chk_u32; lia|].
      destruct (n - 8 <? vl) eqn:E3.
      { apply flaws_one. intros e w _. unfold vendor_fault. split.
        - intros [(_ & -> & ->)|[(H & _)|(vendor & cl & w' & H & _)]]; [auto|lia|lia].
        - intros [-> ->]. left. repeat split; lia. }
      apply flaws_alloc.
      eapply flaws_conseq.
      { eapply (flaws_then _ _ _ _ (fun vendor e w => (~ utf8 vendor /\ w = [] /\ e = bad_utf8)
          \/ (utf8 vendor /\ exists cl w', 0 <= cl < 2 ^ 32 /\ w = le_bytes 4 cl ++ w' /\ count_fault n (n - 8 - vl) cl e w')));
          [apply into_parses|apply into_flaws|].
        intros vendor (? & (<- & Hlv) & Hbv). rewrite Hun in Hlv.
        eapply flaws_conseq.
        { eapply (flaws_bind _ _ _ _ _ (fun _ e w => exists cl w', 0 <= cl < 2 ^ 32 /\ w = le_bytes 4 cl ++ w' /\ count_fault n (n - 8 - vl) cl e w'));
            [apply utf8_from|apply utf8_from_flaws|]. intros vendor' _.
          eapply flaws_conseq.
          { eapply (flaws_then _ _ _ _ (fun cl e w => count_fault n (n - 8 - vl) cl e w)); [apply le32_parses|apply le32_flaws|].
            intros cl (? & (_ & Hcl) & _). unfold count_fault.
            destruct (n / 4 <=? cl) eqn:E4.
            { apply flaws_one. intros e w _. split; [intros [(_ & -> & ->)|(H & _)]; [auto|lia]|intros [-> ->]; left; repeat split; lia]. }
            apply flaws_alloc. apply (flaws_lift t (n - 8 - vl)); [apply chk_u32; lia|].
            eapply flaws_conseq; [apply list_flaws; lia|]. intros e w _. split; [intros H; right; split; [lia|exact H]|intros [(H & _)|(_ & H)]; [lia|exact H]]. }
          intros e w _. cbv beta. split.
          - intros (cl & w1 & w2 & -> & (-> & Hcl) & H). exists cl, w2. auto.
          - intros (cl & w' & Hcl & -> & H). exists cl, (le_bytes 4 cl), w'. auto. }
        intros e w _. cbv beta. split.
        - intros [H|(v' & w1 & w2 & -> & (-> & Hu & ->) & H)]; [left; exact H|right; split; [exact Hu|exact H]].
        - intros [H|[Hu H]]; [left; exact H|]. right. exists vendor, [], w. auto. }
      intros e w _. cbv beta. rewrite Hun. unfold vendor_fault. split.
      - intros (vendor & w1 & w2 & -> & (<- & Hl) & [(H & -> & ->)|(Hu & cl & w' & Hcl & -> & H)]).
        + right. left. rewrite app_nil_r. repeat split; auto; unfold len; lia.
        + right. right. exists vendor, cl, w'. split; [lia|]. split; [unfold len; lia|]. auto.
      - intros [(H & _)|[(H & Hl & Hu & ->)|(vendor & cl & w' & H & Hl & Hu & Hcl & -> & Hc)]]; [lia|..].
        + exists w, w, []. rewrite app_nil_r. split; [reflexivity|]. split; [split; [reflexivity|unfold len in Hl; lia]|]. left. auto.
        + exists vendor, vendor, (le_bytes 4 cl ++ w'). split; [reflexivity|]. split; [split; [reflexivity|unfold len in Hl; lia]|].
          right. split; [exact Hu|]. exists cl, w'. auto. }
    intros e w _. cbv beta. unfold vendor_fault, count_fault, list_fault, stops_in.
    assert (forall v c es w', comments_start v c es ++ w' = le_bytes 4 (len v) ++ v ++ le_bytes 4 c ++ entries_bytes es ++ w') as HB.
    { intros. unfold comments_start, with_length at 1, entries_bytes. rewrite <- !app_assoc. reflexivity. }
    assert (forall v c es, comments_start v c es = le_bytes 4 (len v) ++ v ++ le_bytes 4 c ++ entries_bytes es) as HB'.
    { intros. unfold comments_start, with_length at 1, entries_bytes. rewrite <- !app_assoc. reflexivity. }
    unfold bad_utf8. split.
    - intros (vl & w1 & w2 & -> & (-> & Hvl) & [(H & -> & ->)|[(H & Hl & Hu & ->)|(vendor & cl & w' & H & <- & Hu & Hcl & -> & Hc)]]).
      + rewrite app_nil_r. constructor; unfold MiB10; lia.
      + rewrite <- Hl. apply fault_vendor_utf8; [unfold MiB10; lia|exact Hu].
      + destruct Hc as [(Hc & -> & ->)|(Hc & [(es & w'' & Hes & -> & H1 & H2 & H3)|[(es & Hes & -> & H1 & H2 & H3 & ->)|(es & Hes & -> & H1 & H2 & ->)]])].
        * rewrite app_nil_r, app_assoc. apply fault_count; [unfold MiB10; lia|exact Hu|lia].
        * change (len (@nil (list Z * Z))) with 0 in H2. rewrite <- HB. apply fault_comment; auto; rewrite ?HL; unfold MiB10; try lia.
          replace (n - (8 + len vendor + len (entries_bytes es)) - 4) with (n - 8 - len vendor - len (entries_bytes es) - 4) by lia. exact H3.
        * rewrite <- HB'. apply fault_excess; auto; cbv zeta; rewrite ?HL; unfold MiB10; lia.
        * rewrite <- HB'. apply fault_missing; auto; rewrite ?HL; unfold MiB10; lia.
    - intros H. destruct H as [H|H|v H1 H2|vendor H1 H2|vendor count H1 H2 H3|vendor count es e w H1 H2 H3 H4 H5 H6 H7
        |vendor count es H1 H2 H3 H4 H5 H6|vendor count es H1 H2 H3 H4 H5 H6]; unfold MiB10 in *; cbv zeta in *; rewrite ?HL in *; try lia.
      + exists v, (le_bytes 4 v), []. rewrite app_nil_r. split; [reflexivity|]. split; [split; [reflexivity|lia]|]. left. repeat split; lia.
      + pose proof (len_nonneg vendor). exists (len vendor), (le_bytes 4 (len vendor)), vendor. split; [reflexivity|]. split; [split; [reflexivity|lia]|].
        right. left. repeat split; auto; lia.
      + pose proof (len_nonneg vendor). exists (len vendor), (le_bytes 4 (len vendor)), (vendor ++ le_bytes 4 count).
        split; [unfold with_length; rewrite <- app_assoc; reflexivity|]. split; [split; [reflexivity|lia]|].
        right. right. exists vendor, count, []. rewrite app_nil_r. repeat split; auto; try lia. left. repeat split; lia.
      + pose proof (len_nonneg vendor). pose proof (len_nonneg (entries_bytes es)). eexists (len vendor), _, _. split; [apply HB|]. split; [split; [reflexivity|lia]|].
        right. right. exists vendor, count, (entries_bytes es ++ w). repeat split; auto; try lia. right. split; [lia|]. left. exists es, w.
        change (len (@nil (list Z * Z))) with 0. repeat split; auto; try lia.
        replace (n - (8 + len vendor + len (entries_bytes es)) - 4) with (n - 8 - len vendor - len (entries_bytes es) - 4) in H7 by lia. exact H7.
      + pose proof (len_nonneg vendor). pose proof (len_nonneg (entries_bytes es)). eexists (len vendor), _, _. split; [apply HB'|]. split; [split; [reflexivity|lia]|].
        right. right. exists vendor, count, (entries_bytes es). repeat split; auto; try lia. right. split; [lia|]. right. left. exists es. repeat split; auto; lia.
      + pose proof (len_nonneg vendor). pose proof (len_nonneg (entries_bytes es)). eexists (len vendor), _, _. split; [apply HB'|]. split; [split; [reflexivity|lia]|].
        right. right. exists vendor, count, (entries_bytes es). repeat split; auto; try lia. right. split; [lia|]. right. right. exists es. repeat split; auto; lia.
  Qed.

  (** ** Blocks *)
  Lemma application_flaws n : 0 <= n -> flaws t (read_application_block rb m un n)
    (fun e w => w = [] /\ ((n < 4 /\ e = FormatError "application block length must be at least 4 bytes")
      \/ (MiB10 < n /\ e = Unsupported "application blocks larger than 10 MiB are not supported"))).
  Proof.
    intros Hn. unfold read_application_block, MiB10.
    destruct (n <? 4) eqn:E1.
    { apply flaws_one. intros e w _. split; [intros (-> & [(_ & ->)|(H & _)]); [auto|lia]|intros [-> ->]; split; [reflexivity|left; split; [lia|reflexivity]]]. }
    destruct (10 * 1024 * 1024 <? n) eqn:E2.
    { apply flaws_one. intros e w _. split; [intros (-> & [(H & _)|(_ & ->)]); [lia|auto]|intros [-> ->]; split; [reflexivity|right; split; [lia|reflexivity]]]. }
    apply flaws_false; [|intros e w _ (_ & [(H & _)|(H & _)]); lia].
    eapply flaws_conseq.
    { eapply (flaws_then _ _ _ _ (fun _ => no_flaw)); [apply be32_parses|apply be32_flaws|].
      intros id _. apply (flaws_lift t (n - 4)); [apply chk_u64; lia|]. apply flaws_alloc.
      apply (flaws_map t _ (fun data => (id, data)) _ _ (into_parses t _) (into_flaws t _)). }
    intros e w _. cbv beta. unfold no_flaw. split; [intros (? & ? & ? & _ & _ & [])|intros []].
  Qed.
  Lemma skip_block_flaws n (b : metadata_block) : 0 <= n -> flaws t (skip rb n ;;; ret b) no_flaw.
  Proof. intros Hn. exact (flaws_map t (skip rb n) (fun _ => b) _ _ (skip_parses t n Hn) (skip_flaws t n)). Qed.

  Lemma block_flaws ty n : 0 <= n < 2 ^ 32 -> flaws t (read_metadata_block rb m un ty n) (content_fault ty n).
  Proof.
    intros Hn. unfold read_metadata_block.
    destruct (ty =? 0) eqn:E0.
    { assert (ty = 0) as -> by lia. destruct (n =? 34) eqn:E.
      - eapply flaws_conseq; [exact (flaws_map t _ MbStreamInfo _ _ (streaminfo_parses t m) (streaminfo_flaws t m))|]. intros e w _. cbv beta. split.
        + intros (si & H1 & H2 & H3). apply (fault_streaminfo _ _ si); auto; lia.
        + intros H. destruct H as [H H'|si e w H H' H1 H2 H3|H H'|H H'|e w H H'|H]; try lia. exists si. auto.
      - apply flaws_one. intros e w _. split; [|intros [-> ->]; constructor; lia].
        intros H. destruct H; auto; lia. }
    assert (forall (b : metadata_block), ty <> 0 -> ty <> 2 -> ty <> 4 -> ty <> 127 -> flaws t (skip rb n ;;; ret b) (content_fault ty n)) as Hskip.
    { intros b H0 H2 H4 H7. apply flaws_false; [apply skip_block_flaws; lia|]. intros e w _ H. destruct H; lia. }
    destruct (ty =? 1) eqn:E1; [apply Hskip; lia|].
    destruct (ty =? 2) eqn:E2.
    { assert (ty = 2) as -> by lia.
      eapply flaws_conseq; [exact (flaws_bind t _ _ _ _ _ (application_parses t m un Hun n ltac:(lia)) (application_flaws n ltac:(lia))
        (fun r _ => match r as r0 return flaws t (let '(id, data) := r0 in ret (MbApplication id data)) no_flaw with (id, d) => flaws_ret t _ end))|].
      intros e w _. cbv beta. unfold no_flaw. split.
      - intros [(-> & [(H & ->)|(H & ->)])|(? & ? & ? & _ & _ & [])]; constructor; auto.
      - intros H. left. destruct H; try lia; auto. }
    destruct (ty =? 3) eqn:E3; [apply Hskip; lia|].
    destruct (ty =? 4) eqn:E4.
    { assert (ty = 4) as -> by lia.
      eapply flaws_conseq; [exact (flaws_map t _ MbVorbisComment _ _ (vorbis_parses t m un Hun n ltac:(lia)) (vorbis_flaws n ltac:(lia)))|].
      intros e w _. cbv beta. split; [intros H; apply fault_comments; auto|]. intros H. destruct H; try lia; auto. }
    destruct (ty =? 5) eqn:E5; [apply Hskip; lia|].
    destruct (ty =? 6) eqn:E6; [apply Hskip; lia|].
    destruct (ty =? 127) eqn:E7; [|apply Hskip; lia].
    apply flaws_one. intros e w _. split; [|intros [-> ->]; constructor; lia]. intros H. destruct H; try lia; auto.
  Qed.

  Lemma header_flaws : flaws t (read_metadata_block_header rb) no_flaw.
  Proof.
    unfold read_metadata_block_header. eapply flaws_conseq.
    { eapply (flaws_then _ _ _ _ (fun _ => no_flaw)); [apply u8_parses|apply u8_flaws|]. intros b _. cbv zeta.
      exact (flaws_map t _ _ _ _ (be24_parses t) (be24_flaws t)). }
    intros e w _. cbv beta. unfold no_flaw. split; [intros (? & ? & ? & _ & _ & [])|intros []].
  Qed.
  Lemma fault_from_header e w : block_fault e w <-> exists h w1 w2, w = w1 ++ w2
    /\ (0 <= mbh_block_type h <= 127 /\ 0 <= mbh_length h < 2 ^ 24
       /\ w1 = [128 * Z.b2z (mbh_is_last h) + mbh_block_type h] ++ be_bytes 3 (mbh_length h))
    /\ content_fault (mbh_block_type h) (mbh_length h) e w2.
  Proof.
    split.
    - intros (last & ty & n & c & H1 & H2 & H3 & ->). exists (mkMbh last ty n), ([128 * Z.b2z last + ty] ++ be_bytes 3 n), c.
      cbn [mbh_is_last mbh_block_type mbh_length]. rewrite <- app_assoc. auto.
    - intros ([last ty n] & w1 & w2 & -> & (H1 & H2 & ->) & H3). cbn [mbh_is_last mbh_block_type mbh_length] in *. exists last, ty, n, w2.
      rewrite <- app_assoc. auto.
  Qed.
  Lemma with_header_flaws : flaws t (read_metadata_block_with_header rb m un) block_fault.
  Proof.
    eapply flaws_conseq.
    { eapply (flaws_then _ _ _ _ (fun h => content_fault (mbh_block_type h) (mbh_length h))); [apply header_parses|apply header_flaws|].
      intros h (? & (H1 & H2 & _) & _). apply block_flaws. lia. }
    intros e w _. cbv beta. symmetry. apply fault_from_header.
  Qed.
  Lemma next_flaws : flaws t (h <- read_metadata_block_header rb ;;
      b <- read_metadata_block rb m un (mbh_block_type h) (mbh_length h) ;; ret (mbh_is_last h, b)) block_fault.
  Proof.
    eapply flaws_conseq.
    { eapply (flaws_then _ _ _ _ (fun h => content_fault (mbh_block_type h) (mbh_length h))); [apply header_parses|apply header_flaws|].
      intros h (? & (H1 & H2 & _) & _).
      exact (flaws_map t _ (fun b => (mbh_is_last h, b)) _ _ (block_parses t m un Hun (mbh_block_type h) (mbh_length h) ltac:(lia) ltac:(lia))
        (block_flaws (mbh_block_type h) (mbh_length h) ltac:(lia))). }
    intros e w _. cbv beta. symmetry. apply fault_from_header.
  Qed.
End Fl.

(** ** Nothing behind the announced bytes is needed *)
Definition covers {A} (c : M (list Z) A) (n : Z) : Prop :=
  forall l, bytes_ok l -> n <= len l -> match c l with (Err e, _) => ours e | _ => True end.
Lemma covers_ret {A} (a : A) n : covers (ret a) n.
Proof. intros l _ _. exact I. Qed.
Lemma covers_fail {A} e n : ours e -> covers (@fail (list Z) A e) n.
Proof. intros He l _ _. exact He. Qed.
Lemma covers_bind {A B} (c : M (list Z) A) (f : A -> M (list Z) B) P n : parses c P -> covers c n ->
  (forall a w, P a w -> bytes_ok w -> covers (f a) (n - len w)) -> covers (bind c f) n.
Proof.
  intros [C1 _] Hc Hf l Hl Hn. specialize (C1 l Hl). specialize (Hc l Hl Hn). unfold bind. destruct (c l) as [[a|e| | |] rest]; auto.
  destruct C1 as (w & -> & Hw). apply Forall_app in Hl as [Hbw Hbr]. apply (Hf a w Hw Hbw rest Hbr). rewrite len_app in Hn. lia.
Qed.
Lemma covers_lift {A B} (a : A) o (f : A -> M (list Z) B) n : o = Ok a -> covers (f a) n -> covers (bind (lift o) f) n.
Proof. intros -> H. exact H. Qed.
Lemma covers_alloc {B} t k sz (c : M (list Z) B) n : covers c n -> covers (rb_alloc (fl_rb t) k sz ;;; c) n.
Proof. intros H. exact H. Qed.
Lemma comment_check_covers {A} l (k : list Z -> Z -> M (list Z) A) n : (forall s, covers (k l s) n) -> covers (comment_check l k) n.
Proof.
  intros HK. unfold comment_check. destruct (position 61 l 0) as [i|] eqn:E; [|apply covers_fail; exact I].
  apply position_some in E as (x & v & El & Hn & ->). rewrite Z.add_0_l.
  apply (covers_lift x); [rewrite El; apply slice_prefix|]. destruct (existsb _ x); [apply covers_fail; exact I|].
  unfold from_utf8. destruct (utf8_valid l); [apply (covers_lift l); [reflexivity|apply HK]|]. intros l' _ _. exact I.
Qed.

Section Cover.
  Context (t : tail) (m : build) (un : nat -> list Z) (Hun : forall n, length (un n) = n).
  Notation rb := (fl_rb t).

  Ltac covered := intros l _ Hl; unfold read_be_u16, read_be_u24, read_be_u32, read_le_u32, bind, fl_rb; cbn [read_u8];
    repeat (destruct l as [|? l]; [unfold len in Hl; cbn [length] in Hl; lia|]); exact I.
  Lemma u8_covers n : 1 <= n -> covers (read_u8 rb) n.
  Proof. intros Hn [|b l] _ Hl; [unfold len in Hl; cbn [length] in Hl; lia|exact I]. Qed.
  Lemma be16_covers n : 2 <= n -> covers (read_be_u16 rb) n.
  Proof. intros Hn. covered. Qed.
  Lemma be24_covers n : 3 <= n -> covers (read_be_u24 rb) n.
  Proof. intros Hn. covered. Qed.
  Lemma be32_covers n : 4 <= n -> covers (read_be_u32 rb) n.
  Proof. intros Hn. covered. Qed.
  Lemma le32_covers n : 4 <= n -> covers (read_le_u32 rb) n.
  Proof. intros Hn. covered. Qed.
  Lemma into_covers buf n : len buf <= n -> covers (read_into rb buf) n.
  Proof. intros Hn l _ Hl. cbn [fl_rb read_into]. unfold len in *. destruct (Nat.leb_spec (length buf) (length l)); [exact I|lia]. Qed.
  Lemma skip_covers k n : k <= n -> covers (skip rb k) n.
  Proof. intros Hn l _ Hl. cbn [fl_rb skip]. destruct (k <=? len l) eqn:E; [exact I|lia]. Qed.
  Lemma le4_len v : len (le_bytes 4 v) = 4.
  Proof. unfold len. rewrite le_bytes_length. reflexivity. Qed.
  Lemma be_len k v : len (be_bytes k v) = Z.of_nat k.
  Proof. unfold len. rewrite be_bytes_length. reflexivity. Qed.

  Lemma vorbis_loop_covers : forall fuel bl n cs, 0 <= bl < 2 ^ 32 -> bl <= Z.of_nat fuel -> 0 <= n < 2 ^ 32 -> len cs <= n ->
    covers (vorbis_loop rb m un fuel bl n cs) bl.
  Proof.
    induction fuel as [|fuel IH]; intros bl n cs Hbl Hf Hn Hcs; cbn [vorbis_loop].
    - replace ((4 <=? bl) && (len cs <? n)) with false by lia. apply covers_ret.
    - pose proof (len_nonneg cs) as Hcs0. destruct ((4 <=? bl) && (len cs <? n)) eqn:EC; [|apply covers_ret].
      eapply covers_bind; [apply le32_parses|apply le32_covers; lia|]. intros cl ? (-> & Hcl) _. rewrite le4_len.
      apply (covers_lift (bl - 4)); [apply chk_u32; lia|]. destruct (bl - 4 <? cl) eqn:E1; [apply covers_fail; exact I|].
      destruct (cl =? 0) eqn:E2.
      { apply (covers_lift (n - 1)); [apply chk_u32; lia|]. apply IH; lia. }
      apply covers_alloc. eapply covers_bind; [apply into_parses|apply into_covers; unfold len; rewrite Hun; lia|].
      intros text ? (<- & Ht) _. rewrite Hun in Ht. replace (bl - 4 - len text) with (bl - 4 - cl) by (unfold len; lia).
      apply (covers_lift (bl - 4 - cl)); [apply chk_u32; lia|].
      apply (comment_check_covers text (fun comment sep_index => vorbis_loop rb m un fuel (bl - 4 - cl) n (cs ++ [(comment, sep_index)]))).
      intros s. apply IH; try lia. rewrite len_app. change (len [(text, s)]) with 1. lia.
  Qed.
  Lemma vorbis_covers n : 0 <= n -> covers (read_vorbis_comment_block rb m un n) n.
  Proof.
    intros Hn0. unfold read_vorbis_comment_block. destruct (n <? 8) eqn:E1; [apply covers_fail; exact I|].
    destruct (10 * 1024 * 1024 <? n) eqn:E2; [apply covers_fail; exact I|].
    eapply covers_bind; [apply le32_parses|apply le32_covers; lia|]. intros vl ? (-> & Hvl) _. rewrite le4_len.
    apply (covers_lift (n - 8)); [apply chk_u32; lia|]. destruct (n - 8 <? vl) eqn:E3; [apply covers_fail; exact I|].
    apply covers_alloc. eapply covers_bind; [apply into_parses|apply into_covers; unfold len; rewrite Hun; lia|].
    intros vendor ? (<- & Hv) _. rewrite Hun in Hv. replace (n - 4 - len vendor) with (n - 4 - vl) by (unfold len; lia).
    eapply covers_bind; [apply utf8_from| |].
    { unfold from_utf8. intros l _ _. destruct (utf8_valid vendor); exact I. }
    intros v' ? (-> & Hu & ->) _. change (len (@nil Z)) with 0. rewrite Z.sub_0_r.
    eapply covers_bind; [apply le32_parses|apply le32_covers; lia|]. intros cl ? (-> & Hcl) _. rewrite le4_len.
    destruct (n / 4 <=? cl) eqn:E4; [apply covers_fail; exact I|].
    apply covers_alloc. apply (covers_lift (n - 8 - vl)); [apply chk_u32; lia|]. replace (n - 4 - vl - 4) with (n - 8 - vl) by lia.
    eapply covers_bind; [apply (vorbis_loop_parses t m un Hun); try lia; change (len (@nil (list Z * Z))) with 0; lia
      |apply vorbis_loop_covers; try lia; change (len (@nil (list Z * Z))) with 0; lia|].
    intros [[bl' cl'] cs] w _ _. destruct (negb (bl' =? 0)); [apply covers_fail; exact I|].
    destruct (negb (len cs =? cl')); [apply covers_fail; exact I|apply covers_ret].
  Qed.
  Lemma map_covers {A B} (c : M (list Z) A) (f : A -> B) P n : parses c P -> covers c n -> covers (x <- c ;; ret (f x)) n.
  Proof. intros HP HC. eapply covers_bind; [exact HP|exact HC|]. intros. apply covers_ret. Qed.
  Lemma application_covers n : 0 <= n -> covers (read_application_block rb m un n) n.
  Proof.
    intros Hn. unfold read_application_block. destruct (n <? 4) eqn:E1; [apply covers_fail; exact I|].
    destruct (10 * 1024 * 1024 <? n) eqn:E2; [apply covers_fail; exact I|].
    eapply covers_bind; [apply be32_parses|apply be32_covers; lia|]. intros id ? (-> & _) _. rewrite be_len.
    apply (covers_lift (n - 4)); [apply chk_u64; lia|]. apply covers_alloc.
    eapply map_covers; [apply into_parses|apply into_covers; unfold len; rewrite Hun; lia].
  Qed.
  Lemma streaminfo_covers : covers (read_streaminfo_block rb m) 34.
  Proof.
    unfold read_streaminfo_block.
    eapply covers_bind; [apply be16_parses|apply be16_covers; lia|intros mn ? (-> & H1) _; rewrite be_len].
    eapply covers_bind; [apply be16_parses|apply be16_covers; lia|intros mx ? (-> & H2) _; rewrite be_len].
    eapply covers_bind; [apply be24_parses|apply be24_covers; lia|intros minf ? (-> & H3) _; rewrite be_len].
    eapply covers_bind; [apply be24_parses|apply be24_covers; lia|intros maxf ? (-> & H4) _; rewrite be_len].
    eapply covers_bind; [apply be16_parses|apply be16_covers; lia|intros msb ? (-> & H5) _; rewrite be_len].
    eapply covers_bind; [apply u8_parses|apply u8_covers; lia|intros lsb ? (-> & H6) _]. cbv zeta.
    unfold is_byte in H6.
    apply (covers_lift (lsb / 2 mod 8 + 1)); [rewrite Z.shiftr_div_pow2 by lia; change 7 with (Z.ones 3); rewrite Z.land_ones by lia; apply chk_u8; lia|].
    eapply covers_bind; [apply u8_parses|apply u8_covers; change (len [lsb]) with 1; lia|intros b ? (-> & H7) _]. unfold is_byte in H7.
    apply (covers_lift (lsb mod 2 * 16 + b / 16 + 1)).
    { change 1 with (Z.ones 1) at 1. rewrite Z.land_ones by lia.
      rewrite Z.shiftl_mul_pow2, Z.shiftr_div_pow2 by lia. rewrite u8_id by lia. rewrite lor_add by lia.
      change (2 ^ 4) with 16. change (2 ^ 1) with 2. apply chk_u8. lia. }
    change (len [lsb]) with 1. change (len [b]) with 1.
    eapply covers_bind; [apply be32_parses|apply be32_covers; lia|intros nl ? (-> & H8) _; rewrite be_len].
    eapply covers_bind; [apply into_parses|apply into_covers; change (len (repeat 0 16)) with 16; lia|intros md5 ? _ _].
    repeat match goal with |- covers (if ?b then _ else _) _ => destruct b; [apply covers_fail; exact I|] end. apply covers_ret.
  Qed.
  Lemma skip_block_covers n (b : metadata_block) : 0 <= n -> covers (skip rb n ;;; ret b) n.
  Proof. intros Hn. exact (map_covers (skip rb n) (fun _ => b) _ n (skip_parses t n Hn) (skip_covers n n (Z.le_refl n))). Qed.
  Lemma block_covers ty n : 0 <= n < 2 ^ 32 -> covers (read_metadata_block rb m un ty n) n.
  Proof.
    intros Hn. unfold read_metadata_block.
    destruct (ty =? 0).
    { destruct (n =? 34) eqn:E; [|apply covers_fail; exact I]. replace n with 34 by lia. exact (map_covers _ MbStreamInfo _ _ (streaminfo_parses t m) streaminfo_covers). }
    destruct (ty =? 1); [apply skip_block_covers; lia|].
    destruct (ty =? 2).
    { eapply covers_bind; [apply (application_parses t m un Hun n ltac:(lia))|apply application_covers; lia|]. intros [id d] w _ _. apply covers_ret. }
    destruct (ty =? 3); [apply skip_block_covers; lia|].
    destruct (ty =? 4).
    { exact (map_covers _ MbVorbisComment _ _ (vorbis_parses t m un Hun n ltac:(lia)) (vorbis_covers n ltac:(lia))). }
    destruct (ty =? 5); [apply skip_block_covers; lia|].
    destruct (ty =? 6); [apply skip_block_covers; lia|].
    destruct (ty =? 127); [apply covers_fail; exact I|apply skip_block_covers; lia].
  Qed.
End Cover.
