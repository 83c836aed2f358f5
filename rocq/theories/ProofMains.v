(** The [main] functions of the examples: C86. *)
From Verif Require Export SpecMains ProofAnyPlay ProofPrograms2.
From Verif Require Import SpecReader.

(** * Single files *)
Section Once.
  Context (m : build) (un : nat -> list Z) (Hun : forall n, length (un n) = n) (fuel turns : nat) (fs : file_system).

  Lemma path_unopened path t l e : file_at fs path t l -> (length l < fuel)%nat -> file_unopened t l e ->
    flac_open m un fuel fs path = Err e.
  Proof.
    intros Hat Hf Hu. pose proof (file_delivers _ _ _ _ Hat) as Hb.
    destruct (path_fails m un Hun fuel fs path t l Hat Hf) as [(si & vc & w & rest & -> & Hw)|(e' & E & Hu')].
    - destruct (unopened_or_formed t e si vc w rest Hb Hu Hw).
    - rewrite (unopened_unique t l e e' Hb Hu Hu'). exact E.
  Qed.

  Lemma simple_once path o f : within fuel turns fs path -> simple_result m fs path o f ->
    exists r, decode_simple m un fuel turns fs path None = (r, f) /\ ends o r.
  Proof.
    intros Hin H. destruct H as [k E|t l e Hat Hu|t l si vc frames o Hat Hp].
    - exists (Err (IoError k)). split; [|reflexivity]. apply simple_missing; assumption.
    - destruct (Hin t l Hat) as [Hf Ht]. exists (Err e). split; [|reflexivity].
      unfold decode_simple, bind, lift. rewrite (path_unopened path t l e Hat ltac:(lia) Hu). reflexivity.
    - destruct (Hin t l Hat) as [Hf Ht]. apply (any_simple m un Hun fuel turns fs path t l si vc frames o Hat Hf); [|exact Hp].
      destruct Hp as (w & rest & -> & _ & Hp). pose proof (file_delivers _ _ _ _ Hat) as Hb. apply bytes_app in Hb as [_ Hb].
      apply any_dense in Hp; [|exact Hb]. unfold len in *. rewrite app_length in Ht. lia.
  Qed.
  Lemma good_short t l si vc good bad o : file_any_plays m t l si vc (good ++ bad) o -> (length good <= length l)%nat.
  Proof.
    intros (w & rest & -> & _ & ws & x & -> & HF & _). apply Forall2_app_inv_l in HF as (wsg & wsb & HFg & HFb & ->).
    rewrite concat_app, !app_length. enough (length good <= length (concat wsg))%nat by lia. clear - HFg.
    induction HFg as [|f w good ws Hw HF IH]; [cbn; lia|]. cbn [concat length]. rewrite app_length. apply any_frame_long in Hw. lia.
  Qed.
  Lemma stereo_once path (ok : bool) f : within fuel turns fs path -> stereo_result m fs path ok f ->
    exists r, decode_stereo m un fuel turns fs path None = (r, f) /\ if ok then r = Ok tt else exists why, r = Panic why.
  Proof.
    intros Hin H. destruct H as [k E|t l e Hat Hu|t l si vc frames o Hat Hp Hsi|t l si vc frames Hat Hp Hbps Hch Hst|t l si vc good bad o Hat Hp Hbps Hch Hst Hbad Ho].
    - destruct (stereo_missing m un fuel turns fs path k E) as [why Ew]. eauto.
    - destruct (Hin t l Hat) as [Hf Ht].
      unfold decode_stereo, bind, lift. rewrite (path_unopened path t l e Hat ltac:(lia) Hu). cbn. eauto.
    - destruct (Hin t l Hat) as [Hf Ht]. destruct Hp as (w & rest & -> & Hw & _).
      destruct (path_opens m un Hun fuel fs path t w _ si vc Hat ltac:(lia) Hw) as (r & inp & E & Es & _).
      unfold decode_stereo, bind at 1, lift. rewrite E. cbn [expect]. rewrite Es.
      replace ((si_bits_per_sample si =? 16) && (si_channels si =? 2)) with false by lia. cbn [negb]. eauto.
    - destruct (Hin t l Hat) as [Hf Ht]. rewrite <- (app_nil_r frames) in Hp.
      destruct (any_stereo m un Hun fuel turns fs path t l si vc frames [] AtEnd Hat Hf) as (r & Er & Hr); auto; [|discriminate|eauto].
      apply good_short in Hp. unfold len in Ht. lia.
    - destruct (Hin t l Hat) as [Hf Ht].
      destruct (any_stereo m un Hun fuel turns fs path t l si vc good bad o Hat Hf) as (r & Er & Hr); auto.
      { apply good_short in Hp. unfold len in Ht. lia. }
      exists r. split; [exact Er|]. destruct bad, o; cbn in Hr; auto. destruct Ho as [Ho|Ho]; congruence.
  Qed.
  Lemma tags_once path cs : within fuel turns fs path -> tags_result fs path cs ->
    match cs with
    | Some cs => tags_program m un fuel turns fs path = Ok (tag_lines path cs)
    | None => exists why, tags_program m un fuel turns fs path = Panic why
    end.
  Proof.
    intros Hin H. destruct H as [k E|t l e Hat Hu|t w rest si vc cs Hat Hw Hvc].
    - unfold tags_program, flac_open. rewrite E. cbn. eauto.
    - destruct (Hin t l Hat) as [Hf Ht]. unfold tags_program. rewrite (path_unopened path t l e Hat ltac:(lia) Hu). cbn. eauto.
    - destruct (Hin t _ Hat) as [Hf Ht].
      apply (tags_printed m un Hun fuel turns fs path t w rest si vc cs Hat ltac:(lia)); auto.
      unfold len in Ht. rewrite app_length in Ht. destruct vc as [v|]; [|rewrite Hvc; change (length []) with 0%nat; lia].
      destruct Hvc as [v1 ->]. apply well_formed_comments in Hw. lia.
  Qed.
  Lemma simple_some path : readable fs path -> within fuel turns fs path -> exists o f, simple_result m fs path o f.
  Proof.
    intros [[k E]|(t & l & Hat)] Hin; [eexists _, _; apply (simple_no_file m fs path k E)|].
    destruct (Hin t l Hat) as [Hf _]. destruct (any_file_cases m un Hun fuel fs path t l Hat Hf) as [(e & Hu & _)|(si & vc & frames & o & Hp)].
    - eexists _, _. exact (simple_no_flac m fs path t l e Hat Hu).
    - eexists _, _. exact (simple_played m fs path t l si vc frames o Hat Hp).
  Qed.
  Lemma stereo_some path : readable fs path -> within fuel turns fs path -> exists ok f, stereo_result m fs path ok f.
  Proof.
    intros [[k E]|(t & l & Hat)] Hin; [eexists _, _; apply (stereo_no_file m fs path k E)|].
    destruct (Hin t l Hat) as [Hf _]. destruct (any_file_cases m un Hun fuel fs path t l Hat Hf) as [(e & Hu & _)|(si & vc & frames & o & Hp)].
    { eexists _, _. exact (stereo_no_flac m fs path t l e Hat Hu). }
    destruct (Z.eq_dec (si_bits_per_sample si) 16) as [Hbps|Hbps]; [destruct (Z.eq_dec (si_channels si) 2) as [Hch|Hch]|];
      [|eexists _, _; exact (stereo_other m fs path t l si vc frames o Hat Hp (or_intror Hch))
       |eexists _, _; exact (stereo_other m fs path t l si vc frames o Hat Hp (or_introl Hbps))].
    destruct (ProofPrograms.stereo_split frames) as (good & bad & -> & Hg & Hbad).
    destruct bad as [|f bad]; [destruct o as [|e|]|].
    - rewrite app_nil_r in Hp. eexists _, _. exact (stereo_played m fs path t l si vc good Hat Hp Hbps Hch Hg).
    - eexists _, _. apply (stereo_broken m fs path t l si vc good [] _ Hat Hp Hbps Hch Hg Hbad). right. discriminate.
    - eexists _, _. apply (stereo_broken m fs path t l si vc good [] _ Hat Hp Hbps Hch Hg Hbad). right. discriminate.
    - eexists _, _. apply (stereo_broken m fs path t l si vc good (f :: bad) _ Hat Hp Hbps Hch Hg Hbad). left. discriminate.
  Qed.
  Lemma tags_some path : readable fs path -> within fuel turns fs path -> exists cs, tags_result fs path cs.
  Proof.
    intros [[k E]|(t & l & Hat)] Hin; [eexists; apply (tags_no_file fs path k E)|].
    destruct (Hin t l Hat) as [Hf Ht].
    destruct (tags_unopened m un Hun fuel turns fs path t l Hat ltac:(lia) ltac:(unfold len in *; lia)) as [(si & vc & w & rest & cs & -> & Hw & Hvc & _)|(why & e & _ & Hu)].
    - eexists. exact (tags_found fs path t w rest si vc cs Hat Hw Hvc).
    - eexists. exact (tags_no_flac fs path t l e Hat Hu).
  Qed.
End Once.

(** * Several files *)
Section Several.
  Context (wav_path : list Z -> list Z).
  Definition left_from (before : list Z -> wav) (files : list (list Z * wav)) (p : list Z) (f : wav) : Prop :=
    (exists a path b, files = a ++ (path, f) :: b /\ wav_path path = p /\ f <> None /\ untouched wav_path p b)
    \/ (f = before p /\ untouched wav_path p files).

  Lemma same_path_refl p : same_path p p = true.
  Proof. unfold same_path. destruct (list_eq_dec Z.eq_dec p p); congruence. Qed.
  Lemma same_path_eq p q : same_path p q = true -> p = q.
  Proof. unfold same_path. destruct (list_eq_dec Z.eq_dec p q); congruence. Qed.
  Lemma same_path_neq p q : p <> q -> same_path p q = false.
  Proof. unfold same_path. destruct (list_eq_dec Z.eq_dec p q); congruence. Qed.

  Definition after (before : list Z -> wav) (path : list Z) (f : wav) (p : list Z) : wav :=
    match f with Some _ => if same_path p (wav_path path) then f else before p | None => before p end.

  Lemma left_cons before path f files p x : left_from (after before path f) files p x -> left_from before ((path, f) :: files) p x.
  Proof.
    intros [(a & path' & b & -> & Hp & Hx & Hu)|[-> Hu]]; [left; exists ((path, f) :: a), path', b; auto|].
    unfold after. destruct f as [f|].
    - destruct (same_path p (wav_path path)) eqn:E.
      + left. apply same_path_eq in E. exists [], path, files. repeat split; auto. discriminate.
      + right. split; [reflexivity|]. intros path' f' [Hi|Hi] Hp; [|exact (Hu _ _ Hi Hp)]. injection Hi as <- <-. subst p. rewrite same_path_refl in E. discriminate.
    - right. split; [reflexivity|]. intros path' f' [Hi|Hi] Hp; [|exact (Hu _ _ Hi Hp)]. injection Hi as <- <-. reflexivity.
  Qed.
  Lemma left_nil before p : left_from before [] p (before p).
  Proof. right. split; [reflexivity|]. intros path f []. Qed.
  Lemma left_one before path f p : left_from before [(path, f)] p (after before path f p).
  Proof. apply left_cons, left_nil. Qed.
  Lemma left_more before files1 files2 mid p x : (forall p, left_from before files1 p (mid p)) -> left_from mid files2 p x ->
    left_from before (files1 ++ files2) p x.
  Proof.
    intros H1 [(a & path & b & -> & Hp & Hx & Hu)|[-> Hu]].
    - left. exists (files1 ++ a), path, b. rewrite <- app_assoc. auto.
    - destruct (H1 p) as [(a & path & b & -> & Hp & Hx & Hu1)|[E Hu1]].
      + left. exists a, path, (b ++ files2). rewrite <- app_assoc. repeat split; auto.
        intros path' f' Hi. apply in_app_iff in Hi as [Hi|Hi]; [exact (Hu1 _ _ Hi)|exact (Hu _ _ Hi)].
      + right. split; [exact E|]. intros path' f' Hi. apply in_app_iff in Hi as [Hi|Hi]; [exact (Hu1 _ _ Hi)|exact (Hu _ _ Hi)].
  Qed.
  Lemma left_ext before before' files p x : (forall p, before p = before' p) -> left_from before files p x -> left_from before' files p x.
  Proof. intros He [H|[-> Hu]]; [left; exact H|right]. rewrite He. auto. Qed.

  (** One turn of a loop. *)
  Definition turn (body : list Z -> M world unit) (path s : list Z) (f : wav) (ok : bool) : Prop :=
    forall w, w_audio w path = None -> wav_path path <> path ->
    (if ok then fst (body path w) = Ok tt else exists why, fst (body path w) = Panic why)
    /\ w_printed (snd (body path w)) = w_printed w ++ s
    /\ forall p, w_audio (snd (body path w)) p = after (w_audio w) path f p.

  Lemma for_each_app body a b w : for_each body (a ++ b) w = (for_each body a ;;; for_each body b) w.
  Proof.
    revert w. induction a as [|x a IH]; intros w; [reflexivity|]. cbn [app for_each]. unfold bind in *.
    destruct (body x w) as [[?|?|?|?|] w']; try reflexivity. rewrite IH. reflexivity.
  Qed.
  Lemma turns_ok body (texts : list (list Z)) args fs : Forall2 (fun path r => turn body path (fst r) (snd r) true) args (combine texts fs) ->
    length texts = length fs ->
    forall w all, (forall a, In a args -> In a all) -> apart wav_path all -> (forall a, In a all -> w_audio w a = None) ->
    fst (for_each body args w) = Ok tt
    /\ w_printed (snd (for_each body args w)) = w_printed w ++ concat texts
    /\ (forall p, left_from (w_audio w) (combine args fs) p (w_audio (snd (for_each body args w)) p))
    /\ (forall a, In a all -> w_audio (snd (for_each body args w)) a = None).
  Proof.
    intros H. remember (combine texts fs) as rs eqn:Er. revert texts fs Er.
    induction H as [|path r args rs Ht HF IH]; intros texts fs Er El w all Hall Hap Hw.
    - destruct texts, fs; try discriminate. cbn. rewrite app_nil_r. repeat split; auto. intros p. apply left_nil.
    - destruct texts as [|s texts], fs as [|f fs]; try discriminate. cbn in Er. injection Er as -> Er. injection El as El. cbn [fst snd] in Ht.
      assert (wav_path path <> path) as Hne by (apply Hap; apply Hall; left; reflexivity).
      destruct (Ht w (Hw path ltac:(apply Hall; left; reflexivity)) Hne) as (E1 & E2 & E3).
      cbn [for_each]. unfold bind. destruct (body path w) as [o w1]. cbn [fst snd] in *. subst o.
      destruct (IH texts fs Er El w1 all) as (I1 & I2 & I3 & I4); auto.
      { intros a Ha. apply Hall. right. exact Ha. }
      { intros a Ha. rewrite E3. unfold after. rewrite (Hw a Ha). destruct f; [|reflexivity].
        rewrite same_path_neq; [reflexivity|]. apply not_eq_sym, Hap; [apply Hall; left; reflexivity|exact Ha]. }
      split; [exact I1|]. split; [rewrite I2, E2, <- app_assoc; reflexivity|]. split; [|exact I4].
      intros p. cbn [combine]. apply left_cons. eapply left_ext; [exact E3|exact (I3 p)].
  Qed.
  (** Loops from the start. *)
  Lemma loop_ok body texts args fs : Forall2 (fun path r => turn body path (fst r) (snd r) true) args (combine texts fs) ->
    length texts = length fs -> apart wav_path args ->
    ran wav_path (for_each body args started) true (concat texts) (combine args fs).
  Proof.
    intros H El Hap. destruct (turns_ok body texts args fs H El started args (fun a Ha => Ha) Hap (fun _ _ => eq_refl)) as (I1 & I2 & I3 & _).
    split; [exact I1|]. split; [exact I2|exact I3].
  Qed.
  Lemma loop_panics body texts args fs path s f rest :
    Forall2 (fun path r => turn body path (fst r) (snd r) true) args (combine texts fs) -> length texts = length fs ->
    turn body path s f false -> apart wav_path (args ++ path :: rest) ->
    ran wav_path (for_each body (args ++ path :: rest) started) false (concat texts ++ s) (combine args fs ++ [(path, f)]).
  Proof.
    intros H El Ht Hap. rewrite for_each_app. unfold bind.
    assert (In path (args ++ path :: rest)) as Hin by (apply in_app_iff; right; left; reflexivity).
    destruct (turns_ok body texts args fs H El started (args ++ path :: rest)) as (I1 & I2 & I3 & I4); auto.
    { intros a Ha. apply in_app_iff. auto. }
    destruct (for_each body args started) as [o w1]. cbn [fst snd] in *. subst o. cbn [for_each]. unfold bind.
    destruct (Ht w1 (I4 path Hin) ltac:(apply Hap; exact Hin)) as ((why & E1) & E2 & E3). destruct (body path w1) as [o w2]. cbn [fst snd] in *. subst o.
    split; [exists why; reflexivity|]. split; [cbn [snd]; rewrite E2, I2; reflexivity|]. cbn [snd]. intros p.
    change (left_from (w_audio started) (combine args fs ++ [(path, f)]) p (w_audio w2 p)). eapply left_more; [exact I3|].
    rewrite E3. apply left_one.
  Qed.
End Several.

Lemma Forall2_len {A B} (P : A -> B -> Prop) l l' : Forall2 P l l' -> length l = length l'.
Proof. induction 1; cbn; congruence. Qed.

(** * The programs *)
Section Mains.
  Context (m : build) (un : nat -> list Z) (Hun : forall n, length (un n) = n) (fuel turns : nat) (fs : file_system)
    (wav_path : list Z -> list Z) (io_text : io_kind -> string).

  Lemma run_file_spec {A} (c : list Z -> M wav A) path w o f : w_audio w path = None -> wav_path path <> path ->
    c path None = (o, f) -> fst (run_file wav_path c path w) = o /\ w_printed (snd (run_file wav_path c path w)) = w_printed w
      /\ forall p, w_audio (snd (run_file wav_path c path w)) p = after wav_path (w_audio w) path f p.
  Proof.
    intros Hw Hne E. unfold run_file. rewrite Hw, same_path_neq by exact Hne. cbn [orb]. rewrite E. cbn. repeat split. intros p. unfold after.
    destruct f; reflexivity.
  Qed.
  Notation simple_body := (fun fname =>
      print fname ;;;
      r <- run_file wav_path (fun fname => catch (decode_simple m un fuel turns fs fname)) fname ;;
      match r with
      | ROk _ => println (literal ": done")
      | RErr (Unsupported msg) => println (literal ": error, unsupported: " ++ literal msg)
      | RErr (FormatError msg) => println (literal ": error, invalid input: " ++ literal msg)
      | RErr (IoError io_err) => println (literal ": IO error: " ++ literal (io_text io_err))
      end).
  Lemma simple_turn path o f : within fuel turns fs path -> simple_result m fs path o f ->
    turn wav_path simple_body path (path ++ remark io_text o) f (match o with OnPanic => false | _ => true end).
  Proof.
    intros Hin H w Hw Hne. destruct (simple_once m un Hun fuel turns fs path o f Hin H) as (r & E & Hr).
    set (w1 := mkWorld (w_printed w ++ path) (w_audio w)).
    assert (exists o', catch (decode_simple m un fuel turns fs path) None = (o', f)
      /\ match o with AtEnd => o' = Ok (ROk tt) | OnError e => o' = Ok (RErr e) | OnPanic => exists why, o' = Panic why end) as (o' & Ec & Ho).
    { unfold catch. rewrite E. destruct o; cbn in Hr; [subst r; eauto..|]. destruct Hr as [why ->]. eauto. }
    destruct (run_file_spec (fun fname => catch (decode_simple m un fuel turns fs fname)) path w1 o' f Hw Hne Ec) as (R1 & R2 & R3).
    unfold bind, print. cbv beta iota. fold w1. destruct (run_file wav_path _ path w1) as [o1 w2]. cbn [fst snd] in R1, R2, R3. subst o1.
    assert (forall x, w_printed (snd (println x w2)) = w_printed w ++ path ++ x ++ [10]) as P1.
    { intros x. cbn. rewrite R2. cbn. rewrite <- app_assoc. reflexivity. }
    assert (forall x p, w_audio (snd (println x w2)) p = after wav_path (w_audio w) path f p) as P2 by (intros x p; exact (R3 p)).
    destruct o as [|[k|msg|msg]|]; [subst o'..|destruct Ho as [why ->]]; cbn [remark].
    - split; [reflexivity|]. split; [apply P1|apply P2].
    - split; [reflexivity|]. split; [rewrite (app_assoc (literal _) (literal _)); apply P1|apply P2].
    - split; [reflexivity|]. split; [rewrite (app_assoc (literal _) (literal _)); apply P1|apply P2].
    - split; [reflexivity|]. split; [rewrite (app_assoc (literal _) (literal _)); apply P1|apply P2].
    - cbn [fst snd]. split; [eauto|]. split; [rewrite R2, app_nil_r; reflexivity|exact R3].
  Qed.
  Notation stereo_body := (fun fname =>
      print fname ;;;
      run_file wav_path (decode_stereo m un fuel turns fs) fname ;;;
      println (literal ": done")).
  Lemma stereo_turn path (ok : bool) f : within fuel turns fs path -> stereo_result m fs path ok f ->
    turn wav_path stereo_body path (path ++ if ok then literal ": done" ++ [10] else []) f ok.
  Proof.
    intros Hin H w Hw Hne. destruct (stereo_once m un Hun fuel turns fs path ok f Hin H) as (r & E & Hr).
    set (w1 := mkWorld (w_printed w ++ path) (w_audio w)).
    destruct (run_file_spec (decode_stereo m un fuel turns fs) path w1 r f Hw Hne E) as (R1 & R2 & R3).
    unfold bind, print. cbv beta iota. fold w1. destruct (run_file wav_path _ path w1) as [o1 w2]. cbn [fst snd] in R1, R2, R3. subst o1.
    destruct ok; [subst r|destruct Hr as [why ->]].
    - split; [reflexivity|]. split; [|exact R3]. cbn [println print snd w_printed]. rewrite R2. cbn [w1 w_printed]. rewrite <- app_assoc. reflexivity.
    - cbn [fst snd]. split; [eauto|]. split; [rewrite R2, app_nil_r; reflexivity|exact R3].
  Qed.

  Theorem simple_all args results : Forall (within fuel turns fs) args -> apart wav_path args ->
    Forall2 (fun path r => simple_result m fs path (fst r) (snd r)) args results -> Forall (fun r => fst r <> OnPanic) results ->
    ran wav_path (simple_main m un fuel turns fs wav_path io_text args started) true
      (concat (map (fun x => fst x ++ remark io_text (snd x)) (combine args (map fst results)))) (combine args (map snd results)).
  Proof.
    intros Hin Hap HF Hok. apply loop_ok; [|rewrite map_length, combine_length, !map_length; apply Forall2_len in HF; lia|exact Hap].
    clear Hap. induction HF as [|path r args results Hr HF IH]; cbn [map combine fst snd]; constructor.
    - inversion Hin; inversion Hok; subst. cbn [fst snd]. destruct r as [o f]. cbn [fst snd] in *.
      pose proof (simple_turn path o f ltac:(assumption) Hr) as H. destruct o; [exact H..|congruence].
    - inversion Hin; inversion Hok; subst. auto.
  Qed.
  Theorem simple_up_to args results path f rest : Forall (within fuel turns fs) (args ++ path :: rest) -> apart wav_path (args ++ path :: rest) ->
    Forall2 (fun path r => simple_result m fs path (fst r) (snd r)) args results -> Forall (fun r => fst r <> OnPanic) results ->
    simple_result m fs path OnPanic f ->
    ran wav_path (simple_main m un fuel turns fs wav_path io_text (args ++ path :: rest) started) false
      (concat (map (fun x => fst x ++ remark io_text (snd x)) (combine args (map fst results))) ++ path)
      (combine args (map snd results) ++ [(path, f)]).
  Proof.
    intros Hin Hap HF Hok Hp. apply Forall_app in Hin as [Hin Hin']. inversion Hin'; subst.
    apply loop_panics; [|rewrite map_length, combine_length, !map_length; apply Forall2_len in HF; lia| |exact Hap].
    - clear Hap. induction HF as [|x r args results Hr HF IH]; cbn [map combine fst snd]; constructor.
      + inversion Hin; inversion Hok; subst. cbn [fst snd]. destruct r as [o g]. cbn [fst snd] in *.
        pose proof (simple_turn x o g ltac:(assumption) Hr) as H. destruct o; [exact H..|congruence].
      + inversion Hin; inversion Hok; subst. auto.
    - rewrite <- (app_nil_r path) at 2. exact (simple_turn path OnPanic f ltac:(assumption) Hp).
  Qed.
  Lemma then_nothing r ok s files : ran wav_path r ok s files ->
    ran wav_path (match r with (Ok a, w) => (ret tt : M world unit) w | (Err e, w) => (Err e, w) | (Panic y, w) => (Panic y, w)
       | (UB y, w) => (UB y, w) | (OutOfFuel, w) => (OutOfFuel, w) end) ok s files.
  Proof. intros H. destruct r as [[[]|?|?|?|] w]; exact H. Qed.
  Theorem stereo_all args results : Forall (within fuel turns fs) args -> apart wav_path args -> args <> [] ->
    Forall2 (fun path f => stereo_result m fs path true f) args results ->
    ran wav_path (stereo_main m un fuel turns fs wav_path args started) true
      (concat (map (fun path => path ++ literal ": done" ++ [10]) args)) (combine args results).
  Proof.
    intros Hin Hap Hne HF. unfold stereo_main.
    destruct args as [|a args]; [congruence|]. unfold bind at 1. apply then_nothing.
    apply loop_ok; [|rewrite map_length; apply Forall2_len in HF; exact HF|exact Hap].
    clear Hap Hne. induction HF as [|path f args' results Hr HF IH]; cbn [map combine fst snd]; constructor.
    - inversion Hin; subst. cbn [fst snd]. exact (stereo_turn path true f ltac:(assumption) Hr).
    - inversion Hin; subst. auto.
  Qed.
  Theorem stereo_none : ran wav_path (stereo_main m un fuel turns fs wav_path [] started) true (literal "no files to decode" ++ [10]) [].
  Proof. split; [reflexivity|]. split; [reflexivity|]. intros p. apply (left_nil wav_path (fun _ => None)). Qed.
  Theorem stereo_up_to args results path f rest : Forall (within fuel turns fs) (args ++ path :: rest) -> apart wav_path (args ++ path :: rest) ->
    Forall2 (fun path f => stereo_result m fs path true f) args results ->
    stereo_result m fs path false f ->
    ran wav_path (stereo_main m un fuel turns fs wav_path (args ++ path :: rest) started) false
      (concat (map (fun path => path ++ literal ": done" ++ [10]) args) ++ path) (combine args results ++ [(path, f)]).
  Proof.
    intros Hin Hap HF Hp. unfold stereo_main. destruct (args ++ path :: rest) as [|y ys] eqn:Ey; [destruct args; discriminate|].
    unfold bind at 1. apply then_nothing. rewrite <- Ey in *.
    apply Forall_app in Hin as [Hin Hin']. inversion Hin'; subst.
    apply loop_panics; [|rewrite map_length; apply Forall2_len in HF; exact HF| |exact Hap].
    - clear Hap Ey. induction HF as [|x g args results Hr HF IH]; cbn [map combine fst snd]; constructor.
      + inversion Hin; subst. cbn [fst snd]. exact (stereo_turn x true g ltac:(assumption) Hr).
      + inversion Hin; subst. auto.
    - rewrite <- (app_nil_r path) at 2. exact (stereo_turn path false f ltac:(assumption) Hp).
  Qed.

  Theorem tags_all args css : Forall (within fuel turns fs) args ->
    Forall2 (fun path cs => tags_result fs path (Some cs)) args css ->
    forall w, tags_main m un fuel turns fs args w
      = (Ok tt, mkWorld (w_printed w ++ concat (map (fun x => tag_lines (fst x) (snd x)) (combine args css))) (w_audio w)).
  Proof.
    intros Hin HF. induction HF as [|path cs args css Ht HF IH]; intros w; inversion Hin; subst; cbn [map combine concat].
    - rewrite app_nil_r. destruct w. reflexivity.
    - unfold tags_main in *. cbn [for_each]. unfold bind, lift in *. rewrite (tags_once m un Hun fuel turns fs path (Some cs) ltac:(assumption) Ht).
      cbn [print]. rewrite IH by assumption. cbn [w_printed w_audio fst snd]. rewrite <- app_assoc. reflexivity.
  Qed.
  Theorem tags_up_to args css path rest : Forall (within fuel turns fs) (args ++ path :: rest) ->
    Forall2 (fun path cs => tags_result fs path (Some cs)) args css -> tags_result fs path None ->
    forall w, exists why, tags_main m un fuel turns fs (args ++ path :: rest) w
      = (Panic why, mkWorld (w_printed w ++ concat (map (fun x => tag_lines (fst x) (snd x)) (combine args css))) (w_audio w)).
  Proof.
    intros Hin HF Hn w. apply Forall_app in Hin as [Hin Hin']. inversion Hin'; subst. unfold tags_main. rewrite for_each_app.
    pose proof (tags_all args css Hin HF w) as E. unfold tags_main in E. unfold bind at 1. rewrite E.
    destruct (tags_once m un Hun fuel turns fs path None ltac:(assumption) Hn) as [why Ew].
    exists why. cbn [for_each]. unfold bind, lift. rewrite Ew. reflexivity.
  Qed.
End Mains.
