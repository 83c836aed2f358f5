(** Tags: the comments of an accepted file, iteration and lookup. *)
From Verif Require Export ProofFile.
From Verif Require Import SpecReader.

(** ** Strings *)
Lemma utf8_head l : utf8 l -> l = [] \/ exists b r, l = b :: r /\ is_cont b = false.
Proof.
  intros (cs & Hs & ->). destruct cs as [|c cs]; [left; reflexivity|right]. inversion_clear Hs as [|? ? Hc _]. unfold scalar in Hc. cbn [flat_map].
  unfold utf8_char. unfold is_cont.
  destruct (c <? 0x80) eqn:E1; [eexists _, _; split; [reflexivity|lia]|].
  destruct (c <? 0x800) eqn:E2; [eexists _, _; split; [reflexivity|lia]|].
  destruct (c <? 0x10000) eqn:E3; [eexists _, _; split; [reflexivity|lia]|].
  eexists _, _; split; [reflexivity|lia].
Qed.
Lemma boundary_at (a b : list Z) : (b = [] \/ exists x r, b = x :: r /\ is_cont x = false) -> is_char_boundary (a ++ b) (len a) = true.
Proof.
  intros H. unfold is_char_boundary. rewrite len_app. destruct H as [->|(x & r & -> & Hx)].
  - change (len (@nil Z)) with 0. rewrite Z.add_0_r, Z.eqb_refl, orb_true_r. reflexivity.
  - rewrite len_cons. pose proof (len_nonneg a). pose proof (len_nonneg r).
    replace ((0 <=? len a) && (len a <? len a + (len r + 1))) with true by lia.
    assert (Z.to_nat (len a) = length a) as -> by (unfold len; lia). rewrite nth_error_app2, Nat.sub_diag by lia. cbn [nth_error]. rewrite Hx. cbn. apply orb_true_r.
Qed.
Lemma str_split n v : utf8 v ->
  str_to (n ++ [61] ++ v) (len n) = Ok n /\ str_from (n ++ [61] ++ v) (len n + 1) = Ok v.
Proof.
  intros Hv. split.
  - unfold str_to. rewrite boundary_at by (right; exists 61, v; split; reflexivity). f_equal. unfold len. rewrite Nat2Z.id.
    rewrite firstn_app, Nat.sub_diag, firstn_all. cbn [firstn]. apply app_nil_r.
  - unfold str_from. rewrite app_assoc. replace (len n + 1) with (len (n ++ [61])) by (rewrite len_app; reflexivity).
    rewrite boundary_at by (apply utf8_head, Hv). f_equal. unfold len. rewrite Nat2Z.id. rewrite skipn_app, Nat.sub_diag, skipn_all. reflexivity.
Qed.
Lemma comment_split c : comment_ok c -> str_to (comment_text c) (len (fst c)) = Ok (fst c) /\ str_from (comment_text c) (len (fst c) + 1) = Ok (snd c).
Proof. intros [_ Hv]. apply str_split, Hv. Qed.

Lemma letter_ok x y : (to_ascii_lowercase x =? to_ascii_lowercase y) = true <-> same_letter x y.
Proof.
  unfold to_ascii_lowercase, same_letter, upper.
  destruct ((65 <=? x) && (x <=? 90)) eqn:E1, ((65 <=? y) && (y <=? 90)) eqn:E2; lia.
Qed.
Lemma name_ok a b : eq_ignore_ascii_case a b = true <-> same_name a b.
Proof.
  revert b. induction a as [|x a IH]; intros [|y b]; cbn [eq_ignore_ascii_case]; try (split; [discriminate|intros H; inversion H]).
  - split; [constructor|reflexivity].
  - rewrite andb_true_iff, letter_ok, IH. split.
    + intros [H1 H2]. constructor; assumption.
    + intros H. inversion H; subst. split; assumption.
Qed.

(** ** Iterators that yield a list *)
Lemma firstn_pad {A} (l : list A) x n k : (n <= k)%nat -> firstn n (l ++ repeat x k) = firstn n (l ++ repeat x n).
Proof.
  revert n k. induction l as [|y l IH]; intros n k Hk; cbn [app].
  - replace k with (n + (k - n))%nat by lia. rewrite repeat_app, firstn_app, repeat_length, Nat.sub_diag. cbn [firstn]. rewrite app_nil_r. reflexivity.
  - destruct n as [|n]; [reflexivity|]. cbn [firstn repeat]. f_equal. rewrite (IH n k) by lia.
    change (x :: repeat x n) with (repeat x (Datatypes.S n)). rewrite (IH n (Datatypes.S n)) by lia. reflexivity.
Qed.
Lemma history_succ {S A} (c : M S A) n st : history_all (fun _ : unit => c) (repeat tt (Datatypes.S n)) st
  = (let (r, st') := c st in let (rs, st'') := history_all (fun _ : unit => c) (repeat tt n) st' in (r :: rs, st'')).
Proof. reflexivity. Qed.

Lemma tags_yield : forall n cs, Forall comment_ok cs ->
  history_all (fun _ : unit => tags_next) (repeat tt n) (map rep cs)
  = (firstn n (map (fun c => Ok (Some c)) cs ++ repeat (Ok None) n), map rep (skipn n cs)).
Proof.
  induction n as [|n IH]; intros cs Hcs; [reflexivity|]. rewrite history_succ. destruct cs as [|c cs].
  - change (map rep []) with (@nil (list Z * Z)). cbn [tags_next]. specialize (IH [] ltac:(constructor)).
    change (map rep []) with (@nil (list Z * Z)) in IH. rewrite IH. rewrite skipn_nil. cbn [app map repeat firstn skipn]. reflexivity.
  - inversion_clear Hcs as [|? ? Hc Hcs']. destruct (comment_split c Hc) as [E1 E2]. cbn [map]. unfold rep at 1. cbn [tags_next]. rewrite E1, E2. cbn [obind].
    rewrite (IH cs Hcs'). cbn [map app firstn skipn]. rewrite (firstn_pad _ _ n (Datatypes.S n)) by lia. destruct c; reflexivity.
Qed.
Lemma tags_hint st : tags_size_hint st = (len st, Some (len st)).
Proof. reflexivity. Qed.

(** ** Lookup *)
Section Lookup.
  Context (cs : list comment) (name : list Z) (Hcs : Forall comment_ok cs).
  Notation state pre := (mkGt (map rep cs) name (len (pre : list comment))).

  Lemma get_tag_loop_ok : forall todo pre fuel, cs = pre ++ todo -> (length todo <= fuel)%nat ->
    exists a b, todo = a ++ b /\ Forall (fun c => ~ same_name (fst c) name) a /\
      match b with
      | [] => get_tag_loop fuel (state pre) = (Ok None, state cs)
      | c :: b' => same_name (fst c) name /\ get_tag_loop fuel (state pre) = (Ok (Some (snd c)), state (pre ++ a ++ [c]))
      end.
  Proof.
    induction todo as [|c todo IH]; intros pre fuel E Hf.
    - exists [], []. split; [reflexivity|]. split; [constructor|]. rewrite app_nil_r in E. subst pre.
      assert (len (map rep cs) = len cs) as El by (unfold len; rewrite map_length; reflexivity).
      destruct fuel; cbn [get_tag_loop]; rewrite bind_get; cbn [gt_index gt_comments]; rewrite El, Z.ltb_irrefl; reflexivity.
    - destruct fuel as [|fuel]; [cbn in Hf; lia|].
      assert (comment_ok c) as Hc by (rewrite E in Hcs; apply Forall_app in Hcs as [_ H]; inversion H; assumption).
      destruct (comment_split c Hc) as [E1 E2].
      assert (len (pre ++ [c]) = len pre + 1) as Elen by (rewrite len_app; reflexivity).
      assert (get_tag_loop (Datatypes.S fuel) (state pre)
              = if eq_ignore_ascii_case (fst c) name then (Ok (Some (snd c)), state (pre ++ [c])) else get_tag_loop fuel (state (pre ++ [c]))) as Estep.
      { cbn [get_tag_loop]. rewrite bind_get. cbn [gt_index gt_comments gt_needle].
        assert (len pre <? len (map rep cs) = true) as ->.
        { rewrite E. unfold len. rewrite map_length, app_length. cbn [length]. lia. }
        assert (index (map rep cs) (len pre) = Ok (rep c)) as Ei.
        { unfold index. rewrite E. rewrite map_app. cbn [map]. pose proof (len_nonneg pre).
          replace (0 <=? len pre) with true by lia. unfold len. rewrite Nat2Z.id, nth_error_app2 by (rewrite map_length; lia).
          rewrite map_length, Nat.sub_diag. reflexivity. }
        rewrite Ei, bind_lift_ok. unfold rep at 1. unfold bind at 1, put. unfold bind at 1. unfold lift at 1. rewrite E1.
        rewrite <- Elen. destruct (eq_ignore_ascii_case (fst c) name); [|reflexivity]. rewrite E2. reflexivity. }
      rewrite Estep. destruct (eq_ignore_ascii_case (fst c) name) eqn:Eq.
      + exists [], (c :: todo). split; [reflexivity|]. split; [constructor|]. split; [apply name_ok, Eq|]. reflexivity.
      + destruct (IH (pre ++ [c]) fuel) as (a & b & -> & Ha & Hb); [rewrite <- app_assoc; exact E|cbn in Hf; lia|].
        exists (c :: a), b. split; [reflexivity|]. split; [constructor; [|exact Ha]; intros H; apply name_ok in H; congruence|].
        destruct b as [|d b]; [exact Hb|]. destruct Hb as [H1 H2]. split; [exact H1|]. rewrite H2. rewrite <- app_assoc. reflexivity.
  Qed.

  Lemma values_app a b vs : Forall (fun c => ~ same_name (fst c) name) a -> values_of name b vs -> values_of name (a ++ b) vs.
  Proof. induction 1 as [|c a Hc _ IH]; intros Hv; [exact Hv|]. cbn [app]. apply values_skip; auto. Qed.

  Lemma get_tag_yield_from : forall k todo pre, (length todo <= k)%nat -> cs = pre ++ todo ->
    exists vs, values_of name todo vs /\ forall n,
      fst (history_all (fun _ : unit => get_tag_next) (repeat tt n) (state pre)) = firstn n (map (fun v => Ok (Some v)) vs ++ repeat (Ok None) n).
  Proof.
    assert (forall pre, get_tag_next (state pre) = get_tag_loop (Datatypes.S (length (map rep cs))) (state pre)) as Enext by reflexivity.
    assert (forall n, fst (history_all (fun _ : unit => get_tag_next) (repeat tt n) (state cs)) = repeat (Ok None) n) as Hend.
    { assert (get_tag_next (state cs) = (Ok None, state cs)) as E.
      { rewrite Enext. destruct (get_tag_loop_ok [] cs (Datatypes.S (length (map rep cs)))) as (a & b & E & _ & Hb); [symmetry; apply app_nil_r|cbn; lia|].
        symmetry in E. apply app_eq_nil in E as [-> ->]. exact Hb. }
      induction n as [|n IH]; [reflexivity|]. rewrite history_succ, E.
      destruct (history_all _ _ _) as [rs s]. cbn [fst] in *. rewrite IH. reflexivity. }
    induction k as [|k IH]; intros todo pre Hk E.
    - destruct todo; [|cbn in Hk; lia]. rewrite app_nil_r in E. subst pre. exists []. split; [constructor|]. intros n. rewrite Hend. cbn [map app].
      rewrite <- (repeat_length (@Ok (option (list Z)) None) n) at 2. rewrite firstn_all. reflexivity.
    - destruct (get_tag_loop_ok todo pre (Datatypes.S (length (map rep cs))) E) as (a & b & -> & Ha & Hb).
      { rewrite map_length, E, app_length. lia. }
      rewrite <- Enext in Hb. destruct b as [|c b].
      + exists []. split; [apply values_app; [exact Ha|constructor]|]. intros n. cbn [map app].
        assert (firstn n (repeat (@Ok (option (list Z)) None) n) = repeat (Ok None) n) as ->.
        { rewrite <- (repeat_length (@Ok (option (list Z)) None) n) at 1. apply firstn_all. }
        destruct n as [|n]; [reflexivity|]. rewrite history_succ, Hb. specialize (Hend n).
        destruct (history_all _ _ _) as [rs s]. cbn [fst] in *. rewrite Hend. reflexivity.
      + destruct Hb as [Hs Hb]. destruct (IH b (pre ++ a ++ [c])) as (vs & Hv & Hn).
        { rewrite app_length in Hk. cbn [length] in Hk. lia. }
        { rewrite <- !app_assoc. exact E. }
        exists (snd c :: vs). split; [apply values_app; [exact Ha|]; apply values_take; assumption|].
        intros n. destruct n as [|n]; [reflexivity|]. rewrite history_succ, Hb. specialize (Hn n).
        destruct (history_all _ _ _) as [rs s]. cbn [fst] in *. rewrite Hn. cbn [map app firstn]. rewrite (firstn_pad _ _ n (Datatypes.S n)) by lia. reflexivity.
  Qed.
End Lookup.

Lemma values_unique name cs vs vs' : values_of name cs vs -> values_of name cs vs' -> vs = vs'.
Proof.
  intros H. revert vs'. induction H; intros vs' H'; inversion H'; subst; try contradiction; f_equal; auto.
Qed.
Lemma values_exist name cs : exists vs, values_of name cs vs.
Proof.
  induction cs as [|c cs [vs IH]]; [exists []; constructor|].
  destruct (eq_ignore_ascii_case (fst c) name) eqn:E.
  - exists (snd c :: vs). apply values_take; [apply name_ok, E|exact IH].
  - exists vs. apply values_skip; [|exact IH]. intros H. apply name_ok in H. congruence.
Qed.

Theorem get_tag_yield cs name vs n : Forall comment_ok cs -> values_of name cs vs ->
  fst (history_all (fun _ : unit => get_tag_next) (repeat tt n) (get_tag_new (map rep cs) name)) = firstn n (map (fun v => Ok (Some v)) vs ++ repeat (Ok None) n).
Proof.
  intros Hcs Hv. destruct (get_tag_yield_from cs name Hcs (length cs) cs [] (le_n _) eq_refl) as (vs' & Hv' & Hn).
  rewrite (values_unique _ _ _ _ Hv Hv'). apply Hn.
Qed.

(** ** The comments of an accepted file *)
Definition vc_ok (vc : vorbis_comment) : Prop := exists vendor cs, vc = vorbis_of vendor cs /\ utf8 vendor /\ Forall comment_ok cs.
Lemma present_ok es : Forall entry_ok es -> Forall comment_ok (present es).
Proof.
  induction 1 as [|e es He _ IH]; [constructor|]. destruct e as [c|]; cbn [present flat_map app]; [constructor; assumption|exact IH].
Qed.
Lemma body_vc ty w vc : body_code ty w (MbVorbisComment vc) -> vc_ok vc.
Proof.
  intros H. inversion H; subst. exists vendor, (present entries). split; [reflexivity|]. split; [assumption|]. apply present_ok. assumption.
Qed.
Lemma block_vc last w vc : block_code last (MbVorbisComment vc) w -> vc_ok vc.
Proof. intros (ty & body & H & _). eapply body_vc, H. Qed.
Lemma blocks_in bs w b : blocks_code bs w -> In b bs -> exists last w', block_code last b w'.
Proof.
  induction 1; cbn [In]; intros HI.
  - destruct HI as [<-|[]]. eauto.
  - destruct HI as [<-|HI]; eauto.
Qed.
Lemma only_in bs vc : only_comment bs (Some vc) -> In (MbVorbisComment vc) bs.
Proof. intros H. inversion H; subst. apply in_elt. Qed.
Lemma opens_vc opts si vc w : opens opts si (Some vc) w -> vc_ok vc.
Proof.
  intros H. apply opens_inv in H as (last & w1 & w2 & _ & _ & HH). destruct last; [destruct HH; discriminate|].
  unfold after in HH. destruct (metadata_only opts), (opt_read_vorbis_comment opts).
  - destruct HH as (bs & x1 & last & x2 & _ & _ & Hc & _). eapply block_vc, Hc.
  - destruct HH; discriminate.
  - destruct HH as (bs & Hb & _ & Ho). destruct (blocks_in _ _ _ Hb (only_in _ _ Ho)) as (last & w' & Hc). eapply block_vc, Hc.
  - destruct HH; discriminate.
Qed.

Section Stream.
  Context {S : Type} (rb : ReadBytes S) (t : tail) (D : S -> list Z -> Prop) (HS : stream rb t D).
  Context (m : build) (un : nat -> list Z) (Hun : forall n, length (un n) = n).

  Lemma shows_some {T} (r : flac_reader T) vendor cs : fr_vorbis_comment r = Some (vorbis_of vendor cs) -> Forall comment_ok cs -> shows r (Some vendor) cs.
  Proof.
    intros E Hcs. unfold shows, fr_vendor, fr_tags, fr_get_tag. rewrite E. cbn [option_map vorbis_of vc_vendor vc_comments]. split; [reflexivity|]. split.
    - intros n. unfold tags_new. change (map (fun c => (comment_text c, len (fst c))) cs) with (map rep cs). rewrite tags_yield by exact Hcs. cbn [fst snd].
      split; [reflexivity|]. rewrite tags_hint. unfold len. rewrite map_length. reflexivity.
    - intros name vs n Hv. apply get_tag_yield; assumption.
  Qed.
  Lemma shows_none {T} (r : flac_reader T) : fr_vorbis_comment r = None -> shows r None [].
  Proof.
    intros E. unfold shows, fr_vendor, fr_tags, fr_get_tag. rewrite E. cbn [option_map]. split; [reflexivity|]. split.
    - intros n. pose proof (tags_yield n [] ltac:(constructor)) as H. change (map rep []) with (@nil (list Z * Z)) in H. unfold tags_new. rewrite H. rewrite skipn_nil. split; reflexivity.
    - intros name vs n Hv. apply (get_tag_yield [] name vs n); [constructor|exact Hv].
  Qed.
  Theorem tags_of_reader fuel opts st l r : D st l -> (length l < fuel)%nat -> fst (new_ext rb m un fuel opts st) = Ok r ->
    exists vendor cs, Forall comment_ok cs /\ shows r vendor cs
      /\ match fr_vorbis_comment r with
         | Some vc => exists v, vendor = Some v /\ utf8 v /\ vc = vorbis_of v cs
         | None => vendor = None /\ cs = []
         end.
  Proof.
    intros HD Hf E. pose proof (new_ext_result rb t D HS m un Hun fuel opts st l HD Hf) as H.
    destruct (new_ext rb m un fuel opts st) as [o s]. cbn [fst] in E. subst o. destruct H as (w & rest & inp & _ & Ho & _).
    destruct (fr_vorbis_comment r) as [vc|] eqn:Ev.
    - destruct (opens_vc _ _ _ _ Ho) as (v & cs & -> & Hu & Hcs). exists (Some v), cs. split; [exact Hcs|]. split; [apply shows_some; assumption|]. eauto.
    - exists None, []. split; [constructor|]. split; [apply shows_none, Ev|]. auto.
  Qed.
End Stream.
