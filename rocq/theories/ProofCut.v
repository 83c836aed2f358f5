(** Files that end too early, or that are damaged from some place on: C96. *)
From Verif Require Export SpecCut ProofAnyPlay.
From Verif Require Import SpecReader.

Lemma stop_for_good m t t' l x o : any_stop t m l o -> for_good o -> any_stop t' m (l ++ x) o.
Proof.
  intros H Hg. inversion H; subst; rewrite <- ?app_assoc;
    try (constructor; assumption); try contradiction Hg; destruct t; contradiction Hg.
Qed.

Theorem plays_further m t t' l x frames o : bytes_ok (l ++ x) -> any_plays m t l frames o ->
  exists more o', any_plays m t' (l ++ x) (frames ++ more) o' /\ (for_good o -> more = [] /\ o' = o).
Proof.
  intros Hb (ws & rest & -> & HF & Hs).
  assert ({for_good o} + {~ for_good o}) as [Hg|Hg] by (destruct o as [|[]|]; cbn; auto).
  - exists [], o. split; [|auto]. rewrite app_nil_r. exists ws, (rest ++ x). rewrite app_assoc. repeat split; auto.
    exact (stop_for_good m t t' rest x o Hs Hg).
  - rewrite <- app_assoc in Hb. apply bytes_app in Hb as [_ Hb].
    destruct (any_exist m t' (rest ++ x) Hb) as (more & o' & ws' & rest' & E & HF' & Hs').
    exists more, o'. split; [|contradiction]. exists (ws ++ ws'), rest'. rewrite concat_app, <- !app_assoc, E.
    repeat split; auto. apply Forall2_app; assumption.
Qed.
Theorem file_plays_further m t t' l x si vc frames o : bytes_ok (l ++ x) -> file_any_plays m t l si vc frames o ->
  exists more o', file_any_plays m t' (l ++ x) si vc (frames ++ more) o' /\ (for_good o -> more = [] /\ o' = o).
Proof.
  intros Hb (w & rest & -> & Hw & Hp). rewrite <- app_assoc in *.
  destruct (plays_further m t t' rest x frames o) as (more & o' & H & Hg); auto; [apply bytes_app in Hb; tauto|].
  exists more, o'. split; [|exact Hg]. exists w, (rest ++ x). auto.
Qed.

(** * Cutting a sequence *)
Lemma cut_concat (ws : list (list Z)) : forall l x, concat ws = l ++ x -> x <> [] ->
  exists ws1 w ws2 part, ws = ws1 ++ w :: ws2 /\ l = concat ws1 ++ part /\ begins part w.
Proof.
  induction ws as [|w ws IH]; intros l x E Hx; cbn [concat] in E.
  - symmetry in E. apply app_eq_nil in E as [_ ->]. contradiction.
  - destruct (le_lt_dec (length w) (length l)) as [Hl|Hl].
    + assert (l = w ++ skipn (length w) l) as El.
      { rewrite <- (firstn_skipn (length w) l) at 1. f_equal. apply (f_equal (firstn (length w))) in E.
        rewrite !firstn_app, Nat.sub_diag, firstn_all in E. replace (length w - length l)%nat with 0%nat in E by lia.
        cbn [firstn] in E. rewrite !app_nil_r in E. congruence. }
      rewrite El, <- app_assoc in E. apply app_inv_head in E.
      destruct (IH _ _ E Hx) as (ws1 & w1 & ws2 & part & -> & E1 & Hp).
      exists (w :: ws1), w1, ws2, part. split; [reflexivity|]. split; [|exact Hp]. cbn [concat]. rewrite <- app_assoc, <- E1. exact El.
    + exists [], w, ws, l. split; [reflexivity|]. split; [reflexivity|].
      exists (skipn (length l) w). split.
      * intros E0. apply (f_equal (@length Z)) in E0. rewrite skipn_length in E0. cbn in E0. lia.
      * rewrite <- (firstn_skipn (length l) w) at 1. f_equal. apply (f_equal (firstn (length l))) in E.
        rewrite !firstn_app, Nat.sub_diag, firstn_all in E. replace (length l - length w)%nat with 0%nat in E by lia.
        cbn [firstn] in E. rewrite !app_nil_r in E. exact E.
Qed.
Lemma cut_Forall2 {A B} (R : A -> B -> Prop) l ys1 y ys2 : Forall2 R l (ys1 ++ y :: ys2) ->
  exists xs1 x xs2, l = xs1 ++ x :: xs2 /\ Forall2 R xs1 ys1 /\ R x y /\ Forall2 R xs2 ys2.
Proof.
  intros H. apply Forall2_app_inv_r in H as (xs1 & r & H1 & H2 & ->). inversion H2; subst. eauto 8.
Qed.

(** What is left of a frame. *)
Lemma part_stops m t f w part : bytes_ok w -> any_frame m f w -> begins part w -> any_plays m t part [] (cut_ending t part).
Proof.
  intros Hb Hw (x & Hx & ->).
  destruct (any_exist m t part) as (frames & o & ws & rest & E & HF & Hs); [apply bytes_app in Hb; tauto|].
  assert (frames = [] /\ ws = []) as [-> ->].
  { inversion HF as [|f' w' fs' ws' Hw' HF']; subst; [auto|]. exfalso. cbn [concat] in *. rewrite <- !app_assoc in *.
    pose proof (any_frame_unique m f _ [] f' w' (concat ws' ++ rest ++ x) Hw Hw') as H. rewrite app_nil_r in H.
    destruct (H Hb eq_refl) as (_ & _ & E0). symmetry in E0. apply app_eq_nil in E0 as [_ E0]. apply app_eq_nil in E0 as [_ E0]. contradiction. }
  cbn [concat app] in E. subst rest. exists [], part. repeat split; [constructor|].
  assert (forall o', ~ any_stop t m (part ++ x) o') as No.
  { intros o' H. rewrite <- (app_nil_r (part ++ x)) in H. apply (any_frame_or_stop m t f (part ++ x) [] o'); rewrite ?app_nil_r; auto. rewrite app_nil_r in H. exact H. }
  inversion Hs; subst; unfold cut_ending; cbn [tail_error].
  - destruct (Nat.leb_spec (length part) 1); [exact Hs|lia].
  - exfalso. apply (No (OnError e)). rewrite <- app_assoc. constructor. assumption.
  - exfalso. apply (No OnPanic). rewrite <- app_assoc. constructor. assumption.
  - destruct t; [|exact Hs]. destruct (Nat.leb_spec (length part) 1); [|exact Hs]. match goal with H : TEof = TEof -> _ |- _ => specialize (H eq_refl) end. lia.
  - exfalso. apply (No (OnError e)). rewrite <- app_assoc. constructor. assumption.
  - destruct t; [|exact Hs]. destruct (Nat.leb_spec (length part) 1); [|exact Hs]. match goal with H : TEof = TEof -> _ |- _ => specialize (H eq_refl) end. lia.
Qed.

Lemma frame_any m h chs w : frame_code h chs w -> any_frame m (h, chs) w.
Proof. destruct m; cbn; [auto|apply frame_is_loose]. Qed.

(** * Files *)
Section Files.
  Context (m : build) (un : nat -> list Z) (Hun : forall n, length (un n) = n) (fuel : nat).

  (** A longer file: the same samples, and then more, unless playing had stopped for good. *)
  Theorem longer_file fs path path' t t' l x r it : file_at fs path t l -> file_at fs path' t' (l ++ x) ->
    (length (l ++ x) + 1 < fuel)%nat -> flac_open m un fuel fs path = Ok r -> fr_samples r = Ok it ->
    exists pcm o r' it' more o', sounds (fs_next (br_rb m) m fuel) it pcm o
      /\ flac_open m un fuel fs path' = Ok r'
      /\ fr_get_streaminfo r' = fr_get_streaminfo r /\ fr_vorbis_comment r' = fr_vorbis_comment r
      /\ fr_samples r' = Ok it' /\ sounds (fs_next (br_rb m) m fuel) it' (pcm ++ more) o'
      /\ (for_good o -> more = [] /\ o' = o).
  Proof.
    intros Hat Hat' Hf Ho Hi. pose proof (file_delivers _ _ _ _ Hat') as Hb. rewrite app_length in Hf.
    destruct (any_file_cases m un Hun fuel fs path t l Hat ltac:(lia)) as [(e & _ & E)|(si & vc & frames & o & Hp)]; [congruence|].
    destruct (file_plays_further m t t' l x si vc frames o Hb Hp) as (more & o' & Hp' & Hg).
    destruct (any_file_samples m un Hun fuel fs path t l si vc frames o Hat ltac:(lia) Hp) as (r1 & it1 & E1 & Es & Ev & Ei & Hs).
    destruct (any_file_samples m un Hun fuel fs path' t' (l ++ x) si vc _ o' Hat' ltac:(rewrite app_length; lia) Hp') as (r2 & it2 & E2 & Es2 & Ev2 & Ei2 & Hs2).
    rewrite E1 in Ho. injection Ho as <-. rewrite Ei in Hi. injection Hi as <-.
    exists (pcm_of frames), o, r2, it2, (pcm_of more), o'. unfold pcm_of in Hs2 |- *. rewrite flat_map_app in Hs2.
    repeat (split; [congruence || assumption|]). intros H. destruct (Hg H) as [-> ->]. auto.
  Qed.
  Theorem longer_unopened fs path path' t t' l x e : file_at fs path t l -> file_at fs path' t' (l ++ x) ->
    (length (l ++ x) + 1 < fuel)%nat -> flac_open m un fuel fs path = Err e -> (forall k, e <> IoError k) ->
    flac_open m un fuel fs path' = Err e.
  Proof.
    intros Hat Hat' Hf Ho He. rewrite app_length in Hf.
    destruct (any_file_cases m un Hun fuel fs path t l Hat ltac:(lia)) as [(e1 & Hu & E)|(si & vc & frames & o & Hp)].
    - rewrite E in Ho. injection Ho as ->. destruct Hu as [(w & rest & -> & Hw)|(-> & _)]; [|destruct t; exfalso; eapply He; reflexivity].
      rewrite path_default. rewrite <- app_assoc in *. apply (path_reports m un Hun fuel fs path' t' w (rest ++ x) default_options e Hat'); [|exact Hw].
      rewrite !app_length in *. lia.
    - destruct (any_file_samples m un Hun fuel fs path t l si vc frames o Hat ltac:(lia) Hp) as (r1 & it1 & E1 & _). congruence.
  Qed.
  (** Two files that begin alike. *)
  Theorem damaged_files fs path path' t t' t0 p x x' si vc frames o :
    file_at fs path t (p ++ x) -> file_at fs path' t' (p ++ x') ->
    (length (p ++ x) + 1 < fuel)%nat -> (length (p ++ x') + 1 < fuel)%nat -> file_any_plays m t0 p si vc frames o ->
    exists r it more o1 r' it' more' o2,
      flac_open m un fuel fs path = Ok r /\ fr_get_streaminfo r = si /\ fr_vorbis_comment r = vc /\ fr_samples r = Ok it
      /\ flac_open m un fuel fs path' = Ok r' /\ fr_get_streaminfo r' = si /\ fr_vorbis_comment r' = vc /\ fr_samples r' = Ok it'
      /\ sounds (fs_next (br_rb m) m fuel) it (pcm_of frames ++ more) o1
      /\ sounds (fs_next (br_rb m) m fuel) it' (pcm_of frames ++ more') o2.
  Proof.
    intros Hat Hat' Hf Hf' Hp. pose proof (file_delivers _ _ _ _ Hat) as Hb. pose proof (file_delivers _ _ _ _ Hat') as Hb'.
    destruct (file_plays_further m t0 t p x si vc frames o Hb Hp) as (more & o1 & Hp1 & _).
    destruct (file_plays_further m t0 t' p x' si vc frames o Hb' Hp) as (more' & o2 & Hp2 & _).
    destruct (any_file_samples m un Hun fuel fs path t _ si vc _ o1 Hat Hf Hp1) as (r1 & it1 & E1 & Es1 & Ev1 & Ei1 & Hs1).
    destruct (any_file_samples m un Hun fuel fs path' t' _ si vc _ o2 Hat' Hf' Hp2) as (r2 & it2 & E2 & Es2 & Ev2 & Ei2 & Hs2).
    unfold pcm_of in *. rewrite flat_map_app in Hs1, Hs2. exists r1, it1, (pcm_of more), o1, r2, it2, (pcm_of more'), o2. auto 12.
  Qed.
  (** A good file, cut anywhere. *)
  Theorem cut_file fs path t l x si vc frames : file_code si vc frames (l ++ x) -> bytes_ok (l ++ x) -> x <> [] ->
    file_at fs path t l -> (length l + 1 < fuel)%nat ->
    (exists w, well_formed si vc w /\ begins l w /\ flac_open m un fuel fs path = Err (tail_error t))
    \/ (exists r it done f todo whole w part, flac_open m un fuel fs path = Ok r
        /\ fr_get_streaminfo r = si /\ fr_vorbis_comment r = vc /\ fr_samples r = Ok it
        /\ frames = done ++ f :: todo /\ l = whole ++ part /\ file_code si vc done whole
        /\ frame_code (fst f) (snd f) w /\ begins part w
        /\ sounds (fs_next (br_rb m) m fuel) it (pcm_of done) (cut_ending t part)).
  Proof.
    intros (w & ws & Hw & HF & E) Hb Hx Hat Hf.
    destruct (le_lt_dec (length w) (length l)) as [Hl|Hl].
    - right. assert (exists l', l = w ++ l') as [l' ->].
      { exists (skipn (length w) l). rewrite <- (firstn_skipn (length w) l) at 1. f_equal. apply (f_equal (firstn (length w))) in E.
        rewrite !firstn_app, Nat.sub_diag, firstn_all in E. replace (length w - length l)%nat with 0%nat in E by lia.
        cbn [firstn] in E. rewrite !app_nil_r in E. exact E. }
      rewrite <- app_assoc in E, Hb. apply app_inv_head in E. symmetry in E.
      destruct (cut_concat ws l' x E Hx) as (ws1 & w1 & ws2 & part & -> & -> & Hp).
      destruct (cut_Forall2 _ _ _ _ _ HF) as (done & f & todo & -> & HF1 & Hw1 & HF2).
      assert (bytes_ok w1) as Hb1.
      { apply bytes_app in Hb as [_ Hb]. rewrite <- E in Hb. rewrite concat_app in Hb. cbn [concat] in Hb.
        apply bytes_app in Hb as [_ Hb]. apply bytes_app in Hb as [Hb _]. exact Hb. }
      assert (file_any_plays m t (w ++ concat ws1 ++ part) si vc done (cut_ending t part)) as HP.
      { destruct f as [h chs]. destruct (part_stops m t (h, chs) w1 part Hb1 (frame_any m h chs w1 Hw1) Hp) as (ws0 & rest & E0 & HF0 & Hs).
        inversion HF0; subst ws0. cbn [concat app] in E0. subst rest.
        exists w, (concat ws1 ++ part). split; [reflexivity|]. split; [exact Hw|]. exists ws1, part. split; [reflexivity|]. split; [|exact Hs].
        clear -HF1. induction HF1 as [|[h chs] w]; constructor; auto. apply frame_any. assumption. }
      destruct (any_file_samples m un Hun fuel fs path t _ si vc done _ Hat Hf HP) as (r & it & Er & Es & Ev & Ei & Hs).
      exists r, it, done, f, todo, (w ++ concat ws1), w1, part. rewrite app_assoc. repeat (split; [assumption || reflexivity|]).
      split; [exists w, ws1; auto|]. auto.
    - left. exists w. split; [exact Hw|].
      assert (exists y, w = l ++ y) as [y ->].
      { exists (skipn (length l) w). rewrite <- (firstn_skipn (length l) w) at 1. f_equal. apply (f_equal (firstn (length l))) in E.
        rewrite !firstn_app, Nat.sub_diag, firstn_all in E. replace (length l - length w)%nat with 0%nat in E by lia.
        cbn [firstn] in E. rewrite !app_nil_r in E. congruence. }
      rewrite app_length in Hl. assert (y <> []) as Hy by (intros ->; cbn in Hl; lia).
      split; [exists y; auto|]. rewrite <- app_assoc in E. apply app_inv_head in E. subst x. rewrite app_assoc in Hb.
      destruct (path_fails m un Hun fuel fs path t l Hat ltac:(lia)) as [(si' & vc' & w' & rest & -> & Hw')|(e & Er & Hu)].
      + exfalso. rewrite <- !app_assoc in Hb. rewrite <- app_assoc in Hw. rewrite app_assoc in Hb.
        destruct (opens_unique default_options si' vc' w' si vc (w' ++ rest ++ y) (rest ++ y ++ concat ws) (concat ws) Hw' Hw) as (_ & _ & E1 & _).
        * rewrite <- ?app_assoc in *. exact Hb.
        * rewrite <- !app_assoc. reflexivity.
        * apply (f_equal (@length Z)) in E1. rewrite !app_length in E1. destruct y; [contradiction|cbn in E1; lia].
      + rewrite Er. f_equal. destruct Hu as [(w' & rest & -> & Hw')|(-> & _)]; [|reflexivity]. exfalso.
        apply (open_fault_not_opens default_options e w' (rest ++ y ++ concat ws) si vc ((w' ++ rest) ++ y) (concat ws)); auto;
          rewrite <- !app_assoc in *; auto.
  Qed.
End Files.
