(** Iterating over samples ends, in every build: a frame has at least eight bytes and at
    most 65535 samples per channel, and there are at most eight channels. *)
From Verif Require Export ProofPrograms.
From Verif Require Import SpecReader.

Section Iterator.
  Context {S : Type} (t : tail) (D : S -> list Z -> Prop) (m : build) (fuel : nat) (P : list Z -> Prop).
  Context (next : vec -> M S (option block)).
  Context (Psuffix : forall a b, P (a ++ b) -> P b).
  Context (Hsafe : forall buffer st l, P l -> D st l -> (length l < fuel)%nat -> value_or_error (fst (next buffer st))).
  Context (Hlong : forall buffer st l b st', D st l -> (length l < fuel)%nat -> next buffer st = (Ok (Some b), st') ->
    exists chs w rest, l = w ++ rest /\ D st' rest /\ block_holds b chs /\ (8 <= length w)%nat).
  Context (Hend : forall buffer st l st', D st l -> (length l < fuel)%nat ->
    next buffer st = (Ok None, st') -> t = TEof /\ (length l <= 1)%nat /\ D st' []).
  Context (Hends : forall buffer st l, t = TEof -> (length l <= 1)%nat -> (1 < fuel)%nat -> D st l ->
    exists st', next buffer st = (Ok None, st') /\ D st' []).

  (** [fs_next] and [fs_next_fz] are this. *)
  Definition gs_next : M (flac_samples S) (option (result Z)) :=
    st <- get ;;
    if fs_has_failed st then ret None
    else
      ch <- lift (chk m u32 (fs_channel st + 1)) ;;
      fs_set_channel ch ;;;
      if block_channels (fs_block st) <=? ch then
        fs_set_channel 0 ;;;
        sa <- lift (chk m u32 (fs_sample st + 1)) ;;
        fs_set_sample sa ;;;
        if block_duration (fs_block st) <=? sa then
          fs_set_sample 0 ;;;
          let current_block := fs_block st in
          fs_set_block block_empty ;;;
          r <- catch (fs_lift (next (block_into_buffer current_block))) ;;
          match r with
          | ROk (Some next_block) => fs_set_block next_block ;;; fs_yield
          | ROk None => ret None
          | RErr error => fs_set_has_failed true ;;; ret (Some (RErr error))
          end
        else fs_yield
      else fs_yield.

  Definition there (it : flac_samples S) (l : list Z) : Prop :=
    D (fs_frame_reader it) l /\ (length l < fuel)%nat /\ P l
    /\ fs_has_failed it = false
    /\ ((fs_block it = block_empty /\ fs_sample it = 0 /\ fs_channel it = 0)
        \/ (exists chs, block_holds (fs_block it) chs)
           /\ 0 <= fs_sample it < block_duration (fs_block it) /\ 0 <= fs_channel it < block_channels (fs_block it)).
  (** How many samples can still come: those of the block, and those of the bytes. *)
  Definition of_block (it : flac_samples S) : Z :=
    if block_channels (fs_block it) =? 0 then 0
    else block_duration (fs_block it) * block_channels (fs_block it)
         - (fs_sample it * block_channels (fs_block it) + fs_channel it + 1).
  Definition to_come (it : flac_samples S) (l : list Z) : Z := of_block it + 65535 * len l.
  Lemma of_block_nonneg it l : there it l -> 0 <= of_block it.
  Proof.
    unfold of_block. intros (_ & _ & _ & _ & [(-> & _)|((chs & H1 & H2 & _) & Hs & Hc)]); [cbn; lia|].
    destruct (_ =? _); nia.
  Qed.
  Definition stepped (it : flac_samples S) (l : list Z) (r : outcome (option (result Z)) * flac_samples S) : Prop :=
    (fst r = Ok None /\ t = TEof /\ exists st, D st [] /\ snd r = mkFs st block_empty 0 0 false)
    \/ (exists e, fst r = Ok (Some (RErr e)) /\ fs_has_failed (snd r) = true)
    \/ (exists v l', fst r = Ok (Some (ROk v)) /\ there (snd r) l' /\ to_come (snd r) l' < to_come it l).
  Lemma yield_steps it it0 l l0 : D (fs_frame_reader it) l -> (length l < fuel)%nat -> P l ->
    fs_has_failed it = false -> (exists chs, block_holds (fs_block it) chs) ->
    0 <= fs_sample it < block_duration (fs_block it) -> 0 <= fs_channel it < block_channels (fs_block it) ->
    to_come it l < to_come it0 l0 -> stepped it0 l0 (fs_yield it).
  Proof.
    intros HD Hf Hz Hh (chs & Hb) Hs Hc Hlt. unfold fs_yield. rewrite bind_get.
    destruct (holds_sample_any _ _ Hb (fs_channel it) (fs_sample it) ltac:(lia) ltac:(lia)) as [[(x & ->) _]|[_ Hn]]; [|nia].
    right. right. exists x, l. split; [reflexivity|]. split; [|exact Hlt]. repeat (split; [assumption|]). right. eauto.
  Qed.
  Lemma samples_step it l : (1 < fuel)%nat -> there it l -> stepped it l (gs_next it).
  Proof.
    intros H1f Hth. pose proof (of_block_nonneg it l Hth) as Hnn. destruct Hth as (HD & Hf & Hz & Ef & Hp). unfold gs_next. rewrite bind_get, Ef.
    assert (0 <= fs_channel it < 8 /\ 0 <= fs_sample it < 65535) as [Hc Hs].
    { destruct Hp as [(_ & -> & ->)|((chs & Hb) & H1 & H2)]; [lia|]. destruct Hb as (? & ? & _). lia. }
    rewrite (chk_u32 m (fs_channel it + 1)), bind_lift_ok by lia. unfold bind at 1, fs_set_channel at 1.
    destruct (block_channels (fs_block it) <=? fs_channel it + 1) eqn:Ec.
    2:{ destruct Hp as [(Eb & _ & Ec')|((chs & Hb) & H1 & H2)]; [rewrite Eb, Ec' in Ec; discriminate Ec|].
        cbn [fs_frame_reader fs_block fs_sample fs_channel fs_has_failed].
        eapply yield_steps with (l := l); cbn [fs_frame_reader fs_block fs_sample fs_channel fs_has_failed]; eauto; [lia|].
        unfold to_come, of_block. cbn [fs_block fs_sample fs_channel]. destruct (Z.eqb_spec (block_channels (fs_block it)) 0); lia. }
    unfold bind at 1, fs_set_channel at 1. rewrite (chk_u32 m (fs_sample it + 1)), bind_lift_ok by lia.
    unfold bind at 1, fs_set_sample at 1.
    destruct (block_duration (fs_block it) <=? fs_sample it + 1) eqn:Es.
    2:{ destruct Hp as [(Eb & Es' & _)|((chs & Hb) & H1 & H2)]; [rewrite Eb, Es' in Es; discriminate Es|].
        cbn [fs_frame_reader fs_block fs_sample fs_channel fs_has_failed].
        eapply yield_steps with (l := l); cbn [fs_frame_reader fs_block fs_sample fs_channel fs_has_failed]; eauto; [lia|destruct Hb as (? & _); lia|].
        unfold to_come, of_block. cbn [fs_block fs_sample fs_channel]. destruct (Z.eqb_spec (block_channels (fs_block it)) 0); lia. }
    unfold bind at 1, fs_set_sample at 1. unfold bind at 1, fs_set_block at 1. unfold bind at 1, catch, fs_lift.
    cbn [fs_frame_reader fs_block fs_sample fs_channel fs_has_failed].
    pose proof (Hsafe (block_into_buffer (fs_block it)) (fs_frame_reader it) l Hz HD Hf) as Hv.
    pose proof (Hlong (block_into_buffer (fs_block it)) (fs_frame_reader it) l) as Ho.
    pose proof (Hend (block_into_buffer (fs_block it)) (fs_frame_reader it) l) as He.
    destruct (next (block_into_buffer (fs_block it)) (fs_frame_reader it)) as [o st']. cbn [fst snd] in *.
    destruct Hv as [[[b|] ->]|[e ->]].
    - destruct (Ho b st' HD Hf eq_refl) as (chs & w & rest & -> & HD' & Hh & Hlg). pose proof Hh as (Hb1 & Hb2 & _).
      rewrite app_length in Hf.
      eapply yield_steps with (l := rest); cbn [fs_frame_reader fs_block fs_sample fs_channel fs_has_failed]; eauto; try lia.
      unfold to_come, of_block at 1. cbn [fs_block fs_sample fs_channel]. destruct (Z.eqb_spec (block_channels b) 0); [lia|].
      unfold len in *. rewrite app_length. nia.
    - destruct (He st' HD Hf eq_refl) as (Ht & _ & HD'). left. split; [reflexivity|]. split; [exact Ht|].
      exists st'. split; [exact HD'|]. cbn. rewrite Ef. reflexivity.
    - right. left. exists e. split; reflexivity.
  Qed.

  (** So the iterator ends. *)
  Lemma yields_more it x it' l : gs_next it = (Ok (Some x), it') -> yields gs_next it' l ->
    yields gs_next it (x :: l).
  Proof.
    intros E H [|n]; [reflexivity|]. specialize (H n). unfold nexts in *. cbn [repeat history_all]. rewrite E.
    destruct (history_all _ (repeat tt n) it') as [rs s']. cbn [fst] in *. rewrite H. cbn [map app firstn]. f_equal.
    change (Ok None :: repeat (Ok None) n) with (repeat (@Ok (option (result Z)) None) (Datatypes.S n)).
    replace (Datatypes.S n) with (n + 1)%nat by lia. symmetry. apply firstn_more.
  Qed.
  Lemma yields_over (Q : flac_samples S -> Prop) : (forall it, Q it -> exists it', gs_next it = (Ok None, it') /\ Q it') ->
    forall it, Q it -> yields gs_next it [].
  Proof.
    intros H it Hit n. revert it Hit. unfold nexts. induction n as [|n IH]; intros it Hit; [reflexivity|].
    cbn [repeat history_all]. destruct (H it Hit) as (it' & E & Hit'). rewrite E. specialize (IH it' Hit').
    destruct (history_all _ (repeat tt n) it') as [rs s']. cbn [fst] in *. rewrite IH. reflexivity.
  Qed.
  Theorem samples_end it l : (1 < fuel)%nat -> there it l ->
    exists pcm last, yields gs_next it (map ROk pcm ++ last) /\ len pcm <= to_come it l
      /\ (last = [] \/ exists e, last = [RErr e]).
  Proof.
    intros H1. remember (Z.to_nat (to_come it l)) as n eqn:En. revert it l En. induction n as [n IH] using lt_wf_ind. intros it l En Hth.
    pose proof (of_block_nonneg it l Hth) as Hnn. pose proof (len_nonneg l).
    destruct (gs_next it) as [o it'] eqn:E. destruct (samples_step it l H1 Hth) as [(E1 & Ht & Hth')|[(e & E1 & Hfl)|(v & l' & E1 & Hth' & Hlt)]];
      rewrite E in *; cbn [fst snd] in *; subst o.
    - exists [], []. split; [|split; [change (len (@nil Z)) with 0; unfold to_come; lia|auto]].
      destruct Hth' as (st & HDe & ->).
      apply (yields_over (fun i => i = it \/ exists s, D s [] /\ i = mkFs s block_empty 0 0 false)); [|auto].
      intros i [->|(s & HDs & ->)]; [eauto 6|].
      destruct (Hends (block_into_buffer block_empty) s [] Ht ltac:(cbn; lia) H1 HDs) as (s' & Es & HDs').
      exists (mkFs s' block_empty 0 0 false). split; [|eauto].
      unfold gs_next. rewrite bind_get. cbn [fs_has_failed fs_channel fs_block fs_sample]. rewrite (chk_u32 m (0 + 1)), bind_lift_ok by lia.
      unfold bind at 1, fs_set_channel at 1. cbn [fs_has_failed fs_channel fs_block fs_sample fs_frame_reader].
      change (block_channels block_empty <=? 0 + 1) with true. cbv iota.
      unfold bind at 1, fs_set_channel at 1. rewrite bind_lift_ok. unfold bind at 1, fs_set_sample at 1.
      change (block_duration block_empty <=? 0 + 1) with true. cbv iota.
      unfold bind at 1, fs_set_sample at 1. unfold bind at 1, fs_set_block at 1. unfold bind at 1, catch, fs_lift.
      cbn [fs_frame_reader fs_block fs_sample fs_channel fs_has_failed]. rewrite Es. reflexivity.
    - exists [], [RErr e]. split; [|split; [change (len (@nil Z)) with 0; unfold to_come; lia|eauto]]. cbn [map app]. eapply yields_more; [exact E|].
      apply (yields_over (fun i => fs_has_failed i = true)); [|exact Hfl]. intros i Hi. exists i. split; [|exact Hi].
      unfold gs_next. rewrite bind_get, Hi. reflexivity.
    - pose proof (of_block_nonneg it' l' Hth'). pose proof (len_nonneg l'). assert (0 <= to_come it' l') by (unfold to_come; lia).
      destruct (IH (Z.to_nat (to_come it' l')) ltac:(lia) it' l' eq_refl Hth') as (pcm & last & HY & Hl & Hlast).
      exists (v :: pcm), last. cbn [map app]. split; [eapply yields_more; eauto|]. split; [|exact Hlast].
      unfold len in *. cbn [length]. lia.
  Qed.
End Iterator.

(** * Frames *)
Lemma header_long h hw : header_code h hw -> (6 <= length hw)%nat.
Proof.
  intros (front & c & (sc & sx & rc & rx & bc & num & _ & _ & _ & _ & Hn & _ & ->) & _ & ->).
  assert (1 <= length num)%nat.
  { destruct num; [|cbn; lia]. exfalso. destruct Hn as [(k & _ & _ & E)|(_ & E)]; [destruct k|]; discriminate E. }
  rewrite !app_length. cbn [length]. lia.
Qed.
Section Frames.
  Context {S : Type} (rb : ReadBytes S) (t : tail) (D : S -> list Z -> Prop) (HS : stream rb t D).
  Context (m : build) (fuel : nat).
  Notation next := (read_next_or_eof rb m fuel).

  Lemma next_long buffer st l b st' : D st l -> (length l < fuel)%nat -> next buffer st = (Ok (Some b), st') ->
    exists chs w rest, l = w ++ rest /\ D st' rest /\ block_holds b chs /\ (8 <= length w)%nat.
  Proof.
    intros HD Hf E. destruct (next_holds rb t D HS m fuel buffer st l b st' HD Hf E) as (chs & Hb).
    destruct (frame_checksums rb t D HS m fuel buffer st l b st' HD Hf E) as (front & c8 & body & c16 & rest & -> & HD' & (h & Hh) & Hc & _).
    assert (header_code h (front ++ [c8])) as Hl by (exists front, c8; auto). apply header_long in Hl.
    exists chs, (front ++ [c8] ++ body ++ [c16 / 256; c16 mod 256]), rest.
    split; [rewrite <- !app_assoc; reflexivity|]. split; [exact HD'|]. split; [exact Hb|].
    rewrite !app_length in *. cbn [length] in *. lia.
  Qed.
  Theorem iterator_ends s l : D s l -> (length l < fuel)%nat -> (1 < fuel)%nat -> m = Release \/ no_zero_bytes (2 ^ 29 - 1) l ->
    exists pcm last, yields (fs_next rb m fuel) (mkFs s block_empty 0 0 false) (map ROk pcm ++ last) /\ len pcm <= 65535 * len l
      /\ (last = [] \/ exists e, last = [RErr e]).
  Proof.
    intros HD Hf H1 Hz.
    apply (samples_end t D m fuel (fun l => m = Release \/ no_zero_bytes (2 ^ 29 - 1) l) next) with (it := mkFs s block_empty 0 0 false); auto.
    - intros a b. apply calm_suffix.
    - intros buffer st l' Hz' HD' Hf'. apply (frame_safe rb t D HS m fuel buffer st l'); auto. apply calm_bits; [|exact Hz'].
      exact (st_bytes _ _ _ HS _ _ HD').
    - exact next_long.
    - intros buffer st l' st' HD' Hf' E. exact (frame_end rb t D HS m fuel buffer st l' st' HD' Hf' E).
    - intros buffer st l' Ht Hl' H1' HD'. exact (frame_ends rb t D HS m fuel buffer st l' Ht Hl' H1' HD').
    - repeat split; auto.
  Qed.
End Frames.

Theorem samples_bounded {S} (rb : ReadBytes S) t D m fuel (r : flac_reader S) s it l : stream rb t D ->
  fr_blocks r = Ok s -> fr_samples r = Ok it \/ fr_into_samples r = Ok it ->
  D s l -> (length l < fuel)%nat -> (1 < fuel)%nat -> m = Release \/ no_zero_bytes (2 ^ 29 - 1) l ->
  exists pcm last, yields (fs_next rb m fuel) it (map ROk pcm ++ last) /\ len pcm <= 65535 * len l
    /\ (last = [] \/ exists e, last = [RErr e]).
Proof.
  intros HS Eb Ei HD Hf H1 Hz. rewrite (fr_iter r s it Eb Ei). exact (iterator_ends rb t D HS m fuel s l HD Hf H1 Hz).
Qed.
