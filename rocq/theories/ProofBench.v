(** The benchmarks and the examples in the documentation: C73 to C76. *)
From Verif Require Export SpecBench ProofPrograms3 ProofTaken.
From Verif Require Import SpecReader.

(** * The documentation *)

Lemma i32_small x : 0 <= x < 2 ^ 31 -> i32 x = x.
Proof. intros H. unfold i32. rewrite Z.mod_small; lia. Qed.
Lemma i32_range x : - 2 ^ 31 <= i32 x < 2 ^ 31.
Proof. unfold i32. pose proof (Z.mod_pos_bound (x + 2 ^ 31) (2 ^ 32) ltac:(lia)). lia. Qed.
Lemma i32_add x y : i32 (i32 x + y) = i32 (x + y).
Proof.
  unfold i32. f_equal. replace ((x + 2 ^ 31) mod 2 ^ 32 - 2 ^ 31 + y + 2 ^ 31) with ((x + 2 ^ 31) mod 2 ^ 32 + y) by lia.
  rewrite Z.add_mod_idemp_l by lia. f_equal. lia.
Qed.

Definition last_item (o : option error) : list (result Z) := match o with None => [] | Some e => [RErr e] end.

Section Doc.
  Context (m : build) (un : nat -> list Z) (Hun : forall n, length (un n) = n) (fuel : nat).

  Lemma rms_wraps {S} (rb : ReadBytes S) o pcm : m = Release -> forall turns it summed count,
    yields (fs_next rb m fuel) it (map ROk pcm ++ last_item o) -> (length pcm < turns)%nat -> i32 count = count ->
    rms_loop m fuel rb turns it summed count
    = match o with None => Ok (summed ++ pcm, i32 (count + len pcm)) | Some _ => Panic "unwrap" end.
  Proof.
    intros Hm. induction pcm as [|x pcm IH]; intros [|turns] it summed count HY Ht Hc; cbn [length] in Ht; try lia; cbn [rms_loop map app] in *.
    - destruct o as [e|].
      + apply yields_cons in HY as (it' & E & _). rewrite E. reflexivity.
      + apply yields_nil in HY as (it' & E & _). rewrite E, app_nil_r. unfold len. cbn [length]. rewrite Z.add_0_r, Hc. reflexivity.
    - apply yields_cons in HY as (it' & E & HY). rewrite E. cbn [expect of_result obind].
      assert (chk m i32 (count + 1) = Ok (i32 (count + 1))) as ->.
      { unfold chk. rewrite Hm. destruct (Z.eqb_spec (i32 (count + 1)) (count + 1)) as [->|_]; reflexivity. }
      cbn [obind]. rewrite (IH turns it' _ _ HY ltac:(lia)).
      + rewrite len_cons, <- app_assoc, i32_add, <- Z.add_assoc, (Z.add_comm 1). reflexivity.
      + pose proof (i32_add (count + 1) 0) as H. rewrite !Z.add_0_r in H. exact H.
  Qed.
  Lemma rms_panics {S} (rb : ReadBytes S) o pcm : m = Debug -> forall turns it summed count,
    yields (fs_next rb m fuel) it (map ROk pcm ++ last_item o) -> (length pcm < turns)%nat -> 0 <= count < 2 ^ 31 ->
    match o with
    | None => if count + len pcm <? 2 ^ 31 then rms_loop m fuel rb turns it summed count = Ok (summed ++ pcm, count + len pcm)
              else exists why, rms_loop m fuel rb turns it summed count = Panic why
    | Some _ => exists why, rms_loop m fuel rb turns it summed count = Panic why
    end.
  Proof.
    intros Hm. induction pcm as [|x pcm IH]; intros [|turns] it summed count HY Ht Hc; cbn [length] in Ht; try lia; cbn [rms_loop map app] in *.
    - destruct o as [e|].
      + apply yields_cons in HY as (it' & E & _). rewrite E. eexists. reflexivity.
      + apply yields_nil in HY as (it' & E & _). rewrite E, app_nil_r. change (len []) with 0. rewrite Z.add_0_r.
        replace (count <? 2 ^ 31) with true by lia. reflexivity.
    - apply yields_cons in HY as (it' & E & HY). rewrite E. cbn [expect of_result obind].
      rewrite len_cons. pose proof (len_nonneg pcm) as Hl. destruct (Z.eq_dec (count + 1) (2 ^ 31)) as [Hc1|Hc1].
      + unfold chk. rewrite Hc1, Hm. replace (i32 (2 ^ 31) =? 2 ^ 31) with false by reflexivity. cbn [obind].
        destruct o; [eauto|]. replace (count + (len pcm + 1) <? 2 ^ 31) with false by lia. eauto.
      + rewrite chk_ok by (apply i32_small; lia). cbn [obind].
        specialize (IH turns it' (summed ++ [x]) (count + 1) HY ltac:(lia) ltac:(lia)).
        destruct o; [exact IH|]. replace (count + (len pcm + 1)) with (count + 1 + len pcm) by lia. rewrite <- app_assoc in IH. exact IH.
  Qed.

  Lemma file_samples fs path t l si vc frames o : file_at fs path t l -> (length l + 1 < fuel)%nat ->
    (o = None \/ no_zero_bytes (2 ^ 29 - 1) l) -> file_plays t l si vc frames o ->
    exists r it, flac_open m un fuel fs path = Ok r /\ fr_get_streaminfo r = si /\ fr_samples r = Ok it
      /\ yields (fs_next (br_rb m) m fuel) it (map ROk (pcm_of frames) ++ last_item o)
      /\ forall pcm, Some (spec_of si, pcm) = audio si pcm.
  Proof.
    intros Hat Hf Hz (w & rest & -> & Hw & Hp).
    destruct (path_opens m un Hun fuel fs path t w rest si vc Hat ltac:(lia) Hw) as (r & inp & E & Es & _ & _ & Ei & HD).
    rewrite app_length in Hf. exists r, (mkFs inp block_empty 0 0 false). repeat split; auto.
    - apply (plays_samples (br_rb m) t (buffered t) (br_stream m t) m fuel inp rest); auto; try lia.
      destruct Hz as [Hz|Hz]; [auto|right]. apply no_zero_bits; [eapply (st_bytes _ _ _ (br_stream m t)), HD|].
      eapply no_zero_bytes_suffix, Hz.
    - apply audio_spec. eapply info_spec, Hw.
  Qed.

  Theorem rms_ok turns fs path t l si vc frames : file_at fs path t l -> (length l + 1 < fuel)%nat ->
    (length (pcm_of frames) < turns)%nat -> file_plays t l si vc frames None ->
    len (pcm_of frames) < 2 ^ 31 -> doc_rms m un fuel turns fs path = Ok (pcm_of frames, len (pcm_of frames)).
  Proof.
    intros Hat Hf Ht Hp Hn. destruct (file_samples fs path t l si vc frames None Hat Hf (or_introl eq_refl) Hp) as (r & it & E & _ & Ei & HY & _).
    unfold doc_rms. rewrite E. cbn [expect obind]. rewrite Ei. cbn [obind]. pose proof (len_nonneg (pcm_of frames)) as Hl.
    destruct m eqn:Em.
    - pose proof (rms_panics (br_rb m) None (pcm_of frames)) as H. rewrite Em in H. specialize (H eq_refl turns it [] 0 HY Ht ltac:(lia)).
      cbn [Z.add app] in H. replace (len (pcm_of frames) <? 2 ^ 31) with true in H by lia. exact H.
    - pose proof (rms_wraps (br_rb m) None (pcm_of frames)) as H. rewrite Em in H. rewrite (H eq_refl turns it [] 0 HY Ht eq_refl).
      rewrite Z.add_0_l, i32_small by lia. reflexivity.
  Qed.
  Theorem rms_overflow turns fs path t l si vc frames : file_at fs path t l -> (length l + 1 < fuel)%nat ->
    (length (pcm_of frames) < turns)%nat -> file_plays t l si vc frames None -> 2 ^ 31 <= len (pcm_of frames) ->
    match m with
    | Debug => exists why, doc_rms m un fuel turns fs path = Panic why
    | Release => doc_rms m un fuel turns fs path = Ok (pcm_of frames, i32 (len (pcm_of frames)))
    end.
  Proof.
    intros Hat Hf Ht Hp Hn. destruct (file_samples fs path t l si vc frames None Hat Hf (or_introl eq_refl) Hp) as (r & it & E & _ & Ei & HY & _).
    unfold doc_rms. rewrite E. cbn [expect obind]. rewrite Ei. cbn [obind].
    destruct m eqn:Em.
    - pose proof (rms_panics (br_rb m) None (pcm_of frames)) as H. rewrite Em in H. specialize (H eq_refl turns it [] 0 HY Ht ltac:(lia)).
      rewrite Z.add_0_l in H. replace (len (pcm_of frames) <? 2 ^ 31) with false in H by lia. exact H.
    - pose proof (rms_wraps (br_rb m) None (pcm_of frames)) as H. rewrite Em in H. rewrite (H eq_refl turns it [] 0 HY Ht eq_refl).
      reflexivity.
  Qed.
  Theorem rms_fault turns fs path t l si vc frames e : file_at fs path t l -> (length l + 1 < fuel)%nat ->
    (length (pcm_of frames) < turns)%nat -> no_zero_bytes (2 ^ 29 - 1) l -> file_plays t l si vc frames (Some e) ->
    exists why, doc_rms m un fuel turns fs path = Panic why.
  Proof.
    intros Hat Hf Ht Hz Hp. destruct (file_samples fs path t l si vc frames (Some e) Hat Hf (or_intror Hz) Hp) as (r & it & E & _ & Ei & HY & _).
    unfold doc_rms. rewrite E. cbn [expect obind]. rewrite Ei. cbn [obind].
    destruct m eqn:Em.
    - pose proof (rms_panics (br_rb m) (Some e) (pcm_of frames)) as H. rewrite Em in H. exact (H eq_refl turns it [] 0 HY Ht ltac:(lia)).
    - pose proof (rms_wraps (br_rb m) (Some e) (pcm_of frames)) as H. rewrite Em in H. rewrite (H eq_refl turns it [] 0 HY Ht eq_refl). eauto.
  Qed.

  Definition panic_of (o : option error) (r : outcome unit) : Prop :=
    match o with None => r = Ok tt | Some _ => exists why, r = Panic why end.
  Lemma wav_runs {S} (rb : ReadBytes S) o spec pcm : forall turns it acc,
    yields (fs_next rb m fuel) it (map ROk pcm ++ last_item o) -> (length pcm < turns)%nat ->
    exists r, doc_wav_loop m fuel rb turns it (Some (spec, acc)) = (r, Some (spec, acc ++ pcm)) /\ panic_of o r.
  Proof.
    induction pcm as [|x pcm IH]; intros [|turns] it acc HY Ht; cbn [length] in Ht; try lia; cbn [doc_wav_loop map app] in *.
    - rewrite app_nil_r. unfold bind, call_on. destruct o as [e|].
      + apply yields_cons in HY as (it' & E & _). rewrite E. cbn. eexists. split; [reflexivity|]. cbn. eauto.
      + apply yields_nil in HY as (it' & E & _). rewrite E. cbn. eexists. split; reflexivity.
    - apply yields_cons in HY as (it' & E & HY). unfold bind at 1. unfold call_on. rewrite E.
      destruct (IH turns it' (acc ++ [x]) HY ltac:(lia)) as (r & Er & Hr). rewrite <- app_assoc in Er. exists r. split; [exact Er|exact Hr].
  Qed.
  Theorem wav_ok turns fs path t l si vc frames o : file_at fs path t l -> (length l + 1 < fuel)%nat ->
    (length (pcm_of frames) < turns)%nat -> (o = None \/ no_zero_bytes (2 ^ 29 - 1) l) -> file_plays t l si vc frames o ->
    exists r, doc_wav m un fuel turns fs path None = (r, audio si (pcm_of frames)) /\ panic_of o r.
  Proof.
    intros Hat Hf Ht Hz Hp. destruct (file_samples fs path t l si vc frames o Hat Hf Hz Hp) as (r & it & E & Es & Ei & HY & Ha).
    unfold doc_wav, bind, lift. rewrite E, <- Ha. cbn [expect wav_create put]. rewrite Ei, Es.
    exact (wav_runs (br_rb m) o (spec_of si) (pcm_of frames) turns it [] HY Ht).
  Qed.

  Lemma reader_shows fs path t w rest si vc cs : file_at fs path t (w ++ rest) -> (length (w ++ rest) < fuel)%nat ->
    well_formed si vc w -> has_comments vc cs ->
    exists r, flac_open m un fuel fs path = Ok r /\ forall name vs, values_of name cs vs -> yields get_tag_next (fr_get_tag r name) vs.
  Proof.
    intros Hat Hf Hw Hvc. pose proof Hat as (script & Efs & Hd).
    destruct (path_opens m un Hun fuel fs path t w rest si vc Hat Hf Hw) as (r & inp & E & _ & Ev & _).
    exists r. split; [exact E|]. unfold flac_open in E. rewrite Efs in E.
    destruct (tags_of_reader (br_rb m) t (buffered t) (br_stream m t) m un Hun fuel default_options (br_new script) (w ++ rest) r (br_new_buffered t script _ Hd) Hf E) as (vendor & cs' & _ & Hs & Hv).
    rewrite Ev in Hv. assert (cs' = cs) as ->.
    { unfold has_comments in Hvc. destruct vc as [v|]; [|destruct Hv; congruence]. destruct Hv as (v1 & _ & _ & E1), Hvc as (v2 & E2). rewrite E1 in E2.
      apply vorbis_inj in E2. apply E2. }
    intros name vs HV n. exact (proj2 (proj2 Hs) name vs n HV).
  Qed.
  Lemma values_printed vs : forall turns it, yields get_tag_next it vs -> (length vs < turns)%nat ->
    print_values turns it = Ok (flat_map (fun v => v ++ [10]) vs).
  Proof.
    induction vs as [|v vs IH]; intros [|turns] it HY Ht; cbn [length] in Ht; try lia; cbn [print_values].
    - apply yields_nil in HY as (it' & E & _). rewrite E. reflexivity.
    - apply yields_cons in HY as (it' & E & HY). rewrite E, (IH turns it' HY) by lia.
      cbn [obind flat_map]. rewrite <- app_assoc. reflexivity.
  Qed.
  Theorem artist_ok turns fs path t w rest si vc cs vs : file_at fs path t (w ++ rest) -> (length (w ++ rest) < fuel)%nat ->
    well_formed si vc w -> has_comments vc cs -> values_of [65; 82; 84; 73; 83; 84] cs vs -> (length vs < turns)%nat ->
    doc_artist m un fuel turns fs path = Ok (flat_map (fun v => v ++ [10]) vs).
  Proof.
    intros Hat Hf Hw Hvc Hv Ht. destruct (reader_shows fs path t w rest si vc cs Hat Hf Hw Hvc) as (r & E & HY).
    unfold doc_artist. rewrite E. cbn [expect obind]. apply values_printed; [|exact Ht]. exact (HY _ vs Hv).
  Qed.

  Definition doc_panics turns fs path : Prop :=
    (exists why, doc_rms m un fuel turns fs path = Panic why)
    /\ (exists why, doc_wav m un fuel turns fs path None = (Panic why, None))
    /\ (exists why, doc_artist m un fuel turns fs path = Panic why).
  Lemma doc_error turns fs path e : flac_open m un fuel fs path = Err e -> doc_panics turns fs path.
  Proof. intros E. unfold doc_panics, doc_rms, doc_wav, doc_artist, bind, lift. rewrite E. cbn. repeat split; eauto. Qed.
  Theorem doc_missing turns fs path k : fs path = inl k -> doc_panics turns fs path.
  Proof. intros E. eapply doc_error. unfold flac_open. rewrite E. reflexivity. Qed.
  Theorem doc_unopened turns fs path t l : file_at fs path t l -> (length l < fuel)%nat ->
    (forall si vc w rest, l = w ++ rest -> ~ well_formed si vc w) -> doc_panics turns fs path.
  Proof.
    intros Hat Hf Hbad.
    destruct (path_fails m un Hun fuel fs path t l Hat Hf) as [(si & vc & w & rest & El & Hw)|(e' & E & _)]; [|eapply doc_error, E].
    destruct (Hbad si vc w rest El Hw).
  Qed.
End Doc.

(** * How much is read *)

Lemma bytes_in_app a b : bytes_in (a ++ b) = bytes_in a + bytes_in b.
Proof. unfold bytes_in. rewrite map_app, fold_right_app. induction a as [|e a IH]; cbn [map fold_right]; lia. Qed.
Lemma bytes_in_chunks chunks : bytes_in (map EvData chunks) = len (concat chunks).
Proof.
  induction chunks as [|c chunks IH]; [reflexivity|]. cbn [map concat]. rewrite len_app, <- IH. reflexivity.
Qed.
Lemma position_chunks chunks left : file_position (map EvData chunks ++ left) left = len (concat chunks).
Proof. unfold file_position. rewrite bytes_in_app, bytes_in_chunks. lia. Qed.

Lemma delivers_chunks t left : forall chunks l, delivers t (map EvData chunks ++ left) l ->
  Forall chunk_ok chunks /\ len (concat chunks) <= len l.
Proof.
  induction chunks as [|c chunks IH]; intros l Hd; [split; [constructor|apply len_nonneg]|].
  cbn [map app] in Hd. inversion Hd as [| |c' r l' Hc Hd' Ec El]. subst. destruct (IH l' Hd') as [HF Hl].
  split; [constructor; assumption|]. cbn [concat]. rewrite !len_app. lia.
Qed.
Lemma taken_position t script l n left : delivers t script l -> taken_for script n left -> 0 < n ->
  n <= file_position script left < n + 2048 /\ file_position script left <= len l.
Proof.
  intros Hd (chunks & -> & Hn & Hlast) H0. rewrite position_chunks.
  destruct (delivers_chunks t left chunks l Hd) as [HF Hl]. split; [|exact Hl]. split; [exact Hn|].
  destruct Hlast as [->|Hlast]; [cbn; lia|].
  destruct chunks as [|c chunks] using rev_ind; [cbn; lia|]. rewrite removelast_last in Hlast.
  rewrite concat_app, len_app. cbn [concat]. rewrite app_nil_r.
  apply Forall_app in HF as [_ HF]. apply Forall_inv in HF. destruct HF as [_ HF]. lia.
Qed.

Lemma slice_chunks left : forall chunks turns data, slice_reads turns data = map EvData chunks ++ left ->
  len (concat chunks) = Z.min (2048 * len chunks) (len data).
Proof.
  induction chunks as [|c chunks IH]; intros turns data E.
  - cbn [concat]. pose proof (len_nonneg data). change (len []) with 0. change (len (A := list Z) []) with 0. lia.
  - destruct turns as [|turns]; [discriminate E|]. cbn [slice_reads] in E. destruct data as [|x data]; [discriminate E|].
    remember (x :: data) as d eqn:Ed. clear Ed x data. cbn [map app] in E.
    assert (c = firstn (Z.to_nat CAPACITY) d) as -> by congruence.
    assert (slice_reads turns (skipn (Z.to_nat CAPACITY) d) = map EvData chunks ++ left) as E' by congruence.
    apply IH in E'. cbn [concat]. rewrite len_app, E', len_cons. unfold len. rewrite firstn_length, skipn_length. unfold CAPACITY. lia.
Qed.
Lemma slice_position turns data n left : (length data < turns)%nat -> taken_for (slice_reads turns data) n left ->
  0 <= n <= len data -> file_position (slice_reads turns data) left = Z.min (2048 * ((n + 2047) / 2048)) (len data).
Proof.
  intros Ht (chunks & E & Hn & Hlast) H0. rewrite E, position_chunks. pose proof (slice_chunks left chunks turns data E) as Hc.
  rewrite Hc in Hn |- *. destruct Hlast as [->|Hlast].
  - change (len (A := list Z) []) with 0 in *. replace n with 0 by lia. reflexivity.
  - destruct chunks as [|c chunks] using rev_ind.
    + change (len (A := list Z) []) with 0 in *. replace n with 0 by lia. reflexivity.
    + rewrite removelast_last in Hlast. rewrite map_app, <- app_assoc in E. pose proof (slice_chunks _ chunks turns data E) as Hc'.
      rewrite len_app in *. change (len [c]) with 1 in *. rewrite Hc' in Hlast.
      assert ((n + 2047) / 2048 = len chunks + 1) as ->; [|reflexivity].
      symmetry. apply (Z.div_unique (n + 2047) 2048 (len chunks + 1) (n + 2047 - 2048 * (len chunks + 1))); lia.
Qed.

Lemma shows_samples m b f : block_shows b (fst f) (snd f) -> block_holds b (snd f) ->
  block_len m b = Ok (frame_samples f) /\ 1 <= frame_samples f <= 524280.
Proof.
  intros (_ & Hd & Hc & _) Hh. assert (1 <= block_channels b <= 8 /\ 1 <= block_duration b <= 65535) as [H1 H2] by (split; apply Hh).
  unfold block_len, frame_samples. rewrite <- Hd, <- Hc. unfold block_duration, block_channels in *.
  rewrite chk_u32 by nia. split; [reflexivity|nia].
Qed.

(** * A file in memory *)

Section Memory.
  Context (m : build) (un : nat -> list Z) (Hun : forall n, length (un n) = n) (fuel : nat).

  Lemma memory_opens data w rest si vc : bytes_ok data -> (length data < fuel)%nat -> data = w ++ rest -> well_formed si vc w ->
    exists r inp, new_on m un fuel data = Ok r /\ fr_get_streaminfo r = si /\ fr_input r = Full inp /\ buffered TEof inp rest
      /\ file_position (slice_reads (Datatypes.S (length data)) data) (fr_into_inner r) = Z.min (2048 * ((len w + 2047) / 2048)) (len data).
  Proof.
    intros Hb Hf El Hw. pose proof (slice_delivers data Hb (Datatypes.S (length data)) ltac:(lia)) as Hd.
    set (script := slice_reads (Datatypes.S (length data)) data) in *.
    pose proof (lazy_new TEof script data Hd) as HL. rewrite El in HL at 2.
    destruct (new_accepts (br_rb m) TEof (lazily TEof script data) (lazy_stream m TEof script data Hd) m un Hun fuel (br_new script) si vc w rest Hw HL ltac:(rewrite <- El; exact Hf)) as (r & inp & E1 & E2 & E3 & E4 & HD).
    exists r, inp. split; [exact E1|]. split; [exact E2|]. assert (fr_input r = Full inp) as Ei.
    { unfold fr_blocks in E4. destruct (fr_input r); [congruence|discriminate E4]. }
    split; [exact Ei|]. split; [apply HD|]. apply slice_position; [lia| |subst data; rewrite len_app; pose proof (len_nonneg w); pose proof (len_nonneg rest); lia].
    apply lazily_taken in HD. replace (len data - len rest) with (len w) in HD by (rewrite El, len_app; lia).
    unfold fr_into_inner. rewrite Ei. exact HD.
  Qed.

  Lemma bench_loop_runs {S} (rb : ReadBytes S) clock last s' : clock_ok clock -> forall buffer s bs, blocks_read rb m fuel buffer s bs last s' ->
    forall frames, Forall2 (fun b f => block_shows b (fst f) (snd f) /\ block_holds b (snd f)) bs frames ->
    forall turns i times, (length frames < turns)%nat ->
    match last with
    | Ok None => bench_loop m fuel rb turns clock (Datatypes.S i) buffer (clock i) times s
        = Ok (times ++ measured clock i frames, Datatypes.S (i + length frames))
    | Err _ => exists why, bench_loop m fuel rb turns clock (Datatypes.S i) buffer (clock i) times s = Panic why
    | _ => True
    end.
  Proof.
    intros Hc buffer s bs HR. induction HR as [buffer s last s' E Hl|buffer s b s1 bs last s' E HR IH]; intros frames HF turns i times Ht;
      inversion HF as [|? f ? frames' [Hb Hh] HF']; subst; (destruct turns as [|turns]; [cbn in Ht; lia|]); cbn [bench_loop]; rewrite E.
    - destruct last as [[b|]|e| | |]; eauto. cbn [measured length]. rewrite app_nil_r, Nat.add_0_r. reflexivity.
    - cbn [length] in Ht. specialize (IH frames' HF' turns (Datatypes.S i) (times ++ [(clock (Datatypes.S i) - clock i, frame_samples f)]) ltac:(lia)).
      assert (nanoseconds (clock i) (clock (Datatypes.S i)) = Ok (clock (Datatypes.S i) - clock i)) as ->.
      { unfold nanoseconds. specialize (Hc i (Datatypes.S i)). unfold i64. rewrite Z.mod_small by lia.
        replace (_ =? _) with true by lia. reflexivity. }
      cbn [obind]. destruct (shows_samples m b f Hb Hh) as [-> _]. cbn [obind].
      destruct last as [[b'|]|e| | |]; auto. rewrite IH, <- app_assoc. cbn [measured length app].
      do 2 f_equal. lia.
  Qed.

  Lemma memory_blocks data w rest si vc frames o buffer : bytes_ok data -> (length data + 1 < fuel)%nat -> data = w ++ rest -> well_formed si vc w ->
    plays TEof rest frames o -> (o = None \/ no_zero_bytes (2 ^ 29 - 1) data) ->
    forall inp, buffered TEof inp rest ->
    exists bs s', blocks_read (br_rb m) m fuel buffer inp bs (match o with None => Ok None | Some e => Err e end) s'
      /\ Forall2 (fun b f => block_shows b (fst f) (snd f) /\ block_holds b (snd f)) bs frames.
  Proof.
    intros Hb Hf -> Hw (ws & x & -> & HF & Hs) Hz inp HD. rewrite app_length in Hf.
    apply (plays_blocks (br_rb m) TEof (buffered TEof) (br_stream m TEof) m fuel frames ws HF buffer inp x o); auto; try lia.
    destruct Hz as [Hz|Hz]; [auto|right]. apply no_zero_bits.
    - apply bytes_app in Hb as [_ Hb]. apply bytes_app in Hb. apply Hb.
    - do 2 apply no_zero_bytes_suffix in Hz. exact Hz.
  Qed.

  Theorem decode_file_runs turns clock data w rest si vc frames o : bytes_ok data -> (length data + 1 < fuel)%nat -> (length frames < turns)%nat ->
    data = w ++ rest -> well_formed si vc w -> plays TEof rest frames o -> (o = None \/ no_zero_bytes (2 ^ 29 - 1) data) ->
    len data < 2 ^ 63 -> clock_ok clock ->
    match o, si_samples si with
    | None, Some n => exists st, bench_decode_file m un fuel turns clock data = Ok st
        /\ st_data_bytes st = Z.max 0 (len data - 2048 * ((len w + 2047) / 2048))
        /\ st_num_samples st = n * si_channels si
        /\ st_total_ns st = clock (Datatypes.S (length frames)) - clock O
        /\ st_sample_times st = measured clock O frames
    | _, _ => exists why, bench_decode_file m un fuel turns clock data = Panic why
    end.
  Proof.
    intros Hb Hf Ht El Hw Hp Hz Hlen Hc. destruct (memory_opens data w rest si vc Hb ltac:(lia) El Hw) as (r & inp & E & Es & Ei & HD & Hpos).
    destruct (memory_blocks data w rest si vc frames o (buffer_for si) Hb Hf El Hw Hp Hz inp HD) as (bs & s' & HR & HF).
    unfold bench_decode_file. rewrite E. cbn [expect obind]. rewrite Hpos.
    pose proof (len_nonneg w) as Hlw. pose proof (len_nonneg data) as Hld.
    assert (0 <= 2048 * ((len w + 2047) / 2048)) as Hm0 by (apply Z.mul_nonneg_nonneg; [lia|apply Z.div_pos; lia]).
    rewrite chk_u64 by lia. cbn [obind]. rewrite Es. pose proof (info_spec _ _ _ Hw) as Hsi.
    destruct (si_samples si) as [n|] eqn:En; [|destruct o; cbn; eauto]. cbn [expect_some obind].
    assert (0 <= n < 2 ^ 36 /\ 1 <= si_channels si <= 8 /\ 1 <= si_bits_per_sample si <= 32) as (Hn & Hch & Hbps).
    { destruct Hsi as (_ & _ & _ & _ & _ & H1 & H2 & H3 & _). rewrite En in H3. cbn in H3. lia. }
    assert (i64 n = n) as -> by (unfold i64; rewrite Z.mod_small; lia).
    rewrite chk_i64 by nia. cbn [obind].
    replace (si_bits_per_sample si <? 8 * 16) with true by lia. cbn [negb]. unfold fr_blocks. rewrite Ei. cbn [obind].
    pose proof (bench_loop_runs (br_rb m) clock _ s' Hc _ _ _ HR frames HF turns O [] Ht) as HL.
    destruct o as [e|].
    - destruct HL as (why & ->). cbn. eauto.
    - rewrite HL. cbn [obind app]. replace (nanoseconds _ _) with (Ok (clock (Datatypes.S (0 + length frames)) - clock O)).
      2:{ unfold nanoseconds. specialize (Hc O (Datatypes.S (0 + length frames))). unfold i64. rewrite Z.mod_small by lia.
        replace (_ =? _) with true by lia. reflexivity. }
      eexists. split; [reflexivity|]. cbn. repeat split. lia.
  Qed.
End Memory.

Theorem data_bytes_close lw lr : 0 < lw -> 0 <= lr ->
  let d := Z.max 0 (lw + lr - 2048 * ((lw + 2047) / 2048)) in d <= lr < d + 2048.
Proof.
  intros H1 H2 d. pose proof (Z.div_mod (lw + 2047) 2048 ltac:(lia)) as E. pose proof (Z.mod_pos_bound (lw + 2047) 2048 ltac:(lia)).
  subst d. lia.
Qed.

(** * Percentiles *)

From Coq Require Import Permutation Sorted.

Definition positive (x : Z * Z) : Prop := 0 < snd x.
Definition q_le (x y : Z * Z) : Prop := fst x * snd y <= fst y * snd x.
Lemma q_le_trans x y z : positive x -> positive y -> positive z -> q_le x y -> q_le y z -> q_le x z.
Proof.
  unfold positive, q_le. destruct x as [a b], y as [c d], z as [e f]. cbn. intros Hb Hd Hf H1 H2.
  apply (Z.mul_le_mono_pos_l (a * f) (e * b) d Hd). nia.
Qed.
Lemma quotient_le_ok x y : positive x -> positive y -> quotient_le x y = Ok (fst x * snd y <=? fst y * snd x).
Proof.
  unfold positive, quotient_le, no_number. intros Hx Hy. replace (snd x =? 0) with false by lia. replace (snd y =? 0) with false by lia.
  rewrite !andb_false_r. reflexivity.
Qed.
Lemma insert_sorted x l : positive x -> Forall positive l -> StronglySorted q_le l ->
  exists r, sort_insert x l = Ok r /\ Permutation (x :: l) r /\ StronglySorted q_le r.
Proof.
  intros Hx. induction l as [|y l IH]; intros HP HS; cbn [sort_insert].
  - exists [x]. repeat split; auto. repeat constructor.
  - apply Forall_cons_iff in HP as [Hy HP]. apply StronglySorted_inv in HS as [HS HA].
    rewrite quotient_le_ok by assumption. cbn [obind]. destruct (Z.leb_spec (fst x * snd y) (fst y * snd x)) as [Hle|Hlt].
    + exists (x :: y :: l). repeat split; auto. constructor; [constructor; assumption|]. constructor; [exact Hle|].
      rewrite Forall_forall in HA, HP |- *. intros z Hz. eapply q_le_trans; [exact Hx|exact Hy|exact (HP z Hz)|exact Hle|exact (HA z Hz)].
    + destruct (IH HP HS) as (r & -> & HPr & HSr). exists (y :: r). repeat split.
      * transitivity (y :: x :: l); [constructor|constructor; exact HPr].
      * constructor; [exact HSr|]. eapply Permutation_Forall; [exact HPr|]. constructor; [|exact HA]. unfold q_le. lia.
Qed.
Lemma times_sorted l : Forall positive l -> exists r, sort_times l = Ok r /\ Permutation l r /\ StronglySorted q_le r.
Proof.
  induction l as [|x l IH]; intros HP; cbn [sort_times]; [exists []; repeat split; auto; constructor|].
  apply Forall_cons_iff in HP as [Hx HP]. destruct (IH HP) as (r & -> & HPr & HSr). cbn [obind].
  destruct (insert_sorted x r Hx) as (r' & E & HP' & HS'); [eapply Permutation_Forall; eassumption|exact HSr|].
  exists r'. split; [exact E|]. split; [|exact HS']. transitivity (x :: r); [constructor; exact HPr|exact HP'].
Qed.

Lemma count_below_app x a b : count_below x (a ++ b) = count_below x a + count_below x b.
Proof. induction a as [|y a IH]; cbn [count_below app]; lia. Qed.
Lemma count_upto_app x a b : count_upto x (a ++ b) = count_upto x a + count_upto x b.
Proof. induction a as [|y a IH]; cbn [count_upto app]; lia. Qed.
Lemma count_below_perm x l r : Permutation l r -> count_below x l = count_below x r.
Proof. induction 1; cbn [count_below]; lia. Qed.
Lemma count_upto_perm x l r : Permutation l r -> count_upto x l = count_upto x r.
Proof. induction 1; cbn [count_upto]; lia. Qed.
Lemma count_below_max x l : count_below x l <= len l.
Proof. induction l as [|y l IH]; [cbn; lia|]. cbn [count_below]. rewrite len_cons. destruct (_ <? _); lia. Qed.
Lemma count_below_none x l : Forall (q_le x) l -> count_below x l = 0.
Proof.
  induction 1 as [|y l Hy HF IH]; [reflexivity|]. cbn [count_below]. rewrite IH. unfold q_le in Hy.
  replace (_ <? _) with false by lia. reflexivity.
Qed.
Lemma count_upto_nonneg x l : 0 <= count_upto x l.
Proof. induction l as [|y l IH]; cbn [count_upto]; [lia|]. destruct (_ <=? _); lia. Qed.
Lemma count_upto_all x l : Forall (fun y => q_le y x) l -> count_upto x l = len l.
Proof.
  induction 1 as [|y l Hy HF IH]; [reflexivity|]. cbn [count_upto]. rewrite IH, len_cons. unfold q_le in Hy.
  replace (_ <=? _) with true by lia. lia.
Qed.
Lemma sorted_before l : forall a x b, l = a ++ x :: b -> StronglySorted q_le l -> Forall (fun y => q_le y x) a /\ Forall (q_le x) b.
Proof.
  induction l as [|y l IH]; intros [|z a] x b E HS; try discriminate E; injection E as -> E; apply StronglySorted_inv in HS as [HS HA].
  - subst. split; [constructor|exact HA].
  - destruct (IH a x b E HS) as [H1 H2]. split; [|exact H2]. constructor; [|exact H1].
    rewrite Forall_forall in HA. apply HA. subst l. apply in_or_app. right. left. reflexivity.
Qed.

Lemma index_rank r l k : Permutation l r -> StronglySorted q_le r -> 0 <= k < len l ->
  exists x, index r k = Ok x /\ has_rank k l x.
Proof.
  intros HP HS Hk. assert (len r = len l) as Hl by (unfold len; rewrite (Permutation_length HP); reflexivity).
  unfold index. replace (0 <=? k) with true by lia.
  destruct (nth_error r (Z.to_nat k)) as [x|] eqn:En; [|apply nth_error_None in En; unfold len in *; lia].
  exists x. split; [reflexivity|]. destruct (nth_error_split _ _ En) as (a & b & Er & Ha).
  destruct (sorted_before r a x b Er HS) as [H1 H2]. split.
  - eapply Permutation_in; [symmetry; exact HP|]. eapply nth_error_In, En.
  - rewrite (count_below_perm x l r HP), (count_upto_perm x l r HP), Er, count_below_app, count_upto_app.
    rewrite (count_upto_all x a H1). cbn [count_below count_upto]. rewrite (count_below_none x b H2).
    pose proof (count_below_max x a). pose proof (count_upto_nonneg x b). unfold len in *.
    replace (fst x * snd x <? fst x * snd x) with false by lia. replace (fst x * snd x <=? fst x * snd x) with true by lia. lia.
Qed.

Theorem percentiles_ok m times : Forall positive times -> len times < 2 ^ 56 ->
  match times with
  | [] => exists why, print_stats m times = Panic why
  | _ => exists p10 p50 p90, print_stats m times = Ok (p10, p50, p90)
      /\ has_rank (10 * len times / 100) times p10 /\ has_rank (50 * len times / 100) times p50
      /\ has_rank (90 * len times / 100) times p90
  end.
Proof.
  intros HP Hl. destruct times as [|y l]; [cbn; eauto|]. remember (y :: l) as times eqn:Et.
  assert (0 < len times) as H0 by (subst; rewrite len_cons; pose proof (len_nonneg l); lia). clear Et y l.
  destruct (times_sorted times HP) as (r & Er & HPr & HSr). unfold print_stats. rewrite Er. cbn [obind].
  assert (len r = len times) as Hlr by (unfold len; rewrite (Permutation_length HPr); reflexivity).
  assert (forall k, 0 <= k < 100 -> exists x, percentile m k r = Ok x /\ has_rank (k * len times / 100) times x) as H.
  { intros k Hk. unfold percentile. rewrite Hlr, chk_u64 by nia. cbn [obind]. apply index_rank; auto.
    split; [apply Z.div_pos; nia|apply Z.div_lt_upper_bound; nia]. }
  destruct (H 10 ltac:(lia)) as (p10 & -> & H10), (H 50 ltac:(lia)) as (p50 & -> & H50), (H 90 ltac:(lia)) as (p90 & -> & H90).
  cbn [obind]. exists p10, p50, p90. auto.
Qed.
(** The rank determines the quotient. *)
Theorem rank_unique k l x y : Forall positive l -> has_rank k l x -> has_rank k l y -> fst x * snd y = fst y * snd x.
Proof.
  intros HP [Hx [X1 X2]] [Hy [Y1 Y2]]. rewrite Forall_forall in HP. pose proof (HP x Hx) as Px. pose proof (HP y Hy) as Py.
  assert (forall a b, positive a -> positive b -> (forall z, In z l -> positive z) -> fst a * snd b < fst b * snd a -> count_upto a l <= count_below b l) as H.
  { clear. intros a b Pa Pb Pl Hlt. induction l as [|z l IH]; cbn [count_upto count_below]; [lia|].
    specialize (IH (fun z Hz => Pl z (or_intror Hz))). pose proof (Pl z (or_introl eq_refl)) as Pz.
    destruct (Z.leb_spec (fst z * snd a) (fst a * snd z)) as [H1|H1]; [|destruct (_ <? _); lia].
    replace (fst z * snd b <? fst b * snd z) with true; [lia|].
    symmetry. apply Z.ltb_lt. unfold positive in *. destruct a as [a a'], b as [b b'], z as [z z']. cbn in *.
    apply (Z.mul_lt_mono_pos_l a'); [lia|]. nia. }
  destruct (Z.lt_trichotomy (fst x * snd y) (fst y * snd x)) as [Hlt|[E|Hlt]]; [|exact E|].
  - specialize (H x y Px Py HP Hlt). lia.
  - specialize (H y x Py Px HP Hlt). lia.
Qed.

(** * Runs *)

Lemma assignment_range a : assignment_ok a -> 1 <= channel_count a <= 8.
Proof. destruct a; cbn; lia. Qed.
Lemma frame_samples_range f w : frame_code (fst f) (snd f) w -> 1 <= frame_samples f <= 524280.
Proof.
  intros Hw. destruct (frame_long _ _ _ Hw) as (_ & Hs & _ & Ha). apply assignment_range in Ha. unfold frame_samples. nia.
Qed.

Section Runs.
  Context (m : build) (un : nat -> list Z) (Hun : forall n, length (un n) = n) (fuel : nat).

  Lemma measured_positive frames ws clock : Forall2 (fun f w => frame_code (fst f) (snd f) w) frames ws ->
    forall i, Forall positive (measured clock i frames) /\ length (measured clock i frames) = length frames.
  Proof.
    intros HF. induction HF as [|f w frames ws Hw HF IH]; intros i; [split; [constructor|reflexivity]|]. cbn [measured length].
    destruct (IH (Datatypes.S i)) as [H1 H2]. split; [|lia]. constructor; [|exact H1]. unfold positive. cbn [snd].
    apply frame_samples_range in Hw. lia.
  Qed.
  Lemma frames_short frames ws : Forall2 (fun f w => frame_code (fst f) (snd f) w) frames ws -> len frames <= len (concat ws).
  Proof.
    induction 1 as [|f w frames ws Hw HF IH]; [cbn; lia|]. cbn [concat]. rewrite len_cons, len_app.
    apply frame_long in Hw as [Hw _]. unfold len in *. lia.
  Qed.

  Theorem runs_ok turns data w rest si vc frames n : bytes_ok data -> (length data + 1 < fuel)%nat -> (length frames < turns)%nat ->
    data = w ++ rest -> well_formed si vc w -> plays TEof rest frames None -> len data < 2 ^ 56 -> si_samples si = Some n ->
    forall clocks, Forall clock_ok clocks ->
    match frames with
    | [] => clocks <> [] -> exists why, bench_runs m un fuel turns clocks data = Panic why
    | _ => exists rs, bench_runs m un fuel turns clocks data = Ok rs
        /\ Forall2 (fun clock r => bench_decode_file m un fuel turns clock data = Ok (fst r)
                                   /\ print_stats m (measured clock O frames) = Ok (snd r)) clocks rs
    end.
  Proof.
    intros Hb Hf Ht El Hw Hp Hlen En clocks HC.
    assert (forall clock, clock_ok clock -> exists st, bench_decode_file m un fuel turns clock data = Ok st
        /\ st_sample_times st = measured clock O frames) as Hrun.
    { intros clock Hc. pose proof (decode_file_runs m un Hun fuel turns clock data w rest si vc frames None Hb Hf Ht El Hw Hp (or_introl eq_refl) ltac:(lia) Hc) as H.
      cbv beta iota in H. rewrite En in H. destruct H as (st & E & _ & _ & _ & Est). eauto. }
    destruct Hp as (ws & x & Ex & HF & _).
    assert (frames <> [] -> forall clock, exists p, print_stats m (measured clock O frames) = Ok p) as Hps.
    { intros Hne clock. destruct (measured_positive frames ws clock HF O) as [HP HL]. pose proof (frames_short frames ws HF) as Hs.
      pose proof (percentiles_ok m (measured clock O frames) HP) as H.
      assert (len (measured clock O frames) < 2 ^ 56) as Hl.
      { unfold len at 1. rewrite HL. fold (len frames). subst data rest. rewrite !len_app in Hlen. pose proof (len_nonneg w). pose proof (len_nonneg x). lia. }
      specialize (H Hl). destruct (measured clock O frames) as [|y l] eqn:Em; [destruct frames; [congruence|discriminate Em]|].
      destruct H as (p10 & p50 & p90 & E & _). eauto. }
    destruct frames as [|f frames'] eqn:Ef.
    - intros Hne. destruct clocks as [|clock clocks]; [congruence|]. apply Forall_inv in HC. cbn [bench_runs].
      destruct (Hrun clock HC) as (st & -> & Est). cbn [obind]. rewrite Est. cbn. eauto.
    - rewrite <- Ef in *. assert (frames <> []) as Hne by (rewrite Ef; discriminate). clear Ef f frames'.
      induction HC as [|clock clocks Hc HC IH]; [exists []; split; [reflexivity|constructor]|]. cbn [bench_runs].
      destruct (Hrun clock Hc) as (st & E & Est), (Hps Hne clock) as (p & Ep), IH as (rs & Er & HR).
      rewrite E. cbn [obind]. rewrite Est, Ep. cbn [obind]. rewrite Er. cbn [obind]. eexists. split; [reflexivity|].
      constructor; [|exact HR]. auto.
  Qed.

  (** ** Over and over *)

  Context (data w rest : list Z) (si : stream_info) (vc : option vorbis_comment) (frames : list (header * list (list Z))) (o : option error).
  Context (Hb : bytes_ok data) (Hf : (length data + 1 < fuel)%nat) (El : data = w ++ rest) (Hw : well_formed si vc w)
    (Hp : plays TEof rest frames o) (Hz : o = None \/ no_zero_bytes (2 ^ 29 - 1) data).

  Fixpoint turns_from (ahead : list (header * list (list Z))) (n : nat) : list (option (header * list (list Z))) :=
    match n with
    | O => []
    | Datatypes.S n => match ahead with f :: ahead => Some f :: turns_from ahead n | [] => None :: turns_from frames n end
    end.
  Lemma concat_repeat_long {A} (r : list A) : (1 <= length r)%nat -> forall n, (n <= length (concat (repeat r n)))%nat.
  Proof. intros Hr. induction n as [|n IH]; cbn [repeat concat]; [lia|]. rewrite app_length. lia. Qed.
  Lemma firstn_repeat {A} (r a : list A) n k : (1 <= length r)%nat -> (n <= k)%nat ->
    firstn n (a ++ concat (repeat r k)) = firstn n (a ++ concat (repeat r n)).
  Proof.
    intros Hr Hk. replace k with (n + (k - n))%nat by lia. rewrite repeat_app, concat_app, app_assoc, firstn_app.
    pose proof (concat_repeat_long r Hr n) as Hl. rewrite (app_length a). replace (n - _)%nat with 0%nat by lia. cbn [firstn]. apply app_nil_r.
  Qed.
  Lemma turns_over n : forall ahead, turns_from ahead n = firstn n (map Some ahead ++ [None] ++ concat (repeat (map Some frames ++ [None]) n)).
  Proof.
    assert (1 <= length (map Some frames ++ [@None (header * list (list Z))]))%nat as Hr by (rewrite app_length; cbn; lia).
    induction n as [|n IH]; intros ahead; [reflexivity|]. cbn [turns_from]. destruct ahead as [|f ahead]; rewrite IH.
    - cbn [map app firstn repeat concat]. f_equal. rewrite <- app_assoc. reflexivity.
    - cbn [map app firstn]. f_equal. symmetry.
      pose proof (firstn_repeat (map Some frames ++ [None]) (map Some ahead ++ [None]) n (Datatypes.S n) Hr ltac:(lia)) as H.
      rewrite <- !app_assoc in H. exact H.
  Qed.
  Lemma turns_all n : turns_from frames n = over_and_over frames n.
  Proof.
    rewrite turns_over. unfold over_and_over.
    pose proof (firstn_repeat (map Some frames ++ [@None (header * list (list Z))]) [] n (Datatypes.S n)) as H. cbn [app repeat concat] in H.
    rewrite <- H by (rewrite ?app_length; cbn; lia). rewrite <- app_assoc. reflexivity.
  Qed.

  Lemma step_frame f fw more s inp : fr_input (bench_reader s) = Full inp -> frame_code (fst f) (snd f) fw -> buffered TEof inp (fw ++ more) ->
    (length (fw ++ more) < fuel)%nat -> 0 <= bench_iterations s < 2 ^ 64 - 1 ->
    exists inp' buffer', buffered TEof inp' more
      /\ bench_iter m un fuel data (si_bits_per_sample si) s
         = (bytes <~ chk m u32 (bench_bytes s + frame_samples f * (si_bits_per_sample si / 8)) ;;
            Ok (mkBench (give_back (bench_reader s) inp') buffer' bytes (bench_iterations s + 1))).
  Proof.
    intros Ei Hfw HD Hl Hi. destruct f as [h chs]. cbn [fst snd] in Hfw.
    destruct (frame_decoded (br_rb m) TEof (buffered TEof) (br_stream m TEof) m fuel (bench_buffer s) inp h chs fw more Hfw HD Hl) as (b & inp' & E & Hs & HD').
    pose proof (decoded_holds (br_rb m) TEof (buffered TEof) (br_stream m TEof) m fuel _ inp h chs fw more b inp' Hfw HD Hl E) as Hh.
    exists inp', (block_into_buffer b). split; [exact HD'|]. unfold bench_iter, fr_blocks. rewrite Ei. cbn [obind]. rewrite E.
    destruct (shows_samples m b (h, chs) Hs Hh) as [-> Hn]. cbn [obind].
    pose proof (info_spec _ _ _ Hw) as (_ & _ & _ & _ & _ & _ & Hbps & _).
    assert (0 <= si_bits_per_sample si / 8 <= 4) as Hk by (split; [apply Z.div_pos; lia|apply (Z.div_le_mono _ 32 8); lia]).
    rewrite chk_u32 by nia. cbn [obind]. destruct (chk m u32 (bench_bytes s + _)) as [bytes| | | |]; cbn [obind]; try reflexivity.
    rewrite chk_u64 by lia. reflexivity.
  Qed.
  Lemma step_end x s inp r : o = None -> stop TEof x o -> (length x < fuel)%nat -> fr_input (bench_reader s) = Full inp -> buffered TEof inp x ->
    new_on m un fuel data = Ok r ->
    bench_iter m un fuel data (si_bits_per_sample si) s = Ok (mkBench r (mkVec [] 0) (bench_bytes s) (bench_iterations s)).
  Proof.
    intros Eo Hs Hx Ei HD Er. rewrite Eo in Hs. destruct (stop_next (br_rb m) TEof (buffered TEof) (br_stream m TEof) m fuel (bench_buffer s) inp x None (or_introl eq_refl) Hs HD Hx ltac:(lia)) as (s' & E).
    unfold bench_iter, fr_blocks. rewrite Ei. cbn [obind]. rewrite E, Er. reflexivity.
  Qed.

  Lemma wraps_add x y : u32 (u32 x + y) = u32 (x + y).
  Proof. unfold u32. rewrite Z.add_mod_idemp_l by lia. reflexivity. Qed.
  Lemma samples_read_nonneg k fs : (forall f, In (Some f) fs -> 0 <= frame_samples f) -> 0 <= k -> 0 <= samples_read fs * k.
  Proof.
    intros H Hk. enough (0 <= samples_read fs) by nia. induction fs as [|[f|] fs IH]; cbn [samples_read]; [lia| |].
    - specialize (IH (fun g Hg => H g (or_intror Hg))). specialize (H f (or_introl eq_refl)). lia.
    - apply IH. intros g Hg. apply H. right. exact Hg.
  Qed.
  Lemma turns_in n : forall ahead f, In (Some f) (turns_from ahead n) -> In f ahead \/ In f frames.
  Proof.
    induction n as [|n IH]; intros ahead f H; [destruct H|]. cbn [turns_from] in H. destruct ahead as [|g ahead]; destruct H as [H|H]; try discriminate H.
    - apply IH in H. tauto.
    - left. left. congruence.
    - apply IH in H. cbn. tauto.
  Qed.

  Lemma iters_run : o = None -> forall ws x, rest = concat ws ++ x -> Forall2 (fun f w => frame_code (fst f) (snd f) w) frames ws -> stop TEof x o ->
    forall n ahead lws s inp, Forall2 (fun f w => frame_code (fst f) (snd f) w) ahead lws -> (length (concat lws ++ x) < fuel)%nat ->
    fr_input (bench_reader s) = Full inp -> buffered TEof inp (concat lws ++ x) ->
    0 <= bench_bytes s < 2 ^ 32 -> 0 <= bench_iterations s -> bench_iterations s + Z.of_nat n < 2 ^ 64 ->
    let total := bench_bytes s + samples_read (turns_from ahead n) * (si_bits_per_sample si / 8) in
    if match m with Release => true | Debug => total <? 2 ^ 32 end
    then exists s', bench_iters m un fuel n data (si_bits_per_sample si) s = Ok s' /\ bench_bytes s' = u32 total
           /\ bench_iterations s' = bench_iterations s + frames_read (turns_from ahead n)
    else exists why, bench_iters m un fuel n data (si_bits_per_sample si) s = Panic why.
  Proof.
    intros Eo ws x Ex HF Hs. destruct (memory_opens m un Hun fuel data w rest si vc Hb ltac:(lia) El Hw) as (r & inp0 & Er & _ & Er1 & HD0 & _).
    pose proof (info_spec _ _ _ Hw) as (_ & _ & _ & _ & _ & _ & Hbps & _).
    assert (0 <= si_bits_per_sample si / 8) as Hk by (apply Z.div_pos; lia).
    assert (forall ahead lws, Forall2 (fun f w => frame_code (fst f) (snd f) w) ahead lws -> forall f, In f ahead -> 1 <= frame_samples f) as Hpos.
    { clear. intros ahead lws HF. induction HF as [|f w ahead ws Hw HF IH]; intros g Hg; [destruct Hg|destruct Hg as [<-|Hg]; [|exact (IH g Hg)]].
      apply frame_samples_range in Hw. lia. }
    induction n as [|n IH]; intros ahead lws s inp HL Hl Ei HD Hbytes Hi0 Hi; cbv zeta.
    - cbn [turns_from samples_read frames_read bench_iters]. rewrite Z.mul_0_l, Z.add_0_r.
      replace (match m with Debug => bench_bytes s <? 2 ^ 32 | Release => true end) with true by (destruct m; lia).
      exists s. split; [reflexivity|]. split; [|lia]. unfold u32. rewrite Z.mod_small; lia.
    - cbn [bench_iters]. inversion HL as [|f fw ahead' lws' Hfw HL']; subst ahead lws.
      + cbn [turns_from samples_read frames_read]. cbn [concat app] in *.
        rewrite (step_end x s inp r Eo Hs Hl Ei HD Er). cbn [obind].
        assert (length (concat ws ++ x) < fuel)%nat as Hl0 by (rewrite <- Ex; rewrite El, app_length in Hf; lia).
        rewrite Ex in HD0. exact (IH frames ws (mkBench r (mkVec [] 0) (bench_bytes s) (bench_iterations s)) inp0 HF Hl0 Er1 HD0 Hbytes Hi0 ltac:(cbn [bench_iterations]; lia)).
      + cbn [concat] in HD, Hl. rewrite <- app_assoc in HD, Hl.
        destruct (step_frame f fw _ s inp Ei Hfw HD Hl ltac:(lia)) as (inp' & buffer' & HD' & ->). cbn [turns_from samples_read frames_read].
        set (k := si_bits_per_sample si / 8) in *. set (add := frame_samples f * k).
        assert (0 <= samples_read (turns_from ahead' n) * k) as Hrest.
        { apply samples_read_nonneg; [|exact Hk]. intros g Hg. apply turns_in in Hg.
          destruct Hg as [Hg|Hg]; [pose proof (Hpos _ _ HL' g Hg)|pose proof (Hpos _ _ HF g Hg)]; lia. }
        assert (0 <= add) as Hadd by (apply frame_samples_range in Hfw; subst add; nia).
        assert (length (concat lws' ++ x) < fuel)%nat as Hl' by (rewrite app_length in Hl; lia).
        rewrite Z.mul_add_distr_r. fold add.
        destruct (Z.lt_ge_cases (bench_bytes s + add) (2 ^ 32)) as [Hlt|Hge].
        * rewrite chk_u32 by lia. cbn [obind].
          specialize (IH ahead' lws' (mkBench (give_back (bench_reader s) inp') buffer' (bench_bytes s + add) (bench_iterations s + 1)) inp' HL' Hl' eq_refl HD'
            ltac:(cbn [bench_bytes]; lia) ltac:(cbn [bench_iterations]; lia) ltac:(cbn [bench_iterations]; lia)).
          cbv zeta in IH. cbn [bench_bytes bench_iterations] in IH. rewrite <- !Z.add_assoc in IH. exact IH.
        * unfold chk. assert (u32 (bench_bytes s + add) <> bench_bytes s + add) as Hne.
          { unfold u32. pose proof (Z.mod_pos_bound (bench_bytes s + add) (2 ^ 32) ltac:(lia)). lia. }
          replace (u32 (bench_bytes s + add) =? bench_bytes s + add) with false by lia.
          destruct m eqn:Em.
          -- replace (_ <? _) with false by lia. cbn. eauto.
          -- cbn [obind].
             specialize (IH ahead' lws' (mkBench (give_back (bench_reader s) inp') buffer' (u32 (bench_bytes s + add)) (bench_iterations s + 1)) inp' HL' Hl' eq_refl HD'
               ltac:(cbn [bench_bytes]; unfold u32; apply Z.mod_pos_bound; lia) ltac:(cbn [bench_iterations]; lia) ltac:(cbn [bench_iterations]; lia)).
             cbv zeta in IH. cbn [bench_bytes bench_iterations] in IH. rewrite wraps_add, <- !Z.add_assoc in IH. exact IH.
  Qed.

  Lemma bench_opens n : exists r inp, bench_decode m un fuel n data
      = (s <~ bench_iters m un fuel n data (si_bits_per_sample si) (mkBench r (mkVec [] 0) 0 0) ;;
         if bench_iterations s =? 0 then Panic "attempt to divide by zero" else Ok (bench_bytes s / bench_iterations s))
    /\ fr_input r = Full inp /\ buffered TEof inp rest.
  Proof.
    destruct (memory_opens m un Hun fuel data w rest si vc Hb ltac:(lia) El Hw) as (r & inp & Er & Es & Er1 & HD & _).
    exists r, inp. split; [|auto]. unfold bench_decode. rewrite Er. cbn [expect obind]. rewrite Es.
    pose proof (info_spec _ _ _ Hw) as (_ & _ & _ & _ & _ & _ & Hbps & _).
    replace (si_bits_per_sample si <? 8 * 16) with true by lia. reflexivity.
  Qed.
  Theorem over_ok n : o = None -> Z.of_nat n < 2 ^ 64 ->
    let total := samples_read (over_and_over frames n) * (si_bits_per_sample si / 8) in
    let reads := frames_read (over_and_over frames n) in
    (m = Release \/ total < 2 ^ 32 -> 0 < reads -> bench_decode m un fuel n data = Ok (u32 total / reads))
    /\ (reads = 0 \/ (m = Debug /\ 2 ^ 32 <= total) -> exists why, bench_decode m un fuel n data = Panic why).
  Proof.
    intros Eo Hn. cbv zeta. destruct (bench_opens n) as (r & inp & -> & Ei & HD).
    destruct Hp as (ws & x & Ex & HF & Hs). rewrite Ex in HD.
    assert (length (concat ws ++ x) < fuel)%nat as Hl by (rewrite <- Ex; rewrite El, app_length in Hf; lia).
    pose proof (iters_run Eo ws x Ex HF Hs n frames ws (mkBench r (mkVec [] 0) 0 0) inp HF Hl Ei HD ltac:(cbn; lia) ltac:(cbn; lia) ltac:(cbn; lia)) as H.
    cbv zeta in H. rewrite turns_all in H. cbn [bench_bytes bench_iterations] in H. rewrite !Z.add_0_l in H.
    set (total := samples_read _ * _) in *. set (reads := frames_read _) in *. clearbody total reads. split.
    - intros Hm Hr. replace (match m with Debug => total <? 2 ^ 32 | Release => true end) with true in H by (destruct m, Hm; try discriminate; lia).
      destruct H as (s' & -> & E1 & E2). cbn [obind]. rewrite E1, E2. replace (reads =? 0) with false by lia. reflexivity.
    - intros Hr. destruct (match m with Debug => total <? 2 ^ 32 | Release => true end) eqn:Eb.
      + destruct H as (s' & -> & E1 & E2). cbn [obind]. destruct Hr as [Hr|[Hm Hr]]; [|subst m; lia].
        rewrite E2, Hr. cbn. eauto.
      + destruct H as (why & ->). cbn. eauto.
  Qed.

  Lemma iters_fault e : o = Some e -> forall x, stop TEof x o -> no_zero_run (2 ^ 32 - 1) (bytes_bits x) ->
    forall ahead lws, Forall2 (fun f w => frame_code (fst f) (snd f) w) ahead lws ->
    forall n s inp, (length ahead < n)%nat -> (length (concat lws ++ x) < fuel)%nat ->
    fr_input (bench_reader s) = Full inp -> buffered TEof inp (concat lws ++ x) ->
    0 <= bench_iterations s -> bench_iterations s + Z.of_nat n < 2 ^ 64 ->
    exists why, bench_iters m un fuel n data (si_bits_per_sample si) s = Panic why.
  Proof.
    intros Eo x Hs Hzx ahead lws HL. induction HL as [|f fw ahead lws Hfw HL IH]; intros [|n] s inp Hn Hl Ei HD Hi0 Hi; cbn [length] in Hn; try lia; cbn [bench_iters].
    - cbn [concat app] in *. rewrite Eo in Hs. destruct (stop_next (br_rb m) TEof (buffered TEof) (br_stream m TEof) m fuel (bench_buffer s) inp x (Some e) (or_intror Hzx) Hs HD Hl ltac:(lia)) as (s' & E).
      unfold bench_iter, fr_blocks. rewrite Ei. cbn [obind]. rewrite E. cbn. eauto.
    - cbn [concat] in HD, Hl. rewrite <- app_assoc in HD, Hl.
      destruct (step_frame f fw _ s inp Ei Hfw HD Hl ltac:(lia)) as (inp' & buffer' & HD' & ->).
      unfold chk. destruct (_ =? _); [|destruct m eqn:Em; [cbn; eauto|]]; cbn [obind];
        (apply (IH n _ inp'); cbn [bench_reader bench_iterations give_back fr_input]; auto; try lia; rewrite app_length in Hl; lia).
  Qed.
  Theorem over_fault n e : o = Some e -> Z.of_nat n < 2 ^ 64 -> (length frames < n)%nat ->
    exists why, bench_decode m un fuel n data = Panic why.
  Proof.
    intros Eo Hn Hlen. destruct (bench_opens n) as (r & inp & -> & Ei & HD).
    destruct Hp as (ws & x & Ex & HF & Hs). rewrite Ex in HD.
    assert (length (concat ws ++ x) < fuel)%nat as Hl by (rewrite <- Ex; rewrite El, app_length in Hf; lia).
    assert (no_zero_run (2 ^ 32 - 1) (bytes_bits x)) as Hzx.
    { destruct Hz as [Hz'|Hz']; [congruence|]. subst rest. rewrite El in Hz', Hb. apply no_zero_bits.
      - apply bytes_app in Hb as [_ Hb']. apply bytes_app in Hb'. apply Hb'.
      - do 2 apply no_zero_bytes_suffix in Hz'. exact Hz'. }
    destruct (iters_fault e Eo x Hs Hzx frames ws HF n (mkBench r (mkVec [] 0) 0 0) inp Hlen Hl Ei HD ltac:(cbn; lia) ltac:(cbn; lia)) as (why & ->).
    cbn. eauto.
  Qed.

  Lemma reads_step n : forall ahead, frames_read (turns_from ahead n)
    = if (n <=? length ahead)%nat then Z.of_nat n else Z.of_nat (length ahead) + frames_read (turns_from frames (n - length ahead - 1)).
  Proof.
    induction n as [|n IH]; intros ahead; [reflexivity|]. cbn [turns_from]. destruct ahead as [|f ahead]; cbn [frames_read length].
    - replace (Datatypes.S n - 0 - 1)%nat with n by lia. cbn. reflexivity.
    - rewrite IH. cbn [Nat.leb]. destruct (Nat.leb n (length ahead)); [lia|]. replace (Datatypes.S n - Datatypes.S (length ahead) - 1)%nat with (n - length ahead - 1)%nat by lia. lia.
  Qed.
  Theorem reads_count n : frames_read (over_and_over frames n) = Z.of_nat n - Z.of_nat n / (len frames + 1).
  Proof.
    rewrite <- turns_all. induction n as [n IH] using lt_wf_ind. rewrite reads_step. unfold len in *.
    destruct (Nat.leb_spec n (length frames)) as [Hle|Hgt].
    - rewrite (Z.div_small (Z.of_nat n)) by lia. lia.
    - rewrite IH by lia. set (k := Z.of_nat (length frames) + 1) in *. set (j := Z.of_nat (n - length frames - 1)).
      replace (Z.of_nat n) with (j + 1 * k) by lia. rewrite Z.div_add by lia. lia.
  Qed.
End Runs.

(** * Metadata *)

Section Metadata.
  Context (m : build) (un : nat -> list Z) (Hun : forall n, length (un n) = n) (fuel : nat).

  Lemma literal_text s : literal s = text s.
  Proof. unfold text. induction s as [|c s IH]; cbn [literal list_ascii_of_string map]; [reflexivity|]. rewrite IH. unfold Ascii.nat_of_ascii. rewrite N_nat_Z. reflexivity. Qed.
  Lemma same_letter_refl n : same_name n n.
  Proof. induction n; constructor; auto. left. reflexivity. Qed.
  Lemma has_name_in cs n v name : In (n, v) cs -> same_name n (text name) -> has_name cs name.
  Proof.
    intros Hi Hn. destruct (values_defined (text name) cs) as (vs & Hv & _).
    destruct vs as [|x vs]; [|exists x, vs; exact Hv]. exfalso. remember [] as e eqn:Ee.
    induction Hv as [|c cs vs Hc Hv IH|c cs vs Hc Hv IH]; [destruct Hi|discriminate Ee|].
    destruct Hi as [->|Hi]; [exact (Hc Hn)|exact (IH Hi Ee)].
  Qed.
  Lemma tags_expected {T} (r : flac_reader T) cs : (forall name vs, values_of name cs vs -> yields get_tag_next (fr_get_tag r name) vs) ->
    forall names, (Forall (has_name cs) names -> expect_tags r names = Ok tt)
    /\ (forall front name back, names = front ++ name :: back -> Forall (has_name cs) front -> ~ has_name cs name ->
        expect_tags r names = Panic name).
  Proof.
    intros HY. induction names as [|name names [IH1 IH2]]; [split; [reflexivity|intros [|? ?]; discriminate]|]. cbn [expect_tags].
    rewrite literal_text. destruct (values_defined (text name) cs) as (vs & Hvs & Hu). pose proof (HY _ _ Hvs) as HYn.
    assert (has_name cs name <-> vs <> []) as Hh.
    { split; [intros (v & vs' & Hv); apply Hu in Hv; subst; discriminate|]. intros Hne. destruct vs as [|v vs']; [congruence|]. exists v, vs'. exact Hvs. }
    destruct vs as [|v vs].
    - apply yields_nil in HYn as (it' & E & _). rewrite E. cbn [fst obind expect_some]. split.
      + intros HF. apply Forall_inv in HF. apply Hh in HF. congruence.
      + intros [|f front] n back En HF Hn; injection En as -> En; [reflexivity|]. apply Forall_inv in HF. apply Hh in HF. congruence.
    - apply yields_cons in HYn as (it' & E & _). rewrite E. cbn [fst obind expect_some]. split.
      + intros HF. apply IH1. apply Forall_inv_tail in HF. exact HF.
      + intros [|f front] n back En HF Hn; injection En as -> En; [exfalso; apply Hn, Hh; discriminate|].
        eapply IH2; [exact En|apply Forall_inv_tail in HF; exact HF|exact Hn].
  Qed.
  Lemma path_position fs path t w rest si vc : file_at fs path t (w ++ rest) -> (length (w ++ rest) < fuel)%nat -> well_formed si vc w -> 0 < len w ->
    exists r script, flac_open m un fuel fs path = Ok r /\ fs path = inr script
      /\ len w <= file_position script (fr_into_inner r) < len w + 2048
      /\ file_position script (fr_into_inner r) <= len (w ++ rest).
  Proof.
    intros (script & Efs & Hd) Hf Hw H0. pose proof (lazy_new t script _ Hd) as HL.
    destruct (new_accepts (br_rb m) t (lazily t script (w ++ rest)) (lazy_stream m t script _ Hd) m un Hun fuel (br_new script) si vc w rest Hw HL Hf) as (r & inp & E1 & E2 & E3 & E4 & HD).
    exists r, script. unfold flac_open. rewrite Efs. split; [exact E1|]. split; [reflexivity|].
    apply lazily_taken in HD. rewrite len_app in HD. replace (len w + len rest - len rest) with (len w) in HD by lia.
    assert (br_into_inner inp = fr_into_inner r) as Ei.
    { unfold fr_blocks in E4. unfold fr_into_inner. destruct (fr_input r); [congruence|discriminate E4]. }
    rewrite Ei in HD. exact (taken_position t script _ _ _ Hd HD H0).
  Qed.

  Lemma loop_runs fs path r script p : flac_open m un fuel fs path = Ok r -> fs path = inr script ->
    expect_tags r bench_tags = Ok tt -> file_position script (fr_into_inner r) = p -> 0 <= p ->
    forall n b, 0 <= b -> b + Z.of_nat n * p < 2 ^ 64 -> metadata_opens m un fuel n fs path b = Ok (b + Z.of_nat n * p).
  Proof.
    intros E Es Et Ep Hp. induction n as [|n IH]; intros b H0 Hb; cbn [metadata_opens]; [f_equal; lia|].
    rewrite E. cbn [expect obind]. rewrite Et. cbn [obind]. rewrite Es, Ep, chk_u64 by nia. cbn [obind].
    rewrite IH by nia. f_equal. lia.
  Qed.
  Theorem metadata_ok fs path t w rest si vc cs : file_at fs path t (w ++ rest) -> (length (w ++ rest) < fuel)%nat ->
    well_formed si vc w -> has_comments vc cs -> len (w ++ rest) < 2 ^ 60 -> Forall (has_name cs) metadata_names ->
    exists p, bench_metadata m un fuel fs path = Ok (10 * p) /\ len w <= p < len w + 2048 /\ p <= len (w ++ rest).
  Proof.
    intros Hat Hf Hw Hvc Hlen HF. assert (0 < len w) as H0.
    { destruct Hw as (bs & blocks & -> & _). rewrite len_app. pose proof (len_nonneg blocks). change (len signature) with 4. lia. }
    destruct (reader_shows m un Hun fuel fs path t w rest si vc cs Hat Hf Hw Hvc) as (r & E & HY).
    destruct (path_position fs path t w rest si vc Hat Hf Hw H0) as (r' & script & E' & Es & Hp1 & Hp2).
    rewrite E in E'. injection E' as <-. exists (file_position script (fr_into_inner r)). split; [|auto].
    unfold bench_metadata. rewrite (loop_runs fs path r script _ E Es (proj1 (tags_expected r cs HY bench_tags) HF) eq_refl) by lia.
    f_equal.
  Qed.
  Theorem metadata_missing fs path t w rest si vc cs front name back : file_at fs path t (w ++ rest) -> (length (w ++ rest) < fuel)%nat ->
    well_formed si vc w -> has_comments vc cs -> metadata_names = front ++ name :: back -> Forall (has_name cs) front -> ~ has_name cs name ->
    bench_metadata m un fuel fs path = Panic name.
  Proof.
    intros Hat Hf Hw Hvc En HF Hn. destruct (reader_shows m un Hun fuel fs path t w rest si vc cs Hat Hf Hw Hvc) as (r & E & HY).
    unfold bench_metadata. cbn [metadata_opens]. rewrite E. cbn [expect obind].
    rewrite (proj2 (tags_expected r cs HY bench_tags) front name back En HF Hn). reflexivity.
  Qed.
End Metadata.

(** * The buffer of the benchmark *)
From Verif Require Import ProofAlloc.

Theorem bench_no_allocation {S} (rb : ReadBytes S) I t D : byte_reader rb I -> stream rb t D ->
  forall m fuel si frames l s, streaminfo_fits si -> plays t l frames None -> I s -> D s l -> (length l + 1 < fuel)%nat ->
  Forall (fun f => frame_samples f <= si_max_block_size si * si_channels si) frames ->
  exists bs s', blocks_read (traced rb) m fuel (buffer_for si) (s, []) bs (Ok None) (s', [])
    /\ Forall2 (fun b f => block_shows b (fst f) (snd f)) bs frames.
Proof.
  intros HR HS m fuel si frames l s Hsi (ws & x & -> & HF & Hs) HI HD Hf Hmax.
  destruct (plays_blocks (traced rb) t _ (traced_stream rb t D HS) m fuel frames ws HF (buffer_for si) (s, []) x None) as (bs & [s' q] & HB & HF2); auto; try lia.
  assert (q = []) as ->.
  { eapply (recycled_none rb I t D HR HS); [exact HB|exact HI|exact HD|lia| |].
    - destruct Hsi as (_ & H1 & _ & _ & _ & H2 & _). unfold vec_ok, buffer_for. cbn. nia.
    - clear - HF2 Hmax. unfold buffer_for. cbn [v_cap]. induction HF2 as [|b f bs frames [(_ & H1 & H2 & _) _] HF2 IH]; constructor.
      + apply Forall_inv in Hmax. unfold block_samples. unfold frame_samples in Hmax. rewrite H1, H2. lia.
      + apply IH. apply Forall_inv_tail in Hmax. exact Hmax. }
  exists bs, s'. split; [exact HB|]. clear - HF2. induction HF2 as [|b f bs frames [H _] HF2 IH]; constructor; auto.
Qed.

Lemma rate_ok m un (Hun : forall n, length (un n) = n) fuel data w rest si vc frames :
  bytes_ok data -> (length data + 1 < fuel)%nat -> data = w ++ rest -> well_formed si vc w ->
  plays TEof rest frames None -> forall n, Z.of_nat n < 2 ^ 64 ->
  let total := samples_read (over_and_over frames n) * (si_bits_per_sample si / 8) in
  let reads := frames_read (over_and_over frames n) in
  (m = Release \/ total < 2 ^ 32 -> 0 < reads -> bench_decode m un fuel n data = Ok (total mod 2 ^ 32 / reads))
  /\ (reads = 0 \/ (m = Debug /\ 2 ^ 32 <= total) -> exists why, bench_decode m un fuel n data = Panic why).
Proof.
  intros Hb Hf El Hw Hp n Hn. exact (over_ok m un Hun fuel data w rest si vc frames None Hb Hf El Hw Hp (or_introl eq_refl) n eq_refl Hn).
Qed.
Lemma decode_faults m un (Hun : forall n, length (un n) = n) fuel data w rest si vc frames e :
  bytes_ok data -> (length data + 1 < fuel)%nat -> data = w ++ rest -> well_formed si vc w ->
  plays TEof rest frames (Some e) -> no_zero_bytes (2 ^ 29 - 1) data ->
  forall n, Z.of_nat n < 2 ^ 64 -> (length frames < n)%nat ->
  exists why, bench_decode m un fuel n data = Panic why.
Proof.
  intros Hb Hf El Hw Hp Hz n Hn Hl. exact (over_fault m un Hun fuel data w rest si vc frames (Some e) Hb Hf El Hw Hp (or_intror Hz) n e eq_refl Hn Hl).
Qed.
Lemma over_count (frames : list (header * list (list Z))) n :
  frames_read (over_and_over frames n) = Z.of_nat n - Z.of_nat n / (len frames + 1).
Proof. exact (reads_count (repeat 0) (repeat_length 0) 2 [] frames (le_n 2) n). Qed.

(** * Files that do not open *)

Lemma new_fails m un (Hun : forall n, length (un n) = n) fuel data : bytes_ok data -> (length data < fuel)%nat ->
  (forall si vc w rest, data = w ++ rest -> ~ well_formed si vc w) -> exists e, new_on m un fuel data = Err e.
Proof.
  intros Hb Hf Hbad.
  destruct (path_fails m un Hun fuel (fun _ => inr (slice_reads (Datatypes.S (length data)) data)) [] TEof data) as [(si & vc & w & rest & El & Hw)|(e & E & _)].
  - eexists. split; [reflexivity|]. apply slice_delivers; auto.
  - exact Hf.
  - destruct (Hbad si vc w rest El Hw).
  - exists e. exact E.
Qed.
Theorem decode_file_unopened m un (Hun : forall n, length (un n) = n) fuel turns clock data : bytes_ok data -> (length data < fuel)%nat ->
  (forall si vc w rest, data = w ++ rest -> ~ well_formed si vc w) ->
  exists why, bench_decode_file m un fuel turns clock data = Panic why.
Proof. intros Hb Hf Hbad. destruct (new_fails m un Hun fuel data Hb Hf Hbad) as [e E]. unfold bench_decode_file. rewrite E. cbn. eauto. Qed.
Theorem rate_unopened m un (Hun : forall n, length (un n) = n) fuel n data : bytes_ok data -> (length data < fuel)%nat ->
  (forall si vc w rest, data = w ++ rest -> ~ well_formed si vc w) ->
  exists why, bench_decode m un fuel n data = Panic why.
Proof. intros Hb Hf Hbad. destruct (new_fails m un Hun fuel data Hb Hf Hbad) as [e E]. unfold bench_decode. rewrite E. cbn. eauto. Qed.
Theorem metadata_unopened m un (Hun : forall n, length (un n) = n) fuel fs path t l : file_at fs path t l -> (length l < fuel)%nat ->
  (forall si vc w rest, l = w ++ rest -> ~ well_formed si vc w) ->
  exists why, bench_metadata m un fuel fs path = Panic why.
Proof.
  intros Hat Hf Hbad. destruct (path_fails m un Hun fuel fs path t l Hat Hf) as [(si & vc & w & rest & El & Hw)|(e & E & _)].
  - destruct (Hbad si vc w rest El Hw).
  - unfold bench_metadata. cbn [metadata_opens]. rewrite E. cbn. eauto.
Qed.
