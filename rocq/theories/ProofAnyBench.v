(** The examples in the documentation, the programs that measure and the comparisons of the
    tests, with any file: C97. *)
From Verif Require Export SpecAnyBench ProofAnyPlay ProofMains2 ProofTests.
From Verif Require Import SpecReader.

(** * Iterators *)

Lemma sounds_cons {S} (next : M S (option (result Z))) st x pcm o : sounds next st (x :: pcm) o ->
  exists st', next st = (Ok (Some (ROk x)), st') /\ sounds next st' pcm o.
Proof.
  destruct o as [|e|]; cbn [sounds map app].
  - intros H. apply yields_cons in H. exact H.
  - intros H. apply yields_cons in H. exact H.
  - intros [why H]. cbn [length Nat.add] in H. rewrite nexts_S in H. cbn [fst] in H. injection H as H H'.
    destruct (next st) as [r st'] eqn:E. cbn [fst snd] in *. subst r. exists st'. split; [reflexivity|]. exists why. exact H'.
Qed.
Lemma sounds_nil {S} (next : M S (option (result Z))) st o : sounds next st [] o ->
  exists r st', next st = (r, st')
    /\ match o with AtEnd => r = Ok None | OnError e => r = Ok (Some (RErr e)) | OnPanic => exists why, r = Panic why end.
Proof.
  destruct o as [|e|]; cbn [sounds map app].
  - intros H. apply yields_nil in H as (st' & E & _). eauto.
  - intros H. apply yields_cons in H as (st' & E & _). eauto.
  - intros [why H]. cbn [length Nat.add] in H. rewrite nexts_S in H. cbn [fst] in H. injection H as H.
    destruct (next st) as [r st'] eqn:E. cbn [fst] in H. subst r. eauto.
Qed.

Section Doc.
  Context (m : build) (un : nat -> list Z) (Hun : forall n, length (un n) = n) (fuel : nat).

  Lemma any_rms_loop {S} (rb : ReadBytes S) o pcm : forall turns it summed count,
    sounds (fs_next rb m fuel) it pcm o -> (length pcm < turns)%nat -> - 2 ^ 31 <= count < 2 ^ 31 ->
    (m = Release \/ count + len pcm < 2 ^ 31 -> ends_or_panics o (summed ++ pcm, i32 (count + len pcm)) (rms_loop m fuel rb turns it summed count))
    /\ (m = Debug /\ 2 ^ 31 <= count + len pcm -> exists why, rms_loop m fuel rb turns it summed count = Panic why).
  Proof.
    induction pcm as [|x pcm IH]; intros [|turns] it summed count HY Ht Hc; cbn [length] in Ht; try lia; cbn [rms_loop].
    - change (len []) with 0. rewrite Z.add_0_r. split; [|lia]. intros _. apply sounds_nil in HY as (r & it' & -> & Hr).
      rewrite app_nil_r. replace (i32 count) with count by (unfold i32; rewrite Z.mod_small; lia).
      destruct o as [|e|]; [subst r; reflexivity|subst r; cbn; eauto|destruct Hr as [why ->]; cbn; eauto].
    - apply sounds_cons in HY as (it' & -> & HY). cbn [expect of_result obind]. rewrite len_cons. pose proof (len_nonneg pcm) as Hl.
      destruct (Z.eq_dec (count + 1) (2 ^ 31)) as [Hc1|Hc1].
      + destruct m eqn:Em.
        * split; [intros [H|H]; [discriminate|lia]|]. intros _. unfold chk. rewrite Hc1. replace (i32 (2 ^ 31) =? 2 ^ 31) with false by reflexivity. cbn. eauto.
        * split; [|intros [H _]; discriminate]. intros _. unfold chk. destruct (i32 (count + 1) =? count + 1) eqn:Ei; [rewrite Hc1 in Ei; discriminate Ei|].
          cbn [obind]. destruct (IH turns it' (summed ++ [x]) (i32 (count + 1)) HY ltac:(lia) (i32_range _)) as [H _].
          specialize (H (or_introl eq_refl)). rewrite <- app_assoc, i32_add in H. replace (count + (len pcm + 1)) with (count + 1 + len pcm) by lia. exact H.
      + rewrite chk_ok by (unfold i32; rewrite Z.mod_small; lia). cbn [obind].
        destruct (IH turns it' (summed ++ [x]) (count + 1) HY ltac:(lia) ltac:(lia)) as [H1 H2]. rewrite <- app_assoc in H1.
        replace (count + (len pcm + 1)) with (count + 1 + len pcm) by lia. split; [exact H1|exact H2].
  Qed.
  Theorem any_rms turns fs path t l si vc frames o : file_at fs path t l -> (length l + 1 < fuel)%nat ->
    (length (pcm_of frames) < turns)%nat -> file_any_plays m t l si vc frames o ->
    (m = Release \/ len (pcm_of frames) < 2 ^ 31 ->
       ends_or_panics o (pcm_of frames, i32 (len (pcm_of frames))) (doc_rms m un fuel turns fs path))
    /\ (m = Debug /\ 2 ^ 31 <= len (pcm_of frames) -> exists why, doc_rms m un fuel turns fs path = Panic why).
  Proof.
    intros Hat Hf Ht Hp. destruct (any_file_samples m un Hun fuel fs path t l si vc frames o Hat Hf Hp) as (r & it & E & _ & _ & Ei & HY).
    unfold doc_rms. rewrite E. cbn [expect obind]. rewrite Ei. cbn [obind].
    exact (any_rms_loop (br_rb m) o (pcm_of frames) turns it [] 0 HY Ht ltac:(lia)).
  Qed.

  Lemma any_wav_loop {S} (rb : ReadBytes S) o spec pcm : forall turns it acc,
    sounds (fs_next rb m fuel) it pcm o -> (length pcm < turns)%nat ->
    exists r, doc_wav_loop m fuel rb turns it (Some (spec, acc)) = (r, Some (spec, acc ++ pcm)) /\ ends_or_panics o tt r.
  Proof.
    induction pcm as [|x pcm IH]; intros [|turns] it acc HY Ht; cbn [length] in Ht; try lia; cbn [doc_wav_loop].
    - rewrite app_nil_r. apply sounds_nil in HY as (r & it' & E & Hr). unfold bind, call_on. rewrite E.
      destruct o as [|e|]; [subst r|subst r|destruct Hr as [why ->]]; cbn; eexists; (split; [reflexivity|cbn; eauto]).
    - apply sounds_cons in HY as (it' & E & HY). unfold bind at 1. unfold call_on. rewrite E.
      destruct (IH turns it' (acc ++ [x]) HY ltac:(lia)) as (r & Er & Hr). rewrite <- app_assoc in Er. exists r. split; [exact Er|exact Hr].
  Qed.
  Theorem any_wav turns fs path t l si vc frames o : file_at fs path t l -> (length l + 1 < fuel)%nat ->
    (length (pcm_of frames) < turns)%nat -> file_any_plays m t l si vc frames o ->
    exists r, doc_wav m un fuel turns fs path None = (r, audio si (pcm_of frames)) /\ ends_or_panics o tt r.
  Proof.
    intros Hat Hf Ht Hp. destruct (any_file_samples m un Hun fuel fs path t l si vc frames o Hat Hf Hp) as (r & it & E & Es & _ & Ei & HY).
    destruct Hp as (w & rest & _ & Hw & _). rewrite <- (audio_spec si (info_spec _ _ _ Hw)).
    unfold doc_wav, bind, lift. rewrite E. cbn [expect wav_create put]. rewrite Ei, Es.
    exact (any_wav_loop (br_rb m) o (spec_of si) (pcm_of frames) turns it [] HY Ht).
  Qed.
End Doc.

(** * A file in memory *)

Lemma any_samples_range m f w : any_frame m f w -> 1 <= frame_samples f <= 524280.
Proof.
  intros H. apply any_frame_header in H as (hw & body & Hh & _). destruct (header_decent _ _ Hh) as (Hs & Ha & _).
  apply assignment_range in Ha. unfold frame_samples. nia.
Qed.
Lemma any_frames_short m frames ws : Forall2 (any_frame m) frames ws -> len frames <= len (concat ws).
Proof.
  induction 1 as [|f w frames ws Hw HF IH]; [cbn; lia|]. cbn [concat]. rewrite len_cons, len_app.
  apply any_frame_long in Hw. unfold len in *. lia.
Qed.
Lemma any_measured_positive m frames ws clock : Forall2 (any_frame m) frames ws ->
  forall i, Forall ProofBench.positive (measured clock i frames) /\ length (measured clock i frames) = length frames.
Proof.
  intros HF. induction HF as [|f w frames ws Hw HF IH]; intros i; [split; [constructor|reflexivity]|]. cbn [measured length].
  destruct (IH (Datatypes.S i)) as [H1 H2]. split; [|lia]. constructor; [|exact H1]. unfold ProofBench.positive. cbn [snd].
  apply any_samples_range in Hw. lia.
Qed.

Section Memory.
  Context (m : build) (un : nat -> list Z) (Hun : forall n, length (un n) = n) (fuel : nat).

  Lemma any_bench_loop {S} (rb : ReadBytes S) clock o last s' : clock_ok clock -> ending_outcome o last ->
    forall buffer s bs, blocks_read rb m fuel buffer s bs last s' ->
    forall frames, Forall2 (fun b f => block_shows b (fst f) (snd f) /\ block_holds b (snd f)) bs frames ->
    forall turns i times, (length frames < turns)%nat ->
    ends_or_panics o (times ++ measured clock i frames, Datatypes.S (i + length frames))
      (bench_loop m fuel rb turns clock (Datatypes.S i) buffer (clock i) times s).
  Proof.
    intros Hc Ho buffer s bs HR. revert Ho. induction HR as [buffer s last s' E Hl|buffer s b s1 bs last s' E HR IH]; intros Ho frames HF turns i times Ht;
      inversion HF as [|? f ? frames' [Hb Hh] HF']; subst; (destruct turns as [|turns]; [cbn in Ht; lia|]); cbn [bench_loop]; rewrite E.
    - destruct o as [|e|]; cbn in Ho; [subst last|subst last; cbn; eauto|destruct Ho as [why ->]; cbn; eauto].
      cbn [measured length ends_or_panics]. rewrite app_nil_r, Nat.add_0_r. reflexivity.
    - cbn [length] in Ht. specialize (IH Ho frames' HF' turns (Datatypes.S i) (times ++ [(clock (Datatypes.S i) - clock i, frame_samples f)]) ltac:(lia)).
      assert (nanoseconds (clock i) (clock (Datatypes.S i)) = Ok (clock (Datatypes.S i) - clock i)) as ->.
      { unfold nanoseconds. specialize (Hc i (Datatypes.S i)). unfold i64. rewrite Z.mod_small by lia.
        replace (_ =? _) with true by lia. reflexivity. }
      cbn [obind]. destruct (shows_samples m b f Hb Hh) as [-> _]. cbn [obind].
      rewrite <- app_assoc in IH. cbn [measured length app] in *. rewrite Nat.add_succ_comm in IH. exact IH.
  Qed.

  Theorem any_decode_file turns clock data w rest si vc frames o : bytes_ok data -> (length data + 1 < fuel)%nat -> (length frames < turns)%nat ->
    data = w ++ rest -> well_formed si vc w -> any_plays m TEof rest frames o -> len data < 2 ^ 63 -> clock_ok clock ->
    match o, si_samples si with
    | AtEnd, Some n => exists st, bench_decode_file m un fuel turns clock data = Ok st
        /\ st_data_bytes st = Z.max 0 (len data - 2048 * ((len w + 2047) / 2048))
        /\ st_num_samples st = n * si_channels si
        /\ st_total_ns st = clock (Datatypes.S (length frames)) - clock O
        /\ st_sample_times st = measured clock O frames
    | _, _ => exists why, bench_decode_file m un fuel turns clock data = Panic why
    end.
  Proof.
    intros Hb Hf Ht El Hw Hp Hlen Hc. destruct (memory_opens m un Hun fuel data w rest si vc Hb ltac:(lia) El Hw) as (r & inp & E & Es & Ei & HD & Hpos).
    destruct Hp as (ws & x & Ex & HF & Hs). rewrite Ex in HD.
    assert (length (concat ws ++ x) < fuel)%nat as Hl by (rewrite <- Ex; rewrite El, app_length in Hf; lia).
    destruct (any_blocks (br_rb m) TEof (buffered TEof) (br_stream m TEof) m fuel frames ws HF (buffer_for si) inp x o Hs HD Hl ltac:(lia)) as (bs & last & s' & HR & Ho & HB).
    unfold bench_decode_file. rewrite E. cbn [expect obind]. rewrite Hpos.
    pose proof (len_nonneg w) as Hlw. pose proof (len_nonneg data) as Hld.
    assert (0 <= 2048 * ((len w + 2047) / 2048)) as Hm0 by (apply Z.mul_nonneg_nonneg; [lia|apply Z.div_pos; lia]).
    rewrite chk_u64 by lia. cbn [obind]. rewrite Es. pose proof (info_spec _ _ _ Hw) as Hsi.
    destruct (si_samples si) as [n|] eqn:En; [|destruct o; cbn; eauto]. cbn [expect_some obind].
    assert (0 <= n < 2 ^ 36 /\ 1 <= si_channels si <= 8 /\ 1 <= si_bits_per_sample si <= 32) as (Hn & Hch & Hbps).
    { destruct Hsi as (_ & _ & _ & _ & _ & H1 & H2 & H3 & _). rewrite En in H3. cbn in H3. lia. }
    assert (i64 n = n) as -> by (unfold i64; rewrite Z.mod_small; lia).
    rewrite chk_i64 by nia. cbn [obind].
    replace (si_bits_per_sample si <? 8 * 16) with true by lia. cbn [negb]. unfold fr_blocks. rewrite Ei. cbn [obind].
    pose proof (any_bench_loop (br_rb m) clock o last s' Hc Ho _ _ _ HR frames HB turns O [] Ht) as HL.
    destruct o as [|e|]; cbn [ends_or_panics] in HL.
    - rewrite HL. cbn [obind app]. replace (nanoseconds _ _) with (Ok (clock (Datatypes.S (0 + length frames)) - clock O)).
      2:{ unfold nanoseconds. specialize (Hc O (Datatypes.S (0 + length frames))). unfold i64. rewrite Z.mod_small by lia.
        replace (_ =? _) with true by lia. reflexivity. }
      eexists. split; [reflexivity|]. cbn. repeat split. lia.
    - destruct HL as (why & ->). cbn. eauto.
    - destruct HL as (why & ->). cbn. eauto.
  Qed.

  Theorem any_runs turns data w rest si vc frames n : bytes_ok data -> (length data + 1 < fuel)%nat -> (length frames < turns)%nat ->
    data = w ++ rest -> well_formed si vc w -> any_plays m TEof rest frames AtEnd -> len data < 2 ^ 56 -> si_samples si = Some n ->
    forall clocks, Forall clock_ok clocks ->
    match frames with
    | [] => clocks <> [] -> exists why, bench_runs m un fuel turns clocks data = Panic why
    | _ => exists rs, bench_runs m un fuel turns clocks data = Ok rs
        /\ Forall2 (fun clock r => bench_decode_file m un fuel turns clock data = Ok (fst r)
                                   /\ print_stats m (measured clock O frames) = Ok (snd r)
                                   /\ are_percentiles (measured clock O frames) (snd r)) clocks rs
    end.
  Proof.
    intros Hb Hf Ht El Hw Hp Hlen En clocks HC.
    assert (forall clock, clock_ok clock -> exists st, bench_decode_file m un fuel turns clock data = Ok st
        /\ st_sample_times st = measured clock O frames) as Hrun.
    { intros clock Hc. pose proof (any_decode_file turns clock data w rest si vc frames AtEnd Hb Hf Ht El Hw Hp ltac:(lia) Hc) as H.
      cbv beta iota in H. rewrite En in H. destruct H as (st & E & _ & _ & _ & Est). eauto. }
    destruct Hp as (ws & x & Ex & HF & _).
    assert (frames <> [] -> forall clock, exists p, print_stats m (measured clock O frames) = Ok p /\ are_percentiles (measured clock O frames) p) as Hps.
    { intros Hne clock. destruct (any_measured_positive m frames ws clock HF O) as [HP HL]. pose proof (any_frames_short m frames ws HF) as Hs.
      pose proof (percentiles_ok m (measured clock O frames) HP) as H.
      assert (len (measured clock O frames) < 2 ^ 56) as Hl.
      { unfold len at 1. rewrite HL. fold (len frames). subst data rest. rewrite !len_app in Hlen. pose proof (len_nonneg w). pose proof (len_nonneg x). lia. }
      specialize (H Hl). destruct (measured clock O frames) as [|y l] eqn:Em; [destruct frames; [congruence|discriminate Em]|].
      destruct H as (p10 & p50 & p90 & E & Hr). exists (p10, p50, p90). split; [exact E|exact Hr]. }
    destruct frames as [|f frames'] eqn:Ef.
    - intros Hne. destruct clocks as [|clock clocks]; [congruence|]. apply Forall_inv in HC. cbn [bench_runs].
      destruct (Hrun clock HC) as (st & -> & Est). cbn [obind]. rewrite Est. cbn. eauto.
    - rewrite <- Ef in *. assert (frames <> []) as Hne by (rewrite Ef; discriminate). clear Ef f frames'.
      induction HC as [|clock clocks Hc HC IH]; [exists []; split; [reflexivity|constructor]|]. cbn [bench_runs].
      destruct (Hrun clock Hc) as (st & E & Est), (Hps Hne clock) as (p & Ep & Hpp), IH as (rs & Er & HR).
      rewrite E. cbn [obind]. rewrite Est, Ep. cbn [obind]. rewrite Er. cbn [obind]. eexists. split; [reflexivity|].
      constructor; [|exact HR]. auto.
  Qed.

  Theorem any_main turns fs path others t data si n w frames clock : file_at fs path t data -> (length data + 1 < fuel)%nat ->
    len data < Z.of_nat turns -> len data < 2 ^ 56 -> (forall run, clock_ok (clock run)) -> any_measurable m t data si n w frames ->
    exists rs, bench_decode_main m un fuel turns fs clock (path :: others) = Ok rs /\ length rs = 5%nat
      /\ forall run st p, nth_error rs run = Some (st, p) ->
           st_data_bytes st = Z.max 0 (len data - 2048 * ((len w + 2047) / 2048))
           /\ st_num_samples st = n * si_channels si
           /\ st_total_ns st = clock run (Datatypes.S (length frames)) - clock run O
           /\ st_sample_times st = measured (clock run) O frames
           /\ are_percentiles (measured (clock run) O frames) p.
  Proof.
    intros Hat Hf Ht Hl Hc (-> & (vc & rest & El & Hw & Hp) & Hn & Hne). pose proof (file_delivers _ _ _ _ Hat) as Hb.
    destruct Hat as (script & Efs & Hd). unfold bench_decode_main. cbn [nth_error expect_some obind]. unfold read_file.
    rewrite Efs, (read_all un Hun fuel TEof script data Hd). cbn [expect obind].
    pose proof Hp as (ws & x & Er & HF & _).
    assert (length frames < turns)%nat as Hlf.
    { pose proof (any_frames_short m _ _ HF) as HLs. unfold len in *. subst data rest. rewrite !app_length in Ht. lia. }
    pose proof (any_runs turns data w rest si vc frames n Hb Hf Hlf El Hw Hp Hl Hn (map clock (seq 0 5))) as H.
    destruct frames as [|f0 frames0] eqn:Ef; [congruence|]. rewrite <- Ef in *. clear f0 frames0 Ef.
    destruct H as (rs & E & HR). { apply Forall_map, Forall_forall. intros; apply Hc. }
    exists rs. split; [exact E|]. split; [rewrite <- (Forall2_len _ _ _ HR); reflexivity|].
    intros run st p En. assert (run < 5)%nat as Hr.
    { apply Forall2_len in HR. change (length (map clock (seq 0 5))) with 5%nat in HR. rewrite HR. apply nth_error_Some. congruence. }
    assert (exists c, nth_error (map clock (seq 0 5)) run = Some c /\ c = clock run) as (c & Ec & ->).
    { do 5 (destruct run as [|run]; [eexists; split; reflexivity|]). lia. }
    assert (forall A B (P : A -> B -> Prop) l l' i a b, Forall2 P l l' -> nth_error l i = Some a -> nth_error l' i = Some b -> P a b) as F2.
    { clear. intros A B P l l' i a b H. revert i. induction H; intros [|i] Ha Hb; try discriminate; cbn in *; [congruence|eauto]. }
    destruct (F2 _ _ _ _ _ _ _ _ HR Ec En) as (E1 & _ & E2). cbn [fst snd] in *.
    pose proof (any_decode_file turns (clock run) data w rest si vc frames AtEnd Hb Hf Hlf El Hw Hp ltac:(lia) (Hc run)) as HD.
    rewrite Hn in HD. destruct HD as (st' & Es & D1 & D2 & D3 & D4). rewrite E1 in Es. injection Es as <-. auto.
  Qed.
  Theorem any_main_panics turns fs path others t data clock : file_at fs path t data -> (length data + 1 < fuel)%nat ->
    len data < Z.of_nat turns -> len data < 2 ^ 56 -> (forall run, clock_ok (clock run)) ->
    (forall si n w frames, ~ any_measurable m t data si n w frames) ->
    exists why, bench_decode_main m un fuel turns fs clock (path :: others) = Panic why.
  Proof.
    intros Hat Hf Ht Hl Hc Hn. pose proof (file_delivers _ _ _ _ Hat) as Hb.
    destruct (path_fails m un Hun fuel fs path t data Hat ltac:(lia)) as [(si & vc & w & rest & El & Hw)|(e & E & Hu)];
    destruct Hat as (script & Efs & Hd); unfold bench_decode_main; cbn [nth_error expect_some obind]; unfold read_file;
      rewrite Efs, (read_all un Hun fuel t script data Hd); (destruct t as [|k]; [|cbn; eauto]); cbn [expect obind].
    - assert (bytes_ok rest) as Hbr by (rewrite El in Hb; apply app_bytes in Hb; apply Hb).
      destruct (any_exist m TEof rest Hbr) as (frames & o & Hp).
      assert (length frames < turns)%nat as Hlf.
      { destruct Hp as (ws & x & Er & HF & _). pose proof (any_frames_short m _ _ HF) as HLs. unfold len in *. subst data rest. rewrite !app_length in Ht. lia. }
      pose proof (any_decode_file turns (clock 0%nat) data w rest si vc frames o Hb Hf Hlf El Hw Hp ltac:(lia) (Hc 0%nat)) as HD.
      destruct o as [|e|]; [|destruct HD as [why E]; cbn [map seq bench_runs]; rewrite E; cbn; eauto..].
      destruct (si_samples si) as [n|] eqn:En.
      2:{ destruct HD as [why E]. cbn [map seq bench_runs]. rewrite E. cbn. eauto. }
      pose proof (any_runs turns data w rest si vc frames n Hb Hf Hlf El Hw Hp Hl En (map clock (seq 0 5))) as H.
      destruct frames as [|f frames].
      + apply H; [apply Forall_map, Forall_forall; intros; apply Hc|discriminate].
      + exfalso. apply (Hn si n w (f :: frames)). split; [reflexivity|]. split; [exists vc, rest; auto|]. split; [exact En|discriminate].
    - destruct (decode_file_unopened m un Hun fuel turns (clock 0%nat) data Hb ltac:(lia)) as [why Ew].
      + intros si vc w rest -> Hw. exact (unopened_or_formed TEof e si vc w rest Hb Hu Hw).
      + cbn [map seq bench_runs]. rewrite Ew. cbn. eauto.
  Qed.
End Memory.

(** * The benchmark *)

Section Over.
  Context (m : build) (un : nat -> list Z) (Hun : forall n, length (un n) = n) (fuel : nat).
  Context (data w rest : list Z) (si : stream_info) (vc : option vorbis_comment) (frames : list (header * list (list Z))) (o : ending).
  Context (Hb : bytes_ok data) (Hf : (length data + 1 < fuel)%nat) (El : data = w ++ rest) (Hw : well_formed si vc w)
    (Hp : any_plays m TEof rest frames o).

  Lemma any_step_frame f fw more s inp : fr_input (bench_reader s) = Full inp -> any_frame m f fw -> buffered TEof inp (fw ++ more) ->
    (length (fw ++ more) < fuel)%nat -> 0 <= bench_iterations s < 2 ^ 64 - 1 ->
    exists inp' buffer', buffered TEof inp' more
      /\ bench_iter m un fuel data (si_bits_per_sample si) s
         = (bytes <~ chk m u32 (bench_bytes s + frame_samples f * (si_bits_per_sample si / 8)) ;;
            Ok (mkBench (give_back (bench_reader s) inp') buffer' bytes (bench_iterations s + 1))).
  Proof.
    intros Ei Hfw HD Hl Hi.
    destruct (any_decoded (br_rb m) TEof (buffered TEof) (br_stream m TEof) m fuel (bench_buffer s) inp f fw more Hfw HD Hl) as (b & inp' & E & Hs & Hh & HD').
    exists inp', (block_into_buffer b). split; [exact HD'|]. unfold bench_iter, fr_blocks. rewrite Ei. cbn [obind]. rewrite E.
    destruct (shows_samples m b f Hs Hh) as [-> Hn]. cbn [obind].
    pose proof (info_spec _ _ _ Hw) as (_ & _ & _ & _ & _ & _ & Hbps & _).
    assert (0 <= si_bits_per_sample si / 8 <= 4) as Hk by (split; [apply Z.div_pos; lia|apply (Z.div_le_mono _ 32 8); lia]).
    rewrite chk_u32 by nia. cbn [obind]. destruct (chk m u32 (bench_bytes s + _)) as [bytes| | | |]; cbn [obind]; try reflexivity.
    rewrite chk_u64 by lia. reflexivity.
  Qed.

  (** Turns: [ahead] first, then again and again, if the file ends; or no more than [ahead]. *)
  Lemma any_iters_run ws x : rest = concat ws ++ x -> Forall2 (any_frame m) frames ws -> any_stop TEof m x o ->
    forall n ahead lws s inp, Forall2 (any_frame m) ahead lws -> (length (concat lws ++ x) < fuel)%nat ->
    o = AtEnd \/ (n <= length ahead)%nat ->
    fr_input (bench_reader s) = Full inp -> buffered TEof inp (concat lws ++ x) ->
    0 <= bench_bytes s < 2 ^ 32 -> 0 <= bench_iterations s -> bench_iterations s + Z.of_nat n < 2 ^ 64 ->
    let total := bench_bytes s + samples_read (turns_from frames ahead n) * (si_bits_per_sample si / 8) in
    if match m with Release => true | Debug => total <? 2 ^ 32 end
    then exists s', bench_iters m un fuel n data (si_bits_per_sample si) s = Ok s' /\ bench_bytes s' = u32 total
           /\ bench_iterations s' = bench_iterations s + frames_read (turns_from frames ahead n)
    else exists why, bench_iters m un fuel n data (si_bits_per_sample si) s = Panic why.
  Proof.
    intros Ex HF Hs. destruct (memory_opens m un Hun fuel data w rest si vc Hb ltac:(lia) El Hw) as (r & inp0 & Er & _ & Er1 & HD0 & _).
    pose proof (info_spec _ _ _ Hw) as (_ & _ & _ & _ & _ & _ & Hbps & _).
    assert (0 <= si_bits_per_sample si / 8) as Hk by (apply Z.div_pos; lia).
    assert (forall ahead lws, Forall2 (any_frame m) ahead lws -> forall f, In f ahead -> 1 <= frame_samples f) as Hpos.
    { clear. intros ahead lws HF. induction HF as [|f w ahead ws Hw HF IH]; intros g Hg; [destruct Hg|destruct Hg as [<-|Hg]; [|exact (IH g Hg)]].
      apply any_samples_range in Hw. lia. }
    induction n as [|n IH]; intros ahead lws s inp HL Hl Hn Ei HD Hbytes Hi0 Hi; cbv zeta.
    - cbn [turns_from samples_read frames_read bench_iters]. rewrite Z.mul_0_l, Z.add_0_r.
      replace (match m with Debug => bench_bytes s <? 2 ^ 32 | Release => true end) with true by (destruct m; lia).
      exists s. split; [reflexivity|]. split; [|lia]. unfold u32. rewrite Z.mod_small; lia.
    - cbn [bench_iters]. inversion HL as [|f fw ahead' lws' Hfw HL']; subst ahead lws.
      + cbn [turns_from samples_read frames_read]. cbn [concat app] in *.
        destruct Hn as [Eo|Hn]; [|cbn in Hn; lia].
        assert (bench_iter m un fuel data (si_bits_per_sample si) s = Ok (mkBench r (mkVec [] 0) (bench_bytes s) (bench_iterations s))) as ->.
        { pose proof (any_next (br_rb m) TEof (buffered TEof) (br_stream m TEof) m fuel (bench_buffer s) inp x o Hs HD Hl ltac:(lia)) as E.
          rewrite Eo in E. cbn in E. unfold bench_iter, fr_blocks. rewrite Ei. cbn [obind].
          destruct (read_next_or_eof (br_rb m) m fuel (bench_buffer s) inp) as [r' s']. cbn [fst] in E. subst r'. rewrite Er. reflexivity. }
        cbn [obind].
        assert (length (concat ws ++ x) < fuel)%nat as Hl0 by (rewrite <- Ex; rewrite El, app_length in Hf; lia).
        rewrite Ex in HD0. exact (IH frames ws (mkBench r (mkVec [] 0) (bench_bytes s) (bench_iterations s)) inp0 HF Hl0 (or_introl Eo) Er1 HD0 Hbytes Hi0 ltac:(cbn [bench_iterations]; lia)).
      + cbn [concat] in HD, Hl. rewrite <- app_assoc in HD, Hl.
        assert (o = AtEnd \/ (n <= length ahead')%nat) as Hn' by (destruct Hn as [Hn|Hn]; [auto|cbn [length] in Hn; right; lia]).
        destruct (any_step_frame f fw _ s inp Ei Hfw HD Hl ltac:(lia)) as (inp' & buffer' & HD' & ->). cbn [turns_from samples_read frames_read].
        set (k := si_bits_per_sample si / 8) in *. set (add := frame_samples f * k).
        assert (0 <= samples_read (turns_from frames ahead' n) * k) as Hrest.
        { apply (samples_read_nonneg un Hun fuel data Hf k); [|exact Hk]. intros g Hg. apply (turns_in data frames None (or_introl eq_refl)) in Hg.
          destruct Hg as [Hg|Hg]; [pose proof (Hpos _ _ HL' g Hg)|pose proof (Hpos _ _ HF g Hg)]; lia. }
        assert (0 <= add) as Hadd by (apply any_samples_range in Hfw; subst add; nia).
        assert (length (concat lws' ++ x) < fuel)%nat as Hl' by (rewrite app_length in Hl; lia).
        rewrite Z.mul_add_distr_r. fold add.
        destruct (Z.lt_ge_cases (bench_bytes s + add) (2 ^ 32)) as [Hlt|Hge].
        * rewrite chk_u32 by lia. cbn [obind].
          specialize (IH ahead' lws' (mkBench (give_back (bench_reader s) inp') buffer' (bench_bytes s + add) (bench_iterations s + 1)) inp' HL' Hl' Hn' eq_refl HD'
            ltac:(cbn [bench_bytes]; lia) ltac:(cbn [bench_iterations]; lia) ltac:(cbn [bench_iterations]; lia)).
          cbv zeta in IH. cbn [bench_bytes bench_iterations] in IH. rewrite <- !Z.add_assoc in IH. exact IH.
        * unfold chk. assert (u32 (bench_bytes s + add) <> bench_bytes s + add) as Hne.
          { unfold u32. pose proof (Z.mod_pos_bound (bench_bytes s + add) (2 ^ 32) ltac:(lia)). lia. }
          replace (u32 (bench_bytes s + add) =? bench_bytes s + add) with false by lia.
          destruct m eqn:Em.
          -- replace (_ <? _) with false by lia. cbn. eauto.
          -- cbn [obind].
             specialize (IH ahead' lws' (mkBench (give_back (bench_reader s) inp') buffer' (u32 (bench_bytes s + add)) (bench_iterations s + 1)) inp' HL' Hl' Hn' eq_refl HD'
               ltac:(cbn [bench_bytes]; unfold u32; apply Z.mod_pos_bound; lia) ltac:(cbn [bench_iterations]; lia) ltac:(cbn [bench_iterations]; lia)).
             cbv zeta in IH. cbn [bench_bytes bench_iterations] in IH. rewrite (wraps_add un Hun fuel data Hf), <- !Z.add_assoc in IH. exact IH.
  Qed.

  Theorem any_over n : o = AtEnd \/ (n <= length frames)%nat -> Z.of_nat n < 2 ^ 64 ->
    let total := samples_read (over_and_over frames n) * (si_bits_per_sample si / 8) in
    let reads := frames_read (over_and_over frames n) in
    (m = Release \/ total < 2 ^ 32 -> 0 < reads -> bench_decode m un fuel n data = Ok (total mod 2 ^ 32 / reads))
    /\ (reads = 0 \/ (m = Debug /\ 2 ^ 32 <= total) -> exists why, bench_decode m un fuel n data = Panic why).
  Proof.
    intros Ho Hn. cbv zeta. destruct (bench_opens m un Hun fuel data w rest si vc Hb Hf El Hw n) as (r & inp & -> & Ei & HD).
    destruct Hp as (ws & x & Ex & HF & Hs). rewrite Ex in HD.
    assert (length (concat ws ++ x) < fuel)%nat as Hl by (rewrite <- Ex; rewrite El, app_length in Hf; lia).
    pose proof (any_iters_run ws x Ex HF Hs n frames ws (mkBench r (mkVec [] 0) 0 0) inp HF Hl Ho Ei HD ltac:(cbn; lia) ltac:(cbn; lia) ltac:(cbn; lia)) as H.
    cbv zeta in H. rewrite (turns_all un Hun fuel data frames Hf) in H. cbn [bench_bytes bench_iterations] in H. rewrite !Z.add_0_l in H. change (_ mod 2 ^ 32) with (u32 (samples_read (over_and_over frames n) * (si_bits_per_sample si / 8))).
    set (total := samples_read _ * _) in *. set (reads := frames_read _) in *. clearbody total reads. split.
    - intros Hm Hr. replace (match m with Debug => total <? 2 ^ 32 | Release => true end) with true in H by (destruct m, Hm; try discriminate; lia).
      destruct H as (s' & -> & E1 & E2). cbn [obind]. rewrite E1, E2. replace (reads =? 0) with false by lia. reflexivity.
    - intros Hr. destruct (match m with Debug => total <? 2 ^ 32 | Release => true end) eqn:Eb.
      + destruct H as (s' & -> & E1 & E2). cbn [obind]. destruct Hr as [Hr|[Hm Hr]]; [|rewrite Hm in Eb; lia].
        rewrite E2, Hr. cbn. eauto.
      + destruct H as (why & ->). cbn. eauto.
  Qed.

  Lemma any_iters_stop x : o <> AtEnd -> any_stop TEof m x o ->
    forall ahead lws, Forall2 (any_frame m) ahead lws ->
    forall n s inp, (length ahead < n)%nat -> (length (concat lws ++ x) < fuel)%nat ->
    fr_input (bench_reader s) = Full inp -> buffered TEof inp (concat lws ++ x) ->
    0 <= bench_iterations s -> bench_iterations s + Z.of_nat n < 2 ^ 64 ->
    exists why, bench_iters m un fuel n data (si_bits_per_sample si) s = Panic why.
  Proof.
    intros Eo Hs ahead lws HL. induction HL as [|f fw ahead lws Hfw HL IH]; intros [|n] s inp Hn Hl Ei HD Hi0 Hi; cbn [length] in Hn; try lia; cbn [bench_iters].
    - cbn [concat app] in *.
      pose proof (any_next (br_rb m) TEof (buffered TEof) (br_stream m TEof) m fuel (bench_buffer s) inp x o Hs HD Hl ltac:(lia)) as E.
      unfold bench_iter, fr_blocks. rewrite Ei. cbn [obind].
      destruct (read_next_or_eof (br_rb m) m fuel (bench_buffer s) inp) as [r' s']. cbn [fst] in E.
      destruct o as [|e|]; cbn in E; [congruence|subst r'; cbn; eauto|destruct E as [why ->]; cbn; eauto].
    - cbn [concat] in HD, Hl. rewrite <- app_assoc in HD, Hl.
      destruct (any_step_frame f fw _ s inp Ei Hfw HD Hl ltac:(lia)) as (inp' & buffer' & HD' & ->).
      unfold chk. destruct (_ =? _); [|destruct m eqn:Em; [cbn; eauto|]]; cbn [obind];
        (apply (IH n _ inp'); cbn [bench_reader bench_iterations give_back fr_input]; auto; try lia; rewrite app_length in Hl; lia).
  Qed.
  Theorem any_over_stop n : o <> AtEnd -> Z.of_nat n < 2 ^ 64 -> (length frames < n)%nat ->
    exists why, bench_decode m un fuel n data = Panic why.
  Proof.
    intros Eo Hn Hlen. destruct (bench_opens m un Hun fuel data w rest si vc Hb Hf El Hw n) as (r & inp & -> & Ei & HD).
    destruct Hp as (ws & x & Ex & HF & Hs). rewrite Ex in HD.
    assert (length (concat ws ++ x) < fuel)%nat as Hl by (rewrite <- Ex; rewrite El, app_length in Hf; lia).
    destruct (any_iters_stop x Eo Hs frames ws HF n (mkBench r (mkVec [] 0) 0 0) inp Hlen Hl Ei HD ltac:(cbn; lia) ltac:(cbn; lia)) as (why & ->).
    cbn. eauto.
  Qed.
End Over.

(** * Comparing *)

Section Compare.
  Context (m : build) (un : nat -> list Z) (Hun : forall n, length (un n) = n) (fuel : nat).

  Lemma any_compare_runs {S} (rb : ReadBytes S) t D (HS : stream rb t D) samples n o rest :
    any_stop t m rest o -> (1 < fuel)%nat -> samples < 2 ^ 36 -> 0 <= n ->
    forall frames ws, Forall2 (any_frame m) frames ws ->
    forall turns refs sample b buffer s, D s (concat ws ++ rest) -> (length (concat ws ++ rest) < fuel)%nat ->
    (length frames < turns)%nat -> 0 <= b <= sample ->
    (exists first more, reaches (samples - sample) frames first
       /\ Forall (fun f => n <= channel_count (h_assignment (fst f))) first
       /\ refs = pcm_channels n first ++ more
       /\ compare_loop m fuel rb turns samples n refs sample b buffer s = Ok tt)
    \/ ((forall first more, reaches (samples - sample) frames first ->
           Forall (fun f => n <= channel_count (h_assignment (fst f))) first -> refs <> pcm_channels n first ++ more)
        /\ exists why, compare_loop m fuel rb turns samples n refs sample b buffer s = Panic why).
  Proof.
    intros Hs H1 Hsam Hn frames ws HF. induction HF as [|[h chs] w frames ws Hw HF IH]; intros [|turns] refs sample b buffer s HD Hf Ht Hb;
      cbn [length] in Ht; try lia; cbn [compare_loop concat app] in *.
    - destruct (Z.ltb_spec sample samples) as [L|L].
      + right. split; [intros first more Hc; inversion Hc; lia|].
        pose proof (any_next rb t D HS m fuel buffer s rest o Hs HD Hf H1) as E.
        destruct (read_next_or_eof rb m fuel buffer s) as [r s']. cbn [fst] in E.
        destruct o as [|e|]; cbn in E; [subst r|subst r|destruct E as [why ->]]; cbn; eauto.
      + left. exists [], refs. split; [constructor; lia|]. repeat split. constructor.
    - destruct (Z.ltb_spec sample samples) as [L|L]; [|left; exists [], refs; split; [constructor; lia|]; repeat split; constructor].
      rewrite <- app_assoc in *.
      destruct (any_decoded rb t D HS m fuel buffer s (h, chs) w _ Hw HD Hf) as (b' & s1 & E & Hb' & Hh & HD'). cbn [fst snd] in *.
      rewrite E. cbn [expect obind expect_some].
      assert (block_duration b' = h_size h /\ len chs = channel_count (h_assignment h) /\ Forall (fun c => len c = h_size h) chs) as (Ed & El & Hlen) by (split; [|split]; apply Hb').
      assert (1 <= block_duration b' <= 65535) as Hd by apply Hh.
      destruct (Z.leb_spec n (len chs)) as [Hc|Hc].
      + rewrite (collect_ok b' chs Hh (Z.to_nat n) 0) by (unfold len in Hc; lia). cbn [obind skipn].
        destruct (points_ok (Z.to_nat (h_size h)) (firstn (Z.to_nat n) chs) refs) as [(more & -> & Ep)|(Hne & why & Ep)].
        { apply Forall_forall. intros c Hin. rewrite <- (firstn_skipn (Z.to_nat n) chs) in Hlen. apply Forall_app in Hlen as [Hlen _]. rewrite Forall_forall in Hlen. specialize (Hlen c Hin). unfold len in Hlen. lia. }
        * rewrite Ed, Ep. cbn [obind]. rewrite !chk_u64 by lia. cbn [obind].
          destruct (IH turns more (sample + h_size h) (b + 1) (block_into_buffer b') s1 HD' ltac:(rewrite app_length in Hf; lia) ltac:(lia) ltac:(lia)) as [(first & more' & Hcov & Hall & -> & El')|(Hne & why & El')].
          -- left. exists ((h, chs) :: first), more'. split; [constructor; [lia|]; cbn [fst]; replace (samples - sample - h_size h) with (samples - (sample + h_size h)) by lia; exact Hcov|].
             split; [constructor; [cbn [fst]; lia|exact Hall]|]. split; [cbn [pcm_channels flat_map fst snd]; rewrite <- app_assoc; reflexivity|exact El'].
          -- right. split; [|cbn [obind fst snd]; eauto]. intros first more' Hcov Hall Er. inversion Hcov as [|? ? ? first' Hpos Hcov']; subst; [lia|].
             inversion Hall; subst. cbn [pcm_channels flat_map fst snd] in *. rewrite <- app_assoc in Er. apply app_inv_head in Er.
             replace (samples - sample - h_size h) with (samples - (sample + h_size h)) in Hcov' by lia. exact (Hne first' more' Hcov' ltac:(assumption) Er).
        * rewrite Ed, Ep. cbn [obind]. right. split; [|cbn [obind fst snd]; eauto]. intros first more' Hcov Hall. inversion Hcov as [|? ? ? first' Hpos Hcov']; subst; [lia|]. intros Er.
          cbn [pcm_channels flat_map fst snd] in Er. rewrite <- app_assoc in Er. exact (Hne _ Er).
      + destruct (collect_fails b' chs Hh (Z.to_nat n) 0) as (why & ->); [lia|unfold len in Hc; lia|]. right. split; [|cbn; eauto].
        intros first more' Hcov Hall _. inversion Hcov as [|? ? ? first' Hpos Hcov']; subst; [lia|]. inversion Hall; subst. cbn [fst] in *. lia.
  Qed.

  Theorem any_compare_file turns fs path t l si vc frames o refs : file_at fs path t l -> (length l + 1 < fuel)%nat -> (length frames < turns)%nat ->
    file_any_plays m t l si vc frames o ->
    (agrees si frames refs /\ compare_decoded_stream m un fuel turns fs path refs = Ok tt)
    \/ (~ agrees si frames refs /\ exists why, compare_decoded_stream m un fuel turns fs path refs = Panic why).
  Proof.
    intros Hat Hf Ht (w & rest & -> & Hw & ws & x & -> & HF & Hs).
    destruct (path_opens m un Hun fuel fs path t w _ si vc Hat ltac:(lia) Hw) as (r & inp & E & <- & _ & Eb & _ & HD).
    unfold compare_decoded_stream. rewrite E. cbn [expect obind]. pose proof (info_spec _ _ _ Hw) as Hfit.
    destruct (si_samples (fr_get_streaminfo r)) as [samples|] eqn:Es; cbn [expect_some obind].
    - rewrite Eb. cbn [obind].
      assert (samples < 2 ^ 36 /\ 0 <= si_channels (fr_get_streaminfo r)) as [Hsam Hch].
      { unfold streaminfo_fits in Hfit. rewrite Es in Hfit. cbn [known_ok] in Hfit. lia. }
      destruct (any_compare_runs (br_rb m) t (buffered t) (br_stream m t) samples (si_channels (fr_get_streaminfo r)) o x) with (frames := frames) (ws := ws) (turns := turns) (refs := refs) (sample := 0) (b := 0) (buffer := mkVec [] 0) (s := inp)
        as [(first & more & Hcov & Hall & Er & El)|(Hne & why & El)]; auto; try lia.
      + rewrite app_length in Hf. lia.
      + left. split; [|exact El]. exists samples, first, more. rewrite Z.sub_0_r in Hcov. auto.
      + right. split; [|cbn [obind fst snd]; eauto]. intros (samples' & first & more & Es' & Hcov & Hall & Er). rewrite Es in Es'. injection Es' as <-.
        rewrite Z.sub_0_r in Hne. exact (Hne first more Hcov Hall Er).
    - right. split; [|cbn [obind fst snd]; eauto]. intros (samples' & _ & _ & Es' & _). congruence.
  Qed.

  Theorem any_file_unique t l si vc frames o si' vc' frames' o' : bytes_ok l ->
    file_any_plays m t l si vc frames o -> file_any_plays m t l si' vc' frames' o' ->
    si = si' /\ vc = vc' /\ frames = frames' /\ o = o'.
  Proof.
    intros Hb (w & rest & -> & Hw & Hp) (w' & rest' & E & Hw' & Hp').
    destruct (opens_unique default_options si vc w si' vc' w' rest rest' Hw Hw' Hb E) as (<- & <- & <- & <-).
    apply app_bytes in Hb as [_ Hb]. destruct (any_unique m t frames rest frames' o o' Hb Hp Hp') as [<- <-]. auto.
  Qed.
  Theorem any_compare turns fs path t l refs :
    file_at fs path t l -> (length l + 1 < fuel)%nat -> (length l < turns)%nat ->
    (compare_decoded_stream m un fuel turns fs path refs = Ok tt
     /\ exists si vc frames o, file_any_plays m t l si vc frames o /\ agrees si frames refs)
    \/ ((exists why, compare_decoded_stream m un fuel turns fs path refs = Panic why)
        /\ forall si vc frames o, file_any_plays m t l si vc frames o -> ~ agrees si frames refs).
  Proof.
    intros Hat Hf Ht. pose proof (file_delivers _ _ _ _ Hat) as Hb.
    destruct (any_file_cases m un Hun fuel fs path t l Hat Hf) as [(e & Hu & E)|(si & vc & frames & o & Hp)].
    - right. unfold compare_decoded_stream. rewrite E. split; [cbn; eauto|]. intros si vc frames o (w & rest & -> & Hw & _).
      destruct (unopened_or_formed t e si vc w rest Hb Hu Hw).
    - assert (length frames < turns)%nat as Hl.
      { destruct Hp as (w & rest & -> & _ & ws & x & -> & HF & _). apply any_frames_short in HF. rewrite !app_length in Ht. unfold len in HF. lia. }
      destruct (any_compare_file turns fs path t l si vc frames o refs Hat Hf Hl Hp) as [(Ha & E)|(Hn & E)].
      + left. split; [exact E|]. exists si, vc, frames, o. auto.
      + right. split; [exact E|]. intros si' vc' frames' o' Hp'. destruct (any_file_unique t l _ _ _ _ _ _ _ _ Hb Hp Hp') as (<- & _ & <- & _). exact Hn.
  Qed.
End Compare.
