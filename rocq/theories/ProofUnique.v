(** A file has one meaning, and its frames do not depend on its metadata. *)
From Verif Require Export ProofPrograms3 ProofSession.
From Verif Require Import SpecReader.

(** * One meaning *)

Lemma frame_unique h chs w r h' chs' w' r' : frame_code h chs w -> frame_code h' chs' w' -> bytes_ok (w ++ r) ->
  w ++ r = w' ++ r' -> h = h' /\ chs = chs' /\ w = w' /\ r = r'.
Proof.
  intros H H' Hb E. assert (bytes_ok r /\ bytes_ok r') as [Hr Hr'].
  { split; [apply app_bytes in Hb; apply Hb|]. rewrite E in Hb. apply app_bytes in Hb. apply Hb. }
  pose proof (frame_complete TEof Debug h chs w r Hr H) as E1. pose proof (frame_complete TEof Debug h' chs' w' r' Hr' H') as E2.
  rewrite E, E2 in E1. injection E1 as -> -> ->. apply app_inv_tail in E. auto.
Qed.
Lemma header_unique h w r h' w' r' : header_code h w -> header_code h' w' -> bytes_ok (w ++ r) ->
  w ++ r = w' ++ r' -> h = h' /\ w = w' /\ r = r'.
Proof.
  intros H H' Hb E. assert (bytes_ok r /\ bytes_ok r') as [Hr Hr'].
  { split; [apply app_bytes in Hb; apply Hb|]. rewrite E in Hb. apply app_bytes in Hb. apply Hb. }
  pose proof (header_complete TEof Debug h w r H Hr) as E1. pose proof (header_complete TEof Debug h' w' r' H' Hr') as E2.
  rewrite E, E2 in E1. injection E1 as F1 F2 F3 F4 F5 ->. apply app_inv_tail in E. split; [|auto].
  destruct h as [v n s ra a wi], h' as [v' n' s' ra' a' wi']. cbn [h_variable h_number h_size h_rate h_assignment h_width] in *. subst.
  assert (a = a') as <- by (destruct a, a'; cbn in F4; congruence).
  assert (v = v' /\ n = n') as [<- <-] by (destruct v, v'; split; congruence). reflexivity.
Qed.
Lemma next_none m l : (length l <= 1)%nat -> bytes_ok l ->
  fst (read_next_or_eof (fl_rb TEof) m 2 (mkVec [] 0) l) = Ok None.
Proof.
  intros Hl Hb. destruct (frame_ends (fl_rb TEof) TEof _ (fl_stream TEof) m 2 (mkVec [] 0) l l eq_refl Hl ltac:(lia) (conj eq_refl Hb)) as (s & -> & _). reflexivity.
Qed.
Lemma fault_long e w r : frame_fault e w -> bytes_ok (w ++ r) -> (2 <= length (w ++ r))%nat.
Proof.
  intros H Hb. destruct (Nat.leb_spec 2 (length (w ++ r))) as [L|L]; [exact L|exfalso].
  pose proof (next_none Debug (w ++ r) ltac:(lia) Hb) as E.
  destruct (next_reports (fl_rb TEof) TEof _ (fl_stream TEof) Debug 2 (mkVec [] 0) (w ++ r) e w r H (conj eq_refl Hb) ltac:(lia)) as (s & E' & _).
  rewrite E' in E. discriminate.
Qed.
Lemma frame_two h chs w r : frame_code h chs w -> (2 <= length (w ++ r))%nat.
Proof.
  intros (hw & bps & bits & pad & body & crc & _ & _ & _ & _ & _ & _ & _ & ->). rewrite !app_length. cbn [length]. lia.
Qed.
Lemma stop_unique t l o o' : bytes_ok l -> stop t l o -> stop t l o' -> o = o'.
Proof.
  intros Hb H. inversion H as [l1 Ht Hl|e w rest Hw|l1 Hi Hl]; subst; intros H'; inversion H' as [l2 Ht' Hl'|e' w' rest' Hw'|l2 Hi' Hl']; subst; try reflexivity.
  - pose proof (fault_long e' w' rest' Hw' Hb). lia.
  - specialize (Hl' eq_refl). lia.
  - pose proof (fault_long e w rest Hw Hb). lia.
  - f_equal. symmetry. match goal with E : _ ++ _ = _ ++ _ |- _ => rename E into E0 end.
    assert (bytes_ok rest /\ bytes_ok rest') as [Hr Hr'].
    { split; [apply app_bytes in Hb; apply Hb|]. rewrite <- E0 in Hb. apply app_bytes in Hb. apply Hb. }
    exact (proj1 (fault_unique e' w' rest' e w rest Hw' Hw Hr' Hr E0)).
  - exfalso. exact (proj2 (Hi' w rest eq_refl) e Hw).
  - specialize (Hl eq_refl). lia.
  - exfalso. exact (proj2 (Hi w' rest' eq_refl) e' Hw').
Qed.
Lemma stop_frame t h chs w r o : bytes_ok (w ++ r) -> frame_code h chs w -> ~ stop t (w ++ r) o.
Proof.
  intros Hb H Hs. inversion Hs as [l1 Ht Hl|e w' rest Hw|l1 Hi Hl]; subst.
  - pose proof (frame_two h chs w r H). lia.
  - match goal with E : _ ++ _ = _ ++ _ |- _ => rename E into E0 end.
    assert (bytes_ok rest /\ bytes_ok r) as [Hr Hr'].
    { split; [rewrite <- E0 in Hb|]; apply app_bytes in Hb; apply Hb. }
    exact (fault_or_frame e w' rest h chs w r Hw H Hr Hr' E0).
  - exact (proj1 (Hi w r eq_refl) h chs H).
Qed.
Theorem plays_unique t l frames o frames' o' : bytes_ok l -> plays t l frames o -> plays t l frames' o' ->
  frames = frames' /\ o = o'.
Proof.
  intros Hb (ws & rest & -> & HF & Hs). revert frames'. induction HF as [|[h chs] w frames ws Hw HF IH]; intros frames' (ws' & rest' & E & HF' & Hs').
  - cbn [concat app] in *. destruct HF' as [|[h' chs'] w' frames' ws' Hw' HF'].
    + cbn [concat app] in E. subst rest'. split; [reflexivity|]. eapply stop_unique; eauto.
    + exfalso. cbn [concat] in E. rewrite <- app_assoc in E. subst rest. exact (stop_frame t _ _ _ _ o Hb Hw' Hs).
  - cbn [concat fst snd] in *. rewrite <- app_assoc in *. destruct HF' as [|[h' chs'] w' frames' ws' Hw' HF'].
    + exfalso. cbn [concat app] in E. subst rest'. exact (stop_frame t _ _ _ _ o' Hb Hw Hs').
    + cbn [concat fst snd] in *. rewrite <- app_assoc in E.
      destruct (frame_unique _ _ _ _ _ _ _ _ Hw Hw' Hb E) as (<- & <- & <- & E').
      apply app_bytes in Hb as [_ Hb]. destruct (IH Hb frames') as [<- <-]; [exists ws', rest'; auto|auto].
Qed.
Theorem file_unique t l si vc frames o si' vc' frames' o' : bytes_ok l ->
  file_plays t l si vc frames o -> file_plays t l si' vc' frames' o' ->
  si = si' /\ vc = vc' /\ frames = frames' /\ o = o'.
Proof.
  intros Hb (w & rest & -> & Hw & Hp) (w' & rest' & E & Hw' & Hp').
  destruct (opens_unique default_options si vc w si' vc' w' rest rest' Hw Hw' Hb E) as (<- & <- & <- & <-).
  apply app_bytes in Hb as [_ Hb]. destruct (plays_unique _ _ _ _ _ _ Hb Hp Hp') as [<- <-]. auto.
Qed.
Theorem unopened_unique t l e e' : bytes_ok l -> file_unopened t l e -> file_unopened t l e' -> e = e'.
Proof.
  intros Hb [(w & rest & -> & Hw)|(-> & _ & Hn)] [(w' & rest' & E & Hw')|(-> & _ & Hn')].
  - exact (proj1 (open_fault_unique _ _ _ _ _ _ _ Hb Hw Hw' E)).
  - exfalso. exact (Hn' e w rest eq_refl Hw).
  - exfalso. exact (Hn e' w' rest' E Hw').
  - reflexivity.
Qed.
Lemma cut_not_block l last b w r : cut_short l -> block_code last b w -> l <> w ++ r.
Proof.
  intros H (ty & body & Hb & Hl & ->) E. destruct H as [l Hs|x n l Hn Hs].
  - apply (f_equal (@length Z)) in E. rewrite !app_length, be_bytes_length in E. cbn [length] in E. lia.
  - cbn [app] in E. injection E as _ A B C E2.
    change (Z.pow_pos 256 2) with 65536 in *. change (Z.pow_pos 256 1) with 256 in *. 
    assert (0 <= len body) by (unfold len; lia). assert (n = len body) as -> by lia.
    subst l. unfold len in *. rewrite app_length in Hs. lia.
Qed.
Lemma cut_not_blocks bs w : open_blocks bs w -> forall l bs' w' r, cut_short l -> blocks_code bs' w' -> bytes_ok (w ++ l) -> w ++ l <> w' ++ r.
Proof.
  induction 1 as [|b w bs w2 Hc Ho IH]; intros l bs' w' r Hl Hbs Hb E; apply blocks_inv in Hbs as (last & b' & x1 & x2 & Hc' & -> & HH).
  - cbn [app] in E. rewrite <- app_assoc in E. exact (cut_not_block l _ _ _ _ Hl Hc' E).
  - rewrite <- !app_assoc in *. destruct (block_unique _ _ _ _ _ _ _ _ Hb Hc Hc' E) as (<- & <- & <- & E2).
    destruct HH as [(? & _)|(_ & bs2 & -> & Hbs2)]; [discriminate|]. apply app_bytes in Hb as [_ Hb].
    exact (IH l bs2 x2 r Hl Hbs2 Hb E2).
Qed.
Lemma unopened_or_formed t e si vc w rest : bytes_ok (w ++ rest) -> file_unopened t (w ++ rest) e -> ~ well_formed si vc w.
Proof.
  intros Hb H Hw. destruct H as [(w' & rest' & E & Hw')|(-> & Hc & Hn)].
  - rewrite E in Hb. exact (open_fault_not_opens default_options e w' rest' si vc w rest Hb Hw' Hw (eq_sym E)).
  - destruct Hw as (bs & blocks & -> & Hbs & _). rewrite <- app_assoc in *. remember (signature ++ blocks ++ rest) as l eqn:El.
    destruct Hc as [l Hl|l Hl|si' bs' w l Ho _ Hl].
    + subst l. rewrite app_length in Hl. cbn [signature length] in Hl. lia.
    + apply sig_inj in El. apply app_bytes in Hb as [_ Hb]. exact (cut_not_blocks [] [] open_nil l _ _ rest Hl Hbs Hb El).
    + apply sig_inj in El. apply app_bytes in Hb as [_ Hb]. exact (cut_not_blocks _ _ Ho l _ _ rest Hl Hbs Hb El).
Qed.
Theorem unopened_or_plays t l e si vc frames o : bytes_ok l -> file_unopened t l e -> ~ file_plays t l si vc frames o.
Proof. intros Hb H (w & rest & -> & Hw & _). exact (unopened_or_formed t e si vc w rest Hb H Hw). Qed.
Theorem file_exists t l : bytes_ok l -> no_zero_bytes (2 ^ 29 - 1) l ->
  (exists e, file_unopened t l e) \/ (exists si vc frames o, file_plays t l si vc frames o).
Proof.
  intros Hb Hz. pose proof (fl_stream t) as HS. set (fuel := Datatypes.S (length l)).
  pose proof (open_cases (fl_rb t) t _ HS Debug (repeat 0) (repeat_length 0) fuel default_options l l (conj eq_refl Hb) ltac:(lia)) as H.
  destruct (new_ext (fl_rb t) Debug (repeat 0) fuel default_options l) as [[r|e|x|x|] s] eqn:E; try contradiction.
  - right. destruct H as (w & rest & inp & El & Ho & _).
    destruct (plays_exist t rest) as (frames & o & Hp).
    + rewrite El in Hb. apply app_bytes in Hb. apply Hb.
    + intros a b ->. apply (Hz (w ++ a) b). rewrite El, <- app_assoc. reflexivity.
    + exists (fr_get_streaminfo r), (fr_vorbis_comment r), frames, o, w, rest. auto.
  - left. exists e. destruct H as [(w & rest & -> & Ho & _)|(-> & Hc)]; [left; eauto|right].
    split; [reflexivity|]. split; [exact Hc|]. intros e' w rest -> Hw.
    destruct (open_reports (fl_rb t) t _ HS Debug (repeat 0) (repeat_length 0) fuel default_options (w ++ rest) e' w rest Hw (conj eq_refl Hb) ltac:(lia)) as (s' & E' & _).
    rewrite E in E'. injection E' as <- _. pose proof (open_fault_ours _ _ _ Hw) as Ho. destruct t; exact Ho.
Qed.

(** * The metadata does not matter *)

(** Two sessions that differ in metadata only. *)
Definition same_input {S} (a b : flac_reader S) : Prop := fr_input a = fr_input b.
Definition same_session {S} (a b : session S) : Prop :=
  same_input (se_reader a) (se_reader b) /\ se_samples a = se_samples b.
Lemma same_with {S} (a b : flac_reader S) x : same_input a b -> same_input (with_input a x) (with_input b x).
Proof. unfold same_input, with_input. cbn [fr_input]. intros ->. reflexivity. Qed.
Lemma same_drop {S} (a b : session S) : same_session a b -> same_input (drop_samples a) (drop_samples b).
Proof. intros [H E]. unfold drop_samples. rewrite E. destruct (se_samples b); [apply same_with|]; exact H. Qed.
Lemma same_step {S} (rb : ReadBytes S) m fuel c a b : same_session a b ->
  fst (session_step rb m fuel c a) = fst (session_step rb m fuel c b)
  /\ same_session (snd (session_step rb m fuel c a)) (snd (session_step rb m fuel c b)).
Proof.
  intros H. pose proof (same_drop a b H) as Hd. destruct H as [H E]. destruct c as [buffer| |]; cbn [session_step].
  - unfold fr_blocks. pose proof Hd as Hd'. unfold same_input in Hd'. rewrite Hd'.
    destruct (fr_input (drop_samples b)) as [x|x].
    + destruct (read_next_or_eof rb m fuel buffer x) as [o x']. cbn [fst snd]. split; [reflexivity|]. split; [apply same_with, Hd|reflexivity].
    + cbn [fst snd]. split; [reflexivity|]. split; [exact Hd|reflexivity].
  - rewrite E. unfold fr_samples. pose proof H as H'. unfold same_input in H'. rewrite H'. destruct (se_samples b) as [it|] eqn:Eb.
    + destruct (fs_next rb m fuel it) as [o it']. cbn [fst snd]. split; [reflexivity|]. split; [exact H|reflexivity].
    + destruct (fr_input (se_reader b)) as [x|x].
      * destruct (fs_next rb m fuel _) as [o it']. cbn [fst snd]. split; [reflexivity|]. split; [exact H|reflexivity].
      * cbn [fst snd]. split; [reflexivity|]. split; [exact H|]. congruence.
  - cbn [fst snd]. split; [reflexivity|]. split; [exact Hd|reflexivity].
Qed.
Lemma same_history {S} (rb : ReadBytes S) m fuel calls : forall a b, same_session a b ->
  fst (history_until_io (session_step rb m fuel) calls a) = fst (history_until_io (session_step rb m fuel) calls b)
  /\ fst (history_all (session_step rb m fuel) calls a) = fst (history_all (session_step rb m fuel) calls b).
Proof.
  induction calls as [|c calls IH]; intros a b H; cbn [history_until_io history_all]; [auto|].
  destruct (same_step rb m fuel c a b H) as [E H']. destruct (session_step rb m fuel c a) as [r a'], (session_step rb m fuel c b) as [r' b'].
  cbn [fst snd] in E, H'. subst r'. destruct (IH a' b' H') as [E1 E2].
  destruct (history_until_io _ calls a'), (history_until_io _ calls b'), (history_all _ calls a'), (history_all _ calls b'). cbn [fst] in *. subst.
  destruct (from_source r); auto.
Qed.
Section TwoFiles.
  Context {S1 S2 : Type} (rb1 : ReadBytes S1) (rb2 : ReadBytes S2) (t : tail) (D1 : S1 -> list Z -> Prop) (D2 : S2 -> list Z -> Prop).
  Context (H1 : stream rb1 t D1) (H2 : stream rb2 t D2).
  Theorem metadata_apart m un1 un2 : (forall n, length (un1 n) = n) -> (forall n, length (un2 n) = n) ->
    forall fuel s1 s2 si1 vc1 w1 si2 vc2 w2 rest, well_formed si1 vc1 w1 -> well_formed si2 vc2 w2 ->
    D1 s1 (w1 ++ rest) -> D2 s2 (w2 ++ rest) -> (length (w1 ++ rest) < fuel)%nat -> (length (w2 ++ rest) < fuel)%nat ->
    exists r1 r2, fst (new_ext rb1 m un1 fuel default_options s1) = Ok r1
      /\ fst (new_ext rb2 m un2 fuel default_options s2) = Ok r2
      /\ forall fuel' calls, fst (history_until_io (session_step rb1 m fuel') calls (mkSession r1 None))
          = fst (history_until_io (session_step rb2 m fuel') calls (mkSession r2 None)).
  Proof.
    intros Hu1 Hu2 fuel s1 s2 si1 vc1 w1 si2 vc2 w2 rest Hw1 Hw2 HD1 HD2 Hf1 Hf2.
    destruct (new_accepts rb1 t D1 H1 m un1 Hu1 fuel s1 si1 vc1 w1 rest Hw1 HD1 Hf1) as (r1 & i1 & E1 & _ & _ & F1 & HI1).
    destruct (new_accepts rb2 t D2 H2 m un2 Hu2 fuel s2 si2 vc2 w2 rest Hw2 HD2 Hf2) as (r2 & i2 & E2 & _ & _ & F2 & HI2).
    exists r1, r2. split; [exact E1|]. split; [exact E2|]. intros fuel' calls.
    assert (fr_input r1 = Full i1 /\ fr_input r2 = Full i2) as [G1 G2].
    { unfold fr_blocks in F1, F2. destruct (fr_input r1), (fr_input r2); try discriminate. split; congruence. }
    set (r1' := mkFr (fr_streaminfo r2) (fr_vorbis_comment r2) (Full i1)).
    rewrite (proj1 (same_history rb1 m fuel' calls (mkSession r1 None) (mkSession r1' None) (conj G1 eq_refl))).
    apply (history_until_io_sim (Rses (Rsame D1 D2))).
    - intros c. apply session_sim; [apply (same_rb rb1 rb2 t D1 D2 H1 H2)|apply (same_eof rb1 rb2 t D1 D2 H1 H2)].
    - split; [|exact I]. split; [reflexivity|]. split; [reflexivity|]. cbn [r1' se_reader fr_input]. rewrite G2. exists rest. auto.
  Qed.
End TwoFiles.
