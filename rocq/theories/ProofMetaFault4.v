(** Errors of opening, second part: the signature, the first block, and all together. *)
From Verif Require Export ProofMetaFault3.
From Verif Require Import SpecReader.

Inductive signature_fault : error -> list Z -> Prop :=
| sig_id3 : forall x, signature_fault (FormatError "stream starts with ID3 header rather than FLAC header") [73; 68; 51; x]
| sig_other : forall a b c d, [a; b; c; d] <> signature -> [a; b; c] <> [73; 68; 51] ->
    signature_fault (FormatError "invalid stream header") [a; b; c; d].

Lemma land_high v : 0 <= v < 2 ^ 32 -> Z.land v 0xffffff00 = v / 256 * 256.
Proof.
  intros Hv. change 0xffffff00 with (Z.shiftl (Z.ones 24) 8).
  replace (Z.land v (Z.shiftl (Z.ones 24) 8)) with (Z.shiftl (Z.land (Z.shiftr v 8) (Z.ones 24)) 8).
  - rewrite Z.land_ones by lia. rewrite Z.shiftl_mul_pow2, Z.shiftr_div_pow2 by lia. change (2 ^ 8) with 256. rewrite Z.mod_small; [reflexivity|].
    change (2 ^ 24) with 16777216. change (2 ^ 32) with 4294967296 in Hv. split; [apply Z.div_pos; lia|apply Z.div_lt_upper_bound; lia].
  - apply Z.bits_inj'. intros n Hn. rewrite Z.land_spec. destruct (Z_lt_le_dec n 8).
    + rewrite !Z.shiftl_spec_low by lia. rewrite andb_false_r. reflexivity.
    + rewrite !Z.shiftl_spec by lia. rewrite Z.land_spec, Z.shiftr_spec by lia. replace (n - 8 + 8) with n by lia. reflexivity.
Qed.

Section Flat.
  Context (t : tail).
  Lemma signature_flaws : flaws t (read_stream_header (fl_rb t)) signature_fault.
  Proof.
    unfold read_stream_header. eapply flaws_conseq.
    { eapply (flaws_then t _ _ _ (fun v e w => w = [] /\ v <> 0x664c6143
        /\ ((v / 256 = 0x494433 /\ e = FormatError "stream starts with ID3 header rather than FLAC header")
            \/ (v / 256 <> 0x494433 /\ e = FormatError "invalid stream header")))); [apply be32_parses|apply be32_flaws|].
      intros v (? & (_ & Hv) & _). destruct (v =? 0x664c6143) eqn:E; cbn [negb].
      - apply flaws_false; [apply flaws_ret|]. intros e w _ (_ & H & _). lia.
      - rewrite (land_high v Hv). destruct (v / 256 * 256 =? 0x49443300) eqn:E2; apply flaws_one; intros e w _; split.
        + intros (-> & _ & [[_ ->]|[H _]]); [auto|lia].
        + intros [-> ->]. split; [reflexivity|]. split; [lia|]. left. split; [lia|reflexivity].
        + intros (-> & _ & [[H _]|[_ ->]]); [lia|auto].
        + intros [-> ->]. split; [reflexivity|]. split; [lia|]. right. split; [lia|reflexivity]. }
    intros e w Hw. cbv beta. split.
    - intros (v & w1 & w2 & -> & (-> & Hv) & -> & Hn & HH). rewrite app_nil_r in *. pose proof (be_bytes_length 4 v) as Hl.
      destruct (be_bytes 4 v) as [|a [|b [|c [|d [|? ?]]]]] eqn:Eb; try discriminate Hl. clear Hl.
      apply Forall_inv in Hw as Ha. apply Forall_inv_tail in Hw. apply Forall_inv in Hw as Hbb. apply Forall_inv_tail in Hw.
      apply Forall_inv in Hw as Hc. apply Forall_inv_tail in Hw. apply Forall_inv in Hw as Hd.
      assert (v = ((a * 256 + b) * 256 + c) * 256 + d) as ->.
      { cbn [be_bytes] in Eb. injection Eb as <- <- <- <-. change (256 ^ Z.of_nat 3) with 16777216. change (256 ^ Z.of_nat 2) with 65536.
        change (256 ^ Z.of_nat 1) with 256. change (256 ^ Z.of_nat 0) with 1. change (2 ^ 32) with 4294967296 in Hv. Z.to_euclidean_division_equations. lia. }
      unfold is_byte in *. rewrite Z.div_add_l, (Z.div_small d) in HH by lia.
      destruct HH as [[H ->]|[H ->]].
      + assert (a = 73 /\ b = 68 /\ c = 51) as (-> & -> & ->) by lia. constructor.
      + constructor; intros E; [injection E as -> -> -> ->; apply Hn; reflexivity|injection E as -> -> ->; apply H; reflexivity].
    - intros H. assert (exists a b c d, w = [a; b; c; d]) as (a & b & c & d & ->) by (destruct H; eauto).
      apply Forall_inv in Hw as Ha. apply Forall_inv_tail in Hw. apply Forall_inv in Hw as Hbb. apply Forall_inv_tail in Hw.
      apply Forall_inv in Hw as Hc. apply Forall_inv_tail in Hw. apply Forall_inv in Hw as Hd.
      exists (((a * 256 + b) * 256 + c) * 256 + d), [a; b; c; d], []. split; [reflexivity|].
      rewrite be4 by assumption. unfold is_byte in *. rewrite Z.div_add_l, (Z.div_small d) by lia. split; [split; [reflexivity|lia]|]. split; [reflexivity|].
      inversion H; subst.
      + split; [lia|]. left. split; [reflexivity|reflexivity].
      + split; [intros E; assert (a = 102 /\ b = 76 /\ c = 97 /\ d = 67) as (-> & -> & -> & ->) by lia; auto|].
        right. split; [|reflexivity]. intros E. assert (a = 73 /\ b = 68 /\ c = 51) as (-> & -> & ->) by lia. auto.
  Qed.
  Lemma signature_eof l e l' : read_stream_header (fl_rb t) l = (Err e, l') -> (4 <= length l)%nat -> ours e.
  Proof.
    intros E Hl. destruct l as [|a [|b [|c [|d l]]]]; try (cbn in Hl; lia). unfold read_stream_header, read_be_u32, bind, fl_rb in E. cbn [read_u8] in E. cbv beta iota delta [ret] in E.
    destruct (negb _); [|discriminate]. destruct (_ =? _); injection E as <- <-; exact Logic.I.
  Qed.
End Flat.

Definition no_streaminfo : error := FormatError "streaminfo block missing".
Lemma reads_goes opts bs : goes_on opts None bs <-> reads_on opts bs.
Proof. reflexivity. Qed.
Lemma open_fault_inv opts e w : open_fault opts e w <-> signature_fault e w
  \/ exists w', w = signature ++ w' /\ (block_fault e w' \/ (exists last b, block_code last b w' /\ not_streaminfo b /\ e = no_streaminfo)
     \/ exists si w1 w2, w' = w1 ++ w2 /\ block_code false (MbStreamInfo si) w1 /\ loop_fault opts None e w2).
Proof.
  split.
  - intros H. destruct H as [x|a b c d H1 H2|e w H|last b w Hc Hn|si bs w w' e Ho Hr Hf|si bs w last si' w' Ho Hr Hc|si bs w vc last vc' w' Hm Ho Hn Hv Hc].
    1,2: left; constructor; assumption.
    all: right; eexists; (split; [reflexivity|]).
    + left. exact H.
    + right. left. exists last, b. auto.
    + right. right. inversion Ho as [|? w1 ? w2 Hc1 Ho2]; subst. exists si, w1, (w2 ++ w'). split; [symmetry; apply app_assoc|]. split; [exact Hc1|].
      apply loop_fault_blocks; [auto|]. exists bs, w2, w'. split; [reflexivity|]. split; [exact Ho2|]. left. split; [apply Hr|]. left. exact Hf.
    + right. right. inversion Ho as [|? w1 ? w2 Hc1 Ho2]; subst. exists si, w1, (w2 ++ w'). split; [symmetry; apply app_assoc|]. split; [exact Hc1|].
      apply loop_fault_blocks; [auto|]. exists bs, w2, w'. split; [reflexivity|]. split; [exact Ho2|]. left. split; [apply Hr|]. right. split; [reflexivity|eauto].
    + right. right. inversion Ho as [|? w1 ? w2 Hc1 Ho2]; subst. exists si, w1, (w2 ++ w'). split; [symmetry; apply app_assoc|]. split; [exact Hc1|].
      apply loop_fault_blocks; [auto|]. exists bs, w2, w'. split; [reflexivity|]. split; [exact Ho2|]. right. split; [exact Hm|]. split; [exact Hn|].
      split; [exists vc; exact Hv|]. split; [reflexivity|eauto].
  - intros [H|(w' & -> & [H|[(last & b & Hc & Hn & ->)|(si & w1 & w2 & -> & Hc & H)]])].
    + destruct H; constructor; assumption.
    + apply fault_first_block, H.
    + eapply fault_no_streaminfo; eassumption.
    + apply loop_fault_blocks in H; [|auto]. destruct H as (bs & w3 & w4 & -> & Ho & HH).
      rewrite (app_assoc w1). assert (open_blocks (MbStreamInfo si :: bs) (w1 ++ w3)) as Ho' by (constructor; assumption).
      destruct HH as [[Hr [Hf|[-> (last & si' & Hc')]]]|(Hm & Hn & (v & Hv) & -> & last & v' & Hc')].
      * eapply fault_later_block; eassumption.
      * eapply fault_second_streaminfo; eassumption.
      * eapply fault_second_comment; eassumption.
Qed.

Section Stream.
  Context {S : Type} (rb : ReadBytes S) (t : tail) (D : S -> list Z -> Prop) (HS : stream rb t D).
  Context (m : build) (un : nat -> list Z) (Hun : forall n, length (un n) = n).
  Notation Hbytes := (st_bytes rb t D HS).

  Lemma signature_cases st l : D st l ->
    (exists rest st', l = signature ++ rest /\ read_stream_header rb st = (Ok tt, st') /\ D st' rest)
    \/ (exists e w rest st', signature_fault e w /\ l = w ++ rest /\ read_stream_header rb st = (Err e, st') /\ D st' rest)
    \/ (exists st', (length l < 4)%nat /\ read_stream_header rb st = (Err (tail_error t), st')).
  Proof.
    intros HD. pose proof (read_stream_header_sim no_esc D rb (fl_rb t) (stream_rb_sim rb t D HS no_esc)) as Hs.
    destruct (signature_result rb t D HS st l HD) as [H|(e & st' & E & Hn)]; [auto|right].
    destruct (flaws_explains rb t D HS _ _ _ st l e st' Hs (signature_flaws t)) as [(w & rest & -> & Hw & HD')| ->].
    - intros e' w H. destruct H; exact Logic.I.
    - exact HD.
    - exact E.
    - left. exists e, w, rest, st'. auto.
    - right. exists st'. split; [|exact E]. specialize (Hs st l HD). rewrite E in Hs. cbn [fst snd] in Hs. destruct Hs as [[]|[E' _]].
      destruct (read_stream_header (fl_rb t) l) as [o l'] eqn:El. cbn [fst] in E'. subst o. destruct (le_lt_dec 4 (length l)) as [Hl|Hl]; [|exact Hl].
      exfalso. eapply tail_not_ours, signature_eof; eassumption.
  Qed.

  Theorem open_cases fuel opts st l : D st l -> (length l < fuel)%nat ->
    match new_ext rb m un fuel opts st with
    | (Ok r, _) => exists w rest inp, l = w ++ rest /\ opens opts (fr_get_streaminfo r) (fr_vorbis_comment r) w /\ D inp rest
        /\ fr_input r = (if metadata_only opts then MetadataOnly inp else Full inp)
    | (Err e, st') => (exists w rest, l = w ++ rest /\ open_fault opts e w /\ D st' rest) \/ (e = tail_error t /\ open_cut opts l)
    | _ => False
    end.
  Proof.
    intros HD Hf. pose proof (new_ext_result rb t D HS m un Hun fuel opts st l HD Hf) as Hr.
    destruct (new_ext rb m un fuel opts st) as [[r|e| | |] st'] eqn:En; auto. clear Hr. unfold new_ext in En. unfold bind at 1 in En.
    destruct (signature_cases st l HD) as [(l1 & st1 & -> & E & HD1)|[(e1 & w & rest & st1 & Hw & -> & E & HD1)|(st1 & Hl & E)]]; rewrite E in En.
    2:{ injection En as <- <-. left. exists w, rest. split; [reflexivity|]. split; [|exact HD1]. apply open_fault_inv. auto. }
    2:{ injection En as <- <-. right. split; [reflexivity|]. apply cut_signature, Hl. }
    unfold bind at 1 in En. unfold with_mreader in En. change (mr_new st1) with (mkMr st1 false) in En. unfold read_metadata in En. unfold bind at 1 in En.
    rewrite app_length in Hf.
    destruct (next_cases rb t D HS m un Hun st1 l1 HD1) as [(last & b & w & rest & st2 & Hc & -> & HD2 & E2)|[(e2 & w & rest & st2 & Hfl & -> & HD2 & E2)|(st2 & Hcut & Hn & E2)]];
      rewrite E2 in En.
    2:{ cbn in En. injection En as <- <-. left. exists (signature ++ w), rest. split; [apply app_assoc|]. split; [|exact HD2]. apply fault_first_block, Hfl. }
    2:{ cbn in En. injection En as <- <-. right. split; [reflexivity|]. apply cut_first_block, Hcut. }
    rewrite bind_lift_ok in En. cbn [of_result] in En. rewrite bind_lift_ok in En.
    destruct (match b with MbStreamInfo _ => true | _ => false end) eqn:Eb.
    2:{ left. exists (signature ++ w), rest. split; [apply app_assoc|].
        destruct b; try discriminate Eb; cbn in En; injection En as <- <-; (split; [|exact HD2]); (eapply fault_no_streaminfo; [exact Hc|]); intros ? ?; discriminate. }
    destruct b as [si| | | |]; try discriminate Eb. clear Eb. unfold bind at 1, ret at 1 in En. unfold bind at 1 in En.
    rewrite app_length in Hf. pose proof (block_code_len _ _ _ Hc) as Hlen. destruct last.
    - destruct fuel as [|fuel]; [lia|]. rewrite loop_done in En. cbn in En. discriminate.
    - pose proof (loop_cases rb t D HS m un Hun fuel opts None st2 rest HD2 ltac:(lia)) as H.
      destruct (metadata_loop rb m un fuel opts None (mkMr st2 false)) as [[o|e'| | |] s']; cbn in En; try discriminate.
      injection En as <- <-. destruct H as [(w2 & rest2 & -> & Hl & HD3)|[-> Hl]].
      + left. exists (signature ++ w ++ w2), rest2. split; [rewrite <- !app_assoc; reflexivity|]. split; [|exact HD3]. apply open_fault_inv. right.
        exists (w ++ w2). split; [reflexivity|]. right. right. exists si, w, w2. auto.
      + right. split; [reflexivity|]. apply loop_cut_blocks in Hl as (bs & w2 & l' & -> & Ho & Hg & Hcut); [|auto]. rewrite (app_assoc w).
        eapply cut_later_block; [constructor; eassumption|exact Hg|exact Hcut].
  Qed.

  Theorem open_reports fuel opts st e w rest : open_fault opts e w -> D st (w ++ rest) -> (length (w ++ rest) < fuel)%nat ->
    exists st', new_ext rb m un fuel opts st = (Err e, st') /\ D st' rest.
  Proof.
    intros Ho HD Hf. apply open_fault_inv in Ho as [H|(w' & -> & H)].
    - destruct (flaws_reports rb t D HS _ _ _ st e w rest (read_stream_header_sim no_esc D rb (fl_rb t) (stream_rb_sim rb t D HS no_esc)) (signature_flaws t) HD H) as (st' & E & HD').
      { destruct H; exact Logic.I. }
      exists st'. unfold new_ext, bind at 1. rewrite E. auto.
    - rewrite <- app_assoc in *. destruct (signature_result rb t D HS st _ HD) as [(l1 & st1 & El & E & HD1)|(e1 & st1 & E & Hn)].
      2:{ exfalso. exact (Hn _ eq_refl). }
      apply app_inv_head in El. subst l1. unfold new_ext. unfold bind at 1. rewrite E. unfold bind at 1. unfold with_mreader.
      change (mr_new st1) with (mkMr st1 false). unfold read_metadata. unfold bind at 1. rewrite app_length in Hf.
      destruct H as [H|[(last & b & Hc & Hn & ->)|(si & w1 & w2 & -> & Hc & H)]].
      + destruct (next_fault rb t D HS m un Hun st1 e w' rest H HD1) as (st2 & E2 & HD2). rewrite E2. cbn. eauto.
      + destruct (next_block rb t D HS m un Hun st1 _ _ w' rest Hc HD1) as (st2 & E2 & HD2). rewrite E2. exists st2. split; [|exact HD2].
        destruct b; try reflexivity. exfalso. eapply Hn; reflexivity.
      + rewrite <- app_assoc in *. destruct (next_block rb t D HS m un Hun st1 _ _ w1 _ Hc HD1) as (st2 & E2 & HD2). rewrite E2.
        rewrite bind_lift_ok. cbn [of_result]. rewrite bind_lift_ok. unfold bind at 1, ret at 1. unfold bind at 1.
        rewrite app_length in Hf. destruct (loop_reports rb t D HS m un Hun opts None e w2 H fuel st2 rest HD2 ltac:(lia)) as (s' & E3 & HD3).
        rewrite E3. exists (mr_input s'). auto.
  Qed.
End Stream.

(** No two faults in the same bytes, and none in what opens. *)
Lemma open_fault_unique opts e w rest e' w' rest' : bytes_ok (w ++ rest) -> open_fault opts e w -> open_fault opts e' w' ->
  w ++ rest = w' ++ rest' -> e = e' /\ w = w' /\ rest = rest'.
Proof.
  intros Hb H H' E. pose proof (fl_stream TEof) as HS. set (fuel := Datatypes.S (length (w ++ rest))).
  destruct (open_reports _ _ _ HS Debug (fun n => repeat 0 n) (fun n => repeat_length 0 n) fuel opts _ e w rest H (conj eq_refl Hb) ltac:(lia)) as (st1 & E1 & <- & _).
  assert (fuel = Datatypes.S (length (w' ++ rest'))) as Ef by (unfold fuel; rewrite E; reflexivity). rewrite E in Hb.
  destruct (open_reports _ _ _ HS Debug (fun n => repeat 0 n) (fun n => repeat_length 0 n) fuel opts _ e' w' rest' H' (conj eq_refl Hb) ltac:(lia)) as (st2 & E2 & <- & _).
  rewrite E, E2 in E1. injection E1 as <- <-. apply app_inv_tail in E. auto.
Qed.
Lemma open_fault_not_opens opts e w rest si vc w' rest' : bytes_ok (w ++ rest) -> open_fault opts e w -> opens opts si vc w' ->
  w ++ rest <> w' ++ rest'.
Proof.
  intros Hb H H' E. pose proof (fl_stream TEof) as HS. set (fuel := Datatypes.S (length (w ++ rest))).
  destruct (open_reports _ _ _ HS Debug (fun n => repeat 0 n) (fun n => repeat_length 0 n) fuel opts _ e w rest H (conj eq_refl Hb) ltac:(lia)) as (st1 & E1 & _).
  pose proof (new_ext_result _ _ _ HS Debug (fun n => repeat 0 n) (fun n => repeat_length 0 n) fuel opts (w ++ rest) _ (conj eq_refl Hb) ltac:(lia)) as Hr.
  rewrite E1 in Hr. exact (Hr si vc w' rest' E H').
Qed.

(** On a source that delivers the bytes in any chunks. *)
Theorem flac_open_cases t m un fuel script l opts : (forall n, length (un n) = n) -> delivers t script l -> (length l < fuel)%nat ->
  match flac_new_ext m un fuel script opts with
  | Ok r => exists w rest inp, l = w ++ rest /\ opens opts (fr_get_streaminfo r) (fr_vorbis_comment r) w /\ buffered t inp rest
      /\ fr_input r = (if metadata_only opts then MetadataOnly inp else Full inp)
  | Err e => (exists w rest, l = w ++ rest /\ open_fault opts e w) \/ (e = tail_error t /\ open_cut opts l)
  | _ => False
  end.
Proof.
  intros Hun Hd Hf. unfold flac_new_ext.
  pose proof (open_cases (br_rb m) t (buffered t) (br_stream m t) m un Hun fuel opts (br_new script) l (br_new_buffered t script l Hd) Hf) as H.
  destruct (new_ext _ _ _ _ _ _) as [[r|e| | |] s]; cbn [fst]; try exact H.
  destruct H as [(w & rest & E & Ho & _)|H]; eauto.
Qed.
Theorem flac_open_reports t m un fuel script e w rest opts : (forall n, length (un n) = n) -> open_fault opts e w ->
  delivers t script (w ++ rest) -> (length (w ++ rest) < fuel)%nat -> flac_new_ext m un fuel script opts = Err e.
Proof.
  intros Hun Ho Hd Hf. unfold flac_new_ext.
  destruct (open_reports (br_rb m) t (buffered t) (br_stream m t) m un Hun fuel opts (br_new script) e w rest Ho (br_new_buffered t script _ Hd) Hf) as (st' & E & _).
  rewrite E. reflexivity.
Qed.
