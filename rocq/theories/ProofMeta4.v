(** Metadata on any stream of bytes. *)
From Verif Require Export ProofMeta3.
From Verif Require Import SpecReader.

(** ** Streaminfo: every 34 bytes, and which are rejected *)
Section Fl.
  Context (t : tail) (m : build) (un : nat -> list Z) (Hun : forall n, length (un n) = n).
  Notation rb := (fl_rb t).

  Lemma parses_step {A B} (c : M (list Z) A) (f : A -> M (list Z) B) P a w rest : parses c P -> P a w -> bytes_ok (w ++ rest) ->
    bind c f (w ++ rest) = f a rest.
  Proof. intros [_ H] HP Hb. unfold bind. rewrite (H a w rest Hb HP). reflexivity. Qed.

  Lemma checks_reject mn mx minf maxf rate ch bps n md5 l : 0 <= rate -> 0 <= minf -> 0 <= maxf ->
    ~ streaminfo_valid (mkSi mn mx (known_of minf) (known_of maxf) rate ch bps (known_of n) md5) ->
    exists r, fst (si_checks mn mx minf maxf rate ch bps n md5 l) = Err (FormatError r).
  Proof.
    intros Hr Hm Hx Hv. unfold si_checks.
    destruct (mx <? mn) eqn:C1; [eexists; reflexivity|].
    destruct (mn <? 16) eqn:C2; [eexists; reflexivity|].
    destruct ((maxf <? minf) && negb (maxf =? 0)) eqn:C3; [eexists; reflexivity|].
    destruct ((rate =? 0) || (655350 <? rate)) eqn:C4; [eexists; reflexivity|].
    exfalso. apply Hv. unfold streaminfo_valid. cbn [si_min_block_size si_max_block_size si_min_frame_size si_max_frame_size si_sample_rate].
    unfold known_of. destruct (minf =? 0) eqn:E1, (maxf =? 0) eqn:E2; lia.
  Qed.

  Lemma streaminfo_run mn mx minf maxf msb lsb b nl md5 rest : raw_ok mn mx minf maxf msb lsb b nl ->
    length md5 = 16%nat -> bytes_ok (raw_front mn mx minf maxf msb lsb b nl ++ md5 ++ rest) ->
    read_streaminfo_block rb m (raw_front mn mx minf maxf msb lsb b nl ++ md5 ++ rest)
    = si_checks mn mx minf maxf (msb * 16 + lsb / 16) (lsb / 2 mod 8 + 1) (lsb mod 2 * 16 + b / 16 + 1) (b mod 16 * 2 ^ 32 + nl) md5 rest.
  Proof.
    intros (H1 & H2 & H3 & H4 & H5 & H6 & H7 & H8) Hm Hb. unfold raw_front in *. rewrite <- !app_assoc in *.
    assert (forall a b : list Z, bytes_ok (a ++ b) -> bytes_ok b) as HT by (intros ? ? H; apply Forall_app in H; tauto).
    unfold read_streaminfo_block.
    rewrite (parses_step _ _ _ mn _ _ (be16_parses t)) by (assumption || (split; [reflexivity|assumption])). apply HT in Hb.
    rewrite (parses_step _ _ _ mx _ _ (be16_parses t)) by (assumption || (split; [reflexivity|assumption])). apply HT in Hb.
    rewrite (parses_step _ _ _ minf _ _ (be24_parses t)) by (assumption || (split; [reflexivity|assumption])). apply HT in Hb.
    rewrite (parses_step _ _ _ maxf _ _ (be24_parses t)) by (assumption || (split; [reflexivity|assumption])). apply HT in Hb.
    rewrite (parses_step _ _ _ msb _ _ (be16_parses t)) by (assumption || (split; [reflexivity|assumption])). apply HT in Hb.
    rewrite (parses_step _ _ _ lsb _ _ (u8_parses t)) by (assumption || (split; [reflexivity|assumption])). apply HT in Hb. cbv zeta.
    unfold is_byte in *.
    replace (chk m u8 (Z.land (Z.shiftr lsb 1) 7 + 1)) with (Ok (lsb / 2 mod 8 + 1)).
    2:{ symmetry. rewrite Z.shiftr_div_pow2 by lia; change 7 with (Z.ones 3); rewrite Z.land_ones by lia; apply chk_u8; lia. }
    rewrite bind_lift_ok.
    rewrite (parses_step _ _ _ b _ _ (u8_parses t)) by (assumption || (split; [reflexivity|assumption])). apply HT in Hb.
    replace (chk m u8 (Z.lor (u8 (Z.shiftl (Z.land lsb 1) 4)) (Z.shiftr b 4) + 1)) with (Ok (lsb mod 2 * 16 + b / 16 + 1)).
    2:{ symmetry. change 1 with (Z.ones 1) at 1. rewrite Z.land_ones by lia.
        rewrite Z.shiftl_mul_pow2, Z.shiftr_div_pow2 by lia. rewrite u8_id by lia. rewrite lor_add by lia.
        change (2 ^ 4) with 16. change (2 ^ 1) with 2. apply chk_u8. lia. }
    rewrite bind_lift_ok.
    rewrite (parses_step _ _ _ nl _ _ (be32_parses t)) by (assumption || (split; [reflexivity|assumption])). apply HT in Hb.
    rewrite (parses_step _ _ _ md5 _ _ (into_parses t _)) by (assumption || (split; [reflexivity|assumption])). apply HT in Hb.
    change 15 with (Z.ones 4). rewrite Z.land_ones by lia.
    rewrite (Z.shiftl_mul_pow2 _ 32), (Z.shiftl_mul_pow2 msb), (Z.shiftr_div_pow2 lsb) by lia.
    rewrite (u32_id (msb * 2 ^ 4)), (u64_id (b mod 2 ^ 4 * 2 ^ 32)) by lia.
    rewrite (lor_add msb), (lor_add (b mod 2 ^ 4)) by lia. reflexivity.
  Qed.

  Lemma streaminfo_reject si w rest : streaminfo_fits si -> streaminfo_code si w -> ~ streaminfo_valid si -> bytes_ok (w ++ rest) ->
    exists r, fst (read_streaminfo_block rb m (w ++ rest)) = Err (FormatError r).
  Proof.
    intros Hf (front & -> & Hb & Eb) Hv Hl. destruct (raw_exists si Hf) as (mn & mx & minf & maxf & msb & lsb & b & nl & Hraw & Esi).
    rewrite <- Esi in Eb at 1. rewrite <- (raw_bits mn mx minf maxf msb lsb b nl _ Hraw) in Eb.
    apply bytes_bits_inj in Eb; [|exact Hb|exact (raw_front_ok _ _ _ _ _ _ _ _ Hraw)]. subst front.
    rewrite <- app_assoc in *. rewrite streaminfo_run; [|exact Hraw|apply Hf|exact Hl].
    pose proof Hraw as (H1 & H2 & H3 & H4 & H5 & H6 & H7 & H8). unfold is_byte in *. apply checks_reject; try lia.
    intros H. apply Hv. rewrite <- Esi. exact H.
  Qed.
End Fl.

Lemma be_split2 w : length w = 2%nat -> bytes_ok w -> exists v, 0 <= v < 2 ^ 16 /\ w = be_bytes 2 v.
Proof.
  destruct w as [|a [|b [|? ?]]]; try discriminate. intros _ H. inversion_clear H as [|? ? Ha H']. inversion_clear H' as [|? ? Hb _].
  exists (a * 256 + b). rewrite be2 by assumption. unfold is_byte in *. split; [lia|reflexivity].
Qed.
Lemma be_split3 w : length w = 3%nat -> bytes_ok w -> exists v, 0 <= v < 2 ^ 24 /\ w = be_bytes 3 v.
Proof.
  destruct w as [|a [|b [|c [|? ?]]]]; try discriminate. intros _ H. inversion_clear H as [|? ? Ha H']. inversion_clear H' as [|? ? Hb H].
  inversion_clear H as [|? ? Hc _].
  exists ((a * 256 + b) * 256 + c). rewrite be3 by assumption. unfold is_byte in *. split; [lia|reflexivity].
Qed.
Lemma be_split4 w : length w = 4%nat -> bytes_ok w -> exists v, 0 <= v < 2 ^ 32 /\ w = be_bytes 4 v.
Proof.
  destruct w as [|a [|b [|c [|d [|? ?]]]]]; try discriminate. intros _ H. inversion_clear H as [|? ? Ha H']. inversion_clear H' as [|? ? Hb H].
  inversion_clear H as [|? ? Hc H']. inversion_clear H' as [|? ? Hd _].
  exists (((a * 256 + b) * 256 + c) * 256 + d). rewrite be4 by assumption. unfold is_byte in *. split; [lia|reflexivity].
Qed.
Lemma take_split (w : list Z) n k : length w = (n + k)%nat -> bytes_ok w ->
  exists a b, w = a ++ b /\ length a = n /\ length b = k /\ bytes_ok a /\ bytes_ok b.
Proof.
  intros H Hb. exists (firstn n w), (skipn n w). pose proof (firstn_skipn n w) as E. split; [auto|].
  rewrite firstn_length, skipn_length. split; [lia|]. split; [lia|]. rewrite <- E in Hb. apply Forall_app in Hb. tauto.
Qed.

Lemma streaminfo_total w : length w = 34%nat -> bytes_ok w -> exists si, streaminfo_fits si /\ streaminfo_code si w.
Proof.
  intros Hl Hb.
  destruct (take_split w 2 32 Hl Hb) as (w1 & r1 & -> & L1 & Hl1 & B1 & Hb1). destruct (be_split2 w1 L1 B1) as (mn & H1 & ->).
  destruct (take_split r1 2 30 Hl1 Hb1) as (w2 & r2 & -> & L2 & Hl2 & B2 & Hb2). destruct (be_split2 w2 L2 B2) as (mx & H2 & ->).
  destruct (take_split r2 3 27 Hl2 Hb2) as (w3 & r3 & -> & L3 & Hl3 & B3 & Hb3). destruct (be_split3 w3 L3 B3) as (minf & H3 & ->).
  destruct (take_split r3 3 24 Hl3 Hb3) as (w4 & r4 & -> & L4 & Hl4 & B4 & Hb4). destruct (be_split3 w4 L4 B4) as (maxf & H4 & ->).
  destruct (take_split r4 2 22 Hl4 Hb4) as (w5 & r5 & -> & L5 & Hl5 & B5 & Hb5). destruct (be_split2 w5 L5 B5) as (msb & H5 & ->).
  destruct r5 as [|lsb [|b r5]]; try discriminate. inversion_clear Hb5 as [|? ? H6 Hb6]. inversion_clear Hb6 as [|? ? H7 Hb7].
  destruct (take_split r5 4 16 ltac:(cbn in Hl5; lia) Hb7) as (w8 & md5 & -> & L8 & Hl8 & B8 & Hb8). destruct (be_split4 w8 L8 B8) as (nl & H8 & ->).
  assert (raw_ok mn mx minf maxf msb lsb b nl) as Hraw by (repeat (split; [assumption|]); assumption).
  exists (raw_info mn mx minf maxf msb lsb b nl md5). split; [apply raw_fits; assumption|].
  exists (raw_front mn mx minf maxf msb lsb b nl). split; [unfold raw_front; rewrite <- !app_assoc; reflexivity|].
  split; [apply raw_front_ok, Hraw|apply (raw_bits mn mx minf maxf msb lsb b nl md5 Hraw)].
Qed.
Lemma streaminfo_code_inj si si' w : streaminfo_fits si -> streaminfo_fits si' -> streaminfo_code si w -> streaminfo_code si' w -> si = si'.
Proof.
  intros Hf Hf' (f & -> & Hb & Eb) (f' & E & Hb' & Eb').
  assert (length f = 18%nat /\ length f' = 18%nat) as [L L'].
  { apply (f_equal (@length bool)) in Eb, Eb'. rewrite bytes_bits_length in Eb, Eb'. unfold streaminfo_bits in Eb, Eb'.
    rewrite !app_length, !word_length in Eb, Eb' by lia. lia. }
  apply app_inj_length in E as [<- E]; [|lia]. rewrite Eb in Eb'. clear Eb Hb Hb' L L'. unfold streaminfo_bits in Eb'.
  destruct Hf as (H1 & H2 & H3 & H4 & H5 & H6 & H7 & H8 & H9 & H10). destruct Hf' as (K1 & K2 & K3 & K4 & K5 & K6 & K7 & K8 & K9 & K10).
  pose proof (known_range _ _ (pow2_pos 24 ltac:(lia)) H3). pose proof (known_range _ _ (pow2_pos 24 ltac:(lia)) H4). pose proof (known_range _ _ (pow2_pos 36 ltac:(lia)) H8).
  pose proof (known_range _ _ (pow2_pos 24 ltac:(lia)) K3). pose proof (known_range _ _ (pow2_pos 24 ltac:(lia)) K4). pose proof (known_range _ _ (pow2_pos 36 ltac:(lia)) K8).
  assert (forall n a b (x y : list bool), 0 <= n -> word n a ++ x = word n b ++ y -> 0 <= a < 2 ^ n -> 0 <= b < 2 ^ n -> a = b /\ x = y) as HI.
  { intros n a b x y Hn Ex Ha Hb. apply app_inj_length in Ex as [Ex ->]; [|rewrite !word_length by lia; reflexivity].
    split; [apply (word_inj n); assumption|reflexivity]. }
  apply HI in Eb' as [E1 Eb']; [|lia..]. apply HI in Eb' as [E2 Eb']; [|lia..]. apply HI in Eb' as [E3 Eb']; [|lia..].
  apply HI in Eb' as [E4 Eb']; [|lia..]. apply HI in Eb' as [E5 Eb']; [|lia..]. apply HI in Eb' as [E6 Eb']; [|lia..].
  apply HI in Eb' as [E7 Eb']; [|lia..].
  assert (known (si_samples si) = known (si_samples si')) as E8 by (apply (word_inj 36); [lia..|exact Eb']).
  assert (forall n o o', known_ok n o -> known_ok n o' -> known o = known o' -> o = o') as HK.
  { intros n o o' Ho Ho' Ek. rewrite <- (known_of_known n o Ho), <- (known_of_known n o' Ho'), Ek. reflexivity. }
  apply (HK _ _ _ H3 K3) in E3. apply (HK _ _ _ H4 K4) in E4. apply (HK _ _ _ H8 K8) in E8. clear - E E1 E2 E3 E4 E5 E6 E7 E8.
  destruct si as [mn mx minf maxf rate ch bps n md5], si' as [mn' mx' minf' maxf' rate' ch' bps' n' md5'].
  cbn [si_min_block_size si_max_block_size si_min_frame_size si_max_frame_size si_sample_rate si_channels si_bits_per_sample si_samples si_md5sum] in *.
  subst. f_equal; lia.
Qed.

(** ** Any stream *)
Lemma read_next_pair {S} (rb : ReadBytes S) m un st :
  mr_read_next rb m un st
  = (let (o, s) := (h <- read_metadata_block_header rb ;;
                    b <- read_metadata_block rb m un (mbh_block_type h) (mbh_length h) ;; ret (mbh_is_last h, b)) (mr_input st) in
     match o with
     | Ok (l, b) => (Ok b, mkMr s l)
     | Err e => (Err e, mkMr s (mr_done st))
     | Panic w => (Panic w, mkMr s (mr_done st))
     | UB w => (UB w, mkMr s (mr_done st))
     | OutOfFuel => (OutOfFuel, mkMr s (mr_done st))
     end).
Proof.
  destruct st as [s d]. unfold mr_read_next, mr_lift, bind, mr_set_done, ret. cbn [mr_input mr_done].
  destruct (read_metadata_block_header rb s) as [[h| | | |] s1]; try reflexivity. cbn [mr_input mr_done].
  destruct (read_metadata_block rb m un (mbh_block_type h) (mbh_length h) s1) as [[b| | | |] s2]; reflexivity.
Qed.

Section Stream.
  Context {S : Type} (rb : ReadBytes S) (t : tail) (D : S -> list Z -> Prop) (HS : stream rb t D).
  Context (m : build) (un : nat -> list Z) (Hun : forall n, length (un n) = n).
  Notation Hrs := (stream_rb_sim rb t D HS no_esc).
  Notation Hbs := (stream_bulk_sim rb t D HS no_esc).
  Notation Hbytes := (st_bytes rb t D HS).

  Lemma parses_accepts {A} (c : M S A) (c' : M (list Z) A) P st a w rest : sim no_esc D eq c c' -> parses c' P ->
    D st (w ++ rest) -> P a w -> exists st', c st = (Ok a, st') /\ D st' rest.
  Proof.
    intros Hs [_ HP] HD Hp. eapply sim_ok; [exact Hs|exact HD|]. apply HP; [exact (Hbytes _ _ HD)|exact Hp].
  Qed.
  Lemma parses_result {A} (c : M S A) (c' : M (list Z) A) P st l : sim no_esc D eq c c' -> parses c' P -> D st l ->
    match c st with
    | (Ok a, st') => exists w rest, l = w ++ rest /\ P a w /\ D st' rest
    | (Err _, _) => forall a w rest, l = w ++ rest -> ~ P a w
    | _ => False
    end.
  Proof.
    intros Hs HP HD. pose proof HP as [H1 H2]. destruct (sim_fst D c c' st l Hs HD) as [E HR]. specialize (H1 l (Hbytes _ _ HD)).
    destruct (c st) as [o st'], (c' l) as [o' l'] eqn:E'. cbn [fst snd] in *. subst o'. destruct o as [a|e| | |]; auto.
    - destruct H1 as (w & -> & Hw). exists w, l'. split; [reflexivity|]. split; [exact Hw|]. apply HR. eexists; reflexivity.
    - intros a w rest -> Hp. rewrite (H2 a w rest (Hbytes _ _ HD) Hp) in E'. discriminate.
  Qed.

  Lemma block_sim ty n : 0 <= n < 2 ^ 32 -> sim no_esc D eq (read_metadata_block rb m un ty n) (read_metadata_block (fl_rb t) m un ty n).
  Proof. intros Hn. apply read_metadata_block_sim; auto; [exact Hrs|exact Hbs]. Qed.

  Theorem block_accepts st ty w b rest : body_code ty w b -> len w < 2 ^ 32 -> D st (w ++ rest) ->
    exists st', read_metadata_block rb m un ty (len w) st = (Ok b, st') /\ D st' rest.
  Proof.
    intros Hc Hl HD. pose proof (len_nonneg w). eapply parses_accepts; [apply block_sim; lia|apply (block_parses t m un Hun); [|lia]|exact HD|].
    - inversion Hc; subst; lia.
    - split; [exact Hc|reflexivity].
  Qed.
  Theorem block_result st ty n l : 0 <= ty <= 127 -> 0 <= n < 2 ^ 32 -> D st l ->
    match read_metadata_block rb m un ty n st with
    | (Ok b, st') => exists w rest, l = w ++ rest /\ len w = n /\ body_code ty w b /\ D st' rest
    | (Err _, _) => forall b w rest, l = w ++ rest -> len w = n -> ~ body_code ty w b
    | _ => False
    end.
  Proof.
    intros Hty Hn HD. pose proof (parses_result _ _ _ st l (block_sim ty n Hn) (block_parses t m un Hun ty n Hty Hn) HD) as H.
    destruct (read_metadata_block rb m un ty n st) as [[b|e| | |] st']; auto.
    - destruct H as (w & rest & -> & [H1 H2] & H3). eauto 10.
    - intros b w rest El Hl Hc. apply (H b w rest El). auto.
  Qed.
  (** Types beyond 127 do not fit into a header, but can be passed. *)
  Theorem block_large_type st ty n l : 128 <= ty -> 0 <= n < 2 ^ 32 -> D st l ->
    match read_metadata_block rb m un ty n st with
    | (Ok b, st') => exists w rest, l = w ++ rest /\ len w = n /\ b = MbReserved /\ D st' rest
    | (Err _, _) => len l < n
    | _ => False
    end.
  Proof.
    intros Hty Hn HD.
    assert (parses (read_metadata_block (fl_rb t) m un ty n) (fun b w => b = MbReserved /\ len w = n)) as HP.
    { unfold read_metadata_block. replace (ty =? 0) with false by lia. replace (ty =? 1) with false by lia.
      replace (ty =? 2) with false by lia. replace (ty =? 3) with false by lia. replace (ty =? 4) with false by lia.
      replace (ty =? 5) with false by lia. replace (ty =? 6) with false by lia. replace (ty =? 127) with false by lia.
      apply skip_block; lia. }
    pose proof (parses_result _ _ _ st l (block_sim ty n Hn) HP HD) as H.
    destruct (read_metadata_block rb m un ty n st) as [[b|e| | |] st']; auto.
    - destruct H as (w & rest & -> & [H1 H2] & H3). eauto 10.
    - destruct (Z.lt_ge_cases (len l) n) as [Hlt|Hge]; [exact Hlt|]. exfalso.
      apply (H MbReserved (firstn (Z.to_nat n) l) (skipn (Z.to_nat n) l)); [symmetry; apply firstn_skipn|].
      split; [reflexivity|]. unfold len in *. rewrite firstn_length. lia.
  Qed.

  Lemma with_header_sim : sim no_esc D eq (read_metadata_block_with_header rb m un) (read_metadata_block_with_header (fl_rb t) m un).
  Proof. apply read_metadata_block_with_header_sim; auto; [exact Hrs|exact Hbs]. Qed.
  Theorem header_accepts st last b w rest : block_code last b w -> D st (w ++ rest) ->
    exists st', read_metadata_block_with_header rb m un st = (Ok b, st') /\ D st' rest.
  Proof.
    intros Hc HD. eapply parses_accepts; [apply with_header_sim|apply (block_with_header_parses t m un Hun)|exact HD|]. cbv beta. eauto.
  Qed.
  Theorem header_result st l : D st l ->
    match read_metadata_block_with_header rb m un st with
    | (Ok b, st') => exists last w rest, l = w ++ rest /\ block_code last b w /\ D st' rest
    | (Err _, _) => forall last b w rest, l = w ++ rest -> ~ block_code last b w
    | _ => False
    end.
  Proof.
    intros HD. pose proof (parses_result _ _ _ st l with_header_sim (block_with_header_parses t m un Hun) HD) as H.
    destruct (read_metadata_block_with_header rb m un st) as [[b|e| | |] st']; auto.
    - destruct H as (w & rest & -> & [last Hc] & H3). eauto 10.
    - intros last b w rest El Hc. apply (H b w rest El). eauto.
  Qed.

  (** ** The streaminfo block *)
  Theorem streaminfo_accepted_iff st si w rest : streaminfo_fits si -> streaminfo_code si w -> D st (w ++ rest) ->
    (streaminfo_valid si -> exists st', read_metadata_block rb m un 0 34 st = (Ok (MbStreamInfo si), st') /\ D st' rest)
    /\ (~ streaminfo_valid si -> exists r, fst (read_metadata_block rb m un 0 34 st) = Err (FormatError r)).
  Proof.
    intros Hf Hc HD. pose proof (streaminfo_code_len si w Hf Hc) as Hl. split.
    - intros Hv. rewrite <- Hl. apply block_accepts; [constructor; assumption|lia|exact HD].
    - intros Hv. destruct (sim_fst D _ _ st _ (block_sim 0 34 ltac:(lia)) HD) as [-> _].
      destruct (streaminfo_reject t m si w rest Hf Hc Hv (Hbytes _ _ HD)) as (r & E). exists r.
      unfold read_metadata_block. change (0 =? 0) with true. change (34 =? 34) with true. cbv iota. unfold bind.
      destruct (read_streaminfo_block (fl_rb t) m (w ++ rest)) as [o s]. cbn [fst] in E. rewrite E. reflexivity.
  Qed.
  Theorem streaminfo_length st n : n <> 34 -> exists r, fst (read_metadata_block rb m un 0 n st) = Err (FormatError r).
  Proof.
    intros Hn. unfold read_metadata_block. change (0 =? 0) with true. cbv iota. replace (n =? 34) with false by lia. eexists. reflexivity.
  Qed.

  (** ** The iterator *)
  Lemma next_parses : parses (h <- read_metadata_block_header (fl_rb t) ;;
      b <- read_metadata_block (fl_rb t) m un (mbh_block_type h) (mbh_length h) ;; ret (mbh_is_last h, b))
    (fun r w => block_code (fst r) (snd r) w).
  Proof.
    eapply parses_conseq.
    { eapply parses_bind; [apply header_parses|]. intros h (? & (H1 & H2 & _) & _).
      apply (map_parses _ (fun b => (mbh_is_last h, b))). apply (block_parses t m un Hun (mbh_block_type h) (mbh_length h)); lia. }
    intros [last b] w _. cbv beta. cbn [fst snd]. split.
    - intros (h & w1 & w2 & -> & (H1 & H2 & ->) & b' & E & H3 & H4). injection E as -> ->. exists (mbh_block_type h), w2. split; [exact H3|].
      split; [lia|]. rewrite H4, <- app_assoc. reflexivity.
    - intros (ty & body & H1 & H2 & ->). exists (mkMbh last ty (len body)), ([128 * Z.b2z last + ty] ++ be_bytes 3 (len body)), body.
      cbn [mbh_is_last mbh_block_type mbh_length]. split; [rewrite <- app_assoc; reflexivity|]. pose proof (len_nonneg body).
      split; [split; [inversion H1; subst; lia|split; [lia|reflexivity]]|]. exists b. auto.
  Qed.
  Lemma next_pair_sim : sim no_esc D eq
    (h <- read_metadata_block_header rb ;; b <- read_metadata_block rb m un (mbh_block_type h) (mbh_length h) ;; ret (mbh_is_last h, b))
    (h <- read_metadata_block_header (fl_rb t) ;; b <- read_metadata_block (fl_rb t) m un (mbh_block_type h) (mbh_length h) ;; ret (mbh_is_last h, b)).
  Proof.
    eapply sim_bind; [apply (read_metadata_block_header_sim no_esc D rb (fl_rb t)); exact Hrs|]. intros h ? [<- Hl].
    eapply sim_bind_eq; [apply block_sim; lia|]. intros b. apply sim_ret. reflexivity.
  Qed.

  (** [read_next] *)
  Lemma read_next_result st l d : D st l ->
    (exists last b w rest st', block_code last b w /\ l = w ++ rest /\ D st' rest /\ mr_read_next rb m un (mkMr st d) = (Ok b, mkMr st' last))
    \/ (exists e st', (forall last b w rest, l = w ++ rest -> ~ block_code last b w) /\ mr_read_next rb m un (mkMr st d) = (Err e, mkMr st' d)).
  Proof.
    intros HD. rewrite read_next_pair. cbn [mr_input mr_done].
    pose proof (parses_result _ _ _ st l next_pair_sim next_parses HD) as H.
    destruct ((h <- read_metadata_block_header rb ;; _) st) as [[[last b]|e| | |] st']; try contradiction.
    - left. destruct H as (w & rest & -> & Hc & HD'). cbn [fst snd] in Hc. exists last, b, w, rest, st'. auto.
    - right. exists e, st'. split; [|reflexivity]. intros last b w rest El Hc. apply (H (last, b) w rest El). exact Hc.
  Qed.
  Lemma block_code_len last b w : block_code last b w -> (4 <= length w)%nat.
  Proof.
    intros (ty & body & _ & _ & ->). rewrite !app_length, be_bytes_length. cbn [length]. lia.
  Qed.
  Lemma next_result st l : D st l ->
    (exists last b w rest st', block_code last b w /\ l = w ++ rest /\ D st' rest /\ mr_next rb m un (mkMr st false) = (Ok (Some (ROk b)), mkMr st' last))
    \/ (exists e st', (forall last b w rest, l = w ++ rest -> ~ block_code last b w) /\ mr_next rb m un (mkMr st false) = (Ok (Some (RErr e)), mkMr st' true)).
  Proof.
    intros HD. unfold mr_next. rewrite bind_get. cbn [mr_done].
    destruct (read_next_result st l false HD) as [(last & b & w & rest & st' & Hc & El & HD' & E)|(e & st' & Hn & E)].
    - left. exists last, b, w, rest, st'. repeat (split; [assumption|]). unfold bind, catch. rewrite E. reflexivity.
    - right. exists e, st'. split; [exact Hn|]. unfold bind, catch. rewrite E. reflexivity.
  Qed.
End Stream.
