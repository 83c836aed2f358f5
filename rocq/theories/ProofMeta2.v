(** Text, streaminfo and Vorbis comments. *)
From Verif Require Export ProofMeta.
From Verif Require Import SpecReader.

Lemma bytes_ok_app a b : bytes_ok a -> bytes_ok b -> bytes_ok (a ++ b).
Proof. intros. apply Forall_app. auto. Qed.

(** ** UTF-8 *)
Ltac decide_tests :=
  repeat match goal with
  | |- context [?a <? ?b] => first [replace (a <? b) with true by lia | replace (a <? b) with false by lia]
  | |- context [?a <=? ?b] => first [replace (a <=? b) with true by lia | replace (a <=? b) with false by lia]
  | |- context [?a =? ?b] => first [replace (a =? b) with true by lia | replace (a =? b) with false by lia]
  end.

Lemma utf8_valid_char c r : scalar c -> utf8_valid (utf8_char c ++ r) = utf8_valid r.
Proof.
  unfold scalar. intros Hc. unfold utf8_char.
  destruct (c <? 0x80) eqn:E1; [cbn [app utf8_valid]; decide_tests; reflexivity|].
  destruct (c <? 0x800) eqn:E2.
  { cbn [app utf8_valid]. unfold is_cont. decide_tests. reflexivity. }
  destruct (c <? 0x10000) eqn:E3.
  { cbn [app utf8_valid]. unfold is_cont.
    replace (224 + c / 4096 <? 128) with false by lia. replace (224 + c / 4096 <=? 223) with false by lia.
    rewrite andb_false_r.
    replace (224 <=? 224 + c / 4096) with true by lia. replace (224 + c / 4096 <=? 239) with true by lia. cbn [andb].
    replace (128 <=? 128 + c / 64 mod 64) with true by lia. replace (128 + c / 64 mod 64 <=? 191) with true by lia.
    replace (128 <=? 128 + c mod 64) with true by lia. replace (128 + c mod 64 <=? 191) with true by lia. cbn [andb].
    replace (if 224 + c / 4096 =? 224 then 160 <=? 128 + c / 64 mod 64 else true) with true
      by (destruct (224 + c / 4096 =? 224) eqn:E; [|reflexivity]; symmetry; lia).
    replace (if 224 + c / 4096 =? 237 then 128 + c / 64 mod 64 <=? 159 else true) with true
      by (destruct (224 + c / 4096 =? 237) eqn:E; [|reflexivity]; symmetry; lia). reflexivity. }
  cbn [app utf8_valid]. unfold is_cont.
  replace (240 + c / 262144 <? 128) with false by lia. replace (240 + c / 262144 <=? 223) with false by lia.
  replace (240 + c / 262144 <=? 239) with false by lia. rewrite !andb_false_r.
  replace (240 <=? 240 + c / 262144) with true by lia. replace (240 + c / 262144 <=? 244) with true by lia. cbn [andb].
  replace (128 <=? 128 + c / 4096 mod 64) with true by lia. replace (128 + c / 4096 mod 64 <=? 191) with true by lia.
  replace (128 <=? 128 + c / 64 mod 64) with true by lia. replace (128 + c / 64 mod 64 <=? 191) with true by lia.
  replace (128 <=? 128 + c mod 64) with true by lia. replace (128 + c mod 64 <=? 191) with true by lia. cbn [andb].
  replace (if 240 + c / 262144 =? 240 then 144 <=? 128 + c / 4096 mod 64 else true) with true
    by (destruct (240 + c / 262144 =? 240) eqn:E; [|reflexivity]; symmetry; lia).
  replace (if 240 + c / 262144 =? 244 then 128 + c / 4096 mod 64 <=? 143 else true) with true
    by (destruct (240 + c / 262144 =? 244) eqn:E; [|reflexivity]; symmetry; lia). reflexivity.
Qed.

Lemma utf8_cons c l r : scalar c -> l = utf8_char c ++ r -> utf8 r -> utf8 l.
Proof.
  intros Hc -> (cs & Hcs & ->). exists (c :: cs). split; [constructor; assumption|reflexivity].
Qed.

Lemma utf8_valid_ok l : utf8_valid l = true <-> utf8 l.
Proof.
  split.
  - assert (forall n l, (length l <= n)%nat -> utf8_valid l = true -> utf8 l) as X; [|apply (X (length l)); lia].
    clear l. induction n as [|n IH]; intros l Hn Hv.
    { destruct l; [|cbn in Hn; lia]. exists []. split; [constructor|reflexivity]. }
    destruct l as [|b0 r0]; [exists []; split; [constructor|reflexivity]|]. cbn [utf8_valid] in Hv. cbn [length] in Hn.
    unfold is_cont in Hv.
    destruct (b0 <? 128) eqn:E1.
    { apply andb_prop in Hv as [Hb Hv]. apply (utf8_cons b0 _ r0); [unfold scalar; lia| |apply IH; [lia|exact Hv]].
      unfold utf8_char. replace (b0 <? 0x80) with true by lia. reflexivity. }
    destruct ((194 <=? b0) && (b0 <=? 223)) eqn:E2.
    { destruct r0 as [|b1 r1]; [discriminate|]. cbn [length] in Hn. apply andb_prop in Hv as [Hb Hv].
      apply (utf8_cons ((b0 - 192) * 64 + (b1 - 128)) _ r1); [unfold scalar; lia| |apply IH; [lia|exact Hv]].
      unfold utf8_char. decide_tests. cbn [app]. repeat f_equal; lia. }
    destruct ((224 <=? b0) && (b0 <=? 239)) eqn:E3.
    { destruct r0 as [|b1 [|b2 r2]]; try discriminate. cbn [length] in Hn.
      rewrite !andb_true_iff in Hv. destruct Hv as [[[[[H1 H1'] [H2 H2']] H3] H4] Hv].
      assert (b0 <> 224 \/ 160 <= b1) as H3' by (destruct (b0 =? 224) eqn:E; lia).
      assert (b0 <> 237 \/ b1 <= 159) as H4' by (destruct (b0 =? 237) eqn:E; lia).
      apply (utf8_cons (((b0 - 224) * 64 + (b1 - 128)) * 64 + (b2 - 128)) _ r2); [unfold scalar; lia| |apply IH; [lia|exact Hv]].
      unfold utf8_char. set (c := ((b0 - 224) * 64 + (b1 - 128)) * 64 + (b2 - 128)).
      assert (c = ((b0 - 224) * 64 + (b1 - 128)) * 64 + (b2 - 128)) as Ec by reflexivity. clearbody c.
      replace (c <? 0x80) with false by lia. replace (c <? 0x800) with false by lia. replace (c <? 0x10000) with true by lia.
      cbn [app]. repeat f_equal; lia. }
    destruct ((240 <=? b0) && (b0 <=? 244)) eqn:E4; [|discriminate].
    destruct r0 as [|b1 [|b2 [|b3 r3]]]; try discriminate. cbn [length] in Hn.
    rewrite !andb_true_iff in Hv. destruct Hv as [[[[[[H1 H1'] [H2 H2']] [H5 H5']] H3] H4] Hv].
    assert (b0 <> 240 \/ 144 <= b1) as H3' by (destruct (b0 =? 240) eqn:E; lia).
    assert (b0 <> 244 \/ b1 <= 143) as H4' by (destruct (b0 =? 244) eqn:E; lia).
    apply (utf8_cons ((((b0 - 240) * 64 + (b1 - 128)) * 64 + (b2 - 128)) * 64 + (b3 - 128)) _ r3); [unfold scalar; lia| |apply IH; [lia|exact Hv]].
    unfold utf8_char. set (c := (((b0 - 240) * 64 + (b1 - 128)) * 64 + (b2 - 128)) * 64 + (b3 - 128)).
    assert (c = (((b0 - 240) * 64 + (b1 - 128)) * 64 + (b2 - 128)) * 64 + (b3 - 128)) as Ec by reflexivity. clearbody c.
    replace (c <? 0x80) with false by lia. replace (c <? 0x800) with false by lia. replace (c <? 0x10000) with false by lia.
    cbn [app]. repeat f_equal; lia.
  - intros (cs & Hcs & ->). induction Hcs as [|c cs Hc Hcs IH]; [reflexivity|]. cbn [flat_map]. rewrite utf8_valid_char by exact Hc. exact IH.
Qed.

Lemma utf8_ascii_app n v : Forall (fun b => 0 <= b < 128) n -> utf8 (n ++ v) <-> utf8 v.
Proof.
  intros H. rewrite <- !utf8_valid_ok. induction H as [|b n Hb H IH]; [reflexivity|].
  cbn [app utf8_valid]. replace (b <? 128) with true by lia. replace (0 <=? b) with true by lia. exact IH.
Qed.

(** ** Streaminfo *)
Lemma word_split a b v : 0 <= a -> 0 <= b -> word (a + b) v = word a (v / 2 ^ b) ++ word b v.
Proof.
  intros Ha Hb. unfold word. destruct (Z_of_nat_complete b Hb) as [k ->]. destruct (Z_of_nat_complete a Ha) as [n ->].
  replace (Z.to_nat (Z.of_nat n + Z.of_nat k)) with (n + k)%nat by lia. rewrite !Nat2Z.id.
  assert (0 <= v mod 2 ^ Z.of_nat k < 2 ^ Z.of_nat k) as Hr by (apply Z.mod_pos_bound; apply Z.pow_pos_nonneg; lia).
  rewrite <- (bits_of_mod k v k) by lia. rewrite <- (bits_of_app n k (v / 2 ^ Z.of_nat k) _ Hr).
  f_equal. rewrite Z.mul_comm. apply Z_div_mod_eq_full.
Qed.
Lemma word_mod a v : 0 <= a -> word a (v mod 2 ^ a) = word a v.
Proof. intros Ha. unfold word. rewrite <- (Z2Nat.id a Ha) at 2. apply bits_of_mod. lia. Qed.
Lemma word_eq a u v : 0 <= a -> u mod 2 ^ a = v mod 2 ^ a -> word a u = word a v.
Proof. intros Ha E. rewrite <- (word_mod a u), <- (word_mod a v), E by exact Ha. reflexivity. Qed.
Lemma word_inj a u v : 0 <= a -> 0 <= u < 2 ^ a -> 0 <= v < 2 ^ a -> word a u = word a v -> u = v.
Proof. intros Ha Hu Hv E. apply (bits_of_inj (Z.to_nat a)); rewrite ?Z2Nat.id by lia; assumption. Qed.
Lemma word_length a v : 0 <= a -> length (word a v) = Z.to_nat a.
Proof. intros. apply bits_of_length. Qed.

Lemma be_bytes_bits n v : bytes_bits (be_bytes n v) = word (8 * Z.of_nat n) v.
Proof.
  induction n as [|n IH]; [reflexivity|]. cbn [be_bytes]. rewrite bytes_bits_cons, IH.
  replace (8 * Z.of_nat (S n)) with (8 + 8 * Z.of_nat n) by lia. rewrite word_split by lia. f_equal.
  change 256 with (2 ^ 8). rewrite <- Z.pow_mul_r by lia.
  change (bits_of 8) with (word 8). apply (word_mod 8). lia.
Qed.

(** How the packed fields lie in the bytes. *)
Lemma packed_fields msb lsb b nl : 0 <= nl < 2 ^ 32 ->
  word 16 msb ++ word 8 lsb ++ word 8 b ++ word 32 nl
  = word 20 (msb * 16 + lsb mod 256 / 16) ++ word 3 (lsb / 2 mod 8) ++ word 5 (lsb mod 2 * 16 + b mod 256 / 16)
    ++ word 36 (b mod 16 * 2 ^ 32 + nl).
Proof.
  intros Hn.
  pose proof (word_split 4 4 lsb ltac:(lia) ltac:(lia)) as E1. change (4 + 4) with 8 in E1.
  pose proof (word_split 3 1 lsb ltac:(lia) ltac:(lia)) as E2. change (3 + 1) with 4 in E2.
  pose proof (word_split 4 4 b ltac:(lia) ltac:(lia)) as E3. change (4 + 4) with 8 in E3.
  pose proof (word_split 16 4 (msb * 16 + lsb mod 256 / 16) ltac:(lia) ltac:(lia)) as E4. change (16 + 4) with 20 in E4.
  pose proof (word_split 1 4 (lsb mod 2 * 16 + b mod 256 / 16) ltac:(lia) ltac:(lia)) as E5. change (1 + 4) with 5 in E5.
  pose proof (word_split 4 32 (b mod 16 * 2 ^ 32 + nl) ltac:(lia) ltac:(lia)) as E6. change (4 + 32) with 36 in E6.
  rewrite E1, E2, E3, E4, E5, E6. rewrite <- !app_assoc.
  repeat (f_equal; [apply word_eq; lia|]). apply word_eq; lia.
Qed.

Definition known_of (x : Z) : option Z := if x =? 0 then None else Some x.
Lemma known_known x : known (known_of x) = x.
Proof. unfold known_of. destruct (x =? 0) eqn:E; cbn; lia. Qed.
Lemma known_of_ok n x : 0 <= x < n -> known_ok n (known_of x).
Proof. unfold known_of. destruct (x =? 0) eqn:E; cbn; [trivial|lia]. Qed.
Lemma known_of_known n o : known_ok n o -> known_of (known o) = o.
Proof. destruct o as [x|]; cbn; [|reflexivity]. intros H. unfold known_of. replace (x =? 0) with false by lia. reflexivity. Qed.
Lemma known_range n o : 0 < n -> known_ok n o -> 0 <= known o < n.
Proof. destruct o; cbn; lia. Qed.

(** The streaminfo with the given raw values. *)
Definition raw_info (mn mx minf maxf msb lsb b nl : Z) (md5 : list Z) : stream_info :=
  mkSi mn mx (known_of minf) (known_of maxf) (msb * 16 + lsb / 16) (lsb / 2 mod 8 + 1)
    (lsb mod 2 * 16 + b / 16 + 1) (known_of (b mod 16 * 2 ^ 32 + nl)) md5.
Definition raw_front (mn mx minf maxf msb lsb b nl : Z) : list Z :=
  be_bytes 2 mn ++ be_bytes 2 mx ++ be_bytes 3 minf ++ be_bytes 3 maxf ++ be_bytes 2 msb ++ [lsb] ++ [b] ++ be_bytes 4 nl.
Definition raw_ok (mn mx minf maxf msb lsb b nl : Z) : Prop :=
  0 <= mn < 2 ^ 16 /\ 0 <= mx < 2 ^ 16 /\ 0 <= minf < 2 ^ 24 /\ 0 <= maxf < 2 ^ 24 /\ 0 <= msb < 2 ^ 16
  /\ is_byte lsb /\ is_byte b /\ 0 <= nl < 2 ^ 32.

Lemma raw_bits mn mx minf maxf msb lsb b nl md5 : raw_ok mn mx minf maxf msb lsb b nl ->
  bytes_bits (raw_front mn mx minf maxf msb lsb b nl) = streaminfo_bits (raw_info mn mx minf maxf msb lsb b nl md5).
Proof.
  intros (H1 & H2 & H3 & H4 & H5 & H6 & H7 & H8). unfold is_byte in *. unfold raw_front, streaminfo_bits, raw_info.
  cbn [si_min_block_size si_max_block_size si_min_frame_size si_max_frame_size si_sample_rate si_channels si_bits_per_sample si_samples].
  rewrite !bytes_bits_app, !be_bytes_bits, !known_known. do 4 f_equal.
  change (bytes_bits [lsb]) with (word 8 lsb ++ []). change (bytes_bits [b]) with (word 8 b ++ []). rewrite !app_nil_r.
  pose proof (packed_fields msb lsb b nl H8) as E. rewrite (Z.mod_small lsb 256), (Z.mod_small b 256) in E by lia.
  replace (lsb / 2 mod 8 + 1 - 1) with (lsb / 2 mod 8) by lia.
  replace (lsb mod 2 * 16 + b / 16 + 1 - 1) with (lsb mod 2 * 16 + b / 16) by lia. exact E.
Qed.
Lemma raw_front_ok mn mx minf maxf msb lsb b nl : raw_ok mn mx minf maxf msb lsb b nl ->
  bytes_ok (raw_front mn mx minf maxf msb lsb b nl).
Proof.
  intros (H1 & H2 & H3 & H4 & H5 & H6 & H7 & H8). unfold raw_front.
  repeat (apply bytes_ok_app; [try apply be_bytes_ok|]); try apply be_bytes_ok; (constructor; [assumption|constructor]).
Qed.
Lemma raw_fits mn mx minf maxf msb lsb b nl md5 : raw_ok mn mx minf maxf msb lsb b nl ->
  bytes_ok md5 -> length md5 = 16%nat -> streaminfo_fits (raw_info mn mx minf maxf msb lsb b nl md5).
Proof.
  intros (H1 & H2 & H3 & H4 & H5 & H6 & H7 & H8) Hm Hl. unfold is_byte, streaminfo_fits, raw_info in *.
  cbn [si_min_block_size si_max_block_size si_min_frame_size si_max_frame_size si_sample_rate si_channels si_bits_per_sample si_samples si_md5sum].
  repeat (split; [first [assumption | apply known_of_ok; lia | lia]|]). exact Hl.
Qed.
(** Every streaminfo has raw values. *)
Lemma raw_exists si : streaminfo_fits si -> exists mn mx minf maxf msb lsb b nl,
  raw_ok mn mx minf maxf msb lsb b nl /\ raw_info mn mx minf maxf msb lsb b nl (si_md5sum si) = si.
Proof.
  intros (H1 & H2 & H3 & H4 & H5 & H6 & H7 & H8 & H9 & H10).
  pose proof (known_range _ _ (pow2_pos 24 ltac:(lia)) H3). pose proof (known_range _ _ (pow2_pos 24 ltac:(lia)) H4). pose proof (known_range _ _ (pow2_pos 36 ltac:(lia)) H8).
  exists (si_min_block_size si), (si_max_block_size si), (known (si_min_frame_size si)), (known (si_max_frame_size si)),
    (si_sample_rate si / 16), (si_sample_rate si mod 16 * 16 + (si_channels si - 1) * 2 + (si_bits_per_sample si - 1) / 16),
    ((si_bits_per_sample si - 1) mod 16 * 16 + known (si_samples si) / 2 ^ 32), (known (si_samples si) mod 2 ^ 32).
  split; [unfold raw_ok, is_byte; lia|]. unfold raw_info. rewrite (known_of_known _ _ H3), (known_of_known _ _ H4).
  destruct si as [mn mx minf maxf rate ch bps n md5]. cbn [si_min_block_size si_max_block_size si_min_frame_size si_max_frame_size si_sample_rate si_channels si_bits_per_sample si_samples si_md5sum] in *.
  f_equal; try lia. rewrite <- (known_of_known _ _ H8) at 3. f_equal. lia.
Qed.

Definition streaminfo_accepted (si : stream_info) (w : list Z) : Prop :=
  streaminfo_fits si /\ streaminfo_valid si /\ streaminfo_code si w.

Section Fl.
  Context (t : tail) (m : build).
  Notation rb := (fl_rb t).

  (** The checks after the values are read. *)
  Definition si_checks (mn mx minf maxf rate ch bps n : Z) (md5 : list Z) : M (list Z) stream_info :=
    if mx <? mn then fmt_err "inconsistent bounds, min block size > max block size"
    else if mn <? 16 then fmt_err "invalid block size, must be at least 16"
    else if (maxf <? minf) && negb (maxf =? 0) then fmt_err "inconsistent bounds, min frame size > max frame size"
    else if (rate =? 0) || (655350 <? rate) then fmt_err "invalid sample rate"
    else ret (mkSi mn mx (known_of minf) (known_of maxf) rate ch bps (known_of n) md5).
  Lemma checks_parses mn mx minf maxf rate ch bps n md5 : 0 <= rate -> 0 <= minf -> 0 <= maxf ->
    let si := mkSi mn mx (known_of minf) (known_of maxf) rate ch bps (known_of n) md5 in
    parses (si_checks mn mx minf maxf rate ch bps n md5) (fun x w => x = si /\ streaminfo_valid si /\ w = []).
  Proof.
    intros Hr Hm Hx si.
    assert (streaminfo_valid si <-> mn <= mx /\ 16 <= mn /\ (maxf = 0 \/ minf <= maxf) /\ 1 <= rate <= 655350) as E.
    { unfold streaminfo_valid, si. cbn [si_min_block_size si_max_block_size si_min_frame_size si_max_frame_size si_sample_rate].
      unfold known_of. destruct (minf =? 0) eqn:E1, (maxf =? 0) eqn:E2; lia. }
    unfold si_checks.
    eapply parses_conseq.
    - apply parses_if; [intros; apply parses_fail|intros _].
      apply parses_if; [intros; apply parses_fail|intros _].
      apply parses_if; [intros; apply parses_fail|intros _].
      apply parses_if; [intros; apply parses_fail|intros _]. apply parses_ret.
    - intros x w _. cbv beta. fold si.
      destruct (mx <? mn) eqn:C1; [rewrite E; split; [tauto|intros (_ & ? & _); lia]|].
      destruct (mn <? 16) eqn:C2; [rewrite E; split; [tauto|intros (_ & ? & _); lia]|].
      destruct ((maxf <? minf) && negb (maxf =? 0)) eqn:C3; [rewrite E; split; [tauto|intros (_ & ? & _); lia]|].
      destruct ((rate =? 0) || (655350 <? rate)) eqn:C4; [rewrite E; split; [tauto|intros (_ & ? & _); lia]|].
      split; [|tauto]. intros [-> ->]. split; [reflexivity|]. split; [|reflexivity]. apply E. lia.
  Qed.

  Lemma streaminfo_parses : parses (read_streaminfo_block rb m) streaminfo_accepted.
  Proof.
    eapply parses_conseq.
    - unfold read_streaminfo_block.
      eapply parses_bind; [apply be16_parses|intros mn (? & (_ & H1) & _)].
      eapply parses_bind; [apply be16_parses|intros mx (? & (_ & H2) & _)].
      eapply parses_bind; [apply be24_parses|intros minf (? & (_ & H3) & _)].
      eapply parses_bind; [apply be24_parses|intros maxf (? & (_ & H4) & _)].
      eapply parses_bind; [apply be16_parses|intros msb (? & (_ & H5) & _)].
      eapply parses_bind; [apply u8_parses|intros lsb (? & (_ & H6) & _)]. cbv zeta.
      unfold is_byte in H6.
      eapply parses_bind; [apply (parses_lift (lsb / 2 mod 8 + 1)); rewrite Z.shiftr_div_pow2 by lia; change 7 with (Z.ones 3); rewrite Z.land_ones by lia; apply chk_u8; lia|intros ch _].
      eapply parses_bind; [apply u8_parses|intros b (? & (_ & H7) & _)]. unfold is_byte in H7.
      eapply parses_bind.
      { apply (parses_lift (lsb mod 2 * 16 + b / 16 + 1)). change 1 with (Z.ones 1) at 1. rewrite Z.land_ones by lia.
        rewrite Z.shiftl_mul_pow2, Z.shiftr_div_pow2 by lia. rewrite u8_id by lia. rewrite lor_add by lia.
        change (2 ^ 4) with 16. change (2 ^ 1) with 2. apply chk_u8. lia. }
      intros bps _.
      eapply parses_bind; [apply be32_parses|intros nl (? & (_ & H8) & _)].
      eapply parses_bind; [apply into_parses|intros md5 _].
      change 15 with (Z.ones 4). rewrite Z.land_ones by lia.
      rewrite (Z.shiftl_mul_pow2 _ 32), (Z.shiftl_mul_pow2 msb), (Z.shiftr_div_pow2 lsb) by lia.
      rewrite (u32_id (msb * 2 ^ 4)), (u64_id (b mod 2 ^ 4 * 2 ^ 32)) by lia.
      rewrite (lor_add msb), (lor_add (b mod 2 ^ 4)) by lia.
      change (2 ^ 4) with 16. apply (checks_parses mn mx minf maxf); lia.
    - intros si w Hw. cbv beta. split.
      + intros (mn & ? & ? & -> & (-> & H1) & mx & ? & ? & -> & (-> & H2) & minf & ? & ? & -> & (-> & H3) & maxf & ? & ? & -> & (-> & H4)
           & msb & ? & ? & -> & (-> & H5) & lsb & ? & ? & -> & (-> & H6) & ? & ? & ? & -> & (-> & ->) & b & ? & ? & -> & (-> & H7)
           & ? & ? & ? & -> & (-> & ->) & nl & ? & ? & -> & (-> & H8) & md5 & ? & ? & -> & (<- & H9) & -> & Hv & ->).
        assert (raw_ok mn mx minf maxf msb lsb b nl) as Hraw by (repeat (split; [assumption|]); assumption).
        rewrite app_nil_r in *. rewrite !app_nil_l in *.
        assert (bytes_ok md5) as Hm.
        { clear - Hw. unfold bytes_ok in *. rewrite Forall_forall in *. intros y Hy. apply Hw. rewrite !in_app_iff. tauto. }
        split; [exact (raw_fits _ _ _ _ _ _ _ _ md5 Hraw Hm H9)|]. split; [exact Hv|].
        exists (raw_front mn mx minf maxf msb lsb b nl). split; [unfold raw_front; rewrite <- !app_assoc; reflexivity|].
        split; [exact (raw_front_ok _ _ _ _ _ _ _ _ Hraw)|apply (raw_bits mn mx minf maxf msb lsb b nl md5 Hraw)].
      + intros (Hf & Hv & front & -> & Hb & Eb). destruct (raw_exists si Hf) as (mn & mx & minf & maxf & msb & lsb & b & nl & Hraw & Esi).
        rewrite <- Esi in Eb at 1. rewrite <- (raw_bits mn mx minf maxf msb lsb b nl _ Hraw) in Eb.
        apply bytes_bits_inj in Eb; [|exact Hb|exact (raw_front_ok _ _ _ _ _ _ _ _ Hraw)]. subst front.
        destruct Hf as (_ & _ & _ & _ & _ & _ & _ & _ & _ & Hl). set (md5 := si_md5sum si) in *. clearbody md5.
        destruct Hraw as (H1 & H2 & H3 & H4 & H5 & H6 & H7 & H8). unfold raw_front. rewrite <- !app_assoc.
        eexists mn, _, _. split; [reflexivity|]. split; [split; [reflexivity|assumption]|].
        eexists mx, _, _. split; [reflexivity|]. split; [split; [reflexivity|assumption]|].
        eexists minf, _, _. split; [reflexivity|]. split; [split; [reflexivity|assumption]|].
        eexists maxf, _, _. split; [reflexivity|]. split; [split; [reflexivity|assumption]|].
        eexists msb, _, _. split; [reflexivity|]. split; [split; [reflexivity|assumption]|].
        eexists lsb, [lsb], _. split; [reflexivity|]. split; [split; [reflexivity|assumption]|].
        eexists _, [], _. split; [reflexivity|]. split; [split; reflexivity|].
        eexists b, [b], _. split; [reflexivity|]. split; [split; [reflexivity|assumption]|].
        eexists _, [], _. split; [reflexivity|]. split; [split; reflexivity|].
        eexists nl, (be_bytes 4 nl), _. split; [reflexivity|]. split; [split; [reflexivity|assumption]|].
        eexists md5, md5, []. split; [symmetry; apply app_nil_r|]. split; [split; [reflexivity|exact Hl]|].
        unfold raw_info in Esi. rewrite Esi. auto.
  Qed.
End Fl.
