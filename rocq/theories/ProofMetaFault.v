(** The errors of metadata parsing on the list of bytes still to come. *)
From Verif Require Export SpecMetaFault ProofMeta5.
From Verif Require Import SpecReader.

(** [c] fails with [e] exactly on the strings of [F], or with the error of the end. *)
Definition flaws {A} (t : tail) (c : M (list Z) A) (F : error -> list Z -> Prop) : Prop :=
  (forall l e l', bytes_ok l -> c l = (Err e, l') -> (exists w, l = w ++ l' /\ F e w) \/ e = tail_error t)
  /\ forall e w rest, bytes_ok (w ++ rest) -> F e w -> c (w ++ rest) = (Err e, rest).

Lemma flaws_conseq {A} t (c : M (list Z) A) (F G : error -> list Z -> Prop) : flaws t c F ->
  (forall e w, bytes_ok w -> (F e w <-> G e w)) -> flaws t c G.
Proof.
  intros [H1 H2] HFG. split.
  - intros l e l' Hl E. destruct (H1 l e l' Hl E) as [(w & -> & Hw)|H]; [|auto]. left. exists w. split; [reflexivity|].
    apply HFG; [|exact Hw]. apply Forall_app in Hl. tauto.
  - intros e w rest Hl Hg. apply H2; [exact Hl|]. apply HFG; [|exact Hg]. apply Forall_app in Hl. tauto.
Qed.
Definition no_flaw : error -> list Z -> Prop := fun _ _ => False.
Lemma flaws_ret {A} t (a : A) : flaws t (ret a) no_flaw.
Proof. split; [intros; discriminate|intros ? ? ? _ []]. Qed.
Lemma flaws_fail {A} t e : flaws t (@fail (list Z) A e) (fun e' w => e' = e /\ w = []).
Proof.
  split.
  - intros l e' l' _ E. injection E as <- <-. left. exists []. auto.
  - intros e' w rest _ [-> ->]. reflexivity.
Qed.
Lemma flaws_bind {A B} t (c : M (list Z) A) (f : A -> M (list Z) B) P F G :
  parses c P -> flaws t c F -> (forall a, (exists w, P a w /\ bytes_ok w) -> flaws t (f a) (G a)) ->
  flaws t (bind c f) (fun e w => F e w \/ exists a w1 w2, w = w1 ++ w2 /\ P a w1 /\ G a e w2).
Proof.
  intros [C1 C2] [F1 F2] HF. split.
  - intros l e l' Hl. specialize (C1 l Hl). unfold bind. destruct (c l) as [[a|e1| | |] rest] eqn:E; try discriminate.
    + destruct C1 as (w & -> & Hw). pose proof Hl as Hl'. apply Forall_app in Hl' as [Hbw Hbr]. intros E2.
      destruct (HF a (ex_intro _ w (conj Hw Hbw))) as [G1 _]. destruct (G1 rest e l' Hbr E2) as [(w2 & -> & Hw2)|H]; [|auto].
      left. exists (w ++ w2). split; [apply app_assoc|]. right. eauto 6.
    + intros E2. injection E2 as <- <-. destruct (F1 l e1 rest Hl E) as [(w & -> & Hw)|H]; [|auto]. left. exists w. auto.
  - intros e w rest Hl [HFw|(a & w1 & w2 & -> & HP & HG)].
    + unfold bind. rewrite (F2 e w rest Hl HFw). reflexivity.
    + rewrite <- app_assoc in *. unfold bind. rewrite (C2 a w1 _ Hl HP).
      pose proof Hl as Hl'. apply Forall_app in Hl' as [Hbw Hbr]. destruct (HF a (ex_intro _ w1 (conj HP Hbw))) as [_ G2].
      apply G2; assumption.
Qed.
Lemma flaws_then {A B} t (c : M (list Z) A) (f : A -> M (list Z) B) P G :
  parses c P -> flaws t c no_flaw -> (forall a, (exists w, P a w /\ bytes_ok w) -> flaws t (f a) (G a)) ->
  flaws t (bind c f) (fun e w => exists a w1 w2, w = w1 ++ w2 /\ P a w1 /\ G a e w2).
Proof.
  intros HP HF HG. eapply flaws_conseq; [exact (flaws_bind t c f P no_flaw G HP HF HG)|]. intros e w _. cbv beta. unfold no_flaw. tauto.
Qed.
Lemma flaws_lift {A B} t (a : A) o (f : A -> M (list Z) B) F : o = Ok a -> flaws t (f a) F -> flaws t (bind (lift o) f) F.
Proof. intros -> H. exact H. Qed.
Lemma flaws_alloc {B} t n sz (k : M (list Z) B) F : flaws t k F -> flaws t (rb_alloc (fl_rb t) n sz ;;; k) F.
Proof. intros H. exact H. Qed.
Lemma flaws_false {A} t (c : M (list Z) A) F : flaws t c no_flaw -> (forall e w, bytes_ok w -> ~ F e w) -> flaws t c F.
Proof. intros H HF. eapply flaws_conseq; [exact H|]. intros e w Hw. unfold no_flaw. split; [tauto|apply HF, Hw]. Qed.
Lemma flaws_one {A} t e (F : error -> list Z -> Prop) : (forall e' w, bytes_ok w -> (F e' w <-> e' = e /\ w = [])) -> flaws t (@fail (list Z) A e) F.
Proof. intros H. eapply flaws_conseq; [apply flaws_fail|]. intros e' w Hw. cbv beta. rewrite (H e' w Hw). tauto. Qed.

(** Values after which nothing can fail. *)
Lemma flaws_map {A B} t (c : M (list Z) A) (f : A -> B) P F : parses c P -> flaws t c F -> flaws t (x <- c ;; ret (f x)) F.
Proof.
  intros HP HF. eapply flaws_conseq; [exact (flaws_bind t c _ P F (fun _ => no_flaw) HP HF (fun a _ => flaws_ret t (f a)))|].
  intros e w _. cbv beta. unfold no_flaw. split; [|auto]. intros [H|(a & w1 & w2 & _ & _ & [])]. exact H.
Qed.

Section Fl.
  Context (t : tail) (m : build) (un : nat -> list Z) (Hun : forall n, length (un n) = n).
  Notation rb := (fl_rb t).

  Ltac number := split;
    [intros l e l' _; unfold read_be_u16, read_be_u24, read_be_u32, read_le_u32, bind, fl_rb; cbn [read_u8];
     repeat (destruct l as [|? l]; [intros E; injection E as <- <-; right; reflexivity|]); discriminate
    |intros ? ? ? _ []].
  Lemma u8_flaws : flaws t (read_u8 rb) no_flaw.
  Proof.
    split; [|intros ? ? ? _ []]. intros [|b l] e l' _ E; [|discriminate]. injection E as <- <-. auto.
  Qed.
  Lemma be16_flaws : flaws t (read_be_u16 rb) no_flaw.
  Proof. number. Qed.
  Lemma be24_flaws : flaws t (read_be_u24 rb) no_flaw.
  Proof. number. Qed.
  Lemma be32_flaws : flaws t (read_be_u32 rb) no_flaw.
  Proof. number. Qed.
  Lemma le32_flaws : flaws t (read_le_u32 rb) no_flaw.
  Proof. number. Qed.
  Lemma into_flaws buf : flaws t (read_into rb buf) no_flaw.
  Proof.
    split; [|intros ? ? ? _ []]. intros l e l' _. cbn [fl_rb read_into]. destruct (_ <=? _)%nat; [discriminate|].
    intros E. injection E as <- <-. auto.
  Qed.
  Lemma skip_flaws n : flaws t (skip rb n) no_flaw.
  Proof.
    split; [|intros ? ? ? _ []]. intros l e l' _. cbn [fl_rb skip]. destruct (n <=? len l); [discriminate|].
    intros E. injection E as <- <-. auto.
  Qed.

  (** ** Streaminfo *)
  Lemma checks_flaws mn mx minf maxf rate ch bps n md5 : 0 <= rate -> 0 <= minf -> 0 <= maxf ->
    let si := mkSi mn mx (known_of minf) (known_of maxf) rate ch bps (known_of n) md5 in
    flaws t (si_checks mn mx minf maxf rate ch bps n md5) (fun e w => streaminfo_fault si e /\ w = []).
  Proof.
    intros Hr Hm Hx si.
    assert (forall e, streaminfo_fault si e <->
      (mx < mn /\ e = FormatError "inconsistent bounds, min block size > max block size")
      \/ (mn <= mx /\ mn < 16 /\ e = FormatError "invalid block size, must be at least 16")
      \/ (mn <= mx /\ 16 <= mn /\ maxf <> 0 /\ maxf < minf /\ e = FormatError "inconsistent bounds, min frame size > max frame size")
      \/ (mn <= mx /\ 16 <= mn /\ (maxf = 0 \/ minf <= maxf) /\ (rate = 0 \/ 655350 < rate) /\ e = FormatError "invalid sample rate")) as E.
    { intros e. unfold si. split.
      - intros H. destruct H as [H|H H1|a b H H1 Ha Hb H2|H H1 H2 H3];
          cbn [si_min_block_size si_max_block_size si_min_frame_size si_max_frame_size si_sample_rate] in *.
        + auto.
        + auto.
        + right. right. left. unfold known_of in *. destruct (minf =? 0) eqn:E1; [discriminate|]. destruct (maxf =? 0) eqn:E2; [discriminate|].
          injection Ha as <-. injection Hb as <-. repeat split; auto; lia.
        + right. right. right. repeat split; auto. unfold known_of in *. destruct (minf =? 0) eqn:E1, (maxf =? 0) eqn:E2; try lia.
          right. apply H2; reflexivity.
      - intros [[H ->]|[(H & H1 & ->)|[(H & H1 & H2 & H3 & ->)|(H & H1 & H2 & H3 & ->)]]].
        + apply fault_block_bounds. exact H.
        + apply fault_block_small; assumption.
        + apply (fault_frame_bounds _ minf maxf); cbn [si_min_block_size si_max_block_size si_min_frame_size si_max_frame_size]; auto;
            unfold known_of; [destruct (minf =? 0) eqn:E1|destruct (maxf =? 0) eqn:E1]; auto; lia.
        + apply fault_sample_rate; cbn [si_min_block_size si_max_block_size si_min_frame_size si_max_frame_size si_sample_rate]; auto.
          unfold known_of. intros a b. destruct (minf =? 0) eqn:E1; [discriminate|]. destruct (maxf =? 0) eqn:E2; [discriminate|].
          intros Ea Eb. injection Ea as <-. injection Eb as <-. lia. }
    unfold si_checks.
    destruct (mx <? mn) eqn:C1.
    { apply flaws_one. intros e w _. rewrite E. split; [|intros [-> ->]; split; [left; split; [lia|reflexivity]|reflexivity]].
      intros [[[_ ->]|[(H & _)|[(H & _)|(H & _)]]] ->]; [auto|lia..]. }
    destruct (mn <? 16) eqn:C2.
    { apply flaws_one. intros e w _. rewrite E. split; [|intros [-> ->]; split; [right; left; repeat split; lia|reflexivity]].
      intros [[[H _]|[(H & H1 & ->)|[(H & H1 & _)|(H & H1 & _)]]] ->]; [lia|auto|lia..]. }
    destruct ((maxf <? minf) && negb (maxf =? 0)) eqn:C3.
    { apply flaws_one. intros e w _. rewrite E. split; [|intros [-> ->]; split; [right; right; left; repeat split; lia|reflexivity]].
      intros [[[H _]|[(H & H1 & _)|[(H & H1 & H2 & H3 & ->)|(H & H1 & H2 & _)]]] ->]; [lia|lia|auto|lia]. }
    destruct ((rate =? 0) || (655350 <? rate)) eqn:C4.
    { apply flaws_one. intros e w _. rewrite E. split; [|intros [-> ->]; split; [right; right; right; repeat split; lia|reflexivity]].
      intros [[[H _]|[(H & H1 & _)|[(H & H1 & H2 & H3 & _)|(H & H1 & H2 & H3 & ->)]]] ->]; [lia|lia|lia|auto]. }
    apply flaws_false; [apply flaws_ret|]. intros e w _ [H _]. rewrite E in H.
    destruct H as [[H _]|[(H & H1 & _)|[(H & H1 & H2 & H3 & _)|(H & H1 & H2 & H3 & _)]]]; lia.
  Qed.

  Lemma streaminfo_flaws : flaws t (read_streaminfo_block rb m)
    (fun e w => exists si, streaminfo_fits si /\ streaminfo_code si w /\ streaminfo_fault si e).
  Proof.
    eapply flaws_conseq.
    - unfold read_streaminfo_block.
      eapply flaws_then; [apply be16_parses|apply be16_flaws|intros mn (? & (_ & H1) & _)].
      eapply flaws_then; [apply be16_parses|apply be16_flaws|intros mx (? & (_ & H2) & _)].
      eapply flaws_then; [apply be24_parses|apply be24_flaws|intros minf (? & (_ & H3) & _)].
      eapply flaws_then; [apply be24_parses|apply be24_flaws|intros maxf (? & (_ & H4) & _)].
      eapply flaws_then; [apply be16_parses|apply be16_flaws|intros msb (? & (_ & H5) & _)].
      eapply flaws_then; [apply u8_parses|apply u8_flaws|intros lsb (? & (_ & H6) & _)]. cbv zeta.
      unfold is_byte in H6.
      apply (flaws_lift t (lsb / 2 mod 8 + 1)); [rewrite Z.shiftr_div_pow2 by lia; change 7 with (Z.ones 3); rewrite Z.land_ones by lia; apply chk_u8; lia|].
      eapply flaws_then; [apply u8_parses|apply u8_flaws|intros b (? & (_ & H7) & _)]. unfold is_byte in H7.
      apply (flaws_lift t (lsb mod 2 * 16 + b / 16 + 1)).
      { change 1 with (Z.ones 1) at 1. rewrite Z.land_ones by lia.
        rewrite Z.shiftl_mul_pow2, Z.shiftr_div_pow2 by lia. rewrite u8_id by lia. rewrite lor_add by lia.
        change (2 ^ 4) with 16. change (2 ^ 1) with 2. apply chk_u8. lia. }
      eapply flaws_then; [apply be32_parses|apply be32_flaws|intros nl (? & (_ & H8) & _)].
      eapply flaws_then; [apply into_parses|apply into_flaws|intros md5 _].
      change 15 with (Z.ones 4). rewrite Z.land_ones by lia.
      rewrite (Z.shiftl_mul_pow2 _ 32), (Z.shiftl_mul_pow2 msb), (Z.shiftr_div_pow2 lsb) by lia.
      rewrite (u32_id (msb * 2 ^ 4)), (u64_id (b mod 2 ^ 4 * 2 ^ 32)) by lia.
      rewrite (lor_add msb), (lor_add (b mod 2 ^ 4)) by lia.
      change (2 ^ 4) with 16. apply (checks_flaws mn mx minf maxf); lia.
    - intros e w Hw. cbv beta. split.
      + intros (mn & ? & ? & -> & (-> & H1) & mx & ? & ? & -> & (-> & H2) & minf & ? & ? & -> & (-> & H3) & maxf & ? & ? & -> & (-> & H4)
           & msb & ? & ? & -> & (-> & H5) & lsb & ? & ? & -> & (-> & H6) & b & ? & ? & -> & (-> & H7)
           & nl & ? & ? & -> & (-> & H8) & md5 & ? & ? & -> & (<- & H9) & Hv & ->).
        assert (raw_ok mn mx minf maxf msb lsb b nl) as Hraw by (repeat (split; [assumption|]); assumption).
        rewrite app_nil_r in *.
        assert (bytes_ok md5) as Hm.
        { clear - Hw. unfold bytes_ok in *. rewrite Forall_forall in *. intros y Hy. apply Hw. rewrite !in_app_iff. tauto. }
        eexists. split; [exact (raw_fits _ _ _ _ _ _ _ _ md5 Hraw Hm H9)|]. split; [|exact Hv].
        exists (raw_front mn mx minf maxf msb lsb b nl). split; [unfold raw_front; rewrite <- !app_assoc; reflexivity|].
        split; [exact (raw_front_ok _ _ _ _ _ _ _ _ Hraw)|apply (raw_bits mn mx minf maxf msb lsb b nl md5 Hraw)].
      + intros (si & Hf & (front & -> & Hb & Eb) & Hv). destruct (raw_exists si Hf) as (mn & mx & minf & maxf & msb & lsb & b & nl & Hraw & Esi).
        rewrite <- Esi in Eb at 1. rewrite <- (raw_bits mn mx minf maxf msb lsb b nl _ Hraw) in Eb.
        apply bytes_bits_inj in Eb; [|exact Hb|exact (raw_front_ok _ _ _ _ _ _ _ _ Hraw)]. subst front.
        destruct Hf as (_ & _ & _ & _ & _ & _ & _ & _ & _ & Hl). set (md5 := si_md5sum si) in *. clearbody md5.
        destruct Hraw as (H1 & H2 & H3 & H4 & H5 & H6 & H7 & H8). unfold raw_front. rewrite <- !app_assoc.
        eexists mn, _, _. split; [reflexivity|]. split; [split; [reflexivity|assumption]|].
        eexists mx, _, _. split; [reflexivity|]. split; [split; [reflexivity|assumption]|].
        eexists minf, _, _. split; [reflexivity|]. split; [split; [reflexivity|assumption]|].
        eexists maxf, _, _. split; [reflexivity|]. split; [split; [reflexivity|assumption]|].
        eexists msb, _, _. split; [reflexivity|]. split; [split; [reflexivity|assumption]|].
        eexists lsb, [lsb], _. split; [reflexivity|]. split; [split; [reflexivity|assumption]|].
        eexists b, [b], _. split; [reflexivity|]. split; [split; [reflexivity|assumption]|].
        eexists nl, (be_bytes 4 nl), _. split; [reflexivity|]. split; [split; [reflexivity|assumption]|].
        eexists md5, md5, []. split; [symmetry; apply app_nil_r|]. split; [split; [reflexivity|exact Hl]|].
        unfold raw_info in Esi. rewrite Esi. auto.
  Qed.
End Fl.
