(** Frame headers, part 4: what is rejected, checksums of everything read through a
    CRC reader, corrupted headers. *)
From Verif Require Export ProofHeader3 ProofInput.
From Verif Require Import SpecReader.

Definition format_error {A S} (r : outcome A * S) : Prop := exists e, fst r = Err (FormatError e).

Lemma fe_stop {S A B} (c : M S A) (k : A -> M S B) s :
  format_error (c s) -> format_error (bind c k s).
Proof. intros [e E]. unfold bind. destruct (c s) as [o s']. cbn [fst] in E. subst o. exists e. reflexivity. Qed.
Lemma fe_step {S A B} (c : M S A) (k : A -> M S B) s a s' :
  c s = (Ok a, s') -> format_error (k a s') -> format_error (bind c k s).
Proof. unfold bind. intros -> H. exact H. Qed.
Lemma fe_fail {S A} w s : format_error (@fmt_err S A w s).
Proof. exists w. reflexivity. Qed.
Lemma fe_entry {S A B} (o : option A) w (s : S) (c : M S A) (k : A -> M S B) :
  c s = (match o with Some x => Ok x | None => Err (FormatError w) end, s) ->
  (forall x, o = Some x -> format_error (k x s)) -> format_error (bind c k s).
Proof.
  intros E K. destruct o; [eapply fe_step; [exact E|apply K; reflexivity]|].
  apply fe_stop. rewrite E. exists w. reflexivity.
Qed.

Section Flat.
  Context (t : tail) (m : build).
  Notation rb := (fl_rb t).

  (** ** Numbers *)
  Lemma class_announces b k : announces b k ->
    exists hi, vli_class b = Some (Z.of_nat k, hi) /\ 0 <= b < 256.
  Proof.
    intros [Hk Hb].
    destruct k as [|k]; [lia|].
    do 7 (destruct k as [|k]; [cbn in Hb; unfold vli_class;
      repeat match goal with |- context [if ?c then _ else _] => destruct c eqn:? end;
      try lia; (eexists; split; [reflexivity|lia])|]). lia.
  Qed.
  Lemma rest_malformed cs b l : Forall continues cs -> 0 <= b < 256 -> ~ continues b ->
    forall k r, (length cs < k <= 7)%nat -> format_error (vli_rest_loop rb m k r (cs ++ b :: l)).
  Proof.
    intros Hcs Hb Hn. induction Hcs as [|c cs Hc Hcs IH]; intros k r Hk; (destruct k as [|k]; [cbn in Hk; lia|]);
      cbn [app vli_rest_loop].
    - eapply fe_step; [reflexivity|]. destruct (cont_byte b Hb) as [-> _]. unfold continues in Hn.
      replace ((128 <=? b) && (b <? 192)) with false by lia. apply fe_fail.
    - eapply fe_step; [reflexivity|]. destruct (cont_byte c) as [-> _]; [unfold continues in Hc; lia|].
      unfold continues in Hc. replace ((128 <=? c) && (c <? 192)) with true by lia. cbn [negb].
      rewrite shl_ok by (cbn [length] in Hk; lia). eapply fe_step; [reflexivity|]. apply IH. cbn [length] in Hk. lia.
  Qed.
  Lemma vli_malformed w l : malformed_number w -> format_error (read_var_length_int rb m (w ++ l)).
  Proof.
    intros H. rewrite vli_unfold. destruct H as [b Hb|first k cs b Ha Hcs Hk Hb Hn]; cbn [app].
    - unfold continues in Hb. pose proof (vli_head_spec m b ltac:(lia)) as H. unfold vli_class in H.
      replace (b <? 128) with false in H by lia. replace (b <? 192) with true in H by lia.
      destruct H as [e ->]. exists e. reflexivity.
    - destruct (class_announces _ _ Ha) as (hi & Hc & Hf).
      pose proof (vli_head_spec m first Hf) as H. rewrite Hc in H. rewrite H, Nat2Z.id.
      rewrite <- app_assoc. cbn [app]. destruct Ha as [Ha _].
      apply rest_malformed; auto. lia.
  Qed.

  Lemma number_ok_bytes num v : number_code num v -> bytes_ok num.
  Proof.
    intros Hn. assert (accepted_number num v) as H by (left; exact Hn).
    apply accepted_number_form in H as [[Hv1 ->]|(k & Hk & Hv1 & ->)].
    - apply bytes_cons. split; [lia|constructor].
    - destruct (number_first k v Hk Hv1) as [Hf _].
      unfold number_bytes. destruct k as [|k]; [lia|]. apply bytes_cons. split; [exact Hf|].
      apply continuation_bytes.
  Qed.

  (** ** Reserved patterns *)
  (** Whatever the first four bytes are, either the result is a format error or the
      rest of the header is decoded. *)
  Lemma header_fixed l0 a b x y l : Forall is_byte [a; b; x; y] ->
    (forall se re asg wd, size_entry (x / 16) = Some se -> rate_entry (x mod 16) = Some re ->
       assign_entry (y / 16) = Some asg -> width_entry (y mod 16 / 2) = Some wd ->
       y mod 2 = 0 -> a = 255 -> 248 <= b <= 249 ->
       format_error (h_tail rb (fl_crc crc8_of l0) m (negb (b mod 2 =? 0)) se re (fh_assign asg) wd l)) ->
    format_error (fl_header t m l0 ([a; b; x; y] ++ l)).
  Proof.
    intros Hl K. do 4 (apply Forall_cons_iff in Hl; destruct Hl as [? Hl]). unfold is_byte in *.
    unfold fl_header. cbn [app]. eapply fe_step; [apply be_u16_or_eof_cons; lia|].
    unfold header_generic.
    destruct (sync_bits a b ltac:(lia) ltac:(lia)) as [-> Es2].
    destruct ((a =? 255) && ((248 <=? b) && (b <=? 251))) eqn:Es; [|apply fe_fail].
    destruct (Es2 eq_refl) as [-> ->]. cbn [negb].
    destruct (b <=? 249) eqn:Eb; [|apply fe_fail]. cbn [negb].
    eapply fe_step; [reflexivity|]. destruct (nibbles x ltac:(lia)) as (-> & -> & _ & _).
    eapply fe_entry; [apply h_sizes_eq; lia|]. intros se Hse.
    eapply fe_entry; [apply h_rates_eq; lia|]. intros re Hre.
    eapply fe_step; [reflexivity|]. destruct (nibbles y ltac:(lia)) as (-> & _ & -> & ->).
    destruct (assign_entry (y / 16)) as [asg|] eqn:Has.
    2: { apply fe_stop. rewrite h_assign_eq, Has by lia. eexists. reflexivity. }
    eapply fe_step; [rewrite h_assign_eq, Has by lia; reflexivity|].
    eapply fe_entry; [apply h_widths_eq; lia|]. intros wd Hwd.
    destruct (Z.eqb_spec (y mod 2) 0); cbn [negb]; [|apply fe_fail].
    apply K; auto; lia.
  Qed.

  Theorem header_reserved w l l0 : reserved_header w -> bytes_ok l ->
    format_error (fl_header t m l0 (w ++ l)).
  Proof.
    intros H Hl. destruct H as [a b Ha Hb Hs|a b Ha Hb Hs|a b x Ha Hb Hx Hs|a b x Ha Hb Hx Hs
      |a b x y Hf Hs|a b x y Hf Hs|a b x y Hf Hs|a b x y num Hf Hs|a b x y num v Hf Hbm Hn Hs|a b x y num v Hf Hx Hn].
    - unfold fl_header. cbn [app]. eapply fe_step; [apply be_u16_or_eof_cons; lia|].
      unfold header_generic. destruct (sync_bits a b ltac:(lia) ltac:(lia)) as [-> _].
      replace ((a =? 255) && ((248 <=? b) && (b <=? 251))) with false by lia. apply fe_fail.
    - unfold fl_header. cbn [app]. eapply fe_step; [apply be_u16_or_eof_cons; lia|].
      unfold header_generic. destruct (sync_bits a b ltac:(lia) ltac:(lia)) as [-> Es2].
      destruct ((a =? 255) && ((248 <=? b) && (b <=? 251))) eqn:Es; [|apply fe_fail].
      destruct (Es2 eq_refl) as [-> _]. replace (b <=? 249) with false by lia. apply fe_fail.
    - unfold fl_header. cbn [app]. eapply fe_step; [apply be_u16_or_eof_cons; lia|].
      unfold header_generic. destruct (negb _); [apply fe_fail|]. destruct (negb _); [apply fe_fail|].
      eapply fe_step; [reflexivity|]. destruct (nibbles x ltac:(lia)) as (-> & _).
      apply fe_stop. rewrite h_sizes_eq, Hs by lia. eexists. reflexivity.
    - unfold fl_header. cbn [app]. eapply fe_step; [apply be_u16_or_eof_cons; lia|].
      unfold header_generic. destruct (negb _); [apply fe_fail|]. destruct (negb _); [apply fe_fail|].
      eapply fe_step; [reflexivity|]. destruct (nibbles x ltac:(lia)) as (-> & -> & _).
      eapply fe_entry; [apply h_sizes_eq; lia|]. intros se Hse.
      apply fe_stop. rewrite h_rates_eq, Hs by lia. eexists. reflexivity.
    - apply header_fixed; [exact Hf|]. intros se re asg wd _ _ Has. exfalso.
      unfold assign_entry in Has. do 4 (apply Forall_cons_iff in Hf; destruct Hf as [? Hf]).
      replace (y / 16 <? 8) with false in Has by lia. replace (y / 16 =? 8) with false in Has by lia.
      replace (y / 16 =? 9) with false in Has by lia. replace (y / 16 =? 10) with false in Has by lia. discriminate Has.
    - apply header_fixed; [exact Hf|]. intros se re asg wd _ _ _ Hwd. exfalso.
      do 4 (apply Forall_cons_iff in Hf; destruct Hf as [? Hf]).
      assert (y mod 16 / 2 = 3 \/ y mod 16 / 2 = 7) as [E|E] by lia; rewrite E in Hwd; discriminate Hwd.
    - apply header_fixed; [exact Hf|]. intros. lia.
    - rewrite <- app_assoc. apply header_fixed; [exact Hf|]. intros. rewrite tail_unfold.
      apply fe_stop. unfold h_times. destruct (negb _); apply fe_stop; apply vli_malformed, Hs.
    - rewrite <- app_assoc. apply header_fixed; [exact Hf|]. intros. rewrite tail_unfold.
      replace (negb (b mod 2 =? 0)) with false by lia. apply fe_stop. unfold h_times.
      eapply fe_step; [apply vli_complete; [|left; exact Hn]; apply bytes_app; split; [|exact Hl]|].
      { eapply number_ok_bytes, Hn. }
      replace (2147483647 <? v) with true by lia. apply fe_fail.
    - rewrite <- app_assoc. apply header_fixed; [exact Hf|]. intros se re asg wd Hse Hre Has Hwd Hy Ha Hb. rewrite tail_unfold.
      rewrite Hx in Hse. injection Hse as <-.
      assert (bytes_ok ((num ++ [255; 255]) ++ l)) as Hnb.
      { apply bytes_app; split; [|exact Hl]. apply bytes_app; split; [eapply number_ok_bytes, Hn|].
        repeat constructor; unfold is_byte; lia. }
      assert (format_error (h_times rb m (negb (b mod 2 =? 0)) ((num ++ [255; 255]) ++ l))
              \/ exists bt, h_times rb m (negb (b mod 2 =? 0)) ((num ++ [255; 255]) ++ l) = (Ok bt, 255 :: 255 :: l)) as [He|(bt & Et)].
      { rewrite <- app_assoc in *. unfold h_times. destruct (negb _).
        - right. eexists. unfold bind. rewrite (vli_complete t m num v); [reflexivity|exact Hnb|left; exact Hn].
        - destruct (2147483647 <? v) eqn:Ev.
          + left. eapply fe_step; [apply vli_complete; [exact Hnb|left; exact Hn]|]. rewrite Ev. apply fe_fail.
          + right. eexists. unfold bind. rewrite (vli_complete t m num v); [|exact Hnb|left; exact Hn].
            rewrite Ev. reflexivity. }
      + apply fe_stop, He.
      + eapply fe_step; [exact Et|]. apply fe_stop. unfold x_size, h_size8, h_size16. cbn [fst snd].
        eapply fe_step; [reflexivity|]. eapply fe_step; [apply be_u16_cons; lia|].
        apply fe_fail.
  Qed.
End Flat.
