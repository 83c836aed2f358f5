(** Errors that the decoder finds in the data, part 2: frame headers. *)
From Verif Require Export ProofFault.
From Verif Require Import SpecReader.

Section Header.
  Context (t : tail) (m : build).
  Notation rb := (fl_rb t).

  Definition bfinds {A} (p : M (list Z) A) (G : error -> list Z -> Prop) : Prop :=
    forall l e l', bytes_ok l -> ours e -> p l = (Err e, l') -> exists w, l = w ++ l' /\ G e w.

  (** ** Numbers *)
  Definition bad_number : error := FormatError "invalid variable-length integer".
  Lemma vli_head_none b : 128 <= b < 192 -> vli_head m b = Err bad_number.
  Proof.
    intros Hb.
    assert (forallb (fun b => implb ((128 <=? b) && (b <? 192))
      (match vli_head m b with Err (FormatError w) => String.eqb w "invalid variable-length integer" | _ => false end))
      (zrange 256) = true) as H by (unfold vli_head; destruct m; vm_compute; reflexivity).
    apply (sweep 256) with (x := b) in H; [|lia].
    replace ((128 <=? b) && (b <? 192)) with true in H by lia. cbn [implb] in H.
    destruct (vli_head m b) as [?|[| |]| | |]; try discriminate H.
    apply String.eqb_eq in H. subst. reflexivity.
  Qed.
  Lemma announces_class b k hi : 0 <= b < 256 -> vli_class b = Some (k, hi) -> 1 <= k ->
    announces b (Z.to_nat k) /\ k <= 7.
  Proof.
    intros Hb E Hk. unfold vli_class in E. unfold announces.
    repeat match type of E with
           | (if ?c then _ else _) = _ => destruct c eqn:?; [try discriminate E; injection E as <- <-|]
           end; try (injection E as <- <-); try lia; (split; [split; [lia|]|lia]); rewrite Z2Nat.id by lia; pow2s; lia.
  Qed.
  Lemma rest_finds k : forall r l e l', (k <= 7)%nat -> bytes_ok l -> ours e ->
    vli_rest_loop rb m k r l = (Err e, l') ->
    exists cs b, l = cs ++ b :: l' /\ Forall continues cs /\ (length cs < k)%nat
      /\ 0 <= b < 256 /\ ~ continues b /\ e = bad_number.
  Proof.
    induction k as [|k IH]; intros r l e l' Hk Hl He E; cbn [vli_rest_loop] in E; [discriminate E|].
    destruct l as [|b l]; [exfalso; apply (tail_not_ours t e He); injection E; auto|].
    apply bytes_cons in Hl as [Hb Hl]. unfold bind at 1 in E. cbn [fl_rb read_u8] in E.
    destruct (cont_byte b Hb) as [Ec _]. rewrite Ec in E.
    destruct ((128 <=? b) && (b <? 192)) eqn:Hc; cbn [negb] in E.
    - rewrite shl_ok, bind_lift_ok in E by lia.
      apply IH in E as (cs & c & -> & Hcs & Hlen & H); [|lia|exact Hl|exact He].
      exists (b :: cs), c. split; [reflexivity|]. split; [constructor; [unfold continues; lia|exact Hcs]|].
      split; [cbn [length]; lia|exact H].
    - injection E as <- <-. exists [], b. split; [reflexivity|]. split; [constructor|].
      split; [cbn [length]; lia|]. split; [exact Hb|]. split; [unfold continues; lia|reflexivity].
  Qed.
  Lemma rest_reports cs b l : Forall continues cs -> 0 <= b < 256 -> ~ continues b ->
    forall k r, (length cs < k <= 7)%nat -> vli_rest_loop rb m k r (cs ++ b :: l) = (Err bad_number, l).
  Proof.
    intros Hcs Hb Hn. induction Hcs as [|c cs Hc Hcs IH]; intros k r Hk; (destruct k as [|k]; [cbn in Hk; lia|]);
      cbn [app vli_rest_loop]; unfold bind at 1; cbn [fl_rb read_u8].
    - destruct (cont_byte b Hb) as [-> _]. unfold continues in Hn.
      replace ((128 <=? b) && (b <? 192)) with false by lia. reflexivity.
    - destruct (cont_byte c) as [-> _]; [unfold continues in Hc; lia|].
      unfold continues in Hc. replace ((128 <=? c) && (c <? 192)) with true by lia. cbn [negb].
      rewrite shl_ok, bind_lift_ok by (cbn [length] in Hk; lia). apply IH. cbn [length] in Hk. lia.
  Qed.
  Lemma vli_finds : bfinds (read_var_length_int rb m) (fun e w => e = bad_number /\ malformed_number w).
  Proof.
    intros l e l' Hl He E. rewrite vli_unfold in E.
    destruct l as [|b l]; [exfalso; apply (tail_not_ours t e He); injection E; auto|].
    apply bytes_cons in Hl as [Hb Hl]. pose proof (vli_head_spec m b Hb) as H.
    destruct (vli_class b) as [[k hi]|] eqn:Ec.
    - rewrite H in E. destruct (Z.eq_dec k 0) as [->|Hk]; [discriminate E|].
      pose proof (class_inv _ _ _ Hb Ec) as Hk'.
      apply announces_class in Ec as [Ha Hk7]; [|exact Hb|lia].
      apply rest_finds in E as (cs & c & -> & Hcs & Hlen & Hc & Hn & ->); [|lia|exact Hl|exact He].
      exists (b :: cs ++ [c]). cbn [app]. rewrite <- app_assoc. split; [reflexivity|]. split; [reflexivity|].
      eapply malformed_continuation; eauto.
    - assert (128 <= b < 192) as Hb'.
      { unfold vli_class in Ec. repeat match type of Ec with (if ?c then _ else _) = _ => destruct c eqn:? end; try discriminate Ec; lia. }
      rewrite vli_head_none in E by exact Hb'. injection E as <- <-. exists [b].
      split; [reflexivity|]. split; [reflexivity|]. constructor. exact Hb'.
  Qed.
  Lemma vli_reports w l : malformed_number w -> read_var_length_int rb m (w ++ l) = (Err bad_number, l).
  Proof.
    intros H. rewrite vli_unfold. destruct H as [b Hb|first k cs b Ha Hcs Hk Hb Hn]; cbn [app].
    - rewrite vli_head_none by exact Hb. reflexivity.
    - destruct (class_announces _ _ Ha) as (hi & Hc & Hf).
      pose proof (vli_head_spec m first Hf) as H. rewrite Hc in H. rewrite H, Nat2Z.id.
      rewrite <- app_assoc. cbn [app]. destruct Ha as [Ha _]. apply rest_reports; auto. lia.
  Qed.

  Definition number_fault (variable : bool) (e : error) (w : list Z) : Prop :=
    (e = bad_number /\ malformed_number w)
    \/ (variable = false /\ e = FormatError "invalid frame header, frame number too large"
        /\ exists v, accepted_number w v /\ 2 ^ 31 <= v).
  Lemma times_finds variable : bfinds (h_times rb m variable) (number_fault variable).
  Proof.
    intros l e l' Hl He E. unfold h_times in E.
    destruct variable; apply bind_err in E as [E|(v & l1 & E1 & E)].
    - apply vli_finds in E as (w & -> & H); auto. exists w. split; [reflexivity|]. left. exact H.
    - discriminate E.
    - apply vli_finds in E as (w & -> & H); auto. exists w. split; [reflexivity|]. left. exact H.
    - apply vli_sound in E1 as (w & -> & Hw); [|exact Hl].
      destruct (Z.ltb_spec 2147483647 v); [|discriminate E]. injection E as <- <-.
      exists w. split; [reflexivity|]. right. split; [reflexivity|]. split; [reflexivity|].
      exists v. split; [exact Hw|lia].
  Qed.
  Lemma accepted_bytes w v : accepted_number w v -> bytes_ok w.
  Proof.
    intros H. apply accepted_number_form in H as [[Hv1 ->]|(k & Hk & Hv1 & ->)].
    - apply bytes_cons. split; [lia|constructor].
    - destruct (number_first k v Hk Hv1) as [Hf _].
      unfold number_bytes. destruct k as [|k]; [lia|]. apply bytes_cons. split; [exact Hf|].
      apply continuation_bytes.
  Qed.
  Lemma times_reports variable e w l : bytes_ok l -> number_fault variable e w ->
    h_times rb m variable (w ++ l) = (Err e, l).
  Proof.
    intros Hl [[-> Hw]|(-> & -> & v & Hw & Hv)]; unfold h_times.
    - destruct variable; apply bind_fail, vli_reports, Hw.
    - unfold bind. rewrite (vli_complete t m w v); [|apply bytes_app; split; [eapply accepted_bytes, Hw|exact Hl]|exact Hw].
      replace (2147483647 <? v) with true by lia. reflexivity.
  Qed.

  (** ** Block sizes and sample rates *)
  Lemma u8_err l e l' : ours e -> read_u8 rb l <> (Err e, l').
  Proof. intros He E. destruct l; [|discriminate E]. apply (tail_not_ours t e He). injection E. auto. Qed.
  Lemma be_u16_err l e l' : ours e -> read_be_u16 rb l <> (Err e, l').
  Proof.
    intros He E. unfold read_be_u16 in E. apply bind_err in E as [E|(a & l1 & _ & E)]; [eapply u8_err; eauto|].
    apply bind_err in E as [E|(b & l2 & _ & E)]; [eapply u8_err; eauto|discriminate E].
  Qed.
  Lemma size_finds n x : 0 <= n < 16 -> size_entry n = Some x ->
    bfinds (x_size t m x) (fun e w => n = 7 /\ w = [255; 255] /\ e = FormatError "invalid block size, exceeds 65535").
  Proof.
    intros Hn Ex l e l' Hl He E. unfold x_size in E.
    apply bind_err in E as [E|(v & l1 & E1 & E)].
    - exfalso. unfold h_size8 in E. destruct (snd (fst x)); [|discriminate E].
      apply bind_err in E as [E|(b & l1 & E1 & E)]; [eapply u8_err; eauto|].
      apply u8_inv in E1. subst l. apply bytes_cons in Hl as [Hb Hl].
      rewrite chk_u16 in E by lia. discriminate E.
    - unfold h_size16 in E. destruct (snd x) eqn:Es; [|discriminate E].
      assert (n = 7 /\ x = (0, false, true)) as [-> ->].
      { cases16 n; cbn in Ex; try discriminate Ex; injection Ex as <-; cbn in Es; try discriminate Es; auto. }
      unfold h_size8, ret in E1. cbn [fst snd] in E1. injection E1 as <- <-.
      apply bind_err in E as [E|(a & l2 & E2 & E)]; [exfalso; eapply be_u16_err; eauto|].
      apply be_u16_inv in E2; [|exact Hl]. destruct E2 as (b1 & b0 & -> & H1 & H0 & ->).
      destruct (Z.eqb_spec (256 * b1 + b0) 65535) as [Eb|]; [|rewrite chk_u16 in E by lia; discriminate E].
      injection E as <- <-. exists [255; 255]. assert (b1 = 255 /\ b0 = 255) as [-> ->] by lia. auto.
  Qed.
  Lemma size_reports l : x_size t m (0, false, true) (255 :: 255 :: l)
    = (Err (FormatError "invalid block size, exceeds 65535"), l).
  Proof. unfold x_size, h_size8, h_size16. cbn [fst snd]. unfold bind, ret. rewrite be_u16_cons by lia. reflexivity. Qed.
  Lemma rate_clean x l e l' : bytes_ok l -> ours e -> x_rate t m x l <> (Err e, l').
  Proof.
    intros Hl He E. unfold x_rate in E.
    assert (forall A B (p : M (list Z) A) (f : A -> B) b r l e l', ours e ->
      (forall l e l', ours e -> p l <> (Err e, l')) ->
      (if b : bool then bind p (fun a => ret (f a)) else ret r) l <> (Err e, l')) as Hopt.
    { intros A B p f b r l1 e1 l2 He1 Hp E1. destruct b; [|discriminate E1].
      apply bind_err in E1 as [E1|(a & l3 & _ & E1)]; [eapply Hp; eauto|discriminate E1]. }
    apply bind_err in E as [E|(v & l1 & E1 & E)].
    { unfold h_rate8 in E. eapply Hopt in E; eauto using u8_err. }
    apply bind_err in E as [E|(v2 & l2 & E2 & E)].
    { unfold h_rate16 in E. eapply Hopt in E; eauto using be_u16_err. }
    assert (bytes_ok l1) as Hl1.
    { unfold h_rate8 in E1. destruct (snd (fst (fst x))); [|injection E1 as _ <-; exact Hl].
      apply bind_ok in E1 as (a & l3 & E1 & E3). injection E3 as _ <-. apply u8_inv in E1. subst l.
      apply bytes_cons in Hl. tauto. }
    assert (bytes_ok l2) as Hl2.
    { unfold h_rate16 in E2. destruct (snd (fst x)); [|injection E2 as _ <-; exact Hl1].
      apply bind_ok in E2 as (a & l3 & E2 & E3). injection E3 as _ <-. apply be_u16_inv in E2; [|exact Hl1].
      destruct E2 as (? & ? & -> & _). apply bytes_cons in Hl1 as [_ Hl1]. apply bytes_cons in Hl1. tauto. }
    unfold h_rate_ten in E. destruct (snd x); [|discriminate E].
    apply bind_err in E as [E|(a & l3 & E3 & E)]; [eapply be_u16_err; eauto|].
    apply be_u16_inv in E3; [|exact Hl2]. destruct E3 as (b1 & b0 & -> & H1 & H0 & ->).
    rewrite chk_u32 in E by lia. discriminate E.
  Qed.

  (** ** The first four bytes *)
  Definition too_reserved (l : list Z) : outcome (option frame_header) * list Z := (Err reserved_value, l).
  Lemma header_eval l0 a b l : bytes_ok (a :: b :: l) ->
    fl_header t m l0 (a :: b :: l) =
    if negb ((a =? 255) && ((248 <=? b) && (b <=? 251))) then (Err (FormatError "frame sync code missing"), l)
    else if negb (b <=? 249) then too_reserved l
    else match l with
      | [] => (Err (tail_error t), [])
      | x :: l => match size_entry (x / 16), rate_entry (x mod 16) with
        | None, _ => too_reserved l
        | _, None => (Err (FormatError "invalid frame header"), l)
        | Some se, Some re => match l with
          | [] => (Err (tail_error t), [])
          | y :: l => match assign_entry (y / 16), width_entry (y mod 16 / 2) with
            | Some asg, Some wd =>
                if y mod 2 =? 0
                then h_tail rb (fl_crc crc8_of l0) m (negb (b mod 2 =? 0)) se re (fh_assign asg) wd l
                else too_reserved l
            | _, _ => too_reserved l
            end
          end
        end
      end.
  Proof.
    intros Hl. apply bytes_cons in Hl as [Ha Hl]. apply bytes_cons in Hl as [Hb Hl].
    unfold fl_header, bind at 1. rewrite be_u16_or_eof_cons by assumption. unfold header_generic.
    destruct (sync_bits a b Ha Hb) as [-> Es2].
    destruct ((a =? 255) && ((248 <=? b) && (b <=? 251))) eqn:Es; [|reflexivity].
    destruct (Es2 eq_refl) as [-> ->]. cbn [negb].
    destruct (b <=? 249) eqn:Eb; [|reflexivity]. cbn [negb].
    destruct l as [|x l]; [reflexivity|]. apply bytes_cons in Hl as [Hx Hl].
    unfold bind at 1. cbn [fl_rb read_u8]. destruct (nibbles x Hx) as (-> & -> & _ & _).
    unfold bind at 1. rewrite h_sizes_eq by lia. destruct (size_entry (x / 16)); [|reflexivity].
    unfold bind at 1. rewrite h_rates_eq by lia. destruct (rate_entry (x mod 16)); [|reflexivity].
    destruct l as [|y l]; [reflexivity|]. apply bytes_cons in Hl as [Hy Hl].
    unfold bind at 1. cbn [fl_rb read_u8]. destruct (nibbles y Hy) as (-> & _ & -> & ->).
    unfold bind at 1. rewrite h_assign_eq by lia. destruct (assign_entry (y / 16)); [|reflexivity].
    unfold bind at 1. rewrite h_widths_eq by lia. destruct (width_entry (y mod 16 / 2)); [|reflexivity].
    destruct (y mod 2 =? 0); reflexivity.
  Qed.
  Lemma size_none n : 0 <= n < 16 -> size_entry n = None <-> n = 0.
  Proof. intros H. cases16 n; cbn; split; intros; try discriminate; try lia; reflexivity. Qed.
  Lemma rate_none n : 0 <= n < 16 -> rate_entry n = None <-> n = 15.
  Proof. intros H. cases16 n; cbn; split; intros; try discriminate; try lia; reflexivity. Qed.
  Lemma assign_none n : 0 <= n < 16 -> assign_entry n = None <-> 10 < n.
  Proof. intros H. cases16 n; cbn; split; intros; try discriminate; try lia; reflexivity. Qed.
  Lemma width_none n : 0 <= n < 8 -> width_entry n = None <-> n = 3 \/ n = 7.
  Proof.
    intros H. assert (n = 0 \/ n = 1 \/ n = 2 \/ n = 3 \/ n = 4 \/ n = 5 \/ n = 6 \/ n = 7) as H1 by lia.
    repeat (destruct H1 as [->|H1]); [..|subst n]; cbn; split; intros; try discriminate; try lia; reflexivity.
  Qed.
  Lemma third_byte_entries x : 0 <= x < 256 -> third_byte x ->
    exists se re, size_entry (x / 16) = Some se /\ rate_entry (x mod 16) = Some re.
  Proof.
    intros Hx (_ & Hs & Hr).
    destruct (size_entry (x / 16)) eqn:Es; [|apply size_none in Es; lia].
    destruct (rate_entry (x mod 16)) eqn:Er; [|apply rate_none in Er; lia]. eauto.
  Qed.
  Lemma fourth_byte_entries y : fourth_byte y ->
    exists asg wd, assign_entry (y / 16) = Some asg /\ width_entry (y mod 16 / 2) = Some wd.
  Proof.
    intros (Hy & Ha & H3 & H7 & _).
    destruct (assign_entry (y / 16)) eqn:Es; [|apply assign_none in Es; lia].
    destruct (width_entry (y mod 16 / 2)) eqn:Er; [|apply width_none in Er; lia]. eauto.
  Qed.
  Lemma header_start l0 s x y l : second_byte s -> third_byte x -> fourth_byte y -> bytes_ok l ->
    exists se re asg wd, size_entry (x / 16) = Some se
      /\ fl_header t m l0 (255 :: s :: x :: y :: l)
         = h_tail rb (fl_crc crc8_of l0) m (s =? 249) se re (fh_assign asg) wd l.
  Proof.
    intros Hs Hx Hy Hl.
    destruct (third_byte_entries x) as (se & re & Ese & Ere); [apply Hx|exact Hx|].
    destruct (fourth_byte_entries y Hy) as (asg & wd & Easg & Ewd).
    exists se, re, asg, wd. split; [exact Ese|]. destruct Hx as [Hx _]. destruct Hy as (Hy & _ & _ & _ & Hy0).
    assert (0 <= s < 256) by (destruct Hs; lia).
    rewrite header_eval by (repeat (apply bytes_cons; split; [lia|]); exact Hl).
    rewrite Ese, Ere, Easg, Ewd, Hy0.
    destruct Hs as [-> | ->]; reflexivity.
  Qed.

  Theorem header_finds l e l' : bytes_ok l -> ours e -> fl_header t m l l = (Err e, l') ->
    exists w, l = w ++ l' /\ header_fault e w.
  Proof.
    intros Hl He E. destruct l as [|a [|b l]].
    1, 2: exfalso; unfold fl_header, read_be_u16_or_eof, bind in E; cbn [fl_rb read_u8_or_eof] in E;
      pose proof (tail_not_ours t e He); destruct t; cbn in E; try discriminate E; injection E; auto.
    rewrite header_eval in E by exact Hl. pose proof Hl as Hl0.
    apply bytes_cons in Hl as [Ha Hl]. apply bytes_cons in Hl as [Hb Hl].
    destruct ((a =? 255) && ((248 <=? b) && (b <=? 251))) eqn:Es; cbn [negb] in E.
    2: { injection E as <- <-. exists [a; b]. split; [reflexivity|]. constructor; lia. }
    assert (a = 255) as -> by lia.
    destruct (Z.leb_spec b 249) as [Eb|Eb]; cbn [negb] in E.
    2: { injection E as <- <-. exists [255; b]. split; [reflexivity|]. constructor; lia. }
    assert (second_byte b) as Hsb by (unfold second_byte; lia).
    destruct l as [|x l]; [exfalso; apply (tail_not_ours t e He); injection E; auto|].
    apply bytes_cons in Hl as [Hx Hl].
    destruct (size_entry (x / 16)) as [se|] eqn:Hse.
    2: { injection E as <- <-. exists [255; b; x]. split; [reflexivity|]. apply size_none in Hse; [|lia]. constructor; assumption. }
    destruct (rate_entry (x mod 16)) as [re|] eqn:Hre.
    2: { injection E as <- <-. exists [255; b; x]. split; [reflexivity|]. apply rate_none in Hre; [|lia].
         apply fault_rate_code; try assumption. rewrite <- size_none by lia. congruence. }
    assert (third_byte x) as Hxb.
    { split; [exact Hx|]. split; [rewrite <- size_none by lia|rewrite <- rate_none by lia]; congruence. }
    destruct l as [|y l]; [exfalso; apply (tail_not_ours t e He); injection E; auto|].
    apply bytes_cons in Hl as [Hy Hl].
    assert (forall l1, too_reserved l1 = (Err e, l') -> l = l1 -> ~ fourth_byte y ->
      exists w, 255 :: b :: x :: y :: l = w ++ l' /\ header_fault e w) as Hfour.
    { intros l1 E1 -> Hn. injection E1 as <- <-. exists [255; b; x; y]. split; [reflexivity|].
      apply fault_fourth_byte; assumption. }
    destruct (assign_entry (y / 16)) as [asg|] eqn:Has.
    2: { eapply Hfour; [exact E|reflexivity|]. intros (_ & H & _). apply assign_none in Has; lia. }
    destruct (width_entry (y mod 16 / 2)) as [wd|] eqn:Hwd.
    2: { eapply Hfour; [exact E|reflexivity|]. intros (_ & _ & H3 & H7 & _). apply width_none in Hwd; lia. }
    destruct (Z.eqb_spec (y mod 2) 0) as [Hy2|Hy2].
    2: { eapply Hfour; [exact E|reflexivity|]. intros (_ & _ & _ & _ & H). lia. }
    assert (fourth_byte y) as Hyb.
    { split; [exact Hy|]. assert (~ 10 < y / 16) by (rewrite <- assign_none by lia; congruence).
      assert (~ (y mod 16 / 2 = 3 \/ y mod 16 / 2 = 7)) by (rewrite <- width_none by lia; congruence). lia. }
    assert (negb (b mod 2 =? 0) = (b =? 249)) as Enb by (destruct Hsb; subst; reflexivity).
    rewrite Enb, tail_unfold in E. clear Hfour.
    apply bind_err in E as [E|(time & l4 & E1 & E)].
    { apply times_finds in E as (w & -> & Hw); [|exact Hl|exact He]. exists ([255; b; x; y] ++ w).
      split; [reflexivity|]. destruct Hw as [[-> Hw]|(Ev & -> & v & Hw & Hv)].
      - apply fault_number; assumption.
      - assert (b = 248) as -> by (destruct Hsb; lia). eapply fault_frame_number; eauto. }
    apply times_sound in E1; [|exact Hl].
    destruct E1 as (wn & -> & num & Hnum & Hnum2 & ->). apply bytes_app in Hl as [Hwn Hl].
    apply bind_err in E as [E|(v & l5 & E1 & E)].
    { apply (size_finds (x / 16)) in E as (w & -> & Hn7 & -> & ->); [|lia|exact Hse|exact Hl|exact He].
      exists ([255; b; x; y] ++ wn ++ [255; 255]). split; [cbn [app]; do 4 f_equal; rewrite <- app_assoc; reflexivity|].
      eapply fault_size; eauto. intros ->. apply Hnum2. reflexivity. }
    apply (size_sound t m (x / 16)) in E1; [|lia|assumption|assumption].
    destruct E1 as (ws & -> & Hsize). apply bytes_app in Hl as [Hws Hl].
    apply bind_err in E as [E|(r & l6 & E1 & E)]; [exfalso; eapply (rate_clean re l5); eauto|].
    apply (rate_sound t m (x mod 16)) in E1; [|lia|assumption|assumption].
    destruct E1 as (wr & -> & Hrate). apply bytes_app in Hl as [Hwr Hl].
    apply bind_err in E as [E|(crc & l7 & E1 & E)]; [discriminate E|]. unfold fl_crc in E1.
    apply bind_err in E as [E|(crc' & l8 & E2 & E)]; [exfalso; eapply u8_err; eauto|]. apply u8_inv in E2. subst l7.
    set (front := 255 :: b :: x :: y :: wn ++ ws ++ wr) in *.
    assert (255 :: b :: x :: y :: wn ++ ws ++ wr ++ l6 = front ++ l6) as Eall.
    { unfold front. cbn [app]. do 4 f_equal. rewrite <- !app_assoc. reflexivity. }
    rewrite Eall in E1. rewrite skip_consumed in E1.
    apply (f_equal fst) in E1 as F1; apply (f_equal snd) in E1 as F2; cbn [fst snd] in F1, F2.
    injection F1 as <-.
    destruct (Z.eqb_spec (crc8_of front) crc') as [|Hne]; [discriminate E|]. cbn [negb] in E.
    injection E as <- <-.
    assert (bytes_ok front) as Hfront.
    { unfold front. do 4 (apply bytes_cons; split; [assumption|]). apply bytes_app. split; [assumption|].
      apply bytes_app. auto. }
    exists (front ++ [crc']). split; [rewrite Eall, F2, <- app_assoc; reflexivity|].
    apply fault_header_crc with (h := mkHeader (b =? 249) num v r asg wd) (crc := crc8_of front).
    - apply assign_entry_iff in Has; [|lia]. destruct Has as [Hasg Easg]. apply width_entry_iff in Hwd; [|lia].
      exists (x / 16), ws, (x mod 16), wr, (y mod 16 / 2), wn. cbn [h_size h_rate h_assignment h_width h_number h_variable].
      split; [assumption|]. split; [assumption|]. split; [assumption|]. split; [assumption|].
      split; [assumption|]. split; [exact Hnum2|].
      unfold front. cbn [app]. f_equal. f_equal; [destruct Hsb; subst; reflexivity|].
      f_equal; [lia|]. f_equal. lia.
    - apply crc8_of_ok, Hfront.
    - rewrite F2 in Hl. apply bytes_cons in Hl. apply Hl.
    - auto.
  Qed.

  Theorem header_reports e w l : header_fault e w -> bytes_ok l ->
    fl_header t m (w ++ l) (w ++ l) = (Err e, l).
  Proof.
    intros H Hl.
    destruct H as [a b Ha Hb Hs|b Hb|s x Hs Hx H0|s x Hs Hx H0 H15|s x y Hs Hx Hy Hn
      |s x y num Hs Hx Hy Hn|x y num v Hx Hy Hn Hv|s x y num v Hs Hx Hy H7 Hn Hv|h front crc c Hf Hcrc Hc Hne].
    - cbn [app]. rewrite header_eval by (repeat (apply bytes_cons; split; [assumption|]); exact Hl).
      replace ((a =? 255) && ((248 <=? b) && (b <=? 251))) with false by lia. reflexivity.
    - cbn [app]. rewrite header_eval by (repeat (apply bytes_cons; split; [lia|]); exact Hl).
      destruct Hb as [-> | ->]; reflexivity.
    - cbn [app]. assert (0 <= s < 256) by (destruct Hs; lia).
      rewrite header_eval by (repeat (apply bytes_cons; split; [lia|]); exact Hl).
      rewrite H0. destruct Hs as [-> | ->]; reflexivity.
    - cbn [app]. assert (0 <= s < 256) by (destruct Hs; lia).
      rewrite header_eval by (repeat (apply bytes_cons; split; [lia|]); exact Hl).
      destruct (size_entry (x / 16)) eqn:Es; [|apply size_none in Es; lia].
      rewrite H15. destruct Hs as [-> | ->]; reflexivity.
    - cbn [app]. assert (0 <= s < 256) by (destruct Hs; lia).
      rewrite header_eval by (repeat (apply bytes_cons; split; [try lia; apply Hx|]); exact Hl).
      destruct (third_byte_entries x) as (se & re & -> & ->); [apply Hx|exact Hx|].
      replace ((255 =? 255) && ((248 <=? s) && (s <=? 251))) with true by (destruct Hs; lia).
      replace (s <=? 249) with true by (destruct Hs; lia). cbn [negb].
      destruct (assign_entry (y / 16)) eqn:Ea; [|reflexivity].
      destruct (width_entry (y mod 16 / 2)) eqn:Ew; [|reflexivity].
      destruct (Z.eqb_spec (y mod 2) 0) as [Hy2|Hy2]; [|reflexivity]. exfalso. apply Hn.
      split; [exact Hy|]. assert (~ 10 < y / 16) by (rewrite <- assign_none by lia; congruence).
      assert (~ (y mod 16 / 2 = 3 \/ y mod 16 / 2 = 7)) by (rewrite <- width_none by lia; congruence). lia.
    - cbn [app]. assert (bytes_ok num) as Hnb.
      { destruct Hn as [b Hb|first k cs b Ha Hcs Hk Hb Hn]; [apply bytes_cons; unfold continues in Hb; split; [lia|constructor]|].
        destruct (class_announces _ _ Ha) as (_ & _ & Hf). apply bytes_cons. split; [exact Hf|].
        apply bytes_app. split; [|apply bytes_cons; split; [exact Hb|constructor]].
        eapply Forall_impl; [|exact Hcs]. unfold continues, is_byte. lia. }
      edestruct (header_start (255 :: s :: x :: y :: num ++ l)) as (se & re & asg & wd & _ & E);
        [exact Hs|exact Hx|exact Hy|apply bytes_app; split; [exact Hnb|exact Hl]|].
      rewrite E, tail_unfold. apply bind_fail, times_reports; [exact Hl|]. left. auto.
    - cbn [app]. edestruct (header_start (255 :: 248 :: x :: y :: num ++ l) 248) as (se & re & asg & wd & _ & E);
        [left; reflexivity|exact Hx|exact Hy|apply bytes_app; split; [eapply accepted_bytes, Hn|exact Hl]|].
      rewrite E, tail_unfold. apply bind_fail, times_reports; [exact Hl|]. right. eauto.
    - rewrite <- !app_assoc. cbn [app].
      assert (bytes_ok (num ++ 255 :: 255 :: l)) as Hnb.
      { apply bytes_app. split; [eapply accepted_bytes, Hn|]. do 2 (apply bytes_cons; split; [lia|]). exact Hl. }
      edestruct (header_start (255 :: s :: x :: y :: num ++ 255 :: 255 :: l)) as (se & re & asg & wd & Ese & E);
        [exact Hs|exact Hx|exact Hy|exact Hnb|].
      rewrite H7 in Ese. injection Ese as <-.
      rewrite E, tail_unfold. unfold bind at 1. rewrite (times_complete t m (s =? 249) num v);
        [|exact Hnb|exact Hn|intros Es; apply Hv; destruct Hs; lia].
      apply bind_fail, size_reports.
    - rewrite (header_any_crc t m h) by (auto; unfold is_byte; lia).
      rewrite (crc8_unique front (crc8_of front) crc) by (auto; apply crc8_of_ok, (front_bytes h), Hf).
      destruct (Z.eqb_spec crc c); [congruence|reflexivity].
  Qed.
End Header.

(** * Frames *)
Section Frame.
  Context (t : tail) (m : build).

  Lemma position (hw body rest : list Z) k : length rest = k ->
    skipn (length (hw ++ body ++ rest) - k) (hw ++ body ++ rest) = rest.
  Proof.
    intros <-. rewrite app_assoc, app_length.
    replace (length (hw ++ body) + length rest - length rest)%nat with (length (hw ++ body)) by lia.
    rewrite skipn_app, skipn_all, Nat.sub_diag. reflexivity.
  Qed.

  Theorem frame_finds l e l' : bytes_ok l -> fine m (bytes_bits l) -> ours e ->
    fl_frame t m l l = (Err e, l') -> exists w, l = w ++ l' /\ frame_fault e w.
  Proof.
    intros Hb Hf He E. unfold fl_frame in E. apply bind_err in E as [E|([fh|] & l1 & E1 & E)]; [| |discriminate E].
    { apply header_finds in E as (w & -> & Hw); auto. exists w. split; [reflexivity|]. apply fault_header, Hw. }
    destruct (header_sound t m l fh l1 Hb E1) as (h & hw & El & Hw & ->). rewrite header_of_fh in E.
    apply bind_err in E as [E|(chs & l2 & _ & E)]; [|discriminate E].
    pose proof (header_decent _ _ Hw) as (Hsz & Has & Hn & Hn' & Hbps).
    unfold frame_rest in E. destruct (h_width h) as [x|] eqn:Ew.
    2: { injection E as <- <-. exists hw. split; [exact El|]. eapply fault_width; eauto. }
    rewrite bind_lift_ok in E.
    assert (fine m (bytes_bits l1)) as Hf1.
    { destruct Hf as [?|Hf]; [left; assumption|right]. rewrite El, bytes_bits_app in Hf.
      apply quiet_app in Hf. exact Hf. }
    assert (bytes_ok l1) as Hb1 by (rewrite El in Hb; apply bytes_app in Hb; tauto).
    apply bind_err in E as [E|(c & l4 & E4 & E)].
    - unfold with_bits in E.
      destruct (p_channels t m (h_assignment h) x (Z.to_nat (h_size h)) (bytes_bits l1)) as [o bits] eqn:Ec.
      assert (o = Err e) as -> by congruence. injection E as E.
      apply channels_finds in Ec as (w & E5 & Hc); [|lia|exact Has|exact Hf1|exact He].
      destruct (split_bits _ _ _ E5) as (body & rest & pad & -> & Ebody & Hpad & -> & Hlen).
      assert (rest = l') as ->.
      { rewrite <- E, El. symmetry. apply position, Hlen. }
      exists (hw ++ body). split; [rewrite El, <- app_assoc; reflexivity|].
      apply bytes_app in Hb1. eapply fault_subframe; eauto. apply Hb1.
    - apply with_bits_inv in E4 as (bits & E4 & ->).
      destruct (channels_sound t m (h_assignment h) x (Z.to_nat (h_size h)) ltac:(lia) Has _ _ _ Hf1 E4) as (w & E5 & Hc).
      destruct (split_bits _ _ _ E5) as (body & rest & pad & -> & Ebody & Hpad & -> & Hlen).
      rewrite <- Hlen in E. rewrite El in E. rewrite position in E by reflexivity.
      apply bind_err in E as [E|(computed & l5 & E6 & E)]; [discriminate E|].
      unfold fl_crc in E6. injection E6 as <- <-.
      apply bytes_app in Hb1 as [Hbody Hrest].
      apply bind_err in E as [E|(presumed & l6 & E6 & E)]; [exfalso; eapply be_u16_err; eauto|].
      apply be_u16_inv in E6 as (a & b & -> & Ha & Hb' & ->); [|exact Hrest].
      rewrite app_assoc, consumed in E.
      destruct (Z.eqb_spec (crc16_of (hw ++ body)) (256 * a + b)) as [|Hne]; [discriminate E|].
      injection E as <- <-.
      exists (hw ++ body ++ [a; b]). split; [rewrite El, <- !app_assoc; reflexivity|].
      eapply fault_crc; eauto.
      apply crc16_of_ok, bytes_app. split; [eapply header_bytes, Hw|exact Hbody].
  Qed.

  Theorem frame_reports e w l : frame_fault e w -> bytes_ok l ->
    fl_frame t m (w ++ l) (w ++ l) = (Err e, l).
  Proof.
    intros H Hl.
    destruct H as [e w H|h hw Hh Hw|h hw bps e bits pad body Hh Hw Hc Hbody Ebody Hpad
                  |h hw bps chs bits pad body crc a b Hh Hw Hc Hbody Ebody Hpad Hcrc Ha Hb Hne].
    - unfold fl_frame. apply bind_fail, header_reports; assumption.
    - unfold fl_frame. rewrite (bind_run _ _ _ _ _ (header_complete t m h hw l Hh Hl)). rewrite header_of_fh.
      unfold bind at 1. unfold frame_rest. rewrite Hw. reflexivity.
    - assert (bytes_ok (body ++ l)) as Hb1 by (apply bytes_app; split; [exact Hbody|exact Hl]).
      rewrite <- !app_assoc.
      unfold fl_frame. rewrite (bind_run _ _ _ _ _ (header_complete t m h hw (body ++ l) Hh Hb1)). rewrite header_of_fh.
      pose proof (header_decent _ _ Hh) as (_ & Has & _).
      apply bind_fail. unfold frame_rest. rewrite Hw, bind_lift_ok. apply bind_fail.
      unfold with_bits. rewrite bytes_bits_app, Ebody, <- app_assoc.
      rewrite (channels_reports t m _ bps _ Has _ _ (pad ++ bytes_bits l) Hc). f_equal.
      rewrite (app_length pad), bytes_bits_length.
      replace ((length pad + 8 * length l) / 8)%nat with (length l)
        by (rewrite Nat.mul_comm, Nat.div_add, Nat.div_small by lia; lia).
      apply position. reflexivity.
    - rewrite (frame_any_crc t m h chs hw bps bits pad body a b) by (auto; unfold is_byte; lia).
      rewrite (crc16_unique _ _ _ (crc16_of_ok (hw ++ body) ltac:(apply bytes_app; split; [apply (header_bytes h), Hh|exact Hbody])) Hcrc).
      destruct (Z.eqb_spec crc (256 * a + b)); [congruence|reflexivity].
  Qed.
End Frame.

Lemma fault_ours e w : frame_fault e w -> ours e.
Proof.
  assert (forall bs o e w, residual_fault bs o e w -> ours e) as Hr by (intros ? ? ? ? []; exact Logic.I).
  assert (forall bps n c e w, body_fault bps n c e w -> ours e) as Hb
    by (intros ? ? ? ? ? []; try exact Logic.I; eapply Hr; eassumption).
  assert (forall bps n e w, subframe_fault bps n e w -> ours e) as Hs
    by (intros ? ? ? ? []; try exact Logic.I; eapply Hb; eassumption).
  assert (forall n bs e w, channels_fault n bs e w -> ours e) as Hc.
  { intros n bs e0 w0 H. induction H; [eapply Hs; eassumption|assumption]. }
  intros [? ? []| | | ]; try exact Logic.I. eapply Hc; eassumption.
Qed.
