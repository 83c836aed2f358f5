(** Frame headers, part 3: the decoder on lists accepts exactly the grammar. *)
From Verif Require Export ProofHeader2.
From Verif Require Import SpecReader.

(** The decoded form of a header of the specification. *)
Definition fh_assign (a : assignment) : channel_assignment :=
  match a with
  | Separate n => Independent n
  | LeftSide => LeftSideStereo
  | SideRight => RightSideStereo
  | MidSide => MidSideStereo
  end.
Definition fh_of (h : header) : frame_header :=
  mkFh (if h_variable h then SampleNumber (h_number h) else FrameNumber (h_number h))
       (h_size h) (h_rate h) (fh_assign (h_assignment h)) (h_width h).

Ltac cases16 n :=
  let H := fresh in
  assert (n = 0 \/ n = 1 \/ n = 2 \/ n = 3 \/ n = 4 \/ n = 5 \/ n = 6 \/ n = 7 \/ n = 8
          \/ n = 9 \/ n = 10 \/ n = 11 \/ n = 12 \/ n = 13 \/ n = 14 \/ n = 15) as H by lia;
  repeat (destruct H as [->|H]); [..|subst n].

(** ** Bits of the fixed part *)
Lemma sync_bits a b : 0 <= a < 256 -> 0 <= b < 256 ->
  (Z.land (256 * a + b) 65532 =? 65528) = (a =? 255) && ((248 <=? b) && (b <=? 251))
  /\ ((a =? 255) && ((248 <=? b) && (b <=? 251)) = true ->
      (Z.land (256 * a + b) 2 =? 0) = (b <=? 249)
      /\ (Z.land (256 * a + b) 1 =? 0) = (b mod 2 =? 0)).
Proof.
  intros Ha Hb.
  assert (forallb (fun a => forallb (fun b =>
    Bool.eqb (Z.land (256 * a + b) 65532 =? 65528) ((a =? 255) && ((248 <=? b) && (b <=? 251)))
    && implb ((a =? 255) && ((248 <=? b) && (b <=? 251)))
             (Bool.eqb (Z.land (256 * a + b) 2 =? 0) (b <=? 249)
              && Bool.eqb (Z.land (256 * a + b) 1 =? 0) (b mod 2 =? 0)))
    (zrange 256)) (zrange 256) = true) as H by (vm_compute; reflexivity).
  apply (sweep2 256 256) with (x := a) (y := b) in H; [|lia|lia].
  apply andb_prop in H as [H1 H2]. apply Bool.eqb_prop in H1. split; [exact H1|].
  intros Hc. rewrite Hc in H2. cbn [implb] in H2. apply andb_prop in H2 as [H2 H3].
  apply Bool.eqb_prop in H2, H3. auto.
Qed.
Lemma nibbles x : 0 <= x < 256 ->
  Z.shiftr x 4 = x / 16 /\ Z.land x 15 = x mod 16
  /\ Z.shiftr (Z.land x 14) 1 = x mod 16 / 2 /\ Z.land x 1 = x mod 2.
Proof.
  intros Hx.
  assert (forallb (fun x => (Z.shiftr x 4 =? x / 16) && (Z.land x 15 =? x mod 16)
    && (Z.shiftr (Z.land x 14) 1 =? x mod 16 / 2) && (Z.land x 1 =? x mod 2))
    (zrange 256) = true) as H by (vm_compute; reflexivity).
  apply (sweep 256) with (x := x) in H; [|lia]. repeat (apply andb_prop in H as [H ?]). lia.
Qed.

Section Flat.
  Context (t : tail) (m : build).
  Notation rb := (fl_rb t).

  Definition reserved : error :=
    FormatError "invalid frame header, encountered reserved value".

  (** ** Tables *)
  Definition size_entry (n : Z) : option (Z * bool * bool) :=
    nth (Z.to_nat n)
      [None; Some (192, false, false); Some (576, false, false); Some (1152, false, false);
       Some (2304, false, false); Some (4608, false, false); Some (0, true, false); Some (0, false, true);
       Some (256, false, false); Some (512, false, false); Some (1024, false, false);
       Some (2048, false, false); Some (4096, false, false); Some (8192, false, false);
       Some (16384, false, false); Some (32768, false, false)] None.
  Lemma h_sizes_eq {S} n (s : S) : 0 <= n < 16 ->
    h_sizes m n s = (match size_entry n with Some x => Ok x | None => Err reserved end, s).
  Proof. intros H. cases16 n; destruct m; reflexivity. Qed.

  Definition rate_entry (k : Z) : option (option Z * bool * bool * bool) :=
    nth (Z.to_nat k)
      [Some (None, false, false, false); Some (Some 88200, false, false, false);
       Some (Some 176400, false, false, false); Some (Some 192000, false, false, false);
       Some (Some 8000, false, false, false); Some (Some 16000, false, false, false);
       Some (Some 22050, false, false, false); Some (Some 24000, false, false, false);
       Some (Some 32000, false, false, false); Some (Some 44100, false, false, false);
       Some (Some 48000, false, false, false); Some (Some 96000, false, false, false);
       Some (None, true, false, false); Some (None, false, true, false);
       Some (None, false, false, true); None] None.
  Lemma h_rates_eq {S} k (s : S) : 0 <= k < 16 ->
    h_rates k s = (match rate_entry k with
                   | Some x => Ok x | None => Err (FormatError "invalid frame header") end, s).
  Proof. intros H. cases16 k; reflexivity. Qed.

  Definition assign_entry (c : Z) : option assignment :=
    if c <? 8 then Some (Separate (c + 1))
    else if c =? 8 then Some LeftSide else if c =? 9 then Some SideRight
    else if c =? 10 then Some MidSide else None.
  Lemma h_assign_eq {S} c (s : S) : 0 <= c < 16 ->
    h_assign m c s = (match assign_entry c with
                      | Some x => Ok (fh_assign x) | None => Err reserved end, s).
  Proof. intros H. cases16 c; destruct m; reflexivity. Qed.
  Lemma assign_entry_iff c a : 0 <= c < 16 ->
    assign_entry c = Some a <-> assignment_ok a /\ c = assignment_code a.
  Proof.
    intros Hc. unfold assign_entry. split.
    - repeat match goal with |- context [if ?x then _ else _] => destruct x eqn:? end;
        intros E; try discriminate E; injection E as <-; cbn; lia.
    - intros [Ha ->]. destruct a as [n| | |]; cbn in *; try reflexivity.
      destruct (Z.ltb_spec (n - 1) 8); [|lia]. do 2 f_equal. lia.
  Qed.

  Definition width_entry (b : Z) : option (option Z) :=
    nth (Z.to_nat b) [Some None; Some (Some 8); Some (Some 12); None;
                      Some (Some 16); Some (Some 20); Some (Some 24); None] None.
  Ltac cases8 n :=
    let H := fresh in
    assert (n = 0 \/ n = 1 \/ n = 2 \/ n = 3 \/ n = 4 \/ n = 5 \/ n = 6 \/ n = 7) as H by lia;
    repeat (destruct H as [->|H]); [..|subst n].
  Lemma h_widths_eq {S} b (s : S) : 0 <= b < 8 ->
    h_widths b s = (match width_entry b with Some x => Ok x | None => Err reserved end, s).
  Proof. intros H. cases8 b; reflexivity. Qed.
  Lemma width_entry_iff b w : 0 <= b < 8 -> width_entry b = Some w <-> width_code b w.
  Proof.
    intros Hb. split.
    - unfold width_code. cases8 b; cbn; intros E; try discriminate E; injection E as <-; auto 10.
    - unfold width_code. cbn [In]. intros H.
      repeat (destruct H as [H|H]; [apply (f_equal fst) in H as H1; apply (f_equal snd) in H as H2;
                                    cbn [fst snd] in H1, H2; subst; reflexivity|]). destruct H.
  Qed.
  Lemma width_code_range b w : width_code b w ->
    0 <= b < 8 /\ match w with Some x => 8 <= x <= 24 | None => True end.
  Proof.
    unfold width_code. cbn [In]. intros H.
    repeat (destruct H as [H|H]; [apply (f_equal fst) in H as H1; apply (f_equal snd) in H as H2;
                                  cbn [fst snd] in H1, H2; subst; cbn; lia|]). destruct H.
  Qed.

  (** ** Extra bytes *)
  Definition x_size (x : Z * bool * bool) : M (list Z) Z :=
    v <- h_size8 rb m (snd (fst x)) (fst (fst x)) ;; h_size16 rb m (snd x) v.
  Definition x_rate (x : option Z * bool * bool * bool) : M (list Z) (option Z) :=
    r <- h_rate8 rb (snd (fst (fst x))) (fst (fst (fst x))) ;;
    r <- h_rate16 rb (snd (fst x)) r ;;
    h_rate_ten rb m (snd x) r.

  Lemma size_code_range n w v : size_code n w v ->
    1 <= n < 16 /\ 1 <= v <= 65535 /\ bytes_ok w.
  Proof.
    intros H. inversion H; subst.
    - repeat split; try constructor; lia.
    - assert (n = 2 \/ n = 3 \/ n = 4 \/ n = 5) as [->|[->|[->| ->]]] by lia; cbn; repeat split; try constructor; lia.
    - repeat split; try lia. repeat constructor; unfold is_byte; lia.
    - repeat split; try lia. repeat constructor; unfold is_byte; lia.
    - cases16 n; try lia; cbn; repeat split; try constructor; lia.
  Qed.

  Lemma size_sound n x : 0 <= n < 16 -> size_entry n = Some x -> bsound (x_size x) (size_code n).
  Proof.
    intros Hn Ex l v l' Hl E.
    assert (forall k, x = (k, false, false) -> l = l' /\ v = k) as Hfix.
    { intros k ->. unfold x_size, h_size8, h_size16, bind, ret in E. cbn [fst snd] in E.
      injection E as <- <-. auto. }
    destruct (Z.eq_dec n 6) as [->|H6]; [|destruct (Z.eq_dec n 7) as [->|H7]].
    - injection Ex as <-. unfold x_size, h_size8, h_size16 in E. cbn [fst snd] in E.
      apply bind_ok in E as (a & l1 & E1 & E2). apply bind_ok in E1 as (b & l2 & E0 & E1).
      apply u8_inv in E0. subst l. apply bytes_cons in Hl as [Hb Hl].
      rewrite chk_u16 in E1 by lia. unfold lift, ret in *.
      apply (f_equal fst) in E1 as F1; apply (f_equal snd) in E1 as F2.
      apply (f_equal fst) in E2 as G1; apply (f_equal snd) in E2 as G2. cbn [fst snd] in *.
      assert (v = b + 1) as -> by congruence. exists [b]. split; [cbn [app]; congruence|].
      replace [b] with [b + 1 - 1] by (f_equal; lia). apply size_8bit. lia.
    - injection Ex as <-. unfold x_size, h_size8, h_size16 in E. cbn [fst snd] in E.
      unfold bind at 1, ret at 1 in E.
      apply bind_ok in E as (a & l1 & E1 & E2). apply be_u16_inv in E1; [|exact Hl].
      destruct E1 as (b1 & b0 & -> & H1 & H0 & ->).
      destruct (Z.eqb_spec (256 * b1 + b0) 65535); [discriminate E2|].
      rewrite chk_u16 in E2 by lia. unfold lift in E2.
      apply (f_equal fst) in E2 as G1; apply (f_equal snd) in E2 as G2. cbn [fst snd] in *.
      assert (v = 256 * b1 + b0 + 1) as -> by congruence. exists [b1; b0]. split; [cbn [app]; congruence|].
      replace [b1; b0] with [(256 * b1 + b0 + 1 - 1) / 256; (256 * b1 + b0 + 1 - 1) mod 256]
        by (f_equal; [lia|f_equal; lia]).
      apply size_16bit. lia.
    - exists [].
      cases16 n; try lia; try discriminate Ex; injection Ex as <-;
        destruct (Hfix _ eq_refl) as [<- ->]; (split; [reflexivity|]);
        first [ apply size_192
              | match goal with |- size_code ?c [] ?v => exact (size_576 c ltac:(lia)) end
              | match goal with |- size_code ?c [] ?v => exact (size_256 c ltac:(lia)) end ].
  Qed.
  Lemma size_complete n w v : size_code n w v ->
    exists x, size_entry n = Some x /\ forall l', x_size x (w ++ l') = (Ok v, l').
  Proof.
    intros H. inversion H; subst.
    - eexists. split; [reflexivity|]. reflexivity.
    - exists (576 * 2 ^ (n - 2), false, false). split; [|reflexivity].
      assert (n = 2 \/ n = 3 \/ n = 4 \/ n = 5) as [->|[->|[->| ->]]] by lia; reflexivity.
    - eexists. split; [reflexivity|]. intros l'. unfold x_size, h_size8, h_size16. cbn [fst snd app].
      unfold bind. cbn [fl_rb read_u8]. rewrite chk_u16 by lia. cbn [lift ret].
      unfold lift, ret. do 2 f_equal. lia.
    - eexists. split; [reflexivity|]. intros l'. unfold x_size, h_size8, h_size16. cbn [fst snd app].
      unfold bind at 1, ret at 1. unfold bind at 1. rewrite be_u16_cons by lia.
      replace (256 * ((v - 1) / 256) + (v - 1) mod 256) with (v - 1) by lia.
      destruct (Z.eqb_spec (v - 1) 65535); [lia|]. rewrite chk_u16 by lia. unfold lift.
      do 2 f_equal. lia.
    - exists (256 * 2 ^ (n - 8), false, false). split; [|reflexivity].
      cases16 n; try lia; reflexivity.
  Qed.
  Lemma size_total n x : 0 <= n < 16 -> size_entry n = Some x -> btotal (x_size x).
  Proof.
    intros Hn Ex. unfold x_size. apply safe_bind.
    - unfold h_size8. destruct (snd (fst x)); [|apply safe_ret].
      intros [|b l] Hl; [split; cbn; [apply voe_err|constructor]|].
      apply bytes_cons in Hl as [Hb Hl]. unfold bind. cbn [fl_rb read_u8]. rewrite chk_u16 by lia.
      split; cbn; [apply voe_ok|exact Hl].
    - intros v. unfold h_size16. destruct (snd x); [|apply safe_ret].
      intros l Hl. destruct (be_u16_total t l Hl) as [Hv Hl']. unfold bind, good.
      destruct (read_be_u16 rb l) as [o l1] eqn:E. cbn [fst snd] in *.
      destruct Hv as [[a ->]|[e ->]]; [|split; cbn; [apply voe_err|exact Hl']].
      apply be_u16_inv in E; [|exact Hl]. destruct E as (b1 & b0 & -> & H1 & H0 & ->).
      destruct (Z.eqb_spec (256 * b1 + b0) 65535); [split; cbn; [apply voe_err|exact Hl']|].
      rewrite chk_u16 by lia. split; cbn; [apply voe_ok|exact Hl'].
  Qed.

  Lemma rate_code_range n w v : rate_code n w v -> 0 <= n < 15 /\ bytes_ok w.
  Proof.
    intros H. inversion H; subst.
    - split; [lia|constructor].
    - match goal with H : In _ _ |- _ => rename H into Hi end. cbn [In] in Hi.
      split; [|constructor].
      repeat (destruct Hi as [E|Hi]; [injection E as <- _; lia|]). destruct Hi.
    - split; [lia|]. repeat constructor; unfold is_byte; lia.
    - split; [lia|]. repeat constructor; unfold is_byte; lia.
    - split; [lia|]. repeat constructor; unfold is_byte; lia.
  Qed.

  Lemma rate_sound n x : 0 <= n < 16 -> rate_entry n = Some x -> bsound (x_rate x) (rate_code n).
  Proof.
    intros Hn Ex l v l' Hl E.
    assert (forall k, x = (k, false, false, false) -> l = l' /\ v = k) as Hfix.
    { intros k ->. unfold x_rate, h_rate8, h_rate16, h_rate_ten, bind, ret in E. cbn [fst snd] in E.
      injection E as <- <-. auto. }
    destruct (Z.eq_dec n 12) as [->|H12]; [|destruct (Z.eq_dec n 13) as [->|H13];
      [|destruct (Z.eq_dec n 14) as [->|H14]]].
    - injection Ex as <-. unfold x_rate, h_rate8, h_rate16, h_rate_ten in E. cbn [fst snd] in E.
      destruct l as [|b l]; [discriminate E|]. apply bytes_cons in Hl as [Hb Hl].
      unfold bind, ret in E. cbn [fl_rb read_u8] in E. injection E as <- <-.
      exists [b]. split; [reflexivity|]. apply rate_8bit, Hb.
    - injection Ex as <-. unfold x_rate, h_rate8, h_rate16, h_rate_ten in E. cbn [fst snd] in E.
      destruct l as [|b [|b' l]]; [discriminate E|discriminate E|].
      apply bytes_cons in Hl as [Hb Hl]. apply bytes_cons in Hl as [Hb' Hl].
      unfold bind at 1, ret at 1 in E. unfold bind at 1 2 in E. rewrite be_u16_cons in E by assumption.
      unfold ret in E. apply (f_equal fst) in E as F1; apply (f_equal snd) in E as F2. cbn [fst snd] in F1, F2.
      assert (v = Some (256 * b + b')) as -> by congruence.
      exists [b; b']. split; [cbn [app]; congruence|]. apply rate_16bit; assumption.
    - injection Ex as <-. unfold x_rate, h_rate8, h_rate16, h_rate_ten in E. cbn [fst snd] in E.
      destruct l as [|b [|b' l]]; [discriminate E|discriminate E|].
      apply bytes_cons in Hl as [Hb Hl]. apply bytes_cons in Hl as [Hb' Hl].
      unfold bind at 1, ret at 1 in E. unfold bind at 1, ret at 1 in E.
      unfold bind at 1 in E. rewrite be_u16_cons in E by assumption.
      rewrite chk_u32 in E by lia. rewrite bind_lift_ok in E.
      unfold ret in E. apply (f_equal fst) in E as F1; apply (f_equal snd) in E as F2. cbn [fst snd] in F1, F2.
      assert (v = Some (10 * (256 * b + b'))) as -> by (rewrite Z.mul_comm; congruence).
      exists [b; b']. split; [cbn [app]; congruence|]. apply rate_tens; assumption.
    - exists [].
      cases16 n; try lia; try discriminate Ex; injection Ex as <-;
        destruct (Hfix _ eq_refl) as [<- ->]; (split; [reflexivity|]);
        first [ apply rate_streaminfo | apply rate_table; cbn [In]; auto 20 ].
  Qed.
  Lemma rate_complete n w v : rate_code n w v ->
    exists x, rate_entry n = Some x /\ forall l', x_rate x (w ++ l') = (Ok v, l').
  Proof.
    intros H. inversion H; subst.
    - eexists. split; [reflexivity|]. reflexivity.
    - match goal with H : In _ _ |- _ => rename H into Hi end. cbn [In] in Hi.
      repeat (destruct Hi as [E|Hi];
              [apply (f_equal fst) in E as E1; apply (f_equal snd) in E as E2; cbn [fst snd] in E1, E2;
               subst; eexists; split; [reflexivity|]; reflexivity|]). destruct Hi.
    - eexists. split; [reflexivity|]. intros l'. reflexivity.
    - eexists. split; [reflexivity|]. intros l'. unfold x_rate, h_rate8, h_rate16, h_rate_ten.
      cbn [fst snd app]. unfold bind at 1, ret at 1. unfold bind at 1 2. rewrite be_u16_cons by assumption.
      reflexivity.
    - eexists. split; [reflexivity|]. intros l'. unfold x_rate, h_rate8, h_rate16, h_rate_ten.
      cbn [fst snd app]. unfold bind at 1, ret at 1. unfold bind at 1, ret at 1.
      unfold bind at 1. rewrite be_u16_cons by assumption. rewrite chk_u32 by lia. rewrite bind_lift_ok.
      unfold ret. rewrite (Z.mul_comm 10). reflexivity.
  Qed.
  Lemma rate_total x : btotal (x_rate x).
  Proof.
    unfold x_rate. apply safe_bind; [|intros r; apply safe_bind; [|intros r']].
    - unfold h_rate8. destruct (snd (fst (fst x))); [|apply safe_ret].
      apply safe_bind; [apply u8_total|]. intros; apply safe_ret.
    - unfold h_rate16. destruct (snd (fst x)); [|apply safe_ret].
      apply safe_bind; [apply be_u16_total|]. intros; apply safe_ret.
    - unfold h_rate_ten. destruct (snd x); [|apply safe_ret].
      intros l Hl. destruct (be_u16_total t l Hl) as [Hv Hl']. unfold bind at 1, good.
      destruct (read_be_u16 rb l) as [o l1] eqn:E. cbn [fst snd] in *.
      destruct Hv as [[a ->]|[e ->]]; [|split; cbn; [apply voe_err|exact Hl']].
      apply be_u16_inv in E; [|exact Hl]. destruct E as (b1 & b0 & -> & H1 & H0 & ->).
      rewrite chk_u32 by lia. split; cbn; [apply voe_ok|exact Hl'].
  Qed.

  (** ** The number *)
  Definition number_ok (variable : bool) (w : list Z) (bt : block_time) : Prop :=
    exists v, accepted_number w v /\ (variable = false -> v < 2 ^ 31)
      /\ bt = (if variable then SampleNumber v else FrameNumber v).
  Lemma times_sound variable : bsound (h_times rb m variable) (number_ok variable).
  Proof.
    intros l bt l' Hl E. unfold h_times in E. destruct variable.
    - apply bind_ok in E as (v & l1 & E1 & E2). apply vli_sound in E1; [|exact Hl].
      destruct E1 as (w & -> & Hw). unfold ret in E2. injection E2 as <- <-.
      exists w. split; [reflexivity|]. exists v. split; [exact Hw|]. split; [discriminate|reflexivity].
    - apply bind_ok in E as (v & l1 & E1 & E2). apply vli_sound in E1; [|exact Hl].
      destruct E1 as (w & -> & Hw). destruct (Z.ltb_spec 2147483647 v); [discriminate E2|].
      unfold ret in E2. injection E2 as <- <-.
      exists w. split; [reflexivity|]. exists v. split; [exact Hw|]. split; [lia|].
      f_equal. apply u32_id. destruct Hw as [(k & _ & Hv & _)|[Hv _]]; lia.
  Qed.
  Lemma times_complete variable w v l' : bytes_ok (w ++ l') -> accepted_number w v ->
    (variable = false -> v < 2 ^ 31) ->
    h_times rb m variable (w ++ l')
    = (Ok (if variable then SampleNumber v else FrameNumber v), l').
  Proof.
    intros Hl Hw Hv. unfold h_times. destruct variable; unfold bind; rewrite (vli_complete t m w v l' Hl Hw).
    - reflexivity.
    - specialize (Hv eq_refl). destruct (Z.ltb_spec 2147483647 v); [lia|]. unfold ret.
      rewrite u32_id by (destruct Hw as [(k & _ & Hw & _)|[Hw _]]; lia). reflexivity.
  Qed.
  Lemma times_total variable : btotal (h_times rb m variable).
  Proof.
    unfold h_times. destruct variable; (apply safe_bind; [apply vli_total|intros v]).
    - apply safe_ret.
    - destruct (2147483647 <? v); [apply safe_fail|apply safe_ret].
  Qed.

  (** ** Everything after the fixed part *)
  Lemma tail_unfold c variable x y ca bps l :
    h_tail rb c m variable x y ca bps l
    = bind (h_times rb m variable) (fun time =>
      bind (x_size x) (fun v =>
      bind (x_rate y) (fun r =>
      bind c (fun computed =>
      bind (read_u8 rb) (fun presumed =>
      if negb (computed =? presumed) then fmt_err "frame header CRC mismatch"
      else ret (Some (mkFh time v r ca bps))))))) l.
  Proof.
    destruct x as [[v s8] s16], y as [[[r r8] r16] r10]. unfold h_tail, x_size, x_rate. cbn [fst snd].
    apply bind_ext; [reflexivity|]. intros time s1.
    rewrite bind_assoc. apply bind_ext; [reflexivity|]. intros v1 s2.
    apply bind_ext; [reflexivity|]. intros v2 s3.
    rewrite bind_assoc. apply bind_ext; [reflexivity|]. intros r1 s4.
    rewrite bind_assoc. reflexivity.
  Qed.

  Lemma skip_consumed (w l : list Z) : firstn (length (w ++ l) - length l) (w ++ l) = w.
  Proof. apply consumed. Qed.

  Lemma be_u16_or_eof_inv l o l1 : bytes_ok l -> read_be_u16_or_eof rb l = (Ok o, l1) ->
    match o with
    | Some s => exists a b, l = a :: b :: l1 /\ 0 <= a < 256 /\ 0 <= b < 256 /\ s = 256 * a + b
    | None => t = TEof /\ (length l <= 1)%nat /\ l1 = []
    end.
  Proof.
    intros Hl E. unfold read_be_u16_or_eof in E.
    destruct l as [|a [|b l]]; unfold bind in E; cbn [fl_rb read_u8_or_eof] in E.
    - destruct t; [|discriminate E]. injection E as <- <-. auto.
    - destruct t; [|discriminate E]. injection E as <- <-. auto.
    - apply bytes_cons in Hl as [Ha Hl]. apply bytes_cons in Hl as [Hb Hl].
      unfold ret in E. apply (f_equal fst) in E as F1; apply (f_equal snd) in E as F2; cbn [fst snd] in F1, F2.
      rewrite be_u16_range in F1 by assumption.
      assert (o = Some (a * 256 + b)) as -> by congruence.
      exists a, b. split; [congruence|]. split; [assumption|]. split; [assumption|]. lia.
  Qed.
  Lemma be_u16_or_eof_cons a b l : 0 <= a < 256 -> 0 <= b < 256 ->
    read_be_u16_or_eof rb (a :: b :: l) = (Ok (Some (256 * a + b)), l).
  Proof.
    intros Ha Hb. unfold read_be_u16_or_eof, bind. cbn [fl_rb read_u8_or_eof]. unfold ret.
    rewrite be_u16_range by assumption. do 3 f_equal. lia.
  Qed.

  (** ** Soundness *)
  Theorem header_sound l fh l' : bytes_ok l -> fl_header t m l l = (Ok (Some fh), l') ->
    exists h w, l = w ++ l' /\ header_code h w /\ fh = fh_of h.
  Proof.
    intros Hl E. unfold fl_header in E. apply bind_ok in E as (o & l1 & E0 & E).
    apply be_u16_or_eof_inv in E0; [|exact Hl]. unfold header_generic in E.
    destruct o as [s|]; [|discriminate E].
    destruct E0 as (a & b & -> & Ha & Hb & ->).
    destruct (sync_bits a b Ha Hb) as [Es1 Es2].
    rewrite Es1 in E. destruct ((a =? 255) && ((248 <=? b) && (b <=? 251))) eqn:Hsync; [|discriminate E].
    destruct (Es2 eq_refl) as [Es3 Es4]. rewrite Es3, Es4 in E. cbn [negb] in E.
    destruct (b <=? 249) eqn:Hb2; [|discriminate E]. cbn [negb] in E.
    apply bytes_cons in Hl as [_ Hl]. apply bytes_cons in Hl as [_ Hl].
    apply bind_ok in E as (x & l2 & E1 & E). apply u8_inv in E1. subst l1.
    apply bytes_cons in Hl as [Hx Hl]. destruct (nibbles x Hx) as (Ex1 & Ex2 & _ & _).
    rewrite Ex1, Ex2 in E.
    apply bind_ok in E as (sizes & l3 & E1 & E). rewrite h_sizes_eq in E1 by lia.
    destruct (size_entry (x / 16)) as [se|] eqn:Hse; [|discriminate E1]. injection E1 as <- <-.
    apply bind_ok in E as (rates & l3 & E1 & E). rewrite h_rates_eq in E1 by lia.
    destruct (rate_entry (x mod 16)) as [re|] eqn:Hre; [|discriminate E1]. injection E1 as <- <-.
    apply bind_ok in E as (y & l3 & E1 & E). apply u8_inv in E1. subst l2.
    apply bytes_cons in Hl as [Hy Hl]. destruct (nibbles y Hy) as (Ey1 & _ & Ey2 & Ey3).
    rewrite Ey1, Ey2, Ey3 in E.
    apply bind_ok in E as (ca & l4 & E1 & E). rewrite h_assign_eq in E1 by lia.
    destruct (assign_entry (y / 16)) as [asg|] eqn:Has; [|discriminate E1]. injection E1 as <- <-.
    apply assign_entry_iff in Has; [|lia]. destruct Has as [Hasg Easg].
    apply bind_ok in E as (bps & l4 & E1 & E). rewrite h_widths_eq in E1 by lia.
    destruct (width_entry (y mod 16 / 2)) as [wd|] eqn:Hwd; [|discriminate E1]. injection E1 as <- <-.
    apply width_entry_iff in Hwd; [|lia].
    destruct (Z.eqb_spec (y mod 2) 0) as [Ey4|]; [|discriminate E]. cbn [negb] in E.
    rewrite tail_unfold in E.
    apply bind_ok in E as (time & l4 & E1 & E). apply times_sound in E1; [|exact Hl].
    destruct E1 as (wn & -> & num & Hnum & Hnum2 & ->). apply bytes_app in Hl as [Hwn Hl].
    apply bind_ok in E as (v & l5 & E1 & E). apply (size_sound (x / 16)) in E1; [|lia|assumption|assumption].
    destruct E1 as (ws & -> & Hsize). apply bytes_app in Hl as [Hws Hl].
    apply bind_ok in E as (r & l6 & E1 & E). apply (rate_sound (x mod 16)) in E1; [|lia|assumption|assumption].
    destruct E1 as (wr & -> & Hrate). apply bytes_app in Hl as [Hwr Hl].
    apply bind_ok in E as (crc & l7 & E1 & E). unfold fl_crc in E1.
    apply bind_ok in E as (crc' & l8 & E2 & E). apply u8_inv in E2. subst l7.
    set (front := a :: b :: x :: y :: wn ++ ws ++ wr) in *.
    assert (a :: b :: x :: y :: wn ++ ws ++ wr ++ l6 = front ++ l6) as Eall.
    { unfold front. cbn [app]. do 4 f_equal. rewrite <- !app_assoc. reflexivity. }
    rewrite Eall in E1. rewrite skip_consumed in E1.
    apply (f_equal fst) in E1 as F1; apply (f_equal snd) in E1 as F2; cbn [fst snd] in F1, F2.
    injection F1 as <-.
    destruct (Z.eqb_spec (crc8_of front) crc') as [<-|]; [|discriminate E]. cbn [negb] in E.
    unfold ret in E. injection E as <- <-.
    assert (bytes_ok front) as Hfront.
    { unfold front. do 4 (apply bytes_cons; split; [assumption|]). apply bytes_app. split; [assumption|].
      apply bytes_app. auto. }
    exists (mkHeader (b mod 2 =? 1) num v r asg wd), (front ++ [crc8_of front]).
    split; [rewrite Eall, F2, <- app_assoc; reflexivity|].
    assert (b = 248 + Z.b2z (b mod 2 =? 1)) as Eb by lia.
    assert (negb (b mod 2 =? 0) = (b mod 2 =? 1)) as Enb by lia.
    split.
    - exists front, (crc8_of front). split; [|split; [apply crc8_of_ok, Hfront|reflexivity]].
      exists (x / 16), ws, (x mod 16), wr, (y mod 16 / 2), wn. cbn [h_size h_rate h_assignment h_width h_number h_variable].
      split; [assumption|]. split; [assumption|]. split; [assumption|]. split; [assumption|].
      split; [assumption|]. split; [rewrite <- Enb; exact Hnum2|].
      unfold front. cbn [app]. f_equal; [lia|]. f_equal; [exact Eb|].
      f_equal; [lia|]. f_equal. lia.
    - unfold fh_of. cbn [h_size h_rate h_assignment h_width h_number h_variable].
      rewrite Enb. reflexivity.
  Qed.

  (** ** Completeness *)
  Lemma front_bytes h w : header_front h w -> bytes_ok w.
  Proof.
    intros (sc & sx & rc & rx & bc & num & Hs & Hr & Ha & Hb & Hn & Hv & ->).
    apply size_code_range in Hs as (Hs1 & _ & Hs2). apply rate_code_range in Hr as (Hr1 & Hr2).
    apply width_code_range in Hb as (Hb1 & _).
    assert (0 <= assignment_code (h_assignment h) <= 10) as Ha1
      by (destruct (h_assignment h); cbn in *; lia).
    assert (0 <= Z.b2z (h_variable h) <= 1) as Hvb by (destruct (h_variable h); cbn; lia).
    cbn [app]. do 4 (apply bytes_cons; split; [lia|]).
    apply bytes_app. split; [|apply bytes_app; auto].
    apply accepted_number_form in Hn as [[Hv1 ->]|(k & Hk & Hv1 & ->)].
    - apply bytes_cons. split; [lia|constructor].
    - destruct (number_first k (h_number h) Hk Hv1) as [Hf _].
      unfold number_bytes. destruct k as [|k]; [lia|]. apply bytes_cons. split; [exact Hf|].
      apply continuation_bytes.
  Qed.
  Lemma header_bytes h w : header_code h w -> bytes_ok w.
  Proof.
    intros (front & crc & Hf & [Hc _] & ->). apply bytes_app. split; [eapply front_bytes, Hf|].
    apply bytes_cons. split; [lia|constructor].
  Qed.

  (** Any checksum behind a good header. *)
  Lemma header_any_crc h front crc l' : header_front h front -> is_byte crc -> bytes_ok l' ->
    fl_header t m ((front ++ [crc]) ++ l') ((front ++ [crc]) ++ l')
    = (if crc8_of front =? crc then Ok (Some (fh_of h)) else Err (FormatError "frame header CRC mismatch"), l').
  Proof.
    intros Hf Hcb Hl'. pose proof (front_bytes h front Hf) as Hfb.
    assert (bytes_ok (front ++ [crc])) as Hwb by (apply bytes_app; split; [exact Hfb|apply bytes_cons; split; [exact Hcb|constructor]]).
    destruct Hf as (sc & sx & rc & rx & bc & num & Hs & Hr & Ha & Hb & Hn & Hv & Hfront).
    pose proof (size_code_range _ _ _ Hs) as (Hs1 & Hs2 & Hs3).
    pose proof (rate_code_range _ _ _ Hr) as (Hr1 & Hr2).
    pose proof (width_code_range _ _ Hb) as (Hb1 & _).
    assert (0 <= assignment_code (h_assignment h) <= 10) as Ha1
      by (destruct (h_assignment h); cbn in *; lia).
    set (b := 248 + Z.b2z (h_variable h)) in *. assert (248 <= b <= 249) as Hb2 by (unfold b; destruct (h_variable h); cbn; lia).
    set (x := 16 * sc + rc) in *. set (y := 16 * assignment_code (h_assignment h) + 2 * bc) in *.
    assert ((front ++ [crc]) ++ l' = 255 :: b :: x :: y :: num ++ sx ++ rx ++ [crc] ++ l') as Eall.
    { rewrite Hfront. cbn [app]. do 4 f_equal. rewrite <- !app_assoc. reflexivity. }
    transitivity (fl_header t m ((front ++ [crc]) ++ l') (255 :: b :: x :: y :: num ++ sx ++ rx ++ [crc] ++ l'));
      [f_equal; exact Eall|].
    unfold fl_header, bind at 1.
    rewrite be_u16_or_eof_cons by lia. unfold header_generic.
    destruct (sync_bits 255 b ltac:(lia) ltac:(lia)) as [-> Es2].
    replace ((255 =? 255) && ((248 <=? b) && (b <=? 251))) with true in * by lia.
    destruct (Es2 eq_refl) as [-> ->]. replace (b <=? 249) with true by lia. cbn [negb].
    unfold bind at 1. cbn [fl_rb read_u8].
    destruct (nibbles x ltac:(lia)) as (-> & -> & _ & _).
    replace (x / 16) with sc by lia. replace (x mod 16) with rc by lia.
    destruct (size_complete _ _ _ Hs) as (se & Hse & Hsz). destruct (rate_complete _ _ _ Hr) as (re & Hre & Hrt).
    unfold bind at 1. rewrite h_sizes_eq, Hse by lia.
    unfold bind at 1. rewrite h_rates_eq, Hre by lia.
    unfold bind at 1. cbn [fl_rb read_u8].
    destruct (nibbles y ltac:(lia)) as (-> & _ & -> & ->).
    replace (y / 16) with (assignment_code (h_assignment h)) by lia.
    replace (y mod 16 / 2) with bc by lia. replace (y mod 2) with 0 by lia.
    unfold bind at 1. rewrite h_assign_eq by lia.
    rewrite (proj2 (assign_entry_iff (assignment_code (h_assignment h)) (h_assignment h) ltac:(lia))) by auto.
    unfold bind at 1. rewrite h_widths_eq by lia. rewrite (proj2 (width_entry_iff bc (h_width h) ltac:(lia))) by exact Hb.
    change (negb (0 =? 0)) with false. cbv iota.
    fold (fl_rb t). rewrite tail_unfold.
    assert (bytes_ok (num ++ sx ++ rx ++ [crc] ++ l')) as Hrest.
    { assert (bytes_ok ((front ++ [crc]) ++ l')) as H1 by (apply bytes_app; auto).
      rewrite Eall in H1. do 4 (apply bytes_cons in H1 as [_ H1]). exact H1. }
    assert (negb (b mod 2 =? 0) = h_variable h) as -> by (unfold b; destruct (h_variable h); reflexivity).
    unfold bind at 1. rewrite (times_complete _ num (h_number h)) by assumption.
    unfold bind at 1. rewrite Hsz. unfold bind at 1. rewrite Hrt.
    unfold bind at 1, fl_crc. rewrite <- app_assoc, skip_consumed.
    unfold bind at 1. cbn [app fl_rb read_u8].
    destruct (crc8_of front =? crc); reflexivity.
  Qed.
  Theorem header_complete h w l' : header_code h w -> bytes_ok l' ->
    fl_header t m (w ++ l') (w ++ l') = (Ok (Some (fh_of h)), l').
  Proof.
    intros (front & crc & Hf & Hcrc & ->) Hl'.
    rewrite (header_any_crc h) by (auto; destruct Hcrc as [? _]; unfold is_byte; lia).
    rewrite (crc8_unique front (crc8_of front) crc) by (auto; apply crc8_of_ok, (front_bytes h), Hf).
    rewrite Z.eqb_refl. reflexivity.
  Qed.

  (** ** Totality *)
  Lemma good_step {S A B} (I : S -> Prop) (c : M S A) (k : A -> M S B) s a s' :
    c s = (Ok a, s') -> good I (k a s') -> good I (bind c k s).
  Proof. intros E H. unfold bind. rewrite E. exact H. Qed.
  Lemma good_stop {S A B} (I : S -> Prop) (c : M S A) (k : A -> M S B) s e s' :
    c s = (Err e, s') -> I s' -> good I (bind c k s).
  Proof. intros E H. unfold bind. rewrite E. split; cbn; [apply voe_err|exact H]. Qed.
  Lemma read_entry {S A} (I : S -> Prop) (o : option A) e (s : S) {B} (c : M S A) (k : A -> M S B) :
    c s = (match o with Some x => Ok x | None => Err e end, s) -> I s ->
    (forall x, o = Some x -> good I (k x s)) -> good I (bind c k s).
  Proof.
    intros E H K. destruct o; [eapply good_step; [exact E|apply K; reflexivity]|].
    eapply good_stop; [exact E|exact H].
  Qed.

  Theorem header_total l : bytes_ok l -> good bytes_ok (fl_header t m l l).
  Proof.
    intros Hl. assert (forall l0, btotal (fl_crc crc8_of l0)) as Hcrc.
    { intros l0 s Hs. split; cbn; [apply voe_ok|exact Hs]. }
    unfold fl_header.
    destruct l as [|a [|b l]].
    - unfold read_be_u16_or_eof, bind. cbn [fl_rb read_u8_or_eof].
      destruct t; cbn; (split; [first [apply voe_ok|apply voe_err]|constructor]).
    - unfold read_be_u16_or_eof, bind. cbn [fl_rb read_u8_or_eof].
      destruct t; cbn; (split; [first [apply voe_ok|apply voe_err]|constructor]).
    - apply bytes_cons in Hl as Hl1. destruct Hl1 as [Ha Hl1]. apply bytes_cons in Hl1 as [Hb Hl1].
      eapply good_step; [apply be_u16_or_eof_cons; assumption|]. unfold header_generic.
      assert (forall e l, bytes_ok l -> good bytes_ok (@fail _ (option frame_header) e l)) as Hfail
        by (intros; split; cbn; [apply voe_err|assumption]).
      destruct (negb _); [apply Hfail, Hl1|]. destruct (negb _); [apply Hfail, Hl1|].
      generalize (a :: b :: l) as l0. intros l0.
      destruct l as [|x l]; [eapply good_stop; [reflexivity|constructor]|].
      eapply good_step; [reflexivity|].
      apply bytes_cons in Hl1 as [Hx Hl1]. destruct (nibbles x Hx) as (-> & -> & _ & _).
      eapply read_entry; [apply h_sizes_eq; lia|exact Hl1|]. intros se Hse.
      eapply read_entry; [apply h_rates_eq; lia|exact Hl1|]. intros re Hre.
      destruct l as [|y l]; [eapply good_stop; [reflexivity|constructor]|].
      eapply good_step; [reflexivity|].
      apply bytes_cons in Hl1 as [Hy Hl1]. destruct (nibbles y Hy) as (-> & _ & -> & ->).
      destruct (assign_entry (y / 16)) as [asg|] eqn:Has;
        [|eapply good_stop; [rewrite h_assign_eq, Has by lia; reflexivity|exact Hl1]].
      eapply good_step; [rewrite h_assign_eq, Has by lia; reflexivity|].
      eapply read_entry; [apply h_widths_eq; lia|exact Hl1|]. intros wd Hwd.
      destruct (negb _); [apply Hfail, Hl1|].
      rewrite tail_unfold.
      apply (safe_bind bytes_ok); [apply times_total| |exact Hl1]. intros time.
      apply safe_bind; [apply (size_total (x / 16)); [lia|assumption]|]. intros v.
      apply safe_bind; [apply rate_total|]. intros r.
      apply safe_bind; [apply Hcrc|]. intros computed.
      apply safe_bind; [apply u8_total|]. intros presumed.
      destruct (negb _); [apply safe_fail|apply safe_ret].
  Qed.
End Flat.
