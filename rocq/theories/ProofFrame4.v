(** Frames, part 4: theorems about any stream of bytes. *)
From Verif Require Export ProofFrame3.
From Verif Require Import SpecReader.

(** * Unsupported frames *)

(** Programs that never report Unsupported. *)
Definition sup {S A} (c : M S A) : Prop := forall s u s', c s <> (Err (Unsupported u), s').
Lemma sup_bind' {S A B} (c : M S A) (f : A -> M S B) : sup c -> (forall a, sup (f a)) -> sup (bind c f).
Proof.
  intros Hc Hf s u s' E. apply bind_err in E as [E|(a & s0 & _ & E)];
    [apply (Hc _ _ _ E)|apply (Hf a _ _ _ E)].
Qed.
Lemma sup_ret' {S A} (a : A) : sup (@ret S A a).
Proof. intros s u s' E; discriminate. Qed.
Lemma sup_fmt' {S A} w : sup (@fmt_err S A w).
Proof. intros s u s' E; discriminate. Qed.
Lemma sup_chk' {S} m f x : sup (@lift S _ (chk m f x)).
Proof. intros s u s' E. unfold lift, chk in E. destruct (_ =? _); [|destruct m]; discriminate. Qed.
Lemma sup_shl' {S} m f w x y : sup (@lift S _ (shl m f w x y)).
Proof.
  intros s u s' E. unfold lift, shl, chk_shift, obind in E.
  destruct (_ && _); [|destruct m]; discriminate.
Qed.
Lemma sup_u8 t : sup (read_u8 (fl_rb t)).
Proof. intros [|b l] u s' E; [|discriminate]. cbn in E. destruct t; discriminate. Qed.
Lemma sup_u8_eof t : sup (read_u8_or_eof (fl_rb t)).
Proof. intros [|b l] u s' E; [|discriminate]. cbn in E. destruct t; discriminate. Qed.
Lemma sup_prefix {S} m n a b c d : sup (@lift S _ (vli_prefix_loop m n a b c d)).
Proof.
  assert (forall u, vli_prefix_loop m n a b c d <> Err (Unsupported u)) as X.
  { intros u. revert a b c d. induction n as [|n IH]; intros a b c d; cbn [vli_prefix_loop];
      (destruct (_ =? 0); [discriminate|]); [discriminate|].
    unfold chk. destruct (_ =? _); [apply IH|]. destruct m; [discriminate|]. apply IH. }
  intros s u s' E. unfold lift in E. apply (X u). congruence.
Qed.

Section Unsup.
  Context (t : tail) (m : build).
  Ltac supp1 :=
    first
      [ apply sup_ret' | apply sup_fmt' | apply sup_chk' | apply sup_shl' | apply sup_u8
      | apply sup_u8_eof | apply sup_prefix | apply sup_bind'; [|intros ?]
      | match goal with
        | |- sup (if ?c then _ else _) => destruct c
        | |- sup (let '(_, _) := ?x in _) => destruct x
        | |- sup (match ?x with _ => _ end) => destruct x
        end ].
  Ltac supp := repeat supp1.
  Lemma sup_rest n x : sup (vli_rest_loop (fl_rb t) m n x).
  Proof. revert x. induction n as [|n IH]; intros x; cbn [vli_rest_loop]; supp; auto. Qed.
  Lemma sup_vli : sup (read_var_length_int (fl_rb t) m).
  Proof. unfold read_var_length_int. supp. all: apply sup_rest. Qed.
  Lemma sup_crc f l0 : sup (fl_crc f l0).
  Proof. intros s u s' E; discriminate. Qed.
  Lemma sup_header l0 : sup (fl_header t m l0).
  Proof.
    unfold fl_header, read_be_u16_or_eof, header_generic, h_sizes, h_rates, h_assign, h_widths, h_tail, h_times,
      h_size8, h_size16, h_rate8, h_rate16, h_rate_ten, read_be_u16.
    repeat first [apply sup_vli | apply sup_crc | supp1].
  Qed.

  Lemma assignment_widths bps a : 1 <= bps <= 31 -> assignment_ok a ->
    Forall (fun b => 1 <= b <= 32) (subframe_widths bps a).
  Proof.
    intros Hb Ha. destruct a as [k| | |]; cbn [subframe_widths].
    - apply Forall_forall. intros x Hx. apply repeat_spec in Hx. lia.
    - repeat constructor; lia.
    - repeat constructor; lia.
    - repeat constructor; lia.
  Qed.

  Theorem frame_unsupported_only l u : bytes_ok l -> fine m (bytes_bits l) ->
    fst (fl_frame t m l l) = Err (Unsupported u) -> unsupported_frame l.
  Proof.
    intros Hb Hf E. destruct (fl_frame t m l l) as [o l'] eqn:E0. cbn [fst] in E. subst o.
    unfold fl_frame in E0. apply bind_err in E0 as [E|(ofh & l1 & E1 & E)]; [destruct (sup_header _ _ _ _ E)|].
    destruct ofh as [fh|]; [|discriminate E].
    destruct (header_sound t m l fh l1 Hb E1) as (h & hw & El & Hw & ->). rewrite header_of_fh in E.
    apply bind_err in E as [E|(chs & s0 & _ & E)]; [|discriminate E].
    exists h, hw, l1. split; [exact El|]. split; [exact Hw|].
    pose proof (header_decent _ _ Hw) as (Hsz & Has & Hn & Hn' & Hbps).
    unfold frame_rest in E. destruct (h_width h) as [bps|]; [|exact I].
    apply bind_err in E as [E|(x & s0 & E2 & E)]; [discriminate E|]. injection E2 as <- <-.
    apply bind_err in E as [E|(x & s0 & E2 & E)].
    - unfold with_bits in E.
      destruct (p_channels t m (h_assignment h) bps (Z.to_nat (h_size h)) (bytes_bits l1)) as [o bits] eqn:Ep.
      assert (o = Err (Unsupported u)) as -> by congruence.
      apply channels_seq in Ep; [|exact Has].
      apply seq_rejects in Ep as (w & rest & E3 & Hx); [exists w, rest; auto|apply assignment_widths; [lia|exact Has]|].
      destruct Hf as [?|Hf]; [left; assumption|right]. rewrite El, bytes_bits_app in Hf.
      apply quiet_app in Hf. exact Hf.
    - exfalso. revert E. match goal with |- ?c s0 = _ -> _ => assert (sup c) as X end.
      { apply sup_bind'; [apply sup_crc|intros a]. unfold read_be_u16. supp. }
      apply X.
  Qed.

  Theorem frame_unsupported l : bytes_ok l -> unsupported_frame l ->
    exists u, fst (fl_frame t m l l) = Err (Unsupported u).
  Proof.
    intros Hb (h & hw & body & -> & Hh & H).
    apply bytes_app in Hb as [Hb1 Hb2].
    unfold fl_frame. rewrite (bind_run _ _ _ _ _ (header_complete t m h hw body Hh Hb2)).
    rewrite header_of_fh.
    pose proof (header_decent _ _ Hh) as (Hsz & Has & Hn & Hn' & Hbps).
    unfold frame_rest. destruct (h_width h) as [bps|]; [|eexists; reflexivity].
    destruct H as (w & rest & E & Hw).
    destruct (seq_refuses t m (Z.to_nat (h_size h)) (subframe_widths bps (h_assignment h)) w rest Hw) as (u & s' & Er).
    apply channels_seq in Er; [|exact Has].
    exists u. unfold bind, lift, with_bits. rewrite E, Er. reflexivity.
  Qed.
End Unsup.
