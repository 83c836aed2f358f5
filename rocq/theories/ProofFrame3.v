(** Frames, part 3: streams of bytes. *)
From Verif Require Export ProofHeader4 ProofFrame2 ProofUnsup.
From Verif Require Import SpecReader.

Lemma surj {A B} (p : A * B) a : fst p = a -> p = (a, snd p).
Proof. destruct p. cbn. intros ->. reflexivity. Qed.

(** ** Parsers drop a prefix of the input *)
Section Shrinks.
  Context (t : tail) (m : build).
  Definition shrinks {A} (p : P A) : Prop := forall s, exists w, s = w ++ snd (p s).

  Lemma shr_ret {A} (a : A) : shrinks (ret a).
  Proof. intros s. exists []. reflexivity. Qed.
  Lemma shr_lift {A} (o : outcome A) : shrinks (lift o).
  Proof. intros s. exists []. reflexivity. Qed.
  Lemma shr_fail {A} e : shrinks (@fail _ A e).
  Proof. intros s. exists []. reflexivity. Qed.
  Lemma shr_bind {A B} (p : P A) (f : A -> P B) : shrinks p -> (forall a, shrinks (f a)) -> shrinks (bind p f).
  Proof.
    intros Hp Hf s. destruct (Hp s) as [w E]. unfold bind.
    destruct (p s) as [o s']. cbn [snd] in E. destruct o; try (exists w; exact E).
    destruct (Hf a s') as [w' E']. exists (w ++ w'). rewrite <- app_assoc, <- E'. exact E.
  Qed.
  Lemma shr_bits n : shrinks (bl_bits t n).
  Proof.
    intros s. unfold bl_bits. destruct (_ <=? _)%nat; cbn [snd].
    - exists (firstn n s). symmetry. apply firstn_skipn.
    - exists s. symmetry. apply app_nil_r.
  Qed.
  Lemma shr_bit : shrinks (bl_bit t).
  Proof. intros [|b s]; [exists []|exists [b]]; reflexivity. Qed.
  Lemma shr_unary : shrinks (bl_unary t m).
  Proof.
    intros s. unfold bl_unary. destruct (unary_split s) as [z o] eqn:E.
    destruct (match m with Debug => _ | Release => _ end); [exists s; symmetry; apply app_nil_r|].
    destruct o as [r|]; [|exists s; symmetry; apply app_nil_r].
    apply unary_split_some in E as [-> _]. cbn [snd].
    exists (unary z). reflexivity.
  Qed.
  Lemma shr_repeat {A} n (p : P A) : shrinks p -> shrinks (p_repeat n p).
  Proof.
    intros Hp. induction n as [|n IH]; cbn [p_repeat]; [apply shr_ret|].
    apply shr_bind; [exact Hp|intros x]. apply shr_bind; [exact IH|intros xs; apply shr_ret].
  Qed.
  Ltac shr1 :=
    first [ apply shr_ret | apply shr_lift | apply shr_fail | apply shr_bits | apply shr_bit
                 | apply shr_unary | apply shr_repeat | apply shr_bind; [|intros ?]
                 | match goal with |- shrinks (if ?c then _ else _) => destruct c end ].
  Ltac shr := repeat shr1.
  Lemma shr_partitions pbits lens : shrinks (p_partitions t m pbits lens).
  Proof.
    induction lens as [|n lens IH]; cbn [p_partitions]; [apply shr_ret|].
    apply shr_bind; [|intros a; apply shr_bind; [exact IH|intros b; apply shr_ret]].
    unfold p_partition, p_rice. shr.
  Qed.
  Lemma shr_residual bs o : shrinks (p_residual t m bs o).
  Proof. unfold p_residual. repeat first [apply shr_partitions | shr1]. Qed.
  Lemma shr_subframe bps n : shrinks (p_subframe t m bps n).
  Proof.
    unfold p_subframe, p_type, p_wasted. shr.
    all: match goal with |- shrinks (p_body _ _ ?a _ _) => destruct a end;
      cbn [p_body]; unfold p_fixed, p_lpc, p_signed; repeat first [apply shr_residual | shr1].
  Qed.
  Lemma shr_channels ca bps n : shrinks (p_channels t m ca bps n).
  Proof. destruct ca; cbn [p_channels]; repeat first [apply shr_subframe | shr1]. Qed.
End Shrinks.

(** ** Checksums of accepted frames, without any restriction on the input *)
Section Pure.
  Context (t : tail) (m : build).

  Theorem frame_checked l h chs l' : bytes_ok l -> fl_frame t m l l = (Ok (Some (h, chs)), l') ->
    exists hw body crc, header_code h hw /\ byte_string body /\ is_crc 16 poly16 (hw ++ body) crc
      /\ l = hw ++ body ++ [crc / 256; crc mod 256] ++ l'.
  Proof.
    intros Hb E. unfold fl_frame in E. apply bind_ok in E as ([fh|] & l1 & E1 & E); [|discriminate E].
    destruct (header_sound t m l fh l1 Hb E1) as (h' & hw & El & Hw & ->). rewrite header_of_fh in E.
    apply bind_ok in E as (chs' & l2 & E2 & E). injection E as <- <- <-.
    unfold frame_rest in E2. apply bind_ok in E2 as (bps & l3 & E3 & E2).
    destruct (h_width h') as [x|] eqn:Ew; [|discriminate E3]. injection E3 as <- <-.
    apply bind_ok in E2 as (c & l4 & E4 & E2). apply with_bits_inv in E4 as (bits & E4 & ->).
    destruct (shr_channels t m (h_assignment h') x (Z.to_nat (h_size h')) (bytes_bits l1)) as [w E5].
    rewrite E4 in E5. cbn [snd] in E5.
    destruct (split_bits _ _ _ E5) as (body & rest & pad & -> & Ebody & Hpad & -> & Hlen).
    rewrite <- Hlen in E2.
    replace (skipn (length l - length rest) l) with rest in E2.
    2: { rewrite El, app_assoc, app_length. replace (length (hw ++ body) + length rest - length rest)%nat with (length (hw ++ body)) by lia.
         rewrite skipn_app, skipn_all, Nat.sub_diag. reflexivity. }
    apply bind_ok in E2 as (computed & l5 & E6 & E2). unfold fl_crc in E6. injection E6 as <- <-.
    apply bind_ok in E2 as (presumed & l6 & E6 & E2).
    destruct (negb _) eqn:Ec; [discriminate E2|]. injection E2 as <- <-.
    apply be_u16_inv in E6 as (a & b & -> & Ha & Hb' & Ep).
    2: { rewrite El in Hb. apply bytes_app in Hb as [_ Hb]. apply bytes_app in Hb. tauto. }
    rewrite El, app_assoc, consumed in Ec.
    assert (crc16_of (hw ++ body) = 256 * a + b) as Ecrc by lia.
    assert (bytes_ok (hw ++ body)) as Hhb.
    { rewrite El, app_assoc in Hb. apply bytes_app in Hb. tauto. }
    exists hw, body, (256 * a + b). split; [exact Hw|]. split; [apply bytes_app in Hhb; tauto|].
    split; [rewrite <- Ecrc; apply crc16_of_ok, Hhb|].
    rewrite El. do 2 f_equal. cbn [app]. f_equal; [lia|]. f_equal. lia.
  Qed.

  (** ** Unsupported *)
  Definition seq_channels (n : nat) : list Z -> P unit := fix go bs :=
    match bs with
    | [] => ret tt
    | b :: bs' => p_subframe t m b n ;;; go bs'
    end.
  Lemma seq_rejects n bs : Forall (fun b => 1 <= b <= 32) bs ->
    rejects m (seq_channels n bs) (unsupported_channels n bs).
  Proof.
    intros HF. induction HF as [|b bs Hb HF IH]; intros s u s' Hf E; cbn [seq_channels] in E; [discriminate E|].
    apply bind_err in E as [E|(a & s0 & E0 & E)].
    - apply subframe_rejects in E as (w & rest & -> & Hw); [|exact Hb|exact Hf].
      exists w, rest. split; [reflexivity|]. constructor. exact Hw.
    - apply subframe_sound in E0 as (w & -> & Hw); [|exact Hb|exact Hf].
      apply IH in E as (w' & rest & -> & Hw'); [|eapply fine_app, Hf].
      exists (w ++ w'), rest. rewrite <- app_assoc. split; [reflexivity|].
      econstructor; [exact Hw|exact Hw'].
  Qed.
  Lemma seq_refuses n bs : refuses (seq_channels n bs) (unsupported_channels n bs).
  Proof.
    intros w rest H. induction H as [b bs w Hw|b bs w0 s w Hw0 Hw IH]; cbn [seq_channels]; unfold bind.
    - destruct (subframe_refuses t m b n w rest Hw) as (u & s' & ->). eauto.
    - rewrite <- app_assoc, (subframe_complete t m b n _ _ _ Hw0). exact IH.
  Qed.
  (** Errors do not depend on what is done with the samples. *)
  Definition same_err {A B} (p : P A) (q : P B) : Prop :=
    forall s e s', p s = (Err e, s') <-> q s = (Err e, s').
  Lemma channels_seq ca bps n : assignment_ok ca ->
    same_err (p_channels t m ca bps n) (seq_channels n (subframe_widths bps ca)).
  Proof.
    intros _. destruct ca as [k| | |]; cbn [p_channels subframe_widths].
    - induction (Z.to_nat k) as [|i IH]; intros s e s'; cbn [p_repeat repeat seq_channels].
      + split; intros E; discriminate E.
      + unfold bind. destruct (p_subframe t m bps n s) as [o s0]. destruct o; try (split; intros E; congruence).
        specialize (IH s0 e s').
        destruct (p_repeat i (p_subframe t m bps n) s0) as [o1 s1], (seq_channels n (repeat bps i) s0) as [o2 s2].
        destruct o1; unfold ret; split; intros E; try discriminate E; try (apply IH; exact E);
          try (apply IH in E; discriminate E).
    - intros s e s'. cbn [seq_channels]. unfold bind, ret.
      destruct (p_subframe t m bps n s) as [o s0]. destruct o; try (split; intros E; congruence).
      destruct (p_subframe t m (bps + 1) n s0) as [o s1]. destruct o; split; intros E; congruence.
    - intros s e s'. cbn [seq_channels]. unfold bind, ret.
      destruct (p_subframe t m (bps + 1) n s) as [o s0]. destruct o; try (split; intros E; congruence).
      destruct (p_subframe t m bps n s0) as [o s1]. destruct o; split; intros E; congruence.
    - intros s e s'. cbn [seq_channels]. unfold bind, ret.
      destruct (p_subframe t m bps n s) as [o s0]. destruct o; try (split; intros E; congruence).
      destruct (p_subframe t m (bps + 1) n s0) as [o s1]. destruct o; split; intros E; congruence.
  Qed.
End Pure.
