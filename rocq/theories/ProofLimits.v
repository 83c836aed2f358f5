(** What happens on very long inputs; the headers of the examples. *)
From Verif Require Export ProofPrefix.
From Verif Require Import SpecReader.

(** A header: fixed block size, frame 5, 16 samples, 44.1 kHz, mono, 8 bits. *)
Definition tiny_header : header := mkHeader false 5 16 (Some 44100) (Separate 1) (Some 8).
Definition tiny_front : list Z := [255; 248; 105; 2; 5; 15].

Lemma tiny_front_ok : header_front tiny_header tiny_front.
Proof.
  exists 6, [15], 9, [], 1, [5].
  split; [exact (size_8bit 16 ltac:(lia))|].
  split; [apply rate_table; cbn; tauto|].
  split; [cbn; lia|]. split; [cbn; tauto|].
  split; [left; exists 0%nat; cbn; repeat split; lia|].
  split; [cbn; lia|]. reflexivity.
Qed.
Lemma tiny_header_ok : header_code tiny_header (tiny_front ++ [246]).
Proof.
  exists tiny_front, 246. split; [apply tiny_front_ok|]. split; [|reflexivity].
  split; [lia|]. exists 278225188990026. split; [lia|reflexivity].
Qed.

(** The frame with a constant subframe of value -3. *)
Definition tiny_frame : list Z := (tiny_front ++ [246]) ++ [0; 253] ++ [124; 163].
Lemma tiny_frame_ok : frame_code tiny_header [repeat (-3) 16] tiny_frame.
Proof.
  exists (tiny_front ++ [246]), 8, (bytes_bits [0; 253]), [], [0; 253], 31907.
  split; [apply tiny_header_ok|]. split; [reflexivity|]. split.
  - replace (bytes_bits [0; 253]) with (concat [bytes_bits [0; 253]]) by (cbn [concat]; apply app_nil_r).
    apply channels_separate; [reflexivity|]. constructor; [|constructor].
    exists Constant, 0, (word 8 (-3)), (repeat (-3) 16).
    split; [lia|]. split; [lia|]. split; [apply body_constant; unfold fits; lia|]. split; reflexivity.
  - split; [repeat constructor; lia|]. split; [reflexivity|]. split; [cbn; lia|].
    split; [|reflexivity]. split; [lia|]. exists 3148362377540863079391. split; [lia|reflexivity].
Qed.

(** ** Runs of zero bytes *)
Lemma zeros_bits n : bytes_bits (repeat 0 n) = repeat false (8 * n).
Proof.
  induction n as [|n IH]; [reflexivity|].
  replace (8 * S n)%nat with (8 + 8 * n)%nat by lia. rewrite repeat_app, <- IH. reflexivity.
Qed.
Lemma bytes_zeros n : bytes_ok (repeat 0 n).
Proof. apply Forall_forall. intros x Hx. apply repeat_spec in Hx. unfold is_byte. lia. Qed.

(** The count of zeros of a wasted-bits field. *)
Lemma wasted_run t m n r :
  p_subframe t m 8 16 (bytes_bits (1 :: repeat 0 n) ++ r)
  = bind (bind (bl_unary t m) (fun u => lift (chk m u32 (1 + u))))
      (fun k => if 31 <? k then fmt_err "wasted bits per sample must not exceed 31"
                else if 8 <=? k then fmt_err "subframe has no non-wasted bits"
                else s <- p_body t m Constant (8 - k) 16 ;; ret (map (fun x => wrap32 (x * 2 ^ k)) s))
      (repeat false (8 * n) ++ r).
Proof.
  change (bytes_bits (1 :: repeat 0 n)) with (bytes_bits [1] ++ bytes_bits (repeat 0 n)).
  rewrite zeros_bits, <- app_assoc.
  unfold p_subframe. unfold bind at 1.
  change (bl_bit t (bytes_bits [1] ++ repeat false (8 * n) ++ r))
    with (@Ok bool false, bits_of 6 0 ++ true :: repeat false (8 * n) ++ r). cbv iota beta.
  unfold p_type. rewrite bind_assoc. rewrite (bind_run _ _ _ _ _ (bl_bits_app t 6 0 _ ltac:(cbn; lia))).
  change (0 =? 0) with true. cbv iota. unfold bind at 1. unfold ret at 1. cbv iota beta.
  unfold p_wasted. unfold bind at 1 2. cbn [bl_bit]. cbv iota beta.
  unfold bind. destruct (bl_unary t m (repeat false (8 * n) ++ r)) as [[u| | | |] s]; try reflexivity.
  unfold lift. destruct (chk m u32 (1 + u)) as [k| | | |]; try reflexivity.
  destruct (31 <? k); reflexivity.
Qed.

Section Huge.
  Context (t : tail) (n : nat) (Hn : 2 ^ 29 <= Z.of_nat n).
  Definition huge (rest : list Z) : list Z := (tiny_front ++ [246]) ++ 1 :: repeat 0 n ++ rest.

  Lemma huge_split r : exists z o, unary_split (repeat false (8 * n) ++ r) = (z, o) /\ 2 ^ 32 <= z.
  Proof.
    rewrite unary_split_zeros. eexists _, _. split; [reflexivity|].
    pose proof (unary_split_nonneg r). lia.
  Qed.

  Definition huge_channels (m : build) (r : list Z) : outcome (list (list Z)) * list bool :=
    p_channels t m (Separate 1) 8 16 (bytes_bits ((1 :: repeat 0 n) ++ r)).

  Lemma huge_frame m rest : bytes_ok rest ->
    fl_frame t m (huge rest) (huge rest)
    = bind (bind (with_bits (huge rest) (p_channels t m (Separate 1) 8 16))
              (fun chs => bind (fl_crc crc16_of (huge rest)) (fun computed =>
                 bind (read_be_u16 (fl_rb t)) (fun presumed =>
                   if negb (computed =? presumed) then fmt_err "frame CRC mismatch" else ret chs))))
        (fun chs => ret (Some (tiny_header, chs))) ((1 :: repeat 0 n) ++ rest).
  Proof.
    intros Hb. unfold fl_frame, huge at 2.
    assert (bytes_ok (1 :: repeat 0 n ++ rest)) as Hb1.
    { apply bytes_cons. split; [lia|]. apply bytes_app. split; [apply bytes_zeros|exact Hb]. }
    rewrite (bind_run _ _ _ _ _ (header_complete t m tiny_header _ _ tiny_header_ok Hb1)).
    rewrite header_of_fh. reflexivity.
  Qed.

  Lemma huge_panics rest : bytes_ok rest -> exists w, fst (fl_frame t Debug (huge rest) (huge rest)) = Panic w.
  Proof.
    intros Hb. rewrite huge_frame by exact Hb.
    destruct (huge_split (bytes_bits rest)) as (z & o & E & Hz).
    assert (exists w s, p_channels t Debug (Separate 1) 8 16 (bytes_bits ((1 :: repeat 0 n) ++ rest)) = (Panic w, s)) as (w & s & E1).
    { cbn [p_channels]. change (Z.to_nat 1) with 1%nat. cbn [p_repeat]. rewrite bytes_bits_app.
      unfold bind at 1. rewrite wasted_run. unfold bind, bl_unary. rewrite E.
      replace (2 ^ 32 <=? z) with true by lia. eauto. }
    exists w. unfold bind, with_bits. rewrite E1. reflexivity.
  Qed.
End Huge.

(** In release builds the count wraps around: 2^32 zeros pass for none. *)
Section Wraps.
  Context (t : tail) (n : nat) (Hn : Z.of_nat n = 2 ^ 29).
  Lemma wraps : exists crc w, bytes_ok [crc / 256; crc mod 256]
    /\ fl_frame t Release (huge n [128; crc / 256; crc mod 256]) (huge n [128; crc / 256; crc mod 256])
       = (Ok (Some (tiny_header, w)), []).
  Proof.
    set (front := huge n [128]).
    assert (bytes_ok front) as Hf.
    { apply bytes_app. split; [repeat constructor; lia|]. apply bytes_cons. split; [lia|].
      apply bytes_app. split; [apply bytes_zeros|repeat constructor; lia]. }
    pose proof (crc16_of_ok front Hf) as Hc. set (crc := crc16_of front) in *.
    assert (0 <= crc < 65536) as Hr by apply Hc.
    exists crc, [repeat 0 16]. split; [apply bytes_cons; split; [lia|apply bytes_cons; split; [lia|constructor]]|].
    set (cs := [crc / 256; crc mod 256]).
    assert (bytes_ok (128 :: cs)) as Hcs.
    { unfold cs. repeat (apply bytes_cons; split; [lia|]). constructor. }
    change [128; crc / 256; crc mod 256] with (128 :: cs).
    assert (huge n (128 :: cs) = front ++ cs) as El.
    { unfold front, huge. rewrite <- !app_assoc. cbn [app]. rewrite <- app_assoc. reflexivity. }
    rewrite huge_frame by exact Hcs.
    assert (p_channels t Release (Separate 1) 8 16 (bytes_bits ((1 :: repeat 0 n) ++ 128 :: cs)) = (Ok [repeat 0 16], bytes_bits cs)) as E1.
    { cbn [p_channels]. change (Z.to_nat 1) with 1%nat. cbn [p_repeat]. rewrite bytes_bits_app.
      unfold bind at 1. rewrite wasted_run.
      change (bytes_bits (128 :: cs)) with (unary 0 ++ bits_of 7 0 ++ bytes_bits cs).
      assert (bl_unary t Release (repeat false (8 * n) ++ unary 0 ++ bits_of 7 0 ++ bytes_bits cs)
              = (Ok 0, bits_of 7 0 ++ bytes_bits cs)) as Eu.
      { unfold bl_unary. rewrite unary_split_zeros, unary_split_app by lia. cbn [fst snd].
        do 2 f_equal. rewrite Z.add_0_r. replace (Z.of_nat (8 * n)) with (2 ^ 32) by (clear -Hn; lia). reflexivity. }
      rewrite (bind_run _ _ _ 1 (bits_of 7 0 ++ bytes_bits cs)); [|rewrite (bind_run _ _ _ _ _ Eu); reflexivity].
      change (31 <? 1) with false. change (8 <=? 1) with false. cbv iota.
      cbn [p_body]. unfold p_signed. unfold bind. change (Z.to_nat (8 - 1)) with 7%nat.
      rewrite bl_bits_app by (cbn; lia). reflexivity. }
    rewrite bind_assoc. rewrite (bind_run _ _ _ [repeat 0 16] cs).
    2: { unfold with_bits. rewrite E1. f_equal. rewrite El, bytes_bits_length, app_length.
         replace (8 * length cs / 8)%nat with (length cs) by (rewrite Nat.mul_comm, Nat.div_mul; lia).
         replace (length front + length cs - length cs)%nat with (length front) by lia.
         rewrite skipn_app, skipn_all, Nat.sub_diag. reflexivity. }
    unfold bind at 1. unfold bind at 1. unfold fl_crc at 1. rewrite El, consumed. fold crc. unfold cs.
    unfold bind. rewrite be_u16_cons by lia. replace (crc =? 256 * (crc / 256) + crc mod 256) with true by lia.
    reflexivity.
  Qed.
End Wraps.
