(** Where the reader stands after any result, and that it moves on: C61. *)
From Verif Require Export ProofPrefix ProofBlame ProofPlay ProofTotal.
From Verif Require Import SpecReader.

Section Behind.
  Context {S : Type} (rb : ReadBytes S) (t : tail) (D : S -> list Z -> Prop) (HS : stream rb t D) (l0 : list Z).

  (** Two readers at the same place behind the first bytes. *)
  Definition behind (s : S) (l : list Z) : Prop := D s l /\ exists pre, l0 = pre ++ l.

  Lemma behind_rb : rb_sim no_esc behind rb (fl_rb t).
  Proof.
    split.
    - intros st l [HD [pre E]]. destruct l as [|b l].
      + destruct (st_u8_end _ _ _ HS st HD) as (st' & ->). at_end.
      + destruct (st_u8 _ _ _ HS st b l HD) as (st' & -> & HD'). cbn. exists b.
        apply (st_bytes _ _ _ HS) in HD. inversion HD. repeat split; auto; unfold is_byte in *; try lia.
        exists (pre ++ [b]). rewrite <- app_assoc. exact E.
    - intros n sz st l [HD Hp]. destruct (st_alloc _ _ _ HS st l n sz HD) as (st' & -> & HD'). cbn.
      exists tt. repeat split; auto.
  Qed.
End Behind.

Section Flat.
  Context (t : tail) (m : build) (fuel : nat).
  Lemma flat_owns : owns (fun _ : list Z => True) (fun k _ => IoError k = tail_error t) (fun _ => True) (fl_rb t).
  Proof.
    assert (forall k, Err (A:=Z) (tail_error t) = Err (IoError k) -> IoError k = tail_error t) as X by congruence.
    split; cbn [fl_rb read_u8 read_u8_or_eof read_into skip rb_alloc]; intros.
    - intros [|b l] _; split; cbn; auto; intros k E; congruence.
    - intros [|b l] _; (split; [|split]); cbn; auto; destruct t; cbn; intros ? E; congruence.
    - intros l _. split; cbn; auto. intros k. destruct (_ <=? _)%nat; cbn; intros E; congruence.
    - intros l _. split; cbn; auto. intros k. destruct (_ <=? _); cbn; intros E; congruence.
    - apply own_ret.
  Qed.
  Lemma flat_io buffer l k : fst (read_next_or_eof (fl_rb t) m fuel buffer l) = Err (IoError k) -> IoError k = tail_error t.
  Proof. apply (own_next _ _ _ (fl_rb t) flat_owns m fuel buffer l Logic.I). Qed.
End Flat.

Section Progress.
  Context {S : Type} (rb : ReadBytes S) (t : tail) (D : S -> list Z -> Prop) (HS : stream rb t D).
  Context (m : build) (fuel : nat).
  Notation next := (read_next_or_eof rb m fuel).

  Lemma next_behind buffer st l : (2 <= length l)%nat -> D st l ->
    let r := next buffer st in
    match fst r with
    | Ok _ | Err (FormatError _) | Err (Unsupported _) => exists w rest, l = w ++ rest /\ (2 <= length w)%nat /\ D (snd r) rest
    | _ => True
    end.
  Proof.
    intros Hl HD. destruct l as [|a [|b l]]; [cbn in Hl; lia..|].
    pose proof (st_bytes _ _ _ HS _ _ HD) as Hb.
    cbv zeta. unfold read_next_or_eof, with_crc16. rewrite !read_next_body_eq.
    unfold read_frame_header_or_eof, with_crc8.
    destruct (ProofPrefix.two_bytes rb t D HS m st a b l HD) as (s1' & c8 & c16 & _ & _ & _ & _ & E1 & HD').
    set (k1 := mkCrc8 (mkCrc16 s1' (snd c16)) (snd c8)) in *.
    set (k2 := mkCrc8 (mkCrc16 l (snd c16)) (snd c8)) in *.
    assert (Rcrc8 (Rcrc16 (behind D l)) k1 k2) as HR.
    { split; [|reflexivity]. split; [|reflexivity]. split; [exact HD'|]. exists []. reflexivity. }
    assert (forall s l', Rcrc16 (behind D l) s l' -> exists w rest, a :: b :: l = w ++ rest /\ (2 <= length w)%nat /\ D (c16_inner s) rest) as X.
    { intros s l' [[H1 [pre E]] _]. exists (a :: b :: pre), (c16_inner l'). rewrite E. split; [reflexivity|]. split; [cbn; lia|exact H1]. }
    pose proof (header_after_sync_sim _ _ _ _ m (crc16_rb_sim _ _ _ _ (behind_rb rb t D HS l))
                  (Some (Z.lor (u16 (Z.shiftl a 8)) b)) k1 k2 HR) as Hh.
    unfold bind. rewrite E1.
    destruct (header_after_sync (crc16_rb rb) m (Some (Z.lor (u16 (Z.shiftl a 8)) b)) k1) as [o1 j1].
    destruct (header_after_sync (crc16_rb (fl_rb t)) m (Some (Z.lor (u16 (Z.shiftl a 8)) b)) k2) as [o2 j2].
    cbn [fst snd] in *. destruct o1 as [oh|e|w|w|]; try exact Logic.I.
    - destruct Hh as (oh2 & -> & <- & HR' & _).
      pose proof (frame_after_header_sim _ _ _ _ m fuel (behind_rb rb t D HS l) buffer oh _ _ HR') as Hf.
      destruct (frame_after_header rb m fuel buffer oh (c8_inner j1)) as [o1 i1].
      destruct (frame_after_header (fl_rb t) m fuel buffer oh (c8_inner j2)) as [o2 i2].
      cbn [fst snd] in *. destruct o1 as [x|e| | |]; try exact Logic.I.
      + destruct Hf as (? & _ & _ & HR2). exact (X _ _ HR2).
      + destruct Hf as [[]|[_ Hk]]. destruct e; [exact Logic.I|exact (X _ _ (Hk Logic.I))..].
    - destruct Hh as [[]|[_ Hk]]. destruct e; [exact Logic.I|exact (X _ _ (proj1 (Hk Logic.I)))..].
  Qed.

  (** Every call. *)
  Theorem next_progress buffer st l : D st l -> (length l < fuel)%nat -> (1 < fuel)%nat ->
    let r := next buffer st in
    match fst r with
    | Ok (Some _) | Err (FormatError _) | Err (Unsupported _) =>
        exists w rest, l = w ++ rest /\ (2 <= length w)%nat /\ D (snd r) rest
    | Ok None => t = TEof /\ (length l <= 1)%nat /\ D (snd r) []
    | Err (IoError k) => tail_error t = IoError k
    | _ => True
    end.
  Proof.
    intros HD Hf H1. cbv zeta.
    assert (forall k, fst (next buffer st) = Err (IoError k) -> tail_error t = IoError k) as Hio.
    { intros k E. symmetry. eapply (flat_io t m fuel buffer l).
      destruct (sim_fst D _ _ st l (read_next_or_eof_sim no_esc D rb (fl_rb t) m fuel (stream_rb_sim rb t D HS no_esc) (stream_eof_sim rb t D HS no_esc) buffer) HD) as [E' _].
      rewrite <- E'. exact E. }
    destruct (Nat.le_gt_cases 2 (length l)) as [Hl|Hl].
    - pose proof (next_behind buffer st l Hl HD) as H. cbv zeta in H.
      destruct (next buffer st) as [o st'] eqn:E. cbn [fst snd] in *.
      destruct o as [[b|]|[k|w|w]|w|w|]; auto.
      destruct (frame_end rb t D HS m fuel buffer st l st' HD Hf E) as (? & ? & ?). auto.
    - assert (t = TEof \/ exists k, t = TErr k) as [Et|[k Et]] by (destruct t; eauto).
      + destruct (frame_ends rb t D HS m fuel buffer st l Et ltac:(lia) H1 HD) as (st' & E & HD'). rewrite E. cbn. split; [exact Et|]. split; [lia|exact HD'].
      + rewrite (frame_breaks rb t D HS m fuel buffer st l k Et ltac:(lia) H1 HD), Et. reflexivity.
  Qed.

  (** A loop that goes on after errors ends. *)
  Theorem loop_ends bufs : forall st l, D st l -> (length l < fuel)%nat -> (1 < fuel)%nat -> (length l < 2 * length bufs)%nat ->
    m = Release \/ no_zero_bytes (2 ^ 29 - 1) l ->
    Exists (fun r => r = Ok None \/ r = Err (tail_error t)) (fst (history_until_io next bufs st)).
  Proof.
    induction bufs as [|buffer bufs IH]; intros st l HD Hf H1 Hn Hz; [cbn in Hn; lia|]. cbn [history_until_io length] in *.
    pose proof (next_progress buffer st l HD Hf H1) as H. cbv zeta in H.
    pose proof (frame_safe rb t D HS m fuel buffer st l (calm_bits m l (st_bytes _ _ _ HS _ _ HD) Hz) HD Hf) as Hv.
    destruct (next buffer st) as [o st']. cbn [fst snd] in H, Hv. specialize (IH st').
    destruct (history_until_io next bufs st') as [rs s2]. cbn [fst] in *.
    destruct o as [[b|]|[k|w|w]|w|w|]; cbn [from_source]; try (destruct Hv as [[? Hv]|[? Hv]]; discriminate Hv);
      try (constructor; left; reflexivity); try (constructor; right; rewrite H; reflexivity);
      destruct H as (w' & rest & -> & Hw & HD'); apply Exists_cons_tl; rewrite app_length in *;
      (eapply IH; [exact HD'|lia..|eapply calm_suffix, Hz]).
  Qed.
End Progress.
