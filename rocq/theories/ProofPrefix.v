(** Reading from a stream and from a longer one. *)
From Verif Require Export ProofStream.
From Verif Require Import SpecReader.

(** ** The first two bytes *)
Section Two.
  Context {S : Type} (rb : ReadBytes S) (t : tail) (D : S -> list Z -> Prop) (HS : stream rb t D).

  Lemma two_bytes m st a b r : D st (a :: b :: r) ->
    exists st' c8 c16, crc8_update 0 a = Ok (fst c8) /\ crc8_update (fst c8) b = Ok (snd c8)
      /\ crc16_update 0 a = Ok (fst c16) /\ crc16_update (fst c16) b = Ok (snd c16)
      /\ read_frame_header_body (crc16_rb rb) m (crc8_new (crc16_new st))
         = header_after_sync (crc16_rb rb) m (Some (Z.lor (u16 (Z.shiftl a 8)) b))
             (mkCrc8 (mkCrc16 st' (snd c16)) (snd c8))
      /\ D st' r.
  Proof.
    intros HD. pose proof (st_bytes _ _ _ HS _ _ HD) as Hb.
    apply bytes_cons in Hb as [Ha Hb]. apply bytes_cons in Hb as [Hb _].
    destruct (st_eof _ _ _ HS _ _ _ HD) as (st1 & E1 & HD1).
    destruct (st_eof _ _ _ HS _ _ _ HD1) as (st2 & E2 & HD2).
    destruct (crc8_step [] 0 a ltac:(apply is_crc_nil; lia) Ha) as (c8 & U1 & C1).
    destruct (crc8_step _ c8 b C1 Hb) as (d8 & U2 & _).
    destruct (crc16_step [] 0 a ltac:(apply is_crc_nil; lia) Ha) as (c16 & V1 & C2).
    destruct (crc16_step _ c16 b C2 Hb) as (d16 & V2 & _).
    exists st2, (c8, d8), (c16, d16). cbn [fst snd]. do 4 (split; [assumption|]). split; [|exact HD2].
    rewrite read_frame_header_body_eq. apply bind_run. unfold read_be_u16_or_eof, crc8_new, crc16_new.
    rewrite (bind_run _ _ _ _ _ (crc8_eof_ok (crc16_rb rb) _ _ _ _ _ (crc16_eof_ok rb _ _ _ _ _ E1 V1) U1)).
    rewrite (bind_run _ _ _ _ _ (crc8_eof_ok (crc16_rb rb) _ _ _ _ _ (crc16_eof_ok rb _ _ _ _ _ E2 V2) U2)).
    reflexivity.
  Qed.
End Two.

Lemma not_io e : (forall k, e <> IoError k) -> ours e.
Proof. intros H. destruct e; [destruct (H k eq_refl)|exact I..]. Qed.

Section Prefix.
  Context {S1 S2 : Type} (rb1 : ReadBytes S1) (rb2 : ReadBytes S2) (t1 t2 : tail)
          (D1 : S1 -> list Z -> Prop) (D2 : S2 -> list Z -> Prop)
          (H1 : stream rb1 t1 D1) (H2 : stream rb2 t2 D2) (x : list Z).

  (** The second stream has [x] after the bytes of the first. *)
  Definition longer (s1 : S1) (s2 : S2) : Prop := exists l, D1 s1 l /\ D2 s2 (l ++ x).
  Definition at_end (e : error) : Prop := e = tail_error t1.

  Lemma longer_rb : rb_sim at_end longer rb1 rb2.
  Proof.
    split.
    - intros s1 s2 (l & Hd1 & Hd2). destruct l as [|b l].
      + destruct (st_u8_end _ _ _ H1 _ Hd1) as (s' & E). rewrite E. cbn. left. reflexivity.
      + cbn [app] in Hd2. pose proof (st_bytes _ _ _ H1 _ _ Hd1) as Hb. apply bytes_cons in Hb as [Hb _].
        destruct (st_u8 _ _ _ H1 _ _ _ Hd1) as (s1' & E1 & Hd1'), (st_u8 _ _ _ H2 _ _ _ Hd2) as (s2' & E2 & Hd2').
        rewrite E1, E2. cbn [fst snd]. exists b. split; [reflexivity|]. split; [split; [reflexivity|exact Hb]|].
        exists l. auto.
    - intros n sz s1 s2 (l & Hd1 & Hd2).
      destruct (st_alloc _ _ _ H1 _ _ n sz Hd1) as (s1' & E1 & Hd1'), (st_alloc _ _ _ H2 _ _ n sz Hd2) as (s2' & E2 & Hd2').
      rewrite E1, E2. cbn [fst snd]. exists tt. split; [reflexivity|]. split; [reflexivity|]. exists l. auto.
  Qed.
  Lemma longer_bulk : bulk_sim at_end longer rb1 rb2.
  Proof.
    split.
    - intros b1 b2 Hlen Hmax s1 s2 (l & Hd1 & Hd2).
      destruct (Nat.le_gt_cases (length b1) (length l)) as [Hle|Hgt].
      + rewrite <- (firstn_skipn (length b1) l) in Hd1, Hd2. rewrite <- app_assoc in Hd2.
        destruct (st_into _ _ _ H1 _ _ _ b1 Hd1) as (s1' & E1 & Hd1'); [rewrite firstn_length; lia|lia|].
        destruct (st_into _ _ _ H2 _ _ _ b2 Hd2) as (s2' & E2 & Hd2'); [rewrite firstn_length; lia|unfold len in *; lia|].
        rewrite E1, E2. cbn [fst snd]. eexists. split; [reflexivity|]. split; [reflexivity|]. eexists. eauto.
      + destruct (st_into_end _ _ _ H1 _ _ b1 Hd1) as (s' & E); [lia|lia|]. rewrite E. cbn. left. reflexivity.
    - intros n Hn s1 s2 (l & Hd1 & Hd2).
      destruct (Z.le_gt_cases n (len l)) as [Hle|Hgt].
      + rewrite <- (firstn_skipn (Z.to_nat n) l) in Hd1, Hd2. rewrite <- app_assoc in Hd2.
        assert (len (firstn (Z.to_nat n) l) = n) as En by (unfold len in *; rewrite firstn_length; lia).
        destruct (st_skip _ _ _ H1 _ _ _ Hd1) as (s1' & E1 & Hd1'); [lia|].
        destruct (st_skip _ _ _ H2 _ _ _ Hd2) as (s2' & E2 & Hd2'); [lia|].
        rewrite En in E1, E2. rewrite E1, E2. cbn [fst snd]. exists tt. split; [reflexivity|]. split; [reflexivity|]. eexists. eauto.
      + destruct (st_skip_end _ _ _ H1 _ _ n Hd1) as (s' & E); [lia|]. rewrite E. cbn. left. reflexivity.
  Qed.

  Theorem longer_frame m fuel buffer s1 s2 l : (2 <= length l)%nat -> D1 s1 l -> D2 s2 (l ++ x) ->
    let r1 := read_next_or_eof rb1 m fuel buffer s1 in
    let r2 := read_next_or_eof rb2 m fuel buffer s2 in
    match fst r1 with
    | Ok a => fst r2 = Ok a /\ longer (snd r1) (snd r2)
    | Err e => e = tail_error t1 \/ fst r2 = Err e /\ ((forall k, e <> IoError k) -> longer (snd r1) (snd r2))
    | o => fst r2 = o
    end.
  Proof.
    intros Hl Hd1 Hd2. destruct l as [|a [|b l]]; [cbn in Hl; lia..|]. cbn [app] in Hd2.
    cbv zeta. unfold read_next_or_eof, with_crc16. rewrite !read_next_body_eq.
    unfold read_frame_header_or_eof, with_crc8.
    destruct (two_bytes rb1 t1 D1 H1 m s1 a b l Hd1) as (s1' & c8 & c16 & U1 & U2 & V1 & V2 & E1 & Hd1').
    destruct (two_bytes rb2 t2 D2 H2 m s2 a b (l ++ x) Hd2) as (s2' & c8' & c16' & U1' & U2' & V1' & V2' & E2 & Hd2').
    assert (fst c8 = fst c8') as F1 by congruence. rewrite <- F1 in U2'.
    assert (fst c16 = fst c16') as F2 by congruence. rewrite <- F2 in V2'.
    assert (snd c8' = snd c8) as G1 by congruence. assert (snd c16' = snd c16) as G2 by congruence.
    rewrite G1, G2 in E2. clear U1 U2 V1 V2 U1' U2' V1' V2' F1 F2 G1 G2 c8' c16'.
    set (k1 := mkCrc8 (mkCrc16 s1' (snd c16)) (snd c8)) in *.
    set (k2 := mkCrc8 (mkCrc16 s2' (snd c16)) (snd c8)) in *.
    assert (Rcrc8 (Rcrc16 longer) k1 k2) as HR.
    { split; [|reflexivity]. split; [|reflexivity]. exists l. auto. }
    pose proof (header_after_sync_sim _ _ _ _ m (crc16_rb_sim _ _ _ _ longer_rb)
                  (Some (Z.lor (u16 (Z.shiftl a 8)) b)) k1 k2 HR) as Hh.
    unfold bind. rewrite E1, E2.
    destruct (header_after_sync (crc16_rb rb1) m (Some (Z.lor (u16 (Z.shiftl a 8)) b)) k1) as [o1 j1].
    destruct (header_after_sync (crc16_rb rb2) m (Some (Z.lor (u16 (Z.shiftl a 8)) b)) k2) as [o2 j2].
    cbn [fst snd] in *. destruct o1 as [oh|e|w|w|].
    - destruct Hh as (oh2 & -> & <- & HR' & _).
      pose proof (frame_after_header_sim _ _ _ _ m fuel longer_rb buffer oh _ _ HR') as Hf.
      destruct (frame_after_header rb1 m fuel buffer oh (c8_inner j1)) as [o1 i1].
      destruct (frame_after_header rb2 m fuel buffer oh (c8_inner j2)) as [o2 i2].
      cbn [fst snd] in *. destruct o1; auto.
      2: { destruct Hf as [Hf|[Hf Hk]]; [left; exact Hf|right]. split; [exact Hf|]. intros Ho. exact (proj1 (Hk (not_io _ Ho))). }
      destruct Hf as (? & -> & <- & HR2 & _). auto.
    - destruct Hh as [Hh|[-> Hk]]; cbn [fst snd]; [left; exact Hh|right]. split; [reflexivity|]. intros Ho.
      exact (proj1 (proj1 (Hk (not_io _ Ho)))).
    - rewrite Hh. reflexivity.
    - rewrite Hh. reflexivity.
    - rewrite Hh. reflexivity.
  Qed.

  Theorem longer_metadata m un1 un2 s1 s2 l :
    (forall n, length (un1 n) = n) -> (forall n, length (un2 n) = n) ->
    D1 s1 l -> D2 s2 (l ++ x) ->
    let r1 := read_metadata_block_with_header rb1 m un1 s1 in
    let r2 := read_metadata_block_with_header rb2 m un2 s2 in
    match fst r1 with
    | Ok a => fst r2 = Ok a /\ longer (snd r1) (snd r2)
    | Err e => e = tail_error t1 \/ fst r2 = Err e /\ ((forall k, e <> IoError k) -> longer (snd r1) (snd r2))
    | o => fst r2 = o
    end.
  Proof.
    intros Hu1 Hu2 Hd1 Hd2. cbv zeta.
    pose proof (read_metadata_block_with_header_sim _ _ _ _ m un1 un2 Hu1 Hu2 longer_rb longer_bulk s1 s2) as H.
    specialize (H (ex_intro _ l (conj Hd1 Hd2))).
    destruct (fst (read_metadata_block_with_header rb1 m un1 s1)); auto.
    2: { destruct H as [Hf|[Hf Hk]]; [left; exact Hf|right]. split; [exact Hf|]. intros Ho. exact (Hk (not_io _ Ho)). }
    destruct H as (b & -> & <- & HR). auto.
  Qed.
End Prefix.

(** ** Truncated frames *)
Theorem truncated {S} (rb : ReadBytes S) t D m fuel buffer st l x h chs :
  stream rb t D -> D st l -> (2 <= length l)%nat -> x <> [] -> bytes_ok x -> frame_code h chs (l ++ x) ->
  (length (l ++ x) < fuel)%nat ->
  fst (read_next_or_eof rb m fuel buffer st) = Err (tail_error t).
Proof.
  intros HS HD Hl Hx Hbx Hw Hf.
  assert (bytes_ok (l ++ x)) as Hb by (apply bytes_app; split; [exact (st_bytes _ _ _ HS _ _ HD)|exact Hbx]).
  pose proof (longer_frame rb (fl_rb TEof) t TEof D _ HS (fl_stream TEof) x m fuel buffer st (l ++ x) l Hl HD
                (conj eq_refl Hb)) as H. cbv zeta in H.
  destruct (frame_decoded (fl_rb TEof) TEof _ (fl_stream TEof) m fuel buffer (l ++ x) h chs (l ++ x) [] Hw) as (b & l' & E & _ & [El _]).
  { rewrite app_nil_r. auto. }
  { rewrite app_nil_r. exact Hf. }
  rewrite E in H. cbn [fst snd] in H. subst l'.
  destruct (fst (read_next_or_eof rb m fuel buffer st)) as [a|e|w|w|]; try discriminate H.
  - destruct H as [E2 (y & _ & (E3 & _))]. destruct y; [cbn in E3; congruence|discriminate E3].
  - destruct H as [->|[H _]]; [reflexivity|discriminate H].
Qed.
