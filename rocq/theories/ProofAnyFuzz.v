(** The fuzzers on any input: C88. *)
From Verif Require Export ProofAnyContainers.
From Verif Require Import SpecReader.

Section Fuzz.
  Context (m : build) (un : nat -> list Z) (Hun : forall n, length (un n) = n) (fuel : nat).
  Notation slice data := (fun _ : list Z => inr (slice_reads (Datatypes.S (length data)) data) : io_kind + list event).

  Lemma slice_file data : bytes_ok data -> file_at (slice data) [] TEof data.
  Proof. intros Hb. eexists. split; [reflexivity|]. apply slice_delivers; [exact Hb|lia]. Qed.
  Lemma slice_new data : new_on m un fuel data = flac_open m un fuel (slice data) [].
  Proof. reflexivity. Qed.

  Lemma first_next data : bytes_ok data -> (length data + 1 < fuel)%nat ->
    (exists e, new_on m un fuel data = Err e /\ ~ overflows_first m data)
    \/ exists r inp, new_on m un fuel data = Ok r /\ fr_blocks r = Ok inp /\
       ((overflows_first m data /\ forall buffer, exists why, fst (read_next_or_eof (br_rb m) m fuel buffer inp) = Panic why)
        \/ (~ overflows_first m data /\ forall buffer, value_or_error (fst (read_next_or_eof (br_rb m) m fuel buffer inp)))) .
  Proof.
    intros Hb Hf. rewrite slice_new. pose proof (slice_file data Hb) as Hat.
    assert (forall si vc w p rest, m = Debug -> data = w ++ p ++ rest -> well_formed si vc w -> frame_overflow p ->
      exists r inp, flac_open m un fuel (slice data) [] = Ok r /\ fr_blocks r = Ok inp
        /\ forall buffer, exists why, fst (read_next_or_eof (br_rb m) m fuel buffer inp) = Panic why) as Hover.
    { intros si vc w p rest Em -> Hw Hp.
      destruct (path_opens m un Hun fuel _ _ TEof w (p ++ rest) si vc Hat ltac:(lia) Hw) as (r & inp & E & _ & _ & Ei & _ & HD).
      exists r, inp. split; [exact E|]. split; [exact Ei|]. intros buffer. rewrite !app_length in Hf. subst m.
      exact (overflow_panics (br_rb Debug) TEof _ (br_stream Debug TEof) fuel buffer inp p rest Hp HD ltac:(rewrite app_length; lia)). }
    destruct (any_file_cases m un Hun fuel _ _ TEof data Hat Hf) as [(e & _ & E)|(si & vc & frames & o & w & rest & El & Hw & (ws & x & Er & HF & Hs))].
    - left. exists e. split; [exact E|]. intros (Em & si & vc & w & p & rest & El & Hw & Hp).
      destruct (Hover si vc w p rest Em El Hw Hp) as (r & _ & E' & _). congruence.
    - right. rewrite El in Hat. destruct (path_opens m un Hun fuel _ _ TEof w rest si vc Hat ltac:(rewrite <- El; lia) Hw) as (r & inp & E & _ & _ & Ei & _ & HD).
      rewrite <- El in E. exists r, inp. split; [exact E|]. split; [exact Ei|].
      assert ((exists f w' rest', rest = w' ++ rest' /\ any_frame m f w') \/ frames = [] /\ x = rest) as [(f & w' & rest' & Er' & Hw')|[-> ->]].
      { inversion HF as [|f w' fs' ws' Hw' HF']; subst; [right; auto|]. left. exists f, w', (concat ws' ++ x). cbn [concat]. rewrite <- app_assoc. auto. }
      + right. assert (forall buffer, value_or_error (fst (read_next_or_eof (br_rb m) m fuel buffer inp))) as Hv.
        { intros buffer. rewrite Er' in HD. rewrite El, app_length, Er' in Hf.
          destruct (any_decoded (br_rb m) TEof _ (br_stream m TEof) m fuel buffer inp f w' rest' Hw' HD ltac:(lia)) as (b & st & Eb & _).
          rewrite Eb. left. eexists. reflexivity. }
        split; [|exact Hv]. intros (Em & si' & vc' & w1 & p & rest1 & El1 & Hw1 & Hp1).
        destruct (Hover si' vc' w1 p rest1 Em El1 Hw1 Hp1) as (r' & inp' & E' & Ei' & HP).
        assert (inp' = inp) as -> by congruence. destruct (HP (mkVec [] 0)) as [why HP'].
        destruct (Hv (mkVec [] 0)) as [[a Hv']|[a Hv']]; congruence.
      + assert (forall buffer, ending_outcome o (fst (read_next_or_eof (br_rb m) m fuel buffer inp))) as Ho.
        { intros buffer. apply (any_next (br_rb m) TEof _ (br_stream m TEof) m fuel buffer inp rest o Hs HD); rewrite El, app_length in Hf; lia. }
        destruct o as [|e|].
        * right. assert (forall buffer, value_or_error (fst (read_next_or_eof (br_rb m) m fuel buffer inp))) as Hv by (intros buffer; left; rewrite (Ho buffer); eauto).
          split; [|exact Hv]. intros (Em & si' & vc' & w1 & p & rest1 & El1 & Hw1 & Hp1).
          destruct (Hover si' vc' w1 p rest1 Em El1 Hw1 Hp1) as (r' & inp' & E' & Ei' & HP).
          assert (inp' = inp) as -> by congruence. destruct (HP (mkVec [] 0)) as [why HP'].
          destruct (Hv (mkVec [] 0)) as [[a Hv']|[a Hv']]; congruence.
        * right. assert (forall buffer, value_or_error (fst (read_next_or_eof (br_rb m) m fuel buffer inp))) as Hv by (intros buffer; right; rewrite (Ho buffer); eauto).
          split; [|exact Hv]. intros (Em & si' & vc' & w1 & p & rest1 & El1 & Hw1 & Hp1).
          destruct (Hover si' vc' w1 p rest1 Em El1 Hw1 Hp1) as (r' & inp' & E' & Ei' & HP).
          assert (inp' = inp) as -> by congruence. destruct (HP (mkVec [] 0)) as [why HP'].
          destruct (Hv (mkVec [] 0)) as [[a Hv']|[a Hv']]; congruence.
        * left. split; [|exact Ho]. inversion Hs as [| |p rest1 Hp Em E1 E2| | |]; subst. split; [congruence|].
          exists si, vc, w, p, rest1. auto.
  Qed.

  Theorem fuzz_block_any data : bytes_ok data -> (length data + 1 < fuel)%nat ->
    (overflows_first m data -> exists why, fuzz_decode_single_block m un fuel data = Panic why)
    /\ (~ overflows_first m data -> fuzz_decode_single_block m un fuel data = Ok tt).
  Proof.
    intros Hb Hf. unfold fuzz_decode_single_block.
    destruct (first_next data Hb Hf) as [(e & E & Hn)|(r & inp & E & Ei & [[Ho HP]|[Hn HV]])]; rewrite E; [|rewrite Ei; cbn [obind]..].
    - split; [intros H; destruct (Hn H)|reflexivity].
    - destruct (HP (mkVec [] 0)) as [why E']. rewrite E'. split; [intros _; exists why; reflexivity|intros H; destruct (H Ho)].
    - split; [intros H; destruct (Hn H)|]. intros _. destruct (HV (mkVec [] 0)) as [[a E']|[a E']]; rewrite E'; reflexivity.
  Qed.

  Theorem fuzz_diff_any data : bytes_ok data -> (length data + 1 < fuel)%nat ->
    let overflows := exists d0 d1 data', data = d0 :: d1 :: data' /\ d0 <> d1 /\ overflows_first m data' in
    (overflows -> exists why, fuzz_diff m un fuel data = Panic why)
    /\ (~ overflows -> fuzz_diff m un fuel data = Ok tt).
  Proof.
    intros Hb Hf. cbv zeta.
    assert (forall d0 d1 data', data = d0 :: d1 :: data' -> d0 <> d1 ->
      (overflows_first m data' -> exists why, fuzz_diff m un fuel data = Panic why)
      /\ (~ overflows_first m data' -> fuzz_diff m un fuel data = Ok tt)) as H.
    { intros d0 d1 data' -> Hd. cbn [length] in Hf.
      assert (bytes_ok data') as Hb' by (inversion Hb as [|? ? _ Hb1]; inversion Hb1; assumption).
      unfold fuzz_diff. replace (d0 =? d1) with false by lia.
      destruct (first_next data' Hb' ltac:(lia)) as [(e & E & Hn)|(r & inp & E & Ei & [[Ho HP]|[Hn HV]])]; rewrite E.
      - split; [intros H; destruct (Hn H)|reflexivity].
      - split; [|intros H; destruct (H Ho)]. intros _. unfold first_block at 1. rewrite Ei. cbn [obind].
        destruct (HP (mkVec (repeat d0 (Z.to_nat (1024 * 8))) (1024 * 8))) as [why E']. rewrite E'. exists why. reflexivity.
      - split; [intros H; destruct (Hn H)|]. intros _.
        assert (exists rest, buffered TEof inp rest /\ (length rest < fuel)%nat) as (rest & HD & Hr).
        { destruct (new_on_cases m un Hun fuel data' Hb' ltac:(lia)) as [(e & E1)|(r1 & inp1 & w & rest & E1 & El & HD & Ei1 & _)]; [congruence|].
          exists rest. assert (inp1 = inp) as -> by congruence. split; [exact HD|]. subst data'. rewrite app_length in Hf. lia. }
        set (v0 := mkVec (repeat d0 _) _). set (v1 := mkVec (repeat d1 _) _).
        assert (exists o o', first_block m fuel r v0 = Ok o /\ first_block m fuel r v1 = Ok o' /\ same_result o o' = true) as (o & o' & E0 & E1 & Es).
        { unfold first_block. rewrite Ei. cbn [obind].
          pose proof (frame_buffers (br_rb m) TEof (buffered TEof) (br_stream m TEof) m fuel v0 v1 inp rest HD Hr) as Hbuf.
          destruct (HV v0) as [[[b|] Es]|[e Es]]; rewrite Es in Hbuf |- *.
          - destruct (fst (read_next_or_eof (br_rb m) m fuel v1 inp)) as [[b'|]| | | |]; try discriminate Hbuf.
            destruct Hbuf as (_ & _ & _ & Hv). do 2 eexists. split; [reflexivity|]. split; [reflexivity|]. cbn [same_result].
            destruct (list_eq_dec Z.eq_dec _ _) as [|Hne]; [reflexivity|]. destruct (Hne Hv).
          - rewrite <- Hbuf. do 2 eexists. split; [reflexivity|]. split; reflexivity.
          - rewrite <- Hbuf. do 2 eexists. split; [reflexivity|]. split; reflexivity. }
        rewrite E0. cbn [obind]. destruct (match o with Some v => _ | None => _ end); [reflexivity|]. cbn [expect obind].
        rewrite E1. cbn [obind]. rewrite Es. reflexivity. }
    split.
    - intros (d0 & d1 & data' & El & Hd & Ho). exact (proj1 (H d0 d1 data' El Hd) Ho).
    - intros Hn. destruct data as [|d0 [|d1 data']]; try reflexivity. destruct (Z.eq_dec d0 d1) as [->|Hd].
      + unfold fuzz_diff. rewrite Z.eqb_refl. reflexivity.
      + apply (H d0 d1 data' eq_refl Hd). intros Ho. apply Hn. eauto 6.
  Qed.

  Lemma fuzz_loop_any o pcm : forall turns it, sounds (fs_next (br_rb m) m fuel) it pcm o -> (length pcm < turns)%nat ->
    match o with OnPanic => exists why, fuzz_loop m fuel turns it = Panic why | _ => fuzz_loop m fuel turns it = Ok tt end.
  Proof.
    destruct o as [|e|].
    - intros turns it HY Ht. apply (fuzz_loop_ok m un Hun fuel turns it pcm None); [rewrite app_nil_r; exact HY|exact Ht].
    - intros turns it HY Ht. apply (fuzz_loop_ok m un Hun fuel turns it pcm (Some e)); [exact HY|exact Ht].
    - induction pcm as [|x pcm IH]; intros [|turns] it HY Ht; cbn [length] in Ht; try lia; destruct HY as [why HY]; cbn [fuzz_loop map app length Nat.add] in *;
        rewrite nexts_S in HY; cbn [fst] in HY.
      + injection HY as HY. destruct (fs_next (br_rb m) m fuel it) as [r it'] eqn:E. cbn [fst] in HY. subst r. exists why. reflexivity.
      + injection HY as HY HY'. destruct (fs_next (br_rb m) m fuel it) as [r it'] eqn:E. cbn [fst snd] in *. subst r.
        apply IH; [exists why; exact HY'|lia].
  Qed.
  Theorem fuzz_full_any turns data : bytes_ok data -> (length data + 1 < fuel)%nat -> 8 * 65535 * len data < Z.of_nat turns ->
    let panics := exists si vc frames, file_any_plays m TEof data si vc frames OnPanic in
    (panics -> exists why, fuzz_decode_full m un fuel turns data = Panic why)
    /\ (~ panics -> fuzz_decode_full m un fuel turns data = Ok tt).
  Proof.
    intros Hb Hf Ht. cbv zeta. unfold fuzz_decode_full. rewrite slice_new. pose proof (slice_file data Hb) as Hat.
    assert (forall si vc frames o, file_any_plays m TEof data si vc frames o -> exists r it, flac_open m un fuel (slice data) [] = Ok r /\ fr_samples r = Ok it
      /\ match o with OnPanic => exists why, fuzz_loop m fuel turns it = Panic why | _ => fuzz_loop m fuel turns it = Ok tt end) as H.
    { intros si vc frames o Hp. destruct (any_file_samples m un Hun fuel _ _ TEof data si vc frames o Hat Hf Hp) as (r & it & E & _ & _ & Ei & HY).
      exists r, it. repeat (split; [assumption|]). apply (fuzz_loop_any o (pcm_of frames)); [exact HY|].
      destruct Hp as (w & rest & -> & _ & Hp). apply bytes_app in Hb as [_ Hb]. apply any_dense in Hp; [|exact Hb].
      unfold len in *. rewrite app_length in Ht. lia. }
    split.
    - intros (si & vc & frames & Hp). destruct (H si vc frames OnPanic Hp) as (r & it & E & Ei & why & El). rewrite E, Ei. cbn [obind]. eauto.
    - intros Hn. destruct (any_file_cases m un Hun fuel _ _ TEof data Hat Hf) as [(e & _ & E)|(si & vc & frames & o & Hp)].
      + rewrite E. reflexivity.
      + destruct (H si vc frames o Hp) as (r & it & E & Ei & El). rewrite E, Ei. cbn [obind].
        destruct o; [exact El|exact El|]. destruct Hn. eauto.
  Qed.
End Fuzz.
