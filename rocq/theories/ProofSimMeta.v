(** Simulation for metadata reading, opening a stream, and the iterators. *)
From Verif Require Export ProofSim.

Section SimMeta.
  Context {S1 S2 : Type} (esc : error -> Prop) (R : S1 -> S2 -> Prop)
          (rb1 : ReadBytes S1) (rb2 : ReadBytes S2) (m : build).
  Context (un1 un2 : nat -> list Z)
          (Hun1 : forall n, length (un1 n) = n) (Hun2 : forall n, length (un2 n) = n).
  Context (H : rb_sim esc R rb1 rb2) (HB : bulk_sim esc R rb1 rb2).

  Let Hu8 := rs_u8 _ _ _ _ H.
  Let Hu8e := read_u8_sim_eq _ _ _ _ H.
  Let H16 := sim_eq_of _ _ _ _ _ (read_be_u16_sim _ _ _ _ H).
  Let H24 := sim_eq_of _ _ _ _ _ (read_be_u24_sim _ _ _ _ H).
  Let H32 := sim_eq_of _ _ _ _ _ (read_be_u32_sim _ _ _ _ H).
  Let L32 := sim_eq_of _ _ _ _ _ (read_le_u32_sim _ _ _ _ H).
  Let Hal := rs_alloc _ _ _ _ H.

  Lemma read_metadata_block_header_sim :
    sim esc R (fun a b => a = b /\ 0 <= mbh_length a < 2 ^ 24)
        (read_metadata_block_header rb1) (read_metadata_block_header rb2).
  Proof.
    unfold read_metadata_block_header. sim_step; [exact Hu8e|].
    eapply sim_bind; [apply read_be_u24_sim, H|].
    intros a0 b0 [<- Hr]. apply sim_ret. split; [reflexivity|exact Hr].
  Qed.

  Lemma read_streaminfo_block_sim :
    sim esc R eq (read_streaminfo_block rb1 m) (read_streaminfo_block rb2 m).
  Proof.
    assert (sim esc R eq (read_into rb1 (repeat 0 16)) (read_into rb2 (repeat 0 16)))
      by (apply HB; [reflexivity|cbn; lia]).
    unfold read_streaminfo_block. sim_tac.
  Qed.

  Lemma uninit_sim n : n < 2 ^ 32 ->
    sim esc R eq (read_into rb1 (un1 (Z.to_nat n))) (read_into rb2 (un2 (Z.to_nat n))).
  Proof.
    intros. apply HB; [rewrite Hun1, Hun2; reflexivity|].
    unfold len. rewrite Hun1. lia.
  Qed.

  Lemma vorbis_loop_sim : forall fuel bl n cs, bl < 2 ^ 32 ->
    sim esc R eq (vorbis_loop rb1 m un1 fuel bl n cs) (vorbis_loop rb2 m un2 fuel bl n cs).
  Proof.
    induction fuel as [|fuel IH]; intros bl n cs Hbl; cbn [vorbis_loop]; [sim_tac|].
    destruct ((4 <=? bl) && (len cs <? n)) eqn:E; [|sim_tac].
    sim_step; [exact L32|]. rename a into cl.
    apply sim_bind_lift; intros bl' Hc.
    rewrite chk_u32 in Hc by lia. injection Hc as <-.
    destruct (bl - 4 <? cl) eqn:E1; [sim_tac|].
    destruct (cl =? 0) eqn:E2.
    - sim_step; [sim_tac|]. apply IH; lia.
    - sim_step; [auto|].
      sim_step; [apply uninit_sim; lia|].
      apply sim_bind_lift; intros bl' Hc.
      assert (bl' < 2 ^ 32) as Hbl'.
      { unfold chk in Hc. destruct (u32 _ =? _) eqn:E3.
        - injection Hc as <-. pose proof (u32_range (bl - 4 - cl)). lia.
        - destruct m; inversion Hc. apply u32_range. }
      destruct (position 61 a0 0) as [sep|]; [|sim_tac].
      sim_step; [sim_tac|]. destruct (existsb _ _); [sim_tac|].
      sim_step; [sim_tac|]. apply IH; lia.
  Qed.

  Lemma read_vorbis_comment_block_sim length :
    sim esc R eq (read_vorbis_comment_block rb1 m un1 length)
                 (read_vorbis_comment_block rb2 m un2 length).
  Proof.
    unfold read_vorbis_comment_block.
    destruct (length <? 8) eqn:E1; [sim_tac|].
    destruct (10 * 1024 * 1024 <? length) eqn:E2; [sim_tac|].
    sim_step; [exact L32|]. rename a into vl.
    apply sim_bind_lift; intros l8 Hc.
    rewrite chk_u32 in Hc by lia. injection Hc as <-.
    destruct (length - 8 <? vl) eqn:E3; [sim_tac|].
    sim_step; [auto|].
    sim_step; [apply uninit_sim; lia|].
    sim_step; [sim_tac|]. sim_step; [exact L32|].
    destruct (length / 4 <=? a2); [sim_tac|].
    sim_step; [auto|].
    apply sim_bind_lift; intros bl' Hc.
    assert (bl' < 2 ^ 32) as Hbl'.
    { unfold chk in Hc. destruct (u32 _ =? _) eqn:E4.
      - injection Hc as <-. pose proof (u32_range (length - 8 - vl)). lia.
      - destruct m; inversion Hc. apply u32_range. }
    sim_step; [apply vorbis_loop_sim; lia|].
    sim_tac.
  Qed.

  Lemma read_application_block_sim length :
    sim esc R eq (read_application_block rb1 m un1 length)
                 (read_application_block rb2 m un2 length).
  Proof.
    unfold read_application_block.
    destruct (length <? 4) eqn:E1; [sim_tac|].
    destruct (10 * 1024 * 1024 <? length) eqn:E2; [sim_tac|].
    sim_step; [exact H32|].
    apply sim_bind_lift; intros l4 Hc.
    rewrite chk_u64 in Hc by lia. injection Hc as <-.
    sim_step; [auto|]. sim_step; [apply uninit_sim; lia|]. sim_tac.
  Qed.

  Lemma read_metadata_block_sim ty length : 0 <= length < 2 ^ 32 ->
    sim esc R eq (read_metadata_block rb1 m un1 ty length)
                 (read_metadata_block rb2 m un2 ty length).
  Proof.
    intros Hl.
    pose proof (bs_skip _ _ _ _ HB length Hl).
    pose proof read_streaminfo_block_sim.
    pose proof (read_vorbis_comment_block_sim length).
    pose proof (read_application_block_sim length).
    unfold read_metadata_block, read_padding_block. sim_tac.
  Qed.

  Lemma read_metadata_block_with_header_sim :
    sim esc R eq (read_metadata_block_with_header rb1 m un1)
                 (read_metadata_block_with_header rb2 m un2).
  Proof.
    unfold read_metadata_block_with_header.
    eapply sim_bind; [apply read_metadata_block_header_sim|].
    intros a b [<- Hl]. apply read_metadata_block_sim; lia.
  Qed.

  (** ** The metadata block reader *)

  Definition Rmr (a : mreader S1) (b : mreader S2) : Prop :=
    R (mr_input a) (mr_input b) /\ mr_done a = mr_done b.

  Lemma mr_lift_sim {A B} (Q : A -> B -> Prop) c1 c2 :
    sim esc R Q c1 c2 -> sim esc Rmr Q (mr_lift c1) (mr_lift c2).
  Proof.
    intros Hc s1 s2 (HR & Hs). unfold mr_lift. specialize (Hc _ _ HR).
    destruct (c1 (mr_input s1)) as [o1 t1], (c2 (mr_input s2)) as [o2 t2]; cbn in *.
    destruct o1; auto; [|sim_err Hc].
    destruct Hc as (b & ? & ? & ?). exists b. repeat split; auto.
  Qed.

  Lemma mr_read_next_sim :
    sim esc Rmr eq (mr_read_next rb1 m un1) (mr_read_next rb2 m un2).
  Proof.
    unfold mr_read_next.
    eapply sim_bind; [apply mr_lift_sim, read_metadata_block_header_sim|].
    intros a b [<- Hl].
    sim_step; [apply mr_lift_sim, read_metadata_block_sim; lia|].
    sim_step; [|sim_tac].
    intros s1 s2 (HR & Hs). cbn. exists tt. repeat split; auto.
  Qed.

  Lemma mr_next_bind_sim {A B} (Q : A -> B -> Prop) k1 k2 :
    sim esc Rmr Q (k1 None) (k2 None) ->
    (forall b, sim esc Rmr Q (k1 (Some (ROk b))) (k2 (Some (ROk b)))) ->
    (forall e s, k1 (Some (RErr e)) s = (Err e, s)) ->
    (forall e s, k2 (Some (RErr e)) s = (Err e, s)) ->
    sim esc Rmr Q (bind (mr_next rb1 m un1) k1) (bind (mr_next rb2 m un2) k2).
  Proof.
    intros HN HS HE1 HE2 s1 s2 HR.
    pose proof HR as [HR0 HD].
    pose proof (mr_read_next_sim s1 s2 HR) as Hr.
    unfold mr_next, catch, bind, get. rewrite <- HD.
    destruct (mr_done s1).
    - apply (HN s1 s2 HR).
    - destruct (mr_read_next rb1 m un1 s1) as [o1 t1],
               (mr_read_next rb2 m un2 s2) as [o2 t2]; cbn in *.
      destruct o1 as [b|e|w|w|].
      + destruct Hr as (b' & -> & <- & HR'). cbn. apply (HS b t1 t2 HR').
      + cbn. rewrite HE1. cbn. destruct Hr as [Hr|[-> Hr]]; [left; exact Hr|right].
        cbn. rewrite HE2. split; [reflexivity|]. intros Ho. split; [apply (Hr Ho)|reflexivity].
      + rewrite Hr; cbn; reflexivity.
      + rewrite Hr; cbn; reflexivity.
      + rewrite Hr; cbn; reflexivity.
  Qed.

  (** ** Opening a stream *)

  Lemma read_stream_header_sim :
    sim esc R eq (read_stream_header rb1) (read_stream_header rb2).
  Proof. unfold read_stream_header. sim_tac. Qed.

  Lemma metadata_loop_sim : forall fuel o vc,
    sim esc Rmr eq (metadata_loop rb1 m un1 fuel o vc) (metadata_loop rb2 m un2 fuel o vc).
  Proof.
    induction fuel as [|fuel IH]; intros o vc; cbn [metadata_loop]; [sim_tac|].
    apply mr_next_bind_sim; try reflexivity; [sim_tac|].
    intros b. cbn [of_result]. sim_step; [sim_tac|]. sim_tac.
  Qed.

  Lemma read_metadata_sim fuel opts :
    sim esc Rmr eq (read_metadata rb1 m un1 fuel opts) (read_metadata rb2 m un2 fuel opts).
  Proof.
    pose proof (metadata_loop_sim fuel opts None).
    unfold read_metadata. apply mr_next_bind_sim; try reflexivity; [sim_tac|].
    intros b. sim_tac.
  Qed.

  (** Results of [new_ext] carry the reader. *)
  Definition Rfr (a : flac_reader S1) (b : flac_reader S2) : Prop :=
    fr_streaminfo a = fr_streaminfo b /\ fr_vorbis_comment a = fr_vorbis_comment b
    /\ match fr_input a, fr_input b with
       | Full x, Full y => R x y
       | MetadataOnly x, MetadataOnly y => R x y
       | _, _ => False
       end.

  Lemma new_ext_sim fuel opts :
    sim esc R Rfr (new_ext rb1 m un1 fuel opts) (new_ext rb2 m un2 fuel opts).
  Proof.
    unfold new_ext. sim_step; [apply read_stream_header_sim|].
    sim_step.
    - intros s1 s2 HR. unfold with_mreader.
      assert (Rmr (mr_new s1) (mr_new s2)) as HM by (split; auto).
      pose proof (read_metadata_sim fuel opts _ _ HM) as Hs.
      destruct (read_metadata rb1 m un1 fuel opts (mr_new s1)) as [o1 t1],
               (read_metadata rb2 m un2 fuel opts (mr_new s2)) as [o2 t2]; cbn in *.
      destruct o1; auto; [|sim_err Hs].
      destruct Hs as (b & ? & ? & (? & _)). eauto.
    - destruct a0 as [si vc].
      eapply sim_bind; [apply sim_get|]. intros x y HR.
      apply sim_ret. repeat split. cbn.
      destruct (metadata_only opts); exact HR.
  Qed.
End SimMeta.

(** * Iterators *)

Section SimIter.
  Context {S1 S2 : Type} (R : S1 -> S2 -> Prop)
          (rb1 : ReadBytes S1) (rb2 : ReadBytes S2) (m : build).
  Context (un1 un2 : nat -> list Z)
          (Hun1 : forall n, length (un1 n) = n) (Hun2 : forall n, length (un2 n) = n).
  Context (H : rb_sim no_esc R rb1 rb2) (HB : bulk_sim no_esc R rb1 rb2).

  (** Once done, the reader is not touched again. *)
  Definition Rmri (a : mreader S1) (b : mreader S2) : Prop :=
    mr_done a = mr_done b /\ (mr_done a = false -> R (mr_input a) (mr_input b)).

  Lemma mr_next_sim : sim no_esc Rmri eq (mr_next rb1 m un1) (mr_next rb2 m un2).
  Proof.
    intros s1 s2 [HD HR].
    unfold mr_next, catch, bind, get. rewrite <- HD.
    destruct (mr_done s1) eqn:ED; [cbn; exists None; repeat split; auto; congruence|].
    pose proof (mr_read_next_sim _ _ _ _ m un1 un2 Hun1 Hun2 H HB s1 s2
                  (conj (HR eq_refl) (eq_trans ED HD))) as Hr.
    destruct (mr_read_next rb1 m un1 s1) as [o1 t1],
             (mr_read_next rb2 m un2 s2) as [o2 t2]; cbn in *.
    destruct o1 as [b|e|w|w|].
    - destruct Hr as (b' & -> & <- & HR' & HD'). cbn. eexists; repeat split; auto.
    - destruct Hr as [[]|[-> _]]. cbn. eexists; repeat split; auto. discriminate.
    - rewrite Hr; reflexivity.
    - rewrite Hr; reflexivity.
    - rewrite Hr; reflexivity.
  Qed.

  Definition Rfs (a : flac_samples S1) (b : flac_samples S2) : Prop :=
    fs_block a = fs_block b /\ fs_sample a = fs_sample b
    /\ fs_channel a = fs_channel b /\ fs_has_failed a = fs_has_failed b
    /\ (fs_has_failed a = false -> R (fs_frame_reader a) (fs_frame_reader b)).

  Context (He : eof_sim no_esc R rb1 rb2) (fuel : nat).

  Lemma fs_get_sim {A B} (Q : A -> B -> Prop) f1 f2 :
    (forall s1 s2, Rfs s1 s2 -> sim no_esc Rfs Q (f1 s1) (f2 s2)) ->
    sim no_esc Rfs Q (bind get f1) (bind get f2).
  Proof. intros Hf. eapply sim_bind; [apply sim_get|]. auto. Qed.

  Lemma fs_set_channel_sim c : sim no_esc Rfs eq (fs_set_channel c) (fs_set_channel c).
  Proof. intros s1 s2 (? & ? & ? & ? & ?); cbn. exists tt. repeat split; auto. Qed.
  Lemma fs_set_sample_sim c : sim no_esc Rfs eq (fs_set_sample c) (fs_set_sample c).
  Proof. intros s1 s2 (? & ? & ? & ? & ?); cbn. exists tt. repeat split; auto. Qed.
  Lemma fs_set_block_sim c : sim no_esc Rfs eq (fs_set_block c) (fs_set_block c).
  Proof. intros s1 s2 (? & ? & ? & ? & ?); cbn. exists tt. repeat split; auto. Qed.

  Lemma fs_yield_sim : sim no_esc Rfs eq (@fs_yield S1) (@fs_yield S2).
  Proof.
    unfold fs_yield. apply fs_get_sim. intros s1 s2 (Hb & Hs & Hc & ? & ?).
    rewrite Hb, Hs, Hc. sim_tac.
  Qed.
  Hint Resolve fs_set_channel_sim fs_set_sample_sim fs_set_block_sim fs_yield_sim : core.

  (** Not failed yet *)
  Definition Rfs0 (a : flac_samples S1) (b : flac_samples S2) : Prop :=
    Rfs a b /\ fs_has_failed a = false.

  Lemma fs_next_sim : sim no_esc Rfs eq (fs_next rb1 m fuel) (fs_next rb2 m fuel).
  Proof.
    intros s1 s2 HR. pose proof HR as (Hb & Hs & Hc & Hf & HRr).
    unfold fs_next.
    rewrite !bind_get.
    rewrite <- Hf. destruct (fs_has_failed s1) eqn:EF.
    { cbn. exists None. repeat split; auto; congruence. }
    rewrite <- Hc, <- Hb, <- Hs.
    specialize (HRr eq_refl).
    destruct (chk m u32 (fs_channel s1 + 1)) as [ch|e|w|w|] eqn:Ech;
      try (cbn; auto; fail);
      try (cbn; right; split; [reflexivity|intros _; repeat split; cbn; auto; congruence]).
    cbn [bind lift fs_set_channel].
    destruct (block_channels (fs_block s1) <=? ch).
    2:{ apply (fs_yield_sim (mkFs _ _ _ _ _) (mkFs _ _ _ _ _)).
        repeat split; cbn; auto; congruence. }
    cbn [bind fs_set_channel].
    destruct (chk m u32 (fs_sample s1 + 1)) as [sa|e|w|w|] eqn:Esa;
      try (cbn; auto; fail);
      try (cbn; right; split; [reflexivity|intros _; repeat split; cbn; auto; congruence]).
    cbn [bind lift fs_set_sample].
    destruct (block_duration (fs_block s1) <=? sa).
    2:{ apply (fs_yield_sim (mkFs _ _ _ _ _) (mkFs _ _ _ _ _)).
        repeat split; cbn; auto; congruence. }
    pose proof (read_next_or_eof_sim no_esc R rb1 rb2 m fuel H He
                  (block_into_buffer (fs_block s1)) _ _ HRr) as Hn.
    unfold bind, catch, fs_lift, fs_set_sample, fs_set_block;
      cbn [fs_frame_reader fs_block fs_sample fs_channel fs_has_failed].
    destruct (read_next_or_eof rb1 m fuel (block_into_buffer (fs_block s1))
                (fs_frame_reader s1)) as [o1 t1],
             (read_next_or_eof rb2 m fuel (block_into_buffer (fs_block s1))
                (fs_frame_reader s2)) as [o2 t2]; cbn in Hn.
    destruct o1 as [b|e|w|w|].
    - destruct Hn as (b' & -> & <- & HR'). destruct b as [b|].
      + apply (fs_yield_sim (mkFs _ _ _ _ _) (mkFs _ _ _ _ _)).
        repeat split; cbn; auto; congruence.
      + cbn. eexists; repeat split; auto; cbn; congruence.
    - destruct Hn as [[]|[-> _]]. cbn. eexists; repeat split; auto; cbn; congruence.
    - rewrite Hn; reflexivity.
    - rewrite Hn; reflexivity.
    - rewrite Hn; reflexivity.
  Qed.
End SimIter.
