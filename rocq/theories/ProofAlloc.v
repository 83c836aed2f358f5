(** The allocations of the decoder. *)
From Verif Require Export SpecAlloc ProofTotal.
From Verif Require Import SpecReader.

Lemma traced_stream {S} (rb : ReadBytes S) t D : stream rb t D -> stream (traced rb) t (fun s l => D (fst s) l).
Proof.
  intros HS. split; cbn [traced read_u8 read_u8_or_eof read_into skip rb_alloc].
  - intros s l. apply (st_bytes _ _ _ HS).
  - intros s b l HD. destruct (st_u8 _ _ _ HS _ b l HD) as (s' & -> & HD'). eexists. split; [reflexivity|exact HD'].
  - intros s HD. destruct (st_u8_end _ _ _ HS _ HD) as (s' & ->). eexists. reflexivity.
  - intros s b l HD. destruct (st_eof _ _ _ HS _ b l HD) as (s' & -> & HD'). eexists. split; [reflexivity|exact HD'].
  - intros s HD. pose proof (st_eof_end _ _ _ HS _ HD) as H. destruct t.
    + destruct H as (s' & -> & HD'). eexists. split; [reflexivity|exact HD'].
    + destruct H as (s' & ->). eexists. reflexivity.
  - intros s l1 l2 buf HD Hl Hb. destruct (st_into _ _ _ HS _ l1 l2 buf HD Hl Hb) as (s' & -> & HD'). eexists. split; [reflexivity|exact HD'].
  - intros s l buf HD Hl Hb. destruct (st_into_end _ _ _ HS _ l buf HD Hl Hb) as (s' & ->). eexists. reflexivity.
  - intros s l1 l2 HD Hl. destruct (st_skip _ _ _ HS _ l1 l2 HD Hl) as (s' & -> & HD'). eexists. split; [reflexivity|exact HD'].
  - intros s l n HD Hl. destruct (st_skip_end _ _ _ HS _ l n HD Hl) as (s' & ->). eexists. reflexivity.
  - intros s l n sz HD. destruct (st_alloc _ _ _ HS _ l n sz HD) as (s' & -> & HD'). eexists. split; [reflexivity|exact HD'].
Qed.

Section Traced.
  Context {S : Type} (rb : ReadBytes S) (I : S -> Prop) (HR : byte_reader rb I).
  Context (m : build) (un : nat -> list Z) (Hun : forall n, length (un n) = n).

  (** The requests made since [q0] satisfy [al]. *)
  Definition Iq (al : Z -> Z -> Prop) (q0 : requests) (s : S * requests) : Prop :=
    I (fst s) /\ exists q, snd s = q0 ++ q /\ Forall (fun r => al (fst r) (snd r)) q.

  Lemma traced_rb al q0 : rb_ssim al (diag (Iq al q0)) (traced rb) (traced rb).
  Proof.
    split.
    - intros s ? [<- [HI Hq]]. cbn [traced read_u8]. destruct (by_u8 _ _ HR (fst s) HI) as [HI' Hb].
      destruct (read_u8 rb (fst s)) as [o s']. cbn [fst snd] in *. split; [split; [reflexivity|split; assumption]|].
      destruct o as [a| | | |]; auto. exists a. repeat split; auto; apply (Hb a eq_refl).
    - intros n sz Ha. apply ssim_diag; [reflexivity|]. intros s [HI (q & Eq & Hq)]. cbn [traced rb_alloc].
      rewrite (by_alloc _ _ HR). cbn [fst snd] in *. split; [exact HI|].
      exists (q ++ [(n, sz)]). cbn [snd]. rewrite Eq, app_assoc. split; [reflexivity|]. apply Forall_app. auto.
  Qed.
  Lemma traced_eof al q0 : eof_ssim (diag (Iq al q0)) (traced rb) (traced rb).
  Proof.
    intros s ? [<- [HI Hq]]. cbn [traced read_u8_or_eof]. destruct (by_eof _ _ HR (fst s) HI) as [HI' Hb].
    destruct (read_u8_or_eof rb (fst s)) as [o s']. cbn [fst snd] in *. split; [split; [reflexivity|split; assumption]|].
    destruct o as [[a|]| | | |]; eauto. exists (Some a). repeat split; auto; apply (Hb a eq_refl).
  Qed.
  Lemma traced_bulk al q0 : bulk_ssim (diag (Iq al q0)) (traced rb) (traced rb).
  Proof.
    split.
    - intros b1 b2 Hl Hb. apply ssim_diag; intros s [HI Hq]; cbn [traced read_into].
      + destruct (by_into _ _ HR (fst s) b2 HI ltac:(unfold len in *; lia)) as [_ E]. rewrite (E b1 Hl). reflexivity.
      + destruct (by_into _ _ HR (fst s) b1 HI Hb) as [HI' _]. destruct (read_into rb b1 (fst s)). split; assumption.
    - intros n Hn. apply ssim_diag; intros s [HI Hq]; cbn [traced skip]; [reflexivity|].
      pose proof (by_skip _ _ HR (fst s) n HI Hn) as HI'. destruct (skip rb n (fst s)). split; assumption.
  Qed.

  Lemma start_q al q0 s : I s -> Iq al q0 (s, q0).
  Proof. intros HI. split; [exact HI|]. exists []. rewrite app_nil_r. auto. Qed.

  Theorem block_requests ty n s q0 : 0 <= n < 2 ^ 32 -> I s ->
    exists q, snd (snd (read_metadata_block (traced rb) m un ty n (s, q0))) = q0 ++ q /\ Forall (block_request n) q.
  Proof.
    intros Hn HI. set (al := fun c sz => block_request n (c, sz)).
    assert (allows al n) as Ha.
    { intros Hl. unfold al, block_request, limit. cbn [fst snd]. split; intros; lia. }
    destruct (read_metadata_block_ssim al (diag (Iq al q0)) (traced rb) (traced rb) m un un Hun Hun (traced_rb al q0) (traced_bulk al q0) ty n Hn Ha
      (s, q0) (s, q0) (conj eq_refl (start_q al q0 s HI))) as [[_ [_ (q & E & Hq)]] _].
    exists q. split; [exact E|]. eapply Forall_impl; [|exact Hq]. intros [c sz] Hc. exact Hc.
  Qed.

  Definition al_any (c sz : Z) : Prop := some_block_request (c, sz).
  Lemma allows_any : forall n, allows al_any n.
  Proof. intros n Hl. unfold al_any, some_block_request, limit. cbn [fst snd]. split; intros; lia. Qed.

  Theorem header_requests s q0 : I s ->
    exists q, snd (snd (read_metadata_block_with_header (traced rb) m un (s, q0))) = q0 ++ q /\ Forall some_block_request q.
  Proof.
    intros HI.
    destruct (read_metadata_block_with_header_ssim al_any (diag (Iq al_any q0)) (traced rb) (traced rb) m un un Hun Hun
      (traced_rb al_any q0) (traced_bulk al_any q0) allows_any
      (s, q0) (s, q0) (conj eq_refl (start_q al_any q0 s HI))) as [[_ [_ (q & E & Hq)]] _].
    exists q. split; [exact E|]. eapply Forall_impl; [|exact Hq]. intros [c sz] Hc. exact Hc.
  Qed.
  Theorem iterator_requests n s q0 : I s ->
    exists q, snd (mr_input (snd (nexts (mr_next (traced rb) m un) n (mr_new (s, q0))))) = q0 ++ q /\ Forall some_block_request q.
  Proof.
    intros HI. unfold nexts.
    assert (forall k a, Iq al_any q0 (mr_input a) -> Iq al_any q0 (mr_input (snd (history_all (fun _ : unit => mr_next (traced rb) m un) (repeat tt k) a)))) as X.
    { induction k as [|k IH]; intros a Ha; [exact Ha|]. cbn [repeat history_all].
      destruct (mr_next_ssim al_any (diag (Iq al_any q0)) (traced rb) (traced rb) m un un Hun Hun
        (traced_rb al_any q0) (traced_bulk al_any q0) allows_any a a) as [[[_ Ha'] _] _].
      { split; [split; [reflexivity|exact Ha]|reflexivity]. }
      destruct (mr_next (traced rb) m un a) as [o a']. cbn [snd] in Ha'. specialize (IH a' Ha').
      destruct (history_all _ (repeat tt k) a') as [x xs]. exact IH. }
    destruct (X n (mr_new (s, q0)) (start_q al_any q0 s HI)) as [_ (q & E & Hq)].
    exists q. split; [exact E|]. eapply Forall_impl; [|exact Hq]. intros [c sz] Hc. exact Hc.
  Qed.

  Lemma new_ext_kept al q0 fuel opts s : (forall n, allows al n) -> I s ->
    Iq al q0 (snd (new_ext (traced rb) m un fuel opts (s, q0)))
    /\ forall r, fst (new_ext (traced rb) m un fuel opts (s, q0)) = Ok r ->
       match fr_input r with Full inp => Iq al q0 inp | MetadataOnly inp => Iq al q0 inp end.
  Proof.
    intros Ha HI.
    destruct (new_ext_ssim al (diag (Iq al q0)) (traced rb) (traced rb) m un un Hun Hun (traced_rb al q0) (traced_bulk al q0) Ha fuel opts
      (s, q0) (s, q0) (conj eq_refl (start_q al q0 s HI))) as [[_ Hs] H]. split; [exact Hs|].
    intros r Er. rewrite Er in H. destruct H as (r2 & Er2 & (_ & _ & H)). injection Er2 as <-. destruct (fr_input r); apply H.
  Qed.
  Theorem open_requests fuel opts s q0 : I s ->
    exists q, snd (snd (new_ext (traced rb) m un fuel opts (s, q0))) = q0 ++ q /\ Forall some_block_request q.
  Proof.
    intros HI. destruct (new_ext_kept al_any q0 fuel opts s allows_any HI) as [[_ (q & E & Hq)] _].
    exists q. split; [exact E|]. eapply Forall_impl; [|exact Hq]. intros [c sz] Hc. exact Hc.
  Qed.

  (** A frame *)
  Definition al_frame (c sz : Z) : Prop := frame_request (c, sz).
  Lemma al_frame_4 n : 0 <= n <= 8 * 65535 -> al_frame n 4.
  Proof. unfold al_frame, frame_request. cbn. lia. Qed.
  Theorem frame_requests fuel buffer s q0 : I s ->
    exists q, snd (snd (read_next_or_eof (traced rb) m fuel buffer (s, q0))) = q0 ++ q /\ Forall frame_request q.
  Proof.
    intros HI. destruct (read_next_or_eof_ssim al_frame (diag (Iq al_frame q0)) (traced rb) (traced rb) m fuel (traced_rb al_frame q0) al_frame_4
      (traced_eof al_frame q0) buffer (s, q0) (s, q0) (conj eq_refl (start_q al_frame q0 s HI))) as [[_ [_ (q & E & Hq)]] _].
    exists q. split; [exact E|]. eapply Forall_impl; [|exact Hq]. intros [c sz] Hc. exact Hc.
  Qed.

  (** Any calls on an open file *)
  Theorem session_requests fuel r s q0 calls : fr_blocks r = Ok (s, q0) -> I s ->
    exists s' q, fr_blocks (drop_samples (snd (history_all (session_step (traced rb) m fuel) calls (mkSession r None)))) = Ok (s', q0 ++ q)
      /\ Forall frame_request q.
  Proof.
    intros Er HI. unfold fr_blocks in Er. destruct (fr_input r) as [x|x] eqn:E; [injection Er as ->|discriminate].
    set (J := fun a : session (S * requests) => (exists inp, fr_input (se_reader a) = Full inp /\ Iq al_frame q0 inp)
      /\ Rses (diag (Iq al_frame q0)) a a).
    assert (J (mkSession r None)) as HJ.
    { split; [exists (s, q0); split; [exact E|apply start_q, HI]|]. split; [|exact Logic.I]. split; [reflexivity|]. split; [reflexivity|].
      cbn. rewrite E. split; [reflexivity|apply start_q, HI]. }
    assert (forall a, J a -> exists s' q, fr_blocks (drop_samples a) = Ok (s', q0 ++ q) /\ Forall frame_request q) as HE.
    { intros a [(inp & Ei & Hi) [_ Hit]]. unfold drop_samples, fr_blocks.
      assert (forall x, Iq al_frame q0 x -> exists s' q, Ok x = Ok (s', q0 ++ q) /\ Forall frame_request q) as Y.
      { intros [s' l] [_ (q & Eq & Hq)]. cbn [snd] in Eq. subst l. exists s', q. split; [reflexivity|]. eapply Forall_impl; [|exact Hq]. intros [c sz] Hc. exact Hc. }
      destruct (se_samples a) as [it|]; [|rewrite Ei; apply Y, Hi]. cbn [with_input fr_input]. rewrite Ei. apply Y. apply Hit. }
    assert (forall c a, J a -> J (snd (session_step (traced rb) m fuel c a))) as HK.
    { intros c a [(inp & Ei & Hi) Ha].
      destruct (session_ssim (diag (Iq al_frame q0)) (traced rb) (traced rb) m fuel al_frame (traced_rb al_frame q0) al_frame_4 (traced_eof al_frame q0)
        c a a Ha) as [Ha' _]. split; [|exact Ha'].
      assert (exists inp', fr_input (se_reader (snd (session_step (traced rb) m fuel c a))) = Full inp') as (inp' & Ei').
      { assert (exists i, fr_input (drop_samples a) = Full i) as (i & Ed).
        { unfold drop_samples. destruct (se_samples a); [cbn; rewrite Ei|]; eauto. }
        destruct c; cbn [session_step].
        - unfold fr_blocks. rewrite Ed. destruct (read_next_or_eof _ _ _ _ _). cbn. rewrite Ed. eauto.
        - destruct (match se_samples a with Some it => Ok it | None => fr_samples (se_reader a) end); try solve [cbn; eauto].
          match goal with |- context [fs_next ?a ?b ?c ?d] => destruct (fs_next a b c d) end. cbn. eauto.
        - cbn. eauto. }
      exists inp'. split; [exact Ei'|]. destruct Ha' as [(_ & _ & Hx) _]. rewrite Ei' in Hx. apply Hx. }
    apply HE. clear HE. revert HJ. generalize (mkSession r None). induction calls as [|c calls IH]; intros a Ha; [exact Ha|].
    cbn [history_all]. specialize (HK c a Ha). destruct (session_step (traced rb) m fuel c a) as [o a']. cbn [snd] in HK. specialize (IH a' HK).
    destruct (history_all _ calls a') as [x xs]. exact IH.
  Qed.

  Theorem too_large ty n s q0 : ty = 4 \/ ty = 2 -> limit < n ->
    exists why, read_metadata_block (traced rb) m un ty n (s, q0) = (Err (Unsupported why), (s, q0)).
  Proof.
    unfold limit. intros [->| ->] Hn; unfold read_metadata_block; cbn [Z.eqb Pos.eqb]; unfold bind.
    - unfold read_vorbis_comment_block. destruct (Z.ltb_spec n 8); [lia|]. destruct (Z.ltb_spec (10 * 1024 * 1024) n); [|lia]. eexists. reflexivity.
    - unfold read_application_block. destruct (Z.ltb_spec n 4); [lia|]. destruct (Z.ltb_spec (10 * 1024 * 1024) n); [|lia]. eexists. reflexivity.
  Qed.

  (** ** The sum of the requests for a block *)
  Definition spends {A} (Q : A -> Prop) (b : Z) (c : M (S * requests) A) : Prop :=
    forall s, I (fst s) -> I (fst (snd (c s))) /\ requested (snd (snd (c s))) <= requested (snd s) + b
      /\ forall a, fst (c s) = Ok a -> Q a.

  Lemma total_app a b : requested (a ++ b) = requested a + requested b.
  Proof. unfold requested. induction a as [|x a IH]; cbn [app fold_right]; lia. Qed.
  Lemma spends_bind {A B} (Q : A -> Prop) (Q' : B -> Prop) b1 b2 (c : M (S * requests) A) f :
    spends Q b1 c -> 0 <= b2 -> (forall a, Q a -> spends Q' b2 (f a)) -> spends Q' (b1 + b2) (bind c f).
  Proof.
    intros Hc Hb Hf s HI. destruct (Hc s HI) as (HI' & Ht & HQ). unfold bind. destruct (c s) as [[a|e|w|w|] s']; cbn [fst snd] in *.
    1:{ destruct (Hf a (HQ a eq_refl) s' HI') as (H1 & H2 & H3). split; [exact H1|]. split; [lia|exact H3]. }
    all: split; [exact HI'|]; split; [lia|discriminate].
  Qed.
  Lemma spends_bind0 {A B} (Q : A -> Prop) (Q' : B -> Prop) b2 (c : M (S * requests) A) f :
    spends Q 0 c -> 0 <= b2 -> (forall a, Q a -> spends Q' b2 (f a)) -> spends Q' b2 (bind c f).
  Proof. apply (spends_bind Q Q' 0 b2). Qed.
  Lemma spends_lift {A} (Q : A -> Prop) b (o : outcome A) : 0 <= b -> (forall a, o = Ok a -> Q a) -> spends Q b (lift o).
  Proof. intros Hb H s HI. cbn. split; [exact HI|]. split; [lia|exact H]. Qed.
  Lemma spends_fail {A} (Q : A -> Prop) b e : 0 <= b -> spends Q b (@fail _ A e).
  Proof. intros Hb s HI. cbn. split; [exact HI|]. split; [lia|discriminate]. Qed.
  Lemma spends_ret {A} (Q : A -> Prop) b a : 0 <= b -> Q a -> spends Q b (ret a).
  Proof. intros Hb Ha s HI. cbn. split; [exact HI|]. split; [lia|]. intros x [= <-]. exact Ha. Qed.
  Lemma spends_u8 : spends is_byte 0 (read_u8 (traced rb)).
  Proof.
    intros s HI. cbn [traced read_u8]. destruct (by_u8 _ _ HR (fst s) HI) as [HI' Hb]. destruct (read_u8 rb (fst s)) as [o s']. cbn [fst snd] in *.
    split; [exact HI'|]. split; [lia|exact Hb].
  Qed.
  Lemma spends_into buf : len buf < 2 ^ 32 -> spends (fun _ => True) 0 (read_into (traced rb) buf).
  Proof.
    intros Hb s HI. cbn [traced read_into]. destruct (by_into _ _ HR (fst s) buf HI Hb) as [HI' _]. destruct (read_into rb buf (fst s)) as [o s']. cbn [fst snd] in *.
    split; [exact HI'|]. split; [lia|auto].
  Qed.
  Lemma spends_skip n : 0 <= n < 2 ^ 32 -> spends (fun _ => True) 0 (skip (traced rb) n).
  Proof.
    intros Hn s HI. cbn [traced skip]. pose proof (by_skip _ _ HR (fst s) n HI Hn) as HI'. destruct (skip rb n (fst s)) as [o s']. cbn [fst snd] in *.
    split; [exact HI'|]. split; [lia|auto].
  Qed.
  Lemma spends_alloc n sz : spends (fun _ => True) (n * sz) (rb_alloc (traced rb) n sz).
  Proof.
    intros s HI. cbn [traced rb_alloc]. rewrite (by_alloc _ _ HR). cbn [fst snd] in *.
    split; [exact HI|]. split; [|auto]. rewrite total_app. cbn. lia.
  Qed.
  Lemma spends_le32 : spends (fun x => 0 <= x < 2 ^ 32) 0 (read_le_u32 (traced rb)).
  Proof.
    unfold read_le_u32. do 4 (eapply spends_bind0; [apply spends_u8|lia|intros ? ?]).
    apply spends_ret; [lia|]. unfold is_byte in *.
    assert (forall x, 0 <= x < 2 ^ 32 -> forall y, 0 <= y < 2 ^ 32 -> 0 <= Z.lor x y < 2 ^ 32) as X.
    { intros x Hx y Hy. split; [apply Z.lor_nonneg; lia|]. destruct (Z.eq_dec (Z.lor x y) 0) as [->|Hne]; [lia|].
      apply Z.log2_lt_pow2; [pose proof (proj2 (Z.lor_nonneg x y)); lia|]. rewrite Z.log2_lor by lia.
      destruct (Z.eq_dec x 0) as [->|], (Z.eq_dec y 0) as [->|]; cbn [Z.log2]; try (apply Z.max_lub_lt); try lia; apply Z.log2_lt_pow2; lia. }
    assert (forall x, 0 <= u32 x < 2 ^ 32) as Y by (intros; unfold u32; apply Z.mod_pos_bound; lia).
    repeat apply X; try apply Y; lia.
  Qed.
  Lemma spends_any {A} b (c : M (S * requests) A) Q : spends Q b c -> spends (fun _ => True) b c.
  Proof. intros H s HI. destruct (H s HI) as (? & ? & ?). auto. Qed.

  Lemma len_un n : 0 <= n -> len (un (Z.to_nat n)) = n.
  Proof. intros Hn. unfold len. rewrite Hun. lia. Qed.

  Lemma loop_spends : forall fuel bl n cs, 0 <= bl < 2 ^ 32 -> spends (fun _ => True) bl (vorbis_loop (traced rb) m un fuel bl n cs).
  Proof.
    induction fuel as [|fuel IH]; intros bl n cs Hbl; cbn [vorbis_loop]; destruct ((4 <=? bl) && (len cs <? n)) eqn:E;
      try (apply spends_ret; [lia|exact Logic.I]); [apply spends_lift; [lia|auto]|].
    eapply spends_bind0; [apply spends_le32|lia|]. intros cl Hcl. cbv beta in Hcl.
    rewrite (chk_u32 m (bl - 4)) by lia. eapply (spends_bind0 (fun x => x = bl - 4)); [apply spends_lift; [lia|congruence]|lia|]. intros ? ->.
    destruct (Z.ltb_spec (bl - 4) cl); [apply spends_fail; lia|]. destruct (cl =? 0).
    { eapply (spends_bind0 (fun _ => True)); [apply spends_lift; [lia|auto]|lia|]. intros n' _.
      intros s HI. destruct (IH (bl - 4) n' cs ltac:(lia) s HI) as (? & ? & ?). split; [assumption|]. split; [lia|assumption]. }
    replace bl with (cl * 1 + (bl - cl)) at 1 by lia. eapply spends_bind; [apply spends_alloc|lia|]. intros _ _.
    eapply spends_bind0; [apply spends_into; rewrite len_un; lia|lia|]. intros bs _.
    rewrite (chk_u32 m (bl - 4 - cl)) by lia. eapply (spends_bind0 (fun x => x = bl - 4 - cl)); [apply spends_lift; [lia|congruence]|lia|]. intros ? ->.
    destruct (position 61 bs 0); [|apply spends_fail; lia].
    eapply (spends_bind0 (fun _ => True)); [apply spends_lift; [lia|auto]|lia|]. intros nb _.
    destruct (existsb _ nb); [apply spends_fail; lia|].
    eapply (spends_bind0 (fun _ => True)); [apply spends_lift; [lia|auto]|lia|]. intros co _.
    intros s HI. destruct (IH (bl - 4 - cl) n (cs ++ [(co, z)]) ltac:(lia) s HI) as (? & ? & ?). split; [assumption|]. split; [lia|assumption].
  Qed.
  Lemma vorbis_spends n : 0 <= n < 2 ^ 32 -> spends (fun _ => True) (9 * n) (read_vorbis_comment_block (traced rb) m un n).
  Proof.
    intros Hn. unfold read_vorbis_comment_block. destruct (Z.ltb_spec n 8); [apply spends_fail; lia|].
    destruct (_ <? n); [apply spends_fail; lia|].
    eapply spends_bind0; [apply spends_le32|lia|]. intros v Hv. cbv beta in Hv.
    rewrite (chk_u32 m (n - 8)) by lia. eapply (spends_bind0 (fun x => x = n - 8)); [apply spends_lift; [lia|congruence]|lia|]. intros ? ->.
    destruct (Z.ltb_spec (n - 8) v); [apply spends_fail; lia|].
    replace (9 * n) with (v * 1 + (9 * n - v)) by lia. eapply spends_bind; [apply spends_alloc|lia|]. intros _ _.
    eapply spends_bind0; [apply spends_into; rewrite len_un; lia|lia|]. intros bs _.
    eapply (spends_bind0 (fun _ => True)); [apply spends_lift; [lia|auto]|lia|]. intros vendor _.
    eapply spends_bind0; [apply spends_le32|lia|]. intros cl Hcl. cbv beta in Hcl.
    destruct (Z.leb_spec (n / 4) cl); [apply spends_fail; lia|].
    assert (4 * cl < n) as Hc4 by (Z.div_mod_to_equations; lia).
    replace (9 * n - v) with (cl * 32 + (9 * n - v - cl * 32)) by lia. eapply spends_bind; [apply spends_alloc|lia|]. intros _ _.
    rewrite (chk_u32 m (n - 8 - v)) by lia. eapply (spends_bind0 (fun x => x = n - 8 - v)); [apply spends_lift; [lia|congruence]|lia|]. intros ? ->.
    replace (9 * n - v - cl * 32) with (n - 8 - v + (8 * n - cl * 32 + 8)) by lia.
    eapply spends_bind; [apply loop_spends; lia|lia|]. intros [[bl cl'] cs] _.
    destruct (negb (bl =? 0)); [apply spends_fail; lia|]. destruct (negb (len cs =? cl')); [apply spends_fail; lia|]. apply spends_ret; [lia|exact Logic.I].
  Qed.

  Ltac stac := repeat first
    [ match goal with |- spends _ _ (let _ := _ in _) => cbv zeta end
    | match goal with |- spends _ _ (if ?c then _ else _) => destruct c eqn:? end
    | apply spends_fail; lia | apply spends_ret; [lia|exact Logic.I] | apply spends_lift; [lia|auto]
    | apply (spends_any _ _ is_byte), spends_u8 | apply spends_skip; lia | apply spends_into; reflexivity
    | eapply (spends_bind0 (fun _ => True)); [|lia|intros ? _] ].
  Lemma streaminfo_spends : spends (fun _ => True) 0 (read_streaminfo_block (traced rb) m).
  Proof. unfold read_streaminfo_block, read_be_u16, read_be_u24, read_be_u32. stac. Qed.
  Lemma application_spends n : 0 <= n < 2 ^ 32 -> spends (fun _ => True) n (read_application_block (traced rb) m un n).
  Proof.
    intros Hn. unfold read_application_block. destruct (Z.ltb_spec n 4); [apply spends_fail; lia|]. destruct (_ <? n); [apply spends_fail; lia|].
    eapply (spends_bind0 (fun _ => True)); [unfold read_be_u32; stac|lia|]. intros id _.
    rewrite (chk_u64 m (n - 4)) by lia. eapply (spends_bind0 (fun x => x = n - 4)); [apply spends_lift; [lia|congruence]|lia|]. intros ? ->.
    replace n with ((n - 4) * 1 + 4) at 1 by lia. eapply spends_bind; [apply spends_alloc|lia|]. intros _ _.
    eapply spends_bind0; [apply spends_into; rewrite len_un; lia|lia|]. intros data _. apply spends_ret; [lia|exact Logic.I].
  Qed.
  Lemma spends_more {A} (Q : A -> Prop) a b c : a <= b -> spends Q a c -> spends Q b c.
  Proof. intros Hab H s HI. destruct (H s HI) as (? & ? & ?). split; [assumption|]. split; [lia|assumption]. Qed.

  Theorem block_total ty n s q0 : 0 <= n < 2 ^ 32 -> I s ->
    requested (snd (snd (read_metadata_block (traced rb) m un ty n (s, q0)))) <= requested q0 + 9 * n.
  Proof.
    intros Hn HI.
    assert (spends (fun _ => True) (9 * n) (read_metadata_block (traced rb) m un ty n)) as H.
    2:{ destruct (H (s, q0) HI) as (_ & H' & _). exact H'. }
    unfold read_metadata_block, read_padding_block.
    repeat match goal with |- spends _ _ (if ?c then _ else _) => destruct c eqn:? end; try solve [stac].
    - replace (9 * n) with (n + 8 * n) by lia. eapply spends_bind; [apply application_spends, Hn|lia|]. intros [id data] _. stac.
    - replace (9 * n) with (9 * n + 0) by lia. eapply spends_bind; [apply vorbis_spends, Hn|lia|]. intros vc _. stac.
  Qed.
End Traced.

(** * The two readers of the crate *)
Theorem source_reader m sc : byte_reader (br_rb m) (source_ok sc).
Proof.
  pose proof (source_rb m sc) as H1. pose proof (source_eof m sc) as H2. pose proof (source_bulk m sc) as H3. split.
  - intros s Hs. destruct (rss_u8 _ _ _ _ H1 s s (conj eq_refl Hs)) as [[_ H] Hx]. split; [exact H|]. intros b Eb. rewrite Eb in Hx.
    destruct Hx as (b' & [= <-] & _ & Hb). exact Hb.
  - intros s Hs. destruct (H2 s s (conj eq_refl Hs)) as [[_ H] Hx]. split; [exact H|]. intros b Eb. rewrite Eb in Hx.
    destruct Hx as (b' & [= <-] & _ & Hb). exact Hb.
  - intros s buf Hs Hl. split; [apply (bss_into _ _ _ H3 buf buf eq_refl Hl s s (conj eq_refl Hs))|].
    intros buf' Hl'. apply into_alike; [apply Hs|exact Hl'|unfold len in *; lia].
  - intros s n Hs Hn. apply (bss_skip _ _ _ H3 n Hn s s (conj eq_refl Hs)).
  - reflexivity.
Qed.

Definition cursor_ok (st : cursor) : Prop := exists l, cursor_at st l.
Theorem memory_reader m : byte_reader (cu_rb m) cursor_ok.
Proof.
  pose proof (cu_stream m) as HS.
  assert (forall st l, cursor_at st l -> 0 <= cu_pos st /\ cu_pos st + len l = len (cu_data st) /\ len (cu_data st) < 2 ^ 63) as HC.
  { intros st l (pre & E & Hp & _ & Hl). rewrite Hp. pose proof (len_nonneg pre). split; [lia|]. split; [rewrite E, len_app; reflexivity|exact Hl]. }
  split.
  - intros s (l & HD). destruct l as [|b l].
    + assert (read_u8 (cu_rb m) s = (Err (IoError UnexpectedEof), s)) as ->
        by (cbn [cu_rb read_u8]; unfold cu_read_u8; rewrite bind_get, (cursor_end s HD); reflexivity).
      split; [exists []; exact HD|discriminate].
    + destruct (st_u8 _ _ _ HS s b l HD) as (s' & -> & HD'). split; [exists l; exact HD'|]. intros b' [= <-].
      apply (st_bytes _ _ _ HS) in HD. inversion HD; assumption.
  - intros s (l & HD). destruct l as [|b l].
    + destruct (st_eof_end _ _ _ HS s HD) as (s' & -> & HD'). split; [exists []; exact HD'|discriminate].
    + destruct (st_eof _ _ _ HS s b l HD) as (s' & -> & HD'). split; [exists l; exact HD'|]. intros b' [= <-].
      apply (st_bytes _ _ _ HS) in HD. inversion HD; assumption.
  - intros s buf (l & HD) Hl. destruct (HC s l HD) as (H1 & H2 & H3). pose proof (len_nonneg l). pose proof (len_nonneg buf). split.
    + destruct (Z.leb_spec (len buf) (len l)).
      * pose proof HD as HD0. rewrite <- (firstn_skipn (length buf) l) in HD0.
        destruct (st_into _ _ _ HS s _ _ buf HD0) as (s' & -> & HD'); [rewrite firstn_length; unfold len in *; lia|lia|]. eexists. exact HD'.
      * cbn [cu_rb read_into]. unfold cu_read_into. rewrite bind_get, chk_u64, bind_lift_ok by lia.
        destruct (Z.leb_spec (cu_pos s + len buf) (len (cu_data s))); [lia|]. exists l. exact HD.
    + intros buf' Hl'. cbn [cu_rb read_into]. unfold cu_read_into. replace (len buf') with (len buf) by (unfold len; lia). reflexivity.
  - intros s n (l & HD) Hn. destruct (HC s l HD) as (H1 & H2 & H3). pose proof (len_nonneg l).
    cbn [cu_rb skip]. unfold cu_skip. rewrite bind_get, chk_u64, bind_lift_ok by lia.
    destruct (Z.leb_spec (cu_pos s + n) (len (cu_data s))); [|exists l; exact HD].
    exists (skipn (Z.to_nat n) l). destruct HD as (pre & E & Hp & Hb & Hl). exists (pre ++ firstn (Z.to_nat n) l). cbn.
    rewrite <- app_assoc, firstn_skipn. split; [exact E|]. split; [|split; [apply Forall_skipn, Hb|exact Hl]].
    rewrite len_app. unfold len in *. rewrite firstn_length. lia.
  - reflexivity.
Qed.

(** * The buffer of a frame *)

Section Buffers.
  Context {S : Type} (rb : ReadBytes S) (I : S -> Prop) (HR : byte_reader rb I).
  Context (m : build) (fuel : nat).
  Definition none (_ _ : Z) : Prop := False.
  Lemma Iq_none q0 s : Iq I none q0 s -> snd s = q0.
  Proof. intros [_ (q & E & Hq)]. destruct Hq as [|x q []]. rewrite E. apply app_nil_r. Qed.

  Lemma bind_ok {T A B} (c : M T A) (f : A -> M T B) s b : fst (bind c f s) = Ok b -> exists a s', c s = (Ok a, s') /\ fst (f a s') = Ok b.
  Proof. unfold bind. destruct (c s) as [[a|e|w|w|] s']; try discriminate. eauto. Qed.

  (** Everything after the request. *)
  Definition frame_body (header : frame_header) (buffer : vec) : M (crc16reader (S * requests)) (option block) :=
    let crb := crc16_rb (traced rb) in
    bps <- lift (match fh_bits_per_sample header with
                 | Some x => Ok x
                 | None => Err (Unsupported "header without bits per sample info")
                 end) ;;
    lift (debug_assert m (bps <=? 32)) ;;;
    items <- with_bitstream
      (decode_channels crb m fuel (fh_channel_assignment header) bps
                       (fh_block_size header) (v_items buffer)) ;;
    let buffer := mkVec items (v_cap buffer) in
    computed_crc <- crc16_crc ;;
    presumed_crc <- read_be_u16 crb ;;
    if negb (computed_crc =? presumed_crc) then fmt_err "frame CRC mismatch"
    else
      time <- lift (match fh_block_time header with
                    | FrameNumber fnr => chk m u64 (fh_block_size header * fnr)
                    | SampleNumber snr => Ok snr
                    end) ;;
      b <- lift (block_new time (fh_block_size header) buffer) ;;
      ret (Some b).

  Lemma body_quiet h buf q0 st : Iq I none q0 (c16_inner st) -> Iq I none q0 (c16_inner (snd (frame_body h buf st))).
  Proof.
    intros HI. pose proof (traced_rb rb I HR none q0) as H.
    pose proof (crc16_rb_ssim _ _ _ _ H) as H16.
    pose proof (crc16_crc_ssim (diag (Iq I none q0))).
    pose proof (ssim_eq_of _ _ _ _ (read_be_u16_ssim _ _ _ _ H16)).
    assert (ssim (Rcrc16 (diag (Iq I none q0))) eq (frame_body h buf) (frame_body h buf)) as X.
    { unfold frame_body. ssim_step; [ssim_tac|]. ssim_step; [ssim_tac|].
      ssim_step; [eapply with_bitstream_ssim, decode_channels_ssim, H16|]. ssim_tac. }
    destruct (X st st) as [[[_ HI'] _] _]; [split; [split; [reflexivity|exact HI]|reflexivity]|exact HI'].
  Qed.
  Lemma body_cap h buf st b : fst (frame_body h buf st) = Ok (Some b) -> v_cap (bl_buffer b) = v_cap buf.
  Proof.
    unfold frame_body. cbv zeta. intros E.
    apply bind_ok in E as (bps & s1 & _ & E). apply bind_ok in E as (? & s2 & _ & E). apply bind_ok in E as (items & s3 & _ & E).
    apply bind_ok in E as (c1 & s4 & _ & E). apply bind_ok in E as (c2 & s5 & _ & E). destruct (negb _); [discriminate E|].
    apply bind_ok in E as (time & s6 & _ & E). apply bind_ok in E as (b' & s7 & Eb & E). injection E as ->.
    unfold lift, block_new in Eb. destruct (_ =? 0); [discriminate|]. injection Eb as <- _. reflexivity.
  Qed.

  Lemma body_some h buf st : fst (frame_body h buf st) <> Ok None.
  Proof.
    unfold frame_body. cbv zeta. intros E.
    apply bind_ok in E as (bps & s1 & _ & E). apply bind_ok in E as (? & s2 & _ & E). apply bind_ok in E as (items & s3 & _ & E).
    apply bind_ok in E as (c1 & s4 & _ & E). apply bind_ok in E as (c2 & s5 & _ & E). destruct (negb _); [discriminate E|].
    apply bind_ok in E as (time & s6 & _ & E). apply bind_ok in E as (b' & s7 & Eb & E). discriminate E.
  Qed.

  Lemma buffer_requests buffer s q0 : I s -> let r := read_next_or_eof (traced rb) m fuel buffer (s, q0) in
    (snd (snd r) = q0 /\ forall b, fst r = Ok (Some b) -> v_cap (bl_buffer b) = v_cap buffer)
    \/ exists n, len (v_items buffer) < n /\ v_cap buffer < n <= 8 * 65535 /\ snd (snd r) = q0 ++ [(n, 4)] /\ fst r <> Ok None
         /\ forall b, fst r = Ok (Some b) -> v_cap (bl_buffer b) = n.
  Proof.
    intros HI r. pose proof (start_q I none q0 s HI) as Hq.
    destruct (read_frame_header_or_eof_ssim none (Rcrc16 (diag (Iq I none q0))) (crc16_rb (traced rb)) (crc16_rb (traced rb)) m
      (crc16_rb_ssim _ _ _ _ (traced_rb rb I HR none q0))
      (crc16_eof_ssim _ _ _ (traced_eof rb I HR none q0)) (crc16_new (s, q0)) (crc16_new (s, q0))) as [[[_ Hh] _] Ho].
    { split; [split; [reflexivity|exact Hq]|reflexivity]. }
    unfold r, read_next_or_eof, with_crc16. rewrite read_next_body_eq.
    destruct (read_frame_header_or_eof (crc16_rb (traced rb)) m (crc16_new (s, q0))) as [o st1] eqn:Eh. cbn [fst snd] in *.
    unfold bind at 1 2 3 4 5. rewrite Eh.
    destruct o as [[h|]|e|w|w|]; try (left; split; [apply Iq_none, Hh|discriminate]).
    destruct Ho as (? & [= <-] & _ & Hsz & Hch). set (total := fh_channels h * fh_block_size h) in *.
    assert (0 <= total <= 8 * 65535) as Ht by (unfold total; nia).
    assert (frame_after_header (traced rb) m fuel buffer (Some h) st1
      = ((match snd (ensure_buffer_len buffer total) with Some n => rb_alloc (crc16_rb (traced rb)) n 4 | None => ret tt end) ;;;
         frame_body h (fst (ensure_buffer_len buffer total))) st1) as ->.
    { unfold frame_after_header. fold total. rewrite chk_u64, bind_lift_ok by lia. destruct (ensure_buffer_len buffer total). reflexivity. }
    unfold ensure_buffer_len.
    assert (forall buf, snd (snd (let (o, st) := frame_body h buf st1 in (o, c16_inner st))) = q0) as X.
    { intros buf. apply Iq_none. pose proof (body_quiet h buf q0 st1 Hh). destruct (frame_body h buf st1). exact H. }
    destruct (Z.ltb_spec (len (v_items buffer)) total); [destruct (Z.ltb_spec (v_cap buffer) total)|]; cbn [fst snd].
    - right. exists total. split; [lia|]. split; [lia|].
      pose proof (Iq_none q0 _ Hh) as Eq. destruct Hh as [HI1 _]. unfold bind. cbn [crc16_rb rb_alloc traced]. unfold c16_lift. rewrite (by_alloc _ _ HR).
      set (buf := mkVec (repeat 0 (Z.to_nat total)) total).
      set (st2 := mkCrc16 _ _). assert (Iq I none (q0 ++ [(total, 4)]) (c16_inner st2)) as Hq2.
      { unfold st2. cbn [c16_inner]. rewrite Eq. apply (start_q I none), HI1. }
      pose proof (Iq_none _ _ (body_quiet h buf _ st2 Hq2)) as E2. pose proof (body_cap h buf st2) as E3. pose proof (body_some h buf st2) as E4.
      destruct (frame_body h buf st2) as [o st3]. cbn [fst snd] in *. split; [exact E2|]. split; [exact E4|exact E3].
    - left. unfold bind, ret. split; [apply X|]. intros b. specialize (body_cap h (mkVec (v_items buffer ++ repeat 0 (Z.to_nat (total - len (v_items buffer)))) (v_cap buffer)) st1 b).
      destruct (frame_body h _ st1). auto.
    - left. unfold bind, ret. split; [apply X|]. intros b. specialize (body_cap h (mkVec (firstn (Z.to_nat total) (v_items buffer)) (v_cap buffer)) st1 b).
      destruct (frame_body h _ st1). auto.
  Qed.

  (** On a stream the size of the block is known. *)
  Theorem block_requests_exact t D buffer s q0 l b : stream rb t D -> I s -> D s l -> (length l < fuel)%nat -> vec_ok buffer ->
    let r := read_next_or_eof (traced rb) m fuel buffer (s, q0) in
    fst r = Ok (Some b) ->
    let n := block_channels b * block_duration b in
    v_cap (block_into_buffer b) = Z.max (v_cap buffer) n
    /\ snd (snd r) = q0 ++ (if v_cap buffer <? n then [(n, 4)] else [])
    /\ vec_ok (block_into_buffer b).
  Proof.
    intros HS HI HD Hf Hv r Er n.
    pose proof (traced_stream rb t D HS) as HT.
    pose proof (frame_left (traced rb) t (fun s l => D (fst s) l) (stream_rb_sim _ _ _ HT no_esc) (stream_eof_sim _ _ _ HT no_esc) (st_bytes _ _ _ HT)
      m fuel (s, q0) l buffer HD Hf) as HL. cbv zeta in HL. fold r in HL. rewrite Er in HL.
    destruct HL as ([[h chs]|] & _ & Hsh & _); [|discriminate Hsh]. destruct Hsh as (b' & [= <-] & Hsh & Ecap).
    destruct Hsh as (_ & Hdur & Hch & Hlen & Hall & Hit).
    assert (len (v_items (bl_buffer b)) = n) as En.
    { change (bl_buffer b) with (block_into_buffer b). rewrite Hit. unfold n. rewrite Hdur, Hch, <- Hlen. clear - Hall. unfold len in *.
      induction Hall as [|c cs Hc _ IH]; cbn [concat length]; [lia|]. rewrite app_length. lia. }
    rewrite <- Hdur, <- Hch in Ecap. fold n in Ecap. unfold next_cap, ensure_buffer_len in Ecap. unfold block_into_buffer, vec_ok in *. rewrite En.
    destruct (buffer_requests buffer s q0 HI) as [[Eq Ec]|(k & Hk1 & Hk2 & Eq & _ & Ec)]; fold r in Eq, Ec; specialize (Ec b Er); rewrite Ec in *; rewrite Eq.
    - destruct (Z.ltb_spec (len (v_items buffer)) n); [destruct (Z.ltb_spec (v_cap buffer) n)|]; cbn [fst v_cap] in Ecap;
        try (destruct (Z.ltb_spec (v_cap buffer) n)); rewrite ?app_nil_r; repeat split; lia.
    - destruct (Z.ltb_spec (len (v_items buffer)) n); [destruct (Z.ltb_spec (v_cap buffer) n)|]; cbn [fst v_cap] in Ecap; try lia.
      rewrite Ecap. repeat split; lia.
  Qed.

  Theorem recycled t D : stream rb t D -> forall bs buffer s q0 s' q l,
    blocks_read (traced rb) m fuel buffer (s, q0) bs (Ok None) (s', q) ->
    I s -> D s l -> (length l < fuel)%nat -> vec_ok buffer ->
    q = q0 ++ growth (v_cap buffer) (map block_samples bs).
  Proof.
    intros HS bs buffer s q0 s' q l HR'. remember (s, q0) as x eqn:Ex. remember (s', q) as y eqn:Ey. remember (Ok None) as last eqn:El.
    revert s q0 l Ex. induction HR' as [buffer x last y E Hn|buffer x b x1 bs last y E HR' IH]; intros s q0 l -> HI HD Hf Hv; subst.
    - cbn [map growth]. rewrite app_nil_r. destruct (buffer_requests buffer s q0 HI) as [[Eq _]|(k & _ & _ & _ & Ec & _)].
      + rewrite E in Eq. exact Eq.
      + rewrite E in Ec. contradiction Ec. reflexivity.
    - destruct x1 as [s1 q1].
      destruct (block_requests_exact t D buffer s q0 l b HS HI HD Hf Hv ltac:(rewrite E; reflexivity)) as (Ec & Eq & Hv'). rewrite E in Eq. cbn [snd] in Eq.
      destruct (next_shrinks (traced rb) t (fun s l => D (fst s) l) (traced_stream rb t D HS) m fuel buffer (s, q0) l b (s1, q1) HD Hf E) as (l' & HD' & Hl').
      assert (I s1) as HI1.
      { destruct (read_next_or_eof_ssim al_frame (diag (Iq I al_frame q0)) (traced rb) (traced rb) m fuel (traced_rb rb I HR al_frame q0) al_frame_4
          (traced_eof rb I HR al_frame q0) buffer (s, q0) (s, q0) (conj eq_refl (start_q I al_frame q0 s HI))) as [[_ [X _]] _]. rewrite E in X. exact X. }
      rewrite (IH eq_refl eq_refl s1 q1 l' eq_refl HI1 HD' ltac:(lia) Hv'). rewrite Eq, <- app_assoc. f_equal.
      cbn [map growth]. fold (block_samples b) in *. rewrite Ec. destruct (Z.ltb_spec (v_cap buffer) (block_samples b)).
      + rewrite Z.max_r by lia. reflexivity.
      + rewrite Z.max_l by lia. reflexivity.
  Qed.
End Buffers.

Lemma growth_none cap sizes : Forall (fun n => n <= cap) sizes -> growth cap sizes = [].
Proof.
  induction 1 as [|n r H _ IH]; cbn [growth]; [reflexivity|]. destruct (Z.ltb_spec cap n); [lia|]. exact IH.
Qed.
Lemma growth_same cap n k : growth cap (repeat n k) = if (cap <? n) && (0 <? k)%nat then [(n, 4)] else [].
Proof.
  destruct k as [|k]; cbn [repeat growth]; [rewrite andb_comm; reflexivity|]. cbn [Nat.ltb Nat.leb]. rewrite andb_comm. cbn [andb].
  assert (forall c k, n <= c -> growth c (repeat n k) = []) as X.
  { intros c j Hc. apply growth_none. apply Forall_forall. intros x Hx. apply repeat_spec in Hx as ->. exact Hc. }
  destruct (Z.ltb_spec cap n); rewrite X; auto; lia.
Qed.


(** * Recording changes nothing *)
Section Transparent.
  Context {S : Type} (rb : ReadBytes S) (I : S -> Prop) (HR : byte_reader rb I).
  Context (m : build) (un : nat -> list Z) (Hun : forall n, length (un n) = n).
  Definition Rtr (a : S * requests) (b : S) : Prop := fst a = b /\ I b.
  Definition anyal (_ _ : Z) : Prop := True.
  Lemma anyal_allows n : allows anyal n.
  Proof. intros _. split; intros; exact Logic.I. Qed.
  Lemma tr_rb : rb_ssim anyal Rtr (traced rb) rb.
  Proof.
    split.
    - intros [s q] ? [<- HI]. cbn [traced read_u8 fst snd]. destruct (by_u8 _ _ HR s HI) as [HI' Hb].
      destruct (read_u8 rb s) as [o s']. cbn [fst snd] in *. split; [split; [reflexivity|exact HI']|].
      destruct o as [a| | | |]; auto. exists a. repeat split; auto; apply (Hb a eq_refl).
    - intros n sz _ [s q] ? [<- HI]. cbn [traced rb_alloc fst snd] in *. rewrite (by_alloc _ _ HR). cbn. split; [split; [reflexivity|exact HI]|eauto].
  Qed.
  Lemma tr_eof : eof_ssim Rtr (traced rb) rb.
  Proof.
    intros [s q] ? [<- HI]. cbn [traced read_u8_or_eof fst snd] in *. destruct (by_eof _ _ HR s HI) as [HI' Hb].
    destruct (read_u8_or_eof rb s) as [o s']. cbn [fst snd] in *. split; [split; [reflexivity|exact HI']|].
    destruct o as [[a|]| | | |]; eauto. exists (Some a). repeat split; auto; apply (Hb a eq_refl).
  Qed.
  Lemma tr_bulk : bulk_ssim Rtr (traced rb) rb.
  Proof.
    split.
    - intros b1 b2 Hl Hb [s q] ? [<- HI]. cbn [traced read_into fst snd] in *.
      destruct (by_into _ _ HR s b2 HI ltac:(unfold len in *; lia)) as [HI' E]. rewrite (E b1 Hl).
      destruct (read_into rb b2 s) as [o s']. cbn [fst snd] in *. split; [split; [reflexivity|exact HI']|]. destruct o; eauto.
    - intros n Hn [s q] ? [<- HI]. cbn [traced skip fst snd] in *.
      pose proof (by_skip _ _ HR s n HI Hn) as HI'. destruct (skip rb n s) as [o s']. cbn [fst snd] in *. split; [split; [reflexivity|exact HI']|]. destruct o; eauto.
  Qed.
  Lemma ssim_both {A} (c1 : M (S * requests) A) c2 s q : ssim Rtr eq c1 c2 -> I s ->
    fst (c1 (s, q)) = fst (c2 s) /\ fst (snd (c1 (s, q))) = snd (c2 s).
  Proof.
    intros H HI. destruct (H (s, q) s (conj eq_refl HI)) as [[E _] Ho]. split; [|exact E].
    destruct (fst (c1 (s, q))); try (symmetry; exact Ho). destruct Ho as (? & Ho & <-). symmetry. exact Ho.
  Qed.

  Theorem traced_block ty n s q : 0 <= n < 2 ^ 32 -> I s ->
    fst (read_metadata_block (traced rb) m un ty n (s, q)) = fst (read_metadata_block rb m un ty n s)
    /\ fst (snd (read_metadata_block (traced rb) m un ty n (s, q))) = snd (read_metadata_block rb m un ty n s).
  Proof.
    intros Hn HI. apply ssim_both; [|exact HI]. apply (read_metadata_block_ssim anyal); auto using tr_rb, tr_bulk, anyal_allows.
  Qed.
  Theorem traced_header s q : I s ->
    fst (read_metadata_block_with_header (traced rb) m un (s, q)) = fst (read_metadata_block_with_header rb m un s)
    /\ fst (snd (read_metadata_block_with_header (traced rb) m un (s, q))) = snd (read_metadata_block_with_header rb m un s).
  Proof.
    intros HI. apply ssim_both; [|exact HI]. apply (read_metadata_block_with_header_ssim anyal); auto using tr_rb, tr_bulk, anyal_allows.
  Qed.
  Theorem traced_iterator n s q : I s ->
    fst (nexts (mr_next (traced rb) m un) n (mr_new (s, q))) = fst (nexts (mr_next rb m un) n (mr_new s)).
  Proof.
    intros HI. unfold nexts. apply (history_all_ssim (Rmr Rtr)).
    - apply Forall_forall. intros c _. apply (mr_next_ssim anyal); auto using tr_rb, tr_bulk, anyal_allows.
    - split; [split; [reflexivity|exact HI]|reflexivity].
  Qed.
  Theorem traced_frame fuel buffer s q : I s ->
    fst (read_next_or_eof (traced rb) m fuel buffer (s, q)) = fst (read_next_or_eof rb m fuel buffer s)
    /\ fst (snd (read_next_or_eof (traced rb) m fuel buffer (s, q))) = snd (read_next_or_eof rb m fuel buffer s).
  Proof.
    intros HI. apply ssim_both; [|exact HI]. apply (read_next_or_eof_ssim anyal); auto using tr_rb, tr_eof. intros; exact Logic.I.
  Qed.
  Theorem traced_open fuel opts s q : I s ->
    opened_alike (fun r1 r2 => forall fuel' calls,
        fst (history_all (session_step (traced rb) m fuel') calls (mkSession r1 None))
        = fst (history_all (session_step rb m fuel') calls (mkSession r2 None)))
      (fst (new_ext (traced rb) m un fuel opts (s, q))) (fst (new_ext rb m un fuel opts s)).
  Proof.
    intros HI.
    destruct (new_ext_ssim anyal Rtr (traced rb) rb m un un Hun Hun tr_rb tr_bulk anyal_allows fuel opts (s, q) s (conj eq_refl HI)) as [_ H].
    unfold opened_alike, discard. destruct (fst (new_ext (traced rb) m un fuel opts (s, q))) as [r1|e|w|w|]; try (rewrite H; reflexivity).
    destruct H as (r2 & -> & HR'). pose proof HR' as (E1 & E2 & _). split; [exact E1|]. split; [exact E2|].
    intros fuel' calls. apply (history_all_ssim (Rses Rtr)).
    + apply Forall_forall. intros c _. apply (session_ssim _ _ _ m fuel' anyal); auto using tr_rb, tr_eof. intros; exact Logic.I.
    + split; [exact HR'|exact Logic.I].
  Qed.
End Transparent.

(** A file from opening it to the last call. *)
Theorem whole_requests {S} (rb : ReadBytes S) I : byte_reader rb I ->
  forall m un, (forall n, length (un n) = n) -> forall fuel opts s q0 r inp,
  I s -> fst (new_ext (traced rb) m un fuel opts (s, q0)) = Ok r -> fr_blocks r = Ok inp ->
  exists q1, snd inp = q0 ++ q1 /\ Forall some_block_request q1
    /\ forall fuel' calls, exists s' q2,
      fr_blocks (drop_samples (snd (history_all (session_step (traced rb) m fuel') calls (mkSession r None)))) = Ok (s', q0 ++ q1 ++ q2)
      /\ Forall frame_request q2.
Proof.
  intros HR m un Hun fuel opts s q0 r inp HI Er Ei.
  destruct (new_ext_kept rb I HR m un Hun al_any q0 fuel opts s allows_any HI) as [_ H]. specialize (H r Er).
  unfold fr_blocks in Ei. destruct (fr_input r) as [x|x] eqn:Ef; [injection Ei as <-|discriminate].
  destruct H as [HIx (q1 & E1 & H1)]. exists q1. split; [exact E1|]. split.
  { eapply Forall_impl; [|exact H1]. intros [c sz] Hc. exact Hc. }
  intros fuel' calls. destruct x as [s1 q1']. cbn [fst snd] in *. subst q1'.
  destruct (session_requests rb I HR m fuel' r s1 (q0 ++ q1) calls) as (s' & q2 & E2 & H2); [unfold fr_blocks; rewrite Ef; reflexivity|exact HIx|].
  exists s', q2. rewrite E2, <- app_assoc. split; [reflexivity|exact H2].
Qed.
Theorem source_reader_ex m sc : Forall contract_ok sc -> exists I, byte_reader (br_rb m) I /\ I (br_new sc).
Proof. intros H. exists (source_ok sc). split; [apply source_reader|apply source_start, H]. Qed.
Theorem memory_reader_ex m data : bytes_ok data -> len data < 2 ^ 63 -> exists I, byte_reader (cu_rb m) I /\ I (mkCursor data 0).
Proof.
  intros H1 H2. exists cursor_ok. split; [apply memory_reader|]. exists data, []. cbn. repeat split; assumption.
Qed.
Theorem recycled_none {S} (rb : ReadBytes S) I t D : byte_reader rb I -> stream rb t D ->
  forall m fuel bs buffer s q0 s' q l,
  blocks_read (traced rb) m fuel buffer (s, q0) bs (Ok None) (s', q) ->
  I s -> D s l -> (length l < fuel)%nat -> vec_ok buffer ->
  Forall (fun b => block_samples b <= v_cap buffer) bs -> q = q0.
Proof.
  intros HR HS m fuel bs buffer s q0 s' q l H HI HD Hf Hv Hb.
  rewrite (recycled rb I HR m fuel t D HS bs buffer s q0 s' q l H HI HD Hf Hv), growth_none, app_nil_r; [reflexivity|].
  apply Forall_map. exact Hb.
Qed.
Theorem recycled_once {S} (rb : ReadBytes S) I t D : byte_reader rb I -> stream rb t D ->
  forall m fuel bs s q0 s' q l n,
  blocks_read (traced rb) m fuel (mkVec [] 0) (s, q0) bs (Ok None) (s', q) ->
  I s -> D s l -> (length l < fuel)%nat ->
  bs <> [] -> 0 < n -> Forall (fun b => block_samples b = n) bs -> q = q0 ++ [(n, 4)].
Proof.
  intros HR HS m fuel bs s q0 s' q l n H HI HD Hf Hne Hn Hb.
  rewrite (recycled rb I HR m fuel t D HS bs _ s q0 s' q l H HI HD Hf) by (unfold vec_ok; cbn; lia). f_equal. cbn [v_cap].
  replace (map block_samples bs) with (repeat n (length bs)).
  - rewrite growth_same. destruct bs; [contradiction|]. cbn [length]. destruct (Z.ltb_spec 0 n); [reflexivity|lia].
  - clear - Hb. induction Hb as [|b bs E _ IH]; cbn [length repeat map]; [reflexivity|]. rewrite E, IH. reflexivity.
Qed.
