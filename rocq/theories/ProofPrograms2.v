(** Programs that use the crate: tags, containers, fuzz targets; C65, C67 to C69. *)
From Verif Require Export ProofPrograms.
From Coq Require String.
From Verif Require Import SpecReader.

(** * Error texts *)

Lemma append_inj a b c : String.append a b = String.append a c -> b = c.
Proof. induction a as [|x a IH]; cbn; [auto|]. intros E. injection E as E. auto. Qed.
Theorem display_determines io e e' : (forall k, e <> IoError k) -> (forall k, e' <> IoError k) ->
  error_display io e = error_display io e' -> e = e'.
Proof.
  intros H H' E. destruct e as [k|w|w]; [destruct (H k eq_refl)| |]; (destruct e' as [k|w'|w']; [destruct (H' k eq_refl)| |]);
    unfold error_display in E; try (apply append_inj in E; congruence); cbn in E; discriminate E.
Qed.
Theorem cause_only_io e k : error_cause e = Some k <-> e = IoError k.
Proof. destruct e; cbn; split; intros E; congruence. Qed.

(** * Tags *)

Lemma text_inj c c' : comment_text c = comment_text c' -> len (fst c) = len (fst c') -> c = c'.
Proof.
  destruct c as [n v], c' as [n' v']. unfold comment_text, len. cbn [fst snd]. intros E L.
  apply app_inj_length in E as [-> E]; [|lia]. injection E as ->. reflexivity.
Qed.
Lemma vorbis_inj v cs v' cs' : vorbis_of v cs = vorbis_of v' cs' -> v = v' /\ cs = cs'.
Proof.
  unfold vorbis_of. intros E. injection E as -> E. split; [reflexivity|]. revert cs' E.
  induction cs as [|c cs IH]; intros [|c' cs'] E; try discriminate E; [reflexivity|]. cbn in E. injection E as E1 E2 E3.
  f_equal; [apply text_inj; assumption|auto].
Qed.

Lemma present_length entries : (length (present entries) <= length entries)%nat.
Proof. unfold present. induction entries as [|[c|] es IH]; cbn [flat_map app length]; lia. Qed.
Lemma comment_block_long last v cs w : block_code last (MbVorbisComment (vorbis_of v cs)) w -> (length cs <= length w)%nat.
Proof.
  intros (ty & body & Hc & _ & ->). remember (MbVorbisComment (vorbis_of v cs)) as b eqn:Eb.
  destruct Hc as [| | |vendor entries H1 H2 H3| |]; try discriminate Eb.
  assert (vorbis_of vendor (present entries) = vorbis_of v cs) as E3 by congruence.
  apply vorbis_inj in E3 as [_ <-]. clear Eb. pose proof (present_length entries) as Hp. rewrite !app_length.
  assert (length entries <= length (comments_bytes vendor entries))%nat; [|lia].
  unfold comments_bytes. rewrite !app_length.
  assert (length entries <= length (flat_map (fun e => with_length (entry_text e)) entries))%nat; [|lia]. clear.
  induction entries as [|e es IH]; [cbn; lia|]. cbn [flat_map length]. rewrite app_length. unfold with_length at 1. rewrite app_length, le_bytes_length. lia.
Qed.
Lemma blocks_comment_long v cs bs w : blocks_code bs w -> In (MbVorbisComment (vorbis_of v cs)) bs -> (length cs <= length w)%nat.
Proof.
  induction 1 as [b w Hb|b w bs w' Hb HB IH]; intros Hi.
  - destruct Hi as [->|[]]. eapply comment_block_long, Hb.
  - rewrite app_length. destruct Hi as [->|Hi]; [apply comment_block_long in Hb; lia|]. specialize (IH Hi). lia.
Qed.
Lemma well_formed_comments si v cs w : well_formed si (Some (vorbis_of v cs)) w -> (length cs <= length w)%nat.
Proof.
  intros (bs & blocks & -> & HB & _ & Ho). inversion Ho as [|bs1 bs2 vc H1 H2]. subst.
  rewrite app_length. enough (length cs <= length blocks)%nat by lia.
  eapply blocks_comment_long; [exact HB|]. right. apply in_or_app. right. left. reflexivity.
Qed.

Section Tags.
  Context (m : build) (un : nat -> list Z) (Hun : forall n, length (un n) = n) (fuel : nat).

  Lemma print_yields path cs : forall turns it, yields tags_next it cs -> (length cs < turns)%nat ->
    print_tags turns path it = Ok (tag_lines path cs).
  Proof.
    induction cs as [|[n v] cs IH]; intros [|turns] it HY Ht; cbn [length] in Ht; try lia; cbn [print_tags].
    - apply yields_nil in HY as (it' & E & _). rewrite E. reflexivity.
    - apply yields_cons in HY as (it' & E & HY). rewrite E, (IH turns it' HY) by lia.
      cbn [obind]. unfold tag_lines, comment_text. cbn [flat_map fst snd]. rewrite <- !app_assoc. reflexivity.
  Qed.

  Theorem tags_printed turns fs path t w rest si vc cs : file_at fs path t (w ++ rest) -> (length (w ++ rest) < fuel)%nat ->
    (length cs < turns)%nat -> well_formed si vc w ->
    match vc with Some v => exists vendor, v = vorbis_of vendor cs | None => cs = [] end ->
    tags_program m un fuel turns fs path = Ok (tag_lines path cs).
  Proof.
    intros Hat Hf Ht Hw Hvc. pose proof Hat as (script & Efs & Hd).
    destruct (path_opens m un Hun fuel fs path t w rest si vc Hat Hf Hw) as (r & inp & E & _ & Ev & _).
    unfold tags_program. rewrite E. cbn [expect obind]. unfold flac_open in E. rewrite Efs in E.
    destruct (tags_of_reader (br_rb m) t (buffered t) (br_stream m t) m un Hun fuel default_options (br_new script) (w ++ rest) r (br_new_buffered t script _ Hd) Hf E) as (vendor & cs' & _ & Hs & Hv).
    rewrite Ev in Hv. assert (cs' = cs) as ->.
    { destruct vc as [v|]; [|destruct Hv; congruence]. destruct Hv as (v1 & _ & _ & E1), Hvc as (v2 & E2). rewrite E1 in E2.
      apply vorbis_inj in E2. apply E2. }
    apply print_yields; [|exact Ht]. intros n. apply (proj1 (proj2 Hs) n).
  Qed.
  Theorem tags_unopened turns fs path t l : file_at fs path t l -> (length l < fuel)%nat -> len l < Z.of_nat turns ->
    (exists si vc w rest cs, l = w ++ rest /\ well_formed si vc w
       /\ match vc with Some v => exists vendor, v = vorbis_of vendor cs | None => cs = [] end
       /\ tags_program m un fuel turns fs path = Ok (tag_lines path cs))
    \/ (exists why e, tags_program m un fuel turns fs path = Panic why /\ file_unopened t l e).
  Proof.
    intros Hat Hf Ht. destruct (path_fails m un Hun fuel fs path t l Hat Hf) as [(si & vc & w & rest & -> & Hw)|(e & E & Hu)].
    - left. pose proof Hat as (script & Efs & Hd).
      destruct (path_opens m un Hun fuel fs path t w rest si vc Hat Hf Hw) as (r & inp & E & _ & Ev & _).
      unfold flac_open in E. rewrite Efs in E.
      destruct (tags_of_reader (br_rb m) t (buffered t) (br_stream m t) m un Hun fuel default_options (br_new script) (w ++ rest) r (br_new_buffered t script _ Hd) Hf E) as (vendor & cs & _ & _ & Hv).
      rewrite Ev in Hv. exists si, vc, w, rest, cs. split; [reflexivity|]. split; [exact Hw|].
      assert (match vc with Some v => exists vendor, v = vorbis_of vendor cs | None => cs = [] end) as Hvc.
      { destruct vc as [v|]; [|apply Hv]. destruct Hv as (v1 & _ & _ & E1). eauto. }
      split; [exact Hvc|]. eapply tags_printed; eauto. unfold len in Ht. rewrite app_length in Ht.
      destruct vc as [v|]; [|rewrite Hvc; cbn; lia]. destruct Hvc as [v1 ->]. apply well_formed_comments in Hw. lia.
    - right. unfold tags_program. rewrite E. cbn. eauto.
  Qed.
End Tags.

(** * Frames in containers *)

Section Frames.
  Context {S : Type} (rb : ReadBytes S) (t : tail) (D : S -> list Z -> Prop) (HS : stream rb t D).
  Context (m : build) (fuel : nat).

  Lemma pairs_written spec ps : forall turns ss acc, yields (stereo_next m) ss ps -> (length ps < turns)%nat ->
    write_pairs m turns ss (Some (spec, acc)) = (Ok tt, Some (spec, acc ++ flat_pairs ps)).
  Proof.
    induction ps as [|[x y] ps IH]; intros [|turns] ss acc HY Ht; cbn [length] in Ht; try lia; cbn [write_pairs].
    - apply yields_nil in HY as (ss' & E & _). unfold bind, call_on. rewrite E. cbn. rewrite app_nil_r. reflexivity.
    - apply yields_cons in HY as (ss' & E & HY). unfold bind, call_on. rewrite E. cbn [wav_write].
      match goal with |- write_pairs _ _ _ ?w = _ => change w with (Some (spec, (acc ++ [x]) ++ [y])) end.
      rewrite IH by (auto; lia). rewrite <- !app_assoc. reflexivity.
  Qed.

  Lemma frame_written buffer s spec acc h chs w rest : frame_code h chs w -> stereo_frame (h, chs) ->
    D s (w ++ rest) -> (length (w ++ rest) < fuel)%nat ->
    exists buffer' s', write_frame m fuel rb buffer s (Some (spec, acc))
        = (Ok (buffer', s'), Some (spec, acc ++ interleave (Z.to_nat (h_size h)) chs)) /\ D s' rest.
  Proof.
    intros Hw Hst HD Hf.
    destruct (frame_decoded rb t D HS m fuel buffer s h chs w _ Hw HD Hf) as (b & s1 & E & Hb & HD').
    pose proof (decoded_holds rb t D HS m fuel _ s h chs w _ b s1 Hw HD Hf E) as Hh.
    destruct (stereo_block b h chs Hb Hh Hst) as (st & ps & Est & HY & Hl & Hps).
    unfold write_frame, bind at 1, call_on, expect_m. rewrite E. cbn [expect]. unfold bind at 1, lift at 1. cbn [expect_some].
    unfold bind at 1, lift at 1. rewrite Est. unfold bind at 1.
    assert (1 <= block_duration b <= 65535) as Hd by apply Hh.
    rewrite (pairs_written spec ps _ st acc (HY m)) by (unfold len in Hl; lia). rewrite Hps. unfold ret. eauto.
  Qed.

  (** Or else a panic, before anything is written. *)
  Lemma frame_written_or buffer s l spec acc : no_zero_run (2 ^ 32 - 1) (bytes_bits l) -> D s l -> (length l < fuel)%nat -> (1 < fuel)%nat ->
    (exists h chs w rest buffer' s', l = w ++ rest /\ frame_code h chs w /\ stereo_frame (h, chs)
       /\ write_frame m fuel rb buffer s (Some (spec, acc))
          = (Ok (buffer', s'), Some (spec, acc ++ interleave (Z.to_nat (h_size h)) chs)) /\ D s' rest)
    \/ (exists why, write_frame m fuel rb buffer s (Some (spec, acc)) = (Panic why, Some (spec, acc))).
  Proof.
    intros Hz HD Hf H1. pose proof (ProofFault3.next_cases rb t D HS m fuel buffer s l Hz HD Hf H1) as H. cbv zeta in H.
    destruct (read_next_or_eof rb m fuel buffer s) as [o s'] eqn:E. cbn [fst snd] in H.
    destruct H as [(h & chs & w & rest & b & -> & Hw & -> & Hb & _)|[(e & w & rest & _ & _ & -> & _)|[(_ & _ & -> & _)|(_ & ->)]]].
    - destruct (Z.eq_dec (channel_count (h_assignment h)) 2) as [Hst|Hst].
      + left. destruct (frame_written buffer s spec acc h chs w rest Hw Hst HD Hf) as (buffer' & s2 & E2 & HD2).
        exists h, chs, w, rest, buffer', s2. auto.
      + right. unfold write_frame, bind, call_on, expect_m. rewrite E. cbn [expect lift expect_some].
        destruct (no_stereo b) as (why & Ew); [destruct Hb as (_ & _ & -> & _); exact Hst|]. unfold lift. rewrite Ew. eauto.
    - right. unfold write_frame, bind, call_on, expect_m. rewrite E. cbn. eauto.
    - right. unfold write_frame, bind, call_on, expect_m. rewrite E. cbn. eauto.
    - right. unfold write_frame, bind, call_on, expect_m. rewrite E. cbn. eauto.
  Qed.
End Frames.

(** * Ogg *)

Lemma at_start p : bytes_ok p -> len p < 2 ^ 63 -> cursor_at (mkCursor p 0) p.
Proof. intros Hb Hl. exists []. cbn. auto. Qed.

Section Ogg.
  Context (m : build) (un : nat -> list Z) (Hun : forall n, length (un n) = n) (fuel : nat).
  Notation cu := (cu_rb m).
  Notation HS := (cu_stream m).

  Lemma be16_result st l : cursor_at st l ->
    match read_be_u16 cu st with
    | (Ok v, st') => exists rest, l = be_bytes 2 v ++ rest /\ 0 <= v < 2 ^ 16 /\ cursor_at st' rest
    | (Err _, _) => forall v rest, 0 <= v < 2 ^ 16 -> l <> be_bytes 2 v ++ rest
    | _ => False
    end.
  Proof.
    intros HD.
    pose proof (parses_result cu TEof cursor_at HS (read_be_u16 cu) (read_be_u16 (fl_rb TEof)) (fun v w => w = be_bytes 2 v /\ 0 <= v < 2 ^ 16) st l
      (sim_conseq no_esc no_esc _ _ eq _ _ (fun _ h => h) (fun _ _ h => proj1 h) (read_be_u16_sim _ _ _ _ (stream_rb_sim cu TEof cursor_at HS no_esc)))
      (be16_parses TEof) HD) as H.
    destruct (read_be_u16 cu st) as [[v|e| | |] st']; auto.
    - destruct H as (w & rest & -> & [-> Hv] & HD'). eauto.
    - intros v rest Hv El. apply (H v (be_bytes 2 v) rest El). auto.
  Qed.

  Lemma skip_result st l n : cursor_at st l -> 0 <= n < 2 ^ 32 ->
    (exists l1 l2 st', l = l1 ++ l2 /\ len l1 = n /\ skip cu n st = (Ok tt, st') /\ cursor_at st' l2)
    \/ (len l < n /\ exists e st', skip cu n st = (Err e, st')).
  Proof.
    intros HD Hn. destruct (Z_lt_le_dec (len l) n) as [Hl|Hl].
    - right. split; [exact Hl|]. destruct (st_skip_end _ _ _ HS st l n HD ltac:(lia)) as (st' & E). eauto.
    - left. rewrite <- (firstn_skipn (Z.to_nat n) l) in HD. unfold len in Hl.
      assert (len (firstn (Z.to_nat n) l) = n) as Hf by (unfold len; rewrite firstn_length; lia).
      destruct (st_skip _ _ _ HS st _ _ HD ltac:(lia)) as (st' & E & HD'). rewrite Hf in E.
      exists (firstn (Z.to_nat n) l), (skipn (Z.to_nat n) l), st'. rewrite firstn_skipn. auto.
  Qed.

  (** The first packet. *)
  Definition first_code (first : list Z) (si : stream_info) (n : Z) : Prop :=
    exists lead native last w x, first = lead ++ be_bytes 2 n ++ native ++ w ++ x
      /\ length lead = 7%nat /\ length native = 4%nat /\ 0 <= n < 2 ^ 16 /\ block_code last (MbStreamInfo si) w.
  Lemma first_reads first si n : bytes_ok first -> len first < 2 ^ 63 -> first_code first si n ->
    read_first_packet m un first = Ok (si, n).
  Proof.
    intros Hb Hl (lead & native & last & w & x & -> & H7 & H4 & Hn & Hc).
    pose proof (at_start _ Hb Hl) as HD. unfold read_first_packet, bind, expect_m.
    destruct (st_skip _ _ _ HS _ _ _ HD ltac:(unfold len; lia)) as (s1 & E1 & HD1). unfold len in E1. rewrite H7 in E1. change (Z.of_nat 7) with 7 in E1.
    rewrite E1. cbn [expect]. pose proof (be16_result s1 _ HD1) as H16.
    destruct (read_be_u16 cu s1) as [[v|e| | |] s2]; try contradiction.
    2:{ exfalso. exact (H16 n _ Hn eq_refl). }
    destruct H16 as (rest & E & Hv & HD2). cbn [expect].
    apply app_inj_length in E as [E <-]; [|rewrite !be_bytes_length; reflexivity].
    assert (v = n) as ->.
    { cbn [be_bytes app] in E. injection E as E E'. lia. }
    destruct (st_skip _ _ _ HS _ _ _ HD2 ltac:(unfold len; lia)) as (s3 & E3 & HD3). unfold len in E3. rewrite H4 in E3. change (Z.of_nat 4) with 4 in E3.
    rewrite E3. cbn [expect]. destruct (header_accepts cu TEof cursor_at HS m un Hun s3 last _ w x Hc HD3) as (s4 & E4 & _).
    rewrite E4. reflexivity.
  Qed.
  Lemma first_cases first : bytes_ok first -> len first < 2 ^ 63 ->
    (exists si n, first_code first si n /\ read_first_packet m un first = Ok (si, n))
    \/ (exists why, read_first_packet m un first = Panic why).
  Proof.
    intros Hb Hl. pose proof (at_start _ Hb Hl) as HD. unfold read_first_packet, bind, expect_m.
    destruct (skip_result _ _ 7 HD ltac:(lia)) as [(lead & l1 & s1 & -> & H7 & E1 & HD1)|(_ & e & s1 & E1)]; rewrite E1; cbn [expect fst]; [|eauto].
    pose proof (be16_result s1 _ HD1) as H16. destruct (read_be_u16 cu s1) as [[v|e| | |] s2]; try contradiction; cbn [expect fst]; [|eauto].
    destruct H16 as (l2 & -> & Hv & HD2).
    destruct (skip_result _ _ 4 HD2 ltac:(lia)) as [(native & l3 & s3 & -> & H4 & E3 & HD3)|(_ & e & s3 & E3)]; rewrite E3; cbn [expect fst]; [|eauto].
    pose proof (header_result cu TEof cursor_at HS m un Hun s3 l3 HD3) as Hh.
    destruct (read_metadata_block_with_header cu m un s3) as [[b|e| | |] s4]; try contradiction; cbn [expect fst]; [|eauto].
    destruct Hh as (last & w & x & -> & Hc & _). destruct b as [si| | | |]; cbn; eauto.
    left. exists si, v. split; [|reflexivity]. exists lead, native, last, w, x. unfold len in *. repeat split; auto; lia.
  Qed.

  (** Header packets. *)
  Definition header_packet (p : list Z) : Prop := exists last b w x, p = w ++ x /\ block_code last b w.
  Notation packet_ok := (packet_ok fuel).
  Lemma headers_skipped headers rest : Forall packet_ok headers -> Forall header_packet headers ->
    skip_headers m un (length headers) (headers ++ rest) = Ok rest.
  Proof.
    induction 1 as [|p headers (Hb & Hl & _) _ IH]; intros HF; [reflexivity|]. inversion HF as [|? ? (last & b & w & x & -> & Hc) HF']; subst.
    cbn [length skip_headers app].
    destruct (header_accepts cu TEof cursor_at HS m un Hun _ last _ w x Hc (at_start _ Hb Hl)) as (s4 & E4 & _).
    rewrite E4. cbn. apply IH, HF'.
  Qed.
  Lemma headers_cases n : forall packets, Forall packet_ok packets ->
    (exists headers rest, packets = headers ++ rest /\ length headers = n /\ Forall header_packet headers
       /\ skip_headers m un n packets = Ok rest)
    \/ (exists why, skip_headers m un n packets = Panic why).
  Proof.
    induction n as [|n IH]; intros packets HF; [left; exists [], packets; auto|]. cbn [skip_headers].
    inversion HF as [|p ps (Hb & Hl & _) HF']; [right; eauto|]; subst.
    pose proof (header_result cu TEof cursor_at HS m un Hun _ p (at_start p Hb Hl)) as Hh.
    destruct (read_metadata_block_with_header cu m un (mkCursor p 0)) as [[b|e| | |] s4]; try contradiction; cbn [expect fst obind]; [|eauto].
    destruct Hh as (last & w & x & Ep & Hc & _).
    destruct (IH ps HF') as [(headers & rest & -> & Hn & Hh & E)|(why & E)]; rewrite E; [left|right; eauto].
    exists (p :: headers), rest. cbn [length]. repeat split; auto. constructor; [|exact Hh]. exists last, b, w, x. auto.
  Qed.

  (** Audio packets. *)
  Lemma packets_written spec parts packets : Forall2 packet_code parts packets -> Forall packet_ok packets ->
    Forall stereo_frame (concat parts) -> forall buffer acc,
    ogg_frames m fuel buffer packets (Some (spec, acc)) = (Ok tt, Some (spec, acc ++ pcm_of (concat parts))).
  Proof.
    induction 1 as [|part p parts packets Hp HP IH]; intros HF Hst buffer acc; cbn [ogg_frames concat pcm_of flat_map].
    - rewrite app_nil_r. reflexivity.
    - inversion HF as [|? ? (Hb & Hl & Hf) HF']; subst. cbn [concat] in Hst. apply Forall_app in Hst as [Hs1 Hs2].
      destruct Hp as [|h chs w rest Hw].
      + cbn [len length Z.of_nat Z.eqb app]. apply IH; auto.
      + pose proof (frame_long _ _ _ Hw) as [Hlong _].
        replace (len (w ++ rest) =? 0) with false by (unfold len; rewrite app_length; lia).
        inversion Hs1 as [|? ? Hs _]; subst.
        destruct (frame_written cu TEof cursor_at HS m fuel buffer _ spec acc h chs w rest Hw Hs (at_start _ Hb Hl) Hf) as (buffer' & s' & E & _).
        unfold bind. rewrite E. rewrite (IH HF' Hs2). rewrite <- app_assoc. reflexivity.
  Qed.
  Lemma packets_cases spec packets : Forall packet_ok packets -> Forall (no_zero_bytes (2 ^ 29 - 1)) packets -> (1 < fuel)%nat ->
    forall buffer acc, exists parts, Forall stereo_frame (concat parts) /\
      ((Forall2 packet_code parts packets
        /\ ogg_frames m fuel buffer packets (Some (spec, acc)) = (Ok tt, Some (spec, acc ++ pcm_of (concat parts))))
       \/ (exists why first rest, packets = first ++ rest /\ Forall2 packet_code parts first
        /\ ogg_frames m fuel buffer packets (Some (spec, acc)) = (Panic why, Some (spec, acc ++ pcm_of (concat parts))))).
  Proof.
    induction 1 as [|p packets (Hb & Hl & Hf) HF IH]; intros HZ H1 buffer acc; cbn [ogg_frames].
    - exists []. cbn. rewrite app_nil_r. auto.
    - inversion HZ as [|? ? Hz HZ']; subst. destruct (len p =? 0) eqn:Ep.
      + assert (p = []) as -> by (destruct p; [reflexivity|discriminate Ep]).
        destruct (IH HZ' H1 buffer acc) as (parts & Hst & [(HP & E)|(why & first & rest & -> & HP & E)]).
        * exists ([] :: parts). cbn [concat app]. split; [exact Hst|]. left. split; [|exact E]. constructor; [constructor|exact HP].
        * exists ([] :: parts). cbn [concat app]. split; [exact Hst|]. right. exists why, ([] :: first), rest.
          split; [reflexivity|]. split; [|exact E]. constructor; [constructor|exact HP].
      + destruct (frame_written_or cu TEof cursor_at HS m fuel buffer (mkCursor p 0) p spec acc (no_zero_bits p Hb Hz) (at_start _ Hb Hl) Hf H1)
          as [(h & chs & w & x & buffer' & s' & -> & Hw & Hs & E & _)|(why & E)].
        * destruct (IH HZ' H1 buffer' (acc ++ interleave (Z.to_nat (h_size h)) chs)) as (parts & Hst & [(HP & E')|(why & first & rest & -> & HP & E')]).
          -- exists ([(h, chs)] :: parts). cbn [concat app pcm_of flat_map fst snd]. split; [constructor; assumption|]. left.
             split; [constructor; [constructor; assumption|exact HP]|]. unfold bind. rewrite E, E', <- app_assoc. reflexivity.
          -- exists ([(h, chs)] :: parts). cbn [concat app pcm_of flat_map fst snd]. split; [constructor; assumption|]. right.
             exists why, ((w ++ x) :: first), rest. split; [reflexivity|].
             split; [constructor; [constructor; assumption|exact HP]|]. unfold bind. rewrite E, E', <- app_assoc. reflexivity.
        * exists []. cbn [concat pcm_of flat_map]. rewrite app_nil_r. split; [constructor|]. right. exists why, [], (p :: packets).
          split; [reflexivity|]. split; [constructor|]. unfold bind. rewrite E. reflexivity.
  Qed.

  Lemma first_info first si n : first_code first si n -> streaminfo_fits si.
  Proof. intros (lead & native & last & w & x & _ & _ & _ & _ & (ty & body & Hc & _)). inversion Hc. assumption. Qed.

  Theorem ogg_decoded packets si frames : Forall packet_ok packets -> ogg_code si frames packets ->
    Forall stereo_frame frames ->
    decode_ogg m un fuel packets None = (Ok tt, audio si (pcm_of frames)).
  Proof.
    intros HF (first & headers & ap & lead & n & native & last & w & x & parts & -> & Efirst & H7 & H4 & Hn & Hn16 & Hc & HH & HP & ->) Hst.
    pose proof (Forall_inv HF) as (Hb & Hl & _). apply Forall_inv_tail, Forall_app in HF as [HFh HFa].
    assert (first_code first si n) as Hfc.
    { exists lead, native, last, w, x. pose proof (len_nonneg headers). repeat split; auto; lia. }
    unfold decode_ogg, bind at 1, lift at 1. rewrite (first_reads first si n Hb Hl Hfc). unfold bind at 1, lift.
    replace (Z.to_nat n) with (length headers) by (rewrite Hn; unfold len; lia).
    rewrite (headers_skipped headers ap HFh HH). cbn [wav_create put bind].
    rewrite (packets_written (spec_of si) parts ap HP HFa Hst). cbn [app]. rewrite (audio_spec si (first_info _ _ _ Hfc)). reflexivity.
  Qed.

  Theorem ogg_cases packets : Forall packet_ok packets -> Forall (no_zero_bytes (2 ^ 29 - 1)) packets -> (1 < fuel)%nat ->
    (exists si frames, ogg_code si frames packets /\ Forall stereo_frame frames
       /\ decode_ogg m un fuel packets None = (Ok tt, audio si (pcm_of frames)))
    \/ (exists why, decode_ogg m un fuel packets None = (Panic why, None))
    \/ (exists why si frames packets' rest, packets = packets' ++ rest /\ ogg_code si frames packets' /\ Forall stereo_frame frames
       /\ decode_ogg m un fuel packets None = (Panic why, audio si (pcm_of frames))).
  Proof.
    intros HF HZ H1. destruct packets as [|first packets]; [right; left; eexists; reflexivity|].
    pose proof (Forall_inv HF) as (Hb & Hl & _). apply Forall_inv_tail in HF as HF'. apply Forall_inv_tail in HZ as HZ'.
    unfold decode_ogg, bind, lift.
    destruct (first_cases first Hb Hl) as [(si & n & Hfc & E)|(why & E)]; rewrite E; [|eauto].
    destruct (headers_cases (Z.to_nat n) packets HF') as [(headers & rest & -> & Hn & Hh & E2)|(why & E2)]; rewrite E2; [|eauto].
    cbn [wav_create put]. apply Forall_app in HF' as [_ HFr]. apply Forall_app in HZ' as [_ HZr].
    pose proof (audio_spec si (first_info _ _ _ Hfc)) as Ha.
    destruct Hfc as (lead & native & last & w & x & Efirst & H7 & H4 & Hn16 & Hc).
    destruct (packets_cases (spec_of si) rest HFr HZr H1 (buffer_for si) []) as (parts & Hst & [(HP & E3)|(why & ap & rest' & -> & HP & E3)]).
    - left. exists si, (concat parts). split; [|split; [exact Hst|rewrite E3; cbn [app]; rewrite Ha; reflexivity]].
      exists first, headers, rest, lead, n, native, last, w, x, parts. unfold len. repeat split; auto; lia.
    - right. right. exists why, si, (concat parts), (first :: headers ++ ap), rest'. cbn [app]. rewrite <- app_assoc. split; [reflexivity|].
      split; [|split; [exact Hst|rewrite E3; cbn [app]; rewrite Ha; reflexivity]].
      exists first, headers, ap, lead, n, native, last, w, x, parts. unfold len. repeat split; auto; lia.
  Qed.
End Ogg.
