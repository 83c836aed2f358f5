(** Errors that the decoder finds in the data, part 3: frames of any stream. *)
From Verif Require Export ProofPlay ProofProgress.
From Verif Require Import SpecReader.

Section Stream.
  Context {S : Type} (rb : ReadBytes S) (t : tail) (D : S -> list Z -> Prop) (HS : stream rb t D).
  Context (m : build) (fuel : nat).
  Notation next := (read_next_or_eof rb m fuel).
  Notation Hrs := (stream_rb_sim rb t D HS no_esc).
  Notation Hes := (stream_eof_sim rb t D HS no_esc).
  Notation Hbytes := (st_bytes rb t D HS).

  Theorem next_finds buffer st l e st' : m = Debug \/ no_zero_run (2 ^ 32 - 1) (bytes_bits l) ->
    D st l -> (length l < fuel)%nat -> ours e -> next buffer st = (Err e, st') ->
    exists w rest, l = w ++ rest /\ frame_fault e w /\ D st' rest.
  Proof.
    intros Hq HD Hf He E. pose proof (Hbytes _ _ HD) as Hb.
    pose proof (frame_left_full rb t D Hrs Hes Hbytes m fuel st _ buffer HD Hf) as H. cbv zeta in H.
    rewrite E in H. cbn [fst snd] in H. destruct H as [Ef H]. specialize (H He).
    destruct (fl_frame t m l l) as [o l'] eqn:E1. cbn [fst snd] in *. subst o.
    apply frame_finds in E1 as (w & -> & Hw); auto. exists w, l'. auto.
  Qed.

  Theorem next_explained buffer st l e st' : m = Debug \/ no_zero_run (2 ^ 32 - 1) (bytes_bits l) ->
    D st l -> (length l < fuel)%nat -> (forall k, e <> IoError k) -> next buffer st = (Err e, st') ->
    exists w rest, l = w ++ rest /\ frame_fault e w /\ D st' rest.
  Proof. intros Hq HD Hf He. apply next_finds; auto. destruct e; cbn; [exact (He _ eq_refl)|exact Logic.I..]. Qed.

  Theorem next_cases buffer st l : no_zero_run (2 ^ 32 - 1) (bytes_bits l) ->
    D st l -> (length l < fuel)%nat -> (1 < fuel)%nat ->
    let r := next buffer st in
    (exists h chs w rest b, l = w ++ rest /\ frame_code h chs w
       /\ fst r = Ok (Some b) /\ block_shows b h chs /\ D (snd r) rest)
    \/ (exists e w rest, l = w ++ rest /\ frame_fault e w /\ fst r = Err e /\ D (snd r) rest)
    \/ (t = TEof /\ (length l <= 1)%nat /\ fst r = Ok None /\ D (snd r) [])
    \/ (incomplete l /\ fst r = Err (tail_error t)).
  Proof.
    intros Hq HD Hf H1. cbv zeta. pose proof (next_progress rb t D HS m fuel buffer st l HD Hf H1) as Hp. cbv zeta in Hp.
    pose proof (frame_safe rb t D HS m fuel buffer st l (or_intror Hq) HD Hf) as Hv.
    destruct (next buffer st) as [o st'] eqn:E. cbn [fst snd] in *.
    assert (forall e, ours e -> o = Err e -> exists w rest, l = w ++ rest /\ frame_fault e w /\ D st' rest) as Hours.
    { intros e He ->. eapply next_finds; eauto. }
    destruct o as [[b|]|[k|w|w]|w|w|]; try (destruct Hv as [[? Hv]|[? Hv]]; discriminate Hv).
    - left. destruct (frame_only rb t D HS m fuel buffer st l b st' (or_intror Hq) HD Hf E) as (h & chs & w & rest & El & HD' & Hw & Hs).
      exists h, chs, w, rest, b. auto.
    - right; right; left. tauto.
    - right; right; right. rewrite Hp. split; [|reflexivity].
      intros w rest ->. split.
      + intros h chs Hw. destruct (frame_decoded rb t D HS m fuel buffer st h chs w rest Hw HD Hf) as (b & st2 & E2 & _). congruence.
      + intros e Hw. destruct (next_reports rb t D HS m fuel buffer st e w rest Hw HD Hf) as (st2 & E2 & _).
        assert (e = IoError k) as -> by congruence. apply fault_ours in Hw. exact Hw.
    - right; left. destruct (Hours (FormatError w) Logic.I eq_refl) as (w' & rest & El & Hw & HD'). eauto 8.
    - right; left. destruct (Hours (Unsupported w) Logic.I eq_refl) as (w' & rest & El & Hw & HD'). eauto 8.
  Qed.
End Stream.

(** A byte string starts with one frame or one fault at most. *)
Lemma fault_unique e w r e' w' r' : frame_fault e w -> frame_fault e' w' -> bytes_ok r -> bytes_ok r' ->
  w ++ r = w' ++ r' -> e = e' /\ w = w'.
Proof.
  intros H H' Hr Hr' E. pose proof (frame_reports TEof Debug e w r H Hr) as E1.
  pose proof (frame_reports TEof Debug e' w' r' H' Hr') as E2. rewrite E, E2 in E1. injection E1 as -> ->.
  split; [reflexivity|]. eapply app_inv_tail, E.
Qed.
Lemma fault_or_frame e w r h chs w' r' : frame_fault e w -> frame_code h chs w' -> bytes_ok r -> bytes_ok r' ->
  w ++ r <> w' ++ r'.
Proof.
  intros H H' Hr Hr' E. pose proof (frame_reports TEof Debug e w r H Hr) as E1.
  pose proof (frame_complete TEof Debug h chs w' r' Hr' H') as E2. rewrite E, E2 in E1. discriminate.
Qed.

(** Frames and headers with another checksum. *)
Lemma fault_of_frame h chs w a b a' b' : frame_code h chs (w ++ [a; b]) ->
  0 <= a' < 256 -> 0 <= b' < 256 -> [a'; b'] <> [a; b] ->
  frame_fault (FormatError "frame CRC mismatch") (w ++ [a'; b']).
Proof.
  intros (hw & bps & bits & pad & body & crc & Hh & Hw & Hc & Hbody & Ebody & Hpad & Hcrc & E) Ha Hb Hne.
  assert (0 <= crc < 2 ^ 16) as Hr by (destruct Hcrc; assumption).
  rewrite app_assoc in E. destruct (app_inj_length _ _ _ _ E) as [-> Eab].
  { apply (f_equal (@length Z)) in E. rewrite !app_length in E. rewrite !app_length. cbn [length] in E. lia. }
  rewrite <- app_assoc. eapply fault_crc; eauto. intros Ec. apply Hne. injection Eab as -> ->. f_equal; [|f_equal]; lia.
Qed.
