(** Parsing metadata on the list of bytes still to come. *)
From Verif Require Export SpecMeta ProofTimes.
From Verif Require Import SpecReader.

(** [c] accepts exactly the strings of [P], with that value, and never panics. *)
Definition parses {A} (c : M (list Z) A) (P : A -> list Z -> Prop) : Prop :=
  (forall l, bytes_ok l -> match c l with
     | (Ok a, rest) => exists w, l = w ++ rest /\ P a w
     | (Err _, _) => True
     | _ => False
     end)
  /\ forall a w rest, bytes_ok (w ++ rest) -> P a w -> c (w ++ rest) = (Ok a, rest).

Lemma parses_conseq {A} c (P Q : A -> list Z -> Prop) : parses c P -> (forall a w, bytes_ok w -> (P a w <-> Q a w)) -> parses c Q.
Proof.
  intros [H1 H2] HPQ. split.
  - intros l Hl. specialize (H1 l Hl). destruct (c l) as [[a| | | |] rest]; auto.
    destruct H1 as (w & -> & Hw). exists w. split; [reflexivity|]. apply HPQ; [|exact Hw]. apply Forall_app in Hl. tauto.
  - intros a w rest Hl Hq. apply H2; [exact Hl|]. apply HPQ; [|exact Hq]. apply Forall_app in Hl. tauto.
Qed.
Lemma parses_ret {A} (a : A) : parses (ret a) (fun x w => x = a /\ w = []).
Proof.
  split.
  - intros l _. exists []. auto.
  - intros x w rest _ [-> ->]. reflexivity.
Qed.
Lemma parses_fail {A} e : parses (@fail (list Z) A e) (fun _ _ => False).
Proof. split; [intros l _; exact I|intros ? ? ? _ []]. Qed.
Lemma parses_bind {A B} (c : M (list Z) A) (f : A -> M (list Z) B) P Q :
  parses c P -> (forall a, (exists w, P a w /\ bytes_ok w) -> parses (f a) (Q a)) ->
  parses (bind c f) (fun b w => exists a w1 w2, w = w1 ++ w2 /\ P a w1 /\ Q a b w2).
Proof.
  intros [C1 C2] HF. split.
  - intros l Hl. specialize (C1 l Hl). unfold bind. destruct (c l) as [[a| | | |] rest]; auto.
    destruct C1 as (w & -> & Hw). pose proof Hl as Hl'. apply Forall_app in Hl' as [Hbw Hbr].
    destruct (HF a (ex_intro _ w (conj Hw Hbw))) as [F1 _]. specialize (F1 rest Hbr).
    destruct (f a rest) as [[b| | | |] rest2]; auto.
    destruct F1 as (w2 & -> & Hw2). exists (w ++ w2). split; [apply app_assoc|]. eauto 6.
  - intros b w rest Hl (a & w1 & w2 & -> & HP & HQ). rewrite <- app_assoc in *. unfold bind. rewrite (C2 a w1 _ Hl HP).
    pose proof Hl as Hl'. apply Forall_app in Hl' as [Hbw Hbr]. destruct (HF a (ex_intro _ w1 (conj HP Hbw))) as [_ F2].
    apply F2; assumption.
Qed.
Lemma parses_lift {A} (a : A) o : o = Ok a -> parses (lift o) (fun x w => x = a /\ w = []).
Proof. intros ->. apply parses_ret. Qed.
Lemma parses_if {A} (b : bool) (c d : M (list Z) A) P Q :
  (b = true -> parses c P) -> (b = false -> parses d Q) -> parses (if b then c else d) (fun a w => if b then P a w else Q a w).
Proof. destruct b; auto. Qed.

(** ** Numbers *)
Lemma be_bytes_length n v : length (be_bytes n v) = n.
Proof. induction n as [|n IH]; [reflexivity|]. cbn [be_bytes length]. rewrite IH. reflexivity. Qed.
Lemma le_bytes_length n v : length (le_bytes n v) = n.
Proof. unfold le_bytes. rewrite rev_length. apply be_bytes_length. Qed.
Lemma be_bytes_ok n v : bytes_ok (be_bytes n v).
Proof. induction n as [|n IH]; [constructor|]. cbn [be_bytes]. constructor; [|exact IH]. unfold is_byte. lia. Qed.
Lemma le_bytes_ok n v : bytes_ok (le_bytes n v).
Proof. apply Forall_rev, be_bytes_ok. Qed.

Lemma be2 a b : is_byte a -> is_byte b -> be_bytes 2 (a * 256 + b) = [a; b].
Proof. unfold is_byte. intros. cbn [be_bytes]. change (256 ^ Z.of_nat 1) with 256. change (256 ^ Z.of_nat 0) with 1. repeat f_equal; lia. Qed.
Lemma be3 a b c : is_byte a -> is_byte b -> is_byte c -> be_bytes 3 ((a * 256 + b) * 256 + c) = [a; b; c].
Proof. unfold is_byte. intros. cbn [be_bytes]. change (256 ^ Z.of_nat 2) with 65536. change (256 ^ Z.of_nat 1) with 256. change (256 ^ Z.of_nat 0) with 1. repeat f_equal; lia. Qed.
Lemma be4 a b c d : is_byte a -> is_byte b -> is_byte c -> is_byte d -> be_bytes 4 (((a * 256 + b) * 256 + c) * 256 + d) = [a; b; c; d].
Proof.
  unfold is_byte. intros. cbn [be_bytes]. change (256 ^ Z.of_nat 3) with 16777216. change (256 ^ Z.of_nat 2) with 65536.
  change (256 ^ Z.of_nat 1) with 256. change (256 ^ Z.of_nat 0) with 1. repeat f_equal; lia.
Qed.

Section Fl.
  Context (t : tail).
  Notation rb := (fl_rb t).

  Lemma u8_parses : parses (read_u8 rb) (fun b w => w = [b] /\ is_byte b).
  Proof.
    split.
    - intros [|b l] Hl; [exact I|]. inversion Hl; subst. exists [b]. auto.
    - intros a w rest _ [-> _]. reflexivity.
  Qed.
  Lemma be16_parses : parses (read_be_u16 rb) (fun v w => w = be_bytes 2 v /\ 0 <= v < 2 ^ 16).
  Proof.
    split.
    - intros l Hl. unfold read_be_u16, bind, fl_rb. cbn [read_u8].
      destruct l as [|a [|b l]]; try exact I. cbv beta iota delta [ret]. exists [a; b]. split; [reflexivity|].
      inversion Hl as [|? ? Ha Hl1]; subst. inversion Hl1 as [|? ? Hb _]; subst.
      rewrite be_u16_range by assumption. rewrite be2 by assumption. unfold is_byte in *. split; [reflexivity|lia].
    - intros v w rest _ [-> Hv]. unfold read_be_u16, bind, fl_rb. cbn [read_u8 be_bytes app]. unfold ret. f_equal. f_equal.
      change (256 ^ Z.of_nat 1) with 256. change (256 ^ Z.of_nat 0) with 1.
      rewrite be_u16_range by lia. lia.
  Qed.
  Lemma be24_parses : parses (read_be_u24 rb) (fun v w => w = be_bytes 3 v /\ 0 <= v < 2 ^ 24).
  Proof.
    split.
    - intros l Hl. unfold read_be_u24, bind, fl_rb. cbn [read_u8].
      destruct l as [|a [|b [|c l]]]; try exact I. cbv beta iota delta [ret]. exists [a; b; c]. split; [reflexivity|].
      inversion Hl as [|? ? Ha Hl1]; subst. inversion Hl1 as [|? ? Hb Hl2]; subst. inversion Hl2 as [|? ? Hc _]; subst.
      rewrite be_u24_range by assumption. rewrite be3 by assumption. unfold is_byte in *. split; [reflexivity|lia].
    - intros v w rest _ [-> Hv]. unfold read_be_u24, bind, fl_rb. cbn [read_u8 be_bytes app]. unfold ret. f_equal. f_equal.
      change (256 ^ Z.of_nat 2) with 65536. change (256 ^ Z.of_nat 1) with 256. change (256 ^ Z.of_nat 0) with 1.
      rewrite be_u24_range by lia. lia.
  Qed.
  Lemma be32_parses : parses (read_be_u32 rb) (fun v w => w = be_bytes 4 v /\ 0 <= v < 2 ^ 32).
  Proof.
    split.
    - intros l Hl. unfold read_be_u32, bind, fl_rb. cbn [read_u8].
      destruct l as [|a [|b [|c [|d l]]]]; try exact I. cbv beta iota delta [ret]. exists [a; b; c; d]. split; [reflexivity|].
      inversion Hl as [|? ? Ha Hl1]; subst. inversion Hl1 as [|? ? Hb Hl2]; subst. inversion Hl2 as [|? ? Hc Hl3]; subst. inversion Hl3 as [|? ? Hd _]; subst.
      rewrite be_u32_range by assumption. rewrite be4 by assumption. unfold is_byte in *. split; [reflexivity|lia].
    - intros v w rest _ [-> Hv]. unfold read_be_u32, bind, fl_rb. cbn [read_u8 be_bytes app]. unfold ret. f_equal. f_equal.
      change (256 ^ Z.of_nat 3) with 16777216. change (256 ^ Z.of_nat 2) with 65536. change (256 ^ Z.of_nat 1) with 256. change (256 ^ Z.of_nat 0) with 1.
      rewrite be_u32_range by lia. lia.
  Qed.
  Lemma le32_parses : parses (read_le_u32 rb) (fun v w => w = le_bytes 4 v /\ 0 <= v < 2 ^ 32).
  Proof.
    split.
    - intros l Hl. unfold read_le_u32, bind, fl_rb. cbn [read_u8].
      destruct l as [|a [|b [|c [|d l]]]]; try exact I. cbv beta iota delta [ret]. exists [a; b; c; d]. split; [reflexivity|].
      inversion Hl as [|? ? Ha Hl1]; subst. inversion Hl1 as [|? ? Hb Hl2]; subst. inversion Hl2 as [|? ? Hc Hl3]; subst. inversion Hl3 as [|? ? Hd _]; subst.
      rewrite be_u32_range by assumption. unfold le_bytes. rewrite be4 by assumption. unfold is_byte in *. split; [reflexivity|lia].
    - intros v w rest _ [-> Hv]. unfold read_le_u32, bind, fl_rb. cbn [read_u8 le_bytes be_bytes rev app]. unfold ret. f_equal. f_equal.
      change (256 ^ Z.of_nat 3) with 16777216. change (256 ^ Z.of_nat 2) with 65536. change (256 ^ Z.of_nat 1) with 256. change (256 ^ Z.of_nat 0) with 1.
      rewrite be_u32_range by lia. lia.
  Qed.
  Lemma into_parses buf : parses (read_into rb buf) (fun a w => a = w /\ length w = length buf).
  Proof.
    split.
    - intros l _. cbn [fl_rb read_into]. destruct (Nat.leb_spec (length buf) (length l)); [|exact I].
      exists (firstn (length buf) l). rewrite firstn_skipn. split; [reflexivity|]. split; [reflexivity|]. rewrite firstn_length. lia.
    - intros a w rest _ [-> Hw]. cbn [fl_rb read_into]. rewrite <- Hw. rewrite app_length.
      replace (length w <=? length w + length rest)%nat with true by (symmetry; apply Nat.leb_le; lia).
      rewrite firstn_app, skipn_app, Nat.sub_diag, firstn_all, skipn_all. cbn [firstn skipn]. rewrite app_nil_r. reflexivity.
  Qed.
  Lemma skip_parses n : 0 <= n -> parses (skip rb n) (fun _ w => len w = n).
  Proof.
    intros Hn. split.
    - intros l _. cbn [fl_rb skip]. destruct (n <=? len l) eqn:E.
      + exists (firstn (Z.to_nat n) l). rewrite firstn_skipn. split; [reflexivity|]. unfold len in *. rewrite firstn_length. lia.
      + exact I.
    - intros [] w rest _ Hw. cbn [fl_rb skip]. unfold len in *. rewrite app_length.
      replace (n <=? Z.of_nat (length w + length rest)) with true by lia.
      replace (Z.to_nat n) with (length w) by lia. rewrite skipn_app, Nat.sub_diag, skipn_all. reflexivity.
  Qed.
  Lemma alloc_parses n sz : parses (rb_alloc rb n sz) (fun _ w => w = []).
  Proof.
    split.
    - intros l _. exists []. auto.
    - intros [] w rest _ ->. reflexivity.
  Qed.
End Fl.
