(** Frame headers, part 2: the whole header. *)
From Verif Require Export ProofHeader.
From Verif Require Import SpecReader.

(** The decoder with any byte reader in place of the CRC-8 reader, and any
    computation in place of its checksum. *)
Section Generic.
  Context {S : Type} (crb : ReadBytes S) (crc : M S Z) (m : build).

  Definition h_sizes (n : Z) : M S (Z * bool * bool) :=
    if n =? 0 then fmt_err "invalid frame header, encountered reserved value"
    else if n =? 1 then ret (192, false, false)
    else if (2 <=? n) && (n <=? 5) then
      p <- lift (shl m u16 16 1 (n - 2)) ;;
      v <- lift (chk m u16 (576 * p)) ;;
      ret (v, false, false)
    else if n =? 6 then ret (0, true, false)
    else if n =? 7 then ret (0, false, true)
    else
      p <- lift (shl m u16 16 1 (n - 8)) ;;
      v <- lift (chk m u16 (256 * p)) ;;
      ret (v, false, false).
  Definition h_rates (k : Z) : M S (option Z * bool * bool * bool) :=
    if k =? 0 then ret (None, false, false, false)
    else if k =? 1 then ret (Some 88200, false, false, false)
    else if k =? 2 then ret (Some 176400, false, false, false)
    else if k =? 3 then ret (Some 192000, false, false, false)
    else if k =? 4 then ret (Some 8000, false, false, false)
    else if k =? 5 then ret (Some 16000, false, false, false)
    else if k =? 6 then ret (Some 22050, false, false, false)
    else if k =? 7 then ret (Some 24000, false, false, false)
    else if k =? 8 then ret (Some 32000, false, false, false)
    else if k =? 9 then ret (Some 44100, false, false, false)
    else if k =? 10 then ret (Some 48000, false, false, false)
    else if k =? 11 then ret (Some 96000, false, false, false)
    else if k =? 12 then ret (None, true, false, false)
    else if k =? 13 then ret (None, false, true, false)
    else if k =? 14 then ret (None, false, false, true)
    else fmt_err "invalid frame header".
  Definition h_assign (c : Z) : M S channel_assignment :=
    if c <? 8 then
      ch <- lift (chk m u8 (c + 1)) ;;
      ret (Independent ch)
    else if c =? 8 then ret LeftSideStereo
    else if c =? 9 then ret RightSideStereo
    else if c =? 10 then ret MidSideStereo
    else fmt_err "invalid frame header, encountered reserved value".
  Definition h_widths (b : Z) : M S (option Z) :=
    if b =? 0 then ret None
    else if b =? 1 then ret (Some 8)
    else if b =? 2 then ret (Some 12)
    else if b =? 4 then ret (Some 16)
    else if b =? 5 then ret (Some 20)
    else if b =? 6 then ret (Some 24)
    else fmt_err "invalid frame header, encountered reserved value".
  Definition h_times (variable : bool) : M S block_time :=
    if variable then
      sample <- read_var_length_int crb m ;;
      ret (SampleNumber sample)
    else
      frame <- read_var_length_int crb m ;;
      if 2147483647 <? frame
      then fmt_err "invalid frame header, frame number too large"
      else ret (FrameNumber (u32 frame)).
  Definition h_size8 (f : bool) (v : Z) : M S Z :=
    if f then
      bs <- read_u8 crb ;;
      lift (chk m u16 (bs + 1))
    else ret v.
  Definition h_size16 (f : bool) (v : Z) : M S Z :=
    if f then
      bs <- read_be_u16 crb ;;
      if bs =? 65535 then fmt_err "invalid block size, exceeds 65535"
      else lift (chk m u16 (bs + 1))
    else ret v.
  Definition h_rate8 (f : bool) (v : option Z) : M S (option Z) :=
    if f then sr <- read_u8 crb ;; ret (Some sr) else ret v.
  Definition h_rate16 (f : bool) (v : option Z) : M S (option Z) :=
    if f then sr <- read_be_u16 crb ;; ret (Some sr) else ret v.
  Definition h_rate_ten (f : bool) (v : option Z) : M S (option Z) :=
    if f then
      sr_ten <- read_be_u16 crb ;;
      v <- lift (chk m u32 (sr_ten * 10)) ;;
      ret (Some v)
    else ret v.

  Definition h_tail (variable : bool) (sizes : Z * bool * bool)
      (rates : option Z * bool * bool * bool) (ca : channel_assignment) (bps : option Z)
      : M S (option frame_header) :=
    let '(v, s8, s16) := sizes in
    let '(r, r8, r16, r10) := rates in
    time <- h_times variable ;;
    v <- h_size8 s8 v ;;
    v <- h_size16 s16 v ;;
    r <- h_rate8 r8 r ;;
    r <- h_rate16 r16 r ;;
    r <- h_rate_ten r10 r ;;
    computed <- crc ;;
    presumed <- read_u8 crb ;;
    if negb (computed =? presumed) then fmt_err "frame header CRC mismatch"
    else ret (Some (mkFh time v r ca bps)).

  Definition header_generic (o : option Z) : M S (option frame_header) :=
    match o with
    | None => ret None
    | Some s =>
      if negb (Z.land s 65532 =? 65528) then fmt_err "frame sync code missing"
      else if negb (Z.land s 2 =? 0)
      then fmt_err "invalid frame header, encountered reserved value"
      else
        x <- read_u8 crb ;;
        sizes <- h_sizes (Z.shiftr x 4) ;;
        rates <- h_rates (Z.land x 15) ;;
        y <- read_u8 crb ;;
        ca <- h_assign (Z.shiftr y 4) ;;
        bps <- h_widths (Z.shiftr (Z.land y 14) 1) ;;
        if negb (Z.land y 1 =? 0)
        then fmt_err "invalid frame header, encountered reserved value"
        else h_tail (negb (Z.land s 1 =? 0)) sizes rates ca bps
    end.
End Generic.

Lemma bind_ext {S A B} (c c' : M S A) (f g : A -> M S B) s :
  c s = c' s -> (forall a s, f a s = g a s) -> bind c f s = bind c' g s.
Proof. intros E H. unfold bind. rewrite E. destruct (c' s) as [[]]; auto. Qed.

Lemma header_after_sync_eq {S} (rb : ReadBytes S) m o s :
  header_after_sync rb m o s = header_generic (crc8_rb rb) crc8_crc m o s.
Proof.
  unfold header_after_sync, header_generic. destruct o as [x|]; [|reflexivity].
  destruct (negb _); [reflexivity|]. destruct (negb _); [reflexivity|].
  apply bind_ext; [reflexivity|]. intros a s1.
  apply bind_ext; [reflexivity|]. intros [[v s8] s16] s2.
  apply bind_ext; [reflexivity|]. intros [[[r r8] r16] r10] s3. reflexivity.
Qed.

(** A generic simulation: readers and checksums that simulate each other. *)
Lemma header_generic_sim {S1 S2} esc (R : S1 -> S2 -> Prop) rb1 rb2 c1 c2 m o :
  rb_sim esc R rb1 rb2 -> sim esc R eq c1 c2 ->
  sim esc R eq (header_generic rb1 c1 m o) (header_generic rb2 c2 m o).
Proof.
  intros H Hc. pose proof (read_u8_sim_eq _ _ _ _ H). pose proof (read_var_length_int_sim _ _ _ _ m H).
  pose proof (sim_eq_of _ _ _ _ _ (read_be_u16_sim _ _ _ _ H)).
  unfold header_generic, h_tail, h_sizes, h_rates, h_assign, h_widths, h_times, h_size8, h_size16,
    h_rate8, h_rate16, h_rate_ten. sim_tac.
Qed.

(** * Following the checksums along a stream *)

Definition crc_left {T S} (w g : Z) (inner : T -> S) (state : T -> Z) (D : S -> list Z -> Prop)
    (l0 : list Z) (st : T) (l : list Z) : Prop :=
  exists pre, l0 = pre ++ l /\ D (inner st) l /\ is_crc w g pre (state st).

Section Tracking.
  Context {S : Type} (rb : ReadBytes S) (t : tail) (D : S -> list Z -> Prop).
  Context (Hrs : rb_sim no_esc D rb (fl_rb t)) (Hes : eof_sim no_esc D rb (fl_rb t)).

  Definition D8 := crc_left 8 poly8 (@c8_inner S) c8_state D.
  Definition D16 := crc_left 16 poly16 (@c16_inner S) c16_state D.

  Lemma D8_new st l : D st l -> D8 l (crc8_new st) l.
  Proof. intros HD. exists []. repeat split; auto; try apply is_crc_nil; cbn; lia. Qed.
  Lemma D16_new st l : D st l -> D16 l (crc16_new st) l.
  Proof. intros HD. exists []. repeat split; auto; try apply is_crc_nil; cbn; lia. Qed.

  Lemma u8_step st l : D st l ->
    match l with
    | b :: r => exists st', read_u8 rb st = (Ok b, st') /\ D st' r /\ 0 <= b < 256
    | [] => exists st', read_u8 rb st = (Err (tail_error t), st')
    end.
  Proof.
    intros HD. pose proof (rs_u8 _ _ _ _ Hrs st l HD) as H. destruct (read_u8 rb st) as [o st'].
    destruct l as [|b r]; cbn in H.
    - destruct o; cbn in H; try discriminate H.
      + destruct H as (? & ? & _). discriminate.
      + destruct H as [[]|[H _]]. exists st'. congruence.
    - destruct o; cbn in H; try discriminate H.
      + destruct H as (? & E & [-> ?] & ?). injection E as <-. exists st'. auto.
      + destruct H as [[]|[H _]]; discriminate H.
  Qed.
  Lemma eof_step st l : D st l ->
    match l with
    | b :: r => exists st', read_u8_or_eof rb st = (Ok (Some b), st') /\ D st' r /\ 0 <= b < 256
    | [] => match t with
            | TEof => exists st', read_u8_or_eof rb st = (Ok None, st') /\ D st' []
            | TErr k => exists st', read_u8_or_eof rb st = (Err (IoError k), st')
            end
    end.
  Proof.
    intros HD. pose proof (Hes st l HD) as H. destruct (read_u8_or_eof rb st) as [o st'].
    destruct l as [|b r]; cbn in H.
    - destruct t; destruct o; cbn in H; try discriminate H.
      + destruct H as (? & E & [-> _] & ?). injection E as <-. exists st'. auto.
      + destruct H as [[]|[H _]]; discriminate H.
      + destruct H as (? & E & _). discriminate E.
      + destruct H as [[]|[H _]]. exists st'. congruence.
    - destruct o; cbn in H; try discriminate H.
      + destruct H as (? & E & [-> ?] & ?). injection E as <-. exists st'. auto.
      + destruct H as [[]|[H _]]; discriminate H.
  Qed.

  Lemma crc8_u8_ok s c b st' c' : read_u8 rb s = (Ok b, st') -> crc8_update c b = Ok c' ->
    read_u8 (crc8_rb rb) (mkCrc8 s c) = (Ok b, mkCrc8 st' c').
  Proof.
    intros E1 E2. cbn [crc8_rb read_u8]. unfold bind, c8_lift, c8_update_state, get, put, lift, ret.
    cbn [c8_inner]. rewrite E1. cbn [c8_inner c8_state]. unfold bind. cbn [c8_inner c8_state].
    rewrite E2. reflexivity.
  Qed.
  Lemma crc8_u8_err s c e st' : read_u8 rb s = (Err e, st') ->
    read_u8 (crc8_rb rb) (mkCrc8 s c) = (Err e, mkCrc8 st' c).
  Proof.
    intros E1. cbn [crc8_rb read_u8]. unfold bind, c8_lift. cbn [c8_inner]. rewrite E1. reflexivity.
  Qed.
  Lemma crc8_eof_ok s c b st' c' : read_u8_or_eof rb s = (Ok (Some b), st') -> crc8_update c b = Ok c' ->
    read_u8_or_eof (crc8_rb rb) (mkCrc8 s c) = (Ok (Some b), mkCrc8 st' c').
  Proof.
    intros E1 E2. cbn [crc8_rb read_u8_or_eof]. unfold bind, c8_lift, c8_update_state, get, put, lift, ret.
    cbn [c8_inner]. rewrite E1. cbn [c8_inner c8_state]. unfold bind. cbn [c8_inner c8_state].
    rewrite E2. reflexivity.
  Qed.
  Lemma crc8_eof_none s c st' : read_u8_or_eof rb s = (Ok None, st') ->
    read_u8_or_eof (crc8_rb rb) (mkCrc8 s c) = (Ok None, mkCrc8 st' c).
  Proof.
    intros E1. cbn [crc8_rb read_u8_or_eof]. unfold bind, c8_lift. cbn [c8_inner]. rewrite E1. reflexivity.
  Qed.
  Lemma crc8_eof_err s c e st' : read_u8_or_eof rb s = (Err e, st') ->
    read_u8_or_eof (crc8_rb rb) (mkCrc8 s c) = (Err e, mkCrc8 st' c).
  Proof.
    intros E1. cbn [crc8_rb read_u8_or_eof]. unfold bind, c8_lift. cbn [c8_inner]. rewrite E1. reflexivity.
  Qed.
  Lemma crc8_left_rb l0 : rb_sim no_esc (D8 l0) (crc8_rb rb) (fl_rb t).
  Proof.
    split.
    - intros [s c] l (pre & E0 & HD & Hc). cbn [c8_inner c8_state] in *.
      pose proof (u8_step s l HD) as H.
      destruct l as [|b r].
      + destruct H as (st' & E). rewrite (crc8_u8_err _ c _ _ E). at_end.
      + destruct H as (st' & E & HD' & Hb). destruct (crc8_step pre c b Hc Hb) as (c' & Ec & Hc').
        rewrite (crc8_u8_ok _ _ _ _ _ E Ec). cbn [fst snd fl_rb read_u8].
        exists b. split; [reflexivity|]. split; [split; auto|]. exists (pre ++ [b]).
        rewrite <- app_assoc. auto.
    - intros n sz [s c] l (pre & E0 & HD & Hc). cbn [c8_inner c8_state] in *.
      cbn [crc8_rb rb_alloc]. unfold c8_lift. cbn [c8_inner].
      pose proof (rs_alloc _ _ _ _ Hrs n sz s l HD) as H. destruct (rb_alloc rb n sz s) as [o s'].
      cbn in *. destruct o; auto; [|destruct H as [[]|[? _]]; discriminate].
      destruct H as (x & ? & ? & ?). exists x. repeat split; auto.
      exists pre. auto.
  Qed.
  Lemma crc8_left_eof l0 : eof_sim no_esc (D8 l0) (crc8_rb rb) (fl_rb t).
  Proof.
    intros [s c] l (pre & E0 & HD & Hc). cbn [c8_inner c8_state] in *.
    pose proof (eof_step s l HD) as H.
    destruct l as [|b r].
    - cbn [fl_rb read_u8_or_eof]. destruct t.
      + destruct H as (st' & E & HD'). rewrite (crc8_eof_none _ c _ E). cbn [fst snd].
        exists None. repeat split; auto. exists pre. auto.
      + destruct H as (st' & E). rewrite (crc8_eof_err _ c _ _ E). at_end.
    - destruct H as (st' & E & HD' & Hb). destruct (crc8_step pre c b Hc Hb) as (c' & Ec & Hc').
      rewrite (crc8_eof_ok _ _ _ _ _ E Ec). cbn [fst snd fl_rb read_u8_or_eof].
      exists (Some b). split; [reflexivity|]. split; [split; auto|]. exists (pre ++ [b]).
      rewrite <- app_assoc. auto.
  Qed.

  Lemma crc16_u8_ok s c b st' c' : read_u8 rb s = (Ok b, st') -> crc16_update c b = Ok c' ->
    read_u8 (crc16_rb rb) (mkCrc16 s c) = (Ok b, mkCrc16 st' c').
  Proof.
    intros E1 E2. cbn [crc16_rb read_u8]. unfold bind, c16_lift, c16_update_state, get, put, lift, ret.
    cbn [c16_inner]. rewrite E1. cbn [c16_inner c16_state]. unfold bind. cbn [c16_inner c16_state].
    rewrite E2. reflexivity.
  Qed.
  Lemma crc16_u8_err s c e st' : read_u8 rb s = (Err e, st') ->
    read_u8 (crc16_rb rb) (mkCrc16 s c) = (Err e, mkCrc16 st' c).
  Proof.
    intros E1. cbn [crc16_rb read_u8]. unfold bind, c16_lift. cbn [c16_inner]. rewrite E1. reflexivity.
  Qed.
  Lemma crc16_eof_ok s c b st' c' : read_u8_or_eof rb s = (Ok (Some b), st') -> crc16_update c b = Ok c' ->
    read_u8_or_eof (crc16_rb rb) (mkCrc16 s c) = (Ok (Some b), mkCrc16 st' c').
  Proof.
    intros E1 E2. cbn [crc16_rb read_u8_or_eof]. unfold bind, c16_lift, c16_update_state, get, put, lift, ret.
    cbn [c16_inner]. rewrite E1. cbn [c16_inner c16_state]. unfold bind. cbn [c16_inner c16_state].
    rewrite E2. reflexivity.
  Qed.
  Lemma crc16_eof_none s c st' : read_u8_or_eof rb s = (Ok None, st') ->
    read_u8_or_eof (crc16_rb rb) (mkCrc16 s c) = (Ok None, mkCrc16 st' c).
  Proof.
    intros E1. cbn [crc16_rb read_u8_or_eof]. unfold bind, c16_lift. cbn [c16_inner]. rewrite E1. reflexivity.
  Qed.
  Lemma crc16_eof_err s c e st' : read_u8_or_eof rb s = (Err e, st') ->
    read_u8_or_eof (crc16_rb rb) (mkCrc16 s c) = (Err e, mkCrc16 st' c).
  Proof.
    intros E1. cbn [crc16_rb read_u8_or_eof]. unfold bind, c16_lift. cbn [c16_inner]. rewrite E1. reflexivity.
  Qed.
  Lemma crc16_left_rb l0 : rb_sim no_esc (D16 l0) (crc16_rb rb) (fl_rb t).
  Proof.
    split.
    - intros [s c] l (pre & E0 & HD & Hc). cbn [c16_inner c16_state] in *.
      pose proof (u8_step s l HD) as H.
      destruct l as [|b r].
      + destruct H as (st' & E). rewrite (crc16_u8_err _ c _ _ E). at_end.
      + destruct H as (st' & E & HD' & Hb). destruct (crc16_step pre c b Hc Hb) as (c' & Ec & Hc').
        rewrite (crc16_u8_ok _ _ _ _ _ E Ec). cbn [fst snd fl_rb read_u8].
        exists b. split; [reflexivity|]. split; [split; auto|]. exists (pre ++ [b]).
        rewrite <- app_assoc. auto.
    - intros n sz [s c] l (pre & E0 & HD & Hc). cbn [c16_inner c16_state] in *.
      cbn [crc16_rb rb_alloc]. unfold c16_lift. cbn [c16_inner].
      pose proof (rs_alloc _ _ _ _ Hrs n sz s l HD) as H. destruct (rb_alloc rb n sz s) as [o s'].
      cbn in *. destruct o; auto; [|destruct H as [[]|[? _]]; discriminate].
      destruct H as (x & ? & ? & ?). exists x. repeat split; auto.
      exists pre. auto.
  Qed.
  Lemma crc16_left_eof l0 : eof_sim no_esc (D16 l0) (crc16_rb rb) (fl_rb t).
  Proof.
    intros [s c] l (pre & E0 & HD & Hc). cbn [c16_inner c16_state] in *.
    pose proof (eof_step s l HD) as H.
    destruct l as [|b r].
    - cbn [fl_rb read_u8_or_eof]. destruct t.
      + destruct H as (st' & E & HD'). rewrite (crc16_eof_none _ c _ E). cbn [fst snd].
        exists None. repeat split; auto. exists pre. auto.
      + destruct H as (st' & E). rewrite (crc16_eof_err _ c _ _ E). at_end.
    - destruct H as (st' & E & HD' & Hb). destruct (crc16_step pre c b Hc Hb) as (c' & Ec & Hc').
      rewrite (crc16_eof_ok _ _ _ _ _ E Ec). cbn [fst snd fl_rb read_u8_or_eof].
      exists (Some b). split; [reflexivity|]. split; [split; auto|]. exists (pre ++ [b]).
      rewrite <- app_assoc. auto.
  Qed.

  (** The checksum of the part of [l0] before [l]; by uniqueness any function that
      computes it will do. *)
  Fixpoint run_crc (step : Z -> Z -> outcome Z) (c : Z) (l : list Z) : Z :=
    match l with
    | [] => c
    | b :: r => match step c b with Ok c' => run_crc step c' r | _ => 0 end
    end.
  Definition crc8_of (l : list Z) : Z := run_crc crc8_update 0 l.
  Definition crc16_of (l : list Z) : Z := run_crc crc16_update 0 l.

  Lemma crc8_of_ok l : bytes_ok l -> is_crc 8 poly8 l (crc8_of l).
  Proof.
    unfold crc8_of. intros Hl. change l with ([] ++ l) at 1.
    assert (is_crc 8 poly8 [] 0) as H0 by (apply is_crc_nil; lia).
    revert H0. generalize (@nil Z) as pre. generalize 0 as c. revert Hl.
    induction l as [|b l IH]; intros Hl c pre Hc; cbn [run_crc].
    - rewrite app_nil_r. exact Hc.
    - apply bytes_cons in Hl as [Hb Hl]. destruct (crc8_step pre c b Hc Hb) as (c' & -> & Hc').
      replace (pre ++ b :: l) with ((pre ++ [b]) ++ l) by (rewrite <- app_assoc; reflexivity).
      apply IH; assumption.
  Qed.
  Lemma crc16_of_ok l : bytes_ok l -> is_crc 16 poly16 l (crc16_of l).
  Proof.
    unfold crc16_of. intros Hl. change l with ([] ++ l) at 1.
    assert (is_crc 16 poly16 [] 0) as H0 by (apply is_crc_nil; lia).
    revert H0. generalize (@nil Z) as pre. generalize 0 as c. revert Hl.
    induction l as [|b l IH]; intros Hl c pre Hc; cbn [run_crc].
    - rewrite app_nil_r. exact Hc.
    - apply bytes_cons in Hl as [Hb Hl]. destruct (crc16_step pre c b Hc Hb) as (c' & -> & Hc').
      replace (pre ++ b :: l) with ((pre ++ [b]) ++ l) by (rewrite <- app_assoc; reflexivity).
      apply IH; assumption.
  Qed.
  Lemma crc8_unique l c c' : is_crc 8 poly8 l c -> is_crc 8 poly8 l c' -> c = c'.
  Proof. apply is_crc_unique; unfold poly8; lia. Qed.
  Lemma crc16_unique l c c' : is_crc 16 poly16 l c -> is_crc 16 poly16 l c' -> c = c'.
  Proof. apply is_crc_unique; unfold poly16; lia. Qed.

  Definition fl_crc (f : list Z -> Z) (l0 : list Z) : M (list Z) Z := fun l =>
    (Ok (f (firstn (length l0 - length l) l0)), l).

  Lemma consumed (pre l : list Z) : firstn (length (pre ++ l) - length l) (pre ++ l) = pre.
  Proof.
    rewrite app_length. replace (length pre + length l - length l)%nat with (length pre) by lia.
    rewrite firstn_app, firstn_all, Nat.sub_diag. cbn [firstn]. apply app_nil_r.
  Qed.

  Lemma crc8_crc_left l0 : bytes_ok l0 ->
    sim no_esc (D8 l0) eq (@crc8_crc S) (fl_crc crc8_of l0).
  Proof.
    intros Hl0 [s c] l (pre & -> & HD & Hc). unfold crc8_crc, bind, get, ret, fl_crc. cbn in *.
    rewrite consumed. eexists. split; [reflexivity|]. split.
    - apply (crc8_unique pre); [exact Hc|]. apply crc8_of_ok. apply bytes_app in Hl0. tauto.
    - exists pre. auto.
  Qed.
  Lemma crc16_crc_left l0 : bytes_ok l0 ->
    sim no_esc (D16 l0) eq (@crc16_crc S) (fl_crc crc16_of l0).
  Proof.
    intros Hl0 [s c] l (pre & -> & HD & Hc). unfold crc16_crc, bind, get, ret, fl_crc. cbn in *.
    rewrite consumed. eexists. split; [reflexivity|]. split.
    - apply (crc16_unique pre); [exact Hc|]. apply crc16_of_ok. apply bytes_app in Hl0. tauto.
    - exists pre. auto.
  Qed.

  (** ** The header decoder on lists *)
  Definition fl_header (m : build) (l0 : list Z) : M (list Z) (option frame_header) :=
    o <- read_be_u16_or_eof (fl_rb t) ;;
    header_generic (fl_rb t) (fl_crc crc8_of l0) m o.

  Context (Hbytes : forall st l, D st l -> bytes_ok l).

  Lemma header_body_left m st l : D st l -> sim no_esc (D8 l) eq (read_frame_header_body rb m) (fl_header m l).
  Proof.
    intros HD. rewrite read_frame_header_body_eq. unfold fl_header. eapply sim_bind_eq.
    - apply read_be_u16_or_eof_sim, crc8_left_eof.
    - intros o. eapply sim_ext; [intros s; apply header_after_sync_eq|reflexivity|].
      apply header_generic_sim; [apply crc8_left_rb|]. apply crc8_crc_left, (Hbytes st), HD.
  Qed.
  Lemma header_left m st l : D st l ->
    fst (read_frame_header_or_eof rb m st) = fst (fl_header m l l)
    /\ (succeeded (fst (fl_header m l l)) ->
        D (snd (read_frame_header_or_eof rb m st)) (snd (fl_header m l l))).
  Proof.
    intros HD. unfold read_frame_header_or_eof, with_crc8.
    destruct (sim_fst (D8 l) _ _ (crc8_new st) l (header_body_left m st l HD) (D8_new st l HD)) as [E H].
    destruct (read_frame_header_body rb m (crc8_new st)) as [o st']. cbn [fst snd] in *.
    split; [exact E|]. intros Hs. destruct (H Hs) as (pre & _ & ? & _). assumption.
  Qed.
  Lemma header_left_ours m st l e : D st l -> fst (fl_header m l l) = Err e -> ours e ->
    D (snd (read_frame_header_or_eof rb m st)) (snd (fl_header m l l)).
  Proof.
    intros HD E Ho. unfold read_frame_header_or_eof, with_crc8.
    pose proof (sim_ours (D8 l) _ _ (crc8_new st) l e (header_body_left m st l HD) (D8_new st l HD) E Ho) as H.
    destruct (read_frame_header_body rb m (crc8_new st)) as [o st']. cbn [fst snd] in *.
    destruct H as (pre & _ & ? & _). assumption.
  Qed.
End Tracking.
