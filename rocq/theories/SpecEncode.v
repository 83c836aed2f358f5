(** A FLAC encoder as a function: the bytes of a frame for given PCM channels and
    any choice of codings.  Written from the format documentation. *)
From Verif Require Export SpecEncoder SpecFrame.

(** * Subframes *)

(** How to code a residual: method, partition order, a parameter per partition. *)
Record rice_plan := mkRice { rp_method : Z; rp_order : Z; rp_params : list Z }.

(** How to code the samples of a channel. *)
Inductive body_plan :=
| PlanConstant
| PlanVerbatim
| PlanFixed (order : nat) (res : rice_plan)
| PlanLpc (coefficients : list Z) (precision shift : Z) (res : rice_plan).
Record plan := mkPlan { pl_wasted : Z; pl_body : body_plan }.

(** [l] cut into pieces of the given lengths. *)
Fixpoint pieces (lens : list nat) (l : list Z) : list (list Z) :=
  match lens with
  | [] => []
  | n :: lens' => firstn n l :: pieces lens' (skipn n l)
  end.

Definition residual_bits (bs order : Z) (p : rice_plan) (rs : list Z) : list bool :=
  word 2 (rp_method p) ++ word 4 (rp_order p)
  ++ flat_map (fun kp => partition_bits (method_pbits (rp_method p)) (fst kp) (snd kp))
       (combine (rp_params p)
          (pieces (map Z.to_nat (partition_lengths bs order (rp_order p))) rs)).

Definition plan_coding (p : body_plan) : coding :=
  match p with
  | PlanConstant => Constant
  | PlanVerbatim => Verbatim
  | PlanFixed o _ => Fixed (Z.of_nat o)
  | PlanLpc cs _ _ _ => Lpc (Z.of_nat (length cs))
  end.

Definition body_bits (bps : Z) (p : body_plan) (s : list Z) : list bool :=
  match p with
  | PlanConstant => word bps (hd 0 s)
  | PlanVerbatim => words bps s
  | PlanFixed o res =>
      words bps (firstn o s)
      ++ residual_bits (Z.of_nat (length s)) (Z.of_nat o) res
           (residual_of (fixed_predict (Z.of_nat o)) (rev (firstn o s)) (skipn o s))
  | PlanLpc cs precision shift res =>
      let o := length cs in
      words bps (firstn o s) ++ word 4 (precision - 1) ++ word 5 shift ++ words precision cs
      ++ residual_bits (Z.of_nat (length s)) (Z.of_nat o) res
           (residual_of (lpc_predict cs shift) (rev (firstn o s)) (skipn o s))
  end.

Definition subframe_bits (bps : Z) (p : plan) (s : list Z) : list bool :=
  let k := pl_wasted p in
  false :: word 6 (coding_code (plan_coding (pl_body p))) ++ wasted_field k
  ++ body_bits (bps - k) (pl_body p) (map (fun x => x / 2 ^ k) s).

(** ** Which plans are possible *)

(** For [bs] samples of which [order] are warm-up. *)
Definition rice_plan_ok (bs order : Z) (p : rice_plan) : Prop :=
  (rp_method p = 0 \/ rp_method p = 1) /\ 0 <= rp_order p <= 15
  /\ bs mod 2 ^ rp_order p = 0 /\ order <= bs / 2 ^ rp_order p
  /\ Z.of_nat (length (rp_params p)) = 2 ^ rp_order p
  /\ Forall (fun k => 0 <= k < 2 ^ method_pbits (rp_method p) - 1) (rp_params p).

Definition body_plan_ok (s : list Z) (p : body_plan) : Prop :=
  match p with
  | PlanConstant => Forall (eq (hd 0 s)) s
  | PlanVerbatim => True
  | PlanFixed o res => (o <= 4)%nat /\ rice_plan_ok (Z.of_nat (length s)) (Z.of_nat o) res
  | PlanLpc cs precision shift res =>
      (1 <= length cs <= 32)%nat /\ 1 <= precision <= 15 /\ 0 <= shift < 16
      /\ Forall (fits precision) cs
      /\ rice_plan_ok (Z.of_nat (length s)) (Z.of_nat (length cs)) res
  end.

(** The samples have [bps] bits, the lowest of which are zero if they are left
    out. *)
Definition plan_ok (bps : Z) (p : plan) (s : list Z) : Prop :=
  0 <= pl_wasted p <= 31 /\ pl_wasted p < bps
  /\ Forall (fun x => x mod 2 ^ pl_wasted p = 0) s
  /\ body_plan_ok s (pl_body p).

(** * Channels *)

(** The channels that are coded in place of [chs]. *)
Definition coded_channels (a : assignment) (chs : list (list Z)) : list (list Z) :=
  match a, chs with
  | LeftSide, [l; r] => [l; side_of l r]
  | SideRight, [l; r] => [side_of l r; r]
  | MidSide, [l; r] => [mid_of l r; side_of l r]
  | _, _ => chs
  end.

(** The subframes of channels of the given widths. *)
Fixpoint channels_bits (widths : list Z) (plans : list plan) (chs : list (list Z)) : list bool :=
  match widths, plans, chs with
  | w :: ws, p :: ps, c :: cs => subframe_bits w p c ++ channels_bits ws ps cs
  | _, _, _ => []
  end.
Fixpoint plans_ok (widths : list Z) (plans : list plan) (chs : list (list Z)) : Prop :=
  match widths, plans, chs with
  | w :: ws, p :: ps, c :: cs => plan_ok w p c /\ plans_ok ws ps cs
  | [], [], [] => True
  | _, _, _ => False
  end.

(** * Frames *)

(** Division with remainder over GF(2), one bit at a time. *)
Definition crc_step (w g c : Z) (b : bool) : Z :=
  let c' := 2 * c + Z.b2z b in if 2 ^ w <=? c' then Z.lxor c' g else c'.
Definition crc_of (w g : Z) (bytes : list Z) : Z :=
  fold_left (crc_step w g) (bytes_bits bytes ++ repeat false (Z.to_nat w)) 0.

(** Which of the possible forms to use: number of bytes after the first in the
    frame or sample number, code of the block size, code of the sample rate. *)
Record form := mkForm { fm_number : nat; fm_size : Z; fm_rate : Z }.

Definition size_extra (code n : Z) : list Z :=
  if code =? 6 then [n - 1] else if code =? 7 then [(n - 1) / 256; (n - 1) mod 256] else [].
Definition rate_extra (code : Z) (rate : option Z) : list Z :=
  match rate with
  | None => []
  | Some r =>
      if code =? 12 then [r] else if code =? 13 then [r / 256; r mod 256]
      else if code =? 14 then [r / 10 / 256; r / 10 mod 256] else []
  end.
Definition width_bits (w : Z) : Z :=
  if w =? 8 then 1 else if w =? 12 then 2 else if w =? 16 then 4 else if w =? 20 then 5 else 6.

(** What a frame says besides the samples. *)
Record frame_info := mkInfo {
  fi_variable : bool; fi_number : Z; fi_rate : option Z; fi_assignment : assignment;
  fi_width : Z; fi_form : form; fi_plans : list plan
}.
Definition info_header (f : frame_info) (size : Z) : header :=
  mkHeader (fi_variable f) (fi_number f) size (fi_rate f) (fi_assignment f) (Some (fi_width f)).

Definition encode_header (f : frame_info) (size : Z) : list Z :=
  let front :=
    [255; 248 + Z.b2z (fi_variable f); 16 * fm_size (fi_form f) + fm_rate (fi_form f);
     16 * assignment_code (fi_assignment f) + 2 * width_bits (fi_width f)]
    ++ number_bytes (fm_number (fi_form f)) (fi_number f)
    ++ size_extra (fm_size (fi_form f)) size ++ rate_extra (fm_rate (fi_form f)) (fi_rate f) in
  front ++ [crc_of 8 poly8 front].

Definition encode_frame (f : frame_info) (chs : list (list Z)) : list Z :=
  let l := encode_header f (Z.of_nat (length (hd [] chs)))
           ++ pack (channels_bits (subframe_widths (fi_width f) (fi_assignment f)) (fi_plans f)
                      (coded_channels (fi_assignment f) chs)) in
  let crc := crc_of 16 poly16 l in
  l ++ [crc / 256; crc mod 256].

(** Samples of the given width, in channels of the same length. *)
Definition pcm (width : Z) (size : nat) (chs : list (list Z)) : Prop :=
  Forall (fun c => length c = size /\ Forall (fits width) c) chs.

(** The information fits the samples. *)
Definition info_ok (f : frame_info) (chs : list (list Z)) : Prop :=
  let size := Z.of_nat (length (hd [] chs)) in
  let fm := fi_form f in
  assignment_ok (fi_assignment f)
  /\ Z.of_nat (length chs) = channel_count (fi_assignment f)
  /\ In (fi_width f) [8; 12; 16; 20; 24]
  /\ pcm (fi_width f) (length (hd [] chs)) chs
  /\ plans_ok (subframe_widths (fi_width f) (fi_assignment f)) (fi_plans f)
       (coded_channels (fi_assignment f) chs)
  /\ (fm_number fm <= 6)%nat /\ 0 <= fi_number f < number_limit (fm_number fm)
  /\ (fi_variable f = false -> fi_number f < 2 ^ 31)
  /\ size_code (fm_size fm) (size_extra (fm_size fm) size) size
  /\ rate_code (fm_rate fm) (rate_extra (fm_rate fm) (fi_rate f)) (fi_rate f).
