(** The crate's own unit tests, run on the model.  These are tests, not proofs: they
    guard the transcription (see DESIGN.md, "Trusted base").  Each is named after the
    Rust test that it transcribes, and runs in both build modes. *)
From Verif Require Import ModelLib.

(** A sequence of calls, each with the result that the test expects. *)
Fixpoint run {S A} (ops : list (M S A)) (st : S) : list (outcome A) :=
  match ops with
  | [] => []
  | op :: ops => let (r, st') := op st in r :: run ops st'
  end.
Definition map_m {S A B} (f : A -> B) (c : M S A) : M S B := x <- c ;; ret (f x).
Definition bit {S} (c : M S bool) : M S Z := map_m (fun b : bool => if b then 1 else 0) c.
Definition eof {A} : outcome A := Err (IoError UnexpectedEof).

(** * src/input.rs *)

(** src/input.rs:280-304 *)
Definition into_data : list Z := [2; 3; 5; 7; 11; 13; 17; 19; 23].
Definition into_result : list (outcome (list Z)) := [Ok [2; 3; 5]; Ok [7; 11; 13; 17; 19]; eof].
Example verify_read_into_buffered_reader : forall m,
  run [read_into (br_rb m) [0; 0; 0]; read_into (br_rb m) [0; 0; 0; 0; 0]; read_into (br_rb m) [0; 0]]
      (br_new [EvData into_data]) = into_result.
Proof. intros []; vm_compute; reflexivity. Qed.
Example verify_read_into_cursor : forall m,
  run [read_into (cu_rb m) [0; 0; 0]; read_into (cu_rb m) [0; 0; 0; 0; 0]; read_into (cu_rb m) [0; 0]]
      (mkCursor into_data 0) = into_result.
Proof. intros []; vm_compute; reflexivity. Qed.

(** src/input.rs:306-328 *)
Definition u8_ops {S} (rb : ReadBytes S) : list (M S (option Z)) :=
  let r := map_m Some (read_u8 rb) in [r; r; r; r; read_u8_or_eof rb; read_u8_or_eof rb; r].
Definition u8_result : list (outcome (option Z)) :=
  [Ok (Some 0); Ok (Some 2); Ok (Some 129); Ok (Some 89); Ok (Some 122); Ok None; eof].
Example verify_read_u8_buffered_reader : forall m,
  run (u8_ops (br_rb m)) (br_new [EvData [0; 2; 129; 89; 122]]) = u8_result.
Proof. intros []; vm_compute; reflexivity. Qed.
Example verify_read_u8_cursor : forall m,
  run (u8_ops (cu_rb m)) (mkCursor [0; 2; 129; 89; 122] 0) = u8_result.
Proof. intros []; vm_compute; reflexivity. Qed.

(** src/input.rs:330-392 *)
Definition wide (f : forall S, ReadBytes S -> M S Z) (data : list Z) (x y : Z) : Prop := forall m,
  run (repeat (f _ (br_rb m)) 3) (br_new [EvData data]) = [Ok x; Ok y; eof]
  /\ run (repeat (f _ (cu_rb m)) 3) (mkCursor data 0) = [Ok x; Ok y; eof].
Example verify_read_be_u16 : wide (@read_be_u16) [0; 2; 129; 89; 122] 2 33113.
Proof. intros []; vm_compute; split; reflexivity. Qed.
Example verify_read_be_u24 : wide (@read_be_u24) [0; 0; 2; 143; 255; 243; 122] 2 9437171.
Proof. intros []; vm_compute; split; reflexivity. Qed.
Example verify_read_be_u32 : wide (@read_be_u32) [0; 0; 0; 2; 128; 1; 255; 233; 0] 2 2147614697.
Proof. intros []; vm_compute; split; reflexivity. Qed.
Example verify_read_le_u32 : wide (@read_le_u32) [2; 0; 0; 0; 233; 255; 1; 128; 0] 2 2147614697.
Proof. intros []; vm_compute; split; reflexivity. Qed.

(** src/input.rs:645-669 *)
Example verify_read_bit : forall m,
  let b := bit (read_bit (br_rb m) m) in let r := read_leq_u8 (br_rb m) m in
  run [b; b; b; r 1; b; b; b; b; b; b; b; r 2; b; b; b; b] (bs_new (br_new [EvData [164; 225]]))
  = map Ok [1; 0; 1; 0; 0; 1; 0; 0; 1; 1; 1; 0; 0; 0; 1] ++ [eof].
Proof. intros []; vm_compute; reflexivity. Qed.

(** src/input.rs:671-692 *)
Example verify_read_unary : forall m,
  let u := read_unary (br_rb m) m 10 in
  run [u; u; u; u; u; u; read_leq_u8 (br_rb m) m 3; bit (read_bit (br_rb m) m)]
      (bs_new (br_new [EvData [164; 128; 32; 0; 10]]))
  = map Ok [0; 1; 2; 2; 9; 17; 2] ++ [eof].
Proof. intros []; vm_compute; reflexivity. Qed.

(** src/input.rs:694-724 *)
Example verify_read_leq_u8 : forall m,
  run (map (read_leq_u8 (br_rb m) m) [0; 1; 1; 2; 2; 3; 3; 4; 5; 6; 7; 8; 6; 8; 4; 1; 1; 2])
      (bs_new (br_new [EvData [165; 225; 210; 85; 115; 63; 170; 12]]))
  = map Ok [0; 1; 0; 2; 1; 3; 6; 1; 26; 18; 85; 204; 63; 170; 0; 1; 1; 0].
Proof. intros []; vm_compute; reflexivity. Qed.

(** src/input.rs:726-737 *)
Example verify_read_gt_u8_get_u16 : forall m,
  let r := read_gt_u8_leq_u16 (br_rb m) m 10 in let s := read_leq_u8 (br_rb m) m in
  run [r; r; s 3; r; s 7; r] (bs_new (br_new [EvData [165; 225; 210; 85; 240]]))
  = map Ok [663; 541; 1; 171; 112] ++ [eof].
Proof. intros []; vm_compute; reflexivity. Qed.

(** src/input.rs:739-758 *)
Example verify_read_leq_u16 : forall m,
  run (map (read_leq_u16 (br_rb m) m) [0; 1; 13; 9]) (bs_new (br_new [EvData [165; 225; 210; 85]]))
  = map Ok [0; 1; 2424; 233].
Proof. intros []; vm_compute; reflexivity. Qed.
Example verify_read_leq_u32 : forall m,
  run (map (read_leq_u32 (br_rb m) m) [1; 17; 14]) (bs_new (br_new [EvData [165; 225; 210; 85]]))
  = map Ok [1; 38791; 4693].
Proof. intros []; vm_compute; reflexivity. Qed.

(** src/input.rs:760-777 *)
Example verify_read_mixed : forall m,
  run (read_leq_u8 (br_rb m) m 6 :: read_leq_u8 (br_rb m) m 1 :: repeat (read_leq_u32 (br_rb m) m 17) 7)
      (bs_new (br_new [EvData [3; 199; 191; 229; 155; 116; 30; 58; 221; 125; 197; 94; 246; 191; 120; 27; 189]]))
  = map Ok ([0; 1] ++ map (fun x => 65536 + (65536 + x)) [-14401; -13514; -12168; -10517; -9131; -8489; -8698]).
Proof. intros []; vm_compute; reflexivity. Qed.

(** * src/crc.rs *)

(** src/crc.rs:179-209 *)
Definition crc8_after (m : build) (data : list Z) : outcome Z :=
  last (run (repeat (map_m (fun _ => 0) (read_u8_or_eof (crc8_rb (br_rb m)))) (length data + 1) ++ [crc8_crc])
            (crc8_new (br_new [EvData data]))) OutOfFuel.
Definition crc16_after (m : build) (data : list Z) : outcome Z :=
  last (run (repeat (map_m (fun _ => 0) (read_u8_or_eof (crc16_rb (br_rb m)))) (length data + 1) ++ [crc16_crc])
            (crc16_new (br_new [EvData data]))) OutOfFuel.
Example verify_crc8_test_vectors : forall m,
  map (crc8_after m) [[31]; [4; 1]; [97; 98; 99]] = [Ok 93; Ok 83; Ok 95].
Proof. intros []; vm_compute; reflexivity. Qed.
Example verify_crc16_test_vectors : forall m,
  map (crc16_after m) [[31]; [4; 1]; [97; 98; 99]] = [Ok 32833; Ok 6150; Ok 51931].
Proof. intros []; vm_compute; reflexivity. Qed.

(** * src/frame.rs *)

(** src/frame.rs:107-129 *)
Example verify_read_var_length_int : forall m,
  run (repeat (read_var_length_int (br_rb m) m) 6)
      (br_new [EvData [36; 194; 162; 226; 130; 172; 240; 144; 141; 136; 194; 0; 128]])
  = [Ok 36; Ok 162; Ok 8364; Ok 66376; Err (FormatError "invalid variable-length integer");
     Err (FormatError "invalid variable-length integer")].
Proof. intros []; vm_compute; reflexivity. Qed.

(** src/frame.rs:336-342, 362-368, 391-399 *)
Definition stereo_result : list Z := [2; 5; 83; 113; 127; -63; -45; -15; -5; -33; -59; -125; 127; 89; 7; 3].
Example verify_decode_left_side :
  decode_left_side [2; 5; 83; 113; 127; -63; -45; -15; 7; 38; 142; 238; 0; -152; -52; -18] = stereo_result.
Proof. vm_compute. reflexivity. Qed.
Example verify_decode_right_side :
  decode_right_side [7; 38; 142; 238; 0; -152; -52; -18; -5; -33; -59; -125; 127; 89; 7; 3] = stereo_result.
Proof. vm_compute. reflexivity. Qed.
Example verify_decode_mid_side :
  decode_mid_side [-2; -14; 12; -6; 127; 13; -19; -6; 7; 38; 142; 238; 0; -152; -52; -18] = stereo_result.
Proof. vm_compute. reflexivity. Qed.

(** src/frame.rs:531-543, 582-599 *)
Definition primes : list Z := [2; 3; 5; 7; 11; 13; 17; 19; 23; 29; 31; 37; 41; 43; 47].
Example verify_block_sample :
  let b := mkBlock 0 5 3 (mkVec primes 15) in
  [block_sample b 0 2; block_sample b 1 3; block_sample b 2 4] = [Ok 5; Ok 23; Ok 47].
Proof. vm_compute. reflexivity. Qed.
Example verify_block_stereo_samples_iterator : forall m,
  match block_stereo_samples (mkBlock 0 3 2 (mkVec primes 15)) with
  | Ok it => run (repeat (stereo_next m) 4) it = [Ok (Some (2, 7)); Ok (Some (3, 11)); Ok (Some (5, 13)); Ok None]
  | _ => False
  end.
Proof. intros []; vm_compute; reflexivity. Qed.

(** src/frame.rs:639-648 *)
Example ensure_buffer_len_returns_buffer_with_new_len :
  forallb (fun capacity => forallb (fun new_len =>
    len (v_items (fst (ensure_buffer_len (mkVec [] (Z.of_nat capacity)) (Z.of_nat new_len)))) =? Z.of_nat new_len)
    (seq 0 10)) (seq 0 10) = true.
Proof. vm_compute. reflexivity. Qed.

(** * src/subframe.rs *)

(** src/subframe.rs:103-112, 124-140 *)
Example verify_extend_sign_u16 : forall m,
  map (fun p => extend_sign_u16 m (fst p) (snd p))
      [(5, 4); (16382, 15); (16 - 5, 4); (512 - 3, 9); (65535, 16); (65534, 16); (32767, 15)]
  = map Ok [5; 16382; -5; -3; -1; -2; -1].
Proof. intros []; vm_compute; reflexivity. Qed.
Example verify_extend_sign_u32 : forall m,
  map (fun p => extend_sign_u32 m (fst p) (snd p))
      [(5, 4); (1073741822, 31); (16 - 5, 4); (512 - 3, 9); (65534, 16); (4294967295, 32); (4294967294, 32);
       (2147483647, 31); (124680, 17); (124467, 17); (124222, 17); (124011, 17)]
  = map Ok [5; 1073741822; -5; -3; -2; -1; -2; -1; -6392; -6605; -6850; -7061].
Proof. intros []; vm_compute; reflexivity. Qed.

(** src/subframe.rs:172-179 *)
Example verify_rice_to_signed : map rice_to_signed [0; 1; 2; 3; 4] = [0; -1; 1; -2; 2].
Proof. vm_compute. reflexivity. Qed.

(** src/subframe.rs:476-490 *)
Example verify_predict_fixed : forall m,
  predict_fixed m 3 [-729; -722; -667; -19; -16; 17; -23; -7; 16; -16; -5; 3; -8; -13; -15; -1]
  = Ok [-729; -722; -667; -583; -486; -359; -225; -91; 59; 209; 354; 497; 630; 740; 812; 845]
  /\ predict_fixed m 2 [21877; 27482; -6513] = Ok [21877; 27482; 26574].
Proof. intros []; vm_compute; split; reflexivity. Qed.

(** src/subframe.rs:616-651 *)
Example verify_predict_lpc : forall m,
  predict_lpc_low_order m [-75; 166; 121; -269; -75; -399; 1042] 9
    [-796; -547; -285; -32; 199; 443; 670; -2; -23; 14; 6; 3; -4; 12; -2; 10]
  = Ok [-796; -547; -285; -32; 199; 443; 670; 875; 1046; 1208; 1343; 1454; 1541; 1616; 1663; 1701]
  /\ predict_lpc_low_order m [119; -255; 555; -836; 879; -1199; 1757] 10
       [-21363; -21951; -22649; -24364; -27297; -26870; -30017; 3157]
     = Ok [-21363; -21951; -22649; -24364; -27297; -26870; -30017; -29718]
  /\ predict_lpc_high_order m
       [709; -2589; 4600; -4612; 1350; 4220; -9743; 12671; -12129; 8586;
        -3775; -645; 3904; -5543; 4373; 182; -6873; 13265; -15417; 11550] 12
       [213238; 210830; 234493; 209515; 235139; 201836; 208151; 186277; 157720; 148176;
        115037; 104836; 60794; 54523; 412; 17943; -6025; -3713; 8373; 11764; 30094]
     = Ok [213238; 210830; 234493; 209515; 235139; 201836; 208151; 186277; 157720; 148176;
           115037; 104836; 60794; 54523; 412; 17943; -6025; -3713; 8373; 11764; 33931].
Proof. intros []; vm_compute; repeat split; reflexivity. Qed.
