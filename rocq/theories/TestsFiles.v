(** The crate's tests over sample files (tests/testsamples.rs), run on the model with
    the sample files of /repo/testsamples.  These are tests, not proofs (see
    TestsUnit.v).  [compare_decoded_stream] compares with the reference decoder, which
    is not available here; instead the MD5 sum of the decoded samples is compared with
    the one that the encoder has put into the streaminfo block. *)
From Coq Require Import Ascii.
From Verif Require Import ModelLib SpecMd5.

(** The program in the tests: a [FlacReader] on a file, which returns up to 2048 bytes
    per [read]. *)
Fixpoint file_reads (n : nat) (data : list Z) : list event :=
  match n with
  | O => []
  | S n => match data with
           | [] => []
           | _ => EvData (firstn (Z.to_nat 2048) data) :: file_reads n (skipn (Z.to_nat 2048) data)
           end
  end.
Definition fuel_for (data : list Z) : nat := (length data + 10)%nat.
Definition opened (m : build) (opts : flac_reader_options) (data : list Z) : outcome (flac_reader breader) :=
  flac_new_ext m (repeat 165) (fuel_for data) (file_reads (fuel_for data) data) opts.

(** [while let Ok(Some(block)) = reader.blocks().read_next_or_eof(buffer)]: the blocks
    and the result that ends the loop. *)
Fixpoint all_blocks (m : build) (fuel : nat) (buffer : vec) (n : nat) (inp : breader) : list block * outcome (option block) :=
  match n with
  | O => ([], OutOfFuel)
  | S n => match read_next_or_eof (br_rb m) m fuel buffer inp with
           | (Ok (Some b), inp') => let (bs, r) := all_blocks m fuel buffer n inp' in (b :: bs, r)
           | (r, _) => ([], r)
           end
  end.
Definition decoded (m : build) (buffer : vec) (data : list Z) : outcome (stream_info * list block * outcome (option block)) :=
  r <~ opened m default_options data ;;
  inp <~ fr_blocks r ;;
  let (bs, e) := all_blocks m (fuel_for data) buffer (length data) inp in
  Ok (fr_get_streaminfo r, bs, e).

(** The samples as bytes: interleaved, signed, little-endian, in whole bytes. *)
Fixpoint le_bytes (n : nat) (x : Z) : list Z :=
  match n with O => [] | S n => x mod 256 :: le_bytes n (x / 256) end.
Definition block_bytes (width : Z) (b : block) : list Z :=
  flat_map (fun i => flat_map (fun ch =>
    match block_sample b (Z.of_nat ch) (Z.of_nat i) with
    | Ok x => le_bytes (Z.to_nat ((width + 7) / 8)) x
    | _ => []
    end) (seq 0 (Z.to_nat (block_channels b)))) (seq 0 (Z.to_nat (block_duration b))).

(** What [compare_decoded_stream] checks. *)
Definition decodes_well (m : build) (data : list Z) : bool :=
  match decoded m (mkVec [] 0) data with
  | Ok (si, bs, Ok None) =>
      let sum := md5 (flat_map (block_bytes (si_bits_per_sample si)) bs) in
      forallb (fun p => fst p =? snd p) (combine sum (si_md5sum si))
      && (len (si_md5sum si) =? 16)
      && match si_samples si with Some n => fold_right (fun b => Z.add (block_duration b)) 0 bs =? n | None => true end
  | _ => false
  end.

(** tests/testsamples.rs:499-542: no panic, and the same blocks whatever is in the
    buffer. *)
Definition is_panic {A} (r : outcome A) : bool :=
  match r with Ok _ | Err _ => false | _ => true end.
Definition fuzz_ok (m : build) (data : list Z) : bool :=
  let d x := decoded m (mkVec (repeat x (Z.to_nat (1024 * 16))) (1024 * 16)) data in
  match d 13, d 17 with
  | Ok (_, bs1, r1), Ok (_, bs2, r2) =>
      negb (is_panic r1) && negb (is_panic r2) && (len bs1 =? len bs2)
      && forallb (fun p : block * block => let (b1, b2) := p in
           (len (v_items (block_into_buffer b1)) =? len (v_items (block_into_buffer b2)))
           && forallb (fun p => fst p =? snd p) (combine (v_items (block_into_buffer b1)) (v_items (block_into_buffer b2))))
         (combine bs1 bs2)
  | Err _, Err _ => true
  | _, _ => false
  end.

(** * The files *)

(** testsamples/short.flac *)
Definition short_flac : list Z := [
  102; 76; 97; 67; 0; 0; 0; 34; 16; 0; 16; 0; 0; 0; 18; 0; 0; 18; 10; 196; 64; 240; 0; 0; 0; 4; 146; 117;
   152; 184; 156; 137; 193; 18; 154; 21; 46; 236; 252; 20; 7; 94; 3; 0; 0; 18; 0; 0; 0; 0; 0; 0; 0; 0; 0; 0;
   0; 0; 0; 0; 0; 0; 0; 4; 132; 0; 0; 40; 32; 0; 0; 0; 114; 101; 102; 101; 114; 101; 110; 99; 101; 32; 108;
   105; 98; 70; 76; 65; 67; 32; 49; 46; 51; 46; 50; 32; 50; 48; 49; 55; 48; 49; 48; 49; 0; 0; 0; 0; 255; 248;
   105; 8; 0; 3; 20; 64; 0; 2; 182; 79; 64; 2; 194; 12; 75; 157].

(** testsamples/pop.flac *)
Definition pop_flac : list Z := [
  102; 76; 97; 67; 128; 0; 0; 34; 16; 0; 16; 0; 0; 0; 63; 0; 0; 63; 10; 196; 64; 240; 0; 0; 0; 100; 104; 70;
   66; 136; 250; 94; 25; 131; 85; 22; 151; 45; 207; 71; 34; 60; 255; 248; 105; 8; 0; 99; 51; 24; 0; 0; 8; 4;
   16; 1; 23; 238; 0; 163; 46; 78; 138; 101; 218; 106; 149; 46; 98; 137; 233; 47; 50; 164; 215; 39; 73; 204;
   86; 222; 55; 237; 102; 115; 20; 142; 203; 174; 242; 89; 20; 135; 49; 83; 163; 178; 205; 228; 138; 71; 219;
   205; 96; 181; 117].

(** testsamples/wasted_bits.flac *)
Definition wasted_bits_flac : list Z := [
  102; 76; 97; 67; 0; 0; 0; 34; 16; 0; 16; 0; 0; 0; 104; 0; 3; 209; 10; 196; 64; 240; 0; 0; 17; 58; 79; 188;
   164; 207; 48; 241; 136; 69; 60; 6; 118; 224; 205; 112; 12; 113; 3; 0; 0; 18; 0; 0; 0; 0; 0; 0; 0; 0; 0; 0;
   0; 0; 0; 0; 0; 0; 16; 0; 132; 0; 0; 84; 32; 0; 0; 0; 114; 101; 102; 101; 114; 101; 110; 99; 101; 32; 108;
   105; 98; 70; 76; 65; 67; 32; 49; 46; 51; 46; 50; 32; 50; 48; 49; 55; 48; 49; 48; 49; 1; 0; 0; 0; 40; 0; 0;
   0; 87; 65; 86; 69; 70; 79; 82; 77; 65; 84; 69; 88; 84; 69; 78; 83; 73; 66; 76; 69; 95; 67; 72; 65; 78; 78;
   69; 76; 95; 77; 65; 83; 75; 61; 48; 120; 48; 48; 48; 49; 255; 248; 201; 8; 0; 149; 21; 1; 0; 7; 4; 15;
   100; 75; 186; 237; 184; 145; 43; 183; 125; 243; 114; 153; 73; 73; 204; 204; 228; 206; 79; 37; 57; 79; 74;
   105; 119; 117; 43; 110; 183; 109; 238; 151; 150; 89; 231; 57; 156; 153; 201; 201; 206; 101; 37; 158; 154;
   111; 72; 150; 219; 174; 164; 118; 237; 145; 41; 114; 229; 41; 41; 156; 228; 228; 230; 78; 114; 121; 229;
   58; 116; 165; 189; 183; 107; 182; 219; 187; 217; 101; 229; 57; 66; 153; 204; 148; 57; 153; 156; 148; 148;
   202; 83; 79; 75; 218; 87; 82; 36; 118; 226; 87; 123; 75; 44; 185; 79; 57; 148; 57; 153; 194; 147; 57; 156;
   161; 103; 74; 123; 34; 93; 219; 109; 214; 235; 219; 239; 132; 121; 76; 166; 101; 10; 76; 206; 76; 230;
   101; 10; 114; 158; 148; 210; 238; 237; 214; 235; 169; 18; 37; 221; 47; 44; 179; 207; 37; 38; 114; 115; 39;
   51; 153; 73; 103; 166; 155; 237; 221; 117; 218; 145; 234; 68; 189; 46; 92; 165; 37; 57; 41; 57; 147; 153;
   153; 156; 231; 148; 233; 210; 150; 246; 237; 72; 237; 183; 110; 246; 89; 121; 78; 82; 80; 166; 74; 20; 57;
   194; 133; 39; 146; 153; 74; 116; 233; 123; 183; 109; 184; 149; 187; 116; 169; 101; 151; 41; 231; 57; 153;
   153; 201; 156; 148; 41; 159; 52; 211; 217; 82; 165; 72; 145; 43; 117; 215; 105; 18; 247; 41; 121; 76; 166;
   115; 57; 51; 147; 153; 41; 60; 229; 60; 67; 210; 239; 82; 183; 93; 174; 221; 165; 165; 229; 46; 121; 66;
   153; 201; 201; 204; 148; 40; 82; 82; 82; 89; 233; 166; 251; 72; 149; 218; 237; 182; 238; 244; 185; 101;
   148; 148; 230; 115; 37; 14; 102; 103; 51; 158; 83; 167; 74; 90; 87; 169; 18; 59; 137; 18; 180; 137; 82;
   233; 121; 101; 158; 115; 57; 153; 156; 41; 51; 153; 230; 82; 157; 58; 94; 238; 219; 110; 183; 82; 186; 84;
   165; 203; 148; 242; 133; 39; 133; 38; 114; 114; 115; 153; 243; 77; 61; 149; 45; 219; 173; 215; 106; 87;
   189; 150; 94; 83; 156; 161; 66; 147; 147; 153; 57; 156; 231; 41; 165; 61; 46; 145; 45; 187; 93; 181; 34;
   91; 75; 75; 194; 62; 124; 207; 39; 50; 115; 51; 51; 156; 161; 103; 165; 59; 34; 93; 187; 82; 59; 110; 37;
   187; 210; 229; 150; 83; 60; 228; 161; 204; 225; 66; 147; 146; 153; 229; 61; 52; 165; 165; 74; 237; 183;
   18; 183; 105; 18; 233; 121; 101; 158; 115; 153; 153; 156; 153; 204; 207; 50; 148; 233; 210; 247; 174; 235;
   117; 215; 118; 149; 41; 114; 229; 40; 89; 156; 206; 20; 156; 156; 204; 202; 20; 243; 77; 61; 149; 45; 221;
   117; 218; 237; 221; 134; 203; 47; 41; 207; 51; 57; 147; 153; 146; 147; 156; 229; 52; 167; 165; 210; 189;
   118; 187; 109; 212; 169; 105; 115; 124; 249; 204; 228; 161; 67; 153; 156; 156; 229; 11; 61; 158; 200; 151;
   117; 219; 113; 34; 87; 110; 251; 230; 229; 50; 146; 147; 153; 153; 201; 156; 158; 74; 114; 158; 148; 210;
   238; 234; 86; 221; 110; 219; 221; 47; 44; 179; 206; 115; 57; 51; 147; 147; 156; 202; 75; 61; 52; 222; 145;
   45; 183; 93; 72; 237; 219; 34; 82; 229; 202; 82; 83; 57; 201; 201; 204; 156; 228; 243; 202; 116; 233; 75;
   123; 110; 215; 109; 183; 119; 178; 203; 202; 114; 133; 51; 153; 40; 115; 51; 57; 41; 41; 148; 166; 158;
   151; 180; 174; 164; 72; 237; 196; 174; 246; 150; 89; 114; 158; 115; 40; 115; 51; 133; 38; 115; 57; 66;
   206; 148; 246; 68; 187; 182; 219; 173; 215; 183; 223; 8; 242; 153; 76; 202; 20; 153; 156; 153; 204; 202;
   20; 229; 61; 41; 165; 221; 219; 173; 215; 82; 36; 75; 186; 94; 89; 103; 158; 74; 76; 228; 230; 78; 103;
   50; 146; 207; 77; 55; 219; 186; 235; 181; 35; 212; 137; 122; 92; 185; 74; 74; 114; 82; 115; 39; 51; 51;
   57; 207; 41; 211; 165; 45; 237; 218; 145; 219; 110; 221; 236; 178; 242; 156; 164; 161; 76; 148; 40; 115;
   133; 10; 79; 37; 50; 148; 233; 210; 247; 110; 219; 113; 43; 118; 233; 82; 203; 46; 83; 206; 115; 51; 51;
   147; 57; 40; 83; 62; 105; 167; 178; 165; 74; 145; 34; 86; 235; 174; 210; 37; 238; 82; 242; 153; 76; 230;
   114; 103; 39; 50; 82; 121; 202; 120; 135; 165; 222; 165; 110; 187; 93; 187; 75; 75; 202; 92; 242; 133; 51;
   147; 147; 153; 40; 80; 164; 164; 164; 179; 211; 77; 246; 145; 43; 181; 219; 109; 221; 233; 114; 203; 41;
   41; 204; 230; 74; 28; 204; 206; 103; 60; 167; 78; 148; 180; 175; 82; 36; 119; 18; 37; 105; 18; 165; 210;
   242; 203; 60; 230; 115; 51; 56; 82; 103; 51; 204; 165; 58; 116; 189; 221; 182; 221; 110; 165; 116; 169;
   75; 151; 41; 229; 10; 79; 10; 76; 228; 228; 231; 51; 230; 154; 123; 42; 91; 183; 91; 174; 212; 175; 123;
   148; 188; 167; 57; 66; 133; 39; 39; 50; 115; 57; 206; 83; 74; 122; 93; 34; 91; 118; 187; 106; 68; 182;
   150; 151; 132; 124; 249; 158; 78; 100; 230; 102; 103; 57; 66; 207; 74; 118; 68; 187; 118; 164; 118; 220;
   75; 119; 165; 203; 44; 166; 121; 201; 67; 153; 194; 133; 39; 37; 51; 202; 122; 105; 75; 74; 149; 219; 110;
   37; 110; 210; 37; 210; 242; 203; 60; 231; 51; 51; 57; 51; 153; 99; 12; 255; 248; 121; 8; 1; 1; 57; 176;
   21; 1; 162; 168; 0; 106; 82; 214; 171; 85; 174; 174; 175; 174; 190; 235; 235; 235; 174; 215; 173; 116;
   186; 90; 203; 148; 169; 74; 139; 74; 146; 165; 41; 75; 45; 84; 173; 90; 171; 151; 174; 235; 175; 175; 174;
   250; 238; 186; 234; 229; 203; 169; 106; 149; 74; 82; 165; 37; 74; 82; 90; 84; 169; 82; 213; 173; 85; 174;
   181; 245; 125; 119; 215; 119; 117; 235; 215; 107; 165; 117; 74; 169; 82; 149; 37; 150; 84; 165; 42; 74;
   149; 44; 185; 84; 45; 201].

(** testsamples/repeated_vorbis_comment.flac *)
Definition repeated_vorbis_comment_flac : list Z := [
  102; 76; 97; 67; 0; 0; 0; 34; 16; 0; 16; 0; 0; 0; 63; 0; 0; 63; 10; 196; 64; 240; 0; 0; 0; 100; 104; 70;
   66; 136; 250; 94; 25; 131; 85; 22; 151; 45; 207; 71; 34; 60; 132; 0; 0; 62; 32; 0; 0; 0; 114; 101; 102;
   101; 114; 101; 110; 99; 101; 32; 108; 105; 98; 70; 76; 65; 67; 32; 49; 46; 51; 46; 50; 32; 50; 48; 49; 55;
   48; 49; 48; 49; 2; 0; 0; 0; 7; 0; 0; 0; 70; 79; 79; 61; 98; 97; 114; 7; 0; 0; 0; 70; 79; 79; 61; 98; 97;
   122; 255; 248; 105; 8; 0; 99; 51; 24; 0; 0; 8; 4; 16; 1; 23; 238; 0; 163; 46; 78; 138; 101; 218; 106; 149;
   46; 98; 137; 233; 47; 50; 164; 215; 39; 73; 204; 86; 222; 55; 237; 102; 115; 20; 142; 203; 174; 242; 89;
   20; 135; 49; 83; 163; 178; 205; 228; 138; 71; 219; 205; 96; 181; 117].

(** testsamples/empty_vorbis_comment.flac *)
Definition empty_vorbis_comment_flac : list Z := [
  102; 76; 97; 67; 0; 0; 0; 34; 16; 0; 16; 0; 0; 0; 63; 0; 0; 63; 10; 196; 64; 240; 0; 0; 0; 100; 104; 70;
   66; 136; 250; 94; 25; 131; 85; 22; 151; 45; 207; 71; 34; 60; 132; 0; 0; 62; 32; 0; 0; 0; 114; 101; 102;
   101; 114; 101; 110; 99; 101; 32; 108; 105; 98; 70; 76; 65; 67; 32; 49; 46; 51; 46; 50; 32; 50; 48; 49; 55;
   48; 49; 48; 49; 3; 0; 0; 0; 7; 0; 0; 0; 70; 79; 79; 61; 98; 97; 114; 0; 0; 0; 0; 3; 0; 0; 0; 88; 61; 89;
   255; 248; 105; 8; 0; 99; 51; 24; 0; 0; 8; 4; 16; 1; 23; 238; 0; 163; 46; 78; 138; 101; 218; 106; 149; 46;
   98; 137; 233; 47; 50; 164; 215; 39; 73; 204; 86; 222; 55; 237; 102; 115; 20; 142; 203; 174; 242; 89; 20;
   135; 49; 83; 163; 178; 205; 228; 138; 71; 219; 205; 96; 181; 117].

(** testsamples/large_vendor_string.flac *)
Definition large_vendor_string_flac : list Z := [
  102; 76; 97; 67; 4; 0; 0; 102; 34; 18; 0; 249; 76].

(** testsamples/large_vorbis_comment_block.flac *)
Definition large_vorbis_comment_block_flac : list Z := [
  102; 76; 97; 67; 4; 247; 0; 8; 0; 0; 0; 0; 0; 0; 40; 0; 0; 0; 0; 0; 0; 4; 0; 18; 255; 255; 255; 255; 255;
   255; 255; 255; 58; 255; 255; 76].

(** * tests/testsamples.rs *)

(** tests/testsamples.rs:379-394 *)
Example verify_decoded_stream_pop : forall m, decodes_well m pop_flac = true.
Proof. intros []; vm_compute; reflexivity. Qed.
Example verify_decoded_stream_short : forall m, decodes_well m short_flac = true.
Proof. intros []; vm_compute; reflexivity. Qed.
Example verify_decoded_stream_wasted_bits : forall m, decodes_well m wasted_bits_flac = true.
Proof. intros []; vm_compute; reflexivity. Qed.
(** The test can fail. *)
Example verify_decoded_stream_detects : decodes_well Debug (firstn 104 pop_flac) = false.
Proof. vm_compute. reflexivity. Qed.

(** tests/testsamples.rs:319-352 *)
Definition str (s : string) : list Z := map (fun a => Z.of_nat (nat_of_ascii a)) (list_ascii_of_string s).
Fixpoint take {S A} (c : M S A) (n : nat) (st : S) : list (outcome A) :=
  match n with O => [] | S n => let (r, st') := c st in r :: take c n st' end.
Example test_flac_reader_get_tag_returns_all_matches : forall m,
  match opened m default_options repeated_vorbis_comment_flac with
  | Ok r => take get_tag_next 3 (fr_get_tag r (str "FOO")) = [Ok (Some (str "bar")); Ok (Some (str "baz")); Ok None]
            /\ take get_tag_next 3 (fr_get_tag r (str "foo")) = [Ok (Some (str "bar")); Ok (Some (str "baz")); Ok None]
            /\ take get_tag_next 1 (fr_get_tag r (str "foobar")) = [Ok None]
  | _ => False
  end.
Proof. intros []; vm_compute; repeat split. Qed.
Example test_flac_reader_tags_skips_empty_vorbis_comments : forall m,
  match opened m default_options empty_vorbis_comment_flac with
  | Ok r => take tags_next 3 (fr_tags r)
            = [Ok (Some (str "FOO", str "bar")); Ok (Some (str "X", str "Y")); Ok None]
  | _ => False
  end.
Proof. intros []; vm_compute; reflexivity. Qed.

(** tests/testsamples.rs:404-426 *)
Example verify_limits_on_vendor_string : forall m,
  match opened m default_options large_vendor_string_flac with
  | Err e => error_eqb e (FormatError "vendor string too long") = true
  | _ => False
  end.
Proof. intros []; vm_compute; reflexivity. Qed.
Example verify_limits_on_vorbis_comment_block : forall m,
  match opened m default_options large_vorbis_comment_block_flac with
  | Err (Unsupported _) => True
  | _ => False
  end.
Proof. intros []; vm_compute; exact I. Qed.

(** tests/testsamples.rs:428-468 *)
Example metadata_only_still_reads_vorbis_comment_block : forall m,
  match opened m (mkOpts true true) short_flac with
  | Ok r => fr_vendor r = Some (str "reference libFLAC 1.3.2 20170101")
  | _ => False
  end.
Proof. intros []; vm_compute; reflexivity. Qed.
Example no_read_vorbis_comment_block_does_not_contain_vendor_string : forall m,
  match opened m (mkOpts true false) short_flac with
  | Ok r => fr_vendor r = None
  | _ => False
  end.
Proof. intros []; vm_compute; reflexivity. Qed.
Example samples_panics_when_metadata_only_is_set : forall m,
  match opened m (mkOpts true true) short_flac with
  | Ok r => is_panic (fr_samples r) = true /\ is_panic (fr_blocks r) = true
  | _ => False
  end.
Proof. intros []; vm_compute; split; reflexivity. Qed.

(** tests/testsamples.rs:498-545: testsamples/fuzz/*.flac *)
Definition fuzz_samples : list (list Z) := [
  (* 02947f56c6c14d3d3d756dbeecc06352e66bd18a.flac *)
  [
  102; 76; 97; 67; 128; 0; 0; 34; 16; 0; 16; 0; 0; 0; 63; 0; 0; 63; 10; 196; 64; 240; 0; 0; 0; 100; 104; 70;
   66; 136; 250; 94; 25; 131; 85; 22; 151; 45; 207; 71; 34; 60; 255; 248; 105; 8; 0; 99; 51; 24; 171; 171;
   171; 171; 171; 102; 76; 97; 67; 128; 0; 0; 34; 16; 0; 16; 0; 0; 0; 63; 0; 0; 171; 171; 171; 171; 63; 10;
   196; 64; 240; 0; 0; 0; 100; 104; 70; 66; 136; 250; 94; 25; 131; 85; 22; 151; 45; 207; 71; 171; 187; 171;
   171; 171; 171; 171; 171; 171; 171; 171; 171; 171; 171; 171; 171; 171; 171; 171; 171; 171; 171; 171; 171;
   171; 171; 171; 171; 171; 171; 171; 171; 171; 171; 171; 250; 102; 76; 97; 67; 128; 0; 0; 34; 16; 0; 16; 0;
   0; 0; 63; 0; 0; 63; 10; 94; 25; 131; 85; 22; 151; 45; 196; 64; 240; 0; 0; 0; 58; 104; 0; 0; 0; 0; 207; 71;
   34; 34; 60; 255; 248; 107; 149; 46; 98; 137; 163; 178; 205; 228; 0; 0; 0; 0; 22; 151; 45; 207; 71; 34; 60;
   255; 248; 105; 8; 0; 99; 51; 102; 76; 97; 67; 0; 0; 0; 34; 18; 0; 18; 0; 1; 0; 0; 0; 0; 0; 0; 0; 0; 0; 0;
   0; 0; 0; 0; 0; 0; 102; 76; 97; 67; 0; 0; 0; 34; 18; 0; 0; 116; 0; 0; 9; 18; 53; 193; 10; 196; 66; 240; 0;
   188; 97; 48; 203; 208; 20; 138; 71; 219; 60; 255; 96; 117; 181; 205; 248; 76; 0; 6; 0; 0; 0; 0; 0; 0; 0;
   255; 255; 255; 255; 255; 255; 255; 255; 0; 0; 0; 0; 0; 0; 0; 0; 0; 0; 0; 0; 0; 0; 0; 0; 0; 0; 0; 0; 102;
   76; 97; 67; 0; 0; 0; 0; 0; 0; 0; 0; 0; 0; 0; 0; 0; 0; 0; 0; 0; 0; 0; 0; 0; 0; 0; 0; 0; 0; 0; 0; 0; 0; 0;
   0; 0; 0; 0; 235; 62; 115; 0; 0; 105; 8; 0; 99; 0; 34; 18; 0; 0; 0; 0; 0; 0; 186; 12; 0; 0; 0; 0; 0; 0;
   239; 212; 242; 18; 0; 0; 0; 0; 0; 0; 189; 18; 90; 0; 0; 0; 0; 0; 0; 244; 81; 245; 18; 0; 0; 0; 0; 0; 0; 0;
   192; 168; 0; 0; 0; 0; 4; 51; 24; 0; 0; 248; 233; 42; 18; 117; 174; 14; 166; 235; 119; 49; 83; 163; 178;
   205; 228; 138; 71; 219; 205; 96; 181; 227; 248; 105; 41; 255; 0; 33; 8; 56; 51; 99; 102; 76; 97; 67; 0; 0;
   0; 34; 18; 0; 18; 0; 1; 0; 0; 0; 0; 0; 0; 0; 0; 0; 0; 0; 0; 0; 0; 0; 0; 0; 0; 0; 0; 0; 0; 0; 0; 0; 0; 0;
   0; 15; 0; 0; 8; 4; 16; 1; 23; 238; 0; 163; 46; 78; 138; 101; 0; 0; 218; 102; 76; 97; 67; 128; 0; 0; 34;
   16; 0; 16; 0; 0; 0; 63; 0; 0; 63; 10; 196; 64; 240; 0; 0; 0; 100; 104; 70; 66; 136; 250; 94; 25; 131; 85;
   22; 151; 45; 207; 71; 34; 60; 255; 248; 105; 8; 0; 99; 51; 24; 0; 0; 8; 4; 16; 1; 23; 238; 0; 163; 46;
   106; 149; 46; 98; 137; 233; 216; 0; 0; 0; 0; 0; 0; 0; 0; 0; 0; 0; 0; 0; 0; 0; 0; 0; 0; 0; 0; 0; 0; 0; 0;
   15; 0; 0; 8; 4; 16; 1; 23; 238; 0; 163; 46; 78; 138; 101; 218; 106; 149; 46; 98; 137; 233; 216; 205; 91;
   40; 216; 182; 54; 169; 222; 55; 237; 102; 115; 20; 142; 203; 174; 14; 166; 235; 119; 49; 0; 0; 0; 0; 78;
   138; 101; 0; 0; 0; 218; 106; 149; 46; 98; 137; 233; 47; 50; 164; 215; 34; 73; 204; 86; 222; 55; 237; 102;
   115; 20; 142; 203; 174; 242; 89; 20; 135; 49; 83; 163; 178; 0; 83; 0; 205; 228; 138; 0; 71; 219; 205; 96;
   181; 117; 0; 102; 76; 97; 67; 0; 0; 0; 0; 0; 0; 0; 0; 102; 76; 97; 67; 134; 0; 0; 34; 18; 0; 18; 0; 76;
   97; 67; 0; 0; 0; 34; 18; 0; 0; 0; 0; 0; 0; 0; 235; 62; 115; 0; 0; 0; 34; 18; 0; 0; 0; 0; 0; 0; 186; 12; 0;
   0; 0; 0; 0; 0; 239; 212; 242; 18; 0; 0; 0; 0; 0; 0; 189; 18; 90; 0; 0; 0; 0; 0; 0; 244; 81; 245; 18; 0; 0;
   0; 0; 0; 0; 0; 128; 0; 0; 34; 16; 0; 16; 0; 0; 0; 63; 0; 0; 63; 10; 196; 64; 240; 0; 0; 0; 58; 104; 0; 0;
   0; 0; 0; 0; 0; 0; 22; 151; 45; 207; 71; 34; 60; 255; 248; 105; 8; 0; 99; 51; 67; 0; 0; 0; 34; 18; 0; 0;
   116; 0; 0; 9; 18; 53; 193; 10; 196; 66; 240; 0; 188; 97; 48; 203; 208; 20; 76; 0; 6; 0; 0; 0; 0; 0; 1; 23;
   238; 0; 163; 46; 78; 138; 101; 218; 106; 149; 46; 98; 137; 233; 216; 0; 0; 0; 0; 0; 0; 0; 0; 0; 0; 0; 0;
   0; 102; 76; 97; 67; 0; 0; 0; 9; 116; 0; 53; 34; 16; 0; 16; 0; 0; 0; 63; 0; 0; 63; 10; 196; 64; 240; 0; 0;
   0; 100; 104; 70; 66; 136; 250; 94; 25; 131; 85; 22; 151; 45; 207; 71; 34; 60; 255; 248; 105; 49; 0; 24;
   99; 8; 0; 0; 8; 4; 16; 135; 49; 18; 196; 66; 240; 0; 8; 4; 16; 1; 23; 238; 0; 163; 46; 78; 138; 101; 218;
   106; 149; 46; 98; 142; 203; 174; 242; 89; 0; 100; 104; 0; 163; 178; 205; 228; 138; 71; 219; 0; 0; 0; 0; 0;
   0; 102; 76; 225; 67; 1; 0; 0; 0; 0; 0; 0; 240; 0; 0; 67; 16];
  (* 07d990b7992590022e2721bfaa83e4bd3b905443.flac *)
  [
  26; 48; 102; 76; 97; 67; 128; 0; 0; 34; 4; 60; 56; 41; 52; 52; 52; 52; 52; 52; 52; 56; 52; 52; 52; 203;
   196; 52; 52; 52; 221; 192; 52; 52; 52; 52; 1; 0; 0; 19; 52; 52; 52; 63; 255; 248; 97; 26; 1; 1; 52; 16;
   72; 27; 97; 0; 0; 0; 0; 0; 0; 32; 0; 0];
  (* 0fd738fd5832a540bef0743db62f68c0c642e095.flac *)
  [
  102; 76; 97; 67; 128; 0; 0; 34; 16; 0; 16; 64; 0; 0; 63; 0; 0; 63; 18; 196; 64; 240; 0; 0; 0; 0; 87; 70;
   66; 136; 250; 94; 25; 131; 85; 22; 151; 45; 207; 71; 34; 60; 255; 248; 102; 152; 76; 97; 225; 67; 0; 128;
   0; 0; 49; 49; 49; 49; 49; 49; 49; 49; 49; 49; 49; 49; 49; 49; 49; 49; 49; 49; 49; 49; 49; 49; 49; 49; 49;
   49; 49; 49; 49; 49; 49; 49; 49; 49; 49; 49; 49; 49; 49; 49; 49; 49; 49; 49; 49; 49; 49; 49; 49; 49; 49;
   49; 49; 49; 49; 49; 49; 49; 49; 49; 49; 49; 49; 49; 49; 49; 49; 49; 49; 49; 49; 49; 49; 49; 49; 49; 49;
   49; 49; 49; 49; 49; 49; 49; 49; 49; 49; 49; 49; 49; 49; 49; 49; 49; 49; 49; 49; 49; 49; 49; 49; 49; 49;
   49; 49; 49; 49; 49; 49; 49; 49; 49; 49; 49; 49; 49; 49; 49; 49; 49; 49; 49; 49; 49; 49; 49; 49; 49; 49;
   49; 49; 49; 49; 49; 49; 49; 49; 49; 49; 49; 49; 49; 49; 49; 49; 49; 49; 49; 49; 49; 49; 49; 49; 49; 49;
   49; 49; 49; 49; 49; 49; 49; 49; 49; 49; 49; 49; 49; 49; 49; 49; 49; 49; 49; 49; 49; 49; 49; 49; 49; 49;
   49; 49; 49; 49; 49; 49; 49; 49; 49; 49; 49; 49; 49; 49; 49; 49; 49; 49; 49; 49; 49; 49; 49; 49; 49; 49;
   49; 49; 49; 232; 3; 49; 49; 0; 58; 104; 151];
  (* 1cc7059cbdac01b75e91eef8e826895cdfbaccca.flac *)
  [
  102; 76; 97; 67; 128; 0; 0; 34; 16; 0; 16; 0; 0; 0; 63; 0; 0; 63; 10; 196; 64; 240; 0; 0; 0; 58; 104; 0; 0;
   0; 0; 0; 0; 0; 0; 22; 151; 45; 207; 71; 34; 60; 255; 248; 102; 136; 76; 97; 67; 0; 18; 0; 1; 0; 0; 0; 22;
   151; 194; 194; 194; 194; 194; 194; 194; 194; 194; 194; 194; 194; 194; 194; 194; 194; 194; 194; 194; 194;
   194; 194; 194; 194; 194; 194; 194; 194; 194; 194; 194; 194; 194; 194; 194; 194; 194; 194; 194; 194; 194;
   194; 194; 194; 194; 194; 194; 194; 194; 194; 194; 194; 194; 194; 194; 194; 194; 194; 194; 194; 194; 194;
   194; 194; 194; 194; 45; 207; 0; 0; 0; 71; 1; 0; 0; 0; 22; 151; 45; 207; 0; 0; 0; 71];
  (* 23d1288573bb3485769da0a969bf5a5c20bd54f2.flac *)
  [
  102; 76; 97; 67; 130; 0; 0; 0; 0; 0; 16; 63; 0; 16; 34; 0; 0; 63; 10; 41; 64; 240; 0; 0; 0; 100; 104; 70;
   66; 136; 250; 94; 25; 131; 85; 22; 151; 45; 207; 71; 34; 60; 255; 248; 105; 8; 0; 99; 51; 24; 242; 89; 20;
   135; 49; 83; 163; 178; 205; 228; 138; 71; 219; 255; 255; 255; 255; 255; 255; 255; 255; 205; 96; 181; 117];
  (* 5a35e45b6b1c30fc71443b21e8bf0d1740f27361.flac *)
  [
  26; 48; 102; 76; 97; 67; 128; 0; 0; 34; 4; 188; 56; 41; 52; 52; 52; 52; 52; 52; 52; 56; 52; 52; 52; 203;
   196; 52; 52; 52; 221; 192; 52; 52; 52; 52; 227; 0; 8; 5; 52; 52; 52; 63; 255; 248; 97; 20; 18; 48; 52; 0;
   26; 52; 102; 76; 97; 67; 128; 0; 0; 34; 4; 59; 52; 52; 41; 52; 52; 48; 4; 52; 52; 52; 52; 53; 52; 52; 35;
   255; 48; 52; 0; 19; 0; 1; 52; 221; 0; 9; 0; 63; 1; 0; 0; 19; 255; 248; 18; 50; 199; 177; 91; 0; 0; 96; 0;
   0; 0; 67; 0; 4; 1; 9; 52; 52; 56; 34; 52; 56; 56; 45; 56; 249; 52; 52; 248; 250];
  (* 5b004788ba05db06d0f6cc8a7a43e334c9d31c44.flac *)
  [
  102; 76; 97; 67; 128; 0; 0; 34; 16; 0; 16; 0; 0; 0; 63; 0; 0; 63; 10; 196; 64; 240; 0; 0; 0; 58; 104; 0; 0;
   0; 0; 0; 0; 0; 0; 22; 151; 45; 207; 71; 34; 60; 255; 248; 105; 8; 0; 18; 99; 102; 76; 97; 67; 128; 0; 0;
   34; 16; 0; 16; 0; 0; 0; 63; 0; 0; 63; 10; 196; 64; 240; 0; 0; 0; 58; 104; 0; 0; 0; 0; 0; 0; 0; 0; 22; 151;
   45; 207; 71; 34; 60; 255; 248; 105; 8; 0; 99; 51; 67; 8; 0; 0; 34; 18; 0; 0; 116; 0; 0; 9; 18; 53; 193;
   106; 10; 196; 66; 240; 0; 1; 50; 51; 34; 0; 0; 0; 0; 116; 0; 0; 9; 18; 53; 193; 106; 10; 196; 66; 240; 0;
   188; 97; 48; 203; 208; 20; 39; 0; 6; 0; 0; 0; 0; 0; 188; 97; 48; 203; 208; 20; 39; 0; 6; 0; 0; 0; 0; 0; 0;
   0; 0; 255; 255; 115; 0; 0; 0];
  (* 5ef80ac28c9554fc3bdfa0096dac28f35c79c652.flac *)
  [
  102; 76; 97; 67; 132; 1; 0; 0; 0; 0; 0; 0; 0; 0; 0; 0; 1; 0; 0; 0; 61; 1; 0; 0; 0; 61; 0; 0; 0; 0];
  (* 64a18b4b38239295b0c2c9f8df778df3edddebbd.flac *)
  [
  102; 76; 97; 67; 128; 0; 0; 34; 16; 0; 16; 0; 0; 0; 63; 0; 0; 63; 18; 196; 64; 240; 255; 255; 255; 0; 104;
   70; 66; 136; 250; 94; 25; 131; 85; 22; 151; 45; 207; 71; 34; 84; 255; 248; 105; 8; 0; 99; 51; 24; 0; 0; 8;
   4; 16; 1; 23; 102; 76; 97; 67; 29; 29; 29; 29; 29; 29; 18; 102; 76; 0; 0; 0; 0; 0; 0; 0; 0; 97; 67; 0; 0;
   0; 34; 16; 0; 16; 0; 0; 0; 18; 0; 0; 18; 10; 105; 8; 0; 102; 75; 0; 0; 0; 0; 0; 34; 46; 236; 252; 20; 7;
   94; 3; 0; 0; 18; 102; 76; 0; 0; 0; 32; 0; 0; 0; 18; 154; 21; 46; 236; 252; 20; 7; 94; 7; 0; 0; 18; 102;
   76; 124; 0; 0; 0; 0; 0; 0; 18; 154; 21; 46; 236; 252; 91; 7; 94; 3; 0; 0; 18; 102; 76; 0; 0; 0; 0; 0; 0;
   0; 0; 159; 188; 255; 255; 255; 38; 16; 0; 16; 0; 0; 0; 18; 0; 0; 0; 18; 154; 21; 46; 236; 252; 20; 7; 94;
   3; 0; 0; 18; 102; 76; 0; 0; 0; 0; 0; 0; 0; 0; 97; 67; 0; 0; 0; 34; 46; 0; 16; 0; 0; 0; 16; 0; 0; 18; 10;
   105; 8; 0; 102; 76; 97; 67; 0; 0; 0; 34; 16; 0; 16; 0; 0; 0; 18; 0; 0; 18; 10; 105; 8; 0; 102; 76; 0; 0;
   0; 0; 159; 188; 255; 255; 255; 38; 16; 0; 16; 0; 0; 0; 18; 0; 0; 18; 10; 105; 8; 0; 102; 76; 97; 67; 128;
   0; 0; 34; 46; 236; 252; 20; 7; 94; 3; 0; 0; 18; 102; 76; 0; 0; 0; 32; 0; 0; 0; 18; 154; 21; 46; 236; 252;
   20; 7; 94; 3; 0; 0; 18; 102; 76; 0; 0; 0; 0; 0; 0; 0; 0; 97; 67; 0; 0; 0; 34; 46; 0; 16; 0; 0; 0; 16; 0;
   0; 18; 10; 105; 8; 0; 102; 76; 97; 67; 0; 0; 0; 34; 16; 0; 16; 0; 0; 0; 18; 0; 0; 18; 10; 105; 8; 0; 102;
   76; 97; 67; 128; 0; 0; 34; 46; 236; 252; 20; 7; 94; 3; 0; 0; 18; 102; 76; 0; 0; 0; 32; 0; 0; 0; 18; 154;
   21; 46; 236; 252; 20; 7; 94; 3; 0; 0; 18; 102; 76; 0; 1; 0; 0; 0; 0; 0; 18; 154; 21; 46; 236; 253; 20; 7;
   94; 3; 0; 0; 18; 102; 76; 0; 0; 0; 0; 0; 0; 0; 18; 154; 21; 46; 43; 252; 20; 7; 94; 3; 0; 0; 18; 102; 76;
   0; 0; 0; 0; 0; 0; 0; 0; 97; 67; 0; 0; 0; 34; 16; 0; 16; 0; 0; 0; 18; 0; 0; 18; 10; 105; 8; 0; 102; 75; 0;
   0; 0; 0; 0; 34; 46; 236; 252; 20; 7; 94; 3; 0; 0; 18; 102; 76; 0; 0; 0; 32; 0; 0; 0; 18; 154; 21; 46; 236;
   252; 20; 7; 94; 3; 0; 0; 18; 102; 76; 0; 0; 0; 0; 0; 0; 0; 18; 154; 21; 46; 236; 252; 91; 7; 94; 3; 0; 0;
   18; 102; 76; 0; 0; 0; 0; 0; 0; 0; 0; 97; 67; 0; 0; 0; 34; 16; 0; 16; 0; 0; 0; 18; 0; 0; 18; 10; 105; 8; 0;
   102; 76; 97; 67; 128; 0; 0; 34; 46; 236; 252; 20; 7; 94; 3; 0; 0; 18; 102; 76; 0; 0; 0; 32; 0; 0; 0; 18;
   154; 21; 46; 236; 252; 20; 7; 94; 3; 0; 0; 18; 102; 76; 0; 0; 0; 0; 0; 0; 0; 0; 0; 0; 1; 119; 0; 34; 46;
   0; 16; 0; 0; 0; 16; 0; 0; 18; 10; 105; 8; 0; 0; 0; 0; 18; 154; 21; 46; 236; 252; 20; 7; 94; 3; 0; 0; 18;
   102; 76; 0; 0; 0; 0; 0; 0; 0; 18; 154; 21; 46; 43; 252; 20; 7; 94; 3; 0; 0; 18; 102; 76; 0; 0; 0; 0; 0; 0;
   0; 0; 97; 67; 0; 0; 0; 34; 16; 0; 16; 0; 0; 0; 18; 0; 0; 18; 10; 105; 8; 0; 102; 75; 0; 0; 0; 0; 0; 34;
   46; 236; 252; 20; 7; 94; 3; 0; 0; 18; 102; 76; 0; 0; 0; 32; 0; 0; 0; 18; 154; 21; 46; 236; 252; 20; 7; 94;
   3; 0; 0; 18; 102; 76; 0; 0; 0; 0; 0; 0; 0; 18; 154; 21; 46; 236; 252; 91; 7; 94; 3; 0; 0; 18; 102; 76; 0;
   0; 0; 0; 0; 0; 0; 0; 97; 67; 0; 0; 0; 34; 16; 0; 16; 0; 0; 0; 18; 0; 0; 18; 10; 105; 8; 0; 102; 76; 97;
   67; 128; 0; 0; 34; 46; 236; 252; 20; 7; 94; 3; 0; 0; 18; 102; 76; 0; 0; 0; 32; 0; 0; 0; 18; 154; 21; 46;
   236; 252; 20; 7; 94; 3; 0; 0; 18; 102; 76; 0; 0; 0; 0; 0; 0; 0; 0; 97; 67; 0; 0; 0; 34; 46; 0; 16; 0; 0;
   0; 16; 0; 0; 18; 10; 105; 8; 0; 102; 76; 97; 67; 0; 0; 0; 34; 16; 0; 16; 0; 0; 0; 18; 0; 0; 18; 10; 105;
   8; 0; 102; 76; 97; 67; 128; 0; 0; 34; 46; 236; 252; 20; 7; 94; 3; 0; 0; 18; 102; 76; 0; 0; 0; 32; 0; 0; 0;
   18; 154; 21; 46; 236; 252; 20; 7; 94; 3; 0; 0; 18; 102; 76; 0; 0; 0; 0; 0; 0; 0; 18; 154; 21; 46; 236;
   252; 20; 7; 94; 3; 0; 0; 18; 102; 76; 0; 0; 0; 0; 0; 0; 0; 0; 97; 66; 225; 0; 0; 34; 16; 0; 16; 0; 0; 0;
   18; 0; 0; 18; 10; 105; 8; 0; 102; 76; 97; 67; 128; 0; 0; 34; 46; 103; 252; 20; 7; 94; 3; 0; 0; 18; 102; 5;
   0; 0; 0; 32; 0; 171; 175; 115; 104; 117; 102; 102; 108; 20; 7; 94; 3; 0; 0; 18; 102; 76; 0; 0; 0; 32; 0;
   0; 0; 18; 154; 21; 46; 236; 252; 20; 7; 94; 3; 0; 0; 18; 102; 76; 0; 0; 0; 0; 0; 0; 0; 18; 154; 21; 46;
   236; 252; 91; 7; 94; 3; 0; 0; 18; 102; 76; 0; 0; 0; 0; 0; 0; 0; 0; 159; 188; 255; 255; 191; 18; 102; 76;
   124; 0; 0; 0; 0; 0; 0; 18; 154; 21; 46; 236; 252; 91; 7; 94; 3; 0; 0; 18; 102; 76; 0; 0; 0; 0; 0; 0; 0; 0;
   159; 188; 255; 255; 255; 38; 16; 0; 16; 0; 0; 0; 18; 0; 0; 0; 18; 154; 21; 46; 236; 252; 20; 7; 94; 3; 0;
   0; 18; 102; 76; 0; 0; 0; 0; 0; 0; 0; 0; 97; 67; 0; 0; 0; 34; 46; 0; 16; 0; 0; 0; 16; 0; 0; 18; 10; 105; 8;
   0; 102; 76; 97; 67; 0; 0; 0; 34; 16; 0; 16; 0; 0; 0; 18; 0; 0; 18; 10; 105; 8; 0; 102; 76; 0; 0; 0; 0;
   159; 188; 255; 255; 255; 38; 16; 0; 16; 0; 0; 0; 18; 0; 0; 18; 10; 105; 8; 0; 102; 76; 97; 67; 128; 0; 0;
   34; 46; 236; 252; 20; 7; 94; 3; 0; 0; 18; 102; 76; 0; 0; 0; 32; 0; 0; 0; 18; 154; 21; 46; 236; 252; 20; 7;
   94; 3; 0; 0; 18; 102; 76; 0; 0; 0; 0; 0; 0; 0; 0; 97; 67; 0; 0; 0; 34; 46; 0; 16; 0; 0; 0; 16; 0; 0; 18;
   10; 105; 8; 0; 102; 76; 97; 67; 0; 0; 0; 34; 16; 0; 16; 0; 0; 0; 18; 0; 0; 18; 10; 105; 8; 0; 102; 76; 97;
   67; 128; 0; 0; 34; 46; 236; 252; 20; 7; 94; 3; 0; 0; 18; 102; 76; 0; 0; 0; 32; 0; 0; 0; 18; 154; 21; 46;
   236; 252; 20; 7; 94; 3; 0; 0; 18; 102; 76; 0; 1; 0; 0; 0; 0; 0; 18; 154; 21; 46; 236; 253; 20; 7; 94; 3;
   0; 0; 18; 102; 76; 0; 0; 0; 0; 0; 0; 0; 18; 154; 21; 46; 43; 252; 20; 7; 94; 3; 0; 0; 18; 102; 76; 0; 0;
   0; 0; 0; 0; 0; 0; 97; 67; 0; 0; 0; 34; 16; 0; 16; 0; 0; 0; 18; 0; 0; 18; 10; 105; 8; 0; 102; 75; 0; 0; 0;
   0; 0; 34; 46; 236; 252; 20; 7; 94; 3; 0; 0; 18; 102; 76; 0; 0; 0; 32; 0; 0; 0; 18; 154; 21; 46; 236; 252;
   20; 7; 94; 3; 0; 0; 18; 102; 76; 0; 0; 0; 0; 0; 0; 0; 18; 154; 21; 46; 236; 252; 91; 7; 94; 3; 0; 0; 18;
   102; 76; 0; 0; 0; 0; 0; 0; 0; 0; 97; 67; 0; 0; 0; 34; 16; 0; 16; 0; 0; 0; 18; 0; 0; 18; 64; 0; 0; 0; 102;
   76; 97; 67; 128; 0; 0; 34; 46; 236; 252; 20; 7; 94; 3; 0; 0; 18; 102; 76; 0; 0; 0; 32; 0; 0; 0; 18; 154;
   21; 46; 236; 252; 20; 7; 94; 3; 0; 0; 18; 102; 76; 0; 0; 0; 0; 0; 0; 0; 0; 0; 0; 1; 119; 0; 34; 46; 0; 16;
   0; 0; 0; 16; 0; 0; 18; 10; 105; 8; 0; 0; 0; 0; 18; 154; 21; 46; 236; 252; 20; 7; 94; 3; 0; 0; 18; 102; 76;
   0; 0; 0; 0; 0; 0; 0; 18; 154; 21; 46; 43; 252; 20; 7; 94; 3; 0; 0; 18; 102; 76; 0; 0; 0; 0; 0; 0; 0; 0;
   97; 67; 0; 0; 0; 34; 16; 0; 16; 0; 0; 0; 18; 0; 0; 18; 10; 105; 8; 0; 102; 75; 0; 0; 0; 0; 0; 34; 46; 236;
   252; 20; 7; 94; 3; 0; 0; 18; 102; 76; 0; 0; 0; 32; 0; 0; 0; 18; 154; 21; 46; 236; 252; 20; 7; 94; 3; 0; 0;
   18; 102; 76; 0; 0; 0; 0; 0; 0; 0; 18; 154; 21; 46; 236; 252; 91; 7; 94; 3; 0; 0; 18; 102; 76; 0; 0; 0; 0;
   0; 0; 0; 0; 97; 67; 0; 0; 0; 34; 16; 0; 16; 0; 0; 0; 18; 0; 0; 18; 10; 105; 8; 0; 102; 76; 97; 67; 128; 0;
   0; 34; 46; 236; 252; 20; 7; 94; 3; 0; 0; 18; 102; 76; 0; 0; 0; 32; 0; 0; 0; 18; 154; 21; 46; 236; 252; 20;
   7; 94; 3; 0; 0; 18; 102; 76; 0; 0; 0; 0; 0; 0; 0; 0; 97; 67; 0; 0; 0; 34; 46; 0; 16; 0; 0; 0; 16; 0; 0;
   18; 10; 105; 8; 0; 102; 76; 97; 67; 0; 0; 0; 34; 16; 0; 16; 0; 0; 0; 18; 0; 0; 18; 10; 105; 8; 0; 102; 76;
   97; 67; 128; 0; 0; 34; 46; 236; 252; 20; 7; 94; 3; 0; 0; 18; 102; 76; 0; 0; 0; 32; 0; 0; 0; 18; 154; 21;
   46; 236; 252; 20; 7; 94; 3; 0; 0; 18; 102; 76; 0; 0; 0; 0; 0; 0; 0; 18; 154; 21; 46; 236; 252; 20; 7; 94;
   3; 0; 0; 18; 102; 76; 0; 0; 0; 0; 0; 0; 0; 0; 97; 66; 225; 0; 0; 34; 16; 0; 16; 0; 0; 0; 18; 0; 0; 18; 10;
   105; 8; 0; 102; 76; 97; 67; 128; 0; 0; 34; 46; 103; 252; 20; 7; 94; 3; 0; 0; 18; 102; 5; 0; 0; 0; 32; 0;
   171; 175; 115; 104; 117; 102; 102; 108; 20; 7; 94; 3; 0; 0; 18; 102; 76; 0; 0; 0; 32; 0; 0; 0; 18; 154;
   21; 46; 236; 252; 20; 7; 94; 3; 0; 0; 18; 102; 76; 0; 0; 0; 0; 0; 0; 0; 18; 154; 21; 46; 236; 252; 91; 7;
   94; 3; 0; 0; 18; 102; 76; 0; 0; 0; 0; 0; 0; 0; 0; 159; 188; 255; 255; 191; 38; 16; 0; 16; 0; 0; 0; 18; 0;
   0; 18; 10; 105; 8; 0; 102; 76; 97; 67; 128; 0; 0; 34; 46; 236; 252; 20; 7; 94; 3; 0; 0; 18; 102; 76; 0; 0;
   0; 32; 0; 0; 0; 18; 154; 21; 46; 236; 252; 20; 7; 94; 3; 0; 0; 18; 102; 76; 0; 0; 0; 0; 0; 0; 0; 0; 97;
   67; 0; 0; 0; 34; 46; 0; 16; 0; 0; 0; 16; 0; 0; 18; 10; 105; 8; 0; 102; 76; 97; 67; 0; 0; 0; 34; 16; 0; 16;
   0; 0; 0; 18; 0; 0; 18; 10; 105; 8; 0; 102; 76; 97; 67; 128; 0; 0; 34; 46; 236; 252; 20; 7; 94; 3; 0; 0;
   18; 147; 76; 0; 0; 0; 32; 0; 0; 0; 18; 154; 21; 46; 236; 252; 20; 7; 94; 3; 0; 0; 18; 102; 76; 0; 0; 0;
   32; 0; 0; 0; 18; 154; 21; 46; 236; 252; 20; 7; 94; 3; 0; 0; 18; 102; 76; 0; 0; 0; 0; 0; 0; 0; 18; 154; 21;
   46; 236; 252; 20; 7; 94; 3; 0; 0; 18; 102; 76; 0; 0; 0; 0; 0; 0; 0; 0; 97; 67; 0; 0; 0; 34; 16; 0; 16; 0;
   0; 0; 18; 0; 0; 18; 10; 105; 8; 0; 102; 76; 97; 67; 128; 0; 0; 34; 46; 103; 252; 20; 7; 94; 3; 0; 0; 255;
   255; 255; 255; 255; 255; 255; 255; 255; 255; 255; 255; 255; 255; 255; 255; 255; 255; 255; 255; 255; 255;
   255; 255; 255; 255; 255; 255; 255; 255; 255; 255; 255; 255; 255; 255; 255; 255; 255; 255; 255; 255; 255;
   255; 255; 255; 255; 255; 255; 255; 255; 255; 255; 255; 255; 255; 255; 255; 255; 255; 255; 255; 255; 255;
   255; 255; 255; 255; 255; 255; 255; 255; 255; 255; 255; 255; 255; 255; 255; 255; 255; 255; 255; 255; 255;
   255; 255; 255; 255; 255; 255; 255; 255; 255; 255; 255; 255; 18; 102; 5; 0; 0; 0; 32; 0; 175; 175; 115;
   104; 117; 102; 102; 108; 20; 7; 94; 3; 0; 0; 18; 102; 76; 0; 0; 8; 32; 0; 0; 0; 18; 154; 21; 46; 236; 252;
   20; 7; 94; 3; 0; 0; 18; 102; 76; 0; 0; 0; 0; 0; 0; 0; 18; 154; 21; 46; 236; 252; 91; 7; 94; 3; 0; 0; 18;
   0; 0; 0; 127; 0; 0; 0; 0; 0; 0; 159; 188; 255; 255; 255; 38; 16; 0; 16; 0; 0; 0; 38; 16; 0; 16; 0; 0; 0;
   18; 0; 0; 18; 10; 105; 8; 0; 102; 76; 97; 67; 128; 0; 0; 34; 46; 236; 252; 20; 7; 94; 3; 0; 0; 18; 102;
   76; 0; 0; 0; 32; 0; 0; 0; 18; 154; 21; 46; 236; 252; 20; 7; 94; 3; 0; 0; 18; 102; 76; 0; 0; 0; 0; 0; 0; 0;
   0; 97; 67; 0; 0; 0; 34; 46; 0; 16; 0; 0; 0; 16; 0; 0; 18; 10; 105; 8; 0; 102; 76; 97; 67; 0; 0; 0; 34; 16;
   0; 16; 0; 0; 0; 18; 0; 0; 18; 10; 105; 8; 0; 102; 76; 97; 67; 128; 0; 0; 34; 46; 236; 252; 20; 7; 94; 3;
   0; 0; 18; 147; 76; 0; 0; 0; 32; 0; 0; 0; 18; 154; 21; 46; 236; 252; 20; 7; 94; 3; 0; 0; 18; 102; 76; 0; 0;
   0; 32; 0; 0; 0; 18; 154; 21; 46; 236; 252; 20; 7; 94; 3; 0; 0; 18; 102; 76; 0; 0; 0; 0; 0; 0; 0; 18; 154;
   21; 46; 236; 252; 20; 7; 94; 3; 0; 0; 18; 102; 76; 0; 0; 0; 0; 0; 0; 0; 0; 97; 67; 0; 0; 0; 34; 16; 0; 16;
   0; 0; 0; 18; 0; 0; 18; 10; 105; 8; 0; 102; 76; 97; 67; 128; 0; 0; 34; 46; 103; 252; 20; 7; 94; 3; 0; 0;
   255; 255; 255; 255; 255; 255; 255; 255; 255; 255; 255; 255; 255; 255; 255; 255; 255; 255; 255; 255; 255;
   255; 255; 255; 255; 255; 255; 255; 255; 255; 255; 255; 255; 255; 255; 255; 255; 255; 255; 255; 255; 255;
   255; 255; 255; 255; 255; 255; 255; 255; 255; 255; 255; 255; 255; 255; 255; 255; 255; 255; 255; 255; 255;
   255; 255; 255; 255; 255; 255; 255; 255; 255; 255; 255; 255; 255; 255; 255; 255; 255; 255; 255; 255; 255;
   255; 255; 255; 255; 255; 255; 255; 255; 255; 255; 255; 255; 255; 18; 102; 5; 0; 0; 0; 32; 0; 175; 175;
   115; 104; 117; 102; 102; 108; 20; 7; 94; 3; 0; 0; 18; 102; 76; 0; 0; 8; 32; 0; 0; 0; 18; 154; 21; 46; 236;
   252; 20; 7; 94; 3; 0; 0; 18; 102; 76; 0; 0; 0; 0; 0; 0; 0; 18; 154; 21; 46; 236; 252; 91; 7; 94; 3; 0; 0;
   18; 0; 0; 0; 127; 0; 0; 0; 0; 0; 0; 159; 188; 255; 255; 255; 38; 16; 0; 16; 0; 0; 0; 18; 0; 0; 18; 10;
   105; 8; 0; 102; 76; 97; 67; 128; 0; 0; 34; 46; 236; 252; 20; 7; 94; 3; 0; 0; 18; 102; 76; 0; 0; 0; 32; 0;
   0; 0; 18; 154; 21; 46; 236; 252; 20; 7; 94; 3; 0; 0; 18; 102; 76; 0; 0; 0; 0; 0; 0; 0; 0; 97; 67; 0; 0; 0;
   34; 46; 0; 16; 0; 0; 0; 16; 0; 0; 18; 10; 105; 8; 0; 102; 76; 97; 67; 0; 0; 0; 34; 16; 0; 16; 0; 0; 0; 18;
   0; 0; 18; 10; 105; 8; 0; 102; 76; 97; 67; 128; 0; 0; 34; 46; 236; 252; 20; 7; 94; 3; 0; 0; 18; 102; 76; 0;
   0; 0; 23; 0; 0; 0; 18; 154; 21; 46; 236; 252; 20; 7; 94; 3; 0; 0; 18; 102; 76; 0; 1; 0; 0; 0; 0; 0; 18;
   154; 21; 46; 236; 252; 20; 7; 94; 3; 0; 0; 18; 102; 76; 0; 0; 0; 0; 0; 0; 0; 18; 154; 21; 46; 43; 252; 20;
   7; 94; 3; 0; 0; 18; 102; 76; 0; 0; 0; 0; 0; 0; 0; 18; 154; 21; 46; 236; 252; 91; 7; 94; 3; 0; 0; 18; 102;
   76; 0; 0; 0; 0; 0; 0; 0; 0; 159; 188; 255; 255; 255; 38; 16; 0; 16; 0; 0; 0; 18; 0; 0; 18; 10; 105; 8; 0;
   102; 76; 97; 67; 102; 76; 97; 67; 128; 0; 0; 34; 16; 0; 16; 0; 0; 0; 63; 0; 0; 63; 18; 45; 67; 240; 0;
   128; 0; 0; 34; 46; 236; 252; 20; 7; 94; 3; 0; 0; 18; 102; 76; 0; 0; 0; 32; 0; 0; 0; 18; 154; 21; 46; 236;
   252; 20; 7; 94; 3; 0; 0; 18; 102; 76; 0; 0; 0; 0; 0; 0; 0; 0; 97; 67; 0; 0; 0; 34; 46; 0; 16; 0; 0; 0; 16;
   0; 0; 18; 10; 105; 8; 0; 102; 76; 97; 67; 0; 0; 0; 34; 46; 236; 252; 20; 7; 94; 3; 0; 0; 18; 102; 76; 0;
   0; 0; 32; 0; 0; 0; 18; 154; 21; 46; 236; 252; 20; 7; 94; 3; 0; 0; 18; 102; 76; 0; 1; 0; 0; 0; 0; 0; 18;
   154; 21; 46; 236; 252; 20; 7; 94; 3; 0; 0; 18; 102; 76; 0; 0; 0; 0; 0; 0; 0; 18; 154; 21; 46; 43; 252; 20;
   7; 94; 3; 0; 0; 18; 102; 76; 0; 0; 0; 0; 3; 0; 0; 18; 102; 18; 102; 76; 18; 154; 0; 21; 46; 0; 0; 1; 0;
   20; 7];
  (* 6710a7b64aea38e69c00f16b962bef82a167082d.flac *)
  [
  102; 76; 97; 67; 128; 0; 0; 34; 16; 0; 16; 0; 0; 0; 63; 0; 0; 63; 10; 196; 64; 240; 0; 0; 0; 100; 104; 70;
   66; 136; 250; 94; 25; 131; 85; 22; 151; 45; 207; 71; 34; 60; 255; 248; 105; 8; 0; 99; 51; 24; 171; 171;
   171; 171; 171; 102; 76; 97; 67; 128; 0; 0; 34; 16; 0; 16; 0; 0; 0; 63; 0; 0; 171; 171; 171; 171; 63; 10;
   196; 64; 240; 0; 0; 0; 34; 16; 0; 16; 0; 0; 0; 63; 0; 0; 63; 10; 196; 64; 240; 0; 0; 0; 100; 104; 70; 66;
   136; 250; 94; 25; 131; 85; 22; 151; 45; 207; 71; 34; 60; 255; 248; 105; 8; 0; 99; 51; 24; 171; 171; 171;
   171; 171; 102; 76; 97; 67; 128; 0; 0; 34; 16; 0; 16; 0; 0; 0; 63; 0; 0; 171; 171; 171; 128; 0; 0; 34; 16;
   0; 16; 0; 0; 0; 63; 0; 0; 63; 10; 196; 64; 240; 0; 0; 0; 100; 104; 70; 66; 136; 250; 94; 25; 131; 85; 22;
   151; 45; 207; 71; 34; 60; 255; 248; 105; 8; 0; 99; 51; 24; 171; 171; 171; 171; 171; 102; 76; 97; 67; 128;
   0; 0; 34; 16; 0; 16; 0; 0; 0; 63; 0; 0; 171; 171; 171; 171; 63; 10; 196; 64; 240; 0; 0; 0; 34; 16; 0; 16;
   0; 0; 0; 63; 0; 0; 63; 10; 196; 64; 240; 0; 0; 0; 100; 104; 70; 66; 136; 250; 94; 25; 131; 85; 22; 151;
   45; 207; 71; 34; 60; 255; 248; 105; 8; 0; 99; 51; 24; 171; 171; 171; 171; 171; 102; 76; 97; 67; 128; 0; 0;
   34; 16; 0; 16; 0; 0; 0; 63; 0; 0; 171; 171; 171; 171; 63; 10; 196; 64; 240; 0; 0; 0; 100; 104; 70; 66;
   136; 250; 94; 25; 131; 85; 22; 151; 45; 207; 71; 171; 187; 171; 171; 171; 171; 171; 171; 171; 171; 171;
   171; 171; 171; 171; 171; 171; 171; 171; 171; 171; 171; 171; 171; 171; 171; 171; 171; 171; 171; 171; 171;
   171; 171; 171; 250; 94; 25; 131; 85; 22; 151; 45; 207; 71; 34; 34; 60; 255; 248; 107; 149; 46; 98; 137;
   163; 178; 205; 228; 138; 71; 219; 60; 255; 205; 96; 181; 117; 100; 104; 70; 66; 136; 250; 94; 25; 131; 85;
   22; 151; 45; 207; 71; 171; 187; 171; 171; 171; 171; 171; 171; 171; 171; 171; 171; 171; 171; 171; 171; 171;
   171; 171; 106; 171; 171; 171; 171; 171; 171; 171; 171; 171; 171; 171; 171; 171; 171; 171; 250; 94; 25;
   131; 85; 22; 151; 45; 207; 71; 34; 34; 60; 255; 248; 107; 149; 46; 98; 137; 163; 178; 205; 228; 138; 71;
   219; 60; 171; 63; 10; 196; 64; 240; 0; 0; 0; 100; 104; 70; 66; 136; 250; 94; 25; 131; 85; 22; 151; 45;
   207; 71; 171; 187; 171; 171; 171; 171; 171; 171; 171; 171; 171; 171; 171; 171; 171; 171; 171; 171; 171;
   171; 171; 171; 171; 171; 171; 171; 171; 171; 171; 171; 171; 171; 171; 171; 171; 250; 94; 25; 131; 85; 22;
   151; 45; 207; 71; 34; 34; 60; 255; 248; 107; 149; 46; 98; 137; 163; 178; 205; 228; 138; 71; 219; 60; 255;
   205; 96; 181; 117; 100; 104; 70; 66; 136; 250; 94; 25; 131; 85; 22; 151; 45; 207; 71; 171; 187; 171; 171;
   171; 171; 171; 171; 171; 171; 171; 171; 171; 171; 171; 171; 171; 171; 171; 106; 171; 171; 171; 171; 171;
   171; 171; 171; 171; 171; 171; 171; 171; 171; 171; 250; 94; 25; 131; 85; 22; 151; 45; 207; 71; 34; 34; 60;
   255; 248; 107; 149; 46; 98; 137; 163; 178; 205; 228; 138; 71; 219; 60; 255; 205; 96; 181; 117; 248; 105;
   8; 0; 99; 51; 24; 0; 117];
  (* 6eccabf2c81748533cb0c4c8fce2c8426559d4ae.flac *)
  [
  102; 76; 97; 67; 128; 0; 0; 34; 16; 0; 16; 102; 76; 97; 255; 181; 63; 0; 0; 63; 10; 227; 42; 64; 240; 233;
   178; 0; 0; 255; 0; 0; 0; 0; 0; 249; 255; 80; 255; 255; 255; 255; 255; 248; 100; 76; 0; 0; 206; 0; 0; 0; 0;
   0; 0; 0; 0; 0; 0; 0; 0; 0; 0; 0; 22; 22; 22; 22; 22; 22; 22; 22; 22; 22; 22; 22; 22; 22; 22; 22; 22; 22;
   22; 22; 22; 22; 22; 22; 22; 22; 22; 22; 22; 22; 22; 22; 22; 22; 22; 22; 22; 22; 22; 22; 22; 22; 22; 22;
   22; 22; 22; 22; 22; 22; 22; 22; 22; 22; 22; 22; 22; 22; 22; 22; 22; 22; 22; 22; 22; 22; 22; 22; 22; 22;
   22; 22; 22; 22; 22; 22; 22; 22; 22; 22; 22; 22; 22; 22; 22; 22; 22; 22; 22; 22; 22; 22; 22; 22; 22; 22;
   22; 22; 22; 22; 22; 22; 22; 22; 22; 22; 22; 22; 22; 22; 22; 22; 22; 22; 22; 22; 0; 2; 0; 0; 0; 0; 0; 0; 0;
   0; 0; 0; 0; 0; 0; 0; 0; 0; 0; 0; 0; 0; 0; 0; 0; 0; 0; 0; 0; 0; 67; 0; 0; 0; 0; 0; 1; 58; 58; 58; 240; 8;
   0; 29; 29; 61; 29; 40; 29; 29; 29; 29; 29; 29; 29; 93; 29; 29; 70; 29; 29; 29; 29; 29; 29; 29; 29; 29; 29;
   29; 29; 29; 29; 29; 29; 29; 29; 29; 205; 21];
  (* 74b23b5fb31a61f62c78659a76109f448d0f4763.flac *)
  [
  102; 76; 97; 67; 128; 0; 0; 34; 16; 0; 16; 0; 0; 0; 63; 0; 0; 63; 10; 196; 64; 240; 0; 0; 0; 58; 104; 0; 0;
   0; 0; 0; 0; 0; 0; 22; 151; 45; 207; 71; 34; 60; 255; 248; 105; 8; 0; 99; 51; 67; 0; 0; 0; 34; 18; 0; 0;
   116; 0; 0; 9; 18; 53; 193; 10; 196; 66; 240; 0; 188; 97; 48; 203; 208; 20; 76; 0; 6; 0; 0; 0; 0; 0; 0; 0;
   255; 255; 255; 255; 255; 255; 255; 255; 0; 0; 0; 0; 0; 0; 0; 0; 0; 0; 0; 0; 0; 0; 0; 0; 0; 0; 0; 0; 102;
   76; 97; 67; 0; 0; 0; 0; 0; 0; 0; 0; 0; 0; 0; 0; 0; 0; 0; 0; 0; 0; 0; 0; 0; 0; 0; 0; 0; 0; 0; 0; 0; 0; 0;
   0; 0; 0; 0; 235; 62; 115; 0; 0; 0; 34; 18; 0; 0; 0; 0; 0; 0; 186; 12; 0; 0; 0; 0; 0; 0; 239; 212; 242;
   246; 255; 255; 255; 255; 255; 255; 66; 18; 90; 0; 0; 0; 0; 0; 0; 244; 81; 245; 18; 0; 0; 0; 0; 0; 0; 0;
   128; 0; 0; 34; 16; 0; 16; 0; 0; 0; 63; 0; 0; 63; 10; 196; 64; 240; 0; 0; 0; 58; 104; 0; 0; 0; 0; 0; 0; 0;
   0; 22; 151; 45; 207; 71; 34; 60; 255; 248; 105; 8; 0; 99; 51; 67; 0; 0; 0; 34; 18; 0; 0; 116; 0; 0; 9; 18;
   53; 193; 10; 196; 66; 240; 0; 188; 97; 48; 203; 208; 20; 76; 0; 6; 0; 0; 0; 0; 0; 0; 0; 255; 255; 255;
   255; 255; 255; 255; 255; 0; 0; 0; 0; 0; 0; 0; 0; 0; 0; 0; 0; 0; 0; 0; 0; 0; 0; 0; 0; 102; 76; 97; 67; 0;
   0; 0; 0; 0; 0; 0; 0; 0; 0; 0; 0; 0; 0; 0; 0; 0; 0; 0; 0; 0; 0; 0; 0; 0; 0; 0; 0; 0; 0; 0; 0; 0; 0; 0; 235;
   192; 168; 0; 0; 0; 0; 4; 0; 248; 233; 42; 18];
  (* 7620659fe8f2e9751072660c5c7ed95f7659587d.flac *)
  [
  102; 76; 97; 67; 128; 0; 0; 34; 16; 0; 16; 64; 0; 0; 63; 0; 0; 63; 18; 196; 64; 240; 0; 0; 0; 0; 87; 70;
   66; 136; 250; 94; 25; 131; 85; 22; 151; 45; 207; 71; 34; 60; 255; 248; 105; 8; 0; 99; 51; 24; 0; 0; 8; 4;
   16; 1; 23; 102; 76; 97; 189; 20; 7; 94; 3; 0; 0; 18; 102; 76; 0; 0; 0; 0; 0; 0; 0; 0; 97; 67; 0; 0; 0; 34;
   16; 0; 16; 0; 0; 0; 18; 0; 0; 18; 10; 105; 8; 0; 102; 75; 0; 0; 0; 0; 0; 34; 46; 236; 252; 20; 7; 94; 3;
   0; 0; 18; 102; 76; 0; 0; 0; 32; 0; 0; 0; 18; 154; 21; 46; 236; 252; 20; 7; 94; 3; 0; 0; 18; 102; 76; 0; 0;
   0; 0; 0; 0; 0; 18; 154; 21; 255; 255; 255; 38; 16; 0; 16; 0; 0; 0; 18; 0; 0; 5; 10; 105; 8; 0; 102; 76;
   97; 67; 128; 0; 0; 34; 46; 236; 252; 20; 7; 94; 3; 0; 0; 18; 102; 76; 0; 0; 0; 32; 0; 0; 0; 18; 154; 21;
   46; 236; 252; 20; 7; 94; 3; 0; 0; 18; 102; 76; 0; 0; 0; 0; 0; 0; 0; 0; 97; 67; 0; 0; 0; 34; 46; 0; 16; 0;
   0; 0; 16; 0; 0; 18; 10; 105; 8; 0; 102; 76; 97; 67; 0; 0; 0; 34; 16; 0; 16; 0; 0; 0; 18; 0; 0; 18; 10;
   105; 8; 0; 102; 76; 97; 67; 128; 0; 0; 34; 46; 236; 252; 20; 7; 94; 3; 0; 0; 18; 102; 76; 0; 0; 0; 32; 0;
   0; 0; 18; 154; 21; 46; 236; 252; 20; 7; 94; 3; 0; 0; 18; 102; 76; 0; 1; 0; 0; 0; 0; 0; 18; 154; 21; 46;
   236; 252; 20; 7; 94; 3; 0; 0; 18; 102; 76; 0; 0; 0; 0; 0; 0; 0; 18; 154; 21; 46; 43; 252; 20; 7; 94; 3; 0;
   0; 18; 102; 76; 0; 0; 0; 0; 0; 0; 0; 0; 97; 67; 0; 0; 0; 34; 16; 0; 16; 0; 0; 0; 18; 0; 0; 18; 10; 105; 8;
   0; 102; 75; 0; 0; 0; 0; 0; 34; 46; 236; 252; 20; 7; 94; 3; 0; 0; 18; 102; 76; 0; 0; 0; 32; 0; 0; 0; 18;
   154; 21; 46; 236; 252; 20; 7; 94; 3; 0; 0; 18; 102; 76; 0; 0; 0; 0; 0; 0; 0; 18; 154; 21; 46; 236; 252;
   91; 7; 94; 3; 0; 0; 18; 102; 76; 0; 0; 0; 0; 0; 0; 11; 0; 97; 67; 0; 0; 0; 34; 16; 0; 16; 0; 0; 0; 18; 0;
   0; 18; 10; 105; 28; 0; 102; 76; 97; 67; 128; 0; 0; 34; 46; 236; 252; 20; 7; 94; 3; 0; 0; 18; 102; 76; 0;
   0; 0; 32; 0; 0; 0; 18; 154; 21; 46; 236; 252; 20; 7; 94; 3; 0; 0; 18; 102; 76; 0; 0; 0; 71; 0; 0; 0; 0;
   97; 67; 0; 0; 0; 34; 46; 94; 3; 0; 0; 18; 102; 76; 0; 0; 0; 32; 0; 0; 0; 18; 154; 21; 46; 236; 252; 20; 7;
   94; 3; 0; 0; 18; 102; 76; 0; 0; 0; 0; 0; 0; 0; 18; 154; 21; 46; 236; 252; 20; 7; 94; 3; 0; 0; 18; 102; 76;
   0; 0; 0; 0; 0; 0; 0; 0; 97; 67; 0; 0; 0; 34; 16; 0; 16; 0; 0; 0; 18; 0; 0; 18; 10; 105; 8; 0; 102; 76; 97;
   67; 128; 7; 0; 34; 46; 103; 252; 20; 7; 94; 3; 0; 0; 18; 102; 5; 0; 0; 0; 32; 0; 175; 175; 115; 104; 117;
   102; 102; 108; 20; 7; 94; 3; 0; 0; 18; 102; 76; 0; 237; 0; 32; 0; 0; 0; 107; 0; 0; 0; 236; 252; 20; 7; 94;
   3; 0; 0; 18; 102; 76; 0; 0; 0; 0; 0; 0; 0; 18; 154; 21; 46; 236; 252; 91; 7; 94; 3; 0; 0; 18; 102; 76; 0;
   0; 0; 0; 0; 0; 0; 0; 159; 188; 255; 255; 255; 38; 16; 0; 16; 0; 0; 0; 18; 0; 0; 18; 10; 49; 8; 0; 102; 76;
   97; 67; 128; 0; 0; 34; 46; 236; 252; 20; 7; 94; 3; 0; 0; 18; 102; 76; 0; 0; 0; 32; 0; 0; 252; 18; 154; 21;
   46; 236; 252; 20; 7; 94; 3; 0; 0; 18; 102; 76; 0; 0; 0; 0; 0; 0; 0; 0; 97; 67; 0; 0; 0; 20; 7; 94; 3; 0;
   0; 18; 102; 76; 0; 0; 0; 32; 0; 0; 0; 18; 154; 21; 46; 236; 252; 20; 7; 94; 3; 0; 0; 18; 102; 76; 0; 0; 0;
   0; 0; 0; 0; 18; 154; 21; 46; 236; 252; 20; 7; 94; 3; 0; 0; 18; 102; 76; 0; 0; 0; 0; 0; 0; 0; 0; 97; 67; 0;
   0; 0; 34; 16; 0; 16; 0; 0; 0; 18; 0; 0; 18; 10; 105; 8; 0; 102; 76; 97; 67; 128; 0; 0; 34; 46; 103; 252;
   20; 7; 94; 3; 0; 0; 18; 102; 5; 0; 0; 0; 32; 0; 175; 175; 115; 104; 117; 102; 102; 108; 20; 7; 94; 3; 0;
   0; 18; 102; 76; 0; 0; 0; 32; 0; 0; 0; 18; 154; 21; 46; 236; 252; 20; 7; 94; 3; 0; 0; 18; 102; 76; 0; 1; 0;
   0; 0; 0; 0; 0; 108; 21; 46; 236; 252; 91; 7; 94; 3; 0; 0; 18; 102; 76; 0; 0; 0; 0; 0; 0; 0; 0; 159; 188;
   255; 255; 255; 38; 16; 0; 16; 0; 0; 0; 18; 0; 0; 18; 10; 105; 8; 0; 102; 76; 97; 67; 128; 0; 0; 34; 46;
   236; 252; 20; 7; 94; 2; 255; 255; 252; 102; 76; 0; 0; 0; 32; 0; 0; 0; 18; 154; 21; 46; 236; 252; 20; 7;
   94; 3; 0; 0; 18; 102; 76; 0; 0; 0; 0; 0; 0; 0; 0; 97; 67; 0; 0; 0; 34; 46; 0; 16; 0; 0; 0; 16; 0; 0; 18;
   10; 105; 8; 0; 102; 76; 97; 67; 0; 0; 0; 34; 16; 0; 16; 2; 0; 0; 18; 0; 0; 18; 10; 105; 8; 0; 102; 76; 97;
   255; 127; 0; 0; 34; 46; 236; 252; 20; 7; 94; 3; 0; 0; 18; 102; 76; 0; 0; 0; 32; 0; 0; 0; 18; 154; 21; 46;
   236; 252; 20; 7; 94; 3; 0; 0; 18; 102; 76; 0; 1; 0; 0; 0; 0; 0; 18; 154; 21; 46; 236; 252; 20; 7; 94; 3;
   0; 0; 18; 102; 76; 0; 0; 0; 0; 0; 0; 0; 18; 154; 21; 46; 43; 252; 20; 7; 94; 3; 0; 0; 18; 102; 76; 0; 0;
   0; 0; 0; 0; 0; 18; 154; 21; 46; 236; 252; 91; 7; 94; 3; 0; 0; 18; 102; 76; 0; 0; 0; 0; 0; 0; 0; 0; 159;
   188; 255; 255; 255; 38; 16; 0; 16; 0; 0; 0; 18; 0; 0; 18; 10; 105; 8; 0; 102; 76; 97; 67; 128; 0; 0; 34;
   46; 236; 252; 20; 7; 94; 3; 0; 0; 18; 102; 76; 0; 0; 0; 32; 0; 0; 0; 18; 154; 21; 46; 236; 252; 20; 7; 94;
   3; 0; 0; 18; 102; 76; 0; 0; 0; 0; 0; 0; 0; 0; 97; 67; 0; 0; 0; 34; 46; 0; 16; 0; 0; 0; 16; 0; 0; 18; 10;
   105; 8; 0; 102; 76; 97; 67; 0; 0; 0; 34; 16; 0; 16; 0; 0; 0; 18; 0; 0; 18; 10; 105; 8; 0; 102; 76; 97; 67;
   128; 0; 0; 34; 46; 236; 252; 20; 7; 94; 3; 0; 0; 18; 102; 76; 0; 0; 0; 32; 0; 0; 0; 18; 154; 21; 46; 236;
   252; 20; 7; 94; 3; 0; 0; 18; 102; 76; 0; 1; 0; 0; 0; 0; 0; 18; 154; 21; 46; 236; 253; 20; 7; 94; 3; 0; 0;
   18; 102; 76; 0; 0; 0; 0; 0; 0; 0; 18; 154; 21; 46; 43; 252; 20; 7; 94; 3; 0; 0; 18; 102; 76; 0; 0; 0; 0;
   0; 0; 0; 0; 97; 67; 49; 0; 0; 34; 16; 0; 16; 0; 0; 0; 18; 0; 0; 18; 10; 105; 8; 0; 102; 75; 0; 0; 0; 0; 0;
   34; 46; 236; 252; 20; 7; 94; 3; 0; 0; 18; 102; 76; 0; 0; 0; 32; 0; 0; 0; 18; 154; 21; 46; 236; 252; 20; 7;
   94; 3; 0; 0; 18; 102; 76; 0; 0; 0; 0; 0; 0; 0; 18; 154; 21; 46; 236; 252; 91; 7; 94; 3; 0; 0; 18; 102; 76;
   0; 0; 0; 0; 0; 0; 0; 0; 97; 67; 0; 0; 0; 34; 16; 0; 16; 0; 0; 0; 18; 0; 0; 18; 10; 32; 8; 0; 102; 76; 97;
   67; 128; 0; 0; 34; 46; 236; 252; 20; 7; 94; 3; 0; 0; 18; 102; 76; 0; 0; 0; 32; 0; 0; 0; 18; 154; 21; 46;
   236; 252; 20; 7; 94; 3; 0; 0; 18; 102; 76; 0; 0; 0; 0; 0; 0; 0; 0; 0; 0; 1; 119; 0; 34; 46; 0; 16; 0; 0;
   0; 16; 0; 0; 18; 10; 105; 8; 0; 102; 76; 97; 67; 102; 76; 97; 67; 0; 0; 0; 34; 16; 0; 16; 0; 0; 0; 18; 0;
   0; 18; 10; 105; 8; 0; 102; 76; 97; 67; 96; 0; 16; 34; 46; 236; 252; 20; 7; 94; 3; 0; 0; 18; 102; 76; 0; 0;
   0; 32; 0; 0; 0; 18; 154; 21; 46; 236; 252; 20; 7; 94; 3; 0; 0; 18; 102; 76; 0; 1; 0; 0; 0; 0; 0; 18; 154;
   21; 46; 236; 252; 20; 7; 94; 3; 0; 0; 18; 102; 76; 0; 0; 0; 0; 0; 0; 0; 18; 154; 21; 46; 43; 252; 20; 7;
   94; 3; 0; 0; 18; 102; 76; 0; 0; 0; 0; 0; 0; 0; 0; 97; 67; 0; 0; 0; 34; 16; 0; 16; 0; 0; 0; 18; 0; 0; 18;
   10; 105; 8; 0; 102; 75; 0; 0; 0; 0; 0; 34; 46; 236; 252; 20; 7; 94; 3; 0; 0; 18; 102; 76; 0; 0; 0; 32; 0;
   0; 0; 18; 154; 21; 46; 236; 252; 42; 7; 94; 3; 0; 0; 235; 102; 76; 0; 0; 0; 0; 0; 0; 0; 18; 154; 21; 46;
   236; 0; 0; 0; 97; 67; 0; 0; 0; 20; 7; 94; 3; 0; 0; 18; 102; 76; 0; 0; 0; 32; 0; 0; 0; 18; 154; 21; 46;
   236; 252; 20; 7; 94; 3; 0; 0; 18; 102; 76; 0; 0; 0; 0; 0; 0; 0; 18; 154; 21; 46; 236; 252; 20; 7; 94; 3;
   0; 0; 18; 102; 76; 0; 0; 0; 0; 0; 0; 0; 0; 97; 67; 0; 0; 0; 34; 16; 0; 16; 0; 0; 0; 18; 0; 0; 18; 10; 105;
   8; 0; 102; 76; 97; 67; 128; 0; 0; 34; 7; 94; 3; 0; 0; 18; 102; 76; 0; 0; 0; 0; 0; 0; 0; 0; 97; 67; 0; 0;
   0; 34; 16; 0; 16; 255; 255; 255; 128; 0; 0; 18; 10; 105; 8; 0; 102; 76; 97; 67; 102; 76; 97; 67; 102; 76;
   97; 67; 0; 0; 0; 34; 16; 0; 16; 0; 0; 0; 18; 0; 0; 18; 10; 105; 8; 0; 102; 76; 97; 67; 128; 0; 16; 34; 46;
   236; 248; 20; 7; 94; 3; 0; 0; 18; 102; 76; 0; 0; 0; 32; 0; 0; 0; 18; 154; 21; 46; 236; 252; 20; 7; 94; 3;
   0; 0; 18; 102; 76; 0; 1; 0; 0; 0; 0; 0; 18; 154; 21; 46; 236; 252; 20; 7; 94; 3; 0; 0; 18; 102; 76; 0; 0;
   0; 0; 0; 0; 0; 18; 154; 21; 46; 43; 252; 20; 7; 94; 3; 0; 29; 18; 102; 76; 0; 0; 0; 0; 0; 0; 0; 0; 97; 67;
   0; 0; 0; 34; 16; 0; 16; 0; 0; 0; 18; 0; 0; 18; 10; 105; 8; 0; 102; 75; 0; 0; 0; 0; 0; 34; 46; 236; 252; 0;
   0; 18; 102];
  (* 848d2895bf8191ff6a94ccacb4e7fb696c62fa05.flac *)
  [
  102; 76; 97; 67; 128; 0; 0; 34; 16; 0; 16; 0; 0; 0; 63; 0; 0; 63; 10; 196; 64; 240; 0; 0; 0; 58; 104; 255;
   255; 255; 255; 255; 255; 255; 255; 22; 151; 45; 207; 71; 34; 60; 255; 248; 102; 152; 76; 97; 225; 67; 64;
   18; 0; 1; 204; 0; 255; 255; 0; 0; 22; 151; 194; 194; 192; 194; 194; 194; 194; 194; 194; 194; 194; 194;
   194; 194; 194; 194; 194; 194; 194; 194; 194; 194; 194; 194; 194; 45; 207; 0; 0; 0; 71; 1; 0; 0; 0; 22;
   151; 45; 207; 0; 255; 255; 255; 255; 255; 255; 255; 255; 255; 255; 255; 255; 0; 0; 71];
  (* 920866496c64684f55cdeeb4f464406702fc072a.flac *)
  [
  102; 76; 97; 67; 128; 0; 0; 34; 16; 0; 16; 0; 0; 0; 63; 0; 0; 63; 10; 196; 64; 240; 0; 0; 0; 100; 104; 0;
   0; 0; 0; 0; 0; 0; 0; 22; 151; 45; 207; 71; 34; 60; 255; 248; 105; 8; 0; 99; 51; 1; 0; 0; 0; 0; 0; 0; 0;
   216; 205; 91; 40; 216; 182; 51; 169; 222; 55; 237; 102; 115; 20; 142; 203; 174; 14; 166; 235; 119; 49; 83;
   163; 178; 205; 228; 138; 71; 219; 205; 96; 181; 227];
  (* a7f07b1dee76f1d975ac5ab0b803f5e886e02c21.flac *)
  [
  102; 76; 97; 67; 128; 0; 0; 34; 16; 0; 16; 0; 0; 0; 63; 0; 0; 63; 0; 100; 64; 240; 4; 239; 116; 105; 109;
   101; 111; 117; 116; 94; 25; 131; 85; 22; 151; 45; 207; 71; 34; 60; 255; 248; 105; 8; 0; 99; 51; 24; 0; 0;
   8; 4; 16; 1; 23; 102; 76; 97; 67; 20; 7; 94; 3; 0; 0; 18; 102; 76; 0; 0; 0; 0; 0; 16; 0; 0; 97; 67; 0; 0;
   8; 0; 102; 76; 97; 67; 128; 0; 0; 34; 46; 236; 252; 20; 7; 94; 3; 0; 0; 18; 102; 76; 0; 0; 0; 32; 0; 0; 0;
   18; 154; 21; 46; 236; 252; 20; 7; 94; 3; 0; 0; 248; 153; 179; 255; 0; 0; 0; 0; 0; 0; 0; 97; 67; 0; 0; 0;
   34; 46; 0; 16; 0; 0; 0; 16; 0; 0; 18; 10; 105; 8; 0; 102; 76; 97; 66; 255; 251; 0; 34; 46; 236; 252; 20;
   7; 94; 3; 0; 0; 18; 102; 76; 0; 0; 0; 32; 0; 0; 0; 0; 0; 255; 18; 154; 21; 46; 43; 252; 20; 7; 94; 3; 0;
   0; 18; 102; 76; 0; 0; 0; 0; 0; 0; 34; 16; 0; 16; 0; 0; 0; 0; 18; 154; 21; 14; 236; 253; 20; 7; 94; 3; 0;
   0; 18; 5; 255; 255; 5; 0; 0; 0; 0; 0; 18; 154; 21; 46; 43; 252; 20; 7; 94; 3; 0; 0; 18; 102; 76; 0; 0; 0;
   0; 0; 0; 0; 0; 97; 67; 0; 0; 0; 34; 16; 0; 16; 0; 0; 0; 18; 0; 0; 18; 10; 105; 8; 0; 102; 75; 0; 127; 255;
   0; 0; 34; 46; 236; 252; 20; 7; 94; 3; 0; 0; 18; 102; 76; 232; 0; 0; 32; 0; 0; 0; 18; 154; 21; 46; 236;
   252; 20; 7; 94; 3; 0; 0; 18; 102; 76; 0; 0; 0; 0; 0; 0; 0; 18; 154; 21; 46; 236; 252; 91; 7; 94; 3; 0; 0;
   18; 102; 76; 0; 0; 0; 0; 0; 0; 16; 0; 97; 67; 0; 0; 0; 34; 16; 0; 16; 0; 0; 0; 18; 0; 0; 18; 10; 105; 8;
   0; 102; 76; 97; 67; 128; 0; 0; 34; 14; 236; 252; 20; 7; 94; 3; 0; 0; 18; 102; 76; 0; 0; 0; 32; 0; 0; 0;
   18; 154; 21; 46; 236; 252; 20; 7; 94; 3; 0; 26; 18; 102; 76; 0; 0; 0; 0; 0; 0; 0; 0; 0; 0; 1; 119; 0; 34;
   46; 0; 16; 0; 0; 0; 16; 0; 0; 18; 10; 105; 8; 0; 102; 76; 0; 0; 3; 232; 0; 0; 128; 0; 0; 34; 16; 0; 16; 0;
   0; 0; 18; 0; 0; 18; 10; 105; 76; 0; 0; 0; 0; 0; 0; 0; 18; 154; 21; 46; 236; 252; 91; 7; 94; 3; 0; 0; 18;
   102; 76; 0; 0; 0; 0; 0; 0; 0; 0; 97; 67; 255; 0; 0; 34; 16; 0; 16; 0; 0; 0; 18; 0; 0; 18; 10; 105; 8; 0;
   102; 102; 97; 67; 0; 0; 0; 34; 32; 0; 0; 0; 0; 0; 18; 0; 0; 18; 10; 105; 12; 0; 102; 76; 97; 67; 128; 0;
   0; 34; 46; 236; 252; 20; 7; 94; 3; 0; 0; 18; 147; 76; 0; 249; 255; 32; 0; 0; 0; 18; 154; 21; 46; 236; 252;
   20; 7; 94; 3; 0; 0; 18; 102; 76; 0; 0; 0; 32; 0; 0; 0; 18; 154; 21; 12; 236; 252; 20; 7; 94; 3; 0; 0; 18;
   102; 76; 0; 0; 0; 0; 0; 0; 0; 18; 154; 21; 46; 236; 252; 20; 7; 94; 3; 0; 0; 18; 102; 76; 0; 0; 0; 0; 0;
   0; 0; 0; 97; 67; 0; 0; 0; 34; 16; 233; 16; 0; 0; 0; 18; 0; 11; 18; 10; 105; 8; 0; 102; 76; 97; 67; 128; 0;
   0; 34; 46; 103; 252; 20; 7; 94; 3; 0; 0; 18; 102; 5; 0; 0; 0; 32; 0; 175; 175; 115; 104; 117; 102; 102;
   108; 20; 7; 94; 3; 0; 0; 18; 102; 76; 0; 0; 0; 32; 0; 0; 0; 18; 154; 21; 46; 236; 252; 20; 7; 114; 3; 0;
   0; 18; 102; 76; 0; 0; 0; 0; 0; 0; 0; 1; 185; 21; 46; 236; 252; 91; 7; 94; 3; 0; 31; 18; 102; 128; 0; 0; 0;
   0; 0; 0; 0; 0; 159; 76; 97; 67; 128; 0; 0; 34; 46; 236; 252; 20; 7; 94; 3; 0; 0; 18; 102; 76; 0; 0; 0; 32;
   0; 0; 1; 18; 154; 21; 46; 236; 246; 20; 7; 94; 3; 0; 127; 255; 102; 76; 0; 0; 0; 0; 0; 0; 0; 0; 97; 67; 0;
   0; 0; 34; 46; 0; 16; 0; 0; 0; 16; 0; 0; 18; 10; 105; 8; 0; 102; 76; 97; 67; 0; 0; 0; 34; 16; 0; 16; 0; 0;
   0; 18; 0; 0; 18; 10; 105; 8; 0; 102; 76; 97; 67; 128; 0; 0; 34; 46; 236; 252; 20; 7; 94; 3; 0; 0; 18; 102;
   76; 0; 0; 0; 32; 0; 0; 0; 18; 154; 21; 46; 236; 252; 20; 7; 94; 3; 0; 0; 18; 102; 76; 0; 1; 0; 0; 18; 154;
   21; 46; 236; 252; 20; 7; 94; 3; 0; 0; 248; 153; 179; 255; 0; 0; 0; 0; 0; 0; 0; 97; 67; 0; 0; 0; 34; 46; 0;
   16; 0; 0; 0; 16; 0; 0; 18; 10; 105; 8; 0; 102; 76; 97; 67; 0; 0; 243; 33; 46; 236; 252; 20; 7; 94; 3; 0;
   0; 18; 102; 76; 0; 0; 0; 32; 0; 0; 0; 18; 154; 21; 46; 236; 252; 20; 7; 94; 3; 0; 0; 18; 102; 76; 0; 1; 0;
   0; 0; 0; 0; 18; 154; 21; 46; 236; 252; 20; 7; 94; 3; 0; 0; 18; 102; 76; 0; 0; 0; 0; 0; 0; 0; 18; 154; 21;
   46; 43; 252; 20; 7; 94; 3; 0; 0; 18; 102; 76; 0; 108; 20; 7; 94; 3; 0; 0; 18; 102; 76; 0; 0; 0; 32; 0; 0;
   0; 18; 154; 21; 46; 236; 252; 20; 7; 94; 3; 0; 0; 18; 102; 76; 0; 0; 0; 0; 0; 0; 0; 1; 185; 21; 46; 236;
   252; 91; 7; 94; 3; 0; 31; 18; 102; 76; 0; 0; 0; 0; 0; 0; 0; 0; 159; 76; 97; 67; 128; 0; 0; 34; 69; 236;
   252; 20; 7; 94; 3; 0; 0; 18; 102; 76; 0; 0; 0; 32; 0; 0; 0; 18; 154; 21; 46; 236; 246; 20; 7; 94; 3; 0; 0;
   18; 102; 76; 0; 0; 0; 0; 0; 0; 0; 0; 97; 67; 0; 0; 0; 34; 46; 0; 16; 0; 0; 0; 16; 0; 0; 18; 10; 105; 8; 0;
   102; 76; 97; 67; 0; 0; 0; 34; 16; 0; 16; 0; 0; 0; 18; 0; 0; 18; 10; 105; 8; 0; 102; 76; 97; 67; 128; 0; 0;
   34; 46; 236; 252; 20; 7; 94; 3; 0; 0; 18; 102; 76; 0; 0; 0; 32; 0; 0; 0; 18; 154; 21; 46; 236; 252; 20; 7;
   94; 3; 0; 0; 18; 102; 76; 0; 1; 0; 0; 0; 0; 8; 0; 102; 76; 97; 67; 128; 0; 0; 34; 46; 236; 252; 20; 7; 94;
   3; 0; 0; 18; 102; 76; 0; 0; 0; 32; 13; 0; 0; 18; 154; 21; 46; 236; 252; 20; 7; 94; 3; 0; 0; 248; 153; 179;
   255; 0; 0; 0; 94; 3; 0; 0; 18; 102; 76; 0; 1; 0; 0; 0; 0; 0; 18; 154; 21; 46; 236; 252; 20; 7; 94; 3; 0;
   0; 18; 102; 76; 0; 0; 0; 0; 0; 0; 0; 18; 154; 21; 46; 43; 252; 20; 7; 94; 3; 0; 0; 18; 102; 76; 0; 0; 0;
   0; 0; 0; 0; 0; 97; 67; 0; 0; 0; 34; 16; 0; 16; 0; 0; 0; 18; 0; 0; 18; 10; 105; 8; 0; 102; 75; 0; 0; 227;
   0; 0; 34; 46; 236; 252; 20; 7; 94; 3; 0; 0; 18; 102; 76; 0; 0; 94; 3; 0; 0; 18; 102; 76; 0; 0; 0; 32; 0;
   0; 0; 18; 154; 21; 46; 236; 246; 20; 7; 94; 3; 0; 0; 18; 102; 76; 0; 0; 0; 0; 0; 0; 0; 0; 97; 67; 0; 0; 0;
   34; 46; 0; 16; 0; 0; 0; 16; 0; 0; 18; 10; 105; 8; 0; 102; 76; 97; 67; 0; 0; 0; 34; 16; 0; 16; 0; 0; 0; 18;
   0; 0; 18; 10; 105; 8; 0; 102; 76; 97; 67; 128; 0; 0; 34; 46; 236; 252; 20; 7; 94; 3; 0; 0; 18; 102; 76; 0;
   0; 0; 32; 0; 0; 0; 18; 154; 21; 46; 236; 252; 20; 7; 94; 3; 0; 0; 18; 102; 76; 10; 1; 0; 0; 0; 0; 8; 0;
   102; 76; 97; 67; 128; 0; 0; 34; 46; 236; 252; 20; 7; 94; 3; 0; 0; 18; 102; 76; 0; 0; 0; 32; 0; 0; 0; 18;
   154; 21; 46; 236; 252; 20; 7; 94; 3; 0; 0; 248; 153; 179; 255; 0; 0; 0; 0; 0; 0; 0; 97; 67; 0; 0; 0; 34;
   46; 0; 16; 0; 0; 0; 16; 0; 0; 18; 10; 105; 8; 0; 102; 76; 97; 66; 255; 251; 0; 34; 46; 236; 252; 20; 7;
   94; 3; 0; 0; 18; 102; 76; 0; 0; 0; 32; 0; 0; 0; 0; 0; 255; 18; 154; 21; 46; 43; 252; 20; 7; 94; 3; 0; 0;
   18; 102; 76; 0; 0; 0; 0; 0; 0; 0; 0; 128; 67; 0; 0; 0; 34; 16; 0; 16; 0; 0; 0; 18; 0; 0; 18; 10; 105; 8;
   0; 102; 75; 0; 0; 0; 0; 0; 34; 46; 236; 252; 20; 7; 94; 3; 0; 0; 18; 102; 76; 232; 0; 0; 32; 0; 0; 0; 18;
   154; 21; 46; 236; 252; 20; 7; 94; 3; 0; 0; 18; 102; 0; 0; 0; 18; 154; 21; 46; 236; 252; 20; 7; 94; 3; 0;
   0; 18; 102; 76; 0; 1; 0; 0; 0; 0; 0; 18; 154; 21; 46; 236; 252; 20; 7; 94; 3; 0; 0; 18; 102; 76; 0; 0; 0;
   0; 0; 0; 0; 18; 154; 21; 46; 43; 252; 20; 7; 94; 3; 0; 0; 18; 102; 76; 0; 0; 0; 0; 0; 0; 0; 0; 97; 67; 0;
   0; 18; 154; 21; 46; 236; 252; 91; 7; 94; 3; 0; 0; 18; 102; 76; 0; 0; 0; 0; 0; 0; 32; 0; 97; 67; 0; 0; 0;
   0; 1; 119; 0; 105; 46; 0; 16; 0; 0; 0; 16; 0; 0; 18; 10; 80; 8; 0; 102; 76; 97; 67; 102; 76; 97; 67; 0; 0;
   0; 34; 16; 0; 16; 0; 0; 31; 18; 0; 0; 18; 10; 105; 8; 0; 102; 76; 97; 67; 127; 237; 0; 34; 18; 154; 0; 21;
   46; 236; 252; 0; 20; 7];
  (* b6d30db8ca1f537835a149e40677e5e58766260b.flac *)
  [
  102; 76; 97; 67; 128; 0; 0; 34; 16; 0; 16; 0; 0; 0; 63; 0; 0; 63; 10; 196; 64; 240; 0; 0; 0; 58; 104; 0; 0;
   0; 0; 0; 0; 0; 0; 22; 151; 45; 207; 71; 34; 60; 255; 248; 105; 8; 0; 99; 51; 67; 0; 0; 0; 0; 0; 0; 0; 0;
   0; 0; 0; 34; 18; 0; 0; 116; 0; 0; 9; 18; 53; 193; 10; 196; 66; 240; 0; 188; 97; 48; 203; 208; 20; 76; 0;
   6; 0; 0; 0; 0; 0; 0; 0; 255; 255; 255; 255; 255; 255; 255; 255; 0; 0; 0; 0; 0; 0; 0; 0; 0; 0; 0; 0; 0; 0;
   0; 0; 0; 0; 0; 0; 102; 76; 97; 67; 0; 0; 0; 0; 0; 0; 0; 0; 0; 0; 0; 0; 0; 0; 0; 0; 0; 0; 0; 0; 0; 0; 0; 0;
   0; 0; 0; 0; 0; 0; 0; 0; 0; 0; 0; 235; 62; 115; 0; 0; 0; 34; 18; 0; 0; 0; 0; 0; 0; 186; 12; 0; 0; 0; 0; 0;
   0; 239; 212; 242; 18; 0; 0; 0; 0; 0; 0; 189; 18; 90; 0; 0; 0; 0; 0; 0; 244; 81; 245; 18; 0; 0; 0; 0; 0; 0;
   0; 128; 0; 0; 34; 16; 0; 16; 0; 0; 0; 63; 0; 0; 63; 10; 196; 64; 240; 0; 0; 0; 58; 104; 0; 0; 0; 0; 0; 0;
   0; 0; 22; 151; 45; 207; 71; 34; 60; 255; 248; 105; 8; 0; 99; 51; 67; 0; 0; 0; 34; 18; 0; 0; 116; 0; 0; 9;
   18; 53; 193; 10; 196; 66; 240; 0; 188; 97; 48; 203; 208; 20; 76; 0; 6; 0; 0; 0; 0; 0; 0; 0; 255; 255; 255;
   255; 255; 255; 255; 255; 0; 0; 0; 0; 0; 0; 0; 0; 0; 0; 0; 0; 0; 0; 0; 0; 0; 0; 0; 0; 102; 76; 97; 67; 0;
   0; 0; 0; 0; 0; 0; 0; 0; 0; 0; 0; 0; 0; 0; 0; 0; 0; 0; 0; 0; 0; 0; 0; 0; 0; 0; 0; 0; 0; 0; 0; 0; 0; 0; 235;
   192; 168; 0; 0; 0; 0; 4; 0; 248; 233; 42; 18];
  (* bb2b1d355f0ecf965baa3c1e2bb34142e62f6e9c.flac *)
  [
  26; 48; 102; 76; 97; 67; 128; 0; 0; 34; 4; 56; 56; 41; 52; 52; 52; 52; 52; 52; 52; 56; 52; 52; 52; 203;
   196; 52; 52; 52; 221; 192; 52; 52; 52; 52; 227; 0; 0; 5; 52; 52; 52; 63; 255; 248; 97; 26; 63; 0; 0; 0;
   64; 27; 97; 26; 44; 26; 48; 102; 76; 97; 67; 0];
  (* c377cba674ebd98def206ba4e22f826da2c646d3.flac *)
  [
  26; 48; 102; 76; 97; 67; 0; 0; 0; 34; 4; 50; 50; 50; 50; 50; 50; 50; 50; 50; 50; 50; 50; 50; 50; 50; 50;
   50; 50; 34; 122; 52; 52; 52; 52; 52; 52; 52; 51; 58; 53; 48; 53; 53; 163; 0; 0; 4; 0; 9; 0; 63; 255; 248;
   253; 2; 0; 0; 221; 248; 0; 101; 64; 0; 99; 104; 0];
  (* c6c1d767d72b388aad8a020f661c90a2684a9470.flac *)
  [
  26; 48; 102; 76; 97; 67; 128; 0; 0; 34; 4; 60; 56; 41; 52; 52; 52; 52; 52; 52; 52; 56; 52; 52; 52; 203;
   196; 52; 52; 52; 221; 192; 52; 52; 52; 52; 1; 0; 0; 19; 52; 52; 52; 63; 255; 248; 97; 26; 18; 48; 52; 16;
   72; 97; 67; 128; 0; 0; 34; 4; 60; 56; 41; 52; 52; 52; 52; 52; 52; 52; 56; 52; 52; 52; 203; 196; 52; 52;
   52; 221; 192; 52; 52; 52; 52; 1; 0; 0; 19; 52; 52; 52; 63; 255; 248; 27; 97; 0; 0; 0; 0; 0; 0; 32; 0; 0];
  (* ca1081b95516599c96ace7425fa0a75752cbdc33.flac *)
  [
  102; 76; 97; 67; 128; 0; 0; 34; 16; 0; 16; 0; 0; 0; 63; 0; 0; 63; 10; 196; 64; 240; 0; 0; 0; 100; 104; 70;
   66; 136; 250; 94; 25; 131; 85; 22; 151; 45; 207; 71; 34; 60; 255; 248; 24; 0; 102; 76; 97; 67; 128; 0; 0;
   34; 102; 4; 8; 105; 166; 0; 99; 0; 8; 50; 83; 116; 53];
  (* d44b4144fc29194848ba4d973a3caca51164578b.flac *)
  [
  26; 48; 102; 76; 97; 67; 0; 0; 0; 34; 4; 50; 50; 50; 50; 50; 50; 50; 50; 50; 50; 50; 50; 50; 50; 50; 50;
   50; 50; 34; 122; 52; 52; 52; 52; 52; 52; 52; 51; 58; 53; 48; 53; 53; 163; 0; 0; 4; 0; 9; 0; 63; 255; 248;
   253; 2; 0; 0; 221; 248; 0; 101; 64; 0];
  (* da0edb2728a503e7a5cb6d87a39b07f9396a57c3.flac *)
  [
  102; 76; 97; 67; 130; 255; 0; 34; 182; 16; 0; 16; 0; 0; 0; 63; 0; 0; 63; 10; 59; 196; 64; 240; 0; 0; 0;
   100; 104; 70; 66; 136; 250; 94; 25; 85; 131; 22; 151; 45; 207; 71; 34; 60; 255; 248; 105; 8; 0; 99; 54;
   24; 171; 171; 171; 171; 171; 102; 76; 97; 67; 219; 34; 16]].
Example regression_test_fuzz_samples : forall m, forallb (fuzz_ok m) fuzz_samples = true.
Proof. intros []; vm_compute; reflexivity. Qed.
