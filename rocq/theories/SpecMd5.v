(** MD5 (RFC 1321), to compare decoded samples with the sum in the streaminfo block. *)
From Coq Require Import ZArith List.
Import ListNotations.
Open Scope Z_scope.

Definition md5_wrap (x : Z) : Z := x mod 2 ^ 32.
Definition md5_rol (x s : Z) : Z := md5_wrap (Z.lor (Z.shiftl x s) (Z.shiftr x (32 - s))).
Definition md5_not (x : Z) : Z := 2 ^ 32 - 1 - x.

(** floor(2^32 * |sin(i + 1)|) *)
Definition md5_table : list Z := [3614090360; 3905402710; 606105819; 3250441966; 4118548399; 1200080426; 2821735955; 4249261313;
   1770035416; 2336552879; 4294925233; 2304563134; 1804603682; 4254626195; 2792965006; 1236535329;
   4129170786; 3225465664; 643717713; 3921069994; 3593408605; 38016083; 3634488961; 3889429448;
   568446438; 3275163606; 4107603335; 1163531501; 2850285829; 4243563512; 1735328473; 2368359562;
   4294588738; 2272392833; 1839030562; 4259657740; 2763975236; 1272893353; 4139469664; 3200236656;
   681279174; 3936430074; 3572445317; 76029189; 3654602809; 3873151461; 530742520; 3299628645;
   4096336452; 1126891415; 2878612391; 4237533241; 1700485571; 2399980690; 4293915773; 2240044497;
   1873313359; 4264355552; 2734768916; 1309151649; 4149444226; 3174756917; 718787259; 3951481745].
Definition md5_shifts : list Z :=
  flat_map (fun r => r ++ r ++ r ++ r) [[7; 12; 17; 22]; [5; 9; 14; 20]; [4; 11; 16; 23]; [6; 10; 15; 21]].

(** The 64 operations: function and index of the word. *)
Definition md5_op (i : Z) (b c d : Z) : Z * Z :=
  if i <? 16 then (Z.lor (Z.land b c) (Z.land (md5_not b) d), i)
  else if i <? 32 then (Z.lor (Z.land d b) (Z.land (md5_not d) c), (5 * i + 1) mod 16)
  else if i <? 48 then (Z.lxor b (Z.lxor c d), (3 * i + 5) mod 16)
  else (Z.lxor c (Z.lor b (md5_not d)), (7 * i) mod 16).

Definition md5_round (words : list Z) (st : Z * Z * Z * Z) (x : Z * (Z * Z)) : Z * Z * Z * Z :=
  let '(a, b, c, d) := st in
  let '(i, (k, s)) := x in
  let (f, g) := md5_op i b c d in
  let t := md5_wrap (a + f + k + nth (Z.to_nat g) words 0) in
  (d, md5_wrap (b + md5_rol t s), b, c).

Definition md5_rounds : list (Z * (Z * Z)) :=
  combine (map Z.of_nat (seq 0 64)) (combine md5_table md5_shifts).

Definition md5_block (st : Z * Z * Z * Z) (words : list Z) : Z * Z * Z * Z :=
  let '(a, b, c, d) := st in
  let '(a', b', c', d') := fold_left (md5_round words) md5_rounds st in
  (md5_wrap (a + a'), md5_wrap (b + b'), md5_wrap (c + c'), md5_wrap (d + d')).

Fixpoint md5_words (n : nat) (l : list Z) : list Z :=
  match n, l with
  | S n, a :: b :: c :: d :: l => a + 256 * (b + 256 * (c + 256 * d)) :: md5_words n l
  | _, _ => []
  end.
Fixpoint md5_bytes (n : nat) (x : Z) : list Z :=
  match n with O => [] | S n => x mod 256 :: md5_bytes n (x / 256) end.
Fixpoint md5_blocks (n : nat) (st : Z * Z * Z * Z) (words : list Z) : Z * Z * Z * Z :=
  match n with
  | O => st
  | S n => match words with [] => st | _ => md5_blocks n (md5_block st (firstn 16 words)) (skipn 16 words) end
  end.

Definition md5 (l : list Z) : list Z :=
  let n := Z.of_nat (length l) in
  let padded := l ++ [128] ++ repeat 0 (Z.to_nat ((55 - n) mod 64)) ++ md5_bytes 8 (8 * n) in
  let words := md5_words (length padded) padded in
  let '(a, b, c, d) := md5_blocks (length words) (1732584193, 4023233417, 2562383102, 271733878) words in
  md5_bytes 4 a ++ md5_bytes 4 b ++ md5_bytes 4 c ++ md5_bytes 4 d.

(** RFC 1321, A.5 *)
Example md5_empty : md5 [] = [212; 29; 140; 217; 143; 0; 178; 4; 233; 128; 9; 152; 236; 248; 66; 126].
Proof. vm_compute. reflexivity. Qed.
Example md5_abc : md5 [97; 98; 99] = [144; 1; 80; 152; 60; 210; 79; 176; 214; 150; 63; 125; 40; 225; 127; 114].
Proof. vm_compute. reflexivity. Qed.
