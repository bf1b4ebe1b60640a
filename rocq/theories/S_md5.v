(* MD5 (RFC 1321), as a function on byte lists.  Used in place of Go's crypto/md5. *)
From Verif Require Import Base.

(* RFC 1321 3.4: T[i] = floor(2^32 * |sin i|) and the rotation amounts *)
Definition md5_K : list Z := [
  3614090360; 3905402710; 606105819; 3250441966; 4118548399; 1200080426; 2821735955; 4249261313;
  1770035416; 2336552879; 4294925233; 2304563134; 1804603682; 4254626195; 2792965006; 1236535329;
  4129170786; 3225465664; 643717713; 3921069994; 3593408605; 38016083; 3634488961; 3889429448;
  568446438; 3275163606; 4107603335; 1163531501; 2850285829; 4243563512; 1735328473; 2368359562;
  4294588738; 2272392833; 1839030562; 4259657740; 2763975236; 1272893353; 4139469664; 3200236656;
  681279174; 3936430074; 3572445317; 76029189; 3654602809; 3873151461; 530742520; 3299628645;
  4096336452; 1126891415; 2878612391; 4237533241; 1700485571; 2399980690; 4293915773; 2240044497;
  1873313359; 4264355552; 2734768916; 1309151649; 4149444226; 3174756917; 718787259; 3951481745].
Definition md5_S : list Z := [
  7; 12; 17; 22; 7; 12; 17; 22; 7; 12; 17; 22; 7; 12; 17; 22;
  5; 9; 14; 20; 5; 9; 14; 20; 5; 9; 14; 20; 5; 9; 14; 20;
  4; 11; 16; 23; 4; 11; 16; 23; 4; 11; 16; 23; 4; 11; 16; 23;
  6; 10; 15; 21; 6; 10; 15; 21; 6; 10; 15; 21; 6; 10; 15; 21].

Definition rotl32 (x s : Z) : Z := u32 (Z.lor (Z.shiftl x s) (Z.shiftr x (32 - s))).
Definition not32 (x : Z) : Z := 2 ^ 32 - 1 - x.

(* little-endian words *)
Fixpoint le_words (l : bytes) : list Z :=
  match l with
  | a :: b :: c :: d :: r => (a + 256 * b + 65536 * c + 16777216 * d) :: le_words r
  | _ => []
  end.
Definition le_bytes (k : nat) (z : Z) : bytes := rev (be_put k z).

(* 3.1, 3.2: padding *)
Definition md5_pad (m : bytes) : bytes :=
  m ++ 128 :: repeat 0 (Z.to_nat ((55 - zlen m) mod 64)) ++ le_bytes 8 (8 * zlen m).

Definition quad := (Z * Z * Z * Z)%type.
(* 3.4: one of the 64 steps *)
Definition md5_step (M : list Z) (q : quad) (ik : nat * (Z * Z)) : quad :=
  let '(a, b, c, d) := q in
  let '(i, (k, s)) := ik in
  let '(f, g) :=
    if (i <? 16)%nat then (Z.lor (Z.land b c) (Z.land (not32 b) d), i)
    else if (i <? 32)%nat then (Z.lor (Z.land d b) (Z.land (not32 d) c), ((5 * i + 1) mod 16)%nat)
    else if (i <? 48)%nat then (Z.lxor b (Z.lxor c d), ((3 * i + 5) mod 16)%nat)
    else (Z.lxor c (Z.lor b (not32 d)), ((7 * i) mod 16)%nat) in
  (d, u32 (b + rotl32 (u32 (a + f + k + nth g M 0)) s), b, c).
Definition md5_block (q : quad) (M : list Z) : quad :=
  let '(a, b, c, d) := q in
  let '(a', b', c', d') := fold_left (md5_step M) (combine (seq 0 64) (combine md5_K md5_S)) q in
  (u32 (a + a'), u32 (b + b'), u32 (c + c'), u32 (d + d')).
Fixpoint md5_blocks (fuel : nat) (q : quad) (w : list Z) : quad :=
  match fuel, w with
  | S f, _ :: _ => md5_blocks f (md5_block q (firstn 16 w)) (skipn 16 w)
  | _, _ => q
  end.
Definition md5 (m : bytes) : bytes :=
  let w := le_words (md5_pad m) in
  let '(a, b, c, d) := md5_blocks (length w) (1732584193, 4023233417, 2562383102, 271733878) w in
  le_bytes 4 a ++ le_bytes 4 b ++ le_bytes 4 c ++ le_bytes 4 d.
