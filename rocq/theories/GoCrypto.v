(** * GoCrypto: crypto/md5 and crypto/rc4 of the Go standard library, as executable functions
    on bytes (RFC 1321; crypto/rc4/rc4.go).  They are checked against published test vectors at
    the end of the file. *)
From Verif Require Import GoBase.

(** ** MD5 *)
Definition md5_K : list Z := [
   3614090360; 3905402710; 606105819; 3250441966; 4118548399; 1200080426; 2821735955; 4249261313;
   1770035416; 2336552879; 4294925233; 2304563134; 1804603682; 4254626195; 2792965006; 1236535329;
   4129170786; 3225465664; 643717713; 3921069994; 3593408605; 38016083; 3634488961; 3889429448;
   568446438; 3275163606; 4107603335; 1163531501; 2850285829; 4243563512; 1735328473; 2368359562;
   4294588738; 2272392833; 1839030562; 4259657740; 2763975236; 1272893353; 4139469664; 3200236656;
   681279174; 3936430074; 3572445317; 76029189; 3654602809; 3873151461; 530742520; 3299628645;
   4096336452; 1126891415; 2878612391; 4237533241; 1700485571; 2399980690; 4293915773; 2240044497;
   1873313359; 4264355552; 2734768916; 1309151649; 4149444226; 3174756917; 718787259; 3951481745].
Definition md5_s : list Z := [
   7; 12; 17; 22; 7; 12; 17; 22; 7; 12; 17; 22; 7; 12; 17; 22; 5; 9; 14; 20; 5; 9; 14; 20; 5; 9;
   14; 20; 5; 9; 14; 20; 4; 11; 16; 23; 4; 11; 16; 23; 4; 11; 16; 23; 4; 11; 16; 23; 6; 10; 15; 21;
   6; 10; 15; 21; 6; 10; 15; 21; 6; 10; 15; 21].
Definition rotl32 (x n : Z) : Z := u32 (Z.lor (Z.shiftl x n) (Z.shiftr x (32 - n))).
Definition not32 (x : Z) : Z := 4294967295 - x.

(** one of the 64 steps on (a, b, c, d) for the block words m *)
Definition md5_step (m : list Z) (i : nat) (st : Z * Z * Z * Z) : Z * Z * Z * Z :=
  let '(a, b, c, d) := st in
  let '(f, g) :=
    if Nat.ltb i 16 then (Z.lor (Z.land b c) (Z.land (not32 b) d), i)
    else if Nat.ltb i 32 then (Z.lor (Z.land d b) (Z.land (not32 d) c), Nat.modulo (5 * i + 1) 16)
    else if Nat.ltb i 48 then (Z.lxor b (Z.lxor c d), Nat.modulo (3 * i + 5) 16)
    else (Z.lxor c (Z.lor b (not32 d)), Nat.modulo (7 * i) 16) in
  let f := u32 (f + a + nth i md5_K 0 + nth g m 0) in
  (d, u32 (b + rotl32 f (nth i md5_s 0)), b, c).
Fixpoint md5_words (l : bytes) : list Z :=
  match l with
  | a :: b :: c :: d :: r => (a + 256 * b + 65536 * c + 16777216 * d) :: md5_words r
  | _ => []
  end.
Definition md5_block (m : list Z) (st : Z * Z * Z * Z) : Z * Z * Z * Z :=
  let '(a0, b0, c0, d0) := st in
  let '(a, b, c, d) := fold_left (fun st i => md5_step m i st) (seq 0 64) st in
  (u32 (a0 + a), u32 (b0 + b), u32 (c0 + c), u32 (d0 + d)).
Fixpoint md5_blocks (n : nat) (l : bytes) (st : Z * Z * Z * Z) : Z * Z * Z * Z :=
  match n with
  | O => st
  | S k => md5_blocks k (skipn 64 l) (md5_block (md5_words (firstn 64 l)) st)
  end.
(** append 0x80, zeros up to 56 mod 64, the bit length in 8 bytes *)
Definition md5_pad (l : bytes) : bytes :=
  l ++ [128] ++ repeat 0 (Z.to_nat ((55 - zlen l) mod 64)) ++ put64 (u64 (8 * zlen l)).
Definition md5_sum (l : bytes) : bytes :=
  let p := md5_pad l in
  let '(a, b, c, d) := md5_blocks (Nat.div (List.length p) 64) p (1732584193, 4023233417, 2562383102, 271733878) in
  put32 a ++ put32 b ++ put32 c ++ put32 d.

(** ** RC4 *)
(** the cipher state: the permutation, i and j *)
Record rc4 := mkRc4 { r_s : list Z; r_i : Z; r_j : Z }.
Definition at_ (l : list Z) (i : Z) : Z := nth (Z.to_nat i) l 0.
Definition swap_ (l : list Z) (i j : Z) : list Z :=
  upd (upd l (Z.to_nat i) (at_ l j)) (Z.to_nat j) (at_ l i).
(** rc4.NewCipher: for i := 0; i < 256; i++ { j += s[i] + key[i%k]; s[i], s[j] = s[j], s[i] } *)
Fixpoint rc4_schedule (n : nat) (i : Z) (key : bytes) (s : list Z) (j : Z) : list Z :=
  match n with
  | O => s
  | S k =>
      let j := u8 (j + at_ s i + at_ key (i mod zlen key)) in
      rc4_schedule k (i + 1) key (swap_ s i j) j
  end.
Definition rc4_new (key : bytes) : rc4 :=
  mkRc4 (rc4_schedule 256 0 key (map Z.of_nat (seq 0 256)) 0) 0 0.
(** one keystream byte *)
Definition rc4_next (c : rc4) : Z * rc4 :=
  let i := u8 (r_i c + 1) in
  let x := at_ (r_s c) i in
  let j := u8 (r_j c + x) in
  let y := at_ (r_s c) j in
  let s := swap_ (r_s c) i j in
  (at_ s (u8 (x + y)), mkRc4 s i j).
(** Cipher.XORKeyStream(dst, src): the bytes written to dst *)
Fixpoint rc4_xor (c : rc4) (src : bytes) : bytes * rc4 :=
  match src with
  | [] => ([], c)
  | b :: r =>
      let '(k, c) := rc4_next c in
      let '(o, c) := rc4_xor c r in
      (Z.lxor b k :: o, c)
  end.

(** ** test vectors: RFC 1321 appendix A.5 and the usual RC4 ones *)
Example md5_empty : md5_sum [] = [212; 29; 140; 217; 143; 0; 178; 4; 233; 128; 9; 152; 236; 248; 66; 126].
Proof. vm_compute. reflexivity. Qed.
Example md5_alphabet : md5_sum (bs "ABCDEFGHIJKLMNOPQRSTUVWXYZabcdefghijklmnopqrstuvwxyz0123456789") =
  [209; 116; 171; 152; 210; 119; 217; 245; 165; 97; 28; 44; 159; 65; 157; 159].
Proof. vm_compute. reflexivity. Qed.
Example rc4_key_plaintext : fst (rc4_xor (rc4_new (bs "Key")) (bs "Plaintext")) = [187; 243; 22; 232; 217; 64; 175; 10; 211].
Proof. vm_compute. reflexivity. Qed.
