(** * S_crypto: Office binary document RC4 encryption, MS-OFFCRYPTO 2.3.6. *)
From Verif Require Import GoBase GoCrypto.

(** n keystream bytes of a cipher *)
Fixpoint keystream (n : nat) (c : rc4) : list Z :=
  match n with
  | O => []
  | S k => fst (rc4_next c) :: keystream k (snd (rc4_next c))
  end.

(** 2.3.6.2: H0 = H(password in UTF-16), the 5-byte truncation and the salt 16 times, H1 *)
Definition utf16le (pw : bytes) : bytes := flat_map (fun c => [c; 0]) pw.
Definition base_key (pw salt : bytes) : bytes :=
  md5_sum (concat (repeat (firstn 5 (md5_sum (utf16le pw)) ++ salt) 16)).
(** the key of block number b: H(5 bytes of H1, block number) *)
Definition block_key (key : bytes) (b : Z) : bytes := md5_sum (firstn 5 key ++ put32 b).

(** the keystream byte for stream position [pos]: blocks of 1024 bytes, a fresh cipher for
    each block; block numbers are 32 bits *)
Definition key_byte (key : bytes) (pos : Z) : Z :=
  nth (Z.to_nat (pos mod 1024)) (keystream 1024 (rc4_new (block_key key (u32 (pos / 1024))))) 0.

(** en- or decrypting [data] placed at stream position [pos] *)
Fixpoint crypt (key : bytes) (pos : Z) (data : bytes) : bytes :=
  match data with
  | [] => []
  | b :: r => Z.lxor b (key_byte key pos) :: crypt key (pos + 1) r
  end.

(** 2.3.6.1: the FilePass structure for a password: version 1.1, salt, encrypted verifier
    (16 bytes) and encrypted hash of the verifier, one after the other in block 0 *)
Definition rc4_header (pw salt verifier : bytes) : bytes :=
  put16 1 ++ put16 1 ++ salt ++ crypt (base_key pw salt) 0 (verifier ++ md5_sum verifier).
