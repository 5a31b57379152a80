(** Specifications: HMAC (RFC 2104) over GOST R 34.11-2012 (256 bits), KDF_TREE (RFC 7836 4.5,
    R 50.1.113-2016) and TLSTREE (RFC 9189 8.1), written from the documents. *)
From Coq Require Import String.
From Verif Require Import Bytes StreebogSpec.

(** RFC 2104 with a hash of block size 64. *)
Definition hmac_key (key : list N) : list N :=
  let k := if (64 <? length key)%nat then streebog256 key else key in k ++ repeat 0 (64 - length k).
Definition hmac256 (key m : list N) : list N :=
  streebog256 (xorl (hmac_key key) (repeat 0x5c 64) ++ streebog256 (xorl (hmac_key key) (repeat 0x36 64) ++ m)).

(** The big-endian representation of a number on the least number of bytes (none for zero). *)
Definition byte_size (x : N) : nat := N.to_nat ((N.size x + 7) / 8).
Definition min_be (x : N) : list N := n2be (byte_size x) x.

(** K(i) = HMAC256(K_in, [i]_b | label | 0x00 | seed | [L]_b), i = 1, 2, ..., n; the output is
    K(1) | ... | K(n), L = 256 n its length in bits, [i]_b has R bytes. *)
Definition kdf_tree (n : nat) (key label seed : list N) (R : nat) : list N :=
  concat (map (fun i => hmac256 key (n2be R (N.of_nat i) ++ label ++ [0] ++ seed ++ min_be (256 * N.of_nat n))) (seq 1 n)).

(** TLSTREE(K_root, i) = Divers_3(Divers_2(Divers_1(K_root, STR_8(i & C_1)), STR_8(i & C_2)), STR_8(i & C_3)),
    Divers_j(K, D) = KDF_GOSTR3411_2012_256(K, "levelj", D): one 32-byte block with a one-byte counter. *)
Definition divers (j : string) (K D : list N) : list N := kdf_tree 1 K (ascii_bytes j) D 1.
Definition tlstree (C : N * N * N) (K_root : list N) (i : N) : list N :=
  let '(C1, C2, C3) := C in
  divers "level3" (divers "level2" (divers "level1" K_root (n2be 8 (N.land i C1))) (n2be 8 (N.land i C2))) (n2be 8 (N.land i C3)).
(** RFC 9189 8.1: the constants of the cipher suites. *)
Definition TLS_KUZNYECHIK : N * N * N := (0xFFFFFFFF00000000, 0xFFFFFFFFFFF80000, 0xFFFFFFFFFFFFFFC0).
Definition TLS_MAGMA : N * N * N := (0xFFFFFFC000000000, 0xFFFFFFFFFE000000, 0xFFFFFFFFFFFFF000).
