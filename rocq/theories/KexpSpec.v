(** Key export and import of R 1323565.1.017-2018 (RFC 9189, 8.2.1):
    KExp15(K, K_mac, K_enc, IV) = CTR(K_enc, IV, K || OMAC(K_mac, IV || K)). *)
From Verif Require Import Bytes Gost89Spec CryptSpec KuzSpec KuzCipherSpec OmacSpec PropCrypt.
From Coq Require Import List NArith.
Open Scope N_scope.

Inductive kcipher := MAGMA | KUZNYECHIK.
(** Half of the block, which is the length of the IV. *)
Definition half (c : kcipher) : nat := match c with MAGMA => 4 | KUZNYECHIK => 8 end.
Definition ctr_mode (c : kcipher) (k iv m : list N) : list N :=
  match c with MAGMA => magma_ctr SZ 0 k iv m | KUZNYECHIK => kuz_ctr 0 k iv m end.
Definition omac_mode (c : kcipher) (k m : list N) : list N :=
  match c with MAGMA => omac (rfc8891_encrypt SZ k) 8 m | KUZNYECHIK => omac (E_ k) 16 m end.
Definition kexp15 (c : kcipher) (kmac kenc iv key : list N) : list N :=
  ctr_mode c kenc iv (key ++ omac_mode c kmac (iv ++ key)).
