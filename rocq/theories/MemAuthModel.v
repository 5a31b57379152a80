(** The authenticated ciphers at the level of memory (see [MemModel]). *)
From Verif Require Import Bytes Gost89Model CryptModel KuzModel KuzCipherModel KdfModel OmacModel EcModel CmsParamsModel AeadModel MemModel.
Local Open Scope nat_scope.

(** The underlying stream ciphers with the context they share: gost_crypt.c:884-893 call [magma_cipher_do_ctr],
    gost_grasshopper_cipher.c:735-744 call [gost_grasshopper_cipher_do_ctracpkm]. *)
Definition magma_suite_mem (m : mem) (x : su_ctx magma_suite) (i o n : nat) : mem * su_ctx magma_suite :=
  let (m, c) := magma_ctr_mem m (x_evp x) i o n in (m, mk_cctx c (x_param x) (x_seed x)).
Definition kuz_suite_mem (m : mem) (y : su_ctx kuz_suite) (i o n : nat) : mem * su_ctx kuz_suite :=
  let (m, c) := kuz_ctracpkm_mem m (y_k y) i o n in (m, mk_kcctx c (y_seed y) (y_app y)).

(** gost_crypt.c:884-897 and gost_grasshopper_cipher.c:728-747 with a non-null input: when encrypting, the MAC digests [in]
    before the stream cipher runs; when decrypting, it digests [out] after. *)
Definition ae_update_mem (S : suite) (stream : mem -> su_ctx S -> nat -> nat -> nat -> mem * su_ctx S)
  (m : mem) (a : aead S) (i o n : nat) : outcome (Z * (mem * aead S)) :=
  if su_encrypting S (ae_x a) then
    match mac_update S (ae_omac a) (rd m i n) with
    | Dies => Dies
    | Returns om => let (m, x) := stream m (ae_x a) i o n in Returns (Z.of_nat n, (m, mk_aead x om (ae_tag a)))
    end
  else
    let (m, x) := stream m (ae_x a) i o n in
    match mac_update S (ae_omac a) (rd m o n) with
    | Dies => Dies
    | Returns om => Returns (Z.of_nat n, (m, mk_aead x om (ae_tag a)))
    end.
