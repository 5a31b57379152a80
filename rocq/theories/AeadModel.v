(** Model of the authenticated ciphers magma-ctr-acpkm-omac and kuznyechik-ctr-acpkm-omac: gost_gost2015.c:15-46, 133-194,
    gost_crypt.c:526-550, 875-898, 1338-1368 and gost_grasshopper_cipher.c:340-372, 722-748, 1190-1200.  Memory allocation and
    the lookup of the MAC digest do not fail. *)
From Coq Require Import String.
From Verif Require Import Bytes Gost89Model Gost89Sboxes CryptModel KuzModel KuzCipherModel KdfModel OmacModel EcModel CmsParamsModel.
From Coq Require Import List NArith ZArith Bool.
Import ListNotations.
Open Scope N_scope.

(** What the two ciphers differ in: the stream cipher with its context (which holds the kdf_seed), and the MAC digest.
    [su_init rnd x key iv enc]: the underlying init, [rnd] what RAND_bytes yields to [init_zero_kdf_seed]. *)
Record suite := mk_suite {
  su_ctx : Type;
  su_seed : su_ctx -> list N;
  su_with_seed : su_ctx -> list N -> su_ctx;
  su_encrypting : su_ctx -> bool;
  su_init : list N -> su_ctx -> option (list N) -> option (list N) -> bool -> su_ctx;
  su_do : su_ctx -> list N -> su_ctx * list N;
  su_mac : cbc_cipher
}.
(** gost_crypt.c:526-550, 875-898: [magma_cipher_init], [magma_cipher_do_ctr], NID_magma_mac. *)
Definition magma_suite : suite :=
  mk_suite cctx x_seed (fun x s => mk_cctx (x_evp x) (x_param x) s) (fun x => e_enc (x_evp x))
    (fun rnd x key iv enc => x_init_magma 4 true rnd x key iv enc)
    (fun x d => let (c, o) := magma_cipher_do_ctr (x_evp x) d in (mk_cctx c (x_param x) (x_seed x), o))
    magma_cbc_cipher.
(** gost_grasshopper_cipher.c:340-372, 722-748: num and the section size are set first, then
    [gost_grasshopper_cipher_init] (the type is not GRASSHOPPER_CIPHER_CTRACPKM, so 243-247 draw no seed). *)
Definition kuz_suite : suite :=
  mk_suite kcctx y_seed (fun y s => mk_kcctx (y_k y) s (y_app y)) (fun y => k_enc (y_k y))
    (fun _ y key iv enc => mk_kcctx (init_ctracpkm (y_k y) key iv enc) (y_seed y) true)
    (fun y d => let (c, o) := do_ctracpkm (y_k y) d in (mk_kcctx c (y_seed y) (y_app y), o))
    kuz_cbc_cipher.

(** CMS unprotected attributes: the attributes of a message; [at_mac]: the attribute's type is OID_GOST_CMS_MAC. *)
Inductive attr_value := Octets (v : list N) | Other_value.
Record attribute := mk_attr { at_mac : bool; at_values : list attr_value }.
(** X509at_get0_data_by_OBJ(attrs, obj, -3, V_ASN1_OCTET_STRING) (library model): exactly one attribute of this type, with
    exactly one value, an OCTET STRING.  [None] for [attrs] is a null pointer. *)
Definition get0_mac (attrs : option (list attribute)) : option (list N) :=
  match attrs with
  | None => None
  | Some l =>
    match filter at_mac l with
    | [a] => match at_values a with [Octets v] => Some v | _ => None end
    | _ => None
    end
  end.

Section Aead.
Variable S : suite.
Variable h : host.
Notation K := (su_mac S).

(** The fields of the context: stream cipher and seed, omac_ctx ([None] is a null pointer), tag. *)
Record aead := mk_aead { ae_x : su_ctx S; ae_omac : option (omac_ctx K); ae_tag : list N }.

(** gost_gost2015.c:155-194 [gost2015_acpkm_omac_init]: [rnd] is what RAND_bytes yields ([None]: it fails).  Result: the MAC
    context, the cipher key and the seed; [None] is the return value 0.  EVP_PKEY_new_mac_key, EVP_DigestInit_ex and
    EVP_DigestSignInit together set the key of a newly initialised MAC digest (gost_pmeth.c:830-850 with arg 0). *)
Definition gost2015_acpkm_omac_init (fresh : cc_ctx K) (enc : bool) (rnd : option (list N)) (inkey seed : list N)
  : option (omac_ctx K * list N * list N) :=
  match (if enc then rnd else Some seed) with
  | None => None
  | Some seed =>
    match gost_kdftree2012_256 h 64 (firstn 32 inkey) (ascii_bytes "kdf tree") (firstn 8 seed) 1 with
    | Kdf_ok keys =>
      let (r, o) := omac_set_key K (omac_init K) fresh 0 (skipn 32 keys) in
      if (0 <? r)%Z then Some (o, firstn 32 keys, seed) else None
    | _ => None
    end
  end.
(** gost_crypt.c:526-550, gost_grasshopper_cipher.c:340-372.  [rnd2]: for [su_init].  (A failure leaves the Kuznyechik context
    with num and section size set; nothing else is done to the context then.) *)
Definition ae_init (fresh : cc_ctx K) (rnd : option (list N)) (rnd2 : list N) (a : aead) (key iv : option (list N)) (enc : bool) : Z * aead :=
  match key with
  | None => (1%Z, mk_aead (su_init S rnd2 (ae_x a) None iv enc) (ae_omac a) (ae_tag a))
  | Some k =>
    match gost2015_acpkm_omac_init fresh enc rnd k (su_seed S (ae_x a)) with
    | None => (0%Z, mk_aead (ae_x a) None (ae_tag a))
    | Some (o, cipher_key, seed) =>
      (1%Z, mk_aead (su_init S rnd2 (su_with_seed S (ae_x a) seed) (Some cipher_key) iv enc) (Some o) (ae_tag a))
    end
  end.

(** EVP_DigestSignUpdate on the MAC context; its result is not looked at.  A null context is dereferenced. *)
Definition mac_update (o : option (omac_ctx K)) (d : list N) : outcome (option (omac_ctx K)) :=
  match o with
  | None => Dies
  | Some o => Returns (Some (snd (omac_imit_update K o d)))
  end.
(** EVP_DigestSignFinal (documented: it finalises a copy of the context, so the context keeps its state; see C48 for the
    copies) with gost_pmeth.c:1013-1035 [pkey_gost_mac_signctx]: XOF_LEN with the key's mac_size (gost_pmeth.c:618-626: 8 and
    16), then the digest's final.  The buffer [calculated_mac] was cleared, and the result is not looked at. *)
Definition mac_sign_final (o : option (omac_ctx K)) : outcome (list N) :=
  match o with
  | None => Dies
  | Some o =>
    let '(r, mac, _) := omac_imit_final K (snd (omac_xof_len K o (Z.of_nat (cc_bl K)))) in
    Returns (if (0 <? r)%Z then mac else zeros (cc_bl K))
  end.
(** gost_gost2015.c:15-46 [gost2015_final_call] (the [do_cipher] functions return the length, which is positive). *)
Definition gost2015_final_call (a : aead) : outcome (Z * aead) :=
  match mac_sign_final (ae_omac a) with
  | Dies => Dies
  | Returns calculated_mac =>
    if su_encrypting S (ae_x a) then
      let (x, t) := su_do S (ae_x a) calculated_mac in
      Returns (0%Z, mk_aead x (ae_omac a) t)
    else
      let (x, expected_mac) := su_do S (ae_x a) (firstn (cc_bl K) (ae_tag a)) in
      Returns (if eqbl expected_mac calculated_mac then 0%Z else (-1)%Z, mk_aead x (ae_omac a) (ae_tag a))
  end.
(** gost_crypt.c:875-898 and gost_grasshopper_cipher.c:722-748.  [inp]: [None] with [len = 0] is the final call, [None] with
    another length a null input, [Some d] the data.  Kuznyechik updates the MAC with a null input of length [len] before it
    looks at the pointer; with [len = 0] nothing is fed, otherwise the update reads from a null pointer, so [null_dies] says
    whether it is that cipher. *)
Definition ae_cipher (null_dies : bool) (a : aead) (inp : option (list N)) (len : nat) : outcome (Z * list N * aead) :=
  match inp with
  | None =>
    if (len =? 0)%nat then
      match gost2015_final_call a with Dies => Dies | Returns (r, a) => Returns (r, nil, a) end
    else if null_dies && su_encrypting S (ae_x a) then Dies
    else Returns ((-1)%Z, nil, a)
  | Some d =>
    if su_encrypting S (ae_x a) then
      match mac_update (ae_omac a) d with
      | Dies => Dies
      | Returns o => let (x, out) := su_do S (ae_x a) d in Returns (Z.of_nat (length d), out, mk_aead x o (ae_tag a))
      end
    else
      let (x, out) := su_do S (ae_x a) d in
      match mac_update (ae_omac a) out with
      | Dies => Dies
      | Returns o => Returns (Z.of_nat (length d), out, mk_aead x o (ae_tag a))
      end
  end.
(** gost_gost2015.c:133-153 [gost2015_process_unprotected_attributes], from EVP_CTRL_PROCESS_UNPROTECTED
    (gost_crypt.c:1342-1347, gost_grasshopper_cipher.c:1190-1199): [arg] = 0 reads the tag, otherwise it is added. *)
Definition process_unprotected (a : aead) (arg : Z) (attrs : option (list attribute)) : Z * option (list attribute) * aead :=
  if (arg =? 0)%Z then
    match get0_mac attrs with
    | Some v =>
      if (length v =? cc_bl K)%nat then (1%Z, attrs, mk_aead (ae_x a) (ae_omac a) v)
      else ((-1)%Z, attrs, a)
    | None => ((-1)%Z, attrs, a)
    end
  else
    match attrs with
    | None => ((-1)%Z, attrs, a)
    | Some l => (1%Z, Some (l ++ [mk_attr true [Octets (firstn (cc_bl K) (ae_tag a))]]), a)
    end.
End Aead.
Arguments mk_aead {S}. Arguments ae_x {S}. Arguments ae_omac {S}. Arguments ae_tag {S}.

(** The calls on a context that has been initialised with a key, and their results: return value, output bytes or
    attributes. *)
Inductive ae_call := AUpdate (d : list N) | AFinal | AAttrs (arg : Z) (attrs : option (list attribute)).
Inductive ae_res := RBytes (r : Z) (out : list N) | RAttrs (r : Z) (attrs : option (list attribute)) | RDies.
Fixpoint ae_run (S : suite) (null_dies : bool) (a : aead S) (ops : list ae_call) : list ae_res :=
  match ops with
  | [] => []
  | AUpdate d :: t =>
    match ae_cipher S null_dies a (Some d) (length d) with
    | Dies => [RDies]
    | Returns (r, out, a) => RBytes r out :: ae_run S null_dies a t
    end
  | AFinal :: t =>
    match ae_cipher S null_dies a None 0 with
    | Dies => [RDies]
    | Returns (r, out, a) => RBytes r out :: ae_run S null_dies a t
    end
  | AAttrs arg attrs :: t =>
    let '(r, at_, a) := process_unprotected S a arg attrs in RAttrs r at_ :: ae_run S null_dies a t
  end.
