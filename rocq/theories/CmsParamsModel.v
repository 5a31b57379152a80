(** Model of the ASN.1 algorithm parameters of the ciphers: gost89_set/get_asn1_parameters and
    magma_set/get_asn1_parameters (gost_crypt.c), gost2015_set/get_asn1_params (gost_gost2015.c) and
    gost_grasshopper_set/get_asn1_parameters (gost_grasshopper_cipher.c).  Memory allocation does not fail. *)
From Verif Require Import Bytes Gost89Model Gost89Sboxes CryptModel KuzModel KuzCipherModel Asn1Model EcModel.
From Coq Require Import List NArith ZArith Bool.
Import ListNotations.
Open Scope N_scope.

(** An ASN1_TYPE: a SEQUENCE with its DER bytes, or a value of any other type. *)
Inductive asn1_type := Ty_sequence (der_bytes : list N) | Ty_other.

(** * GOST 28147-89 parameter sets *)
(** The NIDs of gost_cipher_list (gost_crypt.c:338-358). *)
Inductive param_set := P_A | P_B | P_C | P_D | P_Z | P_test.
(** gost_crypt.c:347-356: the substitution block of each entry (every entry has key_meshing 1). *)
Definition sbox_of (p : param_set) : subst_block :=
  match p with
  | P_A => Gost28147_CryptoProParamSetA
  | P_B => Gost28147_CryptoProParamSetB
  | P_C => Gost28147_CryptoProParamSetC
  | P_D => Gost28147_CryptoProParamSetD
  | P_Z => Gost28147_TC26ParamSetZ
  | P_test => Gost28147_TestParamSet
  end.
(** OBJ_nid2obj: the content octets of 1.2.643.2.2.31.{0,1,2,3,4} and 1.2.643.7.1.2.5.1.1 (OpenSSL's table). *)
Definition oid_of (p : param_set) : list N :=
  match p with
  | P_test => [42; 133; 3; 2; 2; 31; 0]
  | P_A => [42; 133; 3; 2; 2; 31; 1]
  | P_B => [42; 133; 3; 2; 2; 31; 2]
  | P_C => [42; 133; 3; 2; 2; 31; 3]
  | P_D => [42; 133; 3; 2; 2; 31; 4]
  | P_Z => [42; 133; 3; 7; 1; 2; 5; 1; 1]
  end.
(** gost_crypt.c:391-397 with OBJ_obj2nid: the first entry with this object.  An object with no NID and one
    whose NID is not in the list both end in a return of -1 (gost_crypt.c:1438-1448), so they are one case. *)
Definition find_param (oid : list N) : option param_set :=
  find (fun p => eqbl (oid_of p) oid) [P_A; P_B; P_C; P_D; P_Z; P_test].

Definition TAG_OBJECT : N := 6.
(** c2i_ASN1_OBJECT's validity rules (library model): not empty, last byte without bit 7, no sub-identifier
    starting with 0x80. *)
Fixpoint subids_ok (start : bool) (c : list N) : bool :=
  match c with
  | [] => true
  | b :: r => negb (start && (b =? 128)) && subids_ok (b <? 128) r
  end.
Definition object_ok (c : list N) : bool :=
  match c with [] => false | _ => (last c 0 <? 128) && subids_ok true c end.

(** gost_asn1.c:44-49 GOST_CIPHER_PARAMS.  An object without content (OBJ_nid2obj(NID_undef)) is left out by
    OpenSSL's encoder. *)
Definition i2d_cipher_params (iv : list N) (p : option param_set) : list N :=
  der TAG_SEQUENCE (der TAG_OCTET_STRING iv ++
                    match p with Some p => der TAG_OBJECT (oid_of p) | None => [] end).
(** d2i_GOST_CIPHER_PARAMS: the two mandatory fields and nothing after them (inside the SEQUENCE). *)
Definition d2i_cipher_params (b : list N) : option (list N * list N) :=
  match get_tlv TAG_SEQUENCE b with
  | None => None
  | Some (c, _) =>
    match get_tlv TAG_OCTET_STRING c with
    | None => None
    | Some (iv, r) =>
      match get_tlv TAG_OBJECT r with
      | Some (oid, []) => if object_ok oid then Some (iv, oid) else None
      | _ => None
      end
    end
  end.
(** gost_asn1.c:51-54 GOST2015_CIPHER_PARAMS. *)
Definition i2d_2015_params (ukm : list N) : list N := der TAG_SEQUENCE (der TAG_OCTET_STRING ukm).
Definition d2i_2015_params (b : list N) : option (list N) :=
  match get_tlv TAG_SEQUENCE b with
  | None => None
  | Some (c, _) =>
    match get_tlv TAG_OCTET_STRING c with
    | Some (ukm, []) => Some ukm
    | _ => None
    end
  end.

(** * The 64-bit ciphers *)
(** The cipher context with the fields [paramNID] (None = 0, never set) and [kdf_seed] of
    struct ossl_gost_cipher_ctx (gost_lcl.h). *)
Record cctx := mk_cctx { x_evp : evp; x_param : option param_set; x_seed : list N }.

(** gost_crypt.c:401-413 *)
Definition x_set_param (x : cctx) (p : param_set) : cctx :=
  mk_cctx (gost_cipher_set_param (x_evp x) (sbox_of p)) (Some p) (x_seed x).
(** gost_crypt.c:416-436, 472-485 [gost_cipher_init], [gost_cipher_init_cbc]: [dflt] is what
    [get_encryption_params(NULL)] returns. *)
Definition x_init (dflt : param_set) (x : cctx) (key iv : option (list N)) (enc : bool) : cctx :=
  mk_cctx (gost_cipher_init_param (sbox_of dflt) (x_evp x) key iv enc)
          (if e_app (x_evp x) then x_param x else Some dflt) (x_seed x).
(** gost_crypt.c:438-469: the counter ciphers never set paramNID. *)
Definition x_init_cnt (sb : subst_block) (x : cctx) (key iv : option (list N)) (enc : bool) : cctx :=
  mk_cctx (gost_cipher_init_cnt sb (x_evp x) key iv enc) (x_param x) (x_seed x).
(** gost_crypt.c:488-523 [magma_cipher_init]; gost_gost2015.c:196-205 [init_zero_kdf_seed]: [rnd] is what RAND_bytes
    yields (it does not fail). *)
Definition zero_seed (s : list N) : bool := forallb (fun b => b =? 0) (firstn 8 s).
Definition x_init_magma (ivlen : nat) (acpkm : bool) (rnd : list N) (x : cctx) (key iv : option (list N)) (enc : bool) : cctx :=
  let first := negb (e_app (x_evp x)) in
  mk_cctx (magma_cipher_init ivlen acpkm (x_evp x) key iv enc)
          (if first then Some P_Z else x_param x)
          (if first && enc && zero_seed (x_seed x) then rnd else x_seed x).

(** gost_crypt.c:1369-1411 [gost89_set_asn1_parameters] (iv_len is 8 for every cipher that uses it). *)
Definition gost89_set_asn1_parameters (x : cctx) : Z * asn1_type :=
  (1%Z, Ty_sequence (i2d_cipher_params (firstn 8 (e_iv (x_evp x))) (x_param x))).
(** gost_crypt.c:1414-1457 [gost89_get_asn1_parameters].  Line 1431 dereferences the decoder's result without a
    test: undecodable parameters kill the process. *)
Definition gost89_get_asn1_parameters (x : cctx) (params : asn1_type) : outcome (Z * cctx) :=
  match params with
  | Ty_other => Returns ((-1)%Z, x)
  | Ty_sequence b =>
    match d2i_cipher_params b with
    | None => Dies
    | Some (iv, oid) =>
      if negb (length iv =? 8)%nat then Returns ((-1)%Z, x)
      else
        match find_param oid with
        | None => Returns ((-1)%Z, x)
        | Some p =>
          let x := x_set_param x p in
          Returns (1%Z, mk_cctx (with_oiv (x_evp x) (overwrite (e_oiv (x_evp x)) 0 iv)) (x_param x) (x_seed x))
        end
    end
  end.

(** gost_gost2015.c:90-131 [gost2015_set_asn1_params] *)
Definition gost2015_set_asn1_params (iv : list N) (iv_size : nat) (seed : list N) : Z * asn1_type :=
  (1%Z, Ty_sequence (i2d_2015_params (firstn iv_size iv ++ firstn 8 seed))).
(** gost_gost2015.c:52-88 [gost2015_get_asn1_params]: return code, the 16-byte iv buffer, the seed. *)
Definition gost2015_get_asn1_params (params : asn1_type) (ukm_size ukm_offset : nat) (seed : list N) : Z * list N * list N :=
  let iv := zeros 16 in
  match params with
  | Ty_other => (0%Z, iv, seed)
  | Ty_sequence b =>
    match d2i_2015_params b with
    | None => (0%Z, iv, seed)
    | Some ukm =>
      if negb (length ukm =? ukm_size)%nat then (0%Z, iv, seed)
      else (1%Z, overwrite iv 0 (firstn ukm_offset ukm), firstn 8 (skipn ukm_offset ukm))
    end
  end.
(** gost_crypt.c:1459-1467 [magma_set_asn1_parameters]: also sets the section size. *)
Definition magma_set_asn1_parameters (x : cctx) : Z * cctx * asn1_type :=
  let x := mk_cctx (with_mesh (x_evp x) 8192) (x_param x) (x_seed x) in
  let '(r, a) := gost2015_set_asn1_params (e_oiv (x_evp x)) 4 (x_seed x) in (r, x, a).
(** gost_crypt.c:1469-1486 [magma_get_asn1_parameters]: a failure is tested with "< 0".  The contexts here keep 8 of
    the 16 bytes of the two IV fields (the 64-bit ciphers use no more). *)
Definition magma_get_asn1_parameters (x : cctx) (params : asn1_type) : Z * cctx :=
  let x := mk_cctx (with_mesh (x_evp x) 8192) (x_param x) (x_seed x) in
  let '(r, iv, seed) := gost2015_get_asn1_params params 12 4 (x_seed x) in
  let x := mk_cctx (x_evp x) (x_param x) seed in
  if (r <? 0)%Z then ((-1)%Z, x)
  else
    let e := with_oiv (with_iv (x_evp x) (firstn 8 iv)) (firstn 8 iv) in
    (1%Z, mk_cctx (with_mesh e 8192) (x_param x) (x_seed x)).

(** * Kuznyechik *)
(** The context with [kdf_seed] and whether app_data is set (the first init has been done). *)
Record kcctx := mk_kcctx { y_k : kctx; y_seed : list N; y_app : bool }.
(** gost_grasshopper_cipher.c:308-337 with 235-266: [init_ctr], [init_ctracpkm] (the seed is drawn in 243-247 in the
    first init, for an encrypting CTR-ACPKM context whose seed is zero). *)
Definition y_init_ctr (y : kcctx) (key iv : option (list N)) (enc : bool) : kcctx :=
  mk_kcctx (init_ctr (y_k y) key iv enc) (y_seed y) true.
Definition y_init_ctracpkm (rnd : list N) (y : kcctx) (key iv : option (list N)) (enc : bool) : kcctx :=
  mk_kcctx (init_ctracpkm (y_k y) key iv enc)
           (if negb (y_app y) && enc && zero_seed (y_seed y) then rnd else y_seed y) true.
(** gost_grasshopper_cipher.c:983-995 [gost_grasshopper_set_asn1_parameters]; [ctr_mode]: the cipher's mode is CTR. *)
Definition grasshopper_set_asn1_parameters (ctr_mode : bool) (y : kcctx) : Z * kcctx * option asn1_type :=
  if ctr_mode then
    let y := mk_kcctx (kw_sect (y_k y) 262144) (y_seed y) (y_app y) in
    let '(r, a) := gost2015_set_asn1_params (k_oiv (y_k y)) 8 (y_seed y) in (r, y, Some a)
  else (0%Z, y, None).
(** gost_grasshopper_cipher.c:997-1018 [gost_grasshopper_get_asn1_parameters] *)
Definition grasshopper_get_asn1_parameters (ctr_mode : bool) (y : kcctx) (params : asn1_type) : Z * kcctx :=
  if ctr_mode then
    let '(r, iv, seed) := gost2015_get_asn1_params params 16 8 (y_seed y) in
    let y := mk_kcctx (y_k y) seed (y_app y) in
    if (r =? 0)%Z then (0%Z, y)
    else (1%Z, mk_kcctx (kw_sect (kw_oiv (kw_iv (y_k y) iv) iv) 262144) (y_seed y) (y_app y))
  else (0%Z, y).
