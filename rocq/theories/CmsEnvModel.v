(** Model of the control function of the public key ASN.1 methods (gost_ameth.c:230-533): what it writes into and
    reads from PKCS#7 and CMS signers and recipients.  Memory allocation does not fail.  The algorithm
    identifiers of OpenSSL's object table are modelled by their content octets. *)
From Coq Require Import ZArith List Bool Lia.
From Verif Require Import Bytes Gost89Model CryptModel KdfModel KexpModel EcLadderModel EcModel Asn1Model AmethModel CmsParamsModel
  PmethModel KeyTransAsn1 KeyTransModel.
Import ListNotations.
Local Open Scope Z_scope.

(** An X509_ALGOR: the object and, unless parameter is NULL, the element (tag, length, contents). *)
Record walg := mk_walg { a_oid : list N; a_param : option (list N) }.
(** OpenSSL's table of objects. *)
Definition oid_magma_kexp15 : list N := [42; 133; 3; 7; 1; 1; 7; 1; 1]%N.
Definition oid_kuznyechik_kexp15 : list N := [42; 133; 3; 7; 1; 1; 7; 2; 1]%N.
Definition oid_agreement_256 : list N := [42; 133; 3; 7; 1; 1; 6; 1]%N.
Definition oid_agreement_512 : list N := [42; 133; 3; 7; 1; 1; 6; 2]%N.
(** The digests as algorithms ([digest_oid] has the parameter set in place of the 94 digest). *)
Definition md_oid (d : digest_nid) : list N :=
  match d with
  | Md_94 => [42; 133; 3; 2; 2; 9]
  | Md_2012_256 => [42; 133; 3; 7; 1; 1; 2; 2]
  | Md_2012_512 => [42; 133; 3; 7; 1; 1; 2; 3]
  end%N.
(** V_ASN1_NULL *)
Definition NULL_PARAM : list N := [5; 0]%N.

(** * A key agreement recipient *)
(** keyEncryptionAlgorithm, ukm (optional), and the originator's public key if the originator is given by one. *)
Record kari := mk_kari { m_alg : walg; m_ukm : option (list N); m_orig : option xpub }.

(** gost_ec_keyx.c:189-265 [pkey_gost_ec_derive] with key <> NULL for a context that may lack the peer key:
    EC_KEY_get0_public_key then gets a null pointer. *)
Definition vko_md (v : vko_nid) : option digest_nid :=
  match v with Vko_256 => Some Md_2012_256 | Vko_512 => Some Md_2012_512 | _ => None end.
Definition ctx_derive {C : group} (w : world) (x : tctx C) : outcome (option (list N)) :=
  let data := t_data x in
  let with_peer f := match t_peer x with None => Dies | Some p => f (k_pub p) end in
  if d_ukm_size data =? 0 then Returns None
  else
    match vko_md (d_vko data) with
    | Some md => with_peer (fun pub => vko w pub (t_key x) (firstn (Z.to_nat (d_ukm_size data)) (d_ukm data)) (Some md))
    | None =>
      if d_ukm_size data =? 8 then
        with_peer (fun pub => vko w pub (t_key x) (firstn 8 (d_ukm data)) (shorten (default_digest (t_alg x))))
      else if d_ukm_size data =? 32 then with_peer (fun pub => keg_with w (d_ukm data) (t_alg x) pub (t_key x))
      else Returns None
    end.

(** EVP_get_cipherbynid for the two objects of gost_ameth.c:262-267. *)
Definition kexp_cipher (oid : list N) : option wrap_cipher :=
  if eqbl oid oid_kuznyechik_kexp15 then Some WRAP_KUZNYECHIK
  else if eqbl oid oid_magma_kexp15 then Some WRAP_MAGMA
  else None.

(** What a call leaves: return value, context, the cipher context of the recipient if it was set up, whether
    bytes after the end of the UKM were read, whether parts of the message were freed, whether a structure was
    left unfreed. *)
Record set_up (C : group) := mk_set { q_ret : Z; q_ctx : tctx C; q_wrap : option (wrap_cipher * wrap_ctx);
  q_over : bool; q_freed : bool; q_leak : bool }.
Arguments mk_set {C}. Arguments q_ret {C}. Arguments q_ctx {C}. Arguments q_wrap {C}.
Arguments q_over {C}. Arguments q_freed {C}. Arguments q_leak {C}.
(** :306-314 [EVP_DecryptInit_ex] with [shared_key] (whatever it held in [buf] overwritten by what was derived)
    and ukm->data+24 ([beyond]: the memory after the UKM). *)
Definition kari_init (wc : wrap_cipher) (buf keys u beyond : list N) : wrap_ctx :=
  wrap_init wc wrap_new (Some (overwrite buf 0 keys)) (Some (skipn 24 (u ++ beyond))) false.
(** :234-330 [gost_cms_set_kari_shared_info].  X509_PUBKEY_set0_param makes [tmp] the owner of parts of the
    message; [tmp] is freed when the function fails and forgotten when it succeeds. *)
Definition gost_cms_set_kari_shared_info (curves : curve_nid -> option curve) (c : curve) (w : world) (buf beyond : list N)
  (x : tctx (cv c)) (m : kari) : outcome (set_up (cv c)) :=
  let fail x owns := Returns (mk_set 0 x None false owns false) in
  match a_param (m_alg m) with
  | None => Dies
  | Some p =>
    if negb (hd 0%N p =? TAG_SEQUENCE)%N then fail x false
    else
      match kexp_cipher (a_oid (m_alg m)) with
      | None => fail x false
      | Some wc =>
        match m_ukm m with
        | None => Dies
        | Some u =>
          match pkey_gost_ctrl None (t_data x) (R_set_iv (Z.of_nat (length u)) (Some u)) with
          | Dead => Dies
          | Ret r data =>
            let x := t_with_data x data in
            if r <=? 0 then fail x false
            else
              (* 279-309: None, an error *)
              match (match m_orig m with
                     | None => Some x
                     | Some xp =>
                       match x509_pubkey_get curves c xp with
                       | K_same a P => if alg_eqb a (t_alg x) then Some (t_with_peer x (EcModel.mk_key None (Some P))) else None
                       | _ => None
                       end
                     end) with
              | None => fail x true
              | Some x =>
                let owns := match m_orig m with Some _ => true | None => false end in
                match ctx_derive w x with
                | Dies => Dies
                | Returns None => fail x owns
                | Returns (Some keys) =>
                  Returns (mk_set 1 x (Some (wc, kari_init wc buf keys u beyond))
                             (length u <? 24 + wrap_ivlen wc)%nat false owns)
                end
              end
          end
        end
      end
  end.
(** OpenSSL's cms_kek_cipher, which follows: the key is derived again and set without an IV, the cipher then asked
    for the length and given the encrypted key; None is an error. *)
Definition kek_cipher {C : group} (w : world) (buf : list N) (x : tctx C) (wc : wrap_cipher) (wx : wrap_ctx) (enc : list N)
  : outcome (option (list N)) :=
  match ctx_derive w x with
  | Dies => Dies
  | Returns None => Returns None
  | Returns (Some keys) =>
    let wx := wrap_init wc wx (Some (overwrite buf 0 keys)) None false in
    let '(r, out, _) := wrap_do wc (w_host w) (w_fresh w) (w_stack w) wx enc in
    Returns (if r <? 0 then None else Some out)
  end.

(** * A key transport recipient *)
(** :332-361 [gost_cms_set_ktri_shared_info] *)
Definition ktri_cipher (oid : list N) : option cipher_nid :=
  if eqbl oid oid_kuznyechik_kexp15 then Some C_kuz_ctr
  else if eqbl oid oid_magma_kexp15 then Some C_magma_ctr
  else match find_alg oid with
       | A_other => None
       | _ => Some (C_other NID_id_Gost28147_89)
       end.
Definition gost_cms_set_ktri_shared_info {C : group} (x : tctx C) (alg : walg) : Z * tctx C :=
  match ktri_cipher (a_oid alg) with
  | Some n => (1, t_with_data x (with_cipher (t_data x) n))
  | None => (0, x)
  end.

(** CMS_RecipientInfo_type *)
Inductive ri_body := RI_trans (alg : walg) | RI_agree (m : kari) | RI_other.
(** :363-376 [gost_cms_set_shared_info] *)
Definition gost_cms_set_shared_info (curves : curve_nid -> option curve) (c : curve) (w : world) (buf beyond : list N)
  (x : tctx (cv c)) (ri : ri_body) : outcome (set_up (cv c)) :=
  match ri with
  | RI_agree m => gost_cms_set_kari_shared_info curves c w buf beyond x m
  | RI_trans alg => let '(r, x) := gost_cms_set_ktri_shared_info x alg in Returns (mk_set r x None false false false)
  | RI_other => Returns (mk_set 0 x None false false false)
  end.

(** * The control function *)
(** :378-409 [gost_encode_cms_params] *)
Definition gost_encode_cms_params (ka : list N) : list N := der TAG_SEQUENCE (der TAG_OBJECT ka).
(** encode_gost_algor_params (:56-118) as the bytes of the ASN1_STRING. *)
Definition algor_params (a : pkey_alg) (n : curve_nid) : option (list N) :=
  match encode_gost_algor_params a n with
  | Some al => match al_params al with Some (n, h) => Some (i2d_key_params n h) | None => None end
  | None => None
  end.
(** The requests; a signer or PKCS#7 recipient is only written to. *)
Inductive request (C : group) :=
  | Rq_pkcs7_sign (arg1 : Z) | Rq_cms_sign (arg1 : Z) | Rq_pkcs7_encrypt (arg1 : Z)
  | Rq_cms_envelope (arg1 : Z) (pctx : option (tctx C)) (ri : ri_body)
  | Rq_ri_type | Rq_ri_type_supported (arg1 : Z) | Rq_default_md | Rq_other.
Arguments Rq_pkcs7_sign {C}. Arguments Rq_cms_sign {C}. Arguments Rq_pkcs7_encrypt {C}. Arguments Rq_cms_envelope {C}.
Arguments Rq_ri_type {C}. Arguments Rq_ri_type_supported {C}. Arguments Rq_default_md {C}. Arguments Rq_other {C}.
(** CMS_RECIPINFO_TRANS, CMS_RECIPINFO_AGREE *)
Definition RECIPINFO_TRANS : Z := 0.
Definition RECIPINFO_AGREE : Z := 1.
(** What a call leaves: return value; the digest algorithm and the key (encryption or signature) algorithm written;
    the number stored; what happened to a recipient's contexts. *)
Inductive stored := Stored_nothing | Stored_int (n : Z) | Stored_md (d : digest_nid).
Record effect (C : group) := mk_eff { e_ret : Z; e_dgst : option walg; e_key : option walg; e_stored : stored; e_set : option (set_up C) }.
Arguments mk_eff {C}. Arguments e_ret {C}. Arguments e_dgst {C}. Arguments e_key {C}. Arguments e_stored {C}. Arguments e_set {C}.

(** :416-533 [pkey_ctrl_gost] of a key of type [a] on the curve named [n]. *)
Definition pkey_ctrl_gost (curves : curve_nid -> option curve) (c : curve) (w : world) (buf beyond : list N)
  (a : pkey_alg) (n : curve_nid) (rq : request (cv c)) : outcome (effect (cv c)) :=
  let done r := Returns (mk_eff r None None Stored_nothing None) in
  match default_digest a with
  | None => done (-1)
  | Some md =>
    let signer arg1 :=
      if arg1 =? 0 then
        Returns (mk_eff 1 (Some (mk_walg (md_oid md) (Some NULL_PARAM))) (Some (mk_walg (alg_oid a) (Some NULL_PARAM))) Stored_nothing None)
      else done 1 in
    match rq with
    | Rq_pkcs7_sign arg1 => signer arg1
    | Rq_cms_sign arg1 => signer arg1
    | Rq_pkcs7_encrypt arg1 =>
      if arg1 =? 0 then
        match algor_params a n with
        | None => done (-1)
        | Some p => Returns (mk_eff 1 None (Some (mk_walg (alg_oid a) (Some p))) Stored_nothing None)
        end
      else done 1
    | Rq_cms_envelope arg1 pctx ri =>
      match pctx with
      | None => done 0
      | Some x =>
        if arg1 =? 0 then
          match (match d_cipher (t_data x) with
                 | C_magma_ctr | C_kuz_ctr =>
                   let nid := match d_cipher (t_data x) with C_magma_ctr => oid_magma_kexp15 | _ => oid_kuznyechik_kexp15 end in
                   let ka := match a with A2012_256 => oid_agreement_256 | _ => oid_agreement_512 end in
                   Some (nid, gost_encode_cms_params ka)
                 | _ => option_map (fun p => (alg_oid a, p)) (algor_params a n)
                 end) with
          | None => done (-1)
          | Some (nid, p) =>
            (* 508-510: for another kind of recipient alg1 stays NULL and X509_ALGOR_set0 does nothing *)
            match ri with
            | RI_trans _ => Returns (mk_eff 1 None (Some (mk_walg nid (Some p))) Stored_nothing None)
            | _ => done 1
            end
          end
        else
          match gost_cms_set_shared_info curves c w buf beyond x ri with
          | Dies => Dies
          | Returns q => Returns (mk_eff (q_ret q) None None Stored_nothing (Some q))
          end
      end
    | Rq_ri_type => Returns (mk_eff 1 None None (Stored_int RECIPINFO_TRANS) None)
    | Rq_ri_type_supported arg1 =>
      if (arg1 =? RECIPINFO_AGREE) || (arg1 =? RECIPINFO_TRANS) then Returns (mk_eff 1 None None (Stored_int 1) None) else done 0
    | Rq_default_md => Returns (mk_eff 2 None None (Stored_md md) None)
    | Rq_other => done (-2)
    end
  end.
