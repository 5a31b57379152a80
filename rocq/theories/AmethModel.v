(** Model of the key codecs of gost_ameth.c: PKCS8 private keys, SubjectPublicKeyInfo, comparison and copying
    of parameters.  An AlgorithmIdentifier is kept structured (the encoding of object identifiers is OpenSSL's);
    the key octets are bytes.  Allocation failures are not modelled. *)
From Coq Require Import ZArith List Bool Lia.
From Verif Require Import Bytes EcLadderModel EcModel Asn1Model.
Import ListNotations.
Local Open Scope Z_scope.

(** An EVP_PKEY with an EC_KEY that has its group. *)
Record evp_pkey := mk_pkey { pk_alg : pkey_alg; pk_curve : group; pk_key : eckey pk_curve }.
(** X509_ALGOR: the algorithm and, if the parameters are a SEQUENCE that decodes as GOST_KEY_PARAMS, the
    parameter set and the digest in it. *)
Record algor := mk_algor { al_alg : pkey_alg; al_params : option (curve_nid * option digest_nid) }.
(** What a decoder does: refuse, succeed, or read outside its buffer. *)
Inductive decoded (A : Type) := Dec_fail | Dec_ok (a : A) | Dec_overread.
Arguments Dec_fail {A}. Arguments Dec_ok {A}. Arguments Dec_overread {A}.

(** gost_ameth.c:39-54 [pkey_bits_gost] *)
Definition pkey_bits_gost (a : pkey_alg) : Z :=
  match a with A2001 | A2001DH | A2012_256 => 256 | A2012_512 => 512 | A_other => -1 end.
(** gost_ameth.c:601, 677: bits as bytes, 0 for none. *)
Definition key_len (a : pkey_alg) : nat := if 0 <? pkey_bits_gost a then Z.to_nat (pkey_bits_gost a / 8) else 0%nat.

(** gost_ameth.c:56-118 [encode_gost_algor_params].  A group of a key has one of the names of the tables
    (fill_GOST_EC_params); [OtherNid] stands for NID_undef here. *)
Definition encode_gost_algor_params (a : pkey_alg) (c : curve_nid) : option algor :=
  let params h := match c with OtherNid => None | _ => Some (mk_algor a (Some (c, h))) end in
  match a with
  | A2012_256 =>
    params (match c with
            | TestParamSet | CryptoPro_A | CryptoPro_B | CryptoPro_C | CryptoPro_XchA | CryptoPro_XchB => Some Md_2012_256
            | _ => None
            end)
  | A2012_512 => params (match c with Tc512_Test | Tc512_A | Tc512_B => Some Md_2012_512 | _ => None end)
  | A2001 | A2001DH => params (Some Md_94)
  | A_other => None
  end.

(** gost_ameth.c:120-140 [gost_decode_nid_params] and 146-182 [decode_gost_algor_params] for a new EVP_PKEY:
    the algorithm and the group.  [curves] is fill_GOST_EC_params (gost_ec_sign.c:90-176), None for an
    unknown parameter set.  The digest is ignored; nothing relates the two sizes. *)
Definition decode_gost_algor_params {G : Type} (curves : curve_nid -> option G) (al : algor) : option (pkey_alg * G) :=
  match al_params al with
  | None => None
  | Some (param_nid, _) =>
    match al_alg al with
    | A_other => None
    | a => match curves param_nid with None => None | Some C => Some (a, C) end
    end
  end.

(** gost_ameth.c:184-207 [gost_set_priv_key]; the parameters are never missing here. *)
Definition gost_set_priv_key (a : pkey_alg) (C : group) (priv : Z) : decoded evp_pkey :=
  match a with
  | A_other => Dec_fail
  | _ =>
    match gost_ec_compute_public C (mk_key (Some priv) None) with
    | (1, key) => Dec_ok (mk_pkey a C key)
    | _ => Dec_fail
    end
  end.

(** Reading [len] bytes at the offset [off] of a buffer. *)
Definition read (buf : list N) (off len : nat) : option (list N) :=
  if (off + len <=? length buf)%nat then Some (firstn len (skipn off buf)) else None.
(** gost_ameth.c:570-579: the loop from the last mask down to the first; [n] masks are left. *)
Fixpoint unmask_loop (q : Z) (buf : list N) (len n : nat) (acc : Z) : option Z :=
  match n with
  | O => Some acc
  | S n' =>
    match read buf (n * len) len with
    | None => None
    | Some mask => unmask_loop q buf len n' ((acc * lebin2bn mask) mod q)
    end
  end.
(** gost_ameth.c:547-585 [unmask_priv_key]: None if it reads outside the buffer. *)
Definition unmask_priv_key (q : Z) (buf : list N) (len : nat) (num_masks : Z) : option Z :=
  match read buf 0 len with
  | None => None
  | Some b =>
    if 0 <? num_masks then unmask_loop q buf len (Z.to_nat num_masks) (lebin2bn b)
    else Some (lebin2bn b)
  end.

(** gost_ameth.c:587-665 [priv_decode_gost]: the algorithm identifier and the contents of the privateKey
    field of the PKCS8 structure. *)
Definition priv_decode_gost (curves : curve_nid -> option group) (al : algor) (buf : list N) : decoded evp_pkey :=
  match decode_gost_algor_params curves al with
  | None => Dec_fail
  | Some (a, C) =>
    let expected := key_len a in
    let masked b := Z.of_nat (length b / expected) - 1 in
    if (expected =? 0)%nat then Dec_fail
    else if (length buf mod expected =? 0)%nat then
      match unmask_priv_key (order C) buf expected (masked buf) with
      | None => Dec_overread
      | Some k => gost_set_priv_key a C k
      end
    else
      match buf with
      | [] => Dec_overread
      | t :: _ =>
        if (t =? TAG_OCTET_STRING)%N then
          match d2i_octet buf with
          | None => Dec_fail
          | Some s =>
            if (length s =? 32)%nat || (length s =? 64)%nat then gost_set_priv_key a C (lebin2bn s) else Dec_fail
          end
        else if (t =? TAG_INTEGER)%N then
          match d2i_integer buf with
          | None => Dec_fail
          | Some k => gost_set_priv_key a C k
          end
        else if (t =? TAG_SEQUENCE)%N then
          match d2i_masked_key buf with
          | None => Dec_fail
          | Some (m, _) =>
            if (length m mod expected =? 0)%nat then
              match unmask_priv_key (order C) m expected (masked m) with
              | None => Dec_overread
              | Some k => gost_set_priv_key a C k
              end
            else Dec_fail
          end
        else Dec_fail
      end
  end.

(** gost_ameth.c:668-717 [priv_encode_gost]; [wrap]: the engine parameter PK_FORMAT is LEGACY_PK_WRAP.  The
    outer None: a key without private part (a null pointer is dereferenced); the inner None: the return
    value 0. *)
Definition priv_encode_gost (wrap : bool) (pk : evp_pkey) : option (option (algor * list N)) :=
  let n := key_len (pk_alg pk) in
  if (n =? 0)%nat then Some None
  else
    match k_priv (pk_key pk) with
    | None => None
    | Some d =>
      match store_bignum d (zeros n) n with
      | (0, _) => Some None
      | (_, buf) =>
        match encode_gost_algor_params (pk_alg pk) (gname (pk_curve pk)) with
        | None => Some None
        | Some al => Some (Some (al, if wrap then i2d_octet (rev buf) else rev buf))
        end
      end
    end.

(** A group with its EC_POINT_set_affine_coordinates: None if the coordinates are not on the curve. *)
Record curve := mk_curve { cv : group; lift : Z -> Z -> option (pt cv) }.
(** gost_ameth.c:905-957 [pub_decode_gost_ec]: the contents of the subjectPublicKey bit string. *)
Definition pub_decode_gost_ec (curves : curve_nid -> option curve) (al : algor) (buf : list N) : option evp_pkey :=
  match decode_gost_algor_params curves al with
  | None => None
  | Some (a, C) =>
    match d2i_octet buf with
    | None => None
    | Some octet =>
      let databuf := rev octet in
      let len := (length octet / 2)%nat in
      let Y := bin2bn (firstn len databuf) in
      let X := bin2bn (firstn len (skipn len databuf)) in
      match lift C X Y with
      | None => None
      | Some P => Some (mk_pkey a (cv C) (mk_key None (Some P)))
      end
    end
  end.

(** gost_ameth.c:959-1040 [pub_encode_gost_ec]: None for the return value 0.  store_bignum's results are
    dropped, the buffer is zeroed beforehand. *)
Definition pub_encode_gost_ec (pk : evp_pkey) : option (algor * list N) :=
  match encode_gost_algor_params (pk_alg pk) (gname (pk_curve pk)), k_pub (pk_key pk) with
  | Some al, Some P =>
    match affine (pk_curve pk) P with
    | None => None
    | Some (X, Y) =>
      let half := num_bytes (order (pk_curve pk)) in
      let databuf := snd (store_bignum Y (zeros half) half) ++ snd (store_bignum X (zeros half) half) in
      Some (al, i2d_octet (rev databuf))
    end
  | _, _ => None
  end.

(** gost_ameth.c:851-887 [param_copy_gost_ec]: the parameters of [from] given to a key of the algorithm
    [to_alg] with the private part [to_priv]; the result, None for the return value 0.  Without a private
    part the public key of [to], which belongs to its old group, stays and is dropped here. *)
Definition param_copy_gost_ec (to_alg : pkey_alg) (to_priv : option Z) (from : evp_pkey) : option evp_pkey :=
  let same := match to_alg, pk_alg from with
              | A2001, A2001 | A2001DH, A2001DH | A2012_256, A2012_256 | A2012_512, A2012_512 => true
              | _, _ => false
              end in
  if same then
    match to_priv with
    | None => Some (mk_pkey to_alg (pk_curve from) (mk_key None None))
    | Some d =>
      match gost_ec_compute_public (pk_curve from) (mk_key (Some d) None) with
      | (1, key) => Some (mk_pkey to_alg (pk_curve from) key)
      | _ => None
      end
    end
  else None.
