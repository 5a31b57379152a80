(** The ASN.1 structures of the key transport messages (gost_asn1.c:14-34, 69-76) and their DER, as OpenSSL's
    template encoder and decoder produce and accept it (library model on Asn1Model; what follows the outermost
    element is left alone, inside a SEQUENCE nothing may follow).  Object identifiers are their content octets. *)
From Coq Require Import ZArith List Bool Lia.
From Verif Require Import Bytes EcLadderModel EcModel Asn1Model AmethModel CmsParamsModel.
Import ListNotations.
Local Open Scope N_scope.

Definition TAG_BIT_STRING : N := 3.
Definition TAG_CONTEXT_0 : N := 160. (* [0] IMPLICIT of a constructed type *)

(** OpenSSL's table of objects: the public key algorithms, the curves, the digests named in key parameters
    (the 94 digest by its parameter set, gost_ameth.c:97). *)
Definition alg_oid (a : pkey_alg) : list N :=
  match a with
  | A2001 => [42; 133; 3; 2; 2; 19]
  | A2001DH => [42; 133; 3; 2; 2; 98]
  | A2012_256 => [42; 133; 3; 7; 1; 1; 1; 1]
  | A2012_512 => [42; 133; 3; 7; 1; 1; 1; 2]
  | A_other => []
  end.
Definition curve_oid (n : curve_nid) : list N :=
  match n with
  | TestParamSet => [42; 133; 3; 2; 2; 35; 0]
  | CryptoPro_A => [42; 133; 3; 2; 2; 35; 1]
  | CryptoPro_B => [42; 133; 3; 2; 2; 35; 2]
  | CryptoPro_C => [42; 133; 3; 2; 2; 35; 3]
  | CryptoPro_XchA => [42; 133; 3; 2; 2; 36; 0]
  | CryptoPro_XchB => [42; 133; 3; 2; 2; 36; 1]
  | Tc256_A => [42; 133; 3; 7; 1; 2; 1; 1; 1]
  | Tc256_B => [42; 133; 3; 7; 1; 2; 1; 1; 2]
  | Tc256_C => [42; 133; 3; 7; 1; 2; 1; 1; 3]
  | Tc256_D => [42; 133; 3; 7; 1; 2; 1; 1; 4]
  | Tc512_Test => [42; 133; 3; 7; 1; 2; 1; 2; 0]
  | Tc512_A => [42; 133; 3; 7; 1; 2; 1; 2; 1]
  | Tc512_B => [42; 133; 3; 7; 1; 2; 1; 2; 2]
  | Tc512_C => [42; 133; 3; 7; 1; 2; 1; 2; 3]
  | OtherNid => []
  end.
Definition digest_oid (d : digest_nid) : list N :=
  match d with
  | Md_94 => [42; 133; 3; 2; 2; 30; 1]
  | Md_2012_256 => [42; 133; 3; 7; 1; 1; 2; 2]
  | Md_2012_512 => [42; 133; 3; 7; 1; 1; 2; 3]
  end.
Definition find_alg (o : list N) : pkey_alg :=
  match find (fun a => eqbl (alg_oid a) o) [A2001; A2001DH; A2012_256; A2012_512] with Some a => a | None => A_other end.
Definition find_curve (o : list N) : curve_nid :=
  match find (fun n => eqbl (curve_oid n) o)
    [TestParamSet; CryptoPro_A; CryptoPro_B; CryptoPro_C; CryptoPro_XchA; CryptoPro_XchB; Tc256_A; Tc256_B; Tc256_C; Tc256_D;
     Tc512_Test; Tc512_A; Tc512_B; Tc512_C] with Some n => n | None => OtherNid end.
Definition find_digest (o : list N) : option digest_nid :=
  find (fun d => eqbl (digest_oid d) o) [Md_94; Md_2012_256; Md_2012_512].

(** An element with the tag of its first byte. *)
Definition get_any (b : list N) : option (N * list N * list N) :=
  match b with
  | [] => None
  | t :: _ => match get_tlv t b with None => None | Some (c, r) => Some (t, c, r) end
  end.
Definition get_oid (b : list N) : option (list N * list N) :=
  match get_tlv TAG_OBJECT b with
  | Some (o, r) => if object_ok o then Some (o, r) else None
  | None => None
  end.
(** An optional element. *)
Definition get_opt (get : list N -> option (list N * list N)) (tag : N) (b : list N) : option (option (list N) * list N) :=
  match b with
  | t :: _ => if t =? tag then match get b with Some (c, r) => Some (Some c, r) | None => None end else Some (None, b)
  | [] => Some (None, b)
  end.

(** gost_asn1.c:36-42 GOST_KEY_PARAMS; hash_params and cipher_params are optional. *)
Definition i2d_key_params (n : curve_nid) (h : option digest_nid) : list N :=
  der TAG_SEQUENCE (der TAG_OBJECT (curve_oid n) ++ match h with Some d => der TAG_OBJECT (digest_oid d) | None => [] end).
Definition d2i_key_params (b : list N) : option (curve_nid * option digest_nid) :=
  match get_tlv TAG_SEQUENCE b with
  | None => None
  | Some (c, _) =>
    match get_oid c with
    | None => None
    | Some (o, r) =>
      match get_opt get_oid TAG_OBJECT r with
      | None => None
      | Some (h, r) =>
        match get_opt get_oid TAG_OBJECT r with
        | Some (_, []) => Some (find_curve o, match h with Some h => find_digest h | None => None end)
        | _ => None
        end
      end
    end
  end.
(** AlgorithmIdentifier: the parameters are any element or none; GOST_KEY_PARAMS is read from a SEQUENCE only
    (gost_ameth.c:153-166). *)
Definition i2d_algor (al : algor) : list N :=
  der TAG_SEQUENCE (der TAG_OBJECT (alg_oid (al_alg al)) ++
    match al_params al with Some (n, h) => i2d_key_params n h | None => [] end).
Definition d2i_algor (b : list N) : option (algor * list N) :=
  match get_tlv TAG_SEQUENCE b with
  | None => None
  | Some (c, rest) =>
    match get_oid c with
    | None => None
    | Some (o, []) => Some (mk_algor (find_alg o) None, rest)
    | Some (o, r) =>
      match get_any r with
      | Some (t, _, []) => Some (mk_algor (find_alg o) (if t =? TAG_SEQUENCE then d2i_key_params r else None), rest)
      | _ => None
      end
    end
  end.
(** c2i_ASN1_BIT_STRING: the first byte is the number of unused bits, which are cleared. *)
Definition bit_string (c : list N) : option (list N) :=
  match c with
  | [] => None
  | u :: b =>
    if 7 <? u then None
    else match b with
         | [] => Some []
         | _ => Some (removelast b ++ [N.land (last b 0) (N.land (N.shiftl 255 u) 255)])
         end
  end.
(** SubjectPublicKeyInfo with the tag [tag]. *)
Definition xpub : Type := algor * list N.
Definition i2d_xpub (tag : N) (x : xpub) : list N := der tag (i2d_algor (fst x) ++ der TAG_BIT_STRING (0 :: snd x)).
Definition xpub_content (c : list N) : option xpub :=
  match d2i_algor c with
  | None => None
  | Some (al, r) =>
    match get_tlv TAG_BIT_STRING r with
    | Some (bs, []) => option_map (fun b => (al, b)) (bit_string bs)
    | _ => None
    end
  end.

(** gost_asn1.c:14-34 GOST_KEY_TRANSPORT with GOST_KEY_INFO and GOST_KEY_AGREEMENT_INFO. *)
Record gkt := mk_gkt { g_enc : list N; g_imit : list N; g_cipher : list N; g_ephem : option xpub; g_iv : list N }.
Definition i2d_gkt (g : gkt) : list N :=
  der TAG_SEQUENCE
    (der TAG_SEQUENCE (der TAG_OCTET_STRING (g_enc g) ++ der TAG_OCTET_STRING (g_imit g)) ++
     der TAG_CONTEXT_0 (der TAG_OBJECT (g_cipher g) ++
                        match g_ephem g with Some x => i2d_xpub TAG_CONTEXT_0 x | None => [] end ++
                        der TAG_OCTET_STRING (g_iv g))).
Definition d2i_gkt (b : list N) : option gkt :=
  match get_tlv TAG_SEQUENCE b with
  | None => None
  | Some (c, _) =>
    match get_tlv TAG_SEQUENCE c with
    | None => None
    | Some (ki, r) =>
      match get_tlv TAG_OCTET_STRING ki with
      | None => None
      | Some (enc, r1) =>
        match get_tlv TAG_OCTET_STRING r1 with
        | Some (imit, []) =>
          match get_tlv TAG_CONTEXT_0 r with
          | Some (ka, []) =>
            match get_oid ka with
            | None => None
            | Some (oid, r2) =>
              match get_opt (get_tlv TAG_CONTEXT_0) TAG_CONTEXT_0 r2 with
              | None => None
              | Some (e, r3) =>
                match get_tlv TAG_OCTET_STRING r3 with
                | Some (iv, []) =>
                  match e with
                  | None => Some (mk_gkt enc imit oid None iv)
                  | Some c => match xpub_content c with Some x => Some (mk_gkt enc imit oid (Some x) iv) | None => None end
                  end
                | _ => None
                end
              end
            end
          | _ => None
          end
        | _ => None
        end
      end
    end
  end.
(** gost_asn1.c:69-76 PSKeyTransport_gost *)
Record pst := mk_pst { s_psexp : list N; s_ephem : xpub; s_ukm : option (list N) }.
Definition i2d_pst (p : pst) : list N :=
  der TAG_SEQUENCE (der TAG_OCTET_STRING (s_psexp p) ++ i2d_xpub TAG_SEQUENCE (s_ephem p) ++
                    match s_ukm p with Some u => der TAG_OCTET_STRING u | None => [] end).
Definition d2i_pst (b : list N) : option pst :=
  match get_tlv TAG_SEQUENCE b with
  | None => None
  | Some (c, _) =>
    match get_tlv TAG_OCTET_STRING c with
    | None => None
    | Some (e, r) =>
      match get_tlv TAG_SEQUENCE r with
      | None => None
      | Some (x, r2) =>
        match xpub_content x with
        | None => None
        | Some x =>
          match get_opt (get_tlv TAG_OCTET_STRING) TAG_OCTET_STRING r2 with
          | Some (u, []) => Some (mk_pst e x u)
          | _ => None
          end
        end
      end
    end
  end.
