(** Model of key transport: EVP_PKEY_encrypt and EVP_PKEY_decrypt of the GOST public key methods
    (gost_ec_keyx.c:277-792), in the variants "cp" (CryptoPro key wrap) and "2018" (KExp15).  Memory allocation
    does not fail. *)
From Coq Require Import ZArith List Bool Lia.
From Verif Require Import Bytes Gost89Model Gost89Sboxes CryptModel KeywrapModel KdfModel KexpModel EcLadderModel EcModel Asn1Model
  AmethModel CmsParamsModel PmethModel KeyTransAsn1.
Import ListNotations.
Local Open Scope Z_scope.

(** An EVP_PKEY_CTX: the type and the key of its EVP_PKEY, the peer key set by EVP_PKEY_derive_set_peer (which
    has the same type and the same curve) and the method's data. *)
Record tctx (C : group) := mk_t { t_alg : pkey_alg; t_key : eckey C; t_peer : option (eckey C); t_data : pdata }.
Arguments mk_t {C}. Arguments t_alg {C}. Arguments t_key {C}. Arguments t_peer {C}. Arguments t_data {C}.
Definition t_with_data {C} (x : tctx C) (d : pdata) : tctx C := mk_t (t_alg x) (t_key x) (t_peer x) d.
Definition t_with_peer {C} (x : tctx C) (k : eckey C) : tctx C := mk_t (t_alg x) (t_key x) (Some k) (t_data x).
(** The machine, and what is in the stack objects before they are set up. *)
Record world := mk_world { w_host : host; w_gost : gost_ctx; w_fresh : fresh; w_stack : list N }.

(** VKO_compute_key (gost_ec_keyx.c:27-126) for keys that may lack a part: without a private number
    BN_mod_mul gets a null pointer, without a point the multiplication fails. *)
Definition vko {C : group} (w : world) (pub : option (pt C)) (key : eckey C) (ukm : list N) (md : option digest_nid)
  : outcome (option (list N)) :=
  match md with
  | None => Returns None
  | Some _ =>
    match k_priv key with
    | None => Dies
    | Some d => Returns match pub with None => None | Some Q => VKO_compute_key C (w_host w) (w_gost w) Q d ukm md end
    end
  end.
(** gost_keg (132-179), likewise. *)
Definition keg_with {C : group} (w : world) (ukm : list N) (a : pkey_alg) (pub : option (pt C)) (key : eckey C)
  : outcome (option (list N)) :=
  match a with
  | A2012_256 | A2012_512 =>
    match k_priv key with
    | None => Dies
    | Some d => Returns match pub with None => None | Some Q => gost_keg C (w_host w) (w_gost w) ukm a Q d end
    end
  | _ => Returns None
  end.

(** :320-328, 448-454: EVP_PKEY_assign, EVP_PKEY_copy_parameters, gost_ec_keygen. *)
Definition gen_ephemeral (C : group) (a : pkey_alg) (draws : list Z) : option (eckey C) :=
  match a with
  | A_other => None
  | _ => let (r, k) := gost_ec_keygen C (EcModel.mk_key None None) draws in if r =? 0 then None else Some k
  end.
(** X509_PUBKEY_set: the key method's pub_encode. *)
Definition pubkey_set {C : group} (a : pkey_alg) (k : eckey C) : option xpub := pub_encode_gost_ec (AmethModel.mk_pkey a C k).

(** X509_PUBKEY_get, seen from a key on the curve [c]: nothing decodable, a key on a curve of another name, or
    a key on this curve. *)
Inductive msg_key (C : group) := K_none | K_other (a : pkey_alg) | K_same (a : pkey_alg) (P : pt C).
Arguments K_none {C}. Arguments K_other {C}. Arguments K_same {C}.
Definition curve_nid_eqb (a b : curve_nid) : bool := eqbl (curve_oid a) (curve_oid b).
(** gost_ameth.c:905-957 [pub_decode_gost_ec] once the curve is known. *)
Definition pub_decode_on (c : curve) (a : pkey_alg) (buf : list N) : option (pkey_alg * pt (cv c)) :=
  match a with
  | A_other => None
  | _ =>
    match d2i_octet buf with
    | None => None
    | Some octet =>
      let databuf := rev octet in
      let len := (length octet / 2)%nat in
      let Y := bin2bn (firstn len databuf) in
      let X := bin2bn (firstn len (skipn len databuf)) in
      option_map (pair a) (lift c X Y)
    end
  end.
Definition x509_pubkey_get (curves : curve_nid -> option curve) (c : curve) (x : xpub) : msg_key (cv c) :=
  match al_params (fst x) with
  | None => K_none
  | Some (n, _) =>
    if curve_nid_eqb n (gname (cv c)) then
      match pub_decode_on c (al_alg (fst x)) (snd x) with None => K_none | Some (a, P) => K_same a P end
    else
      match pub_decode_gost_ec curves (fst x) (snd x) with None => K_none | Some pk => K_other (pk_alg pk) end
  end.
Definition alg_eqb (a b : pkey_alg) : bool :=
  match a, b with
  | A2001, A2001 | A2001DH, A2001DH | A2012_256, A2012_256 | A2012_512, A2012_512 | A_other, A_other => true
  | _, _ => false
  end.

(** * The CryptoPro variant *)
(** :286-290 *)
Definition cp_param (a : pkey_alg) : param_set := match a with A2001 | A2001DH => P_A | _ => P_Z end.
(** What an encrypting call leaves: return value, context, the bytes written to out, *out_len, and the number of
    references to a newly made key that were taken and not given back. *)
Record sent (C : group) := mk_sent { o_ret : Z; o_ctx : tctx C; o_out : list N; o_len : nat; o_refs : Z }.
Arguments mk_sent {C}. Arguments o_ret {C}. Arguments o_ctx {C}. Arguments o_out {C}. Arguments o_len {C}. Arguments o_refs {C}.
(** :277-399 [pkey_GOST_ECcp_encrypt].  [rnd]: what RAND_bytes yields (None: it fails); [draws]: the numbers
    gost_ec_keygen draws; [out]: whether out is not NULL; [key]: the memory at [key]; [junk]: the
    uninitialised crypted_key. *)
Definition cp_encrypt {C : group} (w : world) (rnd : option (list N)) (draws : list Z) (junk : list N) (x : tctx C)
  (out : bool) (out_len : nat) (key : list N) (key_len : nat) : outcome (sent C) :=
  let a := t_alg x in
  let data := t_data x in
  let stop r refs x := Returns (mk_sent r x [] out_len refs) in
  (* 301-308 *)
  match (if d_ukm_size data =? 0 then option_map (firstn 8) rnd else Some (firstn 8 (d_ukm data))) with
  | None => stop 0 0 x
  | Some ukm =>
    (* 312-334: the key, whether it is ephemeral, the references held *)
    match (match t_peer x with
           | Some k => match k_priv k with None => None | Some _ => Some (false, k, 0) end
           | None => if out then option_map (fun k => (true, k, 1)) (gen_ephemeral C a draws) else Some (true, t_key x, 0)
           end) with
    | None => stop (-1) 0 x
    | Some (ephemeral, sec, refs) =>
      (* 335-350 *)
      match (if out then
               match vko w (k_pub (t_key x)) sec ukm (shorten (default_digest a)) with
               | Dies => Dies
               | Returns None => Returns None
               | Returns (Some kek) => Returns (Some (snd (keyWrapCryptoPro (gost_init (w_gost w) (sbox_of (cp_param a))) kek ukm (firstn 32 key))))
               end
             else Returns (Some junk)) with
      | Dies => Dies
      | Returns None => stop (-1) (refs - refs) x
      | Returns (Some crypted) =>
        (* 351-373 *)
        match (if ephemeral : bool then option_map Some (pubkey_set a (if out then sec else t_key x)) else Some None) with
        | None => stop (-1) (refs - refs) x
        | Some eph =>
          (* 374-377: the message has its own reference to the key; ours is given back *)
          let held := refs + refs - refs in
          (* 378-385 *)
          match (if ephemeral then Ret 1 data else pkey_gost_ctrl None data (R_peer_key 3)) with
          | Dead => Dies
          | Ret r data =>
            let x := t_with_data x data in
            if r <=? 0 then stop (-1) (held - refs - refs) x
            else
              let g := mk_gkt (firstn 32 (skipn 8 crypted)) (firstn 4 (skipn 40 crypted)) (oid_of (cp_param a)) eph ukm in
              let res := i2d_gkt g in
              (* 386-399; the end frees the message, the label err before it once more the key *)
              if negb out then Returns (mk_sent 1 x [] (length res) (held - refs))
              else if (out_len <? length res)%nat then stop (-1) (held - refs - refs) x
              else Returns (mk_sent 1 x res (length res) (held - refs))
          end
        end
      end
    end
  end.

(** What a decrypting call leaves: return value, context, what it wrote to the key buffer. *)
Record got (C : group) := mk_got { i_ret : Z; i_ctx : tctx C; i_key : option (list N) }.
Arguments mk_got {C}. Arguments i_ret {C}. Arguments i_ctx {C}. Arguments i_key {C}.
(** :577-660 [pkey_GOST_ECcp_decrypt].  EVP_PKEY_derive_set_peer (library) refuses a key of another type or
    with other parameters (param_cmp_gost_ec: the names of the curves). *)
Definition cp_decrypt (curves : curve_nid -> option curve) (c : curve) (w : world) (x : tctx (cv c)) (inp : list N)
  : outcome (got (cv c)) :=
  match d2i_gkt inp with
  | None => Returns (mk_got (-1) x None)
  | Some g =>
    (* 600-622 *)
    match (match (match g_ephem g with Some p => x509_pubkey_get curves c p | None => K_none end) with
           | K_same a P => if alg_eqb a (t_alg x) then Ret 1 (t_with_peer x (EcModel.mk_key None (Some P))) else Ret 0 x
           | K_other _ => Ret 0 x
           | K_none => match pkey_gost_ctrl None (t_data x) (R_peer_key 3) with Ret r d => Ret r (t_with_data x d) | Dead => Dead end
           end) with
    | Dead => Dies
    | Ret r x =>
      if r <=? 0 then Returns (mk_got 0 x None)
      else
        match t_peer x with
        | None => Returns (mk_got 0 x None)
        | Some peer =>
          match find_param (g_cipher g) with
          | None => Returns (mk_got 0 x None)
          | Some p =>
            (* 629-635 *)
            if negb (length (g_iv g) =? 8)%nat || negb (length (g_enc g) =? 32)%nat || negb (length (g_imit g) =? 4)%nat then Dies
            else
              let wrapped := g_iv g ++ g_enc g ++ g_imit g in
              match vko w (k_pub peer) (t_key x) (firstn 8 wrapped) (shorten (default_digest (t_alg x))) with
              | Dies => Dies
              | Returns None => Returns (mk_got 0 x None)
              | Returns (Some kek) =>
                let (r, sk) := keyUnwrapCryptoPro (gost_init (w_gost w) (sbox_of p)) kek wrapped in
                Returns (mk_got (if r =? 0 then 0 else 1) x (Some sk))
              end
          end
        end
    end
  end.

(** * The 2018 variant *)
(** :428-444, 687-701: cipher, MAC, length of the MAC and of the IV. *)
Definition ps_suite (n : cipher_nid) : option (ctr_nid * mac_nid * nat * nat) :=
  match n with
  | C_magma_ctr => Some (NID_magma_ctr, NID_magma_mac, 8%nat, 4%nat)
  | C_kuz_ctr => Some (NID_grasshopper_ctr, NID_grasshopper_mac, 16%nat, 8%nat)
  | _ => None
  end.
(** :405-546 [pkey_gost2018_encrypt] *)
Definition ps_encrypt {C : group} (w : world) (rnd : option (list N)) (draws : list Z) (x : tctx C)
  (out : bool) (out_len : nat) (key : list N) (key_len : nat) : outcome (sent C) :=
  let a := t_alg x in
  let stop r refs x := Returns (mk_sent r x [] out_len refs) in
  match ps_suite (d_cipher (t_data x)) with
  | None => stop (-1) 0 x
  | Some (cn, mn, mac_len, iv_len) =>
    (* 456-473 *)
    match (match t_peer x with Some k => Some (k, 0) | None => option_map (fun k => (k, 1)) (gen_ephemeral C a draws) end) with
    | None => stop 0 0 x
    | Some (sec, refs) =>
      (* 475-481 *)
      match (if d_ukm_size (t_data x) =? 0 then option_map (fun r => with_ukm (t_data x) (firstn 32 r) 32) rnd else Some (t_data x)) with
      | None => stop 0 (refs - refs) x
      | Some data =>
        let x := t_with_data x data in
        (* 483-489 *)
        match keg_with w (d_ukm data) a (k_pub (t_key x)) sec with
        | Dies => Dies
        | Returns None => stop 0 (refs - refs) x
        | Returns (Some keys) =>
          (* 491-496 *)
          match gost_kexp15 (w_host w) (w_fresh w) (firstn key_len key) cn (firstn 32 (skipn 32 keys)) mn (firstn 32 keys)
                  (firstn iv_len (skipn 24 (d_ukm data))) (key_len + mac_len) with
          | KFail => stop 0 (refs - refs) x
          | KOverflow => Dies
          | KOut psexp =>
            (* 498-523 *)
            match pubkey_set a (if out then sec else t_key x) with
            | None => stop 0 (refs - refs) x
            | Some eph =>
              let held := refs + (if out then refs else 0) in
              let freed := refs + (if out then refs else 0) in
              let res := i2d_pst (mk_pst psexp eph (Some (firstn (Z.to_nat (d_ukm_size data)) (d_ukm data)))) in
              if negb out then Returns (mk_sent 1 x [] (length res) (held - freed))
              else if (out_len <? length res)%nat then stop 0 (held - freed) x
              else Returns (mk_sent 1 x res (length res) (held - freed))
            end
          end
        end
      end
    end
  end.
(** :666-768 [pkey_gost2018_decrypt].  A point of a curve with another name is refused by OpenSSL's point
    operations (ec_point_is_compat), so the multiplication fails. *)
Definition ps_decrypt (curves : curve_nid -> option curve) (c : curve) (w : world) (x : tctx (cv c)) (inp : list N)
  : outcome (got (cv c)) :=
  match ps_suite (d_cipher (t_data x)) with
  | None => Returns (mk_got (-1) x None)
  | Some (cn, mn, _, iv_len) =>
    match d2i_pst inp with
    | None => Returns (mk_got (-1) x None)
    | Some p =>
      match x509_pubkey_get curves c (s_ephem p) with
      | K_none => Returns (mk_got 0 x None)
      | k =>
        let point := match k with K_same _ P => Some P | _ => None end in
        (* 735-741 *)
        match (match s_ukm p with
               | Some u => if d_ukm_size (t_data x) =? 0 then pkey_gost_ctrl None (t_data x) (R_set_iv (Z.of_nat (length u)) (Some u)) else Ret 1 (t_data x)
               | None => Ret 1 (t_data x)
               end) with
        | Dead => Dies
        | Ret r data =>
          let x := t_with_data x data in
          if r <? 0 then Returns (mk_got 0 x None)
          else
            match keg_with w (d_ukm data) (t_alg x) point (t_key x) with
            | Dies => Dies
            | Returns None => Returns (mk_got 0 x None)
            | Returns (Some keys) =>
              match gost_kimp15 (w_host w) (w_fresh w) (w_stack w) (s_psexp p) cn (firstn 32 (skipn 32 keys)) mn (firstn 32 keys)
                      (firstn iv_len (skipn 24 (d_ukm data))) with
              | KOut k => Returns (mk_got 1 x (Some k))
              | KFail => Returns (mk_got 0 x None)
              | KOverflow => Dies
              end
            end
        end
      end
    end
  end.

(** * The entry points *)
(** NID_id_Gost28147_89 in OpenSSL's table of objects. *)
Definition NID_id_Gost28147_89 : Z := 813.
Inductive variant := V_cp | V_2018.
(** :552-571, 777-791 *)
Definition variant_of (n : cipher_nid) : option variant :=
  match n with
  | C_undef => Some V_cp
  | C_other n => if n =? NID_id_Gost28147_89 then Some V_cp else None
  | C_kuz_ctr | C_magma_ctr => Some V_2018
  | _ => None
  end.
(** :548-571 [pkey_gost_encrypt] *)
Definition pkey_gost_encrypt {C : group} (w : world) (rnd : option (list N)) (draws : list Z) (junk : list N) (x : tctx C)
  (out : bool) (out_len : nat) (key : list N) (key_len : nat) : outcome (sent C) :=
  match variant_of (d_cipher (t_data x)) with
  | Some V_cp => cp_encrypt w rnd draws junk x out out_len key key_len
  | Some V_2018 => ps_encrypt w rnd draws x out out_len key key_len
  | None => Returns (mk_sent (-1) x [] out_len 0)
  end.
(** :770-792 [pkey_gost_decrypt]; [key_len] is the incoming *key_len, None for key = NULL.  The result has the
    outgoing *key_len. *)
Definition pkey_gost_decrypt (curves : curve_nid -> option curve) (c : curve) (w : world) (x : tctx (cv c))
  (key_len : option nat) (inp : list N) : outcome (got (cv c) * nat) :=
  match key_len with
  | None => Returns (mk_got 1 x None, 32%nat)
  | Some n =>
    let with_len o := match o with
                      | Dies => Dies
                      | Returns g => Returns (g, if i_ret g =? 1 then 32%nat else n)
                      end in
    if (n <? 32)%nat then Returns (mk_got 0 x None, n)
    else
      match variant_of (d_cipher (t_data x)) with
      | Some V_cp => with_len (cp_decrypt curves c w x inp)
      | Some V_2018 => with_len (ps_decrypt curves c w x inp)
      | None => Returns (mk_got (-1) x None, n)
      end
  end.
