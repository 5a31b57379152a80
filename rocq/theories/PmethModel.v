(** Model of the public key method contexts of gost_pmeth.c: initialisation, copying, control calls (numeric and by name),
    parameter generation, and the MAC "keys". *)
From Coq Require Import String ZArith List Bool Lia.
From Verif Require Import Bytes Gost89Model Gost89Sboxes CryptModel OmacModel EcLadderModel EcModel ParamsModel CmsParamsModel.
Import ListNotations.
Open Scope Z_scope.

(** * C library pieces *)
Definition is_space (c : N) : bool := ((c =? 32) || ((9 <=? c) && (c <=? 13)))%N.
Definition is_digit (c : N) : bool := ((48 <=? c) && (c <=? 57))%N.
Fixpoint skip_space (s : list N) : list N := match s with c :: s' => if is_space c then skip_space s' else s | nil => nil end.
Fixpoint digits (acc : Z) (s : list N) : Z * list N :=
  match s with
  | c :: s' => if is_digit c then digits (10 * acc + (Z.of_N c - 48)) s' else (acc, s)
  | nil => (acc, nil)
  end.
(** strtol(s, &endptr, 10) with a 64-bit long: the value (out of range: the nearest bound) and the unread rest. *)
Definition clamp_long (z : Z) : Z := Z.max (- 2 ^ 63) (Z.min (2 ^ 63 - 1) z).
Definition strtol (s : list N) : Z * list N :=
  let s1 := skip_space s in
  let '(neg, s2) := match s1 with 45%N :: r => (true, r) | 43%N :: r => (false, r) | _ => (false, s1) end in
  match s2 with
  | c :: _ => if is_digit c then let '(v, r) := digits 0 s2 in (clamp_long (if neg : bool then - v else v), r) else (0, s)
  | nil => (0, s)
  end.
(** Conversion of a long to int. *)
Definition to_int (z : Z) : Z := (z + 2 ^ 31) mod 2 ^ 32 - 2 ^ 31.
Definition atoi (s : list N) : Z := to_int (fst (strtol s)).
(** Conversion of an int to size_t. *)
Definition to_size (z : Z) : Z := z mod 2 ^ 64.
(** OPENSSL_hexstr2buf (and string_to_hex, which is the same function): pairs of hexadecimal digits, colons in front of a
    pair skipped; [None]: an error. *)
Definition hexval (c : N) : option N :=
  if ((48 <=? c) && (c <=? 57))%N then Some (c - 48)%N
  else if ((65 <=? c) && (c <=? 70))%N then Some (c - 55)%N
  else if ((97 <=? c) && (c <=? 102))%N then Some (c - 87)%N
  else None.
Fixpoint hexpairs (s : list N) : option (list N) :=
  match s with
  | nil => Some nil
  | a :: t =>
    if (a =? 58)%N then hexpairs t
    else match t with
    | nil => None
    | b :: r => match hexval a, hexval b, hexpairs r with Some x, Some y, Some l => Some ((16 * x + y)%N :: l) | _, _, _ => None end
    end
  end.
Definition hexstr2buf (s : list N) : option (list N) := if (List.length s <=? 1)%nat then None else hexpairs s.
(** toupper in the C locale *)
Definition toupper (c : N) : N := if ((97 <=? c) && (c <=? 122))%N then (c - 32)%N else c.

(** * Contexts of the signature and key agreement methods *)
(** Numeric identifiers of digests and ciphers, as far as they are told apart. *)
Inductive md_nid := M_94 | M_256 | M_512 | M_mac_89 | M_mac_12 | M_magma_mac | M_kuz_mac | M_kuz_acpkm_omac | M_magma_acpkm_omac | M_other.
Inductive cipher_nid := C_undef | C_magma_ctr | C_magma_ctr_acpkm | C_magma_ctr_acpkm_omac
  | C_kuz_ctr | C_kuz_ctr_acpkm | C_kuz_ctr_acpkm_omac | C_other (n : Z).
Inductive vko_nid := Vko_0 | Vko_256 | Vko_512 | Vko_other.
(** The key of a context, EVP_PKEY_CTX_get0_pkey: its type and, if it has one, its curve. *)
Record pkey := mk_pkey { k_alg : pkey_alg; k_has_data : bool; k_group : option curve_nid }.
(** gost_lcl.h:79-88 struct gost_pmeth_data; NID_undef is [None]. *)
Record pdata := mk_pdata {
  d_param : option curve_nid; d_md : option md_nid; d_ukm : list N; d_ukm_size : Z; d_peer_used : Z; d_cipher : cipher_nid; d_vko : vko_nid }.
Definition pdata0 : pdata := mk_pdata None None (zeros 32) 0 0 C_undef Vko_0.
Definition with_param d x := mk_pdata x (d_md d) (d_ukm d) (d_ukm_size d) (d_peer_used d) (d_cipher d) (d_vko d).
Definition with_md d x := mk_pdata (d_param d) x (d_ukm d) (d_ukm_size d) (d_peer_used d) (d_cipher d) (d_vko d).
Definition with_ukm d u n := mk_pdata (d_param d) (d_md d) u n (d_peer_used d) (d_cipher d) (d_vko d).
Definition with_peer d x := mk_pdata (d_param d) (d_md d) (d_ukm d) (d_ukm_size d) x (d_cipher d) (d_vko d).
Definition with_cipher d x := mk_pdata (d_param d) (d_md d) (d_ukm d) (d_ukm_size d) (d_peer_used d) x (d_vko d).
Definition with_vko d x := mk_pdata (d_param d) (d_md d) (d_ukm d) (d_ukm_size d) (d_peer_used d) (d_cipher d) x.
(** gost_pmeth.c:30-61 [pkey_gost_init] (allocations succeed); None is the return value 0. *)
Definition pkey_gost_init (key : option pkey) : option pdata :=
  match key with
  | Some k =>
    if k_has_data k then
      match k_alg k, k_group k with
      | A_other, _ => None
      | _, Some g => Some (with_param pdata0 (Some g))
      | _, None => None
      end
    else Some pdata0
  | None => Some pdata0
  end.
(** gost_pmeth.c:64-78 [pkey_gost_copy] *)
Definition pkey_gost_copy (key : option pkey) (src : pdata) : option pdata :=
  match pkey_gost_init key with Some _ => Some src | None => None end.

(** The control calls told apart by [pkey_gost_ctrl]. *)
Inductive ec_req :=
  | R_md (p2 : option md_nid)            (* EVP_PKEY_CTRL_MD, NULL possible *)
  | R_get_md
  | R_notice                             (* PKCS7_*, CMS_*, DIGESTINIT *)
  | R_paramset (p1 : option curve_nid)
  | R_set_iv (p1 : Z) (p2 : option (list N))
  | R_set_vko (p1 : vko_nid)
  | R_cipher (p1 : cipher_nid)
  | R_peer_key (p1 : Z)
  | R_unknown.
(** The digest a key type goes with (gost_pmeth.c:105-128; the type of NID_id_GostR3410_94 keys does not exist). *)
Definition md_fits (md : md_nid) (key : option pkey) : bool :=
  match md, key with
  | M_94, Some k => match k_alg k with A2001 | A2001DH => true | _ => false end
  | M_256, Some k => match k_alg k with A2012_256 => true | _ => false end
  | M_512, Some k => match k_alg k with A2012_512 => true | _ => false end
  | _, _ => false
  end.
(** What a call does: return value and context afterwards, or the end of the process (OPENSSL_assert, NULL access). *)
Inductive called (A : Type) := Ret (r : Z) (d : A) | Dead.
Arguments Ret {A}. Arguments Dead {A}.
(** gost_pmeth.c:90-200 [pkey_gost_ctrl] on an initialised context *)
Definition pkey_gost_ctrl (key : option pkey) (d : pdata) (q : ec_req) : called pdata :=
  match q with
  | R_md None => Dead
  | R_md (Some md) => if md_fits md key then Ret 1 (with_md d (Some md)) else Ret 0 d
  | R_get_md => Ret 1 d
  | R_notice => Ret 1 d
  | R_paramset p => Ret 1 (with_param d p)
  | R_set_iv p1 p2 =>
      if to_size p1 >? 32 then Ret 0 d
      else match p2 with
           | None => Ret 0 d
           | Some p2 => Ret 1 (with_ukm d (overwrite (d_ukm d) 0 (firstn (Z.to_nat p1) p2)) p1)
           end
  | R_set_vko v => match v with Vko_other => Ret 0 d | _ => Ret 1 (with_vko d v) end
  | R_cipher c =>
      Ret 1 (with_cipher d match c with
        | C_magma_ctr_acpkm | C_magma_ctr_acpkm_omac | C_magma_ctr => C_magma_ctr
        | C_kuz_ctr_acpkm | C_kuz_ctr_acpkm_omac | C_kuz_ctr => C_kuz_ctr
        | c => c end)
  | R_peer_key p1 =>
      if (p1 =? 0) || (p1 =? 1) then Ret 1 d
      else if p1 =? 2 then Ret (d_peer_used d) d
      else if p1 =? 3 then Ret 1 (with_peer d 1)
      else Ret (-2) d
  | R_unknown => Ret (-2) d
  end.

(** gost_pmeth.c:202-236 [pkey_gost_ec_ctrl_str_common]; a NULL value is dereferenced. *)
Definition ctrl_str_common (key : option pkey) (d : pdata) (type : string) (value : option (list N)) : called pdata :=
  if String.eqb type "ukmhex" then
    match value with
    | None => Dead
    | Some v =>
      match hexstr2buf v with
      | None => Ret 0 d
      | Some u => if (32 <? List.length u)%nat then Ret 0 d else pkey_gost_ctrl key d (R_set_iv (Z.of_nat (List.length u)) (Some u))
      end
    end
  else if String.eqb type "vko" then
    match value with
    | None => Dead
    | Some v =>
      let bits := atoi v in
      if bits =? 256 then pkey_gost_ctrl key d (R_set_vko Vko_256)
      else if bits =? 512 then pkey_gost_ctrl key d (R_set_vko Vko_512)
      else if negb (bits =? 0) then Ret 0 d
      else pkey_gost_ctrl key d (R_set_vko Vko_0)
    end
  else Ret (-2) d.
(** The walk through a table of parameter sets (gost_pmeth.c:301-309, 353-360). *)
Definition in_table (t : list ec_params) (n : curve_nid) : bool := existsb (fun p => curve_nid_eqb (ep_nid p) n) t.
(** gost_pmeth.c:238-317 [pkey_gost_ec_ctrl_str_256]; [txt2nid] is OBJ_txt2nid, None for NID_undef. *)
Definition ctrl_str_256 (txt2nid : list N -> option curve_nid) (key : option pkey) (d : pdata) (type : string) (value : option (list N)) : called pdata :=
  if String.eqb type "paramset" then
    match value with
    | None => Ret 0 d
    | Some v =>
      let set n := pkey_gost_ctrl key d (R_paramset (Some n)) in
      let by_name :=
        match txt2nid v with
        | None => Ret 0 d
        | Some n => if in_table R3410_2001_paramset n then set n else Ret 0 d
        end in
      match v with
      | [a] =>
        match toupper a with
        | 65%N => set CryptoPro_A | 66%N => set CryptoPro_B | 67%N => set CryptoPro_C | 48%N => set TestParamSet
        | _ => Ret 0 d
        end
      | [a; b] =>
        if (toupper a =? 88)%N then
          match toupper b with 65%N => set CryptoPro_XchA | 66%N => set CryptoPro_XchB | _ => Ret 0 d end
        else by_name
      | [a; b; c] =>
        if ((toupper a =? 84) && (toupper b =? 67))%N then
          match toupper c with 65%N => set Tc256_A | 66%N => set Tc256_B | 67%N => set Tc256_C | 68%N => set Tc256_D | _ => Ret 0 d end
        else by_name
      | _ => by_name
      end
    end
  else ctrl_str_common key d type value.
(** gost_pmeth.c:319-364 [pkey_gost_ec_ctrl_str_512] *)
Definition ctrl_str_512 (txt2nid : list N -> option curve_nid) (key : option pkey) (d : pdata) (type : string) (value : option (list N)) : called pdata :=
  if negb (String.eqb type "paramset") then ctrl_str_common key d type value
  else
    match value with
    | None => Ret 0 d
    | Some v =>
      let set n := pkey_gost_ctrl key d (R_paramset (Some n)) in
      match v with
      | [a] => match toupper a with 65%N => set Tc512_A | 66%N => set Tc512_B | 67%N => set Tc512_C | _ => Ret 0 d end
      | _ => match txt2nid v with
             | None => Ret 0 d
             | Some n => if in_table R3410_2012_512_paramset n then set n else Ret 0 d
             end
      end
    end.

(** gost_pmeth.c:373-390 [pkey_gost2001_paramgen] and 392-440 [pkey_gost2012_paramgen] (EVP_PKEY_assign succeeds): the type
    of the key and its group. *)
Definition pkey_gost2001_paramgen (c : cache) (d : pdata) : option (pkey_alg * ec_group) :=
  match d_param d with
  | None => None
  | Some n => match snd (fill_GOST_EC_params c n) with Some g => Some (A2001, g) | None => None end
  end.
Definition pkey_gost2012_paramgen (c : cache) (d : pdata) : option (pkey_alg * ec_group) :=
  match d_param d with
  | None => None
  | Some n =>
    match snd (fill_GOST_EC_params c n) with
    | None => None
    | Some g =>
      match n with
      | Tc512_A | Tc512_B | Tc512_C | Tc512_Test => Some (A2012_512, g)
      | CryptoPro_A | CryptoPro_B | CryptoPro_C | CryptoPro_XchA | CryptoPro_XchB | TestParamSet
      | Tc256_A | Tc256_B | Tc256_C | Tc256_D => Some (A2012_256, g)
      | OtherNid => None
      end
    end
  end.

(** * The MAC methods *)
(** gost_lcl.h:98-102 struct gost_mac_key *)
Record mac_key := mk_mac_key { mk_param : option param_set; mk_key : list N; mk_size : Z }.
(** gost_lcl.h:90-96 struct gost_mac_pmeth_data *)
Record mdata := mk_mdata { a_key_set : bool; a_size : Z; a_param : option param_set; a_md : option md_nid; a_key : list N }.
(** gost_pmeth.c:572-593 [pkey_gost_mac_init], 595-626 [pkey_gost_omac_init] with the default size: 4, 8 (Magma), 16. *)
Definition pkey_mac_init (dflt : Z) (key : option mac_key) : mdata :=
  match key with
  | None => mk_mdata false dflt None None (zeros 32)
  | Some k => mk_mdata false (mk_size k) (mk_param k) None (zeros 32)
  end.
(** gost_pmeth.c:635-648 [pkey_gost_mac_copy], all MAC methods *)
Definition pkey_gost_mac_copy (key : option mac_key) (src : mdata) : mdata := src.
Inductive mac_req :=
  | Q_md (md : md_nid)
  | Q_get_md
  | Q_notice
  | Q_set_key (p1 : Z) (p2 : list N)
  | Q_paramset (p2 : param_set)
  | Q_mac_len (p1 : Z)
  | Q_unknown.
Definition a_with_md d x := mk_mdata (a_key_set d) (a_size d) (a_param d) (Some x) (a_key d).
Definition a_with_key d k := mk_mdata true (a_size d) (a_param d) (a_md d) k.
Definition a_with_param d p := mk_mdata (a_key_set d) (a_size d) (Some p) (a_md d) (a_key d).
Definition a_with_size d n := mk_mdata (a_key_set d) n (a_param d) (a_md d) (a_key d).
(** gost_pmeth.c:650-727 [pkey_gost_mac_ctrl], without DIGESTINIT *)
Definition pkey_gost_mac_ctrl (d : mdata) (q : mac_req) : Z * mdata :=
  match q with
  | Q_md md => match md with M_mac_89 | M_mac_12 => (1, a_with_md d md) | _ => (0, d) end
  | Q_get_md | Q_notice => (1, d)
  | Q_set_key p1 p2 => if negb (p1 =? 32) then (0, d) else (1, a_with_key d (firstn 32 p2))
  | Q_paramset p => (1, a_with_param d p)
  | Q_mac_len p1 => if (p1 <? 1) || (p1 >? 8) then (0, d) else (1, a_with_size d p1)
  | Q_unknown => (-2, d)
  end.
(** gost_pmeth.c:787-860 [pkey_gost_omac_ctrl], without DIGESTINIT; [max] is 8 or 16. *)
Definition pkey_gost_omac_ctrl (max : Z) (d : mdata) (q : mac_req) : Z * mdata :=
  match q with
  | Q_md md => match md with M_magma_mac | M_kuz_mac | M_kuz_acpkm_omac | M_magma_acpkm_omac => (1, a_with_md d md) | _ => (0, d) end
  | Q_get_md | Q_notice => (1, d)
  | Q_set_key p1 p2 => if negb (p1 =? 32) then (0, d) else (1, a_with_key d (firstn 32 p2))
  | Q_paramset p => (-2, d)
  | Q_mac_len p1 => if (p1 <? 1) || (to_size p1 >? max) then (0, d) else (1, a_with_size d p1)
  | Q_unknown => (-2, d)
  end.
(** gost_pmeth.c:729-785 [pkey_gost_mac_ctrl_str]; [txt2param]: OBJ_txt2obj and get_encryption_params. *)
Definition mac_ctrl_str_key (d : mdata) (type : string) (value : list N) : option (Z * mdata) :=
  if String.eqb type "key" then
    Some (if negb (Nat.eqb (List.length value) 32) then (0, d) else pkey_gost_mac_ctrl d (Q_set_key 32 value))
  else if String.eqb type "hexkey" then
    Some (match hexstr2buf value with
          | Some k => if negb (Nat.eqb (List.length k) 32) then (0, d) else pkey_gost_mac_ctrl d (Q_set_key 32 k)
          | None => (0, d)
          end)
  else None.
Definition pkey_gost_mac_ctrl_str (txt2param : list N -> option param_set) (d : mdata) (type : string) (value : list N) : Z * mdata :=
  match mac_ctrl_str_key d type value with
  | Some r => r
  | None =>
    if String.eqb type "size" then
      let '(size, rest) := strtol value in
      match rest with nil => pkey_gost_mac_ctrl d (Q_mac_len (to_int size)) | _ => (0, d) end
    else if String.eqb type "paramset" then
      match txt2param value with Some p => pkey_gost_mac_ctrl d (Q_paramset p) | None => (0, d) end
    else (-2, d)
  end.
(** gost_pmeth.c:872-921 [pkey_gost_omac_ctrl_str]; the bound passed is 8 for Magma and also for Kuznyechik (line 920). *)
Definition pkey_gost_omac_ctrl_str (max : Z) (d : mdata) (type : string) (value : list N) : Z * mdata :=
  match mac_ctrl_str_key d type value with
  | Some r => r
  | None =>
    if String.eqb type "size" then
      let '(size, rest) := strtol value in
      match rest with nil => pkey_gost_omac_ctrl max d (Q_mac_len (to_int size)) | _ => (0, d) end
    else (-2, d)
  end.
Definition magma_mac_ctrl_str := pkey_gost_omac_ctrl_str 8.
Definition grasshopper_mac_ctrl_str := pkey_gost_omac_ctrl_str 8.
(** gost_pmeth.c:923-940 [pkey_gost_mac_keygen_base] *)
Definition mac_keygen (d : mdata) : option mac_key :=
  if a_key_set d then Some (mk_mac_key (a_param d) (firstn 32 (a_key d)) (a_size d)) else None.
(** gost_pmeth.c:691-714, 824-847: DIGESTINIT hands the key to the digest - the structure (arg 0) if no raw key was set in
    this context. *)
Inductive init_key := Init_struct (k : mac_key) | Init_raw (k : list N).
Definition mac_digestinit (d : mdata) (key : option mac_key) : option init_key :=
  if a_key_set d then Some (Init_raw (a_key d)) else match key with Some k => Some (Init_struct k) | None => None end.

(** ** Signing with a MAC key: EVP_DigestSignInit, EVP_DigestSignUpdate and EVP_DigestSignFinal on top of these functions *)
(** The digest's SET_KEY with the key handed over (gost_crypt.c:1588-1621); the digest is gost-mac ([Gost28147_CryptoProParamSetA])
    or gost-mac-12 ([Gost28147_TC26ParamSetZ]). *)
Definition imit_digestinit (dflt : subst_block) (c : imit) (k : init_key) : Z * imit :=
  gost_imit_set_key dflt c
    match k with
    | Init_raw k => RawKey k 32
    | Init_struct k => MacKey (match mk_param k with None => None | Some p => Some (Some (sbox_of p)) end) (mk_key k)
    end.
(** The update calls. *)
Fixpoint imit_updates (c : imit) (chunks : list (list N)) : option imit :=
  match chunks with nil => Some c | d :: t => match gost_imit_update c d with Some c => imit_updates c t | None => None end end.
(** gost_pmeth.c:1013-1035 [pkey_gost_mac_signctx]: the announced length, and the tag (the result of XOF_LEN is ignored). *)
Definition mac_siglen (d : mdata) : Z := a_size d.
Definition imit_signctx (d : mdata) (c : imit) : option (list N) :=
  let '(_, c) := gost_imit_xof_len c (a_size d) in
  match gost_imit_final c with Some (_, tag) => Some tag | None => None end.
Definition imit_sign (dflt : subst_block) (c0 : imit) (d : mdata) (key : option mac_key) (chunks : list (list N)) : option (list N) :=
  match mac_digestinit d key with
  | None => None
  | Some k =>
    let '(r, c) := imit_digestinit dflt c0 k in
    if r <=? 0 then None
    else match imit_updates c chunks with Some c => imit_signctx d c | None => None end
  end.
