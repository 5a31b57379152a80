(** Model of the key objects the engine hands to OpenSSL: the type-specific methods of EVP_PKEY in gost_ameth.c
    (parameters, comparison, printing, sizes) and key and parameter generation of gost_pmeth.c, together with
    the OpenSSL functions that call them (EVP_PKEY_set_type, EVP_PKEY_assign, EVP_PKEY_eq,
    EVP_PKEY_parameters_eq, EVP_PKEY_missing_parameters, EVP_PKEY_copy_parameters, EVP_PKEY_print_*,
    i2d_KeyParams, d2i_KeyParams, crypto/evp/p_lib.c and crypto/asn1/{a,d2i_pr}.c of OpenSSL; their legacy branch).
    Allocation and BIO failures are not modelled; the octets of private and public keys are in AmethModel.v, an
    OBJECT IDENTIFIER is kept as the name it stands for. *)
From Coq Require Import String Ascii ZArith List Bool Lia.
From Verif Require Import Bytes EcLadderModel EcModel ParamsModel Asn1Model AmethModel.
Import ListNotations.
Local Open Scope Z_scope.

(** An EC_KEY.  A point is kept with the name of the curve it was made for (EC_POINT.curve_name) and its
    affine coordinates, None for infinity. *)
Record point := mk_point { p_curve : curve_nid; p_xy : option (Z * Z) }.
Record ec_key := mk_ec { e_group : option curve_nid; e_priv : option Z; e_pub : option point }.
(** An EVP_PKEY: EVP_PKEY_base_id (None: EVP_PKEY_NONE) and EVP_PKEY_get0. *)
Record object := mk_obj { o_type : option pkey_alg; o_ec : option ec_key }.
Definition EC_KEY_new : ec_key := mk_ec None None None.
Definition blank : object := mk_obj None None.

Definition alg_eqb (a b : pkey_alg) : bool :=
  match a, b with
  | A2001, A2001 | A2001DH, A2001DH | A2012_256, A2012_256 | A2012_512, A2012_512 | A_other, A_other => true
  | _, _ => false
  end.
Definition type_eqb (a b : option pkey_alg) : bool :=
  match a, b with Some x, Some y => alg_eqb x y | None, None => true | _, _ => false end.
Definition xy_eqb (a b : option (Z * Z)) : bool :=
  match a, b with
  | Some (x, y), Some (x', y') => (x =? x') && (y =? y')
  | None, None => true
  | _, _ => false
  end.

(** * Text *)
Local Open Scope string_scope.
(** BIO_indent(out, indent, 128) *)
Fixpoint spaces (n : nat) : string := match n with O => "" | S n' => String " " (spaces n') end.
Definition BIO_indent (indent : Z) : string := spaces (Z.to_nat (Z.min (Z.max indent 0) 128)).
Definition nl : string := String (ascii_of_N 10) "".
Definition quote : string := String (ascii_of_N 34) "".
(** BN_print: upper case hexadecimal without leading zeros *)
Definition hex_char (d : Z) : ascii := ascii_of_N (Z.to_N (if (d <? 10)%Z then 48 + d else 55 + d)%Z).
Fixpoint hex_digits (fuel : nat) (z : Z) (acc : string) : string :=
  match fuel with
  | O => acc
  | S fuel' => if (z =? 0)%Z then acc else hex_digits fuel' (z / 16)%Z (String (hex_char (z mod 16)%Z) acc)
  end.
Definition BN_print (z : Z) : string :=
  if (z =? 0)%Z then "0"
  else (if (z <? 0)%Z then "-" else "") ++ hex_digits (S (Z.to_nat (Z.log2 (Z.abs z)))) (Z.abs z) "".
(** OBJ_nid2ln *)
Definition curve_ln (c : curve_nid) : string :=
  match c with
  | TestParamSet => "id-GostR3410-2001-TestParamSet"
  | CryptoPro_A => "id-GostR3410-2001-CryptoPro-A-ParamSet"
  | CryptoPro_B => "id-GostR3410-2001-CryptoPro-B-ParamSet"
  | CryptoPro_C => "id-GostR3410-2001-CryptoPro-C-ParamSet"
  | CryptoPro_XchA => "id-GostR3410-2001-CryptoPro-XchA-ParamSet"
  | CryptoPro_XchB => "id-GostR3410-2001-CryptoPro-XchB-ParamSet"
  | Tc256_A => "GOST R 34.10-2012 (256 bit) ParamSet A"
  | Tc256_B => "GOST R 34.10-2012 (256 bit) ParamSet B"
  | Tc256_C => "GOST R 34.10-2012 (256 bit) ParamSet C"
  | Tc256_D => "GOST R 34.10-2012 (256 bit) ParamSet D"
  | Tc512_Test => "GOST R 34.10-2012 (512 bit) testing parameter set"
  | Tc512_A => "GOST R 34.10-2012 (512 bit) ParamSet A"
  | Tc512_B => "GOST R 34.10-2012 (512 bit) ParamSet B"
  | Tc512_C => "GOST R 34.10-2012 (512 bit) ParamSet C"
  | OtherNid => "undefined"
  end.
Definition alg_ln (a : option pkey_alg) : string :=
  match a with
  | Some A2001 => "GOST R 34.10-2001"
  | Some A2001DH => "GOST R 34.10-2001 DH"
  | Some A2012_256 => "GOST R 34.10-2012 with 256 bit modulus"
  | Some A2012_512 => "GOST R 34.10-2012 with 512 bit modulus"
  | Some A_other | None => "undefined"
  end.
Local Open Scope Z_scope.

Local Open Scope list_scope.

(** What a printing function returns and what it has written by then. *)
Definition printed : Type := Z * string.
(** [if (f(...) == 0) return 0;] and so on *)
Definition then_print (p q : printed) : printed :=
  match p with
  | (0, s) => (0, s)
  | (_, s) => let '(r, t) := q in (r, (s ++ t)%string)
  end.

Section Methods.
(** [lib n] is what fill_GOST_EC_params (gost_ec_sign.c:90-176, ParamsModel.v) gives a key for the name [n]: the
    group with its EC_POINT_set_affine_coordinates; None is the return value 0. *)
Variable lib : curve_nid -> option curve.

(** fill_GOST_EC_params on a key: EC_KEY_set_group replaces the group and leaves the rest. *)
Definition fill_params (e : ec_key) (nid : curve_nid) : Z * ec_key :=
  match lib nid with
  | None => (0, e)
  | Some C => (1, mk_ec (Some (gname (cv C))) (e_priv e) (e_pub e))
  end.
(** gost_ec_sign.c:449-496, 599-643 on such a key: [gost_ec_compute_public], [gost_ec_keygen] of EcModel.v. *)
Definition on_group (f : forall C : group, eckey C -> Z * eckey C) (e : ec_key) : Z * ec_key :=
  match e_group e with
  | None => (0, e)
  | Some n =>
    match lib n with
    | None => (0, e)
    | Some c =>
      let '(r, k) := f (cv c) (mk_key (e_priv e) None) in
      (r, mk_ec (Some n) (k_priv k)
            (match k_pub k with None => e_pub e | Some P => Some (mk_point n (affine (cv c) P)) end))
    end
  end.
Definition compute_public (e : ec_key) : Z * ec_key := on_group (fun C k => gost_ec_compute_public C k) e.
Definition keygen (draws : list Z) (e : ec_key) : Z * ec_key := on_group (fun C k => gost_ec_keygen C k draws) e.

(** EVP_PKEY_set_type: the old key is freed in any case; the engine registers methods for four key types. *)
Definition EVP_PKEY_set_type (o : object) (a : pkey_alg) : Z * object :=
  match a with
  | A_other => (0, mk_obj (o_type o) None)
  | _ => (1, mk_obj (Some a) None)
  end.
(** EVP_PKEY_assign with a non-null key *)
Definition EVP_PKEY_assign (o : object) (a : pkey_alg) (e : ec_key) : Z * object :=
  match EVP_PKEY_set_type o a with
  | (0, o') => (0, o')
  | (_, o') => (1, mk_obj (o_type o') (Some e))
  end.

(** * gost_ameth.c *)
(** gost_ameth.c:124-143 [gost_decode_nid_params] *)
Definition gost_decode_nid_params (o : object) (pkey_nid : pkey_alg) (param_nid : curve_nid) : Z * object :=
  let fill o e := let '(r, e') := fill_params e param_nid in (r, mk_obj (o_type o) (Some e')) in
  match pkey_nid with
  | A2012_256 | A2012_512 | A2001 | A2001DH =>
    match o_ec o with
    | Some e => fill o e
    | None =>
      match EVP_PKEY_assign o pkey_nid EC_KEY_new with
      | (0, o') => (0, o')
      | (_, o') => fill o' EC_KEY_new
      end
    end
  | A_other => (0, o)
  end.
(** gost_ameth.c:149-184 [decode_gost_algor_params] with an identifier that has its parameters; they name a
    parameter set (what they decode from is in C42). *)
Definition decode_algor (o : object) (a : pkey_alg) (n : curve_nid) : Z * object :=
  match EVP_PKEY_set_type o a with
  | (0, o') => (0, o')
  | (_, o') => gost_decode_nid_params o' a n
  end.
(** gost_ameth.c:841-849 [param_missing_gost_ec] *)
Definition param_missing_gost_ec (o : object) : Z :=
  match o_ec o with
  | None => 1
  | Some ec => match e_group ec with None => 1 | Some _ => 0 end
  end.
(** crypto/evp/p_lib.c EVP_PKEY_missing_parameters: an object without methods misses nothing. *)
Definition EVP_PKEY_missing_parameters (o : object) : Z :=
  match o_type o with None => 0 | Some _ => param_missing_gost_ec o end.
(** gost_ameth.c:186-208 [gost_set_priv_key] *)
Definition set_priv_key (o : object) (priv : Z) : Z * object :=
  match o_type o with
  | Some (A2012_512 | A2012_256 | A2001 | A2001DH) =>
    let ec := match o_ec o with Some ec => ec | None => EC_KEY_new end in
    let ec' := mk_ec (e_group ec) (Some priv) (e_pub ec) in
    let o' := mk_obj (o_type o) (Some ec') in
    if EVP_PKEY_missing_parameters o' =? 0
    then let '(r, ec'') := compute_public ec' in (r, mk_obj (o_type o) (Some ec''))
    else (1, o')
  | _ => (0, o)
  end.
(** gost_ameth.c:210-226 [gost_get0_priv_key] *)
Definition gost_get0_priv_key (o : object) : option Z :=
  match o_type o with
  | Some (A2012_512 | A2012_256 | A2001 | A2001DH) => match o_ec o with Some ec => e_priv ec | None => None end
  | _ => None
  end.

(** gost_ameth.c:725-741 [print_gost_priv] *)
Definition print_gost_priv (o : object) (indent : Z) : printed :=
  (1, (BIO_indent indent ++ "Private key: "
       ++ (match gost_get0_priv_key o with None => "<undefined>" | Some key => BN_print key end) ++ nl)%string).
(** gost_ameth.c:743-788 [print_gost_ec_pub]; EC_POINT_get_affine_coordinates refuses infinity and a point of
    another curve. *)
Definition print_gost_ec_pub (o : object) (indent : Z) : printed :=
  let pubkey := match o_ec o with Some key => e_pub key | None => None end in
  let group := match o_ec o with Some key => e_group key | None => None end in
  match pubkey, group with
  | Some P, Some g =>
    match (if curve_nid_eqb (p_curve P) g then p_xy P else None) with
    | None => (0, ""%string)
    | Some (X, Y) =>
      (1, (BIO_indent indent ++ "Public key:" ++ nl
           ++ BIO_indent (indent + 3) ++ "X:" ++ BN_print X ++ nl
           ++ BIO_indent (indent + 3) ++ "Y:" ++ BN_print Y ++ nl)%string)
    end
  | _, _ => (0, ""%string)
  end.
(** gost_ameth.c:790-805 [print_gost_ec_param] *)
Definition print_gost_ec_param (o : object) (indent : Z) : printed :=
  match (match o_ec o with Some ec => e_group ec | None => None end) with
  | None => (0, ""%string)
  | Some param_nid => (1, (BIO_indent indent ++ "Parameter set: " ++ curve_ln param_nid ++ nl)%string)
  end.
(** gost_ameth.c:807-820 [print_gost_ec]; 822-838: the three kinds are 0, 1, 2. *)
Definition print_gost_ec (o : object) (indent : Z) (type : Z) : printed :=
  then_print (if type =? 2 then print_gost_priv o indent else (1, ""%string))
    (then_print (if 1 <=? type then print_gost_ec_pub o indent else (1, ""%string))
       (print_gost_ec_param o indent)).
(** crypto/evp/p_lib.c unsup_alg *)
Definition unsup_alg (o : object) (indent : Z) (kstr : string) : printed :=
  (1, (BIO_indent indent ++ kstr ++ " algorithm " ++ quote ++ alg_ln (o_type o) ++ quote ++ " unsupported" ++ nl)%string).
(** EVP_PKEY_print_params, _public, _private (kinds 0, 1, 2) with the methods registered in
    gost_ameth.c:1162-1203: parameters of the 2012 types have none. *)
Definition EVP_PKEY_print (o : object) (indent : Z) (type : Z) : printed :=
  match o_type o with
  | None => unsup_alg o indent (if type =? 2 then "Private Key"%string else if type =? 1 then "Public Key"%string else "Parameters"%string)
  | Some (A2012_256 | A2012_512) =>
    if type =? 0 then unsup_alg o indent "Parameters"%string else print_gost_ec o indent type
  | Some _ => print_gost_ec o indent type
  end.

(** gost_ameth.c:851-883 [param_copy_gost_ec] on an existing key: return value and [to] afterwards. *)
Definition param_copy (to from : object) : Z * object :=
  if negb (type_eqb (o_type from) (o_type to)) then (0, to)
  else
    match o_ec from with
    | None => (0, to)
    | Some efrom =>
      let eto := match o_ec to with Some e => e | None => EC_KEY_new end in
      match e_group efrom with
      | None => (0, mk_obj (o_type to) (Some eto))       (* EC_KEY_set_group(eto, NULL) *)
      | Some g =>
        let eto' := mk_ec (Some g) (e_priv eto) (e_pub eto) in
        match e_priv eto' with
        | Some _ => let '(r, e) := compute_public eto' in (r, mk_obj (o_type to) (Some e))
        | None => (1, mk_obj (o_type to) (Some eto'))
        end
      end
    end.
(** gost_ameth.c:885-902 [param_cmp_gost_ec] *)
Definition param_cmp_gost_ec (a b : object) : Z :=
  match o_ec a, o_ec b with
  | Some ec_a, Some ec_b =>
    match e_group ec_a, e_group ec_b with
    | Some ga, Some gb => if curve_nid_eqb ga gb then 1 else 0
    | _, _ => 0
    end
  | _, _ => 0
  end.
(** EC_POINT_cmp: 0 for equal points, -1 for points not of the group *)
Definition EC_POINT_cmp (g : option curve_nid) (P Q : point) : Z :=
  match g with
  | None => -1
  | Some n =>
    if curve_nid_eqb (p_curve P) n && curve_nid_eqb (p_curve Q) n then
      (if xy_eqb (p_xy P) (p_xy Q) then 0 else 1)
    else -1
  end.
(** gost_ameth.c:1047-1060 [pub_cmp_gost_ec] *)
Definition pub_cmp_gost_ec (a b : object) : Z :=
  match o_ec a, o_ec b with
  | Some ea, Some eb =>
    match e_pub ea, e_pub eb with
    | Some ka, Some kb => if 0 =? EC_POINT_cmp (e_group ea) ka kb then 1 else 0
    | _, _ => 0
    end
  | _, _ => 0
  end.
(** gost_ameth.c:1062-1078 [pkey_size_gost] *)
Definition pkey_size_gost (a : pkey_alg) : Z :=
  match a with A2001 | A2001DH | A2012_256 => 64 | A2012_512 => 128 | A_other => -1 end.
(** EVP_PKEY_size, EVP_PKEY_bits, EVP_PKEY_security_bits (the engine registers one function for the last two) *)
Definition EVP_PKEY_size (o : object) : Z := match o_type o with None => 0 | Some a => pkey_size_gost a end.
Definition EVP_PKEY_bits (o : object) : Z := match o_type o with None => 0 | Some a => pkey_bits_gost a end.
Definition EVP_PKEY_security_bits (o : object) : Z := match o_type o with None => 0 | Some a => pkey_bits_gost a end.

(** EVP_PKEY_parameters_eq, and EVP_PKEY_eq of two different objects *)
Definition EVP_PKEY_parameters_eq (a b : object) : Z :=
  if negb (type_eqb (o_type a) (o_type b)) then -1
  else match o_type a with None => -2 | Some _ => param_cmp_gost_ec a b end.
Definition EVP_PKEY_eq (a b : object) : Z :=
  if negb (type_eqb (o_type a) (o_type b)) then -1
  else
    match o_type a with
    | None => -2
    | Some _ => let r := param_cmp_gost_ec a b in if r <=? 0 then r else pub_cmp_gost_ec a b
    end.
(** EVP_PKEY_copy_parameters(to, from): return value and [to] afterwards.  A blank [from] has no type to give
    and no parameters. *)
Definition EVP_PKEY_copy_parameters (to from : object) : Z * object :=
  match o_type from with
  | None => (0, to)
  | Some a =>
    let to1 := match o_type to with None => snd (EVP_PKEY_set_type to a) | Some _ => to end in
    if negb (type_eqb (o_type to1) (Some a)) then (0, to)
    else if negb (EVP_PKEY_missing_parameters from =? 0) then (0, to1)
    else if EVP_PKEY_missing_parameters to1 =? 0 then
      ((if EVP_PKEY_parameters_eq to1 from =? 1 then 1 else 0), to1)
    else param_copy to1 from
  end.

(** gost_ameth.c:1133-1139 [gost2001_param_encode] behind i2d_KeyParams: the name in the OBJECT IDENTIFIER.
    [Died]: EC_KEY_get0_group or EC_GROUP_get_curve_name reads a null pointer. *)
Inductive reply := R_int (r : Z) | R_set (c : curve_nid) | R_text (p : printed) | Died.
Definition i2d_KeyParams (o : object) : reply :=
  match o_type o with
  | Some (A2001 | A2001DH) =>
    match o_ec o with
    | None => Died
    | Some ec => match e_group ec with None => Died | Some nid => R_set nid end
    end
  | _ => R_int (-1)
  end.
(** gost_ameth.c:1141-1154 [gost2001_param_decode]: the key type is fixed. *)
Definition gost2001_param_decode (o : object) (nid : curve_nid) : Z * object := gost_decode_nid_params o A2001 nid.
(** d2i_KeyParams(type, &o, ...): a new object if [o] is None; the result None is a null pointer (a new object
    is freed then, an old one stays with the caller). *)
Definition d2i_KeyParams (type : pkey_alg) (o : option object) (nid : curve_nid) : Z * object :=
  let o0 := match o with Some o => o | None => blank end in
  let typed := if type_eqb (o_type o0) (Some type) then (1, o0) else EVP_PKEY_set_type o0 type in
  match typed with
  | (0, o1) => (0, o1)
  | (_, o1) =>
    match o_type o1 with
    | Some (A2001 | A2001DH) => gost2001_param_decode o1 nid
    | _ => (0, o1)
    end
  end.

(** * gost_pmeth.c *)
(** gost_pmeth.c:373-390 [pkey_gost2001_paramgen]; [nid] is data->sign_param_nid, None for NID_undef. *)
Definition pkey_gost2001_paramgen (nid : option curve_nid) (o : object) : Z * object :=
  match nid with
  | None => (0, o)
  | Some n =>
    match fill_params EC_KEY_new n with
    | (0, _) => (0, o)
    | (_, ec) => EVP_PKEY_assign o A2001 ec
    end
  end.
(** gost_pmeth.c:392-440 [pkey_gost2012_paramgen] *)
Definition paramgen_type (n : curve_nid) : option pkey_alg :=
  match n with
  | Tc512_A | Tc512_B | Tc512_C | Tc512_Test => Some A2012_512
  | CryptoPro_A | CryptoPro_B | CryptoPro_C | CryptoPro_XchA | CryptoPro_XchB | TestParamSet
  | Tc256_A | Tc256_B | Tc256_C | Tc256_D => Some A2012_256
  | OtherNid => None
  end.
Definition pkey_gost2012_paramgen (nid : option curve_nid) (o : object) : Z * object :=
  match nid with
  | None => (0, o)
  | Some n =>
    match fill_params EC_KEY_new n with
    | (0, _) => (0, o)
    | (_, ec) => match paramgen_type n with None => (0, o) | Some a => EVP_PKEY_assign o a ec end
    end
  end.
(** gost_pmeth.c:444-464 [pkey_gost2001cp_keygen], [pkey_gost2012cp_keygen]: what [gost_ec_keygen] returns is
    not looked at. *)
Definition with_keys (draws : list Z) (made : Z * object) : Z * object :=
  match made with
  | (0, o) => (0, o)
  | (_, o) =>
    (1, match o_ec o with
        | None => o
        | Some ec => mk_obj (o_type o) (Some (snd (keygen draws ec)))
        end)
  end.
Definition pkey_gost2001cp_keygen (nid : option curve_nid) (draws : list Z) (o : object) : Z * object :=
  with_keys draws (pkey_gost2001_paramgen nid o).
Definition pkey_gost2012cp_keygen (nid : option curve_nid) (draws : list Z) (o : object) : Z * object :=
  with_keys draws (pkey_gost2012_paramgen nid o).
(** The methods of the key types, register_pmeth_gost (gost_pmeth.c:1046-1112).  [draws] = None: EVP_PKEY_paramgen. *)
Definition generate (a : pkey_alg) (nid : option curve_nid) (draws : option (list Z)) : Z * object :=
  match a, draws with
  | (A2001 | A2001DH), None => pkey_gost2001_paramgen nid blank
  | (A2001 | A2001DH), Some l => pkey_gost2001cp_keygen nid l blank
  | (A2012_256 | A2012_512), None => pkey_gost2012_paramgen nid blank
  | (A2012_256 | A2012_512), Some l => pkey_gost2012cp_keygen nid l blank
  | A_other, _ => (0, blank)
  end.
(** gost_pmeth.c:30-61 [pkey_gost_init] for EVP_PKEY_CTX_new(o): the data's parameter set; the outer None: no
    context. *)
Definition context_set (o : object) : option (option curve_nid) :=
  match o_ec o with
  | None => Some None
  | Some ec =>
    match o_type o with
    | Some (A2001 | A2001DH | A2012_256 | A2012_512) =>
      match e_group ec with Some g => Some (Some g) | None => None end
    | _ => None
    end
  end.

(** gost_pmeth.c:1040-1043 [pkey_gost_check]: OpenSSL's EC_KEY_check_key (crypto/ec/ec_key.c
    ossl_ec_key_simple_check_key): a public point on the curve, not infinity and of order [order]; a private
    number below the order that gives it.  The engine registers it for EVP_PKEY_check and
    EVP_PKEY_public_check.  The multiples are OpenSSL's own EC_POINT_mul. *)
Definition pkey_gost_check (o : object) : Z :=
  match o_ec o with
  | None => 0
  | Some ec =>
    match e_group ec, e_pub ec with
    | Some g, Some Pt =>
      match lib g, (if curve_nid_eqb (p_curve Pt) g then p_xy Pt else None) with
      | Some C, Some (X, Y) =>
        match lift C X Y with
        | None => 0
        | Some P =>
          if xy_eqb (affine (cv C) (lib_mul (cv C) (order (cv C)) P)) None then
            match e_priv ec with
            | None => 1
            | Some d =>
              if (d <? order (cv C)) && xy_eqb (affine (cv C) (lib_mul (cv C) d (gen (cv C)))) (Some (X, Y)) then 1 else 0
            end
          else 0
        end
      | _, _ => 0
      end
    | _, _ => 0
    end
  end.
(** EVP_PKEY_check on a context of the object *)
Definition EVP_PKEY_check (o : object) : Z :=
  match o_type o, context_set o with Some _, Some _ => pkey_gost_check o | _, _ => 0 end.

(** * Histories *)
(** A program holds objects by number and creates and uses them. *)
Inductive call :=
  | New                                                    (* EVP_PKEY_new *)
  | Set_type (h : nat) (a : pkey_alg)                      (* EVP_PKEY_set_type *)
  | Generate (a : pkey_alg) (n : option curve_nid) (draws : option (list Z))
      (* EVP_PKEY_CTX_new_id(a), the parameter set n (None: not given), EVP_PKEY_keygen with these random
         numbers, or EVP_PKEY_paramgen *)
  | Generate_like (h : nat) (draws : option (list Z))      (* the same with EVP_PKEY_CTX_new(h) *)
  | Import_private (a : pkey_alg) (n : curve_nid) (d : Z)  (* d2i_PrivateKey of PKCS8: see C41 *)
  | Import_public (a : pkey_alg) (n : curve_nid) (X Y : Z) (* d2i_PUBKEY: see C42 *)
  | Import_params (a : pkey_alg) (n : curve_nid)           (* d2i_KeyParams *)
  | Export_params (h : nat)                                (* i2d_KeyParams *)
  | Copy_params (to from : nat)                            (* EVP_PKEY_copy_parameters *)
  | Equal (a b : nat)                                      (* EVP_PKEY_eq *)
  | Params_equal (a b : nat)                               (* EVP_PKEY_parameters_eq *)
  | Missing (h : nat)                                      (* EVP_PKEY_missing_parameters *)
  | Print (h : nat) (kind indent : Z)                      (* EVP_PKEY_print_params, _public, _private *)
  | Check (h : nat)                                        (* EVP_PKEY_check *)
  | Size (h : nat)
  | Bits (h : nat).

Definition store := list object.
Fixpoint put {A} (s : list A) (h : nat) (o : A) : list A :=
  match s, h with
  | [], _ => []
  | _ :: t, O => o :: t
  | x :: t, S h' => x :: put t h' o
  end.
(** A new object is kept if its making returned 1, and freed otherwise. *)
Definition keep (s : store) (made : Z * object) : store * reply :=
  match made with
  | (0, _) => (s, R_int 0)
  | (r, o) => (s ++ [o], R_int r)
  end.
(** A call on an object the program does not have does nothing here. *)
Definition at1 (s : store) (h : nat) (f : object -> store * reply) : store * reply :=
  match nth_error s h with None => (s, R_int 0) | Some o => f o end.
Definition perform (s : store) (q : call) : store * reply :=
  match q with
  | New => (s ++ [blank], R_int 1)
  | Set_type h a => at1 s h (fun o => let '(r, o') := EVP_PKEY_set_type o a in (put s h o', R_int r))
  | Generate a n draws => keep s (generate a n draws)
  | Generate_like h draws =>
    at1 s h (fun o =>
      match o_type o, context_set o with
      | Some a, Some n => keep s (generate a n draws)
      | _, _ => (s, R_int 0)
      end)
  | Import_private a n d =>
    keep s (match decode_algor blank a n with (0, o) => (0, o) | (_, o) => set_priv_key o d end)
  | Import_public a n X Y =>
    (* gost_ameth.c:905-957 [pub_decode_gost_ec] after the octets *)
    keep s (match decode_algor blank a n with
            | (0, o) => (0, o)
            | (_, o) =>
              match o_ec o with
              | None => (0, o)
              | Some ec =>
                match e_group ec with
                | None => (0, o)
                | Some g =>
                  match lib g with
                  | None => (0, o)
                  | Some C =>
                    match lift C X Y with
                    | None => (0, o)
                    | Some P => (1, mk_obj (o_type o) (Some (mk_ec (Some g) (e_priv ec) (Some (mk_point g (affine (cv C) P))))))
                    end
                  end
                end
              end
            end)
  | Import_params a n => keep s (d2i_KeyParams a None n)
  | Export_params h => at1 s h (fun o => (s, i2d_KeyParams o))
  | Copy_params h h' =>
    at1 s h (fun to => at1 s h' (fun from =>
      let '(r, to') := EVP_PKEY_copy_parameters to from in (put s h to', R_int r)))
  | Equal h h' =>
    at1 s h (fun a => at1 s h' (fun b => (s, R_int (if Nat.eqb h h' then 1 else EVP_PKEY_eq a b))))
  | Params_equal h h' =>
    at1 s h (fun a => at1 s h' (fun b => (s, R_int (EVP_PKEY_parameters_eq a b))))
  | Missing h => at1 s h (fun o => (s, R_int (EVP_PKEY_missing_parameters o)))
  | Print h kind indent => at1 s h (fun o => (s, R_text (EVP_PKEY_print o indent kind)))
  | Check h => at1 s h (fun o => (s, R_int (EVP_PKEY_check o)))
  | Size h => at1 s h (fun o => (s, R_int (EVP_PKEY_size o)))
  | Bits h => at1 s h (fun o => (s, R_int (EVP_PKEY_bits o)))
  end.
(** A program; it ends where a call dies. *)
Fixpoint run (s : store) (l : list call) : store * list reply :=
  match l with
  | [] => (s, [])
  | q :: more =>
    match perform s q with
    | (s', Died) => (s', [Died])
    | (s', r) => let '(s2, rs) := run s' more in (s2, r :: rs)
    end
  end.
End Methods.
