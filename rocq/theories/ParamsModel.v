(** Model of gost_params.c, of gost_nid2params and fill_GOST_EC_params (gost_ec_sign.c:26-176).  The strings are
    copied from gost_params.c (adjacent C literals joined). *)
From Coq Require Import ZArith List Bool Lia String Ascii.
From Verif Require Import Bytes EcLadderModel.
Import ListNotations.
Local Open Scope string_scope.

(** gost_lcl.h:32-42 struct R3410_ec, without the group pointer (see [cache]) *)
Record ec_params := mk_params { ep_nid : curve_nid; ep_a : string; ep_b : string; ep_p : string; ep_q : string;
  ep_x : string; ep_y : string; ep_cofactor : string }.

(** gost_params.c:14-105 *)
Definition R3410_2001_paramset : list ec_params := [
  mk_params TestParamSet
    "7"
    "5FBFF498AA938CE739B8E022FBAFEF40563F6E6A3472FC2A514C0CE9DAE23B7E"
    "8000000000000000000000000000000000000000000000000000000000000431"
    "8000000000000000000000000000000150FE8A1892976154C59CFC193ACCF5B3"
    "2"
    "08E2A8A0E65147D4BD6316030E16D19C85C97F0A9CA267122B96ABBCEA7E8FC8"
    "1";
  mk_params CryptoPro_A
    "FFFFFFFFFFFFFFFFFFFFFFFFFFFFFFFFFFFFFFFFFFFFFFFFFFFFFFFFFFFFFD94"
    "a6"
    "FFFFFFFFFFFFFFFFFFFFFFFFFFFFFFFFFFFFFFFFFFFFFFFFFFFFFFFFFFFFFD97"
    "FFFFFFFFFFFFFFFFFFFFFFFFFFFFFFFF6C611070995AD10045841B09B761B893"
    "1"
    "8D91E471E0989CDA27DF505A453F2B7635294F2DDF23E3B122ACC99C9E9F1E14"
    "1";
  mk_params CryptoPro_B
    "8000000000000000000000000000000000000000000000000000000000000C96"
    "3E1AF419A269A5F866A7D3C25C3DF80AE979259373FF2B182F49D4CE7E1BBC8B"
    "8000000000000000000000000000000000000000000000000000000000000C99"
    "800000000000000000000000000000015F700CFFF1A624E5E497161BCC8A198F"
    "1"
    "3FA8124359F96680B83D1C3EB2C070E5C545C9858D03ECFB744BF8D717717EFC"
    "1";
  mk_params CryptoPro_C
    "9B9F605F5A858107AB1EC85E6B41C8AACF846E86789051D37998F7B9022D7598"
    "805a"
    "9B9F605F5A858107AB1EC85E6B41C8AACF846E86789051D37998F7B9022D759B"
    "9B9F605F5A858107AB1EC85E6B41C8AA582CA3511EDDFB74F02F3A6598980BB9"
    "0"
    "41ECE55743711A8C3CBF3783CD08C0EE4D4DC440D4641A8F366E550DFDB3BB67"
    "1";
  mk_params CryptoPro_XchA
    "FFFFFFFFFFFFFFFFFFFFFFFFFFFFFFFFFFFFFFFFFFFFFFFFFFFFFFFFFFFFFD94"
    "a6"
    "FFFFFFFFFFFFFFFFFFFFFFFFFFFFFFFFFFFFFFFFFFFFFFFFFFFFFFFFFFFFFD97"
    "FFFFFFFFFFFFFFFFFFFFFFFFFFFFFFFF6C611070995AD10045841B09B761B893"
    "1"
    "8D91E471E0989CDA27DF505A453F2B7635294F2DDF23E3B122ACC99C9E9F1E14"
    "1";
  mk_params CryptoPro_XchB
    "9B9F605F5A858107AB1EC85E6B41C8AACF846E86789051D37998F7B9022D7598"
    "805a"
    "9B9F605F5A858107AB1EC85E6B41C8AACF846E86789051D37998F7B9022D759B"
    "9B9F605F5A858107AB1EC85E6B41C8AA582CA3511EDDFB74F02F3A6598980BB9"
    "0"
    "41ECE55743711A8C3CBF3783CD08C0EE4D4DC440D4641A8F366E550DFDB3BB67"
    "1";
  mk_params Tc256_A
    "C2173F1513981673AF4892C23035A27CE25E2013BF95AA33B22C656F277E7335"
    "295F9BAE7428ED9CCC20E7C359A9D41A22FCCD9108E17BF7BA9337A6F8AE9513"
    "FFFFFFFFFFFFFFFFFFFFFFFFFFFFFFFFFFFFFFFFFFFFFFFFFFFFFFFFFFFFFD97"
    "400000000000000000000000000000000FD8CDDFC87B6635C115AF556C360C67"
    "91E38443A5E82C0D880923425712B2BB658B9196932E02C78B2582FE742DAA28"
    "32879423AB1A0375895786C4BB46E9565FDE0B5344766740AF268ADB32322E5C"
    "4"
].
(** gost_params.c:111-194 *)
Definition R3410_2012_512_paramset : list ec_params := [
  mk_params Tc512_Test
    "7"
    "1CFF0806A31116DA29D8CFA54E57EB748BC5F377E49400FDD788B649ECA1AC4361834013B2AD7322480A89CA58E0CF74BC9E540C2ADD6897FAD0A3084F302ADC"
    "4531ACD1FE0023C7550D267B6B2FEE80922B14B2FFB90F04D4EB7C09B5D2D15DF1D852741AF4704A0458047E80E4546D35B8336FAC224DD81664BBF528BE6373"
    "4531ACD1FE0023C7550D267B6B2FEE80922B14B2FFB90F04D4EB7C09B5D2D15DA82F2D7ECB1DBAC719905C5EECC423F1D86E25EDBE23C595D644AAF187E6E6DF"
    "24D19CC64572EE30F396BF6EBBFD7A6C5213B3B3D7057CC825F91093A68CD762FD60611262CD838DC6B60AA7EEE804E28BC849977FAC33B4B530F1B120248A9A"
    "2BB312A43BD2CE6E0D020613C857ACDDCFBF061E91E5F2C3F32447C259F39B2C83AB156D77F1496BF7EB3351E1EE4E43DC1A18B91B24640B6DBB92CB1ADD371E"
    "1";
  mk_params Tc512_A
    "FFFFFFFFFFFFFFFFFFFFFFFFFFFFFFFFFFFFFFFFFFFFFFFFFFFFFFFFFFFFFFFFFFFFFFFFFFFFFFFFFFFFFFFFFFFFFFFFFFFFFFFFFFFFFFFFFFFFFFFFFFFFFDC4"
    "E8C2505DEDFC86DDC1BD0B2B6667F1DA34B82574761CB0E879BD081CFD0B6265EE3CB090F30D27614CB4574010DA90DD862EF9D4EBEE4761503190785A71C760"
    "FFFFFFFFFFFFFFFFFFFFFFFFFFFFFFFFFFFFFFFFFFFFFFFFFFFFFFFFFFFFFFFFFFFFFFFFFFFFFFFFFFFFFFFFFFFFFFFFFFFFFFFFFFFFFFFFFFFFFFFFFFFFFDC7"
    "FFFFFFFFFFFFFFFFFFFFFFFFFFFFFFFFFFFFFFFFFFFFFFFFFFFFFFFFFFFFFFFF27E69532F48D89116FF22B8D4E0560609B4B38ABFAD2B85DCACDB1411F10B275"
    "3"
    "7503CFE87A836AE3A61B8816E25450E6CE5E1C93ACF1ABC1778064FDCBEFA921DF1626BE4FD036E93D75E6A50E3A41E98028FE5FC235F5B889A589CB5215F2A4"
    "1";
  mk_params Tc512_B
    "8000000000000000000000000000000000000000000000000000000000000000000000000000000000000000000000000000000000000000000000000000006C"
    "687D1B459DC841457E3E06CF6F5E2517B97C7D614AF138BCBF85DC806C4B289F3E965D2DB1416D217F8B276FAD1AB69C50F78BEE1FA3106EFB8CCBC7C5140116"
    "8000000000000000000000000000000000000000000000000000000000000000000000000000000000000000000000000000000000000000000000000000006F"
    "800000000000000000000000000000000000000000000000000000000000000149A1EC142565A545ACFDB77BD9D40CFA8B996712101BEA0EC6346C54374F25BD"
    "2"
    "1A8F7EDA389B094C2C071E3647A8940F3C123B697578C213BE6DD9E6C8EC7335DCB228FD1EDF4A39152CBCAAF8C0398828041055F94CEEEC7E21340780FE41BD"
    "1";
  mk_params Tc512_C
    "DC9203E514A721875485A529D2C722FB187BC8980EB866644DE41C68E143064546E861C0E2C9EDD92ADE71F46FCF50FF2AD97F951FDA9F2A2EB6546F39689BD3"
    "B4C4EE28CEBC6C2C8AC12952CF37F16AC7EFB6A9F69F4B57FFDA2E4F0DE5ADE038CBC2FFF719D2C18DE0284B8BFEF3B52B8CC7A5F5BF0A3C8D2319A5312557E1"
    "FFFFFFFFFFFFFFFFFFFFFFFFFFFFFFFFFFFFFFFFFFFFFFFFFFFFFFFFFFFFFFFFFFFFFFFFFFFFFFFFFFFFFFFFFFFFFFFFFFFFFFFFFFFFFFFFFFFFFFFFFFFFFDC7"
    "3FFFFFFFFFFFFFFFFFFFFFFFFFFFFFFFFFFFFFFFFFFFFFFFFFFFFFFFFFFFFFFFC98CDBA46506AB004C33A9FF5147502CC8EDA9E7A769A12694623CEF47F023ED"
    "E2E31EDFC23DE7BDEBE241CE593EF5DE2295B7A9CBAEF021D385F7074CEA043AA27272A7AE602BF2A7B9033DB9ED3610C6FB85487EAE97AAC5BC7928C1950148"
    "F5CE40D95B5EB899ABBCCFF5911CB8577939804D6527378B8C108C3D2090FF9BE18E2D33E3021ED2EF32D85822423B6304F726AA854BAE07D0396E9A9ADDC40F"
    "4"
].

Local Open Scope Z_scope.
(** BN_hex2bn *)
Definition hexdigit (c : ascii) : option Z :=
  let n := Z.of_N (N_of_ascii c) in
  if (48 <=? n) && (n <=? 57) then Some (n - 48)
  else if (65 <=? n) && (n <=? 70) then Some (n - 55)
  else if (97 <=? n) && (n <=? 102) then Some (n - 87)
  else None.
Fixpoint hex2bn (s : string) (acc : Z) : Z :=
  match s with
  | EmptyString => acc
  | String c s' => match hexdigit c with Some d => hex2bn s' (16 * acc + d) | None => acc end
  end.

Definition curve_nid_eqb (a b : curve_nid) : bool :=
  match a, b with
  | TestParamSet, TestParamSet | CryptoPro_A, CryptoPro_A | CryptoPro_B, CryptoPro_B | CryptoPro_C, CryptoPro_C
  | CryptoPro_XchA, CryptoPro_XchA | CryptoPro_XchB, CryptoPro_XchB | Tc256_A, Tc256_A | Tc256_B, Tc256_B
  | Tc256_C, Tc256_C | Tc256_D, Tc256_D | Tc512_Test, Tc512_Test | Tc512_A, Tc512_A | Tc512_B, Tc512_B
  | Tc512_C, Tc512_C | OtherNid, OtherNid => true
  | _, _ => false
  end.
(** gost_ec_sign.c:26-59 [gost_nid2params]; [OtherNid] is never in a table. *)
Definition alias (nid : curve_nid) : curve_nid :=
  match nid with Tc256_B => CryptoPro_A | Tc256_C => CryptoPro_B | Tc256_D => CryptoPro_C | n => n end.
Definition gost_nid2params (nid : curve_nid) : option ec_params :=
  let nid' := alias nid in
  match find (fun p => curve_nid_eqb (ep_nid p) nid') R3410_2012_512_paramset with
  | Some p => Some p
  | None => find (fun p => curve_nid_eqb (ep_nid p) nid') R3410_2001_paramset
  end.

(** An EC_GROUP as built here: name and domain parameters. *)
Record ec_group := mk_ec_group { eg_name : curve_nid; eg_a : Z; eg_b : Z; eg_p : Z; eg_q : Z; eg_x : Z; eg_y : Z; eg_h : Z }.
(** gost_ec_sign.c:115-164: the group of an entry; EC_POINT_set_affine_coordinates refuses a point that is
    not on the curve.  Allocation failures are not modelled. *)
Definition build_group (p : ec_params) (nid : curve_nid) : option ec_group :=
  let P := hex2bn (ep_p p) 0 in let A := hex2bn (ep_a p) 0 in let B := hex2bn (ep_b p) 0 in
  let X := hex2bn (ep_x p) 0 in let Y := hex2bn (ep_y p) 0 in
  if (Y * Y - (X * X * X + A * X + B)) mod P =? 0
  then Some (mk_ec_group nid A B P (hex2bn (ep_q p) 0) X Y (hex2bn (ep_cofactor p) 0))
  else None.
(** EC_GROUP_set_curve_name *)
Definition rename (g : ec_group) (nid : curve_nid) : ec_group :=
  mk_ec_group nid (eg_a g) (eg_b g) (eg_p g) (eg_q g) (eg_x g) (eg_y g) (eg_h g).
(** The [group] fields of the table entries, by the nid of the entry. *)
Definition cache := curve_nid -> option ec_group.
Definition cache_set (c : cache) (n : curve_nid) (g : ec_group) : cache :=
  fun m => if curve_nid_eqb m n then Some g else c m.
(** gost_ec_sign.c:90-176 [fill_GOST_EC_params]: the cache afterwards and the group the key gets (a copy,
    EC_KEY_set_group duplicates); None is the return value 0. *)
Definition fill_GOST_EC_params (c : cache) (nid : curve_nid) : cache * option ec_group :=
  match gost_nid2params nid with
  | None => (c, None)
  | Some p =>
    match c (ep_nid p) with
    | Some g => let g' := rename g nid in (cache_set c (ep_nid p) g', Some g')
    | None =>
      match build_group p nid with
      | None => (c, None)
      | Some g => (cache_set c (ep_nid p) g, Some g)
      end
    end
  end.
(** gost_ec_sign.c:61-80 [free_cached_groups] *)
Definition free_cached_groups : cache := fun _ => None.

(** * Several threads in fill_GOST_EC_params at once
    The function takes no lock.  Groups are objects of a heap; each access to the shared pointer
    [params->group], to a group's name, and the duplication of a group is one step (a simplification: in C
    unsynchronised accesses are undefined, and EC_GROUP_dup is many reads). *)
Inductive thread :=
  | Want (nid : curve_nid)                 (* before the test of params->group, line 105 *)
  | Fetched (nid : curve_nid) (i : nat)    (* non-null: before EC_GROUP_set_curve_name, line 106 *)
  | Built (nid : curve_nid) (i : nat)      (* null: group built and named, before line 165 *)
  | Named (nid : curve_nid) (i : nat)      (* before EC_KEY_set_group, lines 107, 166 *)
  | Got (nid : curve_nid) (g : ec_group)
  | Failed (nid : curve_nid).
Record shared := mk_shared { sh_heap : list ec_group; sh_cache : curve_nid -> option nat }.
Definition heap_set (h : list ec_group) (i : nat) (g : ec_group) : list ec_group := firstn i h ++ g :: skipn (S i) h.
Definition step_thread (s : shared) (t : thread) : shared * thread :=
  match t with
  | Want nid =>
    match gost_nid2params nid with
    | None => (s, Failed nid)
    | Some p =>
      match sh_cache s (ep_nid p) with
      | Some i => (s, Fetched nid i)
      | None =>
        match build_group p nid with
        | None => (s, Failed nid)
        | Some g => (mk_shared (sh_heap s ++ [g]) (sh_cache s), Built nid (length (sh_heap s)))
        end
      end
    end
  | Fetched nid i =>
    match nth_error (sh_heap s) i with
    | None => (s, Failed nid)
    | Some g => (mk_shared (heap_set (sh_heap s) i (rename g nid)) (sh_cache s), Named nid i)
    end
  | Built nid i =>
    match gost_nid2params nid with
    | None => (s, Failed nid)
    | Some p => (mk_shared (sh_heap s) (fun m => if curve_nid_eqb m (ep_nid p) then Some i else sh_cache s m), Named nid i)
    end
  | Named nid i =>
    match nth_error (sh_heap s) i with
    | None => (s, Failed nid)
    | Some g => (s, Got nid g)
    end
  | Got _ _ | Failed _ => (s, t)
  end.
Definition replace_nth {A} (l : list A) (k : nat) (x : A) : list A := firstn k l ++ x :: skipn (S k) l.
(** One step of the system: thread [k] moves. *)
Definition step_sys (sy : shared * list thread) (k : nat) : shared * list thread :=
  match nth_error (snd sy) k with
  | None => sy
  | Some t => let (s', t') := step_thread (fst sy) t in (s', replace_nth (snd sy) k t')
  end.
