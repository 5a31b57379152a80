(** What the PKCS#7 and CMS messages say about GOST algorithms, by the standards: RFC 4490, RFC 9215 and RFC 9337
    and the object identifiers of TC 26, here in their dotted form. *)
From Coq Require Import ZArith List Bool Lia.
From Verif Require Import Bytes EcLadderModel EcModel KexpSpec.
Import ListNotations.
Local Open Scope N_scope.

(** X.690, 8.19: the contents of an OBJECT IDENTIFIER (numbers below 2^14). *)
Definition arc (n : N) : list N := if n <? 128 then [n] else [128 + n / 128; n mod 128].
Definition oid (dotted : list N) : list N :=
  match dotted with a :: b :: r => arc (40 * a + b) ++ flat_map arc r | _ => [] end.
(** An element of less than 128 bytes. *)
Definition element (tag : N) (c : list N) : list N := tag :: N.of_nat (length c) :: c.
Definition null : list N := [5; 0].
Definition object (dotted : list N) : list N := element 6 (oid dotted).
Definition sequence (elements : list (list N)) : list N := element 48 (concat elements).

Definition key_object (a : pkey_alg) : list N :=
  match a with
  | A2001 => [1; 2; 643; 2; 2; 19]
  | A2001DH => [1; 2; 643; 2; 2; 98]
  | A2012_256 => [1; 2; 643; 7; 1; 1; 1; 1]
  | A2012_512 => [1; 2; 643; 7; 1; 1; 1; 2]
  | A_other => []
  end.
(** The digest a key signs. *)
Definition signed_digest (a : pkey_alg) : digest_nid :=
  match a with A2001 | A2001DH => Md_94 | A2012_512 => Md_2012_512 | _ => Md_2012_256 end.
Definition digest_object (d : digest_nid) : list N :=
  match d with
  | Md_94 => [1; 2; 643; 2; 2; 9]
  | Md_2012_256 => [1; 2; 643; 7; 1; 1; 2; 2]
  | Md_2012_512 => [1; 2; 643; 7; 1; 1; 2; 3]
  end.
(** The digest as named in key parameters: the 94 one by its parameter set. *)
Definition digest_param (d : digest_nid) : list N :=
  match d with Md_94 => [1; 2; 643; 2; 2; 30; 1] | _ => digest_object d end.
Definition curve_object (n : curve_nid) : list N :=
  match n with
  | TestParamSet => [1; 2; 643; 2; 2; 35; 0]
  | CryptoPro_A => [1; 2; 643; 2; 2; 35; 1]
  | CryptoPro_B => [1; 2; 643; 2; 2; 35; 2]
  | CryptoPro_C => [1; 2; 643; 2; 2; 35; 3]
  | CryptoPro_XchA => [1; 2; 643; 2; 2; 36; 0]
  | CryptoPro_XchB => [1; 2; 643; 2; 2; 36; 1]
  | Tc256_A => [1; 2; 643; 7; 1; 2; 1; 1; 1]
  | Tc256_B => [1; 2; 643; 7; 1; 2; 1; 1; 2]
  | Tc256_C => [1; 2; 643; 7; 1; 2; 1; 1; 3]
  | Tc256_D => [1; 2; 643; 7; 1; 2; 1; 1; 4]
  | Tc512_Test => [1; 2; 643; 7; 1; 2; 1; 2; 0]
  | Tc512_A => [1; 2; 643; 7; 1; 2; 1; 2; 1]
  | Tc512_B => [1; 2; 643; 7; 1; 2; 1; 2; 2]
  | Tc512_C => [1; 2; 643; 7; 1; 2; 1; 2; 3]
  | OtherNid => []
  end.
(** KExp15 with a cipher as key wrap algorithm, the key agreement with keys of 256 or 512 bits. *)
Definition wrap_object (c : kcipher) : list N :=
  match c with MAGMA => [1; 2; 643; 7; 1; 1; 7; 1; 1] | KUZNYECHIK => [1; 2; 643; 7; 1; 1; 7; 2; 1] end.
Definition agreement_object (a : pkey_alg) : list N :=
  match a with A2012_512 => [1; 2; 643; 7; 1; 1; 6; 2] | _ => [1; 2; 643; 7; 1; 1; 6; 1] end.
(** GostR3410-...-PublicKeyParameters: the curve, and for keys on the CryptoPro and first 512-bit curves the digest. *)
Definition key_parameters (n : curve_nid) (h : option digest_nid) : list N :=
  sequence (object (curve_object n) :: match h with Some d => [object (digest_param d)] | None => [] end).
