(** Key transport by its standards: RFC 4490, section 4 (with RFC 9215 for the 2012 keys) for the CryptoPro
    variant, RFC 9189, section 8 (PSKeyTransport) for the 2018 one. *)
From Coq Require Import String ZArith List Bool Lia.
From Verif Require Import Bytes Gost89Sboxes Gost89Spec KeywrapSpec KexpSpec KdfModel KdfSpec EcLadderModel EcSpec EcModel Asn1Model AmethModel PropAmeth PropVko PropEc
  CmsParamsModel KeyTransAsn1.
Import ListNotations.
Local Open Scope string_scope.
Local Open Scope Z_scope.
Local Open Scope list_scope.

(** The agreed point for the private number [d], the UKM number [u] and the point [P] of the other side
    (RFC 7836, 4.3; the cofactor is multiplied in, so that it also makes sense outside the subgroup). *)
Definition agreed (C : group) (d u : Z) (P : pt C) : pt C := smul (cofactor C * ((u * d) mod order C)) P.
(** The key encryption key: VKO with the digest that goes with the key, its 256-bit variant for 2012. *)
Definition kek_digest (a : pkey_alg) : digest_nid := match a with A2001 | A2001DH => Md_94 | _ => Md_2012_256 end.
Definition kek (C : group) (a : pkey_alg) (d : Z) (P : pt C) (ukm : list N) : option (list N) :=
  point_key C (md_std (kek_digest a)) (agreed C d (digest_number ukm) P).
(** The S-boxes of the wrap: CryptoPro-A for 2001 keys, TC26-Z for the others. *)
Definition wrap_param (a : pkey_alg) : param_set := match a with A2001 | A2001DH => P_A | _ => P_Z end.

(** SubjectPublicKeyInfo of a point (its bytes: C42). *)
Definition spki (a : pkey_alg) (C : group) (P : pt C) : option xpub := pub_encode_gost_ec (public_of a C P).
(** GostR3410-KeyTransport for the wrapped key [W] = UKM | CEK_ENC | CEK_MAC, with the sender's public key if it
    is an ephemeral one. *)
Definition transport (a : pkey_alg) (W : list N) (sender : option xpub) : gkt :=
  mk_gkt (sub 8 32 W) (sub 40 4 W) (oid_of (wrap_param a)) sender (sub 0 8 W).
Definition cp_message (a : pkey_alg) (K ukm cek : list N) (sender : option xpub) : list N :=
  i2d_gkt (transport a (wrap (sboxes_of (sbox_of (wrap_param a))) K ukm cek) sender).

(** PSKeyTransport: KEG gives 64 bytes, the first half for the MAC, the second half for the cipher; the IV is the
    end of the UKM. *)
Definition ps_export (c : kcipher) (keys ukm cek : list N) : list N :=
  kexp15 c (firstn 32 keys) (skipn 32 keys) (sub 24 (half c) ukm) cek.
Definition ps_message (c : kcipher) (keys ukm cek : list N) (sender : xpub) : list N :=
  i2d_pst (mk_pst (ps_export c keys ukm cek) sender (Some ukm)).

(** KEG for any point of the other side (C40 has it for points of the subgroup). *)
Definition ps_keys (C : group) (a : pkey_alg) (d : Z) (P : pt C) (ukm : list N) : option (list N) :=
  let K md := point_key C (md_std md) (agreed C d (keg_ukm ukm) P) in
  match a with
  | A2012_512 => K Md_2012_512
  | A2012_256 => option_map (fun k => kdf_tree 2 k (ascii_bytes "kdf tree") (sub 16 8 ukm) 1) (K Md_2012_256)
  | _ => None
  end.

(** * Assumptions on the surroundings *)
(** A curve of the engine's table, the points built from coordinates modulo the field prime [p]. *)
Definition usable (curves : curve_nid -> option curve) (c : curve) : Prop :=
  curves (gname (cv c)) = Some c /\ gname (cv c) <> OtherNid /\ ec_laws (cv c) /\
  exists p, lift_ok p c /\ p <= 256 ^ Z.of_nat (num_bytes (order (cv c))) /\ (num_bytes (order (cv c)) <= 128)%nat.
