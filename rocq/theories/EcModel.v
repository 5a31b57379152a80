(** Model of gost_ec_sign.c (signature, verification, key generation), of the signature packing of
    gost_pmeth.c and of the key agreement of gost_ec_keyx.c:1-265, over the scalar multiplications of
    EcLadderModel.v.  BIGNUM arithmetic is integer arithmetic; allocation failures are not modelled.  The
    random generator is the list of the numbers BN_rand_range delivers; the end of the list is its failure. *)
From Coq Require Import ZArith List Bool Lia String.
From Verif Require Import Bytes Gost89Model Hash94Model StreebogTables StreebogModel PropStreebog KdfModel EcLadderModel.
Import ListNotations.
Local Open Scope Z_scope.

(** An EC_KEY of the group: private and public part, either may be missing. *)
Record eckey (C : group) := mk_key { k_priv : option Z; k_pub : option (pt C) }.
Arguments mk_key {C}. Arguments k_priv {C}. Arguments k_pub {C}.

(** A call either returns or ends the process (OPENSSL_assert). *)
Inductive outcome (A : Type) := Returns (a : A) | Dies.
Arguments Returns {A}. Arguments Dies {A}.

(** BN_lebin2bn, BN_bin2bn *)
Definition lebin2bn (b : list N) : Z := Z.of_N (le2n b).
Definition bin2bn (b : list N) : Z := Z.of_N (be2n b).
(** The assertion on the digest length, gost_ec_sign.c:204, 372. *)
Definition dlen_ok (dgst : list N) : bool := (length dgst =? 32)%nat || (length dgst =? 64)%nat.
(** gost_ec_sign.c:226-241, 374-389: the digest as a number modulo the order, 0 replaced by 1. *)
Definition digest_e (q : Z) (dgst : list N) : Z :=
  let e := (lebin2bn dgst) mod q in if e =? 0 then 1 else e.

(** gost_ec_sign.c:249-296: the two nested loops; both restart by drawing the next k, so they are one
    recursion over the draws. *)
Fixpoint sign_loop (C : group) (priv e : Z) (draws : list Z) : option (Z * Z) :=
  match draws with
  | [] => None
  | k :: more =>
    match gost_ec_point_mul C (Some k) None None with
    | None => None
    | Some P =>
      match affine C P with
      | None => None
      | Some (X, _) =>
        let r := X mod order C in
        if r =? 0 then sign_loop C priv e more
        else
          let tmp := (priv * r) mod order C in
          let tmp2 := (k * e) mod order C in
          let s := (tmp + tmp2) mod order C in
          if s =? 0 then sign_loop C priv e more else Some (r, s)
      end
    end
  end.
(** gost_ec_sign.c:182-318 [gost_ec_sign]: NULL is None. *)
Definition gost_ec_sign (C : group) (dgst : list N) (key : eckey C) (draws : list Z) : outcome (option (Z * Z)) :=
  if negb (dlen_ok dgst) then Dies
  else
    match k_priv key with
    | None => Returns None
    | Some priv => Returns (sign_loop C priv (digest_e (order C) dgst) draws)
    end.

(** BN_mod_inverse (OpenSSL): extended Euclid; NULL if the gcd is not 1.  Library model; the fuel is
    proved sufficient. *)
Fixpoint euclid (fuel : nat) (r0 r1 t0 t1 : Z) : Z * Z :=
  match fuel with
  | O => (r0, t0)
  | S fuel' => if r1 =? 0 then (r0, t0) else euclid fuel' r1 (r0 mod r1) t1 (t0 - r0 / r1 * t1)
  end.
Definition mod_inverse (a n : Z) : option Z :=
  let (g, t) := euclid (Z.to_nat (2 * Z.log2 n + 3)) n a 0 1 in
  if g =? 1 then Some (t mod n) else None.

(** gost_ec_sign.c:325-440 [gost_ec_verify]. *)
Definition gost_ec_verify (C : group) (dgst : list N) (sig : Z * Z) (key : eckey C) : outcome Z :=
  match k_pub key with
  | None => Returns 0
  | Some pub_key =>
    let '(sig_r, sig_s) := sig in
    if (sig_s =? 0) || (sig_r =? 0) || (sig_s <? 0) || (sig_r <? 0)
       || (order C <=? Z.abs sig_s) || (order C <=? Z.abs sig_r) then Returns 0
    else if negb (dlen_ok dgst) then Dies
    else
      let e := digest_e (order C) dgst in
      match mod_inverse e (order C) with
      | None => Returns 0
      | Some v =>
        let z1 := (sig_s * v) mod order C in
        let tmp := order C - sig_r in
        let z2 := (tmp * v) mod order C in
        match gost_ec_point_mul C (Some z1) (Some pub_key) (Some z2) with
        | None => Returns 0
        | Some P =>
          match affine C P with
          | None => Returns 0
          | Some (X, _) => Returns (if X mod order C =? sig_r then 1 else 0)
          end
        end
      end
  end.

(** gost_ec_sign.c:449-496 [gost_ec_compute_public]: return value and the key afterwards. *)
Definition gost_ec_compute_public (C : group) (key : eckey C) : Z * eckey C :=
  match k_priv key with
  | None => (0, key)
  | Some d =>
    match gost_ec_point_mul C (Some d) None None with
    | None => (0, key)
    | Some P => (1, mk_key (Some d) (Some P))
    end
  end.
(** gost_ec_sign.c:599-643 [gost_ec_keygen] *)
Fixpoint keygen_draw (draws : list Z) : option Z :=
  match draws with
  | [] => None
  | d :: more => if d =? 0 then keygen_draw more else Some d
  end.
Definition gost_ec_keygen (C : group) (key : eckey C) (draws : list Z) : Z * eckey C :=
  match keygen_draw draws with
  | None => (0, key)
  | Some d => gost_ec_compute_public C (mk_key (Some d) (k_pub key))
  end.

(** * Packed signatures *)
(** gost_ameth.c:28-37 [store_bignum]: return value and the [len] bytes of the buffer, which held [old].
    BN_bn2bin writes the BN_num_bytes bytes of the number. *)
Definition num_bytes (n : Z) : nat := N.to_nat ((N.size (Z.abs_N n) + 7) / 8).
Definition store_bignum (bn : Z) (old : list N) (len : nat) : Z * list N :=
  let bytes := num_bytes bn in
  if (len <? bytes)%nat then (0, old)
  else (1, zeros (len - bytes) ++ n2be bytes (Z.abs_N bn)).
(** gost_pmeth.c:469-480 [pack_sign_cp]: the results of store_bignum are dropped. *)
Definition pack_sign_cp (sig : Z * Z) (ord : nat) : list N :=
  let '(r, s) := sig in
  let buf := zeros (2 * ord) in
  snd (store_bignum s (firstn ord buf) ord) ++ snd (store_bignum r (skipn ord buf) ord).
(** gost_pmeth.c:520-536 [unpack_cp_signature] *)
Definition unpack_cp_signature (sigbuf : list N) : Z * Z :=
  let h := (length sigbuf / 2)%nat in
  let s := bin2bn (firstn h sigbuf) in
  let r := bin2bn (firstn h (skipn h sigbuf)) in
  (r, s).

(** The key algorithms (EVP_PKEY_base_id). *)
Inductive pkey_alg := A2001 | A2001DH | A2012_256 | A2012_512 | A_other.
Definition sig_size (a : pkey_alg) : option nat :=
  match a with
  | A2001 | A2001DH | A2012_256 => Some 64%nat
  | A2012_512 => Some 128%nat
  | A_other => None
  end.
(** gost_pmeth.c:482-516 [pkey_gost_ec_cp_sign] with sig <> NULL: None is the return value 0.  [tbs_len]
    is assumed to fit an int. *)
Definition pkey_gost_ec_cp_sign (C : group) (a : pkey_alg) (key : eckey C) (tbs : list N) (draws : list Z)
  : outcome (option (list N)) :=
  match sig_size a with
  | None => Returns None
  | Some n =>
    match gost_ec_sign C tbs key draws with
    | Dies => Dies
    | Returns None => Returns None
    | Returns (Some sig) => Returns (Some (pack_sign_cp sig (n / 2)))
    end
  end.
(** ... and with sig == NULL: the length. *)
Definition pkey_gost_ec_cp_sign_len (a : pkey_alg) : option nat := sig_size a.
(** gost_pmeth.c:538-560 [pkey_gost_ec_cp_verify]; the algorithm of the key is not looked at. *)
Definition pkey_gost_ec_cp_verify (C : group) (key : option (eckey C)) (sig : option (list N)) (tbs : list N) : outcome Z :=
  match sig with
  | None => Returns 0
  | Some sigbuf =>
    match key with
    | None => Returns 0
    | Some key => gost_ec_verify C tbs (unpack_cp_signature sigbuf) key
    end
  end.

(** * Key agreement *)
Inductive digest_nid := Md_94 | Md_2012_256 | Md_2012_512.
Definition md_size (d : digest_nid) : nat := match d with Md_94 | Md_2012_256 => 32 | Md_2012_512 => 64 end.
(** One EVP_DigestInit/Update/Final of the engine's digest; [c] is the newly allocated GOST 28147-89
    context of the 94 hash. *)
Definition evp_digest (h : host) (c : gost_ctx) (d : digest_nid) (m : list N) : list N :=
  match d with
  | Md_94 => snd (finish_hash (fold_left hash_block [m] (gost_digest_init c)))
  | Md_2012_256 => hash2012 (h_bd h) (h_ac h) 256 [m]
  | Md_2012_512 => hash2012 (h_bd h) (h_ac h) 512 [m]
  end.
(** BN_bn2lebinpad of a coordinate. *)
Definition lebinpad (len : nat) (n : Z) : option (list N) := bn2lebinpad len n.
(** gost_ec_keyx.c:27-126 [VKO_compute_key]: the derived bytes, None for the return value 0.  An unknown
    digest is None; a key without private part would be dereferenced and does not occur here. *)
Definition VKO_compute_key (C : group) (h : host) (c : gost_ctx) (pub_key : pt C) (priv : Z) (ukm : list N)
  (dgst : option digest_nid) : option (list N) :=
  match dgst with
  | None => None
  | Some md =>
    let scalar := (lebin2bn ukm * priv) mod order C in
    match gost_ec_point_mul C None (Some pub_key) (Some scalar) with
    | None => None
    | Some pnt =>
      match affine C pnt with
      | None => None
      | Some (X, Y) =>
        match lebinpad (fieldlen C) X, lebinpad (fieldlen C) Y with
        | Some bx, Some by_ => Some (evp_digest h c md (bx ++ by_))
        | _, _ => None
        end
      end
    end
  end.
(** gost_ec_keyx.c:132-146: the UKM that is used. *)
Definition real_ukm (ukm_source : list N) : list N :=
  if eqbl (firstn 16 ukm_source) (zeros 16) then zeros 15 ++ [1%N] else rev (firstn 16 ukm_source).
(** gost_ec_keyx.c:132-179 [gost_keg] *)
Definition gost_keg (C : group) (h : host) (c : gost_ctx) (ukm_source : list N) (a : pkey_alg)
  (pub_key : pt C) (priv : Z) : option (list N) :=
  let u := real_ukm ukm_source in
  match a with
  | A2012_512 => VKO_compute_key C h c pub_key priv u (Some Md_2012_512)
  | A2012_256 =>
    match VKO_compute_key C h c pub_key priv u (Some Md_2012_256) with
    | None => None
    | Some tmpkey =>
      match gost_kdftree2012_256 h 64 tmpkey (ascii_bytes "kdf tree") (firstn 8 (skipn 16 ukm_source)) 1 with
      | Kdf_ok keyout => Some keyout
      | _ => None
      end
    end
  | _ => None
  end.
(** gost_ameth.c:447-466, 531-533: EVP_PKEY_get_default_digest_nid. *)
Definition default_digest (a : pkey_alg) : option digest_nid :=
  match a with
  | A2001 | A2001DH => Some Md_94
  | A2012_256 => Some Md_2012_256
  | A2012_512 => Some Md_2012_512
  | A_other => None
  end.
Definition shorten (d : option digest_nid) : option digest_nid :=
  match d with Some Md_2012_512 => Some Md_2012_256 | _ => d end.
(** The part of struct gost_pmeth_data (gost_lcl.h) read here: the 32 bytes of shared_ukm, their used size,
    the digest selected by EVP_PKEY_CTRL_SET_VKO. *)
Record pmeth := mk_pmeth { p_ukm : list N; p_ukm_size : nat; p_vko : option digest_nid }.
(** gost_ec_keyx.c:189-265 [pkey_gost_ec_derive] with key <> NULL: None is the return value 0. *)
Definition pkey_gost_ec_derive (C : group) (h : host) (c : gost_ctx) (data : pmeth) (a : pkey_alg)
  (priv : Z) (peer : pt C) : option (list N) :=
  if (p_ukm_size data =? 0)%nat then None
  else
    match p_vko data with
    | Some md => VKO_compute_key C h c peer priv (firstn (p_ukm_size data) (p_ukm data)) (Some md)
    | None =>
      if (p_ukm_size data =? 8)%nat then
        VKO_compute_key C h c peer priv (firstn 8 (p_ukm data)) (shorten (default_digest a))
      else if (p_ukm_size data =? 32)%nat then gost_keg C h c (p_ukm data) a peer priv
      else None
    end.
(** ... with key == NULL: the announced length. *)
Definition pkey_gost_ec_derive_len (data : pmeth) : option nat :=
  if (p_ukm_size data =? 0)%nat then None
  else
    match p_vko data with
    | Some Md_2012_256 => Some 32%nat
    | Some _ => Some 64%nat
    | None =>
      if (p_ukm_size data =? 8)%nat then Some 32%nat
      else if (p_ukm_size data =? 32)%nat then Some 64%nat else None
    end.
