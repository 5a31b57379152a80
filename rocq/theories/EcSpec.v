(** Specification side of GOST R 34.10: multiples of a point, what an elliptic-curve group has to
    satisfy, the signature scheme of the standard (GOST R 34.10-2012, 6.1 and 6.2) and the VKO key
    agreement (RFC 7836, 4.3).  Nothing here mentions the program. *)
From Coq Require Import ZArith List Bool Znumtheory.
From Verif Require Import Bytes EcLadderModel.
Local Open Scope Z_scope.

(** n-fold sum, and multiples by any integer. *)
Fixpoint nsum {C : group} (n : nat) (P : pt C) : pt C :=
  match n with O => pzero C | S n' => padd C P (nsum n' P) end.
Definition smul {C : group} (z : Z) (P : pt C) : pt C :=
  if z <? 0 then pneg C (nsum (Z.to_nat (- z)) P) else nsum (Z.to_nat z) P.

(** How large a scalar the multiplication of a parameter set has to take: 32 bytes for the 256-bit sets,
    64 bytes for the 512-bit sets, anything for the sets left to OpenSSL. *)
Definition scalar_fits (c : curve_nid) (n : Z) : bool :=
  match c with
  | TestParamSet | CryptoPro_A | CryptoPro_B | CryptoPro_C | CryptoPro_XchA | CryptoPro_XchB
  | Tc256_A | Tc256_B | Tc256_C | Tc256_D => n <? 2 ^ 256
  | Tc512_A | Tc512_B | Tc512_C => n <? 2 ^ 512
  | Tc512_Test | OtherNid => true
  end.

(** What is assumed of a curve: an abelian group whose points other than zero have coordinates
    below 256^fieldlen, a point and its opposite having the same abscissa; a generator of prime
    order; the whole group has order cofactor * order; the cofactor is 4 for the two Edwards curves
    and 1 for the others; a scalar below the order is not too long, nor is the field; and the precomputed table of the curve's file holds the multiples it is
    meant to hold. *)
Record ec_laws (C : group) : Prop := {
  l_assoc : forall P Q R, padd C P (padd C Q R) = padd C (padd C P Q) R;
  l_comm : forall P Q, padd C P Q = padd C Q P;
  l_zero : forall P, padd C (pzero C) P = P;
  l_neg : forall P, padd C (pneg C P) P = pzero C;
  l_affine : forall P, affine C P = None <-> P = pzero C;
  l_range : forall P x y, affine C P = Some (x, y) ->
    0 <= x < 256 ^ Z.of_nat (fieldlen C) /\ 0 <= y < 256 ^ Z.of_nat (fieldlen C);
  l_xneg : forall P, option_map fst (affine C (pneg C P)) = option_map fst (affine C P);
  l_prime : prime (order C);
  l_gen : gen C <> pzero C;
  l_order : smul (order C) (gen C) = pzero C;
  l_total : forall P, smul (cofactor C * order C) P = pzero C;
  l_cofactor : cofactor C = match gname C with Tc256_A | Tc512_C => 4 | _ => 1 end;
  l_odd : 4 < order C;
  l_fieldlen : (fieldlen C <= 64)%nat;
  l_size : scalar_fits (gname C) (order C) = true;
  l_table : forall f, file_of (gname C) = Some f ->
    forall j k, (j < s_cols (file_shape (wide C) f))%nat -> (k < 16)%nat ->
      lut_cmb C j k =
      smul ((2 * Z.of_nat k + 1) * 2 ^ (5 * Z.of_nat (s_rows (file_shape (wide C) f)) * Z.of_nat j)) (gen C)
}.

(** A digest as the number alpha of the standard: its bytes are stored lowest first. *)
Definition digest_number (dgst : list N) : Z := Z.of_N (le2n dgst).

(** The number e of the standard (6.1 step 2, 6.2 step 3). *)
Definition hash_number (C : group) (alpha : Z) : Z :=
  let e := alpha mod order C in if e =? 0 then 1 else e.

(** 6.1: [(r, s)] is the signature of the hash [alpha] under the key [d] with the random number [k]. *)
Definition signature (C : group) (d alpha k r s : Z) : Prop :=
  0 < k < order C /\
  (exists x y, affine C (smul k (gen C)) = Some (x, y) /\ r = x mod order C) /\
  s = (r * d + k * hash_number C alpha) mod order C /\
  r <> 0 /\ s <> 0.

(** 6.2: [(r, s)] is accepted for the hash [alpha] and the public key [Q]. *)
Definition accepted (C : group) (Q : pt C) (alpha r s : Z) : Prop :=
  0 < r < order C /\ 0 < s < order C /\
  exists v x y, (v * hash_number C alpha) mod order C = 1 /\
    affine C (padd C (smul ((s * v) mod order C) (gen C)) (smul ((- (r * v)) mod order C) Q)) = Some (x, y) /\
    x mod order C = r.

(** RFC 7836, 4.3: the point K(x, y, UKM) = (m/q * UKM * x mod q) * (y * P), for the private key [d], the
    peer's point [Q] = y * P and the number [u] of the UKM. *)
Definition vko_point (C : group) (d u : Z) (Q : pt C) : pt C := smul ((cofactor C * u * d) mod order C) Q.
(** The key: the hash of the coordinates of the point, each lowest byte first and of the field's length; no
    key if the point is zero. *)
Definition point_key (C : group) (H : list N -> list N) (P : pt C) : option (list N) :=
  match affine C P with
  | None => None
  | Some (x, y) => Some (H (n2le (fieldlen C) (Z.to_N x) ++ n2le (fieldlen C) (Z.to_N y)))
  end.
