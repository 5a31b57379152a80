(** A family of small groups that meets every hypothesis [ec_laws] makes, for each parameter set and word
    size: the cyclic group of 19 (76 for the Edwards sets) elements with made-up coordinates.  It serves to
    show that the theorems about curves are not vacuous. *)
From Coq Require Import ZArith List Bool Lia Znumtheory Eqdep_dec.
From Verif Require Import Bytes EcLadderModel EcSpec.
Local Open Scope Z_scope.

Definition toy_cof (c : curve_nid) : Z := match c with Tc256_A | Tc512_C => 4 | _ => 1 end.
Definition toy_n (c : curve_nid) : Z := toy_cof c * 19.
Definition toy_pt (c : curve_nid) : Type := { z : Z | (z mod toy_n c =? z) = true }.
Lemma toy_n_pos c : 0 < toy_n c. Proof. destruct c; reflexivity. Qed.
Lemma toy_red c z : (z mod toy_n c mod toy_n c =? z mod toy_n c) = true.
Proof. apply Z.eqb_eq. apply Z.mod_mod. pose proof (toy_n_pos c). lia. Qed.
Definition mkp (c : curve_nid) (z : Z) : toy_pt c := exist _ (z mod toy_n c) (toy_red c z).
Lemma toy_eq c (P Q : toy_pt c) : proj1_sig P = proj1_sig Q -> P = Q.
Proof.
  destruct P as [a pa], Q as [b pb]. cbn [proj1_sig]. intros ->. f_equal. apply UIP_dec. apply bool_dec.
Qed.
Lemma toy_range c (P : toy_pt c) : 0 <= proj1_sig P < toy_n c.
Proof.
  destruct P as [a pa]. cbn [proj1_sig]. apply Z.eqb_eq in pa. rewrite <- pa. apply Z.mod_pos_bound, toy_n_pos.
Qed.
Lemma toy_self c (P : toy_pt c) : mkp c (proj1_sig P) = P.
Proof. apply toy_eq. destruct P as [a pa]. cbn [proj1_sig mkp]. apply Z.eqb_eq, pa. Qed.
Lemma mkp_eq c a b : a mod toy_n c = b mod toy_n c -> mkp c a = mkp c b.
Proof. intros H. apply toy_eq. exact H. Qed.

Definition toy_affine (c : curve_nid) (P : toy_pt c) : option (Z * Z) :=
  let z := proj1_sig P in if z =? 0 then None else Some (Z.min z (toy_n c - z) - 1, z).
Definition toy (c : curve_nid) (w : bool) : group :=
  {| pt := toy_pt c;
     padd := fun P Q => mkp c (proj1_sig P + proj1_sig Q);
     pneg := fun P => mkp c (- proj1_sig P);
     pzero := mkp c 0;
     affine := toy_affine c;
     gen := mkp c (toy_cof c);
     order := 19; cofactor := toy_cof c; fieldlen := 32; gname := c; wide := w;
     lut_cmb := fun j k =>
       match file_of c with
       | Some f => mkp c ((2 * Z.of_nat k + 1) * 2 ^ (5 * Z.of_nat (s_rows (file_shape w f)) * Z.of_nat j) * toy_cof c)
       | None => mkp c 0
       end |}.

Lemma toy_nsum c w n z : nsum (C := toy c w) n (mkp c z) = mkp c (Z.of_nat n * z).
Proof.
  pose proof (toy_n_pos c). induction n as [|n IH]; [reflexivity|]. cbn [nsum]. rewrite IH. cbn [padd toy].
  apply toy_eq. cbn [mkp proj1_sig]. rewrite <- Z.add_mod by lia. f_equal. lia.
Qed.
Lemma toy_smul c w k z : smul (C := toy c w) k (mkp c z) = mkp c (k * z).
Proof.
  pose proof (toy_n_pos c). unfold smul. destruct (Z.ltb_spec k 0).
  - rewrite toy_nsum. cbn [pneg toy]. apply toy_eq. cbn [mkp proj1_sig].
    rewrite Z2Nat.id by lia. replace (- k * z) with (- (k * z)) by lia.
    rewrite <- (Z.sub_0_l (- (k * z) mod toy_n c)), Zminus_mod_idemp_r. f_equal. lia.
  - rewrite toy_nsum, Z2Nat.id by lia. reflexivity.
Qed.
Lemma prime_19 : prime 19.
Proof.
  apply prime_alt. split; [lia|]. intros k K D. apply Z.mod_divide in D; [|lia].
  assert (k = 2 \/ k = 3 \/ k = 4 \/ k = 5 \/ k = 6 \/ k = 7 \/ k = 8 \/ k = 9 \/ k = 10 \/ k = 11 \/ k = 12 \/ k = 13 \/ k = 14 \/ k = 15 \/ k = 16 \/ k = 17 \/ k = 18) by lia.
  repeat match goal with H : _ \/ _ |- _ => destruct H end; subst k; discriminate D.
Qed.
Theorem toy_laws c w : ec_laws (toy c w).
Proof.
  pose proof (toy_n_pos c) as N.
  assert (M : forall P : toy_pt c, exists z, P = mkp c z) by (intros P; exists (proj1_sig P); symmetry; apply toy_self).
  constructor; cbn [toy pt padd pneg pzero gen order cofactor fieldlen gname wide affine lut_cmb].
  - intros P Q R. apply toy_eq. cbn [mkp proj1_sig]. rewrite Z.add_mod_idemp_r, Z.add_mod_idemp_l by lia. f_equal. lia.
  - intros P Q. apply toy_eq. cbn [mkp proj1_sig]. f_equal. lia.
  - intros P. rewrite <- (toy_self c P) at 2. apply toy_eq. cbn [mkp proj1_sig]. rewrite Z.add_mod_idemp_l by lia. reflexivity.
  - intros P. apply toy_eq. cbn [mkp proj1_sig]. rewrite Z.add_mod_idemp_l by lia. f_equal. lia.
  - intros P. unfold toy_affine. split.
    + destruct (Z.eqb_spec (proj1_sig P) 0) as [E|E]; [intros _|discriminate].
      apply toy_eq. cbn [mkp proj1_sig]. rewrite E. reflexivity.
    + intros ->. reflexivity.
  - intros P x y. unfold toy_affine. destruct (Z.eqb_spec (proj1_sig P) 0); [discriminate|]. intros H. injection H as <- <-.
    pose proof (toy_range c P). assert (toy_n c <= 76) by (destruct c; vm_compute; discriminate).
    assert (B : 76 < 256 ^ Z.of_nat 32) by reflexivity. lia.
  - intros P. destruct (M P) as [z ->]. unfold toy_affine. cbn [mkp proj1_sig].
    pose proof (Z.mod_pos_bound z (toy_n c) N). destruct (Z.eqb_spec (z mod toy_n c) 0) as [E|E].
    + rewrite E. reflexivity.
    + assert (Q : - (z mod toy_n c) mod toy_n c = toy_n c - z mod toy_n c)
        by (symmetry; apply Z.mod_unique with (-1); lia).
      rewrite Q. destruct (Z.eqb_spec (toy_n c - z mod toy_n c) 0); [lia|]. cbn [option_map fst]. f_equal. f_equal. lia.
  - apply prime_19.
  - intros H. apply (f_equal (@proj1_sig _ _)) in H. cbn [mkp proj1_sig] in H. destruct c; discriminate H.
  - rewrite toy_smul. apply mkp_eq. replace (19 * toy_cof c) with (0 + 1 * toy_n c) by (unfold toy_n; lia). apply Z_mod_plus_full.
  - intros P. destruct (M P) as [z ->]. rewrite toy_smul. apply mkp_eq.
    replace (toy_cof c * 19 * z) with (0 + z * toy_n c) by (unfold toy_n; lia). apply Z_mod_plus_full.
  - reflexivity.
  - lia.
  - lia.
  - destruct c; reflexivity.
  - intros f F j k J K. rewrite F, toy_smul. reflexivity.
Qed.
