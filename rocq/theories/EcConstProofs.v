(** The constants of the generated files are those of the curves they are used for. *)
From Coq Require Import ZArith Znumtheory Zpow_facts List Bool Lia Ring Field.
From Verif Require Import EcFormulaSpec EcFormulaModel EcFormulaProofs FieldZp EcLadderModel ParamsModel EcInvModel EcInvProofs
  EcConstModel EcCoordModel EcCurveSpec.
Import ListNotations.
Local Open Scope Z_scope.

(** The curve of a parameter set, read from the hexadecimal strings of gost_params.c *)
Definition nid_a (nid : curve_nid) : Z := match gost_nid2params nid with Some e => hex2bn (ep_a e) 0 | None => 0 end.
Definition nid_b (nid : curve_nid) : Z := match gost_nid2params nid with Some e => hex2bn (ep_b e) 0 | None => 0 end.

(** The field element a limb array stands for *)
Definition limbs_elt (p : Z) (Pp : prime p) (w64 : bool) (f : ecp_file) (ls : list Z) : F (zp p Pp) :=
  fdiv (zp p Pp) (res p (eval_limbs (weights w64 f) ls)) (res p (mont_r f)).
Definition file_const (p : Z) (Pp : prime p) (w64 : bool) (f : ecp_file) (c : const_name) : F (zp p Pp) :=
  limbs_elt p Pp w64 f (const_limbs w64 f c).
Definition file_consts (p : Z) (Pp : prime p) (w64 : bool) (f : ecp_file) : consts (zp p Pp) :=
  mk_consts (zp p Pp) (file_const p Pp w64 f C_a) (file_const p Pp w64 f C_b) (file_const p Pp w64 f C_b3)
    (file_const p Pp w64 f C_d) (file_const p Pp w64 f C_S) (file_const p Pp w64 f C_T).

(** ** The checks, on integers *)
Definition ev (w64 : bool) (f : ecp_file) (c : const_name) : Z := eval_limbs (weights w64 f) (const_limbs w64 f c).
Definition same (p x y : Z) : bool := (x - y) mod p =? 0.
(** A square root of -d; with p = 3 mod 4 it shows that d is not a square. *)
Definition root_of_minus_d (f : ecp_file) : Z :=
  match f with
  | F_256A => 0x83e5bdd9bdf3eb313dd2e8c6f2bcc3535c8892a12de1a71901ba705d47a3d4ac
  | F_512C => 0x96d6321ed51ee4b67c14cf30505a095e693275849594accce0c53bfd3d52fc71ea54e0c5e8358de58e8e508850113c0b51c5fe83bbc1eeca7c4774dacaca7ec5
  | _ => 0
  end.
Definition check (nid : curve_nid) (w64 : bool) (f : ecp_file) : bool :=
  let p := nid_prime nid in let a := nid_a nid in let b := nid_b nid in let R := mont_r f in
  (3 <? p) && negb (same p R 0) && same p (ev w64 f C_one) R &&
  match file_family f with
  | Minus3 => same p a (-3) && same p (ev w64 f C_b) (b * R)
  | AnyA => same p (ev w64 f C_a) (a * R) && same p (ev w64 f C_b3) (3 * b * R)
  | Edwards =>
    let d := ev w64 f C_d in let S := ev w64 f C_S in let T := ev w64 f C_T in let r := root_of_minus_d f in
    (R =? 1) && (p mod 4 =? 3) && negb (same p d 0) && same p (r * r) (- d) && same p (4 * S) (1 - d) && same p (6 * T) (1 + d) &&
    same p a (S * S - 3 * (T * T)) && same p b (2 * (T * T * T) - T * (S * S))
  end.
Lemma checked : forall nid w64 f, file_of nid = Some f -> check nid w64 f = true.
Proof. intros nid w64 f H. destruct nid; cbn in H; try discriminate H; injection H as <-; destruct w64; vm_compute; reflexivity. Qed.

Section In_field.
Variable p : Z.
Hypothesis Pp : prime p.
Notation K := (zp p Pp).
Add Field KF3 : (f_theory (zp p Pp)).
Lemma r_add x y : fadd K (res p x) (res p y) = res p (x + y).
Proof. apply residue_eq. cbn [val res fadd zp radd]. symmetry. apply Zplus_mod. Qed.
Lemma r_mul x y : fmul K (res p x) (res p y) = res p (x * y).
Proof. apply residue_eq. cbn [val res fmul zp rmul]. symmetry. apply Zmult_mod. Qed.
Lemma r_sub x y : fsub K (res p x) (res p y) = res p (x - y).
Proof. apply residue_eq. cbn [val res fsub zp rsub]. symmetry. apply Zminus_mod. Qed.
Lemma r_opp x : fopp K (res p x) = res p (- x).
Proof.
  apply residue_eq. cbn [val res fopp zp ropp]. rewrite <- (Z.sub_0_l (x mod p)), <- (Z.sub_0_l x).
  rewrite Zminus_mod_idemp_r. reflexivity.
Qed.
Lemma same_res x y : 1 < p -> same p x y = true -> res p x = res p y.
Proof.
  intros G H. apply Z.eqb_eq in H. apply residue_eq. cbn [val res].
  replace x with (y + (x - y)) by ring. rewrite Zplus_mod, H, Z.add_0_r. apply Zmod_mod.
Qed.
Lemma res_ne x : 1 < p -> same p x 0 = false -> res p x <> f0 K.
Proof.
  intros G H E. apply (f_equal (val p)) in E. cbn [val res f0 zp] in E. rewrite Zmod_0_l in E.
  apply Z.eqb_neq in H. rewrite Z.sub_0_r in H. contradiction.
Qed.
Lemma elt_eq x z R : 1 < p -> same p R 0 = false -> same p x (z * R) = true -> fdiv K (res p x) (res p R) = res p z.
Proof.
  intros G N H. rewrite (same_res _ _ G H), <- r_mul. pose proof (res_ne R G N). field. assumption.
Qed.
(** d is not a square if -d is one and p = 3 mod 4. *)
Lemma nonsquare_root d r : 3 < p -> p mod 4 = 3 -> same p d 0 = false -> same p (r * r) (- d) = true -> nonsquare K (res p d).
Proof.
  intros G M N H x E.
  assert (NX : val p x mod p <> 0).
  { rewrite val_mod. intros Z. apply (res_ne d ltac:(lia) N). rewrite <- E.
    replace x with (f0 K) by (apply residue_eq; rewrite Z; cbn [val res f0 zp]; apply Zmod_0_l).
    enough (A : fmul K (f0 K) (f0 K) = f0 K) by exact A. ring. }
  assert (NR : r mod p <> 0).
  { intros Z. apply (res_ne d ltac:(lia) N). pose proof (same_res _ _ ltac:(lia) H) as Q.
    rewrite <- r_mul, <- r_opp in Q.
    assert (Z' : res p r = f0 K) by (apply residue_eq; cbn [val res f0 zp]; rewrite Zmod_0_l; exact Z).
    rewrite Z' in Q. enough (A : forall u : F K, fmul K (f0 K) (f0 K) = fopp K u -> u = f0 K) by (apply A, Q).
    intros u QU. transitivity (fopp K (fopp K u)); [ring|]. rewrite <- QU. ring. }
  (* r^2 = - x^2; raise to the odd power (p-1)/2 *)
  set (h := (p - 1) / 2). 
  assert (PH : p - 1 = 2 * h).
  { unfold h. pose proof (Z.div_mod p 4 ltac:(lia)) as DM. rewrite M in DM.
    replace (p - 1) with ((2 * (p / 4) + 1) * 2) at 2 by lia. rewrite Z.div_mul by lia. lia. }
  assert (HO : h = 2 * (p / 4) + 1).
  { pose proof (Z.div_mod p 4 ltac:(lia)) as DM. rewrite M in DM. lia. }
  assert (P4 : 0 <= p / 4) by (apply Z.div_pos; lia).
  pose proof (fermat p Pp (val p x) NX) as FX. pose proof (fermat p Pp r NR) as FR.
  rewrite PH, Z.pow_mul_r in FX, FR by lia.
  assert (EQ : (r ^ 2) mod p = (- (val p x ^ 2)) mod p).
  { apply Z.eqb_eq in H. apply (f_equal (val p)) in E. cbn [val res fmul zp rmul] in E.
    rewrite Z.pow_2_r, Z.pow_2_r.
    replace (r * r) with (- d + (r * r - - d)) by ring. rewrite Zplus_mod, H, Z.add_0_r, Zmod_mod.
    rewrite <- (Z.sub_0_l d), <- (Z.sub_0_l (val p x * val p x)).
    rewrite Zminus_mod, <- E, <- Zminus_mod. reflexivity. }
  rewrite Zpower_mod, EQ, <- Zpower_mod in FR by lia.
  assert (OP : (- (val p x ^ 2)) ^ h = - ((val p x ^ 2) ^ h)).
  { rewrite Z.pow_opp_odd; [reflexivity|]. exists (p / 4). exact HO. }
  rewrite OP in FR. rewrite <- (Z.sub_0_l ((val p x ^ 2) ^ h)), Zminus_mod, FX in FR.
  rewrite Zmod_0_l in FR. change (0 - 1) with (-1) in FR.
  assert (E1 : (-1) mod p = p - 1) by (replace (-1) with (p - 1 + (-1) * p) by ring; rewrite Z_mod_plus_full; apply Z.mod_small; lia).
  lia.
Qed.
Lemma three_res : fadd K (fadd K (f1 K) (f1 K)) (f1 K) = res p 3.
Proof. change (f1 K) with (res p 1). rewrite !r_add. reflexivity. Qed.
Lemma two_res : fadd K (f1 K) (f1 K) = res p 2.
Proof. change (f1 K) with (res p 1). rewrite !r_add. reflexivity. Qed.
End In_field.

Theorem constants : forall nid w64 f (Pp : prime (nid_prime nid)), file_of nid = Some f ->
  file_const (nid_prime nid) Pp w64 f C_one = f1 (zp (nid_prime nid) Pp) /\
  consts_ok (zp (nid_prime nid) Pp) (res (nid_prime nid) (nid_a nid)) (res (nid_prime nid) (nid_b nid))
    (file_family f) (file_consts (nid_prime nid) Pp w64 f).
Proof.
  intros nid w64 f Pp H. pose proof (checked nid w64 f H) as CK. unfold check in CK. cbv zeta in CK.
  set (p := nid_prime nid) in *. set (a := nid_a nid) in *. set (b := nid_b nid) in *. clearbody p a b.
  rewrite !andb_true_iff in CK. destruct CK as [[[G NR] ONE] CK].
  apply Z.ltb_lt in G. apply negb_true_iff in NR. assert (G1 : 1 < p) by lia.
  split.
  { unfold file_const, limbs_elt. apply elt_eq; [exact G1|exact NR|]. rewrite Z.mul_1_l. exact ONE. }
  unfold consts_ok, file_consts. destruct (file_family f).
  - rewrite andb_true_iff in CK. destruct CK as [CA CB]. unfold w_consts. cbn [k_b]. split.
    + rewrite three_res, r_opp. apply same_res; assumption.
    + apply elt_eq; assumption.
  - rewrite andb_true_iff in CK. destruct CK as [CA CB]. unfold w_consts. cbn [k_a k_b3]. split.
    + apply elt_eq; assumption.
    + rewrite three_res, r_mul. apply elt_eq; assumption.
  - rewrite !andb_true_iff in CK. destruct CK as [[[[[[[R1 M4] ND] RT] CS] CT] CA] CB].
    apply Z.eqb_eq in R1, M4. apply negb_true_iff in ND.
    assert (V : forall c, file_const p Pp w64 f c = res p (ev w64 f c)).
    { intros c. unfold file_const, limbs_elt. apply elt_eq; [exact G1|exact NR|]. rewrite R1, Z.mul_1_r.
      unfold same. unfold ev. rewrite Z.sub_diag. apply Z.eqb_eq, Zmod_0_l. }
    cbn [k_d k_S k_T]. rewrite !V. split; [|split; [split|split]].
    + apply nonsquare_root with (r := root_of_minus_d f); assumption.
    + rewrite two_res, !r_mul. change (f1 (zp p Pp)) with (res p 1). rewrite r_sub. apply same_res; assumption.
    + rewrite three_res, two_res, !r_mul. change (f1 (zp p Pp)) with (res p 1). rewrite r_add. apply same_res; assumption.
    + unfold ew_a. rewrite three_res, !r_mul, r_sub. apply same_res; assumption.
    + unfold ew_b. rewrite two_res, !r_mul, r_sub. apply same_res; assumption.
Qed.
