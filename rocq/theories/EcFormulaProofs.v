(** The straight-line formulas compute the group laws. *)
From Coq Require Import Ring Field List Bool.
From Verif Require Import EcFormulaSpec EcFormulaModel.
Import ListNotations.

Section Proofs.
Variable K : field.
Add Field Kfield : (f_theory K).
Notation "0" := (f0 K) : fld_scope.
Notation "1" := (f1 K) : fld_scope.
Notation "x + y" := (fadd K x y) : fld_scope.
Notation "x * y" := (fmul K x y) : fld_scope.
Notation "x - y" := (fsub K x y) : fld_scope.
Notation "- x" := (fopp K x) : fld_scope.
Notation "x / y" := (fdiv K x y) : fld_scope.
Notation "x =? y" := (feqb K x y) (at level 70) : fld_scope.
Local Open Scope fld_scope.
Notation two := (1 + 1).
Notation three := (1 + 1 + 1).

(** * Fields *)
Lemma mul_cancel0 (x y : F K) : x * y = 0 -> x = 0 \/ y = 0.
Proof.
  intros H. destruct (feqb K x 0) eqn:E; [left; apply f_eqb; exact E|right].
  assert (N : x <> 0) by (intros ->; assert (feqb K 0 0 = true) by (apply f_eqb; reflexivity); congruence).
  replace y with ((x * y) / x) by (field; exact N). rewrite H. field. exact N.
Qed.
Lemma mul_ne0 (x y : F K) : x <> 0 -> y <> 0 -> x * y <> 0.
Proof. intros A B H. destruct (mul_cancel0 _ _ H); auto. Qed.
Lemma eqb_ne (x y : F K) : (x =? y) = false <-> x <> y.
Proof.
  rewrite <- Bool.not_true_iff_false, f_eqb. reflexivity.
Qed.
Lemma sub_ne0 (x y : F K) : x <> y -> x - y <> 0.
Proof. intros H E. apply H. transitivity (x - y + y); [ring|]. rewrite E. ring. Qed.
Lemma one_ne0 : 1 <> 0.
Proof. apply (F_1_neq_0 (f_theory K)). Qed.

(** * Weierstrass: addition in terms of affine coordinates *)
(** Explicit values of the two families, for operands (x1 : y1 : 1) and (x2 : y2 : 1). *)
Definition rX (a b3 x1 y1 x2 y2 : F K) : F K :=
  (x1 * y2 + x2 * y1) * (y1 * y2 - a * (x1 + x2) - b3)
  - (y1 + y2) * (a * (x1 * x2) + b3 * (x1 + x2) - a * a).
Definition rY (a b3 x1 y1 x2 y2 : F K) : F K :=
  (y1 * y2 + a * (x1 + x2) + b3) * (y1 * y2 - a * (x1 + x2) - b3)
  + (three * (x1 * x2) + a) * (a * (x1 * x2) + b3 * (x1 + x2) - a * a).
Definition rZ (a b3 x1 y1 x2 y2 : F K) : F K :=
  (y1 + y2) * (y1 * y2 + a * (x1 + x2) + b3) + (x1 * y2 + x2 * y1) * (three * (x1 * x2) + a).


Section Weierstrass.
Variables a b : F K.
Hypothesis odd : w_odd K a b.
Hypothesis char2 : two <> 0.
Notation b3 := (three * b).

Lemma y_ne0 x y : y * y = x * x * x + a * x + b -> y <> 0.
Proof. intros E H. apply (odd x). rewrite <- E, H. ring. Qed.

(** Distinct abscissas. *)
Section Chord.
Variables x1 y1 x2 y2 : F K.
Hypothesis on1 : y1 * y1 = x1 * x1 * x1 + a * x1 + b.
Hypothesis on2 : y2 * y2 = x2 * x2 * x2 + a * x2 + b.
Hypothesis dx : x1 <> x2.
Lemma dx0 : x1 - x2 <> 0.
Proof. apply sub_ne0, dx. Qed.
Let l := (y1 - y2) / (x1 - x2).
Let x3 := l * l - x1 - x2.
Let y3 := l * (x1 - x3) - y1.
(** The difference of the points. *)
Let m := (y1 + y2) / (x1 - x2).
Let xd := m * m - x1 - x2.
Let yd := m * (x1 - xd) - y1.

Lemma chord_a : a = ((y1 * y1 - y2 * y2) - (x1 * x1 * x1 - x2 * x2 * x2)) / (x1 - x2).
Proof. pose proof dx0. rewrite on1, on2. field. assumption. Qed.
Lemma chord_b : b = y1 * y1 - x1 * x1 * x1 - a * x1.
Proof. rewrite on1. ring. Qed.
Ltac chord := pose proof dx0; rewrite chord_b, chord_a; field; assumption.
Lemma chord_diff_on : yd * yd = xd * xd * xd + a * xd + b.
Proof. unfold yd, xd, m. chord. Qed.
Lemma chord_Z : rZ a b3 x1 y1 x2 y2 = - (yd * ((x1 - x2) * (x1 - x2) * (x1 - x2))).
Proof. unfold yd, xd, m, rZ. chord. Qed.
Lemma chord_X : rX a b3 x1 y1 x2 y2 = x3 * rZ a b3 x1 y1 x2 y2.
Proof. unfold x3, l, rX, rZ. chord. Qed.
Lemma chord_Y : rY a b3 x1 y1 x2 y2 = y3 * rZ a b3 x1 y1 x2 y2.
Proof. unfold y3, x3, l, rY, rZ. chord. Qed.
Lemma chord_on : y3 * y3 = x3 * x3 * x3 + a * x3 + b.
Proof. unfold y3, x3, l. chord. Qed.
End Chord.

(** Equal points, opposite points. *)
Section Tangent.
Variables x y : F K.
Hypothesis on : y * y = x * x * x + a * x + b.
Lemma y0 : y <> 0.
Proof. exact (y_ne0 x y on). Qed.
Lemma tangent_b : b = y * y - x * x * x - a * x.
Proof. rewrite on. ring. Qed.
Let l := (three * (x * x) + a) / (two * y).
Let x3 := l * l - x - x.
Let y3 := l * (x - x3) - y.
Ltac tangent := pose proof y0; rewrite tangent_b; field; auto.
Lemma tangent_on : y3 * y3 = x3 * x3 * x3 + a * x3 + b.
Proof. unfold y3, x3, l. tangent. Qed.
Lemma tangent_Z : rZ a b3 x y x y = two * two * two * (y * y * y).
Proof. unfold rZ. tangent. Qed.
Lemma tangent_X : rX a b3 x y x y = x3 * rZ a b3 x y x y.
Proof. unfold x3, l, rX, rZ. tangent. Qed.
Lemma tangent_Y : rY a b3 x y x y = y3 * rZ a b3 x y x y.
Proof. unfold y3, x3, l, rY, rZ. tangent. Qed.
Lemma opposite_X : rX a b3 x y x (- y) = 0.
Proof. unfold rX. ring. Qed.
Lemma opposite_Z : rZ a b3 x y x (- y) = 0.
Proof. unfold rZ. ring. Qed.
Lemma opposite_Y : rY a b3 x y x (- y) = two * two * two * (y * y * y) * y3.
Proof. unfold y3, x3, l, rY. tangent. Qed.
End Tangent.

Lemma ne0_8 y : y <> 0 -> two * two * two * (y * y * y) <> 0.
Proof. intros H. repeat apply mul_ne0; auto. Qed.
Lemma opp_ne0 x : x <> 0 -> - x <> 0.
Proof. intros H E. apply H. transitivity (- - x); [ring|]. rewrite E. ring. Qed.

(** General coordinates. *)
Definition gX (X1 Y1 Z1 X2 Y2 Z2 : F K) : F K :=
  (X1 * Y2 + X2 * Y1) * (Y1 * Y2 - a * (X1 * Z2 + X2 * Z1) - b3 * (Z1 * Z2))
  - (Y1 * Z2 + Y2 * Z1) * (a * (X1 * X2) + b3 * (X1 * Z2 + X2 * Z1) - a * a * (Z1 * Z2)).
Definition gY (X1 Y1 Z1 X2 Y2 Z2 : F K) : F K :=
  (Y1 * Y2 + a * (X1 * Z2 + X2 * Z1) + b3 * (Z1 * Z2)) * (Y1 * Y2 - a * (X1 * Z2 + X2 * Z1) - b3 * (Z1 * Z2))
  + (three * (X1 * X2) + a * (Z1 * Z2)) * (a * (X1 * X2) + b3 * (X1 * Z2 + X2 * Z1) - a * a * (Z1 * Z2)).
Definition gZ (X1 Y1 Z1 X2 Y2 Z2 : F K) : F K :=
  (Y1 * Z2 + Y2 * Z1) * (Y1 * Y2 + a * (X1 * Z2 + X2 * Z1) + b3 * (Z1 * Z2))
  + (X1 * Y2 + X2 * Y1) * (three * (X1 * X2) + a * (Z1 * Z2)).
Lemma gX_scale x1 y1 Z1 x2 y2 Z2 :
  gX (x1 * Z1) (y1 * Z1) Z1 (x2 * Z2) (y2 * Z2) Z2 = (Z1 * Z1 * (Z2 * Z2)) * rX a b3 x1 y1 x2 y2.
Proof. unfold gX, rX. ring. Qed.
Lemma gY_scale x1 y1 Z1 x2 y2 Z2 :
  gY (x1 * Z1) (y1 * Z1) Z1 (x2 * Z2) (y2 * Z2) Z2 = (Z1 * Z1 * (Z2 * Z2)) * rY a b3 x1 y1 x2 y2.
Proof. unfold gY, rY. ring. Qed.
Lemma gZ_scale x1 y1 Z1 x2 y2 Z2 :
  gZ (x1 * Z1) (y1 * Z1) Z1 (x2 * Z2) (y2 * Z2) Z2 = (Z1 * Z1 * (Z2 * Z2)) * rZ a b3 x1 y1 x2 y2.
Proof. unfold gZ, rZ. ring. Qed.

Lemma coords_y_ne0 X Y Z P : w_on K a b P -> w_coords K X Y Z P -> Y <> 0.
Proof.
  destruct P as [|x y]; cbn; intros O C; [tauto|]. destruct C as (NZ & -> & ->).
  apply mul_ne0; [exact (y_ne0 x y O)|exact NZ].
Qed.
Lemma coords_scale k X Y Z P : k <> 0 -> w_coords K X Y Z P -> w_coords K (k * X) (k * Y) (k * Z) P.
Proof.
  intros N. destruct P as [|x y]; cbn.
  - intros (-> & NY & ->). split; [ring|split; [apply mul_ne0; assumption|ring]].
  - intros (NZ & -> & ->). split; [apply mul_ne0; assumption|split; ring].
Qed.

Theorem w_add_on P Q : w_on K a b P -> w_on K a b Q -> w_on K a b (w_add K a P Q).
Proof.
  destruct P as [|x1 y1], Q as [|x2 y2]; cbn [w_add w_on]; auto. intros O1 O2.
  destruct (x1 =? x2) eqn:EX.
  - destruct (y1 =? - y2) eqn:EY; [exact I|]. apply (tangent_on x1 y1 O1).
  - apply eqb_ne in EX. exact (chord_on x1 y1 x2 y2 O1 O2 EX).
Qed.

Theorem complete_add P Q X1 Y1 Z1 X2 Y2 Z2 :
  w_on K a b P -> w_on K a b Q -> w_coords K X1 Y1 Z1 P -> w_coords K X2 Y2 Z2 Q ->
  w_coords K (gX X1 Y1 Z1 X2 Y2 Z2) (gY X1 Y1 Z1 X2 Y2 Z2) (gZ X1 Y1 Z1 X2 Y2 Z2) (w_add K a P Q).
Proof.
  intros O1 O2 C1 C2.
  pose proof (coords_y_ne0 _ _ _ _ O1 C1) as NY1. pose proof (coords_y_ne0 _ _ _ _ O2 C2) as NY2.
  destruct P as [|x1 y1].
  { destruct C1 as (-> & _ & ->). cbn [w_add].
    replace (gX 0 Y1 0 X2 Y2 Z2) with ((Y1 * Y1 * Y2) * X2) by (unfold gX; ring).
    replace (gY 0 Y1 0 X2 Y2 Z2) with ((Y1 * Y1 * Y2) * Y2) by (unfold gY; ring).
    replace (gZ 0 Y1 0 X2 Y2 Z2) with ((Y1 * Y1 * Y2) * Z2) by (unfold gZ; ring).
    apply coords_scale; [|exact C2]. repeat apply mul_ne0; assumption. }
  destruct Q as [|x2 y2].
  { destruct C2 as (-> & _ & ->). cbn [w_add].
    replace (gX X1 Y1 Z1 0 Y2 0) with ((Y2 * Y2 * Y1) * X1) by (unfold gX; ring).
    replace (gY X1 Y1 Z1 0 Y2 0) with ((Y2 * Y2 * Y1) * Y1) by (unfold gY; ring).
    replace (gZ X1 Y1 Z1 0 Y2 0) with ((Y2 * Y2 * Y1) * Z1) by (unfold gZ; ring).
    apply coords_scale; [|exact C1]. repeat apply mul_ne0; assumption. }
  destruct C1 as (NZ1 & -> & ->), C2 as (NZ2 & -> & ->).
  rewrite gX_scale, gY_scale, gZ_scale. apply coords_scale; [repeat apply mul_ne0; assumption|].
  cbn [w_on] in O1, O2. cbn [w_add].
  destruct (x1 =? x2) eqn:EX.
  - apply f_eqb in EX. subst x2.
    assert (S : (y1 - y2) * (y1 + y2) = 0) by (transitivity (y1 * y1 - y2 * y2); [ring|rewrite O1, O2; ring]).
    destruct (y1 =? - y2) eqn:EY.
    + apply f_eqb in EY. assert (E2 : y2 = - y1) by (rewrite EY; ring). subst y2.
      cbn [w_coords]. rewrite opposite_X, opposite_Z, opposite_Y by exact O1.
      split; [reflexivity|split; [|reflexivity]]. apply mul_ne0; [apply ne0_8, (y_ne0 x1 y1 O1)|].
      apply (y_ne0 _ _ (tangent_on x1 y1 O1)).
    + apply eqb_ne in EY. assert (y2 = y1).
      { destruct (mul_cancel0 _ _ S) as [H|H].
        - transitivity (y1 - (y1 - y2)); [ring|]. rewrite H. ring.
        - exfalso. apply EY. transitivity ((y1 + y2) - y2); [ring|]. rewrite H. ring. }
      subst y2. unfold w_third. cbn [w_coords].
      rewrite <- tangent_X, <- tangent_Y by exact O1.
      split; [|split; reflexivity]. rewrite tangent_Z by exact O1. apply ne0_8, (y_ne0 x1 y1 O1).
  - apply eqb_ne in EX. unfold w_third. cbn [w_coords].
    rewrite <- (chord_X x1 y1 x2 y2 O1 O2 EX), <- (chord_Y x1 y1 x2 y2 O1 O2 EX).
    split; [|split; reflexivity]. rewrite (chord_Z x1 y1 x2 y2 O1 O2 EX).
    apply opp_ne0, mul_ne0; [exact (y_ne0 _ _ (chord_diff_on x1 y1 x2 y2 O1 O2 EX))|].
    pose proof (dx0 x1 x2 EX). repeat apply mul_ne0; assumption.
Qed.

(** ** The programs *)
(** The constants of the file are those of the curve. *)
Definition w_consts (f : family) (c : consts K) : Prop :=
  match f with
  | Minus3 => a = - three /\ k_b K c = b
  | AnyA => k_a K c = a /\ k_b3 K c = three * b
  | Edwards => False
  end.
Ltac runprog := unfold point_add_proj, point_add_mixed, point_double, call2, result, run;
  cbn [prog_double prog_add_mixed prog_add_proj m3_double m3_add_mixed m3_add_proj any_double any_add_mixed
       any_add_proj fold_left step store alias reg_eqb entry pX pY pT pZ aX aY aT].

Lemma prog_proj f same c junk q p : w_consts f c ->
  let r := point_add_proj K f same c junk q p in
  pX K r = gX (pX K q) (pY K q) (pZ K q) (pX K p) (pY K p) (pZ K p) /\
  pY K r = gY (pX K q) (pY K q) (pZ K q) (pX K p) (pY K p) (pZ K p) /\
  pZ K r = gZ (pX K q) (pY K q) (pZ K q) (pX K p) (pY K p) (pZ K p).
Proof.
  intros C. destruct q as [Xq Yq Tq Zq], p as [Xp Yp Tp Zp]. unfold gX, gY, gZ.
  destruct f; cbn in C; [destruct C as [-> <-]|destruct C as [<- E]|contradiction].
  - destruct same; runprog; (split; [ring|split; ring]).
  - rewrite <- E. destruct same; runprog; (split; [ring|split; ring]).
Qed.
Lemma prog_mixed f same c junk q p : w_consts f c -> aY K p <> 0 ->
  let r := point_add_mixed K f same c junk q p in
  pX K r = gX (pX K q) (pY K q) (pZ K q) (aX K p) (aY K p) 1 /\
  pY K r = gY (pX K q) (pY K q) (pZ K q) (aX K p) (aY K p) 1 /\
  pZ K r = gZ (pX K q) (pY K q) (pZ K q) (aX K p) (aY K p) 1.
Proof.
  intros C N. apply eqb_ne in N. destruct q as [Xq Yq Tq Zq], p as [Xp Yp Tp]. cbn [aY] in N. unfold gX, gY, gZ.
  destruct f; cbn in C; [destruct C as [-> <-]|destruct C as [<- E]|contradiction].
  - destruct same; runprog; rewrite N; (split; [ring|split; ring]).
  - rewrite <- E. destruct same; runprog; rewrite N; (split; [ring|split; ring]).
Qed.
Lemma prog_mixed_inf f same c junk q p : w_consts f c -> aY K p = 0 ->
  let r := point_add_mixed K f same c junk q p in
  pX K r = pX K q /\ pY K r = pY K q /\ pZ K r = pZ K q.
Proof.
  intros C N. apply f_eqb in N. destruct q as [Xq Yq Tq Zq], p as [Xp Yp Tp]. cbn [aY] in N.
  destruct f; cbn in C; [| |contradiction]; destruct same; runprog; rewrite N; (split; [|split]); reflexivity.
Qed.
Lemma prog_double_finite f same c junk x y Z T : w_consts f c -> y * y = x * x * x + a * x + b ->
  let r := point_double K f same c junk (mk_prj K (x * Z) (y * Z) T Z) in
  let k := Z * Z * (Z * Z) in
  pX K r = k * rX a b3 x y x y /\ pY K r = k * rY a b3 x y x y /\ pZ K r = k * rZ a b3 x y x y.
Proof.
  intros C on.
  destruct f; cbn in C; [destruct C as [EA EB]|destruct C as [EA E]|contradiction]; unfold rX, rY, rZ.
  - rewrite (tangent_b x y on), EA in EB. rewrite (tangent_b x y on), EA.
    destruct same; runprog; rewrite EB; (split; [ring|split; ring]).
  - rewrite (tangent_b x y on) in E. rewrite (tangent_b x y on).
    destruct same; runprog; rewrite E, EA; (split; [ring|split; ring]).
Qed.
Lemma prog_double_inf f same c junk Y T : w_consts f c ->
  let r := point_double K f same c junk (mk_prj K 0 Y T 0) in
  pX K r = 0 /\ pY K r = Y * Y * (Y * Y) /\ pZ K r = 0.
Proof.
  intros C. destruct f; cbn in C; [| |contradiction]; destruct same; runprog; (split; [ring|split; ring]).
Qed.

Definition coords (q : prj K) (P : wpoint K) : Prop := w_coords K (pX K q) (pY K q) (pZ K q) P.
(** A table entry, or the argument of the file: affine coordinates, all zero for the point at infinity. *)
Definition acoords (p : aff K) (P : wpoint K) : Prop :=
  match P with Infinity => aX K p = 0 /\ aY K p = 0 | Finite x y => aX K p = x /\ aY K p = y end.

Theorem double_correct f same c junk q P : w_consts f c -> w_on K a b P -> coords q P ->
  coords (point_double K f same c junk q) (w_add K a P P).
Proof.
  intros C O H. destruct q as [Xq Yq Tq Zq]. unfold coords in *. cbn [pX pY pZ] in H.
  destruct P as [|x y].
  - destruct H as (-> & NY & ->). destruct (prog_double_inf f same c junk Yq Tq C) as (-> & -> & ->).
    cbn. split; [reflexivity|split; [repeat apply mul_ne0; assumption|reflexivity]].
  - destruct H as (NZ & -> & ->). cbn [w_on] in O.
    destruct (prog_double_finite f same c junk x y Zq Tq C O) as (-> & -> & ->).
    rewrite <- gX_scale, <- gY_scale, <- gZ_scale.
    apply complete_add; try exact O; cbn; auto.
Qed.
Theorem add_proj_correct f same c junk q p P Q : w_consts f c -> w_on K a b P -> w_on K a b Q ->
  coords q P -> coords p Q -> coords (point_add_proj K f same c junk q p) (w_add K a P Q).
Proof.
  intros C O1 O2 H1 H2. unfold coords in *. destruct (prog_proj f same c junk q p C) as (-> & -> & ->).
  apply complete_add; assumption.
Qed.
Lemma w_add_inf_r P : w_add K a P Infinity = P.
Proof. destruct P; reflexivity. Qed.
Theorem add_mixed_correct f same c junk q p P Q : w_consts f c -> w_on K a b P -> w_on K a b Q ->
  coords q P -> acoords p Q -> coords (point_add_mixed K f same c junk q p) (w_add K a P Q).
Proof.
  intros C O1 O2 H1 H2. unfold coords in *. destruct Q as [|x y]; cbn [acoords] in H2; destruct H2 as [EX EY].
  - destruct (prog_mixed_inf f same c junk q p C EY) as (-> & -> & ->). rewrite w_add_inf_r. exact H1.
  - assert (N : aY K p <> 0) by (rewrite EY; exact (y_ne0 x y O2)).
    destruct (prog_mixed f same c junk q p C N) as (-> & -> & ->).
    apply complete_add; try assumption. cbn. split; [apply one_ne0|]. rewrite EX, EY. split; ring.
Qed.
End Weierstrass.

(** * Edwards *)
Section EdwardsCurve.
Variable d : F K.
Hypothesis dns : nonsquare K d.
Hypothesis char2 : two <> 0.

Lemma d_ne0 : d <> 0.
Proof. intros H. apply (dns 0). rewrite H. ring. Qed.
Lemma d_ne1 : d <> 1.
Proof. intros H. apply (dns 1). rewrite H. ring. Qed.

(** Bernstein and Lange: the denominators do not vanish. *)
Lemma e_complete x1 y1 x2 y2 e : e_on K d (x1, y1) -> e_on K d (x2, y2) -> e * e = 1 ->
  d * x1 * x2 * y1 * y2 <> e.
Proof.
  cbn [e_on]. intros O1 O2 E1 E.
  assert (NE : e <> 0) by (intros ->; apply one_ne0; rewrite <- E1; ring).
  assert (N : d * x1 * x2 * y1 * y2 <> 0) by (rewrite E; exact NE).
  assert (Nx1 : x1 <> 0) by (intros ->; apply N; ring).
  assert (Nx2 : x2 <> 0) by (intros ->; apply N; ring).
  assert (Ny1 : y1 <> 0) by (intros ->; apply N; ring).
  assert (Q : forall z w, z * z = 1 -> x2 + z * y2 = w -> d * (x1 * y1 * w) * (x1 * y1 * w)
              = (x1 + z * e * y1) * (x1 + z * e * y1)).
  { intros z w Z W. rewrite <- W.
    transitivity (d * (x1 * x1) * (y1 * y1) * (x2 * x2 + z * z * (y2 * y2)) + two * z * (x1 * y1) * (d * x1 * x2 * y1 * y2));
      [ring|].
    rewrite Z, E. replace (x2 * x2 + 1 * (y2 * y2)) with (x2 * x2 + y2 * y2) by ring. rewrite O2.
    transitivity (d * (x1 * x1) * (y1 * y1) + (d * x1 * x2 * y1 * y2) * (d * x1 * x2 * y1 * y2) + two * z * (x1 * y1) * e);
      [ring|].
    rewrite E, E1. transitivity ((1 + d * (x1 * x1) * (y1 * y1)) + two * z * (x1 * y1) * e); [ring|].
    rewrite <- O1. transitivity (x1 * x1 + (z * z) * (e * e) * (y1 * y1) + two * z * (x1 * y1) * e); [|ring].
    rewrite Z, E1. ring. }
  assert (R : forall z, z * z = 1 -> x2 + z * y2 = 0).
  { intros z Z. destruct (feqb K (x2 + z * y2) 0) eqn:W; [apply f_eqb; exact W|]. exfalso.
    apply eqb_ne in W. set (w := x2 + z * y2) in *.
    pose proof (Q z w Z eq_refl) as H.
    apply (dns ((x1 + z * e * y1) / (x1 * y1 * w))).
    transitivity (((x1 + z * e * y1) * (x1 + z * e * y1)) / ((x1 * y1 * w) * (x1 * y1 * w)));
      [field; auto|]. rewrite <- H. field. auto. }
  pose proof (R 1 ltac:(ring)) as R1. pose proof (R (fopp K 1) ltac:(ring)) as R2.
  assert (two * x2 = 0).
  { transitivity ((x2 + 1 * y2) + (x2 + (fopp K 1) * y2)); [ring|]. rewrite R1, R2. ring. }
  destruct (mul_cancel0 _ _ H); auto.
Qed.
Lemma e_plus x1 y1 x2 y2 : e_on K d (x1, y1) -> e_on K d (x2, y2) -> 1 + d * x1 * x2 * y1 * y2 <> 0.
Proof.
  intros O1 O2 H. apply (e_complete x1 y1 x2 y2 (fopp K 1) O1 O2); [ring|].
  transitivity ((1 + d * x1 * x2 * y1 * y2) - 1); [ring|]. rewrite H. ring.
Qed.
Lemma e_minus x1 y1 x2 y2 : e_on K d (x1, y1) -> e_on K d (x2, y2) -> 1 - d * x1 * x2 * y1 * y2 <> 0.
Proof.
  intros O1 O2 H. apply (e_complete x1 y1 x2 y2 1 O1 O2); [ring|].
  transitivity (1 - (1 - d * x1 * x2 * y1 * y2)); [ring|]. rewrite H. ring.
Qed.

Ltac runed := unfold point_add_proj, point_add_mixed, point_double, point_edwards2legacy, point_legacy2edwards,
    call2, result, run;
  cbn [prog_double prog_add_mixed prog_add_proj ed_double ed_add_mixed ed_add_proj ed_edwards2legacy
       ed_legacy2edwards fold_left step store alias reg_eqb entry pX pY pT pZ aX aY aT].

Definition ecoords (q : prj K) (P : F K * F K) : Prop := e_coords K (pX K q) (pY K q) (pT K q) (pZ K q) P.
Definition eacoords (p : aff K) (P : F K * F K) : Prop :=
  let '(x, y) := P in aX K p = x /\ aY K p = y /\ aT K p = x * y.

Theorem e_add_proj_correct same c junk q p P Q : k_d K c = d -> e_on K d P -> e_on K d Q ->
  ecoords q P -> ecoords p Q -> ecoords (point_add_proj K Edwards same c junk q p) (e_add K d P Q).
Proof.
  intros C O1 O2 H1 H2. destruct P as [x1 y1], Q as [x2 y2], q as [Xq Yq Tq Zq], p as [Xp Yp Tp Zp].
  pose proof (e_plus x1 y1 x2 y2 O1 O2) as NP. pose proof (e_minus x1 y1 x2 y2 O1 O2) as NM.
  unfold ecoords in *. cbn [e_coords e_add pX pY pT pZ] in *.
  destruct H1 as (NZ1 & -> & -> & ->), H2 as (NZ2 & -> & -> & ->).
  assert (EZ : pZ K (point_add_proj K Edwards same c junk (mk_prj K (x1 * Zq) (y1 * Zq) (x1 * y1 * Zq) Zq)
              (mk_prj K (x2 * Zp) (y2 * Zp) (x2 * y2 * Zp) Zp))
          = (Zq * Zp) * (Zq * Zp) * ((1 + d * x1 * x2 * y1 * y2) * (1 - d * x1 * x2 * y1 * y2))).
  { destruct same; runed; rewrite C; ring. }
  rewrite EZ. split; [repeat apply mul_ne0; assumption|].
  destruct same; runed; rewrite C; (split; [field; auto|split; field; auto]).
Qed.
Theorem e_add_mixed_correct same c junk q p P Q : k_d K c = d -> e_on K d P -> e_on K d Q ->
  ecoords q P -> eacoords p Q -> ecoords (point_add_mixed K Edwards same c junk q p) (e_add K d P Q).
Proof.
  intros C O1 O2 H1 H2. destruct P as [x1 y1], Q as [x2 y2], q as [Xq Yq Tq Zq], p as [Xp Yp Tp].
  pose proof (e_plus x1 y1 x2 y2 O1 O2) as NP. pose proof (e_minus x1 y1 x2 y2 O1 O2) as NM.
  unfold ecoords in *. cbn [e_coords eacoords e_add pX pY pT pZ aX aY aT] in *.
  destruct H1 as (NZ1 & -> & -> & ->), H2 as (-> & -> & ->).
  assert (EZ : pZ K (point_add_mixed K Edwards same c junk (mk_prj K (x1 * Zq) (y1 * Zq) (x1 * y1 * Zq) Zq)
              (mk_aff K x2 y2 (x2 * y2)))
          = Zq * Zq * ((1 + d * x1 * x2 * y1 * y2) * (1 - d * x1 * x2 * y1 * y2))).
  { destruct same; runed; rewrite C; ring. }
  rewrite EZ. split; [repeat apply mul_ne0; assumption|].
  destruct same; runed; rewrite C; (split; [field; auto|split; field; auto]).
Qed.
Theorem e_double_correct same c junk q P : e_on K d P ->
  ecoords q P -> ecoords (point_double K Edwards same c junk q) (e_add K d P P).
Proof.
  intros O1 H1. destruct P as [x y], q as [Xq Yq Tq Zq].
  pose proof (e_plus x y x y O1 O1) as NP. pose proof (e_minus x y x y O1 O1) as NM.
  unfold ecoords in *. cbn [e_coords e_on e_add pX pY pT pZ] in *.
  destruct H1 as (NZ1 & -> & -> & ->).
  assert (EP : 1 + d * x * x * y * y = x * x + y * y) by (rewrite O1; ring).
  assert (EM : 1 - d * x * x * y * y = two - (x * x + y * y)) by (rewrite O1; ring).
  rewrite EP in *. rewrite EM in *.
  assert (EZ : pZ K (point_double K Edwards same c junk (mk_prj K (x * Zq) (y * Zq) (x * y * Zq) Zq))
          = - (Zq * Zq * (Zq * Zq) * ((x * x + y * y) * (two - (x * x + y * y))))).
  { destruct same; runed; ring. }
  rewrite EZ. split; [apply opp_ne0; repeat apply mul_ne0; assumption|].
  destruct same; runed; (split; [field; auto|split; field; auto]).
Qed.
Lemma e_add_on P Q : e_on K d P -> e_on K d Q -> e_on K d (e_add K d P Q).
Proof.
  intros O1 O2. destruct P as [x1 y1], Q as [x2 y2].
  pose proof (e_plus x1 y1 x2 y2 O1 O2) as NP. pose proof (e_minus x1 y1 x2 y2 O1 O2) as NM.
  cbn [e_on e_add] in *. set (e := d * x1 * x2 * y1 * y2) in *.
  set (N1 := x1 * y2 + x2 * y1). set (N2 := y1 * y2 - x1 * x2).
  assert (T : N1 * N1 * ((1 - e) * (1 - e)) + N2 * N2 * ((1 + e) * (1 + e)) - d * (N1 * N1) * (N2 * N2)
    = (x1 * x1 + y1 * y1 - (x2 * x2 + y2 * y2) * (d * (x1 * x1) * (y1 * y1)))
      * (x2 * x2 + y2 * y2 - (x1 * x1 + y1 * y1) * (d * (x2 * x2) * (y2 * y2)))).
  { unfold N1, N2, e. ring. }
  assert (T1 : x1 * x1 + y1 * y1 - (x2 * x2 + y2 * y2) * (d * (x1 * x1) * (y1 * y1)) = 1 - e * e).
  { rewrite O1, O2. unfold e. ring. }
  assert (T2 : x2 * x2 + y2 * y2 - (x1 * x1 + y1 * y1) * (d * (x2 * x2) * (y2 * y2)) = 1 - e * e).
  { rewrite O1, O2. unfold e. ring. }
  rewrite T1, T2 in T. clear T1 T2. clearbody N1 N2 e.
  assert (T' : N1 * N1 * ((1 - e) * (1 - e)) + N2 * N2 * ((1 + e) * (1 + e))
    = (1 - e * e) * (1 - e * e) + d * (N1 * N1) * (N2 * N2)) by (rewrite <- T; ring).
  transitivity ((N1 * N1 * ((1 - e) * (1 - e)) + N2 * N2 * ((1 + e) * (1 + e)))
                / ((1 + e) * (1 + e) * ((1 - e) * (1 - e)))); [field; auto|].
  rewrite T'. field. auto.
Qed.
Lemma e_zero_on : e_on K d (e_zero K).
Proof. cbn. ring. Qed.
Lemma e_opp_on P : e_on K d P -> e_on K d (e_opp K P).
Proof. destruct P as [x y]. cbn. intros H. transitivity (x * x + y * y); [ring|]. rewrite H. ring. Qed.

(** ** The Weierstrass form *)
Variables s t : F K.
Hypothesis st : ew_params K s t d.
Hypothesis char3 : three <> 0.
Lemma s_ne0 : s <> 0.
Proof.
  intros ->. destruct st as [H _]. apply d_ne1. transitivity (1 - (1 - d)); [ring|]. rewrite <- H. ring.
Qed.
Lemma d_of_s : d = 1 - two * two * s.
Proof. destruct st as [-> _]. ring. Qed.
Lemma t_of_s : three * t = 1 - two * s.
Proof.
  assert (E : two * (three * t) = two * (1 - two * s)).
  { transitivity (two * three * t); [ring|]. destruct st as [H1 H2]. rewrite H2, d_of_s. ring. }
  transitivity ((two * (three * t)) / two); [field; auto|]. rewrite E. field. auto.
Qed.
Lemma u0_v u v : e_on K d (u, v) -> u = 0 -> v = 1 \/ v = - (1).
Proof.
  cbn. intros O ->. assert (H : (v - 1) * (v + 1) = 0).
  { transitivity (0 * 0 + v * v - 1); [ring|]. rewrite O. ring. }
  destruct (mul_cancel0 _ _ H) as [E|E]; [left|right].
  - transitivity (v - 1 + 1); [ring|]. rewrite E. ring.
  - transitivity (v + 1 - 1); [ring|]. rewrite E. ring.
Qed.
Lemma u_ne0_v u v : e_on K d (u, v) -> u <> 0 -> 1 - v <> 0 /\ 1 + v <> 0.
Proof.
  cbn. intros O N.
  assert (H : (1 - v) * (1 + v) = 0 -> False).
  { intros H. assert (V : v * v = 1) by (transitivity (1 - (1 - v) * (1 + v)); [ring|]; rewrite H; ring).
    rewrite V in O. assert (Z : u * u * (1 - d) = 0).
    { transitivity (u * u + 1 - (1 + d * (u * u) * 1)); [ring|]. rewrite O. ring. }
    destruct (mul_cancel0 _ _ Z) as [Z1|Z1].
    - destruct (mul_cancel0 _ _ Z1); auto.
    - apply d_ne1. transitivity (1 - (1 - d)); [ring|]. rewrite Z1. ring. }
  split; intros E; apply H; rewrite E; ring.
Qed.
Theorem legacy_on P : e_on K d P -> w_on K (ew_a K s t) (ew_b K s t) (legacy K s t P).
Proof.
  destruct P as [u v]. intros O. unfold legacy. destruct (u =? 0) eqn:U.
  - destruct (v =? 1); cbn; [exact I|]. unfold ew_a, ew_b. ring.
  - apply eqb_ne in U. destruct (u_ne0_v u v O U) as [N1 N2]. cbn in *.
    set (w := s * ((1 + v) / (1 - v))).
    replace (s * ((1 + v) / ((1 - v) * u))) with (w / u) by (unfold w; field; auto).
    transitivity (w * (w * w + (three * t) * w + s * s)); [|unfold ew_a, ew_b; ring].
    rewrite t_of_s.
    assert (E : (1 - v) * (1 + v) = u * u * (1 - d * (v * v))).
    { transitivity (1 + d * (u * u) * (v * v) - v * v - d * (u * u) * (v * v)); [ring|]. rewrite <- O. ring. }
    rewrite d_of_s in E. unfold w.
    transitivity (s * s * ((1 + v) * (1 + v)) / (u * u * ((1 - v) * (1 - v)))); [field; auto|].
    transitivity (s * s * (1 + v) * (u * u * (1 - (1 - two * two * s) * (v * v))) / ((1 - v) * (1 - v) * (1 - v) * (u * u)));
      [rewrite <- E; field; auto|field; auto].
Qed.

(** ** The conversions *)
Definition e_two : F K * F K := (0, - (1)).
Theorem e2l_correct same c junk q P : k_S K c = s -> k_T K c = t -> e_on K d P -> ecoords q P -> P <> e_two ->
  coords (point_edwards2legacy K same c junk q) (legacy K s t P).
Proof.
  intros CS CT O H N. destruct P as [u v], q as [Xq Yq Tq Zq]. unfold ecoords in H. cbn [e_coords pX pY pT pZ] in H.
  destruct H as (NZ & -> & -> & ->). unfold coords, legacy. pose proof s_ne0 as NS.
  destruct (u =? 0) eqn:U.
  - apply f_eqb in U. destruct (u0_v u v O U) as [-> | ->]; [|exfalso; apply N; rewrite U; reflexivity].
    subst u. replace (1 =? 1) with true by (symmetry; apply f_eqb; reflexivity). cbn [w_coords].
    assert (EY : pY K (point_edwards2legacy K same c junk (mk_prj K (0 * Zq) (1 * Zq) (0 * 1 * Zq) Zq))
                 = two * s * (Zq * Zq)) by (destruct same; runed; rewrite CS; ring).
    rewrite EY. split; [|split; [repeat apply mul_ne0; auto|]]; destruct same; runed; ring.
  - apply eqb_ne in U. destruct (u_ne0_v u v O U) as [N1 N2]. cbn [w_coords].
    assert (EZ : pZ K (point_edwards2legacy K same c junk (mk_prj K (u * Zq) (v * Zq) (u * v * Zq) Zq))
                 = u * (1 - v) * (Zq * Zq)) by (destruct same; runed; ring).
    rewrite EZ. split; [repeat apply mul_ne0; auto|].
    destruct same; runed; rewrite ?CS, ?CT; (split; field; auto).
Qed.
Theorem e2l_two same c junk q : ecoords q e_two ->
  let r := point_edwards2legacy K same c junk q in pX K r = 0 /\ pY K r = 0 /\ pZ K r = 0.
Proof.
  intros H. destruct q as [Xq Yq Tq Zq]. unfold ecoords in H. cbn [e_two e_coords pX pY pT pZ] in H.
  destruct H as (NZ & -> & -> & ->). destruct same; runed; (split; [ring|split; ring]).
Qed.
Theorem l2e_correct c junk p P : k_S K c = s -> k_T K c = t -> e_on K d P -> acoords p (legacy K s t P) ->
  P <> e_zero K -> P <> e_two -> ecoords (point_legacy2edwards K c junk p) P.
Proof.
  intros CS CT O H NZ N2. destruct P as [u v], p as [Xp Yp Tp]. unfold legacy in H. pose proof s_ne0 as NS.
  destruct (u =? 0) eqn:U.
  { exfalso. apply f_eqb in U. destruct (u0_v u v O U) as [-> | ->]; [apply NZ|apply N2]; rewrite U; reflexivity. }
  apply eqb_ne in U. destruct (u_ne0_v u v O U) as [D1 D2]. cbn [acoords aX aY] in H. destruct H as [-> ->].
  unfold ecoords. cbn [e_coords].
  set (k := s * s * two * ((1 + v) / ((1 - v) * (1 - v) * u))).
  assert (NK : k <> 0).
  { unfold k. assert (((1 + v) / ((1 - v) * (1 - v) * u)) <> 0).
    { intros E. apply D2. transitivity (((1 + v) / ((1 - v) * (1 - v) * u)) * ((1 - v) * (1 - v) * u)); [field; auto|].
      rewrite E. ring. }
    repeat apply mul_ne0; assumption. }
  assert (EZ : pZ K (point_legacy2edwards K c junk (mk_aff K (s * ((1 + v) / (1 - v)) + t) (s * ((1 + v) / ((1 - v) * u))) Tp))
     = k * k).
  { runed. rewrite CS, CT. unfold k. field. auto. }
  rewrite EZ. split; [apply mul_ne0; assumption|]. unfold k.
  runed; rewrite CS, CT; (split; [field; auto|split; field; auto]).
Qed.
Theorem l2e_two c junk T : k_T K c = t -> let r := point_legacy2edwards K c junk (mk_aff K t 0 T) in
  pX K r = 0 /\ pY K r = 0 /\ pT K r = 0 /\ pZ K r = 0.
Proof. intros CT. runed. rewrite CT. repeat split; ring. Qed.
Lemma e_two_on : e_on K d e_two.
Proof. cbn. ring. Qed.
Lemma legacy_two : legacy K s t e_two = Finite t 0.
Proof.
  unfold legacy, e_two. replace (0 =? 0) with true by (symmetry; apply f_eqb; reflexivity).
  replace (- (1) =? 1) with false; [reflexivity|]. symmetry. apply eqb_ne. intros H. apply char2.
  transitivity (1 - - (1)); [ring|]. rewrite H. ring.
Qed.
End EdwardsCurve.
End Proofs.
