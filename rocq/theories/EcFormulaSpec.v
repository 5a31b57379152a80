(** Specification side of the curve arithmetic: fields, the chord-and-tangent law of a Weierstrass curve
    y^2 = x^3 + a x + b, the law of an Edwards curve x^2 + y^2 = 1 + d x^2 y^2, and the correspondence between
    the Edwards and the Weierstrass form of the two twisted curves (RFC 7836, 5.2).  Nothing here mentions the
    program. *)
From Coq Require Import Field_theory.

Record field := mk_field {
  F : Type;
  f0 : F; f1 : F;
  fadd : F -> F -> F; fmul : F -> F -> F; fsub : F -> F -> F; fopp : F -> F;
  fdiv : F -> F -> F; finv : F -> F;
  feqb : F -> F -> bool;
  f_theory : field_theory f0 f1 fadd fmul fsub fopp fdiv finv eq;
  f_eqb : forall x y, feqb x y = true <-> x = y }.

Declare Scope fld_scope.
Delimit Scope fld_scope with fld.

Section Curves.
Variable K : field.
Notation "0" := (f0 K) : fld_scope.
Notation "1" := (f1 K) : fld_scope.
Notation "x + y" := (fadd K x y) : fld_scope.
Notation "x * y" := (fmul K x y) : fld_scope.
Notation "x - y" := (fsub K x y) : fld_scope.
Notation "- x" := (fopp K x) : fld_scope.
Notation "x / y" := (fdiv K x y) : fld_scope.
Notation "x =? y" := (feqb K x y) (at level 70) : fld_scope.
Local Open Scope fld_scope.
Notation two := (1 + 1).
Notation three := (1 + 1 + 1).

(** ** Weierstrass curves *)
Inductive wpoint := Infinity | Finite (x y : F K).
Definition w_on (a b : F K) (P : wpoint) : Prop :=
  match P with Infinity => True | Finite x y => y * y = x * x * x + a * x + b end.
Definition w_opp (P : wpoint) : wpoint :=
  match P with Infinity => Infinity | Finite x y => Finite x (- y) end.
(** Sum of two points of the curve: the line through them with slope [l] meets the curve again in a third. *)
Definition w_third (l x1 y1 x2 : F K) : wpoint :=
  let x3 := l * l - x1 - x2 in Finite x3 (l * (x1 - x3) - y1).
Definition w_add (a : F K) (P Q : wpoint) : wpoint :=
  match P, Q with
  | Infinity, _ => Q
  | _, Infinity => P
  | Finite x1 y1, Finite x2 y2 =>
      if x1 =? x2 then
        if y1 =? - y2 then Infinity
        else w_third ((three * (x1 * x1) + a) / (two * y1)) x1 y1 x1
      else w_third ((y1 - y2) / (x1 - x2)) x1 y1 x2
  end.
(** No point of order two: the cubic has no root. *)
Definition w_odd (a b : F K) : Prop := forall x, x * x * x + a * x + b <> 0.

(** Homogeneous coordinates (X : Y : Z) of a point. *)
Definition w_coords (X Y Z : F K) (P : wpoint) : Prop :=
  match P with
  | Infinity => X = 0 /\ Y <> 0 /\ Z = 0
  | Finite x y => Z <> 0 /\ X = x * Z /\ Y = y * Z
  end.

(** ** Edwards curves *)
Definition e_on (d : F K) (P : F K * F K) : Prop :=
  let '(x, y) := P in x * x + y * y = 1 + d * (x * x) * (y * y).
Definition e_opp (P : F K * F K) : F K * F K := let '(x, y) := P in (- x, y).
Definition e_zero : F K * F K := (0, 1).
Definition e_add (d : F K) (P Q : F K * F K) : F K * F K :=
  let '(x1, y1) := P in
  let '(x2, y2) := Q in
  ((x1 * y2 + x2 * y1) / (1 + d * x1 * x2 * y1 * y2), (y1 * y2 - x1 * x2) / (1 - d * x1 * x2 * y1 * y2)).
Definition nonsquare (d : F K) : Prop := forall x, x * x <> d.
(** Extended coordinates (X : Y : T : Z), T = XY/Z. *)
Definition e_coords (X Y T Z : F K) (P : F K * F K) : Prop :=
  let '(x, y) := P in Z <> 0 /\ X = x * Z /\ Y = y * Z /\ T = x * y * Z.

(** RFC 7836, 5.2: s = (1 - d)/4, t = (1 + d)/6, and the point (u, v) of the Edwards curve is the point
    (s(1 + v)/(1 - v) + t, s(1 + v)/((1 - v) u)) of the Weierstrass curve; the neutral point (0, 1) is the point
    at infinity, and the point (0, -1) of order two is (t, 0). *)
Definition ew_params (s t d : F K) : Prop :=
  two * two * s = 1 - d /\ two * three * t = 1 + d.
Definition ew_a (s t : F K) : F K := s * s - three * (t * t).
Definition ew_b (s t : F K) : F K := two * (t * t * t) - t * (s * s).
Definition legacy (s t : F K) (P : F K * F K) : wpoint :=
  let '(u, v) := P in
  if u =? 0 then (if v =? 1 then Infinity else Finite t 0)
  else Finite (s * ((1 + v) / (1 - v)) + t) (s * ((1 + v) / ((1 - v) * u))).
End Curves.
Arguments Infinity {K}.
Arguments Finite {K} x y.
