(** Identities between rational functions behind [EcLegacyProofs]: the chord and the tangent of the Weierstrass
    form in terms of the Edwards coordinates.  [p] stands for the product of the two Edwards abscissas. *)
From Coq Require Import Ring Field.
Section Raw.
Variables (R : Type) (rO rI : R) (radd rmul rsub : R -> R -> R) (ropp : R -> R) (rdiv : R -> R -> R) (rinv : R -> R).
Hypothesis th : field_theory rO rI radd rmul rsub ropp rdiv rinv eq.
Add Field Rfield : th.
Notation "0" := rO. Notation "1" := rI.
Infix "+" := radd. Infix "*" := rmul. Infix "-" := rsub. Infix "/" := rdiv.
Notation "- x" := (ropp x).
Notation two := (1 + 1).
Notation three := (1 + 1 + 1).
Variable d : R.
Hypotheses (N2 : two <> 0) (N3 : three <> 0).
Notation s := ((1 - d) / (two * two)).
Notation t := ((1 + d) / (two * three)).

Lemma rmul_ne0 x y : x <> 0 -> y <> 0 -> x * y <> 0.
Proof. intros A B H. apply B. transitivity ((x * y) / x); [field; exact A|]. rewrite H. field. exact A. Qed.
Lemma three' : 1 + two <> 0.
Proof. intros H. apply N3. rewrite <- H. ring. Qed.

Section Chord.
Variables v1 v2 p : R.
Notation D1 := (1 - d * (v1 * v1)).
Notation D2 := (1 - d * (v2 * v2)).
Notation q1 := ((1 - v1 * v1) / D1).
Notation q2 := ((1 - v2 * v2) / D2).
Notation c := (q1 * q2).
Hypothesis HP : p * p = c.
Hypotheses (NP : p <> 0) (ND1 : D1 <> 0) (ND2 : D2 <> 0).
Hypotheses (A1 : 1 - v1 <> 0) (B1 : 1 + v1 <> 0) (A2 : 1 - v2 <> 0) (B2 : 1 + v2 <> 0) (V : v1 - v2 <> 0).
Notation m1 := ((1 + v1) / (1 - v1)).
Notation m2 := ((1 + v2) / (1 - v2)).
Notation L := ((m1 - m2 * (q1 / p)) / (m1 - m2)).
Notation a0 := (1 - v1 * v2). Notation a1 := (1 - d * v1 * v2).
Notation n0 := (1 + v1 * v2). Notation n1 := (1 + d * v1 * v2).
Notation Dn := (a0 + a1 * p).
Notation Nn := (n0 - n1 * p).
Hypothesis C3 : Dn <> 0.
Notation R0 := ((m1 * m1 / q1 + m2 * m2 / q2) / ((m1 - m2) * (m1 - m2)) - s * (m1 + m2) - three * t).
Notation R1 := (- (two * m1 * m2 / ((m1 - m2) * (m1 - m2)))).
Lemma B12 : 1 - v1 * v1 <> 0.
Proof.
  intros H. apply A1. transitivity ((1 - v1 * v1) / (1 + v1)); [field; assumption|]. rewrite H. field. assumption.
Qed.
Lemma B22 : 1 - v2 * v2 <> 0.
Proof.
  intros H. apply A2. transitivity ((1 - v2 * v2) / (1 + v2)); [field; assumption|]. rewrite H. field. assumption.
Qed.
Lemma M12 : (1 + v1) * (1 - v2) - (1 + v2) * (1 - v1) <> 0.
Proof.
  intros H. apply V. transitivity (((1 + v1) * (1 - v2) - (1 + v2) * (1 - v1)) / two); [field; assumption|].
  rewrite H. field. assumption.
Qed.
Ltac nzs := pose proof B12; pose proof B22; pose proof M12; pose proof three';
  repeat match goal with |- _ /\ _ => split end; repeat apply rmul_ne0; assumption.
Lemma i1 : R0 * a0 + R1 * a1 - s * n0 = 0.
Proof. field. nzs. Qed.
Lemma i2 : R1 * a0 + c * (R0 * a1 + s * n1) = 0.
Proof. field. nzs. Qed.
Lemma raw_x0 : L * L / q1 - (s * m1 + t) - (s * m2 + t) - t = R0 + R1 / p.
Proof.
  transitivity ((m1 * m1 / q1 + m2 * m2 / q1 * ((q1 * q1) / (p * p)) - two * m1 * m2 / p) / ((m1 - m2) * (m1 - m2))
                - s * (m1 + m2) - three * t); [field; nzs|].
  rewrite HP. field. nzs.
Qed.
Lemma raw_x : L * L / q1 - (s * m1 + t) - (s * m2 + t) = s * (Nn / Dn) + t.
Proof.
  transitivity (R0 + R1 / p + t); [rewrite <- raw_x0; ring|].
  generalize i1 i2. generalize R0 R1. generalize s t. intros s' t' x0 x1 I1 I2.
  assert (E : (x0 * p + x1) * Dn = s' * p * Nn).
  { transitivity ((x1 * a0 + (p * p) * (x0 * a1 + s' * n1)) + p * (x0 * a0 + x1 * a1 - s' * n0) + s' * p * Nn); [ring|].
    rewrite HP, I1, I2. ring. }
  transitivity (((x0 * p + x1) * Dn) / (p * Dn) + t'); [field; nzs|]. rewrite E. field. nzs.
Qed.
Notation e0 := (m1 * a0 - n0). Notation e1 := (m1 * a1 + n1).
Notation E0 := (m1 * e1 * c - m2 * q1 * e0 - m1 * (m1 - m2) * a1 * c).
Notation E1 := (m1 * e0 - m2 * q1 * e1 - m1 * (m1 - m2) * a0).
Lemma j0 : E0 * (q1 * v2) + E1 * v1 * c = (m1 - m2) * q1 * c * (d * v1 * v2 * n0 - n1).
Proof. field. nzs. Qed.
Lemma j1 : E0 * v1 + E1 * (q1 * v2) = (m1 - m2) * q1 * (n0 - d * v1 * v2 * n1 * c).
Proof. field. nzs. Qed.
Hypothesis U3 : q1 * v2 + p * v1 <> 0.
Lemma raw_y : L * (m1 - Nn / Dn) - m1 = Nn / Dn * (q1 * (1 + d * p * v1 * v2) / (q1 * v2 + p * v1)).
Proof.
  assert (NM : m1 - m2 <> 0).
  { intros H. apply M12. transitivity ((m1 - m2) * ((1 - v1) * (1 - v2))); [field; nzs|]. rewrite H. ring. }
  pose proof j0 as J0. pose proof j1 as J1. revert J0 J1 HP U3 NM. generalize q1 q2. generalize m1 m2.
  intros x1 x2 z1 z2 J0 J1 HP' U3' NM.
  assert (E : ((x1 * p - x2 * z1) * (x1 * Dn - Nn) - x1 * (x1 - x2) * p * Dn) * (z1 * v2 + p * v1)
              = (x1 - x2) * p * Nn * (z1 * (1 + d * p * v1 * v2))).
  { set (f0 := x1 * a0 - n0) in *. set (f1 := x1 * a1 + n1) in *.
    transitivity (((x1 * f1 * (p * p) - x2 * z1 * f0 - x1 * (x1 - x2) * a1 * (p * p)) * (z1 * v2)
                   + (x1 * f0 - x2 * z1 * f1 - x1 * (x1 - x2) * a0) * v1 * (p * p))
                  + p * ((x1 * f1 * (p * p) - x2 * z1 * f0 - x1 * (x1 - x2) * a1 * (p * p)) * v1
                         + (x1 * f0 - x2 * z1 * f1 - x1 * (x1 - x2) * a0) * (z1 * v2))); [unfold f0, f1; ring|].
    rewrite HP', J0, J1. rewrite <- HP'. ring. }
  transitivity ((((x1 * p - x2 * z1) * (x1 * Dn - Nn) - x1 * (x1 - x2) * p * Dn) * (z1 * v2 + p * v1))
                / ((x1 - x2) * p * Dn * (z1 * v2 + p * v1))); [field; nzs|].
  rewrite E. field. nzs.
Qed.
End Chord.

Section Tangent.
Variable v : R.
Notation D := (1 - d * (v * v)).
Notation q := ((1 - v * v) / D).
Notation m := ((1 + v) / (1 - v)).
Hypotheses (ND : D <> 0) (A : 1 - v <> 0) (B : 1 + v <> 0) (S0 : 1 - d <> 0).
Notation x := (s * m + t).
Notation a := (s * s - three * (t * t)).
Notation M := ((three * (x * x) + a) / (two * (s * m))).
Lemma Bv : 1 - v * v <> 0.
Proof. intros H. apply A. transitivity ((1 - v * v) / (1 + v)); [field; assumption|]. rewrite H. field. assumption. Qed.
Ltac nzs := pose proof Bv; pose proof three';
  repeat match goal with |- _ /\ _ => split end; repeat apply rmul_ne0; assumption.
Notation p := q.
Notation Nn := (1 + v * v - (1 + d * v * v) * p).
Notation Dn := (1 - v * v + (1 - d * v * v) * p).
Hypothesis C3 : Dn <> 0.
Lemma C3' : (1 - v * v) * D + (1 - d * v * v) * (1 - v * v) <> 0.
Proof. intros H. apply C3. transitivity (((1 - v * v) * D + (1 - d * v * v) * (1 - v * v)) / D); [field; assumption|].
  rewrite H. field. assumption. Qed.
Lemma raw_tx : q * (M * M) - x - x = s * (Nn / Dn) + t.
Proof. field. pose proof C3'. nzs. Qed.
Hypothesis NV : v <> 0.
Lemma raw_ty : q * M * (s * m - s * (Nn / Dn)) - s * m = s * (Nn / Dn) * ((1 + d * p * v * v) / (two * v)).
Proof. field. pose proof C3'. nzs. Qed.
Lemma raw_two : 1 / q - t - (s * m + t) = s / m + t.
Proof. field. nzs. Qed.
End Tangent.
End Raw.
