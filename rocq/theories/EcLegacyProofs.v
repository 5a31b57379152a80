(** The Weierstrass form of an Edwards curve has the same sums: [legacy] is a homomorphism. *)
From Coq Require Import Ring Field List Bool.
From Verif Require Import EcFormulaSpec EcFormulaModel EcFormulaProofs EcLegacyRaw.
Import ListNotations.

Section Legacy.
Variable K : field.
Add Field Kfield2 : (f_theory K).
Notation "0" := (f0 K) : fld_scope.
Notation "1" := (f1 K) : fld_scope.
Notation "x + y" := (fadd K x y) : fld_scope.
Notation "x * y" := (fmul K x y) : fld_scope.
Notation "x - y" := (fsub K x y) : fld_scope.
Notation "- x" := (fopp K x) : fld_scope.
Notation "x / y" := (fdiv K x y) : fld_scope.
Notation "x =? y" := (feqb K x y) (at level 70) : fld_scope.
Local Open Scope fld_scope.
Notation two := (1 + 1).
Notation three := (1 + 1 + 1).

Ltac fnz := cbn [F f0 f1 fadd fmul fsub fopp fdiv finv feqb]; repeat match goal with |- _ /\ _ => split end; try assumption; repeat apply mul_ne0; try assumption.
Variables d s t : F K.
Hypothesis dns : nonsquare K d.
Hypothesis char2 : two <> 0.
Hypothesis char3 : three <> 0.
Hypothesis st : ew_params K s t d.
Notation a := (ew_a K s t).

Lemma s_val : s = (1 - d) / (two * two).
Proof. destruct st as [H _]. rewrite <- H. field. fnz. Qed.
Lemma char3' : 1 + two <> 0.
Proof. intros H. apply char3. rewrite <- H. ring. Qed.
Lemma t_val : t = (1 + d) / (two * three).
Proof. pose proof char3'. destruct st as [_ H1]. rewrite <- H1. field. fnz. Qed.
Lemma D_ne0 v : 1 - d * (v * v) <> 0.
Proof.
  intros H. destruct (feqb K v 0) eqn:V.
  - apply f_eqb in V. subst v. apply (one_ne0 K). rewrite <- H. ring.
  - apply eqb_ne in V. apply (dns (1 / v)).
    transitivity ((1 - (1 - d * (v * v))) / (v * v)); [rewrite H|]; field; auto.
Qed.
Lemma usq u v : e_on K d (u, v) -> u * u = (1 - v * v) / (1 - d * (v * v)).
Proof.
  cbn. intros O. pose proof (D_ne0 v). transitivity ((u * u * (1 - d * (v * v))) / (1 - d * (v * v))); [field; auto|].
  f_equal. transitivity (u * u + v * v - d * (u * u) * (v * v) - v * v); [ring|]. rewrite O. ring.
Qed.
Lemma mul_eq0_sq u v : u * u = v * v -> u = v \/ u = - v.
Proof.
  intros H. assert (E : (u - v) * (u + v) = 0) by (transitivity (u * u - v * v); [ring|rewrite H; ring]).
  destruct (mul_cancel0 K _ _ E) as [Z|Z]; [left|right].
  - transitivity (u - v + v); [ring|]. rewrite Z. ring.
  - transitivity (u + v - v); [ring|]. rewrite Z. ring.
Qed.
Lemma legacy_gen u v : u <> 0 -> legacy K s t (u, v) = Finite (s * ((1 + v) / (1 - v)) + t) (s * ((1 + v) / ((1 - v) * u))).
Proof. intros H. unfold legacy. apply eqb_ne in H. rewrite H. reflexivity. Qed.

Lemma fin_eq x y x' y' : x = x' -> y = y' -> @Finite K x y = Finite x' y'.
Proof. intros -> ->. reflexivity. Qed.


Notation th := (f_theory K).
Lemma S0 : 1 - d <> 0.
Proof. intros H. apply (d_ne1 K d dns). transitivity (1 - (1 - d)); [ring|]. rewrite H. ring. Qed.
Lemma s0 : s <> 0.
Proof. exact (s_ne0 K d dns s t st). Qed.
Lemma div_ne0 x y : x <> 0 -> y <> 0 -> x / y <> 0.
Proof. intros A B H. apply A. transitivity (x / y * y); [field; assumption|]. rewrite H. ring. Qed.

(** Distinct ordinates: the chord. *)
Lemma chord_generic u1 v1 u2 v2 :
  e_on K d (u1, v1) -> e_on K d (u2, v2) -> u1 <> 0 -> u2 <> 0 -> v1 <> v2 -> u1 * v2 + u2 * v1 <> 0 ->
  w_add K a (legacy K s t (u1, v1)) (legacy K s t (u2, v2)) = legacy K s t (e_add K d (u1, v1) (u2, v2)).
Proof.
  intros O1 O2 U1 U2 V U3.
  destruct (u_ne0_v K d dns u1 v1 O1 U1) as [A1 B1]. destruct (u_ne0_v K d dns u2 v2 O2 U2) as [A2 B2].
  pose proof (e_plus K d dns char2 u1 v1 u2 v2 O1 O2) as NP. pose proof (e_minus K d dns char2 u1 v1 u2 v2 O1 O2) as NM.
  pose proof (e_add_on K d dns char2 (u1, v1) (u2, v2) O1 O2) as O3.
  cbn [e_add] in *. set (u3 := (u1 * v2 + u2 * v1) / (1 + d * u1 * u2 * v1 * v2)) in *.
  set (v3 := (v1 * v2 - u1 * u2) / (1 - d * u1 * u2 * v1 * v2)) in *.
  assert (N3 : u3 <> 0) by (apply div_ne0; assumption).
  destruct (u_ne0_v K d dns u3 v3 O3 N3) as [A3 B3].
  pose proof s0 as NS.
  set (m1 := (1 + v1) / (1 - v1)). set (m2 := (1 + v2) / (1 - v2)).
  assert (DV : v1 - v2 <> 0) by (apply sub_ne0; exact V).
  assert (NMM : m1 - m2 <> 0).
  { intros E. apply DV. transitivity ((m1 - m2) * ((1 - v1) * (1 - v2)) / two); [unfold m1, m2; field; fnz|].
    rewrite E. field. fnz. }
  assert (NX : (s * m1 + t =? s * m2 + t) = false).
  { apply eqb_ne. intros E. apply (mul_ne0 K s (m1 - m2)); [assumption|assumption|].
    transitivity (s * m1 + t - (s * m2 + t)); [ring|]. rewrite E. ring. }
  rewrite !legacy_gen by assumption. cbn [w_add]. unfold w_third. fold m1 m2. rewrite NX.
  pose proof (D_ne0 v1) as ND1. pose proof (D_ne0 v2) as ND2.
  pose proof (usq u1 v1 O1) as Q1. pose proof (usq u2 v2 O2) as Q2.
  set (p := u1 * u2). assert (P0 : p <> 0) by (apply mul_ne0; assumption).
  assert (HP : p * p = ((1 - v1 * v1) / (1 - d * (v1 * v1))) * ((1 - v2 * v2) / (1 - d * (v2 * v2)))).
  { rewrite <- Q1, <- Q2. unfold p. ring. }
  assert (C3 : 1 - v1 * v2 + (1 - d * v1 * v2) * p <> 0).
  { intros E. apply A3. unfold v3.
    transitivity ((1 - v1 * v2 + (1 - d * v1 * v2) * p) / (1 - d * u1 * u2 * v1 * v2)); [unfold p; field; fnz|].
    rewrite E. field. fnz. }
  pose proof (raw_x _ _ _ _ _ _ _ _ _ th d char2 char3 v1 v2 p HP P0 ND1 ND2 A1 B1 A2 B2 DV C3) as RX.
  assert (C4 : (1 - v1 * v1) / (1 - d * (v1 * v1)) * v2 + p * v1 <> 0).
  { rewrite <- Q1. intros E. apply U3. transitivity ((u1 * u1 * v2 + p * v1) / u1); [unfold p; field; fnz|].
    rewrite E. field. fnz. }
  pose proof (raw_y _ _ _ _ _ _ _ _ _ th d char2 char3 v1 v2 p HP P0 ND1 ND2 A1 B1 A2 B2 DV C3 C4) as RY.
  rewrite <- s_val, <- t_val, <- Q1 in RX. rewrite <- Q1 in RY. fold m1 m2 in RX, RY.
  set (m3 := (1 + v1 * v2 - (1 + d * v1 * v2) * p) / (1 - v1 * v2 + (1 - d * v1 * v2) * p)) in *.
  set (L := (m1 - m2 * (u1 * u1 / p)) / (m1 - m2)) in *.
  assert (EL : (s * ((1 + v1) / ((1 - v1) * u1)) - s * ((1 + v2) / ((1 - v2) * u2))) / (s * m1 + t - (s * m2 + t)) = L / u1).
  { unfold L. transitivity ((m1 / u1 - m2 / u2) / (m1 - m2)).
    - unfold m1, m2 at 1 3. fold m1 m2.
      transitivity ((s * m1 / u1 - s * m2 / u2) / (s * (m1 - m2))); [|field; fnz].
      f_equal; [unfold m1, m2; field; fnz|ring].
    - unfold p. field. fnz. }
  rewrite EL.
  assert (EX : (L / u1) * (L / u1) - (s * m1 + t) - (s * m2 + t) = s * m3 + t).
  { rewrite <- RX. field. fnz. }
  rewrite EX.
  assert (E3 : (1 + v3) / (1 - v3) = m3).
  { unfold m3, v3, p. field. fnz. }
  apply fin_eq; [rewrite E3; reflexivity|].
  transitivity (s * ((L * (m1 - m3) - m1) / u1)); [unfold m1; field; fnz|]. fold m1. rewrite RY.
  rewrite <- Q1 in C4. unfold p in C4.
  transitivity (s * (m3 / u3)); [unfold u3, p; field; fnz|].
  rewrite <- E3. field. fnz.
Qed.

(** Sum of two points symmetric with respect to the point of order two. *)
Lemma two_inv u v : e_on K d (u, v) -> u <> 0 ->
  1 / u * (1 / u) - t - (s * ((1 + v) / (1 - v)) + t) = s * ((1 - v) / (1 + v)) + t.
Proof.
  intros O U. destruct (u_ne0_v K d dns u v O U) as [A B]. pose proof (D_ne0 v) as ND.
  pose proof (raw_two _ _ _ _ _ _ _ _ _ th d char2 char3 v ND A B) as H.
  rewrite <- (usq u v O), <- s_val, <- t_val in H.
  transitivity (1 / (u * u) - t - (s * ((1 + v) / (1 - v)) + t)); [field; fnz|]. rewrite H. field. fnz.
Qed.
Lemma chord_mirror u v : e_on K d (u, v) -> u <> 0 -> v <> 0 ->
  w_add K a (legacy K s t (u, v)) (legacy K s t (u, - v)) = Finite t 0.
Proof.
  intros O U V. destruct (u_ne0_v K d dns u v O U) as [A B]. pose proof s0 as NS.
  rewrite !legacy_gen by assumption. cbn [w_add]. unfold w_third.
  set (m1 := (1 + v) / (1 - v)). set (m2 := (1 + - v) / (1 - - v)).
  assert (E2 : m2 = (1 - v) / (1 + v)) by (unfold m2; field; fnz).
  assert (NB : 1 - - v <> 0) by (intros H; apply B; rewrite <- H; ring).
  assert (NMM : m1 - m2 <> 0).
  { intros E. apply (mul_ne0 K (two * two) v); [fnz|exact V|].
    transitivity ((m1 - m2) * ((1 - v) * (1 + v))); [rewrite E2; unfold m1; field; fnz|]. rewrite E. ring. }
  assert (NX : (s * m1 + t =? s * m2 + t) = false).
  { apply eqb_ne. intros E. apply (mul_ne0 K s (m1 - m2)); [assumption|assumption|].
    transitivity (s * m1 + t - (s * m2 + t)); [ring|]. rewrite E. ring. }
  rewrite NX.
  assert (EL : (s * ((1 + v) / ((1 - v) * u)) - s * ((1 + - v) / ((1 - - v) * u))) / (s * m1 + t - (s * m2 + t)) = 1 / u).
  { transitivity ((s * m1 / u - s * m2 / u) / (s * (m1 - m2))); [|field; fnz].
    f_equal; [unfold m1, m2; field; fnz|ring]. }
  rewrite EL. pose proof (two_inv u v O U) as H. fold m1 in H. rewrite <- E2 in H.
  assert (EX : 1 / u * (1 / u) - (s * m1 + t) - (s * m2 + t) = t).
  { transitivity (1 / u * (1 / u) - t - (s * m1 + t) - (s * m2 + t) + t); [ring|]. rewrite H. ring. }
  rewrite EX. apply fin_eq; [reflexivity|]. unfold m1. field. fnz.
Qed.
Lemma add_two_l u v : e_on K d (u, v) -> u <> 0 ->
  w_add K a (Finite t 0) (legacy K s t (u, v)) = legacy K s t (- u, - v).
Proof.
  intros O U. destruct (u_ne0_v K d dns u v O U) as [A B]. pose proof s0 as NS.
  assert (NU : - u <> 0) by (apply opp_ne0; assumption).
  assert (NB : 1 - - v <> 0) by (intros H; apply B; rewrite <- H; ring).
  rewrite !legacy_gen by assumption. cbn [w_add]. unfold w_third.
  set (m := (1 + v) / (1 - v)).
  assert (NMM : m <> 0) by (apply div_ne0; assumption).
  assert (NSM : s * m <> 0) by (apply mul_ne0; assumption).
  assert (NX : (t =? s * m + t) = false).
  { apply eqb_ne. intros E. apply NSM. transitivity (s * m + t - t); [ring|]. rewrite <- E. ring. }
  rewrite NX.
  assert (EL : (0 - s * ((1 + v) / ((1 - v) * u))) / (t - (s * m + t)) = 1 / u).
  { transitivity ((- (s * m) / u) / (- (s * m))); [f_equal; [unfold m; field; fnz|ring]|].
    field. split; [assumption|apply opp_ne0; assumption]. }
  rewrite EL. pose proof (two_inv u v O U) as H. fold m in H. rewrite H.
  apply fin_eq; field; fnz.
Qed.
Lemma add_two_r u v : e_on K d (u, v) -> u <> 0 ->
  w_add K a (legacy K s t (u, v)) (Finite t 0) = legacy K s t (- u, - v).
Proof.
  intros O U. destruct (u_ne0_v K d dns u v O U) as [A B]. pose proof s0 as NS.
  assert (NU : - u <> 0) by (apply opp_ne0; assumption).
  assert (NB : 1 - - v <> 0) by (intros H; apply B; rewrite <- H; ring).
  rewrite !legacy_gen by assumption. cbn [w_add]. unfold w_third.
  set (m := (1 + v) / (1 - v)).
  assert (NMM : m <> 0) by (apply div_ne0; assumption).
  assert (NSM : s * m <> 0) by (apply mul_ne0; assumption).
  assert (NX : (s * m + t =? t) = false).
  { apply eqb_ne. intros E. apply NSM. transitivity (s * m + t - t); [ring|]. rewrite E. ring. }
  rewrite NX.
  assert (EL : (s * ((1 + v) / ((1 - v) * u)) - 0) / (s * m + t - t) = 1 / u).
  { transitivity (((s * m) / u) / (s * m)); [f_equal; [unfold m; field; fnz|ring]|]. field. fnz. }
  rewrite EL. pose proof (two_inv u v O U) as H. fold m in H.
  assert (EX : 1 / u * (1 / u) - (s * m + t) - t = s * ((1 - v) / (1 + v)) + t) by (rewrite <- H; ring).
  rewrite EX. apply fin_eq; [|unfold m]; field; fnz.
Qed.
(** Doubling. *)
Lemma y_nonzero u v : e_on K d (u, v) -> u <> 0 -> s * ((1 + v) / ((1 - v) * u)) <> 0.
Proof.
  intros O U. destruct (u_ne0_v K d dns u v O U) as [A B]. apply mul_ne0; [exact s0|]. apply div_ne0; [exact B|].
  apply mul_ne0; assumption.
Qed.
Lemma not_opp y : y <> 0 -> (y =? - y) = false.
Proof.
  intros N. apply eqb_ne. intros E. apply (mul_ne0 K two y char2 N).
  transitivity (y + y); [ring|]. rewrite E at 2. ring.
Qed.
Lemma eqb_refl x : (x =? x) = true.
Proof. apply f_eqb. reflexivity. Qed.
Lemma tangent_generic u v : e_on K d (u, v) -> u <> 0 -> v <> 0 ->
  w_add K a (legacy K s t (u, v)) (legacy K s t (u, v)) = legacy K s t (e_add K d (u, v) (u, v)).
Proof.
  intros O U V. destruct (u_ne0_v K d dns u v O U) as [A B]. pose proof s0 as NS. pose proof (D_ne0 v) as ND.
  pose proof (e_plus K d dns char2 u v u v O O) as NP. pose proof (e_minus K d dns char2 u v u v O O) as NM.
  pose proof (e_add_on K d dns char2 (u, v) (u, v) O O) as O3.
  cbn [e_add] in *. set (u3 := (u * v + u * v) / (1 + d * u * u * v * v)) in *.
  set (v3 := (v * v - u * u) / (1 - d * u * u * v * v)) in *.
  assert (N3 : u3 <> 0).
  { apply div_ne0; [|exact NP]. intros E. apply (mul_ne0 K two (u * v) char2); [apply mul_ne0; assumption|].
    rewrite <- E. ring. }
  destruct (u_ne0_v K d dns u3 v3 O3 N3) as [A3 B3].
  pose proof (usq u v O) as Q.
  assert (C3 : 1 - v * v + (1 - d * v * v) * ((1 - v * v) / (1 - d * (v * v))) <> 0).
  { rewrite <- Q. intros E. apply A3. unfold v3.
    transitivity ((1 - v * v + (1 - d * v * v) * (u * u)) / (1 - d * u * u * v * v)); [field; fnz|].
    rewrite E. field. fnz. }
  pose proof (raw_tx _ _ _ _ _ _ _ _ _ th d char2 char3 v ND A B S0 C3) as RX.
  pose proof (raw_ty _ _ _ _ _ _ _ _ _ th d char2 char3 v ND A B S0 C3 V) as RY.
  rewrite <- s_val, <- t_val, <- Q in RX. rewrite <- s_val, <- t_val, <- Q in RY.
  rewrite !legacy_gen by assumption. cbn [w_add]. rewrite eqb_refl, not_opp by (apply y_nonzero; assumption).
  unfold w_third.
  set (m := (1 + v) / (1 - v)) in *.
  assert (NMM : m <> 0) by (apply div_ne0; assumption).
  set (m3 := (1 + v * v - (1 + d * v * v) * (u * u)) / (1 - v * v + (1 - d * v * v) * (u * u))) in *.
  change (ew_a K s t) with (s * s - three * (t * t)).
  set (X := three * ((s * m + t) * (s * m + t)) + (s * s - three * (t * t))) in *.
  set (M := X / (two * (s * m))) in *.
  assert (EL : X / (two * (s * ((1 + v) / ((1 - v) * u)))) = u * M).
  { unfold M. transitivity (X / (two * (s * m / u))); [f_equal; unfold m; field; fnz|field; fnz]. }
  rewrite EL.
  assert (EX : u * M * (u * M) - (s * m + t) - (s * m + t) = s * m3 + t) by (rewrite <- RX; ring).
  rewrite EX. rewrite <- Q in C3.
  assert (E3 : (1 + v3) / (1 - v3) = m3).
  { unfold m3, v3. field. fnz. }
  apply fin_eq; [rewrite E3; reflexivity|].
  transitivity ((u * u * M * (s * m - s * m3) - s * m) / u); [unfold m; field; fnz|]. fold m. rewrite RY.
  transitivity (s * (m3 / u3)); [|rewrite <- E3; field; fnz].
  assert (EU : u3 = two * (u * v) / (1 + d * (u * u) * v * v)).
  { unfold u3. assert (1 + d * (u * u) * v * v <> 0) by (intros H; apply NP; rewrite <- H; ring). field. fnz. }
  assert (NP' : 1 + d * (u * u) * v * v <> 0) by (intros H; apply NP; rewrite <- H; ring).
  rewrite EU. field. fnz.
Qed.
Lemma tangent_v0 u : e_on K d (u, 0) -> u <> 0 ->
  w_add K a (legacy K s t (u, 0)) (legacy K s t (u, 0)) = Finite t 0.
Proof.
  intros O U. pose proof s0 as NS. pose proof (one_ne0 K) as N1.
  rewrite !legacy_gen by assumption. cbn [w_add]. rewrite eqb_refl, not_opp by (apply y_nonzero; assumption).
  unfold w_third. cbn [e_on] in O. assert (Q : u * u = 1).
  { transitivity (u * u + 0 * 0); [ring|]. rewrite O. ring. }
  assert (N1' : 1 - 0 <> 0) by (intros H; apply N1; rewrite <- H; ring).
  set (X := s * ((1 + 0) / (1 - 0)) + t). assert (EX : X = s + t) by (unfold X; field; fnz).
  assert (EL : (three * (X * X) + ew_a K s t) / (two * (s * ((1 + 0) / ((1 - 0) * u)))) = u * (two * s + three * t)).
  { rewrite EX. unfold ew_a. field. fnz. }
  rewrite EL, EX. assert (ET : three * t = 1 - two * s) by (apply (t_of_s K d); assumption).
  rewrite ET.
  assert (E1 : u * (two * s + (1 - two * s)) = u) by ring. rewrite E1.
  assert (E2 : u * u - (s + t) - (s + t) = t).
  { rewrite Q. transitivity (1 - two * s - two * t); [ring|]. rewrite <- ET. ring. }
  rewrite E2. apply fin_eq; [reflexivity|].
  transitivity (s * (u * u - 1) / u); [field; fnz|]. rewrite Q. field. fnz.
Qed.

Theorem legacy_add P Q : e_on K d P -> e_on K d Q ->
  legacy K s t (e_add K d P Q) = w_add K a (legacy K s t P) (legacy K s t Q).
Proof.
  intros O1 O2. destruct P as [u1 v1], Q as [u2 v2].
  assert (Z1 : 1 + 0 <> 0) by (intros H; apply (one_ne0 K); rewrite <- H; ring).
  assert (M1 : (- (1) =? 1) = false).
  { apply eqb_ne. intros H. apply char2. transitivity (1 - - (1)); [ring|]. rewrite H. ring. }
  destruct (u1 =? 0) eqn:U1.
  - apply f_eqb in U1. destruct (u0_v K d u1 v1 O1 U1) as [-> | ->]; subst u1.
    + unfold legacy at 2. rewrite !eqb_refl. cbn [w_add]. f_equal. cbn [e_add].
      assert (1 + d * 0 * u2 * 1 * v2 = 1) as -> by ring. assert (1 - d * 0 * u2 * 1 * v2 = 1) as -> by ring.
      pose proof (one_ne0 K). f_equal; field; fnz.
    + assert (E1 : legacy K s t (0, - (1)) = Finite t 0) by (unfold legacy; rewrite eqb_refl, M1; reflexivity).
      rewrite E1. cbn [e_add].
      assert (1 + d * 0 * u2 * - (1) * v2 = 1) as -> by ring. assert (1 - d * 0 * u2 * - (1) * v2 = 1) as -> by ring.
      pose proof (one_ne0 K) as N1.
      replace ((0 * v2 + u2 * - (1)) / 1) with (- u2) by (field; fnz).
      replace ((- (1) * v2 - 0 * u2) / 1) with (- v2) by (field; fnz).
      destruct (u2 =? 0) eqn:U2.
      * apply f_eqb in U2. destruct (u0_v K d u2 v2 O2 U2) as [-> | ->]; subst u2.
        -- replace (- 0) with 0 by ring. rewrite E1. unfold legacy. rewrite !eqb_refl. reflexivity.
        -- rewrite E1. cbn [w_add]. rewrite eqb_refl. replace (- 0) with 0 by ring. rewrite eqb_refl.
           replace (- - (1)) with 1 by ring. unfold legacy. rewrite !eqb_refl. reflexivity.
      * apply eqb_ne in U2. symmetry. apply add_two_l; assumption.
  - apply eqb_ne in U1. destruct (u2 =? 0) eqn:U2.
    + apply f_eqb in U2. destruct (u0_v K d u2 v2 O2 U2) as [-> | ->]; subst u2; pose proof (one_ne0 K) as N1.
      * replace (legacy K s t (0, 1)) with (@Infinity K) by (unfold legacy; rewrite !eqb_refl; reflexivity).
        rewrite w_add_inf_r. f_equal. cbn [e_add].
        assert (1 + d * u1 * 0 * v1 * 1 = 1) as -> by ring. assert (1 - d * u1 * 0 * v1 * 1 = 1) as -> by ring.
        f_equal; field; fnz.
      * assert (E1 : legacy K s t (0, - (1)) = Finite t 0) by (unfold legacy; rewrite eqb_refl, M1; reflexivity).
        rewrite E1, add_two_r by assumption. f_equal. cbn [e_add].
        assert (1 + d * u1 * 0 * v1 * - (1) = 1) as -> by ring. assert (1 - d * u1 * 0 * v1 * - (1) = 1) as -> by ring.
        f_equal; field; fnz.
    + apply eqb_ne in U2.
      destruct (v1 =? v2) eqn:V.
      * apply f_eqb in V. subst v2.
        assert (SQ : u1 * u1 = u2 * u2) by (rewrite (usq u1 v1 O1), (usq u2 v1 O2); reflexivity).
        destruct (mul_eq0_sq _ _ SQ) as [E|E]; subst u1.
        -- destruct (v1 =? 0) eqn:V0.
           ++ apply f_eqb in V0. subst v1. rewrite tangent_v0 by assumption. cbn [e_add].
              pose proof (one_ne0 K) as N1.
              assert (1 + d * u2 * u2 * 0 * 0 = 1) as -> by ring. assert (1 - d * u2 * u2 * 0 * 0 = 1) as -> by ring.
              assert (Q : u2 * u2 = 1).
              { cbn in O2. transitivity (u2 * u2 + 0 * 0); [ring|]. rewrite O2. ring. }
              replace ((u2 * 0 + u2 * 0) / 1) with 0 by (field; fnz).
              rewrite Q. replace ((0 * 0 - 1) / 1) with (- (1)) by (field; fnz).
              unfold legacy. rewrite eqb_refl, M1. reflexivity.
           ++ apply eqb_ne in V0. symmetry. apply tangent_generic; assumption.
        -- pose proof (e_minus K d dns char2 (- u2) v1 u2 v1 O1 O2) as NM.
           pose proof (e_plus K d dns char2 (- u2) v1 u2 v1 O1 O2) as NP.
           rewrite (legacy_gen (- u2)), (legacy_gen u2) by assumption. cbn [w_add]. rewrite eqb_refl.
           destruct (u_ne0_v K d dns u2 v1 O2 U2) as [A B].
           replace (s * ((1 + v1) / ((1 - v1) * - u2))) with (- (s * ((1 + v1) / ((1 - v1) * u2)))) by (field; fnz).
           rewrite eqb_refl. cbn [e_add].
           replace ((- u2 * v1 + u2 * v1) / (1 + d * - u2 * u2 * v1 * v1)) with 0 by (field; fnz).
           replace ((v1 * v1 - - u2 * u2) / (1 - d * - u2 * u2 * v1 * v1)) with 1.
           ++ unfold legacy. rewrite !eqb_refl. reflexivity.
           ++ replace (v1 * v1 - - u2 * u2) with (u2 * u2 + v1 * v1) by ring. cbn in O2. rewrite O2.
              transitivity ((1 - d * - u2 * u2 * v1 * v1) / (1 - d * - u2 * u2 * v1 * v1)); [field; fnz|].
              f_equal. ring.
      * apply eqb_ne in V. destruct (u1 * v2 + u2 * v1 =? 0) eqn:U3.
        -- apply f_eqb in U3.
           (* v2 = - v1 and u2 = u1 *)
           assert (V1 : v1 <> 0).
           { intros ->. apply V. assert (H : u1 * v2 = 0) by (rewrite <- U3; ring).
             destruct (mul_cancel0 K _ _ H); [contradiction|auto]. }
           assert (H : (v2 * v2 - v1 * v1) * (1 - d * (u1 * v2 * (u1 * v2))) = 0).
           { cbn in O1, O2.
             assert (EU : u2 * v1 = - (u1 * v2)) by (transitivity (u1 * v2 + u2 * v1 - u1 * v2); [ring|rewrite U3; ring]).
             assert (H2 : (u2 * v1) * (u2 * v1) + v1 * v1 * (v2 * v2) = v1 * v1 + d * ((u2 * v1) * (u2 * v1)) * (v2 * v2)).
             { transitivity ((u2 * u2 + v2 * v2) * (v1 * v1)); [ring|]. rewrite O2. ring. }
             rewrite EU in H2.
             assert (H3 : v2 * v2 * (u1 * u1 + v1 * v1) = v1 * v1 + d * (u1 * u1) * (v2 * v2) * (v2 * v2)).
             { transitivity (- (u1 * v2) * - (u1 * v2) + v1 * v1 * (v2 * v2)); [ring|]. rewrite H2. ring. }
             rewrite O1 in H3.
             transitivity (v2 * v2 * (1 + d * (u1 * u1) * (v1 * v1)) - (v1 * v1 + d * (u1 * u1) * (v2 * v2) * (v2 * v2)));
               [ring|]. rewrite H3. ring. }
           destruct (mul_cancel0 K _ _ H) as [H1|H1]; [|exfalso; exact (D_ne0 (u1 * v2) H1)].
           assert (SQ : v2 * v2 = v1 * v1) by (transitivity (v2 * v2 - v1 * v1 + v1 * v1); [ring|rewrite H1; ring]).
           destruct (mul_eq0_sq _ _ SQ) as [E|E]; [exfalso; apply V; congruence|]. subst v2.
           assert (E2 : u2 = u1).
           { assert (H2 : v1 * (u2 - u1) = 0) by (rewrite <- U3; ring).
             destruct (mul_cancel0 K _ _ H2) as [H3|H3]; [contradiction|].
             transitivity (u2 - u1 + u1); [ring|]. rewrite H3. ring. }
           subst u2. rewrite chord_mirror by assumption. cbn [e_add].
           pose proof (e_minus K d dns char2 u1 v1 u1 (- v1) O1 O2) as NM.
           pose proof (e_plus K d dns char2 u1 v1 u1 (- v1) O1 O2) as NP.
           replace ((u1 * - v1 + u1 * v1) / (1 + d * u1 * u1 * v1 * - v1)) with 0 by (field; fnz).
           replace ((v1 * - v1 - u1 * u1) / (1 - d * u1 * u1 * v1 * - v1)) with (- (1)).
           ++ unfold legacy. rewrite eqb_refl, M1. reflexivity.
           ++ replace (v1 * - v1 - u1 * u1) with (- (u1 * u1 + v1 * v1)) by ring. cbn in O1. rewrite O1.
              transitivity (- ((1 - d * u1 * u1 * v1 * - v1) / (1 - d * u1 * u1 * v1 * - v1))); [field; fnz|].
              assert (E : 1 - d * u1 * u1 * v1 * - v1 = 1 + d * (u1 * u1) * (v1 * v1)) by ring.
              rewrite E in *. field. fnz.
        -- apply eqb_ne in U3. symmetry. apply chord_generic; assumption.
Qed.
End Legacy.
