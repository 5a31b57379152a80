(** The coordinate computations give the coordinates of the points of EcLadderModel.v. *)
From Coq Require Import ZArith Znumtheory NArith List Bool Lia Field Ring.
From Verif Require Import Bytes BytesProofs EcFormulaSpec EcFormulaModel EcFormulaProofs EcLegacyProofs FieldZp
  EcLadderModel EcSpec EcLadderProofs EcCoordModel EcCoordProofs EcCurveSpec.
Import ListNotations.

Section Curve.
Variable K : field.
Notation "0" := (f0 K) : fld_scope.
Notation "1" := (f1 K) : fld_scope.
Notation "x + y" := (fadd K x y) : fld_scope.
Notation "x * y" := (fmul K x y) : fld_scope.
Notation "x - y" := (fsub K x y) : fld_scope.
Notation "- x" := (fopp K x) : fld_scope.
Notation "x / y" := (fdiv K x y) : fld_scope.
Notation "x =? y" := (feqb K x y) (at level 70) : fld_scope.
Local Open Scope fld_scope.
Notation two := (1 + 1).
Notation three := (1 + 1 + 1).
Add Field KF : (f_theory K).
Ltac nz := repeat match goal with |- _ /\ _ => split end; try assumption.

Variable C : group.
Variables a b : F K.
Variable w : pt C -> wpoint K.
Hypothesis w_curve : forall P, w_on K a b (w P).
Hypothesis w_plus : forall P Q, w (padd C P Q) = w_add K a (w P) (w Q).
Hypothesis w_minus : forall P, w (pneg C P) = w_opp K (w P).
Hypothesis w_infty : w (pzero C) = Infinity.
Hypothesis char2 : two <> 0.
Variable inv : F K -> F K.
Hypothesis inv_0 : inv 0 = 0.
Hypothesis inv_ne : forall z, z <> 0 -> inv z * z = 1.
Variable c : consts K.
Variable junk : mem K.

(** The coordinates returned for a point *)
Definition out_coords (P : wpoint K) : F K * F K :=
  match P with Infinity => (0, 0) | Finite x y => (x, y) end.
Lemma affine_of q P : w_coords K (pX K q) (pY K q) (pZ K q) P ->
  (pX K q * inv (pZ K q), pY K q * inv (pZ K q)) = out_coords P.
Proof.
  destruct P as [|x y]; cbn [w_coords out_coords].
  - intros (-> & _ & ->). rewrite inv_0. f_equal; ring.
  - intros (NZ & -> & ->). pose proof (inv_ne _ NZ) as I.
    f_equal; [transitivity (x * (inv (pZ K q) * pZ K q))|transitivity (y * (inv (pZ K q) * pZ K q))];
      try ring; rewrite I; ring.
Qed.

(** ** Weierstrass files *)
Section Weierstrass.
Variable fam : family.
Hypothesis odd : w_odd K a b.
Hypothesis consts_ok : w_consts K a b fam c.
Definition wrel (q : prj K) (P : pt C) : Prop := coords K q (w P).
Definition warel (e : aff K) (P : pt C) : Prop := w P = Finite (aX K e) (aY K e).
Lemma fam_w : fam <> Edwards.
Proof. intros E. revert consts_ok. rewrite E. exact (fun H => H). Qed.
Lemma wr_dbl same q P : wrel q P -> wrel (point_double K fam same c junk q) (padd C P P).
Proof. intros H. unfold wrel. rewrite w_plus. apply (double_correct K a b); auto. Qed.
Lemma wr_add same q p P Q : wrel q P -> wrel p Q -> wrel (point_add_proj K fam same c junk q p) (padd C P Q).
Proof. intros H1 H2. unfold wrel. rewrite w_plus. apply (add_proj_correct K a b); auto. Qed.
Lemma wr_mixed same q p P Q : wrel q P -> warel p Q -> wrel (point_add_mixed K fam same c junk q p) (padd C P Q).
Proof.
  intros H1 H2. unfold wrel. rewrite w_plus. apply (add_mixed_correct K a b); auto. rewrite H2. split; reflexivity.
Qed.
Lemma wr_neg q P : wrel q P -> wrel (neg_prj K fam q) (pneg C P).
Proof.
  intros H. unfold wrel, coords in *. rewrite w_minus.
  assert (E : neg_prj K fam q = mk_prj K (pX K q) (- pY K q) (pT K q) (pZ K q)).
  { pose proof fam_w. unfold neg_prj. destruct fam; try reflexivity. contradiction. }
  rewrite E. cbn [pX pY pZ]. destruct (w P) as [|x y]; cbn [w_opp w_coords] in *.
  - destruct H as (HX & HY & HZ). split; [exact HX|split; [|exact HZ]].
    intros Z. apply HY. transitivity (- - pY K q); [ring|]. rewrite Z. ring.
  - destruct H as (HZ & HX & HY). split; [exact HZ|split; [exact HX|]]. rewrite HY. ring.
Qed.
Lemma wa_neg e P : warel e P -> warel (neg_aff K fam e) (pneg C P).
Proof.
  intros H. unfold warel in *. rewrite w_minus, H. pose proof fam_w. unfold neg_aff. destruct fam; try reflexivity. contradiction.
Qed.
Lemma wr_load e P : warel e P -> wrel (prj_of_aff K 1 e) P.
Proof.
  intros H. unfold wrel, coords. rewrite H. cbn. split; [apply one_ne0|split; ring].
Qed.
Lemma wr_inf : wrel (inf_prj K fam 1) (pzero C).
Proof.
  unfold wrel, coords. rewrite w_infty. pose proof fam_w. unfold inf_prj.
  destruct fam; try contradiction; cbn; (split; [reflexivity|split; [apply one_ne0|reflexivity]]).
Qed.
Lemma wr_first e P : warel e P -> wrel (precomp_first K fam c 1 junk e) P.
Proof.
  intros H. pose proof (wr_load e P H) as L. pose proof fam_w. unfold precomp_first. destruct fam; try exact L. contradiction.
Qed.
Lemma wr_affine q P : wrel q P -> to_affine K fam c inv junk q = out_coords (w P).
Proof.
  intros H. rewrite <- (affine_of q (w P) H). pose proof fam_w. unfold to_affine. destruct fam; try reflexivity. contradiction.
Qed.
End Weierstrass.

(** ** Edwards files *)
Section Edwards_.
Variables d s t : F K.
Hypothesis dns : nonsquare K d.
Hypothesis char3 : three <> 0.
Hypothesis st : ew_params K s t d.
Hypothesis ea : a = ew_a K s t.
Hypothesis eb : b = ew_b K s t.
Hypothesis kd : k_d K c = d.
Hypothesis ks : k_S K c = s.
Hypothesis kt : k_T K c = t.
Definition erel (q : prj K) (P : pt C) : Prop := exists E, e_on K d E /\ legacy K s t E = w P /\ ecoords K q E.
Definition earel (e : aff K) (P : pt C) : Prop := exists E, e_on K d E /\ legacy K s t E = w P /\ eacoords K e E.

Lemma er_add same q p P Q : erel q P -> erel p Q -> erel (point_add_proj K Edwards same c junk q p) (padd C P Q).
Proof.
  intros (E1 & O1 & L1 & H1) (E2 & O2 & L2 & H2). exists (e_add K d E1 E2). split; [|split].
  - apply e_add_on; assumption.
  - rewrite w_plus, <- L1, <- L2, ea. apply legacy_add; assumption.
  - apply e_add_proj_correct; assumption.
Qed.
Lemma er_mixed same q p P Q : erel q P -> earel p Q -> erel (point_add_mixed K Edwards same c junk q p) (padd C P Q).
Proof.
  intros (E1 & O1 & L1 & H1) (E2 & O2 & L2 & H2). exists (e_add K d E1 E2). split; [|split].
  - apply e_add_on; assumption.
  - rewrite w_plus, <- L1, <- L2, ea. apply legacy_add; assumption.
  - apply e_add_mixed_correct; assumption.
Qed.
Lemma er_dbl same q P : erel q P -> erel (point_double K Edwards same c junk q) (padd C P P).
Proof.
  intros (E1 & O1 & L1 & H1). exists (e_add K d E1 E1). split; [|split].
  - apply e_add_on; assumption.
  - rewrite w_plus, <- L1, ea. apply legacy_add; assumption.
  - apply e_double_correct; assumption.
Qed.
Lemma opp0 x : - x = 0 <-> x = 0.
Proof. split; intros H; [transitivity (- - x); [ring|]; rewrite H; ring|rewrite H; ring]. Qed.
Lemma legacy_opp E : e_on K d E -> legacy K s t (e_opp K E) = w_opp K (legacy K s t E).
Proof.
  destruct E as [u v]. intros O. cbn [e_opp legacy].
  destruct (u =? 0) eqn:U.
  - apply f_eqb in U. subst u. replace (- 0 =? 0) with true by (symmetry; apply f_eqb; ring).
    destruct (v =? 1); [reflexivity|]. cbn. f_equal. ring.
  - apply eqb_ne in U. replace (- u =? 0) with false by (symmetry; apply eqb_ne; rewrite opp0; exact U).
    destruct (u_ne0_v K d dns u v O U) as [N1 N2]. cbn. f_equal. assert (NU : - u <> 0) by (rewrite opp0; exact U). field; nz.
Qed.
Lemma er_neg q P : erel q P -> erel (neg_prj K Edwards q) (pneg C P).
Proof.
  intros (E & O & L & H). exists (e_opp K E). split; [apply e_opp_on; exact O|split].
  - rewrite w_minus, <- L. apply legacy_opp. exact O.
  - destruct E as [u v], q as [X Y T Z]. unfold ecoords in *. cbn in *. destruct H as (NZ & -> & -> & ->).
    split; [exact NZ|split; [ring|split; [reflexivity|ring]]].
Qed.
Lemma ea_neg q P : earel q P -> earel (neg_aff K Edwards q) (pneg C P).
Proof.
  intros (E & O & L & H). exists (e_opp K E). split; [apply e_opp_on; exact O|split].
  - rewrite w_minus, <- L. apply legacy_opp. exact O.
  - destruct E as [u v], q as [X Y T]. unfold eacoords in *. cbn in *. destruct H as (-> & -> & ->).
    split; [ring|split; [reflexivity|ring]].
Qed.
Lemma er_load q P : earel q P -> erel (prj_of_aff K 1 q) P.
Proof.
  intros (E & O & L & H). exists E. split; [exact O|split; [exact L|]].
  destruct E as [u v], q as [X Y T]. unfold eacoords, ecoords in *. cbn in *. destruct H as (-> & -> & ->).
  split; [apply one_ne0|split; [ring|split; ring]].
Qed.
Lemma er_inf : erel (inf_prj K Edwards 1) (pzero C).
Proof.
  exists (e_zero K). split; [apply e_zero_on|split].
  - rewrite w_infty. cbn. replace (0 =? 0) with true by (symmetry; apply f_eqb; reflexivity).
    replace (1 =? 1) with true by (symmetry; apply f_eqb; reflexivity). reflexivity.
  - unfold ecoords. cbn. split; [apply one_ne0|split; [ring|split; ring]].
Qed.

(** Every point of the Weierstrass curve comes from the Edwards curve. *)
Lemma y0_only x : w_on K a b (Finite x 0) -> x = t.
Proof.
  intros O. cbn [w_on] in O. rewrite ea, eb in O. destruct st as [S1 T1]. unfold ew_a, ew_b in O.
  (* with X = x - t: X (X^2 + 3 t X + s^2) = 0 *)
  assert (E : (x - t) * ((x - t) * (x - t) + three * t * (x - t) + s * s) = 0).
  { transitivity (x * x * x + (s * s - three * (t * t)) * x + (two * (t * t * t) - t * (s * s))); [ring|].
    rewrite <- O. ring. }
  apply mul_cancel0 in E. destruct E as [E|E]; [transitivity ((x - t) + t); [ring|rewrite E; ring]|].
  exfalso.
  (* (2X + 3t)^2 = 9t^2 - 4s^2 = d *)
  apply (dns ((x - t) + (x - t) + three * t)).
  assert (D1 : three * t - two * s = d).
  { assert (two * (three * t - two * s) = two * d); [|].
    - transitivity ((two * three * t) - (two * two * s)); [ring|]. rewrite S1, T1. ring.
    - assert (Z : two * ((three * t - two * s) - d) = 0) by (transitivity (two * (three * t - two * s) - two * d); [ring|rewrite H; ring]).
      apply mul_cancel0 in Z. destruct Z as [Z|Z]; [contradiction|].
      transitivity ((three * t - two * s - d) + d); [ring|rewrite Z; ring]. }
  assert (D2 : three * t + two * s = 1).
  { assert (two * (three * t + two * s) = two * 1); [|].
    - transitivity ((two * three * t) + (two * two * s)); [ring|]. rewrite S1, T1. ring.
    - assert (Z : two * ((three * t + two * s) - 1) = 0) by (transitivity (two * (three * t + two * s) - two * 1); [ring|rewrite H; ring]).
      apply mul_cancel0 in Z. destruct Z as [Z|Z]; [contradiction|].
      transitivity ((three * t + two * s - 1) + 1); [ring|rewrite Z; ring]. }
  transitivity ((two * two) * ((x - t) * (x - t) + three * t * (x - t) + s * s)
                + (three * t - two * s) * (three * t + two * s)); [ring|].
  rewrite E, D1, D2. ring.
Qed.
Lemma legacy_onto x y : w_on K a b (Finite x y) -> y <> 0 ->
  exists E, e_on K d E /\ legacy K s t E = Finite x y /\ E <> e_zero K /\ E <> e_two K.
Proof.
  intros O NY. cbn [w_on] in O. rewrite ea, eb in O. destruct st as [S1 T1]. unfold ew_a, ew_b in O.
  pose proof (s_ne0 K d dns s t st) as NS.
  set (X := x - t). assert (EX : x = X + t) by (unfold X; ring). clearbody X. subst x.
  assert (D3 : two * (three * t) = two * (1 - two * s)).
  { transitivity (two * three * t); [ring|]. rewrite T1. transitivity (two - (1 - d)); [ring|]. rewrite <- S1. ring. }
  assert (T3 : three * t = 1 - two * s).
  { assert (Z : two * (three * t - (1 - two * s)) = 0) by (transitivity (two * (three * t) - two * (1 - two * s)); [ring|rewrite D3; ring]).
    apply mul_cancel0 in Z. destruct Z as [Z|Z]; [contradiction|].
    transitivity ((three * t - (1 - two * s)) + (1 - two * s)); [ring|rewrite Z; ring]. }
  assert (ED : d = 1 - two * two * s) by (rewrite S1; ring).
  (* y^2 = X (X^2 + (1 - 2s) X + s^2) *)
  assert (O' : y * y = X * (X * X + (1 - two * s) * X + s * s)) by (rewrite O, <- T3; ring).
  assert (NX : X <> 0) by (intros ->; apply NY; assert (Z : y * y = 0) by (rewrite O'; ring);
    apply mul_cancel0 in Z; destruct Z; assumption).
  assert (NXS : X + s <> 0).
  { intros Z. assert (XE : X = - s) by (transitivity ((X + s) - s); [ring|rewrite Z; ring]).
    apply (dns (y / s)). rewrite ED. transitivity ((y * y) / (s * s)); [field; exact NS|].
    rewrite O', XE. field. exact NS. }
  exists (X / y, (X - s) / (X + s)).
  assert (V1 : 1 - (X - s) / (X + s) = two * s / (X + s)) by (field; exact NXS).
  assert (V2 : 1 + (X - s) / (X + s) = two * X / (X + s)) by (field; exact NXS).
  assert (NU : X / y <> 0).
  { intros Z. apply NX. transitivity ((X / y) * y); [field; exact NY|]. rewrite Z. ring. }
  split; [|split; [|split]].
  - cbn [e_on]. 
    assert (Q : (X / y) * (X / y) = X / (X * X + (1 - two * s) * X + s * s)).
    { assert (NB : X * X + (1 - two * s) * X + s * s <> 0).
      { intros Z. apply NY. assert (Y2 : y * y = 0) by (rewrite O', Z; ring). apply mul_cancel0 in Y2. destruct Y2; assumption. }
      transitivity ((X * X) / (y * y)); [field; exact NY|]. rewrite O'. field; nz. }
    assert (NB : X * X + (1 - two * s) * X + s * s <> 0).
    { intros Z. apply NY. assert (Y2 : y * y = 0) by (rewrite O', Z; ring). apply mul_cancel0 in Y2. destruct Y2; assumption. }
    rewrite Q, ED. field; nz.
  - cbn [legacy]. replace (X / y =? 0) with false by (symmetry; apply eqb_ne; exact NU).
    rewrite V1, V2. f_equal; field; nz.
  - intros Z. apply NU. exact (f_equal fst Z).
  - intros Z. apply NU. exact (f_equal fst Z).
Qed.
Lemma legacy_y_ne0 E x y : e_on K d E -> legacy K s t E = Finite x y -> E <> e_two K -> y <> 0.
Proof.
  destruct E as [u v]. intros O L N Y. cbn [legacy] in L. destruct (u =? 0) eqn:U.
  - apply f_eqb in U. destruct (u0_v K d u v O U) as [-> | ->].
    + replace (1 =? 1) with true in L by (symmetry; apply f_eqb; reflexivity). discriminate L.
    + apply N. rewrite U. reflexivity.
  - apply eqb_ne in U. destruct (u_ne0_v K d dns u v O U) as [N1 N2].
    pose proof (s_ne0 K d dns s t st) as NS. injection L as _ LY. rewrite Y in LY.
    assert (Z : s * (1 + v) = 0).
    { transitivity (s * ((1 + v) / ((1 - v) * u)) * ((1 - v) * u)); [field; nz|]. rewrite LY. ring. }
    apply mul_cancel0 in Z. destruct Z; contradiction.
Qed.
Lemma er_first e P : w P = Finite (aX K e) (aY K e) -> aY K e <> 0 -> erel (precomp_first K Edwards c 1 junk e) P.
Proof.
  intros H NY. pose proof (w_curve P) as O. rewrite H in O.
  destruct (legacy_onto _ _ O NY) as (E & OE & LE & NZ & N2).
  exists E. split; [exact OE|split; [rewrite H; exact LE|]]. unfold precomp_first.
  apply (l2e_correct K d dns char2 s t st); auto. rewrite LE. split; reflexivity.
Qed.
Lemma er_affine q P : erel q P -> (forall x, w P <> Finite x 0) -> to_affine K Edwards c inv junk q = out_coords (w P).
Proof.
  intros (E & O & L & H) N.
  assert (N2 : E <> e_two K).
  { intros ->. rewrite legacy_two in L by exact char2. apply (N t). symmetry. exact L. }
  unfold to_affine. rewrite <- L. apply affine_of. apply (e2l_correct K d dns char2 s t st); auto.
Qed.
(** The point of order two as a result *)
Lemma er_affine_two q P x : erel q P -> w P = Finite x 0 -> to_affine K Edwards c inv junk q = (0, 0).
Proof.
  intros (E & O & L & H) W.
  assert (D : E = e_two K \/ E <> e_two K).
  { destruct E as [u v]. unfold e_two. destruct (u =? 0) eqn:U, (v =? - (1)) eqn:V.
    - left. apply f_eqb in U. apply f_eqb in V. subst. reflexivity.
    - right. apply eqb_ne in V. congruence.
    - right. apply eqb_ne in U. congruence.
    - right. apply eqb_ne in U. congruence. }
  destruct D as [-> |N2].
  - destruct (e2l_two K true c junk q H) as (EX & EY & EZ). unfold to_affine. rewrite EX, EY, EZ, inv_0. f_equal; ring.
  - exfalso. rewrite W in L. apply (legacy_y_ne0 E x 0 O L N2). reflexivity.
Qed.
(** The point of order two as the argument: all coordinates stay zero. *)
Definition zrel (q : prj K) (P : pt C) : Prop :=
  (pX K q = 0 /\ pY K q = 0 /\ pT K q = 0 /\ pZ K q = 0) /\ (w P = Infinity \/ w P = Finite t 0).
Definition zero4 (q : prj K) : Prop := pX K q = 0 /\ pY K q = 0 /\ pT K q = 0 /\ pZ K q = 0.
Ltac runed := unfold point_add_proj, point_add_mixed, point_double, point_edwards2legacy, point_legacy2edwards,
    call2, result, run;
  cbn [prog_double prog_add_mixed prog_add_proj ed_double ed_add_mixed ed_add_proj ed_edwards2legacy
       ed_legacy2edwards fold_left step store alias reg_eqb entry pX pY pT pZ aX aY aT].
Ltac four := (split; [ring|split; [ring|split; ring]]).
Lemma z_add same q p : zero4 q -> zero4 p -> zero4 (point_add_proj K Edwards same c junk q p).
Proof.
  destruct q as [X Y T Z], p as [X' Y' T' Z']. unfold zero4. cbn [pX pY pT pZ].
  intros (-> & -> & -> & ->) (-> & -> & -> & ->). destruct same; runed; four.
Qed.
Lemma z_dbl same q : zero4 q -> zero4 (point_double K Edwards same c junk q).
Proof.
  destruct q as [X Y T Z]. unfold zero4. cbn [pX pY pT pZ]. intros (-> & -> & -> & ->). destruct same; runed; four.
Qed.
Lemma w_two_sum P Q : w P = Infinity \/ w P = Finite t 0 -> w Q = Infinity \/ w Q = Finite t 0 ->
  w (padd C P Q) = Infinity \/ w (padd C P Q) = Finite t 0.
Proof.
  intros HP HQ. rewrite w_plus. destruct HP as [-> | ->], HQ as [-> | ->]; cbn [w_add]; auto.
  replace (t =? t) with true by (symmetry; apply f_eqb; reflexivity).
  replace (0 =? - 0) with true by (symmetry; apply f_eqb; ring). auto.
Qed.
Lemma zr_dbl same q P : zrel q P -> zrel (point_double K Edwards same c junk q) (padd C P P).
Proof. intros [Z W]. split; [apply (z_dbl same q Z)|apply w_two_sum; exact W]. Qed.
Lemma zr_add same q p P Q : zrel q P -> zrel p Q -> zrel (point_add_proj K Edwards same c junk q p) (padd C P Q).
Proof. intros [Z W] [Z' W']. split; [apply (z_add same q p Z Z')|apply w_two_sum; assumption]. Qed.
Lemma zr_neg q P : zrel q P -> zrel (neg_prj K Edwards q) (pneg C P).
Proof.
  intros [(X & Y & T & Z) W]. split.
  - unfold neg_prj. cbn [pX pY pT pZ]. rewrite X, T. repeat split; try ring; assumption.
  - rewrite w_minus. destruct W as [-> | ->]; cbn; [left; reflexivity|right; f_equal; ring].
Qed.
Lemma zr_first e P : w P = Finite (aX K e) (aY K e) -> aY K e = 0 -> zrel (precomp_first K Edwards c 1 junk e) P.
Proof.
  intros H Y. pose proof (w_curve P) as O. rewrite H, Y in O. pose proof (y0_only _ O) as X.
  split; [|right; rewrite H, X, Y; reflexivity].
  destruct e as [x y T]. cbn [aX aY] in *. subst x y. exact (l2e_two K t c junk T kt).
Qed.
Lemma zr_affine q P : zrel q P -> to_affine K Edwards c inv junk q = (0, 0).
Proof.
  intros [(X & Y & T & Z) _]. unfold to_affine.
  assert (E : pX K (point_edwards2legacy K true c junk q) = 0 /\ pY K (point_edwards2legacy K true c junk q) = 0).
  { destruct q as [X' Y' T' Z']. cbn [pX pY pT pZ] in *. subst. runed. split; ring. }
  destruct E as [-> ->]. f_equal; ring.
Qed.
End Edwards_.
End Curve.
