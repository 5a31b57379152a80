(** Property C54: the point arithmetic of the generated files is the group law of the curve, for all pairs of
    points (equal, opposite, neutral or not), in place or not, and whatever the uninitialised temporaries hold. *)
From Coq Require Import ZArith Znumtheory Bool List.
From Verif Require Import EcFormulaSpec EcFormulaModel EcFormulaProofs EcLegacyProofs FieldZp.

Section C54.
Variable K : field.
Notation "0" := (f0 K) : fld_scope.
Notation "1" := (f1 K) : fld_scope.
Notation "x + y" := (fadd K x y) : fld_scope.
Notation "x * y" := (fmul K x y) : fld_scope.
Notation "- x" := (fopp K x) : fld_scope.
Local Open Scope fld_scope.
Notation two := (1 + 1).
Notation three := (1 + 1 + 1).

(** ** Weierstrass curves without a point of order two: the six files with a curve of odd order. *)
Theorem C54_weierstrass_double : forall a b, w_odd K a b -> two <> 0 ->
  forall f c, w_consts K a b f c -> forall same junk q P, w_on K a b P ->
    w_coords K (pX K q) (pY K q) (pZ K q) P ->
    let r := point_double K f same c junk q in
    w_coords K (pX K r) (pY K r) (pZ K r) (w_add K a P P).
Proof. intros a b O C2 f c C same junk q P OP H. exact (double_correct K a b O C2 f same c junk q P C OP H). Qed.
Print Assumptions C54_weierstrass_double.

Theorem C54_weierstrass_add : forall a b, w_odd K a b -> two <> 0 ->
  forall f c, w_consts K a b f c -> forall same junk q p P Q, w_on K a b P -> w_on K a b Q ->
    w_coords K (pX K q) (pY K q) (pZ K q) P -> w_coords K (pX K p) (pY K p) (pZ K p) Q ->
    let r := point_add_proj K f same c junk q p in
    w_coords K (pX K r) (pY K r) (pZ K r) (w_add K a P Q).
Proof.
  intros a b O C2 f c C same junk q p P Q OP OQ H1 H2.
  exact (add_proj_correct K a b O C2 f same c junk q p P Q C OP OQ H1 H2).
Qed.
Print Assumptions C54_weierstrass_add.

(** The second operand is an entry of a table: affine coordinates, (0, 0) standing for infinity. *)
Theorem C54_weierstrass_add_mixed : forall a b, w_odd K a b -> two <> 0 ->
  forall f c, w_consts K a b f c -> forall same junk q p P Q, w_on K a b P -> w_on K a b Q ->
    w_coords K (pX K q) (pY K q) (pZ K q) P ->
    match Q with
    | Infinity => aX K p = 0 /\ aY K p = 0
    | Finite x y => aX K p = x /\ aY K p = y
    end ->
    let r := point_add_mixed K f same c junk q p in
    w_coords K (pX K r) (pY K r) (pZ K r) (w_add K a P Q).
Proof.
  intros a b O C2 f c C same junk q p P Q OP OQ H1 H2.
  exact (add_mixed_correct K a b O C2 f same c junk q p P Q C OP OQ H1 H2).
Qed.
Print Assumptions C54_weierstrass_add_mixed.

Theorem C54_weierstrass_closed : forall a b, w_odd K a b -> two <> 0 ->
  forall P Q, w_on K a b P -> w_on K a b Q -> w_on K a b (w_add K a P Q).
Proof. intros a b O C2 P Q OP OQ. exact (w_add_on K a b O C2 P Q OP OQ). Qed.
Print Assumptions C54_weierstrass_closed.

(** ** Edwards curves with a non-square d: the two files with cofactor four. *)
Theorem C54_edwards_double : forall d, nonsquare K d -> two <> 0 ->
  forall c same junk q P, k_d K c = d -> e_on K d P ->
    e_coords K (pX K q) (pY K q) (pT K q) (pZ K q) P ->
    let r := point_double K Edwards same c junk q in
    e_coords K (pX K r) (pY K r) (pT K r) (pZ K r) (e_add K d P P).
Proof. intros d N C2 c same junk q P C O H. exact (e_double_correct K d N C2 same c junk q P O H). Qed.
Print Assumptions C54_edwards_double.

Theorem C54_edwards_add : forall d, nonsquare K d -> two <> 0 ->
  forall c same junk q p P Q, k_d K c = d -> e_on K d P -> e_on K d Q ->
    e_coords K (pX K q) (pY K q) (pT K q) (pZ K q) P -> e_coords K (pX K p) (pY K p) (pT K p) (pZ K p) Q ->
    let r := point_add_proj K Edwards same c junk q p in
    e_coords K (pX K r) (pY K r) (pT K r) (pZ K r) (e_add K d P Q).
Proof.
  intros d N C2 c same junk q p P Q C OP OQ H1 H2.
  exact (e_add_proj_correct K d N C2 same c junk q p P Q C OP OQ H1 H2).
Qed.
Print Assumptions C54_edwards_add.

Theorem C54_edwards_add_mixed : forall d, nonsquare K d -> two <> 0 ->
  forall c same junk q P x y, k_d K c = d -> e_on K d P -> e_on K d (x, y) ->
    e_coords K (pX K q) (pY K q) (pT K q) (pZ K q) P ->
    let r := point_add_mixed K Edwards same c junk q (mk_aff K x y (x * y)) in
    e_coords K (pX K r) (pY K r) (pT K r) (pZ K r) (e_add K d P (x, y)).
Proof.
  intros d N C2 c same junk q P x y C OP OQ H1.
  refine (e_add_mixed_correct K d N C2 same c junk q (mk_aff K x y (x * y)) P (x, y) C OP OQ H1 _).
  split; [reflexivity|split; reflexivity].
Qed.
Print Assumptions C54_edwards_add_mixed.

(** The two forms of a twisted curve are the same group. *)
Theorem C54_forms_isomorphic : forall d s t, nonsquare K d -> two <> 0 -> three <> 0 -> ew_params K s t d ->
  forall P Q, e_on K d P -> e_on K d Q ->
    w_on K (ew_a K s t) (ew_b K s t) (legacy K s t P) /\
    e_on K d (e_add K d P Q) /\
    legacy K s t (e_add K d P Q) = w_add K (ew_a K s t) (legacy K s t P) (legacy K s t Q).
Proof.
  intros d s t N C2 C3 E P Q OP OQ. split; [|split].
  - exact (legacy_on K d N C2 s t E P OP).
  - exact (e_add_on K d N C2 P Q OP OQ).
  - exact (legacy_add K d s t N C2 C3 E P Q OP OQ).
Qed.
Print Assumptions C54_forms_isomorphic.

(** The conversions between the forms, outside the points of order at most two. *)
Theorem C54_to_weierstrass : forall d s t, nonsquare K d -> two <> 0 -> ew_params K s t d ->
  forall c same junk q P, k_S K c = s -> k_T K c = t -> e_on K d P -> P <> (0, - (1)) ->
    e_coords K (pX K q) (pY K q) (pT K q) (pZ K q) P ->
    let r := point_edwards2legacy K same c junk q in
    w_coords K (pX K r) (pY K r) (pZ K r) (legacy K s t P).
Proof.
  intros d s t N C2 E c same junk q P CS CT O NT H.
  exact (e2l_correct K d N C2 s t E same c junk q P CS CT O H NT).
Qed.
Print Assumptions C54_to_weierstrass.

Theorem C54_from_weierstrass : forall d s t, nonsquare K d -> two <> 0 -> ew_params K s t d ->
  forall c junk x y T P, k_S K c = s -> k_T K c = t -> e_on K d P -> P <> (0, 1) -> P <> (0, - (1)) ->
    legacy K s t P = Finite x y ->
    let r := point_legacy2edwards K c junk (mk_aff K x y T) in
    e_coords K (pX K r) (pY K r) (pT K r) (pZ K r) P.
Proof.
  intros d s t N C2 E c junk x y T P CS CT O NZ NT H.
  refine (l2e_correct K d N C2 s t E c junk (mk_aff K x y T) P CS CT O _ NZ NT).
  rewrite H. split; reflexivity.
Qed.
Print Assumptions C54_from_weierstrass.

(** The point of order two, (0, -1) in Edwards form and (t, 0) in Weierstrass form, is converted to coordinates
    that are all zero, in both directions: no point at all, and read as infinity by the callers. *)
Theorem C54_order_two_lost_refuted : forall d s t, nonsquare K d -> two <> 0 -> ew_params K s t d ->
  e_on K d (0, - (1)) /\ legacy K s t (0, - (1)) = Finite t 0 /\
  forall c, k_S K c = s -> k_T K c = t ->
    (forall same junk q, e_coords K (pX K q) (pY K q) (pT K q) (pZ K q) (0, - (1)) ->
       let r := point_edwards2legacy K same c junk q in pX K r = 0 /\ pY K r = 0 /\ pZ K r = 0) /\
    (forall junk T, let r := point_legacy2edwards K c junk (mk_aff K t 0 T) in
       pX K r = 0 /\ pY K r = 0 /\ pT K r = 0 /\ pZ K r = 0).
Proof.
  intros d s t N C2 E. split; [|split].
  - exact (e_two_on K d).
  - exact (legacy_two K C2 s t).
  - intros c CS CT. split.
    + intros same junk q H. exact (e2l_two K same c junk q H).
    + intros junk T. exact (l2e_two K t c junk T CT).
Qed.
Print Assumptions C54_order_two_lost_refuted.
End C54.

(** ** Concrete cases: y^2 = x^3 - 3x + 1 and x^2 + y^2 = 1 + 5 x^2 y^2 over the field of seven elements. *)
Lemma prime_7 : prime 7.
Proof.
  apply prime_intro; [reflexivity|]. intros n [H1 H2].
  assert (n = 1 \/ n = 2 \/ n = 3 \/ n = 4 \/ n = 5 \/ n = 6)%Z as D by (clear -H1 H2; Lia.lia).
  apply Zgcd_1_rel_prime. destruct D as [-> |[-> |[-> |[-> |[-> | ->]]]]]; reflexivity.
Qed.
Definition F7 : field := zp 7 prime_7.
Definition n7 (z : Z) : F F7 := res 7 z.
Lemma all7 (x : F F7) : x = n7 0 \/ x = n7 1 \/ x = n7 2 \/ x = n7 3 \/ x = n7 4 \/ x = n7 5 \/ x = n7 6.
Proof.
  pose proof (val_mod 7 x) as E. pose proof (Z.mod_pos_bound (val 7 x) 7 eq_refl) as B. rewrite E in B.
  rewrite <- (res_val 7 x).
  assert (D : (val 7 x = 0 \/ val 7 x = 1 \/ val 7 x = 2 \/ val 7 x = 3 \/ val 7 x = 4 \/ val 7 x = 5 \/ val 7 x = 6)%Z)
    by (clear -B; Lia.lia).
  destruct D as [-> |[-> |[-> |[-> |[-> |[-> | ->]]]]]]; unfold n7; auto 10.
Qed.
Lemma ne7 (x y : F F7) : feqb F7 x y = false -> x <> y.
Proof. intros H E. apply (f_eqb F7) in E. congruence. Qed.
Lemma eq7 (x y : F F7) : feqb F7 x y = true -> x = y.
Proof. apply (f_eqb F7). Qed.
Definition ex_b : F F7 := n7 1.
Definition ex_c : consts F7 := mk_consts F7 (n7 4) (n7 1) (n7 3) (n7 5) (n7 6) (n7 1).
Definition ex_P : wpoint F7 := Finite (n7 4) (n7 2).
Definition ex_Q : wpoint F7 := Finite (n7 0) (n7 1).
(** The curve has five points; P + P = Q, with the coordinates of P scaled by 3. *)
Example C54_example_weierstrass :
  w_odd F7 (n7 4) ex_b /\ fadd F7 (f1 F7) (f1 F7) <> f0 F7 /\ w_consts F7 (n7 4) ex_b Minus3 ex_c /\
  w_consts F7 (n7 4) ex_b AnyA ex_c /\ w_on F7 (n7 4) ex_b ex_P /\ w_on F7 (n7 4) ex_b ex_Q /\
  w_add F7 (n7 4) ex_P ex_P = ex_Q /\ w_add F7 (n7 4) ex_P (w_opp F7 ex_P) = Infinity /\
  w_coords F7 (n7 5) (n7 6) (n7 3) ex_P /\
  let r := point_double F7 Minus3 true ex_c (fun _ => n7 5) (mk_prj F7 (n7 5) (n7 6) (n7 0) (n7 3)) in
  w_coords F7 (pX F7 r) (pY F7 r) (pZ F7 r) ex_Q.
Proof.
  assert (OD : w_odd F7 (n7 4) ex_b).
  { intros x. destruct (all7 x) as [-> |[-> |[-> |[-> |[-> |[-> | ->]]]]]]; apply ne7; reflexivity. }
  assert (C2 : fadd F7 (f1 F7) (f1 F7) <> f0 F7) by (apply ne7; reflexivity).
  assert (OP : w_on F7 (n7 4) ex_b ex_P) by (apply eq7; reflexivity).
  assert (CP : w_coords F7 (n7 5) (n7 6) (n7 3) ex_P).
  { split; [apply ne7; reflexivity|split; apply eq7; reflexivity]. }
  assert (CC : w_consts F7 (n7 4) ex_b Minus3 ex_c) by (split; apply eq7; reflexivity).
  assert (E : w_add F7 (n7 4) ex_P ex_P = ex_Q).
  { unfold ex_P, ex_Q, w_add. replace (feqb F7 (n7 4) (n7 4)) with true by reflexivity.
    replace (feqb F7 (n7 2) (fopp F7 (n7 2))) with false by reflexivity. unfold w_third. f_equal; apply eq7; reflexivity. }
  split; [exact OD|split; [exact C2|split; [exact CC|split; [split; apply eq7; reflexivity|split; [exact OP|]]]]].
  split; [apply eq7; reflexivity|]. split; [exact E|]. split; [reflexivity|]. split; [exact CP|].
  rewrite <- E. apply (C54_weierstrass_double F7 (n7 4) ex_b OD C2 Minus3 ex_c CC). - exact OP. - exact CP.
Qed.
(** x^2 + y^2 = 1 + 5 x^2 y^2: s = (1 - 5)/4 = 6, t = (1 + 5)/6 = 1; twelve points. *)
Example C54_example_edwards :
  nonsquare F7 (n7 5) /\ fadd F7 (fadd F7 (f1 F7) (f1 F7)) (f1 F7) <> f0 F7 /\ ew_params F7 (n7 6) (n7 1) (n7 5) /\
  e_on F7 (n7 5) (n7 2, n7 3) /\
  e_add F7 (n7 5) (n7 2, n7 3) (n7 2, n7 3) <> e_zero F7 /\
  e_coords F7 (n7 6) (n7 2) (n7 4) (n7 3) (n7 2, n7 3) /\
  legacy F7 (n7 6) (n7 1) (n7 2, n7 3) <> Infinity.
Proof.
  split; [|split; [|split; [|split; [|split; [|split]]]]].
  - intros x. destruct (all7 x) as [-> |[-> |[-> |[-> |[-> |[-> | ->]]]]]]; apply ne7; reflexivity.
  - apply ne7. reflexivity.
  - split; apply eq7; reflexivity.
  - apply eq7. reflexivity.
  - intros H. apply (f_equal fst) in H. revert H. apply ne7. reflexivity.
  - split; [apply ne7; reflexivity|split; [apply eq7; reflexivity|split; apply eq7; reflexivity]].
  - discriminate.
Qed.
