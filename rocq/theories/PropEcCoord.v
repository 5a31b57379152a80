(** C55: the scalar multiplications of the generated files, on coordinates, compute multiples of points of the
    curve.  The specification is the chord-and-tangent group of the curve over the field of p elements
    (EcFormulaSpec.w_add) with multiples as repeated sums (EcSpec.smul); [curve_points] says that the abstract group
    C is that group. *)
From Coq Require Import ZArith Znumtheory NArith List Bool Lia.
From Verif Require Import Bytes EcFormulaSpec EcFormulaModel FieldZp EcLadderModel EcSpec EcProofs ParamsModel
  EcInvModel EcInvProofs EcConstModel EcConstProofs EcCoordModel EcCurveSpec EcCoordMain SmallCurve.
Import ListNotations.
Local Open Scope Z_scope.

(** A file used for a curve: the field, the curve, its constants and its table.  [inv] inverts, as the file's
    inversion has to; 0 goes to 0. *)
Record file_for_curve (p : Z) (Pp : prime p) (a b : Z) (C : group) (w : pt C -> wpoint (zp p Pp)) (f : ecp_file)
    (c : consts (zp p Pp)) (inv : F (zp p Pp) -> F (zp p Pp)) (tab : nat -> nat -> aff (zp p Pp)) : Prop := {
  fc_prime : 3 < p <= 256 ^ Z.of_nat (s_nb (file_shape (wide C) f));
  fc_laws : ec_laws C;
  fc_points : curve_points C p Pp a b w;
  fc_file : file_of (gname C) = Some f;
  fc_consts : consts_ok (zp p Pp) (res p a) (res p b) (file_family f) c;
  fc_inv0 : inv (res p 0) = res p 0;
  fc_inv : forall z, z <> res p 0 -> fmul (zp p Pp) (inv z) z = res p 1;
  fc_table : forall j k, (j < s_cols (file_shape (wide C) f))%nat -> (k < 16)%nat ->
    entry_ok (zp p Pp) (file_family f) c (tab j k) (w (lut_cmb C j k)) }.

(** gost_ec_point_mul through the file, on the affine coordinates of EC_POINTs (None: infinity) *)
Definition coord_mul (p : Z) (Pp : prime p) (a b : Z) (C : group) (f : ecp_file) (c : consts (zp p Pp))
    (inv : F (zp p Pp) -> F (zp p Pp)) (tab : nat -> nat -> aff (zp p Pp)) (junk : mem (zp p Pp)) :
    option Z -> option (option (Z * Z)) -> option Z -> option (option (Z * Z)) :=
  ec_point_mul (zp p Pp) (res p) (val p) (on_curve_b p a b) (file_family f) c (f1 (zp p Pp)) inv tab junk
    (file_shape (wide C) f).

(** A point of order two *)
Definition of_order_two (C : group) (P : pt C) : Prop := P <> pzero C /\ padd C P P = pzero C.

(** A multiple of the generator, for every scalar that fits; longer scalars are refused. *)
Theorem C55_generator_multiple : forall p Pp a b C w f c inv tab, file_for_curve p Pp a b C w f c inv tab ->
  forall junk n q, 0 <= n ->
  coord_mul p Pp a b C f c inv tab junk (Some n) q None =
  if scalar_fits (gname C) n then Some (affine C (smul n (gen C))) else None.
Proof.
  intros p Pp a b C w f c inv tab [[P3 PF] L W FN CO I0 I1 TO] junk n q N. unfold coord_mul.
  destruct (scalar_fits (gname C) n) eqn:E.
  - eapply mul_g; eauto.
  - eapply mul_g_big; eauto. unfold fits. congruence.
Qed.

(** A multiple of any other point of the curve - the cofactor is multiplied in - and infinity is refused. *)
Theorem C55_peer_multiple : forall p Pp a b C w f c inv tab, file_for_curve p Pp a b C w f c inv tab ->
  forall junk m Q, 0 <= m ->
  (Q <> pzero C -> coord_mul p Pp a b C f c inv tab junk None (Some (affine C Q)) (Some m) =
     if scalar_fits (gname C) m then Some (affine C (smul (cofactor C * m) Q)) else None) /\
  coord_mul p Pp a b C f c inv tab junk None (Some (affine C (pzero C))) (Some m) = None.
Proof.
  intros p Pp a b C w f c inv tab [[P3 PF] L W FN CO I0 I1 TO] junk m Q M. unfold coord_mul. split.
  - intros NQ. destruct (scalar_fits (gname C) m) eqn:E.
    + eapply mul_var; eauto.
    + eapply mul_var_big; eauto. unfold fits. congruence.
  - eapply mul_var_zero; eauto.
Qed.

(** n times the generator plus m times a point, as long as neither the point nor the sum is of order two (only the
    two Edwards curves have such a point). *)
Theorem C55_double_multiple : forall p Pp a b C w f c inv tab, file_for_curve p Pp a b C w f c inv tab ->
  forall junk n m Q, 0 <= n -> 0 <= m ->
  (Q <> pzero C -> ~ of_order_two C Q -> ~ of_order_two C (padd C (smul n (gen C)) (smul m Q)) ->
   coord_mul p Pp a b C f c inv tab junk (Some n) (Some (affine C Q)) (Some m) =
     if scalar_fits (gname C) n && scalar_fits (gname C) m
     then Some (affine C (padd C (smul n (gen C)) (smul m Q))) else None) /\
  coord_mul p Pp a b C f c inv tab junk (Some n) (Some (affine C (pzero C))) (Some m) = None.
Proof.
  intros p Pp a b C w f c inv tab [[P3 PF] L W FN CO I0 I1 TO] junk n m Q N M. unfold coord_mul. split.
  - intros NQ O1 O2. destruct (scalar_fits (gname C) n && scalar_fits (gname C) m) eqn:E.
    + apply andb_true_iff in E. destruct E as [En Em]. eapply mul_two; eauto.
    + eapply mul_two_big; eauto. unfold fits. intros [En Em]. rewrite En, Em in E. discriminate E.
  - eapply mul_two_zero; eauto.
Qed.

(** With a point of order two: a sum of order two comes out as infinity, and so does every sum with a point of
    order two taken at least once. *)
Theorem C55_order_two_is_lost : forall p Pp a b C w f c inv tab, file_for_curve p Pp a b C w f c inv tab ->
  forall junk n m Q, 0 <= n -> 0 <= m -> scalar_fits (gname C) n = true -> scalar_fits (gname C) m = true ->
  (Q <> pzero C -> ~ of_order_two C Q -> of_order_two C (padd C (smul n (gen C)) (smul m Q)) ->
   coord_mul p Pp a b C f c inv tab junk (Some n) (Some (affine C Q)) (Some m) = Some None) /\
  (of_order_two C Q -> 0 < m ->
   coord_mul p Pp a b C f c inv tab junk (Some n) (Some (affine C Q)) (Some m) = Some None) /\
  (Q <> pzero C ->
   coord_mul p Pp a b C f c inv tab junk (Some n) (Some (affine C Q)) (Some 0) = Some (affine C (smul n (gen C)))).
Proof.
  intros p Pp a b C w f c inv tab [[P3 PF] L W FN CO I0 I1 TO] junk n m Q N M En Em. unfold coord_mul.
  split; [|split].
  - intros NQ O1 O2. eapply mul_two_lost; eauto.
  - intros O Z. eapply mul_two_order_two; eauto.
  - intros NQ. eapply mul_two_zero_scalar; eauto.
Qed.

Lemma group_two_big C f n m (Q : pt C) : file_of (gname C) = Some f -> 0 <= n -> 0 <= m ->
  scalar_fits (gname C) n && scalar_fits (gname C) m = false -> gost_ec_point_mul C (Some n) (Some Q) (Some m) = None.
Proof.
  intros FN N M E. unfold gost_ec_point_mul. rewrite FN. cbn [option_map]. unfold c_mul_two, bn2lebinpad.
  rewrite !(scalar_fits_file _ (wide C) f _ FN) in E. rewrite !Z.abs_eq by assumption.
  destruct (affine C Q); [|reflexivity].
  destruct (n <? 256 ^ Z.of_nat (s_nb (file_shape (wide C) f))); [|reflexivity]. cbn [andb] in E. rewrite E. reflexivity.
Qed.
(** So on coordinates the program does what it does on the abstract group, outside the order-two case: the
    theorems C37-C40 and C50, proved for the abstract group, speak of the coordinates. *)
Theorem C55_refines_group : forall p Pp a b C w f c inv tab, file_for_curve p Pp a b C w f c inv tab ->
  forall junk n Q m, (forall z, n = Some z -> 0 <= z) -> (forall z, m = Some z -> 0 <= z) ->
  (forall zn zm P, n = Some zn -> m = Some zm -> Q = Some P ->
     ~ of_order_two C P /\ ~ of_order_two C (padd C (smul zn (gen C)) (smul zm P))) ->
  coord_mul p Pp a b C f c inv tab junk n (option_map (affine C) Q) m =
  option_map (affine C) (gost_ec_point_mul C n Q m).
Proof.
  intros p Pp a b C w f c inv tab H junk n Q m HN HM HO.
  assert (L : ec_laws C) by apply H. assert (FN : file_of (gname C) = Some f) by apply H.
  assert (FNN : file_of (gname C) <> None) by congruence.
  assert (D : forall P : pt C, P = pzero C \/ P <> pzero C).
  { intros P. destruct (affine C P) as [xy|] eqn:E.
    - right. intros ->. assert (E' : affine C (pzero C) = None) by (apply (l_affine C L); reflexivity). congruence.
    - left. apply (l_affine C L), E. }
  destruct n as [n|], m as [m|].
  - specialize (HN n eq_refl). specialize (HM m eq_refl). destruct Q as [Q|]; cbn [option_map].
    + destruct (C55_double_multiple p Pp a b C w f c inv tab H junk n m Q HN HM) as [T1 T2].
      destruct (D Q) as [->|NQ].
      * rewrite T2, (pm_two_zero C L); [reflexivity|exact FNN].
      * destruct (HO n m Q eq_refl eq_refl eq_refl) as [O1 O2]. rewrite T1 by assumption.
        destruct (scalar_fits (gname C) n && scalar_fits (gname C) m) eqn:E.
        -- apply andb_true_iff in E. destruct E as [En Em].
           rewrite (pm_two C L n m Q HN HM En Em (or_introl NQ)). reflexivity.
        -- rewrite (group_two_big C f n m Q FN HN HM E). reflexivity.
    + reflexivity.
  - specialize (HN n eq_refl). rewrite (C55_generator_multiple p Pp a b C w f c inv tab H) by exact HN.
    destruct (scalar_fits (gname C) n) eqn:E.
    + rewrite (pm_g C L n HN E). reflexivity.
    + rewrite (pm_g_big C n); [reflexivity|exact HN|]. unfold fits. congruence.
  - specialize (HM m eq_refl). destruct Q as [Q|]; cbn [option_map].
    + destruct (C55_peer_multiple p Pp a b C w f c inv tab H junk m Q HM) as [T1 T2].
      destruct (D Q) as [->|NQ].
      * rewrite T2, (pm_var_zero C L); [reflexivity|exact FNN].
      * rewrite T1 by exact NQ. destruct (scalar_fits (gname C) m) eqn:E.
        -- rewrite (pm_var C L m Q HM E NQ). reflexivity.
        -- rewrite (pm_var_big C m Q); [reflexivity|exact HM|]. unfold fits. congruence.
    + reflexivity.
  - reflexivity.
Qed.

(** ** The parameter sets *)
(** For every parameter set with a generated file, and both widths: the constants written in the file stand for 1
    and for the curve's constants (b, or a and 3b, or d, s, t of an Edwards form with d not a square), where the
    curve is that of gost_params.c; the file's inversion inverts; and the field is as large as needed. *)
Theorem C55_parameter_sets : forall nid w64 f (Pp : prime (nid_prime nid)) junk, file_of nid = Some f ->
  let p := nid_prime nid in let K := zp p Pp in let inv := fe_inv (rmul p) f junk in
  3 < p <= 256 ^ Z.of_nat (s_nb (file_shape w64 f)) /\
  file_const p Pp w64 f C_one = f1 K /\
  consts_ok K (res p (nid_a nid)) (res p (nid_b nid)) (file_family f) (file_consts p Pp w64 f) /\
  inv (res p 0) = res p 0 /\ (forall z, z <> res p 0 -> fmul K (inv z) z = res p 1).
Proof.
  intros nid w64 f Pp junk FN p K inv. destruct (exponents nid f FN) as [EX G]. fold p in EX, G.
  destruct (constants nid w64 f Pp FN) as [ONE CO].
  split; [|split; [exact ONE|split; [exact CO|split]]].
  - split; [exact G|]. unfold p. apply Z.leb_le. destruct nid; cbn in FN; try discriminate FN; injection FN as <-; destruct w64; vm_compute; reflexivity.
  - unfold inv. rewrite (fe_inv_inverse p f junk _ G EX). apply rinv_0; assumption.
  - intros z NZ. unfold inv. rewrite (fe_inv_inverse p f junk z G EX).
    exact (Field_theory.Finv_l (residue_field p Pp) z NZ).
Qed.
(** Hence the parameter sets' files are files for their curves once the table is right: what remains assumed is
    that p is prime and C is the curve's group with the order and cofactor of gost_params.c. *)
Theorem C55_parameter_files : forall nid f (Pp : prime (nid_prime nid)) C w tab junk, gname C = nid -> file_of nid = Some f ->
  ec_laws C -> curve_points C (nid_prime nid) Pp (nid_a nid) (nid_b nid) w ->
  (forall j k, (j < s_cols (file_shape (wide C) f))%nat -> (k < 16)%nat ->
    entry_ok (zp (nid_prime nid) Pp) (file_family f) (file_consts (nid_prime nid) Pp (wide C) f) (tab j k) (w (lut_cmb C j k))) ->
  file_for_curve (nid_prime nid) Pp (nid_a nid) (nid_b nid) C w f (file_consts (nid_prime nid) Pp (wide C) f)
    (fe_inv (rmul (nid_prime nid)) f junk) tab.
Proof.
  intros nid f Pp C w tab junk GN FN L W T.
  destruct (C55_parameter_sets nid (wide C) f Pp junk FN) as (P & _ & CO & I0 & I1).
  constructor; try assumption. rewrite GN. exact FN.
Qed.

(** ** Concrete cases *)
Definition inv_of (p : Z) (Pp : prime p) : F (zp p Pp) -> F (zp p Pp) := rinv p.
Lemma inv_of_0 p Pp : 3 < p -> inv_of p Pp (res p 0) = res p 0.
Proof. intros H. apply rinv_0; assumption. Qed.
Lemma inv_of_ne p Pp z : z <> res p 0 -> fmul (zp p Pp) (inv_of p Pp z) z = res p 1.
Proof. intros H. exact (Field_theory.Finv_l (residue_field p Pp) z H). Qed.
Theorem C55_example_weierstrass w64 :
  file_for_curve 31 prime_31 (-3) 7 (w31 w64) (w31_w w64) F_A w31_consts (inv_of 31 prime_31) w31_tab.
Proof.
  constructor.
  - split; [lia|]. destruct w64; vm_compute; discriminate.
  - apply w31_laws.
  - apply w31_curve.
  - reflexivity.
  - apply w31_consts_ok.
  - apply inv_of_0. lia.
  - apply inv_of_ne.
  - apply w31_table.
Qed.
Theorem C55_example_edwards w64 :
  file_for_curve 13 prime_13 11 8 (e13 w64) (e13_w w64) F_256A e13_consts (inv_of 13 prime_13) e13_tab.
Proof.
  constructor.
  - split; [lia|]. destruct w64; vm_compute; discriminate.
  - apply e13_laws.
  - apply e13_curve.
  - reflexivity.
  - apply e13_consts_ok.
  - apply inv_of_0. lia.
  - apply inv_of_ne.
  - apply e13_table.
Qed.
(** On the curve over 31 elements: 5 times the generator plus 7 times the point 3G is the point 26G. *)
Theorem C55_example_sum w64 junk :
  coord_mul 31 prime_31 (-3) 7 (w31 w64) F_A w31_consts (inv_of 31 prime_31) w31_tab junk
    (Some 5) (Some (Some (12, 26))) (Some 7) = Some (Some (4, 11)).
Proof.
  destruct (C55_double_multiple _ _ _ _ _ _ _ _ _ _ (C55_example_weierstrass w64) junk 5 7 (cmk 37 pos37 3) ltac:(lia) ltac:(lia)) as [T _].
  assert (O : forall z, ~ of_order_two (w31 w64) (cmk 37 pos37 z)).
  { intros z [N D]. apply N. apply (f_equal (@proj1_sig _ _)) in D. cbn [w31 small padd pzero cmk proj1_sig] in D.
    rewrite <- Zplus_mod, Zmod_0_l in D. apply cyc_eq. cbn [w31 small pzero cmk proj1_sig]. rewrite Zmod_0_l.
    pose proof (Z.div_mod z 37 ltac:(lia)). pose proof (Z.div_mod (z + z) 37 ltac:(lia)).
    pose proof (Z.mod_pos_bound z 37 ltac:(lia)). lia. }
  assert (E : padd (w31 w64) (smul 5 (gen (w31 w64))) (smul (C := w31 w64) 7 (cmk 37 pos37 3)) = cmk 37 pos37 26) by (apply cyc_eq; vm_compute; reflexivity).
  rewrite E in T.
  assert (A3 : affine (w31 w64) (cmk 37 pos37 3) = Some (12, 26)) by reflexivity.
  assert (A26 : affine (w31 w64) (cmk 37 pos37 26) = Some (4, 11)) by reflexivity.
  assert (SF : scalar_fits (gname (w31 w64)) 5 && scalar_fits (gname (w31 w64)) 7 = true) by reflexivity.
  rewrite A3, A26, SF in T. apply T; [|apply O|apply O].
  intros H. apply (f_equal (@proj1_sig _ _)) in H. discriminate H.
Qed.
(** "Always the sum" is false: on the small Edwards curve 1 times the point of order two plus 0 times the
    generator comes out as infinity, and so does G + (T - G). *)
Theorem C55_order_two_refuted : exists p Pp a b C w f c inv tab, file_for_curve p Pp a b C w f c inv tab /\
  exists Q, Q <> pzero C /\ affine C (padd C (smul 0 (gen C)) (smul 1 Q)) <> None /\
  forall junk, coord_mul p Pp a b C f c inv tab junk (Some 0) (Some (affine C Q)) (Some 1) = Some None.
Proof.
  exists 13, prime_13, 11, 8, (e13 true), (e13_w true), F_256A, e13_consts, (inv_of 13 prime_13), e13_tab.
  split; [apply C55_example_edwards|]. exists (cmk 20 pos20 10).
  assert (NZ : cmk 20 pos20 10 <> pzero (e13 true)) by (intros H; apply (f_equal (@proj1_sig _ _)) in H; discriminate H).
  split; [exact NZ|split; [vm_compute; discriminate|]]. intros junk.
  destruct (C55_order_two_is_lost _ _ _ _ _ _ _ _ _ _ (C55_example_edwards true) junk 0 1 (cmk 20 pos20 10)
    ltac:(lia) ltac:(lia) eq_refl eq_refl) as (_ & T & _).
  apply T; [|lia]. split; [exact NZ|]. apply cyc_eq. reflexivity.
Qed.
