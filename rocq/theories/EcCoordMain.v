(** The functions of the generated files on EC_POINTs compute multiples of points of the curve. *)
From Coq Require Import ZArith Znumtheory NArith List Bool Lia Ring Field.
From Verif Require Import Bytes BytesProofs EcFormulaSpec EcFormulaModel EcFormulaProofs FieldZp
  EcLadderModel EcSpec EcLadderProofs EcModel EcProofs EcCoordModel EcCoordProofs EcCurveSpec EcCurveProofs EcCoordZero.
Import ListNotations.
Local Open Scope Z_scope.

Lemma bn2lebinpad_some len n : 0 <= n < 256 ^ Z.of_nat len -> bn2lebinpad len n = Some (n2le len (Z.to_N n)).
Proof.
  intros H. unfold bn2lebinpad. rewrite Z.abs_eq by lia. destruct (n <? 256 ^ Z.of_nat len) eqn:E.
  - f_equal. f_equal. lia.
  - apply Z.ltb_ge in E. lia.
Qed.

Lemma family_eq_dec (f g : family) : {f = g} + {f <> g}.
Proof. decide equality. Qed.
Section TwoZero.
Variable K : field.
Add Field KF : (f_theory K).
Lemma two_zero y : y = fopp K y -> y <> f0 K -> fadd K (f1 K) (f1 K) = f0 K.
Proof.
  intros H N. assert (E : fmul K (fadd K (f1 K) (f1 K)) y = f0 K).
  { transitivity (fadd K y y); [ring|]. rewrite H at 2. ring. }
  transitivity (fdiv K (fmul K (fadd K (f1 K) (f1 K)) y) y); [field; assumption|rewrite E; field; assumption].
Qed.
End TwoZero.

Section Main.
Variable p : Z.
Hypothesis Pp : prime p.
Notation K := (zp p Pp).
Hypothesis p3 : 3 < p.
Variable C : group.
Hypothesis L : ec_laws C.
Variables a b : Z.
Variable w : pt C -> wpoint K.
Hypothesis W : curve_points C p Pp a b w.
Variable f : ecp_file.
Hypothesis FN : file_of (gname C) = Some f.
Notation s := (file_shape (wide C) f).
Notation fam := (file_family f).
Hypothesis fits_p : p <= 256 ^ Z.of_nat (s_nb s).
Variable c : consts K.
Hypothesis CO : consts_ok K (res p a) (res p b) fam c.
Variable tab : nat -> nat -> aff K.
Hypothesis TO : forall j k, (j < s_cols s)%nat -> (k < 16)%nat -> entry_ok K fam c (tab j k) (w (lut_cmb C j k)).
Variable inv : F K -> F K.
Hypothesis inv_0 : inv (f0 K) = f0 K.
Hypothesis inv_ne : forall z, z <> f0 K -> fmul K (inv z) z = f1 K.
Variable junk : mem K.

Notation MUL := (ec_point_mul K (res p) (val p) (on_curve_b p a b) fam c (f1 K) inv tab junk s).

Lemma small_ne z : 0 < z < p -> res p z <> res p 0.
Proof. intros H E. apply (f_equal (val p)) in E. cbn [val res] in E. rewrite Zmod_0_l, Z.mod_small in E; lia. Qed.
Lemma res_add x y : fadd K (res p x) (res p y) = res p (x + y).
Proof. apply residue_eq. cbn [val res fadd zp radd]. symmetry. apply Zplus_mod. Qed.
Lemma char2 : fadd K (f1 K) (f1 K) <> f0 K.
Proof. change (f1 K) with (res p 1). rewrite res_add. apply small_ne. lia. Qed.
Lemma char3 : fadd K (fadd K (f1 K) (f1 K)) (f1 K) <> f0 K.
Proof. change (f1 K) with (res p 1). rewrite !res_add. apply small_ne. lia. Qed.

Lemma val_range x : 0 <= val p x < p.
Proof. rewrite <- (val_mod p x). apply Z.mod_pos_bound. lia. Qed.
Lemma w_inf_zero P : w P = Infinity -> P = pzero C.
Proof. intros H. apply (l_affine C L). rewrite (cp_affine _ _ _ _ _ _ W), H. reflexivity. Qed.

(** A point of order two is not of odd order. *)
Lemma nsum_pair n (P : pt C) : padd C P P = pzero C -> nsum (2 * n) P = pzero C.
Proof.
  intros H. induction n as [|n IH]; [reflexivity|]. replace (2 * S n)%nat with (S (S (2 * n))) by lia.
  cbn [nsum]. rewrite IH. rewrite (l_assoc C L), H. apply (l_zero C L).
Qed.
Lemma order_odd : exists n, order C = 2 * Z.of_nat n + 1.
Proof.
  pose proof (l_prime C L) as PR. pose proof (l_odd C L) as G.
  destruct (Z.Even_or_Odd (order C)) as [[k E]|[k E]].
  - exfalso. assert (D : (2 | order C)) by (exists k; lia). apply prime_divisors in D; [|exact PR]. lia.
  - exists (Z.to_nat k). lia.
Qed.
Lemma two_order P x : w P = Finite x (f0 K) -> smul (order C) P <> pzero C.
Proof.
  intros H E.
  assert (D : padd C P P = pzero C).
  { apply w_inf_zero. rewrite (cp_add _ _ _ _ _ _ W), H. cbn [w_add].
    replace (feqb K x x) with true by (symmetry; apply f_eqb; reflexivity).
    replace (feqb K (f0 K) (fopp K (f0 K))) with true; [reflexivity|]. symmetry. apply f_eqb.
    apply residue_eq. cbn [val res f0 fopp zp ropp]. rewrite !Zmod_0_l. reflexivity. }
  destruct order_odd as [n EN]. rewrite EN in E. unfold smul in E.
  destruct (2 * Z.of_nat n + 1 <? 0) eqn:LT; [apply Z.ltb_lt in LT; lia|].
  replace (Z.to_nat (2 * Z.of_nat n + 1)) with (S (2 * n)) in E by lia. cbn [nsum] in E.
  rewrite (nsum_pair n P D) in E. rewrite (l_comm C L), (l_zero C L) in E.
  rewrite E, (cp_zero _ _ _ _ _ _ W) in H. discriminate H.
Qed.
Lemma odd_of : fam <> Edwards -> w_odd K (res p a) (res p b).
Proof.
  intros NE x E.
  assert (O : w_on K (res p a) (res p b) (Finite x (f0 K))).
  { cbn [w_on]. rewrite E. apply residue_eq. cbn [val res f0 fmul zp rmul]. rewrite Zmod_0_l. reflexivity. }
  destruct (cp_all _ _ _ _ _ _ W x (f0 K) O) as [P H]. apply (two_order P x H).
  pose proof (l_total C L P) as T. rewrite (l_cofactor C L) in T.
  assert (COF : match gname C with Tc256_A | Tc512_C => 4 | _ => 1 end = 1).
  { destruct (gname C); cbn in FN; try discriminate FN; injection FN as E'; rewrite <- E' in NE; cbn in NE;
      try reflexivity; exfalso; apply NE; reflexivity. }
  rewrite COF, Z.mul_1_l in T. exact T.
Qed.

(** ** Reading and writing points *)
Lemma get_affine P : get_point K (res p) junk s (affine C P)
  = match w P with Infinity => None | Finite x y => Some (mk_aff K x y (junk T2)) end.
Proof.
  rewrite (cp_affine _ _ _ _ _ _ W). destruct (w P) as [|x y]; [reflexivity|]. unfold get_point.
  pose proof (val_range x) as RX. pose proof (val_range y) as RY.
  rewrite !bn2lebinpad_some by lia. f_equal.
  assert (E : forall z, 0 <= val p z < p -> res p (Z.of_N (le2n (n2le (s_nb s) (Z.to_N (val p z))))) = z).
  { intros z R. rewrite le2n_n2le_small; [rewrite Z2N.id by lia; apply res_val|].
    apply N2Z.inj_lt. rewrite Z2N.id by lia. rewrite N2Z.inj_pow, nat_N_Z. change (Z.of_N 256) with 256. lia. }
  rewrite !E by assumption. reflexivity.
Qed.
Lemma res_mul x y : fmul K (res p x) (res p y) = res p (x * y).
Proof. apply residue_eq. cbn [val res fmul zp rmul]. symmetry. apply Zmult_mod. Qed.
Lemma on_curve_res x y : w_on K (res p a) (res p b) (Finite x y) -> on_curve_b p a b (val p x) (val p y) = true.
Proof.
  intros H. cbn [w_on] in H. rewrite <- (res_val p x), <- (res_val p y) in H.
  rewrite !res_mul, !res_add in H. apply (f_equal (val p)) in H. cbn [val res] in H.
  unfold on_curve_b. apply Z.eqb_eq.
  rewrite Zminus_mod, H, Z.sub_diag. apply Zmod_0_l.
Qed.
Lemma set_coords P : (forall x, w P <> Finite x (f0 K)) ->
  set_point K (val p) (on_curve_b p a b) (out_coords K (w P)) = Some (affine C P).
Proof.
  intros N. rewrite (cp_affine _ _ _ _ _ _ W). pose proof (cp_on _ _ _ _ _ _ W P) as O.
  destruct (w P) as [|x y]; unfold set_point, out_coords; cbn [fst snd].
  - cbn [f0 zp val res]. rewrite !Zmod_0_l. reflexivity.
  - destruct (val p y =? 0) eqn:Y.
    + exfalso. apply Z.eqb_eq in Y. apply (N x). f_equal. apply residue_eq. rewrite Y. cbn [val res f0 zp]. reflexivity.
    + rewrite andb_false_r, (on_curve_res x y O). reflexivity.
Qed.

(** ** The results of the loops *)
Lemma cols_pos : (0 < s_cols s)%nat. Proof. destruct f, (wide C); cbn; lia. Qed.
Lemma ed_fam : s_ed s = match fam with Edwards => true | _ => false end.
Proof. destruct f, (wide C); reflexivity. Qed.
Lemma edw : fam = Edwards -> nonsquare K (k_d K c) /\ ew_params K (k_S K c) (k_T K c) (k_d K c) /\
               res p a = ew_a K (k_S K c) (k_T K c) /\ res p b = ew_b K (k_S K c) (k_T K c).
Proof. intros E. pose proof CO as H. rewrite E in H. exact H. Qed.
Lemma wst : fam <> Edwards -> w_consts K (res p a) (res p b) fam c.
Proof. intros E. pose proof CO as H. destruct fam; [exact H|exact H|contradiction]. Qed.

Definition full_rel (q : prj K) (P : pt C) : Prop :=
  match fam with Edwards => erel K C w (k_d K c) (k_S K c) (k_T K c) q P | _ => wrel K C w q P end.
Lemma rel_affine q P : full_rel q P -> (forall x, w P <> Finite x (f0 K)) ->
  set_point K (val p) (on_curve_b p a b) (to_affine K fam c inv junk q) = Some (affine C P).
Proof.
  intros H N. rewrite <- (set_coords P N). f_equal. unfold full_rel in H.
  pose proof wst as WS. pose proof edw as ED. pose proof char2 as C2.
  destruct fam.
  - apply (wr_affine K C (res p a) (res p b) w inv inv_0 inv_ne c junk Minus3); [apply WS; discriminate|exact H].
  - apply (wr_affine K C (res p a) (res p b) w inv inv_0 inv_ne c junk AnyA); [apply WS; discriminate|exact H].
  - destruct (ED eq_refl) as (DN & ST & EA & EB).
    eapply er_affine with (d := k_d K c) (s := k_S K c) (t := k_T K c); eauto.
Qed.

Definition full_arel (e : aff K) (P : pt C) : Prop :=
  match fam with Edwards => earel K C w (k_d K c) (k_S K c) (k_T K c) e P | _ => warel K C w e P end.
Notation Won := (cp_on _ _ _ _ _ _ W).
Notation Wadd := (cp_add _ _ _ _ _ _ W).
Notation Wneg := (cp_neg _ _ _ _ _ _ W).
Notation Wzero := (cp_zero _ _ _ _ _ _ W).

Lemma sim_facts :
  (forall same q P, full_rel q P -> full_rel (point_double K fam same c junk q) (padd C P P)) /\
  (forall same q p P Q, full_rel q P -> full_rel p Q -> full_rel (point_add_proj K fam same c junk q p) (padd C P Q)) /\
  (forall same q p P Q, full_rel q P -> full_arel p Q -> full_rel (point_add_mixed K fam same c junk q p) (padd C P Q)) /\
  (forall q P, full_rel q P -> full_rel (neg_prj K fam q) (pneg C P)) /\
  (forall q P, full_arel q P -> full_arel (neg_aff K fam q) (pneg C P)) /\
  (forall q P, full_arel q P -> full_rel (prj_of_aff K (f1 K) q) P) /\
  full_rel (inf_prj K fam (f1 K)) (pzero C) /\
  (forall j k, (j < s_cols s)%nat -> (k < 16)%nat -> full_arel (tab j k) (lut_cmb C j k)).
Proof.
  pose proof TO as TO'. pose proof wst as WS. pose proof odd_of as OD. pose proof edw as ED.
  pose proof char2 as C2. pose proof char3 as C3.
  unfold full_rel, full_arel. destruct fam.
  1, 2: specialize (WS ltac:(discriminate)); specialize (OD ltac:(discriminate));
    (split; [|split; [|split; [|split; [|split; [|split; [|split]]]]]]); intros;
    [ eapply wr_dbl; eauto using Won, Wadd
    | eapply wr_add; eauto using Won, Wadd
    | eapply wr_mixed; eauto using Won, Wadd
    | eapply wr_neg; eauto using Wneg
    | eapply wa_neg; eauto using Wneg
    | eapply wr_load; eauto
    | eapply wr_inf; eauto using Wzero
    | exact (TO' _ _ H H0) ].
  destruct (ED eq_refl) as (DN & ST & EA & EB).
  (split; [|split; [|split; [|split; [|split; [|split; [|split]]]]]]); intros.
  - eapply er_dbl; eauto using Wadd.
  - eapply er_add; eauto using Wadd.
  - eapply er_mixed; eauto using Wadd.
  - eapply er_neg; eauto using Wneg.
  - eapply ea_neg; eauto using Wneg.
  - eapply er_load; eauto.
  - eapply er_inf; eauto using Wzero.
  - destruct (TO' _ _ H H0) as (O & T & Q). exists (aX K (tab j k), aY K (tab j k)).
    split; [exact O|split; [exact Q|]]. split; [reflexivity|split; [reflexivity|exact T]].
Qed.

Lemma nb_of n : scalar_fits (gname C) n = (n <? 256 ^ Z.of_nat (s_nb s)).
Proof. apply scalar_fits_file. exact FN. Qed.
Lemma bn_none n : 0 <= n -> ~ fits C n -> bn2lebinpad (s_nb s) n = None.
Proof.
  intros N H. unfold fits in H. rewrite nb_of in H. unfold bn2lebinpad. rewrite Z.abs_eq by exact N.
  destruct (n <? _); [congruence|reflexivity].
Qed.
Lemma bn_some n : 0 <= n -> fits C n ->
  exists l, bn2lebinpad (s_nb s) n = Some l /\ bytes l /\ length l = s_nb s.
Proof.
  intros N H. unfold fits in H. rewrite nb_of in H. unfold bn2lebinpad. rewrite Z.abs_eq by exact N. rewrite H.
  eexists. split; [reflexivity|split; [apply n2le_bytes|apply n2le_length]].
Qed.

(** A multiple of the generator is not of order two. *)
Lemma smul_order_gen n : smul (order C) (smul n (gen C)) = pzero C.
Proof.
  rewrite <- (sm_mul C L).
  rewrite Z.mul_comm, (sm_mul C L), (l_order C L).
  apply (sm_zero C L).
Qed.
Lemma gen_not_two n x : w (smul n (gen C)) <> Finite x (f0 K).
Proof. intros H. apply (two_order _ _ H), smul_order_gen. Qed.

Theorem mul_g n q : 0 <= n -> fits C n -> MUL (Some n) q None = Some (affine C (smul n (gen C))).
Proof.
  intros N H. destruct (bn_some n N H) as (l & E & B & LEN).
  unfold ec_point_mul, ec_mul_g. rewrite E.
  pose proof (pm_g C L n N H None) as PM. unfold gost_ec_point_mul in PM. rewrite FN in PM. cbn [option_map] in PM.
  unfold c_mul_g in PM. rewrite E in PM. injection PM as PM. rewrite <- PM.
  destruct sim_facts as (S1 & S2 & S3 & S4 & S5 & S6 & S7 & S8).
  apply rel_affine.
  - apply (cmb_sim C K fam c (f1 K) tab junk full_rel full_arel); auto using cols_pos. apply file_shape_ok.
  - rewrite PM. apply gen_not_two.
Qed.

Theorem mul_g_big n q : 0 <= n -> ~ fits C n -> MUL (Some n) q None = None.
Proof. intros N H. unfold ec_point_mul, ec_mul_g. rewrite (bn_none n N H). reflexivity. Qed.

Lemma finite_of Q : Q <> pzero C -> exists x y, w Q = Finite x y.
Proof. intros H. destruct (w Q) as [|x y] eqn:E; [exfalso; apply H, w_inf_zero, E|eauto]. Qed.
Lemma y_dec (y : F K) : y = f0 K \/ y <> f0 K.
Proof. destruct (feqb K y (f0 K)) eqn:E; [left; apply f_eqb, E|right; intros H; apply f_eqb in H; congruence]. Qed.
Lemma first_rel Q x y : w Q = Finite x y -> (fam = Edwards -> y <> f0 K) ->
  full_rel (precomp_first K fam c (f1 K) junk (mk_aff K x y (junk T2))) Q.
Proof.
  intros H NY. pose proof wst as WS. pose proof edw as ED. pose proof char2 as C2.
  unfold full_rel. destruct fam.
  - apply (wr_first K C (res p a) (res p b)); [apply WS; discriminate|exact H].
  - apply (wr_first K C (res p a) (res p b)); [apply WS; discriminate|exact H].
  - destruct (ED eq_refl) as (DN & ST & EA & EB).
    eapply er_first; eauto using Won.
Qed.
Lemma var_not_two m Q x : w (smul (cofactor C * m) Q) <> Finite x (f0 K).
Proof.
  intros H. apply (two_order _ _ H). rewrite <- (sm_mul C L).
  replace (order C * (cofactor C * m)) with (m * (cofactor C * order C)) by ring.
  rewrite (sm_mul C L), (l_total C L). apply (sm_zero C L).
Qed.

Theorem mul_var m Q : 0 <= m -> fits C m -> Q <> pzero C ->
  MUL None (Some (affine C Q)) (Some m) = Some (affine C (smul (cofactor C * m) Q)).
Proof.
  intros M H NQ. destruct (bn_some m M H) as (l & E & B & LEN). destruct (finite_of Q NQ) as (x & y & WQ).
  unfold ec_point_mul, ec_mul. rewrite get_affine, WQ, E.
  pose proof (pm_var C L m Q M H NQ) as PM. unfold gost_ec_point_mul in PM. rewrite FN in PM. cbn [option_map] in PM.
  assert (AQ : affine C Q = Some (val p x, val p y)) by (rewrite (cp_affine _ _ _ _ _ _ W), WQ; reflexivity).
  unfold c_mul in PM. rewrite E, AQ in PM. injection PM as PM. 
  destruct sim_facts as (S1 & S2 & _ & S4 & _).
  destruct (y_dec y) as [Y|Y].
  - destruct (family_eq_dec fam Edwards) as [EF|NF].
    + (* an argument of order two *)
      destruct (edw EF) as (DN & ST & EA & EB).
      assert (RZ : zrel K C w (k_T K c) (coord_rwnaf K Edwards c (f1 K) junk s l (mk_aff K x y (junk T2)))
                     (var_smul_rwnaf C s l Q)).
      { apply (rwnaf_sim C K Edwards c (f1 K) junk (zrel K C w (k_T K c))).
        - intros. eapply zr_dbl; eauto using Won, Wadd.
        - intros. eapply zr_add; eauto using Won, Wadd.
        - intros. eapply zr_neg; eauto using Wneg, Won, Wadd.
        - apply file_shape_ok.
        - pose proof ed_fam as ED. rewrite EF in ED. exact ED.
        - exact B.
        - exact LEN.
        - eapply zr_first; eauto using Won, char2. }
      rewrite EF. erewrite zr_affine; [|eauto using Won, Wadd..].
      unfold set_point. cbn [fst snd]. cbn [f0 zp val res]. rewrite Zmod_0_l. cbn [Z.eqb andb]. f_equal.
      rewrite PM in RZ. destruct RZ as [_ [RZ|RZ]]; [|exfalso; exact (var_not_two _ _ _ RZ)].
      rewrite (cp_affine _ _ _ _ _ _ W), RZ. reflexivity.
    + rewrite <- PM. apply rel_affine; [|rewrite PM; apply var_not_two].
      apply (rwnaf_sim C K fam c (f1 K) junk full_rel); auto using ed_fam.
      * apply file_shape_ok.
      * apply first_rel; [exact WQ|contradiction].
  - rewrite <- PM. apply rel_affine; [|rewrite PM; apply var_not_two].
    apply (rwnaf_sim C K fam c (f1 K) junk full_rel); auto using ed_fam.
    + apply file_shape_ok.
    + apply first_rel; [exact WQ|intros _; exact Y].
Qed.
Theorem mul_var_big m q : 0 <= m -> ~ fits C m -> MUL None q (Some m) = None.
Proof.
  intros N H. destruct q as [q|]; [|reflexivity]. unfold ec_point_mul, ec_mul. rewrite (bn_none m N H).
  destruct (get_point _ _ _ _ _); reflexivity.
Qed.
Theorem mul_var_zero m : MUL None (Some (affine C (pzero C))) (Some m) = None.
Proof. unfold ec_point_mul, ec_mul. rewrite get_affine, Wzero. reflexivity. Qed.

(** Neither the argument nor the result may be the point of order two, which only the Edwards curves have. *)
Definition order_two (P : pt C) : Prop := P <> pzero C /\ padd C P P = pzero C.
Lemma order_two_y P : order_two P <-> exists x, w P = Finite x (f0 K).
Proof.
  unfold order_two. split.
  - intros [NP D]. destruct (finite_of P NP) as (x & y & H). exists x. rewrite H. f_equal.
    assert (E : w (padd C P P) = Infinity) by (rewrite D; apply Wzero).
    rewrite Wadd, H in E. cbn [w_add] in E.
    replace (feqb K x x) with true in E by (symmetry; apply f_eqb; reflexivity).
    destruct (feqb K y (fopp K y)) eqn:EY; [|discriminate E]. apply f_eqb in EY.
    destruct (y_dec y) as [Y|Y]; [exact Y|exfalso].
    pose proof char2 as C2. apply C2.
    apply two_zero with (y := y); assumption.
  - intros [x H]. split; [intros ->; rewrite Wzero in H; discriminate H|].
    apply w_inf_zero. rewrite Wadd, H. cbn [w_add].
    replace (feqb K x x) with true by (symmetry; apply f_eqb; reflexivity).
    replace (feqb K (f0 K) (fopp K (f0 K))) with true; [reflexivity|]. symmetry. apply f_eqb.
    apply residue_eq. cbn [val res f0 fopp zp ropp]. rewrite !Zmod_0_l. reflexivity.
Qed.

Theorem mul_two n m Q : 0 <= n -> 0 <= m -> fits C n -> fits C m -> Q <> pzero C ->
  ~ order_two Q -> ~ order_two (padd C (smul n (gen C)) (smul m Q)) ->
  MUL (Some n) (Some (affine C Q)) (Some m) = Some (affine C (padd C (smul n (gen C)) (smul m Q))).
Proof.
  intros N M Hn Hm NQ O1 O2. destruct (bn_some n N Hn) as (ln & En & Bn & LENn).
  destruct (bn_some m M Hm) as (lm & Em & Bm & LENm). destruct (finite_of Q NQ) as (x & y & WQ).
  unfold ec_point_mul, ec_mul_two. rewrite get_affine, WQ, En, Em.
  pose proof (pm_two C L n m Q N M Hn Hm (or_introl NQ)) as PM.
  unfold gost_ec_point_mul in PM. rewrite FN in PM. cbn [option_map] in PM.
  assert (AQ : affine C Q = Some (val p x, val p y)) by (rewrite (cp_affine _ _ _ _ _ _ W), WQ; reflexivity).
  unfold c_mul_two in PM. rewrite En, Em, AQ in PM. injection PM as PM.
  destruct sim_facts as (S1 & S2 & S3 & S4 & S5 & S6 & S7 & S8).
  rewrite <- PM. apply rel_affine.
  - apply (two_sim C K fam c (f1 K) tab junk full_rel full_arel); auto using cols_pos.
    + apply file_shape_ok.
    + apply first_rel; [exact WQ|]. intros _ ->. apply O1, order_two_y. exists x. exact WQ.
  - rewrite PM. intros x' H. apply O2, order_two_y. exists x'. exact H.
Qed.
Theorem mul_two_lost n m Q : 0 <= n -> 0 <= m -> fits C n -> fits C m -> Q <> pzero C ->
  ~ order_two Q -> order_two (padd C (smul n (gen C)) (smul m Q)) ->
  MUL (Some n) (Some (affine C Q)) (Some m) = Some None.
Proof.
  intros N M Hn Hm NQ O1 O2. destruct (bn_some n N Hn) as (ln & En & Bn & LENn).
  destruct (bn_some m M Hm) as (lm & Em & Bm & LENm). destruct (finite_of Q NQ) as (x & y & WQ).
  assert (EF : fam = Edwards).
  { destruct (family_eq_dec fam Edwards) as [E|E]; [exact E|exfalso].
    apply order_two_y in O2. destruct O2 as [x' O2]. pose proof (Won (padd C (smul n (gen C)) (smul m Q))) as ON.
    rewrite O2 in ON. cbn [w_on] in ON. apply (odd_of E x'). rewrite <- ON.
    apply residue_eq. cbn [val res f0 fmul zp rmul]. rewrite Zmod_0_l. reflexivity. }
  unfold ec_point_mul, ec_mul_two. rewrite get_affine, WQ, En, Em.
  pose proof (pm_two C L n m Q N M Hn Hm (or_introl NQ)) as PM.
  unfold gost_ec_point_mul in PM. rewrite FN in PM. cbn [option_map] in PM.
  assert (AQ : affine C Q = Some (val p x, val p y)) by (rewrite (cp_affine _ _ _ _ _ _ W), WQ; reflexivity).
  unfold c_mul_two in PM. rewrite En, Em, AQ in PM. injection PM as PM.
  destruct sim_facts as (S1 & S2 & S3 & S4 & S5 & S6 & S7 & S8).
  assert (R : full_rel (coord_two K fam c (f1 K) tab junk s ln lm (mk_aff K x y (junk T2))) (var_smul_wnaf_two C s ln lm Q)).
  { apply (two_sim C K fam c (f1 K) tab junk full_rel full_arel); auto using cols_pos.
    + apply file_shape_ok.
    + apply first_rel; [exact WQ|]. intros _ ->. apply O1, order_two_y. exists x. exact WQ. }
  rewrite PM in R. apply order_two_y in O2. destruct O2 as [x' O2].
  destruct (edw EF) as (DN & ST & EA & EB). unfold full_rel in R. rewrite EF in R |- *.
  rewrite (er_affine_two K C (res p a) (res p b) w Won Wadd inv inv_0 c junk (k_d K c) (k_S K c) (k_T K c) DN ST EA EB eq_refl eq_refl eq_refl _ _ x' R O2).
  unfold set_point. cbn [fst snd]. cbn [f0 zp val res]. rewrite Zmod_0_l. reflexivity.
Qed.
Theorem mul_two_big n m q : 0 <= n -> 0 <= m -> ~ (fits C n /\ fits C m) -> MUL (Some n) q (Some m) = None.
Proof.
  intros N M H. destruct q as [q|]; [|reflexivity]. unfold ec_point_mul, ec_mul_two.
  destruct (get_point _ _ _ _ _); [|reflexivity].
  assert (D : ~ fits C n \/ ~ fits C m).
  { unfold fits in *. destruct (scalar_fits (gname C) n), (scalar_fits (gname C) m); try (left; congruence); try (right; congruence).
    exfalso. apply H. split; reflexivity. }
  destruct D as [D|D]; [rewrite (bn_none n N D); reflexivity|rewrite (bn_none m M D)].
  destruct (bn2lebinpad (s_nb s) n); reflexivity.
Qed.
Theorem mul_two_zero n m : MUL (Some n) (Some (affine C (pzero C))) (Some m) = None.
Proof. unfold ec_point_mul, ec_mul_two. rewrite get_affine, Wzero. reflexivity. Qed.
Lemma fam_two Q : order_two Q -> fam = Edwards.
Proof.
  intros O. destruct (family_eq_dec fam Edwards) as [E|E]; [exact E|exfalso].
  apply order_two_y in O. destruct O as [x O].
  pose proof (cp_on _ _ _ _ _ _ W Q) as ON. rewrite O in ON. cbn [w_on] in ON.
  apply (odd_of E x). rewrite <- ON.
  apply residue_eq. cbn [val res f0 fmul zp rmul]. rewrite Zmod_0_l. reflexivity.
Qed.
Lemma sval_bn n l : 0 <= n -> fits C n -> bn2lebinpad (s_nb s) n = Some l -> sval l = n.
Proof.
  intros N H. unfold fits in H. rewrite (scalar_fits_file _ (wide C) f _ FN) in H. unfold bn2lebinpad.
  rewrite Z.abs_eq by exact N. rewrite H. intros E. injection E as <-. unfold sval.
  apply Z.ltb_lt in H. rewrite le2n_n2le_abs; rewrite Z.abs_eq; auto.
Qed.

(** Multiplied by a number other than zero, an argument of order two makes the whole sum infinity. *)
Theorem mul_two_order_two n m Q : 0 <= n -> 0 < m -> fits C n -> fits C m -> order_two Q ->
  MUL (Some n) (Some (affine C Q)) (Some m) = Some None.
Proof.
  intros N M Hn Hm O. pose proof (fam_two Q O) as EF.
  pose proof O as O'. apply order_two_y in O'. destruct O' as [x WQ].
  destruct (bn_some n N Hn) as (ln & En & Bn & LENn).
  destruct (bn_some m ltac:(lia) Hm) as (lm & Em & Bm & LENm).
  pose proof (sval_bn m lm ltac:(lia) Hm Em) as SV.
  unfold ec_point_mul, ec_mul_two. rewrite get_affine, WQ, En, Em.
  destruct (edw EF) as (DN & ST & EA & EB). rewrite EF.
  rewrite z_affine.
  - unfold set_point. cbn [fst snd]. cbn [f0 zp val res]. rewrite Zmod_0_l. reflexivity.
  - apply coord_two_zero; auto; [apply file_shape_ok|lia|].
    pose proof (zr_first K C (res p a) (res p b) w (cp_on _ _ _ _ _ _ W) char2 c junk
      (k_d K c) (k_S K c) (k_T K c) DN ST EA EB eq_refl (mk_aff K x (f0 K) (junk T2)) Q WQ eq_refl) as [Z _]. exact Z.
Qed.
Lemma two_zero_scalar n P P' : bn2lebinpad (s_nb s) n <> None ->
  get_point K (res p) junk s P <> None -> get_point K (res p) junk s P' <> None ->
  MUL (Some n) (Some P) (Some 0) = MUL (Some n) (Some P') (Some 0).
Proof.
  intros En G G'. unfold ec_point_mul, ec_mul_two.
  destruct (get_point K (res p) junk s P) as [q|]; [|contradiction].
  destruct (get_point K (res p) junk s P') as [q'|]; [|contradiction].
  destruct (bn2lebinpad (s_nb s) n) as [ln|]; [|contradiction].
  destruct (bn2lebinpad (s_nb s) 0) as [lm|] eqn:Em; [|reflexivity].
  assert (E : coord_two K fam c (f1 K) tab junk s ln lm q = coord_two K fam c (f1 K) tab junk s ln lm q');
    [|rewrite E; reflexivity]. unfold coord_two.
  rewrite (turns_unused K c tab junk fam (f1 K) _ (coord_precomp K fam c (f1 K) junk q')); [reflexivity|].
  apply Forall_rev. rewrite Forall_forall. intros [x y] I. apply in_combine_r in I. cbn [snd].
  assert (Z : Forall (fun d => d = 0) (scalar_wnaf s lm)).
  { assert (B0 : bn2lebinpad (s_nb s) 0 = Some (repeat 0%N (s_nb s))) by (destruct f, (wide C); reflexivity).
    rewrite B0 in Em. injection Em as <-.
    assert (B : forallb (Z.eqb 0) (scalar_wnaf s (repeat 0%N (s_nb s))) = true) by (destruct f, (wide C); vm_compute; reflexivity).
    rewrite forallb_forall in B. rewrite Forall_forall. intros d I'. symmetry. apply Z.eqb_eq, B, I'. }
  rewrite Forall_forall in Z. apply Z, I.
Qed.
Theorem mul_two_zero_scalar n Q : 0 <= n -> fits C n -> Q <> pzero C ->
  MUL (Some n) (Some (affine C Q)) (Some 0) = Some (affine C (smul n (gen C))).
Proof.
  intros N Hn NQ. destruct (bn_some n N Hn) as (ln & En & Bn & LENn).
  destruct (finite_of Q NQ) as (x & y & WQ).
  destruct (finite_of (gen C) (l_gen C L)) as (xg & yg & WG).
  rewrite (two_zero_scalar n (affine C Q) (affine C (gen C))).
  - rewrite mul_two; auto.
    + rewrite smul_0, (l_comm C L), (l_zero C L). reflexivity.
    + lia.
    + unfold fits. destruct (gname C); reflexivity.
    + apply L.
    + intros O. apply order_two_y in O. destruct O as [x' O].
      apply (two_order _ _ O), (l_order C L).
    + intros O. apply order_two_y in O. destruct O as [x' O].
      rewrite smul_0, (l_comm C L), (l_zero C L) in O. apply (gen_not_two n x' O).
  - rewrite En. discriminate.
  - rewrite get_affine, WQ. discriminate.
  - rewrite get_affine, WG. discriminate.
Qed.
End Main.
