(** The tables of the generated files hold the multiples of the generators: soundness of the checks of a file. *)
From Coq Require Import ZArith Znumtheory List Bool Lia Uint63 Ring Field.
From Verif Require Import IntPoly EcFormulaSpec EcFormulaModel FieldZp EcLadderModel EcSpec EcProofs ParamsModel EcConstModel
  EcInvProofs EcConstProofs EcCoordModel EcCurveSpec EcTableCheck EcTableModel.
From Verif Require EcLegacyProofs EcFormulaProofs.
Import ListNotations.
Local Open Scope Z_scope.

(** ** Limbs of a file to coefficients at 2^26 *)
Definition wplace (w : Z) : nat * int := (Z.to_nat (w / 26), of_Z (2 ^ (w mod 26))).
Fixpoint csum (ws : list (nat * int)) (l : list int) : list int :=
  match ws, l with
  | (z, m) :: ws', x :: l' => ladd (place x z m) (csum ws' l')
  | _, _ => []
  end.
Definition trim (n : nat) (l : list int) : list int := if allzero (skipn n l) then firstn n l else l.
Definition conv (n : nat) (ws : list (nat * int)) (l : list int) : list int := trim n (pnorm 0 (csum ws l)).
Lemma wplace_ok w : 0 <= w -> to_Z (snd (wplace w)) < 2 ^ 26 /\ to_Z (snd (wplace w)) * LB ^ Z.of_nat (fst (wplace w)) = 2 ^ w.
Proof.
  intros W. unfold wplace. cbn [fst snd]. pose proof (Z.mod_pos_bound w 26 ltac:(lia)) as M.
  assert (P : 0 < 2 ^ (w mod 26) < 2 ^ 26) by (split; [apply Z.pow_pos_nonneg; lia|apply Z.pow_lt_mono_r; lia]).
  rewrite of_Z_spec, wB_val, Z.mod_small by lia. split; [apply P|].
  rewrite Z2Nat.id by (apply Z.div_pos; lia). unfold LB. assert (0 <= w / 26) by (apply Z.div_pos; lia). rewrite <- Z.pow_mul_r, <- Z.pow_add_r by lia.
  f_equal. pose proof (Z.div_mod w 26). lia.
Qed.
Lemma csum_ok zs : Forall (fun w => 0 <= w) zs -> (length zs <= 32)%nat -> forall l,
  peval (csum (map wplace zs) l) = eval_limbs zs (map to_Z l) /\ below (2 ^ 52 * Z.of_nat (length zs) + 1) (csum (map wplace zs) l).
Proof.
  induction 1 as [|w zs W H IH]; intros N l; [destruct l; split; [reflexivity|constructor|reflexivity|constructor]|].
  destruct l as [|x l]; [split; [reflexivity|constructor]|]. cbn [length] in N. destruct (IH ltac:(lia) l) as [E B].
  destruct (wplace_ok w W) as [M V]. destruct (wplace w) as [z m] eqn:WP. cbn [fst snd] in M, V.
  destruct (place_ok x z m M) as [E1 B1].
  cbn [map csum]. rewrite WP. cbn [csum map eval_limbs length].
  destruct (ladd_ok _ _ _ _ B1 B) as [E2 B2]; [lia|lia|lia|]. rewrite E2, E1, E, V. split; [reflexivity|].
  eapply below_le; [exact B2|]. lia.
Qed.
Lemma peval_app a b : peval (a ++ b) = peval a + LB ^ Z.of_nat (length a) * peval b.
Proof.
  induction a as [|x a IH]; cbn [app peval length]; [change (Z.of_nat 0) with 0; rewrite Z.pow_0_r; ring|].
  rewrite IH, Nat2Z.inj_succ, Z.pow_succ_r by lia. ring.
Qed.
Lemma trim_ok n l : peval (trim n l) = peval l.
Proof.
  unfold trim. destruct (allzero (skipn n l)) eqn:E; [|reflexivity]. apply allzero_ok in E.
  rewrite <- (firstn_skipn n l) at 2. rewrite peval_app, E. ring.
Qed.
Lemma conv_ok n zs l : Forall (fun w => 0 <= w) zs -> (length zs <= 32)%nat -> peval (conv n (map wplace zs) l) = eval_limbs zs (map to_Z l).
Proof.
  intros W N. destruct (csum_ok zs W N l) as [E B]. unfold conv. rewrite trim_ok.
  rewrite (pnorm_ok _ _ (2 ^ 52 * Z.of_nat (length zs) + 1)); [rewrite E, to_Z_0; ring|exact B|rewrite to_Z_0; lia|lia].
Qed.
(** The weights of the numbers written in EcLut*.v *)
Definition wweights (w64 : bool) (f : ecp_file) : list Z := if halved w64 f then weights false f else weights w64 f.
Definition nlimb (f : ecp_file) : nat := match f with F_512A | F_512B | F_512C => 20 | _ => 10 end.
Definition cv (w64 : bool) (f : ecp_file) : list int -> list int := conv (nlimb f) (map wplace (wweights w64 f)).
Lemma join_ok f l : halved true f = true -> length l = length (weights false f) ->
  eval_limbs (weights true f) (join l) = eval_limbs (weights false f) l.
Proof.
  intros H. destruct f; try discriminate H; cbn [weights length]; intros L;
  repeat (destruct l as [|? l]; cbn [length] in L; [discriminate L|apply Nat.succ_inj in L]); (destruct l; [|discriminate L]);
  cbn [join eval_limbs]; ring.
Qed.
Lemma cv_ok w64 f l : length l = length (wweights w64 f) -> peval (cv w64 f l) = eval_limbs (weights w64 f) (table_limbs w64 f l).
Proof.
  intros L. unfold cv. rewrite conv_ok.
  - unfold wweights, table_limbs in *. destruct (halved w64 f) eqn:H; [|reflexivity].
    assert (w64 = true) as -> by (destruct f; try discriminate H; exact H).
    symmetry. apply join_ok; [exact H|]. rewrite map_length. exact L.
  - destruct f, w64; cbn; repeat constructor; lia.
  - destruct f, w64; cbn; lia.
Qed.

(** ** The data of a file *)
Definition fdat (f : ecp_file) : fdata :=
  match f with
  | F_A => mk_fdata [0x3fffd97;0x3ffffff;0x3ffffff;0x3ffffff;0x3ffffff;0x3ffffff;0x3ffffff;0x3ffffff;0x3ffffff;0x3fffff]%uint63
 [0x7ffd707;0x7fffffe;0x7fffffe;0x7fffffe;0x7fffffe;0x7fffffe;0x7fffffe;0x7fffffe;0x7fffffe;0x43ffffe]%uint63 0 0x1%uint63
  | F_B => mk_fdata [0xc99;0x0;0x0;0x0;0x0;0x0;0x0;0x0;0x0;0x200000]%uint63
 [0x4019fb9;0x7ffffff;0x7fffffe;0x7fffffe;0x7fffffe;0x7fffffe;0x7fffffe;0x7fffffe;0x7fffffe;0x41ffffe]%uint63 9 0x400000%uint63
  | F_C => mk_fdata [0x22d759b;0x23dee40;0x11d3799;0x219e241;0x2cf846e;0x2d0722a;0x1ec85e6;0x2041eac;0x5f5a85;0x26e7d8]%uint63
 [0x6cb6759;0x48820cd;0x614dd31;0x4badce1;0x7e2f7a7;0x7fc0a7f;0x7f21f53;0x66f3c2f;0x60e8c13;0x41a73c9]%uint63 9 0x400000%uint63
  | F_Test => mk_fdata [0x431;0x0;0x0;0x0;0x0;0x0;0x0;0x0;0x0;0x200000]%uint63
 [0x4008a51;0x7ffffff;0x7fffffe;0x7fffffe;0x7fffffe;0x7fffffe;0x7fffffe;0x7fffffe;0x7fffffe;0x41ffffe]%uint63 9 0x400000%uint63
  | F_256A => mk_fdata [0x3fffd97;0x3ffffff;0x3ffffff;0x3ffffff;0x3ffffff;0x3ffffff;0x3ffffff;0x3ffffff;0x3ffffff;0x3fffff]%uint63
 [0x7ffd707;0x7fffffe;0x7fffffe;0x7fffffe;0x7fffffe;0x7fffffe;0x7fffffe;0x7fffffe;0x7fffffe;0x43ffffe]%uint63 0 0x1%uint63
  | F_512A => mk_fdata [0x3fffdc7;0x3ffffff;0x3ffffff;0x3ffffff;0x3ffffff;0x3ffffff;0x3ffffff;0x3ffffff;0x3ffffff;0x3ffffff;0x3ffffff;0x3ffffff;0x3ffffff;0x3ffffff;0x3ffffff;0x3ffffff;0x3ffffff;0x3ffffff;0x3ffffff;0x3ffff]%uint63
 [0x7fdc4c7;0x7fffffe;0x7fffffe;0x7fffffe;0x7fffffe;0x7fffffe;0x7fffffe;0x7fffffe;0x7fffffe;0x7fffffe;0x7fffffe;0x7fffffe;0x7fffffe;0x7fffffe;0x7fffffe;0x7fffffe;0x7fffffe;0x7fffffe;0x7fffffe;0x403fffe]%uint63 0 0x1%uint63
  | F_512B => mk_fdata [0x6f;0x0;0x0;0x0;0x0;0x0;0x0;0x0;0x0;0x0;0x0;0x0;0x0;0x0;0x0;0x0;0x0;0x0;0x0;0x20000]%uint63
 [0x400de6f;0x7ffffff;0x7fffffe;0x7fffffe;0x7fffffe;0x7fffffe;0x7fffffe;0x7fffffe;0x7fffffe;0x7fffffe;0x7fffffe;0x7fffffe;0x7fffffe;0x7fffffe;0x7fffffe;0x7fffffe;0x7fffffe;0x7fffffe;0x7fffffe;0x401fffe]%uint63 19 0x40000%uint63
  | F_512C => mk_fdata [0x3fffdc7;0x3ffffff;0x3ffffff;0x3ffffff;0x3ffffff;0x3ffffff;0x3ffffff;0x3ffffff;0x3ffffff;0x3ffffff;0x3ffffff;0x3ffffff;0x3ffffff;0x3ffffff;0x3ffffff;0x3ffffff;0x3ffffff;0x3ffffff;0x3ffffff;0x3ffff]%uint63
 [0x7fdc4c7;0x7fffffe;0x7fffffe;0x7fffffe;0x7fffffe;0x7fffffe;0x7fffffe;0x7fffffe;0x7fffffe;0x7fffffe;0x7fffffe;0x7fffffe;0x7fffffe;0x7fffffe;0x7fffffe;0x7fffffe;0x7fffffe;0x7fffffe;0x7fffffe;0x403fffe]%uint63 0 0x1%uint63
  end.

Definition edw (f : ecp_file) : bool := match file_family f with Edwards => true | _ => false end.
(** The constants, as coefficients: a, or d and 1 *)
Definition lconst (w64 : bool) (f : ecp_file) (c : const_name) : Z := eval_limbs (weights w64 f) (const_limbs w64 f c).
Fixpoint zlimbs (n : nat) (z : Z) : list int := match n with O => [] | S n' => of_Z (z mod LB) :: zlimbs n' (z / LB) end.
Definition wtab (w64 : bool) (f : ecp_file) : list (list ipt) :=
  map (map (fun e => (cv w64 f (nth 0 e []), cv w64 f (nth 1 e [])))) (lut_words w64 f).
Definition etab (w64 : bool) (f : ecp_file) : list (list ept) :=
  map (map (fun e => (cv w64 f (nth 0 e []), cv w64 f (nth 1 e []), cv w64 f (nth 2 e [])))) (lut_words w64 f).
(** Every column has 16 entries, every entry its coordinates and every coordinate its limbs. *)
Definition lens (w64 : bool) (f : ecp_file) : bool :=
  (length (lut_words w64 f) =? s_cols (file_shape w64 f))%nat &&
  forallb (fun c => (length c =? 16)%nat &&
    forallb (fun e => (length e =? (if edw f then 3 else 2))%nat && forallb (fun x => (length x =? length (wweights w64 f))%nat) e) c)
    (lut_words w64 f).
Lemma lens_ok w64 f : lens w64 f = true -> forall j k, (j < s_cols (file_shape w64 f))%nat -> (k < 16)%nat ->
  exists c e, nth_error (lut_words w64 f) j = Some c /\ nth_error c k = Some e /\ nth k (nth j (lut_words w64 f) []) [] = e /\
    forall i, (i < (if edw f then 3 else 2))%nat -> length (nth i e []) = length (wweights w64 f).
Proof.
  unfold lens. intros H j k J K. apply andb_true_iff in H. destruct H as [H1 H2]. apply Nat.eqb_eq in H1. rewrite <- H1 in J.
  rewrite forallb_forall in H2.
  destruct (nth_error (lut_words w64 f) j) as [c|] eqn:Ec; [|apply nth_error_None in Ec; lia].
  specialize (H2 c (nth_error_In _ _ Ec)). apply andb_true_iff in H2. destruct H2 as [H2 H3]. apply Nat.eqb_eq in H2.
  destruct (nth_error c k) as [e|] eqn:Ee; [|apply nth_error_None in Ee; lia].
  rewrite forallb_forall in H3. specialize (H3 e (nth_error_In _ _ Ee)). apply andb_true_iff in H3. destruct H3 as [H3 H4]. apply Nat.eqb_eq in H3.
  exists c, e. split; [reflexivity|]. split; [exact Ee|]. split.
  - rewrite (nth_error_nth _ _ [] Ec). apply nth_error_nth. exact Ee.
  - intros i I. rewrite forallb_forall in H4. apply Nat.eqb_eq. apply H4. apply nth_In. lia.
Qed.

Section Table.
Variables (p : Z) (Pp : prime p) (w64 : bool) (f : ecp_file).
Notation K := (zp p Pp).
Add Field KF8 : (f_theory (zp p Pp)).
Notation D := (fdat f).
Hypothesis FD : fd_ok D p (mont_r f) = true.
Hypothesis LEN : lens w64 f = true.
Hypothesis GP : 3 < p.
Notation el := (elt p Pp (mont_r f)).
Lemma table_elt_el l : length l = length (wweights w64 f) -> table_elt p Pp w64 f l = el (cv w64 f l).
Proof. intros L. unfold table_elt, limbs_elt, elt. rewrite (cv_ok w64 f l L). reflexivity. Qed.
Lemma two_nz : fadd K (f1 K) (f1 K) <> f0 K.
Proof.
  rewrite (two_res p Pp). apply (res_ne p Pp); [lia|]. apply Z.eqb_neq. rewrite Z.sub_0_r, Z.mod_small; lia.
Qed.
Variable C : group.
Variables a b : Z.
Variable w : pt C -> wpoint K.
Hypothesis L : ec_laws C.
Hypothesis CP : curve_points C p Pp a b w.
Notation M n := (w (smul n (gen C))).
Lemma M_add n m : M (n + m) = w_add K (res p a) (M n) (M m).
Proof. rewrite (sm_add C L), (cp_add _ _ _ _ _ _ CP). reflexivity. Qed.

(** *** Weierstrass *)
Variables gx gy : Z.
Hypothesis GEN : M 1 = @Finite K (res p gx) (res p gy).
Definition wstart (al : list int) (T : list (list ipt)) : bool :=
  match T with
  | ((x, y) :: _) :: _ => same p (peval al) (a * mont_r f) && same p (peval x) (gx * mont_r f) && same p (peval y) (gy * mont_r f)
  | _ => false
  end.
Lemma el_z l z : same p (peval l) (z * mont_r f) = true -> el l = res p z.
Proof using FD.
  intros H. destruct (fd_props D p (mont_r f) FD) as (P1 & _ & _ & _ & NR & _).
  apply (elt_eq p Pp); [exact P1| |exact H]. apply Z.eqb_neq. rewrite Z.sub_0_r. exact NR.
Qed.
Definition wgood (n : Z) (P : ipt) : Prop := M n = ifin p Pp (mont_r f) P.
Theorem w_table al T ws r : (2 <= r)%nat -> wstart al T = true ->
  cols ipt wit (w_add_ok D) (w_dbl_ok D al) r T ws = true ->
  forall j c k A, nth_error T j = Some c -> nth_error c k = Some A ->
  M ((2 * Z.of_nat k + 1) * 2 ^ (5 * Z.of_nat r * Z.of_nat j)) = ifin p Pp (mont_r f) A.
Proof using FD GP L CP GEN.
  intros R ST CH j c k A Nj Nk.
  assert (EA : el al = res p a).
  { apply el_z. unfold wstart in ST. destruct T as [|[|[x y] ?] ?]; try discriminate. apply andb_true_iff in ST. destruct ST as [ST _].
    apply andb_true_iff in ST. apply ST. }
  assert (G1 : forall E0 t cs', T = (E0 :: t) :: cs' -> wgood 1 E0).
  { intros [x y] t cs' ->. cbn [wstart] in ST. apply andb_true_iff in ST. destruct ST as [ST S3]. apply andb_true_iff in ST. destruct ST as [_ S2].
    unfold wgood, ifin. cbn [fst snd]. rewrite GEN, (el_z _ _ S2), (el_z _ _ S3). reflexivity. }
  pose proof (cols_good ipt wit (w_add_ok D) (w_dbl_ok D al) wgood) as CG.
  specialize (CG ltac:(intros n m P Q S x GP' GQ H; unfold wgood in *; rewrite M_add, GP', GQ; exact (w_add_sound D p Pp _ FD _ _ _ _ _ H))).
  specialize (CG ltac:(intros n P S x GP' H; unfold wgood in *; replace (2 * n) with (n + n) by ring; rewrite M_add, GP', <- EA; exact (w_dbl_sound D p Pp _ FD _ _ _ _ two_nz H))).
  specialize (CG r R T ws 1 CH G1 j c k A Nj Nk). rewrite Z.mul_1_l in CG. exact CG.
Qed.
Definition same_ipt (P Q : ipt) : bool := psame (fst P) (fst Q) && psame (snd P) (snd Q).

(** *** Edwards *)
Variables (d s t : F K).
Hypothesis NS : nonsquare K d.
Hypothesis ST : ew_params K s t d.
Hypothesis EA : res p a = ew_a K s t.
Definition estart (dl ol : list int) (dz sz tz : Z) (T : list (list ept)) : bool :=
  match T with
  | ((x, y, xy) :: _) :: _ =>
      let u := peval x in let v := peval y in
      (mont_r f =? 1) && same p (peval ol) 1 && same p (peval dl) dz && same p (u * u + v * v) (1 + dz * (u * u) * (v * v)) && same p (u * v) (peval xy) &&
      negb (same p u 0) && negb (same p v 1) && same p (sz * (1 + v)) ((gx - tz) * (1 - v)) && same p (sz * (1 + v)) (gy * ((1 - v) * u))
  | _ => false
  end.
Definition egood (dl : list int) (n : Z) (P : ept) : Prop :=
  e_on K d (eaff p Pp (mont_r f) P) /\ e_prod p Pp (mont_r f) P /\ legacy K s t (eaff p Pp (mont_r f) P) = M n.
Theorem e_table dl ol dz sz tz T ws r : (2 <= r)%nat -> res p dz = d -> res p sz = s -> res p tz = t -> estart dl ol dz sz tz T = true ->
  cols ept wit (e_add_ok D dl ol) (fun P S w => e_add_ok D dl ol P P S w) r T ws = true ->
  forall j c k A, nth_error T j = Some c -> nth_error c k = Some A ->
  egood dl ((2 * Z.of_nat k + 1) * 2 ^ (5 * Z.of_nat r * Z.of_nat j)) A.
Proof using FD GP L CP GEN NS ST EA.
  intros R ED ES ET STA CH.
  assert (H0 : mont_r f = 1 /\ el ol = f1 K /\ el dl = d /\ forall E0 tl cs', T = (E0 :: tl) :: cs' -> egood dl 1 E0).
  { unfold estart in STA. destruct T as [|[|[[x y] xy] c0] cs0]; try discriminate. cbv zeta in STA.
    repeat match goal with H : (_ && _)%bool = true |- _ => apply andb_true_iff in H; destruct H end.
    repeat match goal with H : negb _ = true |- _ => apply negb_true_iff in H end.
    match goal with H : (mont_r f =? 1) = true |- _ => apply Z.eqb_eq in H; rename H into R1 end.
    assert (E1 : forall l, el l = res p (peval l)).
    { intros l. apply el_z. rewrite R1. apply Z.eqb_eq. replace (peval l - peval l * 1) with 0 by ring. apply Z.mod_0_l. lia. }
    assert (P1 : 1 < p) by lia.
    repeat match goal with H : same p _ _ = true |- _ => apply (same_res p _ _ P1) in H end.
    split; [exact R1|]. split; [rewrite E1; change (f1 K) with (res p 1); assumption|]. split; [rewrite E1; congruence|].
    intros E0 tl cs' EQ. injection EQ as <- _ _. unfold egood, eaff, e_prod. cbn [fst snd]. rewrite !E1.
    set (u := peval x) in *. set (v := peval y) in *.
    rewrite <- ED, <- ES, <- ET.
    assert (NU : res p u <> f0 K) by (apply (res_ne p Pp); assumption).
    assert (NV : fsub K (f1 K) (res p v) <> f0 K).
    { intros Z. match goal with H : same p v 1 = false |- _ => apply Z.eqb_neq in H; apply H end.
      change (f1 K) with (res p 1) in Z. rewrite (r_sub p Pp) in Z. apply (f_equal (val p)) in Z. cbn [val res f0 zp] in Z.
      rewrite Zmod_0_l in Z. apply Z_mod_zero_opp_full in Z. replace (v - 1) with (- (1 - v)) by ring. exact Z. }
    change (f1 K) with (res p 1) in *.
    assert (q1 : forall y z, res p y = res p z -> y mod p = z mod p) by (intros ? ? Q; apply (f_equal (val p)) in Q; exact Q).
    split; [|split].
    - cbn [e_on]. change (f1 K) with (res p 1). rewrite ?(r_mul p Pp), ?(r_add p Pp), ?(r_mul p Pp), ?(r_add p Pp).
      match goal with H : res p (u * u + v * v) = _ |- _ => rewrite H end. reflexivity.
    - rewrite (r_mul p Pp). symmetry. assumption.
    - unfold legacy. destruct (feqb K (res p u) (f0 K)) eqn:Q; [apply f_eqb in Q; contradiction|].
      change (M 1) with (w (smul 1 (gen C))). rewrite GEN. f_equal.
      + assert (A : fmul K (res p sz) (fadd K (res p 1) (res p v)) = fmul K (fsub K (res p gx) (res p tz)) (fsub K (res p 1) (res p v))).
        { rewrite !(r_add p Pp), !(r_sub p Pp), !(r_mul p Pp). assumption. }
        revert A NV. generalize (res p sz) (res p v) (res p gx) (res p tz). change (res p 1) with (f1 K).
        enough (G : forall s' v' g' t' : F K, fmul K s' (fadd K (f1 K) v') = fmul K (fsub K g' t') (fsub K (f1 K) v') -> fsub K (f1 K) v' <> f0 K ->
          fadd K (fmul K s' (fdiv K (fadd K (f1 K) v') (fsub K (f1 K) v'))) t' = g') by (apply G).
        intros s' v' g' t' A NV'. transitivity (fadd K (fdiv K (fmul K s' (fadd K (f1 K) v')) (fsub K (f1 K) v')) t'); [field; exact NV'|].
        rewrite A. field. exact NV'.
      + assert (A : fmul K (res p sz) (fadd K (res p 1) (res p v)) = fmul K (res p gy) (fmul K (fsub K (res p 1) (res p v)) (res p u))).
        { rewrite !(r_add p Pp), !(r_sub p Pp), !(r_mul p Pp). assumption. }
        revert A NV NU. generalize (res p sz) (res p v) (res p gy) (res p u). change (res p 1) with (f1 K).
        enough (G : forall s' v' g' u' : F K, fmul K s' (fadd K (f1 K) v') = fmul K g' (fmul K (fsub K (f1 K) v') u') -> fsub K (f1 K) v' <> f0 K -> u' <> f0 K ->
          fmul K s' (fdiv K (fadd K (f1 K) v') (fmul K (fsub K (f1 K) v') u')) = g') by (apply G).
        intros s' v' g' u' A NV' NU'. transitivity (fdiv K (fmul K s' (fadd K (f1 K) v')) (fmul K (fsub K (f1 K) v') u')); [field; split; assumption|].
        rewrite A. field. split; assumption. }
  destruct H0 as (R1 & EO & EDL & G1).
  pose proof (cols_good ept wit (e_add_ok D dl ol) (fun P S w => e_add_ok D dl ol P P S w) (egood dl)) as CG.
  assert (AD : forall n m P Q S x, egood dl n P -> egood dl m Q -> e_add_ok D dl ol P Q S x = true -> egood dl (n + m) S).
  { intros n m P Q S x (O1 & T1 & W1) (O2 & T2 & W2) H.
    rewrite <- EDL in O1, O2. assert (NS' : nonsquare K (el dl)) by (rewrite EDL; exact NS).
    destruct (e_add_sound D p Pp _ FD dl ol P Q S x two_nz EO NS' O1 O2 T1 T2 H) as [E TS].
    rewrite EDL in *. split; [|split; [exact TS|]].
    - rewrite <- E. apply EcFormulaProofs.e_add_on; [exact NS|exact two_nz|exact O1|exact O2].
    - rewrite <- E, M_add, <- W1, <- W2, EA. apply EcLegacyProofs.legacy_add; try assumption; [exact two_nz|].
      rewrite (three_res p Pp). apply (res_ne p Pp); [lia|]. apply Z.eqb_neq. rewrite Z.sub_0_r, Z.mod_small; lia. }
  specialize (CG AD).
  specialize (CG ltac:(intros n P S x GP' H; replace (2 * n) with (n + n) by ring; exact (AD n n P P S x GP' GP' H))).
  intros j c k A Nj Nk. specialize (CG r R T ws 1 CH G1 j c k A Nj Nk). rewrite Z.mul_1_l in CG. exact CG.
Qed.
End Table.
