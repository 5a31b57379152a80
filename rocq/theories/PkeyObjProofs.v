(** The key objects of PkeyObjModel.v behave as the keys of PkeyObjSpec.v. *)
From Coq Require Import String Ascii ZArith List Bool Lia Znumtheory.
From Verif Require Import Bytes EcLadderModel EcSpec EcModel EcLadderProofs EcProofs ParamsModel AmethModel PkeyObjModel PkeyObjSpec.
Import ListNotations.
Local Open Scope Z_scope.

Lemma alg_eqb_eq a b : alg_eqb a b = true <-> a = b.
Proof. destruct a, b; cbn; split; intros; congruence. Qed.
Lemma alg_eqb_dec a b : alg_eqb a b = if alg_dec a b then true else false.
Proof. destruct a, b; reflexivity. Qed.
Lemma type_eqb_dec a b : type_eqb a b = if type_dec a b then true else false.
Proof. destruct a as [[]|], b as [[]|]; reflexivity. Qed.
Lemma nid_eqb_dec a b : curve_nid_eqb a b = if nid_dec a b then true else false.
Proof. destruct a, b; reflexivity. Qed.
Lemma nid_eqb_refl a : curve_nid_eqb a a = true.
Proof. destruct a; reflexivity. Qed.
Lemma xy_eqb_eq a b : xy_eqb a b = true <-> a = b.
Proof.
  destruct a as [[x y]|], b as [[x' y']|]; cbn [xy_eqb]; split; intros H; try congruence; try discriminate H.
  - apply andb_prop in H as [H1 H2]. apply Z.eqb_eq in H1, H2. congruence.
  - inversion H; subst. rewrite !Z.eqb_refl. reflexivity.
Qed.
Lemma xy_eqb_dec a b : xy_eqb a b = if xy_dec a b then true else false.
Proof.
  destruct (xy_dec a b) as [E|E].
  - apply xy_eqb_eq, E.
  - destruct (xy_eqb a b) eqn:H; [apply xy_eqb_eq in H; contradiction|reflexivity].
Qed.
Lemma map_put {A B} (f : A -> B) s h x : map f (put s h x) = put (map f s) h (f x).
Proof. revert h; induction s as [|y s IH]; intros [|h]; cbn; [reflexivity..|f_equal; apply IH]. Qed.
Lemma put_forall {A} (P : A -> Prop) s h x : Forall P s -> P x -> Forall P (put s h x).
Proof. intros F; revert h; induction F as [|y s Py F IH]; intros [|h] Px; cbn; constructor; auto. Qed.
Lemma str_app_assoc (a b c : string) : ((a ++ b) ++ c = a ++ b ++ c)%string.
Proof. induction a as [|x a IH]; cbn; [reflexivity|f_equal; apply IH]. Qed.
Lemma keygen_first l : keygen_draw l = first_nonzero l.
Proof. unfold first_nonzero. induction l as [|d l IH]; cbn [keygen_draw find]; [reflexivity|]. destruct (d =? 0); cbn [negb]; [exact IH|reflexivity]. Qed.

Lemma eqb_if z : (if z =? 1 then 1 else 0) = (if Z.eq_dec z 1 then 1 else 0).
Proof. destruct (Z.eqb_spec z 1), (Z.eq_dec z 1); congruence. Qed.

Section Rep.
Variable lib : curve_nid -> option curve.
Hypothesis SO : sets_ok lib.

(** The object that is the key. *)
Definition rep (k : key) : object :=
  match k with
  | K_blank => mk_obj None None
  | K_typed a => mk_obj (Some a) None
  | K_params a c => mk_obj (Some a) (Some (mk_ec (Some c) None None))
  | K_public a c xy => mk_obj (Some a) (Some (mk_ec (Some c) None (Some (mk_point c (Some xy)))))
  | K_pair a c d => mk_obj (Some a) (Some (mk_ec (Some c) (Some d) (Some (mk_point c (multiple lib c d)))))
  end.
(** Keys that occur: a supported algorithm, a known set, a number that is not negative. *)
Definition good (k : key) : Prop :=
  (forall a, key_type k = Some a -> a <> A_other) /\
  (forall c, key_set k = Some c -> lib c <> None) /\
  (forall d, key_private k = Some d -> 0 <= d).

Lemma lib_name n C : lib n = Some C -> gname (cv C) = n.
Proof. intros E. apply (proj2 SO n C E). Qed.
Lemma lib_laws n C : lib n = Some C -> ec_laws (cv C).
Proof. intros E. apply (proj2 SO n C E). Qed.
Lemma rep_type k : o_type (rep k) = key_type k.
Proof. destruct k; reflexivity. Qed.
Lemma rep_group k : (match o_ec (rep k) with Some e => e_group e | None => None end) = key_set k.
Proof. destruct k; reflexivity. Qed.
Lemma rep_ec_none k : o_ec (rep k) = None -> key_set k = None.
Proof. destruct k; cbn; congruence. Qed.

Lemma compute_public_pair n C d pub : lib n = Some C -> 0 <= d ->
  compute_public lib (mk_ec (Some n) (Some d) pub) =
  if scalar_fits n d then (1, mk_ec (Some n) (Some d) (Some (mk_point n (multiple lib n d))))
  else (0, mk_ec (Some n) (Some d) pub).
Proof.
  intros E D. pose proof (lib_laws n C E) as L. pose proof (lib_name n C E) as GN.
  unfold compute_public, on_group, gost_ec_compute_public, multiple. cbn [e_group e_priv e_pub]. rewrite E. cbn [k_priv].
  destruct (scalar_fits n d) eqn:F.
  - rewrite (pm_g (cv C) L d D ltac:(unfold fits; rewrite GN; exact F) None). reflexivity.
  - rewrite (pm_g_big (cv C) d None D ltac:(unfold fits; rewrite GN, F; discriminate)). reflexivity.
Qed.
Lemma keygen_pair n C l d : lib n = Some C -> Forall (fun d => 0 <= d < order (cv C)) l -> first_nonzero l = Some d ->
  keygen lib l (mk_ec (Some n) None None) = (1, mk_ec (Some n) (Some d) (Some (mk_point n (multiple lib n d)))).
Proof.
  intros E R F. pose proof (lib_laws n C E) as L. unfold keygen, on_group. cbn [e_group e_priv e_pub]. rewrite E.
  unfold gost_ec_keygen. rewrite keygen_first, F. unfold gost_ec_compute_public. cbn [k_priv k_pub].
  assert (D : 0 <= d < order (cv C)).
  { unfold first_nonzero in F. apply find_some in F as [I _]. rewrite Forall_forall in R. apply R, I. }
  rewrite (pm_g (cv C) L d) by (try (apply fits_order; [exact L|]); lia).
  unfold multiple. rewrite E. reflexivity.
Qed.

Lemma set_type_rep k a : EVP_PKEY_set_type (rep k) a =
  if supported a then (1, rep (K_typed a)) else (0, rep (without_data k)).
Proof. destruct a, k; reflexivity. Qed.
Lemma fill_new n : fill_params lib EC_KEY_new n =
  match lib n with None => (0, EC_KEY_new) | Some _ => (1, mk_ec (Some n) None None) end.
Proof. unfold fill_params. destruct (lib n) as [C|] eqn:E; [|reflexivity]. rewrite (lib_name n C E). reflexivity. Qed.
Lemma decode_algor_blank a n :
  fst (decode_algor lib blank a n) = (if supported a && known lib n then 1 else 0) /\
  (supported a && known lib n = true -> snd (decode_algor lib blank a n) = rep (K_params a n)).
Proof.
  unfold decode_algor, gost_decode_nid_params, known.
  destruct a; cbn -[fill_params]; try (split; [reflexivity|discriminate]); rewrite fill_new; destruct (lib n); split; try reflexivity; discriminate.
Qed.

(** ** The observations *)
Lemma missing_rep k : EVP_PKEY_missing_parameters (rep k) =
  match key_type k, key_set k with Some _, None => 1 | _, _ => 0 end.
Proof. destruct k; reflexivity. Qed.
Lemma params_equal_rep a b : EVP_PKEY_parameters_eq (rep a) (rep b) = same_params a b.
Proof.
  unfold EVP_PKEY_parameters_eq, same_params. rewrite !rep_type, type_eqb_dec.
  destruct (type_dec (key_type a) (key_type b)) as [E|]; [|reflexivity]. cbn [negb].
  destruct a, b; cbn [key_type] in *; try discriminate E; try reflexivity;
    cbn [rep param_cmp_gost_ec o_ec e_group key_set]; unfold same; rewrite nid_eqb_dec; destruct (nid_dec _ _); reflexivity.
Qed.
Lemma equal_rep a b : EVP_PKEY_eq (rep a) (rep b) = same_key lib a b.
Proof.
  unfold same_key. rewrite <- params_equal_rep. unfold EVP_PKEY_eq, EVP_PKEY_parameters_eq. rewrite !rep_type.
  destruct (negb (type_eqb (key_type a) (key_type b))); [reflexivity|]. destruct (key_type a) as [t|]; [|reflexivity].
  assert (C : param_cmp_gost_ec (rep a) (rep b) = 0 \/
    (param_cmp_gost_ec (rep a) (rep b) = 1 /\ exists c, key_set a = Some c /\ key_set b = Some c)).
  { destruct a, b; cbn [rep param_cmp_gost_ec o_ec e_group key_set]; try (left; reflexivity);
    rewrite nid_eqb_dec; destruct (nid_dec _ _) as [->|]; try (left; reflexivity); right; split; eauto. }
  cbv zeta. destruct C as [C|(C & c & Sa & Sb)]; rewrite C; [reflexivity|]. cbn [Z.leb Z.compare].
  destruct a, b; cbn [key_set] in Sa, Sb; try discriminate; try reflexivity;
    injection Sa as ->; injection Sb as ->;
    cbn [rep pub_cmp_gost_ec o_ec e_pub e_group key_point EC_POINT_cmp p_curve p_xy]; unfold same;
    rewrite !nid_eqb_refl; cbn [andb]; rewrite xy_eqb_dec; destruct (xy_dec _ _); reflexivity.
Qed.
Lemma size_rep k : good k -> EVP_PKEY_size (rep k) = size k.
Proof.
  intros (A & _ & _). unfold EVP_PKEY_size, size. rewrite rep_type. destruct (key_type k) as [[]|]; try reflexivity.
  destruct (A A_other eq_refl eq_refl).
Qed.
Lemma bits_rep k : good k -> EVP_PKEY_bits (rep k) = bits k.
Proof.
  intros (A & _ & _). unfold EVP_PKEY_bits, bits. rewrite rep_type. destruct (key_type k) as [[]|]; try reflexivity.
  destruct (A A_other eq_refl eq_refl).
Qed.
Lemma export_rep k : (match key_type k with Some (A2001 | A2001DH) => key_set k <> None | _ => True end) ->
  i2d_KeyParams (rep k) = match key_type k, key_set k with Some (A2001 | A2001DH), Some c => R_set c | _, _ => R_int (-1) end.
Proof. destruct k as [|[]|[]|[]|[]]; cbn; intros H; try reflexivity; exfalso; apply H; reflexivity. Qed.
Lemma priv_rep k : good k -> key_type k <> None -> gost_get0_priv_key (rep k) = key_private k.
Proof.
  intros (A & _ & _) T. destruct k as [|a|a c|a c xy|a c d]; cbn [key_type] in *; try congruence;
    pose proof (A a eq_refl); destruct a; try congruence; reflexivity.
Qed.
Lemma print_pub_rep k n : print_gost_ec_pub (rep k) n =
  match key_point lib k with Some (Some (X, Y)) => (1, public_text X Y n) | _ => (0, ""%string) end.
Proof.
  destruct k as [| | |a c [X Y]|a c d]; try reflexivity; unfold print_gost_ec_pub; cbn [rep o_ec e_pub e_group p_curve p_xy key_point];
    rewrite nid_eqb_refl.
  - unfold public_text, line. rewrite !str_app_assoc. reflexivity.
  - destruct (multiple lib c d) as [[X Y]|]; [|reflexivity]. unfold public_text, line. rewrite !str_app_assoc. reflexivity.
Qed.
Lemma print_set_rep k n : print_gost_ec_param (rep k) n =
  match key_set k with None => (0, ""%string) | Some c => (1, set_text c n) end.
Proof.
  unfold print_gost_ec_param. rewrite rep_group. destruct (key_set k); [|reflexivity].
  unfold set_text, line. rewrite !str_app_assoc. reflexivity.
Qed.
Lemma print_priv_rep k n : good k -> key_type k <> None -> print_gost_priv (rep k) n = (1, private_text k n).
Proof.
  intros Gk T. unfold print_gost_priv, private_text, line. rewrite (priv_rep k Gk T), !str_app_assoc. reflexivity.
Qed.
Lemma point_set k P : key_point lib k = Some P -> exists c, key_set k = Some c.
Proof. destruct k; cbn; intros; try discriminate; eauto. Qed.
Lemma print_rep k kind n : good k -> kind = 0 \/ kind = 1 \/ kind = 2 -> EVP_PKEY_print (rep k) n kind = shown lib k kind n.
Proof.
  intros Gk K. unfold EVP_PKEY_print. rewrite rep_type.
  destruct (key_type k) as [a|] eqn:T.
  2:{ unfold shown, unsup_alg, unsupported_text, line. rewrite rep_type, T, !str_app_assoc. destruct K as [-> | [-> | ->]]; reflexivity. }
  assert (U : unsup_alg (rep k) n "Parameters" = (1, unsupported_text k "Parameters" n)).
  { unfold unsup_alg, unsupported_text, line. rewrite rep_type, !str_app_assoc. reflexivity. }
  assert (G0 : print_gost_ec (rep k) n 0 = match key_set k with None => (0, ""%string) | Some c => (1, set_text c n) end).
  { unfold print_gost_ec. cbn [Z.eqb Z.leb Z.compare]. rewrite print_set_rep. destruct (key_set k); reflexivity. }
  assert (G12 : kind = 1 \/ kind = 2 -> print_gost_ec (rep k) n kind =
    match key_point lib k, key_set k with
    | Some (Some (X, Y)), Some c => (1, ((if (kind =? 2)%Z then private_text k n else "") ++ public_text X Y n ++ set_text c n)%string)
    | _, _ => (0, if kind =? 2 then private_text k n else ""%string)
    end).
  { intros K12. unfold print_gost_ec. rewrite print_set_rep, print_pub_rep, (print_priv_rep k n Gk ltac:(congruence)).
    replace (1 <=? kind) with true by (destruct K12; subst; reflexivity).
    assert (PS : forall (s : string), (s ++ "" = s)%string) by (intros s; induction s as [|x s IH]; cbn; [reflexivity|f_equal; exact IH]).
    destruct K12 as [-> | ->]; cbn [Z.eqb Pos.eqb then_print];
      destruct (key_point lib k) as [[[X Y]|]|] eqn:KP; cbn [then_print]; try reflexivity; rewrite ?PS; try reflexivity;
      destruct (point_set k _ KP) as [c ->]; cbn [then_print]; rewrite ?str_app_assoc; reflexivity. }
  destruct K as [-> | K].
  - cbn [Z.eqb]. unfold shown. rewrite T, G0, U. destruct a; reflexivity.
  - rewrite (G12 K). unfold shown. rewrite T. destruct K as [-> | ->]; destruct a; reflexivity.
Qed.

Lemma smul_point n C d : lib n = Some C -> 0 <= d < order (cv C) -> d <> 0 ->
  exists X Y, multiple lib n d = Some (X, Y) /\ lift C X Y = Some (smul d (gen (cv C))).
Proof.
  intros E D N. pose proof (lib_laws n C E) as L. unfold multiple. rewrite E.
  destruct (affine (cv C) (smul d (gen (cv C)))) as [[X Y]|] eqn:A.
  - exists X, Y. split; [reflexivity|]. apply (proj2 SO n C E). exact A.
  - apply (l_affine (cv C) L) in A. apply (gen_zero (cv C) L) in A. rewrite Z.mod_small in A; lia.
Qed.
Lemma lib_smul n C z (P : pt (cv C)) : lib n = Some C -> lib_mul (cv C) z P = smul z P.
Proof. intros E. pose proof (lib_laws n C E) as L. apply lib_mul_smul; apply L. Qed.
Lemma check_rep k : good k -> EVP_PKEY_check lib (rep k) = if valid lib k then 1 else 0.
Proof.
  intros (A & S & D). unfold EVP_PKEY_check. rewrite rep_type.
  destruct k as [|a|a c|a c [X Y]|a c d]; cbn [key_type key_set key_private valid] in *; try reflexivity.
  - destruct a; reflexivity.
  - assert (CS : context_set (rep (K_public a c (X, Y))) = Some (Some c)).
    { pose proof (A a eq_refl). destruct a; try congruence; reflexivity. }
    rewrite CS. unfold pkey_gost_check. cbn [rep o_ec e_group e_pub p_curve p_xy e_priv]. rewrite nid_eqb_refl.
    destruct (lib c) as [C|] eqn:E; [|reflexivity]. destruct (lift C X Y) as [P|]; [|reflexivity].
    rewrite (lib_smul c C _ P E), xy_eqb_dec. destruct (xy_dec _ _); reflexivity.
  - assert (CS : context_set (rep (K_pair a c d)) = Some (Some c)).
    { pose proof (A a eq_refl). destruct a; try congruence; reflexivity. }
    rewrite CS. unfold pkey_gost_check. cbn [rep o_ec e_group e_pub p_curve p_xy e_priv]. rewrite nid_eqb_refl.
    destruct (lib c) as [C|] eqn:E; [|reflexivity]. pose proof (lib_laws c C E) as L. specialize (D d eq_refl).
    unfold multiple. rewrite E. destruct (affine (cv C) (smul d (gen (cv C)))) as [[X Y]|] eqn:AF.
    + rewrite (proj2 (proj2 (proj2 (proj2 SO c C E))) _ _ _ AF), !(lib_smul c C _ _ E), (mult_order (cv C) L).
      rewrite (proj2 (l_affine (cv C) L _) eq_refl). cbn [xy_eqb]. rewrite AF.
      cbn [xy_eqb]. rewrite !Z.eqb_refl, !andb_true_r.
      assert (0 < d).
      { destruct (Z.eq_dec d 0) as [->|]; [|lia]. rewrite (proj2 (l_affine (cv C) L _)) in AF; [discriminate|reflexivity]. }
      rewrite (proj2 (Z.ltb_lt 0 d)) by assumption. reflexivity.
    + apply (l_affine (cv C) L) in AF. apply (gen_zero (cv C) L) in AF. pose proof (order_pos (cv C) L).
      destruct (Z.ltb_spec 0 d), (Z.ltb_spec d (order (cv C))); try reflexivity. rewrite Z.mod_small in AF; lia.
Qed.

(** ** The calls *)
Lemma copy_rep to from : good to -> good from ->
  EVP_PKEY_copy_parameters lib (rep to) (rep from) = (fst (copied to from), rep (snd (copied to from))).
Proof.
  intros (At & St & Dt) (Af & Sf & Df). unfold EVP_PKEY_copy_parameters, copied. rewrite rep_type.
  destruct (key_type from) as [a|] eqn:T; [|reflexivity]. specialize (Af a eq_refl).
  set (to1 := match to with K_blank => K_typed a | k => k end).
  assert (R1 : match o_type (rep to) with Some _ => rep to | None => snd (EVP_PKEY_set_type (rep to) a) end = rep to1).
  { destruct to; try reflexivity. destruct a; try reflexivity. congruence. }
  cbv zeta. rewrite R1, rep_type, type_eqb_dec.
  assert (Tf : EVP_PKEY_missing_parameters (rep from) = match key_set from with None => 1 | Some _ => 0 end).
  { rewrite missing_rep, T. reflexivity. }
  assert (Same : same_params to1 from = (if type_dec (key_type to1) (key_type from) then
     match key_type to1 with None => -2 | Some _ => match key_set to1, key_set from with Some c, Some c' => same nid_dec c c' | _, _ => 0 end end else -1)) by reflexivity.
  destruct (type_dec (key_type to1) (Some a)) as [E|E]; cbn [negb].
  - rewrite Tf. destruct (key_set from) as [c|] eqn:KS; cbn [negb Z.eqb Pos.eqb fst snd].
    2:{ reflexivity. }
    rewrite missing_rep, E. destruct (key_set to1) as [c'|] eqn:KT; cbn [Z.eqb Pos.eqb].
    + rewrite params_equal_rep, eqb_if. clearbody to1. destruct to1; cbn [key_set] in KT; try discriminate KT; reflexivity.
    + destruct to1 as [|b| | |]; cbn [key_set key_type] in KT, E; try discriminate. injection E as ->.
      destruct (alg_dec a a) as [_|]; [|contradiction]. cbn [fst snd].
      unfold param_copy. rewrite !rep_type, T. cbn [key_type]. rewrite type_eqb_dec. destruct (type_dec (Some a) (Some a)); [|contradiction].
      cbn [negb]. destruct from; cbn [key_set] in KS; try discriminate; injection KS as ->; reflexivity.
  - destruct to; subst to1; cbn [key_type] in E; try congruence; cbn [fst snd];
      destruct (key_set from) as [c9|] eqn:KS; try reflexivity.
    + destruct (alg_dec a a0); [congruence|reflexivity].
    + rewrite Same. cbn [key_type]. rewrite T. destruct (type_dec (Some a0) (Some a)); [contradiction|]. reflexivity.
    + rewrite Same. cbn [key_type]. rewrite T. destruct (type_dec (Some a0) (Some a)); [contradiction|]. reflexivity.
    + rewrite Same. cbn [key_type]. rewrite T. destruct (type_dec (Some a0) (Some a)); [contradiction|]. reflexivity.
Qed.
Lemma copied_good to from : good to -> good from -> good (snd (copied to from)).
Proof.
  intros Gt Gf. pose proof Gf as (Af & Sf & Df). unfold copied. destruct (key_type from) as [a|] eqn:T; [|exact Gt].
  specialize (Af a eq_refl). cbv zeta.
  assert (G1 : good (match to with K_blank => K_typed a | k => k end)).
  { destruct to; try exact Gt. repeat split; cbn; intros; congruence. }
  destruct (key_set from) as [c|] eqn:KS; [|exact G1]. 
  destruct (match to with K_blank => K_typed a | k => k end) as [|b| | |]; try exact G1.
  destruct (alg_dec a b); [|exact G1]. specialize (Sf c eq_refl). repeat split; cbn; intros; congruence.
Qed.

Lemma generate_rep a n draws : fair lib a n draws ->
  (generated lib a n draws = None /\ fst (generate lib a n draws) = 0) \/
  (exists k, generated lib a n draws = Some k /\ good k /\ generate lib a n draws = (1, rep k)).
Proof.
  intros [ND F]. unfold generated. destruct n as [c|].
  2:{ left. split; [reflexivity|]. destruct a, draws; reflexivity. }
  unfold known. destruct F as [O W]. destruct (lib c) as [C|] eqn:E.
  2:{ left. rewrite andb_false_r. split; [reflexivity|].
      assert (X : fill_params lib EC_KEY_new c = (0, EC_KEY_new)) by (rewrite fill_new, E; reflexivity).
      destruct a, draws; cbn [generate fst]; unfold pkey_gost2001cp_keygen, pkey_gost2012cp_keygen, pkey_gost2001_paramgen, pkey_gost2012_paramgen; rewrite ?X; reflexivity. }
  rewrite andb_true_r. destruct (supported a) eqn:SA.
  2:{ left. split; [reflexivity|]. destruct a, draws; try discriminate; reflexivity. }
  right. assert (NO : c <> OtherNid) by (intros ->; rewrite (proj1 SO) in E; discriminate).
  assert (X : fill_params lib EC_KEY_new c = (1, mk_ec (Some c) None None)) by (rewrite fill_new, E; reflexivity).
  assert (P : forall dr, generate lib a (Some c) dr =
    match dr with None => (1, rep (K_params a c)) | Some l => with_keys lib l (1, rep (K_params a c)) end).
  { intros dr. destruct a; try discriminate SA; try congruence; destruct dr; cbn [generate];
      unfold pkey_gost2001cp_keygen, pkey_gost2012cp_keygen, pkey_gost2001_paramgen, pkey_gost2012_paramgen; rewrite X; try reflexivity;
      destruct c; cbn [own_set] in O; try contradiction; try congruence; reflexivity. }
  rewrite P. destruct draws as [l|].
  - destruct W as [R NZ]. destruct (first_nonzero l) as [d|] eqn:FN; [|congruence].
    exists (K_pair a c d). split; [reflexivity|]. split.
    { repeat split; cbn; intros; try congruence.
      - destruct a; try discriminate SA; congruence.
      - unfold first_nonzero in FN. apply find_some in FN as [I _]. rewrite Forall_forall in R. injection H as <-. apply R in I. lia. }
    unfold with_keys. cbn [rep o_ec o_type]. rewrite (keygen_pair c C l d E R FN). reflexivity.
  - exists (K_params a c). split; [reflexivity|]. split; [|reflexivity].
    repeat split; cbn; intros; try congruence. destruct a; try discriminate SA; congruence.
Qed.

Definition simulates (s : keys) (q : call) : Prop :=
  Forall good (fst (does lib s q)) /\
  perform lib (map rep s) q = (map rep (fst (does lib s q)), snd (does lib s q)) /\ snd (does lib s q) <> Died.
Lemma keep_rep s m o : Forall good s ->
  (o = None /\ fst m = 0) \/ (exists k, o = Some k /\ good k /\ m = (1, rep k)) ->
  Forall good (fst (made s o)) /\ keep (map rep s) m = (map rep (fst (made s o)), snd (made s o)) /\ snd (made s o) <> Died.
Proof.
  intros G [[-> M]|(k & -> & Gk & ->)]; cbn [made fst snd].
  - destruct m as [r x]. cbn [fst] in M. subst r. cbn. repeat split; auto; discriminate.
  - cbn [keep]. rewrite map_app. cbn [map]. repeat split; [|discriminate]. apply Forall_app. auto.
Qed.
Lemma at_rep s h f g : Forall good s ->
  (forall k, nth_error s h = Some k -> good k ->
     Forall good (fst (g k)) /\ f (rep k) = (map rep (fst (g k)), snd (g k)) /\ snd (g k) <> Died) ->
  Forall good (fst (with1 s h g)) /\ at1 (map rep s) h f = (map rep (fst (with1 s h g)), snd (with1 s h g)) /\ snd (with1 s h g) <> Died.
Proof.
  intros G H. unfold with1, at1. rewrite nth_error_map. destruct (nth_error s h) as [k|] eqn:E; cbn [option_map].
  - apply H; [reflexivity|]. rewrite Forall_forall in G. apply G. eapply nth_error_In. exact E.
  - cbn. repeat split; auto; discriminate.
Qed.
Lemma good_without k : good k -> good (without_data k).
Proof. intros (A & _). unfold without_data. destruct (key_type k) as [a|]; repeat split; cbn; intros; try congruence. injection H as <-. apply A. reflexivity. Qed.

Theorem step_rep s q : Forall good s -> allowed lib s q -> simulates s q.
Proof.
  intros G Al. unfold simulates.
  destruct q as [|h a|a n draws|h draws|a c d|a c X Y|a c|h|h h'|h h'|h h'|h|h kind n|h|h|h]; cbn [perform does allowed] in *.
  - apply (keep_rep s (1, blank) (Some K_blank) G). right. exists K_blank. repeat split; cbn; congruence.
  - apply at_rep; [exact G|]. intros k _ Gk. rewrite set_type_rep. destruct (supported a) eqn:SA; cbn [fst snd]; rewrite map_put;
      (repeat split; [apply put_forall; [exact G|]|discriminate]).
    + repeat split; cbn; intros; try congruence. destruct a; try discriminate SA; congruence.
    + apply good_without, Gk.
  - apply keep_rep; [exact G|]. apply generate_rep, Al.
  - apply at_rep; [exact G|]. intros k Ek Gk. rewrite Ek in Al. rewrite rep_type.
    destruct (key_type k) as [a|] eqn:T; [|cbn; repeat split; [exact G|discriminate]].
    assert (CS : context_set (rep k) = Some (key_set k)).
    { pose proof Gk as (A & _). rewrite T in A. specialize (A a eq_refl).
      destruct k; cbn [key_type] in T; try discriminate; injection T as ->; try reflexivity; destruct a; try congruence; reflexivity. }
    rewrite CS. apply keep_rep; [exact G|]. apply generate_rep, Al.
  - apply keep_rep; [exact G|]. destruct (decode_algor_blank a c) as [D1 D2].
    destruct (decode_algor lib blank a c) as [r o] eqn:DE. cbn [fst snd] in D1, D2.
    destruct (supported a && known lib c) eqn:SK; subst r; [|left; auto].
    rewrite D2 by reflexivity. apply andb_prop in SK as [SA SK]. unfold known in SK. destruct (lib c) as [C|] eqn:E; [|discriminate].
    assert (V : set_priv_key lib (rep (K_params a c)) d =
      if scalar_fits c d then (1, rep (K_pair a c d)) else (0, mk_obj (Some a) (Some (mk_ec (Some c) (Some d) None)))).
    { unfold set_priv_key. destruct a; try discriminate SA; cbn [rep o_type o_ec e_group e_pub EVP_PKEY_missing_parameters param_missing_gost_ec Z.eqb];
        rewrite (compute_public_pair c C d None E Al); destruct (scalar_fits c d); reflexivity. }
    rewrite V. cbn [andb]. destruct (scalar_fits c d); [|left; auto]. right. exists (K_pair a c d). repeat split; cbn; intros; try congruence.
    destruct a; try discriminate SA; congruence.
  - apply keep_rep; [exact G|]. destruct (decode_algor_blank a c) as [D1 D2].
    destruct (decode_algor lib blank a c) as [r o] eqn:DE. cbn [fst snd] in D1, D2. unfold known in *.
    destruct (lib c) as [C|] eqn:E.
    2:{ rewrite andb_false_r in D1. subst r. left. auto. }
    rewrite andb_true_r in D1, D2. destruct (supported a) eqn:SA; subst r; [|left; auto].
    rewrite D2 by reflexivity. cbn [rep o_ec e_group]. rewrite E. destruct (lift C X Y) as [P|] eqn:LF; [|left; auto].
    right. destruct (affine (cv C) P) as [xy|] eqn:AF; [|destruct (proj1 (proj2 (proj2 (proj2 SO c C E))) _ _ _ LF AF)].
    exists (K_public a c xy). split; [reflexivity|]. split; [|reflexivity].
    repeat split; cbn; intros; try congruence. destruct a; try discriminate SA; congruence.
  - apply keep_rep; [exact G|]. unfold d2i_KeyParams, known. 
    destruct a; try congruence; try (left; split; reflexivity).
    cbn [blank o_type type_eqb EVP_PKEY_set_type]. unfold gost2001_param_decode, gost_decode_nid_params.
    cbn [o_ec EVP_PKEY_assign EVP_PKEY_set_type o_type]. rewrite fill_new.
    destruct (lib c) eqn:E; [right|left; auto]. exists (K_params A2001 c). split; [reflexivity|]. split; [|reflexivity].
    repeat split; cbn; intros; congruence.
  - apply at_rep; [exact G|]. intros k Ek Gk. rewrite Ek in Al. cbn [fst snd]. rewrite export_rep by exact Al.
    repeat split; [exact G|]. destruct (key_type k) as [[]|], (key_set k); discriminate.
  - apply at_rep; [exact G|]. intros to _ Gt. apply at_rep; [exact G|]. intros from _ Gf.
    rewrite (copy_rep to from Gt Gf). pose proof (copied_good to from Gt Gf). destruct (copied to from) as [r k]. cbn [fst snd] in *.
    rewrite map_put. repeat split; [|discriminate]. apply put_forall; assumption.
  - apply at_rep; [exact G|]. intros a _ Ga. apply at_rep; [exact G|]. intros b _ Gb. cbn [fst snd]. rewrite equal_rep.
    repeat split; [exact G|discriminate].
  - apply at_rep; [exact G|]. intros a _ Ga. apply at_rep; [exact G|]. intros b _ Gb. cbn [fst snd]. rewrite params_equal_rep.
    repeat split; [exact G|discriminate].
  - apply at_rep; [exact G|]. intros k _ Gk. cbn [fst snd]. rewrite missing_rep. repeat split; [exact G|discriminate].
  - apply at_rep; [exact G|]. intros k _ Gk. cbn [fst snd]. rewrite (print_rep k kind n Gk Al). repeat split; [exact G|discriminate].
  - apply at_rep; [exact G|]. intros k _ Gk. cbn [fst snd]. rewrite (check_rep k Gk). repeat split; [exact G|discriminate].
  - apply at_rep; [exact G|]. intros k _ Gk. cbn [fst snd]. rewrite (size_rep k Gk). repeat split; [exact G|discriminate].
  - apply at_rep; [exact G|]. intros k _ Gk. cbn [fst snd]. rewrite (bits_rep k Gk). repeat split; [exact G|discriminate].
Qed.
Theorem run_rep l : forall s, Forall good s -> all_allowed lib s l ->
  Forall good (fst (history lib s l)) /\
  run lib (map rep s) l = (map rep (fst (history lib s l)), snd (history lib s l)).
Proof.
  induction l as [|q l IH]; intros s G A; [split; [exact G|reflexivity]|]. destruct A as [A1 A2].
  destruct (step_rep s q G A1) as (G' & P & ND). cbn [run history]. rewrite P.
  destruct (does lib s q) as [s' r]. cbn [fst snd] in *. destruct (IH s' G' A2) as [G2 R2]. rewrite R2.
  destruct (history lib s' l) as [s2 rs]. cbn [fst snd] in *. split; [exact G2|].
  destruct r; try reflexivity. congruence.
Qed.
End Rep.
