(** The tables of the generated files hold the odd multiples of the generators of gost_params.c. *)
From Coq Require Import ZArith Znumtheory List Bool Lia Uint63.
From Verif Require Import IntPoly EcFormulaSpec EcFormulaModel FieldZp EcLadderModel EcSpec EcProofs ParamsModel EcConstModel
  EcInvProofs EcConstProofs EcCoordModel EcCurveSpec EcTableCheck EcTableModel EcTableProofs.
From Verif Require Import EcTableChkA EcTableChkB EcTableChkC EcTableChkTest EcTableChk256A EcTableChk512A EcTableChk512B EcTableChk512C
  EcWitA EcWitB EcWitC EcWitTest EcWit256A EcWit512A EcWit512An EcWit512B EcWit512C EcWit512Cn.
From Verif Require EcFormulaProofs.
Import ListNotations.
Local Open Scope Z_scope.

Definition w_al (f : ecp_file) : list int :=
  match f with F_A => al_A | F_B => al_B | F_C => al_C | F_Test => al_Test | F_512A => al_512A | F_512B => al_512B | _ => [] end.
Definition e_dl (f : ecp_file) : list int := match f with F_256A => dl_256A | F_512C => dl_512C | _ => [] end.
Definition e_ol (f : ecp_file) : list int := match f with F_256A => ol_256A | F_512C => ol_512C | _ => [] end.
Lemma w_cols w64 f : edw f = false -> exists ws,
  cols ipt wit (w_add_ok (fdat f)) (w_dbl_ok (fdat f) (w_al f)) (s_rows (file_shape w64 f)) (wtab w64 f) ws = true.
Proof.
  intros E. destruct f; try discriminate E; destruct w64.
  - exists wit_A_64. exact table_A_64.
  - exists wit_A_64. exact table_A_32.
  - exists wit_B_64. exact table_B_64.
  - exists wit_B_64. exact table_B_32.
  - exists wit_C_64. exact table_C_64.
  - exists wit_C_64. exact table_C_32.
  - exists wit_Test_64. exact table_Test_64.
  - exists wit_Test_64. exact table_Test_32.
  - exists wit_512A_64. exact table_512A_64.
  - exists wit_512A_32. exact table_512A_32.
  - exists wit_512B_64. exact table_512B_64.
  - exists wit_512B_64. exact table_512B_32.
Qed.
Lemma e_cols w64 f : edw f = true -> exists ws,
  cols ept wit (e_add_ok (fdat f) (e_dl f) (e_ol f)) (fun P S w => e_add_ok (fdat f) (e_dl f) (e_ol f) P P S w)
    (s_rows (file_shape w64 f)) (etab w64 f) ws = true.
Proof.
  intros E. destruct f; try discriminate E; destruct w64.
  - exists wit_256A_64. exact table_256A_64.
  - exists wit_256A_64. exact table_256A_32.
  - exists wit_512C_64. exact table_512C_64.
  - exists wit_512C_32. exact table_512C_32.
Qed.
Lemma all_lens w64 f : lens w64 f = true.
Proof.
  destruct f, w64.
  - exact lens_A_64.
  - exact lens_A_32.
  - exact lens_B_64.
  - exact lens_B_32.
  - exact lens_C_64.
  - exact lens_C_32.
  - exact lens_Test_64.
  - exact lens_Test_32.
  - exact lens_256A_64.
  - exact lens_256A_32.
  - exact lens_512A_64.
  - exact lens_512A_32.
  - exact lens_512B_64.
  - exact lens_512B_32.
  - exact lens_512C_64.
  - exact lens_512C_32.
Qed.
Lemma all_rows w64 f : (2 <= s_rows (file_shape w64 f))%nat.
Proof. destruct f, w64; cbn; lia. Qed.
(** The first entry is the generator; the data of the fields *)
Definition first_ok (nid : curve_nid) (w64 : bool) (f : ecp_file) : bool :=
  fd_ok (fdat f) (nid_prime nid) (mont_r f) && (3 <? nid_prime nid) &&
  if edw f then estart (nid_prime nid) f (nid_x nid) (nid_y nid) (e_dl f) (e_ol f) (ev w64 f C_d) (ev w64 f C_S) (ev w64 f C_T) (firstn 1 (etab w64 f))
  else wstart (nid_prime nid) f (nid_a nid) (nid_x nid) (nid_y nid) (w_al f) (firstn 1 (wtab w64 f)).
Lemma firsts : forall nid w64 f, file_of nid = Some f -> first_ok nid w64 f = true.
Proof. intros nid w64 f H. destruct nid; cbn in H; try discriminate H; injection H as <-; destruct w64; vm_cast_no_check (@eq_refl bool true). Qed.

Lemma wstart_firstn p f a gx gy al T : wstart p f a gx gy al (firstn 1 T) = wstart p f a gx gy al T.
Proof. destruct T; reflexivity. Qed.
Lemma estart_firstn p f gx gy dl ol dz sz tz T : estart p f gx gy dl ol dz sz tz (firstn 1 T) = estart p f gx gy dl ol dz sz tz T.
Proof. destruct T; reflexivity. Qed.

Theorem tables_right : forall nid f (Pp : prime (nid_prime nid)) C w, gname C = nid -> file_of nid = Some f ->
  ec_laws C -> curve_points C (nid_prime nid) Pp (nid_a nid) (nid_b nid) w ->
  affine C (gen C) = Some (nid_x nid, nid_y nid) ->
  forall j k, (j < s_cols (file_shape (wide C) f))%nat -> (k < 16)%nat ->
  entry_ok (zp (nid_prime nid) Pp) (file_family f) (file_consts (nid_prime nid) Pp (wide C) f)
    (file_table (nid_prime nid) Pp (wide C) f j k)
    (w (smul ((2 * Z.of_nat k + 1) * 2 ^ (5 * Z.of_nat (s_rows (file_shape (wide C) f)) * Z.of_nat j)) (gen C))).
Proof.
  intros nid f Pp C w GN FN L CP AG j k J K.
  pose proof (firsts nid (wide C) f FN) as FI. unfold first_ok in FI.
  apply andb_true_iff in FI. destruct FI as [FI ST]. apply andb_true_iff in FI. destruct FI as [FD GP]. apply Z.ltb_lt in GP.
  assert (GEN : w (smul 1 (gen C)) = @Finite (zp (nid_prime nid) Pp) (res (nid_prime nid) (nid_x nid)) (res (nid_prime nid) (nid_y nid))).
  { rewrite (sm_1 C L). rewrite (cp_affine _ _ _ _ _ _ CP) in AG. destruct (w (gen C)) as [|x y]; [discriminate|].
    injection AG as <- <-. f_equal; apply residue_eq; cbn [val res]; symmetry; apply val_mod. }
  destruct (constants nid (wide C) f Pp FN) as [_ CO].
  pose proof (all_lens (wide C) f) as LEN. pose proof (all_rows (wide C) f) as R.
  destruct (lens_ok (wide C) f LEN j k J K) as (c & e & Nc & Ne & En & Le).
  assert (TE : forall i, (i < (if edw f then 3 else 2))%nat ->
    table_elt (nid_prime nid) Pp (wide C) f (nth i e []) = elt (nid_prime nid) Pp (mont_r f) (cv (wide C) f (nth i e []))).
  { intros i I. apply table_elt_el. apply Le, I. }
  unfold entry_ok, file_table. cbn [aX aY aT]. rewrite En.
  destruct (edw f) eqn:ED.
  - assert (FF : file_family f = Edwards) by (destruct f; try discriminate ED; reflexivity). rewrite FF in *.
    rewrite estart_firstn in ST. destruct (e_cols (wide C) f ED) as [ws CH].
    assert (V : forall cn, res (nid_prime nid) (ev (wide C) f cn) = file_const (nid_prime nid) Pp (wide C) f cn).
    { intros cn. assert (M1 : mont_r f = 1) by (destruct f; try discriminate ED; reflexivity). symmetry.
      unfold file_const, limbs_elt. apply elt_eq; [lia| |rewrite M1, Z.mul_1_r; apply Z.eqb_eq; unfold ev; rewrite Z.sub_diag; apply Z.mod_0_l; lia].
      rewrite M1. apply Z.eqb_neq. rewrite Z.sub_0_r, Z.mod_small; lia. }
    destruct CO as (NS & EP & EA & _). cbn [k_d k_S k_T file_consts] in *.
    pose proof (e_table (nid_prime nid) Pp f FD GP C (nid_a nid) (nid_b nid) w L CP _ _ GEN _ _ _ NS EP EA _ _ _ _ _ _ _ _ R
      (V C_d) (V C_S) (V C_T) ST CH j) as ET.
    destruct (ET _ k _ (map_nth_error _ _ _ Nc) (map_nth_error _ _ _ Ne)) as (T1 & T2 & T3).
    unfold eaff, e_prod in *. cbn [fst snd] in *. rewrite !TE by lia. split; [exact T1|split; [exact T2|exact T3]].
  - rewrite wstart_firstn in ST. destruct (w_cols (wide C) f ED) as [ws CH].
    pose proof (w_table (nid_prime nid) Pp f FD GP C (nid_a nid) (nid_b nid) w L CP _ _ GEN _ _ _ _ R ST CH j) as WT.
    specialize (WT _ k _ (map_nth_error _ _ _ Nc) (map_nth_error _ _ _ Ne)). unfold ifin in WT. cbn [fst snd] in WT.
    rewrite <- !TE in WT by lia. rewrite WT. destruct f; try discriminate ED; reflexivity.
Qed.
