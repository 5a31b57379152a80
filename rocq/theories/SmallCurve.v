(** Small curves that meet every hypothesis the theorems on coordinates make: y^2 = x^3 - 3x + 7 over the field of
    31 elements, which has 37 points, and the curve of the Edwards form d = 7 over the field of 13 elements, which
    has 20.  They serve to show that those theorems are not vacuous. *)
From Coq Require Import ZArith Znumtheory List Bool Lia Eqdep_dec.
From Verif Require Import Bytes EcFormulaSpec EcFormulaModel EcFormulaProofs FieldZp EcLadderModel EcSpec EcCoordModel EcCurveSpec.
Import ListNotations.
Local Open Scope Z_scope.

Definition cof_of (c : curve_nid) : Z := match c with Tc256_A | Tc512_C => 4 | _ => 1 end.

Section Cyclic.
Variable n : Z.
Hypothesis n_pos : 0 < n.
Variable nid : curve_nid.
Variable w64 : bool.
Variable q : Z.
Hypothesis nq : n = cof_of nid * q.
Hypothesis q_prime : prime q.
Hypothesis q4 : 4 < q < 1000.
Variable tbl : list (Z * Z).       (* the points 1, 2, ..., n - 1 *)
Hypothesis tbl_len : Z.of_nat (length tbl) = n - 1.
Hypothesis tbl_range : forallb (fun xy => (0 <=? fst xy) && (fst xy <? 256) && (0 <=? snd xy) && (snd xy <? 256)) tbl = true.
Hypothesis tbl_sym : map fst (rev tbl) = map fst tbl.

Definition cyc : Type := { z : Z | (z mod n =? z) = true }.
Lemma cyc_red z : (z mod n mod n =? z mod n) = true.
Proof. apply Z.eqb_eq. apply Z.mod_mod. clear - n_pos. lia. Qed.
Definition cmk (z : Z) : cyc := exist _ (z mod n) (cyc_red z).
Lemma cyc_eq (P Q : cyc) : proj1_sig P = proj1_sig Q -> P = Q.
Proof. destruct P as [a pa], Q as [b pb]. cbn [proj1_sig]. intros ->. f_equal. apply UIP_dec, bool_dec. Qed.
Lemma cyc_range (P : cyc) : 0 <= proj1_sig P < n.
Proof. destruct P as [a pa]. cbn [proj1_sig]. apply Z.eqb_eq in pa. rewrite <- pa. apply Z.mod_pos_bound, n_pos. Qed.
Lemma cyc_self (P : cyc) : cmk (proj1_sig P) = P.
Proof. apply cyc_eq. destruct P as [a pa]. cbn [proj1_sig cmk]. apply Z.eqb_eq, pa. Qed.
Lemma cmk_eq a b : a mod n = b mod n -> cmk a = cmk b.
Proof. intros H. apply cyc_eq. exact H. Qed.
Definition caff (z : Z) : option (Z * Z) := if z =? 0 then None else nth_error tbl (Z.to_nat (z - 1)).
Definition small : group :=
  {| pt := cyc;
     padd := fun P Q => cmk (proj1_sig P + proj1_sig Q);
     pneg := fun P => cmk (- proj1_sig P);
     pzero := cmk 0;
     affine := fun P => caff (proj1_sig P);
     gen := cmk (cof_of nid);
     order := q; cofactor := cof_of nid; fieldlen := 32; gname := nid; wide := w64;
     lut_cmb := fun j k =>
       match file_of nid with
       | Some f => cmk ((2 * Z.of_nat k + 1) * 2 ^ (5 * Z.of_nat (s_rows (file_shape w64 f)) * Z.of_nat j) * cof_of nid)
       | None => cmk 0
       end |}.
Lemma small_nsum m z : nsum (C := small) m (cmk z) = cmk (Z.of_nat m * z).
Proof.
  induction m as [|m IH]; [reflexivity|]. cbn [nsum]. rewrite IH. cbn [padd small].
  apply cyc_eq. cbn [cmk proj1_sig]. rewrite <- Z.add_mod by lia. f_equal. lia.
Qed.
Lemma small_smul k z : smul (C := small) k (cmk z) = cmk (k * z).
Proof.
  unfold smul. destruct (Z.ltb_spec k 0).
  - rewrite small_nsum. cbn [pneg small]. apply cyc_eq. cbn [cmk proj1_sig].
    rewrite Z2Nat.id by lia. replace (- k * z) with (- (k * z)) by lia.
    rewrite <- (Z.sub_0_l (- (k * z) mod n)), Zminus_mod_idemp_r. f_equal. lia.
  - rewrite small_nsum, Z2Nat.id by lia. reflexivity.
Qed.
Lemma caff_some z : 0 < z < n -> exists xy, nth_error tbl (Z.to_nat (z - 1)) = Some xy /\ In xy tbl.
Proof.
  intros H. destruct (nth_error tbl (Z.to_nat (z - 1))) as [xy|] eqn:E.
  - exists xy. split; [reflexivity|]. eapply nth_error_In, E.
  - apply nth_error_None in E. lia.
Qed.
Theorem small_laws : ec_laws small.
Proof.
  assert (M : forall P : cyc, exists z, P = cmk z) by (intros P; exists (proj1_sig P); symmetry; apply cyc_self).
  assert (CF : 1 <= cof_of nid <= 4) by (destruct nid; cbn; lia).
  constructor; cbn [small pt padd pneg pzero gen order cofactor fieldlen gname wide affine lut_cmb].
  - intros P Q R. apply cyc_eq. cbn [cmk proj1_sig]. rewrite Z.add_mod_idemp_r, Z.add_mod_idemp_l by lia. f_equal. lia.
  - intros P Q. apply cyc_eq. cbn [cmk proj1_sig]. f_equal. lia.
  - intros P. rewrite <- (cyc_self P) at 2. apply cyc_eq. cbn [cmk proj1_sig]. rewrite Z.add_mod_idemp_l by lia. reflexivity.
  - intros P. apply cyc_eq. cbn [cmk proj1_sig]. rewrite Z.add_mod_idemp_l by lia. f_equal. lia.
  - intros P. unfold caff. pose proof (cyc_range P) as R. split.
    + destruct (Z.eqb_spec (proj1_sig P) 0) as [E|E].
      * intros _. apply cyc_eq. cbn [cmk proj1_sig]. rewrite E. symmetry. apply Zmod_0_l.
      * destruct (caff_some (proj1_sig P) ltac:(lia)) as (xy & -> & _). discriminate.
    + intros ->. cbn [cmk proj1_sig]. rewrite Zmod_0_l. reflexivity.
  - intros P x y. unfold caff. pose proof (cyc_range P) as R. destruct (Z.eqb_spec (proj1_sig P) 0); [discriminate|].
    destruct (caff_some (proj1_sig P) ltac:(lia)) as (xy & E & I). rewrite E. intros H. assert (EX : xy = (x, y)) by congruence.
    rewrite forallb_forall in tbl_range. specialize (tbl_range _ I). rewrite EX in tbl_range. cbn [fst snd] in tbl_range.
    rewrite !andb_true_iff, !Z.leb_le, !Z.ltb_lt in tbl_range.
    assert (B : 256 < 256 ^ Z.of_nat 32) by reflexivity. lia.
  - intros P. destruct (M P) as [z ->]. cbn [cmk proj1_sig]. rewrite <- (Z.sub_0_l (z mod n)).
    rewrite Zminus_mod_idemp_r. pose proof (Z.mod_pos_bound z n n_pos) as R. unfold caff.
    destruct (Z.eqb_spec (z mod n) 0) as [E|E].
    + replace ((0 - z) mod n) with 0; [reflexivity|].
      rewrite Zminus_mod, E, !Zmod_0_l. reflexivity.
    + assert (E' : (0 - z) mod n = n - z mod n).
      { rewrite Zminus_mod, Zmod_0_l. symmetry. apply Z.mod_unique with (-1); lia. }
      rewrite E'. destruct (Z.eqb_spec (n - z mod n) 0); [lia|].
      transitivity (nth_error (map fst tbl) (Z.to_nat (n - z mod n - 1))).
      { rewrite nth_error_map. reflexivity. }
      transitivity (nth_error (map fst tbl) (Z.to_nat (z mod n - 1))); [|rewrite nth_error_map; reflexivity].
      rewrite <- tbl_sym at 1. rewrite map_rev.
      set (l := map fst tbl). assert (LL : length l = Z.to_nat (n - 1)) by (unfold l; rewrite map_length; lia). 
      rewrite (nth_error_nth' (rev l) 0) by (rewrite rev_length; lia).
      rewrite (nth_error_nth' l 0) by lia. f_equal.
      rewrite rev_nth by lia. f_equal. lia.
  - exact q_prime.
  - intros H. apply (f_equal (@proj1_sig _ _)) in H. cbn [cmk proj1_sig] in H.
    rewrite Zmod_0_l, Z.mod_small in H; [lia|]. nia.
  - rewrite small_smul. apply cmk_eq. replace (q * cof_of nid) with (0 + 1 * n) by lia. apply Z_mod_plus_full.
  - intros P. destruct (M P) as [z ->]. rewrite small_smul. apply cmk_eq.
    replace (cof_of nid * q * z) with (0 + z * n) by (rewrite nq; lia). apply Z_mod_plus_full.
  - reflexivity.
  - lia.
  - lia.
  - unfold scalar_fits. destruct nid; try reflexivity; apply Z.ltb_lt; (transitivity 1000; [lia|reflexivity]).
  - intros f F j k J K. rewrite F, small_smul. reflexivity.
Qed.

(** ** On a curve *)
Variable p : Z.
Hypothesis Pp : prime p.
Notation K := (zp p Pp).
Variables a b : Z.
Definition wpt (z : Z) : wpoint K := match caff z with None => Infinity | Some (x, y) => @Finite K (res p x) (res p y) end.
Definition small_w (P : pt small) : wpoint K := wpt (proj1_sig P).

Definition weqb (P Q : wpoint K) : bool :=
  match P, Q with
  | Infinity, Infinity => true
  | Finite x y, Finite x' y' => feqb K x x' && feqb K y y'
  | _, _ => false
  end.
Lemma weqb_eq P Q : weqb P Q = true -> P = Q.
Proof.
  destruct P, Q; cbn [weqb]; try discriminate; [reflexivity|]. rewrite andb_true_iff. intros [E1 E2].
  apply f_eqb in E1, E2. congruence.
Qed.
Definition range : list Z := map Z.of_nat (seq 0 (Z.to_nat n)).
Definition frange : list Z := map Z.of_nat (seq 0 (Z.to_nat p)).
Definition on_b (P : wpoint K) : bool :=
  match P with
  | Infinity => true
  | Finite x y => feqb K (fmul K y y) (fadd K (fadd K (fmul K (fmul K x x) x) (fmul K (res p a) x)) (res p b))
  end.
Definition curve_checks : bool :=
  forallb (fun z => on_b (wpt z)) range &&
  forallb (fun x => forallb (fun y => negb (on_b (@Finite K (res p x) (res p y))) ||
     existsb (fun z => weqb (wpt z) (@Finite K (res p x) (res p y))) range) frange) frange &&
  forallb (fun z => forallb (fun z' => weqb (wpt ((z + z') mod n)) (w_add K (res p a) (wpt z) (wpt z'))) range) range &&
  forallb (fun z => weqb (wpt (- z mod n)) (w_opp K (wpt z))) range &&
  forallb (fun xy => (fst xy mod p =? fst xy) && (snd xy mod p =? snd xy)) tbl.
Lemma in_range z : 0 <= z < n -> In z range.
Proof.
  clear tbl_sym tbl_range tbl_len q4 q_prime nq n_pos.
  intros H. apply in_map_iff. exists (Z.to_nat z). split; [lia|]. apply in_seq. lia.
Qed.
Lemma in_frange (x : residue p) : 0 < p -> In (val p x) frange.
Proof.
  clear tbl_sym tbl_range tbl_len q4 q_prime nq n_pos.
  intros G. apply in_map_iff. exists (Z.to_nat (val p x)).
  pose proof (Z.mod_pos_bound (val p x) p G) as R. rewrite val_mod in R. split; [lia|]. apply in_seq. lia.
Qed.
Theorem small_points : curve_checks = true -> curve_points small p Pp a b small_w.
Proof.
  intros CK. unfold curve_checks in CK. rewrite !andb_true_iff in CK. destruct CK as [[[[C1 C2] C3] C4] C5].
  pose proof (prime_ge_2 p Pp) as G. rewrite forallb_forall in C1, C2, C3, C4, C5.
  assert (ON : forall P, on_b P = true <-> w_on K (res p a) (res p b) P).
  { intros [|x y]; cbn [on_b w_on]; [tauto|]. apply f_eqb. }
  constructor; unfold small_w.
  - intros P. apply ON, C1, in_range, cyc_range.
  - intros x y H. specialize (C2 _ (in_frange x ltac:(lia))). rewrite forallb_forall in C2.
    specialize (C2 _ (in_frange y ltac:(lia))). rewrite !res_val in C2. apply ON in H. rewrite H in C2. cbn [negb orb] in C2.
    apply existsb_exists in C2. destruct C2 as (z & I & E). apply weqb_eq in E.
    apply in_map_iff in I. destruct I as (k & KZ & I). apply in_seq in I.
    exists (cmk z). cbn [cmk proj1_sig]. rewrite Z.mod_small by lia. exact E.
  - intros P Q. cbn [small padd]. cbn [cmk proj1_sig]. apply weqb_eq.
    specialize (C3 _ (in_range _ (cyc_range P))). rewrite forallb_forall in C3. apply C3, in_range, cyc_range.
  - intros P. cbn [small pneg cmk proj1_sig]. apply weqb_eq, C4, in_range, cyc_range.
  - cbn [small pzero cmk proj1_sig]. unfold wpt. rewrite Zmod_0_l. reflexivity.
  - intros P. cbn [small affine]. unfold wpt. destruct (caff (proj1_sig P)) as [[x y]|] eqn:E; [|reflexivity].
    unfold caff in E. destruct (proj1_sig P =? 0); [discriminate E|]. apply nth_error_In in E.
    specialize (C5 _ E). cbn [fst snd] in C5. rewrite andb_true_iff, !Z.eqb_eq in C5. destruct C5 as [X Y].
    cbn [val res]. rewrite X, Y. reflexivity.
Qed.
End Cyclic.

Lemma prime_small n : 1 < n -> forallb (fun k => negb (n mod k =? 0)) (map Z.of_nat (seq 2 (Z.to_nat n - 2))) = true -> prime n.
Proof.
  intros G H. apply prime_alt. split; [exact G|]. intros k K D. apply Z.mod_divide in D; [|lia].
  rewrite forallb_forall in H. specialize (H k). rewrite D in H. cbn in H.
  assert (I : In k (map Z.of_nat (seq 2 (Z.to_nat n - 2)))).
  { apply in_map_iff. exists (Z.to_nat k). split; [lia|]. apply in_seq. lia. }
  specialize (H I). discriminate H.
Qed.
Lemma prime_31 : prime 31. Proof. apply prime_small; [lia|reflexivity]. Qed.
Lemma prime_37 : prime 37. Proof. apply prime_small; [lia|reflexivity]. Qed.
Lemma prime_13 : prime 13. Proof. apply prime_small; [lia|reflexivity]. Qed.
Lemma prime_5 : prime 5. Proof. apply prime_small; [lia|reflexivity]. Qed.

(** ** y^2 = x^3 - 3x + 7 modulo 31, under the name of the CryptoPro A parameter set *)
Definition w31_points : list (Z * Z) :=
  [(0, 10); (28, 19); (12, 26); (7, 22); (1, 6); (15, 19); (30, 3); (19, 12); (6, 22); (29, 25); (4, 20); (10, 27);
   (18, 9); (2, 28); (17, 23); (3, 26); (22, 7); (16, 26); (16, 5); (22, 24); (3, 5); (17, 8); (2, 3); (18, 22);
   (10, 4); (4, 11); (29, 6); (6, 9); (19, 19); (30, 28); (15, 12); (1, 25); (7, 9); (12, 5); (28, 12); (0, 21)].
Definition pos37 : 0 < 37 := eq_refl.
Definition w31 (w64 : bool) : group := small 37 pos37 CryptoPro_A w64 37 w31_points.
Notation K31 := (zp 31 prime_31).
Definition w31_w (w64 : bool) : pt (w31 w64) -> wpoint K31 := small_w 37 pos37 CryptoPro_A w64 37 w31_points 31 prime_31.
Definition w31_consts : consts K31 :=
  mk_consts K31 (f0 K31) (res 31 7) (f0 K31) (f0 K31) (f0 K31) (f0 K31).
Definition w31_tab (j k : nat) : aff K31 :=
  match caff w31_points (((2 * Z.of_nat k + 1) * 2 ^ (15 * Z.of_nat j)) mod 37) with
  | Some (x, y) => mk_aff K31 (res 31 x) (res 31 y) (f0 K31)
  | None => zero_aff K31
  end.
Theorem w31_laws w64 : ec_laws (w31 w64).
Proof. apply small_laws; try exact prime_37; try reflexivity; lia. Qed.
Theorem w31_curve w64 : curve_points (w31 w64) 31 prime_31 (-3) 7 (w31_w w64).
Proof. apply small_points; try exact prime_37; try lia; vm_compute; reflexivity. Qed.
Theorem w31_consts_ok : consts_ok K31 (res 31 (-3)) (res 31 7) (file_family F_A) w31_consts.
Proof. split; [|reflexivity]. apply residue_eq. vm_compute. reflexivity. Qed.
Theorem w31_table w64 j k : (j < 19)%nat -> (k < 16)%nat ->
  entry_ok K31 (file_family F_A) w31_consts (w31_tab j k) (w31_w w64 (lut_cmb (w31 w64) j k)).
Proof.
  intros J KK. unfold entry_ok. cbn [file_family]. unfold w31_w, small_w, wpt.
  cbn [w31 small lut_cmb file_of]. cbn [cmk proj1_sig cof_of]. rewrite Z.mul_1_r.
  assert (SR : Z.of_nat (s_rows (file_shape w64 F_A)) = 3) by reflexivity. rewrite SR.
  replace (5 * 3 * Z.of_nat j) with (15 * Z.of_nat j) by lia. unfold w31_tab.
  assert (NN : forallb (fun j => forallb (fun k => match caff w31_points (((2 * Z.of_nat k + 1) * 2 ^ (15 * Z.of_nat j)) mod 37)
     with Some _ => true | None => false end) (seq 0 16)) (seq 0 19) = true) by (vm_compute; reflexivity).
  rewrite forallb_forall in NN. specialize (NN j ltac:(apply in_seq; lia)). rewrite forallb_forall in NN.
  specialize (NN k ltac:(apply in_seq; lia)).
  destruct (caff w31_points _) as [[x y]|]; [reflexivity|discriminate NN].
Qed.

(** ** The Edwards form d = 7 modulo 13, under the name of the 256-bit set A *)
Definition e13_points : list (Z * Z) :=
  [(3, 4); (6, 11); (8, 6); (11, 11); (2, 5); (9, 2); (4, 5); (7, 5); (12, 10); (10, 0); (12, 3); (7, 8); (4, 8);
   (9, 11); (2, 8); (11, 2); (8, 7); (6, 2); (3, 9)].
Definition e13_edwards : list (Z * Z) :=
  [(0, 1); (8, 6); (2, 4); (4, 2); (6, 8); (1, 0); (6, 5); (4, 11); (2, 9); (8, 7); (0, 12); (5, 7); (11, 9); (9, 11);
   (7, 5); (12, 0); (7, 8); (9, 2); (11, 4); (5, 6)].
Definition pos20 : 0 < 20 := eq_refl.
Definition e13 (w64 : bool) : group := small 20 pos20 Tc256_A w64 5 e13_points.
Notation K13 := (zp 13 prime_13).
Definition e13_w (w64 : bool) : pt (e13 w64) -> wpoint K13 := small_w 20 pos20 Tc256_A w64 5 e13_points 13 prime_13.
Definition e13_consts : consts K13 :=
  mk_consts K13 (f0 K13) (f0 K13) (f0 K13) (res 13 7) (res 13 5) (res 13 10).
Definition e13_tab (j k : nat) : aff K13 :=
  let '(u, v) := nth (Z.to_nat (((2 * Z.of_nat k + 1) * 2 ^ (20 * Z.of_nat j) * 4) mod 20)) e13_edwards (0, 1) in
  mk_aff K13 (res 13 u) (res 13 v) (res 13 (u * v)).
Theorem e13_laws w64 : ec_laws (e13 w64).
Proof. apply small_laws; try exact prime_5; try reflexivity; lia. Qed.
Theorem e13_curve w64 : curve_points (e13 w64) 13 prime_13 11 8 (e13_w w64).
Proof. apply small_points; try exact prime_5; try lia; vm_compute; reflexivity. Qed.
Theorem e13_consts_ok : consts_ok K13 (res 13 11) (res 13 8) (file_family F_256A) e13_consts.
Proof.
  split; [|split; [split|split]]; try (apply residue_eq; vm_compute; reflexivity).
  intros x E. apply (f_equal (val 13)) in E. pose proof (in_frange 13 x ltac:(lia)) as I.
  assert (N : forallb (fun z => negb ((z * z) mod 13 =? 7)) (frange 13) = true) by (vm_compute; reflexivity).
  rewrite forallb_forall in N. specialize (N _ I). cbn [k_d e13_consts val res fmul zp rmul] in E. rewrite E in N. discriminate N.
Qed.
Definition e13_entry_ok (z : Z) : bool :=
  let '(u, v) := nth (Z.to_nat z) e13_edwards (0, 1) in
  (let u := res 13 u in let v := res 13 v in
   feqb K13 (fadd K13 (fmul K13 u u) (fmul K13 v v))
     (fadd K13 (f1 K13) (fmul K13 (fmul K13 (res 13 7) (fmul K13 u u)) (fmul K13 v v)))) &&
  weqb 13 prime_13 (legacy K13 (res 13 5) (res 13 10) (res 13 u, res 13 v)) (wpt e13_points 13 prime_13 z).
Theorem e13_table w64 j k : (j < 14)%nat -> (k < 16)%nat ->
  entry_ok K13 (file_family F_256A) e13_consts (e13_tab j k) (e13_w w64 (lut_cmb (e13 w64) j k)).
Proof.
  intros J KK. unfold entry_ok. cbn [file_family]. unfold e13_w, small_w.
  cbn [e13 small lut_cmb file_of]. cbn [cmk proj1_sig cof_of].
  assert (SR : Z.of_nat (s_rows (file_shape w64 F_256A)) = 4) by reflexivity. rewrite SR.
  replace (5 * 4 * Z.of_nat j) with (20 * Z.of_nat j) by lia. unfold e13_tab.
  set (z := ((2 * Z.of_nat k + 1) * 2 ^ (20 * Z.of_nat j) * 4) mod 20).
  assert (R : In z (range 20)) by (apply in_range; apply Z.mod_pos_bound; lia). clearbody z.
  assert (CK : forallb e13_entry_ok (range 20) = true) by (vm_compute; reflexivity).
  rewrite forallb_forall in CK. specialize (CK z R). unfold e13_entry_ok in CK.
  destruct (nth (Z.to_nat z) e13_edwards (0, 1)) as [u v]. rewrite andb_true_iff in CK. destruct CK as [C1 C2].
  apply f_eqb in C1. apply weqb_eq in C2. cbn [aX aY aT]. split; [|split].
  - exact C1.
  - apply residue_eq. cbn [val res fmul zp rmul]. apply Zmult_mod.
  - exact C2.
Qed.
