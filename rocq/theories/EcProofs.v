(** Proofs about EcModel.v: scalar multiplication results, modular inverse, the signature equations. *)
From Coq Require Import ZArith List Bool Lia Znumtheory.
From Verif Require Import Bytes BytesProofs EcLadderModel EcSpec EcLadderProofs EcModel.
Import ListNotations.
Local Open Scope Z_scope.

(** Scalars the group's code takes. *)
Definition fits (C : group) (n : Z) : Prop := scalar_fits (gname C) n = true.
Lemma scalar_fits_file nid w f n : file_of nid = Some f ->
  scalar_fits nid n = (n <? 256 ^ Z.of_nat (s_nb (file_shape w f))).
Proof.
  intros H. change (2 ^ 256) with (256 ^ Z.of_nat 32). 
  destruct nid; try discriminate H; injection H as <-; destruct w; reflexivity.
Qed.
Lemma scalar_fits_lib nid n : file_of nid = None -> scalar_fits nid n = true.
Proof. destruct nid; intros H; try discriminate H; reflexivity. Qed.

Lemma le2n_n2le_abs len n : Z.abs n < 256 ^ Z.of_nat len -> Z.of_N (le2n (n2le len (Z.abs_N n))) = Z.abs n.
Proof.
  intros H. rewrite le2n_n2le_small.
  - apply N2Z.inj_abs_N.
  - apply N2Z.inj_lt. rewrite N2Z.inj_abs_N, N2Z.inj_pow, nat_N_Z. exact H.
Qed.

(** ** The modular inverse *)
Lemma euclid_spec a n : forall fuel r0 r1 t0 t1, 0 <= r1 < r0 -> r0 * r1 < 2 ^ Z.of_nat fuel ->
  (n | t0 * a - r0) -> (n | t1 * a - r1) ->
  let '(g, t) := euclid (S fuel) r0 r1 t0 t1 in g = Z.gcd r0 r1 /\ (n | t * a - g).
Proof.
  induction fuel as [|fuel IH]; intros r0 r1 t0 t1 R B D0 D1.
  - change (2 ^ Z.of_nat 0) with 1 in B. assert (r1 = 0) by nia. subst r1.
    cbn [euclid]. rewrite Z.eqb_refl, Z.gcd_0_r, Z.abs_eq by lia. split; auto.
  - cbn [euclid]. destruct (Z.eqb_spec r1 0) as [->|N].
    + rewrite Z.gcd_0_r, Z.abs_eq by lia. split; auto.
    + pose proof (Z.mod_pos_bound r0 r1 ltac:(lia)). pose proof (Z.div_mod r0 r1 N) as E.
      assert (Q1 : 1 <= r0 / r1) by (apply Z.div_le_lower_bound; lia).
      specialize (IH r1 (r0 mod r1) t1 (t0 - r0 / r1 * t1)).
      rewrite (Z.gcd_comm r0 r1), <- (Z.gcd_mod r0 r1) by lia. rewrite (Z.gcd_comm _ r1).
      apply IH; auto.
      * rewrite Nat2Z.inj_succ, Z.pow_succ_r in B by lia. nia.
      * replace ((t0 - r0 / r1 * t1) * a - r0 mod r1) with ((t0 * a - r0) - (r0 / r1) * (t1 * a - r1)) by lia.
        apply Z.divide_sub_r; auto. apply Z.divide_mul_r. auto.
Qed.
Lemma mod_inverse_spec a n : 0 < a < n -> Z.gcd n a = 1 ->
  exists v, mod_inverse a n = Some v /\ 0 <= v < n /\ (v * a) mod n = 1.
Proof.
  intros H Gc. unfold mod_inverse.
  assert (LP : 0 <= Z.log2 n) by apply Z.log2_nonneg.
  replace (Z.to_nat (2 * Z.log2 n + 3)) with (S (Z.to_nat (2 * Z.log2 n + 2))) by lia.
  pose proof (euclid_spec a n (Z.to_nat (2 * Z.log2 n + 2)) n a 0 1) as E.
  destruct (euclid (S (Z.to_nat (2 * Z.log2 n + 2))) n a 0 1) as [g t].
  destruct E as [E1 E2].
  - lia.
  - rewrite Z2Nat.id by lia. replace (2 * Z.log2 n + 2) with (Z.succ (Z.log2 n) + Z.succ (Z.log2 n)) by lia.
    rewrite Z.pow_add_r by lia. destruct (Z.log2_spec n) as [_ U]; [lia|]. nia.
  - exists (-1). lia.
  - exists 0. lia.
  - rewrite Gc in E1. subst g. change (1 =? 1) with true. cbv iota.
    exists (t mod n). split; [reflexivity|]. split; [apply Z.mod_pos_bound; lia|].
    rewrite Z.mul_mod_idemp_l by lia. destruct E2 as [k K]. replace (t * a) with (1 + k * n) by lia.
    rewrite Z_mod_plus_full. apply Z.mod_small. lia.
Qed.
Lemma gcd_prime_1 q e : prime q -> 0 < e < q -> Z.gcd q e = 1.
Proof.
  intros P H. apply Zgcd_1_rel_prime. apply prime_rel_prime; [exact P|].
  intros D. apply Z.divide_pos_le in D; lia.
Qed.

Section Group.
Variable C : group.
Hypothesis L : ec_laws C.
Local Notation asc := (l_assoc C L).
Local Notation com := (l_comm C L).
Local Notation zer := (l_zero C L).
Local Notation neg := (l_neg C L).
Local Notation q := (order C).
Local Notation G := (gen C).

Lemma order_pos : 4 < q. Proof. apply (l_odd C L). Qed.
Lemma sm_add a b (P : pt C) : smul (a + b) P = padd C (smul a P) (smul b P).
Proof. apply smul_add; apply L. Qed.
Lemma sm_mul a b (P : pt C) : smul (a * b) P = smul a (smul b P).
Proof. apply smul_mul; apply L. Qed.
Lemma sm_opp z (P : pt C) : smul (- z) P = pneg C (smul z P).
Proof. apply smul_opp; apply L. Qed.
Lemma sm_zero z : smul z (pzero C) = pzero C.
Proof. apply smul_zero; apply L. Qed.
Lemma sm_1 (P : pt C) : smul 1 P = P.
Proof. apply smul_1; apply L. Qed.
Lemma zero_r (P : pt C) : padd C P (pzero C) = P.
Proof. rewrite com. apply zer. Qed.

Lemma sm_mod z P : smul q P = pzero C -> smul (z mod q) P = smul z P.
Proof.
  intros H. pose proof order_pos. rewrite (Z.div_mod z q) at 2 by lia.
  rewrite sm_add, (Z.mul_comm q), sm_mul, H, sm_zero, zer. reflexivity.
Qed.
Lemma gen_mod z : smul (z mod q) G = smul z G.
Proof. apply sm_mod, (l_order C L). Qed.
Lemma mult_order d : smul q (smul d G) = pzero C.
Proof. rewrite <- sm_mul, Z.mul_comm, sm_mul, (l_order C L). apply sm_zero. Qed.
Lemma gen_zero z : smul z G = pzero C <-> z mod q = 0.
Proof.
  pose proof order_pos. split; intros H0.
  - destruct (Z.eq_dec (z mod q) 0) as [E|E]; [exact E|exfalso].
    assert (R : rel_prime q z).
    { apply prime_rel_prime; [apply L|]. intros D. apply E. apply Z.mod_divide; [lia|exact D]. }
    destruct (rel_prime_bezout _ _ R) as [u v B].
    apply (l_gen C L). rewrite <- (sm_1 G), <- B, sm_add, !sm_mul, H0, (l_order C L), !sm_zero. apply zer.
  - rewrite <- gen_mod, H0. apply smul_0.
Qed.
Lemma gen_inj a b : smul a G = smul b G <-> a mod q = b mod q.
Proof.
  pose proof order_pos. split; intros E.
  - assert (Z : smul (a - b) G = pzero C).
    { unfold Z.sub. rewrite sm_add, sm_opp, E, com. apply neg. }
    apply gen_zero in Z. apply Z.mod_divide in Z; [|lia]. destruct Z as [k K].
    replace a with (b + k * q) by lia. apply Z_mod_plus_full.
  - rewrite <- gen_mod, E, gen_mod. reflexivity.
Qed.
Lemma affine_some P : P <> pzero C -> exists x y, affine C P = Some (x, y).
Proof.
  intros H. destruct (affine C P) as [[x y]|] eqn:E; [eauto|]. apply (l_affine C L) in E. contradiction.
Qed.
Lemma affine_zero : affine C (pzero C) = None.
Proof. apply (l_affine C L). reflexivity. Qed.

(** ** gost_ec_point_mul *)
Lemma pm_g n : 0 <= n -> fits C n -> forall Q, gost_ec_point_mul C (Some n) Q None = Some (smul n G).
Proof.
  intros N F Q. unfold gost_ec_point_mul, fits in *. pose proof (l_table C L) as T.
  destruct (file_of (gname C)) as [f|] eqn:E; cbn [option_map].
  - rewrite (scalar_fits_file _ (wide C) f _ E) in F. unfold c_mul_g, bn2lebinpad.
    rewrite Z.abs_eq by exact N. rewrite F. f_equal. apply Z.ltb_lt in F.
    rewrite (fixed_smul_cmb_correct C asc com zer neg); try apply file_shape_ok; try apply n2le_bytes; try apply n2le_length; [|exact (T f eq_refl)].
    unfold sval. rewrite le2n_n2le_abs; rewrite Z.abs_eq; auto.
  - rewrite lib_mul_smul; auto; apply L.
Qed.
Lemma pm_g_big n Q : 0 <= n -> ~ fits C n -> gost_ec_point_mul C (Some n) Q None = None.
Proof.
  intros N F. unfold gost_ec_point_mul, fits in *. destruct (file_of (gname C)) as [f|] eqn:E.
  - rewrite (scalar_fits_file _ (wide C) f _ E) in F.
    cbn [option_map]. unfold c_mul_g, bn2lebinpad. rewrite Z.abs_eq by exact N.
    destruct (n <? 256 ^ Z.of_nat (s_nb (file_shape (wide C) f))); [congruence|reflexivity].
  - exfalso. apply F, scalar_fits_lib, E.
Qed.
Lemma cof_file nid w f : file_of nid = Some f ->
  match nid with Tc256_A | Tc512_C => 4 | _ => 1 end = if s_ed (file_shape w f) then 4 else 1.
Proof. intros H. destruct nid; try discriminate H; injection H as <-; destruct w; reflexivity. Qed.
Lemma cof_lib nid : file_of nid = None -> match nid with Tc256_A | Tc512_C => 4 | _ => 1 end = 1.
Proof. intros H. destruct nid; try discriminate H; reflexivity. Qed.
Lemma pm_var m Q : 0 <= m -> fits C m -> Q <> pzero C ->
  gost_ec_point_mul C None (Some Q) (Some m) = Some (smul (cofactor C * m) Q).
Proof.
  intros N F H. destruct (affine_some Q H) as (x & y & A).
  rewrite (l_cofactor C L). unfold gost_ec_point_mul, fits in *. destruct (file_of (gname C)) as [f|] eqn:E; cbn [option_map].
  - rewrite (scalar_fits_file _ (wide C) f _ E) in F. rewrite (cof_file _ (wide C) f E).
    unfold c_mul, bn2lebinpad. rewrite A, Z.abs_eq by exact N. rewrite F. f_equal. apply Z.ltb_lt in F.
    rewrite (var_smul_rwnaf_correct C asc com zer neg); try apply file_shape_ok; auto using n2le_bytes, n2le_length.
    unfold sval. rewrite le2n_n2le_abs; rewrite Z.abs_eq; auto.
  - rewrite (cof_lib _ E). rewrite lib_mul_smul by apply L. f_equal. f_equal. lia.
Qed.
Lemma pm_var_big m Q : 0 <= m -> ~ fits C m -> gost_ec_point_mul C None (Some Q) (Some m) = None.
Proof.
  intros N F. unfold gost_ec_point_mul, fits in *. destruct (file_of (gname C)) as [f|] eqn:E.
  - rewrite (scalar_fits_file _ (wide C) f _ E) in F.
    cbn [option_map]. unfold c_mul, bn2lebinpad. rewrite Z.abs_eq by exact N.
    destruct (n2le _ _), (m <? 256 ^ Z.of_nat (s_nb (file_shape (wide C) f))); try congruence; destruct (affine C Q); reflexivity.
  - exfalso. apply F, scalar_fits_lib, E.
Qed.
Lemma pm_var_zero m : file_of (gname C) <> None -> gost_ec_point_mul C None (Some (pzero C)) (Some m) = None.
Proof.
  intros H. unfold gost_ec_point_mul. destruct (file_of (gname C)) as [f|]; [|congruence]. cbn [option_map].
  unfold c_mul. rewrite affine_zero. reflexivity.
Qed.
Lemma pm_var_zero_lib m : file_of (gname C) = None -> gost_ec_point_mul C None (Some (pzero C)) (Some m) = Some (pzero C).
Proof.
  intros H. unfold gost_ec_point_mul. rewrite H. cbn [option_map]. rewrite lib_mul_smul by apply L. rewrite sm_zero. reflexivity.
Qed.
Lemma pm_two n m Q : 0 <= n -> 0 <= m -> fits C n -> fits C m -> Q <> pzero C \/ file_of (gname C) = None ->
  gost_ec_point_mul C (Some n) (Some Q) (Some m) = Some (padd C (smul n G) (smul m Q)).
Proof.
  intros N M Fn Fm H.
  unfold gost_ec_point_mul, fits in *. pose proof (l_table C L) as T. destruct (file_of (gname C)) as [f|] eqn:E; cbn [option_map].
  - destruct H as [H|H]; [|discriminate H]. destruct (affine_some Q H) as (x & y & A).
    rewrite (scalar_fits_file _ (wide C) f _ E) in Fn. rewrite (scalar_fits_file _ (wide C) f _ E) in Fm.
    unfold c_mul_two, bn2lebinpad. rewrite A, !Z.abs_eq by assumption.
    rewrite Fn, Fm. f_equal. apply Z.ltb_lt in Fn, Fm.
    rewrite (var_smul_wnaf_two_correct C asc com zer neg); try apply file_shape_ok; auto using n2le_bytes, n2le_length.
    + unfold sval. rewrite !le2n_n2le_abs; rewrite ?Z.abs_eq; auto.
    + intros k K. rewrite (T f eq_refl); [|destruct f, (wide C); cbn; lia|exact K]. f_equal. rewrite Z.mul_0_r. apply Z.mul_1_r.
  - rewrite !lib_mul_smul by apply L. reflexivity.
Qed.
Lemma pm_two_zero n m : file_of (gname C) <> None -> gost_ec_point_mul C (Some n) (Some (pzero C)) (Some m) = None.
Proof.
  intros H. unfold gost_ec_point_mul. destruct (file_of (gname C)) as [f|]; [|congruence]. cbn [option_map].
  unfold c_mul_two. rewrite affine_zero. reflexivity.
Qed.
Lemma scalar_fits_le c a b : a <= b -> scalar_fits c b = true -> scalar_fits c a = true.
Proof. intros H. unfold scalar_fits. destruct c; rewrite ?Z.ltb_lt; try lia; auto. Qed.
Lemma fits_order n : n < q -> fits C n.
Proof. intros H. unfold fits. apply (scalar_fits_le _ n q); [lia|apply L]. Qed.

(** ** The signature equations *)
Lemma hash_number_range alpha : 0 < hash_number C alpha < q.
Proof.
  pose proof order_pos. unfold hash_number. pose proof (Z.mod_pos_bound alpha q ltac:(lia)).
  cbv zeta. destruct (Z.eqb_spec (alpha mod q) 0); lia.
Qed.
Lemma inverse_exists alpha : exists v, mod_inverse (hash_number C alpha) q = Some v /\ 0 <= v < q /\
  (v * hash_number C alpha) mod q = 1.
Proof.
  pose proof (hash_number_range alpha). apply mod_inverse_spec; [lia|]. apply gcd_prime_1; [apply L|lia].
Qed.
(** The point computed by the verifier of a key [d * G]. *)
Lemma verify_point d alpha v r s : (v * hash_number C alpha) mod q = 1 ->
  padd C (smul ((s * v) mod q) G) (smul ((- (r * v)) mod q) (smul d G)) = smul ((s - r * d) * v) G.
Proof.
  intros _. rewrite (sm_mod _ (smul d G)) by apply mult_order. rewrite gen_mod, <- sm_mul, <- sm_add. f_equal. lia.
Qed.
Lemma mul_inv_cancel v e a : (v * e) mod q = 1 -> (a * v * e) mod q = a mod q.
Proof.
  intros H. pose proof order_pos. rewrite <- Z.mul_assoc, <- Z.mul_mod_idemp_r, H by lia. f_equal. lia.
Qed.
Lemma accepted_iff_signature d alpha r s :
  accepted C (smul d G) alpha r s <-> exists k, signature C d alpha k r s.
Proof.
  pose proof order_pos as OP. split.
  - intros (Hr & Hs & v & x & y & Hv & A & X). rewrite (verify_point d alpha) in A by exact Hv.
    exists (((s - r * d) * v) mod q).
    assert (K : smul (((s - r * d) * v) mod q) G = smul ((s - r * d) * v) G) by apply gen_mod.
    pose proof (Z.mod_pos_bound ((s - r * d) * v) q ltac:(lia)) as B.
    assert (NZ : ((s - r * d) * v) mod q <> 0).
    { intros Z. apply gen_zero in Z. rewrite Z in A. rewrite affine_zero in A. discriminate A. }
    repeat split; try lia.
    + exists x, y. rewrite K. auto.
    + rewrite <- Z.add_mod_idemp_r, Z.mul_mod_idemp_l, mul_inv_cancel, Z.add_mod_idemp_r by (try exact Hv; lia).
      replace (r * d + (s - r * d)) with s by lia. symmetry. apply Z.mod_small. lia.
  - intros (k & Hk & (x & y & A & Hr) & Hs & Nr & Ns).
    pose proof (Z.mod_pos_bound x q ltac:(lia)). pose proof (Z.mod_pos_bound (r * d + k * hash_number C alpha) q ltac:(lia)).
    split; [lia|]. split; [lia|].
    destruct (inverse_exists alpha) as (v & _ & _ & Hv). exists v, x, y. split; [exact Hv|].
    rewrite (verify_point d alpha) by exact Hv. split; [|auto].
    rewrite <- A. f_equal. apply gen_inj.
    replace (k mod q) with ((k * v * hash_number C alpha) mod q) by (apply mul_inv_cancel; exact Hv).
    rewrite Hs.
    assert (E : forall a b, a mod q = b mod q -> (a * v) mod q = (b * v) mod q).
    { intros a b E. rewrite <- Z.mul_mod_idemp_l, E, Z.mul_mod_idemp_l by lia. reflexivity. }
    replace (k * v * hash_number C alpha) with (k * hash_number C alpha * v) by lia. apply E.
    rewrite Zminus_mod_idemp_l. f_equal. lia.
Qed.
Lemma inverse_unique e v w : 0 <= v < q -> (v * e) mod q = 1 -> (w * e) mod q = 1 -> w mod q = v.
Proof.
  intros B Hv Hw. pose proof order_pos.
  rewrite <- (mul_inv_cancel v e w Hv). replace (w * v * e) with (v * w * e) by lia.
  rewrite (mul_inv_cancel w e v Hw). apply Z.mod_small; lia.
Qed.
End Group.

