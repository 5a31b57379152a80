(** Scalar multiplication: the recodings and the ladders compute multiples. *)
From Coq Require Import ZArith List Bool Lia Znumtheory.
From Verif Require Import Bytes BytesProofs EcLadderModel EcSpec.
Import ListNotations.
Local Open Scope Z_scope.

Section Algebra.
Variable C : group.
Hypothesis assoc : forall P Q R, padd C P (padd C Q R) = padd C (padd C P Q) R.
Hypothesis comm : forall P Q, padd C P Q = padd C Q P.
Hypothesis zl : forall P, padd C (pzero C) P = P.
Hypothesis nl : forall P, padd C (pneg C P) P = pzero C.
Notation "P ⊕ Q" := (padd C P Q) (at level 50, left associativity).

Lemma zr P : P ⊕ pzero C = P. Proof. rewrite comm; apply zl. Qed.
Lemma nr P : P ⊕ pneg C P = pzero C. Proof. rewrite comm; apply nl. Qed.
Lemma cancel_l P Q R : P ⊕ Q = P ⊕ R -> Q = R.
Proof. intros H. rewrite <- (zl Q), <- (zl R), <- (nl P), <- !assoc, H. reflexivity. Qed.
Lemma neg_unique P Q : P ⊕ Q = pzero C -> Q = pneg C P.
Proof. intros H. apply (cancel_l P). rewrite H, nr. reflexivity. Qed.
Lemma neg_zero : pneg C (pzero C) = pzero C.
Proof. symmetry. apply neg_unique, zl. Qed.
Lemma neg_neg P : pneg C (pneg C P) = P.
Proof. symmetry. apply neg_unique, nl. Qed.
Lemma swap4 A B D E : (A ⊕ B) ⊕ (D ⊕ E) = (A ⊕ D) ⊕ (B ⊕ E).
Proof. rewrite <- !assoc. f_equal. rewrite !assoc. f_equal. apply comm. Qed.
Lemma neg_add P Q : pneg C (P ⊕ Q) = pneg C P ⊕ pneg C Q.
Proof. symmetry. apply neg_unique. rewrite swap4, !nr. apply zl. Qed.

Lemma nsum_add n m (P : pt C) : nsum (n + m) P = nsum n P ⊕ nsum m P.
Proof. induction n; cbn [nsum Nat.add]; [rewrite zl; auto|rewrite IHn, assoc; auto]. Qed.
Lemma nsum_padd n (P Q : pt C) : nsum n (P ⊕ Q) = nsum n P ⊕ nsum n Q.
Proof. induction n; cbn [nsum]; [rewrite zl; auto|rewrite IHn; apply swap4]. Qed.
Lemma nsum_neg n (P : pt C) : nsum n (pneg C P) = pneg C (nsum n P).
Proof. induction n; cbn [nsum]; [rewrite neg_zero; auto|rewrite IHn, neg_add; auto]. Qed.
Lemma nsum_zero n : nsum n (pzero C) = pzero C.
Proof. induction n; cbn [nsum]; [auto|rewrite IHn; apply zl]. Qed.

Lemma smul_of_nat n (P : pt C) : smul (Z.of_nat n) P = nsum n P.
Proof.
  unfold smul. destruct (Z.ltb_spec (Z.of_nat n) 0); [lia|]. rewrite Nat2Z.id. reflexivity.
Qed.
Lemma smul_opp z (P : pt C) : smul (- z) P = pneg C (smul z P).
Proof.
  unfold smul. destruct (Z.ltb_spec (- z) 0), (Z.ltb_spec z 0); try lia.
  - rewrite Z.opp_involutive. reflexivity.
  - rewrite neg_neg. reflexivity.
  - replace z with 0 by lia. cbn. rewrite neg_zero. reflexivity.
Qed.
Lemma smul_neg z (P : pt C) : smul z (pneg C P) = pneg C (smul z P).
Proof. unfold smul. destruct (z <? 0); rewrite nsum_neg; reflexivity. Qed.
Lemma z_cases (Q : Z -> Prop) : (forall n, Q (Z.of_nat n)) -> (forall n, Q (- Z.of_nat n)) -> forall z, Q z.
Proof.
  intros A B z. destruct (Z.le_ge_cases 0 z).
  - rewrite <- (Z2Nat.id z) by lia. apply A.
  - replace z with (- Z.of_nat (Z.to_nat (- z))) by lia. apply B.
Qed.
Lemma smul_sub_nat n m (P : pt C) : smul (Z.of_nat n - Z.of_nat m) P = nsum n P ⊕ pneg C (nsum m P).
Proof.
  destruct (Nat.le_ge_cases m n) as [H|H].
  - replace (Z.of_nat n - Z.of_nat m) with (Z.of_nat (n - m)) by lia. rewrite smul_of_nat.
    replace n with ((n - m) + m)%nat at 2 by lia. rewrite nsum_add, <- assoc, nr, zr. reflexivity.
  - replace (Z.of_nat n - Z.of_nat m) with (- Z.of_nat (m - n)) by lia. rewrite smul_opp, smul_of_nat.
    replace m with (n + (m - n))%nat at 2 by lia. rewrite nsum_add, neg_add, assoc, nr, zl. reflexivity.
Qed.
Lemma smul_add a b (P : pt C) : smul (a + b) P = smul a P ⊕ smul b P.
Proof.
  revert a; apply z_cases; intros n; revert b; apply z_cases; intros m; rewrite ?smul_opp, ?smul_of_nat.
  - replace (Z.of_nat n + Z.of_nat m) with (Z.of_nat (n + m)) by lia. rewrite smul_of_nat. apply nsum_add.
  - replace (Z.of_nat n + - Z.of_nat m) with (Z.of_nat n - Z.of_nat m) by lia. apply smul_sub_nat.
  - replace (- Z.of_nat n + Z.of_nat m) with (Z.of_nat m - Z.of_nat n) by lia. rewrite comm. apply smul_sub_nat.
  - replace (- Z.of_nat n + - Z.of_nat m) with (- Z.of_nat (n + m)) by lia.
    rewrite smul_opp, smul_of_nat, nsum_add, neg_add. reflexivity.
Qed.
Lemma smul_0 (P : pt C) : smul 0 P = pzero C. Proof. reflexivity. Qed.
Lemma smul_1 (P : pt C) : smul 1 P = P. Proof. unfold smul. cbn. apply zr. Qed.
Lemma smul_2 (P : pt C) : smul 2 P = P ⊕ P.
Proof. replace 2 with (1 + 1) by lia. rewrite smul_add, smul_1. reflexivity. Qed.
Lemma smul_zero z : smul z (pzero C) = pzero C.
Proof. unfold smul. destruct (z <? 0); rewrite nsum_zero; [apply neg_zero|reflexivity]. Qed.
Lemma smul_padd z (P Q : pt C) : smul z (P ⊕ Q) = smul z P ⊕ smul z Q.
Proof. unfold smul. destruct (z <? 0); rewrite nsum_padd; [apply neg_add|reflexivity]. Qed.
Lemma smul_mul a b (P : pt C) : smul (a * b) P = smul a (smul b P).
Proof.
  revert a. apply z_cases; intros n.
  - induction n as [|n IH]; [reflexivity|].
    replace (Z.of_nat (S n) * b) with (b + Z.of_nat n * b) by lia.
    rewrite smul_add, IH. replace (Z.of_nat (S n)) with (1 + Z.of_nat n) by lia.
    rewrite (smul_add 1), smul_1. reflexivity.
  - rewrite Z.mul_opp_l, !smul_opp. f_equal.
    induction n as [|n IH]; [reflexivity|].
    replace (Z.of_nat (S n) * b) with (b + Z.of_nat n * b) by lia.
    rewrite smul_add, IH. replace (Z.of_nat (S n)) with (1 + Z.of_nat n) by lia.
    rewrite (smul_add 1), smul_1. reflexivity.
Qed.
Lemma dbl_smul z (P : pt C) : pdouble C (smul z P) = smul (2 * z) P.
Proof. unfold pdouble. rewrite <- smul_add. f_equal. lia. Qed.
Lemma iter_dbl n z (P : pt C) : Nat.iter n (pdouble C) (smul z P) = smul (2 ^ Z.of_nat n * z) P.
Proof.
  induction n as [|n IH].
  - change (2 ^ Z.of_nat 0) with 1. rewrite Z.mul_1_l. reflexivity.
  - cbn [Nat.iter nat_rect]. unfold Nat.iter in IH. rewrite IH, dbl_smul. f_equal.
    rewrite Nat2Z.inj_succ, Z.pow_succ_r by lia. lia.
Qed.
Lemma pos_mul_smul p (P : pt C) : pos_mul C p P = smul (Zpos p) P.
Proof.
  induction p as [p IH|p IH|]; cbn [pos_mul].
  - rewrite IH, dbl_smul. rewrite <- (smul_1 P) at 1. rewrite <- smul_add. f_equal; lia.
  - rewrite IH, dbl_smul. reflexivity.
  - symmetry. apply smul_1.
Qed.
Lemma lib_mul_smul z (P : pt C) : lib_mul C z P = smul z P.
Proof.
  destruct z as [|p|p]; cbn [lib_mul]; [reflexivity|apply pos_mul_smul|].
  rewrite pos_mul_smul, <- smul_opp. reflexivity.
Qed.

(** Tables of odd multiples. *)
Lemma precomp_nth P k : (k < 16)%nat ->
  nth k (precomp_wnaf C P) (pzero C) = smul (2 * Z.of_nat k + 1) P.
Proof.
  intros H.
  assert (E : precomp_wnaf C P =
    map (fun k => Nat.iter k (fun X => pdouble C P ⊕ X) P) (seq 0 16)) by reflexivity.
  rewrite E. clear E. pose (g := fun k => Nat.iter k (fun X => pdouble C P ⊕ X) P).
  change (nth k (map g (seq 0 16)) (pzero C) = smul (2 * Z.of_nat k + 1) P).
  rewrite (nth_indep _ _ (g 0%nat)) by (rewrite map_length, seq_length; lia).
  rewrite map_nth, seq_nth by lia. rewrite Nat.add_0_l. clear H. unfold g. clear g.
  unfold pdouble. rewrite <- smul_2.
  induction k as [|k IH]; [symmetry; apply smul_1|].
  unfold Nat.iter in *. cbn [nat_rect]. rewrite IH, <- smul_add. f_equal. lia.
Qed.

End Algebra.

Lemma lookup_correct (C : group) (tbl : nat -> pt C) d old : 0 <= d < 16 -> lookup C tbl d old = tbl (Z.to_nat d).
Proof.
  intros H. assert (Hd : d = Z.of_nat (Z.to_nat d)) by lia.
  assert (Hn : (Z.to_nat d < 16)%nat) by lia. rewrite Hd at 1.
  remember (Z.to_nat d) as n eqn:E. clear E Hd H.
  do 16 (destruct n as [|n]; [reflexivity|]). lia.
Qed.

(** Digits: sign and index of an odd digit. *)
Lemma digit_pos d : 0 < d < 32 -> Z.odd d = true -> digit_neg d = 0 /\ digit_idx d = (d - 1) / 2.
Proof.
  intros H O. unfold digit_idx, digit_neg.
  assert (E : Z.shiftr d 31 = 0) by (rewrite Z.shiftr_div_pow2 by lia; apply Z.div_small; lia).
  rewrite E. cbn [Z.land Z.opp]. rewrite Z.lxor_0_r, Z.shiftr_div_pow2 by lia. split; auto.
  f_equal. lia.
Qed.
Lemma digit_negative d : -32 < d < 0 -> Z.odd d = true -> digit_neg d = 1 /\ digit_idx d = (- d - 1) / 2.
Proof.
  intros H O. unfold digit_idx, digit_neg.
  assert (E : Z.shiftr d 31 = -1).
  { rewrite Z.shiftr_div_pow2 by lia. symmetry. apply (Z.div_unique d (2 ^ 31) (-1) (d + 2 ^ 31)); lia. }
  rewrite E. change (Z.land (-1) 1) with 1. change (- (1)) with (-1).
  rewrite Z.lxor_m1_r, Z.shiftr_div_pow2 by lia. split; auto. unfold Z.lnot. f_equal. lia.
Qed.

(** Bits of a scalar given as little-endian bytes. *)
Definition sval (inp : list N) : Z := Z.of_N (le2n inp).
Lemma sval_nonneg inp : 0 <= sval inp. Proof. unfold sval. lia. Qed.
Lemma sval_lt inp : bytes inp -> sval inp < 2 ^ (8 * Z.of_nat (length inp)).
Proof.
  intros B. unfold sval. pose proof (le2n_lt inp B) as H.
  replace (2 ^ (8 * Z.of_nat (length inp))) with (Z.of_N (256 ^ N.of_nat (length inp))); [lia|].
  rewrite N2Z.inj_pow, nat_N_Z, Z.pow_mul_r by lia. reflexivity.
Qed.
Lemma sval_nth inp : bytes inp -> forall i, Z.of_N (nth i inp 0%N) = (sval inp / 256 ^ Z.of_nat i) mod 256.
Proof.
  unfold sval. induction 1 as [|b l Hb Hl IH]; intros i.
  - cbn [le2n nth]. destruct i; rewrite Z.div_0_l by (apply Z.pow_nonzero; lia); reflexivity.
  - unfold isbyte in Hb. cbn [le2n].
    replace (Z.of_N (b + 256 * le2n l)) with (Z.of_N b + 256 * Z.of_N (le2n l)) by lia.
    destruct i as [|i].
    + cbn [nth]. change (256 ^ Z.of_nat 0) with 1. rewrite Z.div_1_r.
      rewrite Z.mul_comm, Z_mod_plus_full, Z.mod_small by lia. reflexivity.
    + cbn [nth]. rewrite IH. rewrite Nat2Z.inj_succ, Z.pow_succ_r by lia.
      rewrite <- Z.div_div by (try lia; apply Z.pow_pos_nonneg; lia).
      replace ((Z.of_N b + 256 * Z.of_N (le2n l)) / 256) with (Z.of_N (le2n l)); [reflexivity|].
      rewrite Z.mul_comm, Z.div_add, Z.div_small by lia. lia.
Qed.
Lemma div_pow2_mod2 z n : 0 <= n -> (z / 2 ^ n) mod 2 = Z.b2z (Z.testbit z n).
Proof. intros. rewrite Z.testbit_spec' by auto. reflexivity. Qed.
Lemma get_bit inp nb idx : bytes inp -> length inp = nb ->
  scalar_get_bit nb inp idx = (sval inp / 2 ^ Z.of_nat idx) mod 2.
Proof.
  intros B L. unfold scalar_get_bit. destruct (Nat.leb_spec nb (idx / 8)) as [H|H].
  - rewrite Z.div_small; [reflexivity|]. split; [apply sval_nonneg|].
    eapply Z.lt_le_trans; [apply sval_lt; auto|]. apply Z.pow_le_mono_r; [lia|].
    pose proof (Nat.div_mod idx 8). lia.
  - rewrite sval_nth by auto.
    rewrite (div_pow2_mod2 (sval inp)) by lia.
    change 1 with (Z.ones 1). rewrite Z.land_ones by lia. change (2 ^ 1) with 2.
    rewrite Z.shiftr_div_pow2 by lia. rewrite (div_pow2_mod2 _ (Z.of_nat (idx mod 8))) by lia.
    f_equal. change 256 with (2 ^ 8). rewrite <- Z.pow_mul_r by lia.
    assert (idx mod 8 < 8)%nat by (apply Nat.mod_upper_bound; lia).
    rewrite Z.mod_pow2_bits_low by lia. rewrite Z.div_pow2_bits by lia. f_equal.
    pose proof (Nat.div_mod idx 8). lia.
Qed.
Lemma bit01 z : 0 <= z mod 2 <= 1. Proof. pose proof (Z.mod_pos_bound z 2). lia. Qed.
Lemma split_bit z n : 0 <= n -> z / 2 ^ n = (z / 2 ^ n) mod 2 + 2 * (z / 2 ^ (n + 1)).
Proof.
  intros. rewrite Z.pow_add_r by lia. change (2 ^ 1) with 2.
  rewrite <- Z.div_div by (try lia; apply Z.pow_pos_nonneg; lia).
  pose proof (Z.div_mod (z / 2 ^ n) 2). lia.
Qed.
Lemma i8_small z : -128 <= z < 128 -> i8 z = z.
Proof. intros. unfold i8. rewrite Z.mod_small by lia. lia. Qed.
Lemma land_mod z n : 0 <= n -> Z.land z (2 ^ n - 1) = z mod 2 ^ n.
Proof. intros. rewrite <- Z.land_ones by auto. rewrite Z.ones_equiv. f_equal. Qed.

(** The digits of [scalar_rwnaf] in radix 32. *)
Fixpoint radix (b : Z) (l : list Z) : Z :=
  match l with [] => 0 | d :: t => d + b * radix b t end.
Definition odd_digit (d : Z) : Prop := Z.odd d = true /\ -32 < d < 32.

Definition bit (z : Z) (n : nat) : Z := (z / 2 ^ Z.of_nat n) mod 2.
Lemma bit_range z n : 0 <= bit z n <= 1. Proof. apply bit01. Qed.
Lemma split_bit' z n : z / 2 ^ Z.of_nat n = bit z n + 2 * (z / 2 ^ Z.of_nat (S n)).
Proof.
  unfold bit. replace (Z.of_nat (S n)) with (Z.of_nat n + 1) by lia. apply split_bit. apply Nat2Z.is_nonneg.
Qed.
Opaque bit.
Lemma five_bits z n : z / 2 ^ Z.of_nat n =
  bit z n + 2 * bit z (n + 1) + 4 * bit z (n + 2) + 8 * bit z (n + 3) + 16 * bit z (n + 4)
  + 32 * (z / 2 ^ Z.of_nat (n + 5)).
Proof.
  rewrite (split_bit' z n).
  replace (n + 1)%nat with (S n) by (symmetry; apply Nat.add_1_r).
  replace (n + 2)%nat with (S (S n)) by (rewrite !Nat.add_succ_r, Nat.add_0_r; reflexivity).
  replace (n + 3)%nat with (S (S (S n))) by (rewrite !Nat.add_succ_r, Nat.add_0_r; reflexivity).
  replace (n + 4)%nat with (S (S (S (S n)))) by (rewrite !Nat.add_succ_r, Nat.add_0_r; reflexivity).
  replace (n + 5)%nat with (S (S (S (S (S n))))) by (rewrite !Nat.add_succ_r, Nat.add_0_r; reflexivity).
  rewrite (split_bit' z (S n)), (split_bit' z (S (S n))), (split_bit' z (S (S (S n)))), (split_bit' z (S (S (S (S n))))).
  ring.
Qed.
Lemma window_next b0 b1 b2 b3 b4 w F F5 : 0 < w < 64 -> Z.odd w = true ->
  0 <= b0 <= 1 -> 0 <= b1 <= 1 -> 0 <= b2 <= 1 -> 0 <= b3 <= 1 -> 0 <= b4 <= 1 -> 0 <= F5 ->
  F = b0 + 2 * b1 + 4 * b2 + 8 * b3 + 16 * b4 + 32 * F5 ->
  let d := i8 (Z.land w (64 - 1) - 32) in
  let w' := i8 (i8 (i8 (i8 (i8 (i8 (Z.shiftr (w - d) 5) + Z.shiftl b0 1) + Z.shiftl b1 2)
                + Z.shiftl b2 3) + Z.shiftl b3 4) + Z.shiftl b4 5) in
  d = w - 32 /\ 0 < w' < 64 /\ Z.odd w' = true /\
  w + 64 * F = (w - 32) + 32 * (w' + 64 * F5) /\ w' <= 1 + 2 * F.
Proof.
  intros W O B0 B1 B2 B3 B4 P EQ. cbv zeta.
  change (64 - 1) with (2 ^ 6 - 1). rewrite land_mod by lia. change (2 ^ 6) with 64.
  rewrite (Z.mod_small w) by lia. rewrite (i8_small (w - 32)) by lia.
  replace (w - (w - 32)) with 32 by lia. change (Z.shiftr 32 5) with 1.
  rewrite !Z.shiftl_mul_pow2 by lia.
  change (2 ^ 1) with 2. change (2 ^ 2) with 4. change (2 ^ 3) with 8. change (2 ^ 4) with 16. change (2 ^ 5) with 32.
  rewrite (i8_small 1) by lia. rewrite (i8_small (1 + b0 * 2)) by lia.
  rewrite (i8_small (1 + b0 * 2 + b1 * 4)) by lia. rewrite (i8_small (1 + b0 * 2 + b1 * 4 + b2 * 8)) by lia.
  rewrite (i8_small (1 + b0 * 2 + b1 * 4 + b2 * 8 + b3 * 16)) by lia.
  rewrite (i8_small (1 + b0 * 2 + b1 * 4 + b2 * 8 + b3 * 16 + b4 * 32)) by lia.
  split; [reflexivity|]. split; [lia|]. split; [|lia].
  replace (1 + b0 * 2 + b1 * 4 + b2 * 8 + b3 * 16 + b4 * 32)
    with (1 + 2 * (b0 + b1 * 2 + b2 * 4 + b3 * 8 + b4 * 16)) by lia.
  rewrite Z.odd_add_mul_2. reflexivity.
Qed.
Lemma div_pow2_nonneg z n : 0 <= z -> 0 <= z / 2 ^ Z.of_nat n.
Proof. intros. apply Z.div_pos; [auto|apply Z.pow_pos_nonneg; [reflexivity|apply Nat2Z.is_nonneg]]. Qed.
Lemma get_bit' inp nb idx : bytes inp -> length inp = nb -> scalar_get_bit nb inp idx = bit (sval inp) idx.
Proof. apply get_bit. Qed.

Lemma rwnaf_step_spec nb inp i w : bytes inp -> length inp = nb ->
  0 < w < 64 -> Z.odd w = true ->
  let F := sval inp / 2 ^ Z.of_nat (5 * i + 6) in
  exists w', rwnaf_step nb inp i w = (w - 32, w') /\
    0 < w' < 64 /\ Z.odd w' = true /\
    w + 64 * F = (w - 32) + 32 * (w' + 64 * (sval inp / 2 ^ Z.of_nat (5 * S i + 6))) /\
    w' <= 1 + 2 * F.
Proof.
  intros B L W O F. unfold rwnaf_step. unfold RADIX, DRADIX, DRADIX_WNAF.
  rewrite !get_bit' by auto.
  replace ((i + 1) * 5 + 1)%nat with (5 * i + 6)%nat by lia.
  replace ((i + 1) * 5 + 2)%nat with ((5 * i + 6) + 1)%nat by lia.
  replace ((i + 1) * 5 + 3)%nat with ((5 * i + 6) + 2)%nat by lia.
  replace ((i + 1) * 5 + 4)%nat with ((5 * i + 6) + 3)%nat by lia.
  replace ((i + 1) * 5 + 5)%nat with ((5 * i + 6) + 4)%nat by lia.
  replace (5 * S i + 6)%nat with ((5 * i + 6) + 5)%nat by lia.
  destruct (window_next (bit (sval inp) (5 * i + 6)) (bit (sval inp) (5 * i + 6 + 1))
    (bit (sval inp) (5 * i + 6 + 2)) (bit (sval inp) (5 * i + 6 + 3)) (bit (sval inp) (5 * i + 6 + 4))
    w F (sval inp / 2 ^ Z.of_nat (5 * i + 6 + 5)))
    as (D & R); try apply bit_range; auto.
  - apply div_pow2_nonneg, sval_nonneg.
  - apply five_bits.
  - cbv zeta. rewrite D. rewrite D in R. eexists; split; [reflexivity|exact R].
Qed.

Lemma rwnaf_loop_spec nb inp : bytes inp -> length inp = nb -> forall n i w,
  0 < w < 64 -> Z.odd w = true ->
  (n = 0%nat -> w < 32) ->
  sval inp < 2 ^ Z.of_nat (5 * (i + n) + 2) ->
  let l := rwnaf_loop nb inp n i w in
  length l = S n /\ Forall odd_digit l /\ 0 < nth n l 0 /\
  radix 32 l = w + 64 * (sval inp / 2 ^ Z.of_nat (5 * i + 6)).
Proof.
  intros B L. induction n as [|n IH]; intros i w W O T V; cbn [rwnaf_loop]; cbv zeta.
  - specialize (T eq_refl).
    split; [reflexivity|]. split; [repeat constructor; auto; lia|]. split; [cbn; lia|].
    rewrite Z.div_small; [cbn; lia|]. split; [apply sval_nonneg|].
    eapply Z.lt_le_trans; [apply V|]. apply Z.pow_le_mono_r; lia.
  - destruct (rwnaf_step_spec nb inp i w B L W O) as (w' & E & W' & O' & EQ & LE). rewrite E.
    destruct (IH (S i) w') as (A1 & A2 & A3 & A4); auto.
    + intros ->.
      assert (X : sval inp / 2 ^ Z.of_nat (5 * i + 6) < 2); [|clear - X LE; lia].
      apply Z.div_lt_upper_bound; [apply Z.pow_pos_nonneg; lia|].
      replace (2 ^ Z.of_nat (5 * i + 6) * 2) with (2 ^ Z.of_nat (5 * (i + 1) + 2)); [exact V|].
      replace (Z.of_nat (5 * (i + 1) + 2)) with (Z.of_nat (5 * i + 6) + 1) by lia.
      rewrite Z.pow_add_r by lia. reflexivity.
    + replace (S i + n)%nat with (i + S n)%nat by lia. exact V.
    + split; [cbn [length]; lia|]. split.
      * constructor; auto. split; [|lia]. rewrite Z.odd_sub, O. reflexivity.
      * split; [exact A3|]. cbn [radix]. rewrite A4. symmetry. exact EQ.
Qed.

Definition shape_ok (s : shape) : Prop :=
  (0 < s_nb s)%nat /\ (1 < s_nd s)%nat /\ (8 * s_nb s <= 5 * (s_nd s - 1) + 2)%nat /\
  (0 < s_rows s)%nat /\ (s_nd s <= s_rows s * s_cols s)%nat.
Lemma file_shape_ok w f : shape_ok (file_shape w f).
Proof. destruct f, w; unfold shape_ok; cbn; lia. Qed.

(** The scalar with its lowest bit forced to one. *)
Definition odded (z : Z) : Z := if Z.even z then z + 1 else z.

Lemma scalar_rwnaf_spec s inp : shape_ok s -> bytes inp -> length inp = s_nb s ->
  let l := scalar_rwnaf s inp in
  length l = s_nd s /\ Forall odd_digit l /\ 0 < nth (s_nd s - 1) l 0 /\ radix 32 l = odded (sval inp).
Proof.
  intros (N0 & N1 & N2 & _) B L l.
  assert (H0 : Z.of_N (nth 0 inp 0%N) = sval inp mod 256)
    by (rewrite sval_nth by auto; change (256 ^ Z.of_nat 0) with 1; rewrite Z.div_1_r; reflexivity).
  set (w := i8 (Z.lor (Z.land (Z.of_N (nth 0 inp 0%N)) (DRADIX_WNAF - 1)) 1)).
  assert (Ew : w = odded (sval inp mod 64)).
  { unfold w. rewrite H0. unfold DRADIX_WNAF. change (64 - 1) with (2 ^ 6 - 1). rewrite land_mod by lia.
    change (2 ^ 6) with 64.
    rewrite <- (Zmod_div_mod 64 256) by (try lia; exists 4; reflexivity).
    set (m := sval inp mod 64). assert (M : 0 <= m < 64) by (apply Z.mod_pos_bound; lia).
    clearbody m. unfold odded.
    assert (E2 : Z.lor m 1 = if Z.even m then m + 1 else m).
    { destruct (Z.even m) eqn:Ev.
      - assert (A0 : Z.land m 1 = 0); [|rewrite Z.add_nocarry_lxor, Z.lxor_lor by exact A0; reflexivity].
        change 1 with (Z.ones 1). rewrite Z.land_ones by lia. change (2 ^ 1) with 2. rewrite Zmod_even, Ev. reflexivity.
      - apply Z.bits_inj'. intros k Hk. rewrite Z.lor_spec. destruct (Z.eq_dec k 0) as [->|].
        + rewrite Z.bit0_odd. rewrite <- Z.negb_even, Ev. reflexivity.
        + change 1 with (2 ^ 0). rewrite Z.pow2_bits_false by lia. apply orb_false_r. }
    rewrite E2. apply i8_small. destruct (Z.even m); lia. }
  assert (M : 0 <= sval inp mod 64 < 64) by (apply Z.mod_pos_bound; lia).
  assert (Ev : Z.even (sval inp mod 64) = Z.even (sval inp)).
  { rewrite !Zeven_mod. f_equal. symmetry. apply Zmod_div_mod; try lia. exists 32. reflexivity. }
  assert (W : 0 < w < 64 /\ Z.odd w = true).
  { rewrite Ew. unfold odded. destruct (Z.even (sval inp mod 64)) eqn:E.
    - split; [|rewrite Z.odd_add, <- Z.negb_even, E; reflexivity].
      enough (sval inp mod 64 <> 63) by lia. intros X. rewrite X in E. discriminate.
    - split; [|rewrite <- Z.negb_even, E; reflexivity]. enough (sval inp mod 64 <> 0) by lia.
      intros X. rewrite X in E. discriminate. }
  destruct W as [W O].
  destruct (rwnaf_loop_spec (s_nb s) inp B L (s_nd s - 1) 0 w W O) as (A1 & A2 & A3 & A4).
  - lia.
  - eapply Z.lt_le_trans; [apply sval_lt; auto|]. rewrite L. apply Z.pow_le_mono_r; lia.
  - change (rwnaf_loop (s_nb s) inp (s_nd s - 1) 0 w) with l in *.
    split; [lia|]. split; [auto|]. split; [auto|]. rewrite A4, Ew.
    change (2 ^ Z.of_nat (5 * 0 + 6)) with 64. unfold odded. rewrite Ev.
    pose proof (Z.div_mod (sval inp) 64). destruct (Z.even (sval inp)); lia.
Qed.

(** The digits of [scalar_wnaf]. *)
Definition wnaf_digit (d : Z) : Prop := d = 0 \/ odd_digit d.
Lemma wnaf_next b w F F1 : 0 <= w <= 64 -> 0 <= b <= 1 -> F = b + 2 * F1 ->
  let d := if Z.land w 1 =? 0 then 0
           else let d := Z.land w (64 - 1) in if Z.land d 32 =? 0 then d else i8 (d - 64) in
  let w' := i8 (i8 (Z.shiftr (w - d) 1) + Z.shiftl b 5) in
  wnaf_digit d /\ 0 <= w' <= 64 /\ w + 64 * F = d + 2 * (w' + 64 * F1) /\
  (b = 0 -> w' <= 32 /\ (w <= 32 -> 2 * w' <= w)).
Proof.
  intros W B EQ. cbv zeta. change (64 - 1) with (2 ^ 6 - 1). rewrite (land_mod w 6) by lia. change (2 ^ 6) with 64.
  change (Z.land w 1) with (Z.land w (2 ^ 1 - 1)). rewrite (land_mod w 1) by lia. change (2 ^ 1) with 2.
  rewrite !Z.shiftl_mul_pow2, !Z.shiftr_div_pow2 by lia. change (2 ^ 5) with 32. change (2 ^ 1) with 2.
  assert (M : exists h, w = 2 * h + w mod 2 /\ 0 <= w mod 2 < 2 /\ h = w / 2).
  { exists (w / 2). pose proof (Z.div_mod w 2). pose proof (Z.mod_pos_bound w 2). lia. }
  destruct M as (h & Eh & M & Dh).
  destruct (Z.eqb_spec (w mod 2) 0) as [E|E].
  - rewrite Z.sub_0_r, <- Dh. rewrite (i8_small h) by lia. rewrite (i8_small (h + b * 32)) by lia.
    split; [left; reflexivity|]. lia.
  - assert (O : Z.odd w = true) by (rewrite Zodd_mod; replace (w mod 2) with 1 by lia; reflexivity).
    assert (W63 : w < 64) by (destruct (Z.eq_dec w 64) as [X|X]; [rewrite X in O; discriminate|lia]).
    rewrite (Z.mod_small w 64) by lia.
    assert (L32 : Z.land w 32 = 32 * ((w / 32) mod 2)).
    { change 32 with (2 ^ 5) at 1 2 3. apply Z.bits_inj'. intros k Hk.
      rewrite Z.land_spec, Z.mul_comm, Z.mul_pow2_bits by lia.
      destruct (Z.eq_dec k 5) as [->|N].
      - rewrite Z.pow2_bits_true, andb_true_r by lia. rewrite Z.testbit_odd, Z.shiftr_div_pow2 by lia.
        change (5 - 5) with 0. rewrite Z.bit0_odd. rewrite Zmod_odd. destruct (Z.odd (w / 2 ^ 5)); reflexivity.
      - rewrite Z.pow2_bits_false, andb_false_r by lia. symmetry.
        destruct (Z.ltb_spec k 5); [apply Z.testbit_neg_r; lia|].
        change 2 with (2 ^ 1) at 2. apply Z.mod_pow2_bits_high. lia. }
    rewrite L32. destruct (Z.ltb_spec w 32) as [S|S].
    + rewrite (Z.div_small w 32) by lia. change (0 mod 2) with 0. change (32 * 0 =? 0) with true. cbv iota.
      rewrite Z.sub_diag, Z.div_0_l by lia. rewrite (i8_small 0) by lia. rewrite (i8_small (0 + b * 32)) by lia.
      split; [right; split; [auto|lia]|]. lia.
    + assert (W1 : w / 32 = 1) by (symmetry; apply (Z.div_unique w 32 1 (w - 32)); lia). rewrite W1.
      change (1 mod 2) with 1. change (32 * 1 =? 0) with false. cbv iota.
      rewrite (i8_small (w - 64)) by lia.
      replace (w - (w - 64)) with 64 by lia. change (64 / 2) with 32. rewrite (i8_small 32) by lia.
      rewrite (i8_small (32 + b * 32)) by lia.
      split; [right; split; [rewrite Z.odd_sub, O; reflexivity|lia]|]. lia.
Qed.
Lemma wnaf_step_spec nb inp i w : bytes inp -> length inp = nb -> 0 <= w <= 64 ->
  exists d w', wnaf_step nb inp i w = (d, w') /\ wnaf_digit d /\ 0 <= w' <= 64 /\
    w + 64 * (sval inp / 2 ^ Z.of_nat (i + 6)) = d + 2 * (w' + 64 * (sval inp / 2 ^ Z.of_nat (S i + 6))) /\
    (bit (sval inp) (i + 6) = 0 -> w' <= 32 /\ (w <= 32 -> 2 * w' <= w)).
Proof.
  intros B L W. unfold wnaf_step, RADIX, DRADIX, DRADIX_WNAF. rewrite get_bit' by auto.
  replace (i + 1 + 5)%nat with (i + 6)%nat by lia. replace (S i + 6)%nat with (S (i + 6)) by lia.
  eexists _, _. split; [reflexivity|]. apply wnaf_next; auto; [apply bit_range|apply split_bit'].
Qed.
Fixpoint wnaf_win (nb : nat) (inp : list N) (n i : nat) (w : Z) : Z :=
  match n with O => w | S n' => wnaf_win nb inp n' (S i) (snd (wnaf_step nb inp i w)) end.
Lemma wnaf_win_S nb inp n i w : wnaf_win nb inp (S n) i w = wnaf_win nb inp n (S i) (snd (wnaf_step nb inp i w)).
Proof. reflexivity. Qed.
Lemma wnaf_win_add nb inp n m i w :
  wnaf_win nb inp (n + m) i w = wnaf_win nb inp m (i + n) (wnaf_win nb inp n i w).
Proof.
  revert i w. induction n as [|n IH]; intros i w; cbn [wnaf_win Nat.add]; [rewrite Nat.add_0_r; auto|].
  rewrite IH. f_equal. lia.
Qed.
Lemma wnaf_loop_spec nb inp : bytes inp -> length inp = nb -> forall n i w, 0 <= w <= 64 ->
  let l := wnaf_loop nb inp n i w in
  let w' := wnaf_win nb inp n i w in
  length l = n /\ Forall wnaf_digit l /\ 0 <= w' <= 64 /\
  w + 64 * (sval inp / 2 ^ Z.of_nat (i + 6)) =
    radix 2 l + 2 ^ Z.of_nat n * (w' + 64 * (sval inp / 2 ^ Z.of_nat (i + n + 6))).
Proof.
  intros B L. induction n as [|n IH]; intros i w W; cbn [wnaf_loop wnaf_win]; cbv zeta.
  - cbn [radix length]. rewrite Nat.add_0_r. change (2 ^ Z.of_nat 0) with 1. rewrite Z.mul_1_l. auto.
  - destruct (wnaf_step_spec nb inp i w B L W) as (d & w1 & E & D & W1 & EQ & _). rewrite E. cbn [snd].
    destruct (IH (S i) w1 W1) as (A1 & A2 & A3 & A4).
    split; [cbn [length]; rewrite A1; reflexivity|]. split; [constructor; auto|]. split; [auto|].
    cbn [radix]. rewrite EQ, A4. rewrite Nat2Z.inj_succ, Z.pow_succ_r by lia.
    replace (S i + n)%nat with (i + S n)%nat by lia. ring.
Qed.
Lemma bit_high z n : 0 <= z < 2 ^ Z.of_nat n -> bit z n = 0.
Proof. Transparent bit. intros. unfold bit. rewrite Z.div_small by auto. reflexivity. Opaque bit. Qed.
Lemma wnaf_win_small nb inp : bytes inp -> length inp = nb -> forall n i w,
  (forall k, (i + 6 <= k)%nat -> bit (sval inp) k = 0) -> (n <= 6)%nat ->
  0 <= w < 2 ^ Z.of_nat n -> w <= 32 -> wnaf_win nb inp n i w = 0.
Proof.
  intros B L. induction n as [|n IH]; intros i w H N W W32; cbn [wnaf_win].
  - change (2 ^ Z.of_nat 0) with 1 in W. lia.
  - destruct (wnaf_step_spec nb inp i w B L ltac:(lia)) as (d & w1 & E & _ & W1 & _ & LE). rewrite E. cbn [snd].
    destruct (LE (H (i + 6)%nat (le_n _))) as [L1 L2]. specialize (L2 W32).
    apply IH; auto; try lia.
    + intros k Hk. apply H. lia.
    + rewrite Nat2Z.inj_succ, Z.pow_succ_r in W by lia. lia.
Qed.
Lemma wnaf_win_zero nb inp w : (0 < nb)%nat -> bytes inp -> length inp = nb -> 0 <= w <= 64 ->
  (forall k, (8 * nb <= k)%nat -> sval inp < 2 ^ Z.of_nat k) ->
  wnaf_win nb inp (8 * nb + 1) 0 w = 0.
Proof.
  intros N0 B L W High.
  assert (E1 : (8 * nb + 1 = (8 * nb - 6) + 7)%nat) by lia. rewrite E1. clear E1.
  rewrite wnaf_win_add. rewrite Nat.add_0_l.
  destruct (wnaf_loop_spec nb inp B L (8 * nb - 6) 0 w W) as (_ & _ & A & _).
  cbv zeta in A. set (w1 := wnaf_win nb inp (8 * nb - 6) 0 w) in *. clearbody w1.
  assert (Hi : (8 * nb <= 8 * nb - 6 + 6)%nat) by lia.
  set (i := (8 * nb - 6)%nat) in *. clearbody i.
  assert (Hb : forall k, (i + 6 <= k)%nat -> bit (sval inp) k = 0).
  { intros k Hk. apply bit_high. split; [apply sval_nonneg|]. apply High. lia. }
  rewrite (wnaf_win_S nb inp 6).
  destruct (wnaf_step_spec nb inp i w1 B L A) as (d & w2 & E & _ & W2 & _ & LE).
  rewrite E. cbn [snd]. destruct (LE (Hb (i + 6)%nat (le_n _))) as [L1 _].
  apply (wnaf_win_small nb inp B L 6); auto.
  - intros k Hk. apply Hb. lia.
  - change (2 ^ Z.of_nat 6) with 64. lia.
Qed.
Lemma wnaf_first inp : bytes inp -> Z.land (Z.of_N (nth 0 inp 0%N)) (DRADIX_WNAF - 1) = sval inp mod 64.
Proof.
  intros B. rewrite sval_nth by auto. change (256 ^ Z.of_nat 0) with 1. rewrite Z.div_1_r.
  unfold DRADIX_WNAF. change (64 - 1) with (2 ^ 6 - 1). rewrite land_mod by lia.
  change (2 ^ 6) with 64. symmetry. apply Zmod_div_mod; try lia. exists 4; reflexivity.
Qed.
Lemma mod_split64 z : z mod 64 + 64 * (z / 2 ^ Z.of_nat (0 + 6)) = z.
Proof. change (2 ^ Z.of_nat (0 + 6)) with 64. pose proof (Z.div_mod z 64). lia. Qed.
Lemma scalar_wnaf_spec s inp : shape_ok s -> bytes inp -> length inp = s_nb s ->
  let l := scalar_wnaf s inp in
  length l = (8 * s_nb s + 1)%nat /\ Forall wnaf_digit l /\ radix 2 l = sval inp.
Proof.
  intros (N0 & _) B L. unfold scalar_wnaf. rewrite (wnaf_first inp B).
  assert (W : 0 <= sval inp mod 64 <= 64) by (pose proof (Z.mod_pos_bound (sval inp) 64); lia).
  pose proof (sval_lt inp B) as V. rewrite L in V. pose proof (sval_nonneg inp) as V0.
  assert (High : forall k, (8 * s_nb s <= k)%nat -> sval inp < 2 ^ Z.of_nat k).
  { intros k Hk. eapply Z.lt_le_trans; [apply V|]. apply Z.pow_le_mono_r; lia. }
  pose proof (wnaf_win_zero (s_nb s) inp (sval inp mod 64) N0 B L W High) as Fin.
  destruct (wnaf_loop_spec (s_nb s) inp B L (8 * s_nb s + 1) 0 (sval inp mod 64) W) as (A1 & A2 & A3 & A4).
  cbv zeta. split; [exact A1|]. split; [exact A2|].
  rewrite Fin, mod_split64 in A4.
  rewrite (Z.div_small (sval inp) (2 ^ Z.of_nat (0 + (8 * s_nb s + 1) + 6))) in A4.
  - rewrite (Z.mul_0_r 64), Z.add_0_l, Z.mul_0_r, Z.add_0_r in A4. symmetry. exact A4.
  - split; [auto|]. apply High. lia.
Qed.

(** Sums indexed by naturals, for the comb. *)
Fixpoint sumf (n : nat) (f : nat -> Z) : Z := match n with O => 0 | S n' => sumf n' f + f n' end.
Lemma sumf_ext n f g : (forall k, (k < n)%nat -> f k = g k) -> sumf n f = sumf n g.
Proof. intros H. induction n as [|n IH]; cbn [sumf]; auto. rewrite IH, H by auto. reflexivity. Qed.
Lemma sumf_add n f g : sumf n (fun k => f k + g k) = sumf n f + sumf n g.
Proof. induction n as [|n IH]; cbn [sumf]; [reflexivity|]. rewrite IH. ring. Qed.
Lemma sumf_scal n c f : sumf n (fun k => c * f k) = c * sumf n f.
Proof. induction n as [|n IH]; cbn [sumf]; [ring|]. rewrite IH. ring. Qed.
Lemma sumf_zero n f : (forall k, (k < n)%nat -> f k = 0) -> sumf n f = 0.
Proof. intros H. induction n as [|n IH]; cbn [sumf]; auto. rewrite IH, H by auto. reflexivity. Qed.
Lemma sumf_app n m f : sumf (n + m) f = sumf n f + sumf m (fun k => f (n + k)%nat).
Proof.
  induction m as [|m IH]; cbn [sumf]; [rewrite Nat.add_0_r; ring|].
  rewrite Nat.add_succ_r. cbn [sumf]. rewrite IH. ring.
Qed.
Lemma sumf_cons n f : sumf (S n) f = f 0%nat + sumf n (fun k => f (S k)).
Proof. change (S n) with (1 + n)%nat. rewrite sumf_app. cbn [sumf]. f_equal. Qed.
Lemma sumf_rect r c f : sumf (r * c) f = sumf c (fun j => sumf r (fun i => f (j * r + i)%nat)).
Proof.
  induction c as [|c IH]; [rewrite Nat.mul_0_r; reflexivity|].
  rewrite Nat.mul_succ_r. rewrite sumf_app. cbn [sumf]. rewrite IH. f_equal.
  apply sumf_ext. intros. f_equal. lia.
Qed.
Lemma sumf_swap n m f : sumf n (fun i => sumf m (fun j => f i j)) = sumf m (fun j => sumf n (fun i => f i j)).
Proof.
  induction n as [|n IH]; cbn [sumf]; [symmetry; apply sumf_zero; auto|].
  rewrite IH. symmetry. apply sumf_add.
Qed.
Lemma radix_sumf b l : radix b l = sumf (length l) (fun k => nth k l 0 * b ^ Z.of_nat k).
Proof.
  induction l as [|d l IH]; [reflexivity|]. cbn [radix length]. rewrite sumf_cons. cbn [nth].
  change (b ^ Z.of_nat 0) with 1. rewrite IH, <- sumf_scal. f_equal; [ring|].
  apply sumf_ext. intros k Hk. rewrite Nat2Z.inj_succ, Z.pow_succ_r by lia. ring.
Qed.
Lemma radix_pad b l n : (length l <= n)%nat -> radix b l = sumf n (fun k => nth k l 0 * b ^ Z.of_nat k).
Proof.
  intros H. replace n with (length l + (n - length l))%nat by lia. rewrite sumf_app, <- radix_sumf.
  rewrite (sumf_zero (n - length l)); [ring|]. intros k _. rewrite nth_overflow by lia. ring.
Qed.
Lemma radix_app b l m : radix b (l ++ m) = radix b l + b ^ Z.of_nat (length l) * radix b m.
Proof.
  induction l as [|d l IH]; cbn [app radix length]; [change (b ^ Z.of_nat 0) with 1; ring|].
  rewrite IH, Nat2Z.inj_succ, Z.pow_succ_r by lia. ring.
Qed.

Lemma Forall_firstn_ {A} (Q : A -> Prop) n l : Forall Q l -> Forall Q (firstn n l).
Proof. intros H. revert n. induction H; intros [|n]; cbn [firstn]; auto. Qed.

Section Ladders.
Variable C : group.
Hypothesis assoc : forall P Q R, padd C P (padd C Q R) = padd C (padd C P Q) R.
Hypothesis comm : forall P Q, padd C P Q = padd C Q P.
Hypothesis zl : forall P, padd C (pzero C) P = P.
Hypothesis nl : forall P, padd C (pneg C P) P = pzero C.
Local Notation sm_add := (smul_add C assoc comm zl nl).
Local Notation sm_opp := (smul_opp C assoc comm zl nl).
Local Notation sm_mul := (smul_mul C assoc comm zl nl).
Local Notation it_dbl := (iter_dbl C assoc comm zl nl).

Lemma digit_entry (tbl : nat -> pt C) c B d old : odd_digit d ->
  (forall k, (k < 16)%nat -> tbl k = smul ((2 * Z.of_nat k + 1) * c) B) ->
  (let l := lookup C tbl (digit_idx d) old in if digit_neg d =? 0 then l else pneg C l) = smul (d * c) B.
Proof.
  intros (O & R) T. cbv zeta.
  assert (H : d <> 0) by (intros ->; discriminate).
  destruct (Z.ltb_spec d 0).
  - destruct (digit_negative d ltac:(lia) O) as [E1 E2]. rewrite E1, E2. change (1 =? 0) with false. cbv iota.
    assert (M : - d = 2 * ((- d - 1) / 2) + 1).
    { pose proof (Z.div_mod (- d - 1) 2 ltac:(lia)). enough ((- d - 1) mod 2 = 0) by lia.
      rewrite Zmod_even. replace (- d - 1) with (-1 - d) by lia. rewrite Z.even_sub, <- (Z.negb_odd d), O. reflexivity. }
    set (h := (- d - 1) / 2) in *. clearbody h.
    rewrite lookup_correct by lia. rewrite T by lia. rewrite Z2Nat.id by lia. rewrite <- sm_opp. f_equal.
    rewrite <- M. ring.
  - destruct (digit_pos d ltac:(lia) O) as [E1 E2]. rewrite E1, E2. change (0 =? 0) with true. cbv iota.
    assert (M : d = 2 * ((d - 1) / 2) + 1).
    { pose proof (Z.div_mod (d - 1) 2 ltac:(lia)). enough ((d - 1) mod 2 = 0) by lia.
      rewrite Zmod_even. rewrite Z.even_sub, <- (Z.negb_odd d), O. reflexivity. }
    set (h := (d - 1) / 2) in *. clearbody h.
    rewrite lookup_correct by lia. rewrite T by lia. rewrite Z2Nat.id by lia. rewrite <- M. reflexivity.
Qed.

Lemma rwnaf_fold pre P top l0 : (forall k, (k < 16)%nat -> nth k pre (pzero C) = smul (2 * Z.of_nat k + 1) P) ->
  forall l, Forall odd_digit l ->
  fst (fold_right (fun d st => rwnaf_turn C pre st d) (smul top P, l0) l)
  = smul (radix 32 l + 32 ^ Z.of_nat (length l) * top) P.
Proof.
  intros T. induction 1 as [|d l D F IH].
  - cbn [fold_right fst radix length]. f_equal. change (32 ^ Z.of_nat 0) with 1. ring.
  - cbn [fold_right]. destruct (fold_right _ _ l) as [Q x]. cbn [fst] in IH. subst Q.
    unfold rwnaf_turn. cbn [fst].
    pose proof (digit_entry (fun j => nth j pre (pzero C)) 1 P d x D) as E. cbv zeta in E. rewrite E.
    + unfold RADIX. rewrite it_dbl, <- sm_add. f_equal. cbn [radix length].
      change (2 ^ Z.of_nat 5) with 32. rewrite Nat2Z.inj_succ, Z.pow_succ_r by lia. ring.
    + intros k Hk. rewrite T by auto. f_equal. ring.
Qed.
Lemma odd_nth0 inp : bytes inp -> N.eqb (N.land (nth 0 inp 0%N) 1) 0 = Z.even (sval inp).
Proof.
  intros B. change 1%N with (N.ones 1). rewrite N.land_ones. change (2 ^ 1)%N with 2%N.
  pose proof (sval_nth inp B 0) as H. change (256 ^ Z.of_nat 0) with 1 in H. rewrite Z.div_1_r in H.
  assert (E : Z.even (sval inp) = Z.even (Z.of_N (nth 0 inp 0%N))).
  { rewrite H. rewrite !Zeven_mod. f_equal. apply Zmod_div_mod; try lia. exists 128. reflexivity. }
  rewrite E. rewrite Zeven_mod. change 2 with (Z.of_N 2). rewrite <- N2Z.inj_mod.
  destruct (N.eqb_spec (nth 0 inp 0%N mod 2) 0) as [->|Ne]; [reflexivity|].
  symmetry. apply Zeq_bool_neq_false || idtac. destruct (Zeq_bool _ _) eqn:X; auto.
  apply Zeq_bool_eq in X. lia.
Qed.
Lemma last_split {A} (l : list A) n d : length l = S n -> l = firstn n l ++ [nth n l d].
Proof.
  intros H. rewrite <- (firstn_skipn n l) at 1. f_equal.
  assert (L : length (skipn n l) = 1%nat) by (rewrite skipn_length; lia).
  destruct (skipn n l) as [|x [|]] eqn:E; try discriminate L.
  f_equal. rewrite <- (firstn_skipn n l), E. rewrite app_nth2 by (rewrite firstn_length; lia).
  rewrite firstn_length. replace (n - Nat.min n (length l))%nat with 0%nat by lia. reflexivity.
Qed.
Lemma var_smul_rwnaf_correct s scalar P : shape_ok s -> bytes scalar -> length scalar = s_nb s ->
  var_smul_rwnaf C s scalar P = smul ((if s_ed s then 4 else 1) * sval scalar) P.
Proof.
  intros K B L. destruct (scalar_rwnaf_spec s scalar K B L) as (A1 & A2 & A3 & A4).
  unfold var_smul_rwnaf. set (pre := precomp_wnaf C P).
  assert (T : forall k, (k < 16)%nat -> nth k pre (pzero C) = smul (2 * Z.of_nat k + 1) P)
    by (intros; apply (precomp_nth C assoc comm zl nl); auto).
  set (rn := scalar_rwnaf s scalar) in *. clearbody rn pre.
  set (top := nth (s_nd s - 1) rn 0) in *.
  assert (N1 : (1 < s_nd s)%nat) by apply K.
  assert (Sp : rn = firstn (s_nd s - 1) rn ++ [top]) by (apply last_split; lia).
  assert (Ot : odd_digit top) by (apply Forall_nth; [auto|lia] || (eapply Forall_forall; [exact A2|apply nth_In; lia])).
  assert (Top : lookup C (fun j => nth j pre (pzero C)) (Z.shiftr (top - 1) 1) (pzero C) = smul top P).
  { pose proof (digit_entry (fun j => nth j pre (pzero C)) 1 P top (pzero C) Ot) as E. cbv zeta in E.
    destruct Ot as [Ot Rt]. destruct (digit_pos top ltac:(lia) Ot) as [E1 E2].
    rewrite E1, E2 in E. change (0 =? 0) with true in E. cbv iota in E.
    rewrite Z.shiftr_div_pow2 by lia. change (2 ^ 1) with 2. rewrite E; [f_equal; ring|].
    intros k Hk. rewrite T by auto. f_equal. ring. }
  rewrite Top. clear Top.
  rewrite <- fold_left_rev_right, rev_involutive.
  pose proof (rwnaf_fold pre P top (pzero C) T (firstn (s_nd s - 1) rn)
               (Forall_firstn_ _ _ _ A2)) as FF.
  destruct (fold_right _ _ _) as [Q x]. cbn [fst] in FF. subst Q.
  assert (V : radix 32 (firstn (s_nd s - 1) rn) + 32 ^ Z.of_nat (length (firstn (s_nd s - 1) rn)) * top = odded (sval scalar)).
  { rewrite <- A4. rewrite Sp at 3. rewrite radix_app. cbn [radix]. ring. }
  rewrite V. rewrite odd_nth0 by auto. rewrite T by lia. cbn [Z.of_nat].
  assert (Q1 : (if Z.even (sval scalar)
     then padd C (pneg C (smul (2 * 0 + 1) P)) (smul (odded (sval scalar)) P)
     else smul (odded (sval scalar)) P) = smul (sval scalar) P).
  { unfold odded. destruct (Z.even (sval scalar)); [|reflexivity].
    rewrite <- sm_opp, <- sm_add. f_equal. lia. }
  rewrite Q1. destruct (s_ed s).
  - rewrite !(dbl_smul C assoc comm zl nl). f_equal. lia.
  - f_equal. lia.
Qed.

(** The comb. *)
Lemma cmb_cols s rnaf i : (1 < s_nd s)%nat -> length rnaf = s_nd s -> Forall odd_digit rnaf ->
  (forall j k, (j < s_cols s)%nat -> (k < 16)%nat ->
     lut_cmb C j k = smul ((2 * Z.of_nat k + 1) * 2 ^ (5 * Z.of_nat (s_rows s) * Z.of_nat j)) (gen C)) ->
  forall n z x, (n <= s_cols s)%nat ->
  fst (fold_left (cmb_col C s rnaf i) (seq 0 n) (smul z (gen C), x))
  = smul (z + sumf n (fun j => nth (j * s_rows s + i) rnaf 0 * 2 ^ (5 * Z.of_nat (s_rows s) * Z.of_nat j))) (gen C).
Proof.
  intros N1 L F T. induction n as [|n IH]; intros z x Hn.
  - cbn [seq fold_left fst sumf]. f_equal. ring.
  - rewrite seq_S, fold_left_app. cbn [fold_left Nat.add sumf].
    specialize (IH z x ltac:(lia)). destruct (fold_left _ _ _) as [Q y]. cbn [fst] in IH. subst Q.
    unfold cmb_col. destruct (Nat.ltb_spec (s_nd s - 1) (n * s_rows s + i)) as [H|H]; cbn [fst].
    + rewrite (nth_overflow rnaf) by lia. f_equal. ring.
    + assert (D : odd_digit (nth (n * s_rows s + i) rnaf 0))
        by (eapply Forall_forall; [exact F|apply nth_In; lia]).
      pose proof (digit_entry (lut_cmb C n) (2 ^ (5 * Z.of_nat (s_rows s) * Z.of_nat n)) (gen C)
                   (nth (n * s_rows s + i) rnaf 0) y D) as E. cbv zeta in E. rewrite E.
      * rewrite <- sm_add. f_equal. ring.
      * intros k Hk. apply T; auto.
Qed.
Lemma fixed_smul_cmb_correct s scalar : shape_ok s -> bytes scalar -> length scalar = s_nb s ->
  (forall j k, (j < s_cols s)%nat -> (k < 16)%nat ->
     lut_cmb C j k = smul ((2 * Z.of_nat k + 1) * 2 ^ (5 * Z.of_nat (s_rows s) * Z.of_nat j)) (gen C)) ->
  fixed_smul_cmb C s scalar = smul (sval scalar) (gen C).
Proof.
  intros K B L T. destruct (scalar_rwnaf_spec s scalar K B L) as (A1 & A2 & A3 & A4).
  unfold fixed_smul_cmb. set (rn := scalar_rwnaf s scalar) in *. clearbody rn.
  destruct K as (_ & N1 & _ & R0 & RC).
  pose (c := fun i => sumf (s_cols s) (fun j => nth (j * s_rows s + i) rn 0 * 2 ^ (5 * Z.of_nat (s_rows s) * Z.of_nat j))).
  assert (Rows : forall m k, (k + m = s_rows s)%nat ->
    fst (fold_right (fun i st => cmb_row C s rn st i) (pzero C, pzero C) (seq k m))
    = smul (sumf m (fun i => 32 ^ Z.of_nat i * c (k + i)%nat)) (gen C)).
  { induction m as [|m IH]; intros k Hk; [reflexivity|].
    cbn [seq fold_right]. specialize (IH (S k) ltac:(lia)).
    destruct (fold_right _ _ _) as [Q y]. cbn [fst] in IH. subst Q. unfold cmb_row.
    assert (E : (if (k =? s_rows s - 1)%nat
        then smul (sumf m (fun i => 32 ^ Z.of_nat i * c (S k + i)%nat)) (gen C)
        else Nat.iter RADIX (pdouble C) (smul (sumf m (fun i => 32 ^ Z.of_nat i * c (S k + i)%nat)) (gen C)))
      = smul (32 * sumf m (fun i => 32 ^ Z.of_nat i * c (S k + i)%nat)) (gen C)).
    { destruct (Nat.eqb_spec k (s_rows s - 1)).
      - replace m with 0%nat by lia. reflexivity.
      - unfold RADIX. rewrite it_dbl. reflexivity. }
    rewrite E, (cmb_cols s rn k N1 A1 A2 T (s_cols s)) by lia. f_equal.
    rewrite sumf_cons. rewrite Nat.add_0_r. change (32 ^ Z.of_nat 0) with 1. fold (c k).
    rewrite <- sumf_scal. rewrite Z.add_comm. f_equal; [ring|].
    apply sumf_ext. intros i _. rewrite Nat2Z.inj_succ, Z.pow_succ_r by lia.
    replace (k + S i)%nat with (S k + i)%nat by lia. ring. }
  specialize (Rows (s_rows s) 0%nat ltac:(lia)).
  rewrite <- fold_left_rev_right, rev_involutive.
  destruct (fold_right _ _ _) as [Q y]. cbn [fst] in Rows. subst Q.
  assert (V : sumf (s_rows s) (fun i => 32 ^ Z.of_nat i * c (0 + i)%nat) = odded (sval scalar)).
  { rewrite <- A4. rewrite (radix_pad 32 rn (s_rows s * s_cols s)) by lia. rewrite sumf_rect, <- sumf_swap.
    apply sumf_ext. intros i Hi. unfold c. rewrite <- sumf_scal. apply sumf_ext. intros j Hj.
    rewrite Nat.add_0_l. change 32 with (2 ^ 5). rewrite <- !Z.pow_mul_r by lia.
    replace (5 * Z.of_nat (j * s_rows s + i)) with (5 * Z.of_nat i + 5 * Z.of_nat (s_rows s) * Z.of_nat j) by lia.
    rewrite Z.pow_add_r by lia. ring. }
  rewrite V. rewrite odd_nth0 by auto. rewrite T by lia.
  unfold odded. destruct (Z.even (sval scalar)); [|reflexivity].
  rewrite <- sm_opp, <- sm_add. f_equal. change (Z.of_nat 0) with 0. rewrite (Z.mul_0_r (5 * Z.of_nat (s_rows s))). change (2 ^ 0) with 1. lia.
Qed.

(** The interleaved double multiplication. *)
Definition tval (st : pt C * bool * bool) : pt C :=
  let '(Q, i, f) := st in if f then pneg C Q else Q.
Definition tok (st : pt C * bool * bool) : Prop := let '(Q, i, f) := st in i = true -> Q = pzero C.
Lemma two_add_correct tbl B st d : (forall k, (k < 16)%nat -> tbl k = smul (2 * Z.of_nat k + 1) B) ->
  wnaf_digit d -> tok st ->
  tok (two_add C tbl st d) /\ tval (two_add C tbl st d) = padd C (tval st) (smul d B) .
Proof.
  intros T D K. destruct st as [[Q i] f]. unfold two_add.
  destruct (Z.eqb_spec d 0) as [->|Nz].
  - split; [exact K|]. rewrite smul_0. symmetry. apply (zr C comm zl).
  - destruct D as [D|(O & R)]; [contradiction|].
    assert (E : exists e, tbl (Z.to_nat (if d <? 0 then Z.shiftr (- d - 1) 1 else Z.shiftr (d - 1) 1)) = e /\
                 (if d <? 0 then pneg C e else e) = smul d B).
    { eexists; split; [reflexivity|]. rewrite !Z.shiftr_div_pow2 by lia. change (2 ^ 1) with 2.
      destruct (Z.ltb_spec d 0).
      - assert (M : - d = 2 * ((- d - 1) / 2) + 1).
        { pose proof (Z.div_mod (- d - 1) 2 ltac:(lia)). enough ((- d - 1) mod 2 = 0) by lia.
          rewrite Zmod_even. replace (- d - 1) with (-1 - d) by lia. rewrite Z.even_sub, <- (Z.negb_odd d), O. reflexivity. }
        set (h := (- d - 1) / 2) in *. clearbody h. rewrite T by lia. rewrite Z2Nat.id by lia.
        rewrite <- M, <- sm_opp. f_equal. lia.
      - assert (M : d = 2 * ((d - 1) / 2) + 1).
        { pose proof (Z.div_mod (d - 1) 2 ltac:(lia)). enough ((d - 1) mod 2 = 0) by lia.
          rewrite Zmod_even. rewrite Z.even_sub, <- (Z.negb_odd d), O. reflexivity. }
        set (h := (d - 1) / 2) in *. clearbody h. rewrite T by lia. rewrite Z2Nat.id by lia.
        rewrite <- M. reflexivity. }
    destruct E as (e & E1 & E2). rewrite <- E2. clear E2.
    assert (Z0' : i = true -> Q = pzero C) by exact K.
    destruct (d <? 0); destruct f; cbn [xorb negb]; destruct i; rewrite E1;
      (split; [intros X; try discriminate X|]); cbn [tval];
      try (rewrite (Z0' eq_refl)); rewrite ?(neg_zero C assoc comm zl nl), ?zl, ?(neg_add C assoc comm zl nl),
        ?(neg_neg C assoc comm zl nl); reflexivity.
Qed.
Lemma two_fold pre P : (forall k, (k < 16)%nat -> nth k pre (pzero C) = smul (2 * Z.of_nat k + 1) P) ->
  (forall k, (k < 16)%nat -> lut_cmb C 0 k = smul (2 * Z.of_nat k + 1) (gen C)) ->
  forall la lb, length la = length lb -> Forall wnaf_digit la -> Forall wnaf_digit lb ->
  let st := fold_right (fun ab st => two_turn C pre st ab) (pzero C, true, false) (combine la lb) in
  tok st /\ tval st = padd C (smul (radix 2 la) (gen C)) (smul (radix 2 lb) P).
Proof.
  intros T1 T2. induction la as [|a la IH]; intros [|b lb] L Fa Fb; try discriminate L.
  - cbn. split; [auto|]. symmetry. apply zl.
  - cbn [combine fold_right]. inversion Fa; inversion Fb; subst. injection L as L.
    destruct (IH lb L) as [K V]; auto. cbv zeta in *.
    destruct (fold_right _ _ _) as [[Q i] f]. cbn [two_turn]. unfold two_turn. cbn [fst snd].
    set (Q1 := if i then Q else pdouble C Q).
    assert (K1 : tok (Q1, i, f)) by (intros ->; apply K; reflexivity).
    assert (V1 : tval (Q1, i, f) = padd C (tval (Q, i, f)) (tval (Q, i, f))).
    { unfold Q1. destruct i.
      - cbn [tok] in K. rewrite (K eq_refl). cbn [tval]. destruct f; rewrite ?(neg_zero C assoc comm zl nl); symmetry; apply zl.
      - cbn [tval]. unfold pdouble. destruct f; [apply (neg_add C assoc comm zl nl)|reflexivity]. }
    destruct (two_add_correct (fun k => nth k pre (pzero C)) P (Q1, i, f) b T1) as [K2 V2]; auto.
    destruct (two_add_correct (lut_cmb C 0) (gen C) _ a T2 ltac:(auto) K2) as [K3 V3].
    split; [exact K3|]. rewrite V3, V2, V1, V. cbn [radix].
    rewrite !sm_add.
    replace (2 * radix 2 la) with (radix 2 la + radix 2 la) by ring.
    replace (2 * radix 2 lb) with (radix 2 lb + radix 2 lb) by ring. rewrite !sm_add.
    set (A := smul (radix 2 la) (gen C)). set (B := smul (radix 2 lb) P). set (a' := smul a (gen C)). set (b' := smul b P).
    rewrite (swap4 C assoc comm A B A B).
    rewrite (comm (padd C (padd C _ _) b') a').
    set (X := padd C A A). set (Y := padd C B B). clearbody X Y a' b'.
    rewrite <- (assoc a' X). f_equal. rewrite <- assoc. f_equal. apply comm.
Qed.
Lemma var_smul_wnaf_two_correct s a b P : shape_ok s -> bytes a -> length a = s_nb s ->
  bytes b -> length b = s_nb s ->
  (forall k, (k < 16)%nat -> lut_cmb C 0 k = smul (2 * Z.of_nat k + 1) (gen C)) ->
  var_smul_wnaf_two C s a b P = padd C (smul (sval a) (gen C)) (smul (sval b) P).
Proof.
  intros K Ba La Bb Lb T. unfold var_smul_wnaf_two. set (pre := precomp_wnaf C P).
  assert (T1 : forall k, (k < 16)%nat -> nth k pre (pzero C) = smul (2 * Z.of_nat k + 1) P)
    by (intros; apply (precomp_nth C assoc comm zl nl); auto).
  clearbody pre.
  destruct (scalar_wnaf_spec s a K Ba La) as (A1 & A2 & A3).
  destruct (scalar_wnaf_spec s b K Bb Lb) as (B1 & B2 & B3).
  rewrite <- fold_left_rev_right, rev_involutive.
  destruct (two_fold pre P T1 T (scalar_wnaf s a) (scalar_wnaf s b) (eq_trans A1 (eq_sym B1)) A2 B2) as [Kt Vt].
  cbv zeta in *. destruct (fold_right _ _ _) as [[Q i] f]. cbn [tval tok] in *.
  rewrite <- A3, <- B3, <- Vt. destruct i; [rewrite (Kt eq_refl)|]; reflexivity.
Qed.
End Ladders.
