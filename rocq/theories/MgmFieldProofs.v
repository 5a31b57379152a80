(** gf128_mul_uint64 and gf64_mul compute the products of the two fields. *)
From Verif Require Import Bytes BytesProofs Gf2 MgmModel MgmSpec.

Lemma degree64 : degree 64 poly64.
Proof. split; [reflexivity|]. split; [discriminate|reflexivity]. Qed.
Lemma degree128 : degree 128 poly128.
Proof. split; [reflexivity|]. split; [discriminate|reflexivity]. Qed.

(** ** Shift-and-add multiplication *)
Section ShiftAdd.
  Variables d p : N.
  Hypothesis D : degree d p.
  Definition xt (x : N) : N := red d p (N.double x).
  Definition sa_step (s : N * N * N) : N * N * N :=
    let '(t, X, R) := s in (N.div2 t, xt X, if N.odd t then N.lxor R X else R).
  Lemma gfmul_double_r x t : gfmul d p x (N.double t) = gfmul d p (xt x) t.
  Proof.
    unfold gfmul. rewrite clmul_double_r, <- clmul_double_l. unfold xt.
    assert (X : red d p (N.double x) = N.lxor (N.double x) (if N.testbit (N.double x) d then p else 0)).
    { unfold red. destruct (N.testbit (N.double x) d); [reflexivity|rewrite N.lxor_0_r; reflexivity]. }
    rewrite X. rewrite clmul_lxor_l, pmod_lxor.
    destruct (N.testbit (N.double x) d); [rewrite pmod_multiple by auto|rewrite clmul_0_l]; cbn; rewrite N.lxor_0_r; reflexivity.
  Qed.
  Lemma xt_lt x : x < 2 ^ d -> xt x < 2 ^ d.
  Proof. intros H. apply red_lt; auto. apply double_lt. exact H. Qed.
  Lemma sa_iter n : forall t X R, X < 2 ^ d ->
    Nat.iter n sa_step (t, X, R) =
      (N.shiftr t (N.of_nat n), Nat.iter n xt X, N.lxor R (gfmul d p X (t mod 2 ^ N.of_nat n))).
  Proof.
    induction n as [|n IH]; intros t X R HX.
    - cbn [Nat.iter]. change (2 ^ N.of_nat 0) with 1. rewrite N.mod_1_r, N.shiftr_0_r, gfmul_comm, gfmul_0_l, N.lxor_0_r. reflexivity.
    - assert (It : forall {A} (f : A -> A) n x, Nat.iter (S n) f x = Nat.iter n f (f x)).
      { intros A f m x. induction m; [reflexivity|]. change (f (Nat.iter (S m) f x) = f (Nat.iter m f (f x))). rewrite IHm. reflexivity. }
      rewrite (It _ sa_step). cbn [sa_step]. rewrite IH by (apply xt_lt; auto). rewrite (It _ xt). f_equal.
      + f_equal. rewrite N.div2_spec, N.shiftr_shiftr. f_equal. lia.
      + rewrite <- gfmul_double_r.
        assert (T : t mod 2 ^ N.of_nat (S n) = N.lxor (if N.odd t then 1 else 0) (N.double (N.div2 t mod 2 ^ N.of_nat n))).
        { rewrite Nat2N.inj_succ, N.pow_succ_r by lia.
          assert (Ht : t = 2 * N.div2 t + N.b2n (N.odd t)) by apply N.div2_odd.
          set (q := N.div2 t) in *. set (m := 2 ^ N.of_nat n). assert (Hm : m <> 0) by (apply N.pow_nonzero; lia).
          assert (V : t mod (2 * m) = 2 * (q mod m) + N.b2n (N.odd t)).
          { rewrite Ht at 1. symmetry. apply N.mod_unique with (q := q / m).
            - pose proof (N.mod_lt q m Hm). destruct (N.odd t); cbn [N.b2n]; lia.
            - pose proof (N.div_mod q m Hm). destruct (N.odd t); cbn [N.b2n]; lia. }
          rewrite V. destruct (N.odd t); cbn [N.b2n]; cbv iota.
          - rewrite <- succ_double_lxor, N.succ_double_spec. reflexivity.
          - rewrite N.add_0_r. generalize (q mod m). intros z. rewrite N.lxor_0_l. symmetry. apply N.double_spec. }
        rewrite T. rewrite gfmul_lxor_r. destruct (N.odd t).
        * rewrite <- N.lxor_assoc. rewrite (gfmul_comm d p X 1), gfmul_1_l by auto. reflexivity.
        * rewrite (gfmul_comm _ _ _ 0), gfmul_0_l, N.lxor_0_l. reflexivity.
  Qed.
End ShiftAdd.

Lemma w64_shiftl1 x : w64 (N.shiftl x 1) = N.double x mod 2 ^ 64.
Proof. rewrite w64_mod. reflexivity. Qed.
Lemma top_bit x : negb (N.land x 0x8000000000000000 =? 0) = N.testbit x 63.
Proof.
  change 0x8000000000000000 with (2 ^ 63). destruct (N.testbit x 63) eqn:T.
  - apply negb_true_iff, N.eqb_neq. intros C. assert (Z : N.testbit (N.land x (2 ^ 63)) 63 = false) by (rewrite C; apply N.bits_0).
    rewrite N.land_spec, T, N.pow2_bits_true in Z. discriminate.
  - apply negb_false_iff, N.eqb_eq. apply N.bits_inj. intros m. rewrite N.land_spec, N.bits_0.
    destruct (N.eq_dec m 63) as [->|Hm]; [rewrite T; reflexivity|]. rewrite N.pow2_bits_false, andb_false_r by lia. reflexivity.
Qed.
Lemma testbit0_odd t : N.testbit t 0 = N.odd t. Proof. apply N.bit0_odd. Qed.
Lemma shiftr1_div2 t : N.shiftr t 1 = N.div2 t. Proof. symmetry. apply N.div2_spec. Qed.
Lemma testbit_double x d : 0 < d -> N.testbit (N.double x) d = N.testbit x (d - 1).
Proof. intros H. rewrite <- (N.succ_pred_pos d H), N.double_bits_succ. f_equal. lia. Qed.
Lemma mod_as_lxor x d : N.testbit x d = true -> x < 2 ^ (d + 1) -> x mod 2 ^ d = N.lxor x (2 ^ d).
Proof.
  intros T L. apply N.bits_inj. intros m. rewrite N.lxor_spec.
  destruct (N.lt_ge_cases m d).
  - rewrite N.mod_pow2_bits_low, N.pow2_bits_false, xorb_false_r by lia. reflexivity.
  - rewrite N.mod_pow2_bits_high by lia. destruct (N.eq_dec m d) as [->|Hm].
    + rewrite T, N.pow2_bits_true. reflexivity.
    + rewrite N.pow2_bits_false, xorb_false_r by lia. symmetry.
      apply N.bits_above_log2. destruct (N.eq_dec x 0) as [->|]; [cbn; lia|]. 
      assert (N.log2 x < d + 1) by (apply N.log2_lt_pow2; lia). lia.
Qed.
Lemma xt_split d q x : 0 < d -> x < 2 ^ d -> q < 2 ^ d ->
  xt d (2 ^ d + q) x = N.lxor (N.double x mod 2 ^ d) (if N.testbit x (d - 1) then q else 0).
Proof.
  intros Hd Hx Hq. unfold xt, red. rewrite testbit_double by auto. pose proof (double_lt x d Hx) as Dl.
  destruct (N.testbit x (d - 1)) eqn:T.
  - rewrite mod_as_lxor by (auto; rewrite testbit_double; auto). rewrite N.lxor_assoc. f_equal.
    rewrite N.add_nocarry_lxor.
    + reflexivity.
    + apply N.bits_inj. intros m. rewrite N.land_spec, N.bits_0. destruct (N.eq_dec m d) as [->|Hm].
      * rewrite (testbit_high q d Hq). apply andb_false_r.
      * rewrite N.pow2_bits_false by lia. reflexivity.
  - rewrite N.lxor_0_r, N.mod_small; auto. apply lt_pow2_testbit; auto. rewrite testbit_double; auto.
Qed.

Lemma iter_S {A} (f : A -> A) n x : Nat.iter (S n) f x = f (Nat.iter n f x).
Proof. reflexivity. Qed.
(** ** The 64-bit field *)
Lemma gf64_step_sa t X R : X < 2 ^ 64 -> gf64_step (t, X, R) = sa_step 64 poly64 (t, X, R).
Proof.
  intros H. unfold gf64_step, sa_step. rewrite testbit0_odd, shiftr1_div2, top_bit, w64_shiftl1. f_equal. f_equal.
  unfold poly64. rewrite xt_split by (auto; reflexivity). change (64 - 1) with 63.
  destruct (N.testbit X 63); [reflexivity|]. rewrite N.lxor_0_r. reflexivity.
Qed.
Lemma gf64_iter n t X R : X < 2 ^ 64 -> Nat.iter n gf64_step (t, X, R) = Nat.iter n (sa_step 64 poly64) (t, X, R) /\
  snd (fst (Nat.iter n (sa_step 64 poly64) (t, X, R))) < 2 ^ 64.
Proof.
  intros H. induction n as [|n [IH B]]; [split; [reflexivity|exact H]|].
  change (Nat.iter (S n) gf64_step (t, X, R)) with (gf64_step (Nat.iter n gf64_step (t, X, R))).
  change (Nat.iter (S n) (sa_step 64 poly64) (t, X, R)) with (sa_step 64 poly64 (Nat.iter n (sa_step 64 poly64) (t, X, R))).
  rewrite IH. destruct (Nat.iter n (sa_step 64 poly64) (t, X, R)) as [[t' X'] R']. cbn [fst snd] in B.
  rewrite gf64_step_sa by exact B. split; [reflexivity|]. cbn [sa_step fst snd]. apply xt_lt; [exact degree64|exact B].
Qed.
Lemma ld64_be le b : bytes b -> length b = 8%nat -> ld64 le b = be2n b.
Proof.
  intros B L. destruct le; [|reflexivity]. cbn [ld64]. unfold bswap64. rewrite n2le_le2n by auto. reflexivity.
Qed.
Lemma st64_be le x : x < 2 ^ 64 -> st64 le x = n2be 8 x.
Proof.
  intros H. destruct le; [|reflexivity]. cbn [st64]. unfold bswap64, n2be.
  assert (B : bytes (rev (n2le 8 x))) by (apply bytes_rev, n2le_bytes).
  change (be2n (n2le 8 x)) with (le2n (rev (n2le 8 x))). rewrite n2le_le2n; auto. 
Qed.
Theorem gf64_mul_spec le a b : bytes a -> length a = 8%nat -> bytes b -> length b = 8%nat -> gf64_mul le a b = mul64 a b.
Proof.
  intros Ba La Bb Lb. unfold gf64_mul, mul64. rewrite !ld64_be by auto.
  assert (Xa : be2n a < 2 ^ 64) by (pose proof (be2n_lt a Ba) as H; rewrite La in H; exact H).
  assert (Xb : be2n b < 2 ^ 64) by (pose proof (be2n_lt b Bb) as H; rewrite Lb in H; exact H).
  set (x := be2n a) in *. set (t := be2n b) in *. clearbody x t.
  destruct (gf64_iter 63 t x 0 Xa) as [E B]. 
  assert (L : Nat.iter 64 (sa_step 64 poly64) (t, x, 0) = sa_step 64 poly64 (Nat.iter 63 (sa_step 64 poly64) (t, x, 0))) by exact (iter_S _ 63 _).
  rewrite E. rewrite (sa_iter 64 poly64 degree64) in L by exact Xa.
  destruct (Nat.iter 63 (sa_step 64 poly64) (t, x, 0)) as [[t' X'] R']. cbn [sa_step] in L. cbn [fst snd] in B.
  apply (f_equal snd) in L; cbn [snd] in L. rewrite testbit0_odd, <- L. change (N.of_nat 64) with 64.
  rewrite N.mod_small, N.lxor_0_l by exact Xb. apply st64_be. apply gfmul_lt. exact degree64.
Qed.

(** ** The 128-bit field: the pair (X1, X0) represents X1 * 2^64 + X0 *)
Lemma lt_pow2_high x d m : x < 2 ^ d -> d <= m -> N.testbit x m = false.
Proof.
  intros H L. apply testbit_high. apply N.lt_le_trans with (2 ^ d); auto. apply N.pow_le_mono_r; lia.
Qed.
Definition pk (x1 x0 : N) : N := N.lor (N.shiftl x1 64) x0.
Lemma pk_testbit x1 x0 m : x0 < 2 ^ 64 ->
  N.testbit (pk x1 x0) m = if m <? 64 then N.testbit x0 m else N.testbit x1 (m - 64).
Proof.
  intros H. unfold pk. rewrite N.lor_spec. destruct (N.ltb_spec m 64).
  - rewrite N.shiftl_spec_low by auto. reflexivity.
  - rewrite N.shiftl_spec_high by lia. rewrite (lt_pow2_high x0 64 m) by auto. apply orb_false_r.
Qed.
Lemma pk_lxor a1 a0 b1 b0 : a0 < 2 ^ 64 -> b0 < 2 ^ 64 ->
  N.lxor (pk a1 a0) (pk b1 b0) = pk (N.lxor a1 b1) (N.lxor a0 b0).
Proof.
  intros Ha Hb. apply N.bits_inj. intros m. rewrite N.lxor_spec, !pk_testbit; auto.
  - destruct (m <? 64); rewrite N.lxor_spec; reflexivity.
  - apply lxor_lt; auto.
Qed.

Lemma pk_add x1 x0 : x0 < 2 ^ 64 -> pk x1 x0 = x1 * 2 ^ 64 + x0.
Proof.
  intros H. apply N.bits_inj. intros m. rewrite pk_testbit by auto. destruct (N.ltb_spec m 64).
  - rewrite <- (N.mod_pow2_bits_low (x1 * 2 ^ 64 + x0) 64 m) by auto.
    rewrite N.add_comm, N.mod_add by discriminate. rewrite N.mod_small by auto. reflexivity.
  - replace m with ((m - 64) + 64) at 2 by lia. rewrite <- N.div_pow2_bits.
    rewrite N.div_add_l by discriminate. rewrite N.div_small, N.add_0_r by auto. reflexivity.
Qed.
Lemma pk_lt x1 x0 : x1 < 2 ^ 64 -> x0 < 2 ^ 64 -> pk x1 x0 < 2 ^ 128.
Proof. intros H1 H0. rewrite pk_add by auto. change (2 ^ 128) with (2 ^ 64 * 2 ^ 64). nia. Qed.
Lemma double_mod_bit x d m : N.testbit (N.double x mod 2 ^ d) m =
  if m <? d then (if m =? 0 then false else N.testbit x (m - 1)) else false.
Proof.
  destruct (N.ltb_spec m d).
  - rewrite N.mod_pow2_bits_low by auto. destruct (N.eqb_spec m 0) as [->|]; [destruct x; reflexivity|apply testbit_double; lia].
  - apply N.mod_pow2_bits_high. auto.
Qed.
Lemma pk_double x1 x0 : x1 < 2 ^ 64 -> x0 < 2 ^ 64 ->
  pk (N.lxor (N.double x1 mod 2 ^ 64) (N.shiftr x0 63)) (N.double x0 mod 2 ^ 64) = N.double (pk x1 x0) mod 2 ^ 128.
Proof.
  intros H1 H0. apply N.bits_inj. intros m. rewrite pk_testbit by (apply N.mod_lt; discriminate).
  rewrite N.lxor_spec, !double_mod_bit, N.shiftr_spec by lia. rewrite pk_testbit by auto.
  destruct (N.ltb_spec m 64); destruct (N.ltb_spec m 128); try lia.
  - destruct (N.eqb_spec m 0); auto. destruct (N.ltb_spec (m - 1) 64); [reflexivity|lia].
  - destruct (N.eqb_spec m 0); [lia|]. destruct (N.ltb_spec (m - 64) 64); [|lia].
    destruct (N.eqb_spec (m - 64) 0).
    + destruct (N.ltb_spec (m - 1) 64); [|lia]. rewrite xorb_false_l. f_equal. lia.
    + destruct (N.ltb_spec (m - 1) 64); [lia|]. rewrite (lt_pow2_high x0 64) by (auto; lia). rewrite xorb_false_r. f_equal. lia.
  - destruct (N.ltb_spec (m - 64) 64); [lia|]. rewrite (lt_pow2_high x0 64) by (auto; lia). reflexivity.
Qed.
Definition s64 (s : N * N * N * N * N) : Prop :=
  let '(t, X0, X1, R0, R1) := s in X0 < 2 ^ 64 /\ X1 < 2 ^ 64 /\ R0 < 2 ^ 64 /\ R1 < 2 ^ 64.
Definition pk5 (s : N * N * N * N * N) : N * N * N :=
  let '(t, X0, X1, R0, R1) := s in (t, pk X1 X0, pk R1 R0).
Lemma pk_0 x0 : pk 0 x0 = x0. Proof. reflexivity. Qed.
Lemma acc_pk (b : bool) R0 R1 X0 X1 : R0 < 2 ^ 64 -> X0 < 2 ^ 64 -> R1 < 2 ^ 64 -> X1 < 2 ^ 64 ->
  let '(r0, r1) := if b then (N.lxor R0 X0, N.lxor R1 X1) else (R0, R1) in
  pk r1 r0 = (if b then N.lxor (pk R1 R0) (pk X1 X0) else pk R1 R0) /\ r0 < 2 ^ 64 /\ r1 < 2 ^ 64.
Proof.
  intros H1 H2 H3 H4. destruct b; [|auto]. split; [|split; apply lxor_lt; auto].
  rewrite pk_lxor by auto. reflexivity.
Qed.
Lemma gf128_step_sa s : s64 s -> pk5 (gf128_step s) = sa_step 128 poly128 (pk5 s) /\ s64 (gf128_step s).
Proof.
  destruct s as [[[[t X0] X1] R0] R1]. intros (H0 & H1 & G0 & G1). unfold gf128_step.
  pose proof (acc_pk (N.testbit t 0) R0 R1 X0 X1 G0 H0 G1 H1) as A.
  destruct (if N.testbit t 0 then (N.lxor R0 X0, N.lxor R1 X1) else (R0, R1)) as [r0 r1]. destruct A as (A & B0 & B1).
  rewrite top_bit, !w64_shiftl1, shiftr1_div2.
  assert (X1l : N.lxor (N.double X1 mod 2 ^ 64) (N.shiftr X0 63) < 2 ^ 64).
  { apply lxor_lt; [apply N.mod_lt; discriminate|]. rewrite N.shiftr_div_pow2. apply N.le_lt_trans with X0; auto.
    apply N.div_le_upper_bound; [discriminate|]. change (2 ^ 63) with 9223372036854775808. lia. }
  assert (X0l : N.double X0 mod 2 ^ 64 < 2 ^ 64) by (apply N.mod_lt; discriminate).
  assert (T : N.testbit (pk X1 X0) 127 = N.testbit X1 63).
  { rewrite pk_testbit by auto. reflexivity. }
  cbn [sa_step pk5]. unfold poly128. rewrite xt_split; [|reflexivity|apply pk_lt; auto|reflexivity].
  change (128 - 1) with 127. rewrite T, <- pk_double, <- testbit0_odd, <- A by auto.
  destruct (N.testbit X1 63); cbn [pk5 s64].
  - split; [|repeat split; auto; apply lxor_lt; [auto|reflexivity]].
    rewrite <- (pk_0 0x87) at 2. rewrite pk_lxor by (auto; reflexivity). rewrite N.lxor_0_r. reflexivity.
  - split; [|repeat split; auto]. rewrite N.lxor_0_r. reflexivity.
Qed.
Lemma gf128_iter n s : s64 s ->
  pk5 (Nat.iter n gf128_step s) = Nat.iter n (sa_step 128 poly128) (pk5 s) /\ s64 (Nat.iter n gf128_step s).
Proof.
  intros H. induction n as [|n [IH B]]; [split; [reflexivity|exact H]|].
  rewrite !iter_S. destruct (gf128_step_sa _ B) as [E C]. rewrite E, IH. split; [reflexivity|exact C].
Qed.
Lemma sa_iter_full n t X : X < 2 ^ 128 -> t < 2 ^ N.of_nat n -> forall R,
  Nat.iter n (sa_step 128 poly128) (t, X, R) = (0, Nat.iter n (xt 128 poly128) X, N.lxor R (gfmul 128 poly128 X t)).
Proof.
  intros HX Ht R. rewrite (sa_iter 128 poly128 degree128) by auto. rewrite N.mod_small by auto.
  rewrite N.shiftr_div_pow2, N.div_small by auto. reflexivity.
Qed.
Lemma iter_xt n : forall X t, X < 2 ^ 128 ->
  gfmul 128 poly128 (Nat.iter n (xt 128 poly128) X) t = gfmul 128 poly128 X (N.shiftl t (N.of_nat n)) /\
  Nat.iter n (xt 128 poly128) X < 2 ^ 128.
Proof.
  induction n as [|n IH]; intros X t H.
  - split; [|exact H]. change (N.of_nat 0) with 0. rewrite N.shiftl_0_r. reflexivity.
  - rewrite iter_S. destruct (IH X (N.double t) H) as [E B]. split; [|apply xt_lt; [exact degree128|exact B]].
    rewrite <- gfmul_double_r by exact degree128. rewrite E. f_equal.
    rewrite N.double_spec, !N.shiftl_mul_pow2, Nat2N.inj_succ, N.pow_succ_r by lia. lia.
Qed.
Lemma be2n_app a b : be2n (a ++ b) = be2n a * 256 ^ N.of_nat (length b) + be2n b.
Proof.
  unfold be2n. rewrite rev_app_distr. rewrite <- (rev_length b). generalize (rev b), (rev a). clear. intros b a.
  induction b as [|x b IH]; [cbn [app le2n length]; change (256 ^ N.of_nat 0) with 1; lia|].
  cbn [app le2n length]. rewrite IH, Nat2N.inj_succ, N.pow_succ_r by lia. lia.
Qed.

Lemma phase1 n y X0 X1 R0 R1 : s64 (y, X0, X1, R0, R1) -> y < 2 ^ N.of_nat n ->
  forall t' X0' X1' R0' R1', Nat.iter n gf128_step (y, X0, X1, R0, R1) = (t', X0', X1', R0', R1') ->
  s64 (t', X0', X1', R0', R1') /\
  pk X1' X0' = Nat.iter n (xt 128 poly128) (pk X1 X0) /\ pk R1' R0' = N.lxor (pk R1 R0) (gfmul 128 poly128 (pk X1 X0) y).
Proof.
  intros S Hy t' X0' X1' R0' R1' E. destruct (gf128_iter n _ S) as [E1 S1]. rewrite E in E1, S1. split; [exact S1|].
  cbn [pk5] in E1. destruct S as (H0 & H1 & _). assert (HX : pk X1 X0 < 2 ^ 128) by (apply pk_lt; auto).
  pose proof (sa_iter_full n y (pk X1 X0) HX Hy (pk R1 R0)) as F. rewrite F in E1. injection E1 as _ A B. auto.
Qed.
Lemma phase2 n y X0 X1 R0 R1 : s64 (y, X0, X1, R0, R1) -> y < 2 ^ N.of_nat (S n) ->
  forall t' X0' X1' R0' R1', Nat.iter n gf128_step (y, X0, X1, R0, R1) = (t', X0', X1', R0', R1') ->
  let '(r0, r1) := if N.testbit t' 0 then (N.lxor R0' X0', N.lxor R1' X1') else (R0', R1') in
  r0 < 2 ^ 64 /\ r1 < 2 ^ 64 /\ pk r1 r0 = N.lxor (pk R1 R0) (gfmul 128 poly128 (pk X1 X0) y).
Proof.
  intros S Hy t' X0' X1' R0' R1' E. destruct (gf128_iter n _ S) as [E1 S1]. rewrite E in E1, S1.
  cbn [pk5] in E1. destruct S as (H0 & H1 & _). assert (HX : pk X1 X0 < 2 ^ 128) by (apply pk_lt; auto).
  pose proof (sa_iter_full (S n) y (pk X1 X0) HX Hy (pk R1 R0)) as F. rewrite iter_S, <- E1 in F. cbn [sa_step] in F.
  injection F as _ _ L. destruct S1 as (B0 & B1 & G0 & G1).
  pose proof (acc_pk (N.testbit t' 0) R0' R1' X0' X1' G0 B0 G1 B1) as A.
  destruct (if N.testbit t' 0 then (N.lxor R0' X0', N.lxor R1' X1') else (R0', R1')) as [r0 r1]. destruct A as (A & C0 & C1).
  repeat split; auto. rewrite A, testbit0_odd. exact L.
Qed.
Lemma halves c : bytes c -> length c = 16%nat -> be2n c = pk (be2n (sub 0 8 c)) (be2n (sub 8 8 c)) /\
    be2n (sub 0 8 c) < 2 ^ 64 /\ be2n (sub 8 8 c) < 2 ^ 64 /\ bytes (sub 0 8 c) /\ bytes (sub 8 8 c) /\
    length (sub 0 8 c) = 8%nat /\ length (sub 8 8 c) = 8%nat.
Proof.
    intros Bc Lc.
    assert (U1 : sub 0 8 c = firstn 8 c) by reflexivity. assert (U2 : sub 8 8 c = firstn 8 (skipn 8 c)) by reflexivity.
    rewrite U1, U2. clear U1 U2.
    assert (B1 : bytes (firstn 8 c)) by (apply bytes_firstn; auto).
    assert (S2 : firstn 8 (skipn 8 c) = skipn 8 c) by (apply firstn_all2; rewrite skipn_length; lia).
    rewrite S2. assert (B2 : bytes (skipn 8 c)) by (apply bytes_skipn; auto).
    assert (L1 : length (firstn 8 c) = 8%nat) by (rewrite firstn_length; lia).
    assert (L2 : length (skipn 8 c) = 8%nat) by (rewrite skipn_length; lia).
    pose proof (be2n_lt _ B1) as P1. pose proof (be2n_lt _ B2) as P2. rewrite L1 in P1. rewrite L2 in P2.
    split; [|repeat split; auto]. rewrite pk_add by exact P2. rewrite <- (firstn_skipn 8 c) at 1. rewrite be2n_app, L2. reflexivity.
Qed.
Lemma join_y y1 y0 n : n = 64%nat -> y0 < 2 ^ 64 -> N.lxor y0 (N.shiftl y1 (N.of_nat n)) = pk y1 y0.
Proof.
  intros ->. change (N.of_nat 64) with 64. intros H.
  rewrite pk_add by auto. rewrite N.shiftl_mul_pow2, N.lxor_comm. symmetry. apply N.add_nocarry_lxor.
  apply N.bits_inj. intros m. rewrite N.land_spec, N.bits_0. destruct (N.lt_ge_cases m 64).
  - rewrite N.mul_pow2_bits_low by auto. reflexivity.
  - rewrite (lt_pow2_high y0 64) by auto. apply andb_false_r.
Qed.
Lemma gf128_core n m x1 x0 y1 y0 : n = 64%nat -> m = 63%nat ->
  x1 < 2 ^ 64 -> x0 < 2 ^ 64 -> y1 < 2 ^ 64 -> y0 < 2 ^ 64 ->
  let '(_, X0, X1, R0, R1) := Nat.iter n gf128_step (y0, x0, x1, 0, 0) in
  let '(t, X0, X1, R0, R1) := Nat.iter m gf128_step (y1, X0, X1, R0, R1) in
  let '(r0, r1) := if N.testbit t 0 then (N.lxor R0 X0, N.lxor R1 X1) else (R0, R1) in
  r0 < 2 ^ 64 /\ r1 < 2 ^ 64 /\ pk r1 r0 = gfmul 128 poly128 (pk x1 x0) (pk y1 y0).
Proof.
  intros Hn Hm A1 A0 B1 B0.
  destruct (Nat.iter n gf128_step (y0, x0, x1, 0, 0)) as [[[[t X0] X1] R0] R1] eqn:E1.
  apply phase1 in E1; [|repeat split; auto; reflexivity|rewrite Hn; exact B0]. destruct E1 as (S1 & EX & ER).
  destruct (Nat.iter m gf128_step (y1, X0, X1, R0, R1)) as [[[[t' X0'] X1'] R0'] R1'] eqn:E2.
  apply phase2 in E2; [|exact S1|rewrite Hm; exact B1].
  destruct (if N.testbit t' 0 then (N.lxor R0' X0', N.lxor R1' X1') else (R0', R1')) as [r0 r1].
  destruct E2 as (C0 & C1 & A). split; [exact C0|]. split; [exact C1|].
  assert (HX : pk x1 x0 < 2 ^ 128) by (apply pk_lt; auto).
  destruct (iter_xt n (pk x1 x0) y1 HX) as [G BX]. rewrite <- EX in G.
  rewrite A, ER, G, pk_0, N.lxor_0_l, <- gfmul_lxor_r, (join_y y1 y0 n Hn B0). reflexivity.
Qed.
Theorem gf128_mul_spec le a b : bytes a -> length a = 16%nat -> bytes b -> length b = 16%nat ->
  gf128_mul_uint64 le a b = mul128 a b.
Proof.
  intros Ba La Bb Lb. unfold gf128_mul_uint64, mul128.
  destruct (halves a Ba La) as (Pa & A1 & A0 & Ba1 & Ba0 & La1 & La0).
  destruct (halves b Bb Lb) as (Pb & B1 & B0 & Bb1 & Bb0 & Lb1 & Lb0).
  rewrite !ld64_be by auto. rewrite Pa, Pb.
  pose proof (gf128_core 64 63 (be2n (sub 0 8 a)) (be2n (sub 8 8 a)) (be2n (sub 0 8 b)) (be2n (sub 8 8 b)) eq_refl eq_refl A1 A0 B1 B0) as C.
  remember 64%nat as n eqn:Hn. remember 63%nat as m eqn:Hm. clear Hn Hm.
  destruct (Nat.iter n gf128_step _) as [[[[t X0] X1] R0] R1]. 
  destruct (Nat.iter m gf128_step _) as [[[[t' X0'] X1'] R0'] R1'].
  destruct (if N.testbit t' 0 then (N.lxor R0' X0', N.lxor R1' X1') else (R0', R1')) as [r0 r1].
  destruct C as (C0 & C1 & A). 
  rewrite <- A. rewrite !st64_be by auto. rewrite pk_add by auto.
  assert (Q : be2n (n2be 8 r1 ++ n2be 8 r0) = r1 * 2 ^ 64 + r0).
  { rewrite be2n_app, n2be_length, !be2n_n2be, !N.mod_small by auto. reflexivity. }
  rewrite <- Q. symmetry. apply n2be_be2n; [apply bytes_app; apply n2be_bytes|rewrite app_length, !n2be_length; reflexivity].
Qed.
