(** Lemmas for the KDF: byte order, HMAC, the length field. *)
From Coq Require Import String.
From Verif Require Import Bytes BytesProofs StreebogTables StreebogModel StreebogSpec StreebogProofs BlockLoop PropStreebog KdfModel KdfSpec.
From Coq Require Import List Lia NArith.
Open Scope N_scope.

(** * Big-endian strings *)
Lemma n2le_snoc n : forall x, n2le (S n) x = n2le n x ++ [w8 (N.shiftr x (8 * N.of_nat n))].
Proof.
  induction n as [|n IH]; intro x.
  - cbn [n2le app]. change (8 * N.of_nat 0) with 0. rewrite N.shiftr_0_r. reflexivity.
  - change (n2le (S (S n)) x) with (w8 x :: n2le (S n) (N.shiftr x 8)). rewrite IH. cbn [n2le app].
    rewrite N.shiftr_shiftr.
    replace (8 + 8 * N.of_nat n) with (8 * N.of_nat (S n)) by lia. reflexivity.
Qed.
Lemma n2be_S n x : n2be (S n) x = w8 (N.shiftr x (8 * N.of_nat n)) :: n2be n x.
Proof. unfold n2be. rewrite n2le_snoc, rev_app_distr. reflexivity. Qed.
Lemma skipn_n2be R : forall n x, (R <= n)%nat -> skipn (n - R) (n2be n x) = n2be R x.
Proof.
  induction n as [|n IH]; intros x H.
  - replace R with 0%nat by lia. reflexivity.
  - destruct (Nat.eq_dec R (S n)) as [->|Hn]; [rewrite Nat.sub_diag; reflexivity|].
    replace (S n - R)%nat with (S (n - R)) by lia. rewrite n2be_S. cbn [skipn]. apply IH. lia.
Qed.
Lemma be32_swap v : n2le 4 (be32 true v) = rev (n2le 4 v).
Proof.
  cbn [n2le rev app be32]. rewrite !N.shiftr_shiftr. cbn [N.add Pos.add Pos.succ].
  assert (G : forall a b, (forall i, i < 8 -> N.testbit a i = N.testbit b i) -> w8 a = w8 b).
  { intros a b H. apply N.bits_inj. intro i. unfold w8. rewrite !N.land_spec.
    destruct (N.lt_ge_cases i 8) as [L|L]; [rewrite H by auto; reflexivity|].
    replace (N.testbit 255 i) with false; [rewrite !Bool.andb_false_r; reflexivity|].
    symmetry. apply N.bits_above_log2. apply N.lt_le_trans with 8; [reflexivity|exact L]. }
  assert (C : forall i, i < 8 -> i = 0 \/ i = 1 \/ i = 2 \/ i = 3 \/ i = 4 \/ i = 5 \/ i = 6 \/ i = 7) by (intros; lia).
  unfold w32.
  f_equal; [|f_equal; [|f_equal; [|f_equal]]]; apply G; intros i Hi; apply C in Hi;
    repeat (destruct Hi as [->|Hi]); try subst i;
    rewrite ?N.shiftr_spec', ?N.lor_spec, ?N.land_spec, ?N.shiftr_spec', ?N.land_spec;
    cbn [N.add Pos.add Pos.succ Pos.add_carry];
    repeat match goal with |- context [N.testbit (N.shiftl ?a ?b) ?i] =>
      first [rewrite (N.shiftl_spec_low a b i) by reflexivity | rewrite (N.shiftl_spec_high' a b i) by (apply N.leb_le; reflexivity)] end;
    rewrite ?N.land_spec;
    repeat match goal with |- context [N.sub ?a ?b] => let x := eval vm_compute in (N.sub a b) in change (N.sub a b) with x end;
    repeat match goal with
    | |- context [N.testbit (Npos ?p) (Npos ?q)] => let x := eval vm_compute in (N.testbit (Npos p) (Npos q)) in change (N.testbit (Npos p) (Npos q)) with x
    | |- context [N.testbit (Npos ?p) 0] => let x := eval vm_compute in (N.testbit (Npos p) 0) in change (N.testbit (Npos p) 0) with x
    end;
    rewrite ?Bool.andb_false_r, ?Bool.andb_true_r, ?Bool.orb_false_r, ?Bool.orb_false_l; reflexivity.
Qed.
(** Whatever the byte order of the host, the object holds the big-endian representation. *)
Lemma mem_be32 le v : mem le 4 (be32 le v) = n2be 4 v.
Proof. destruct le; cbn [mem]; [apply be32_swap|reflexivity]. Qed.

(** * The length field *)
Lemma byte_size_eq n v : 256 ^ N.of_nat n <= v < 256 ^ N.of_nat (S n) -> byte_size v = S n.
Proof.
  intros [H1 H2]. assert (P : 0 < 256 ^ N.of_nat n) by (apply N.neq_0_lt_0, N.pow_nonzero; discriminate).
  assert (Hv : v <> 0) by lia. unfold byte_size. rewrite N.size_log2 by auto.
  assert (L1 : 8 * N.of_nat n <= N.log2 v).
  { apply N.log2_le_pow2; [lia|]. rewrite N.pow_mul_r. exact H1. }
  assert (L2 : N.log2 v < 8 * N.of_nat (S n)).
  { apply N.log2_lt_pow2; [lia|]. rewrite N.pow_mul_r. exact H2. }
  replace ((N.succ (N.log2 v) + 7) / 8) with (N.of_nat (S n)); [apply Nat2N.id|].
  apply N.div_unique with (N.log2 v - 8 * N.of_nat n); lia.
Qed.
Lemma strip_n2be n : forall v, 0 < v < 256 ^ N.of_nat n -> strip_zeros (n2be n v) = Some (min_be v).
Proof.
  induction n as [|n IH]; intros v Hv; [cbn in Hv; lia|]. rewrite n2be_S. cbn [strip_zeros].
  assert (P : 256 ^ N.of_nat n <> 0) by (apply N.pow_nonzero; discriminate).
  assert (Ew : w8 (N.shiftr v (8 * N.of_nat n)) = v / 256 ^ N.of_nat n).
  { rewrite N.shiftr_div_pow2, N.pow_mul_r. change (2 ^ 8) with 256. apply w8_small.
    apply N.div_lt_upper_bound; [exact P|]. rewrite Nat2N.inj_succ, N.pow_succ_r' in Hv. lia. }
  rewrite Ew. destruct (N.lt_ge_cases v (256 ^ N.of_nat n)) as [L|L].
  - rewrite N.div_small by auto. cbn [N.eqb]. apply IH. lia.
  - destruct (N.eqb_spec (v / 256 ^ N.of_nat n) 0) as [E0|_].
    + apply N.div_small_iff in E0; [lia|exact P].
    + f_equal. unfold min_be. rewrite (byte_size_eq n v) by lia. rewrite n2be_S, Ew. reflexivity.
Qed.
Lemma strip_zero n : strip_zeros (zeros n) = None.
Proof. induction n; [reflexivity|]. cbn [zeros repeat strip_zeros N.eqb]. exact IHn. Qed.
Lemma n2le_0 n : n2le n 0 = zeros n.
Proof. induction n; [reflexivity|]. cbn [n2le]. rewrite N.shiftr_0_l, IHn. reflexivity. Qed.
Lemma rev_zeros n : rev (zeros n) = zeros n.
Proof.
  induction n; [reflexivity|]. cbn [zeros repeat rev]. fold (zeros n). rewrite IHn.
  clear. induction n; [reflexivity|]. cbn [zeros repeat app]. f_equal. exact IHn.
Qed.
Lemma n2be_0 n : n2be n 0 = zeros n.
Proof. unfold n2be. rewrite n2le_0. apply rev_zeros. Qed.

(** * Hash and HMAC *)
Lemma streebog_ok iv m : blk64 iv -> bytes m -> blk64 (streebog iv m).
Proof.
  intros Hiv Bm. unfold streebog, stage3_rest. cbv zeta.
  set (s := fold_left _ _ _).
  assert (Hs : blk64 (s_h s)).
  { subst s. assert (FB : Forall blk64 (blocks 64 (firstn (whole m) m))).
    { apply blocks_blk64; [apply (full_mod 64 m); lia|apply bytes_firstn; auto]. }
    assert (G0 : forall B s0, Forall blk64 B -> blk64 (s_h s0) -> blk64 (s_h (fold_left stage2_block B s0))).
    { induction B as [|b B IH]; intros s0 FB0 H0; [exact H0|]. apply Forall_cons_iff in FB0 as [Hb FB0].
      cbn [fold_left]. apply IH; auto. unfold stage2_block. cbn [s_h].
      apply (g_spec RefLE); auto. apply vec_blk64. }
    apply G0; auto. }
  set (r := skipn (whole m) m).
  assert (Hr : blk64 (r ++ [1] ++ zeros (63 - length r))).
  { assert (Hl : (length r < 64)%nat) by (apply (tail_lt 64 m); lia).
    split; [rewrite !app_length, zeros_length; cbn [length]; lia|].
    apply bytes_app; [apply bytes_skipn; auto|]. apply bytes_app; [repeat constructor|apply bytes_zeros]. }
  apply (g_spec RefLE); try apply vec_blk64. apply (g_spec RefLE); try apply vec_blk64.
  apply (g_spec RefLE); auto. apply vec_blk64.
Qed.
Lemma streebog256_ok m : bytes m -> length (streebog256 m) = 32%nat /\ bytes (streebog256 m).
Proof.
  intros Bm. assert (B1 : blk64 (repeat 1 64)) by (split; [reflexivity|apply bytes_forallb; reflexivity]).
  destruct (streebog_ok (repeat 1 64) m B1 Bm) as [L B]. unfold streebog256.
  split; [rewrite skipn_length, L; reflexivity|apply bytes_skipn; exact B].
Qed.
Lemma md256_spec h chunks : Forall bytes chunks -> md256 h chunks = streebog256 (concat chunks).
Proof. intros F. unfold md256. exact (proj2 (C19_streebog_chunks_match_standard (h_bd h) (h_ac h) chunks F)). Qed.
Lemma hmac_key_ok key : bytes key -> blk64 (hmac_key key).
Proof.
  intros B. unfold hmac_key. cbv zeta.
  assert (G : forall k, bytes k -> (length k <= 64)%nat -> blk64 (k ++ repeat 0 (64 - length k))).
  { intros k Bk Lk. split; [rewrite app_length, repeat_length; lia|]. apply bytes_app; [exact Bk|apply bytes_zeros]. }
  destruct (Nat.ltb_spec 64 (length key)); apply G; auto.
  - apply streebog256_ok; auto.
  - destruct (streebog256_ok key B) as [-> _]. lia.
Qed.
Lemma hmac_pad_spec h key : bytes key -> hmac_pad h key = hmac_key key.
Proof.
  intros B. unfold hmac_pad, hmac_key. rewrite md256_spec by (constructor; auto). cbn [concat]. rewrite app_nil_r. reflexivity.
Qed.
Lemma blk64_rep b : b < 256 -> blk64 (repeat b 64).
Proof. intros H. split; [apply repeat_length|]. apply Forall_forall. intros x Hx. apply repeat_spec in Hx. subst. exact H. Qed.
Lemma concat_bytes l : Forall bytes l -> bytes (concat l).
Proof. induction 1; [constructor|]. cbn [concat]. apply bytes_app; auto. Qed.
Lemma HMAC_spec h key chunks : bytes key -> Forall bytes chunks -> HMAC h key chunks = hmac256 key (concat chunks).
Proof.
  intros B F. unfold HMAC, hmac256. cbv zeta. rewrite hmac_pad_spec by auto.
  pose proof (hmac_key_ok key B) as K.
  assert (K1 : bytes (xorl (hmac_key key) (repeat 0x36 64))) by (apply blk64_xorl; [exact K|apply blk64_rep; reflexivity]).
  assert (K2 : bytes (xorl (hmac_key key) (repeat 0x5c 64))) by (apply blk64_xorl; [exact K|apply blk64_rep; reflexivity]).
  set (x1 := xorl (hmac_key key) (repeat 0x36 64)) in *. set (x2 := xorl (hmac_key key) (repeat 0x5c 64)) in *.
  rewrite (md256_spec h (x1 :: chunks)) by (constructor; auto). cbn [concat].
  assert (Bc : bytes (x1 ++ concat chunks)) by (apply bytes_app; [exact K1|apply concat_bytes; exact F]).
  rewrite md256_spec.
  - cbn [concat]. rewrite app_nil_r. reflexivity.
  - constructor; [exact K2|]. constructor; [|constructor]. apply streebog256_ok; auto.
Qed.
Lemma hmac256_ok key m : bytes key -> bytes m -> length (hmac256 key m) = 32%nat /\ bytes (hmac256 key m).
Proof.
  intros B Bm. unfold hmac256. pose proof (hmac_key_ok key B) as K.
  assert (K1 : bytes (xorl (hmac_key key) (repeat 0x36 64))) by (apply blk64_xorl; [exact K|apply blk64_rep; reflexivity]).
  assert (K2 : bytes (xorl (hmac_key key) (repeat 0x5c 64))) by (apply blk64_xorl; [exact K|apply blk64_rep; reflexivity]).
  apply streebog256_ok. apply bytes_app; [exact K2|]. apply streebog256_ok. apply bytes_app; auto.
Qed.

(** * Masks *)
Fixpoint landl (a b : list N) : list N :=
  match a, b with x :: a', y :: b' => N.land x y :: landl a' b' | _, _ => nil end.
Lemma land_split x a y b : x < 256 -> y < 256 -> N.land (x + 256 * a) (y + 256 * b) = N.land x y + 256 * N.land a b.
Proof.
  intros Hx Hy. apply N.bits_inj. intro i. rewrite N.land_spec.
  assert (G : forall x a i, x < 256 -> N.testbit (x + 256 * a) i = if i <? 8 then N.testbit x i else N.testbit a (i - 8)).
  { clear. intros x a i Hx. destruct (N.ltb_spec i 8) as [L|L].
    - rewrite <- (N.mod_pow2_bits_low (x + 256 * a) 8 i L). change (2 ^ 8) with 256.
      rewrite (N.mul_comm 256 a), N.mod_add, N.mod_small by (lia || discriminate). reflexivity.
    - replace i with ((i - 8) + 8) at 1 by lia. rewrite <- N.div_pow2_bits. change (2 ^ 8) with 256.
      rewrite (N.mul_comm 256 a), N.div_add, N.div_small by (lia || discriminate). reflexivity. }
  assert (Hl : N.land x y < 256).
  { destruct (N.eq_dec (N.land x y) 0) as [->|Hz]; [reflexivity|]. change 256 with (2 ^ 8). apply N.log2_lt_pow2; [lia|].
    eapply N.le_lt_trans; [apply N.log2_land|]. destruct (N.eq_dec x 0) as [->|Hx0]; [rewrite N.land_0_l in Hz; lia|].
    apply N.min_lt_iff. left. apply N.log2_lt_pow2; [lia|exact Hx]. }
  rewrite !G by auto. destruct (i <? 8); rewrite N.land_spec; reflexivity.
Qed.
Lemma land_le2n a : forall b, bytes a -> bytes b -> length a = length b -> N.land (le2n a) (le2n b) = le2n (landl a b).
Proof.
  induction a as [|x a IH]; intros [|y b] Ha Hb L; try discriminate L; [reflexivity|].
  inversion Ha; inversion Hb; subst. cbn [le2n landl]. rewrite land_split by auto. rewrite IH; auto.
Qed.
Lemma landl_length a : forall b, length a = length b -> length (landl a b) = length a.
Proof. induction a; intros [|y b] L; try discriminate L; cbn [landl length] in *; auto. Qed.
Lemma land_byte x y : x < 256 -> N.land x y < 256.
Proof.
  intros H. change 256 with (2 ^ 8). assert (E : N.land x y = N.land (N.land x y) 255).
  { rewrite <- N.land_assoc, (N.land_comm y), N.land_assoc. change 255 with (N.ones 8). rewrite N.land_ones.
    rewrite N.mod_small by exact H. reflexivity. }
  rewrite E. change 255 with (N.ones 8). rewrite N.land_ones. apply N.mod_lt. discriminate.
Qed.
Lemma landl_bytes a : forall b, bytes a -> bytes (landl a b).
Proof. induction a; intros [|y b] H; cbn [landl]; try constructor; inversion H; subst; [apply land_byte|apply IHa]; auto. Qed.
Lemma landl_app a : forall b a' b', length a = length b -> landl (a ++ a') (b ++ b') = landl a b ++ landl a' b'.
Proof. induction a; intros [|y b] a' b' L; try discriminate L; [reflexivity|]. cbn [landl app]. rewrite IHa; auto. Qed.
Lemma landl_rev a : forall b, length a = length b -> landl (rev a) (rev b) = rev (landl a b).
Proof.
  induction a; intros [|y b] L; try discriminate L; [reflexivity|]. cbn [rev landl].
  rewrite landl_app by (rewrite !rev_length; auto). rewrite IHa by auto. reflexivity.
Qed.
(** Masking the little-endian reading and writing it back little-endian is masking the big-endian
    reading with the byte-swapped mask. *)
Lemma seed_swap s c : bytes s -> length s = 8%nat -> n2le 8 (N.land (le2n s) c) = n2be 8 (N.land (be2n s) (be2n (n2le 8 c))).
Proof.
  intros Bs Ls.
  assert (E : N.land (le2n s) c = N.land (le2n s) (le2n (n2le 8 c))).
  { rewrite le2n_n2le. apply N.bits_inj. intro i. rewrite !N.land_spec. change (256 ^ N.of_nat 8) with (2 ^ 64).
    destruct (N.lt_ge_cases i 64) as [L|L]; [rewrite N.mod_pow2_bits_low by auto; reflexivity|].
    replace (N.testbit (le2n s) i) with false; [reflexivity|]. symmetry.
    pose proof (le2n_lt s Bs) as U. rewrite Ls in U. change (256 ^ N.of_nat 8) with (2 ^ 64) in U.
    destruct (N.eq_dec (le2n s) 0) as [->|Hz]; [apply N.bits_0|]. apply N.bits_above_log2.
    apply N.lt_le_trans with 64; [apply N.log2_lt_pow2; [lia|exact U]|exact L]. }
  rewrite E. unfold be2n. rewrite !land_le2n; auto using bytes_rev, n2le_bytes; rewrite ?rev_length, ?n2le_length; auto.
  rewrite landl_rev by (rewrite n2le_length; auto). unfold n2be.
  rewrite !n2le_le2n; auto using landl_bytes, bytes_rev; rewrite ?rev_length, ?landl_length; rewrite ?n2le_length; auto.
  rewrite rev_involutive. reflexivity.
Qed.
