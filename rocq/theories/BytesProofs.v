(** Lemmas about [Bytes]. *)
From Verif Require Import Bytes.
From Coq Require Import List Lia NArith.
Open Scope N_scope.

Ltac Zify.zify_post_hook ::= Z.div_mod_to_equations.

Lemma w8_mod x : w8 x = x mod 256.
Proof. unfold w8. change 0xff with (N.ones 8). rewrite N.land_ones. reflexivity. Qed.
Lemma w32_mod x : w32 x = x mod 4294967296.
Proof. unfold w32. change 0xffffffff with (N.ones 32). rewrite N.land_ones. reflexivity. Qed.
Lemma w64_mod x : w64 x = x mod 18446744073709551616.
Proof. unfold w64. change 0xffffffffffffffff with (N.ones 64). rewrite N.land_ones. reflexivity. Qed.

Lemma w8_lt x : w8 x < 256. Proof. rewrite w8_mod. apply N.mod_lt. discriminate. Qed.
Lemma w32_lt x : w32 x < 4294967296. Proof. rewrite w32_mod. apply N.mod_lt. discriminate. Qed.
Lemma w64_lt x : w64 x < 18446744073709551616. Proof. rewrite w64_mod. apply N.mod_lt. discriminate. Qed.
Lemma w8_small x : x < 256 -> w8 x = x. Proof. intros; rewrite w8_mod; apply N.mod_small; auto. Qed.
Lemma w32_small x : x < 4294967296 -> w32 x = x. Proof. intros; rewrite w32_mod; apply N.mod_small; auto. Qed.
Lemma w64_small x : x < 18446744073709551616 -> w64 x = x. Proof. intros; rewrite w64_mod; apply N.mod_small; auto. Qed.

Lemma shiftr8 x : N.shiftr x 8 = x / 256.
Proof. rewrite N.shiftr_div_pow2. reflexivity. Qed.

Lemma add32_lt a b : add32 a b < 4294967296. Proof. apply w32_lt. Qed.
Lemma sub32_lt a b : sub32 a b < 4294967296. Proof. apply w32_lt. Qed.
Lemma add32_sub32 a m : a < 4294967296 -> m < 4294967296 -> add32 (sub32 a m) m = a.
Proof.
  intros. unfold add32, sub32. rewrite !w32_mod. 
  rewrite N.add_mod_idemp_l by discriminate.
  replace (a + (4294967296 - m) + m) with (a + 1 * 4294967296) by lia.
  rewrite N.mod_add by discriminate. apply N.mod_small; auto.
Qed.
Lemma add32_assoc a b c : add32 a (add32 b c) = add32 (add32 a b) c.
Proof.
  unfold add32. rewrite !w32_mod.
  rewrite N.add_mod_idemp_r, N.add_mod_idemp_l by discriminate. f_equal; lia.
Qed.
Lemma add32_comm a b : add32 a b = add32 b a.
Proof. unfold add32. f_equal; lia. Qed.

(** * xor *)
Lemma lxor_lt_pow2 n a b : a < 2^n -> b < 2^n -> N.lxor a b < 2^n.
Proof.
  intros Ha Hb.
  destruct (N.eq_dec a 0) as [->|]. { rewrite N.lxor_0_l; auto. }
  destruct (N.eq_dec b 0) as [->|]. { rewrite N.lxor_0_r; auto. }
  destruct (N.eq_dec (N.lxor a b) 0) as [->|]. { apply N.neq_0_lt_0, N.pow_nonzero; discriminate. }
  apply N.log2_lt_pow2. { lia. }
  apply N.log2_lt_pow2 in Ha; [|lia]. apply N.log2_lt_pow2 in Hb; [|lia].
  pose proof (N.log2_lxor a b). lia.
Qed.
Lemma lor_lt_pow2 n a b : a < 2^n -> b < 2^n -> N.lor a b < 2^n.
Proof.
  intros Ha Hb.
  destruct (N.eq_dec a 0) as [->|]. { rewrite N.lor_0_l; auto. }
  destruct (N.eq_dec b 0) as [->|]. { rewrite N.lor_0_r; auto. }
  destruct (N.eq_dec (N.lor a b) 0) as [->|]. { apply N.neq_0_lt_0, N.pow_nonzero; discriminate. }
  apply N.log2_lt_pow2. { lia. }
  apply N.log2_lt_pow2 in Ha; [|lia]. apply N.log2_lt_pow2 in Hb; [|lia].
  rewrite N.log2_lor. lia.
Qed.
Lemma lxor_byte a b : a < 256 -> b < 256 -> N.lxor a b < 256.
Proof. apply (lxor_lt_pow2 8). Qed.
Lemma lxor_w32 a b : a < 4294967296 -> b < 4294967296 -> N.lxor a b < 4294967296.
Proof. apply (lxor_lt_pow2 32). Qed.
Lemma lxor_w64 a b : a < 18446744073709551616 -> b < 18446744073709551616 -> N.lxor a b < 18446744073709551616.
Proof. apply (lxor_lt_pow2 64). Qed.
Lemma lxor_cancel_r a b : N.lxor (N.lxor a b) b = a.
Proof. rewrite N.lxor_assoc, N.lxor_nilpotent, N.lxor_0_r; auto. Qed.
Lemma lxor_cancel_l a b : N.lxor b (N.lxor b a) = a.
Proof. rewrite <- N.lxor_assoc, N.lxor_nilpotent, N.lxor_0_l; auto. Qed.
Lemma lxor_eq_iff a b : N.lxor a b = 0 <-> a = b.
Proof. split. apply N.lxor_eq. intros ->; apply N.lxor_nilpotent. Qed.

Lemma xorl_nil_r a : xorl a nil = nil. Proof. destruct a; auto. Qed.
Lemma xorl_length a b : length (xorl a b) = Nat.min (length a) (length b).
Proof. revert b; induction a; destruct b; simpl; auto. Qed.
Lemma xorl_length_eq a b : length a = length b -> length (xorl a b) = length a.
Proof. intros. rewrite xorl_length. lia. Qed.
Lemma xorl_bytes a b : bytes a -> bytes b -> bytes (xorl a b).
Proof.
  revert b; induction a; intros b Ha Hb; [constructor|].
  destruct b; simpl; [constructor|]. inversion Ha; inversion Hb; subst.
  constructor; [apply lxor_byte; auto|apply IHa; auto].
Qed.
Lemma xorl_comm a b : xorl a b = xorl b a.
Proof. revert b; induction a; destruct b; simpl; auto. rewrite N.lxor_comm, IHa; auto. Qed.
Lemma xorl_cancel_r a b : length a = length b -> xorl (xorl a b) b = a.
Proof.
  revert b; induction a; destruct b; simpl; intros; auto; try discriminate.
  rewrite lxor_cancel_r, IHa; auto.
Qed.
Lemma xorl_cancel_r_le a b : (length a <= length b)%nat -> xorl (xorl a b) b = a.
Proof.
  revert b; induction a; destruct b; simpl; intros; auto; try lia.
  rewrite lxor_cancel_r, IHa; auto. lia.
Qed.
Lemma xorl_cancel_l a b : length a = length b -> xorl b (xorl b a) = a.
Proof. intros. rewrite (xorl_comm b (xorl b a)), (xorl_comm b a). apply xorl_cancel_r; auto. Qed.
Lemma xorl_app a a' b b' : length a = length b -> xorl (a ++ a') (b ++ b') = xorl a b ++ xorl a' b'.
Proof. revert b; induction a; destruct b; simpl; intros; try discriminate; auto. rewrite IHa; auto. Qed.
Lemma xorl_assoc a b c : xorl (xorl a b) c = xorl a (xorl b c).
Proof.
  revert b c; induction a; destruct b; destruct c; simpl; auto.
  rewrite N.lxor_assoc, IHa; auto.
Qed.
Lemma xorl_firstn n a b : xorl (firstn n a) (firstn n b) = firstn n (xorl a b).
Proof. revert a b; induction n; destruct a; destruct b; simpl; auto. rewrite IHn; auto. Qed.
Lemma xorl_skipn n a b : xorl (skipn n a) (skipn n b) = skipn n (xorl a b).
Proof.
  revert a b; induction n; destruct a; destruct b; simpl; auto.
  apply xorl_nil_r.
Qed.
Lemma xorl_nth a b i : (i < length a)%nat -> (i < length b)%nat ->
  nth i (xorl a b) 0 = N.lxor (nth i a 0) (nth i b 0).
Proof.
  revert b i; induction a; destruct b; destruct i; simpl; intros; try lia; auto.
  apply IHa; lia.
Qed.
Lemma xorl_zeros_r n a : length a = n -> xorl a (zeros n) = a.
Proof. revert n; induction a; destruct n; simpl; intros; try discriminate; auto.
  unfold zeros in *; simpl. rewrite N.lxor_0_r. f_equal. apply IHa. lia. Qed.

(** * Byte lists *)
Lemma bytes_app a b : bytes a -> bytes b -> bytes (a ++ b).
Proof. intros; apply Forall_app; auto. Qed.
Lemma bytes_app_inv a b : bytes (a ++ b) -> bytes a /\ bytes b.
Proof. intros; apply Forall_app; auto. Qed.
Lemma bytes_rev a : bytes a -> bytes (rev a).
Proof. apply Forall_rev. Qed.
Lemma bytes_firstn n a : bytes a -> bytes (firstn n a).
Proof. revert a; induction n; intros a H; [constructor|]. destruct H; simpl; constructor; auto. apply IHn; auto. Qed.
Lemma bytes_skipn n a : bytes a -> bytes (skipn n a).
Proof. revert a; induction n; intros a H; auto. destruct H; simpl; [constructor|]. apply IHn; auto. Qed.
Lemma bytes_zeros n : bytes (zeros n).
Proof. unfold zeros; induction n; simpl; constructor; auto. unfold isbyte; lia. Qed.
Lemma bytes_nth l i : bytes l -> nth i l 0 < 256.
Proof.
  intros H; revert i; induction H; destruct i; simpl; auto; try lia.
Qed.
Lemma bytes_sub o n l : bytes l -> bytes (sub o n l).
Proof. intros; apply bytes_firstn, bytes_skipn; auto. Qed.
Lemma sub_length o n l : (o + n <= length l)%nat -> length (sub o n l) = n.
Proof. intros. unfold sub. rewrite firstn_length, skipn_length. lia. Qed.
Lemma zeros_length n : length (zeros n) = n.
Proof. apply repeat_length. Qed.

Lemma bytes_forallb l : forallb (fun b => b <? 256) l = true -> bytes l.
Proof.
  intros H. apply Forall_forall. intros x Hx. rewrite forallb_forall in H.
  specialize (H x Hx). apply N.ltb_lt in H; auto.
Qed.

(** * Conversions *)
Lemma n2le_length n x : length (n2le n x) = n.
Proof. revert x; induction n; simpl; intros; auto. Qed.
Lemma n2le_bytes n x : bytes (n2le n x).
Proof. revert x; induction n; simpl; intros; constructor; [apply w8_lt|apply IHn]. Qed.
Lemma le2n_lt l : bytes l -> le2n l < 256 ^ N.of_nat (length l).
Proof.
  induction 1 as [|b l Hb Hl IH]; simpl length; [simpl; lia|].
  rewrite Nat2N.inj_succ, N.pow_succ_r'. cbn [le2n]. unfold isbyte in Hb. lia.
Qed.
Lemma le2n_n2le n x : le2n (n2le n x) = x mod 256 ^ N.of_nat n.
Proof.
  revert x; induction n; intros; cbn [n2le].
  - simpl. rewrite N.mod_1_r; auto.
  - cbn [le2n]. rewrite IHn, w8_mod, shiftr8.
    rewrite Nat2N.inj_succ, N.pow_succ_r'.
    rewrite N.mod_mul_r; try lia.
Qed.
Lemma le2n_n2le_small n x : x < 256 ^ N.of_nat n -> le2n (n2le n x) = x.
Proof. intros; rewrite le2n_n2le. apply N.mod_small; auto. Qed.
Lemma n2le_le2n l n : bytes l -> length l = n -> n2le n (le2n l) = l.
Proof.
  intros H; revert n; induction H as [|b l Hb Hl IH]; intros n Hn; destruct n; try discriminate; auto.
  cbn [n2le le2n]. unfold isbyte in Hb. f_equal.
  - rewrite w8_mod. rewrite N.mul_comm, N.mod_add by lia. apply N.mod_small; auto.
  - rewrite shiftr8, N.mul_comm, N.div_add by lia. rewrite N.div_small by auto.
    apply IH. simpl in Hn; lia.
Qed.
Lemma n2be_length n x : length (n2be n x) = n.
Proof. unfold n2be. rewrite rev_length. apply n2le_length. Qed.
Lemma n2be_bytes n x : bytes (n2be n x).
Proof. apply bytes_rev, n2le_bytes. Qed.
Lemma be2n_n2be n x : be2n (n2be n x) = x mod 256 ^ N.of_nat n.
Proof. unfold be2n, n2be. rewrite rev_involutive. apply le2n_n2le. Qed.
Lemma n2be_be2n l n : bytes l -> length l = n -> n2be n (be2n l) = l.
Proof.
  intros. unfold be2n, n2be. rewrite n2le_le2n; [apply rev_involutive|apply bytes_rev; auto|rewrite rev_length; auto].
Qed.
Lemma be2n_lt l : bytes l -> be2n l < 256 ^ N.of_nat (length l).
Proof. intros. unfold be2n. rewrite <- (rev_length l). apply le2n_lt, bytes_rev; auto. Qed.
Lemma le2n_app a b : le2n (a ++ b) = le2n a + 256 ^ N.of_nat (length a) * le2n b.
Proof.
  induction a as [|x a IHa]; cbn [le2n app length]; [simpl length; rewrite N.pow_0_r; lia|]. rewrite IHa.
  rewrite Nat2N.inj_succ, N.pow_succ_r'. lia.
Qed.
Lemma le2n_inj a b : bytes a -> bytes b -> length a = length b -> le2n a = le2n b -> a = b.
Proof.
  intros Ha Hb Hl He. rewrite <- (n2le_le2n a (length a)), <- (n2le_le2n b (length b)); auto.
  rewrite He, Hl; auto.
Qed.
Lemma be2n_inj a b : bytes a -> bytes b -> length a = length b -> be2n a = be2n b -> a = b.
Proof.
  intros Ha Hb Hl He. rewrite <- (rev_involutive a), <- (rev_involutive b). f_equal.
  apply le2n_inj; auto using bytes_rev. rewrite !rev_length; auto.
Qed.

(** * Lists *)
Lemma firstn_app_le {A} n (a b : list A) : (n <= length a)%nat -> firstn n (a ++ b) = firstn n a.
Proof. intros. rewrite firstn_app. replace (n - length a)%nat with 0%nat by lia. simpl. apply app_nil_r. Qed.
Lemma skipn_app_le {A} n (a b : list A) : (n <= length a)%nat -> skipn n (a ++ b) = skipn n a ++ b.
Proof. intros. rewrite skipn_app. replace (n - length a)%nat with 0%nat by lia. auto. Qed.
Lemma firstn_app_exact {A} n (a b : list A) : length a = n -> firstn n (a ++ b) = a.
Proof. intros. rewrite firstn_app_le by lia. subst. apply firstn_all. Qed.
Lemma skipn_app_exact {A} n (a b : list A) : length a = n -> skipn n (a ++ b) = b.
Proof. intros. rewrite skipn_app_le by lia. subst. rewrite skipn_all. auto. Qed.

Lemma set_length l i v : length (set l i v) = length l.
Proof. revert i; induction l; destruct i; simpl; auto. Qed.
Lemma set_nth_same l i v d : (i < length l)%nat -> nth i (set l i v) d = v.
Proof. revert i; induction l; destruct i; simpl; intros; try lia; auto. apply IHl; lia. Qed.
Lemma set_nth_other l i j v d : i <> j -> nth j (set l i v) d = nth j l d.
Proof. revert i j; induction l; destruct i; destruct j; simpl; intros; try lia; auto. Qed.
Lemma skipn_skipn {A} n m (l : list A) : skipn n (skipn m l) = skipn (m + n) l.
Proof. revert l; induction m; intros; auto. destruct l; simpl; auto. apply skipn_nil. Qed.

(** * Blocks *)
Lemma blocks_fuel_enough f1 f2 n l : (0 < n)%nat -> (length l <= f1)%nat -> (length l <= f2)%nat ->
  blocks_fuel f1 n l = blocks_fuel f2 n l.
Proof.
  revert f2 l; induction f1; intros f2 l Hn H1 H2.
  - destruct l; simpl in *; [|lia]. destruct f2; auto.
  - destruct f2; destruct l as [|x l]; auto; [simpl in *; lia|].
    cbn [blocks_fuel]. f_equal. apply IHf1; auto; rewrite skipn_length; cbn [length] in *; lia.
Qed.
Lemma blocks_nil n : blocks n nil = nil. Proof. reflexivity. Qed.
Lemma blocks_step n l : (0 < n)%nat -> l <> nil -> blocks n l = firstn n l :: blocks n (skipn n l).
Proof.
  intros Hn Hl. destruct l as [|x l]; [congruence|]. unfold blocks at 1. cbn [length blocks_fuel].
  f_equal. apply blocks_fuel_enough; auto. rewrite skipn_length; cbn [length]; lia.
Qed.
Lemma blocks_cons n a l : (0 < n)%nat -> length a = n -> blocks n (a ++ l) = a :: blocks n l.
Proof.
  intros. rewrite blocks_step; auto.
  - rewrite firstn_app_exact, skipn_app_exact; auto.
  - destruct a; simpl in *; [lia|discriminate].
Qed.
(** Induction on a list by blocks of [n] elements. *)
Lemma blocks_ind {A} (n : nat) (Hn : (0 < n)%nat) (P : list A -> Prop) :
  (forall l, (length l < n)%nat -> P l) ->
  (forall a l, length a = n -> P l -> P (a ++ l)) -> forall l, P l.
Proof.
  intros H0 H1 l. remember (length l) as k eqn:E. revert l E.
  induction k as [k IH] using lt_wf_ind; intros l E.
  destruct (Nat.lt_ge_cases (length l) n); auto.
  rewrite <- (firstn_skipn n l). apply H1.
  - rewrite firstn_length; lia.
  - apply (IH (length (skipn n l))); auto. rewrite skipn_length. lia.
Qed.
Lemma mod_lt_zero a n : (a < n)%nat -> (a mod n = 0)%nat -> a = 0%nat.
Proof. intros H. rewrite Nat.mod_small; auto. Qed.
Lemma mod_add_n a n : (0 < n)%nat -> ((n + a) mod n = a mod n)%nat.
Proof. intros. replace (n + a)%nat with (a + 1 * n)%nat by lia. apply Nat.mod_add; lia. Qed.
Lemma whole_blocks_ind {A} (n : nat) (P : list A -> Prop) : (0 < n)%nat ->
  P nil -> (forall a l, length a = n -> (length l mod n = 0)%nat -> P l -> P (a ++ l)) ->
  forall l, (length l mod n = 0)%nat -> P l.
Proof.
  intros Hn H0 H1 l. induction l as [l Hl|a l Ha IH] using (blocks_ind n Hn); auto; intros Hm.
  - apply mod_lt_zero in Hm; auto. destruct l; [auto|discriminate].
  - rewrite app_length, Ha, mod_add_n in Hm by auto. apply H1; auto.
Qed.
Lemma blocks_app n a b : (0 < n)%nat -> (length a mod n = 0)%nat -> blocks n (a ++ b) = blocks n a ++ blocks n b.
Proof.
  intros Hn. revert a. apply whole_blocks_ind; auto.
  intros a l Ha Hm IH. rewrite <- app_assoc, (blocks_cons n a (l ++ b)), (blocks_cons n a l), IH by auto. reflexivity.
Qed.
Lemma concat_blocks n l : (0 < n)%nat -> concat (blocks n l) = l.
Proof.
  intros Hn. induction l as [l Hl|a l Ha IH] using (blocks_ind n Hn); auto.
  - destruct l; auto. rewrite blocks_step by (auto; discriminate). 
    rewrite firstn_all2, skipn_all2 by lia. simpl. rewrite app_nil_r; auto.
  - rewrite blocks_cons by auto. cbn [concat]. rewrite IH; auto.
Qed.
Lemma blocks_all_full n l : (0 < n)%nat -> (length l mod n = 0)%nat -> Forall (fun b => length b = n) (blocks n l).
Proof.
  intros Hn. revert l. apply whole_blocks_ind; auto.
  - constructor.
  - intros. rewrite blocks_cons by auto. constructor; auto.
Qed.
Lemma blocks_bytes n l : (0 < n)%nat -> bytes l -> Forall bytes (blocks n l).
Proof.
  intros Hn. induction l as [l Hl|a l Ha IH] using (blocks_ind n Hn); intros Hb.
  - destruct l; [constructor|]. rewrite blocks_step by (auto; discriminate). 
    rewrite firstn_all2, skipn_all2 by lia. constructor; [exact Hb|constructor].
  - rewrite blocks_cons by auto. apply bytes_app_inv in Hb as [? ?]. constructor; auto.
Qed.
Lemma blocks_short n l : (0 < n)%nat -> l <> nil -> (length l <= n)%nat -> blocks n l = [l].
Proof. intros. rewrite blocks_step by auto. rewrite firstn_all2, skipn_all2 by lia. reflexivity. Qed.

Lemma eqbl_eq a b : eqbl a b = true <-> a = b.
Proof.
  revert b; induction a as [|x a IH]; intros [|y b]; cbn [eqbl]; split; intros H; try reflexivity; try discriminate H.
  - apply andb_prop in H as [H1 H2]. apply N.eqb_eq in H1. apply IH in H2. congruence.
  - injection H as -> ->. rewrite N.eqb_refl. cbn [andb]. apply IH. reflexivity.
Qed.
Lemma eqbl_neq a b : eqbl a b = false <-> a <> b.
Proof. rewrite <- eqbl_eq. destruct (eqbl a b); split; congruence. Qed.
