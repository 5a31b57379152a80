(** Polynomials over GF(2), coded as binary numbers (bit i is the coefficient of x^i):
    carry-less multiplication, remainder, and multiplication in GF(2)[x]/(p).
    This is a specification library; nothing here models the source. *)
From Coq Require Import NArith Bool Lia.
Open Scope N_scope.

(** Product of polynomials. *)
Fixpoint clmulp (a : N) (b : positive) : N :=
  match b with
  | xH => a
  | xO b => N.double (clmulp a b)
  | xI b => N.lxor a (N.double (clmulp a b))
  end.
Definition clmul (a b : N) : N := match b with 0 => 0 | Npos b => clmulp a b end.

(** Remainder modulo the polynomial p of degree d, by Horner's rule: [pmod_spec] below says it is
    the remainder. *)
Definition red (d p r : N) : N := if N.testbit r d then N.lxor r p else r.
Fixpoint pmodp (d p : N) (x : positive) : N :=
  match x with
  | xH => red d p 1
  | xO x => red d p (N.double (pmodp d p x))
  | xI x => red d p (N.lxor 1 (N.double (pmodp d p x)))
  end.
Definition pmod (d p x : N) : N := match x with 0 => 0 | Npos x => pmodp d p x end.

(** Multiplication in GF(2)[x]/(p), p of degree d. *)
Definition gfmul (d p a b : N) : N := pmod d p (clmul a b).

(** ** Facts *)
Lemma double_lxor a b : N.double (N.lxor a b) = N.lxor (N.double a) (N.double b).
Proof. destruct a, b; reflexivity. Qed.
Lemma succ_double_lxor a : N.succ_double a = N.lxor 1 (N.double a).
Proof. destruct a; reflexivity. Qed.
Lemma lxor_swap4 a b c d : N.lxor (N.lxor a b) (N.lxor c d) = N.lxor (N.lxor a c) (N.lxor b d).
Proof.
  rewrite !N.lxor_assoc. f_equal. rewrite <- !N.lxor_assoc. f_equal. apply N.lxor_comm.
Qed.
(** Equality of two exclusive-ors of the same terms. *)
Ltac lxor_ring := apply N.bits_inj; intro; rewrite ?N.lxor_spec;
  repeat match goal with |- context [N.testbit ?a ?k] => destruct (N.testbit a k) end; reflexivity.
Lemma bin_ind (P : N -> Prop) :
  P 0 -> (forall n, P n -> P (N.double n)) -> (forall n, P n -> P (N.lxor 1 (N.double n))) -> forall n, P n.
Proof.
  intros H0 H1 H2 n. induction n using N.binary_ind; auto. rewrite succ_double_lxor. auto.
Qed.

Lemma clmul_0_l b : clmul 0 b = 0.
Proof. destruct b as [|b]; [reflexivity|]. cbn. induction b; cbn; try rewrite IHb; reflexivity. Qed.
Lemma clmul_double_r a b : clmul a (N.double b) = N.double (clmul a b).
Proof. destruct b; reflexivity. Qed.
Lemma clmul_succ_r a b : clmul a (N.lxor 1 (N.double b)) = N.lxor a (N.double (clmul a b)).
Proof. rewrite <- succ_double_lxor. destruct b; cbn; [rewrite N.lxor_0_r|]; reflexivity. Qed.
Lemma clmul_1_r a : clmul a 1 = a.
Proof. reflexivity. Qed.
Lemma clmul_1_l b : clmul 1 b = b.
Proof.
  induction b using bin_ind; [reflexivity|rewrite clmul_double_r, IHb; reflexivity|].
  rewrite clmul_succ_r, IHb. reflexivity.
Qed.
Lemma clmul_lxor_l a a' b : clmul (N.lxor a a') b = N.lxor (clmul a b) (clmul a' b).
Proof.
  induction b using bin_ind; [reflexivity|rewrite !clmul_double_r, IHb; apply double_lxor|].
  rewrite !clmul_succ_r, IHb, double_lxor. apply lxor_swap4.
Qed.
Lemma clmul_double_l a b : clmul (N.double a) b = N.double (clmul a b).
Proof.
  induction b using bin_ind; [reflexivity|rewrite !clmul_double_r, IHb; reflexivity|].
  rewrite !clmul_succ_r, IHb, double_lxor. reflexivity.
Qed.
Lemma clmul_comm a b : clmul a b = clmul b a.
Proof.
  induction a using bin_ind; [apply clmul_0_l|rewrite clmul_double_l, clmul_double_r, IHa; reflexivity|].
  rewrite clmul_lxor_l, clmul_double_l, clmul_succ_r, IHa, clmul_1_l. reflexivity.
Qed.
Lemma clmul_lxor_r a b b' : clmul a (N.lxor b b') = N.lxor (clmul a b) (clmul a b').
Proof. rewrite !(clmul_comm a). apply clmul_lxor_l. Qed.
Lemma clmul_assoc a b c : clmul (clmul a b) c = clmul a (clmul b c).
Proof.
  induction c using bin_ind.
  - cbn. reflexivity.
  - rewrite !clmul_double_r, IHc. reflexivity.
  - rewrite !clmul_succ_r, clmul_lxor_r, clmul_double_r, IHc. reflexivity.
Qed.

Lemma red_lxor d p a b : red d p (N.lxor a b) = N.lxor (red d p a) (red d p b).
Proof.
  unfold red. rewrite N.lxor_spec. destruct (N.testbit a d), (N.testbit b d); cbn.
  - rewrite lxor_swap4, N.lxor_nilpotent, N.lxor_0_r. reflexivity.
  - rewrite !N.lxor_assoc. f_equal. apply N.lxor_comm.
  - rewrite !N.lxor_assoc. reflexivity.
  - reflexivity.
Qed.
Lemma red_0 d p : red d p 0 = 0.
Proof. unfold red. rewrite N.bits_0. reflexivity. Qed.
Lemma pmod_double d p x : pmod d p (N.double x) = red d p (N.double (pmod d p x)).
Proof. destruct x; [change (0 = red d p 0); rewrite red_0; reflexivity|reflexivity]. Qed.
Lemma pmod_succ d p x :
  pmod d p (N.lxor 1 (N.double x)) = red d p (N.lxor 1 (N.double (pmod d p x))).
Proof. rewrite <- succ_double_lxor. destruct x; reflexivity. Qed.
Lemma pmod_lxor d p x y : pmod d p (N.lxor x y) = N.lxor (pmod d p x) (pmod d p y).
Proof.
  revert y. induction x using bin_ind; intros y.
  - cbn [N.lxor]. destruct y; reflexivity.
  - induction y using bin_ind; [rewrite !N.lxor_0_r; reflexivity| |].
    + rewrite <- double_lxor, !pmod_double, IHx, double_lxor, red_lxor. reflexivity.
    + rewrite N.lxor_comm, N.lxor_assoc, <- double_lxor, pmod_succ, pmod_double, pmod_succ.
      rewrite (N.lxor_comm y x), IHx, double_lxor, !red_lxor.
      lxor_ring.
  - induction y using bin_ind; [rewrite !N.lxor_0_r; reflexivity| |].
    + rewrite N.lxor_assoc, <- double_lxor, !pmod_succ, pmod_double, IHx, double_lxor, !red_lxor.
      rewrite N.lxor_assoc. reflexivity.
    + rewrite lxor_swap4, N.lxor_nilpotent, N.lxor_0_l, <- double_lxor, pmod_double, !pmod_succ, IHx.
      rewrite double_lxor, !red_lxor, lxor_swap4, N.lxor_nilpotent, N.lxor_0_l. reflexivity.
Qed.

(** p is a polynomial of degree d > 0. *)
Definition degree (d p : N) : Prop := 0 < d /\ 2 ^ d <= p < 2 ^ (d + 1).

Lemma testbit_high x d : x < 2 ^ d -> N.testbit x d = false.
Proof.
  intros H. destruct (N.eq_dec x 0) as [->|]; [apply N.bits_0|].
  apply N.bits_above_log2. apply N.log2_lt_pow2; lia.
Qed.
Lemma testbit_top x d : 2 ^ d <= x < 2 ^ (d + 1) -> N.testbit x d = true.
Proof.
  intros H. assert (E : N.log2 x = d).
  { apply N.log2_unique; [lia|]. rewrite <- N.add_1_r. exact H. }
  rewrite <- E. apply N.bit_log2. pose proof (N.pow_nonzero 2 d). lia.
Qed.
Lemma lxor_lt a b d : a < 2 ^ d -> b < 2 ^ d -> N.lxor a b < 2 ^ d.
Proof.
  intros Ha Hb. destruct (N.eq_dec (N.lxor a b) 0) as [->|E]; [lia|].
  apply N.log2_lt_pow2; [lia|]. pose proof (N.log2_lxor a b).
  destruct (N.eq_dec a 0) as [->|Za]; [rewrite N.lxor_0_l in *; apply N.log2_lt_pow2; lia|].
  destruct (N.eq_dec b 0) as [->|Zb]; [rewrite N.lxor_0_r in *; apply N.log2_lt_pow2; lia|].
  apply N.log2_lt_pow2 in Ha, Hb; lia.
Qed.
Lemma lt_pow2_testbit x d : x < 2 ^ (d + 1) -> N.testbit x d = false -> x < 2 ^ d.
Proof.
  intros H T. destruct (N.lt_ge_cases x (2 ^ d)); [auto|]. rewrite testbit_top in T; [discriminate|lia].
Qed.
Lemma red_lt d p r : degree d p -> r < 2 ^ (d + 1) -> red d p r < 2 ^ d.
Proof.
  intros [D P] R. unfold red. destruct (N.testbit r d) eqn:T.
  - apply lt_pow2_testbit; [apply lxor_lt; lia|]. rewrite N.lxor_spec, T, testbit_top by auto. reflexivity.
  - apply lt_pow2_testbit; auto.
Qed.
Lemma pow_gt1 d : 0 < d -> 1 < 2 ^ d.
Proof. intros. apply N.pow_gt_1; lia. Qed.
Lemma double_lt r d : r < 2 ^ d -> N.double r < 2 ^ (d + 1).
Proof. rewrite N.pow_add_r, N.double_spec. change (2 ^ 1) with 2. lia. Qed.
Lemma pmod_lt d p x : degree d p -> pmod d p x < 2 ^ d.
Proof.
  intros D. induction x using bin_ind.
  - cbn. pose proof (N.pow_nonzero 2 d). lia.
  - rewrite pmod_double. apply red_lt; auto. apply double_lt; auto.
  - rewrite pmod_succ. apply red_lt; auto. apply lxor_lt; [|apply double_lt; auto].
    apply pow_gt1. lia.
Qed.
Lemma red_small d p r : r < 2 ^ d -> red d p r = r.
Proof. intros H. unfold red. rewrite testbit_high by auto. reflexivity. Qed.
Lemma pmod_small d p x : degree d p -> x < 2 ^ d -> pmod d p x = x.
Proof.
  intros D. induction x using bin_ind; intros H; [reflexivity| |].
  - rewrite pmod_double, IHx; [apply red_small; auto|]. rewrite N.double_spec in H. lia.
  - rewrite pmod_succ, IHx; [apply red_small; auto|].
    rewrite <- succ_double_lxor, N.succ_double_spec in H. lia.
Qed.
Lemma pmod_red d p x : degree d p -> x < 2 ^ (d + 1) -> pmod d p x = red d p x.
Proof.
  intros D. destruct x using bin_ind; intros H; [symmetry; apply red_0| |].
  - rewrite pmod_double, pmod_small; auto. rewrite N.double_spec, N.pow_add_r in H.
    change (2 ^ 1) with 2 in H. lia.
  - rewrite pmod_succ, pmod_small; auto.
    rewrite <- succ_double_lxor, N.succ_double_spec, N.pow_add_r in H. change (2 ^ 1) with 2 in H. lia.
Qed.
Lemma pmod_self d p : degree d p -> pmod d p p = 0.
Proof.
  intros D. rewrite pmod_red; auto; [|apply D]. unfold red. rewrite testbit_top by apply D.
  apply N.lxor_nilpotent.
Qed.
Lemma pmod_multiple d p q : degree d p -> pmod d p (clmul p q) = 0.
Proof.
  intros D. induction q using bin_ind; [reflexivity| |].
  - rewrite clmul_double_r, pmod_double, IHq. apply red_0.
  - rewrite clmul_succ_r, pmod_lxor, pmod_self, pmod_double, IHq by auto. apply red_0.
Qed.

(** [pmod d p x] is the remainder of x divided by p: of degree below d, and differing from x by a
    multiple of p. *)
Lemma red_quot d p r : exists q, r = N.lxor (clmul q p) (red d p r).
Proof.
  unfold red. destruct (N.testbit r d).
  - exists 1. rewrite clmul_1_l, (N.lxor_comm r), <- N.lxor_assoc, N.lxor_nilpotent, N.lxor_0_l. reflexivity.
  - exists 0. rewrite clmul_0_l. reflexivity.
Qed.
Theorem pmod_spec d p x : degree d p -> (exists q, x = N.lxor (clmul q p) (pmod d p x)) /\ pmod d p x < 2 ^ d.
Proof.
  intros D. split; [|apply pmod_lt; auto]. induction x using bin_ind; [exists 0; rewrite clmul_0_l; reflexivity| |].
  - destruct IHx as [q E]. rewrite pmod_double.
    destruct (red_quot d p (N.double (pmod d p x))) as [q' E'].
    exists (N.lxor (N.double q) q'). rewrite clmul_lxor_l, N.lxor_assoc, <- E', clmul_double_l, <- double_lxor, <- E.
    reflexivity.
  - destruct IHx as [q E]. rewrite pmod_succ.
    destruct (red_quot d p (N.lxor 1 (N.double (pmod d p x)))) as [q' E'].
    exists (N.lxor (N.double q) q'). rewrite clmul_lxor_l, N.lxor_assoc, <- E', clmul_double_l.
    rewrite <- N.lxor_assoc, (N.lxor_comm _ 1), N.lxor_assoc, <- double_lxor, <- E. reflexivity.
Qed.
Lemma pmod_mul_l d p a b : degree d p -> pmod d p (clmul (pmod d p a) b) = pmod d p (clmul a b).
Proof.
  intros D. destruct (pmod_spec d p a D) as [[q E] _]. rewrite E at 2.
  rewrite clmul_lxor_l, pmod_lxor, (clmul_comm q p), clmul_assoc, pmod_multiple, N.lxor_0_l; auto.
Qed.

(** ** The ring GF(2)[x]/(p) *)
Lemma gfmul_comm d p a b : gfmul d p a b = gfmul d p b a.
Proof. unfold gfmul. rewrite clmul_comm. reflexivity. Qed.
Lemma gfmul_lxor_l d p a b c : gfmul d p (N.lxor a b) c = N.lxor (gfmul d p a c) (gfmul d p b c).
Proof. unfold gfmul. rewrite clmul_lxor_l, pmod_lxor. reflexivity. Qed.
Lemma gfmul_lxor_r d p a b c : gfmul d p c (N.lxor a b) = N.lxor (gfmul d p c a) (gfmul d p c b).
Proof. unfold gfmul. rewrite clmul_lxor_r, pmod_lxor. reflexivity. Qed.
Lemma gfmul_assoc d p a b c : degree d p -> gfmul d p (gfmul d p a b) c = gfmul d p a (gfmul d p b c).
Proof.
  intros D. unfold gfmul. rewrite pmod_mul_l, clmul_assoc by auto.
  rewrite (clmul_comm a (pmod _ _ _)), pmod_mul_l, (clmul_comm _ a) by auto. reflexivity.
Qed.
Lemma gfmul_1_l d p a : degree d p -> a < 2 ^ d -> gfmul d p 1 a = a.
Proof. intros. unfold gfmul. rewrite clmul_1_l. apply pmod_small; auto. Qed.
Lemma gfmul_0_l d p a : gfmul d p 0 a = 0.
Proof. unfold gfmul. rewrite clmul_0_l. reflexivity. Qed.
Lemma gfmul_lt d p a b : degree d p -> gfmul d p a b < 2 ^ d.
Proof. intros. apply pmod_lt; auto. Qed.
