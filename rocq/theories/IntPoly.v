(** Numbers as lists of 63-bit machine integers, least significant first, for checking long lists of numbers by
    computation in the kernel.  A list stands for the value of the polynomial with these coefficients at 2^26.
    Nothing here is part of the model. *)
From Coq Require Import ZArith List Bool Lia Uint63 Zpow_facts.
Import ListNotations.
Local Open Scope Z_scope.

Definition LB : Z := 2 ^ 26.
Fixpoint peval (l : list int) : Z := match l with [] => 0 | x :: l' => to_Z x + LB * peval l' end.
(** Every coefficient is below k *)
Definition below (k : Z) (l : list int) : Prop := Forall (fun x => to_Z x < k) l.
Fixpoint belowb (k : int) (l : list int) : bool := match l with [] => true | x :: l' => (x <? k)%uint63 && belowb k l' end.
Lemma belowb_ok k l : belowb k l = true -> below (to_Z k) l.
Proof.
  induction l as [|x l IH]; cbn [belowb]; intros H; [constructor|].
  apply andb_true_iff in H. destruct H as [H1 H2]. apply ltb_spec in H1. constructor; [exact H1|apply IH, H2].
Qed.
Lemma below_le k k' l : below k l -> k <= k' -> below k' l.
Proof. intros H L. eapply Forall_impl; [|exact H]. cbn. intros. lia. Qed.
Lemma wB_val : wB = 2 ^ 63. Proof. reflexivity. Qed.
Lemma pos_int x : 0 <= to_Z x. Proof. apply to_Z_bounded. Qed.

(** Sums *)
Fixpoint ladd (a b : list int) : list int :=
  match a, b with
  | [], _ => b
  | _, [] => a
  | x :: a', y :: b' => (x + y)%uint63 :: ladd a' b'
  end.
Lemma add_int x y k m : to_Z x < k -> to_Z y < m -> k + m <= 2 ^ 63 -> to_Z (x + y)%uint63 = to_Z x + to_Z y.
Proof.
  intros X Y S. rewrite add_spec, wB_val. pose proof (pos_int x). pose proof (pos_int y). apply Z.mod_small. lia.
Qed.
Lemma ladd_ok a : forall b k m, below k a -> below m b -> k + m <= 2 ^ 63 -> 0 <= k -> 0 <= m ->
  peval (ladd a b) = peval a + peval b /\ below (k + m) (ladd a b).
Proof.
  induction a as [|x a IH]; intros b k m A Bm S K M.
  - cbn [ladd peval]. split; [lia|]. eapply below_le; [exact Bm|lia].
  - destruct b as [|y b].
    + cbn [ladd peval]. split; [lia|]. eapply below_le; [exact A|lia].
    + inversion A as [|? ? A1 A2]; subst. inversion Bm as [|? ? B1 B2]; subst.
      destruct (IH b k m A2 B2 S K M) as [E F]. cbn [ladd peval]. rewrite E, (add_int x y k m A1 B1 S). split; [ring|].
      constructor; [rewrite (add_int x y k m A1 B1 S); lia|exact F].
Qed.
(** Differences, limb by limb; every limb of the minuend is at least that of the subtrahend *)
Fixpoint psub (a b : list int) : list int :=
  match a, b with
  | x :: a', y :: b' => (x - y)%uint63 :: psub a' b'
  | _, _ => a
  end.
Fixpoint covers (a b : list int) : bool :=
  match a, b with
  | _, [] => true
  | [], _ :: _ => false
  | x :: a', y :: b' => (y <=? x)%uint63 && covers a' b'
  end.
Lemma psub_ok a : forall b k, below k a -> covers a b = true -> peval (psub a b) = peval a - peval b /\ below k (psub a b).
Proof.
  induction a as [|x a IH]; intros b k A C.
  - destruct b; [|discriminate C]. cbn. split; [reflexivity|constructor].
  - destruct b as [|y b]; cbn [psub peval covers] in *; [split; [lia|exact A]|].
    apply andb_true_iff in C. destruct C as [C1 C2]. apply leb_spec in C1. inversion A as [|? ? A1 A2]; subst.
    destruct (IH b k A2 C2) as [E F].
    assert (D : to_Z (x - y)%uint63 = to_Z x - to_Z y).
    { rewrite sub_spec. pose proof (to_Z_bounded x). pose proof (to_Z_bounded y). apply Z.mod_small. lia. }
    rewrite E, D. split; [ring|]. constructor; [rewrite D; pose proof (pos_int y); lia|exact F].
Qed.
(** Products *)
Fixpoint pscale (x : int) (b : list int) : list int := match b with [] => [] | y :: b' => (x * y)%uint63 :: pscale x b' end.
Fixpoint pmul (a b : list int) : list int := match a with [] => [] | x :: a' => ladd (pscale x b) (0%uint63 :: pmul a' b) end.
Lemma pscale_ok x b k m : to_Z x < k -> below m b -> 0 <= k -> 0 <= m -> k * m <= 2 ^ 63 ->
  peval (pscale x b) = to_Z x * peval b /\ below (k * m + 1) (pscale x b).
Proof.
  intros X H K M S. induction H as [|y b Y H IH]; cbn [pscale peval]; [split; [ring|constructor]|].
  destruct IH as [E F]. pose proof (pos_int x). pose proof (pos_int y).
  assert (D : to_Z (x * y)%uint63 = to_Z x * to_Z y).
  { rewrite mul_spec, wB_val. apply Z.mod_small. nia. }
  rewrite D, E. split; [ring|]. constructor; [rewrite D; nia|exact F].
Qed.
Lemma pmul_ok a b k m : below k a -> below m b -> 0 <= k -> 0 <= m ->
  Z.of_nat (length a) * (k * m + 1) + 1 <= 2 ^ 63 ->
  peval (pmul a b) = peval a * peval b /\ below (Z.of_nat (length a) * (k * m + 1) + 1) (pmul a b).
Proof.
  intros A Bm K M. induction A as [|x a X A IH]; intros S; cbn [pmul peval length]; [split; [ring|constructor]|].
  cbn [length] in S. rewrite Nat2Z.inj_succ in S |- *.
  assert (P0 : 0 <= k * m) by nia.
  destruct IH as [E F]; [lia|].
  destruct (pscale_ok x b k m X Bm K M) as [E1 F1]; [lia|].
  assert (F0 : below (Z.of_nat (length a) * (k * m + 1) + 1) (0%uint63 :: pmul a b)).
  { constructor; [rewrite to_Z_0; nia|exact F]. }
  destruct (ladd_ok _ _ _ _ F1 F0) as [E2 F2]; [nia|lia|nia|].
  rewrite E2. cbn [peval]. rewrite to_Z_0, E1, E. split; [ring|].
  eapply below_le; [exact F2|nia].
Qed.
(** Carries *)
Fixpoint pnorm (c : int) (l : list int) : list int :=
  match l with
  | [] => [c]
  | x :: l' => let s := (x + c)%uint63 in (s land 67108863)%uint63 :: pnorm (s >> 26)%uint63 l'
  end.
Lemma pnorm_ok l : forall c k, below k l -> to_Z c < 2 ^ 62 -> 0 <= k <= 2 ^ 62 -> peval (pnorm c l) = to_Z c + peval l.
Proof.
  induction l as [|x l IH]; intros c k H C K; cbn [pnorm peval]; [lia|].
  inversion H as [|? ? H1 H2]; subst.
  assert (D : to_Z (x + c)%uint63 = to_Z x + to_Z c) by (apply (add_int x c (2 ^ 62) (2 ^ 62)); lia).
  assert (SH : to_Z ((x + c) >> 26)%uint63 = (to_Z x + to_Z c) / LB) by (rewrite lsr_spec, D; reflexivity).
  assert (LO : to_Z ((x + c) land 67108863)%uint63 = (to_Z x + to_Z c) mod LB).
  { rewrite land_spec', D. change (to_Z 67108863%uint63) with (Z.ones 26). apply Z.land_ones. lia. }
  rewrite LO, (IH _ k H2), SH; [|rewrite SH; pose proof (pos_int x); pose proof (pos_int c); apply Z.div_lt_upper_bound; unfold LB; lia|exact K].
  pose proof (Z.div_mod (to_Z x + to_Z c) LB ltac:(discriminate)). lia.
Qed.
Fixpoint allzero (l : list int) : bool := match l with [] => true | x :: l' => (x =? 0)%uint63 && allzero l' end.
Lemma allzero_ok l : allzero l = true -> peval l = 0.
Proof.
  induction l as [|x l IH]; cbn [allzero peval]; intros H; [reflexivity|]. apply andb_true_iff in H. destruct H as [H1 H2].
  apply eqb_correct in H1. rewrite H1, to_Z_0, IH by exact H2. reflexivity.
Qed.
Fixpoint psame (a b : list int) : bool :=
  match a, b with
  | [], _ => allzero b
  | _, [] => allzero a
  | x :: a', y :: b' => (x =? y)%uint63 && psame a' b'
  end.
Lemma psame_ok a : forall b, psame a b = true -> peval a = peval b.
Proof.
  induction a as [|x a IH]; intros b H.
  - cbn [psame] in H. apply allzero_ok in H. rewrite H. reflexivity.
  - destruct b as [|y b]; [apply allzero_ok in H; rewrite H; reflexivity|].
    cbn [psame] in H. apply andb_true_iff in H. destruct H as [H1 H2]. apply eqb_correct in H1. subst.
    cbn [peval]. rewrite (IH b H2). reflexivity.
Qed.
Definition peq (a b : list int) : bool := psame (pnorm 0 a) (pnorm 0 b).
Lemma peq_ok a b k : below k a -> below k b -> 0 <= k <= 2 ^ 62 -> peq a b = true -> peval a = peval b.
Proof.
  intros A Bk K H. unfold peq in H. apply psame_ok in H.
  rewrite !(pnorm_ok _ _ k) in H; try assumption; rewrite ?to_Z_0; lia.
Qed.

(** Comparison of lists with coefficients below 2^26 *)
Fixpoint pcmp (a b : list int) : comparison :=
  match a, b with
  | [], _ => if allzero b then Eq else Lt
  | _, [] => if allzero a then Eq else Gt
  | x :: a', y :: b' =>
      match pcmp a' b' with
      | Eq => if (x =? y)%uint63 then Eq else if (x <? y)%uint63 then Lt else Gt
      | r => r
      end
  end.
Lemma peval_pos l : 0 <= peval l.
Proof. induction l as [|x l IH]; cbn [peval]; [lia|]. pose proof (pos_int x). unfold LB. lia. Qed.
Lemma allzero_no l : allzero l = false -> 0 < peval l.
Proof.
  induction l as [|x l IH]; cbn [allzero peval]; intros H; [discriminate|]. pose proof (pos_int x). pose proof (peval_pos l). unfold LB.
  destruct (x =? 0)%uint63 eqn:E; cbn [andb] in H; [specialize (IH H); lia|].
  apply eqb_false_spec in E. assert (to_Z x <> 0) by (intros Q; apply E; apply to_Z_inj; rewrite Q; reflexivity). lia.
Qed.
Lemma pcmp_ok a : forall b, below LB a -> below LB b -> (peval a ?= peval b) = pcmp a b.
Proof.
  induction a as [|x a IH]; intros b A Bb.
  - cbn [pcmp peval]. destruct (allzero b) eqn:E; [apply allzero_ok in E; rewrite E; reflexivity|].
    apply allzero_no in E. apply Z.compare_lt_iff. exact E.
  - destruct b as [|y b].
    + cbn [pcmp]. destruct (allzero (x :: a)) eqn:E; [apply allzero_ok in E; rewrite E; reflexivity|].
      apply allzero_no in E. apply Z.compare_gt_iff. exact E.
    + inversion A as [|? ? A1 A2]; subst. inversion Bb as [|? ? B1 B2]; subst. cbn [pcmp peval].
      rewrite <- (IH b A2 B2). pose proof (pos_int x). pose proof (pos_int y). unfold LB in *.
      destruct (Z.compare_spec (peval a) (peval b)) as [E|E|E].
      * rewrite E. destruct (x =? y)%uint63 eqn:Q.
        -- apply eqb_correct in Q. subst. apply Z.compare_refl.
        -- apply eqb_false_spec in Q. destruct (x <? y)%uint63 eqn:L.
           ++ apply ltb_spec in L. apply Z.compare_lt_iff. lia.
           ++ assert (~ to_Z x < to_Z y) by (intros X; apply ltb_spec in X; congruence).
              assert (to_Z x <> to_Z y) by (intros X; apply Q, to_Z_inj, X). apply Z.compare_gt_iff. lia.
      * apply Z.compare_lt_iff. lia.
      * apply Z.compare_gt_iff. lia.
Qed.
(** Two coefficients from one 52-bit number *)
Fixpoint unp (l : list int) : list int :=
  match l with [] => [] | x :: l' => (x land 67108863)%uint63 :: (x >> 26)%uint63 :: unp l' end.
(** A number of up to 63 bits times 2^w: its digits at the right place *)
Definition place (x : int) (z : nat) (m : int) : list int :=
  repeat 0%uint63 z ++ [(x land 67108863) * m; ((x >> 26) land 67108863) * m; (x >> 52) * m]%uint63.
Lemma peval_zeros z l : peval (repeat 0%uint63 z ++ l) = LB ^ Z.of_nat z * peval l.
Proof.
  induction z as [|z IH]; cbn [repeat app peval]; [change (Z.of_nat 0) with 0; rewrite Z.pow_0_r; ring|].
  rewrite IH, to_Z_0, Nat2Z.inj_succ, Z.pow_succ_r by lia. ring.
Qed.
Lemma below_zeros z l k : 0 < k -> below k l -> below k (repeat 0%uint63 z ++ l).
Proof.
  intros K H. apply Forall_app. split; [|exact H]. apply Forall_forall. intros x I. apply repeat_spec in I. subst. rewrite to_Z_0. exact K.
Qed.
Lemma mul_int x y k m : to_Z x < k -> to_Z y < m -> k * m <= 2 ^ 63 -> to_Z (x * y)%uint63 = to_Z x * to_Z y.
Proof. intros X Y S. pose proof (pos_int x). pose proof (pos_int y). rewrite mul_spec, wB_val. apply Z.mod_small. nia. Qed.
Lemma low26 x : to_Z (x land 67108863)%uint63 = to_Z x mod LB.
Proof. rewrite land_spec'. change (to_Z 67108863%uint63) with (Z.ones 26). apply Z.land_ones. lia. Qed.
Lemma place_ok x z m : to_Z m < 2 ^ 26 ->
  peval (place x z m) = to_Z x * (to_Z m * LB ^ Z.of_nat z) /\ below (2 ^ 52) (place x z m).
Proof.
  intros M. unfold place. pose proof (to_Z_bounded x) as X. rewrite wB_val in X.
  assert (A : to_Z (x land 67108863)%uint63 = to_Z x mod LB) by apply low26.
  assert (E1 : to_Z (x >> 26)%uint63 = to_Z x / LB) by (rewrite lsr_spec; reflexivity).
  assert (A2 : to_Z ((x >> 26) land 67108863)%uint63 = (to_Z x / LB) mod LB) by (rewrite low26, E1; reflexivity).
  assert (A3 : to_Z (x >> 52)%uint63 = to_Z x / LB / LB).
  { rewrite lsr_spec. change (to_Z 52%uint63) with 52. unfold LB. rewrite Z.div_div by lia. reflexivity. }
  assert (L : 0 < LB) by reflexivity.
  pose proof (Z.mod_pos_bound (to_Z x) LB L). pose proof (Z.mod_pos_bound (to_Z x / LB) LB L).
  assert (G : 0 <= to_Z x / LB / LB < 2 ^ 26).
  { split; [apply Z.div_pos; [apply Z.div_pos|]; lia|]. rewrite Z.div_div by lia. apply Z.div_lt_upper_bound; unfold LB; lia. }
  pose proof (pos_int m).
  assert (C1 : to_Z ((x land 67108863) * m)%uint63 = to_Z x mod LB * to_Z m).
  { rewrite (mul_int _ _ (2 ^ 26) (2 ^ 26)); [rewrite A; reflexivity|rewrite A; unfold LB in *; lia|exact M|lia]. }
  assert (C2 : to_Z (((x >> 26) land 67108863) * m)%uint63 = (to_Z x / LB) mod LB * to_Z m).
  { rewrite (mul_int _ _ (2 ^ 26) (2 ^ 26)); [rewrite A2; reflexivity|rewrite A2; unfold LB in *; lia|exact M|lia]. }
  assert (C3 : to_Z ((x >> 52) * m)%uint63 = to_Z x / LB / LB * to_Z m).
  { rewrite (mul_int _ _ (2 ^ 26) (2 ^ 26)); [rewrite A3; reflexivity|rewrite A3; lia|exact M|lia]. }
  split.
  - rewrite peval_zeros. cbn [peval]. rewrite C1, C2, C3.
    pose proof (Z.div_mod (to_Z x) LB ltac:(discriminate)) as D1. pose proof (Z.div_mod (to_Z x / LB) LB ltac:(discriminate)) as D2.
    set (q := to_Z x / LB) in *. set (r := to_Z x mod LB) in *. set (q2 := q / LB) in *. set (r2 := q mod LB) in *.
    rewrite D1 at 1. rewrite D2 at 1. ring.
  - apply below_zeros; [lia|]. unfold LB in *. repeat constructor; rewrite ?C1, ?C2, ?C3; nia.
Qed.
