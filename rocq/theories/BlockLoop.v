(** The loop [while (length >= n) { step(block); block += n; length -= n; }] shared by the
    hash and MAC update functions, and the cut of a message into whole blocks and a tail. *)
From Verif Require Import Bytes BytesProofs.

Fixpoint while_blocks {A} (fuel n : nat) (step : A -> list N -> A) (a : A) (l : list N) : A * list N :=
  match fuel with
  | O => (a, l)
  | S fuel' =>
      if (n <=? length l)%nat then while_blocks fuel' n step (step a (firstn n l)) (skipn n l)
      else (a, l)
  end.

(** Whole blocks of a message, and what is left over. *)
Definition full (n : nat) (l : list N) : list N := firstn (n * (length l / n)) l.
Definition tail (n : nat) (l : list N) : list N := skipn (n * (length l / n)) l.

Lemma full_tail n l : full n l ++ tail n l = l.
Proof. apply firstn_skipn. Qed.
Lemma full_length n l : (0 < n)%nat -> length (full n l) = (n * (length l / n))%nat.
Proof. intros. unfold full. rewrite firstn_length. pose proof (Nat.mul_div_le (length l) n). lia. Qed.
Lemma tail_length n l : (0 < n)%nat -> length (tail n l) = (length l mod n)%nat.
Proof. intros. unfold tail. rewrite skipn_length, (Nat.mod_eq (length l) n); lia. Qed.
Lemma tail_lt n l : (0 < n)%nat -> (length (tail n l) < n)%nat.
Proof. intros. rewrite tail_length; auto. apply Nat.mod_upper_bound. lia. Qed.
Lemma full_mod n l : (0 < n)%nat -> (length (full n l) mod n = 0)%nat.
Proof. intros. rewrite full_length; auto. rewrite Nat.mul_comm. apply Nat.mod_mul. lia. Qed.

Lemma cut_unique n a t : (0 < n)%nat -> (length a mod n = 0)%nat -> (length t < n)%nat ->
  full n (a ++ t) = a /\ tail n (a ++ t) = t.
Proof.
  intros Hn Ha Ht. unfold full, tail.
  assert (E : (n * (length (a ++ t) / n) = length a)%nat).
  { rewrite app_length. apply Nat.mod_divides in Ha; [|lia]. destruct Ha as [k ->].
    rewrite (Nat.mul_comm n k), Nat.div_add_l by lia. rewrite (Nat.div_small _ _ Ht). lia. }
  rewrite E. split; [apply firstn_app_exact|apply skipn_app_exact]; auto.
Qed.
Lemma full_app n a l : (0 < n)%nat -> (length a mod n = 0)%nat -> full n (a ++ l) = a ++ full n l.
Proof.
  intros Hn Ha. rewrite <- (full_tail n l) at 1. rewrite app_assoc. apply cut_unique; auto.
  - rewrite app_length, Nat.add_mod, Ha, full_mod by lia. apply Nat.mod_0_l. lia.
  - apply tail_lt; auto.
Qed.
Lemma tail_app n a l : (0 < n)%nat -> (length a mod n = 0)%nat -> tail n (a ++ l) = tail n l.
Proof.
  intros Hn Ha. rewrite <- (full_tail n l) at 1. rewrite app_assoc. apply cut_unique; auto.
  - rewrite app_length, Nat.add_mod, Ha, full_mod by lia. apply Nat.mod_0_l. lia.
  - apply tail_lt; auto.
Qed.
Lemma full_short n l : (length l < n)%nat -> full n l = nil.
Proof. intros. unfold full. rewrite Nat.div_small by auto. rewrite Nat.mul_0_r. reflexivity. Qed.
Lemma tail_short n l : (length l < n)%nat -> tail n l = l.
Proof. intros. unfold tail. rewrite Nat.div_small by auto. rewrite Nat.mul_0_r. reflexivity. Qed.
Lemma full_exact n l : (0 < n)%nat -> (length l mod n = 0)%nat -> full n l = l /\ tail n l = nil.
Proof. intros. destruct (cut_unique n l nil) as [A B]; auto. rewrite app_nil_r in *. auto. Qed.

Lemma while_blocks_spec {A} n (step : A -> list N -> A) : (0 < n)%nat ->
  forall fuel a l, (length l <= fuel)%nat ->
  while_blocks fuel n step a l = (fold_left step (blocks n (full n l)) a, tail n l).
Proof.
  intros Hn. induction fuel as [|fuel IH]; intros a l Hl.
  - destruct l; [|simpl in Hl; lia]. cbn [while_blocks]. rewrite full_short, tail_short by (simpl; lia). reflexivity.
  - cbn [while_blocks]. destruct (n <=? length l)%nat eqn:E.
    + apply Nat.leb_le in E. rewrite IH by (rewrite skipn_length; lia).
      assert (L : length (firstn n l) = n) by (rewrite firstn_length; lia).
      assert (M : (length (firstn n l) mod n = 0)%nat) by (rewrite L; apply Nat.mod_same; lia).
      rewrite <- (firstn_skipn n l) at 4 5. rewrite full_app, tail_app by auto.
      rewrite blocks_cons by auto. reflexivity.
    + apply Nat.leb_gt in E. rewrite full_short, tail_short by auto. reflexivity.
Qed.
