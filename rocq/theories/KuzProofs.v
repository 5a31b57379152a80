(** The table-driven Kuznyechik of gost_grasshopper_core.c computes GOST R 34.12-2015. *)
From Verif Require Import Bytes BytesProofs Gf2 KuzTables KuzModel KuzSpec.
From Verif Require StreebogSpec.

Definition blk16 (x : list N) : Prop := length x = 16%nat /\ bytes x.

Definition all256 : list N := map N.of_nat (seq 0 256).
Lemma all256_in b : b < 256 -> In b all256.
Proof. intros H. unfold all256. apply in_map_iff. exists (N.to_nat b). split; [lia|]. apply in_seq. lia. Qed.
Lemma forall256 (P : N -> bool) : forallb P all256 = true -> forall b, b < 256 -> P b = true.
Proof. intros H b Hb. rewrite forallb_forall in H. apply H. apply all256_in; auto. Qed.
Lemma forall_table (P : nat -> N -> bool) :
  forallb (fun j => forallb (P j) all256) (seq 0 16) = true ->
  forall j b, (j < 16)%nat -> b < 256 -> P j b = true.
Proof.
  intros H j b Hj Hb. rewrite forallb_forall in H. specialize (H j ltac:(apply in_seq; lia)).
  apply (forall256 (P j)); auto.
Qed.

(** ** The field tables *)
Lemma degree8 : degree 8 0x1c3.
Proof. split; [reflexivity|split; [vm_compute; discriminate|reflexivity]]. Qed.
(** The tables are powers and logarithms to the base x. *)
Lemma galois_check :
  forallb (fun i => get grasshopper_galois_alpha_to (i + 1) =? mul8 2 (get grasshopper_galois_alpha_to i)) (map N.of_nat (seq 0 254)) = true /\
  get grasshopper_galois_alpha_to 0 = 1 /\ mul8 2 (get grasshopper_galois_alpha_to 254) = 1 /\
  forallb (fun x => (x =? 0) || ((get grasshopper_galois_index_of x <? 255) &&
     (get grasshopper_galois_alpha_to (get grasshopper_galois_index_of x) =? x))) all256 = true.
Proof. split; [|split; [|split]]; vm_compute; reflexivity. Qed.
Definition xpow (n : nat) : N := Nat.iter n (mul8 2) 1.
Lemma xpow_lt n : xpow n < 256.
Proof. destruct n; [reflexivity|]. apply (gfmul_lt 8 0x1c3). exact degree8. Qed.
Lemma xpow_add a b : xpow (a + b) = mul8 (xpow a) (xpow b).
Proof.
  induction a as [|a IH].
  - symmetry. apply (gfmul_1_l 8 0x1c3); [exact degree8|exact (xpow_lt b)].
  - change (xpow (S a + b)) with (mul8 2 (xpow (a + b))). change (xpow (S a)) with (mul8 2 (xpow a)). rewrite IH.
    symmetry. apply (gfmul_assoc 8 0x1c3). exact degree8.
Qed.
Lemma alpha_xpow n : (n < 255)%nat -> get grasshopper_galois_alpha_to (N.of_nat n) = xpow n.
Proof.
  destruct galois_check as (C1 & C2 & _). induction n as [|n IH]; intros H; [exact C2|].
  rewrite forallb_forall in C1. specialize (C1 (N.of_nat n)). cbv beta in C1.
  rewrite N.eqb_eq in C1. change (xpow (S n)) with (mul8 2 (xpow n)). rewrite <- IH by lia.
  rewrite <- C1; [f_equal; lia|]. apply in_map, in_seq. lia.
Qed.
Lemma xpow_255 : xpow 255 = 1.
Proof.
  destruct galois_check as (_ & _ & C3 & _). change (xpow 255) with (mul8 2 (xpow 254)).
  rewrite <- (alpha_xpow 254) by lia. exact C3.
Qed.
Lemma xpow_mod n : xpow (n mod 255) = xpow n.
Proof.
  rewrite (Nat.div_mod n 255) at 2 by lia. rewrite xpow_add.
  assert (Q : forall q, xpow (255 * q) = 1).
  { induction q as [|q IH]; [rewrite Nat.mul_0_r; reflexivity|]. replace (255 * S q)%nat with (255 + 255 * q)%nat by lia.
    rewrite xpow_add, IH, xpow_255. apply (gfmul_1_l 8 0x1c3); [exact degree8|reflexivity]. }
  rewrite Q. symmetry. apply (gfmul_1_l 8 0x1c3); [exact degree8|apply xpow_lt].
Qed.
Lemma index_facts x : 0 < x -> x < 256 -> get grasshopper_galois_index_of x < 255 /\
  xpow (N.to_nat (get grasshopper_galois_index_of x)) = x.
Proof.
  intros H0 Hx. destruct galois_check as (_ & _ & _ & C4). pose proof (forall256 _ C4 x Hx) as C. cbv beta in C.
  replace (x =? 0) with false in C by (symmetry; apply N.eqb_neq; lia). cbn [orb] in C. apply andb_prop in C as [C5 C6].
  apply N.ltb_lt in C5. apply N.eqb_eq in C6. split; [exact C5|]. rewrite <- alpha_xpow by lia. rewrite N2Nat.id. exact C6.
Qed.
Lemma galois_mul_spec x y : x < 256 -> y < 256 -> grasshopper_galois_mul x y = mul8 x y.
Proof.
  intros Hx Hy. unfold grasshopper_galois_mul. destruct (N.eqb_spec x 0) as [->|Nx].
  - symmetry. apply (gfmul_0_l 8 0x1c3).
  - destruct (N.eqb_spec y 0) as [->|Ny]; cbn [negb andb].
    + symmetry. unfold mul8. rewrite gfmul_comm. apply (gfmul_0_l 8 0x1c3).
    + destruct (index_facts x ltac:(lia) Hx) as [I1 J1]. destruct (index_facts y ltac:(lia) Hy) as [I2 J2].
      set (i := get grasshopper_galois_index_of x) in *. set (j := get grasshopper_galois_index_of y) in *. clearbody i j.
      pose proof (N.mod_lt (i + j) 255 ltac:(discriminate)) as M.
      rewrite <- (N2Nat.id ((i + j) mod 255)), alpha_xpow by lia.
      replace (N.to_nat ((i + j) mod 255)) with ((N.to_nat i + N.to_nat j) mod 255)%nat.
      * rewrite xpow_mod, xpow_add, J1, J2. reflexivity.
      * rewrite N2Nat.inj_mod, N2Nat.inj_add. reflexivity.
Qed.
Lemma mul8_comm a b : mul8 a b = mul8 b a. Proof. apply gfmul_comm. Qed.
Lemma mul8_lxor c a b : mul8 c (N.lxor a b) = N.lxor (mul8 c a) (mul8 c b). Proof. apply gfmul_lxor_r. Qed.
Lemma mul8_1 a : a < 256 -> mul8 1 a = a.
Proof. intros H. apply (gfmul_1_l 8 0x1c3); [exact degree8|exact H]. Qed.
Lemma mul8_0 c : mul8 c 0 = 0. Proof. reflexivity. Qed.
Lemma mul8_lt a b : mul8 a b < 256.
Proof. apply (gfmul_lt 8 0x1c3). exact degree8. Qed.
Lemma lvec_coeffs : grasshopper_lvec = l_coeffs. Proof. reflexivity. Qed.
Lemma pi_tables : grasshopper_pi = StreebogSpec.pi_table. Proof. reflexivity. Qed.

Lemma pi_check : forallb (fun b => (get grasshopper_pi_inv b =? pi' b) && (pi' (pi b) =? b) && (pi (pi' b) =? b)
                                   && (pi b <? 256) && (pi' b <? 256)) all256 = true.
Proof. vm_compute. reflexivity. Qed.
Lemma pi_facts b : b < 256 -> get grasshopper_pi_inv b = pi' b /\ pi' (pi b) = b /\ pi (pi' b) = b /\ pi b < 256 /\ pi' b < 256.
Proof.
  intros Hb.
  assert (H := forall256 _ pi_check b Hb). cbv beta in H.
  rewrite !andb_true_iff, !N.eqb_eq, !N.ltb_lt in H. tauto.
Qed.
Opaque mul8.
#[global] Opaque pi pi' grasshopper_galois_mul.

(** ** Linear maps *)
Lemma dot_xorl cs : forall a b, length a = length cs -> length b = length cs ->
  dot cs (xorl a b) = N.lxor (dot cs a) (dot cs b).
Proof.
  induction cs as [|c cs IH]; intros [|x a] [|y b] Ha Hb; try discriminate; [reflexivity|].
  cbn [xorl dot]. rewrite mul8_lxor, IH by (cbn in *; lia). apply lxor_swap4.
Qed.
Lemma dot_lt cs : forall a, dot cs a < 256.
Proof.
  induction cs as [|c cs IH]; intros [|x a]; try reflexivity. cbn [dot]. apply lxor_byte; [apply mul8_lt|apply IH].
Qed.
Ltac list16 x H :=
  do 16 (destruct x as [|? x]; [discriminate H|]); destruct x; [|discriminate H].

Lemma R_blk x : blk16 x -> blk16 (R_ x).
Proof.
  intros [L B]. split; [unfold R_; cbn [length]; rewrite firstn_length; lia|].
  constructor; [apply dot_lt|apply bytes_firstn; auto].
Qed.
Lemma R'_blk x : blk16 x -> blk16 (R' x).
Proof.
  intros [L B]. split; [unfold R'; rewrite app_length, skipn_length; cbn [length]; lia|].
  apply bytes_app; [apply bytes_skipn; auto|]. constructor; [apply dot_lt|constructor].
Qed.
Lemma iter_inv {A} (P : A -> Prop) (f : A -> A) n x : (forall x, P x -> P (f x)) -> P x -> P (Nat.iter n f x).
Proof. intros H Hx. induction n; [exact Hx|apply H; exact IHn]. Qed.
Lemma L_blk x : blk16 x -> blk16 (L_ x).
Proof. apply iter_inv. apply R_blk. Qed.
Lemma L'_blk x : blk16 x -> blk16 (L' x).
Proof. apply iter_inv. apply R'_blk. Qed.
Lemma xor_blk x y : blk16 x -> blk16 y -> blk16 (xorl x y).
Proof. intros [L B] [L' B']. split; [rewrite xorl_length; lia|apply xorl_bytes; auto]. Qed.
Lemma S_blk x : blk16 x -> blk16 (S_ x).
Proof.
  intros [L B]. split; [unfold S_; rewrite map_length; auto|]. unfold S_. clear L.
  induction B as [|b x Hb B IH]; [constructor|]. constructor; [apply (pi_facts b); exact Hb|exact IH].
Qed.
Lemma S'_blk x : blk16 x -> blk16 (S' x).
Proof.
  intros [L B]. split; [unfold S'; rewrite map_length; auto|]. unfold S'. clear L.
  induction B as [|b x Hb B IH]; [constructor|]. constructor; [apply (pi_facts b); exact Hb|exact IH].
Qed.
Lemma S'_S x : bytes x -> S' (S_ x) = x.
Proof.
  unfold S', S_. induction 1 as [|b x Hb B IH]; [reflexivity|]. cbn [map].
  destruct (pi_facts b Hb) as (_ & -> & _). rewrite IH. reflexivity.
Qed.
Lemma S_S' x : bytes x -> S_ (S' x) = x.
Proof.
  unfold S', S_. induction 1 as [|b x Hb B IH]; [reflexivity|]. cbn [map].
  destruct (pi_facts b Hb) as (_ & _ & -> & _). rewrite IH. reflexivity.
Qed.

Lemma R_lin x y : length x = 16%nat -> length y = 16%nat -> R_ (xorl x y) = xorl (R_ x) (R_ y).
Proof.
  intros Hx Hy. unfold R_, ell. rewrite dot_xorl by (rewrite ?Hx, ?Hy; reflexivity).
  cbn [xorl]. rewrite xorl_firstn. reflexivity.
Qed.
Lemma R'_lin x y : length x = 16%nat -> length y = 16%nat -> R' (xorl x y) = xorl (R' x) (R' y).
Proof.
  intros Hx Hy. unfold R', ell.
  rewrite xorl_app by (rewrite !skipn_length; lia). rewrite xorl_skipn. f_equal. cbn [xorl]. f_equal.
  rewrite <- dot_xorl by (rewrite app_length, skipn_length, firstn_length; change (length l_coeffs) with 16%nat; lia).
  rewrite xorl_app by (rewrite !skipn_length; lia). rewrite xorl_skipn, xorl_firstn. reflexivity.
Qed.
Lemma iter_lin f n : (forall x, length x = 16%nat -> length (f x) = 16%nat) ->
  (forall x y, length x = 16%nat -> length y = 16%nat -> f (xorl x y) = xorl (f x) (f y)) ->
  forall x y, length x = 16%nat -> length y = 16%nat ->
  Nat.iter n f (xorl x y) = xorl (Nat.iter n f x) (Nat.iter n f y).
Proof.
  intros HL Hf x y Hx Hy.
  assert (G : forall n z, length z = 16%nat -> length (Nat.iter n f z) = 16%nat).
  { intros m z Hz. induction m; [exact Hz|apply HL; exact IHm]. }
  induction n; [reflexivity|]. cbn [Nat.iter nat_rect].
  change (f (Nat.iter n f (xorl x y)) = xorl (f (Nat.iter n f x)) (f (Nat.iter n f y))).
  rewrite IHn. apply Hf; apply G; auto.
Qed.
Lemma R_len x : length x = 16%nat -> length (R_ x) = 16%nat.
Proof. intros H. unfold R_. cbn [length]. rewrite firstn_length. lia. Qed.
Lemma R'_len x : length x = 16%nat -> length (R' x) = 16%nat.
Proof. intros H. unfold R'. rewrite app_length, skipn_length. cbn [length]. lia. Qed.
Lemma L_lin x y : length x = 16%nat -> length y = 16%nat -> L_ (xorl x y) = xorl (L_ x) (L_ y).
Proof. apply iter_lin; [apply R_len|apply R_lin]. Qed.
Lemma L'_lin x y : length x = 16%nat -> length y = 16%nat -> L' (xorl x y) = xorl (L' x) (L' y).
Proof. apply iter_lin; [apply R'_len|apply R'_lin]. Qed.

Definition ell15 (a : list N) : N := dot (firstn 15 l_coeffs) a.
Lemma dot_app cs cs' : forall a a', length a = length cs -> dot (cs ++ cs') (a ++ a') = N.lxor (dot cs a) (dot cs' a').
Proof.
  induction cs as [|c cs IH]; intros [|x a] a' H; try discriminate; [reflexivity|].
  cbn [app dot]. rewrite IH by (cbn in H; lia). symmetry. apply N.lxor_assoc.
Qed.
Lemma ell_snoc a x : length a = 15%nat -> x < 256 -> ell (a ++ [x]) = N.lxor (ell15 a) x.
Proof.
  intros L H. unfold ell, ell15. change l_coeffs with (firstn 15 l_coeffs ++ [1]) at 1.
  rewrite dot_app by (rewrite L; reflexivity). cbn [dot]. rewrite mul8_1, N.lxor_0_r by auto. reflexivity.
Qed.
Lemma R_snoc a x : length a = 15%nat -> x < 256 -> R_ (a ++ [x]) = N.lxor (ell15 a) x :: a.
Proof. intros L H. unfold R_. rewrite ell_snoc, firstn_app_exact by auto. reflexivity. Qed.
Lemma R'_cons a x : length a = 15%nat -> x < 256 -> R' (x :: a) = a ++ [N.lxor (ell15 a) x].
Proof. intros L H. unfold R'. cbn [skipn firstn]. rewrite ell_snoc by auto. reflexivity. Qed.
Lemma snoc16 x : blk16 x -> exists a y, x = a ++ [y] /\ length a = 15%nat /\ y < 256.
Proof.
  intros [L B]. exists (firstn 15 x), (nth 15 x 0). split; [|split].
  - list16 x L. reflexivity.
  - rewrite firstn_length. lia.
  - apply bytes_nth; auto.
Qed.
Lemma R'_R x : blk16 x -> R' (R_ x) = x.
Proof.
  intros H. destruct (snoc16 x H) as (a & y & -> & L & Hy). rewrite R_snoc, R'_cons by (auto; apply lxor_byte; auto; apply dot_lt).
  rewrite lxor_cancel_l. reflexivity.
Qed.
Lemma R_R' x : blk16 x -> R_ (R' x) = x.
Proof.
  intros [L B]. destruct x as [|y a]; [discriminate|]. apply Forall_cons_iff in B as [Hy B].
  assert (La : length a = 15%nat) by (cbn in L; lia).
  rewrite R'_cons, R_snoc by (auto; apply lxor_byte; auto; apply dot_lt). rewrite lxor_cancel_l. reflexivity.
Qed.
Lemma iter_succ_r {A} (f : A -> A) n x : Nat.iter (S n) f x = Nat.iter n f (f x).
Proof. induction n; [reflexivity|]. change (f (Nat.iter (S n) f x) = f (Nat.iter n f (f x))). rewrite IHn. reflexivity. Qed.
Lemma iter_cancel {A} (P : A -> Prop) f g n : (forall x, P x -> P (f x)) -> (forall x, P x -> g (f x) = x) ->
  forall x, P x -> Nat.iter n g (Nat.iter n f x) = x.
Proof.
  intros Hf Hc. induction n; intros x Hx; [reflexivity|].
  rewrite iter_succ_r. change (Nat.iter (S n) f x) with (f (Nat.iter n f x)).
  rewrite Hc by (apply iter_inv; auto). apply IHn; auto.
Qed.
Lemma L'_L x : blk16 x -> L' (L_ x) = x.
Proof. apply (iter_cancel blk16); [apply R_blk|apply R'_R]. Qed.
Lemma L_L' x : blk16 x -> L_ (L' x) = x.
Proof. apply (iter_cancel blk16); [apply R'_blk|apply R_R']. Qed.

(** ** The LFSR loops *)
Lemma l_round_R x : blk16 x -> l_round x = R_ x.
Proof.
  intros [L B]. list16 x L. repeat (apply Forall_cons_iff in B as [? B]).
  unfold l_round, R_, ell. rewrite lvec_coeffs. cbn [rev seq app fold_left nth set l_coeffs Nat.add firstn dot].
  rewrite !galois_mul_spec by (assumption || reflexivity).
  rewrite mul8_1, N.lxor_0_r by assumption. f_equal.
  rewrite !(mul8_comm _ 148), !(mul8_comm _ 32), !(mul8_comm _ 133), !(mul8_comm _ 16), !(mul8_comm _ 194),
    !(mul8_comm _ 192), !(mul8_comm _ 1), !(mul8_comm _ 251). rewrite !mul8_1 by assumption.
  repeat (rewrite N.lxor_comm; f_equal).
Qed.
Lemma l_inv_round_R' x : blk16 x -> l_inv_round x = R' x.
Proof.
  intros [L B]. list16 x L. repeat (apply Forall_cons_iff in B as [? B]).
  unfold l_inv_round, R', ell. rewrite lvec_coeffs. cbv [rev seq app fold_left nth set l_coeffs Nat.add firstn skipn dot].
  rewrite !galois_mul_spec by (assumption || reflexivity).
  rewrite mul8_1, N.lxor_0_r by assumption. do 16 f_equal.
  rewrite !(mul8_comm _ 148), !(mul8_comm _ 32), !(mul8_comm _ 133), !(mul8_comm _ 16), !(mul8_comm _ 194),
    !(mul8_comm _ 192), !(mul8_comm _ 1), !(mul8_comm _ 251). rewrite !mul8_1 by assumption.
  rewrite !N.lxor_assoc.
  match goal with |- N.lxor ?w _ = _ => rewrite (N.lxor_comm w) end. rewrite !N.lxor_assoc. reflexivity.
Qed.
Lemma iter_ext_inv {A} (P : A -> Prop) f g n x : (forall x, P x -> P (g x)) -> (forall x, P x -> f x = g x) -> P x ->
  Nat.iter n f x = Nat.iter n g x.
Proof.
  intros Hg He Hx. induction n; [reflexivity|].
  change (f (Nat.iter n f x) = g (Nat.iter n g x)). rewrite IHn. apply He. apply iter_inv; auto.
Qed.
Lemma grasshopper_l_spec x : blk16 x -> grasshopper_l x = L_ x.
Proof. apply (iter_ext_inv blk16); [apply R_blk|apply l_round_R]. Qed.
Lemma grasshopper_l_inv_spec x : blk16 x -> grasshopper_l_inv x = L' x.
Proof. apply (iter_ext_inv blk16); [apply R'_blk|apply l_inv_round_R']. Qed.
