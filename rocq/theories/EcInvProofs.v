(** The inversion chains compute x^(p-2), which is the inverse in the field of p elements. *)
From Coq Require Import ZArith Znumtheory Zpow_facts NArith List Bool Lia.
From Verif Require Import EcFormulaSpec EcLadderModel EcInvModel FieldZp ParamsModel.
Import ListNotations.

(** ** Exponents: the chain run on the exponents, unknown for what has not been set. *)
Definition oadd (a b : option N) : option N :=
  match a, b with Some a, Some b => Some (a + b)%N | _, _ => None end.
Definition exponent (f : ecp_file) : option N := fe_inv oadd f (fun _ => None) (Some 1%N).

Section Pow.
Context {A : Type}.
Variable mul : A -> A -> A.
Variable pow : N -> A.
Hypothesis pow_add : forall a b, mul (pow a) (pow b) = pow (a + b)%N.
Definition agrees (e : ireg -> option N) (m : ireg -> A) : Prop := forall r n, e r = Some n -> m r = pow n.
Lemma agrees_set e m d oe v : agrees e m -> (forall n, oe = Some n -> v = pow n) -> agrees (iset e d oe) (iset m d v).
Proof. intros G H r n. unfold iset. destruct (ireg_eqb d r); [apply H|apply G]. Qed.
Lemma oadd_pow e m a b : agrees e m -> forall n, oadd (e a) (e b) = Some n -> mul (m a) (m b) = pow n.
Proof.
  intros G n. unfold oadd. destruct (e a) as [x|] eqn:Ea; [|discriminate]. destruct (e b) as [y|] eqn:Eb; [|discriminate].
  intros H. assert (E : n = (x + y)%N) by congruence. rewrite E, (G _ _ Ea), (G _ _ Eb). apply pow_add.
Qed.
Lemma agrees_step e m i : agrees e m -> agrees (istep oadd e i) (istep mul m i).
Proof. intros G. destruct i; cbn [istep]; apply agrees_set; try exact G; apply oadd_pow; exact G. Qed.
Lemma agrees_rep n i : forall e m, agrees e m -> agrees (irep oadd n e i) (irep mul n m i).
Proof. induction n as [|n IH]; intros e m G; cbn [irep]; [exact G|]. apply IH, agrees_step, G. Qed.
Lemma agrees_run c : forall e m, agrees e m -> agrees (irun oadd c e) (irun mul c m).
Proof.
  unfold irun. induction c as [|[n i] c IH]; intros e m G; cbn [fold_left fst snd]; [exact G|].
  apply IH, agrees_rep, G.
Qed.
Theorem fe_inv_pow f junk n : exponent f = Some n -> fe_inv mul f junk (pow 1%N) = pow n.
Proof.
  intros E. unfold fe_inv. revert n E. unfold exponent, fe_inv.
  assert (G : agrees (iset (fun _ => None) (IT 1) (Some 1%N)) (iset junk (IT 1) (pow 1%N))).
  { apply agrees_set; [intros r n; discriminate|]. intros n H. congruence. }
  intros n E. exact (agrees_run (chain f) _ _ G IOut n E).
Qed.
End Pow.

(** ** The exponents are p - 2 *)
Definition nid_prime (nid : curve_nid) : Z :=
  match gost_nid2params nid with Some e => hex2bn (ep_p e) 0 | None => 0 end.
Lemma exponents : forall nid f, file_of nid = Some f ->
  exponent f = Some (Z.to_N (nid_prime nid - 2)) /\ (3 < nid_prime nid)%Z.
Proof.
  intros nid f H. destruct nid; cbn in H; try discriminate H; injection H as <-; (split; [vm_compute; reflexivity|reflexivity]).
Qed.

(** ** In the field *)
Section Field.
Variable p : Z.
Hypothesis P : prime p.
Definition rpow (x : residue p) (n : N) : residue p := res p (val p x ^ Z.of_N n).
Lemma rpow_add x a b : rmul p (rpow x a) (rpow x b) = rpow x (a + b).
Proof.
  apply residue_eq. cbn [val rpow res rmul]. rewrite <- Zmult_mod, N2Z.inj_add, Z.pow_add_r by lia. reflexivity.
Qed.
Lemma rpow_1 x : rpow x 1 = x.
Proof. unfold rpow. rewrite Z.pow_1_r. apply res_val. Qed.
Theorem fe_inv_inverse f junk x : (3 < p)%Z -> exponent f = Some (Z.to_N (p - 2)) ->
  fe_inv (rmul p) f junk x = rinv p x.
Proof.
  intros G E. pose proof (fe_inv_pow (rmul p) (rpow x) (rpow_add x) f junk _ E) as H. rewrite rpow_1 in H.
  rewrite H. unfold rpow, rinv. rewrite Z2N.id by lia. rewrite Zpow_mod_correct by lia.
  apply residue_eq. cbn [val res]. symmetry. apply Zmod_mod.
Qed.
Lemma rinv_0 : (3 < p)%Z -> rinv p (res p 0) = res p 0.
Proof.
  intros G. unfold rinv. rewrite Zpow_mod_correct by lia. apply residue_eq. cbn [val res].
  rewrite Zmod_0_l, Z.pow_0_l, !Zmod_0_l by lia. reflexivity.
Qed.
End Field.
