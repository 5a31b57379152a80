(** The prime fields: residues modulo a prime, with the inverse given by Fermat's little theorem. *)
From Coq Require Import ZArith Znumtheory Zpow_facts List Permutation Lia Eqdep_dec Bool Field_theory.
From Verif Require Import EcFormulaSpec.
Import ListNotations.
Local Open Scope Z_scope.

(** ** Fermat's little theorem *)
Section Fermat.
Variable p : Z.
Hypothesis P : prime p.
Definition prod (l : list Z) : Z := fold_right Z.mul 1 l.
Lemma prod_perm l l' : Permutation l l' -> prod l = prod l'.
Proof.
  induction 1 as [|x l l' H IH|x y l|l l' l'' H1 IH1 H2 IH2]; cbn in *; [reflexivity| |ring|congruence].
  unfold prod in IH. rewrite IH. reflexivity.
Qed.
Lemma prod_mod_map a l : prod (map (fun x => a * x mod p) l) mod p = a ^ Z.of_nat (length l) * prod l mod p.
Proof.
  induction l as [|x l IH]; [reflexivity|].
  cbn [map prod fold_right length]. fold (prod (map (fun x => a * x mod p) l)). fold (prod l).
  rewrite Zmult_mod, IH, <- Zmult_mod. rewrite Zmult_mod_idemp_l, Nat2Z.inj_succ, Z.pow_succ_r by lia.
  f_equal. ring.
Qed.
Lemma rel_prime_prod l : (forall x, In x l -> 0 < x < p) -> rel_prime p (prod l).
Proof.
  induction l as [|x l IH]; intros H; [apply rel_prime_sym, rel_prime_1|].
  cbn. apply rel_prime_mult; [|apply IH; intros; apply H; right; assumption].
  apply rel_prime_sym, rel_prime_le_prime; [exact P|]. specialize (H x (or_introl eq_refl)). lia.
Qed.
Lemma cancel_mod a x y : a mod p <> 0 -> (a * x) mod p = (a * y) mod p -> x mod p = y mod p.
Proof.
  intros NA E. pose proof (prime_ge_2 p P). assert (D : (p | a * (x - y))).
  { apply Z.mod_divide; [lia|]. rewrite Z.mul_sub_distr_l, Zminus_mod, E, Z.sub_diag. apply Zmod_0_l. }
  apply prime_mult in D; [|exact P]. destruct D as [D|D].
  - exfalso. apply NA. apply Z.mod_divide in D; lia.
  - apply Z.mod_divide in D; [|lia].
    replace x with (y + (x - y)) by ring. rewrite Zplus_mod, D, Z.add_0_r. apply Zmod_mod.
Qed.
Theorem fermat a : a mod p <> 0 -> a ^ (p - 1) mod p = 1.
Proof.
  intros NA. pose proof (prime_ge_2 p P) as G.
  set (l := map Z.of_nat (seq 1 (Z.to_nat (p - 1)))).
  assert (IN : forall x, In x l <-> 0 < x < p).
  { intros x. unfold l. rewrite in_map_iff. split.
    - intros (k & <- & H). apply in_seq in H. lia.
    - intros H. exists (Z.to_nat x). split; [lia|]. apply in_seq. lia. }
  assert (ND : NoDup l).
  { unfold l. apply FinFun.Injective_map_NoDup; [|apply seq_NoDup]. intros u v E. lia. }
  assert (LEN : Z.of_nat (length l) = p - 1) by (unfold l; rewrite map_length, seq_length; lia).
  assert (PE : Permutation (map (fun x => a * x mod p) l) l).
  { apply NoDup_Permutation_bis.
    - assert (A : forall l', (forall x, In x l' -> 0 < x < p) -> NoDup l' -> NoDup (map (fun x => a * x mod p) l')).
      { induction l' as [|x l' IH]; intros B N; [constructor|]. cbn. inversion N; subst. constructor.
        - intros H. apply in_map_iff in H. destruct H as (y & E & Hy). apply cancel_mod in E; [|exact NA].
          pose proof (B x (or_introl eq_refl)). pose proof (B y (or_intror Hy)).
          rewrite !Z.mod_small in E by lia. subst. contradiction.
        - apply IH; [|assumption]. intros. apply B. right. assumption. }
      apply A; [intros; apply IN; assumption|exact ND].
    - rewrite map_length. reflexivity.
    - intros x H. apply in_map_iff in H. destruct H as (y & <- & Hy). apply IN in Hy. apply IN.
      pose proof (Z.mod_pos_bound (a * y) p ltac:(lia)).
      assert (a * y mod p <> 0); [|lia]. intros E. apply NA.
      assert (D : (p | a * y)) by (apply Z.mod_divide; lia). apply prime_mult in D; [|exact P].
      destruct D as [D|D]; [apply Z.mod_divide in D; lia|]. apply Z.divide_pos_le in D; lia. }
  pose proof (prod_mod_map a l) as E. rewrite (prod_perm _ _ PE), LEN in E.
  assert (RP : rel_prime p (prod l)) by (apply rel_prime_prod; intros; apply IN; assumption).
  assert (D : (p | prod l * (a ^ (p - 1) - 1))).
  { apply Z.mod_divide; [lia|].
    replace (prod l * (a ^ (p - 1) - 1)) with (a ^ (p - 1) * prod l - prod l) by ring.
    rewrite Zminus_mod, <- E, Z.sub_diag. apply Zmod_0_l. }
  apply Gauss in D; [|exact RP]. apply Z.mod_divide in D; [|lia].
  replace (a ^ (p - 1)) with ((a ^ (p - 1) - 1) + 1) by ring. rewrite Zplus_mod, D, Z.add_0_l.
  rewrite Zmod_mod. apply Z.mod_1_l. lia.
Qed.
End Fermat.

(** ** Residues *)
Section Residues.
Variable p : Z.
Record residue := mk_residue { val : Z; canonical : (val mod p =? val) = true }.
Lemma residue_eq x y : val x = val y -> x = y.
Proof. destruct x as [x cx], y as [y cy]. cbn. intros ->. f_equal. apply UIP_dec, bool_dec. Qed.
Lemma mod_canonical z : ((z mod p) mod p =? z mod p) = true.
Proof. rewrite Zmod_mod. apply Z.eqb_refl. Qed.
Definition res (z : Z) : residue := mk_residue (z mod p) (mod_canonical z).
Lemma val_mod x : val x mod p = val x.
Proof. apply Z.eqb_eq, canonical. Qed.
Lemma res_val x : res (val x) = x.
Proof. apply residue_eq. apply val_mod. Qed.
Lemma res_eq x y : x mod p = y mod p -> res x = res y.
Proof. intros. apply residue_eq. assumption. Qed.

Definition radd x y := res (val x + val y).
Definition rmul x y := res (val x * val y).
Definition rsub x y := res (val x - val y).
Definition ropp x := res (- val x).
Definition rinv x := res (Zpow_mod (val x) (p - 2) p).
Definition rdiv x y := rmul x (rinv y).
Definition reqb x y := val x =? val y.

Hypothesis P : prime p.
Lemma residue_field : field_theory (res 0) (res 1) radd rmul rsub ropp rdiv rinv eq.
Proof.
  pose proof (prime_ge_2 p P) as G.
  constructor; [constructor|..]; intros;
    try (apply residue_eq; unfold radd, rmul, rsub, ropp, rdiv, rinv; cbn [val res]).
  - rewrite Zplus_mod_idemp_l. apply val_mod.
  - f_equal. lia.
  - rewrite Zplus_mod_idemp_l, Zplus_mod_idemp_r. f_equal. lia.
  - rewrite Zmult_mod_idemp_l. rewrite Z.mul_1_l. apply val_mod.
  - f_equal. lia.
  - rewrite Zmult_mod_idemp_l, Zmult_mod_idemp_r. f_equal. lia.
  - rewrite Zmult_mod_idemp_l, <- Zplus_mod. f_equal. lia.
  - rewrite Zplus_mod_idemp_r. f_equal. 
  - rewrite Zplus_mod_idemp_r, Z.add_opp_diag_r. reflexivity.
  - intros E. apply (f_equal val) in E. cbn [val res] in E. rewrite Zmod_1_l, Zmod_0_l in E; lia.
  - reflexivity.
  - rewrite Zmult_mod_idemp_l, Zpow_mod_correct by lia. rewrite Zmult_mod_idemp_l, Z.mul_comm.
    rewrite <- Z.pow_succ_r by lia. replace (Z.succ (p - 2)) with (p - 1) by lia.
    rewrite Z.mod_1_l by lia. apply fermat; [exact P|]. intros E. apply H. apply residue_eq. cbn [val res].
    rewrite Zmod_0_l, <- E. symmetry. apply val_mod.
Qed.
Lemma reqb_eq x y : reqb x y = true <-> x = y.
Proof. unfold reqb. rewrite Z.eqb_eq. split; [apply residue_eq|congruence]. Qed.
Definition zp : field :=
  mk_field residue (res 0) (res 1) radd rmul rsub ropp rdiv rinv reqb residue_field reqb_eq.
End Residues.
