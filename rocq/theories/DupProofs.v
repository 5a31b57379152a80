From Coq Require Import ZArith List Bool Lia.
From Verif Require Import Bytes OmacModel KdfModel DupModel DupSpec.
Import ListNotations.
Open Scope Z_scope.

Lemma put_same {A} (f : nat -> A) i x : put f i x i = x. Proof. unfold put. rewrite Nat.eqb_refl. reflexivity. Qed.
Lemma put_other {A} (f : nat -> A) i x j : j <> i -> put f i x j = f j.
Proof. intros H. unfold put. destruct (Nat.eqb_spec j i); [contradiction|reflexivity]. Qed.

Section Refine.
Variables (O C V Call : Type) (M : methods O C Call).
Variable ptr : C -> option nat.
Variable val : C -> option O -> V.
Variable v_call : V -> Call -> option (Z * list N) * V.
(** A context and what it points to make a value. *)
Variable wf : C -> Prop.
Definition means (h : heap O) (c : C) (v : V) : Prop :=
  wf c /\ ((ptr c = None /\ v = val c None) \/
  (exists a o, ptr c = Some a /\ (a < hp_next h)%nat /\ hp_cell h a = Some o /\ v = val c (Some o))).
(** Nothing but the own cell was touched, new pointers are new. *)
Definition frame (h h' : heap O) (p p' : option nat) : Prop :=
  (hp_next h <= hp_next h')%nat /\
  (forall a, (a < hp_next h)%nat -> p <> Some a -> hp_cell h' a = hp_cell h a) /\
  (forall a, p' = Some a -> p = Some a \/ (hp_next h <= a < hp_next h')%nat).
Hypothesis init_ok : ptr (m_init M) = None /\ wf (m_init M).
Hypothesis call_ok : forall h c v k, means h c v ->
  exists h' c', m_call M h c k = Some (fst (v_call v k), h', c') /\ means h' c' (snd (v_call v k)) /\ frame h h' (ptr c) (ptr c').
Hypothesis cleanup_ok : forall h c v, means h c v -> exists h', m_cleanup M h c = Some h' /\ frame h h' (ptr c) None.
Hypothesis copy_ok : forall h c v, means h c v ->
  exists h' c', m_copy M h c c = Some (1, h', c') /\ means h' c' v /\ frame h h' None (ptr c').

Definition related (s : state O C) (T : vtable V) : Prop :=
  (forall i, match snd s i, T i with Some c, Some v => means (fst s) c v | None, None => True | _, _ => False end) /\
  (forall i j c d a, snd s i = Some c -> snd s j = Some d -> ptr c = Some a -> ptr d = Some a -> i = j).
(** A change to one slot. *)
Lemma means_frame h h' p p' c v : means h c v -> frame h h' p p' -> (forall a, p = Some a -> ptr c <> Some a) -> means h' c v.
Proof.
  intros [Wf [H|(a & o & P & L & E & W)]] (F1 & F2 & F3) D; (split; [exact Wf|]); [left; exact H|]. right. exists a, o. split; [exact P|]. split; [lia|]. split; [|exact W].
  rewrite F2; [exact E|exact L|]. intros X. exact (D a X P).
Qed.
Lemma ptr_bound h c v a : means h c v -> ptr c = Some a -> (a < hp_next h)%nat.
Proof. intros [_ [[H _]|(b & o & P & L & _)]] E; congruence. Qed.
Lemma related_put h T0 T i h' x p : related (h, T0) T -> frame h h' p (match x with Some (c, _) => ptr c | None => None end) ->
  (forall a, p = Some a -> exists c, T0 i = Some c /\ ptr c = Some a) ->
  match x with Some (c, v) => means h' c v | None => True end ->
  related (h', put T0 i (option_map fst x)) (put T i (option_map snd x)).
Proof.
  intros [R S] F P X. cbn [fst snd] in R, S. split; cbn [fst snd].
  - intros j. destruct (Nat.eq_dec j i) as [->|N].
    + rewrite !put_same. destruct x as [[c v]|]; [exact X|exact I].
    + rewrite !put_other by exact N. specialize (R j). destruct (T0 j) as [c|] eqn:E, (T j) as [v|]; try exact R.
      apply (means_frame h h' p _ c v R F). intros a Pa Pc. destruct (P a Pa) as (d & Ed & Pd). exact (N (S j i c d a E Ed Pc Pd)).
  - destruct F as (F1 & F2 & F3).
    assert (G : forall j c d a, j <> i -> T0 j = Some c -> ptr c = Some a -> option_map fst x = Some d -> ptr d = Some a -> False).
    { intros j c d a N E Pc Ed Pd. destruct x as [[c' v]|]; [|discriminate Ed]. injection Ed as <-.
      destruct (F3 a Pd) as [Q|Q].
      - destruct (P a Q) as (c'' & E'' & P''). exact (N (S j i c c'' a E E'' Pc P'')).
      - specialize (R j). rewrite E in R. destruct (T j) as [w|]; [|contradiction]. pose proof (ptr_bound h c w a R Pc). lia. }
    intros j k c d a Ej Ek Pc Pd. destruct (Nat.eq_dec j i) as [->|Nj], (Nat.eq_dec k i) as [->|Nk]; [reflexivity| | |].
    + rewrite put_same in Ej. rewrite put_other in Ek by exact Nk. elim (G k d c a Nk Ek Pd Ej Pc).
    + rewrite put_same in Ek. rewrite put_other in Ej by exact Nj. elim (G j c d a Nj Ej Pc Ek Pd).
    + rewrite put_other in Ej by exact Nj. rewrite put_other in Ek by exact Nk. exact (S j k c d a Ej Ek Pc Pd).
Qed.
Lemma frame_trans_none h h1 h2 p p' : frame h h1 p None -> frame h1 h2 None p' -> frame h h2 p p'.
Proof.
  intros (A1 & A2 & A3) (B1 & B2 & B3). split; [lia|]. split.
  - intros a L N. rewrite B2 by (lia || discriminate). apply A2; assumption.
  - intros a E. destruct (B3 a E) as [X|X]; [discriminate X|]. right. lia.
Qed.
Lemma step_refines s T o : related s T -> exists s', step M s o = Some (fst (vstep (val (m_init M) None) v_call T o), s') /\
  related s' (snd (vstep (val (m_init M) None) v_call T o)).
Proof.
  destruct s as [h T0]. intros R. pose proof R as [R1 R2]. cbn [fst snd] in R1, R2. destruct o as [i|i k|i j|i]; cbn [step vstep].
  - pose proof (R1 i) as Ri. destruct (T0 i) as [c|] eqn:E, (T i) as [v|] eqn:E'; try contradiction; cbn [fst snd].
    + eexists. split; [reflexivity|exact R].
    + eexists. split; [reflexivity|].
      apply (related_put h T0 T i h (Some (m_init M, val (m_init M) None)) None R).
      * rewrite (proj1 init_ok). split; [lia|]; split; [auto|intros a X; discriminate X].
      * intros a X. discriminate X.
      * split; [exact (proj2 init_ok)|]. left. split; [exact (proj1 init_ok)|reflexivity].
  - pose proof (R1 i) as Ri. destruct (T0 i) as [c|] eqn:E, (T i) as [v|] eqn:E'; try contradiction; cbn [fst snd].
    + destruct (call_ok h c v k Ri) as (h' & c' & C1 & C2 & C3). rewrite C1. destruct (v_call v k) as [r v']. cbn [fst snd] in *.
      eexists. split; [reflexivity|]. apply (related_put h T0 T i h' (Some (c', v')) (ptr c) R C3); [|exact C2]. intros a X. exists c. auto.
    + eexists. split; [reflexivity|exact R].
  - destruct (Nat.eqb_spec i j) as [->|N]; [eexists; split; [reflexivity|exact R]|].
    pose proof (R1 i) as Ri. destruct (T0 i) as [c|] eqn:E, (T i) as [v|] eqn:E'; try contradiction; cbn [fst snd]; [|eexists; split; [reflexivity|exact R]].
    pose proof (R1 j) as Rj. destruct (T0 j) as [d|] eqn:Ed, (T j) as [w|] eqn:Ew; try contradiction.
    + destruct (cleanup_ok h d w Rj) as (h1 & K1 & K2). rewrite K1.
      assert (Mc : means h1 c v). { apply (means_frame h h1 (ptr d) None c v Ri K2). intros a Pd Pc. exact (N (R2 i j c d a E Ed Pc Pd)). }
      destruct (copy_ok h1 c v Mc) as (h2 & c' & C1 & C2 & C3). rewrite C1. eexists. split; [reflexivity|].
      apply (related_put h T0 T j h2 (Some (c', v)) (ptr d) R); [exact (frame_trans_none h h1 h2 _ _ K2 C3)| |exact C2]. intros a X. exists d. auto.
    + destruct (copy_ok h c v Ri) as (h2 & c' & C1 & C2 & C3). rewrite C1. eexists. split; [reflexivity|].
      apply (related_put h T0 T j h2 (Some (c', v)) None R C3); [|exact C2]. intros a X. discriminate X.
  - pose proof (R1 i) as Ri. destruct (T0 i) as [c|] eqn:E, (T i) as [v|] eqn:E'; try contradiction; cbn [fst snd].
    + destruct (cleanup_ok h c v Ri) as (h1 & K1 & K2). rewrite K1. eexists. split; [reflexivity|].
      apply (related_put h T0 T i h1 None (ptr c) R K2); [|exact I]. intros a X. exists c. auto.
    + eexists. split; [reflexivity|exact R].
Qed.
Lemma run_refines l : forall s T, related s T -> run M s l = Some (vrun (val (m_init M) None) v_call T l).
Proof.
  induction l as [|o l IH]; intros s T R; [reflexivity|]. cbn [run vrun]. destruct (step_refines s T o R) as (s' & E & R').
  rewrite E. destruct (vstep _ _ T o) as [r T']. cbn [fst snd] in *. rewrite (IH s' T' R'). reflexivity.
Qed.
Lemma start_related : related start (fun _ => None).
Proof. split; [exact (fun i => I)|]. intros i j c d a E. discriminate E. Qed.
Theorem refines l : run M start l = Some (vrun (val (m_init M) None) v_call (fun _ => None) l).
Proof. apply run_refines, start_related. Qed.
End Refine.

(** * Values: independence *)
Section Indep.
Variables (V Call : Type) (v_init : V) (v_call : V -> Call -> option (Z * list N) * V).
Notation vrun := (vrun v_init v_call).
Notation vstep := (vstep v_init v_call).
(** Running calls on one value. *)
Fixpoint feed (v : V) (l : list Call) : list (option (Z * list N)) :=
  match l with nil => nil | c :: l => let (r, v) := v_call v c in r :: feed v l end.
Fixpoint after (T : vtable V) (l : list (op Call)) : vtable V := match l with nil => T | o :: l => after (snd (vstep T o)) l end.
Lemma vrun_app l1 : forall T l2, vrun T (l1 ++ l2) = vrun T l1 ++ vrun (after T l1) l2.
Proof. induction l1 as [|o l1 IH]; intros T l2; [reflexivity|]. cbn [app DupSpec.vrun after]. destruct (vstep T o) as [r T']. cbn [app snd]. rewrite IH. reflexivity. Qed.
Lemma vstep_other T o j : target o <> j -> snd (vstep T o) j = T j.
Proof.
  intros H. destruct o as [i|i c|i k|i]; cbn [vstep target] in *.
  - destruct (T i); [reflexivity|]. cbn [snd]. apply put_other. auto.
  - destruct (T i); [|reflexivity]. destruct (v_call v c). cbn [snd]. apply put_other. auto.
  - destruct (Nat.eqb i k); [reflexivity|]. destruct (T i); [|reflexivity]. cbn [snd]. apply put_other. auto.
  - destruct (T i); [|reflexivity]. cbn [snd]. apply put_other. auto.
Qed.
Lemma results_calls j l : only_calls j l -> forall T v, T j = Some v -> results_on j (vrun T l) = feed v (calls_on j l).
Proof.
  induction 1 as [|o l Ho Hl IH]; intros T v E; [reflexivity|]. cbn [DupSpec.vrun]. destruct (Nat.eq_dec (target o) j) as [Ej|N].
  - destruct (Ho Ej) as [c ->]. cbn [vstep]. rewrite E. destruct (v_call v c) as [r v'] eqn:Ev. unfold results_on, calls_on. cbn [flat_map filter target fst map].
    rewrite Nat.eqb_refl. cbn [map snd app feed]. rewrite Ev. f_equal. apply IH. apply put_same.
  - pose proof (vstep_other T o j N) as Ot. destruct (vstep T o) as [r T'] eqn:Es. cbn [snd] in Ot.
    unfold results_on, calls_on in *. cbn [filter fst flat_map]. destruct (Nat.eqb_spec (target o) j) as [|_]; [contradiction|].
    assert (X : match o with Do i c => if Nat.eqb i j then [c] else [] | _ => [] end = []).
    { destruct o as [i|i c|i k|i]; try reflexivity. cbn [target] in N. destruct (Nat.eqb_spec i j); [contradiction|reflexivity]. }
    rewrite X. cbn [app]. apply IH. rewrite Ot. exact E.
Qed.
Lemma calls_on_map (i : nat) (l : list Call) : calls_on i (map (Do i) l) = l.
Proof. induction l as [|c l IH]; [reflexivity|]. unfold calls_on in *. cbn [map flat_map]. rewrite Nat.eqb_refl, IH. reflexivity. Qed.
Lemma only_calls_map (i : nat) (l : list Call) : only_calls i (map (Do i) l).
Proof. induction l as [|c l IH]; constructor; [|exact IH]. intros _. exists c. reflexivity. Qed.
Lemma results_own i l : forall T v, T i = Some v -> map snd (vrun T (map (Do i) l)) = feed v l.
Proof.
  induction l as [|c l IH]; intros T v E; [reflexivity|]. cbn [map DupSpec.vrun DupSpec.vstep]. rewrite E. cbn [feed].
  destruct (v_call v c) as [r v']. cbn [map snd]. f_equal. apply IH. apply put_same.
Qed.
Lemma vrun_length l : forall T, length (vrun T l) = length l.
Proof. induction l as [|o l IH]; intros T; [reflexivity|]. cbn [DupSpec.vrun]. destruct (vstep T o). cbn [length]. rewrite IH. reflexivity. Qed.
Theorem indep (O C : Type) (M : methods O C Call) : (forall l, run M start l = Some (vrun (fun _ => None) l)) -> copies_independent M.
Proof.
  intros R. split; [intros l; eexists; apply R|]. intros pre i j ops N.
  set (T := after (fun _ => None) pre). set (T' := snd (vstep T (Copy i j))).
  exists (vrun (fun _ => None) pre), (fst (vstep T (Copy i j))), (vrun T' ops). split; [|split; [apply vrun_length|]].
  - rewrite R, vrun_app. fold T. cbn [DupSpec.vrun target]. unfold T'. destruct (vstep T (Copy i j)). reflexivity.
  - unfold T'. cbn [DupSpec.vstep]. destruct (Nat.eqb_spec i j) as [|_]; [contradiction|]. destruct (T i) as [v|] eqn:E; cbn [fst snd]; [|discriminate].
    intros _. split; intros F.
    + exists (vrun T (map (Do i) (calls_on j ops))). split; [rewrite R, vrun_app; reflexivity|].
      rewrite (results_calls j ops F _ v) by apply put_same. rewrite (results_own i _ T v E). reflexivity.
    + exists (vrun T (map (Do i) (calls_on i ops))). split; [rewrite R, vrun_app; reflexivity|].
      rewrite (results_calls i ops F _ v) by (rewrite put_other by exact N; exact E). rewrite (results_own i _ T v E). reflexivity.
Qed.
End Indep.
