(** The checker and its soundness: a program in which no branch, no loop bound and no index depends on a variable that may hold a
    secret leaks the same for all secrets.  And the arithmetic of the programs of LeakModel is that of EcLadderModel. *)
From Coq Require Import String List ZArith Bool Lia.
From Verif Require Import Bytes EcLadderModel LeakModel.
Import ListNotations.
Local Open Scope list_scope.
Local Open Scope Z_scope.

(** Which variables and which arrays may hold secrets. *)
Record labels := mk_labels { vsec : string -> bool; asec : string -> bool }.
(** Whether the value of an expression may be secret; whether its indices are public. *)
Fixpoint lab (G : labels) (e : expr) : bool :=
  match e with
  | Num _ => false
  | Var x => vsec G x
  | Arr a i => asec G a || lab G i
  | Bin _ e1 e2 => lab G e1 || lab G e2
  | I8 e => lab G e
  end.
Fixpoint ok_e (G : labels) (e : expr) : bool :=
  match e with
  | Num _ | Var _ => true
  | Arr a i => ok_e G i && negb (lab G i)
  | Bin _ e1 e2 => ok_e G e1 && ok_e G e2
  | I8 e => ok_e G e
  end.
Definition pub (G : labels) (e : expr) : bool := ok_e G e && negb (lab G e).
Definition ok_l (G : labels) (l : ploc) : bool := let 'At _ i := l in pub G i.
Definition flow (sec_e sec_x : bool) : bool := negb sec_e || sec_x.
Fixpoint ok (G : labels) (s : stmt) : bool :=
  match s with
  | Skip => true
  | Seq s1 s2 => ok G s1 && ok G s2
  | Set_ x e => ok_e G e && flow (lab G e) (vsec G x)
  | Put a i e => pub G i && ok_e G e && flow (lab G e) (asec G a)
  | If c s1 s2 => pub G c && ok G s1 && ok G s2
  | For _ lo hi s | Down _ hi lo s => pub G lo && pub G hi && ok G s
  | PInf d => ok_l G d
  | PCopy d s | PDbl d s | PNeg d s => ok_l G d && ok_l G s
  | PAdd d s1 s2 => ok_l G d && ok_l G s1 && ok_l G s2
  | PSel d c s1 s2 => ok_l G d && ok_e G c && ok_l G s1 && ok_l G s2
  end.

Section Sound.
  Context (C D : group) (G : labels).
  (** The public part of two stores is the same; the points may be anything, even on different curves. *)
  Definition low (s : store C) (t : store D) : Prop :=
    (forall x, vsec G x = false -> vars s x = vars t x) /\ (forall a, asec G a = false -> forall i, arrs s a i = arrs t a i).
  Lemma low_var s t x v w : low s t -> (vsec G x = false -> v = w) -> low (set_var C s x v) (set_var D t x w).
  Proof. intros [A B] H. split; [|exact B]. intros y Hy. cbn. destruct (String.eqb_spec y x) as [->|]; auto. Qed.
  Lemma low_arr s t a i v w : low s t -> (asec G a = false -> v = w) -> low (set_arr C s a i v) (set_arr D t a i w).
  Proof. intros [A B] H. split; [exact A|]. intros b Hb j. cbn. destruct (String.eqb_spec b a) as [->|]; [|apply B; exact Hb]. destruct (j =? i); cbn; auto. Qed.
  Lemma low_eval s t e : low s t -> ok_e G e = true ->
    fst (eval C s e) = fst (eval D t e) /\ (lab G e = false -> snd (eval C s e) = snd (eval D t e)).
  Proof.
    intros L. induction e as [z|x|a i IH|o e1 IH1 e2 IH2|e IH]; cbn [ok_e lab eval]; intros H.
    - auto.
    - split; [reflexivity|]. apply L.
    - apply andb_true_iff in H as [H1 H2]. apply negb_true_iff in H2. destruct (IH H1) as [E1 E2]. specialize (E2 H2).
      destruct (eval C s i) as [t1 n1], (eval D t i) as [t2 n2]. cbn [fst snd] in *. subst. split; [reflexivity|].
      intros Hl. apply orb_false_iff in Hl as [Hl _]. apply L. exact Hl.
    - apply andb_true_iff in H as [H1 H2]. destruct (IH1 H1) as [A1 B1], (IH2 H2) as [A2 B2].
      destruct (eval C s e1), (eval D t e1), (eval C s e2), (eval D t e2). cbn [fst snd] in *. subst. split; [reflexivity|].
      intros Hl. apply orb_false_iff in Hl as [La Lb]. rewrite B1, B2 by assumption. reflexivity.
    - destruct (IH H) as [A B]. destruct (eval C s e), (eval D t e). cbn [fst snd] in *. subst. split; [reflexivity|]. intros Hl. rewrite B by exact Hl. reflexivity.
  Qed.
  Lemma pub_eval s t e : low s t -> pub G e = true -> eval C s e = eval D t e.
  Proof.
    intros L H. apply andb_true_iff in H as [H1 H2]. apply negb_true_iff in H2. destruct (low_eval s t e L H1) as [A B]. specialize (B H2).
    destruct (eval C s e), (eval D t e). cbn [fst snd] in *. congruence.
  Qed.
  Lemma low_src s t l : low s t -> ok_l G l = true -> fst (src C s l) = fst (src D t l).
  Proof. intros L H. destruct l as [a i]. cbn [ok_l] in H. unfold src, loc. rewrite (pub_eval s t i L H). destruct (eval D t i). reflexivity. Qed.
  Lemma low_dst s t l P Q : low s t -> ok_l G l = true -> fst (dst C s l P) = fst (dst D t l Q) /\ low (snd (dst C s l P)) (snd (dst D t l Q)).
  Proof.
    intros L H. destruct l as [a i]. cbn [ok_l] in H. unfold dst, loc. rewrite (pub_eval s t i L H). destruct (eval D t i). split; [reflexivity|]. exact L.
  Qed.
  Lemma flow_eq b v (P : Prop) : flow b v = true -> (b = false -> P) -> v = false -> P.
  Proof. unfold flow. intros H K ->. rewrite orb_false_r in H. apply negb_true_iff in H. auto. Qed.
  Ltac src_ s t l H := let A := fresh "A" in pose proof (low_src s t l ltac:(assumption) H) as A;
     destruct (src C s l), (src D t l); cbn [fst snd] in A; subst.
  Ltac dst_ s t l P Q H := let A := fresh "A" in let B := fresh "B" in destruct (low_dst s t l P Q ltac:(assumption) H) as [A B];
     destruct (dst C s l P), (dst D t l Q); cbn [fst snd] in A, B; subst.
  Theorem check_sound : forall p s t, ok G p = true -> low s t ->
    fst (exec C p s) = fst (exec D p t) /\ low (snd (exec C p s)) (snd (exec D p t)).
  Proof.
    induction p as [|p1 IH1 p2 IH2|x e|a i e|c p1 IH1 p2 IH2|x lo hi p IH|x hi lo p IH|d|d r|d r|d r1 r2|d r|d c r1 r2]; intros s t; cbn [ok exec]; intros H L;
      repeat match goal with H : _ && _ = true |- _ => apply andb_true_iff in H; destruct H end.
    - auto.
    - specialize (IH1 s t ltac:(assumption) L). destruct (exec C p1 s) as [t1 s1], (exec D p1 t) as [t2 s2]. cbn [fst snd] in IH1. destruct IH1 as [-> L1].
      specialize (IH2 s1 s2 ltac:(assumption) L1). destruct (exec C p2 s1), (exec D p2 s2). cbn [fst snd] in *. destruct IH2 as [-> L2]. auto.
    - destruct (low_eval s t e L ltac:(assumption)) as [A B]. destruct (eval C s e), (eval D t e). cbn [fst snd] in *. split; [exact A|].
      apply low_var; [exact L|]. eapply flow_eq; eassumption.
    - rewrite (pub_eval s t i L) by assumption. destruct (eval D t i). destruct (low_eval s t e L ltac:(assumption)) as [A B].
      destruct (eval C s e), (eval D t e). cbn [fst snd] in *. subst. split; [reflexivity|]. apply low_arr; [exact L|]. eapply flow_eq; eassumption.
    - rewrite (pub_eval s t c L) by assumption. destruct (eval D t c) as [tc v]. destruct (v =? 0).
      + specialize (IH2 s t ltac:(assumption) L). destruct (exec C p2 s), (exec D p2 t). cbn [fst snd] in *. destruct IH2 as [-> L2]. auto.
      + specialize (IH1 s t ltac:(assumption) L). destruct (exec C p1 s), (exec D p1 t). cbn [fst snd] in *. destruct IH1 as [-> L1]. auto.
    - rewrite (pub_eval s t lo L), (pub_eval s t hi L) by assumption. destruct (eval D t lo) as [t1 a], (eval D t hi) as [t2 b].
      match goal with |- context [let '(_, _) := ?f (zrange a b) s in _] => set (F := f) end.
      match goal with |- context [let '(_, _) := ?f (zrange a b) t in _] => set (F' := f) end.
      assert (K : forall l s t, low s t -> fst (F l s) = fst (F' l t) /\ low (snd (F l s)) (snd (F' l t))).
      { induction l as [|v l IHl]; intros u w Lu; cbn [F F']; [auto|]. assert (Lx : low (set_var C u x v) (set_var D w x v)) by (apply low_var; auto).
        specialize (IH _ _ ltac:(assumption) Lx). destruct (exec C p (set_var C u x v)) as [q u1], (exec D p (set_var D w x v)) as [q' w1].
        cbn [fst snd] in IH. destruct IH as [-> L1]. specialize (IHl u1 w1 L1). fold F F'. destruct (F l u1), (F' l w1). cbn [fst snd] in *. destruct IHl as [-> L2]. auto. }
      specialize (K (zrange a b) s t L). destruct (F (zrange a b) s), (F' (zrange a b) t). cbn [fst snd] in *. destruct K as [-> K]. auto.
    - rewrite (pub_eval s t lo L), (pub_eval s t hi L) by assumption. destruct (eval D t hi) as [t1 b], (eval D t lo) as [t2 a].
      match goal with |- context [let '(_, _) := ?f (rev (zrange a (b + 1))) s in _] => set (F := f) end.
      match goal with |- context [let '(_, _) := ?f (rev (zrange a (b + 1))) t in _] => set (F' := f) end.
      assert (K : forall l s t, low s t -> fst (F l s) = fst (F' l t) /\ low (snd (F l s)) (snd (F' l t))).
      { induction l as [|v l IHl]; intros u w Lu; cbn [F F']; [auto|]. assert (Lx : low (set_var C u x v) (set_var D w x v)) by (apply low_var; auto).
        specialize (IH _ _ ltac:(assumption) Lx). destruct (exec C p (set_var C u x v)) as [q u1], (exec D p (set_var D w x v)) as [q' w1].
        cbn [fst snd] in IH. destruct IH as [-> L1]. specialize (IHl u1 w1 L1). fold F F'. destruct (F l u1), (F' l w1). cbn [fst snd] in *. destruct IHl as [-> L2]. auto. }
      specialize (K (rev (zrange a (b + 1))) s t L). destruct (F _ s), (F' _ t). cbn [fst snd] in *. destruct K as [-> K]. auto.
    - destruct (low_dst s t d (pzero C) (pzero D) L H) as [A B]. destruct (dst C s d _), (dst D t d _). cbn [fst snd] in *. subst. auto.
    - src_ s t r H0. dst_ s t d p p0 H. cbn [fst snd]. auto.
    - src_ s t r H0. dst_ s t d (padd C p p) (padd D p0 p0) H. cbn [fst snd]. auto.
    - src_ s t r1 H1. src_ s t r2 H0. dst_ s t d (padd C p p1) (padd D p0 p2) H. cbn [fst snd]. auto.
    - src_ s t r H0. dst_ s t d (pneg C p) (pneg D p0) H. cbn [fst snd]. auto.
    - destruct (low_eval s t c L ltac:(assumption)) as [A B]. destruct (eval C s c) as [tc v], (eval D t c) as [tc' v']. cbn [fst] in A. subst tc'.
      src_ s t r1 H1. src_ s t r2 H0. dst_ s t d (if v =? 0 then p else p1) (if v' =? 0 then p0 else p2) H. cbn [fst snd]. auto.
  Qed.
End Sound.

(** * Equations of the semantics *)
(** The turns of a loop over [x] with body [p]. *)
Fixpoint turns (C : group) (x : string) (p : stmt) (l : list Z) (st : store C) : list event * store C :=
  match l with
  | nil => ([Branch false], st)
  | v :: l =>
      let r := exec C p (set_var C st x v) in
      let r' := turns C x p l (snd r) in (Branch true :: fst r ++ fst r', snd r')
  end.
Lemma turns_eq C x p l st :
  (fix loop (l : list Z) (st : store C) : list event * store C :=
     match l with
     | nil => ([Branch false], st)
     | v :: l => let '(t, st) := exec C p (set_var C st x v) in let '(t', st) := loop l st in (Branch true :: t ++ t', st)
     end) l st = turns C x p l st.
Proof.
  revert st. induction l as [|v l IH]; intros st; [reflexivity|]. cbn [turns]. cbv zeta. destruct (exec C p (set_var C st x v)) as [t u]. cbn [fst snd].
  rewrite IH. destruct (turns C x p l u). reflexivity.
Qed.
Lemma exec_for C x lo hi p st :
  fst (exec C (For x lo hi p) st) = fst (eval C st lo) ++ fst (eval C st hi) ++ fst (turns C x p (zrange (snd (eval C st lo)) (snd (eval C st hi))) st) /\
  snd (exec C (For x lo hi p) st) = snd (turns C x p (zrange (snd (eval C st lo)) (snd (eval C st hi))) st).
Proof.
  cbn [exec]. destruct (eval C st lo) as [t1 a], (eval C st hi) as [t2 b]. cbn [fst snd]. rewrite turns_eq. destruct (turns _ _ _ _ _). auto.
Qed.
Lemma exec_down C x hi lo p st :
  snd (exec C (Down x hi lo p) st) = snd (turns C x p (rev (zrange (snd (eval C st lo)) (snd (eval C st hi) + 1))) st).
Proof.
  cbn [exec]. destruct (eval C st hi) as [t1 b], (eval C st lo) as [t2 a]. cbn [fst snd]. rewrite turns_eq. destruct (turns _ _ _ _ _). auto.
Qed.
Lemma exec_seq C p q st : fst (exec C (Seq p q) st) = fst (exec C p st) ++ fst (exec C q (snd (exec C p st))) /\
  snd (exec C (Seq p q) st) = snd (exec C q (snd (exec C p st))).
Proof. cbn [exec]. destruct (exec C p st) as [t1 s1]. cbn [fst snd]. destruct (exec C q s1). auto. Qed.
Lemma zrange_cons lo hi : lo < hi -> zrange lo hi = lo :: zrange (lo + 1) hi.
Proof.
  intros H. unfold zrange. replace (Z.to_nat (hi - lo)) with (S (Z.to_nat (hi - (lo + 1)))) by lia. cbn [seq map]. f_equal; [lia|].
  rewrite <- seq_shift, map_map. apply map_ext. intros i. lia.
Qed.
