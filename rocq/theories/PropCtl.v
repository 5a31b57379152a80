(** Property C47: engine parameters, for all histories of control calls, reads, engine shutdowns and environments. *)
From Coq Require Import String ZArith List Bool Lia.
From Verif Require Import CmsParamsModel CtlModel.
Import ListNotations.
Open Scope Z_scope.

(** * The memory invariant *)
(** Slots 0-2 only; every slot points to a block of its own, every allocated block belongs to a slot, no bad free. *)
Definition inv (m : mem) : Prop :=
  m_bad m = false /\
  (forall i a, m_params m i = Some a -> (i < 3)%nat /\ (a < m_next m)%nat /\ m_heap m a <> None) /\
  (forall i j a, m_params m i = Some a -> m_params m j = Some a -> i = j) /\
  (forall a s, m_heap m a = Some s -> exists i, m_params m i = Some a).
Lemma inv0 : inv mem0.
Proof. split; [reflexivity|]. split; [|split]; cbn; congruence. Qed.
Lemma inv_replace m i s : (i < 3)%nat -> inv m ->
  let m1 := m_free m (m_params m i) in
  let '(m2, p) := m_strdup m1 s in
  let m3 := m_assign m2 i p in
  inv m3 /\ deref m3 (m_params m3 i) = s /\ (forall j, j <> i -> m_params m3 j = m_params m j /\ deref m3 (m_params m3 j) = deref m (m_params m j)) /\
  (forall a, m_heap m3 a <> None -> m_heap m a <> m_heap m3 a -> a = m_next m).
Proof.
  intros Hi (B & P & U & H). cbv zeta. set (m1 := m_free m (m_params m i)).
  assert (F : m_bad m1 = false /\ m_next m1 = m_next m /\ (forall j, m_params m1 j = m_params m j) /\
              (forall a, m_heap m1 a = if match m_params m i with Some b => Nat.eqb a b | None => false end then None else m_heap m a)).
  { unfold m1, m_free. destruct (m_params m i) as [b|] eqn:E.
    - destruct (P i b E) as (_ & _ & Hb). destruct (m_heap m b) as [x|] eqn:Hx; [|congruence].
      cbn. repeat split; auto.
    - repeat split; auto. }
  clearbody m1. destruct F as (F1 & F2 & F3 & F4).
  assert (Fr : forall a, (m_next m <= a)%nat -> m_heap m a = None).
  { intros a La. destruct (m_heap m a) as [x|] eqn:E; [|reflexivity]. destruct (H a x E) as [j Hj]. destruct (P j a Hj). lia. }
  assert (Hp : forall j a, j <> i -> m_params m j = Some a -> m_heap m1 a = m_heap m a /\ (a < m_next m)%nat).
  { intros j a Nj E. destruct (P j a E) as (_ & La & _). split; [|exact La]. rewrite F4. destruct (m_params m i) as [b|] eqn:Eb; [|reflexivity].
    destruct (Nat.eqb_spec a b) as [->|]; [|reflexivity]. exfalso. exact (Nj (U _ _ _ E Eb)). }
  destruct s as [s|]; cbn [m_strdup m_assign m_heap m_next m_params m_bad].
  - split; [|split; [|split]].
    + split; [exact F1|]. split; [|split].
      * cbn. intros j a E. destruct (Nat.eqb_spec j i) as [->|Nj].
        -- injection E as <-. rewrite Nat.eqb_refl. split; [exact Hi|]. split; [lia|congruence].
        -- rewrite F3 in E. destruct (P j a E) as (L1 & L2 & L3). split; [exact L1|]. rewrite F2. split; [lia|].
           destruct (Nat.eqb_spec a (m_next m)); [congruence|]. rewrite (proj1 (Hp j a Nj E)). exact L3.
      * cbn. intros j k a Ej Ek. destruct (Nat.eqb_spec j i) as [->|Nj], (Nat.eqb_spec k i) as [->|Nk]; auto.
        -- injection Ej as <-. rewrite F3 in Ek. destruct (P k _ Ek). lia.
        -- injection Ek as <-. rewrite F3 in Ej. destruct (P j _ Ej). lia.
        -- rewrite F3 in Ej, Ek. exact (U _ _ _ Ej Ek).
      * cbn. intros a x E. destruct (Nat.eqb_spec a (m_next m1)) as [->|Na].
        -- exists i. rewrite Nat.eqb_refl. reflexivity.
        -- rewrite F4 in E. destruct (match m_params m i with Some b => Nat.eqb a b | None => false end) eqn:Q; [congruence|].
           destruct (H a x E) as [j Hj]. exists j. destruct (Nat.eqb_spec j i) as [->|Nj]; [|rewrite F3; exact Hj].
           rewrite Hj, Nat.eqb_refl in Q. congruence.
    + cbn. rewrite Nat.eqb_refl. cbn. rewrite Nat.eqb_refl. reflexivity.
    + intros j Nj. cbn. destruct (Nat.eqb_spec j i); [congruence|]. rewrite F3. split; [reflexivity|].
      destruct (m_params m j) as [a|] eqn:E; [|reflexivity]. cbn. destruct (Hp j a Nj E) as [X L]. rewrite F2.
      destruct (Nat.eqb_spec a (m_next m)); [lia|exact X].
    + cbn. intros a N1 N2. rewrite F2 in *. destruct (Nat.eqb_spec a (m_next m)); [assumption|]. rewrite F4 in N1, N2.
      destruct (match m_params m i with Some b => Nat.eqb a b | None => false end); congruence.
  - split; [|split; [|split]].
    + split; [exact F1|]. split; [|split].
      * cbn. intros j a E. destruct (Nat.eqb_spec j i) as [->|Nj]; [congruence|]. rewrite F3 in E. destruct (P j a E) as (L1 & L2 & L3).
        rewrite F2, (proj1 (Hp j a Nj E)). auto.
      * cbn. intros j k a Ej Ek. destruct (Nat.eqb_spec j i) as [->|Nj], (Nat.eqb_spec k i) as [->|Nk]; try congruence.
        rewrite F3 in Ej, Ek. exact (U _ _ _ Ej Ek).
      * cbn. intros a x E. rewrite F4 in E. destruct (match m_params m i with Some b => Nat.eqb a b | None => false end) eqn:Q; [congruence|].
        destruct (H a x E) as [j Hj]. exists j. destruct (Nat.eqb_spec j i) as [->|Nj]; [|rewrite F3; exact Hj].
        rewrite Hj, Nat.eqb_refl in Q. congruence.
    + cbn. rewrite Nat.eqb_refl. reflexivity.
    + intros j Nj. cbn. destruct (Nat.eqb_spec j i); [congruence|]. rewrite F3. split; [reflexivity|].
      destruct (m_params m j) as [a|] eqn:E; [|reflexivity]. cbn. exact (proj1 (Hp j a Nj E)).
    + cbn. intros a N1 N2. rewrite F4 in N1, N2. destruct (match m_params m i with Some b => Nat.eqb a b | None => false end); congruence.
Qed.
(** The content of a slot. *)
Definition stored (m : mem) (i : nat) : option string := deref m (m_params m i).

Lemma in_range p : (p <? 0) || (p >=? GOST_PARAM_MAX) = negb ((0 <=? p) && (p <? 3)).
Proof. unfold GOST_PARAM_MAX. rewrite Z.geb_leb. destruct (Z.ltb_spec p 0), (Z.leb_spec 3 p), (Z.leb_spec 0 p), (Z.ltb_spec p 3); try reflexivity; lia. Qed.

Lemma set_facts env m p v : inv m -> 0 <= p < 3 ->
  exists m', gost_set_default_param env m p v = (1, m') /\ inv m' /\
    stored m' (Z.to_nat p) = (match env (Z.to_nat p) with Some s => Some s | None => v end) /\
    (forall j, j <> Z.to_nat p -> m_params m' j = m_params m j /\ stored m' j = stored m j).
Proof.
  intros I Hp. unfold gost_set_default_param. rewrite in_range.
  replace (0 <=? p) with true by (symmetry; apply Z.leb_le; lia). replace (p <? 3) with true by (symmetry; apply Z.ltb_lt; lia).
  cbn [andb negb]. pose proof (inv_replace m (Z.to_nat p) (match env (Z.to_nat p) with Some s => Some s | None => v end) ltac:(lia) I) as R.
  cbv zeta in R. destruct (m_strdup _ _) as [m2 q]. destruct R as (R1 & R2 & R3 & _). eauto.
Qed.
Lemma get_facts env m p : inv m -> 0 <= p < 3 ->
  exists q m', get_gost_engine_param env m p = (q, m') /\ inv m' /\ q = m_params m' (Z.to_nat p) /\
    deref m' q = (match stored m (Z.to_nat p) with Some s => Some s | None => env (Z.to_nat p) end) /\
    (stored m (Z.to_nat p) <> None -> m' = m) /\
    (forall j, j <> Z.to_nat p -> m_params m' j = m_params m j /\ stored m' j = stored m j) /\
    (forall j, m_params m j <> None -> m_params m' j = m_params m j) /\
    (forall a, m_heap m a <> None -> m_heap m' a = m_heap m a).
Proof.
  intros I Hp. unfold get_gost_engine_param. rewrite in_range.
  replace (0 <=? p) with true by (symmetry; apply Z.leb_le; lia). replace (p <? 3) with true by (symmetry; apply Z.ltb_lt; lia).
  cbn [andb negb]. set (i := Z.to_nat p) in *. pose proof I as (B & P & U & H).
  destruct (m_params m i) as [a|] eqn:E.
  - exists (Some a), m. split; [reflexivity|]. split; [exact I|]. split; [congruence|]. destruct (P i a E) as (_ & _ & N).
    split; [|split; [auto|split; [auto|split; auto]]]. unfold stored. rewrite E. cbn. destruct (m_heap m a); congruence.
  - assert (St : stored m i = None) by (unfold stored; rewrite E; reflexivity). rewrite St.
    destruct (env i) as [s|].
    + assert (Hi : (i < 3)%nat) by (subst i; lia). pose proof (inv_replace m i (Some s) Hi I) as R. cbv zeta in R. rewrite E in R.
      change (m_free m None) with m in *. destruct (m_strdup m (Some s)) as [m2 q] eqn:D. destruct R as (R1 & R2 & R3 & R4).
      exists q, (m_assign m2 i q). split; [reflexivity|]. split; [exact R1|].
      assert (Q : q = m_params (m_assign m2 i q) i) by (cbn; rewrite Nat.eqb_refl; reflexivity).
      split; [exact Q|]. split; [rewrite <- Q in R2; exact R2|]. split; [congruence|]. split; [exact R3|]. split.
      * intros j Nj. destruct (Nat.eq_dec j i) as [->|D2]; [congruence|]. apply R3. exact D2.
      * intros a Na. injection D as <- <-. cbn. destruct (Nat.eqb_spec a (m_next m)) as [->|]; [|reflexivity].
        destruct (m_heap m (m_next m)) as [x|] eqn:Hx; [|congruence]. destruct (H _ _ Hx) as [j Hj]. destruct (P _ _ Hj). lia.
    + exists None, m. split; [reflexivity|]. split; [exact I|]. split; [congruence|]. split; [reflexivity|]. auto.
Qed.
Lemma free_facts m : inv m -> inv (gost_param_free m) /\ (forall i, m_params (gost_param_free m) i = None) /\ (forall a, m_heap (gost_param_free m) a = None).
Proof.
  intros I. unfold gost_param_free. cbn [fold_left].
  assert (S : forall m i, (i < 3)%nat -> inv m -> let m' := m_assign (m_free m (m_params m i)) i None in
     inv m' /\ m_params m' i = None /\ (forall j, m_params m j = None -> m_params m' j = None)).
  { intros m0 i Hi I0. cbv zeta. pose proof (inv_replace m0 i None Hi I0) as R. cbv zeta in R. cbn [m_strdup] in R. destruct R as (R1 & R2 & R3 & _).
    split; [exact R1|]. split; [cbn; rewrite Nat.eqb_refl; reflexivity|]. intros j Hj. destruct (Nat.eq_dec j i) as [->|D].
    - cbn. rewrite Nat.eqb_refl. reflexivity.
    - rewrite (proj1 (R3 j D)). exact Hj. }
  cbv zeta in S.
  destruct (S m 0%nat ltac:(lia) I) as (I1 & Z1 & K1). set (m1 := m_assign _ 0 None) in *. clearbody m1.
  destruct (S m1 1%nat ltac:(lia) I1) as (I2 & Z2 & K2). set (m2 := m_assign (m_free m1 _) 1 None) in *. clearbody m2.
  destruct (S m2 2%nat ltac:(lia) I2) as (I3 & Z3 & K3). set (m3 := m_assign (m_free m2 _) 2 None) in *. clearbody m3.
  assert (N : forall i, m_params m3 i = None).
  { intros i. destruct I3 as (_ & P & _). destruct (m_params m3 i) as [a|] eqn:E; [|reflexivity]. destruct (P i a E) as (L & _).
    assert (i = 0 \/ i = 1 \/ i = 2)%nat as [-> |[-> | ->]] by lia.
    - rewrite <- E. apply K3, K2, Z1.
    - rewrite <- E. apply K3, Z2.
    - rewrite <- E. exact Z3. }
  rewrite (N 3%nat). cbn [m_free].
  assert (N' : forall i, m_params (m_assign m3 3 None) i = None) by (intros i; cbn; destruct (Nat.eqb i 3); auto).
  assert (E : forall a, m_heap m3 a = None).
  { intros a. destruct I3 as (_ & _ & _ & H). destruct (m_heap m3 a) as [s|] eqn:E; [|reflexivity]. destruct (H a s E) as [i Hi]. rewrite N in Hi. congruence. }
  split; [|split; [exact N'|exact E]].
  split; [apply I3|]. split; [|split].
  - intros i a H. rewrite N' in H. congruence.
  - intros i j a H. rewrite N' in H. congruence.
  - intros a s H. cbn in H. rewrite E in H. congruence.
Qed.
Lemma step_inv m e : inv m -> inv (step m e).
Proof.
  intros I. destruct e as [env [c v|p v|p|]]; cbn [step].
  - unfold gost_control_func. destruct ((c - ENGINE_CMD_BASE <? 0) || (c - ENGINE_CMD_BASE >? GOST_PARAM_MAX)); [exact I|].
    set (p := c - ENGINE_CMD_BASE). destruct (Z_lt_le_dec p 0) as [L|L].
    { unfold gost_set_default_param. replace (p <? 0) with true by (symmetry; apply Z.ltb_lt; exact L). exact I. }
    destruct (Z_lt_le_dec p 3) as [L2|L2].
    + destruct (set_facts env m p v I ltac:(lia)) as (m' & -> & I' & _). exact I'.
    + unfold gost_set_default_param. rewrite in_range. replace (p <? 3) with false by (symmetry; apply Z.ltb_ge; exact L2). rewrite andb_false_r. exact I.
  - destruct (Z_lt_le_dec p 0) as [L|L].
    { unfold gost_set_default_param. replace (p <? 0) with true by (symmetry; apply Z.ltb_lt; exact L). exact I. }
    destruct (Z_lt_le_dec p 3) as [L2|L2].
    + destruct (set_facts env m p v I ltac:(lia)) as (m' & -> & I' & _). exact I'.
    + unfold gost_set_default_param. rewrite in_range. replace (p <? 3) with false by (symmetry; apply Z.ltb_ge; exact L2). rewrite andb_false_r. exact I.
  - destruct (Z_lt_le_dec p 0) as [L|L].
    { unfold get_gost_engine_param. replace (p <? 0) with true by (symmetry; apply Z.ltb_lt; exact L). exact I. }
    destruct (Z_lt_le_dec p 3) as [L2|L2].
    + destruct (get_facts env m p I ltac:(lia)) as (q & m' & -> & I' & _). exact I'.
    + unfold get_gost_engine_param. rewrite in_range. replace (p <? 3) with false by (symmetry; apply Z.ltb_ge; exact L2). rewrite andb_false_r. exact I.
  - apply free_facts. exact I.
Qed.
Lemma run_inv h : inv (run h).
Proof.
  unfold run. assert (G : forall m, inv m -> inv (fold_left step h m)); [|apply G, inv0].
  induction h as [|e h IH]; intros m I; [exact I|]. cbn [fold_left]. apply IH, step_inv, I.
Qed.

(** ** C47 *)
(** After every history: nothing was freed twice, the allocated blocks are exactly the ones the parameters hold (no leak,
    no dangling parameter), and shutting the engine down releases everything. *)
Theorem C47_memory_safe :
  forall h, m_bad (run h) = false /\
    (forall a, m_heap (run h) a <> None <-> exists i, m_params (run h) i = Some a) /\
    (forall a, m_heap (gost_param_free (run h)) a = None).
Proof.
  intros h. pose proof (run_inv h) as I. pose proof I as (B & P & U & H). split; [exact B|]. split.
  - intros a. split.
    + intros N. destruct (m_heap (run h) a) as [s|] eqn:E; [|congruence]. exact (H a s E).
    + intros [i E]. apply (P i a E).
  - apply free_facts. exact I.
Qed.
Print Assumptions C47_memory_safe.

(** What a caller sees: the string behind the pointer returned by a read after history [h]. *)
Definition read (env : environ) (h : list (environ * event)) (p : Z) : option string :=
  let '(q, m) := get_gost_engine_param env (run h) p in deref m q.
(** The last value set for parameter [p] since the engine was last shut down. *)
Fixpoint last_set (p : Z) (h : list event) : option string :=
  match h with
  | [] => None
  | e :: earlier =>
    match e with
    | Ev_control c v => if c - 200 =? p then v else last_set p earlier
    | Ev_set q v => if q =? p then v else last_set p earlier
    | Ev_get _ => last_set p earlier
    | Ev_free => None
    end
  end.
Lemma run_snoc h e : run (h ++ [e]) = step (run h) e.
Proof. unfold run. rewrite fold_left_app. reflexivity. Qed.

Lemma out_of_range_set env m p v : ~ 0 <= p < 3 -> gost_set_default_param env m p v = (0, m).
Proof.
  intros R. unfold gost_set_default_param. rewrite in_range. destruct (Z.leb_spec 0 p), (Z.ltb_spec p 3); try reflexivity. lia.
Qed.
Lemma out_of_range_get env m p : ~ 0 <= p < 3 -> get_gost_engine_param env m p = (None, m).
Proof.
  intros R. unfold get_gost_engine_param. rewrite in_range. destruct (Z.leb_spec 0 p), (Z.ltb_spec p 3); try reflexivity. lia.
Qed.
(** Numbers outside 0 .. 2 (control commands outside 200 .. 202) are refused and change nothing. *)
Theorem C47_out_of_range :
  forall env m n v, ~ 0 <= n < 3 ->
    gost_set_default_param env m n v = (0, m) /\ get_gost_engine_param env m n = (None, m) /\
    gost_control_func env m (200 + n) v = ((if n =? 3 then 0 else -1), m).
Proof.
  intros env m n v R. split; [apply out_of_range_set; exact R|]. split; [apply out_of_range_get; exact R|].
  unfold gost_control_func, ENGINE_CMD_BASE, GOST_PARAM_MAX. replace (200 + n - 200) with n by lia.
  destruct (Z.eqb_spec n 3) as [->|Nn]; [reflexivity|].
  rewrite Z.gtb_ltb. destruct (Z.ltb_spec n 0), (Z.ltb_spec 3 n); cbn [orb]; try reflexivity. lia.
Qed.
(** In a constant environment a read gives the environment's value if there is one, and otherwise the value last set since
    the last shutdown - whatever else happened. *)
Theorem C47_environment_wins :
  forall env h p, 0 <= p < 3 ->
    read env (map (fun e => (env, e)) h) p =
    match env (Z.to_nat p) with Some s => Some s | None => last_set p (rev h) end.
Proof.
  intros env h p Hp. set (i := Z.to_nat p).
  assert (G : match env i with Some s => stored (run (map (fun e => (env, e)) h)) i = Some s \/ stored (run (map (fun e => (env, e)) h)) i = None
              | None => stored (run (map (fun e => (env, e)) h)) i = last_set p (rev h) end).
  { induction h as [|e h IH] using rev_ind.
    - cbn. destruct (env i); auto.
    - rewrite map_app, rev_app_distr. cbn [map rev app]. rewrite run_snoc. pose proof (run_inv (map (fun e => (env, e)) h)) as I.
      set (m := run (map (fun e => (env, e)) h)) in *. clearbody m.
      assert (St : forall n v, match env i with Some s => stored (snd (gost_set_default_param env m n v)) i = Some s \/ stored (snd (gost_set_default_param env m n v)) i = None
                 | None => stored (snd (gost_set_default_param env m n v)) i = if n =? p then v else last_set p (rev h) end).
      { intros n v. destruct (Z_lt_le_dec n 0) as [L|L]; [|destruct (Z_lt_le_dec n 3) as [L2|L2]].
        - rewrite out_of_range_set by lia. cbn [snd]. destruct (Z.eqb_spec n p); [lia|]. exact IH.
        - destruct (set_facts env m n v I ltac:(lia)) as (m' & -> & I' & S1 & S2). cbn [snd].
          destruct (Z.eqb_spec n p) as [->|Np].
          + fold i in S1. rewrite S1. destruct (env i); auto.
          + rewrite (proj2 (S2 i ltac:(subst i; lia))). exact IH.
        - rewrite out_of_range_set by lia. cbn [snd]. destruct (Z.eqb_spec n p); [lia|]. exact IH. }
      destruct e as [c v|n v|n|]; cbn [step last_set].
      + unfold gost_control_func, ENGINE_CMD_BASE, GOST_PARAM_MAX. destruct ((c - 200 <? 0) || (c - 200 >? 3)) eqn:Q; [|apply St].
        cbn [snd]. destruct (Z.eqb_spec (c - 200) p) as [E|E]; [|exact IH]. exfalso. rewrite Z.gtb_ltb in Q.
        apply orb_true_iff in Q. destruct Q as [Q|Q]; apply Z.ltb_lt in Q; lia.
      + apply St.
      + destruct (Z_lt_le_dec n 0) as [L|L]; [rewrite out_of_range_get by lia; exact IH|].
        destruct (Z_lt_le_dec n 3) as [L2|L2]; [|rewrite out_of_range_get by lia; exact IH].
        destruct (get_facts env m n I ltac:(lia)) as (q & m' & -> & I' & Q1 & Q2 & Q3 & Q4 & _). cbn [snd].
        destruct (Z.eq_dec n p) as [->|Np].
        * rewrite Q1 in Q2. change (deref m' (m_params m' (Z.to_nat p))) with (stored m' i) in Q2. fold i in Q2. rewrite Q2.
          destruct (env i); destruct (stored m i); auto.
        * rewrite (proj2 (Q4 i ltac:(subst i; lia))). exact IH.
      + destruct (free_facts m I) as (_ & F & _). unfold stored. rewrite F. cbn [deref]. destruct (env i); auto. }
  unfold read. pose proof (run_inv (map (fun e => (env, e)) h)) as I. set (m := run _) in *. clearbody m.
  destruct (get_facts env m p I Hp) as (q & m' & -> & _ & _ & Q & _). fold i in Q. rewrite Q.
  destruct (env i) as [s|]; [destruct G as [-> | ->]; reflexivity|]. rewrite G. destruct (last_set p (rev h)); reflexivity.
Qed.
Print Assumptions C47_environment_wins.
(** A value once read or set stays, whatever happens to the environment afterwards, until the parameter is set again or the
    engine is shut down. *)
Definition touches (p : Z) (e : event) : Prop :=
  match e with Ev_control c _ => c - 200 = p | Ev_set q _ => q = p | Ev_get _ => False | Ev_free => True end.
Lemma keeps env m e p a : 0 <= p < 3 -> inv m -> ~ touches p e -> m_params m (Z.to_nat p) = Some a ->
  m_params (step m (env, e)) (Z.to_nat p) = Some a /\ m_heap (step m (env, e)) a = m_heap m a.
Proof.
  intros Hp I T E. assert (N : m_heap m a <> None) by (destruct I as (_ & P & _); apply (P _ _ E)).
  assert (St : forall n v, n <> p -> m_params (snd (gost_set_default_param env m n v)) (Z.to_nat p) = Some a /\ m_heap (snd (gost_set_default_param env m n v)) a = m_heap m a).
  { intros n v Nn. destruct (Z_lt_le_dec n 0) as [L|L]; [rewrite out_of_range_set by lia; auto|].
    destruct (Z_lt_le_dec n 3) as [L2|L2]; [|rewrite out_of_range_set by lia; auto].
    destruct (set_facts env m n v I ltac:(lia)) as (m' & -> & I' & S1 & S2). cbn [snd].
    destruct (S2 (Z.to_nat p) ltac:(lia)) as [S3 S4]. rewrite S3. split; [exact E|]. unfold stored in S4. rewrite S3, E in S4. exact S4. }
  destruct e as [c v|n v|n|]; cbn [step touches] in *.
  - unfold gost_control_func, ENGINE_CMD_BASE. destruct (_ || _); [cbn; auto|]. apply St. exact T.
  - apply St. exact T.
  - destruct (Z_lt_le_dec n 0) as [L|L]; [rewrite out_of_range_get by lia; auto|].
    destruct (Z_lt_le_dec n 3) as [L2|L2]; [|rewrite out_of_range_get by lia; auto].
    destruct (get_facts env m n I ltac:(lia)) as (q & m' & -> & I' & _ & _ & _ & _ & K & Hh). cbn [snd].
    rewrite K by congruence. split; [exact E|]. apply Hh. exact N.
  - exfalso. apply T. exact Logic.I.
Qed.
Theorem C47_value_and_pointer_stay :
  forall env env' h h' p a s, 0 <= p < 3 ->
    fst (get_gost_engine_param env (run h) p) = Some a -> read env h p = Some s ->
    (forall e, In e h' -> ~ touches p (snd e)) ->
    (* the pointer handed out still points to the same string ... *)
    m_heap (run (h ++ [(env, Ev_get p)] ++ h')) a = Some s /\
    (* ... and a new read returns it, in any environment *)
    fst (get_gost_engine_param env' (run (h ++ [(env, Ev_get p)] ++ h')) p) = Some a.
Proof.
  intros env env' h h' p a s Hp Ga Rs T. pose proof (run_inv h) as I. unfold read in Rs.
  destruct (get_facts env (run h) p I Hp) as (q & m1 & G & I1 & Q1 & Q2 & _). rewrite G in Ga, Rs. cbn [fst] in Ga. rewrite Ga in Rs. cbn [deref] in Rs. assert (Gb : m_params m1 (Z.to_nat p) = Some a) by congruence.
  assert (E1 : run (h ++ [(env, Ev_get p)]) = m1) by (rewrite run_snoc; cbn [step]; rewrite G; reflexivity).
  assert (K : m_params (run (h ++ [(env, Ev_get p)] ++ h')) (Z.to_nat p) = Some a /\ m_heap (run (h ++ [(env, Ev_get p)] ++ h')) a = Some s).
  { rewrite app_assoc. induction h' as [|e h' IH] using rev_ind.
    - rewrite app_nil_r, E1. split; [exact Gb | exact Rs].
    - rewrite app_assoc, run_snoc. destruct IH as [IH1 IH2]; [intros e' He; apply T, in_or_app; auto|].
      destruct e as [ev e]. destruct (keeps ev (run ((h ++ [(env, Ev_get p)]) ++ h')) e p a Hp (run_inv _) (T (ev, e) ltac:(apply in_or_app; right; left; reflexivity)) IH1) as [K1 K2].
      split; [exact K1|]. rewrite K2. exact IH2. }
  destruct K as [K1 K2]. split; [exact K2|].
  unfold get_gost_engine_param. rewrite in_range. destruct (Z.leb_spec 0 p); [|lia]. destruct (Z.ltb_spec p 3); [|lia]. cbn [andb negb]. rewrite K1. reflexivity.
Qed.
Print Assumptions C47_value_and_pointer_stay.

(** Defect: the pointer does not survive a later set of the same parameter (gost_ctl.c:73 frees the block), even one that
    stores the same value: a caller which still holds it reads freed memory. *)
Theorem C47_pointer_after_set_refuted :
  forall env h p v a, 0 <= p < 3 -> fst (get_gost_engine_param env (run h) p) = Some a ->
    m_heap (run (h ++ [(env, Ev_get p); (env, Ev_set p v)])) a = None.
Proof.
  intros env h p v a Hp G. pose proof (run_inv h) as I. destruct (get_facts env (run h) p I Hp) as (q & m1 & E & I1 & Q1 & _).
  rewrite E in G. cbn [fst] in G. rewrite Q1 in G.
  change (h ++ [(env, Ev_get p); (env, Ev_set p v)]) with (h ++ ([(env, Ev_get p)] ++ [(env, Ev_set p v)])).
  rewrite app_assoc, !run_snoc. cbn [step]. rewrite E. cbn [snd]. unfold gost_set_default_param. rewrite in_range.
  destruct (Z.leb_spec 0 p); [|lia]. destruct (Z.ltb_spec p 3); [|lia]. cbn [andb negb].
  pose proof I1 as (B & P & U & Hh). destruct (P _ _ G) as (_ & La & N). destruct (m_heap m1 a) as [x|] eqn:Hx; [|congruence].
  unfold m_free. rewrite G, Hx. destruct (match env (Z.to_nat p) with Some s => Some s | None => v end); cbn.
  - destruct (Nat.eqb_spec a (m_next m1)); [lia|]. rewrite Nat.eqb_refl. reflexivity.
  - rewrite Nat.eqb_refl. reflexivity.
Qed.

(** The default parameter set of gost89 and gost89-cbc, and the PRF offered for password based encryption, in a constant
    environment: what the environment or the last control call names.  An unknown cipher parameter name makes init fail
    (None), an unknown PRF name means the default. *)
Theorem C47_default_cipher_params :
  forall txt2nid env h,
    let named := match env 0%nat with Some s => Some s | None => last_set 0 (rev h) end in
    fst (default_params txt2nid env (run (map (fun e => (env, e)) h))) =
    match named with None => Some P_Z | Some s => if String.eqb s "" then Some P_Z else txt2nid s end.
Proof.
  intros txt2nid env h. cbv zeta. pose proof (C47_environment_wins env h 0 ltac:(lia)) as R. unfold read in R. unfold default_params.
  destruct (get_gost_engine_param env _ 0) as [q m]. rewrite R. change (Z.to_nat 0) with 0%nat.
  destruct (env 0%nat) as [s|]; [destruct (String.eqb s ""); reflexivity|]. destruct (last_set 0 (rev h)) as [s|]; [|reflexivity].
  destruct (String.eqb s ""); reflexivity.
Qed.
Theorem C47_pbe_prf :
  forall env h r,
    let named := match env 1%nat with Some s => Some s | None => last_set 1 (rev h) end in
    fst (pbe_prf_nid env (run (map (fun e => (env, e)) h))) = r <->
    match r with
    | Hmac_256 => named = Some "md_gost12_256"%string
    | Hmac_94 => named = Some "md_gost94"%string
    | Hmac_512 => named <> Some "md_gost12_256"%string /\ named <> Some "md_gost94"%string
    end.
Proof.
  intros env h r. cbv zeta. pose proof (C47_environment_wins env h 1 ltac:(lia)) as R. unfold read in R. unfold pbe_prf_nid.
  destruct (get_gost_engine_param env _ 1) as [q m]. rewrite R. change (Z.to_nat 1) with 1%nat.
  set (named := match env 1%nat with Some s => Some s | None => last_set 1 (rev h) end).
  replace (match env 1%nat with Some s => Some s | None => last_set 1 (rev h) end) with named by reflexivity. clearbody named.
  destruct named as [s|]; cbn [fst].
  - destruct (String.eqb_spec "md_gost12_256" s) as [<-|N1].
    { destruct r; split; try congruence; intros [H1 H2]; congruence. }
    destruct (String.eqb_spec "md_gost12_512" s) as [<-|N2].
    { destruct r; split; try congruence. intros _. split; congruence. }
    destruct (String.eqb_spec "md_gost94" s) as [<-|N3].
    { destruct r; split; try congruence; intros [H1 H2]; congruence. }
    destruct r; split; try congruence. intros _. split; congruence.
  - destruct r; split; try congruence. intros _. split; congruence.
Qed.
(** A concrete history: set in an empty environment, read in one that has another value, set there. *)
Example C47_example :
  let e0 : environ := fun _ => None in
  let e1 : environ := fun i => if Nat.eqb i 0 then Some "id-tc26-gost-28147-param-Z"%string else None in
  let h := [(e0, Ev_control 200 (Some "id-Gost28147-89-CryptoPro-B-ParamSet"%string)); (e0, Ev_get 0)] in
  read e1 h 0 = Some "id-Gost28147-89-CryptoPro-B-ParamSet"%string /\
  read e0 (h ++ [(e1, Ev_set 0 None)]) 0 = Some "id-tc26-gost-28147-param-Z"%string /\
  read e0 (h ++ [(e0, Ev_free)]) 0 = None.
Proof. split; [|split]; reflexivity. Qed.
