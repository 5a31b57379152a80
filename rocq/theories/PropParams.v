(** Property C43: the parameter sets. *)
From Coq Require Import ZArith List Bool Lia String Ascii.
From Verif Require Import Bytes EcLadderModel ParamsModel ParamsSpec.
Import ListNotations.
Local Open Scope Z_scope.

Fixpoint mov_check (p q : Z) (k : nat) (acc : Z) : bool :=
  match k with O => true | S k' => let acc' := (acc * p) mod q in negb (acc' =? 1) && mov_check p q k' acc' end.
Lemma mov_check_sound p q : 1 < q -> forall k j acc, acc = (p ^ j) mod q -> 0 <= j -> mov_check p q k acc = true ->
  forall i, j + 1 <= i <= j + Z.of_nat k -> (p ^ i) mod q <> 1.
Proof.
  intros Q. induction k as [|k IH]; intros j acc E J H i I; [lia|].
  cbn [mov_check] in H. cbv zeta in H. apply andb_true_iff in H. destruct H as [H1 H2].
  assert (S1 : (acc * p) mod q = (p ^ (j + 1)) mod q).
  { rewrite E, Z.mul_mod_idemp_l by lia. rewrite Z.pow_add_r, Z.pow_1_r by lia. reflexivity. }
  destruct (Z.eq_dec i (j + 1)) as [-> |NE].
  - apply negb_true_iff, Z.eqb_neq in H1. rewrite <- S1. exact H1.
  - apply (IH (j + 1) _ S1 ltac:(lia) H2). lia.
Qed.
Definition usable_check (bits : Z) (d : domain) : bool :=
  let p := d_p d in let a := d_a d in let b := d_b d in let x := d_x d in let y := d_y d in let q := d_q d in
  (3 <? p) && (0 <? a) && (a <? p) && (0 <? b) && (b <? p) && (0 <=? x) && (x <? p) && (0 <=? y) && (y <? p)
  && ((y ^ 2) mod p =? (x ^ 3 + a * x + b) mod p)
  && negb ((4 * a ^ 3 + 27 * b ^ 2) mod p =? 0)
  && ((d_h d * q - (p + 1)) ^ 2 <=? 4 * p)
  && (2 ^ (bits - 2) - 2 ^ (bits / 2) <? q) && (q <? 2 ^ bits) && (p <? 2 ^ bits) && negb (q =? p)
  && mov_check p q (if bits =? 256 then 31 else 6) 1.
Lemma usable_check_sound bits d : 8 <= bits -> usable_check bits d = true -> usable bits d.
Proof.
  intros B H. unfold usable_check in H. cbv zeta in H.
  repeat match goal with H : _ && _ = true |- _ => apply andb_true_iff in H; destruct H end.
  repeat match goal with H : (_ <? _) = true |- _ => apply Z.ltb_lt in H | H : (_ <=? _) = true |- _ => apply Z.leb_le in H | H : (_ =? _) = true |- _ => apply Z.eqb_eq in H end.
  assert (Q1 : 1 < d_q d).
  { assert (1 <= 2 ^ (bits - 2) - 2 ^ (bits / 2)); [|lia].
    assert (bits / 2 + 1 <= bits - 2 \/ bits = 8 \/ bits = 9) as C.
    { assert (bits / 2 * 2 <= bits) by (rewrite Z.mul_comm; apply Z.mul_div_le; lia). lia. }
    destruct C as [C|[-> | ->]]; [|vm_compute; congruence|vm_compute; congruence].
    assert (P : 2 ^ (bits / 2 + 1) <= 2 ^ (bits - 2)) by (apply Z.pow_le_mono_r; lia).
    assert (0 <= bits / 2) by (apply Z.div_pos; lia).
    rewrite Z.pow_add_r in P by lia. assert (0 < 2 ^ (bits / 2)) by (apply Z.pow_pos_nonneg; lia). lia. }
  constructor; auto; try lia.
  intros k K. eapply (mov_check_sound (d_p d) (d_q d) Q1 (if bits =? 256 then 31%nat else 6%nat) 0 1); [| |eassumption|]; try lia; [|destruct (bits =? 256); lia]. rewrite Z.pow_0_r, Z.mod_small by lia. reflexivity.
Qed.
Definition is_some {A} (o : option A) : bool := match o with Some _ => true | None => false end.
Lemma cp_A_usable : usable 256 cp_A. Proof. apply usable_check_sound; [discriminate|vm_compute; reflexivity]. Qed.
Lemma cp_B_usable : usable 256 cp_B. Proof. apply usable_check_sound; [discriminate|vm_compute; reflexivity]. Qed.
Lemma cp_C_usable : usable 256 cp_C. Proof. apply usable_check_sound; [discriminate|vm_compute; reflexivity]. Qed.
(** Every parameter set of the standards is usable, whichever name it goes by. *)
Theorem C43_standard_sets_usable : forall n d, standard n = Some d -> usable (set_bits n) d.
Proof.
  intros n d H.
  assert (CASES : usable (set_bits n) d \/ (n = TestParamSet \/ n = Tc256_A \/ n = Tc512_Test \/ n = Tc512_A \/ n = Tc512_B \/ n = Tc512_C)).
  { destruct n; cbn [standard] in H; try discriminate H; auto 10; left; cbn [set_bits];
      match type of H with Some ?x = _ => assert (E : d = x) by congruence; rewrite E end;
      first [exact cp_A_usable|exact cp_B_usable|exact cp_C_usable]. }
  destruct CASES as [C|C]; [exact C|]. apply usable_check_sound; [destruct n; discriminate|].
  destruct C as [E|[E|[E|[E|[E|E]]]]]; rewrite E in *; cbn [standard set_bits] in *;
    match type of H with Some ?x = _ => assert (E' : d = x) by congruence; rewrite E'; clear; vm_compute; reflexivity end.
Qed.

(** * What fill_GOST_EC_params gives a key *)
Definition named (n : curve_nid) (d : domain) : ec_group :=
  mk_ec_group n (d_a d) (d_b d) (d_p d) (d_q d) (d_x d) (d_y d) (d_h d).
Lemma eqb_spec a b : curve_nid_eqb a b = true <-> a = b.
Proof. split; [destruct a, b; cbn; congruence|intros ->; destruct b; reflexivity]. Qed.
(** The tables hold the standard's numbers. *)
Definition domain_of (p : ec_params) : domain :=
  mk_domain (hex2bn (ep_a p) 0) (hex2bn (ep_b p) 0) (hex2bn (ep_p p) 0) (hex2bn (ep_q p) 0) (hex2bn (ep_x p) 0) (hex2bn (ep_y p) 0) (hex2bn (ep_cofactor p) 0).
Lemma tables_standard n :
  match gost_nid2params n with
  | None => standard n = None
  | Some p => ep_nid p = alias n /\ standard n = Some (domain_of p)
  end.
Proof. destruct n; try (split; [reflexivity|]); vm_compute; reflexivity. Qed.
Lemma build_ok p n : gost_nid2params n = Some p -> forall m d, standard n = Some d -> build_group p m = Some (named m d).
Proof.
  intros E m d S. pose proof (tables_standard n) as T. rewrite E in T. destruct T as [_ T].
  assert (D : d = domain_of p) by congruence. pose proof (u_on_curve _ _ (C43_standard_sets_usable n d S)) as U.
  pose proof (u_range _ _ (C43_standard_sets_usable n d S)) as (P & _).
  unfold build_group. rewrite D in U, P. cbn [domain_of d_p d_a d_b d_x d_y] in U, P.
  set (Y := hex2bn (ep_y p) 0) in *. set (X := hex2bn (ep_x p) 0) in *. set (A := hex2bn (ep_a p) 0) in *.
  set (B := hex2bn (ep_b p) 0) in *. set (M := hex2bn (ep_p p) 0) in *.
  assert (Z1 : (Y * Y - (X * X * X + A * X + B)) mod M = 0).
  { replace (Y * Y) with (Y ^ 2) by ring. replace (X * X * X) with (X ^ 3) by ring.
    rewrite Zminus_mod, U, Z.sub_diag. apply Z.mod_0_l. lia. }
  rewrite Z1. cbn [Z.eqb]. rewrite D. reflexivity.
Qed.
(** Calls: [Some n] fills a key with the parameter set n, [None] frees the cache. *)
Fixpoint history (c : cache) (l : list (option curve_nid)) : cache :=
  match l with
  | [] => c
  | Some n :: l' => history (fst (fill_GOST_EC_params c n)) l'
  | None :: l' => history free_cached_groups l'
  end.
Definition cache_ok (c : cache) : Prop := forall n g, c (alias n) = Some g -> exists m d, standard (alias n) = Some d /\ g = named m d.
Lemma standard_alias n : standard (alias n) = standard n. Proof. destruct n; reflexivity. Qed.
Lemma fill_ok c n : cache_ok c ->
  cache_ok (fst (fill_GOST_EC_params c n)) /\ snd (fill_GOST_EC_params c n) = option_map (named n) (standard n).
Proof.
  intros C. unfold fill_GOST_EC_params. pose proof (tables_standard n) as T.
  destruct (gost_nid2params n) as [p|] eqn:E; [|rewrite T; split; [exact C|reflexivity]].
  destruct T as [A S]. rewrite A.
  assert (UPD : forall g m, g = named m (domain_of p) -> cache_ok (cache_set c (alias n) g)).
  { intros g m -> k g'. unfold cache_set. destruct (curve_nid_eqb (alias k) (alias n)) eqn:EK.
    - apply eqb_spec in EK. intros H. exists m, (domain_of p). rewrite EK, standard_alias. split; [exact S|congruence].
    - apply C. }
  destruct (c (alias n)) as [g|] eqn:EC.
  - destruct (C n g EC) as (m & d & SD & ->). rewrite standard_alias in SD. assert (d = domain_of p) by congruence. subst d.
    cbn [fst snd]. rewrite S. split; [|reflexivity]. apply (UPD _ n). reflexivity.
  - rewrite (build_ok p n E n (domain_of p) S). cbn [fst snd]. rewrite S. split; [|reflexivity]. apply (UPD _ n). reflexivity.
Qed.
Lemma history_ok l : forall c, cache_ok c -> cache_ok (history c l).
Proof.
  induction l as [|[n|] l IH]; intros c C; cbn [history]; [exact C|apply IH, fill_ok, C|].
  apply IH. intros n g H. discriminate H.
Qed.
(** After any history of calls, filling a key with a parameter set gives it that name and the standard's
    numbers; an unknown set is refused.  In particular the names Tc256_B, _C, _D give the numbers of the
    CryptoPro sets A, B, C under their own names. *)
Theorem C43_fill_gives_the_standard_set :
  forall l n, snd (fill_GOST_EC_params (history free_cached_groups l) n) = option_map (named n) (standard n).
Proof. intros l n. apply fill_ok. apply history_ok. intros m g H. discriminate H. Qed.
Theorem C43_known_sets : forall n, standard n = None <-> n = OtherNid.
Proof. intros n. destruct n; split; intros H; try reflexivity; discriminate H. Qed.

(** * Threads *)
Definition run (s : shared * list thread) (schedule : list nat) : shared * list thread := fold_left step_sys schedule s.
Definition start (ns : list curve_nid) : shared * list thread := (mk_shared [] (fun _ => None), map Want ns).
(** The invariant: every group object belongs to an entry, with the standard's numbers; [only e n]: the entry e
    is asked for under the name n only. *)
Definition asked (ns : list curve_nid) (t : thread) : Prop :=
  match t with Want n | Fetched n _ | Built n _ | Named n _ | Got n _ | Failed n => In n ns end.
Definition obj_ok (ns : list curve_nid) (h : list ec_group) (e : curve_nid) (i : nat) : Prop :=
  exists m d, standard e = Some d /\ nth_error h i = Some (named m d) /\ In m ns /\ alias m = e.
Definition thread_ok (ns : list curve_nid) (h : list ec_group) (t : thread) : Prop :=
  asked ns t /\
  match t with
  | Fetched n i | Built n i | Named n i => obj_ok ns h (alias n) i
  | Got n g => exists m d, standard n = Some d /\ g = named m d /\ In m ns /\ alias m = alias n
  | Failed n => standard n = None
  | Want _ => True
  end.
Definition sys_ok (ns : list curve_nid) (sy : shared * list thread) : Prop :=
  (forall e i, sh_cache (fst sy) e = Some i -> obj_ok ns (sh_heap (fst sy)) e i) /\
  Forall (thread_ok ns (sh_heap (fst sy))) (snd sy).
Lemma alias_idem n : alias (alias n) = alias n. Proof. destruct n; reflexivity. Qed.
Lemma obj_app ns h g e i : obj_ok ns h e i -> obj_ok ns (h ++ [g]) e i.
Proof.
  intros (m & d & S & N & I & A). exists m, d. repeat split; auto. rewrite nth_error_app1; [exact N|]. apply nth_error_Some. congruence.
Qed.
Lemma heap_set_same h i g : (i < length h)%nat -> nth_error (heap_set h i g) i = Some g.
Proof.
  intros L. unfold heap_set. rewrite nth_error_app2; rewrite firstn_length, Nat.min_l by lia; [|lia].
  rewrite Nat.sub_diag. reflexivity.
Qed.
Lemma heap_set_other h i j g : (i < length h)%nat -> i <> j -> nth_error (heap_set h i g) j = nth_error h j.
Proof.
  intros L NE. unfold heap_set. rewrite <- (firstn_skipn i h) at 3.
  destruct (Nat.lt_ge_cases j i) as [H|H].
  - rewrite !nth_error_app1 by (rewrite firstn_length; lia). reflexivity.
  - rewrite !nth_error_app2 by (rewrite firstn_length; lia). rewrite firstn_length, Nat.min_l by lia.
    destruct (j - i)%nat as [|k] eqn:E; [lia|]. cbn [nth_error].
    assert (SK : skipn i h = match nth_error h i with Some x => x :: skipn (S i) h | None => [] end).
    { clear. revert i. induction h as [|x h IH]; intros [|i]; try reflexivity. cbn [skipn nth_error]. apply IH. }
    rewrite SK. destruct (nth_error h i) eqn:EN; [reflexivity|]. apply nth_error_None in EN. lia.
Qed.
Lemma obj_rename ns h i e e' j n d m : standard e = Some d -> nth_error h i = Some (named m d) -> In n ns -> alias n = e ->
  alias m = e -> obj_ok ns h e' j -> obj_ok ns (heap_set h i (rename (named m d) n)) e' j.
Proof.
  intros S N I A A' (m' & d' & S' & N' & I' & A''). destruct (Nat.eq_dec i j) as [<- |NE].
  - assert (E : named m' d' = named m d) by congruence.
    assert (m' = m) by (apply (f_equal eg_name) in E; exact E). subst m'.
    assert (e' = e) by congruence. subst e'.
    exists n, d. split; [congruence|]. split; [|split; [assumption|congruence]]. rewrite heap_set_same; [reflexivity|]. apply nth_error_Some. congruence.
  - exists m', d'. split; [exact S'|]. split; [|split; assumption]. rewrite heap_set_other; [exact N'| |exact NE]. apply nth_error_Some. congruence.
Qed.
Lemma thread_ok_mono ns h h' t : (forall e i, obj_ok ns h e i -> obj_ok ns h' e i) -> thread_ok ns h t -> thread_ok ns h' t.
Proof. intros M [A B]. split; [exact A|]. destruct t; auto. Qed.
Lemma replace_nth_Forall {A} (P : A -> Prop) l k x : Forall P l -> P x -> Forall P (replace_nth l k x).
Proof.
  intros F X. unfold replace_nth. apply Forall_app. split.
  - rewrite <- (firstn_skipn k l) in F. apply Forall_app in F. apply F.
  - constructor; [exact X|]. rewrite <- (firstn_skipn (S k) l) in F. apply Forall_app in F. apply F.
Qed.
Lemma step_ok ns sy k : sys_ok ns sy -> sys_ok ns (step_sys sy k).
Proof.
  intros [C F]. unfold step_sys. destruct (nth_error (snd sy) k) as [t|] eqn:ET; [|split; assumption].
  assert (T : thread_ok ns (sh_heap (fst sy)) t) by (apply nth_error_In in ET; rewrite Forall_forall in F; auto).
  destruct sy as [s ts]. cbn [fst snd] in *. destruct T as [A T].
  assert (SAME : forall t', thread_ok ns (sh_heap s) t' -> sys_ok ns (s, replace_nth ts k t')).
  { intros t' O. split; [exact C|]. apply replace_nth_Forall; auto. }
  destruct t as [n|n i|n i|n i|n g|n]; cbn [step_thread asked] in *.
  - pose proof (tables_standard n) as TS. destruct (gost_nid2params n) as [p|] eqn:EP.
    + destruct TS as [AL S]. rewrite AL. destruct (sh_cache s (alias n)) as [i|] eqn:EC.
      * apply SAME. split; [exact A|]. apply C, EC.
      * rewrite (build_ok p n EP n (domain_of p) S). split; cbn [fst snd sh_heap sh_cache].
        -- intros e i H. apply obj_app, C, H.
        -- apply replace_nth_Forall.
           ++ eapply Forall_impl; [|exact F]. intros t. apply thread_ok_mono. intros e i. apply obj_app.
           ++ split; [exact A|]. exists n, (domain_of p). rewrite standard_alias. repeat split; auto.
              rewrite nth_error_app2, Nat.sub_diag by lia. reflexivity.
    + apply SAME. split; [exact A|exact TS].
  - destruct T as (m & d & S & N & I & AM). rewrite N. split; cbn [fst snd sh_heap sh_cache].
    + intros e j H. eapply obj_rename; eauto.
    + apply replace_nth_Forall.
      * eapply Forall_impl; [|exact F]. intros t. apply thread_ok_mono. intros e j. eapply obj_rename; eauto.
      * split; [exact A|]. eapply obj_rename; eauto. exists m, d. auto.
  - pose proof (tables_standard n) as TS. destruct (gost_nid2params n) as [p|] eqn:EP.
    + destruct TS as [AL S]. rewrite AL. split; cbn [fst snd sh_heap sh_cache].
      * intros e j. destruct (curve_nid_eqb e (alias n)) eqn:EE; [|apply C].
        apply eqb_spec in EE. subst e. intros H. assert (j = i) by congruence. subst j. exact T.
      * apply replace_nth_Forall; [exact F|]. split; [exact A|exact T].
    + apply SAME. split; [exact A|exact TS].
  - destruct T as (m & d & S & N & I & AM). rewrite N. apply SAME. split; [exact A|].
    exists m, d. rewrite <- standard_alias. auto.
  - apply SAME. split; [exact A|exact T].
  - apply SAME. split; [exact A|exact T].
Qed.
Lemma run_ok ns schedule : sys_ok ns (run (start ns) schedule).
Proof.
  unfold run. assert (I : sys_ok ns (start ns)).
  { split; cbn [start fst snd sh_cache].
    - intros e i H. discriminate H.
    - apply Forall_forall. intros t H. apply in_map_iff in H. destruct H as (n & <- & H). split; [exact H|exact I]. }
  revert I. generalize (start ns). induction schedule as [|k l IH]; intros sy I; cbn [fold_left]; [exact I|].
  apply IH, step_ok, I.
Qed.
(** Any number of threads, any schedule: a key gets the numbers of the set asked for, under a name that stands
    for the same numbers; and under exactly the name asked for if no two threads use different names of one
    set. *)
Theorem C43_threads :
  forall ns schedule n g, In (Got n g) (snd (run (start ns) schedule)) ->
  exists m d, standard n = Some d /\ standard m = Some d /\ file_of m = file_of n /\ g = named m d /\
    ((forall a b, In a ns -> In b ns -> alias a = alias b -> a = b) -> m = n).
Proof.
  intros ns schedule n g H. destruct (run_ok ns schedule) as [_ F]. rewrite Forall_forall in F.
  destruct (F _ H) as [A (m & d & S & -> & I & AM)]. exists m, d. split; [exact S|].
  rewrite <- (standard_alias m), AM, standard_alias. split; [exact S|]. split.
  - destruct m, n; cbn in AM; try discriminate AM; reflexivity.
  - split; [reflexivity|]. intros U. apply U; auto.
Qed.
(** With two names of one set in use the name can be wrong: a thread that asks for Tc256_B while another one
    asks for CryptoPro_A may get a key named CryptoPro_A (and write that name into the key's encoding). *)
Theorem C43_threads_wrong_name_refuted :
  exists schedule g, In (Got Tc256_B g) (snd (run (start [CryptoPro_A; CryptoPro_A; Tc256_B]) schedule)) /\ eg_name g = CryptoPro_A.
Proof.
  exists [0; 0; 0; 1; 2; 2; 1; 2]%nat. eexists. split; [|]; cycle 1.
  - instantiate (1 := named CryptoPro_A cp_A). reflexivity.
  - unfold run, start. cbn [map fold_left step_sys fst snd nth_error].
    vm_compute. auto 10.
Qed.
(** Unlike that, one thread after the other gets what it asked for. *)
Example C43_two_names_in_turn :
  snd (fill_GOST_EC_params (history free_cached_groups [Some CryptoPro_A]) Tc256_B) = Some (named Tc256_B cp_A) /\
  snd (fill_GOST_EC_params (history free_cached_groups [Some Tc256_B; Some OtherNid; None; Some Tc256_B]) CryptoPro_A) = Some (named CryptoPro_A cp_A).
Proof. split; apply C43_fill_gives_the_standard_set. Qed.
Print Assumptions C43_standard_sets_usable.
Print Assumptions C43_fill_gives_the_standard_set.
Print Assumptions C43_known_sets.
Print Assumptions C43_threads.
Print Assumptions C43_threads_wrong_name_refuted.
