(** C59: loading the engine, looking algorithms up in it, unloading it. *)
From Coq Require Import ZArith NArith List Bool Lia.
From Verif Require Import EngModel EngSpec EngProofs EngLaws.
Import ListNotations.
Local Open Scope nat_scope.

(** ** Histories *)
Section Histories.
Variable prov : bool.
Variable first : N.
Hypothesis Hfirst : (1192 < first)%N.   (* the library gives out numbers above its own *)

Lemma Inv_not_bad w s Lk : Inv prov first w s Lk -> s_bad s = false.
Proof. intros I. pose proof (iv_load _ _ _ _ _ I) as H. destruct (w_engine w); [exact (ow_bad _ _ _ (ld_own _ _ _ _ _ H))|exact (clean_bad _ _ H)]. Qed.

(** Whatever is called in whatever order, as long as one engine is used at a time and only while it exists: the answers are those
    of the specification - in particular every algorithm offered is found, as an existing object of the right kind and number -
    and memory that was freed is never freed or given out again. *)
Theorem C59_histories : forall l, all_legal prov empty l ->
  Forall2 agrees (snd (run prov (start first) l)) (expected prov first empty l) /\ s_bad (fst (run prov (start first) l)) = false.
Proof.
  intros l Hl. destruct (run_ok prov first Hfirst l empty (start first) _ Hl (Inv_start prov first)) as (A & Lk & I & _).
  split; [exact A|exact (Inv_not_bad _ _ _ I)].
Qed.

(** When no engine is left, no object is left, unless a load failed while it registered the second of its numbers. *)
Theorem C59_nothing_left : forall l, all_legal prov empty l -> existsb leaky l = false -> w_engine (final prov empty l) = None ->
  forall id o, s_heap (fst (run prov (start first) l)) id = Some o -> o_alive o = false.
Proof.
  intros l Hl Hk Hw id o Ho. destruct (run_ok prov first Hfirst l empty (start first) _ Hl (Inv_start prov first)) as (_ & Lk & I & E).
  pose proof (iv_load _ _ _ _ _ I) as C. rewrite Hw in C. destruct C as [O _]. destruct (o_alive o) eqn:Ha; [|reflexivity].
  destruct (ow_alive _ _ _ O id o Ho Ha) as [L|(f & Hf & _)]; [|discriminate]. rewrite (E Hk) in L. destruct L.
Qed.

(** While the engine exists, an algorithm is always the same object. *)
Theorem C59_same_object : forall l1 l2 h k n, all_legal prov empty (l1 ++ Lookup h k n :: l2 ++ [Lookup h k n]) ->
  (forall h', ~ In (Unload h') l2) ->
  let rs := snd (run prov (start first) (l1 ++ Lookup h k n :: l2 ++ [Lookup h k n])) in
  match nth (length l1) rs Gone, nth (length l1 + 1 + length l2) rs Gone with
  | Answer r1 p1, Answer r2 p2 => r1 = r2 /\ option_map fst p1 = option_map fst p2
  | _, _ => False
  end.
Proof.
  intros l1 l2 h k n Hl Hu rs. apply all_legal_app in Hl as [Hl1 Hl]. cbn [all_legal] in Hl. destruct Hl as [Hc Hl]. cbn [next] in Hl.
  apply all_legal_app in Hl as [Hl2 Hl3].
  destruct (run_ok prov first Hfirst l1 empty (start first) _ Hl1 (Inv_start prov first)) as (_ & Lk & I & _).
  assert (length (snd (run prov (start first) l1)) = length l1) as Len1 by apply run_length.
  unfold rs. rewrite run_app. cbn [snd]. set (s := fst (run prov (start first) l1)) in *. set (w := final prov empty l1) in *. cbn [legal] in Hc.
  rewrite !app_nth2 by (rewrite Len1; lia). rewrite Len1, Nat.sub_diag. replace (length l1 + 1 + length l2 - length l1) with (S (length l2)) by lia.
  assert (forall s0 Lk0, Inv prov first w s0 Lk0 -> step prov s0 (Lookup h k n) =
    (fst (lookup s0 k n), Answer (fst (snd (lookup s0 k n))) (view (fst (lookup s0 k n)) (snd (snd (lookup s0 k n)))))) as Es.
  { intros s0 Lk0 I0. cbn [step]. rewrite (proj2 (iv_eng _ _ _ _ _ I0 h) Hc). destruct (lookup s0 k n) as [a b]. reflexivity. }
  cbn [run]. rewrite (Es s Lk I). destruct (lookup s k n) as [s1 q] eqn:Hq. cbn [fst snd].
  destruct (lookup_ok prov first Hfirst w s Lk h k n s1 q Hc I Hq) as (I1 & A1 & K1 & Q1).
  assert (w_engine w <> None) as Hw by congruence.
  destruct (run_keeps prov first Hfirst l2 w s1 Lk Hl2 I1 Hw) as [K2 F2]; [intros c h' Hc' E; subst c; exact (Hu h' Hc')|].
  destruct (run_ok prov first Hfirst l2 w s1 Lk Hl2 I1) as (_ & Lk2 & I2 & _). rewrite F2 in I2.
  rewrite run_app. cbn [fst snd]. set (s2 := fst (run prov s1 l2)) in *.
  assert (length (snd (run prov s1 l2)) = length l2) as Len2 by apply run_length.
  cbn [run]. rewrite (Es s2 Lk2 I2). destruct (lookup s2 k n) as [s3 q3] eqn:Hq3. cbn [fst snd].
  destruct (lookup_ok prov first Hfirst w s2 Lk2 h k n s3 q3 Hc I2 Hq3) as (I3 & A3 & K3 & Q3).
  cbn [nth]. rewrite app_nth2 by lia. rewrite Len2, Nat.sub_diag. cbn [nth].
  assert (snd q = snd q3) as Ep.
  { rewrite Q1, Q3. destruct (position n (offered first w k) 0) as [i|] eqn:Hp; [|reflexivity].
    match goal with |- s_ptr _ ?f = _ => set (g := f) end. destruct (s_ptr s1 g) as [id|] eqn:P.
    - destruct K2 as (_ & _ & _ & _ & K2). symmetry. exact (K3 _ _ (K2 _ _ P)).
    - (* Found without an object: the entry without a method, never filled *)
      destruct k; subst g.
      + apply position_Some in Hp as (_ & Hi & Hn & He). rewrite P in Q1. cbn [expect] in A1. rewrite He in A1. cbn [agrees] in A1. destruct A1 as (id & A1). injection A1 as _ A1. rewrite Q1 in A1. discriminate.
      + apply position_Some in Hp as (_ & Hi & Hn & He). rewrite P in Q1. cbn [expect] in A1. rewrite He in A1. cbn [agrees] in A1. destruct A1 as (id & A1). injection A1 as _ A1. rewrite Q1 in A1. discriminate.
      + apply position_Some in Hp as (_ & Hi & Hn & He). rewrite P in Q1. cbn [expect] in A1, A3. rewrite He in A1, A3.
        destruct (n =? magma_ctr_acpkm_omac)%N; cbn [agrees] in A1, A3.
        * injection A3 as _ A3. rewrite Q3 in A3. destruct (s_ptr s3 (F_pm i)); [discriminate|reflexivity].
        * destruct A1 as (id & A1). injection A1 as _ A1. rewrite Q1 in A1. discriminate.
      + apply position_Some in Hp as (_ & Hi & Hn & He). rewrite P in Q1. cbn [expect] in A1, A3. rewrite He in A1, A3.
        destruct (n =? magma_ctr_acpkm_omac)%N; cbn [agrees] in A1, A3.
        * injection A3 as _ A3. rewrite Q3 in A3. destruct (s_ptr s3 (F_am i)); [discriminate|reflexivity].
        * destruct A1 as (id & A1). injection A1 as _ A1. rewrite Q1 in A1. discriminate. }
  assert (fst q = fst q3) as Er.
  { cbn [expect] in A1, A3. destruct (existsb (N.eqb n) (offered first w k)).
    - destruct k; try destruct (n =? magma_ctr_acpkm_omac)%N; cbn [agrees] in A1, A3;
        first [destruct A1 as (id1 & A1); destruct A3 as (id3 & A3)|idtac]; injection A1 as A1 _; injection A3 as A3 _; congruence.
    - cbn [agrees] in A1, A3. injection A1 as A1 _. injection A3 as A3 _. congruence. }
  split; [exact Er|]. rewrite Ep. unfold view. destruct (snd q3); reflexivity.
Qed.

(** An engine offers what it lists: no number twice, and a lookup succeeds exactly for the listed numbers. *)
Theorem C59_listed : forall l h k n, all_legal prov empty l -> w_engine (final prov empty l) = Some h ->
  let s := fst (run prov (start first) l) in
  match snd (step prov s (Nids h k)), snd (step prov s (Lookup h k n)) with
  | Numbers r L, Answer ret p => r = Z.of_nat (length L) /\ NoDup L /\ (In n L /\ ret = 1%Z \/ ~ In n L /\ ret = 0%Z /\ p = None)
  | _, _ => False
  end.
Proof.
  intros l h k n Hl Hw s. destruct (run_ok prov first Hfirst l empty (start first) _ Hl (Inv_start prov first)) as (_ & Lk & I & _). fold s in I.
  set (w := final prov empty l) in *.
  destruct (step prov s (Nids h k)) as [s1 r1] eqn:H1. destruct (step prov s (Lookup h k n)) as [s2 r2] eqn:H2.
  destruct (step_ok prov first Hfirst w s Lk _ _ _ (Hw : legal prov w (Nids h k)) I H1) as (A1 & _).
  destruct (step_ok prov first Hfirst w s Lk _ _ _ (Hw : legal prov w (Lookup h k n)) I H2) as (A2 & _).
  cbn [snd]. cbn [expect agrees] in A1. rewrite A1. cbn [expect] in A2.
  assert (NoDup (offered first w k)) as ND.
  { destruct k; [exact NoDup_digests| |exact NoDup_meths|exact NoDup_meths]. pose proof (iv_load _ _ _ _ _ I) as Ld. rewrite Hw in Ld.
    rewrite <- (cipher_nids_eq prov first w s Lk Ld). apply NoDup_ciphers. exact (loaded_nids prov first Hfirst _ _ _ Ld). }
  assert (existsb (N.eqb n) (offered first w k) = true <-> In n (offered first w k)) as Ex.
  { rewrite existsb_exists. split; [intros (x & Hx & E); apply N.eqb_eq in E; subst; exact Hx|intros H; exists n; split; [exact H|apply N.eqb_refl]]. }
  destruct (existsb (N.eqb n) (offered first w k)).
  - assert (exists p, r2 = Answer 1 p) as (p & ->).
    { destruct k; try destruct (n =? magma_ctr_acpkm_omac)%N; cbn [agrees] in A2; first [destruct A2 as (id & A2); eexists; exact A2|eexists; exact A2]. }
    split; [reflexivity|]. split; [exact ND|]. left. split; [apply Ex; reflexivity|reflexivity].
  - cbn [agrees] in A2. rewrite A2. split; [reflexivity|]. split; [exact ND|]. right. split; [|split; reflexivity]. intros H. apply Ex in H. discriminate.
Qed.

(** Defect: magma-ctr-acpkm-omac is listed among the key types and its lookup reports success, but there is no method. *)
Theorem C59_listed_method_missing_refuted : forall l h k, all_legal prov empty l -> w_engine (final prov empty l) = Some h -> k = E_pmeth \/ k = E_ameth ->
  let s := fst (run prov (start first) l) in
  snd (step prov s (Lookup h k magma_ctr_acpkm_omac)) = Answer 1 None.
Proof.
  intros l h k Hl Hw Hk s. destruct (run_ok prov first Hfirst l empty (start first) _ Hl (Inv_start prov first)) as (_ & Lk & I & _). fold s in I.
  destruct (step prov s (Lookup h k magma_ctr_acpkm_omac)) as [s2 r2] eqn:H2.
  destruct (step_ok prov first Hfirst _ s Lk _ _ _ (Hw : legal prov _ (Lookup h k magma_ctr_acpkm_omac)) I H2) as (A2 & _).
  destruct Hk as [-> | ->]; exact A2.
Qed.
End Histories.

(** With the engine, the names lead to the same objects as the engine's own lookup. *)
Theorem C59_names_same_object : forall first l h, (1192 < first)%N -> all_legal false empty l -> w_engine (final false empty l) = Some h ->
  let s := fst (run false (start first) l) in
  (forall i n, nth_error (offered first (final false empty l) E_cipher) i = Some n ->
     snd (step false s (ByName (Nm_cipher i))) = snd (step false s (Lookup h E_cipher n))) /\
  (forall i n, nth_error (offered first (final false empty l) E_digest) i = Some n ->
     snd (step false s (ByName (Nm_digest i))) = snd (step false s (Lookup h E_digest n))) /\
  snd (step false s (ByName (Nm_alias 2))) = snd (step false s (Lookup h E_digest streebog_256)) /\
  snd (step false s (ByName (Nm_alias 3))) = snd (step false s (Lookup h E_digest streebog_512)).
Proof.
  intros first l h Hf Hl Hw s. destruct (run_ok false first Hf l empty (start first) _ Hl (Inv_start false first)) as (_ & Lk & I & _). fold s in I.
  set (w := final false empty l) in *. pose proof (iv_load _ _ _ _ _ I) as Ld. rewrite Hw in Ld. destruct (ld_names _ _ _ _ _ Ld eq_refl) as (N1 & N2 & N3).
  pose proof (proj2 (iv_eng _ _ _ _ _ I h) Hw) as He.
  assert (forall n L i, NoDup L -> nth_error L i = Some n -> position n L 0 = Some i) as Hpos.
  { intros n L i ND Hi. destruct (position n L 0) as [j|] eqn:Hp.
    - apply position_Some in Hp as (_ & Hj & Hn & _). rewrite Nat.sub_0_r in Hn. f_equal. apply nth_error_split in Hi as Hi'.
      assert (i < length L) as Hil by (apply nth_error_Some; congruence). apply (nth_inj L j i ND Hj Hil). rewrite Hn. symmetry. exact (nth_error_nth L i 0%N Hi).
    - apply position_None in Hp. apply nth_error_In in Hi. assert (existsb (N.eqb n) L = true) as E by (apply existsb_exists; exists n; split; [exact Hi|apply N.eqb_refl]). congruence. }
  assert (forall i n, nth_error digest_array i = Some n -> snd (step false s (ByName (Nm_digest i))) = snd (step false s (Lookup h E_digest n))) as HD.
  { intros i n Hi. cbn [step]. rewrite He. cbn [lookup]. rewrite (Hpos n _ i NoDup_digests Hi).
    assert (i < 8) as Hi8 by (apply (nth_error_Some digest_array i); congruence). destruct (N3 i Hi8) as (id & E1 & E2).
    unfold init_digest. rewrite E2. cbn [snd fst by_name]. rewrite E1. reflexivity. }
  split; [|split; [exact HD|split]].
  - rewrite <- (cipher_nids_eq false first w s Lk Ld). intros i n Hi. cbn [step]. rewrite He. cbn [lookup].
    rewrite (Hpos n _ i (NoDup_ciphers s (loaded_nids false first Hf _ _ _ Ld)) Hi).
    assert (i < length (cipher_nids s)) as Hi8 by (apply nth_error_Some; congruence). unfold cipher_nids in Hi8. rewrite map_length in Hi8. change (length cipher_array) with 20 in Hi8.
    destruct (N2 i Hi8) as (id & E1 & E2). unfold init_cipher. rewrite E2. cbn [snd fst by_name]. rewrite E1. reflexivity.
  - rewrite <- (HD 2 streebog_256 eq_refl). cbn [step by_name]. rewrite N1. reflexivity.
  - rewrite <- (HD 3 streebog_512 eq_refl). cbn [step by_name]. rewrite N1. reflexivity.
Qed.

(** ** Outside the legal histories *)
Definition fine : nat -> bool := fun _ => false.
(** Defect: the provider may be loaded in two library contexts, but has one set of variables.  The second load loses the
    first's objects; after one of them is unloaded the other finds no methods; unloading that one too frees memory twice. *)
Theorem C59_two_providers_refuted : forall first,
  let l := [Load_engine true fine; Load_engine true fine; Unload 0; Lookup 1 E_pmeth gost2012_256] in
  nth 3 (snd (run true (start first) l)) Gone = Answer 1 None /\
  (exists id o, s_heap (fst (run true (start first) l)) id = Some o /\ o_alive o = true) /\
  s_bad (fst (run true (start first) l)) = false /\ s_bad (fst (run true (start first) (l ++ [Unload 1]))) = true.
Proof. intros first l. split; [reflexivity|]. split; [exists 0, (mk_obj K_asn1 (first + 0) true); split; reflexivity|]. split; reflexivity. Qed.
(** Defect: the names stay when the engine is destroyed and lead to freed objects. *)
Theorem C59_names_after_unload_refuted : forall first i, i < 20 ->
  exists id k n, nth 2 (snd (run false (start first) [Load_engine true fine; Unload 0; ByName (Nm_cipher i)])) Gone = Answer 1 (Some (id, Some (mk_obj k n false))).
Proof.
  intros first i Hi. exists (20 + i), K_cipher, (nth i (ciphers first (first + 1)) 0%N).
  do 20 (destruct i as [|i]; [vm_compute; reflexivity|]). lia.
Qed.
(** Defect: a load that fails at the second number keeps the first's object for good. *)
Theorem C59_failed_load_leaks_refuted : forall first,
  let l := [Load_engine true (Nat.eqb 3); Load_engine true fine; Unload 0] in
  nth 0 (snd (run false (start first) l)) Gone = Engine None /\ nth 1 (snd (run false (start first) l)) Gone = Engine (Some 0) /\
  s_heap (fst (run false (start first) l)) 0 = Some (mk_obj K_asn1 (first + 0) true).
Proof. intros first l. split; [reflexivity|]. split; reflexivity. Qed.

(** ** A history that meets the hypotheses: a wrong id, a failed load, a load, a refused one, lookups, unloading, loading again *)
Definition C59_history : list call :=
  [Load_engine false fine; Load_engine true (Nat.eqb 7); Load_engine true fine; Load_engine true fine; Nids 0 E_cipher; Lookup 0 E_digest streebog_256;
   Lookup 0 E_cipher 1196; ByName (Nm_alias 2); Unload 0; Load_engine true fine; Lookup 1 E_cipher 1198; Lookup 1 E_ameth gost2012_512; Unload 1].
Example C59_history_legal : all_legal false empty C59_history /\ existsb leaky C59_history = false /\ w_engine (final false empty C59_history) = None.
Proof. cbn. repeat split; try discriminate; try (intros; discriminate). right. left. discriminate. Qed.
Definition number_of (r : result) : option N := match r with Answer _ (Some (_, Some o)) => Some (o_nid o) | Engine (Some h) => Some (N.of_nat h) | _ => None end.
Example C59_history_answers : map number_of (snd (run false (start 1194) C59_history)) =
  [None; None; Some 0; None; None; Some 982; Some 1196; Some 982; None; Some 1; Some 1198; Some 980; None]%N.
Proof. reflexivity. Qed.
Example C59_history_provider : all_legal true empty [Load_engine true fine; Lookup 0 E_cipher kuznyechik_ecb; Unload 0; Load_engine true fine; Unload 1].
Proof. cbn. repeat split; intros; discriminate. Qed.

Print Assumptions C59_histories.
Print Assumptions C59_nothing_left.
Print Assumptions C59_same_object.
Print Assumptions C59_listed.
Print Assumptions C59_listed_method_missing_refuted.
Print Assumptions C59_names_same_object.
Print Assumptions C59_two_providers_refuted.
Print Assumptions C59_names_after_unload_refuted.
Print Assumptions C59_failed_load_leaks_refuted.
