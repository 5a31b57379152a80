(** What holds between the calls of a legal history. *)
From Coq Require Import ZArith NArith List Bool Lia.
From Verif Require Import EngModel EngSpec EngProofs.
Import ListNotations.
Local Open Scope nat_scope.

Lemma if_same_engines (b : bool) s : s_engines (if b then s else bind_engine s) = s_engines s.
Proof.
  destruct b; [reflexivity|]. unfold bind_engine.
  assert (forall l s, s_engines (fold_left bind_cipher l s) = s_engines s) as A.
  { induction l as [|i l IH]; intros s0; [reflexivity|]. cbn [fold_left]. rewrite IH. unfold bind_cipher, init_cipher. destruct (s_ptr s0 (F_ci i)); reflexivity. }
  assert (forall l s, s_engines (fold_left bind_digest l s) = s_engines s) as B.
  { induction l as [|i l IH]; intros s0; [reflexivity|]. cbn [fold_left]. rewrite IH. unfold bind_digest, init_digest. destruct (s_ptr s0 (F_md i)); [reflexivity|].
    unfold alloc. destruct (has_alias i); reflexivity. }
  rewrite B, A. reflexivity.
Qed.
Lemma Own_frame_engines s D Lk e : Own s D Lk -> Own (with_engines s e) D Lk.
Proof. intros [A B C E G]. constructor; assumption. Qed.

Lemma position_Some n l : forall k i, position n l k = Some i -> k <= i /\ i < k + length l /\ nth (i - k) l 0%N = n /\ existsb (N.eqb n) l = true.
Proof.
  induction l as [|m l IH]; intros k i H; cbn [position] in H; [discriminate|]. cbn [existsb length]. destruct (N.eqb_spec n m) as [->|].
  - injection H as <-. rewrite Nat.sub_diag. repeat split; try lia; reflexivity.
  - apply IH in H as (H1 & H2 & H3 & H4). split; [lia|]. split; [lia|]. split; [|exact H4]. replace (i - k) with (S (i - S k)) by lia. exact H3.
Qed.
Lemma position_None n l : forall k, position n l k = None -> existsb (N.eqb n) l = false.
Proof.
  induction l as [|m l IH]; intros k H; cbn [position existsb] in *; [reflexivity|]. destruct (n =? m)%N; [discriminate|]. exact (IH _ H).
Qed.
Lemma nth_mark (l : list bool) h j : h < length l -> nth j (firstn h l ++ false :: skipn (S h) l) false = if j =? h then false else nth j l false.
Proof.
  revert h j. induction l as [|a l IH]; intros h j Hh; cbn [length] in Hh; [lia|]. destruct h as [|h]; destruct j as [|j]; try reflexivity.
  cbn [firstn skipn app nth Nat.eqb]. apply IH. lia.
Qed.
Lemma length_mark (l : list bool) h : h < length l -> length (firstn h l ++ false :: skipn (S h) l) = length l.
Proof. intros Hh. rewrite app_length. cbn [length]. rewrite firstn_length, skipn_length. lia. Qed.
Lemma clear_grow (c : nat -> field) (step : state -> nat -> state) (al : nat -> nat -> bool) l s Lk :
  (forall i j, c i = c j -> i = j) ->
  (forall s i D Lk, nids_ok s -> Own s D Lk -> D (c i) = true ->
     Own (step s i) (minus D (c i)) Lk /\ frame s (step s i) /\ (forall g, s_ptr (step s i) g = if field_eqb (c i) g then None else s_ptr s g) /\
     (forall j, s_alias (step s i) j = if al i j then false else s_alias s j)) ->
  nids_ok s -> Own s all_fields Lk -> NoDup l ->
  let s' := fold_left step l s in Own s' all_fields Lk /\ frame s s' /\ (forall j, s_alias s' j = true -> s_alias s j = true).
Proof.
  intros Ci St Hn O Hd. destruct (clear_all c step al Ci St l s all_fields Lk Hn O Hd (fun _ _ => eq_refl)) as (O1 & F1 & P1 & A1).
  cbv zeta. split; [|split; [exact F1|]].
  - apply (Own_grow _ _ Lk O1). intros f Hf. rewrite P1. unfold minus_all, all_fields in Hf. rewrite Bool.andb_true_r, Bool.negb_false_iff in Hf. rewrite Hf. reflexivity.
  - intros j Hj. rewrite A1 in Hj. destruct (existsb (fun i => al i j) l); [discriminate|exact Hj].
Qed.
Lemma succeeds_split fail : succeeds fail = negb (fail 0 || fail 1 || fail 2 || fail 3) && negb (existsb fail (meth_steps meth_array 0)).
Proof.
  unfold succeeds. rewrite steps_eq, existsb_app, Bool.negb_orb. cbn [existsb]. rewrite !Bool.orb_assoc, Bool.orb_false_r. reflexivity.
Qed.
Lemma nth_snoc (l : list bool) j : nth j (l ++ [true]) false = true <-> nth j l false = true \/ j = length l.
Proof.
  destruct (lt_eq_lt_dec j (length l)) as [[H|H]|H].
  - rewrite app_nth1 by exact H. split; [intros E; left; exact E|intros [E|E]; [exact E|lia]].
  - rewrite app_nth2, H, Nat.sub_diag by lia. split; [intros _; right; reflexivity|reflexivity].
  - rewrite (nth_overflow (l ++ _)) by (rewrite app_length; cbn [length]; lia). rewrite (nth_overflow l) by lia. split; [discriminate|intros [E|E]; [discriminate|lia]].
Qed.
Lemma clean_bad s Lk : Clean s Lk -> s_bad s = false. Proof. intros [O _]. exact (ow_bad _ _ _ O). Qed.

Section Laws.
Variable prov : bool.
Variable first : N.
Hypothesis Hfirst : (1192 < first)%N.

Record Loaded (w : world) (s : state) (Lk : nat -> Prop) : Prop := mk_Loaded {
  ld_own : Own s all_fields Lk;
  ld_tries : w_tries w <> 0;
  ld_kuz : s_kuz s = kuznyechik_mgm first w;
  ld_magma : s_magma s = magma_mgm first w;
  ld_meth : forall i, i < 10 -> i <> 8 -> s_ptr s (F_pm i) <> None /\ s_ptr s (F_am i) <> None;
  ld_names : prov = false -> (forall j, s_alias s j = has_alias j) /\
    (forall j, j < 20 -> exists id, s_ci_names s j = Some id /\ s_ptr s (F_ci j) = Some id) /\
    (forall j, j < 8 -> exists id, s_md_names s j = Some id /\ s_ptr s (F_md j) = Some id) }.
Record Inv (w : world) (s : state) (Lk : nat -> Prop) : Prop := mk_Inv {
  iv_next : s_next s = (first + 2 * N.of_nat (w_tries w))%N;
  iv_len : length (s_engines s) = w_loads w;
  iv_eng : forall h, nth h (s_engines s) false = true <-> w_engine w = Some h;
  iv_range : forall j, (20 <= j -> s_ci_names s j = None) /\ (8 <= j -> s_md_names s j = None);
  iv_none : prov = true \/ w_loads w = 0 -> forall j, s_ci_names s j = None /\ s_md_names s j = None;
  iv_alias : forall j, s_alias s j = true -> has_alias j = true;
  iv_load : match w_engine w with None => Clean s Lk | Some _ => Loaded w s Lk end }.

Lemma Inv_start : Inv empty (start first) (fun _ => False).
Proof using prov first.
  clear Hfirst.
  constructor; cbn [empty w_tries w_loads w_engine start s_next s_engines s_ci_names s_md_names s_alias]; try (intros; split; reflexivity); try discriminate.
  - lia.
  - intros h. destruct h; cbn [nth]; split; discriminate.
  - split; [|reflexivity]. constructor; cbn [start s_bad s_heap s_n s_ptr]; try reflexivity; try discriminate. intros id [].
Qed.
Lemma loaded_nids w s Lk : Loaded w s Lk -> nids_ok s.
Proof using Hfirst. intros [_ _ Hk Hm _ _]. unfold nids_ok. rewrite Hk, Hm. unfold magma_mgm, kuznyechik_mgm. lia. Qed.

(** ** Lists of numbers *)
Lemma cipher_nids_eq w s Lk : Loaded w s Lk -> cipher_nids s = offered first w E_cipher.
Proof. intros [_ _ Hk Hm _ _]. unfold cipher_nids, cipher_array, offered. cbn [map cnid_val]. rewrite Hk, Hm. reflexivity. Qed.
Lemma nids_eq w s Lk k : Loaded w s Lk -> nids s k = (Z.of_nat (length (offered first w k)), offered first w k).
Proof. intros H. destruct k; try reflexivity. cbn [nids]. rewrite (cipher_nids_eq w s Lk H). reflexivity. Qed.

(** ** Looking up *)
Lemma keep_loaded w s s' Lk : Loaded w s Lk -> Own s' all_fields Lk -> frame s s' -> (forall g id, s_ptr s g = Some id -> s_ptr s' g = Some id) ->
  (prov = false -> forall j, s_alias s' j = has_alias j) -> Loaded w s' Lk.
Proof.
  intros [O T Hk Hm M Nm] O' (F1 & F2 & F3 & F4 & F5 & F6) P A. constructor; try assumption; try congruence.
  - intros i Hi N. destruct (M i Hi N) as [M1 M2].
    destruct (s_ptr s (F_pm i)) as [a|] eqn:E1; [|contradiction]. destruct (s_ptr s (F_am i)) as [b|] eqn:E2; [|contradiction].
    rewrite (P _ _ E1), (P _ _ E2). split; discriminate.
  - intros Hp. destruct (Nm Hp) as (N1 & N2 & N3). split; [exact (A Hp)|]. split.
    + intros j Hj. destruct (N2 j Hj) as (id & E1 & E2). exists id. rewrite F4. split; [exact E1|exact (P _ _ E2)].
    + intros j Hj. destruct (N3 j Hj) as (id & E1 & E2). exists id. rewrite F5. split; [exact E1|exact (P _ _ E2)].
Qed.
Lemma keep_inv w s s' Lk h : w_engine w = Some h -> Inv w s Lk -> Own s' all_fields Lk -> frame s s' -> (forall g id, s_ptr s g = Some id -> s_ptr s' g = Some id) ->
  (forall j, s_alias s' j = s_alias s j \/ has_alias j = true /\ s_alias s' j = true) -> Inv w s' Lk.
Proof.
  intros Hw [I1 I2 I3 I4 I5 I6 I7] O' F P A. rewrite Hw in I7. pose proof F as (F1 & F2 & F3 & F4 & F5 & F6). constructor.
  - rewrite F3. exact I1.
  - rewrite F6. exact I2.
  - rewrite F6. exact I3.
  - rewrite F4, F5. exact I4.
  - rewrite F4, F5. exact I5.
  - intros j Hj. destruct (A j) as [E|[E _]]; [apply I6; rewrite <- E; exact Hj|exact E].
  - rewrite Hw. apply (keep_loaded w s s' Lk I7 O' F P). intros Hp j. destruct (ld_names _ _ _ I7 Hp) as (N1 & _).
    destruct (A j) as [E|[E1 E2]]; [rewrite E; apply N1|congruence].
Qed.
Lemma lookup_ok w s Lk h k n s' r : w_engine w = Some h -> Inv w s Lk -> lookup s k n = (s', r) ->
  Inv w s' Lk /\ agrees (Answer (fst r) (view s' (snd r))) (expect prov first w (Lookup h k n)) /\
  (forall g id, s_ptr s g = Some id -> s_ptr s' g = Some id) /\
  snd r = match position n (offered first w k) 0 with
          | Some i => s_ptr s' (match k with E_digest => F_md i | E_cipher => F_ci i | E_pmeth => F_pm i | E_ameth => F_am i end)
          | None => None
          end.
Proof using Hfirst.
  intros Hw I Hl. pose proof (iv_load _ _ _ I) as Ld. rewrite Hw in Ld. cbn [expect]. destruct k; cbn [lookup] in Hl.
  - change (offered first w E_digest) with digest_array. destruct (position n digest_array 0) as [i|] eqn:Hp.
    + apply position_Some in Hp as (_ & Hi & Hn & He). rewrite Nat.sub_0_r in Hn. change (0 + length digest_array) with 8 in Hi.
      destruct (init_digest s i) as [s1 p] eqn:Hq. injection Hl as <- <-.
      destruct (init_digest_spec s i s1 p Hi Hq Lk (ld_own _ _ _ Ld)) as (O1 & F1 & (id & -> & Pi & Hh) & K1 & P1 & A1 & _).
      split; [apply (keep_inv w s s1 Lk h Hw I O1 F1 K1); intros j; destruct (A1 j) as [E|(_ & E1 & _ & E2)]; [left; exact E|right; split; assumption]|].
      split; [|split; [exact K1|symmetry; exact Pi]]. rewrite He. cbn [agrees fst snd view option_map kind_of]. exists id. rewrite Hh, Hn. reflexivity.
    + injection Hl as <- <-. rewrite (position_None _ _ _ Hp). split; [exact I|]. split; [reflexivity|]. split; [intros g id H; exact H|reflexivity].
  - rewrite <- (cipher_nids_eq w s Lk Ld). destruct (position n (cipher_nids s) 0) as [i|] eqn:Hp.
    + apply position_Some in Hp as (_ & Hi & Hn & He). rewrite Nat.sub_0_r in Hn. unfold cipher_nids in Hi. rewrite map_length in Hi. change (0 + length cipher_array) with 20 in Hi.
      destruct (init_cipher s i) as [s1 p] eqn:Hq. injection Hl as <- <-.
      destruct (init_cipher_spec s i s1 p Hi Hq Lk (ld_own _ _ _ Ld)) as (O1 & F1 & (id & -> & Pi & Hh) & K1 & P1 & A1).
      split; [apply (keep_inv w s s1 Lk h Hw I O1 F1 K1); intros j; left; rewrite A1; reflexivity|].
      split; [|split; [exact K1|symmetry; exact Pi]]. rewrite He. cbn [agrees fst snd view option_map kind_of]. exists id. rewrite Hh, Hn. reflexivity.
    + injection Hl as <- <-. rewrite (position_None _ _ _ Hp). split; [exact I|]. split; [reflexivity|]. split; [intros g id H; exact H|reflexivity].
  - change (offered first w E_pmeth) with meth_array. destruct (position n meth_array 0) as [i|] eqn:Hp; injection Hl as <- <-; (split; [exact I|]).
    + split; [|split; [intros g id H; exact H|reflexivity]]. apply position_Some in Hp as (_ & Hi & Hn & He). rewrite Nat.sub_0_r in Hn. change (0 + length meth_array) with 10 in Hi.
      rewrite He. cbn [fst snd].
      assert ((n =? magma_ctr_acpkm_omac)%N = (i =? 8)) as E8.
      { rewrite <- Hn. clear - Hi. do 10 (destruct i as [|i]; [reflexivity|]). lia. }
      rewrite E8. destruct (Nat.eqb_spec i 8) as [->|N8].
      * destruct (s_ptr s (F_pm 8)) as [id|] eqn:P; [|reflexivity]. destruct (ow_ptr _ _ _ (ld_own _ _ _ Ld) _ id eq_refl P) as (V & _). discriminate.
      * destruct (ld_meth _ _ _ Ld i Hi N8) as [M1 _]. destruct (s_ptr s (F_pm i)) as [id|] eqn:P; [|contradiction].
        destruct (ow_ptr _ _ _ (ld_own _ _ _ Ld) _ id eq_refl P) as (_ & _ & Hh). cbn [sig fst snd] in Hh. cbn [agrees view option_map kind_of]. exists id. rewrite Hh, Hn. reflexivity.
    + split; [|split; [intros g id H; exact H|reflexivity]]. rewrite (position_None _ _ _ Hp). reflexivity.
  - change (offered first w E_ameth) with meth_array. destruct (position n meth_array 0) as [i|] eqn:Hp; injection Hl as <- <-; (split; [exact I|]).
    + split; [|split; [intros g id H; exact H|reflexivity]]. apply position_Some in Hp as (_ & Hi & Hn & He). rewrite Nat.sub_0_r in Hn. change (0 + length meth_array) with 10 in Hi.
      rewrite He. cbn [fst snd].
      assert ((n =? magma_ctr_acpkm_omac)%N = (i =? 8)) as E8.
      { rewrite <- Hn. clear - Hi. do 10 (destruct i as [|i]; [reflexivity|]). lia. }
      rewrite E8. destruct (Nat.eqb_spec i 8) as [->|N8].
      * destruct (s_ptr s (F_am 8)) as [id|] eqn:P; [|reflexivity]. destruct (ow_ptr _ _ _ (ld_own _ _ _ Ld) _ id eq_refl P) as (V & _). discriminate.
      * destruct (ld_meth _ _ _ Ld i Hi N8) as [_ M1]. destruct (s_ptr s (F_am i)) as [id|] eqn:P; [|contradiction].
        destruct (ow_ptr _ _ _ (ld_own _ _ _ Ld) _ id eq_refl P) as (_ & _ & Hh). cbn [sig fst snd] in Hh. cbn [agrees view option_map kind_of]. exists id. rewrite Hh, Hn. reflexivity.
    + split; [|split; [intros g id H; exact H|reflexivity]]. rewrite (position_None _ _ _ Hp). reflexivity.
Qed.

(** ** By name *)
Lemma name_ok w s Lk nm : Inv w s Lk -> legal prov w (ByName nm) ->
  agrees (Answer (match by_name s nm with Some _ => 1 | None => 0 end) (view s (by_name s nm))) (expect prov first w (ByName nm)).
Proof using Hfirst.
  intros I Hl. cbn [legal] in Hl. cbn [expect].
  assert (prov = true \/ w_loads w = 0 -> by_name s nm = None) as Q.
  { intros H. pose proof (iv_none _ _ _ I H) as HN. destruct nm as [i|i|i]; cbn [by_name]; [apply HN|apply HN|]. destruct (s_alias s i); [apply HN|reflexivity]. }
  destruct prov eqn:Ep; [rewrite (Q (or_introl eq_refl)); reflexivity|].
  destruct (w_engine w) as [h|] eqn:Hw.
  2: { destruct Hl as [Hl|[Hl|Hl]]; [discriminate|contradiction|]. rewrite (Q (or_intror Hl)). reflexivity. }
  pose proof (iv_load _ _ _ I) as Ld. rewrite Hw in Ld. destruct (ld_names _ _ _ Ld Ep) as (N1 & N2 & N3). pose proof (ld_own _ _ _ Ld) as O.
  destruct nm as [i|i|i]; cbn [by_name].
  - rewrite <- (cipher_nids_eq w s Lk Ld). destruct (lt_dec i 20) as [Hi|Hi].
    + destruct (N2 i Hi) as (id & E1 & E2). rewrite E1. destruct (ow_ptr _ _ _ O _ id eq_refl E2) as (_ & _ & Hh). cbn [sig fst snd] in Hh.
      assert (nth_error (cipher_nids s) i = Some (nth i (cipher_nids s) 0%N)) as En by (apply nth_error_nth'; unfold cipher_nids; rewrite map_length; exact Hi).
      rewrite En. cbn [option_map agrees view]. exists id. rewrite Hh. reflexivity.
    + rewrite (proj1 (iv_range _ _ _ I i)) by lia.
      replace (nth_error (cipher_nids s) i) with (@None N) by (symmetry; apply nth_error_None; unfold cipher_nids; rewrite map_length; change (length cipher_array) with 20; lia).
      reflexivity.
  - change (offered first w E_digest) with digest_array. destruct (lt_dec i 8) as [Hi|Hi].
    + destruct (N3 i Hi) as (id & E1 & E2). rewrite E1. destruct (ow_ptr _ _ _ O _ id eq_refl E2) as (_ & _ & Hh). cbn [sig fst snd] in Hh.
      assert (nth_error digest_array i = Some (nth i digest_array 0%N)) as En by (apply nth_error_nth'; exact Hi).
      rewrite En. cbn [option_map agrees view]. exists id. rewrite Hh. reflexivity.
    + rewrite (proj2 (iv_range _ _ _ I i)) by lia.
      replace (nth_error digest_array i) with (@None N) by (symmetry; apply nth_error_None; change (length digest_array) with 8; lia).
      reflexivity.
  - rewrite N1. destruct i as [|[|[|[|i]]]]; try reflexivity.
    + destruct (N3 2 ltac:(lia)) as (id & E1 & E2). cbn [has_alias Nat.eqb orb]. rewrite E1. destruct (ow_ptr _ _ _ O _ id eq_refl E2) as (_ & _ & Hh).
      cbn [view option_map agrees]. exists id. rewrite Hh. reflexivity.
    + destruct (N3 3 ltac:(lia)) as (id & E1 & E2). cbn [has_alias Nat.eqb orb]. rewrite E1. destruct (ow_ptr _ _ _ O _ id eq_refl E2) as (_ & _ & Hh).
      cbn [view option_map agrees]. exists id. rewrite Hh. reflexivity.
Qed.

(** ** Unloading *)
Lemma unload_ok w s Lk h : w_engine w = Some h -> Inv w s Lk -> Inv (next prov w (Unload h)) (unload prov s h) Lk.
Proof using Hfirst.
  intros Hw I. pose proof (iv_load _ _ _ I) as Ld. rewrite Hw in Ld. pose proof (loaded_nids _ _ _ Ld) as Hn.
  unfold unload. set (s1 := if prov then _ else s).
  assert (Own s1 all_fields Lk /\ frame s s1 /\ forall j, s_alias s1 j = true -> s_alias s j = true) as (O1 & F1 & A1).
  { unfold s1. destruct prov; [|split; [exact (ld_own _ _ _ Ld)|split; [apply frame_refl|intros j H; exact H]]].
    assert (forall i j, F_md i = F_md j -> i = j) as Cm by (intros i j H; injection H as H; exact H).
    assert (forall i j, F_ci i = F_ci j -> i = j) as Cc by (intros i j H; injection H as H; exact H).
    assert (NoDup prov_ciphers /\ NoDup prov_digests /\ NoDup prov_macs) as (D1 & D2 & D3)
      by (split; [|split]; repeat constructor; cbn [In]; intros H; decompose [or] H; try discriminate; contradiction).
    destruct (clear_grow F_ci deinit_cipher (fun _ _ => false) prov_ciphers s Lk Cc (fun s i D Lk H1 H2 H3 => let (a, b) := deinit_cipher_spec s i D Lk H1 H2 H3 in
              conj a (let (c, d) := b in conj c (let (e, f) := d in conj e (fun j => f_equal (fun g => g j) f)))) Hn (ld_own _ _ _ Ld) D1) as (Oa & Fa & Aa).
    set (sa := fold_left deinit_cipher prov_ciphers s) in *.
    destruct (clear_grow F_md deinit_digest (fun i j => has_alias i && (i =? j)) prov_digests sa Lk Cm (fun s i D Lk => deinit_digest_spec s i D Lk)
              (nids_ok_frame _ _ Fa Hn) Oa D2) as (Ob & Fb & Ab).
    set (sb := fold_left deinit_digest prov_digests sa) in *. pose proof (frame_trans _ _ _ Fa Fb) as Fab.
    destruct (clear_grow F_md deinit_digest (fun i j => has_alias i && (i =? j)) prov_macs sb Lk Cm (fun s i D Lk => deinit_digest_spec s i D Lk)
              (nids_ok_frame _ _ Fab Hn) Ob D3) as (Oc & Fc & Ac).
    set (sc := fold_left deinit_digest prov_macs sb) in *.
    split; [exact Oc|]. split; [exact (frame_trans _ _ _ Fab Fc)|]. intros j H. exact (Aa j (Ab j (Ac j H))). }
  destruct (engine_free_spec s1 Lk (nids_ok_frame _ _ F1 Hn) O1) as (C2 & F2 & A2). set (s2 := engine_free s1) in *.
  pose proof (frame_trans _ _ _ F1 F2) as (E1 & E2 & E3 & E4 & E5 & E6).
  assert (h < length (s_engines s2)) as Hh.
  { rewrite E6. destruct (lt_dec h (length (s_engines s))) as [H|H]; [exact H|]. pose proof (proj2 (iv_eng _ _ _ I h) Hw) as Ht. rewrite nth_overflow in Ht by lia. discriminate. }
  constructor; cbn [next w_tries w_loads w_engine with_engines s_next s_engines s_ci_names s_md_names s_alias].
  - rewrite E3. exact (iv_next _ _ _ I).
  - rewrite length_mark by exact Hh. rewrite E6. exact (iv_len _ _ _ I).
  - intros j. rewrite nth_mark by exact Hh. rewrite E6. split; [|discriminate]. destruct (Nat.eqb_spec j h) as [|N]; [discriminate|].
    intros H. apply (iv_eng _ _ _ I) in H. congruence.
  - rewrite E4, E5. exact (iv_range _ _ _ I).
  - rewrite E4, E5. exact (iv_none _ _ _ I).
  - intros j Hj. rewrite A2 in Hj. destruct (has_alias j) eqn:Ea; [reflexivity|]. rewrite <- Ea. exact (iv_alias _ _ _ I j (A1 j Hj)).
  - destruct C2 as [O2 P2]. split; [|exact P2]. apply (none_any s2); [exact O2|reflexivity|reflexivity|reflexivity].
Qed.

(** ** Loading *)
Lemma load_ok w s Lk idok fail s' r : (prov = true -> w_engine w = None) -> Inv w s Lk -> load prov s idok fail = (s', r) ->
  r = (if refuses prov w idok then None else if succeeds fail then Some (w_loads w) else None) /\
  (exists Lk', Inv (next prov w (Load_engine idok fail)) s' Lk' /\ (fail 2 || fail 3 = false -> Lk' = Lk)) /\
  (w_engine w <> None -> s' = s).
Proof using Hfirst.
  intros Hl I Hq. unfold load in Hq. cbn [next]. pose proof (iv_load _ _ _ I) as Ld.
  assert (negb prov && (negb idok || match s_ptr s (F_am 0) with Some _ => true | None => false end) = refuses prov w idok) as Er.
  { unfold refuses. f_equal. f_equal. destruct (w_engine w) as [h|] eqn:Hw.
    - destruct (ld_meth _ _ _ Ld 0 ltac:(lia) ltac:(lia)) as [_ M]. destruct (s_ptr s (F_am 0)); [reflexivity|contradiction].
    - rewrite (proj2 Ld (F_am 0) eq_refl). reflexivity. }
  rewrite Er in Hq. destruct (refuses prov w idok) eqn:Rf.
  { injection Hq as <- <-. split; [reflexivity|]. split; [exists Lk; split; [exact I|reflexivity]|reflexivity]. }
  assert (w_engine w = None) as Hw.
  { unfold refuses in Rf. destruct prov; [apply Hl; reflexivity|]. cbn [negb andb] in Rf. apply orb_false_iff in Rf as [_ Rf]. destruct (w_engine w); [discriminate|reflexivity]. }
  rewrite Hw in Ld. destruct I as [I1 I2 I3 I4 I5 I6 _]. unfold populate in Hq.
  destruct (create_NIDs fail s) as [s1 ok1] eqn:Hc.
  destruct (create_NIDs_spec fail s Lk s1 ok1 Ld Hc) as (B1 & B2 & B3 & B4 & B5 & B6 & B7 & B8 & B9).
  rewrite succeeds_split, <- B1. rewrite I1 in B2.
  assert (forall wl we, (we = None \/ we = Some (w_loads w)) -> s_next s1 = (first + 2 * N.of_nat (w_tries (mk_world we (S (w_tries w)) wl)))%N) as Nx
    by (intros wl we _; cbn [w_tries]; rewrite B2; lia).
  destruct ok1.
  2: { injection Hq as <- <-. destruct (B9 eq_refl) as (Lk' & Cl & HL). cbn [andb]. split; [reflexivity|].
       split; [|intros H; contradiction]. exists Lk'. split; [|intros H; apply orb_false_iff in H as [H1 H2]; exact (HL H1 H2)].
       constructor; cbn [w_tries w_loads w_engine]; rewrite ?B3, ?B4, ?B5, ?B6; try assumption.
       - exact (Nx 0 None (or_introl eq_refl)).
       - rewrite Hw. exact Cl. }
  destruct (B8 eq_refl) as (Kz & Km & O1 & Pn0 & Pn1).
  destruct (register_meths fail s1 meth_array 0) as [s2 ok2] eqn:Hr.
  destruct (register_spec fail meth_array 0 s1 Lk s2 ok2 eq_refl eq_refl O1) as (C1 & C2 & C3 & C4 & C5 & C6 & C7); [intros j _; split; apply B7; reflexivity|exact Hr|].
  rewrite <- C1. assert (fail 2 || fail 3 = false) as NL.
  { symmetry in B1. apply negb_true_iff in B1. rewrite <- !Bool.orb_assoc in B1. apply orb_false_iff in B1 as [_ B1]. apply orb_false_iff in B1 as [_ B1]. exact B1. }
  assert (nids_ok s1) as Hn1 by (unfold nids_ok; rewrite Kz, Km, I1; lia).
  pose proof C3 as (F1 & F2 & F3 & F4 & F5 & F6). cbn [andb]. destruct ok2.
  - injection Hq as <- <-. split; [rewrite (if_same_engines prov s2), F6, B5, I2; reflexivity|].
    split; [|intros H; contradiction]. exists Lk. split; [|reflexivity].
    assert (forall j, s_ptr s2 (F_md j) = None) as Pm by (intros j; rewrite C5 by reflexivity; apply B7; reflexivity).
    assert (forall j, s_alias s2 j = true -> has_alias j = true) as Al by (intros j; rewrite C4, B6; apply I6).
    destruct (bind_spec s2 Lk C2 Pm Al) as (D1 & (K1 & K2 & K3 & K4 & K5) & D3 & D4 & D4' & D5 & D5').
    set (s3 := if prov then s2 else bind_engine s2).
    assert (Own s3 all_fields Lk) as O3 by (unfold s3; destruct prov; assumption).
    assert (s_kuz s3 = s_kuz s2 /\ s_magma s3 = s_magma s2 /\ s_next s3 = s_next s2 /\ s_engines s3 = s_engines s2) as (G1 & G2 & G3 & G4)
      by (unfold s3; destruct prov; repeat split; assumption).
    assert (forall g id, s_ptr s2 g = Some id -> s_ptr s3 g = Some id) as G5 by (unfold s3; destruct prov; [intros g id H; exact H|exact K5]).
    assert (s_engines s3 = s_engines s) as Es by (rewrite G4, F6, B5; reflexivity).
    constructor; cbn [w_tries w_loads w_engine with_engines s_next s_engines s_ci_names s_md_names s_alias].
    + rewrite G3, F3. exact (Nx 0 None (or_introl eq_refl)).
    + rewrite app_length, Es, I2. cbn [length]. lia.
    + intros j. rewrite Es, nth_snoc, I2. split.
      * intros [H|H]; [apply I3 in H; congruence|congruence].
      * intros H. right. congruence.
    + intros j. unfold s3. destruct prov.
      * rewrite F4, F5, B3, B4. exact (I4 j).
      * split; intros Hj; [rewrite (D4' j Hj), F4, B3; exact (proj1 (I4 j) Hj)|rewrite (D5' j Hj), F5, B4; exact (proj2 (I4 j) Hj)].
    + intros [Hp|Hp]; [|discriminate]. unfold s3. rewrite Hp, F4, F5, B3, B4. exact (I5 (or_introl Hp)).
    + intros j. unfold s3. destruct prov; [exact (Al j)|]. rewrite D3. intros H; exact H.
    + constructor; cbn [with_engines s_kuz s_magma s_ptr s_alias s_ci_names s_md_names w_tries].
      * apply (Own_frame_engines s3). exact O3.
      * discriminate.
      * rewrite G1, F1, Kz, I1. unfold kuznyechik_mgm. cbn [w_tries pred]. reflexivity.
      * rewrite G2, F2, Km, I1. unfold magma_mgm, kuznyechik_mgm. cbn [w_tries pred]. reflexivity.
      * intros i Hi N. destruct (C7 eq_refl i ltac:(lia) N) as [M1 M2].
        destruct (s_ptr s2 (F_pm i)) as [a|] eqn:E1; [|contradiction]. destruct (s_ptr s2 (F_am i)) as [b|] eqn:E2; [|contradiction].
        rewrite (G5 _ _ E1), (G5 _ _ E2). split; discriminate.
      * intros Hp. unfold s3. rewrite Hp. split; [exact D3|]. split; [exact D4|exact D5].
  - injection Hq as <- <-. split; [reflexivity|]. split; [|intros H; contradiction]. exists Lk. split; [|reflexivity].
    destruct (engine_free_spec s2 Lk (nids_ok_frame _ _ C3 Hn1) C2) as (Cl & (H1 & H2 & H3 & H4 & H5 & H6) & A3).
    constructor; cbn [w_tries w_loads w_engine]; rewrite ?H3, ?H4, ?H5, ?H6, ?F3, ?F4, ?F5, ?F6, ?B3, ?B4, ?B5; try assumption.
    + exact (Nx 0 None (or_introl eq_refl)).
    + intros j Hj. rewrite A3 in Hj. destruct (has_alias j) eqn:Ea; [reflexivity|]. rewrite C4, B6 in Hj. rewrite <- Ea. exact (I6 j Hj).
    + rewrite Hw. exact Cl.
Qed.

(** ** A call *)
Lemma step_ok w s Lk c s' r : legal prov w c -> Inv w s Lk -> step prov s c = (s', r) ->
  agrees r (expect prov first w c) /\ (exists Lk', Inv (next prov w c) s' Lk' /\ (leaky c = false -> Lk' = Lk)) /\
  ((forall h, c <> Unload h) -> w_engine w <> None -> keeps s s').
Proof using Hfirst.
  intros Hl I Hs. destruct c as [idok fail|h|h k|h k n|nm]; cbn [step] in Hs.
  - destruct (load prov s idok fail) as [s1 p] eqn:Hq. injection Hs as <- <-. destruct (load_ok w s Lk idok fail s1 p Hl I Hq) as (E & E2 & E3).
    split; [cbn [expect agrees]; rewrite E; reflexivity|]. split; [exact E2|]. intros _ Hw. rewrite (E3 Hw). apply keeps_refl.
  - cbn [legal] in Hl. rewrite (proj2 (iv_eng _ _ _ I h) Hl) in Hs. injection Hs as <- <-. split; [reflexivity|].
    split; [exists Lk; split; [exact (unload_ok w s Lk h Hl I)|reflexivity]|]. intros H. contradiction (H h eq_refl).
  - cbn [legal] in Hl. rewrite (proj2 (iv_eng _ _ _ I h) Hl) in Hs. pose proof (iv_load _ _ _ I) as Ld. rewrite Hl in Ld.
    rewrite (nids_eq w s Lk k Ld) in Hs. injection Hs as <- <-. split; [reflexivity|]. split; [exists Lk; split; [exact I|reflexivity]|]. intros _ _. apply keeps_refl.
  - cbn [legal] in Hl. rewrite (proj2 (iv_eng _ _ _ I h) Hl) in Hs. destruct (lookup s k n) as [s1 q] eqn:Hq. injection Hs as <- <-.
    destruct (lookup_ok w s Lk h k n s1 q Hl I Hq) as (I' & A & P & _). split; [exact A|]. split; [exists Lk; split; [exact I'|reflexivity]|].
    intros _ _. pose proof (iv_load _ _ _ I) as Ld. pose proof (iv_load _ _ _ I') as Ld'. rewrite Hl in Ld, Ld'.
    split; [rewrite (ld_kuz _ _ _ Ld), (ld_kuz _ _ _ Ld'); reflexivity|]. split; [rewrite (ld_magma _ _ _ Ld), (ld_magma _ _ _ Ld'); reflexivity|].
    split; [rewrite (iv_next _ _ _ I), (iv_next _ _ _ I'); reflexivity|]. split; [|exact P].
    clear - Hq. unfold lookup, init_digest, init_cipher, alloc in Hq.
    destruct k; destruct (position n _ 0) as [i|]; try (injection Hq as <- <-; reflexivity).
    + destruct (s_ptr s (F_md i)); [injection Hq as <- <-; reflexivity|]. injection Hq as <- <-. destruct (has_alias i); reflexivity.
    + destruct (s_ptr s (F_ci i)); injection Hq as <- <-; reflexivity.
  - injection Hs as <- <-. split; [exact (name_ok w s Lk nm I Hl)|]. split; [exists Lk; split; [exact I|reflexivity]|]. intros _ _. apply keeps_refl.
Qed.

(** ** Histories *)
Lemma run_ok l : forall w s Lk, all_legal prov w l -> Inv w s Lk ->
  Forall2 agrees (snd (run prov s l)) (expected prov first w l) /\
  exists Lk', Inv (final prov w l) (fst (run prov s l)) Lk' /\ (existsb leaky l = false -> Lk' = Lk).
Proof using Hfirst.
  induction l as [|c l IH]; intros w s Lk Hl I; cbn [run expected final].
  - split; [constructor|]. exists Lk. split; [exact I|reflexivity].
  - cbn [all_legal] in Hl. destruct Hl as [Hc Hl]. destruct (step prov s c) as [s1 r] eqn:Hs.
    destruct (step_ok w s Lk c s1 r Hc I Hs) as (A & (Lk1 & I1 & E1) & _). destruct (IH (next prov w c) s1 Lk1 Hl I1) as (B & Lk2 & I2 & E2).
    destruct (run prov s1 l) as [s2 rs]. cbn [fst snd] in *. split; [constructor; assumption|]. exists Lk2. split; [exact I2|].
    cbn [existsb]. intros H. apply orb_false_iff in H as [H1 H2]. rewrite (E2 H2). exact (E1 H1).
Qed.
Lemma run_app l1 l2 s : run prov s (l1 ++ l2) = (fst (run prov (fst (run prov s l1)) l2), snd (run prov s l1) ++ snd (run prov (fst (run prov s l1)) l2)).
Proof.
  revert s. induction l1 as [|c l1 IH]; intros s; cbn [run app].
  - cbn [fst snd app]. destruct (run prov s l2); reflexivity.
  - destruct (step prov s c) as [s1 r]. rewrite IH. destruct (run prov s1 l1) as [s2 rs]. reflexivity.
Qed.
Lemma all_legal_app l1 l2 w : all_legal prov w (l1 ++ l2) <-> all_legal prov w l1 /\ all_legal prov (final prov w l1) l2.
Proof. revert w. induction l1 as [|c l1 IH]; intros w; cbn [all_legal final app]; [tauto|]. rewrite IH. tauto. Qed.
Lemma run_length l s : length (snd (run prov s l)) = length l.
Proof. revert s. induction l as [|c l IH]; intros s; [reflexivity|]. cbn [run]. destruct (step prov s c) as [s1 r]. specialize (IH s1). destruct (run prov s1 l). cbn [snd length] in *. rewrite IH. reflexivity. Qed.
Lemma run_keeps l : forall w s Lk, all_legal prov w l -> Inv w s Lk -> w_engine w <> None -> (forall c h, In c l -> c <> Unload h) ->
  keeps s (fst (run prov s l)) /\ final prov w l = w.
Proof using Hfirst.
  induction l as [|c l IH]; intros w s Lk Hl I Hw Hu; cbn [run final].
  - split; [apply keeps_refl|reflexivity].
  - cbn [all_legal] in Hl. destruct Hl as [Hc Hl]. destruct (step prov s c) as [s1 r] eqn:Hs.
    destruct (step_ok w s Lk c s1 r Hc I Hs) as (A & (Lk1 & I1 & E1) & K). specialize (K (fun h => Hu c h (or_introl eq_refl)) Hw).
    assert (next prov w c = w) as En.
    { destruct c as [idok fail|h|h k|h k n|nm]; try reflexivity; [|contradiction (Hu _ h (or_introl eq_refl) eq_refl)].
      cbn [next]. replace (refuses prov w idok) with true; [reflexivity|]. unfold refuses. cbn [legal] in Hc. destruct prov; [contradiction (Hw (Hc eq_refl))|].
      destruct (w_engine w); [|contradiction]. rewrite Bool.orb_true_r. reflexivity. }
    rewrite En in *. destruct (IH w s1 Lk1 Hl I1 Hw (fun d h Hd => Hu d h (or_intror Hd))) as [K2 F2]. destruct (run prov s1 l) as [s2 rs]. cbn [fst] in *.
    split; [exact (keeps_trans _ _ _ K K2)|exact F2].
Qed.
End Laws.
