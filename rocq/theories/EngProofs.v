(** Invariants of the registration model. *)
From Coq Require Import ZArith NArith List Bool Lia.
From Verif Require Import EngModel EngSpec.
Import ListNotations.
Local Open Scope nat_scope.

Lemma field_eqb_eq f g : field_eqb f g = true <-> f = g.
Proof.
  destruct f, g; cbn [field_eqb]; rewrite ?Nat.eqb_eq; split; intros H; try discriminate; try congruence;
    injection H as H; congruence.
Qed.
Lemma field_eqb_refl f : field_eqb f f = true.
Proof. apply field_eqb_eq; reflexivity. Qed.
Lemma field_eqb_sym f g : field_eqb f g = field_eqb g f.
Proof. destruct f, g; try reflexivity; cbn [field_eqb]; apply Nat.eqb_sym. Qed.

Definition valid (f : field) : bool :=
  match f with F_md i => i <? 8 | F_ci i => i <? 20 | F_pm i | F_am i => (i <? 10) && negb (i =? 8) | F_asn1 i => i <? 2 end.
Definition sig (s : state) (f : field) : kind * N :=
  match f with
  | F_md i => (K_md, nth i digest_array 0%N)
  | F_ci i => (K_cipher, nth i (cipher_nids s) 0%N)
  | F_pm i => (K_pmeth, nth i meth_array 0%N)
  | F_am i => (K_ameth, nth i meth_array 0%N)
  | F_asn1 i => (K_asn1, if i =? 0 then s_kuz s else s_magma s)
  end.
Definition nids_ok (s : state) : Prop := (1192 < s_kuz s)%N /\ (s_magma s = s_kuz s + 1)%N.

Lemma nth_inj (l : list N) i j : NoDup l -> i < length l -> j < length l -> nth i l 0%N = nth j l 0%N -> i = j.
Proof. intros H Hi Hj E. exact (proj1 (NoDup_nth l 0%N) H i j Hi Hj E). Qed.
Lemma NoDup_digests : NoDup digest_array.
Proof. repeat constructor; cbn [In]; intros H; decompose [or] H; try discriminate; contradiction. Qed.
Lemma NoDup_meths : NoDup meth_array.
Proof. repeat constructor; cbn [In]; intros H; decompose [or] H; try discriminate; contradiction. Qed.
Lemma NoDup_ciphers s : nids_ok s -> NoDup (cipher_nids s).
Proof.
  intros [H1 H2]. unfold cipher_nids, cipher_array. cbn [map cnid_val].
  repeat constructor; cbn [In]; intros H; decompose [or] H; try discriminate; try contradiction; lia.
Qed.
Lemma sig_inj s f g : nids_ok s -> valid f = true -> valid g = true -> sig s f = sig s g -> f = g.
Proof.
  intros Hn Hf Hg E. destruct f as [i|i|i|i|i], g as [j|j|j|j|j]; cbn [sig] in E; try discriminate; injection E as E; cbn [valid] in Hf, Hg;
    rewrite ?Bool.andb_true_iff, ?Nat.ltb_lt in Hf, Hg.
  - f_equal. exact (nth_inj _ _ _ NoDup_digests Hf Hg E).
  - f_equal. exact (nth_inj _ _ _ (NoDup_ciphers s Hn) Hf Hg E).
  - f_equal. exact (nth_inj _ _ _ NoDup_meths (proj1 Hf) (proj1 Hg) E).
  - f_equal. exact (nth_inj _ _ _ NoDup_meths (proj1 Hf) (proj1 Hg) E).
  - f_equal. destruct Hn as [_ Hn]. destruct i as [|[|i]], j as [|[|j]]; try lia; cbn [Nat.eqb] in E; lia.
Qed.

(** What is owned: the objects pointed to by the fields in [D]; [Lk] are lost. *)
Record Own (s : state) (D : field -> bool) (Lk : nat -> Prop) : Prop := mk_Own {
  ow_bad : s_bad s = false;
  ow_fresh : forall id, s_n s <= id -> s_heap s id = None;
  ow_lost : forall id, Lk id -> id < s_n s;
  ow_ptr : forall f id, D f = true -> s_ptr s f = Some id ->
             valid f = true /\ ~ Lk id /\ s_heap s id = Some (mk_obj (fst (sig s f)) (snd (sig s f)) true);
  ow_alive : forall id o, s_heap s id = Some o -> o_alive o = true -> Lk id \/ exists f, D f = true /\ s_ptr s f = Some id }.
(** What most steps leave alone *)
Definition frame (s s' : state) : Prop :=
  s_kuz s' = s_kuz s /\ s_magma s' = s_magma s /\ s_next s' = s_next s /\ s_ci_names s' = s_ci_names s /\ s_md_names s' = s_md_names s /\
  s_engines s' = s_engines s.
Lemma frame_refl s : frame s s. Proof. repeat split. Qed.
Lemma frame_trans a b c : frame a b -> frame b c -> frame a c.
Proof. intros (A1 & A2 & A3 & A4 & A5 & A6) (B1 & B2 & B3 & B4 & B5 & B6). repeat split; congruence. Qed.
Lemma sig_frame s s' f : frame s s' -> sig s' f = sig s f.
Proof.
  intros (A1 & A2 & _). destruct f; cbn [sig]; try reflexivity; [|rewrite A1, A2; reflexivity].
  unfold cipher_nids. replace (map (cnid_val s') cipher_array) with (map (cnid_val s) cipher_array); [reflexivity|].
  apply map_ext. intros [ | | ]; cbn [cnid_val]; congruence.
Qed.
Lemma Own_frame s s' D Lk : frame s s' -> s_heap s' = s_heap s -> s_n s' = s_n s -> s_ptr s' = s_ptr s -> s_bad s' = s_bad s -> Own s D Lk -> Own s' D Lk.
Proof.
  intros F H1 H2 H3 H4 [A B C E G]. constructor; rewrite ?H1, ?H2, ?H3, ?H4; try assumption.
  intros f id Hd Hp. rewrite (sig_frame _ _ f F). exact (E f id Hd Hp).
Qed.
Definition minus (D : field -> bool) (f : field) : field -> bool := fun g => negb (field_eqb f g) && D g.
Definition plus (D : field -> bool) (f : field) : field -> bool := fun g => field_eqb f g || D g.

(** Freeing what an owned field points to *)
Lemma Own_free s D Lk f : nids_ok s -> Own s D Lk -> D f = true -> Own (free s (s_ptr s f)) (minus D f) Lk /\ frame s (free s (s_ptr s f)) /\
  s_ptr (free s (s_ptr s f)) = s_ptr s /\ s_alias (free s (s_ptr s f)) = s_alias s.
Proof.
  intros Hn [A B C E G] Hf. destruct (s_ptr s f) as [id|] eqn:P; cbn [free].
  - destruct (E f id Hf P) as (V & NL & Hh). rewrite Hh. cbn [o_alive o_kind o_nid].
    split; [|split; [repeat split|split; reflexivity]].
    constructor; cbn [with_heap s_bad s_heap s_n s_ptr].
    + exact A.
    + intros i Hi. unfold set. destruct (Nat.eqb_spec id i) as [Eq|]; [rewrite Eq, (B i Hi) in Hh; discriminate|]. exact (B i Hi).
    + exact C.
    + intros g i Hg Pg. unfold minus in Hg. apply andb_true_iff in Hg as [Hfg Hg]. destruct (E g i Hg Pg) as (V' & NL' & Hh').
      split; [exact V'|]. split; [exact NL'|]. unfold set. destruct (Nat.eqb_spec id i) as [->|].
      * exfalso. rewrite Hh in Hh'. injection Hh' as E1 E2. assert (sig s f = sig s g) as Es by (destruct (sig s f), (sig s g); cbn [fst snd] in E1, E2; congruence).
        apply (sig_inj s f g Hn V V') in Es. subst g. rewrite field_eqb_refl in Hfg. discriminate.
      * exact Hh'.
    + intros i o Hi Ho. unfold set in Hi. destruct (Nat.eqb_spec id i) as [->|Ne].
      * injection Hi as <-. discriminate.
      * destruct (G i o Hi Ho) as [L|(g & Hg & Pg)]; [left; exact L|]. right. exists g. split; [|exact Pg]. unfold minus.
        destruct (field_eqb f g) eqn:Efg; [apply field_eqb_eq in Efg; subst g; congruence|exact Hg].
  - split; [|split; [apply frame_refl|split; reflexivity]].
    constructor; try assumption.
    + intros g i Hg. unfold minus in Hg. apply andb_true_iff in Hg as [_ Hg]. exact (E g i Hg).
    + intros i o Hi Ho. destruct (G i o Hi Ho) as [L|(g & Hg & Pg)]; [left; exact L|]. right. exists g. split; [|exact Pg]. unfold minus.
      destruct (field_eqb f g) eqn:Efg; [apply field_eqb_eq in Efg; subst g; congruence|exact Hg].
Qed.
(** Writing NULL to a field that owns nothing *)
Lemma Own_null s D Lk f : Own s D Lk -> D f = false -> Own (with_ptr s f None) D Lk.
Proof.
  intros [A B C E G] Hf. constructor; cbn [with_ptr s_bad s_heap s_n s_ptr]; try assumption.
  - intros g id Hg. destruct (field_eqb f g) eqn:Efg; [discriminate|]. intros P. exact (E g id Hg P).
  - intros id o Hi Ho. destruct (G id o Hi Ho) as [L|(g & Hg & Pg)]; [left; exact L|]. right. exists g. split; [exact Hg|].
    destruct (field_eqb f g) eqn:Efg; [apply field_eqb_eq in Efg; congruence|exact Pg].
Qed.
(** Making an object for a field that owns nothing *)
Lemma Own_alloc s D Lk f k n s' id : Own s D Lk -> alloc s k n = (s', id) -> (D f = true -> s_ptr s f = None) -> valid f = true -> sig s f = (k, n) ->
  Own (with_ptr s' f (Some id)) (plus D f) Lk /\ frame s (with_ptr s' f (Some id)) /\ s_heap (with_ptr s' f (Some id)) id = Some (mk_obj k n true) /\
  s_alias (with_ptr s' f (Some id)) = s_alias s /\ (forall g, s_ptr (with_ptr s' f (Some id)) g = if field_eqb f g then Some id else s_ptr s g).
Proof.
  intros [A B C E G] Ha Hf V Sg. unfold alloc in Ha. injection Ha as <- <-.
  split; [|split; [repeat split|split; [cbn [with_ptr with_heap s_heap]; unfold set; rewrite Nat.eqb_refl; reflexivity|split; [reflexivity|intros g; reflexivity]]]].
  constructor; cbn [with_ptr with_heap s_bad s_heap s_n s_ptr].
  - exact A.
  - intros i Hi. unfold set. destruct (Nat.eqb_spec (s_n s) i) as [Eq|]; [lia|]. apply B. lia.
  - intros i Hi. specialize (C i Hi). lia.
  - intros g i Hg P. rewrite (sig_frame s _ g) by (repeat split). unfold set. destruct (field_eqb f g) eqn:Efg.
    + apply field_eqb_eq in Efg. subst g. injection P as <-. rewrite Nat.eqb_refl, Sg. cbn [fst snd]. split; [exact V|]. split; [|reflexivity].
      intros L. specialize (C _ L). lia.
    + unfold plus in Hg. rewrite Efg in Hg. cbn [orb] in Hg. destruct (E g i Hg P) as (V' & NL & Hh). split; [exact V'|]. split; [exact NL|].
      destruct (Nat.eqb_spec (s_n s) i) as [<-|]; [rewrite B in Hh by lia; discriminate|]. exact Hh.
  - intros i o Hi Ho. unfold set in Hi. destruct (Nat.eqb_spec (s_n s) i) as [<-|].
    + right. exists f. unfold plus. rewrite field_eqb_refl. split; reflexivity.
    + destruct (G i o Hi Ho) as [L|(g & Hg & Pg)]; [left; exact L|]. right. exists g. unfold plus.
      destruct (field_eqb f g) eqn:Efg; [apply field_eqb_eq in Efg; subst g; rewrite (Hf Hg) in Pg; discriminate|]. split; [exact Hg|exact Pg].
Qed.
Lemma Own_ext s D D' Lk : (forall f, D f = D' f) -> Own s D Lk -> Own s D' Lk.
Proof.
  intros H [A B C E G]. constructor; try assumption.
  - intros f id Hf. apply E. rewrite H. exact Hf.
  - intros id o Hi Ho. destruct (G id o Hi Ho) as [L|(g & Hg & Pg)]; [left; exact L|]. right. exists g. split; [rewrite <- H|]; assumption.
Qed.
(** Lost objects may be declared; an ownerless field need not own nothing *)
Lemma nids_ok_frame s s' : frame s s' -> nids_ok s -> nids_ok s'.
Proof. intros (A1 & A2 & _) [H1 H2]. unfold nids_ok. rewrite A1, A2. split; assumption. Qed.

(** * Digests and ciphers *)
Definition all_fields : field -> bool := fun _ => true.
Lemma init_digest_spec s i s' p : i < 8 -> init_digest s i = (s', p) ->
  forall Lk, Own s all_fields Lk ->
  Own s' all_fields Lk /\ frame s s' /\ (exists id, p = Some id /\ s_ptr s' (F_md i) = Some id /\ s_heap s' id = Some (mk_obj K_md (nth i digest_array 0%N) true)) /\
  (forall g id, s_ptr s g = Some id -> s_ptr s' g = Some id) /\ (forall g, g <> F_md i -> s_ptr s' g = s_ptr s g) /\
  (forall j, s_alias s' j = s_alias s j \/ s_ptr s (F_md i) = None /\ has_alias j = true /\ j = i /\ s_alias s' j = true) /\
  (s_ptr s (F_md i) = None -> has_alias i = true -> s_alias s' i = true).
Proof.
  intros Hi Hq Lk O. unfold init_digest in Hq. destruct (s_ptr s (F_md i)) as [id|] eqn:P.
  - injection Hq as <- <-. destruct (ow_ptr _ _ _ O (F_md i) id eq_refl P) as (V & _ & Hh).
    split; [exact O|]. split; [apply frame_refl|]. split; [exists id; repeat split; assumption|].
    split; [intros; assumption|]. split; [intros; reflexivity|]. split; [intros j; left; reflexivity|intros H; discriminate].
  - destruct (alloc s K_md (nth i digest_array 0%N)) as [s1 id] eqn:Ha.
    pose (s2 := if has_alias i then with_names s1 (s_ci_names s1) (s_md_names s1) (set (s_alias s1) i true) else s1).
    fold s2 in Hq. injection Hq as <- <-.
    assert (Own (with_names s (s_ci_names s) (s_md_names s) (s_alias s2)) all_fields Lk) as O'
      by (apply (Own_frame s); [repeat split|reflexivity|reflexivity|reflexivity|reflexivity|exact O]).
    assert (alloc (with_names s (s_ci_names s) (s_md_names s) (s_alias s2)) K_md (nth i digest_array 0%N) = (s2, id)) as Ha'.
    { unfold s2, alloc in *. injection Ha as <- <-. destruct (has_alias i); destruct s; reflexivity. }
    assert (valid (F_md i) = true) as V by (cbn [valid]; apply Nat.ltb_lt; exact Hi).
    destruct (Own_alloc _ _ _ (F_md i) _ _ _ _ O' Ha' (fun _ => P) V eq_refl) as (O2 & Fr & Hh & Al & Pt).
    split; [exact (Own_ext _ _ _ _ (fun f => orb_true_r _) O2)|]. split; [exact Fr|].
    split; [exists id; split; [reflexivity|]; split; [rewrite Pt, field_eqb_refl; reflexivity|exact Hh]|].
    split; [intros g id' Pg; rewrite Pt; destruct (field_eqb (F_md i) g) eqn:Eg; [apply field_eqb_eq in Eg; subst g; congruence|exact Pg]|].
    split; [intros g Hg; rewrite Pt; destruct (field_eqb (F_md i) g) eqn:Eg; [apply field_eqb_eq in Eg; congruence|reflexivity]|].
    assert (s_alias s2 = if has_alias i then set (s_alias s) i true else s_alias s) as As
      by (unfold s2; unfold alloc in Ha; injection Ha as <- <-; destruct (has_alias i); reflexivity).
    rewrite Al. cbn [with_names s_alias]. rewrite As. split.
    + intros j. destruct (has_alias i) eqn:Hai; [|left; reflexivity]. unfold set. destruct (Nat.eqb_spec i j) as [<-|]; [right; repeat split; assumption|left; reflexivity].
    + intros _ Hai. rewrite Hai. unfold set. rewrite Nat.eqb_refl. reflexivity.
Qed.
Lemma init_cipher_spec s i s' p : i < 20 -> init_cipher s i = (s', p) -> forall Lk, Own s all_fields Lk ->
  Own s' all_fields Lk /\ frame s s' /\ (exists id, p = Some id /\ s_ptr s' (F_ci i) = Some id /\ s_heap s' id = Some (mk_obj K_cipher (nth i (cipher_nids s) 0%N) true)) /\
  (forall g id, s_ptr s g = Some id -> s_ptr s' g = Some id) /\ (forall g, g <> F_ci i -> s_ptr s' g = s_ptr s g) /\ s_alias s' = s_alias s.
Proof.
  intros Hi Hq Lk O. unfold init_cipher in Hq. destruct (s_ptr s (F_ci i)) as [id|] eqn:P.
  - injection Hq as <- <-. destruct (ow_ptr _ _ _ O (F_ci i) id eq_refl P) as (V & _ & Hh).
    split; [exact O|]. split; [apply frame_refl|]. split; [exists id; repeat split; assumption|]. repeat split; intros; assumption.
  - destruct (alloc s K_cipher (nth i (cipher_nids s) 0%N)) as [s1 id] eqn:Ha. injection Hq as <- <-.
    assert (valid (F_ci i) = true) as V by (cbn [valid]; apply Nat.ltb_lt; exact Hi).
    destruct (Own_alloc _ _ _ (F_ci i) _ _ _ _ O Ha (fun _ => P) V eq_refl) as (O2 & Fr & Hh & Al & Pt).
    split; [exact (Own_ext _ _ _ _ (fun f => orb_true_r _) O2)|]. split; [exact Fr|].
    split; [exists id; split; [reflexivity|]; split; [rewrite Pt, field_eqb_refl; reflexivity|exact Hh]|].
    split; [intros g id' Pg; rewrite Pt; destruct (field_eqb (F_ci i) g) eqn:Eg; [apply field_eqb_eq in Eg; subst g; congruence|exact Pg]|].
    split; [intros g Hg; rewrite Pt; destruct (field_eqb (F_ci i) g) eqn:Eg; [apply field_eqb_eq in Eg; congruence|reflexivity]|exact Al].
Qed.

(** * Freeing everything *)
Definition minus_all (D : field -> bool) (L : list field) : field -> bool := fun g => negb (existsb (fun f => field_eqb f g) L) && D g.
Lemma minus_all_nil D f : minus_all D [] f = D f. Proof. reflexivity. Qed.
Lemma existsb_field_In L g : existsb (fun f => field_eqb f g) L = true <-> In g L.
Proof.
  rewrite existsb_exists. split; [intros (f & H & E); apply field_eqb_eq in E; subst; exact H|intros H; exists g; split; [exact H|apply field_eqb_refl]].
Qed.
Lemma Own_free_all L : forall s D Lk, nids_ok s -> Own s D Lk -> NoDup L -> (forall f, In f L -> D f = true) ->
  let s' := fold_left (fun s f => free s (s_ptr s f)) L s in
  Own s' (minus_all D L) Lk /\ frame s s' /\ s_ptr s' = s_ptr s /\ s_alias s' = s_alias s.
Proof.
  induction L as [|f L IH]; intros s D Lk Hn O Hd HD; cbn [fold_left].
  - split; [exact (Own_ext _ _ _ _ (fun f => eq_refl) O)|]. split; [apply frame_refl|split; reflexivity].
  - inversion Hd as [|? ? Hni Hd']; subst. destruct (Own_free s D Lk f Hn O (HD f (or_introl eq_refl))) as (O1 & F1 & P1 & A1).
    destruct (IH _ (minus D f) Lk (nids_ok_frame _ _ F1 Hn) O1 Hd') as (O2 & F2 & P2 & A2).
    { intros g Hg. unfold minus. rewrite (HD g (or_intror Hg)). destruct (field_eqb f g) eqn:E; [apply field_eqb_eq in E; subst; contradiction|reflexivity]. }
    split; [|split; [exact (frame_trans _ _ _ F1 F2)|split; congruence]].
    eapply Own_ext; [|exact O2]. intros g. unfold minus_all, minus. cbn [existsb].
    destruct (field_eqb f g), (existsb (fun f => field_eqb f g) L), (D g); reflexivity.
Qed.
Lemma deinit_digest_spec s i D Lk : nids_ok s -> Own s D Lk -> D (F_md i) = true ->
  let s' := deinit_digest s i in
  Own s' (minus D (F_md i)) Lk /\ frame s s' /\ (forall g, s_ptr s' g = if field_eqb (F_md i) g then None else s_ptr s g) /\
  (forall j, s_alias s' j = if has_alias i && (i =? j) then false else s_alias s j).
Proof.
  intros Hn O Hd. unfold deinit_digest.
  set (s1 := if has_alias i then with_names s (s_ci_names s) (s_md_names s) (set (s_alias s) i false) else s).
  assert (frame s s1 /\ s_heap s1 = s_heap s /\ s_n s1 = s_n s /\ s_ptr s1 = s_ptr s /\ s_bad s1 = s_bad s) as (Fr & E1 & E2 & E3 & E4)
    by (unfold s1; destruct (has_alias i); repeat split).
  pose proof (Own_frame _ _ _ _ Fr E1 E2 E3 E4 O) as O1.
  destruct (Own_free s1 D Lk (F_md i) (nids_ok_frame _ _ Fr Hn) O1 Hd) as (O2 & F2 & P2 & A2).
  split; [apply Own_null; [exact O2|unfold minus; rewrite field_eqb_refl; reflexivity]|].
  split; [exact (frame_trans _ _ _ Fr (frame_trans _ _ _ F2 ltac:(repeat split)))|].
  split; [intros g; cbn [with_ptr s_ptr]; rewrite P2, E3; reflexivity|].
  intros j. cbn [with_ptr s_alias]. rewrite A2. unfold s1. destruct (has_alias i); cbn [andb]; [|reflexivity]. cbn [with_names s_alias]. unfold set. reflexivity.
Qed.
Lemma deinit_cipher_spec s i D Lk : nids_ok s -> Own s D Lk -> D (F_ci i) = true ->
  let s' := deinit_cipher s i in
  Own s' (minus D (F_ci i)) Lk /\ frame s s' /\ (forall g, s_ptr s' g = if field_eqb (F_ci i) g then None else s_ptr s g) /\ s_alias s' = s_alias s.
Proof.
  intros Hn O Hd. unfold deinit_cipher. destruct (Own_free s D Lk (F_ci i) Hn O Hd) as (O2 & F2 & P2 & A2).
  destruct (s_ptr s (F_ci i)) as [id|] eqn:P.
  - split; [apply Own_null; [exact O2|unfold minus; rewrite field_eqb_refl; reflexivity]|].
    split; [exact (frame_trans _ _ _ F2 ltac:(repeat split))|]. split; [intros g; cbn [with_ptr s_ptr]; rewrite P2; reflexivity|exact A2].
  - split; [exact O2|]. split; [apply frame_refl|]. split; [|reflexivity].
    intros g. destruct (field_eqb (F_ci i) g) eqn:E; [apply field_eqb_eq in E; subst g; exact P|reflexivity].
Qed.
(** A fold of steps that each clear the field [c i] *)
Lemma clear_all (c : nat -> field) (step : state -> nat -> state) (al : nat -> nat -> bool) :
  (forall i j, c i = c j -> i = j) ->
  (forall s i D Lk, nids_ok s -> Own s D Lk -> D (c i) = true ->
     Own (step s i) (minus D (c i)) Lk /\ frame s (step s i) /\ (forall g, s_ptr (step s i) g = if field_eqb (c i) g then None else s_ptr s g) /\
     (forall j, s_alias (step s i) j = if al i j then false else s_alias s j)) ->
  forall l s D Lk, nids_ok s -> Own s D Lk -> NoDup l -> (forall i, In i l -> D (c i) = true) ->
  let s' := fold_left step l s in
  Own s' (minus_all D (map c l)) Lk /\ frame s s' /\ (forall g, s_ptr s' g = if existsb (fun f => field_eqb f g) (map c l) then None else s_ptr s g) /\
  (forall j, s_alias s' j = if existsb (fun i => al i j) l then false else s_alias s j).
Proof.
  intros Cinj St. induction l as [|i l IH]; intros s D Lk Hn O Hd HD; cbn [fold_left map existsb].
  - split; [exact (Own_ext _ _ _ _ (fun f => eq_refl) O)|]. split; [apply frame_refl|split; reflexivity].
  - inversion Hd as [|? ? Hni Hd']; subst. destruct (St s i D Lk Hn O (HD i (or_introl eq_refl))) as (O1 & F1 & P1 & A1).
    destruct (IH _ (minus D (c i)) Lk (nids_ok_frame _ _ F1 Hn) O1 Hd') as (O2 & F2 & P2 & A2).
    { intros j Hj. unfold minus. rewrite (HD j (or_intror Hj)). destruct (field_eqb (c i) (c j)) eqn:E; [apply field_eqb_eq, Cinj in E; subst; contradiction|reflexivity]. }
    split; [|split; [exact (frame_trans _ _ _ F1 F2)|split]].
    + eapply Own_ext; [|exact O2]. intros g. unfold minus_all, minus. cbn [existsb].
      destruct (field_eqb (c i) g), (existsb (fun f => field_eqb f g) (map c l)), (D g); reflexivity.
    + intros g. rewrite P2, P1. destruct (field_eqb (c i) g), (existsb _ (map c l)); reflexivity.
    + intros j. rewrite A2, A1. destruct (al i j), (existsb _ l); reflexivity.
Qed.

(** * Freeing an engine *)
Definition none : field -> bool := fun _ => false.
Lemma Own_drop s D Lk : Own s D Lk -> (forall f, D f = true -> s_ptr s f = None) -> Own s none Lk.
Proof.
  intros [A B C E G] H. constructor; try assumption.
  - intros f id Hf. discriminate.
  - intros id o Hi Ho. destruct (G id o Hi Ho) as [L|(g & Hg & Pg)]; [left; exact L|]. rewrite (H g Hg) in Pg. discriminate.
Qed.
Lemma Own_grow s D Lk : Own s D Lk -> (forall f, D f = false -> s_ptr s f = None) -> Own s all_fields Lk.
Proof.
  intros [A B C E G] H. constructor; try assumption.
  - intros f id _ P. destruct (D f) eqn:Hf; [exact (E f id Hf P)|]. rewrite (H f Hf) in P. discriminate.
  - intros id o Hi Ho. destruct (G id o Hi Ho) as [L|(g & Hg & Pg)]; [left; exact L|]. right. exists g. split; [reflexivity|exact Pg].
Qed.
Lemma null_meths_spec l : forall s D Lk, Own s D Lk -> (forall i, D (F_pm i) = false /\ D (F_am i) = false \/ s_ptr s (F_pm i) = None /\ s_ptr s (F_am i) = None) ->
  (forall i, In i l -> D (F_pm i) = false /\ D (F_am i) = false) ->
  let s' := fold_left null_meth l s in
  Own s' D Lk /\ frame s s' /\ s_alias s' = s_alias s /\
  (forall g, s_ptr s' g = match g with F_pm i | F_am i => if existsb (Nat.eqb i) l then None else s_ptr s g | _ => s_ptr s g end).
Proof.
  induction l as [|i l IH]; intros s D Lk O HN HD; cbn [fold_left existsb].
  - split; [exact O|]. split; [apply frame_refl|]. split; [reflexivity|]. intros [ | | | | ]; reflexivity.
  - destruct (HD i (or_introl eq_refl)) as [D1 D2].
    assert (Own (null_meth s i) D Lk) as O1 by (unfold null_meth; apply Own_null; [apply Own_null; [exact O|exact D1]|exact D2]).
    destruct (IH (null_meth s i) D Lk O1) as (O2 & F2 & A2 & P2).
    { intros j. destruct (HN j) as [H|[H1 H2]]; [left; exact H|right]. unfold null_meth. cbn [with_ptr s_ptr field_eqb]. rewrite H1, H2. destruct (i =? j); split; reflexivity. }
    { intros j Hj. exact (HD j (or_intror Hj)). }
    split; [exact O2|]. split; [exact (frame_trans _ (null_meth s i) _ ltac:(repeat split) F2)|]. split; [rewrite A2; reflexivity|].
    intros g. rewrite P2. destruct g as [j|j|j|j|j]; cbn [null_meth with_ptr s_ptr field_eqb]; try reflexivity;
      rewrite (Nat.eqb_sym j i); destruct (i =? j), (existsb (Nat.eqb j) l); reflexivity.
Qed.
Lemma fold_left_ext2 (A B C : Type) (F : A -> B -> A) (G : A -> C -> A) l l' : Forall2 (fun b c => forall a, F a b = G a c) l l' ->
  forall a, fold_left F l a = fold_left G l' a.
Proof. induction 1 as [|b c l l' H _ IH]; intros a; [reflexivity|]. cbn [fold_left]. rewrite H. apply IH. Qed.
Lemma free_pmeths_eq s : fold_left free_pmeth (snd (nids s E_pmeth)) s = fold_left (fun s f => free s (s_ptr s f)) (map F_pm (seq 0 10)) s.
Proof. apply fold_left_ext2. cbn [nids snd meth_array map seq]. repeat constructor. Qed.
Lemma free_ameths_eq s s0 : fold_left free_ameth (snd (nids s0 E_ameth)) s = fold_left (fun s f => free s (s_ptr s f)) (map F_am (seq 0 10)) s.
Proof. apply fold_left_ext2. cbn [nids snd meth_array map seq]. repeat constructor. Qed.
Lemma NoDup_map_F (c : nat -> field) l : (forall i j, c i = c j -> i = j) -> NoDup l -> NoDup (map c l).
Proof.
  intros H. induction 1 as [|i l Hi Hl IH]; cbn [map]; constructor; [|exact IH]. intros Hc. apply in_map_iff in Hc as (j & E & Hj). apply H in E. subst. contradiction.
Qed.
Lemma existsb_map_c (c : nat -> field) l g : (forall i j, c i = c j -> i = j) -> existsb (fun f => field_eqb f g) (map c l) = true -> exists i, g = c i /\ In i l.
Proof. intros H E. apply existsb_field_In, in_map_iff in E as (i & <- & Hi). exists i. split; [reflexivity|exact Hi]. Qed.

Definition is_nid (f : field) : bool := match f with F_asn1 i => i <? 2 | _ => false end.
(** Nothing is loaded *)
Definition Clean (s : state) (Lk : nat -> Prop) : Prop := Own s none Lk /\ forall f, is_nid f = false -> s_ptr s f = None.

Lemma engine_free_spec s Lk : nids_ok s -> Own s all_fields Lk ->
  let s' := engine_free s in
  Clean s' Lk /\ frame s s' /\ (forall j, s_alias s' j = if has_alias j then false else s_alias s j).
Proof.
  intros Hn O. cbv zeta.
  assert (forall c : nat -> field, (forall i j, c i = c j -> i = j) -> forall n, NoDup (map c (seq 0 n))) as ND by (intros c Hc n; apply NoDup_map_F; [exact Hc|apply seq_NoDup]).
  assert (forall i j, F_pm i = F_pm j -> i = j) as Cp by (intros i j H; injection H as H; exact H).
  assert (forall i j, F_am i = F_am j -> i = j) as Ca by (intros i j H; injection H as H; exact H).
  assert (forall i j, F_md i = F_md j -> i = j) as Cm by (intros i j H; injection H as H; exact H).
  assert (forall i j, F_ci i = F_ci j -> i = j) as Cc by (intros i j H; injection H as H; exact H).
  destruct (Own_free_all (map F_pm (seq 0 10)) s all_fields Lk Hn O (ND F_pm Cp 10) (fun _ _ => eq_refl)) as (O1 & F1 & P1 & A1).
  rewrite <- free_pmeths_eq in O1, F1, P1, A1. set (s1 := fold_left free_pmeth (snd (nids s E_pmeth)) s) in *.
  destruct (Own_free_all (map F_am (seq 0 10)) s1 _ Lk (nids_ok_frame _ _ F1 Hn) O1 (ND F_am Ca 10)) as (O2 & F2 & P2 & A2).
  { intros f Hf. apply in_map_iff in Hf as (i & <- & _). unfold minus_all. destruct (existsb (fun f => field_eqb f (F_am i)) (map F_pm (seq 0 10))) eqn:E; [|reflexivity].
    apply existsb_map_c in E as (j & E & _); [discriminate|exact Cp]. }
  rewrite <- (free_ameths_eq _ s1) in O2, F2, P2, A2. set (s2 := fold_left free_ameth (snd (nids s1 E_ameth)) s1) in *.
  pose proof (frame_trans _ _ _ F1 F2) as F02.
  destruct (clear_all F_md deinit_digest (fun i j => has_alias i && (i =? j)) Cm (fun s i D Lk => deinit_digest_spec s i D Lk) (seq 0 8) s2 _ Lk
             (nids_ok_frame _ _ F02 Hn) O2 (seq_NoDup 8 0)) as (O3 & F3 & P3 & A3).
  { intros i _. unfold minus_all.
    destruct (existsb (fun f => field_eqb f (F_md i)) (map F_am (seq 0 10))) eqn:E; [apply existsb_map_c in E as (j & E & _); [discriminate|exact Ca]|].
    destruct (existsb (fun f => field_eqb f (F_md i)) (map F_pm (seq 0 10))) eqn:E'; [apply existsb_map_c in E' as (j & E' & _); [discriminate|exact Cp]|]. reflexivity. }
  set (s3 := fold_left deinit_digest (seq 0 8) s2) in *. pose proof (frame_trans _ _ _ F02 F3) as F03.
  destruct (clear_all F_ci deinit_cipher (fun _ _ => false) Cc (fun s i D Lk H1 H2 H3 => let (a, b) := deinit_cipher_spec s i D Lk H1 H2 H3 in
              conj a (let (c, d) := b in conj c (let (e, f) := d in conj e (fun j => f_equal (fun g => g j) f)))) (seq 0 20) s3 _ Lk
             (nids_ok_frame _ _ F03 Hn) O3 (seq_NoDup 20 0)) as (O4 & F4 & P4 & A4).
  { intros i _. unfold minus_all.
    destruct (existsb (fun f => field_eqb f (F_ci i)) (map F_md (seq 0 8))) eqn:E0; [apply existsb_map_c in E0 as (j & E & _); [discriminate|exact Cm]|].
    destruct (existsb (fun f => field_eqb f (F_ci i)) (map F_am (seq 0 10))) eqn:E; [apply existsb_map_c in E as (j & E & _); [discriminate|exact Ca]|].
    destruct (existsb (fun f => field_eqb f (F_ci i)) (map F_pm (seq 0 10))) eqn:E'; [apply existsb_map_c in E' as (j & E' & _); [discriminate|exact Cp]|]. reflexivity. }
  set (s4 := fold_left deinit_cipher (seq 0 20) s3) in *. pose proof (frame_trans _ _ _ F03 F4) as F04.
  match type of O4 with Own _ ?D _ => set (D4 := D) in * end.
  assert (forall i, In i (seq 0 10) -> D4 (F_pm i) = false /\ D4 (F_am i) = false) as HD4.
  { intros i Hi. unfold D4, minus_all.
    rewrite (proj2 (existsb_field_In (map F_pm (seq 0 10)) (F_pm i)) (in_map F_pm _ _ Hi)), (proj2 (existsb_field_In (map F_am (seq 0 10)) (F_am i)) (in_map F_am _ _ Hi)).
    repeat (cbn [negb andb]; rewrite ?Bool.andb_false_r). split; reflexivity. }
  assert (forall i, ~ In i (seq 0 10) -> s_ptr s4 (F_pm i) = None /\ s_ptr s4 (F_am i) = None) as HP4.
  { intros i Hi. rewrite !P4, !P3, P2, P1.
    assert (forall c : nat -> field, valid (c i) = false -> s_ptr s (c i) = None) as HV.
    { intros c Hc. destruct (s_ptr s (c i)) as [id|] eqn:P; [|reflexivity]. destruct (ow_ptr _ _ _ O _ id eq_refl P) as (V & _). congruence. }
    rewrite in_seq in Hi. assert ((i <? 10) = false) as Hb by (apply Nat.ltb_ge; lia).
    rewrite (HV F_pm), (HV F_am) by (cbn [valid]; rewrite Hb; reflexivity).
    split; repeat (match goal with |- (if ?b then None else _) = None => destruct b end; [reflexivity|]); reflexivity. }
  destruct (null_meths_spec (seq 0 10) s4 D4 Lk O4) as (O5 & F5 & A5 & P5).
  { intros i. destruct (in_dec Nat.eq_dec i (seq 0 10)) as [Hi|Hi]; [left; exact (HD4 i Hi)|right; exact (HP4 i Hi)]. }
  { exact HD4. }
  set (s5 := fold_left null_meth (seq 0 10) s4) in *. pose proof (frame_trans _ _ _ F04 F5) as F05.
  assert (forall i, D4 (F_asn1 i) = true) as HA4.
  { intros i. unfold D4, minus_all.
    destruct (existsb (fun f => field_eqb f (F_asn1 i)) (map F_ci (seq 0 20))) eqn:E1; [apply existsb_map_c in E1 as (j & E & _); [discriminate|exact Cc]|].
    destruct (existsb (fun f => field_eqb f (F_asn1 i)) (map F_md (seq 0 8))) eqn:E0; [apply existsb_map_c in E0 as (j & E & _); [discriminate|exact Cm]|].
    destruct (existsb (fun f => field_eqb f (F_asn1 i)) (map F_am (seq 0 10))) eqn:E; [apply existsb_map_c in E as (j & E & _); [discriminate|exact Ca]|].
    destruct (existsb (fun f => field_eqb f (F_asn1 i)) (map F_pm (seq 0 10))) eqn:E'; [apply existsb_map_c in E' as (j & E' & _); [discriminate|exact Cp]|]. reflexivity. }
  destruct (Own_free s5 D4 Lk (F_asn1 0) (nids_ok_frame _ _ F05 Hn) O5 (HA4 0)) as (O6 & F6 & P6 & A6).
  set (s6 := free s5 (s_ptr s5 (F_asn1 0))) in *. pose proof (frame_trans _ _ _ F05 F6) as F06.
  destruct (Own_free s6 _ Lk (F_asn1 1) (nids_ok_frame _ _ F06 Hn) O6 (HA4 1)) as (O7 & F7 & P7 & A7).
  set (s7 := free s6 (s_ptr s6 (F_asn1 1))) in *. pose proof (frame_trans _ _ _ F06 F7) as F07.
  assert (engine_free s = s7) as Es.
  { unfold engine_free. fold s1. change (fold_left free_ameth (snd (nids s1 E_ameth)) s1) with s2. unfold gost_engine_destroy.
    change (length digest_array) with 8. change (length cipher_array) with 20. change (length meth_array) with 10. fold s3. fold s4. fold s5.
    unfold free_NIDs. fold s6. rewrite <- P6. reflexivity. }
  rewrite Es.
  assert (forall f, is_nid f = false -> s_ptr s7 f = None) as PN.
  { intros f Hf. rewrite P7, P6, P5.
    assert (valid f = false -> s_ptr s f = None) as HV.
    { intros Hv. destruct (s_ptr s f) as [id|] eqn:P; [|reflexivity]. destruct (ow_ptr _ _ _ O _ id eq_refl P) as (V & _). congruence. }
    assert (forall n i, existsb (Nat.eqb i) (seq 0 n) = (i <? n)) as EB.
    { intros n i. destruct (i <? n) eqn:E.
      - apply existsb_exists. exists i. rewrite Nat.ltb_lt in E. rewrite in_seq, Nat.eqb_refl. split; [lia|reflexivity].
      - destruct (existsb (Nat.eqb i) (seq 0 n)) eqn:E'; [|reflexivity]. apply existsb_exists in E' as (j & Hj & Ej). apply Nat.eqb_eq in Ej. subst j.
        rewrite in_seq in Hj. apply Nat.ltb_ge in E. lia. }
    destruct f as [i|i|i|i|i]; cbn [is_nid] in Hf.
    - rewrite P4, P3, P2, P1. destruct (existsb (fun f => field_eqb f (F_md i)) (map F_ci (seq 0 20))); [reflexivity|].
      destruct (existsb (fun f => field_eqb f (F_md i)) (map F_md (seq 0 8))) eqn:E; [reflexivity|]. apply HV. cbn [valid]. destruct (i <? 8) eqn:Hi; [|reflexivity].
      exfalso. rewrite (proj2 (existsb_field_In _ (F_md i))) in E; [discriminate|]. apply in_map, in_seq. apply Nat.ltb_lt in Hi. lia.
    - rewrite P4, P3, P2, P1. destruct (existsb (fun f => field_eqb f (F_ci i)) (map F_ci (seq 0 20))) eqn:E; [reflexivity|].
      destruct (existsb (fun f => field_eqb f (F_ci i)) (map F_md (seq 0 8))); [reflexivity|]. apply HV. cbn [valid]. destruct (i <? 20) eqn:Hi; [|reflexivity].
      exfalso. rewrite (proj2 (existsb_field_In _ (F_ci i))) in E; [discriminate|]. apply in_map, in_seq. apply Nat.ltb_lt in Hi. lia.
    - rewrite EB. destruct (i <? 10) eqn:Hi; [reflexivity|]. apply Nat.ltb_ge in Hi. assert (~ In i (seq 0 10)) as HN by (rewrite in_seq; lia). exact (proj1 (HP4 i HN)).
    - rewrite EB. destruct (i <? 10) eqn:Hi; [reflexivity|]. apply Nat.ltb_ge in Hi. assert (~ In i (seq 0 10)) as HN by (rewrite in_seq; lia). exact (proj2 (HP4 i HN)).
    - rewrite P4, P3, P2, P1. repeat (match goal with |- (if ?b then None else _) = None => destruct b end; [reflexivity|]). apply HV. exact Hf. }
  split; [split; [|exact PN]|split; [exact F07|]].
  - apply (Own_drop s7 _ Lk O7). intros f Hf. destruct (is_nid f) eqn:Hi; [|exact (PN f Hi)].
    exfalso. unfold minus in Hf. destruct f as [i|i|i|i|i]; try discriminate Hi. cbn [is_nid] in Hi. apply Nat.ltb_lt in Hi.
    destruct i as [|[|i]]; [| |lia]; cbn [field_eqb Nat.eqb negb andb] in Hf; discriminate.
  - intros j. rewrite A7, A6, A5, A4.
    replace (existsb (fun _ : nat => false) (seq 0 20)) with false by reflexivity. rewrite A3, A2, A1.
    unfold has_alias. cbn [seq existsb]. destruct j as [|[|[|[|j]]]]; reflexivity.
Qed.

(** * Loading *)
Definition lose (Lk : nat -> Prop) (id : nat) : nat -> Prop := fun i => Lk i \/ i = id.
Lemma none_any s s' Lk : Own s none Lk -> s_bad s' = s_bad s -> s_heap s' = s_heap s -> s_n s' = s_n s -> Own s' none Lk.
Proof.
  intros [A B C E G] H1 H2 H3. constructor; rewrite ?H1, ?H2, ?H3; try assumption; [intros f id Hf; discriminate|].
  intros id o Hi Ho. destruct (G id o Hi Ho) as [L|(g & Hg & _)]; [left; exact L|discriminate].
Qed.
Lemma none_alloc s k n s' id Lk : Own s none Lk -> alloc s k n = (s', id) ->
  Own s' none (lose Lk id) /\ ~ Lk id /\ frame s s' /\ s_ptr s' = s_ptr s /\ s_alias s' = s_alias s /\ s_heap s' id = Some (mk_obj k n true) /\
  (forall i, i <> id -> s_heap s' i = s_heap s i) /\ s_heap s id = None.
Proof.
  intros [A B C E G] Ha. unfold alloc in Ha. injection Ha as <- <-. cbn [with_heap s_ptr s_heap s_alias].
  split; [|split; [intros L; specialize (C _ L); lia|split; [repeat split|split; [reflexivity|split; [reflexivity|split; [unfold set; rewrite Nat.eqb_refl; reflexivity|split]]]]]].
  - constructor; cbn [with_heap s_bad s_heap s_n s_ptr].
    + exact A.
    + intros i Hi. unfold set. destruct (Nat.eqb_spec (s_n s) i) as [Eq|]; [lia|]. apply B. lia.
    + intros i [L|Eq]; [specialize (C i L); lia|lia].
    + intros f id Hf; discriminate.
    + intros i o Hi Ho. unfold set in Hi. left. destruct (Nat.eqb_spec (s_n s) i) as [Eq|]; [right; congruence|].
      destruct (G i o Hi Ho) as [L|(g & Hg & _)]; [left; exact L|discriminate].
  - intros i Hi. unfold set. destruct (Nat.eqb_spec (s_n s) i) as [Eq|]; [congruence|reflexivity].
  - apply B. lia.
Qed.
Lemma none_free s id k n Lk : Own s none (lose Lk id) -> ~ Lk id -> s_heap s id = Some (mk_obj k n true) ->
  Own (free s (Some id)) none Lk /\ frame s (free s (Some id)) /\ s_ptr (free s (Some id)) = s_ptr s /\ s_alias (free s (Some id)) = s_alias s.
Proof.
  intros [A B C E G] NL Hh. cbn [free]. rewrite Hh. cbn [o_alive o_kind o_nid]. split; [|repeat split].
  constructor; cbn [with_heap s_bad s_heap s_n s_ptr].
  - exact A.
  - intros i Hi. unfold set. destruct (Nat.eqb_spec id i) as [Eq|]; [rewrite Eq, (B i Hi) in Hh; discriminate|]. exact (B i Hi).
  - intros i L. exact (C i (or_introl L)).
  - intros f i Hf; discriminate.
  - intros i o Hi Ho. unfold set in Hi. left. destruct (Nat.eqb_spec id i) as [Eq|Ne]; [injection Hi as <-; discriminate|].
    destruct (G i o Hi Ho) as [[L|L]|(g & Hg & _)]; [exact L|congruence|discriminate].
Qed.
Lemma Own_claim s D Lk id f : Own s D (lose Lk id) -> ~ Lk id -> s_heap s id = Some (mk_obj (fst (sig s f)) (snd (sig s f)) true) -> valid f = true ->
  s_ptr s f = Some id -> D f = false -> Own s (plus D f) Lk.
Proof.
  intros [A B C E G] NL Hh V P Df. constructor; try assumption.
  - intros i L. exact (C i (or_introl L)).
  - intros g i Hg Pg. unfold plus in Hg. destruct (field_eqb f g) eqn:Efg.
    + apply field_eqb_eq in Efg. subst g. replace i with id in * by congruence. split; [exact V|split; [exact NL|exact Hh]].
    + destruct (E g i Hg Pg) as (V' & NL' & Hh'). split; [exact V'|]. split; [intros L; apply NL'; left; exact L|exact Hh'].
  - intros i o Hi Ho. destruct (G i o Hi Ho) as [[L| -> ]|(g & Hg & Pg)]; [left; exact L| |].
    + right. exists f. unfold plus. rewrite field_eqb_refl. split; [reflexivity|exact P].
    + right. exists g. unfold plus. rewrite Hg. split; [apply orb_true_r|exact Pg].
Qed.

(** What create_NIDs leaves *)
Lemma create_NIDs_spec fail s Lk s' ok : Clean s Lk -> create_NIDs fail s = (s', ok) ->
  ok = negb (fail 0 || fail 1 || fail 2 || fail 3) /\ s_next s' = (s_next s + 2)%N /\ s_ci_names s' = s_ci_names s /\ s_md_names s' = s_md_names s /\
  s_engines s' = s_engines s /\ s_alias s' = s_alias s /\ (forall f, is_nid f = false -> s_ptr s' f = None) /\
  (ok = true -> s_kuz s' = s_next s /\ s_magma s' = (s_next s + 1)%N /\ Own s' all_fields Lk /\ s_ptr s' (F_asn1 0) <> None /\ s_ptr s' (F_asn1 1) <> None) /\
  (ok = false -> exists Lk', Clean s' Lk' /\ (fail 2 = false -> fail 3 = false -> Lk' = Lk)).
Proof.
  intros [O Pn] Hc. unfold create_NIDs in Hc.
  set (new := s_next s) in *. set (s0 := with_nids s (s_kuz s) (s_magma s) (new + 2)) in *.
  assert (Own s0 none Lk) as O0 by (apply (none_any s); [exact O|reflexivity|reflexivity|reflexivity]).
  unfold nid_job at 1 in Hc. change (2 * 0 + 1) with 1 in Hc. change (2 * 0) with 0 in Hc. change (0 =? 0) with true in Hc. cbn [N.of_nat] in Hc. rewrite N.add_0_r in Hc. cbv beta iota zeta in Hc.
  destruct (fail 0) eqn:f0.
  { injection Hc as <- <-. cbn [orb negb]. split; [reflexivity|]. do 5 (split; [reflexivity|]).
    assert (forall f, is_nid f = false -> s_ptr (with_ptr s0 (F_asn1 0) None) f = None) as Q.
    { intros f Hf. cbn [with_ptr s_ptr]. destruct (field_eqb (F_asn1 0) f) eqn:Ef; [reflexivity|exact (Pn f Hf)]. }
    split; [exact Q|]. split; [discriminate|]. intros _. exists Lk. split; [split; [apply Own_null; [exact O0|reflexivity]|exact Q]|reflexivity]. }
  destruct (alloc s0 K_asn1 new) as [s1 id0] eqn:Ha0.
  destruct (none_alloc _ _ _ _ _ _ O0 Ha0) as (O1 & NL0 & F1 & P1 & A1 & H1 & Hs1 & _).
  set (s2 := with_ptr s1 (F_asn1 0) (Some id0)) in *.
  assert (Own s2 none (lose Lk id0)) as O2 by (apply (none_any s1); [exact O1|reflexivity|reflexivity|reflexivity]).
  assert (forall f, is_nid f = false -> s_ptr s2 f = None) as Q2.
  { intros f Hf. unfold s2. cbn [with_ptr s_ptr]. destruct (field_eqb (F_asn1 0) f) eqn:Ef; [apply field_eqb_eq in Ef; subst f; discriminate|]. rewrite P1. exact (Pn f Hf). }
  destruct F1 as (E1 & E2 & E3 & E4 & E5 & E6).
  destruct (fail 1) eqn:f1.
  { injection Hc as <- <-. cbn [orb negb]. destruct (none_free s2 id0 _ _ Lk O2 NL0 H1) as (O3 & (G1 & G2 & G3 & G4 & G5 & G6) & P3 & A3).
    assert (forall f, is_nid f = false -> s_ptr (free s2 (Some id0)) f = None) as Q3 by (intros f Hf; rewrite P3; exact (Q2 f Hf)).
    split; [reflexivity|]. split; [exact (eq_trans G3 E3)|]. split; [exact (eq_trans G4 E4)|]. split; [exact (eq_trans G5 E5)|]. split; [exact (eq_trans G6 E6)|].
    split; [exact (eq_trans A3 A1)|]. split; [exact Q3|]. split; [discriminate|]. intros _. exists Lk.
    split; [split; [exact O3|exact Q3]|reflexivity]. }
  set (s3 := with_nids s2 new (s_magma s2) (s_next s2)) in *.
  assert (Own s3 none (lose Lk id0)) as O3 by (apply (none_any s2); [exact O2|reflexivity|reflexivity|reflexivity]).
  unfold nid_job in Hc. change (2 * 1 + 1) with 3 in Hc. change (2 * 1) with 2 in Hc. change (1 =? 0) with false in Hc. change (N.of_nat 1) with 1%N in Hc. cbv beta iota zeta in Hc.
  destruct (fail 2) eqn:f2.
  { injection Hc as <- <-. cbn [orb negb]. split; [reflexivity|]. split; [exact E3|]. split; [exact E4|]. split; [exact E5|]. split; [exact E6|]. split; [exact A1|].
    assert (forall f, is_nid f = false -> s_ptr (with_ptr s3 (F_asn1 1) None) f = None) as Q.
    { intros f Hf. cbn [with_ptr s_ptr]. destruct (field_eqb (F_asn1 1) f) eqn:Ef; [reflexivity|exact (Q2 f Hf)]. }
    split; [exact Q|]. split; [discriminate|]. intros _. exists (lose Lk id0). split; [split; [apply Own_null; [exact O3|reflexivity]|exact Q]|discriminate]. }
  destruct (alloc s3 K_asn1 (new + 1)) as [s4 id1] eqn:Ha1.
  destruct (none_alloc _ _ _ _ _ _ O3 Ha1) as (O4 & NL1 & F4 & P4 & A4 & H4 & Hs4 & Hn4).
  set (s5 := with_ptr s4 (F_asn1 1) (Some id1)) in *.
  assert (Own s5 none (lose (lose Lk id0) id1)) as O5 by (apply (none_any s4); [exact O4|reflexivity|reflexivity|reflexivity]).
  assert (forall f, is_nid f = false -> s_ptr s5 f = None) as Q5.
  { intros f Hf. unfold s5. cbn [with_ptr s_ptr]. destruct (field_eqb (F_asn1 1) f) eqn:Ef; [apply field_eqb_eq in Ef; subst f; discriminate|]. rewrite P4. exact (Q2 f Hf). }
  destruct F4 as (K1 & K2 & K3 & K4 & K5 & K6).
  destruct (fail 3) eqn:f3.
  { injection Hc as <- <-. cbn [orb negb]. destruct (none_free s5 id1 _ _ (lose Lk id0) O5 NL1 H4) as (O6 & (G1 & G2 & G3 & G4 & G5 & G6) & P6 & A6).
    assert (forall f, is_nid f = false -> s_ptr (free s5 (Some id1)) f = None) as Q6 by (intros f Hf; rewrite P6; exact (Q5 f Hf)).
    split; [reflexivity|]. split; [exact (eq_trans G3 (eq_trans K3 E3))|]. split; [exact (eq_trans G4 (eq_trans K4 E4))|].
    split; [exact (eq_trans G5 (eq_trans K5 E5))|]. split; [exact (eq_trans G6 (eq_trans K6 E6))|].
    split; [exact (eq_trans A6 (eq_trans A4 A1))|]. split; [exact Q6|]. split; [discriminate|]. intros _. exists (lose Lk id0).
    split; [split; [exact O6|exact Q6]|discriminate]. }
  injection Hc as <- <-. cbn [orb negb]. set (s6 := with_nids s5 (s_kuz s5) (new + 1) (s_next s5)).
  assert (s_kuz s6 = new) as Kz by (unfold s6, s5; cbn [with_nids with_ptr s_kuz]; rewrite K1; reflexivity).
  assert (s_magma s6 = (new + 1)%N) as Km by reflexivity.
  assert (Own s6 none (lose (lose Lk id0) id1)) as O6 by (apply (none_any s5); [exact O5|reflexivity|reflexivity|reflexivity]).
  assert (s_heap s6 id1 = Some (mk_obj K_asn1 (new + 1) true)) as Hh1 by exact H4.
  assert (id0 <> id1) as Nid by (intros Eq; apply NL1; right; congruence).
  assert (s_heap s6 id0 = Some (mk_obj K_asn1 new true)) as Hh0 by (unfold s6, s5; cbn [with_nids with_ptr s_heap]; rewrite Hs4 by exact Nid; exact H1).
  assert (s_ptr s6 (F_asn1 1) = Some id1) as Pp1 by reflexivity.
  assert (s_ptr s6 (F_asn1 0) = Some id0) as Pp0 by (unfold s6, s5; cbn [with_nids with_ptr s_ptr field_eqb Nat.eqb]; rewrite P4; reflexivity).
  assert (Own s6 (plus none (F_asn1 1)) (lose Lk id0)) as O7.
  { apply (Own_claim s6 none (lose Lk id0) id1 (F_asn1 1) O6 NL1); [|reflexivity|exact Pp1|reflexivity]. cbn [sig fst snd Nat.eqb]. rewrite Km. exact Hh1. }
  assert (Own s6 (plus (plus none (F_asn1 1)) (F_asn1 0)) Lk) as O8.
  { apply (Own_claim s6 _ Lk id0 (F_asn1 0) O7 NL0); [|reflexivity|exact Pp0|reflexivity]. cbn [sig fst snd Nat.eqb]. rewrite Kz. exact Hh0. }
  split; [reflexivity|]. split; [unfold s6, s5; cbn [with_nids with_ptr s_next]; rewrite K3; exact E3|].
  split; [unfold s6, s5; cbn [with_nids with_ptr s_ci_names]; rewrite K4; exact E4|]. split; [unfold s6, s5; cbn [with_nids with_ptr s_md_names]; rewrite K5; exact E5|].
  split; [unfold s6, s5; cbn [with_nids with_ptr s_engines]; rewrite K6; exact E6|].
  split; [unfold s6, s5; cbn [with_nids with_ptr s_alias]; rewrite A4; exact A1|]. split; [exact Q5|]. split; [|discriminate]. intros _.
  split; [exact Kz|]. split; [exact Km|]. split; [|split; [intros Hx; discriminate (eq_trans (eq_sym Pp0) Hx)|intros Hx; discriminate (eq_trans (eq_sym Pp1) Hx)]].
  apply (Own_grow s6 _ Lk O8). intros f Hf. destruct (is_nid f) eqn:Ef; [|exact (Q5 f Ef)]. exfalso.
  destruct f as [i|i|i|i|i]; try discriminate Ef. cbn [is_nid] in Ef. apply Nat.ltb_lt in Ef. destruct i as [|[|i]]; [discriminate Hf|discriminate Hf|lia].
Qed.

(** The steps of the method objects of the entries [l] from position [i] on *)
Fixpoint meth_steps (l : list N) (i : nat) : list nat :=
  match l with
  | [] => []
  | n :: l' => if (n =? NID_magma_ctracpkm_omac)%N then meth_steps l' (S i) else 4 + 2 * i :: 5 + 2 * i :: meth_steps l' (S i)
  end.
Lemma steps_eq : steps = [0; 1; 2; 3] ++ meth_steps meth_array 0. Proof. reflexivity. Qed.
Lemma Own_null_same s D Lk f : Own s D Lk -> s_ptr s f = None -> Own (with_ptr s f None) D Lk.
Proof.
  intros [A B C E G] P. constructor; cbn [with_ptr s_bad s_heap s_n s_ptr]; try assumption.
  - intros g id Hg Pg. destruct (field_eqb f g); [discriminate|]. exact (E g id Hg Pg).
  - intros id o Hi Ho. destruct (G id o Hi Ho) as [L|(g & Hg & Pg)]; [left; exact L|]. right. exists g. split; [exact Hg|].
    destruct (field_eqb f g) eqn:Efg; [apply field_eqb_eq in Efg; congruence|exact Pg].
Qed.
Definition is_meth (f : field) : bool := match f with F_pm _ | F_am _ => true | _ => false end.
Lemma skipn_cons (A : Type) i : forall (L : list A) n l d, n :: l = skipn i L -> nth i L d = n /\ l = skipn (S i) L.
Proof.
  induction i as [|i IH]; intros [|a L] n l d E; try discriminate E.
  - cbn [skipn] in E. injection E as -> ->. split; reflexivity.
  - exact (IH L n l d E).
Qed.
Lemma register_spec fail l : forall i s Lk s' ok, i + length l = 10 -> l = skipn i meth_array -> Own s all_fields Lk ->
  (forall j, i <= j -> s_ptr s (F_pm j) = None /\ s_ptr s (F_am j) = None) -> register_meths fail s l i = (s', ok) ->
  ok = negb (existsb fail (meth_steps l i)) /\ Own s' all_fields Lk /\ frame s s' /\ s_alias s' = s_alias s /\
  (forall f, is_meth f = false -> s_ptr s' f = s_ptr s f) /\ (forall f id, s_ptr s f = Some id -> s_ptr s' f = Some id) /\
  (ok = true -> forall j, i <= j < 10 -> j <> 8 -> s_ptr s' (F_pm j) <> None /\ s_ptr s' (F_am j) <> None).
Proof.
  induction l as [|n l IH]; intros i s Lk s' ok Hl El O Pn Hr.
  - cbn [register_meths] in Hr. injection Hr as <- <-. cbn [meth_steps existsb negb length] in *. split; [reflexivity|]. split; [exact O|]. split; [apply frame_refl|].
    split; [reflexivity|]. split; [reflexivity|]. split; [intros; assumption|]. intros _ j Hj. lia.
  - cbn [length] in Hl.
    destruct (skipn_cons _ i meth_array n l 0%N El) as [En El'].
    assert (i < 10) as Hi by lia.
    assert ((n =? NID_magma_ctracpkm_omac)%N = (i =? 8)) as E8.
    { rewrite <- En. clear - Hi. do 10 (destruct i as [|i]; [reflexivity|]). lia. }
    assert (i <> 8 -> pmeth_known n = true) as Kn.
    { rewrite <- En. clear - Hi. do 10 (destruct i as [|i]; [intros H; first [reflexivity|contradiction H; reflexivity]|]). lia. }
    cbn [register_meths] in Hr. cbn [meth_steps]. rewrite E8 in *. destruct (Nat.eqb_spec i 8) as [-> |N8].
    + destruct (IH 9 s Lk s' ok ltac:(lia) El' O ltac:(intros j Hj; apply Pn; lia) Hr) as (B1 & B2 & B3 & B4 & B5 & B6 & B7).
      split; [exact B1|]. split; [exact B2|]. split; [exact B3|]. split; [exact B4|]. split; [exact B5|]. split; [exact B6|].
      intros Hok j Hj N. apply (B7 Hok); lia.
    + cbn [existsb]. assert (valid (F_am i) = true /\ valid (F_pm i) = true) as [Va Vp].
      { cbn [valid]. rewrite (proj2 (Nat.ltb_lt i 10) Hi), (proj2 (Nat.eqb_neq i 8) N8). split; reflexivity. }
      destruct (Pn i (Nat.le_refl i)) as [Pi Ai].
      destruct (fail (4 + 2 * i)) eqn:fa.
      { injection Hr as <- <-. cbn [orb negb]. split; [reflexivity|]. split; [apply Own_null_same; assumption|]. split; [repeat split|]. split; [reflexivity|].
        split; [intros f Hf; cbn [with_ptr s_ptr]; destruct (field_eqb (F_am i) f) eqn:Ef; [apply field_eqb_eq in Ef; subst f; discriminate|reflexivity]|].
        split; [intros f id P; cbn [with_ptr s_ptr]; destruct (field_eqb (F_am i) f) eqn:Ef; [apply field_eqb_eq in Ef; subst f; congruence|exact P]|discriminate]. }
      destruct (alloc s K_ameth n) as [s1 id1] eqn:Ha1.
      destruct (Own_alloc s all_fields Lk (F_am i) _ _ _ _ O Ha1 (fun _ => Ai) Va) as (O2 & F2 & _ & A2 & P2); [cbn [sig]; rewrite En; reflexivity|].
      apply (Own_ext _ _ all_fields _ (fun f => orb_true_r _)) in O2. set (s2 := with_ptr s1 (F_am i) (Some id1)) in *.
      assert (s_ptr s2 (F_pm i) = None) as Pi2 by (rewrite P2; cbn [field_eqb]; exact Pi).
      destruct (fail (5 + 2 * i)) eqn:fp.
      { injection Hr as <- <-. cbn [orb negb]. split; [reflexivity|]. split; [apply Own_null_same; assumption|]. split; [exact (frame_trans _ _ _ F2 ltac:(repeat split))|].
        split; [exact A2|].
        split; [intros f Hf; cbn [with_ptr s_ptr]; destruct (field_eqb (F_pm i) f) eqn:Ef; [apply field_eqb_eq in Ef; subst f; discriminate|];
                rewrite P2; destruct (field_eqb (F_am i) f) eqn:Ef'; [apply field_eqb_eq in Ef'; subst f; discriminate|reflexivity]|].
        split; [intros f id P; cbn [with_ptr s_ptr]; destruct (field_eqb (F_pm i) f) eqn:Ef; [apply field_eqb_eq in Ef; subst f; congruence|];
                rewrite P2; destruct (field_eqb (F_am i) f) eqn:Ef'; [apply field_eqb_eq in Ef'; subst f; congruence|exact P]|discriminate]. }
      destruct (alloc s2 K_pmeth n) as [s3 id3] eqn:Ha3.
      destruct (Own_alloc s2 all_fields Lk (F_pm i) _ _ _ _ O2 Ha3 (fun _ => Pi2) Vp) as (O4 & F4 & _ & A4 & P4); [cbn [sig]; rewrite En; reflexivity|].
      apply (Own_ext _ _ all_fields _ (fun f => orb_true_r _)) in O4. set (s4 := with_ptr s3 (F_pm i) (Some id3)) in *.
      rewrite (Kn N8) in Hr.
      destruct (IH (S i) s4 Lk s' ok ltac:(lia) El' O4) as (B1 & B2 & B3 & B4 & B5 & B6 & B7); [|exact Hr|].
      { intros j Hj. rewrite !P4, !P2. cbn [field_eqb]. destruct (Nat.eqb_spec i j) as [Eq|]; [lia|]. apply Pn. lia. }
      cbn [orb]. split; [exact B1|]. split; [exact B2|]. split; [exact (frame_trans _ _ _ F2 (frame_trans _ _ _ F4 B3))|]. split; [congruence|].
      split; [intros f Hf; rewrite (B5 f Hf), P4, P2; destruct f; try discriminate Hf; reflexivity|].
      assert (forall f id, s_ptr s f = Some id -> s_ptr s4 f = Some id) as Pres.
      { intros f id P. rewrite P4. destruct (field_eqb (F_pm i) f) eqn:Ef; [apply field_eqb_eq in Ef; subst f; congruence|].
        rewrite P2. destruct (field_eqb (F_am i) f) eqn:Ef'; [apply field_eqb_eq in Ef'; subst f; congruence|exact P]. }
      split; [intros f id P; exact (B6 _ _ (Pres f id P))|].
      intros Hok j Hj N. destruct (Nat.eq_dec j i) as [-> |Nj].
      * split; [rewrite (B6 (F_pm i) id3) by (rewrite P4, field_eqb_refl; reflexivity); discriminate|].
        rewrite (B6 (F_am i) id1) by (rewrite P4; cbn [field_eqb]; rewrite P2, field_eqb_refl; reflexivity). discriminate.
      * apply (B7 Hok); lia.
Qed.

(** * Entering names *)
Definition keeps (s s' : state) : Prop := s_kuz s' = s_kuz s /\ s_magma s' = s_magma s /\ s_next s' = s_next s /\ s_engines s' = s_engines s /\
  forall g id, s_ptr s g = Some id -> s_ptr s' g = Some id.
Lemma keeps_refl s : keeps s s. Proof. repeat split. intros g id H; exact H. Qed.
Lemma keeps_trans a b c : keeps a b -> keeps b c -> keeps a c.
Proof. intros (A1 & A2 & A3 & A4 & A5) (B1 & B2 & B3 & B4 & B5). repeat split; try congruence. intros g id H. exact (B5 _ _ (A5 _ _ H)). Qed.
Lemma frame_keeps s s' : frame s s' -> (forall g id, s_ptr s g = Some id -> s_ptr s' g = Some id) -> keeps s s'.
Proof. intros (A1 & A2 & A3 & A4 & A5 & A6) H. split; [exact A1|]. split; [exact A2|]. split; [exact A3|]. split; [exact A6|exact H]. Qed.
Lemma Own_names s D Lk c d a : Own s D Lk -> Own (with_names s c d a) D Lk.
Proof. intros [A B C E G]. constructor; assumption. Qed.
Lemma bind_ciphers l : forall s Lk, Own s all_fields Lk -> (forall i, In i l -> i < 20) ->
  let s' := fold_left bind_cipher l s in
  Own s' all_fields Lk /\ keeps s s' /\ s_md_names s' = s_md_names s /\ s_alias s' = s_alias s /\ (forall i, s_ptr s' (F_md i) = s_ptr s (F_md i)) /\
  (forall j, In j l -> exists id, s_ci_names s' j = Some id /\ s_ptr s' (F_ci j) = Some id) /\ (forall j, ~ In j l -> s_ci_names s' j = s_ci_names s j).
Proof.
  induction l as [|i l IH]; intros s Lk O Hl; cbn [fold_left].
  - split; [exact O|]. split; [apply keeps_refl|]. do 3 (split; [reflexivity|]). split; [intros j []|reflexivity].
  - destruct (init_cipher s i) as [s1 p] eqn:Hq.
    destruct (init_cipher_spec s i s1 p (Hl i (or_introl eq_refl)) Hq Lk O) as (O1 & F1 & (id & -> & Pi & Hi) & K1 & P1 & A1).
    assert (bind_cipher s i = with_names s1 (set (s_ci_names s1) i (Some id)) (s_md_names s1) (s_alias s1)) as Eb by (unfold bind_cipher; rewrite Hq; reflexivity).
    rewrite Eb. clear Eb. set (s2 := with_names s1 (set (s_ci_names s1) i (Some id)) (s_md_names s1) (s_alias s1)).
    assert (Own s2 all_fields Lk) as O2 by (apply Own_names; exact O1).
    pose proof (frame_keeps _ _ F1 K1) as KK. destruct F1 as (E1 & E2 & E3 & E4 & E5 & E6).
    destruct (IH s2 Lk O2 (fun j Hj => Hl j (or_intror Hj))) as (O3 & K3 & M3 & A3 & Pm3 & N3 & N3').
    set (s3 := fold_left bind_cipher l s2) in *.
    split; [exact O3|]. split; [exact (keeps_trans _ s1 _ KK K3)|]. split; [exact (eq_trans M3 E5)|]. split; [exact (eq_trans A3 A1)|].
    split; [intros j; rewrite Pm3; exact (P1 (F_md j) ltac:(discriminate))|]. split.
    + intros j Hj. destruct (in_dec Nat.eq_dec j l) as [Hjl|Hjl]; [exact (N3 j Hjl)|]. destruct Hj as [ <- |Hj]; [|contradiction].
      exists id. split; [rewrite (N3' i Hjl); unfold s2; cbn [with_names s_ci_names]; unfold set; rewrite Nat.eqb_refl; reflexivity|].
      destruct K3 as (_ & _ & _ & _ & K3). apply K3. exact Pi.
    + intros j Hj. rewrite N3' by (intros H; apply Hj; right; exact H). unfold s2. cbn [with_names s_ci_names]. unfold set.
      destruct (Nat.eqb_spec i j) as [Eq|]; [contradiction Hj; left; exact Eq|]. rewrite E4. reflexivity.
Qed.
Lemma bind_digests l : forall s Lk, Own s all_fields Lk -> (forall i, In i l -> i < 8) -> NoDup l ->
  let s' := fold_left bind_digest l s in
  Own s' all_fields Lk /\ keeps s s' /\ s_ci_names s' = s_ci_names s /\ (forall j, s_alias s' j = true -> s_alias s j = true \/ has_alias j = true) /\
  (forall j, s_alias s j = true -> s_alias s' j = true) /\
  (forall j, In j l -> has_alias j = true -> s_ptr s (F_md j) = None -> s_alias s' j = true) /\
  (forall j, In j l -> exists id, s_md_names s' j = Some id /\ s_ptr s' (F_md j) = Some id) /\ (forall j, ~ In j l -> s_md_names s' j = s_md_names s j).
Proof.
  induction l as [|i l IH]; intros s Lk O Hl Hnd; cbn [fold_left].
  - split; [exact O|]. split; [apply keeps_refl|]. split; [reflexivity|]. split; [intros j H; left; exact H|]. split; [intros j H; exact H|].
    split; [intros j []|]. split; [intros j []|reflexivity].
  - inversion Hnd as [|? ? Hni Hnd']; subst.
    destruct (init_digest s i) as [s1 p] eqn:Hq.
    destruct (init_digest_spec s i s1 p (Hl i (or_introl eq_refl)) Hq Lk O) as (O1 & F1 & (id & -> & Pi & Hi) & K1 & P1 & A1 & A1').
    assert (bind_digest s i = with_names s1 (s_ci_names s1) (set (s_md_names s1) i (Some id)) (s_alias s1)) as Eb by (unfold bind_digest; rewrite Hq; reflexivity).
    rewrite Eb. clear Eb. set (s2 := with_names s1 (s_ci_names s1) (set (s_md_names s1) i (Some id)) (s_alias s1)).
    assert (Own s2 all_fields Lk) as O2 by (apply Own_names; exact O1).
    pose proof (frame_keeps _ _ F1 K1) as KK. destruct F1 as (E1 & E2 & E3 & E4 & E5 & E6).
    destruct (IH s2 Lk O2 (fun j Hj => Hl j (or_intror Hj)) Hnd') as (O3 & K3 & M3 & A3 & A3' & A3'' & N3 & N3').
    set (s3 := fold_left bind_digest l s2) in *.
    split; [exact O3|]. split; [exact (keeps_trans _ s1 _ KK K3)|]. split; [exact (eq_trans M3 E4)|].
    split; [intros j Hj; destruct (A3 j Hj) as [H|H]; [|right; exact H]; change (s_alias s1 j = true) in H; destruct (A1 j) as [Ej|(_ & Ej & _)];
            [left; rewrite <- Ej; exact H|right; exact Ej]|].
    split; [intros j Hj; apply A3'; change (s_alias s1 j = true); destruct (A1 j) as [Ej|(_ & _ & _ & Ej)]; [rewrite Ej; exact Hj|exact Ej]|].
    split; [|split].
    + intros j [ <- |Hj] Ha Pj.
      * apply A3'. exact (A1' Pj Ha).
      * apply (A3'' j Hj Ha). change (s_ptr s1 (F_md j) = None). rewrite P1; [exact Pj|]. intros Eq. injection Eq as Eq. subst j. contradiction.
    + intros j Hj. destruct (in_dec Nat.eq_dec j l) as [Hjl|Hjl]; [exact (N3 j Hjl)|]. destruct Hj as [ <- |Hj]; [|contradiction].
      exists id. split; [rewrite (N3' i Hjl); unfold s2; cbn [with_names s_md_names]; unfold set; rewrite Nat.eqb_refl; reflexivity|].
      destruct K3 as (_ & _ & _ & _ & K3). apply K3. exact Pi.
    + intros j Hj. rewrite N3' by (intros H; apply Hj; right; exact H). unfold s2. cbn [with_names s_md_names]. unfold set.
      destruct (Nat.eqb_spec i j) as [Eq|]; [contradiction Hj; left; exact Eq|]. rewrite E5. reflexivity.
Qed.
Lemma bind_spec s Lk : Own s all_fields Lk -> (forall j, s_ptr s (F_md j) = None) -> (forall j, s_alias s j = true -> has_alias j = true) ->
  let s' := bind_engine s in
  Own s' all_fields Lk /\ keeps s s' /\ (forall j, s_alias s' j = has_alias j) /\
  (forall j, j < 20 -> exists id, s_ci_names s' j = Some id /\ s_ptr s' (F_ci j) = Some id) /\ (forall j, 20 <= j -> s_ci_names s' j = s_ci_names s j) /\
  (forall j, j < 8 -> exists id, s_md_names s' j = Some id /\ s_ptr s' (F_md j) = Some id) /\ (forall j, 8 <= j -> s_md_names s' j = s_md_names s j).
Proof.
  intros O Pm Al. cbv zeta. unfold bind_engine. change (length cipher_array) with 20. change (length digest_array) with 8.
  assert (forall n i, In i (seq 0 n) <-> i < n) as Is by (intros n i; rewrite in_seq; lia).
  destruct (bind_ciphers (seq 0 20) s Lk O (fun i => proj1 (Is 20 i))) as (O1 & K1 & M1 & A1 & P1 & N1 & N1').
  set (s1 := fold_left bind_cipher (seq 0 20) s) in *.
  destruct (bind_digests (seq 0 8) s1 Lk O1 (fun i => proj1 (Is 8 i)) (seq_NoDup 8 0)) as (O2 & K2 & M2 & A2 & A2' & A2'' & N2 & N2').
  set (s2 := fold_left bind_digest (seq 0 8) s1) in *.
  split; [exact O2|]. split; [exact (keeps_trans _ _ _ K1 K2)|]. split; [|split; [|split; [|split]]].
  - intros j. destruct (has_alias j) eqn:Hj.
    + apply A2''; [|exact Hj|rewrite P1; apply Pm]. apply Is. destruct j as [|[|[|[|j]]]]; try discriminate Hj; lia.
    + destruct (s_alias s2 j) eqn:Ej; [|reflexivity]. destruct (A2 j Ej) as [H|H]; [|congruence]. rewrite A1 in H. rewrite (Al j H) in Hj. discriminate.
  - intros j Hj. destruct (N1 j (proj2 (Is 20 j) Hj)) as (id & E1 & E2). exists id. split; [rewrite M2; exact E1|]. apply K2. exact E2.
  - intros j Hj. rewrite M2. apply N1'. rewrite Is. lia.
  - intros j Hj. exact (N2 j (proj2 (Is 8 j) Hj)).
  - intros j Hj. rewrite N2' by (rewrite Is; lia). rewrite M1. reflexivity.
Qed.
