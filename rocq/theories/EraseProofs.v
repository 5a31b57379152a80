(** Proofs for C61. *)
From Verif Require Import Bytes BytesProofs Gost89Model Gost89Sboxes CryptModel KuzTables KuzModel KuzCipherModel KdfModel MgmModel EraseModel EraseSpec.
From Coq Require Import String List NArith ZArith Lia.
Import ListNotations.
Local Open Scope list_scope.
Local Open Scope N_scope.

(** Everything in a context that is not erased agrees. *)
Definition rel (c d : evp) : Prop :=
  e_count c = e_count d /\ e_mesh c = e_mesh d /\ e_num c = e_num d /\ e_app c = e_app d /\ e_enc c = e_enc d /\ g_boxes (e_g c) = g_boxes (e_g d) /\ True.
Ltac rel := unfold rel in *; cbn in *; intuition congruence.

Lemma boxes_gost_key g k : g_boxes (gost_key g k) = g_boxes g. Proof. reflexivity. Qed.
Lemma boxes_magma_key g k : g_boxes (magma_key g k) = g_boxes g. Proof. reflexivity. Qed.
Lemma boxes_master g k : g_boxes (magma_master_key g k) = g_boxes g. Proof. reflexivity. Qed.
Lemma boxes_acpkm g : g_boxes (acpkm_magma_key_meshing g) = g_boxes g. Proof. reflexivity. Qed.
Lemma boxes_mesh g v : g_boxes (fst (cryptopro_key_meshing g v)) = g_boxes g. Proof. reflexivity. Qed.
Lemma boxes_init g g' sb : g_boxes (gost_init g sb) = g_boxes (gost_init g' sb). Proof. reflexivity. Qed.

Lemma rel_intro c d : e_count c = e_count d -> e_mesh c = e_mesh d -> e_num c = e_num d -> e_app c = e_app d -> e_enc c = e_enc d ->
  g_boxes (e_g c) = g_boxes (e_g d) -> rel c d.
Proof. intros. unfold rel. auto 8. Qed.
Ltac open := match goal with H : rel _ _ |- _ => destruct H as (?Hc & ?Hm & ?Hn & ?Ha & ?He & ?Hb & _) end.

Lemma rel_iv c d v w : rel c d -> rel (with_iv c v) (with_iv d w).
Proof. intros H; open; apply rel_intro; assumption. Qed.
Lemma rel_oiv c d v w : rel c d -> rel (with_oiv c v) (with_oiv d w).
Proof. intros H; open; apply rel_intro; assumption. Qed.
Lemma rel_buf c d v w : rel c d -> rel (with_buf c v) (with_buf d w).
Proof. intros H; open; apply rel_intro; assumption. Qed.
Lemma rel_abort c d v w : rel c d -> rel (with_abort c v) (with_abort d w).
Proof. intros H; open; apply rel_intro; assumption. Qed.
Lemma rel_num c d v w : rel c d -> v = w -> rel (with_num c v) (with_num d w).
Proof. intros H E; open; apply rel_intro; assumption. Qed.
Lemma rel_count c d v w : rel c d -> v = w -> rel (with_count c v) (with_count d w).
Proof. intros H E; open; apply rel_intro; assumption. Qed.
Lemma rel_mesh c d v w : rel c d -> v = w -> rel (with_mesh c v) (with_mesh d w).
Proof. intros H E; open; apply rel_intro; assumption. Qed.
Lemma rel_app c d v w : rel c d -> v = w -> rel (with_app c v) (with_app d w).
Proof. intros H E; open; apply rel_intro; assumption. Qed.
Lemma rel_enc c d v w : rel c d -> v = w -> rel (with_enc c v) (with_enc d w).
Proof. intros H E; open; apply rel_intro; assumption. Qed.
Lemma rel_g c d g h : rel c d -> g_boxes g = g_boxes h -> rel (with_g c g) (with_g d h).
Proof. intros H E; open; apply rel_intro; assumption. Qed.
Lemma rel_fields c d : rel c d -> e_count c = e_count d /\ e_mesh c = e_mesh d /\ e_num c = e_num d /\ e_app c = e_app d /\ e_enc c = e_enc d /\ g_boxes (e_g c) = g_boxes (e_g d).
Proof. intros H; open; auto 8. Qed.

Lemma rel_init_iv c d v w n : rel c d -> same_presence v w -> rel (init_iv c v n) (init_iv d w n).
Proof.
  intros H P. unfold init_iv. destruct v, w; try contradiction; cbv zeta; repeat first [apply rel_iv|apply rel_oiv]; exact H.
Qed.
Lemma rel_set_param c d sb : rel c d -> rel (gost_cipher_set_param c sb) (gost_cipher_set_param d sb).
Proof. intros H. unfold gost_cipher_set_param. apply rel_g; [|apply boxes_init]. apply rel_count; [|reflexivity]. apply rel_mesh; auto. Qed.
Lemma rel_key c d k k' (f : gost_ctx -> list N -> gost_ctx) : (forall g k, g_boxes (f g k) = g_boxes g) -> rel c d -> same_presence k k' ->
  rel (match k with Some k => with_g c (f (e_g c) k) | None => c end) (match k' with Some k => with_g d (f (e_g d) k) | None => d end).
Proof. intros F H P. destruct k, k'; try contradiction; [|exact H]. apply rel_g; [exact H|]. rewrite !F. apply (rel_fields _ _ H). Qed.
Lemma rel_app_param c d sb : rel c d ->
  rel (if e_app c then c else with_app (gost_cipher_set_param c sb) true) (if e_app d then d else with_app (gost_cipher_set_param d sb) true).
Proof. intros H. destruct (rel_fields _ _ H) as (_ & _ & _ & A & _). rewrite A. destruct (e_app d); [exact H|]. apply rel_app; [apply rel_set_param; exact H|reflexivity]. Qed.

Lemma rel_init_param sb c d k v k' v' e : rel c d -> same_presence k k' -> same_presence v v' ->
  rel (gost_cipher_init_param sb c k v e) (gost_cipher_init_param sb d k' v' e).
Proof.
  intros H P Q. unfold gost_cipher_init_param. apply rel_init_iv; [|exact Q]. apply (rel_key _ _ k k' gost_key boxes_gost_key); [|exact P].
  apply rel_app_param. apply rel_enc; auto.
Qed.
Lemma rel_init_cnt sb c d k v k' v' e : rel c d -> same_presence k k' -> same_presence v v' ->
  rel (gost_cipher_init_cnt sb c k v e) (gost_cipher_init_cnt sb d k' v' e).
Proof.
  intros H P Q. unfold gost_cipher_init_cnt. apply rel_init_iv; [|exact Q]. apply (rel_key _ _ k k' gost_key boxes_gost_key); [|exact P].
  apply rel_count; [|reflexivity]. apply rel_mesh; [|reflexivity]. apply rel_g; [|apply boxes_init]. apply rel_enc; auto.
Qed.
Lemma rel_init_magma n a c d k v k' v' e : rel c d -> same_presence k k' -> same_presence v v' ->
  rel (magma_cipher_init n a c k v e) (magma_cipher_init n a d k' v' e).
Proof.
  intros H P Q. unfold magma_cipher_init. apply rel_mesh; [|reflexivity]. apply rel_init_iv; [|exact Q].
  apply (rel_key _ _ k k' (fun g k => magma_master_key (magma_key g k) k)); [intros; reflexivity| |exact P].
  apply rel_app_param. apply rel_enc; auto.
Qed.

(** * Block steps *)
Lemma rel_do_mesh c d : rel c d ->
  rel (if mesh_due c then let (g, iv) := cryptopro_key_meshing (e_g c) (e_iv c) in with_iv (with_g c g) iv else c)
      (if mesh_due d then let (g, iv) := cryptopro_key_meshing (e_g d) (e_iv d) in with_iv (with_g d g) iv else d).
Proof.
  intros H. destruct (rel_fields _ _ H) as (C & M & _ & _ & _ & B).
  assert (E : mesh_due c = mesh_due d) by (unfold mesh_due; rewrite C, M; reflexivity). rewrite E. destruct (mesh_due d); [|exact H].
  unfold cryptopro_key_meshing. apply rel_iv. apply rel_g; [exact H|]. rewrite !boxes_gost_key. exact B.
Qed.
Lemma rel_count_step c d : rel c d -> e_count c mod 1024 + 8 = e_count d mod 1024 + 8.
Proof. intros H. rewrite (proj1 (rel_fields _ _ H)). reflexivity. Qed.
Lemma rel_crypt_mesh c d : rel c d -> rel (gost_crypt_mesh c) (gost_crypt_mesh d).
Proof.
  intros H. unfold gost_crypt_mesh. cbv zeta.
  assert (H1 : rel (with_abort c (e_abort c || negb (assert_count (e_count c)))) (with_abort d (e_abort d || negb (assert_count (e_count d)))))
    by (apply rel_abort; exact H).
  apply rel_do_mesh in H1.
  match type of H1 with rel ?a ?b => set (c1 := a) in *; set (d1 := b) in * end.
  clearbody c1 d1. apply rel_count; [|cbn; apply (rel_count_step _ _ H1)]. apply rel_buf. exact H1.
Qed.
Lemma rel_cnt_next c d : rel c d -> rel (gost_cnt_next c) (gost_cnt_next d).
Proof.
  intros H. unfold gost_cnt_next. cbv zeta.
  assert (H1 : rel (with_abort c (e_abort c || negb (assert_count (e_count c)))) (with_abort d (e_abort d || negb (assert_count (e_count d)))))
    by (apply rel_abort; exact H).
  apply rel_do_mesh in H1.
  match type of H1 with rel ?a ?b => set (c1 := a) in *; set (d1 := b) in * end.
  clearbody c1 d1. apply rel_count; [|cbn; apply (rel_count_step _ _ H1)]. apply rel_buf. apply rel_iv. exact H1.
Qed.

(** * CFB *)
Lemma cfb_partial_shape enc x : forall y b b' j, length x = length y ->
  let '(_, j1, r1, _) := cfb_partial enc b j x in let '(_, j2, r2, _) := cfb_partial enc b' j y in j1 = j2 /\ length r1 = length r2.
Proof.
  induction x as [|a x IH]; intros [|a' y] b b' j L; try discriminate L; [cbn; auto|]. cbn [cfb_partial].
  destruct (j <? 8)%nat; [|auto].
  match goal with |- context [cfb_partial enc ?u (S j) x] => match goal with |- context [cfb_partial enc ?w (S j) y] =>
    specialize (IH y u w (S j) ltac:(cbn in L; congruence)); destruct (cfb_partial enc u (S j) x) as [[[? ?] ?] ?]; destruct (cfb_partial enc w (S j) y) as [[[? ?] ?] ?] end end.
  exact IH.
Qed.
Lemma rel_if_enc c d v w : rel c d -> rel (if e_enc c then c else with_iv c v) (if e_enc d then d else with_iv d w).
Proof. intros H. destruct (rel_fields _ _ H) as (_ & _ & _ & _ & E & _). rewrite E. destruct (e_enc d); [exact H|apply rel_iv; exact H]. Qed.
Lemma rel_if_enc' c d v w : rel c d -> rel (if e_enc c then with_iv c v else c) (if e_enc d then with_iv d w else d).
Proof. intros H. destruct (rel_fields _ _ H) as (_ & _ & _ & _ & E & _). rewrite E. destruct (e_enc d); [apply rel_iv; exact H|exact H]. Qed.
Lemma rel_if_buf c d v w : rel c d -> rel (if e_enc c then c else with_buf c v) (if e_enc d then d else with_buf d w).
Proof. intros H. destruct (rel_fields _ _ H) as (_ & _ & _ & _ & E & _). rewrite E. destruct (e_enc d); [exact H|apply rel_buf; exact H]. Qed.
Lemma rel_if_buf' c d v w : rel c d -> rel (if e_enc c then with_buf c v else c) (if e_enc d then with_buf d w else d).
Proof. intros H. destruct (rel_fields _ _ H) as (_ & _ & _ & _ & E & _). rewrite E. destruct (e_enc d); [apply rel_buf; exact H|exact H]. Qed.
Lemma rel_cfb_blocks n : forall c d x y, rel c d -> length x = length y ->
  rel (fst (fst (cfb_blocks n c x))) (fst (fst (cfb_blocks n d y))) /\ length (snd (fst (cfb_blocks n c x))) = length (snd (fst (cfb_blocks n d y))).
Proof.
  induction n as [|n IH]; intros c d x y H L; [cbn; auto|]. cbn [cfb_blocks]. cbv zeta. rewrite L.
  destruct (8 <=? length y)%nat; [|cbn; auto].
  match goal with |- context [cfb_blocks n ?u (skipn 8 x)] => match goal with |- context [cfb_blocks n ?w (skipn 8 y)] =>
    specialize (IH u w (skipn 8 x) (skipn 8 y)); destruct (cfb_blocks n u (skipn 8 x)) as [[? ?] ?]; destruct (cfb_blocks n w (skipn 8 y)) as [[? ?] ?] end end.
  cbn [fst snd] in IH |- *. apply IH; [|rewrite !skipn_length, L; reflexivity]. apply rel_if_enc'. apply rel_if_enc. apply rel_crypt_mesh. exact H.
Qed.
Lemma rel_cfb_rest c d x y : rel c d -> length x = length y -> rel (fst (cfb_rest c x)) (fst (cfb_rest d y)).
Proof.
  intros H L. destruct x as [|a x], y as [|b y]; try discriminate L; cbn [cfb_rest]; [apply rel_num; auto|]. cbv zeta. cbn [fst].
  apply rel_if_buf'. apply rel_num; [|f_equal; exact L]. apply rel_if_buf. apply rel_crypt_mesh. exact H.
Qed.
Lemma rel_cfb_main c d x y : rel c d -> length x = length y -> rel (fst (cfb_main c x)) (fst (cfb_main d y)).
Proof.
  intros H L. unfold cfb_main. rewrite L. pose proof (rel_cfb_blocks (length y) c d x y H L) as [R Q].
  destruct (cfb_blocks _ c x) as [[c1 r1] o1], (cfb_blocks _ d y) as [[d1 r2] o2]. cbn [fst snd] in R, Q.
  pose proof (rel_cfb_rest c1 d1 r1 r2 R Q) as F. destruct (cfb_rest c1 r1), (cfb_rest d1 r2). exact F.
Qed.
Lemma rel_do_cfb c d x y : rel c d -> length x = length y -> rel (fst (gost_cipher_do_cfb c x)) (fst (gost_cipher_do_cfb d y)).
Proof.
  intros H L. destruct (rel_fields _ _ H) as (_ & _ & Nn & _ & E & _). unfold gost_cipher_do_cfb. rewrite Nn, E.
  destruct (e_num d =? 0); [apply rel_cfb_main; assumption|].
  pose proof (cfb_partial_shape (e_enc d) x y (e_buf c) (e_buf d) (N.to_nat (e_num d)) L) as S.
  destruct (cfb_partial _ (e_buf c) _ x) as [[[b1 j1] r1] o1], (cfb_partial _ (e_buf d) _ y) as [[[b2 j2] r2] o2]. destruct S as [-> Lr]. cbv zeta.
  destruct (j2 =? 8)%nat.
  - match goal with |- context [cfb_main ?u r1] => match goal with |- context [cfb_main ?w r2] =>
      assert (F : rel (fst (cfb_main u r1)) (fst (cfb_main w r2))); [|destruct (cfb_main u r1), (cfb_main w r2); exact F] end end.
    apply rel_cfb_main; [|exact Lr]. apply rel_num; [|reflexivity]. apply rel_iv, rel_buf. exact H.
  - apply rel_num; [|reflexivity]. apply rel_buf. exact H.
Qed.

(** * CNT *)
Lemma ks_partial_shape x : forall y b b' n j, length x = length y ->
  let '(j1, r1, _) := ks_partial b n j x in let '(j2, r2, _) := ks_partial b' n j y in j1 = j2 /\ length r1 = length r2.
Proof.
  induction x as [|a x IH]; intros [|a' y] b b' n j L; try discriminate L; [cbn; auto|]. cbn [ks_partial].
  destruct (j <? n)%nat; [|auto]. specialize (IH y b b' n (S j) ltac:(cbn in L; congruence)).
  destruct (ks_partial b n (S j) x) as [[? ?] ?], (ks_partial b' n (S j) y) as [[? ?] ?]. exact IH.
Qed.
Lemma rel_cnt_blocks n : forall c d x y, rel c d -> length x = length y ->
  rel (fst (fst (cnt_blocks n c x))) (fst (fst (cnt_blocks n d y))) /\ length (snd (fst (cnt_blocks n c x))) = length (snd (fst (cnt_blocks n d y))).
Proof.
  induction n as [|n IH]; intros c d x y H L; [cbn; auto|]. cbn [cnt_blocks]. cbv zeta. rewrite L.
  destruct (8 <=? length y)%nat; [|cbn; auto].
  specialize (IH (gost_cnt_next c) (gost_cnt_next d) (skipn 8 x) (skipn 8 y)).
  destruct (cnt_blocks n _ (skipn 8 x)) as [[? ?] ?], (cnt_blocks n _ (skipn 8 y)) as [[? ?] ?]. cbn [fst snd] in IH |- *.
  apply IH; [apply rel_cnt_next; exact H|rewrite !skipn_length, L; reflexivity].
Qed.
Lemma rel_cnt_rest c d x y : rel c d -> length x = length y -> rel (fst (cnt_rest c x)) (fst (cnt_rest d y)).
Proof.
  intros H L. destruct x as [|a x], y as [|b y]; try discriminate L; cbn [cnt_rest]; [apply rel_num; auto|]. cbv zeta. cbn [fst].
  apply rel_num; [|f_equal; exact L]. apply rel_cnt_next. exact H.
Qed.
Lemma rel_cnt_main c d x y : rel c d -> length x = length y -> rel (fst (cnt_main c x)) (fst (cnt_main d y)).
Proof.
  intros H L. unfold cnt_main. rewrite L. pose proof (rel_cnt_blocks (length y) c d x y H L) as [R Q].
  destruct (cnt_blocks _ c x) as [[c1 r1] o1], (cnt_blocks _ d y) as [[d1 r2] o2]. cbn [fst snd] in R, Q.
  pose proof (rel_cnt_rest c1 d1 r1 r2 R Q) as F. destruct (cnt_rest c1 r1), (cnt_rest d1 r2). exact F.
Qed.
Lemma rel_do_cnt c d x y : rel c d -> length x = length y -> rel (fst (gost_cipher_do_cnt c x)) (fst (gost_cipher_do_cnt d y)).
Proof.
  intros H L. destruct (rel_fields _ _ H) as (_ & _ & Nn & _). unfold gost_cipher_do_cnt. rewrite Nn.
  destruct (e_num d =? 0); [apply rel_cnt_main; assumption|].
  pose proof (ks_partial_shape x y (e_buf c) (e_buf d) 8 (N.to_nat (e_num d)) L) as S.
  destruct (ks_partial (e_buf c) _ _ x) as [[j1 r1] o1], (ks_partial (e_buf d) _ _ y) as [[j2 r2] o2]. destruct S as [-> Lr].
  destruct (j2 =? 8)%nat.
  - assert (F : rel (fst (cnt_main (with_num c 0) r1)) (fst (cnt_main (with_num d 0) r2))) by (apply rel_cnt_main; [apply rel_num; auto|exact Lr]).
    destruct (cnt_main _ r1), (cnt_main _ r2). exact F.
  - apply rel_num; auto.
Qed.

(** * CBC, ECB *)
Lemma rel_do_cbc c d x y : rel c d -> rel (fst (gost_cipher_do_cbc c x)) (fst (gost_cipher_do_cbc d y)).
Proof.
  intros H. unfold gost_cipher_do_cbc.
  match goal with |- rel (fst (let (_, _) := ?u in _)) (fst (let (_, _) := ?w in _)) => destruct u, w end. apply rel_iv. exact H.
Qed.
Lemma rel_do_cbc_magma c d x y : rel c d -> rel (fst (magma_cipher_do_cbc c x)) (fst (magma_cipher_do_cbc d y)).
Proof.
  intros H. unfold magma_cipher_do_cbc.
  match goal with |- rel (fst (let (_, _) := ?u in _)) (fst (let (_, _) := ?w in _)) => destruct u, w end. apply rel_iv. exact H.
Qed.

(** * Magma CTR *)
Lemma rel_apply_acpkm c d : rel c d -> rel (apply_acpkm_magma c) (apply_acpkm_magma d).
Proof.
  intros H. destruct (rel_fields _ _ H) as (_ & M & Nn & _ & _ & B). unfold apply_acpkm_magma. rewrite M, Nn.
  destruct (_ || _)%bool; [exact H|]. apply rel_num; [|reflexivity]. apply rel_g; [exact H|]. rewrite !boxes_acpkm. exact B.
Qed.
Lemma rel_ctr_block c d : rel c d -> rel (magma_ctr_block c) (magma_ctr_block d).
Proof.
  intros H. unfold magma_ctr_block. cbv zeta. apply rel_apply_acpkm in H. 
  set (c1 := apply_acpkm_magma c) in *. set (d1 := apply_acpkm_magma d) in *. clearbody c1 d1.
  apply rel_count; [|cbn; rewrite (proj1 (rel_fields _ _ H)); reflexivity]. apply rel_iv, rel_buf. exact H.
Qed.
Lemma rel_ctr_partial x : forall y c d, rel c d -> length x = length y ->
  rel (fst (fst (magma_ctr_partial c x))) (fst (fst (magma_ctr_partial d y))) /\ length (snd (fst (magma_ctr_partial c x))) = length (snd (fst (magma_ctr_partial d y))).
Proof.
  induction x as [|a x IH]; intros [|b y] c d H L; try discriminate L; [cbn; auto|]. cbn [magma_ctr_partial].
  destruct (rel_fields _ _ H) as (_ & _ & Nn & _). rewrite Nn. destruct (_ =? 0); [cbn; auto|]. cbv zeta.
  specialize (IH y (with_num c (w32 (e_num d + 1))) (with_num d (w32 (e_num d + 1)))).
  destruct (magma_ctr_partial _ x) as [[? ?] ?], (magma_ctr_partial _ y) as [[? ?] ?]. cbn [fst snd] in IH |- *. apply IH; [apply rel_num; auto|cbn in L; congruence].
Qed.
Lemma rel_ctr_blocks n : forall c d x y, rel c d -> length x = length y ->
  rel (fst (fst (magma_ctr_blocks n c x))) (fst (fst (magma_ctr_blocks n d y))) /\
  length (snd (fst (magma_ctr_blocks n c x))) = length (snd (fst (magma_ctr_blocks n d y))).
Proof.
  induction n as [|n IH]; intros c d x y H L; [cbn; auto|]. cbn [magma_ctr_blocks]. cbv zeta. rewrite L.
  destruct (8 <=? length y)%nat; [|cbn; auto]. apply rel_ctr_block in H. 
  specialize (IH (with_num (magma_ctr_block c) (w32 (e_num (magma_ctr_block c) + 8))) (with_num (magma_ctr_block d) (w32 (e_num (magma_ctr_block d) + 8))) (skipn 8 x) (skipn 8 y)).
  destruct (magma_ctr_blocks n _ (skipn 8 x)) as [[? ?] ?], (magma_ctr_blocks n _ (skipn 8 y)) as [[? ?] ?]. cbn [fst snd] in IH |- *.
  apply IH; [apply rel_num; [exact H|]|rewrite !skipn_length, L; reflexivity].
  destruct (rel_fields _ _ H) as (_ & _ & Nn & _). rewrite Nn. reflexivity.
Qed.
Lemma rel_do_ctr c d x y : rel c d -> length x = length y -> rel (fst (magma_cipher_do_ctr c x)) (fst (magma_cipher_do_ctr d y)).
Proof.
  intros H L. unfold magma_cipher_do_ctr. pose proof (rel_ctr_partial x y c d H L) as [R Q].
  destruct (magma_ctr_partial c x) as [[c1 x1] o1], (magma_ctr_partial d y) as [[d1 y1] o2]. cbn [fst snd] in R, Q. rewrite Q.
  pose proof (rel_ctr_blocks (length y1) c1 d1 x1 y1 R Q) as [R2 Q2].
  destruct (magma_ctr_blocks _ c1 x1) as [[c2 x2] o3], (magma_ctr_blocks _ d1 y1) as [[d2 y2] o4]. cbn [fst snd] in R2, Q2.
  destruct x2 as [|a x2], y2 as [|b y2]; try discriminate Q2; [exact R2|]. cbv zeta. cbn [fst].
  pose proof (rel_ctr_block _ _ R2) as R3. apply rel_num; [exact R3|]. rewrite Q2. destruct (rel_fields _ _ R3) as (_ & _ & Nn & _). rewrite Nn. reflexivity.
Qed.

(** * Controls *)
Lemma level_some h k l s : exists o, level h k l s = Some o.
Proof.
  unfold level, gost_kdftree2012_256. cbv zeta. change ((32 =? 0) || negb (32 mod 32 =? 0))%bool with false. cbn iota.
  destruct (strip_zeros (mem (h_le h) 4 (be32 (h_le h) (w32 (32 * 8))))) as [lb|] eqn:E.
  - change (4 <? 1)%nat with false. cbn iota. eauto.
  - exfalso. destruct (h_le h); vm_compute in E; discriminate E.
Qed.
Lemma gost_tlstree_some h n k q : tlstree_masks n <> None -> exists o, gost_tlstree h n k q = Some o.
Proof.
  intros T. unfold gost_tlstree. destruct (tlstree_masks n) as [[[c1 c2] c3]|]; [|contradiction]. cbv zeta.
  destruct (level_some h (firstn 32 k) "level1"%string (N.land (tlstree_seq (h_le h) q) c1)) as (o1 & ->).
  destruct (level_some h o1 "level2"%string (N.land (tlstree_seq (h_le h) q) c2)) as (o2 & ->).
  apply level_some.
Qed.
Lemma rel_tls h h' b c d a q : rel c d -> rel (snd (magma_ctl_tlstree h b c a q)) (snd (magma_ctl_tlstree h' b d a q)).
Proof.
  intros H. unfold magma_ctl_tlstree. destruct b; [|exact H]. cbn [negb]. destruct (decrement_sequence _ _) as [s|]; [|exact H].
  destruct (gost_tlstree_some h NID_magma_cbc (g_master (e_g c)) s ltac:(discriminate)) as (o1 & ->).
  destruct (gost_tlstree_some h' NID_magma_cbc (g_master (e_g d)) s ltac:(discriminate)) as (o2 & ->).
  cbv zeta. cbn [snd]. apply rel_g; [|rewrite !boxes_magma_key; apply (rel_fields _ _ H)]. apply rel_iv, rel_num; auto.
Qed.
Lemma rel_step m c d x y : rel c d -> same_call x y -> rel (g_step m c x) (g_step m d y).
Proof.
  intros H S. destruct x as [k v e|l|n|sb|h a q], y as [k' v' e'|l'|n'|sb'|h' a' q']; try contradiction; cbn [same_call] in S; cbn [g_step].
  - destruct S as (P & Q & <-). destruct m; cbn [g_init]; auto using rel_init_param, rel_init_cnt, rel_init_magma.
  - destruct m; unfold g_do; [apply rel_do_cfb|apply rel_do_cbc|apply rel_do_cnt|exact H|apply rel_do_cbc_magma|apply rel_do_ctr|apply rel_do_ctr]; assumption.
  - subst. unfold ctl_key_mesh. destruct (rel_fields _ _ H) as (C & _). rewrite C. destruct (negb _); [exact H|]. apply rel_mesh; auto.
  - subst. unfold ctl_set_sbox. destruct (rel_fields _ _ H) as (C & M & _). rewrite C. destruct (negb _); [exact H|]. apply rel_mesh; [apply rel_set_param; exact H|exact M].
  - destruct S as [<- <-]. apply rel_tls. exact H.
Qed.
Lemma rel_run m r r' l l' : Forall2 same_call l l' -> rel (g_run m r l) (g_run m r' l').
Proof.
  intros F. unfold g_run. assert (R : rel (g_fresh r) (g_fresh r')) by (apply rel_intro; reflexivity). revert R. generalize (g_fresh r), (g_fresh r').
  induction F as [|x y l l' S _ IH]; intros c d R; [exact R|]. cbn [fold_left]. apply IH. apply rel_step; assumption.
Qed.
