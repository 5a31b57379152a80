(** Property C61: secrets are erased. *)
From Verif Require Import Bytes BytesProofs Gost89Model Gost89Sboxes Gost89Spec Gost89Proofs Gost89SpecProofs Gost89ModeProofs CryptSpec CryptProofs PropGost89 CryptModel
  KuzTables KuzModel KuzBlockProofs KuzCipherModel KdfModel MgmModel OmacModel KeywrapModel KeywrapSpec PropKeywrap KexpModel KexpSpec PropOmac PropKexp PmethModel
  EraseModel EraseSpec EraseProofs.
From Coq Require Import List Lia NArith ZArith.
Import ListNotations.
Local Open Scope list_scope.
Local Open Scope N_scope.

(** * GOST 28147-89 and Magma *)
(** Two contexts are given the same calls, with different keys, IVs and data, and different random masks: after the clean-up their
    bytes are the same, so nothing of the secrets can be read from them; and the fields of the keys are zero. *)
Theorem C61_28147_and_magma_contexts_forget :
  forall m r1 r2 l1 l2, Forall2 same_call l1 l2 ->
    g_mem (gost_cipher_cleanup (g_run m r1 l1)) = g_mem (gost_cipher_cleanup (g_run m r2 l2)) /\
    gm_master (g_mem (gost_cipher_cleanup (g_run m r1 l1))) = zeros 32 /\
    gm_key (g_mem (gost_cipher_cleanup (g_run m r1 l1))) = zeros 8 /\ gm_mask (g_mem (gost_cipher_cleanup (g_run m r1 l1))) = zeros 8.
Proof.
  intros m r1 r2 l1 l2 F. destruct (rel_fields _ _ (rel_run m r1 r2 _ _ F)) as (C & M & _ & _ & _ & B).
  set (c := g_run m r1 l1) in *. set (d := g_run m r2 l2) in *. clearbody c d. split; [|repeat split].
  unfold g_mem, gost_cipher_cleanup. cbn. rewrite C, M. unfold g_boxes in *. cbn. congruence.
Qed.
Print Assumptions C61_28147_and_magma_contexts_forget.
(** Before the clean-up the two memories do differ, and the keys are in them. *)
Definition demo_rng : nat -> list N := fun n => map (fun i => N.of_nat (n + 3 * i + 1)) (seq 0 8).
Definition demo_key (x : N) : list N := map (fun i => (x + N.of_nat i) mod 256) (seq 0 32).
Definition demo_calls (x : N) : list g_call :=
  [G_init (Some (demo_key x)) (Some (firstn 8 (demo_key (x + 7)))) true; G_mesh 8; G_data (demo_key (x + 9)); G_data [x; 1; 2]].
Example C61_demo_28147_and_magma :
  Forall2 same_call (demo_calls 1) (demo_calls 2) /\
  (forall x, In x [1; 2] -> magma_get_key (e_g (g_run M_cbc_magma demo_rng (demo_calls x))) = demo_key x) /\
  gost_get_key (e_g (g_run (M_cfb Gost28147_CryptoProParamSetA) demo_rng (demo_calls 1))) = demo_key 1 /\
  gm_count (g_mem (gost_cipher_cleanup (g_run (M_cfb Gost28147_CryptoProParamSetA) demo_rng (demo_calls 1)))) = 40.
Proof.
  split; [repeat constructor|]. split; [|vm_compute; auto].
  intros x [<-|[<-|[]]]; vm_compute; reflexivity.
Qed.

(** * The imit digests: the whole context is zero, whatever it held. *)
Theorem C61_imit_contexts_are_zeroed : forall c, all_zero (imit_mem (gost_imit_cleanup c)).
Proof. intros c. unfold all_zero, imit_mem, gost_imit_cleanup, g_boxes, zero_gost, zeros. cbn [i_g i_buffer i_partial i_count i_mesh i_left i_keyset i_size g_master g_key g_mask g_k87 g_k65 g_k43 g_k21].
  repeat (apply Forall_app; split); try (apply Forall_forall; intros y Hy; apply repeat_spec in Hy; exact Hy). repeat constructor.
Qed.
Print Assumptions C61_imit_contexts_are_zeroed.

(** * MGM *)
Lemma all_zero_zeros n : all_zero (zeros n).
Proof. apply Forall_forall. intros y Hy. apply repeat_spec in Hy. exact Hy. Qed.
Lemma all_zero_app a b : all_zero a -> all_zero b -> all_zero (a ++ b).
Proof. intros. apply Forall_app. auto. Qed.
Lemma zero_mgm_mem n : all_zero (mgm_mem (zero_mgm n)).
Proof. unfold mgm_mem, zero_mgm. cbn [m_nonce m_Yi m_Zi m_EKi m_ACi m_sum m_alen m_mlen m_mres m_ares]. repeat (apply all_zero_app; [apply all_zero_zeros|]). repeat constructor. Qed.
Lemma mm_boxes le r l : g_boxes (mm_g (mm_run le r l)) = g_boxes (zero_gost r) \/ g_boxes (mm_g (mm_run le r l)) = g_boxes (gost_init (zero_gost r) Gost28147_TC26ParamSetZ).
Proof.
  unfold mm_run. assert (I : forall s, (g_boxes (mm_g s) = g_boxes (zero_gost r) \/ g_boxes (mm_g s) = g_boxes (gost_init (zero_gost r) Gost28147_TC26ParamSetZ)) ->
    (g_boxes (mm_g (fold_left (mm_step le) l s)) = g_boxes (zero_gost r) \/ g_boxes (mm_g (fold_left (mm_step le) l s)) = g_boxes (gost_init (zero_gost r) Gost28147_TC26ParamSetZ))).
  { induction l as [|x l IH]; intros s H; [exact H|]. cbn [fold_left]. apply IH. destruct x as [k v e|c|a t]; cbn [mm_step mm_g]; [|exact H|exact H].
    destruct k; [right; apply (boxes_init (mm_g s) (zero_gost r))|exact H]. }
  apply I. left. reflexivity.
Qed.
Lemma kk_part le l : k_part (kk_k (kk_run le l)) = zeros 16.
Proof.
  unfold kk_run. assert (I : forall s, k_part (kk_k s) = zeros 16 -> k_part (kk_k (fold_left (kk_step le) l s)) = zeros 16).
  { induction l as [|x l IH]; intros s H; [exact H|]. cbn [fold_left]. apply IH. destruct x as [k v e|c|a t]; cbn [kk_step kk_k]; [|exact H|exact H].
    destruct k; exact H. }
  apply I. reflexivity.
Qed.
(** After every history the clean-up leaves zero in every byte of the key schedule and of the MGM state; of the Magma context only
    the tables of the S-boxes are left. *)
Theorem C61_mgm_contexts_are_zeroed :
  forall le l,
    (forall r, all_zero (mm_mem (gost_magma_mgm_cleanup (mm_run le r l))) /\
       (all_zero (g_boxes (mm_g (gost_magma_mgm_cleanup (mm_run le r l)))) \/
        g_boxes (mm_g (gost_magma_mgm_cleanup (mm_run le r l))) = g_boxes (gost_init (zero_gost r) Gost28147_TC26ParamSetZ))) /\
    all_zero (kk_mem (gost_grasshopper_mgm_cleanup (kk_run le l))).
Proof.
  intros le l. split.
  - intros r. split.
    + unfold mm_mem, gost_magma_mgm_cleanup, gost_destroy, x_w_mgm. cbn [mm_g mm_x g_master g_key g_mask x_mgm].
      do 3 (apply all_zero_app; [apply all_zero_zeros|]). apply zero_mgm_mem.
    + destruct (mm_boxes le r l) as [E|E]; [left|right; exact E]. change (all_zero (g_boxes (mm_g (mm_run le r l)))). rewrite E.
      unfold g_boxes, zero_gost. cbn [g_k87 g_k65 g_k43 g_k21]. repeat apply all_zero_app; apply all_zero_zeros.
  - unfold kk_mem, gost_grasshopper_mgm_cleanup, gost_grasshopper_cipher_destroy, x_w_mgm. cbn [kk_k kk_x x_mgm]. apply all_zero_app; [|apply zero_mgm_mem].
    unfold k_mem, kw_master, kw_keys. cbn [k_master k_key k_ek k_dk k_part]. rewrite kk_part.
    do 4 (apply all_zero_app; [first [apply all_zero_zeros|vm_compute; repeat constructor]|]). apply all_zero_zeros.
Qed.
Print Assumptions C61_mgm_contexts_are_zeroed.
Example C61_demo_mgm :
  let l := [X_init (Some (demo_key 1)) (Some (demo_key 5)) true; X_do (CallAad [1; 2; 3]); X_do (CallData [7; 8])] in
  magma_get_key (mm_g (mm_run true demo_rng l)) = demo_key 1 /\ m_sum (x_mgm (mm_x (mm_run true demo_rng l))) <> zeros 8 /\
  k_key (kk_k (kk_run true l)) = demo_key 1.
Proof. vm_compute. repeat split. discriminate. Qed.

(** * Kuznyechik *)
Section Keep.
  Context (M : list N).
  Let Q (c : kctx) : Prop := k_master c = M.
  Lemma loop_keep (step : kctx -> list N -> kctx * list N) bs bound : (forall c b, Q c -> Q (fst (step c b))) ->
    forall n c inp, Q c -> Q (fst (fst (block_loop step bs bound n c inp))).
  Proof.
    intros S. induction n as [|n IH]; intros c inp H; [exact H|]. cbn [block_loop]. destruct (bound <=? length inp)%nat; [|exact H].
    specialize (S c (firstn bs inp) H). destruct (step c (firstn bs inp)) as [c1 o]. specialize (IH c1 (skipn bs inp) S).
    destruct (block_loop step bs bound n c1 (skipn bs inp)) as [[c2 r] o2]. exact IH.
  Qed.
  Lemma apply_keep c : Q c -> Q (apply_acpkm_grasshopper c).
  Proof. intros H. unfold apply_acpkm_grasshopper. destruct (_ || _)%bool; exact H. Qed.
  Lemma partial_keep inp : forall c, Q c -> Q (fst (fst (acpkm_partial c inp))).
  Proof.
    induction inp as [|x t IH]; intros c H; [exact H|]. cbn [acpkm_partial]. destruct (_ =? 0); [exact H|]. cbv zeta.
    specialize (IH (kw_num c (w32 (k_num c + 1))) H). destruct (acpkm_partial (kw_num c (w32 (k_num c + 1))) t) as [[? ?] ?]. exact IH.
  Qed.
  Lemma cbc_keep c b : Q c -> Q (fst (cbc_step c b)).
  Proof. intros H. unfold cbc_step. destruct (k_enc c); exact H. Qed.
  Lemma cfb_keep c b : Q c -> Q (fst (cfb_step c b)).
  Proof. intros H. unfold cfb_step. cbv zeta. destruct (k_enc _); cbn [fst]; destruct (k_enc _); exact H. Qed.
  Lemma ofb_main_keep c inp : Q c -> Q (fst (ofb_main c inp)).
  Proof.
    intros H. unfold ofb_main. pose proof (loop_keep ofb_step 16 17 (fun c b H => H) (length inp) c inp H) as L.
    destruct (block_loop ofb_step 16 17 (length inp) c inp) as [[c1 r] o]. destruct r; exact L.
  Qed.
  Lemma cfb_main_keep c inp : Q c -> Q (fst (cfb_main16 c inp)).
  Proof.
    intros H. unfold cfb_main16. pose proof (loop_keep cfb_step 16 17 cfb_keep (length inp) c inp H) as L.
    destruct (block_loop cfb_step 16 17 (length inp) c inp) as [[c1 r] o]. cbn [fst] in L. unfold cfb_last. destruct r; [exact L|]. cbv zeta.
    destruct (k_enc _); cbn [fst]; destruct (k_enc _); exact L.
  Qed.
  Lemma do_keep m c inp : Q c -> Q (k_do m c inp).
  Proof.
    intros H. destruct m; unfold k_do.
    - unfold do_ecb. pose proof (loop_keep (fun c b => (c, if k_enc c then grasshopper_encrypt_block (k_ek c) b else grasshopper_decrypt_block (k_dk c) b)) 16 16
        (fun c b H => H) (length inp) c inp H) as L. destruct (block_loop _ 16 16 (length inp) c inp) as [[c1 r] o]. exact L.
    - unfold do_cbc. pose proof (loop_keep cbc_step 16 16 cbc_keep (length inp) c inp H) as L. destruct (block_loop _ 16 16 (length inp) c inp) as [[c1 r] o]. exact L.
    - unfold do_ofb. destruct (_ =? 0); [apply ofb_main_keep; exact H|]. destruct (ks_partial _ _ _ _) as [[j r] o]. destruct (j =? 16)%nat; [|exact H].
      pose proof (ofb_main_keep (kw_num c 0) r H) as L. destruct (ofb_main (kw_num c 0) r). exact L.
    - unfold do_cfb. destruct (_ =? 0); [apply cfb_main_keep; exact H|]. destruct (cfb_partial16 _ _ _ _) as [[[b j] r] o]. cbv zeta. destruct (j =? 16)%nat; [|exact H].
      match goal with |- context [cfb_main16 ?u r] => pose proof (cfb_main_keep u r H) as L; destruct (cfb_main16 u r) end. exact L.
    - unfold do_ctr. destruct (ctr_partial16 _ _ _) as [[n i] o]. cbv zeta.
      pose proof (loop_keep ctr_step 16 16 (fun c b H => H) (length i) (kw_num c (N.of_nat n)) i H) as L.
      destruct (block_loop ctr_step 16 16 (length i) (kw_num c (N.of_nat n)) i) as [[c1 r] o2]. destruct r; exact L.
    - unfold do_ctracpkm. pose proof (partial_keep inp c H) as P. destruct (acpkm_partial c inp) as [[c0 i] o]. cbn [fst] in P.
      pose proof (loop_keep acpkm_step 16 16 (fun c b H => apply_keep c H) (length i) c0 i P) as L.
      destruct (block_loop acpkm_step 16 16 (length i) c0 i) as [[c1 r] o2]. cbn [fst] in L. destruct r; [exact L|]. cbv zeta. cbn [fst].
      exact (apply_keep c1 L).
  Qed.
  Lemma tls_keep h b c a q : Q c -> Q (snd (kuz_ctl_tlstree h b c a q)).
  Proof.
    intros H. unfold kuz_ctl_tlstree. destruct b; [|exact H]. cbn [negb]. destruct (decrement_sequence _ _); [|exact H]. destruct (gost_tlstree _ _ _ _); exact H.
  Qed.
  Lemma mesh_keep c a : Q c -> Q (snd (kuz_ctl_key_mesh c a)).
  Proof. intros H. unfold kuz_ctl_key_mesh. destruct (_ || _)%bool; exact H. Qed.
  Lemma init_keep m c v e : Q c -> Q (k_init m c None v e).
  Proof. intros H. destruct m, v; exact H. Qed.
End Keep.
Lemma init_key m c k v e : k_master (k_init m c (Some k) v e) = sub 0 32 k.
Proof. destruct m, v; reflexivity. Qed.
Definition no_new_key (x : k_call) : Prop := match x with KC_init (Some _) _ _ => False | _ => True end.
(** The Kuznyechik ciphers other than MGM: whatever is done before and after the key is set, the clean-up leaves the key in the
    context: its first 32 bytes are the key. *)
Theorem C61_kuznyechik_keys_survive_cleanup_refuted :
  forall m before key iv enc after, length key = 32%nat -> Forall no_new_key after ->
    firstn 32 (k_mem (gost_grasshopper_cipher_cleanup m (k_run m (before ++ KC_init (Some key) iv enc :: after)))) = key.
Proof.
  intros m before key iv enc after L F. unfold k_run. rewrite fold_left_app. cbn [fold_left k_step]. set (c0 := fold_left _ before kctx0). clearbody c0.
  assert (K : k_master (k_init m c0 (Some key) iv enc) = key) by (rewrite init_key; unfold sub; cbn [skipn]; apply firstn_all2; lia).
  revert K. generalize (k_init m c0 (Some key) iv enc). induction F as [|x l N _ IH]; intros c K.
  - cbn [fold_left]. assert (E : k_master (gost_grasshopper_cipher_cleanup m c) = key) by (unfold gost_grasshopper_cipher_cleanup; destruct (k_ctr_mode m); exact K).
    unfold k_mem. rewrite E, firstn_app, firstn_all2 by lia. replace (32 - length key)%nat with 0%nat by lia. cbn [firstn]. apply app_nil_r.
  - cbn [fold_left]. apply IH. destruct x as [[k|] v e|d|a|h a q]; cbn [k_step]; [destruct N|..].
    + apply init_keep; exact K.
    + apply do_keep; exact K.
    + apply mesh_keep; exact K.
    + apply tls_keep; exact K.
Qed.
Print Assumptions C61_kuznyechik_keys_survive_cleanup_refuted.
(** The counter modes do erase the last block of the keystream. *)
Theorem C61_kuznyechik_keystream_erased :
  forall m l, m = K_ctr \/ m = K_acpkm -> all_zero (skipn (length (k_mem (k_run m l)) - length (k_part (k_run m l))) (k_mem (gost_grasshopper_cipher_cleanup m (k_run m l)))).
Proof.
  intros m l H. set (c := k_run m l). clearbody c.
  assert (E : gost_grasshopper_cipher_cleanup m c = kw_part c (zeros 16)) by (destruct H as [-> | ->]; reflexivity). rewrite E.
  unfold k_mem, kw_part. cbn [k_master k_key k_ek k_dk k_part]. rewrite !app_assoc. rewrite app_length.
  match goal with |- all_zero (skipn (length ?a + _ - _) _) => rewrite Nat.add_sub, skipn_app, Nat.sub_diag, skipn_all2 by lia end. apply all_zero_zeros.
Qed.
Print Assumptions C61_kuznyechik_keystream_erased.
