(** GOST R 34.11-94: the step function and the update functions of gosthash.c refine [hash94]. *)
From Verif Require Import Bytes BytesProofs Gost89Model Gost89Sboxes Gost89Spec Gost89Proofs
  Gost89SpecProofs CryptModel CryptProofs BlockLoop Hash94Model Hash94Spec.

#[global] Opaque gostcrypt rfc5830_encrypt.

Ltac dlist l :=
  repeat match goal with
  | H : length l = S _ |- _ => destruct l as [|? l]; [discriminate H|cbn [length] in H; apply eq_add_S in H]
  | H : length l = O |- _ => destruct l; [clear H|discriminate H]
  end.

Definition blk32 (b : list N) := length b = 32%nat /\ bytes b.
Lemma blk32_xorl a b : blk32 a -> blk32 b -> blk32 (xorl a b).
Proof. intros [A1 A2] [B1 B2]. split; [rewrite xorl_length_eq; congruence|apply xorl_bytes; auto]. Qed.
Lemma blk32_zeros : blk32 (zeros 32). Proof. split; [reflexivity|apply bytes_zeros]. Qed.

Lemma swap_bytes_P w : swap_bytes w = P w.
Proof. vm_compute. reflexivity. Qed.
Lemma P_blk32 w : blk32 w -> blk32 (P w).
Proof.
  intros [_ B]. split; [reflexivity|]. unfold P. apply Forall_map. apply Forall_forall. intros. apply bytes_nth; auto.
Qed.
Lemma circle_xor8_A w : length w = 32%nat -> circle_xor8 w = A w.
Proof. intros L. do 32 (destruct w as [|? w]; [discriminate L|]). destruct w; [|discriminate L]. reflexivity. Qed.
Lemma A_blk32 w : blk32 w -> blk32 (A w).
Proof.
  intros [L B]. split.
  - do 32 (destruct w as [|? w]; [discriminate L|]). destruct w; [|discriminate L]. reflexivity.
  - unfold A, part64. repeat apply bytes_app; try apply xorl_bytes; apply bytes_firstn, bytes_skipn; auto.
Qed.
Lemma flip_C3 w : length w = 32%nat -> flip w = xorl w (Cj 3).
Proof.
  intros L. do 32 (destruct w as [|? w]; [discriminate L|]). destruct w; [|discriminate L].
  unfold flip, flip_idx, Cj. cbn [fold_left set nth Nat.eqb]. vm_compute rev. cbn [xorl]. rewrite ?N.lxor_0_r. reflexivity.
Qed.
Lemma Cj_blk32 j : blk32 (Cj j).
Proof. unfold Cj. destruct (j =? 3)%nat; [|apply blk32_zeros]. split; [reflexivity|]. apply bytes_forallb. reflexivity. Qed.

Lemma acc_split x y : x < 256 -> y < 256 ->
  N.land (N.lor x (N.shiftl y 8)) 255 = x /\ w8 (N.shiftr (N.lor x (N.shiftl y 8)) 8) = y.
Proof.
  intros Hx Hy. rewrite N.lor_comm, (lor_shiftl_add y x 8) by exact Hx.
  change 255 with (N.ones 8). rewrite N.land_ones, shiftr8. change (2 ^ 8) with 256. split.
  - rewrite N.add_comm, N.mod_add by discriminate. apply N.mod_small; auto.
  - rewrite N.div_add_l by discriminate. rewrite (N.div_small _ _ Hx). rewrite N.add_0_r. apply w8_small; auto.
Qed.
Lemma transform_3_psi d : blk32 d -> transform_3 d = psi d.
Proof.
  intros [L B]. unfold transform_3. cbv zeta beta.
  do 32 (destruct d as [|? d]; [discriminate L|]). destruct d; [|discriminate L]. clear L.
  unfold bytes, isbyte in B.
  repeat match goal with H : Forall _ (_ :: _) |- _ => apply Forall_cons_iff in H; destruct H end.
  cbn [nth].
  match goal with |- context [N.lor ?a (N.shiftl ?b 8)] =>
    assert (E : N.land (N.lor a (N.shiftl b 8)) 255 = a /\ w8 (N.shiftr (N.lor a (N.shiftl b 8)) 8) = b)
      by (apply acc_split; repeat apply lxor_byte; assumption) end.
  destruct E as [-> ->]. unfold psi, word16, sub. cbn [firstn skipn Nat.mul Nat.add Nat.sub app xorl].
  repeat (f_equal; [rewrite <- ?N.lxor_assoc; reflexivity|]) || (rewrite <- ?N.lxor_assoc; reflexivity).
Qed.
Lemma psi_blk32 d : blk32 d -> blk32 (psi d).
Proof.
  intros [L B]. split.
  - do 32 (destruct d as [|? d]; [discriminate L|]). destruct d; [|discriminate L]. reflexivity.
  - unfold psi, word16. apply bytes_app; [apply bytes_skipn; auto|].
    repeat apply xorl_bytes; apply bytes_firstn, bytes_skipn; auto.
Qed.
Lemma psi_n_blk32 n d : blk32 d -> blk32 (psi_n n d).
Proof. intros. induction n; cbn [psi_n]; auto using psi_blk32. Qed.
Lemma psi_n_S n d : psi_n (S n) d = psi_n n (psi d).
Proof. induction n; cbn [psi_n] in *; congruence. Qed.
Lemma iter_psi n d : blk32 d -> iter n transform_3 d = psi_n n d.
Proof.
  revert d. induction n; intros d Hd; [reflexivity|].
  cbn [iter]. rewrite psi_n_S, transform_3_psi by auto. apply IHn, psi_blk32; auto.
Qed.

Lemma enc_with_key_spec c sb k b : subst_ok sb -> tables_of c sb -> blk32 k ->
  exists c', gost_enc_with_key c k b = (c', rfc5830_encrypt (sboxes_of sb) k b) /\ tables_of c' sb.
Proof.
  intros Hs Ht [_ Hk]. exists (gost_key_nomask c k).
  assert (T : tables_of (gost_key_nomask c k) sb).
  { eapply tables_of_eq; [|exact Ht]. repeat split. }
  split; [|exact T]. unfold gost_enc_with_key. f_equal.
  apply gostcrypt_spec; auto. intro i. apply ekey_gost_key_nomask; auto.
Qed.

Lemma rfc_blk8 S k b : length (rfc5830_encrypt S k b) = 8%nat /\ bytes (rfc5830_encrypt S k b).
Proof.
  Transparent rfc5830_encrypt rfc5830_block.
  unfold rfc5830_encrypt, rfc5830_block. destruct (Gost89Spec.swap _) as [x y].
  split; [rewrite app_length, !n2le_length; reflexivity|apply bytes_app; apply n2le_bytes].
Qed.
#[global] Opaque rfc5830_encrypt rfc5830_block.

Lemma part64_sub i H : sub (8 * (i - 1)) 8 H = part64 i H. Proof. reflexivity. Qed.

Lemma UV_blk32 j H M : blk32 H -> blk32 M -> blk32 (fst (UV j H M)) /\ blk32 (snd (UV j H M)).
Proof.
  intros HH HM. induction j as [|j IH]; [auto|]. destruct j; [auto|].
  cbn [UV] in *. destruct (match j with O => _ | S _ => _ end) as [U V]. cbn [fst snd] in *. destruct IH as [I1 I2].
  split; [apply blk32_xorl; [apply A_blk32; auto|apply Cj_blk32]|apply A_blk32, A_blk32; auto].
Qed.
Lemma K_blk32 j H M : blk32 H -> blk32 M -> blk32 (K j H M).
Proof.
  intros HH HM. unfold K. destruct (UV_blk32 j H M HH HM). destruct (UV j H M). cbn [fst snd] in *.
  apply P_blk32, blk32_xorl; auto.
Qed.

(** gosthash.c's key schedule in the order the code computes it. *)
Lemma keys_eq H M : blk32 H -> blk32 M ->
  swap_bytes (xorl H M) = K 1 H M /\
  swap_bytes (xorl (circle_xor8 H) (circle_xor8 (circle_xor8 M))) = K 2 H M /\
  swap_bytes (xorl (flip (circle_xor8 (circle_xor8 H)))
     (circle_xor8 (circle_xor8 (circle_xor8 (circle_xor8 M))))) = K 3 H M /\
  swap_bytes (xorl (circle_xor8 (flip (circle_xor8 (circle_xor8 H))))
     (circle_xor8 (circle_xor8 (circle_xor8 (circle_xor8 (circle_xor8 (circle_xor8 M))))))) = K 4 H M.
Proof.
  intros HH HM.
  assert (E : forall x, blk32 x -> circle_xor8 x = A x /\ blk32 (A x)).
  { intros x Hx. split; [apply circle_xor8_A, Hx|apply A_blk32; auto]. }
  destruct (E H HH) as [a1 b1]. destruct (E _ b1) as [a2 b2].
  assert (F : flip (A (A H)) = xorl (A (A H)) (Cj 3)) by (apply flip_C3, b2).
  assert (bF : blk32 (xorl (A (A H)) (Cj 3))) by (apply blk32_xorl; [auto|apply Cj_blk32]).
  destruct (E _ bF) as [a3 b3].
  destruct (E M HM) as [c1 d1]. destruct (E _ d1) as [c2 d2]. destruct (E _ d2) as [c3 d3].
  destruct (E _ d3) as [c4 d4]. destruct (E _ d4) as [c5 d5]. destruct (E _ d5) as [c6 d6].
  rewrite a1, a2, F, a3, c1, c2, c3, c4, c5, c6, !swap_bytes_P.
  unfold K, UV. change (Cj 2) with (zeros 32). change (Cj 4) with (zeros 32).
  rewrite (xorl_zeros_r 32 (A H)) by apply b1.
  rewrite (xorl_zeros_r 32 (A (xorl (A (A H)) (Cj 3)))) by apply b3.
  repeat split.
Qed.

Lemma chi_blk32 S M H : blk32 M -> blk32 H -> blk32 (chi S M H).
Proof.
  intros. unfold chi. apply psi_n_blk32, blk32_xorl, psi_blk32, blk32_xorl; auto. apply psi_n_blk32.
  cbn [flat_map]. split.
  - rewrite !app_length, !(proj1 (rfc_blk8 _ _ _)). reflexivity.
  - repeat apply bytes_app; try apply rfc_blk8. constructor.
Qed.

Lemma hash_step_spec c sb H M : subst_ok sb -> tables_of c sb -> blk32 H -> blk32 M ->
  exists c', hash_step c H M = (c', chi (sboxes_of sb) M H) /\ tables_of c' sb.
Proof.
  intros Hs Ht HH HM. unfold hash_step.
  destruct (keys_eq H M HH HM) as (K1 & K2 & K3 & K4). rewrite K1.
  destruct (enc_with_key_spec c sb (K 1 H M) (sub 0 8 H) Hs Ht (K_blk32 1 H M HH HM)) as (c1 & E1 & T1).
  rewrite E1, K2.
  destruct (enc_with_key_spec c1 sb (K 2 H M) (sub 8 8 H) Hs T1 (K_blk32 2 H M HH HM)) as (c2 & E2 & T2).
  rewrite E2, K3.
  destruct (enc_with_key_spec c2 sb (K 3 H M) (sub 16 8 H) Hs T2 (K_blk32 3 H M HH HM)) as (c3 & E3 & T3).
  rewrite E3, K4.
  destruct (enc_with_key_spec c3 sb (K 4 H M) (sub 24 8 H) Hs T3 (K_blk32 4 H M HH HM)) as (c4 & E4 & T4).
  rewrite E4. exists c4. split; [|exact T4]. f_equal. unfold chi. cbn [flat_map]. rewrite app_nil_r.
  change (sub 0 8 H) with (part64 1 H). change (sub 8 8 H) with (part64 2 H).
  change (sub 16 8 H) with (part64 3 H). change (sub 24 8 H) with (part64 4 H).
  set (s := _ ++ _ ++ _ ++ _).
  assert (Bs : blk32 s).
  { subst s. split; [rewrite !app_length, !(proj1 (rfc_blk8 _ _ _)); reflexivity|].
    repeat apply bytes_app; apply rfc_blk8. }
  clearbody s. rewrite (iter_psi 12) by auto. rewrite (xorl_comm (psi_n 12 s) M).
  assert (B1 : blk32 (xorl M (psi_n 12 s))) by (apply blk32_xorl; auto using psi_n_blk32).
  rewrite transform_3_psi by auto. rewrite (xorl_comm (psi _) H).
  apply iter_psi. apply blk32_xorl; auto using psi_blk32.
Qed.
#[global] Opaque hash_step chi.

(** add_blocks is addition modulo 2^(8n). *)
Lemma add_blocks_spec l r c : length l = length r ->
  add_blocks c l r = n2le (length l) (le2n l + le2n r + c).
Proof.
  revert r c. induction l as [|a l IH]; intros [|b r] c E; try discriminate; [reflexivity|].
  cbn [add_blocks length n2le le2n]. rewrite IH by (simpl in E; lia).
  assert (X : N.land (a + b + c) 255 = w8 (a + 256 * le2n l + (b + 256 * le2n r) + c)).
  { change (N.land (a+b+c) 255) with (w8 (a+b+c)). rewrite !w8_mod.
    replace (a + 256 * le2n l + (b + 256 * le2n r) + c) with (a + b + c + (le2n l + le2n r) * 256) by lia.
    rewrite N.mod_add by discriminate. reflexivity. }
  rewrite X. f_equal. f_equal. rewrite !shiftr8.
  replace (a + 256 * le2n l + (b + 256 * le2n r) + c) with (a + b + c + (le2n l + le2n r) * 256) by lia.
  rewrite N.div_add by discriminate. lia.
Qed.

Definition bsum (B : list (list N)) : N := fold_right N.add 0 (map le2n B).
Lemma bsum_app a b : bsum (a ++ b) = bsum a + bsum b.
Proof. unfold bsum. induction a; cbn [app map fold_right]; [reflexivity|]. rewrite IHa. lia. Qed.
Lemma n2le_congr n a b : a mod 256 ^ N.of_nat n = b mod 256 ^ N.of_nat n -> n2le n a = n2le n b.
Proof.
  intros E. apply le2n_inj; try apply n2le_bytes; [rewrite !n2le_length; reflexivity|].
  rewrite !le2n_n2le. exact E.
Qed.
Lemma add_blocks_sum x b : length b = 32%nat ->
  add_blocks 0 (n2le 32 x) b = n2le 32 (x + le2n b).
Proof.
  intros L. rewrite add_blocks_spec by (rewrite n2le_length; congruence). rewrite n2le_length.
  apply n2le_congr. rewrite le2n_n2le, N.add_0_r. rewrite N.add_mod_idemp_l by discriminate. reflexivity.
Qed.

(** ** The running state *)
Lemma fold_blk32 (g : list N -> list N -> list N) : (forall h b, blk32 h -> blk32 b -> blk32 (g h b)) ->
  forall B h, Forall blk32 B -> blk32 h -> blk32 (fold_left g B h).
Proof. intros G B. induction B; intros h F Hh; [exact Hh|]. inversion F; subst. apply IHB; auto. Qed.
Section State.
Variable sb : subst_block.
Hypothesis Hsb : subst_ok sb.
Let S := sboxes_of sb.

Definition Hof (B : list (list N)) : list N := fold_left (fun h b => chi S b h) B (zeros 32).

Record hcore (x : hash_ctx) (B : list (list N)) : Prop := {
  hc_tab : tables_of (h_cipher x) sb;
  hc_H : h_H x = Hof B;
  hc_S : h_S x = n2le 32 (bsum B);
  hc_len : h_len x = w64 (32 * N.of_nat (length B));
  hc_rem : length (h_rem x) = 32%nat;
  hc_B : Forall blk32 B
}.

Lemma Hof_blk32 B : Forall blk32 B -> blk32 (Hof B).
Proof. intros F. apply (fold_blk32 (fun h b => chi S b h)); [|exact F|exact blk32_zeros]. intros; apply chi_blk32; assumption. Qed.
Lemma w64_add_l a b : w64 (w64 a + b) = w64 (a + b).
Proof. rewrite !w64_mod. rewrite N.add_mod_idemp_l by discriminate. reflexivity. Qed.

Lemma hash_one_core x B b : hcore x B -> blk32 b -> hcore (hash_one x b) (B ++ [b]) /\
  h_left (hash_one x b) = h_left x /\ h_rem (hash_one x b) = h_rem x.
Proof.
  intros [Ct CH CS CL CR CB] Hb. unfold hash_one. rewrite CH.
  destruct (hash_step_spec (h_cipher x) sb (Hof B) b Hsb Ct (Hof_blk32 B CB) Hb) as (c' & E & T').
  rewrite E. split; [|split; reflexivity]. constructor; cbn [h_cipher h_H h_S h_len h_rem].
  - exact T'.
  - unfold Hof. rewrite fold_left_app. reflexivity.
  - rewrite CS, add_blocks_sum by apply Hb. rewrite bsum_app. unfold bsum at 3. cbn [map fold_right]. f_equal. lia.
  - rewrite CL, w64_add_l, app_length. cbn [length]. f_equal. lia.
  - exact CR.
  - apply Forall_app. split; [exact CB|constructor; [exact Hb|constructor]].
Qed.
Lemma hash_ones_core Bs : forall x B, hcore x B -> Forall blk32 Bs ->
  hcore (fold_left hash_one Bs x) (B ++ Bs) /\ h_left (fold_left hash_one Bs x) = h_left x /\
  h_rem (fold_left hash_one Bs x) = h_rem x.
Proof.
  induction Bs as [|b Bs IH]; intros x B C F.
  - cbn [fold_left]. rewrite app_nil_r. auto.
  - inversion F; subst. cbn [fold_left]. destruct (hash_one_core x B b C) as (C1 & L1 & R1); auto.
    destruct (IH _ _ C1) as (C2 & L2 & R2); auto. rewrite <- app_assoc in C2. cbn [app] in C2.
    split; [exact C2|]. split; congruence.
Qed.

Lemma hcore_left x B n : hcore x B -> hcore (with_left x n) B.
Proof. destruct x. intros [Q1 Q2 Q3 Q4 Q5 Q6]. constructor; assumption. Qed.
Lemma hcore_rem x B r : hcore x B -> length r = 32%nat -> hcore (with_rem x r) B.
Proof. destruct x. intros [Q1 Q2 Q3 Q4 Q5 Q6]. constructor; assumption. Qed.
(** The running state after the message [m]. *)
Definition hinv (x : hash_ctx) (m : list N) : Prop :=
  hcore x (blocks 32 (full 32 m)) /\ h_left x = length (tail 32 m) /\
  firstn (h_left x) (h_rem x) = tail 32 m.

Lemma blocks_blk32 l : (length l mod 32 = 0)%nat -> bytes l -> Forall blk32 (blocks 32 l).
Proof.
  intros A0 B0. pose proof (blocks_all_full 32 l ltac:(lia) A0). pose proof (blocks_bytes 32 l ltac:(lia) B0).
  rewrite Forall_forall in *. intros z Hz. split; auto.
Qed.

Lemma hash_block_tail_inv x m data : bytes m -> bytes data -> hcore x (blocks 32 m) ->
  (length m mod 32 = 0)%nat -> h_left x = 0%nat ->
  hinv (hash_block_tail x data) (m ++ data).
Proof.
  intros Bm Bd C Lm L0. unfold hash_block_tail.
  rewrite (while_blocks_spec 32 hash_one) by lia.
  assert (BF : bytes (full 32 data)) by (apply bytes_firstn; auto).
  destruct (hash_ones_core (blocks 32 (full 32 data)) x (blocks 32 m) C) as (C1 & L1 & R1).
  { apply blocks_blk32; auto. apply full_mod; lia. }
  rewrite <- blocks_app, <- full_app in C1 by (auto; lia).
  unfold hinv. rewrite tail_app by (auto; lia).
  destruct (length (tail 32 data) =? 0)%nat eqn:E.
  - apply Nat.eqb_eq in E. rewrite E, L1, L0. split; [exact C1|]. split; [reflexivity|].
    destruct (tail 32 data); [reflexivity|discriminate].
  - pose proof (tail_lt 32 data ltac:(lia)).
    destruct C1 as [Q1 Q2 Q3 Q4 CR Q6].
    unfold with_left, with_rem; cbn [h_left h_rem h_len h_cipher h_H h_S]. split; [|split; [reflexivity|]].
    + constructor; [exact Q1|exact Q2|exact Q3|exact Q4| |exact Q6].
      change (length (overwrite (h_rem (fold_left hash_one (blocks 32 (full 32 data)) x)) 0 (tail 32 data)) = 32%nat).
      rewrite overwrite_length; [exact CR|]. rewrite CR. lia.
    + apply overwrite_0_firstn.
Qed.

Lemma hash_block_inv x m data : bytes m -> bytes data -> hinv x m -> hinv (hash_block x data) (m ++ data).
Proof.
  intros Bm Bd (C & L & R). unfold hash_block.
  destruct (h_left x =? 0)%nat eqn:E0.
  - apply Nat.eqb_eq in E0. rewrite E0 in L. symmetry in L. apply length_zero_iff_nil in L.
    pose proof (full_tail 32 m) as FT. rewrite L, app_nil_r in FT. rewrite FT in C.
    apply hash_block_tail_inv; auto. rewrite <- FT. apply full_mod. lia.
  - apply Nat.eqb_neq in E0. pose proof (tail_lt 32 m ltac:(lia)) as TL.
    assert (CR : length (h_rem x) = 32%nat) by apply C.
    set (n := Nat.min (32 - h_left x) (length data)).
    assert (Ln : length (firstn n data) = n) by (rewrite firstn_length; lia).
    assert (RE : firstn (h_left x + n) (overwrite (h_rem x) (h_left x) (firstn n data)) = tail 32 m ++ firstn n data).
    { unfold overwrite. rewrite R, app_assoc. apply firstn_app_exact. rewrite app_length. lia. }
    assert (RL : length (overwrite (h_rem x) (h_left x) (firstn n data)) = 32%nat).
    { rewrite overwrite_length; [exact CR|]. rewrite CR, Ln. lia. }
    cbv zeta. unfold with_left, with_rem; cbn [h_left h_rem h_len h_cipher h_H h_S].
    destruct (h_left x + n <? 32)%nat eqn:E1.
    + apply Nat.ltb_lt in E1. assert (n = length data) by lia.
      assert (FN : firstn n data = data) by (apply firstn_all2; lia).
      assert (X : m ++ data = full 32 m ++ (tail 32 m ++ data)) by (rewrite app_assoc, full_tail; reflexivity).
      destruct (cut_unique 32 (full 32 m) (tail 32 m ++ data)) as [XF XT].
      { lia. } { apply full_mod; lia. } { rewrite app_length. lia. }
      rewrite <- X in XF, XT. unfold hinv. rewrite XF, XT. rewrite FN in RE.
      cbn [h_left h_rem]. split; [|split].
      * destruct C as [Q1 Q2 Q3 Q4 Q5 Q6]; constructor; [exact Q1|exact Q2|exact Q3|exact Q4|exact RL|exact Q6].
      * rewrite app_length, L. congruence.
      * rewrite FN. exact RE.
    + apply Nat.ltb_ge in E1. assert (Hn : (h_left x + n = 32)%nat) by lia.
      assert (RB : overwrite (h_rem x) (h_left x) (firstn n data) = tail 32 m ++ firstn n data).
      { rewrite <- RE. rewrite Hn. symmetry. apply firstn_all2. rewrite RL. lia. }
      assert (B1 : blk32 (tail 32 m ++ firstn n data)).
      { split; [rewrite app_length; lia|]. apply bytes_app; [apply bytes_skipn; auto|apply bytes_firstn; auto]. }
      rewrite RB in *.
      replace (m ++ data) with ((full 32 m ++ (tail 32 m ++ firstn n data)) ++ skipn n data)
        by (rewrite (app_assoc (full 32 m)), full_tail, <- app_assoc, firstn_skipn; reflexivity).
      assert (LM : (length (full 32 m ++ (tail 32 m ++ firstn n data)) mod 32 = 0)%nat).
      { rewrite app_length, (proj1 B1). rewrite Nat.add_mod, full_mod by lia. reflexivity. }
      match goal with |- context [hash_one ?t _] => set (x1 := t) end.
      assert (C1 : hcore x1 (blocks 32 (full 32 m))) by (destruct C as [Q1 Q2 Q3 Q4 Q5 Q6]; constructor; [exact Q1|exact Q2|exact Q3|exact Q4|apply B1|exact Q6]).
      destruct (hash_one_core x1 _ _ C1 B1) as (C2 & L2 & R2).
      apply hash_block_tail_inv.
      * apply bytes_app; [apply bytes_firstn; auto|apply B1].
      * apply bytes_skipn; auto.
      * rewrite blocks_app by (try apply full_mod; lia).
        rewrite (blocks_short 32 (tail 32 m ++ firstn n data)); [..|rewrite (proj1 B1); lia]; [|lia|].
        -- exact (hcore_left _ _ 0 C2).
        -- intro Z. destruct B1 as [B1 _]. rewrite Z in B1. discriminate.
      * exact LM.
      * reflexivity.
Qed.

Lemma len_bytes_spec fuel v : v < 256 ^ N.of_nat fuel ->
  len_bytes fuel v ++ zeros (fuel - length (len_bytes fuel v)) = n2le fuel v /\ (length (len_bytes fuel v) <= fuel)%nat.
Proof.
  revert v. induction fuel as [|fuel IH]; intros v Hv; [split; [reflexivity|auto]|].
  cbn [len_bytes n2le]. destruct (v =? 0) eqn:E.
  - apply N.eqb_eq in E. subst v. split; [|cbn; lia]. cbn [length app Nat.sub].
    change (w8 0) with 0. change (N.shiftr 0 8) with 0. clear. 
    change (zeros (Datatypes.S fuel)) with (0 :: zeros fuel). f_equal.
    induction fuel; [reflexivity|]. cbn [n2le zeros repeat]. f_equal. exact IHfuel.
  - cbn [length app Nat.sub]. destruct (IH (N.shiftr v 8)) as [I1 I2].
    { rewrite shiftr8. apply N.div_lt_upper_bound; [discriminate|].
      rewrite Nat2N.inj_succ, N.pow_succ_r' in Hv. exact Hv. }
    split; [|lia]. f_equal. exact I1.
Qed.

Lemma n2le_app_zeros k n v : v < 256 ^ N.of_nat k -> n2le (k + n) v = n2le k v ++ zeros n.
Proof.
  revert v. induction k as [|k IH]; intros v Hv.
  - cbn [Nat.add n2le app]. change (N.of_nat 0) with 0 in Hv. rewrite N.pow_0_r in Hv.
    assert (v = 0) by lia. subst. clear. induction n; [reflexivity|]. cbn [n2le zeros repeat]. f_equal. exact IHn.
  - cbn [Nat.add n2le app]. f_equal. apply IH. rewrite shiftr8. apply N.div_lt_upper_bound; [discriminate|].
    rewrite Nat2N.inj_succ, N.pow_succ_r' in Hv. exact Hv.
Qed.

Lemma len_block n : n < 1152921504606846976 ->
  finish_len_block n = n2le 32 (8 * n).
Proof.
  intros Hn. unfold finish_len_block. cbv zeta. rewrite N.shiftl_mul_pow2. change (2 ^ 3) with 8.
  rewrite w64_small by lia. assert (n * 8 <? 9223372036854775808 = true) as -> by (apply N.ltb_lt; lia).
  rewrite (N.mul_comm n 8).
  destruct (len_bytes_spec 8 (8 * n)) as [E L]. { change (256 ^ N.of_nat 8) with 18446744073709551616. lia. }
  replace (32 - length (len_bytes 8 (8 * n)))%nat with ((8 - length (len_bytes 8 (8 * n))) + 24)%nat by lia.
  unfold zeros. rewrite repeat_app, app_assoc. fold (zeros (8 - length (len_bytes 8 (8 * n)))). rewrite E.
  symmetry. apply (n2le_app_zeros 8 24). change (256 ^ N.of_nat 8) with 18446744073709551616. lia.
Qed.

Lemma blocks_count m : (length m mod 32 = 0)%nat -> (32 * length (blocks 32 m) = length m)%nat.
Proof.
  intros H. rewrite <- (concat_blocks 32 m) at 2 by lia.
  pose proof (blocks_all_full 32 m ltac:(lia) H) as F. induction F as [|b l Hb F IH]; [reflexivity|].
  cbn [concat length]. rewrite app_length. lia.
Qed.

Lemma pad32_blocks m : m <> nil ->
  blocks 32 (pad32 m) = blocks 32 (full 32 m) ++
    (if (length (tail 32 m) =? 0)%nat then nil else [tail 32 m ++ zeros (32 - length (tail 32 m))]).
Proof.
  intros Hm. unfold pad32. destruct m as [|b m']; [congruence|]. set (m := b :: m') in *. clearbody m. clear Hm b m'.
  rewrite <- (tail_length 32 m) by lia.
  pose proof (tail_lt 32 m ltac:(lia)) as TL.
  rewrite <- (full_tail 32 m) at 1. rewrite <- app_assoc. rewrite blocks_app by (try apply full_mod; lia). f_equal.
  destruct (length (tail 32 m) =? 0)%nat eqn:E.
  - apply Nat.eqb_eq in E. rewrite E. apply length_zero_iff_nil in E. rewrite E. reflexivity.
  - apply Nat.eqb_neq in E. rewrite Nat.mod_small by lia. apply blocks_short; [lia| |].
    + destruct (tail 32 m); [simpl in E; lia|discriminate].
    + rewrite app_length, zeros_length. lia.
Qed.

Lemma finish_hash_spec x m : bytes m -> hinv x m -> N.of_nat (length m) < 1152921504606846976 ->
  snd (finish_hash x) = hash94 S m /\ hinv (fst (finish_hash x)) m.
Proof.
  intros Bm (C & L & R) Hlen. unfold finish_hash, hash94.
  assert (Hlb := len_block _ Hlen).
  pose proof (tail_lt 32 m ltac:(lia)) as TL.
  assert (LC : length m = (32 * length (blocks 32 (full 32 m)) + length (tail 32 m))%nat).
  { rewrite blocks_count by (apply full_mod; lia). rewrite <- app_length, full_tail. reflexivity. }
  set (B := blocks 32 (full 32 m)) in *.
  assert (FB : Forall blk32 B) by apply C.
  assert (BT : bytes (tail 32 m)) by (apply bytes_skipn; auto).
  (* state after the optional last partial block *)
  set (st := finish_last x).
  assert (ST : exists c1 B1, st = (c1, Hof B1, n2le 32 (bsum B1), N.of_nat (length m)) /\ tables_of c1 sb /\
    Forall blk32 B1 /\ (m <> nil -> B1 = blocks 32 (pad32 m)) /\ (m = nil -> B1 = nil)).
  { subst st. unfold finish_last. rewrite L. destruct (length (tail 32 m) =? 0)%nat eqn:E0.
    - exists (h_cipher x), B. destruct C as [Ct CH CS CL CR CB]. split; [|split; [auto|split; [auto|split]]].
      + f_equal; [f_equal; [f_equal|]|]; auto. rewrite CL. apply Nat.eqb_eq in E0.
        replace (32 * N.of_nat (length B)) with (N.of_nat (length m)) by lia. apply w64_small. lia.
      + intros Hm. rewrite pad32_blocks, E0, app_nil_r by auto. reflexivity.
      + intros ->. reflexivity.
    - rewrite <- L, R, L. set (last := tail 32 m ++ zeros (32 - length (tail 32 m))).
      assert (Bl : blk32 last).
      { split; [subst last; rewrite app_length, zeros_length; lia|]. apply bytes_app; auto. apply bytes_zeros. }
      destruct (hash_one_core x B last C Bl) as (C2 & _ & _). unfold hash_one in C2.
      destruct (hash_step (h_cipher x) (h_H x) last) as [c1 H1]. destruct C2 as [Ct CH CS CL CR CB].
      cbn [h_cipher h_H h_S h_len h_rem] in *.
      exists c1, (B ++ [last]). split; [|split; [auto|split; [auto|split]]].
      + f_equal; [f_equal; [f_equal|]|]; auto. destruct C as [_ _ _ CL0 _ _]. rewrite CL0, w64_add_l.
        replace (32 * N.of_nat (length B) + N.of_nat (length (tail 32 m))) with (N.of_nat (length m)) by lia.
        apply w64_small. lia.
      + intros Hm. rewrite pad32_blocks, E0 by auto. reflexivity.
      + intros ->. discriminate E0. }
  destruct ST as (c1 & B1 & -> & T1 & FB1 & EB & EN).
  set (st := finish_empty c1 (Hof B1) (N.of_nat (length m))).
  assert (ST : exists c2, st = (c2, Hof (blocks 32 (pad32 m))) /\ tables_of c2 sb /\
    bsum B1 = bsum (blocks 32 (pad32 m)) /\ Forall blk32 (blocks 32 (pad32 m))).
  { subst st. unfold finish_empty. destruct m as [|b m'].
    - rewrite (EN eq_refl). cbn [length]. change (N.of_nat 0 =? 0) with true. cbv iota.
      destruct (hash_step_spec c1 sb (Hof nil) (zeros 32) Hsb T1 blk32_zeros blk32_zeros) as (c2 & E2 & T2).
      exists c2. split; [exact E2|]. split; [exact T2|]. split; [reflexivity|].
      constructor; [apply blk32_zeros|constructor].
    - assert (N.of_nat (length (b :: m')) =? 0 = false) as -> by (apply N.eqb_neq; cbn [length]; lia).
      rewrite <- (EB ltac:(discriminate)). exists c1. auto. }
  destruct ST as (c2 & -> & T2 & EBS & FP). rewrite Hlb, EBS.
  destruct (hash_step_spec c2 sb (Hof (blocks 32 (pad32 m))) (n2le 32 (8 * N.of_nat (length m))) Hsb T2) as (c3 & E3 & T3).
  { apply Hof_blk32; auto. } { split; [apply n2le_length|apply n2le_bytes]. }
  rewrite E3.
  match type of E3 with _ = (_, ?h) => set (h3 := h) end.
  assert (B3 : blk32 h3).
  { apply chi_blk32; [split; [apply n2le_length|apply n2le_bytes]|apply Hof_blk32; auto]. }
  destruct (hash_step_spec c3 sb h3 (n2le 32 (bsum (blocks 32 (pad32 m)))) Hsb T3) as (c4 & E4 & T4); auto.
  { split; [apply n2le_length|apply n2le_bytes]. }
  rewrite E4. cbn [snd fst]. split; [reflexivity|].
  split; [|split]; cbn [h_left h_rem]; auto. fold B. destruct C as [Q1 Q2 Q3 Q4 Q5 Q6]; constructor; [exact T4|exact Q2|exact Q3|exact Q4|exact Q5|exact Q6].
Qed.
End State.

Lemma init_inv c sb : hinv sb (init_gost_hash_ctx c sb) nil.
Proof.
  split; [|split; reflexivity]. constructor; try reflexivity.
  - apply tables_of_init.
  - constructor.
Qed.
