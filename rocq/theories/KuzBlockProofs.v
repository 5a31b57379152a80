(** Table lookups, key schedule and block functions of Kuznyechik. *)
From Verif Require Import Bytes BytesProofs Gf2 KuzTables KuzModel KuzSpec KuzProofs.
From Verif Require StreebogSpec StreebogProofs.

Definition unit16 (i : nat) (b : N) : list N := set (zeros 16) i b.
Lemma unit16_blk i b : b < 256 -> blk16 (unit16 i b).
Proof.
  intros H. split; [unfold unit16; rewrite set_length; reflexivity|].
  unfold unit16, zeros. generalize 16%nat. revert i. induction i; intros [|n]; cbn [repeat set]; try constructor; auto.
  - apply (bytes_zeros n).
  - reflexivity.
  - apply IHi.
Qed.

(** ** Contents of the three tables.  Both sides are linear in the byte, so the linear map is
    only evaluated on the 128 unit vectors; the tables are then checked to be sums of these. *)
Lemma xorl_set_lxor i : forall n b c, xorl (set (zeros n) i b) (set (zeros n) i c) = set (zeros n) i (N.lxor b c).
Proof.
  assert (Z : forall n, xorl (zeros n) (zeros n) = zeros n) by (induction n; cbn; [reflexivity|f_equal; exact IHn]).
  induction i as [|i IH]; intros [|n] b c; cbn [zeros repeat set xorl]; auto.
  - f_equal. apply Z.
  - change (repeat 0 n) with (zeros n). f_equal. apply IH.
Qed.
Lemma unit16_lxor i b c : unit16 i (N.lxor b c) = xorl (unit16 i b) (unit16 i c).
Proof. symmetry. apply xorl_set_lxor. Qed.
Lemma unit16_len i b : length (unit16 i b) = 16%nat.
Proof. unfold unit16. rewrite set_length. reflexivity. Qed.
(** [T i b] is additive in b, and agrees with F on single bits. *)
Definition top_bit (b : N) : N := 2 ^ N.log2 b.
Definition additive (T : nat -> N -> N) : bool :=
  forallb (fun i => forallb (fun b =>
    if b =? 0 then T i b =? 0 else T i b =? N.lxor (T i (top_bit b)) (T i (N.lxor b (top_bit b)))) all256) (seq 0 16).
Definition on_bits (T : nat -> N -> N) (F : list N -> list N) : bool :=
  forallb (fun i => forallb (fun j => eqbl (n2be 16 (T i (2 ^ N.of_nat j))) (F (unit16 i (2 ^ N.of_nat j)))) (seq 0 8)) (seq 0 16).
Lemma top_bit_rest b : b <> 0 -> N.lxor b (top_bit b) < b /\ (N.lxor b (top_bit b) < top_bit b).
Proof.
  intros H. unfold top_bit. pose proof (N.log2_spec b ltac:(lia)) as [L1 L2].
  assert (X : N.lxor b (2 ^ N.log2 b) < 2 ^ N.log2 b).
  { destruct (N.eq_dec (N.lxor b (2 ^ N.log2 b)) 0) as [->|Hx]; [apply N.neq_0_lt_0, N.pow_nonzero; discriminate|].
    apply N.log2_lt_pow2; [lia|].
    assert (Q : N.lxor b (2 ^ N.log2 b) < 2 ^ N.succ (N.log2 b)).
    { apply lxor_lt_pow2; [exact L2|]. apply N.pow_lt_mono_r; lia. }
    apply N.log2_lt_pow2 in Q; [|lia].
    destruct (N.eq_dec (N.log2 (N.lxor b (2 ^ N.log2 b))) (N.log2 b)) as [E|E]; [|lia].
    exfalso. pose proof (N.bit_log2 _ Hx) as B. rewrite E, N.lxor_spec, N.pow2_bits_true, N.bit_log2 in B by auto. discriminate. }
  split; lia.
Qed.
Lemma additive_spec T F : additive T = true -> on_bits T F = true ->
  (forall x y, length x = 16%nat -> length y = 16%nat -> F (xorl x y) = xorl (F x) (F y)) -> F (zeros 16) = zeros 16 ->
  forall i b, (i < 16)%nat -> b < 256 -> n2be 16 (T i b) = F (unit16 i b).
Proof.
  intros HA HB HF H0 i b Hi.
  assert (U0 : unit16 i 0 = zeros 16).
  { unfold unit16, zeros. generalize 16%nat. clear. induction i; intros [|n]; cbn [repeat set]; auto. f_equal. apply IHi. }
  induction b as [b IH] using (well_founded_induction N.lt_wf_0). intros Hb.
  pose proof HA as HA'. unfold additive in HA'. pose proof (forall_table _ HA' i b Hi Hb) as A. clear HA'. cbv beta in A. destruct (N.eqb_spec b 0) as [->|Hn].
  - apply N.eqb_eq in A. rewrite A, U0, H0. reflexivity.
  - apply N.eqb_eq in A. destruct (top_bit_rest b Hn) as [R1 R2].
    assert (Lj : N.log2 b < 8) by (apply N.log2_lt_pow2; lia).
    assert (B : n2be 16 (T i (top_bit b)) = F (unit16 i (top_bit b))).
    { apply eqbl_eq. unfold on_bits in HB. rewrite forallb_forall in HB. specialize (HB i ltac:(apply in_seq; lia)).
      rewrite forallb_forall in HB. specialize (HB (N.to_nat (N.log2 b)) ltac:(apply in_seq; lia)).
      rewrite N2Nat.id in HB. exact HB. }
    rewrite A, StreebogProofs.n2be_lxor, B, (IH (N.lxor b (top_bit b))) by lia. rewrite <- HF by apply unit16_len. f_equal.
    rewrite <- unit16_lxor. f_equal. rewrite N.lxor_comm, N.lxor_assoc, N.lxor_nilpotent, N.lxor_0_r. reflexivity.
Qed.
Lemma L_zeros : L_ (zeros 16) = zeros 16 /\ L' (zeros 16) = zeros 16.
Proof. split; vm_compute; reflexivity. Qed.

Definition T_ldec (i : nat) (b : N) : N := get (nth i grasshopper_l_dec128 nil) b.
Lemma ldec_check : additive T_ldec = true /\ on_bits T_ldec L' = true.
Proof. split; vm_compute; reflexivity. Qed.
Lemma ldec_entry i b : (i < 16)%nat -> b < 256 -> entry grasshopper_l_dec128 i b = L' (unit16 i b).
Proof.
  destruct ldec_check as [HA HB]. intros Hi Hb.
  exact (additive_spec T_ldec L' HA HB L'_lin (proj2 L_zeros) i b Hi Hb).
Qed.
Lemma dec_check : forallb (fun i => forallb (fun b => get (nth i grasshopper_pil_dec128 nil) b =? T_ldec i (pi' b)) all256) (seq 0 16) = true.
Proof. vm_compute. reflexivity. Qed.
Lemma dec_entry i b : (i < 16)%nat -> b < 256 -> entry grasshopper_pil_dec128 i b = L' (unit16 i (pi' b)).
Proof.
  intros Hi Hb. rewrite <- ldec_entry; [|exact Hi|exact (proj2 (proj2 (proj2 (proj2 (pi_facts b Hb)))))]. unfold entry. f_equal.
  apply N.eqb_eq. exact (forall_table _ dec_check i b Hi Hb).
Qed.
(** The encryption table, re-indexed: position c holds L(c). *)
Definition T_enc (i : nat) (c : N) : N := get (nth i grasshopper_pil_enc128 nil) (pi' c).
Lemma enc_check : additive T_enc = true /\ on_bits T_enc L_ = true.
Proof. split; vm_compute; reflexivity. Qed.
Lemma enc_entry i b : (i < 16)%nat -> b < 256 -> entry grasshopper_pil_enc128 i b = L_ (unit16 i (pi b)).
Proof.
  destruct enc_check as [HA HB]. intros Hi Hb.
  rewrite <- (additive_spec T_enc L_ HA HB L_lin (proj1 L_zeros) i (pi b) Hi (proj1 (proj2 (proj2 (proj2 (pi_facts b Hb)))))).
  unfold T_enc, entry. rewrite (proj1 (proj2 (pi_facts b Hb))). reflexivity.
Qed.

#[global] Opaque entry L_ L'.

(** ** Sums of table entries *)
Lemma xorl_set_zeros a : forall i n b, length a = i -> b < 256 -> (i < n)%nat ->
  xorl (a ++ zeros (n - i)) (set (zeros n) i b) = (a ++ [b]) ++ zeros (n - S i).
Proof.
  induction a as [|x a IH]; intros i n b <- Hb Hi; cbn [length] in *.
  - destruct n; [lia|]. rewrite Nat.sub_0_r. cbn [app zeros repeat set xorl]. rewrite N.lxor_0_l.
    replace (S n - 1)%nat with n by lia. cbn [app]. f_equal. apply (xorl_zeros_r n). apply zeros_length.
  - destruct n; [lia|]. replace (S n - S (length a))%nat with (n - length a)%nat by lia.
    unfold zeros at 2. cbn [repeat set app xorl]. rewrite N.lxor_0_r. f_equal.
    replace (S n - S (S (length a)))%nat with (n - S (length a))%nat by lia. apply IH; auto. lia.
Qed.
Lemma firstn_S_nth (x : list N) k : (k < length x)%nat -> firstn (S k) x = firstn k x ++ [nth k x 0].
Proof.
  revert k. induction x as [|a x IH]; intros [|k] H; cbn [length] in H; try lia; [reflexivity|].
  cbn [firstn nth app]. f_equal. apply IH. lia.
Qed.
Lemma xorl_self x : forall n, length x = n -> xorl x x = zeros n.
Proof.
  induction x as [|a x IH]; intros [|n] H; try discriminate; [reflexivity|].
  cbn [xorl]. rewrite N.lxor_nilpotent, (IH n) by (cbn in H; lia). reflexivity.
Qed.
Section Multi.
  Variable F : list N -> list N.
  Hypothesis F_lin : forall x y, length x = 16%nat -> length y = 16%nat -> F (xorl x y) = xorl (F x) (F y).
  Hypothesis F_blk : forall x, blk16 x -> blk16 (F x).
  Lemma F_zeros : F (zeros 16) = zeros 16.
  Proof.
    assert (E : zeros 16 = xorl (zeros 16) (zeros 16)) by reflexivity.
    assert (B : blk16 (F (zeros 16))) by (apply F_blk; split; [reflexivity|apply (bytes_zeros 16)]).
    assert (Q : F (zeros 16) = xorl (F (zeros 16)) (F (zeros 16))).
    { rewrite <- F_lin by reflexivity. rewrite <- E. reflexivity. }
    destruct B as [L _]. rewrite Q. apply xorl_self; auto.
  Qed.
  Lemma multi_sum tab (f : N -> N) x : blk16 x -> (forall b, b < 256 -> f b < 256) ->
    (forall i b, (i < 16)%nat -> b < 256 -> entry tab i b = F (unit16 i (f b))) ->
    append128multi x tab = F (map f x).
  Proof.
    intros [L B] Hf Ht. unfold append128multi.
    assert (G : forall k, (k <= 16)%nat ->
      fold_left (fun r i => append128 r (entry tab i (nth i x 0))) (seq 0 k) (zeros 16)
      = F (firstn k (map f x) ++ zeros (16 - k))).
    { induction k; intros Hk; [cbn [seq fold_left firstn app Nat.sub]; rewrite F_zeros; reflexivity|].
      rewrite seq_S, fold_left_app. cbn [fold_left plus]. rewrite IHk by lia. unfold append128.
      assert (Hn : nth k x 0 < 256) by (apply bytes_nth; auto).
      rewrite Ht by (auto; lia).
      rewrite <- F_lin.
      - unfold unit16. rewrite (xorl_set_zeros _ k 16); auto; [|rewrite firstn_length, map_length; lia].
        rewrite firstn_S_nth by (rewrite map_length; lia).
        rewrite (nth_indep (map f x) 0 (f 0)) by (rewrite map_length; lia). rewrite map_nth. reflexivity.
      - rewrite app_length, firstn_length, map_length, zeros_length. lia.
      - apply unit16_blk; auto. }
    rewrite (G 16%nat) by lia. rewrite firstn_all2 by (rewrite map_length; lia).
    cbn [Nat.sub zeros repeat]. rewrite app_nil_r. reflexivity.
  Qed.
End Multi.
Lemma pil_enc_spec x : blk16 x -> append128multi x grasshopper_pil_enc128 = L_ (S_ x).
Proof.
  intros H. apply (multi_sum L_ L_lin L_blk grasshopper_pil_enc128 pi x H).
  - intros b Hb. apply (pi_facts b Hb).
  - apply enc_entry.
Qed.
Lemma pil_dec_spec x : blk16 x -> append128multi x grasshopper_pil_dec128 = L' (S' x).
Proof.
  intros H. apply (multi_sum L' L'_lin L'_blk grasshopper_pil_dec128 pi' x H).
  - intros b Hb. apply (pi_facts b Hb).
  - apply dec_entry.
Qed.
Lemma l_dec_spec x : blk16 x -> append128multi x grasshopper_l_dec128 = L' x.
Proof.
  intros H. rewrite (multi_sum L' L'_lin L'_blk grasshopper_l_dec128 (fun b => b) x H).
  - rewrite map_id. reflexivity.
  - auto.
  - apply ldec_entry.
Qed.
Lemma convert_pi x : convert128 x grasshopper_pi = S_ x.
Proof. reflexivity. Qed.
Lemma convert_pi_inv x : bytes x -> convert128 x grasshopper_pi_inv = S' x.
Proof.
  unfold convert128, S'. induction 1 as [|b x Hb B IH]; [reflexivity|]. cbn [map].
  destruct (pi_facts b Hb) as (-> & _). rewrite IH. reflexivity.
Qed.

(** ** Key schedule *)
Lemma X_blk k a : blk16 k -> blk16 a -> blk16 (X_ k a).
Proof. apply xor_blk. Qed.
Lemma LSX_blk k a : blk16 k -> blk16 a -> blk16 (LSX k a).
Proof. intros. apply L_blk, S_blk, X_blk; auto. Qed.
Lemma C_blk i : blk16 (C_ i).
Proof. apply L_blk. split; [apply n2be_length|apply n2be_bytes]. Qed.
Definition blk16p (p : list N * list N) : Prop := blk16 (fst p) /\ blk16 (snd p).
Lemma F_blkp k p : blk16 k -> blk16p p -> blk16p (F_ k p).
Proof. intros Hk [H1 H2]. split; cbn [F_ fst snd]; auto. apply X_blk; auto. apply LSX_blk; auto. Qed.
Lemma vec_set : forallb (fun i => eqbl (set (zeros 16) 15 (N.of_nat i)) (n2be 16 (N.of_nat i))) (seq 1 32) = true.
Proof. vm_compute. reflexivity. Qed.
Lemma const_spec i : (1 <= i <= 32)%nat -> grasshopper_l (set (zeros 16) 15 (N.of_nat i)) = C_ i.
Proof.
  intros H. assert (E := vec_set). rewrite forallb_forall in E.
  specialize (E i ltac:(apply in_seq; lia)). apply eqbl_eq in E. rewrite E.
  apply grasshopper_l_spec. split; [apply n2be_length|apply n2be_bytes].
Qed.
Lemma round_spec p ks i : blk16p p -> (1 <= i <= 32)%nat ->
  set_encrypt_key_round (fst p, snd p, ks) i =
  let q := F_ (C_ i) p in
  (fst q, snd q, if Nat.eqb (i mod 8) 0 then setk (setk ks (i / 4) (fst q)) (i / 4 + 1) (snd q) else ks).
Proof.
  intros [H1 H2] Hi. unfold set_encrypt_key_round. cbv zeta. rewrite const_spec by auto.
  assert (B : blk16 (append128 (fst p) (C_ i))) by (apply xor_blk; auto; apply C_blk).
  rewrite convert_pi, grasshopper_l_spec by (apply S_blk; auto).
  assert (E : append128 (L_ (S_ (append128 (fst p) (C_ i)))) (snd p) = fst (F_ (C_ i) p)).
  { cbn [F_ fst]. unfold X_, LSX, X_, append128. rewrite (xorl_comm (fst p)). reflexivity. }
  rewrite E. change (fst p) with (snd (F_ (C_ i) p)). destruct (Nat.eqb (i mod 8) 0); reflexivity.
Qed.
Lemma group_spec p ks i : blk16p p -> (1 <= i <= 4)%nat ->
  fold_left set_encrypt_key_round (seq (8 * (i - 1) + 1) 8) (fst p, snd p, ks) =
    (fst (next_pair i p), snd (next_pair i p),
     setk (setk ks (2 * i) (fst (next_pair i p))) (2 * i + 1) (snd (next_pair i p)))
  /\ blk16p (next_pair i p).
Proof.
  intros Hp Hi.
  assert (G : forall js p, blk16p p -> (forall j, In j js -> (1 <= 8 * (i - 1) + j <= 32)%nat /\ ((8 * (i - 1) + j) mod 8 <> 0)%nat) ->
    fold_left set_encrypt_key_round (map (fun j => 8 * (i - 1) + j)%nat js) (fst p, snd p, ks)
    = (fst (fold_left (fun k j => F_ (C_ (8 * (i - 1) + j)) k) js p),
       snd (fold_left (fun k j => F_ (C_ (8 * (i - 1) + j)) k) js p), ks)
    /\ blk16p (fold_left (fun k j => F_ (C_ (8 * (i - 1) + j)) k) js p)).
  { induction js as [|j js IH]; intros p0 H0 Hj; [cbn [map fold_left]; split; auto|].
    cbn [map fold_left]. destruct (Hj j (or_introl eq_refl)) as [Hr Hm]. rewrite round_spec by auto. cbv zeta.
    apply Nat.eqb_neq in Hm. rewrite Hm. apply IH; [apply F_blkp; auto; apply C_blk|].
    intros j' Hj'. apply Hj. right. exact Hj'. }
  assert (Hs : seq (8 * (i - 1) + 1) 8 = map (fun j => (8 * (i - 1) + j)%nat) (seq 1 7) ++ [(8 * i)%nat]).
  { destruct i as [|[|[|[|[|]]]]]; try lia; reflexivity. }
  destruct (G (seq 1 7) p Hp) as [E B].
  { intros j Hj. apply in_seq in Hj. split; [lia|]. rewrite Nat.mul_comm, Nat.add_comm, Nat.mod_add, Nat.mod_small by lia. lia. }
  rewrite Hs, fold_left_app, E. cbn [fold_left].
  unfold next_pair. change (seq 1 8) with (seq 1 7 ++ [8%nat]). rewrite fold_left_app. cbn [fold_left].
  replace (8 * (i - 1) + 8)%nat with (8 * i)%nat by lia.
  rewrite round_spec by (auto; lia). cbv zeta.
  replace (Nat.eqb ((8 * i) mod 8) 0) with true by (rewrite Nat.mul_comm, Nat.mod_mul by lia; reflexivity).
  replace (8 * i / 4)%nat with (2 * i)%nat by (replace (8 * i)%nat with (2 * i * 4)%nat by lia; rewrite Nat.div_mul; lia).
  split; [reflexivity|]. apply F_blkp; [apply C_blk|exact B].
Qed.

Definition spec_pair (key : list N) (n : nat) : list N * list N :=
  fold_left (fun k i => next_pair i k) (seq 1 n) (firstn 16 key, skipn 16 key).
Lemma split_key key : length key = 32%nat -> bytes key -> blk16p (firstn 16 key, skipn 16 key).
Proof.
  intros L B. split; cbn [fst snd]; (split; [rewrite ?firstn_length, ?skipn_length; lia|]).
  - apply bytes_firstn; auto.
  - apply bytes_skipn; auto.
Qed.
Lemma sub_key key : length key = 32%nat -> sub 0 16 key = firstn 16 key /\ sub 16 16 key = skipn 16 key.
Proof.
  intros L. unfold sub. split; [reflexivity|]. apply firstn_all2. rewrite skipn_length. lia.
Qed.
Lemma set_encrypt_key_spec subkeys key : length subkeys = 10%nat -> length key = 32%nat -> bytes key ->
  grasshopper_set_encrypt_key subkeys key = round_keys key.
Proof.
  intros Ls Lk Bk. unfold grasshopper_set_encrypt_key. cbv zeta. destruct (sub_key key Lk) as [-> ->].
  pose proof (split_key key Lk Bk) as P0. unfold round_keys. set (p0 := (firstn 16 key, skipn 16 key)) in *.
  change (firstn 16 key) with (fst p0). change (skipn 16 key) with (snd p0).
  change (seq 1 32) with (seq (8 * (1 - 1) + 1) 8 ++ seq (8 * (2 - 1) + 1) 8 ++ seq (8 * (3 - 1) + 1) 8 ++ seq (8 * (4 - 1) + 1) 8).
  rewrite !fold_left_app.
  set (ks := setk (setk subkeys 0 (fst p0)) 1 (snd p0)). change (p0, ks) with (fst p0, snd p0, ks).
  destruct (group_spec p0 ks 1 P0 ltac:(lia)) as [-> P1].
  set (p1 := next_pair 1 p0) in *. set (ks1 := setk (setk ks _ _) _ _).
  destruct (group_spec p1 ks1 2 P1 ltac:(lia)) as [-> P2].
  set (p2 := next_pair 2 p1) in *. set (ks2 := setk (setk ks1 _ _) _ _).
  destruct (group_spec p2 ks2 3 P2 ltac:(lia)) as [-> P3].
  set (p3 := next_pair 3 p2) in *. set (ks3 := setk (setk ks2 _ _) _ _).
  destruct (group_spec p3 ks3 4 P3 ltac:(lia)) as [-> P4].
  set (p4 := next_pair 4 p3) in *. cbn [snd].
  subst ks3 ks2 ks1 ks. do 10 (destruct subkeys as [|? subkeys]; [discriminate Ls|]).
  destruct subkeys; [|discriminate Ls].
  unfold pairs. cbn [seq]. fold p1 p2 p3 p4. cbn [setk Nat.mul Nat.add]. reflexivity.
Qed.
Lemma round_keys_blk key : length key = 32%nat -> bytes key ->
  length (round_keys key) = 10%nat /\ Forall blk16 (round_keys key).
Proof.
  intros L B. pose proof (split_key key L B) as P. unfold round_keys.
  assert (N1 : forall i p, blk16p p -> blk16p (next_pair i p)).
  { intros i p Hp. unfold next_pair. revert p Hp. generalize (seq 1 8). induction l as [|j l IH]; intros p Hp; [exact Hp|].
    cbn [fold_left]. apply IH. apply F_blkp; auto. apply C_blk. }
  assert (G : forall is p, blk16p p -> length (pairs is p) = (2 * length is + 2)%nat /\ Forall blk16 (pairs is p)).
  { induction is as [|i is IH]; intros p [H1 H2]; cbn [pairs length].
    - split; [reflexivity|]. repeat constructor; apply H1 || apply H2.
    - destruct (IH (next_pair i p)) as [HL HF]; [apply N1; split; auto|]. split; [rewrite HL; lia|].
      constructor; [exact H1|constructor; [exact H2|exact HF]]. }
  destruct (G (seq 1 4) _ P) as [HL HF]. split; [exact HL|exact HF].
Qed.

(** ** Block functions *)
Ltac list10 ks L := do 10 (destruct ks as [|? ks]; [discriminate L|]); destruct ks; [|discriminate L].
Ltac forall10 F := repeat (let H := fresh "B" in apply Forall_cons_iff in F as [H F]).

Lemma enc_step k t : blk16 k -> blk16 t ->
  append128multi (append128 t k) grasshopper_pil_enc128 = LSX k t.
Proof.
  intros Hk Ht. rewrite pil_enc_spec by (apply xor_blk; auto). unfold append128, LSX, X_.
  rewrite xorl_comm. reflexivity.
Qed.
Lemma enc_fold : forall js ks t, blk16 t -> Forall (fun j => blk16 (nth j ks nil)) js ->
  fold_left (fun target i => append128multi (append128 target (nth i ks nil)) grasshopper_pil_enc128) js t
  = fold_left (fun t k => LSX k t) (map (fun j => nth j ks nil) js) t
  /\ blk16 (fold_left (fun t k => LSX k t) (map (fun j => nth j ks nil) js) t).
Proof.
  induction js as [|j js IH]; intros ks t Ht F; [split; [reflexivity|exact Ht]|].
  apply Forall_cons_iff in F as [Hj F]. cbn [fold_left map]. rewrite enc_step by auto.
  apply IH; auto. apply LSX_blk; auto.
Qed.
Lemma snoc_nonnil {A} (l : list A) x : l ++ [x] <> nil. Proof. destruct l; discriminate. Qed.
Lemma rounds_cons f x ks a : ks <> nil -> rounds f (x :: ks) a = rounds f ks (f x a).
Proof. destruct ks; [congruence|]. intros _. cbn [rounds]. reflexivity. Qed.
Lemma rounds_snoc f ks k : forall a, rounds f (ks ++ [k]) a = X_ k (fold_left (fun t k => f k t) ks a).
Proof.
  induction ks as [|x ks IH]; intros a; [reflexivity|]. cbn [app fold_left]. rewrite <- IH.
  apply rounds_cons, snoc_nonnil.
Qed.
Lemma Forall_nth_blk ks js : Forall blk16 ks -> Forall (fun j => (j < length ks)%nat) js ->
  Forall (fun j => blk16 (nth j ks nil)) js.
Proof.
  intros F. induction 1; constructor; auto. rewrite Forall_forall in F. apply F. apply nth_In; auto.
Qed.
Lemma encrypt_block_spec ks a : length ks = 10%nat -> Forall blk16 ks -> blk16 a ->
  grasshopper_encrypt_block ks a = rounds LSX ks a.
Proof.
  intros L F Ha. unfold grasshopper_encrypt_block.
  destruct (enc_fold (seq 0 9) ks a Ha) as [-> _].
  { apply Forall_nth_blk; auto. rewrite L. apply Forall_forall. intros j Hj. apply in_seq in Hj. lia. }
  list10 ks L. cbn [seq map nth].
  match goal with |- append128 (fold_left _ ?l _) ?k = rounds LSX ?m _ => change m with (l ++ [k]) end.
  rewrite rounds_snoc. unfold append128, X_. apply xorl_comm.
Qed.
Lemma set_decrypt_key_spec subkeys key : length subkeys = 10%nat -> length key = 32%nat -> bytes key ->
  grasshopper_set_decrypt_key subkeys key =
  firstn 1 (round_keys key) ++ map L' (skipn 1 (round_keys key)).
Proof.
  intros Ls Lk Bk. unfold grasshopper_set_decrypt_key. rewrite set_encrypt_key_spec by auto.
  destruct (round_keys_blk key Lk Bk) as [L F]. revert L F. generalize (round_keys key). intros ks L F.
  list10 ks L. cbn [seq fold_left setk nth firstn skipn app map].
  forall10 F. rewrite !grasshopper_l_inv_spec by assumption. reflexivity.
Qed.
Lemma SLX'_blk k a : blk16 k -> blk16 a -> blk16 (SLX' k a).
Proof. intros. apply S'_blk, L'_blk, X_blk; auto. Qed.
Lemma dec_xor k s : blk16 k -> blk16 s -> append128 (L' s) (L' k) = L' (X_ k s).
Proof.
  intros [Lk Bk] [Ls Bs]. unfold append128. rewrite <- L'_lin by auto. unfold X_. rewrite xorl_comm. reflexivity.
Qed.
Lemma dec_step k s : blk16 k -> blk16 s ->
  append128multi (append128 (L' s) (L' k)) grasshopper_pil_dec128 = L' (SLX' k s).
Proof.
  intros Hk Hs. rewrite dec_xor by auto. rewrite pil_dec_spec by (apply L'_blk, X_blk; auto). reflexivity.
Qed.
Lemma fold_sim (P : list N -> Prop) (g f : list N -> list N -> list N) (h : list N -> list N) :
  (forall k s, P k -> P s -> P (f k s)) -> (forall k s, P k -> P s -> g (h s) (h k) = h (f k s)) ->
  forall ks s, P s -> Forall P ks ->
  fold_left g (map h ks) (h s) = h (fold_left (fun t k => f k t) ks s) /\ P (fold_left (fun t k => f k t) ks s).
Proof.
  intros Hp Hs. induction ks as [|k ks IH]; intros s Ps F; [split; [reflexivity|exact Ps]|].
  apply Forall_cons_iff in F as [Hk F]. cbn [map fold_left]. rewrite Hs by auto. apply IH; auto.
Qed.
Lemma dec_fold ks s : blk16 s -> Forall blk16 ks ->
  fold_left (fun target k => append128multi (append128 target k) grasshopper_pil_dec128) (map L' ks) (L' s)
  = L' (fold_left (fun t k => SLX' k t) ks s) /\ blk16 (fold_left (fun t k => SLX' k t) ks s).
Proof.
  exact (fold_sim blk16 (fun target k => append128multi (append128 target k) grasshopper_pil_dec128)
           SLX' L' SLX'_blk dec_step ks s).
Qed.
Lemma fold_left_map {A B C} (f : A -> B -> A) (g : C -> B) l : forall a,
  fold_left (fun a c => f a (g c)) l a = fold_left f (map g l) a.
Proof. induction l; intros; cbn; auto. Qed.
Lemma decrypt_block_spec ks a : length ks = 10%nat -> Forall blk16 ks -> blk16 a ->
  grasshopper_decrypt_block (firstn 1 ks ++ map L' (skipn 1 ks)) a = rounds SLX' (rev ks) a.
Proof.
  intros L F Ha. unfold grasshopper_decrypt_block. cbv zeta. rewrite l_dec_spec by auto.
  rewrite (fold_left_map (fun t k => append128multi (append128 t k) grasshopper_pil_dec128)
             (fun i => nth i (firstn 1 ks ++ map L' (skipn 1 ks)) nil)).
  list10 ks L. cbn [firstn skipn app map seq rev nth].
  match goal with |- context [fold_left _ [L' ?a9; L' ?a8; L' ?a7; L' ?a6; L' ?a5; L' ?a4; L' ?a3; L' ?a2] _] =>
    change [L' a9; L' a8; L' a7; L' a6; L' a5; L' a4; L' a3; L' a2] with (map L' [a9; a8; a7; a6; a5; a4; a3; a2]) end.
  forall10 F.
  match goal with |- context [fold_left _ (map L' ?l) _] => destruct (dec_fold l a Ha) as [E B'] end.
  { repeat (constructor; [assumption|]). constructor. }
  rewrite E. rewrite dec_xor by assumption.
  match goal with |- context [X_ ?k (fold_left ?f ?l a)] =>
    change (X_ k (fold_left f l a)) with (X_ k (fold_left f l a)); set (s := fold_left f l a) in * end.
  rewrite convert_pi_inv by (apply L'_blk, X_blk; assumption).
  match goal with |- append128 (S' (L' (X_ ?k1 s))) ?k0 = rounds SLX' ?l a =>
    match goal with s := fold_left _ ?l8 a |- _ => change l with (l8 ++ [k1; k0]) end;
    change (S' (L' (X_ k1 s))) with (SLX' k1 s) end.
  match goal with |- append128 (SLX' ?k1 s) ?k0 = rounds SLX' (?l8 ++ _) a =>
    change (l8 ++ [k1; k0]) with ((l8 ++ [k1]) ++ [k0]) end.
  rewrite rounds_snoc, fold_left_app. fold s. cbn [fold_left]. unfold append128, X_. apply xorl_comm.
Qed.

(** ** Inverses *)
Lemma X_X k a : blk16 k -> blk16 a -> X_ k (X_ k a) = a.
Proof. intros [Lk _] [La _]. unfold X_. apply xorl_cancel_l. lia. Qed.
Lemma SLX'_LSX k j a : blk16 k -> blk16 j -> blk16 a -> SLX' k (X_ k (LSX j a)) = X_ j a.
Proof.
  intros Hk Hj Ha. unfold SLX'. rewrite X_X by (auto; apply LSX_blk; auto). unfold LSX.
  rewrite L'_L by (apply S_blk, X_blk; auto). apply S'_S. apply X_blk; auto.
Qed.
Lemma LSX_SLX' k j b : blk16 k -> blk16 j -> blk16 b -> LSX j (X_ j (SLX' k b)) = X_ k b.
Proof.
  intros Hk Hj Hb. unfold LSX. rewrite X_X by (auto; apply SLX'_blk; auto). unfold SLX'.
  rewrite S_S' by (apply L'_blk, X_blk; auto). apply L_L'. apply X_blk; auto.
Qed.
Lemma D_E_rounds ks : forall k a, Forall blk16 ks -> blk16 k -> blk16 a ->
  fold_left (fun t k => SLX' k t) (rev (skipn 1 (ks ++ [k]))) (rounds LSX (ks ++ [k]) a)
  = X_ (hd nil (ks ++ [k])) a.
Proof.
  induction ks as [|j ks IH]; intros k a F Hk Ha; [reflexivity|].
  apply Forall_cons_iff in F as [Hj F]. cbn [app skipn hd].
  assert (E : rounds LSX (j :: ks ++ [k]) a = rounds LSX (ks ++ [k]) (LSX j a)) by apply rounds_cons, snoc_nonnil.
  rewrite E. pose proof (IH k (LSX j a) F Hk (LSX_blk j a Hj Ha)) as IH'.
  destruct (ks ++ [k]) as [|i l] eqn:El; [destruct ks; discriminate|].
  cbn [skipn hd] in IH'. cbn [rev]. rewrite fold_left_app, IH'. cbn [fold_left].
  apply SLX'_LSX; auto.
  assert (Fi : Forall blk16 (ks ++ [k])) by (apply Forall_app; split; [auto|repeat constructor; apply Hk]).
  rewrite El in Fi. apply Forall_cons_iff in Fi as [Hi _]. exact Hi.
Qed.
Lemma E_D_rounds ks : forall k b, Forall blk16 ks -> blk16 k -> blk16 b ->
  fold_left (fun t k => LSX k t) (rev (skipn 1 (ks ++ [k]))) (rounds SLX' (ks ++ [k]) b)
  = X_ (hd nil (ks ++ [k])) b.
Proof.
  induction ks as [|j ks IH]; intros k a F Hk Ha; [reflexivity|].
  apply Forall_cons_iff in F as [Hj F]. cbn [app skipn hd].
  assert (E : rounds SLX' (j :: ks ++ [k]) a = rounds SLX' (ks ++ [k]) (SLX' j a)) by apply rounds_cons, snoc_nonnil.
  rewrite E. pose proof (IH k (SLX' j a) F Hk (SLX'_blk j a Hj Ha)) as IH'.
  destruct (ks ++ [k]) as [|i l] eqn:El; [destruct ks; discriminate|].
  cbn [skipn hd] in IH'. cbn [rev]. rewrite fold_left_app, IH'. cbn [fold_left].
  apply LSX_SLX'; auto.
  assert (Fi : Forall blk16 (ks ++ [k])) by (apply Forall_app; split; [auto|repeat constructor; apply Hk]).
  rewrite El in Fi. apply Forall_cons_iff in Fi as [Hi _]. exact Hi.
Qed.
Lemma D_rounds_E_rounds ks a : length ks = 10%nat -> Forall blk16 ks -> blk16 a ->
  rounds SLX' (rev ks) (rounds LSX ks a) = a.
Proof.
  intros L F Ha. destruct ks as [|k0 ks]; [discriminate|]. cbn [rev]. rewrite rounds_snoc.
  destruct (exists_last (l := k0 :: ks) ltac:(discriminate)) as (init & k & E).
  assert (F' := F). rewrite E in F'. apply Forall_app in F' as [F1 F2]. apply Forall_cons_iff in F2 as [Hk _].
  pose proof (D_E_rounds init k a F1 Hk Ha) as Q. rewrite <- E in Q. cbn [skipn hd] in Q. rewrite Q.
  apply Forall_cons_iff in F as [H0 F]. apply X_X; auto.
Qed.
Lemma E_rounds_D_rounds ks a : length ks = 10%nat -> Forall blk16 ks -> blk16 a ->
  rounds LSX ks (rounds SLX' (rev ks) a) = a.
Proof.
  intros L F Ha. destruct (exists_last (l := ks)) as (init & k & ->); [destruct ks; discriminate|].
  rewrite rounds_snoc. apply Forall_app in F as [F1 F2]. apply Forall_cons_iff in F2 as [Hk _].
  rewrite rev_app_distr. cbn [rev app].
  destruct init as [|k0 init]; [discriminate|].
  cbn [rev]. apply Forall_cons_iff in F1 as [H0 F1].
  pose proof (E_D_rounds (k :: rev init) k0 a) as Q. cbn [app skipn hd rev] in Q.
  rewrite rev_app_distr, rev_involutive in Q. cbn [rev app] in Q. change (k :: rev init ++ [k0]) with (k :: rev init ++ [k0]) in Q.
  rewrite Q; auto; [apply X_X; auto|]. constructor; auto. apply Forall_rev; auto.
Qed.

Lemma rounds_blk f : (forall k a, blk16 k -> blk16 a -> blk16 (f k a)) ->
  forall ks a, Forall blk16 ks -> blk16 a -> blk16 (rounds f ks a).
Proof.
  intros Hf. induction ks as [|k ks IH]; intros a F Ha; [exact Ha|].
  apply Forall_cons_iff in F as [Hk F]. destruct ks as [|k1 ks].
  - exact (X_blk k a Hk Ha).
  - rewrite rounds_cons by discriminate. apply IH; [exact F|exact (Hf k a Hk Ha)].
Qed.
Lemma rounds_LSX_blk ks a : Forall blk16 ks -> blk16 a -> blk16 (rounds LSX ks a).
Proof. exact (rounds_blk LSX LSX_blk ks a). Qed.
Lemma rounds_SLX_blk ks a : Forall blk16 ks -> blk16 a -> blk16 (rounds SLX' ks a).
Proof. exact (rounds_blk SLX' SLX'_blk ks a). Qed.
Lemma E_blk k a : length k = 32%nat -> bytes k -> blk16 a -> blk16 (E_ k a).
Proof. intros L B H. apply rounds_LSX_blk; [exact (proj2 (round_keys_blk k L B))|exact H]. Qed.
Lemma D_blk k a : length k = 32%nat -> bytes k -> blk16 a -> blk16 (D_ k a).
Proof. intros L B H. apply rounds_SLX_blk; [apply Forall_rev; exact (proj2 (round_keys_blk k L B))|exact H]. Qed.
Lemma D_E k a : length k = 32%nat -> bytes k -> blk16 a -> D_ k (E_ k a) = a.
Proof. intros L B H. destruct (round_keys_blk k L B) as [L1 F]. exact (D_rounds_E_rounds _ a L1 F H). Qed.
Lemma E_D k a : length k = 32%nat -> bytes k -> blk16 a -> E_ k (D_ k a) = a.
Proof. intros L B H. destruct (round_keys_blk k L B) as [L1 F]. exact (E_rounds_D_rounds _ a L1 F H). Qed.
