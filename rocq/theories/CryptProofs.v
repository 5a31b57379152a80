(** Proofs about the stream modes of gost_crypt.c: the buffered context simulates the
    byte machine of StreamMode over the generators of CryptSpec. *)
From Verif Require Import Bytes BytesProofs Gost89Model Gost89Sboxes Gost89Spec Gost89Proofs Gost89SpecProofs
  StreamMode CryptModel CryptSpec.
From Coq Require Import List Lia NArith.
Open Scope N_scope.

Lemma overwrite_length dst off src : (off + length src <= length dst)%nat ->
  length (overwrite dst off src) = length dst.
Proof. intros. unfold overwrite. rewrite !app_length, firstn_length, skipn_length. lia. Qed.
Lemma overwrite_0_firstn dst src : firstn (length src) (overwrite dst 0 src) = src.
Proof. unfold overwrite. cbn [firstn app]. apply firstn_app_exact; auto. Qed.
Lemma overwrite_0_skipn dst src n : n = length src -> skipn n (overwrite dst 0 src) = skipn n dst.
Proof. intros ->. unfold overwrite. cbn [firstn app Nat.add]. apply skipn_app_exact; auto. Qed.
Lemma set_skipn_lt l i v n : (i < n)%nat -> skipn n (set l i v) = skipn n l.
Proof.
  revert l i; induction n as [|n IH]; intros l i H; [lia|]. destruct l, i; cbn [set skipn]; auto. apply IH; lia.
Qed.
Lemma set_firstn_ge l i v n : (n <= i)%nat -> firstn n (set l i v) = firstn n l.
Proof.
  revert l i; induction n as [|n IH]; intros l i H; auto. destruct l, i; cbn [set firstn]; auto; try lia. f_equal; apply IH; lia.
Qed.
Lemma firstn_succ_set l i v : (i < length l)%nat -> firstn (Datatypes.S i) (set l i v) = firstn i l ++ [v].
Proof.
  revert i; induction l as [|x l IH]; intros i H; cbn [length] in H; [lia|].
  destruct i; cbn [set firstn app]; auto. f_equal. apply IH. lia.
Qed.
Lemma skipn_set l i v n : skipn n (set l (n + i) v) = set (skipn n l) i v.
Proof. revert l; induction n; intros [|x l]; cbn [skipn set Nat.add]; auto; destruct i; auto. Qed.

(** * Meshing *)
Lemma meshing_C_const : meshing_C = CryptoProKeyMeshingKey.
Proof. reflexivity. Qed.
Lemma gost_dec4 c m : length m = 32%nat -> gost_dec c m 4 = concat (map (gostdecrypt c) (blocks 8 m)).
Proof.
  intros H. assert (G : forall n m, length m = (8 * n)%nat -> gost_dec c m n = concat (map (gostdecrypt c) (blocks 8 m))).
  { induction n as [|n IH]; intros l Hl.
    - destruct l; [reflexivity|cbn in Hl; lia].
    - rewrite blocks_step by (try lia; intros ->; cbn in Hl; lia). cbn [map concat gost_dec]. f_equal.
      apply IH. rewrite skipn_length. lia. }
  apply (G 4%nat). lia.
Qed.
Lemma rfc5830_block_bytes S o k b : bytes (rfc5830_block S o k b).
Proof. unfold rfc5830_block. destruct (swap _). apply bytes_app; apply n2le_bytes. Qed.
Lemma rfc5830_block_length S o k b : length (rfc5830_block S o k b) = 8%nat.
Proof. unfold rfc5830_block. destruct (swap _). rewrite app_length, !n2le_length. reflexivity. Qed.
Lemma rfc5830_encrypt_length S k b : length (rfc5830_encrypt S k b) = 8%nat.
Proof. exact (rfc5830_block_length S enc_order k b). Qed.
Lemma rfc5830_encrypt_bytes S k b : bytes (rfc5830_encrypt S k b).
Proof. exact (rfc5830_block_bytes S enc_order k b). Qed.
Lemma rfc5830_decrypt_bytes S k b : bytes (rfc5830_decrypt S k b).
Proof. exact (rfc5830_block_bytes S dec_order k b). Qed.
Global Opaque rfc5830_encrypt rfc5830_decrypt rfc8891_encrypt rfc8891_decrypt rfc5830_block rfc8891_block.
Lemma ecb_decrypt_bytes S k m : bytes (ecb_decrypt S k m).
Proof. unfold ecb_decrypt. induction (blocks 8 m); cbn [map concat]; [constructor|]. apply bytes_app; auto. apply rfc5830_decrypt_bytes. Qed.
Lemma mesh_key_bytes S mesh k j : bytes k -> bytes (mesh_key S mesh k j).
Proof. intros H. induction j; cbn [mesh_key]; auto. destruct mesh; auto. apply ecb_decrypt_bytes. Qed.

(** The part of a context that determines the key stream. *)
Definition kst (sb : subst_block) (k : list N) (g : gost_ctx) : Prop :=
  subst_ok sb /\ tables_of g sb /\ key_le g k /\ rng_ok (g_rng g).
Lemma kst_gost_key sb k g : subst_ok sb -> tables_of g sb -> rng_ok (g_rng g) -> bytes k -> kst sb k (gost_key g k).
Proof.
  intros Hs Ht Hr Hk. split; [|split; [|split]]; auto.
  - intro i. apply ekey_gost_key; auto.
  - intro n. apply Hr.
Qed.
Lemma kst_mesh sb k g : kst sb k g ->
  kst sb (ecb_decrypt (sboxes_of sb) k meshing_C) (gost_key g (gost_dec g CryptoProKeyMeshingKey 4)).
Proof.
  intros (Hs & Ht & Hk & Hr).
  assert (E : gost_dec g CryptoProKeyMeshingKey 4 = ecb_decrypt (sboxes_of sb) k meshing_C).
  { rewrite gost_dec4 by reflexivity. unfold ecb_decrypt. rewrite meshing_C_const. f_equal.
    apply map_ext. intros b. apply gostdecrypt_spec; auto. }
  rewrite E. apply kst_gost_key; auto. apply ecb_decrypt_bytes.
Qed.
Lemma kst_crypt sb k g b : kst sb k g -> gostcrypt g b = rfc5830_encrypt (sboxes_of sb) k b.
Proof. intros (Hs & Ht & Hk & Hr). apply gostcrypt_spec; auto. Qed.

(** The context after [i] blocks. *)
Definition count_of (i : nat) : N := if (i =? 0)%nat then 0 else N.of_nat (8 * ((i - 1) mod 128 + 1)).
Lemma count_of_assert i : assert_count (count_of i) = true.
Proof.
  unfold assert_count, count_of. destruct (Nat.eqb_spec i 0); [reflexivity|].
  pose proof (Nat.mod_upper_bound (i - 1) 128 ltac:(lia)). apply andb_true_intro. split.
  - apply N.eqb_eq. rewrite Nat2N.inj_mul, N.mul_comm. apply N.mod_mul. discriminate.
  - apply N.leb_le. lia.
Qed.
Lemma dec128 i : i <> 0%nat -> exists q r, (i = q * 128 + r + 1 /\ r < 128 /\ (i - 1) mod 128 = r /\ (i - 1) / 128 = q)%nat.
Proof.
  intros H. exists ((i - 1) / 128)%nat, ((i - 1) mod 128)%nat.
  pose proof (Nat.mod_upper_bound (i - 1) 128 ltac:(lia)). pose proof (Nat.div_mod_eq (i-1) 128). repeat split; lia.
Qed.
Lemma mod128 q r : (r < 128 -> (q * 128 + r) mod 128 = r /\ (q * 128 + r) / 128 = q)%nat.
Proof.
  intros. rewrite Nat.add_comm. rewrite Nat.mod_add, Nat.div_add by lia. rewrite Nat.mod_small, Nat.div_small by lia. lia.
Qed.
Lemma succ128 q r : (r < 128)%nat -> (r = 127 /\ (q * 128 + r + 1) mod 128 = 0 /\ (q * 128 + r + 1) / 128 = S q \/
   r <> 127 /\ (q * 128 + r + 1) mod 128 = r + 1 /\ (q * 128 + r + 1) / 128 = q)%nat.
Proof.
  intros. destruct (Nat.eq_dec r 127) as [->|E].
  - left. replace (q * 128 + 127 + 1)%nat with (S q * 128 + 0)%nat by lia. split; auto. apply mod128; lia.
  - right. rewrite <- Nat.add_assoc. split; auto. apply mod128; lia.
Qed.
Lemma count_of_1024 i : (count_of i =? 1024) = negb (i =? 0)%nat && (i mod 128 =? 0)%nat.
Proof.
  unfold count_of. destruct (Nat.eqb_spec i 0) as [->|H]; [reflexivity|]. cbn [negb andb].
  destruct (dec128 i H) as (q & r & Ei & Hr & Em & _). rewrite Em. subst i. clear Em H.
  destruct (succ128 q r Hr) as [(A & B & _)|(A & B & _)]; rewrite B.
  - subst r. reflexivity.
  - replace (_ =? 1024) with false by (symmetry; apply N.eqb_neq; lia). symmetry; apply Nat.eqb_neq; lia.
Qed.
Lemma count_of_S i : count_of i mod 1024 + 8 = count_of (S i).
Proof.
  unfold count_of. replace (S i =? 0)%nat with false by reflexivity. replace (S i - 1)%nat with i by lia.
  destruct (Nat.eqb_spec i 0) as [->|H]; [reflexivity|].
  destruct (dec128 i H) as (q & r & Ei & Hr & Em & _). rewrite Em. subst i. clear Em H.
  destruct (succ128 q r Hr) as [(A & B & _)|(A & B & _)]; rewrite B.
  - subst r. reflexivity.
  - rewrite N.mod_small by lia. lia.
Qed.
Lemma block_key_same i : (i = 0 \/ i mod 128 <> 0)%nat -> (i / 128 = (i - 1) / 128)%nat.
Proof.
  intros [->|H]; [reflexivity|]. destruct (Nat.eq_dec i 0) as [->|H0]; [reflexivity|].
  destruct (dec128 i H0) as (q & r & Ei & Hr & _ & Ed). rewrite Ed. subst i.
  destruct (succ128 q r Hr) as [(A & B & C)|(A & B & C)]; [contradiction|auto].
Qed.
Lemma block_key_next i : (i <> 0 -> i mod 128 = 0 -> i / 128 = Datatypes.S ((i - 1) / 128))%nat.
Proof.
  intros H0 H. destruct (dec128 i H0) as (q & r & Ei & Hr & _ & Ed). rewrite Ed. subst i.
  destruct (succ128 q r Hr) as [(A & B & C)|(A & B & C)]; [auto|lia].
Qed.

(** Everything except num and the partial block. *)
Record base (sb : subst_block) (mesh : bool) (k : list N) (enc : bool) (c : evp) (s : nat * list N) : Prop := {
  b_kst : kst sb (mesh_key (sboxes_of sb) mesh k ((fst s - 1) / 128)) (e_g c);
  b_count : e_count c = count_of (fst s);
  b_mesh : negb (e_mesh c =? 0) = mesh;
  b_iv : e_iv c = snd s;
  b_buf : length (e_buf c) = 32%nat;
  b_enc : e_enc c = enc;
  b_abort : e_abort c = false
}.

(** The common head of gost_crypt_mesh and gost_cnt_next. *)
Definition mesh_head (c : evp) : evp :=
  let c := with_abort c (e_abort c || negb (assert_count (e_count c))) in
  if mesh_due c
  then let (g, iv) := cryptopro_key_meshing (e_g c) (e_iv c) in with_iv (with_g c g) iv
  else c.
Lemma mesh_head_base sb mesh k enc c i iv : base sb mesh k enc c (i, iv) ->
  let c' := mesh_head c in
  kst sb (block_key (sboxes_of sb) mesh k i) (e_g c') /\ e_iv c' = meshed_iv (sboxes_of sb) mesh k i iv /\
  e_count c' = count_of i /\ e_mesh c' = e_mesh c /\ e_buf c' = e_buf c /\ e_enc c' = enc /\ e_abort c' = false /\
  e_num c' = e_num c.
Proof.
  intros [Hk Hc Hm Hi Hb He Ha]. cbn [fst snd] in *. cbv zeta. unfold mesh_head, mesh_due.
  set (c1 := with_abort c _).
  replace (e_mesh c1) with (e_mesh c) by reflexivity. replace (e_count c1) with (e_count c) by reflexivity.
  assert (A1 : e_abort c1 = false).
  { unfold c1. cbn [with_abort e_abort]. rewrite Ha, Hc, count_of_assert. reflexivity. }
  rewrite Hm, Hc, count_of_1024. unfold meshed_iv, boundary. rewrite andb_assoc.
  unfold block_key.
  destruct (mesh && negb (i =? 0)%nat && (i mod 128 =? 0)%nat) eqn:B.
  - apply andb_prop in B as [B B3]. apply andb_prop in B as [B1 B2]. apply Nat.eqb_eq in B3.
    apply Bool.negb_true_iff, Nat.eqb_neq in B2. rewrite (block_key_next i B2 B3). cbn [mesh_key]. rewrite B1.
    cbn [cryptopro_key_meshing]. unfold cryptopro_key_meshing. cbv zeta.
    pose proof (kst_mesh sb _ _ Hk) as K. rewrite B1 in K.
    split; [exact K|]. split.
    { cbn [with_iv with_g e_iv c1 with_abort]. rewrite Hi. apply (kst_crypt sb). exact K. }
    repeat split; auto.
  - assert (E : mesh_key (sboxes_of sb) mesh k (i / 128) = mesh_key (sboxes_of sb) mesh k ((i - 1) / 128)).
    { destruct mesh.
      - rewrite block_key_same; auto. cbn [andb] in B. apply Bool.andb_false_iff in B as [B|B].
        + left. apply Bool.negb_false_iff, Nat.eqb_eq in B. auto.
        + right. apply Nat.eqb_neq in B. auto.
      - assert (N : forall j, mesh_key (sboxes_of sb) false k j = k) by (induction j; cbn [mesh_key]; auto).
        rewrite !N; auto. }
    rewrite E. repeat split; auto; apply Hk.
Qed.

Lemma gost_crypt_mesh_base sb mesh k enc c s : base sb mesh k enc c s ->
  let '(s', ks) := cfb_next (sboxes_of sb) mesh k s in
  base sb mesh k enc (gost_crypt_mesh c) s' /\
  firstn 8 (e_buf (gost_crypt_mesh c)) = ks /\ skipn 8 (e_buf (gost_crypt_mesh c)) = skipn 8 (e_buf c) /\
  e_num (gost_crypt_mesh c) = e_num c /\ length ks = 8%nat.
Proof.
  destruct s as [i iv]. intros B. pose proof (mesh_head_base _ _ _ _ _ _ _ B) as H. cbv zeta in H.
  change (gost_crypt_mesh c) with
    (let c := mesh_head c in
     let c := with_buf c (overwrite (e_buf c) 0 (gostcrypt (e_g c) (e_iv c))) in
     with_count c (e_count c mod 1024 + 8)). cbv zeta.
  set (c' := mesh_head c) in *. clearbody c'. destruct H as (K & I & C & M & Bf & E & A & Nm).
  cbn [cfb_next]. rewrite I. rewrite (kst_crypt sb _ _ (meshed_iv (sboxes_of sb) mesh k i iv) K).
  set (iv' := meshed_iv (sboxes_of sb) mesh k i iv) in *.
  set (ks := rfc5830_encrypt (sboxes_of sb) (block_key (sboxes_of sb) mesh k i) iv').
  assert (L : length ks = 8%nat) by apply rfc5830_encrypt_length. clearbody ks.
  cbn [with_count with_buf e_buf e_num].
  destruct B as [B1 B2 B3 B4 B5 B6 B7]. cbn [fst snd] in *.
  split; [|split; [|split; [|split]]].
  - constructor; cbn [with_count with_buf e_g e_count e_mesh e_iv e_buf e_enc e_abort fst snd]; auto.
    + replace (Datatypes.S i - 1)%nat with i by lia. exact K.
    + rewrite C. apply count_of_S.
    + rewrite M. auto.
    + rewrite overwrite_length; rewrite Bf; auto. rewrite B5. lia.
  - rewrite <- L. apply overwrite_0_firstn.
  - rewrite overwrite_0_skipn by auto. rewrite Bf. reflexivity.
  - exact Nm.
  - exact L.
Qed.

(** * CFB simulates the byte machine *)
Section CFB.
Variables (sb : subst_block) (mesh : bool) (k : list N) (enc : bool).
Let nx := cfb_next (sboxes_of sb) mesh k.
Let run := run_bytes (nat * list N) nx cfb_absorb enc.
Definition rel_cfb (c : evp) (st : bst (nat * list N)) : Prop :=
  let '(s, ks, fed) := st in
  base sb mesh k enc c s /\
  ((e_num c = 0 /\ ks = nil /\ fed = nil) \/
   exists n, e_num c = N.of_nat n /\ (0 < n < 8)%nat /\ ks = skipn n (firstn 8 (e_buf c)) /\
     fed = firstn n (skipn 8 (e_buf c))).

Lemma base_iv c s iv : base sb mesh k enc c s -> base sb mesh k enc (with_iv c iv) (cfb_absorb s iv).
Proof. intros []; constructor; auto. Qed.
Lemma base_num c s n : base sb mesh k enc c s -> base sb mesh k enc (with_num c n) s.
Proof. intros []; constructor; auto. Qed.
Lemma base_buf c s b : length b = 32%nat -> base sb mesh k enc c s -> base sb mesh k enc (with_buf c b) s.
Proof. intros ? []; constructor; auto. Qed.

Lemma cfb_blocks_sim fuel : forall c s inp, (length inp <= fuel)%nat -> base sb mesh k enc c s -> e_num c = 0 ->
  let '(c', rest, out) := cfb_blocks fuel c inp in
  exists pre s', inp = pre ++ rest /\ (length rest < 8)%nat /\ run (s, nil, nil) pre = ((s', nil, nil), out) /\
    base sb mesh k enc c' s' /\ e_num c' = 0.
Proof.
  induction fuel as [|fuel IH]; intros c s inp Hf Hb Hn; cbn [cfb_blocks].
  - exists nil, s. destruct inp; [|cbn in Hf; lia]. split; [reflexivity|]. split; [cbn; lia|]. split; [reflexivity|]. split; assumption.
  - destruct (Nat.leb_spec 8 (length inp)) as [Hl|Hl].
    2:{ exists nil, s. split; [reflexivity|]. split; [exact Hl|]. split; [reflexivity|]. split; assumption. }
    pose proof (gost_crypt_mesh_base sb mesh k enc c s Hb) as M.
    change (cfb_next (sboxes_of sb) mesh k s) with (nx s) in M.
    destruct (nx s) as [s1 ks] eqn:En. destruct M as (B1 & F1 & _ & N1 & L1).
    set (c1 := gost_crypt_mesh c) in *. clearbody c1.
    set (blk := firstn 8 inp). assert (Lb : length blk = 8%nat) by (apply firstn_length_le; lia).
    assert (Ee : e_enc c1 = enc) by apply B1.
    set (o := xorl blk ks).
    assert (Hc2 : exists c2, base sb mesh k enc c2 (cfb_absorb s1 (pick enc blk o)) /\ e_num c2 = 0 /\
       (let c0 := if e_enc c1 then c1 else with_iv c1 blk in
        let o0 := xorl (firstn 8 (e_buf c0)) blk in
        (if e_enc c0 then with_iv c0 o0 else c0) = c2 /\ o0 = o)).
    { rewrite Ee. destruct enc eqn:Q.
      - cbv zeta. rewrite Ee, F1, xorl_comm. fold o. exists (with_iv c1 o). split; [|split; auto].
        + replace (pick true blk o) with o by reflexivity. rewrite <- Q in *. apply base_iv; auto.
        + cbn. congruence.
      - cbv zeta. cbn [with_iv e_enc e_buf]. rewrite Ee, F1, xorl_comm. fold o. exists (with_iv c1 blk). split; [|split; auto].
        + replace (pick false blk o) with blk by reflexivity. rewrite <- Q in *. apply base_iv; auto.
        + cbn. congruence. }
    destruct Hc2 as (c2 & B2 & N2 & E2). cbv zeta in E2. destruct E2 as [E2 E3].
    rewrite E3, E2 in *. clear E2 E3.
    specialize (IH c2 (cfb_absorb s1 (pick enc blk o)) (skipn 8 inp)).
    destruct (cfb_blocks fuel c2 (skipn 8 inp)) as [[c3 rest] out].
    destruct IH as (pre & s' & Ei & Lr & Er & B3 & N3); auto. { rewrite skipn_length; lia. }
    exists (blk ++ pre), s'. split; [|split; [|split; [|split]]]; auto.
    + rewrite <- app_assoc, <- Ei. symmetry; apply firstn_skipn.
    + unfold run in *. rewrite run_bytes_app.
      rewrite (run_bytes_fresh _ nx cfb_absorb enc s blk s1 ks En).
      * rewrite Lb, L1, Nat.eqb_refl. fold o. rewrite Er. reflexivity.
      * destruct ks; discriminate.
      * destruct blk; discriminate.
      * lia.
Qed.

Lemma cfb_main_sim c s inp : base sb mesh k enc c s -> e_num c = 0 ->
  rel_cfb (fst (cfb_main c inp)) (fst (run (s, nil, nil) inp)) /\ snd (cfb_main c inp) = snd (run (s, nil, nil) inp).
Proof.
  intros Hb Hn. unfold cfb_main. pose proof (cfb_blocks_sim (length inp) c s inp (le_n _) Hb Hn) as H.
  destruct (cfb_blocks (length inp) c inp) as [[c1 rest] o1]. destruct H as (pre & s1 & Ei & Lr & Er & B1 & N1).
  subst inp. unfold run. rewrite run_bytes_app. fold run. rewrite Er.
  destruct rest as [|x rest]; cbn [cfb_rest].
  - unfold run; cbn [run_bytes fst snd]. rewrite app_nil_r. split; [|reflexivity]. split; [apply base_num; auto|left; auto].
  - cbn [cfb_rest]. set (inp := x :: rest) in *.
    pose proof (gost_crypt_mesh_base sb mesh k enc c1 s1 B1) as M.
    change (cfb_next (sboxes_of sb) mesh k s1) with (nx s1) in M.
    destruct (nx s1) as [s2 ks] eqn:En. destruct M as (B2 & F2 & S2 & N2 & L2).
    set (c2 := gost_crypt_mesh c1) in *. clearbody c2.
    assert (Li : (0 < length inp < 8)%nat) by (unfold inp in *; cbn [length] in *; lia).
    unfold run. rewrite (run_bytes_fresh _ nx cfb_absorb enc s1 inp s2 ks En);
      [|destruct ks; discriminate|unfold inp; discriminate|lia].
    rewrite L2. replace (length inp =? 8)%nat with false by (symmetry; apply Nat.eqb_neq; lia).
    assert (Ee : e_enc c2 = enc) by apply B2.
    assert (Lbuf : length (e_buf c2) = 32%nat) by apply B2.
    set (o := xorl inp ks).
    assert (Lo : length o = length inp) by (unfold o; rewrite xorl_length; lia).
    assert (Fo : forall b, firstn 8 b = ks -> xorl (firstn (length inp) b) inp = o).
    { intros b Hb'. rewrite xorl_comm. unfold o. rewrite <- Hb'.
      rewrite <- (firstn_skipn (length inp) (firstn 8 b)) at 1. rewrite firstn_firstn.
      replace (Nat.min (length inp) 8) with (length inp) by lia.
      replace inp with (inp ++ nil) at 3 by apply app_nil_r.
      rewrite xorl_app, app_nil_r; [reflexivity|]. rewrite firstn_length. 
      assert (length (firstn 8 b) = 8%nat) by congruence. rewrite firstn_length in *. lia. }
    assert (OW : forall d, length d = length inp ->
        length (overwrite (e_buf c2) 8 d) = 32%nat /\ firstn 8 (overwrite (e_buf c2) 8 d) = ks /\
        firstn (length inp) (skipn 8 (overwrite (e_buf c2) 8 d)) = d).
    { intros d Hd. split; [rewrite overwrite_length; lia|]. unfold overwrite.
      assert (length (firstn 8 (e_buf c2)) = 8%nat) by (rewrite firstn_length; lia).
      rewrite firstn_app_exact, skipn_app_exact by auto. split; auto. apply firstn_app_exact; auto. }
    rewrite Ee. destruct enc eqn:Q; cbn [fst snd].
    + cbn [with_num e_enc e_buf]. rewrite Ee. rewrite Fo by auto. cbn [fst snd pick].
      split; [|f_equal; auto]. destruct (OW o Lo) as (W1 & W2 & W3). split.
      * rewrite <- Q in *. apply base_buf; auto. apply base_num; auto.
      * right. exists (length inp). cbn [with_buf with_num e_num e_buf].
        split; [reflexivity|]. split; [lia|]. rewrite W2, W3. auto.
    + cbn [with_num with_buf e_enc e_buf]. rewrite Ee. destruct (OW inp eq_refl) as (W1 & W2 & W3).
      rewrite Fo by auto. cbn [fst snd pick].
      split; [|f_equal; auto]. split.
      * rewrite <- Q in *. apply base_num; auto. apply base_buf; auto.
      * right. exists (length inp). cbn [with_buf with_num e_num e_buf].
        split; [reflexivity|]. split; [lia|]. rewrite W2, W3. auto.
Qed.

Lemma cfb_partial_run inp : forall buf j, length buf = 32%nat -> (0 < j < 8)%nat -> forall s,
  let '(buf', j', rest, out) := cfb_partial enc buf j inp in
  exists pre, inp = pre ++ rest /\ length buf' = 32%nat /\ j' = (j + length pre)%nat /\
    (j' <= 8)%nat /\ (j' < 8 -> rest = nil)%nat /\
    run (s, skipn j (firstn 8 buf), firstn j (skipn 8 buf)) pre =
      ((if (j' =? 8)%nat then (cfb_absorb s (sub 8 8 buf'), nil, nil)
        else (s, skipn j' (firstn 8 buf'), firstn j' (skipn 8 buf'))), out).
Proof.
  induction inp as [|x inp IH]; intros buf j Hl Hj s; cbn [cfb_partial].
  - exists nil. rewrite Nat.add_0_r. replace (j =? 8)%nat with false by (symmetry; apply Nat.eqb_neq; lia).
    repeat split; auto; lia.
  - destruct (Nat.ltb_spec j 8) as [H8|H8]; [|lia].
    set (o := N.lxor (nth j (if enc then buf else set buf (j + 8) x) 0) x).
    assert (Eo : o = N.lxor x (nth j buf 0)).
    { unfold o. rewrite N.lxor_comm. f_equal. destruct enc; auto. apply set_nth_other. lia. }
    set (buf2 := if enc then set (if enc then buf else set buf (j + 8) x) (j + 8) o
                 else (if enc then buf else set buf (j + 8) x)).
    assert (E2 : buf2 = set buf (j + 8) (pick enc x o)) by (unfold buf2; destruct enc; reflexivity).
    assert (L2 : length buf2 = 32%nat) by (rewrite E2, set_length; auto).
    assert (F2 : firstn 8 buf2 = firstn 8 buf) by (rewrite E2; apply set_firstn_ge; lia).
    assert (G2 : firstn (S j) (skipn 8 buf2) = firstn j (skipn 8 buf) ++ [pick enc x o]).
    { rewrite E2, Nat.add_comm, skipn_set. apply firstn_succ_set. rewrite skipn_length. lia. }
    assert (Ks : skipn j (firstn 8 buf) = nth j buf 0 :: skipn (S j) (firstn 8 buf)).
    { assert (G : forall (l : list N) n, (n < length l)%nat -> skipn n l = nth n l 0 :: skipn (S n) l).
      { induction l as [|y l IHl]; intros [|n] Hn; cbn [length] in Hn; try lia; auto.
        change (skipn (S n) (y :: l)) with (skipn n l). rewrite IHl by lia. reflexivity. }
      rewrite G by (rewrite firstn_length; lia). f_equal.
      rewrite <- (firstn_skipn 8 buf) at 2. rewrite app_nth1; auto. rewrite firstn_length; lia. }
    clearbody buf2. 
    destruct (Nat.eq_dec j 7) as [->|H7].
    + (* the block is completed *)
      assert (Stop : cfb_partial enc buf2 8 inp = (buf2, 8%nat, inp, nil)) by (destruct inp; reflexivity).
      rewrite Stop. exists [x]. split; [reflexivity|]. split; [auto|]. split; [reflexivity|].
      split; [lia|]. split; [lia|]. unfold run. cbn [run_bytes]. unfold byte_step. rewrite Ks. cbn [hd tl].
      rewrite skipn_all2 by (rewrite firstn_length; lia). cbn [Nat.eqb]. rewrite <- Eo.
      unfold sub. rewrite G2. reflexivity.
    + specialize (IH buf2 (S j) L2 ltac:(lia) s).
      destruct (cfb_partial enc buf2 (S j) inp) as [[[b' j'] rest] out].
      destruct IH as (pre & E & Lb & Ej & J8 & Jr & R). exists (x :: pre).
      split; [cbn; congruence|]. split; [auto|]. split; [cbn [length]; lia|]. split; [auto|]. split; [auto|].
      unfold run in *. cbn [run_bytes]. unfold byte_step at 1. rewrite Ks. cbn [hd tl].
      rewrite F2, G2 in R.
      destruct (skipn (S j) (firstn 8 buf)) as [|y l] eqn:Sk.
      { assert (length (skipn (S j) (firstn 8 buf)) = 0%nat) by (rewrite Sk; reflexivity).
        rewrite skipn_length, firstn_length in H. lia. }
      rewrite <- Eo. rewrite R. reflexivity.
Qed.

Lemma cfb_sim c st d : rel_cfb c st ->
  rel_cfb (fst (gost_cipher_do_cfb c d)) (fst (run st d)) /\ snd (gost_cipher_do_cfb c d) = snd (run st d).
Proof.
  destruct st as [[s ks] fed]. intros [Hb [(Hn & -> & ->)|(n & Hn & Hr & -> & ->)]]; unfold gost_cipher_do_cfb.
  - rewrite Hn. cbn [N.eqb]. apply cfb_main_sim; auto.
  - rewrite Hn. replace (N.of_nat n =? 0) with false by (symmetry; apply N.eqb_neq; lia).
    rewrite Nat2N.id. assert (Ee : e_enc c = enc) by apply Hb. rewrite Ee.
    pose proof (cfb_partial_run d (e_buf c) n (b_buf _ _ _ _ _ _ Hb) Hr s) as P.
    destruct (cfb_partial enc (e_buf c) n d) as [[[buf' j'] rest] o1].
    destruct P as (pre & Ed & Lb & Ej & J8 & Jr & R).
    destruct (Nat.eqb_spec j' 8) as [E8|E8].
    + subst d. unfold run in *. rewrite run_bytes_app, R. fold run.
      set (c2 := with_num (with_iv (with_buf c buf') (sub 8 8 buf')) 0).
      assert (B2 : base sb mesh k enc c2 (cfb_absorb s (sub 8 8 buf'))).
      { apply base_num. apply base_iv. apply base_buf; auto. }
      destruct (cfb_main_sim c2 _ rest B2 eq_refl) as [R2 O2].
      destruct (cfb_main c2 rest) as [c3 o2]. destruct (run (cfb_absorb s (sub 8 8 buf'), nil, nil) rest) as [st3 o3].
      cbn [fst snd] in *. subst; auto.
    + rewrite Jr in Ed by lia. rewrite app_nil_r in Ed. subst pre. rewrite R. cbn [fst snd]. split; auto.
      split. { apply base_num. apply base_buf; auto. }
      right. exists j'. cbn [with_num with_buf e_num e_buf]. repeat split; auto; lia.
Qed.
End CFB.

(** * Counter modes *)
Lemma skipn_cons_nth (l : list N) n : (n < length l)%nat -> skipn n l = nth n l 0 :: skipn (S n) l.
Proof.
  revert n; induction l as [|y l IHl]; intros [|n] Hn; cbn [length] in Hn; try lia; auto.
  change (skipn (S n) (y :: l)) with (skipn n l). rewrite IHl by lia. reflexivity.
Qed.
Lemma nth_firstn_lt (l : list N) n i : (i < n)%nat -> nth i (firstn n l) 0 = nth i l 0.
Proof. revert n i; induction l; intros [|n] [|i] H; cbn [firstn nth]; auto; try lia. apply IHl; lia. Qed.

Lemma ks_partial_run {S} (nx : S -> S * list N) buf bs inp : (bs <= length buf)%nat ->
  forall j, (0 < j < bs)%nat -> forall s fed,
  let '(j', rest, out) := ks_partial buf bs j inp in
  exists pre fed', inp = pre ++ rest /\ j' = (j + length pre)%nat /\ (j' <= bs)%nat /\ (j' < bs -> rest = nil)%nat /\
    run_bytes S nx (fun s _ => s) true (s, skipn j (firstn bs buf), fed) pre =
      ((if (j' =? bs)%nat then (s, nil, nil) else (s, skipn j' (firstn bs buf), fed')), out).
Proof.
  intros Hl. induction inp as [|x inp IH]; intros j Hj s fed; cbn [ks_partial].
  - exists nil, fed. rewrite Nat.add_0_r. replace (j =? bs)%nat with false by (symmetry; apply Nat.eqb_neq; lia).
    repeat split; auto; lia.
  - destruct (Nat.ltb_spec j bs) as [H8|H8]; [|lia].
    assert (Ks : skipn j (firstn bs buf) = nth j buf 0 :: skipn (Datatypes.S j) (firstn bs buf)).
    { rewrite skipn_cons_nth by (rewrite firstn_length; lia). rewrite nth_firstn_lt by lia. reflexivity. }
    destruct (Nat.eq_dec (Datatypes.S j) bs) as [E|E].
    + assert (Stop : ks_partial buf bs (Datatypes.S j) inp = (bs, inp, nil)).
      { rewrite E. destruct inp; cbn [ks_partial]; auto. rewrite Nat.ltb_irrefl. reflexivity. }
      rewrite Stop. exists [x], nil. split; [reflexivity|]. split; [cbn [length]; lia|]. split; [lia|]. split; [lia|].
      cbn [run_bytes]. unfold byte_step. rewrite Ks. cbn [hd tl]. rewrite skipn_all2 by (rewrite firstn_length; lia).
      rewrite Nat.eqb_refl. rewrite N.lxor_comm. reflexivity.
    + specialize (IH (Datatypes.S j) ltac:(lia) s (fed ++ [N.lxor x (nth j buf 0)])).
      destruct (ks_partial buf bs (Datatypes.S j) inp) as [[j' rest] out].
      destruct IH as (pre & fed' & Ei & Ej & J8 & Jr & R). exists (x :: pre), fed'.
      split; [cbn; congruence|]. split; [cbn [length]; lia|]. split; [auto|]. split; [auto|].
      cbn [run_bytes]. unfold byte_step at 1. rewrite Ks. cbn [hd tl].
      destruct (skipn (Datatypes.S j) (firstn bs buf)) as [|y l] eqn:Sk.
      { assert (length (skipn (Datatypes.S j) (firstn bs buf)) = 0%nat) by (rewrite Sk; reflexivity).
        rewrite skipn_length, firstn_length in H. lia. }
      cbn [pick]. rewrite R. rewrite N.lxor_comm. reflexivity.
Qed.

Lemma cnt_advance_spec b : bytes b -> cnt_advance b = cnt_step b.
Proof.
  intros Hb. unfold cnt_advance, cnt_step. f_equal.
  - f_equal. rewrite w32_mod. reflexivity.
  - f_equal. unfold add_ones. change (le2n (sub 4 4 b)) with (le_words b 1).
    assert (H : le_words b 1 < 4294967296).
    { unfold le_words. eapply N.lt_le_trans; [apply le2n_lt, bytes_firstn, bytes_skipn; auto|].
      change 4294967296 with (256 ^ 4). apply N.pow_le_mono_r; [lia|]. rewrite firstn_length. lia. }
    change (2 ^ 32) with 4294967296. change (2^24 + 2^16 + 2^8 + 4) with 16843012.
    change 0x01010104 with 16843012.
    set (a := le_words b 1) in *. clearbody a.
    rewrite !w32_mod. destruct (N.ltb_spec (a + 16843012) 4294967296) as [L|L].
    + rewrite N.mod_small by auto. replace (a + 16843012 <? a) with false by (symmetry; apply N.ltb_ge; lia). reflexivity.
    + assert (E : (a + 16843012) mod 4294967296 = a + 16843012 - 4294967296).
      { symmetry. apply N.mod_unique with 1; lia. }
      rewrite E. replace (a + 16843012 - 4294967296 <? a) with true by (symmetry; apply N.ltb_lt; lia).
      rewrite N.mod_small by lia. reflexivity.
Qed.

Lemma xorl_firstn_r inp ks : xorl inp (firstn (length inp) ks) = xorl inp ks.
Proof. revert ks; induction inp as [|x inp IH]; intros [|y ks]; cbn [length firstn xorl]; auto. f_equal; auto. Qed.
Lemma xorl_first8 buf inp : (0 < length inp < 8)%nat -> xorl (firstn (length inp) buf) inp = xorl inp (firstn 8 buf).
Proof.
  intros Li. rewrite xorl_comm, xorl_firstn_r. rewrite <- (xorl_firstn_r inp (firstn 8 _)), firstn_firstn.
  replace (Nat.min (length inp) 8) with (length inp) by lia. rewrite xorl_firstn_r. reflexivity.
Qed.

Section CNT.
Variables (sb : subst_block) (mesh : bool) (k : list N) (enc : bool).
Let nx := cnt_next (sboxes_of sb) mesh k.
Let run := run_bytes (nat * list N) nx (fun s _ => s) true.
Definition rel_cnt (c : evp) (st : bst (nat * list N)) : Prop :=
  let '(s, ks, fed) := st in
  base sb mesh k enc c s /\ bytes (snd s) /\
  ((e_num c = 0 /\ ks = nil /\ fed = nil) \/
   exists n, e_num c = N.of_nat n /\ (0 < n < 8)%nat /\ ks = skipn n (firstn 8 (e_buf c))).

Lemma gost_cnt_next_base c s : base sb mesh k enc c s -> bytes (snd s) ->
  let '(s', ks) := nx s in
  base sb mesh k enc (gost_cnt_next c) s' /\ bytes (snd s') /\
  firstn 8 (e_buf (gost_cnt_next c)) = ks /\ e_num (gost_cnt_next c) = e_num c /\ length ks = 8%nat.
Proof.
  destruct s as [i iv]. intros B Hbi. pose proof (mesh_head_base _ _ _ _ _ _ _ B) as H. cbv zeta in H.
  change (gost_cnt_next c) with
    (let c := mesh_head c in
     let buf1 := if e_count c =? 0 then gostcrypt (e_g c) (e_iv c) else e_iv c in
     let buf1 := cnt_advance buf1 in
     let c := with_iv c buf1 in
     let c := with_buf c (overwrite (e_buf c) 0 (gostcrypt (e_g c) buf1)) in
     with_count c (e_count c mod 1024 + 8)). cbv zeta.
  set (c' := mesh_head c) in *. clearbody c'. destruct H as (K & I & C & M & Bf & E & A & Nm).
  cbn [with_iv e_g e_buf e_count].
  unfold nx. cbn [cnt_next snd] in *.
  set (n0 := if (i =? 0)%nat then rfc5830_encrypt (sboxes_of sb) k iv else meshed_iv (sboxes_of sb) mesh k i iv).
  assert (E0 : (if e_count c' =? 0 then gostcrypt (e_g c') (e_iv c') else e_iv c') = n0).
  { rewrite C, I. unfold n0. destruct (Nat.eqb_spec i 0) as [->|Hi].
    - unfold count_of; cbn [Nat.eqb N.eqb]. rewrite (kst_crypt sb _ _ _ K).
      unfold meshed_iv, boundary. cbn [Nat.eqb negb]. rewrite andb_false_r. reflexivity.
    - replace (count_of i =? 0) with false; auto. symmetry; apply N.eqb_neq. unfold count_of.
      destruct (Nat.eqb_spec i 0); lia. }
  assert (Hn0 : bytes n0).
  { unfold n0, meshed_iv. destruct (i =? 0)%nat; [apply rfc5830_encrypt_bytes|].
    destruct (boundary mesh i); [apply rfc5830_encrypt_bytes|auto]. }
  rewrite E0, cnt_advance_spec by auto. rewrite (kst_crypt sb _ _ (cnt_step n0) K).
  set (ks := rfc5830_encrypt (sboxes_of sb) (block_key (sboxes_of sb) mesh k i) (cnt_step n0)).
  assert (L : length ks = 8%nat) by apply rfc5830_encrypt_length. clearbody ks n0.
  cbn [with_count with_buf with_iv e_buf e_num].
  destruct B as [B1 B2 B3 B4 B5 B6 B7]. cbn [fst snd] in *.
  split; [|split; [|split; [|split]]].
  - constructor; cbn [with_count with_buf with_iv e_g e_count e_mesh e_iv e_buf e_enc e_abort fst snd]; auto.
    + replace (Datatypes.S i - 1)%nat with i by lia. exact K.
    + rewrite C. apply count_of_S.
    + rewrite M. auto.
    + rewrite overwrite_length; rewrite Bf; auto. rewrite B5. lia.
  - unfold cnt_step. apply bytes_app; apply n2le_bytes.
  - rewrite <- L. apply overwrite_0_firstn.
  - exact Nm.
  - exact L.
Qed.

Opaque gost_cnt_next cnt_next.
Lemma cnt_blocks_sim fuel : forall c s inp, (length inp <= fuel)%nat -> base sb mesh k enc c s -> bytes (snd s) ->
  e_num c = 0 ->
  let '(c', rest, out) := cnt_blocks fuel c inp in
  exists pre s', inp = pre ++ rest /\ (length rest < 8)%nat /\ run (s, nil, nil) pre = ((s', nil, nil), out) /\
    base sb mesh k enc c' s' /\ bytes (snd s') /\ e_num c' = 0.
Proof.
  induction fuel as [|fuel IH]; intros c s inp Hf Hb Hy Hn; cbn [cnt_blocks].
  - exists nil, s. destruct inp; [|cbn in Hf; lia]. split; [reflexivity|]. split; [cbn; lia|]. split; [reflexivity|]. split; [assumption|split; assumption].
  - destruct (Nat.leb_spec 8 (length inp)) as [Hl|Hl].
    2:{ exists nil, s. split; [reflexivity|]. split; [exact Hl|]. split; [reflexivity|]. split; [assumption|split; assumption]. }
    pose proof (gost_cnt_next_base c s Hb Hy) as M.
    destruct (nx s) as [s1 ks] eqn:En. destruct M as (B1 & Y1 & F1 & N1 & L1).
    set (c1 := gost_cnt_next c) in *. clearbody c1.
    set (blk := firstn 8 inp). assert (Lb : length blk = 8%nat) by (apply firstn_length_le; lia).
    rewrite F1, xorl_comm.
    specialize (IH c1 s1 (skipn 8 inp)).
    destruct (cnt_blocks fuel c1 (skipn 8 inp)) as [[c3 rest] out].
    destruct IH as (pre & s' & Ei & Lr & Er & B3 & Y3 & N3); auto. { rewrite skipn_length; lia. } { congruence. }
    exists (blk ++ pre), s'. split; [|split; [|split; [|split]]]; auto.
    + rewrite <- app_assoc, <- Ei. symmetry; apply firstn_skipn.
    + unfold run in *. rewrite run_bytes_app.
      rewrite (run_bytes_fresh _ nx (fun s _ => s) true s blk s1 ks En).
      * rewrite Lb, L1, Nat.eqb_refl. rewrite Er. reflexivity.
      * destruct ks; discriminate.
      * destruct blk; discriminate.
      * lia.
Qed.
Lemma cnt_rest_eq c x t : cnt_rest c (x :: t) =
  (with_num (gost_cnt_next c) (N.of_nat (length (x :: t))), xorl (firstn (length (x :: t)) (e_buf (gost_cnt_next c))) (x :: t)).
Proof. reflexivity. Qed.
Lemma rel_cnt_mid c s ks fed n : base sb mesh k enc c s -> bytes (snd s) -> e_num c = N.of_nat n -> (0 < n < 8)%nat ->
  ks = skipn n (firstn 8 (e_buf c)) -> rel_cnt c (s, ks, fed).
Proof. intros. split; auto. split; auto. right. exists n. auto. Qed.
Lemma cnt_fresh s s2 ks inp : inp <> nil -> nx s = (s2, ks) -> length ks = 8%nat -> (0 < length inp < 8)%nat -> 
 run (s, nil, nil) inp = ((s2, skipn (length inp) ks, pick true inp (xorl inp ks)), xorl inp ks).
Proof.
  intros Hi En L2 Li. unfold run. rewrite (run_bytes_fresh _ nx (fun s _ => s) true s inp s2 ks En);
        [|destruct ks; discriminate|auto|lia].
  rewrite L2. replace (length inp =? 8)%nat with false by (symmetry; apply Nat.eqb_neq; lia). reflexivity.
Qed.
Lemma cnt_rest_sim1 c2 s s2 ks inp : inp <> nil -> (length inp < 8)%nat -> nx s = (s2, ks) ->
  base sb mesh k enc c2 s2 -> bytes (snd s2) -> firstn 8 (e_buf c2) = ks -> length ks = 8%nat ->
  rel_cnt (with_num c2 (N.of_nat (length inp))) (fst (run (s, nil, nil) inp)) /\
  xorl (firstn (length inp) (e_buf c2)) inp = snd (run (s, nil, nil) inp).
Proof.
  intros Hi Hl En B2 Y2 F2 L2.
  assert (Li : (0 < length inp < 8)%nat) by (destruct inp; [contradiction|cbn [length] in *; lia]).
  rewrite (cnt_fresh s s2 ks inp Hi En L2 Li). cbn [fst snd]. split.
  - apply rel_cnt_mid with (n := length inp);
        [apply base_num; exact B2|exact Y2|reflexivity|exact Li|cbn [with_num e_buf]; rewrite F2; reflexivity].
  - rewrite xorl_first8 by exact Li. rewrite F2. reflexivity.
Qed.
Lemma cnt_rest_sim c s inp : base sb mesh k enc c s -> bytes (snd s) -> e_num c = 0 -> (length inp < 8)%nat ->
  rel_cnt (fst (cnt_rest c inp)) (fst (run (s, nil, nil) inp)) /\ snd (cnt_rest c inp) = snd (run (s, nil, nil) inp).
Proof.
  intros Hb Hy Hn Hl. destruct inp as [|x t].
  - split; [|reflexivity]. split; [apply base_num; auto|split; [auto|left; auto]].
  - rewrite cnt_rest_eq. pose proof (gost_cnt_next_base c s Hb Hy) as M.
    destruct (nx s) as [s2 ks] eqn:En. destruct M as (B2 & Y2 & F2 & N2 & L2).
    apply (cnt_rest_sim1 (gost_cnt_next c) s s2 ks (x :: t)); [discriminate|exact Hl|exact En|exact B2|exact Y2|exact F2|exact L2].
Qed.
Lemma cnt_main_sim c s inp : base sb mesh k enc c s -> bytes (snd s) -> e_num c = 0 ->
  rel_cnt (fst (cnt_main c inp)) (fst (run (s, nil, nil) inp)) /\ snd (cnt_main c inp) = snd (run (s, nil, nil) inp).
Proof.
  intros Hb Hy Hn. unfold cnt_main. pose proof (cnt_blocks_sim (length inp) c s inp (le_n _) Hb Hy Hn) as H.
  destruct (cnt_blocks (length inp) c inp) as [[c1 rest] o1]. destruct H as (pre & s1 & Ei & Lr & Er & B1 & Y1 & N1).
  subst inp. unfold run. rewrite run_bytes_app. fold run. rewrite Er.
  destruct (cnt_rest_sim c1 s1 rest B1 Y1 N1 Lr) as [R O].
  destruct (cnt_rest c1 rest) as [c2 o2]. destruct (run (s1, nil, nil) rest) as [st2 o2'].
  cbn [fst snd] in *. subst; auto.
Qed.
Lemma cnt_sim c st d : rel_cnt c st ->
  rel_cnt (fst (gost_cipher_do_cnt c d)) (fst (run st d)) /\ snd (gost_cipher_do_cnt c d) = snd (run st d).
Proof.
  destruct st as [[s ks] fed]. intros (Hb & Hy & [(Hn & -> & ->)|(n & Hn & Hr & ->)]); unfold gost_cipher_do_cnt.
  - rewrite Hn. cbn [N.eqb]. apply cnt_main_sim; auto.
  - rewrite Hn. replace (N.of_nat n =? 0) with false by (symmetry; apply N.eqb_neq; lia).
    rewrite Nat2N.id.
    pose proof (ks_partial_run nx (e_buf c) 8 d ltac:(rewrite (b_buf _ _ _ _ _ _ Hb); lia) n Hr s fed) as P.
    destruct (ks_partial (e_buf c) 8 n d) as [[j' rest] o1].
    destruct P as (pre & fed' & Ed & Ej & J8 & Jr & R).
    destruct (Nat.eqb_spec j' 8) as [E8|E8].
    + subst d. unfold run in *. rewrite run_bytes_app, R. fold run.
      destruct (cnt_main_sim (with_num c 0) s rest (base_num _ _ _ _ _ _ 0 Hb) Hy eq_refl) as [R2 O2].
      destruct (cnt_main (with_num c 0) rest) as [c3 o2]. destruct (run (s, nil, nil) rest) as [st3 o3].
      cbn [fst snd] in *. subst; auto.
    + rewrite Jr in Ed by lia. rewrite app_nil_r in Ed. subst pre. unfold run. rewrite R. cbn [fst snd]. split; auto.
      split. { apply base_num; auto. } split; auto.
      right. exists j'. cbn [with_num e_num e_buf]. repeat split; auto; lia.
Qed.
End CNT.
