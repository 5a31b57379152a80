(** Magma CTR / CTR-ACPKM simulates the byte machine over the counter generator of CryptSpec. *)
From Verif Require Import Bytes BytesProofs Gost89Model Gost89Sboxes Gost89Spec Gost89Proofs Gost89SpecProofs
  StreamMode CryptModel CryptSpec CryptProofs.
From Coq Require Import List Lia NArith.
Open Scope N_scope.

Lemma rfc8891_block_bytes S o k b : bytes (rfc8891_block S o k b).
Proof. Transparent rfc8891_block. unfold rfc8891_block. destruct (swap _). apply bytes_app; apply n2be_bytes. Qed.
Lemma rfc8891_block_length S o k b : length (rfc8891_block S o k b) = 8%nat.
Proof. unfold rfc8891_block. destruct (swap _). rewrite app_length, !n2be_length. reflexivity. Qed.
Global Opaque rfc8891_block.
Lemma rfc8891_encrypt_length S k b : length (rfc8891_encrypt S k b) = 8%nat.
Proof. exact (rfc8891_block_length S enc_order k b). Qed.
Lemma rfc8891_encrypt_bytes S k b : bytes (rfc8891_encrypt S k b).
Proof. exact (rfc8891_block_bytes S enc_order k b). Qed.

(** * The counter *)
Lemma inc_le_spec l : bytes l -> inc_le l = n2le (length l) (le2n l + 1).
Proof.
  induction l as [|b l IH]; intros H; [reflexivity|]. inversion H as [|? ? Hb Hl]; subst. unfold isbyte in Hb.
  cbn [inc_le le2n length n2le]. rewrite !w8_mod, shiftr8. destruct (N.eq_dec b 255) as [->|E].
  - change ((255 + 1) mod 256) with 0. cbn [N.eqb].
    replace (255 + 256 * le2n l + 1) with ((le2n l + 1) * 256) by lia. rewrite N.mod_mul, N.div_mul by discriminate.
    f_equal. auto.
  - rewrite (N.mod_small (b + 1)) by lia. replace (b + 1 =? 0) with false by (symmetry; apply N.eqb_neq; lia).
    replace (b + 256 * le2n l + 1) with (b + 1 + le2n l * 256) by lia.
    rewrite N.mod_add, N.div_add, N.mod_small, (N.div_small (b + 1)) by lia. f_equal. rewrite N.add_0_l.
    symmetry; apply n2le_le2n; auto.
Qed.
Lemma inc_counter_spec l : bytes l -> inc_counter l = n2be (length l) (be2n l + 1).
Proof.
  intros H. unfold inc_counter, n2be, be2n. rewrite inc_le_spec by (apply bytes_rev; auto). rewrite rev_length. reflexivity.
Qed.
Lemma n2le_mod n x : n2le n (x mod 256 ^ N.of_nat n) = n2le n x.
Proof.
  rewrite <- le2n_n2le. apply n2le_le2n. apply n2le_bytes. apply n2le_length.
Qed.
Lemma n2be_mod n x : n2be n (x mod 256 ^ N.of_nat n) = n2be n x.
Proof. unfold n2be. rewrite n2le_mod. reflexivity. Qed.
Lemma inc_counter_n2be n x : inc_counter (n2be n x) = n2be n (x + 1).
Proof.
  rewrite inc_counter_spec by apply n2be_bytes. rewrite n2be_length, be2n_n2be.
  rewrite <- n2be_mod. rewrite N.add_mod_idemp_l by (apply N.pow_nonzero; discriminate). apply n2be_mod.
Qed.

(** * Keys *)
Lemma acpkm_D_const : acpkm_D = ACPKM_D_const.
Proof. reflexivity. Qed.
Definition mst (sb : subst_block) (k : list N) (g : gost_ctx) : Prop :=
  subst_ok sb /\ tables_of g sb /\ key_be g k /\ rng_ok (g_rng g).
Lemma mst_magma_key sb k g : subst_ok sb -> tables_of g sb -> rng_ok (g_rng g) -> bytes k -> mst sb k (magma_key g k).
Proof.
  intros Hs Ht Hr Hk. split; [|split; [|split]]; auto.
  - intro i. apply ekey_magma_key; auto.
  - intro n. apply Hr.
Qed.
Lemma mst_crypt sb k g b : mst sb k g -> magmacrypt g b = rfc8891_encrypt (sboxes_of sb) k b.
Proof. intros (Hs & Ht & Hk & Hr). apply magmacrypt_spec; auto. Qed.
Lemma mst_acpkm sb k g : mst sb k g ->
  mst sb (concat (map (rfc8891_encrypt (sboxes_of sb) k) (blocks 8 acpkm_D))) (acpkm_magma_key_meshing g).
Proof.
  intros H. pose proof H as (Hs & Ht & Hk & Hr).
  assert (E : acpkm_magma_key_meshing g = magma_key g (concat (map (rfc8891_encrypt (sboxes_of sb) k) (blocks 8 acpkm_D)))).
  { unfold acpkm_magma_key_meshing. f_equal.
    change (blocks 8 acpkm_D) with [sub 0 8 ACPKM_D_const; sub 8 8 ACPKM_D_const; sub 16 8 ACPKM_D_const; sub 24 8 ACPKM_D_const].
    cbn [map concat]. rewrite app_nil_r. rewrite !(mst_crypt sb k) by auto. reflexivity. }
  rewrite E. apply mst_magma_key; auto.
  generalize (blocks 8 acpkm_D). induction l; cbn [map concat]; [constructor|]. apply bytes_app; auto. apply rfc8891_encrypt_bytes.
Qed.

(** * Section arithmetic: [sect] = 8 m. *)
Lemma sect_step m i : 0 < m -> 0 < i ->
  ((8 * (i - 1)) mod (8 * m) + 8 = 8 * m /\ (8 * i) mod (8 * m) = 0 /\ 8 * i / (8 * m) = 8 * (i - 1) / (8 * m) + 1) \/
  ((8 * (i - 1)) mod (8 * m) + 8 < 8 * m /\ (8 * i) mod (8 * m) = (8 * (i - 1)) mod (8 * m) + 8 /\
   8 * i / (8 * m) = 8 * (i - 1) / (8 * m)).
Proof.
  intros Hm Hi. rewrite !N.mul_mod_distr_l, !N.div_mul_cancel_l by lia.
  pose proof (N.div_mod (i - 1) m ltac:(lia)) as D. pose proof (N.mod_lt (i - 1) m ltac:(lia)) as L.
  set (q := (i - 1) / m) in *. set (r := (i - 1) mod m) in *.
  destruct (N.eq_dec (r + 1) m) as [E|E]; [left|right].
  - assert (Ei : i = (q + 1) * m) by lia. rewrite Ei. rewrite N.mod_mul, N.div_mul by lia. lia.
  - assert (Ei : i = (r + 1) + q * m) by lia. rewrite Ei.
    rewrite N.mod_add, N.div_add, N.mod_small, N.div_small by lia. lia.
Qed.

(** * The context *)
Record mbase (sb : subst_block) (sect : N) (k : list N) (ctr0 : N) (c : evp) (i : nat) : Prop := {
  m_key : mst sb (acpkm_key (rfc8891_encrypt (sboxes_of sb)) 8 k (section_no 8 sect (i - 1))) (e_g c);
  m_mesh : e_mesh c = sect;
  m_iv : e_iv c = n2be 8 (ctr0 + N.of_nat i);
  m_buf : length (e_buf c) = 32%nat;
  m_numlt : e_num c < 4294967296
}.
(** num after [i] blocks were started and [j] bytes of the last one consumed (1 <= j <= 8). *)
Definition num_ok (sect : N) (i : nat) (j : N) (num : N) : Prop :=
  num mod 8 = j mod 8 /\
  (sect <> 0 -> num = if (i =? 0)%nat then 0 else (8 * N.of_nat (i - 1)) mod sect + j).

Section CTR.
Variables (sb : subst_block) (sect : N) (k : list N) (ctr0 : N).
Hypothesis Hsect : sect mod 8 = 0.
Hypothesis Hsect32 : sect < 4294967296.
Let E := rfc8891_encrypt (sboxes_of sb).
Let nx := ctr_next E 8 (section_no 8 sect) k ctr0.
Let run := run_bytes nat nx (fun s _ => s) true.

Lemma apply_acpkm_base c i : mbase sb sect k ctr0 c i -> num_ok sect i 8 (e_num c) ->
  let c' := apply_acpkm_magma c in
  mst sb (acpkm_key E 8 k (section_no 8 sect i)) (e_g c') /\ e_mesh c' = sect /\ e_iv c' = e_iv c /\
  e_buf c' = e_buf c /\ e_num c' < 4294967296 /\ e_num c' mod 8 = 0 /\
  (sect <> 0 -> e_num c' = (8 * N.of_nat i) mod sect).
Proof.
  intros [Hk Hm Hi Hb Hn] [Hn8 Hns]. change (8 mod 8) with 0 in Hn8. cbv zeta. unfold apply_acpkm_magma. rewrite Hm.
  destruct (N.eqb_spec sect 0) as [E0|E0]; cbn [orb].
  - unfold section_no in *. rewrite E0 in *. cbn [N.eqb] in *. repeat split; auto; try apply Hk; try congruence.
  - specialize (Hns E0). assert (Hm8 : exists m, sect = 8 * m /\ 0 < m).
    { exists (sect / 8). split; [rewrite (N.div_mod sect 8) at 1 by discriminate; rewrite Hsect; lia|].
      destruct (N.eq_dec (sect / 8) 0); [|lia]. rewrite (N.div_mod sect 8), Hsect, e in E0 by discriminate. lia. }
    destruct Hm8 as (m & Es & Hm0). unfold section_no in *.
    destruct (N.eqb_spec sect 0); [contradiction|]. change (N.of_nat 8) with 8 in *.
    destruct (Nat.eqb_spec i 0) as [->|Hi0].
    + rewrite Hns. replace (0 <? sect) with true by (symmetry; apply N.ltb_lt; lia).
      change (N.of_nat (0 - 1)) with 0 in *. change (N.of_nat 0) with 0 in *. rewrite N.mul_0_r, N.div_0_l in * by auto.
      rewrite N.mod_0_l by auto. repeat split; auto; try apply Hk; rewrite Hns; reflexivity || lia.
    + replace (N.of_nat (i - 1)) with (N.of_nat i - 1) in * by lia.
      destruct (sect_step m (N.of_nat i) Hm0 ltac:(lia)) as [(A1 & A2 & A3)|(A1 & A2 & A3)]; rewrite <- Es in *.
      * replace (e_num c <? sect) with false by (symmetry; apply N.ltb_ge; lia).
        assert (Z : N.land (e_num c) 7 = 0).
        { change 7 with (N.ones 3). rewrite N.land_ones. exact Hn8. }
        rewrite A2, A3. cbn [with_num with_g e_g e_mesh e_iv e_buf e_num]. rewrite Z.
        replace (N.to_nat (8 * (N.of_nat i - 1) / sect + 1)) with (S (N.to_nat (8 * (N.of_nat i - 1) / sect))) by lia.
        cbn [acpkm_key]. split; [apply mst_acpkm; auto|]. repeat split; auto; lia.
      * replace (e_num c <? sect) with true by (symmetry; apply N.ltb_lt; lia).
        rewrite A2, A3. repeat split; auto; apply Hk.
Qed.

Lemma magma_ctr_block_base c i : mbase sb sect k ctr0 c i -> num_ok sect i 8 (e_num c) ->
  let c' := magma_ctr_block c in
  mbase sb sect k ctr0 c' (S i) /\ firstn 8 (e_buf c') = snd (nx i) /\ e_num c' mod 8 = 0 /\
  (sect <> 0 -> e_num c' = (8 * N.of_nat i) mod sect).
Proof.
  intros B Hn. pose proof (apply_acpkm_base c i B Hn) as H. cbv zeta in H.
  change (magma_ctr_block c) with
    (let c := apply_acpkm_magma c in
     let c := with_buf c (overwrite (e_buf c) 0 (magmacrypt (e_g c) (e_iv c))) in
     let c := with_iv c (inc_counter (e_iv c)) in with_count c (w32 (e_count c + 8))).
  set (c1 := apply_acpkm_magma c) in *. clearbody c1. cbv zeta.
  destruct H as (K & M & I & Bf & L & N8 & Ns). destruct B as [B1 B2 B3 B4 B5].
  cbn [with_buf with_iv with_count e_buf e_iv e_g e_num].
  rewrite (mst_crypt sb _ _ (e_iv c1) K). rewrite I, B3.
  unfold nx, ctr_next. cbn [snd].
  set (ks := rfc8891_encrypt (sboxes_of sb) _ _). assert (Lk : length ks = 8%nat) by apply rfc8891_encrypt_length.
  change (E (acpkm_key E 8 k (section_no 8 sect i)) (n2be 8 (ctr0 + N.of_nat i))) with ks. clearbody ks.
  split; [|split; [|split]]; auto.
  - constructor; cbn [with_buf with_iv with_count e_buf e_iv e_g e_num e_mesh]; auto.
    + replace (S i - 1)%nat with i by lia. exact K.
    + rewrite inc_counter_n2be. f_equal. lia.
    + rewrite overwrite_length; rewrite Bf; auto. rewrite B4. lia.
  - rewrite <- Lk. apply overwrite_0_firstn.
Qed.

Definition rel_ctr (c : evp) (st : bst nat) : Prop :=
  let '(i, ks, fed) := st in
  mbase sb sect k ctr0 c i /\
  ((num_ok sect i 8 (e_num c) /\ ks = nil /\ fed = nil) \/
   exists j, (0 < j < 8)%nat /\ i <> 0%nat /\ num_ok sect i (N.of_nat j) (e_num c) /\ ks = skipn j (firstn 8 (e_buf c))).

Lemma mbase_num c i n : n < 4294967296 -> mbase sb sect k ctr0 c i -> mbase sb sect k ctr0 (with_num c n) i.
Proof. intros ? []; constructor; auto. Qed.
Lemma num_ok_step i j num d : i <> 0%nat -> num < 4294967296 -> num mod 8 = 0 -> (sect <> 0 -> num = (8 * N.of_nat (i - 1)) mod sect) ->
  (sect = 0 \/ num + d < 4294967296) -> j = d -> num_ok sect i j (w32 (num + d)).
Proof.
  intros Hi Hn H8 Hs Hw ->. rewrite w32_mod. split.
  - change 4294967296 with (8 * 536870912). rewrite N.mod_mul_r by discriminate.
    rewrite N.add_mod, (N.mul_comm 8 _), N.mod_mul, N.add_0_r by discriminate. rewrite !N.mod_mod by discriminate.
    rewrite N.add_mod by discriminate. rewrite H8, N.add_0_l, N.mod_mod by discriminate. reflexivity.
  - intros H0. destruct Hw as [|Hw]; [contradiction|]. rewrite N.mod_small by auto.
    destruct (Nat.eqb_spec i 0); [contradiction|]. rewrite Hs by auto. reflexivity.
Qed.
Lemma sect_room i : sect <> 0 -> (8 * N.of_nat i) mod sect + 8 <= sect.
Proof.
  intros H0. assert (Es : sect = 8 * (sect / 8)) by (rewrite (N.div_mod sect 8) at 1 by discriminate; rewrite Hsect; lia).
  rewrite Es. rewrite N.mul_mod_distr_l by lia.
  pose proof (N.mod_lt (N.of_nat i) (sect / 8) ltac:(lia)). lia.
Qed.

Lemma ctr_blocks_sim fuel : forall c i inp, (length inp <= fuel)%nat -> mbase sb sect k ctr0 c i ->
  num_ok sect i 8 (e_num c) ->
  let '(c', rest, out) := magma_ctr_blocks fuel c inp in
  exists pre i', inp = pre ++ rest /\ (length rest < 8)%nat /\ run (i, nil, nil) pre = ((i', nil, nil), out) /\
    mbase sb sect k ctr0 c' i' /\ num_ok sect i' 8 (e_num c').
Proof.
  induction fuel as [|fuel IH]; intros c i inp Hf Hb Hn; cbn [magma_ctr_blocks].
  - exists nil, i. destruct inp; [|cbn in Hf; lia]. split; [auto|]. split; [cbn; lia|]. split; [reflexivity|]. auto.
  - destruct (Nat.leb_spec 8 (length inp)) as [Hl|Hl].
    2:{ exists nil, i. split; [auto|]. split; [lia|]. split; [reflexivity|]. auto. }
    pose proof (magma_ctr_block_base c i Hb Hn) as M. cbv zeta in M.
    set (c1 := magma_ctr_block c) in *. clearbody c1. destruct M as (B1 & F1 & N1 & S1).
    set (blk := firstn 8 inp). assert (Lb : length blk = 8%nat) by (apply firstn_length_le; lia).
    rewrite F1, xorl_comm. set (c2 := with_num c1 (w32 (e_num c1 + 8))).
    assert (B2 : mbase sb sect k ctr0 c2 (S i)) by (apply mbase_num; [apply w32_lt|auto]).
    assert (N2 : num_ok sect (S i) 8 (e_num c2)).
    { unfold c2. cbn [with_num e_num]. apply num_ok_step; auto.
      - apply B1.
      - replace (S i - 1)%nat with i by lia. auto.
      - destruct (N.eq_dec sect 0); auto. right. rewrite S1 by auto. pose proof (sect_room i ltac:(auto)). lia. }
    specialize (IH c2 (S i) (skipn 8 inp)).
    destruct (magma_ctr_blocks fuel c2 (skipn 8 inp)) as [[c3 rest] out].
    destruct IH as (pre & i' & Ei & Lr & Er & B3 & N3); auto. { rewrite skipn_length; lia. }
    assert (Lk : length (snd (nx i)) = 8%nat) by (apply rfc8891_encrypt_length).
    exists (blk ++ pre), i'. split; [|split; [|split; [|split]]]; auto.
    + rewrite <- app_assoc, <- Ei. symmetry; apply firstn_skipn.
    + unfold run in *. rewrite run_bytes_app.
      rewrite (run_bytes_fresh _ nx (fun s _ => s) true i blk (S i) (snd (nx i)) eq_refl).
      * rewrite Lb, Lk, Nat.eqb_refl. rewrite Er. reflexivity.
      * intro Z; rewrite Z in Lk; discriminate Lk.
      * intro Z; rewrite Z in Lb; discriminate Lb.
      * lia.
Qed.

Lemma ctr_partial_run inp : forall c j i fed, (0 < j < 8)%nat -> i <> 0%nat -> mbase sb sect k ctr0 c i ->
  num_ok sect i (N.of_nat j) (e_num c) ->
  let '(c', rest, out) := magma_ctr_partial c inp in
  exists pre, inp = pre ++ rest /\ mbase sb sect k ctr0 c' i /\
    exists j' fed', (j <= j' <= 8)%nat /\ (j' < 8 -> rest = nil)%nat /\ num_ok sect i (N.of_nat j') (e_num c') /\
     e_buf c' = e_buf c /\
     run (i, skipn j (firstn 8 (e_buf c)), fed) pre =
       ((if (j' =? 8)%nat then (i, nil, nil) else (i, skipn j' (firstn 8 (e_buf c)), fed')), out).
Proof.
  induction inp as [|x inp IH]; intros c j i fed Hj Hi Hb Hn; cbn [magma_ctr_partial].
  - exists nil. split; [reflexivity|]. split; [auto|]. exists j, fed.
    replace (j =? 8)%nat with false by (symmetry; apply Nat.eqb_neq; lia).
    split; [lia|]. split; [auto|]. split; [auto|]. split; reflexivity.
  - assert (Ln : N.land (e_num c) 7 = N.of_nat j).
    { change 7 with (N.ones 3). rewrite N.land_ones. change (2 ^ 3) with 8. destruct Hn as [-> _]. apply N.mod_small. lia. }
    rewrite Ln. replace (N.of_nat j =? 0) with false by (symmetry; apply N.eqb_neq; lia). rewrite Nat2N.id.
    assert (Lb : length (e_buf c) = 32%nat) by apply Hb.
    assert (Ks : skipn j (firstn 8 (e_buf c)) = nth j (e_buf c) 0 :: skipn (S j) (firstn 8 (e_buf c))).
    { rewrite skipn_cons_nth by (rewrite firstn_length; lia). rewrite nth_firstn_lt by lia. reflexivity. }
    set (c1 := with_num c (w32 (e_num c + 1))).
    assert (B1 : mbase sb sect k ctr0 c1 i) by (apply mbase_num; [apply w32_lt|auto]).
    assert (N1 : num_ok sect i (N.of_nat (S j)) (e_num c1)).
    { unfold c1. cbn [with_num e_num]. destruct Hn as [N8 Ns]. rewrite w32_mod. split.
      - change 4294967296 with (8 * 536870912). rewrite N.mod_mul_r by discriminate.
        rewrite N.add_mod, (N.mul_comm 8 _), N.mod_mul, N.add_0_r by discriminate. rewrite !N.mod_mod by discriminate.
        rewrite N.add_mod by discriminate. rewrite N8. rewrite <- N.add_mod by discriminate. f_equal. lia.
      - intros H0. specialize (Ns H0). destruct (Nat.eqb_spec i 0); [contradiction|].
        pose proof (sect_room (i - 1) H0). rewrite N.mod_small by lia. lia. }
    destruct (Nat.eq_dec j 7) as [->|H7].
    + assert (Stop : magma_ctr_partial c1 inp = (c1, inp, nil)).
      { destruct inp; cbn [magma_ctr_partial]; auto. destruct N1 as [N8 _].
        change 7 with (N.ones 3). rewrite N.land_ones. change (2 ^ 3) with 8. rewrite N8. reflexivity. }
      rewrite Stop. exists [x]. split; [reflexivity|]. split; [auto|]. exists 8%nat, nil.
      split; [lia|]. split; [lia|]. split; [exact N1|]. split; [reflexivity|].
      unfold run. cbn [run_bytes]. unfold byte_step. rewrite Ks. cbn [hd tl]. rewrite skipn_all2 by (rewrite firstn_length; lia).
      reflexivity.
    + specialize (IH c1 (S j) i (fed ++ [N.lxor x (nth j (e_buf c) 0)]) ltac:(lia) Hi B1 N1).
      destruct (magma_ctr_partial c1 inp) as [[c2 rest] out].
      destruct IH as (pre & Ei & B2 & j' & fed' & Hj' & Hr & N2 & Eb & R). exists (x :: pre).
      split; [cbn; congruence|]. split; [auto|]. exists j', fed'. split; [lia|]. split; [auto|]. split; [auto|].
      split; [rewrite Eb; reflexivity|].
      change (e_buf c1) with (e_buf c) in R.
      unfold run in *. cbn [run_bytes]. unfold byte_step at 1. rewrite Ks. cbn [hd tl].
      destruct (skipn (S j) (firstn 8 (e_buf c))) as [|y l] eqn:Sk.
      { assert (length (skipn (S j) (firstn 8 (e_buf c))) = 0%nat) by (rewrite Sk; reflexivity).
        rewrite skipn_length, firstn_length in H. lia. }
      cbn [pick]. rewrite R. reflexivity.
Qed.

(** The part of magma_cipher_do_ctr after the partial block. *)
Definition ctr_tail (c : evp) (rest : list N) : evp * list N :=
  match rest with
  | nil => (c, nil)
  | _ => let c := magma_ctr_block c in
         (with_num c (w32 (e_num c + N.of_nat (length rest))), xorl (firstn (length rest) (e_buf c)) rest)
  end.
Definition ctr_main (c : evp) (inp : list N) : evp * list N :=
  let '(c, rest, o2) := magma_ctr_blocks (length inp) c inp in
  let (c, o3) := ctr_tail c rest in (c, o2 ++ o3).
Lemma do_ctr_eq c inp : magma_cipher_do_ctr c inp =
  (let '(c, inp, o1) := magma_ctr_partial c inp in let (c, o) := ctr_main c inp in (c, o1 ++ o)).
Proof.
  unfold magma_cipher_do_ctr, ctr_main. destruct (magma_ctr_partial c inp) as [[c1 inp1] o1].
  destruct (magma_ctr_blocks (length inp1) c1 inp1) as [[c2 rest] o2].
  destruct rest; unfold ctr_tail; rewrite ?app_nil_r; reflexivity.
Qed.
Lemma ctr_tail_sim1 c1 i ks rest : rest <> nil -> (length rest < 8)%nat -> nx i = (S i, ks) ->
  mbase sb sect k ctr0 c1 (S i) -> firstn 8 (e_buf c1) = ks -> length ks = 8%nat -> e_num c1 mod 8 = 0 ->
  (sect <> 0 -> e_num c1 = (8 * N.of_nat i) mod sect) ->
  rel_ctr (with_num c1 (w32 (e_num c1 + N.of_nat (length rest)))) (fst (run (i, nil, nil) rest)) /\
  xorl (firstn (length rest) (e_buf c1)) rest = snd (run (i, nil, nil) rest).
Proof.
  intros Hr Hl En B F L N8 Ns.
  assert (Li : (0 < length rest < 8)%nat) by (destruct rest; [contradiction|cbn [length] in *; lia]).
  assert (R : run (i, nil, nil) rest = ((S i, skipn (length rest) ks, pick true rest (xorl rest ks)), xorl rest ks)).
  { unfold run. rewrite (run_bytes_fresh _ nx (fun s _ => s) true i rest (S i) ks En);
        [|intro Z; rewrite Z in L; discriminate L|exact Hr|lia].
    rewrite L. replace (length rest =? 8)%nat with false by (symmetry; apply Nat.eqb_neq; lia). reflexivity. }
  rewrite R. cbn [fst snd]. split.
  - split; [apply mbase_num; [apply w32_lt|exact B]|]. right. exists (length rest). split; [exact Li|]. split; [discriminate|].
    cbn [with_num e_num e_buf]. split; [|rewrite F; reflexivity].
    apply num_ok_step; auto.
    + apply B.
    + replace (S i - 1)%nat with i by lia. exact Ns.
    + destruct (N.eq_dec sect 0); auto. right. rewrite Ns by auto. pose proof (sect_room i ltac:(auto)). lia.
  - rewrite xorl_first8 by exact Li. rewrite F. reflexivity.
Qed.
Lemma ctr_tail_sim c i rest : mbase sb sect k ctr0 c i -> num_ok sect i 8 (e_num c) -> (length rest < 8)%nat ->
  rel_ctr (fst (ctr_tail c rest)) (fst (run (i, nil, nil) rest)) /\ snd (ctr_tail c rest) = snd (run (i, nil, nil) rest).
Proof.
  intros Hb Hn Hl. destruct rest as [|x t].
  - split; [|reflexivity]. split; [exact Hb|left; auto].
  - pose proof (magma_ctr_block_base c i Hb Hn) as M. cbv zeta in M. destruct M as (B1 & F1 & N1 & S1).
    assert (Lk : length (snd (nx i)) = 8%nat) by (apply rfc8891_encrypt_length).
    exact (ctr_tail_sim1 (magma_ctr_block c) i (snd (nx i)) (x :: t) ltac:(discriminate) Hl eq_refl B1 F1 Lk N1 S1).
Qed.
Lemma ctr_main_sim c i inp : mbase sb sect k ctr0 c i -> num_ok sect i 8 (e_num c) ->
  rel_ctr (fst (ctr_main c inp)) (fst (run (i, nil, nil) inp)) /\ snd (ctr_main c inp) = snd (run (i, nil, nil) inp).
Proof.
  intros Hb Hn. unfold ctr_main. pose proof (ctr_blocks_sim (length inp) c i inp (le_n _) Hb Hn) as H.
  destruct (magma_ctr_blocks (length inp) c inp) as [[c1 rest] o1]. destruct H as (pre & i1 & Ei & Lr & Er & B1 & N1).
  subst inp. unfold run. rewrite run_bytes_app. fold run. rewrite Er.
  destruct (ctr_tail_sim c1 i1 rest B1 N1 Lr) as [R O].
  destruct (ctr_tail c1 rest) as [c2 o2]. destruct (run (i1, nil, nil) rest) as [st2 o2'].
  cbn [fst snd] in *. subst; auto.
Qed.
Lemma ctr_partial_boundary c inp i : num_ok sect i 8 (e_num c) -> magma_ctr_partial c inp = (c, inp, nil).
Proof.
  intros [H _]. destruct inp; cbn [magma_ctr_partial]; auto. change 7 with (N.ones 3). rewrite N.land_ones.
  change (2 ^ 3) with 8. rewrite H. reflexivity.
Qed.
Lemma ctr_sim c st d : rel_ctr c st ->
  rel_ctr (fst (magma_cipher_do_ctr c d)) (fst (run st d)) /\ snd (magma_cipher_do_ctr c d) = snd (run st d).
Proof.
  destruct st as [[i ks] fed]. intros (Hb & [(Hn & -> & ->)|(j & Hj & Hi & Hn & ->)]); rewrite do_ctr_eq.
  - rewrite (ctr_partial_boundary c d i Hn). destruct (ctr_main_sim c i d Hb Hn) as [R O].
    destruct (ctr_main c d) as [c2 o2]. auto.
  - pose proof (ctr_partial_run d c j i fed Hj Hi Hb Hn) as P.
    destruct (magma_ctr_partial c d) as [[c1 rest] o1].
    destruct P as (pre & Ed & B1 & j' & fed' & Hj' & Hr & N1 & Eb & R).
    destruct (Nat.eqb_spec j' 8) as [E8|E8].
    + subst j'. subst d. unfold run in *. rewrite run_bytes_app, R. fold run.
      change (N.of_nat 8) with 8 in N1. destruct (ctr_main_sim c1 i rest B1 N1) as [R2 O2].
      destruct (ctr_main c1 rest) as [c3 o2]. destruct (run (i, nil, nil) rest) as [st3 o3].
      cbn [fst snd] in *. subst; auto.
    + rewrite Hr in * by lia. rewrite app_nil_r in Ed. subst pre. rewrite R.
      change (ctr_main c1 nil) with (c1, @nil N). cbn [fst snd]. rewrite app_nil_r. split; auto.
      split; [exact B1|]. right. exists j'. split; [lia|]. split; [exact Hi|]. split; [exact N1|]. rewrite Eb. reflexivity.
Qed.
End CTR.
