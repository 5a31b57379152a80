(** Proofs about the imit digest of gost_crypt.c. *)
From Verif Require Import Bytes BytesProofs Gost89Model Gost89Sboxes Gost89Spec Gost89Proofs Gost89SpecProofs
  Gost89ModeProofs StreamMode CryptModel CryptSpec CryptProofs.
From Coq Require Import List Lia NArith.
Open Scope N_scope.

Lemma mac_mesh_app S mesh k a b : forall i st,
  mac_mesh S mesh k i st (a ++ b) = mac_mesh S mesh k (i + length a) (mac_mesh S mesh k i st a) b.
Proof.
  induction a as [|x a IH]; intros i st; cbn [app mac_mesh length]; [rewrite Nat.add_0_r; auto|].
  rewrite IH. f_equal. lia.
Qed.
Lemma blocks_count a : (length a mod 8 = 0)%nat -> length (blocks 8 a) = (length a / 8)%nat.
Proof.
  revert a. apply whole_blocks_ind; [lia|reflexivity|].
  intros x l Hx Hl IH. rewrite blocks_cons by lia. cbn [length]. rewrite app_length, Hx.
  rewrite IH by auto. replace (8 + length l)%nat with (length l + 1 * 8)%nat by lia. rewrite Nat.div_add by lia. lia.
Qed.
Lemma mod8_app (a b : list N) : (length a mod 8 = 0 -> length b mod 8 = 0 -> length (a ++ b) mod 8 = 0)%nat.
Proof. intros Ha Hb. rewrite app_length, Nat.add_mod, Ha, Hb by lia. reflexivity. Qed.

Section Imit.
Variables (sb : subst_block) (k : list N).
Let S := sboxes_of sb.
Record icore (c : imit) (done : list N) : Prop := {
  ic_mod : (length done mod 8 = 0)%nat;
  ic_kst : kst sb (mesh_key S true k ((length done / 8 - 1) / 128)) (i_g c);
  ic_buf : i_buffer c = mac_mesh S true k 0 (zeros 8) (blocks 8 done);
  ic_count : i_count c = count_of (length done / 8);
  ic_mesh : i_mesh c = 1;
  ic_key : i_keyset c = true;
  ic_part : length (i_partial c) = 8%nat;
  ic_abort : i_abort c = false
}.
Lemma icore_left c d n : icore c d -> icore (i_with_left c n) d.
Proof. intros []; constructor; auto. Qed.
Lemma icore_partial c d p : length p = 8%nat -> icore c d -> icore (i_with_partial c p) d.
Proof. intros ? []; constructor; auto. Qed.

Lemma div8_app8 (done b : list N) : (length b = 8 -> length (done ++ b) / 8 = Datatypes.S (length done / 8))%nat.
Proof. intros H. rewrite app_length, H. replace (length done + 8)%nat with (length done + 1 * 8)%nat by lia. rewrite Nat.div_add by lia. lia. Qed.

Lemma mac_block_core c done b : icore c done -> length b = 8%nat -> icore (mac_block_mesh c b) (done ++ b).
Proof.
  intros [Hm Hk Hb Hc Hs Hy Hp Ha] Lb.
  set (i := (length done / 8)%nat) in *.
  set (g' := if negb (i_mesh c =? 0) && (i_count c =? 1024) then cryptopro_key_meshing_noiv (i_g c) else i_g c).
  assert (K : kst sb (block_key S true k i) g').
  { unfold g'. rewrite Hs, Hc, count_of_1024. cbn [N.eqb negb andb]. unfold block_key.
    destruct (negb (i =? 0)%nat && (i mod 128 =? 0)%nat) eqn:B.
    - apply andb_prop in B as [B2 B3]. apply Nat.eqb_eq in B3.
      apply Bool.negb_true_iff, Nat.eqb_neq in B2. rewrite (block_key_next i B2 B3). cbn [mesh_key].
      apply kst_mesh. exact Hk.
    - rewrite block_key_same; [exact Hk|]. apply Bool.andb_false_iff in B as [B|B].
      + left. apply Bool.negb_false_iff, Nat.eqb_eq in B. auto.
      + right. apply Nat.eqb_neq in B. auto. }
  change (mac_block_mesh c b) with
    (mk_imit g' (mac_block g' (i_buffer c) b) (i_partial c) (i_count c mod 1024 + 8) (i_mesh c)
      (i_left c) (i_keyset c) (i_size c) (i_abort c || negb (assert_count (i_count c)))).
  clearbody g'. constructor; cbn [i_g i_buffer i_partial i_count i_mesh i_keyset i_abort].
  - apply mod8_app; auto. rewrite Lb. reflexivity.
  - rewrite div8_app8 by auto. fold i. replace (Datatypes.S i - 1)%nat with i by lia. exact K.
  - rewrite blocks_app by (auto; lia). rewrite mac_mesh_app, <- Hb.
    rewrite (blocks_short 8 b); [|lia|intros ->; discriminate Lb|lia]. cbn [mac_mesh].
    rewrite blocks_count by auto. fold i. rewrite Nat.add_0_l. destruct K as (K1 & K2 & K3 & K4).
    rewrite (mac_block_spec g' sb (block_key S true k i)) by auto. reflexivity.
  - rewrite div8_app8 by auto. fold i. rewrite Hc. apply count_of_S.
  - exact Hs.
  - exact Hy.
  - exact Hp.
  - rewrite Ha, Hc, count_of_assert. reflexivity.
Qed.

(** After [m] bytes were fed: whole blocks absorbed, at most 8 bytes pending. *)
Definition iinv (c : imit) (m : list N) : Prop :=
  exists done pend, m = done ++ pend /\ (length pend <= 8)%nat /\ icore c done /\ i_left c = length pend /\
    firstn (length pend) (i_partial c) = pend.

Lemma imit_loop_core fuel : forall c done data, (length data <= fuel)%nat -> icore c done ->
  let '(c', rest) := imit_loop fuel c data in
  exists pre, data = pre ++ rest /\ (length rest <= 8)%nat /\ icore c' (done ++ pre) /\ (data <> nil -> rest <> nil).
Proof.
  induction fuel as [|fuel IH]; intros c done data Hf Hc; cbn [imit_loop].
  - exists nil. destruct data; [|cbn in Hf; lia]. rewrite (app_nil_r done). split; [reflexivity|]. split; [cbn; lia|]. split; [exact Hc|auto].
  - destruct (Nat.ltb_spec 8 (length data)) as [Hl|Hl].
    + specialize (IH (mac_block_mesh c (firstn 8 data)) (done ++ firstn 8 data) (skipn 8 data)).
      destruct (imit_loop fuel (mac_block_mesh c (firstn 8 data)) (skipn 8 data)) as [c' rest].
      destruct IH as (pre & Ed & Lr & Hc' & Hn).
      { rewrite skipn_length; lia. }
      { apply mac_block_core; auto. rewrite firstn_length; lia. }
      exists (firstn 8 data ++ pre). rewrite <- app_assoc, <- Ed, firstn_skipn, app_assoc.
      split; [auto|]. split; [auto|]. split; [auto|]. intros _. apply Hn. intro Z.
      assert (Lz : length (skipn 8 data) = 0%nat) by (rewrite Z; reflexivity). rewrite skipn_length in Lz. lia.
    + exists nil. rewrite (app_nil_r done). split; [auto|]. split; [auto|]. split; auto.
Qed.
Lemma imit_tail_inv c done data : icore c done -> iinv (imit_tail c data) (done ++ data) /\
  (data <> nil -> i_left (imit_tail c data) <> 0%nat).
Proof.
  intros Hc. unfold imit_tail. pose proof (imit_loop_core (length data) c done data (le_n _) Hc) as H.
  destruct (imit_loop (length data) c data) as [c' rest]. destruct H as (pre & Ed & Lr & Hc' & Hn).
  split.
  - exists (done ++ pre), rest. split; [subst data; apply app_assoc|]. split; [auto|].
    split; [apply icore_left, icore_partial; auto; rewrite overwrite_length; rewrite (ic_part _ _ Hc'); auto|].
    split; [reflexivity|]. cbn [i_with_left i_with_partial i_partial]. apply overwrite_0_firstn.
  - intros Hd. cbn [i_with_left i_left]. specialize (Hn Hd). destruct rest; [contradiction|discriminate].
Qed.
Lemma imit_fill_spec data : forall p i, length p = 8%nat -> (i <= 8)%nat ->
  let '(p', i', rest) := imit_fill p i data in
  exists pre, data = pre ++ rest /\ i' = (i + length pre)%nat /\ (i' <= 8)%nat /\ (i' < 8 -> rest = nil)%nat /\
    length p' = 8%nat /\ firstn i' p' = firstn i p ++ pre.
Proof.
  induction data as [|x t IH]; intros p i Lp Hi; cbn [imit_fill].
  - exists nil. rewrite Nat.add_0_r, (app_nil_r (firstn i p)). split; [auto|]. split; [auto|]. split; [auto|]. split; [auto|]. split; auto.
  - destruct (Nat.ltb_spec i 8) as [H8|H8].
    + specialize (IH (set p i x) (Datatypes.S i)). rewrite set_length in IH. specialize (IH Lp ltac:(lia)).
      destruct (imit_fill (set p i x) (Datatypes.S i) t) as [[p' i'] rest].
      destruct IH as (pre & Et & Ei & Hi' & Hr & Lp' & Fp). exists (x :: pre).
      split; [cbn; congruence|]. split; [cbn [length]; lia|]. split; [auto|]. split; [auto|]. split; [auto|].
      rewrite Fp, firstn_succ_set by lia. rewrite <- app_assoc. reflexivity.
    + exists nil. rewrite Nat.add_0_r, app_nil_r. split; [auto|]. split; [auto|]. split; [auto|]. split; [lia|]. auto.
Qed.
Lemma imit_update_inv c m d : iinv c m -> exists c', gost_imit_update c d = Some c' /\ iinv c' (m ++ d).
Proof.
  intros (done & pend & Em & Lp & Hc & Hl & Hf). unfold gost_imit_update. rewrite (ic_key _ _ Hc). cbn [negb].
  eexists; split; [reflexivity|].
  destruct (Nat.eqb_spec (i_left c) 0) as [E0|E0].
  - assert (pend = nil) by (destruct pend; [auto|cbn [length] in Hl; lia]). subst pend. rewrite app_nil_r in Em. subst m.
    apply imit_tail_inv; auto.
  - pose proof (imit_fill_spec d (i_partial c) (i_left c) (ic_part _ _ Hc) ltac:(lia)) as F.
    destruct (imit_fill (i_partial c) (i_left c) d) as [[p i] rest].
    destruct F as (pre & Ed & Ei & Hi & Hr & Lp' & Fp). rewrite Hl, Hf in Fp.
    destruct (Nat.eqb_spec i 8) as [E8|E8].
    + assert (Ep : p = pend ++ pre) by (rewrite <- Fp, E8; symmetry; apply firstn_all2; lia).
      assert (C2 : icore (mac_block_mesh (i_with_partial c p) p) (done ++ p))
        by (apply mac_block_core; auto; apply icore_partial; auto).
      destruct (imit_tail_inv _ _ rest C2) as [T _].
      subst m d. rewrite Ep in T at 3. rewrite <- !app_assoc in *. exact T.
    + rewrite Hr in * by lia. rewrite app_nil_r in Ed. subst pre.
      exists done, (pend ++ d). subst m. rewrite <- app_assoc. split; [auto|].
      assert (Li : length (pend ++ d) = i) by (rewrite app_length; lia).
      rewrite Li. split; [auto|]. split; [apply icore_left, icore_partial; auto|]. split; auto.
Qed.

(** The last step of the final function: absorb what is pending, padded with zeros. *)
Definition imit_flush (c : imit) : imit :=
  if (i_left c =? 0)%nat then c
  else let p := overwrite (i_partial c) (i_left c) (zeros (8 - i_left c)) in mac_block_mesh (i_with_partial c p) p.
Lemma overwrite_tail l n : length l = 8%nat -> (n <= 8)%nat -> overwrite l n (zeros (8 - n)) = firstn n l ++ zeros (8 - n).
Proof.
  intros. unfold overwrite. rewrite zeros_length, skipn_all2 by lia. rewrite app_nil_r. reflexivity.
Qed.
Lemma imit_flush_spec c m : iinv c m ->
  i_buffer (imit_flush c) = mac_mesh S true k 0 (zeros 8) (blocks 8 (pad8 m)) /\ i_abort (imit_flush c) = false /\
  i_size (imit_flush c) = i_size c.
Proof.
  intros (done & pend & Em & Lp & Hc & Hl & Hf). unfold imit_flush. rewrite Hl.
  destruct (Nat.eqb_spec (length pend) 0) as [E0|E0].
  - destruct pend; [|discriminate E0]. rewrite app_nil_r in Em. subst m. rewrite pad8_whole by apply Hc.
    split; [apply Hc|]. split; [apply Hc|reflexivity].
  - cbv zeta. rewrite overwrite_tail by (auto; apply Hc). rewrite Hf.
    set (p := pend ++ zeros (8 - length pend)).
    assert (Lq : length p = 8%nat) by (unfold p; rewrite app_length, zeros_length; lia).
    assert (C2 : icore (mac_block_mesh (i_with_partial c p) p) (done ++ p))
        by (apply mac_block_core; auto; apply icore_partial; auto).
    split; [|split; [apply C2|reflexivity]]. rewrite (ic_buf _ _ C2). f_equal. f_equal. subst m.
    destruct (Nat.eq_dec (length pend) 8) as [E8|E8].
    + unfold p. rewrite E8. cbn [Nat.sub zeros repeat]. rewrite app_nil_r. symmetry. apply pad8_whole.
      apply mod8_app; [apply Hc|]. rewrite E8. reflexivity.
    + rewrite pad8_split; [reflexivity|apply Hc|lia].
Qed.

Lemma mac_block_size c b : i_size (mac_block_mesh c b) = i_size c. Proof. reflexivity. Qed.
Lemma imit_loop_size fuel : forall c d, i_size (fst (imit_loop fuel c d)) = i_size c.
Proof. induction fuel; intros c d; cbn [imit_loop]; auto. destruct (8 <? length d)%nat; auto. rewrite IHfuel. apply mac_block_size. Qed.
Lemma imit_tail_size c d : i_size (imit_tail c d) = i_size c.
Proof. unfold imit_tail. pose proof (imit_loop_size (length d) c d). destruct (imit_loop (length d) c d). exact H. Qed.

Lemma imit_loop_key fuel : forall c d, i_keyset (fst (imit_loop fuel c d)) = i_keyset c.
Proof. induction fuel; intros c d; cbn [imit_loop]; auto. destruct (8 <? length d)%nat; auto. rewrite IHfuel. reflexivity. Qed.
Lemma imit_tail_key c d : i_keyset (imit_tail c d) = i_keyset c.
Proof. unfold imit_tail. pose proof (imit_loop_key (length d) c d). destruct (imit_loop (length d) c d). exact H. Qed.
Lemma imit_update_size c d c' : gost_imit_update c d = Some c' -> i_size c' = i_size c /\ i_keyset c' = i_keyset c.
Proof.
  intros U. unfold gost_imit_update in U. destruct (i_keyset c) eqn:K; cbn [negb] in U; [|discriminate U].
  injection U as <-.
  destruct (i_left c =? 0)%nat; [rewrite imit_tail_size, imit_tail_key; auto|]. destruct (imit_fill _ _ _) as [[p i] rest].
  destruct (i =? 8)%nat; [|auto]. rewrite imit_tail_size, imit_tail_key. auto.
Qed.

Lemma count_of_0 i : count_of i = 0 <-> i = 0%nat.
Proof. unfold count_of. destruct (Nat.eqb_spec i 0); split; intros; auto; try lia. Qed.
Lemma pad8_more m : (0 < length m <= 8)%nat -> pad8 (m ++ zeros 8) = pad8 m ++ zeros 8.
Proof.
  intros H. unfold pad8. rewrite app_length, zeros_length. rewrite Nat.add_comm, mod_add_n by lia.
  rewrite <- !app_assoc. f_equal. unfold zeros. rewrite <- !repeat_app. f_equal. lia.
Qed.
Lemma pad8_length_le8 m : (length (pad8 m) = 8 <-> 0 < length m <= 8)%nat.
Proof.
  unfold pad8. rewrite app_length, zeros_length. pose proof (Nat.mod_upper_bound (length m) 8 ltac:(lia)).
  pose proof (Nat.div_mod_eq (length m) 8).
  set (q := (length m / 8)%nat) in *. set (r := (length m mod 8)%nat) in *. clearbody q r. split; intros.
  - destruct (Nat.eq_dec r 0); [subst; cbn in *; lia|]. rewrite Nat.mod_small in H1 by lia. lia.
  - destruct (Nat.eq_dec r 0); [subst; cbn in *; lia|]. rewrite Nat.mod_small by lia. lia.
Qed.

(** Final, when the message is not a single block already absorbed. *)
Lemma imit_final_spec c m : iinv c m -> ((length m = 8)%nat -> i_count c = 0) ->
  exists c', gost_imit_final c = Some (c', get_mac (mac_mesh S true k 0 (zeros 8) (blocks 8 (mac_message m))) (8 * i_size c)).
Proof.
  intros Hi H8. pose proof Hi as (done & pend & Em & Lp & Hc & Hl & Hf). unfold gost_imit_final.
  rewrite (ic_key _ _ Hc). cbn [negb]. unfold mac_message.
  destruct (imit_update_inv c m (zeros 8) Hi) as (c2 & U & I2). rewrite U.
  assert (S2 : i_size c2 = i_size c).
  { exact (proj1 (imit_update_size c (zeros 8) c2 U)). }
  destruct ((i_count c =? 0) && negb (i_left c =? 0)%nat) eqn:B.
  - apply andb_prop in B as [B1 B2]. apply N.eqb_eq in B1. rewrite (ic_count _ _ Hc), count_of_0 in B1.
    apply Bool.negb_true_iff, Nat.eqb_neq in B2.
    assert (done = nil).
    { destruct done; auto. pose proof (ic_mod _ _ Hc) as M. cbn [length] in *.
      pose proof (Nat.div_mod_eq (Datatypes.S (length done)) 8). lia. }
    subst done. cbn [app] in Em. subst pend.
    destruct (imit_flush_spec c2 _ I2) as (F1 & _ & F3). unfold imit_flush in F1, F3.
    rewrite pad8_more in F1 by lia. 
    replace (length (pad8 m) =? 8)%nat with true by (symmetry; apply Nat.eqb_eq, pad8_length_le8; lia).
    eexists. rewrite <- F1, <- S2, <- F3. reflexivity.
  - destruct (imit_flush_spec c _ Hi) as (F1 & _ & F3). unfold imit_flush in F1, F3.
    assert (N8 : (length (pad8 m) =? 8)%nat = false).
    { apply Nat.eqb_neq. rewrite pad8_length_le8. intros L.
      apply Bool.andb_false_iff in B as [B|B].
      - apply N.eqb_neq in B. destruct (Nat.eq_dec (length m) 8) as [E|E]; [apply B, H8; auto|].
        apply B. rewrite (ic_count _ _ Hc), count_of_0. subst m. rewrite app_length in *.
        apply Nat.div_small. pose proof (ic_mod _ _ Hc). lia.
      - apply Bool.negb_false_iff, Nat.eqb_eq in B. assert (pend = nil) by (destruct pend; [auto|cbn [length] in Hl; lia]).
        subst pend. rewrite app_nil_r in Em. subst m.
        destruct (Nat.eq_dec (length done) 8) as [E|E].
        + specialize (H8 E). rewrite (ic_count _ _ Hc), count_of_0, E in H8. discriminate H8.
        + pose proof (ic_mod _ _ Hc) as M. rewrite Nat.mod_small in M by lia. lia. }
    rewrite N8. eexists. rewrite <- F1, <- F3. reflexivity.
Qed.
End Imit.
