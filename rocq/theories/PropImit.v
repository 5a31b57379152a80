(** Properties C14-C16 and C36: the MAC digest, the key meshing counter, TLS sequence arithmetic. *)
From Coq Require Import String.
From Verif Require Import Bytes BytesProofs Gost89Model Gost89Sboxes Gost89Spec Gost89Proofs Gost89SpecProofs
  Gost89ModeProofs StreamMode CryptModel CryptSpec CryptProofs MagmaProofs ImitProofs PropGost89 PropCrypt PropCrypt2.
From Coq Require Import List Lia NArith.
Open Scope N_scope.

(** ** C14 *)
(** A MAC operation: set the key (raw, 32 bytes), optionally the tag size, feed the chunks, take
    the tag.  [c0] is any context at all. *)
Fixpoint imit_feed (c : imit) (chunks : list (list N)) : option imit :=
  match chunks with
  | nil => Some c
  | d :: t => match gost_imit_update c d with Some c' => imit_feed c' t | None => None end
  end.
Definition imit_tag (c : imit) (chunks : list (list N)) : option (list N) :=
  match imit_feed c chunks with
  | Some c => match gost_imit_final c with Some (_, t) => Some t | None => None end
  | None => None
  end.
Definition imit_start (sb : subst_block) (c0 : imit) (k : list N) (size : Z) : imit :=
  snd (gost_imit_xof_len (snd (gost_imit_set_key sb c0 (RawKey k 32%Z))) size).

Lemma imit_start_core sb c0 k size : subst_ok sb -> bytes k -> rng_ok (g_rng (i_g c0)) -> i_abort c0 = false ->
  icore sb k (imit_start sb c0 k size) nil /\ i_left (imit_start sb c0 k size) = 0%nat.
Proof.
  intros Hs Hk Hr Ha. unfold imit_start, gost_imit_xof_len, gost_imit_set_key, gost_imit_init. cbn [Z.eqb Pos.eqb snd].
  assert (G : forall n, icore sb k (i_with_size (i_with_key (mk_imit (gost_init (i_g c0) sb) (zeros 8) (zeros 8) 0 1 0 (i_keyset c0) 4 (i_abort c0))
     (gost_key (gost_init (i_g c0) sb) k)) n) nil).
  { intros n. constructor; cbn [i_with_size i_with_key i_g i_buffer i_partial i_count i_mesh i_keyset i_abort]; try reflexivity.
    - apply kst_gost_key; auto. apply tables_of_init.
    - exact Ha. }
  destruct ((size <? 1) || (8 <? size))%Z; cbn [snd]; split; try reflexivity; [|apply G].
  pose proof (G 4) as [G1 G2 G3 G4 G5 G6 G7 G8]; constructor; assumption.
Qed.
Lemma imit_start_size sb c0 k size : (1 <= size <= 8)%Z -> i_size (imit_start sb c0 k size) = Z.to_N size.
Proof.
  intros H. unfold imit_start, gost_imit_xof_len. replace ((size <? 1) || (8 <? size))%Z with false; [reflexivity|].
  symmetry. apply Bool.orb_false_iff. split; apply Z.ltb_ge; lia.
Qed.
Lemma core_inv sb k c : icore sb k c nil -> i_left c = 0%nat -> iinv sb k c nil.
Proof. intros H L. exists nil, nil. split; [reflexivity|]. split; [cbn; lia|]. split; [exact H|]. split; [exact L|reflexivity]. Qed.
Lemma imit_feed_inv sb k chunks : forall c m, iinv sb k c m ->
  exists c', imit_feed c chunks = Some c' /\ iinv sb k c' (m ++ concat chunks) /\ i_size c' = i_size c.
Proof.
  induction chunks as [|d t IH]; intros c m H; cbn [imit_feed concat].
  - exists c. rewrite app_nil_r. auto.
  - destruct (imit_update_inv sb k c m d H) as (c1 & U & I1). rewrite U.
    destruct (IH c1 (m ++ d) I1) as (c2 & F & I2 & S2). exists c2. rewrite <- app_assoc in I2. split; [auto|]. split; [auto|].
    rewrite S2. apply (imit_update_size _ _ _ U).
Qed.

(** Every chunking of a message that is not exactly 8 bytes long gives the standard's MAC (with
    key meshing), truncated to [size] bytes. *)
Theorem C14_mac_spec_for_every_chunking :
  forall sb c0 k size chunks,
    subst_ok sb -> bytes k -> rng_ok (g_rng (i_g c0)) -> i_abort c0 = false -> (1 <= size <= 8)%Z ->
    length (concat chunks) <> 8%nat ->
    imit_tag (imit_start sb c0 k size) chunks
    = Some (firstn (Z.to_nat size) (gost_mac_meshed (sboxes_of sb) true k (concat chunks))).
Proof.
  intros sb c0 k size chunks Hs Hk Hr Ha Hz H8.
  destruct (imit_start_core sb c0 k size Hs Hk Hr Ha) as [C L]. pose proof (imit_start_size sb c0 k size Hz) as Sz.
  set (c := imit_start sb c0 k size) in *. clearbody c.
  destruct (imit_feed_inv sb k chunks c nil (core_inv sb k c C L)) as (c1 & F & I1 & S1). cbn [app] in I1.
  destruct (imit_final_spec sb k c1 (concat chunks) I1) as (c2 & F2). { intros; contradiction. }
  unfold imit_tag. rewrite F, F2, get_mac_whole, S1, Sz. unfold gost_mac_meshed. f_equal. f_equal. lia.
Qed.
(** 8-byte messages: right when the whole message comes in the last update call... *)
Theorem C14_mac_spec_single_block :
  forall sb c0 k size m,
    subst_ok sb -> bytes k -> rng_ok (g_rng (i_g c0)) -> i_abort c0 = false -> (1 <= size <= 8)%Z ->
    imit_tag (imit_start sb c0 k size) [m] = Some (firstn (Z.to_nat size) (gost_mac_meshed (sboxes_of sb) true k m)).
Proof.
  intros sb c0 k size m Hs Hk Hr Ha Hz.
  destruct (imit_start_core sb c0 k size Hs Hk Hr Ha) as [C L]. pose proof (imit_start_size sb c0 k size Hz) as Sz.
  set (c := imit_start sb c0 k size) in *. clearbody c.
  destruct (imit_update_inv sb k c nil m (core_inv sb k c C L)) as (c1 & U & I1). cbn [app] in I1.
  assert (Cnt : (length m = 8)%nat -> i_count c1 = 0).
  { intros E. unfold gost_imit_update in U. rewrite (ic_key _ _ _ _ C) in U. cbn [negb] in U. rewrite L in U. cbn [Nat.eqb] in U.
    injection U as <-. unfold imit_tail. rewrite E. cbn [imit_loop]. rewrite E. cbn [Nat.ltb Nat.leb].
    cbn [i_with_left i_with_partial i_count]. rewrite (ic_count _ _ _ _ C). reflexivity. }
  destruct (imit_final_spec sb k c1 m I1 Cnt) as (c2 & F2).
  unfold imit_tag, imit_feed. rewrite U, F2, get_mac_whole. destruct (imit_update_size _ _ _ U) as [S1 _]. rewrite S1, Sz.
  unfold gost_mac_meshed. f_equal. f_equal. lia.
Qed.
(** ... and wrong otherwise: 3 + 5 bytes give another tag than 8 bytes at once. *)
Theorem C14_mac_chunking_refuted :
  exists sb c0 k size chunks1 chunks2,
    subst_ok sb /\ bytes k /\ rng_ok (g_rng (i_g c0)) /\ (1 <= size <= 8)%Z /\ concat chunks1 = concat chunks2 /\
    length (concat chunks1) = 8%nat /\
    imit_tag (imit_start sb c0 k size) chunks1 <> imit_tag (imit_start sb c0 k size) chunks2.
Proof.
  exists Gost28147_CryptoProParamSetA, (mk_imit ctx0 (zeros 8) (zeros 8) 0 0 0 false 0 false), kdemo, 4%Z,
    [mdemo 3; skipn 3 (mdemo 8)], [mdemo 8].
  split; [|split; [|split; [exact ctx0_rng_ok|split; [lia|split; [reflexivity|split; [reflexivity|]]]]]].
  - pose proof all_subst_blocks_ok as A. rewrite Forall_forall in A. apply A. unfold all_subst_blocks; cbn [In]; tauto.
  - apply bytes_forallb. reflexivity.
  - vm_compute. discriminate.
Qed.
Print Assumptions C14_mac_spec_for_every_chunking.
Example C14_example :
  let c := imit_start Gost28147_TC26ParamSetZ (mk_imit ctx0 (zeros 8) (zeros 8) 0 0 0 false 0 false) kdemo 4%Z in
  let m := mdemo 1050 in
  imit_tag c [firstn 3 m; sub 3 1021 m; skipn 1024 m] = imit_tag c [m] /\
  imit_tag c [firstn 1024 m] <> imit_tag c [m].
Proof. vm_compute. split; [reflexivity|discriminate]. Qed.

(** ** C15 *)
(** Every history of calls on a context that starts zeroed. *)
Inductive imit_call := IInit (sb : subst_block) | ISetKey (sb : subst_block) (a : imit_key) | IXof (arg : Z) | IUpdate (d : list N) | IFinal.
Definition imit_step (c : imit) (o : imit_call) : imit * option (list N) :=
  match o with
  | IInit sb => (gost_imit_init c sb, None)
  | ISetKey sb a => (snd (gost_imit_set_key sb c a), None)
  | IXof n => (snd (gost_imit_xof_len c n), None)
  | IUpdate d => (match gost_imit_update c d with Some c' => c' | None => c end, None)
  | IFinal => match gost_imit_final c with Some (c', t) => (c', Some t) | None => (c, None) end
  end.
Fixpoint imit_run (c : imit) (ops : list imit_call) : imit :=
  match ops with nil => c | o :: t => imit_run (fst (imit_step c o)) t end.
(** Independent bookkeeping: was a key accepted, and which size is in force? *)
Definition key_accepted (o : imit_call) : bool :=
  match o with
  | ISetKey _ (RawKey _ n) => (n =? 32)%Z
  | ISetKey _ (MacKey (Some None) _) => false
  | ISetKey _ (MacKey _ _) => true
  | _ => false
  end.
Fixpoint size_after (ops : list imit_call) (s : N) : N :=
  match ops with
  | nil => s
  | (IInit _ | ISetKey _ _) :: t => size_after t 4
  | IXof n :: t => size_after t (if ((1 <=? n) && (n <=? 8))%Z then Z.to_N n else s)
  | _ :: t => size_after t s
  end.
Definition imit0 (g : gost_ctx) : imit := mk_imit g (zeros 8) (zeros 8) 0 0 0 false 0 false.

Definition imit_final_state (c : imit) : imit :=
  let c := if (i_count c =? 0) && negb (i_left c =? 0)%nat
           then match gost_imit_update c (zeros 8) with Some c' => c' | None => c end else c in
  if (i_left c =? 0)%nat then c
  else let p := overwrite (i_partial c) (i_left c) (zeros (8 - i_left c)) in mac_block_mesh (i_with_partial c p) p.
Lemma imit_final_eq c : gost_imit_final c =
  if negb (i_keyset c) then None else Some (imit_final_state c, get_mac (i_buffer (imit_final_state c)) (8 * i_size (imit_final_state c))).
Proof. reflexivity. Qed.
Lemma imit_final_state_keeps c : i_size (imit_final_state c) = i_size c /\ i_keyset (imit_final_state c) = i_keyset c.
Proof.
  unfold imit_final_state. set (z := zeros 8). clearbody z.
  assert (X : forall c2, i_size c2 = i_size c /\ i_keyset c2 = i_keyset c ->
    let c3 := if (i_left c2 =? 0)%nat then c2
      else let p := overwrite (i_partial c2) (i_left c2) (zeros (8 - i_left c2)) in mac_block_mesh (i_with_partial c2 p) p in
    i_size c3 = i_size c /\ i_keyset c3 = i_keyset c).
  { intros c2 H2. cbv zeta. destruct (i_left c2 =? 0)%nat; exact H2. }
  apply X. destruct ((i_count c =? 0) && negb (i_left c =? 0)%nat); [|auto].
  destruct (gost_imit_update c z) eqn:U; [|auto]. exact (imit_update_size _ _ _ U).
Qed.
Lemma imit_run_inv ops : forall c s kd, i_size c = s -> i_keyset c = kd ->
  i_size (imit_run c ops) = size_after ops s /\ i_keyset (imit_run c ops) = (kd || existsb key_accepted ops).
Proof.
  induction ops as [|o ops IH]; intros c s kd Hs Hk; cbn [imit_run size_after existsb].
  - rewrite Bool.orb_false_r. auto.
  - rewrite Bool.orb_assoc. destruct o as [sb|sb a|n|d|]; cbn [imit_step fst key_accepted size_after].
    + rewrite Bool.orb_false_r. apply IH; [reflexivity|exact Hk].
    + assert (Z : i_size (snd (gost_imit_set_key sb c a)) = 4 /\
          i_keyset (snd (gost_imit_set_key sb c a)) = (kd || key_accepted (ISetKey sb a))).
      { unfold gost_imit_set_key. destruct a as [k n|[[sb'|]|] k]; cbn [key_accepted];
          try destruct (n =? 32)%Z; cbn [snd]; rewrite ?Bool.orb_true_r, ?Bool.orb_false_r; split; try reflexivity; exact Hk. }
      destruct Z as [Z1 Z2]. set (c1 := snd (gost_imit_set_key sb c a)) in *. clearbody c1. apply IH; [exact Z1|exact Z2].
    + rewrite Bool.orb_false_r. apply IH.
      * unfold gost_imit_xof_len. destruct ((1 <=? n) && (n <=? 8))%Z eqn:B.
        -- apply andb_prop in B as [B1 B2]. apply Z.leb_le in B1, B2.
           replace ((n <? 1) || (8 <? n))%Z with false; [reflexivity|]. symmetry. apply Bool.orb_false_iff. split; apply Z.ltb_ge; lia.
        -- replace ((n <? 1) || (8 <? n))%Z with true; [exact Hs|]. symmetry. apply Bool.orb_true_iff.
           apply Bool.andb_false_iff in B as [B|B]; apply Z.leb_gt in B; [left|right]; apply Z.ltb_lt; lia.
      * unfold gost_imit_xof_len. destruct ((n <? 1) || (8 <? n))%Z; exact Hk.
    + rewrite Bool.orb_false_r. apply IH; destruct (gost_imit_update c d) eqn:U; auto; destruct (imit_update_size _ _ _ U); congruence.
    + rewrite Bool.orb_false_r. rewrite imit_final_eq. destruct (imit_final_state_keeps c) as [F1 F2].
      set (f := imit_final_state c) in *. clearbody f. rewrite Hk. destruct kd; cbn [negb fst] in *; apply IH; congruence.
Qed.
Lemma imit_loop_buf fuel : forall c d, length (i_buffer c) = 8%nat -> length (i_buffer (fst (imit_loop fuel c d))) = 8%nat.
Proof.
  induction fuel; intros c d H; cbn [imit_loop]; auto. destruct (8 <? length d)%nat; auto.
Qed.
Lemma imit_tail_buf c d : length (i_buffer c) = 8%nat -> length (i_buffer (imit_tail c d)) = 8%nat.
Proof. intros H. unfold imit_tail. pose proof (imit_loop_buf (length d) c d H). destruct (imit_loop (length d) c d). exact H0. Qed.
Lemma imit_update_buf c d c' : length (i_buffer c) = 8%nat -> gost_imit_update c d = Some c' -> length (i_buffer c') = 8%nat.
Proof.
  intros H U. unfold gost_imit_update in U. destruct (negb (i_keyset c)); [discriminate U|]. injection U as <-.
  destruct (i_left c =? 0)%nat; [apply imit_tail_buf; auto|]. destruct (imit_fill _ _ _) as [[p i] rest].
  destruct (i =? 8)%nat; [|auto]. apply imit_tail_buf. apply mac_block_length.
Qed.
Lemma imit_final_buf c : length (i_buffer c) = 8%nat -> length (i_buffer (imit_final_state c)) = 8%nat.
Proof.
  intros H. unfold imit_final_state. set (z := zeros 8). clearbody z.
  assert (X : forall c2, length (i_buffer c2) = 8%nat ->
    let c3 := if (i_left c2 =? 0)%nat then c2
      else let p := overwrite (i_partial c2) (i_left c2) (zeros (8 - i_left c2)) in mac_block_mesh (i_with_partial c2 p) p in
    length (i_buffer c3) = 8%nat).
  { intros c2 H2. cbv zeta. destruct (i_left c2 =? 0)%nat; [exact H2|]. apply mac_block_length. }
  apply X. destruct ((i_count c =? 0) && negb (i_left c =? 0)%nat); [|auto].
  destruct (gost_imit_update c z) eqn:U; [|auto]. exact (imit_update_buf _ _ _ H U).
Qed.
Lemma imit_run_buf ops : forall c, length (i_buffer c) = 8%nat -> length (i_buffer (imit_run c ops)) = 8%nat.
Proof.
  induction ops as [|o ops IH]; intros c H; cbn [imit_run]; auto. apply IH.
  destruct o as [sb|sb a|n|d|]; cbn [imit_step fst].
  - reflexivity.
  - unfold gost_imit_set_key. destruct a as [k n|[[sb'|]|] k]; try destruct (n =? 32)%Z; reflexivity.
  - unfold gost_imit_xof_len. destruct ((n <? 1) || (8 <? n))%Z; exact H.
  - destruct (gost_imit_update c d) eqn:U; auto. exact (imit_update_buf _ _ _ H U).
  - rewrite imit_final_eq. pose proof (imit_final_buf c H) as F. set (f := imit_final_state c) in *. clearbody f.
    destruct (negb (i_keyset c)); auto.
Qed.
Lemma size_after_le ops : forall s, s <= 8 -> size_after ops s <= 8.
Proof.
  induction ops as [|o ops IH]; intros s H; cbn [size_after]; auto.
  destruct o; try (apply IH; auto; lia). apply IH. destruct ((1 <=? arg) && (arg <=? 8))%Z eqn:B; auto.
  apply andb_prop in B as [B1 B2]. apply Z.leb_le in B1, B2. lia.
Qed.
(** A tag is returned if and only if a key was accepted before, and it has exactly the size in
    force. *)
Theorem C15_mac_needs_key_and_has_requested_size :
  forall g ops,
    match snd (imit_step (imit_run (imit0 g) ops) IFinal) with
    | None => existsb key_accepted ops = false
    | Some tag => existsb key_accepted ops = true /\ length tag = N.to_nat (size_after ops 0)
    end.
Proof.
  intros g ops. destruct (imit_run_inv ops (imit0 g) 0 false eq_refl eq_refl) as [S K]. cbn [orb] in K.
  pose proof (imit_run_buf ops (imit0 g) eq_refl) as B.
  set (c := imit_run (imit0 g) ops) in *. clearbody c. cbn [imit_step]. rewrite imit_final_eq.
  destruct (imit_final_state_keeps c) as [F1 F2]. pose proof (imit_final_buf c B) as FB.
  set (f := imit_final_state c) in *. clearbody f.
  destruct (i_keyset c) eqn:Q; cbn [negb snd]; [|auto]. split; [auto|]. rewrite F1, S. rewrite get_mac_whole.
  apply firstn_length_le. rewrite FB. pose proof (size_after_le ops 0 ltac:(lia)). lia.
Qed.
(** Without a key, updates fail too. *)
Theorem C15_update_needs_key :
  forall g ops d, existsb key_accepted ops = false -> gost_imit_update (imit_run (imit0 g) ops) d = None.
Proof.
  intros g ops d H. destruct (imit_run_inv ops (imit0 g) 0 false eq_refl eq_refl) as [S K]. cbn [orb] in K. rewrite H in K.
  set (c := imit_run (imit0 g) ops) in *. clearbody c. unfold gost_imit_update. rewrite K. reflexivity.
Qed.
Print Assumptions C15_mac_needs_key_and_has_requested_size.
Example C15_example :
  let ops := [IInit Gost28147_TC26ParamSetZ; IUpdate (mdemo 5); ISetKey Gost28147_TC26ParamSetZ (RawKey kdemo 32%Z);
              IXof 9%Z; IXof 7%Z; IUpdate (mdemo 5)] in
  (match snd (imit_step (imit_run (imit0 ctx0) ops) IFinal) with Some t => length t | None => 0%nat end) = 7%nat /\ snd (imit_step (imit_run (imit0 ctx0) (firstn 2 ops)) IFinal) = None.
Proof. vm_compute. split; reflexivity. Qed.

(** ** C16 *)
(** Every history of init, control and update calls of the CFB, CBC and CNT ciphers on one context. *)
Inductive evp_call :=
| EInitParam (sb : subst_block) (k iv : option (list N)) (enc : bool)
| EInitCnt (sb : subst_block) (k iv : option (list N)) (enc : bool)
| EMesh (arg : N) | ESbox (sb : subst_block)
| ECfb (d : list N) | ECnt (d : list N) | ECbc (d : list N).
Definition evp_step (c : evp) (o : evp_call) : evp :=
  match o with
  | EInitParam sb k iv enc => gost_cipher_init_param sb c k iv enc
  | EInitCnt sb k iv enc => gost_cipher_init_cnt sb c k iv enc
  | EMesh n => snd (ctl_key_mesh c n)
  | ESbox sb => snd (ctl_set_sbox c sb)
  | ECfb d => fst (gost_cipher_do_cfb c d)
  | ECnt d => fst (gost_cipher_do_cnt c d)
  | ECbc d => fst (gost_cipher_do_cbc c d)
  end.
Definition count_ok (c : evp) : Prop := e_count c mod 8 = 0 /\ e_count c <= 1024 /\ e_abort c = false.
Lemma count_step n : n mod 8 = 0 -> (n mod 1024 + 8) mod 8 = 0 /\ n mod 1024 + 8 <= 1024.
Proof.
  intros H. assert (E : n = 8 * (n / 8)) by (rewrite (N.div_mod n 8) at 1 by discriminate; lia).
  set (q := n / 8) in *. clearbody q. subst n. change 1024 with (8 * 128). rewrite N.mul_mod_distr_l by discriminate.
  pose proof (N.mod_lt q 128 ltac:(discriminate)). set (r := q mod 128) in *. clearbody r. split; [|lia].
  replace (8 * r + 8) with ((r + 1) * 8) by lia. apply N.mod_mul. discriminate.
Qed.
Lemma mesh_count_ok c : count_ok c -> count_ok (gost_crypt_mesh c) /\ count_ok (gost_cnt_next c).
Proof.
  intros (H8 & Hl & Ha).
  assert (A : assert_count (e_count c) = true).
  { unfold assert_count. rewrite H8. cbn [N.eqb andb]. apply N.leb_le. exact Hl. }
  assert (M : e_count (mesh_head c) = e_count c /\ e_abort (mesh_head c) = false).
  { unfold mesh_head. set (c1 := with_abort c _). assert (X : e_count c1 = e_count c /\ e_abort c1 = false).
    { unfold c1. cbn [with_abort e_count e_abort]. rewrite A, Ha. split; reflexivity. }
    clearbody c1. destruct (mesh_due c1); [|exact X]. destruct (cryptopro_key_meshing (e_g c1) (e_iv c1)). exact X. }
  destruct M as [M1 M2]. destruct (count_step _ H8) as [S1 S2].
  change (gost_crypt_mesh c) with
    (let c := mesh_head c in
     let c := with_buf c (overwrite (e_buf c) 0 (gostcrypt (e_g c) (e_iv c))) in
     with_count c (e_count c mod 1024 + 8)).
  change (gost_cnt_next c) with
    (let c := mesh_head c in
     let buf1 := if e_count c =? 0 then gostcrypt (e_g c) (e_iv c) else e_iv c in
     let buf1 := cnt_advance buf1 in
     let c := with_iv c buf1 in
     let c := with_buf c (overwrite (e_buf c) 0 (gostcrypt (e_g c) buf1)) in
     with_count c (e_count c mod 1024 + 8)). cbv zeta.
  set (h := mesh_head c) in *. clearbody h.
  split; (split; [|split]); cbn [with_count with_buf with_iv e_count e_abort]; rewrite ?M1; auto.
Qed.
Lemma count_ok_iv c v : count_ok c -> count_ok (with_iv c v). Proof. exact (fun H => H). Qed.
Lemma count_ok_buf c v : count_ok c -> count_ok (with_buf c v). Proof. exact (fun H => H). Qed.
Lemma count_ok_num c v : count_ok c -> count_ok (with_num c v). Proof. exact (fun H => H). Qed.
Lemma cfb_blocks_count fuel : forall c d, count_ok c -> count_ok (fst (fst (cfb_blocks fuel c d))).
Proof.
  induction fuel as [|fuel IH]; intros c d H; cbn [cfb_blocks]; auto. destruct (8 <=? length d)%nat; auto.
  destruct (mesh_count_ok c H) as [H1 _]. set (c1 := gost_crypt_mesh c) in *. clearbody c1.
  assert (X : forall c2, count_ok c2 -> forall o, count_ok (fst (fst (let '(c, rest, out) := cfb_blocks fuel c2 (skipn 8 d) in (c, rest, o ++ out))))).
  { intros c2 H2 o. specialize (IH c2 (skipn 8 d) H2). destruct (cfb_blocks fuel c2 (skipn 8 d)) as [[? ?] ?]. exact IH. }
  apply X. destruct (e_enc c1) eqn:En.
  - rewrite En. apply count_ok_iv. exact H1.
  - cbn [with_iv e_enc]. rewrite En. apply count_ok_iv. exact H1.
Qed.
Lemma cnt_blocks_count fuel : forall c d, count_ok c -> count_ok (fst (fst (cnt_blocks fuel c d))).
Proof.
  induction fuel as [|fuel IH]; intros c d H; cbn [cnt_blocks]; auto. destruct (8 <=? length d)%nat; auto.
  destruct (mesh_count_ok c H) as [_ H1]. set (c1 := gost_cnt_next c) in *. clearbody c1.
  specialize (IH c1 (skipn 8 d) H1). destruct (cnt_blocks fuel c1 (skipn 8 d)) as [[? ?] ?]. exact IH.
Qed.
Definition cfb_rest1 (c : evp) (inp : list N) : evp * list N :=
  let c := if e_enc c then c else with_buf c (overwrite (e_buf c) 8 inp) in
  let o := xorl (firstn (length inp) (e_buf c)) inp in
  let c := with_num c (N.of_nat (length inp)) in
  let c := if e_enc c then with_buf c (overwrite (e_buf c) 8 o) else c in
  (c, o).
Lemma cfb_rest1_count c d : count_ok c -> count_ok (fst (cfb_rest1 c d)).
Proof.
  intros H. unfold cfb_rest1. cbv zeta. cbn [fst]. destruct (e_enc c) eqn:En.
  - cbn [with_num e_enc]. rewrite En. exact H.
  - cbn [with_num with_buf e_enc]. rewrite En. exact H.
Qed.
Lemma cfb_rest_count c d : count_ok c -> count_ok (fst (cfb_rest c d)).
Proof.
  intros X. destruct d as [|x t]; [exact X|]. destruct (mesh_count_ok c X) as [H1 _].
  change (cfb_rest c (x :: t)) with (cfb_rest1 (gost_crypt_mesh c) (x :: t)). apply cfb_rest1_count. exact H1.
Qed.
Lemma cnt_rest_count c d : count_ok c -> count_ok (fst (cnt_rest c d)).
Proof.
  intros X. destruct d as [|x t]; [exact X|]. destruct (mesh_count_ok c X) as [_ H1].
  rewrite cnt_rest_eq. cbn [fst]. apply count_ok_num. exact H1.
Qed.
Lemma cfb_main_count c d : count_ok c -> count_ok (fst (cfb_main c d)).
Proof.
  intros H. unfold cfb_main. pose proof (cfb_blocks_count (length d) c d H) as X.
  destruct (cfb_blocks (length d) c d) as [[c1 rest] o1]. cbn [fst] in X.
  pose proof (cfb_rest_count c1 rest X) as Y.
  destruct (cfb_rest c1 rest) as [c2 o2]. exact Y.
Qed.
Lemma cnt_main_count c d : count_ok c -> count_ok (fst (cnt_main c d)).
Proof.
  intros H. unfold cnt_main. pose proof (cnt_blocks_count (length d) c d H) as X.
  destruct (cnt_blocks (length d) c d) as [[c1 rest] o1]. cbn [fst] in X.
  pose proof (cnt_rest_count c1 rest X) as Y.
  destruct (cnt_rest c1 rest) as [c2 o2]. exact Y.
Qed.
Lemma evp_step_count c o : count_ok c -> count_ok (evp_step c o).
Proof.
  intros H. destruct o; cbn [evp_step].
  - unfold gost_cipher_init_param. cbn [with_enc e_app].
    destruct (e_app c), k, iv; cbn [init_iv]; (exact H || (destruct H as (_ & _ & Ha); split; [reflexivity|split; [cbn; lia|exact Ha]])).
  - unfold gost_cipher_init_cnt. destruct H as (_ & _ & Ha). destruct k, iv; (split; [reflexivity|split; [cbn; lia|exact Ha]]).
  - unfold ctl_key_mesh. destruct (negb (e_count c =? 0)); exact H.
  - unfold ctl_set_sbox. destruct (negb (e_count c =? 0)); [exact H|]. destruct H as (_ & _ & Ha). split; [reflexivity|split; [cbn; lia|exact Ha]].
  - unfold gost_cipher_do_cfb. destruct (e_num c =? 0); [apply cfb_main_count; exact H|].
    destruct (cfb_partial (e_enc c) (e_buf c) (N.to_nat (e_num c)) d) as [[[buf j] rest] o1].
    destruct (j =? 8)%nat; [|exact H].
    assert (X : count_ok (with_num (with_iv (with_buf c buf) (sub 8 8 buf)) 0)) by exact H.
    pose proof (cfb_main_count _ rest X) as Y. destruct (cfb_main _ rest). exact Y.
  - unfold gost_cipher_do_cnt. destruct (e_num c =? 0); [apply cnt_main_count; exact H|].
    destruct (ks_partial (e_buf c) 8 (N.to_nat (e_num c)) d) as [[j rest] o1].
    destruct (j =? 8)%nat; [|exact H].
    assert (X : count_ok (with_num c 0)) by exact H.
    pose proof (cnt_main_count _ rest X) as Y. destruct (cnt_main _ rest). exact Y.
  - unfold gost_cipher_do_cbc. destruct (if e_enc c then _ else _). exact H.
Qed.
(** The counter stays a multiple of 8 in 0..1024 and the assertions in gost_crypt_mesh and
    gost_cnt_next never fail, whatever the history. *)
Theorem C16_meshing_counter_invariant :
  forall g ops, let c := fold_left evp_step ops (fresh_evp g) in
    e_count c mod 8 = 0 /\ e_count c <= 1024 /\ e_abort c = false.
Proof.
  intros g ops. cbv zeta. change (count_ok (fold_left evp_step ops (fresh_evp g))).
  assert (X : forall c, count_ok c -> count_ok (fold_left evp_step ops c)).
  { induction ops as [|o ops IH]; intros c H; cbn [fold_left]; auto. apply IH. apply evp_step_count. exact H. }
  apply X. split; [reflexivity|split; [cbn; lia|reflexivity]].
Qed.
(** The key in the context after [m] bytes of CFB or CNT is key number
    (blocks started - 1) / 128 of the CryptoPro chain: it is replaced exactly before the first
    block after each 1024 bytes. *)
Lemma get_key_of g k : length k = 32%nat -> bytes k -> key_le g k -> gost_get_key g = k.
Proof.
  intros Hl Hb Hk. unfold gost_get_key. apply flat_map_words; auto.
  intros i Hi. fold (ekey g i). rewrite Hk. unfold keyword_le.
  apply Nat.ltb_lt in Hi as Hi'. rewrite Hi'. apply n2le_le2n. apply bytes_sub; auto. apply sub_length; lia.
Qed.
Lemma rfc5830_decrypt_length S k b : length (rfc5830_decrypt S k b) = 8%nat.
Proof. exact (rfc5830_block_length S dec_order k b). Qed.
Lemma mesh_key_length S mesh k j : length k = 32%nat -> length (mesh_key S mesh k j) = 32%nat.
Proof.
  intros H. induction j; cbn [mesh_key]; auto. destruct mesh; auto.
Qed.
Theorem C16_key_replaced_exactly_every_1024_bytes :
  forall sb g k iv enc mesh chunks,
    subst_ok sb -> rng_ok (g_rng g) -> bytes k -> length k = 32%nat -> length iv = 8%nat -> bytes iv ->
    let key_no := ((blocks_started 8 (length (concat chunks)) - 1) / 128)%nat in
    gost_get_key (e_g (fst (run gost_cipher_do_cfb (cfb_start sb g k iv enc mesh) chunks)))
      = mesh_key (sboxes_of sb) (negb (mesh =? 0)) k key_no /\
    gost_get_key (e_g (fst (run gost_cipher_do_cnt (cnt_start sb g k iv enc mesh) chunks)))
      = mesh_key (sboxes_of sb) (negb (mesh =? 0)) k key_no.
Proof.
  intros sb g k iv enc mesh chunks Hs Hr Hk Hl Hi Hy. cbv zeta. unfold run. split.
  - pose proof (cfb_start_rel sb g k iv enc mesh Hs Hr Hk Hi) as R.
    destruct (run_chunks_bytes _ _ _ _ _ gost_cipher_do_cfb enc (cfb_sim sb (negb (mesh =? 0)) k enc) chunks _ _ R) as [F _].
    pose proof (run_bytes_started (nat * list N) (cfb_next (sboxes_of sb) (negb (mesh =? 0)) k) cfb_absorb 8 fst enc ltac:(lia)
      (cfb_next_len _ _ _) ltac:(intros [? ?]; reflexivity) (fun s f => eq_refl) (concat chunks) (0%nat, iv)) as X.
    destruct (run_bytes _ _ _ enc ((0%nat, iv), nil, nil) (concat chunks)) as [[[s ks] fed] o]. cbn [fst] in *.
    destruct F as [B _]. destruct (b_kst _ _ _ _ _ _ B) as (_ & _ & K & _).
    rewrite X, Nat.add_0_l in K. apply get_key_of; [apply mesh_key_length; auto|apply mesh_key_bytes; auto|exact K].
  - pose proof (cnt_start_rel sb g k iv enc mesh Hs Hr Hk Hi Hy) as R.
    destruct (run_chunks_bytes _ _ _ _ _ gost_cipher_do_cnt true (cnt_sim sb (negb (mesh =? 0)) k enc) chunks _ _ R) as [F _].
    pose proof (run_bytes_started (nat * list N) (cnt_next (sboxes_of sb) (negb (mesh =? 0)) k) (fun s _ => s) 8 fst true ltac:(lia)
      (cnt_next_len _ _ _) ltac:(intros [? ?]; reflexivity) (fun s f => eq_refl) (concat chunks) (0%nat, iv)) as X.
    destruct (run_bytes _ _ _ true ((0%nat, iv), nil, nil) (concat chunks)) as [[[s ks] fed] o]. cbn [fst] in *.
    destruct F as [B _]. destruct (b_kst _ _ _ _ _ _ B) as (_ & _ & K & _).
    rewrite X, Nat.add_0_l in K. apply get_key_of; [apply mesh_key_length; auto|apply mesh_key_bytes; auto|exact K].
Qed.
Print Assumptions C16_key_replaced_exactly_every_1024_bytes.
(** The MAC: with [p] the number of 8-byte blocks processed so far (the last 1 to 8 bytes of the message
    wait in the context), the key is number (p - 1) / 128 of the chain, the counter is the number of
    bytes since the last replacement, a multiple of 8 not above 1024, and no assertion fires. *)
Theorem C16_mac_key_and_counter :
  forall sb c0 k size chunks,
    subst_ok sb -> bytes k -> length k = 32%nat -> rng_ok (g_rng (i_g c0)) -> i_abort c0 = false ->
    exists c p, imit_feed (imit_start sb c0 k size) chunks = Some c /\
      (8 * p <= length (concat chunks) <= 8 * p + 8)%nat /\
      gost_get_key (i_g c) = mesh_key (sboxes_of sb) true k ((p - 1) / 128) /\
      i_count c = N.of_nat (8 * (p - 128 * ((p - 1) / 128))) /\ i_count c <= 1024 /\ i_abort c = false.
Proof.
  intros sb c0 k size chunks Hs Hk Hl Hr Ha. destruct (imit_start_core sb c0 k size Hs Hk Hr Ha) as [C L].
  destruct (imit_feed_inv sb k chunks _ nil (core_inv sb k _ C L)) as (c1 & F & (done & pend & Em & Lp & Hc & _) & _). cbn [app] in Em.
  exists c1, (length done / 8)%nat. split; [exact F|]. pose proof (Nat.div_mod_eq (length done) 8) as D. rewrite (ic_mod _ _ _ _ Hc) in D.
  split; [rewrite Em, app_length; lia|]. destruct (ic_kst _ _ _ _ Hc) as (_ & _ & K & _).
  split; [apply get_key_of; [apply mesh_key_length; auto|apply mesh_key_bytes; auto|exact K]|].
  rewrite (ic_count _ _ _ _ Hc), (ic_abort _ _ _ _ Hc). unfold count_of. set (p := (length done / 8)%nat). clearbody p.
  pose proof (Nat.div_mod_eq (p - 1) 128) as E. pose proof (Nat.mod_upper_bound (p - 1) 128 ltac:(lia)) as B.
  destruct (Nat.eqb_spec p 0) as [->|NE]; [split; [reflexivity|split; [lia|reflexivity]]|].
  split; [f_equal; lia|split; [lia|reflexivity]].
Qed.
Print Assumptions C16_mac_key_and_counter.
Example C16_example :
  let c := cnt_start Gost28147_CryptoProParamSetA ctx0 kdemo ivdemo true 1 in
  (eqbl (gost_get_key (e_g (fst (gost_cipher_do_cnt c (mdemo 1024))))) kdemo,
   eqbl (gost_get_key (e_g (fst (gost_cipher_do_cnt c (mdemo 1025))))) kdemo,
   e_count (fst (gost_cipher_do_cnt c (mdemo 1024))), e_count (fst (gost_cipher_do_cnt c (mdemo 1025)))) = (true, false, 1024, 8).
Proof. vm_compute. reflexivity. Qed.

(** ** C36 (the arithmetic) *)
Theorem C36_iv_adjustment_is_addition :
  forall iv seq, length iv = length seq -> bytes iv -> bytes seq ->
    adjust_iv iv seq = n2be (length iv) (be2n iv + be2n seq).
Proof.
  assert (G : forall a b c, length a = length b -> bytes a -> bytes b -> c <= 1 ->
    add_le a b c = n2le (length a) (le2n a + le2n b + c)).
  { induction a as [|x a IH]; intros [|y b] c L Ha Hb Hc; try discriminate L; cbn [add_le length n2le le2n]; [reflexivity|].
    inversion Ha; inversion Hb; subst. unfold isbyte in *.
    rewrite IH; [|cbn [length] in L; lia|auto|auto|destruct (255 <? x + y + c); lia].
    assert (E : x + 256 * le2n a + (y + 256 * le2n b) + c = (x + y + c) + (le2n a + le2n b) * 256) by lia.
    rewrite E. f_equal.
    - change (N.land (x + y + c) 255) with (w8 (x + y + c)). rewrite !w8_mod. rewrite N.mod_add by discriminate. reflexivity.
    - f_equal. rewrite shiftr8, N.div_add by discriminate. destruct (N.ltb_spec 255 (x + y + c)) as [H|H].
      + replace ((x + y + c) / 256) with 1; [lia|]. apply N.div_unique with (x + y + c - 256); lia.
      + rewrite N.div_small by lia. lia. }
  intros iv seq L Hi Hs. unfold adjust_iv, n2be, be2n. f_equal.
  rewrite G by (rewrite ?rev_length; auto using bytes_rev; lia). rewrite rev_length. f_equal. lia.
Qed.
Theorem C36_sequence_decrement_is_exact :
  forall seq, bytes seq ->
    decrement_sequence seq 0 = Some seq /\
    decrement_sequence seq 1 = Some (n2be (length seq) (be2n seq + (256 ^ N.of_nat (length seq) - 1))) /\
    forall d, (d < 0 \/ 1 < d)%Z -> decrement_sequence seq d = None.
Proof.
  assert (G : forall l, bytes l -> dec_le l = n2le (length l) (le2n l + (256 ^ N.of_nat (length l) - 1))).
  { induction l as [|x l IH]; intros Hb; [reflexivity|]. inversion Hb; subst. unfold isbyte in *.
    cbn [dec_le length le2n]. rewrite Nat2N.inj_succ, N.pow_succ_r'.
    assert (P : 0 < 256 ^ N.of_nat (length l)) by (apply N.neq_0_lt_0, N.pow_nonzero; discriminate).
    set (W := 256 ^ N.of_nat (length l)) in *. cbn [n2le].
    destruct (N.eqb_spec x 0) as [->|Hx].
    - rewrite IH by auto.
      replace (0 + 256 * le2n l + (256 * W - 1)) with (255 + (le2n l + (W - 1)) * 256) by nia.
      rewrite w8_mod, shiftr8, N.mod_add, N.div_add by discriminate. reflexivity.
    - replace (x + 256 * le2n l + (256 * W - 1)) with ((x - 1) + (le2n l + W) * 256) by nia.
      rewrite w8_mod, shiftr8, N.mod_add, N.div_add by discriminate. rewrite N.mod_small, N.div_small by lia. f_equal.
      cbn [N.add]. rewrite <- n2le_mod. fold W. rewrite <- (N.mul_1_l W) at 1. rewrite N.mod_add by lia.
      unfold W. rewrite n2le_mod. symmetry. apply n2le_le2n; auto. }
  intros seq Hb. split; [reflexivity|]. split.
  - unfold decrement_sequence. cbn [Z.ltb Z.compare orb Z.eqb]. unfold n2be, be2n. f_equal. f_equal.
    rewrite G by auto using bytes_rev. rewrite rev_length. reflexivity.
  - intros d Hd. unfold decrement_sequence. replace ((d <? 0) || (1 <? d))%Z with true; [reflexivity|].
    symmetry. apply Bool.orb_true_iff. destruct Hd; [left|right]; apply Z.ltb_lt; auto.
Qed.
(** In words: a non-zero sequence number loses exactly one, zero wraps to the largest value. *)
Theorem C36_sequence_decrement_value :
  forall seq out, bytes seq -> length seq = 8%nat -> decrement_sequence seq 1 = Some out ->
    (be2n seq <> 0 -> be2n out = be2n seq - 1) /\ (be2n seq = 0 -> be2n out = 2 ^ 64 - 1).
Proof.
  intros seq out Hb Hl E. destruct (C36_sequence_decrement_is_exact seq Hb) as (_ & E1 & _). rewrite E1 in E.
  injection E as <-. rewrite be2n_n2be. pose proof (be2n_lt seq Hb) as L. rewrite Hl in *.
  change (256 ^ N.of_nat 8) with 18446744073709551616 in *. change (2 ^ 64) with 18446744073709551616. split; intros H.
  - replace (be2n seq + (18446744073709551616 - 1)) with (be2n seq - 1 + 1 * 18446744073709551616) by lia.
    rewrite N.mod_add by discriminate. apply N.mod_small. lia.
  - rewrite H. reflexivity.
Qed.
Print Assumptions C36_sequence_decrement_value.
Example C36_example :
  adjust_iv (hex "ff00ffff") (hex "01000001") = hex "00010000" /\ decrement_sequence (hex "0000000100000000") 1 = Some (hex "00000000ffffffff").
Proof. split; reflexivity. Qed.
