(** The Kuznyechik EVP modes simulate the byte machine of StreamMode. *)
From Verif Require Import Bytes BytesProofs StreamMode CryptModel CryptProofs MagmaProofs
  KuzTables KuzSpec KuzModel KuzProofs KuzBlockProofs KuzCipherModel KuzCipherSpec.
From Verif Require CryptSpec.
From Coq Require Import List Lia NArith.
Open Scope N_scope.

#[global] Opaque E_ D_ round_keys grasshopper_encrypt_block grasshopper_decrypt_block
  grasshopper_set_encrypt_key grasshopper_set_decrypt_key.

(** * Generic lemmas *)
(** [run_chunks_bytes] for inputs satisfying a predicate. *)
Lemma run_chunks_bytes_P S next absorb C (rel : C -> bst S -> Prop) (doit : C -> list N -> C * list N) (P : list N -> Prop) enc :
  (forall c st d, P d -> rel c st -> rel (fst (doit c d)) (fst (run_bytes S next absorb enc st d)) /\
     snd (doit c d) = snd (run_bytes S next absorb enc st d)) ->
  forall chunks c st, Forall P chunks -> rel c st ->
  rel (fst (run_chunks C doit c chunks)) (fst (run_bytes S next absorb enc st (concat chunks))) /\
  snd (run_chunks C doit c chunks) = snd (run_bytes S next absorb enc st (concat chunks)).
Proof.
  intros sim. induction chunks as [|d t IH]; intros c st F H; cbn [run_chunks concat].
  - cbn; auto.
  - apply Forall_cons_iff in F as [Pd F]. rewrite run_bytes_app. destruct (sim c st d Pd H) as [R E].
    destruct (doit c d) as [c1 o1]. destruct (run_bytes S next absorb enc st d) as [st1 o1']. cbn [fst snd] in *. subst o1'.
    destruct (IH c1 st1 F R) as [R2 E2]. destruct (run_chunks C doit c1 t). destruct (run_bytes S next absorb enc st1 (concat t)).
    cbn [fst snd] in *. subst; auto.
Qed.

(** A block loop whose step agrees with the byte machine on whole blocks. *)
Lemma block_loop_sim S next absorb C (base : C -> S -> Prop) step enc bs bound :
  (0 < bs)%nat -> (bs <= bound)%nat ->
  (forall c s b, base c s -> length b = bs -> bytes b ->
     exists s', run_bytes S next absorb enc (s, nil, nil) b = ((s', nil, nil), snd (step c b)) /\ base (fst (step c b)) s') ->
  forall fuel c s inp, (length inp <= fuel)%nat -> bytes inp -> base c s ->
  let '(c', rest, out) := block_loop step bs bound fuel c inp in
  exists pre s', inp = pre ++ rest /\ (length rest < bound)%nat /\
    run_bytes S next absorb enc (s, nil, nil) pre = ((s', nil, nil), out) /\ base c' s'.
Proof.
  intros Hb Hbd St. induction fuel as [|fuel IH]; intros c s inp Hf Hy B; cbn [block_loop].
  - exists nil, s. destruct inp; [|cbn in Hf; lia]. split; [auto|]. split; [cbn; lia|]. split; [reflexivity|exact B].
  - destruct (Nat.leb_spec bound (length inp)) as [Hl|Hl].
    2:{ exists nil, s. split; [auto|]. split; [lia|]. split; [reflexivity|exact B]. }
    set (blk := firstn bs inp). assert (Lb : length blk = bs) by (apply firstn_length_le; lia).
    assert (Bb : bytes blk) by (apply bytes_firstn; auto).
    destruct (St c s blk B Lb Bb) as (s1 & R1 & B1).
    destruct (step c blk) as [c1 o] eqn:Es. cbn [fst snd] in *.
    specialize (IH c1 s1 (skipn bs inp)). destruct (block_loop step bs bound fuel c1 (skipn bs inp)) as [[c2 rest] out].
    destruct IH as (pre & s2 & Ei & Lr & Er & B2); auto. { rewrite skipn_length; lia. } { apply bytes_skipn; auto. }
    exists (blk ++ pre), s2. split; [|split; [|split]]; auto.
    + rewrite <- app_assoc, <- Ei. symmetry; apply firstn_skipn.
    + rewrite run_bytes_app, R1, Er. reflexivity.
Qed.
(** One whole block. *)
Lemma run_block S next absorb enc s s1 ks b : next s = (s1, ks) -> (0 < length b)%nat -> length ks = length b ->
  run_bytes S next absorb enc (s, nil, nil) b = ((absorb s1 (pick enc b (xorl b ks)), nil, nil), xorl b ks).
Proof.
  intros En H L. rewrite (run_bytes_fresh S next absorb enc s b s1 ks En).
  - rewrite L, Nat.eqb_refl. reflexivity.
  - intro Z; rewrite Z in L; cbn in L; lia.
  - intro Z; rewrite Z in H; cbn in H; lia.
  - lia.
Qed.
Lemma run_part S next absorb enc s s1 ks b : next s = (s1, ks) -> (0 < length b < length ks)%nat ->
  run_bytes S next absorb enc (s, nil, nil) b = ((s1, skipn (length b) ks, pick enc b (xorl b ks)), xorl b ks).
Proof.
  intros En H. rewrite (run_bytes_fresh S next absorb enc s b s1 ks En).
  - replace (length b =? length ks)%nat with false by (symmetry; apply Nat.eqb_neq; lia). reflexivity.
  - intro Z; rewrite Z in H; cbn in H; lia.
  - intro Z; rewrite Z in H; cbn in H; lia.
  - lia.
Qed.
Lemma xorl_first_le (ks b : list N) n : (length b <= n)%nat -> xorl (firstn (length b) ks) b = xorl b (firstn n ks).
Proof.
  rewrite (xorl_comm b). revert ks n. induction b as [|x b IH]; intros ks n H.
  - destruct (firstn (length (@nil N)) ks), (firstn n ks); reflexivity.
  - destruct n as [|n]; [cbn in H; lia|]. destruct ks as [|y ks]; [reflexivity|]. cbn [length firstn xorl]. f_equal.
    apply IH. cbn in H; lia.
Qed.
Lemma bytes_overwrite d o s : bytes d -> bytes s -> bytes (overwrite d o s).
Proof.
  intros. unfold overwrite. apply bytes_app; [apply bytes_firstn; auto|]. apply bytes_app; auto. apply bytes_skipn; auto.
Qed.
Lemma bytes_set l i v : bytes l -> v < 256 -> bytes (set l i v).
Proof.
  intros H; revert i; induction H; intros i Hv; cbn [set]; [constructor|]. destruct i; constructor; auto. apply IHForall; auto.
Qed.

(** * Keys *)
Definition kok (k : list N) : Prop := length k = 32%nat /\ bytes k.
Definition dec_keys (k : list N) : list (list N) := firstn 1 (round_keys k) ++ map L' (skipn 1 (round_keys k)).
Definition kkst (k : list N) (c : kctx) : Prop := kok k /\ k_ek c = round_keys k /\ k_dk c = dec_keys k.
Lemma kkst_len k c : kkst k c -> length (k_ek c) = 10%nat /\ length (k_dk c) = 10%nat.
Proof.
  intros ([L B] & -> & ->). destruct (round_keys_blk k L B) as [L1 _]. split; [exact L1|].
  unfold dec_keys. rewrite app_length, map_length, firstn_length, skipn_length. lia.
Qed.
Lemma kkst_enc k c b : kkst k c -> blk16 b -> grasshopper_encrypt_block (k_ek c) b = E_ k b.
Proof.
  intros ([L B] & -> & _) Hb. destruct (round_keys_blk k L B) as [L1 F]. exact (encrypt_block_spec _ b L1 F Hb).
Qed.
Lemma kkst_dec k c b : kkst k c -> blk16 b -> grasshopper_decrypt_block (k_dk c) b = D_ k b.
Proof.
  intros ([L B] & _ & ->) Hb. destruct (round_keys_blk k L B) as [L1 F]. exact (decrypt_block_spec _ b L1 F Hb).
Qed.
Lemma sub_all (l : list N) n : length l = n -> sub 0 n l = l.
Proof. intros <-. unfold sub. cbn [skipn]. apply firstn_all. Qed.
Lemma kkst_key c k : length (k_ek c) = 10%nat -> length (k_dk c) = 10%nat -> kok k ->
  kkst k (gost_grasshopper_cipher_key c k).
Proof.
  intros L1 L2 [Lk Bk]. unfold gost_grasshopper_cipher_key. cbv zeta. rewrite sub_all by auto.
  split; [split; auto|]. cbn [kw_keys k_ek k_dk]. split; [apply set_encrypt_key_spec; auto|].
  apply set_decrypt_key_spec; auto.
Qed.
Definition acpkm_k (k : list N) : list N := concat (map (E_ k) (blocks 16 CryptSpec.acpkm_D)).
Lemma D_blocks : blocks 16 CryptSpec.acpkm_D = [sub 0 16 ACPKM_D_2018; sub 16 16 ACPKM_D_2018].
Proof. reflexivity. Qed.
Lemma D_part_blk : blk16 (sub 0 16 ACPKM_D_2018) /\ blk16 (sub 16 16 ACPKM_D_2018).
Proof. split; (split; [reflexivity|apply bytes_forallb; reflexivity]). Qed.
Lemma acpkm_k_ok k : kok k -> kok (acpkm_k k).
Proof.
  intros [L B]. unfold acpkm_k. rewrite D_blocks. cbn [map concat]. rewrite app_nil_r.
  destruct D_part_blk as [B1 B2].
  destruct (E_blk k _ L B B1) as [L1 Y1]. destruct (E_blk k _ L B B2) as [L2 Y2].
  split; [rewrite app_length, L1, L2; reflexivity|apply bytes_app; auto].
Qed.
Lemma kkst_acpkm k c : kkst k c -> kkst (acpkm_k k) (acpkm_next c).
Proof.
  intros H. destruct D_part_blk as [B1 B2].
  assert (E : acpkm_next c = gost_grasshopper_cipher_key c (acpkm_k k)).
  { unfold acpkm_next. f_equal. unfold acpkm_k. rewrite D_blocks. cbn [map concat]. rewrite app_nil_r.
    rewrite !(kkst_enc k) by auto. reflexivity. }
  rewrite E. destruct (kkst_len k c H). apply kkst_key; auto. apply acpkm_k_ok. apply H.
Qed.
Lemma acpkm_key_ok k j : kok k -> kok (CryptSpec.acpkm_key E_ 16 k j).
Proof. intros H. induction j; [exact H|]. exact (acpkm_k_ok _ IHj). Qed.

(** * OFB *)
Section OFB.
Variable k : list N.
Let nx := fun s : list N => (E_ k s, E_ k s).
Let run := run_bytes (list N) nx (fun s _ => s) true.
Definition base_ofb (c : kctx) (s : list N) : Prop :=
  kkst k c /\ k_iv c = s /\ blk16 s /\ length (k_buf c) = 32%nat.
Definition rel_ofb (c : kctx) (st : bst (list N)) : Prop :=
  let '(s, ks, fed) := st in
  base_ofb c s /\
  (((k_num c = 0 \/ k_num c = 16) /\ ks = nil /\ fed = nil) \/
   exists j, (0 < j < 16)%nat /\ k_num c = N.of_nat j /\ ks = skipn j (firstn 16 (k_buf c))).
Lemma base_ofb_num c s n : base_ofb c s -> base_ofb (kw_num c n) s.
Proof. exact (fun H => H). Qed.
Lemma cnt_next16_base c s : base_ofb c s -> base_ofb (cnt_next16 c) (E_ k s) /\ firstn 16 (k_buf (cnt_next16 c)) = E_ k s.
Proof.
  intros (K & I & B & L). unfold cnt_next16. cbv zeta. rewrite I. rewrite (kkst_enc k) by auto.
  assert (Bs : blk16 (E_ k s)) by (destruct K as ([? ?] & _); apply E_blk; auto).
  cbn [kw_iv kw_buf k_buf k_iv]. split.
  - split; [exact K|]. split; [reflexivity|]. split; [exact Bs|]. cbn [kw_iv kw_buf k_buf].
    rewrite overwrite_length; auto. destruct Bs as [-> _]. lia.
  - destruct Bs as [Ls _]. rewrite <- Ls at 1. apply overwrite_0_firstn.
Qed.
Lemma ofb_step_sim c s b : base_ofb c s -> length b = 16%nat -> bytes b ->
  exists s', run (s, nil, nil) b = ((s', nil, nil), snd (ofb_step c b)) /\ base_ofb (fst (ofb_step c b)) s'.
Proof.
  intros B Lb Bb. destruct (cnt_next16_base c s B) as [B1 F]. exists (E_ k s).
  unfold ofb_step. cbv zeta. cbn [fst snd]. split; [|exact B1].
  assert (Le : length (E_ k s) = 16%nat) by apply B1.
  unfold run. rewrite (run_block _ nx _ true s (E_ k s) (E_ k s) b eq_refl) by lia.
  rewrite F, xorl_comm. reflexivity.
Qed.
Lemma ofb_main_sim c s inp : bytes inp -> base_ofb c s ->
  rel_ofb (fst (ofb_main c inp)) (fst (run (s, nil, nil) inp)) /\ snd (ofb_main c inp) = snd (run (s, nil, nil) inp).
Proof.
  intros Hy B. unfold ofb_main.
  pose proof (block_loop_sim (list N) nx (fun s _ => s) kctx base_ofb ofb_step true 16 17 ltac:(lia) ltac:(lia) ofb_step_sim
    (length inp) c s inp (le_n _) Hy B) as P.
  destruct (block_loop ofb_step 16 17 (length inp) c inp) as [[c1 rest] o1].
  destruct P as (pre & s1 & -> & Lr & R & B1). unfold run in *. rewrite run_bytes_app, R. fold run.
  destruct rest as [|x t].
  - cbn [run_bytes fst snd]. unfold run. cbn [run_bytes fst snd]. rewrite app_nil_r. split; [|reflexivity]. split; [exact B1|left; auto].
  - set (r := x :: t) in *. assert (Hr : (0 < length r)%nat) by (cbn; lia). clearbody r.
    destruct (cnt_next16_base c1 s1 B1) as [B2 F2]. assert (Le : length (E_ k s1) = 16%nat) by apply B2.
    rewrite (xorl_first_le _ r 16) by lia. rewrite F2. cbn [fst snd].
    destruct (Nat.eq_dec (length r) 16) as [E|E].
    + unfold run. rewrite (run_block _ nx _ true s1 (E_ k s1) (E_ k s1) r eq_refl) by lia. cbn [fst snd].
      split; [|reflexivity]. split; [exact B2|]. left. rewrite E. cbn [kw_num k_num]. auto.
    + unfold run. rewrite (run_part _ nx _ true s1 (E_ k s1) (E_ k s1) r eq_refl) by lia. cbn [fst snd].
      split; [|reflexivity]. split; [exact B2|]. right. exists (length r). split; [lia|]. split; [reflexivity|].
      cbn [kw_num k_buf]. rewrite F2. reflexivity.
Qed.
Lemma ofb_sim c st d : bytes d -> rel_ofb c st ->
  rel_ofb (fst (do_ofb c d)) (fst (run st d)) /\ snd (do_ofb c d) = snd (run st d).
Proof.
  intros Hy. destruct st as [[s ks] fed]. intros [B [(Hn & -> & ->)|(j & Hj & Hn & ->)]]; unfold do_ofb.
  - destruct Hn as [->| ->]; cbn [N.eqb].
    + apply ofb_main_sim; auto.
    + change (16 =? 0) with false. cbn match. change (N.to_nat 16) with 16%nat.
      assert (P : ks_partial (k_buf c) 16 16 d = (16%nat, d, nil)) by (destruct d; reflexivity).
      rewrite P. cbn [Nat.eqb]. destruct (ofb_main_sim (kw_num c 0) s d Hy B) as [R O].
      destruct (ofb_main (kw_num c 0) d). cbn [fst snd app] in *. auto.
  - rewrite Hn. replace (N.of_nat j =? 0) with false by (symmetry; apply N.eqb_neq; lia). rewrite Nat2N.id.
    assert (L : length (k_buf c) = 32%nat) by apply B.
    pose proof (ks_partial_run nx (k_buf c) 16 d ltac:(lia) j Hj s fed) as P.
    destruct (ks_partial (k_buf c) 16 j d) as [[j' rest] o1]. destruct P as (pre & fed' & Ed & Ej & J8 & Jr & R).
    destruct (Nat.eqb_spec j' 16) as [E8|E8].
    + subst d. unfold run in *. rewrite run_bytes_app, R. fold run. apply bytes_app_inv in Hy as [_ Hy].
      destruct (ofb_main_sim (kw_num c 0) s rest Hy B) as [R2 O2].
      destruct (ofb_main (kw_num c 0) rest) as [c3 o2]. destruct (run (s, nil, nil) rest) as [st3 o3].
      cbn [fst snd] in *. subst; auto.
    + rewrite Jr in Ed by lia. rewrite app_nil_r in Ed. subst pre. unfold run in *. rewrite R. cbn [fst snd]. split; auto.
      split; [exact B|]. right. exists j'. split; [lia|]. split; reflexivity.
Qed.
End OFB.

(** * CFB *)
Section CFB.
Variables (k : list N) (enc : bool).
Let nx := fun s : list N => (s, E_ k s).
Let ab := fun (_ : list N) (fed : list N) => fed.
Let run := run_bytes (list N) nx ab enc.
Definition base_cfb (c : kctx) (s : list N) : Prop :=
  kkst k c /\ k_iv c = s /\ blk16 s /\ length (k_buf c) = 32%nat /\ bytes (k_buf c) /\ k_enc c = enc.
Definition rel_cfb16 (c : kctx) (st : bst (list N)) : Prop :=
  let '(s, ks, fed) := st in
  (base_cfb c s /\ k_num c = 0 /\ ks = nil /\ fed = nil) \/
  (exists s0, base_cfb c s0 /\ k_num c = 16 /\ s = sub 16 16 (k_buf c) /\ ks = nil /\ fed = nil) \/
  (base_cfb c s /\ exists j, (0 < j < 16)%nat /\ k_num c = N.of_nat j /\ ks = skipn j (firstn 16 (k_buf c)) /\
     fed = firstn j (skipn 16 (k_buf c))).
Lemma base_cfb_num c s n : base_cfb c s -> base_cfb (kw_num c n) s.
Proof. exact (fun H => H). Qed.
Lemma base_cfb_iv c s s' : base_cfb c s -> blk16 s' -> base_cfb (kw_iv c s') s'.
Proof. intros (K & I & B & L & Y & E) H. repeat (split; [assumption || reflexivity|]). assumption. Qed.
Lemma base_cfb_buf c s b : base_cfb c s -> length b = 32%nat -> bytes b -> base_cfb (kw_buf c b) s.
Proof. intros (K & I & B & L & Y & E) H1 H2. repeat (split; [assumption || reflexivity|]). assumption. Qed.
Lemma cfb_ks c s : base_cfb c s ->
  let c1 := kw_buf c (overwrite (k_buf c) 0 (grasshopper_encrypt_block (k_ek c) (k_iv c))) in
  base_cfb c1 s /\ firstn 16 (k_buf c1) = E_ k s.
Proof.
  intros B. cbv zeta. pose proof B as (K & I & Bs & L & Y & E). rewrite I, (kkst_enc k) by auto.
  assert (Be : blk16 (E_ k s)) by (destruct K as ([? ?] & _); apply E_blk; auto). destruct Be as [Le Ye]. split.
  - apply base_cfb_buf; auto. rewrite overwrite_length; lia. apply bytes_overwrite; auto.
  - cbn [kw_buf k_buf]. rewrite <- Le at 1. apply overwrite_0_firstn.
Qed.
Lemma cfb_step_sim c s b : base_cfb c s -> length b = 16%nat -> bytes b ->
  exists s', run (s, nil, nil) b = ((s', nil, nil), snd (cfb_step c b)) /\ base_cfb (fst (cfb_step c b)) s'.
Proof.
  intros B Lb Bb. pose proof (cfb_ks c s B) as Q. cbv zeta in Q. unfold cfb_step. cbv zeta.
  set (c1 := kw_buf c _) in *. clearbody c1. destruct Q as [B1 F].
  assert (Be : blk16 (E_ k s)) by (destruct B as (([? ?] & _) & _ & ? & _); apply E_blk; auto).
  assert (Ec : k_enc c1 = enc) by apply B1.
  assert (Bo : blk16 (xorl b (E_ k s))) by (apply xor_blk; [split; auto|auto]).
  destruct Be as [Le Ye].
  exists (pick enc b (xorl b (E_ k s))). unfold run.
  rewrite (run_block _ nx ab enc s s (E_ k s) b eq_refl) by lia. rewrite Ec. unfold ab.
  destruct enc eqn:Q; cbn [fst snd pick]; rewrite ?Ec; cbn match; cbn [kw_iv k_enc k_buf fst snd]; rewrite ?Ec, F, (xorl_comm (E_ k s)).
  - split; [reflexivity|]. rewrite <- Q in *. eapply base_cfb_iv; eauto.
  - split; [reflexivity|]. cbn match. cbn [fst]. rewrite <- Q in *. eapply base_cfb_iv; eauto. split; auto.
Qed.
Definition cfb_fill (c1 : kctx) (r : list N) : kctx * list N :=
  let c := if k_enc c1 then c1 else kw_buf c1 (overwrite (k_buf c1) 16 r) in
  let o := xorl (firstn (length r) (k_buf c)) r in
  let c := kw_num c (N.of_nat (length r)) in
  (if k_enc c then kw_buf c (overwrite (k_buf c) 16 o) else c, o).
Lemma cfb_last_eq c rest : rest <> nil -> cfb_last c rest =
  cfb_fill (kw_buf c (overwrite (k_buf c) 0 (grasshopper_encrypt_block (k_ek c) (k_iv c)))) rest.
Proof. intros H. destruct rest; [contradiction|]. reflexivity. Qed.
Lemma cfb_fill_eq c1 r ks : k_enc c1 = enc -> length (k_buf c1) = 32%nat -> firstn 16 (k_buf c1) = ks ->
  (length r <= 16)%nat ->
  cfb_fill c1 r = (kw_num (kw_buf c1 (overwrite (k_buf c1) 16 (pick enc r (xorl r ks)))) (N.of_nat (length r)), xorl r ks).
Proof.
  intros Ec Lb F Lr. unfold cfb_fill. cbv zeta. rewrite Ec. destruct enc eqn:Q.
  - cbn [kw_num k_enc k_buf]. rewrite Ec. rewrite (xorl_first_le _ r 16) by lia. rewrite F. reflexivity.
  - cbn [kw_num kw_buf k_enc k_buf pick]. rewrite Ec. rewrite (xorl_first_le _ r 16) by lia.
    replace (firstn 16 (overwrite (k_buf c1) 16 r)) with (firstn 16 (k_buf c1)). rewrite F. reflexivity.
    unfold overwrite. rewrite firstn_app_exact by (rewrite firstn_length; lia). reflexivity.
Qed.
Lemma cfb_fill_sim c1 s r ks : bytes r -> base_cfb c1 s -> firstn 16 (k_buf c1) = ks -> nx s = (s, ks) ->
  length ks = 16%nat -> bytes ks -> (0 < length r <= 16)%nat ->
  rel_cfb16 (fst (cfb_fill c1 r)) (fst (run (s, nil, nil) r)) /\ snd (cfb_fill c1 r) = snd (run (s, nil, nil) r).
Proof.
  intros Hy B1 F En Le Ye Hr. clearbody nx.
  assert (Ec : k_enc c1 = enc) by apply B1. assert (Lb : length (k_buf c1) = 32%nat) by apply B1.
  assert (Yb : bytes (k_buf c1)) by apply B1.
  rewrite (cfb_fill_eq c1 r ks) by (auto; lia).
  set (o := xorl r ks). assert (Lo : length o = length r) by (unfold o; rewrite xorl_length; lia).
  assert (Yo : bytes o) by (apply xorl_bytes; auto).
  set (v := pick enc r o). assert (Lv : length v = length r) by (unfold v; destruct enc; auto).
  assert (Yv : bytes v) by (unfold v; destruct enc; auto).
  assert (B2 : base_cfb (kw_num (kw_buf c1 (overwrite (k_buf c1) 16 v)) (N.of_nat (length r))) s).
  { apply base_cfb_num. apply base_cfb_buf; auto. rewrite overwrite_length; lia. apply bytes_overwrite; auto. }
  assert (F2 : firstn 16 (overwrite (k_buf c1) 16 v) = ks).
  { unfold overwrite. rewrite firstn_app_exact by (rewrite firstn_length; lia). exact F. }
  assert (G2 : firstn (length r) (skipn 16 (overwrite (k_buf c1) 16 v)) = v).
  { unfold overwrite. rewrite skipn_app_exact by (rewrite firstn_length; lia). apply firstn_app_exact; auto. }
  cbn [fst snd].
  destruct (Nat.eq_dec (length r) 16) as [E|E].
  - unfold run. rewrite (run_block _ nx ab enc s s ks r En) by lia. cbn [fst snd].
    split; [|reflexivity]. right; left. exists s. split; [exact B2|]. split; [cbn [kw_num k_num]; rewrite E; reflexivity|].
    split; [|auto]. unfold ab, sub. cbn [kw_num kw_buf k_buf]. rewrite <- E at 1. symmetry. exact G2.
  - unfold run. rewrite (run_part _ nx ab enc s s ks r En) by lia. cbn [fst snd].
    split; [|reflexivity]. right; right. split; [exact B2|]. exists (length r). split; [lia|]. split; [reflexivity|].
    cbn [kw_num kw_buf k_buf]. rewrite F2, G2. split; reflexivity.
Qed.
Lemma cfb_last_sim c s rest : bytes rest -> base_cfb c s -> (length rest < 17)%nat ->
  rel_cfb16 (fst (cfb_last c rest)) (fst (run (s, nil, nil) rest)) /\ snd (cfb_last c rest) = snd (run (s, nil, nil) rest).
Proof.
  intros Hy B Hl. destruct rest as [|x t].
  { cbn. split; [|reflexivity]. left. auto. }
  rewrite cfb_last_eq by discriminate.
  destruct (cfb_ks c s B) as [B1 F].
  assert (Be : blk16 (E_ k s)) by (destruct B as (([? ?] & _) & _ & ? & _); apply E_blk; auto). destruct Be as [Le Ye].
  exact (cfb_fill_sim _ s (x :: t) (E_ k s) Hy B1 F eq_refl Le Ye ltac:(cbn [length] in *; lia)).
Qed.
Lemma cfb_main16_sim c s inp : bytes inp -> base_cfb c s ->
  rel_cfb16 (fst (cfb_main16 c inp)) (fst (run (s, nil, nil) inp)) /\ snd (cfb_main16 c inp) = snd (run (s, nil, nil) inp).
Proof.
  intros Hy B. unfold cfb_main16.
  pose proof (block_loop_sim (list N) nx ab kctx base_cfb cfb_step enc 16 17 ltac:(lia) ltac:(lia) cfb_step_sim
    (length inp) c s inp (le_n _) Hy B) as P.
  destruct (block_loop cfb_step 16 17 (length inp) c inp) as [[c1 rest] o1].
  destruct P as (pre & s1 & -> & Lr & R & B1). unfold run in *. rewrite run_bytes_app, R. fold run.
  apply bytes_app_inv in Hy as [_ Hy].
  destruct (cfb_last_sim c1 s1 rest Hy B1 Lr) as [R2 O2].
  destruct (cfb_last c1 rest). destruct (run (s1, nil, nil) rest). cbn [fst snd] in *. subst; auto.
Qed.
Lemma cfb_partial16_run inp : forall buf j, bytes inp -> bytes buf -> length buf = 32%nat -> (0 < j < 16)%nat -> forall s,
  let '(buf', j', rest, out) := cfb_partial16 enc buf j inp in
  exists pre, inp = pre ++ rest /\ length buf' = 32%nat /\ bytes buf' /\ j' = (j + length pre)%nat /\
    (j' <= 16)%nat /\ (j' < 16 -> rest = nil)%nat /\
    run (s, skipn j (firstn 16 buf), firstn j (skipn 16 buf)) pre =
      ((if (j' =? 16)%nat then (sub 16 16 buf', nil, nil)
        else (s, skipn j' (firstn 16 buf'), firstn j' (skipn 16 buf'))), out).
Proof.
  induction inp as [|x inp IH]; intros buf j Hy Yb Hl Hj s; cbn [cfb_partial16].
  - exists nil. rewrite Nat.add_0_r. replace (j =? 16)%nat with false by (symmetry; apply Nat.eqb_neq; lia).
    repeat split; auto; lia.
  - apply Forall_cons_iff in Hy as [Hx Hy]. destruct (Nat.ltb_spec j 16) as [H8|H8]; [|lia].
    set (o := N.lxor (nth j (if enc then buf else set buf (j + 16) x) 0) x).
    assert (Eo : o = N.lxor x (nth j buf 0)).
    { unfold o. rewrite N.lxor_comm. f_equal. destruct enc; auto. apply set_nth_other. lia. }
    set (buf2 := if enc then set (if enc then buf else set buf (j + 16) x) (j + 16) o
                 else (if enc then buf else set buf (j + 16) x)).
    assert (E2 : buf2 = set buf (j + 16) (pick enc x o)) by (unfold buf2; destruct enc; reflexivity).
    assert (L2 : length buf2 = 32%nat) by (rewrite E2, set_length; auto).
    assert (Yo : pick enc x o < 256).
    { destruct enc; cbn [pick]; [|exact Hx]. rewrite Eo.
      pose proof (xorl_bytes [x] [nth j buf 0]) as Z. cbn [xorl] in Z.
      assert (Z1 : bytes [N.lxor x (nth j buf 0)]) by (apply Z; constructor; auto; apply bytes_nth; auto).
      inversion Z1; auto. }
    assert (Y2 : bytes buf2) by (rewrite E2; apply bytes_set; auto).
    assert (F2 : firstn 16 buf2 = firstn 16 buf) by (rewrite E2; apply set_firstn_ge; lia).
    assert (G2 : firstn (S j) (skipn 16 buf2) = firstn j (skipn 16 buf) ++ [pick enc x o]).
    { rewrite E2, Nat.add_comm, skipn_set. apply firstn_succ_set. rewrite skipn_length. lia. }
    assert (Ks : skipn j (firstn 16 buf) = nth j buf 0 :: skipn (S j) (firstn 16 buf)).
    { rewrite skipn_cons_nth by (rewrite firstn_length; lia). rewrite nth_firstn_lt by lia. reflexivity. }
    clearbody buf2.
    destruct (Nat.eq_dec j 15) as [->|H7].
    + assert (Stop : cfb_partial16 enc buf2 16 inp = (buf2, 16%nat, inp, nil)) by (destruct inp; reflexivity).
      rewrite Stop. exists [x]. split; [reflexivity|]. split; [auto|]. split; [auto|]. split; [reflexivity|].
      split; [lia|]. split; [lia|]. unfold run. cbn [run_bytes]. unfold byte_step. rewrite Ks. cbn [hd tl].
      rewrite skipn_all2 by (rewrite firstn_length; lia). cbn [Nat.eqb]. rewrite <- Eo.
      unfold sub. rewrite G2. reflexivity.
    + specialize (IH buf2 (S j) Hy Y2 L2 ltac:(lia) s).
      destruct (cfb_partial16 enc buf2 (S j) inp) as [[[b' j'] rest] out].
      destruct IH as (pre & E & Lb & Yb' & Ej & J8 & Jr & R). exists (x :: pre).
      split; [cbn; congruence|]. split; [auto|]. split; [auto|]. split; [cbn [length]; lia|]. split; [auto|]. split; [auto|].
      unfold run in *. cbn [run_bytes]. unfold byte_step at 1. rewrite Ks. cbn [hd tl].
      rewrite F2, G2 in R.
      destruct (skipn (S j) (firstn 16 buf)) as [|y l] eqn:Sk.
      { assert (length (skipn (S j) (firstn 16 buf)) = 0%nat) by (rewrite Sk; reflexivity).
        rewrite skipn_length, firstn_length in H. lia. }
      rewrite <- Eo. rewrite R. reflexivity.
Qed.
Lemma sub16_blk b : length b = 32%nat -> bytes b -> blk16 (sub 16 16 b).
Proof. intros L B. split; [apply sub_length; lia|apply bytes_sub; auto]. Qed.
Lemma cfb_sim16 c st d : bytes d -> rel_cfb16 c st ->
  rel_cfb16 (fst (do_cfb c d)) (fst (run st d)) /\ snd (do_cfb c d) = snd (run st d).
Proof.
  intros Hy. destruct st as [[s ks] fed].
  intros [(B & Hn & -> & ->)|[(s0 & B & Hn & -> & -> & ->)|(B & j & Hj & Hn & -> & ->)]]; unfold do_cfb.
  - rewrite Hn. cbn [N.eqb]. apply cfb_main16_sim; auto.
  - rewrite Hn. change (16 =? 0) with false. cbn match. change (N.to_nat 16) with 16%nat.
    assert (P : cfb_partial16 (k_enc c) (k_buf c) 16 d = (k_buf c, 16%nat, d, nil)) by (destruct d; reflexivity).
    rewrite P. cbn [Nat.eqb]. cbv zeta.
    set (c2 := kw_num (kw_iv (kw_buf c (k_buf c)) (sub 16 16 (k_buf c))) 0).
    assert (B2 : base_cfb c2 (sub 16 16 (k_buf c))).
    { apply base_cfb_num. apply base_cfb_iv with (s := s0). destruct c; exact B. apply sub16_blk; apply B. }
    destruct (cfb_main16_sim c2 _ d Hy B2) as [R O]. destruct (cfb_main16 c2 d). cbn [fst snd app] in *. auto.
  - rewrite Hn. replace (N.of_nat j =? 0) with false by (symmetry; apply N.eqb_neq; lia). rewrite Nat2N.id.
    pose proof B as (_ & _ & _ & L & Y & Ec). rewrite Ec.
    pose proof (cfb_partial16_run d (k_buf c) j Hy Y L Hj s) as P.
    destruct (cfb_partial16 enc (k_buf c) j d) as [[[buf' j'] rest] o1].
    destruct P as (pre & Ed & Lb & Yb & Ej & J8 & Jr & R). cbv zeta.
    destruct (Nat.eqb_spec j' 16) as [E8|E8].
    + subst d. unfold run in *. rewrite run_bytes_app, R. fold run. apply bytes_app_inv in Hy as [_ Hy].
      set (c2 := kw_num (kw_iv (kw_buf c buf') (sub 16 16 buf')) 0).
      assert (B2 : base_cfb c2 (sub 16 16 buf')).
      { apply base_cfb_num. apply base_cfb_iv with (s := s). apply base_cfb_buf; auto. apply sub16_blk; auto. }
      destruct (cfb_main16_sim c2 _ rest Hy B2) as [R2 O2].
      destruct (cfb_main16 c2 rest) as [c3 o2]. destruct (run (sub 16 16 buf', nil, nil) rest) as [st3 o3].
      cbn [fst snd] in *. subst; auto.
    + rewrite Jr in Ed by lia. rewrite app_nil_r in Ed. subst pre. unfold run in *. rewrite R. cbn [fst snd]. split; auto.
      right; right. split. { apply base_cfb_num. apply base_cfb_buf; auto. }
      exists j'. cbn [kw_num kw_buf k_num k_buf]. repeat split; auto; lia.
Qed.
End CFB.

(** * CTR *)
Lemma n2be16_blk x : blk16 (n2be 16 x).
Proof. split; [apply n2be_length|apply n2be_bytes]. Qed.
Section CTR.
Variables (k : list N) (ctr0 : N).
Let nx := CryptSpec.ctr_next E_ 16 (CryptSpec.section_no 16 0) k ctr0.
Let run := run_bytes nat nx (fun s _ => s) true.
Definition base_ctr (c : kctx) (i : nat) : Prop :=
  kkst k c /\ k_iv c = n2be 16 (ctr0 + N.of_nat i) /\ length (k_part c) = 16%nat.
Definition base_ctr0 (c : kctx) (i : nat) : Prop := base_ctr c i /\ k_num c = 0.
Definition rel_ctr16 (c : kctx) (st : bst nat) : Prop :=
  let '(i, ks, fed) := st in
  base_ctr c i /\
  ((k_num c = 0 /\ ks = nil /\ fed = nil) \/
   exists j, (0 < j < 16)%nat /\ k_num c = N.of_nat j /\ ks = skipn j (k_part c)).
Lemma ctr_nx i : nx i = (S i, E_ k (n2be 16 (ctr0 + N.of_nat i))).
Proof. reflexivity. Qed.
Lemma ctr_block16_base c i : base_ctr c i ->
  base_ctr (ctr_block16 c) (S i) /\ k_part (ctr_block16 c) = snd (nx i) /\ k_num (ctr_block16 c) = k_num c.
Proof.
  intros (K & I & L). unfold ctr_block16. cbv zeta. cbn [kw_part kw_iv k_iv k_part k_num].
  rewrite I, (kkst_enc k) by (auto; apply n2be16_blk). rewrite ctr_nx. cbn [snd].
  split; [|split; reflexivity]. split; [exact K|]. cbn [kw_part kw_iv k_iv k_part].
  split; [rewrite inc_counter_n2be; f_equal; lia|].
  destruct K as ([? ?] & _). apply E_blk; auto. apply n2be16_blk.
Qed.
Lemma ctr_ks_len i : kok k -> length (snd (nx i)) = 16%nat.
Proof. intros [L B]. rewrite ctr_nx. apply E_blk; auto. apply n2be16_blk. Qed.
Lemma ctr_step_sim c i b : base_ctr0 c i -> length b = 16%nat -> bytes b ->
  exists i', run (i, nil, nil) b = ((i', nil, nil), snd (ctr_step c b)) /\ base_ctr0 (fst (ctr_step c b)) i'.
Proof.
  intros [B Hn] Lb Bb. destruct (ctr_block16_base c i B) as (B1 & F & N1). exists (S i).
  assert (Lk : length (snd (nx i)) = 16%nat) by (apply ctr_ks_len; apply B).
  unfold ctr_step. cbv zeta. set (c1 := ctr_block16 c) in *. clearbody c1. cbn [fst snd].
  split; [|split; [exact B1|rewrite N1; exact Hn]].
  unfold run. rewrite (run_block _ nx _ true i (S i) (snd (nx i)) b) by (lia || reflexivity).
  rewrite F, xorl_comm. reflexivity.
Qed.
Lemma ctr_partial16_run part inp : length part = 16%nat -> forall j, (0 < j < 16)%nat -> forall i fed,
  let '(j', rest, out) := ctr_partial16 part j inp in
  exists pre fed', inp = pre ++ rest /\ (j' < 16)%nat /\ (j' <> 0 -> rest = nil)%nat /\
    run (i, skipn j part, fed) pre =
      ((if (j' =? 0)%nat then (i, nil, nil) else (i, skipn j' part, fed')), out).
Proof.
  intros Lp. induction inp as [|x inp IH]; intros j Hj i fed; cbn [ctr_partial16].
  - exists nil, fed. replace (j =? 0)%nat with false by (symmetry; apply Nat.eqb_neq; lia).
    repeat split; auto; lia.
  - replace (j =? 0)%nat with false by (symmetry; apply Nat.eqb_neq; lia).
    assert (Ks : skipn j part = nth j part 0 :: skipn (S j) part) by (apply skipn_cons_nth; lia).
    destruct (Nat.eq_dec j 15) as [->|H7].
    + change (Nat.modulo (15 + 1) 16) with 0%nat.
      assert (Stop : ctr_partial16 part 0 inp = (0%nat, inp, nil)) by (destruct inp; reflexivity).
      rewrite Stop. exists [x], nil. split; [reflexivity|]. split; [lia|]. split; [lia|].
      unfold run. cbn [run_bytes]. unfold byte_step. rewrite Ks. cbn [hd tl].
      rewrite skipn_all2 by lia. reflexivity.
    + rewrite Nat.mod_small by lia. rewrite Nat.add_1_r.
      specialize (IH (S j) ltac:(lia) i (fed ++ [N.lxor x (nth j part 0)])).
      destruct (ctr_partial16 part (S j) inp) as [[j' rest] out].
      destruct IH as (pre & fed' & Ei & Ej & Jr & R). exists (x :: pre), fed'.
      split; [cbn; congruence|]. split; [auto|]. split; [auto|].
      unfold run in *. cbn [run_bytes]. unfold byte_step at 1. rewrite Ks. cbn [hd tl].
      destruct (skipn (S j) part) as [|y l] eqn:Sk.
      { assert (length (skipn (S j) part) = 0%nat) by (rewrite Sk; reflexivity). rewrite skipn_length in H. lia. }
      cbn [pick]. rewrite R. reflexivity.
Qed.
Definition ctr_fin (c : kctx) (rest : list N) : kctx * list N :=
  match rest with
  | nil => (c, nil)
  | _ => let c := ctr_block16 c in
         (kw_num c (N.of_nat (length rest)), xorl (firstn (length rest) (k_part c)) rest)
  end.
Definition ctr_rest (c : kctx) (inp : list N) : kctx * list N :=
  let '(c, rest, o2) := block_loop ctr_step 16 16 (length inp) c inp in
  let (c, o3) := ctr_fin c rest in (c, o2 ++ o3).
Lemma do_ctr16_eq c inp : do_ctr c inp =
  (let '(n, inp, o1) := ctr_partial16 (k_part c) (N.to_nat (k_num c)) inp in
   let (c, o) := ctr_rest (kw_num c (N.of_nat n)) inp in (c, o1 ++ o)).
Proof.
  unfold do_ctr, ctr_rest. destruct (ctr_partial16 (k_part c) (N.to_nat (k_num c)) inp) as [[n inp1] o1]. cbv zeta.
  destruct (block_loop ctr_step 16 16 (length inp1) (kw_num c (N.of_nat n)) inp1) as [[c2 rest] o2].
  destruct rest; unfold ctr_fin; cbv zeta; rewrite ?app_nil_r; reflexivity.
Qed.
Lemma ctr_fin_sim c i rest : (length rest < 16)%nat -> base_ctr0 c i ->
  rel_ctr16 (fst (ctr_fin c rest)) (fst (run (i, nil, nil) rest)) /\ snd (ctr_fin c rest) = snd (run (i, nil, nil) rest).
Proof.
  intros Hl [B Hn]. destruct rest as [|x t].
  { cbn. split; [|reflexivity]. split; [exact B|left; auto]. }
  destruct (ctr_block16_base c i B) as (B1 & F & N1). unfold ctr_fin. cbv zeta.
  assert (Lk : length (snd (nx i)) = 16%nat) by (apply ctr_ks_len; apply B).
  set (c1 := ctr_block16 c) in *. clearbody c1. set (r := x :: t) in *.
  assert (Hr : (0 < length r)%nat) by (cbn; lia). clearbody r.
  unfold run. rewrite (run_part _ nx _ true i (S i) (snd (nx i)) r) by (lia || reflexivity). cbn [fst snd].
  rewrite (xorl_first_le _ r 16) by lia. rewrite F. rewrite firstn_all2 by lia. split; [|reflexivity].
  split; [exact B1|]. right. exists (length r). split; [lia|]. cbn [kw_num k_num k_part]. rewrite F. auto.
Qed.
Lemma ctr_rest_sim c i inp : bytes inp -> base_ctr0 c i ->
  rel_ctr16 (fst (ctr_rest c inp)) (fst (run (i, nil, nil) inp)) /\ snd (ctr_rest c inp) = snd (run (i, nil, nil) inp).
Proof.
  intros Hy B. unfold ctr_rest.
  pose proof (block_loop_sim nat nx (fun s _ => s) kctx base_ctr0 ctr_step true 16 16 ltac:(lia) ltac:(lia) ctr_step_sim
    (length inp) c i inp (le_n _) Hy B) as P.
  destruct (block_loop ctr_step 16 16 (length inp) c inp) as [[c1 rest] o1].
  destruct P as (pre & s1 & -> & Lr & R & B1). unfold run in *. rewrite run_bytes_app, R. fold run.
  destruct (ctr_fin_sim c1 s1 rest Lr B1) as [R2 O2].
  destruct (ctr_fin c1 rest). destruct (run (s1, nil, nil) rest). cbn [fst snd] in *. subst; auto.
Qed.
Lemma ctr_sim16 c st d : bytes d -> rel_ctr16 c st ->
  rel_ctr16 (fst (do_ctr c d)) (fst (run st d)) /\ snd (do_ctr c d) = snd (run st d).
Proof.
  intros Hy. destruct st as [[i ks] fed]. rewrite do_ctr16_eq. intros [B [(Hn & -> & ->)|(j & Hj & Hn & ->)]].
  - rewrite Hn. change (N.to_nat 0) with 0%nat.
    assert (P : ctr_partial16 (k_part c) 0 d = (0%nat, d, nil)) by (destruct d; reflexivity). rewrite P.
    change (N.of_nat 0) with 0. destruct (ctr_rest_sim (kw_num c 0) i d Hy (conj B eq_refl)) as [R O].
    destruct (ctr_rest (kw_num c 0) d). cbn [fst snd app] in *. auto.
  - rewrite Hn, Nat2N.id. assert (L : length (k_part c) = 16%nat) by apply B.
    pose proof (ctr_partial16_run (k_part c) d L j Hj i fed) as P.
    destruct (ctr_partial16 (k_part c) j d) as [[j' rest] o1]. destruct P as (pre & fed' & Ed & Ej & Jr & R).
    destruct (Nat.eqb_spec j' 0) as [E8|E8].
    + subst d j'. unfold run in *. rewrite run_bytes_app, R. fold run. apply bytes_app_inv in Hy as [_ Hy].
      change (N.of_nat 0) with 0. destruct (ctr_rest_sim (kw_num c 0) i rest Hy (conj B eq_refl)) as [R2 O2].
      destruct (ctr_rest (kw_num c 0) rest) as [c3 o2]. destruct (run (i, nil, nil) rest) as [st3 o3].
      cbn [fst snd] in *. subst; auto.
    + rewrite Jr in * by lia. rewrite app_nil_r in Ed. subst pre. unfold run in *. rewrite R.
      unfold ctr_rest, ctr_fin. cbn [length block_loop app fst snd]. rewrite app_nil_r. split; [|reflexivity].
      split; [exact B|]. right. exists j'. split; [lia|]. split; reflexivity.
Qed.
End CTR.

(** * CTR-ACPKM *)
Lemma sect_step16 m i : 0 < m -> 0 < i ->
  ((16 * (i - 1)) mod (16 * m) + 16 = 16 * m /\ (16 * i) mod (16 * m) = 0 /\ 16 * i / (16 * m) = 16 * (i - 1) / (16 * m) + 1) \/
  ((16 * (i - 1)) mod (16 * m) + 16 < 16 * m /\ (16 * i) mod (16 * m) = (16 * (i - 1)) mod (16 * m) + 16 /\
   16 * i / (16 * m) = 16 * (i - 1) / (16 * m)).
Proof.
  intros Hm Hi. rewrite !N.mul_mod_distr_l, !N.div_mul_cancel_l by lia.
  pose proof (N.div_mod (i - 1) m ltac:(lia)) as D. pose proof (N.mod_lt (i - 1) m ltac:(lia)) as L.
  set (q := (i - 1) / m) in *. set (r := (i - 1) mod m) in *.
  destruct (N.eq_dec (r + 1) m) as [E|E]; [left|right].
  - assert (Ei : i = (q + 1) * m) by lia. rewrite Ei. rewrite N.mod_mul, N.div_mul by lia. lia.
  - assert (Ei : i = (r + 1) + q * m) by lia. rewrite Ei.
    rewrite N.mod_add, N.div_add, N.mod_small, N.div_small by lia. lia.
Qed.
Lemma land15 x : N.land x 15 = x mod 16.
Proof. change 15 with (N.ones 4). rewrite N.land_ones. reflexivity. Qed.
Section ACPKM.
Variables (sect : N) (k : list N) (ctr0 : N).
Hypothesis Hsect : sect mod 16 = 0.
Hypothesis Hsect0 : 0 < sect.
Hypothesis Hsect32 : sect < 4294967296.
Let nx := CryptSpec.ctr_next E_ 16 (CryptSpec.section_no 16 sect) k ctr0.
Let run := run_bytes nat nx (fun s _ => s) true.
Let key (j : nat) := CryptSpec.acpkm_key E_ 16 k j.
Definition base_ac (c : kctx) (i : nat) : Prop :=
  kkst (CryptSpec.acpkm_key E_ 16 k (CryptSpec.section_no 16 sect (i - 1))) c /\ k_sect c = sect /\
  k_iv c = n2be 16 (ctr0 + N.of_nat i) /\ length (k_part c) = 16%nat.
Definition num_ac (i : nat) (j num : N) : Prop := num = if (i =? 0)%nat then 0 else (16 * N.of_nat (i - 1)) mod sect + j.
Definition base_ac0 (c : kctx) (i : nat) : Prop := base_ac c i /\ num_ac i 16 (k_num c).
Definition rel_ac (c : kctx) (st : bst nat) : Prop :=
  let '(i, ks, fed) := st in
  base_ac c i /\
  ((num_ac i 16 (k_num c) /\ ks = nil /\ fed = nil) \/
   exists j, (0 < j < 16)%nat /\ i <> 0%nat /\ num_ac i (N.of_nat j) (k_num c) /\ ks = skipn j (k_part c)).
Lemma sect_m : exists m, sect = 16 * m /\ 0 < m.
Proof.
  exists (sect / 16). assert (E : sect = 16 * (sect / 16)) by (rewrite (N.div_mod sect 16) at 1 by discriminate; rewrite Hsect; lia).
  split; auto. destruct (N.eq_dec (sect / 16) 0); lia.
Qed.
Lemma sec_no i : CryptSpec.section_no 16 sect i = N.to_nat (16 * N.of_nat i / sect).
Proof. unfold CryptSpec.section_no. destruct (N.eqb_spec sect 0); [lia|]. reflexivity. Qed.
Lemma apply_ac c i : base_ac0 c i ->
  let c' := apply_acpkm_grasshopper c in
  kkst (key (CryptSpec.section_no 16 sect i)) c' /\ k_sect c' = sect /\ k_iv c' = k_iv c /\ k_num c' = (16 * N.of_nat i) mod sect.
Proof.
  intros [(K & Se & I & L) Hn]. cbv zeta. unfold apply_acpkm_grasshopper. rewrite Se. rewrite sec_no in *. unfold num_ac in Hn.
  destruct (N.eqb_spec sect 0) as [E0|E0]; [lia|]. cbn [orb]. destruct sect_m as (m & Es & Hm).
  destruct (Nat.eqb_spec i 0) as [->|Hi0].
  - rewrite Hn. replace (0 <? sect) with true by (symmetry; apply N.ltb_lt; lia).
    change (N.of_nat (0 - 1)) with 0 in K. change (N.of_nat 0) with 0. rewrite N.mul_0_r in *. rewrite N.mod_0_l by auto.
    split; [exact K|]. auto.
  - replace (N.of_nat (i - 1)) with (N.of_nat i - 1) in * by lia.
    destruct (sect_step16 m (N.of_nat i) Hm ltac:(lia)) as [(A1 & A2 & A3)|(A1 & A2 & A3)]; rewrite <- Es in *.
    + replace (k_num c <? sect) with false by (symmetry; apply N.ltb_ge; lia).
      assert (Z : N.land (k_num c) 15 = 0) by (rewrite land15, Hn, A1; exact Hsect).
      rewrite A2, A3. rewrite Z.
      replace (N.to_nat (16 * (N.of_nat i - 1) / sect + 1)) with (S (N.to_nat (16 * (N.of_nat i - 1) / sect))) by lia.
      split; [exact (kkst_acpkm _ c K)|]. split; [exact Se|]. split; reflexivity.
    + replace (k_num c <? sect) with true by (symmetry; apply N.ltb_lt; lia).
      rewrite A2, A3. split; [exact K|]. auto.
Qed.
Lemma ac_nx i : nx i = (S i, E_ (key (CryptSpec.section_no 16 sect i)) (n2be 16 (ctr0 + N.of_nat i))).
Proof. reflexivity. Qed.
Definition ac_block (c : kctx) : kctx := ctr_block16 (apply_acpkm_grasshopper c).
Lemma ac_block_base c i : base_ac0 c i ->
  base_ac (ac_block c) (S i) /\ k_part (ac_block c) = snd (nx i) /\ k_num (ac_block c) = (16 * N.of_nat i) mod sect.
Proof.
  intros B. pose proof (apply_ac c i B) as H. cbv zeta in H. unfold ac_block.
  set (c1 := apply_acpkm_grasshopper c) in *. clearbody c1. destruct H as (K & Se & I & Nn).
  destruct B as [(_ & _ & I0 & _) _].
  unfold ctr_block16. cbv zeta. cbn [kw_part kw_iv k_iv k_part k_num].
  rewrite I, I0, (kkst_enc _ c1 _ K) by (apply n2be16_blk). rewrite ac_nx. cbn [snd].
  split; [|split; [reflexivity|exact Nn]]. split; [replace (S i - 1)%nat with i by lia; exact K|]. split; [exact Se|].
  cbn [kw_part kw_iv k_iv k_part].
  split; [rewrite inc_counter_n2be; f_equal; lia|].
  destruct K as ([? ?] & _). apply E_blk; auto. apply n2be16_blk.
Qed.
Lemma ac_ks_len i : kok k -> length (snd (nx i)) = 16%nat.
Proof. intros H. rewrite ac_nx. destruct (acpkm_key_ok k (CryptSpec.section_no 16 sect i) H). apply E_blk; auto. apply n2be16_blk. Qed.
Lemma ac_room i : (16 * N.of_nat i) mod sect + 16 <= sect.
Proof.
  destruct sect_m as (m & -> & Hm). rewrite N.mul_mod_distr_l by lia. pose proof (N.mod_lt (N.of_nat i) m ltac:(lia)). lia.
Qed.
Lemma num_ac_S i d : d <= 16 -> num_ac (S i) d (w32 ((16 * N.of_nat i) mod sect + d)).
Proof.
  intros Hd. unfold num_ac. cbn [Nat.eqb]. replace (S i - 1)%nat with i by lia. rewrite w32_mod.
  apply N.mod_small. pose proof (ac_room i). lia.
Qed.
Hypothesis Hk : kok k.
Lemma acpkm_step_sim c i b : base_ac0 c i -> length b = 16%nat -> bytes b ->
  exists i', run (i, nil, nil) b = ((i', nil, nil), snd (acpkm_step c b)) /\ base_ac0 (fst (acpkm_step c b)) i'.
Proof.
  intros B Lb Bb. destruct (ac_block_base c i B) as (B1 & F & N1). exists (S i).
  pose proof (ac_ks_len i Hk) as Lk.
  unfold acpkm_step. cbv zeta. fold (ac_block c). set (c1 := ac_block c) in *. clearbody c1. cbn [fst snd].
  split; [|split; [exact B1|cbn [kw_num k_num]; rewrite N1; apply num_ac_S; lia]].
  unfold run. rewrite (run_block _ nx _ true i (S i) (snd (nx i)) b) by (lia || reflexivity).
  rewrite F, xorl_comm. reflexivity.
Qed.
Definition ac_fin (c : kctx) (rest : list N) : kctx * list N :=
  match rest with
  | nil => (c, nil)
  | _ => let c := ac_block c in
         (kw_num c (w32 (k_num c + N.of_nat (length rest))), xorl (firstn (length rest) (k_part c)) rest)
  end.
Definition ac_rest (c : kctx) (inp : list N) : kctx * list N :=
  let '(c, rest, o2) := block_loop acpkm_step 16 16 (length inp) c inp in
  let (c, o3) := ac_fin c rest in (c, o2 ++ o3).
Lemma do_ac_eq c inp : do_ctracpkm c inp =
  (let '(c, inp, o1) := acpkm_partial c inp in let (c, o) := ac_rest c inp in (c, o1 ++ o)).
Proof.
  unfold do_ctracpkm, ac_rest. destruct (acpkm_partial c inp) as [[c1 inp1] o1].
  destruct (block_loop acpkm_step 16 16 (length inp1) c1 inp1) as [[c2 rest] o2].
  destruct rest; unfold ac_fin; cbv zeta; rewrite ?app_nil_r; reflexivity.
Qed.
Lemma ac_fin_sim c i rest : (length rest < 16)%nat -> base_ac0 c i ->
  rel_ac (fst (ac_fin c rest)) (fst (run (i, nil, nil) rest)) /\ snd (ac_fin c rest) = snd (run (i, nil, nil) rest).
Proof.
  intros Hl B. destruct rest as [|x t].
  { cbn. split; [|reflexivity]. destruct B. split; [assumption|left; auto]. }
  destruct (ac_block_base c i B) as (B1 & F & N1). unfold ac_fin. cbv zeta.
  pose proof (ac_ks_len i Hk) as Lk.
  set (c1 := ac_block c) in *. clearbody c1. set (r := x :: t) in *.
  assert (Hr : (0 < length r)%nat) by (cbn; lia). clearbody r.
  unfold run. rewrite (run_part _ nx _ true i (S i) (snd (nx i)) r) by (lia || reflexivity). cbn [fst snd].
  rewrite (xorl_first_le _ r 16) by lia. rewrite F. rewrite firstn_all2 by lia. split; [|reflexivity].
  split; [exact B1|]. right. exists (length r). split; [lia|]. split; [discriminate|]. cbn [kw_num k_num k_part]. rewrite F, N1.
  split; [apply num_ac_S; lia|auto].
Qed.
Lemma ac_rest_sim c i inp : bytes inp -> base_ac0 c i ->
  rel_ac (fst (ac_rest c inp)) (fst (run (i, nil, nil) inp)) /\ snd (ac_rest c inp) = snd (run (i, nil, nil) inp).
Proof.
  intros Hy B. unfold ac_rest.
  pose proof (block_loop_sim nat nx (fun s _ => s) kctx base_ac0 acpkm_step true 16 16 ltac:(lia) ltac:(lia) acpkm_step_sim
    (length inp) c i inp (le_n _) Hy B) as P.
  destruct (block_loop acpkm_step 16 16 (length inp) c inp) as [[c1 rest] o1].
  destruct P as (pre & s1 & -> & Lr & R & B1). unfold run in *. rewrite run_bytes_app, R. fold run.
  destruct (ac_fin_sim c1 s1 rest Lr B1) as [R2 O2].
  destruct (ac_fin c1 rest). destruct (run (s1, nil, nil) rest). cbn [fst snd] in *. subst; auto.
Qed.
Lemma num_ac_land i j num : i <> 0%nat -> num_ac i j num -> N.land num 15 = j mod 16.
Proof.
  intros Hi ->. destruct (Nat.eqb_spec i 0); [contradiction|]. rewrite land15. destruct sect_m as (m & -> & Hm).
  rewrite N.mul_mod_distr_l by lia. rewrite N.add_mod, (N.mul_comm 16), N.mod_mul, N.add_0_l, N.mod_mod by lia. reflexivity.
Qed.
Lemma acpkm_partial_run inp : forall c j i fed, (0 < j < 16)%nat -> i <> 0%nat -> base_ac c i ->
  num_ac i (N.of_nat j) (k_num c) ->
  let '(c', rest, out) := acpkm_partial c inp in
  exists pre, inp = pre ++ rest /\ base_ac c' i /\
    exists j' fed', (j <= j' <= 16)%nat /\ (j' < 16 -> rest = nil)%nat /\ num_ac i (N.of_nat j') (k_num c') /\
     k_part c' = k_part c /\
     run (i, skipn j (k_part c), fed) pre =
       ((if (j' =? 16)%nat then (i, nil, nil) else (i, skipn j' (k_part c), fed')), out).
Proof.
  induction inp as [|x inp IH]; intros c j i fed Hj Hi Hb Hn; cbn [acpkm_partial].
  - exists nil. split; [reflexivity|]. split; [auto|]. exists j, fed.
    replace (j =? 16)%nat with false by (symmetry; apply Nat.eqb_neq; lia).
    split; [lia|]. split; [auto|]. split; [auto|]. split; reflexivity.
  - assert (Ln : N.land (k_num c) 15 = N.of_nat j).
    { rewrite (num_ac_land i (N.of_nat j) _ Hi Hn). apply N.mod_small. lia. }
    rewrite Ln. replace (N.of_nat j =? 0) with false by (symmetry; apply N.eqb_neq; lia). rewrite Nat2N.id.
    assert (Lb : length (k_part c) = 16%nat) by apply Hb.
    assert (Ks : skipn j (k_part c) = nth j (k_part c) 0 :: skipn (S j) (k_part c)) by (apply skipn_cons_nth; lia).
    set (c1 := kw_num c (w32 (k_num c + 1))).
    assert (B1 : base_ac c1 i) by exact Hb.
    assert (N1 : num_ac i (N.of_nat (S j)) (k_num c1)).
    { unfold c1, num_ac in *. cbn [kw_num k_num]. destruct (Nat.eqb_spec i 0); [contradiction|]. rewrite w32_mod.
      pose proof (ac_room (i - 1)). rewrite N.mod_small by lia. lia. }
    destruct (Nat.eq_dec j 15) as [->|H7].
    + assert (Stop : acpkm_partial c1 inp = (c1, inp, nil)).
      { destruct inp; cbn [acpkm_partial]; auto. rewrite (num_ac_land i _ _ Hi N1). reflexivity. }
      rewrite Stop. exists [x]. split; [reflexivity|]. split; [auto|]. exists 16%nat, nil.
      split; [lia|]. split; [lia|]. split; [exact N1|]. split; [reflexivity|].
      unfold run. cbn [run_bytes]. unfold byte_step. rewrite Ks. cbn [hd tl]. rewrite skipn_all2 by lia. reflexivity.
    + specialize (IH c1 (S j) i (fed ++ [N.lxor x (nth j (k_part c) 0)]) ltac:(lia) Hi B1 N1).
      destruct (acpkm_partial c1 inp) as [[c2 rest] out].
      destruct IH as (pre & Ei & B2 & j' & fed' & Hj' & Hr & N2 & Eb & R). exists (x :: pre).
      split; [cbn; congruence|]. split; [auto|]. exists j', fed'. split; [lia|]. split; [auto|]. split; [auto|].
      split; [rewrite Eb; reflexivity|].
      change (k_part c1) with (k_part c) in R.
      unfold run in *. cbn [run_bytes]. unfold byte_step at 1. rewrite Ks. cbn [hd tl].
      destruct (skipn (S j) (k_part c)) as [|y l] eqn:Sk.
      { assert (length (skipn (S j) (k_part c)) = 0%nat) by (rewrite Sk; reflexivity). rewrite skipn_length in H. lia. }
      cbn [pick]. rewrite R. reflexivity.
Qed.
Lemma acpkm_partial_boundary c i inp : num_ac i 16 (k_num c) -> acpkm_partial c inp = (c, inp, nil).
Proof.
  intros H. destruct inp; cbn [acpkm_partial]; auto.
  assert (Z : N.land (k_num c) 15 = 0).
  { destruct (Nat.eq_dec i 0) as [->|Hi]; [rewrite H; reflexivity|]. rewrite (num_ac_land i 16 _ Hi H). reflexivity. }
  rewrite Z. reflexivity.
Qed.
Lemma acpkm_sim c st d : bytes d -> rel_ac c st ->
  rel_ac (fst (do_ctracpkm c d)) (fst (run st d)) /\ snd (do_ctracpkm c d) = snd (run st d).
Proof.
  intros Hy. destruct st as [[i ks] fed]. rewrite do_ac_eq. intros [B [(Hn & -> & ->)|(j & Hj & Hi & Hn & ->)]].
  - rewrite (acpkm_partial_boundary c i d Hn).
    destruct (ac_rest_sim c i d Hy (conj B Hn)) as [R O]. destruct (ac_rest c d). cbn [fst snd app] in *. auto.
  - pose proof (acpkm_partial_run d c j i fed Hj Hi B Hn) as P.
    destruct (acpkm_partial c d) as [[c1 rest] o1].
    destruct P as (pre & Ed & B1 & j' & fed' & Hj' & Jr & N1 & Ep & R).
    destruct (Nat.eqb_spec j' 16) as [E8|E8].
    + subst d j'. unfold run in *. rewrite run_bytes_app, R. fold run. apply bytes_app_inv in Hy as [_ Hy].
      destruct (ac_rest_sim c1 i rest Hy (conj B1 N1)) as [R2 O2].
      destruct (ac_rest c1 rest) as [c3 o2]. destruct (run (i, nil, nil) rest) as [st3 o3].
      cbn [fst snd] in *. subst; auto.
    + rewrite Jr in * by lia. rewrite app_nil_r in Ed. subst pre. unfold run in *. rewrite R.
      unfold ac_rest, ac_fin. cbn [length block_loop app fst snd]. rewrite app_nil_r. split; [|reflexivity].
      split; [exact B1|]. right. exists j'. split; [lia|]. split; [exact Hi|]. rewrite Ep. auto.
Qed.
End ACPKM.

(** * ECB and CBC *)
Fixpoint steps {C} (step : C -> list N -> C * list N) (c : C) (bl : list (list N)) : C * list N :=
  match bl with
  | nil => (c, nil)
  | b :: t => let (c, o) := step c b in let (c, os) := steps step c t in (c, o ++ os)
  end.
Lemma steps_app {C} (step : C -> list N -> C * list N) a b : forall c,
  steps step c (a ++ b) = (let (c1, o1) := steps step c a in let (c2, o2) := steps step c1 b in (c2, o1 ++ o2)).
Proof.
  induction a as [|x a IH]; intros c; cbn [app steps].
  - destruct (steps step c b); reflexivity.
  - destruct (step c x) as [c1 o]. rewrite IH. destruct (steps step c1 a) as [c2 o2]. destruct (steps step c2 b).
    rewrite app_assoc. reflexivity.
Qed.
Definition whole16 (m : list N) : Prop := (length m mod 16 = 0)%nat.
Lemma block_loop_steps {C} (step : C -> list N -> C * list N) inp : whole16 inp ->
  forall fuel c, (length inp <= fuel)%nat ->
  block_loop step 16 16 fuel c inp = (fst (steps step c (blocks 16 inp)), nil, snd (steps step c (blocks 16 inp))).
Proof.
  revert inp. apply (whole_blocks_ind 16 (fun inp => forall fuel c, (length inp <= fuel)%nat ->
    block_loop step 16 16 fuel c inp = (fst (steps step c (blocks 16 inp)), nil, snd (steps step c (blocks 16 inp)))) ltac:(lia)).
  - intros fuel c _. destruct fuel; reflexivity.
  - intros a l La Hw IH fuel c Hf. rewrite app_length in Hf. destruct fuel as [|fuel]; [lia|]. cbn [block_loop].
    replace (16 <=? length (a ++ l))%nat with true by (symmetry; apply Nat.leb_le; rewrite app_length; lia).
    rewrite firstn_app_exact, skipn_app_exact, blocks_cons by (auto; lia). cbn [steps].
    destruct (step c a) as [c1 o]. rewrite IH by lia. destruct (steps step c1 (blocks 16 l)). reflexivity.
Qed.
Lemma whole16_app a b : whole16 a -> whole16 b -> whole16 (a ++ b).
Proof.
  unfold whole16. rewrite app_length. intros. rewrite Nat.add_mod, H, H0 by lia. reflexivity.
Qed.
(** Chunks of whole blocks. *)
Lemma run_chunks_steps {C} (doit : C -> list N -> C * list N) step :
  (forall c m, whole16 m -> doit c m = steps step c (blocks 16 m)) ->
  forall chunks c, Forall whole16 chunks ->
  run_chunks C doit c chunks = steps step c (blocks 16 (concat chunks)).
Proof.
  intros H. induction chunks as [|m t IH]; intros c F; [reflexivity|]. apply Forall_cons_iff in F as [Hm F].
  cbn [run_chunks concat]. rewrite blocks_app by (auto; lia). rewrite steps_app, H by auto.
  destruct (steps step c (blocks 16 m)) as [c1 o1]. rewrite IH by auto. reflexivity.
Qed.
Definition ecb_step (c : kctx) (b : list N) : kctx * list N :=
  (c, if k_enc c then grasshopper_encrypt_block (k_ek c) b else grasshopper_decrypt_block (k_dk c) b).
Lemma do_ecb_steps c m : whole16 m -> do_ecb c m = steps ecb_step c (blocks 16 m).
Proof.
  intros W. unfold do_ecb. fold ecb_step. rewrite (block_loop_steps ecb_step m W) by auto.
  destruct (steps ecb_step c (blocks 16 m)); reflexivity.
Qed.
Lemma do_cbc_steps c m : whole16 m -> do_cbc c m = steps cbc_step c (blocks 16 m).
Proof.
  intros W. unfold do_cbc. rewrite (block_loop_steps cbc_step m W) by auto.
  destruct (steps cbc_step c (blocks 16 m)); reflexivity.
Qed.
Lemma ecb_steps_spec k c bl : kkst k c -> Forall blk16 bl ->
  snd (steps ecb_step c bl) = concat (map (if k_enc c then E_ k else D_ k) bl).
Proof.
  intros K F. induction F as [|b t Hb F IH]; [reflexivity|]. cbn [steps map concat]. unfold ecb_step at 1.
  destruct (steps ecb_step c t) as [c1 os]. cbn [snd] in *. subst os.
  f_equal. destruct (k_enc c); [apply (kkst_enc k)|apply (kkst_dec k)]; auto.
Qed.
Fixpoint cbc_decrypt (D : list N -> list N) (iv : list N) (bl : list (list N)) : list (list N) :=
  match bl with nil => nil | b :: t => xorl (D b) iv :: cbc_decrypt D b t end.
Lemma cbc_enc_steps k bl : forall c, kkst k c -> k_enc c = true -> blk16 (k_iv c) -> Forall blk16 bl ->
  snd (steps cbc_step c bl) = concat (CryptSpec.cbc_encrypt (E_ k) (k_iv c) bl).
Proof.
  induction bl as [|b t IH]; intros c K En Hi F; [reflexivity|]. apply Forall_cons_iff in F as [Hb F].
  cbn [steps CryptSpec.cbc_encrypt concat]. unfold cbc_step at 1. rewrite En. cbv zeta.
  assert (X : blk16 (append128 (k_iv c) b)) by (apply xor_blk; auto).
  rewrite (kkst_enc k) by auto. unfold append128 in *. rewrite (xorl_comm (k_iv c)) in *.
  specialize (IH (kw_iv c (E_ k (xorl b (k_iv c))))).
  destruct (steps cbc_step (kw_iv c (E_ k (xorl b (k_iv c)))) t) as [c2 os]. cbn [snd] in *.
  rewrite IH; auto. destruct K as ([? ?] & _). apply E_blk; auto.
Qed.
Lemma cbc_dec_steps k bl : forall c, kkst k c -> k_enc c = false -> Forall blk16 bl ->
  snd (steps cbc_step c bl) = concat (cbc_decrypt (D_ k) (k_iv c) bl).
Proof.
  induction bl as [|b t IH]; intros c K En F; [reflexivity|]. apply Forall_cons_iff in F as [Hb F].
  cbn [steps cbc_decrypt concat]. unfold cbc_step at 1. rewrite En. cbv zeta. rewrite (kkst_dec k) by auto.
  specialize (IH (kw_iv c b)). destruct (steps cbc_step (kw_iv c b) t) as [c2 os]. cbn [snd] in *.
  rewrite IH; auto.
Qed.
Lemma cbc_inverse k : kok k -> forall bl iv, blk16 iv -> Forall blk16 bl ->
  cbc_decrypt (D_ k) iv (CryptSpec.cbc_encrypt (E_ k) iv bl) = bl /\ Forall blk16 (CryptSpec.cbc_encrypt (E_ k) iv bl).
Proof.
  intros [Lk Bk]. induction bl as [|b t IH]; intros iv Hi F; [split; [reflexivity|constructor]|].
  apply Forall_cons_iff in F as [Hb F]. cbn [CryptSpec.cbc_encrypt cbc_decrypt].
  assert (X : blk16 (xorl b iv)) by (apply xor_blk; auto). assert (Y : blk16 (E_ k (xorl b iv))) by (apply E_blk; auto).
  destruct (IH _ Y F) as [I1 I2]. split; [|constructor; auto]. rewrite I1, D_E by auto. f_equal.
  apply xorl_cancel_r. destruct Hb as [-> _], Hi as [-> _]. reflexivity.
Qed.
Lemma blocks_of_blk16 bl : Forall blk16 bl -> blocks 16 (concat bl) = bl /\ whole16 (concat bl).
Proof.
  induction 1 as [|b t [Lb Bb] F [I1 I2]]; [split; reflexivity|]. cbn [concat].
  rewrite blocks_cons, I1 by (auto; lia). split; [reflexivity|]. apply whole16_app; auto. unfold whole16. rewrite Lb. reflexivity.
Qed.
Lemma blocks_blk16 m : whole16 m -> bytes m -> Forall blk16 (blocks 16 m).
Proof.
  revert m. apply (whole_blocks_ind 16 (fun m => bytes m -> Forall blk16 (blocks 16 m)) ltac:(lia)); [constructor|].
  intros a l La Hw IH Hb. apply bytes_app_inv in Hb as [Ba Bl]. rewrite blocks_cons by (auto; lia). constructor; auto. split; auto.
Qed.
Lemma ecb_inverse k bl : kok k -> Forall blk16 bl -> map (D_ k) (map (E_ k) bl) = bl /\ Forall blk16 (map (E_ k) bl).
Proof.
  intros [L B]. induction 1 as [|b t Hb F [I1 I2]]; [split; [reflexivity|constructor]|]. cbn [map].
  rewrite I1, D_E by auto. split; [reflexivity|]. constructor; auto. apply E_blk; auto.
Qed.
