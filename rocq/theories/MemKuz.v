(** The memory functions of gost_grasshopper_cipher.c refine the list functions of [KuzCipherModel]. *)
From Verif Require Import Bytes BytesProofs CryptModel CryptProofs KuzTables KuzModel KuzCipherModel MemModel MemProofs MemCrypt.
Local Open Scope nat_scope.

Definition keys16 (ks : list (list N)) : Prop := length ks = 10 /\ Forall (fun k => length k = 16) ks.
(** The arrays of the context have their C sizes. *)
Definition kuz_shape (c : kctx) : Prop :=
  keys16 (k_ek c) /\ keys16 (k_dk c) /\ length (k_iv c) = 16 /\ length (k_buf c) = 32 /\ length (k_part c) = 16.

(** * Lengths *)
Lemma nth_keys16 ks i : keys16 ks -> i < 10 -> length (nth i ks nil) = 16.
Proof. intros [L F] H. rewrite Forall_forall in F. apply F, nth_In. lia. Qed.
Lemma setk_keys16 ks i v : keys16 ks -> length v = 16 -> keys16 (setk ks i v).
Proof.
  intros [L F] Lv. split.
  - rewrite <- L. clear L F. revert i. induction ks as [|k ks IH]; intros [|i]; cbn [setk length]; auto.
  - clear L. revert i. induction F as [|k ks Hk F IH]; intros [|i]; cbn [setk]; constructor; auto.
Qed.
Lemma multi_len_fold arr x : forall is r, length r = 16 ->
  length (fold_left (fun r i => append128 r (entry arr i (nth i x 0%N))) is r) = 16.
Proof.
  induction is as [|i t IH]; intros r L; [exact L|]. cbn [fold_left]. apply IH.
  unfold append128, entry. rewrite xorl_length, L. unfold n2be. rewrite rev_length, n2le_length. reflexivity.
Qed.
Lemma multi_len x arr : length (append128multi x arr) = 16.
Proof. unfold append128multi. apply multi_len_fold. reflexivity. Qed.
Lemma enc_fold_len ks arr : forall is x, is <> nil ->
  length (fold_left (fun t i => append128multi (append128 t (nth i ks nil)) arr) is x) = 16.
Proof.
  induction is as [|i t IH]; intros x H; [congruence|]. cbn [fold_left].
  destruct t as [|j t]; [cbn [fold_left]; apply multi_len|]. apply IH. discriminate.
Qed.
Lemma kenc_len ks x : keys16 ks -> length (grasshopper_encrypt_block ks x) = 16.
Proof.
  intros K. unfold grasshopper_encrypt_block, append128 at 1. rewrite xorl_length.
  rewrite enc_fold_len by discriminate. rewrite nth_keys16 by (auto; lia). reflexivity.
Qed.
Lemma kdec_len ks x : keys16 ks -> length (grasshopper_decrypt_block ks x) = 16.
Proof.
  intros K. unfold grasshopper_decrypt_block. cbv zeta. unfold append128 at 1. rewrite xorl_length.
  unfold convert128. rewrite map_length. unfold append128 at 1. rewrite xorl_length.
  rewrite enc_fold_len by discriminate. rewrite !nth_keys16 by (auto; lia). reflexivity.
Qed.
Lemma fold_set_len (f : N * list N -> nat -> N * list N) : (forall x w i, length (snd (f (x, w) i)) = length w) ->
  forall is x w, length (snd (fold_left f is (x, w))) = length w.
Proof.
  intros H. induction is as [|i t IH]; intros x w; [reflexivity|]. cbn [fold_left].
  specialize (H x w i). destruct (f (x, w) i) as [x1 w1]. cbn [snd] in H. rewrite IH. exact H.
Qed.
Lemma l_round_len w : length (l_round w) = length w.
Proof.
  unfold l_round. match goal with |- context [fold_left ?f ?is (?x, w)] =>
    pose proof (fold_set_len f ltac:(intros; cbn [snd]; apply set_length) is x w) as H; destruct (fold_left f is (x, w)) as [x1 w1] end.
  rewrite set_length. exact H.
Qed.
Lemma l_inv_round_len w : length (l_inv_round w) = length w.
Proof.
  unfold l_inv_round. match goal with |- context [fold_left ?f ?is (?x, w)] =>
    pose proof (fold_set_len f ltac:(intros; cbn [snd]; apply set_length) is x w) as H; destruct (fold_left f is (x, w)) as [x1 w1] end.
  rewrite set_length. exact H.
Qed.
Lemma iter_len (f : list N -> list N) n w : (forall w, length (f w) = length w) -> length (Nat.iter n f w) = length w.
Proof. intros H. induction n as [|n IH]; [reflexivity|]. cbn [Nat.iter nat_rect]. rewrite H. exact IH. Qed.
Lemma gl_len w : length (grasshopper_l w) = length w.
Proof. unfold grasshopper_l. apply iter_len, l_round_len. Qed.
Lemma gli_len w : length (grasshopper_l_inv w) = length w.
Proof. unfold grasshopper_l_inv. apply iter_len, l_inv_round_len. Qed.
Definition ks_state (s : list N * list N * list (list N)) : Prop :=
  length (fst (fst s)) = 16 /\ length (snd (fst s)) = 16 /\ keys16 (snd s).
Lemma ek_round_ok s i : ks_state s -> ks_state (set_encrypt_key_round s i).
Proof.
  destruct s as [[x y] ks]. intros (A & B & D). cbn [fst snd] in *. unfold set_encrypt_key_round.
  assert (Z : length (append128 (grasshopper_l (convert128 (append128 x (grasshopper_l (set (zeros 16) 15 (N.of_nat i)))) grasshopper_pi)) y) = 16).
  { unfold append128 at 1. rewrite xorl_length, gl_len. unfold convert128. rewrite map_length. unfold append128. rewrite xorl_length, gl_len, set_length, A, B.
    reflexivity. }
  cbv zeta. generalize dependent (append128 (grasshopper_l (convert128 (append128 x (grasshopper_l (set (zeros 16) 15 (N.of_nat i)))) grasshopper_pi)) y).
  intros z Z. destruct (Nat.eqb _ 0); repeat split; cbn [fst snd]; auto; try apply D; apply (setk_keys16 (setk ks (i / 4) z) (i / 4 + 1) x); auto; apply setk_keys16; auto.
Qed.
Lemma ek_fold_ok : forall is s, ks_state s -> ks_state (fold_left set_encrypt_key_round is s).
Proof. induction is as [|i t IH]; intros s H; [exact H|]. cbn [fold_left]. apply IH, ek_round_ok, H. Qed.
Lemma set_ek_ok ks key : keys16 ks -> length key = 32 -> keys16 (grasshopper_set_encrypt_key ks key).
Proof.
  intros K L. unfold grasshopper_set_encrypt_key. cbv zeta.
  assert (A : length (sub 0 16 key) = 16) by (unfold sub; rewrite firstn_length, skipn_length, L; reflexivity).
  assert (B : length (sub 16 16 key) = 16) by (unfold sub; rewrite firstn_length, skipn_length, L; reflexivity).
  apply (ek_fold_ok (seq 1 32) (sub 0 16 key, sub 16 16 key, setk (setk ks 0 (sub 0 16 key)) 1 (sub 16 16 key))).
  split; [exact A|]. split; [exact B|]. apply setk_keys16; [apply setk_keys16|]; assumption.
Qed.
Lemma set_dk_ok ks key : keys16 ks -> length key = 32 -> keys16 (grasshopper_set_decrypt_key ks key).
Proof.
  intros K L. unfold grasshopper_set_decrypt_key.
  assert (H : forall is ks, (forall i, In i is -> i < 10) -> keys16 ks ->
    keys16 (fold_left (fun ks i => setk ks i (grasshopper_l_inv (nth i ks nil))) is ks)).
  { induction is as [|i t IH]; intros ks0 Hi K0; [exact K0|]. cbn [fold_left]. apply IH; [intros j Hj; apply Hi; right; exact Hj|].
    apply setk_keys16; [exact K0|]. rewrite gli_len. apply nth_keys16; [exact K0|apply Hi; left; reflexivity]. }
  apply H; [|apply set_ek_ok; assumption]. intros i Hi. apply in_seq in Hi. lia.
Qed.
Opaque grasshopper_encrypt_block grasshopper_decrypt_block grasshopper_set_encrypt_key grasshopper_set_decrypt_key.
Lemma sub32_len k : length k = 32 -> length (sub 0 32 k) = 32.
Proof. intros L. unfold sub. rewrite firstn_length, skipn_length, L. reflexivity. Qed.
Lemma shape_key c k : kuz_shape c -> length k = 32 -> kuz_shape (gost_grasshopper_cipher_key c k).
Proof.
  intros (A & B & D & E & F) L. unfold gost_grasshopper_cipher_key. cbv zeta. repeat split; cbn [k_ek k_dk k_iv k_buf k_part kw_keys]; auto;
  try (apply (set_ek_ok (k_ek c)); auto using sub32_len); apply (set_dk_ok (k_dk c)); auto using sub32_len.
Qed.
Lemma shape_next c : kuz_shape c -> kuz_shape (acpkm_next c).
Proof.
  intros S. unfold acpkm_next. apply shape_key; [exact S|]. rewrite app_length, !kenc_len by apply S. reflexivity.
Qed.
Lemma shape_apply c : kuz_shape c -> kuz_shape (apply_acpkm_grasshopper c).
Proof. intros S. unfold apply_acpkm_grasshopper. destruct (_ || _)%bool; [exact S|]. apply (shape_next c S). Qed.
Lemma shape_kw_iv c v : kuz_shape c -> length v = 16 -> kuz_shape (kw_iv c v).
Proof. intros (A & B & D & E & F) L. exact (conj A (conj B (conj L (conj E F)))). Qed.
Lemma shape_kw_buf c v : kuz_shape c -> length v = 32 -> kuz_shape (kw_buf c v).
Proof. intros (A & B & D & E & F) L. exact (conj A (conj B (conj D (conj L F)))). Qed.
Lemma shape_kw_part c v : kuz_shape c -> length v = 16 -> kuz_shape (kw_part c v).
Proof. intros (A & B & D & E & F) L. exact (conj A (conj B (conj D (conj E L)))). Qed.
Lemma shape_kw_num c n : kuz_shape c -> kuz_shape (kw_num c n).
Proof. intros S. exact S. Qed.
Lemma iv_len c : kuz_shape c -> length (k_iv c) = 16. Proof. intros S. apply S. Qed.
Lemma buf_len c : kuz_shape c -> length (k_buf c) = 32. Proof. intros S. apply S. Qed.
Lemma part_len c : kuz_shape c -> length (k_part c) = 16. Proof. intros S. apply S. Qed.
Lemma ek_ok c : kuz_shape c -> keys16 (k_ek c). Proof. intros S. apply S. Qed.
Lemma dk_ok c : kuz_shape c -> keys16 (k_dk c). Proof. intros S. apply S. Qed.
Opaque acpkm_next.

(** * ECB, CBC *)
Definition p_kecb (c : kctx) (b : list N) : kctx * list N :=
  (c, if k_enc c then grasshopper_encrypt_block (k_ek c) b else grasshopper_decrypt_block (k_dk c) b).
Lemma kecb_sim : step_sim kuz_shape 16 p_kecb kecb_body.
Proof.
  intros m c i o S O. unfold p_kecb, kecb_body. cbn [fst snd].
  destruct (k_enc c).
  - pose proof (kenc_len (k_ek c) (rd m i 16) (ek_ok c S)) as L. rewrite (wr_rd' _ m o 16 L).
    split; [reflexivity|]. split; [reflexivity|]. split; [apply wr_frame', L|exact S].
  - pose proof (kdec_len (k_dk c) (rd m i 16) (dk_ok c S)) as L. rewrite (wr_rd' _ m o 16 L).
    split; [reflexivity|]. split; [reflexivity|]. split; [apply wr_frame', L|exact S].
Qed.
Lemma kcbc_sim : step_sim kuz_shape 16 cbc_step kcbc_body.
Proof.
  intros m c i o S O. unfold cbc_step, kcbc_body. destruct (k_enc c); cbn zeta; cbn [fst snd].
  - cbn [k_iv k_ek kw_iv]. pose proof (kenc_len (k_ek c) (append128 (k_iv c) (rd m i 16)) (ek_ok c S)) as L.
    set (y := grasshopper_encrypt_block _ _) in *. clearbody y.
    rewrite (wr_rd' _ m o 16 L). split; [reflexivity|]. split; [reflexivity|]. split; [apply wr_frame', L|].
    apply shape_kw_iv; [|exact L]. apply shape_kw_iv; [exact S|]. unfold append128. rewrite xorl_length, rd_length, iv_len by exact S. reflexivity.
  - pose proof (kdec_len (k_dk c) (rd m i 16) (dk_ok c S)) as L.
    set (y := grasshopper_decrypt_block _ _) in *. clearbody y.
    rewrite (wr_rd' y m o 16 L). assert (L2 : length (append128 y (k_iv c)) = 16) by (unfold append128; rewrite xorl_length, L, iv_len by exact S; reflexivity).
    rewrite (wr_rd' _ _ o 16 L2). split; [reflexivity|]. split; [reflexivity|].
    split; [eapply frame_trans; apply wr_frame'; assumption|]. apply shape_kw_iv; [exact S|apply rd_length].
Qed.
(** The block loop alone; the last incomplete block, if any, is left out. *)
Lemma whole_op16 {C} (Inv : C -> Prop) pstep mstep m c i o q : step_sim Inv 16 pstep mstep -> Inv c -> ok i o (q * 16) ->
  op_sim Inv m o (q * 16) (fst (mloop always mstep 16 16 (q * 16) m c i o (q * 16)))
         (fst (fst (block_loop pstep 16 16 (q * 16) c (rd m i (q * 16)))), snd (block_loop pstep 16 16 (q * 16) c (rd m i (q * 16)))).
Proof.
  intros S Ic O.
  pose proof (mloop_sim Inv always pstep mstep 16 16 (le_n 16) S (q * 16) m c i o (q * 16) Ic O) as M.
  pose proof (ploop_all pstep 16 ltac:(lia) (q * 16) q c (rd m i (q * 16)) (rd_length _ _ _) ltac:(lia)) as Z.
  rewrite <- ploop_block_loop.
  destruct (ploop always pstep 16 16 (q * 16) c (rd m i (q * 16))) as [[c' rest] out]. cbn [fst snd] in Z. subst rest.
  destruct (mloop always mstep 16 16 (q * 16) m c i o (q * 16)) as [[m1 c1] k].
  destruct M as (Lk & E & R & R1 & F & I1). cbn [fst snd] in *. apply rd_nil in R.
  assert (k = q * 16) by lia. subst k. repeat split; assumption.
Qed.
Theorem kuz_ecb_sim m c i o q : kuz_shape c -> ok i o (q * 16) ->
  op_sim kuz_shape m o (q * 16) (kuz_ecb_mem m c i o (q * 16)) (do_ecb c (rd m i (q * 16))).
Proof.
  intros S O. unfold kuz_ecb_mem, do_ecb. rewrite rd_length. fold p_kecb.
  pose proof (whole_op16 kuz_shape p_kecb kecb_body m c i o q kecb_sim S O) as P.
  destruct (block_loop p_kecb 16 16 (q * 16) c (rd m i (q * 16))) as [[c' rest] out]. exact P.
Qed.
Theorem kuz_cbc_sim m c i o q : kuz_shape c -> ok i o (q * 16) ->
  op_sim kuz_shape m o (q * 16) (kuz_cbc_mem m c i o (q * 16)) (do_cbc c (rd m i (q * 16))).
Proof.
  intros S O. unfold kuz_cbc_mem, do_cbc. rewrite rd_length.
  pose proof (whole_op16 kuz_shape cbc_step kcbc_body m c i o q kcbc_sim S O) as P.
  destruct (block_loop cbc_step 16 16 (q * 16) c (rd m i (q * 16))) as [[c' rest] out]. exact P.
Qed.

(** * OFB *)
Definition knum16 (c : kctx) : Prop := (k_num c <= 16)%N.
Definition kstream (c : kctx) : Prop := kuz_shape c /\ knum16 c.
Lemma overwrite16_len b l : length b = 32 -> length l = 16 -> length (overwrite b 0 l) = 32.
Proof. intros A B. rewrite overwrite_length; rewrite ?A, ?B; lia. Qed.
Lemma shape_cnt16 c : kuz_shape c -> kuz_shape (cnt_next16 c).
Proof.
  intros S. unfold cnt_next16. cbv zeta. pose proof (kenc_len (k_ek c) (k_iv c) (ek_ok c S)) as L.
  set (y := grasshopper_encrypt_block _ _) in *. clearbody y.
  apply shape_kw_iv; [|exact L]. apply shape_kw_buf; [exact S|]. apply overwrite16_len; [apply buf_len, S|exact L].
Qed.
Opaque cnt_next16.
Definition p_ofb_part (n : nat) (c : kctx) (inp : list N) : kctx * list N :=
  let c := cnt_next16 c in (c, xorl (firstn n (k_buf c)) inp).
Lemma ofb_part_sim n : n <= 32 -> step_sim kuz_shape n (p_ofb_part n) (ofb_part n).
Proof.
  intros Hn m c i o S O. unfold p_ofb_part, ofb_part. cbn zeta.
  pose proof (shape_cnt16 c S) as S1. set (c1 := cnt_next16 c) in *. clearbody c1. cbn [fst snd].
  assert (L : length (firstn n (k_buf c1)) = n) by (rewrite firstn_length, (buf_len c1 S1); lia).
  rewrite (xor_loop_rd _ m i o n L O). split; [reflexivity|]. split; [reflexivity|]. split; [apply xor_loop_frame; auto|exact S1].
Qed.
Lemma ofb_main_sim m c i o n : kuz_shape c -> ok i o n ->
  op_sim kstream m o n (ofb_main_mem m c i o n) (ofb_main c (rd m i n)).
Proof.
  intros S O. unfold ofb_main_mem, ofb_main. rewrite rd_length. change ofb_step with (p_ofb_part 16).
  pose proof (mloop_sim kuz_shape always _ _ 16 17 ltac:(lia) (ofb_part_sim 16 ltac:(lia)) n m c i o n S O) as M.
  pose proof (block_loop_rest (p_ofb_part 16) 16 17 ltac:(lia) ltac:(lia) n c (rd m i n)) as Lr.
  rewrite rd_length in Lr. specialize (Lr (le_n n)). rewrite <- ploop_block_loop in *.
  destruct (mloop always (ofb_part 16) 16 17 n m c i o n) as [[m1 c1] l].
  destruct (ploop always (p_ofb_part 16) 16 17 n c (rd m i n)) as [[c1' rest] out].
  apply seg_op in M; [|exact O]. destruct M as (Ll & <- & Er & R & F & I & O1). cbn [fst snd] in Lr. subst rest. rewrite rd_length in Lr.
  destruct (Nat.ltb_spec l n) as [G|G].
  - pose proof (step_op kuz_shape (n - l) _ _ m1 c1 (i + l) (o + l) (ofb_part_sim (n - l) ltac:(lia)) I O1) as P.
    assert (Ln : length (rd m1 (i + l) (n - l)) = n - l) by apply rd_length.
    destruct (rd m1 (i + l) (n - l)) as [|x r] eqn:Er; [apply rd_nil in Er; lia|]. rewrite Ln. cbv zeta.
    change (p_ofb_part (n - l) c1 (x :: r)) with (cnt_next16 c1, xorl (firstn (n - l) (k_buf (cnt_next16 c1))) (x :: r)) in P.
    destruct (ofb_part (n - l) m1 c1 (i + l) (o + l)) as [m2 c2].
    apply (op_seq kuz_shape m o n m1 l out _ _ Ll R F) in P. destruct P as (A & B & D & H). cbn [fst snd] in *. subst c2.
    split; [reflexivity|]. split; [exact B|]. split; [exact D|]. split; [apply shape_kw_num, H|]. unfold knum16. cbn [k_num kw_num snd]. lia.
  - assert (l = n) by lia. subst l. rewrite Nat.sub_diag. cbn [rd seq map].
    split; [reflexivity|]. split; [exact R|]. split; [exact F|]. split; [apply shape_kw_num, I|]. unfold knum16. cbn. lia.
Qed.
Theorem kuz_ofb_sim m c i o n : kstream c -> ok i o n ->
  op_sim kstream m o n (kuz_ofb_mem m c i o n) (do_ofb c (rd m i n)).
Proof.
  intros [Sh Nu] O. unfold kuz_ofb_mem, do_ofb. destruct (N.eqb (k_num c) 0); [apply ofb_main_sim; auto|].
  pose proof (mloop_sim (fun _ => True) (fun j => j <? 16) _ _ 1 1 (le_n 1) (ks_byte_sim (k_buf c)) n m
                (N.to_nat (k_num c)) i o n I O) as M.
  rewrite ks_partial_loop in M by (rewrite rd_length; lia).
  destruct (mloop _ (ks_byte (k_buf c)) 1 1 n m (N.to_nat (k_num c)) i o n) as [[m1 j] k].
  destruct (ks_partial (k_buf c) 16 (N.to_nat (k_num c)) (rd m i n)) as [[j' rest] out] eqn:Q.
  apply ks_partial_end in Q as [Lj Hr]; [|unfold knum16 in Nu; lia].
  apply seg_op in M; [|exact O]. destruct M as (Lk & <- & Re & R & F & _ & O1).
  destruct (Nat.eqb_spec j 16) as [Hj|Hj].
  - rewrite Re. pose proof (ofb_main_sim m1 (kw_num c 0) (i + k) (o + k) (n - k) (shape_kw_num _ _ Sh) O1) as P.
    destruct (ofb_main _ (rd m1 (i + k) (n - k))) as [c2 o2].
    exact (op_seq kstream m o n m1 k out _ _ Lk R F P).
  - assert (k = n) by (pose proof (Hr Hj) as Z; rewrite Re in Z; apply rd_nil in Z; lia). subst k.
    split; [reflexivity|]. split; [exact R|]. split; [exact F|]. split; [apply shape_kw_num, Sh|].
    unfold knum16. cbn. lia.
Qed.

(** * CFB *)
Lemma kcfb_body_sim : step_sim kuz_shape 16 cfb_step kcfb_body.
Proof.
  intros m c i o S O. unfold cfb_step, kcfb_body. cbn zeta.
  pose proof (kenc_len (k_ek c) (k_iv c) (ek_ok c S)) as Ly. set (y := grasshopper_encrypt_block _ _) in *. clearbody y.
  assert (S1 : kuz_shape (kw_buf c (overwrite (k_buf c) 0 y))) by (apply shape_kw_buf; [exact S|apply overwrite16_len; [apply buf_len, S|exact Ly]]).
  set (c1 := kw_buf c _) in *. clearbody c1.
  destruct (k_enc c1) eqn:En.
  - rewrite En. cbn [fst snd].
    assert (L : length (firstn 16 (k_buf c1)) = 16) by (rewrite firstn_length, (buf_len c1 S1); lia).
    rewrite (xor_loop_rd _ m i o 16 L O). split; [reflexivity|]. split; [reflexivity|]. split; [apply xor_loop_frame; auto|].
    apply shape_kw_iv; [exact S1|]. rewrite xorl_length, L, rd_length. reflexivity.
  - change (k_enc (kw_iv c1 (rd m i 16))) with (k_enc c1). rewrite En. cbn [fst snd].
    assert (L : length (firstn 16 (k_buf (kw_iv c1 (rd m i 16)))) = 16) by (cbn [k_buf kw_iv]; rewrite firstn_length, (buf_len c1 S1); lia).
    rewrite (xor_loop_rd _ m i o 16 L O). split; [reflexivity|]. split; [reflexivity|]. split; [apply xor_loop_frame; auto|].
    apply shape_kw_iv; [exact S1|apply rd_length].
Qed.
Definition p_kcfb_end (n : nat) (c : kctx) (rest : list N) : kctx * list N :=
  let c := kw_buf c (overwrite (k_buf c) 0 (grasshopper_encrypt_block (k_ek c) (k_iv c))) in
  let c := if k_enc c then c else kw_buf c (overwrite (k_buf c) 16 rest) in
  let o := xorl (firstn n (k_buf c)) rest in
  let c := kw_num c (N.of_nat n) in
  (if k_enc c then kw_buf c (overwrite (k_buf c) 16 o) else c, o).
Lemma cfb_last_eq c inp : inp <> nil -> cfb_last c inp = p_kcfb_end (length inp) c inp.
Proof. destruct inp; [congruence|]. intros _. reflexivity. Qed.
Lemma kcfb_end_sim n : n <= 16 -> step_sim kstream n (p_kcfb_end n) (kcfb_end n).
Proof.
  intros Hn m c i o [S _] O. unfold p_kcfb_end, kcfb_end. cbn zeta.
  pose proof (kenc_len (k_ek c) (k_iv c) (ek_ok c S)) as Ly. set (y := grasshopper_encrypt_block _ _) in *. clearbody y.
  assert (S1 : kuz_shape (kw_buf c (overwrite (k_buf c) 0 y))) by (apply shape_kw_buf; [exact S|apply overwrite16_len; [apply buf_len, S|exact Ly]]).
  set (c1 := kw_buf c _) in *. clearbody c1.
  destruct (k_enc c1) eqn:En.
  - change (k_enc (kw_num c1 (N.of_nat n))) with (k_enc c1). rewrite En. cbn [fst snd].
    assert (L : length (firstn n (k_buf c1)) = n) by (rewrite firstn_length, (buf_len c1 S1); lia).
    rewrite (xor_loop_rd _ m i o n L O). split; [reflexivity|]. split; [reflexivity|]. split; [apply xor_loop_frame; auto|]. split.
    + apply shape_kw_buf; [exact S1|]. cbn [k_buf kw_num]. rewrite overwrite_length; rewrite (buf_len c1 S1); [reflexivity|].
      rewrite xorl_length, L, rd_length. lia.
    + unfold knum16. cbn. lia.
  - change (k_enc (kw_num (kw_buf c1 (overwrite (k_buf c1) 16 (rd m i n))) (N.of_nat n))) with (k_enc c1).
    rewrite En. cbn [fst snd].
    assert (Lb : length (overwrite (k_buf c1) 16 (rd m i n)) = 32).
    { rewrite overwrite_length; rewrite (buf_len c1 S1); [reflexivity|]. rewrite rd_length. lia. }
    assert (L : length (firstn n (k_buf (kw_buf c1 (overwrite (k_buf c1) 16 (rd m i n))))) = n)
      by (cbn [k_buf kw_buf]; rewrite firstn_length, Lb; lia).
    rewrite (xor_loop_rd _ m i o n L O). split; [reflexivity|]. split; [reflexivity|]. split; [apply xor_loop_frame; auto|].
    split; [apply shape_kw_num, shape_kw_buf; assumption|]. unfold knum16. cbn. lia.
Qed.
Opaque cfb_step p_kcfb_end kcfb_body kcfb_end.
Lemma kcfb_main_sim m c i o n : kstream c -> ok i o n ->
  op_sim kstream m o n (kcfb_main_mem m c i o n) (cfb_main16 c (rd m i n)).
Proof.
  intros [S Nu] O. unfold kcfb_main_mem, cfb_main16. rewrite rd_length.
  pose proof (mloop_sim kuz_shape always _ _ 16 17 ltac:(lia) kcfb_body_sim n m c i o n S O) as M.
  pose proof (block_loop_rest cfb_step 16 17 ltac:(lia) ltac:(lia) n c (rd m i n)) as Lr.
  rewrite rd_length in Lr. specialize (Lr (le_n n)). rewrite <- ploop_block_loop in *.
  assert (Kn : forall f c inp, knum16 c -> knum16 (fst (fst (ploop always cfb_step 16 17 f c inp)))).
  { clear. induction f as [|f IH]; intros c inp H; [exact H|]. cbn [ploop]. destruct (_ && _)%bool; [|exact H].
    assert (Q : knum16 (fst (cfb_step c (firstn 16 inp)))).
    { Transparent cfb_step. unfold cfb_step. cbv zeta. Opaque cfb_step.
      generalize (overwrite (k_buf c) 0 (grasshopper_encrypt_block (k_ek c) (k_iv c))). intros bb. cbn [k_enc kw_buf].
      destruct (k_enc c); cbn [k_enc kw_buf kw_iv]; exact H || (destruct (k_enc c); exact H). }
    destruct (cfb_step c (firstn 16 inp)) as [c1 o1]. specialize (IH c1 (skipn 16 inp) Q).
    destruct (ploop always cfb_step 16 17 f c1 (skipn 16 inp)) as [[c2 rest] out]. exact IH. }
  specialize (Kn n c (rd m i n) Nu).
  destruct (mloop always kcfb_body 16 17 n m c i o n) as [[m1 c1] l].
  destruct (ploop always cfb_step 16 17 n c (rd m i n)) as [[c1' rest] out].
  apply seg_op in M; [|exact O]. destruct M as (Ll & <- & -> & R & F & I & O1). cbn [fst snd] in Lr, Kn. rewrite rd_length in Lr.
  destruct (Nat.ltb_spec l n) as [G|G].
  - rewrite cfb_last_eq by (intros E; apply rd_nil in E; lia). rewrite rd_length.
    pose proof (step_op kstream (n - l) _ _ m1 c1 (i + l) (o + l) (kcfb_end_sim (n - l) ltac:(lia)) (conj I Kn) O1) as P.
    destruct (p_kcfb_end (n - l) c1 (rd m1 (i + l) (n - l))) as [c2 o2].
    exact (op_seq kstream m o n m1 l out _ _ Ll R F P).
  - assert (l = n) by lia. subst l. rewrite Nat.sub_diag. cbn [rd seq map cfb_last].
    rewrite app_nil_r. split; [reflexivity|]. split; [exact R|]. split; [exact F|]. split; [apply shape_kw_num, I|]. unfold knum16. cbn. lia.
Qed.
Definition p_kcfb_byte (enc : bool) (s : list N * nat) (x : list N) : (list N * nat) * list N :=
  let '(buf, j) := s in
  let x := hd 0%N x in
  let buf1 := if enc then buf else set buf (j + 16) x in
  let o := N.lxor (nth j buf1 0%N) x in
  ((if enc then set buf1 (j + 16) o else buf1, S j), [o]).
Lemma cfb_partial16_loop enc : forall inp fuel buf j, length inp <= fuel ->
  ploop (fun s => snd s <? 16) (p_kcfb_byte enc) 1 1 fuel (buf, j) inp =
  let '(b, j', rest, out) := cfb_partial16 enc buf j inp in ((b, j'), rest, out).
Proof.
  induction inp as [|x t IH]; intros fuel buf j L.
  - destruct fuel; reflexivity.
  - destruct fuel as [|f]; [cbn in L; lia|]. cbn [ploop cfb_partial16 length].
    replace (1 <=? S (length t)) with true by reflexivity. cbn [andb snd].
    destruct (j <? 16); [|reflexivity]. cbn [firstn skipn]. unfold p_kcfb_byte at 1. cbn [hd].
    rewrite IH by (cbn in L; lia).
    destruct (cfb_partial16 enc _ (S j) t) as [[[b j'] rest] out]. reflexivity.
Qed.
Lemma kcfb_byte_sim enc : step_sim len32 1 (p_kcfb_byte enc) (kcfb_byte enc).
Proof.
  intros m [buf j] i o I O. unfold p_kcfb_byte, kcfb_byte. cbn [rd seq map hd].
  unfold len32 in *. cbn [fst snd] in *.
  destruct enc; cbn [fst snd]; rewrite ?upd_same; repeat split; rewrite ?set_length; auto using frame_upd.
Qed.
Lemma cfb_partial16_end enc : forall inp buf j b j' rest out, j <= 16 -> cfb_partial16 enc buf j inp = (b, j', rest, out) ->
  j' <= 16 /\ (j' <> 16 -> rest = nil).
Proof.
  induction inp as [|x t IH]; intros buf j b j' rest out L H; cbn [cfb_partial16] in H.
  - assert (j = j') by congruence. assert (rest = nil) by congruence. subst. auto.
  - destruct (Nat.ltb_spec j 16) as [G|G].
    + destruct (cfb_partial16 enc _ (S j) t) as [[[b1 j1] r1] o1] eqn:Q. apply IH in Q; [|lia].
      assert (j1 = j') by congruence. assert (r1 = rest) by congruence. subst. exact Q.
    + assert (j = j') by congruence. subst. split; lia.
Qed.
Lemma sub1616_len b : length b = 32 -> length (sub 16 16 b) = 16.
Proof. intros H. unfold sub. rewrite firstn_length, skipn_length, H. reflexivity. Qed.
Theorem kuz_cfb_sim m c i o n : kstream c -> ok i o n ->
  op_sim kstream m o n (kuz_cfb_mem m c i o n) (do_cfb c (rd m i n)).
Proof.
  intros [Sh Nu] O. unfold kuz_cfb_mem, do_cfb. destruct (N.eqb (k_num c) 0); [apply kcfb_main_sim; [split|]; assumption|].
  pose proof (mloop_sim len32 (fun s => snd s <? 16) _ _ 1 1 (le_n 1) (kcfb_byte_sim (k_enc c)) n m
                (k_buf c, N.to_nat (k_num c)) i o n (buf_len c Sh) O) as M.
  rewrite cfb_partial16_loop in M by (rewrite rd_length; lia).
  destruct (mloop _ (kcfb_byte (k_enc c)) 1 1 n m (k_buf c, N.to_nat (k_num c)) i o n) as [[m1 [b j]] k].
  destruct (cfb_partial16 (k_enc c) (k_buf c) (N.to_nat (k_num c)) (rd m i n)) as [[[b' j'] rest] out] eqn:Q.
  apply cfb_partial16_end in Q as [Lj Hr]; [|unfold knum16 in Nu; lia].
  apply seg_op in M; [|exact O]. destruct M as (Lk & E & Re & R & F & I & O1).
  assert (b = b') by congruence. assert (j = j') by congruence. subst b' j'. unfold len32 in I. cbn [fst] in I.
  destruct (Nat.eqb_spec j 16) as [Hj|Hj].
  - rewrite Re.
    assert (S1 : kstream (kw_num (kw_iv (kw_buf c b) (sub 16 16 b)) 0)).
    { split; [|unfold knum16; cbn; lia]. apply shape_kw_num, shape_kw_iv; [apply shape_kw_buf; assumption|apply sub1616_len, I]. }
    pose proof (kcfb_main_sim m1 _ (i + k) (o + k) (n - k) S1 O1) as P.
    destruct (cfb_main16 _ (rd m1 (i + k) (n - k))) as [c2 o2].
    exact (op_seq kstream m o n m1 k out _ _ Lk R F P).
  - assert (k = n) by (pose proof (Hr Hj) as Z; rewrite Re in Z; apply rd_nil in Z; lia). subst k.
    split; [reflexivity|]. split; [exact R|]. split; [exact F|]. split; [apply shape_kw_num, shape_kw_buf; assumption|].
    unfold knum16. cbn. lia.
Qed.

(** * CTR *)
Lemma kctr_body_sim : step_sim kuz_shape 16 ctr_step kctr_body.
Proof.
  intros m c i o S O. unfold ctr_step, kctr_body, ctr_block16. cbv zeta.
  pose proof (kenc_len (k_ek c) (k_iv c) (ek_ok c S)) as Ly. set (y := grasshopper_encrypt_block _ _) in *. clearbody y.
  cbn [fst snd k_part k_iv kw_part kw_iv].
  assert (L : length (xorl y (rd m i 16)) = 16) by (rewrite xorl_length, Ly, rd_length; reflexivity).
  rewrite (wr_rd' _ m o 16 L). split; [reflexivity|]. split; [reflexivity|]. split; [apply wr_frame', L|].
  apply shape_kw_iv; [apply shape_kw_part; assumption|]. rewrite inc_counter_len8. apply iv_len, S.
Qed.
Definition p_kctr_end (n : nat) (c : kctx) (rest : list N) : kctx * list N :=
  let c := ctr_block16 c in (kw_num c (N.of_nat n), xorl (firstn n (k_part c)) rest).
Lemma kctr_end_sim n : n <= 16 -> step_sim kuz_shape n (p_kctr_end n) (kctr_end n).
Proof.
  intros Hn m c i o S O. unfold p_kctr_end, kctr_end, ctr_block16. cbv zeta.
  pose proof (kenc_len (k_ek c) (k_iv c) (ek_ok c S)) as Ly. set (y := grasshopper_encrypt_block _ _) in *. clearbody y.
  cbn [fst snd k_part k_iv kw_part kw_iv kw_num].
  assert (L : length (firstn n y) = n) by (rewrite firstn_length, Ly; lia).
  rewrite (xor_loop_rd _ m i o n L O). split; [reflexivity|]. split; [reflexivity|]. split; [apply xor_loop_frame; auto|].
  apply shape_kw_iv; [apply shape_kw_num, shape_kw_part; assumption|]. rewrite inc_counter_len8. apply iv_len, S.
Qed.
Definition p_kctr_byte (part : list N) (n : nat) (x : list N) : nat * list N := (Nat.modulo (n + 1) 16, [N.lxor (hd 0%N x) (nth n part 0%N)]).
Lemma kctr_byte_sim part : step_sim (fun _ => True) 1 (p_kctr_byte part) (kctr_byte part).
Proof.
  intros m j i o _ O. unfold p_kctr_byte, kctr_byte. cbn [rd seq map hd fst snd]. rewrite upd_same.
  split; [reflexivity|]. split; [reflexivity|]. split; [apply frame_upd|exact I].
Qed.
Lemma ctr_partial16_loop part : forall inp fuel j, length inp <= fuel ->
  ploop (fun j => negb (j =? 0)) (p_kctr_byte part) 1 1 fuel j inp = ctr_partial16 part j inp.
Proof.
  induction inp as [|x t IH]; intros fuel j L.
  - destruct fuel; reflexivity.
  - destruct fuel as [|f]; [cbn in L; lia|]. cbn [ploop ctr_partial16 length].
    replace (1 <=? S (length t)) with true by reflexivity. cbn [andb].
    destruct (j =? 0); cbn [negb]; [reflexivity|]. cbn [firstn skipn]. unfold p_kctr_byte at 1. cbn [hd].
    rewrite IH by (cbn in L; lia).
    destruct (ctr_partial16 part _ t) as [[j' rest] out]. reflexivity.
Qed.
Opaque ctr_step kctr_body kctr_end ctr_block16.
(** The block loop and the last bytes: the second half of the two counter modes. *)
Lemma ctr_tail_sim (pstep : kctx -> list N -> kctx * list N) mbody pend mend m1 c1 i o n fuel :
  step_sim kuz_shape 16 pstep mbody -> (forall r, r <= 16 -> step_sim kuz_shape r (pend r) (mend r)) ->
  kuz_shape c1 -> ok i o n -> n <= fuel ->
  op_sim kuz_shape m1 o n
    (let '(m, c, l) := mloop always mbody 16 16 fuel m1 c1 i o n in
     let lasted := n - l in if 0 <? lasted then mend lasted m c (i + l) (o + l) else (m, c))
    (let '(c, rest, o2) := block_loop pstep 16 16 n c1 (rd m1 i n) in
     match rest with nil => (c, o2) | _ => (fst (pend (length rest) c rest), o2 ++ snd (pend (length rest) c rest)) end).
Proof.
  intros SB SE I O1 Lfu.
  pose proof (mloop_sim kuz_shape always _ _ 16 16 (le_n 16) SB fuel m1 c1 i o n I O1) as M2.
  pose proof (block_loop_rest pstep 16 16 ltac:(lia) ltac:(lia) n c1 (rd m1 i n)) as Lr.
  pose proof (block_loop_fuel pstep 16 16 ltac:(lia) ltac:(lia) fuel n c1 (rd m1 i n)) as Lf.
  rewrite rd_length in Lr, Lf. specialize (Lr (le_n _)). specialize (Lf ltac:(lia) (le_n _)).
  rewrite ploop_block_loop, Lf in M2.
  destruct (mloop always mbody 16 16 fuel m1 c1 i o n) as [[m2 c2] l].
  destruct (block_loop pstep 16 16 n c1 (rd m1 i n)) as [[c2' rest] o2].
  apply seg_op in M2; [|exact O1]. destruct M2 as (Ll & <- & Er & R2 & F2 & I2 & O2).
  cbn [fst snd] in Lr. subst rest. rewrite rd_length in Lr. cbv zeta.
  destruct (Nat.ltb_spec 0 (n - l)) as [G|G].
  - pose proof (step_op kuz_shape (n - l) _ _ m2 c2 (i + l) (o + l) (SE (n - l) ltac:(lia)) I2 O2) as P.
    apply (op_seq kuz_shape m1 o n m2 l o2 _ _ Ll R2 F2) in P.
    assert (Ln : length (rd m2 (i + l) (n - l)) = n - l) by apply rd_length.
    destruct (rd m2 (i + l) (n - l)) as [|x r] eqn:Er; [apply rd_nil in Er; lia|]. rewrite Ln. exact P.
  - assert (l = n) by lia. subst l. rewrite Nat.sub_diag. cbn [rd seq map]. apply op_intro; auto.
Qed.
Theorem kuz_ctr_sim m c i o n : kuz_shape c -> ok i o n ->
  op_sim kuz_shape m o n (kuz_ctr_mem m c i o n) (do_ctr c (rd m i n)).
Proof.
  intros Sh O. unfold kuz_ctr_mem, do_ctr.
  pose proof (mloop_sim (fun _ => True) (fun j => negb (j =? 0)) _ _ 1 1 (le_n 1) (kctr_byte_sim (k_part c)) n m (N.to_nat (k_num c)) i o n I O) as M.
  rewrite ctr_partial16_loop in M by (rewrite rd_length; lia).
  destruct (mloop _ (kctr_byte (k_part c)) 1 1 n m (N.to_nat (k_num c)) i o n) as [[m1 num] k].
  destruct (ctr_partial16 (k_part c) (N.to_nat (k_num c)) (rd m i n)) as [[num' inp1] o1].
  apply seg_op in M; [|exact O]. destruct M as (Lk & <- & -> & R & F & _ & O1). rewrite rd_length.
  pose proof (ctr_tail_sim ctr_step kctr_body p_kctr_end kctr_end m1 (kw_num c (N.of_nat num)) (i + k) (o + k) (n - k) n
                kctr_body_sim kctr_end_sim (shape_kw_num _ _ Sh) O1 ltac:(lia)) as P.
  destruct (block_loop ctr_step 16 16 (n - k) (kw_num c (N.of_nat num)) (rd m1 (i + k) (n - k))) as [[c2 rest] o2].
  destruct (mloop always kctr_body 16 16 n m1 (kw_num c (N.of_nat num)) (i + k) (o + k) (n - k)) as [[m2 c2'] l].
  apply (op_seq kuz_shape m o n m1 k o1 _ _ Lk R F) in P. cbv zeta in *.
  destruct rest as [|x r]; exact P.
Qed.

(** * CTR-ACPKM *)
Transparent ctr_block16.
Lemma kacpkm_body_sim : step_sim kuz_shape 16 acpkm_step kacpkm_body.
Proof.
  intros m c i o S0 O. unfold acpkm_step, kacpkm_body, ctr_block16. cbv zeta.
  pose proof (shape_apply c S0) as S. set (c1 := apply_acpkm_grasshopper c) in *. clearbody c1.
  pose proof (kenc_len (k_ek c1) (k_iv c1) (ek_ok c1 S)) as Ly. set (y := grasshopper_encrypt_block _ _) in *. clearbody y.
  cbn [fst snd k_part k_iv kw_part kw_iv k_num].
  assert (L : length (xorl y (rd m i 16)) = 16) by (rewrite xorl_length, Ly, rd_length; reflexivity).
  rewrite (wr_rd' _ m o 16 L). split; [reflexivity|]. split; [reflexivity|]. split; [apply wr_frame', L|].
  apply shape_kw_num, shape_kw_iv; [apply shape_kw_part; assumption|]. rewrite inc_counter_len8. apply iv_len, S.
Qed.
Definition p_kacpkm_end (n : nat) (c : kctx) (rest : list N) : kctx * list N :=
  let c := ctr_block16 (apply_acpkm_grasshopper c) in (kw_num c (w32 (k_num c + N.of_nat n)), xorl (firstn n (k_part c)) rest).
Lemma kacpkm_end_sim n : n <= 16 -> step_sim kuz_shape n (p_kacpkm_end n) (kacpkm_end n).
Proof.
  intros Hn m c i o S0 O. unfold p_kacpkm_end, kacpkm_end, ctr_block16. cbv zeta.
  pose proof (shape_apply c S0) as S. set (c1 := apply_acpkm_grasshopper c) in *. clearbody c1.
  pose proof (kenc_len (k_ek c1) (k_iv c1) (ek_ok c1 S)) as Ly. set (y := grasshopper_encrypt_block _ _) in *. clearbody y.
  cbn [fst snd k_part k_iv kw_part kw_iv k_num].
  assert (L : length (firstn n y) = n) by (rewrite firstn_length, Ly; lia).
  rewrite (xor_loop_rd _ m i o n L O). split; [reflexivity|]. split; [reflexivity|]. split; [apply xor_loop_frame; auto|].
  apply shape_kw_num, shape_kw_iv; [apply shape_kw_part; assumption|]. rewrite inc_counter_len8. apply iv_len, S.
Qed.
Definition p_kacpkm_byte (c : kctx) (x : list N) : kctx * list N :=
  (kw_num c (w32 (k_num c + 1)), [N.lxor (hd 0%N x) (nth (N.to_nat (N.land (k_num c) 15)) (k_part c) 0%N)]).
Lemma kacpkm_byte_sim : step_sim kuz_shape 1 p_kacpkm_byte kacpkm_byte.
Proof.
  intros m c i o Sh O. unfold p_kacpkm_byte, kacpkm_byte. cbn [rd seq map hd fst snd]. rewrite upd_same.
  split; [reflexivity|]. split; [reflexivity|]. split; [apply frame_upd|apply shape_kw_num, Sh].
Qed.
Lemma acpkm_partial_loop : forall inp fuel c, length inp <= fuel ->
  ploop (fun c => negb (N.eqb (N.land (k_num c) 15) 0)) p_kacpkm_byte 1 1 fuel c inp = acpkm_partial c inp.
Proof.
  induction inp as [|x t IH]; intros fuel c L.
  - destruct fuel; reflexivity.
  - destruct fuel as [|f]; [cbn in L; lia|]. cbn [ploop acpkm_partial length].
    replace (1 <=? S (length t)) with true by reflexivity. cbn [andb].
    destruct (N.eqb (N.land (k_num c) 15) 0); cbn [negb]; [reflexivity|]. cbn [firstn skipn]. unfold p_kacpkm_byte at 1. cbn [hd].
    rewrite IH by (cbn in L; lia).
    destruct (acpkm_partial _ t) as [[j' rest] out]. reflexivity.
Qed.
Opaque acpkm_step kacpkm_body kacpkm_end ctr_block16 apply_acpkm_grasshopper.
Theorem kuz_ctracpkm_sim m c i o n : kuz_shape c -> ok i o n ->
  op_sim kuz_shape m o n (kuz_ctracpkm_mem m c i o n) (do_ctracpkm c (rd m i n)).
Proof.
  intros Sh O. unfold kuz_ctracpkm_mem, do_ctracpkm.
  pose proof (mloop_sim kuz_shape (fun c => negb (N.eqb (N.land (k_num c) 15) 0)) _ _ 1 1 (le_n 1) kacpkm_byte_sim n m c i o n Sh O) as M.
  rewrite acpkm_partial_loop in M by (rewrite rd_length; lia).
  destruct (mloop _ kacpkm_byte 1 1 n m c i o n) as [[m1 c1] k].
  destruct (acpkm_partial c (rd m i n)) as [[c1' inp1] o1].
  apply seg_op in M; [|exact O]. destruct M as (Lk & <- & -> & R & F & I1 & O1). rewrite rd_length.
  pose proof (ctr_tail_sim acpkm_step kacpkm_body p_kacpkm_end kacpkm_end m1 c1 (i + k) (o + k) (n - k) n
                kacpkm_body_sim kacpkm_end_sim I1 O1 ltac:(lia)) as P.
  destruct (block_loop acpkm_step 16 16 (n - k) c1 (rd m1 (i + k) (n - k))) as [[c2 rest] o2].
  destruct (mloop always kacpkm_body 16 16 n m1 c1 (i + k) (o + k) (n - k)) as [[m2 c2'] l].
  apply (op_seq kuz_shape m o n m1 k o1 _ _ Lk R F) in P. cbv zeta in *.
  destruct rest as [|x r]; exact P.
Qed.
