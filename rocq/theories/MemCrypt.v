(** The memory functions of gost_crypt.c refine the list functions of [CryptModel]. *)
From Verif Require Import Bytes BytesProofs Gost89Model Gost89Proofs CryptModel CryptProofs KuzCipherModel MemModel MemProofs.
Local Open Scope nat_scope.

(** The arrays of the context have their C sizes: buf 32 bytes, iv 8 bytes. *)
Definition evp_shape (c : evp) : Prop := length (e_buf c) = 32 /\ length (e_iv c) = 8.

Opaque gostcrypt gostdecrypt magmacrypt magmadecrypt.

Lemma overwrite0_len b l : length b = 32 -> length l = 8 -> length (overwrite b 0 l) = 32.
Proof. intros A B. rewrite overwrite_length; rewrite ?A, ?B; lia. Qed.
Lemma shape_with_num c n : evp_shape c -> evp_shape (with_num c n).
Proof. intros [A B]. split; assumption. Qed.
Lemma shape_with_iv c v : evp_shape c -> length v = 8 -> evp_shape (with_iv c v).
Proof. intros [A B] L. split; [exact A|exact L]. Qed.
Lemma shape_with_buf c v : evp_shape c -> length v = 32 -> evp_shape (with_buf c v).
Proof. intros [A B] L. split; [exact L|exact B]. Qed.
Lemma meshing_iv_len g v : length (snd (cryptopro_key_meshing g v)) = 8.
Proof. unfold cryptopro_key_meshing. cbv zeta. cbn [snd]. apply gostcrypt_length. Qed.
Lemma shape_mesh c : evp_shape c -> evp_shape (gost_crypt_mesh c).
Proof.
  intros [A B]. unfold gost_crypt_mesh. cbn zeta.
  set (c1 := with_abort c _). assert (S1 : evp_shape c1) by (split; assumption).
  clearbody c1. destruct (mesh_due c1).
  - destruct (cryptopro_key_meshing (e_g c1) (e_iv c1)) as [g v] eqn:K.
    assert (Lv : length v = 8) by (pose proof (meshing_iv_len (e_g c1) (e_iv c1)) as Q; rewrite K in Q; exact Q).
    split; cbn [e_buf e_iv with_count with_buf with_iv with_g]; [|exact Lv].
    apply overwrite0_len; [apply S1|apply gostcrypt_length].
  - split; cbn [e_buf e_iv with_count with_buf]; [|apply S1].
    apply overwrite0_len; [apply S1|apply gostcrypt_length].
Qed.
Lemma mesh_enc c : e_enc (gost_crypt_mesh c) = e_enc c.
Proof. unfold gost_crypt_mesh. cbn zeta. destruct (mesh_due _); [destruct (cryptopro_key_meshing _ _)|]; reflexivity. Qed.
Lemma cnt_advance_len b : length (cnt_advance b) = 8.
Proof. unfold cnt_advance. rewrite app_length, !n2le_length. reflexivity. Qed.
Lemma shape_cnt c : evp_shape c -> evp_shape (gost_cnt_next c).
Proof.
  intros [A B]. unfold gost_cnt_next. cbn zeta.
  set (c1 := with_abort c _). assert (S1 : evp_shape c1) by (split; assumption).
  clearbody c1. destruct (mesh_due c1).
  - destruct (cryptopro_key_meshing (e_g c1) (e_iv c1)) as [g v] eqn:K.
    split; cbn [e_buf e_iv with_count with_buf with_iv with_g]; [|apply cnt_advance_len].
    apply overwrite0_len; [apply S1|apply gostcrypt_length].
  - split; cbn [e_buf e_iv with_count with_buf with_iv]; [|apply cnt_advance_len].
    apply overwrite0_len; [apply S1|apply gostcrypt_length].
Qed.

Opaque gost_crypt_mesh gost_cnt_next.
(** * CFB *)
Definition p_cfb_step (c : evp) (blk : list N) : evp * list N :=
  let c := gost_crypt_mesh c in
  let c := if e_enc c then c else with_iv c blk in
  let o := xorl (firstn 8 (e_buf c)) blk in
  (if e_enc c then with_iv c o else c, o).
Lemma cfb_blocks_loop fuel : forall c inp, cfb_blocks fuel c inp = ploop always p_cfb_step 8 8 fuel c inp.
Proof.
  induction fuel as [|f IH]; intros c inp; [reflexivity|]. cbn [cfb_blocks ploop]. unfold always at 1.
  rewrite andb_true_r. destruct (8 <=? length inp); [|reflexivity]. rewrite IH. reflexivity.
Qed.
Lemma cfb_body_sim : step_sim evp_shape 8 p_cfb_step cfb_body.
Proof.
  intros m c i o Sh O. unfold p_cfb_step, cfb_body. cbn zeta.
  pose proof (shape_mesh c Sh) as S1. set (c1 := gost_crypt_mesh c) in *. clearbody c1.
  destruct (e_enc c1) eqn:En.
  - rewrite En. cbn [fst snd].
    assert (L : length (firstn 8 (e_buf c1)) = 8) by (rewrite firstn_length; destruct S1 as [-> _]; reflexivity).
    rewrite (xor_loop_rd _ m i o 8 L O). split; [reflexivity|]. split; [reflexivity|]. split; [apply xor_loop_frame; auto|].
    apply shape_with_iv; [exact S1|]. rewrite xorl_length, L, rd_length. reflexivity.
  - change (e_enc (with_iv c1 (rd m i 8))) with (e_enc c1). rewrite En. cbn [fst snd].
    assert (L : length (firstn 8 (e_buf (with_iv c1 (rd m i 8)))) = 8)
      by (cbn [e_buf with_iv]; rewrite firstn_length; destruct S1 as [-> _]; reflexivity).
    rewrite (xor_loop_rd _ m i o 8 L O). split; [reflexivity|]. split; [reflexivity|]. split; [apply xor_loop_frame; auto|].
    apply shape_with_iv; [exact S1|apply rd_length].
Qed.
(** The last bytes. *)
Definition p_cfb_end (n : nat) (c : evp) (inp : list N) : evp * list N :=
  let c := gost_crypt_mesh c in
  let c := if e_enc c then c else with_buf c (overwrite (e_buf c) 8 inp) in
  let o := xorl (firstn n (e_buf c)) inp in
  let c := with_num c (N.of_nat n) in
  (if e_enc c then with_buf c (overwrite (e_buf c) 8 o) else c, o).
Lemma cfb_rest_eq c inp : inp <> nil -> cfb_rest c inp = p_cfb_end (length inp) c inp.
Proof. destruct inp; [congruence|]. intros _. reflexivity. Qed.
Lemma cfb_end_sim n : n <= 8 -> step_sim evp_shape n (p_cfb_end n) (cfb_end n).
Proof.
  intros Hn m c i o Sh O. unfold p_cfb_end, cfb_end. cbn zeta.
  pose proof (shape_mesh c Sh) as S1. set (c1 := gost_crypt_mesh c) in *. clearbody c1.
  destruct (e_enc c1) eqn:En.
  - change (e_enc (with_num c1 (N.of_nat n))) with (e_enc c1). rewrite En. cbn [fst snd].
    assert (L : length (firstn n (e_buf c1)) = n) by (rewrite firstn_length; destruct S1 as [-> _]; lia).
    rewrite (xor_loop_rd _ m i o n L O). split; [reflexivity|]. split; [reflexivity|]. split; [apply xor_loop_frame; auto|]. split.
    + cbn [e_buf with_buf with_num]. rewrite overwrite_length; destruct S1 as [-> _]; [reflexivity|].
      rewrite xorl_length, L, rd_length. lia.
    + apply S1.
  - change (e_enc (with_num (with_buf c1 (overwrite (e_buf c1) 8 (rd m i n))) (N.of_nat n))) with (e_enc c1).
    rewrite En. cbn [fst snd].
    assert (Lb : length (overwrite (e_buf c1) 8 (rd m i n)) = 32).
    { rewrite overwrite_length; destruct S1 as [-> _]; [reflexivity|]. rewrite rd_length. lia. }
    assert (L : length (firstn n (e_buf (with_buf c1 (overwrite (e_buf c1) 8 (rd m i n))))) = n)
      by (cbn [e_buf with_buf]; rewrite firstn_length, Lb; lia).
    rewrite (xor_loop_rd _ m i o n L O). split; [reflexivity|]. split; [reflexivity|]. split; [apply xor_loop_frame; auto|].
    split; [exact Lb|apply S1].
Qed.
Lemma rd_nil m a n : rd m a n = nil -> n = 0.
Proof. intros H. apply (f_equal (@length N)) in H. rewrite rd_length in H. exact H. Qed.

Lemma cfb_main_sim m c i o n : evp_shape c -> ok i o n ->
  op_sim evp_shape m o n (cfb_main_mem m c i o n) (cfb_main c (rd m i n)).
Proof.
  intros Sh O. unfold cfb_main_mem, cfb_main. rewrite rd_length, cfb_blocks_loop.
  pose proof (mloop_sim evp_shape always _ _ 8 8 (le_n 8) cfb_body_sim n m c i o n Sh O) as M.
  pose proof (block_loop_rest p_cfb_step 8 8 ltac:(lia) ltac:(lia) n c (rd m i n)) as Lr.
  rewrite <- ploop_block_loop in Lr. rewrite rd_length in Lr. specialize (Lr (le_n n)).
  destruct (mloop always cfb_body 8 8 n m c i o n) as [[m1 c1] l].
  destruct (ploop always p_cfb_step 8 8 n c (rd m i n)) as [[c1' rest] out].
  apply seg_op in M; [|exact O]. destruct M as (Ll & <- & -> & R & F & I & O1). cbn [fst snd] in Lr. rewrite rd_length in Lr.
  destruct (Nat.ltb_spec l n) as [G|G].
  - rewrite cfb_rest_eq by (intros E; apply rd_nil in E; lia). rewrite rd_length.
    pose proof (step_op evp_shape (n - l) _ _ m1 c1 (i + l) (o + l) (cfb_end_sim (n - l) ltac:(lia)) I O1) as P.
    destruct (p_cfb_end (n - l) c1 (rd m1 (i + l) (n - l))) as [c2 o2].
    exact (op_seq evp_shape m o n m1 l out _ _ Ll R F P).
  - assert (l = n) by lia. subst l. rewrite Nat.sub_diag. cbn [rd seq map cfb_rest].
    rewrite app_nil_r. repeat split; cbn [fst snd]; auto; apply I.
Qed.

Definition p_cfb_byte (enc : bool) (s : list N * nat) (x : list N) : (list N * nat) * list N :=
  let '(buf, j) := s in
  let x := hd 0%N x in
  let buf1 := if enc then buf else set buf (j + 8) x in
  let o := N.lxor (nth j buf1 0%N) x in
  ((if enc then set buf1 (j + 8) o else buf1, S j), [o]).
Lemma cfb_partial_loop enc : forall inp fuel buf j, length inp <= fuel ->
  ploop (fun s => snd s <? 8) (p_cfb_byte enc) 1 1 fuel (buf, j) inp =
  let '(b, j', rest, out) := cfb_partial enc buf j inp in ((b, j'), rest, out).
Proof.
  induction inp as [|x t IH]; intros fuel buf j L.
  - destruct fuel; reflexivity.
  - destruct fuel as [|f]; [cbn in L; lia|]. cbn [ploop cfb_partial length]. 
    replace (1 <=? S (length t)) with true by reflexivity. cbn [andb snd].
    destruct (j <? 8); [|reflexivity]. cbn [firstn skipn]. unfold p_cfb_byte at 1. cbn [hd].
    rewrite IH by (cbn in L; lia).
    destruct (cfb_partial enc _ (S j) t) as [[[b j'] rest] out]. reflexivity.
Qed.
Definition len32 (s : list N * nat) : Prop := length (fst s) = 32.
Lemma cfb_byte_sim enc : step_sim len32 1 (p_cfb_byte enc) (cfb_byte enc).
Proof.
  intros m [buf j] i o I O. unfold p_cfb_byte, cfb_byte. cbn [rd seq map hd].
  unfold len32 in *. cbn [fst snd] in *.
  destruct enc; cbn [fst snd]; rewrite ?upd_same; repeat split; rewrite ?set_length; auto using frame_upd.
Qed.
Lemma sub88_len b : length b = 32 -> length (sub 8 8 b) = 8.
Proof. intros H. unfold sub. rewrite firstn_length, skipn_length, H. reflexivity. Qed.


(** Leaving the partial-block loop: either the block is full or the input is exhausted. *)
Lemma cfb_partial_end enc : forall inp buf j b j' rest out, j <= 8 -> cfb_partial enc buf j inp = (b, j', rest, out) ->
  j' <= 8 /\ (j' <> 8 -> rest = nil).
Proof.
  induction inp as [|x t IH]; intros buf j b j' rest out L H; cbn [cfb_partial] in H.
  - assert (j = j') by congruence. assert (rest = nil) by congruence. subst. auto.
  - destruct (Nat.ltb_spec j 8) as [G|G].
    + destruct (cfb_partial enc _ (S j) t) as [[[b1 j1] r1] o1] eqn:Q. apply IH in Q; [|lia].
      assert (j1 = j') by congruence. assert (r1 = rest) by congruence. subst. exact Q.
    + assert (j = j') by congruence. subst. split; lia.
Qed.
Definition num8 (c : evp) : Prop := (e_num c < 8)%N.
Definition stream8 (c : evp) : Prop := evp_shape c /\ num8 c.

Lemma cfb_end_num n m c i o : e_num (snd (cfb_end n m c i o)) = N.of_nat n.
Proof.
  unfold cfb_end. cbn zeta. generalize (gost_crypt_mesh c). intros c1.
  destruct (e_enc c1) eqn:En; cbn [snd].
  - change (e_enc (with_num c1 (N.of_nat n))) with (e_enc c1). rewrite En. reflexivity.
  - change (e_enc (with_num (with_buf c1 (overwrite (e_buf c1) 8 (rd m i n))) (N.of_nat n))) with (e_enc c1). rewrite En. reflexivity.
Qed.
Lemma cfb_main_num m c i o n : evp_shape c -> ok i o n -> num8 (snd (cfb_main_mem m c i o n)).
Proof.
  intros Sh O. unfold cfb_main_mem.
  pose proof (mloop_sim evp_shape always _ _ 8 8 (le_n 8) cfb_body_sim n m c i o n Sh O) as M.
  pose proof (block_loop_rest p_cfb_step 8 8 ltac:(lia) ltac:(lia) n c (rd m i n)) as Lr.
  rewrite <- ploop_block_loop in Lr. rewrite rd_length in Lr. specialize (Lr (le_n n)).
  destruct (mloop always cfb_body 8 8 n m c i o n) as [[m1 c1] l].
  destruct (ploop always p_cfb_step 8 8 n c (rd m i n)) as [[c1' rest] out].
  apply seg_op in M; [|exact O]. destruct M as (Ll & <- & -> & R & F & I & O1). cbn [fst snd] in Lr. rewrite rd_length in Lr.
  unfold num8. destruct (Nat.ltb_spec l n) as [G|G]; [rewrite cfb_end_num; lia|cbn; lia].
Qed.

Theorem gost_cfb_sim m c i o n : stream8 c -> ok i o n ->
  op_sim stream8 m o n (gost_cfb_mem m c i o n) (gost_cipher_do_cfb c (rd m i n)).
Proof.
  intros [Sh Nu] O. unfold gost_cfb_mem, gost_cipher_do_cfb. destruct (N.eqb (e_num c) 0).
  { pose proof (cfb_main_sim m c i o n Sh O) as (A & B & D & G). pose proof (cfb_main_num m c i o n Sh O).
    split; [exact A|split; [exact B|split; [exact D|split; assumption]]]. }
  pose proof (mloop_sim len32 (fun s => snd s <? 8) _ _ 1 1 (le_n 1) (cfb_byte_sim (e_enc c)) n m
                (e_buf c, N.to_nat (e_num c)) i o n (proj1 Sh) O) as M.
  rewrite cfb_partial_loop in M by (rewrite rd_length; lia).
  destruct (mloop _ (cfb_byte (e_enc c)) 1 1 n m (e_buf c, N.to_nat (e_num c)) i o n) as [[m1 [b j]] k].
  destruct (cfb_partial (e_enc c) (e_buf c) (N.to_nat (e_num c)) (rd m i n)) as [[[b' j'] rest] out] eqn:Q.
  apply cfb_partial_end in Q as [Lj Hr]; [|unfold num8 in Nu; lia].
  apply seg_op in M; [|exact O]. destruct M as (Lk & E & Re & R & F & I & O1).
  assert (b = b') by congruence. assert (j = j') by congruence. subst b' j'. unfold len32 in I. cbn [fst] in I.
  destruct (Nat.eqb_spec j 8) as [Hj|Hj].
  - rewrite Re.
    assert (S1 : evp_shape (with_num (with_iv (with_buf c b) (sub 8 8 b)) 0)) by (split; [exact I|apply sub88_len, I]).
    pose proof (cfb_main_sim m1 _ (i + k) (o + k) (n - k) S1 O1) as P.
    pose proof (cfb_main_num m1 _ (i + k) (o + k) (n - k) S1 O1) as P2.
    destruct (cfb_main _ (rd m1 (i + k) (n - k))) as [c2 o2].
    apply (op_seq evp_shape m o n m1 k out _ _ Lk R F) in P. destruct P as (A & B & D & G).
    split; [exact A|split; [exact B|split; [exact D|split; assumption]]].
  - assert (k = n) by (pose proof (Hr Hj) as Z; rewrite Re in Z; apply rd_nil in Z; lia). subst k.
    split; [reflexivity|]. split; [exact R|]. split; [exact F|]. split; [split; [exact I|apply Sh]|].
    unfold num8. cbn. lia.
Qed.

(** * CNT *)
Definition p_cnt_part (n : nat) (c : evp) (inp : list N) : evp * list N :=
  let c := gost_cnt_next c in (c, xorl (firstn n (e_buf c)) inp).
Lemma cnt_blocks_loop fuel : forall c inp, cnt_blocks fuel c inp = ploop always (p_cnt_part 8) 8 8 fuel c inp.
Proof.
  induction fuel as [|f IH]; intros c inp; [reflexivity|]. cbn [cnt_blocks ploop]. unfold always at 1.
  rewrite andb_true_r. destruct (8 <=? length inp); [|reflexivity]. rewrite IH. reflexivity.
Qed.
Lemma cnt_part_sim n : n <= 8 -> step_sim evp_shape n (p_cnt_part n) (cnt_part n).
Proof.
  intros Hn m c i o Sh O. unfold p_cnt_part, cnt_part. cbn zeta.
  pose proof (shape_cnt c Sh) as S1. set (c1 := gost_cnt_next c) in *. clearbody c1. cbn [fst snd].
  assert (L : length (firstn n (e_buf c1)) = n) by (rewrite firstn_length; destruct S1 as [-> _]; lia).
  rewrite (xor_loop_rd _ m i o n L O). split; [reflexivity|]. split; [reflexivity|]. split; [apply xor_loop_frame; auto|exact S1].
Qed.
Lemma cnt_rest_eq' c inp : inp <> nil ->
  cnt_rest c inp = (with_num (fst (p_cnt_part (length inp) c inp)) (N.of_nat (length inp)), snd (p_cnt_part (length inp) c inp)).
Proof. destruct inp; [congruence|]. intros _. reflexivity. Qed.
Lemma cnt_main_sim m c i o n : evp_shape c -> ok i o n ->
  op_sim stream8 m o n (cnt_main_mem m c i o n) (cnt_main c (rd m i n)).
Proof.
  intros Sh O. unfold cnt_main_mem, cnt_main. rewrite rd_length, cnt_blocks_loop.
  pose proof (mloop_sim evp_shape always _ _ 8 8 (le_n 8) (cnt_part_sim 8 (le_n 8)) n m c i o n Sh O) as M.
  pose proof (block_loop_rest (p_cnt_part 8) 8 8 ltac:(lia) ltac:(lia) n c (rd m i n)) as Lr.
  rewrite <- ploop_block_loop in Lr. rewrite rd_length in Lr. specialize (Lr (le_n n)).
  destruct (mloop always (cnt_part 8) 8 8 n m c i o n) as [[m1 c1] l].
  destruct (ploop always (p_cnt_part 8) 8 8 n c (rd m i n)) as [[c1' rest] out].
  apply seg_op in M; [|exact O]. destruct M as (Ll & <- & -> & R & F & I & O1). cbn [fst snd] in Lr. rewrite rd_length in Lr.
  destruct (Nat.ltb_spec l n) as [G|G].
  - rewrite cnt_rest_eq' by (intros E; apply rd_nil in E; lia). rewrite rd_length.
    pose proof (step_op evp_shape (n - l) _ _ m1 c1 (i + l) (o + l) (cnt_part_sim (n - l) ltac:(lia)) I O1) as P.
    destruct (p_cnt_part (n - l) c1 (rd m1 (i + l) (n - l))) as [c2' o2].
    destruct (cnt_part (n - l) m1 c1 (i + l) (o + l)) as [m2 c2].
    apply (op_seq evp_shape m o n m1 l out _ _ Ll R F) in P.
    destruct P as (A & B & D & H). cbn [fst snd] in *. subst c2.
    split; [reflexivity|]. split; [exact B|]. split; [exact D|]. split; [apply shape_with_num, H|].
    unfold num8. cbn [e_num with_num snd]. lia.
  - assert (l = n) by lia. subst l. rewrite Nat.sub_diag. cbn [rd seq map cnt_rest].
    rewrite app_nil_r. split; [reflexivity|]. split; [exact R|]. split; [exact F|]. split; [apply shape_with_num, I|].
    unfold num8. cbn. lia.
Qed.
Definition p_ks_byte (buf : list N) (j : nat) (x : list N) : nat * list N := (S j, [N.lxor (nth j buf 0%N) (hd 0%N x)]).
Lemma ks_partial_loop buf bs : forall inp fuel j, length inp <= fuel ->
  ploop (fun j => j <? bs) (p_ks_byte buf) 1 1 fuel j inp = ks_partial buf bs j inp.
Proof.
  induction inp as [|x t IH]; intros fuel j L.
  - destruct fuel; reflexivity.
  - destruct fuel as [|f]; [cbn in L; lia|]. cbn [ploop ks_partial length].
    replace (1 <=? S (length t)) with true by reflexivity. cbn [andb].
    destruct (j <? bs); [|reflexivity]. cbn [firstn skipn]. unfold p_ks_byte at 1. cbn [hd].
    rewrite IH by (cbn in L; lia).
    destruct (ks_partial buf bs (S j) t) as [[j' rest] out]. reflexivity.
Qed.
Lemma ks_byte_sim buf : step_sim (fun _ => True) 1 (p_ks_byte buf) (ks_byte buf).
Proof.
  intros m j i o _ O. unfold p_ks_byte, ks_byte. cbn [rd seq map hd fst snd]. rewrite upd_same.
  split; [reflexivity|]. split; [reflexivity|]. split; [apply frame_upd|exact I].
Qed.
Lemma ks_partial_end buf bs : forall inp j j' rest out, j <= bs -> ks_partial buf bs j inp = (j', rest, out) ->
  j' <= bs /\ (j' <> bs -> rest = nil).
Proof.
  induction inp as [|x t IH]; intros j j' rest out L H; cbn [ks_partial] in H.
  - assert (j = j') by congruence. assert (rest = nil) by congruence. subst. auto.
  - destruct (Nat.ltb_spec j bs) as [G|G].
    + destruct (ks_partial buf bs (S j) t) as [[j1 r1] o1] eqn:Q. apply IH in Q; [|lia].
      assert (j1 = j') by congruence. assert (r1 = rest) by congruence. subst. exact Q.
    + assert (j = j') by congruence. subst. split; lia.
Qed.
Theorem gost_cnt_sim m c i o n : stream8 c -> ok i o n ->
  op_sim stream8 m o n (gost_cnt_mem m c i o n) (gost_cipher_do_cnt c (rd m i n)).
Proof.
  intros [Sh Nu] O. unfold gost_cnt_mem, gost_cipher_do_cnt. destruct (N.eqb (e_num c) 0); [apply cnt_main_sim; auto|].
  pose proof (mloop_sim (fun _ => True) (fun j => j <? 8) _ _ 1 1 (le_n 1) (ks_byte_sim (e_buf c)) n m
                (N.to_nat (e_num c)) i o n I O) as M.
  rewrite ks_partial_loop in M by (rewrite rd_length; lia).
  destruct (mloop _ (ks_byte (e_buf c)) 1 1 n m (N.to_nat (e_num c)) i o n) as [[m1 j] k].
  destruct (ks_partial (e_buf c) 8 (N.to_nat (e_num c)) (rd m i n)) as [[j' rest] out] eqn:Q.
  apply ks_partial_end in Q as [Lj Hr]; [|unfold num8 in Nu; lia].
  apply seg_op in M; [|exact O]. destruct M as (Lk & <- & Re & R & F & _ & O1).
  destruct (Nat.eqb_spec j 8) as [Hj|Hj].
  - rewrite Re. pose proof (cnt_main_sim m1 (with_num c 0) (i + k) (o + k) (n - k) (shape_with_num _ _ Sh) O1) as P.
    destruct (cnt_main _ (rd m1 (i + k) (n - k))) as [c2 o2].
    exact (op_seq stream8 m o n m1 k out _ _ Lk R F P).
  - assert (k = n) by (pose proof (Hr Hj) as Z; rewrite Re in Z; apply rd_nil in Z; lia). subst k.
    split; [reflexivity|]. split; [exact R|]. split; [exact F|]. split; [apply shape_with_num, Sh|].
    unfold num8. cbn. lia.
Qed.

(** * CBC and ECB *)
Definition p_cbc_enc (E : gost_ctx -> list N -> list N) (c : evp) (b : list N) : evp * list N :=
  let o := E (e_g c) (xorl (e_iv c) b) in (with_iv c o, o).
Definition p_cbc_dec (D : gost_ctx -> list N -> list N) (c : evp) (b : list N) : evp * list N :=
  let o := xorl (e_iv c) (D (e_g c) b) in (with_iv c b, o).
Lemma with_iv_iv c a b : with_iv (with_iv c a) b = with_iv c b.
Proof. reflexivity. Qed.
Lemma with_iv_id c : with_iv c (e_iv c) = c.
Proof. destruct c; reflexivity. Qed.
Lemma whole_cases fuel q (inp : list N) : length inp = q * 8 -> q <= fuel ->
  (inp = nil /\ q = 0) \/ (exists f q', fuel = S f /\ q = S q' /\ inp <> nil /\ 8 <= length inp /\ length (skipn 8 inp) = q' * 8 /\ q' <= f).
Proof.
  intros L F. destruct q as [|q]; [left; destruct inp; [auto|discriminate L]|right].
  destruct fuel as [|f]; [lia|]. exists f, q. rewrite skipn_length.
  repeat split; try lia. intros ->. cbn in L. lia.
Qed.
Lemma cbc_enc_loop E c : forall fuel q iv inp, length inp = q * 8 -> q <= fuel ->
  ploop always (p_cbc_enc E) 8 8 fuel (with_iv c iv) inp =
  let (iv', out) := cbc_enc_blocks (E (e_g c)) iv (blocks 8 inp) in (with_iv c iv', nil, out).
Proof.
  induction fuel as [|f IH]; intros q iv inp L F; destruct (whole_cases _ _ _ L F) as [[-> _]|(f' & q' & Ef & -> & Hn & H8 & L' & F')]; try lia; try reflexivity.
  injection Ef as <-. rewrite (blocks_step 8) by (auto; lia). cbn [ploop cbc_enc_blocks]. unfold always at 1. rewrite andb_true_r.
  replace (8 <=? length inp) with true by (symmetry; apply Nat.leb_le; exact H8).
  unfold p_cbc_enc at 1. cbn [e_g e_iv with_iv]. rewrite with_iv_iv. rewrite (IH q') by assumption.
  destruct (cbc_enc_blocks _ _ (blocks 8 (skipn 8 inp))) as [iv' out]. reflexivity.
Qed.
Lemma cbc_dec_loop D c : forall fuel q iv inp, length inp = q * 8 -> q <= fuel ->
  ploop always (p_cbc_dec D) 8 8 fuel (with_iv c iv) inp =
  let (iv', out) := cbc_dec_blocks (D (e_g c)) iv (blocks 8 inp) in (with_iv c iv', nil, out).
Proof.
  induction fuel as [|f IH]; intros q iv inp L F; destruct (whole_cases _ _ _ L F) as [[-> _]|(f' & q' & Ef & -> & Hn & H8 & L' & F')]; try lia; try reflexivity.
  injection Ef as <-. rewrite (blocks_step 8) by (auto; lia). cbn [ploop cbc_dec_blocks]. unfold always at 1. rewrite andb_true_r.
  replace (8 <=? length inp) with true by (symmetry; apply Nat.leb_le; exact H8).
  unfold p_cbc_dec at 1. cbn [e_g e_iv with_iv]. rewrite with_iv_iv. rewrite (IH q') by assumption.
  destruct (cbc_dec_blocks _ _ (blocks 8 (skipn 8 inp))) as [iv' out]. reflexivity.
Qed.
(** A loop over whole blocks as an operation. *)
Lemma whole_op {C} (Inv : C -> Prop) pstep mstep bs m c i o q fuel c' out : 0 < bs -> step_sim Inv bs pstep mstep -> Inv c -> ok i o (q * bs) ->
  ploop always pstep bs bs fuel c (rd m i (q * bs)) = (c', nil, out) ->
  op_sim Inv m o (q * bs) (fst (mloop always mstep bs 1 fuel m c i o (q * bs))) (c', out).
Proof.
  intros Pb S Ic O P. rewrite mloop_bound1 by exact Pb.
  pose proof (mloop_sim Inv always pstep mstep bs bs (le_n bs) S fuel m c i o (q * bs) Ic O) as M. rewrite P in M.
  destruct (mloop always mstep bs bs fuel m c i o (q * bs)) as [[m1 c1] k].
  destruct M as (Lk & E & R & R1 & F & I1). cbn [fst snd] in *. apply rd_nil in R.
  assert (k = q * bs) by lia. subst k. repeat split; assumption.
Qed.
Lemma gost_cbc_enc_sim : step_sim evp_shape 8 (p_cbc_enc gostcrypt) gost_cbc_enc_body.
Proof.
  intros m c i o Sh O. unfold p_cbc_enc, gost_cbc_enc_body. cbn zeta. cbn [fst snd].
  set (y := gostcrypt (e_g c) _). assert (L : length y = 8) by apply gostcrypt_length. clearbody y.
  rewrite (wr_rd' y m o 8 L). split; [reflexivity|]. split; [reflexivity|]. split; [apply wr_frame', L|apply shape_with_iv; assumption].
Qed.
Lemma cbc_dec_sim D body : (forall g b, length (D g b) = 8) ->
  (forall m c i o, body m c i o = (wr m o (xorl (e_iv c) (D (e_g c) (rd m i 8))), with_iv c (rd m i 8))) ->
  step_sim evp_shape 8 (p_cbc_dec D) body.
Proof.
  intros LD Eb m c i o Sh O. rewrite Eb. unfold p_cbc_dec. cbn zeta. cbn [fst snd].
  assert (L : length (xorl (e_iv c) (D (e_g c) (rd m i 8))) = 8) by (rewrite xorl_length, LD; destruct Sh as [_ ->]; reflexivity).
  rewrite (wr_rd' _ m o 8 L). split; [reflexivity|]. split; [reflexivity|]. split; [apply wr_frame', L|].
  apply shape_with_iv; [assumption|apply rd_length].
Qed.
Lemma magma_cbc_enc_sim : step_sim evp_shape 8 (p_cbc_enc magmacrypt) magma_cbc_enc_body.
Proof.
  intros m c i o Sh O. unfold p_cbc_enc, magma_cbc_enc_body. cbn zeta. cbn [fst snd].
  assert (Li : length (e_iv c) = 8) by apply Sh.
  rewrite (xor_loop_rd _ m i o 8 Li O). pose proof (xor_loop_frame (e_iv c) m i o 8 Li O) as F1.
  set (y := magmacrypt (e_g c) _). assert (L : length y = 8) by apply magmacrypt_length. clearbody y.
  rewrite (wr_rd' y _ o 8 L). split; [reflexivity|]. split; [reflexivity|].
  split; [eapply frame_trans; [exact F1|apply wr_frame', L]|apply shape_with_iv; assumption].
Qed.
Theorem gost_cbc_sim m c i o q : evp_shape c -> ok i o (q * 8) ->
  op_sim evp_shape m o (q * 8) (gost_cbc_mem m c i o (q * 8)) (gost_cipher_do_cbc c (rd m i (q * 8))).
Proof.
  intros Sh O. unfold gost_cbc_mem, gost_cipher_do_cbc.
  destruct (e_enc c).
  - pose proof (cbc_enc_loop gostcrypt c (q * 8) q (e_iv c) (rd m i (q * 8)) (rd_length _ _ _) ltac:(lia)) as P.
    rewrite with_iv_id in P. destruct (cbc_enc_blocks _ _ _) as [iv' out].
    exact (whole_op evp_shape _ _ 8 m c i o q _ _ _ ltac:(lia) gost_cbc_enc_sim Sh O P).
  - pose proof (cbc_dec_loop gostdecrypt c (q * 8) q (e_iv c) (rd m i (q * 8)) (rd_length _ _ _) ltac:(lia)) as P.
    rewrite with_iv_id in P. destruct (cbc_dec_blocks _ _ _) as [iv' out].
    refine (whole_op evp_shape _ _ 8 m c i o q _ _ _ ltac:(lia) _ Sh O P).
    apply cbc_dec_sim; [apply gostdecrypt_length|reflexivity].
Qed.
Theorem magma_cbc_sim m c i o q : evp_shape c -> ok i o (q * 8) ->
  op_sim evp_shape m o (q * 8) (magma_cbc_mem m c i o (q * 8)) (magma_cipher_do_cbc c (rd m i (q * 8))).
Proof.
  intros Sh O. unfold magma_cbc_mem, magma_cipher_do_cbc.
  destruct (e_enc c).
  - pose proof (cbc_enc_loop magmacrypt c (q * 8) q (e_iv c) (rd m i (q * 8)) (rd_length _ _ _) ltac:(lia)) as P.
    rewrite with_iv_id in P. destruct (cbc_enc_blocks _ _ _) as [iv' out].
    exact (whole_op evp_shape _ _ 8 m c i o q _ _ _ ltac:(lia) magma_cbc_enc_sim Sh O P).
  - pose proof (cbc_dec_loop magmadecrypt c (q * 8) q (e_iv c) (rd m i (q * 8)) (rd_length _ _ _) ltac:(lia)) as P.
    rewrite with_iv_id in P. destruct (cbc_dec_blocks _ _ _) as [iv' out].
    refine (whole_op evp_shape _ _ 8 m c i o q _ _ _ ltac:(lia) _ Sh O P).
    apply cbc_dec_sim; [apply magmadecrypt_length|reflexivity].
Qed.
Definition p_ecb (f : evp -> list N -> list N) (c : evp) (b : list N) : evp * list N := (c, f c b).
Lemma ecb_loop {C} (f : list N -> list N) (c : C) : forall fuel q inp, length inp = q * 8 -> q <= fuel ->
  ploop always (fun (c : C) b => (c, f b)) 8 8 fuel c inp = (c, nil, flat_map f (blocks 8 inp)).
Proof.
  induction fuel as [|fu IH]; intros q inp L F; destruct (whole_cases _ _ _ L F) as [[-> _]|(f' & q' & Ef & -> & Hn & H8 & L' & F')]; try lia; try reflexivity.
  injection Ef as <-. rewrite (blocks_step 8) by (auto; lia). cbn [ploop flat_map]. unfold always at 1. rewrite andb_true_r.
  replace (8 <=? length inp) with true by (symmetry; apply Nat.leb_le; exact H8).
  rewrite (IH q') by assumption. reflexivity.
Qed.
Definition magma_fn (c : evp) : list N -> list N := (if e_enc c then magmacrypt else magmadecrypt) (e_g c).
Lemma magma_fn_len c b : length (magma_fn c b) = 8.
Proof. unfold magma_fn. destruct (e_enc c); [apply magmacrypt_length|apply magmadecrypt_length]. Qed.
Theorem magma_ecb_sim m c i o q : ok i o (q * 8) ->
  op_sim (fun c' => c' = c) m o (q * 8) (magma_ecb_mem m c i o (q * 8)) (magma_cipher_do_ecb c (rd m i (q * 8))).
Proof.
  intros O. unfold magma_ecb_mem, magma_cipher_do_ecb. fold (magma_fn c).
  pose proof (ecb_loop (magma_fn c) c (q * 8) q (rd m i (q * 8)) (rd_length _ _ _) ltac:(lia)) as P.
  refine (whole_op (fun c' => c' = c) _ _ 8 m c i o q _ _ _ ltac:(lia) _ eq_refl O P).
  intros m0 c0 i0 o0 -> O0. unfold magma_ecb_body. fold (magma_fn c). cbn [fst snd].
  rewrite (wr_rd' _ m0 o0 8 (magma_fn_len c _)). split; [reflexivity|]. split; [reflexivity|]. split; [apply wr_frame', magma_fn_len|reflexivity].
Qed.

(** * Magma CTR *)
Lemma inc_le_len8 l : length (inc_le l) = length l.
Proof. induction l as [|b t IH]; [reflexivity|]. cbn [inc_le]. destruct (N.eqb _ 0); cbn [length]; congruence. Qed.
Lemma inc_counter_len8 l : length (inc_counter l) = length l.
Proof. unfold inc_counter. rewrite rev_length, inc_le_len8, rev_length. reflexivity. Qed.
Lemma shape_acpkm c : evp_shape c -> evp_shape (apply_acpkm_magma c).
Proof. intros [A B]. unfold apply_acpkm_magma. destruct (_ || _)%bool; split; assumption. Qed.
Definition p_mctr_part (n : nat) (c : evp) (inp : list N) : evp * list N :=
  let c := magma_ctr_block c in
  (with_num c (w32 (e_num c + N.of_nat n)), xorl (firstn n (e_buf c)) inp).
Lemma mctr_part_sim n : n <= 8 -> step_sim evp_shape n (p_mctr_part n) (magma_ctr_part n).
Proof.
  intros Hn m c i o Sh O. unfold p_mctr_part, magma_ctr_part, magma_ctr_block. cbn zeta.
  pose proof (shape_acpkm c Sh) as S1. set (c1 := apply_acpkm_magma c) in *. clearbody c1.
  set (y := magmacrypt (e_g c1) (e_iv c1)). assert (Ly : length y = 8) by apply magmacrypt_length. clearbody y.
  cbn [fst snd e_buf e_iv e_num e_count with_buf with_iv with_count].
  assert (Lb : length (overwrite (e_buf c1) 0 y) = 32) by (apply overwrite0_len; [apply S1|exact Ly]).
  assert (L : length (firstn n (overwrite (e_buf c1) 0 y)) = n) by (rewrite firstn_length, Lb; lia).
  rewrite (xor_loop_rd _ m i o n L O). split; [reflexivity|]. split; [reflexivity|]. split; [apply xor_loop_frame; auto|].
  split; cbn [e_buf e_iv with_num with_buf with_iv with_count]; [exact Lb|]. rewrite inc_counter_len8. apply S1.
Qed.
Opaque magma_ctr_block.
Lemma mctr_blocks_loop fuel : forall c inp, magma_ctr_blocks fuel c inp = ploop always (p_mctr_part 8) 8 8 fuel c inp.
Proof.
  induction fuel as [|f IH]; intros c inp; [reflexivity|]. cbn [magma_ctr_blocks ploop]. unfold always at 1.
  rewrite andb_true_r. destruct (8 <=? length inp); [|reflexivity]. rewrite IH. reflexivity.
Qed.
Definition p_mctr_byte (c : evp) (x : list N) : evp * list N :=
  (with_num c (w32 (e_num c + 1)), [N.lxor (hd 0%N x) (nth (N.to_nat (N.land (e_num c) 7)) (e_buf c) 0%N)]).
Lemma mctr_byte_sim : step_sim evp_shape 1 p_mctr_byte magma_ctr_byte.
Proof.
  intros m c i o Sh O. unfold p_mctr_byte, magma_ctr_byte. cbn [rd seq map hd fst snd]. rewrite upd_same.
  split; [reflexivity|]. split; [reflexivity|]. split; [apply frame_upd|apply shape_with_num, Sh].
Qed.
Lemma mctr_partial_loop : forall inp fuel c, length inp <= fuel ->
  ploop (fun c => negb (N.eqb (N.land (e_num c) 7) 0)) p_mctr_byte 1 1 fuel c inp = magma_ctr_partial c inp.
Proof.
  induction inp as [|x t IH]; intros fuel c L.
  - destruct fuel; reflexivity.
  - destruct fuel as [|f]; [cbn in L; lia|]. cbn [ploop magma_ctr_partial length].
    replace (1 <=? S (length t)) with true by reflexivity. cbn [andb].
    destruct (N.eqb (N.land (e_num c) 7) 0); cbn [negb]; [reflexivity|]. cbn [firstn skipn]. unfold p_mctr_byte at 1. cbn [hd].
    rewrite IH by (cbn in L; lia).
    destruct (magma_ctr_partial _ t) as [[j' rest] out]. reflexivity.
Qed.
Lemma op_intro {C} (Inv : C -> Prop) m o n m' c' c1 out : c' = c1 -> rd m' o n = out -> frame m m' o n -> Inv c' ->
  op_sim Inv m o n (m', c') (c1, out).
Proof. intros. repeat split; assumption. Qed.

Theorem magma_ctr_sim m c i o n : evp_shape c -> ok i o n ->
  op_sim evp_shape m o n (magma_ctr_mem m c i o n) (magma_cipher_do_ctr c (rd m i n)).
Proof.
  intros Sh O. unfold magma_ctr_mem, magma_cipher_do_ctr.
  pose proof (mloop_sim evp_shape (fun c => negb (N.eqb (N.land (e_num c) 7) 0)) _ _ 1 1 (le_n 1) mctr_byte_sim n m c i o n Sh O) as M.
  rewrite mctr_partial_loop in M by (rewrite rd_length; lia).
  destruct (mloop _ magma_ctr_byte 1 1 n m c i o n) as [[m1 c1] k].
  destruct (magma_ctr_partial c (rd m i n)) as [[c1' inp1] o1].
  apply seg_op in M; [|exact O]. destruct M as (Lk & <- & -> & R & F & I & O1). rewrite rd_length.
  rewrite mctr_blocks_loop.
  pose proof (mloop_sim evp_shape always _ _ 8 8 (le_n 8) (mctr_part_sim 8 (le_n 8)) n m1 c1 (i + k) (o + k) (n - k) I O1) as M2.
  pose proof (block_loop_rest (p_mctr_part 8) 8 8 ltac:(lia) ltac:(lia) (n - k) c1 (rd m1 (i + k) (n - k))) as Lr.
  pose proof (block_loop_fuel (p_mctr_part 8) 8 8 ltac:(lia) ltac:(lia) n (n - k) c1 (rd m1 (i + k) (n - k))) as Lf.
  rewrite rd_length in Lr, Lf. specialize (Lr (le_n _)). specialize (Lf ltac:(lia) (le_n _)).
  rewrite <- !ploop_block_loop in Lf. rewrite <- ploop_block_loop in Lr. rewrite Lf in M2.
  destruct (mloop always (magma_ctr_part 8) 8 8 n m1 c1 (i + k) (o + k) (n - k)) as [[m2 c2] l].
  destruct (ploop always (p_mctr_part 8) 8 8 (n - k) c1 (rd m1 (i + k) (n - k))) as [[c2' rest] o2].
  apply seg_op in M2; [|exact O1]. destruct M2 as (Ll & <- & Er & R2 & F2 & I2 & O2).
  cbn [fst snd] in Lr. subst rest. rewrite rd_length in Lr. cbv zeta.
  destruct (Nat.ltb_spec 0 (n - k - l)) as [G|G].
  - pose proof (step_op evp_shape (n - k - l) _ _ m2 c2 (i + k + l) (o + k + l) (mctr_part_sim (n - k - l) ltac:(lia)) I2 O2) as P.
    apply (op_seq evp_shape m1 (o + k) (n - k) m2 l o2 _ _ Ll R2 F2) in P.
    apply (op_seq evp_shape m o n m1 k o1 _ _ Lk R F) in P. cbn [fst snd] in P.
    unfold p_mctr_part in P. cbv zeta in P. cbn [fst snd] in P.
    destruct (rd m2 (i + k + l) (n - k - l)) eqn:Er; [apply rd_nil in Er; lia|]. rewrite <- Er in *. rewrite rd_length. exact P.
  - assert (l = n - k) by lia. subst l. rewrite Nat.sub_diag. cbn [rd seq map].
    assert (P : op_sim evp_shape m1 (o + k) (n - k) (m2, c2) (c2, o2)) by (apply op_intro; auto).
    apply (op_seq evp_shape m o n m1 k o1 _ _ Lk R F) in P. exact P.
Qed.

(** * The multi-block functions of gost89.c *)
Lemma gost_enc_flat g : forall n inp, length inp = n * 8 -> gost_enc g inp n = flat_map (gostcrypt g) (blocks 8 inp).
Proof.
  induction n as [|n IH]; intros inp L; [destruct inp; [reflexivity|discriminate L]|].
  assert (inp <> nil) by (intros ->; cbn in L; lia). rewrite (blocks_step 8) by (auto; lia).
  cbn [gost_enc flat_map]. rewrite IH by (rewrite skipn_length, L; lia). reflexivity.
Qed.
Lemma gost_dec_flat g : forall n inp, length inp = n * 8 -> gost_dec g inp n = flat_map (gostdecrypt g) (blocks 8 inp).
Proof.
  induction n as [|n IH]; intros inp L; [destruct inp; [reflexivity|discriminate L]|].
  assert (inp <> nil) by (intros ->; cbn in L; lia). rewrite (blocks_step 8) by (auto; lia).
  cbn [gost_dec flat_map]. rewrite IH by (rewrite skipn_length, L; lia). reflexivity.
Qed.
Lemma ecb_body_sim f : (forall b, length (f b) = 8) -> step_sim (fun _ : unit => True) 8 (fun c b => (c, f b)) (gost_ecb_body f).
Proof.
  intros Lf m c i o _ O. unfold gost_ecb_body. cbn [fst snd]. rewrite (wr_rd' _ m o 8 (Lf _)).
  split; [reflexivity|]. split; [reflexivity|]. split; [apply wr_frame', Lf|exact I].
Qed.
Lemma seg_full {C} (Inv : C -> Prop) m i o n r c' out : seg_sim Inv m i o n r (c', nil, out) ->
  rd (fst (fst r)) o n = out /\ frame m (fst (fst r)) o n.
Proof.
  intros (Lk & E & R & R1 & F & I1). cbn [fst snd] in *. apply rd_nil in R. assert (Z : snd r = n) by lia. rewrite Z in *.
  split; assumption.
Qed.
Lemma gost_ecb_mem_ok f m i o b : (forall x, length (f x) = 8) -> ok i o (8 * b) ->
  let m' := fst (fst (mloop always (gost_ecb_body f) 8 8 b m tt i o (8 * b))) in
  rd m' o (8 * b) = flat_map f (blocks 8 (rd m i (8 * b))) /\ frame m m' o (8 * b).
Proof.
  intros Lf O. cbv zeta.
  pose proof (mloop_sim (fun _ : unit => True) always _ _ 8 8 (le_n 8) (ecb_body_sim f Lf) b m tt i o (8 * b) I O) as M.
  rewrite (ecb_loop f tt b b) in M by (rewrite ?rd_length; lia).
  exact (seg_full _ _ _ _ _ _ _ _ M).
Qed.
Lemma enc_cfb_inner_ok gm : forall m i o, ok i o (length gm) ->
  let r := enc_cfb_inner gm m i o in
  snd r = xorl (rd m i (length gm)) gm /\ rd (fst r) o (length gm) = snd r /\ frame m (fst r) o (length gm).
Proof.
  induction gm as [|k t IH]; intros m i o O; cbn [enc_cfb_inner length].
  - cbn [fst snd]. split; [reflexivity|]. split; [reflexivity|apply frame_refl].
  - set (m1 := upd m o (N.lxor (m i) k)). specialize (IH m1 (S i) (S o)). cbn [length] in O.
    cbv zeta in *. destruct (enc_cfb_inner t m1 (S i) (S o)) as [m2 v]. cbn [fst snd] in *.
    destruct IH as (A & B & D); [unfold ok in *; lia|]. rewrite !rd_S. cbn [xorl]. split; [|split].
    + f_equal. rewrite A. f_equal. apply rd_ext. intros x Hx. apply upd_other. unfold ok in O. lia.
    + rewrite (D o) by lia. rewrite B. unfold m1. rewrite upd_same. reflexivity.
    + intros a Ha. rewrite (D a) by lia. apply upd_other. lia.
Qed.
Lemma dec_cfb_inner_ok gm : forall m i o, ok i o (length gm) ->
  let r := dec_cfb_inner gm m i o in
  snd r = rd m i (length gm) /\ rd (fst r) o (length gm) = xorl (rd m i (length gm)) gm /\ frame m (fst r) o (length gm).
Proof.
  induction gm as [|k t IH]; intros m i o O; cbn [dec_cfb_inner length].
  - cbn [fst snd]. split; [reflexivity|]. split; [reflexivity|apply frame_refl].
  - set (m1 := upd m o (N.lxor (m i) k)). specialize (IH m1 (S i) (S o)). cbn [length] in O.
    cbv zeta in *. fold m1. destruct (dec_cfb_inner t m1 (S i) (S o)) as [m2 v]. cbn [fst snd] in *.
    destruct IH as (A & B & D); [unfold ok in *; lia|]. rewrite !rd_S. cbn [xorl].
    assert (Q : rd m1 (S i) (length t) = rd m (S i) (length t)) by (apply rd_ext; intros x Hx; apply upd_other; unfold ok in O; lia).
    rewrite Q in A, B. split; [|split].
    + f_equal. exact A.
    + rewrite (D o) by lia. rewrite B. unfold m1. rewrite upd_same. reflexivity.
    + intros a Ha. rewrite (D a) by lia. apply upd_other. lia.
Qed.
Definition p_enc_cfb (g : gost_ctx) (iv b : list N) : list N * list N := let o := xorl b (gostcrypt g iv) in (o, o).
Definition p_dec_cfb (g : gost_ctx) (iv b : list N) : list N * list N := (b, xorl b (gostcrypt g iv)).
Lemma enc_cfb_loop g : forall n iv inp, length inp = 8 * n ->
  ploop always (p_enc_cfb g) 8 8 n iv inp = (fst (fst (ploop always (p_enc_cfb g) 8 8 n iv inp)), nil, gost_enc_cfb g iv inp n).
Proof.
  induction n as [|n IH]; intros iv inp L; [destruct inp; [reflexivity|discriminate L]|].
  cbn [ploop gost_enc_cfb]. unfold always at 1 3. rewrite andb_true_r.
  replace (8 <=? length inp) with true by (symmetry; apply Nat.leb_le; lia).
  unfold p_enc_cfb at 1 3. cbv zeta. rewrite IH by (rewrite skipn_length; lia). reflexivity.
Qed.
Lemma dec_cfb_loop g : forall n iv inp, length inp = 8 * n ->
  ploop always (p_dec_cfb g) 8 8 n iv inp = (fst (fst (ploop always (p_dec_cfb g) 8 8 n iv inp)), nil, gost_dec_cfb g iv inp n).
Proof.
  induction n as [|n IH]; intros iv inp L; [destruct inp; [reflexivity|discriminate L]|].
  cbn [ploop gost_dec_cfb]. unfold always at 1 3. rewrite andb_true_r.
  replace (8 <=? length inp) with true by (symmetry; apply Nat.leb_le; lia).
  unfold p_dec_cfb at 1 3. cbv zeta. rewrite IH by (rewrite skipn_length; lia). reflexivity.
Qed.
Lemma gost_enc_cfb_mem_ok g iv m i o b : ok i o (8 * b) ->
  rd (gost_enc_cfb_mem g iv m i o b) o (8 * b) = gost_enc_cfb g iv (rd m i (8 * b)) b /\ frame m (gost_enc_cfb_mem g iv m i o b) o (8 * b).
Proof.
  intros O. unfold gost_enc_cfb_mem.
  assert (S : step_sim (fun _ : list N => True) 8 (p_enc_cfb g) (fun m iv i o => enc_cfb_inner (gostcrypt g iv) m i o)).
  { intros m0 v i0 o0 _ O0. unfold p_enc_cfb. cbv zeta. cbn [fst snd].
    pose proof (gostcrypt_length g v) as L. set (gm := gostcrypt g v) in *. clearbody gm.
    pose proof (enc_cfb_inner_ok gm m0 i0 o0) as H. rewrite L in H. destruct (H O0) as (A & B & D).
    split; [exact A|]. split; [congruence|]. split; [exact D|exact I]. }
  pose proof (mloop_sim _ always _ _ 8 8 (le_n 8) S b m iv i o (8 * b) I O) as M.
  rewrite enc_cfb_loop in M by (rewrite ?rd_length; lia). exact (seg_full _ _ _ _ _ _ _ _ M).
Qed.
Lemma gost_dec_cfb_mem_ok g iv m i o b : ok i o (8 * b) ->
  rd (gost_dec_cfb_mem g iv m i o b) o (8 * b) = gost_dec_cfb g iv (rd m i (8 * b)) b /\ frame m (gost_dec_cfb_mem g iv m i o b) o (8 * b).
Proof.
  intros O. unfold gost_dec_cfb_mem.
  assert (S : step_sim (fun _ : list N => True) 8 (p_dec_cfb g) (fun m iv i o => dec_cfb_inner (gostcrypt g iv) m i o)).
  { intros m0 v i0 o0 _ O0. unfold p_dec_cfb. cbn [fst snd].
    pose proof (gostcrypt_length g v) as L. set (gm := gostcrypt g v) in *. clearbody gm.
    pose proof (dec_cfb_inner_ok gm m0 i0 o0) as H. rewrite L in H. destruct (H O0) as (A & B & D).
    split; [exact A|]. split; [exact B|]. split; [exact D|exact I]. }
  pose proof (mloop_sim _ always _ _ 8 8 (le_n 8) S b m iv i o (8 * b) I O) as M.
  rewrite dec_cfb_loop in M by (rewrite ?rd_length; lia). exact (seg_full _ _ _ _ _ _ _ _ M).
Qed.
