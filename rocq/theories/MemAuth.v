(** The memory functions of the authenticated modes refine the list functions. *)
From Verif Require Import Bytes BytesProofs Gost89Model CryptModel CryptProofs KuzModel KuzCipherModel MgmModel KdfModel OmacModel EcModel
  CmsParamsModel AeadModel MemModel MemProofs MemCrypt MemKuz MemAuthModel.
Local Open Scope nat_scope.

(** * MGM *)
Section Mgm.
  Variables (bl : nat) (E : list N -> list N) (mul : list N -> list N -> list N).
  Notation enc_byte := (mgm_enc_byte bl E mul).
  Notation dec_byte := (mgm_dec_byte bl E mul).
  Definition p_mgm_byte (dec : bool) (c : mgm) (x : list N) : mgm * list N :=
    let (c, o) := mgm_byte bl E mul dec c (hd 0%N x) in (c, [o]).
  Lemma mgm_bytes_ploop dec : forall inp c fuel, length inp <= fuel ->
    ploop always (p_mgm_byte dec) 1 1 fuel c inp = (fst (mgm_bytes bl E mul dec c inp), nil, snd (mgm_bytes bl E mul dec c inp)).
  Proof.
    induction inp as [|x inp IH]; intros c fuel L.
    - destruct fuel; reflexivity.
    - destruct fuel as [|f]; [cbn in L; lia|]. cbn [ploop length]. unfold always at 1.
      change (1 <=? S (length inp)) with true. cbn [andb firstn skipn mgm_bytes]. unfold p_mgm_byte at 1. cbn [hd].
      destruct (mgm_byte bl E mul dec c x) as [c1 o1]. rewrite IH by (cbn in L; lia).
      destruct (mgm_bytes bl E mul dec c1 inp) as [c2 o2]. reflexivity.
  Qed.
  Lemma mgm_enc_byte_sim : step_sim (fun _ : mgm => True) 1 (p_mgm_byte false) enc_byte.
  Proof.
    intros m c i o _ _. unfold p_mgm_byte, mgm_byte, mgm_enc_byte. cbv zeta. change (hd 0%N (rd m i 1)) with (m i).
    set (c1 := if _ =? 0 then _ else c). clearbody c1. cbn [fst snd].
    rewrite upd_same. split; [reflexivity|]. split; [|split; [apply frame_upd|exact I]].
    change (rd (upd m o (N.lxor (m i) (nth (m_mres c mod bl) (m_EKi c1) 0%N))) o 1) with
      [upd m o (N.lxor (m i) (nth (m_mres c mod bl) (m_EKi c1) 0%N)) o].
    rewrite upd_same. reflexivity.
  Qed.
  Lemma mgm_dec_byte_sim : step_sim (fun _ : mgm => True) 1 (p_mgm_byte true) dec_byte.
  Proof.
    intros m c i o _ _. unfold p_mgm_byte, mgm_byte, mgm_dec_byte. cbv zeta. change (hd 0%N (rd m i 1)) with (m i).
    set (c1 := if _ =? 0 then _ else c). clearbody c1. cbn [fst snd].
    split; [reflexivity|]. split; [|split; [apply frame_upd|exact I]].
    cbn [m_EKi m_w_ACi]. unfold rd. cbn [seq map]. rewrite upd_same. reflexivity.
  Qed.
  Lemma mgm_crypt_sim dec body m c i o n : step_sim (fun _ : mgm => True) 1 (p_mgm_byte dec) body -> ok i o n ->
    let r := mgm_crypt_mem bl E mul body m c i o n in
    let p := mgm_crypt bl E mul dec c (rd m i n) in
    fst r = fst (fst p) /\ snd (snd r) = snd (fst p) /\ frame m (fst (snd r)) o n /\
    (fst r = 0%Z -> rd (fst (snd r)) o n = snd p) /\ (fst r <> 0%Z -> fst (snd r) = m /\ snd p = nil).
  Proof.
    intros S O. cbv zeta. unfold mgm_crypt_mem, mgm_crypt. cbv zeta. rewrite rd_length.
    destruct (_ || _ || _)%bool.
    - cbn [fst snd]. split; [reflexivity|]. split; [reflexivity|]. split; [apply frame_refl|]. split; [congruence|]. auto.
    - set (c1 := flush_aad _ _ _ _). clearbody c1.
      pose proof (mloop_sim _ always _ _ 1 1 (le_n 1) S n m c1 i o n I O) as M.
      rewrite mgm_bytes_ploop in M by (rewrite rd_length; lia).
      pose proof (ploop_all (p_mgm_byte dec) 1 (le_n 1) n n c1 (rd m i n)) as A.
      destruct (mloop always body 1 1 n m c1 i o n) as [[m1 c2] k].
      destruct (mgm_bytes bl E mul dec c1 (rd m i n)) as [c3 out].
      destruct M as (Lk & E1 & R & R1 & F & _). cbn [fst snd] in *.
      assert (k = n) by (apply (f_equal (@length N)) in R; rewrite rd_length in R; cbn in R; lia). subst k.
      split; [reflexivity|]. split; [exact E1|]. split; [exact F|]. split; [auto|]. congruence.
  Qed.
  Theorem mgm_encrypt_sim m c i o n : ok i o n ->
    let r := mgm_encrypt_mem bl E mul m c i o n in
    let p := gost_mgm128_encrypt bl E mul c (rd m i n) in
    fst r = fst (fst p) /\ snd (snd r) = snd (fst p) /\ frame m (fst (snd r)) o n /\
    (fst r = 0%Z -> rd (fst (snd r)) o n = snd p) /\ (fst r <> 0%Z -> fst (snd r) = m /\ snd p = nil).
  Proof. intros O. apply (mgm_crypt_sim false); [apply mgm_enc_byte_sim|exact O]. Qed.
  Theorem mgm_decrypt_sim m c i o n : ok i o n ->
    let r := mgm_decrypt_mem bl E mul m c i o n in
    let p := gost_mgm128_decrypt bl E mul c (rd m i n) in
    fst r = fst (fst p) /\ snd (snd r) = snd (fst p) /\ frame m (fst (snd r)) o n /\
    (fst r = 0%Z -> rd (fst (snd r)) o n = snd p) /\ (fst r <> 0%Z -> fst (snd r) = m /\ snd p = nil).
  Proof. intros O. apply (mgm_crypt_sim true); [apply mgm_dec_byte_sim|exact O]. Qed.
End Mgm.

(** * ctr-acpkm-omac *)
Lemma ae_update_sim (S : suite) stream (Inv : su_ctx S -> Prop) nd m (a : aead S) i o n :
  (forall m x i o n, Inv x -> ok i o n -> op_sim Inv m o n (stream m x i o n) (su_do S x (rd m i n))) ->
  Inv (ae_x a) -> ok i o n ->
  match ae_update_mem S stream m a i o n with
  | Dies => ae_cipher S nd a (Some (rd m i n)) n = Dies
  | Returns (r, (m', a')) =>
      ae_cipher S nd a (Some (rd m i n)) n = Returns (r, rd m' o n, a') /\ frame m m' o n /\ Inv (ae_x a')
  end.
Proof.
  intros Sim I O. unfold ae_update_mem, ae_cipher. specialize (Sim m (ae_x a) i o n I O).
  destruct (stream m (ae_x a) i o n) as [m1 x1]. destruct (su_do S (ae_x a) (rd m i n)) as [x1' out].
  destruct Sim as (E1 & R1 & F & I1). cbn [fst snd] in *. subst x1' out. rewrite rd_length.
  destruct (su_encrypting S (ae_x a)); destruct (mac_update S (ae_omac a) _); auto.
Qed.
Definition magma_inv (x : su_ctx magma_suite) : Prop := evp_shape (x_evp x).
Definition kuz_inv (y : su_ctx kuz_suite) : Prop := kuz_shape (y_k y).
Lemma magma_suite_sim m x i o n : magma_inv x -> ok i o n ->
  op_sim magma_inv m o n (magma_suite_mem m x i o n) (su_do magma_suite x (rd m i n)).
Proof.
  intros I O. pose proof (magma_ctr_sim m (x_evp x) i o n I O) as P.
  unfold magma_suite_mem. cbn [su_do magma_suite].
  destruct (magma_ctr_mem m (x_evp x) i o n) as [m1 c1]. destruct (magma_cipher_do_ctr (x_evp x) (rd m i n)) as [c2 out].
  destruct P as (E1 & R & F & S). cbn [fst snd] in *. subst c2.
  split; [reflexivity|]. split; [exact R|]. split; [exact F|exact S].
Qed.
Lemma kuz_suite_sim m x i o n : kuz_inv x -> ok i o n ->
  op_sim kuz_inv m o n (kuz_suite_mem m x i o n) (su_do kuz_suite x (rd m i n)).
Proof.
  intros I O. pose proof (kuz_ctracpkm_sim m (y_k x) i o n I O) as P.
  unfold kuz_suite_mem. cbn [su_do kuz_suite].
  destruct (kuz_ctracpkm_mem m (y_k x) i o n) as [m1 c1]. destruct (do_ctracpkm (y_k x) (rd m i n)) as [c2 out].
  destruct P as (E1 & R & F & S). cbn [fst snd] in *. subst c2.
  split; [reflexivity|]. split; [exact R|]. split; [exact F|exact S].
Qed.
