(** Properties C22 and C23: the Kuznyechik block cipher. *)
From Coq Require Import String.
From Verif Require Import Bytes BytesProofs Gf2 KuzTables KuzSpec KuzModel KuzProofs KuzBlockProofs.
From Coq Require Import List Lia NArith.
Open Scope N_scope.

(** Memory for ten round keys, with any content. *)
Definition key_array (a : list (list N)) : Prop := length a = 10%nat.
Definition kuz_key_ok (k : list N) : Prop := length k = 32%nat /\ bytes k.
Definition kuz_block_ok (b : list N) : Prop := length b = 16%nat /\ bytes b.

(** ** C23 *)
Theorem C23_round_keys :
  forall mem k, key_array mem -> kuz_key_ok k -> grasshopper_set_encrypt_key mem k = round_keys k.
Proof. intros mem k Hm [Lk Bk]. apply set_encrypt_key_spec; auto. Qed.
Theorem C23_encrypt :
  forall mem k b, key_array mem -> kuz_key_ok k -> kuz_block_ok b ->
    grasshopper_encrypt_block (grasshopper_set_encrypt_key mem k) b = E_ k b.
Proof.
  intros mem k b Hm [Lk Bk] Hb. rewrite set_encrypt_key_spec by auto. destruct (round_keys_blk k Lk Bk) as [L F].
  exact (encrypt_block_spec _ b L F Hb).
Qed.
Theorem C23_decrypt :
  forall mem k b, key_array mem -> kuz_key_ok k -> kuz_block_ok b ->
    grasshopper_decrypt_block (grasshopper_set_decrypt_key mem k) b = D_ k b.
Proof.
  intros mem k b Hm [Lk Bk] Hb. rewrite set_decrypt_key_spec by auto. destruct (round_keys_blk k Lk Bk) as [L F].
  exact (decrypt_block_spec _ b L F Hb).
Qed.
(** The precomputed tables, entry by entry, and the multiplication by logarithm tables. *)
Theorem C23_tables :
  forall i b, (i < 16)%nat -> b < 256 ->
    entry grasshopper_pil_enc128 i b = L_ (set (zeros 16) i (pi b)) /\
    entry grasshopper_pil_dec128 i b = L' (set (zeros 16) i (pi' b)) /\
    entry grasshopper_l_dec128 i b = L' (set (zeros 16) i b).
Proof. intros i b Hi Hb. split; [|split]; [apply enc_entry|apply dec_entry|apply ldec_entry]; auto. Qed.
Theorem C23_galois_mul :
  forall x y, x < 256 -> y < 256 -> grasshopper_galois_mul x y = gfmul 8 0x1c3 x y.
Proof. intros x y Hx Hy. exact (galois_mul_spec x y Hx Hy). Qed.
Theorem C23_linear_map :
  forall b, kuz_block_ok b -> grasshopper_l b = L_ b /\ grasshopper_l_inv b = L' b.
Proof. intros b Hb. split; [apply grasshopper_l_spec|apply grasshopper_l_inv_spec]; auto. Qed.
Print Assumptions C23_encrypt.
Print Assumptions C23_decrypt.
Definition kkey : list N := hex "8899aabbccddeeff0011223344556677fedcba98765432100123456789abcdef".
(** GOST R 34.12-2015, A.1. *)
Example C23_example :
  kuz_key_ok kkey /\ kuz_block_ok (hex "1122334455667700ffeeddccbbaa9988") /\
  grasshopper_encrypt_block (grasshopper_set_encrypt_key (repeat (zeros 16) 10) kkey) (hex "1122334455667700ffeeddccbbaa9988")
  = hex "7f679d90bebc24305a468d42b9d4edcd".
Proof.
  split; [|split].
  - split; [reflexivity|apply bytes_forallb; reflexivity].
  - split; [reflexivity|apply bytes_forallb; reflexivity].
  - vm_compute. reflexivity.
Qed.

(** ** C22 *)
Theorem C22_decrypt_encrypt :
  forall mem1 mem2 k b, key_array mem1 -> key_array mem2 -> kuz_key_ok k -> kuz_block_ok b ->
    grasshopper_decrypt_block (grasshopper_set_decrypt_key mem2 k)
      (grasshopper_encrypt_block (grasshopper_set_encrypt_key mem1 k) b) = b.
Proof.
  intros mem1 mem2 k b H1 H2 [Lk Bk] Hb. destruct (round_keys_blk k Lk Bk) as [L F].
  rewrite set_encrypt_key_spec, set_decrypt_key_spec by auto. rewrite encrypt_block_spec by auto.
  rewrite decrypt_block_spec; auto. apply D_rounds_E_rounds; auto. apply rounds_LSX_blk; auto.
Qed.
Theorem C22_encrypt_decrypt :
  forall mem1 mem2 k b, key_array mem1 -> key_array mem2 -> kuz_key_ok k -> kuz_block_ok b ->
    grasshopper_encrypt_block (grasshopper_set_encrypt_key mem1 k)
      (grasshopper_decrypt_block (grasshopper_set_decrypt_key mem2 k) b) = b.
Proof.
  intros mem1 mem2 k b H1 H2 [Lk Bk] Hb. destruct (round_keys_blk k Lk Bk) as [L F].
  rewrite set_encrypt_key_spec, set_decrypt_key_spec by auto. rewrite decrypt_block_spec by auto.
  rewrite encrypt_block_spec; auto. apply E_rounds_D_rounds; auto. apply rounds_SLX_blk; auto. apply Forall_rev; auto.
Qed.
Print Assumptions C22_decrypt_encrypt.
Example C22_example :
  grasshopper_decrypt_block (grasshopper_set_decrypt_key (repeat (zeros 16) 10) kkey) (hex "7f679d90bebc24305a468d42b9d4edcd")
  = hex "1122334455667700ffeeddccbbaa9988".
Proof. vm_compute. reflexivity. Qed.
