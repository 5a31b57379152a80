(** Properties C19, C20, C21: GOST R 34.11-2012 (gosthash2012.c and its two cores). *)
From Coq Require Import String.
From Verif Require Import Bytes BytesProofs BlockLoop StreebogTables StreebogModel StreebogSpec StreebogProofs.

(** ** C21: the table-driven transform is L, P, S of the standard, on every build *)
Theorem C21_xlps_is_lps :
  forall bd x y, List.length x = 64%nat -> bytes x -> List.length y = 64%nat -> bytes y ->
    store bd (XLPS bd (load bd x) (load bd y)) = L_ (P_ (S_ (xorl x y))).
Proof.
  intros bd x y Lx Bx Ly By.
  assert (A : blk64 (LPS (xorl x y))) by (apply LPS_blk64, blk64_xorl; split; auto).
  rewrite XLPS_spec by (split; auto).
  apply (store_load bd (LPS (xorl x y))); [rewrite (proj1 A); reflexivity|apply A].
Qed.
Print Assumptions C21_xlps_is_lps.

(** The compression function of every build is the standard's g_N. *)
Theorem C21_compression_matches_standard :
  forall bd h n m, List.length h = 64%nat -> bytes h -> List.length n = 64%nat -> bytes n ->
    List.length m = 64%nat -> bytes m -> g bd h n m = g_N n h m.
Proof. intros. apply g_spec; split; auto. Qed.
Print Assumptions C21_compression_matches_standard.

(** Every entry of both tables, and the constants. *)
Theorem C21_table_entries :
  (forall j b, (j < 8)%nat -> b < 256 ->
     nth (N.to_nat b) (nth j Ax nil) 0 = l (N.shiftl (pi b) (8 * N.of_nat j))) /\
  (forall j b, (j < 8)%nat -> b < 256 ->
     nth (N.to_nat b) (nth j Ax_be nil) 0 = be2n (n2le 8 (nth (N.to_nat b) (nth j Ax nil) 0))).
Proof. split; intros; [apply Ax_is_l_pi|apply Ax_be_is_bsw]; auto. Qed.
Print Assumptions C21_table_entries.

(** ** C20: add512 is addition modulo 2^512, in all three variants *)
Theorem C20_add512_is_addition :
  forall bd ac x y, List.length x = 64%nat -> bytes x -> List.length y = 64%nat -> bytes y ->
    le2n (add512 bd ac x y) = (le2n x + le2n y) mod 2 ^ 512 /\
    List.length (add512 bd ac x y) = 64%nat /\ bytes (add512 bd ac x y).
Proof.
  intros. rewrite add512_spec by (split; auto). split; [apply le2n_n2le|]. split; [apply n2le_length|apply n2le_bytes].
Qed.
Print Assumptions C20_add512_is_addition.
(** A carry through all limbs, including the case sum = left of the portable loop. *)
Example C20_nontrivial :
  let x := repeat 255 64 in let y := repeat 255 63 ++ [254] in let one := 1 :: zeros 63 in
  add512 RefLE false x one = zeros 64 /\ add512 RefLE false x y = 254 :: repeat 255 62 ++ [254] /\
  add512 RefBE false x y = add512 SSE2 true x y.
Proof. cbv zeta. split; [vm_compute; reflexivity|split; vm_compute; reflexivity]. Qed.

(** ** C19: digests of messages fed in chunks *)
Definition hash2012 (bd : build) (ac : bool) (size : N) (chunks : list (list N)) : list N :=
  snd (gost2012_finish_hash bd ac
         (fold_left (gost2012_hash_block bd ac) chunks (init_gost2012_hash_ctx size))).

Lemma chunks_inv bd ac iv ds chunks : Forall bytes chunks -> forall x m, bytes m ->
  tinv iv ds x (t_bufsize x) m ->
  let x' := fold_left (gost2012_hash_block bd ac) chunks x in
  bytes (m ++ concat chunks) /\ tinv iv ds x' (t_bufsize x') (m ++ concat chunks).
Proof.
  induction 1 as [|d chunks Bd F IH]; intros x m Bm I.
  - cbn [concat fold_left]. rewrite app_nil_r. auto.
  - cbn [concat fold_left]. rewrite app_assoc. apply IH; [apply bytes_app; auto|]. apply hash_block_tinv; auto.
Qed.

Theorem C19_streebog_chunks_match_standard :
  forall bd ac chunks, Forall bytes chunks ->
    hash2012 bd ac 512 chunks = streebog512 (concat chunks) /\
    hash2012 bd ac 256 chunks = streebog256 (concat chunks).
Proof.
  intros bd ac chunks F. unfold hash2012, streebog512, streebog256. split.
  - destruct (chunks_inv bd ac (zeros 64) 512 chunks F (init_gost2012_hash_ctx 512) nil) as [B I];
      [constructor|exact (init_tinv 512)|].
    apply (finish_tinv bd ac (zeros 64) 512 _ (concat chunks)); auto.
  - destruct (chunks_inv bd ac (repeat 1 64) 256 chunks F (init_gost2012_hash_ctx 256) nil) as [B I];
      [constructor|exact (init_tinv 256)|].
    apply (finish_tinv bd ac (repeat 1 64) 256 _ (concat chunks)); auto.
Qed.
Print Assumptions C19_streebog_chunks_match_standard.

(** Output sizes. *)
Theorem C19_digest_sizes :
  forall bd ac chunks, Forall bytes chunks ->
    List.length (hash2012 bd ac 512 chunks) = 64%nat /\ List.length (hash2012 bd ac 256 chunks) = 32%nat.
Proof.
  intros bd ac chunks F.
  assert (G : forall iv m, blk64 iv -> bytes m -> List.length (streebog iv m) = 64%nat).
  { intros iv m Hiv Bm. unfold streebog, stage3_rest. cbv zeta.
    set (s := fold_left _ _ _).
    assert (Hs : blk64 (s_h s)).
    { subst s. assert (FB : Forall blk64 (blocks 64 (firstn (whole m) m))).
      { apply blocks_blk64; [apply (full_mod 64 m); lia|apply bytes_firstn; auto]. }
      assert (G0 : forall B s0, Forall blk64 B -> blk64 (s_h s0) -> blk64 (s_h (fold_left stage2_block B s0))).
      { induction B as [|b B IH]; intros s0 FB0 H0; [exact H0|]. apply Forall_cons_iff in FB0 as [Hb FB0].
        cbn [fold_left]. apply IH; auto. unfold stage2_block. cbn [s_h].
        apply (g_spec RefLE); auto. apply vec_blk64. }
      apply G0; auto. }
    set (r := skipn (whole m) m).
    assert (Hr : blk64 (r ++ [1] ++ zeros (63 - List.length r))).
    { assert (Hl : (List.length r < 64)%nat) by (apply (tail_lt 64 m); lia).
      split; [rewrite !app_length, zeros_length; cbn [List.length]; lia|].
      apply bytes_app; [apply bytes_skipn; auto|]. apply bytes_app; [repeat constructor|apply bytes_zeros]. }
    apply (g_spec RefLE); try apply vec_blk64. apply (g_spec RefLE); try apply vec_blk64.
    apply (g_spec RefLE); auto. apply vec_blk64. }
  destruct (C19_streebog_chunks_match_standard bd ac chunks F) as [-> ->].
  assert (BC : bytes (concat chunks)).
  { clear G. induction F; [constructor|]. cbn [concat]. apply bytes_app; auto. }
  split.
  - unfold streebog512. apply G; auto. apply blk64_zeros.
  - unfold streebog256. rewrite skipn_length, G; auto. split; [reflexivity|apply bytes_forallb; reflexivity].
Qed.
Print Assumptions C19_digest_sizes.

(** RFC 6986 example 1 (63 bytes, three chunks), on the portable and the SSE2 builds; and a
    message longer than one block with an empty chunk. *)
Example C19_known_answers :
  let m1 := [ascii_bytes "0123456789012345678901234567890"; ascii_bytes "1";
             ascii_bytes "2345678901234567890123456789012"] in
  Forall bytes m1 /\
  hash2012 RefLE false 512 m1 = hex "1b54d01a4af5b9d5cc3d86d68d285462b19abc2475222f35c085122be4ba1ffa00ad30f8767b3a82384c6574f024c311e2a481332b08ef7f41797891c1646f48" /\
  hash2012 SSE2 true 256 m1 = hex "9d151eefd8590b89daa6ba6cb74af9275dd051026bb149a452fd84e5e57b5500" /\
  hash2012 RefBE false 256 [zeros 100; nil; zeros 50] = hash2012 RefLE false 256 [zeros 150].
Proof.
  cbv zeta. split; [|split; [|split]].
  - repeat constructor; unfold bytes; apply bytes_forallb; vm_compute; reflexivity.
  - vm_compute. reflexivity.
  - vm_compute. reflexivity.
  - vm_compute. reflexivity.
Qed.
