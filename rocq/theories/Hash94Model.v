(** Model of gosthash.c (GOST R 34.11-94) and of the EVP digest gost_md.c. *)
From Verif Require Import Bytes Gost89Model Gost89Sboxes CryptModel BlockLoop.

(** gosthash.h:22-29 [gost_hash_ctx].  [len] is a signed 64-bit count of hashed bytes; it is kept
    as its two's complement value. *)
Record hash_ctx := mk_hash {
  h_len : N;
  h_cipher : gost_ctx;
  h_left : nat;
  h_H : list N;
  h_S : list N;
  h_rem : list N
}.

(** gosthash.c:32-39 [swap_bytes]: the two nested loops write k[i + 4 * j] = w[8 * i + j]. *)
Definition swap_idx : list (nat * nat) := list_prod (seq 0 4) (seq 0 8).
Definition swap_bytes (w : list N) : list N :=
  fold_left (fun k ij => let '(i, j) := ij in set k (i + 4 * j) (nth (8 * i + j) w 0)) swap_idx (zeros 32).

(** gosthash.c:42-50 [circle_xor8]; the buffers may coincide. *)
Definition circle_xor8 (w : list N) : list N :=
  let buf := firstn 8 w in
  let k := sub 8 24 w in
  k ++ xorl buf (firstn 8 k).

(** gosthash.c:53-61 [transform_3]: the two bytes of the 16-bit accumulator are separate xors. *)
Definition transform_3 (d : list N) : list N :=
  let g i := nth i d 0 in
  let x6 a b c d e f := N.lxor (N.lxor (N.lxor (N.lxor (N.lxor a b) c) d) e) f in
  let acc := N.lor (x6 (g 0) (g 2) (g 4) (g 6) (g 24) (g 30))%nat
                   (N.shiftl (x6 (g 1) (g 3) (g 5) (g 7) (g 25) (g 31))%nat 8) in
  sub 2 30 d ++ [N.land acc 255; w8 (N.shiftr acc 8)].

(** gosthash.c:64-74 [add_blocks] on equally long buffers. *)
Fixpoint add_blocks (carry : N) (l r : list N) : list N :=
  match l, r with
  | a :: l', b :: r' =>
      let sum := a + b + carry in
      N.land sum 255 :: add_blocks (N.shiftr sum 8) l' r'
  | _, _ => nil
  end.

(** The assignments U[i] = ~U[i] of gosthash.c:108-123, in order. *)
Definition flip_idx : list nat := [31;29;28;24;23;20;18;17;14;12;10;8;7;5;3;1]%nat.
Definition flip (U : list N) : list N :=
  fold_left (fun u i => set u i (N.lxor (nth i u 0) 255)) flip_idx U.

Fixpoint iter {A} (n : nat) (g : A -> A) (x : A) : A :=
  match n with O => x | S n' => iter n' g (g x) end.

(** gosthash.c:89-147 [hash_step]; the cipher context is left with the fourth key. *)
Definition hash_step (c : gost_ctx) (H M : list N) : gost_ctx * list N :=
  let Key := swap_bytes (xorl H M) in
  let '(c, s1) := gost_enc_with_key c Key (sub 0 8 H) in
  let U := circle_xor8 H in
  let V := circle_xor8 M in
  let V := circle_xor8 V in
  let Key := swap_bytes (xorl U V) in
  let '(c, s2) := gost_enc_with_key c Key (sub 8 8 H) in
  let U := flip (circle_xor8 U) in
  let V := circle_xor8 V in
  let V := circle_xor8 V in
  let Key := swap_bytes (xorl U V) in
  let '(c, s3) := gost_enc_with_key c Key (sub 16 8 H) in
  let U := circle_xor8 U in
  let V := circle_xor8 V in
  let V := circle_xor8 V in
  let Key := swap_bytes (xorl U V) in
  let '(c, s4) := gost_enc_with_key c Key (sub 24 8 H) in
  let S := s1 ++ s2 ++ s3 ++ s4 in
  let S := iter 12 transform_3 S in
  let S := xorl S M in
  let S := transform_3 S in
  let S := xorl S H in
  (c, iter 61 transform_3 S).

(** gosthash.c:183-192 [start_hash] (with a cipher context present). *)
Definition start_hash (x : hash_ctx) : hash_ctx :=
  mk_hash 0 (h_cipher x) 0 (zeros 32) (zeros 32) (h_rem x).

(** gosthash.c:153-163 [init_gost_hash_ctx] with a successful allocation of [c]; also
    gost_md.c:81-88 [gost_digest_init], where [sb] is GostR3411_94_CryptoProParamSet. *)
Definition init_gost_hash_ctx (c : gost_ctx) (sb : subst_block) : hash_ctx :=
  mk_hash 0 (gost_init c sb) 0 (zeros 32) (zeros 32) (zeros 32).
Definition gost_digest_init (c : gost_ctx) : hash_ctx :=
  init_gost_hash_ctx c GostR3411_94_CryptoProParamSet.

(** The three lines gosthash.c:216-218 and 222-225. *)
Definition hash_one (x : hash_ctx) (blk : list N) : hash_ctx :=
  let '(c, H) := hash_step (h_cipher x) (h_H x) blk in
  mk_hash (w64 (h_len x + 32)) c (h_left x) H (add_blocks 0 (h_S x) blk) (h_rem x).

(** gosthash.c:199-233 [hash_block]. *)
Definition with_left (x : hash_ctx) (n : nat) : hash_ctx :=
  mk_hash (h_len x) (h_cipher x) n (h_H x) (h_S x) (h_rem x).
Definition with_rem (x : hash_ctx) (r : list N) : hash_ctx :=
  mk_hash (h_len x) (h_cipher x) (h_left x) (h_H x) (h_S x) r.
Definition hash_block_tail (x : hash_ctx) (block : list N) : hash_ctx :=
  let '(x, rest) := while_blocks (length block) 32 hash_one x block in
  if (length rest =? 0)%nat then x
  else with_left (with_rem x (overwrite (h_rem x) 0 rest)) (length rest).
Definition hash_block (x : hash_ctx) (block : list N) : hash_ctx :=
  if (h_left x =? 0)%nat then hash_block_tail x block
  else
    let add_bytes := Nat.min (32 - h_left x) (length block) in
    let x := with_rem x (overwrite (h_rem x) (h_left x) (firstn add_bytes block)) in
    let x := with_left x (h_left x + add_bytes) in
    if (h_left x <? 32)%nat then x
    else hash_block_tail (with_left (hash_one x (h_rem x)) 0) (skipn add_bytes block).

(** The loop gosthash.c:261-264 writing the bytes of a positive [fin_len]. *)
Fixpoint len_bytes (fuel : nat) (v : N) : list N :=
  match fuel with
  | O => nil
  | S fuel' => if v =? 0 then nil else N.land v 255 :: len_bytes fuel' (N.shiftr v 8)
  end.

(** gosthash.c:245-255, the first part of [finish_hash]: copies of H and S and the length, with
    the remainder hashed as a zero-padded block. *)
Definition finish_last (x : hash_ctx) : gost_ctx * list N * list N * N :=
  if (h_left x =? 0)%nat then (h_cipher x, h_H x, h_S x, h_len x)
  else
    let buf := firstn (h_left x) (h_rem x) ++ zeros (32 - h_left x) in
    let '(c, H) := hash_step (h_cipher x) (h_H x) buf in
    (c, H, add_blocks 0 (h_S x) buf, w64 (h_len x + N.of_nat (h_left x))).
(** gosthash.c:256-258 *)
Definition finish_empty (c : gost_ctx) (H : list N) (fin_len : N) : gost_ctx * list N :=
  if fin_len =? 0 then hash_step c H (zeros 32) else (c, H).
(** gosthash.c:259-264: the length block; [fin_len] is signed, so the loop body runs only for
    positive values. *)
Definition finish_len_block (fin_len : N) : list N :=
  let bits := w64 (N.shiftl fin_len 3) in
  let lb := if bits <? 9223372036854775808 then len_bytes 8 bits else nil in
  lb ++ zeros (32 - length lb).
(** gosthash.c:240-269 [finish_hash]: the context afterwards (only the key in the cipher context
    can change) and the digest. *)
Definition finish_hash (x : hash_ctx) : hash_ctx * list N :=
  let '(c, H, Sg, fin_len) := finish_last x in
  let '(c, H) := finish_empty c H fin_len in
  let '(c, H) := hash_step c H (finish_len_block fin_len) in
  let '(c, H) := hash_step c H Sg in
  (mk_hash (h_len x) c (h_left x) (h_H x) (h_S x) (h_rem x), H).

Arguments hash_step : simpl never.
