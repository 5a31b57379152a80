(** RFC 4357, sections 6.3 to 6.5, over the block cipher of RFC 5830 with S-boxes [S]. *)
From Verif Require Import Bytes Gost89Spec.

(** CFB over whole blocks. *)
Fixpoint cfb_blocks (E : list N -> list N) (iv : list N) (bs : list (list N)) : list N :=
  match bs with
  | nil => nil
  | b :: t => let c := xorl b (E iv) in c ++ cfb_blocks E c t
  end.
(** S = the sum of the key words whose bit in the UKM byte is 1, then of those whose bit is 0. *)
Definition masked_sum (key : list N) (f : nat -> bool) : N :=
  fold_right N.add 0 (map (fun j => if f j then le_words key j else 0) (seq 0 8)) mod 2 ^ 32.
Definition diversify_iv (key : list N) (u : N) : list N :=
  n2le 4 (masked_sum key (fun j => N.testbit u (N.of_nat j))) ++
  n2le 4 (masked_sum key (fun j => negb (N.testbit u (N.of_nat j)))).
(** K[i+1] = encryptCFB (S[i], K[i], K[i]), i = 0..7. *)
Definition diversify (S : sboxes) (kek ukm : list N) : list N :=
  fold_left (fun k u => cfb_blocks (rfc5830_encrypt S k) (diversify_iv k u) (blocks 8 k)) ukm kek.
(** The MAC is the first 4 bytes of the imitovstavka with UKM as initial value. *)
Definition cek_mac (S : sboxes) (kek_ukm ukm cek : list N) : list N := firstn 4 (rfc5830_mac_state S kek_ukm ukm cek).
Definition wrap (S : sboxes) (kek ukm cek : list N) : list N :=
  let k := diversify S kek ukm in
  ukm ++ concat (map (rfc5830_encrypt S k) (blocks 8 cek)) ++ cek_mac S k ukm cek.
