(** Textbook GOST 28147-89 (RFC 5830) and Magma (RFC 8891), written independently of the code:
    arithmetic on numbers, nibble substitution without tables, round keys by formula. *)
From Verif Require Import Bytes.

(** A set of eight 4-bit S-boxes; box 0 acts on the least significant nibble (K1 of RFC 5830). *)
Definition sboxes := nat -> N -> N.

(** Substitution: nibble i of the result is S_i (nibble i of x). *)
Fixpoint substitute (S : sboxes) (i n : nat) (x : N) : N :=
  match n with
  | O => 0
  | S n' => S i (x mod 16) + 16 * substitute S (Datatypes.S i) n' (x / 16)
  end.

(** Cyclic shift of a 32-bit word by 11 towards the high bits. *)
Definition rol11 (x : N) : N := (x * 2 ^ 11) mod 2 ^ 32 + x / 2 ^ 21.

(** The round function: add the round key modulo 2^32, substitute, rotate. *)
Definition round_f (S : sboxes) (a k : N) : N := rol11 (substitute S 0 8 ((a + k) mod 2 ^ 32)).

(** Feistel iteration: round j with round key [rk j], for j = [j0], [j0]+1, ... ([n] rounds). *)
Fixpoint feistel (S : sboxes) (rk : nat -> N) (j0 n : nat) (s : N * N) : N * N :=
  match n with
  | O => s
  | S n' => let '(a, b) := s in feistel S rk (Datatypes.S j0) n' (N.lxor b (round_f S a (rk j0)), a)
  end.

(** Order of the key words: K1..K8 three times, then K8..K1 (encryption, 32-Z of the standard);
    K1..K8 once then K8..K1 three times (decryption, 32-R). *)
Definition enc_order (j : nat) : nat := if (j <? 24)%nat then (j mod 8)%nat else (7 - j mod 8)%nat.
Definition dec_order (j : nat) : nat := if (j <? 8)%nat then (j mod 8)%nat else (7 - j mod 8)%nat.

(** The 64-bit block as two words; the last round does not swap. *)
Definition swap (s : N * N) : N * N := let '(a, b) := s in (b, a).

(** RFC 5830: little-endian block and key. *)
Definition le_words (l : list N) (i : nat) : N := le2n (firstn 4 (skipn (4 * i) l)).
Definition rfc5830_block (S : sboxes) (order : nat -> nat) (key blk : list N) : list N :=
  let '(a, b) := swap (feistel S (fun j => le_words key (order j)) 0 32 (le_words blk 0, le_words blk 1)) in
  n2le 4 a ++ n2le 4 b.
Definition rfc5830_encrypt S := rfc5830_block S enc_order.
Definition rfc5830_decrypt S := rfc5830_block S dec_order.

(** The MAC step: 16 rounds (16-Z), no final exchange of the halves. *)
Definition rfc5830_mac_step (S : sboxes) (key state blk : list N) : list N :=
  let x := xorl state blk in
  let '(a, b) := feistel S (fun j => le_words key (j mod 8)) 0 16 (le_words x 0, le_words x 1) in
  n2le 4 a ++ n2le 4 b.

(** RFC 8891 (Magma): big-endian block (a1 || a0) and key. *)
Definition be_words (l : list N) (i : nat) : N := be2n (firstn 4 (skipn (4 * i) l)).
Definition rfc8891_block (S : sboxes) (order : nat -> nat) (key blk : list N) : list N :=
  let '(a, b) := swap (feistel S (fun j => be_words key (order j)) 0 32 (be_words blk 1, be_words blk 0)) in
  n2be 4 b ++ n2be 4 a.
Definition rfc8891_encrypt S := rfc8891_block S enc_order.
Definition rfc8891_decrypt S := rfc8891_block S dec_order.

(** MAC of a message: zero padding to whole blocks; one more zero block if the padded message
    is a single block (the standard asks for at least two blocks). *)
Definition pad8 (m : list N) : list N := m ++ zeros ((8 - length m mod 8) mod 8).
Definition mac_message (m : list N) : list N :=
  let p := pad8 m in if (length p =? 8)%nat then p ++ zeros 8 else p.
Definition rfc5830_mac_state (S : sboxes) (key iv m : list N) : list N :=
  fold_left (rfc5830_mac_step S key) (blocks 8 (mac_message m)) iv.
