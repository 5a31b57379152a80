(** OMAC of GOST R 34.13-2015 (5.6) and OMAC-ACPKM of RFC 8645 (6.3.1), on whole messages. *)
From Verif Require Import Bytes KuzSpec KuzCipherSpec.
From Coq Require Import List NArith.
Open Scope N_scope.

(** Doubling in the field of GOST R 34.13 / RFC 8645: a shift by one bit, reduced with 0x1b (n = 64)
    or 0x87 (n = 128) when a bit leaves. *)
Definition reduction (bl : nat) : N := if (bl =? 16)%nat then 0x87 else 0x1b.
Definition dbl (bl : nat) (b : list N) : list N :=
  let x := be2n b in
  n2be bl (N.lxor ((2 * x) mod 256 ^ N.of_nat bl) (if 256 ^ N.of_nat bl <=? 2 * x then reduction bl else 0)).

(** M = M_1 || ... || M_q with all blocks but M_q of [bl] bytes and M_q of 1 to [bl] bytes (M_q is empty
    only when M is): the first q-1 blocks, and M_q. *)
Definition heads (bl : nat) (m : list N) : list (list N) := blocks bl (firstn ((length m - 1) / bl * bl) m).
Definition last_piece (bl : nat) (m : list N) : list N := skipn ((length m - 1) / bl * bl) m.
(** Padding: a one bit, then zero bits. *)
Definition pad (bl : nat) (m : list N) : list N := m ++ [0x80] ++ zeros (bl - length m - 1).
(** The last block after padding and whitening. *)
Definition last_block (bl : nat) (r k1 k2 : list N) : list N :=
  if (length r =? bl)%nat then xorl r k1 else xorl (pad bl r) k2.

Definition omac (E : list N -> list N) (bl : nat) (m : list N) : list N :=
  let k1 := dbl bl (E (zeros bl)) in
  let k2 := dbl bl k1 in
  let c := fold_left (fun c b => E (xorl c b)) (heads bl m) (zeros bl) in
  E (xorl c (last_block bl (last_piece bl m) k1 k2)).

(** RFC 8645, ACPKM-Master: the key material K^j || K^j_1 of section [j] (from 0), 48 bytes each, is
    the CTR-ACPKM encryption of zeros with the section size [T] and the IV 1^{n/2}. *)
Definition material (T : N) (k : list N) (j : nat) : list N :=
  skipn (48 * j) (kuz_ctr T k (repeat 0xff 8) (zeros (48 * (j + 1)))).
(** Block number [i] (from 0) of the message belongs to section 16 i / N. *)
Definition section_of (N_ : N) (i : nat) : nat := N.to_nat (16 * N.of_nat i / N_).
Fixpoint chain (E : nat -> list N -> list N) (i : nat) (c : list N) (bl : list (list N)) : list N :=
  match bl with
  | nil => c
  | b :: t => chain E (i + 1) (E i (xorl c b)) t
  end.
Definition omac_acpkm (T N_ : N) (k m : list N) : list N :=
  let hs := heads 16 m in
  let mat := material T k (section_of N_ (length hs)) in
  let k1 := skipn 32 mat in
  E_ (firstn 32 mat) (xorl (chain (fun i => E_ (firstn 32 (material T k (section_of N_ i)))) 0 (zeros 16) hs) (last_block 16 (last_piece 16 m) k1 (dbl 16 k1))).
