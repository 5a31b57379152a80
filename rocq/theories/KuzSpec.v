(** GOST R 34.12-2015 (RFC 7801), n = 128 (Kuznyechik), written from the standard.
    A 128-bit vector a_15 || ... || a_0 is the list [a_15; ...; a_0] of its bytes. *)
From Verif Require Import Bytes Gf2.
From Verif Require StreebogSpec.

(** Section 4.1.1: the substitution pi (the one of GOST R 34.11-2012) and its inverse. *)
Definition pi : N -> N := StreebogSpec.pi.
Fixpoint index_of (b : N) (i : N) (t : list N) : N :=
  match t with nil => 0 | c :: t => if c =? b then i else index_of b (i + 1) t end.
Definition pi' (b : N) : N := index_of b 0 StreebogSpec.pi_table.

(** Section 4.1.2: multiplication in GF(2)[x]/(x^8 + x^7 + x^6 + x + 1) and the linear map l. *)
Definition mul8 (a b : N) : N := gfmul 8 0x1c3 a b.
Definition l_coeffs : list N := [148; 32; 133; 16; 194; 192; 1; 251; 1; 192; 194; 16; 133; 32; 148; 1].
Fixpoint dot (cs a : list N) : N :=
  match cs, a with c :: cs, x :: a => N.lxor (mul8 c x) (dot cs a) | _, _ => 0 end.
Definition ell (a : list N) : N := dot l_coeffs a.

(** Section 4.2. *)
Definition X_ (k a : list N) : list N := xorl k a.
Definition S_ (a : list N) : list N := map pi a.
Definition S' (a : list N) : list N := map pi' a.
Definition R_ (a : list N) : list N := ell a :: firstn 15 a.
Definition R' (a : list N) : list N := skipn 1 a ++ [ell (skipn 1 a ++ firstn 1 a)].
Definition L_ (a : list N) : list N := Nat.iter 16 R_ a.
Definition L' (a : list N) : list N := Nat.iter 16 R' a.
Definition LSX (k a : list N) : list N := L_ (S_ (X_ k a)).
Definition SLX' (k a : list N) : list N := S' (L' (X_ k a)).
Definition F_ (k : list N) (a : list N * list N) : list N * list N :=
  (X_ (LSX k (fst a)) (snd a), fst a).

(** Section 4.3: iteration constants and round keys K_1 .. K_10. *)
Definition C_ (i : nat) : list N := L_ (n2be 16 (N.of_nat i)).
Definition next_pair (i : nat) (k : list N * list N) : list N * list N :=
  fold_left (fun k j => F_ (C_ (8 * (i - 1) + j)) k) (seq 1 8) k.
Fixpoint pairs (is : list nat) (k : list N * list N) : list (list N) :=
  match is with
  | nil => [fst k; snd k]
  | i :: is => fst k :: snd k :: pairs is (next_pair i k)
  end.
Definition round_keys (key : list N) : list (list N) := pairs (seq 1 4) (firstn 16 key, skipn 16 key).

(** Sections 4.4.1 and 4.4.2. *)
Fixpoint rounds (f : list N -> list N -> list N) (ks : list (list N)) (a : list N) : list N :=
  match ks with
  | nil => a
  | [k] => X_ k a
  | k :: ks => rounds f ks (f k a)
  end.
(** E(a) = X[K10] LSX[K9] ... LSX[K1](a) and D(a) = X[K1] S'L'X[K2] ... S'L'X[K10](a). *)
Definition E_ (key a : list N) : list N := rounds LSX (round_keys key) a.
Definition D_ (key a : list N) : list N := rounds SLX' (rev (round_keys key)) a.
