(** GOST R 34.11-94 as in RFC 5831, written from the RFC.  A 256-bit word is its list of 32
    bytes, least significant byte first (y_1 of the RFC is the head). *)
From Verif Require Import Bytes Gost89Spec.

(** 64-bit part y_i, i = 1..4. *)
Definition part64 (i : nat) (y : list N) : list N := firstn 8 (skipn (8 * (i - 1)) y).
(** A(y4 y3 y2 y1) = (y1 xor y2) y4 y3 y2 *)
Definition A (y : list N) : list N :=
  part64 2 y ++ part64 3 y ++ part64 4 y ++ xorl (part64 1 y) (part64 2 y).
(** phi(i + 1 + 4 (k - 1)) = 8 i + k, i = 0..3, k = 1..8; byte n of P(Y) is y_phi(n). *)
Definition phi (n : nat) : nat := (8 * ((n - 1) mod 4) + ((n - 1) / 4 + 1))%nat.
Definition P (y : list N) : list N := map (fun n => nth (phi n - 1) y 0) (seq 1 32).
(** C_3 = 1^8 0^8 1^16 0^24 1^16 0^8 (0^8 1^8)^2 1^8 0^8 (0^8 1^8)^4 (1^8 0^8)^4, written most
    significant bit first in the RFC; C_2 = C_4 = 0. *)
Definition ones8 : list N := [255].
Definition zero8 : list N := [0].
Definition C3_msb_first : list N :=
  ones8 ++ zero8 ++ (ones8 ++ ones8) ++ (zero8 ++ zero8 ++ zero8) ++ (ones8 ++ ones8) ++ zero8
  ++ (zero8 ++ ones8) ++ (zero8 ++ ones8) ++ ones8 ++ zero8
  ++ (zero8 ++ ones8) ++ (zero8 ++ ones8) ++ (zero8 ++ ones8) ++ (zero8 ++ ones8)
  ++ (ones8 ++ zero8) ++ (ones8 ++ zero8) ++ (ones8 ++ zero8) ++ (ones8 ++ zero8).
Definition Cj (j : nat) : list N := if (j =? 3)%nat then rev C3_msb_first else zeros 32.

(** The pair (U, V) after j - 1 steps, and the keys K_1..K_4. *)
Fixpoint UV (j : nat) (H M : list N) : list N * list N :=
  match j with
  | O | 1%nat => (H, M)
  | S j' => let '(U, V) := UV j' H M in (xorl (A U) (Cj j), A (A V))
  end.
Definition K (j : nat) (H M : list N) : list N := let '(U, V) := UV j H M in P (xorl U V).

(** psi on sixteen 16-bit words y16 .. y1: y1+y2+y3+y4+y13+y16, y16, ..., y2. *)
Definition word16 (i : nat) (y : list N) : list N := firstn 2 (skipn (2 * (i - 1)) y).
Definition psi (y : list N) : list N :=
  skipn 2 y ++
  xorl (word16 1 y) (xorl (word16 2 y) (xorl (word16 3 y) (xorl (word16 4 y)
    (xorl (word16 13 y) (word16 16 y))))).
Fixpoint psi_n (n : nat) (y : list N) : list N :=
  match n with O => y | S n' => psi (psi_n n' y) end.

(** The step hash function chi(M, H). *)
Definition chi (S : sboxes) (M H : list N) : list N :=
  let s := flat_map (fun i => rfc5830_encrypt S (K i H M) (part64 i H)) [1;2;3;4]%nat in
  psi_n 61 (xorl H (psi (xorl M (psi_n 12 s)))).

(** Zero padding to whole blocks; the standard hashes one (zero) block for the empty message. *)
Definition pad32 (m : list N) : list N :=
  match m with nil => zeros 32 | _ => m ++ zeros ((32 - length m mod 32) mod 32) end.

(** The iteration: message blocks, then the length in bits, then the checksum modulo 2^256. *)
Definition hash94 (S : sboxes) (m : list N) : list N :=
  let B := blocks 32 (pad32 m) in
  let H := fold_left (fun h b => chi S b h) B (zeros 32) in
  let L := n2le 32 (8 * N.of_nat (length m)) in
  let Sigma := n2le 32 (fold_right N.add 0 (map le2n B)) in
  chi S Sigma (chi S L H).
