(** Specification of the multilinear Galois mode, written from RFC 9058 / R 1323565.1.026-2019,
    for a block cipher [E] on blocks of [bl] bytes (n = 8 bl bits, n/2 = 4 bl). *)
From Verif Require Import Bytes Gf2.

(** The fields: GF(2^64) = GF(2)[w]/(w^64 + w^4 + w^3 + w + 1) and
    GF(2^128) = GF(2)[w]/(w^128 + w^7 + w^2 + w + 1); a block is a polynomial, the last bit of the
    block being the constant coefficient. *)
Definition poly64 : N := 2 ^ 64 + 0x1b.
Definition poly128 : N := 2 ^ 128 + 0x87.
Definition mul64 (a b : list N) : list N := n2be 8 (gfmul 64 poly64 (be2n a) (be2n b)).
Definition mul128 (a b : list N) : list N := n2be 16 (gfmul 128 poly128 (be2n a) (be2n b)).

Section MgmSpec.
  Variable bl : nat.
  Variable E : list N -> list N.
  Variable mul : list N -> list N -> list N.
  Let h := Nat.div bl 2.

  (** 0 || ICN and 1 || ICN: the first bit of the nonce block is replaced. *)
  Definition with_bit (b : N) (icn : list N) : list N :=
    match icn with
    | nil => nil
    | x :: t => (128 * b + x mod 128) :: t
    end.
  (** incr_r^i and incr_l^i: the right (left) half is a counter modulo 2^(n/2). *)
  Definition add_r (i : nat) (b : list N) : list N :=
    firstn h b ++ n2be (bl - h) (be2n (skipn h b) + N.of_nat i).
  Definition add_l (i : nat) (b : list N) : list N :=
    n2be h (be2n (firstn h b) + N.of_nat i) ++ skipn h b.
  Definition Ycnt (icn : list N) (i : nat) : list N := add_r i (E (with_bit 0 icn)).
  Definition Zcnt (icn : list N) (i : nat) : list N := add_l i (E (with_bit 1 icn)).
  (** C_i = P_i xor E(Y_i), the last block truncated; blocks are numbered from 0. *)
  Fixpoint ctr_blocks (icn : list N) (i : nat) (bs : list (list N)) : list N :=
    match bs with
    | nil => nil
    | b :: t => xorl b (E (Ycnt icn i)) ++ ctr_blocks icn (S i) t
    end.
  Definition mgm_crypt_spec (icn P : list N) : list N := ctr_blocks icn 0 (blocks bl P).
  (** The last block is padded with zeros. *)
  Definition padded (m : list N) : list (list N) :=
    map (fun b => b ++ zeros (bl - length b)) (blocks bl m).
  (** The sum of H_i (x) M_i, H_i = E(Z_i). *)
  Fixpoint multilinear (icn : list N) (i : nat) (bs : list (list N)) : list N :=
    match bs with
    | nil => zeros bl
    | b :: t => xorl (mul (E (Zcnt icn i)) b) (multilinear icn (S i) t)
    end.
  (** len(A) || len(C), in bits. *)
  Definition lengths (A C : list N) : list N :=
    n2be h (8 * N.of_nat (length A)) ++ n2be (bl - h) (8 * N.of_nat (length C)).
  Definition mgm_tag_spec (icn A C : list N) : list N :=
    E (multilinear icn 0 (padded A ++ padded C ++ [lengths A C])).
  (** Lengths in bits must satisfy len(A) + len(P) < 2^(n/2). *)
  Definition mgm_lengths_ok (A P : list N) : Prop :=
    8 * (N.of_nat (length A) + N.of_nat (length P)) < 2 ^ (4 * N.of_nat bl).
End MgmSpec.
