(** Bytes, machine words and their little/big-endian conversions.
    A byte is an [N] below 256, a 32-bit word an [N] below 2^32. *)
From Coq Require Import String Ascii.
From Coq Require Export NArith ZArith List Bool Lia.
Export ListNotations.
Open Scope N_scope.

Definition isbyte (b : N) : Prop := b < 256.
Definition bytes (l : list N) : Prop := Forall isbyte l.

(** Reduction of an unsigned computation to 8 / 32 / 64 bits (C's modular unsigned types). *)
Definition w8 (x : N) : N := N.land x 0xff.
Definition w32 (x : N) : N := N.land x 0xffffffff.
Definition w64 (x : N) : N := N.land x 0xffffffffffffffff.

Definition add32 (a b : N) : N := w32 (a + b).
Definition sub32 (a b : N) : N := w32 (a + (4294967296 - b)).

(** Byte-wise xor of two buffers. *)
Fixpoint xorl (a b : list N) : list N :=
  match a, b with
  | x :: a', y :: b' => N.lxor x y :: xorl a' b'
  | _, _ => nil
  end.

(** Little-endian bytes to a number, and back on [n] bytes. *)
Fixpoint le2n (l : list N) : N :=
  match l with
  | nil => 0
  | b :: t => b + 256 * le2n t
  end.

Fixpoint n2le (n : nat) (x : N) : list N :=
  match n with
  | O => nil
  | S n' => w8 x :: n2le n' (N.shiftr x 8)
  end.

(** Big-endian conversions. *)
Definition be2n (l : list N) : N := le2n (rev l).
Definition n2be (n : nat) (x : N) : list N := rev (n2le n x).

Definition zeros (n : nat) : list N := repeat 0 n.

(** Sub-buffer of [len] bytes at offset [off]. *)
Definition sub (off len : nat) (l : list N) : list N := firstn len (skipn off l).

(** Array read with a default for out-of-range reads. *)
Definition get (l : list N) (i : N) : N := nth (N.to_nat i) l 0.

(** Array write [l[i] = v]. *)
Fixpoint set (l : list N) (i : nat) (v : N) : list N :=
  match l, i with
  | nil, _ => nil
  | _ :: t, O => v :: t
  | h :: t, S i' => h :: set t i' v
  end.

(** Cut a list into consecutive blocks of [n] elements (the last one may be short). *)
Fixpoint blocks_fuel (fuel n : nat) (l : list N) : list (list N) :=
  match fuel with
  | O => nil
  | S fuel' =>
      match l with
      | nil => nil
      | _ => firstn n l :: blocks_fuel fuel' n (skipn n l)
      end
  end.
Definition blocks (n : nat) (l : list N) : list (list N) := blocks_fuel (length l) n l.

(** Buffer comparison (memcmp = 0 on equal lengths). *)
Fixpoint eqbl (a b : list N) : bool :=
  match a, b with
  | nil, nil => true
  | x :: a', y :: b' => (x =? y) && eqbl a' b'
  | _, _ => false
  end.

(** Hexadecimal literals, for test vectors. *)
Definition hexval (c : ascii) : N :=
  let n := N_of_ascii c in
  if (48 <=? n) && (n <=? 57) then n - 48
  else if (65 <=? n) && (n <=? 70) then n - 55
  else if (97 <=? n) && (n <=? 102) then n - 87
  else 0.
Fixpoint hex (s : string) : list N :=
  match s with
  | String a (String b t) => (16 * hexval a + hexval b) :: hex t
  | _ => nil
  end.
Fixpoint hexN_acc (s : string) (acc : N) : N :=
  match s with
  | EmptyString => acc
  | String a t => hexN_acc t (16 * acc + hexval a)
  end.
(** A hexadecimal number, most significant digit first. *)
Definition hexN (s : string) : N := hexN_acc s 0.
Definition ascii_bytes (s : string) : list N := map N_of_ascii (list_ascii_of_string s).

Arguments w8 : simpl never.
Arguments w32 : simpl never.
Arguments w64 : simpl never.
