(** Model of the Kuznyechik core: gost_grasshopper_core.c and gost_grasshopper_math.h.
    A [grasshopper_w128_t] is the list of its sixteen bytes b[0] .. b[15] (the 32/64-bit views of
    the union are used for copying and exclusive-or only, which act bytewise). *)
From Verif Require Import Bytes KuzTables.

(** gost_grasshopper_math.h:125-132 *)
Definition grasshopper_galois_mul (x y : N) : N :=
  if negb (x =? 0) && negb (y =? 0) then
    get grasshopper_galois_alpha_to ((get grasshopper_galois_index_of x + get grasshopper_galois_index_of y) mod 255)
  else 0.

(** gost_grasshopper_math.h:85-97: [append128] x ^= y; :99-103 [plus128] likewise into a third
    variable. *)
Definition append128 (x y : list N) : list N := xorl x y.

(** One entry of a precomputed table. *)
Definition entry (array : list (list N)) (i : nat) (b : N) : list N :=
  n2be 16 (get (nth i array nil) b).
(** gost_grasshopper_math.h:106-113 [plus128multi] (and :115-119 [append128multi], which copies the
    result back; the scratch [buffer] is not otherwise read). *)
Definition append128multi (x : list N) (array : list (list N)) : list N :=
  fold_left (fun r i => append128 r (entry array i (nth i x 0))) (seq 0 16) (zeros 16).
(** gost_grasshopper_math.h:121-126 *)
Definition convert128 (x : list N) (array : list N) : list N := map (get array) x.

(** gost_grasshopper_core.c:16-33: one iteration of the j loop (i = 14 .. 0), then sixteen. *)
Definition l_round (w : list N) : list N :=
  let '(x, w) :=
    fold_left (fun '(x, w) i =>
                 (N.lxor x (grasshopper_galois_mul (nth i w 0) (nth i grasshopper_lvec 0)),
                  set w (i + 1) (nth i w 0)))
              (rev (seq 0 15)) (nth 15 w 0, w) in
  set w 0 x.
Definition grasshopper_l (w : list N) : list N := Nat.iter 16 l_round w.
(** gost_grasshopper_core.c:35-48 *)
Definition l_inv_round (w : list N) : list N :=
  let '(x, w) :=
    fold_left (fun '(x, w) i =>
                 let w := set w i (nth (i + 1) w 0) in
                 (N.lxor x (grasshopper_galois_mul (nth i w 0) (nth i grasshopper_lvec 0)), w))
              (seq 0 15) (nth 0 w 0, w) in
  set w 15 x.
Definition grasshopper_l_inv (w : list N) : list N := Nat.iter 16 l_inv_round w.

(** Assignment to a slot of an array of blocks. *)
Fixpoint setk (ks : list (list N)) (i : nat) (v : list N) : list (list N) :=
  match ks, i with
  | nil, _ => nil
  | _ :: t, O => v :: t
  | k :: t, S i => k :: setk t i v
  end.

(** gost_grasshopper_core.c:52-92; the wiping of the local variables at the end is not modelled. *)
Definition set_encrypt_key_round (s : list N * list N * list (list N)) (i : nat)
  : list N * list N * list (list N) :=
  let '(x, y, subkeys) := s in
  let c := grasshopper_l (set (zeros 16) 15 (N.of_nat i)) in
  let z := append128 x c in
  let z := convert128 z grasshopper_pi in
  let z := grasshopper_l z in
  let z := append128 z y in
  let y := x in
  let x := z in
  if Nat.eqb (Nat.modulo i 8) 0 then
    let k := Nat.div i 4 in (x, y, setk (setk subkeys k x) (k + 1) y)
  else (x, y, subkeys).
Definition grasshopper_set_encrypt_key (subkeys : list (list N)) (key : list N) : list (list N) :=
  let x := sub 0 16 key in
  let y := sub 16 16 key in
  snd (fold_left set_encrypt_key_round (seq 1 32) (x, y, setk (setk subkeys 0 x) 1 y)).

(** gost_grasshopper_core.c:94-101 *)
Definition grasshopper_set_decrypt_key (subkeys : list (list N)) (key : list N) : list (list N) :=
  fold_left (fun ks i => setk ks i (grasshopper_l_inv (nth i ks nil))) (seq 1 9)
            (grasshopper_set_encrypt_key subkeys key).

(** gost_grasshopper_core.c:103-114 *)
Definition grasshopper_encrypt_block (subkeys : list (list N)) (source : list N) : list N :=
  append128
    (fold_left (fun target i =>
                  append128multi (append128 target (nth i subkeys nil)) grasshopper_pil_enc128)
               (seq 0 9) source)
    (nth 9 subkeys nil).

(** gost_grasshopper_core.c:116-131; i = 9 .. 2. *)
Definition grasshopper_decrypt_block (subkeys : list (list N)) (source : list N) : list N :=
  let target := append128multi source grasshopper_l_dec128 in
  let target :=
    fold_left (fun target i =>
                 append128multi (append128 target (nth i subkeys nil)) grasshopper_pil_dec128)
              (rev (seq 2 8)) target in
  let target := append128 target (nth 1 subkeys nil) in
  append128 (convert128 target grasshopper_pi_inv) (nth 0 subkeys nil).
