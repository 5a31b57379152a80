(** When an abstract group (EcLadderModel.group) is the group of points of the curve y^2 = x^3 + a x + b over the
    field of p elements.  Nothing here mentions the program. *)
From Coq Require Import ZArith Znumtheory Bool.
From Verif Require Import EcFormulaSpec FieldZp EcLadderModel EcSpec.
Local Open Scope Z_scope.

(** [w] is the point of the curve an element of the group stands for. *)
Record curve_points (C : group) (p : Z) (Pp : prime p) (a b : Z) (w : pt C -> wpoint (zp p Pp)) : Prop := {
  cp_on : forall P, w_on (zp p Pp) (res p a) (res p b) (w P);
  cp_all : forall x y, w_on (zp p Pp) (res p a) (res p b) (Finite x y) -> exists P, w P = Finite x y;
  cp_add : forall P Q, w (padd C P Q) = w_add (zp p Pp) (res p a) (w P) (w Q);
  cp_neg : forall P, w (pneg C P) = w_opp (zp p Pp) (w P);
  cp_zero : w (pzero C) = Infinity;
  cp_affine : forall P, affine C P = match w P with Infinity => None | Finite x y => Some (val p x, val p y) end }.

(** OpenSSL's test of EC_POINT_set_affine_coordinates *)
Definition on_curve_b (p a b x y : Z) : bool := (y * y - (x * x * x + a * x + b)) mod p =? 0.

(** What the constants of a file have to be for the curve: b (and a = -3); a and 3b; or d, s and t of the
    Edwards form. *)
From Verif Require Import EcFormulaModel EcFormulaProofs.
Definition consts_ok (K : field) (a b : F K) (fam : family) (c : consts K) : Prop :=
  match fam with
  | Edwards => nonsquare K (k_d K c) /\ ew_params K (k_S K c) (k_T K c) (k_d K c) /\
               a = ew_a K (k_S K c) (k_T K c) /\ b = ew_b K (k_S K c) (k_T K c)
  | _ => w_consts K a b fam c
  end.
(** A table entry holds a point: its affine coordinates, or those of its Edwards form and their product. *)
Definition entry_ok (K : field) (fam : family) (c : consts K) (e : aff K) (P : wpoint K) : Prop :=
  match fam with
  | Edwards => e_on K (k_d K c) (aX K e, aY K e) /\ aT K e = fmul K (aX K e) (aY K e) /\
               legacy K (k_S K c) (k_T K c) (aX K e, aY K e) = P
  | _ => P = Finite (aX K e) (aY K e)
  end.
