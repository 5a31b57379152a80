(** Specification of key objects: what an object is to its user, and what the calls do to it.  Nothing here
    mentions EC_KEYs or the engine's methods.  Shared with the model: the calls and their replies, OpenSSL's
    text primitives (an indentation, a number in hexadecimal, the printed names of algorithms and parameter
    sets). *)
From Coq Require Import String Ascii ZArith List Bool Lia.
From Verif Require Import Bytes EcLadderModel EcSpec EcModel ParamsModel AmethModel PkeyObjModel.
Import ListNotations.
Local Open Scope Z_scope.

(** An object holds nothing, an algorithm, a parameter set, a public point, or a private number (and with it
    the public point). *)
Inductive key :=
  | K_blank
  | K_typed (a : pkey_alg)
  | K_params (a : pkey_alg) (c : curve_nid)
  | K_public (a : pkey_alg) (c : curve_nid) (xy : Z * Z)
  | K_pair (a : pkey_alg) (c : curve_nid) (d : Z).

Definition key_type (k : key) : option pkey_alg :=
  match k with K_blank => None | K_typed a | K_params a _ | K_public a _ _ | K_pair a _ _ => Some a end.
Definition key_set (k : key) : option curve_nid :=
  match k with K_blank | K_typed _ => None | K_params _ c | K_public _ c _ | K_pair _ c _ => Some c end.
Definition key_private (k : key) : option Z := match k with K_pair _ _ d => Some d | _ => None end.

Section Spec.
(** The parameter sets that exist, as curves. *)
Variable lib : curve_nid -> option curve.

(** The multiple [d] of the generator, as coordinates; None is infinity. *)
Definition multiple (c : curve_nid) (d : Z) : option (Z * Z) :=
  match lib c with None => None | Some C => affine (cv C) (smul d (gen (cv C))) end.
Definition key_point (k : key) : option (option (Z * Z)) :=
  match k with
  | K_public _ _ xy => Some (Some xy)
  | K_pair _ c d => Some (multiple c d)
  | _ => None
  end.
Definition same {A} (dec : forall a b : A, {a = b} + {a <> b}) (a b : A) : Z := if dec a b then 1 else 0.
Definition alg_dec (a b : pkey_alg) : {a = b} + {a <> b}. Proof. decide equality. Defined.
Definition type_dec (a b : option pkey_alg) : {a = b} + {a <> b}. Proof. decide equality. apply alg_dec. Defined.
Definition nid_dec (a b : curve_nid) : {a = b} + {a <> b}. Proof. decide equality. Defined.
Definition xy_dec (a b : option (Z * Z)) : {a = b} + {a <> b}.
Proof. decide equality. destruct a0 as [x y], p as [x' y']. destruct (Z.eq_dec x x'), (Z.eq_dec y y'); [left|right|right|right]; congruence. Defined.

(** Same set; same set and same public point. *)
Definition same_params (a b : key) : Z :=
  if type_dec (key_type a) (key_type b) then
    match key_type a with
    | None => -2
    | Some _ => match key_set a, key_set b with Some c, Some c' => same nid_dec c c' | _, _ => 0 end
    end
  else -1.
Definition same_key (a b : key) : Z :=
  match same_params a b with
  | 1 => match key_point a, key_point b with Some P, Some Q => same xy_dec P Q | _, _ => 0 end
  | r => r
  end.

(** Text. *)
Local Open Scope string_scope.
Definition line (indent : Z) (s : string) : string := BIO_indent indent ++ s ++ nl.
Definition private_text (k : key) (n : Z) : string :=
  line n ("Private key: " ++ match key_private k with Some d => BN_print d | None => "<undefined>" end).
Definition public_text (X Y n : Z) : string :=
  line n "Public key:" ++ line (n + 3) ("X:" ++ BN_print X) ++ line (n + 3) ("Y:" ++ BN_print Y).
Definition set_text (c : curve_nid) (n : Z) : string := line n ("Parameter set: " ++ curve_ln c).
Definition unsupported_text (k : key) (what : string) (n : Z) : string :=
  line n (what ++ " algorithm " ++ quote ++ alg_ln (key_type k) ++ quote ++ " unsupported").
Local Open Scope Z_scope.
(** [kind]: 0 parameters, 1 public, 2 private (with public and parameters). *)
Definition shown (k : key) (kind n : Z) : printed :=
  match key_type k, kind with
  | None, 0 => (1, unsupported_text k "Parameters" n)
  | None, 1 => (1, unsupported_text k "Public Key" n)
  | None, _ => (1, unsupported_text k "Private Key" n)
  | Some (A2012_256 | A2012_512), 0 => (1, unsupported_text k "Parameters" n)
  | Some _, 0 => match key_set k with None => (0, ""%string) | Some c => (1, set_text c n) end
  | Some _, _ =>
    let first := if kind =? 2 then private_text k n else ""%string in
    match key_point k, key_set k with
    | Some (Some (X, Y)), Some c => (1, (first ++ public_text X Y n ++ set_text c n)%string)
    | _, _ => (0, first)
    end
  end.

Local Open Scope list_scope.
(** A valid key: the point is not infinity and of the prime order; the private number is in 1 .. order - 1. *)
Definition valid (k : key) : bool :=
  match k with
  | K_public _ c (X, Y) =>
    match lib c with
    | None => false
    | Some C =>
      match lift C X Y with
      | None => false
      | Some P => if xy_dec (affine (cv C) (smul (order (cv C)) P)) None then true else false
      end
    end
  | K_pair _ c d => match lib c with None => false | Some C => (0 <? d) && (d <? order (cv C)) end
  | _ => false
  end.

Definition supported (a : pkey_alg) : bool := match a with A_other => false | _ => true end.
Definition known (c : curve_nid) : bool := match lib c with Some _ => true | None => false end.
Definition first_nonzero (l : list Z) : option Z := find (fun d => negb (d =? 0)) l.

Definition keys := list key.
(** A new object, or none. *)
Definition made (s : keys) (o : option key) : keys * reply :=
  match o with None => (s, R_int 0) | Some k => (s ++ [k], R_int 1) end.
Definition generated (a : pkey_alg) (n : option curve_nid) (draws : option (list Z)) : option key :=
  match n with
  | None => None
  | Some c =>
    if supported a && known c then
      match draws with
      | None => Some (K_params a c)
      | Some l => option_map (K_pair a c) (first_nonzero l)
      end
    else None
  end.
Definition without_data (k : key) : key := match key_type k with None => K_blank | Some a => K_typed a end.
(** Giving [to] the parameters of [from]. *)
Definition copied (to from : key) : Z * key :=
  match key_type from with
  | None => (0, to)
  | Some a =>
    let to := match to with K_blank => K_typed a | k => k end in
    match key_set from with
    | None => (0, to)
    | Some c =>
      match to with
      | K_typed b => if alg_dec a b then (1, K_params a c) else (0, to)
      | _ => ((if Z.eq_dec (same_params to from) 1 then 1 else 0), to)
      end
    end
  end.
Definition size (k : key) : Z :=
  match key_type k with None => 0 | Some A2012_512 => 128 | Some _ => 64 end.
Definition bits (k : key) : Z :=
  match key_type k with None => 0 | Some A2012_512 => 512 | Some _ => 256 end.

Definition with1 (s : keys) (h : nat) (f : key -> keys * reply) : keys * reply :=
  match nth_error s h with None => (s, R_int 0) | Some k => f k end.
Definition does (s : keys) (q : call) : keys * reply :=
  match q with
  | New => made s (Some K_blank)
  | Set_type h a =>
    with1 s h (fun k => if supported a then (put s h (K_typed a), R_int 1) else (put s h (without_data k), R_int 0))
  | Generate a n draws => made s (generated a n draws)
  | Generate_like h draws =>
    with1 s h (fun k => match key_type k with
                        | None => (s, R_int 0)
                        | Some a => made s (generated a (key_set k) draws)
                        end)
  | Import_private a c d =>
    made s (if supported a && known c && scalar_fits c d then Some (K_pair a c d) else None)
  | Import_public a c X Y =>
    made s (match lib c with
            | None => None
            | Some C =>
              if supported a then
                match lift C X Y with
                | None => None
                | Some P => option_map (K_public a c) (affine (cv C) P)
                end
              else None
            end)
  | Import_params a c =>
    made s (match a with
            | A2001 | A2001DH => if known c then Some (K_params a c) else None
            | _ => None
            end)
  | Export_params h =>
    with1 s h (fun k => (s, match key_type k, key_set k with
                            | Some (A2001 | A2001DH), Some c => R_set c
                            | _, _ => R_int (-1)
                            end))
  | Copy_params h h' =>
    with1 s h (fun to => with1 s h' (fun from => let '(r, k) := copied to from in (put s h k, R_int r)))
  | Equal h h' => with1 s h (fun a => with1 s h' (fun b => (s, R_int (if Nat.eqb h h' then 1 else same_key a b))))
  | Params_equal h h' => with1 s h (fun a => with1 s h' (fun b => (s, R_int (same_params a b))))
  | Missing h =>
    with1 s h (fun k => (s, R_int (match key_type k, key_set k with Some _, None => 1 | _, _ => 0 end)))
  | Print h kind n => with1 s h (fun k => (s, R_text (shown k kind n)))
  | Check h => with1 s h (fun k => (s, R_int (if valid k then 1 else 0)))
  | Size h => with1 s h (fun k => (s, R_int (size k)))
  | Bits h => with1 s h (fun k => (s, R_int (bits k)))
  end.
Fixpoint history (s : keys) (l : list call) : keys * list reply :=
  match l with
  | [] => (s, [])
  | q :: more => let '(s', r) := does s q in let '(s2, rs) := history s' more in (s2, r :: rs)
  end.

(** The calls for which the engine keeps to this: not generating with, or reading parameters of, the
    algorithm 2001DH; for the 2012 algorithms a set of their own size; a random generator that works;
    parameters written only of an object that has some. *)
Definition own_set (a : pkey_alg) (c : curve_nid) : Prop :=
  match a with
  | A2012_256 => match c with Tc512_Test | Tc512_A | Tc512_B | Tc512_C => False | _ => True end
  | A2012_512 => match c with Tc512_Test | Tc512_A | Tc512_B | Tc512_C | OtherNid => True | _ => False end
  | _ => True
  end.
Definition fair (a : pkey_alg) (n : option curve_nid) (draws : option (list Z)) : Prop :=
  a <> A2001DH /\
  match n with
  | None => True
  | Some c =>
    own_set a c /\
    match draws, lib c with
    | Some l, Some C => Forall (fun d => 0 <= d < order (cv C)) l /\ first_nonzero l <> None
    | _, _ => True
    end
  end.
Definition allowed (s : keys) (q : call) : Prop :=
  match q with
  | Generate a n draws => fair a n draws
  | Generate_like h draws =>
    match nth_error s h with
    | Some k => match key_type k with Some a => fair a (key_set k) draws | None => True end
    | None => True
    end
  | Import_private _ _ d => 0 <= d
  | Import_public _ _ X Y => 0 <= X /\ 0 <= Y
  | Import_params a _ => a <> A2001DH
  | Export_params h =>
    match nth_error s h with
    | Some k => match key_type k with Some (A2001 | A2001DH) => key_set k <> None | _ => True end
    | None => True
    end
  | Print _ kind _ => kind = 0 \/ kind = 1 \/ kind = 2
  | _ => True
  end.
Fixpoint all_allowed (s : keys) (l : list call) : Prop :=
  match l with [] => True | q :: more => allowed s q /\ all_allowed (fst (does s q)) more end.
End Spec.

(** The parameter sets: each has its own name, is a group with the laws of EcSpec.v, and a pair of coordinates
    names at most one point of it. *)
Definition sets_ok (lib : curve_nid -> option curve) : Prop :=
  lib OtherNid = None /\
  forall n C, lib n = Some C ->
    gname (cv C) = n /\ ec_laws (cv C) /\
    (forall x y P, lift C x y = Some P -> affine (cv C) P <> None) /\
    (forall P x y, affine (cv C) P = Some (x, y) -> lift C x y = Some P).
