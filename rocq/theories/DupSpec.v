(** Contexts as values: what users of duplicated contexts expect.  Copying is assignment. *)
From Coq Require Import ZArith List Bool.
From Verif Require Import Bytes OmacModel KdfModel DupModel.
Import ListNotations.
Open Scope Z_scope.

Section Values.
Variables (V Call : Type) (v_init : V) (v_call : V -> Call -> option (Z * list N) * V).
Definition vtable : Type := nat -> option V.
Definition vstep (T : vtable) (o : op Call) : option (Z * list N) * vtable :=
  match o with
  | New i => match T i with None => (Some (1, nil), put T i (Some v_init)) | Some _ => (None, T) end
  | Do i c => match T i with None => (None, T) | Some v => let (r, v) := v_call v c in (r, put T i (Some v)) end
  | Copy i j => if Nat.eqb i j then (None, T) else match T i with None => (None, T) | Some v => (Some (1, nil), put T j (Some v)) end
  | Free i => match T i with None => (None, T) | Some _ => (Some (1, nil), put T i None) end
  end.
Fixpoint vrun (T : vtable) (l : list (op Call)) : list (nat * option (Z * list N)) :=
  match l with nil => nil | o :: l => let (r, T) := vstep T o in (target o, r) :: vrun T l end.
End Values.
Arguments vstep {V Call}. Arguments vrun {V Call}.

(** The calls made on a context by a program, and the results it got. *)
Definition calls_on {Call} (j : nat) (l : list (op Call)) : list Call :=
  flat_map (fun o => match o with Do i c => if Nat.eqb i j then [c] else [] | _ => [] end) l.
Definition results_on {R} (j : nat) (l : list (nat * R)) : list R := map snd (filter (fun x => Nat.eqb (fst x) j) l).
(** The program does nothing to context [j] but calls. *)
Definition only_calls {Call} (j : nat) (l : list (op Call)) : Prop :=
  Forall (fun o => target o = j -> exists c, o = Do j c) l.

(** What the user of an implementation relies on: no sequence of operations follows a wrong pointer, and when context [i] has
    been copied to [j], then - whatever else is done to any other context, the original included - [j] answers every later call
    as [i] would have answered it at the time of the copy, and [i] as if there had been no copy. *)
Definition copies_independent {O C Call} (M : methods O C Call) : Prop :=
  (forall l, exists rs, run M start l = Some rs) /\
  (forall pre i j ops, i <> j ->
     exists r1 rc r2, run M start (pre ++ Copy i j :: ops) = Some (r1 ++ (j, rc) :: r2) /\ length r1 = length pre /\
       (rc = Some (1, nil) ->
          (only_calls j ops ->
             exists r3, run M start (pre ++ map (Do i) (calls_on j ops)) = Some (r1 ++ r3) /\ results_on j r2 = map snd r3) /\
          (only_calls i ops ->
             exists r3, run M start (pre ++ map (Do i) (calls_on i ops)) = Some (r1 ++ r3) /\ results_on i r2 = map snd r3))).
