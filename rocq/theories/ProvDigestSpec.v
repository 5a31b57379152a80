(** What a user of the provider's digests expects: a context holds the bytes given to it since its initialisation,
    a duplicate starts with the bytes of its source, and finishing returns the standard's hash of the bytes. *)
From Coq Require Import ZArith NArith List Bool.
From Verif Require Import Bytes Gost89Spec Gost89Sboxes Gost89Model Hash94Spec StreebogSpec ProvDigestModel.
Import ListNotations.

Definition standard (a : alg) (m : list N) : list N :=
  match a with
  | D94 => hash94 (sboxes_of GostR3411_94_CryptoProParamSet) m
  | D256 => streebog256 m
  | D512 => streebog512 m
  end.
Definition hash_bytes (a : alg) : N := match a with D94 | D256 => 32 | D512 => 64 end.
Definition block_bytes (a : alg) : N := match a with D94 => 32 | _ => 64 end.

(** A context: its provider instance, its algorithm and, if it was initialised and not finished since, the bytes *)
Record sctx := mk_sctx { s_inst : nat; s_alg : alg; s_msg : option (list N) }.
Definition world : Type := list (option sctx).
Definition put (w : world) (h : nat) (c : option sctx) : world := firstn h w ++ c :: skipn (S h) w.
Definition get (w : world) (h : nat) : option sctx := nth h w None.

(** Calls in an order the API allows: contexts are used between their creation and their release, data are given and
    the hash is taken only after initialisation, a piece of data has less than 2^31 bytes (and a message for the 1994
    hash less than 2^60); an instance is torn down when there is no context left - of any instance. *)
Definition legal (w : world) (o : call) : Prop :=
  match o with
  | New _ _ | GetParams _ => True
  | Dup h | Free h | Init h => get w h <> None
  | Update h data =>
      exists c m, get w h = Some c /\ s_msg c = Some m /\ bytes data /\ (Z.of_nat (length data) < 2 ^ 31)%Z /\
        (s_alg c = D94 -> (N.of_nat (length m + length data) < 2 ^ 60)%N)
  | Final h n => exists c m, get w h = Some c /\ s_msg c = Some m /\ n = hash_bytes (s_alg c)
  | Teardown _ => forall h, get w h = None
  end.
(** What the call does and returns *)
Definition expected (w : world) (o : call) : world * result :=
  match o with
  | New i a => (w ++ [Some (mk_sctx i a None)], Handle (length w))
  | Dup h => (w ++ [get w h], Handle (length w))
  | Free h => (put w h None, Done)
  | Init h => match get w h with Some c => (put w h (Some (mk_sctx (s_inst c) (s_alg c) (Some []))), Returns true) | None => (w, Done) end
  | Update h data =>
      match get w h with
      | Some (mk_sctx i a (Some m)) => (put w h (Some (mk_sctx i a (Some (m ++ data)))), Returns true)
      | _ => (w, Done)
      end
  | Final h _ =>
      match get w h with
      | Some (mk_sctx i a (Some m)) => (put w h (Some (mk_sctx i a None)), Digest (standard a m) (hash_bytes a))
      | _ => (w, Done)
      end
  | GetParams a => (w, Params (block_bytes a) (hash_bytes a) false)
  | Teardown _ => (w, Done)
  end.
Fixpoint all_legal (w : world) (l : list call) : Prop :=
  match l with [] => True | o :: l' => legal w o /\ all_legal (fst (expected w o)) l' end.
Fixpoint expected_results (w : world) (l : list call) : list result :=
  match l with [] => [] | o :: l' => let (w', r) := expected w o in r :: expected_results w' l' end.
