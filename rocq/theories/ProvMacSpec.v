(** Sessions with a MAC: initialise, feed, finish. *)
From Coq Require Import ZArith List.
From Verif Require Import Bytes ProvMacModel.
Import ListNotations.
Open Scope Z_scope.
Section Session.
Variable D : Type.
Variable M : md D.
Fixpoint mac_feed (c : pmac D) (chunks : list (list N)) : option (pmac D) :=
  match chunks with
  | nil => Some c
  | d :: t => match mac_update M c d with (1, c) => mac_feed c t | _ => None end
  end.
(** The tag written and the length reported, if every call succeeds. *)
Definition mac_session (c : pmac D) (key : Z * list N) (p : params) (chunks : list (list N)) : option (list N * Z) :=
  match mac_init M c (Some key) p with
  | Some (1, c) =>
      match mac_feed c chunks with
      | Some c => match mac_final M c with Some (1, tag, outl, _) => Some (tag, outl) | _ => None end
      | None => None
      end
  | _ => None
  end.
End Session.
Arguments mac_feed {D}. Arguments mac_session {D}.
