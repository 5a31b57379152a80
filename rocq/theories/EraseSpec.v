(** Vocabulary of C61: two histories which differ only in secrets. *)
From Verif Require Import Bytes EraseModel.
Local Open Scope N_scope.

Definition same_presence (a b : option (list N)) : Prop := match a, b with None, None | Some _, Some _ => True | _, _ => False end.
(** The same call: keys, IVs and data may differ; whether a key or an IV is given, the direction, the length of the data and every
    public parameter (the meshing interval, the S-boxes, the TLS record number) are the same. *)
Definition same_call (x y : g_call) : Prop :=
  match x, y with
  | G_init k1 v1 e1, G_init k2 v2 e2 => same_presence k1 k2 /\ same_presence v1 v2 /\ e1 = e2
  | G_data d1, G_data d2 => length d1 = length d2
  | G_mesh n1, G_mesh n2 => n1 = n2
  | G_sbox s1, G_sbox s2 => s1 = s2
  | G_tls _ a1 q1, G_tls _ a2 q2 => a1 = a2 /\ q1 = q2
  | _, _ => False
  end.
Definition all_zero (l : list N) : Prop := Forall (fun b => b = 0) l.
