(** Model of gost_keywrap.c: CryptoPro key diversification, wrap and unwrap (RFC 4357, 6.3-6.5).
    A [gost_ctx] already holds the S-boxes; buffers of the caller are value lists. *)
From Verif Require Import Bytes Gost89Model.

(** gost_keywrap.c:36-38: word [j] of the key. *)
Definition kw_word (key : list N) (j : nat) : N :=
  N.lor (N.lor (N.lor (nth (4 * j) key 0) (w32 (N.shiftl (nth (4 * j + 1) key 0) 8)))
               (w32 (N.shiftl (nth (4 * j + 2) key 0) 16))) (w32 (N.shiftl (nth (4 * j + 3) key 0) 24)).
(** :34-44: the loop over j, mask = 1 << j. *)
Fixpoint kw_sums (key : list N) (u : N) (js : list nat) (s1 s2 : N) : N * N :=
  match js with
  | nil => (s1, s2)
  | j :: t =>
      if N.land (N.shiftl 1 (N.of_nat j)) u =? 0 then kw_sums key u t s1 (w32 (s2 + kw_word key j))
      else kw_sums key u t (w32 (s1 + kw_word key j)) s2
  end.
(** :45-52 *)
Definition kw_S (s1 s2 : N) : list N :=
  map (fun i => N.land (N.shiftr s1 (8 * i)) 0xff) [0; 1; 2; 3] ++
  map (fun i => N.land (N.shiftr s2 (8 * i)) 0xff) [0; 1; 2; 3].
(** :27-55, the body of the loop over i.  gost_enc_cfb works in place, block by block: every block is
    read before it is written. *)
Definition diversify_step (c : gost_ctx) (key : list N) (u : N) : gost_ctx * list N :=
  let (s1, s2) := kw_sums key u (seq 0 8) 0 0 in
  let c := gost_key c key in
  (c, gost_enc_cfb c (kw_S s1 s2) key 4).
Fixpoint diversify_loop (c : gost_ctx) (key ukm : list N) : gost_ctx * list N :=
  match ukm with
  | nil => (c, key)
  | u :: t => let (c, key) := diversify_step c key u in diversify_loop c key t
  end.
(** :22-56 [keyDiversifyCryptoPro] *)
Definition keyDiversifyCryptoPro (c : gost_ctx) (inputKey ukm : list N) : gost_ctx * list N :=
  diversify_loop c (firstn 32 inputKey) (firstn 8 ukm).
(** :67-79 [keyWrapCryptoPro]: the context afterwards and the 44 bytes of wrappedKey. *)
Definition keyWrapCryptoPro (c : gost_ctx) (kek ukm sessionKey : list N) : gost_ctx * list N :=
  let (c, k) := keyDiversifyCryptoPro c kek ukm in
  let c := gost_key c k in
  (c, firstn 8 ukm ++ gost_enc c sessionKey 4 ++ gost_mac_iv c 32 (firstn 8 ukm) (firstn 32 sessionKey)).
(** :92-108 [keyUnwrapCryptoPro]: return value and sessionKey. *)
Definition keyUnwrapCryptoPro (c : gost_ctx) (kek wrapped : list N) : Z * list N :=
  let (c, k) := keyDiversifyCryptoPro c kek wrapped in
  let c := gost_key c k in
  let sk := gost_dec c (skipn 8 wrapped) 4 in
  let mac := gost_mac_iv c 32 (firstn 8 wrapped) sk in
  ((if eqbl mac (sub 40 4 wrapped) then 1 else 0)%Z, sk).
