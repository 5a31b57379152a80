# Formal model of gost-engine/engine in Rocq (Coq 8.16.1)

## Method

The C code is transcribed function by function into small executable Gallina functions
(`*Model.v` files).  Every definition cites the file and the lines it models.  Bytes and machine
words are `N` (a byte is an `N` below 256, a word is an `N` below 2^32/2^64, arithmetic carries the
explicit `mod`).  A C context structure is a record; a C function which mutates a context is a
function returning the new record.  Output buffers are returned lists.  Return codes are kept
(`Z` or an option/sum).  Undefined behaviour is a separate outcome where it is reachable.

Specifications (`*Spec.v`) are written from the standards (RFC 5830, RFC 5831, RFC 6986, RFC 7801,
RFC 8645, RFC 9058, RFC 4357, RFC 7091, RFC 7836) in a deliberately different style: non-incremental,
over the whole message, without buffers and counters.  Theorems relate the two, for all inputs.

Proof files hold lemmas; `Prop*.v` files hold the property theorems, each with `Print Assumptions`
and an `Example` showing that a concrete non-trivial case meets the hypotheses (usually a test vector from
the repository's tests or the standards).

Claims which are false of the code are proved false: `_refuted` theorems give a witness, and the
strongest true variant is proved beside it.

## Per-property plan

The exact statement, domain and status of each property are in properties.jsonl and MANIFEST.json.  A property that the
code does not have as first stated is restated with its exact domain, and the defect is a theorem of its own (`_refuted`,
with a witness).

| id | what is modelled (files of `rocq/theories`) | how it is proved |
|----|-------|-------|
| C01-C05 | gost89.c: kboxinit, f, gostcrypt, gostdecrypt, magmacrypt, magmadecrypt, key functions with masks, ECB, CFB (`Gost89Model`, `Gost89Sboxes`) | Feistel inversion by induction over the rounds; refinement of RFC 5830 / RFC 8891 (`Gost89Spec`), masks eliminated algebraically mod 2^32 |
| C06-C07 | gost89.c get_mac, mac_block, gost_mac, gost_mac_iv | induction on blocks; refutation for bit lengths that are no multiple of 8 |
| C08-C13, C16 | gost_crypt.c: all ciphers of the file, their init functions, key meshing, control calls (`CryptModel`) | invariant relating the buffered context to a position in a stream (`StreamMode`, `BlockLoop`), then induction over the list of chunks; histories of contexts for C13 |
| C14-C15 | gost_crypt.c gost_imit_* | same, on the MAC state |
| C17-C18 | gosthash.c (`Hash94Model`) | induction over chunks, refinement of RFC 5831 |
| C19-C21 | gosthash2012.c, its tables and the reference round (`StreebogModel`) | 512-bit addition lemma; tables checked over their index range and lifted by linearity; refinement of RFC 6986 |
| C22-C26 | gost_grasshopper_*.c: core, tables, modes, CTR-ACPKM, control calls (`Kuz*Model`) | tables checked over their index range, lifted by xor-linearity to all blocks; refinement of RFC 7801, RFC 8645 |
| C27-C30 | gost_grasshopper_mgm.c and the MGM ciphers (`MgmModel`) | polynomials over GF(2) on N (`Gf2`); refinement of RFC 9058 for all chunkings |
| C31 | gost_omac.c, gost_omac_acpkm.c (`OmacModel`) | invariant on the pending block; OpenSSL's CMAC is a library model over the engine's CBC code |
| C32-C33 | gost_keywrap.c, gost_keyexpimp.c and the wrap ciphers (`KeywrapModel`, `KexpModel`) | from the cipher and OMAC theorems; RFC 4357 6.1-6.5, R 1323565.1.017 |
| C34-C36 | KDF tree, TLSTREE, the TLS control calls (`KdfModel`) | refinement of the standards for every host byte order and build; invariant over record numbers |
| C37-C40 | gost_ec_sign.c, gost_ec_keyx.c (VKO, KEG), pkey derive/sign/verify (`EcModel`) | algebra in Z mod q and an abstract group of order q (`EcSpec`: `ec_laws`) |
| C41-C42 | gost_ameth.c key codecs (`AmethModel`, `Asn1Model`) | byte/number conversion lemmas and a DER library model |
| C43 | gost_params.c, gost_ec_sign.c's cache under any schedule of threads (`ParamsModel`) | computation over the table, invariant over interleavings |
| C44 | set/get_asn1_parameters of every cipher (`CmsParamsModel`) | from the cipher theorems, through the sender's and receiver's order of calls |
| C45 | gostsum.c, gost12sum.c (`SumModel`) | induction over the lines of a list; operating system calls are a parameter (`world`) |
| C46 | gost_pmeth.c control calls (`PmethModel`) | state machine, histories |
| C47 | gost_ctl.c with a heap (`CtlModel`) | invariant: each parameter's pointer is live and owned |
| C48 | digest contexts and their copies, with a heap (`DupModel`) | simulation by independent contexts |
| C49 | the ciphers with output buffer = input buffer, at the level of single memory reads and writes | see section "In-place operation" |
| C50 | the scalar multiplications of the ecp_*.c files (`EcLadderModel`) | recoding lemmas, induction over the digits; the point formulas are operations of the abstract group |
| C51 | gost_prov_mac.c (`ProvMacModel`) | from the MAC theorems |
| C52 | gost_gost2015.c and the ctr-acpkm-omac ciphers (`AeadModel`) | simulation by a small specification (`AeadSpec`), from C12, C25, C31, C34 |
| C53 | gost_ec_keyx.c:277-792 and the DER of gost_asn1.c:14-76 (`KeyTransAsn1`, `KeyTransModel`) | DER round trips, then C32 (wrap), C33 (KExp15), C40 (VKO, KEG), C42 (public key encoding) |
| C54 | the straight-line point formulas of the eight ecp_id_*.c (`EcFormulaModel`, extracted from the sources) over an arbitrary field | field identities against chord-and-tangent / Edwards addition, completeness from "no point of order two" / "d is not a square" |
| C55 | the loops of the ecp_id_*.c on coordinates over Z/p, the inversion chains, the limb constants, the EC_POINT wrappers (`EcCoordModel`, `EcInvModel`, `EcConstModel`) | simulation of the abstract loops of C50 with the formulas of C54; exponents of the chains; Fermat; tables: each entry is checked to be the sum of two earlier ones, with witnesses, by verified integer-polynomial arithmetic (`PropEcTable`) |
| C56 | gost_prov_digest.c with the shared EVP_MD objects of gost_md.c / gost_md2012.c, as a machine over a heap of contexts (`ProvDigestModel`); specification: a machine holding byte strings (`ProvDigestSpec`) | refinement by an invariant over all histories, on top of C17 and C19 |
| C57 | gost_prov_cipher.c with the descriptors and templates of gost_crypt.c / gost_grasshopper_cipher.c, the engine's cipher lookup and EVP's buffering and padding, as a machine over a heap of contexts (`ProvCipherModel`); specification: a machine holding the message so far, and the standards' modes on whole messages (`ProvCipherSpec`) | `ProvCipherProofs`: EVP layer over any cipher with a whole-message law, `ProvCipherLaws`: the laws, inverses and re-initialisation of the 13 ciphers; refinement by an invariant over all histories |
| C58 | the control function of the public key ASN.1 methods, gost_ameth.c:230-533: signer and recipient algorithms, key transport and key agreement recipients (`CmsEnvModel`), with OpenSSL's cms_kek_cipher as library model; specification: dotted object identifiers and their DER (`CmsEnvSpec`) | composition with the round trips of C53, with KEG of C40 and with the unwrap ciphers of C33; case analysis of all key agreement messages |
| C59 | registration and destruction, gost_eng.c with gost_md.c, gost_crypt.c, gost_prov.c and register_ameth_gost/register_pmeth_gost as far as they make and free objects (`EngModel`; heap of objects with failing allocations; ENGINE_free, table of names and OBJ_new_nid as library model); specification: lists of the offered numbers and a three-field world (`EngSpec`) | ownership invariant (every living object has exactly one owning variable, or was lost by a failed load), kept by every call of a legal history |
| C60 | the EVP_PKEY methods of gost_ameth.c and key generation of gost_pmeth.c over a store of objects, with EVP_PKEY_eq, _copy_parameters, _print, i2d/d2i_KeyParams and EC_KEY_check_key as library model (`PkeyObjModel`); specification: a five-constructor content of an object and a function from a call and the contents to a reply (`PkeyObjSpec`) | a representation function from contents to objects with which every allowed call commutes, by cases; induction on the history; consequences from the group laws |
| C61 | the clean-up functions of the ciphers and MACs on top of the contexts of `CryptModel`, `KuzCipherModel`, `MgmModel`, the freed blocks of MAC keys, and the local arrays of the wrapping and re-keying functions when they return (`EraseModel`); specification: two histories which differ in secrets only (`EraseSpec`) | a relation between two runs that is kept by every call (`EraseProofs`), after which the clean-up makes them equal; the remaining secrets are exhibited for all inputs |
| C62 | the ladder functions of the generated files and the round function of gost89.c transcribed into a small imperative language whose semantics records every branch, loop turn, array index and field routine (`LeakModel`) | a checker of information flow, proved sound by induction on programs for two stores with the same public part (`LeakProofs`), run on the transcriptions; the same programs refine the ladders of `EcLadderModel` (`LeakRefine`-`LeakRefine3`, by induction on the loops of the semantics), which gives result and trace of one program (`PropLeakRefine`); the leaking functions - also the field multiplications of MGM (`LeakMgm`, `PropLeakMgm`, `PropLeakMgm2`) - by exhibiting what their traces show, for the latter by induction on the difference of two runs |

## Trusted base

* Coq 8.16.1's kernel (including its virtual machine, used by `vm_compute` proofs) and coqchk.
* Axioms: none of our own.  `Print Assumptions` answers "Closed under the global context" for every property theorem
  except `C55_tables`, `C55_curve_files`, `C55_curve_multiples` and `C55_table_example`, which use the standard library's
  63-bit integers to check the 4 400 points of the precomputed tables.  For these four it lists (at most) the primitives
  `PrimInt63.{int, add, sub, mul, lsr, lsl, land, lor, ltb, leb, eqb}` and the axioms about them in
  `Coq.Numbers.Cyclic.Int63.Uint63`: `add_spec, sub_spec, mul_spec, lsr_spec, lsl_spec, land_spec, lor_spec, ltb_spec,
  leb_spec, eqb_correct, eqb_refl, of_to_Z`.
  Hypotheses live in Sections, so they appear in the statements of the theorems after the section is closed.
* The transcription of C into Gallina, by hand, with the cited lines; simplifications are named in the comments.
* What is *not* in /repo and therefore a library model, described in the comment of the definition: the EVP layer's
  calling order (how often and with what arguments the engine's functions are called); HMAC (RFC 2104 over the
  engine's digest code); OpenSSL's CMAC (over the engine's CBC code); BIGNUM arithmetic (integers); BN_mod_inverse;
  EC_POINT arithmetic (an abstract group); the DER encoder and decoder; OBJ_txt2nid, strtol, OPENSSL_hexstr2buf;
  EVP_MD_CTX_copy_ex, EVP_DigestFinal_ex, EVP_MD_CTX_ctrl; EVP_DigestSignFinal (finalises a copy);
  X509at_get0_data_by_OBJ; crypto/cms/cms_enc.c's order of calls.
* Hypotheses about elliptic curves, visible in the theorems: `ec_laws` (the points form a commutative group, q times the
  base point is the point at infinity, q is prime), `lift_ok` (what EC_POINT_set_affine_coordinates accepts).
  Examples instantiate them with a small group (`ToyGroup`), C55 with two small curves (`SmallCurve`).
  `curve_points` (C55): the abstract group is the chord-and-tangent group of the curve over Z/p, p prime.
* Memory allocation does not fail unless the definition says otherwise.  RAND_bytes yields an arbitrary list of bytes
  (a parameter), and may fail where that matters.

## What is not modelled

* The limb arithmetic of the fiat functions in the generated ecp_*.c files (a limb array is the field element it stands
  for) and their constant-time behaviour.  That the curve's points form a group of the stated order, and that the field
  size is prime, are hypotheses of C55 (`file_for_curve`, `parameter_group`).  The constants and the precomputed tables are
  in the model (`EcConstModel`, `EcLut*`, `EcTableModel`).  `IntPoly`, `EcTableCheck`, `EcTableProofs`, `EcTableChk*` and
  `EcWit*` (slopes and quotients as witnesses) are proof tools and no part of the model.
* Constant time and side channels beyond C62, memory erasure beyond C61 (copies on the stack other than the listed frames, swap, core dumps).
* The build system, gost_prov.c (the provider's entry points; its algorithm tables and the engine's tables are modelled as far as C51, C56 and C57 use them), the TLS and PKCS#12
  patches, the SIMD variants of the Streebog and Kuznyechik code (the portable C code is modelled).
* Secrecy and unforgeability as cryptographic notions: the theorems are functional (an output equals the standard's
  output; acceptance is equality with the standard's tag).

## In-place operation (C49)

`MemModel.v` and `MemAuthModel.v` write every data path of the ciphers once more over one address space (`nat -> N`):
pointers are addresses, each store is an update, and loads happen where the C loads. `MemProofs.v` relates a loop over two
buffers to a loop over a list; `MemCrypt.v`, `MemKuz.v`, `MemAuth.v` show that each memory function refines the list function
of the other models whenever the output does not overlap input that is still to be read (`ok`). `PropInplace.v` states the
property for equal or disjoint buffers (`in_place_safe`), derives "in place = separate buffers" and the round trips in place.
Trusted: the block functions read their whole input block before writing (as the C does with local words; for Kuznyechik the
block is first copied to the target), and the context is not part of the caller's buffers.
