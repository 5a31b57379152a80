{
 "C01": [
  "proved",
  ""
 ],
 "C02": [
  "proved",
  ""
 ],
 "C03": [
  "proved",
  ""
 ],
 "C04": [
  "proved",
  ""
 ],
 "C05": [
  "proved",
  ""
 ],
 "C06": [
  "proved",
  "Includes a refutation: get_mac computes (1 < rembits) - 1 where (1 << rembits) - 1 is meant, so bit lengths that are not multiples of 8 are wrong."
 ],
 "C07": [
  "proved",
  ""
 ],
 "C08": [
  "proved",
  ""
 ],
 "C09": [
  "proved",
  ""
 ],
 "C10": [
  "proved",
  ""
 ],
 "C11": [
  "proved",
  ""
 ],
 "C12": [
  "proved",
  "Section sizes that are multiples of 8 below 2^32 (0 = no re-keying)."
 ],
 "C15": [
  "proved",
  ""
 ],
 "C16": [
  "proved",
  ""
 ],
 "C13": [
  "proved",
  "Positive theorems for every history where it holds, refutation witnesses (defect of the code) where it does not, for the ciphers of gost_crypt.c and gost_grasshopper_cipher.c (except MGM)."
 ],
 "C14": [
  "proved",
  "Includes a refutation for 8-byte messages split over several updates."
 ],
 "C26": [
  "proved",
  ""
 ],
 "C36": [
  "proved",
  "Arithmetic, and the TLSTREE control call after any history of updates and control calls, for magma-ctr(-acpkm) and kuznyechik-ctr(-acpkm)."
 ],
 "C17": [
  "proved",
  "Messages below 2^60 bytes; the wrap-around beyond is shown by C17_length_limit_refuted."
 ],
 "C18": [
  "proved",
  ""
 ],
 "C19": [
  "proved",
  ""
 ],
 "C20": [
  "proved",
  ""
 ],
 "C21": [
  "proved",
  ""
 ],
 "C22": [
  "proved",
  ""
 ],
 "C23": [
  "proved",
  ""
 ],
 "C24": [
  "proved",
  ""
 ],
 "C25": [
  "proved",
  ""
 ],
 "C27": [
  "proved",
  "both multiplications, both byte orders, equal the field product; field laws of the specification product"
 ],
 "C28": [
  "proved",
  "round trip for every chunking, key/nonce order and prior context state, with at least one AAD call on the decrypting side; C28_decrypt_without_aad_call_refuted shows for every key a message that is rejected without it"
 ],
 "C29": [
  "proved",
  "refinement of RFC 9058 for every chunking; length limit characterised"
 ],
 "C30": [
  "proved",
  "tag acceptance iff standard's tag; AAD after data, missing key/nonce/tag, second message; two defects as _refuted"
 ],
 "C32": [
  "proved",
  "gost_keywrap.c modelled in full over the Gost89 model; the wrap is shown equal to RFC 4357 6.1-6.5, unwrap accepts iff the MAC matches, and inverts wrap."
 ],
 "C34": [
  "proved",
  "Proved for all builds and byte orders; HMAC is OpenSSL's, modelled by RFC 2104 over the engine's digest code. Defects recorded as _refuted: the counter wraps without an error when more than 256^R blocks are requested; lengths from 2^29 bytes on wrap the length field, multiples of 2^29 read out of bounds."
 ],
 "C35": [
  "proved",
  "Equal to RFC 9189 TLSTREE on little-endian hosts; on big-endian hosts the seeds are byte-reversed (_refuted)."
 ],
 "C31": [
  "proved",
  "Any history of set-key, XOF length, TLSTREE, key-mesh, update and final calls is followed by the tag of the standard on the concatenated message; OpenSSL's CMAC is modelled over the engine's CBC code. Not covered: key-mesh size change in mid-message and T < 48; KEY_MESH before a key dereferences NULL."
 ],
 "C33": [
  "proved",
  "Export equals KExp15; import accepts exactly the exports (for inputs of the right length); the unwrap ciphers over any chunking. Defects as _refuted: input length not checked (appended bytes ignored, truncated input checked against uninitialised stack bytes), EVP_DecryptFinal returns the key again; a bad MAC is reported like incomplete input (return value 0)."
 ],
 "C37": [
  "proved",
  "Over an abstract curve group (hypotheses: ec_laws); EVP-level round trip included. Refuted parts recorded: other digest lengths end the process, nonce 0 fails instead of redrawing."
 ],
 "C38": [
  "proved",
  "verify returns 1 iff the standard's verification accepts. Refuted: with a key at infinity on the 512-bit test set anyone can sign."
 ],
 "C39": [
  "proved",
  "Round trips both ways for proper lengths and parts that fit. Refuted: other lengths are accepted; a part that does not fit is silently zeroed."
 ],
 "C40": [
  "proved",
  "VKO = RFC 7836, symmetric across hosts; small-order peers give no key; KEG = R 1323565.1.020 except for the all-zero UKM (refuted)."
 ],
 "C50": [
  "proved",
  "All three scalar multiplications of every curve file and of both word sizes, from the recoded digits up, over an abstract group; C54 proves the point formulas, C55 the same multiplications on coordinates, including the defect with the point of order two of the Edwards curves, which an abstract group cannot show."
 ],
 "C41": [
  "proved",
  "round trip, exact form, masked keys, OCTET STRING and INTEGER forms, soundness of whatever is decoded; defects exhibited: empty key is an over-read, no range check (zero, >= order, negative INTEGER), no check of parameter set against algorithm. Curve group laws are hypotheses (ec_laws); DER is a library model without indefinite lengths"
 ],
 "C42": [
  "proved",
  "round trip, exact form, decoder accepts exactly points of the curve; defects exhibited: other lengths, extra byte and unreduced coordinates accepted. EC_POINT_set_affine_coordinates is a hypothesis (lift_ok)"
 ],
 "C43": [
  "proved",
  "standard's numbers, usability (except primality), any history, any number of threads and schedules; defect exhibited: with two names of one set in use concurrently the name can be wrong. Primality of p and q is not proved; MOV condition up to 31 (256-bit sets) and 6 (512-bit sets)"
 ],
 "C44": [
  "proved",
  "Exact acceptance conditions for all parameters; end-to-end sender/receiver theorems per cipher. Refuted parts, each with a witness theorem: undecodable GOST 28147-89 parameters (including those the engine writes for gost89-cnt) dereference NULL; magma-ctr reports success on malformed parameters with a zero IV; magma-ctr(-acpkm) and kuznyechik-ctr-acpkm messages longer than one section are not decrypted because the receiver's init resets the section size."
 ],
 "C45": [
  "proved",
  "gostsum.c and gost12sum.c modelled byte by byte (fgets, strlen, stripping, open/read schedules as parameters). Exit code 0 iff all entries good for every list of checksums; what follows a malformed line (gostsum) and malformed lines (gost12sum) are ignored: the original claim is false, witnesses C45_gostsum_rest_unchecked_refuted, C45_gost12sum_typo_unchecked_refuted; memory errors: C45_gostsum_undefined_refuted, C45_gost12sum_empty_line_refuted."
 ],
 "C47": [
  "proved",
  "Heap model of gost_ctl.c: histories of control calls, internal sets, reads and shutdowns in changing environments. The pointer returned by a read does not survive a later set of the same parameter (C47_pointer_after_set_refuted)."
 ],
 "C46": [
  "proved",
  "Contexts, histories and string interface of the EC and MAC pkey methods. Defects are separate _refuted theorems: 'vko' accepts any text, registered names of three TC26 sets refused, numeric PARAMSET unchecked, parameter set ignored with a raw MAC key, size truncated to int, Kuznyechik size 16 refused by name."
 ],
 "C48": [
  "proved",
  "Proved: digest contexts (Streebog, GOST 28147-89 MAC, GOST R 34.11-94, OMAC, OMAC-ACPKM) for all programs over any number of contexts, with heap and pointers. Refuted for the MGM ciphers (the copy uses the original's key schedule; a _partial theorem gives the domain on which it is fine) and for the provider's MAC contexts (the tag length is lost)."
 ],
 "C51": [
  "proved",
  "Proved for the five MACs on the sizes each one has; refuted with witnesses: other sizes, empty keys, key-mesh together with a key, a second final call."
 ],
 "C52": [
  "proved",
  "Both suites: histories against a small spec, round trip, acceptance exactly for genuine messages, CMS parameter flow (bounded by the first section; defect theorem with witness), unkeyed contexts (defect). Equality of tags is equality of values; unforgeability is not claimed."
 ],
 "C49": [
  "proved",
  "Memory-level models of every data path of the ciphers (gost-cfb/cnt/cbc, magma ecb/cbc/ctr, kuznyechik ecb/cbc/ofb/cfb/ctr/ctr-acpkm, the raw gost_enc/dec/enc_cfb/dec_cfb, MGM, ctr-acpkm-omac): one address space, reads and writes in the order of the C statements. For equal or disjoint buffers each refines the list function about which the other properties are stated, writes nothing outside the output buffer, and encrypting then decrypting a buffer in place (any call lengths) restores the memory."
 ],
 "C53": [
  "proved",
  "Both directions of EVP_PKEY_encrypt/decrypt in both variants, over any group that satisfies the curve laws (ec_laws) and any curve table entry whose points are built from coordinates (lift_ok). The defects are the _refuted theorems."
 ],
 "C54": [
  "proved",
  "For every field, every curve and every pair of points (no exceptional cases but the one refuted): the straight-line programs of all eight files, with and without aliased arguments. False only for the point of order two in the Edwards conversion, shown by C54_order_two_lost_refuted."
 ],
 "C55": [
  "proved",
  "Assumes that the group C is the curve's group of points and that p is prime (parameter_group); constants, inversion chains and all precomputed tables of the real files, both word sizes, are checked against gost_params.c (C55_parameter_sets, C55_tables), so C55_curve_multiples speaks of the real files with all their data. The table theorems use the standard library's Uint63 axioms. The sum n*G + m*Q is wrong when Q or the sum is the point of order two: characterised by C55_order_two_is_lost, witness C55_order_two_refuted."
 ],
 "C56": [
  "proved",
  "Proved for every allowed history of calls over any number of contexts and provider instances, on all builds. Exact domain: pieces below 2^31 bytes (1994 hash: messages below 2^60), no teardown while contexts exist. Outside it the code is wrong and that is proved: C56_long_pieces / C56_long_message_refuted ((int)inl), C56_teardown_of_another_instance_refuted (shared descriptors), C56_output_size_ignored_refuted, C56_dispatch_table_refuted (no terminating entry). EVP_MD_CTX behaviour and the core's table walk are library models."
 ],
 "C57": [
  "proved",
  "Proved for every allowed history over any number of contexts and provider instances, for the 13 ciphers without a tag (the four with a tag: C52, MGM properties; here only their descriptors, names and lookup). Exact domain in ProvCipherSpec.legal: key and IV of exactly the reported sizes, one message per stream-mode context, no parameters before the first initialisation or within a message, pieces below 2^31-32 bytes, no teardown while contexts exist. Outside it the code is wrong and that is proved: C57_second_message_refuted, C57_parameters_at_first_init_refuted, C57_long_piece_refuted, C57_short_key_refuted, C57_teardown_of_another_instance_refuted, C57_second_load_refuted (MGM), C57_mode_refuted, C57_alg_id_param_refuted. The EVP layer (buffering, padding, EVP_CipherInit_ex) is a library model."
 ],
 "C58": [
  "proved",
  "All outcomes of the control function are covered, on the domains stated in the theorems. Defects found and stated as _refuted theorems: an algorithm without parameters, a missing UKM or a missing originator key in a key agreement message kills the process; a refused originator key leaves parts of the message freed while the message still owns them; an 8-byte UKM makes the IV come from memory behind it and half the key from uninitialised stack; key agreement recipients are called supported and reported as written although nothing is written; 2001 keys with KExp15 ciphers announce the 512-bit agreement and then fail; other content ciphers fail only after the recipient was written. OpenSSL's CMS code itself is a library model (cms_kek_cipher)."
 ],
 "C59": [
  "proved",
  "For all histories of loads (with any of their allocations failing), unloads, lists and lookups, of the engine and of the provider, as long as one instance is used at a time while it exists. Defects found and stated as _refuted theorems: the key type magma-ctr-acpkm-omac is listed and its lookup reports success without a method; two loaded providers share one set of variables, so unloading one takes the other's methods and unloading both frees memory twice; cipher and digest names stay after the engine was destroyed and lead to freed objects; a load that fails at the second new number keeps an object for ever. The library's part (ENGINE_free, table of names, OBJ_new_nid) is modelled after OpenSSL."
 ],
 "C60": [
  "proved",
  "For all histories of creating, generating, importing, completing, comparing, checking, printing and exporting any number of key objects, with the calls the engine gets wrong excluded by a stated condition on the history. Defects found and stated as _refuted theorems: key generation returns 1 without a key when the random generator fails; generating for, or reading parameters of, 2001DH gives a 2001 object; for the 2012 algorithms the parameter set, not the requested algorithm, decides the type; writing the parameters of a 2001 object that has none reads a null pointer; one curve under two names makes unequal keys; reading parameters into an object that has a key leaves the old numbers on the new set; the security bits are the modulus bits. The curves are parameters of the theorems with the laws of EcSpec; the octets of imported keys are the subject of C41 and C42; OpenSSL's dispatch is modelled by hand."
 ],
 "C61": [
  "proved",
  "Kept: after the clean-up of a GOST 28147-89 or Magma cipher context nothing depends on the keys, IVs or data it was used with; imit digest contexts and the key schedules and MGM states are all zero; KExp15/KImp15 erase the MAC sent and the decrypted message on every path; the Magma ACPKM re-keying erases the new key; the Kuznyechik counter modes erase the keystream block. Defects, stated as _refuted theorems for all inputs: the clean-up of the Kuznyechik ciphers other than MGM leaves the master key; the RFC 4357 wrap leaves on its stack the key that opens its output; KImp15 leaves the expected MAC on its stack after a refusal; the Kuznyechik ACPKM re-keying leaves the new key on its stack; MAC keys are handed to free with their bytes. The clean-up functions are modelled as the engine's own effect on the bytes: libcrypto also erases the cipher_data block when a context is freed, which is outside the model, and so are copies a compiler keeps in registers or spills. The fields paramNID, kdf_seed, tag and the pointer omac_ctx of the cipher contexts are not among the bytes considered."
 ],
 "C62": [
  "proved",
  "Kept: the multiplication of a point by a secret scalar and the multiplication of the generator have the same trace of branches, loop turns, array indices and field routine calls for all scalars, points and tables, for every generated file. Refuted (and documented as such in the code): the double multiplication of signature verification, whose trace shows the parity of the first scalar at once, for all inputs; refuted: one round of GOST 28147-89, whose table look-ups reveal the half block plus the round key completely. Refuted as well: the field multiplications of MGM (gf64_mul, gf128_mul_uint64) branch on the bits of both factors - the trace of one multiplication determines the data factor entirely and the secret factor H_i up to its lowest bit, for all operands; these transcriptions too are proved to compute the model's products. The two leak-free transcriptions are proved to compute exactly what the model's ladders compute, hence - for every generated file and every group of its parameter set - the multiple by the little-endian value of the secret bytes (times the cofactor), so result and trace are stated of one and the same program. The trace is defined by the semantics of a small language into which the C functions are transcribed; that the fiat field routines are straight-line word arithmetic and that the compiler keeps selectznz free of branches is assumed, and OpenSSL's BIGNUM functions (conversion of the scalar, s = rd + ke mod q) are outside the model."
 ]
}