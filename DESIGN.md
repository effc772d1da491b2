# Formal model of crylib/cry in Rocq (Coq 8.16.1)

This file states what is modelled, how each property of `properties.jsonl` is
expressed and proved, what is trusted, and what was found.

## 1. Trusted base

* Coq's kernel (8.16.1) and `vm_compute` (part of the kernel).
* The reading of the C source that produced the model.  The code is neither
  built nor run here; each model definition cites the file and lines it models.
* The specifications.  There is no network and no copy of the standards here:
  the `*Spec.v` files were written from knowledge of FIPS 46-3, 180-4, 186-4,
  197, SP 800-38A/B/D, RFC 1321, 2104, 3394, 4648, eSTREAM, SEC 1, and cannot be
  compared with the printed text.  Constants are derived from their definition
  where one exists (AES S box from the field inverse, SHA-2 constants from
  roots of primes, MD5's from the sine series, CRC tables from polynomial
  division).  Tables without a definition are the weak spot: the DES
  permutations and S boxes of `DesSpec.v` are in the layout of the standard but
  no record shows that they were typed independently of des.c (the well-known
  answer 85E813540F0AB405 is checked in PropDes.v), and the curve
  numbers b, G, n (and p, a of the brainpool curves) of `EcCurvesSpec.v` were
  converted from ecp_curves.c.  There, "equals the specification" does not
  exclude an error shared with the source.
* `Print Assumptions` stands beneath every property theorem; section 5 records
  its output.  No axiom is added by this development.
* The C environment assumed: LP64, 8-bit bytes, 64-bit `unsigned long` /
  `size_t`, little endian where the code type-puns (LFSR113 seeding only), and
  the configuration of `include/cry/config.h` (64-bit digits; Comba, Karatsuba
  and Toom-3 enabled; Euclid inverse; sliding-window point multiplication;
  all hashes and curves).  C83 compares the other settings of the arithmetic
  options with these.

## 2. Modelling conventions

* Bytes, words and digits are `Z` values with explicit range predicates; every
  wrap-around of an unsigned type is written `mod 2^k` in the model.
* Outcome type `res A = Ok a | Err rc | UB | Fuel`.  `Err rc` is a C error
  return, `UB` an execution whose behaviour C leaves undefined (out-of-bounds
  access, signed overflow, null dereference), `Fuel` an exhausted loop bound.
  Theorems about successful calls state the result `Ok ...`, so they exclude
  `UB` and `Fuel`.
* A function that writes through a pointer returns the new value.  In/out
  aliasing that the code handles specially is a model parameter; otherwise the
  model function takes the old values and returns the new one (the code either
  builds the result in a temporary or reads before writing, as noted in the
  comment of each definition).
* `malloc`/`realloc` succeed, except in the definitions that take an explicit
  allocation-result argument (list initialisation, `cry_memxor2`) and in the
  memory-level model of the multi-precision integers, curves and public-key routines (`Mem*Model.v`), where an
  environment decides for each allocation whether it is granted and what the
  fresh memory contains.  There a destination is an object that may also be an
  operand.
* Random bytes are an explicit stream argument, so theorems hold for every stream.
* A block cipher used by a mode is a function argument; the needed facts
  (length preservation, decrypt inverts encrypt) are hypotheses, and instances
  for AES and DES are given.
* File roles: `*Model.v` are executable definitions only; `*Spec.v` are small
  independent specifications; the other files hold lemmas; `Prop*.v` hold only the
  property theorems, their non-vacuity examples and `Print Assumptions`.

## 3. Plan per property

| id | modelled | proof |
|----|----------|-------|
| C01 | digit-level add_abs/sub_abs/add/sub | value function on digit lists, induction on digits with carry invariant |
| C02 | baseline, comba, Karatsuba, Toom-3, dispatcher | partial-product invariants; algebraic identity for each split; induction on fuel for the recursion |
| C03 | sqr dispatcher, baseline, comba, Karatsuba with the destination's old sign | as C02; stale sign of the destination is a refutation |
| C04 | cry_mpi_div_abs (HAC 14.20) digit by digit | quotient-estimate bounds, loop invariant `a = q*y*b^k + x` |
| C05 | cry_mpi_div | case analysis over C04; refuted in general, exact domain proved |
| C06 | cry_mpi_mod | corollary of C04 |
| C07 | cmp, cmp_abs | induction over digits; refutation through shr's negative zero |
| C08 | shl, shr, shld, shrd | digit-level value lemmas |
| C09 | mod_exp, exp | loop invariant over exponent bits |
| C10 | binary gcd | invariant gcd(tx,ty)*2^k, decreasing measure; refuted at (x,0) |
| C11 | lcm | from C02, C04, C10 |
| C12 | extended Euclid | Bezout invariant, decreasing remainder |
| C13 | Newton square root | monotone convergence argument |
| C14 | load_bin/store_bin | digit/byte regrouping, value lemmas |
| C15 | load_str/store_str | positional notation lemmas |
| C16 | set_int/get_int | direct; refuted outside the range |
| C17 | count_bits, is_bit_set, lsb | table lemma by exhaustive check, testbit lemmas |
| C18, C19 | is_prime with random stream | Fermat's little theorem (Fermat.v, standard library only); loop invariant |
| C20 | rand, rand_range | masks and modulo |
| C21 | list init with failing allocator | induction over the list, trace of init/clear events |
| C22, C23 | base64 encode/decode | induction by 3 bytes, finite sweeps lifted |
| C24, C25 | table-driven CRC | table = 8 bit-steps by exhaustive check + linearity; fold over append |
| C26 | memxor, memxor2 on a memory function | induction on loop with frame; refutation of case 3 |
| C27-C29 | AES context, tables, key schedule | FIPS-197 spec over GF(2^8); tables by exhaustive check; refutation of C29 |
| C30, C31 | DES | Feistel inversion; bit-permutation lemmas |
| C32 | ARC4 | invariant on the table, fold over append |
| C33, C34 | Trivium | bit-level simulation of the word-parallel step |
| C35 | affine, long_inv | finite sweep over 256 bytes |
| C36 | Hill | adjugate identity, determinants from scratch (Det.v) |
| C37-C41 | cipher modes over an abstract block cipher | induction over blocks |
| C42, C43 | CMAC, HMAC | buffering invariant |
| C44 | AES key wrap | step inversion, induction over steps |
| C45-C48 | MD5, SHA-1, SHA-256, SHA-512 contexts | streaming invariant; FIPS/RFC specification; refutation for SHA-512 |
| C49, C50 | both generators | stream position invariant; LFSR bounds |
| C51-C53 | RSA | Fermat and CRT over the MPI model |
| C54 | DH | exponent commutation |
| C55, C56 | DSA | group exponent argument; refutation (error codes dropped) |
| C57 | ElGamal | exponent argument modulo p-1 |
| C58-C61 | ECP, ECDH, ECDSA | full group law incl. associativity over an abstract field (EcGroup.v), transported to Z/p; window recoding invariant |
| C62 | curve table | vm_compute on the finite table |
| C63 | cry_long_inv | extended Euclid invariant |
| C64 | cry_mpi_print's buffer | text length bound; refuted below radix 16 |
| C65 | ARC4 against RC4 | simulation of the two loops |
| C66 | AES key wrap against RFC 3394 | equality up to 42 blocks; refuted beyond |
| C67 | primality test, counted over the generator's byte strings | bound of a quarter of the bases (MrBound.v: Chinese remainders and counting of roots), then counting of draws per base (MrDraws.v) |
| C68 | cry_mpi_prime with a generator indexed by loop counters | induction over the tries; value of the forced bits; concrete runs refute size, limit and termination |
| C69 | cry_rsa_keygen | round and loop invariants; the 10000-round runs of the refutations by induction |
| C70 | cry_dsa_keygen | loop invariants, order of g by Fermat; a complete run with chosen draws for the refutations |
| C71 | objects with buffers, allocation results and aliasing (MemModel.v): copy, abs, add, sub, shl, shr | a small program logic (`wp`); each routine refines its value-level function, whatever the unused digits and refused allocations |
| C72 | mul (Comba, Karatsuba, Toom-3), mul_dig, sqr on the same memory (MemMulModel.v) | straight-line code over local objects simulated instruction by instruction; induction on the recursion depth |
| C73 | div_abs with its four temporaries and the nested clean-up labels, div, mod on the same memory (MemDivModel.v) | loop invariant relating the buffers to the value-level division state; every allocation point considered |
| C74 | mod_exp, exp, gcd, lcm, sqrt, inv on the same memory (MemAlgModel.v) | the local objects of each routine are simulated against the value-level functions of C09–C13; every allocation point considered |
| C75 | the loaded curves of C62 with the group law, ECDH and ECDSA models of C58–C61 | primality of p and n by Pocklington certificates (Pock.v), n G = O by a chain of slopes (EcOrder.v), no point of order two by roots of the cubic (EcRoot.v); the certificates (Cert*.v) were computed outside and are checked by the kernel |
| C76 | ecdsa_trunc inside cry_ecdsa_sign against FIPS 186-4's leftmost bits (EcNamedSpec.v) | cases on the bit length of n; a counterexample hash for the 224-bit curves |
| C77 | point addition, doubling, multiplication and context initialisation on the memory of C71 (MemEcpModel.v): a point is three objects, a group seven | Hoare-style rules over the lemmas of C72–C74 (MemEcp.v, MemEcpMul.v) while nothing is refused; initialisation for every pattern of refusals (MemEcpFail.v); a general counterexample for the refused table |
| C78 | ECDH, ECDSA, reading bytes and random numbers on the same memory | on top of C77 (MemEcdsa.v, MemBin.v); refused allocations by counterexamples, three of them for all inputs |
| C79 | RSA, Diffie-Hellman and ElGamal verification on the same memory (MemPkModel.v) | rules for "the result, or undefined after a refusal" (MemFair.v) over the exponentiation of C74 (MemRsa.v, MemRsaUse.v, MemElgamal.v, MemPkUse.v); undefined behaviour for all inputs in MemPkFail.v |
| C80 | DSA signing and verification, ElGamal signing on the same memory | as C78, while nothing is refused (MemDsa.v, MemElgamal.v, MemPkUse.v); lost return codes for all inputs in MemPkFail.v |
| C81 | the number DSA takes from the hash, with the model of C55 | arithmetic of byte strings (DsaHash.v); a hash of any length with one bit set shows the deviation for every q concerned |
| C82 | the modes of C37 to C41, block encryption and ARC4 on a flat memory of bytes (BufModel.v): memcpy undefined on overlap, cry_memxor and cry_memxor2 of C26, local buffers and the chaining value at addresses | the memory routine refines the value routine for the placements named in BufSpec.v (Buf.v, BufModes.v, BufModes2.v, BufModes3.v, BufProps.v); other placements refuted by computation |
| C83 | the other branch of each build option of the arithmetic: shift-and-subtract division, the binary inverse, every setting of the multiplication options, multiplication of a point without window (MpiConfModel.v, EcpModel.v) | each equals the shipped variant (MpiConf.v): the loop invariant of the division, the Bezout invariant of the binary inverse with a measure for its end and a bound on its coefficients, the generic lemmas of Karatsuba and Toom-3; zero halved for ever for multiples of the modulus |
| C84 | the hash contexts with what a digest leaves in them, sequences of calls, HMAC with optional init and clear (HashCtxModel.v) | induction over the calls: as long as only updates followed an init, the context is the fold of those updates; then C45 to C48 and C43 |
| C85 | cry_aes_encrypt, cry_aes_decrypt and cry_prng_aes_rand as step machines over the shared context, threads under any schedule (ConcModel.v) | for the positive results an invariant of one thread that no step of another breaks; schedules given for the refutations, by computation or for every key and seed |
| C86 | cry_elgamal_verify2 and cry_elgamal_verify (PkModel.v) | verification as an equation modulo p (C57), Fermat's theorem in the exponent; forged numbers given as expressions in the public key and the message |
| C87 | cry_dh_finalize (PkModel.v), cry_ecdh_final (EcpModel.v) and the loaded curves | scalar multiplication does not depend on the coefficient b, by induction over its loops; then the group law of the peer's curve; a point of order 3 for secp256r1 by certificate |
| C88 | cry_mpi_load_str (MpiIOModel.v), numerals in TextSpec.v | induction over the text, with a zero that has a digit as a possible accumulator |
| C89 | cry_rsa_verify (PkModel.v) | what one block decrypts to for every string of the modulus length, then the block loop for two |
| C90 | cry_base64_decode (Base64Model.v) against RFC 4648 | induction over groups of four, tables by exhaustion over pairs of 6-bit values |
| C91 | cry_ecdsa_verify (EcpModel.v), public points in EcForgeSpec.v | the verification equation (C61_verify) and the group law of the curve |
| C92 | cry_mpi_init/grow/clear/swap, list initialisation, curve loading and the init/clear pairs of all big-number contexts, as moves of buffers between owners (LifeModel.v); rules for callers in LifeSpec.v | an ownership invariant, kept by each call; set-up calls composed from single ones, histories by induction |
| C93 | histories of GCM calls on one context, and GCM and CMAC contexts after a digest (GcmUseModel.v), with the sessions of C40 | the key is the only field a new IV keeps; leading zero blocks keep the hash at zero while the 32-bit length comes round; the counter is its start plus the number of blocks modulo 2^32; a short piece hashes as its zero-filled block |
| C94 | the DES model of C30 and C31; relations between keys in DesKeySpec.v | the key enters through the subkeys only: no parity position occurs in PC-1, inversion of all bits commutes with every selection and cancels in f; subkeys of weak keys read the same backwards (computed) |
| C95 | the verification model of C55 and C56 | the two powers of the verification equation collected into one power of g; exponents count modulo q |
| C96 | the key set-up models of C27, of ARC4 and of C43 | AES: the key words head the round keys, so the bytes in use can be read back; ARC4: the key index is the round number modulo the length; HMAC: padding a key with zeros |

Not expressible in this model: timing side channels, actual memory contents
after `free`, zeroisation of secrets on the stack, weak memory (threads are
interleaved, C85).

## 4. Findings

"Refuted" names a theorem about the model exhibiting the behaviour; the others
are readings of the source recorded in comments of the model.  Nothing was run.

**Security relevant**

| where | finding | theorem |
|---|---|---|
| dsa.c:5 | the check macro drops the error code: an s not invertible modulo q (e.g. 0) is accepted for every message and key | C56_forgery, C56_refuted |
| dsa.c | r and s are not range checked | C56_malleable |
| ecdsa.c:49 | sign always returns 0; nonce 0 gives r = 1 and a stale s | C61_zero_nonce, C61_zero_nonce_refuted |
| ecdsa.c | r is x, not x mod n: signatures with x >= n are rejected | C61_refuted |
| ecdsa.c, mpi_rand.c | order of 9 digits: draws with a zero top digit write past the nonce | C61_nine_digits |
| rsa.c | several blocks decrypt to the same place; longer messages never verify | C52_refuted, C53_multi_wrong |
| rsa.c | without padding a signature verifies for every prefix | C53_none_prefix |
| rsa.c | modulus under 11 bytes: out-of-bounds write; exactly 11: endless loop | C51_short_modulus, C51_eleven |
| hmac | block size always 64: not RFC 2104 for SHA-512 | C43_hmac_sha512_refuted |
| sha512.c | length modulo 128 in 112..127: the length block is lost | C48_last_block_refuted |
| gcm | length field cut to 32 bits from 2^29 bytes on | C41_long_refuted |
| aes.c | a context that has decrypted encrypts wrongly | C29_reuse_refuted |
| aes_wrap.c | step counter modulo 256, so not RFC 3394 from 43 blocks on; the incomplete block is copied in clear | C44_rfc3394_refuted, C44_exact |
| prng_lfsr113 | seed bounds off by one, a seed that yields only zeros; seeds over 16 bytes overflow | C50_init_refuted, C50_long_seed_refuted |
| des.c | keys of 9 to 23 bytes silently use single DES | C31_other_sizes |
| mpi_prime.c | a zero base rejects primes; 4 can be accepted | C18_zero_base_refuted, C19_even_refuted |
| mpi_rand.c | write outside the allocation | C20_rand_refuted |
| mpi_print | buffer too small below radix 16 | C64_print_refuted |
| mpi_prime.c, mpi_rand.c | the top bit of a base is forced, so about half of the bases are never tried: 129/256 per round instead of 1/4 | C67_round |
| mpi_prime.c | a draw starting with a digit of zeros loses the forced top bits: 72 bits asked for, 3 delivered; value 1: endless loop | C68_short_refuted, C68_endless_refuted |
| mpi_prime.c | a prime found at the last allowed try is reported as failure | C68_last_refuted |
| rsa.c | key generation never computes d | C69_private_refuted |
| rsa.c | after 10000 rejected rounds key generation reports success: even e, odd size, p = q with n = 0 | C69_even_refuted, C69_size_refuted, C69_same_refuted |
| dsa.c | private key drawn below (p-1)/q instead of q: can exceed q or be 0 (public key 1) | C70_large_refuted, C70_zero_refuted |

**Wrong results and undefined behaviour elsewhere**

| where | finding | theorem |
|---|---|---|
| mpi_div | signed division wrong (-6/2 = 3); NULL or aliased remainder | C05_div_refuted, C05_div_null_remainder_refuted, C05_div_remainder_over_divisor_refuted |
| mpi_sqr | keeps the destination's old sign | C03_sqr_refuted |
| mpi_cmp / shr | negative zero | C07_cmp_refuted |
| mpi_shl | a failing left shift into another object overwrites it | C71_shl_refuted |
| mpi_mul | digit 0 times a number into a negative object: minus zero | C72_mul_dig_refuted |
| mpi_div | operands of different sign: missing remainder dereferenced, remainder over the divisor is 0, a refused allocation reported as success | C73_null_refuted, C73_alias_refuted, C73_lost_refuted |
| mpi_div | a failing division has already cleared the quotient | C73_unchanged_refuted |
| mpi_mod_exp | first allocation refused: uninitialised object used | C74_exp_refuted |
| mpi_gcd | a failing gcd has overwritten the destination | C74_gcd_unchanged_refuted |
| mpi_lcm | operands of different sign: missing remainder dereferenced | C74_lcm_refuted |
| mpi_inv | return codes ignored: wrong inverse with code 0, endless loop; inverse over the modulus is wrong | C74_inv_lost_refuted, C74_inv_endless_refuted, C74_inv_alias_refuted |
| mpi_mod_exp | b^0 mod 1 = 1 | C09_mod_exp_refuted |
| mpi_gcd | gcd(x, 0) = 0 | C10_gcd_refuted |
| mpi_core | LONG_MIN; values from -2^64+1 to -2^63 | C16_set_int_refuted, C16_get_int_refuted |
| bit test macro | no bounds check | C17_bit_test_refuted |
| base64 | the empty string | C22_empty_refuted |
| memxor2 | destination between the sources; failed malloc | C26_memxor2_refuted, C26_no_memory_refuted |
| affine | keys over 32 bytes cut | C35_long_key_refuted |
| hill | empty key, partial block overrun, unchecked inverse | C36_empty_refuted, C36_overrun_refuted, C36_ikey_refuted |
| cbc | decrypting an empty message | C37_empty_refuted |
| cfb | decryption wrong from two blocks on; tail | C38_cfb_refuted, C38_tail_refuted, C38_cfb8_continue_refuted |
| ctr | in place with 8-byte blocks; 1-byte blocks | C39_inplace_refuted, C39_one_byte_refuted |
| trivium | each call starts at a fresh word | C33_cut_refuted |
| ecp | doubling a point of order two fails | C58_refuted, C59_refuted |
| ecdsa | hash cut to whole digits, not to the bits of the order: not FIPS 186-4 on the 224-bit curves | C76_refuted |
| ecp_mul | returns 0 and no result when the memory for its table is refused | C77_mul_refuted |
| ecp_add, ecp_dbl | return 0 with a wrong point, not even on the curve, when one allocation inside the modular inversion is refused | C77_add_refuted, C77_dbl_refuted |
| ecdsa_verify | accepts a signature with r = 1 when two particular allocations are refused (both multiples are then the point (1, 1, 0)) | C78_forged_refuted |
| ecdsa_verify | after a failed initialisation of its points, clears coordinates that were never initialised | C78_verify_refuted |
| ecdsa_sign | always returns 0 once its first two numbers are initialised | C78_sign_refuted |
| ecdh | agree and final return 0 without a result when the table is refused; init returns 0 whatever fails | C78_ecdh_refuted, C78_ecdh_init_refuted |
| dh, elgamal_verify2, rsa_decrypt, rsa_verify | the exponentiation clears an object that was never initialised when its first allocation is refused | C79_dh_refuted, C79_elgamal_refuted, C79_rsa_refuted |
| dsa_verify | accepts every signature when memory runs out after its locals are initialised (return codes are dropped) | C80_dsa_verify_refuted |
| dsa | hash cut to whole digits of q, not to its bits: not FIPS 186-4 for every q whose length is not a multiple of 64 bits | C81_refuted |
| ctr | in place, blocks whose counters do not fit 64 bytes (e.g. 13-byte blocks, 53 to 63 bytes of data) overflow the buffer | C39_overflow_refuted |
| all modes | overlapping buffers: destination just above the source (ECB, CBC, CFB), just below it (CBC decryption, CTR, GCM) | C82_above_refuted, C82_below_refuted, C82_gcm_refuted |
| mpi, build option | binary inverse (CRY_MPI_INV_EUCLID off): never ends for a multiple of the modulus; returns 0 and a wrong number for every other operand without inverse | C83_inv_loops_refuted, C83_inv_refuted |
| mpi, ecp, build options | squaring clears or keeps the stale sign, and points with a multiple of order two succeed or fail, according to the build; CRY_ECP_MUL_WIN alone does not compile | C83_sqr_refuted, C83_point_refuted |
| hash, hmac | a second digest call gives another value; SHA-256 without init may store outside its buffer; HMAC with the init entry NULL (documented as optional) is wrong unless clear re-initialises | C84_digest_twice_refuted, C84_sha256_no_init_refuted, C84_hmac_null_init_refuted |
| aes, prng_aes | one AES context or the static generator used by two threads without a lock: decryption with a doubly inverted key, reads past the round keys and past the kept block, the same random bytes for both threads (and so one nonce in two signatures, which gives away the private key) | C85_decrypt_refuted, C85_mixed_refuted, C85_same_refuted, C85_block_refuted, C85_read_refuted, C85_init_refuted |
| elgamal | verification does not check that r is below p: anyone can sign any message for any public key; messages are not hashed | C86_forge_refuted, C86_exist_refuted, C86_message_refuted |
| dh, ecdh | a peer's number or point is used unchecked: small orders and points of other curves give the private key away residue by residue | C87_dh_refuted, C87_ecdh_refuted, C87_p256_refuted, C87_trivial_refuted, C87_zero_refuted |
| mpi_str.c | characters that are neither letters nor digits are read as 0, radix 16 accepts every text, texts without digits are 0; "!" gives a zero with one digit that passes the zero test, and dividing by it never ends | C88_refuted, C88_hex_refuted, C88_empty_refuted, C88_zero_refuted, C88_endless_refuted, C88_sign_refuted |
| rsa.c | verification accepts fewer than eight padding bytes and numbers not below the modulus; without padding any string is a signature of some message and may be preceded by any block; two signatures in a row compare memory never written; an empty one returns a variable never set | C89_short_refuted, C89_twin_refuted, C89_exist_refuted, C89_blocks_refuted, C89_mixed_refuted, C89_empty_refuted |
| ecdsa.c | verification checks no range: s counts modulo n and with either sign, and (-r, s) is accepted for the message with the opposite number; the point at infinity is accepted as public key, and then anyone signs | C91_range_refuted, C91_negative_refuted, C91_opposite_refuted, C91_message_refuted, C91_exist_refuted, C91_key_refuted |
| base64.c | unused bits before padding are ignored, padding in the middle is accepted, '=' early in a group is read as 'A' or drops a byte | C90_refuted, C90_joined_refuted, C90_equals_refuted, C90_gap_refuted |
| ecdh_init, ecp_grp_load | success reported although memory was refused, and clearing the context is then undefined; loading a named curve over one that was set up loses its buffers, and a loaded curve cannot take other parameters (realloc of a constant table) | C92_ecdh_refuted, C92_load_refuted, C92_table_refuted |
| gcm_hash_sizes, gcm_operate, gcm_hash, cry_gcm_digest | under every key 2^29 leading zero bytes of additional data, ciphertext or IV go unnoticed; the key stream repeats after 2^36 bytes and shows the block that hides the tag; short pieces are zero-filled and calls in the wrong order accepted, so different data shares a tag; a second digest differs from the first (CMAC too) | C93_aad_refuted, C93_text_refuted, C93_iv_refuted, C93_wrap_refuted, C93_mask_refuted, C93_pieces_refuted, C93_order_refuted, C93_second_refuted, C93_cmac_second_refuted |
| cry_des_key_set | weak and semi-weak keys are taken without notice; encrypting twice then gives the text back | C94_weak_refuted, C94_semi_refuted |
| dsa_verify | negative pairs are accepted for the message with the opposite number; unhashed input and the public key 1 allow forgeries | C95_negative_refuted, C95_message_refuted, C95_exist_refuted, C95_key_refuted |
| aes_key_set, arc4_key_set, hmac_init | AES keys of other lengths are cut silently; repeated ARC4 keys, and HMAC keys with zeros at the end, are the same key | C96_aes_refuted, C96_arc4_repeat_refuted, C96_arc4_long_refuted, C96_hmac_zeros_refuted, C96_hmac_long_refuted |
| dsa_sign | returns 0 without a signature when memory runs out after its locals are initialised | C80_dsa_sign_refuted |

**Read, not proved**: `va_end` called twice on an error path of list
initialisation; cry_dsa_keygen takes an error of the primality test as "prime"
(modelled, C70) and computes 512+64l modulo 2^32; ECDSA verification never checks that the public point is on the curve.

**Not modelled**: the test programs, allocation
failure outside the memory-level model (section 2), the interplay of several
curve digit sizes.  C59 to C61 take the primality of p and n and
n G = O as hypotheses; C75 proves them for the six secp curves of up to 256
bits.  For secp384r1, secp521r1 and the brainpool curves they are not proved
(n G = O was computed outside Coq).

## 5. Print Assumptions

Each of the 471 property theorems is followed by `Print Assumptions`; every one
prints "Closed under the global context": no axiom, neither of this development
nor of the standard library.  `coqchk -o` on the whole development lists seven
constants of Coq.ssr.ssrunder: they belong to that file of the standard library,
which Coq.Setoids.Setoid loads, and no theorem here depends
on them.  Counts per file:

| file | theorems, all closed |
|---|---|
| PropAes.v | 5 |
| PropArc4.v | 8 |
| PropBase64.v | 6 |
| PropBase64In.v | 7 |
| PropBuf.v | 13 |
| PropConc.v | 12 |
| PropConf.v | 9 |
| PropCrc.v | 9 |
| PropDes.v | 6 |
| PropDesKey.v | 6 |
| PropDsaForge.v | 5 |
| PropDsaHash.v | 3 |
| PropEcForge.v | 7 |
| PropEcNamed.v | 10 |
| PropEcp.v | 26 |
| PropGcm.v | 7 |
| PropGcmUse.v | 10 |
| PropHash.v | 14 |
| PropHashCtx.v | 12 |
| PropHill.v | 9 |
| PropKeyEq.v | 7 |
| PropKeygen.v | 20 |
| PropLife.v | 10 |
| PropMem.v | 18 |
| PropMemAlg.v | 13 |
| PropMemDiv.v | 10 |
| PropMemEcp.v | 22 |
| PropMemPk.v | 16 |
| PropMemxor.v | 4 |
| PropModes.v | 19 |
| PropMpiAlg.v | 15 |
| PropMpiArith.v | 15 |
| PropMpiDiv.v | 13 |
| PropMpiIO.v | 26 |
| PropPeer.v | 11 |
| PropPk.v | 24 |
| PropPrime.v | 3 |
| PropPrng.v | 11 |
| PropRsaForge.v | 7 |
| PropText.v | 10 |
| PropTrivium.v | 5 |
| PropWrap.v | 8 |
