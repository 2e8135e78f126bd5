# Formal model of tbarrella/crypto-pure in Coq 8.16

## Layout (rocq/theories)

| prefix | content |
|---|---|
| `Base.v`, `BaseFacts.v` | machine integers, panics, slices, byte/word conversions and lemmas about them |
| `M_*.v` | the model, one file per Rust source file, every definition citing file and lines |
| `S_*.v` | the specifications (FIPS 180-4, RFC 2104, RFC 5869, RFC 8439, FIPS 197, SP 800-38D, RFC 7748, RFC 8032) written without looking at model helpers |
| `P_*.v` | proofs |
| `T_*.v` | property theorems only: statement, `exact lemma`, `Print Assumptions`, non-vacuity examples |

## Modelling decisions

* Bytes, words and limbs are `Z`; arrays and slices are `list Z`. Lengths are `nat`, and are compared with
  constants in `Z`. Statements assume inputs are bytes (`0 <= b < 256`), which Rust's types guarantee.
* A panic is the value `Panic` of `res A := Ok a | Panic`. Out-of-range indexing/slicing, `assert!`, and arithmetic
  overflow in builds with overflow checks are panics.
* The build mode is an explicit parameter `b : build` (`Checked` = overflow-checks on, i.e. debug; `Unchecked` =
  overflow-checks off, i.e. release). `+ - *` of a fixed-width type panic in `Checked` and wrap in `Unchecked`;
  `wrapping_*`, shifts and bit operations never panic (shift amounts in the code are constants in range).
* `usize` is 64 bits. Slice lengths are below 2^63 as Rust guarantees; sums of two lengths therefore do not wrap.
* `(n..)` (RangeFrom) is modelled as in core: the call to `next` that yields the maximum value computes max+1 and
  so panics in `Checked`. `a.zip(b)` calls `a.next()` before `b.next()`.
* `&mut` parameters become returned values. What has been written before a panic is forgotten there; C79-C82 have
  a model of it, `M_Unwind.v`.
* Leakage (C71-C78) has its own model, `M_Ct*.v`, described below; the timing of single word operations (including
  multiplication) is assumed independent of the operands, and what the compiler does to the code is not modelled. Memory zeroisation, the `std` feature switch,
  and compile-time issues on 16/32-bit targets are not modelled.
* Straight-line limb arithmetic (`fe_mul`, `fe_sq`, `sc_reduce`, ...) is modelled as programs in a small
  register language (`M_Slp.v`) whose text is the Rust text statement by statement; the semantics applies the
  fixed-width semantics at every operator. A verified interval analysis proves absence of overflow, a verified
  linear-form analysis proves the congruences.

## Properties and how they are proved

One entry per property: what is modelled, how it is proved, theorem file.

Hash and MAC (`M_Util`, `M_Sha2`, `M_Hmac`, `M_Hkdf`; specs `S_Sha2`, `S_Hmac`, `S_Md`; theorems in `T_Hash`, `T_Md`).
The Rust macros become records of parameters; the `HashFunction` trait becomes a record of operations. FIPS 180-4 constants
are *defined* as fractional parts of roots of primes.

* C01: all 16-byte arrays; OR-of-XOR is zero iff equal.
* C02, C03: invariant "processor state absorbs the bytes so far", induction over the list of `update` calls (`P_Sha2Stream`).
* C04: totality/panic of `write_digest` for each buffer length.
* C05: behaviour at and beyond 2^61 bytes (panic when checked, digest of the wrapped length otherwise).
* C06-C10, C12: proved for every hash whose streaming interface implements some function, then instantiated (`P_Hmac`).
* C11: false of the code (checked builds); `_refuted` + exact limit.
* C62: Merkle-Damgard argument: padding is injective and suffix-free, walk back from equal digests (`P_Md`); the hypothesis
  is shown to be satisfiable by a pigeonhole proof.

ChaCha20/Poly1305 (`M_ChaCha20`, `M_Poly1305`; spec `S_ChaCha`; `T_ChaCha`, `T_Ccp`, `T_Forge`).

* C13-C17: invariant "position n of the keystream", induction over histories of calls (`P_ChaCha`, `P_Stream`, `HistStream`).
* C18-C20, C24: composition of the stream and MAC results (`P_Ccp`).
* C21: false of the code (missing mask in the final reduction): `_refuted` with a witness through the public API,
  `_partial` theorems: correct whenever the accumulator is >= 2^22+5, and otherwise one of exactly two values.
* C22: interval bounds on the 26-bit limbs, every build mode (`P_Poly1305`).
* C23: false for builds without overflow checks: `_refuted` for every long message, `_partial` for all others.
* C61: polynomials over Z/(2^130-5) (prime: Pocklington certificate, `P_Prime1305`) of degree n have at most n roots
  (`P_Roots`); message encoding injective (`P_Forge2`); the deviation of C21 enlarges the set by a constant.

AES/GCM (`M_Aes`, `M_Ghash`, `M_Gcm` over a record `BlockCipher`; specs `S_Aes`, `S_Gf2`, `S_Gcm`; `T_Aes`, `T_Gcm`, `T_Forge`).

* C25-C28: S-box/xtime by exhaustion over 256 bytes lifted to a universal statement; rounds by list algebra; bijectivity through
  an explicit inverse cipher (`P_Aes`).
* C29: bit-serial product = carry-less product modulo the GCM polynomial (`P_Gf2`, `P_Ghash`).
* C30-C33, C35: `P_Ctr`, `P_Gcm`, for every block cipher.
* C34: false of the code in checked builds: `_refuted` + exact limit.
* C60: GF(2)[x]/(GCM polynomial) is a field (irreducibility by Rabin's criterion, `P_Gf128`), root counting (`P_Roots`, `P_Forge`).

Curve25519/Ed25519 (`M_Slp`, `M_FeProg`, `M_ScProg`, `M_Curve25519`, `M_EdConst` (tables generated from the Rust text),
`M_Ed25519`; specs `S_Field`, `S_X25519`, `S_Edwards`, `S_Ed25519`; `T_X25519`, `T_Ed25519`, `T_EdOrder`).

* C36, C37, C39, C40: field limbs denote integers mod p (`P_Slp`, `P_Fe`, `P_FeBytes`, `P_Field*`, `P_Inv`), ladder refines
  RFC 7748 (`P_X25519`, `P_X25519b`); p is prime (`P_Prime`, `P_PrimeP`).
* C38, C43, C52: the ladder computes multiplication on the Montgomery curve/its Edwards image (`P_Mont`), associativity of
  the Edwards law by polynomial identities (`P_Edwards`).
* C41, C42, C44: verified interval analysis over the SLP text; linear-form analysis for `sc_reduce`/`sc_muladd` (`P_Sc`).
* C45-C48, C51: group operations in the ref10 representations refine the affine law (`P_Ge`, `P_Ge2`, `P_EdDouble`), base table
  entries are multiples of B (`P_EdTable`, `P_EdWit`), fixed and sliding window (`P_EdBase`, `P_Slide`), decoding (`P_EdDecode`),
  assembled in `P_Ed25519`.
* C49, C50: false of the code; `_refuted` with witnesses, and exact extent (C53, `C50_accepted_keys_partial`).
* C53-C59: B has prime order L (`P_PrimeL`, `P_EdOrder`), every curve point has order dividing 8L (the count of curve points is
  bounded by counting x-coordinates and excluded by Lagrange-style cosets), binding in `P_EdBind`.

Later additions:

* C63: HMAC/HKDF collision gives a hash collision of one of the strings hashed (`P_Md2.hmac_collide`; strings named in `S_Md`).
* C64: `S_Md.extend` continues the hash from the digest alone; equal by unfolding the chain (`P_Md2.extend_ok`).
* C65: XOR of two key-stream encryptions (`P_Nonce`).
* C66: both public keys are multiples of the base point by the same clamped scalar (C45, C52); 1-y = 0 only for the neutral element, which a clamped scalar never reaches (C54).
* C67: `S_Twist.v` defines the twist; its group law (`P_TwEd`) and the ladder on it (`P_TwMont`) are proved as for the curve; a square/non-square dichotomy (`P_Twist`) lifts every u to one of the two curves.
* C68: the order of every point of the twist divides 8 Lt (`P_TwOrder2`: a point of prime order Lt by a computed ladder, a point of order 4, counting cosets; Lt is proved prime by a Pocklington certificate checked by computation in `P_PrimeT`), clamped scalars are invertible modulo L and Lt up to 8, and the points of order dividing 8 of both curves are computed (`P_TwLow`).
* C69: equal u-coordinates mean equal or opposite points of the same curve, or two points of order dividing 2; the difference is killed by 8, hence by every clamped scalar (`P_TwDh`).
* C70: for each y below 19, an x with (x, y) on the curve, or a square root witnessing that no x exists (`P_EdNonCanon`), checked by computation; the rest is C51.
* C71-C78 (`T_Ct`): a second transcription of the code (`M_CtBase`, `M_CtHash`, `M_CtAead`, `M_CtCurve`, histories in `HistCt`), polymorphic in the
  type of secret words. All buffer contents have that type; only lengths, counters and indices are `nat`/`Z`. A writer monad records every branch
  (conditions, loop exits, assertions, overflow checks) and every index. Functions outside the monad cannot branch or index on a secret because no
  operation turns a word into a `nat`, `Z` or `bool` except `w_is_zero`, `w_uchk`, `w_schk`, which record what they disclose. Proved: instantiated with
  `Z` it computes exactly what `M_*.v` compute (`sim_*` in `P_Ct*`), and two runs on arguments of equal lengths leave equal traces and both return or both panic (`rel_*`; `P_CtSign` for signing messages of every length; `wrel_*` for code with overflow checks on secret words, which are proved not to fail).
  Ed25519 `verify` handles public data and is not covered; loops over slices outside the monad (`map`, `zipwith`, `fold_left`) have lengths fixed by the lists.
* C79-C82 (`T_Unwind`): a third transcription (`M_Unwind`) of the functions that write to a caller's buffer or change a `&mut self` that survives
  a panic. A run records the stores to the output buffer in order, and buffer and `self` at the end, also when it ends in a panic; `moment` (`HistUnwind`)
  says that a buffer content is that after some number of stores. Proved: results and final buffers agree with `M_*.v` (`sim_*` in `P_Unwind2`, or the exact runs in
  `P_Unwind4`), the buffer changes through recorded stores only (`honest`), and the exact sequence of stores (`ctr_writes`, `expand_loop_run`, ...).
  `copy_from_slice` and the word-to-byte stores are taken to go left to right byte by byte. Internal buffers on the stack are not observable and not in the runs.
  States of `HashFunction`/`Hmac` values after an overflow panic of `update` are C87.

* **C83** (`P_EdSmall.v`, `T_EdSmall.v`). Points of order dividing 8 have y in {1, -1, 0, y8, -y8} (doubling formulas, `P_TwLow`); each y below 2^255 is
  written as y or y + p; `lax_decodes` is the decoding that C48/C51 prove of the code. The description of `verify` follows from C48 since [k]A depends on k mod 8 only.
* **C84** (`P_Commit.v`, `T_Commit.v`). In GF(2^128) the equation of the two masked hashes is linear in the last ciphertext block with coefficient (H+H')^2, invertible
  when H and H' differ; the tag equality then gives acceptance by C32. A negative property: GCM is not meant to be key committing.
  For ChaCha20-Poly1305 a witness (`T_CcpCommit.v`): keys 0 and 1, one ciphertext block solved for modulo 2^130-5, computed by the kernel and lifted to every build and output buffer. That every pair of keys has one is not claimed.
* **C85** (`P_Mono.v`, `T_Mono.v`). One lemma per function of the model: `f Checked x = Panic \/ f Checked x = f Unchecked x`, by composition over `bind`.
* **C86** (`HistGen.v`, `P_HmacGen.v`, `T_HmacGen.v`). The HMAC/HKDF model is already generic over a record `HashFunction`; `implements` states what a user's type must do
  (a relation between states and absorbed bytes, kept by `update`, read by `write_digest`). The proofs of C07-C11 are redone against `implements`; C86_sha2_implements shows that
  the four types of the crate satisfy it, and the example is a toy type of a user.
* **C87** (`M_UnwindHash.v`, `HistUnwindHash.v`, `P_UnwindHash.v`, `T_UnwindHash.v`). `update` transcribed so that the state after a panic is visible; induction over the history with
  the invariant `repr` of C05; the limit of write_digest (2^61 bytes) is below what must have been absorbed before an update can panic.
* **C21, exactly** (`S_PolyLazy.v`, `P_PolyExact.v`, `T_PolyExact.v`). The value of the 17-byte accumulator as an integer recurrence (`lazy_acc`); the tag is the RFC's iff it is below
  2^130-5 at the end, and otherwise `faulty_tag`; decrypt accepts exactly that tag.
* **C88** (`T_GcmBlocks.v`): from C35 (the bytes of the ciphertext in terms of the permuted counter blocks) and C27 (the permutation is injective).
* **C89** (`T_Reuse.v`): from C35/C21 exact (the formula of the tag), C65 (the ciphertexts) and C31/C18. **C90** (`T_Channel.v`): composition of C38, C09, C10, C18, C19.
* **C91** (`T_Attempts.v`): the attacker is any function from the verdicts so far to the next attempt. The first accepted attempt comes after rejections only, so it is
  one of q fixed ones; each contributes the set of C60 (C61), nothing (same data and ciphertext: only one tag is accepted, C32/C19), or one guess of the mask (fresh nonce; exact C21).
* **C92** (`T_EdExtract.v`): from C48 (the verification equation), the uniqueness of decoding an honest key, injectivity of encoding, and the prime order L of the base
  point (multiples of B agree iff the scalars agree modulo L); the inverse modulo L is Fermat's.
* **C93** (`T_GcmPrivacy.v`): `Gcm<E>` is instantiated with a cipher whose key is an arbitrary block function. The bijection adds, at every counter block of every query of
  the run, the XOR of the two messages; fresh nonces and C35 make these blocks distinct from each other, from the tag masks and from the zero block, so by induction over the
  queries both runs are equal, and applying the construction from the other side undoes it. (AES is a permutation, not a random function: the distance between the two, and
  how close AES is to a random permutation, is outside the model.)
* **C94** (`T_EdSim.v`): from C45, C46, C48 and the prime order of B; `simulate` does not mention the secret key.
* **C95** (`T_CcpPrivacy.v`): the first part from C20/C22 (the tag depends on the key through `one_time_key` only); the second as C93, with 64-byte blocks. The limit on the
  message length is needed: beyond it builds without overflow checks reuse keystream blocks (C23).
  Forgeries (`T_CcpForge.v`, `S_CcpAuth.v`, `S_CcpForge.v`, `P_CcpAuth.v`, `P_CcpForge.v`): fix attempt j. For a source of blocks F and 16 bytes h, `rho` puts h in the place of the
  Poly1305 key's first half for the attempt's nonce and moves the second half so that the tag already given under that nonce stays the same (or, under a new nonce, puts h in the place
  of the second half). The run, hence the attempt, does not change, and `rho` is undone by the old half; so the sources fall into orbits of 2^128 (`orbit_bound` of C99), in each of which
  the attempt is accepted for at most 8712 B points (C61's counting; `clamp` sends at most 2^22 halves to one point) or for one pad. Sum over j; the switching lemma is not needed as the
  blocks are those of a function. `C95_game_is_aead` ties the game to `encrypt` and `decrypt`; `C95_sources` shows that the finite type of sources is exactly the good ones.
  The interactive game (`T_CcpGame.v`, `S_CcpGame.v`, `S_CcpWin.v`, `P_CcpGame.v`, `P_CcpWin.v`): encryptions and attempts in any order. The first accepted attempt is also accepted in the
  game that refuses all of them (`win_sim`), where the orbit argument runs per step s with the queries before s; the sources for which step s is an attempt are closed under the orbits
  (`orbit_bound2`), so summing over the steps counts attempts, not moves. `C95_interactive_experiment` ties the game to `encrypt` and `decrypt`.
  Left-or-right with decryption (`T_CcpCca.v`, `S_CcpCca.v`, `P_CcpCca.v`): an adversary of this game is, for each side, a player of the interactive game (`proj`); unless that player wins, the
  adversary's view is the simulated one (`play_sim`), and the simulated views of the two sides are equally distributed by the bijection of C95_privacy, redone for the queries of the simulation.
  Advantages (`T_CcpAdv.v`, `S_CcpAdv.v`): the bijection of the second part, carried over to the finite type of sources, gives `C95_random_blocks` (the two distributions are equal); with
  `C95_chacha_experiment` (the real runs are the runs with ChaCha20's blocks) the advantage and the chance of a forgery under a random key are bounded up to what a random key and
  random blocks differ by in the same experiment. That this difference is small is an assumption about running time and no statement of this model.
  `T_CcpBudget.v`: with attempts times Poly1305 blocks per attempt at most 2^k the two bounds are 2^(k+11)/2^103 (a forgery in the interactive game) and 2^(k+12)/2^103 (left from right, with decryption).
* **C96** (`T_PolyRare.v`, `P_PolyRare.v`): by `C21_tag_exactly` a wrong tag needs an accumulator below 2^22+5; for a fixed message each value of the accumulator is a
  non-constant polynomial equation in r of degree the number of blocks (its coefficients lie in [2^128, 2^129) and are not 0 modulo the prime), so it has at most that many roots.
* **C97** (`T_Checked.v`, `HistSound.v`, `P_Checked.v`, `P_CheckedEd.v`): the length counters are checked, so the histories that return keep them below 2^61 (C05's panics); `never_wrong` is the
  partial-correctness version of C83's `hash_correct` and carries over to HMAC and HKDF for any hash; the AEAD parts combine the exact limits (C16, C23, C24, C33) with the total theorems.
* **C98** (`T_Long.v`, `S_Long.v`, `P_Long.v`): the hash contract of `P_Sha2Stream.v` holds without overflow checks for every length with the wrapped length field; C86 then gives HMAC and HKDF with
  a limit chosen above the inputs at hand, and `P_Long.v` repeats the Ed25519 proofs with that hash.
* **C99** (`T_GcmPrp.v`, `S_GcmPrp.v`, `P_GcmPrp.v`, `P_GcmExt.v`, `P_Switch.v`): `P_Switch.v` proves the switching lemma for adaptive decision trees over mathcomp's finite types (induction on the tree,
  conditioning on the pairs already asked); `P_GcmPrp.v` writes the whole experiment as one decision tree that asks for the zero block, J0 and the counter blocks, and the bijection of C93 makes the two sides equal for functions.
  The forgery bound (`S_GcmAuth.v`, `S_GcmForge.v`, `P_GcmAuth.v`, `P_GcmForge.v`): for functions, exchange the hash key (or, for a nonce not used before, the value at its J0) and adjust the values at the J0 of the
  queries so that no answer changes; each orbit of this exchange has 2^128 members, of which C60 leaves at most B to a forgery; a union bound over the attempts and the switching lemma follow.
  Attempts are handed in after all encryption queries in C99_forgery; C99_interactive below lets them come in any order.
  The running time of attackers is not modelled, so that AES is a pseudorandom permutation is no statement of this model: its distance from a random permutation stays in C99_aes_gcm as two explicit terms, and in C99_aes_forgery (`T_GcmAes.v`) as one; C99_aes_game writes the fractions of keys as those of the games with FIPS 197's cipher.
  The interactive game (`T_GcmGame.v`, `S_GcmGame.v`, `S_GcmWin.v`, `P_GcmGame.v`, `P_GcmWin.v`): as in C95 the first accepted attempt is accepted in the simulation that refuses all attempts;
  per step the hash key (or the block under the attempt's new nonce) is moved without changing what went before; the simulation with its attempts' tags is one adaptive algorithm, to which the switching lemma applies once.
  Left-or-right with decryption (`T_GcmCca.v`, `S_GcmCca.v`, `P_GcmCca.v`): as in C95, for each side the adversary is a player of the interactive game; "the simulated view says yes, or some attempt has the right tag"
  and "it says yes, and none has" are adaptive algorithms between which the real answer lies; the switching lemma carries both to functions, where the simulated views of the two sides are equally distributed.
  `T_GcmBudget.v` removes the counts: no message has more blocks to encipher than to hash, so with at most 2^k blocks hashed in all (moves times blocks per move) the bounds are 2^2k/2^128 and 2^(2k+1)/2^128.

`T_Examples.v` holds concrete cases meeting the hypotheses of the theorems that have no example in their own file (C11, C34, C41, C45, C47, C49, C50, C56–C59).

## What is and is not modelled

Modelled: every non-test function of `src/util.rs`, `sha2.rs`, `hmac.rs`, `hkdf.rs`, `chacha20.rs`, `poly1305.rs`, `aes.rs`, `ghash.rs`,
`gcm.rs`, `curve25519.rs`, `ed25519.rs` and the tables of `const_curve25519.rs`, in both build modes.
Not modelled: `lib.rs` (re-exports and feature switch only), the tests, the compiler, memory layout and zeroisation,
targets where `usize` is not 64 bits (on a 32-bit target `gcm.rs:130-131` shifts a 32-bit `usize` by 36 and 61, which rustc rejects by default).

## Trusted base

* Coq 8.16.1 kernel (including `vm_compute`; `coqchk` re-checks everything without the VM).
* `Print Assumptions` of every theorem `Cnn_*` in every `T_*.v` prints "Closed under the global context": no axiom at all,
  neither of the standard library nor our own; `P_Switch`, `S_GcmPrp`, `P_GcmPrp`, `S_GcmForge`, `P_GcmForge`, `T_GcmPrp`, `T_GcmAes`, `S_CcpForge`, `P_CcpForge`, `T_CcpForge`, `S_CcpAdv`, `T_CcpAdv`, `S_CcpWin`, `P_CcpWin`, `T_CcpGame`, `T_CcpCca`, `S_GcmWin`, `P_GcmWin`, `T_GcmGame`, `T_CcpBudget`, `T_GcmCca` and `T_GcmBudget` use mathcomp (finite types, permutations, rationals), which is compiled with the installation and adds no axiom. (`coqchk`'s list of axioms *present* in the loaded libraries names the seven
  constants of `Coq.ssr.ssrunder` (`Under_rel` and companions), which enter through `Require` of library files; no theorem here uses them.)
* The reading of the Rust code into `M_*.v`: not machine-checked. Repository test vectors are run on the model
  (`Example`s and aborted `Goal`s), as tests of the transcription. `seeded/LOG.jsonl` records mutations of the model and the theorems that reject them.
  `tools/check_transcription.py` (Python, no part of the proofs) reparses `/repo` and compares the straight-line programs of `M_FeProg`/`M_ScProg`
  statement by statement, the curve tables, the SHA-2 constants, the limb loads and stores and the line ranges of all citations with the model.
