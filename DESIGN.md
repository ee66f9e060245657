# Formal model of python-axolotl in Rocq

The model is a shallow, executable Gallina transcription of the Python code in
`/repo/axolotl`, function by function and branch by branch. Python exceptions are
values, store accesses are calls in a free monad, and everything cryptographic is a
record of oracles over which every theorem is quantified.

## Files (rocq/theories)

Model (each definition cites the Python lines it models):

| file | models |
|---|---|
| `PyBase.v` | bytes, Python slices, exceptions, `util/byteutil.py` |
| `Wire.v` | the protobuf wire format (generic fields) |
| `Protos.v` | `protobuf/*.proto` messages: records, encoders, parsers |
| `Crypto.v` | oracle record, its laws, length-checked wrappers, PKCS7, CBC |
| `Kdf.v` | `kdf/*.py`, `ratchet/chainkey.py`, `ratchet/rootkey.py` |
| `Ecc.v` | `ecc/*.py`, `identitykey.py`, `identitykeypair.py` |
| `Messages.v` | `protocol/*.py` |
| `State.v` | `state/sessionstate.py`, `state/sessionrecord.py`, `state/*prekeyrecord.py`, `state/prekeybundle.py` |
| `Prog.v` | store interfaces, world, program monad, complete/crashing/interleaved execution |
| `Ratchet.v` | `ratchet/ratchetingsession.py` |
| `Params.v` | `ratchet/*parameters.py`, `ratchet/bobaxolotlparamaters.py` and the calls that use them, as written (related to `Ratchet.v`, `Builder.v` by C99) |
| `Compare.v` | `ecc/djbec.py` (`__cmp__`, reflected comparison) |
| `Builder.v` | `sessionbuilder.py` |
| `Cipher.v` | `sessioncipher.py` |
| `Groups.v` | `groups/**` |
| `Helper.v` | `util/keyhelper.py`, `axolotladdress.py` |
| `Install.v` | the install procedure of `README.md:42-60` (without `generateLastResortKey`, which the code does not define) and how a bundle is put together in the tests |
| `Stores.v` | the in-memory stores of `tests/` on ordered dictionaries (C62 to C65) |

Other files:

* `Spec*.v`: the small independent specifications the theorems are stated with.
* `*Facts.v`, `*Proofs.v`, `Conv*.v`, `Group*.v`, `Pin*.v`: lemmas.
* `*Refuted.v`: concrete executions that violate a property.
* `Prop*.v`: only the final theorems, each closed by a lemma, with `Print Assumptions`,
  and concrete examples next to them.
* `Toy.v`, `Sched.v`, `Ex.v`: a toy instance of the primitives that satisfies every law
  (so hypotheses are satisfiable) and the devices used in examples.
* `Sha256.v`, `Vectors.v`: SHA-256 and HMAC, and the project's own test vectors run
  through the model. Curve25519 agreements are given there as a table of four values;
  Curve25519 and AES are not implemented. No theorem depends on these two files.

## How each property is modelled and proved

| id | approach |
|---|---|
| C01 | two worlds with stores, a schedule language (send / deliver any earlier message), run with the real API functions on serialised bytes; specification is a function of the history only (set of delivered messages per chain); proof by an invariant giving the exact stored session of each party as a function of the history; what remains open there, messages of dropped chains, is settled for records without older sessions by `recv_dropped` (C01_exact) |
| C02 | case analysis of `decryptMsg`: state after success, then the second call |
| C03 | `run` of `decryptMsg`: every path that raises has performed only reads and random draws |
| C04 | session and prekey part proved; identity store part refuted by a concrete run |
| C05 | inversion of a successful run |
| C06 | crash semantics of the monad; the returned ciphertext implies the store call was executed |
| C07 | inversion and counting |
| C08, C09 | invariants on every state transition |
| C10 | algebra from commutativity of DH |
| C11 | instance of the C01 machinery with a bundle handshake as start |
| C12 | refuted by a concrete run, with the general failure theorem |
| C13, C14 | evaluation of the call under the hypothesis |
| C15 | inversion of `encrypt`, history invariant |
| C16, C17 | inversion of `process` |
| C18, C20 | composition of runs, then the C01 machinery |
| C19 | order laws on signed tuples |
| C21, C22 | evaluation under the hypothesis |
| C23, C24 | round trip of the generic wire format, then per message |
| C25, C26 | case analysis on the first byte; escaping exceptions refuted by concrete inputs and the exact exception sets proved |
| C27 | independent RFC 5869 definition, equality up to 127 blocks; beyond that refuted |
| C28 | induction on n |
| C29 | schedule induction as for C01 with one sender and many members |
| C30, C31 | inversion of a successful run |
| C32, C33 | refuted by concrete runs, with general theorems on what happens instead |
| C34, C35, C36 | arithmetic, all random outcomes |
| C37 | equality proved; injectivity of the serialised form refuted |
| C38, C39 | equational |
| C40 | frame lemma over the call traces |
| C41 | crash semantics |
| C42 | inversion; chain keys compared by index |
| C43, C44 | induction over archived states |
| C45 | interleaving semantics: exact condition under which two calls use one key, and a schedule that refutes the property |
| C46 | decrypt part proved, encrypt part refuted |
| C47 | evaluation |
| C48 | refuted by a concrete run |
| C49, C50 | refuted by one complete execution (a replayed key exchange message); C49 without new receiving chains of the message's ratchet key: invariant "no state of the record holds the message key" kept by every such call (ChainInv.v, TwiceProofs.v); C50 if no key exchange is finished twice: invariant on the sending keys of all states of a record and on the keys of their pending exchanges (distinct, ahead of what was used, not among the draws to come), program logic that tracks the draw position (FreshProofs.v) |
| C51, C52 | a syntactic class of programs with at most one store write is atomic under `run_crash`; order of writes for the others |
| C53 to C58 | invariant of all reachable group worlds (`GroupHist*.v`); unbounded growth refuted for every size by induction |
| C59, C60 | refuted by schedules; then case split on whether the two calls overlap, for all schedules (`serial` in SpecPair.v) |
| C61 | version component of the invariant of all reachable session worlds |
| C62 to C65 | induction on dictionaries and operation sequences |
| C66 to C68 | Hoare logic over complete, killed and interleaved programs; refuted by a killed call and by a schedule |
| C69, C71 | invariant on every stored state: each field that a call reads is set and well-formed once the state can send or has a pending handshake (SetupInv.v); encrypt computed exactly under it (TotalProofs.v) |
| C70 | refuted for every message with a ratchet key of a wrong length; the complete list of exceptions of each call, with the reasons of the foreign ones, from the same invariant (TotalProofs.v, TotalProofs2.v) |
| C72, C73 | the calls inverted step by step into an exact description of the new state, written without the model's helpers (SpecRatchet.v, RatchetProofs.v); which key pair is used comes from the draw positions |
| C74 | the handshake calls inverted into an exact description of session, message and stores (SpecSetup.v, SetupEffects.v); the derivation is stated with RFC 5869 HKDF |
| C75 | the group calls inverted into an exact description of states and messages, decrypt as an equivalence (SpecGroupStep.v, GroupEffects.v) |
| C76 | an invariant of all stored sender key records along histories with crashes and any number of calls in flight (GroupPool.v), then a case analysis of each call, as equivalences (GroupErrors.v) |
| C77 to C79 | a simulation between a call interleaved with any number of calls elsewhere and the call alone (BesideProofs.v); histories with calls elsewhere in flight reduced to sequential ones (ServedProofs.v, GroupServed.v) |
| C80, C81 | the exact effect of an answered key exchange (C74) and the classification of its errors (C70) applied repeatedly (ReplayProofs.v) |
| C82, C83 | the exact effect of a decryption (C72) repeated with messages that the chain keys make possible (SkipProofs.v); a decryption does not look at the registration id, and for a known session not at the prekey ids (WrapProofs.v) |
| C84 | The invariant of C01 (`nrel`) speaks of the session of the peer device, the own identity and (for a bundle) the trusted identity and the prekeys only. Calls for other peer devices and groups are confined to other keys of the stores (`aside_skips`), refused input changes no session (`takes_kept`), and the random source only moves on; so the induction over the schedule goes through with such steps in between (`busy_net`). |
| C85 | The invariant of C01 for every state of the session record: `devrel` relates the current and the archived states, in their order, to the list of sessions of the ideal (`Many`). A message is tried on all states; a state of another session does not know its ratchet key, because all keys ever drawn differ (`apart`), so it refuses unless a MAC fits by accident (`foreign`); the state of its own session behaves as in C01 (`home`). The induction carries the future bundles and their prekeys (`hrel`), the keys drawn so far and later (`freshm`), and treats the moves of B by exchanging the roles (`nrelm_swap`). |
| C86 | Case distinction on the string, the offset and the two type bytes. |
| C87 | `hexdigit` against the two digit tables by going through all 256 bytes; then induction on the string, two characters at a time. |
| C88 | Installing is run step by step, with what each record then holds; the contact is C75 started from two such devices; the many contacts by induction on their list, each first message leaving what the others need in place. |
| C89 | The invariant of C29 for each channel, which mentions only the sender keys stored under its name; actions on other channels and everything else leave these alone (C40). |
| C90 | The decoder is sound by induction on its fuel and complete by induction on the encoding relation of SpecRead.v, as much fuel as there are bytes being enough; the field interpreters compute the last occurrence of each field. |
| C91 | Two runs side by side: all that is stored or drawn is a function of the header, read off the exact results of C11, C14 and C71; body and MAC only decide between the error and the plaintext. |
| C92 | The same with two different stored states: each step of the ratchet overwrites or removes exactly the secret in which they differ (`other_secrets`, `other_seed`), by going through the cases of opening (next key, stored key, ratchet step). The refutation for key exchanges is C74 read backwards, and a run. |
| C93 | `SpecStored.v` transcribes the schema as a relation between lists of fields and records (`says_...`), with the wire relation of C90 for nested messages. A parser is `sound` if folding its step over a list of fields yields exactly what the relation says; proved by induction from the end of the list, one field at a time, nested messages with the soundness of their own parser (merging two occurrences is reading the concatenation of their fields). The written half follows with the round trips of C24. |
| C94 | The k-th prekey ever generated has the number `preKeyId_at start k` whatever the batches, and these are distinct for fewer than 16777214 prekeys; invariant over refills and uses: the store holds exactly the prekeys not used since. |
| C95 | Taking a key out of a state is described up to the order of the stored keys; two such steps commute (four cases: each key stored or ahead of the chain) and a step leaves the readability of every other iteration as it was. Invariant over all reachable devices: the stored keys are in ascending order, so equal up to order is equal. Failing calls change nothing and keep failing in the same way. |
| C96 | Taking the key of number n from a chain is written in closed form: derive the keys up to n, append them, remove the one of n. Removals commute, so two takings commute to the byte, given that a chain's stored keys have different numbers (invariant of C02). Different chains are different positions of the list. A message of the new chain is the same as a ratchet step followed by a message of a known chain, and the step commutes with messages of known chains while there is room. Then induction over permutations, and over the calls for the stores and the position on the tape of random bytes. |
| C97 | The first decryption of a prekey message equals the decryption of the message inside in a world where the session is already stored, the identity saved and the prekey removed; that world depends on the handshake only. Once the session is there, a prekey message of the same handshake is treated as the message inside (the record keeps belonging to the base key). Then the state-level result of C96. |
| C98 | A predicate on programs says that no store access of theirs is a forbidden one; it holds for every call, by structure. Every other access commutes with changing the prekey, hence so does the whole program. A prekey message whose session is there is first reduced to a program without any prekey access. |
| C99 | Induction over the setters called: each field of the builder is the last value given. The calls through parameter objects are related to the calls that pass the keys directly by a relation on programs (same accesses in the same order, same end), which is kept by sequencing and implies equal runs, crashes and interleavings. |
| C100 | The three outcomes from the totality and irreflexivity of C19; `__cmp__` unfolds to the same tuple comparison. |

## Trusted base

* Coq 8.16.1's kernel, including its `vm_compute` machine.
* Axioms: none. Under every theorem in `Prop*.v` `Print Assumptions` prints "Closed under
  the global context". `coqchk -o` lists seven constants of `Coq.ssr.ssrunder.Under_rel`,
  a module type instance of the standard library that std++ loads; no theorem uses them.
* The faithfulness of the transcription, and the modelling decisions below.
* Theorems that need laws of the primitives assume `crypto_ok C` (output lengths,
  commutativity of the agreement, correctness of signatures, AES inverse). No hardness
  assumption is made anywhere: no theorem says that something cannot be guessed or forged.

## Modelling decisions

* `Prog.v`: store accesses, random numbers and the clock are calls of a free monad.
  `run` executes a program, `run_crash n` kills it before its n+1st call, `run_pair`
  interleaves two programs between calls. A store call itself is atomic.
* `SpecApi.v`: `reachable` is every world a device can get to without a session at the
  start. Any number of calls may be in flight, their store accesses interleave freely, and
  each of them may die between two accesses. The application may write its prekeys and
  trusted identities at any time.
* Stores keep serialised bytes, as the in-memory stores do. Loading parses them again.
* Randomness is an arbitrary tape that theorems quantify over. Freshness of drawn keys is an
  explicit hypothesis where needed (C01, C06, C11, C18).
* The clock is an arbitrary value below 2^64 (milliseconds).
* Bytes and bytearrays are not distinguished. Integers are `N` or `Z`; protobuf range checks
  are explicit (`set_u32`, `set_i32`).
* The curve extension raises ValueError for arguments of wrong length.
* Python 3 semantics: `bytes` indexing, dictionary iteration.
* Recipient ids and device ids are integers, as in the project's tests.
* The protobuf runtime is modelled with proto2 semantics: unknown fields are skipped, the
  last value of a scalar field wins, nested messages merge.

## Not modelled

* The C library `axolotl_curve25519`, `cryptography` and OpenSSL: oracles.
* Exception texts, logging, `__repr__` output.
* Python-level type confusion (passing objects of wrong types).
* The SQL or other store implementations an application supplies: the model has the
  semantics of the in-memory stores in `axolotl/tests`.
* Time, memory and side channels. MAC comparison is equality.
* Processes killed inside a store call, and store calls that are not atomic.
* More than two calls for the same peer device in flight, outside the histories of
  `reachable` (C45, C59, C60, C66 to C68 interleave two calls).

## Mutation tests

`seeded/LOG.jsonl` has one line per deliberate change of a model definition, made in a copy
outside this directory. `theorems_failed` are the theorems of `Prop*.v` that no longer
check, directly or because a lemma they need fails; this over-approximates the theorems
that became false. `examples_failed` are concrete cases that became false by computation;
those are certain.
