# Formal model of AploCoin/BlockChainTree in Rocq (Coq 8.16.1)

## 1. Shape of the model

The library is modelled function by function as total, computable Gallina
functions.  Every definition cites the file and lines it models.

* **Outcome of a call.** `out A = Ok a | Err e | Panic | UB`.  `Err` carries the
  outermost error context.  `Panic` is a Rust panic (slice out of range,
  `unwrap` on `Err`/`None`, `U256` overflow, checked integer overflow,
  `unimplemented!()`).  `UB` is an out-of-range `get_unchecked`.
* **Build profile.** Native integer overflow panics in `Debug` and wraps in
  `Release`; functions that can overflow take a `profile`.  `U256` arithmetic
  (crate primitive-types) panics in both.
* **Bytes** are `N` below 256 in lists; `U256`/`u64` are `N` with explicit bounds.
  Theorems about Rust values carry the well-formedness predicate of the Rust
  type (array lengths, integer ranges): the type checker guarantees it in Rust.
* **SHA-256** is written out (FIPS 180-4) and run on the standard vectors, so
  counterexamples and reachability witnesses use the real hash.  No theorem
  assumes collision resistance; where it matters the statement names the two
  concrete strings that would have to collide.
* **ECDSA** (secp256k1) is a record of functions; the sign/verify law is an
  explicit premise of the theorems which need it.  Secp.v is one such record,
  the documented behaviour of the crate (C121).
* **sled** is a sorted key/value map plus a log of unflushed write batches, so
  that a crash can keep any prefix of them.  A sled transaction is one batch.
* **The config file** is its contents plus the list of writes in flight.
* **Histories** are lists of API operations folded over the state; **schedules**
  are lists of thread numbers over programs made of atomic steps.

Files (all in `rocq/theories`): model files contain no proofs; `P_*.v`
(properties) contain only theorem statements closed by `exact`, examples that
their premises are met, and `Print Assumptions`.

## 2. Plan per property

| id | modelled | proof |
|----|----------|-------|
| C01-C05 | tools.rs codecs byte by byte, incl. 4-limb loop | induction on byte lists, positional arithmetic |
| C06-C11 | block.rs dump/parse of all types with checked slicing | round trip by computation on appended lists; injectivity from prefix-freeness; panics by exact length windows |
| C12-C17 | transaction.rs | as above; ECDSA law as premise for C17 |
| C18-C21 | merkletree.rs array algorithm with checked access | loop invariant relating the array to a recursive tree; refutations by computation |
| C22-C26 | tools.rs difficulty, fee, pow | bit-length lemmas; invariant over timestamp sequences |
| C27-C30 | `validate` of three block types | case analysis; refutations with mined blocks |
| C31-C34 | MainChain | representation invariant: list of dumps |
| C35-C38 | BlockChainTree emission | inductive invariant over histories |
| C39-C40 | DerivativeChain, hex | same invariant per owner |
| C41-C49 | ledger, gas, send_transaction, transaction store | refinement to a finite map; sums over the map |
| C50-C52 | summarize, rotate_dbs, copy_dir_all | directory trees as an inductive type |
| C53-C55 | TxPool with std's BinaryHeap | multiset + heap order |
| C56-C61 | flush, reopen, crash | crash transition over write logs |
| C62-C65 | interleavings of atomic steps (Conc.v, ConcTree.v) | invariants over schedules; linearization by induction on the schedule; refuting schedules |
| C66-C67 | summary_db.rs, dump_headers.rs | refinement; case analysis |
| C68-C69 | crash transition over the four balance databases | each database is a prefix of its own history |
| C70-C71 | TxPool, comparison with native byte order | sortedness and uniqueness of sorted permutations |
| C72-C73 | rotate_dbs on directory trees (Fs.v) | structural induction on trees; crash between two steps |
| C74 | SummaryDB under crashes | every update ends with a flush |
| C75-C76 | reads and add_block on shared state | heights below the chain height are settled; a measure decreases with every step |
| C77 | flush as one of the concurrent calls (ConcFlush.v) | invariant on the config file: height and difficulty part are right or about to be rewritten |
| C78, C79 | emission (Tree.v) | decision table from the chain invariant; difficulties stay in the finite set of C25 |
| C80 | every call, unchecked accesses as `UB` | case analysis over all calls under the chain, ledger and difficulty invariants; witness for release builds |
| C81 | every call, `Panic` outcomes | the exact condition per call, from C41, C45, C78, C79 |
| C82 | sum of all amounts, histories of moving calls | C41/C45/C51 give each call's effect on the amounts; sums over duplicate-free lists that cover the support; induction on the history |
| C83 | all calls from any tree, flushes anywhere | normal form of a tree (contents only); every call commutes with it |
| C84 | histories with restarts, flushes and derivative calls anywhere | main calls commute with forgetting derivative chains; `t_new` after `t_close` returns the same normal form |
| C85 | flush, then any calls, then any crash | transactions are written under their hash at every crash point; durable references lead to blocks of the chain (C59 invariants) |
| C86 | chain flushed through its handle, then any calls, then any crash | durable prefix of the chain's block log, preserved by every call but its own flush |
| C87 | main and derivative flushes in either order | C85 and C86 combined; witness for the other order |
| C88 | histories with any number of crashes | invariant of chain, log of unflushed writes and all config candidates; the flushed prefix stays a prefix |
| C89 | as C88, emission only for the links | the same invariant, every candidate is a truncation; witnesses for the flush window and the block above the end |
| C90 | as C88, for every derivative chain | the same per owner, independent of the main chain, over open chains and closed directories; witness for the flush window |
| C91 | induction over runs of the example miner (`MinerSpec.v`) | emission decision (C78) at every block, exact ledger effects, payments per epoch below the amount the root account is filled with; witnesses for a clock going back and for the fee |
| C92 | the same for the derivative miner | emission decision (C79), the chain read back from its config at a restart |
| C93 | emission step by step next to cloned chain handles (ConcEmit.v) | history of one emission by induction on the schedule: the block it read, the height since then and the lock decide the outcome; refuting schedule at an epoch boundary |
| C94 | futures dropped at await points (Cancel.v) | every drop point has the tree's normal form (C83), so histories with drops run like histories without; the config file decides reopening; a call dropped at any point leaves the tree that the same call leaves when I/O operations fail (Io.v), so what C97–C107 say of failing calls covers dropped ones |
| C95 | calls on the handles of a derivative chain next to emissions for its owner, step by step (ConcDeriv.v) | invariant over schedules (lock holder, filled heights, what each thread has read); linearization moment per call; field-wise invariant of the config file for overlapping flushes; refuting schedule for the height of a finished flush |
| C96 | acceptance of byte strings (no new model) | inversion of the parsers: every slice rebuilds a piece of the input; codes of numbers are the minimal one with zeros in front; converse by computing the parser on the layout |
| C97 | every call and opening with a list of failing operations (Io.v) | simulation: a run that ends in success met no failure that matters, up to the tree's normal form (C83); witnesses for the config file |
| C98 | histories of such calls with restarts | invariant of the chain that tolerates half-added blocks above the end; witness for what is found of them |
| C99 | the same, one call repeated | what a failed call leaves differs only where the repetition overwrites it; witnesses |
| C100 | the same, balances | Hoare triples over the calls for the amounts and gas of all accounts |
| C101 | flushes with failing operations | case analysis over the config file writes; the chain invariant gives the reopened tree |
| C102 | rotation with failing directory operations | a missing directory stays missing through every call; epoch boundary reached by a history of 999999 blocks for the witnesses |
| C103 | openings with failing operations, repeated | the writes of an opening are idempotent on the contents of each database; witness for the config file |
| C104 | block order: any blocks; emitted chains for the order by height | comparison of timestamps; witnesses for equal and for smaller timestamps |
| C105 | two trees, deliveries in any order | chains as lists of blocks with injective dumps; emission depends on the tip only; witnesses at the epoch boundary of EpochDemo.v |
| C106 | runs of the three example programs in any order | invariant with exact balances, gas, both chains and the three states of the derivative chain (unopened, open, on disk) |
| C107 | histories of calls with faults, closings, crashes, openings that succeed, fail or are killed (LifeSpec.v) | invariants over every state a crash can leave (current, durable, every prefix of pending writes), on open trees and on disks alike; list of blocks as in C89 for the rest; witness by computation |
| C108 | zstd helpers (Zstd.v) over an arbitrary codec, failing file operations, crashes | success means the whole encoding is in the file; with a codec that refuses cut encodings nothing wrong is ever read; the earlier file is lost when compressing fails (refuted) |
| C109 | derivative chains in the histories of C107 (DlifeSpec.v) | the states each call can leave a chain in under any faults are enumerated once; then one induction over histories for any property of all chains, open or on disk, instantiated for what is stored, what was flushed, and the row of C90 |
| C110 | balances in the histories of C107 (BlifeSpec.v) | a call changes each ledger by at most one commit, perhaps after a flush (one frame proof over all calls); so every content a crash can leave is the content at the end of some earlier call, and openings leave the ledgers alone once two blocks are on disk |
| C111 | every call and query against an abstract node (NodeSpec.v): lists of blocks and transactions, numbers, no stores | refinement: a simulation relation (NodeFacts.v per store, NodeSim.v for the whole tree) kept by every call, by careful shutdown and by opening; every query of the code is a function of the related node |
| C112 | both build profiles side by side (ProfileSpec.v) | the profiles enter the tree only through the retarget; witnesses with a clock that went back |
| C113 | pairs of histories with and without a call (ObsSpec.v: trees no query tells apart) | on the abstract node of C111: equality of nodes part by part is kept by every call, and a failed call changes no part; witnesses for the two exceptions |
| C114 | pairs of histories with two calls swapped | on the abstract node: a frame lemma (parts a call leaves alone) and a locality lemma (parts its result depends on) for each call; commutation follows for all pairs at once |
| C115 | concurrent executions of C62/C66 cut short by a crash (ConcCrashSpec.v) | every ledger step of a thread is one commit, so the commits pending at the kill are those of a prefix of the schedule; the surviving prefix is the content at an earlier moment, to which the concurrent accounting of transfers applies |
| C116 | histories with some calls left out (SliceSpec.v) | on the abstract node: two nodes that agree on the chosen parts keep agreeing, by the frame and locality lemmas of C114 |
| C117 | timestamps and targets of whole chains (ClockSpec.v) | induction along the linked chain of C35/C39; the 263 possible difficulties are swept by computation for the one-step facts |
| C118 | SummaryDB with failing operations, dropped calls and kills (SdbIo.v, SdbIoSpec.v) | every update is one commit followed by a flush; the invariant keeps the surviving content and the present content as two totals over the same list of counted updates |
| C119 | account books over call histories (BookSpec.v) | one step of the abstract node (C111) changes an account by what the answer reports; induction over the history |
| C120 | summaries, kept balances and inclusion proofs (AuditSpec.v) | invariant of the abstract node: the block at the last multiple of a million carries the root of the kept balances; completeness of Merkle proofs (C19); an epoch boundary is reached by a history of 999999 blocks |
| C121 | transaction.rs with secp256k1 spelled out (Secp.v, SecpSpec.v) | the two primes (field, order of the curve) are certified (Pocklington, Primes.v and SecpPrimes.v); division by s modulo the order turns the check of verify into the equation of ECDSA; Fermat's theorem gives square roots; the formulas for Jacobian coordinates are checked by ring against chord and tangent; the root key by computation |
| C122 | linked rows of two nodes (TipSpec.v) | from the later height down: equal hashes are equal dumps or a collision, equal dumps are equal blocks (C11), which name the hash below and their own height; linkedness from C107, C109, C39; counterexample for added blocks |
| C123 | SHA-256 (Sha256.v) against a relational reading of FIPS 180-4 (ShaSpec.v) | words bit by bit; constants by a check of integer roots; schedule and rounds as traces; padding is determined; Merkle-Damgard: equal ends lead back to a first difference, different lengths differ in the last block |
| C124 | texts that are hashed, by kind (DomainSpec.v) | first byte and length separate the kinds; shared texts are computed; a minimal number is its own payload |
| C125 | ledger calls over arbitrary database contents (DamageSpec.v) | an entry reads as an amount exactly if load_u256 succeeds; calls write only to accounts they have read, except set_amount |
| C126 | opening, lookups and calls over arbitrary databases and config files (AnyDirSpec.v) | parsers never reach UB on byte strings; case analysis over all calls; the difficulty array is left only at index 0 with byte 255 |
| C127 | emission, add_new_block, flush and crash of the main chain against the transaction database (ListedSpec.v) | invariant: hashes listed by stored blocks are keys of the transaction database; crash theorems of C59 and C85; witnesses |
| C128 | the calls and openings of Io.v over arbitrary databases and config files (AnyIoSpec.v) | one Hoare-style predicate over all calls: byte strings stay byte strings (also in every state a crash can leave), no UB before or after the retarget; case analysis of the opening |
| C129 | `step` and the lookups on trees with arbitrary contents (AnyPanicSpec.v lists the panics) | case analysis along each call; the exact panic sets of the readers (C08, C14), of account entries (C125) and of the difficulty recalculation compose; transactions below 2^63 bytes |
| C130 | `step` and the lookups on trees with arbitrary contents (AnyErrSpec.v lists the errors) | readers accept exactly the canonical layouts (C96), panic exactly at the cuts (C129), and err otherwise; the errors of each call follow by cases; refused calls leave the tree unchanged except that an emission on a side chain keeps the chain it opened. Refuted for an emission that closes an epoch while the recorded height is not the one after the last block: databases are rotated and the root account overwritten before the block is refused |

Where the unchanged code violates a property the full statement stays in
`properties.jsonl`, a theorem `..._refuted` gives a witness and a theorem
`..._partial` proves what does hold.

## 3. Trusted base

* Coq 8.16.1's kernel (including `vm_compute`, used for the concrete witnesses
  and examples), the standard library, `coqc`/`coq_makefile`.
* **Axioms: none.** `Print Assumptions` stands under every theorem of the `P_*.v`
  files and answers "Closed under the global context" for each of them.  (The checker's list of loaded
  libraries mentions `Coq.ssr.ssrunder.Under_rel`, a module type of the standard library that comes
  with `Coq.micromega`/`ssreflect`; no theorem depends on it.)
* No functors, module types, plugins, `Admitted`, section-less variables, or disabled checks.
  `Section` variables (`Conc.v`, `AnyIoProps.v`) are discharged.
* That the Gallina definitions say what the Rust text says.  Nothing was run: the
  only ties are the citations, `Conformance.v` (the repository's own unit tests, with their literals,
  evaluated on the model) and the seeded faults (`seeded/LOG.jsonl`).

What is assumed about the environment, and where it is written down:

| assumption | where |
|---|---|
| sled: ordered map; each insert/remove and each transaction is atomic; a crash keeps a prefix of the unflushed batches of one database, independently of other databases; `flush` and dropping the last handle make everything durable | Sled.v |
| a copy of a flushed sled directory opens with the same content | Fs.v, Tree.v `t_rotate_dbs` |
| config file: writes reach the disk in order, possibly late; `t_settle` marks the moment they have | Sled.v, CrashSpec.v |
| failing I/O: a failing transaction has made all its writes or none; a database stays usable after an error; tokio reports the error of a file write at the next write | Io.v |
| `std::collections::BinaryHeap`, `HashMap`/`HashSet` of the standard library behave as documented; the heap's sift functions are written out | TxPool.v |
| `parking_lot::RwLock`: mutual exclusion between a writer and everyone else; sequential consistency of the rest | ConcTree.v |
| primitive-types `U256`: arithmetic panics on overflow in every profile | Base.v |
| secp256k1: any functions; `verify (sign m) = true` is an explicit premise where used. C121 puts the documented behaviour of the crate in their place (Secp.v): results only, other formulas than the crate's, at most 1000 nonces, no key generation | Transaction.v, Secp.v |
| SHA-256: the FIPS 180-4 function, written out (C123 compares it with the text of the standard); no theorem assumes collision resistance, statements name the colliding strings | Sha256.v |

## 4. What is modelled and what is not

| source | modelled | not modelled |
|---|---|---|
| tools.rs | hash, U256/BigUint codecs, leading zeros, difficulty, fee, copy_dir_all, the two zstd helpers (Zstd.v) over an arbitrary codec | the codec itself |
| merkletree.rs | build, proof, verification, with checked array access | Arc/Send details |
| block.rs | BasicInfo, the three block kinds, dump/parse/validate, deserializers, comparison of blocks (BlockOrd.v) | Debug formatting |
| transaction.rs | creation, digest, signature check, dump/parse, ordering | key generation |
| txpool.rs | push, pop, queries, heap and set | capacity growth |
| chain.rs | MainChain and DerivativeChain: open, add, find, flush, config | error texts |
| blockchaintree.rs | all public calls: balances, gas, transactions, emission, rotation, flush, restart | log output |
| summary_db.rs | add/decrease/get funds and flush, also interleaved, with failing operations, dropped calls and kills (SdbIo.v) | |
| dump_headers.rs, types.rs, static_values.rs | completely (constants checked by computation) | |
| examples, tests | unit tests as `Conformance.v`; `mine.rs` and `mine_derivative.rs` as `Miner.v`, `send_transaction.rs` as `Sender.v` (the transactions are passed to `check_pow`, without them the examples do not compile) | console output |

Simplifications, each repeated at the definition: I/O operations fail only in Io.v (C97-C103), where any of them can, with or without its effect, and a failing write leaves any prefix; everywhere else none fails (C97 says that the two models agree then); no allocation errors; no symbolic links in
directory trees; `async` functions run to their end except where their futures are dropped (Cancel.v, C94) and in the concurrent models, where each database operation, file
write and lock acquisition is one step.  Calls taking `&mut self` (emission, rotation) exclude each other and the ledger calls,
as the borrow checker demands; calls on chain handles, which are clones sharing the databases and the lock, are interleaved with them (C93, C95).

## 5. Faults

`seeded/LOG.jsonl` records one line per wrong program tried in a scratch copy: the definition edited, the edit, the claim that becomes false,
and which manifest theorems failed.  The runner compiles the edited development, replaces exactly
the proofs that fail by admissions so that later files are still checked, and reports every manifest
theorem that failed itself or depends on such an admission.

## 6. Not expressible

Timing and performance; the contents of error reports; behaviour of the host under memory exhaustion.
