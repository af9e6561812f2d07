{"id": "C01", "title": "U256 encoding round-trips inside any buffer", "statement": "Appending a number with dump_u256 to any buffer leaves the buffer's existing bytes alone, and load_u256 at that position returns exactly that number and the number of payload bytes, whatever bytes follow; the encoding is the length byte followed by the shortest big-endian form.", "quantifier": "every U256, every preceding buffer, every following byte string", "why_tests_cant": "2^256 numbers and unbounded contexts; tests try one number.", "anchors": ["src/tools.rs: dump_u256, load_u256"]}
{"id": "C02", "title": "u256_size predicts the encoded size", "statement": "u256_size(x) equals the number of bytes dump_u256(x) writes.", "quantifier": "every U256", "why_tests_cant": "The claim has one exceptional value (zero) in 2^256; a sampled test will not hit it.", "anchors": ["src/tools.rs: u256_size, dump_u256"]}
{"id": "C03", "title": "load_u256 is total on untrusted bytes", "statement": "load_u256 returns a value or an error on every byte string, never panics, and never reads outside the input; when it succeeds the value is the big-endian value of the announced bytes.", "quantifier": "every byte string", "why_tests_cant": "Panics live at exact boundary lengths; the input space is infinite.", "anchors": ["src/tools.rs: load_u256"]}
{"id": "C04", "title": "BigUint encoding round-trips and its size is exact", "statement": "dump_biguint succeeds exactly for numbers below 256^255, then load_biguint returns the same number and consumed length in front of any suffix, and bigint_size equals the bytes written; larger numbers are refused without touching the buffer.", "quantifier": "every natural number, every buffer, every suffix", "why_tests_cant": "Unbounded integers.", "anchors": ["src/tools.rs: dump_biguint, load_biguint, bigint_size"]}
{"id": "C05", "title": "Balances written as U256 are read back by the BigUint reader", "statement": "Reading with load_biguint what dump_u256 wrote gives the same number, so SummaryDB::get_funds reports what add_funds stored.", "quantifier": "every U256 and every suffix", "why_tests_cant": "Two independent codecs must agree on the whole domain.", "anchors": ["src/tools.rs: dump_u256, load_biguint", "src/summary_db.rs: get_funds, add_funds"]}
{"id": "C06", "title": "BasicInfo round-trips", "statement": "BasicInfo::parse of a BasicInfo::dump, followed by any bytes, returns the identical six fields.", "quantifier": "every BasicInfo and every trailing byte string", "why_tests_cant": "Field order and offsets must agree for all values, incl. every height width.", "anchors": ["src/block.rs: BasicInfo::dump, BasicInfo::parse"]}
{"id": "C07", "title": "BasicInfo::get_dump_size is the dumped size", "statement": "BasicInfo::get_dump_size equals the number of bytes BasicInfo::dump appends.", "quantifier": "every BasicInfo", "why_tests_cant": "Fails only for height 0.", "anchors": ["src/block.rs: BasicInfo::get_dump_size, BasicInfo::dump"]}
{"id": "C08", "title": "Parsing a block from untrusted bytes never panics", "statement": "deserialize_main_chain_block and BasicInfo::parse return Ok or Err for every input.", "quantifier": "every byte string", "why_tests_cant": "The panicking inputs are specific length windows.", "anchors": ["src/block.rs: deserialize_main_chain_block, BasicInfo::parse, TransactionBlock::parse, SummarizeBlock::parse, DerivativeBlock::parse"]}
{"id": "C09", "title": "TransactionBlock round-trips through the main-chain deserializer", "statement": "deserialize_main_chain_block(block.dump()) returns a transaction block with the same fee, merkle root, header fields and transaction list.", "quantifier": "every TransactionBlock (all fees, heights, list lengths)", "why_tests_cant": "Round-trip over unbounded lists and all widths; fails for height 0.", "anchors": ["src/block.rs: TransactionBlock::dump, TransactionBlock::parse, deserialize_main_chain_block"]}
{"id": "C10", "title": "SummarizeBlock and DerivativeBlock round-trip", "statement": "Deserializing the dump of a summarize block (main chain) or of a derivative block (derivative chain) returns the same block; a derivative block's or transaction's dump is rejected by the main-chain deserializer with an error, not misread.", "quantifier": "every SummarizeBlock, DerivativeBlock and transaction", "why_tests_cant": "Whole-domain round trip and cross-type confusion.", "anchors": ["src/block.rs: SummarizeBlock, DerivativeBlock, deserialize_main_chain_block", "src/dump_headers.rs: Headers"]}
{"id": "C11", "title": "A block's dump determines the block", "statement": "Two blocks of any kinds with equal dumps are the same block, so equal block hashes mean the same block or a SHA-256 collision between two explicit strings.", "quantifier": "every pair of blocks of any kind", "why_tests_cant": "Injectivity ranges over pairs.", "anchors": ["src/block.rs: dump, hash of all block types"]}
{"id": "C12", "title": "Transactions round-trip", "statement": "Transaction::parse(dump[1..]) returns a transaction with the same sender, receiver, timestamp, signature, amount, data and hash.", "quantifier": "every transaction, every payload length", "why_tests_cant": "Only the empty Some(vec![]) payload breaks it.", "anchors": ["src/transaction.rs: Transaction::dump, Transaction::parse, new_signed"]}
{"id": "C13", "title": "Transaction::get_dump_size is the dumped size", "statement": "get_dump_size equals dump().len(), so gas is charged for exactly the bytes stored.", "quantifier": "every transaction", "why_tests_cant": "Fails only for amount 0.", "anchors": ["src/transaction.rs: get_dump_size, dump", "src/blockchaintree.rs: send_transaction"]}
{"id": "C14", "title": "Parsing a transaction from untrusted bytes never panics", "statement": "Transaction::parse returns Ok or Err for every input, and every Ok result re-encodes to a transaction with the same fields.", "quantifier": "every byte string", "why_tests_cant": "The panicking inputs are one exact length per announced amount size.", "anchors": ["src/transaction.rs: Transaction::parse"]}
{"id": "C15", "title": "A transaction's hash is the SHA-256 of its dump", "statement": "However a transaction was made (new, new_signed, parse), hash() is the SHA-256 of dump(); two transactions with equal hashes agree on every field (up to empty/absent data) or exhibit a SHA-256 collision.", "quantifier": "every transaction and every way of constructing it", "why_tests_cant": "Ranges over all constructions and pairs.", "anchors": ["src/transaction.rs: new, new_signed, parse, hash"]}
{"id": "C16", "title": "The signature covers every field", "statement": "The digest that is signed and verified is SHA-256 of an encoding that determines sender, receiver, timestamp, amount and data: changing any of them changes the signed bytes; the signature itself is not covered.", "quantifier": "every pair of transactions", "why_tests_cant": "Injectivity over pairs; variable-length amount next to free-form data.", "anchors": ["src/transaction.rs: generate_signature, hash_without_signature"]}
{"id": "C17", "title": "A freshly created transaction verifies", "statement": "If private_key is the secret key of sender, the transaction made by Transaction::new verifies as true, and still does after dump and parse.", "quantifier": "every sender, receiver, timestamp, amount, data and key, for any correct ECDSA", "why_tests_cant": "All inputs; signer and verifier build the message in two separate code paths.", "anchors": ["src/transaction.rs: Transaction::new, generate_signature, verify"]}
{"id": "C18", "title": "Merkle tree construction is memory safe and computes the padded AND-tree", "statement": "MerkleTree::build_tree never indexes out of bounds for any number of items, and get_root is the root of the complete binary tree over the items padded with 0xFF leaves to the next power of two strictly above their number, each inner node being SHA-256 of the bytewise AND of its children.", "quantifier": "every list of 32-byte items, including the empty list", "why_tests_cant": "The code uses get_unchecked throughout; unbounded sizes.", "anchors": ["src/merkletree.rs: build_tree, get_root, find_closest_power_of_2"]}
{"id": "C19", "title": "Merkle proofs are complete", "statement": "For every item of a non-empty tree, get_proof returns depth entries, all but the last verify the item against the root with verify_proof, and the last one is the root; no access is out of bounds.", "quantifier": "every item list, every member (duplicates included)", "why_tests_cant": "Unbounded sizes and positions; the existing test never checks the verdict.", "anchors": ["src/merkletree.rs: get_proof, verify_proof"]}
{"id": "C20", "title": "Merkle proofs are sound", "statement": "A proof returned by get_proof does not verify for a value that is not in the tree.", "quantifier": "every item list and every non-member", "why_tests_cant": "Needs one adversarial non-member among 2^256.", "anchors": ["src/merkletree.rs: get_proof, verify_proof"]}
{"id": "C21", "title": "The merkle root commits to the transaction list", "statement": "Two different transaction lists have different merkle roots unless SHA-256 collides.", "quantifier": "every pair of item lists", "why_tests_cant": "Needs an adversarial pair.", "anchors": ["src/merkletree.rs: build_tree", "src/block.rs: TransactionBlock::validate"]}
{"id": "C22", "title": "count_leading_zeros counts the leading zero bits", "statement": "For every byte string count_leading_zeros is the number of zero bits before the first one bit of the whole string (all bits if there is none).", "quantifier": "every byte string", "why_tests_cant": "2^256 inputs.", "anchors": ["src/tools.rs: count_leading_zeros"]}
{"id": "C23", "title": "Proof-of-work acceptance rule", "statement": "check_pow(hash, difficulty, transactions, pow) is true exactly when SHA-256(hash ++ merkle_root(transactions) ++ pow) has at least as many leading zero bits as the difficulty; a pow good for some difficulty is good for every easier one.", "quantifier": "all hashes, difficulties, transaction lists and pow strings", "why_tests_cant": "All inputs.", "anchors": ["src/tools.rs: check_pow"]}
{"id": "C24", "title": "Difficulty retargeting moves exactly one step", "statement": "On a difficulty of the form 2^m-1, a block faster than 600 s gives 2^(m-1)-1, a slower one 2^(m+1)-1 (but never above 2^255-1), one of exactly 600 s leaves it unchanged.", "quantifier": "every m from 1 to 255 and every pair of ordered timestamps", "why_tests_cant": "All time gaps times all difficulties, including byte-boundary crossings.", "anchors": ["src/tools.rs: recalculate_difficulty"]}
{"id": "C25", "title": "Difficulty recalculation never leaves the safe domain", "statement": "Starting from BEGINNING_DIFFICULTY, under every sequence of timestamps the difficulty always keeps at least one leading zero bit and recalculate_difficulty never performs an out-of-bounds access.", "quantifier": "every sequence of block timestamps", "why_tests_cant": "Invariant over unbounded histories; outside it the code indexes at -1 unchecked.", "anchors": ["src/tools.rs: recalculate_difficulty", "src/static_values.rs: BEGINNING_DIFFICULTY"]}
{"id": "C26", "title": "Fee rule", "statement": "recalculate_fee(d) is 62500 times the number of leading zero bits of d; it never overflows and never exceeds 16000000.", "quantifier": "every difficulty", "why_tests_cant": "All inputs.", "anchors": ["src/tools.rs: recalculate_fee"]}
{"id": "C27", "title": "TransactionBlock::validate accepts exactly the blocks that satisfy its rule", "statement": "validate(None) is true; validate(Some(prev)) is true iff previous_hash is prev's hash, the merkle root is that of the transactions, the difficulty is prev's difficulty retargeted by the two timestamps, and the pow check passes at prev's difficulty.", "quantifier": "every pair of blocks, both build profiles", "why_tests_cant": "All pairs of blocks.", "anchors": ["src/block.rs: TransactionBlock::validate, SummarizeBlock::validate"]}
{"id": "C28", "title": "A block emitted by the node validates against its predecessor", "statement": "Every block returned by emmit_new_main_block passes validate(Some(previous block)).", "quantifier": "every reachable tree and every accepted emission", "why_tests_cant": "Emission and validation are separate code paths that must agree for all inputs.", "anchors": ["src/blockchaintree.rs: emmit_new_main_block", "src/block.rs: validate"]}
{"id": "C29", "title": "A block emitted on a derivative chain validates against its predecessor", "statement": "Every block returned by emmit_new_derivative_block passes validate(Some(previous block)), and validate never panics.", "quantifier": "every reachable tree and every accepted derivative emission", "why_tests_cant": "Needs an emitted chain, not a hand-made wrong block as in the test.", "anchors": ["src/block.rs: DerivativeBlock::validate, get_merkle_root", "src/blockchaintree.rs: emmit_new_derivative_block"]}
{"id": "C30", "title": "Validation rejects blocks with a wrong height or fee", "statement": "A block that validates against its predecessor has height one above it and the fee prescribed by its difficulty.", "quantifier": "every pair of blocks", "why_tests_cant": "Quantifies over all malformed blocks.", "anchors": ["src/block.rs: validate"]}
{"id": "C31", "title": "The main chain is an append-only list", "statement": "Over any history of add_block calls (any block kinds) and lookups, a call succeeds iff the block's height equals get_height(), success appends it and raises the height by one, failure changes nothing, and find_raw_by_height(i) / get_last_raw_block return the i-th / last appended dump, None from get_height() on.", "quantifier": "every history of operations and every block", "why_tests_cant": "Histories are unbounded.", "anchors": ["src/chain.rs: MainChain::add_block, find_raw_by_height, get_last_raw_block, get_height"]}
{"id": "C32", "title": "Lookup by hash finds the block with that hash", "statement": "After any history without crash, find_raw_by_hash(h) returns the appended block whose hash is h, and None if no appended block has that hash.", "quantifier": "every history and every hash", "why_tests_cant": "All histories; collisions must be made explicit.", "anchors": ["src/chain.rs: MainChain::find_raw_by_hash, find_by_hash"]}
{"id": "C33", "title": "add_block only accepts valid blocks", "statement": "A block accepted by add_block (documented as checking validity) validates against the previous block.", "quantifier": "every chain and every block", "why_tests_cant": "Adversarial block needed.", "anchors": ["src/chain.rs: MainChain::add_block", "src/blockchaintree.rs: add_new_block"]}
{"id": "C34", "title": "The last main-chain block can always be read", "statement": "After any history of accepted add_block and emissions, get_last_block returns Ok(Some(block)), so emission and transactions keep working.", "quantifier": "every history", "why_tests_cant": "Breaks only for a derivative block fed to the main chain; histories unbounded.", "anchors": ["src/chain.rs: MainChain::get_last_block, add_block", "src/block.rs: deserialize_main_chain_block"]}
{"id": "C35", "title": "Chains built by emission are hash-linked with valid work", "statement": "In every history where main blocks come from emmit_new_main_block, block 0 is the genesis block and each later block i has height i, previous_hash equal to the hash of block i-1, difficulty equal to the retarget of block i-1's, a pow satisfying block i-1's difficulty over its previous hash and transactions, the merkle root of its transactions and the fee of its difficulty.", "quantifier": "every history of API calls other than raw add_block", "why_tests_cant": "Inductive invariant over unbounded histories.", "anchors": ["src/blockchaintree.rs: emmit_new_main_block", "src/chain.rs: MainChain"]}
{"id": "C36", "title": "Block kinds follow the epoch schedule", "statement": "An emitted block is a summarize block exactly when its height is a multiple of 1000000, in which case emission requires an empty transaction list; otherwise it is a transaction block carrying exactly the given non-empty list.", "quantifier": "every history and every emission", "why_tests_cant": "Needs heights of a million and all lists.", "anchors": ["src/blockchaintree.rs: emmit_new_main_block", "src/static_values.rs: BLOCKS_PER_EPOCH"]}
{"id": "C37", "title": "A refused emission changes nothing", "statement": "If emmit_new_main_block or emmit_new_derivative_block returns an error or panics, chain contents, heights, balances and gas are unchanged.", "quantifier": "every reachable state and every rejected call", "why_tests_cant": "All failure paths in all states.", "anchors": ["src/blockchaintree.rs: emmit_new_main_block, emmit_new_derivative_block"]}
{"id": "C38", "title": "Block timestamps never go backwards", "statement": "Along a chain built by emission timestamps are non-decreasing.", "quantifier": "every emission history, debug and release builds", "why_tests_cant": "Depends on overflow semantics of the build profile.", "anchors": ["src/tools.rs: recalculate_difficulty", "src/blockchaintree.rs: emmit_new_main_block"]}
{"id": "C39", "title": "Derivative chains are linked to the main chain and isolated per owner", "statement": "In every emission history a derivative chain's first block has height 0 and the hash of the main block that was last when the chain was created; each later block links to its predecessor with the retargeted difficulty and valid pow; emission for one owner leaves every other owner's chain unchanged.", "quantifier": "every history, every owner", "why_tests_cant": "Inductive invariant over unbounded histories and owners.", "anchors": ["src/blockchaintree.rs: get_derivative_chain, emmit_new_derivative_block", "src/chain.rs: DerivativeChain"]}
{"id": "C40", "title": "Different owners use different directories", "statement": "The directory name used for a derivative chain determines its owner.", "quantifier": "every pair of owners", "why_tests_cant": "Injectivity over pairs.", "anchors": ["src/blockchaintree.rs: get_derivative_chain (hex::encode)"]}
{"id": "C41", "title": "Amount operations implement a ledger", "statement": "add_amount, set_amount, sub_amount and send_amount change exactly the stated accounts by exactly the stated sums as seen by get_amount, and change nothing else; stored values always decode.", "quantifier": "every history of ledger operations, every account and amount", "why_tests_cant": "Refinement over unbounded histories.", "anchors": ["src/blockchaintree.rs: add_amount, set_amount, sub_amount, send_amount, get_amount"]}
{"id": "C42", "title": "Transfers conserve the total amount and never overdraw", "statement": "send_amount never changes the sum of all balances and no balance is ever negative; a transfer or subtraction above the balance has no effect.", "quantifier": "every state, every sender, receiver (equal or not) and amount", "why_tests_cant": "All states; self-transfers and overflow corners.", "anchors": ["src/blockchaintree.rs: send_amount, sub_amount"]}
{"id": "C43", "title": "Overdrafts are reported as errors", "statement": "send_amount, sub_amount, sub_gas and send_gas return Err, and do not panic, when the balance is insufficient.", "quantifier": "every state and call with insufficient balance", "why_tests_cant": "All insufficient calls.", "anchors": ["src/blockchaintree.rs: sub_amount, send_amount, sub_gas, send_gas"]}
{"id": "C44", "title": "Gas transfers conserve the total gas", "statement": "send_gas never changes the sum of all gas balances.", "quantifier": "every state, sender, receiver and amount", "why_tests_cant": "Fails exactly when sender equals receiver.", "anchors": ["src/blockchaintree.rs: send_gas"]}
{"id": "C45", "title": "send_transaction is all-or-nothing with exact effects", "statement": "If send_transaction returns Ok, the transaction is stored, the amount moved from sender to receiver and the sender's gas fell by 625000000000 per dumped byte; if it returns Err, nothing changed. Nothing else changes in either case.", "quantifier": "every reachable state and every transaction", "why_tests_cant": "All states and transactions, all failure paths.", "anchors": ["src/blockchaintree.rs: send_transaction"]}
{"id": "C46", "title": "Only authorised transactions move funds", "statement": "send_transaction moves funds only if the transaction's signature verifies for the sender.", "quantifier": "every state and transaction", "why_tests_cant": "Adversarial transaction needed.", "anchors": ["src/blockchaintree.rs: send_transaction", "src/transaction.rs: verify"]}
{"id": "C47", "title": "A transaction takes effect at most once", "statement": "Sending the same transaction again has no further effect on balances.", "quantifier": "every state and transaction", "why_tests_cant": "Ranges over histories.", "anchors": ["src/blockchaintree.rs: send_transaction"]}
{"id": "C48", "title": "The transaction fee is charged", "statement": "send_transaction reduces the sender's balance by amount plus the fee of the current difficulty.", "quantifier": "every state and accepted transaction", "why_tests_cant": "All states.", "anchors": ["src/blockchaintree.rs: send_transaction"]}
{"id": "C49", "title": "Stored transactions are retrieved unchanged", "statement": "After add_transaction/add_transactions, transaction_exists is true and get_transaction(hash) returns the stored transaction for every later state without a hash collision; hashes never stored are absent.", "quantifier": "every history and every transaction", "why_tests_cant": "Unbounded histories.", "anchors": ["src/chain.rs: add_transaction, add_transactions, get_transaction, get_transaction_raw, transaction_exists"]}
{"id": "C50", "title": "The epoch summary commits to all balances", "statement": "The merkle root placed in a summarize block is determined by the observable amounts and gas of all addresses, and changes if any address's amount or gas changes (up to SHA-256 collisions).", "quantifier": "every pair of ledger states", "why_tests_cant": "Ranges over pairs of states.", "anchors": ["src/blockchaintree.rs: summarize"]}
{"id": "C51", "title": "Epoch rotation keeps a copy of the closing balances", "statement": "Emitting a summarize block makes the old amount and gas databases equal to the current ones as of that block, leaves every account but the root one unchanged in the current databases, and sets the root account to COINS_PER_CYCLE.", "quantifier": "every reachable state at an epoch boundary", "why_tests_cant": "Needs a million blocks to reach in a test.", "anchors": ["src/blockchaintree.rs: rotate_dbs, emmit_new_main_block", "src/tools.rs: copy_dir_all"]}
{"id": "C52", "title": "copy_dir_all copies a directory tree", "statement": "Copying into an absent or empty destination yields a tree equal to the source; into a non-empty one it overwrites files with source files and keeps everything else.", "quantifier": "every directory tree of any depth and every enumeration order", "why_tests_cant": "Unbounded trees.", "anchors": ["src/tools.rs: copy_dir_all"]}
{"id": "C53", "title": "The pool holds each transaction once and counts correctly", "statement": "Over any sequence of push and pop, push returns true iff no transaction with that hash is currently pooled, transaction_exists and len agree with the pooled transactions, and iteration yields exactly them.", "quantifier": "every sequence of pushes and pops", "why_tests_cant": "Unbounded sequences; two data structures must stay in step.", "anchors": ["src/txpool.rs: TxPool"]}
{"id": "C54", "title": "The pool releases transactions oldest first", "statement": "pop returns a pooled transaction with the least timestamp, ties broken by the hash read as four native 64-bit words, and removes exactly it; draining a pool yields a sorted permutation of its content.", "quantifier": "every reachable pool", "why_tests_cant": "Unbounded pools; heap order depends on the whole history.", "anchors": ["src/txpool.rs: pop", "src/transaction.rs: Ord for TransactionableItem"]}
{"id": "C55", "title": "Transaction ordering is a lawful total order", "statement": "Ord::cmp on transactions is reflexive, antisymmetric, transitive and total, and returns Equal exactly when == holds.", "quantifier": "every pair and triple of transactions", "why_tests_cant": "Laws over triples.", "anchors": ["src/transaction.rs: Ord, PartialEq for TransactionableItem"]}
{"id": "C56", "title": "Flush and reopen preserves the main chain", "statement": "After flush, closing and reopening, get_height and all block and transaction lookups answer as before.", "quantifier": "every reachable main chain", "why_tests_cant": "All histories.", "anchors": ["src/chain.rs: MainChain::new, flush, dump_config"]}
{"id": "C57", "title": "Flush and reopen preserves balances", "statement": "After flush and reopen get_amount and get_gas answer as before for every address.", "quantifier": "every reachable tree", "why_tests_cant": "Fails only for chains still at genesis.", "anchors": ["src/blockchaintree.rs: BlockChainTree::new, flush"]}
{"id": "C58", "title": "Flush and reopen preserves derivative chains", "statement": "After BlockChainTree::flush and reopen every derivative chain has the same height, genesis hash and blocks.", "quantifier": "every reachable tree and owner", "why_tests_cant": "Needs persistence histories.", "anchors": ["src/blockchaintree.rs: flush, get_derivative_chain", "src/chain.rs: DerivativeChain::new, flush"]}
{"id": "C59", "title": "A crash never loses flushed blocks", "statement": "If flush completed (and its file writes reached the disk), then after any later operations and a crash at any point before the next flush the chain reopens with at least the flushed height's blocks readable unchanged.", "quantifier": "every history, every crash point, every choice of surviving unflushed writes", "why_tests_cant": "Crash points and surviving write subsets cannot be enumerated by tests.", "anchors": ["src/chain.rs: MainChain::new, flush, add_block"]}
{"id": "C60", "title": "A crash during flush leaves an openable, readable chain", "statement": "For every crash point inside flush, reopening succeeds and the last block is readable.", "quantifier": "every crash point", "why_tests_cant": "Crash inside a system-call sequence.", "anchors": ["src/chain.rs: dump_config, flush, MainChain::new"]}
{"id": "C61", "title": "Lookup by hash stays correct after a crash", "statement": "After a crash and reopen, find_raw_by_hash(h) returns a block with hash h or None.", "quantifier": "every history with crashes", "why_tests_cant": "Needs crash then divergent extension.", "anchors": ["src/chain.rs: find_raw_by_hash, add_block, MainChain::new"]}
{"id": "C62", "title": "Concurrent ledger calls are linearizable", "statement": "For every interleaving of concurrent add_amount, sub_amount, set_amount, send_amount calls the outcome equals that of some sequential order.", "quantifier": "every number of threads, every schedule", "why_tests_cant": "Schedules.", "anchors": ["src/blockchaintree.rs: sled transactions"]}
{"id": "C63", "title": "Concurrent SummaryDB updates are not lost", "statement": "For every interleaving of add_funds and decrease_funds on one address, the final balance is the initial one plus the additions minus the successful decreases.", "quantifier": "every schedule", "why_tests_cant": "Race window.", "anchors": ["src/summary_db.rs: add_funds, decrease_funds"]}
{"id": "C64", "title": "Concurrent send_transaction calls conserve funds and charge gas", "statement": "For every interleaving of send_transaction calls the total of balances is unchanged, no account goes negative and each completed transfer has paid its gas.", "quantifier": "every number of threads, every schedule", "why_tests_cant": "Race window between check and update.", "anchors": ["src/blockchaintree.rs: send_transaction"]}
{"id": "C65", "title": "Concurrent add_block calls keep the chain contiguous", "statement": "For every interleaving of add_block calls and reads from clones of a chain, each height is assigned to exactly one accepted block, accepted blocks occupy consecutive heights, and get_last_raw_block returns a block that was last at some moment during the call.", "quantifier": "every number of threads, every schedule", "why_tests_cant": "Schedules.", "anchors": ["src/chain.rs: MainChain (Arc<RwLock<U256>>)"]}
{"id": "C66", "title": "SummaryDB sequential semantics", "statement": "Sequentially, add_funds adds, decrease_funds subtracts or fails without effect, get_funds reports the balance, and other addresses are untouched.", "quantifier": "every history of calls", "why_tests_cant": "Unbounded histories.", "anchors": ["src/summary_db.rs: SummaryDB"]}
{"id": "C67", "title": "Dump header codes round-trip", "statement": "Headers::from_u8(h as u8) returns h for every header, and every other code is rejected.", "quantifier": "every header and every byte", "why_tests_cant": "Finite but includes GenesisBlock = 5, which no test covers.", "anchors": ["src/dump_headers.rs: Headers"]}
{"id": "C68", "title": "Balances after a crash are those of one moment", "statement": "After a crash and reopen the amounts of all accounts are exactly those between two calls since the last flush (root account apart when only genesis is stored), and likewise the gas.", "quantifier": "every history of calls since a flush, every choice of surviving writes", "why_tests_cant": "Needs every prefix of unflushed writes; half-written transfers only show after a crash.", "anchors": ["src/blockchaintree.rs: send_amount, send_gas, flush, new"]}
{"id": "C69", "title": "A crash does not separate a transfer from its gas charge", "statement": "After send_transaction returned and a crash, either both the transfer and the gas charge are recovered or neither is.", "quantifier": "every accepted transaction, every choice of surviving writes", "why_tests_cant": "Needs independent loss in two databases.", "anchors": ["src/blockchaintree.rs: send_transaction"]}
{"id": "C70", "title": "Release order depends only on the pool's content", "statement": "Two pools holding the same transactions release them in the same order, whatever pushes and pops led there.", "quantifier": "every two histories of pushes and pops with the same content", "why_tests_cant": "Pairs of unbounded histories; heap layout depends on history.", "anchors": ["src/txpool.rs: TxPool", "src/transaction.rs: Ord for TransactionableItem"]}
{"id": "C71", "title": "Release order does not depend on the machine", "statement": "Nodes on machines of different byte order release the same pooled transactions in the same order.", "quantifier": "every pool", "why_tests_cant": "Needs machines of both byte orders.", "anchors": ["src/transaction.rs: Ord for TransactionableItem"]}
{"id": "C72", "title": "Rotation makes the old databases copies of the current ones", "statement": "Rotating leaves the current summary and gas directories alone and leaves each old directory with exactly the content of the current one, whatever it held before.", "quantifier": "every directory tree", "why_tests_cant": "Unbounded trees; stale files of an earlier epoch must be gone.", "anchors": ["src/blockchaintree.rs: rotate_dbs", "src/tools.rs: copy_dir_all"]}
{"id": "C73", "title": "Rotation is atomic with respect to crashes", "statement": "A crash during rotation leaves the old databases either as before or as after.", "quantifier": "every directory tree and crash point", "why_tests_cant": "Needs a crash between removal and copy.", "anchors": ["src/blockchaintree.rs: rotate_dbs"]}
{"id": "C74", "title": "A completed SummaryDB update survives crashes", "statement": "When add_funds or decrease_funds returned success, no later crash loses the update.", "quantifier": "every history of calls, every choice of surviving writes", "why_tests_cant": "Needs crashes.", "anchors": ["src/summary_db.rs: add_funds, decrease_funds"]}
{"id": "C75", "title": "Reads concurrent with add_block are linearizable", "statement": "find_raw_by_height, find_raw_by_hash and get_last_raw_block running concurrently with add_block return what some sequential order of the calls, compatible with which call returned before which started, would give.", "quantifier": "every number of threads, every schedule", "why_tests_cant": "Needs a read in the window between the two database writes.", "anchors": ["src/chain.rs: add_block, find_raw_by_height, find_raw_by_hash"]}
{"id": "C76", "title": "No schedule deadlocks", "statement": "From every point of every execution of concurrent calls, all calls can be brought to their end; a waiting call only waits for an add_block that can proceed.", "quantifier": "every number of threads, every schedule", "why_tests_cant": "Schedules.", "anchors": ["src/chain.rs: MainChain height lock", "src/blockchaintree.rs: send_transaction"]}
{"id": "C77", "title": "A flush saves everything that was there when it was called", "statement": "When flush returns, every block and transaction that the chain contained when it was called is found again after a restart or crash, whatever other calls, flushes included, run at the same time.", "quantifier": "every number of threads, every schedule, every crash point after the return", "why_tests_cant": "Needs two flushes racing on one file.", "anchors": ["src/chain.rs: MainChain::flush, dump_config"]}
{"id": "C78", "title": "Emission succeeds exactly when the work is valid", "statement": "A main-chain emission returns a block exactly when the proof of work is valid for the last block and the given transactions, the timestamp is not before the last block's (where subtractions are checked) and transactions are given exactly outside epoch ends; in every other case it returns the error that names the reason.", "quantifier": "every history of calls and restarts with main-chain blocks made by emission, every argument, both build profiles", "why_tests_cant": "The completeness direction is about every possible proof of work and every reachable difficulty.", "anchors": ["src/blockchaintree.rs: emmit_new_main_block", "src/tools.rs: check_pow, recalculate_difficulty"]}
{"id": "C79", "title": "Derivative emission succeeds exactly when the work is valid", "statement": "A derivative emission returns a block exactly when the proof of work is valid for the last block of the owner's chain (or the pinned main-chain block) and the timestamp is not before it; a wrong proof of work is reported as such; no other error occurs.", "quantifier": "every history of calls and restarts with blocks made by emission, every owner, every argument, both build profiles", "why_tests_cant": "Includes chains reopened from disk at every height and every reachable difficulty.", "anchors": ["src/blockchaintree.rs: emmit_new_derivative_block, get_derivative_chain"]}
{"id": "C80", "title": "No call reaches undefined behaviour", "statement": "No public call on a tree performs an out-of-bounds unchecked access, whatever calls were made before.", "quantifier": "every history of calls and restarts, every argument, both build profiles", "why_tests_cant": "The unsafe accesses are in bounds only because of an invariant over the whole history.", "anchors": ["src/tools.rs: recalculate_difficulty", "src/merkletree.rs: build_tree", "src/blockchaintree.rs"]}
{"id": "C81", "title": "Panics happen exactly in the listed cases", "statement": "A call panics exactly when it overdraws or overflows a balance or, with checked subtractions, when a block with valid work has a timestamp before its predecessor's.", "quantifier": "every history of calls and restarts with blocks made by emission, every call, both build profiles", "why_tests_cant": "Both directions over every state.", "anchors": ["src/blockchaintree.rs", "src/chain.rs"]}
{"id": "C82", "title": "Total supply", "statement": "Coins are only created at epoch ends: the amounts of all accounts add up to one cycle amount until the first epoch ends, each epoch end raises the total by at most one cycle amount and never lowers it below one, and no other call or restart changes it (direct amount changes through add_amount, sub_amount and set_amount excepted).", "quantifier": "every history of calls and restarts, every set of accounts", "why_tests_cant": "Sums over all accounts across unbounded histories; the failing case needs a restart in a particular state.", "anchors": ["src/blockchaintree.rs: send_amount, send_transaction, emmit_new_main_block, rotate_dbs, new"]}
{"id": "C83", "title": "Flushes are invisible", "statement": "Flushing the tree, the main chain or a derivative chain at any point changes no result of any other call and no answer to any question.", "quantifier": "every tree, every sequence of calls, every placement of flushes", "why_tests_cant": "Quantifies over all placements in all call sequences.", "anchors": ["src/blockchaintree.rs: flush", "src/chain.rs: MainChain::flush, DerivativeChain::flush"]}
{"id": "C84", "title": "Clean restarts are invisible", "statement": "Flushing, closing and opening the tree at any point changes no result of any later call and no answer to any question.", "quantifier": "every history of calls, every placement of restarts, flushes and derivative calls among them", "why_tests_cant": "Quantifies over all placements in all call sequences.", "anchors": ["src/blockchaintree.rs: new, flush", "src/chain.rs: MainChain::new, DerivativeChain::new"]}
{"id": "C85", "title": "Flushed transactions and lookups survive a crash", "statement": "After a flush, every crash before the next flush keeps every stored transaction and every block lookup by hash; and whatever survives a crash, a transaction found afterwards has the hash it is found under and was stored before.", "quantifier": "every history, every crash point, every choice of surviving writes", "why_tests_cant": "Crash points and surviving writes are chosen by the environment; no test can cut the power between two writes.", "anchors": ["src/chain.rs: MainChain::flush, get_transaction_raw, find_raw_by_hash", "src/blockchaintree.rs: flush, new"]}
{"id": "C86", "title": "A flushed derivative chain survives crashes", "statement": "After a derivative chain was flushed through its handle, every crash before its next flush leaves a chain that opens at the flushed height with the same genesis hash, blocks and last block.", "quantifier": "every history, every later calls, every crash point, every choice of surviving writes", "why_tests_cant": "Crash points and surviving writes are chosen by the environment.", "anchors": ["src/chain.rs: DerivativeChain::flush, DerivativeChain::new", "src/blockchaintree.rs: get_derivative_chain"]}
{"id": "C87", "title": "Derivative chains stay attached to the main chain across crashes", "statement": "After a crash, a derivative chain found on disk names a genesis block that the main chain has, so that the first block can be emitted on it.", "quantifier": "every history, every order of flushes, every crash point, every choice of surviving writes", "why_tests_cant": "The failing case needs a crash between the flush of one database and that of another.", "anchors": ["src/chain.rs: DerivativeChain::flush, MainChain::flush", "src/blockchaintree.rs: emmit_new_derivative_block, get_derivative_chain"]}
{"id": "C88", "title": "Flushed blocks are never lost, over any number of crashes", "statement": "Once the main chain was flushed and the config write has reached the disk, every block it had is found under its height, with the same bytes, in every later state, whatever calls, flushes, restarts and crashes happen in between and whatever part of the unflushed writes each crash keeps.", "quantifier": "all histories with any number of crashes, each at any point except the config-before-blocks window of a flush, all survivors, all continuations", "why_tests_cant": "A test crashes once, at a point its author picked, on a real file system that rarely loses anything; the statement is about repeated crashes and all combinations of surviving writes.", "anchors": ["src/chain.rs:62-145", "src/chain.rs:148-200", "src/chain.rs:285-340", "src/blockchaintree.rs:516-543"]}
{"id": "C89", "title": "Crashes only truncate the main chain", "statement": "After any history with any number of crashes the main chain is the genesis block followed by linked blocks, all readable; each crash leaves a non-empty initial part of the chain or a directory that does not open. Between the config write and the block flush inside a flush this fails, and a block cut off by a crash can still be found at the index equal to the height.", "quantifier": "all histories with any number of crashes, all survivors", "why_tests_cant": "The links after several crashes depend on which writes survived each of them; tests do not produce partial survival.", "anchors": ["src/chain.rs:62-145", "src/chain.rs:148-200", "src/chain.rs:319-340", "src/blockchaintree.rs:415-482"]}
{"id": "C90", "title": "Derivative chains after any number of crashes", "statement": "After any history with any number of crashes every derivative chain that opens is a row of readable, linked blocks of its owner; blocks flushed through the handle, and the genesis hash, are never lost. Between the config write and the block flush inside a flush of the chain this fails: the chain can be left with a height but no last block, and every later emission on it is refused.", "quantifier": "all histories with any number of crashes, all owners, all survivors", "why_tests_cant": "Needs repeated crashes with partial survival per chain; the failing window is between two lines of one function.", "anchors": ["src/chain.rs:451-519", "src/chain.rs:527-614", "src/blockchaintree.rs:369-413"]}
{"id": "C91", "title": "The example miner never panics and its earnings are exact", "statement": "Starting from an empty directory and for any sequence of searches and restarts of examples/mine.rs with a clock that does not go back, no unwrap of the miner fails and no arithmetic overflows: each round finds nothing and leaves the tree unchanged or adds exactly one block, which carries the first nonce that gives enough work; it finds nothing only if no nonce it may try does. After k blocks the main chain has k+1 linked blocks, the miner holds exactly k payments plus the fees that follow from the difficulties of the predecessors, the root account lacks exactly the payments since it was last refilled, and every other account is empty. False when the clock goes back (panic in builds with overflow checks), and the fee credited need not be the fee the block carries.", "quantifier": "every wallet, transaction hash, nonce, number of tries, sequence of timestamps, number of blocks below 2^64 (so across all epoch rotations) and of restarts, both build profiles", "why_tests_cant": "the examples are never run by the tests, the first rotation happens at block 1000000, and the exact balance after many epochs with restarts cannot be reached by running the program", "anchors": ["examples/mine.rs:1-85", "src/blockchaintree.rs:415-543", "src/blockchaintree.rs:190-230", "src/tools.rs:88-107"]}
{"id": "C92", "title": "The example miner of derivative chains never panics and its gas is exact", "statement": "Starting from an empty directory and for any sequence of searches and restarts of examples/mine_derivative.rs with a clock that does not go back, no unwrap fails; a search makes a block exactly when some nonce it may try gives enough work, with the first such nonce. After k blocks the chain of the wallet has k linked blocks, all of that wallet, readable by height; the wallet has exactly k payments of gas and no other account has gas; the main chain still has only its first block and no coin has moved.", "quantifier": "every wallet, nonce, number of tries, sequence of timestamps, number of blocks and restarts below 2^64, both build profiles", "why_tests_cant": "the examples are never run by the tests, and restarts between the flush of the chain and of the tree at arbitrary heights are not explored by them", "anchors": ["examples/mine_derivative.rs:1-80", "src/blockchaintree.rs:369-413", "src/chain.rs:456-614"]}
{"id": "C93", "title": "Emission is atomic next to chain handles", "statement": "get_main_chain returns a clone sharing databases and height lock, so blocks can be added, read and flushed while an emission runs. In every interleaving: an emission that returns a block did so as the sequential emission would on the tree of one moment of its run, the block follows the one found below it, and the balances are those of the sequential emission; an emission that is refused has added no block and changed no balance; the chain consists of the blocks present before and of exactly one block per successful call.", "quantifier": "every reachable tree, any number of emissions and handle calls (add_block of any block, lookups, add_transactions, flush), every schedule, both build profiles", "why_tests_cant": "tests never hold a chain handle while emitting; the failing schedule needs an epoch boundary (a million blocks) and a block added between two steps", "anchors": ["src/blockchaintree.rs:103-105", "src/blockchaintree.rs:415-482", "src/blockchaintree.rs:545-600", "src/chain.rs:283-317"]}
{"id": "C94", "title": "Dropped calls", "statement": "Dropping the future of an async call at any await point (flush of tree or chain, emission of a summarize block) is as good as never making the call: every other call returns the same, every question has the same answer, the call can be made again with the same outcome, no block is added and no balance changes; and after closing, the directory opens with the same main chain, balances and derivative chains.", "quantifier": "every tree, every history of calls made and calls dropped, every await point, both build profiles", "why_tests_cant": "tests await every future to its end; a timeout or select around flush is the normal way to drop one", "anchors": ["src/chain.rs:148-201", "src/chain.rs:527-575", "src/blockchaintree.rs:415-482", "src/blockchaintree.rs:516-546"]}
{"id": "C95", "title": "Handles of a derivative chain are linearizable, and overlapping flushes still leave an openable directory", "statement": "get_derivative_chain hands out clones that share databases and height lock, so blocks can be added, read and flushed through them while an emission for the owner runs. Under every interleaving each call returns what the whole call would return at some moment before it returns, except that an emission whose height was taken meanwhile fails with the chain's error, and except for a look-up by hash when two headers with equal hashes are exhibited; accepted headers get consecutive heights; no call is blocked for ever; after any set of overlapping flushes the directory reopens as the same chain at a height between the first and the last one. The height of a flush that has returned need not be kept when another flush overlaps it.", "quantifier": "all schedules of any number of additions, look-ups, flushes and emissions on one derivative chain, every state of the chain that a reachable tree can have", "why_tests_cant": "interleavings of handle calls with an emission are not controllable from tests", "anchors": ["src/blockchaintree.rs:85-101", "src/blockchaintree.rs:369-413", "src/chain.rs:439-448", "src/chain.rs:527-695"]}
{"id": "C96", "title": "Parsers accept exactly the laid-out byte strings", "statement": "tx_parse, DerivativeBlock::parse and deserialize_main_chain_block accept a byte string exactly when it has the layout of the value they return, with every 256-bit number in some length-prefixed code of at most 32 bytes; a transaction's dump is the shortest byte string read as it and equal lengths mean equal bytes, so that it has one encoding per admissible length of its amount; trailing bytes after summarize and derivative blocks are ignored. Encodings are not canonical, and a transaction block whose height is padded with a zero is read with another fee and other transactions than it was laid out with.", "quantifier": "all byte strings, all transactions and blocks", "why_tests_cant": "the set of accepted inputs is infinite; a test can only show that some inputs are accepted or refused", "anchors": ["src/transaction.rs:303-351", "src/block.rs:85-128", "src/block.rs:191-228", "src/block.rs:336-350", "src/block.rs:437-460", "src/block.rs:568-591", "src/tools.rs:58-92"]}
{"id": "C97", "title": "Calls that succeed although I/O operations fail", "statement": "Whatever database, directory and file operations fail, and whatever state earlier failures left, a call that returns success has returned what it returns when nothing fails and has left a tree that nobody can tell from the one it leaves then; opening a directory returns the tree it returns when nothing fails, or no tree.", "quantifier": "every call, every tree, every set of failing operations, each with or without its effect (file writes: any prefix), both build profiles", "why_tests_cant": "tests cannot make single operations of sled, tokio or the file system fail at a chosen point", "anchors": ["src/chain.rs:62-146", "src/chain.rs:148-201", "src/chain.rs:451-518", "src/blockchaintree.rs:33-101", "src/blockchaintree.rs:326-546"]}
{"id": "C98", "title": "The main chain survives failing I/O", "statement": "In every history of calls during which I/O operations fail, with restarts anywhere, the main chain holds well-formed blocks beginning with the first one, each found by its height and its hash; every call leaves it unchanged or adds one block, the one it returns, which follows the last one, or the one it was given; closing and opening at any point gives no tree or an initial part of the blocks; and nothing else is found in the chain.", "quantifier": "all histories of calls with failures and restarts, every call, every set of failing operations", "why_tests_cant": "the histories and failure points are unbounded, and failures cannot be provoked from tests", "anchors": ["src/chain.rs:285-316", "src/chain.rs:148-201", "src/chain.rs:318-413", "src/blockchaintree.rs:326-334", "src/blockchaintree.rs:415-482"]}
{"id": "C99", "title": "Calls can be made again after a failure", "statement": "A call that failed because I/O operations failed can be made again, any number of times, and when it succeeds it has returned and left what it returns and leaves when nothing fails.", "quantifier": "all histories with failures, every call, any number of failing attempts", "why_tests_cant": "needs every failure point of every attempt; tests cannot inject them", "anchors": ["src/blockchaintree.rs:103-324", "src/blockchaintree.rs:326-334", "src/blockchaintree.rs:369-546", "src/chain.rs:203-239", "src/chain.rs:285-316", "src/chain.rs:582-614"]}
{"id": "C100", "title": "Balances survive failing I/O", "statement": "In every history of calls during which I/O operations fail, every account has an amount and gas, every change a call makes to a balance is made as a whole or not at all and has been made when it returns success, no coins are created or destroyed, and a call that failed has changed no balance or made all its changes.", "quantifier": "all histories of calls with failures and restarts, all accounts", "why_tests_cant": "a failure between the two ledger updates of a transaction cannot be provoked from tests", "anchors": ["src/blockchaintree.rs:103-324", "src/blockchaintree.rs:484-514"]}
{"id": "C101", "title": "Flushing with failing I/O", "statement": "Flushes are invisible even when they fail; a flush that returns success has done what a flush does when nothing fails; and a flush during which nothing fails makes up for all earlier failures: after it the directory, closed or left by a crash once the config file is written, opens with all blocks, transactions and balances.", "quantifier": "all histories of calls with failures, every set of failing operations during the flush, every crash", "why_tests_cant": "the failing write is made in the background by tokio and its error is dropped with the file handle", "anchors": ["src/chain.rs:148-169", "src/chain.rs:527-575", "src/blockchaintree.rs:516-546"]}
{"id": "C102", "title": "Closing an epoch with failing I/O", "statement": "An emission at the end of an epoch that fails because I/O operations fail can be made again, and then closes the epoch with the closing balances: same block, same root, same old balances as without the failure.", "quantifier": "all histories of calls with failures, every failing operation of rotate_dbs and of the emission around it, all later calls", "why_tests_cant": "an epoch ends after a million blocks, and the failing directory operation cannot be provoked from tests", "anchors": ["src/blockchaintree.rs:336-367", "src/blockchaintree.rs:415-482", "src/blockchaintree.rs:545-600"]}
{"id": "C103", "title": "Opening again after openings that failed", "statement": "A directory whose opening failed because I/O operations failed, any number of times, can be opened afterwards as if it had never been tried: the tree answers every question and every further call alike and leaves the same on disk when closed.", "quantifier": "every directory contents, any number of failed openings, every set of failing operations, each with or without its effect", "why_tests_cant": "an opening that fails between its writes cannot be provoked from tests, and the contents of the directory are unbounded", "anchors": ["src/blockchaintree.rs:33-83", "src/chain.rs:62-146"]}
{"id": "C104", "title": "Comparing blocks", "statement": "The comparison of blocks is a total order, agreeing between ==, cmp and partial_cmp; two blocks of the main chain are == only when they are the same block, and the order of blocks is the order of their heights. (True: the laws of the order; a Debug chain made by emissions is sorted by height, and sorting any rearrangement of it restores its sequence of timestamps, and the chain itself when timestamps differ. False: an emission with the timestamp of the tip gives a different block that is == to its parent; in a Release build a block can be smaller than its parent.)", "quantifier": "all blocks; all reachable trees with blocks made by emissions", "why_tests_cant": "A test compares a few blocks with timestamps chosen by hand; the order of a chain is a statement over every history of emissions and every rearrangement.", "anchors": ["src/block.rs:595-613"]}
{"id": "C105", "title": "Following another node", "statement": "A node that is sent the dumps of another node's main-chain blocks, in any order and any number of times, and calls add_new_block with each, ends with the same chain; two nodes with the same chain give the same answers, emit the same blocks from the same arguments, and hold the same balances if they did before. (True: its chain is always a beginning of the sender's, each dump being added exactly when it is next; it is the sender's chain once the missing dumps came in order; answers agree up to SHA-256 collisions; emissions agree unless an epoch is closed. False: with equal balances the summarize blocks can differ, since an account emptied again is still summarized; a received summarize block does not refill the root account.)", "quantifier": "all reachable pairs of trees one of which is behind the other, all lists of dumps of the first, all emissions", "why_tests_cant": "A test replays one chain between two instances; the orders and repetitions of deliveries, the histories of both nodes and the places of an epoch boundary are unbounded.", "anchors": ["src/blockchaintree.rs:326-334", "src/block.rs:568-592", "src/blockchaintree.rs:336-367", "src/blockchaintree.rs:415-482", "src/chain.rs:285-316"]}
{"id": "C106", "title": "The example programs on one directory", "statement": "Running examples/mine.rs, examples/mine_derivative.rs and examples/send_transaction.rs with one wallet on one directory, in any order and with restarts, the miners never panic and the directory can always be opened again once a block was made; the sender panics exactly when the wallet lacks the gas of 141 bytes or lacks 228 coins and the fee, and then leaves the tree as it was; otherwise its transaction is stored, readable, and the block it mines holds exactly that transaction's hash. All balances are exact: the wallet holds its payments and fees less 228 per transaction, the root account its last filling less the payments plus the 228s since, the wallet's gas is that of its derivative blocks less that of its transactions, nobody else has anything, and both chains are linked. (The fee the miner is credited is taken from nobody.)", "quantifier": "every wallet other than the root account, key and signing oracle giving 64-byte signatures, order and number of runs below 2^64, tries, nonces, non-decreasing timestamps, restarts, both build profiles", "why_tests_cant": "the examples are not run by the tests; the order of the programs, the state of the derivative chain (never opened, open, closed on disk) and the place of an epoch boundary multiply without bound", "anchors": ["examples/send_transaction.rs:9-104", "examples/mine.rs:1-85", "examples/mine_derivative.rs:1-95", "src/blockchaintree.rs:484-543", "src/blockchaintree.rs:85-101"]}
{"id": "C107", "title": "Failing operations, killed processes and failing openings together", "statement": "Over any history of a node from an empty directory in which any I/O operation of any call or opening fails, the process is closed or killed at any time (also inside a call or an opening) and any survivors are left on disk, as long as a config file that exists can be opened: the main chain is never empty and everything found at a height is the dump of a block of that height, at height 0 of the first block; what was once flushed with the config on disk is found ever after and the chain is never shorter than then; a closing or crash only shortens the chain and the chain stays linked from the first block on, unless a flush is killed or fails between the config and the blocks: then a block of an abandoned branch can come back into the chain, on a block it does not refer to.", "quantifier": "every sequence of calls with their faults, closings, crashes, survivors, successful, failing and killed openings, from an empty directory; both build profiles", "why_tests_cant": "faults, crash points, survivors and their order combine without bound, and the broken chain needs two crashes and a failing flush in a certain order; nothing in the code reports it", "anchors": ["src/blockchaintree.rs:33-83", "src/chain.rs:62-146", "src/chain.rs:148-209", "src/chain.rs:285-343", "src/blockchaintree.rs:415-482", "src/blockchaintree.rs:516-600"]}
{"id": "C108", "title": "Compressed files are read back or refused", "statement": "For every data and every way the encoder splits its output into writes, decompress_from_file after a successful compress_to_file returns the data; whatever file operations fail, success is reported only when the whole encoding is in the file; and after any failure or crash the file gives the new data, an earlier content, or an error, provided the codec refuses encodings that were cut. A failed compression keeps the earlier file readable: false, the file is emptied before anything is written.", "quantifier": "all data, codecs, splits into writes, fault lists, earlier file contents and crash points", "why_tests_cant": "Which write fails, how much of it reaches the disk and where the machine stops cannot be enumerated by tests, and the repository has no test of these two functions.", "anchors": ["src/tools.rs:148-166", "src/tools.rs:168-187"]}
{"id": "C109", "title": "Derivative chains survive failing operations, kills and failing openings", "statement": "Through any history of calls with failing I/O operations, closings, crashes and openings that succeed, fail or are killed: everything found in a derivative chain is a readable block of that height given to the node or made by it, of the owner's when only emission is used; a block flushed through the handle with the config on disk is found ever after, the chain is never shorter and keeps its genesis hash, as long as the config file can be opened; with emission only the chain is always a row of linked blocks. A config file that cannot be opened once is harmless: false, the chain counts as empty, its first block is overwritten, and after the next restart the chain is broken. A flush killed between the config and the blocks is harmless: false, the chain has a height and no block.", "quantifier": "all histories of calls, faults, closings, crashes with whatever survives, and openings; all owners, profiles and states", "why_tests_cant": "The combinations of failing operations over several processes, with what a crash keeps of each database and file, cannot be enumerated by tests; the repository's tests have no failing operation at all.", "anchors": ["src/chain.rs:451-518", "src/chain.rs:527-575", "src/chain.rs:582-614", "src/blockchaintree.rs:85-101", "src/blockchaintree.rs:369-413"]}
{"id": "C110", "title": "Balances through failing operations, kills and failing openings", "statement": "Through any history of calls with failing I/O operations, closings, crashes and openings that succeed, fail or are killed: every account's amount and gas can be read and is a 256-bit number, and every call makes each change of a balance as a whole or not at all. After a flush with the config on disk, a crash at any later point leaves the amounts of all accounts as they were together at one moment since that flush, and so the gas (the root account excepted while the chain is one block long). From then on, with two blocks flushed, calls that only move coins leave the total supply as it is through all failures and restarts. Without the flush: false, an unflushed config makes the next opening give the root account back what it has paid.", "quantifier": "all histories of calls, faults, closings, crashes with whatever survives, and openings; all accounts, amounts, profiles and states", "why_tests_cant": "A statement about all accounts at once, over several processes and all combinations of what fails and what a crash keeps; no finite set of runs shows that coins are never created.", "anchors": ["src/blockchaintree.rs:107-148", "src/blockchaintree.rs:150-229", "src/blockchaintree.rs:232-323", "src/blockchaintree.rs:33-83", "src/blockchaintree.rs:487-516"]}
{"id": "C111", "title": "The code is an abstract node", "statement": "For every sequence of public calls and careful restarts from an empty directory, every call returns exactly what a small abstract machine returns (success with the same block or chain, the same error, or a panic), and afterwards every query - blocks by height and by hash, the last block, transactions, amounts, gas, the balances of the last epoch, the summary root, derivative chains and everything in them - is answered from the state of that machine. The machine has lists of blocks and transactions, accounts with numbers and chains by owner, and no databases, files, encodings, caches or handles.", "quantifier": "all sequences of calls (fewer than 2^256-2) with well-formed arguments and restarts between them; both build profiles", "why_tests_cant": "A statement about all sequences of calls and all queries at once; tests compare single answers after a few fixed calls.", "anchors": ["src/blockchaintree.rs:33-600", "src/chain.rs:62-419", "src/chain.rs:451-667", "src/block.rs:38-134", "src/merkletree.rs:17-72", "src/tools.rs:219-250"]}
{"id": "C112", "title": "Checked and unchecked builds agree", "statement": "On every tree, each call has the same effect and result in a build with overflow checks and in one without, unless it is an emission that panics in the checked build; so whole histories without such a panic go the same way. Validation gives the same verdict or panics in the checked build. That the builds always agree is false: with a clock that went back the unchecked build makes a block and finds it valid, and the checked build panics on making it and on validating it.", "quantifier": "all trees, calls, histories with restarts, blocks and predecessors", "why_tests_cant": "Tests run in one build profile only, and the difference shows only for timestamps that go back.", "anchors": ["src/tools.rs:219-245", "src/blockchaintree.rs:369-413", "src/blockchaintree.rs:415-482", "src/block.rs:292-330", "src/block.rs:382-425", "src/block.rs:518-560"]}
{"id": "C113", "title": "Failed calls leave no trace", "statement": "In any history of calls and careful restarts, a call that failed, a flush, or asking again for a derivative chain can be left out: every later call returns the same, and afterwards no query (blocks, transactions, balances, summary root, derivative chains) tells the two trees apart. For transactions that panic and for failing emissions into a derivative chain that nobody asked for before, it is false: a transaction whose transfer panics stays stored although nothing was moved, and a refused derivative block ties the owner's chain to the main block that was last at the time.", "quantifier": "all histories, all calls in them, both build profiles", "why_tests_cant": "Two runs have to be compared for every possible continuation and every query; tests look at single values after single failures.", "anchors": ["src/blockchaintree.rs:85-101", "src/blockchaintree.rs:369-413", "src/blockchaintree.rs:415-482", "src/blockchaintree.rs:484-514", "src/chain.rs:148-209", "src/chain.rs:582-614"]}
{"id": "C114", "title": "Calls on different parts of a node commute", "statement": "In any history, two neighbouring calls neither of which changes an account, chain or stored transaction that the other one changes or depends on can be swapped: both return the same as before, all other calls return the same, and afterwards no query tells the two trees apart.", "quantifier": "all histories, all pairs of neighbouring unrelated calls, both build profiles", "why_tests_cant": "Pairs of histories with every continuation and every query; tests run calls in one order only.", "anchors": ["src/blockchaintree.rs:85-600", "src/chain.rs:148-278", "src/chain.rs:582-614"]}
{"id": "C115", "title": "Killed while calls run at the same time", "statement": "A process flushes and is then killed while several threads are inside calls on one shared tree. If the directory opens again, the amounts of all accounts are those of one single moment of that execution, and so is the gas; if the calls only move funds, the surviving amounts are the old ones with some of the transfers made as a whole, and totals are unchanged. Without further flushes the directory always opens at the flushed height, with every flushed block and transaction.", "quantifier": "All reachable trees, all numbers and kinds of concurrent calls, all schedules, all moments of the kill, all parts of the unflushed writes that may survive.", "why_tests_cant": "Requires every schedule combined with every kill point and every surviving prefix of the writes; tests cannot kill a process between two chosen writes of two threads.", "anchors": ["src/blockchaintree.rs:107-324", "src/blockchaintree.rs:484-514", "src/chain.rs:179-201", "src/chain.rs:283-317"]}
{"id": "C116", "title": "Parts of a node are independent of the calls that do not concern them", "statement": "Choose any parts of a node (amounts, gas, the main chain, transactions, derivative chains). If every call of a history is either confined to these parts or changes none of them, then leaving out the calls of the second sort changes neither the results of the others nor any answer about these parts, across restarts.", "quantifier": "All sets of parts, all histories of calls and restarts of any length, both build profiles.", "why_tests_cant": "A statement about pairs of arbitrary histories of different lengths; a test compares two chosen ones.", "anchors": ["src/blockchaintree.rs:85-600", "src/chain.rs:148-278", "src/chain.rs:582-614"]}
{"id": "C117", "title": "Difficulty and fees follow the clock alone", "statement": "On a main chain grown by emission the target of every block is a function of the timestamps of the blocks up to it, and the fee is 62500 times its leading zero bits, whoever made the blocks and with whatever contents; two nodes, of whatever builds, with the same timestamps have the same difficulties and fees. A quick block asks for more bits, a slow one for fewer; the block at height i asks for between 1 and i+1 bits; a chain whose blocks are stamped at least 600 seconds apart stays at one bit. Derivative chains likewise follow their timestamps and that of the main block they are attached to.", "quantifier": "All reachable trees, all chains of any length, pairs of trees with different histories and builds.", "why_tests_cant": "Compares arbitrary chains with equal timestamps; reaching the bounds in a test would take hundreds of blocks with real work.", "anchors": ["src/tools.rs:219-250", "src/blockchaintree.rs:332-478", "src/block.rs:85-172"]}
{"id": "C118", "title": "SummaryDB updates count wholly or not at all, through failures, dropped calls and kills", "statement": "Through any history of SummaryDB updates whose database operations fail at any points, updates whose futures are dropped, flushes and killed processes, each update counts wholly or not at all: from the last moment at which everything was written out, every balance is the balance then plus what the counting additions put on it minus what the counting decreases took. An update answered with success counts, whatever happens later; an update whose operations all worked and which was answered with an error does not. No call runs into undefined behaviour, and a call on a text address panics only when a balance would exceed 256 bits. It should also be safe to repeat an update that was dropped or answered with an error.", "quantifier": "Every history of updates, drops, flushes and kills, every pattern of failing operations, every number of commits that survive a kill.", "why_tests_cant": "Needs every interleaving of operation failures and kills; a test would have to make sled fail at a chosen operation.", "anchors": ["src/summary_db.rs:22-52", "src/summary_db.rs:57-117", "src/summary_db.rs:122-206"]}
{"id": "C119", "title": "Every account is the sum of what the answered calls reported", "statement": "After any history of calls and careful restarts the gas of every account is what the successful calls gave it minus what the successful calls and transactions took from it; the same holds of the coins of every account other than the root account that was not overwritten by set_amount. The gas of all accounts together is what was added minus what was subtracted and what transactions were charged: transfers, blocks, epochs and restarts neither make nor destroy gas.", "quantifier": "Every history of calls with any arguments, failing and panicking calls and restarts included, every account, both build profiles.", "why_tests_cant": "The books have to balance for every history; a test checks a few sums.", "anchors": ["src/blockchaintree.rs:107-324", "src/blockchaintree.rs:415-514"]}
{"id": "C120", "title": "What blocks commit to can be proved to others", "statement": "At any moment of any epoch but the first, the block the epoch starts with carries the root that is computed afresh from the balances kept since then in the old databases, whatever was called in between and however often the node was restarted; every account in them has an inclusion proof that the Merkle module makes and its check accepts against the root in the block. During the first epoch the old databases are empty. Every hash in every transaction block that can be found has an accepted inclusion proof against the block's root.", "quantifier": "Every history of calls and restarts in which blocks added by hand stay inside epochs (for the accounts) or carry the root of their hashes (for the transactions), every account, every block, both build profiles.", "why_tests_cant": "An epoch is a million blocks; and the statement has to hold at every later moment, not only right after the boundary.", "anchors": ["src/blockchaintree.rs:336-367", "src/blockchaintree.rs:415-482", "src/blockchaintree.rs:545-600", "src/merkletree.rs:28-149"]}
{"id": "C121", "title": "Senders are points of the curve, and accepted signatures cannot be negated", "statement": "With the documented behaviour of secp256k1 in the place of the oracle: 33 bytes are accepted as a sender exactly if they are the compressed form of a point of y^2 = x^3 + 7, every point has exactly one such form, and the key computed from a secret key is one of them. A transaction that verify accepts has such a sender and a signature of two numbers in range whose second one is the smaller of s and -s and whose first one is the x coordinate of a point of the curve; the same transaction with the second number negated is not accepted. A signature (r, s) of this form is accepted exactly if r is the x coordinate modulo n of a G + b Q, for the digest z, the key Q, the order n of the curve (which is prime) and the a, b below n with a s = z and b s = r modulo n. Signing yields signatures of this form. It computes the signature of SEC 1 with the first usable nonce of RFC 6979. A transaction can be made exactly with the secret keys above 0 and below the order of the curve, and verify refuses to answer exactly if the sender is no such point or a number of the signature is not below that order. The computation doubles and adds points as chords and tangents prescribe. The secret key in static_values.rs belongs to the public key of the root account in the same file.", "quantifier": "Every 33 bytes, every digest and signature, every secret key, all points.", "why_tests_cant": "There are 2^256 keys and signatures; whether an odd one is accepted depends on number theory (the field is a field because its order is prime).", "anchors": ["src/transaction.rs:89-134", "src/transaction.rs:229-254", "src/static_values.rs:35-39"]}
{"id": "C122", "title": "A block commits to everything before it", "statement": "Two nodes that have a block with the same hash have the same block at the same height and the same blocks at all heights below, so the last block determines the whole main chain, and two chains that fork share nothing above the fork. The last block of a derivative chain determines that chain, its owner, and the main chain up to the block it is attached to. Whoever finds two nodes for which this fails has two blocks, or two transactions, that are a SHA-256 collision.", "quantifier": "Any two nodes, each after any calls, failing I/O operations, kills and openings, in either build profile; any two heights.", "why_tests_cant": "It compares all pairs of histories of arbitrary length and must account for every way a chain can be cut back by a crash.", "anchors": ["src/chain.rs:285-320", "src/chain.rs:582-612", "src/blockchaintree.rs:326-543", "src/block.rs:59-90", "src/chain.rs:250-283"]}
{"id": "C123", "title": "Hashes are the SHA-256 of the standard", "statement": "The function behind every hash of the model is the one of FIPS 180-4: padding to blocks of 64 bytes, constants that are the fractional parts of square and cube roots of the first 64 primes, schedule, rounds and sums modulo 2^32 determine exactly one string for every message, and the model computes it. Two messages with the same hash give two different inputs of the compression function with the same output, so that every statement of this development that ends in a SHA-256 collision ends in a collision of the compression function.", "quantifier": "Every message of less than 2^61 bytes.", "why_tests_cant": "Test vectors cover a few messages; constants that are wrong in one bit, padding that is wrong for some lengths, or two messages with the same padding can pass them.", "anchors": ["src/tools.rs:142-146", "src/tools.rs:198-221", "src/merkletree.rs:60-60", "src/merkletree.rs:118-128", "src/transaction.rs:98-98", "src/transaction.rs:196-196"]}
{"id": "C124", "title": "Hashes of different kinds of things are never equal without a collision", "statement": "The node hashes eight kinds of things: inner nodes of Merkle trees, accounts at the end of an epoch, proofs of work, what a transaction signs, transactions, and three kinds of blocks. Two different kinds share a text exactly in four cases: what is signed may also be a transaction, an account or a proof of work, and an account may also be a proof of work. In every other case equal hashes are a SHA-256 collision: no block has the hash of a transaction, no leaf of a tree of transactions can be passed off as an inner node. A transaction's hash is what another transaction signs exactly if its signature begins with 0, or with a length of at most 32 followed by a byte other than 0. In any life of two nodes with failures and kills, a transaction found in one and a block found in the other have different hashes or are a collision.", "quantifier": "Every pair of kinds and all values of the types hashed; every pair of histories of two nodes with failing operations, crashes and openings, every hash and height.", "why_tests_cant": "A test would have to find two values of different types with the same text; the set of pairs for which none exist is a statement about all of them.", "anchors": ["src/transaction.rs:89-134", "src/transaction.rs:256-292", "src/block.rs:161-189", "src/block.rs:267-278", "src/block.rs:466-496", "src/merkletree.rs:55-75", "src/tools.rs:200-217", "src/blockchaintree.rs:336-367"]}
{"id": "C125", "title": "Damaged account entries", "statement": "For any contents of the ledger databases, readable or not: reading an account returns 0 without an entry, the amount of an entry that stands for one, and panics for any other entry, never reporting an error. A call that reads a damaged entry panics and changes nothing. A damaged entry stays as it is through every call, except that set_amount mends it and the end of an epoch mends the root account; a damaged gas entry is never mended. send_transaction to a damaged account changes nothing or panics; in the second case all-or-nothing would ask that the transaction is not stored.", "quantifier": "Every contents of the databases (any byte strings under any keys), every call, account and build profile.", "why_tests_cant": "Tests start from databases the node wrote itself; entries of other programs, of older versions or after bit rot are all other byte strings.", "anchors": ["src/blockchaintree.rs:107-324", "src/blockchaintree.rs:484-514", "src/tools.rs:58-79"]}
{"id": "C126", "title": "Directories with any contents are opened or refused, and never read unsafely", "statement": "Take a directory whose databases hold any byte strings under any keys and whose config files hold any bytes, not only a directory the node wrote. Opening it either fails with the initialisation error, exactly when the config file exists and is shorter than 64 bytes, or succeeds at the height the config file says (0 without a file); it never panics. The opened node holds exactly what the directory holds, except that at height 0 the first block is stored under height 0 and its hash, and at height 0 or 1 the root account is set to the coins of a cycle. A side chain's directory is opened the same way (96 bytes). No lookup of a block or transaction ever leads to undefined behaviour, and every block or transaction a lookup returns is well formed. No sequence of calls leads to undefined behaviour in a debug build; in a release build a call does exactly when it emits a block with enough work, more than 600 seconds (in wrapping 64-bit arithmetic) after a block whose difficulty starts with the byte 255.", "quantifier": "for all directories (any key/value contents, any config bytes), all sequences of well-formed calls, both build profiles", "why_tests_cant": "the contents of the directory are unconstrained byte strings; tests open directories the node itself wrote, and an out-of-bounds unchecked access in a release build need not be visible when it happens", "anchors": ["src/blockchaintree.rs:33-101", "src/chain.rs:62-144", "src/chain.rs:261-436", "src/chain.rs:451-518", "src/chain.rs:641-737", "src/tools.rs:219-245"]}
{"id": "C127", "title": "The transactions a block lists can be retrieved, and each is listed once", "statement": "Every transaction hash listed in a block of the main chain belongs to a transaction that the node can retrieve by that hash (get_transaction returns a well-formed transaction with that hash), at every moment of every history, after clean restarts and after crashes; and no transaction hash is listed twice, neither in one block nor in two.", "quantifier": "for all histories of calls, all blocks, all listed hashes, all restarts and crashes", "why_tests_cant": "the block and the transaction are in different databases written by different calls; a test would have to stop the process between two flushes, and tests emit blocks with made-up hashes", "anchors": ["src/blockchaintree.rs:415-514", "src/chain.rs:179-278", "src/block.rs:131-160"]}
{"id": "C128", "title": "Directories with any contents stay safe when I/O fails", "statement": "Opened on a directory whose databases hold any byte strings, with any I/O operations failing (with or without their effect) during openings and calls, and with closings, crashes (also during openings) and reopenings in between, the node never runs into undefined behaviour in a debug build; in a release build only an emission that would do so without any failure can. An opening gives exactly what the directory holds at the height its config file says (or height 0 if that file cannot be opened), returns one of the opening errors, or panics because the root account could not be written.", "quantifier": "all directories and trees whose databases hold byte strings, all lists of faults, all calls with arguments of the sizes of their Rust types, both profiles, all histories", "why_tests_cant": "the contents of a damaged or foreign directory and the pattern of failing operations are both unbounded; a test fixes one of each", "anchors": ["src/blockchaintree.rs:33-83", "src/blockchaintree.rs:369-482", "src/chain.rs:62-144", "src/chain.rs:451-518", "src/tools.rs:219-245"]}
{"id": "C129", "title": "Panics on any contents", "statement": "Whatever the databases and config files of a directory hold, the calls that panic are exactly the listed ones: ledger calls on an account entry that stands for no amount or that overflow or overdraw; calls that need the last main-chain block when the height is 0, no block is stored under it, or the stored bytes break off where the reader does not check; emissions after a block with enough work when the clock of a checked build runs backwards, the difficulty starts with 255 and more than 600 seconds passed in a checked build, or the height leaves 256 bits; and the corresponding calls on side chains. Lookups panic exactly at references longer than 32 bytes and at stored values that break off at the listed places.", "quantifier": "all trees whose block and transaction databases hold byte strings, all calls with arguments of the sizes of their Rust types (transactions below 2^63 bytes), both profiles, all histories of a node opened on such a directory", "why_tests_cant": "the contents of a damaged directory are unbounded, and a test can show a panic but not that all other contents and calls are free of one", "anchors": ["src/blockchaintree.rs:85-514", "src/chain.rs:241-436", "src/chain.rs:617-737", "src/tools.rs:219-245", "src/block.rs:147-199"]}
{"id": "C130", "title": "What calls report on any contents", "statement": "Whatever the databases and config files of a directory hold: a lookup gives nothing if nothing is stored, the block or transaction the stored bytes are laid out as if they are, a panic if they break off at the listed places, and the error of that lookup otherwise; a call returns an error exactly in the listed cases, each with its error; a call succeeds exactly when it is in none of the lists (undefined, panic, error); and a call that returns an error changes nothing but the set of open side chains.", "quantifier": "all trees whose block and transaction databases hold byte strings, all calls with arguments of the sizes of their Rust types (transactions below 2^63 bytes), both profiles, all histories of a node opened on such a directory", "why_tests_cant": "the contents of a damaged directory are unbounded; a test shows the outcome for one content, not that every other content and call has a listed outcome", "anchors": ["src/blockchaintree.rs:85-514", "src/chain.rs:170-436", "src/chain.rs:560-737", "src/block.rs:147-199", "src/block.rs:568-613"]}
