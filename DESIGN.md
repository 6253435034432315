# Formal model of the Arwen WASM VM (Rocq 8.16)

Source of truth: `/repo` (ElrondNetwork/arwen-wasm-vm, Go), read as text and
never run. The model and the proofs are in `rocq/theories`; every definition
of a model file cites the Go file and lines it follows and says where it
simplifies. Build: `coq_makefile -f _CoqProject -o Makefile && make -j4` in
`rocq`.

## Reading order

* `XModel.v`: definitions following the Go code, no lemmas.
* `XSpec.v`: the vocabulary of the theorem statements, independent of the
  model's helper functions.
* `XProofs.v`: lemmas.
* `ExX.v`: concrete environments, contracts and states for examples.
* `XTheorems.v`: the property theorems, named `Cnn_…`, each followed by
  `Print Assumptions`, with examples that meet the hypotheses. `_partial`: a
  part of the property; `_refuted`: a concrete case in which the statement is
  false of the model (and, by reading, of the code).

## How the code is modelled

* Go integers are `Z`; wrapping, saturation and truncating conversions are
  written out where the code has them. Byte strings are `list byte`. Go maps
  are std++ `gmap`; where the order of a `range` loop could matter the order is
  an argument (`OrderModel`, field `e_order` of the environment).
* A host function is a function in a state monad `host -> host * outc A`;
  results are a value, an error, a Go panic, or exhausted fuel. After an error
  or a panic the state is still there, as in Go. Deferred functions run.
* The contexts (bigint, storage, output, metering, runtime, blockchain) are
  fields of `host`, each with its state stack; the Go methods are followed one
  by one (`CtxModel`), then the host (`HostModel`: direct and nested calls,
  deployments, upgrades, built-in functions, all kinds of asynchronous calls),
  the 124 imported functions (`ApiModel`) and the entry points (`VmModel`).
* Contract code is an arbitrary tree (`prog`): return, trap, spend gas points,
  read or write its memory, grow it, call an imported function and continue
  with any function of the result. Theorems about executions hold for every
  tree, that is, whatever the WebAssembly code does between API calls.
* What the modelled code calls but does not define is a field of the record
  `env`, quantified over in every theorem: gas prices, built-in functions,
  shards, compiler, hashes, signatures, JSON of the async data, addresses of
  new contracts, ESDT data, block data, error texts, map order.
* Recursion: a nested execution takes one unit of fuel. `OFuel` is an explicit
  outcome; `C29_fuel` shows that it never happens with 10 or more units, because
  the host allows ten nested instances.
* Ghost state: `h_trace` records transfers and nonce increases. No model function reads it.

## Trusted base

* Coq's kernel (8.16.1), and the reading of the Go code that the model embodies.
* `Print Assumptions` reports "Closed under the global context" for every
  theorem listed in MANIFEST.json: no axioms, neither our own nor the standard
  library's. (Tools that list the constants of all loaded modules also see the
  module-type parameters `Coq.ssr.ssrunder.Under_rel.*` of the standard
  library, which std++ loads; no theorem uses them.)
* Behaviour assumed of software that is not in `/repo`:
  * wasmer: a gas counter compared with a limit, breakpoints checked after every
    imported function, memory grown by zero pages up to a limit, traps
    (`VmModel.run_prog`, `MemModel`); compilation is a function of the code.
  * elrond-vm-common: the call data parser (`CallDataModel`), code metadata
    (`CtxModel`), input and output types.
  * math/big is `Z`; big-int-util's two's complement (`CodecModel`) from its
    documentation, likewise ToBytesOfLength (`MandosModel`); encoding/hex,
    encoding/binary, strings from Go's documentation.
  * json/gob of the IPC messages: any marshalizer that decodes what it encodes
    (`IpcSpec.carries`, `HookModel.kept`); fmt.Errorf keeps texts without
    percent signs, `range` over a map visits every entry once, in any order
    (`HookModel.outside`).
  * the blockchain hook: accounts, storage and ESDT balances are the state
    `world`; hooks answer without error unless the model says otherwise
    (`e_missing_err`); snapshots restore the world.

## Modelled and not modelled

Modelled: `math/overflow.go`, `arwen/helpers.go`, `arwen/errorWrapping.go`, all
of `arwen/contexts/*.go` (except below), `arwen/host/execution.go`,
`asyncCall.go`, the execution part of `arwen.go`, `arwen/elrondapi/elrondei.go`,
`bigIntOps.go`, `smallIntOps.go`, `arwen/cryptoapi/cryptoei.go`, framing,
dialogues, both message loops, gateway, repliers, messages and the driver of
`ipc/`, `mandos-go/orderedjson`,
`mandos-go/expression`, `mandos-go/json` (scenarios), `arwenmandos` with `mock/world` (the steps of a
scenario, scenarios, references to other files), `mandos-go/controller` and `mandos-go/fileresolver`,
`mandos-go/orderedjson2kast`,
`arwendebug` (facade, requests, database and world; the machine is a parameter).

Not modelled:

* warm instances (`runtime.go`, `useWarmInstance`): taken to be off, except in `WarmModel.v` (C87), which has the instances of the runtime context alone;
* WebAssembly execution, the gas metering of opcodes, wasmer's Go binding except the wrapper of exported functions, values and the set of imports (`WasmerModel.v`);
* crypto implementations (`crypto/`), logging, the web server and command line of the debugger, `cmd`;
* of Mandos: what dumpState prints, filepath.Walk beyond the paths it visits, filepath.Join, Abs and Match (parameters), the content of the gas schedule files, the older test format (`parseTest`, `writeTest`); of the mock world: of `worldCallbacks.go` the built-in functions and the cache of compiled code, the built-in functions themselves (any list of writes to accounts, `hook_op`); fuzzers;
* `PrevTxHash` of inputs, the texts of errors (only their identity) and the
  locations kept by wrapped errors;
* concurrency: the VM is single-threaded apart from the IPC loops, which are
  modelled as turn-taking.


## Properties: what is modelled and how it is proved

Status is that of MANIFEST.json. `partial`: the statement is false of the
code in some case (a `_refuted` theorem shows it) or needs a side condition
which the note names.


**C01 Gas arithmetic is exact or clamped, never wrapped** (proved; MathTheorems.v).  math/overflow.go function by function; case analysis over the whole 64-bit range, plus monotonicity.  *Signed operations return an unspecified clamp on overflow: the exact value is given by C01_signed_overflow_value and the naive clamp is refuted.*

**C02 Overflow is reported exactly when it happens** (proved; MathTheorems.v).  Same model; iff-statements.  *Every overflow-reporting operation of math/overflow.go.*

**C03 Reading contract memory returns exactly the requested bytes or an error** (proved; MemTheorems.v).  runtime.MemLoad on a byte list; closed form of the result and exact error condition for all int32 offsets and lengths.  *For memories below 2 GiB; refuted for larger ones (C03_two_gib_refuted).*

**C04 Writing contract memory writes exactly the given bytes** (proved; MemTheorems.v).  runtime.MemStore with one-page growth; success condition, bytes written, bytes kept, load after store.  *For memories that stay below 2 GiB; refuted for larger ones (C04_two_gib_refuted).*

**C05 Argument vectors passed through memory are decoded exactly** (proved; MemTheorems.v).  getArgumentsFromMemory, MemLoadMultiple, createInt32Array; induction on the argument list.

**C06 Malformed argument vectors are rejected by every API that takes one** (partial; MemTheorems.v).  Same model and all call sites; iff on the decoder, witnesses for call sites that drop the error.  *The decoder rejects exactly the unreadable vectors while 4*n fits 31 bits; false when the count wraps and false for all APIs that ignore the decoder error (both refuted with witnesses).*

**C07 Big-integer handles are fresh and behave like variables** (proved; BigTheorems.v).  bigint.go and bigIntOps.go; refinement to a store of variables, induction over operation sequences.  *Allocation, every arithmetic/bitwise/assignment operation, reads, and sequences of them.*

**C08 A called contract cannot see or change the caller's big integers** (partial; CallTheorems.v).  Push/Init/Pop inside the whole machine; induction over fuel and programs.  *Calls on the destination context and transactions, any nesting and any outcome; on the same context (and executeReadOnly) the store is shared with the caller (refuted with a witness).*

**C09 Numbers survive being stored, passed and returned** (proved; CodecTheorems.v).  Encoders and decoders of helpers.go, smallIntOps.go, bigIntOps.go; round trips for all numbers and byte strings.

**C10 Negative numbers are not silently turned positive** (partial; CodecTheorems.v).  The API pairs; positive for non-negative or signed pairs, witnesses otherwise.  *Holds for the signed and 64-bit pairs; the unsigned big integer pair and the time lock pair lose the sign (refuted).*

**C11 Big-integer division and modulus obey their laws, and division by zero fails safely** (proved; BigTheorems.v).  The division functions through the API; laws from Z.quot/Z.rem and Euclidean division, aliasing included.  *Truncated and Euclidean laws for all operands and aliasings; failing operations keep every handle.*

**C12 Storage is a map: a contract reads back its own last write** (proved; StoTheorems.v).  SetStorage/GetStorage and the API functions; simulation by a map over sequences of calls.  *API calls one by one, and all sequences of reads and write attempts.*

**C13 Storage write status and price are determined by old and new value** (proved; StoTheorems.v).  SetStorage with gas and refund; compared with an independent price function.  *Refund exact while the counter stays below 2^63; beyond that it wraps (refuted with a witness).*

**C14 Replacing a stored value by a different value of the same length is paid for** (partial; StoTheorems.v).  Same.  *False for a different value of the same length (C14_same_length_refuted); proved when the lengths differ and storing is not cheaper than persisting.*

**C15 Contracts cannot write protocol-reserved keys** (partial; InvTheorems.v, StoTheorems.v).  Invariant of one storage cell over all programs, nested calls, async calls and both entry points.  *Proved for every execution and every transaction output for reserved keys and VM-protected keys other than the cells of time locks and pending async data (protected_key), assuming the node built-ins leave the cell; a time lock on a key with the protected prefix writes such a key (C15_timelock_refuted), so the full statement is false there.*

**C16 Time locks and pending-async data are not writable by plain storage writes** (partial; StoTheorems.v).  Time lock and async cells; witness that the key suffix is not protected.  *False: the cells are named by a suffix, so the ordinary call writes them (refuted); holds for keys without that suffix.*

**C17 Time lock semantics** (proved; StoTheorems.v).  setStorageLock and friends; round trips, iff with the timestamp, sequences over any keys.  *Set/get/locked/clear, sequences of locks on any keys.*

**C18 A contract's storage is written only by code running in its own storage context** (proved; InvTheorems.v).  Invariant over the machine: a cell changes only at a write event of code running with that storage address.  *For running contracts, single API calls and transaction outputs; built-in functions of the node are assumed to leave the cell (builtins_leave).*

**C19 Foreign storage is readable only when marked readable** (proved; StoTheorems.v).  GetStorageFromAddress; both directions.  *Own means the account whose storage is in use.*

**C20 Read-only execution cannot write storage** (partial; InvTheorems.v).  Invariant over the machine while the read-only flag is set.  *Proved at any nesting depth when no further executeReadOnly call is made inside; with a nested executeReadOnly call it is false (C20_nested_refuted).*

**C21 Read-only execution moves no funds** (partial; MoneyTheorems.v).  Ledger over the ghost trace; witnesses for transfers in read-only mode.  *False: transfers are not blocked in read-only mode and the value of the caller's own call is passed on (C21_transfer_refuted, C21_value_refuted). Proved: API calls change balances only by the transfers they record.*

**C22 Value transfers conserve the total balance** (partial; MoneyTheorems.v).  Sum of balance deltas over all output accounts, induction over the machine; exact up to removed accounts.  *Proved for every execution and every transaction output unless a failed deployment removes an account that already had value; in that case value is destroyed (C22_call_refuted). Built-in functions of the node are assumed to conserve value.*

**C23 No account is overdrawn** (proved; MoneyTheorems.v).  Invariant: balance known to the node plus delta is not negative for every account.  *Built-in functions of the node are assumed not to take from the account, transaction values not negative.*

**C24 A contract can only spend its own balance** (partial; MoneyTheorems.v).  Invariant: an account is debited only while its own code runs.  *Proved for every execution in which no contract uses executeOnDestContextByCaller; with it a contract spends the money of its caller (C24_call_refuted).*

**C25 A failed nested call leaves no trace in the output** (partial; OutTheorems.v).  Equality of the output before and after a failing nested execution.  *Proved for every call that does not name a built-in function. For built-in functions it is false: their output stays when the contract called afterwards fails (C25_builtin_refuted).*

**C26 A failed nested upgrade leaves no code change** (partial; OutTheorems.v).  Code in the output and the set of code updates.  *A failed nested call changes no code in the caller's output (C26_dest_partial); over a whole transaction the claim is false because the set of updated accounts is not restored (C26_refuted).*

**C27 Nested outputs merge chronologically** (proved; OutTheorems.v).  Order of return data, logs and transfers in the merged output.  *For calls that do not name a built-in function; that the callee's transfers begin with the caller's is stated for addresses at which no contract can be deployed.*

**C28 Every nested call restores the caller's frame** (partial; CallTheorems.v).  Stack discipline as an invariant (`host_ok`), frame equality after every API call.  *Everything for every nested call and API function, any outcome; the stack of world snapshots is proved restored unless the host panics, and refuted for panics.*

**C29 Contract nesting depth is bounded and exceeding it is an error** (proved; CallTheorems.v, FuelTheorems.v).  Length of the instance stack as an invariant; the depth check; fuel adequacy.

**C30 Gas used never exceeds gas provided** (partial; CodeTheorems.v, GasTheorems.v).  Gas used by accounts, transferred gas and remaining gas add up to the gas provided, over all executions.  *The equation for the outputs of successful transactions (typed_gas: amounts are not negative, as in uint64). That no gas remains in failing outputs is C30_failed; that the whole gas counts as used is a convention of the output without accounts.*

**C31 Gas only decreases while a contract runs** (partial; GasTheorems.v).  Monotonicity of gas left over every API call.  *Proved for every API function that does not deploy a contract, assuming built-in functions hand on no more gas than they were given. False for createContract (C31_refuted).*

**C32 Forwarded gas is paid for** (partial; ForwardTheorems.v, GasTheorems.v).  Witness transaction; ExecuteAsyncCall and handleAsyncCallBreakpoint composed (ForwardProofs), and the sum of C30 restricted to outgoing transfers.  *False: the gas attached by transferValueExecute to another shard is not deducted (C32_refuted). Proved: for asynchronous calls, limit and lock and the price of the step are exactly the gas the frame had, and none is left (C32_async_partial); all transfers of a successful transaction together do not carry more than it was handed minus what is left (C32_call_partial, C32_create_partial).*

**C33 Gas handed to a nested call never exceeds what the caller has** (partial; GasTheorems.v).  Gas of nested calls, both contexts.  *Proved: handed gas is at most the gas left, it is deducted and the unused part given back; contracts that ran and failed cost all they were handed. False for calls that fail before the callee is started, which cost nothing (C33_refuted).*

**C34 Asynchronous calls reserve gas for the callback** (partial; GasTheorems.v).  ComputeGasLockedForAsync/UseGasForAsyncStep through asyncCall; exact acceptance condition.  *Proved with the code size the runtime remembers; after a nested call that is the size of another contract (C34_refuted).*

**C35 Gas locked for a callback reaches the callback** (partial; GasTheorems.v).  Gas handed to the callback.  *Proved for callbacks in the same shard; false for callbacks arriving as transactions with locked gas (C35_refuted).*

**C36 Gas refunds accumulate** (partial; GasTheorems.v).  Refund counter across a nested call.  *False: a nested call overwrites the refund of its caller (C36_overwritten for every call, C36_refuted for a transaction).*

**C37 Failure outputs carry no effects** (proved; CodeTheorems.v).  Both entry points; case analysis over every way to fail, at any depth.  *Assuming that the node's built-in functions report failures as errors; without that the claim is false (C37_refuted). Besides the general theorems, the class is derived from its cause: no gas, no code, code that does not compile, missing function, and the reason for which the function stopped. Panics recovered by the host give no output.*

**C38 Error wrapping preserves identity** (partial; ErrTheorems.v).  Chains of wraps under Is and errors.Is; induction on chains.  *The method Is is proved exact and total for every chain of wraps. errors.Is is proved exact whenever it answers, and total for wrappers holding two errors or more; on an error wrapped once it panics when the error asked for is absent (C38_single_refuted).*

**C39 Only well-formed contracts are ever instantiated from new code** (partial; DeployTheorems.v).  validator.go and reservedFunctions.go on all paths that start code.  *Proved for direct deployments, direct upgrades and upgrades by contracts. False for deployments by contracts (C39_create_refuted): CreateNewContract checks only the code size.*

**C40 Function name validity** (proved; CallDataTheorems.v).  verifyValidFunctionName; iff over all byte strings.

**C41 Constructor and callback entry points are not callable directly** (partial; CodeTheorems.v).  Entry checks of direct and nested calls.  *Proved: transactions cannot call init or callBack; nested calls cannot call init. False for nested calls of callBack (C41_refuted).*

**C42 Only the owner can upgrade an upgradeable contract** (partial; DeployTheorems.v).  checkUpgradePermission; invariant over the machine for contracts that are not upgradeable.  *Upgrades within an execution succeed and start code only with the permission of the caller named in the call; otherwise they are refused with no effect (C42_refused). A contract that is not upgradeable keeps its code in every execution (C42_frozen). The caller named in the call can be the caller of the contract that asks (C42_by_caller_refuted), and the account need not have code (C42_not_a_contract_refuted).*

**C43 The code that runs for an address is that address's current code** (partial; DeployTheorems.v).  Compiled code cache as a map from code hashes to modules.  *The running module is the compilation of the current code whenever the cache is off or holds nothing wrong for the address. Executions do not keep the cache right: an upgrade followed by a call in one transaction gives stale code (C43_stale_refuted) or stores new code under the old hash (C43_poisoned_refuted). New code is saved before it is verified, so refused code stays (C43_saved_unverified).*

**C44 Asynchronous call routing** (partial; AsyncTheorems.v).  determineAsyncCallExecutionMode and each mode; exact effects.  *The routing decision and all effects of every mode are exact. It depends on the code at the destination and, for token transfers, on the caller too. Calls to oneself and calls from callbacks are not rejected (C44_self_refuted, C44_callback_refuted).*

**C45 Callback arguments report the destination's outcome** (partial; AsyncTheorems.v).  createCallbackContractCallInput, sendAsyncCallbackToCaller.  *The callback input is exact, and so is the outgoing answer. The return code is a number for callbacks executed at once and a name for those sent elsewhere (C45_representation_refuted).*

**C46 Pending asynchronous calls drain** (partial; AsyncTheorems.v).  processCallbackStack and the stored async data.  *Exact for no pending call, unexpected answers, and the last pending call when the waiting contract is elsewhere. With several pending calls no answer changes anything (C46_stuck, C46_drain_refuted); when the waiting contract is here the host stops (C46_local_stops). The callback of a context is never run.*

**C47 Gas split among asynchronous calls** (proved; OrderTheorems.v).  setupAsyncCallsGas over an arbitrary visiting order.  *Exact amounts, success condition and order independence. Only the kind of the error depends on the map order (C47_error_refuted).*

**C48 Results do not depend on map iteration order** (partial; OrderTheorems.v).  Each loop over a map, written as a fold over any permutation of the entries.  *Proved for every loop over output accounts, gas by account, storage updates and exports, each written as a loop over an arbitrary visiting order, and (C47_order) for the gas of asynchronous calls. False for the choice of the callback function when two contexts wait for the same contract (C48_callback_refuted: the output of a transaction depends on the map order).*

**C49 Call data built for another shard parses back to the same call** (proved; AsyncTheorems.v, CallDataTheorems.v).  Builders and the parser; both compositions are identities.  *The parser is an external library, modelled from its documented behaviour.*

**C50 IPC framing** (partial; IpcTheorems.v).  Frames, messengers, both loops as processes exchanging byte streams.  *framing, ordering within a dialogue and whole dialogues proved for any marshalizer that gives back what it encodes; refuted: replay across dialogues, gas schedule changes, five kinds of hook questions, messages of 4 GB.*

**C51 Ordered JSON round-trip** (partial; JsonTheorems.v).  Parser and printer of orderedjson; structural induction.  *round trip proved for every value whose strings can stand in quotes as they are, whose maps have distinct keys and which is not a bare boolean, hence for everything the parser returns; refuted for the rest (C51_refuted).*

**C52 Accepted JSON is well-formed** (partial; JsonTheorems.v).  An inductive grammar equivalent to the parser.  *the texts taken are characterised exactly by a grammar (C52_exact); JSON proper is taken except strings ending in a backslash and bare booleans; refuted: junk behind list elements, leading commas and repeated keys are dropped silently.*

**C53 Mandos value expressions** (partial; ).  Expression interpreter and reconstructor; a denotation relation equivalent to the interpreter.  *what an expression denotes is characterised exactly (C53_denotes) and notation by notation; subtrees and map order too. Text from bytes and back proved for numbers, bar-free strings, addresses and short code; refuted for the other values and for all values without a hint. A signed width with nothing behind it crashes the interpreter (C53_crash_refuted).*

**C54 New contracts get fresh addresses and nonces advance** (partial; DeployTheorems.v).  NewAddress, IncreaseNonce and deployments.  *Address and nonce after a successful deployment are exact, relative to the nonce after the construction. False for re-entrant deployments, before version 3, and for failed deployments (refuted).*

**C55 Helper encodings** (proved; CodecTheorems.v).  PadBytesLeft, InverseBytes, U64ToLEB128, GuardedGetBytesSlice; round trips.

**C56 Contract code cannot crash the host out of the API** (partial; SafeTheorems.v).  Every imported function under a panic-tracking walk; exact for the four unchecked indexes.  *every API call that runs no other code returns for all arguments, if an unchecked index is not negative and nothing has 2 GiB or more; calls that run other code return if it does. Refuted: four calls panic on every negative index.*

**C57 Caller identity and payment shown to a contract are genuine** (partial; IdentTheorems.v).  Runtime input of every frame; getters.  *Proved for getCaller, getCallValue, the token and argument readers and the big-integer readers, in every transaction and nested call. False for getCallValueTokenName, which never delivers the token name (C57_token_name_refuted).*

**C58 A transaction does not influence the next one** (partial; CallTheorems.v, FreshTheorems.v).  Invariant of idle hosts over any history of transactions; then a functional simulation (FreshProofs, [T]): every function of the model, up to whole transactions of any depth, commutes with adding leftover instances, snapshots and events to the host and renumbering its instances, and never pops a snapshot it did not push; the storage owner and (in calls) the code size are shown to be overwritten before they are read.  *Proved of calls: any two histories, the same node, the same result, effects and events. False of deployments and upgrades (refuted): an asynchronous call in a constructor locks gas for the size of the code last looked up by an earlier transaction; proved of them when that size is the same.*

**C59 Questions asked through the API are answered correctly and change nothing** (proved; QueryTheorems.v).  A relation from questions to answers (QuerySpec), proved function by function with an engine for hosts that differ in memory, gas and handles.  *Every function that runs no other code and asks for something; failing questions (unreadable memory) are C03 and C56.*

**C60 Balances shown to a contract are up to date** (partial; BalTheorems.v).  GetBalanceBigInt against node balance plus recorded change.  *Proved for accounts on the chain whose recorded balance is the node one; for an address without an account 0 is shown whatever was moved to it (C60_unknown_account_refuted).*

**C61 Results and events are reported completely and in order** (proved; ResultTheorems.v).  A relation from calls to the results and entries they must append.  *All functions that report a result or an event.*

**C62 Numbers kept in storage are read back as they were** (partial; TypedTheorems.v).  Typed storage functions against a relation from numbers to bytes, and their composition.  *64-bit integers and non-negative big integers come back exactly; a negative big integer loses its sign silently (C62_negative_refuted).*

**C63 Every API call is paid for at its listed price** (partial; PriceTheorems.v).  A table of prices per function (PriceSpec), and a walk over every command showing that at least that much is used.  *Proved for every API call except the deploying ones (their gas can grow, C31_refuted); thirteen big-integer functions are charged the entry of subtraction instead of their own (C63_add_refuted) and two async functions nothing (C63_async_context_refuted).*

**C64 A virtual machine behind the pipe does what one in the node's process does** (partial; HookTheorems.v).  The gateway, repliers, message constructors, output conversions and driver (HookModel) on top of the dialogue of C50; induction over the questions of the machine. Map iteration order, the marshalizer of fields and fmt.Errorf are the record `outside`.  *Proved for questions that reach the node, errors with a text without percent signs, results that are an output or an error, outputs with accounts and cells under their own keys, and messages the marshalizer gives back; refuted for the rest: failed reverts look successful (C64_revert_refuted), error texts are used as formats (C64_percent_refuted), missing texts and outputs look like success (C64_nothing_refuted).*

**C65 The prices in force are those of the last complete gas schedule** (partial; ScheduleTheorems.v).  CreateGasConfig with all entries and opcodes, generated from the source by a script; mapstructure is modelled from its documentation (exact key, or else one equal but for case, in map order; 32-bit fields truncate). Acceptance by the check of every section, the table by computation with the prices left symbolic, histories by induction.  *Proved for schedules that give no entry twice; false for the schedule shown (C65_shown_refuted: a rejected one is shown), for instruction prices of 2^32 and more (C65_wide_refuted: the low 32 bits are charged) and for schedules with an entry given twice in other letters (C65_twice_refuted: the price depends on the map order).*

**C66 What a contract asks for is what the host does** (proved; AskTheorems.v).  The requests a memory describes (AskSpec: asks, asks_tokens) and their carrying out in terms of the context functions; each API command is run symbolically from an arbitrary state up to its request.  *For transferValue and the context calls other than executeOnDestContext and the token transfers the data or function does not name a built-in function. Deployments and upgrades from the code of another contract are not covered here.*

**C67 Results and events once reported are never lost** (proved; LastTheorems.v).  An invariant over the effects of every execution (EffProofs: eff), by induction over nested frames; for transactions the run of the called function is pinned by runs_once (LastSpec).  *For transactions: calls other than callbacks and upgrades.*

**C68 A checkState step passes exactly when the world is as declared** (proved; CheckTheorems.v).  The check (WorldModel: checkAccounts) is followed function by function; WorldSpec says in terms of stored bytes what an account holds and what a declaration allows; the equivalence is proved account by account, key by key, token by token.  *For protobuf decoders that decode 64-bit nonces. The last of several declarations of one key, token or nonce counts.*

**C69 Whatever a checkState step declares is compared** (partial; CheckTheorems.v).  Four declarations that are ignored, each with a world where the step passes or panics although it should not.  *False: the owner (C69_owner_refuted), "+" among tokens (C69_more_tokens_refuted) and the frozen flag (C69_frozen_refuted) are read from the file and ignored; a step without accounts panics (C69_nothing_to_check_refuted). What is compared is C68.*

**C70 The expected result of a transaction is checked exactly** (proved; CheckTheorems.v).  As C68, for the output of a transaction.  *All that takes part in the check; a declared hash of the logs does not (C70_log_hash_refuted).*

**C71 A failed transaction of a scenario leaves only the gas payment behind** (partial; WorldTheorems.v).  executeTx is followed with its deferred commit or rollback and Go's shadowed error variable; the virtual machine is any list of writes and reverts with any output. Invariant over the writes: the first snapshot stays.  *Proved for machines that never revert to the snapshot of the start and whose built-in functions write only storage; false without either condition (C71_failed_refuted, C71_username_refuted). A nested call that fails first thing in a transaction makes such a revert.*

**C72 A successful transaction of a scenario does exactly what its output says** (proved; TransferTheorems.v, WorldTheorems.v).  The world after executeTx, account by account (applied, created), the sum of balances, and the run of the machine pinned to the declared input (ran). Transfers and rewards, which need no machine, are described completely (moved, rewarded).  *Transfers and rewards in full (C72_transfer, C72_reward, C72_unaffordable). Accounts and money for every type of transaction, for machines whose built-in functions write only storage; input and storage for calls, deployments and queries without tokens. A deployment with tokens panics (C72_deploy_tokens_refuted).*

**C73 A query of a scenario changes nothing** (partial; WorldTheorems.v).  From C71 with no sender; a concrete query that writes.  *Proved for queries that fail; a query that succeeds keeps what it wrote (C73_query_refuted).*

**C74 Reverting to a snapshot undoes exactly what was saved since** (partial; WorldTheorems.v).  Invariant over the writes and reverts above the snapshot; a concrete history with two reverts.  *Proved when the last snapshot shows the present storage, as it does right after a save or at the start; after an earlier revert it does not, and a second revert takes back too much (C74_revert_twice_refuted).*

**C75 What a setState step sets is what a checkState step finds** (partial; SetTheorems.v).  The world after convertAccount is computed account by account, and each check of C68 is discharged against it; concrete tokens for the conditions.  *Proved for accounts whose storage has no reserved keys, whose token instances have amounts, no metadata without a nonce and 32-bit royalties, whose last nonce is 0 without instances, and whose token keys can be told apart; false without each condition on tokens (C75_last_nonce_refuted, C75_no_nonce_refuted, C75_same_key_refuted, C75_royalties_refuted).*

**C76 Writing out a scenario that was read changes nothing it says** (partial; RewriteTheorems.v).  Reader and writer function by function, between text and steps. Everything the reader yields is described by the expressions it came from (ReadProofs); from that, each written field is read back (RewriteTokenProofs, RewriteProofs), down to the text (JSON printing of C51). The executor never looks at the texts (RewriteRunProofs).  *Proved for every file whose scenario meets RewriteSpec.kept. The writer loses the shard of an account, the last nonce of a token in short form and demands for empty metadata, writes the creator for the URI, panics on incomplete logs and on checkState without accounts, and writes a transaction without sender so that it cannot be read (C76_*_refuted).*

**C77 A setState step leaves exactly the accounts it declares** (partial; PlacedTheorems.v).  convertAccount and PutAccounts are followed field by field; the tokens are read back through the token keys as in C75 (`holds`). What was in the world under a listed address is gone, everything else is untouched.  *Accounts, blocks, hashes and addresses proved in full (C77_set_state); the tokens for the accounts of C75 only, whose declarations can all be stored (C77_tokens_partial; the witnesses of C75 show that the others lose tokens).*

**C78 A scenario file is read as exactly what its fields say** (proved; FileTheorems.v).  FileSpec says, for each record of a scenario, which keys it has and what the value under each key says (`at_key`: given and said, or missing and the default), without the loops of the reader. FileRecordProofs shows for each loop over fields, by induction, that it computes this relation: keys are distinct after parsing, so each field is read once. The JSON layer is C51 and C52 (`parse_exact`), the expressions are C53.  *Equivalence between the reader and a declarative reading of the document (C78_read). C78_order_refuted shows what the last sentence is for: with the two fields of a step swapped, the reader dereferences a nil transaction.*

**C79 Steps referred to in another file are executed as if they stood in place** (partial; RunnerTheorems.v).  RunnerModel: a file is run by reading, parsing (ScenParseModel) and executing its steps (WorldModel) with the resolver of that file; externalSteps calls the same function with less fuel. RunnerSpec spells the steps of nested files out as one list (`spelled_out`); the theorem relates the run to ExecuteSteps on that list, by induction on the spelling.  *Proved for files that agree on whether gas is checked (C79_in_place_partial). The setting of the file referred to stays in force for the rest of the file that refers to it (C79_check_gas_refuted).*

**C80 A run over a directory reports what its scenarios do alone** (partial; RunnerTheorems.v).  `walk` on trees (induction on trees: the paths visited are those under the directory, without repetition), and the loop over them with the invariant that the prices in force, once chosen, are those of every scenario. That a scenario runs as on a new executor follows because Reset clears the world and ExecuteScenario sets everything else.  *Proved for directories that can be read and scenarios that ask for the same gas schedule (C80_directory_partial). Only the first schedule of a run is used, so that a scenario can pass that fails alone (C80_schedule_refuted); a directory that is missing or unreadable is a success (C80_unreadable_refuted).*

**C81 A machine in another process is never heard wrongly** (proved; DriverTheorems.v).  DriverModel on top of the message loops of IpcModel: the driver, its command and part as a state; startArwen with a fault at each of its stages; dialogues are runs of both loops with additional moves for exits (also in the midst of writing) and deadlines; `calm` switches these off. Safety by an invariant over the moves (where the last frame is, whole or cut, and who is still there) and over the states of the driver between operations  *When a process has to be started, the compiled code kept by the hook is cleared first, as the code does.*

**C82 A machine in another process comes back** (partial; DriverTheorems.v).  The same model; that undisturbed requests are answered by the termination proof of C50, started from each state in which the driver may be between two operations.  *Undisturbed histories are answered in full (C82_undisturbed); after a request that is lost although nothing disturbed it the next one is answered (C82_next_partial). A process that exits between requests costs one request (C82_exit_refuted); a start that fails once makes every later operation panic (C82_start_refuted).*

**C83 Instances are freed when, and only when, nobody uses them** (proved; HeapTheorems.v).  `accounted`: the live instances are those the host refers to. Kept by every step of the relation of steps also used for C28, which for this purpose is told that a frame starts at most one instance (`op_once`); the states in which code starts by the method of C29.  *Without warm instances (for these see C87).*

**C84 A debug session goes on where the last one ended** (partial; DebugTheorems.v).  DebugModel: the five requests over a disk of files named by cleaned paths, with JSON as the coercion of text to UTF-8. DebugSpec has the debugger that keeps its worlds in memory; refinement by induction on the requests, with the relation that every world read is the one remembered. Different worlds have different files by the shape of cleaned paths.  *Proved for worlds named by text without slashes, outcomes without slashes, and accounts with addresses, storage keys and call data that are UTF-8 (C84_session_partial; C84_text: nothing else survives). Binary addresses and storage keys are mangled (C84_address_refuted, C84_two_accounts_refuted, C84_key_refuted), a world whose name is not text forgets (C84_world_name_refuted), and an outcome may overwrite a world (C84_outcome_refuted).*

**C85 Only creating accounts makes money in a debug world** (partial; DebugTheorems.v).  On top of C84: UpdateAccounts adds the deltas (as for C71).  *Queries and other worlds keep their sum (C85_kept); otherwise the sum changes by the deltas of the output (C85_total_partial), which add up to the value sent: the caller is never debited (C85_value_refuted).*

**C86 A debug request is taken as it is written** (proved; DigestTheorems.v).  DigestSpec says what a request means, as a relation over numerals and hexadecimal texts (those of the scenario notations, C53); the digest methods compute it, by cases.  *Negative amounts are numbers, too: a run may take money from the contract (C86_negative_value).*

**C87 Code runs on a wasm instance of its own** (partial; WarmTheorems.v).  WarmModel has the functions on instances of runtime.go with the option useWarmInstance, run by arbitrary trees of calls (what code does in between is arbitrary, too). WarmSpec runs the same trees with one instance per call, handed on as a value. Equality of all that is seen is by induction over the tree, with places in the list of instances; that freed instances are not found, by an order on places along the stack.  *Proved for all histories if the option is off (C87_cold); with a warm instance if no address comes twice (C87_distinct_partial), and without compiled code nobody finds a freed instance (C87_uncached_partial). False otherwise: an upgrade runs the old code (C87_second_refuted), a call back resets the gas counter of its outer call (C87_called_back_refuted), with cached code an instance is freed while its owner is suspended (C87_freed_refuted), and instances that were warm are never freed (C87_left_refuted).*

**C88 The machine is told what the scenario says** (partial; WorldHookTheorems.v).  WorldHookModel has the answers of worldCallbacks.go on the world of WorldModel. Composed with C77: what a step places is what is told.  *Tokens for accounts as in C75 (C88_tokens_partial). False for the tokens of an address without account, where the world panics (C88_unknown_token_refuted).*

**C89 A new contract gets an address of its own** (partial; WorldHookTheorems.v).  NewAddress and GenerateMockAddress, with lists of declared addresses of any length; the exact condition of equality by cutting the address into its parts.  *Declared addresses are used (C89_declared), others look right (C89_generated), and C89_exact says exactly when two are the same: not if nonces of one creator are less than 256 apart (C89_same_creator_partial). False otherwise: nonces 256 apart (C89_nonce_refuted), creators that agree in bytes 0 to 14 and 30 to 31 (C89_creators_refuted), a declaration in a later step is ignored (C89_again_refuted), and short creators make it panic (C89_short_refuted).*

**C90 K is given what the scenario file says** (partial; KastTheorems.v).  KastModel writes the text. That it is read in one way only is by induction over the value, with any text behind it, using that strings of parsed files are as in C52. Replacing code is stated by places in the value (KastSpec).  *All but the last is proved for all files (C90_total, C90_faithful, C90_same, C90_code). K reads strings without quotes and backslashes (C90_read_partial); with these it does not, as they are not escaped (C90_escape_refuted).*

**C91 Exported functions are called with the arguments given** (partial; WasmerTheorems.v).  WasmerModel has the conversions and the wrapper around exported functions; the function behind cgo is any function. The numbers on both sides are compared in two-complement readings of WasmerSpec.  *Which calls are made is exact, and every number that fits arrives (C91_call_partial); results are exact (C91_result). Numbers that do not fit are cut off silently (C91_truncated_refuted), unsigned numbers of the same width are refused (C91_unsigned_refuted), further results are lost (C91_results_refuted).*

**C92 Contracts can import what was registered** (partial; WasmerTheorems.v).  The set of imports as maps of maps; Count and Names are folds, so in any order.  *All but the last proved in full. A second function of the same name silently takes the place of the first (C92_twice_refuted).*

**C93 Created calls are carried out and answered** (partial; CreatedTheorems.v).  processAsyncCall and callbackAsync of HostModel, with any ExecuteOnDestContext; the destination and answer calls are those of AsyncSpec. Witnesses are whole transactions.  *Calls whose destination comes back are answered as claimed, and failing callbacks are reported (C93_answered_partial). A failing destination ends the transaction in a panic (C93_lost for every state, C93_failed_refuted for a transaction), and the destination gets all the gas left, not that of the call (C93_gas_refuted). While calls of the destination are pending nobody is called back (C93_waits); such calls to other shards take all the gas and the transaction runs out of it (C93_nested_refuted). Calls made by a contract that was called in the context of its caller are dropped (C93_same_refuted).*

**C94 An upgrade a contract asks for is made, or the contract is told** (partial; UpgradeTheorems.v).  From C66 and an exact account of ExecuteAsyncCall: accepted exactly if the gas left exceeds step and lock. Witnesses are whole transactions.  *When the upgrade is attempted, and with what, is exact (C94_told_partial). Without gas for the callback nothing is done, the contract gets the same 0 as otherwise and goes on (C94_silent_refuted); the gas given is compared with a minimum and not used (C94_gas_refuted).*

**C95 What a contract is charged is paid, however much gas it brings** (partial; ChargeTheorems.v).  Induction over any list of charges in any state with a running instance. Witnesses are whole transactions.  *Exact for executions with less than 2^63 gas (C95_charged_partial, C95_returned_partial). The counter stops at 2^63 - 1 while gas is a 64-bit number: beyond it nothing is charged (C95_full, C95_free_refuted), and a call that is given 2^63 - 1 gas makes all earlier work free (C95_earlier_refuted).*

**C96 Reading a value the protocol keeps gives the node's value** (partial; ReservedTheorems.v).  Symbolic execution of the two calls in any state. Witnesses are whole transactions with a built-in function that changes a value.  *True of reads with an address (C96_from_address) and of keys not yet in the output (C96_own_partial). A read without an address keeps the value in the storage updates: a second read after a built-in function has changed the value gives the old one (C96_stale_refuted), and the output tells the node to store the old value again (C96_stored_refuted).*

**C97 A contract paid with an asynchronous call keeps the payment** (partial; PaidTheorems.v).  From the exact account of sendCallbackToCurrentCaller (C45). Witnesses are whole transactions, for the same call in one shard and across shards.  *The answer to a call without value moves none (C97_unpaid_partial). The answer to a call from another shard returns the value of the call although it succeeded: the contract is not paid (C97_sent_back_refuted), and if it has passed the payment on, it has done so with its own money (C97_paid_twice_refuted).*

**C98 Work that costs more than the gas given for it fails** (partial; OverTheorems.v).  By unfolding callSCMethod and callInitFunction around the final check. The witness compares one call made by a transaction, in its own context and in the same context.  *The function called by a transaction and the init function have spent no more than they may when they succeed (C98_called_partial, C98_deployed_partial). A call in the same context whose last charge is beyond its gas succeeds, keeps its effects, and the transaction pays less than with enough gas (C98_same_refuted).*

## Findings

Behaviour found while modelling that contradicts what an embedder or a contract
author would expect. Those with a theorem are proved of the model by a concrete
witness; the others are by reading only.

Contract memory and API:
* memories of 2 GiB and more are read and written wrongly (`C03_two_gib_refuted`, `C04_two_gib_refuted`); data of 2 GiB or more given to MemStore panics (`small` in C56);
* executeOnDestContext and its kin ignore malformed argument vectors (`C06_indirect_calls_refuted`); a vector count whose fourfold wraps is taken as another count (`C06_count_wrap_refuted`);
* getReturnData, getReturnDataSize and the bigInt argument getters panic on negative indexes (`C56_index_refuted`);
* unsigned big-integer encodings drop the sign (`C10_unsigned_pair_refuted`), so do time locks (`C10_timelock_refuted`);
* getCallValueTokenName writes no token name (`C57_token_name_refuted`); getCallValue writes nothing for value 0.

Storage:
* a different value of the same length is stored for the price of the copy (`C14_same_length_refuted`); refunds wrap (`C13_refund_bound_needed_refuted`);
* time lock and pending-async cells are named by a suffix of a hash and a plain storageStore can forge them (`C16_lock_forged_refuted`);
* a time lock on a key with the protected prefix writes a protected key (`C15_timelock_refuted`);
* a nested executeReadOnly switches read-only mode off for the rest of the outer read-only call (`C20_nested_refuted`).

Money and output:
* transfers are possible in read-only mode, and executeReadOnly forwards the caller's own call value (`C21_*_refuted`);
* a failed deployment deletes the output account with the value it already held (`C22_call_refuted`);
* executeOnDestContextByCaller spends the caller's caller's balance (`C24_call_refuted`) and upgrades with its permission (`C42_by_caller_refuted`);
* the output of a built-in function stays when the contract called afterwards fails (`C25_builtin_refuted`);
* the set of updated codes is not restored after a failed nested upgrade (`C26_refuted`);
* a panic below a nested call leaves world snapshots on the stack (`C28_snapshots_after_panic_refuted`).
* the balance shown for an address without an account is 0, whatever was sent to it (`C60_unknown_account_refuted`);
* negative big integers lose their sign in storage (`C62_negative_refuted`).

Gas:
* createContract can give its caller gas back that it did not have (`C31_refuted`); gas attached by transferValueExecute to another shard is not deducted (`C32_refuted`); calls that fail before the callee starts cost nothing (`C33_refuted`);
* gas locked for a callback is computed with the code size of the last contract that ran (`C34_refuted`); locked gas of arriving callbacks is lost (`C35_refuted`); nested calls overwrite the caller's refund (`C36_refuted`).

* thirteen big-integer functions are charged the price of subtraction (`C63_add_refuted`); createAsyncCall and setAsyncContextCallback are free (`C63_async_context_refuted`).
* a rejected gas schedule is shown as the current one (`C65_shown_refuted`); instruction prices are cut to 32 bits (`C65_wide_refuted`); an entry given twice in other letters gets a price that depends on Go's map order (`C65_twice_refuted`).

Code:
* contracts deployed by contracts are not validated (`C39_create_refuted`); nested calls reach callBack (`C41_refuted`); accounts without code can be "upgraded" (`C42_not_a_contract_refuted`);
* the compiled code cache serves stale code, or stores new code under an old hash, after an upgrade followed by a call in one transaction (`C43_*_refuted`).

Asynchronous calls:
* no rejection of calls to oneself or from callbacks (`C44_*_refuted`); return codes are numbers in local and names in remote callbacks (`C45_representation_refuted`);
* contexts with several pending calls never drain (`C46_drain_refuted`), the context callback is never run; when the waiting contract is local the host stops (`C46_local_stops`);
* the callback chosen for two contexts waiting for one contract depends on Go's map order (`C48_callback_refuted`).

Errors, IPC, Mandos:
* errors.Is on an error wrapped once panics for absent errors (`C38_single_refuted`);
* message replay across dialogues, unanswered gas schedule changes, five hook questions that are never answered, lengths of 4 GB (`C50_*_refuted`);
* over IPC a failed RevertToSnapshot is reported as success, error texts are used as format strings, errors without a text and nil outputs become successes (`C64_*_refuted`);
* the scenario JSON parser drops junk, leading commas and repeated keys (`C52_refuted`), the printer does not escape (`C51_refuted`);
* a signed width with nothing behind it crashes the expression interpreter (`C53_crash_refuted`); reconstructed texts do not denote the same bytes (`C53_*_back_refuted`).

The driver of a machine in another process (`DriverModel`):

* a process that exits is never waited for, so that the driver takes it for running and loses the next request (`C82_exit_refuted`);
* when exec fails once, the command has no process and every later operation panics on a nil pointer (`C82_start_refuted`);
* a change of the gas schedule works only because the machine crashes on it and is started again with the new schedule (`C50_gas_schedule_refuted`, `C82_undisturbed`);
* by reading: when the time left of a dialogue is exactly 0 ms, the next receive has no deadline at all; the driver keeps its own copies of the process's ends of the pipes, so that a crash is noticed only by the deadline.

Scenarios (the executor and its mock world, `WorldModel`):
* the owner, "+" among the tokens and the frozen flag of a checkState step are not compared, a step without accounts panics (`C69_*_refuted`); a declared log hash is not compared (`C70_log_hash_refuted`);
* what is stored after a failed nested call survives the failure of the transaction (`C71_failed_refuted`), as do names, owners and balances set by built-in functions (`C71_username_refuted`);
* a query keeps what it writes (`C73_query_refuted`); a deployment with tokens panics (`C72_deploy_tokens_refuted`);
* two failed calls in a row take back what was saved before the first (`C74_revert_twice_refuted`).
* a setState step loses the last nonce of a token without instances, the metadata of an instance without a nonce and the high bits of royalties, and lets instance 66 of token A overwrite token AB (`C75_*_refuted`);
* writing a scenario loses shards, the last nonce of a token in short form and demands for empty metadata (a failing scenario passes), writes the creator where the URI is to be checked (a passing scenario fails), panics on incomplete logs and on checkState without accounts, and writes a missing sender in a way the reader refuses (`C76_*_refuted`);
* reading a step whose expectation is written before its transaction panics (`C78_order_refuted`);
* the gas checking of a file referred to by externalSteps stays in force for the rest of the referring file (`C79_check_gas_refuted`);
* of a directory run only the first gas schedule asked for is ever used (`C80_schedule_refuted`), and a missing directory is a success (`C80_unreadable_refuted`);
* by reading: a token transfer that fails, or an output whose deltas do not sum up to the value, ends the scenario with an error but commits.

The debugging facade (`DebugModel`):
* addresses and storage keys that are not UTF-8 are mangled when a world is written, so that accounts vanish or become one and stored values are lost (`C84_address_refuted`, `C84_two_accounts_refuted`, `C84_key_refuted`); a world whose name is not text loses every second change (`C84_world_name_refuted`); an outcome called "../worlds/w" empties the world w, and the next account for it panics (`C84_outcome_refuted`);
* the value of a run or deployment is credited to the contract and taken from nobody (`C85_value_refuted`);
* negative values are accepted (`C86_negative_value`);
* by reading: the nonce of the caller is never raised, so that the second deployment of an account gets the address of the first.

What the world of a scenario tells the machine (C88, C89):

* `GetESDTToken` of an address without account calls a method on a nil pointer (`C88_unknown_token_refuted`);
* generated addresses use one byte of the nonce, and bytes 0 to 14 and 30 to 31 of the creator (`C89_nonce_refuted`, `C89_creators_refuted`);
* new addresses are appended and the first is used, so that a setState step cannot replace a declaration (`C89_again_refuted`);
* a creator shorter than 30 bytes makes the generation panic (`C89_short_refuted`).
* the conversion to K (C90) puts strings into tokens as they stand in the JSON file: an escaped quote ends the K string early, an escaped backslash is lost (`C90_escape_refuted`).

Calls of exported functions and imports (C91, C92; the host itself passes no arguments):

* `int` and `uint` arguments are cut to the width of the parameter without an error (`C91_truncated_refuted`), while `uint32` is refused for an i32 and `uint64` for an i64 (`C91_unsigned_refuted`);
* of several results only the first is given back (`C91_results_refuted`);
* registering a name twice replaces the function (`C92_twice_refuted`).

Created calls (C93):

* when the destination of a created call fails, ExecuteOnDestContext gives nil for the asynchronous information, and getPendingAsyncCalls dereferences it: the panic is caught at the top and the whole transaction fails, the error function is never called (`C93_lost`, `C93_failed_refuted`);
* a local destination gets all the gas left, whatever gas the call was made with (`C93_gas_refuted`);
* when that destination creates a call to another shard, sending it takes all the gas, and the first call, now pending, finds none: the transaction runs out of gas however much it had (`C93_nested_refuted`);
* calls created by a contract that runs in the context of its caller are dropped silently (`C93_same_refuted`).

Upgrades by contracts (C94):

* upgradeContract only logs the error of ExecuteAsyncCall: a contract without gas for the callback goes on as if the upgrade had been asked for, and the transaction succeeds without it (`C94_silent_refuted`);
* the gas limit it is given is compared with a minimum, and then the new constructor gets all the gas left (`C94_gas_refuted`).

Charging gas (C95):

* runtime.SetPointsUsed caps the counter at 2^63 - 1, the gas of an execution is not capped: a contract with more gas than that goes on for nothing once the counter is full (`C95_full`, `C95_free_refuted`);
* gas handed to a call is put on the counter and the rest taken off again: when the counter is full in between, all earlier work is free (`C95_earlier_refuted`).

Reserved keys (C96):

* GetStorage keeps reserved values in the storage updates, as GetStorageFromAddress takes care not to: a contract that has read such a value before a built-in function changes it reads the old value afterwards (`C96_stale_refuted`);
* the output then tells the node to store the old value (`C96_stored_refuted`); C15 is about writes by contracts and is not affected.

Payments with asynchronous calls (C97):

* sendCallbackToCurrentCaller transfers the value of the call back to the caller, also when the call has succeeded: a contract paid from another shard is not paid (`C97_sent_back_refuted`), and a contract that passes the payment on loses its own money (`C97_paid_twice_refuted`); in the same shard both keep the payment.

Overspending (C98):

* checkFinalGasAfterExit is only called for transactions and init functions. A contract called in the same context whose last host call costs more than what is left succeeds, where the same call by a transaction or in its own context fails; the excess is taken from the gas charged to the caller, so the transaction is cheaper than with enough gas (`C98_same_refuted`).

Warm instances (C87), with `useWarmInstance` on:

* the warm instance is chosen by the address alone: an upgrade of the contract runs the old code, and the new code is neither compiled nor verified; the memory of the previous call is still there (`C87_second_refuted`);
* a contract that is called back shares the instance: the gas used so far and the gas limit of the outer call are overwritten (`C87_called_back_refuted`);
* with compiled code in the cache, an instance can stop being warm while its owner is suspended twice; the inner return frees it, and the outer code goes on with a freed instance (`C87_freed_refuted`; not without compiled code: `C87_uncached_partial`);
* an instance that is replaced as the warm one is never freed (`C87_left_refuted`).

Between transactions:
* an asynchronous call in a constructor locks gas for the size of whatever code the host last looked up, in this or an earlier transaction: nodes with different pasts disagree on the output (`C58_deploy_refuted`).

Deployment addresses:
* re-entrant deployments reuse an address, failed deployments advance the nonce differently (`C54_*_refuted`).

Compiled code is cached before it is verified: the code of a refused deployment
stays in the cache (`C43_saved_unverified`).

## Wrong programs

`seeded/LOG.jsonl` lists the edits of the model tried so far, the claim each
breaks, the theorems that failed and the theorems that were tightened.

