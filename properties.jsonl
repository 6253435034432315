{"id": "C01", "title": "Gas arithmetic is exact or clamped, never wrapped", "statement": "For unsigned 64-bit operands, the addition used for gas returns the true sum when it fits and 2^64-1 otherwise; subtraction returns the true difference or 0; multiplication returns the true product or 2^64-1. For signed 32/64-bit operands addition/subtraction return the true result whenever it is representable. Consequently the unsigned operations are monotone in every argument and never silently wrap.", "quantifier": "all pairs of 64-bit unsigned values; all pairs of 32/64-bit signed values", "why_tests_cant": "2^128 operand pairs; the overflow tests (c>=a, a==res/b, (res>a)==(b>0)) are wrong or right only for all of them", "anchors": ["math/overflow.go: AddUint64, SubUint64, MulUint64, AddInt64, AddInt32, SubInt"]}
{"id": "C02", "title": "Overflow is reported exactly when it happens", "statement": "The error-reporting addition and multiplication return the exact result with no error iff that result is representable in 64 bits, and report an error iff it is not.", "quantifier": "all pairs of 64-bit unsigned values", "why_tests_cant": "the division-based overflow detection has to be right on all operand pairs", "anchors": ["math/overflow.go: AddUint64WithErr, MulUint64WithErr"]}
{"id": "C03", "title": "Reading contract memory returns exactly the requested bytes or an error", "statement": "A memory read at (offset,length) fails iff the length is negative or the offset is outside the memory; it yields exactly the bytes offset..offset+length-1 when that interval lies inside memory; when the interval starts inside but runs past the end, the result still has the requested length, consisting of the available bytes followed by zeros. Memory is never changed, no byte outside the instance memory is observable, and the host never panics.", "quantifier": "every memory content, every 32-bit signed offset and length", "why_tests_cant": "the interesting cases are 32-bit sums that overflow and the interplay of offset, length and memory size", "anchors": ["arwen/contexts/runtime.go: MemLoad", "math/overflow.go: AddInt32", "arwen/helpers.go: GuardedGetBytesSlice"]}
{"id": "C04", "title": "Writing contract memory writes exactly the given bytes", "statement": "A successful memory write changes exactly the bytes offset..offset+len-1 to the data, every other old byte stays as it was, memory grows by at most one page and added bytes are zero; a later read of the same interval returns the data; a failed write leaves all old bytes unchanged; an empty write is a no-op.", "quantifier": "every memory content, offset and data", "why_tests_cant": "frame condition over every address of memory and the growth arithmetic near the 2^31 limit", "anchors": ["arwen/contexts/runtime.go: MemStore", "arwen/common.go: WASMPageSize"]}
{"id": "C05", "title": "Argument vectors passed through memory are decoded exactly", "statement": "When a contract passes n arguments by laying out n little-endian 32-bit lengths and the concatenated bytes inside its memory, the callee (or event log) receives exactly those n byte strings in order.", "quantifier": "every list of byte strings, every layout inside memory, every n", "why_tests_cant": "n*4 and the running offset are 32-bit products/sums that can wrap; unbounded list length", "anchors": ["arwen/elrondapi/elrondei.go: getArgumentsFromMemory, createInt32Array", "arwen/contexts/runtime.go: MemLoadMultiple"]}
{"id": "C06", "title": "Malformed argument vectors are rejected by every API that takes one", "statement": "If the argument vector described by (numArguments, lengthsOffset, dataOffset) cannot be read from memory, the API call fails and no call is performed with a different argument list.", "quantifier": "every memory, every 32-bit numArguments/offsets, every API function that takes an argument vector", "why_tests_cant": "needs all malformed descriptors at all call sites; an ignored error at one call site is invisible to happy-path tests", "anchors": ["arwen/elrondapi/elrondei.go: extractIndirectContractCallArguments, createContract, upgradeContract, writeEventLog, getArgumentsFromMemory"]}
{"id": "C07", "title": "Big-integer handles are fresh and behave like variables", "statement": "Allocating a big integer returns a handle that is not in use, holding the given value, and changes no other handle; an operation writing to a destination handle changes that handle only, also when source and destination coincide; reading a handle returns the last value written to it.", "quantifier": "every sequence of big-integer API calls", "why_tests_cant": "handle allocation depends on the whole history (contracts may invent their own handles)", "anchors": ["arwen/contexts/bigint.go: Put, GetOne, GetTwo, GetThree", "arwen/elrondapi/bigIntOps.go"]}
{"id": "C08", "title": "A called contract cannot see or change the caller's big integers", "statement": "When execution enters another contract the big-integer store is empty for the callee, and after it returns (normally or not) the caller's handles and values are exactly as before the call.", "quantifier": "every caller state and every callee behaviour, any nesting depth", "why_tests_cant": "depends on deep copying of the saved state for every interleaving of operations and nesting", "anchors": ["arwen/contexts/bigint.go: PushState, PopSetActiveState, InitState, clone"]}
{"id": "C09", "title": "Numbers survive being stored, passed and returned", "statement": "Unsigned big-endian and signed two's-complement encodings used for arguments, storage and return data are mutually inverse with their decoders for every integer in the documented domain; encodings are minimal (no redundant leading byte); 64-bit loads reject exactly the byte strings whose value is out of range.", "quantifier": "every integer (unbounded), every byte string", "why_tests_cant": "unbounded integers; sign/length boundary cases at every byte length", "anchors": ["arwen/elrondapi/bigIntOps.go: bigIntGet/Set(Un)SignedBytes, bigIntStorageStore/LoadUnsigned, bigIntFinish*", "arwen/elrondapi/smallIntOps.go"]}
{"id": "C10", "title": "Negative numbers are not silently turned positive", "statement": "Storing a signed number through an API and reading it back through the matching API never yields a different number.", "quantifier": "every integer and every store/load API pair (bigIntStorageStoreUnsigned/LoadUnsigned, bigIntGetUnsignedBytes/SetUnsignedBytes, int64storageStore/int64storageLoad, setStorageLock/getStorageLock)", "why_tests_cant": "requires all sign/size combinations for each API pair", "anchors": ["arwen/elrondapi/bigIntOps.go", "arwen/elrondapi/smallIntOps.go", "arwen/elrondapi/elrondei.go: setStorageLock, getStorageLock"]}
{"id": "C11", "title": "Big-integer division and modulus obey their laws, and division by zero fails safely", "statement": "For a non-zero divisor truncated division/modulus satisfy a = b*q + r, |r| < |b|, r has the sign of a (or is 0); Euclidean division/modulus satisfy a = b*q + r with 0 <= r < |b|. With divisor 0, negative operands of bitwise operations, or negative shift counts the execution is failed and the destination keeps its value.", "quantifier": "all integers a, b, all handles (also aliased)", "why_tests_cant": "unbounded operands and all sign combinations, aliasing", "anchors": ["arwen/elrondapi/bigIntOps.go: bigIntTDiv, bigIntTMod, bigIntEDiv, bigIntEMod, bigIntNot/And/Or/Xor, bigIntShr/Shl"]}
{"id": "C12", "title": "Storage is a map: a contract reads back its own last write", "statement": "Within a transaction, a contract's storage read of a key returns the last value it successfully wrote to that key, or the value stored in the node if it never wrote it; writes to other keys never matter.", "quantifier": "every initial node state and every sequence of storage reads and writes", "why_tests_cant": "requires all histories of reads, writes, deletions interleaved with the write cache", "anchors": ["arwen/contexts/storage.go: GetStorage, GetStorageUnmetered, SetStorage"]}
{"id": "C13", "title": "Storage write status and price are determined by old and new value", "statement": "A storage write reports unchanged/added/deleted/modified according to old and new value, charges exactly the price of the written bytes as documented (store per new byte, persist per overwritten byte, copy for unchanged, extra for keys over 32 bytes) and refunds exactly the released bytes; it never charges a negative or wrapped amount.", "quantifier": "every key, old value, new value and gas schedule", "why_tests_cant": "case split on lengths and saturation over unbounded values", "anchors": ["arwen/contexts/storage.go: SetStorage", "arwen/contexts/metering.go: UseGas, FreeGas"]}
{"id": "C14", "title": "Replacing a stored value by a different value of the same length is paid for", "statement": "Every storage write that changes the stored value costs at least the persist price of the bytes written.", "quantifier": "every key, old value, new value and gas schedule", "why_tests_cant": "needs all length relations between old and new value", "anchors": ["arwen/contexts/storage.go: SetStorage"]}
{"id": "C15", "title": "Contracts cannot write protocol-reserved keys", "statement": "No sequence of contract API calls changes the value of a key with the protocol-reserved prefix of any account, or of a key with the VM-protected prefix of any account, and attempting to write such a key through the storage API fails the write.", "quantifier": "every contract behaviour (all sequences of API calls, nested calls included), every key", "why_tests_cant": "safety over all programs and call histories", "anchors": ["arwen/contexts/storage.go: SetStorage, SetProtectedStorage, isArwenProtectedKey, isElrondReservedKey"]}
{"id": "C16", "title": "Time locks and pending-async data are not writable by plain storage writes", "statement": "The storage cell that holds a key's time lock (and the cell holding pending asynchronous calls) cannot be changed by the ordinary storage-store API.", "quantifier": "every key, timestamp and contract", "why_tests_cant": "depends on how the protected key is composed for every user key", "anchors": ["arwen/helpers.go: CustomStorageKey", "arwen/common.go: TimeLockKeyPrefix, AsyncDataPrefix", "arwen/elrondapi/elrondei.go: setStorageLock"]}
{"id": "C17", "title": "Time lock semantics", "statement": "After setStorageLock(key,t) with 0 <= t < 2^63, getStorageLock(key) = t, and isStorageLocked(key) is 1 exactly while the block timestamp is < t; clearStorageLock unlocks; locks on different keys are independent.", "quantifier": "every key, timestamp, block timestamp, and every interleaved operation on other keys", "why_tests_cant": "all timestamps/keys and interleavings; key composition must be injective", "anchors": ["arwen/elrondapi/elrondei.go: setStorageLock, getStorageLock, isStorageLocked, clearStorageLock", "arwen/helpers.go: CustomStorageKey"]}
{"id": "C18", "title": "A contract's storage is written only by code running in its own storage context", "statement": "During a transaction the storage of account X changes only through storage writes executed while X is the storage owner of the current frame (X was entered by a call with destination context, or code was run on X's behalf by executeOnSameContext/delegate).", "quantifier": "all contracts, all nested call trees", "why_tests_cant": "isolation over all programs and call trees", "anchors": ["arwen/contexts/storage.go: SetAddress, SetStorage", "arwen/host/execution.go: ExecuteOnDestContext, ExecuteOnSameContext"]}
{"id": "C19", "title": "Foreign storage is readable only when marked readable", "statement": "storageLoadFromAddress(addr,key) returns data only if addr is the executing contract itself, or addr exists and its code metadata has the readable flag; otherwise it returns empty.", "quantifier": "every address, key, metadata and storage", "why_tests_cant": "all account states including accounts touched in this transaction", "anchors": ["arwen/contexts/storage.go: GetStorageFromAddress"]}
{"id": "C20", "title": "Read-only execution cannot write storage", "statement": "While a contract is executing inside executeReadOnly, at any nesting depth below it, no storage write takes effect.", "quantifier": "every contract behaviour inside the read-only call, every nesting of calls", "why_tests_cant": "requires all behaviours of nested contracts", "anchors": ["arwen/elrondapi/elrondei.go: ExecuteReadOnlyWithTypedArguments", "arwen/contexts/storage.go: SetStorage", "arwen/contexts/runtime.go: SetReadOnly, PushState, PopSetActiveState"]}
{"id": "C21", "title": "Read-only execution moves no funds", "statement": "An executeReadOnly call changes no account's balance.", "quantifier": "every contract behaviour inside the read-only call, every call value of the calling contract", "why_tests_cant": "requires all behaviours of nested contracts and call values", "anchors": ["arwen/elrondapi/elrondei.go: ExecuteReadOnlyWithTypedArguments", "arwen/host/execution.go: ExecuteOnSameContext", "arwen/contexts/output.go: TransferValueOnly"]}
{"id": "C22", "title": "Value transfers conserve the total balance", "statement": "In every output produced by the VM, the sum of the balance changes over all accounts is 0 for a nested value movement, i.e. whatever is credited to some account was debited from another one; nothing is minted or destroyed.", "quantifier": "every transaction, every contract behaviour, every call tree, including failed nested calls", "why_tests_cant": "sum over all accounts for all executions, including rollbacks and merges of output states", "anchors": ["arwen/contexts/output.go: TransferValueOnly, PushState, PopMergeActiveState, PopDiscard, DeleteOutputAccount", "arwen/host/execution.go"]}
{"id": "C23", "title": "No account is overdrawn", "statement": "No contract transfer succeeds unless the sender's balance (node balance plus balance changes of this transaction) covers it, and after any execution balance + change >= 0 for every account debited by a contract; negative transfers are rejected.", "quantifier": "every sequence of transfers and nested calls", "why_tests_cant": "needs every history of transfers and rollbacks", "anchors": ["arwen/contexts/output.go: TransferValueOnly, hasSufficientBalance"]}
{"id": "C24", "title": "A contract can only spend its own balance", "statement": "Every debit performed by the VM during contract execution is from the account of the contract that is executing (or a callback return by the protocol); a contract can never debit its caller or any third party.", "quantifier": "every contract behaviour and call tree", "why_tests_cant": "authorization property over all programs; every API that moves value", "anchors": ["arwen/elrondapi/elrondei.go: ExecuteOnDestContextByCallerWithTypedArgs", "arwen/host/execution.go: executeOnDestContextNoBuiltinFunction", "arwen/contexts/output.go: TransferValueOnly"]}
{"id": "C25", "title": "A failed nested call leaves no trace in the output", "statement": "If a nested call on the destination context fails, then accounts, storage, transfers, logs, return data and code changes visible afterwards are exactly those from before the call; only gas is consumed.", "quantifier": "every caller state, every callee behaviour (including deeper nested calls), every failure kind", "why_tests_cant": "atomicity over all behaviours and failure points", "anchors": ["arwen/host/execution.go: ExecuteOnDestContext, finishExecuteOnDestContext", "arwen/contexts/output.go: PushState, PopSetActiveState", "arwen/contexts/blockchain.go: PushState, PopSetActiveState"]}
{"id": "C26", "title": "A failed nested upgrade leaves no code change", "statement": "The final output reports new code only for accounts whose deployment or upgrade succeeded; an upgrade that failed in a nested call contributes no code to the output.", "quantifier": "every call tree with deployments/upgrades and failures", "why_tests_cant": "bookkeeping of code updates across nested frames in all orders", "anchors": ["arwen/contexts/output.go: codeUpdates, DeployCode, removeNonUpdatedCode, PushState, PopSetActiveState"]}
{"id": "C27", "title": "Nested outputs merge chronologically", "statement": "After a successful nested call the caller's output contains the effects of both frames: per storage key and per account field the later write wins, transfers and logs of both are kept in order, nothing of the caller's earlier effects is lost.", "quantifier": "every pair of caller output / callee effects", "why_tests_cant": "merge over all account maps, key maps and lists", "anchors": ["arwen/contexts/output.go: mergeVMOutputs, mergeOutputAccounts, mergeStorageUpdates, PopMergeActiveState, AddToActiveState"]}
{"id": "C28", "title": "Every nested call restores the caller's frame", "statement": "After any nested call returns, with success, error or a panic caught at the top, the caller's runtime frame (address, input, function, current instance), storage owner and all state-stack heights are what they were before the call.", "quantifier": "every caller state and callee behaviour", "why_tests_cant": "balance of seven independent stacks over all paths", "anchors": ["arwen/host/execution.go: finishExecuteOnDestContext, finishExecuteOnSameContext, CreateNewContract, executeUpgrade", "arwen/contexts/*: PushState, PopSetActiveState, PopDiscard"]}
{"id": "C29", "title": "Contract nesting depth is bounded and exceeding it is an error", "statement": "At no time are more than 10 other instances suspended below the running one; a call that would exceed this fails with an execution error, so every execution tree has bounded nesting.", "quantifier": "every contract behaviour", "why_tests_cant": "all recursion patterns of mutually calling contracts, including asynchronous callbacks", "anchors": ["arwen/contexts/runtime.go: StartWasmerInstance, pushInstance, popInstance", "arwen/host/arwen.go: MaximumWasmerInstanceCount"]}
{"id": "C30", "title": "Gas used never exceeds gas provided", "statement": "In every successful output, gas remaining plus gas used by all accounts plus gas forwarded equals exactly the gas provided; in every failing output the remaining gas is 0 and the whole provided gas is accounted as used.", "quantifier": "every execution", "why_tests_cant": "arithmetical invariant over all executions and gas schedules", "anchors": ["arwen/contexts/metering.go: UpdateGasStateOnSuccess, checkGas, UpdateGasStateOnFailure, setGasUsedToOutputAccounts", "arwen/contexts/output.go: GetVMOutput, CreateVMOutputInCaseOfError"]}
{"id": "C31", "title": "Gas only decreases while a contract runs", "statement": "Gas left never exceeds the gas provided; no API call or nested call ever increases the gas left of the frame that performs it.", "quantifier": "every API call sequence and callee behaviour", "why_tests_cant": "requires all histories of metering operations over all frames", "anchors": ["arwen/contexts/metering.go: UseGas, GasLeft, RestoreGas, DeductInitialGasForIndirectDeployment", "arwen/host/execution.go: execute, CreateNewContract"]}
{"id": "C32", "title": "Forwarded gas is paid for", "statement": "Gas attached to an outgoing cross-shard transfer is deducted from the gas of the frame that creates it; a contract cannot attach more gas than it has.", "quantifier": "every gasLimit argument and gas state", "why_tests_cant": "all interleavings of forwarding and consumption", "anchors": ["arwen/elrondapi/elrondei.go: TransferValueExecuteWithTypedArgs", "arwen/contexts/output.go: Transfer", "arwen/contexts/metering.go: BoundGasLimit, updateSCGasUsed, checkGas"]}
{"id": "C33", "title": "Gas handed to a nested call never exceeds what the caller has", "statement": "The gas provided to a nested call is at most the caller's remaining gas, is deducted from the caller, and the unused part (only) is given back on success; a failed nested call costs exactly the gas handed to it.", "quantifier": "every gasLimit argument (negative included), every callee behaviour", "why_tests_cant": "all gas limits and callee outcomes", "anchors": ["arwen/contexts/metering.go: BoundGasLimit, UseGas, RestoreGas", "arwen/host/execution.go: execute, finishExecuteOnDestContext"]}
{"id": "C34", "title": "Asynchronous calls reserve gas for the callback", "statement": "An asynchronous call is accepted only if the remaining gas strictly exceeds the cost of the async steps plus, when the contract has a callback, the callback lock; the lock is proportional to the size of the contract that will execute the callback.", "quantifier": "every gas state, code size and preceding history of nested calls", "why_tests_cant": "depends on which contract's code was loaded last in the history", "anchors": ["arwen/contexts/runtime.go: ExecuteAsyncCall, GetSCCodeSize", "arwen/contexts/metering.go: ComputeGasLockedForAsync, UseGasForAsyncStep, UseGasBounded"]}
{"id": "C35", "title": "Gas locked for a callback reaches the callback", "statement": "When a callback is executed, the gas it can use is the gas it was provided plus the gas locked for it, and a callback that stays within this budget succeeds.", "quantifier": "every callback input with any provided and locked gas", "why_tests_cant": "relation between two contexts' copies of the same input for all values", "anchors": ["arwen/contexts/metering.go: unlockGasIfAsyncCallback, deductInitialGas", "arwen/contexts/runtime.go: InitStateFromContractCallInput", "arwen/host/execution.go: doRunSmartContractCall"]}
{"id": "C36", "title": "Gas refunds accumulate", "statement": "Storage released by a frame that succeeds is credited to the gas refund of the final output, also when the frame performs further nested calls.", "quantifier": "every sequence of releases and nested calls", "why_tests_cant": "all interleavings of refund and state merge", "anchors": ["arwen/contexts/metering.go: FreeGas", "arwen/contexts/output.go: GetRefund, SetRefund, CensorVMOutput, mergeVMOutputs, AddToActiveState"]}
{"id": "C37", "title": "Failure outputs carry no effects", "statement": "Whenever a transaction fails, the returned output contains no account changes, transfers, logs or return data, its gas remaining is zero, and its return code identifies the error class (out of gas, out of funds, user error, function not found, wrong signature, contract not found, contract invalid, upgrade failed, execution failed).", "quantifier": "every execution that ends in error", "why_tests_cant": "over all executions, all error sources and wrappings", "anchors": ["arwen/contexts/output.go: CreateVMOutputInCaseOfError, resolveReturnCodeFromError", "arwen/host/execution.go", "arwen/host/breakpoints.go"]}
{"id": "C38", "title": "Error wrapping preserves identity", "statement": "Wrapping an error any number of times never hides the base error or any added error from an errors.Is-style query, never invents one, and querying never panics.", "quantifier": "every finite chain of wraps and every query", "why_tests_cant": "unbounded wrap chains", "anchors": ["arwen/errorWrapping.go: WrapError, Is, GetBaseError, GetLastError, Unwrap"]}
{"id": "C39", "title": "Only well-formed contracts are ever instantiated from new code", "statement": "Every contract deployed or upgraded, directly or by another contract, declares memory, exports only void functions with valid, non-reserved names, and passes the same validation on every deployment path.", "quantifier": "every code blob and every deployment path (direct deploy, direct upgrade, createContract, deployFromSourceContract, upgrade via async call)", "why_tests_cant": "the validation must be on every path, for every code", "anchors": ["arwen/contexts/runtime.go: VerifyContractCode, makeInstanceFromContractByteCode, MustVerifyNextContractCode", "arwen/contexts/validator.go", "arwen/host/execution.go: CreateNewContract, performCodeDeployment, executeUpgrade"]}
{"id": "C40", "title": "Function name validity", "statement": "An exported function name is accepted iff it is non-empty, at most 255 bytes, pure ASCII and not a reserved name (API import, active builtin function, upgradeContract).", "quantifier": "every byte string, every set of reserved names", "why_tests_cant": "all strings", "anchors": ["arwen/contexts/validator.go: verifyFunctionName, isASCIIString", "arwen/contexts/reservedFunctions.go"]}
{"id": "C41", "title": "Constructor and callback entry points are not callable directly", "statement": "A transaction or another contract can never execute `init` as an ordinary call, and `callBack` is executed only for protocol callbacks.", "quantifier": "every transaction input and every nested call", "why_tests_cant": "all call paths (direct, nested, async)", "anchors": ["arwen/host/execution.go: verifyAllowedFunctionCall, callSCMethod, callSCMethodIndirect", "arwen/contexts/runtime.go: GetFunctionToCall, GetInitFunction"]}
{"id": "C42", "title": "Only the owner can upgrade an upgradeable contract", "statement": "A contract's code is replaced from within another contract's execution only if the target account exists, is a contract, its metadata has the upgradeable flag and the requester is its owner; otherwise the upgrade fails and no code changes.", "quantifier": "every caller, target account state and arguments", "why_tests_cant": "authorization over all callers/targets", "anchors": ["arwen/host/execution.go: checkUpgradePermission, executeUpgrade"]}
{"id": "C43", "title": "The code that runs for an address is that address's current code", "statement": "Whenever a contract instance is started for an address, it is the compilation of the code which that address has at that moment (including changes made earlier in the same transaction), with or without compiled-code caching, and the compiled-code cache only ever maps a code hash to the compilation of a code with that hash.", "quantifier": "every history of deployments, upgrades and calls, every cache content built by such histories", "why_tests_cant": "cache coherence over histories, across transactions and reverts", "anchors": ["arwen/contexts/runtime.go: StartWasmerInstance, makeInstanceFromCompiledCode, makeInstanceFromContractByteCode, saveCompiledCode", "arwen/contexts/blockchain.go: GetCode, GetCodeHash"]}
{"id": "C44", "title": "Asynchronous call routing", "statement": "An asynchronous call is executed synchronously in the same shard, or turned into exactly one outgoing transfer carrying the call data, value and gas lock; a call to self or from a callback context that is not permitted is rejected; the decision depends only on shard, call type and data.", "quantifier": "every pair of addresses, shards, data and call type", "why_tests_cant": "all combinations of routing inputs", "anchors": ["arwen/host/asyncCall.go: determineAsyncCallExecutionMode, handleAsyncCallBreakpoint, sendAsyncCallToDestination"]}
{"id": "C45", "title": "Callback arguments report the destination's outcome", "statement": "The callback of an asynchronous call receives the return code first, then either the returned data (success) or the error message (failure), gets the remaining gas, and data length is charged.", "quantifier": "every destination outcome", "why_tests_cant": "all outcomes and data", "anchors": ["arwen/host/asyncCall.go: createCallbackContractCallInput, sendCallbackToCurrentCaller, computeDataLengthFromArguments"]}
{"id": "C46", "title": "Pending asynchronous calls drain", "statement": "When all pending asynchronous calls of a context have been answered, the context callback runs exactly once and the pending data is removed; each answer removes exactly the answered call.", "quantifier": "every set of pending calls and every order of answers", "why_tests_cant": "all orders of answers across blocks", "anchors": ["arwen/host/asyncCall.go: processCallbackStack, savePendingAsyncCalls, getPendingAsyncCalls"]}
{"id": "C47", "title": "Gas split among asynchronous calls", "statement": "Setting up gas for several asynchronous calls never hands out more gas than is left, gives every call with unspecified gas an equal share, never reduces a specified amount, and its result does not depend on the iteration order of contexts.", "quantifier": "every list/map of calls with any provided gas and every iteration order", "why_tests_cant": "Go map iteration order is unspecified; unbounded number of calls", "anchors": ["arwen/host/asyncCall.go: setupAsyncCallsGas"]}
{"id": "C48", "title": "Results do not depend on map iteration order", "statement": "The totals and merged outputs computed by iterating over Go maps (accounts, gas by account, async contexts) are the same for every iteration order.", "quantifier": "every permutation of map entries", "why_tests_cant": "iteration order is randomized at run time", "anchors": ["arwen/contexts/metering.go: getCurrentTotalUsedGas, setGasUsedToOutputAccounts", "arwen/contexts/output.go: mergeVMOutputs, removeNonUpdatedCode", "arwen/host/asyncCall.go: setupAsyncCallsGas"]}
{"id": "C49", "title": "Call data built for another shard parses back to the same call", "statement": "The data string built for a cross-shard call, an async call or an ESDT transfer parses back to exactly the same function name and argument list.", "quantifier": "every function name without separator and every argument list", "why_tests_cant": "all argument byte strings, unbounded lists", "anchors": ["arwen/elrondapi/elrondei.go: makeCrossShardCallFromInput, upgradeContract", "arwen/contexts/output.go: TransferESDT", "arwen/host/asyncCall.go: sendCallbackToCurrentCaller"]}
{"id": "C50", "title": "IPC framing", "statement": "Any message sent over a pipe is received intact whatever way the byte stream is chunked; out-of-order, duplicated or replayed messages are rejected; nonces strictly increase by one.", "quantifier": "every sequence of messages and every prefix/duplication/reordering", "why_tests_cant": "all message histories", "anchors": ["ipc/common/messenger.go: Send, Receive", "ipc/common/sender.go", "ipc/common/receiver.go"]}
{"id": "C51", "title": "Ordered JSON round-trip", "statement": "Printing an ordered JSON value and parsing it back gives the same value, with object keys in the same order.", "quantifier": "every JSON value built of maps, lists, strings and booleans", "why_tests_cant": "unbounded nested structures and strings", "anchors": ["mandos-go/orderedjson/ojParse.go: ParseOrderedJSON", "mandos-go/orderedjson/ojToJson.go: JSONString"]}
{"id": "C52", "title": "Accepted JSON is well-formed", "statement": "The ordered JSON parser accepts a text only if it is a well-formed JSON document of the supported fragment, accepts every such document, and never drops input silently.", "quantifier": "every byte string", "why_tests_cant": "all inputs of a hand-written state machine", "anchors": ["mandos-go/orderedjson/ojParse.go: ParseOrderedJSON"]}
{"id": "C53", "title": "Mandos value expressions", "statement": "A number or byte-string literal in a scenario denotes exactly the bytes its notation says (decimal, hex, binary, signed, concatenation), and reconstructing a literal from bytes yields an expression that denotes those bytes.", "quantifier": "every literal / every byte string", "why_tests_cant": "all literals and lengths", "anchors": ["mandos-go/expression/interpreter/*.go: InterpretString", "mandos-go/expression/reconstructor/*.go: Reconstruct"]}
{"id": "C54", "title": "New contracts get fresh addresses and nonces advance", "statement": "Each successful or failed deployment by a creator increases the creator's nonce seen by later address derivations, so two successful deployments of the same creator in one transaction use different (creator, nonce) pairs.", "quantifier": "every sequence of deployments by a contract", "why_tests_cant": "all deployment histories with failures in between", "anchors": ["arwen/host/execution.go: CreateNewContract", "arwen/contexts/blockchain.go: NewAddress, IncreaseNonce, GetNonce"]}
{"id": "C55", "title": "Helper encodings", "statement": "Left-padding keeps the numeric value and yields exactly the requested width when the input is shorter; byte reversal is an involution; the LEB128 encoder output decodes to the input and is minimal.", "quantifier": "all byte strings and widths, all 64-bit values", "why_tests_cant": "unbounded inputs", "anchors": ["arwen/helpers.go: PadBytesLeft, InverseBytes, U64ToLEB128"]}
{"id": "C56", "title": "Contract code cannot crash the host out of the API", "statement": "No API call, whatever arguments a contract passes, causes a host panic (index out of range, nil dereference).", "quantifier": "every API function and every 32/64-bit argument", "why_tests_cant": "all argument values incl. negative ones, for every API function", "anchors": ["arwen/elrondapi/bigIntOps.go: bigIntGetUnsignedArgument, bigIntGetSignedArgument", "arwen/elrondapi/elrondei.go: getReturnData, getReturnDataSize, getArgument"]}
{"id": "C57", "title": "Caller identity and payment shown to a contract are genuine", "statement": "The caller address, call value, token identifier and arguments a contract observes through the API are exactly those of the call it is serving.", "quantifier": "every input and every nested call", "why_tests_cant": "all inputs; copying bugs show only for some", "anchors": ["arwen/elrondapi/elrondei.go: getCaller, callValue, getESDTTokenName, getCallValueTokenName", "arwen/contexts/runtime.go: SetVMInput"]}
{"id": "C58", "title": "A transaction does not influence the next one", "statement": "After any transaction, successful, failed or panicking, the host's per-transaction state (outputs, handles, stacks, instances) is empty again, so the output of the next transaction depends only on its input and the node state.", "quantifier": "every history of transactions", "why_tests_cant": "histories of transactions with failures in arbitrary places", "anchors": ["arwen/host/arwen.go: InitState, ClearContextStateStack, Clean, RunSmartContractCall", "arwen/contexts/blockchain.go: stateStack"]}
{"id": "C59", "title": "Questions asked through the API are answered correctly and change nothing", "statement": "Every API function that only answers a question (addresses, block data, arguments, returned data, hashes, signatures, token data, big-integer conversions, remaining gas) writes exactly the right answer to the place asked for, returns the documented number, and changes nothing but memory, gas counter and the handles named.", "quantifier": "every such function, argument, memory content and host state", "why_tests_cant": "over fifty functions times all arguments; frame condition over the whole host", "anchors": ["arwen/elrondapi/elrondei.go: getSCAddress, getReturnData, getGasLeft, getESDTTokenData", "arwen/elrondapi/bigIntOps.go: bigIntGetUnsignedBytes", "arwen/cryptoapi/cryptoei.go: sha256"]}
{"id": "C60", "title": "Balances shown to a contract are up to date", "statement": "A contract asking for the balance of an account is shown the balance the node has for it plus everything moved so far in this transaction, whoever moved it, and asking does not change the balance.", "quantifier": "every account, every state of the transaction's output", "why_tests_cant": "depends on the history of transfers and on which balances were looked up before", "anchors": ["arwen/contexts/blockchain.go: GetBalanceBigInt", "arwen/elrondapi/elrondei.go: getExternalBalance", "arwen/elrondapi/bigIntOps.go: bigIntGetExternalBalance"]}
{"id": "C61", "title": "Results and events are reported completely and in order", "statement": "finish and its typed variants append exactly one result, with exactly the given bytes; event functions append exactly one log entry with the contract's address, topics and data given, and nothing at all in read-only mode; nothing reported earlier changes.", "quantifier": "every function, data, topics and earlier report", "why_tests_cant": "all lengths and layouts in memory, any number of earlier reports", "anchors": ["arwen/elrondapi/elrondei.go: finish, writeLog, writeEventLog", "arwen/elrondapi/smallIntOps.go", "arwen/contexts/output.go: Finish, WriteLog"]}
{"id": "C62", "title": "Numbers kept in storage are read back as they were", "statement": "The typed storage functions keep the shortest encoding of the number in exactly the cell of the given key; reading the key with the matching function gives the number back, for all 64-bit integers and big integers.", "quantifier": "every number, key and state", "why_tests_cant": "all numbers; encodings at the borders of byte lengths and signs", "anchors": ["arwen/elrondapi/smallIntOps.go: smallIntStorageStoreUnsigned, smallIntStorageLoadSigned", "arwen/elrondapi/bigIntOps.go: bigIntStorageStoreUnsigned"]}
{"id": "C63", "title": "Every API call is paid for at its listed price", "statement": "A successful API call costs at least its own entry of the gas schedule, plus the per-byte prices of the data it takes.", "quantifier": "every API function, every schedule and every argument", "why_tests_cant": "one price entry per function and any schedule; a wrong entry is invisible when prices coincide, as in test schedules", "anchors": ["arwen/elrondapi/elrondei.go", "arwen/elrondapi/bigIntOps.go", "arwen/elrondapi/smallIntOps.go", "config/gasCost.go"]}
{"id": "C64", "title": "A virtual machine behind the pipe does what one in the node's process does", "statement": "A contract call or deployment sent to the out-of-process virtual machine gives the node the same output or error, and puts the same questions to the node's hook with the same answers and effects, as the same virtual machine called in process.", "quantifier": "every virtual machine, hook, sequence of questions, output, error, fragmentation and interleaving", "why_tests_cant": "all outputs, errors and dialogues; conversions lose corner cases silently", "anchors": ["ipc/arwenpart/blockchainGateway.go", "ipc/nodepart/blockchainRepliers.go", "ipc/nodepart/arwenDriver.go: RunSmartContractCall", "ipc/common/serializableVMOutput.go: NewSerializableVMOutput, ConvertToVMOutput", "ipc/common/messages.go: SetError, GetError"]}
{"id": "C65", "title": "The prices in force are those of the last complete gas schedule", "statement": "A gas schedule is taken exactly when it gives a non-zero price for every entry; the virtual machine then charges each function and each instruction the price given under its own name. After any history of schedule changes the prices in force, those of API functions and those of instructions alike, are those of the last complete schedule, and this is the schedule the host shows.", "quantifier": "every schedule, every history of changes, every iteration order of maps", "why_tests_cant": "448 instructions and over a hundred functions; test schedules use one price for all, so that exchanged entries are invisible; histories with rejected schedules", "anchors": ["config/gasSchedule.go: CreateGasConfig, MakeGasMap", "config/gasCost.go: ToOpcodeCostsArray", "arwen/host/arwen.go: NewArwenVM, GasScheduleChange, GetGasScheduleMap", "arwen/contexts/metering.go: SetGasSchedule"]}
{"id": "C66", "title": "What a contract asks for is what the host does", "statement": "A contract that asks for a call of another contract, a deployment of code in its memory, a transfer of value or tokens, or an asynchronous call gets, once it has paid for asking, exactly one such request carried out, with the destination, function, arguments, value and data found in its memory at the given places and with the gas it names but no more than it has left; a failure is reported to it and stops it as each function promises, and nothing else happens.", "quantifier": "every state, memory, place in memory and argument vector", "why_tests_cant": "sixteen functions with up to eleven offsets each; a swapped offset or argument is invisible when test values coincide; all memory contents", "anchors": ["arwen/elrondapi/elrondei.go: ExecuteOnDestContextWithHost, ExecuteOnSameContextWithHost, DelegateExecutionWithHost, ExecuteReadOnlyWithHost, TransferValueExecuteWithHost, TransferESDTNFTExecuteWithHost, v1_3_transferValue, v1_3_createContract, v1_3_asyncCall, v1_3_createAsyncCall, v1_3_upgradeContract"]}
{"id": "C67", "title": "Results and events once reported are never lost", "statement": "Whatever a contract does after it has reported results and events - calls that succeed, fail or panic, deployments, transfers, asynchronous calls - they stay in the output, unchanged and in order; and a transaction that succeeds gives out everything its called function had reported when it ended, including through callbacks and asynchronous calls run afterwards.", "quantifier": "every contract, every depth and sequence of nested calls, every outcome", "why_tests_cant": "all sequences of nested calls, with output stacks pushed, merged and restored on every path", "anchors": ["arwen/contexts/output.go: PushState, PopMergeActiveState, PopSetActiveState, PopDiscard, CensorVMOutput, Finish, PrependFinish, WriteLog, AddToActiveState", "arwen/host/execution.go: ExecuteOnDestContext, ExecuteOnSameContext, doRunSmartContractCall, callSCMethod"]}
{"id": "C68", "title": "A checkState step passes exactly when the world is as declared", "statement": "A checkState step of a scenario changes nothing, and passes exactly when every listed account exists with the nonce, balance, username, code, pending call data, storage and tokens (amounts, nonces, metadata, last nonce, roles) declared for it and, unless \"+\" is in the list, no other account exists.", "quantifier": "every declaration and every world", "why_tests_cant": "all worlds and declarations: a check that accepts too much is invisible in passing tests", "anchors": ["arwenmandos/stepCheckAccounts.go: checkAccounts, checkAccountStorage, checkAccountESDT, checkTokenInstances, checkTokenRoles", "mock/world/mockESDTAccount.go: GetFullMockESDTData"]}
{"id": "C69", "title": "Whatever a checkState step declares is compared", "statement": "Every field that a checkState step can declare about an account, among them the owner, frozen tokens and \"+\" for further tokens, takes part in the check; a step that declares nothing passes.", "quantifier": "every field of a declaration", "why_tests_cant": "a check that is not made is invisible as long as the declarations are right", "anchors": ["arwenmandos/stepCheckAccounts.go: checkAccounts, checkAccountESDT", "mandos-go/json/model/account.go", "mandos-go/json/model/esdt.go"]}
{"id": "C70", "title": "The expected result of a transaction is checked exactly", "statement": "A transaction step that expects a result passes exactly when the status, message, results, refund, logs and, if the scenario checks gas, the remaining gas of the transaction are as declared.", "quantifier": "every expectation and every output of the virtual machine", "why_tests_cant": "all outputs and expectations: a check that accepts too much is invisible in passing tests", "anchors": ["arwenmandos/stepCheckTxResult.go: checkTxResults", "arwenmandos/execScenario.go: ExecuteTxStep"]}
{"id": "C71", "title": "A failed transaction of a scenario leaves only the gas payment behind", "statement": "When a transaction step ends with a status other than 0, the world is what it was before, but for the nonce of the sender and the gas it paid.", "quantifier": "every transaction, world and behaviour of the virtual machine", "why_tests_cant": "all sequences of writes and reverts inside the failed execution", "anchors": ["arwenmandos/stepRunTx.go: executeTx", "mock/world/worldUpdate.go: UpdateWorldStateBefore, RollbackChanges", "mock/world/worldAccountsAdapter.go: RevertToSnapshot"]}
{"id": "C72", "title": "A successful transaction of a scenario does exactly what its output says", "statement": "The virtual machine is called once with exactly the sender, value, function, arguments, gas and tokens of the step, after the gas is paid and only if the sender can pay the value; every account then is what it was with exactly the changes of the output, new accounts are those of the output, and no money appears or disappears.", "quantifier": "every transaction, world and output", "why_tests_cant": "all outputs; accounts that are not looked at by any check", "anchors": ["arwenmandos/stepRunTx.go: executeTx, scCall, scCreate, updateStateAfterTx, simpleTransferOutput, validatorRewardOutput", "mock/world/worldUpdate.go: UpdateAccounts, UpdateAccountFromOutputAccount"]}
{"id": "C73", "title": "A query of a scenario changes nothing", "statement": "After an scQuery step the world is exactly what it was before.", "quantifier": "every query and world", "why_tests_cant": "all behaviours of the queried function; tests query only functions that write nothing", "anchors": ["arwenmandos/stepRunTx.go: executeTx, scCall, updateStateAfterTx"]}
{"id": "C74", "title": "Reverting to a snapshot undoes exactly what was saved since", "statement": "A revert of the mock world to the number given out by GetSnapshot brings the storage of every account back to what it was then, and takes back nothing that was saved before.", "quantifier": "every world, every sequence of saves and nested reverts", "why_tests_cant": "all interleavings of saves and reverts of nested calls", "anchors": ["mock/world/worldAccountsAdapter.go: RevertToSnapshot, SnapshotState", "mock/world/worldDef.go: GetSnapshot", "mock/world/worldAccountMap.go: LoadAccountStorageFrom"]}
{"id": "C75", "title": "What a setState step sets is what a checkState step finds", "statement": "A checkState step that declares, value by value, the accounts a setState step has just set, with their nonces, balances, storage, code, owners, usernames and tokens, passes.", "quantifier": "every list of accounts with tokens and storage, every world", "why_tests_cant": "all combinations of tokens, instances, nonces and roles; tests check only a few of the values they set", "anchors": ["arwenmandos/util.go: convertAccount", "arwenmandos/execScenario.go: ExecuteSetStateStep", "arwenmandos/stepCheckAccounts.go: checkAccounts", "mock/world/mockESDTAccount.go: MakeTokenKey, SetTokenData, SetLastNonce"]}
{"id": "C76", "title": "Writing out a scenario that was read changes nothing it says", "statement": "The scenario read from a file can be written out, the text can be read, and the scenario read from it has the same accounts, tokens, transactions, expectations and checks; it leads every world to the same end with the same verdict.", "quantifier": "every scenario file accepted by the reader, every world and virtual machine", "why_tests_cant": "all combinations of optional fields, stars, expressions and nested values; the tests compare a few files with themselves", "anchors": ["mandos-go/json/parse: ParseScenarioFile", "mandos-go/json/write: ScenarioToJSONString, ScenarioToOrderedJSON, esdtItemToOJ, checkESDTItemToOJ, resultToOJ", "mandos-go/orderedjson: JSONString, ParseOrderedJSON"]}
{"id": "C77", "title": "A setState step leaves exactly the accounts it declares", "statement": "After a setState step every account it lists has exactly the nonce, balance, code, owner, username, storage, pending call and tokens declared for it (the last declaration counts), every other account is as it was, the block headers and hashes are those declared, and the new addresses are added to those known.", "quantifier": "every list of declarations, every world", "why_tests_cant": "all worlds the step may meet: leftovers of an account that was there before are visible only if a test looks for them", "anchors": ["arwenmandos/util.go: convertAccount, convertBlockInfo, convertNewAddressMocks", "arwenmandos/execScenario.go: ExecuteSetStateStep", "mock/world/worldAccountMap.go: PutAccounts"]}
{"id": "C78", "title": "A scenario file is read as exactly what its fields say", "statement": "A scenario file is read successfully exactly if it is a JSON document (in the accepted dialect) all of whose fields are known and well-formed, at every level: accounts, tokens, storage, blocks, transactions, expectations, checks. What is read has, for every field that is given, the value that field says, and for every field that is missing the documented default; no field influences another, and nothing else is accepted. A step must give its transaction before its expectation.", "quantifier": "every text, every content of the files that expressions name", "why_tests_cant": "texts are unbounded and nested; tests read a few files and compare what they happen to contain", "anchors": ["mandos-go/json/parse/parseScenario.go: ParseScenarioFile", "mandos-go/json/parse/parseScenario.go: processScenarioStep", "mandos-go/json/parse/parseTx.go", "mandos-go/json/parse/parseAccounts.go", "mandos-go/json/parse/parseAccountsCheck.go", "mandos-go/json/parse/parseESDT.go", "mandos-go/json/parse/parseTxResult.go"]}
{"id": "C79", "title": "Steps referred to in another file are executed as if they stood in place", "statement": "An externalSteps step of a scenario does what the steps of the file it names would do in its place: the same state, the same result, the same prices. The path is relative to the file in which it stands, unless it is replaced; references may be nested to any depth. After it, the rest of the scenario goes on as it would have.", "quantifier": "every set of files, every nesting, every state of the executor", "why_tests_cant": "nesting and file contents are unbounded, and tests compare no run with its spelled-out form", "anchors": ["arwenmandos/execScenario.go: ExecuteExternalStep, ExecuteScenario", "arwenmandos/exec.go: SetMandosGasSchedule", "mandos-go/controller/scenarioOne.go: RunSingleJSONScenario", "mandos-go/fileresolver/fileResolverDefault.go: ResolveAbsolutePath, ResolveFileValue"]}
{"id": "C80", "title": "A run over a directory reports what its scenarios do alone", "statement": "A run over all scenarios of a directory runs every file under it with the given suffix that is not excluded, exactly once, with the result it has when it is run alone; the numbers of passed, failed and skipped scenarios printed are right; it returns an error exactly if a scenario fails or the directory cannot be read.", "quantifier": "every directory tree, every set of scenarios, suffix and exclusions", "why_tests_cant": "a test suite has one directory layout and one order; that scenarios do not influence each other is about all pairs", "anchors": ["mandos-go/controller/scenarioDir.go: RunAllJSONScenariosInDirectory", "mandos-go/controller/testDir.go: isExcluded", "arwenmandos/execScenario.go: Reset", "arwenmandos/exec.go: SetMandosGasSchedule"]}
{"id": "C81", "title": "A machine in another process is never heard wrongly", "statement": "Whatever happens to the process of the virtual machine (it crashes, is killed, exceeds its time, cannot be started), every answer the driver returns is the answer to that very request by a machine with the gas schedule set last, with the effects on the node's state that a machine in the node's own process has.", "quantifier": "every history of operations, every moment and kind of failure, every way the bytes are cut on the pipes", "why_tests_cant": "failures at every moment of every dialogue, in every order, cannot be enumerated; tests kill the process at a few points", "anchors": ["ipc/nodepart/arwenDriver.go: NewArwenDriver, startArwen, RestartArwenIfNecessary, IsClosed, GetVersion, GasScheduleChange, RunSmartContractCreate, RunSmartContractCall, DiagnoseWait, Close", "ipc/nodepart/part.go: StartLoop, doLoop", "ipc/arwenpart/part.go: StartLoop, doLoop"]}
{"id": "C82", "title": "A machine in another process comes back", "statement": "A request is answered whenever nothing disturbs it and a process runs or can be started: after crashes, exceeded times, failed starts, changes of the gas schedule and closings the driver starts a new process, and no more than the request in the midst of which the failure happened is lost.", "quantifier": "every history of operations and failures before the request", "why_tests_cant": "that no history whatever leaves the driver in a state from which it does not recover cannot be tested history by history", "anchors": ["ipc/nodepart/arwenDriver.go: startArwen, RestartArwenIfNecessary, IsClosed, GasScheduleChange, Close, stopArwen", "ipc/nodepart/part.go: StartLoop, doLoop"]}
{"id": "C83", "title": "Instances are freed when, and only when, nobody uses them", "statement": "At every point of an execution the wasm instances that have not been freed are exactly the running one and the suspended ones. Code only starts on an instance that is there and that no suspended code uses. A caller finds the instances it had, and no other, however the callee ended, and after a transaction, even one that panicked, every instance created for it has been freed.", "quantifier": "every contract, every nesting of calls, deployments, upgrades and asynchronous calls, every ending including host panics", "why_tests_cant": "instances hold native memory the garbage collector does not see: a leak shows after days of a node's work, a use after free as a crash of the node; the paths (errors, panics, nesting) on which one may be forgotten or freed too early cannot be enumerated", "anchors": ["arwen/contexts/runtime.go: StartWasmerInstance, makeInstanceFromCompiledCode, makeInstanceFromContractByteCode, PushState, PopSetActiveState, PopDiscard, pushInstance, popInstance, CleanWasmerInstance", "arwen/host/execution.go: doRunSmartContractCreate, doRunSmartContractCall, doRunSmartContractUpgrade, finishExecuteOnDestContext, finishExecuteOnSameContext", "arwen/host/arwen.go: Clean"]}
{"id": "C84", "title": "A debug session goes on where the last one ended", "statement": "The debugging facade serves every request on a world read from a file and written back to it. A sequence of requests gets the responses it would get from a debugger that keeps its worlds in memory, whatever worlds and directories the requests name and wherever between them the debugger is restarted; a query, or a request that cannot be understood, changes no world.", "quantifier": "every machine, every sequence of requests (accounts, deployments, upgrades, runs, queries) on any number of worlds, every account content", "why_tests_cant": "a world goes through path cleaning, JSON and base 64 between any two requests; a test uses readable names and addresses, and one world", "anchors": ["arwendebug/facade.go: DeploySmartContract, UpgradeSmartContract, RunSmartContract, QuerySmartContract, CreateAccount", "arwendebug/database.go: loadWorld, storeWorld, storeOutcome, getWorldFile, getOutcomeFile", "arwendebug/world.go: newWorld, toDataModel", "arwendebug/messagesBase.go: digest"]}
{"id": "C85", "title": "Only creating accounts makes money in a debug world", "statement": "A deployment, an upgrade, a run or a query served by the debugging facade leaves the sum of the balances of every world as it was.", "quantifier": "every machine whose output moves money between accounts, every sequence of requests, every world", "why_tests_cant": "whether all paths by which an output is applied keep a sum over all accounts cannot be seen from single balances", "anchors": ["arwendebug/world.go: deploySmartContract, upgradeSmartContract, runSmartContract, querySmartContract", "mock/world/worldUpdate.go: UpdateAccounts"]}
{"id": "C86", "title": "A debug request is taken as it is written", "statement": "A request to the debugging facade is accepted exactly if it names a sender and some gas, its amounts are numbers, its addresses and arguments whole bytes in hexadecimal digits and its code can be found; the machine is then asked for exactly what is written (sender, recipient, function, arguments, code, metadata, amounts), with the documented defaults for what is left out. Any other request is an error and writes nothing. An account that is created is found by later requests with the balance and nonce asked for, all others being untouched.", "quantifier": "every request of the five kinds, every text in its fields, every state of the files", "why_tests_cant": "the texts that are and are not numbers, hexadecimal digits or file names are infinitely many, and so are the combinations of fields left out", "anchors": ["arwendebug/messagesBase.go: digest", "arwendebug/messagesDeploy.go: digest", "arwendebug/messagesRun.go: digest", "arwendebug/messagesUpgrade.go: digest", "arwendebug/messagesAccounts.go: digest", "arwendebug/common.go: decodeArguments, parseValue", "arwendebug/worldInput.go: prepareDeployInput, prepareUpgradeInput, prepareCallInput"]}
{"id": "C87", "title": "Code runs on a wasm instance of its own", "statement": "Whatever transactions a node serves, nested calls, call-backs, deployments and upgrades included, and whether or not it keeps an instance warm: all code sees what it would see if it had been started on a new instance of the right code, with nothing used and new memory, which nobody else touches until it has ended. Instances that nobody needs any more are freed.", "quantifier": "every sequence of transactions, every tree of calls, every mixture of cached and uncached code, every setting of the option", "why_tests_cant": "the interference between a warm instance, suspended callers and the cache of compiled code depends on the order of whole histories of calls", "anchors": ["arwen/contexts/runtime.go: setWarmInstanceWhenNeeded, StartWasmerInstance, makeInstanceFromCompiledCode, makeInstanceFromContractByteCode, IsWarmInstance, ResetWarmInstance, CleanWasmerInstance, pushInstance, popInstance", "arwen/host/arwen.go: Clean, RunSmartContractCall, hasRetriableExecutionError"]}
{"id": "C88", "title": "The machine is told what the scenario says", "statement": "After a setState step, whatever the machine asks the world of a scenario about an account which the step lists (the account, its storage, code, shard, tokens, whether it is a contract, whether it takes payments) is answered as the step declares; about other accounts as before; about an address without account with nothing; blocks and block hashes are those of the step, and the hash of a block is found by its nonce.", "quantifier": "every list of accounts, blocks and hashes, every world before the step, every address, key and nonce asked for", "why_tests_cant": "a test asks a few questions about a few accounts", "anchors": ["mock/world/worldCallbacks.go: GetStorageData, GetBlockhash, LastNonce, CurrentNonce, GetESDTToken, GetAllState, GetUserAccount, GetCode, GetShardOfAddress, IsSmartContract, IsPayable", "arwenmandos/execScenario.go: ExecuteSetStateStep"]}
{"id": "C89", "title": "A new contract gets an address of its own", "statement": "In a scenario, a contract that is deployed gets the address which the scenario declares last for this creator and nonce, and otherwise an address of 32 bytes which looks like that of a contract and is different for different creators and nonces.", "quantifier": "every list of declared addresses, every creator, every nonce", "why_tests_cant": "collisions need nonces or names of particular distance, which a test would have to guess", "anchors": ["mock/world/worldCallbacks.go: NewAddress", "mock/world/worldUtil.go: GenerateMockAddress", "arwenmandos/execScenario.go: ExecuteSetStateStep"]}
{"id": "C90", "title": "K is given what the scenario file says", "statement": "The conversion of a scenario file to the syntax trees of the K framework takes exactly the files that can be parsed, loses nothing (two files give the same text only if they are the same value with code assembled), replaces exactly the strings that name code, and K reads every string of the file as what it is.", "quantifier": "every file, every callback that assembles code, every depth and place", "why_tests_cant": "that no two values have the same text, and that nothing but code is touched, concerns all values", "anchors": ["mandos-go/orderedjson2kast/ojMain.go: ConvertOrderedJSONToKast", "mandos-go/orderedjson2kast/ojToKast.go: writeKast, writeStringKast", "mandos-go/orderedjson2kast/ojProcessCode.go: processTestCode"]}
{"id": "C91", "title": "Exported functions are called with the arguments given", "statement": "A function exported by a wasm instance is called exactly if it is given as many integers as it has parameters; every argument arrives as the number it is, or is refused if the parameter cannot hold it, before the function runs; and what the function gives back is what the caller gets.", "quantifier": "every signature, every list of arguments of every Go type, every function", "why_tests_cant": "conversions between Go and wasm integers lose signs and bits only for particular values and types", "anchors": ["wasmer/function_wrapper_helpers.go: validateGivenArguments, createWasmInputsFromArguments, writeInt32ToWasmInputs, writeInt64ToWasmInputs, convertWasmOutputToValue", "wasmer/instance_helpers.go: createExportedFunctionWrapper", "wasmer/value.go: I32, I64, ToI32, ToI64"]}
{"id": "C92", "title": "Contracts can import what was registered", "statement": "A Go function is registered for contracts exactly if its type can be a wasm type with a context; it is then found under its name in the namespace set, with its own signature, and no other function is affected; names and number of the functions are those registered; a name that is taken is not given away.", "quantifier": "every set of imports, every sequence of registrations, every type of function", "why_tests_cant": "a test registers a few functions", "anchors": ["wasmer/import.go: NewImports, Namespace, Append, Count, Names"]}
{"id": "C93", "title": "Created calls are carried out and answered", "statement": "A call made with createAsyncCall to a contract that is here is carried out once its maker has ended, with the data, value and gas it was made with; its outcome is told exactly once: to the success function with what was returned, or to the error function with the code and the message; a failing destination or callback does not undo the work of the maker.", "quantifier": "every contract, created call, state and behaviour of the destination and of the callback", "why_tests_cant": "what goes wrong depends on how the destination ends, and on what is pending after it", "anchors": ["arwen/host/asyncCall.go: processAsyncCall, callbackAsync, createDestinationContractCallInput, createCallbackContractCallInput, getPendingAsyncCalls, processCallbackVMOutput", "arwen/elrondapi/elrondei.go: v1_3_createAsyncCall", "arwen/common.go: AsyncGeneratedCall"]}
{"id": "C94", "title": "An upgrade a contract asks for is made, or the contract is told", "statement": "When a contract asks for the upgrade of another one, the upgrade is attempted with the code, metadata, arguments and value in its memory and with no more than the gas it gives; if it cannot be attempted, the contract is stopped or told so.", "quantifier": "every contract, memory, amount of gas, code, metadata and arguments", "why_tests_cant": "the upgrade is dropped only for amounts of gas between two prices", "anchors": ["arwen/elrondapi/elrondei.go: v1_3_upgradeContract, upgradeContract", "arwen/contexts/runtime.go: ExecuteAsyncCall", "arwen/contexts/metering.go: UseGasForAsyncStep, UseGasBounded, ComputeGasLockedForAsync"]}
{"id": "C95", "title": "What a contract is charged is paid, however much gas it brings", "statement": "All gas that a contract is charged is taken from the gas it has left, until nothing is left; gas that is charged and of which a part is given back costs the difference. What something costs does not depend on the gas a transaction brings.", "quantifier": "every amount of gas, every sequence of charges and gas given back", "why_tests_cant": "the counter of gas is only wrong for amounts of gas that no test uses", "anchors": ["arwen/contexts/metering.go: UseGas, RestoreGas, GasLeft", "arwen/contexts/runtime.go: SetPointsUsed, GetPointsUsed"]}
{"id": "C96", "title": "Reading a value the protocol keeps gives the node's value", "statement": "A contract that reads a key reserved for the protocol, such as that of a token balance, gets the value which the node has at that moment, changes made by built-in functions in the same transaction included, whichever call it reads with; and the output never tells the node to store a value under such a key.", "quantifier": "every state, key, account and sequence of calls", "why_tests_cant": "needs a read, a change by the node and another read in one transaction", "anchors": ["arwen/contexts/storage.go: GetStorage, GetStorageFromAddress, getStorageFromAddressUnmetered, isElrondReservedKey", "arwen/elrondapi/elrondei.go: v1_3_storageLoad, v1_3_storageLoadFromAddress"]}
{"id": "C97", "title": "A contract paid with an asynchronous call keeps the payment", "statement": "When a contract that is called asynchronously with a value succeeds, it has been paid that value, whether its caller is in the same shard or in another; the answer to the caller carries no value but what the contract sends itself.", "quantifier": "every contract, value and state, callers in both places", "why_tests_cant": "compares executions of one call in the same shard and across shards", "anchors": ["arwen/host/asyncCall.go: sendCallbackToCurrentCaller, executeSyncDestinationCall", "arwen/host/execution.go: callSCMethod", "arwen/contexts/output.go: Transfer, AddTxValueToAccount"]}
{"id": "C98", "title": "Work that costs more than the gas given for it fails", "statement": "When a contract is called with some gas, by a transaction or by another contract in either context, and its work costs more, the call fails and none of its work remains; no call succeeds having spent more than it was given.", "quantifier": "every contract, gas limit, depth and state", "why_tests_cant": "depends on where the last charge falls relative to the limit, for every program and depth", "anchors": ["arwen/host/execution.go: checkFinalGasAfterExit, callSCMethod, callInitFunction, callSCMethodIndirect, ExecuteOnSameContext, finishExecuteOnSameContext", "arwen/contexts/metering.go: UseGas, GasLeft"]}
