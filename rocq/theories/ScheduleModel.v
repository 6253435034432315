(** The gas schedule (config/gasSchedule.go, config/gasCost.go, wasmer/opcodes.go)
    and its place in the host (arwen/host/arwen.go). *)
From Verif Require Import Base.
From stdpp Require Import gmap strings.
Local Open Scope Z_scope.

(** * Names *)

(** config/gasCost.go:14-22, BaseOperationCost *)
Definition base_fields : list string :=
  ["StorePerByte"; "ReleasePerByte"; "DataCopyPerByte"; "PersistPerByte"; "CompilePerByte";
   "AoTPreparePerByte"; "GetCode"]%string.

(** config/gasCost.go:24-63, ElrondAPICost *)
Definition elrond_fields : list string :=
  ["GetSCAddress"; "GetOwnerAddress"; "IsSmartContract"; "GetShardOfAddress";
   "GetExternalBalance"; "GetBlockHash"; "TransferValue"; "GetArgument"; "GetFunction";
   "GetNumArguments"; "StorageStore"; "StorageLoad"; "GetCaller"; "GetCallValue"; "Log";
   "Finish"; "SignalError"; "GetBlockTimeStamp"; "GetGasLeft"; "Int64GetArgument";
   "Int64StorageStore"; "Int64StorageLoad"; "Int64Finish"; "GetStateRootHash"; "GetBlockNonce";
   "GetBlockEpoch"; "GetBlockRound"; "GetBlockRandomSeed"; "ExecuteOnSameContext";
   "ExecuteOnDestContext"; "DelegateExecution"; "ExecuteReadOnly"; "AsyncCallStep";
   "AsyncCallbackGasLock"; "CreateContract"; "GetReturnData"; "GetNumReturnData";
   "GetReturnDataSize"]%string.

(** config/gasCost.go:65-99, EthAPICost *)
Definition eth_fields : list string :=
  ["UseGas"; "GetAddress"; "GetExternalBalance"; "GetBlockHash"; "Call"; "CallDataCopy";
   "GetCallDataSize"; "CallCode"; "CallDelegate"; "CallStatic"; "StorageStore"; "StorageLoad";
   "GetCaller"; "GetCallValue"; "CodeCopy"; "GetCodeSize"; "GetBlockCoinbase"; "Create";
   "GetBlockDifficulty"; "ExternalCodeCopy"; "GetExternalCodeSize"; "GetGasLeft";
   "GetBlockGasLimit"; "GetTxGasPrice"; "Log"; "GetBlockNumber"; "GetTxOrigin"; "Finish";
   "Revert"; "GetReturnDataSize"; "ReturnDataCopy"; "SelfDestruct"; "GetBlockTimeStamp"]%string.

(** config/gasCost.go:101-137, BigIntAPICost *)
Definition bigint_fields : list string :=
  ["BigIntNew"; "BigIntUnsignedByteLength"; "BigIntSignedByteLength"; "BigIntGetUnsignedBytes";
   "BigIntGetSignedBytes"; "BigIntSetUnsignedBytes"; "BigIntSetSignedBytes"; "BigIntIsInt64";
   "BigIntGetInt64"; "BigIntSetInt64"; "BigIntAdd"; "BigIntSub"; "BigIntMul"; "BigIntTDiv";
   "BigIntTMod"; "BigIntEDiv"; "BigIntEMod"; "BigIntAbs"; "BigIntNeg"; "BigIntSign";
   "BigIntCmp"; "BigIntNot"; "BigIntAnd"; "BigIntOr"; "BigIntXor"; "BigIntShr"; "BigIntShl";
   "BigIntFinishUnsigned"; "BigIntFinishSigned"; "BigIntStorageLoadUnsigned";
   "BigIntStorageStoreUnsigned"; "BigIntGetUnsignedArgument"; "BigIntGetSignedArgument";
   "BigIntGetCallValue"; "BigIntGetExternalBalance"]%string.

(** config/gasCost.go:139-146, CryptoAPICost *)
Definition crypto_fields : list string :=
  ["SHA256"; "Keccak256"; "Ripemd160"; "VerifyBLS"; "VerifyEd25519"; "VerifySecp256k1"]%string.

(** config/gasCost.go:148-598, WASMOpcodeCost *)
Definition opcode_fields : list string :=
  ["Unreachable"; "Nop"; "Block"; "Loop"; "If"; "Else"; "End"; "Br"; "BrIf"; "BrTable";
   "Return"; "Call"; "CallIndirect"; "Drop"; "Select"; "TypedSelect"; "LocalGet"; "LocalSet";
   "LocalTee"; "GlobalGet"; "GlobalSet"; "I32Load"; "I64Load"; "F32Load"; "F64Load";
   "I32Load8S"; "I32Load8U"; "I32Load16S"; "I32Load16U"; "I64Load8S"; "I64Load8U";
   "I64Load16S"; "I64Load16U"; "I64Load32S"; "I64Load32U"; "I32Store"; "I64Store"; "F32Store";
   "F64Store"; "I32Store8"; "I32Store16"; "I64Store8"; "I64Store16"; "I64Store32";
   "MemorySize"; "MemoryGrow"; "I32Const"; "I64Const"; "F32Const"; "F64Const"; "RefNull";
   "RefIsNull"; "RefFunc"; "I32Eqz"; "I32Eq"; "I32Ne"; "I32LtS"; "I32LtU"; "I32GtS"; "I32GtU";
   "I32LeS"; "I32LeU"; "I32GeS"; "I32GeU"; "I64Eqz"; "I64Eq"; "I64Ne"; "I64LtS"; "I64LtU";
   "I64GtS"; "I64GtU"; "I64LeS"; "I64LeU"; "I64GeS"; "I64GeU"; "F32Eq"; "F32Ne"; "F32Lt";
   "F32Gt"; "F32Le"; "F32Ge"; "F64Eq"; "F64Ne"; "F64Lt"; "F64Gt"; "F64Le"; "F64Ge"; "I32Clz";
   "I32Ctz"; "I32Popcnt"; "I32Add"; "I32Sub"; "I32Mul"; "I32DivS"; "I32DivU"; "I32RemS";
   "I32RemU"; "I32And"; "I32Or"; "I32Xor"; "I32Shl"; "I32ShrS"; "I32ShrU"; "I32Rotl";
   "I32Rotr"; "I64Clz"; "I64Ctz"; "I64Popcnt"; "I64Add"; "I64Sub"; "I64Mul"; "I64DivS";
   "I64DivU"; "I64RemS"; "I64RemU"; "I64And"; "I64Or"; "I64Xor"; "I64Shl"; "I64ShrS";
   "I64ShrU"; "I64Rotl"; "I64Rotr"; "F32Abs"; "F32Neg"; "F32Ceil"; "F32Floor"; "F32Trunc";
   "F32Nearest"; "F32Sqrt"; "F32Add"; "F32Sub"; "F32Mul"; "F32Div"; "F32Min"; "F32Max";
   "F32Copysign"; "F64Abs"; "F64Neg"; "F64Ceil"; "F64Floor"; "F64Trunc"; "F64Nearest";
   "F64Sqrt"; "F64Add"; "F64Sub"; "F64Mul"; "F64Div"; "F64Min"; "F64Max"; "F64Copysign";
   "I32WrapI64"; "I32TruncF32S"; "I32TruncF32U"; "I32TruncF64S"; "I32TruncF64U";
   "I64ExtendI32S"; "I64ExtendI32U"; "I64TruncF32S"; "I64TruncF32U"; "I64TruncF64S";
   "I64TruncF64U"; "F32ConvertI32S"; "F32ConvertI32U"; "F32ConvertI64S"; "F32ConvertI64U";
   "F32DemoteF64"; "F64ConvertI32S"; "F64ConvertI32U"; "F64ConvertI64S"; "F64ConvertI64U";
   "F64PromoteF32"; "I32ReinterpretF32"; "I64ReinterpretF64"; "F32ReinterpretI32";
   "F64ReinterpretI64"; "I32Extend8S"; "I32Extend16S"; "I64Extend8S"; "I64Extend16S";
   "I64Extend32S"; "I32TruncSatF32S"; "I32TruncSatF32U"; "I32TruncSatF64S"; "I32TruncSatF64U";
   "I64TruncSatF32S"; "I64TruncSatF32U"; "I64TruncSatF64S"; "I64TruncSatF64U"; "MemoryInit";
   "DataDrop"; "MemoryCopy"; "MemoryFill"; "TableInit"; "ElemDrop"; "TableCopy"; "TableFill";
   "TableGet"; "TableSet"; "TableGrow"; "TableSize"; "AtomicNotify"; "I32AtomicWait";
   "I64AtomicWait"; "AtomicFence"; "I32AtomicLoad"; "I64AtomicLoad"; "I32AtomicLoad8U";
   "I32AtomicLoad16U"; "I64AtomicLoad8U"; "I64AtomicLoad16U"; "I64AtomicLoad32U";
   "I32AtomicStore"; "I64AtomicStore"; "I32AtomicStore8"; "I32AtomicStore16";
   "I64AtomicStore8"; "I64AtomicStore16"; "I64AtomicStore32"; "I32AtomicRmwAdd";
   "I64AtomicRmwAdd"; "I32AtomicRmw8AddU"; "I32AtomicRmw16AddU"; "I64AtomicRmw8AddU";
   "I64AtomicRmw16AddU"; "I64AtomicRmw32AddU"; "I32AtomicRmwSub"; "I64AtomicRmwSub";
   "I32AtomicRmw8SubU"; "I32AtomicRmw16SubU"; "I64AtomicRmw8SubU"; "I64AtomicRmw16SubU";
   "I64AtomicRmw32SubU"; "I32AtomicRmwAnd"; "I64AtomicRmwAnd"; "I32AtomicRmw8AndU";
   "I32AtomicRmw16AndU"; "I64AtomicRmw8AndU"; "I64AtomicRmw16AndU"; "I64AtomicRmw32AndU";
   "I32AtomicRmwOr"; "I64AtomicRmwOr"; "I32AtomicRmw8OrU"; "I32AtomicRmw16OrU";
   "I64AtomicRmw8OrU"; "I64AtomicRmw16OrU"; "I64AtomicRmw32OrU"; "I32AtomicRmwXor";
   "I64AtomicRmwXor"; "I32AtomicRmw8XorU"; "I32AtomicRmw16XorU"; "I64AtomicRmw8XorU";
   "I64AtomicRmw16XorU"; "I64AtomicRmw32XorU"; "I32AtomicRmwXchg"; "I64AtomicRmwXchg";
   "I32AtomicRmw8XchgU"; "I32AtomicRmw16XchgU"; "I64AtomicRmw8XchgU"; "I64AtomicRmw16XchgU";
   "I64AtomicRmw32XchgU"; "I32AtomicRmwCmpxchg"; "I64AtomicRmwCmpxchg";
   "I32AtomicRmw8CmpxchgU"; "I32AtomicRmw16CmpxchgU"; "I64AtomicRmw8CmpxchgU";
   "I64AtomicRmw16CmpxchgU"; "I64AtomicRmw32CmpxchgU"; "V128Load"; "V128Store"; "V128Const";
   "I8x16Splat"; "I8x16ExtractLaneS"; "I8x16ExtractLaneU"; "I8x16ReplaceLane"; "I16x8Splat";
   "I16x8ExtractLaneS"; "I16x8ExtractLaneU"; "I16x8ReplaceLane"; "I32x4Splat";
   "I32x4ExtractLane"; "I32x4ReplaceLane"; "I64x2Splat"; "I64x2ExtractLane";
   "I64x2ReplaceLane"; "F32x4Splat"; "F32x4ExtractLane"; "F32x4ReplaceLane"; "F64x2Splat";
   "F64x2ExtractLane"; "F64x2ReplaceLane"; "I8x16Eq"; "I8x16Ne"; "I8x16LtS"; "I8x16LtU";
   "I8x16GtS"; "I8x16GtU"; "I8x16LeS"; "I8x16LeU"; "I8x16GeS"; "I8x16GeU"; "I16x8Eq";
   "I16x8Ne"; "I16x8LtS"; "I16x8LtU"; "I16x8GtS"; "I16x8GtU"; "I16x8LeS"; "I16x8LeU";
   "I16x8GeS"; "I16x8GeU"; "I32x4Eq"; "I32x4Ne"; "I32x4LtS"; "I32x4LtU"; "I32x4GtS";
   "I32x4GtU"; "I32x4LeS"; "I32x4LeU"; "I32x4GeS"; "I32x4GeU"; "F32x4Eq"; "F32x4Ne"; "F32x4Lt";
   "F32x4Gt"; "F32x4Le"; "F32x4Ge"; "F64x2Eq"; "F64x2Ne"; "F64x2Lt"; "F64x2Gt"; "F64x2Le";
   "F64x2Ge"; "V128Not"; "V128And"; "V128AndNot"; "V128Or"; "V128Xor"; "V128Bitselect";
   "I8x16Neg"; "I8x16AnyTrue"; "I8x16AllTrue"; "I8x16Shl"; "I8x16ShrS"; "I8x16ShrU";
   "I8x16Add"; "I8x16AddSaturateS"; "I8x16AddSaturateU"; "I8x16Sub"; "I8x16SubSaturateS";
   "I8x16SubSaturateU"; "I8x16MinS"; "I8x16MinU"; "I8x16MaxS"; "I8x16MaxU"; "I8x16Mul";
   "I16x8Neg"; "I16x8AnyTrue"; "I16x8AllTrue"; "I16x8Shl"; "I16x8ShrS"; "I16x8ShrU";
   "I16x8Add"; "I16x8AddSaturateS"; "I16x8AddSaturateU"; "I16x8Sub"; "I16x8SubSaturateS";
   "I16x8SubSaturateU"; "I16x8Mul"; "I16x8MinS"; "I16x8MinU"; "I16x8MaxS"; "I16x8MaxU";
   "I32x4Neg"; "I32x4AnyTrue"; "I32x4AllTrue"; "I32x4Shl"; "I32x4ShrS"; "I32x4ShrU";
   "I32x4Add"; "I32x4Sub"; "I32x4Mul"; "I32x4MinS"; "I32x4MinU"; "I32x4MaxS"; "I32x4MaxU";
   "I64x2Neg"; "I64x2AnyTrue"; "I64x2AllTrue"; "I64x2Shl"; "I64x2ShrS"; "I64x2ShrU";
   "I64x2Add"; "I64x2Sub"; "I64x2Mul"; "F32x4Abs"; "F32x4Neg"; "F32x4Sqrt"; "F32x4Add";
   "F32x4Sub"; "F32x4Mul"; "F32x4Div"; "F32x4Min"; "F32x4Max"; "F64x2Abs"; "F64x2Neg";
   "F64x2Sqrt"; "F64x2Add"; "F64x2Sub"; "F64x2Mul"; "F64x2Div"; "F64x2Min"; "F64x2Max";
   "I32x4TruncSatF32x4S"; "I32x4TruncSatF32x4U"; "I64x2TruncSatF64x2S"; "I64x2TruncSatF64x2U";
   "F32x4ConvertI32x4S"; "F32x4ConvertI32x4U"; "F64x2ConvertI64x2S"; "F64x2ConvertI64x2U";
   "V8x16Swizzle"; "V8x16Shuffle"; "V8x16LoadSplat"; "V16x8LoadSplat"; "V32x4LoadSplat";
   "V64x2LoadSplat"; "I8x16NarrowI16x8S"; "I8x16NarrowI16x8U"; "I16x8NarrowI32x4S";
   "I16x8NarrowI32x4U"; "I16x8WidenLowI8x16S"; "I16x8WidenHighI8x16S"; "I16x8WidenLowI8x16U";
   "I16x8WidenHighI8x16U"; "I32x4WidenLowI16x8S"; "I32x4WidenHighI16x8S";
   "I32x4WidenLowI16x8U"; "I32x4WidenHighI16x8U"; "I16x8Load8x8S"; "I16x8Load8x8U";
   "I32x4Load16x4S"; "I32x4Load16x4U"; "I64x2Load32x2S"; "I64x2Load32x2U";
   "I8x16RoundingAverageU"; "I16x8RoundingAverageU"; "LocalAllocate"; "LocalsUnmetered"]%string.

(** wasmer/opcodes.go:3-452: the opcodes, numbered by iota *)
Definition opcodes : list string :=
  ["Unreachable"; "Nop"; "Block"; "Loop"; "If"; "Else"; "End"; "Br"; "BrIf"; "BrTable";
   "Return"; "Call"; "CallIndirect"; "Drop"; "Select"; "TypedSelect"; "LocalGet"; "LocalSet";
   "LocalTee"; "GlobalGet"; "GlobalSet"; "I32Load"; "I64Load"; "F32Load"; "F64Load";
   "I32Load8S"; "I32Load8U"; "I32Load16S"; "I32Load16U"; "I64Load8S"; "I64Load8U";
   "I64Load16S"; "I64Load16U"; "I64Load32S"; "I64Load32U"; "I32Store"; "I64Store"; "F32Store";
   "F64Store"; "I32Store8"; "I32Store16"; "I64Store8"; "I64Store16"; "I64Store32";
   "MemorySize"; "MemoryGrow"; "I32Const"; "I64Const"; "F32Const"; "F64Const"; "RefNull";
   "RefIsNull"; "RefFunc"; "I32Eqz"; "I32Eq"; "I32Ne"; "I32LtS"; "I32LtU"; "I32GtS"; "I32GtU";
   "I32LeS"; "I32LeU"; "I32GeS"; "I32GeU"; "I64Eqz"; "I64Eq"; "I64Ne"; "I64LtS"; "I64LtU";
   "I64GtS"; "I64GtU"; "I64LeS"; "I64LeU"; "I64GeS"; "I64GeU"; "F32Eq"; "F32Ne"; "F32Lt";
   "F32Gt"; "F32Le"; "F32Ge"; "F64Eq"; "F64Ne"; "F64Lt"; "F64Gt"; "F64Le"; "F64Ge"; "I32Clz";
   "I32Ctz"; "I32Popcnt"; "I32Add"; "I32Sub"; "I32Mul"; "I32DivS"; "I32DivU"; "I32RemS";
   "I32RemU"; "I32And"; "I32Or"; "I32Xor"; "I32Shl"; "I32ShrS"; "I32ShrU"; "I32Rotl";
   "I32Rotr"; "I64Clz"; "I64Ctz"; "I64Popcnt"; "I64Add"; "I64Sub"; "I64Mul"; "I64DivS";
   "I64DivU"; "I64RemS"; "I64RemU"; "I64And"; "I64Or"; "I64Xor"; "I64Shl"; "I64ShrS";
   "I64ShrU"; "I64Rotl"; "I64Rotr"; "F32Abs"; "F32Neg"; "F32Ceil"; "F32Floor"; "F32Trunc";
   "F32Nearest"; "F32Sqrt"; "F32Add"; "F32Sub"; "F32Mul"; "F32Div"; "F32Min"; "F32Max";
   "F32Copysign"; "F64Abs"; "F64Neg"; "F64Ceil"; "F64Floor"; "F64Trunc"; "F64Nearest";
   "F64Sqrt"; "F64Add"; "F64Sub"; "F64Mul"; "F64Div"; "F64Min"; "F64Max"; "F64Copysign";
   "I32WrapI64"; "I32TruncF32S"; "I32TruncF32U"; "I32TruncF64S"; "I32TruncF64U";
   "I64ExtendI32S"; "I64ExtendI32U"; "I64TruncF32S"; "I64TruncF32U"; "I64TruncF64S";
   "I64TruncF64U"; "F32ConvertI32S"; "F32ConvertI32U"; "F32ConvertI64S"; "F32ConvertI64U";
   "F32DemoteF64"; "F64ConvertI32S"; "F64ConvertI32U"; "F64ConvertI64S"; "F64ConvertI64U";
   "F64PromoteF32"; "I32ReinterpretF32"; "I64ReinterpretF64"; "F32ReinterpretI32";
   "F64ReinterpretI64"; "I32Extend8S"; "I32Extend16S"; "I64Extend8S"; "I64Extend16S";
   "I64Extend32S"; "I32TruncSatF32S"; "I32TruncSatF32U"; "I32TruncSatF64S"; "I32TruncSatF64U";
   "I64TruncSatF32S"; "I64TruncSatF32U"; "I64TruncSatF64S"; "I64TruncSatF64U"; "MemoryInit";
   "DataDrop"; "MemoryCopy"; "MemoryFill"; "TableInit"; "ElemDrop"; "TableCopy"; "TableFill";
   "TableGet"; "TableSet"; "TableGrow"; "TableSize"; "AtomicNotify"; "I32AtomicWait";
   "I64AtomicWait"; "AtomicFence"; "I32AtomicLoad"; "I64AtomicLoad"; "I32AtomicLoad8U";
   "I32AtomicLoad16U"; "I64AtomicLoad8U"; "I64AtomicLoad16U"; "I64AtomicLoad32U";
   "I32AtomicStore"; "I64AtomicStore"; "I32AtomicStore8"; "I32AtomicStore16";
   "I64AtomicStore8"; "I64AtomicStore16"; "I64AtomicStore32"; "I32AtomicRmwAdd";
   "I64AtomicRmwAdd"; "I32AtomicRmw8AddU"; "I32AtomicRmw16AddU"; "I64AtomicRmw8AddU";
   "I64AtomicRmw16AddU"; "I64AtomicRmw32AddU"; "I32AtomicRmwSub"; "I64AtomicRmwSub";
   "I32AtomicRmw8SubU"; "I32AtomicRmw16SubU"; "I64AtomicRmw8SubU"; "I64AtomicRmw16SubU";
   "I64AtomicRmw32SubU"; "I32AtomicRmwAnd"; "I64AtomicRmwAnd"; "I32AtomicRmw8AndU";
   "I32AtomicRmw16AndU"; "I64AtomicRmw8AndU"; "I64AtomicRmw16AndU"; "I64AtomicRmw32AndU";
   "I32AtomicRmwOr"; "I64AtomicRmwOr"; "I32AtomicRmw8OrU"; "I32AtomicRmw16OrU";
   "I64AtomicRmw8OrU"; "I64AtomicRmw16OrU"; "I64AtomicRmw32OrU"; "I32AtomicRmwXor";
   "I64AtomicRmwXor"; "I32AtomicRmw8XorU"; "I32AtomicRmw16XorU"; "I64AtomicRmw8XorU";
   "I64AtomicRmw16XorU"; "I64AtomicRmw32XorU"; "I32AtomicRmwXchg"; "I64AtomicRmwXchg";
   "I32AtomicRmw8XchgU"; "I32AtomicRmw16XchgU"; "I64AtomicRmw8XchgU"; "I64AtomicRmw16XchgU";
   "I64AtomicRmw32XchgU"; "I32AtomicRmwCmpxchg"; "I64AtomicRmwCmpxchg";
   "I32AtomicRmw8CmpxchgU"; "I32AtomicRmw16CmpxchgU"; "I64AtomicRmw8CmpxchgU";
   "I64AtomicRmw16CmpxchgU"; "I64AtomicRmw32CmpxchgU"; "V128Load"; "V128Store"; "V128Const";
   "I8x16Splat"; "I8x16ExtractLaneS"; "I8x16ExtractLaneU"; "I8x16ReplaceLane"; "I16x8Splat";
   "I16x8ExtractLaneS"; "I16x8ExtractLaneU"; "I16x8ReplaceLane"; "I32x4Splat";
   "I32x4ExtractLane"; "I32x4ReplaceLane"; "I64x2Splat"; "I64x2ExtractLane";
   "I64x2ReplaceLane"; "F32x4Splat"; "F32x4ExtractLane"; "F32x4ReplaceLane"; "F64x2Splat";
   "F64x2ExtractLane"; "F64x2ReplaceLane"; "I8x16Eq"; "I8x16Ne"; "I8x16LtS"; "I8x16LtU";
   "I8x16GtS"; "I8x16GtU"; "I8x16LeS"; "I8x16LeU"; "I8x16GeS"; "I8x16GeU"; "I16x8Eq";
   "I16x8Ne"; "I16x8LtS"; "I16x8LtU"; "I16x8GtS"; "I16x8GtU"; "I16x8LeS"; "I16x8LeU";
   "I16x8GeS"; "I16x8GeU"; "I32x4Eq"; "I32x4Ne"; "I32x4LtS"; "I32x4LtU"; "I32x4GtS";
   "I32x4GtU"; "I32x4LeS"; "I32x4LeU"; "I32x4GeS"; "I32x4GeU"; "F32x4Eq"; "F32x4Ne"; "F32x4Lt";
   "F32x4Gt"; "F32x4Le"; "F32x4Ge"; "F64x2Eq"; "F64x2Ne"; "F64x2Lt"; "F64x2Gt"; "F64x2Le";
   "F64x2Ge"; "V128Not"; "V128And"; "V128AndNot"; "V128Or"; "V128Xor"; "V128Bitselect";
   "I8x16Neg"; "I8x16AnyTrue"; "I8x16AllTrue"; "I8x16Shl"; "I8x16ShrS"; "I8x16ShrU";
   "I8x16Add"; "I8x16AddSaturateS"; "I8x16AddSaturateU"; "I8x16Sub"; "I8x16SubSaturateS";
   "I8x16SubSaturateU"; "I8x16MinS"; "I8x16MinU"; "I8x16MaxS"; "I8x16MaxU"; "I8x16Mul";
   "I16x8Neg"; "I16x8AnyTrue"; "I16x8AllTrue"; "I16x8Shl"; "I16x8ShrS"; "I16x8ShrU";
   "I16x8Add"; "I16x8AddSaturateS"; "I16x8AddSaturateU"; "I16x8Sub"; "I16x8SubSaturateS";
   "I16x8SubSaturateU"; "I16x8Mul"; "I16x8MinS"; "I16x8MinU"; "I16x8MaxS"; "I16x8MaxU";
   "I32x4Neg"; "I32x4AnyTrue"; "I32x4AllTrue"; "I32x4Shl"; "I32x4ShrS"; "I32x4ShrU";
   "I32x4Add"; "I32x4Sub"; "I32x4Mul"; "I32x4MinS"; "I32x4MinU"; "I32x4MaxS"; "I32x4MaxU";
   "I64x2Neg"; "I64x2AnyTrue"; "I64x2AllTrue"; "I64x2Shl"; "I64x2ShrS"; "I64x2ShrU";
   "I64x2Add"; "I64x2Sub"; "I64x2Mul"; "F32x4Abs"; "F32x4Neg"; "F32x4Sqrt"; "F32x4Add";
   "F32x4Sub"; "F32x4Mul"; "F32x4Div"; "F32x4Min"; "F32x4Max"; "F64x2Abs"; "F64x2Neg";
   "F64x2Sqrt"; "F64x2Add"; "F64x2Sub"; "F64x2Mul"; "F64x2Div"; "F64x2Min"; "F64x2Max";
   "I32x4TruncSatF32x4S"; "I32x4TruncSatF32x4U"; "I64x2TruncSatF64x2S"; "I64x2TruncSatF64x2U";
   "F32x4ConvertI32x4S"; "F32x4ConvertI32x4U"; "F64x2ConvertI64x2S"; "F64x2ConvertI64x2U";
   "V8x16Swizzle"; "V8x16Shuffle"; "V8x16LoadSplat"; "V16x8LoadSplat"; "V32x4LoadSplat";
   "V64x2LoadSplat"; "I8x16NarrowI16x8S"; "I8x16NarrowI16x8U"; "I16x8NarrowI32x4S";
   "I16x8NarrowI32x4U"; "I16x8WidenLowI8x16S"; "I16x8WidenHighI8x16S"; "I16x8WidenLowI8x16U";
   "I16x8WidenHighI8x16U"; "I32x4WidenLowI16x8S"; "I32x4WidenHighI16x8S";
   "I32x4WidenLowI16x8U"; "I32x4WidenHighI16x8U"; "I16x8Load8x8S"; "I16x8Load8x8U";
   "I32x4Load16x4S"; "I32x4Load16x4U"; "I64x2Load32x2S"; "I64x2Load32x2U";
   "I8x16RoundingAverageU"; "I16x8RoundingAverageU"; "LocalAllocate"]%string.

(** config/gasCost.go:600-1055: the assignments of ToOpcodeCostsArray, opcode and field *)
Definition opcode_assignments : list (string * string) :=
  [("Unreachable", "Unreachable"); ("Nop", "Nop"); ("Block", "Block"); ("Loop", "Loop");
   ("If", "If"); ("Else", "Else"); ("End", "End"); ("Br", "Br"); ("BrIf", "BrIf");
   ("BrTable", "BrTable"); ("Return", "Return"); ("Call", "Call");
   ("CallIndirect", "CallIndirect"); ("Drop", "Drop"); ("Select", "Select");
   ("TypedSelect", "TypedSelect"); ("LocalGet", "LocalGet"); ("LocalSet", "LocalSet");
   ("LocalTee", "LocalTee"); ("GlobalGet", "GlobalGet"); ("GlobalSet", "GlobalSet");
   ("I32Load", "I32Load"); ("I64Load", "I64Load"); ("F32Load", "F32Load");
   ("F64Load", "F64Load"); ("I32Load8S", "I32Load8S"); ("I32Load8U", "I32Load8U");
   ("I32Load16S", "I32Load16S"); ("I32Load16U", "I32Load16U"); ("I64Load8S", "I64Load8S");
   ("I64Load8U", "I64Load8U"); ("I64Load16S", "I64Load16S"); ("I64Load16U", "I64Load16U");
   ("I64Load32S", "I64Load32S"); ("I64Load32U", "I64Load32U"); ("I32Store", "I32Store");
   ("I64Store", "I64Store"); ("F32Store", "F32Store"); ("F64Store", "F64Store");
   ("I32Store8", "I32Store8"); ("I32Store16", "I32Store16"); ("I64Store8", "I64Store8");
   ("I64Store16", "I64Store16"); ("I64Store32", "I64Store32"); ("MemorySize", "MemorySize");
   ("MemoryGrow", "MemoryGrow"); ("I32Const", "I32Const"); ("I64Const", "I64Const");
   ("F32Const", "F32Const"); ("F64Const", "F64Const"); ("RefNull", "RefNull");
   ("RefIsNull", "RefIsNull"); ("RefFunc", "RefFunc"); ("I32Eqz", "I32Eqz");
   ("I32Eq", "I32Eq"); ("I32Ne", "I32Ne"); ("I32LtS", "I32LtS"); ("I32LtU", "I32LtU");
   ("I32GtS", "I32GtS"); ("I32GtU", "I32GtU"); ("I32LeS", "I32LeS"); ("I32LeU", "I32LeU");
   ("I32GeS", "I32GeS"); ("I32GeU", "I32GeU"); ("I64Eqz", "I64Eqz"); ("I64Eq", "I64Eq");
   ("I64Ne", "I64Ne"); ("I64LtS", "I64LtS"); ("I64LtU", "I64LtU"); ("I64GtS", "I64GtS");
   ("I64GtU", "I64GtU"); ("I64LeS", "I64LeS"); ("I64LeU", "I64LeU"); ("I64GeS", "I64GeS");
   ("I64GeU", "I64GeU"); ("F32Eq", "F32Eq"); ("F32Ne", "F32Ne"); ("F32Lt", "F32Lt");
   ("F32Gt", "F32Gt"); ("F32Le", "F32Le"); ("F32Ge", "F32Ge"); ("F64Eq", "F64Eq");
   ("F64Ne", "F64Ne"); ("F64Lt", "F64Lt"); ("F64Gt", "F64Gt"); ("F64Le", "F64Le");
   ("F64Ge", "F64Ge"); ("I32Clz", "I32Clz"); ("I32Ctz", "I32Ctz"); ("I32Popcnt", "I32Popcnt");
   ("I32Add", "I32Add"); ("I32Sub", "I32Sub"); ("I32Mul", "I32Mul"); ("I32DivS", "I32DivS");
   ("I32DivU", "I32DivU"); ("I32RemS", "I32RemS"); ("I32RemU", "I32RemU");
   ("I32And", "I32And"); ("I32Or", "I32Or"); ("I32Xor", "I32Xor"); ("I32Shl", "I32Shl");
   ("I32ShrS", "I32ShrS"); ("I32ShrU", "I32ShrU"); ("I32Rotl", "I32Rotl");
   ("I32Rotr", "I32Rotr"); ("I64Clz", "I64Clz"); ("I64Ctz", "I64Ctz");
   ("I64Popcnt", "I64Popcnt"); ("I64Add", "I64Add"); ("I64Sub", "I64Sub");
   ("I64Mul", "I64Mul"); ("I64DivS", "I64DivS"); ("I64DivU", "I64DivU");
   ("I64RemS", "I64RemS"); ("I64RemU", "I64RemU"); ("I64And", "I64And"); ("I64Or", "I64Or");
   ("I64Xor", "I64Xor"); ("I64Shl", "I64Shl"); ("I64ShrS", "I64ShrS"); ("I64ShrU", "I64ShrU");
   ("I64Rotl", "I64Rotl"); ("I64Rotr", "I64Rotr"); ("F32Abs", "F32Abs"); ("F32Neg", "F32Neg");
   ("F32Ceil", "F32Ceil"); ("F32Floor", "F32Floor"); ("F32Trunc", "F32Trunc");
   ("F32Nearest", "F32Nearest"); ("F32Sqrt", "F32Sqrt"); ("F32Add", "F32Add");
   ("F32Sub", "F32Sub"); ("F32Mul", "F32Mul"); ("F32Div", "F32Div"); ("F32Min", "F32Min");
   ("F32Max", "F32Max"); ("F32Copysign", "F32Copysign"); ("F64Abs", "F64Abs");
   ("F64Neg", "F64Neg"); ("F64Ceil", "F64Ceil"); ("F64Floor", "F64Floor");
   ("F64Trunc", "F64Trunc"); ("F64Nearest", "F64Nearest"); ("F64Sqrt", "F64Sqrt");
   ("F64Add", "F64Add"); ("F64Sub", "F64Sub"); ("F64Mul", "F64Mul"); ("F64Div", "F64Div");
   ("F64Min", "F64Min"); ("F64Max", "F64Max"); ("F64Copysign", "F64Copysign");
   ("I32WrapI64", "I32WrapI64"); ("I32TruncF32S", "I32TruncF32S");
   ("I32TruncF32U", "I32TruncF32U"); ("I32TruncF64S", "I32TruncF64S");
   ("I32TruncF64U", "I32TruncF64U"); ("I64ExtendI32S", "I64ExtendI32S");
   ("I64ExtendI32U", "I64ExtendI32U"); ("I64TruncF32S", "I64TruncF32S");
   ("I64TruncF32U", "I64TruncF32U"); ("I64TruncF64S", "I64TruncF64S");
   ("I64TruncF64U", "I64TruncF64U"); ("F32ConvertI32S", "F32ConvertI32S");
   ("F32ConvertI32U", "F32ConvertI32U"); ("F32ConvertI64S", "F32ConvertI64S");
   ("F32ConvertI64U", "F32ConvertI64U"); ("F32DemoteF64", "F32DemoteF64");
   ("F64ConvertI32S", "F64ConvertI32S"); ("F64ConvertI32U", "F64ConvertI32U");
   ("F64ConvertI64S", "F64ConvertI64S"); ("F64ConvertI64U", "F64ConvertI64U");
   ("F64PromoteF32", "F64PromoteF32"); ("I32ReinterpretF32", "I32ReinterpretF32");
   ("I64ReinterpretF64", "I64ReinterpretF64"); ("F32ReinterpretI32", "F32ReinterpretI32");
   ("F64ReinterpretI64", "F64ReinterpretI64"); ("I32Extend8S", "I32Extend8S");
   ("I32Extend16S", "I32Extend16S"); ("I64Extend8S", "I64Extend8S");
   ("I64Extend16S", "I64Extend16S"); ("I64Extend32S", "I64Extend32S");
   ("I32TruncSatF32S", "I32TruncSatF32S"); ("I32TruncSatF32U", "I32TruncSatF32U");
   ("I32TruncSatF64S", "I32TruncSatF64S"); ("I32TruncSatF64U", "I32TruncSatF64U");
   ("I64TruncSatF32S", "I64TruncSatF32S"); ("I64TruncSatF32U", "I64TruncSatF32U");
   ("I64TruncSatF64S", "I64TruncSatF64S"); ("I64TruncSatF64U", "I64TruncSatF64U");
   ("MemoryInit", "MemoryInit"); ("DataDrop", "DataDrop"); ("MemoryCopy", "MemoryCopy");
   ("MemoryFill", "MemoryFill"); ("TableInit", "TableInit"); ("ElemDrop", "ElemDrop");
   ("TableCopy", "TableCopy"); ("TableFill", "TableFill"); ("TableGet", "TableGet");
   ("TableSet", "TableSet"); ("TableGrow", "TableGrow"); ("TableSize", "TableSize");
   ("AtomicNotify", "AtomicNotify"); ("I32AtomicWait", "I32AtomicWait");
   ("I64AtomicWait", "I64AtomicWait"); ("AtomicFence", "AtomicFence");
   ("I32AtomicLoad", "I32AtomicLoad"); ("I64AtomicLoad", "I64AtomicLoad");
   ("I32AtomicLoad8U", "I32AtomicLoad8U"); ("I32AtomicLoad16U", "I32AtomicLoad16U");
   ("I64AtomicLoad8U", "I64AtomicLoad8U"); ("I64AtomicLoad16U", "I64AtomicLoad16U");
   ("I64AtomicLoad32U", "I64AtomicLoad32U"); ("I32AtomicStore", "I32AtomicStore");
   ("I64AtomicStore", "I64AtomicStore"); ("I32AtomicStore8", "I32AtomicStore8");
   ("I32AtomicStore16", "I32AtomicStore16"); ("I64AtomicStore8", "I64AtomicStore8");
   ("I64AtomicStore16", "I64AtomicStore16"); ("I64AtomicStore32", "I64AtomicStore32");
   ("I32AtomicRmwAdd", "I32AtomicRmwAdd"); ("I64AtomicRmwAdd", "I64AtomicRmwAdd");
   ("I32AtomicRmw8AddU", "I32AtomicRmw8AddU"); ("I32AtomicRmw16AddU", "I32AtomicRmw16AddU");
   ("I64AtomicRmw8AddU", "I64AtomicRmw8AddU"); ("I64AtomicRmw16AddU", "I64AtomicRmw16AddU");
   ("I64AtomicRmw32AddU", "I64AtomicRmw32AddU"); ("I32AtomicRmwSub", "I32AtomicRmwSub");
   ("I64AtomicRmwSub", "I64AtomicRmwSub"); ("I32AtomicRmw8SubU", "I32AtomicRmw8SubU");
   ("I32AtomicRmw16SubU", "I32AtomicRmw16SubU"); ("I64AtomicRmw8SubU", "I64AtomicRmw8SubU");
   ("I64AtomicRmw16SubU", "I64AtomicRmw16SubU"); ("I64AtomicRmw32SubU", "I64AtomicRmw32SubU");
   ("I32AtomicRmwAnd", "I32AtomicRmwAnd"); ("I64AtomicRmwAnd", "I64AtomicRmwAnd");
   ("I32AtomicRmw8AndU", "I32AtomicRmw8AndU"); ("I32AtomicRmw16AndU", "I32AtomicRmw16AndU");
   ("I64AtomicRmw8AndU", "I64AtomicRmw8AndU"); ("I64AtomicRmw16AndU", "I64AtomicRmw16AndU");
   ("I64AtomicRmw32AndU", "I64AtomicRmw32AndU"); ("I32AtomicRmwOr", "I32AtomicRmwOr");
   ("I64AtomicRmwOr", "I64AtomicRmwOr"); ("I32AtomicRmw8OrU", "I32AtomicRmw8OrU");
   ("I32AtomicRmw16OrU", "I32AtomicRmw16OrU"); ("I64AtomicRmw8OrU", "I64AtomicRmw8OrU");
   ("I64AtomicRmw16OrU", "I64AtomicRmw16OrU"); ("I64AtomicRmw32OrU", "I64AtomicRmw32OrU");
   ("I32AtomicRmwXor", "I32AtomicRmwXor"); ("I64AtomicRmwXor", "I64AtomicRmwXor");
   ("I32AtomicRmw8XorU", "I32AtomicRmw8XorU"); ("I32AtomicRmw16XorU", "I32AtomicRmw16XorU");
   ("I64AtomicRmw8XorU", "I64AtomicRmw8XorU"); ("I64AtomicRmw16XorU", "I64AtomicRmw16XorU");
   ("I64AtomicRmw32XorU", "I64AtomicRmw32XorU"); ("I32AtomicRmwXchg", "I32AtomicRmwXchg");
   ("I64AtomicRmwXchg", "I64AtomicRmwXchg"); ("I32AtomicRmw8XchgU", "I32AtomicRmw8XchgU");
   ("I32AtomicRmw16XchgU", "I32AtomicRmw16XchgU");
   ("I64AtomicRmw8XchgU", "I64AtomicRmw8XchgU");
   ("I64AtomicRmw16XchgU", "I64AtomicRmw16XchgU");
   ("I64AtomicRmw32XchgU", "I64AtomicRmw32XchgU");
   ("I32AtomicRmwCmpxchg", "I32AtomicRmwCmpxchg");
   ("I64AtomicRmwCmpxchg", "I64AtomicRmwCmpxchg");
   ("I32AtomicRmw8CmpxchgU", "I32AtomicRmw8CmpxchgU");
   ("I32AtomicRmw16CmpxchgU", "I32AtomicRmw16CmpxchgU");
   ("I64AtomicRmw8CmpxchgU", "I64AtomicRmw8CmpxchgU");
   ("I64AtomicRmw16CmpxchgU", "I64AtomicRmw16CmpxchgU");
   ("I64AtomicRmw32CmpxchgU", "I64AtomicRmw32CmpxchgU"); ("V128Load", "V128Load");
   ("V128Store", "V128Store"); ("V128Const", "V128Const"); ("I8x16Splat", "I8x16Splat");
   ("I8x16ExtractLaneS", "I8x16ExtractLaneS"); ("I8x16ExtractLaneU", "I8x16ExtractLaneU");
   ("I8x16ReplaceLane", "I8x16ReplaceLane"); ("I16x8Splat", "I16x8Splat");
   ("I16x8ExtractLaneS", "I16x8ExtractLaneS"); ("I16x8ExtractLaneU", "I16x8ExtractLaneU");
   ("I16x8ReplaceLane", "I16x8ReplaceLane"); ("I32x4Splat", "I32x4Splat");
   ("I32x4ExtractLane", "I32x4ExtractLane"); ("I32x4ReplaceLane", "I32x4ReplaceLane");
   ("I64x2Splat", "I64x2Splat"); ("I64x2ExtractLane", "I64x2ExtractLane");
   ("I64x2ReplaceLane", "I64x2ReplaceLane"); ("F32x4Splat", "F32x4Splat");
   ("F32x4ExtractLane", "F32x4ExtractLane"); ("F32x4ReplaceLane", "F32x4ReplaceLane");
   ("F64x2Splat", "F64x2Splat"); ("F64x2ExtractLane", "F64x2ExtractLane");
   ("F64x2ReplaceLane", "F64x2ReplaceLane"); ("I8x16Eq", "I8x16Eq"); ("I8x16Ne", "I8x16Ne");
   ("I8x16LtS", "I8x16LtS"); ("I8x16LtU", "I8x16LtU"); ("I8x16GtS", "I8x16GtS");
   ("I8x16GtU", "I8x16GtU"); ("I8x16LeS", "I8x16LeS"); ("I8x16LeU", "I8x16LeU");
   ("I8x16GeS", "I8x16GeS"); ("I8x16GeU", "I8x16GeU"); ("I16x8Eq", "I16x8Eq");
   ("I16x8Ne", "I16x8Ne"); ("I16x8LtS", "I16x8LtS"); ("I16x8LtU", "I16x8LtU");
   ("I16x8GtS", "I16x8GtS"); ("I16x8GtU", "I16x8GtU"); ("I16x8LeS", "I16x8LeS");
   ("I16x8LeU", "I16x8LeU"); ("I16x8GeS", "I16x8GeS"); ("I16x8GeU", "I16x8GeU");
   ("I32x4Eq", "I32x4Eq"); ("I32x4Ne", "I32x4Ne"); ("I32x4LtS", "I32x4LtS");
   ("I32x4LtU", "I32x4LtU"); ("I32x4GtS", "I32x4GtS"); ("I32x4GtU", "I32x4GtU");
   ("I32x4LeS", "I32x4LeS"); ("I32x4LeU", "I32x4LeU"); ("I32x4GeS", "I32x4GeS");
   ("I32x4GeU", "I32x4GeU"); ("F32x4Eq", "F32x4Eq"); ("F32x4Ne", "F32x4Ne");
   ("F32x4Lt", "F32x4Lt"); ("F32x4Gt", "F32x4Gt"); ("F32x4Le", "F32x4Le");
   ("F32x4Ge", "F32x4Ge"); ("F64x2Eq", "F64x2Eq"); ("F64x2Ne", "F64x2Ne");
   ("F64x2Lt", "F64x2Lt"); ("F64x2Gt", "F64x2Gt"); ("F64x2Le", "F64x2Le");
   ("F64x2Ge", "F64x2Ge"); ("V128Not", "V128Not"); ("V128And", "V128And");
   ("V128AndNot", "V128AndNot"); ("V128Or", "V128Or"); ("V128Xor", "V128Xor");
   ("V128Bitselect", "V128Bitselect"); ("I8x16Neg", "I8x16Neg");
   ("I8x16AnyTrue", "I8x16AnyTrue"); ("I8x16AllTrue", "I8x16AllTrue");
   ("I8x16Shl", "I8x16Shl"); ("I8x16ShrS", "I8x16ShrS"); ("I8x16ShrU", "I8x16ShrU");
   ("I8x16Add", "I8x16Add"); ("I8x16AddSaturateS", "I8x16AddSaturateS");
   ("I8x16AddSaturateU", "I8x16AddSaturateU"); ("I8x16Sub", "I8x16Sub");
   ("I8x16SubSaturateS", "I8x16SubSaturateS"); ("I8x16SubSaturateU", "I8x16SubSaturateU");
   ("I8x16MinS", "I8x16MinS"); ("I8x16MinU", "I8x16MinU"); ("I8x16MaxS", "I8x16MaxS");
   ("I8x16MaxU", "I8x16MaxU"); ("I8x16Mul", "I8x16Mul"); ("I16x8Neg", "I16x8Neg");
   ("I16x8AnyTrue", "I16x8AnyTrue"); ("I16x8AllTrue", "I16x8AllTrue");
   ("I16x8Shl", "I16x8Shl"); ("I16x8ShrS", "I16x8ShrS"); ("I16x8ShrU", "I16x8ShrU");
   ("I16x8Add", "I16x8Add"); ("I16x8AddSaturateS", "I16x8AddSaturateS");
   ("I16x8AddSaturateU", "I16x8AddSaturateU"); ("I16x8Sub", "I16x8Sub");
   ("I16x8SubSaturateS", "I16x8SubSaturateS"); ("I16x8SubSaturateU", "I16x8SubSaturateU");
   ("I16x8Mul", "I16x8Mul"); ("I16x8MinS", "I16x8MinS"); ("I16x8MinU", "I16x8MinU");
   ("I16x8MaxS", "I16x8MaxS"); ("I16x8MaxU", "I16x8MaxU"); ("I32x4Neg", "I32x4Neg");
   ("I32x4AnyTrue", "I32x4AnyTrue"); ("I32x4AllTrue", "I32x4AllTrue");
   ("I32x4Shl", "I32x4Shl"); ("I32x4ShrS", "I32x4ShrS"); ("I32x4ShrU", "I32x4ShrU");
   ("I32x4Add", "I32x4Add"); ("I32x4Sub", "I32x4Sub"); ("I32x4Mul", "I32x4Mul");
   ("I32x4MinS", "I32x4MinS"); ("I32x4MinU", "I32x4MinU"); ("I32x4MaxS", "I32x4MaxS");
   ("I32x4MaxU", "I32x4MaxU"); ("I64x2Neg", "I64x2Neg"); ("I64x2AnyTrue", "I64x2AnyTrue");
   ("I64x2AllTrue", "I64x2AllTrue"); ("I64x2Shl", "I64x2Shl"); ("I64x2ShrS", "I64x2ShrS");
   ("I64x2ShrU", "I64x2ShrU"); ("I64x2Add", "I64x2Add"); ("I64x2Sub", "I64x2Sub");
   ("I64x2Mul", "I64x2Mul"); ("F32x4Abs", "F32x4Abs"); ("F32x4Neg", "F32x4Neg");
   ("F32x4Sqrt", "F32x4Sqrt"); ("F32x4Add", "F32x4Add"); ("F32x4Sub", "F32x4Sub");
   ("F32x4Mul", "F32x4Mul"); ("F32x4Div", "F32x4Div"); ("F32x4Min", "F32x4Min");
   ("F32x4Max", "F32x4Max"); ("F64x2Abs", "F64x2Abs"); ("F64x2Neg", "F64x2Neg");
   ("F64x2Sqrt", "F64x2Sqrt"); ("F64x2Add", "F64x2Add"); ("F64x2Sub", "F64x2Sub");
   ("F64x2Mul", "F64x2Mul"); ("F64x2Div", "F64x2Div"); ("F64x2Min", "F64x2Min");
   ("F64x2Max", "F64x2Max"); ("I32x4TruncSatF32x4S", "I32x4TruncSatF32x4S");
   ("I32x4TruncSatF32x4U", "I32x4TruncSatF32x4U");
   ("I64x2TruncSatF64x2S", "I64x2TruncSatF64x2S");
   ("I64x2TruncSatF64x2U", "I64x2TruncSatF64x2U");
   ("F32x4ConvertI32x4S", "F32x4ConvertI32x4S"); ("F32x4ConvertI32x4U", "F32x4ConvertI32x4U");
   ("F64x2ConvertI64x2S", "F64x2ConvertI64x2S"); ("F64x2ConvertI64x2U", "F64x2ConvertI64x2U");
   ("V8x16Swizzle", "V8x16Swizzle"); ("V8x16Shuffle", "V8x16Shuffle");
   ("V8x16LoadSplat", "V8x16LoadSplat"); ("V16x8LoadSplat", "V16x8LoadSplat");
   ("V32x4LoadSplat", "V32x4LoadSplat"); ("V64x2LoadSplat", "V64x2LoadSplat");
   ("I8x16NarrowI16x8S", "I8x16NarrowI16x8S"); ("I8x16NarrowI16x8U", "I8x16NarrowI16x8U");
   ("I16x8NarrowI32x4S", "I16x8NarrowI32x4S"); ("I16x8NarrowI32x4U", "I16x8NarrowI32x4U");
   ("I16x8WidenLowI8x16S", "I16x8WidenLowI8x16S");
   ("I16x8WidenHighI8x16S", "I16x8WidenHighI8x16S");
   ("I16x8WidenLowI8x16U", "I16x8WidenLowI8x16U");
   ("I16x8WidenHighI8x16U", "I16x8WidenHighI8x16U");
   ("I32x4WidenLowI16x8S", "I32x4WidenLowI16x8S");
   ("I32x4WidenHighI16x8S", "I32x4WidenHighI16x8S");
   ("I32x4WidenLowI16x8U", "I32x4WidenLowI16x8U");
   ("I32x4WidenHighI16x8U", "I32x4WidenHighI16x8U"); ("I16x8Load8x8S", "I16x8Load8x8S");
   ("I16x8Load8x8U", "I16x8Load8x8U"); ("I32x4Load16x4S", "I32x4Load16x4S");
   ("I32x4Load16x4U", "I32x4Load16x4U"); ("I64x2Load32x2S", "I64x2Load32x2S");
   ("I64x2Load32x2U", "I64x2Load32x2U"); ("I8x16RoundingAverageU", "I8x16RoundingAverageU");
   ("I16x8RoundingAverageU", "I16x8RoundingAverageU"); ("LocalAllocate", "LocalAllocate")]%string.

(** The sections CreateGasConfig decodes. *)
Inductive section := SBase | SElrond | SBigInt | SEth | SCrypto | SOpcode.
Definition section_name (s : section) : string :=
  match s with
  | SBase => "BaseOperationCost" | SElrond => "ElrondAPICost" | SBigInt => "BigIntAPICost"
  | SEth => "EthAPICost" | SCrypto => "CryptoAPICost" | SOpcode => "WASMOpcodeCost"
  end.
Definition section_fields (s : section) : list string :=
  match s with
  | SBase => base_fields | SElrond => elrond_fields | SBigInt => bigint_fields
  | SEth => eth_fields | SCrypto => crypto_fields | SOpcode => opcode_fields
  end.

(** * Decoding *)

(** config/gasSchedule.go:15; the values are uint64 *)
Definition gas_map : Type := gmap string (gmap string Z).

(** ASCII letters in lower case (strings.EqualFold without Unicode's folding) *)
Definition lower_char (c : Ascii.ascii) : Ascii.ascii :=
  let n := Ascii.nat_of_ascii c in
  if (65 <=? n)%nat && (n <=? 90)%nat then Ascii.ascii_of_nat (n + 32) else c.
Fixpoint lower (s : string) : string :=
  match s with
  | EmptyString => EmptyString
  | String c s => String (lower_char c) (lower s)
  end.

(** the order in which a [range] loop visits a map *)
Record map_order := mkOrder {
  mo_visit : gmap string Z -> list (string * Z);
  mo_all : forall m, Permutation (mo_visit m) (map_to_list m) }.

(** mapstructure v1.4.1 Decode into a struct (library, from its documentation): a
    field takes the value of the key of its name, or else of a key equal to it
    but for case; without one it keeps its zero value. *)
Definition decode_field (o : map_order) (m : gmap string Z) (f : string) : Z :=
  match m !! f with
  | Some v => v
  | None =>
      match List.find (fun p => String.eqb (lower (fst p)) (lower f)) (mo_visit o m) with
      | Some p => snd p
      | None => 0
      end
  end.

(** Fields of WASMOpcodeCost are uint32, the others uint64; reflection sets the
    low 32 bits of a longer value (reflect.Value.SetUint). *)
Definition fitted (s : section) (v : Z) : Z :=
  match s with SOpcode => v mod 4294967296 | _ => v end.

Definition decode_section (o : map_order) (m : gas_map) (s : section) : list (string * Z) :=
  map (fun f => (f, fitted s (decode_field o (default ∅ (m !! section_name s)) f))) (section_fields s).

(** config/gasSchedule.go:96-110 *)
Definition checkForZeroUint64Fields (l : list (string * Z)) : bool :=
  forallb (fun p => negb (snd p =? 0)) l.

(** config/gasCost.go:5-12 GasCost *)
Record gas_cost := mkGasCost {
  gc_base : list (string * Z); gc_bigint : list (string * Z); gc_eth : list (string * Z);
  gc_elrond : list (string * Z); gc_crypto : list (string * Z); gc_opcode : list (string * Z) }.

(** config/gasSchedule.go:17-94; [None] is an error *)
Definition CreateGasConfig (o : map_order) (m : gas_map) : option gas_cost :=
  let base := decode_section o m SBase in
  if negb (checkForZeroUint64Fields base) then None else
  let elrond := decode_section o m SElrond in
  if negb (checkForZeroUint64Fields elrond) then None else
  let bigint := decode_section o m SBigInt in
  if negb (checkForZeroUint64Fields bigint) then None else
  let eth := decode_section o m SEth in
  if negb (checkForZeroUint64Fields eth) then None else
  let crypto := decode_section o m SCrypto in
  if negb (checkForZeroUint64Fields crypto) then None else
  let opcode := decode_section o m SOpcode in
  if negb (checkForZeroUint64Fields opcode) then None else
  Some (mkGasCost base bigint eth elrond crypto opcode).

(** the value of a field *)
Definition field (l : list (string * Z)) (f : string) : Z :=
  match List.find (fun p => String.eqb (fst p) f) l with Some p => snd p | None => 0 end.
Definition gc_section (c : gas_cost) (s : section) : list (string * Z) :=
  match s with
  | SBase => gc_base c | SElrond => gc_elrond c | SBigInt => gc_bigint c
  | SEth => gc_eth c | SCrypto => gc_crypto c | SOpcode => gc_opcode c
  end.

(** config/gasCost.go:600-1055 ToOpcodeCostsArray; an array of OPCODE_COUNT numbers
    (wasmer/instance.go:10), assigned at the number of each opcode *)
Fixpoint opcode_number (n : nat) (l : list string) (op : string) : option nat :=
  match l with
  | [] => None
  | x :: l => if String.eqb x op then Some n else opcode_number (S n) l op
  end.
Definition ToOpcodeCostsArray (c : list (string * Z)) : list Z :=
  fold_left (fun a p => match opcode_number 0 opcodes (fst p) with
                        | Some i => <[i := field c (snd p)]> a
                        | None => a
                        end)
    opcode_assignments (replicate 448 0).

(** * The host *)

(** arwen/host/arwen.go: the map kept, the metering context's schedule, and the
    opcode costs of wasmer (one for the process) *)
Record priced_host := mkPriced { ph_map : gas_map; ph_costs : gas_cost; ph_opcodes : list Z }.

(** arwen/host/arwen.go:67-167 NewArwenVM, as far as prices go: the schedule is
    decoded once for the metering context and once for the opcodes *)
Definition NewArwenVM (o1 o2 : map_order) (m : gas_map) : option priced_host :=
  c1 ← CreateGasConfig o1 m;
  c2 ← CreateGasConfig o2 m;
  Some (mkPriced m c1 (ToOpcodeCostsArray (gc_opcode c2))).

(** arwen/host/arwen.go:304-319, with arwen/contexts/metering.go:303-310 *)
Definition GasScheduleChange (o1 o2 : map_order) (m : gas_map) (h : priced_host) : priced_host :=
  match CreateGasConfig o1 m with
  | None => mkPriced m (ph_costs h) (ph_opcodes h)
  | Some c =>
      mkPriced m
        match CreateGasConfig o2 m with Some c' => c' | None => ph_costs h end
        (ToOpcodeCostsArray (gc_opcode c))
  end.

(** arwen/host/arwen.go:322-324 *)
Definition GetGasScheduleMap (h : priced_host) : gas_map := ph_map h.

(** * Schedules made for tests *)

(** config/gasSchedule.go:130-150 *)
Definition FillGasMap_BuiltInCosts (value : Z) : list (string * Z) :=
  [("ChangeOwnerAddress"%string, value); ("ClaimDeveloperRewards"%string, value);
   ("SaveUserName"%string, value); ("SaveKeyValue"%string, value);
   ("ESDTTransfer"%string, value); ("ESDTBurn"%string, value); ("ESDTLocalMint"%string, value);
   ("ESDTLocalBurn"%string, value); ("ESDTNFTCreate"%string, value);
   ("ESDTNFTAddQuantity"%string, value); ("ESDTNFTBurn"%string, value);
   ("ESDTNFTTransfer"%string, value); ("ESDTNFTChangeCreateOwner"%string, value);
   ("ESDTNFTAddUri"%string, value); ("ESDTNFTUpdateAttributes"%string, value);
   ("ESDTNFTMultiTransfer"%string, value)].

(** config/gasSchedule.go:152-163 *)
Definition FillGasMap_BaseOperationCosts (value : Z) : list (string * Z) :=
  [("StorePerByte"%string, value); ("DataCopyPerByte"%string, value);
   ("ReleasePerByte"%string, value); ("PersistPerByte"%string, value);
   ("CompilePerByte"%string, value); ("AoTPreparePerByte"%string, value);
   ("GetCode"%string, value)].

(** config/gasSchedule.go:165-207 *)
Definition FillGasMap_ElrondAPICosts (value lock : Z) : list (string * Z) :=
  [("GetSCAddress"%string, value); ("GetOwnerAddress"%string, value);
   ("IsSmartContract"%string, value); ("GetShardOfAddress"%string, value);
   ("GetExternalBalance"%string, value); ("GetBlockHash"%string, value);
   ("TransferValue"%string, value); ("GetArgument"%string, value);
   ("GetFunction"%string, value); ("GetNumArguments"%string, value);
   ("StorageStore"%string, value); ("StorageLoad"%string, value); ("GetCaller"%string, value);
   ("GetCallValue"%string, value); ("Log"%string, value); ("Finish"%string, value);
   ("SignalError"%string, value); ("GetBlockTimeStamp"%string, value);
   ("GetGasLeft"%string, value); ("Int64GetArgument"%string, value);
   ("Int64StorageStore"%string, value); ("Int64StorageLoad"%string, value);
   ("Int64Finish"%string, value); ("GetStateRootHash"%string, value);
   ("GetBlockNonce"%string, value); ("GetBlockEpoch"%string, value);
   ("GetBlockRound"%string, value); ("GetBlockRandomSeed"%string, value);
   ("ExecuteOnSameContext"%string, value); ("ExecuteOnDestContext"%string, value);
   ("DelegateExecution"%string, value); ("ExecuteReadOnly"%string, value);
   ("AsyncCallStep"%string, value); ("AsyncCallbackGasLock"%string, lock);
   ("CreateContract"%string, value); ("GetReturnData"%string, value);
   ("GetNumReturnData"%string, value); ("GetReturnDataSize"%string, value)].

(** config/gasSchedule.go:209-246 *)
Definition FillGasMap_EthereumAPICosts (value : Z) : list (string * Z) :=
  [("UseGas"%string, value); ("GetAddress"%string, value);
   ("GetExternalBalance"%string, value); ("GetBlockHash"%string, value);
   ("Call"%string, value); ("CallDataCopy"%string, value); ("GetCallDataSize"%string, value);
   ("CallCode"%string, value); ("CallDelegate"%string, value); ("CallStatic"%string, value);
   ("StorageStore"%string, value); ("StorageLoad"%string, value); ("GetCaller"%string, value);
   ("GetCallValue"%string, value); ("CodeCopy"%string, value); ("GetCodeSize"%string, value);
   ("GetBlockCoinbase"%string, value); ("Create"%string, value);
   ("GetBlockDifficulty"%string, value); ("ExternalCodeCopy"%string, value);
   ("GetExternalCodeSize"%string, value); ("GetGasLeft"%string, value);
   ("GetBlockGasLimit"%string, value); ("GetTxGasPrice"%string, value); ("Log"%string, value);
   ("GetBlockNumber"%string, value); ("GetTxOrigin"%string, value); ("Finish"%string, value);
   ("Revert"%string, value); ("GetReturnDataSize"%string, value);
   ("ReturnDataCopy"%string, value); ("SelfDestruct"%string, value);
   ("GetBlockTimeStamp"%string, value)].

(** config/gasSchedule.go:248-287 *)
Definition FillGasMap_BigIntAPICosts (value : Z) : list (string * Z) :=
  [("BigIntNew"%string, value); ("BigIntUnsignedByteLength"%string, value);
   ("BigIntSignedByteLength"%string, value); ("BigIntGetUnsignedBytes"%string, value);
   ("BigIntGetSignedBytes"%string, value); ("BigIntSetUnsignedBytes"%string, value);
   ("BigIntSetSignedBytes"%string, value); ("BigIntIsInt64"%string, value);
   ("BigIntGetInt64"%string, value); ("BigIntSetInt64"%string, value);
   ("BigIntAdd"%string, value); ("BigIntSub"%string, value); ("BigIntMul"%string, value);
   ("BigIntTDiv"%string, value); ("BigIntTMod"%string, value); ("BigIntEDiv"%string, value);
   ("BigIntEMod"%string, value); ("BigIntAbs"%string, value); ("BigIntNeg"%string, value);
   ("BigIntSign"%string, value); ("BigIntCmp"%string, value); ("BigIntNot"%string, value);
   ("BigIntAnd"%string, value); ("BigIntOr"%string, value); ("BigIntXor"%string, value);
   ("BigIntShr"%string, value); ("BigIntShl"%string, value);
   ("BigIntFinishUnsigned"%string, value); ("BigIntFinishSigned"%string, value);
   ("BigIntStorageLoadUnsigned"%string, value); ("BigIntStorageStoreUnsigned"%string, value);
   ("BigIntGetUnsignedArgument"%string, value); ("BigIntGetSignedArgument"%string, value);
   ("BigIntGetCallValue"%string, value); ("BigIntGetExternalBalance"%string, value)].

(** config/gasSchedule.go:289-299 *)
Definition FillGasMap_CryptoAPICosts (value : Z) : list (string * Z) :=
  [("SHA256"%string, value); ("Keccak256"%string, value); ("Ripemd160"%string, value);
   ("VerifyBLS"%string, value); ("VerifyEd25519"%string, value);
   ("VerifySecp256k1"%string, value)].

(** config/gasSchedule.go:301-754 *)
Definition FillGasMap_WASMOpcodeValues (value : Z) : list (string * Z) :=
  [("Unreachable"%string, value); ("Nop"%string, value); ("Block"%string, value);
   ("Loop"%string, value); ("If"%string, value); ("Else"%string, value); ("End"%string, value);
   ("Br"%string, value); ("BrIf"%string, value); ("BrTable"%string, value);
   ("Return"%string, value); ("Call"%string, value); ("CallIndirect"%string, value);
   ("Drop"%string, value); ("Select"%string, value); ("TypedSelect"%string, value);
   ("LocalGet"%string, value); ("LocalSet"%string, value); ("LocalTee"%string, value);
   ("GlobalGet"%string, value); ("GlobalSet"%string, value); ("I32Load"%string, value);
   ("I64Load"%string, value); ("F32Load"%string, value); ("F64Load"%string, value);
   ("I32Load8S"%string, value); ("I32Load8U"%string, value); ("I32Load16S"%string, value);
   ("I32Load16U"%string, value); ("I64Load8S"%string, value); ("I64Load8U"%string, value);
   ("I64Load16S"%string, value); ("I64Load16U"%string, value); ("I64Load32S"%string, value);
   ("I64Load32U"%string, value); ("I32Store"%string, value); ("I64Store"%string, value);
   ("F32Store"%string, value); ("F64Store"%string, value); ("I32Store8"%string, value);
   ("I32Store16"%string, value); ("I64Store8"%string, value); ("I64Store16"%string, value);
   ("I64Store32"%string, value); ("MemorySize"%string, value); ("MemoryGrow"%string, value);
   ("I32Const"%string, value); ("I64Const"%string, value); ("F32Const"%string, value);
   ("F64Const"%string, value); ("RefNull"%string, value); ("RefIsNull"%string, value);
   ("RefFunc"%string, value); ("I32Eqz"%string, value); ("I32Eq"%string, value);
   ("I32Ne"%string, value); ("I32LtS"%string, value); ("I32LtU"%string, value);
   ("I32GtS"%string, value); ("I32GtU"%string, value); ("I32LeS"%string, value);
   ("I32LeU"%string, value); ("I32GeS"%string, value); ("I32GeU"%string, value);
   ("I64Eqz"%string, value); ("I64Eq"%string, value); ("I64Ne"%string, value);
   ("I64LtS"%string, value); ("I64LtU"%string, value); ("I64GtS"%string, value);
   ("I64GtU"%string, value); ("I64LeS"%string, value); ("I64LeU"%string, value);
   ("I64GeS"%string, value); ("I64GeU"%string, value); ("F32Eq"%string, value);
   ("F32Ne"%string, value); ("F32Lt"%string, value); ("F32Gt"%string, value);
   ("F32Le"%string, value); ("F32Ge"%string, value); ("F64Eq"%string, value);
   ("F64Ne"%string, value); ("F64Lt"%string, value); ("F64Gt"%string, value);
   ("F64Le"%string, value); ("F64Ge"%string, value); ("I32Clz"%string, value);
   ("I32Ctz"%string, value); ("I32Popcnt"%string, value); ("I32Add"%string, value);
   ("I32Sub"%string, value); ("I32Mul"%string, value); ("I32DivS"%string, value);
   ("I32DivU"%string, value); ("I32RemS"%string, value); ("I32RemU"%string, value);
   ("I32And"%string, value); ("I32Or"%string, value); ("I32Xor"%string, value);
   ("I32Shl"%string, value); ("I32ShrS"%string, value); ("I32ShrU"%string, value);
   ("I32Rotl"%string, value); ("I32Rotr"%string, value); ("I64Clz"%string, value);
   ("I64Ctz"%string, value); ("I64Popcnt"%string, value); ("I64Add"%string, value);
   ("I64Sub"%string, value); ("I64Mul"%string, value); ("I64DivS"%string, value);
   ("I64DivU"%string, value); ("I64RemS"%string, value); ("I64RemU"%string, value);
   ("I64And"%string, value); ("I64Or"%string, value); ("I64Xor"%string, value);
   ("I64Shl"%string, value); ("I64ShrS"%string, value); ("I64ShrU"%string, value);
   ("I64Rotl"%string, value); ("I64Rotr"%string, value); ("F32Abs"%string, value);
   ("F32Neg"%string, value); ("F32Ceil"%string, value); ("F32Floor"%string, value);
   ("F32Trunc"%string, value); ("F32Nearest"%string, value); ("F32Sqrt"%string, value);
   ("F32Add"%string, value); ("F32Sub"%string, value); ("F32Mul"%string, value);
   ("F32Div"%string, value); ("F32Min"%string, value); ("F32Max"%string, value);
   ("F32Copysign"%string, value); ("F64Abs"%string, value); ("F64Neg"%string, value);
   ("F64Ceil"%string, value); ("F64Floor"%string, value); ("F64Trunc"%string, value);
   ("F64Nearest"%string, value); ("F64Sqrt"%string, value); ("F64Add"%string, value);
   ("F64Sub"%string, value); ("F64Mul"%string, value); ("F64Div"%string, value);
   ("F64Min"%string, value); ("F64Max"%string, value); ("F64Copysign"%string, value);
   ("I32WrapI64"%string, value); ("I32TruncF32S"%string, value);
   ("I32TruncF32U"%string, value); ("I32TruncF64S"%string, value);
   ("I32TruncF64U"%string, value); ("I64ExtendI32S"%string, value);
   ("I64ExtendI32U"%string, value); ("I64TruncF32S"%string, value);
   ("I64TruncF32U"%string, value); ("I64TruncF64S"%string, value);
   ("I64TruncF64U"%string, value); ("F32ConvertI32S"%string, value);
   ("F32ConvertI32U"%string, value); ("F32ConvertI64S"%string, value);
   ("F32ConvertI64U"%string, value); ("F32DemoteF64"%string, value);
   ("F64ConvertI32S"%string, value); ("F64ConvertI32U"%string, value);
   ("F64ConvertI64S"%string, value); ("F64ConvertI64U"%string, value);
   ("F64PromoteF32"%string, value); ("I32ReinterpretF32"%string, value);
   ("I64ReinterpretF64"%string, value); ("F32ReinterpretI32"%string, value);
   ("F64ReinterpretI64"%string, value); ("I32Extend8S"%string, value);
   ("I32Extend16S"%string, value); ("I64Extend8S"%string, value);
   ("I64Extend16S"%string, value); ("I64Extend32S"%string, value);
   ("I32TruncSatF32S"%string, value); ("I32TruncSatF32U"%string, value);
   ("I32TruncSatF64S"%string, value); ("I32TruncSatF64U"%string, value);
   ("I64TruncSatF32S"%string, value); ("I64TruncSatF32U"%string, value);
   ("I64TruncSatF64S"%string, value); ("I64TruncSatF64U"%string, value);
   ("MemoryInit"%string, value); ("DataDrop"%string, value); ("MemoryCopy"%string, value);
   ("MemoryFill"%string, value); ("TableInit"%string, value); ("ElemDrop"%string, value);
   ("TableCopy"%string, value); ("TableFill"%string, value); ("TableGet"%string, value);
   ("TableSet"%string, value); ("TableGrow"%string, value); ("TableSize"%string, value);
   ("AtomicNotify"%string, value); ("I32AtomicWait"%string, value);
   ("I64AtomicWait"%string, value); ("AtomicFence"%string, value);
   ("I32AtomicLoad"%string, value); ("I64AtomicLoad"%string, value);
   ("I32AtomicLoad8U"%string, value); ("I32AtomicLoad16U"%string, value);
   ("I64AtomicLoad8U"%string, value); ("I64AtomicLoad16U"%string, value);
   ("I64AtomicLoad32U"%string, value); ("I32AtomicStore"%string, value);
   ("I64AtomicStore"%string, value); ("I32AtomicStore8"%string, value);
   ("I32AtomicStore16"%string, value); ("I64AtomicStore8"%string, value);
   ("I64AtomicStore16"%string, value); ("I64AtomicStore32"%string, value);
   ("I32AtomicRmwAdd"%string, value); ("I64AtomicRmwAdd"%string, value);
   ("I32AtomicRmw8AddU"%string, value); ("I32AtomicRmw16AddU"%string, value);
   ("I64AtomicRmw8AddU"%string, value); ("I64AtomicRmw16AddU"%string, value);
   ("I64AtomicRmw32AddU"%string, value); ("I32AtomicRmwSub"%string, value);
   ("I64AtomicRmwSub"%string, value); ("I32AtomicRmw8SubU"%string, value);
   ("I32AtomicRmw16SubU"%string, value); ("I64AtomicRmw8SubU"%string, value);
   ("I64AtomicRmw16SubU"%string, value); ("I64AtomicRmw32SubU"%string, value);
   ("I32AtomicRmwAnd"%string, value); ("I64AtomicRmwAnd"%string, value);
   ("I32AtomicRmw8AndU"%string, value); ("I32AtomicRmw16AndU"%string, value);
   ("I64AtomicRmw8AndU"%string, value); ("I64AtomicRmw16AndU"%string, value);
   ("I64AtomicRmw32AndU"%string, value); ("I32AtomicRmwOr"%string, value);
   ("I64AtomicRmwOr"%string, value); ("I32AtomicRmw8OrU"%string, value);
   ("I32AtomicRmw16OrU"%string, value); ("I64AtomicRmw8OrU"%string, value);
   ("I64AtomicRmw16OrU"%string, value); ("I64AtomicRmw32OrU"%string, value);
   ("I32AtomicRmwXor"%string, value); ("I64AtomicRmwXor"%string, value);
   ("I32AtomicRmw8XorU"%string, value); ("I32AtomicRmw16XorU"%string, value);
   ("I64AtomicRmw8XorU"%string, value); ("I64AtomicRmw16XorU"%string, value);
   ("I64AtomicRmw32XorU"%string, value); ("I32AtomicRmwXchg"%string, value);
   ("I64AtomicRmwXchg"%string, value); ("I32AtomicRmw8XchgU"%string, value);
   ("I32AtomicRmw16XchgU"%string, value); ("I64AtomicRmw8XchgU"%string, value);
   ("I64AtomicRmw16XchgU"%string, value); ("I64AtomicRmw32XchgU"%string, value);
   ("I32AtomicRmwCmpxchg"%string, value); ("I64AtomicRmwCmpxchg"%string, value);
   ("I32AtomicRmw8CmpxchgU"%string, value); ("I32AtomicRmw16CmpxchgU"%string, value);
   ("I64AtomicRmw8CmpxchgU"%string, value); ("I64AtomicRmw16CmpxchgU"%string, value);
   ("I64AtomicRmw32CmpxchgU"%string, value); ("V128Load"%string, value);
   ("V128Store"%string, value); ("V128Const"%string, value); ("I8x16Splat"%string, value);
   ("I8x16ExtractLaneS"%string, value); ("I8x16ExtractLaneU"%string, value);
   ("I8x16ReplaceLane"%string, value); ("I16x8Splat"%string, value);
   ("I16x8ExtractLaneS"%string, value); ("I16x8ExtractLaneU"%string, value);
   ("I16x8ReplaceLane"%string, value); ("I32x4Splat"%string, value);
   ("I32x4ExtractLane"%string, value); ("I32x4ReplaceLane"%string, value);
   ("I64x2Splat"%string, value); ("I64x2ExtractLane"%string, value);
   ("I64x2ReplaceLane"%string, value); ("F32x4Splat"%string, value);
   ("F32x4ExtractLane"%string, value); ("F32x4ReplaceLane"%string, value);
   ("F64x2Splat"%string, value); ("F64x2ExtractLane"%string, value);
   ("F64x2ReplaceLane"%string, value); ("I8x16Eq"%string, value); ("I8x16Ne"%string, value);
   ("I8x16LtS"%string, value); ("I8x16LtU"%string, value); ("I8x16GtS"%string, value);
   ("I8x16GtU"%string, value); ("I8x16LeS"%string, value); ("I8x16LeU"%string, value);
   ("I8x16GeS"%string, value); ("I8x16GeU"%string, value); ("I16x8Eq"%string, value);
   ("I16x8Ne"%string, value); ("I16x8LtS"%string, value); ("I16x8LtU"%string, value);
   ("I16x8GtS"%string, value); ("I16x8GtU"%string, value); ("I16x8LeS"%string, value);
   ("I16x8LeU"%string, value); ("I16x8GeS"%string, value); ("I16x8GeU"%string, value);
   ("I32x4Eq"%string, value); ("I32x4Ne"%string, value); ("I32x4LtS"%string, value);
   ("I32x4LtU"%string, value); ("I32x4GtS"%string, value); ("I32x4GtU"%string, value);
   ("I32x4LeS"%string, value); ("I32x4LeU"%string, value); ("I32x4GeS"%string, value);
   ("I32x4GeU"%string, value); ("F32x4Eq"%string, value); ("F32x4Ne"%string, value);
   ("F32x4Lt"%string, value); ("F32x4Gt"%string, value); ("F32x4Le"%string, value);
   ("F32x4Ge"%string, value); ("F64x2Eq"%string, value); ("F64x2Ne"%string, value);
   ("F64x2Lt"%string, value); ("F64x2Gt"%string, value); ("F64x2Le"%string, value);
   ("F64x2Ge"%string, value); ("V128Not"%string, value); ("V128And"%string, value);
   ("V128AndNot"%string, value); ("V128Or"%string, value); ("V128Xor"%string, value);
   ("V128Bitselect"%string, value); ("I8x16Neg"%string, value); ("I8x16AnyTrue"%string, value);
   ("I8x16AllTrue"%string, value); ("I8x16Shl"%string, value); ("I8x16ShrS"%string, value);
   ("I8x16ShrU"%string, value); ("I8x16Add"%string, value);
   ("I8x16AddSaturateS"%string, value); ("I8x16AddSaturateU"%string, value);
   ("I8x16Sub"%string, value); ("I8x16SubSaturateS"%string, value);
   ("I8x16SubSaturateU"%string, value); ("I8x16MinS"%string, value);
   ("I8x16MinU"%string, value); ("I8x16MaxS"%string, value); ("I8x16MaxU"%string, value);
   ("I8x16Mul"%string, value); ("I16x8Neg"%string, value); ("I16x8AnyTrue"%string, value);
   ("I16x8AllTrue"%string, value); ("I16x8Shl"%string, value); ("I16x8ShrS"%string, value);
   ("I16x8ShrU"%string, value); ("I16x8Add"%string, value);
   ("I16x8AddSaturateS"%string, value); ("I16x8AddSaturateU"%string, value);
   ("I16x8Sub"%string, value); ("I16x8SubSaturateS"%string, value);
   ("I16x8SubSaturateU"%string, value); ("I16x8Mul"%string, value);
   ("I16x8MinS"%string, value); ("I16x8MinU"%string, value); ("I16x8MaxS"%string, value);
   ("I16x8MaxU"%string, value); ("I32x4Neg"%string, value); ("I32x4AnyTrue"%string, value);
   ("I32x4AllTrue"%string, value); ("I32x4Shl"%string, value); ("I32x4ShrS"%string, value);
   ("I32x4ShrU"%string, value); ("I32x4Add"%string, value); ("I32x4Sub"%string, value);
   ("I32x4Mul"%string, value); ("I32x4MinS"%string, value); ("I32x4MinU"%string, value);
   ("I32x4MaxS"%string, value); ("I32x4MaxU"%string, value); ("I64x2Neg"%string, value);
   ("I64x2AnyTrue"%string, value); ("I64x2AllTrue"%string, value); ("I64x2Shl"%string, value);
   ("I64x2ShrS"%string, value); ("I64x2ShrU"%string, value); ("I64x2Add"%string, value);
   ("I64x2Sub"%string, value); ("I64x2Mul"%string, value); ("F32x4Abs"%string, value);
   ("F32x4Neg"%string, value); ("F32x4Sqrt"%string, value); ("F32x4Add"%string, value);
   ("F32x4Sub"%string, value); ("F32x4Mul"%string, value); ("F32x4Div"%string, value);
   ("F32x4Min"%string, value); ("F32x4Max"%string, value); ("F64x2Abs"%string, value);
   ("F64x2Neg"%string, value); ("F64x2Sqrt"%string, value); ("F64x2Add"%string, value);
   ("F64x2Sub"%string, value); ("F64x2Mul"%string, value); ("F64x2Div"%string, value);
   ("F64x2Min"%string, value); ("F64x2Max"%string, value);
   ("I32x4TruncSatF32x4S"%string, value); ("I32x4TruncSatF32x4U"%string, value);
   ("I64x2TruncSatF64x2S"%string, value); ("I64x2TruncSatF64x2U"%string, value);
   ("F32x4ConvertI32x4S"%string, value); ("F32x4ConvertI32x4U"%string, value);
   ("F64x2ConvertI64x2S"%string, value); ("F64x2ConvertI64x2U"%string, value);
   ("V8x16Swizzle"%string, value); ("V8x16Shuffle"%string, value);
   ("V8x16LoadSplat"%string, value); ("V16x8LoadSplat"%string, value);
   ("V32x4LoadSplat"%string, value); ("V64x2LoadSplat"%string, value);
   ("I8x16NarrowI16x8S"%string, value); ("I8x16NarrowI16x8U"%string, value);
   ("I16x8NarrowI32x4S"%string, value); ("I16x8NarrowI32x4U"%string, value);
   ("I16x8WidenLowI8x16S"%string, value); ("I16x8WidenHighI8x16S"%string, value);
   ("I16x8WidenLowI8x16U"%string, value); ("I16x8WidenHighI8x16U"%string, value);
   ("I32x4WidenLowI16x8S"%string, value); ("I32x4WidenHighI16x8S"%string, value);
   ("I32x4WidenLowI16x8U"%string, value); ("I32x4WidenHighI16x8U"%string, value);
   ("I16x8Load8x8S"%string, value); ("I16x8Load8x8U"%string, value);
   ("I32x4Load16x4S"%string, value); ("I32x4Load16x4U"%string, value);
   ("I64x2Load32x2S"%string, value); ("I64x2Load32x2U"%string, value);
   ("I8x16RoundingAverageU"%string, value); ("I16x8RoundingAverageU"%string, value);
   ("LocalAllocate"%string, value); ("LocalsUnmetered"%string, 100)].

(** assignments to an empty map, in order *)
Definition assign_all (l : list (string * Z)) : gmap string Z :=
  fold_left (fun m p => <[fst p := snd p]> m) l ∅.

(** config/gasSchedule.go:112-129 MakeGasMap, FillGasMap *)
Definition MakeGasMap (value lock : Z) : gas_map :=
  fold_left (fun m p => <[fst p := assign_all (snd p)]> m)
    [("BuiltInCost"%string, FillGasMap_BuiltInCosts value);
     ("BaseOperationCost"%string, FillGasMap_BaseOperationCosts value);
     ("ElrondAPICost"%string, FillGasMap_ElrondAPICosts value lock);
     ("EthAPICost"%string, FillGasMap_EthereumAPICosts value);
     ("BigIntAPICost"%string, FillGasMap_BigIntAPICosts value);
     ("CryptoAPICost"%string, FillGasMap_CryptoAPICosts value);
     ("WASMOpcodeCost"%string, FillGasMap_WASMOpcodeValues value)] ∅.
