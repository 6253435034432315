-Q theories Verif
theories/Base.v
theories/GoRt.v
theories/MathModel.v
theories/MathProofs.v
theories/MathTheorems.v
theories/MemModel.v
theories/MemSpec.v
theories/MemProofs.v
theories/CodecModel.v
theories/CodecSpec.v
theories/CodecProofs.v
theories/CodecTheorems.v
theories/ApiArgsModel.v
theories/ApiArgsSpec.v
theories/ApiArgsProofs.v
theories/MemTheorems.v
theories/VmTypes.v
theories/CtxModel.v
theories/CallDataModel.v
theories/HostModel.v
theories/ApiModel.v
theories/VmModel.v
theories/WpProofs.v
theories/ExEnv.v
theories/BigSpec.v
theories/BigProofs.v
theories/BigTheorems.v
theories/CallDataProofs.v
theories/DigitSpec.v
theories/DigitProofs.v
theories/CallDataTheorems.v
theories/StoSpec.v
theories/StoProofs.v
theories/StoTheorems.v
theories/EffProofs.v
theories/EffFrameProofs.v
theories/KeepsProofs.v
theories/EffWalkProofs.v
theories/EffTopProofs.v
theories/CallSpec.v
theories/FreshSpec.v
theories/KeepProofs.v
theories/CallProofs.v
theories/ExCalls.v
theories/CallTheorems.v
theories/InvSpec.v
theories/InvProofs.v
theories/KindProofs.v
theories/TxProofs.v
theories/CellProofs.v
theories/InvTheorems.v
theories/MoneySpec.v
theories/MoneyProofs.v
theories/MoneyTheorems.v
theories/OutSpec.v
theories/OutProofs.v
theories/OutTheorems.v
theories/IdentSpec.v
theories/IdentProofs.v
theories/IdentTheorems.v
theories/GasSpec.v
theories/GasProofs.v
theories/GasApiProofs.v
theories/GasOutProofs.v
theories/GasAsyncProofs.v
theories/ExGas.v
theories/GasTheorems.v
theories/CodeSpec.v
theories/CodeProofs.v
theories/ClassProofs.v
theories/InitProofs.v
theories/CodeTheorems.v
theories/ErrModel.v
theories/ErrSpec.v
theories/ErrProofs.v
theories/ErrTheorems.v
theories/OrderModel.v
theories/OrderSpec.v
theories/OrderProofs.v
theories/OrderTheorems.v
theories/DeploySpec.v
theories/DeployProofs.v
theories/StartProofs.v
theories/KeptProofs.v
theories/NonceProofs.v
theories/FrozenProofs.v
theories/ExDeploy.v
theories/DeployTheorems.v
theories/AsyncSpec.v
theories/AsyncProofs.v
theories/ExAsync.v
theories/AsyncTheorems.v
theories/IpcModel.v
theories/IpcSpec.v
theories/IpcProofs.v
theories/ExIpc.v
theories/IpcTheorems.v
theories/JsonModel.v
theories/JsonSpec.v
theories/JsonProofs.v
theories/JsonParseProofs.v
theories/JsonPrintProofs.v
theories/ExJson.v
theories/JsonTheorems.v
theories/MandosModel.v
theories/MandosSpec.v
theories/MandosProofs.v
theories/MandosExprProofs.v
theories/MandosTextProofs.v
theories/MandosTheorems.v
theories/SafeSpec.v
theories/SafeProofs.v
theories/SafeApiProofs.v
theories/ExSafe.v
theories/SafeTheorems.v
theories/FuelProofs.v
theories/FuelTheorems.v
theories/QuerySpec.v
theories/QueryProofs.v
theories/NftProofs.v
theories/ExNft.v
theories/QueryTheorems.v
theories/ResultSpec.v
theories/ResultProofs.v
theories/ResultTheorems.v
theories/PriceSpec.v
theories/PriceProofs.v
theories/PriceTheorems.v
theories/TypedSpec.v
theories/TypedProofs.v
theories/TypedTheorems.v
theories/BalSpec.v
theories/BalProofs.v
theories/BalTheorems.v
theories/HookModel.v
theories/HookSpec.v
theories/HookProofs.v
theories/ExHook.v
theories/HookTheorems.v
theories/ScheduleModel.v
theories/ScheduleSpec.v
theories/ScheduleProofs.v
theories/ExSchedule.v
theories/ScheduleTheorems.v
theories/AskSpec.v
theories/AskProofs.v
theories/AskTheorems.v
theories/LastSpec.v
theories/LastProofs.v
theories/LastTheorems.v
theories/FreshProofs.v
theories/FreshTxProofs.v
theories/ExFresh.v
theories/FreshTheorems.v
theories/ScenModel.v
theories/WorldModel.v
theories/WorldSpec.v
theories/CheckProofs.v
theories/WorldProofs.v
theories/ExWorld.v
theories/CheckTheorems.v
theories/WorldTheorems.v
theories/TransferSpec.v
theories/TransferProofs.v
theories/TransferTheorems.v
theories/SetSpec.v
theories/SetProofs.v
theories/ExSet.v
theories/SetTheorems.v
theories/ScenParseModel.v
theories/ScenWriteModel.v
theories/RewriteSpec.v
theories/ReadProofs.v
theories/RewriteTokenProofs.v
theories/RewriteProofs.v
theories/RewriteRunProofs.v
theories/ExRewrite.v
theories/RewriteTheorems.v
theories/PlacedSpec.v
theories/PlacedProofs.v
theories/PlacedTheorems.v
theories/FileSpec.v
theories/FileProofs.v
theories/FileRecordProofs.v
theories/FileAccountProofs.v
theories/FileStepProofs.v
theories/ExFile.v
theories/FileTheorems.v
theories/ForwardSpec.v
theories/ForwardProofs.v
theories/ForwardTheorems.v
theories/RunnerModel.v
theories/RunnerSpec.v
theories/RunnerProofs.v
theories/RunnerDirProofs.v
theories/ExRunner.v
theories/RunnerTheorems.v
theories/DriverModel.v
theories/DriverSpec.v
theories/DriverProofs.v
theories/DriverRunProofs.v
theories/ExDriver.v
theories/DriverTheorems.v
theories/HeapSpec.v
theories/HeapProofs.v
theories/HeapStartProofs.v
theories/HeapTheorems.v
theories/DebugModel.v
theories/DebugSpec.v
theories/DebugProofs.v
theories/ExDebug.v
theories/DebugTheorems.v
theories/DigestSpec.v
theories/DigestProofs.v
theories/DigestTheorems.v
theories/WarmModel.v
theories/WarmSpec.v
theories/WarmProofs.v
theories/WarmLiveProofs.v
theories/ExWarm.v
theories/WarmLeakProofs.v
theories/WarmTheorems.v
theories/WorldHookModel.v
theories/WorldHookProofs.v
theories/ExWorldHook.v
theories/WorldHookTheorems.v
theories/KastModel.v
theories/KastSpec.v
theories/KastProofs.v
theories/ExKast.v
theories/KastTheorems.v
theories/WasmerModel.v
theories/WasmerSpec.v
theories/WasmerProofs.v
theories/ExWasmer.v
theories/WasmerTheorems.v
theories/CreatedSpec.v
theories/CreatedProofs.v
theories/ExCreated.v
theories/CreatedTheorems.v
theories/UpgradeSpec.v
theories/UpgradeProofs.v
theories/ExUpgrade.v
theories/UpgradeTheorems.v
theories/ChargeSpec.v
theories/ChargeProofs.v
theories/ExCharge.v
theories/ChargeTheorems.v
theories/ReservedSpec.v
theories/ReservedProofs.v
theories/ExReserved.v
theories/ReservedTheorems.v
theories/PaidSpec.v
theories/PaidProofs.v
theories/ExPaid.v
theories/PaidTheorems.v
theories/OverSpec.v
theories/OverProofs.v
theories/ExOver.v
theories/OverTheorems.v
