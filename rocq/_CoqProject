-Q theories Verif
theories/PyBase.v
theories/Env.v
theories/PyNum.v
theories/Validate.v
theories/Basic.v
theories/TxInput.v
theories/TxOutput.v
theories/Tx.v
theories/Create.v
theories/Cli.v
theories/Logger.v
theories/Spec.v
theories/NumLemmas.v
theories/HexProofs.v
theories/C_Hex.v
theories/Prop_Hex.v
theories/EnvOk.v
theories/Base58Proofs.v
theories/AddrProofs.v
theories/C_Base58.v
theories/Prop_Base58.v
theories/Demo.v
theories/RealHash.v
theories/FloatProofs.v
theories/AmountProofs.v
theories/DemoProofs.v
theories/C_Amount.v
theories/Prop_Amount.v
theories/TxSpec.v
theories/SignSpec.v
theories/DemoTxProofs.v
theories/C_Sign.v
theories/Prop_Sign.v
theories/VerifyProofs.v
theories/FloatSpec.v
theories/NumSpec.v
theories/CreateSpec.v
theories/RateProofs.v
theories/NumProofs.v
theories/PrepProofs.v
theories/DesignProofs.v
theories/MakeProofs.v
theories/BuildProofs.v
theories/CreateProofs.v
theories/SignProofs.v
theories/ScriptProofs.v
theories/C_Script.v
theories/Prop_Script.v
theories/WireProofs.v
theories/DemoTx.v
theories/C_Wire.v
theories/Prop_Wire.v
theories/DemoCreate.v
theories/DemoCreateProofs.v
theories/C_Create.v
theories/C_Fee.v
theories/C_Args.v
theories/Prop_Create.v
theories/Prop_Fee.v
theories/Prop_Args.v
theories/JsonSpec.v
theories/JsonProofs.v
theories/C_Json.v
theories/Prop_Json.v
theories/C_Size.v
theories/ValidSpec.v
theories/C_Valid.v
theories/Messages.v
theories/MessagesSpec.v
theories/C_Messages.v
theories/LogSpec.v
theories/C_Log.v
theories/CliProofs.v
theories/CliSpec.v
theories/StripProofs.v
theories/C_Cli.v
theories/VerifySpec.v
theories/C_Verify.v
theories/Files.v
theories/FilesSpec.v
theories/FilesProofs.v
theories/DemoFiles.v
theories/C_Files.v
theories/Forms.v
theories/FormsSpec.v
theories/C_Forms.v
theories/Prop_Forms.v
theories/Prop_Size.v
theories/Prop_Valid.v
theories/Prop_Messages.v
theories/Prop_Log.v
theories/Prop_Cli.v
theories/Prop_Verify.v
theories/Prop_Files.v
theories/RefuseSpec.v
theories/HistorySpec.v
theories/RefuseProofs.v
theories/OrderProofs.v
theories/DemoRefuse.v
theories/C_Refuse.v
theories/HistoryProofs.v
theories/DemoHistory.v
theories/C_History.v
theories/Prop_History.v
theories/Prop_Refuse.v
theories/Fidelity.v
theories/RelSpec.v
theories/DemoRel.v
theories/C_Relations.v
theories/Prop_Relations.v
theories/Args.v
theories/ArgsSpec.v
theories/ArgsProofs.v
theories/ArgsMeaningProofs.v
theories/DemoArgs.v
theories/C_CmdLine.v
theories/Prop_CmdLine.v
theories/Json.v
theories/JsonGrammar.v
theories/JsonTextProofs.v
theories/JsonNumProofs.v
theories/JsonLoadsProofs.v
theories/JsonLayoutProofs.v
theories/DemoJson.v
theories/C_JsonText.v
theories/Prop_JsonText.v
theories/FidelityReadme.v
theories/Report.v
theories/ReportSpec.v
theories/ReportTextProofs.v
theories/ReportProofs.v
theories/ReportWalkProofs.v
theories/ReportMainProofs.v
theories/DemoReport.v
theories/C_Report.v
theories/Prop_Report.v
theories/AdviceSpec.v
theories/AdviceProofs.v
theories/DemoAdvice.v
theories/C_Advice.v
theories/Prop_Advice.v
theories/Trace.v
theories/TraceSpec.v
theories/TraceProofs.v
theories/TraceEraseProofs.v
theories/TraceLogProofs.v
theories/DemoTrace.v
theories/C_Trace.v
theories/Prop_Trace.v
theories/TxApi.v
theories/HelperSpec.v
theories/HelperProofs.v
theories/C_Helpers.v
theories/Complaints.v
theories/Answer.v
theories/BasicSays.v
theories/BasicSaysSpec.v
theories/ComplaintsSpec.v
theories/C_Complaints.v
theories/Prop_Complaints.v
theories/C_BasicSays.v
theories/Prop_BasicSays.v
theories/Prop_Helpers.v
theories/AsWrittenSpec.v
theories/C_AsWritten.v
theories/Prop_AsWritten.v
theories/CliSays.v
theories/CliSaysSpec.v
theories/C_CliSays.v
theories/Prop_CliSays.v
theories/DocSays.v
theories/DocSaysSpec.v
theories/DemoDoc.v
theories/C_DocSays.v
theories/Prop_DocSays.v
theories/HexSays.v
theories/HexSaysSpec.v
theories/C_HexSays.v
theories/Prop_HexSays.v
theories/SignSays.v
theories/SignSaysSpec.v
theories/C_SignSays.v
theories/Prop_SignSays.v
theories/OrderSays.v
theories/OrderSaysSpec.v
theories/OrderSaysProofs.v
theories/DemoOrderSays.v
theories/C_OrderSays.v
theories/Prop_OrderSays.v
theories/BuildSays.v
theories/BuildSaysSpec.v
theories/BuildSaysProofs.v
theories/BuildToldProofs.v
theories/TrueFeeProofs.v
theories/C_BuildSays.v
theories/Prop_BuildSays.v
theories/ArgsSays.v
theories/ArgsSaysSpec.v
theories/ArgsSaysProofs.v
theories/ArgsSaysWordsProofs.v
theories/ArgsEveryProofs.v
theories/C_ArgsSays.v
theories/Prop_ArgsSays.v
