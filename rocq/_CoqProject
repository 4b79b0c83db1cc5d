-Q theories Verif

theories/G_Golden.v
theories/G_Tables.v
theories/G_Texts.v
theories/L_Accept.v
theories/L_AcceptAlias.v
theories/L_AcceptOrder.v
theories/L_AcceptTree.v
theories/L_Agree.v
theories/L_AgreeRefuted.v
theories/L_Anno.v
theories/L_AnnoCases.v
theories/L_AnnoDecode.v
theories/L_Bits.v
theories/L_Blame.v
theories/L_BlameTables.v
theories/L_BlameTree.v
theories/L_Both.v
theories/L_BothCases.v
theories/L_BothNames.v
theories/L_BothRenamed.v
theories/L_BothShifts.v
theories/L_BothShipped.v
theories/L_Builtin.v
theories/L_BuiltinCases.v
theories/L_Cache.v
theories/L_Calm.v
theories/L_Check.v
theories/L_Claims.v
theories/L_ClassCases.v
theories/L_Classes.v
theories/L_CloneCases.v
theories/L_Config.v
theories/L_ConfigCases.v
theories/L_Context.v
theories/L_ContextCases.v
theories/L_Count.v
theories/L_CtxUidCases.v
theories/L_CtxUids.v
theories/L_Dasm.v
theories/L_DasmDirect.v
theories/L_DasmTables.v
theories/L_DasmTidy.v
theories/L_DasmTidyTables.v
theories/L_Decode.v
theories/L_Decoded.v
theories/L_Direct.v
theories/L_DirectCases.v
theories/L_Exact.v
theories/L_ExactClaims.v
theories/L_Expand.v
theories/L_ExpandCases.v
theories/L_ExpandPairs.v
theories/L_Field.v
theories/L_Fields.v
theories/L_Forget.v
theories/L_ForgetCases.v
theories/L_Founder.v
theories/L_FounderC.v
theories/L_FounderCCases.v
theories/L_FounderCases.v
theories/L_Hint.v
theories/L_HistCases.v
theories/L_HistClaims.v
theories/L_HistRefuted.v
theories/L_History.v
theories/L_Ids.v
theories/L_Imm.v
theories/L_ImmKind.v
theories/L_IsaClause.v
theories/L_Left.v
theories/L_LeftCases.v
theories/L_Local.v
theories/L_LocalAnno.v
theories/L_LocalAnnoCases.v
theories/L_LocalCases.v
theories/L_Manual.v
theories/L_ManualClaims.v
theories/L_ManualFull.v
theories/L_ManualTie.v
theories/L_MatchSet.v
theories/L_Meta.v
theories/L_NameTables.v
theories/L_Names.v
theories/L_Numbers.v
theories/L_NumbersCases.v
theories/L_NumbersNext.v
theories/L_NumbersRec.v
theories/L_Numeral.v
theories/L_Objects.v
theories/L_OperandInfo.v
theories/L_Override.v
theories/L_PairCases.v
theories/L_PairRows.v
theories/L_Pairs.v
theories/L_Places.v
theories/L_Print.v
theories/L_PrintCases.v
theories/L_Pseudo.v
theories/L_PseudoCases.v
theories/L_PseudoDasm.v
theories/L_PseudoDasmCases.v
theories/L_Queries.v
theories/L_Readable.v
theories/L_Registry.v
theories/L_Regs.v
theories/L_RegsRefuted.v
theories/L_Reserved.v
theories/L_Says.v
theories/L_SaysCases.v
theories/L_Sdsp.v
theories/L_Shipped.v
theories/L_Slots.v
theories/L_Stores.v
theories/L_Symbolic.v
theories/L_Table.v
theories/L_Text.v
theories/L_Total.v
theories/L_TraceBuiltin.v
theories/L_TraceKnown.v
theories/L_TraceRecord.v
theories/L_Traces.v
theories/L_Trie.v
theories/L_Trunc.v
theories/L_TruncCases.v
theories/L_TruncClass.v
theories/L_TruncShipped.v
theories/L_Typed.v
theories/L_Uids.v
theories/L_UserList.v
theories/L_What.v
theories/L_WhatCases.v
theories/L_WidthCases.v
theories/L_Widths.v
theories/M_Base.v
theories/M_Builder.v
theories/M_Cache.v
theories/M_Context.v
theories/M_DTable.v
theories/M_Decoded.v
theories/M_Direct.v
theories/M_Extract.v
theories/M_Field.v
theories/M_Forms.v
theories/M_Left.v
theories/M_MatchSet.v
theories/M_Meta.v
theories/M_OpcodeInfo.v
theories/M_OperandInfo.v
theories/M_Override.v
theories/M_Print.v
theories/M_Pseudo.v
theories/M_PseudoDasm.v
theories/M_Raw.v
theories/M_Registry.v
theories/M_Text.v
theories/M_Trie.v
theories/M_What.v
theories/P_Accept.v
theories/P_Agree.v
theories/P_Anno.v
theories/P_Bits.v
theories/P_Blame.v
theories/P_Both.v
theories/P_Builtin.v
theories/P_Cache.v
theories/P_Classes.v
theories/P_Config.v
theories/P_Context.v
theories/P_Dasm.v
theories/P_Decode.v
theories/P_Direct.v
theories/P_Exact.v
theories/P_Expand.v
theories/P_Fields.v
theories/P_Forget.v
theories/P_Founder.v
theories/P_Hint.v
theories/P_History.v
theories/P_Imm.v
theories/P_ImmKind.v
theories/P_Jumps.v
theories/P_Local.v
theories/P_Manual.v
theories/P_MatchSet.v
theories/P_Meta.v
theories/P_Numbers.v
theories/P_Numeral.v
theories/P_Operands.v
theories/P_Override.v
theories/P_PairRows.v
theories/P_Print.v
theories/P_Pseudo.v
theories/P_PseudoDasm.v
theories/P_Queries.v
theories/P_Record.v
theories/P_Registry.v
theories/P_Regs.v
theories/P_Says.v
theories/P_Shipped.v
theories/P_Stores.v
theories/P_Text.v
theories/P_TraceRecord.v
theories/P_Trie.v
theories/P_Trunc.v
theories/P_What.v
theories/P_Widths.v
theories/S_Accept.v
theories/S_Agree.v
theories/S_Anno.v
theories/S_Bits.v
theories/S_Blame.v
theories/S_BlameTables.v
theories/S_Both.v
theories/S_BothNames.v
theories/S_Builtin.v
theories/S_Classes.v
theories/S_Config.v
theories/S_Context.v
theories/S_Dasm.v
theories/S_Direct.v
theories/S_Expand.v
theories/S_ExpandPairs.v
theories/S_Fields.v
theories/S_Forget.v
theories/S_Founder.v
theories/S_FounderC.v
theories/S_Golden.v
theories/S_Hint.v
theories/S_History.v
theories/S_Imm.v
theories/S_ImmKind.v
theories/S_Local.v
theories/S_Manual.v
theories/S_Manual32.v
theories/S_Maps.v
theories/S_MatchSet.v
theories/S_Meta.v
theories/S_Numbers.v
theories/S_Numeral.v
theories/S_Operands.v
theories/S_Override.v
theories/S_PairRows.v
theories/S_Pairs.v
theories/S_Places.v
theories/S_Print.v
theories/S_Pseudo.v
theories/S_PseudoDasm.v
theories/S_Queries.v
theories/S_Regs.v
theories/S_Reserved.v
theories/S_Says.v
theories/S_Sdsp.v
theories/S_Shipped.v
theories/S_Slots.v
theories/S_Special.v
theories/S_Table.v
theories/S_Text.v
theories/S_TraceRecord.v
theories/S_Trie.v
theories/S_Trunc.v
theories/S_Uids.v
theories/S_What.v
theories/S_Widths.v
theories/T_Golden.v
