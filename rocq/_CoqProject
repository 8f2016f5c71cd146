-Q theories Verif
theories/Base.v
theories/Demo.v
theories/Ieee.v
theories/M_Alias.v
theories/M_Analyze.v
theories/M_Api.v
theories/M_Conc.v
theories/M_Dag.v
theories/M_Dict.v
theories/M_Emit.v
theories/M_Env.v
theories/M_Heap.v
theories/M_Hmm.v
theories/M_HmmEmit.v
theories/M_Idf.v
theories/M_Load.v
theories/M_New.v
theories/M_Out.v
theories/M_Pool.v
theories/M_Pos.v
theories/M_PosEmit.v
theories/M_PosTab.v
theories/M_Rank.v
theories/M_Ranker.v
theories/M_Seg.v
theories/M_Server.v
theories/M_Share.v
theories/M_Split.v
theories/M_Str.v
theories/M_Tags.v
theories/M_Trim.v
theories/M_Utf8.v
theories/P_Alias.v
theories/P_Analyze.v
theories/P_Api.v
theories/P_Ascii.v
theories/P_Case.v
theories/P_Chars.v
theories/P_Conc.v
theories/P_Conc2.v
theories/P_Conc3.v
theories/P_Dag.v
theories/P_Dag2.v
theories/P_Dag3.v
theories/P_Dict.v
theories/P_Emit.v
theories/P_EmitTab.v
theories/P_Exact.v
theories/P_Exact2.v
theories/P_Exact3.v
theories/P_Heap.v
theories/P_Hist.v
theories/P_Hmm.v
theories/P_Idf.v
theories/P_Idf2.v
theories/P_Ieee.v
theories/P_Json.v
theories/P_Laws64.v
theories/P_Load.v
theories/P_Load2.v
theories/P_Load3.v
theories/P_Local.v
theories/P_Meta.v
theories/P_Meta2.v
theories/P_Meta3.v
theories/P_Meta4.v
theories/P_Meta5.v
theories/P_Meta6.v
theories/P_Meta7.v
theories/P_Miss.v
theories/P_Miss2.v
theories/P_MissPos.v
theories/P_MissR.v
theories/P_Near.v
theories/P_Near2.v
theories/P_Near3.v
theories/P_Near4.v
theories/P_Near5.v
theories/P_Near6.v
theories/P_Near7.v
theories/P_Near8.v
theories/P_Near9.v
theories/P_Out.v
theories/P_Out2.v
theories/P_Pool.v
theories/P_Pos.v
theories/P_Pos2.v
theories/P_Pos3.v
theories/P_Pos4.v
theories/P_Pos5.v
theories/P_Pos6.v
theories/P_PosTab.v
theories/P_Raise.v
theories/P_Rank.v
theories/P_Rank2.v
theories/P_Rank3.v
theories/P_Rank4.v
theories/P_Ranker.v
theories/P_Read.v
theories/P_Seg.v
theories/P_Seg2.v
theories/P_Seg3.v
theories/P_Server.v
theories/P_Share.v
theories/P_Split.v
theories/P_Str.v
theories/P_Sum.v
theories/P_Tags.v
theories/P_Trim.v
theories/P_Trim2.v
theories/P_Trim3.v
theories/P_Untag.v
theories/P_Unused.v
theories/P_Unused2.v
theories/P_Utf8.v
theories/P_Utf8b.v
theories/S_Alias.v
theories/S_Analyze.v
theories/S_Api.v
theories/S_Ascii.v
theories/S_Case.v
theories/S_Chars.v
theories/S_Conc.v
theories/S_Dag.v
theories/S_Dict.v
theories/S_Emit.v
theories/S_Exact.v
theories/S_Heap.v
theories/S_Hmm.v
theories/S_Idf.v
theories/S_Json.v
theories/S_Load.v
theories/S_Meta.v
theories/S_Miss.v
theories/S_MissPos.v
theories/S_Near.v
theories/S_Near2.v
theories/S_Near3.v
theories/S_Near4.v
theories/S_Near5.v
theories/S_Near6.v
theories/S_Near7.v
theories/S_Out.v
theories/S_Pos.v
theories/S_Raise.v
theories/S_Rank.v
theories/S_Ranker.v
theories/S_Read.v
theories/S_Seg.v
theories/S_Server.v
theories/S_Share.v
theories/S_Split.v
theories/S_Tags.v
theories/S_Trim.v
theories/S_Untag.v
theories/S_Utf8.v
theories/T_Alias.v
theories/T_Analyze.v
theories/T_Api.v
theories/T_Ascii.v
theories/T_Case.v
theories/T_Chars.v
theories/T_Conc.v
theories/T_Conc2.v
theories/T_Conc3.v
theories/T_Dag.v
theories/T_Dict.v
theories/T_Emit.v
theories/T_Exact.v
theories/T_Heap.v
theories/T_Hmm.v
theories/T_Idf.v
theories/T_Load.v
theories/T_Local.v
theories/T_Meta.v
theories/T_Miss.v
theories/T_MissPos.v
theories/T_Near.v
theories/T_Near2.v
theories/T_Near3.v
theories/T_Near4.v
theories/T_Near5.v
theories/T_Near6.v
theories/T_Near7.v
theories/T_Out.v
theories/T_Pool.v
theories/T_Pos.v
theories/T_Raise.v
theories/T_Rank.v
theories/T_Ranker.v
theories/T_Read.v
theories/T_Rest.v
theories/T_Seg.v
theories/T_Server.v
theories/T_Share.v
theories/T_Split.v
theories/T_Tags.v
theories/T_Trim.v
theories/T_Untag.v
theories/T_Unused.v
theories/T_Unused2.v
