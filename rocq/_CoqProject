-Q theories Verif
theories/Values.v
theories/MapModel.v
theories/StringsModel.v
theories/VaultModel.v
theories/MapProofs.v
theories/Spec.v
theories/IdxProofs.v
theories/WorldProofs.v
theories/WorldProofs2.v
theories/Inv.v
theories/InvRef.v
theories/InvRefOps.v
theories/InvChange.v
theories/InvSets.v
theories/InvSets2.v
theories/ReqProofs.v
theories/InvSets3.v
theories/InvSets4.v
theories/InvVault.v
theories/InvErase.v
theories/InvErase2.v
theories/InvSetData.v
theories/InvKeys.v
theories/InvAddKey.v
theories/InvCreate.v
theories/InvLookup.v
theories/InvCopy.v
theories/InvMove.v
theories/Classes.v
theories/Runs.v
theories/T_Base.v
theories/MutexModel.v
theories/MutexSpec.v
theories/MutexProofs.v
theories/MutexProofs2.v
theories/MutexProofs3.v
theories/MutexProofs4.v
theories/T_Mutex.v
theories/LockModel.v
theories/LockSpec.v
theories/LockProofs.v
theories/DumpSpec.v
theories/LockDumps.v
theories/LockDumps2.v
theories/LockDumps3.v
theories/LockDumps4.v
theories/LockDumps5.v
theories/RaceSpec.v
theories/LockRaces.v
theories/LockRaces2.v
theories/LockRaces3.v
theories/LockEx.v
theories/RaceEx.v
theories/T_Lock.v
theories/T_Races.v
theories/MultiModel.v
theories/MultiSpec.v
theories/MultiProofs.v
theories/MultiProofs2.v
theories/MultiProofs3.v
theories/MultiProofs4.v
theories/MultiProofs5.v
theories/MultiProofs6.v
theories/MultiProofs7.v
theories/MultiProofs8.v
theories/MultiEx.v
theories/T_Multi.v
theories/StringsSpec.v
theories/StringsProofs.v
theories/T_Strings.v
theories/FloatModel.v
theories/FloatSpec.v
theories/FloatProofs.v
theories/FloatReal.v
theories/FloatReal2.v
theories/FloatReal3.v
theories/FloatReal4.v
theories/T_Float.v
theories/FloatEx.v
theories/ResultModel.v
theories/T_Results.v
theories/TraceModel.v
theories/TraceSpec.v
theories/T_Trace.v
theories/SaverModel.v
theories/SaverSpec.v
theories/SaverProofs.v
theories/T_Saver.v
theories/SaverProofs2.v
theories/T_Saver2.v
theories/SaverEx.v
theories/UuidModel.v
theories/UuidSpec.v
theories/UuidProofs.v
theories/T_Uuid.v
theories/CsvModel.v
theories/CsvSpec.v
theories/CsvProofs.v
theories/CsvExact.v
theories/T_Csv.v
theories/Ex_Base.v
theories/T_Records.v
theories/T_SetData.v
theories/T_Query.v
theories/T_Sort.v
theories/T_Erase.v
theories/T_Frame.v
theories/T_Frame2.v
theories/T_Keys.v
theories/T_Keys2.v
theories/T_Refs.v
theories/T_RefOps.v
theories/LifeModel.v
theories/LifeProofs.v
theories/LifeEx.v
theories/T_Life.v
theories/ConcModel.v
theories/ConcSpec.v
theories/ConcProofs.v
theories/ConcEx.v
theories/T_Conc.v
theories/T_Sets.v
theories/T_Drop.v
theories/T_Sets2.v
theories/T_Sets3.v
theories/T_Sets4.v
theories/T_Sets5.v
theories/T_Idx.v
theories/T_Copy.v
theories/T_Move.v
theories/T_Getters.v
theories/FindSpec.v
theories/T_Find.v
theories/T_Refuted.v
theories/FileModel.v
theories/FileSpec.v
theories/FileProofs.v
theories/FileEx.v
theories/T_Files.v
theories/JsonModel.v
theories/JsonSpec.v
theories/JsonProofs.v
theories/T_Json.v
theories/JsonEx.v
theories/Ex_Erase.v
theories/Ex_Frame.v
theories/Ex_Frame2.v
theories/Ex_Keys.v
theories/Ex_Keys2.v
theories/Ex_Query.v
theories/Ex_Records.v
theories/Ex_Refs.v
theories/Ex_SetData.v
theories/Ex_Sets.v
theories/Ex_Sort.v
theories/Ex_Mutex.v
theories/Ex_Strings.v
theories/Ex_Csv.v
theories/Ex_RefOps.v
theories/Ex_Getters.v
theories/Ex_Sets4.v
theories/Ex_Saver.v
theories/Ex_Saver2.v
theories/Ex_Results.v
theories/Ex_Move.v
theories/Ex_Sets5.v
theories/Ex_Lock.v
theories/Ex_Conc.v
theories/Ex_Life.v
theories/Ex_Float.v
theories/Ex_Multi.v
theories/Ex_Trace.v
theories/Ex_Isolated.v
theories/Ex_Races.v
theories/Ex_Exact.v
theories/Ex_Follow.v
theories/P_Erase.v
theories/P_Frame.v
theories/P_Frame2.v
theories/P_Query.v
theories/P_Records.v
theories/P_SetData.v
theories/P_Sort.v
theories/P_Keys.v
theories/P_Keys2.v
theories/P_Refs.v
theories/P_Sets.v
theories/P_Refuted.v
theories/P_Mutex.v
theories/P_Strings.v
theories/P_Csv.v
theories/Ex_Files.v
theories/P_Files.v
theories/Ex_Uuid.v
theories/P_Uuid.v
theories/Ex_Json.v
theories/P_Json.v
theories/Ex_Drop.v
theories/P_Drop.v
theories/Ex_Sets2.v
theories/P_Sets2.v
theories/Ex_Sets3.v
theories/Ex_Idx.v
theories/Ex_Copy.v
theories/P_Sets3.v
theories/P_Idx.v
theories/P_Copy.v
theories/PrintModel.v
theories/PrintSpec.v
theories/T_Print.v
theories/PrintEx.v
theories/FindEx.v
theories/T_Print2.v
theories/Ex_Print.v
theories/P_Print.v
theories/P_Print2.v
theories/Ex_Find.v
theories/P_Find.v
theories/P_RefOps.v
theories/P_Getters.v
theories/P_Sets4.v
theories/P_Saver.v
theories/P_Saver2.v
theories/P_Results.v
theories/P_Move.v
theories/P_Sets5.v
theories/P_Lock.v
theories/P_Conc.v
theories/P_Life.v
theories/P_Float.v
theories/P_Multi.v
theories/P_Trace.v
theories/IsolationSpec.v
theories/T_Isolated.v
theories/ExactSpec.v
theories/T_Exact.v
theories/T_Follow.v
theories/P_Isolated.v
theories/P_Races.v
theories/P_Exact.v
theories/P_Follow.v
