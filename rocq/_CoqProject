-Q theories Verif
theories/Base.v
theories/Spec.v
theories/MetaModel.v
theories/QueueModel.v
theories/FlushModel.v
theories/IndexModel.v
theories/ReadModel.v
theories/SysModel.v
theories/SysSpec.v
theories/History.v
theories/LocalSpec.v
theories/SearchSpec.v
theories/LogSpec.v
theories/PendModel.v
theories/PendSpec.v
theories/SelModel.v
theories/SelSpec.v
theories/NameModel.v
theories/NameSpec.v
theories/GroupModel.v
theories/GroupSpec.v
theories/EndianModel.v
theories/CfgModel.v
theories/CfgSpec.v
theories/BufModel.v
theories/BufSpec.v
theories/RefModel.v
theories/RefSpec.v
theories/PassModel.v
theories/PassSpec.v
theories/ReplayModel.v
theories/ReplaySpec.v
theories/AlignModel.v
theories/AlignSpec.v
theories/MergeModel.v
theories/FilterModel.v
theories/FilterSpec.v
theories/CollModel.v
theories/CollSpec.v
theories/FailModel.v
theories/FailSpec.v
theories/MergeSpec.v
theories/ReqModel.v
theories/ReqSpec.v
theories/InfoModel.v
theories/ShapeModel.v
theories/ShapeSpec.v
theories/ApiModel.v
theories/ApiSpec.v
theories/DefSpec.v
theories/SubModel.v
theories/SubSpec.v
theories/AnySpec.v
theories/TameSpec.v
theories/SlotModel.v
theories/DumpModel.v
theories/DumpSpec.v
theories/ReplayDataModel.v
theories/ReplayDataSpec.v
theories/SyncSpec.v
theories/CrashModel.v
theories/CrashSpec.v
theories/SchedModel.v
theories/SchedSpec.v
theories/LibModel.v
theories/NsModel.v
theories/NsSpec.v
theories/CopyModel.v
theories/CopySpec.v
theories/FaultModel.v
theories/FaultSpec.v
theories/RegModel.v
theories/RegSpec.v
theories/IntModel.v
theories/IntSpec.v
theories/RealModel.v
theories/RealSpec.v
theories/RoModel.v
theories/RoSpec.v
theories/NbModel.v
theories/NbSpec.v
theories/VisitModel.v
theories/VisitSpec.v
theories/ReadNModel.v
theories/ReadNSpec.v
theories/OverlapSpec.v
theories/LoadModel.v
theories/LoadSpec.v
theories/ZipModel.v
theories/ZipSpec.v
theories/EscModel.v
theories/EscSpec.v
theories/TyModel.v
theories/TySpec.v
theories/DiskModel.v
theories/DiskSpec.v
theories/MergeSysModel.v
theories/MergeSysSpec.v
theories/CplModel.v
theories/CplSpec.v
theories/OflModel.v
theories/OflSpec.v
theories/DelModel.v
theories/DelSpec.v
theories/SubToolModel.v
theories/SubToolSpec.v
theories/UtilModel.v
theories/UtilSpec.v
theories/SubAgainSpec.v
theories/BaseProofs.v
theories/GeomProofs.v
theories/MetaProofs.v
theories/QueueProofs.v
theories/IndexProofs.v
theories/SearchProofs.v
theories/SortProofs.v
theories/ReadProofs.v
theories/HitProofs.v
theories/MdProofs.v
theories/StoreProofs.v
theories/FlushProofs.v
theories/ReadOneProofs.v
theories/SysProofs.v
theories/HistoryProofs.v
theories/SysCheck.v
theories/ClaimProofs.v
theories/Examples.v
theories/ClaimProofs2.v
theories/MetaClaims.v
theories/EndianProofs.v
theories/IndexClaims.v
theories/LogClaims.v
theories/ViewProofs.v
theories/PendProofs.v
theories/PendClaims.v
theories/ReorderProofs.v
theories/SelProofs.v
theories/SelProofs2.v
theories/SelProofs3.v
theories/SelClaims.v
theories/SelClaims2.v
theories/RegProofs.v
theories/SelClaims3.v
theories/NameProofs.v
theories/NameClaims.v
theories/GroupProofs.v
theories/GroupClaims.v
theories/CfgProofs.v
theories/CfgClaims.v
theories/BufProofs.v
theories/RefProofs.v
theories/LifeClaims.v
theories/PassProofs.v
theories/PassClaims.v
theories/ReplayProofs.v
theories/ReplayClaims.v
theories/AlignProofs.v
theories/AlignClaims.v
theories/MergeProofs.v
theories/MergeClaims.v
theories/FilterProofs.v
theories/FilterClaims.v
theories/CollProofs.v
theories/CollClaims.v
theories/CollSubProofs.v
theories/CollSubClaims.v
theories/FailClaims.v
theories/SizedProofs.v
theories/ReqProofs.v
theories/ReqClaims.v
theories/InfoProofs.v
theories/InfoClaims.v
theories/ShapeProofs.v
theories/ShapeClaims.v
theories/ApiProofs.v
theories/ApiSim.v
theories/ApiClaims.v
theories/DefProofs.v
theories/SubProofs.v
theories/SubClaims.v
theories/AnyProofs.v
theories/TameProofs.v
theories/AnyClaims.v
theories/DumpProofs.v
theories/DumpRun.v
theories/DumpClaims.v
theories/ReplayDataProofs.v
theories/ReplayDataRun.v
theories/ReplayDataClaims.v
theories/SyncProofs.v
theories/SyncClaims.v
theories/CrashProofs.v
theories/CrashClaims.v
theories/CrashClaims2.v
theories/LogClaims2.v
theories/SchedClaims.v
theories/NsProofs.v
theories/NsSim.v
theories/NsClaims.v
theories/CopyProofs.v
theories/CopyReach.v
theories/CopyClaims.v
theories/FaultProofs.v
theories/FaultSim.v
theories/FaultClaims.v
theories/FaultZero.v
theories/FaultClaims2.v
theories/FaultClaims3.v
theories/FaultLost.v
theories/FaultExamples.v
theories/RegFileProofs.v
theories/IntClaims.v
theories/IntClaims2.v
theories/IntClaims3.v
theories/IntClaims4.v
theories/IntClaims5.v
theories/RealClaims.v
theories/RealClaims2.v
theories/RoClaims.v
theories/RoClaims2.v
theories/NbProofs.v
theories/NbClaims.v
theories/NbClaims2.v
theories/VisitProofs.v
theories/VisitReach.v
theories/VisitClaims.v
theories/ReadNProofs.v
theories/ReadNClaims.v
theories/OverlapProofs.v
theories/OverlapClaims.v
theories/LoadProofs.v
theories/LoadClaims.v
theories/LoadRefs.v
theories/ZipClaims.v
theories/EscProofs.v
theories/EscClaims.v
theories/TyClaims.v
theories/DiskClaims.v
theories/MergeSysProofs.v
theories/MergeRun.v
theories/MergeSysClaims.v
theories/CplProofs.v
theories/OflProofs.v
theories/DelProofs.v
theories/DelClaims.v
theories/DelToolProofs.v
theories/DelToolClaims.v
theories/SubToolProofs.v
theories/SubCloseProofs.v
theories/SubToolClaims.v
theories/SubToolEx.v
theories/UtilClaims.v
theories/SubAgainClaims.v
theories/SubHangClaims.v
theories/SubReopenClaims.v
theories/TameMoreClaims.v
theories/LimitClaims.v
theories/ScalarClaims.v
theories/MetaExamples.v
theories/IndexExamples.v
theories/LogExamples.v
theories/PendExamples.v
theories/SelExamples.v
theories/P_System.v
theories/P_Meta.v
theories/P_Index.v
theories/P_Log.v
theories/P_Read.v
theories/P_Select.v
theories/P_Names.v
theories/P_Groups.v
theories/P_Config.v
theories/P_Life.v
theories/P_Pass.v
theories/P_Replay.v
theories/P_Align.v
theories/P_Merge.v
theories/P_Filter.v
theories/P_Coll.v
theories/P_Fail.v
theories/P_Request.v
theories/P_Info.v
theories/P_Shape.v
theories/P_Api.v
theories/P_Sub.v
theories/P_Any.v
theories/P_Dump.v
theories/P_ReplayData.v
theories/P_Sync.v
theories/P_Crash.v
theories/P_Sched.v
theories/P_Ns.v
theories/P_Copy.v
theories/P_Fault.v
theories/P_Reg.v
theories/P_Int.v
theories/P_Real.v
theories/P_Ro.v
theories/P_Nb.v
theories/P_Visit.v
theories/P_ReadN.v
theories/P_Overlap.v
theories/P_Load.v
theories/P_Zip.v
theories/P_Esc.v
theories/P_Ty.v
theories/P_Disk.v
theories/P_MergeSys.v
theories/P_Cpl.v
theories/P_Ofl.v
theories/P_Del.v
theories/P_DelTool.v
theories/P_SubTool.v
theories/P_Util.v
