-Q theories Verif
theories/CSem.v
theories/M_Const.v
theories/M_Misc.v
theories/M_Property.v
theories/M_Message.v
theories/Spec_Frame.v
theories/Spec_Message.v
theories/P_Base.v
theories/P_Misc.v
theories/P_Message.v
theories/P_Encode.v
theories/P_MsgApi.v
theories/Properties_Message.v
theories/M_PropertyList.v
theories/M_Object.v
theories/Spec_Map.v
theories/P_Map.v
theories/P_PropertyList.v
theories/P_MapProps.v
theories/Properties_Map.v
theories/StdDB_Data.v
theories/M_Std.v
theories/Spec_Object.v
theories/Run_Object.v
theories/P_Object.v
theories/P_ObjectRun.v
theories/Spec_Std.v
theories/P_ObjectReach.v
theories/P_Std.v
theories/Properties_Object.v
theories/M_Node.v
theories/M_NodeListener.v
theories/Spec_Node.v
theories/P_Node.v
theories/Run_Node.v
theories/P_Request.v
theories/P_NodeReach.v
theories/P_NodeProfile.v
theories/P_NodeInv.v
theories/P_NodeRun.v
theories/M_NodeThreads.v
theories/P_NodeProps.v
theories/Properties_Node.v
theories/Spec_Request.v
theories/P_RequestProps.v
theories/P_RequestApi.v
theories/Properties_Request.v
theories/Properties_Request2.v
theories/P_Handlers.v
theories/Properties_Handlers.v
theories/P_NodeSafe.v
theories/Properties_Safety.v
theories/M_Controller.v
theories/Spec_Controller.v
theories/Run_Controller.v
theories/P_Shadow.v
theories/P_Controller.v
theories/P_ControllerProps.v
theories/Properties_Controller.v
theories/P_EndToEnd.v
theories/Properties_EndToEnd.v
theories/Run_System.v
theories/P_System.v
theories/Properties_System.v
theories/Run_Parties.v
theories/P_Storm.v
theories/Properties_Storm.v
theories/M_Device.v
theories/Spec_Device.v
theories/Properties_Device.v
theories/P_CtrlSafe.v
theories/Properties_CtrlSafety.v
theories/Properties_StormSafe.v
theories/M_List.v
theories/Spec_List.v
theories/P_List.v
theories/Properties_List.v
theories/M_Post.v
theories/Spec_Post.v
theories/P_Post.v
theories/Properties_Post.v
theories/M_Server.v
theories/Spec_Server.v
theories/P_Server.v
theories/Properties_Server.v
theories/M_ServerThread.v
theories/Spec_ServerThread.v
theories/P_ServerThread.v
theories/Properties_ServerThread.v
theories/M_String.v
theories/Spec_String.v
theories/P_String.v
theories/P_Text.v
theories/Properties_String.v
theories/M_Text.v
theories/Properties_Text.v
theories/M_Threads.v
theories/Spec_Threads.v
theories/P_Threads.v
theories/Properties_Threads.v
theories/M_Log.v
theories/Spec_Log.v
theories/P_Log.v
theories/Properties_Log.v
theories/M_Lookup.v
theories/P_Lookup.v
theories/Properties_Lookup.v
theories/M_Net.v
theories/Spec_Net.v
theories/P_Net.v
theories/Properties_Net.v
theories/M_Socket.v
theories/Spec_Socket.v
theories/P_Socket.v
theories/Properties_Socket.v
theories/StdNames_Data.v
theories/M_Names.v
theories/Spec_Names.v
theories/P_Names.v
theories/Properties_Names.v
theories/M_Shared.v
theories/Properties_Shared.v
theories/M_Mem.v
theories/P_Mem.v
theories/P_MemProp.v
theories/P_MemMsg.v
theories/P_MemParse.v
theories/P_MemBytes.v
theories/P_MemCopy.v
theories/M_MemUse.v
theories/M_ObjMem.v
theories/P_MemPkt.v
theories/Spec_Mem.v
theories/P_MemRun.v
theories/P_MemLegal.v
theories/P_MemRecv.v
theories/Properties_Mem.v
theories/P_Ring.v
theories/P_ObjProp.v
theories/P_ObjCache.v
theories/P_ObjMem.v
theories/P_ObjUse.v
theories/P_ObjStd.v
theories/M_ObjUse.v
theories/M_Life.v
theories/Spec_ObjMem.v
theories/P_ObjRun.v
theories/P_ObjLegal.v
theories/Properties_ObjMem.v
theories/Spec_Life.v
theories/P_Life.v
theories/P_LifeRun.v
theories/Properties_Life.v
theories/M_NodeMem.v
theories/P_NodeMem.v
theories/P_NodeRecv.v
theories/M_NodeLife.v
theories/Spec_NodeLife.v
theories/P_NodeLife.v
theories/P_NodeBuild.v
theories/P_NodeAlive.v
theories/P_NodeWhole.v
theories/P_NodeProg.v
theories/Properties_NodeMem.v
theories/Spec_Careful.v
theories/M_CtrlMem.v
theories/P_CtrlProp.v
theories/P_Bound.v
theories/P_NodeDefined.v
theories/Properties_NodeDefined.v
theories/P_CtrlUpdate.v
theories/P_CtrlNodes.v
theories/P_CtrlMsg.v
theories/P_CtrlWhole.v
theories/M_CtrlUse.v
theories/Spec_CtrlLife.v
theories/P_CtrlRun.v
theories/P_CtrlProg.v
theories/Properties_CtrlMem.v
theories/Spec_CtrlCareful.v
theories/P_CtrlDefined.v
theories/Properties_CtrlDefined.v
theories/M_PropThreads.v
theories/Spec_PropThreads.v
theories/P_PropThreads.v
theories/Properties_PropThreads.v
theories/Run_Origin.v
theories/P_Origin.v
theories/Properties_Origin.v
theories/M_Query.v
theories/Properties_Query.v
theories/M_Light.v
theories/Spec_Light.v
theories/P_Light.v
theories/Properties_Light.v
theories/M_PostTool.v
theories/Spec_PostTool.v
theories/P_PostTool.v
theories/Properties_PostTool.v
theories/P_CtrlBound.v
theories/Spec_CtrlBound.v
theories/Properties_CtrlBound.v
theories/M_ShowTool.v
theories/Spec_ShowTool.v
theories/P_ShowTool.v
theories/Properties_ShowTool.v
theories/M_Verbose.v
theories/Spec_Verbose.v
theories/P_Owned.v
theories/P_Verbose.v
theories/P_VerboseRun.v
theories/P_VerboseTid.v
theories/Properties_Verbose.v
theories/M_Bench.v
theories/Spec_Bench.v
theories/Properties_Bench.v
theories/Spec_Told.v
theories/Properties_Told.v
theories/P_Maker.v
theories/Properties_Closed.v
theories/Spec_Found.v
theories/Properties_Found.v
theories/Properties_TextMore.v
theories/Properties_PostSet.v
theories/Properties_PostMany.v
theories/Properties_ReadMany.v
theories/M_OwnAddr.v
theories/Properties_OwnAddr.v
theories/Properties_Kinds.v
theories/Properties_PostRefused.v
