-Q theories Verif
theories/Py.v
theories/Struct.v
theories/P_Struct.v
theories/M_Channel.v
theories/S_Framing.v
theories/P_Channel.v
theories/Prop_Framing.v
theories/M_Hello.v
theories/S_Hello.v
theories/P_Hello.v
theories/P_Negotiate.v
theories/Prop_Hello.v
theories/M_Loop.v
theories/S_Loop.v
theories/P_Loop.v
theories/Prop_Loop.v
theories/M_Controller.v
theories/S_Controller.v
theories/P_Controller.v
theories/P_Switch.v
theories/Prop_Controller.v
theories/M_Sync.v
theories/S_Sync.v
theories/P_Sync.v
theories/P_Multi.v
theories/Prop_Sync.v
theories/M_Ports.v
theories/S_Ports.v
theories/P_Ports.v
theories/Prop_Ports.v
theories/M_RateLimit.v
theories/P_RateLimit.v
theories/Prop_RateLimit.v
theories/M_Parallel.v
theories/P_Parallel.v
theories/Prop_Parallel.v
theories/M_Threadlet.v
theories/P_Threadlet.v
theories/Prop_Threadlet.v
theories/M_Server.v
theories/P_Server.v
theories/Prop_Server.v
theories/M_Parent.v
theories/S_Parent.v
theories/P_Parent.v
theories/Prop_Parent.v
theories/Prop_Struct.v
theories/M_Build4.v
theories/M_Parse4.v
theories/S_Wire4.v
theories/P_Wire4.v
theories/P_Act4.v
theories/P_Rebuild4.v
theories/P_Bad4.v
theories/Prop_Action4.v
theories/S_Msg4.v
theories/P_Stat4.v
theories/P_Msg4.v
theories/P_MsgParse4.v
theories/P_MsgRebuild4.v
theories/P_Term4.v
theories/P_MsgBad4.v
theories/Prop_Msg4.v
theories/M_Oxm.v
theories/S_Oxm.v
theories/P_Oxm.v
theories/Prop_Oxm.v
theories/M_Ovs.v
theories/S_Ovs.v
theories/P_Ovs.v
theories/Prop_Ovs.v
theories/M_Bess.v
theories/S_Bess.v
theories/P_Bess.v
theories/P_Bess2.v
theories/P_Bess3.v
theories/Prop_Bess.v
theories/M_Enum.v
theories/M_EnumData4.v
theories/M_EnumData5.v
theories/S_Enum.v
theories/P_Enum.v
theories/Prop_Enum.v
theories/M_Tuple.v
theories/S_Tuple.v
theories/P_Tuple.v
theories/Prop_Tuple.v
theories/M_Build5.v
theories/M_Parse5.v
theories/S_Wire5.v
theories/P_Wire5.v
theories/P_Act5.v
theories/S_Msg5.v
theories/P_Stat5.v
theories/P_Msg5.v
theories/P_MsgParse5.v
theories/P_Rebuild5.v
theories/P_Bad5.v
theories/Prop_Action5.v
theories/S_Term5.v
theories/P_Term5.v
theories/P_MsgBad5.v
theories/P_Status5.v
theories/S_Rebuild5.v
theories/P_MsgRebuild5.v
theories/P_Nested5.v
theories/Prop_Msg5.v
theories/M_Helper.v
theories/S_Helper.v
theories/P_Helper.v
theories/Prop_Helper.v
theories/M_Oxm5.v
theories/S_Oxm5.v
theories/P_Oxm5.v
theories/Prop_Oxm5.v
theories/M_Send.v
theories/S_Send.v
theories/P_Send.v
theories/Prop_Send.v
theories/M_Dgram.v
theories/S_Dgram.v
theories/P_Dgram.v
theories/Prop_Dgram.v
theories/M_Sched.v
theories/S_Sched.v
theories/P_Sched.v
theories/Prop_Sched.v
theories/P_Unsolicited.v
theories/Prop_Unsolicited.v
theories/T_Ofp5.v
theories/T_Channel.v
theories/M_Cord.v
theories/S_Cord.v
theories/S_CordLink.v
theories/P_Cord.v
theories/P_CordFrame.v
theories/P_CordMain.v
theories/Prop_Cord.v
theories/M_Lock.v
theories/S_Lock.v
theories/P_Lock.v
theories/P_LockLin.v
theories/P_LockLive.v
theories/Prop_Lock.v
theories/M_Example.v
theories/S_Hub.v
theories/P_Hub.v
theories/P_Hub2.v
theories/P_Hub3.v
theories/P_Hub4.v
theories/Prop_Hub.v
theories/M_Class.v
theories/S_Class.v
theories/P_Class.v
theories/P_Class2.v
theories/M_Dispatch.v
theories/P_Dispatch.v
theories/P_Dispatch2.v
theories/Prop_Class.v
theories/M_Main.v
theories/S_Main.v
theories/P_Main.v
theories/Prop_Main.v
theories/S_Head.v
theories/P_Head.v
theories/Prop_Head.v
theories/S_Queue.v
theories/P_Queue.v
theories/Prop_Queue.v
theories/S_Table.v
theories/P_Table.v
theories/Prop_Table.v
theories/S_Fixed.v
theories/P_Fixed.v
theories/Prop_Fixed.v
theories/S_Exp5.v
theories/P_Exp5.v
theories/Prop_Exp5.v
theories/S_Table5.v
theories/P_Table5.v
theories/Prop_Table5.v
theories/S_Stratos.v
theories/P_Stratos.v
theories/Prop_Stratos.v
theories/S_Exact.v
theories/P_Exact.v
theories/P_Exact2.v
theories/Prop_Exact.v
theories/S_Multipart.v
theories/P_Multipart.v
theories/Prop_Multipart.v
theories/S_Inside.v
theories/P_Inside.v
theories/Prop_Inside.v
theories/S_Name.v
theories/P_Name.v
theories/Prop_Name.v
theories/S_Accept4.v
theories/P_Accept4.v
theories/Prop_Accept4.v
theories/S_Accept5.v
theories/P_Accept5.v
theories/Prop_Accept5.v
theories/S_Unused.v
theories/P_Unused4.v
theories/P_Unused5.v
theories/Prop_Unused.v
theories/S_Endless4.v
theories/P_Endless4.v
theories/Prop_Endless4.v
theories/S_Endless5.v
theories/P_Endless5.v
theories/Prop_Endless5.v
