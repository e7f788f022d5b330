-Q theories Verif
theories/Base.v
theories/M_Slot.v
theories/L_Slot.v
theories/M_Util.v
theories/S_Util.v
theories/L_Util.v
theories/P_Util.v
theories/M_Source.v
theories/S_Source.v
theories/L_Source.v
theories/P_Source.v
theories/M_Filter.v
theories/S_Filter.v
theories/L_Filter.v
theories/P_Filter.v
theories/M_Types.v
theories/M_Neigh.v
theories/S_Neigh.v
theories/L_Neigh.v
theories/P_Neigh.v
theories/M_State.v
theories/M_Table.v
theories/M_Msg.v
theories/M_Route.v
theories/M_Xroute.v
theories/S_World.v
theories/L_Table.v
theories/L_Resend.v
theories/L_Step.v
theories/L_Msg.v
theories/L_Smooth.v
theories/L_Quiet.v
theories/L_Trace.v
theories/L_Select.v
theories/L_Select2.v
theories/L_Chain.v
theories/L_Chain2.v
theories/L_Chain3.v
theories/L_Flush.v
theories/L_Update.v
theories/L_Update2.v
theories/L_Xroute.v
theories/M_Daemon.v
theories/L_Daemon.v
theories/S_Resend.v
theories/L_Resend2.v
theories/L_Resend3.v
theories/L_Inv.v
theories/L_World.v
theories/L_World2.v
theories/L_World3.v
theories/L_World4.v
theories/L_Walk.v
theories/S_Kern.v
theories/L_Kern.v
theories/X_Run.v
theories/P_World.v
theories/X_Run2.v
theories/P_Kern.v
theories/P_Walk.v
theories/M_Wire.v
theories/S_Wire.v
theories/L_Wire.v
theories/L_Wire2.v
theories/P_Wire.v
theories/M_Auth.v
theories/S_Auth.v
theories/L_Auth.v
theories/L_Auth2.v
theories/L_Auth3.v
theories/P_Auth.v
theories/M_Buf.v
theories/S_Buf.v
theories/L_Codec.v
theories/L_Buf.v
theories/L_Buf2.v
theories/L_Buf3.v
theories/L_Buf4.v
theories/L_Buf5.v
theories/L_Buf6.v
theories/L_Buf7.v
theories/L_Buf8.v
theories/S_Send.v
theories/L_Out.v
theories/L_Resend4.v
theories/L_Send.v
theories/P_Buf.v
theories/X_Run3.v
theories/P_Send.v
theories/P_Smooth.v
theories/X_Run4.v
theories/P_Resend.v
theories/S_Request.v
theories/L_Request.v
theories/X_Run5.v
theories/P_Request.v
theories/L_Expire.v
theories/P_Expire.v
theories/S_Xroute.v
theories/L_Xroute2.v
theories/S_Pend.v
theories/L_Pend.v
theories/S_Arm.v
theories/L_Arm.v
theories/L_Lose.v
theories/L_Lose2.v
theories/L_Lose3.v
theories/L_Lose4.v
theories/L_Lose5.v
theories/L_Use.v
theories/P_Lose.v
theories/P_Use.v
theories/P_Xroute.v
theories/M_Main.v
theories/S_Main.v
theories/L_Main.v
theories/L_Seqno.v
theories/L_Seqno2.v
theories/P_Main.v
theories/M_Config.v
theories/S_Config.v
theories/L_Config.v
theories/L_Config2.v
theories/L_Config3.v
theories/L_Config4.v
theories/M_Ifup.v
theories/S_Ifup.v
theories/L_Ifup.v
theories/M_Local.v
theories/M_Dump.v
theories/S_Dump.v
theories/L_Dump.v
theories/S_Local.v
theories/L_Local.v
theories/M_Ifreg.v
theories/M_Keys.v
theories/L_Keys.v
theories/P_Config.v
theories/P_Local.v
theories/S_Net.v
theories/L_Mono.v
theories/L_Net.v
theories/L_Net2.v
theories/M_Net.v
theories/L_Net3.v
theories/L_Nbs.v
theories/M_Packet.v
theories/L_Packet.v
theories/S_Packet.v
theories/L_Ref.v
theories/L_Packet2.v
theories/L_Packet3.v
theories/L_Packet4.v
theories/X_Net.v
theories/P_Net.v
theories/P_Arm.v
theories/P_Link.v
theories/M_Nlink.v
theories/S_Nlink.v
theories/L_Nlink.v
theories/L_Nlink2.v
theories/L_Nlink3.v
theories/L_Nlink4.v
theories/L_Ifup2.v
theories/L_Ifup3.v
theories/P_Ifup.v
theories/P_Nlink.v
theories/P_Packet.v
theories/P_Dump.v
theories/S_Rule.v
theories/L_Rule.v
theories/P_Rule.v
theories/S_Ifreg.v
theories/S_Line.v
theories/L_Line.v
theories/L_Line2.v
theories/L_Ifreg.v
theories/L_Eof.v
theories/P_Line.v
theories/M_Args.v
theories/S_Args.v
theories/L_Args.v
theories/P_Args.v
theories/M_Monitor.v
theories/S_Monitor.v
theories/L_Monitor.v
theories/L_Monitor2.v
theories/L_Monitor3.v
theories/P_Monitor.v
theories/M_Link.v
theories/S_Link.v
theories/L_Link.v
theories/L_Link2.v
theories/P_Losses.v
theories/M_Check.v
theories/S_Dead.v
theories/L_Dead.v
theories/L_Dead2.v
theories/L_Lost.v
theories/L_Lost2.v
theories/P_Dead.v
theories/P_Lost.v
theories/P_Oneway.v
theories/M_Watch.v
theories/S_Watch.v
theories/L_Watch.v
theories/P_Watch.v
theories/P_Cost.v
theories/P_Ifreg.v
theories/M_Mac.v
theories/S_Mac.v
theories/L_Mac.v
theories/P_Mac.v
theories/M_Sysctl.v
theories/S_Sysctl.v
theories/L_Sysctl.v
theories/P_Sysctl.v
theories/M_Start.v
theories/S_Start.v
theories/P_Start.v
theories/M_Wifs.v
theories/S_Wifs.v
theories/L_Wifs.v
theories/P_Wifs.v
