-Q theories Verif

theories/Go.v
theories/Binary.v
theories/Codes.v
theories/Packets.v
theories/WireSpec.v
theories/BinaryFacts.v
theories/PacketFacts.v
theories/UnmarshalFacts.v
theories/DispatchFacts.v
theories/EncodeFacts.v
theories/P_Encode.v
theories/P_Decode.v
theories/P_Codes.v
theories/Config.v
theories/P_Config.v
theories/Controller.v
theories/ControllerFacts.v
theories/P_Controller.v
theories/Sys.v
theories/SysTrans.v
theories/SysFacts.v
theories/SysLaws.v
theories/SysRun.v
theories/SysOrder.v
theories/SysScript.v
theories/P_Node.v
theories/P_Life.v
theories/P_Live.v
theories/P_Wire.v
theories/P_Settle.v
theories/P_Stopped.v
theories/P_Race.v
theories/Net.v
theories/P_Net.v
theories/P_Flow.v
theories/Vectors.v
theories/P_Register.v
theories/P_Known.v
theories/P_Example.v
theories/P_Traffic.v
theories/P_Access.v
theories/Fine.v
theories/P_Atomic.v
theories/P_Address.v
theories/P_Fair.v
theories/P_Eventual.v
theories/Options.v
theories/P_Options.v
theories/P_Programs.v
theories/P_Errors.v
theories/P_Sizes.v
theories/P_Missed.v
theories/P_Reannounce.v
theories/Changes.v
theories/P_Change.v
theories/Invoked.v
theories/P_Invoked.v
theories/P_Tables.v
theories/Log.v
theories/P_Log.v
theories/P_LogMore.v
theories/Listen.v
theories/P_Listen.v
theories/P_Source.v
theories/P_Order.v
theories/P_Deadlines.v
theories/P_Keeps.v
theories/P_Goroutines.v
theories/Shared.v
theories/P_Shared.v
theories/P_Simple.v
theories/P_Conn.v
theories/P_AddrText.v
theories/P_Listing.v
theories/P_Owner.v
theories/P_OwnerIn.v
theories/P_Heals.v
