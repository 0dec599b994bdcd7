(** Independent specification of the Art-Net wire formats supported by the library.

    Written from the field documentation in packet/*.go (struct comments) and the Art-Net 4
    protocol description quoted there, as literal byte strings; it uses none of the model's
    functions, only its record types. All numbers are literals on purpose. *)
From Verif Require Export Packets.
Open Scope N_scope.

(** "Art-Net" followed by a zero byte. *)
Definition magic : list N := [65; 114; 116; 45; 78; 101; 116; 0].

Definition be16 (x : N) : list N := [x / 256; x mod 256].
Definition le16 (x : N) : list N := [x mod 256; x / 256].

(** * Well-formed Go values: every field lies in the range of its Go type. *)

Definition wf_Header (h : Header) : Prop :=
  array_ok 8 (H_ID h) /\ word_ok (H_OpCode h) /\ array_ok 2 (H_Version h).
Definition wf_Poll (p : ArtPollPacket) : Prop :=
  wf_Header (Poll_Header p) /\ byte_ok (Poll_TalkToMe p) /\ byte_ok (Poll_Priority p).
Definition wf_DMX (p : ArtDMXPacket) : Prop :=
  wf_Header (DMX_Header p) /\ byte_ok (DMX_Sequence p) /\ byte_ok (DMX_Physical p) /\
  byte_ok (DMX_SubUni p) /\ byte_ok (DMX_Net p) /\ word_ok (DMX_Length p) /\ array_ok 512 (DMX_Data p).
Definition wf_PollReply (p : ArtPollReplyPacket) : Prop :=
  array_ok 8 (PollReply_ID p) /\ word_ok (PollReply_OpCode p) /\ array_ok 4 (PollReply_IPAddress p) /\
  word_ok (PollReply_Port p) /\ word_ok (PollReply_VersionInfo p) /\ byte_ok (PollReply_NetSwitch p) /\
  byte_ok (PollReply_SubSwitch p) /\ word_ok (PollReply_Oem p) /\ byte_ok (PollReply_UBEAVersion p) /\
  byte_ok (PollReply_Status1 p) /\ array_ok 2 (PollReply_ESTAmanufacturer p) /\
  array_ok 18 (PollReply_ShortName p) /\ array_ok 64 (PollReply_LongName p) /\
  array_ok 64 (PollReply_NodeReport p) /\ word_ok (PollReply_NumPorts p) /\
  array_ok 4 (PollReply_PortTypes p) /\ array_ok 4 (PollReply_GoodInput p) /\
  array_ok 4 (PollReply_GoodOutput p) /\ array_ok 4 (PollReply_SwIn p) /\ array_ok 4 (PollReply_SwOut p) /\
  byte_ok (PollReply_SwVideo p) /\ byte_ok (PollReply_SwMacro p) /\ byte_ok (PollReply_SwRemote p) /\
  byte_ok (PollReply_Style p) /\ array_ok 6 (PollReply_Macaddress p) /\ array_ok 4 (PollReply_BindIP p) /\
  byte_ok (PollReply_BindIndex p) /\ byte_ok (PollReply_Status2 p).
Definition wf_Sync (p : ArtSyncPacket) : Prop := wf_Header (Sync_Header p).
Definition wf_Command (p : ArtCommandPacket) : Prop :=
  wf_Header (Command_Header p) /\ array_ok 2 (Command_ESTAmanufacturer p) /\
  word_ok (Command_Length p) /\ array_ok 512 (Command_Data p).
Definition wf_Address (p : ArtAddressPacket) : Prop :=
  wf_Header (Address_Header p) /\ byte_ok (Address_NetSwitch p) /\ byte_ok (Address_BindIndex p) /\
  array_ok 18 (Address_ShortName p) /\ array_ok 64 (Address_LongName p) /\ array_ok 4 (Address_SwIn p) /\
  array_ok 4 (Address_SwOut p) /\ byte_ok (Address_SubSwitch p) /\ byte_ok (Address_SwVideo p) /\
  byte_ok (Address_Command p).
Definition wf_IPProgReply (p : ArtIPProgReplyPacket) : Prop :=
  wf_Header (IPProgReply_Header p) /\ array_ok 4 (IPProgReply_ProgIP p) /\
  array_ok 4 (IPProgReply_ProgSubNet p) /\ array_ok 2 (IPProgReply_ProgPort p) /\
  byte_ok (IPProgReply_Status p).
Definition wf_TimeCode (p : ArtTimeCodePacket) : Prop :=
  wf_Header (TimeCode_Header p) /\ byte_ok (TimeCode_Frames p) /\ byte_ok (TimeCode_Seconds p) /\
  byte_ok (TimeCode_Minutes p) /\ byte_ok (TimeCode_Hours p) /\ byte_ok (TimeCode_Type p).
Definition wf_DiagData (p : ArtDiagDataPacket) : Prop :=
  wf_Header (DiagData_Header p) /\ byte_ok (DiagData_Priority p) /\ word_ok (DiagData_Length p) /\
  array_ok 512 (DiagData_Data p).
Definition wf_Nzs (p : ArtNzsPacket) : Prop :=
  wf_Header (Nzs_Header p) /\ byte_ok (Nzs_Sequence p) /\ byte_ok (Nzs_StartCode p) /\
  byte_ok (Nzs_SubUni p) /\ byte_ok (Nzs_Net p) /\ word_ok (Nzs_Length p) /\ array_ok 512 (Nzs_Data p).
Definition wf_IPProg (p : ArtIPProgPacket) : Prop :=
  wf_Header (IPProg_Header p) /\ byte_ok (IPProg_Command p) /\ array_ok 4 (IPProg_ProgIP p) /\
  array_ok 4 (IPProg_ProgSubNet p) /\ array_ok 2 (IPProg_ProgPort p).
Definition wf_Trigger (p : ArtTriggerPacket) : Prop :=
  wf_Header (Trigger_Header p) /\ word_ok (Trigger_Oem p) /\ byte_ok (Trigger_Key p) /\
  byte_ok (Trigger_SubKey p) /\ array_ok 512 (Trigger_Data p).
Definition wf_packet (p : packet) : Prop :=
  match p with
  | PktPoll p => wf_Poll p
  | PktPollReply p => wf_PollReply p
  | PktDiagData p => wf_DiagData p
  | PktCommand p => wf_Command p
  | PktDMX p => wf_DMX p
  | PktNzs p => wf_Nzs p
  | PktSync p => wf_Sync p
  | PktAddress p => wf_Address p
  | PktTimeCode p => wf_TimeCode p
  | PktTrigger p => wf_Trigger p
  | PktIPProg p => wf_IPProg p
  | PktIPProgReply p => wf_IPProgReply p
  end.

(** The documented opcode of each packet type. *)
Definition packet_opcode (p : packet) : N :=
  match p with
  | PktPoll _ => 0x2000
  | PktPollReply _ => 0x2100
  | PktDiagData _ => 0x2300
  | PktCommand _ => 0x2400
  | PktDMX _ => 0x5000
  | PktNzs _ => 0x5100
  | PktSync _ => 0x5200
  | PktAddress _ => 0x6000
  | PktTimeCode _ => 0x9700
  | PktTrigger _ => 0x9900
  | PktIPProg _ => 0xf800
  | PktIPProgReply _ => 0xf900
  end.

(** * What a correct sender puts on the wire *)

Definition poll_bytes (p : ArtPollPacket) : list N :=
  magic ++ [0x00; 0x20; 0; 14; Poll_TalkToMe p; Poll_Priority p].
Definition dmx_bytes (p : ArtDMXPacket) : list N :=
  magic ++ [0x00; 0x50; 0; 14; DMX_Sequence p; DMX_Physical p; DMX_SubUni p; DMX_Net p; 2; 0] ++ DMX_Data p.
Definition pollreply_bytes (p : ArtPollReplyPacket) : list N :=
  magic ++ [0x00; 0x21] ++ PollReply_IPAddress p ++ le16 (PollReply_Port p) ++
  be16 (PollReply_VersionInfo p) ++ [PollReply_NetSwitch p; PollReply_SubSwitch p] ++
  be16 (PollReply_Oem p) ++ [PollReply_UBEAVersion p; PollReply_Status1 p] ++
  PollReply_ESTAmanufacturer p ++ PollReply_ShortName p ++ PollReply_LongName p ++
  PollReply_NodeReport p ++ be16 (PollReply_NumPorts p) ++ PollReply_PortTypes p ++
  PollReply_GoodInput p ++ PollReply_GoodOutput p ++ PollReply_SwIn p ++ PollReply_SwOut p ++
  [PollReply_SwVideo p; PollReply_SwMacro p; PollReply_SwRemote p; 0; 0; 0; PollReply_Style p] ++
  PollReply_Macaddress p ++ PollReply_BindIP p ++ [PollReply_BindIndex p; PollReply_Status2 p] ++
  [0;0;0;0;0;0;0;0;0;0; 0;0;0;0;0;0;0;0;0;0; 0;0;0;0;0;0].
(** The remaining types; [op] is the value of the OpCode field. *)
Definition sync_bytes (op : N) (p : ArtSyncPacket) : list N :=
  magic ++ le16 op ++ [0; 14; 0; 0].
Definition command_bytes (op : N) (p : ArtCommandPacket) : list N :=
  magic ++ le16 op ++ [0; 14; 0xff; 0xff] ++ be16 (Command_Length p) ++ Command_Data p.
Definition address_bytes (op : N) (p : ArtAddressPacket) : list N :=
  magic ++ le16 op ++ [0; 14; Address_NetSwitch p; Address_BindIndex p] ++ Address_ShortName p ++
  Address_LongName p ++ Address_SwIn p ++ Address_SwOut p ++
  [Address_SubSwitch p; Address_SwVideo p; Address_Command p].
Definition ipprogreply_bytes (op : N) (p : ArtIPProgReplyPacket) : list N :=
  magic ++ le16 op ++ [0; 14; 0; 0; 0; 0] ++ IPProgReply_ProgIP p ++ IPProgReply_ProgSubNet p ++
  IPProgReply_ProgPort p ++ [IPProgReply_Status p; 0; 0; 0; 0; 0; 0; 0].
Definition timecode_bytes (op : N) (p : ArtTimeCodePacket) : list N :=
  magic ++ le16 op ++ [0; 14; 0; 0; TimeCode_Frames p; TimeCode_Seconds p; TimeCode_Minutes p;
                       TimeCode_Hours p; TimeCode_Type p].
Definition diagdata_bytes (op : N) (p : ArtDiagDataPacket) : list N :=
  magic ++ le16 op ++ [0; 14; 0; DiagData_Priority p; 0; 0] ++ be16 (DiagData_Length p) ++ DiagData_Data p.
Definition nzs_bytes (op : N) (p : ArtNzsPacket) : list N :=
  magic ++ le16 op ++ [0; 14; Nzs_Sequence p; Nzs_StartCode p; Nzs_SubUni p; Nzs_Net p] ++
  be16 (Nzs_Length p) ++ Nzs_Data p.
Definition ipprog_bytes (op : N) (p : ArtIPProgPacket) : list N :=
  magic ++ le16 op ++ [0; 14; 0; 0; IPProg_Command p; 0] ++ IPProg_ProgIP p ++ IPProg_ProgSubNet p ++
  IPProg_ProgPort p ++ [0; 0; 0; 0; 0; 0; 0; 0].
Definition trigger_bytes (op : N) (p : ArtTriggerPacket) : list N :=
  magic ++ le16 op ++ [0; 14; 0; 0] ++ be16 (Trigger_Oem p) ++ [Trigger_Key p; Trigger_SubKey p] ++
  Trigger_Data p.

(** * What a correct receiver accepts, and as which packet *)

(** [wire_accepts b p]: datagram b is a serialisation of p (fillers and trailing bytes [rest]
    arbitrary, any version from 14 on). *)
Inductive wire_accepts : list N -> packet -> Prop :=
| WA_Poll vh vl ttm prio rest :
    14 <= vl ->
    wire_accepts (magic ++ [0x00; 0x20; vh; vl; ttm; prio] ++ rest)
      (PktPoll (mkPoll (mkHeader magic 0x2000 [vh; vl]) ttm prio))
| WA_PollReply ip port vih vil net sub oh ol ubea st1 esta sname lname report nph npl ptypes ginput
    goutput swin swout video macro remote f1 style mac bindip bindix st2 f2 rest :
    len ip = 4 -> (port = [0x36; 0x19] \/ port = [0x19; 0x36]) -> len esta = 2 ->
    len sname = 18 -> len lname = 64 -> len report = 64 -> len ptypes = 4 ->
    len ginput = 4 -> len goutput = 4 -> len swin = 4 -> len swout = 4 ->
    len f1 = 3 -> style <= 6 -> len mac = 6 -> len bindip = 4 ->
    len f2 = 26 ->
    wire_accepts
      (magic ++ [0x00; 0x21] ++ ip ++ port ++ [vih; vil; net; sub; oh; ol; ubea; st1] ++ esta ++ sname ++
       lname ++ report ++ [nph; npl] ++ ptypes ++ ginput ++ goutput ++ swin ++ swout ++
       [video; macro; remote] ++ f1 ++ [style] ++ mac ++ bindip ++ [bindix; st2] ++ f2 ++ rest)
      (PktPollReply (mkPollReply magic 0x2100 ip 6454 (256 * vih + vil) net sub (256 * oh + ol) ubea st1
         esta sname lname report (256 * nph + npl) ptypes ginput goutput swin swout video macro remote
         style mac bindip bindix st2))
| WA_DiagData vh vl f1 prio f2 f3 lh ll data rest :
    14 <= vl -> len data = 512 ->
    wire_accepts (magic ++ [0x00; 0x23; vh; vl; f1; prio; f2; f3; lh; ll] ++ data ++ rest)
      (PktDiagData (mkDiagData (mkHeader magic 0x2300 [vh; vl]) prio (256 * lh + ll) data))
| WA_Command vh vl lh ll data rest :
    14 <= vl -> len data = 512 ->
    wire_accepts (magic ++ [0x00; 0x24; vh; vl; 0xff; 0xff; lh; ll] ++ data ++ rest)
      (PktCommand (mkCommand (mkHeader magic 0x2400 [vh; vl]) [0xff; 0xff] (256 * lh + ll) data))
| WA_DMX vh vl seq phys sub net lh ll data rest :
    14 <= vl -> len data = 256 * lh + ll -> 2 <= len data -> len data <= 512 -> N.even (len data) = true ->
    wire_accepts (magic ++ [0x00; 0x50; vh; vl; seq; phys; sub; net; lh; ll] ++ data ++ rest)
      (PktDMX (mkDMX (mkHeader magic 0x5000 [vh; vl]) seq phys sub net (256 * lh + ll)
                 (data ++ repeat 0 (N.to_nat (512 - len data)))))
| WA_Nzs vh vl seq start sub net lh ll data rest :
    14 <= vl -> len data = 512 ->
    wire_accepts (magic ++ [0x00; 0x51; vh; vl; seq; start; sub; net; lh; ll] ++ data ++ rest)
      (PktNzs (mkNzs (mkHeader magic 0x5100 [vh; vl]) seq start sub net (256 * lh + ll) data))
| WA_Sync vh vl a1 a2 rest :
    14 <= vl ->
    wire_accepts (magic ++ [0x00; 0x52; vh; vl; a1; a2] ++ rest)
      (PktSync (mkSync (mkHeader magic 0x5200 [vh; vl])))
| WA_Address vh vl net bind sname lname swin swout sub video cmd rest :
    14 <= vl -> len sname = 18 -> len lname = 64 -> len swin = 4 ->
    len swout = 4 ->
    wire_accepts (magic ++ [0x00; 0x60; vh; vl; net; bind] ++ sname ++ lname ++ swin ++ swout ++
                  [sub; video; cmd] ++ rest)
      (PktAddress (mkAddress (mkHeader magic 0x6000 [vh; vl]) net bind sname lname swin swout sub video cmd))
| WA_TimeCode vh vl f1 f2 fr s m h t rest :
    14 <= vl ->
    wire_accepts (magic ++ [0x00; 0x97; vh; vl; f1; f2; fr; s; m; h; t] ++ rest)
      (PktTimeCode (mkTimeCode (mkHeader magic 0x9700 [vh; vl]) fr s m h t))
| WA_Trigger vh vl f1 f2 oh ol key sub data rest :
    14 <= vl -> len data = 512 ->
    wire_accepts (magic ++ [0x00; 0x99; vh; vl; f1; f2; oh; ol; key; sub] ++ data ++ rest)
      (PktTrigger (mkTrigger (mkHeader magic 0x9900 [vh; vl]) (256 * oh + ol) key sub data))
| WA_IPProg vh vl f1 f2 cmd f3 ip mask port f4 rest :
    14 <= vl -> len ip = 4 -> len mask = 4 -> len port = 2 -> len f4 = 8 ->
    wire_accepts (magic ++ [0x00; 0xf8; vh; vl; f1; f2; cmd; f3] ++ ip ++ mask ++ port ++ f4 ++ rest)
      (PktIPProg (mkIPProg (mkHeader magic 0xf800 [vh; vl]) cmd ip mask port))
| WA_IPProgReply vh vl f1 ip mask port st f2 rest :
    14 <= vl -> len f1 = 4 -> len ip = 4 -> len mask = 4 -> len port = 2 ->
    len f2 = 7 ->
    wire_accepts (magic ++ [0x00; 0xf9; vh; vl] ++ f1 ++ ip ++ mask ++ port ++ [st] ++ f2 ++ rest)
      (PktIPProgReply (mkIPProgReply (mkHeader magic 0xf900 [vh; vl]) ip mask port st)).

(** * What a correct receiver reports for everything else *)

Definition wire_opcode (b : list N) : N := nth 8 b 0 + 256 * nth 9 b 0.
Definition wire_version (b : list N) : N := nth 11 b 0.

(** The 35 opcodes documented in packet/code/opcode.go. *)
Definition op_input : N := 0x7000.
Definition ops_unsupported : list N :=
  [0x8000; 0x8100; 0x8200; 0x8300; 0x8400; 0x9000; 0x9100; 0x9200; 0x9300; 0x9800; 0x9a00; 0x9b00;
   0xa010; 0xa020; 0xa040; 0xf000; 0xf100; 0xf200; 0xf300; 0xf400; 0xf500; 0xf600].
Definition ops_supported : list N :=
  [0x2000; 0x2100; 0x2300; 0x2400; 0x5000; 0x5100; 0x5200; 0x6000; 0x9700; 0x9900; 0xf800; 0xf900].
Definition ops_documented : list N := ops_supported ++ op_input :: ops_unsupported.

(** Sizes of the fixed-size packets. *)
Inductive fixed_size : N -> N -> Prop :=
| FS_Poll : fixed_size 0x2000 14
| FS_PollReply : fixed_size 0x2100 239
| FS_DiagData : fixed_size 0x2300 530
| FS_Command : fixed_size 0x2400 528
| FS_Nzs : fixed_size 0x5100 530
| FS_Sync : fixed_size 0x5200 14
| FS_Address : fixed_size 0x6000 107
| FS_TimeCode : fixed_size 0x9700 19
| FS_Trigger : fixed_size 0x9900 530
| FS_IPProg : fixed_size 0xf800 34
| FS_IPProgReply : fixed_size 0xf900 34.

(** Opcode 0x0021 (the byte-swapped ArtPollReply opcode) is an undocumented opcode which the
    library always reports as version 0. *)
Definition header_ok (b : list N) : Prop :=
  12 <= len b /\ firstn 8 b = magic /\
  (wire_opcode b = 0x2100 \/ wire_opcode b <> 0x0021 /\ 14 <= wire_version b).

Inductive wire_error (b : list N) : goerr -> Prop :=
| WE_short : len b < 12 -> wire_error b errIncorrectHeaderLength
| WE_magic : 12 <= len b -> firstn 8 b <> magic -> wire_error b errInvalidPacket
| WE_version : 12 <= len b -> firstn 8 b = magic -> wire_opcode b <> 0x2100 ->
    wire_opcode b <> 0x0021 -> wire_version b < 14 ->
    wire_error b (errIncompatibleVersion (wire_version b))
| WE_swapped : 12 <= len b -> firstn 8 b = magic -> wire_opcode b = 0x0021 ->
    wire_error b (errIncompatibleVersion 0)
| WE_input : header_ok b -> wire_opcode b = op_input -> wire_error b (errUnimplemented op_input)
| WE_unsupported : header_ok b -> In (wire_opcode b) ops_unsupported ->
    wire_error b (errNotImplementedOpCode (wire_opcode b))
| WE_unknown : header_ok b -> ~ In (wire_opcode b) ops_documented ->
    wire_error b (errInvalidOpCodeOf (wire_opcode b))
| WE_truncated n : header_ok b -> fixed_size (wire_opcode b) n -> len b < n ->
    wire_error b errUnexpectedEOF
| WE_dmx_short : header_ok b -> wire_opcode b = 0x5000 -> len b < 18 ->
    wire_error b errInvalidPacket
| WE_dmx_length l : header_ok b -> wire_opcode b = 0x5000 -> 18 <= len b ->
    l = 256 * nth 16 b 0 + nth 17 b 0 ->
    (len b < l + 18 \/ l < 2 \/ 512 < l \/ N.odd l = true) ->
    wire_error b errInvalidPacket
| WE_esta : header_ok b -> wire_opcode b = 0x2400 -> 528 <= len b ->
    (nth 12 b 0 <> 0xff \/ nth 13 b 0 <> 0xff) -> wire_error b errInvalidPacket
| WE_port port : header_ok b -> wire_opcode b = 0x2100 -> 239 <= len b ->
    port = 256 * nth 14 b 0 + nth 15 b 0 -> port <> 0x1936 -> port <> 0x3619 ->
    wire_error b (errInvalidPort port)
| WE_style : header_ok b -> wire_opcode b = 0x2100 -> 239 <= len b ->
    (256 * nth 14 b 0 + nth 15 b 0 = 0x1936 \/ 256 * nth 14 b 0 + nth 15 b 0 = 0x3619) ->
    6 < nth 200 b 0 -> wire_error b errInvalidStyleCode.

(** * Canonical encoding and canonical form *)

(** The datagram a packet value stands for. *)
Definition packet_bytes (p : packet) : list N :=
  match p with
  | PktPoll p => poll_bytes p
  | PktPollReply p => pollreply_bytes p
  | PktDiagData p => diagdata_bytes (H_OpCode (DiagData_Header p)) p
  | PktCommand p => command_bytes (H_OpCode (Command_Header p)) p
  | PktDMX p => dmx_bytes p
  | PktNzs p => nzs_bytes (H_OpCode (Nzs_Header p)) p
  | PktSync p => sync_bytes (H_OpCode (Sync_Header p)) p
  | PktAddress p => address_bytes (H_OpCode (Address_Header p)) p
  | PktTimeCode p => timecode_bytes (H_OpCode (TimeCode_Header p)) p
  | PktTrigger p => trigger_bytes (H_OpCode (Trigger_Header p)) p
  | PktIPProg p => ipprog_bytes (H_OpCode (IPProg_Header p)) p
  | PktIPProgReply p => ipprogreply_bytes (H_OpCode (IPProgReply_Header p)) p
  end.

(** Packets whose encoding is a valid datagram of their own type: ArtPoll and ArtDmx always, an
    ArtPollReply with the Art-Net port and a documented style, any other packet if its OpCode field
    holds its own opcode. *)
Definition encodable (p : packet) : Prop :=
  match p with
  | PktPoll _ | PktDMX _ => True
  | PktPollReply r => PollReply_Port r = 6454 /\ PollReply_Style r <= 6
  | PktDiagData q => H_OpCode (DiagData_Header q) = 0x2300
  | PktCommand q => H_OpCode (Command_Header q) = 0x2400
  | PktNzs q => H_OpCode (Nzs_Header q) = 0x5100
  | PktSync q => H_OpCode (Sync_Header q) = 0x5200
  | PktAddress q => H_OpCode (Address_Header q) = 0x6000
  | PktTimeCode q => H_OpCode (TimeCode_Header q) = 0x9700
  | PktTrigger q => H_OpCode (Trigger_Header q) = 0x9900
  | PktIPProg q => H_OpCode (IPProg_Header q) = 0xf800
  | PktIPProgReply q => H_OpCode (IPProgReply_Header q) = 0xf900
  end.

(** The same packet with header magic, own opcode, version 0.14 and the fields that Art-Net fixes
    (ArtDmx Length 512, ArtCommand manufacturer 0xffff, ArtPollReply port 6454); every other field
    unchanged. *)
Definition canonical (p : packet) : packet :=
  let h op := mkHeader magic op [0; 14] in
  match p with
  | PktPoll (mkPoll _ a b) => PktPoll (mkPoll (h 0x2000) a b)
  | PktPollReply (mkPollReply _ _ a _ b c d e f g i j k l m n o p q r s t u v w x y z) =>
      PktPollReply (mkPollReply magic 0x2100 a 6454 b c d e f g i j k l m n o p q r s t u v w x y z)
  | PktDiagData (mkDiagData _ a b c) => PktDiagData (mkDiagData (h 0x2300) a b c)
  | PktCommand (mkCommand _ _ b c) => PktCommand (mkCommand (h 0x2400) [0xff; 0xff] b c)
  | PktDMX (mkDMX _ a b c d _ e) => PktDMX (mkDMX (h 0x5000) a b c d 512 e)
  | PktNzs (mkNzs _ a b c d e f) => PktNzs (mkNzs (h 0x5100) a b c d e f)
  | PktSync _ => PktSync (mkSync (h 0x5200))
  | PktAddress (mkAddress _ a b c d e f g i j) => PktAddress (mkAddress (h 0x6000) a b c d e f g i j)
  | PktTimeCode (mkTimeCode _ a b c d e) => PktTimeCode (mkTimeCode (h 0x9700) a b c d e)
  | PktTrigger (mkTrigger _ a b c d) => PktTrigger (mkTrigger (h 0x9900) a b c d)
  | PktIPProg (mkIPProg _ a b c d) => PktIPProg (mkIPProg (h 0xf800) a b c d)
  | PktIPProgReply (mkIPProgReply _ a b c d) => PktIPProgReply (mkIPProgReply (h 0xf900) a b c d)
  end.
