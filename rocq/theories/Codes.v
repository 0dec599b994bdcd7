(** Model of package packet/code (packet/code/*.go) and package version (version/version.go). *)
From Coq Require Import DecimalString.
From Coq Require Export String.
From Verif Require Export Go.
Open Scope N_scope.

(** fmt.Sprintf("%d", x) for an unsigned integer. *)
Definition sprint_d (x : N) : string := NilZero.string_of_uint (N.to_uint x).

(** s[i:j] on a string constant. The indices used below are constants inside the string; the
    panic case is kept explicit. *)
Definition str_slice (s : string) (i j : nat) : go string :=
  if (Nat.leb i j && Nat.leb j (String.length s))%bool
  then Ret (substring i (j - i) s) else Panic.

(** * version/version.go *)

(** version/version.go:4 *)
Definition Version : N := 0x0e00.
(** version/version.go:10-15 *)
Definition version_Bytes : list N := [u8 (N.land Version 0xff); u8 (N.shiftr Version 8)].

(** * packet/code/opcode.go *)

(** packet/code/opcode.go:16 *)
Definition OpPoll : N := 0x2000.
(** packet/code/opcode.go:19 *)
Definition OpPollReply : N := 0x2100.
(** packet/code/opcode.go:22 *)
Definition OpDiagData : N := 0x2300.
(** packet/code/opcode.go:25 *)
Definition OpCommand : N := 0x2400.
(** packet/code/opcode.go:28 *)
Definition OpOutput : N := 0x5000.
(** packet/code/opcode.go:31 *)
Definition OpDMX : N := OpOutput.
(** packet/code/opcode.go:34 *)
Definition OpNzs : N := 0x5100.
(** packet/code/opcode.go:37 *)
Definition OpSync : N := 0x5200.
(** packet/code/opcode.go:40 *)
Definition OpAddress : N := 0x6000.
(** packet/code/opcode.go:43 *)
Definition OpInput : N := 0x7000.
(** packet/code/opcode.go:46 *)
Definition OpTodRequest : N := 0x8000.
(** packet/code/opcode.go:49 *)
Definition OpTodData : N := 0x8100.
(** packet/code/opcode.go:52 *)
Definition OpTodControl : N := 0x8200.
(** packet/code/opcode.go:55 *)
Definition OpRdm : N := 0x8300.
(** packet/code/opcode.go:58 *)
Definition OpRdmSub : N := 0x8400.
(** packet/code/opcode.go:61 *)
Definition OpMedia : N := 0x9000.
(** packet/code/opcode.go:64 *)
Definition OpMediaPatch : N := 0x9100.
(** packet/code/opcode.go:67 *)
Definition OpMediaControl : N := 0x9200.
(** packet/code/opcode.go:70 *)
Definition OpMediaContrlReply : N := 0x9300.
(** packet/code/opcode.go:73 *)
Definition OpTimeCode : N := 0x9700.
(** packet/code/opcode.go:76 *)
Definition OpTimeSync : N := 0x9800.
(** packet/code/opcode.go:79 *)
Definition OpTrigger : N := 0x9900.
(** packet/code/opcode.go:82 *)
Definition OpDirectory : N := 0x9a00.
(** packet/code/opcode.go:85 *)
Definition OpDirectoryReply : N := 0x9b00.
(** packet/code/opcode.go:88 *)
Definition OpVideoSetup : N := 0xa010.
(** packet/code/opcode.go:91 *)
Definition OpVideoPalette : N := 0xa020.
(** packet/code/opcode.go:94 *)
Definition OpVideoData : N := 0xa040.
(** packet/code/opcode.go:97 *)
Definition OpMacMaster : N := 0xf000.
(** packet/code/opcode.go:100 *)
Definition OpMacSlave : N := 0xf100.
(** packet/code/opcode.go:103 *)
Definition OpFirmwareMaster : N := 0xf200.
(** packet/code/opcode.go:106 *)
Definition OpFirmwareReply : N := 0xf300.
(** packet/code/opcode.go:109 *)
Definition OpFileTnMaster : N := 0xf400.
(** packet/code/opcode.go:112 *)
Definition OpFileFnMaster : N := 0xf500.
(** packet/code/opcode.go:115 *)
Definition OpFileFnReply : N := 0xf600.
(** packet/code/opcode.go:118 *)
Definition OpIPProg : N := 0xf800.
(** packet/code/opcode.go:121 *)
Definition OpIPProgReply : N := 0xf900.

(** * packet/code/opcode_string.go *)

(** packet/code/opcode_string.go:7 *)
Definition OpCode_name : string := "OpPollOpPollReplyOpDiagDataOpCommandOpOutputOpNzsOpSyncOpAddressOpInputOpTodRequestOpTodDataOpTodControlOpRdmOpRdmSubOpMediaOpMediaPatchOpMediaControlOpMediaContrlReplyOpTimeCodeOpTimeSyncOpTriggerOpDirectoryOpDirectoryReplyOpVideoSetupOpVideoPaletteOpVideoDataOpMacMasterOpMacSlaveOpFirmwareMasterOpFirmwareReplyOpFileTnMasterOpFileFnMasterOpFileFnReplyOpIPProgOpIPProgReply"%string.

(** packet/code/opcode_string.go:9-45: the map literal, as (key, low, high) index triples. *)
Definition OpCode_map : list (N * (nat * nat)) :=
  [ (8192, (0, 6)%nat);
    (8448, (6, 17)%nat);
    (8960, (17, 27)%nat);
    (9216, (27, 36)%nat);
    (20480, (36, 44)%nat);
    (20736, (44, 49)%nat);
    (20992, (49, 55)%nat);
    (24576, (55, 64)%nat);
    (28672, (64, 71)%nat);
    (32768, (71, 83)%nat);
    (33024, (83, 92)%nat);
    (33280, (92, 104)%nat);
    (33536, (104, 109)%nat);
    (33792, (109, 117)%nat);
    (36864, (117, 124)%nat);
    (37120, (124, 136)%nat);
    (37376, (136, 150)%nat);
    (37632, (150, 168)%nat);
    (38656, (168, 178)%nat);
    (38912, (178, 188)%nat);
    (39168, (188, 197)%nat);
    (39424, (197, 208)%nat);
    (39680, (208, 224)%nat);
    (40976, (224, 236)%nat);
    (40992, (236, 250)%nat);
    (41024, (250, 261)%nat);
    (61440, (261, 272)%nat);
    (61696, (272, 282)%nat);
    (61952, (282, 298)%nat);
    (62208, (298, 313)%nat);
    (62464, (313, 327)%nat);
    (62720, (327, 341)%nat);
    (62976, (341, 354)%nat);
    (63488, (354, 362)%nat);
    (63744, (362, 375)%nat) ].

(** Lookup in the map. *)
Fixpoint OpCode_lookup (m : list (N * (nat * nat))) (i : N) : option (nat * nat) :=
  match m with
  | [] => None
  | (k, r) :: m' => if k =? i then Some r else OpCode_lookup m' i
  end.

(** packet/code/opcode_string.go:47-52. (In Go the slices of the map literal are evaluated at
    package initialisation; here at lookup.) *)
Definition OpCode_String (i : N) : go string :=
  match OpCode_lookup OpCode_map i with
  | Some (lo, hi) => str_slice OpCode_name lo hi
  | None => Ret ("OpCode(" ++ sprint_d i ++ ")")%string
  end.

(** packet/code/opcode.go:9-12 *)
Definition ValidOp (o : N) : bool :=
  match OpCode_lookup OpCode_map o with Some _ => true | None => false end.

(** * packet/code/stylecode.go *)

(** packet/code/stylecode.go:18 *)
Definition StNode : N := 0x00.
(** packet/code/stylecode.go:21 *)
Definition StController : N := 0x01.
(** packet/code/stylecode.go:24 *)
Definition StMedia : N := 0x02.
(** packet/code/stylecode.go:27 *)
Definition StRoute : N := 0x03.
(** packet/code/stylecode.go:30 *)
Definition StBackup : N := 0x04.
(** packet/code/stylecode.go:33 *)
Definition StConfig : N := 0x05.
(** packet/code/stylecode.go:36 *)
Definition StVisual : N := 0x06.

(** packet/code/stylecode.go:39,41 *)
Definition styleCodeName : string := "NodeControllerMediaRouteBackupConfigVisual"%string.
Definition styleCodeIndex : list N := [0; 4; 14; 19; 24; 30; 36; 42].

(** packet/code/stylecode.go:9-14 *)
Definition ValidStyle (o : N) : bool :=
  if u8 (N.of_nat (length styleCodeIndex) - 1) <=? o then false else true.

(** packet/code/stylecode.go:43-48. Note i+1 is a uint8 addition. *)
Definition StyleCode_String (i : N) : go string :=
  if u8 (N.of_nat (length styleCodeIndex) - 1) <=? i
  then Ret ("StyleCode(" ++ sprint_d i ++ ")")%string
  else do lo <- go_index styleCodeIndex (N.to_nat i);
       do hi <- go_index styleCodeIndex (N.to_nat (u8 (i + 1)));
       str_slice styleCodeName (N.to_nat lo) (N.to_nat hi).

(** * packet/code/nodereportcode.go, nodereportcode_string.go *)

(** packet/code/nodereportcode.go:10 *)
Definition RcDebug : N := 0x00.
(** packet/code/nodereportcode.go:13 *)
Definition RcPowerOk : N := 0x01.
(** packet/code/nodereportcode.go:16 *)
Definition RcPowerFail : N := 0x02.
(** packet/code/nodereportcode.go:19 *)
Definition RcSocketWr1 : N := 0x03.
(** packet/code/nodereportcode.go:22 *)
Definition RcParseFail : N := 0x04.
(** packet/code/nodereportcode.go:25 *)
Definition RcUDPFail : N := 0x05.
(** packet/code/nodereportcode.go:28 *)
Definition RcShNameOk : N := 0x06.
(** packet/code/nodereportcode.go:31 *)
Definition RcLoNameOk : N := 0x07.
(** packet/code/nodereportcode.go:34 *)
Definition RcDmxError : N := 0x08.
(** packet/code/nodereportcode.go:37 *)
Definition RcDmxUDPFull : N := 0x09.
(** packet/code/nodereportcode.go:40 *)
Definition RcDmxRxFull : N := 0x0a.
(** packet/code/nodereportcode.go:43 *)
Definition RcSwitchErr : N := 0x0b.
(** packet/code/nodereportcode.go:46 *)
Definition RcConfigErr : N := 0x0c.
(** packet/code/nodereportcode.go:49 *)
Definition RcDmxShort : N := 0x0d.
(** packet/code/nodereportcode.go:52 *)
Definition RcFirmwareFail : N := 0x0e.
(** packet/code/nodereportcode.go:55 *)
Definition RcUserFail : N := 0x0f.
(** packet/code/nodereportcode.go:58 *)
Definition RcFactoryRes : N := 0x10.

(** packet/code/nodereportcode_string.go:7,9 *)
Definition NodeReportCode_name : string := "RcDebugRcPowerOkRcPowerFailRcSocketWr1RcParseFailRcUDPFailRcShNameOkRcLoNameOkRcDmxErrorRcDmxUDPFullRcDmxRxFullRcSwitchErrRcConfigErrRcDmxShortRcFirmwareFailRcUserFailRcFactoryRes"%string.
Definition NodeReportCode_index : list N := [0; 7; 16; 27; 38; 49; 58; 68; 78; 88; 100; 111; 122; 133; 143; 157; 167; 179].

(** packet/code/nodereportcode_string.go:11-16 *)
Definition NodeReportCode_String (i : N) : go string :=
  if u8 (N.of_nat (length NodeReportCode_index) - 1) <=? i
  then Ret ("NodeReportCode(" ++ sprint_d i ++ ")")%string
  else do lo <- go_index NodeReportCode_index (N.to_nat i);
       do hi <- go_index NodeReportCode_index (N.to_nat (u8 (i + 1)));
       str_slice NodeReportCode_name (N.to_nat lo) (N.to_nat hi).

(** * packet/code/prioritycode.go, prioritycode_string.go *)

(** packet/code/prioritycode.go:10 *)
Definition DpAll : N := 0x00.
(** packet/code/prioritycode.go:13 *)
Definition DpLow : N := 0x10.
(** packet/code/prioritycode.go:16 *)
Definition DpMed : N := 0x40.
(** packet/code/prioritycode.go:19 *)
Definition DpHigh : N := 0x80.
(** packet/code/prioritycode.go:22 *)
Definition DpCritical : N := 0xe0.
(** packet/code/prioritycode.go:26 *)
Definition DpVolatile : N := 0xf0.

(** packet/code/prioritycode_string.go:25-42 *)
Definition PriorityCode_String (i : N) : string :=
  (if N.eqb i 0 then "DpAll"
   else if N.eqb i 16 then "DpLow"
   else if N.eqb i 64 then "DpMed"
   else if N.eqb i 128 then "DpHigh"
   else if N.eqb i 224 then "DpCritical"
   else if N.eqb i 240 then "DpVolatile"
   else "PriorityCode(" ++ sprint_d i ++ ")")%string.

(** * Bit-field registers *)

(** The body shared (textually) by all With<Flag> methods:
    if enable { return s | (1 << k) }; return s | (0 << k) *)
Definition with_bit (k : N) (s : N) (enable : bool) : N :=
  if enable then N.lor s (u8 (N.shiftl 1 k)) else N.lor s (u8 (N.shiftl 0 k)).
(** The body shared by all <Flag> methods: return s&(1<<k) > 0 *)
Definition get_bit (k : N) (s : N) : bool := 0 <? N.land s (u8 (N.shiftl 1 k)).

(** ** packet/code/talktome.go *)

(** packet/code/talktome.go:9-14 *)
Definition TalkToMe_WithReplyOnChange : N -> bool -> N := with_bit 1.
(** packet/code/talktome.go:17-19 *)
Definition TalkToMe_ReplyOnChange : N -> bool := get_bit 1.
(** packet/code/talktome.go:22-27 *)
Definition TalkToMe_WithDiagnostics : N -> bool -> N := with_bit 2.
(** packet/code/talktome.go:30-32 *)
Definition TalkToMe_Diagnostics : N -> bool := get_bit 2.
(** packet/code/talktome.go:35-40 *)
Definition TalkToMe_WithDiagUnicast : N -> bool -> N := with_bit 3.
(** packet/code/talktome.go:43-45 *)
Definition TalkToMe_DiagUnicast : N -> bool := get_bit 3.
(** packet/code/talktome.go:48-53 *)
Definition TalkToMe_WithVLC : N -> bool -> N := with_bit 4.
(** packet/code/talktome.go:56-58 *)
Definition TalkToMe_VLC : N -> bool := get_bit 4.
(** packet/code/talktome.go:61-77 *)
Definition TalkToMe_String (s : N) : string :=
  ("TalkToMe: ReplyOnChange: " ++ (if TalkToMe_ReplyOnChange s then "yes" else "no") ++ ", Diagnostics: " ++ (if TalkToMe_Diagnostics s then "yes" else "no") ++ " (as unicast: " ++ (if TalkToMe_DiagUnicast s then "yes" else "no") ++ "), VLC: " ++ (if TalkToMe_VLC s then "yes" else "no"))%string.

(** ** packet/code/porttype.go *)

(** packet/code/porttype.go:9-14 *)
Definition PortType_WithInput : N -> bool -> N := with_bit 6.
(** packet/code/porttype.go:17-19 *)
Definition PortType_Input : N -> bool := get_bit 6.
(** packet/code/porttype.go:22-27 *)
Definition PortType_WithOutput : N -> bool -> N := with_bit 7.
(** packet/code/porttype.go:30-32 *)
Definition PortType_Output : N -> bool := get_bit 7.
(** packet/code/porttype.go:36-52 *)
Definition PortType_WithType (s : N) (v : string) : N :=
  if (v =? "DMX512")%string then N.lor s 0x00
  else if (v =? "MIDI")%string then N.lor s 0x01
  else if (v =? "Avab")%string then N.lor s 0x02
  else if (v =? "Colortran CMX")%string then N.lor s 0x03
  else if (v =? "ADB 62.5")%string then N.lor s 0x04
  else if (v =? "Art-Net")%string then N.lor s 0x05
  else s.
(** packet/code/porttype.go:56-72 *)
Definition PortType_Type (s : N) : string :=
  let t := N.land s 0x1f in
  (if N.eqb t 0 then "DMX512"
   else if N.eqb t 1 then "MIDI"
   else if N.eqb t 2 then "Avab"
   else if N.eqb t 3 then "Colortran CMX"
   else if N.eqb t 4 then "ADB 62.5"
   else if N.eqb t 5 then "Art-Net"
   else "unknown")%string.
(** packet/code/porttype.go:75-86 *)
Definition PortType_String (s : N) : string :=
  ("PortType: Type: " ++ PortType_Type s ++ ", Output: " ++ (if PortType_Output s then "yes" else "no") ++ ", Input: " ++ (if PortType_Input s then "yes" else "no"))%string.

(** ** packet/code/goodinput.go *)

(** packet/code/goodinput.go:7-12 *)
Definition GoodInput_WithReceive : N -> bool -> N := with_bit 2.
(** packet/code/goodinput.go:15-17 *)
Definition GoodInput_Receive : N -> bool := get_bit 2.
(** packet/code/goodinput.go:20-25 *)
Definition GoodInput_WithDisabled : N -> bool -> N := with_bit 3.
(** packet/code/goodinput.go:28-30 *)
Definition GoodInput_Disabled : N -> bool := get_bit 3.
(** packet/code/goodinput.go:33-38 *)
Definition GoodInput_WithText : N -> bool -> N := with_bit 4.
(** packet/code/goodinput.go:41-43 *)
Definition GoodInput_Text : N -> bool := get_bit 4.
(** packet/code/goodinput.go:46-51 *)
Definition GoodInput_WithSIP : N -> bool -> N := with_bit 5.
(** packet/code/goodinput.go:54-56 *)
Definition GoodInput_SIP : N -> bool := get_bit 5.
(** packet/code/goodinput.go:59-64 *)
Definition GoodInput_WithTest : N -> bool -> N := with_bit 6.
(** packet/code/goodinput.go:67-69 *)
Definition GoodInput_Test : N -> bool := get_bit 6.
(** packet/code/goodinput.go:72-77 *)
Definition GoodInput_WithData : N -> bool -> N := with_bit 7.
(** packet/code/goodinput.go:80-82 *)
Definition GoodInput_Data : N -> bool := get_bit 7.
(** packet/code/goodinput.go:85-107 *)
Definition GoodInput_String (s : N) : string :=
  ("GoodInput: ReceiveErrors: " ++ (if GoodInput_Receive s then "yes" else "no") ++ ", Disabled: " ++ (if GoodInput_Disabled s then "yes" else "no") ++ ", DMX512Text: " ++ (if GoodInput_Text s then "yes" else "no") ++ ", DMX512SIP: " ++ (if GoodInput_SIP s then "yes" else "no") ++ ", DMX512Test: " ++ (if GoodInput_Test s then "yes" else "no") ++ ", DataReceived: " ++ (if GoodInput_Data s then "yes" else "no"))%string.

(** ** packet/code/goodoutput.go *)

(** packet/code/goodoutput.go:7-12 *)
Definition GoodOutput_WithACN : N -> bool -> N := with_bit 0.
(** packet/code/goodoutput.go:15-17 *)
Definition GoodOutput_ACN : N -> bool := get_bit 0.
(** packet/code/goodoutput.go:20-25 *)
Definition GoodOutput_WithLTP : N -> bool -> N := with_bit 1.
(** packet/code/goodoutput.go:28-30 *)
Definition GoodOutput_LTP : N -> bool := get_bit 1.
(** packet/code/goodoutput.go:33-38 *)
Definition GoodOutput_WithOutput : N -> bool -> N := with_bit 2.
(** packet/code/goodoutput.go:41-43 *)
Definition GoodOutput_Output : N -> bool := get_bit 2.
(** packet/code/goodoutput.go:46-51 *)
Definition GoodOutput_WithMerging : N -> bool -> N := with_bit 3.
(** packet/code/goodoutput.go:54-56 *)
Definition GoodOutput_Merging : N -> bool := get_bit 3.
(** packet/code/goodoutput.go:59-64 *)
Definition GoodOutput_WithText : N -> bool -> N := with_bit 4.
(** packet/code/goodoutput.go:67-69 *)
Definition GoodOutput_Text : N -> bool := get_bit 4.
(** packet/code/goodoutput.go:72-77 *)
Definition GoodOutput_WithSIP : N -> bool -> N := with_bit 5.
(** packet/code/goodoutput.go:80-82 *)
Definition GoodOutput_SIP : N -> bool := get_bit 5.
(** packet/code/goodoutput.go:85-90 *)
Definition GoodOutput_WithTest : N -> bool -> N := with_bit 6.
(** packet/code/goodoutput.go:93-95 *)
Definition GoodOutput_Test : N -> bool := get_bit 6.
(** packet/code/goodoutput.go:98-103 *)
Definition GoodOutput_WithData : N -> bool -> N := with_bit 7.
(** packet/code/goodoutput.go:106-108 *)
Definition GoodOutput_Data : N -> bool := get_bit 7.
(** packet/code/goodoutput.go:111-139 *)
Definition GoodOutput_String (s : N) : string :=
  ("GoodOutput: OutputACN: " ++ (if GoodOutput_ACN s then "yes" else "no") ++ ", LTPMergeMode: " ++ (if GoodOutput_LTP s then "yes" else "no") ++ ", OutputShort: " ++ (if GoodOutput_Output s then "yes" else "no") ++ ", Merging: " ++ (if GoodOutput_Merging s then "yes" else "no") ++ ", DMX512Text: " ++ (if GoodOutput_Text s then "yes" else "no") ++ ", DMX512SIP: " ++ (if GoodOutput_SIP s then "yes" else "no") ++ ", DMX512Test: " ++ (if GoodOutput_Test s then "yes" else "no") ++ ", DataSending: " ++ (if GoodOutput_Data s then "yes" else "no"))%string.

(** ** packet/code/status1.go *)

(** packet/code/status1.go:9-14 *)
Definition Status1_WithUBEA : N -> bool -> N := with_bit 0.
(** packet/code/status1.go:17-19 *)
Definition Status1_UBEA : N -> bool := get_bit 0.
(** packet/code/status1.go:24-29 *)
Definition Status1_WithRDM : N -> bool -> N := with_bit 1.
(** packet/code/status1.go:32-34 *)
Definition Status1_RDM : N -> bool := get_bit 1.
(** packet/code/status1.go:40-45 *)
Definition Status1_WithBootROM : N -> bool -> N := with_bit 2.
(** packet/code/status1.go:48-50 *)
Definition Status1_BootROM : N -> bool := get_bit 2.
(** packet/code/status1.go:57-69 *)
Definition Status1_WithPortAddr (s : N) (v : string) : N :=
  if (v =? "unknown")%string then N.lor s (u8 (N.shiftl 0 4))
  else if (v =? "front")%string then N.lor s (u8 (N.shiftl 1 4))
  else if (v =? "net")%string then N.lor s (u8 (N.shiftl 2 4))
  else if (v =? "unused")%string then N.lor s (u8 (N.shiftl 3 4))
  else s.
(** packet/code/status1.go:76-88 *)
Definition Status1_PortAddr (s : N) : string :=
  let t := N.shiftr (N.land s (8 + 16)) 4 in
  (if N.eqb t 0 then "unknown"
   else if N.eqb t 1 then "front"
   else if N.eqb t 2 then "net"
   else if N.eqb t 3 then "unused"
   else "error")%string.
(** packet/code/status1.go:95-107 *)
Definition Status1_WithIndicator (s : N) (v : string) : N :=
  if (v =? "unknown")%string then N.lor s (u8 (N.shiftl 0 6))
  else if (v =? "locate")%string then N.lor s (u8 (N.shiftl 1 6))
  else if (v =? "mute")%string then N.lor s (u8 (N.shiftl 2 6))
  else if (v =? "normal")%string then N.lor s (u8 (N.shiftl 3 6))
  else s.
(** packet/code/status1.go:114-126 *)
Definition Status1_Indicator (s : N) : string :=
  let t := N.shiftr (N.land s (32 + 64)) 6 in
  (if N.eqb t 0 then "unknown"
   else if N.eqb t 1 then "locate"
   else if N.eqb t 2 then "mutenet"
   else if N.eqb t 3 then "normal"
   else "error")%string.
(** packet/code/status1.go:129-144 *)
Definition Status1_String (s : N) : string :=
  ("Status1: UBEA: " ++ (if Status1_UBEA s then "yes" else "no") ++ ", RDM: " ++ (if Status1_RDM s then "yes" else "no") ++ ", BootRom: " ++ (if Status1_BootROM s then "yes" else "no") ++ ", PortAddr: " ++ Status1_PortAddr s ++ ", Indicator: " ++ Status1_Indicator s)%string.

(** ** packet/code/status2.go *)

(** packet/code/status2.go:7-12 *)
Definition Status2_WithBrowser : N -> bool -> N := with_bit 0.
(** packet/code/status2.go:15-17 *)
Definition Status2_Browser : N -> bool := get_bit 0.
(** packet/code/status2.go:20-25 *)
Definition Status2_WithDHCP : N -> bool -> N := with_bit 1.
(** packet/code/status2.go:28-30 *)
Definition Status2_DHCP : N -> bool := get_bit 1.
(** packet/code/status2.go:33-38 *)
Definition Status2_WithDHCPCapable : N -> bool -> N := with_bit 2.
(** packet/code/status2.go:41-43 *)
Definition Status2_DHCPCapable : N -> bool := get_bit 2.
(** packet/code/status2.go:46-51 *)
Definition Status2_WithPort15 : N -> bool -> N := with_bit 3.
(** packet/code/status2.go:54-56 *)
Definition Status2_Port15 : N -> bool := get_bit 3.
(** packet/code/status2.go:59-64 *)
Definition Status2_WithSwitch : N -> bool -> N := with_bit 4.
(** packet/code/status2.go:67-69 *)
Definition Status2_Switch : N -> bool := get_bit 4.
(** packet/code/status2.go:72-77 *)
Definition Status2_WithSquawk : N -> bool -> N := with_bit 5.
(** packet/code/status2.go:80-82 *)
Definition Status2_Squawk : N -> bool := get_bit 5.
(** packet/code/status2.go:85-107 *)
Definition Status2_String (s : N) : string :=
  ("Status2: Browser: " ++ (if Status2_Browser s then "yes" else "no") ++ ", DHCP: " ++ (if Status2_DHCP s then "yes" else "no") ++ ", DHCPCapable: " ++ (if Status2_DHCPCapable s then "yes" else "no") ++ ", Port 15bit: " ++ (if Status2_Port15 s then "yes" else "no") ++ ", CanSwitch: " ++ (if Status2_Switch s then "yes" else "no") ++ ", Squawking: " ++ (if Status2_Squawk s then "yes" else "no"))%string.

(** ** packet/code/swmacro.go *)

(** packet/code/swmacro.go:11-16 *)
Definition SwMacro_WithMacro1 : N -> bool -> N := with_bit 0.
(** packet/code/swmacro.go:19-21 *)
Definition SwMacro_Macro1 : N -> bool := get_bit 0.
(** packet/code/swmacro.go:24-29 *)
Definition SwMacro_WithMacro2 : N -> bool -> N := with_bit 1.
(** packet/code/swmacro.go:32-34 *)
Definition SwMacro_Macro2 : N -> bool := get_bit 1.
(** packet/code/swmacro.go:37-42 *)
Definition SwMacro_WithMacro3 : N -> bool -> N := with_bit 2.
(** packet/code/swmacro.go:45-47 *)
Definition SwMacro_Macro3 : N -> bool := get_bit 2.
(** packet/code/swmacro.go:50-55 *)
Definition SwMacro_WithMacro4 : N -> bool -> N := with_bit 3.
(** packet/code/swmacro.go:58-60 *)
Definition SwMacro_Macro4 : N -> bool := get_bit 3.
(** packet/code/swmacro.go:63-68 *)
Definition SwMacro_WithMacro5 : N -> bool -> N := with_bit 4.
(** packet/code/swmacro.go:71-73 *)
Definition SwMacro_Macro5 : N -> bool := get_bit 4.
(** packet/code/swmacro.go:76-81 *)
Definition SwMacro_WithMacro6 : N -> bool -> N := with_bit 5.
(** packet/code/swmacro.go:84-86 *)
Definition SwMacro_Macro6 : N -> bool := get_bit 5.
(** packet/code/swmacro.go:89-94 *)
Definition SwMacro_WithMacro7 : N -> bool -> N := with_bit 6.
(** packet/code/swmacro.go:97-99 *)
Definition SwMacro_Macro7 : N -> bool := get_bit 6.
(** packet/code/swmacro.go:102-107 *)
Definition SwMacro_WithMacro8 : N -> bool -> N := with_bit 7.
(** packet/code/swmacro.go:110-112 *)
Definition SwMacro_Macro8 : N -> bool := get_bit 7.
(** packet/code/swmacro.go:115-143 *)
Definition SwMacro_String (s : N) : string :=
  ("SwMacro: Macro1: " ++ (if SwMacro_Macro1 s then "on" else "off") ++ ", Macro2: " ++ (if SwMacro_Macro2 s then "on" else "off") ++ ", Macro3: " ++ (if SwMacro_Macro3 s then "on" else "off") ++ ", Macro4: " ++ (if SwMacro_Macro4 s then "on" else "off") ++ ", Macro5: " ++ (if SwMacro_Macro5 s then "on" else "off") ++ ", Macro6: " ++ (if SwMacro_Macro6 s then "on" else "off") ++ ", Macro7: " ++ (if SwMacro_Macro7 s then "on" else "off") ++ ", Macro8: " ++ (if SwMacro_Macro8 s then "on" else "off"))%string.

(** ** packet/code/swremote.go *)

(** packet/code/swremote.go:11-16 *)
Definition SwRemote_WithRemote1 : N -> bool -> N := with_bit 0.
(** packet/code/swremote.go:19-21 *)
Definition SwRemote_Remote1 : N -> bool := get_bit 0.
(** packet/code/swremote.go:24-29 *)
Definition SwRemote_WithRemote2 : N -> bool -> N := with_bit 1.
(** packet/code/swremote.go:32-34 *)
Definition SwRemote_Remote2 : N -> bool := get_bit 1.
(** packet/code/swremote.go:37-42 *)
Definition SwRemote_WithRemote3 : N -> bool -> N := with_bit 2.
(** packet/code/swremote.go:45-47 *)
Definition SwRemote_Remote3 : N -> bool := get_bit 2.
(** packet/code/swremote.go:50-55 *)
Definition SwRemote_WithRemote4 : N -> bool -> N := with_bit 3.
(** packet/code/swremote.go:58-60 *)
Definition SwRemote_Remote4 : N -> bool := get_bit 3.
(** packet/code/swremote.go:63-68 *)
Definition SwRemote_WithRemote5 : N -> bool -> N := with_bit 4.
(** packet/code/swremote.go:71-73 *)
Definition SwRemote_Remote5 : N -> bool := get_bit 4.
(** packet/code/swremote.go:76-81 *)
Definition SwRemote_WithRemote6 : N -> bool -> N := with_bit 5.
(** packet/code/swremote.go:84-86 *)
Definition SwRemote_Remote6 : N -> bool := get_bit 5.
(** packet/code/swremote.go:89-94 *)
Definition SwRemote_WithRemote7 : N -> bool -> N := with_bit 6.
(** packet/code/swremote.go:97-99 *)
Definition SwRemote_Remote7 : N -> bool := get_bit 6.
(** packet/code/swremote.go:102-107 *)
Definition SwRemote_WithRemote8 : N -> bool -> N := with_bit 7.
(** packet/code/swremote.go:110-112 *)
Definition SwRemote_Remote8 : N -> bool := get_bit 7.
(** packet/code/swremote.go:115-143 *)
Definition SwRemote_String (s : N) : string :=
  ("SwRemote: Remote1: " ++ (if SwRemote_Remote1 s then "on" else "off") ++ ", Remote2: " ++ (if SwRemote_Remote2 s then "on" else "off") ++ ", Remote3: " ++ (if SwRemote_Remote3 s then "on" else "off") ++ ", Remote4: " ++ (if SwRemote_Remote4 s then "on" else "off") ++ ", Remote5: " ++ (if SwRemote_Remote5 s then "on" else "off") ++ ", Remote6: " ++ (if SwRemote_Remote6 s then "on" else "off") ++ ", Remote7: " ++ (if SwRemote_Remote7 s then "on" else "off") ++ ", Remote8: " ++ (if SwRemote_Remote8 s then "on" else "off"))%string.

