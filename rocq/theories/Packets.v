(** Model of package packet (packet/*.go): packet structs, finish, validate, MarshalBinary,
    UnmarshalBinary and the dispatching Unmarshal.

    Structs are records; blank fields carry no value and are omitted from the records (they are
    present in the layouts). A pointer-receiver method that mutates its receiver returns the new
    receiver value. [UnmarshalBinary] returns the new packet together with the error, because the
    packet object is changed even when an error is reported. *)
From Verif Require Export Binary Codes.
Open Scope N_scope.

(** * packet/header.go *)

(** packet/header.go:34 *)
Definition ArtNet : list N := [0x41; 0x72; 0x74; 0x2d; 0x4e; 0x65; 0x74; 0x00].
(** packet/header.go:37 *)
Definition ArtNetPort : N := 6454.

(** packet/header.go:40-51 *)
Record Header := mkHeader {
  H_ID : list N;       (* [8]byte *)
  H_OpCode : N;        (* uint16 *)
  H_Version : list N   (* [2]byte *)
}.
Definition Header_layout : list fkind := [FBytes 8; FU16; FBytes 2].
(** Zero value Header{}. *)
Definition Header_zero : Header := mkHeader (zeros 8) 0 (zeros 2).

(** packet/header.go:54-56 *)
Definition Header_GetOpCode (p : Header) : N := H_OpCode p.

(** packet/header.go:121-123 *)
Definition swapUint16 (x : N) : N := u16 (N.shiftr x 8 + u16 (N.shiftl x 8)).

(** packet/header.go:100-102 *)
Definition Header_swapOpCode (p : Header) : Header :=
  mkHeader (H_ID p) (swapUint16 (H_OpCode p)) (H_Version p).

(** packet/header.go:74-91. p.Version[1] and version.Bytes()[1] are constant indices into [2]byte
    arrays and cannot panic. *)
Definition Header_validate (p : Header) : Header * option goerr :=
  if negb (eqbytes (H_ID p) ArtNet) then (p, Some errInvalidPacket) else
  let p := Header_swapOpCode p in
  if negb (H_OpCode p =? OpPollReply) then
    if nth 1 (H_Version p) 0 <? nth 1 version_Bytes 0
    then (p, Some (errIncompatibleVersion (nth 1 (H_Version p) 0)))
    else (p, None)
  else (p, None).

(** packet/header.go:58-72 *)
Definition Header_unmarshal (p : Header) (b : list N) : go (Header * option goerr) :=
  if len b <? 12 then Ret (p, Some errIncorrectHeaderLength) else
  do b0 <- go_index b 0; do b1 <- go_index b 1; do b2 <- go_index b 2; do b3 <- go_index b 3;
  do b4 <- go_index b 4; do b5 <- go_index b 5; do b6 <- go_index b 6; do b7 <- go_index b 7;
  do b8 <- go_index b 8; do b9 <- go_index b 9;
  let p := mkHeader [b0; b1; b2; b3; b4; b5; b6; b7] (get16 b8 b9) (H_Version p) in
  do p <- (if negb (H_OpCode p =? OpPollReply) then
             do b10 <- go_index b 10; do b11 <- go_index b 11;
             Ret (mkHeader (H_ID p) (H_OpCode p) [b10; b11])
           else Ret p);
  Ret (Header_validate p).

(** packet/header.go:94-98 *)
Definition Header_finish (p : Header) : Header :=
  Header_swapOpCode (mkHeader ArtNet (H_OpCode p) version_Bytes).

(** packet/header.go:104-111, for a packet type with the given struct layout and finish method.
    binary.Write to a bytes.Buffer of a fixed-size struct cannot fail. *)
Definition marshalPacket {P} (layout : list fkind) (vals_of : P -> vals layout) (finish : P -> P)
    (p : P) : P * res (list N) :=
  let p := finish p in (p, Ok (binary_write layout (vals_of p))).

(** packet/header.go:113-119, for a packet type with the given struct layout and validate method.
    On a read error the packet is not changed. *)
Definition unmarshalPacket {P} (layout : list fkind) (of_vals : vals layout -> P)
    (validate : P -> P * option goerr) (p : P) (b : list N) : P * option goerr :=
  match binary_read layout b with
  | Err e => (p, Some e)
  | Ok v => validate (of_vals v)
  end.

(** * packet/artpoll.go *)

(** packet/artpoll.go:39-48 *)
Record ArtPollPacket := mkPoll {
  Poll_Header : Header;
  Poll_TalkToMe : N;
  Poll_Priority : N
}.
(** Field kinds in declaration order, packet/artpoll.go:39-48. *)
Definition Poll_layout : list fkind :=
  Header_layout ++ [FU8; FU8].
Definition Poll_vals (p : ArtPollPacket) : vals Poll_layout :=
  (H_ID (Poll_Header p), (H_OpCode (Poll_Header p), (H_Version (Poll_Header p), (Poll_TalkToMe p, (Poll_Priority p, tt))))).
Definition Poll_of_vals (v : vals Poll_layout) : ArtPollPacket :=
  let '(i, (o, (v, (x0, (x1, _))))) := v in
  mkPoll (mkHeader i o v) x0 x1.
(** Zero value ArtPollPacket{}; packet/artpoll.go:51-53 NewArtPollPacket. *)
Definition NewArtPollPacket : ArtPollPacket := mkPoll Header_zero 0 0.
Definition Poll_set_Header (p : ArtPollPacket) (h : Header) : ArtPollPacket :=
  mkPoll h (Poll_TalkToMe p) (Poll_Priority p).
(** packet/artpoll.go:66-74 *)
Definition Poll_validate (p : ArtPollPacket) : ArtPollPacket * option goerr :=
  match Header_validate (Poll_Header p) with
  | (h, Some e) => (Poll_set_Header p h, Some e)
  | (h, None) =>
      let p := Poll_set_Header p h in
      if negb (H_OpCode (Poll_Header p) =? OpPoll) then (p, Some errInvalidOpCode) else
      (p, None)
  end.
(** packet/artpoll.go:77-80 *)
Definition Poll_finish (p : ArtPollPacket) : ArtPollPacket :=
  let h := Poll_Header p in
  Poll_set_Header p (Header_finish (mkHeader (H_ID h) OpPoll (H_Version h))).
(** packet/artpoll.go:56-58 *)
Definition Poll_MarshalBinary (p : ArtPollPacket) : ArtPollPacket * res (list N) :=
  marshalPacket Poll_layout Poll_vals Poll_finish p.
(** packet/artpoll.go:61-63 *)
Definition Poll_UnmarshalBinary (p : ArtPollPacket) (b : list N)
    : go (ArtPollPacket * option goerr) :=
  Ret (unmarshalPacket Poll_layout Poll_of_vals Poll_validate p b).

(** * packet/artdmx.go *)

(** packet/artdmx.go:38-66 *)
Record ArtDMXPacket := mkDMX {
  DMX_Header : Header;
  DMX_Sequence : N;
  DMX_Physical : N;
  DMX_SubUni : N;
  DMX_Net : N;
  DMX_Length : N;
  DMX_Data : list N
}.
(** Field kinds in declaration order, packet/artdmx.go:38-66. *)
Definition DMX_layout : list fkind :=
  Header_layout ++ [FU8; FU8; FU8; FU8; FU16; FBytes 512].
Definition DMX_vals (p : ArtDMXPacket) : vals DMX_layout :=
  (H_ID (DMX_Header p), (H_OpCode (DMX_Header p), (H_Version (DMX_Header p), (DMX_Sequence p, (DMX_Physical p, (DMX_SubUni p, (DMX_Net p, (DMX_Length p, (DMX_Data p, tt))))))))).
Definition DMX_of_vals (v : vals DMX_layout) : ArtDMXPacket :=
  let '(i, (o, (v, (x0, (x1, (x2, (x3, (x4, (x5, _))))))))) := v in
  mkDMX (mkHeader i o v) x0 x1 x2 x3 x4 x5.
(** Zero value ArtDMXPacket{}; packet/artdmx.go:69-71 NewArtDMXPacket. *)
Definition NewArtDMXPacket : ArtDMXPacket := mkDMX Header_zero 0 0 0 0 0 (zeros 512).
Definition DMX_set_Header (p : ArtDMXPacket) (h : Header) : ArtDMXPacket :=
  mkDMX h (DMX_Sequence p) (DMX_Physical p) (DMX_SubUni p) (DMX_Net p) (DMX_Length p) (DMX_Data p).
(** packet/artdmx.go:107-115 *)
Definition DMX_validate (p : ArtDMXPacket) : ArtDMXPacket * option goerr :=
  match Header_validate (DMX_Header p) with
  | (h, Some e) => (DMX_set_Header p h, Some e)
  | (h, None) =>
      let p := DMX_set_Header p h in
      if negb (H_OpCode (DMX_Header p) =? OpDMX) then (p, Some errInvalidOpCode) else
      (p, None)
  end.
(** packet/artdmx.go:118-122 *)
Definition DMX_finish (p : ArtDMXPacket) : ArtDMXPacket :=
  let h := DMX_Header p in
  mkDMX (Header_finish (mkHeader (H_ID h) OpDMX (H_Version h)))
        (DMX_Sequence p) (DMX_Physical p) (DMX_SubUni p) (DMX_Net p) 512 (DMX_Data p).
(** packet/artdmx.go:74-76 *)
Definition DMX_MarshalBinary (p : ArtDMXPacket) : ArtDMXPacket * res (list N) :=
  marshalPacket DMX_layout DMX_vals DMX_finish p.
(** packet/artdmx.go:79-104. The length l is an int, kept here as an N. *)
Definition DMX_UnmarshalBinary (p : ArtDMXPacket) (b : list N) : go (ArtDMXPacket * option goerr) :=
  if len b <? 18 then Ret (p, Some errInvalidPacket) else
  do b12h <- slice b 0 12;
  do r <- Header_unmarshal (DMX_Header p) b12h;
  match r with
  | (h, Some e) => Ret (DMX_set_Header p h, Some e)
  | (h, None) =>
      do b12 <- go_index b 12; do b13 <- go_index b 13; do b14 <- go_index b 14; do b15 <- go_index b 15;
      do b16 <- go_index b 16; do b17 <- go_index b 17;
      let length := u16 (u16 (b16 * 256) + b17) in
      let p := mkDMX h b12 b13 b14 b15 length (DMX_Data p) in
      let l := length in
      if (len b <? l + 18) || (l <? 2) || (512 <? l) || negb (l mod 2 =? 0)
      then Ret (p, Some errInvalidPacket) else
      do src <- slice b 18 (18 + l);
      do data <- go_copy_into (DMX_Data p) l src;
      Ret (mkDMX h b12 b13 b14 b15 length data, None)
  end.

(** * packet/artpollreply.go *)

(** packet/artpollreply.go:20-135 *)
Record ArtPollReplyPacket := mkPollReply {
  PollReply_ID : list N;
  PollReply_OpCode : N;
  PollReply_IPAddress : list N;
  PollReply_Port : N;
  PollReply_VersionInfo : N;
  PollReply_NetSwitch : N;
  PollReply_SubSwitch : N;
  PollReply_Oem : N;
  PollReply_UBEAVersion : N;
  PollReply_Status1 : N;
  PollReply_ESTAmanufacturer : list N;
  PollReply_ShortName : list N;
  PollReply_LongName : list N;
  PollReply_NodeReport : list N;
  PollReply_NumPorts : N;
  PollReply_PortTypes : list N;
  PollReply_GoodInput : list N;
  PollReply_GoodOutput : list N;
  PollReply_SwIn : list N;
  PollReply_SwOut : list N;
  PollReply_SwVideo : N;
  PollReply_SwMacro : N;
  PollReply_SwRemote : N;
  PollReply_Style : N;
  PollReply_Macaddress : list N;
  PollReply_BindIP : list N;
  PollReply_BindIndex : N;
  PollReply_Status2 : N
}.
(** Field kinds in declaration order, packet/artpollreply.go:20-135. *)
Definition PollReply_layout : list fkind :=
  [FBytes 8; FU16; FBytes 4; FU16; FU16; FU8; FU8; FU16; FU8; FU8; FBytes 2; FBytes 18; FBytes 64; FBytes 64; FU16; FBytes 4; FBytes 4; FBytes 4; FBytes 4; FBytes 4; FU8; FU8; FU8; FBlank 3; FU8; FBytes 6; FBytes 4; FU8; FU8; FBlank 26].
Definition PollReply_vals (p : ArtPollReplyPacket) : vals PollReply_layout :=
  (PollReply_ID p, (PollReply_OpCode p, (PollReply_IPAddress p, (PollReply_Port p, (PollReply_VersionInfo p, (PollReply_NetSwitch p, (PollReply_SubSwitch p, (PollReply_Oem p, (PollReply_UBEAVersion p, (PollReply_Status1 p, (PollReply_ESTAmanufacturer p, (PollReply_ShortName p, (PollReply_LongName p, (PollReply_NodeReport p, (PollReply_NumPorts p, (PollReply_PortTypes p, (PollReply_GoodInput p, (PollReply_GoodOutput p, (PollReply_SwIn p, (PollReply_SwOut p, (PollReply_SwVideo p, (PollReply_SwMacro p, (PollReply_SwRemote p, (PollReply_Style p, (PollReply_Macaddress p, (PollReply_BindIP p, (PollReply_BindIndex p, (PollReply_Status2 p, tt)))))))))))))))))))))))))))).
Definition PollReply_of_vals (v : vals PollReply_layout) : ArtPollReplyPacket :=
  let '(x0, (x1, (x2, (x3, (x4, (x5, (x6, (x7, (x8, (x9, (x10, (x11, (x12, (x13, (x14, (x15, (x16, (x17, (x18, (x19, (x20, (x21, (x22, (x23, (x24, (x25, (x26, (x27, _)))))))))))))))))))))))))))) := v in
  mkPollReply x0 x1 x2 x3 x4 x5 x6 x7 x8 x9 x10 x11 x12 x13 x14 x15 x16 x17 x18 x19 x20 x21 x22 x23 x24 x25 x26 x27.
(** Zero value ArtPollReplyPacket{}; packet/artpollreply.go:138-140 NewArtPollReplyPacket. *)
Definition NewArtPollReplyPacket : ArtPollReplyPacket := mkPollReply (zeros 8) 0 (zeros 4) 0 0 0 0 0 0 0 (zeros 2) (zeros 18) (zeros 64) (zeros 64) 0 (zeros 4) (zeros 4) (zeros 4) (zeros 4) (zeros 4) 0 0 0 0 (zeros 6) (zeros 4) 0 0.
(** Assignments p.ID = i; p.OpCode = o; p.Port = t. *)
Definition PollReply_set (p : ArtPollReplyPacket) (i : list N) (o t : N) : ArtPollReplyPacket :=
  mkPollReply i o (PollReply_IPAddress p) t
    (PollReply_VersionInfo p) (PollReply_NetSwitch p) (PollReply_SubSwitch p) (PollReply_Oem p) (PollReply_UBEAVersion p) (PollReply_Status1 p) (PollReply_ESTAmanufacturer p) (PollReply_ShortName p) (PollReply_LongName p) (PollReply_NodeReport p) (PollReply_NumPorts p) (PollReply_PortTypes p) (PollReply_GoodInput p) (PollReply_GoodOutput p) (PollReply_SwIn p) (PollReply_SwOut p) (PollReply_SwVideo p) (PollReply_SwMacro p) (PollReply_SwRemote p) (PollReply_Style p) (PollReply_Macaddress p) (PollReply_BindIP p) (PollReply_BindIndex p) (PollReply_Status2 p).
(** packet/artpollreply.go:143-145 *)
Definition PollReply_GetOpCode (p : ArtPollReplyPacket) : N := PollReply_OpCode p.
(** packet/artpollreply.go:158-182 *)
Definition PollReply_validate (p : ArtPollReplyPacket) : ArtPollReplyPacket * option goerr :=
  let p := PollReply_set p (PollReply_ID p) (swapUint16 (PollReply_OpCode p)) (PollReply_Port p) in
  if negb (PollReply_OpCode p =? OpPollReply) then (p, Some errInvalidOpCode) else
  let p := PollReply_set p (PollReply_ID p) (PollReply_OpCode p) (swapUint16 (PollReply_Port p)) in
  let style p :=
    if negb (ValidStyle (PollReply_Style p)) then (p, Some errInvalidStyleCode) else (p, None) in
  if negb (PollReply_Port p =? ArtNetPort) then
    let p := PollReply_set p (PollReply_ID p) (PollReply_OpCode p) (swapUint16 (PollReply_Port p)) in
    if negb (PollReply_Port p =? ArtNetPort)
    then (p, Some (errInvalidPort (PollReply_Port p)))
    else style p
  else style p.
(** packet/artpollreply.go:185-191 *)
Definition PollReply_finish (p : ArtPollReplyPacket) : ArtPollReplyPacket :=
  PollReply_set p ArtNet (swapUint16 OpPollReply) (swapUint16 (PollReply_Port p)).
(** packet/artpollreply.go:148-150 *)
Definition PollReply_MarshalBinary (p : ArtPollReplyPacket) : ArtPollReplyPacket * res (list N) :=
  marshalPacket PollReply_layout PollReply_vals PollReply_finish p.
(** packet/artpollreply.go:153-155 *)
Definition PollReply_UnmarshalBinary (p : ArtPollReplyPacket) (b : list N)
    : go (ArtPollReplyPacket * option goerr) :=
  Ret (unmarshalPacket PollReply_layout PollReply_of_vals PollReply_validate p b).

(** * packet/artsync.go *)

(** packet/artsync.go:28-34 *)
Record ArtSyncPacket := mkSync {
  Sync_Header : Header
}.
(** Field kinds in declaration order, packet/artsync.go:28-34. *)
Definition Sync_layout : list fkind :=
  Header_layout ++ [FBlank 2].
Definition Sync_vals (p : ArtSyncPacket) : vals Sync_layout :=
  (H_ID (Sync_Header p), (H_OpCode (Sync_Header p), (H_Version (Sync_Header p), tt))).
Definition Sync_of_vals (v : vals Sync_layout) : ArtSyncPacket :=
  let '(i, (o, (v, _))) := v in
  mkSync (mkHeader i o v) .
(** Zero value ArtSyncPacket{}; packet/artsync.go:37-39 NewArtSyncPacket. *)
Definition NewArtSyncPacket : ArtSyncPacket := mkSync Header_zero .
Definition Sync_set_Header (p : ArtSyncPacket) (h : Header) : ArtSyncPacket :=
  mkSync h .
(** packet/artsync.go:52-60 *)
Definition Sync_validate (p : ArtSyncPacket) : ArtSyncPacket * option goerr :=
  match Header_validate (Sync_Header p) with
  | (h, Some e) => (Sync_set_Header p h, Some e)
  | (h, None) =>
      let p := Sync_set_Header p h in
      if negb (H_OpCode (Sync_Header p) =? OpSync) then (p, Some errInvalidOpCode) else
      (p, None)
  end.
(** packet/artsync.go:63-65 *)
Definition Sync_finish (p : ArtSyncPacket) : ArtSyncPacket :=
  Sync_set_Header p (Header_finish (Sync_Header p)).
(** packet/artsync.go:42-44 *)
Definition Sync_MarshalBinary (p : ArtSyncPacket) : ArtSyncPacket * res (list N) :=
  marshalPacket Sync_layout Sync_vals Sync_finish p.
(** packet/artsync.go:47-49 *)
Definition Sync_UnmarshalBinary (p : ArtSyncPacket) (b : list N)
    : go (ArtSyncPacket * option goerr) :=
  Ret (unmarshalPacket Sync_layout Sync_of_vals Sync_validate p b).

(** * packet/artcommand.go *)

(** packet/artcommand.go:41-53 *)
Record ArtCommandPacket := mkCommand {
  Command_Header : Header;
  Command_ESTAmanufacturer : list N;
  Command_Length : N;
  Command_Data : list N
}.
(** Field kinds in declaration order, packet/artcommand.go:41-53. *)
Definition Command_layout : list fkind :=
  Header_layout ++ [FBytes 2; FU16; FBytes 512].
Definition Command_vals (p : ArtCommandPacket) : vals Command_layout :=
  (H_ID (Command_Header p), (H_OpCode (Command_Header p), (H_Version (Command_Header p), (Command_ESTAmanufacturer p, (Command_Length p, (Command_Data p, tt)))))).
Definition Command_of_vals (v : vals Command_layout) : ArtCommandPacket :=
  let '(i, (o, (v, (x0, (x1, (x2, _)))))) := v in
  mkCommand (mkHeader i o v) x0 x1 x2.
(** Zero value ArtCommandPacket{}; packet/artcommand.go:56-58 NewArtCommandPacket. *)
Definition NewArtCommandPacket : ArtCommandPacket := mkCommand Header_zero (zeros 2) 0 (zeros 512).
Definition Command_set_Header (p : ArtCommandPacket) (h : Header) : ArtCommandPacket :=
  mkCommand h (Command_ESTAmanufacturer p) (Command_Length p) (Command_Data p).
(** packet/artcommand.go:71-82 *)
Definition Command_validate (p : ArtCommandPacket) : ArtCommandPacket * option goerr :=
  match Header_validate (Command_Header p) with
  | (h, Some e) => (Command_set_Header p h, Some e)
  | (h, None) =>
      let p := Command_set_Header p h in
      if negb (H_OpCode (Command_Header p) =? OpCommand) then (p, Some errInvalidOpCode) else
      if negb (eqbytes (Command_ESTAmanufacturer p) [0xff; 0xff]) then (p, Some errInvalidPacket) else
      (p, None)
  end.
(** packet/artcommand.go:85-88 *)
Definition Command_finish (p : ArtCommandPacket) : ArtCommandPacket :=
  mkCommand (Header_finish (Command_Header p)) [0xff; 0xff] (Command_Length p) (Command_Data p).
(** packet/artcommand.go:61-63 *)
Definition Command_MarshalBinary (p : ArtCommandPacket) : ArtCommandPacket * res (list N) :=
  marshalPacket Command_layout Command_vals Command_finish p.
(** packet/artcommand.go:66-68 *)
Definition Command_UnmarshalBinary (p : ArtCommandPacket) (b : list N)
    : go (ArtCommandPacket * option goerr) :=
  Ret (unmarshalPacket Command_layout Command_of_vals Command_validate p b).

(** * packet/artaddress.go *)

(** packet/artaddress.go:28-72 *)
Record ArtAddressPacket := mkAddress {
  Address_Header : Header;
  Address_NetSwitch : N;
  Address_BindIndex : N;
  Address_ShortName : list N;
  Address_LongName : list N;
  Address_SwIn : list N;
  Address_SwOut : list N;
  Address_SubSwitch : N;
  Address_SwVideo : N;
  Address_Command : N
}.
(** Field kinds in declaration order, packet/artaddress.go:28-72. *)
Definition Address_layout : list fkind :=
  Header_layout ++ [FU8; FU8; FBytes 18; FBytes 64; FBytes 4; FBytes 4; FU8; FU8; FU8].
Definition Address_vals (p : ArtAddressPacket) : vals Address_layout :=
  (H_ID (Address_Header p), (H_OpCode (Address_Header p), (H_Version (Address_Header p), (Address_NetSwitch p, (Address_BindIndex p, (Address_ShortName p, (Address_LongName p, (Address_SwIn p, (Address_SwOut p, (Address_SubSwitch p, (Address_SwVideo p, (Address_Command p, tt)))))))))))).
Definition Address_of_vals (v : vals Address_layout) : ArtAddressPacket :=
  let '(i, (o, (v, (x0, (x1, (x2, (x3, (x4, (x5, (x6, (x7, (x8, _)))))))))))) := v in
  mkAddress (mkHeader i o v) x0 x1 x2 x3 x4 x5 x6 x7 x8.
(** Zero value ArtAddressPacket{}; packet/artaddress.go:75-77 NewArtAddressPacket. *)
Definition NewArtAddressPacket : ArtAddressPacket := mkAddress Header_zero 0 0 (zeros 18) (zeros 64) (zeros 4) (zeros 4) 0 0 0.
Definition Address_set_Header (p : ArtAddressPacket) (h : Header) : ArtAddressPacket :=
  mkAddress h (Address_NetSwitch p) (Address_BindIndex p) (Address_ShortName p) (Address_LongName p) (Address_SwIn p) (Address_SwOut p) (Address_SubSwitch p) (Address_SwVideo p) (Address_Command p).
(** packet/artaddress.go:90-98 *)
Definition Address_validate (p : ArtAddressPacket) : ArtAddressPacket * option goerr :=
  match Header_validate (Address_Header p) with
  | (h, Some e) => (Address_set_Header p h, Some e)
  | (h, None) =>
      let p := Address_set_Header p h in
      if negb (H_OpCode (Address_Header p) =? OpAddress) then (p, Some errInvalidOpCode) else
      (p, None)
  end.
(** packet/artaddress.go:101-103 *)
Definition Address_finish (p : ArtAddressPacket) : ArtAddressPacket :=
  Address_set_Header p (Header_finish (Address_Header p)).
(** packet/artaddress.go:80-82 *)
Definition Address_MarshalBinary (p : ArtAddressPacket) : ArtAddressPacket * res (list N) :=
  marshalPacket Address_layout Address_vals Address_finish p.
(** packet/artaddress.go:85-87 *)
Definition Address_UnmarshalBinary (p : ArtAddressPacket) (b : list N)
    : go (ArtAddressPacket * option goerr) :=
  Ret (unmarshalPacket Address_layout Address_of_vals Address_validate p b).

(** * packet/artipprogreply.go *)

(** packet/artipprogreply.go:26-47 *)
Record ArtIPProgReplyPacket := mkIPProgReply {
  IPProgReply_Header : Header;
  IPProgReply_ProgIP : list N;
  IPProgReply_ProgSubNet : list N;
  IPProgReply_ProgPort : list N;
  IPProgReply_Status : N
}.
(** Field kinds in declaration order, packet/artipprogreply.go:26-47. *)
Definition IPProgReply_layout : list fkind :=
  Header_layout ++ [FBlank 4; FBytes 4; FBytes 4; FBytes 2; FU8; FBlank 7].
Definition IPProgReply_vals (p : ArtIPProgReplyPacket) : vals IPProgReply_layout :=
  (H_ID (IPProgReply_Header p), (H_OpCode (IPProgReply_Header p), (H_Version (IPProgReply_Header p), (IPProgReply_ProgIP p, (IPProgReply_ProgSubNet p, (IPProgReply_ProgPort p, (IPProgReply_Status p, tt))))))).
Definition IPProgReply_of_vals (v : vals IPProgReply_layout) : ArtIPProgReplyPacket :=
  let '(i, (o, (v, (x0, (x1, (x2, (x3, _))))))) := v in
  mkIPProgReply (mkHeader i o v) x0 x1 x2 x3.
(** Zero value ArtIPProgReplyPacket{}; packet/artipprogreply.go:50-52 NewArtIPProgReplyPacket. *)
Definition NewArtIPProgReplyPacket : ArtIPProgReplyPacket := mkIPProgReply Header_zero (zeros 4) (zeros 4) (zeros 2) 0.
Definition IPProgReply_set_Header (p : ArtIPProgReplyPacket) (h : Header) : ArtIPProgReplyPacket :=
  mkIPProgReply h (IPProgReply_ProgIP p) (IPProgReply_ProgSubNet p) (IPProgReply_ProgPort p) (IPProgReply_Status p).
(** packet/artipprogreply.go:65-73 *)
Definition IPProgReply_validate (p : ArtIPProgReplyPacket) : ArtIPProgReplyPacket * option goerr :=
  match Header_validate (IPProgReply_Header p) with
  | (h, Some e) => (IPProgReply_set_Header p h, Some e)
  | (h, None) =>
      let p := IPProgReply_set_Header p h in
      if negb (H_OpCode (IPProgReply_Header p) =? OpIPProgReply) then (p, Some errInvalidOpCode) else
      (p, None)
  end.
(** packet/artipprogreply.go:76-78 *)
Definition IPProgReply_finish (p : ArtIPProgReplyPacket) : ArtIPProgReplyPacket :=
  IPProgReply_set_Header p (Header_finish (IPProgReply_Header p)).
(** packet/artipprogreply.go:55-57 *)
Definition IPProgReply_MarshalBinary (p : ArtIPProgReplyPacket) : ArtIPProgReplyPacket * res (list N) :=
  marshalPacket IPProgReply_layout IPProgReply_vals IPProgReply_finish p.
(** packet/artipprogreply.go:60-62 *)
Definition IPProgReply_UnmarshalBinary (p : ArtIPProgReplyPacket) (b : list N)
    : go (ArtIPProgReplyPacket * option goerr) :=
  Ret (unmarshalPacket IPProgReply_layout IPProgReply_of_vals IPProgReply_validate p b).

(** * packet/arttimecode.go *)

(** packet/arttimecode.go:27-48 *)
Record ArtTimeCodePacket := mkTimeCode {
  TimeCode_Header : Header;
  TimeCode_Frames : N;
  TimeCode_Seconds : N;
  TimeCode_Minutes : N;
  TimeCode_Hours : N;
  TimeCode_Type : N
}.
(** Field kinds in declaration order, packet/arttimecode.go:27-48. *)
Definition TimeCode_layout : list fkind :=
  Header_layout ++ [FBlank 2; FU8; FU8; FU8; FU8; FU8].
Definition TimeCode_vals (p : ArtTimeCodePacket) : vals TimeCode_layout :=
  (H_ID (TimeCode_Header p), (H_OpCode (TimeCode_Header p), (H_Version (TimeCode_Header p), (TimeCode_Frames p, (TimeCode_Seconds p, (TimeCode_Minutes p, (TimeCode_Hours p, (TimeCode_Type p, tt)))))))).
Definition TimeCode_of_vals (v : vals TimeCode_layout) : ArtTimeCodePacket :=
  let '(i, (o, (v, (x0, (x1, (x2, (x3, (x4, _)))))))) := v in
  mkTimeCode (mkHeader i o v) x0 x1 x2 x3 x4.
(** Zero value ArtTimeCodePacket{}; packet/arttimecode.go:51-53 NewArtTimeCodePacket. *)
Definition NewArtTimeCodePacket : ArtTimeCodePacket := mkTimeCode Header_zero 0 0 0 0 0.
Definition TimeCode_set_Header (p : ArtTimeCodePacket) (h : Header) : ArtTimeCodePacket :=
  mkTimeCode h (TimeCode_Frames p) (TimeCode_Seconds p) (TimeCode_Minutes p) (TimeCode_Hours p) (TimeCode_Type p).
(** packet/arttimecode.go:66-74 *)
Definition TimeCode_validate (p : ArtTimeCodePacket) : ArtTimeCodePacket * option goerr :=
  match Header_validate (TimeCode_Header p) with
  | (h, Some e) => (TimeCode_set_Header p h, Some e)
  | (h, None) =>
      let p := TimeCode_set_Header p h in
      if negb (H_OpCode (TimeCode_Header p) =? OpTimeCode) then (p, Some errInvalidOpCode) else
      (p, None)
  end.
(** packet/arttimecode.go:77-79 *)
Definition TimeCode_finish (p : ArtTimeCodePacket) : ArtTimeCodePacket :=
  TimeCode_set_Header p (Header_finish (TimeCode_Header p)).
(** packet/arttimecode.go:56-58 *)
Definition TimeCode_MarshalBinary (p : ArtTimeCodePacket) : ArtTimeCodePacket * res (list N) :=
  marshalPacket TimeCode_layout TimeCode_vals TimeCode_finish p.
(** packet/arttimecode.go:61-63 *)
Definition TimeCode_UnmarshalBinary (p : ArtTimeCodePacket) (b : list N)
    : go (ArtTimeCodePacket * option goerr) :=
  Ret (unmarshalPacket TimeCode_layout TimeCode_of_vals TimeCode_validate p b).

(** * packet/artdiagdata.go *)

(** packet/artdiagdata.go:25-43 *)
Record ArtDiagDataPacket := mkDiagData {
  DiagData_Header : Header;
  DiagData_Priority : N;
  DiagData_Length : N;
  DiagData_Data : list N
}.
(** Field kinds in declaration order, packet/artdiagdata.go:25-43. *)
Definition DiagData_layout : list fkind :=
  Header_layout ++ [FBlank 1; FU8; FBlank 2; FU16; FBytes 512].
Definition DiagData_vals (p : ArtDiagDataPacket) : vals DiagData_layout :=
  (H_ID (DiagData_Header p), (H_OpCode (DiagData_Header p), (H_Version (DiagData_Header p), (DiagData_Priority p, (DiagData_Length p, (DiagData_Data p, tt)))))).
Definition DiagData_of_vals (v : vals DiagData_layout) : ArtDiagDataPacket :=
  let '(i, (o, (v, (x0, (x1, (x2, _)))))) := v in
  mkDiagData (mkHeader i o v) x0 x1 x2.
(** Zero value ArtDiagDataPacket{}; packet/artdiagdata.go:46-48 NewArtDiagDataPacket. *)
Definition NewArtDiagDataPacket : ArtDiagDataPacket := mkDiagData Header_zero 0 0 (zeros 512).
Definition DiagData_set_Header (p : ArtDiagDataPacket) (h : Header) : ArtDiagDataPacket :=
  mkDiagData h (DiagData_Priority p) (DiagData_Length p) (DiagData_Data p).
(** packet/artdiagdata.go:61-69 *)
Definition DiagData_validate (p : ArtDiagDataPacket) : ArtDiagDataPacket * option goerr :=
  match Header_validate (DiagData_Header p) with
  | (h, Some e) => (DiagData_set_Header p h, Some e)
  | (h, None) =>
      let p := DiagData_set_Header p h in
      if negb (H_OpCode (DiagData_Header p) =? OpDiagData) then (p, Some errInvalidOpCode) else
      (p, None)
  end.
(** packet/artdiagdata.go:72-74 *)
Definition DiagData_finish (p : ArtDiagDataPacket) : ArtDiagDataPacket :=
  DiagData_set_Header p (Header_finish (DiagData_Header p)).
(** packet/artdiagdata.go:51-53 *)
Definition DiagData_MarshalBinary (p : ArtDiagDataPacket) : ArtDiagDataPacket * res (list N) :=
  marshalPacket DiagData_layout DiagData_vals DiagData_finish p.
(** packet/artdiagdata.go:56-58 *)
Definition DiagData_UnmarshalBinary (p : ArtDiagDataPacket) (b : list N)
    : go (ArtDiagDataPacket * option goerr) :=
  Ret (unmarshalPacket DiagData_layout DiagData_of_vals DiagData_validate p b).

(** * packet/artnzs.go *)

(** packet/artnzs.go:25-51 *)
Record ArtNzsPacket := mkNzs {
  Nzs_Header : Header;
  Nzs_Sequence : N;
  Nzs_StartCode : N;
  Nzs_SubUni : N;
  Nzs_Net : N;
  Nzs_Length : N;
  Nzs_Data : list N
}.
(** Field kinds in declaration order, packet/artnzs.go:25-51. *)
Definition Nzs_layout : list fkind :=
  Header_layout ++ [FU8; FU8; FU8; FU8; FU16; FBytes 512].
Definition Nzs_vals (p : ArtNzsPacket) : vals Nzs_layout :=
  (H_ID (Nzs_Header p), (H_OpCode (Nzs_Header p), (H_Version (Nzs_Header p), (Nzs_Sequence p, (Nzs_StartCode p, (Nzs_SubUni p, (Nzs_Net p, (Nzs_Length p, (Nzs_Data p, tt))))))))).
Definition Nzs_of_vals (v : vals Nzs_layout) : ArtNzsPacket :=
  let '(i, (o, (v, (x0, (x1, (x2, (x3, (x4, (x5, _))))))))) := v in
  mkNzs (mkHeader i o v) x0 x1 x2 x3 x4 x5.
(** Zero value ArtNzsPacket{}; packet/artnzs.go:54-56 NewArtNzsPacket. *)
Definition NewArtNzsPacket : ArtNzsPacket := mkNzs Header_zero 0 0 0 0 0 (zeros 512).
Definition Nzs_set_Header (p : ArtNzsPacket) (h : Header) : ArtNzsPacket :=
  mkNzs h (Nzs_Sequence p) (Nzs_StartCode p) (Nzs_SubUni p) (Nzs_Net p) (Nzs_Length p) (Nzs_Data p).
(** packet/artnzs.go:69-77 *)
Definition Nzs_validate (p : ArtNzsPacket) : ArtNzsPacket * option goerr :=
  match Header_validate (Nzs_Header p) with
  | (h, Some e) => (Nzs_set_Header p h, Some e)
  | (h, None) =>
      let p := Nzs_set_Header p h in
      if negb (H_OpCode (Nzs_Header p) =? OpNzs) then (p, Some errInvalidOpCode) else
      (p, None)
  end.
(** packet/artnzs.go:80-82 *)
Definition Nzs_finish (p : ArtNzsPacket) : ArtNzsPacket :=
  Nzs_set_Header p (Header_finish (Nzs_Header p)).
(** packet/artnzs.go:59-61 *)
Definition Nzs_MarshalBinary (p : ArtNzsPacket) : ArtNzsPacket * res (list N) :=
  marshalPacket Nzs_layout Nzs_vals Nzs_finish p.
(** packet/artnzs.go:64-66 *)
Definition Nzs_UnmarshalBinary (p : ArtNzsPacket) (b : list N)
    : go (ArtNzsPacket * option goerr) :=
  Ret (unmarshalPacket Nzs_layout Nzs_of_vals Nzs_validate p b).

(** * packet/artipprog.go *)

(** packet/artipprog.go:26-51 *)
Record ArtIPProgPacket := mkIPProg {
  IPProg_Header : Header;
  IPProg_Command : N;
  IPProg_ProgIP : list N;
  IPProg_ProgSubNet : list N;
  IPProg_ProgPort : list N
}.
(** Field kinds in declaration order, packet/artipprog.go:26-51. *)
Definition IPProg_layout : list fkind :=
  Header_layout ++ [FBlank 2; FU8; FBlank 1; FBytes 4; FBytes 4; FBytes 2; FBlank 8].
Definition IPProg_vals (p : ArtIPProgPacket) : vals IPProg_layout :=
  (H_ID (IPProg_Header p), (H_OpCode (IPProg_Header p), (H_Version (IPProg_Header p), (IPProg_Command p, (IPProg_ProgIP p, (IPProg_ProgSubNet p, (IPProg_ProgPort p, tt))))))).
Definition IPProg_of_vals (v : vals IPProg_layout) : ArtIPProgPacket :=
  let '(i, (o, (v, (x0, (x1, (x2, (x3, _))))))) := v in
  mkIPProg (mkHeader i o v) x0 x1 x2 x3.
(** Zero value ArtIPProgPacket{}; packet/artipprog.go:54-56 NewArtIPProgPacket. *)
Definition NewArtIPProgPacket : ArtIPProgPacket := mkIPProg Header_zero 0 (zeros 4) (zeros 4) (zeros 2).
Definition IPProg_set_Header (p : ArtIPProgPacket) (h : Header) : ArtIPProgPacket :=
  mkIPProg h (IPProg_Command p) (IPProg_ProgIP p) (IPProg_ProgSubNet p) (IPProg_ProgPort p).
(** packet/artipprog.go:69-77 *)
Definition IPProg_validate (p : ArtIPProgPacket) : ArtIPProgPacket * option goerr :=
  match Header_validate (IPProg_Header p) with
  | (h, Some e) => (IPProg_set_Header p h, Some e)
  | (h, None) =>
      let p := IPProg_set_Header p h in
      if negb (H_OpCode (IPProg_Header p) =? OpIPProg) then (p, Some errInvalidOpCode) else
      (p, None)
  end.
(** packet/artipprog.go:80-82 *)
Definition IPProg_finish (p : ArtIPProgPacket) : ArtIPProgPacket :=
  IPProg_set_Header p (Header_finish (IPProg_Header p)).
(** packet/artipprog.go:59-61 *)
Definition IPProg_MarshalBinary (p : ArtIPProgPacket) : ArtIPProgPacket * res (list N) :=
  marshalPacket IPProg_layout IPProg_vals IPProg_finish p.
(** packet/artipprog.go:64-66 *)
Definition IPProg_UnmarshalBinary (p : ArtIPProgPacket) (b : list N)
    : go (ArtIPProgPacket * option goerr) :=
  Ret (unmarshalPacket IPProg_layout IPProg_of_vals IPProg_validate p b).

(** * packet/arttrigger.go *)

(** packet/arttrigger.go:51-69 *)
Record ArtTriggerPacket := mkTrigger {
  Trigger_Header : Header;
  Trigger_Oem : N;
  Trigger_Key : N;
  Trigger_SubKey : N;
  Trigger_Data : list N
}.
(** Field kinds in declaration order, packet/arttrigger.go:51-69. *)
Definition Trigger_layout : list fkind :=
  Header_layout ++ [FBlank 2; FU16; FU8; FU8; FBytes 512].
Definition Trigger_vals (p : ArtTriggerPacket) : vals Trigger_layout :=
  (H_ID (Trigger_Header p), (H_OpCode (Trigger_Header p), (H_Version (Trigger_Header p), (Trigger_Oem p, (Trigger_Key p, (Trigger_SubKey p, (Trigger_Data p, tt))))))).
Definition Trigger_of_vals (v : vals Trigger_layout) : ArtTriggerPacket :=
  let '(i, (o, (v, (x0, (x1, (x2, (x3, _))))))) := v in
  mkTrigger (mkHeader i o v) x0 x1 x2 x3.
(** Zero value ArtTriggerPacket{}; packet/arttrigger.go:72-74 NewArtTriggerPacket. *)
Definition NewArtTriggerPacket : ArtTriggerPacket := mkTrigger Header_zero 0 0 0 (zeros 512).
Definition Trigger_set_Header (p : ArtTriggerPacket) (h : Header) : ArtTriggerPacket :=
  mkTrigger h (Trigger_Oem p) (Trigger_Key p) (Trigger_SubKey p) (Trigger_Data p).
(** packet/arttrigger.go:87-95 *)
Definition Trigger_validate (p : ArtTriggerPacket) : ArtTriggerPacket * option goerr :=
  match Header_validate (Trigger_Header p) with
  | (h, Some e) => (Trigger_set_Header p h, Some e)
  | (h, None) =>
      let p := Trigger_set_Header p h in
      if negb (H_OpCode (Trigger_Header p) =? OpTrigger) then (p, Some errInvalidOpCode) else
      (p, None)
  end.
(** packet/arttrigger.go:98-100 *)
Definition Trigger_finish (p : ArtTriggerPacket) : ArtTriggerPacket :=
  Trigger_set_Header p (Header_finish (Trigger_Header p)).
(** packet/arttrigger.go:77-79 *)
Definition Trigger_MarshalBinary (p : ArtTriggerPacket) : ArtTriggerPacket * res (list N) :=
  marshalPacket Trigger_layout Trigger_vals Trigger_finish p.
(** packet/arttrigger.go:82-84 *)
Definition Trigger_UnmarshalBinary (p : ArtTriggerPacket) (b : list N)
    : go (ArtTriggerPacket * option goerr) :=
  Ret (unmarshalPacket Trigger_layout Trigger_of_vals Trigger_validate p b).

(** * packet/packet.go *)

(** A non-nil value of the interface ArtNetPacket (packet/header.go:25-31): a pointer to one of the
    twelve implementing structs. *)
Inductive packet : Type :=
| PktPoll (p : ArtPollPacket)
| PktPollReply (p : ArtPollReplyPacket)
| PktDiagData (p : ArtDiagDataPacket)
| PktCommand (p : ArtCommandPacket)
| PktDMX (p : ArtDMXPacket)
| PktNzs (p : ArtNzsPacket)
| PktSync (p : ArtSyncPacket)
| PktAddress (p : ArtAddressPacket)
| PktTimeCode (p : ArtTimeCodePacket)
| PktTrigger (p : ArtTriggerPacket)
| PktIPProg (p : ArtIPProgPacket)
| PktIPProgReply (p : ArtIPProgReplyPacket).

(** GetOpCode through the interface: packet/header.go:54-56 by embedding, artpollreply.go:143-145. *)
Definition GetOpCode (p : packet) : N :=
  match p with
  | PktPoll p => Header_GetOpCode (Poll_Header p)
  | PktPollReply p => PollReply_GetOpCode p
  | PktDiagData p => Header_GetOpCode (DiagData_Header p)
  | PktCommand p => Header_GetOpCode (Command_Header p)
  | PktDMX p => Header_GetOpCode (DMX_Header p)
  | PktNzs p => Header_GetOpCode (Nzs_Header p)
  | PktSync p => Header_GetOpCode (Sync_Header p)
  | PktAddress p => Header_GetOpCode (Address_Header p)
  | PktTimeCode p => Header_GetOpCode (TimeCode_Header p)
  | PktTrigger p => Header_GetOpCode (Trigger_Header p)
  | PktIPProg p => Header_GetOpCode (IPProg_Header p)
  | PktIPProgReply p => Header_GetOpCode (IPProgReply_Header p)
  end.

(** MarshalBinary through the interface. *)
Definition MarshalBinary (p : packet) : packet * res (list N) :=
  match p with
  | PktPoll p => let '(p, r) := Poll_MarshalBinary p in (PktPoll p, r)
  | PktPollReply p => let '(p, r) := PollReply_MarshalBinary p in (PktPollReply p, r)
  | PktDiagData p => let '(p, r) := DiagData_MarshalBinary p in (PktDiagData p, r)
  | PktCommand p => let '(p, r) := Command_MarshalBinary p in (PktCommand p, r)
  | PktDMX p => let '(p, r) := DMX_MarshalBinary p in (PktDMX p, r)
  | PktNzs p => let '(p, r) := Nzs_MarshalBinary p in (PktNzs p, r)
  | PktSync p => let '(p, r) := Sync_MarshalBinary p in (PktSync p, r)
  | PktAddress p => let '(p, r) := Address_MarshalBinary p in (PktAddress p, r)
  | PktTimeCode p => let '(p, r) := TimeCode_MarshalBinary p in (PktTimeCode p, r)
  | PktTrigger p => let '(p, r) := Trigger_MarshalBinary p in (PktTrigger p, r)
  | PktIPProg p => let '(p, r) := IPProg_MarshalBinary p in (PktIPProg p, r)
  | PktIPProgReply p => let '(p, r) := IPProgReply_MarshalBinary p in (PktIPProgReply p, r)
  end.

(** UnmarshalBinary through the interface. *)
Definition UnmarshalBinary (p : packet) (b : list N) : go (packet * option goerr) :=
  match p with
  | PktPoll p => do r <- Poll_UnmarshalBinary p b; Ret (PktPoll (fst r), snd r)
  | PktPollReply p => do r <- PollReply_UnmarshalBinary p b; Ret (PktPollReply (fst r), snd r)
  | PktDiagData p => do r <- DiagData_UnmarshalBinary p b; Ret (PktDiagData (fst r), snd r)
  | PktCommand p => do r <- Command_UnmarshalBinary p b; Ret (PktCommand (fst r), snd r)
  | PktDMX p => do r <- DMX_UnmarshalBinary p b; Ret (PktDMX (fst r), snd r)
  | PktNzs p => do r <- Nzs_UnmarshalBinary p b; Ret (PktNzs (fst r), snd r)
  | PktSync p => do r <- Sync_UnmarshalBinary p b; Ret (PktSync (fst r), snd r)
  | PktAddress p => do r <- Address_UnmarshalBinary p b; Ret (PktAddress (fst r), snd r)
  | PktTimeCode p => do r <- TimeCode_UnmarshalBinary p b; Ret (PktTimeCode (fst r), snd r)
  | PktTrigger p => do r <- Trigger_UnmarshalBinary p b; Ret (PktTrigger (fst r), snd r)
  | PktIPProg p => do r <- IPProg_UnmarshalBinary p b; Ret (PktIPProg (fst r), snd r)
  | PktIPProgReply p => do r <- IPProgReply_UnmarshalBinary p b; Ret (PktIPProgReply (fst r), snd r)
  end.

(** packet/packet.go:48-69, the case list of known but not implemented opcodes. *)
Definition notImplementedOps : list N :=
  [OpDirectory; OpDirectoryReply; OpFileFnMaster; OpFileFnReply;
   OpFileTnMaster; OpFirmwareMaster; OpFirmwareReply; OpMacMaster;
   OpMacSlave; OpMedia; OpMediaContrlReply; OpMediaControl;
   OpMediaPatch; OpRdm; OpRdmSub; OpTimeSync;
   OpTodControl; OpTodData; OpVideoData; OpVideoPalette;
   OpVideoSetup; OpTodRequest].

(** packet/packet.go:10-77. The results are (p, err); p is nil ([None]) unless one of the
    [p = &T{}] branches was taken. The switch is modelled as an if-chain (its cases are distinct
    constants). *)
Definition Unmarshal (b : list N) : go (option packet * option goerr) :=
  do r <- Header_unmarshal Header_zero b;
  match r with
  | (_, Some e) => Ret (None, Some e)
  | (h, None) =>
      let op := H_OpCode h in
      let body p := do r <- UnmarshalBinary p b; Ret (Some (fst r), snd r) in
      if op =? OpPoll then body (PktPoll NewArtPollPacket)
      else if op =? OpPollReply then body (PktPollReply NewArtPollReplyPacket)
      else if op =? OpDiagData then body (PktDiagData NewArtDiagDataPacket)
      else if op =? OpCommand then body (PktCommand NewArtCommandPacket)
      else if op =? OpDMX then body (PktDMX NewArtDMXPacket)
      else if op =? OpNzs then body (PktNzs NewArtNzsPacket)
      else if op =? OpSync then body (PktSync NewArtSyncPacket)
      else if op =? OpAddress then body (PktAddress NewArtAddressPacket)
      else if op =? OpInput then Ret (None, Some (errUnimplemented op))
      else if op =? OpTimeCode then body (PktTimeCode NewArtTimeCodePacket)
      else if op =? OpTrigger then body (PktTrigger NewArtTriggerPacket)
      else if op =? OpIPProg then body (PktIPProg NewArtIPProgPacket)
      else if op =? OpIPProgReply then body (PktIPProgReply NewArtIPProgReplyPacket)
      else if existsb (N.eqb op) notImplementedOps then Ret (None, Some (errNotImplementedOpCode op))
      else Ret (None, Some (errInvalidOpCodeOf op))
  end.
