(** Model of /repo/config.go: universe addresses, node configurations, and the two conversions
    between a NodeConfig and an ArtPollReplyPacket.

    Simplifications: Go strings, net.IP and net.HardwareAddr are byte lists (nil and empty are
    identified: the code never distinguishes them); InputPort and OutputPort, two Go structs with
    the same three fields (the third of type GoodInput resp. GoodOutput, both uint8), share one
    record; fmt.Errorf messages are constructors carrying the interpolated values. *)
From Coq Require Import DecimalString.
From Coq Require Export String Ascii.
From Verif Require Export Packets.
Open Scope list_scope.
Open Scope N_scope.

(** Go standard library, net.IP.To4: a 4-byte address is itself, a 16-byte IPv4-mapped address is
    its last four bytes, anything else is nil. *)
Definition To4 (ip : list N) : list N :=
  if len ip =? 4 then ip
  else if (len ip =? 16) && eqbytes (firstn 10 ip) (zeros 10) && (nth 10 ip 0 =? 0xff) && (nth 11 ip 0 =? 0xff)
       then skipn 12 ip
       else [].

(** Go: string(c) for a byte c is the UTF-8 encoding of the code point c. *)
Definition utf8_of_byte (c : N) : list N :=
  if c <? 0x80 then [c] else [N.lor 0xc0 (N.shiftr c 6); N.lor 0x80 (N.land c 0x3f)].

(** config.go:12-15 Address: the pair (Net, SubUni). *)
Definition Address : Type := N * N.
Definition A_Net (a : Address) : N := fst a.
Definition A_SubUni (a : Address) : N := snd a.

(** config.go:18-20 *)
Definition Address_String (a : Address) : string :=
  (sprint_d (A_Net a) ++ ":" ++ sprint_d (N.shiftr (A_SubUni a) 4) ++ "." ++
   sprint_d (N.land (A_SubUni a) 0x0f))%string.

(** config.go:23-25 *)
Definition Address_Integer (a : Address) : N :=
  N.lor (u16 (N.shiftl (A_Net a) 8)) (A_SubUni a).

(** config.go:28-32 InputPort, config.go:35-39 OutputPort *)
Record Port := mkPort { P_Address : Address; P_Type : N; P_Status : N }.

(** config.go:42-64 *)
Record NodeConfig := mkConfig {
  C_OEM : N;
  C_Version : N;
  C_BiosVersion : N;
  C_Manufacturer : list N;
  C_Type : N;
  C_Name : list N;
  C_Description : list N;
  C_Ethernet : list N;
  C_IP : list N;
  C_BindIP : list N;
  C_BindIndex : N;
  C_Port : N;
  C_Report : list N;
  C_Status1 : N;
  C_Status2 : N;
  C_BaseAddress : Address;
  C_InputPorts : list Port;
  C_OutputPorts : list Port
}.

(** len of a slice of ports *)
Definition plen (l : list Port) : N := N.of_nat (length l).

(** config.go:98-103 *)
Definition NumberOfPorts (c : NodeConfig) : N :=
  if plen (C_OutputPorts c) <? plen (C_InputPorts c)
  then u16 (plen (C_InputPorts c)) else u16 (plen (C_OutputPorts c)).

(** config.go:110-119: the body of the loop, giving rsl[i]. [nth_error l i = None] iff len(l) <= i. *)
Definition PortTypes_at (c : NodeConfig) (i : nat) : N :=
  let rsl := 0 in
  let tmp := 0 in
  let '(tmp, rsl) :=
    match nth_error (C_InputPorts c) i with
    | Some port => let tmp := PortType_WithInput tmp true in
                   (tmp, PortType_WithType tmp (PortType_Type (P_Type port)))
    | None => (tmp, rsl)
    end in
  match nth_error (C_OutputPorts c) i with
  | Some port => let tmp := PortType_WithOutput tmp true in
                 PortType_WithType tmp (PortType_Type (P_Type port))
  | None => rsl
  end.
(** config.go:107-121 *)
Definition PortTypes (c : NodeConfig) : list N := map (PortTypes_at c) [0; 1; 2; 3]%nat.

(** config.go:68-94. The opcode is code.OpPollReply, the port packet.ArtNetPort; fields not listed
    in the Go literal are zero. The slice bounds [0:n] of the destinations are constants checked
    by the compiler. *)
Definition ArtPollReplyFromConfig (c : NodeConfig) : ArtPollReplyPacket :=
  mkPollReply (zeros 8) OpPollReply
    (go_copy (zeros 4) (To4 (C_IP c)))
    ArtNetPort
    (C_Version c)
    (A_Net (C_BaseAddress c))
    (A_SubUni (C_BaseAddress c))
    (C_OEM c)
    (C_BiosVersion c)
    (C_Status1 c)
    (go_copy (zeros 2) (C_Manufacturer c))
    (go_copy (zeros 18) (C_Name c))
    (go_copy (zeros 64) (C_Description c))
    (go_copy (zeros 64) (C_Report c))
    (NumberOfPorts c)
    (PortTypes c)
    (zeros 4) (zeros 4) (zeros 4) (zeros 4)
    0 0 0
    (C_Type c)
    (go_copy (zeros 6) (C_Ethernet c))
    (go_copy (zeros 4) (To4 (C_BindIP c)))
    (C_BindIndex c)
    (C_Status2 c).

(** config.go:130-152 errors, with the values interpolated in the message. *)
Inductive cfgerr : Type :=
| errTooManyInputs (n : N)
| errTooManyOutputs (n : N)
| errPortTypeMismatch (tin : string) (iin : N) (tout : string) (iout : N).

(** config.go:132, 135, 142-148: the message, with %d and %s filled in. *)
Definition cfgerr_Error (e : cfgerr) : string :=
  (match e with
   | errTooManyInputs n => "validation error: more than 4 input ports configured (" ++ sprint_d n ++ ") for the node, this isn't supported by the library"
   | errTooManyOutputs n => "validation error: more than 4 output ports configured (" ++ sprint_d n ++ ") for the node, this isn't supported by the library"
   | errPortTypeMismatch tin iin tout iout =>
       "validation error: the type (" ++ tin ++ ") of input port " ++ sprint_d iin ++ " has a different type (" ++ tout ++ ") than output port " ++ sprint_d iout ++
       ", input and output ports with the same index must have the same type"
   end)%string.
(** config.go:137-150: the loop over i = 0..3. *)
Fixpoint validate_loop (c : NodeConfig) (is : list nat) : option cfgerr :=
  match is with
  | [] => None
  | i :: is =>
      match nth_error (C_InputPorts c) i, nth_error (C_OutputPorts c) i with
      | Some inp, Some outp =>
          if negb (PortType_Type (P_Type inp) =? PortType_Type (P_Type outp))%string
          then Some (errPortTypeMismatch (PortType_Type (P_Type inp)) (N.of_nat i + 1)
                       (PortType_Type (P_Type outp)) (N.of_nat i + 1))
          else validate_loop c is
      | _, _ => validate_loop c is   (* continue *)
      end
  end.
(** config.go:130-152. The message for too many output ports interpolates len(c.InputPorts). *)
Definition validate (c : NodeConfig) : option cfgerr :=
  if 4 <? plen (C_InputPorts c) then Some (errTooManyInputs (plen (C_InputPorts c)))
  else if 4 <? plen (C_OutputPorts c) then Some (errTooManyOutputs (plen (C_InputPorts c)))
  else validate_loop c [0; 1; 2; 3]%nat.

(** config.go:206-214 *)
Fixpoint decodeString (b : list N) : list N :=
  match b with
  | [] => []
  | c :: b => if c =? 0 then [] else utf8_of_byte c ++ decodeString b
  end.

(** config.go:178-199: one iteration; the state is (OutputPorts, InputPorts). *)
Definition cfg_body (p : ArtPollReplyPacket) (base : Address) (i : nat) (st : list Port * list Port)
    : go (list Port * list Port) :=
  let '(outs, ins) := st in
  do pt <- go_index (PollReply_PortTypes p) i;
  do outs <- (if PortType_Output pt then
      do sw <- go_index (PollReply_SwOut p) i;
      do good <- go_index (PollReply_GoodOutput p) i;
      Ret (outs ++ [mkPort (A_Net base, N.lor (A_SubUni base) sw) pt good])
    else Ret outs);
  do ins <- (if PortType_Input pt then
      do sw <- go_index (PollReply_SwIn p) i;
      do good <- go_index (PollReply_GoodInput p) i;
      Ret (ins ++ [mkPort (A_Net base, N.lor (A_SubUni base) sw) pt good])
    else Ret ins);
  Ret (outs, ins).
(** config.go:178: for i := 0; i < int(p.NumPorts) && i < 4; i++ — the bound 4 is the index list. *)
Fixpoint cfg_loop (p : ArtPollReplyPacket) (base : Address) (is : list nat) (st : list Port * list Port)
    : go (list Port * list Port) :=
  match is with
  | [] => Ret st
  | i :: is => if N.of_nat i <? PollReply_NumPorts p
               then do st <- cfg_body p base i st; cfg_loop p base is st
               else Ret st
  end.
(** config.go:155-202. p.X[:] of an array field is its contents; the parameter p is a copy, so
    nothing aliases it afterwards. *)
Definition ConfigFromArtPollReply (p : ArtPollReplyPacket) : go NodeConfig :=
  let base := (PollReply_NetSwitch p, PollReply_SubSwitch p) in
  do st <- cfg_loop p base [0; 1; 2; 3]%nat ([], []);
  let '(outs, ins) := st in
  Ret (mkConfig
    (PollReply_Oem p)
    (PollReply_VersionInfo p)
    (PollReply_UBEAVersion p)
    (decodeString (PollReply_ESTAmanufacturer p))
    (PollReply_Style p)
    (decodeString (PollReply_ShortName p))
    (decodeString (PollReply_LongName p))
    (PollReply_Macaddress p)
    (PollReply_IPAddress p)
    (PollReply_BindIP p)
    (PollReply_BindIndex p)
    (PollReply_Port p)
    (PollReply_NodeReport p)
    (PollReply_Status1 p)
    (PollReply_Status2 p)
    base ins outs).
