(** The test vectors of the project's own unit tests (the _test.go files under packet/ and version/), transcribed by a script, evaluated on the model. These are tests of the model, not proofs: they show that the
    translation of the packet code agrees with the code on every input the authors wrote down. The statements are those of the test loops: MarshalBinary returns exactly the bytes and no error;
    UnmarshalBinary into a zero packet returns exactly the error, and on success exactly the packet. *)
From Verif Require Import Packets.
Open Scope N_scope.

(** The result of a test that expects no error. *)
Definition decodes {A} (r : go (A * option goerr)) (p : A) : Prop := r = Ret (p, None).
(** The result of a test that expects an error. *)
Definition fails_with {A} (r : go (A * option goerr)) (e : goerr) : Prop := match r with Ret (_, Some e') => e' = e | _ => False end.

(** packet/artdmx_test.go, TestArtDMXPacketMarshal, case Empty *)
Example DMX_marshal_Empty : snd (DMX_MarshalBinary (mkDMX (mkHeader ArtNet OpDMX version_Bytes) 0 0 0 0 0 (zeros 512))) =
  Ok ([65; 114; 116; 45; 78; 101; 116; 0; 0; 80; 0; 14; 0; 0; 0; 0; 2] ++ zeros 513).
Proof. vm_compute. reflexivity. Qed.
(** packet/artdmx_test.go, TestArtDMXPacketMarshal, case DMXControl3-WithCh123to255 *)
Example DMX_marshal_DMXControl3_WithCh123to255 : snd (DMX_MarshalBinary (mkDMX (mkHeader ArtNet OpDMX version_Bytes) 63 0 0 0 0 ([255; 255; 255] ++ zeros 509))) =
  Ok ([65; 114; 116; 45; 78; 101; 116; 0; 0; 80; 0; 14; 63; 0; 0; 0; 2; 0; 255; 255; 255] ++ zeros 509).
Proof. vm_compute. reflexivity. Qed.
(** packet/artdmx_test.go, TestArtDMXPacketUnmarshal, case Empty *)
Example DMX_unmarshal_Empty : fails_with (DMX_UnmarshalBinary NewArtDMXPacket ([65; 114; 116; 45; 78; 101; 116; 0; 0; 80; 0; 14] ++ zeros 4084)) errInvalidPacket.
Proof. vm_compute. reflexivity. Qed.
(** packet/artdmx_test.go, TestArtDMXPacketUnmarshal, case DMXControl3-WithCh123to255 *)
Example DMX_unmarshal_DMXControl3_WithCh123to255 : decodes (DMX_UnmarshalBinary NewArtDMXPacket ([65; 114; 116; 45; 78; 101; 116; 0; 0; 80; 0; 14; 63; 0; 0; 0; 2; 0; 255; 255; 255] ++ zeros 4075))
  (mkDMX (mkHeader ArtNet OpDMX version_Bytes) 63 0 0 0 512 ([255; 255; 255] ++ zeros 509)).
Proof. vm_compute. reflexivity. Qed.
(** packet/artdmx_test.go, TestArtDMXPacketUnmarshal, case Short-WithCh123to255 *)
Example DMX_unmarshal_Short_WithCh123to255 : decodes (DMX_UnmarshalBinary NewArtDMXPacket ([65; 114; 116; 45; 78; 101; 116; 0; 0; 80; 0; 14; 63; 0; 0; 0; 0; 4; 255; 255; 255] ++ zeros 4075))
  (mkDMX (mkHeader ArtNet OpDMX version_Bytes) 63 0 0 0 4 ([255; 255; 255] ++ zeros 509)).
Proof. vm_compute. reflexivity. Qed.
(** packet/artpoll_test.go, TestArtPollPacketMarshal, case Empty *)
Example Poll_marshal_Empty : snd (Poll_MarshalBinary (mkPoll (mkHeader ArtNet OpPoll version_Bytes) 0 0)) =
  Ok ([65; 114; 116; 45; 78; 101; 116; 0; 0; 32; 0; 14; 0; 0]).
Proof. vm_compute. reflexivity. Qed.
(** packet/artpoll_test.go, TestArtPollPacketMarshal, case WithDiagnosticsPrioLow *)
Example Poll_marshal_WithDiagnosticsPrioLow : snd (Poll_MarshalBinary (mkPoll (mkHeader ArtNet OpPoll version_Bytes) (TalkToMe_WithDiagnostics 0 true) DpLow)) =
  Ok ([65; 114; 116; 45; 78; 101; 116; 0; 0; 32; 0; 14; 4; 16]).
Proof. vm_compute. reflexivity. Qed.
(** packet/artpoll_test.go, TestArtPollPacketMarshal, case WithDiagnosticsUniPrioMedium *)
Example Poll_marshal_WithDiagnosticsUniPrioMedium : snd (Poll_MarshalBinary (mkPoll (mkHeader ArtNet OpPoll version_Bytes) (TalkToMe_WithDiagUnicast (TalkToMe_WithDiagnostics 0 true) true) DpMed)) =
  Ok ([65; 114; 116; 45; 78; 101; 116; 0; 0; 32; 0; 14; 12; 64]).
Proof. vm_compute. reflexivity. Qed.
(** packet/artpoll_test.go, TestArtPollPacketMarshal, case WithReplyOnChangeVlcPrioVolatile *)
Example Poll_marshal_WithReplyOnChangeVlcPrioVolatile : snd (Poll_MarshalBinary (mkPoll (mkHeader ArtNet OpPoll version_Bytes) (TalkToMe_WithVLC (TalkToMe_WithReplyOnChange 0 true) true) DpVolatile)) =
  Ok ([65; 114; 116; 45; 78; 101; 116; 0; 0; 32; 0; 14; 18; 240]).
Proof. vm_compute. reflexivity. Qed.
(** packet/artpoll_test.go, TestArtPollPacketMarshal, case ArtNetominator *)
Example Poll_marshal_ArtNetominator : snd (Poll_MarshalBinary (mkPoll (mkHeader ArtNet OpPoll ([0; 14])) (TalkToMe_WithReplyOnChange 0 false) DpAll)) =
  Ok ([65; 114; 116; 45; 78; 101; 116; 0; 0; 32; 0; 14; 0; 0]).
Proof. vm_compute. reflexivity. Qed.
(** packet/artpoll_test.go, TestArtPollPacketMarshal, case DMXControl3 *)
Example Poll_marshal_DMXControl3 : snd (Poll_MarshalBinary (mkPoll (mkHeader ArtNet OpPoll ([0; 14])) (TalkToMe_WithReplyOnChange 0 true) DpCritical)) =
  Ok ([65; 114; 116; 45; 78; 101; 116; 0; 0; 32; 0; 14; 2; 224]).
Proof. vm_compute. reflexivity. Qed.
(** packet/artpoll_test.go, TestArtPollPacketUnmarshal, case Empty *)
Example Poll_unmarshal_Empty : decodes (Poll_UnmarshalBinary NewArtPollPacket ([65; 114; 116; 45; 78; 101; 116; 0; 0; 32; 0; 14; 0; 0]))
  (mkPoll (mkHeader ArtNet OpPoll version_Bytes) 0 0).
Proof. vm_compute. reflexivity. Qed.
(** packet/artpoll_test.go, TestArtPollPacketUnmarshal, case WithDiagnosticsPrioLow *)
Example Poll_unmarshal_WithDiagnosticsPrioLow : decodes (Poll_UnmarshalBinary NewArtPollPacket ([65; 114; 116; 45; 78; 101; 116; 0; 0; 32; 0; 14; 4; 16]))
  (mkPoll (mkHeader ArtNet OpPoll version_Bytes) (TalkToMe_WithDiagnostics 0 true) DpLow).
Proof. vm_compute. reflexivity. Qed.
(** packet/artpoll_test.go, TestArtPollPacketUnmarshal, case WithDiagnosticsUniPrioMedium *)
Example Poll_unmarshal_WithDiagnosticsUniPrioMedium : decodes (Poll_UnmarshalBinary NewArtPollPacket ([65; 114; 116; 45; 78; 101; 116; 0; 0; 32; 0; 14; 12; 64]))
  (mkPoll (mkHeader ArtNet OpPoll version_Bytes) (TalkToMe_WithDiagUnicast (TalkToMe_WithDiagnostics 0 true) true) DpMed).
Proof. vm_compute. reflexivity. Qed.
(** packet/artpoll_test.go, TestArtPollPacketUnmarshal, case WithReplyOnChangeVlcPrioVolatile *)
Example Poll_unmarshal_WithReplyOnChangeVlcPrioVolatile : decodes (Poll_UnmarshalBinary NewArtPollPacket ([65; 114; 116; 45; 78; 101; 116; 0; 0; 32; 0; 14; 18; 240]))
  (mkPoll (mkHeader ArtNet OpPoll version_Bytes) (TalkToMe_WithVLC (TalkToMe_WithReplyOnChange 0 true) true) DpVolatile).
Proof. vm_compute. reflexivity. Qed.
(** packet/artpoll_test.go, TestArtPollPacketUnmarshal, case ArtNetominator *)
Example Poll_unmarshal_ArtNetominator : decodes (Poll_UnmarshalBinary NewArtPollPacket ([65; 114; 116; 45; 78; 101; 116; 0; 0; 32; 0; 14; 0; 0]))
  (mkPoll (mkHeader ArtNet OpPoll ([0; 14])) (TalkToMe_WithReplyOnChange 0 false) DpAll).
Proof. vm_compute. reflexivity. Qed.
(** packet/artpoll_test.go, TestArtPollPacketUnmarshal, case DMXControl3 *)
Example Poll_unmarshal_DMXControl3 : decodes (Poll_UnmarshalBinary NewArtPollPacket ([65; 114; 116; 45; 78; 101; 116; 0; 0; 32; 0; 14; 2; 224]))
  (mkPoll (mkHeader ArtNet OpPoll ([0; 14])) (TalkToMe_WithReplyOnChange 0 true) DpCritical).
Proof. vm_compute. reflexivity. Qed.
(** packet/artpollreply_test.go, TestArtPollReplyPacketMarshal, case Empty *)
Example PollReply_marshal_Empty : snd (PollReply_MarshalBinary (mkPollReply ArtNet OpPollReply (zeros 4) ArtNetPort 0 0 0 0 0 0 (zeros 2) (zeros 18) (zeros 64) (zeros 64) 0 (zeros 4) (zeros 4) (zeros 4) (zeros 4) (zeros 4) 0 0 0 0 (zeros 6) (zeros 4) 0 0)) =
  Ok ([65; 114; 116; 45; 78; 101; 116; 0; 0; 33; 0; 0; 0; 0; 54; 25] ++ zeros 223).
Proof. vm_compute. reflexivity. Qed.
(** packet/artpollreply_test.go, TestArtPollReplyPacketMarshal, case WithInfo *)
Example PollReply_marshal_WithInfo : snd (PollReply_MarshalBinary (mkPollReply ArtNet OpPollReply ([10; 1; 1; 1]) ArtNetPort 61453 235 190 52428 170 (Status1_WithUBEA 0 true) ([255; 255]) ([49; 50; 51; 52; 53; 54; 55; 56; 57; 48; 49; 50; 51; 52; 53; 54; 55; 56]) ([65; 66; 67; 68; 69; 70; 71; 72; 73; 74; 75; 76; 77; 78; 79; 80; 65; 66; 67; 68; 69; 70; 71; 72; 73; 74; 75; 76; 77; 78; 79; 80; 65; 66; 67; 68; 69; 70; 71; 72; 73; 74; 75; 76; 77; 78; 79; 80; 65; 66; 67; 68; 69; 70; 71; 72; 73; 74; 75; 76; 77; 78; 79; 80]) ([RcFactoryRes] ++ zeros 63) 65535 [(PortType_WithType 0 "DMX512"%string); (PortType_WithType 0 "DMX512"%string); (PortType_WithType 0 "DMX512"%string); (PortType_WithType 0 "DMX512"%string)] [(GoodInput_WithReceive 0 true); (GoodInput_WithReceive 0 false); (GoodInput_WithReceive 0 false); (GoodInput_WithReceive 0 false)] [(GoodOutput_WithACN 0 true); (GoodOutput_WithACN 0 false); (GoodOutput_WithACN 0 false); (GoodOutput_WithACN 0 false)] ([32; 64; 96; 128]) ([16; 48; 80; 112]) 255 (SwMacro_WithMacro1 0 true) (SwRemote_WithRemote1 0 true) StController ([0; 80; 86; 192; 0; 2]) ([10; 1; 1; 1]) 238 (Status2_WithBrowser 0 true))) =
  Ok ([65; 114; 116; 45; 78; 101; 116; 0; 0; 33; 10; 1; 1; 1; 54; 25; 240; 13; 235; 190; 204; 204; 170; 1; 255; 255; 49; 50; 51; 52; 53; 54; 55; 56; 57; 48; 49; 50; 51; 52; 53; 54; 55; 56; 65; 66; 67; 68; 69; 70; 71; 72; 73; 74; 75; 76; 77; 78; 79; 80; 65; 66; 67; 68; 69; 70; 71; 72; 73; 74; 75; 76; 77; 78; 79; 80; 65; 66; 67; 68; 69; 70; 71; 72; 73; 74; 75; 76; 77; 78; 79; 80; 65; 66; 67; 68; 69; 70; 71; 72; 73; 74; 75; 76; 77; 78; 79; 80; 16] ++ zeros 63 ++ [255; 255; 0; 0; 0; 0; 4; 0; 0; 0; 1; 0; 0; 0; 32; 64; 96; 128; 16; 48; 80; 112; 255; 1; 1; 0; 0; 0; 1; 0; 80; 86; 192; 0; 2; 10; 1; 1; 1; 238; 1] ++ zeros 26).
Proof. vm_compute. reflexivity. Qed.
(** packet/artpollreply_test.go, TestArtPollReplyPacketMarshal, case ArtNetominator *)
Example PollReply_marshal_ArtNetominator : snd (PollReply_MarshalBinary (mkPollReply ArtNet OpPollReply ([10; 10; 1; 182]) ArtNetPort 0 0 0 65535 0 (Status1_WithIndicator (Status1_WithPortAddr 0 "unused"%string) "normal"%string) ([0; 0]) ([65; 114; 116; 78; 101; 116; 111; 109; 105; 110; 97; 116; 111; 114; 0; 0; 0; 0]) ([65; 114; 116; 78; 101; 116; 111; 109; 105; 110; 97; 116; 111; 114; 32; 105; 115; 32; 119; 97; 116; 99; 104; 105; 110; 103; 32; 121; 111; 117; 46] ++ zeros 33) ([73; 110; 112; 117; 116; 32; 115; 117; 98; 110; 101; 116; 58; 32; 48; 32; 79; 117; 116; 112; 117; 116; 32; 115; 117; 98; 110; 101; 116; 58; 32; 48; 46] ++ zeros 31) 0 [(PortType_WithInput (PortType_WithType 0 "Art-Net"%string) true); (PortType_WithInput (PortType_WithType 0 "Art-Net"%string) true); (PortType_WithInput (PortType_WithType 0 "Art-Net"%string) true); (PortType_WithInput (PortType_WithType 0 "Art-Net"%string) true)] (zeros 4) (zeros 4) (zeros 4) ([1; 0; 0; 0]) 0 0 0 StNode ([92; 81; 79; 139; 74; 47]) ([0; 0; 0; 0]) 0 (Status2_WithBrowser 0 false))) =
  Ok ([65; 114; 116; 45; 78; 101; 116; 0; 0; 33; 10; 10; 1; 182; 54; 25; 0; 0; 0; 0; 255; 255; 0; 240; 0; 0; 65; 114; 116; 78; 101; 116; 111; 109; 105; 110; 97; 116; 111; 114; 0; 0; 0; 0; 65; 114; 116; 78; 101; 116; 111; 109; 105; 110; 97; 116; 111; 114; 32; 105; 115; 32; 119; 97; 116; 99; 104; 105; 110; 103; 32; 121; 111; 117; 46] ++ zeros 33 ++ [73; 110; 112; 117; 116; 32; 115; 117; 98; 110; 101; 116; 58; 32; 48; 32; 79; 117; 116; 112; 117; 116; 32; 115; 117; 98; 110; 101; 116; 58; 32; 48; 46] ++ zeros 33 ++ [69; 69; 69; 69] ++ zeros 12 ++ [1; 0; 0; 0; 0; 0; 0; 0; 0; 0; 0; 92; 81; 79; 139; 74; 47] ++ zeros 32).
Proof. vm_compute. reflexivity. Qed.
(** packet/artpollreply_test.go, TestArtPollReplyPacketMarshal, case SoundlightDMX512 *)
Example PollReply_marshal_SoundlightDMX512 : snd (PollReply_MarshalBinary (mkPollReply ArtNet OpPollReply ([2; 231; 20; 36]) ArtNetPort 14 0 0 944 0 (Status1_WithIndicator (Status1_WithPortAddr 0 "net"%string) "normal"%string) ([0; 0]) ([115; 108; 101; 115; 97; 45; 105; 112; 49; 0; 0; 0; 0; 0; 0; 0; 0; 0]) ([115; 108; 101; 115; 97; 45; 105; 112; 49] ++ zeros 55) (zeros 64) 1 ([(PortType_WithOutput (PortType_WithType 0 "DMX512"%string) true)] ++ zeros 3) (zeros 4) ([(GoodOutput_WithData 0 true)] ++ zeros 3) (zeros 4) (zeros 4) 0 0 0 StNode ([0; 80; 194; 55; 20; 36]) (zeros 4) 0 (Status2_WithBrowser 0 false))) =
  Ok ([65; 114; 116; 45; 78; 101; 116; 0; 0; 33; 2; 231; 20; 36; 54; 25; 0; 14; 0; 0; 3; 176; 0; 224; 0; 0; 115; 108; 101; 115; 97; 45; 105; 112; 49; 0; 0; 0; 0; 0; 0; 0; 0; 0; 115; 108; 101; 115; 97; 45; 105; 112; 49] ++ zeros 120 ++ [1; 128; 0; 0; 0; 0; 0; 0; 0; 128] ++ zeros 19 ++ [80; 194; 55; 20; 36] ++ zeros 32).
Proof. vm_compute. reflexivity. Qed.
(** packet/artpollreply_test.go, TestArtPollReplyPacketMarshal, case DMXControl3 *)
Example PollReply_marshal_DMXControl3 : snd (PollReply_MarshalBinary (mkPollReply ArtNet OpPollReply ([192; 168; 0; 10]) ArtNetPort 0 0 0 2224 0 (Status1_WithPortAddr 0 "unknown"%string) ([0; 0]) ([68; 77; 88; 67; 32; 51; 32; 40; 51; 49; 74; 83; 73; 77; 0; 0; 0; 0]) ([68; 77; 88; 67; 111; 110; 116; 114; 111; 108; 32; 51; 32; 40; 51; 49; 74; 83; 73; 77; 79; 78; 69; 84; 84; 73; 49; 41] ++ zeros 36) ([48; 48; 48; 49; 32; 91; 48; 48; 48; 48; 93; 32; 108; 105; 98; 97; 114; 116; 110; 101; 116] ++ zeros 43) 4 [(PortType_WithInput (PortType_WithOutput (PortType_WithType 0 "DMX512"%string) true) true); (PortType_WithInput (PortType_WithOutput (PortType_WithType 0 "DMX512"%string) true) true); (PortType_WithInput (PortType_WithOutput (PortType_WithType 0 "DMX512"%string) true) true); (PortType_WithInput (PortType_WithOutput (PortType_WithType 0 "DMX512"%string) true) true)] ([(GoodInput_WithData 0 true)] ++ zeros 3) (zeros 4) ([0; 1; 2; 3]) ([4; 5; 6; 7]) 0 0 0 StController ([60; 151; 14; 215; 238; 47]) (zeros 4) 0 (Status2_WithPort15 0 true))) =
  Ok ([65; 114; 116; 45; 78; 101; 116; 0; 0; 33; 192; 168; 0; 10; 54; 25; 0; 0; 0; 0; 8; 176; 0; 0; 0; 0; 68; 77; 88; 67; 32; 51; 32; 40; 51; 49; 74; 83; 73; 77; 0; 0; 0; 0; 68; 77; 88; 67; 111; 110; 116; 114; 111; 108; 32; 51; 32; 40; 51; 49; 74; 83; 73; 77; 79; 78; 69; 84; 84; 73; 49; 41] ++ zeros 36 ++ [48; 48; 48; 49; 32; 91; 48; 48; 48; 48; 93; 32; 108; 105; 98; 97; 114; 116; 110; 101; 116] ++ zeros 44 ++ [4; 192; 192; 192; 192; 128; 0; 0; 0; 0; 0; 0; 0; 0; 1; 2; 3; 4; 5; 6; 7; 0; 0; 0; 0; 0; 0; 1; 60; 151; 14; 215; 238; 47; 0; 0; 0; 0; 0; 8] ++ zeros 26).
Proof. vm_compute. reflexivity. Qed.
(** packet/artpollreply_test.go, TestArtPollReplyPacketUnmarshal, case Empty *)
Example PollReply_unmarshal_Empty : decodes (PollReply_UnmarshalBinary NewArtPollReplyPacket ([65; 114; 116; 45; 78; 101; 116; 0; 0; 33; 0; 0; 0; 0; 54; 25] ++ zeros 4080))
  (mkPollReply ArtNet OpPollReply (zeros 4) ArtNetPort 0 0 0 0 0 0 (zeros 2) (zeros 18) (zeros 64) (zeros 64) 0 (zeros 4) (zeros 4) (zeros 4) (zeros 4) (zeros 4) 0 0 0 0 (zeros 6) (zeros 4) 0 0).
Proof. vm_compute. reflexivity. Qed.
(** packet/artpollreply_test.go, TestArtPollReplyPacketUnmarshal, case WithInfo *)
Example PollReply_unmarshal_WithInfo : decodes (PollReply_UnmarshalBinary NewArtPollReplyPacket ([65; 114; 116; 45; 78; 101; 116; 0; 0; 33; 10; 1; 1; 1; 54; 25; 240; 13; 235; 190; 204; 204; 170; 1; 255; 255; 49; 50; 51; 52; 53; 54; 55; 56; 57; 48; 49; 50; 51; 52; 53; 54; 55; 56; 65; 66; 67; 68; 69; 70; 71; 72; 73; 74; 75; 76; 77; 78; 79; 80; 65; 66; 67; 68; 69; 70; 71; 72; 73; 74; 75; 76; 77; 78; 79; 80; 65; 66; 67; 68; 69; 70; 71; 72; 73; 74; 75; 76; 77; 78; 79; 80; 65; 66; 67; 68; 69; 70; 71; 72; 73; 74; 75; 76; 77; 78; 79; 80; 16] ++ zeros 63 ++ [255; 255; 0; 0; 0; 0; 4; 0; 0; 0; 1; 0; 0; 0; 32; 64; 96; 128; 16; 48; 80; 112; 255; 1; 1; 0; 0; 0; 1; 0; 80; 86; 192; 0; 2; 10; 1; 1; 1; 238; 1] ++ zeros 3883))
  (mkPollReply ArtNet OpPollReply ([10; 1; 1; 1]) ArtNetPort 61453 235 190 52428 170 (Status1_WithUBEA 0 true) ([255; 255]) ([49; 50; 51; 52; 53; 54; 55; 56; 57; 48; 49; 50; 51; 52; 53; 54; 55; 56]) ([65; 66; 67; 68; 69; 70; 71; 72; 73; 74; 75; 76; 77; 78; 79; 80; 65; 66; 67; 68; 69; 70; 71; 72; 73; 74; 75; 76; 77; 78; 79; 80; 65; 66; 67; 68; 69; 70; 71; 72; 73; 74; 75; 76; 77; 78; 79; 80; 65; 66; 67; 68; 69; 70; 71; 72; 73; 74; 75; 76; 77; 78; 79; 80]) ([RcFactoryRes] ++ zeros 63) 65535 [(PortType_WithType 0 "DMX512"%string); (PortType_WithType 0 "DMX512"%string); (PortType_WithType 0 "DMX512"%string); (PortType_WithType 0 "DMX512"%string)] [(GoodInput_WithReceive 0 true); (GoodInput_WithReceive 0 false); (GoodInput_WithReceive 0 false); (GoodInput_WithReceive 0 false)] [(GoodOutput_WithACN 0 true); (GoodOutput_WithACN 0 false); (GoodOutput_WithACN 0 false); (GoodOutput_WithACN 0 false)] ([32; 64; 96; 128]) ([16; 48; 80; 112]) 255 (SwMacro_WithMacro1 0 true) (SwRemote_WithRemote1 0 true) StController ([0; 80; 86; 192; 0; 2]) ([10; 1; 1; 1]) 238 (Status2_WithBrowser 0 true)).
Proof. vm_compute. reflexivity. Qed.
(** packet/artpollreply_test.go, TestArtPollReplyPacketUnmarshal, case ArtNetominator *)
Example PollReply_unmarshal_ArtNetominator : decodes (PollReply_UnmarshalBinary NewArtPollReplyPacket ([65; 114; 116; 45; 78; 101; 116; 0; 0; 33; 10; 10; 1; 182; 54; 25; 0; 0; 0; 0; 255; 255; 0; 240; 0; 0; 65; 114; 116; 78; 101; 116; 111; 109; 105; 110; 97; 116; 111; 114; 0; 0; 0; 0; 65; 114; 116; 78; 101; 116; 111; 109; 105; 110; 97; 116; 111; 114; 32; 105; 115; 32; 119; 97; 116; 99; 104; 105; 110; 103; 32; 121; 111; 117; 46] ++ zeros 33 ++ [73; 110; 112; 117; 116; 32; 115; 117; 98; 110; 101; 116; 58; 32; 48; 32; 79; 117; 116; 112; 117; 116; 32; 115; 117; 98; 110; 101; 116; 58; 32; 48; 46] ++ zeros 33 ++ [69; 69; 69; 69] ++ zeros 12 ++ [1; 0; 0; 0; 0; 0; 0; 0; 0; 0; 0; 92; 81; 79; 139; 74; 47] ++ zeros 3889))
  (mkPollReply ArtNet OpPollReply ([10; 10; 1; 182]) ArtNetPort 0 0 0 65535 0 (Status1_WithIndicator (Status1_WithPortAddr 0 "unused"%string) "normal"%string) ([0; 0]) ([65; 114; 116; 78; 101; 116; 111; 109; 105; 110; 97; 116; 111; 114; 0; 0; 0; 0]) ([65; 114; 116; 78; 101; 116; 111; 109; 105; 110; 97; 116; 111; 114; 32; 105; 115; 32; 119; 97; 116; 99; 104; 105; 110; 103; 32; 121; 111; 117; 46] ++ zeros 33) ([73; 110; 112; 117; 116; 32; 115; 117; 98; 110; 101; 116; 58; 32; 48; 32; 79; 117; 116; 112; 117; 116; 32; 115; 117; 98; 110; 101; 116; 58; 32; 48; 46] ++ zeros 31) 0 [(PortType_WithInput (PortType_WithType 0 "Art-Net"%string) true); (PortType_WithInput (PortType_WithType 0 "Art-Net"%string) true); (PortType_WithInput (PortType_WithType 0 "Art-Net"%string) true); (PortType_WithInput (PortType_WithType 0 "Art-Net"%string) true)] (zeros 4) (zeros 4) (zeros 4) ([1; 0; 0; 0]) 0 0 0 StNode ([92; 81; 79; 139; 74; 47]) ([0; 0; 0; 0]) 0 (Status2_WithBrowser 0 false)).
Proof. vm_compute. reflexivity. Qed.
(** packet/artpollreply_test.go, TestArtPollReplyPacketUnmarshal, case SoundlightDMX512 *)
Example PollReply_unmarshal_SoundlightDMX512 : decodes (PollReply_UnmarshalBinary NewArtPollReplyPacket ([65; 114; 116; 45; 78; 101; 116; 0; 0; 33; 2; 231; 20; 36; 25; 54; 0; 14; 0; 0; 3; 176; 0; 224; 0; 0; 115; 108; 101; 115; 97; 45; 105; 112; 49; 0; 0; 0; 0; 0; 0; 0; 0; 0; 115; 108; 101; 115; 97; 45; 105; 112; 49] ++ zeros 120 ++ [1; 128; 0; 0; 0; 0; 0; 0; 0; 128] ++ zeros 19 ++ [80; 194; 55; 20; 36] ++ zeros 3889))
  (mkPollReply ArtNet OpPollReply ([2; 231; 20; 36]) ArtNetPort 14 0 0 944 0 (Status1_WithIndicator (Status1_WithPortAddr 0 "net"%string) "normal"%string) ([0; 0]) ([115; 108; 101; 115; 97; 45; 105; 112; 49; 0; 0; 0; 0; 0; 0; 0; 0; 0]) ([115; 108; 101; 115; 97; 45; 105; 112; 49] ++ zeros 55) (zeros 64) 1 ([(PortType_WithOutput (PortType_WithType 0 "DMX512"%string) true)] ++ zeros 3) (zeros 4) ([(GoodOutput_WithData 0 true)] ++ zeros 3) (zeros 4) (zeros 4) 0 0 0 StNode ([0; 80; 194; 55; 20; 36]) (zeros 4) 0 (Status2_WithBrowser 0 false)).
Proof. vm_compute. reflexivity. Qed.
(** packet/artpollreply_test.go, TestArtPollReplyPacketUnmarshal, case DMXControl3 *)
Example PollReply_unmarshal_DMXControl3 : decodes (PollReply_UnmarshalBinary NewArtPollReplyPacket ([65; 114; 116; 45; 78; 101; 116; 0; 0; 33; 192; 168; 0; 10; 54; 25; 0; 0; 0; 0; 8; 176; 0; 0; 0; 0; 68; 77; 88; 67; 32; 51; 32; 40; 51; 49; 74; 83; 73; 77; 0; 0; 0; 0; 68; 77; 88; 67; 111; 110; 116; 114; 111; 108; 32; 51; 32; 40; 51; 49; 74; 83; 73; 77; 79; 78; 69; 84; 84; 73; 49; 41] ++ zeros 36 ++ [48; 48; 48; 49; 32; 91; 48; 48; 48; 48; 93; 32; 108; 105; 98; 97; 114; 116; 110; 101; 116] ++ zeros 44 ++ [4; 192; 192; 192; 192; 128; 0; 0; 0; 0; 0; 0; 0; 0; 1; 2; 3; 4; 5; 6; 7; 0; 0; 0; 0; 0; 0; 1; 60; 151; 14; 215; 238; 47; 0; 0; 0; 0; 0; 8] ++ zeros 3883))
  (mkPollReply ArtNet OpPollReply ([192; 168; 0; 10]) ArtNetPort 0 0 0 2224 0 (Status1_WithPortAddr 0 "unknown"%string) ([0; 0]) ([68; 77; 88; 67; 32; 51; 32; 40; 51; 49; 74; 83; 73; 77; 0; 0; 0; 0]) ([68; 77; 88; 67; 111; 110; 116; 114; 111; 108; 32; 51; 32; 40; 51; 49; 74; 83; 73; 77; 79; 78; 69; 84; 84; 73; 49; 41] ++ zeros 36) ([48; 48; 48; 49; 32; 91; 48; 48; 48; 48; 93; 32; 108; 105; 98; 97; 114; 116; 110; 101; 116] ++ zeros 43) 4 [(PortType_WithInput (PortType_WithOutput (PortType_WithType 0 "DMX512"%string) true) true); (PortType_WithInput (PortType_WithOutput (PortType_WithType 0 "DMX512"%string) true) true); (PortType_WithInput (PortType_WithOutput (PortType_WithType 0 "DMX512"%string) true) true); (PortType_WithInput (PortType_WithOutput (PortType_WithType 0 "DMX512"%string) true) true)] ([(GoodInput_WithData 0 true)] ++ zeros 3) (zeros 4) ([0; 1; 2; 3]) ([4; 5; 6; 7]) 0 0 0 StController ([60; 151; 14; 215; 238; 47]) (zeros 4) 0 (Status2_WithPort15 0 true)).
Proof. vm_compute. reflexivity. Qed.
(** packet/packet_test.go, TestUnmarshal, case 0 *)
Example Unmarshal_0 : Unmarshal ([65; 114; 116; 45; 78; 101; 116; 0; 0; 32; 0; 14; 2; 0]) =
  Ret (Some (PktPoll (mkPoll (mkHeader ArtNet OpPoll version_Bytes) (TalkToMe_WithReplyOnChange 0 true) 0)), None).
Proof. vm_compute. reflexivity. Qed.
(** packet/packet_test.go, TestUnmarshal, case 1 *)
Example Unmarshal_1 : Unmarshal ([65; 114; 116; 45; 78; 101; 116; 0; 0; 33; 2; 0; 0; 20; 54; 25; 0; 0; 0; 0; 0; 0; 0; 0; 0; 0; 98; 97; 114; 97; 100; 100; 117; 114] ++ zeros 166 ++ [1] ++ zeros 38) =
  Ret (Some (PktPollReply (mkPollReply ArtNet OpPollReply ([2; 0; 0; 20]) ArtNetPort 0 0 0 0 0 0 ([0; 0]) ([98; 97; 114; 97; 100; 100; 117; 114; 0; 0; 0; 0; 0; 0; 0; 0; 0; 0]) (zeros 64) (zeros 64) 0 ([0; 0; 0; 0]) ([0; 0; 0; 0]) ([0; 0; 0; 0]) ([0; 0; 0; 0]) ([0; 0; 0; 0]) 0 0 0 StController ([0; 0; 0; 0; 0; 0]) ([0; 0; 0; 0]) 0 0)), None).
Proof. vm_compute. reflexivity. Qed.
(** packet/packet_test.go, TestUnmarshal, case 2 *)
Example Unmarshal_2 : Unmarshal ([65; 114; 116; 45; 78; 101; 116; 0; 0; 80; 0; 14; 179; 0; 7; 0; 2; 0; 0; 0; 0; 20; 0; 0; 0; 20; 0; 0; 0; 20; 0; 0; 0; 20; 0; 0; 0; 20; 0; 0; 0; 20; 0; 0; 0; 20; 0; 0; 0; 20; 0; 0; 0; 20; 0; 0; 0; 20; 0; 0; 0; 20; 0; 0; 0; 20; 0; 0; 0; 20; 0; 0; 0; 20; 0; 0; 0; 20; 0; 0; 0; 20] ++ zeros 448) =
  Ret (Some (PktDMX (mkDMX (mkHeader ArtNet OpDMX version_Bytes) 179 0 7 0 512 ([0; 0; 0; 20; 0; 0; 0; 20; 0; 0; 0; 20; 0; 0; 0; 20; 0; 0; 0; 20; 0; 0; 0; 20; 0; 0; 0; 20; 0; 0; 0; 20; 0; 0; 0; 20; 0; 0; 0; 20; 0; 0; 0; 20; 0; 0; 0; 20; 0; 0; 0; 20; 0; 0; 0; 20; 0; 0; 0; 20; 0; 0; 0; 20] ++ zeros 448))), None).
Proof. vm_compute. reflexivity. Qed.
(** packet/header_test.go, TestHeaderValidate, case 0 *)
Example Header_0 : let b := ArtNet ++ [N.land OpPoll 0xff; N.shiftr OpPoll 8] ++ [nth 0 version_Bytes 0; nth 1 version_Bytes 0] in
  match Header_unmarshal Header_zero b with Ret (_, None) => True | _ => False end.
Proof. vm_compute. exact I. Qed.
(** packet/header_test.go, TestHeaderValidate, case 1; the message is incompatible version, want at least 14, got 0 *)
Example Header_1 : let b := ArtNet ++ [N.land OpPoll 0xff; N.shiftr OpPoll 8] ++ [nth 0 version_Bytes 0; 0] in
  match Header_unmarshal Header_zero b with Ret (_, Some (errIncompatibleVersion 0)) => True | _ => False end.
Proof. vm_compute. exact I. Qed.
(** packet/header_test.go, TestHeaderValidate, case 2 *)
Example Header_2 : let b := ArtNet ++ [N.land OpPoll 0xff; N.shiftr OpPoll 8] ++ [nth 0 version_Bytes 0; 15] in
  match Header_unmarshal Header_zero b with Ret (_, None) => True | _ => False end.
Proof. vm_compute. exact I. Qed.
(** packet/header_test.go, TestHeaderValidate, case 3 *)
Example Header_3 : let b := ArtNet ++ [N.land OpPollReply 0xff; N.shiftr OpPollReply 8] ++ [2; 0; 0; 10] in
  match Header_unmarshal Header_zero b with Ret (_, None) => True | _ => False end.
Proof. vm_compute. exact I. Qed.
(** packet/header_test.go, TestHeaderValidate, case 4 *)
Example Header_4 : let b := ArtNet ++ [N.land OpPollReply 0xff; N.shiftr OpPollReply 8] ++ [2; 14; 0; 10] in
  match Header_unmarshal Header_zero b with Ret (_, None) => True | _ => False end.
Proof. vm_compute. exact I. Qed.
(** packet/header_test.go, TestHeaderValidate, case 5 *)
Example Header_5 : let b := ArtNet ++ [N.land OpPollReply 0xff; N.shiftr OpPollReply 8] ++ [2; 16; 0; 10] in
  match Header_unmarshal Header_zero b with Ret (_, None) => True | _ => False end.
Proof. vm_compute. exact I. Qed.
(** packet/header_test.go, TestHeaderValidate, case 6 *)
Example Header_6 : let b := ArtNet ++ [N.land OpPollReply 0xff; N.shiftr OpPollReply 8] ++ [2; 100; 0; 10] in
  match Header_unmarshal Header_zero b with Ret (_, None) => True | _ => False end.
Proof. vm_compute. exact I. Qed.
(** packet/header_test.go, TestHeaderValidate, case 7 *)
Example Header_7 : let b := ArtNet ++ [N.land OpPollReply 0xff; N.shiftr OpPollReply 8] ++ [192; 168; 0; 10] in
  match Header_unmarshal Header_zero b with Ret (_, None) => True | _ => False end.
Proof. vm_compute. exact I. Qed.
(** packet/header_test.go, TestHeaderValidate, case 8 *)
Example Header_8 : let b := ArtNet ++ [N.land OpPollReply 0xff; N.shiftr OpPollReply 8] ++ [10; 0; 0; 10] in
  match Header_unmarshal Header_zero b with Ret (_, None) => True | _ => False end.
Proof. vm_compute. exact I. Qed.
(** packet/header_test.go, TestHeaderValidate, case 9 *)
Example Header_9 : let b := ArtNet ++ [N.land OpPollReply 0xff; N.shiftr OpPollReply 8] ++ [10; 10; 0; 10] in
  match Header_unmarshal Header_zero b with Ret (_, None) => True | _ => False end.
Proof. vm_compute. exact I. Qed.
(** packet/header_test.go, TestHeaderValidate, case 10 *)
Example Header_10 : let b := ArtNet ++ [N.land OpPollReply 0xff; N.shiftr OpPollReply 8] ++ [10; 20; 0; 10] in
  match Header_unmarshal Header_zero b with Ret (_, None) => True | _ => False end.
Proof. vm_compute. exact I. Qed.
(** packet/header_test.go, TestHeaderValidate, case 11 *)
Example Header_11 : let b := ArtNet ++ [N.land OpPollReply 0xff; N.shiftr OpPollReply 8] ++ [10; 30; 0; 10] in
  match Header_unmarshal Header_zero b with Ret (_, None) => True | _ => False end.
Proof. vm_compute. exact I. Qed.
(** packet/header_test.go, TestHeaderValidate, case 12 *)
Example Header_12 : let b := ArtNet ++ [N.land OpPollReply 0xff; N.shiftr OpPollReply 8] ++ [10; 30; 0; 10] in
  match Header_unmarshal Header_zero b with Ret (_, None) => True | _ => False end.
Proof. vm_compute. exact I. Qed.
(** version/version_test.go, TestVersion *)
Example Version_V14 : version_Bytes = [0; 14].
Proof. reflexivity. Qed.
