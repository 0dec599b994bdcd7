(** The address a node listens on: node.go:129, net.ListenPacket("udp4", n.listenAddr.String()), with the options of options.go:33-46 and 64-78 (Sys.v: node_option, ctl_option), and what the socket
    hears. Simplifications: the text that listenAddr.String() makes is read back by ListenPacket as the address it was made of (Go standard library), host names are not resolved; a zone is left out
    ([UDPAddr] has none); the port of a net.UDPAddr is an int, negative ones are left out. *)
From Verif Require Import Sys.
From stdpp Require Import base list.
Open Scope N_scope.

(** Go standard library, net.IP.IsMulticast for four bytes. *)
Definition IsMulticast4 (ip : list N) : bool := N.land (nth 0 ip 0) 0xf0 =? 0xe0.
Definition IPv4zero : list N := zeros 4.
(** The IP the socket is bound to, [None] if ListenPacket fails. Go standard library: an empty IP is the wildcard (internetAddrList, ipsock.go); of the addresses a host has, "udp4" takes those for which
    To4 is not nil (filterAddrList), and :: stands for 0.0.0.0 as well (issue 18806); a text like ?0102 for an IP that has neither 4 nor 16 bytes is no host; a socket for a multicast address is bound to the
    wildcard (listenDatagram, sock_posix.go). *)
Definition bound_ip (ip : list N) : option (list N) :=
  if len ip =? 0 then Some IPv4zero
  else if len (To4 ip) =? 4 then Some (if IsMulticast4 (To4 ip) then IPv4zero else To4 ip)
  else if eqbytes ip (zeros 16) then Some IPv4zero
  else None.
(** The local address of a socket opened for the listen address a; port 0 lets the system choose one. *)
Definition binds (a b : UDPAddr) : Prop :=
  bound_ip (fst a) = Some (fst b) /\ snd a < 65536 /\ (snd a = 0 -> 0 < snd b < 65536) /\ (snd a <> 0 -> snd b = snd a).
(** Linux and BSD: a datagram for the address dst is given to a socket bound to its port and to the wildcard or to its very IP. (That dst reaches the host at all is [Z_hears] in Net.v.) *)
Definition accepts (b dst : UDPAddr) : Prop := snd dst = snd b /\ (fst b = IPv4zero \/ To4 (fst dst) = fst b).
Definition hears (a dst : UDPAddr) : Prop := exists b, binds a b /\ accepts b dst.
