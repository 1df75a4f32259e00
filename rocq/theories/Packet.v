(** Model of the packet types and the text of a message
    (net/echonet/protocol/message.go L298-L325, L403-L408). *)

From Coq Require Import String.
From Verif Require Import Go Encoding Protocol Parser Cmd.
Local Open Scope Z_scope.

(** L308-L310 *)
Definition IsMulticastPacket (m : message) : bool := IsPacketType m MulticastPacket.
(** L313-L315 *)
Definition IsUnicastPacket (m : message) : bool := IsPacketType m UnicastPacket.
(** L318-L320 *)
Definition IsTCPUnicastPacket (m : message) : bool := IsPacketType m TCPUnicastPacket.
(** L323-L325 *)
Definition IsUDPUnicastPacket (m : message) : bool := IsPacketType m UDPUnicastPacket.

(** L403-L408; the text of a nil message is empty *)
Definition MsgString (m : option message) : res string :=
  match m with
  | None => Ok EmptyString
  | Some m => b <- Bytes m ;; Ok (EncodeToString b)
  end.
