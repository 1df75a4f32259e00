(** Model of the lines that the transport layer writes to the log
    (net/echonet/transport/logger.go, socket.go L77-L89, and the places that call
    them).  A text is the list of its bytes.

    Simplified: the level of a line, the time and level that go-logger puts before
    it and the further line with the text of an error are left out. *)

From Coq Require Import String Ascii.
From Verif Require Import Go Encoding Protocol Parser Cmd Transport AddressText Bound Packet.
Local Open Scope Z_scope.
Local Open Scope list_scope.

(** The bytes of a Go string. *)
Definition codes (s : string) : list Z := map (fun c => Z.of_nat (Ascii.nat_of_ascii c)) (list_ascii_of_string s).

(** ** logger.go *)

(** L12-L14 *)
Inductive log_type : Type := UDPMulticast | UDPUnicast | TCPUnicast.
Definition type_text (t : log_type) : list Z :=
  codes match t with UDPMulticast => "UM" | UDPUnicast => "UU" | TCPUnicast => "TU" end.
(** L19-L22 *)
Inductive direction : Type := Write | Read.

(** %21s: blanks before a shorter text. *)
Definition pad21 (s : list Z) : list Z := repeat 32 (21 - length s) ++ s.

(** L15-L16, L24-L35: the own address comes first in both directions. *)
Definition outputSocketLog (t : log_type) (d : direction) (msgFrom msgTo msg : list Z) (msgSize : Z) : list Z :=
  match d with
  | Write => codes "S (" ++ type_text t ++ codes ") : " ++ pad21 msgFrom ++ codes " -> " ++ pad21 msgTo ++ codes " (" ++ Itoa msgSize ++ codes ") : " ++ msg
  | Read => codes "R (" ++ type_text t ++ codes ") : " ++ pad21 msgTo ++ codes " <- " ++ pad21 msgFrom ++ codes " (" ++ Itoa msgSize ++ codes ") : " ++ msg
  end.

(** ** socket.go L77-L89 *)
Definition IPAddr (s : socket) : res (list Z) :=
  port <- Socket_Port s ;;
  addr <- Socket_Address s ;;
  Ok (JoinHostPort (codes addr) (Itoa port)).
(** msgTo, _ := sock.IPAddr(): the text is empty with an error. *)
Definition own_text (s : socket) : list Z := match IPAddr s with Ok t => t | _ => [] end.

(** ** udp_socket.go *)

(** L61-L64 *)
Definition udp_outputReadLog (s : socket) (t : log_type) (msgFrom msg : list Z) (msgSize : Z) : list Z :=
  outputSocketLog t Read msgFrom (own_text s) msg msgSize.
(** L66-L69 *)
Definition udp_outputWriteLog (s : socket) (msgTo msg : list Z) (msgSize : Z) : list Z :=
  outputSocketLog UDPUnicast Write (own_text s) msgTo msg msgSize.
(** L82 and L98: SendBytes, after [n] bytes were written *)
Definition SendBytes_line (s : socket) (toAddr : list Z) (b : list Z) (n : Z) : list Z :=
  udp_outputWriteLog s toAddr (codes (EncodeToString b)) n.
(** L112-L125: AnnounceMessage; [JoinHostPort] stands for toAddr.String(), the same
    text for these two addresses.  const.go L13-L16. *)
Definition AnnounceMessage_line (s : socket) (b : list Z) (n : Z) : res (list Z) :=
  ifaddr <- Socket_Address s ;;
  let maddr := if IsIPv6Address ifaddr then "ff02::1"%string else "224.0.23.0"%string in
  Ok (SendBytes_line s (JoinHostPort (codes maddr) (Itoa StandardPort)) b n).
(** L137-L142: a datagram that cannot be read, whatever server reads it *)
Definition unreadable_line (s : socket) (from : list Z) (b : list Z) : list Z :=
  udp_outputReadLog s UDPUnicast from (codes (EncodeToString b)) (len b).

(** ** The servers *)

(** The text and the size of a message (message.go L328-L341, L403-L408). *)
Definition message_shown (m : message) : res (list Z * Z) :=
  t <- MsgString (Some m) ;;
  n <- Size m ;;
  Ok (codes t, n).
(** unicast_server.go L108, multicast_server.go L65; [from] is reqMsg.From.String() *)
Definition request_line (t : log_type) (s : socket) (from : list Z) (m : message) : res (list Z) :=
  x <- message_shown m ;;
  Ok (udp_outputReadLog s t from (fst x) (snd x)).
Definition unicast_line := request_line UDPUnicast.
Definition multicast_line := request_line UDPMulticast.

(** ** tcp_socket.go *)

(** L86-L89 *)
Definition tcp_outputReadLog (s : socket) (msgFrom msg : list Z) (msgSize : Z) : list Z :=
  outputSocketLog TCPUnicast Read msgFrom (own_text s) msg msgSize.
(** L92-L113: the line of ReadMessage; None: the message cannot be read *)
Definition tcp_read_line (s : socket) (from : list Z) (m : option message) : res (list Z) :=
  match m with
  | None => Ok (tcp_outputReadLog s from [] 0)
  | Some m => x <- message_shown m ;; Ok (tcp_outputReadLog s from (fst x) (snd x))
  end.
(** L115-L117, L159-L176: the line of writeBytesToConnection; the size is 0 with an error *)
Definition tcp_write_line (localAddr toAddr : list Z) (b : list Z) (failed : bool) : list Z :=
  outputSocketLog TCPUnicast Write localAddr toAddr (codes (EncodeToString b)) (if failed then 0 else len b).
