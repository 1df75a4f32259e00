(** Model of what a node believes about its own addresses: the bound status of the
    sockets (transport/socket.go), the addresses that localNode and MessageManager
    report from it, and the servers with which the controller compares the source of
    a message.  Put together with [Transport], [Life], [Handler] and [Remote].

    Simplified: an IP is a number as in [Protocol], [number] gives that of a text
    (theorem C92_ip_injective is about the texts themselves); IPAddr (L77-L89), only
    used for logging, is in [LogText]. *)

From Coq Require Import String.
From Verif Require Import Go Encoding Protocol Property Object Node Handler Remote Transport Life.
Local Open Scope Z_scope.
Local Open Scope list_scope.

(** ** socket.go *)

(** L16-L20 *)
Record socket : Type := mkSocket { sk_interface : option iptr; sk_port : Z; sk_address : string }.
(** L34-L38 *)
Definition Socket_Close (s : socket) : socket := mkSocket None 0 "".
(** L23-L31 *)
Definition NewSocket : socket := Socket_Close (mkSocket None 0 "").
(** L41-L45 *)
Definition SetBoundStatus (s : socket) (i : iptr) (addr : string) (port : Z) : socket := mkSocket (Some i) port addr.
(** L48-L50 *)
Definition IsBound (s : socket) : bool := negb (sk_port s =? 0).
(** L53-L58 *)
Definition Socket_Port (s : socket) : res Z := if negb (IsBound s) then Err ErrOther else Ok (sk_port s).
(** L61-L66 *)
Definition Socket_Interface (s : socket) : res (option iptr) := if negb (IsBound s) then Err ErrOther else Ok (sk_interface s).
(** L69-L74 *)
Definition Socket_Address (s : socket) : res string := if negb (IsBound s) then Err ErrOther else Ok (sk_address s).

(** transport/const.go L12 *)
Definition StandardPort : Z := 3610.

(** The status of the UDP socket of a unicast server that was started
    (unicast_udp_socket.go L58, unicast_server.go L81) and of a multicast server (multicast_socket.go L47).
    UDPSocket.Close (udp_socket.go L50-L59) closes the connection and leaves the status
    as it is. *)
Definition unicast_socket (u : userver) : socket := SetBoundStatus NewSocket (us_ifi u) (us_addr u) (us_port u).
Definition multicast_socket (s : mserver) : socket := SetBoundStatus NewSocket (ms_ifi s) (ms_addr s) StandardPort.

Definition as_option {A} (r : res A) : option A := match r with Ok a => Some a | _ => None end.

(** transport/message_manager.go L41-L51; local_node.go promotes it to the node. *)
Fixpoint addresses_of (l : list mserver) : list string :=
  match l with
  | [] => []
  | s :: l => match Socket_Address (multicast_socket s) with Ok a => a :: addresses_of l | _ => addresses_of l end
  end.
Definition Addresses (m : manager) : list string := addresses_of (mg_multicast m).

Section Own.
Variable number : string -> Z.

(** local_node.go L116-L129: Address and Port. *)
Definition own_address (m : manager) : address :=
  mkAddress (node_Address (map (fun u => option_map number (as_option (Socket_Address (unicast_socket u)))) (mg_unicast m)))
    (mg_port m).

(** controller_message_listener.go L19-L34: what Port and Address of the multicast servers return. *)
Definition listening (m : manager) : list (option Z * option Z) :=
  map (fun s => (as_option (Socket_Port (multicast_socket s)), option_map number (as_option (Socket_Address (multicast_socket s)))))
    (mg_multicast m).

(** The source of the datagrams of a unicast server as their receivers see it: the
    connection is bound to that address and port (unicast_udp_socket.go L36-L41,
    udp_socket.go L79-L86). *)
Definition source (u : userver) : address := mkAddress (number (us_addr u)) (us_port u).

Definition with_address (nd : node) (a : address) (self : bool) : node :=
  mkNode (n_devices nd) (n_profiles nd) (n_manufacturer nd) (n_lastTID nd) (n_running nd) a self (n_sent nd).

(** A controller whose local node is [l] receives a message; [auto] and [self] are
    AutoPortBindingEnabled and SelfMessageEnabled of its configuration, [listener]
    tells whether it has a listener. *)
Definition controller_conf (auto listener : bool) (l : life) : ctrl_conf := mkConf auto listener (listening (lf_mgr l)).
Definition controller_node (self : bool) (l : life) : node := with_address (lf_node l) (own_address (lf_mgr l)) self.
Definition controller_receives (auto listener self : bool) (l : life) (ct : ctrl) (m : message) : ctrl :=
  ctrl_receive (controller_conf auto listener l) (controller_node self l) ct m.

End Own.
