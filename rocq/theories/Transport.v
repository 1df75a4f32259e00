(** Model of the transport (net/echonet/transport): addresses and interfaces,
    configuration, reception of datagrams, start and stop of the servers.

    The operating system is an oracle: what a listen, a socket option or a close
    answers is given with the operation.  Not modelled: the windows variants,
    logging, the contents of errors. *)

From Coq Require Import String Ascii.
From Verif Require Import Go Encoding Protocol Parser.
Local Open Scope Z_scope.
Local Open Scope list_scope.

(** ** interface.go *)

(** strings.Index(s, c) for a single character: present or not. *)
Fixpoint has_char (c : ascii) (s : string) : bool :=
  match s with
  | EmptyString => false
  | String a s => Ascii.eqb a c || has_char c s
  end.

(** strings.Split(s, c) for a single character. *)
Fixpoint split_on (c : ascii) (s : string) : list string :=
  match s with
  | EmptyString => [EmptyString]
  | String a s =>
      if Ascii.eqb a c then EmptyString :: split_on c s
      else match split_on c s with
           | [] => [String a EmptyString]
           | h :: t => String a h :: t
           end
  end.

Definition is_empty (s : string) : bool := match s with EmptyString => true | _ => false end.

(** interface.go L14-L22. *)
Definition IsIPv6Address (addr : string) : bool :=
  if is_empty addr then false else has_char ":" addr.

(** interface.go L25-L30. *)
Definition IsIPv4Address (addr : string) : bool :=
  if is_empty addr then false else negb (IsIPv6Address addr).

(** interface.go L51-L57. *)
Definition IsLoopbackAddress (addr : string) : bool :=
  existsb (String.eqb addr) ["127.0.0.1"%string; "::1"%string].

(** interface.go L60-L68. *)
Definition IsCommunicableAddress (addr : string) : bool :=
  if is_empty addr then false else negb (IsLoopbackAddress addr).

(** net.Interface: name, flags, and what Addrs() answers ([None] is an error). *)
Record iface : Type := mkIface { if_id : nat; if_name : string; if_flags : Z; if_addrs : option (list string) }.

(** net.Flags of the Go standard library. *)
Definition FlagUp := 1.
Definition FlagLoopback := 4.
Definition FlagMulticast := 16.

(** interface.go L71-L81. *)
Definition IsBridgeInterface (i : iface) : bool :=
  existsb (fun p => String.prefix p (if_name i)) ["virbr0"%string].

(** interface.go L84-L98. *)
Definition IsVirtualInterface (i : iface) : bool :=
  existsb (fun p => String.prefix p (if_name i))
    ["utun"%string; "llw"%string; "awdl"%string; "en6"%string; "docker0"%string].

(** interface.go L107-L117, the loop. *)
Fixpoint collect_addrs (addrs : list string) : list string :=
  match addrs with
  | [] => []
  | a :: addrs =>
      match split_on "/" a with
      | h :: _ :: _ => if IsIPv6Address h then collect_addrs addrs else h :: collect_addrs addrs
      | _ => collect_addrs addrs
      end
  end.

(** interface.go L101-L122. *)
Definition GetInterfaceAddresses (i : iface) : res (list string) :=
  match if_addrs i with
  | None => Err ErrOther
  | Some addrs => match collect_addrs addrs with [] => Err ErrInvalid | l => Ok l end
  end.

(** interface.go L134-L152, the conditions of the loop. *)
Definition available (i : iface) : bool :=
  (Z.land (if_flags i) FlagLoopback =? 0) && negb (Z.land (if_flags i) FlagUp =? 0) &&
  negb (Z.land (if_flags i) FlagMulticast =? 0) && negb (IsBridgeInterface i) && negb (IsVirtualInterface i) &&
  match GetInterfaceAddresses i with Ok _ => true | _ => false end.

(** interface.go L125-L163; [None] is an error of net.Interfaces. *)
Definition GetAvailableInterfaces (local : option (list iface)) : res (list iface) :=
  match local with
  | None => Err ErrOther
  | Some l => match filter available l with [] => Err ErrInvalid | l => Ok l end
  end.

(** interface.go L166-L180. *)
Definition GetAvailableAddresses (local : option (list iface)) : res (list string) :=
  ifs <- GetAvailableInterfaces local ;;
  Ok (flat_map (fun i => match GetInterfaceAddresses i with Ok l => l | _ => [] end) ifs).

(** ** Configuration *)

(** unicast_config.go L13-L19; durations in nanoseconds. *)
Record unicast_config : Type := mkUC {
  uc_tcpEnabled : bool; uc_connectionTimeout : Z; uc_requestTimeout : Z;
  uc_bindRetryCount : Z; uc_bindRetryWaitTime : Z }.
(** extention_config.go L12-L14. *)
Record extension_config : Type := mkEC { ec_autoPortBindingEnabled : bool }.
(** config.go L8-L11. *)
Record config : Type := mkConfig { cf_unicast : unicast_config; cf_extension : extension_config }.

(** unicast_config.go L22-L31, const.go L31-L33. *)
Definition NewDefaultUnicastConfig : unicast_config := mkUC false 5000000000 5000000000 5 0.
(** extention_config.go L17-L22, config.go L14-L20. *)
Definition NewDefaultConfig : config := mkConfig NewDefaultUnicastConfig (mkEC false).

(** unicast_config.go L34-L37. *)
Definition UC_SetConfig (conf new : unicast_config) : unicast_config :=
  mkUC (uc_tcpEnabled new) (uc_connectionTimeout new) (uc_requestTimeout conf)
       (uc_bindRetryCount conf) (uc_bindRetryWaitTime conf).
(** extention_config.go L25-L27. *)
Definition EC_SetConfig (conf new : extension_config) : extension_config := mkEC (ec_autoPortBindingEnabled new).
(** config.go L23-L26; message_manager.go L54-L56. *)
Definition SetConfig (conf new : config) : config :=
  mkConfig (UC_SetConfig (cf_unicast conf) (cf_unicast new)) (EC_SetConfig (cf_extension conf) (cf_extension new)).

(** unicast_config.go L70-L76, L79-L81. *)
Definition SetBindRetryEnabled (c : unicast_config) (flag : bool) : unicast_config :=
  mkUC (uc_tcpEnabled c) (uc_connectionTimeout c) (uc_requestTimeout c) (if flag then 5 else 0) (uc_bindRetryWaitTime c).
Definition BindRetryEnabled (c : unicast_config) : bool := negb (uc_bindRetryCount c =? 0).

(** The configuration values a local node works with: local_node.go L131-L135
    keeps the given configuration and passes it on to the transport. *)
Record node_config : Type := mkNC { nc_config : config; nc_transport : config }.
(** local_node.go L95-L106: both are defaults. *)
Definition NewNodeConfig : node_config := mkNC NewDefaultConfig NewDefaultConfig.
(** local_node.go L131-L135. *)
Definition Node_SetConfig (n : node_config) (new : config) : node_config :=
  mkNC new (SetConfig (nc_transport n) new).

(** The values in effect.  PostMessage waits for RequestTimeout of the node's
    configuration (local_node_msssage.go L196) and tries TCP first when it says so
    (L170-L176); servers get a copy of the transport's unicast configuration
    (unicast_manager.go L51-L52) for TCP and its timeout; Start of the unicast
    manager takes retry and automatic port binding from the transport's
    configuration (unicast_manager.go L76-L84, L103). *)
Definition eff_post_tcp (n : node_config) : bool := uc_tcpEnabled (cf_unicast (nc_config n)).
Definition eff_request_timeout (n : node_config) : Z := uc_requestTimeout (cf_unicast (nc_config n)).
Definition server_config (n : node_config) : unicast_config :=
  UC_SetConfig NewDefaultUnicastConfig (cf_unicast (nc_transport n)).
Definition eff_server_tcp (n : node_config) : bool := uc_tcpEnabled (server_config n).
Definition eff_connection_timeout (n : node_config) : Z := uc_connectionTimeout (server_config n).
Definition eff_bind_retry (n : node_config) : Z := uc_bindRetryCount (cf_unicast (nc_transport n)).
Definition eff_bind_wait (n : node_config) : Z := uc_bindRetryWaitTime (cf_unicast (nc_transport n)).
Definition eff_auto_port (n : node_config) : bool := ec_autoPortBindingEnabled (cf_extension (nc_transport n)).

(** ** Reception of datagrams *)

(** const.go L17. *)
Definition MaxPacketSize := 1024.

Record datagram : Type := mkDatagram { d_bytes : list Z; d_from : address }.

(** udp_socket.go L127-L149.  ReadFromUDP fills the buffer of MaxPacketSize bytes;
    the rest of a longer datagram is lost. *)
Definition ReadMessage (d : datagram) : res message :=
  m <- NewMessageWithBytes (firstn (Z.to_nat MaxPacketSize) (d_bytes d)) ;;
  Ok (SetFrom m (d_from d)).

(** What a turn of the loop meets: a datagram, an error of the socket, the
    closed cancel channel. *)
Inductive read_event : Type := RDatagram (d : datagram) | RError | RCancel.

Inductive loop_state : Type := LoopRunning | LoopEnded | LoopPanicked.

(** unicast_server.go L122-L137 (packet type UDPUnicastPacket) and
    multicast_server.go L79-L95 (MulticastPacket): the messages for which a
    handling goroutine is started, in order, and the state of the loop. *)
Fixpoint receive_loop (pt : Z) (es : list read_event) : list message * loop_state :=
  match es with
  | [] => ([], LoopRunning)
  | RCancel :: _ => ([], LoopEnded)
  | RError :: _ => ([], LoopEnded)
  | RDatagram d :: es =>
      match ReadMessage d with
      | Ok m => let '(ms, st) := receive_loop pt es in (SetPacketType m pt :: ms, st)
      | Err _ => ([], LoopEnded)
      | Panic => ([], LoopPanicked)
      end
  end.

(** The goroutines run concurrently: a schedule starts the next one or lets one of
    the started ones call the message handler. *)
Inductive spawn_step : Type := SpawnNext | RunNth (k : nat).
(** not started yet, started, handled *)
Definition spawn_run1 (st : list message * list message * list message) (a : spawn_step) :=
  let '(todo, started, handled) := st in
  match a with
  | SpawnNext => match todo with [] => None | m :: todo => Some (todo, started ++ [m], handled) end
  | RunNth k => match nth_error started k with
                | None => None
                | Some m => Some (todo, firstn k started ++ skipn (S k) started, handled ++ [m])
                end
  end.
Fixpoint spawn_run (st : list message * list message * list message) (l : list spawn_step) :=
  match l with
  | [] => Some st
  | a :: l => match spawn_run1 st a with None => None | Some st => spawn_run st l end
  end.

(** ** Start and stop *)

(** What the system answers to a bind: everything succeeds, the listen fails,
    SyscallConn fails, setting the socket options fails. *)
Inductive bind_answer : Type := BOk | BListenFails | BSyscallFails | BOptionFails.

(** Open sockets of the process (numbers), the next number, and how often the
    interfaces have been listed. *)
Record world : Type := mkWorld { w_open : list nat; w_next : nat; w_calls : nat }.

Definition open_socket (w : world) : nat * world :=
  (w_next w, mkWorld (w_next w :: w_open w) (S (w_next w)) (w_calls w)).
Definition close_socket (w : world) (s : nat) : world :=
  mkWorld (remove Nat.eq_dec s (w_open w)) (w_next w) (w_calls w).

(** The pointers to interfaces of interface.go L154-L155: each call makes new
    copies, so a pointer is the number of the call and the position. *)
Definition iptr : Type := (nat * nat)%type.
Definition iptr_eqb (p q : iptr) : bool := Nat.eqb (fst p) (fst q) && Nat.eqb (snd p) (snd q).
Fixpoint number_from (c n : nat) (l : list iface) : list (iptr * iface) :=
  match l with [] => [] | i :: l => ((c, n), i) :: number_from c (S n) l end.
Definition list_interfaces (local : option (list iface)) (w : world) : res (list (iptr * iface)) * world :=
  (l <- GetAvailableInterfaces local ;; Ok (number_from (w_calls w) 0 l),
   mkWorld (w_open w) (w_next w) (S (w_calls w))).

Inductive chan : Type := ChNil | ChOpen | ChClosed.
(** close(ch) *)
Definition close_chan (c : chan) : res chan := match c with ChOpen => Ok ChClosed | _ => Panic end.

(** unicast_server.go L15-L24; [None] is a nil Conn or Listener.  [us_if] is the
    number of the interface, [us_ifi] the pointer; [us_reading] tells whether the
    goroutine of L69 still runs. *)
Record userver : Type := mkUServer {
  us_if : nat; us_ifi : iptr; us_addr : string; us_port : Z; us_tcpEnabled : bool;
  us_udp : option nat; us_udpChannel : chan; us_tcp : option nat; us_tcpChannel : chan; us_reading : bool }.
(** multicast_server.go L15-L22 with the bound interface and address of its socket;
    [ms_unicast] is the position of its unicast server in the list of the unicast
    manager.  Its channel is never closed and left out. *)
Record mserver : Type := mkMServer {
  ms_if : nat; ms_ifi : iptr; ms_addr : string; ms_conn : option nat; ms_unicast : option nat }.

(** The oracle of one operation: the answers to the n-th bind of each kind, which
    may depend on the interface, the address and the port, and whether the n-th
    close reports an error (the socket is released in any case). *)
Record oracle : Type := mkOracle {
  or_udp : nat -> nat -> string -> Z -> bind_answer;
  or_tcp : nat -> nat -> string -> Z -> bind_answer;
  or_multicast : nat -> nat -> string -> bind_answer;
  or_close : nat -> bool }.

(** unicast_udp_socket.go L30-L61 on a new socket. *)
Definition UDP_Bind (a : bind_answer) (w : world) : option nat * world * bool :=
  match a with
  | BOk => let '(s, w) := open_socket w in (Some s, w, true)
  | BListenFails => (None, w, false)
  | BSyscallFails | BOptionFails => let '(s, w) := open_socket w in (None, close_socket w s, false)
  end.
(** tcp_socket.go L39-L67 on a new socket. *)
Definition TCP_Bind (a : bind_answer) (w : world) : option nat * world * bool :=
  match a with
  | BOk => let '(s, w) := open_socket w in (Some s, w, true)
  | BListenFails => (None, w, false)
  | BSyscallFails | BOptionFails => let '(s, w) := open_socket w in (Some s, w, false)
  end.
(** multicast_socket.go L28-L67 on a new socket; multicast_socket_listen.go L16-L28. *)
Definition Multicast_Bind (addr : string) (a : bind_answer) (w : world) : option nat * world * bool :=
  if IsIPv4Address addr || IsIPv6Address addr then
    match a with
    | BOk => let '(s, w) := open_socket w in (Some s, w, true)
    | BListenFails => (None, w, false)
    | BSyscallFails => let '(s, w) := open_socket w in (None, close_socket w s, false)
    | BOptionFails => let '(s, w) := open_socket w in (Some s, w, false)
    end
  else (None, w, false).

(** unicast_server.go L62-L84: the started server, or the error ([None]); the
    server object of a failed start is dropped by its caller. *)
Definition UServer_Start (tcp : bool) (o : oracle) (n : nat) (pi : iptr * iface) (addr : string) (port : Z) (w : world)
  : option userver * world :=
  match UDP_Bind (or_udp o n (if_id (snd pi)) addr port) w with
  | (_, w, false) => (None, w)
  | (udp, w, true) =>
      if tcp then
        match TCP_Bind (or_tcp o n (if_id (snd pi)) addr port) w with
        | (_, w, false) => (None, w)
        | (t, w, true) =>
            (Some (mkUServer (if_id (snd pi)) (fst pi) addr port tcp udp ChOpen t ChOpen true), w)
        end
      else (Some (mkUServer (if_id (snd pi)) (fst pi) addr port tcp udp ChOpen None ChNil true), w)
  end.

(** udp_socket.go L50-L59, tcp_socket.go L70-L84: nothing to do for nil. *)
Definition close_opt (s : option nat) (w : world) : world :=
  match s with None => w | Some s => close_socket w s end.
Definition close_err (s : option nat) (fails : bool) : bool := match s with None => false | Some _ => fails end.

(** unicast_server.go L87-L105; the error is a flag. *)
Definition UServer_Stop (s : userver) (udpFails tcpFails : bool) (w : world) : res (world * bool) :=
  _ <- close_chan (us_udpChannel s) ;;
  let w1 := close_opt (us_udp s) w in
  let e1 := close_err (us_udp s) udpFails in
  if us_tcpEnabled s then
    _ <- close_chan (us_tcpChannel s) ;;
    Ok (close_opt (us_tcp s) w1, e1 || close_err (us_tcp s) tcpFails)
  else Ok (w1, e1).

(** unicast_manager.go L15-L21, multicast_manager.go L14-L17, message_manager.go
    L12-L17; of the configuration the parts that Start uses. *)
Record manager : Type := mkManager {
  mg_tcp : bool; mg_auto : bool; mg_retry : nat; mg_port : Z;
  mg_unicast : list userver; mg_multicast : list mserver }.

Definition with_unicast (m : manager) (l : list userver) : manager :=
  mkManager (mg_tcp m) (mg_auto m) (mg_retry m) (mg_port m) l (mg_multicast m).
Definition with_multicast (m : manager) (l : list mserver) : manager :=
  mkManager (mg_tcp m) (mg_auto m) (mg_retry m) (mg_port m) (mg_unicast m) l.
Definition with_port (m : manager) (p : Z) : manager :=
  mkManager (mg_tcp m) (mg_auto m) (mg_retry m) p (mg_unicast m) (mg_multicast m).
Definition with_config (m : manager) (tcp auto : bool) : manager :=
  mkManager tcp auto (mg_retry m) (mg_port m) (mg_unicast m) (mg_multicast m).

(** unicast_manager.go L116-L129. *)
Fixpoint stop_unicast (l : list userver) (o : oracle) (n : nat) (w : world) : res (world * bool) :=
  match l with
  | [] => Ok (w, false)
  | s :: l =>
      r <- UServer_Stop s (or_close o (2 * n)) (or_close o (2 * n + 1)) w ;;
      r' <- stop_unicast l o (S n) (fst r) ;;
      Ok (fst r', snd r || snd r')
  end.
Definition UManager_Stop (m : manager) (o : oracle) (w : world) : res (manager * world * bool) :=
  r <- stop_unicast (mg_unicast m) o 0 w ;; Ok (with_unicast m [], fst r, snd r).

(** multicast_manager.go L86-L99 with multicast_server.go L57-L62. *)
Fixpoint stop_multicast (l : list mserver) (o : oracle) (n : nat) (w : world) : world * bool :=
  match l with
  | [] => (w, false)
  | s :: l =>
      let '(w', e) := stop_multicast l o (S n) (close_opt (ms_conn s) w) in
      (w', close_err (ms_conn s) (or_close o n) || e)
  end.
Definition MManager_Stop (m : manager) (o : oracle) (w : world) : manager * world * bool :=
  let '(w, e) := stop_multicast (mg_multicast m) o 0 w in (with_multicast m [], w, e).

(** State of the loops of unicast_manager.go L80-L110: the servers, the world,
    lastErr, the number of binds so far. *)
Record starting : Type := mkSt { st_servers : list userver; st_world : world; st_err : bool; st_n : nat }.

(** L92-L97 with L50-L59. *)
Fixpoint start_addrs (tcp : bool) (o : oracle) (pi : iptr * iface) (addrs : list string) (port : Z) (s : starting)
  : starting :=
  match addrs with
  | [] => s
  | a :: addrs =>
      match UServer_Start tcp o (st_n s) pi a port (st_world s) with
      | (Some u, w) => start_addrs tcp o pi addrs port (mkSt (st_servers s ++ [u]) w false (S (st_n s)))
      | (None, w) => mkSt (st_servers s) w true (S (st_n s))
      end
  end.

(** L87-L98; the addresses of an interface do not change during one Start. *)
Fixpoint start_ifs (tcp : bool) (o : oracle) (ifs : list (iptr * iface)) (port : Z) (s : starting) : starting :=
  match ifs with
  | [] => s
  | i :: ifs =>
      start_ifs tcp o ifs port
        (match GetInterfaceAddresses (snd i) with Ok addrs => start_addrs tcp o i addrs port s | _ => s end)
  end.

(** L86-L105, the loop over n; [k] retries are left. *)
Fixpoint start_retry (tcp : bool) (o : oracle) (ifs : list (iptr * iface)) (port : Z) (k : nat) (s : starting) : starting :=
  let s := start_ifs tcp o ifs port s in
  if st_err s then match k with O => s | S k => start_retry tcp o ifs port k s end else s.

(** L80-L110, the loop over the ports, [k] ports after this one: the port that was
    set, if the loop ended with success. *)
Fixpoint start_ports (tcp auto : bool) (retry : nat) (o : oracle) (ifs : list (iptr * iface)) (port : Z) (k : nat)
  (s : starting) : starting * option Z :=
  let s := start_retry tcp o ifs port (if auto then O else retry) s in
  if st_err s then match k with O => (s, None) | S k => start_ports tcp auto retry o ifs (port + 1) k s end
  else (s, Some port).

(** const.go L22. *)
Definition UDPPortRange : nat := 100.

(** unicast_manager.go L62-L113. *)
Definition UManager_Start (m : manager) (o stop : oracle) (local : option (list iface)) (w : world)
  : res (manager * world * bool) :=
  r <- UManager_Stop m stop w ;;
  let '(m, w, e) := r in
  if e then Ok (m, w, true)
  else
    match list_interfaces local w with
    | (Ok ifs, w) =>
        let '(s, p) := start_ports (mg_tcp m) (mg_auto m) (mg_retry m) o ifs (mg_port m)
                         (if mg_auto m then UDPPortRange else O) (mkSt [] w false 0) in
        let m := with_unicast m (st_servers s) in
        Ok (match p with Some p => with_port m p | None => m end, st_world s, st_err s)
    | (_, w) => Ok (m, w, true)
    end.

(** multicast_manager.go L73-L79 with L46-L54 and multicast_server.go L47-L54: the
    servers so far, the world, whether a start failed, the number of binds. *)
Fixpoint mstart_addrs (o : oracle) (pi : iptr * iface) (addrs : list string) (n : nat) (l : list mserver) (w : world)
  : list mserver * world * bool * nat :=
  match addrs with
  | [] => (l, w, false, n)
  | a :: addrs =>
      match Multicast_Bind a (or_multicast o n (if_id (snd pi)) a) w with
      | (c, w, true) => mstart_addrs o pi addrs (S n) (l ++ [mkMServer (if_id (snd pi)) (fst pi) a c None]) w
      | (_, w, false) => (l, w, true, S n)
      end
  end.
(** multicast_manager.go L68-L80. *)
Fixpoint mstart_ifs (o : oracle) (ifs : list (iptr * iface)) (n : nat) (l : list mserver) (w : world)
  : list mserver * world * bool :=
  match ifs with
  | [] => (l, w, false)
  | i :: ifs =>
      match GetInterfaceAddresses (snd i) with
      | Ok addrs =>
          match mstart_addrs o i addrs n l w with
          | (l, w, false, n) => mstart_ifs o ifs n l w
          | (l, w, true, _) => (l, w, true)
          end
      | _ => mstart_ifs o ifs n l w
      end
  end.

(** multicast_manager.go L57-L83; [stop] and [stop2] are the oracles of the two stops. *)
Definition MManager_Start (m : manager) (o stop stop2 : oracle) (local : option (list iface)) (w : world)
  : manager * world * bool :=
  let '(m, w, e) := MManager_Stop m stop w in
  if e then (m, w, true)
  else
    match list_interfaces local w with
    | (Ok ifs, w) =>
        let '(l, w, e) := mstart_ifs o ifs 0 [] w in
        let m := with_multicast m l in
        if e then let '(m, w, _) := MManager_Stop m stop2 w in (m, w, true) else (m, w, false)
    | (_, w) => (m, w, true)
    end.

(** unicast_manager.go L137-L146: position of the first server with that interface
    pointer. *)
Fixpoint find_ifi (p : iptr) (l : list userver) (n : nat) : option nat :=
  match l with [] => None | s :: l => if iptr_eqb (us_ifi s) p then Some n else find_ifi p l (S n) end.
(** unicast_manager.go L132-L147; [None] is the error. *)
Definition getAppropriateServerForInterface (l : list userver) (p : iptr) : option nat :=
  match l with
  | [] => None
  | _ => match find_ifi p l 0 with Some n => Some n | None => Some O end
  end.
(** multicast_manager.go L107-L117: the servers, or the error; its Stop is left to
    the Stop of the caller (message_manager.go L120). *)
Fixpoint setUnicastManager (l : list mserver) (us : list userver) : option (list mserver) :=
  match l with
  | [] => Some []
  | s :: l =>
      match getAppropriateServerForInterface us (ms_ifi s) with
      | None => None
      | Some n => match setUnicastManager l us with
                  | None => None
                  | Some l => Some (mkMServer (ms_if s) (ms_ifi s) (ms_addr s) (ms_conn s) (Some n) :: l)
                  end
      end
  end.

(** message_manager.go L130-L143. *)
Definition Manager_Stop (m : manager) (o o' : oracle) (w : world) : res (manager * world * bool) :=
  let '(m, w, e) := MManager_Stop m o w in
  r <- UManager_Stop m o' w ;;
  let '(m, w, e') := r in Ok (m, w, e || e').

(** The oracles of a start: the interfaces as listed by the two managers, the
    binds, and each of the stops it makes. *)
Record start_oracle : Type := mkSO {
  so_local : option (list iface); so_local' : option (list iface);
  so_unicast : oracle; so_multicast : oracle;
  so_stop : nat -> oracle }.

(** message_manager.go L113-L114, L120-L121. *)
Definition give_up (m : manager) (so : start_oracle) (w : world) : res (manager * world * bool) :=
  r <- Manager_Stop m (so_stop so 5) (so_stop so 6) w ;;
  let '(m, w, _) := r in Ok (m, w, true).

(** message_manager.go L101-L127. *)
Definition Manager_Start (m : manager) (so : start_oracle) (w : world) : res (manager * world * bool) :=
  r <- Manager_Stop m (so_stop so 0) (so_stop so 1) w ;;
  let '(m, w, e) := r in
  if e then Ok (m, w, true)
  else
    r <- UManager_Start m (so_unicast so) (so_stop so 2) (so_local so) w ;;
    let '(m, w, e) := r in
    if e then Ok (m, w, true)
    else
      let '(m, w, e) := MManager_Start m (so_multicast so) (so_stop so 3) (so_stop so 4) (so_local' so) w in
      if e then give_up m so w
      else match setUnicastManager (mg_multicast m) (mg_unicast m) with
           | None => give_up m so w
           | Some l => Ok (with_port (with_multicast m l) (mg_port m), w, false)
           end.

(** unicast_manager.go L150-L152, multicast_manager.go L102-L104, message_manager.go L146-L156. *)
Definition IsRunning (m : manager) : bool :=
  match mg_unicast m with [] => false | _ :: _ => match mg_multicast m with [] => false | _ :: _ => true end end.

(** message_manager.go L20-L28: a new manager (with its configuration and port). *)
Definition NewManager (tcp auto : bool) (retry : nat) (port : Z) : manager := mkManager tcp auto retry port [] [].
Definition new_world : world := mkWorld [] 0 0.

(** ** Histories *)
Inductive transport_op : Type :=
| TStart (so : start_oracle)
| TStop (o o' : oracle)
| TSetConfig (tcp auto : bool)
| TSetPort (p : Z)
| TUnicastBad (k : nat)     (* the k-th unicast server receives a malformed datagram *)
| TMulticastBad (k : nat).  (* the k-th multicast server receives a malformed datagram *)

(** multicast_server.go L80, L86-L89. *)
Definition drop_conn (k : nat) (l : list mserver) : list mserver :=
  match nth_error l k with
  | None => l
  | Some s => firstn k l ++ mkMServer (ms_if s) (ms_ifi s) (ms_addr s) None (ms_unicast s) :: skipn (S k) l
  end.
(** unicast_server.go L128-L131. *)
Definition stop_reading (k : nat) (l : list userver) : list userver :=
  match nth_error l k with
  | None => l
  | Some s => firstn k l ++
      mkUServer (us_if s) (us_ifi s) (us_addr s) (us_port s) (us_tcpEnabled s) (us_udp s) (us_udpChannel s)
        (us_tcp s) (us_tcpChannel s) false :: skipn (S k) l
  end.

(** The manager, the world, and the error of the operation. *)
Definition transport_step (st : manager * world) (op : transport_op) : res (manager * world * bool) :=
  let '(m, w) := st in
  match op with
  | TStart so => Manager_Start m so w
  | TStop o o' => Manager_Stop m o o' w
  | TSetConfig tcp auto => Ok (with_config m tcp auto, w, false)
  | TSetPort p => Ok (with_port m p, w, false)
  | TUnicastBad k => Ok (with_unicast m (stop_reading k (mg_unicast m)), w, false)
  | TMulticastBad k =>
      match nth_error (mg_multicast m) k with
      | None => Ok (m, w, false)
      | Some s => Ok (with_multicast m (drop_conn k (mg_multicast m)), close_opt (ms_conn s) w, false)
      end
  end.

Fixpoint transport_run (st : manager * world) (ops : list transport_op) : res (manager * world) :=
  match ops with
  | [] => Ok st
  | op :: ops => r <- transport_step st op ;; transport_run (fst r) ops
  end.

(** ** Sending *)

(** unicast_manager.go L155-L168 and L171-L184 have the same loop: the servers are
    tried in order until one succeeds ([ok k]: the k-th server can send).  The
    result is the list of the servers that sent the message, and the error. *)
Fixpoint try_servers (l : list userver) (ok : nat -> bool) (k : nat) : list userver * bool :=
  match l with
  | [] => ([], true)
  | s :: l => if ok k then ([s], false) else try_servers l ok (S k)
  end.
Definition UManager_SendMessage (m : manager) (ok : nat -> bool) : list userver * bool := try_servers (mg_unicast m) ok 0.
Definition UManager_AnnounceMessage (m : manager) (ok : nat -> bool) : list userver * bool := try_servers (mg_unicast m) ok 0.
(** multicast_server.go L64-L77: the unicast server that answers a request received
    by a multicast server. *)
Definition answering_server (m : manager) (s : mserver) : option userver :=
  match ms_unicast s with None => None | Some n => nth_error (mg_unicast m) n end.
