(** Model of the goroutines of the servers of a node while they run and when they are
    stopped (net/echonet/transport/unicast_server.go L62-L174, multicast_server.go
    L46-L95, tcp_socket.go L67-L83, L92-L113, udp_socket.go L49-L59, L72-L105,
    L127-L149).

    The state has all servers that were ever started; a step is one step of one
    goroutine.  A loop is at its select, inside a blocking read (accept), or has
    returned.  A message that was read and not handed to the message handler yet is in
    flight, whether its goroutine runs already or not.  A read that is in progress when
    the socket is closed may still return a datagram: the descriptor is closed when the
    last read has left it.

    Simplified: the test of Conn and the read after it (udp_socket.go L128, L132) are
    one step; what the message handler does and answers is up to the label. *)

From Verif Require Import Go Encoding Protocol Parser Reader Transport.
Local Open Scope Z_scope.

Inductive loop_at : Type := AtSelect | Inside | Returned.

(** An accepted connection: its goroutine reads, holds a message, or has closed it. *)
Inductive conn_at : Type := CReading (from : address) | CHolds (m : message) | CClosed.

Record sserver : Type := mkSS {
  ss_multicast : bool;            (* a MulticastServer, else a UnicastServer *)
  ss_tcp : bool;                  (* TCPEnabled *)
  ss_cancel : bool;               (* the cancel channels are closed *)
  ss_bound : bool;                (* Conn of the UDP socket is not nil *)
  ss_stopped : bool;              (* Stop was called *)
  ss_loop : loop_at;
  ss_listener : loop_at;
  ss_flying : list message;
  ss_conns : list conn_at;
  ss_via : option nat             (* UnicastServer of a multicast server *)
}.

(** What is seen from outside; the first number is that of the server. *)
Inductive sevent : Type :=
| ERead (i : nat) (m : message)                              (* a datagram was read *)
| EAccept (i k : nat)
| EReadConn (i k : nat) (m : message)
| ECall (i : nat) (m : message)                              (* ProtocolMessageReceived *)
| EAnswer (i : nat) (bound : bool) (m : message) (resp : message)   (* a datagram to the source of m *)
| EReply (i k : nat) (resp : message)                        (* bytes written to a connection *)
| EClose (i k : nat).

Inductive slabel : Type :=
| SSelect
| SDatagram (d : datagram)
| SReadFails
| SHandle (k : nat) (resp : option message)
| SListen
| SConnect (from : address)
| SAcceptFails
| SRead (k : nat) (segs : list (list Z))
| SHandleConn (k : nat) (resp : option message)
| SVia (j : nat)
| SStop.

Definition with_loop (s : sserver) (l : loop_at) : sserver :=
  mkSS (ss_multicast s) (ss_tcp s) (ss_cancel s) (ss_bound s) (ss_stopped s) l (ss_listener s) (ss_flying s) (ss_conns s) (ss_via s).
Definition with_listener (s : sserver) (l : loop_at) : sserver :=
  mkSS (ss_multicast s) (ss_tcp s) (ss_cancel s) (ss_bound s) (ss_stopped s) (ss_loop s) l (ss_flying s) (ss_conns s) (ss_via s).
Definition with_flying (s : sserver) (f : list message) : sserver :=
  mkSS (ss_multicast s) (ss_tcp s) (ss_cancel s) (ss_bound s) (ss_stopped s) (ss_loop s) (ss_listener s) f (ss_conns s) (ss_via s).
Definition with_conns (s : sserver) (c : list conn_at) : sserver :=
  mkSS (ss_multicast s) (ss_tcp s) (ss_cancel s) (ss_bound s) (ss_stopped s) (ss_loop s) (ss_listener s) (ss_flying s) c (ss_via s).
Definition with_bound (s : sserver) (b : bool) : sserver :=
  mkSS (ss_multicast s) (ss_tcp s) (ss_cancel s) b (ss_stopped s) (ss_loop s) (ss_listener s) (ss_flying s) (ss_conns s) (ss_via s).

(** The server after a successful Start: unicast_server.go L62-L84, multicast_server.go
    L47-L54. *)
Definition started (multicast tcp : bool) : sserver :=
  mkSS multicast tcp false true false AtSelect (if negb multicast && tcp then AtSelect else Returned) [] [] None.

(** The loop returns; that of a multicast server closes the socket
    (multicast_server.go L80). *)
Definition loop_returns (s : sserver) : sserver :=
  let s := with_loop s Returned in if ss_multicast s then with_bound s false else s.

(** Stop: unicast_server.go L87-L105 closes the channels and the sockets, whose Close
    empties Conn first (udp_socket.go L51-L55) and makes reads and accepts in progress
    end by a deadline in the past; multicast_server.go L57-L62 closes the socket only. *)
Definition stop_server (s : sserver) : sserver :=
  mkSS (ss_multicast s) (ss_tcp s) (negb (ss_multicast s) || ss_cancel s) false true
       (ss_loop s) (ss_listener s) (ss_flying s) (ss_conns s) (ss_via s).

Fixpoint replace_nth {A} (l : list A) (n : nat) (a : A) : list A :=
  match l, n with
  | [], _ => []
  | _ :: l, O => a :: l
  | x :: l, S n => x :: replace_nth l n a
  end.
Definition remove_nth {A} (l : list A) (n : nat) : list A := firstn n l ++ skipn (S n) l.

(** The packet type the loop sets: unicast_server.go L132, multicast_server.go L90. *)
Definition loop_type (s : sserver) : Z := if ss_multicast s then MulticastPacket else UDPUnicastPacket.

(** One step of server [i]; [bound_of] tells whether the UDP socket of a server is
    bound. *)
Definition server_step (bound_of : nat -> bool) (i : nat) (s : sserver) (l : slabel) : option (sserver * list sevent) :=
  match l with
  | SSelect =>                                        (* L122-L129; ReadMessage L128-L130 *)
      match ss_loop s with
      | AtSelect => if ss_cancel s then Some (loop_returns s, [])
                    else if ss_bound s then Some (with_loop s Inside, [])
                    else Some (loop_returns s, [])
      | _ => None
      end
  | SDatagram d =>                                    (* L128-L134 *)
      match ss_loop s with
      | Inside =>
          match ReadMessage d with
          | Ok m => let m := SetPacketType m (loop_type s) in
                    Some (with_loop (with_flying s (ss_flying s ++ [m])) AtSelect, [ERead i m])
          | Err _ => Some (loop_returns s, [])
          | Panic => None
          end
      | _ => None
      end
  | SReadFails => match ss_loop s with Inside => Some (loop_returns s, []) | _ => None end
  | SHandle k resp =>                                 (* L107-L120; multicast_server.go L64-L77 *)
      match nth_error (ss_flying s) k with
      | None => None
      | Some m =>
          Some (with_flying s (remove_nth (ss_flying s) k),
                ECall i m ::
                match resp with
                | None => []
                | Some r =>
                    if ss_multicast s
                    then match ss_via s with Some j => [EAnswer j (bound_of j) m r] | None => [] end
                    else [EAnswer i (bound_of i) m r]
                end)
      end
  | SListen =>                                        (* L161-L166 *)
      match ss_listener s with
      | AtSelect => if ss_cancel s then Some (with_listener s Returned, []) else Some (with_listener s Inside, [])
      | _ => None
      end
  | SConnect from =>                                  (* L167-L171 *)
      match ss_listener s with
      | Inside => Some (with_listener (with_conns s (ss_conns s ++ [CReading from])) AtSelect, [EAccept i (length (ss_conns s))])
      | _ => None
      end
  | SAcceptFails => match ss_listener s with Inside => Some (with_listener s Returned, []) | _ => None end
  | SRead k segs =>                                   (* L142-L146; the connection is closed at the end (L140) *)
      match nth_error (ss_conns s) k with
      | Some (CReading from) =>
          match NewMessageWithReader bufio_Read (NewBufio segs) with
          | Ok m => let m := SetPacketType (SetFrom m from) TCPUnicastPacket in
                    Some (with_conns s (replace_nth (ss_conns s) k (CHolds m)), [EReadConn i k m])
          | Err _ => Some (with_conns s (replace_nth (ss_conns s) k CClosed), [EClose i k])
          | Panic => None
          end
      | _ => None
      end
  | SHandleConn k resp =>                             (* L148-L158 *)
      match nth_error (ss_conns s) k with
      | Some (CHolds m) =>
          Some (with_conns s (replace_nth (ss_conns s) k CClosed),
                ECall i m :: match resp with None => [] | Some r => [EReply i k r] end ++ [EClose i k])
      | _ => None
      end
  | SVia j =>                                         (* multicast_server.go L42-L44 *)
      if ss_multicast s
      then Some (mkSS (ss_multicast s) (ss_tcp s) (ss_cancel s) (ss_bound s) (ss_stopped s) (ss_loop s) (ss_listener s)
                      (ss_flying s) (ss_conns s) (Some j), [])
      else None
  | SStop => if ss_stopped s then None else Some (stop_server s, [])
  end.

Inductive syslabel : Type :=
| On (i : nat) (l : slabel)
| Starts (multicast tcp : bool).                      (* unicast_manager.go L50-L59, multicast_manager.go L46-L54 *)

Record sysstate : Type := mkSys { sy_servers : list sserver; sy_log : list sevent }.

Definition bound_in (servers : list sserver) (j : nat) : bool :=
  match nth_error servers j with Some s => ss_bound s | None => false end.

Definition sys_step (s : sysstate) (l : syslabel) : option sysstate :=
  match l with
  | Starts multicast tcp => Some (mkSys (sy_servers s ++ [started multicast tcp]) (sy_log s))
  | On i l =>
      match nth_error (sy_servers s) i with
      | None => None
      | Some sv =>
          match server_step (bound_in (sy_servers s)) i sv l with
          | None => None
          | Some (sv', evs) => Some (mkSys (replace_nth (sy_servers s) i sv') (sy_log s ++ evs))
          end
      end
  end.

Fixpoint sys_run (s : sysstate) (ls : list syslabel) : option sysstate :=
  match ls with
  | [] => Some s
  | l :: ls => match sys_step s l with None => None | Some s => sys_run s ls end
  end.

Definition sys_init : sysstate := mkSys [] [].
