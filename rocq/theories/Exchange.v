(** Model of the way of a message from one node to another and of the response
    back: net/echonet/transport/udp_socket.go, tcp_socket.go, unicast_server.go,
    multicast_server.go, unicast_manager.go and PostMessage of
    net/echonet/local_node_msssage.go, put together from the models of the parts.

    The network is an oracle: what a dial, a write or a read answers is given
    with the operation.  Not modelled: the windows variants, logging, the
    contents of errors; time appears only in [wait_response]. *)

From Verif Require Import Go Encoding Protocol Parser Reader StdDB Property Object Node Handler Transport.
Local Open Scope Z_scope.

(** local_node_msssage.go L204-L209, L214-L219 with message.go L111-L116: the
    message of SendRequest and PostRequest.  Simplified: the properties are given
    by code and data. *)
Definition new_request (obj esv : Z) (ps : list pprop) : message :=
  AddProperties (SetESV (SetDEOJ NewMessage obj) esv) ps.

(** ** UDP *)

(** udp_socket.go L72-L87, L108-L110: the datagram that leaves a socket bound to
    [self].  Simplified: the network delivers it unchanged or not at all. *)
Definition UDP_SendMessage (self : address) (m : message) : res datagram :=
  b <- Bytes m ;; Ok (mkDatagram b self).

Section Serving.
Context {W : Type}.

(** Nothing was handled. *)
Definition not_handled (w : W) (nd : node) : outcome W := mkOutcome w nd [] false (Ok None).

(** unicast_server.go L107-L120 and multicast_server.go L64-L77 with
    unicast_udp_socket.go L64-L69: the outcome, and the datagram sent back with
    its destination.  The handler of a local node is always set (local_node.go
    L104). *)
Definition handle_datagram_message (cb : callbacks W) (w : W) (nd : node) (pending : option message)
  (self : address) (req : message) : outcome W * res (option (address * datagram)) :=
  let out := ProtocolMessageReceived cb w nd pending req in
  (out, match out_reply out with
        | Ok (Some resp) => d <- UDP_SendMessage self resp ;; Ok (Some (m_from req, d))
        | Ok None | Err _ => Ok None
        | Panic => Panic
        end).

(** unicast_server.go L128-L134 (UDPUnicastPacket), multicast_server.go L86-L92
    (MulticastPacket): one received datagram. *)
Definition serve_datagram (cb : callbacks W) (w : W) (nd : node) (pending : option message)
  (pt : Z) (self : address) (d : datagram) : outcome W * res (option (address * datagram)) :=
  match ReadMessage d with
  | Ok m => handle_datagram_message cb w nd pending self (SetPacketType m pt)
  | Err _ => (not_handled w nd, Ok None)
  | Panic => (not_handled w nd, Panic)
  end.

(** unicast_server.go L139-L158 with tcp_socket.go L92-L113, L155-L158: one
    accepted connection from [from]; [segs] are the results of the successive
    reads of the connection.  The bytes written to the connection; it is closed
    afterwards on every path (L140). *)
Definition serve_connection (cb : callbacks W) (w : W) (nd : node) (pending : option message)
  (from : address) (segs : list (list Z)) : outcome W * res (list Z) :=
  match NewMessageWithReader bufio_Read (NewBufio segs) with
  | Ok m =>
      let out := ProtocolMessageReceived cb w nd pending (SetPacketType (SetFrom m from) TCPUnicastPacket) in
      (out, match out_reply out with
            | Ok (Some resp) => Bytes resp
            | Ok None | Err _ => Ok []
            | Panic => Panic
            end)
  | Err _ => (not_handled w nd, Ok [])
  | Panic => (not_handled w nd, Panic)
  end.

End Serving.

(** ** The client side over TCP *)

(** What the network answers to dialAndWriteBytes (tcp_socket.go L179-L211) and to
    the reads afterwards: address or own address not available (L180-L190), dial
    fails (L192-L197), deadline cannot be set (L199-L203), write fails after
    [n] bytes (L205-L208), everything written; then whether the read deadline can
    be set (L137-L141) and what is read until the end of the connection or the
    deadline. *)
Inductive tcp_answer : Type :=
| ANoAddress
| ADialFails
| ADeadlineFails
| AWriteFails (n : nat)
| AWritten (deadline : bool) (segs : list (list Z)).

(** What is seen on the network: connections opened and closed, bytes written to
    a connection, datagrams. *)
Inductive net_event : Type :=
| Opened (from : nat)                     (* by the [from]-th server *)
| Wrote (from : nat) (b : list Z)
| Closed (from : nat)
| SentUDP (from : nat) (b : list Z).

(** tcp_socket.go L179-L211: the events, and whether the connection is open
    ([Some false]: a connection is returned that is closed already). *)
Definition dialAndWriteBytes (k : nat) (a : tcp_answer) (b : list Z) : list net_event * option bool * bool :=
  match a with
  | ANoAddress | ADialFails => ([], None, false)
  | ADeadlineFails => ([Opened k; Closed k], None, false)
  | AWriteFails n => ([Opened k; Wrote k (firstn n b); Closed k], Some false, false)
  | AWritten _ _ => ([Opened k; Wrote k b], Some true, true)
  end.

(** tcp_socket.go L120-L126; Close of a closed connection does nothing. *)
Definition TCP_SendMessage (k : nat) (a : tcp_answer) (m : message) : res (list net_event * bool) :=
  b <- Bytes m ;;
  let '(evs, conn, ok) := dialAndWriteBytes k a b in
  Ok (evs ++ match conn with Some true => [Closed k] | _ => [] end, ok).

(** tcp_socket.go L129-L144 with L92-L113; [server] is the address of the peer. *)
Definition TCP_PostMessage (k : nat) (server : address) (a : tcp_answer) (m : message)
  : res (list net_event * res message) :=
  b <- Bytes m ;;
  let '(evs, _, ok) := dialAndWriteBytes k a b in
  if negb ok then Ok (evs, Err ErrOther)
  else match a with
       | AWritten true segs =>
           Ok (evs ++ [Closed k],
               m <- NewMessageWithReader bufio_Read (NewBufio segs) ;; Ok (SetFrom m server))
       | _ => Ok (evs ++ [Closed k], Err ErrOther)
       end.

(** unicast_server.go L46-L54; [udp] tells whether the datagram can be sent. *)
Definition UServer_SendMessage (tcp : bool) (k : nat) (a : tcp_answer) (udp : bool) (m : message)
  : res (list net_event * bool) :=
  r <- (if tcp then TCP_SendMessage k a m else Ok ([], false)) ;;
  let '(evs, ok) := r in
  if ok then Ok (evs, true)
  else b <- Bytes m ;; Ok (evs ++ if udp then [SentUDP k b] else [], udp).

(** unicast_manager.go L155-L168: [answers] has one entry for each server, in order. *)
Fixpoint UManager_Send (tcp : bool) (k : nat) (answers : list (tcp_answer * bool)) (m : message)
  : res (list net_event * bool) :=
  match answers with
  | [] => Ok ([], false)
  | (a, udp) :: rest =>
      r <- UServer_SendMessage tcp k a udp m ;;
      let '(evs, ok) := r in
      if ok then Ok (evs, true)
      else r' <- UManager_Send tcp (S k) rest m ;; Ok (evs ++ fst r', snd r')
  end.

(** unicast_manager.go L193-L205, the loop behind the check of TCPEnabled. *)
Fixpoint UManager_Post (k : nat) (server : address) (answers : list tcp_answer) (m : message)
  : res (list net_event * res message) :=
  match answers with
  | [] => Ok ([], Err ErrNotRunning)
  | a :: rest =>
      r <- TCP_PostMessage k server a m ;;
      match snd r with
      | Ok resp => Ok (fst r, Ok resp)
      | Panic => Ok (fst r, Panic)
      | Err e =>
          match rest with
          | [] => Ok (fst r, Err e)
          | _ => r' <- UManager_Post (S k) server rest m ;; Ok (fst r ++ fst r', snd r')
          end
      end
  end.

(** ** PostMessage

    The network during a call: whether a TCP exchange is tried (the configuration
    of the node and that of the transport, local_node_msssage.go L166,
    unicast_manager.go L188), the answers to the TCP exchanges, those to the
    sends afterwards. *)
Record post_net : Type := mkPostNet {
  pn_node_tcp : bool; pn_server_tcp : bool;
  pn_post : list tcp_answer; pn_send : list (tcp_answer * bool) }.

(** How PostMessage goes on: with the response, an error of the send, or waiting
    for a response to the request it has sent (L193-L198, see [Post]). *)
Inductive posted : Type :=
| PostDone (resp : message)
| PostFailed
| PostWaits (req : message).

(** local_node_msssage.go L166-L171: the TCP exchange. *)
Definition post_tcp (nd : node) (dst : address) (msg : message) (net : post_net)
  : res (node * message * list net_event * option message) :=
  if negb (n_running nd) then Ok (nd, msg, [], None)
  else
    match updateMessageDestinationHeader nd msg with
    | (nd, Ok msg) =>
        if pn_server_tcp net then
          r <- UManager_Post 0 dst (pn_post net) msg ;;
          let nd := hand_over nd (TCPPost dst msg) in
          match snd r with
          | Ok resp => Ok (nd, msg, fst r, Some resp)
          | Err _ => Ok (nd, msg, fst r, None)
          | Panic => Panic
          end
        else Ok (hand_over nd (TCPPost dst msg), msg, [], None)
    | (nd, Err _) => Ok (nd, SetTID msg (n_lastTID nd), [], None)
    | (nd, Panic) => Panic
    end.

(** local_node_msssage.go L157-L201 of a call that runs alone, up to the wait.
    The message object of the caller is changed by the first attempt and used
    again by the second one. *)
Definition Node_PostMessage (nd : node) (dst : address) (msg : message) (net : post_net)
  : res (node * list net_event * posted) :=
  r <- (if pn_node_tcp net then post_tcp nd dst msg net else Ok (nd, msg, [], None)) ;;
  let '(nd, msg, evs, resp) := r in
  match resp with
  | Some resp => Ok (nd, evs, PostDone resp)
  | None =>
      if negb (n_running nd) then Ok (nd, evs, PostFailed)
      else
        match updateMessageDestinationHeader nd msg with
        | (nd, Ok msg) =>
            r <- UManager_Send (pn_server_tcp net) 0 (pn_send net) msg ;;
            Ok (hand_over nd (Unicast dst msg), evs ++ fst r, if snd r then PostWaits msg else PostFailed)
        | (nd, Err _) => Ok (nd, evs, PostFailed)
        | (nd, Panic) => Panic
        end
  end.

(** ** Waiting for the response

    local_node_msssage.go L158-L162, L193-L200.  Times are relative to the begin
    of the wait: [ctx] is the deadline or the cancellation of the context of the
    caller, [timeout] is RequestTimeout, [response] the arrival of a response.
    The context built in L160 ends after DefaultResponseTimeout; it is passed to
    SendMessage, which does not look at it, and never asked again. *)
Definition wait_response (ctx : option Z) (timeout : Z) (response : option (Z * message)) : Z * res message :=
  match response with
  | Some (t, m) => if t <? timeout then (t, Ok m) else (timeout, Err ErrTimeout)
  | None => (timeout, Err ErrTimeout)
  end.
