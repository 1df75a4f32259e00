(** Model of the time PostMessage takes (net/echonet/local_node_msssage.go L157-L201,
    transport/unicast_manager.go L155-L168, L187-L205, unicast_server.go L46-L54,
    tcp_socket.go L120-L144, L179-L211).

    The time each blocking operation would take by itself is given by the network; the
    deadlines cut it off.  Simplified: what does not block takes no time, nor does the
    resolution of an address, which is numeric.  Times are in nanoseconds; the timeouts
    may be negative, which is as zero. *)

From Verif Require Import Go Encoding Protocol Parser Reader StdDB Property Object Node Handler Transport Exchange.
Local Open Scope Z_scope.

(** Times of the dial, of the write and of the reads of one connection, without deadline. *)
Record took : Type := mkTook { tk_dial : Z; tk_write : Z; tk_read : Z }.

(** An operation under a deadline [timeout] from now. *)
Definition within (timeout t : Z) : Z := Z.min t (Z.max 0 timeout).

(** tcp_socket.go L179-L211: DialTCP (L192) has no deadline. *)
Definition dial_time (timeout : Z) (a : tcp_answer) (t : took) : Z :=
  match a with
  | ANoAddress => 0
  | ADialFails | ADeadlineFails => tk_dial t
  | AWriteFails _ | AWritten _ _ => tk_dial t + within timeout (tk_write t)
  end.

(** tcp_socket.go L129-L144 *)
Definition exchange_time (timeout : Z) (a : tcp_answer) (t : took) : Z :=
  dial_time timeout a t + match a with AWritten true _ => within timeout (tk_read t) | _ => 0 end.

(** unicast_manager.go L193-L205: the servers one after the other until one has the
    response. *)
Fixpoint UManager_Post_time (timeout : Z) (k : nat) (server : address) (answers : list (tcp_answer * took)) (m : message) : Z :=
  match answers with
  | [] => 0
  | (a, t) :: rest =>
      exchange_time timeout a t +
      match TCP_PostMessage k server a m with
      | Ok (_, Err _) => UManager_Post_time timeout (S k) server rest m
      | _ => 0
      end
  end.

(** unicast_manager.go L155-L168 with unicast_server.go L46-L54 *)
Fixpoint UManager_Send_time (tcp : bool) (timeout : Z) (k : nat) (answers : list (tcp_answer * bool * took)) (m : message) : Z :=
  match answers with
  | [] => 0
  | (a, udp, t) :: rest =>
      (if tcp then dial_time timeout a t else 0) +
      match UServer_SendMessage tcp k a udp m with
      | Ok (_, false) => UManager_Send_time tcp timeout (S k) rest m
      | _ => 0
      end
  end.

(** The network during a call, with times. *)
Record timed_net : Type := mkTimedNet {
  tn_node_tcp : bool; tn_server_tcp : bool;
  tn_post : list (tcp_answer * took); tn_send : list (tcp_answer * bool * took) }.
Definition untimed (n : timed_net) : post_net :=
  mkPostNet (tn_node_tcp n) (tn_server_tcp n) (map fst (tn_post n)) (map fst (tn_send n)).

(** local_node_msssage.go L166-L171: the time of the TCP exchange. *)
Definition post_tcp_time (timeout : Z) (nd : node) (dst : address) (msg : message) (net : timed_net) : Z :=
  if negb (n_running nd) then 0
  else match updateMessageDestinationHeader nd msg with
       | (_, Ok msg) => if tn_server_tcp net then UManager_Post_time timeout 0 dst (tn_post net) msg else 0
       | _ => 0
       end.

(** L178-L200: the time from the lock on: the send and the wait.  [nd] and [msg] are
    those left by the exchange. *)
Definition locked_time (timeout request_timeout : Z) (nd : node) (msg : message) (net : timed_net) (ctx : option Z) (response : option (Z * message)) : Z :=
  if negb (n_running nd) then 0
  else match updateMessageDestinationHeader nd msg with
       | (_, Ok msg) =>
           UManager_Send_time (tn_server_tcp net) timeout 0 (tn_send net) msg +
           match UManager_Send (tn_server_tcp net) 0 (map fst (tn_send net)) msg with
           | Ok (_, true) => fst (wait_response ctx (Z.max 0 request_timeout) response)
           | _ => 0
           end
       | _ => 0
       end.

(** L157-L201: the time until PostMessage returns, of a call that does not wait for the
    lock; first the time before the lock. *)
Definition Node_PostMessage_time (timeout request_timeout : Z) (nd : node) (dst : address) (msg : message) (net : timed_net)
  (ctx : option Z) (response : option (Z * message)) : Z * Z :=
  let t1 := if tn_node_tcp net then post_tcp_time timeout nd dst msg net else 0 in
  match (if tn_node_tcp net then post_tcp nd dst msg (untimed net) else Ok (nd, msg, [], None)) with
  | Ok (nd, msg, _, None) => (t1, locked_time timeout request_timeout nd msg net ctx response)
  | _ => (t1, 0)
  end.

(** L178: callers that come to the lock at the times [fst], in the order in which they
    get it, and hold it for the times [snd]; when each of them is done. *)
Fixpoint lock_queue (free : Z) (callers : list (Z * Z)) : list Z :=
  match callers with
  | [] => []
  | (ready, hold) :: rest => let t := Z.max free ready + hold in t :: lock_queue t rest
  end.
