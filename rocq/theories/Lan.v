(** Model of a network: a controller and any number of nodes that exchange
    datagrams.  It puts together the node ([Node], [Handler]), the controller
    ([Remote]) and the transport over UDP ([Exchange]).

    Simplified: every node is bound to one address; a node or the controller
    handles one message at a time ([Concurrent] has the other case); nobody waits
    for a response ([Post]); TCP is switched off.  The network may lose, repeat
    and reorder datagrams. *)

From Verif Require Import Go Encoding Protocol StdDB Property Object Node Handler Remote Transport Exchange.
Local Open Scope Z_scope.

Section Lan.
Variable W : Type.

(** A node with its application. *)
Record host : Type := mkHost { h_node : node; h_app : W; h_cb : callbacks W }.

(** A datagram on its way to one member of the network: 0 is the controller. *)
Record packet : Type := mkPacket { pk_to : nat; pk_type : Z; pk_datagram : datagram }.

(** The controller with its local node, the nodes, the datagrams on their way. *)
Record lan : Type := mkLan {
  l_node : node; l_ctrl : ctrl; l_hosts : list host; l_packets : list packet }.

Definition members (s : lan) : list node := l_node s :: map h_node (l_hosts s).

Definition with_node (h : host) (nd : node) : host := mkHost nd (h_app h) (h_cb h).
Definition put_member (s : lan) (i : nat) (nd : node) : lan :=
  match i with
  | O => mkLan nd (l_ctrl s) (l_hosts s) (l_packets s)
  | S i => match nth_error (l_hosts s) i with
           | None => s
           | Some h => mkLan (l_node s) (l_ctrl s) (set_nth (l_hosts s) i (with_node h nd)) (l_packets s)
           end
  end.
Definition add_packets (s : lan) (ps : list packet) : lan :=
  mkLan (l_node s) (l_ctrl s) (l_hosts s) (l_packets s ++ ps).

(** The member bound to an address. *)
Fixpoint owner (ms : list node) (a : address) : option nat :=
  match ms with
  | [] => None
  | nd :: t => if addr_eqb (n_addr nd) a then Some O
               else match owner t a with Some i => Some (S i) | None => None end
  end.

(** udp_socket.go L72-L87, L108-L124: a multicast goes to every member, the sender
    included; a datagram to an address nobody is bound to is lost. *)
Definition packets_of (ms : list node) (self : address) (x : sent) : list packet :=
  match x with
  | Multicast m =>
      match UDP_SendMessage self m with
      | Ok d => map (fun i => mkPacket i MulticastPacket d) (seq 0 (length ms))
      | _ => []
      end
  | Unicast a m =>
      match UDP_SendMessage self m, owner ms a with
      | Ok d, Some i => [mkPacket i UDPUnicastPacket d]
      | _, _ => []
      end
  | TCPPost _ _ => []
  end.

(** What a node handed to its transport since it was [old]. *)
Definition outgoing (ms : list node) (old new : node) : list packet :=
  flat_map (packets_of ms (n_addr new)) (skipn (length (n_sent old)) (n_sent new)).

(** A member does something on its own. *)
Definition acts (s : lan) (i : nat) (f : node -> node) : lan :=
  match nth_error (members s) i with
  | None => s
  | Some nd => add_packets (put_member s i (f nd)) (outgoing (members s) nd (f nd))
  end.

(** The answer of a member to a datagram (unicast_udp_socket.go L64-L69). *)
Definition reply_packets (ms : list node) (r : res (option (address * datagram))) : list packet :=
  match r with
  | Ok (Some (a, d)) => match owner ms a with Some i => [mkPacket i UDPUnicastPacket d] | None => [] end
  | _ => []
  end.

(** A datagram reaches its member (unicast_server.go L128-L134,
    multicast_server.go L86-L92). *)
Definition receives (conf : ctrl_conf) (s : lan) (p : packet) : lan :=
  match pk_to p with
  | O =>
      let '(out, r) := serve_datagram (ctrl_callbacks conf) (l_ctrl s) (l_node s) None (pk_type p)
                         (n_addr (l_node s)) (pk_datagram p) in
      add_packets (mkLan (out_node out) (out_world out) (l_hosts s) (l_packets s))
        (outgoing (members s) (l_node s) (out_node out) ++ reply_packets (members s) r)
  | S i =>
      match nth_error (l_hosts s) i with
      | None => s
      | Some h =>
          let '(out, r) := serve_datagram (h_cb h) (h_app h) (h_node h) None (pk_type p)
                             (n_addr (h_node h)) (pk_datagram p) in
          add_packets (mkLan (l_node s) (l_ctrl s)
                         (set_nth (l_hosts s) i (mkHost (out_node out) (out_world out) (h_cb h))) (l_packets s))
            (outgoing (members s) (h_node h) (out_node out) ++ reply_packets (members s) r)
      end
  end.

Definition without (ps : list packet) (k : nat) : list packet := firstn k ps ++ skipn (S k) ps.
Definition with_packets (s : lan) (ps : list packet) : lan :=
  mkLan (l_node s) (l_ctrl s) (l_hosts s) ps.

(** What happens: a member searches (controller.go L100-L104; members other than 0
    are then controllers themselves); the controller forgets its nodes
    (L146-L149); a member announces itself (local_node_msssage.go L45-L59) or
    sets the data of a property of one of its devices (property_map.go L109-L117);
    the [k]-th datagram arrives, is lost, or is repeated. *)
Inductive lan_event : Type :=
| LSearch (i : nat) (esv : Z)
| LClear
| LAnnounce (i : nat)
| LSet (i d : nat) (code : Z) (v : list Z)
| LDeliver (k : nat)
| LLose (k : nat)
| LRepeat (k : nat).

Definition lan_step (conf : ctrl_conf) (s : lan) (e : lan_event) : lan :=
  match e with
  | LSearch i esv => acts s i (fun nd => fst (SearchAllObjectsWithESV nd esv))
  | LClear => mkLan (l_node s) (Clear (l_ctrl s)) (l_hosts s) (l_packets s)
  | LAnnounce i => acts s i (fun nd => fst (Announce nd))
  | LSet i d code v => acts s i (fun nd => fst (on_object nd (DevRef d) (fun o => SetPropertyData o code v)))
  | LDeliver k =>
      match nth_error (l_packets s) k with
      | None => s
      | Some p => receives conf (with_packets s (without (l_packets s) k)) p
      end
  | LLose k => with_packets s (without (l_packets s) k)
  | LRepeat k => match nth_error (l_packets s) k with
                 | None => s
                 | Some p => add_packets s [p]
                 end
  end.

Definition lan_run (conf : ctrl_conf) (s : lan) (es : list lan_event) : lan := fold_left (lan_step conf) es s.

End Lan.

Arguments mkHost {W}.
Arguments h_node {W}.
Arguments h_app {W}.
Arguments h_cb {W}.
Arguments mkLan {W}.
Arguments l_node {W}.
Arguments l_ctrl {W}.
Arguments l_hosts {W}.
Arguments l_packets {W}.
Arguments members {W}.
Arguments put_member {W}.
Arguments add_packets {W}.
Arguments acts {W}.
Arguments receives {W}.
Arguments with_packets {W}.
Arguments lan_step {W}.
Arguments lan_run {W}.
