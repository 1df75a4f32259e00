(** Model of the requests of a detailed scan on a network: PostMessage of
    net/echonet/local_node_msssage.go L157-L201 from the controller to a node of
    [Lan], over UDP, used by cmd/controller.go L69-L88 and L130-L149.

    Simplified: nothing else happens between a request and its response, and no
    datagram of the exchange is lost ([Post] and C79 have the other cases); a
    timeout is one text. *)

From Coq Require Import String.
From Verif Require Import Go Encoding Protocol StdDB Property Object Node Handler Remote Transport Exchange Lan Cmd.
Local Open Scope Z_scope.

Section LanScan.
Context {W : Type}.

(** local_node_msssage.go L197: what is shown for a request without response. *)
Definition timed_out : string := "timeout".

(** local_node_msssage.go L157-L201 with unicast_server.go L107-L134 on both sides;
    the network after the call, and the response or the text of the error. *)
Definition net_post (conf : ctrl_conf) (s : lan W) (a : address) (m : message) : lan W * (message + string) :=
  match Node_PostMessage (l_node s) a m (mkPostNet false false [] [(ADialFails, true)]) with
  | Ok (cl, [SentUDP _ b], PostWaits req) =>
      let waiting := mkLan cl (l_ctrl s) (l_hosts s) (l_packets s) in
      match owner (members s) a with
      | Some (S i) =>
          match nth_error (l_hosts s) i with
          | None => (waiting, inr timed_out)
          | Some h =>
              let '(out, r) := serve_datagram (h_cb h) (h_app h) (h_node h) None UDPUnicastPacket
                                 (n_addr (h_node h)) (mkDatagram b (n_addr cl)) in
              let hosts := set_nth (l_hosts s) i (mkHost (out_node out) (out_world out) (h_cb h)) in
              match r with
              | Ok (Some (dst, d)) =>
                  if negb (addr_eqb dst (n_addr cl)) then (mkLan cl (l_ctrl s) hosts (l_packets s), inr timed_out)
                  else
                    let '(out', _) := serve_datagram (ctrl_callbacks conf) (l_ctrl s) cl (Some req) UDPUnicastPacket
                                        (n_addr cl) d in
                    (mkLan (out_node out') (out_world out') hosts (l_packets s),
                     match out_delivered out', ReadMessage d with
                     | true, Ok resp => inl (SetPacketType resp UDPUnicastPacket)
                     | _, _ => inr timed_out
                     end)
              | _ => (mkLan cl (l_ctrl s) hosts (l_packets s), inr timed_out)
              end
          end
      | _ => (waiting, inr timed_out)
      end
  | Ok (cl, _, _) => (mkLan cl (l_ctrl s) (l_hosts s) (l_packets s), inr timed_out)
  | _ => (s, inr timed_out)
  end.

(** The network after any number of requests of the controller. *)
Inductive posts (conf : ctrl_conf) : lan W -> lan W -> Prop :=
| posts_none s : posts conf s s
| posts_more s s' a m : posts conf s s' -> posts conf s (fst (net_post conf s' a m)).

(** cmd/controller.go L69-L88, L130-L149: the requests of a scan are posted to the
    nodes of the network, each one after those before. *)
Definition scans (conf : ctrl_conf) (s : lan W) (env : scan_env) : Prop :=
  forall n, exists s', posts conf s s' /\ forall rn m, se_post env n rn m = snd (net_post conf s' (rn_addr rn) m).

End LanScan.
