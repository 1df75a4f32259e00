(** Model of a network whose members also send each other requests: [Lan] with
    SendRequest of local_node_msssage.go, and with datagrams from elsewhere.

    Simplified as [Lan]; PostRequest sends the same datagram ([Exchange]). *)

From Verif Require Import Go Encoding Protocol StdDB Property Object Node Handler Remote Transport Exchange Lan.
Local Open Scope Z_scope.

(** What happens: an event of [Lan]; member [i] sends a request to object [obj] at
    an address (local_node_msssage.go L201-L209, L76-L91); a datagram that none of
    the members sent arrives at the network. *)
Inductive ctl_event : Type :=
| CLan (e : lan_event)
| CSend (i : nat) (a : address) (obj esv : Z) (qs : list pprop)
| CInject (p : packet).

Section Control.
Context {W : Type}.

Definition ctl_step (conf : ctrl_conf) (s : lan W) (e : ctl_event) : lan W :=
  match e with
  | CLan e => lan_step conf s e
  | CSend i a obj esv qs => acts s i (fun nd => fst (SendMessage nd a (new_request obj esv qs)))
  | CInject p => add_packets s [p]
  end.

Definition ctl_run (conf : ctrl_conf) (s : lan W) (es : list ctl_event) : lan W := fold_left (ctl_step conf) es s.

End Control.
