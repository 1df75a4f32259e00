(** Model of the life of a local node with its transport: local_node.go Start,
    Stop and Restart, server.go, controller.go Start and Stop, put together from
    [Node] and [Transport].

    Simplified: calls come one after the other; the TCP exchanges are in
    [Exchange], received messages in [Handler] (here only that a malformed datagram
    ends a receive loop); n_addr of the node is not refreshed. *)

From Verif Require Import Go Encoding Protocol StdDB Property Object Node NodeFacts Remote Transport.
Local Open Scope Z_scope.

(** local_node.go L74-L85: the node and its embedded server (server.go L12-L14).
    [lf_out] records which servers sent each message that was handed to the
    transport, oldest first. *)
Record life : Type := mkLife {
  lf_node : node; lf_mgr : manager; lf_world : world; lf_out : list (sent * list userver) }.

(** message_manager.go L86-L93: what the transport does with a message, and its
    error; [ok k] tells whether the k-th server can send. *)
Definition transports (m : manager) (ok : nat -> bool) (x : sent) : list userver * bool :=
  match x with
  | Multicast _ => UManager_AnnounceMessage m ok
  | Unicast _ _ | TCPPost _ _ => UManager_SendMessage m ok
  end.
(** [ok n k]: whether the k-th server can send the n-th of the messages. *)
Fixpoint transports_all (m : manager) (ok : nat -> nat -> bool) (n : nat) (xs : list sent) : list (sent * list userver) :=
  match xs with
  | [] => []
  | x :: xs => (x, fst (transports m (ok n) x)) :: transports_all m ok (S n) xs
  end.

(** The node hands the messages it added since [lf_node l] to its transport. *)
Definition handing (l : life) (nd : node) (ok : nat -> nat -> bool) : life :=
  mkLife nd (lf_mgr l) (lf_world l)
    (lf_out l ++ transports_all (lf_mgr l) ok 0 (skipn (length (n_sent (lf_node l))) (n_sent nd))).

(** The embedded manager changed: IsRunning of the node is that of the manager
    (message_manager.go L146-L156). *)
Definition with_transport (l : life) (m : manager) (w : world) : life :=
  mkLife (with_running (lf_node l) (IsRunning m)) m w (lf_out l).

(** The error of the announcement itself: that of the node, or that of the transport. *)
Definition announce_error (l l' : life) (e : option err) (ok : nat -> nat -> bool) : option err :=
  match e with
  | Some e => Some e
  | None =>
      match skipn (length (n_sent (lf_node l))) (n_sent (lf_node l')) with
      | [] => None
      | x :: _ => if snd (transports (lf_mgr l') (ok 0%nat) x) then Some ErrOther else None
      end
  end.

(** local_node.go L195-L207 with server.go L25-L32. *)
Definition Life_Start (l : life) (so : start_oracle) (ok : nat -> nat -> bool) : res (life * option err) :=
  r <- Manager_Start (lf_mgr l) so (lf_world l) ;;
  let '(m, w, e) := r in
  let l := with_transport l m w in
  if e then Ok (l, Some ErrOther)
  else
    let '(nd, e) := Announce (lf_node l) in
    let l' := handing l nd ok in
    Ok (l', announce_error l l' e ok).

(** local_node.go L210-L215 with server.go L35-L42. *)
Definition Life_Stop (l : life) (o o' : oracle) : res (life * option err) :=
  r <- Manager_Stop (lf_mgr l) o o' (lf_world l) ;;
  let '(m, w, e) := r in
  Ok (with_transport l m w, if e then Some ErrOther else None).

(** local_node.go L218-L223. *)
Definition Life_Restart (l : life) (o o' : oracle) (so : start_oracle) (ok : nat -> nat -> bool) : res (life * option err) :=
  r <- Life_Stop l o o' ;;
  match snd r with
  | Some e => Ok (fst r, Some e)
  | None => Life_Start (fst r) so ok
  end.

(** What the application calls, besides Start, Stop and Restart. *)
Inductive app_call : Type :=
| AddsDevice (o : object)
| AddsProfile (o : object)
| SetsManufacturer (c : Z)
| SetsData (r : objref) (code : Z) (d : list Z)
| AddsProperty (r : objref) (p : property)
| Sends (dst : address) (m : message).
Definition as_op (c : app_call) : node_op :=
  match c with
  | AddsDevice o => NAddDevice o
  | AddsProfile o => NAddProfile o
  | SetsManufacturer c => NSetManufacturer c
  | SetsData r code d => NSetData r code d
  | AddsProperty r p => NAddProp r p
  | Sends dst m => NSend dst m
  end.

Inductive life_op : Type :=
| FStart (so : start_oracle) (ok : nat -> nat -> bool)
| FStop (o o' : oracle)
| FRestart (o o' : oracle) (so : start_oracle) (ok : nat -> nat -> bool)
| FCall (c : app_call) (ok : nat -> nat -> bool)
| FConfig (tcp auto : bool)      (* local_node.go L131-L135 *)
| FUnicastBad (k : nat)          (* see [Transport] *)
| FMulticastBad (k : nat).

(** A step of the transport only. *)
Definition transport_only (l : life) (op : transport_op) : res (life * option err) :=
  r <- transport_step (lf_mgr l, lf_world l) op ;;
  let '(m, w, e) := r in Ok (with_transport l m w, None).

Definition life_step (op : life_op) (l : life) : res (life * option err) :=
  match op with
  | FStart so ok => Life_Start l so ok
  | FStop o o' => Life_Stop l o o'
  | FRestart o o' so ok => Life_Restart l o o' so ok
  | FCall c ok => nd <- node_step (as_op c) (lf_node l) ;; Ok (handing l nd ok, None)
  | FConfig tcp auto => transport_only l (TSetConfig tcp auto)
  | FUnicastBad k => transport_only l (TUnicastBad k)
  | FMulticastBad k => transport_only l (TMulticastBad k)
  end.

(** local_node.go L92-L113 with message_manager.go L20-L28: a new node, whatever the
    configuration of its transport. *)
Definition new_life (tcp auto : bool) (retry : nat) (port : Z) : res life :=
  nd <- newLocalNode ;; Ok (mkLife nd (NewManager tcp auto retry port) new_world []).

Definition life_after (tcp auto : bool) (retry : nat) (port : Z) (ops : list life_op) : res life :=
  l <- new_life tcp auto retry port ;;
  for_each ops (fun op l => r <- life_step op l ;; Ok (fst r)) l.

(** ** controller.go *)

(** controller.go L152-L160: the nodes found and the local node after the call. *)
Definition Controller_Start (ct : ctrl) (l : life) (so : start_oracle) (ok : nat -> nat -> bool)
  : res (ctrl * life * option err) :=
  r <- Life_Start l so ok ;; Ok (Clear ct, fst r, snd r).
(** controller.go L163-L168 *)
Definition Controller_Stop (ct : ctrl) (l : life) (o o' : oracle) : res (ctrl * life * option err) :=
  r <- Life_Stop l o o' ;; Ok (ct, fst r, snd r).
