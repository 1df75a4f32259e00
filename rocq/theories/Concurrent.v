(** Model of messages that are handled at the same time: the transport starts a
    goroutine for every datagram (transport/unicast_server.go L134,
    multicast_server.go L92) and connection (unicast_server.go L170), and neither
    the handler of the node nor the controller takes a lock. *)

From Verif Require Import Go Encoding Protocol StdDB Property Object Node Handler Remote.
Local Open Scope Z_scope.

(** ** Requests on one node

    A handling is one goroutine in ProtocolMessageReceived.  Its steps are the
    accesses to what the goroutines share: looking up an object, one property, one
    callback.  Simplified: a step is atomic, in particular a callback is, and
    steps of different goroutines are interleaved; the node waits for no response
    (the hand-over to PostMessage is in [Post]). *)
Section Requests.
Variable W : Type.

(** Where a handling stands. *)
Inductive phase : Type :=
| HArrived
| HCheck (r : objref) (todo : list pprop)
| HRefuse
| HListeners
| HListen (r : objref) (todo : list pprop) (e : bool)
| HHandle (r : objref) (p : pprop) (todo : list pprop) (e : bool)
| HRespond
| HAnswer (r : objref) (todo : list pprop) (acc : message)
| HDone (reply : res (option message)).

(** The properties the loops n := range msgOPC come to (local_node_message_handler.go
    L73-L77, L127-L131, L151-L155); the message is not shared. *)
Definition loop_properties (msg : message) : list pprop :=
  flat_map (fun n => match MsgProperty msg (Z.of_nat n) with Ok (Some p) => [p] | _ => [] end)
    (seq 0 (Z.to_nat (OPC msg))).

(** One callback, when installed. *)
Definition call (f : option (W -> node -> W * node * bool)) (w : W) (nd : node) : W * node * bool :=
  match f with None => (w, nd, false) | Some g => g w nd end.

(** The next step of the handling of [msg], local_node_message_handler.go:
    HArrived L14-L19 and L52-L72, HCheck L73-L96, HRefuse L27-L29, HListeners
    L104-L123, HListen and HHandle L127-L135 with object.go L248-L253 (at the end
    L31-L38), HRespond L142-L150, HAnswer L151-L161. *)
Definition hstep (cb : callbacks W) (msg : message) (w : W) (nd : node) (ph : phase) : W * node * phase :=
  match ph with
  | HArrived =>
      if negb (n_self nd) && addr_eqb (m_from msg) (n_addr nd) then (w, nd, HDone (Ok None))
      else
        match LookupObject nd (DEOJ msg) with
        | None => (w, nd, HRefuse)
        | Some r =>
            if negb (ESV_IsValid (m_esv msg)) then (w, nd, HRefuse)
            else if ESV_IsReadRequest (m_esv msg) || ESV_IsWriteRequest (m_esv msg)
            then (w, nd, HCheck r (loop_properties msg))
            else (w, nd, HListeners)
        end
  | HCheck _ [] => (w, nd, HListeners)
  | HCheck r (p :: todo) =>
      match obj_at nd r with
      | None => (w, nd, HRefuse)
      | Some o => if check_property o (m_esv msg) p then (w, nd, HCheck r todo) else (w, nd, HRefuse)
      end
  | HRefuse => (w, nd, HDone (r <- NewImpossibleMessageWithMessage msg ;; Ok (Some r)))
  | HListeners =>
      match LookupObject nd (DEOJ msg) with
      | None => (w, nd, HDone (Err ErrNotFound))
      | Some r =>
          let '(w, nd, e) := call (option_map (fun g w nd => g w nd msg) (cb_node cb)) w nd in
          (w, nd, HListen r (loop_properties msg) e)
      end
  | HListen r [] e =>
      if e then (w, nd, HDone (Err ErrOther))
      else if negb (ESV_IsResponseRequired (m_esv msg)) then (w, nd, HDone (Ok None))
      else (w, nd, HRespond)
  | HListen r (p :: todo) e =>
      let '(w, nd, e') := call (option_map (fun g w nd => g w nd (m_esv msg) p) (cb_listener cb r)) w nd in
      (w, nd, HHandle r p todo (e || e'))
  | HHandle r p todo e =>
      let '(w, nd, e') := call (option_map (fun g w nd => g w nd (m_esv msg) p) (cb_handler cb r)) w nd in
      (w, nd, HListen r todo (e || e'))
  | HRespond =>
      match LookupObject nd (DEOJ msg) with
      | None => (w, nd, HDone (Err ErrNotFound))
      | Some r => (w, nd, HAnswer r (loop_properties msg) (NewResponseMessageWithMessage msg))
      end
  | HAnswer _ [] acc => (w, nd, HDone (Ok (Some acc)))
  | HAnswer r (p :: todo) acc =>
      match obj_at nd r with
      | None => (w, nd, HDone (Err ErrNotFound))
      | Some o =>
          (w, nd, HAnswer r todo (match LookupProperty (o_props o) (pp_code p) with
                                  | None => acc
                                  | Some prop => AddProperty acc (ToProtocol prop)
                                  end))
      end
  | HDone reply => (w, nd, HDone reply)
  end.

(** The node, the application, and every message that arrived with the state of
    its handling, in the order of arrival. *)
Record sys : Type := mkSys { s_world : W; s_node : node; s_handlings : list (message * phase) }.

(** A message arrives; the handling number [i] makes its next step; the
    application does something on its own. *)
Inductive event : Type :=
| EArrive (m : message)
| EStep (i : nat)
| EApp (f : W -> node -> W * node).

Definition sys_step (cb : callbacks W) (s : sys) (e : event) : sys :=
  match e with
  | EArrive m => mkSys (s_world s) (s_node s) (s_handlings s ++ [(m, HArrived)])
  | EStep i =>
      match nth_error (s_handlings s) i with
      | None => s
      | Some (m, ph) =>
          let '(w, nd, ph) := hstep cb m (s_world s) (s_node s) ph in
          mkSys w nd (set_nth (s_handlings s) i (m, ph))
      end
  | EApp f => let '(w, nd) := f (s_world s) (s_node s) in mkSys w nd (s_handlings s)
  end.

Definition sys_run (cb : callbacks W) (s : sys) (es : list event) : sys := fold_left (sys_step cb) es s.

End Requests.

Arguments hstep {W}.
Arguments call {W}.
Arguments mkSys {W}.
Arguments s_world {W}.
Arguments s_node {W}.
Arguments s_handlings {W}.
Arguments EArrive {W}.
Arguments EStep {W}.
Arguments EApp {W}.
Arguments sys_step {W}.
Arguments sys_run {W}.

(** ** Announcements at one controller *)

(** ctrl.foundNodes is a Go slice: a backing array, by its number, and a length.
    The arrays never shrink; the capacity is the length of the array, and a cell
    that was never written is nil. *)
Record table : Type := mkTable { t_arrays : list (list (option rnode)); t_array : nat; t_len : nat }.

(** controller.go L66-L70, L146-L149: make([]Node, 0). *)
Definition newTable : table := mkTable [[]] 0 0.
Definition clear_table (t : table) : table := mkTable (t_arrays t ++ [[]]) (length (t_arrays t)) 0.

Definition array_at (t : table) (a : nat) : list (option rnode) :=
  match nth_error (t_arrays t) a with Some l => l | None => [] end.

(** controller.go L85-L87: what Nodes shows. *)
Definition table_nodes (t : table) : list (option rnode) := firstn (t_len t) (array_at t (t_array t)).

(** Where the goroutine of an announcement stands in addNode,
    controller_message_listener.go L88-L100: slices.ContainsFunc has read the
    slice and looks at its cells one after the other; append has read the slice;
    append has written the cell; the listener is told. *)
Inductive adding : Type :=
| AStart (n : rnode)
| AScan (n : rnode) (a len i : nat)
| ALoad (n : rnode)
| AWrite (n : rnode) (a len : nat)
| AStore (n : rnode) (a len : nat)
| ATell (n : rnode)
| APanic
| AEnd.

(** The state: the slice, the announcements under way, the nodes the listener was told. *)
Record finds : Type := mkFinds { f_table : table; f_adding : list adding; f_told : list rnode }.

(** One step of addNode.  [grow] is the capacity append chooses for a new array
    (at least one more than the length).  A nil cell makes Equals panic. *)
Definition add_step (grow : nat -> nat) (listener : bool) (t : table) (told : list rnode) (ph : adding)
  : table * list rnode * adding :=
  match ph with
  | AStart n => (t, told, AScan n (t_array t) (t_len t) 0)
  | AScan n a len i =>
      if (i <? len)%nat then
        match nth_error (array_at t a) i with
        | Some (Some x) =>
            if addr_eqb (rn_addr n) (rn_addr x) then (t, told, AEnd) else (t, told, AScan n a len (S i))
        | _ => (t, told, APanic)
        end
      else (t, told, ALoad n)
  | ALoad n => (t, told, AWrite n (t_array t) (t_len t))
  | AWrite n a len =>
      let l := array_at t a in
      if (len <? length l)%nat
      then (mkTable (set_nth (t_arrays t) a (set_nth l len (Some n))) (t_array t) (t_len t), told, AStore n a (S len))
      else (mkTable (t_arrays t ++ [firstn len l ++ Some n :: repeat None (grow len)]) (t_array t) (t_len t),
            told, AStore n (length (t_arrays t)) (S len))
  | AStore n a len => (mkTable (t_arrays t) a len, told, ATell n)
  | ATell n => (t, if listener then told ++ [n] else told, AEnd)
  | APanic => (t, told, APanic)
  | AEnd => (t, told, AEnd)
  end.

(** A message reaches the controller: its announcement, if it is one, is built
    from the message alone (controller_message_listener.go L40-L62, L72-L84). *)
Definition announced (conf : ctrl_conf) (self : bool) (msg : message) : option rnode :=
  if negb self && isSelfMessage conf msg then None
  else if isNodeProfileMessage msg then
    match newRemoteNodeWithInstanceListMessageAndConfig msg (cc_auto conf) with
    | Ok n => Some n
    | _ => None
    end
  else None.

Inductive table_event : Type :=
| TMessage (m : message)
| TStep (i : nat)
| TClear.

Definition table_step (conf : ctrl_conf) (self : bool) (grow : nat -> nat) (f : finds) (e : table_event) : finds :=
  match e with
  | TMessage m =>
      match announced conf self m with
      | None => f
      | Some n => mkFinds (f_table f) (f_adding f ++ [AStart n]) (f_told f)
      end
  | TStep i =>
      match nth_error (f_adding f) i with
      | None => f
      | Some ph =>
          let '(t, told, ph) := add_step grow (cc_listener conf) (f_table f) (f_told f) ph in
          mkFinds t (set_nth (f_adding f) i ph) told
      end
  | TClear => mkFinds (clear_table (f_table f)) (f_adding f) (f_told f)
  end.

Definition newFinds : finds := mkFinds newTable [] [].
Definition table_run (conf : ctrl_conf) (self : bool) (grow : nat -> nat) (es : list table_event) : finds :=
  fold_left (table_step conf self grow) es newFinds.
