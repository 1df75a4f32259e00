(** Model of net/echonet/local_node_message_handler.go and the request
    notification of object.go. *)

From Verif Require Import Go Encoding Protocol StdDB Property Object Node.
Local Open Scope Z_scope.

(** ** Application callbacks

    [W] is the state of the application.  A callback may read and change the
    application state and the node (through any library call) in any way; the
    boolean tells whether it reported an error.  Simplified: which callbacks are
    installed does not change while a message is handled, and callbacks return. *)
Section Callbacks.
Variable W : Type.

(** local_node.go Listener (node_listener.go OnMessage), object.go L236-L243:
    the two handlers of an object. *)
Record callbacks : Type := mkCallbacks {
  cb_node : option (W -> node -> message -> W * node * bool);
  cb_listener : objref -> option (W -> node -> Z -> pprop -> W * node * bool);
  cb_handler : objref -> option (W -> node -> Z -> pprop -> W * node * bool) }.

(** The calls made, with the error flag each returned. *)
Inductive cb_call : Type :=
| CallNode (m : message)
| CallListener (r : objref) (esv : Z) (p : pprop)
| CallHandler (r : objref) (esv : Z) (p : pprop).

Record run : Type := mkRun {
  r_world : W; r_node : node; r_calls : list (cb_call * bool); r_err : bool }.

(** One callback, when installed: local_node_message_handler.go L119-L123, object.go L248-L253. *)
Definition call_back (st : run) (c : cb_call) (f : option (W -> node -> W * node * bool)) : run * bool :=
  match f with
  | None => (st, false)
  | Some g =>
      let '(w, nd, e) := g (r_world st) (r_node st) in
      (mkRun w nd (r_calls st ++ [(c, e)]) (r_err st), e)
  end.

Definition set_err (st : run) (e : bool) : run :=
  mkRun (r_world st) (r_node st) (r_calls st) (r_err st || e).

(** object.go L246-L255 on the object [r]; the joined error is non nil when one
    of the two callbacks reported one. *)
Definition notifyPropertyRequest (cb : callbacks) (r : objref) (esv : Z) (p : pprop) (st : run)
  : run * bool :=
  let '(st, e1) := call_back st (CallListener r esv p)
                     (option_map (fun g w nd => g w nd esv p) (cb_listener cb r)) in
  let '(st, e2) := call_back st (CallHandler r esv p)
                     (option_map (fun g w nd => g w nd esv p) (cb_handler cb r)) in
  (st, e1 || e2).

(** local_node_message_handler.go L103-L138.  [r_err] is lastErr <> nil. *)
Definition executeMessageListeners (cb : callbacks) (w : W) (nd : node) (msg : message) : res run :=
  match LookupObject nd (DEOJ msg) with
  | None => Err ErrNotFound
  | Some r =>
      let st := mkRun w nd [] false in
      let '(st, e) := call_back st (CallNode msg)
                        (option_map (fun g w nd => g w nd msg) (cb_node cb)) in
      let st := set_err st e in
      for_range (Z.to_nat (OPC msg)) 0
        (fun n st =>
           p <- MsgProperty msg n ;;
           match p with
           | None => Ok st
           | Some p => let '(st, e) := notifyPropertyRequest cb r (m_esv msg) p st in Ok (set_err st e)
           end) st
  end.

(** local_node_message_handler.go L72-L97: one round of the property loop. *)
Definition check_property (o : object) (esv : Z) (p : pprop) : bool :=
  match LookupProperty (o_props o) (pp_code p) with
  | None => false
  | Some prop =>
      if negb (IsAvailableService prop esv) then false
      else if ESV_IsWriteRequest esv then
        if negb (IsWritable prop) then false
        else if negb (pp_Size p =? len (p_data prop)) then false
        else true
      else true
  end.

(** local_node_message_handler.go L49-L100.  The loop state tells whether the
    function is still running; [false] is an early return. *)
Definition validateReceivedMessage (nd : node) (msg : message) : res bool :=
  match LookupObject nd (DEOJ msg) with
  | None => Ok false
  | Some r =>
      match obj_at nd r with
      | None => Ok false
      | Some o =>
          if negb (ESV_IsValid (m_esv msg)) then Ok false
          else if ESV_IsReadRequest (m_esv msg) || ESV_IsWriteRequest (m_esv msg) then
            for_range (Z.to_nat (OPC msg)) 0
              (fun n (ok : bool) =>
                 if ok then
                   p <- MsgProperty msg n ;;
                   match p with None => Ok true | Some p => Ok (check_property o (m_esv msg) p) end
                 else Ok false) true
          else Ok true
      end
  end.

(** local_node_message_handler.go L141-L164 *)
Definition createResponseMessageForRequestMessage (nd : node) (req : message) : res message :=
  match LookupObject nd (DEOJ req) with
  | None => Err ErrNotFound
  | Some r =>
      match obj_at nd r with
      | None => Err ErrNotFound
      | Some o =>
          for_range (Z.to_nat (OPC req)) 0
            (fun n acc =>
               p <- MsgProperty req n ;;
               match p with
               | None => Ok acc
               | Some p => match LookupProperty (o_props o) (pp_code p) with
                           | None => Ok acc
                           | Some prop => Ok (AddProperty acc (ToProtocol prop))
                           end
               end)
            (NewResponseMessageWithMessage req)
      end
  end.

(** node.go L40-L48; remote_node.go L40-L45: the node with the source address. *)
Definition addr_eqb (a b : address) : bool := (a_port a =? a_port b) && (a_ip a =? a_ip b).

(** local_node_msssage.go L123-L135; [pending] is the request waited for, if the
    node is waiting (L112-L120). *)
Definition isResponseMessage (pending : option message) (msg : message) : res bool :=
  match pending with
  | None => Ok false
  | Some q =>
      eq <- Equals (Some msg) (Some q) ;;
      if eq then Ok false else if negb (TID msg =? TID q) then Ok false else Ok true
  end.

(** What ProtocolMessageReceived does: the state of the application and of the
    node afterwards, the callbacks run, whether the message was handed to a
    waiting PostMessage, and the returned message or error. *)
Record outcome : Type := mkOutcome {
  out_world : W; out_node : node; out_calls : list (cb_call * bool);
  out_delivered : bool; out_reply : res (option message) }.

(** local_node_message_handler.go L13-L46.  The hand-over to a waiting
    PostMessage (L21-L25) is here only recorded; see [Post].  [ErrOther] stands
    for the error the last failing callback returned. *)
Definition ProtocolMessageReceived (cb : callbacks) (w : W) (nd : node) (pending : option message)
  (msg : message) : outcome :=
  if negb (n_self nd) && addr_eqb (m_from msg) (n_addr nd)
  then mkOutcome w nd [] false (Ok None)
  else
    match isResponseMessage pending msg with
    | Panic => mkOutcome w nd [] false Panic
    | Err e => mkOutcome w nd [] false (Err e)
    | Ok d =>
        match validateReceivedMessage nd msg with
        | Panic => mkOutcome w nd [] d Panic
        | Err e => mkOutcome w nd [] d (Err e)
        | Ok false =>
            mkOutcome w nd [] d (r <- NewImpossibleMessageWithMessage msg ;; Ok (Some r))
        | Ok true =>
            match executeMessageListeners cb w nd msg with
            | Panic => mkOutcome w nd [] d Panic
            | Err e => mkOutcome w nd [] d (Err e)
            | Ok st =>
                let out := mkOutcome (r_world st) (r_node st) (r_calls st) d in
                if r_err st then out (Err ErrOther)
                else if negb (ESV_IsResponseRequired (m_esv msg)) then out (Ok None)
                else out (r <- createResponseMessageForRequestMessage (r_node st) msg ;; Ok (Some r))
            end
        end
    end.

End Callbacks.

Arguments mkCallbacks {W}.
Arguments cb_node {W}.
Arguments cb_listener {W}.
Arguments cb_handler {W}.
Arguments mkRun {W}.
Arguments r_world {W}.
Arguments r_node {W}.
Arguments r_calls {W}.
Arguments r_err {W}.
Arguments call_back {W}.
Arguments set_err {W}.
Arguments notifyPropertyRequest {W}.
Arguments executeMessageListeners {W}.
Arguments mkOutcome {W}.
Arguments out_world {W}.
Arguments out_node {W}.
Arguments out_calls {W}.
Arguments out_delivered {W}.
Arguments out_reply {W}.
Arguments ProtocolMessageReceived {W}.

(** local_node.go L116-L124: the address of the first unicast server that has
    one.  A server without address is [None]; no address is 0 (the empty string). *)
Fixpoint node_Address (servers : list (option Z)) : Z :=
  match servers with
  | [] => 0
  | Some a :: _ => a
  | None :: t => node_Address t
  end.

(** The callbacks of a node without listener and handlers. *)
Definition no_callbacks (W : Type) : callbacks W := mkCallbacks None (fun _ => None) (fun _ => None).
