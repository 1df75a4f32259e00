(** Model of net/echonet/base_node.go, local_node.go, the sending part of
    local_node_msssage.go and property.go Announce. *)

From Verif Require Import Go Encoding Protocol StdDB Property Object.
Local Open Scope Z_scope.

(** What a node hands to its transport.  What the transport does with it is in
    [Transport]; its errors are not modelled here (SetData ignores them,
    property.go L375-L377). *)
Inductive sent : Type :=
| Multicast (m : message)
| Unicast (dst : address) (m : message)
| TCPPost (dst : address) (m : message).

Definition sent_message (s : sent) : message :=
  match s with Multicast m | Unicast _ m | TCPPost _ m => m end.

(** base_node.go L18-L21, local_node.go L74-L85.  [n_sent] records what was handed
    to the transport, oldest first.  [n_running] is the value of IsRunning
    (message_manager.go L146-L156), [n_addr] that of Address and Port
    (local_node.go L116-L129), [n_self] that of SelfMessageEnabled (config.go
    L77-L79).  Simplified: objects are values, so one object is not added to a
    node twice or shared between nodes; the response channel is in [Post]. *)
Record node : Type := mkNode {
  n_devices : list object;
  n_profiles : list object;
  n_manufacturer : Z;
  n_lastTID : Z;
  n_running : bool;
  n_addr : address;
  n_self : bool;
  n_sent : list sent }.

Definition with_objects (nd : node) (devs profs : list object) : node :=
  mkNode devs profs (n_manufacturer nd) (n_lastTID nd) (n_running nd) (n_addr nd) (n_self nd) (n_sent nd).
Definition with_manufacturer (nd : node) (c : Z) : node :=
  mkNode (n_devices nd) (n_profiles nd) c (n_lastTID nd) (n_running nd) (n_addr nd) (n_self nd) (n_sent nd).
Definition with_lastTID (nd : node) (t : Z) : node :=
  mkNode (n_devices nd) (n_profiles nd) (n_manufacturer nd) t (n_running nd) (n_addr nd) (n_self nd) (n_sent nd).
Definition with_running (nd : node) (b : bool) : node :=
  mkNode (n_devices nd) (n_profiles nd) (n_manufacturer nd) (n_lastTID nd) b (n_addr nd) (n_self nd) (n_sent nd).
Definition hand_over (nd : node) (s : sent) : node :=
  mkNode (n_devices nd) (n_profiles nd) (n_manufacturer nd) (n_lastTID nd) (n_running nd) (n_addr nd)
         (n_self nd) (n_sent nd ++ [s]).

(** A reference to an object of a node: the i-th device or profile. *)
Inductive objref : Type := DevRef (i : nat) | ProfRef (i : nat).

Definition obj_at (nd : node) (r : objref) : option object :=
  match r with
  | DevRef i => nth_error (n_devices nd) i
  | ProfRef i => nth_error (n_profiles nd) i
  end.

Definition put_at (nd : node) (r : objref) (o : object) : node :=
  match r with
  | DevRef i => with_objects nd (set_nth (n_devices nd) i o) (n_profiles nd)
  | ProfRef i => with_objects nd (n_devices nd) (set_nth (n_profiles nd) i o)
  end.

(** base_node.go L44-L49, L65-L70: the loop over the objects. *)
Fixpoint find_code (objs : list object) (code : Z) : option nat :=
  match objs with
  | [] => None
  | o :: t => if Code o =? code then Some O
              else match find_code t code with Some i => Some (S i) | None => None end
  end.

(** base_node.go L43-L51 and L64-L72 *)
Definition LookupDevice (nd : node) (code : Z) : option objref :=
  option_map DevRef (find_code (n_devices nd) code).
Definition LookupProfile (nd : node) (code : Z) : option objref :=
  option_map ProfRef (find_code (n_profiles nd) code).

(** base_node.go L75-L85; NewNodeProfileWith wraps the profile without copying. *)
Definition NodeProfile (nd : node) : option objref :=
  match LookupProfile nd NodeProfileObjectCode with
  | Some r => Some r
  | None => LookupProfile nd NodeProfileObjectReadOnlyCode
  end.

(** base_node.go L101-L114 *)
Definition Objects (nd : node) : list object := n_devices nd ++ n_profiles nd.

(** base_node.go L117-L127 *)
Definition LookupObject (nd : node) (code : Z) : option objref :=
  match LookupDevice nd code with
  | Some r => Some r
  | None => LookupProfile nd code
  end.

(** controller.go L15-L18 *)
Definition TIDMin : Z := 0.

(** local_node.go L169-L176; lastTID is a uint. *)
Definition NextTID (nd : node) : node * Z :=
  let t := if TIDMax <=? n_lastTID nd then TIDMin else n_lastTID nd + 1 in
  (with_lastTID nd t, t).

(** local_node_msssage.go L26-L33 *)
Definition AnnounceMessage (nd : node) (msg : message) : node * option err :=
  if negb (n_running nd) then (nd, Some ErrInvalid)
  else
    let '(nd, tid) := NextTID nd in
    let msg := SetTID msg tid in
    let msg := SetDEOJ msg NodeProfileObjectCode in
    (hand_over nd (Multicast msg), None).

(** local_node_msssage.go L36-L42; [code] is prop.Object().Code(). *)
Definition AnnounceProperty (nd : node) (code : Z) (p : pprop) : node * option err :=
  let msg := NewMessage in
  let msg := SetESV msg ESVNotification in
  let msg := SetSEOJ msg code in
  let msg := AddProperty msg p in
  AnnounceMessage nd msg.

(** property.go L461-L472 for a property of an object with code [code] whose
    parent node is [parent]. *)
Definition prop_Announce (parent : option node) (code : Z) (p : pprop) : option node * option err :=
  match parent with
  | None => (None, Some ErrInvalid)
  | Some nd =>
      if negb (n_running nd) then (Some nd, None)
      else let '(nd, e) := AnnounceProperty nd code p in (Some nd, e)
  end.

(** property.go L375-L377 for the announcements of an effect, in order; the
    error is dropped. *)
Definition announce_all (nd : node) (code : Z) (evs : list pprop) : node :=
  fold_left (fun nd p => match fst (prop_Announce (Some nd) code p) with
                         | Some nd' => nd' | None => nd end) evs nd.

(** A call on an object of the node.  Simplified: the object gets its final
    state first and the announcements are sent afterwards, in order (an
    announcement reads only the object code and the data captured with it). *)
Definition commit (nd : node) (r : objref) (o : object) (evs : list pprop) : node :=
  announce_all (put_at nd r o) (Code o) evs.

Definition on_object (nd : node) (r : objref) (f : object -> effect) : node * option err :=
  match obj_at nd r with
  | None => (nd, Some ErrNotFound)
  | Some o => let '(o', evs, e) := f o in (commit nd r o' evs, e)
  end.

(** local_node.go L140-L145: one of the two loops; [mk] selects the list. *)
Fixpoint set_manufacturer_loop (mk : nat -> objref) (n : nat) (k : nat) (code : Z) (nd : node) : node :=
  match k with
  | O => nd
  | S k' => set_manufacturer_loop mk (S n) k' code
              (fst (on_object nd (mk n) (fun o => SetManufacturerCode o code)))
  end.

(** local_node.go L138-L146 *)
Definition Node_SetManufacturerCode (nd : node) (code : Z) : node :=
  let nd := with_manufacturer nd code in
  let nd := set_manufacturer_loop DevRef 0 (length (n_devices nd)) code nd in
  set_manufacturer_loop ProfRef 0 (length (n_profiles nd)) code nd.

(** local_node.go L245-L250, L260-L265 *)
Fixpoint has_class (classes : list (list Z)) (c : list Z) : res bool :=
  match classes with
  | [] => Ok false
  | k :: t => b <- Class_Equals k c ;; if b then Ok true else has_class t c
  end.

(** local_node.go L242-L255, L257-L270: the loop over devices or profiles. *)
Definition collect_classes (objs : list object) (classes : list (list Z)) : res (list (list Z)) :=
  for_each objs
    (fun o classes =>
       c <- Class o ;;
       b <- has_class classes c ;;
       if b then Ok classes else Ok (classes ++ [c])) classes.

(** local_node.go L231-L288; the errors of the setters are dropped. *)
Definition updateNodeProfile (nd : node) : res node :=
  match NodeProfile nd with
  | None => Ok nd
  | Some r =>
      classes <- collect_classes (n_devices nd) [] ;;
      classes <- collect_classes (n_profiles nd) classes ;;
      let nd := fst (on_object nd r (fun o => SetInstanceCount o (len (n_devices nd)))) in
      let nd := fst (on_object nd r (fun o => SetClassCount o (len classes))) in
      let nd := fst (on_object nd r (fun o => SetInstanceList o (n_devices nd))) in
      Ok (fst (on_object nd r (fun o => SetClassList o classes)))
  end.

(** local_node.go L179-L184.  The device has no parent node when its
    manufacturer code is set, so nothing is announced. *)
Definition Node_AddDevice (nd : node) (dev : object) : res node :=
  let '(dev, _, _) := SetManufacturerCode dev (n_manufacturer nd) in
  updateNodeProfile (with_objects nd (n_devices nd ++ [dev]) (n_profiles nd)).

(** local_node.go L187-L192 *)
Definition Node_AddProfile (nd : node) (prof : object) : res node :=
  let '(prof, _, _) := SetManufacturerCode prof (n_manufacturer nd) in
  updateNodeProfile (with_objects nd (n_devices nd) (n_profiles nd ++ [prof])).

(** base_node.go L88-L98 AddObject on a remote node, and local_node.go through
    the embedded baseNode: append only.  A Profile is also tried before a Device. *)
Definition base_AddDevice (nd : node) (dev : object) : node :=
  with_objects nd (n_devices nd ++ [dev]) (n_profiles nd).
Definition base_AddProfile (nd : node) (prof : object) : node :=
  with_objects nd (n_devices nd) (n_profiles nd ++ [prof]).

(** super_object.go L35 ObjectManufacturerExperimental, node.go L8 *)
Definition NodeManufacturerExperimental : Z := 0xFFFFFF.

(** local_node.go L92-L113 without options; config.go L53 enables self messages. *)
Definition emptyNode : node :=
  mkNode [] [] NodeManufacturerExperimental TIDMin false NewAddress true [].
Definition newLocalNode : res node :=
  np <- NewNodeProfile ;; Node_AddProfile emptyNode np.

(** local_node_msssage.go L45-L59 *)
Definition Announce (nd : node) : node * option err :=
  match NodeProfile nd with
  | None => (nd, Some ErrNotFound)
  | Some r =>
      match obj_at nd r with
      | None => (nd, Some ErrNotFound)
      | Some o =>
          match LookupProperty (o_props o) NodeProfileInstanceListNotification with
          | None => (nd, Some ErrNotFound)
          | Some p => AnnounceProperty nd (Code o) (ToProtocol p)
          end
      end
  end.

(** local_node.go L195-L207.  [server] is the outcome of server.Start: [None] is
    success, [Some b] an error that leaves IsRunning = b (see [Transport]). *)
Definition Node_Start (nd : node) (server : option bool) : node * option err :=
  match server with
  | Some b => (with_running nd b, Some ErrOther)
  | None => Announce (with_running nd true)
  end.

(** local_node.go L210-L215, with server.Stop successful. *)
Definition Node_Stop (nd : node) : node := with_running nd false.

(** local_node_msssage.go L62-L73: the message with its new header, or the error
    of NodeProfile (the TID is then spent). *)
Definition updateMessageDestinationHeader (nd : node) (msg : message) : node * res message :=
  let '(nd, tid) := NextTID nd in
  let msg := SetTID msg tid in
  match NodeProfile nd with
  | None => (nd, Err ErrNotFound)
  | Some r => match obj_at nd r with
              | None => (nd, Err ErrNotFound)
              | Some o => (nd, Ok (SetSEOJ msg (Code o)))
              end
  end.

(** local_node_msssage.go L76-L91, and L94-L109 with [TCPPost]. *)
Definition send_with (wrap : message -> sent) (nd : node) (msg : message) : node * option err :=
  if negb (n_running nd) then (nd, Some ErrInvalid)
  else
    match updateMessageDestinationHeader nd msg with
    | (nd, Ok msg) => (hand_over nd (wrap msg), None)
    | (nd, Err e) => (nd, Some e)
    | (nd, Panic) => (nd, Some ErrOther)
    end.

Definition SendMessage (nd : node) (dst : address) (msg : message) : node * option err :=
  send_with (Unicast dst) nd msg.
Definition postMessageSynchronously (nd : node) (dst : address) (msg : message) : node * option err :=
  send_with (TCPPost dst) nd msg.
