(** Model of net/echonet/remote_node.go, controller.go,
    controller_message_listener.go and message_func.go. *)

From Verif Require Import Go Encoding Protocol StdDB Property Object Node Handler.
Local Open Scope Z_scope.

(** ** remote_node.go *)

(** remote_node.go L21-L26, with the lists of base_node.go L18-L21. *)
Record rnode : Type := mkRNode {
  rn_addr : address; rn_devices : list object; rn_profiles : list object }.

(** remote_node.go L29-L37, base_node.go L24-L30; SetAddress and SetPort L128-L145. *)
Definition newRemoteNode : rnode := mkRNode NewAddress [] [].
Definition rn_SetAddress (n : rnode) (a : address) : rnode := mkRNode a (rn_devices n) (rn_profiles n).
Definition rn_SetPort (n : rnode) (port : Z) : rnode :=
  mkRNode (mkAddress (a_ip (rn_addr n)) port) (rn_devices n) (rn_profiles n).

(** remote_node.go L148-L157, base_node.go L33-L35, L52-L54.  Simplified: the
    parent link of an object is its place in the lists. *)
Definition rn_AddDevice (n : rnode) (o : object) : rnode :=
  mkRNode (rn_addr n) (rn_devices n ++ [o]) (rn_profiles n).
Definition rn_AddProfile (n : rnode) (o : object) : rnode :=
  mkRNode (rn_addr n) (rn_devices n) (rn_profiles n ++ [o]).

(** remote_node.go L40-L45 *)
Definition newRemoteNodeWithRequestMessage (msg : message) : rnode := rn_SetAddress newRemoteNode (m_from msg).

(** The builtin copy(dst, src): the common part is overwritten. *)
Definition go_copy (dst src : list Z) : list Z :=
  firstn (length dst) src ++ skipn (length src) dst.

Definition ObjectCodeSize : Z := 3.

(** remote_node.go L80-L105: one round of the instance loop.  A *device is no
    Profile (it has no method IsNodeProfile), so the type switch of L99-L104
    separates the two results of newObjectWithCodeBytes. *)
Definition add_instance (propData : list Z) (n : Z) (nd : rnode) : res rnode :=
  src <- slice_from propData (n * ObjectCodeSize + 1) ;;
  let objCodes := go_copy (zeros ObjectCodeSize) src in
  objCode <- NewObjectCodeFromBytes objCodes ;;
  c0 <- idx objCodes 0 ;;
  if isProfileObjectCode c0
  then o <- NewProfileWithCode objCode ;; Ok (rn_AddProfile nd o)
  else o <- NewDeviceWithCode objCode ;; Ok (rn_AddDevice nd o).

(** remote_node.go L48-L110 *)
Definition newRemoteNodeWithInstanceListMessage (msg : message) : res rnode :=
  if OPC msg <? 1 then Err ErrInvalid
  else
    prop <- MsgProperty msg 0 ;;
    match prop with
    | None => Err ErrInvalid
    | Some prop =>
        if negb (pp_code prop =? NodeProfileInstanceListNotification) &&
           negb (pp_code prop =? NodeProfileInstanceListS) then Err ErrInvalid
        else
          let propData := pp_data prop in
          let propSize := len propData in
          if propSize =? 0 then Err ErrInvalid
          else
            instanceCount <- idx propData 0 ;;
            if propSize <? instanceCount * ObjectCodeSize + 1 then Err ErrInvalid
            else
              np <- NewNodeProfile ;;
              let nd := rn_AddProfile (rn_SetAddress newRemoteNode (m_from msg)) np in
              nd <- for_range (Z.to_nat instanceCount) 0 (add_instance propData) nd ;;
              np <- NewNodeProfile ;;
              Ok (rn_AddProfile nd np)
    end.

(** transport/const.go L13: UDPPort = Port = 3610. *)
Definition UDPPort : Z := 3610.

(** remote_node.go L113-L125; [auto] is AutoPortBindingEnabled. *)
Definition newRemoteNodeWithInstanceListMessageAndConfig (msg : message) (auto : bool) : res rnode :=
  n <- newRemoteNodeWithInstanceListMessage msg ;;
  Ok (if auto then n else rn_SetPort n UDPPort).

(** ** controller.go *)

(** The state of a controller beside its local node: the discovered nodes, and
    what its listener was told (new nodes, received messages). *)
Record ctrl : Type := mkCtrl {
  ct_found : list rnode; ct_told : list rnode; ct_messages : list message }.

(** What does not change while messages come in: AutoPortBindingEnabled, whether
    a controller listener is set, port and address of the multicast servers
    ([None] where Port or Address returns an error). *)
Record ctrl_conf : Type := mkConf {
  cc_auto : bool; cc_listener : bool; cc_servers : list (option Z * option Z) }.

(** controller.go L66-L77 *)
Definition newCtrl : ctrl := mkCtrl [] [] [].

(** controller.go L90-L97 *)
Definition LookupNode (ct : ctrl) (ip : Z) : option rnode :=
  find (fun n => a_ip (rn_addr n) =? ip) (ct_found ct).

(** controller.go L146-L149 *)
Definition Clear (ct : ctrl) : ctrl := mkCtrl [] (ct_told ct) (ct_messages ct).

(** message_func.go L11-L25 *)
Definition newSearchMessage : message :=
  let msg := SetESV NewMessage ESVReadRequest in
  let msg := SetSEOJ msg NodeProfileObjectCode in
  let msg := SetDEOJ msg NodeProfileObjectCode in
  AddProperty msg (mkPProp NodeProfileInstanceListS []).

(** controller.go L100-L104, L112-L117 *)
Definition SearchAllObjectsWithESV (nd : node) (esv : Z) : node * option err :=
  AnnounceMessage nd (SetESV newSearchMessage esv).
Definition SearchObjectWithESV (nd : node) (code esv : Z) : node * option err :=
  AnnounceMessage nd (SetDEOJ (SetESV newSearchMessage esv) code).

(** ** controller_message_listener.go *)

(** L17-L37 *)
Definition isSelfMessage (conf : ctrl_conf) (msg : message) : bool :=
  existsb (fun s : option Z * option Z =>
      match fst s with
      | None => false
      | Some port =>
          if negb (a_port (m_from msg) =? port) then false
          else match snd s with
               | None => false
               | Some addr => if negb (a_ip (m_from msg) =? addr) then false else true
               end
      end) (cc_servers conf).

(** L88-L100 *)
Definition addNode (conf : ctrl_conf) (ct : ctrl) (n : rnode) : ctrl :=
  if existsb (fun x => addr_eqb (rn_addr n) (rn_addr x)) (ct_found ct) then ct
  else
    mkCtrl (ct_found ct ++ [n]) (if cc_listener conf then ct_told ct ++ [n] else ct_told ct) (ct_messages ct).

(** L72-L85; an error is dropped. *)
Definition parseNodeProfileMessage (conf : ctrl_conf) (self : bool) (ct : ctrl) (msg : message) : res ctrl :=
  if negb self && isSelfMessage conf msg then Ok ct
  else
    match newRemoteNodeWithInstanceListMessageAndConfig msg (cc_auto conf) with
    | Panic => Panic
    | Err _ => Ok ct
    | Ok n => Ok (addNode conf ct n)
    end.

(** L50-L58 *)
Definition isNodeProfileMessage (msg : message) : bool :=
  if negb (ESV_IsNotification (m_esv msg)) && negb (ESV_IsReadResponse (m_esv msg)) then false
  else if negb (isNodeProfileObjectCode (DEOJ msg)) then false else true.

(** L40-L69; [self] is SelfMessageEnabled.  The returned error is always nil. *)
Definition OnMessage (conf : ctrl_conf) (self : bool) (ct : ctrl) (msg : message) : res ctrl :=
  if negb self && isSelfMessage conf msg then Ok ct
  else
    ct <- (if isNodeProfileMessage msg then parseNodeProfileMessage conf self ct msg else Ok ct) ;;
    Ok (if cc_listener conf then mkCtrl (ct_found ct) (ct_told ct) (ct_messages ct ++ [msg]) else ct).

(** The controller is the listener of its local node (controller.go L72).  A
    panic, which theorem C39 excludes, would appear as an error. *)
Definition ctrl_callbacks (conf : ctrl_conf) : callbacks ctrl :=
  mkCallbacks
    (Some (fun ct nd msg =>
       match OnMessage conf (n_self nd) ct msg with
       | Ok ct => (ct, nd, false)
       | _ => (ct, nd, true)
       end))
    (fun _ => None) (fun _ => None).

(** A controller with local node [nd] receives a message. *)
Definition ctrl_receive (conf : ctrl_conf) (nd : node) (ct : ctrl) (msg : message) : ctrl :=
  out_world (ProtocolMessageReceived (ctrl_callbacks conf) ct nd None msg).
