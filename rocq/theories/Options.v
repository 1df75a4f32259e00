(** Model of the option lists of the constructors: property.go L124-L193,
    message.go L50-L96, class.go L38-L78, config.go L36-L58, device.go L98-L143,
    local_node.go L36-L113, controller.go L54-L77.

    Simplified: the parent object of a property is left out. *)

From Coq Require Import String.
From Verif Require Import Go Encoding Protocol StdDB Property Object Node Transport.
Local Open Scope Z_scope.

(** ** property.go *)

(** L132-L172 *)
Inductive prop_option : Type :=
| WithPropertyName (name : string)
| WithPropertyCode (code : Z)
| WithPropertyReadAttribute (a : attr)
| WithPropertyWriteAttribute (a : attr)
| WithPropertyAnnoAttribute (a : attr)
| WithPropertyData (d : list Z).

(** A property with its name. *)
Definition named : Type := (string * property)%type.
Definition apply_prop (x : named) (o : prop_option) : named :=
  let '(name, p) := x in
  match o with
  | WithPropertyName n => (n, p)
  | WithPropertyCode c => (name, mkProperty c (p_get p) (p_set p) (p_anno p) (p_data p))
  | WithPropertyReadAttribute a => (name, mkProperty (p_code p) a (p_set p) (p_anno p) (p_data p))
  | WithPropertyWriteAttribute a => (name, mkProperty (p_code p) (p_get p) a (p_anno p) (p_data p))
  | WithPropertyAnnoAttribute a => (name, mkProperty (p_code p) (p_get p) (p_set p) a (p_data p))
  | WithPropertyData d => (name, with_data p d)
  end.
(** L175-L193 *)
Definition build_property (opts : list prop_option) : named :=
  fold_left apply_prop opts (""%string, newProperty 0 Prohibited Prohibited Prohibited).

(** ** message.go *)

(** L51-L69 *)
Inductive msg_option : Type :=
| WithMessageDEOJ (code : Z)
| WithMessageESV (esv : Z)
| WithMessageProperties (ps : list property).
(** L100-L122 *)
Definition apply_msg (m : message) (o : msg_option) : message :=
  match o with
  | WithMessageDEOJ c => SetDEOJ m c
  | WithMessageESV v => SetESV m v
  | WithMessageProperties ps => fold_left (fun m p => AddProperty m (ToProtocol p)) ps m
  end.
(** L73-L79 *)
Definition build_message (opts : list msg_option) : message := fold_left apply_msg opts NewMessage.

(** ** class.go *)

(** L39-L61; the codes are bytes. *)
Inductive class_option : Type :=
| WithClassBytes (codes : list Z)
| WithClassCode (code : Z)
| WithClassGroupCode (code : Z).
Definition apply_class (o : class_option) (c : list Z) : res (list Z) :=
  match o with
  | WithClassBytes b => x <- idx b 0 ;; c <- set_idx c 0 x ;; y <- idx b 1 ;; set_idx c 1 y
  | WithClassCode x => set_idx c 1 x
  | WithClassGroupCode x => set_idx c 0 x
  end.
(** L64-L78 *)
Definition build_class (opts : list class_option) : res (list Z) := for_each opts apply_class [0; 0].

(** ** config.go *)

(** L31-L34: the flags of the transport and selfMsgEnabled. *)
Record user_config : Type := mkUserConfig { uf_transport : config; uf_self : bool }.
(** L37-L41, L65-L68 *)
Definition with_tcp (c : user_config) (flag : bool) : user_config :=
  let u := cf_unicast (uf_transport c) in
  mkUserConfig (mkConfig (mkUC flag (uc_connectionTimeout u) (uc_requestTimeout u) (uc_bindRetryCount u) (uc_bindRetryWaitTime u))
                         (cf_extension (uf_transport c))) (uf_self c).
(** L44-L58; the options are the flags of WithConfigTCPEnabled. *)
Definition build_config (opts : list bool) : user_config := fold_left with_tcp opts (mkUserConfig NewDefaultConfig true).

(** ** device.go *)

Section Handlers.
Variable H : Type.

(** L101-L125 *)
Inductive dev_option : Type :=
| WithDeviceCode (code : Z)
| WithDeviceManufacturerCode (code : Z)
| WithDeviceRequestHandler (h : H).
(** A device with its request handler (object.go L109). *)
Definition device : Type := (object * option H)%type.
Definition apply_dev (o : dev_option) (d : device) : res device :=
  let '(x, h) := d in
  match o with
  | WithDeviceCode code =>
      match DB_LookupObject code with
      | None => Err ErrOther
      | Some _ => match Super_SetCode x code with Some (x, _) => Ok (x, h) | None => Panic end
      end
  | WithDeviceManufacturerCode code =>
      let '(x, _, e) := SetManufacturerCode x code in match e with Some e => Err e | None => Ok (x, h) end
  | WithDeviceRequestHandler h => Ok (x, Some h)
  end.
(** L128-L143 *)
Definition build_device (opts : list dev_option) : res device :=
  match NewSuperObject with
  | None => Panic
  | Some x => for_each opts apply_dev (x, None)
  end.

End Handlers.

Arguments WithDeviceCode {H}.
Arguments WithDeviceManufacturerCode {H}.
Arguments WithDeviceRequestHandler {H}.
Arguments build_device {H}.
Arguments apply_dev {H}.

(** ** local_node.go *)

Section Listeners.
Variable L : Type.

(** L37-L64 *)
Inductive node_option : Type :=
| WithLocalNodeManufacturerCode (code : Z)
| WithLocalNodeDevices (devs : list object)
| WithLocalNodeListener (l : L)
| WithLocalNodeConfig (cfg : user_config).
(** L74-L85: the node with its configurations (see [Transport]) and its listener. *)
Record made : Type := mkMade { b_node : node; b_conf : node_config; b_listener : option L }.

Definition with_self (nd : node) (b : bool) : node :=
  mkNode (n_devices nd) (n_profiles nd) (n_manufacturer nd) (n_lastTID nd) (n_running nd) (n_addr nd) b (n_sent nd).
(** L131-L156, L179-L184 *)
Definition apply_node (o : node_option) (x : made) : res made :=
  match o with
  | WithLocalNodeManufacturerCode c => Ok (mkMade (Node_SetManufacturerCode (b_node x) c) (b_conf x) (b_listener x))
  | WithLocalNodeDevices ds =>
      nd <- for_each ds (fun d nd => Node_AddDevice nd d) (b_node x) ;; Ok (mkMade nd (b_conf x) (b_listener x))
  | WithLocalNodeListener l => Ok (mkMade (b_node x) (b_conf x) (Some l))
  | WithLocalNodeConfig cfg =>
      Ok (mkMade (with_self (b_node x) (uf_self cfg)) (Node_SetConfig (b_conf x) (uf_transport cfg)) (b_listener x))
  end.
(** L88-L113 *)
Definition build_node (opts : list node_option) : res made :=
  nd <- newLocalNode ;; for_each opts apply_node (mkMade nd NewNodeConfig None).

(** controller.go L54-L77: the local node of a controller; [me] is the controller as
    its listener, the options are the configurations of WithControllerConfig. *)
Definition build_controller (me : L) (cfgs : list user_config) : res made :=
  nd <- newLocalNode ;;
  Ok (fold_left (fun x cfg => mkMade (with_self (b_node x) (uf_self cfg))
                                     (Node_SetConfig (b_conf x) (uf_transport cfg)) (b_listener x))
                cfgs (mkMade nd NewNodeConfig (Some me))).

End Listeners.

Arguments WithLocalNodeManufacturerCode {L}.
Arguments WithLocalNodeDevices {L}.
Arguments WithLocalNodeListener {L}.
Arguments WithLocalNodeConfig {L}.
Arguments mkMade {L}.
Arguments b_node {L}.
Arguments b_conf {L}.
Arguments b_listener {L}.
Arguments build_node {L}.
Arguments apply_node {L}.
Arguments build_controller {L}.
