(** Model of the manufacturer table of database.go and of the programs
    examples/uecholight and examples/uechopost. *)

From Coq Require Import String Ascii.
From Verif Require Import Go Encoding Protocol StdDB Property Object Node Handler Remote Cmd ManDB.
Local Open Scope Z_scope.
Local Open Scope list_scope.

(** ** database.go *)

(** database.go L45-L47: insertion into the Go map manufactures, an association
    list with one entry per key. *)
Fixpoint addManufacture (db : list (Z * string)) (man : Z * string) : list (Z * string) :=
  match db with
  | [] => [man]
  | (k, v) :: t => if k =? fst man then man :: t else (k, v) :: addManufacture t man
  end.

(** database.go L35-L43 (manufactures only), database_manufacturers.go L8-L245 *)
Definition db_manufactures : list (Z * string) := fold_left addManufacture man_table [].

(** database.go L68-L71; the name of the manufacture found. *)
Definition LookupManufacture (code : Z) : option string := assoc_z db_manufactures code.

(** ** examples/uecholight *)

(** const.go L12-L14 *)
Definition LightObjectCode : Z := 0x029101.
Definition LightPropertyPowerCode : Z := 0x80.
Definition LightPropertyPowerOn : Z := 0x30.

(** light_node.go L16-L43, the handler of the object at [r]; the second state is
    not used.  targetProp.SetData is a call on the object ([SetPropertyData] finds
    the property first).  Simplified: the output is left out. *)
Definition light_request (r : objref) (w : unit) (nd : node) (esv : Z) (reqProp : pprop) : unit * node * bool :=
  if negb (ESV_IsWriteRequest esv) then (w, nd, false)
  else
    let reqPropCode := pp_code reqProp in
    let reqPropData := pp_data reqProp in
    if reqPropCode =? 0x80 then
      match AsByte reqPropData with
      | Ok reqData =>
          if (reqData =? 0x30) || (reqData =? 0x31)
          then (w, fst (on_object nd r (fun o => SetPropertyData o reqPropCode reqPropData)), false)
          else (w, nd, true)
      | _ => (w, nd, true)
      end
    else (w, nd, true).

(** light_node.go L45-L52: the device with its options (device.go L101-L136).  A
    failing option makes the device nil, and the call on it in L52 panics. *)
Definition light_device : res object :=
  match NewDeviceWithCode LightObjectCode with
  | Ok dev =>
      let '(dev, _, e) := SetManufacturerCode dev 0xFFFFFF in
      match e with
      | Some _ => Panic
      | None =>
          let '(dev, _, _) := SetPropertyInteger dev LightPropertyPowerCode LightPropertyPowerOn 1 in
          Ok dev
      end
  | _ => Panic
  end.

(** light_node.go L15-L58 *)
Definition NewLightNode : res node :=
  dev <- light_device ;;
  nd <- newLocalNode ;;
  Node_AddDevice nd dev.

(** The only handler installed is that of the light, the first device. *)
Definition light_callbacks : callbacks unit :=
  mkCallbacks None (fun _ => None)
    (fun r => match r with DevRef O => Some (light_request r) | _ => None end).

(** What happens to the node of the program, uecholight.go L35-L92: the calls of
    main and of the signal handler, and received messages.  The program posts no
    requests.  [server] is the outcome of the server's Start (see [Node_Start]);
    Restart is Stop and Start (local_node.go L218-L224). *)
Inductive light_event : Type :=
| LManufacturer (c : Z)
| LStart (server : option bool)
| LStop
| LReceive (m : message).

Definition light_step (nd : node) (e : light_event) : node :=
  match e with
  | LManufacturer c => Node_SetManufacturerCode nd c
  | LStart s => fst (Node_Start nd s)
  | LStop => Node_Stop nd
  | LReceive m => out_node (ProtocolMessageReceived light_callbacks tt nd None m)
  end.

Definition light_after (es : list light_event) : res node :=
  nd <- NewLightNode ;; Ok (fold_left light_step es nd).

(** ** examples/uechopost *)

(** strconv.ParseUint(s, 16, bits): digits only, at least one, below 2^bits. *)
Fixpoint parse_digits (s : string) (acc : Z) : option Z :=
  match s with
  | EmptyString => Some acc
  | String c t => match from_hex c with Some d => parse_digits t (acc * 16 + d) | None => None end
  end.
Definition ParseUint (s : string) (bits : Z) : res Z :=
  match s with
  | EmptyString => Err ErrInvalid
  | _ => match parse_digits s 0 with
         | Some v => if v <? 2 ^ bits then Ok v else Err ErrInvalid
         | None => Err ErrInvalid
         end
  end.

(** base_node.go L117-L127 on a remote node. *)
Definition rn_LookupObject (n : rnode) (code : Z) : option object :=
  find (fun o => Code o =? code) (rn_devices n ++ rn_profiles n).

(** uechopost.go L133-L153: one property argument. *)
Definition post_property (arg : string) : res pprop :=
  propBytes <- DecodeString arg ;;
  if len propBytes <=? 1 then Err ErrInvalid
  else
    code <- idx propBytes 0 ;;
    data <- slice propBytes 1 (len propBytes) ;;
    Ok (mkPProp code data).

Fixpoint post_properties (args : list string) : res (list pprop) :=
  match args with
  | [] => Ok []
  | a :: args => p <- post_property a ;; ps <- post_properties args ;; Ok (p :: ps)
  end.

(** uechopost.go L105-L159 from the state [ct] of the controller after its search:
    the destination and the request.  An error ends the program (os.Exit).
    Simplified: the address argument is the abstract address. *)
Definition post_request (ct : ctrl) (ip : Z) (obj esv : string) (props : list string) : res (rnode * message) :=
  match LookupNode ct ip with
  | None => Err ErrNotFound
  | Some dstNode =>
      dstObjCode <- ParseUint obj 32 ;;
      match rn_LookupObject dstNode dstObjCode with
      | None => Err ErrNotFound
      | Some _ =>
          esv <- ParseUint esv 8 ;;
          if negb (ESV_IsValid esv) then Err ErrInvalid
          else
            ps <- post_properties props ;;
            Ok (dstNode, AddProperties (SetESV (SetDEOJ NewMessage dstObjCode) esv) ps)
      end
  end.
