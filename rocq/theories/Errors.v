(** Model of the error values of the library: which package's variable an error is
    (errors.Is) and its text.  The other models keep only the kind of an error
    ([Go.err]); here the functions that return errors with a text are written again
    with the whole value ([PropsErrors] shows that they agree).

    net/echonet/errors.go, protocol/errors.go, transport/errors.go and the formats
    next to the functions cited below. *)

From Coq Require Import String Ascii.
From Verif Require Import Go Encoding Protocol Parser Reader Property Object Node Cmd SearchTool PostTool Packet.
Local Open Scope Z_scope.

(** The variables made by errors.New; each is a pointer of its own, also where the
    texts are the same.
    net/echonet/errors.go L12-L24, protocol/errors.go L12-L15, transport/errors.go L13;
    [IoError] is an error of a reader given by the caller. *)
Inductive variable :=
| EchonetInvalid | EchonetNoData | EchonetNotFound | EchonetUnknown | EchonetTimeout
| ProtocolNoData | ProtocolInvalid | TransportInvalid | IoError (e : err).

Definition err_eqb (a b : err) : bool :=
  match a, b with
  | ErrInvalid, ErrInvalid | ErrNoData, ErrNoData | ErrNotFound, ErrNotFound | ErrTimeout, ErrTimeout
  | ErrNotRunning, ErrNotRunning | ErrEOF, ErrEOF | ErrShort, ErrShort | ErrBind, ErrBind | ErrOther, ErrOther => true
  | _, _ => false
  end.

(** Comparison of two error values with ==. *)
Definition variable_eqb (a b : variable) : bool :=
  match a, b with
  | EchonetInvalid, EchonetInvalid | EchonetNoData, EchonetNoData | EchonetNotFound, EchonetNotFound
  | EchonetUnknown, EchonetUnknown | EchonetTimeout, EchonetTimeout | ProtocolNoData, ProtocolNoData
  | ProtocolInvalid, ProtocolInvalid | TransportInvalid, TransportInvalid => true
  | IoError x, IoError y => err_eqb x y
  | _, _ => false
  end.

(** An error value: a variable; the result of fmt.Errorf with one verb %w, of which
    [before] and [after] are the formatted parts around it; the result of fmt.Errorf
    without %w. *)
Inductive gerror :=
| Var (v : variable)
| Wrap (before : string) (inner : gerror) (after : string)
| Plain (text : string).

(** Texts given to errors.New (same lines); that of a reader's error is not described. *)
Definition variable_text (v : variable) : string :=
  match v with
  | EchonetInvalid | ProtocolInvalid | TransportInvalid => "invalid"
  | EchonetNoData | ProtocolNoData => "no data"
  | EchonetNotFound => "not found"
  | EchonetUnknown => "unknown"
  | EchonetTimeout => "timeout"
  | IoError _ => "EOF"
  end.

(** The method Error. *)
Fixpoint Error (e : gerror) : string :=
  match e with
  | Var v => variable_text v
  | Wrap b e a => b ++ Error e ++ a
  | Plain t => t
  end%string.

(** errors.Is(e, v): the chain of Unwrap, compared with ==. *)
Fixpoint Is (e : gerror) (v : variable) : bool :=
  match e with
  | Var w => variable_eqb w v
  | Wrap _ e _ => Is e v
  | Plain _ => false
  end.

(** Result of a call with the whole error value. *)
Inductive full (A : Type) := Value (a : A) | Fails (e : gerror) | Panics.
Arguments Value {A} a.
Arguments Fails {A} e.
Arguments Panics {A}.

Definition then_ {A B} (x : full A) (k : A -> full B) : full B :=
  match x with Value a => k a | Fails e => Fails e | Panics => Panics end.
(** A part of a function that returns no error, only a value or a panic. *)
Definition silent {A} (x : res A) : full A :=
  match x with Ok a => Value a | Err e => Fails (Var (IoError e)) | Panic => Panics end.

(** ** Formats *)

(** property_map.go L18: [%w: property (%02X)] *)
Definition errPropertyNotFound (code : Z) : gerror := Wrap "" (Var EchonetNotFound) (": property (" ++ fmt_X 2 code ++ ")").
(** property.go L408: [%w data size (%d)] *)
Definition errDataSize (v : variable) (n : Z) : gerror := Wrap "" (Var v) (" data size (" ++ fmt_d n ++ ")").
(** property.go L26-L27; prop.code has no method String. *)
Definition errInvalidPropertyCode (code : Z) : gerror := Wrap "" (Var EchonetInvalid) (": property code (" ++ fmt_X 2 code ++ ")").
Definition errInvalidPropertyMapData (t : string) : gerror := Wrap "" (Var EchonetInvalid) (": property map data (" ++ t ++ ")").
(** device.go L83 with string(verBytes): the bytes are the text. *)
Definition errDeviceInvalidDeviceStandardVersion (d : list Z) : gerror :=
  Wrap "" (Var EchonetInvalid) (": device standard version (" ++ text (map char_of d) ++ ")").
(** device.go L105; ObjectCode has a method String, so that %X shows the codes of its characters. *)
Definition errNotInDatabase (code : Z) : gerror :=
  Plain ("object code (" ++ fmt_X_String (ObjectCode_String code) ++ ") not found in standard database").
(** base_node.go L12-L13; the same for %X. *)
Definition errObjectNotFound (code : Z) : gerror :=
  Wrap "" (Var EchonetNotFound) (": object (" ++ fmt_X_String (ObjectCode_String code) ++ ")").
Definition errObjectProfileObjectNotFound : gerror := Wrap "" (Var EchonetNotFound) ": object profile".
(** protocol/errors.go L18-L21 *)
Definition errInvalidMessageSize (n size : Z) : gerror :=
  Wrap "" (Var ProtocolInvalid) (": message length : " ++ fmt_d n ++ " < " ++ fmt_d size).
Definition errInvalidMessageHeader (i b want : Z) : gerror :=
  Wrap "" (Var ProtocolInvalid) (": message header [" ++ fmt_d i ++ "] : " ++ fmt_X 2 b ++ " != " ++ fmt_X 2 want).
Definition errInvalidObjectCodes (d : list Z) : gerror :=
  Wrap "" (Var ProtocolInvalid) (": object code : " ++ text (map char_of d)).
(** local_node_msssage.go L21-L22; the text of a message is its bytes (protocol/message.go
    L403-L407, promoted to echonet.message), that of a node Node_String of [NodeText]. *)
Definition errNodeRequestTimeout (msg : string) : gerror := Wrap "request " (Var EchonetTimeout) (" (" ++ msg ++ ")").
Definition errNodeIsNotRunning (node : string) : gerror := Wrap "" (Var EchonetInvalid) (": node (" ++ node ++ ") is not running ").
(** transport/errors.go L16-L20 *)
Definition errSocketClosed : gerror := Wrap "" (Var TransportInvalid) ": socket is closed".
Definition errTCPSocketDisabled : gerror := Wrap "" (Var TransportInvalid) ": TCP function is disabled".
Definition errAvailableAddressNotFound : gerror := Wrap "" (Var TransportInvalid) ": no available address".
Definition errAvailableInterfaceFound : gerror := Wrap "" (Var TransportInvalid) ": no available interface".
Definition errUnicastServerNotRunning : gerror := Wrap "" (Var TransportInvalid) ": unicast server is not running".

(** ** Functions *)

(** property.go L400-L428 (values of properties of objects) and protocol/property.go
    L102-L128 (of properties of messages): the same with the variables of the package. *)
Definition AsByte_full (nodata invalid : variable) (d : list Z) : full Z :=
  match d with
  | [] => Fails (Var nodata)
  | [b] => Value b
  | _ => Fails (errDataSize invalid (len d))
  end.
Definition AsString_full (nodata : variable) (d : list Z) : full (list Z) :=
  match d with [] => Fails (Var nodata) | _ => Value d end.
Definition AsInteger_full (nodata : variable) (d : list Z) : full Z :=
  match d with [] => Fails (Var nodata) | _ => Value (ByteToInteger d) end.

(** property_map.go L109-L136: SetPropertyData, SetPropertyByte, SetPropertyInteger; the
    error only. *)
Definition SetPropertyDataMap_error (m : props) (code : Z) : option gerror :=
  match LookupProperty m code with None => Some (errPropertyNotFound code) | Some _ => None end.
(** property_map.go L145-L178 *)
Definition LookupPropertyDataSize_full (m : props) (code : Z) : full Z :=
  match LookupProperty m code with None => Fails (errPropertyNotFound code) | Some p => Value (len (p_data p)) end.
Definition LookupPropertyData_full (m : props) (code : Z) : full (list Z) :=
  match LookupProperty m code with None => Fails (errPropertyNotFound code) | Some p => Value (p_data p) end.
Definition LookupPropertyByte_full (m : props) (code : Z) : full Z :=
  match LookupProperty m code with None => Fails (errPropertyNotFound code) | Some p => AsByte_full EchonetNoData EchonetInvalid (p_data p) end.
Definition LookupPropertyInteger_full (m : props) (code : Z) : full Z :=
  match LookupProperty m code with None => Fails (errPropertyNotFound code) | Some p => AsInteger_full EchonetNoData (p_data p) end.

(** property.go L429-L458 *)
Definition PropertyMapData_full (p : property) : full (list Z) :=
  if (p_code p =? ObjectGetPropertyMap) || (p_code p =? ObjectSetPropertyMap) || (p_code p =? ObjectAnnoPropertyMap) then
    if len (p_data p) =? 0 then Fails (errInvalidPropertyMapData "")
    else
      then_ (silent (idx (p_data p) 0)) (fun propMapCount =>
      if isPropertyMapDescriptionFormat1 propMapCount then
        if negb (len (p_data p) =? propMapCount + 1) then Fails (errInvalidPropertyMapData (EncodeToString (p_data p)))
        else
          silent (for_range (Z.to_nat propMapCount) 0
            (fun n codes => b <- idx (p_data p) (n + 1) ;; Ok (codes ++ [b])) [])
      else
        if negb (len (p_data p) =? Z.of_nat PropertyMapFormat2MapSize + 1) then Fails (errInvalidPropertyMapData (EncodeToString (p_data p)))
        else
          silent (for_range PropertyMapFormat2MapSize 0
            (fun n codes => b <- idx (p_data p) (n + 1) ;; Ok (codes ++ propertyMapFormat2ByteToCodes n b)) []))
  else Fails (errInvalidPropertyCode (p_code p)).

(** device.go L173-L182 *)
Definition StandardVersion_full (o : object) : full Z :=
  then_ (LookupPropertyData_full (o_props o) DeviceStandardVersion) (fun d =>
  if len d <=? 4 then Fails (errDeviceInvalidDeviceStandardVersion d) else silent (idx d 2)).

(** base_node.go L43-L51, L64-L72, L75-L85, L117-L127 *)
Definition LookupDevice_full (nd : node) (code : Z) : full objref :=
  match LookupDevice nd code with Some r => Value r | None => Fails (errObjectNotFound code) end.
Definition LookupProfile_full (nd : node) (code : Z) : full objref :=
  match LookupProfile nd code with Some r => Value r | None => Fails (errObjectNotFound code) end.
Definition NodeProfile_full (nd : node) : full objref :=
  match LookupProfile_full nd NodeProfileObjectCode with
  | Value r => Value r
  | _ => match LookupProfile_full nd NodeProfileObjectReadOnlyCode with
         | Value r => Value r
         | _ => Fails errObjectProfileObjectNotFound
         end
  end.
Definition LookupObject_full (nd : node) (code : Z) : full objref :=
  match LookupDevice_full nd code with
  | Value r => Value r
  | _ => match LookupProfile_full nd code with Value r => Value r | _ => Fails (errObjectNotFound code) end
  end.

(** protocol/object.go L24-L29, also object_code.go L22-L24 of package echonet *)
Definition NewObjectCodeFromBytes_full (codes : list Z) : full Z :=
  if negb (len codes =? 3) then Fails (errInvalidObjectCodes codes) else Value (ByteToInteger codes).

(** device.go L101-L110 WithDeviceCode: the check before the code is set. *)
Definition WithDeviceCode_error (code : Z) : option gerror :=
  match DB_LookupObject code with None => Some (errNotInDatabase code) | Some _ => None end.

(** protocol/message_parser.go L12-L33 *)
Definition parseFrameHeaderBytes_full (m : message) (data : list Z) : full message :=
  if len data <? FrameHeaderSize then Fails (errInvalidMessageSize (len data) FrameHeaderSize)
  else
    then_ (silent (idx data 0)) (fun b0 =>
    if negb (b0 =? EHD1Echonet) then Fails (errInvalidMessageHeader 0 b0 EHD1Echonet)
    else
      then_ (silent (idx data 1)) (fun b1 =>
      if negb (b1 =? EHD2Format1) then Fails (errInvalidMessageHeader 1 b1 EHD2Format1)
      else silent (t0 <- idx data 2 ;; t1 <- idx data 3 ;; Ok (with_tid m (t0, t1))))).

(** protocol/message_parser.go L36-L65 *)
Definition parseFormat1HeaderBytes_full (m : message) (data : list Z) : full message :=
  if len data <? Format1HeaderSize
  then Fails (errInvalidMessageSize (len data + FrameHeaderSize) (Format1HeaderSize + FrameHeaderSize))
  else silent (parseFormat1HeaderBytes m data).

(** protocol/message_parser.go L111-L134 and message.go L79-L85 *)
Definition NewMessageWithBytes_full (data : list Z) : full message :=
  then_ (parseFrameHeaderBytes_full NewMessage data) (fun m =>
  then_ (silent (slice_from data FrameHeaderSize)) (fun d =>
  then_ (parseFormat1HeaderBytes_full m d) (fun m =>
  then_ (silent (slice_from data Format1MinSize)) (fun d =>
  silent (parseFormat1PropertyBytes m d))))).

Section Stream.
  (** As in [Reader]. *)
  Variable R : Type.
  Variable Read : R -> Z -> read_result R.

  (** protocol/message_parser_reader.go: one Read with the number [said] that the text
      says was read: the count in L56 and L71, but the number of the property, n, in L27
      and L38. *)
  Definition read_exactly_full (said : Z -> Z) (r : R) (n : Z) : full (list Z * R) :=
    match Read r n with
    | (_, Some e, _) => Fails (Var (IoError e))
    | (d, None, r') => if len d <? n then Fails (errInvalidMessageSize (said (len d)) n) else Value (d, r')
    end.

  (** message_parser_reader.go L13-L44; [k] is the number of the next property. *)
  Fixpoint read_props_full (k : Z) (ps : list pprop) (r : R) : full (list pprop * R) :=
    match ps with
    | [] => Value ([], r)
    | p :: t =>
        then_ (read_exactly_full (fun _ => k) r Format1PropertyHeaderSize) (fun '(hdr, r) =>
        then_ (silent (idx hdr 0)) (fun c =>
        then_ (silent (idx hdr 1)) (fun n =>
        then_ (read_exactly_full (fun _ => k) r n) (fun '(d, r) =>
        then_ (read_props_full (k + 1) t r) (fun '(ps', r) =>
        Value (pp_SetData (pp_SetCode p c) d :: ps', r))))))
    end.

  (** message_parser_reader.go L47-L86 and message.go L70-L76 *)
  Definition NewMessageWithReader_full (r : R) : full message :=
    then_ (read_exactly_full (fun n => n) r FrameHeaderSize) (fun '(h, r) =>
    then_ (parseFrameHeaderBytes_full NewMessage h) (fun m =>
    then_ (read_exactly_full (fun n => n) r Format1HeaderSize) (fun '(h, r) =>
    then_ (parseFormat1HeaderBytes_full m h) (fun m =>
    then_ (read_props_full 0 (m_ep m) r) (fun '(ps, _) =>
    Value (Protocol.with_props m (m_opc m) ps)))))).
End Stream.

Arguments read_exactly_full {R} Read said r n.
Arguments read_props_full {R} Read k ps r.
Arguments NewMessageWithReader_full {R} Read r.

(** local_node_msssage.go L26-L33, L76-L80: announcing and sending on a node that does not
    run; [node] is its text. *)
Definition AnnounceMessage_error (nd : node) (node : string) : option gerror :=
  if negb (n_running nd) then Some (errNodeIsNotRunning node) else None.

(** local_node_msssage.go L192-L198: no response in time; [msg] is the message as sent. *)
Definition PostMessage_timeout (msg : message) : full gerror :=
  match MsgString (Some msg) with
  | Ok t => Value (errNodeRequestTimeout t)
  | Err e => Fails (Var (IoError e))
  | Panic => Panics
  end.
