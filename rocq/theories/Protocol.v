(** Model of net/echonet/protocol: property.go, object.go, esv.go, message.go. *)

From Verif Require Import Go Encoding.
Local Open Scope Z_scope.

(** ** property.go *)

(** property.go L46-L49: code and data of a protocol property.  Properties are
    pointers in Go; the modelled code never mutates a property after it was put
    into a message, except while parsing, so values are used. *)
Record pprop : Type := mkPProp { pp_code : Z; pp_data : list Z }.

(** property.go L51-L57, L60-L62. *)
Definition NewPProp : pprop := mkPProp 0 [].

(** property.go L81-L83. *)
Definition pp_SetCode (p : pprop) (c : Z) : pprop := mkPProp c (pp_data p).

(** property.go L91-L94: the data is copied. *)
Definition pp_SetData (p : pprop) (d : list Z) : pprop := mkPProp (pp_code p) d.

(** property.go L65-L69. *)
Definition NewPPropWithCode (c : Z) : pprop := pp_SetCode NewPProp c.

(** property.go L72-L78. *)
Definition NewPPropsWithCodes (cs : list Z) : list pprop := map NewPPropWithCode cs.

(** property.go L131-L133. *)
Definition pp_Size (p : pprop) : Z := len (pp_data p).

(** property.go L102-L112 (also net/echonet/property.go L400-L409). *)
Definition AsByte (d : list Z) : res Z :=
  match d with
  | [] => Err ErrNoData
  | [b] => Ok b
  | _ => Err ErrInvalid
  end.

(** property.go L115-L120; a Go string is its bytes. *)
Definition AsString (d : list Z) : res (list Z) :=
  match d with
  | [] => Err ErrNoData
  | _ => Ok d
  end.

(** property.go L123-L128. *)
Definition AsInteger (d : list Z) : res Z :=
  match d with
  | [] => Err ErrNoData
  | _ => Ok (ByteToInteger d)
  end.

(** ** object.go *)

(** object.go L24-L29. *)
Definition NewObjectCodeFromBytes (codes : list Z) : res Z :=
  if negb (len codes =? 3) then Err ErrInvalid else Ok (ByteToInteger codes).

(** object.go L37-L41. *)
Definition ObjectCode_Bytes (code : Z) : list Z := IntegerToByte code 3.

(** ** esv.go *)

(** esv.go L16-L31. *)
Definition ESVWriteRequest := 0x60.
Definition ESVWriteRequestResponseRequired := 0x61.
Definition ESVReadRequest := 0x62.
Definition ESVNotificationRequest := 0x63.
Definition ESVWriteReadRequest := 0x6E.
Definition ESVWriteResponse := 0x71.
Definition ESVReadResponse := 0x72.
Definition ESVNotification := 0x73.
Definition ESVNotificationResponseRequired := 0x74.
Definition ESVNotificationResponse := 0x7A.
Definition ESVWriteReadResponse := 0x7E.
Definition ESVWriteRequestError := 0x50.
Definition ESVWriteRequestResponseRequiredError := 0x51.
Definition ESVReadRequestError := 0x52.
Definition ESVNotificationRequestError := 0x53.
Definition ESVWriteReadRequestError := 0x5E.

(** esv.go L35-L56. *)
Definition ESV_IsValid (esv : Z) : bool :=
  contains
    [ ESVWriteRequest; ESVWriteRequestResponseRequired; ESVReadRequest;
      ESVNotificationRequest; ESVWriteReadRequest; ESVWriteResponse;
      ESVReadResponse; ESVNotification; ESVNotificationResponseRequired;
      ESVNotificationResponse; ESVWriteReadResponse; ESVWriteRequestError;
      ESVWriteRequestResponseRequiredError; ESVReadRequestError;
      ESVNotificationRequestError; ESVWriteReadRequestError ] esv.

(** esv.go L59-L69. *)
Definition ESV_IsWriteRequest (esv : Z) : bool :=
  if esv =? ESVWriteRequest then true
  else if esv =? ESVWriteRequestResponseRequired then true
  else if esv =? ESVWriteReadRequest then true
  else false.

(** esv.go L72-L80. *)
Definition ESV_IsReadRequest (esv : Z) : bool :=
  if esv =? ESVReadRequest then true
  else if esv =? ESVWriteReadRequest then true
  else false.

(** esv.go L83-L89. *)
Definition ESV_IsNotificationRequest (esv : Z) : bool :=
  esv =? ESVNotificationRequest.

(** esv.go L92-L100. *)
Definition ESV_IsWriteResponse (esv : Z) : bool :=
  if esv =? ESVWriteResponse then true
  else if esv =? ESVWriteReadResponse then true
  else false.

(** esv.go L103-L111. *)
Definition ESV_IsReadResponse (esv : Z) : bool :=
  if esv =? ESVReadResponse then true
  else if esv =? ESVWriteReadResponse then true
  else false.

(** esv.go L114-L122. *)
Definition ESV_IsNotification (esv : Z) : bool :=
  if esv =? ESVNotification then true
  else if esv =? ESVNotificationResponseRequired then true
  else false.

(** esv.go L125-L131. *)
Definition ESV_IsNotificationResponse (esv : Z) : bool :=
  esv =? ESVNotificationResponse.

(** esv.go L134-L148. *)
Definition ESV_IsResponseRequired (esv : Z) : bool :=
  if esv =? ESVReadRequest then true
  else if esv =? ESVNotificationRequest then true
  else if esv =? ESVWriteReadRequest then true
  else if esv =? ESVWriteRequestResponseRequired then true
  else if esv =? ESVNotificationResponseRequired then true
  else false.

(** ** message.go *)

(** message.go L16-L26. *)
Definition FrameHeaderSize := 4.
Definition Format1HeaderSize := 8.
Definition Format1MinSize := FrameHeaderSize + Format1HeaderSize.
Definition Format1PropertyHeaderSize := 2.
Definition EHD1Echonet := 0x10.
Definition EHD2Format1 := 0x81.
Definition TIDMax := 65535.

(** message.go L28-L34. *)
Definition UnknownPacket := 0x00.
Definition MulticastPacket := 0x01.
Definition UDPUnicastPacket := 0x10.
Definition TCPUnicastPacket := 0x20.
Definition UnicastPacket := Z.lor UDPUnicastPacket TCPUnicastPacket.

(** address.go L14-L18.  Simplification: an IP address is an abstract number
    (equality of addresses is equality of their textual form in the code),
    the IPv6 zone is dropped. *)
Record address : Type := mkAddress { a_ip : Z; a_port : Z }.

(** address.go L21-L28. *)
Definition NewAddress : address := mkAddress 0 0.

(** message.go L37-L49.  [Interface] is left out: no modelled code reads it.
    tid is a slice of constant length 2 (message.go L56), modelled as a pair. *)
Record message : Type := mkMessage {
  m_ehd1 : Z;
  m_ehd2 : Z;
  m_tid : Z * Z;
  m_seoj : list Z;
  m_deoj : list Z;
  m_esv : Z;
  m_opc : Z;
  m_ep : list pprop;
  m_from : address;
  m_pktType : Z }.

(** message.go L52-L67. *)
Definition NewMessage : message :=
  mkMessage EHD1Echonet EHD2Format1 (0, 0) [0; 0; 0] [0; 0; 0] 0 0 []
            NewAddress UnknownPacket.

(** Record updates, the counterpart of the assignments msg.tid[..] = ..,
    msg.seoj[..] = .., msg.deoj[..] = .. and msg.opc/msg.ep = .. in message.go
    L166-L167, L188, L203, L233-L238 and message_parser.go L29-L30, L43-L51. *)
Definition with_tid (m : message) (t : Z * Z) : message :=
  mkMessage (m_ehd1 m) (m_ehd2 m) t (m_seoj m) (m_deoj m) (m_esv m) (m_opc m)
            (m_ep m) (m_from m) (m_pktType m).
Definition with_seoj (m : message) (e : list Z) : message :=
  mkMessage (m_ehd1 m) (m_ehd2 m) (m_tid m) e (m_deoj m) (m_esv m) (m_opc m)
            (m_ep m) (m_from m) (m_pktType m).
Definition with_deoj (m : message) (e : list Z) : message :=
  mkMessage (m_ehd1 m) (m_ehd2 m) (m_tid m) (m_seoj m) e (m_esv m) (m_opc m)
            (m_ep m) (m_from m) (m_pktType m).
Definition with_props (m : message) (opc : Z) (ep : list pprop) : message :=
  mkMessage (m_ehd1 m) (m_ehd2 m) (m_tid m) (m_seoj m) (m_deoj m) (m_esv m) opc
            ep (m_from m) (m_pktType m).

(** message.go L162-L169 (value is uint, hence not negative). *)
Definition SetTID (m : message) (value : Z) : message :=
  let value := if TIDMax <? value then value mod TIDMax else value in
  with_tid m (u8 (Z.shiftr (Z.land value 0xFF00) 8), u8 (Z.land value 0x00FF)).

(** message.go L177-L179. *)
Definition TID (m : message) : Z :=
  Z.shiftl (fst (m_tid m)) 8 + snd (m_tid m).

(** message.go L187-L189, L192-L194, L202-L204, L207-L209. *)
Definition SetSEOJ (m : message) (code : Z) : message :=
  with_seoj m (IntegerToByte code (length (m_seoj m))).
Definition SEOJ (m : message) : Z := ByteToInteger (m_seoj m).
Definition SetDEOJ (m : message) (code : Z) : message :=
  with_deoj m (IntegerToByte code (length (m_deoj m))).
Definition DEOJ (m : message) : Z := ByteToInteger (m_deoj m).

(** message.go L217-L219. *)
Definition SetESV (m : message) (v : Z) : message :=
  mkMessage (m_ehd1 m) (m_ehd2 m) (m_tid m) (m_seoj m) (m_deoj m) v (m_opc m)
            (m_ep m) (m_from m) (m_pktType m).

(** message.go L293-L295. *)
Definition SetPacketType (m : message) (t : Z) : message :=
  mkMessage (m_ehd1 m) (m_ehd2 m) (m_tid m) (m_seoj m) (m_deoj m) (m_esv m)
            (m_opc m) (m_ep m) (m_from m) t.

(** Assignment to the exported field From, e.g. transport/udp_socket.go L142-L146. *)
Definition SetFrom (m : message) (a : address) : message :=
  mkMessage (m_ehd1 m) (m_ehd2 m) (m_tid m) (m_seoj m) (m_deoj m) (m_esv m)
            (m_opc m) (m_ep m) a (m_pktType m).

(** message.go L303-L305. *)
Definition IsPacketType (m : message) (t : Z) : bool :=
  negb (Z.land (m_pktType m) t =? 0).

(** message.go L232-L239. *)
Definition SetOPC (m : message) (value : Z) : message :=
  let opc := u8 (Z.land value 0xFF) in
  with_props m opc (repeat NewPProp (Z.to_nat opc)).

(** message.go L242-L244. *)
Definition OPC (m : message) : Z := m_opc m.

(** message.go L247-L250: opc is a byte, the increment wraps. *)
Definition AddProperty (m : message) (p : pprop) : message :=
  with_props m (u8 (m_opc m + 1)) (m_ep m ++ [p]).

(** message.go L253-L257. *)
Definition AddProperties (m : message) (ps : list pprop) : message :=
  fold_left AddProperty ps m.

(** message.go L260-L265: nil ([None]) beyond the end, index panic below 0. *)
Definition MsgProperty (m : message) (n : Z) : res (option pprop) :=
  if len (m_ep m) - 1 <? n then Ok None
  else p <- idx (m_ep m) n ;; Ok (Some p).

(** message.go L273-L280. *)
Definition HasProperty (m : message) (code : Z) : bool :=
  existsb (fun p => pp_code p =? code) (m_ep m).

(** message.go L328-L341. *)
Definition Size (m : message) : res Z :=
  for_range (Z.to_nat (m_opc m)) 0
    (fun n msgSize =>
       prop <- MsgProperty m n ;;
       match prop with
       | None => Ok msgSize
       | Some p => Ok (msgSize + 2 + pp_Size p)
       end)
    Format1MinSize.

(** message.go L351-L362: the twelve header bytes. *)
Definition header_writes (m : message) (buf : list Z) : res (list Z) :=
  s0 <- idx (m_seoj m) 0 ;; s1 <- idx (m_seoj m) 1 ;; s2 <- idx (m_seoj m) 2 ;;
  d0 <- idx (m_deoj m) 0 ;; d1 <- idx (m_deoj m) 1 ;; d2 <- idx (m_deoj m) 2 ;;
  b <- set_idx buf 0 (m_ehd1 m) ;; b <- set_idx b 1 (m_ehd2 m) ;;
  b <- set_idx b 2 (fst (m_tid m)) ;; b <- set_idx b 3 (snd (m_tid m)) ;;
  b <- set_idx b 4 s0 ;; b <- set_idx b 5 s1 ;; b <- set_idx b 6 s2 ;;
  b <- set_idx b 7 d0 ;; b <- set_idx b 8 d1 ;; b <- set_idx b 9 d2 ;;
  b <- set_idx b 10 (m_esv m) ;; set_idx b 11 (m_opc m).

(** message.go L381-L383: for i := range propSize { msgBytes[offset+i] = propData[i] } *)
Definition copy_data (d : list Z) (offset : Z) (buf : list Z) : res (list Z) :=
  for_range (length d) 0
    (fun i b => x <- idx d i ;; set_idx b (offset + i) x) buf.

(** message.go L365-L386: one iteration of the property loop; the state is the
    buffer and the offset. *)
Definition write_prop (m : message) (n : Z) (st : list Z * Z) : res (list Z * Z) :=
  let '(buf, offset) := st in
  prop <- MsgProperty m n ;;
  match prop with
  | None => Ok (buf, offset)
  | Some p =>
      b <- set_idx buf offset (u8 (pp_code p)) ;;
      let offset := offset + 1 in
      let propSize := pp_Size p in
      b <- set_idx b offset (u8 propSize) ;;
      let offset := offset + 1 in
      if propSize =? 0 then Ok (b, offset)
      else
        b <- copy_data (pp_data p) offset b ;;
        Ok (b, offset + propSize)
  end.

(** message.go L344-L389 (for a non nil message). *)
Definition Bytes (m : message) : res (list Z) :=
  size <- Size m ;;
  buf <- header_writes m (zeros size) ;;
  st <- for_range (Z.to_nat (m_opc m)) 0 (write_prop m) (buf, 12) ;;
  Ok (fst st).

(** message.go L392-L400; a nil pointer is [None]. *)
Definition Equals (a b : option message) : res bool :=
  match a, b with
  | Some x, Some y =>
      bx <- Bytes x ;; by_ <- Bytes y ;; Ok (bytes_eqb bx by_)
  | _, _ => Ok false
  end.

(** message.go L110-L123. *)
Definition response_esv (esv : Z) : Z :=
  if esv =? ESVWriteRequestResponseRequired then ESVWriteResponse
  else if esv =? ESVReadRequest then ESVReadResponse
  else if esv =? ESVNotificationRequest then ESVNotification
  else if esv =? ESVWriteReadRequest then ESVWriteReadResponse
  else if esv =? ESVNotificationResponseRequired then ESVNotificationResponse
  else 0.

(** message.go L104-L126. *)
Definition NewResponseMessageWithMessage (req : message) : message :=
  let msg := SetTID NewMessage (TID req) in
  let msg := SetSEOJ msg (DEOJ req) in
  let msg := SetDEOJ msg (SEOJ req) in
  SetESV msg (response_esv (m_esv req)).

(** message.go L135-L150. *)
Definition impossible_esv (esv : Z) : Z :=
  if esv =? ESVWriteRequest then ESVWriteRequestError
  else if esv =? ESVWriteRequestResponseRequired
  then ESVWriteRequestResponseRequiredError
  else if esv =? ESVReadRequest then ESVReadRequestError
  else if esv =? ESVNotificationRequest then ESVNotificationRequestError
  else if esv =? ESVWriteReadRequest then ESVWriteReadRequestError
  else if esv =? ESVNotificationResponseRequired then ESVNotificationRequestError
  else 0.

(** message.go L129-L159.  L155 reads the n-th property of the new message
    (msg), not of the request; a nil property cannot occur there because SetOPC
    created reqMsgOPC properties. *)
Definition NewImpossibleMessageWithMessage (req : message) : res message :=
  let msg := SetTID NewMessage (TID req) in
  let msg := SetSEOJ msg (DEOJ req) in
  let msg := SetDEOJ msg (SEOJ req) in
  let msg := SetESV msg (impossible_esv (m_esv req)) in
  let reqMsgOPC := OPC req in
  let msg := SetOPC msg reqMsgOPC in
  for_range (Z.to_nat reqMsgOPC) 0
    (fun n msg =>
       reqProp <- MsgProperty msg n ;;
       match reqProp with
       | Some p => Ok (AddProperty msg p)
       | None => Panic
       end)
    msg.
