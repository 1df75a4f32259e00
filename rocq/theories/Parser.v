(** Model of net/echonet/protocol/message_parser.go and of the constructors of
    message.go that parse. *)

From Verif Require Import Go Encoding Protocol.
Local Open Scope Z_scope.

(** message_parser.go L12-L33. *)
Definition parseFrameHeaderBytes (m : message) (data : list Z) : res message :=
  if len data <? FrameHeaderSize then Err ErrInvalid
  else
    b0 <- idx data 0 ;;
    if negb (b0 =? EHD1Echonet) then Err ErrInvalid
    else
      b1 <- idx data 1 ;;
      if negb (b1 =? EHD2Format1) then Err ErrInvalid
      else
        t0 <- idx data 2 ;;
        t1 <- idx data 3 ;;
        Ok (with_tid m (t0, t1)).

(** message_parser.go L36-L65. *)
Definition parseFormat1HeaderBytes (m : message) (data : list Z) : res message :=
  if len data <? Format1HeaderSize then Err ErrInvalid
  else
    s0 <- idx data 0 ;; s1 <- idx data 1 ;; s2 <- idx data 2 ;;
    d0 <- idx data 3 ;; d1 <- idx data 4 ;; d2 <- idx data 5 ;;
    e <- idx data 6 ;;
    o <- idx data 7 ;;
    Ok (SetOPC (SetESV (with_deoj (with_seoj m [s0; s1; s2]) [d0; d1; d2]) e) o).

(** message_parser.go L84-L104: the body of the property loop for one property;
    returns the property and the new offset. *)
Definition parse_prop (data : list Z) (p : pprop) (offset : Z) : res (pprop * Z) :=
  let dataSize := len data in
  if dataSize - 1 <? offset then Ok (p, offset)
  else
    c <- idx data offset ;;
    let p := pp_SetCode p c in
    let offset := offset + 1 in
    if dataSize - 1 <? offset then Ok (p, offset)
    else
      propDataSize <- idx data offset ;;
      let offset := offset + 1 in
      if dataSize - 1 <? offset + propDataSize - 1 then Ok (p, offset)
      else
        d <- slice data offset (offset + propDataSize) ;;
        Ok (pp_SetData p d, offset + propDataSize).

(** message_parser.go L68-L108.  The Go loop visits Property(n) for n < opc;
    SetOPC has just made len(ep) = opc, so it visits the elements of ep in
    order.  Simplification: the loop is a recursion over ep. *)
Fixpoint parse_props (data : list Z) (ps : list pprop) (offset : Z)
  : res (list pprop) :=
  match ps with
  | [] => Ok []
  | p :: t =>
      st <- parse_prop data p offset ;;
      rest <- parse_props data t (snd st) ;;
      Ok (fst st :: rest)
  end.

Definition parseFormat1PropertyBytes (m : message) (data : list Z) : res message :=
  ps <- parse_props data (m_ep m) 0 ;;
  Ok (with_props m (m_opc m) ps).

(** message_parser.go L111-L134. *)
Definition ParseBytes (m : message) (data : list Z) : res message :=
  m <- parseFrameHeaderBytes m data ;;
  d <- slice_from data FrameHeaderSize ;;
  m <- parseFormat1HeaderBytes m d ;;
  d <- slice_from data Format1MinSize ;;
  parseFormat1PropertyBytes m d.

(** message.go L79-L85. *)
Definition NewMessageWithBytes (data : list Z) : res message :=
  ParseBytes NewMessage data.

(** message.go L88-L101. *)
Definition NewMessageWithMessage (m : message) : res message :=
  b <- Bytes m ;;
  c <- NewMessageWithBytes b ;;
  Ok (SetPacketType (SetFrom c (m_from m)) (m_pktType m)).
