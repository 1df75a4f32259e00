(** Model of net/echonet/protocol/message_parser_reader.go over an abstract
    io.Reader, with the two readers the code is used with: bufio.Reader on a TCP
    connection (transport/tcp_socket.go L92-L113) and bytes.Reader (the public
    constructor NewMessageWithReader takes any io.Reader). *)

From Verif Require Import Go Encoding Protocol Parser.
Local Open Scope Z_scope.

(** Result of one Read(p) call: the bytes copied to the front of p, the error. *)
Definition read_result (R : Type) : Type := (list Z * option err * R)%type.

Section ParseReader.
  (** io.Reader: Read into a buffer of the given length. *)
  Variable R : Type.
  Variable Read : R -> Z -> read_result R.

  (** message_parser_reader.go L22-L28, L33-L39, L51-L57, L66-L72: one Read into
      a fresh buffer of [n] bytes; an error is returned, and so is a short
      count.  The buffer then holds exactly the [n] bytes read. *)
  Definition read_exactly (r : R) (n : Z) : res (list Z * R) :=
    match Read r n with
    | (_, Some e, _) => Err e
    | (d, None, r') => if len d <? n then Err ErrInvalid else Ok (d, r')
    end.

  (** message_parser_reader.go L16-L41: loop over the properties of ep (see the
      remark at [parse_props]). *)
  Fixpoint read_props (ps : list pprop) (r : R) : res (list pprop * R) :=
    match ps with
    | [] => Ok ([], r)
    | p :: t =>
        h <- read_exactly r Format1PropertyHeaderSize ;;
        let '(hdr, r) := h in
        c <- idx hdr 0 ;;
        n <- idx hdr 1 ;;
        x <- read_exactly r n ;;
        let '(d, r) := x in
        rest <- read_props t r ;;
        let '(ps', r) := rest in
        Ok (pp_SetData (pp_SetCode p c) d :: ps', r)
    end.

  (** message_parser_reader.go L13-L44. *)
  Definition parseFormat1PropertyReader (m : message) (r : R) : res (message * R) :=
    x <- read_props (m_ep m) r ;;
    let '(ps, r) := x in
    Ok (with_props m (m_opc m) ps, r).

  (** message_parser_reader.go L47-L86. *)
  Definition ParseReader (m : message) (r : R) : res (message * R) :=
    x <- read_exactly r FrameHeaderSize ;;
    let '(frameHeader, r) := x in
    m <- parseFrameHeaderBytes m frameHeader ;;
    y <- read_exactly r Format1HeaderSize ;;
    let '(format1Header, r) := y in
    m <- parseFormat1HeaderBytes m format1Header ;;
    parseFormat1PropertyReader m r.

  (** message.go L70-L76. *)
  Definition NewMessageWithReader (r : R) : res message :=
    x <- ParseReader NewMessage r ;; Ok (fst x).
End ParseReader.

Arguments read_exactly {R} Read r n.
Arguments read_props {R} Read ps r.
Arguments parseFormat1PropertyReader {R} Read m r.
Arguments ParseReader {R} Read m r.
Arguments NewMessageWithReader {R} Read r.

(** bufio.Reader (Go standard library) over a connection.  [b_segs] lists the
    results of the successive Read calls on the connection (each non empty and
    at most the buffer size of 4096 bytes); after the last one the connection
    reports io.EOF.  [b_err] is the pending error of the buffer. *)
Record bufio : Type := mkBufio {
  b_buf : list Z;
  b_segs : list (list Z);
  b_err : option err }.

(** bufio.NewReader. *)
Definition NewBufio (segs : list (list Z)) : bufio := mkBufio [] segs None.

(** bufio.Reader.Read for len(p) < 4096: a read of length 0 returns the pending
    error if nothing is buffered; otherwise an empty buffer is refilled by ONE
    Read of the connection, and as much as available is copied. *)
Definition bufio_copy (b : bufio) (n : Z) : read_result bufio :=
  (firstn (Z.to_nat n) (b_buf b), None,
   mkBufio (skipn (Z.to_nat n) (b_buf b)) (b_segs b) (b_err b)).

Definition bufio_Read (b : bufio) (n : Z) : read_result bufio :=
  if n =? 0 then
    match b_buf b with
    | _ :: _ => ([], None, b)
    | [] => ([], b_err b, mkBufio [] (b_segs b) None)
    end
  else
    match b_buf b with
    | _ :: _ => bufio_copy b n
    | [] =>
        match b_err b with
        | Some e => ([], Some e, mkBufio [] (b_segs b) None)
        | None =>
            match b_segs b with
            | [] => ([], Some ErrEOF, b)
            | s :: t => bufio_copy (mkBufio s t None) n
            end
        end
    end.

(** bytes.Reader.Read: io.EOF at the end of the data, even for an empty p. *)
Definition bytes_Read (s : list Z) (n : Z) : read_result (list Z) :=
  match s with
  | [] => ([], Some ErrEOF, [])
  | _ => (firstn (Z.to_nat n) s, None, skipn (Z.to_nat n) s)
  end.
