(** Model of net/echonet/cmd: arguments, requests, tables and their output.

    Not modelled: cobra and viper (flags and the number of arguments), terminal
    output.  The layout of text/tabwriter and encoding/json is in [TabWriter] and
    [JsonText]. *)

From Coq Require Import String Ascii.
From Verif Require Import Go Encoding Protocol StdDB Property Object Node Remote.
Local Open Scope Z_scope.
Local Open Scope list_scope.

(** ** Characters and numbers as text *)

(** A Go string is a sequence of bytes, here of [ascii] characters. *)
Definition char_code (c : ascii) : Z := Z.of_N (N_of_ascii c).
Definition char_of (v : Z) : ascii := ascii_of_N (Z.to_N v).

(** strings.ToLower.  Simplified: bytes above 127 stay (Go maps whole code
    points; no code point above 127 becomes a hex digit or a space, so that both
    are refused by the decoder below). *)
Definition lower_char (c : ascii) : ascii :=
  if (65 <=? char_code c) && (char_code c <=? 90) then char_of (char_code c + 32) else c.
Fixpoint ToLower (s : string) : string :=
  match s with EmptyString => EmptyString | String c s => String (lower_char c) (ToLower s) end.

(** strings.ReplaceAll(s, " ", "") *)
Fixpoint remove_spaces (s : string) : string :=
  match s with
  | EmptyString => EmptyString
  | String c s => if char_code c =? 32 then remove_spaces s else String c (remove_spaces s)
  end.

(** The table reverseHexTable of encoding/hex. *)
Definition from_hex (c : ascii) : option Z :=
  let n := char_code c in
  if (48 <=? n) && (n <=? 57) then Some (n - 48)
  else if (97 <=? n) && (n <=? 102) then Some (n - 87)
  else if (65 <=? n) && (n <=? 70) then Some (n - 55)
  else None.

(** hex.DecodeString; the error is an InvalidByteError or ErrLength. *)
Fixpoint DecodeString (s : string) : res (list Z) :=
  match s with
  | EmptyString => Ok []
  | String a (String b t) =>
      match from_hex a, from_hex b with
      | Some x, Some y => r <- DecodeString t ;; Ok (x * 16 + y :: r)
      | _, _ => Err ErrInvalid
      end
  | String _ EmptyString => Err ErrInvalid
  end.

(** Verbs of fmt: digits of a number that is not negative, least significant first.
    64 digits are enough for every 64 bit number in every base. *)
Fixpoint digits (fuel : nat) (base v : Z) : list Z :=
  match fuel with
  | O => []
  | S k => if v <? base then [v] else v mod base :: digits k base (v / base)
  end.
Definition upper_digit (d : Z) : ascii := if d <? 10 then char_of (48 + d) else char_of (55 + d).
Definition lower_digit (d : Z) : ascii := if d <? 10 then char_of (48 + d) else char_of (87 + d).
Fixpoint text (l : list ascii) : string := match l with [] => EmptyString | c :: l => String c (text l) end.
(** %d of a number that is not negative. *)
Definition fmt_d (v : Z) : string := text (map upper_digit (rev (digits 64 10 v))).
(** %0wX *)
Definition fmt_X (w : nat) (v : Z) : string :=
  let ds := rev (digits 64 16 v) in text (map upper_digit (repeat 0 (w - length ds) ++ ds)).
(** %X of a byte slice, and hex.EncodeToString. *)
Definition fmt_bytes (l : list Z) : string :=
  text (flat_map (fun b => [upper_digit (b / 16); upper_digit (b mod 16)]) l).
Definition EncodeToString (l : list Z) : string :=
  text (flat_map (fun b => [lower_digit (b / 16); lower_digit (b mod 16)]) l).

(** ** func.go *)

(** func.go L31-L47 *)
Definition hexStringToByte (hexStr : string) : res (list Z) :=
  let cleanHex := remove_spaces (ToLower hexStr) in
  if negb (Z.of_nat (String.length cleanHex) mod 2 =? 0) then Err ErrInvalid
  else DecodeString cleanHex.

(** The int type of a 64 bit platform. *)
Definition i64 (v : Z) : Z := (v + 2 ^ 63) mod 2 ^ 64 - 2 ^ 63.

(** func.go L49-L63 *)
Definition hexStringToInt (hexStr : string) : res Z :=
  bytes <- hexStringToByte hexStr ;;
  Ok (fold_left (fun result b => i64 (i64 (Z.shiftl result 8) + b)) bytes 0).

(** ** get.go and set.go *)

(** get.go L41-L59 with message.go L72-L79 (net/echonet): the request of a get
    command.  ObjectCode(..) converts to uint, PropertyCode(..) to byte. *)
Definition get_request (obj prop : string) : res message :=
  objCode <- hexStringToInt obj ;;
  propCode <- hexStringToInt prop ;;
  let p := mkPProp (u8 propCode) [] in
  Ok (AddProperties (SetESV (SetDEOJ NewMessage (u64 objCode)) ESVReadRequest) [p]).

(** set.go L36-L60: the request of a set command. *)
Definition set_request (obj prop data : string) : res message :=
  objCode <- hexStringToInt obj ;;
  propCode <- hexStringToInt prop ;;
  propData <- hexStringToByte data ;;
  let p := mkPProp (u8 propCode) propData in
  Ok (AddProperties (SetESV (SetDEOJ NewMessage (u64 objCode)) ESVWriteRequest) [p]).

(** set.go L36-L95 from the parsed arguments on, for the state [nd], [ct] of
    the controller after its start and its search (set.go L62-L81): the node and
    the error.  Parsing errors return before the controller is made.
    Simplified: the address argument is the abstract address. *)
Definition set_command (nd : node) (ct : ctrl) (ip : Z) (obj prop data : string) : node * option err :=
  match set_request obj prop data with
  | Ok req =>
      match LookupNode ct ip with
      | None => (nd, Some ErrNotFound)
      | Some n => SendMessage nd (rn_addr n) req
      end
  | Err e => (nd, Some e)
  | Panic => (nd, Some ErrOther)
  end.

(** ** table.go *)

(** table.go L23-L34 *)
Record table : Type := mkTable { t_columns : list string; t_rows : list (list string) }.

(** data[i][col] = v on a map of strings. *)
Fixpoint map_set (m : list (string * string)) (k v : string) : list (string * string) :=
  match m with
  | [] => [(k, v)]
  | (k', v') :: m => if String.eqb k' k then (k, v) :: m else (k', v') :: map_set m k v
  end.

(** table.go L72-L77: the map made of one row; row[j] panics beyond the row. *)
Fixpoint json_row (cols : list string) (j : Z) (row : list string) (m : list (string * string))
  : res (list (string * string)) :=
  match cols with
  | [] => Ok m
  | col :: cols => v <- idx row j ;; json_row cols (j + 1) row (map_set m col v)
  end.

(** table.go L70-L84: the objects handed to json.Marshal, which cannot fail on
    maps of strings. *)
Fixpoint json_rows (cols : list string) (rows : list (list string)) : res (list (list (string * string))) :=
  match rows with
  | [] => Ok []
  | row :: rows => m <- json_row cols 0 row [] ;; ms <- json_rows cols rows ;; Ok (m :: ms)
  end.
Definition OutputJSON (t : table) : res (list (list (string * string))) := json_rows (t_columns t) (t_rows t).

(** table.go L87-L99: the printed text; newline is character 10. *)
Definition newline : string := String (char_of 10) EmptyString.
Definition csv_line (cols : list string) : string :=
  match cols with [] => EmptyString | _ => (String.concat "," cols ++ newline)%string end.
Definition OutputCSV (t : table) : string :=
  String.concat EmptyString (map csv_line (t_columns t :: t_rows t)).

(** ** table_formatter.go *)

Definition is_blank (s : string) : bool := match s with EmptyString => true | _ => false end.

(** table_formatter.go L32-L52: [first] is rowIdx == 0, [last] is lastRowContext. *)
Fixpoint strip_rows (c : Z) (first : bool) (last : string) (rows : list (list string)) : res (list (list string)) :=
  match rows with
  | [] => Ok []
  | row :: rows =>
      cell <- idx row c ;;
      if first then rest <- strip_rows c false cell rows ;; Ok (row :: rest)
      else if String.eqb cell last then
        row' <- (if c =? 0 then set_idx row c EmptyString
                 else prev <- idx row (c - 1) ;;
                      if is_blank prev then set_idx row c EmptyString else Ok row) ;;
        rest <- strip_rows c false last rows ;; Ok (row' :: rest)
      else rest <- strip_rows c false cell rows ;; Ok (row :: rest)
  end.

(** table_formatter.go L67-L84 *)
Definition FilterEmptyRows (t : table) : table :=
  mkTable (t_columns t) (filter (fun row => negb (forallb is_blank row)) (t_rows t)).

(** table_formatter.go L28-L64 *)
Definition HideDuplicateColumns (t : table) (columnIdxes : list Z) : res table :=
  rows <- for_each columnIdxes (fun c rows => strip_rows c true EmptyString rows) (t_rows t) ;;
  Ok (FilterEmptyRows (mkTable (t_columns t) rows)).

(** ** message_formatter.go *)

(** message_formatter.go L34-L58 *)
Definition max_opc (msgs : list message) : Z :=
  fold_left (fun opc m => if opc <? OPC m then OPC m else opc) msgs 0.
Definition prop_columns (n : Z) : list string :=
  [("EPC" ++ fmt_d n)%string; ("PDC" ++ fmt_d n)%string; ("EDT" ++ fmt_d n)%string].
Definition Columns (msgs : list message) : list string :=
  ["EHD"; "TID"; "SEOJ"; "DEOJ"; "ESV"; "OPC"]%string
    ++ flat_map (fun n => prop_columns (Z.of_nat n)) (seq 0 (Z.to_nat (max_opc msgs))).

(** message_formatter.go L60-L83; message.go L172-L174 EHD, object.go L32-L34
    and esv.go L151-L153 String (protocol); the properties are rebuilt from code
    and data (net/echonet/message.go L118-L128). *)
Definition prop_cells (p : pprop) : list string := [fmt_X 2 (pp_code p); fmt_X 2 (pp_Size p); fmt_bytes (pp_data p)].
Definition message_row (m : message) : list string :=
  [(fmt_X 2 (m_ehd1 m) ++ fmt_X 2 (m_ehd2 m))%string; fmt_X 4 (TID m); fmt_X 6 (SEOJ m); fmt_X 6 (DEOJ m);
   fmt_X 2 (m_esv m); fmt_X 2 (OPC m)]
    ++ flat_map prop_cells (m_ep m).
Definition Rows (msgs : list message) : list (list string) := map message_row msgs.

(** get.go L94-L95 *)
Definition message_table (msgs : list message) : table := mkTable (Columns msgs) (Rows msgs).

(** ** controller.go (cmd) *)

(** What the table takes from elsewhere: the text of addresses, the class and
    property names, the names of manufacturers, and the result of the n-th
    PostMessage call: a message or the text of an error. *)
Record scan_env : Type := mkEnv {
  se_address : Z -> string;
  se_class_name : object -> string;
  se_prop_name : object -> Z -> string;
  se_manufacture : Z -> option string;
  se_post : nat -> rnode -> message -> message + string }.

Definition unknown : string := "unknown".

(** The read request of cmd/controller.go L72-L79 and L132-L140. *)
Definition read_message (deoj epc : Z) : message :=
  AddProperties (SetDEOJ (SetESV NewMessage ESVReadRequest) deoj) [mkPProp epc []].

(** cmd/controller.go L69-L88 *)
Definition manufacture_name (env : scan_env) (n : nat) (nd : rnode) : string :=
  match se_post env n nd (read_message 0x0EF001 0x8A) with
  | inl res =>
      match m_ep res with
      | [p] => match se_manufacture env (ByteToInteger (pp_data p)) with Some name => name | None => unknown end
      | _ => unknown
      end
  | inr _ => unknown
  end.

(** cmd/controller.go L91-L94 and L110-L113 *)
Definition object_name (env : scan_env) (o : object) : string :=
  if is_blank (se_class_name env o) then unknown else se_class_name env o.
Definition property_name (env : scan_env) (o : object) (p : property) : string :=
  if is_blank (se_prop_name env o (p_code p)) then ("(" ++ unknown ++ ")")%string else se_prop_name env o (p_code p).

(** cmd/controller.go L115-L128; strings.ToUpper on "r", "w", "a". *)
Definition attr_text (a : attr) (lower upper : string) : string :=
  match a with Required => upper | Optional => lower | Prohibited => "-" end%string.
Definition rule_text (p : property) : string :=
  (attr_text (p_get p) "r" "R" ++ attr_text (p_set p) "w" "W" ++ attr_text (p_anno p) "a" "A")%string.

(** The cells shared by all rows of an object, cmd/controller.go L97-L103 and L151-L157. *)
Definition object_cells (env : scan_env) (man : string) (nd : rnode) (o : object) : list string :=
  [se_address env (a_ip (rn_addr nd)); fmt_d (a_port (rn_addr nd)); man; fmt_X 6 (Code o); object_name env o].

(** cmd/controller.go L130-L149; the counter numbers the PostMessage calls. *)
Definition property_data (env : scan_env) (n : nat) (nd : rnode) (o : object) (p : property) : nat * string :=
  if IsReadRequired p then
    (S n, match se_post env n nd (read_message (Code o) (p_code p)) with
          | inl res => match m_ep res with [q] => EncodeToString (pp_data q) | _ => EmptyString end
          | inr e => e
          end)
  else (n, EmptyString).

(** cmd/controller.go L108-L164: the rows of the properties of one object. *)
Fixpoint property_rows (env : scan_env) (n : nat) (man : string) (nd : rnode) (o : object) (ps : list property)
  : nat * list (list string) :=
  match ps with
  | [] => (n, [])
  | p :: ps =>
      let '(n, data) := property_data env n nd o p in
      let '(n, rows) := property_rows env n man nd o ps in
      (n, (object_cells env man nd o ++ [fmt_X 2 (p_code p); property_name env o p; rule_text p; data]) :: rows)
  end.

(** cmd/controller.go L90-L165: the rows of the objects of one node. *)
Fixpoint object_rows (env : scan_env) (details : bool) (n : nat) (man : string) (nd : rnode) (os : list object)
  : nat * list (list string) :=
  match os with
  | [] => (n, [])
  | o :: os =>
      let '(n, mine) := if details then property_rows env n man nd o (Properties (o_props o))
                        else (n, [object_cells env man nd o]) in
      let '(n, rows) := object_rows env details n man nd os in
      (n, mine ++ rows)
  end.

(** cmd/controller.go L61-L166; base_node.go L101-L114 Objects: the devices, then the profiles. *)
Fixpoint node_rows (env : scan_env) (details : bool) (address : string) (n : nat) (nodes : list rnode)
  : list (list string) :=
  match nodes with
  | [] => []
  | nd :: nodes =>
      if negb (is_blank address) && negb (String.eqb (se_address env (a_ip (rn_addr nd))) address)
      then node_rows env details address n nodes
      else
        let man := manufacture_name env n nd in
        let '(n, mine) := object_rows env details (S n) man nd (rn_devices nd ++ rn_profiles nd) in
        mine ++ node_rows env details address n nodes
  end.

(** cmd/controller.go L40-L59, L168 *)
Definition scan_columns (details : bool) : list string :=
  ["node_address"; "node_port"; "manufacture"; "object_code"; "object_name"]%string
    ++ (if details then ["property_code"; "property_name"; "property_rule"; "property_data"]%string else []).
Definition DiscoveredNodeTable (env : scan_env) (ct : ctrl) (details : bool) (address : string) : table :=
  mkTable (scan_columns details) (node_rows env details address 0 (ct_found ct)).

(** scan.go L77-L80: the table printed in the default format. *)
Definition scan_table (env : scan_env) (ct : ctrl) (details : bool) (address : string) : res table :=
  HideDuplicateColumns (DiscoveredNodeTable env ct details address) [0; 1; 2; 3; 4].

(** ** format.go *)

(** strings.TrimSpace on the characters tab, newline, vertical tab, form feed,
    carriage return and space (ASCII; the two other white space code points are
    left out). *)
Definition is_space (c : ascii) : bool := (char_code c =? 32) || ((9 <=? char_code c) && (char_code c <=? 13)).
Fixpoint trim_left (s : string) : string :=
  match s with EmptyString => EmptyString | String c t => if is_space c then trim_left t else s end.
Fixpoint trim_right (s : string) : string :=
  match s with
  | EmptyString => EmptyString
  | String c t => match trim_right t with
                  | EmptyString => if is_space c then EmptyString else String c EmptyString
                  | t' => String c t'
                  end
  end.
Definition TrimSpace (s : string) : string := trim_right (trim_left s).

(** format.go L15-L26, L36-L59 *)
Inductive format : Set := FormatTable | FormatJSON | FormatCSV.
Definition NewFormatFromString (s : string) : res format :=
  let s := ToLower (TrimSpace s) in
  if String.eqb s "table" then Ok FormatTable
  else if String.eqb s "json" then Ok FormatJSON
  else if String.eqb s "csv" then Ok FormatCSV
  else Err ErrInvalid.
Definition Format_String (f : format) : string :=
  match f with FormatTable => "table" | FormatJSON => "json" | FormatCSV => "csv" end%string.
