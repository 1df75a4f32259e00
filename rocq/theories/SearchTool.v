(** Model of examples/uechosearch/uechosearch.go L37-L148 and
    examples/uechobench/uechobench.go L38-L143, from the point where the search has
    ended: the nodes found are asked over the network ([LanScan.net_post]) and the
    lines printed are returned.

    Simplified: the flags, the logger and the start and stop of the controller
    are left out ([Life] has them); the text of an address is a parameter. *)

From Coq Require Import String.
From Verif Require Import Go Encoding Protocol StdDB Property Object Node Handler Remote Transport Exchange Lan Cmd LanScan
  Names Programs.
Local Open Scope Z_scope.
Local Open Scope list_scope.

(** The two programs: they show different properties in different lines. *)
Inductive tool : Set := Uechosearch | Uechobench.

(** The verb %-15s: blanks are added up to the width. *)
Fixpoint spaces (n : nat) : string := match n with O => EmptyString | S n => String (char_of 32) (spaces n) end.
Definition pad_right (w : nat) (s : string) : string := (s ++ spaces (w - String.length s))%string.

(** remote_node.go L78-L107: an object of a remote node was made by
    the constructor for its code, and nothing changes its names later. *)
Definition remote_named (o : object) : res named :=
  p <- IsProfile o ;; if p : bool then NamedProfileWithCode (Code o) else NamedDeviceWithCode (Code o).

(** uechosearch.go L102-L105, uechobench.go L100-L103 *)
Definition shown_class (o : object) : string :=
  match remote_named o with
  | Ok n => if is_blank (ClassName n) then unknown else ClassName n
  | _ => unknown
  end.

(** uechosearch.go L114-L117, uechobench.go L110-L113 *)
Definition shown_property (o : object) (p : property) : string :=
  match remote_named o with
  | Ok n =>
      match PropertyName n (p_code p) with
      | Some s => if is_blank s then ("(" ++ unknown ++ ")")%string else s
      | None => ("(" ++ unknown ++ ")")%string
      end
  | _ => ("(" ++ unknown ++ ")")%string
  end.

(** uechosearch.go L111-L113 and L118, uechobench.go L107-L109 and L114 *)
Definition tool_shows (t : tool) (p : property) : bool :=
  match t with Uechosearch => IsReadRequired p | Uechobench => IsReadable p end.
Definition no_data (t : tool) : string := match t with Uechosearch => "--" | Uechobench => "" end%string.

(** The verb %X of a value with a String method: package fmt formats the text the
    method returns, byte by byte, and not the number (handleMethods of
    fmt/print.go); the width of the verbs here is smaller than the result. *)
Definition fmt_X_String (s : string) : string := fmt_bytes (map char_code (list_ascii_of_string s)).
(** protocol/object.go L31-L34, protocol/esv.go L150-L153 *)
Definition ObjectCode_String (v : Z) : string := fmt_X 6 v.
Definition ESV_String (v : Z) : string := fmt_X 2 v.

(** uechosearch.go L97, L106, L136; uechobench.go L97, L104, L132 *)
Definition node_line (text : Z -> string) (i : Z) (rn : rnode) (man : string) : string :=
  ("[" ++ fmt_d i ++ "] " ++ pad_right 15 (text (a_ip (rn_addr rn))) ++ ":" ++ fmt_d (a_port (rn_addr rn)) ++ " (" ++ man ++ ")")%string.
Definition object_line (j : Z) (o : object) : string :=
  ("    [" ++ fmt_d j ++ "] " ++ fmt_X_String (ObjectCode_String (Code o)) ++ " (" ++ shown_class o ++ ")")%string.
Definition property_line (t : tool) (o : object) (p : property) (data : string) : string :=
  match t with
  | Uechosearch => "        [" ++ fmt_X 2 (p_code p) ++ "] " ++ shown_property o p ++ ": " ++ data
  | Uechobench => "        [" ++ fmt_X 2 (p_code p) ++ "] " ++ data ++ " (" ++ shown_property o p ++ ")"
  end%string.

Section Tool.
Context {W : Type}.
Variable conf : ctrl_conf.
Variable text : Z -> string.

(** uechosearch.go L75-L93, uechobench.go L77-L95 *)
Definition ask_manufacturer (s : lan W) (rn : rnode) : lan W * string :=
  let '(s, r) := net_post conf s (rn_addr rn) (read_message 0x0EF001 0x8A) in
  (s, match r with
      | inl res =>
          match m_ep res with
          | [p] => match LookupManufacture (ByteToInteger (pp_data p)) with Some name => name | None => unknown end
          | _ => unknown
          end
      | inr _ => unknown
      end).

(** uechosearch.go L118-L135, uechobench.go L114-L131 *)
Definition ask_value (t : tool) (s : lan W) (rn : rnode) (o : object) (p : property) : lan W * string :=
  let '(s, r) := net_post conf s (rn_addr rn) (read_message (Code o) (p_code p)) in
  (s, match r with
      | inl res => match m_ep res with [q] => EncodeToString (pp_data q) | _ => no_data t end
      | inr e => e
      end).

(** uechosearch.go L110-L137, uechobench.go L106-L133 *)
Fixpoint property_lines (t : tool) (s : lan W) (rn : rnode) (o : object) (ps : list property) : lan W * list string :=
  match ps with
  | [] => (s, [])
  | p :: ps =>
      if negb (tool_shows t p) then property_lines t s rn o ps
      else
        let '(s, data) := ask_value t s rn o p in
        let '(s, lines) := property_lines t s rn o ps in
        (s, property_line t o p data :: lines)
  end.

(** uechosearch.go L99-L138, uechobench.go L99-L134; base_node.go L101-L114 *)
Fixpoint object_lines (t : tool) (s : lan W) (rn : rnode) (j : Z) (os : list object) : lan W * list string :=
  match os with
  | [] => (s, [])
  | o :: os =>
      let '(s, mine) := property_lines t s rn o (Properties (o_props o)) in
      let '(s, lines) := object_lines t s rn (j + 1) os in
      (s, object_line j o :: mine ++ lines)
  end.

(** uechosearch.go L71-L139, uechobench.go L76-L135: one pass over the nodes. *)
Fixpoint node_lines (t : tool) (s : lan W) (i : Z) (rns : list rnode) : lan W * list string :=
  match rns with
  | [] => (s, [])
  | rn :: rns =>
      let '(s, man) := ask_manufacturer s rn in
      let '(s, mine) := object_lines t s rn 0 (rn_devices rn ++ rn_profiles rn) in
      let '(s, lines) := node_lines t s (i + 1) rns in
      (s, node_line text i rn man :: mine ++ lines)
  end.

(** uechosearch.go L67-L139; ctrl.Nodes() is taken once. *)
Definition uechosearch (s : lan W) : lan W * list string := node_lines Uechosearch s 0 (ct_found (l_ctrl s)).

(** uechobench.go L73-L136; ctrl.Nodes() is taken in every round. *)
Fixpoint uechobench (numRepeat : nat) (s : lan W) : lan W * list string :=
  match numRepeat with
  | O => (s, [])
  | S n =>
      let '(s, mine) := node_lines Uechobench s 0 (ct_found (l_ctrl s)) in
      let '(s, lines) := uechobench n s in
      (s, mine ++ lines)
  end.

End Tool.
