(** Model of examples/uechopost/uechopost.go from the point where the search has
    ended, with its output: the request is made by [Programs.post_request], sent on
    the network of [Lan] and [LanScan], and the lines printed are returned.

    Simplified: the start, the stop and the exit code are left out; the text of an
    address is a parameter, and so is the first of ctrl.Addresses() (see [Bound]). *)

From Coq Require Import String.
From Verif Require Import Go Encoding Protocol StdDB Property Object Node Handler Remote Transport Exchange Lan Cmd LanScan
  Programs SearchTool.
Local Open Scope Z_scope.
Local Open Scope list_scope.

(** The verb %2X: blanks are put before the digits up to the width. *)
Definition fmt_2X (v : Z) : string := let s := fmt_X 0 v in (spaces (2 - String.length s) ++ s)%string.

(** uechopost.go L46-L48 *)
Definition property_word (p : pprop) : string := (fmt_2X (pp_code p) ++ EncodeToString (pp_data p) ++ " ")%string.

Fixpoint property_words (ps : list pprop) : string :=
  match ps with [] => EmptyString | p :: ps => (property_word p ++ property_words ps)%string end.

(** uechopost.go L39-L51, without the end of line *)
Definition outputTransportMessage (prefix addr : string) (obj : Z) (msg : message) : string :=
  (prefix ++ " " ++ pad_right 15 addr ++ " : " ++ fmt_X_String (ObjectCode_String obj) ++ " " ++ fmt_X_String (ESV_String (m_esv msg)) ++ " " ++ property_words (m_ep msg))%string.

Section Tool.
Context {W : Type}.
Variable conf : ctrl_conf.
Variable addr_text : Z -> string.

(** uechopost.go L53-L60; [own] is the first address or empty. *)
Definition outputRequestMessage (own : string) (msg : message) : string :=
  outputTransportMessage "->" own (DEOJ msg) msg.

(** uechopost.go L62-L64 *)
Definition outputResponseMessage (msg : message) : string :=
  outputTransportMessage "<-" (addr_text (a_ip (m_from msg))) (SEOJ msg) msg.

(** uechopost.go L105-L180: the network and the lines; [None] when the program ends
    before it sends (an error message about the arguments).  An error of SendMessage
    is left out ([Node.SendMessage] has it). *)
Definition uechopost (own : string) (s : lan W) (ip : Z) (obj esv : string) (props : list string) : lan W * option (list string) :=
  match post_request (l_ctrl s) ip obj esv props with
  | Ok (dstNode, reqMsg) =>
      let line := outputRequestMessage own reqMsg in
      if ESV_IsResponseRequired (m_esv reqMsg) then
        let '(s, r) := net_post conf s (rn_addr dstNode) reqMsg in
        (s, Some [line; match r with inl resMsg => outputResponseMessage resMsg | inr e => ("ERROR : " ++ e)%string end])
      else (acts s 0 (fun nd => fst (SendMessage nd (rn_addr dstNode) reqMsg)), Some [line])
  | _ => (s, None)
  end.

End Tool.
