(** Model of the concurrent use of a local node: PostMessage, SendMessage and
    AnnounceMessage called from any number of goroutines while any number of
    received messages is handled (net/echonet/local_node_msssage.go,
    local_node.go NextTID, local_node_message_handler.go L21-L25).

    Every access to a field that several goroutines share (lastTID,
    postResponseCh, postRequestMsg, the mutex) and every channel operation is one
    step; a schedule is a list of steps.  Simplified: memory is sequentially
    consistent (the Go memory model promises less for racing accesses), each call
    has its own message object, SetTID and SetSEOJ on it are one step, and the
    bytes of a message are read in one step. *)

From Verif Require Import Go Encoding Protocol StdDB Property Object Node.
Local Open Scope Z_scope.

(** ** local_node.go L169-L176, NextTID as single loads and stores *)

Inductive tpc : Type :=
| T1                (* L170: load lastTID and compare with TIDMax *)
| T2 (wrap : bool)  (* L171: store TIDMin, or L173: load for the increment *)
| T3 (v : Z)        (* L173: store of the incremented value *)
| T4.               (* L175: load for the return *)

(** One step with the value of lastTID: the new value, whether it was stored to,
    and the next step or the returned identifier. *)
Definition tid_step (last : Z) (t : tpc) : Z * bool * (tpc + Z) :=
  match t with
  | T1 => (last, false, inl (T2 (TIDMax <=? last)))
  | T2 true => (TIDMin, true, inl T4)
  | T2 false => (last, false, inl (T3 last))
  | T3 v => (v + 1, true, inl T4)
  | T4 => (last, false, inr last)
  end.

(** ** Calls of PostMessage *)

(** How a call ends: with the message that handler [h] handed over, with the
    message received over TCP, with a timeout, with an error of SendMessage. *)
Inductive result : Type :=
| RResponse (h : nat) (m : message)
| RTcp (m : message)
| RTimeout
| RError.

(** The deferred closeResponseChannel (L147-L154) and Unlock (L179). *)
Inductive epc : Type :=
| ECheck      (* L148: postResponseCh == nil *)
| EClose      (* L151: close(postResponseCh) *)
| EClearCh    (* L152 *)
| EClearReq   (* L153 *)
| EUnlock.    (* L179 *)

Inductive cpc : Type :=
| CIdle                  (* not called *)
| CTcpRun                (* L95 *)
| CTcpTid (t : tpc)      (* L99, L63 *)
| CTcpHead (t : Z)       (* L63-L70 *)
| CTcpPost               (* L104 *)
| CLock                  (* L178 *)
| CMake                  (* L183 *)
| CSetReq                (* L184 *)
| CRun                   (* L188, L77 *)
| CTid (t : tpc)         (* L81, L63 *)
| CHead (t : Z)          (* L63-L70 *)
| CSend                  (* L86 *)
| CWait                  (* L194-L198 *)
| CEnd (r : result) (e : epc)
| CDone (r : result).

Record caller : Type := mkCaller { c_pc : cpc; c_msg : message }.

(** ** Handling of a received message up to the hand-over,
    local_node_message_handler.go L21-L25 *)
Inductive hpc : Type :=
| HIdle
| HReq0 | HCh0          (* handler L21: isResponseMessageWaiting L113, L116 *)
| HReq1 | HCh1          (* L125: isResponseMessageWaiting *)
| HEq                   (* L128 *)
| HTid                  (* L131 *)
| HReq2 | HCh2          (* L139: isResponseMessageWaiting *)
| HSend                 (* L142: the channel operand *)
| HBlocked (c : nat)    (* L142: waiting for the receiver *)
| HNil                  (* L142: send on a nil channel, which never proceeds *)
| HRest                 (* the rest of ProtocolMessageReceived: file Handler *)
| HPanic.               (* nil dereference, or send on a closed channel *)

(** [h_during] is not in the code: the call that was waiting for its response
    when the message arrived, if there was one. *)
Record handler : Type := mkHandler { h_pc : hpc; h_msg : message; h_during : option nat }.

(** ** Direct calls of SendMessage (L76-L91) and AnnounceMessage (L26-L33) *)
Inductive spc : Type := SIdle | SRun | STid (t : tpc) | SHead (t : Z) | SOut | SDone.
Record sender : Type := mkSender { s_pc : spc; s_msg : message; s_announce : bool }.

(** A message on the wire; who sent it, and (not in the code) how many stores
    NextTID had made then. *)
Inductive origin : Type := ByCall (i : nat) | BySender (j : nat).
Record wired : Type := mkWired { w_by : origin; w_drawn : Z; w_msg : message }.

(** ** The node: local_node.go L73-L85.  [ps_next] numbers the channels,
    [ps_closed] are the closed ones; [ps_req] is the call whose message
    postRequestMsg points to. *)
Record pstate : Type := mkP {
  ps_lock : option nat; ps_ch : option nat; ps_next : nat; ps_closed : list nat; ps_req : option nat;
  ps_last : Z; ps_drawn : Z;
  ps_callers : nat -> caller; ps_handlers : nat -> handler; ps_senders : nat -> sender;
  ps_wire : list wired }.

Definition p_init (last : Z) : pstate :=
  mkP None None 0 [] None last 0
    (fun _ => mkCaller CIdle NewMessage) (fun _ => mkHandler HIdle NewMessage None)
    (fun _ => mkSender SIdle NewMessage false) [].

Definition upd {A} (f : nat -> A) (i : nat) (a : A) : nat -> A := fun j => if Nat.eqb j i then a else f j.

Definition set_caller (s : pstate) (i : nat) (c : caller) : pstate :=
  mkP (ps_lock s) (ps_ch s) (ps_next s) (ps_closed s) (ps_req s) (ps_last s) (ps_drawn s)
    (upd (ps_callers s) i c) (ps_handlers s) (ps_senders s) (ps_wire s).
Definition set_handler (s : pstate) (h : nat) (x : handler) : pstate :=
  mkP (ps_lock s) (ps_ch s) (ps_next s) (ps_closed s) (ps_req s) (ps_last s) (ps_drawn s)
    (ps_callers s) (upd (ps_handlers s) h x) (ps_senders s) (ps_wire s).
Definition set_sender (s : pstate) (j : nat) (x : sender) : pstate :=
  mkP (ps_lock s) (ps_ch s) (ps_next s) (ps_closed s) (ps_req s) (ps_last s) (ps_drawn s)
    (ps_callers s) (ps_handlers s) (upd (ps_senders s) j x) (ps_wire s).
Definition set_lock (s : pstate) (l : option nat) : pstate :=
  mkP l (ps_ch s) (ps_next s) (ps_closed s) (ps_req s) (ps_last s) (ps_drawn s)
    (ps_callers s) (ps_handlers s) (ps_senders s) (ps_wire s).
Definition set_ch (s : pstate) (c : option nat) (next : nat) (closed : list nat) : pstate :=
  mkP (ps_lock s) c next closed (ps_req s) (ps_last s) (ps_drawn s)
    (ps_callers s) (ps_handlers s) (ps_senders s) (ps_wire s).
Definition set_req (s : pstate) (r : option nat) : pstate :=
  mkP (ps_lock s) (ps_ch s) (ps_next s) (ps_closed s) r (ps_last s) (ps_drawn s)
    (ps_callers s) (ps_handlers s) (ps_senders s) (ps_wire s).
Definition set_last (s : pstate) (v : Z) (stored : bool) : pstate :=
  mkP (ps_lock s) (ps_ch s) (ps_next s) (ps_closed s) (ps_req s) v
    (if stored then ps_drawn s + 1 else ps_drawn s)
    (ps_callers s) (ps_handlers s) (ps_senders s) (ps_wire s).
Definition put_wire (s : pstate) (o : origin) (m : message) : pstate :=
  mkP (ps_lock s) (ps_ch s) (ps_next s) (ps_closed s) (ps_req s) (ps_last s) (ps_drawn s)
    (ps_callers s) (ps_handlers s) (ps_senders s) (ps_wire s ++ [mkWired o (ps_drawn s) m]).

Definition is_closed (s : pstate) (c : nat) : bool := existsb (Nat.eqb c) (ps_closed s).

(** ** Steps

    What the environment decides is in the label: which goroutine moves, the
    outcome of IsRunning, NodeProfile and the socket, the TCP response, when a
    request times out, what is received. *)
Inductive label : Type :=
| LCall (i : nat) (m : message) (tcp : bool)   (* a goroutine calls PostMessage; [tcp] is TCPEnabled *)
| LStep (i : nat) (ok : bool)                  (* the call goes on; [ok] is the outcome of what it asks *)
| LTcp (i : nat) (m : message)                 (* the TCP response *)
| LTimeout (i : nat)                           (* L196 *)
| LDeliver (i h : nat)                         (* L195 with L142: call [i] receives from handler [h] *)
| LRecv (h : nat) (m : message)                (* a message arrives: its goroutine starts *)
| LHandle (h : nat)
| LSendCall (j : nat) (m : message) (announce : bool)
| LSendStep (j : nat) (ok : bool).

(** L61-L73: SetTID, and SetSEOJ when the node profile is found ([ok]); the node
    profile of a local node has the code NodeProfileObjectCode (theorem C24). *)
Definition with_header (m : message) (tid : Z) (ok : bool) : message :=
  if ok then SetSEOJ (SetTID m tid) NodeProfileObjectCode else SetTID m tid.

Definition go_on (s : pstate) (i : nat) (p : cpc) : option pstate :=
  Some (set_caller s i (mkCaller p (c_msg (ps_callers s i)))).

Definition end_step (s : pstate) (i : nat) (r : result) (e : epc) : option pstate :=
  match e with
  | ECheck => match ps_ch s with None => go_on s i (CEnd r EUnlock) | Some _ => go_on s i (CEnd r EClose) end
  | EClose =>
      match ps_ch s with
      | None => None
      | Some c => if is_closed s c then None
                  else go_on (set_ch s (Some c) (ps_next s) (c :: ps_closed s)) i (CEnd r EClearCh)
      end
  | EClearCh => go_on (set_ch s None (ps_next s) (ps_closed s)) i (CEnd r EClearReq)
  | EClearReq => go_on (set_req s None) i (CEnd r EUnlock)
  | EUnlock => go_on (set_lock s None) i (CDone r)
  end.

Definition call_step (s : pstate) (i : nat) (ok : bool) : option pstate :=
  let m := c_msg (ps_callers s i) in
  match c_pc (ps_callers s i) with
  | CIdle | CTcpPost | CWait | CDone _ =>
      match c_pc (ps_callers s i), ok with
      | CTcpPost, false => go_on s i CLock
      | _, _ => None
      end
  | CTcpRun => go_on s i (if ok then CTcpTid T1 else CLock)
  | CTcpTid t =>
      let '(v, st, k) := tid_step (ps_last s) t in
      go_on (set_last s v st) i (match k with inl t => CTcpTid t | inr v => CTcpHead v end)
  | CTcpHead t => Some (set_caller s i (mkCaller (if ok then CTcpPost else CLock) (with_header m t ok)))
  | CLock => match ps_lock s with None => go_on (set_lock s (Some i)) i CMake | Some _ => None end
  | CMake => go_on (set_ch s (Some (ps_next s)) (S (ps_next s)) (ps_closed s)) i CSetReq
  | CSetReq => go_on (set_req s (Some i)) i CRun
  | CRun => go_on s i (if ok then CTid T1 else CEnd RError ECheck)
  | CTid t =>
      let '(v, st, k) := tid_step (ps_last s) t in
      go_on (set_last s v st) i (match k with inl t => CTid t | inr v => CHead v end)
  | CHead t => Some (set_caller s i (mkCaller (if ok then CSend else CEnd RError ECheck) (with_header m t ok)))
  | CSend => if ok then go_on (put_wire s (ByCall i) m) i CWait else go_on s i (CEnd RError ECheck)
  | CEnd r e => end_step s i r e
  end.

Definition handle_step (s : pstate) (h : nat) : option pstate :=
  let x := ps_handlers s h in
  let to p := Some (set_handler s h (mkHandler p (h_msg x) (h_during x))) in
  let req p := match ps_req s with None => to HRest | Some _ => to p end in
  let ch p := match ps_ch s with None => to HRest | Some _ => to p end in
  match h_pc x with
  | HIdle | HNil | HRest | HPanic => None
  | HReq0 => req HCh0 | HCh0 => ch HReq1
  | HReq1 => req HCh1 | HCh1 => ch HEq
  | HEq =>
      match Equals (Some (h_msg x)) (option_map (fun i => c_msg (ps_callers s i)) (ps_req s)) with
      | Ok true => to HRest
      | Ok false => to HTid
      | _ => to HPanic
      end
  | HTid =>
      match ps_req s with
      | None => to HPanic
      | Some i => if TID (h_msg x) =? TID (c_msg (ps_callers s i)) then to HReq2 else to HRest
      end
  | HReq2 => req HCh2 | HCh2 => ch HSend
  | HSend => match ps_ch s with
             | None => to HNil
             | Some c => if is_closed s c then to HPanic else to (HBlocked c)
             end
  | HBlocked c => if is_closed s c then to HPanic else None
  end.

(** SendMessage L77-L90; AnnounceMessage L27-L32, which sets DEOJ instead of SEOJ. *)
Definition sender_step (s : pstate) (j : nat) (ok : bool) : option pstate :=
  let x := ps_senders s j in
  let to s p := Some (set_sender s j (mkSender p (s_msg x) (s_announce x))) in
  match s_pc x with
  | SIdle | SDone => None
  | SRun => to s (if ok then STid T1 else SDone)
  | STid t =>
      let '(v, st, k) := tid_step (ps_last s) t in
      to (set_last s v st) (match k with inl t => STid t | inr v => SHead v end)
  | SHead t =>
      if s_announce x
      then Some (set_sender s j (mkSender SOut (SetDEOJ (SetTID (s_msg x) t) NodeProfileObjectCode) true))
      else Some (set_sender s j (mkSender (if ok then SOut else SDone) (with_header (s_msg x) t ok) false))
  | SOut => to (if ok then put_wire s (BySender j) (s_msg x) else s) SDone
  end.

(** The call that is waiting for its response now. *)
Definition waiting (s : pstate) : option nat :=
  match ps_lock s with
  | None => None
  | Some i => match c_pc (ps_callers s i) with CWait => Some i | _ => None end
  end.

Definition p_step (s : pstate) (l : label) : option pstate :=
  match l with
  | LCall i m tcp =>
      match c_pc (ps_callers s i) with
      | CIdle => Some (set_caller s i (mkCaller (if tcp then CTcpRun else CLock) m))
      | _ => None
      end
  | LStep i ok => call_step s i ok
  | LTcp i m => match c_pc (ps_callers s i) with CTcpPost => go_on s i (CDone (RTcp m)) | _ => None end
  | LTimeout i => match c_pc (ps_callers s i) with CWait => go_on s i (CEnd RTimeout ECheck) | _ => None end
  | LDeliver i h =>
      match c_pc (ps_callers s i), h_pc (ps_handlers s h) with
      | CWait, HBlocked c =>
          match ps_ch s with
          | Some c' =>
              if Nat.eqb c c' && negb (is_closed s c)
              then
                let x := ps_handlers s h in
                go_on (set_handler s h (mkHandler HRest (h_msg x) (h_during x))) i
                  (CEnd (RResponse h (h_msg x)) ECheck)
              else None
          | None => None
          end
      | _, _ => None
      end
  | LRecv h m =>
      match h_pc (ps_handlers s h) with
      | HIdle => Some (set_handler s h (mkHandler HReq0 m (waiting s)))
      | _ => None
      end
  | LHandle h => handle_step s h
  | LSendCall j m announce =>
      match s_pc (ps_senders s j) with
      | SIdle => Some (set_sender s j (mkSender SRun m announce))
      | _ => None
      end
  | LSendStep j ok => sender_step s j ok
  end.

Fixpoint p_run (s : pstate) (ls : list label) : option pstate :=
  match ls with
  | [] => Some s
  | l :: ls => match p_step s l with None => None | Some s => p_run s ls end
  end.

(** The states that schedules lead to from a node with any last identifier. *)
Definition reachable (last : Z) (s : pstate) : Prop := exists ls, p_run (p_init last) ls = Some s.
