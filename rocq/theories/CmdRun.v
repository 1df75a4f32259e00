(** Model of the three commands of uechoctl as they run: net/echonet/cmd/get.go,
    set.go and scan.go, from the arguments to the exit status.

    A command is a program over an environment: what the calls of the controller
    return is given, for every call, by a record of oracles; the command's own
    part is which calls it makes, in which order, with which arguments, what it
    prints and which error it returns.  What the calls do is in [LifeCycle],
    [Remote], [PostMsg] and [SearchTime].

    Not modelled: cobra beyond the number of arguments, viper (the flags are
    arguments here), the messages of the verbose flag. *)

From Coq Require Import String Ascii.
From Verif Require Import Go Encoding Protocol StdDB Property Object Node Remote Cmd TabWriter JsonText.
Local Open Scope Z_scope.
Local Open Scope list_scope.

(** What the calls return: Start (net/echonet/controller.go L151-L160), Search
    (L124-L143) with the nodes the controller knows afterwards, PostMessage and
    SendMessage (local_node_msssage.go L75-L90, L156-L201), Stop (controller.go
    L162-L168), and what the tables need. *)
Record command_env : Type := mkCommandEnv {
  ce_start : option err;
  ce_search : option err;
  ce_nodes : ctrl;
  ce_post : rnode -> message -> message + err;
  ce_send : rnode -> message -> option err;
  ce_stop : option err;
  ce_scan : scan_env }.

(** The calls a command makes, in the order of the calls; [APrint] is the text
    written to the standard output. *)
Inductive action : Type :=
  | AStart | ASearch | APost (n : rnode) (m : message) | ASend (n : rnode) (m : message)
  | APrint (bytes : list Z) | AStop.

(** What was done, and how the command ended: nil, an error, a panic. *)
Definition outcome : Type := (list action * res unit)%type.

(** "err = call(); if err != nil { return err }" followed by the rest. *)
Definition call (a : action) (e : option err) (rest : outcome) : outcome :=
  match e with
  | None => (a :: fst rest, snd rest)
  | Some e => ([a], Err e)
  end.

(** get.go L105-L112, set.go L95-L102, scan.go L83-L90 *)
Definition stopping (env : command_env) : outcome := call AStop (ce_stop env) ([], Ok tt).

(** get.go L96-L103 and scan.go L72-L81: the text of a table in a format; the
    table of the default format of scan is made by [scan_table]. *)
Definition print_bytes (f : Cmd.format) (t : table) : res (list Z) :=
  match f with
  | FormatJSON => OutputJSON_text t
  | FormatCSV => Ok (codes (OutputCSV t))
  | FormatTable => Ok (Output t)
  end.
Definition printing (bytes : res (list Z)) (rest : outcome) : outcome :=
  match bytes with
  | Ok b => (APrint b :: fst rest, snd rest)
  | Err e => ([], Err e)
  | Panic => ([], Panic)
  end.

(** controller.go L90-L97 (net/echonet): the first node with this text of an address. *)
Definition lookup_text (env : command_env) (address : string) : option rnode :=
  find (fun n => String.eqb (se_address (ce_scan env) (a_ip (rn_addr n))) address) (ct_found (ce_nodes env)).

(** get.go L61-L85, set.go L62-L86: the part both commands share, up to the node. *)
Definition reach (env : command_env) (address : string) (rest : rnode -> outcome) : outcome :=
  call AStart (ce_start env)
    (call ASearch (ce_search env)
       (match lookup_text env address with
        | None => ([], Err ErrNotFound)
        | Some n => rest n
        end)).

(** get.go L20-L113; cobra.MinimumNArgs(3) at L25. *)
Definition get_run (env : command_env) (fmt : string) (args : list string) : outcome :=
  match args with
  | address :: obj :: prop :: _ =>
      match NewFormatFromString fmt with
      | Ok f =>
          match get_request obj prop with
          | Ok req =>
              reach env address (fun n =>
                match ce_post env n req with
                | inl res =>
                    let '(acts, r) := printing (print_bytes f (message_table [res])) (stopping env) in
                    (APost n req :: acts, r)
                | inr e => ([APost n req], Err e)
                end)
          | Err e => ([], Err e)
          | Panic => ([], Panic)
          end
      | Err e => ([], Err e)
      | Panic => ([], Panic)
      end
  | _ => ([], Err ErrInvalid)
  end.

(** set.go L20-L103; cobra.MinimumNArgs(4) at L25.  The format is not read. *)
Definition set_run (env : command_env) (args : list string) : outcome :=
  match args with
  | address :: obj :: prop :: data :: _ =>
      match set_request obj prop data with
      | Ok req => reach env address (fun n => call (ASend n req) (ce_send env n req) (stopping env))
      | Err e => ([], Err e)
      | Panic => ([], Panic)
      end
  | _ => ([], Err ErrInvalid)
  end.

(** scan.go L67-L81, cmd/controller.go L31-L37: the text printed.  The reads the
    table makes are those of [DiscoveredNodeTable], through [se_post]. *)
Definition scan_bytes (env : command_env) (f : Cmd.format) (details : bool) (address : string) : res (list Z) :=
  match f with
  | FormatTable => t <- scan_table (ce_scan env) (ce_nodes env) details address ;; print_bytes f t
  | _ => print_bytes f (DiscoveredNodeTable (ce_scan env) (ce_nodes env) details address)
  end.

(** scan.go L22-L91; cobra.MaximumNArgs(1) at L26. *)
Definition scan_run (env : command_env) (verbose : bool) (fmt : string) (args : list string) : outcome :=
  let run address :=
    match NewFormatFromString fmt with
    | Ok f =>
        let details := verbose || negb (is_blank address) in
        call AStart (ce_start env)
          (call ASearch (ce_search env) (printing (scan_bytes env f details address) (stopping env)))
    | Err e => ([], Err e)
    | Panic => ([], Panic)
    end in
  match args with
  | [] => run EmptyString
  | [address] => run address
  | _ => ([], Err ErrInvalid)
  end.
