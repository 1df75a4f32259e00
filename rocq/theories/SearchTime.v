(** Model of the time a search takes: controller.go L123-L143 (Search).

    Contexts are those of the package context, as far as Search looks at them: a
    deadline and the moment of their cancellation, if any.  Times are in nanoseconds.
    The network says how long the sending takes and whether it fails, the scheduler how
    long each sleep of 200 ms really lasts.  Messages come in while Search waits: the
    receive loops run beside it.  Simplified: the controller is neither stopped nor
    cleared during the search, and a message that came in has been handled at that time. *)

From Verif Require Import Go Encoding Protocol StdDB Property Object Node Handler Remote.
Local Open Scope Z_scope.

(** A context that has a deadline, or not, and is cancelled at some time, or never. *)
Record context : Type := mkContext { cx_deadline : option Z; cx_cancel : option Z }.

(** context.Background() *)
Definition Background : context := mkContext None None.

Definition earlier (a b : option Z) : option Z :=
  match a, b with
  | Some x, Some y => Some (Z.min x y)
  | Some x, None => Some x
  | None, b => b
  end.

(** context.WithTimeout at the time [now]: a deadline, not later than that of the parent. *)
Definition WithTimeout (c : context) (now d : Z) : context :=
  mkContext (earlier (cx_deadline c) (Some (now + d))) (cx_cancel c).

(** Whether Done is closed at the time [t]. *)
Definition is_done (c : context) (t : Z) : bool :=
  match earlier (cx_deadline c) (cx_cancel c) with Some d => d <=? t | None => false end.

(** controller.go L19-L20: three seconds. *)
Definition DefaultResponseTimeout : Z := 3 * 1000000000.
(** L140: 200 ms. *)
Definition SearchInterval : Z := 200 * 1000000.

(** L124-L129: Deadline tells whether there is one. *)
Definition search_context (c : context) (now : Z) : context :=
  match cx_deadline c with
  | Some _ => c
  | None => WithTimeout c now DefaultResponseTimeout
  end.

(** L134-L142; [sleeps k] is the time the k-th sleep takes, the result the time of the
    return.  [fuel] bounds the rounds; [None]: still running after these. *)
Fixpoint search_loop (c : context) (sleeps : nat -> Z) (fuel k : nat) (t : Z) : option Z :=
  match fuel with
  | O => None
  | S f => if is_done c t then Some t else search_loop c sleeps f (S k) (t + sleeps k)
  end.

(** L123-L143: the local node, the error and the time of the return.  [sending] is the
    time the sending takes, [fails] whether the transport reports an error. *)
Definition Search (nd : node) (c : context) (now sending : Z) (fails : bool) (sleeps : nat -> Z) (fuel : nat)
  : option (node * option err * Z) :=
  let c := search_context c now in
  match SearchAllObjectsWithESV nd ESVReadRequest with
  | (nd, Some e) => Some (nd, Some e, now)
  | (nd, None) =>
      if fails then Some (nd, Some ErrOther, now + sending)
      else option_map (fun t => (nd, None, t)) (search_loop c sleeps fuel 0 (now + sending))
  end.

(** The table of the controller at the time [t]: what came in until then was handled
    (controller_message_listener.go L40-L69). *)
Definition table_at (conf : ctrl_conf) (nd : node) (ct : ctrl) (arrivals : list (Z * message)) (t : Z) : ctrl :=
  fold_left (fun ct x => ctrl_receive conf nd ct (snd x)) (filter (fun x => fst x <=? t) arrivals) ct.
