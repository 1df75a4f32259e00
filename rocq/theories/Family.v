(** The IP versions a node uses: which kind of address an interface has
    (transport/interface.go L33-L48), which multicast group a server joins and which
    one it announces to (multicast_socket.go L34-L41, udp_socket.go L112-L125), and the
    announcement by the multicast servers (multicast_manager.go L34-L43), which nothing
    in the repository calls. *)

From Coq Require Import String.
From Verif Require Import Go Encoding Protocol Transport Life Bound.
Local Open Scope Z_scope.
Local Open Scope list_scope.

(** transport/const.go L15-L16 *)
Definition MulticastIPv4Address : string := "224.0.23.0".
Definition MulticastIPv6Address : string := "ff02::1".

(** interface.go L33-L39; slices.ContainsFunc is [existsb]. *)
Definition IsIPv6Interface (i : iface) : bool :=
  match GetInterfaceAddresses i with Ok l => existsb IsIPv6Address l | _ => false end.
(** interface.go L42-L48 *)
Definition IsIPv4Interface (i : iface) : bool :=
  match GetInterfaceAddresses i with Ok l => existsb IsIPv4Address l | _ => false end.

(** multicast_socket.go L34-L41: the group that Bind listens to. *)
Definition joined_group (ifaddr : string) : res string :=
  if IsIPv4Address ifaddr then Ok MulticastIPv4Address
  else if IsIPv6Address ifaddr then Ok MulticastIPv6Address
  else Err ErrInvalid.

(** udp_socket.go L112-L121: the group that AnnounceMessage sends to. *)
Definition announce_group (s : socket) : res string :=
  ifaddr <- Socket_Address s ;;
  Ok (if IsIPv6Address ifaddr then MulticastIPv6Address else MulticastIPv4Address).

(** multicast_manager.go L34-L43: the servers that sent the message, and whether an
    error is reported; [ok k] tells whether the write of the k-th server succeeds. *)
Fixpoint announce_all (l : list mserver) (ok : nat -> bool) (k : nat) : list mserver * bool :=
  match l with
  | [] => ([], false)
  | s :: l =>
      let '(sent, e) := announce_all l ok (S k) in
      match announce_group (multicast_socket s) with
      | Ok _ => if ok k then (s :: sent, e) else (sent, true)
      | _ => (sent, true)
      end
  end.
Definition MManager_AnnounceMessage (m : manager) (ok : nat -> bool) : list mserver * bool :=
  announce_all (mg_multicast m) ok 0.
