(** Model of the texts and the comparison of nodes (net/echonet/node.go L40-L48,
    local_node.go L225-L228 and L291-L293, remote_node.go L159-L167).

    Of a node only what the interface Node shows is used: Address(), the text of its
    address, as bytes, and Port(). *)

From Verif Require Import Go AddressText.
Local Open Scope Z_scope.

Record node_face := mkFace { nf_address : list Z; nf_port : Z }.

(** node.go L40-L48 *)
Definition nodeEquals (node1 node2 : node_face) : bool :=
  if negb (nf_port node1 =? nf_port node2) then false
  else if negb (bytes_eqb (nf_address node1) (nf_address node2)) then false
  else true.

(** local_node.go L291-L293, remote_node.go L165-L167 *)
Definition Node_String (node : node_face) : list Z := JoinHostPort (nf_address node) (Itoa (nf_port node)).
