(** Model of net/echonet/encoding/binary.go. *)

From Verif Require Import Go.
Local Open Scope Z_scope.

(** binary.go L8-L14.  The loop writes b[len-1-n] = byte((v >> (8*n)) & 0xFF)
    for n = 0 .. len-1, so every cell is overwritten exactly once and cell
    len-1-n only depends on n.  Simplification: the result is built as the
    reversed list of the written bytes, instead of by in-place writes into the
    caller's buffer of [size] bytes. *)
Definition IntegerToByte (v : Z) (size : nat) : list Z :=
  rev (map (fun n => u8 (Z.land (Z.shiftr (u64 v) (Z.of_nat n * 8)) 255))
           (seq 0 size)).

(** binary.go L17-L25: the loop over b[len-1-n], i.e. over the reversed slice,
    with v += uint(b[idx]) << (8*n).  Additions and shifts are on uint (64
    bits): a shift count of 64 or more gives 0, as [u64] of the unbounded shift
    does. *)
Fixpoint byteToIntegerLoop (rb : list Z) (n v : Z) : Z :=
  match rb with
  | [] => v
  | x :: t => byteToIntegerLoop t (n + 1) (u64 (v + u64 (Z.shiftl x (n * 8))))
  end.

Definition ByteToInteger (b : list Z) : Z := byteToIntegerLoop (rev b) 0 0.
