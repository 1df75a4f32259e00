(** Go run time pieces used by the model.

    Integers of every Go type are [Z]; each place where Go truncates to a fixed
    width is an explicit [u8]/[u64].  A slice is a list.  An index or slice
    expression that is out of range is the outcome [Panic], never a default. *)

From Coq Require Export ZArith List Bool Lia.
From Coq Require Import ZifyBool ZifyNat.
Export ListNotations.
Local Open Scope Z_scope.

(** Error values.  The Go code wraps these sentinel errors
    (net/echonet/errors.go L11-L24, net/echonet/protocol/errors.go L11-L15,
    net/echonet/transport/errors.go L12-L21) with [fmt.Errorf]; the text is not modelled. *)
Inductive err : Set :=
| ErrInvalid | ErrNoData | ErrNotFound | ErrTimeout | ErrNotRunning
| ErrEOF | ErrShort | ErrBind | ErrOther.

(** Result of a Go call: a value, an error value, or a run time panic. *)
Inductive res (A : Type) : Type :=
| Ok (a : A)
| Err (e : err)
| Panic.
Arguments Ok {A} a.
Arguments Err {A} e.
Arguments Panic {A}.

(** Sequencing with early return on error and propagation of panics. *)
Definition bind {A B : Type} (x : res A) (f : A -> res B) : res B :=
  match x with
  | Ok a => f a
  | Err e => Err e
  | Panic => Panic
  end.

Notation "x <- e ;; k" := (bind e (fun x => k))
  (at level 61, e at next level, right associativity).

(** byte(v) and uint(v) on 64 bit platforms. *)
Definition u8 (v : Z) : Z := v mod 256.
Definition u64 (v : Z) : Z := v mod 2 ^ 64.

(** A value that fits a Go byte. *)
Definition is_byte (b : Z) : Prop := 0 <= b < 256.
Definition is_bytes (l : list Z) : Prop := Forall is_byte l.

(** len(l) *)
Definition len {A : Type} (l : list A) : Z := Z.of_nat (length l).

(** l[i] *)
Definition idx {A : Type} (l : list A) (i : Z) : res A :=
  if i <? 0 then Panic
  else match nth_error l (Z.to_nat i) with
       | Some a => Ok a
       | None => Panic
       end.

(** l[i] = v *)
Fixpoint set_nth {A : Type} (l : list A) (i : nat) (v : A) : list A :=
  match l, i with
  | [], _ => []
  | _ :: t, O => v :: t
  | h :: t, S j => h :: set_nth t j v
  end.

Definition set_idx {A : Type} (l : list A) (i : Z) (v : A) : res (list A) :=
  if (i <? 0) || (len l <=? i) then Panic
  else Ok (set_nth l (Z.to_nat i) v).

(** l[lo:hi] with hi bounded by len(l); Go bounds it by cap(l), a slice
    expression beyond len is never used by the modelled code. *)
Definition slice {A : Type} (l : list A) (lo hi : Z) : res (list A) :=
  if (lo <? 0) || (hi <? lo) || (len l <? hi) then Panic
  else Ok (firstn (Z.to_nat (hi - lo)) (skipn (Z.to_nat lo) l)).

(** l[lo:] *)
Definition slice_from {A : Type} (l : list A) (lo : Z) : res (list A) :=
  slice l lo (len l).

(** make([]byte, n) *)
Definition zeros (n : Z) : list Z := repeat 0 (Z.to_nat n).

(** for n := range k { body }: the loop state is threaded in index order. *)
Fixpoint for_range {S : Type} (k : nat) (n : Z) (body : Z -> S -> res S) (s : S)
  : res S :=
  match k with
  | O => Ok s
  | Datatypes.S k' => s' <- body n s ;; for_range k' (n + 1) body s'
  end.

(** for _, x := range l { body } *)
Fixpoint for_each {A S : Type} (l : list A) (body : A -> S -> res S) (s : S)
  : res S :=
  match l with
  | [] => Ok s
  | x :: t => s' <- body x s ;; for_each t body s'
  end.

(** bytes.Equal *)
Fixpoint bytes_eqb (a b : list Z) : bool :=
  match a, b with
  | [], [] => true
  | x :: a', y :: b' => (x =? y) && bytes_eqb a' b'
  | _, _ => false
  end.

(** slices.Contains on integer slices. *)
Definition contains (l : list Z) (x : Z) : bool := existsb (Z.eqb x) l.

(** slices.Sort on integer slices: any sorting function returns the same list;
    insertion sort is used. *)
Fixpoint insert_z (x : Z) (l : list Z) : list Z :=
  match l with
  | [] => [x]
  | y :: t => if x <=? y then x :: l else y :: insert_z x t
  end.

Fixpoint sort_z (l : list Z) : list Z :=
  match l with
  | [] => []
  | x :: t => insert_z x (sort_z t)
  end.
