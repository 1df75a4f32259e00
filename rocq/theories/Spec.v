(** Specification vocabulary.  Nothing here refers to a function of the model:
    the definitions are written from the ECHONET Lite frame format and from the
    documented behaviour of the library. *)

From Verif Require Import Go.
Local Open Scope Z_scope.

(** Value of a big-endian digit string in base 256. *)
Fixpoint be_value_acc (acc : Z) (l : list Z) : Z :=
  match l with
  | [] => acc
  | b :: t => be_value_acc (acc * 256 + b) t
  end.
Definition be_value (l : list Z) : Z := be_value_acc 0 l.

(** Two and three byte big-endian numbers. *)
Definition be2 (v : Z) : list Z := [ v / 256; v mod 256 ].
Definition be3 (v : Z) : list Z := [ v / 65536; (v / 256) mod 256; v mod 256 ].

(** A property on the wire: EPC, PDC, EDT. *)
Definition wire_prop (p : Z * list Z) : list Z :=
  fst p :: Z.of_nat (length (snd p)) :: snd p.

(** A Format 1 frame: EHD1 EHD2 TID SEOJ DEOJ ESV OPC {EPC PDC EDT}*. *)
Definition wire_frame (tid seoj deoj esv : Z) (props : list (Z * list Z)) : list Z :=
  [0x10; 0x81] ++ be2 tid ++ be3 seoj ++ be3 deoj ++
  [esv; Z.of_nat (length props)] ++ flat_map wire_prop props.

(** What the frame format can carry. *)
Definition prop_in_limits (p : Z * list Z) : Prop :=
  0 <= fst p < 256 /\ (length (snd p) <= 255)%nat /\
  Forall (fun b => 0 <= b < 256) (snd p).

Definition frame_in_limits (tid seoj deoj esv : Z) (props : list (Z * list Z)) : Prop :=
  0 <= tid < 65536 /\ 0 <= seoj < 2 ^ 24 /\ 0 <= deoj < 2 ^ 24 /\ 0 <= esv < 256 /\
  (length props <= 255)%nat /\ Forall prop_in_limits props.

(** A byte string that contains a complete frame (trailing bytes allowed). *)
Definition complete_frame (data : list Z) : Prop :=
  exists tid seoj deoj esv props trailing,
    frame_in_limits tid seoj deoj esv props /\
    data = wire_frame tid seoj deoj esv props ++ trailing.

(** How the decoder of this library splits a property area of [k] announced
    properties, as a recursion on the remaining bytes: complete properties are
    taken as they are; when the area ends early the missing parts are blank, and
    after a PDC that exceeds the remaining bytes the next property is read from
    the bytes directly behind that PDC. *)
Fixpoint split_props (k : nat) (d : list Z) : list (Z * list Z) :=
  match k with
  | O => []
  | S k' =>
      match d with
      | [] => (0, []) :: split_props k' []
      | [c] => (c, []) :: split_props k' []
      | c :: n :: rest =>
          if n <=? Z.of_nat (length rest)
          then (c, firstn (Z.to_nat n) rest) :: split_props k' (skipn (Z.to_nat n) rest)
          else (c, []) :: split_props k' rest
      end
  end.

(** The ECHONET Lite service codes (ECHONET Lite specification part II, table of
    ESV codes) by family, and the response/error pairing of the table. *)
Definition spec_request : list Z := [0x60; 0x61; 0x62; 0x63; 0x6E].
Definition spec_response : list Z := [0x71; 0x72; 0x7A; 0x7E].
Definition spec_notification : list Z := [0x73; 0x74].
Definition spec_error : list Z := [0x50; 0x51; 0x52; 0x53; 0x5E].
Definition spec_answer : list (Z * Z) :=
  [ (0x61, 0x71); (0x62, 0x72); (0x63, 0x73); (0x6E, 0x7E); (0x74, 0x7A) ].
Definition spec_error_answer : list (Z * Z) :=
  [ (0x60, 0x50); (0x61, 0x51); (0x62, 0x52); (0x63, 0x53); (0x6E, 0x5E) ].

(** ** Histories of message construction

    The abstract content of a message and the effect of the public setters on
    it, used to state properties of every message built through the API. *)
Inductive msg_op : Type :=
| OSetTID (v : Z) | OSetSEOJ (v : Z) | OSetDEOJ (v : Z) | OSetESV (v : Z)
| OSetOPC (v : Z)
| OAddProperty (code : Z) (data : list Z).

Record content : Type := mkContent {
  c_tid : Z; c_seoj : Z; c_deoj : Z; c_esv : Z; c_props : list (Z * list Z) }.

Definition empty_content : content := mkContent 0 0 0 0 [].

Definition content_step (c : content) (o : msg_op) : content :=
  match o with
  | OSetTID v => mkContent v (c_seoj c) (c_deoj c) (c_esv c) (c_props c)
  | OSetSEOJ v => mkContent (c_tid c) v (c_deoj c) (c_esv c) (c_props c)
  | OSetDEOJ v => mkContent (c_tid c) (c_seoj c) v (c_esv c) (c_props c)
  | OSetESV v => mkContent (c_tid c) (c_seoj c) (c_deoj c) v (c_props c)
  | OSetOPC v => mkContent (c_tid c) (c_seoj c) (c_deoj c) (c_esv c)
                           (repeat (0, []) (Z.to_nat (v mod 256)))
  | OAddProperty code data =>
      mkContent (c_tid c) (c_seoj c) (c_deoj c) (c_esv c) (c_props c ++ [(code, data)])
  end.

Definition content_of (ops : list msg_op) : content :=
  fold_left content_step ops empty_content.

Definition in_limits (c : content) : Prop :=
  frame_in_limits (c_tid c) (c_seoj c) (c_deoj c) (c_esv c) (c_props c).

Definition wire (c : content) : list Z :=
  wire_frame (c_tid c) (c_seoj c) (c_deoj c) (c_esv c) (c_props c).
