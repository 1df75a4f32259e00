(** * Model of the text of the JSON output (net/echonet/cmd/table.go OutputJSON)

    The text is the one json.Marshal of the Go standard library makes of a slice
    of maps of strings: encoding/json encode.go (sliceEncoder, mapEncoder,
    appendString with escapeHTML) and tables.go (htmlSafeSet). *)
From Coq Require Import ZArith List Bool String.
From Verif Require Import Go Cmd TabWriter.
Import ListNotations.
Local Open Scope Z_scope.

(** ** appendString *)

(** htmlSafeSet: the ASCII characters that are written as they are; the control
    characters and 34, 38 (ampersand), 60 and 62 (angle brackets) and 92 are not. *)
Definition html_safe (c : Z) : bool :=
  (32 <=? c) && negb ((c =? 34) || (c =? 38) || (c =? 60) || (c =? 62) || (c =? 92)).
(** const hex *)
Definition lower_hex (d : Z) : Z := if d <? 10 then 48 + d else 87 + d.
(** The switch over the other ASCII characters. *)
Definition escaped (c : Z) : list Z :=
  if (c =? 92) || (c =? 34) then [92; c]
  else if c =? 8 then [92; 98]
  else if c =? 12 then [92; 102]
  else if c =? 10 then [92; 110]
  else if c =? 13 then [92; 114]
  else if c =? 9 then [92; 116]
  else [92; 117; 48; 48; lower_hex (c / 16); lower_hex (c mod 16)].
(** U+2028 and U+2029, the line and the paragraph separator. *)
Definition separator (c : Z) (t : list Z) : option Z :=
  match t with
  | c1 :: c2 :: _ => if (c =? 0xE2) && (c1 =? 0x80) && ((c2 =? 0xA8) || (c2 =? 0xA9)) then Some (c2 - 0xA0) else None
  | _ => None
  end.
(** The loop; [keep] bytes of the current rune are copied, [drop] bytes are passed over. *)
Fixpoint escape (keep drop : nat) (s : list Z) : list Z :=
  match s with
  | [] => []
  | c :: t =>
      match keep, drop with
      | S k, _ => c :: escape k 0 t
      | O, S d => escape 0 d t
      | O, O =>
          if c <? 0x80 then (if html_safe c then [c] else escaped c) ++ escape 0 0 t
          else if Nat.eqb (rune_size c t) 1 then [92; 117; 102; 102; 102; 100] ++ escape 0 0 t
          else match separator c t with
               | Some d => [92; 117; 50; 48; 50; lower_hex d] ++ escape 0 2 t
               | None => c :: escape (rune_size c t - 1) 0 t
               end
      end
  end.
Definition appendString (s : list Z) : list Z := 34 :: escape 0 0 s ++ [34].

(** ** mapEncoder and sliceEncoder *)

(** strings.Compare: a text comes before another. *)
Fixpoint text_before (a b : list Z) : bool :=
  match a, b with
  | _, [] => false
  | [], _ => true
  | x :: a, y :: b => if x =? y then text_before a b else x <? y
  end.
(** slices.SortFunc over the keys.  Simplified: insertion; the keys of a map are
    distinct, so every sort has the same result. *)
Fixpoint insert_key (kv : string * string) (l : list (string * string)) : list (string * string) :=
  match l with
  | [] => [kv]
  | e :: l => if text_before (codes (fst e)) (codes (fst kv)) then e :: insert_key kv l else kv :: e :: l
  end.
Definition sort_keys (m : list (string * string)) : list (string * string) := fold_right insert_key [] m.

Definition commas (l : list (list Z)) : list Z :=
  match l with [] => [] | x :: l => x ++ flat_map (fun y => 44 :: y) l end.
Definition member_text (kv : string * string) : list Z := appendString (codes (fst kv)) ++ 58 :: appendString (codes (snd kv)).
Definition object_text (m : list (string * string)) : list Z := 123 :: commas (map member_text (sort_keys m)) ++ [125].
(** json.Marshal(data) of table.go L78; it has no error for maps of strings. *)
Definition Marshal (data : list (list (string * string))) : list Z := 91 :: commas (map object_text data) ++ [93].

(** table.go L70-L84: the text on the standard output *)
Definition OutputJSON_text (t : table) : res (list Z) := data <- OutputJSON t ;; Ok (Marshal data ++ [10]).
