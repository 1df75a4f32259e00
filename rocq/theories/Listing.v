(** Model of the listings of the standard database (net/echonet/database.go L49-L65,
    L83-L93).

    The order in which Go ranges over a map is not determined: the argument [order] is
    any order of the entries of the map. *)

From Coq Require Import String.
From Verif Require Import Go Encoding StdDB Property Object Programs.
Local Open Scope Z_scope.

(** L50-L56; a manufacture is its code and its name *)
Definition Manufactures (order : list (Z * string)) : list (Z * string) := fold_left (fun mans man => mans ++ [man]) order [].

(** L59-L65 *)
Definition Objects (order : list (Z * object)) : list object := fold_left (fun objs e => objs ++ [snd e]) order [].

(** L84-L87; nil if there is none *)
Definition SuperObject : option object := DB_LookupObject 0x000000.

(** L90-L93 *)
Definition DB_NodeProfile : option object := DB_LookupObject 0x0EF000.
