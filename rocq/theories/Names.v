(** Model of the class names and property names of the objects: object.go
    L134-L142, property.go L152-L156, L214-L223, and the places where
    super_object.go and database_mra_objects.go assign them.

    [Object] leaves the names out.  Here an object is paired with its class name
    and with the names of its properties, one for each code of the property map.
    Simplified: SetName and Name (object.go L144-L152) are left out, nothing in the
    library reads or writes the object's own name. *)

From Coq Require Import String.
From Verif Require Import Go Encoding Protocol StdDB StdNames Property Object.
Local Open Scope Z_scope.
Local Open Scope list_scope.

(** object.go L102-L111 (clsName) and property.go L114-L122 (name). *)
Record named : Type := mkNamed { na_obj : object; na_class : string; na_props : list (Z * string) }.

(** property_map.go L51-L54: the property under its code, with its name. *)
Fixpoint put_name (m : list (Z * string)) (c : Z) (s : string) : list (Z * string) :=
  match m with
  | [] => [(c, s)]
  | (k, v) :: t => if k =? c then (c, s) :: t else (k, v) :: put_name t c s
  end.

(** object.go L139-L142; property.go L220-L223 of the property found under the code. *)
Definition ClassName (n : named) : string := na_class n.
Definition PropertyName (n : named) (c : Z) : option string := assoc_z (na_props n) c.

(** database_mra_objects.go L7-L13 and L15-L33 with the AddProperty calls: the names
    of a standard object. *)
Definition standard_names (c : name_class) : string * list (Z * string) :=
  (nc_name c, fold_left (fun m e => put_name m (fst e) (snd e)) (nc_props c) []).

(** database.go L73-L75, keyed by the object code of the class. *)
Fixpoint addNames (db : list (Z * (string * list (Z * string)))) (k : Z) (v : string * list (Z * string)) :=
  match db with
  | [] => [(k, v)]
  | (x, w) :: t => if x =? k then (k, v) :: t else (x, w) :: addNames t k v
  end.
Definition db_names : list (Z * (string * list (Z * string))) :=
  fold_left (fun db c => addNames db (nc_grp c * 65536 + nc_cls c * 256) (standard_names c)) name_table [].

(** database.go L78-L81 *)
Definition DB_LookupNames (code : Z) : option (string * list (Z * string)) := assoc_z db_names (Z.land code 0xFFFF00).

(** super_object.go L88-L97: SetClassName, then a copy of each property with its name
    (property.go L491-L501). *)
Definition addStandardNames (code : Z) (cls : string) (m : list (Z * string)) : string * list (Z * string) :=
  match DB_LookupNames code with
  | None => (cls, m)
  | Some (s, ps) => (s, fold_left (fun m e => put_name m (fst e) (snd e)) ps m)
  end.

(** The calls that give an object its code, its properties and its names. *)
Inductive name_op : Type :=
| NmSetCode (code : Z)
| NmSetCodes (codes : list Z)
| NmSetCodeByte (i b : Z)
| NmAddProperty (p : property) (name : string)
| NmSetClassName (name : string).

(** super_object.go L71-L80, L100-L103; object.go L134-L137, L186-L213. *)
Definition name_step (n : named) (op : name_op) : option named :=
  match op with
  | NmSetCode code =>
      match Super_SetCode (na_obj n) code with
      | None => None
      | Some (o, _) =>
          let '(s, m) := addStandardNames (Code o) (na_class n) (na_props n) in Some (mkNamed o s m)
      end
  | NmSetCodes codes =>
      match Super_SetCodes (na_obj n) codes with
      | None => None
      | Some (o, _) =>
          let '(s, m) := addStandardNames (Code o) (na_class n) (na_props n) in Some (mkNamed o s m)
      end
  | NmSetCodeByte i b =>
      match SetCodeByte (na_obj n) i b with
      | Ok o => Some (mkNamed o (na_class n) (na_props n))
      | _ => None
      end
  | NmAddProperty p name =>
      match Super_AddProperty (na_obj n) p with
      | None => None
      | Some (o, _) => Some (mkNamed o (na_class n) (put_name (na_props n) (p_code p) name))
      end
  | NmSetClassName name => Some (mkNamed (na_obj n) name (na_props n))
  end.

Fixpoint name_run (n : named) (ops : list name_op) : option named :=
  match ops with
  | [] => Some n
  | op :: ops => match name_step n op with None => None | Some n => name_run n ops end
  end.

(** super_object.go L60-L68; object.go L113-L127: no names at first. *)
Definition NamedSuperObject : option named :=
  match NewSuperObject with
  | None => None
  | Some o => let '(s, m) := addStandardNames 0 EmptyString [] in Some (mkNamed o s m)
  end.

(** device.go L148-L154 and L101-L110; profile.go L60-L66; node_profile.go L70-L74. *)
Definition NamedDeviceWithCode (code : Z) : res named :=
  match NamedSuperObject with
  | None => Panic
  | Some n =>
      match DB_LookupObject code with
      | None => Err ErrOther
      | Some _ => match name_step n (NmSetCode code) with None => Panic | Some n => Ok n end
      end
  end.
Definition NamedProfileWithCode (code : Z) : res named :=
  match NamedSuperObject with
  | None => Panic
  | Some n => match name_step n (NmSetCode code) with None => Panic | Some n => Ok n end
  end.
Definition NamedNodeProfile : res named :=
  n <- NamedProfileWithCode NodeProfileObjectCode ;;
  match name_step n (NmSetCode NodeProfileObjectCode) with None => Panic | Some n => Ok n end.
