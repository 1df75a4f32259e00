(** Properties C83 and C84: who shares memory with whom.

    The other files treat byte slices, objects and messages as values.  Here they are
    windows of arrays and pointers ([Alias]), and the theorems say when the difference
    cannot be seen, and where it can. *)

From Verif Require Import Go GoFacts Encoding EncodingFacts Protocol Parser StdDB Property Object Alias AliasFacts.
Local Open Scope Z_scope.
Local Open Scope list_scope.

(** ** What is to be seen *)

Definition object_at (h : memory) (o : nat) : option object := nth_error (v_objs (see h)) o.
Definition message_at (h : memory) (m : nat) : option message := nth_error (v_msgs (see h)) m.
Definition bytes_at (h : memory) (v : nat) : option (list Z) := nth_error (v_vars (see h)) v.
Definition data_at (h : memory) (o : nat) (code : Z) : option (list Z) :=
  match object_at h o with
  | Some x => option_map p_data (LookupProperty (o_props x) code)
  | None => None
  end.

(** The numbers that the next slice, object and message get. *)
Definition next_var (h : memory) : nat := length (v_vars (see h)).
Definition next_obj (h : memory) : nat := length (v_objs (see h)).
Definition next_msg (h : memory) : nat := length (v_msgs (see h)).

(** The call is one that is to change object [o], message [m] or slice [v]. *)
Definition changes_object (o : nat) (c : call) : bool :=
  match c with
  | ASetCode o' _ | ASetCodes o' _ | AAddProperty o' _ _ _ _ _ | ASetPropertyData o' _ _
  | ASuperAddProperty o' _ _ _ _ _ | ASuperSetCode o' _ | AShare _ o' _ => (o =? o')%nat
  | _ => false
  end.
Definition changes_message (m : nat) (c : call) : bool :=
  match c with
  | AHeader m' _ _ _ _ | AAddMessageProperty m' _ _ | ARespond m' _ _ => (m =? m')%nat
  | _ => false
  end.
Definition changes_slice (v : nat) (c : call) : bool :=
  match c with AWrite v' _ _ => (v =? v')%nat | _ => false end.

(** A program that starts with the database as it is. *)
Definition runs (size : nat) (cs : list call) : memory := performs (memory_start size) cs.
Definition safe (size : nat) (cs : list call) : Prop := all_careful (memory_start size) cs.

(** ** C83: what is not shared *)

(** Every careful program sees what the model with values says. *)
Theorem C83_values size cs : safe size cs ->
  see (runs size cs) = on_values_all (mkWorld [] (map snd db_objects) [] size) cs.
Proof.
  intros C. destruct (start_good size) as (G & S). destruct (steps cs _ G C) as (_ & E). rewrite S in E. exact E.
Qed.

Lemma performs_app h cs cs' : performs h (cs ++ cs') = performs (performs h cs) cs'.
Proof. apply fold_left_app. Qed.

Lemma all_careful_app cs : forall h cs', all_careful h (cs ++ cs') <-> all_careful h cs /\ all_careful (performs h cs) cs'.
Proof.
  induction cs as [|c cs IH]; intros h cs'; cbn [app all_careful performs fold_left]; [tauto|]. rewrite IH. tauto.
Qed.

Lemma nth_error_keep {A} (l : list A) x n y : nth_error l n = Some y -> nth_error (l ++ [x]) n = Some y.
Proof. intros E. rewrite nth_error_app1; [exact E|]. apply nth_error_Some. congruence. Qed.

Ltac keep_tac :=
  repeat match goal with
  | |- context [match ?x with _ => _ end] => destruct x eqn:?
  | |- _ => assumption
  | |- nth_error (_ ++ [_]) _ = Some _ => apply nth_error_keep
  end.

Lemma values_object w c o x : changes_object o c = false -> nth_error (v_objs w) o = Some x -> nth_error (v_objs (on_values w c)) o = Some x.
Proof.
  intros N E.
  assert (forall o' f, (o =? o')%nat = false -> nth_error (v_objs (edit_obj w o' f)) o = Some x) as X.
  { intros o' f D. apply Nat.eqb_neq in D. unfold edit_obj. destruct (nth_error (v_objs w) o') as [y|]; [|exact E]. destruct (f y); [|exact E].
    unfold put_obj. cbn [v_objs]. rewrite nth_error_set_other by congruence. exact E. }
  assert (forall m p, v_objs (add_to_msg w m p) = v_objs w) as Y by (intros m p; unfold add_to_msg; destruct (nth_error (v_msgs w) m); reflexivity).
  destruct c; cbn [on_values changes_object] in *; unfold new_var, new_obj, new_msg, put_msg, if_decoded in *; cbn [v_objs];
    keep_tac; cbn [v_objs]; rewrite ?Y; try (apply X; exact N); keep_tac; auto using nth_error_keep.
Qed.

Lemma values_message w c m x : changes_message m c = false -> nth_error (v_msgs w) m = Some x -> nth_error (v_msgs (on_values w c)) m = Some x.
Proof.
  intros N E.
  assert (forall o f, v_msgs (edit_obj w o f) = v_msgs w) as X.
  { intros o f. unfold edit_obj. destruct (nth_error (v_objs w) o) as [y|]; [|reflexivity]. destruct (f y); reflexivity. }
  assert (forall m' p, (m =? m')%nat = false -> nth_error (v_msgs (add_to_msg w m' p)) m = Some x) as Y.
  { intros m' p D. apply Nat.eqb_neq in D. unfold add_to_msg. destruct (nth_error (v_msgs w) m'); [|exact E].
    unfold put_msg. cbn [v_msgs]. rewrite nth_error_set_other by congruence. exact E. }
  destruct c; cbn [on_values changes_message] in *; unfold new_var, new_obj, new_msg, put_msg, if_decoded in *; cbn [v_msgs];
    keep_tac; cbn [v_msgs]; rewrite ?X; try (apply Y; exact N); keep_tac; auto using nth_error_keep;
    try (apply (nth_error_keep (v_msgs w)); exact E).
  apply Nat.eqb_neq in N. rewrite nth_error_set_other by congruence. exact E.
Qed.

Lemma values_slice w c v x : changes_slice v c = false -> nth_error (v_vars w) v = Some x -> nth_error (v_vars (on_values w c)) v = Some x.
Proof.
  intros N E.
  assert (forall o f, v_vars (edit_obj w o f) = v_vars w) as X.
  { intros o f. unfold edit_obj. destruct (nth_error (v_objs w) o) as [y|]; [|reflexivity]. destruct (f y); reflexivity. }
  assert (forall m p, v_vars (add_to_msg w m p) = v_vars w) as Y by (intros m p; unfold add_to_msg; destruct (nth_error (v_msgs w) m); reflexivity).
  destruct c; cbn [on_values changes_slice] in *; unfold new_var, new_obj, new_msg, put_msg, if_decoded in *; cbn [v_vars];
    keep_tac; cbn [v_vars]; rewrite ?X, ?Y; keep_tac; auto using nth_error_keep.
  apply Nat.eqb_neq in N. rewrite nth_error_set_other by congruence. exact E.
Qed.

Lemma values_size w c : v_size (on_values w c) = v_size w.
Proof.
  assert (forall o f, v_size (edit_obj w o f) = v_size w) as X.
  { intros o f. unfold edit_obj. destruct (nth_error (v_objs w) o) as [y|]; [|reflexivity]. destruct (f y); reflexivity. }
  assert (forall m p, v_size (add_to_msg w m p) = v_size w) as Y by (intros m p; unfold add_to_msg; destruct (nth_error (v_msgs w) m); reflexivity).
  destruct c; cbn [on_values]; unfold if_decoded;
    repeat match goal with |- context [match ?x with _ => _ end] => destruct x end; rewrite ?X, ?Y; reflexivity.
Qed.

Lemma values_size_all cs : forall w, v_size (on_values_all w cs) = v_size w.
Proof. induction cs as [|c cs IH]; intros w; [reflexivity|]. cbn [on_values_all fold_left]. etransitivity; [apply IH|apply values_size]. Qed.

Lemma keeps_all {A} (get : world -> option A) (changes : call -> bool) x :
  (forall w c, changes c = false -> get w = Some x -> get (on_values w c) = Some x) ->
  forall cs w, forallb (fun c => negb (changes c)) cs = true -> get w = Some x -> get (on_values_all w cs) = Some x.
Proof.
  intros H cs. induction cs as [|c cs IH]; intros w F E; [exact E|]. cbn [forallb] in F. apply andb_prop in F. destruct F as (F1 & F2).
  cbn [on_values_all fold_left]. apply IH; [exact F2|]. apply H; [destruct (changes c); [discriminate|reflexivity]|exact E].
Qed.

Lemma apart {A} (get : world -> option A) (changes : call -> bool) x size cs cs' :
  (forall w c, changes c = false -> get w = Some x -> get (on_values w c) = Some x) ->
  safe size (cs ++ cs') -> forallb (fun c => negb (changes c)) cs' = true ->
  get (see (runs size cs)) = Some x -> get (see (runs size (cs ++ cs'))) = Some x.
Proof.
  intros H C F E. unfold safe in C. apply all_careful_app in C. destruct C as (C & C'). destruct (start_good size) as (G & _).
  destruct (steps cs _ G C) as (G1 & _). destruct (steps cs' _ G1 C') as (_ & E'). unfold runs in *. rewrite performs_app, E'. exact (keeps_all get changes x H cs' _ F E).
Qed.

(** An object, a message or a slice stays as it is until a call is made to change
    it: what it was made from may be changed, and so may copies of it. *)
Theorem C83_object size cs cs' o x : safe size (cs ++ cs') -> forallb (fun c => negb (changes_object o c)) cs' = true ->
  object_at (runs size cs) o = Some x -> object_at (runs size (cs ++ cs')) o = Some x.
Proof. apply (apart (fun w => nth_error (v_objs w) o) (changes_object o)). intros w c. apply values_object. Qed.

Theorem C83_message size cs cs' m x : safe size (cs ++ cs') -> forallb (fun c => negb (changes_message m c)) cs' = true ->
  message_at (runs size cs) m = Some x -> message_at (runs size (cs ++ cs')) m = Some x.
Proof. apply (apart (fun w => nth_error (v_msgs w) m) (changes_message m)). intros w c. apply values_message. Qed.

Theorem C83_slice size cs cs' v x : safe size (cs ++ cs') -> forallb (fun c => negb (changes_slice v c)) cs' = true ->
  bytes_at (runs size cs) v = Some x -> bytes_at (runs size (cs ++ cs')) v = Some x.
Proof. apply (apart (fun w => nth_error (v_vars w) v) (changes_slice v)). intros w c. apply values_slice. Qed.

(** ** C84: a message does not change when the next datagram arrives *)

Theorem C84_received size cs d m cs' : safe size (cs ++ AReceive d :: cs') ->
  NewMessageWithBytes (firstn size d) = Ok m ->
  let n := next_msg (runs size cs) in
  forallb (fun c => negb (changes_message n c)) cs' = true ->
  message_at (runs size (cs ++ AReceive d :: cs')) n = Some m.
Proof.
  intros C D n F. change (AReceive d :: cs') with ([AReceive d] ++ cs') in *. rewrite app_assoc in *.
  apply C83_message; [exact C|exact F|]. apply all_careful_app in C. destruct C as (C & _).
  unfold message_at. pose proof (C83_values size (cs ++ [AReceive d]) C) as E. apply all_careful_app in C. destruct C as (C & _).
  rewrite E. unfold on_values_all. rewrite fold_left_app. fold (on_values_all (mkWorld [] (map snd db_objects) [] size) cs).
  pose proof (C83_values size cs C) as E1. rewrite <- E1. cbn [fold_left on_values].
  assert (v_size (see (runs size cs)) = size) as S.
  { rewrite E1. apply values_size_all. }
  rewrite S, D. cbn [if_decoded new_msg v_msgs]. rewrite nth_error_app2 by (unfold n, next_msg; lia). unfold n, next_msg. rewrite Nat.sub_diag. reflexivity.
Qed.

(** ** C83: what is shared *)

Lemma careful_good size cs : safe size cs -> good (runs size cs).
Proof. intros C. destruct (start_good size) as (G & _). apply (steps cs _ G C). Qed.

(** The slice of Data is the data of the property itself: whoever writes into it
    changes the property, without SetData and so without an announcement. *)
Theorem C83_data_refuted size cs o code d i b : safe size cs -> data_at (runs size cs) o code = Some d -> (i < length d)%nat ->
  data_at (runs size (cs ++ [AData o code; AWrite (next_var (runs size cs)) i b])) o code = Some (set_nth d i b).
Proof.
  intros C D L. pose proof (careful_good size cs C) as ((k & H) & _). unfold runs in *. rewrite performs_app. set (h := performs (memory_start size) cs) in *. clearbody h. clear C.
  unfold data_at, object_at in D. pose proof (lookup_view h o code) as LV.
  destruct (nth_error (v_objs (see h)) o) as [x|] eqn:E; [|discriminate]. rewrite LV in D.
  destruct (lookup_ptr (h_cells h) (s_props (obj_of h o)) code) as [p|] eqn:P; [|discriminate]. cbn [option_map see_cell p_data] in D. injection D as D.
  destruct (lookup_range k h o code p H P) as (R & F & _). cbn [performs fold_left perform]. rewrite P.
  set (s := c_data (nth p (h_cells h) no_cell)) in *.
  assert (var_of (add_var h s false) (next_var h) = Some s) as V.
  { unfold var_of, next_var. cbn [add_var h_vars see v_vars]. rewrite map_length, nth_error_app2, Nat.sub_diag by lia. reflexivity. }
  rewrite V. assert (w_len s = length d) as Ls by (rewrite <- D, content_len by exact F; reflexivity). rewrite Ls.
  destruct (Nat.ltb_spec i (length d)) as [_|?]; [|lia]. change (h_arrays (add_var h s false)) with (h_arrays h).
  set (a' := store_byte (h_arrays h) s i b). set (h' := with_arrays (add_var h s false) a').
  unfold data_at, object_at. pose proof (lookup_view h' o code) as LV'.
  destruct (see_objs_at _ _ _ E) as (sh & Esh & _).
  assert (nth_error (v_objs (see h')) o = Some (see_object a' (h_cells h) sh)) as E'.
  { unfold see. cbn [h' with_arrays add_var v_objs h_objs h_arrays h_cells]. rewrite nth_error_map, Esh. reflexivity. }
  rewrite E' in *. change (h_cells h') with (h_cells h) in LV'. change (obj_of h' o) with (obj_of h o) in LV'. rewrite P in LV'. rewrite LV'. cbn [option_map see_cell p_data]. fold s.
  f_equal. change (h_arrays h') with a'. unfold a', store_byte. destruct F as (F1 & F2). unfold content in *.
  rewrite array_set_same by exact F1. rewrite <- D. clear - F2 L Ls. rewrite Ls in *. revert F2 L. generalize (length d) as n, (w_off s) as off, (array (h_arrays h) (w_arr s)) as l. clear.
  intros n off l _ L. revert n off i L. induction l as [|y l IH]; intros n off i L.
  - rewrite !skipn_nil, !firstn_nil. reflexivity.
  - destruct off as [|off].
    + cbn [Nat.add skipn]. destruct n as [|n]; [lia|]. destruct i as [|i]; cbn [set_nth firstn]; [reflexivity|]. f_equal. specialize (IH n O i ltac:(lia)). exact IH.
    + cbn [Nat.add set_nth skipn]. apply IH. exact L.
Qed.

(** The slice of Codes changes with the object. *)
Theorem C83_codes_refuted size cs o x code : safe size cs -> object_at (runs size cs) o = Some x ->
  let v := next_var (runs size cs) in
  bytes_at (runs size (cs ++ [ACodes o])) v = Some (Codes x) /\
  bytes_at (runs size (cs ++ [ACodes o; ASetCode o code])) v = Some (Codes (Obj_SetCode x code)).
Proof.
  intros C E v. pose proof (careful_good size cs C) as (O & _). unfold runs in *. rewrite !performs_app. set (h := performs (memory_start size) cs) in *. clearbody h. clear C.
  unfold object_at in E. pose proof (codes_len h o x O E) as (Ln & Cn). destruct O as (k & H). destruct (see_objs_at _ _ _ E) as (s & Es & Ex).
  cbn [performs fold_left perform].
  assert ((o <? length (h_objs h))%nat = true) as Lo by (rewrite ltb_at, E; reflexivity). rewrite Lo.
  change (length (h_objs (add_var h (s_codes (obj_of h o)) false))) with (length (h_objs h)). rewrite Lo.
  assert (forall h' : memory, h_vars h' = h_vars h ++ [(s_codes (obj_of h o), false)] -> bytes_at h' v = Some (content (h_arrays h') (s_codes (obj_of h o)))) as B.
  { intros h' Ev. unfold bytes_at, v, next_var, see. cbn [v_vars]. rewrite Ev, map_app, nth_error_app2, !map_length, Nat.sub_diag by (rewrite !map_length; lia). reflexivity. }
  split.
  - rewrite B by reflexivity. cbn [add_var h_arrays]. rewrite Cn. reflexivity.
  - rewrite B by reflexivity. unfold h_SetCode. cbn [with_arrays h_arrays add_var]. change (obj_of (add_var h (s_codes (obj_of h o)) false) o) with (obj_of h o).
    replace (obj_of h o) with s in * by (symmetry; apply nth_error_nth; exact Es).
    destruct (held_objs _ _ H o s Es) as (W & _). pose proof (held_codes k h o s (IntegerToByte code (w_len (s_codes s))) H Es) as X. rewrite IntegerToByte_length in X.
    destruct (X (le_n _)) as (_ & _ & X3). cbn [with_arrays h_arrays] in X3. rewrite X3, Ln. rewrite Cn, skipn_all, app_nil_r. reflexivity.
Qed.

(** A property added to two objects is one property: what is written to one of them
    is read from the other. *)
Theorem C83_shared_refuted size cs o o' code v d x x' :
  safe size cs -> object_at (runs size cs) o = Some x -> object_at (runs size cs) o' = Some x' -> o <> o' ->
  data_at (runs size cs) o code <> None -> bytes_at (runs size cs) v = Some d ->
  data_at (runs size (cs ++ [AShare o o' code; ASetPropertyData o code v])) o' code = Some d.
Proof.
  intros C E E' N D B. pose proof (careful_good size cs C) as (O & _). unfold runs in *. rewrite performs_app. set (h := performs (memory_start size) cs) in *. clearbody h. clear C.
  unfold data_at, object_at in *. pose proof (lookup_view h o code) as LV. rewrite E in *.
  destruct (lookup_ptr (h_cells h) (s_props (obj_of h o)) code) as [p|] eqn:P; [|rewrite LV in D; cbn in D; congruence].
  pose proof O as (k & H). destruct (lookup_range k h o code p H P) as (R & _).
  destruct (see_objs_at _ _ _ E) as (s & Es & _). destruct (see_objs_at _ _ _ E') as (s' & Es' & _).
  cbn [performs fold_left perform].
  assert ((o <? length (h_objs h))%nat = true) as Lo by (rewrite ltb_at, E; reflexivity).
  assert ((o' <? length (h_objs h))%nat = true) as Lo' by (rewrite ltb_at, E'; reflexivity).
  rewrite Lo', P. set (h1 := h_AddProperty h o' p). change (var_of h1 v) with (var_of h v).
  unfold bytes_at in B. rewrite see_var in B. destruct (var_of h v) as [src|] eqn:V; [|discriminate]. cbn [option_map] in B. injection B as B.
  assert (length (h_objs h1) = length (h_objs h)) as L1 by apply set_nth_len. rewrite L1, Lo.
  pose proof (var_inside h v src O V) as I.
  assert (obj_of h1 o = obj_of h o) as Eo.
  { unfold obj_of, h1, h_AddProperty. cbn [with_objs h_objs]. apply nth_set_other. congruence. }
  unfold h_SetPropertyData. rewrite Eo. change (h_cells h1) with (h_cells h). rewrite P.
  unfold h_SetData. change (h_arrays h1) with (h_arrays h). rewrite (clone_eq _ _ I), alloc_eq. cbv beta iota. rewrite B.
  set (w := mkWindow (length (h_arrays h)) 0 (length d)). set (h2 := with_cells _ _).
  assert (nth_error (h_objs h2) o' = Some (mkShape (s_codes s') (add_ptr (h_cells h) (s_props s') p))) as E2.
  { unfold h2, h1, h_AddProperty. cbn [with_cells with_arrays with_objs h_objs]. replace (obj_of h o') with s' by (symmetry; apply nth_error_nth; exact Es').
    apply nth_error_set_same. apply nth_error_Some. congruence. }
  pose proof (lookup_view h2 o' code) as LV2. unfold see in LV2 at 1. cbn [v_objs] in LV2. rewrite nth_error_map, E2 in LV2. cbn [option_map] in LV2.
  assert (nth_error (v_objs (see h2)) o' = Some (see_object (h_arrays h2) (h_cells h2) (mkShape (s_codes s') (add_ptr (h_cells h) (s_props s') p)))) as ->.
  { unfold see. cbn [v_objs]. rewrite nth_error_map, E2. reflexivity. }
  rewrite LV2. replace (obj_of h2 o') with (mkShape (s_codes s') (add_ptr (h_cells h) (s_props s') p)) by (symmetry; apply nth_error_nth; exact E2).
  cbn [s_props].
  assert (h_cells h2 = set_nth (h_cells h) p (set_window (nth p (h_cells h) no_cell) w)) as C2 by reflexivity.
  assert (c_code (nth p (h_cells h) no_cell) = code) as Ec by (apply lookup_ptr_in in P; apply P).
  assert (lookup_ptr (h_cells h2) (add_ptr (h_cells h) (s_props s') p) code = Some p) as ->.
  { assert (forall q, c_code (nth q (h_cells h2) no_cell) = c_code (nth q (h_cells h) no_cell)) as Q.
    { intros q. rewrite C2. destruct (Nat.eq_dec p q) as [->|Nq]; [rewrite nth_set_same by exact R; reflexivity|rewrite nth_set_other by exact Nq; reflexivity]. }
    clear - Q Ec. induction (s_props s') as [|q l IH]; cbn [add_ptr lookup_ptr].
    - rewrite Q, Ec, Z.eqb_refl. reflexivity.
    - rewrite Ec. destruct (Z.eqb_spec (c_code (nth q (h_cells h) no_cell)) code) as [X|X]; cbn [lookup_ptr]; rewrite Q.
      + rewrite Ec, Z.eqb_refl. reflexivity.
      + destruct (Z.eqb_spec (c_code (nth q (h_cells h) no_cell)) code); [contradiction|]. exact IH. }
  cbn [option_map]. rewrite C2, nth_set_same by exact R. unfold see_cell, set_window. cbn [c_data p_data c_code c_get c_set c_anno].
  f_equal. change (h_arrays h2) with (h_arrays h ++ [d]). apply alloc_content.
Qed.

(** An object of the database may be changed, and the devices made afterwards are
    made from the changed object. *)
Definition device_codes (h : memory) (o : nat) : list Z :=
  match object_at h o with Some x => map p_code (Properties (o_props x)) | None => [] end.

Theorem C83_database_refuted : exists size o code g s a v dev,
  let before := [AMake v; ANewDevice dev] in
  let between := [AMake v; AAddProperty o code g s a O; ANewDevice dev] in
  let n := length db_objects in
  ~ In code (device_codes (runs size before) n) /\ In code (device_codes (runs size between) n).
Proof.
  exists 16%nat, 2%nat, 0xF0, Required, Optional, Optional, [1; 2], 0x02A601. cbv zeta. split.
  - assert (existsb (Z.eqb 0xF0) (device_codes (runs 16 [AMake [1; 2]; ANewDevice 0x02A601]) (length db_objects)) = false) as E by (vm_compute; reflexivity).
    intros I. assert (existsb (Z.eqb 0xF0) (device_codes (runs 16 [AMake [1; 2]; ANewDevice 0x02A601]) (length db_objects)) = true) as E'
      by (apply existsb_exists; exists 0xF0; split; [exact I|reflexivity]). rewrite E in E'. discriminate.
  - assert (existsb (Z.eqb 0xF0) (device_codes (runs 16 [AMake [1; 2]; AAddProperty 2 0xF0 Required Optional Optional 0; ANewDevice 0x02A601]) (length db_objects)) = true) as E
      by (vm_compute; reflexivity).
    apply existsb_exists in E. destruct E as (c & I & E). apply Z.eqb_eq in E. subst c. exact I.
Qed.

(** ** An application at work: it makes a device, sets a property from a slice that it
    uses again, receives two datagrams and reuses the buffer. *)

Definition frame1 : list Z := [0x10; 0x81; 0; 1; 0x05; 0xFF; 0x01; 0x02; 0xA6; 0x01; 0x62; 1; 0x80; 0].
Definition frame2 : list Z := [0x10; 0x81; 0; 2; 0x05; 0xFF; 0x01; 0x02; 0xA6; 0x01; 0x61; 1; 0x80; 1; 0x30].

Definition session : list call :=
  [AMake [0x30]; ANewDevice 0x02A601; ASetPropertyData 57 0x80 0; AWrite 0 0 0x31; AData 57 0x80; AReceive frame1].
Definition session' : list call :=
  [AReceive frame2; AMessageData 1 0; ASetPropertyData 57 0x80 2; ANewMessage; ARespond 2 57 0x80; ABytes 2; AWrite 3 0 0].

Example session_safe : safe 64 (session ++ session').
Proof. apply all_carefulb_ok. vm_compute. reflexivity. Qed.

(** The device took the byte 0x30, and it keeps it although the slice is changed; the
    slice of its data keeps 0x30 although the data are changed; the first message is
    the first datagram although the buffer holds the second one. *)
Example C83_example :
  data_at (runs 64 session) 57 0x80 = Some [0x30] /\ bytes_at (runs 64 session) 0 = Some [0x31] /\
  bytes_at (runs 64 (session ++ session')) 1 = Some [0x30] /\
  message_at (runs 64 (session ++ session')) 0 = match NewMessageWithBytes frame1 with Ok m => Some m | _ => None end /\
  message_at (runs 64 (session ++ session')) 0 <> None /\
  firstn 15 (content (h_arrays (runs 64 (session ++ session'))) (h_buffer (runs 64 (session ++ session')))) = frame2 /\
  option_map (firstn 2) (bytes_at (runs 64 (session ++ session')) 3) = Some [0; 0x81].
Proof. vm_compute. repeat split. discriminate. Qed.

Example C84_applies : message_at (runs 64 (session ++ session')) 0 = match NewMessageWithBytes frame1 with Ok m => Some m | _ => None end.
Proof.
  destruct (NewMessageWithBytes frame1) as [m|e|] eqn:E; [|discriminate E|discriminate E].
  assert (next_msg (runs 64 (firstn 5 session)) = 0%nat) as N by (vm_compute; reflexivity).
  pose proof (C84_received 64 (firstn 5 session) frame1 m session' session_safe E) as X. cbv zeta in X. rewrite N in X. apply X. reflexivity.
Qed.

Example C83_applies :
  data_at (runs 64 (session ++ [AData 57 0x80; AWrite 2 0 0x55])) 57 0x80 = Some [0x55] /\
  bytes_at (runs 64 (session ++ [ACodes 57; ASetCode 57 0x02A602])) 2 = Some [0x02; 0xA6; 0x02] /\
  data_at (runs 64 (session ++ [ANewDevice 0x02A602] ++ [AShare 57 58 0x80; ASetPropertyData 57 0x80 0])) 58 0x80 = Some [0x31].
Proof. vm_compute. repeat split. Qed.

Print Assumptions C83_values.
Print Assumptions C83_object.
Print Assumptions C83_message.
Print Assumptions C83_slice.
Print Assumptions C83_data_refuted.
Print Assumptions C83_codes_refuted.
Print Assumptions C83_shared_refuted.
Print Assumptions C83_database_refuted.
Print Assumptions C84_received.
