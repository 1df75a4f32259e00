(** Facts about the model of the parent links ([Owner]). *)

From Verif Require Import Go Encoding Protocol StdDB Property Object Node Owner.
Local Open Scope Z_scope.

(** ** Lists *)

Lemma nth_set {A} (l : list A) i j v :
  nth_error (set_nth l i v) j = if Nat.eqb i j then match nth_error l i with Some _ => Some v | None => None end
                                else nth_error l j.
Proof.
  revert i j; induction l as [|a l IH]; intros i j; cbn.
  - destruct (Nat.eqb i j); destruct i, j; reflexivity.
  - destruct i as [|i], j as [|j]; cbn; try reflexivity. apply IH.
Qed.

Lemma len_set {A} (l : list A) i v : length (set_nth l i v) = length l.
Proof. revert i; induction l as [|a l IH]; intros [|i]; cbn; congruence. Qed.

Lemma nth_app_old {A} (l : list A) i v x : nth_error l i = Some x -> nth_error (l ++ [v]) i = Some x.
Proof. intros H. rewrite nth_error_app1; [exact H|]. apply nth_error_Some. congruence. Qed.

Lemma nth_app_new {A} (l : list A) v : nth_error (l ++ [v]) (length l) = Some v.
Proof. rewrite nth_error_app2, Nat.sub_diag; auto. Qed.

Lemma nth_app_inv {A} (l : list A) i v x :
  nth_error (l ++ [v]) i = Some x -> nth_error l i = Some x \/ (i = length l /\ x = v).
Proof.
  intros H. destruct (Nat.lt_ge_cases i (length l)) as [L|L].
  - rewrite nth_error_app1 in H by exact L. auto.
  - right. destruct (Nat.eq_dec i (length l)) as [->|N].
    + rewrite nth_app_new in H. injection H as <-. auto.
    + rewrite nth_error_app2 in H by exact L.
      destruct (i - length l)%nat as [|k] eqn:E; [lia|]. destruct k; discriminate H.
Qed.

(** ** What stays *)

Record keeps (w w' : state) : Prop := {
  k_sites : sites w' = sites w;
  k_cells : forall p c, cell_at w p = Some c ->
    exists c', cell_at w' p = Some c' /\ c_object c' = c_object c /\ p_code (c_prop c') = p_code (c_prop c);
  k_things : forall o t, thing_at w o = Some t ->
    exists t', thing_at w' o = Some t' /\ t_node t' = t_node t /\ t_code t' = t_code t;
  k_fresh : forall o, thing_at w o = None -> x_ObjNode w' o = None }.

Lemma keeps_refl w : keeps w w.
Proof.
  split; [reflexivity| | |]; intros.
  - eauto.
  - eauto.
  - unfold x_ObjNode. rewrite H. reflexivity.
Qed.

Lemma node_kept w w' o : keeps w w' -> x_ObjNode w' o = x_ObjNode w o.
Proof.
  intros K. unfold x_ObjNode at 2. destruct (thing_at w o) as [t|] eqn:E.
  - destruct (k_things _ _ K _ _ E) as (t' & E' & N & _). unfold x_ObjNode. rewrite E'. exact N.
  - exact (k_fresh _ _ K _ E).
Qed.

Lemma keeps_trans w1 w2 w3 : keeps w1 w2 -> keeps w2 w3 -> keeps w1 w3.
Proof.
  intros K1 K2. split.
  - rewrite (k_sites _ _ K2). exact (k_sites _ _ K1).
  - intros p c H. destruct (k_cells _ _ K1 _ _ H) as (c1 & H1 & E1 & D1).
    destruct (k_cells _ _ K2 _ _ H1) as (c2 & H2 & E2 & D2). exists c2. repeat split; congruence.
  - intros o t H. destruct (k_things _ _ K1 _ _ H) as (t1 & H1 & E1 & D1).
    destruct (k_things _ _ K2 _ _ H1) as (t2 & H2 & E2 & D2). exists t2. repeat split; congruence.
  - intros o H. rewrite (node_kept _ _ o K2). exact (k_fresh _ _ K1 _ H).
Qed.

(** ** The links *)

Definition members (s : site) : list nat := s_devices s ++ s_profiles s.

Definition maps_ok (w : state) : Prop :=
  forall o t k p, thing_at w o = Some t -> In (k, p) (t_props t) ->
  exists c, cell_at w p = Some c /\ c_object c = Some o /\ p_code (c_prop c) = k.

Definition listed_ok (w : state) : Prop :=
  forall n s o, site_at w n = Some s -> In o (members s) -> x_ObjNode w o = Some n.

Definition parents_ok (w : state) : Prop :=
  forall o n, x_ObjNode w o = Some n -> exists s, site_at w n = Some s /\ In o (members s).

Definition told (w : state) (s : shout) : Prop :=
  exists k o t, site_at w (sh_node s) = Some k /\ s_local k = true /\ s_running k = true /\
    In o (members k) /\ thing_at w o = Some t /\ t_code t = sh_from s.

Lemma told_kept w w' s : keeps w w' -> told w s -> told w' s.
Proof.
  intros K (k & o & t & S & L & R & I & T & C).
  destruct (k_things _ _ K _ _ T) as (t' & T' & _ & C').
  exists k, o, t'. unfold site_at in *. rewrite (k_sites _ _ K). repeat split; auto. congruence.
Qed.

Lemma parents_kept w w' : keeps w w' -> parents_ok w -> parents_ok w'.
Proof.
  intros K P o n H. rewrite (node_kept _ _ o K) in H. destruct (P _ _ H) as (s & S & I).
  exists s. unfold site_at in *. rewrite (k_sites _ _ K). auto.
Qed.

Lemma listed_kept w w' : keeps w w' -> listed_ok w -> listed_ok w'.
Proof.
  intros K P n s o S I. unfold site_at in S. rewrite (k_sites _ _ K) in S.
  rewrite (node_kept _ _ o K). exact (P _ _ _ S I).
Qed.

(** ** Families of pieces of code *)

Definition kf (f : act) : Prop := forall w, keeps w (fst (f w)).
Definition mf (f : act) : Prop := forall w, maps_ok w -> maps_ok (fst (f w)).
Definition tf (f : act) : Prop := forall w, parents_ok w -> Forall (told (fst (f w))) (snd (f w)).

Lemma fst_andthen f g w : fst (andthen f g w) = fst (g (fst (f w))).
Proof. unfold andthen. destruct (f w) as [w1 s1]; cbn. destruct (g w1); reflexivity. Qed.

Lemma snd_andthen f g w : snd (andthen f g w) = snd (f w) ++ snd (g (fst (f w))).
Proof. unfold andthen. destruct (f w) as [w1 s1]; cbn. destruct (g w1); reflexivity. Qed.

Lemma kf_skip : kf skip. Proof. intros w. apply keeps_refl. Qed.
Lemma mf_skip : mf skip. Proof. intros w H. exact H. Qed.
Lemma tf_skip : tf skip. Proof. intros w _. constructor. Qed.
Lemma tf_silent f : tf (silent f). Proof. intros w _. constructor. Qed.

Lemma kf_andthen f g : kf f -> kf g -> kf (andthen f g).
Proof. intros F G w. rewrite fst_andthen. eapply keeps_trans; [apply F|apply G]. Qed.

Lemma mf_andthen f g : mf f -> mf g -> mf (andthen f g).
Proof. intros F G w H. rewrite fst_andthen. apply G, F, H. Qed.

Lemma told_all_kept w w' l : keeps w w' -> Forall (told w) l -> Forall (told w') l.
Proof. intros K H. eapply Forall_impl; [|exact H]. intros s. apply told_kept, K. Qed.

Lemma tf_andthen f g : kf f -> kf g -> tf f -> tf g -> tf (andthen f g).
Proof.
  intros KF KG F G w P. rewrite fst_andthen, snd_andthen. apply Forall_app. split.
  - eapply told_all_kept; [apply KG|]. apply F, P.
  - apply G. eapply parents_kept; [apply KF|exact P].
Qed.

Lemma kf_each {A} (l : list A) f : (forall x, kf (f x)) -> kf (each l f).
Proof. intros F. induction l; cbn; [apply kf_skip|apply kf_andthen; auto]. Qed.

Lemma mf_each {A} (l : list A) f : (forall x, mf (f x)) -> mf (each l f).
Proof. intros F. induction l; cbn; [apply mf_skip|apply mf_andthen; auto]. Qed.

Lemma tf_each {A} (l : list A) f : (forall x, kf (f x)) -> (forall x, tf (f x)) -> tf (each l f).
Proof. intros K F. induction l; cbn; [apply tf_skip|]. apply tf_andthen; auto. apply kf_each, K. Qed.

(** ** The pieces *)

Lemma keeps_put w p c c0 :
  cell_at w p = Some c0 -> c_object c = c_object c0 -> p_code (c_prop c) = p_code (c_prop c0) ->
  keeps w (put_cell w p c).
Proof.
  intros E O D. split; [reflexivity| | |].
  - intros q d H. unfold cell_at, put_cell in *; cbn. rewrite nth_set.
    destruct (Nat.eqb p q) eqn:X.
    + apply Nat.eqb_eq in X. subst q. rewrite E. rewrite E in H. injection H as <-. eauto.
    + eauto.
  - intros o t H. exists t. auto.
  - intros o H. unfold x_ObjNode, thing_at, put_cell in *; cbn. rewrite H. reflexivity.
Qed.

Lemma maps_put w p c c0 :
  cell_at w p = Some c0 -> c_object c = c_object c0 -> p_code (c_prop c) = p_code (c_prop c0) ->
  maps_ok w -> maps_ok (put_cell w p c).
Proof.
  intros E O D M o t k q T I. destruct (M o t k q T I) as (d & H & Q & K).
  destruct (k_cells _ _ (keeps_put w p c c0 E O D) _ _ H) as (d' & H' & Q' & K').
  exists d'. repeat split; congruence.
Qed.

Lemma fst_SetData p d w :
  fst (x_SetData p d w) = match cell_at w p with
                          | Some c => put_cell w p (mkCell (with_data (c_prop c) d) (c_object c))
                          | None => w end.
Proof. unfold x_SetData. destruct (cell_at w p); reflexivity. Qed.

Lemma kf_SetData p d : kf (x_SetData p d).
Proof.
  intros w. rewrite fst_SetData. destruct (cell_at w p) as [c|] eqn:E; [|apply keeps_refl].
  eapply keeps_put; [exact E|reflexivity|reflexivity].
Qed.

Lemma mf_SetData p d : mf (x_SetData p d).
Proof.
  intros w M. rewrite fst_SetData. destruct (cell_at w p) as [c|] eqn:E; [|exact M].
  eapply maps_put; [exact E|reflexivity|reflexivity|exact M].
Qed.

Lemma told_Announce w p : parents_ok w -> Forall (told w) (x_Announce w p).
Proof.
  intros P. unfold x_Announce, x_Node, x_Object, x_AnnounceProperty.
  destruct (cell_at w p) as [c|] eqn:C; [|constructor].
  destruct (c_object c) as [o|] eqn:O; [|constructor].
  destruct (x_ObjNode w o) as [n|] eqn:N; [|constructor].
  destruct (site_at w n) as [s|] eqn:S; [|constructor].
  destruct (s_local s) eqn:L; [|constructor]. destruct (s_running s) eqn:R; [|constructor]. cbn.
  unfold x_ObjNode in N. destruct (thing_at w o) as [t|] eqn:T; [|constructor].
  constructor; [|constructor].
  assert (N' : x_ObjNode w o = Some n) by (unfold x_ObjNode; rewrite T; exact N).
  destruct (P _ _ N') as (s' & S' & I). rewrite S in S'. injection S' as <-.
  exists s, o, t. cbn. auto 10.
Qed.

Lemma tf_SetData p d : tf (x_SetData p d).
Proof.
  intros w P. unfold x_SetData. destruct (cell_at w p) as [c|] eqn:E; [|constructor]. cbn.
  destruct (IsAnnounceable (c_prop c)); [|constructor].
  apply told_Announce. eapply parents_kept; [|exact P].
  eapply keeps_put; [exact E|reflexivity|reflexivity].
Qed.

Lemma kf_SetPropertyData o k d : kf (x_SetPropertyData o k d).
Proof.
  intros w. unfold x_SetPropertyData. destruct (x_LookupProperty w o k); [apply kf_SetData|apply keeps_refl].
Qed.
Lemma mf_SetPropertyData o k d : mf (x_SetPropertyData o k d).
Proof.
  intros w M. unfold x_SetPropertyData. destruct (x_LookupProperty w o k); [apply mf_SetData, M|exact M].
Qed.
Lemma tf_SetPropertyData o k d : tf (x_SetPropertyData o k d).
Proof.
  intros w P. unfold x_SetPropertyData. destruct (x_LookupProperty w o k); [apply tf_SetData, P|constructor].
Qed.

Lemma kf_setMap o m : kf (x_setPropertyMap o m).
Proof. unfold x_setPropertyMap. destruct (propertyMapBytes (snd m)); [apply kf_SetPropertyData|apply kf_skip..]. Qed.
Lemma mf_setMap o m : mf (x_setPropertyMap o m).
Proof. unfold x_setPropertyMap. destruct (propertyMapBytes (snd m)); [apply mf_SetPropertyData|apply mf_skip..]. Qed.
Lemma tf_setMap o m : tf (x_setPropertyMap o m).
Proof. unfold x_setPropertyMap. destruct (propertyMapBytes (snd m)); [apply tf_SetPropertyData|apply tf_skip..]. Qed.

Lemma kf_update o : kf (x_updatePropertyMap o).
Proof. intros w. apply kf_each. intros. apply kf_setMap. Qed.
Lemma mf_update o : mf (x_updatePropertyMap o).
Proof. intros w. apply mf_each. intros. apply mf_setMap. Qed.
Lemma tf_update o : tf (x_updatePropertyMap o).
Proof. intros w. apply tf_each; intros; [apply kf_setMap|apply tf_setMap]. Qed.

Lemma kf_NewProperty q o : kf (x_NewProperty q o).
Proof.
  intros w. unfold x_NewProperty, silent; cbn. split; [reflexivity| | |].
  - intros p c H. exists c. unfold cell_at in *; cbn. split; [apply nth_app_old, H|auto].
  - eauto.
  - intros o' H. unfold x_ObjNode, thing_at in *; cbn. rewrite H. reflexivity.
Qed.

Lemma mf_NewProperty q o : mf (x_NewProperty q o).
Proof.
  intros w M o' t k p T I. destruct (M o' t k p T I) as (c & H & R). exists c.
  split; [|exact R]. unfold cell_at in *; cbn. apply nth_app_old, H.
Qed.

Lemma In_enter m k p x q : In (x, q) (enter m k p) -> (x, q) = (k, p) \/ In (x, q) m.
Proof.
  induction m as [|[y r] m IH]; cbn.
  - intros [<-|[]]; auto.
  - destruct (y =? k).
    + intros [<-|H]; auto.
    + intros [<-|H]; auto. destruct (IH H); auto.
Qed.

(** Adding a property that belongs to nobody or already to that object. *)
Lemma maps_AddProperty o p w :
  x_Object w p = None \/ x_Object w p = Some o -> maps_ok w -> maps_ok (fst (x_AddProperty o p w)).
Proof.
  intros Own M. unfold x_AddProperty, silent; cbn.
  destruct (thing_at w o) as [t|] eqn:T; [|exact M].
  destruct (cell_at w p) as [c|] eqn:C; [|exact M].
  unfold x_Object in Own. rewrite C in Own.
  assert (CP : forall q, cell_at (put_cell (put_thing w o (mkThing (t_code t) (enter (t_props t) (p_code (c_prop c)) p) (t_node t))) p (mkCell (c_prop c) (Some o))) q
               = if Nat.eqb p q then Some (mkCell (c_prop c) (Some o)) else cell_at w q).
  { intros q. unfold cell_at, put_cell, put_thing in *; cbn. rewrite nth_set, C. reflexivity. }
  assert (Old : forall o' x q k, thing_at w o' = Some x -> In (k, q) (t_props x) ->
     exists d, (if Nat.eqb p q then Some (mkCell (c_prop c) (Some o)) else cell_at w q) = Some d /\ c_object d = Some o' /\ p_code (c_prop d) = k).
  { intros o' x q k X I. destruct (M _ _ _ _ X I) as (d & D & Q & K).
    destruct (Nat.eqb p q) eqn:E.
    - apply Nat.eqb_eq in E. subst q. rewrite C in D. injection D as <-. eexists. split; [reflexivity|].
      cbn. split; [|exact K]. destruct Own as [H|H]; congruence.
    - eauto. }
  intros o' x k q X I. rewrite CP.
  unfold thing_at, put_cell, put_thing in X; cbn in X. rewrite nth_set in X.
  destruct (Nat.eqb o o') eqn:E.
  - apply Nat.eqb_eq in E. subst o'. unfold thing_at in T. rewrite T in X. injection X as <-. cbn in I.
    apply In_enter in I. destruct I as [I|I].
    + injection I as -> ->. rewrite Nat.eqb_refl. eexists. split; [reflexivity|]. auto.
    + apply (Old o t); auto.
  - apply (Old o' x); auto.
Qed.

(** The effect of adding on the links. *)
Lemma cell_AddProperty o p w t : thing_at w o = Some t -> forall q,
  cell_at (fst (x_AddProperty o p w)) q =
  match cell_at w q with
  | Some c => Some (if Nat.eqb p q then mkCell (c_prop c) (Some o) else c)
  | None => None
  end.
Proof.
  intros T q. unfold x_AddProperty, silent; cbn. rewrite T. destruct (cell_at w p) as [c|] eqn:C.
  - unfold cell_at, put_cell, put_thing in *; cbn. rewrite nth_set, C. destruct (Nat.eqb p q) eqn:E.
    + apply Nat.eqb_eq in E. subst q. rewrite C. reflexivity.
    + destruct (nth_error (cells w) q); reflexivity.
  - destruct (Nat.eqb p q) eqn:E.
    + apply Nat.eqb_eq in E. subst q. rewrite C. reflexivity.
    + destruct (cell_at w q); reflexivity.
Qed.

Lemma thing_AddProperty o p w x :
  thing_at (fst (x_AddProperty o p w)) x =
  match thing_at w x, cell_at w p with
  | Some t, Some c => Some (if Nat.eqb o x then mkThing (t_code t) (enter (t_props t) (p_code (c_prop c)) p) (t_node t) else t)
  | r, _ => r
  end.
Proof.
  unfold x_AddProperty, silent; cbn. destruct (thing_at w o) as [t|] eqn:T.
  - destruct (cell_at w p) as [c|] eqn:C.
    + unfold thing_at, put_cell, put_thing in *; cbn. rewrite nth_set. destruct (Nat.eqb o x) eqn:E.
      * apply Nat.eqb_eq in E. subst x. rewrite T. reflexivity.
      * destruct (nth_error (things w) x); reflexivity.
    + destruct (thing_at w x); reflexivity.
  - destruct (cell_at w p); destruct (Nat.eqb o x) eqn:E; try (apply Nat.eqb_eq in E; subst x; rewrite T; reflexivity);
      destruct (thing_at w x); reflexivity.
Qed.

Lemma sites_AddProperty o p w : sites (fst (x_AddProperty o p w)) = sites w.
Proof. unfold x_AddProperty, silent; cbn. destruct (thing_at w o); [destruct (cell_at w p)|]; reflexivity. Qed.

Lemma node_AddProperty o p w x : x_ObjNode (fst (x_AddProperty o p w)) x = x_ObjNode w x.
Proof.
  unfold x_ObjNode. rewrite thing_AddProperty. destruct (thing_at w x); [|reflexivity].
  destruct (cell_at w p); [|reflexivity]. destruct (Nat.eqb o x); reflexivity.
Qed.

Lemma keeps_fresh o q w :
  keeps w (fst (x_AddProperty o (length (cells w)) (fst (x_NewProperty q None w)))).
Proof.
  set (w1 := fst (x_NewProperty q None w)).
  assert (K : keeps w w1) by apply kf_NewProperty. clearbody w1.
  split.
  - rewrite sites_AddProperty. exact (k_sites _ _ K).
  - intros p c H. destruct (k_cells _ _ K _ _ H) as (c' & H' & R).
    destruct (thing_at w1 o) as [t|] eqn:T.
    + rewrite (cell_AddProperty _ _ _ t T), H'. exists c'. split; [|exact R].
      destruct (Nat.eqb (length (cells w)) p) eqn:E; [|reflexivity].
      apply Nat.eqb_eq in E. subst p. exfalso. unfold cell_at in H.
      assert (length (cells w) < length (cells w))%nat by (apply nth_error_Some; congruence). lia.
    + unfold x_AddProperty, silent; cbn. rewrite T. eauto.
  - intros x t H. rewrite thing_AddProperty. destruct (k_things _ _ K _ _ H) as (t' & H' & R). rewrite H'.
    destruct (cell_at w1 (length (cells w))); [|eauto]. destruct (Nat.eqb o x); eexists; (split; [reflexivity|exact R]).
  - intros x H. rewrite node_AddProperty. exact (k_fresh _ _ K _ H).
Qed.

Lemma fst_AddCopy o q w :
  fst (x_AddCopy o q w) =
  fst (x_updatePropertyMap o (fst (x_AddProperty o (length (cells w)) (fst (x_NewProperty (prop_Copy q) None w))))).
Proof. unfold x_AddCopy, x_Super_AddProperty. rewrite !fst_andthen. reflexivity. Qed.

Lemma kf_AddCopy o q : kf (x_AddCopy o q).
Proof. intros w. rewrite fst_AddCopy. eapply keeps_trans; [apply keeps_fresh|apply kf_update]. Qed.

Lemma mf_AddCopy o q : mf (x_AddCopy o q).
Proof.
  intros w M. rewrite fst_AddCopy. apply mf_update, maps_AddProperty; [|apply mf_NewProperty, M].
  left. unfold x_Object, cell_at, x_NewProperty, silent; cbn. rewrite nth_app_new. reflexivity.
Qed.

Lemma tf_AddCopy o q : tf (x_AddCopy o q).
Proof.
  intros w P. rewrite fst_AddCopy. unfold x_AddCopy, x_Super_AddProperty.
  rewrite !snd_andthen. cbn [x_NewProperty x_AddProperty silent snd List.app].
  apply tf_update. eapply parents_kept; [apply keeps_fresh|exact P].
Qed.

Lemma kf_addStandard o k : kf (x_addStandard o k).
Proof. unfold x_addStandard. destruct (DB_LookupObject k); [apply kf_each; intros; apply kf_AddCopy|apply kf_skip]. Qed.
Lemma mf_addStandard o k : mf (x_addStandard o k).
Proof. unfold x_addStandard. destruct (DB_LookupObject k); [apply mf_each; intros; apply mf_AddCopy|apply mf_skip]. Qed.
Lemma tf_addStandard o k : tf (x_addStandard o k).
Proof.
  unfold x_addStandard. destruct (DB_LookupObject k); [|apply tf_skip].
  apply tf_each; intros; [apply kf_AddCopy|apply tf_AddCopy].
Qed.

(** A new object: the links of the others stay, whatever its code. *)
Record spares (o : nat) (w w' : state) : Prop := {
  z_sites : sites w' = sites w;
  z_cells : forall p c, cell_at w p = Some c ->
    exists c', cell_at w' p = Some c' /\ c_object c' = c_object c /\ p_code (c_prop c') = p_code (c_prop c);
  z_node : forall x, x_ObjNode w' x = x_ObjNode w x;
  z_count : (length (things w) <= length (things w'))%nat;
  z_code : forall x t, x <> o -> thing_at w x = Some t -> exists t', thing_at w' x = Some t' /\ t_code t' = t_code t }.

Lemma kept_count w w' : keeps w w' -> (length (things w) <= length (things w'))%nat.
Proof.
  intros K. destruct (Nat.le_gt_cases (length (things w)) (length (things w'))) as [L|L]; [exact L|].
  exfalso. destruct (thing_at w (length (things w'))) as [t|] eqn:T.
  - destruct (k_things _ _ K _ _ T) as (t' & T' & _). unfold thing_at in T'.
    assert (length (things w') < length (things w'))%nat by (apply nth_error_Some; congruence). lia.
  - unfold thing_at in T. apply nth_error_None in T. lia.
Qed.

Lemma spares_keeps o w w' : keeps w w' -> spares o w w'.
Proof.
  intros K. split.
  - exact (k_sites _ _ K).
  - exact (k_cells _ _ K).
  - intros x. apply node_kept, K.
  - apply kept_count, K.
  - intros x t _ T. destruct (k_things _ _ K _ _ T) as (t' & T' & _ & C). eauto.
Qed.

Lemma spares_trans o w1 w2 w3 : spares o w1 w2 -> spares o w2 w3 -> spares o w1 w3.
Proof.
  intros K1 K2. split.
  - rewrite (z_sites _ _ _ K2). exact (z_sites _ _ _ K1).
  - intros p c H. destruct (z_cells _ _ _ K1 _ _ H) as (c1 & H1 & E1 & D1).
    destruct (z_cells _ _ _ K2 _ _ H1) as (c2 & H2 & E2 & D2). exists c2. repeat split; congruence.
  - intros x. rewrite (z_node _ _ _ K2). apply (z_node _ _ _ K1).
  - pose proof (z_count _ _ _ K1). pose proof (z_count _ _ _ K2). lia.
  - intros x t N T. destruct (z_code _ _ _ K1 _ _ N T) as (t1 & T1 & E1).
    destruct (z_code _ _ _ K2 _ _ N T1) as (t2 & T2 & E2). exists t2. split; congruence.
Qed.

Lemma len_put w o t : length (things (put_thing w o t)) = length (things w).
Proof. unfold put_thing; cbn. apply len_set. Qed.

Lemma spares_SetCode1 o k w : spares o w (fst (x_Obj_SetCode o k w)).
Proof.
  unfold x_Obj_SetCode, silent; cbn. destruct (thing_at w o) as [t|] eqn:T; [|apply spares_keeps, keeps_refl].
  split.
  - reflexivity.
  - intros p c H. exists c. auto.
  - intros x. unfold x_ObjNode, thing_at, put_thing in *; cbn. rewrite nth_set. destruct (Nat.eqb o x) eqn:E; [|reflexivity].
    apply Nat.eqb_eq in E. subst x. rewrite T. reflexivity.
  - rewrite len_put. auto.
  - intros x t' N H. exists t'. split; [|reflexivity]. unfold thing_at, put_thing in *; cbn. rewrite nth_set.
    destruct (Nat.eqb o x) eqn:E; [|exact H]. apply Nat.eqb_eq in E. congruence.
Qed.

Lemma maps_SetCode1 o k : mf (x_Obj_SetCode o k).
Proof.
  intros w M. unfold x_Obj_SetCode, silent; cbn. destruct (thing_at w o) as [t|] eqn:T; [|exact M].
  intros x t' k' p X I. unfold thing_at, put_thing in X; cbn in X. rewrite nth_set in X.
  destruct (Nat.eqb o x) eqn:E.
  - apply Nat.eqb_eq in E. subst x. unfold thing_at in T. rewrite T in X. injection X as <-. cbn in I. exact (M o t k' p T I).
  - exact (M x t' k' p X I).
Qed.

Lemma fst_SetCode o k w :
  fst (x_SetCode o k w) = fst (x_addStandard o (ByteToInteger (IntegerToByte k 3)) (fst (x_Obj_SetCode o k w))).
Proof. apply fst_andthen. Qed.

Lemma spares_SetCode o k w : spares o w (fst (x_SetCode o k w)).
Proof. rewrite fst_SetCode. eapply spares_trans; [apply spares_SetCode1|apply spares_keeps, kf_addStandard]. Qed.

Lemma mf_SetCode o k : mf (x_SetCode o k).
Proof. apply mf_andthen; [apply maps_SetCode1|apply mf_addStandard]. Qed.

Lemma parents_spared o w w' : spares o w w' -> parents_ok w -> parents_ok w'.
Proof.
  intros K P x n H. rewrite (z_node _ _ _ K) in H. destruct (P _ _ H) as (s & S & I).
  exists s. unfold site_at in *. rewrite (z_sites _ _ _ K). auto.
Qed.

Lemma listed_spared o w w' : spares o w w' -> listed_ok w -> listed_ok w'.
Proof.
  intros K P n s x S I. unfold site_at in S. rewrite (z_sites _ _ _ K) in S.
  rewrite (z_node _ _ _ K). exact (P _ _ _ S I).
Qed.

Lemma tf_SetCode o k : tf (x_SetCode o k).
Proof.
  intros w P. unfold x_SetCode. rewrite fst_andthen, snd_andthen. cbn [x_Obj_SetCode silent snd List.app].
  apply tf_addStandard. eapply parents_spared; [apply (spares_SetCode1 o k)|exact P].
Qed.

Lemma keeps_newObject w : keeps w (fst (x_newObject w)).
Proof.
  split; [reflexivity| | |].
  - eauto.
  - intros o t H. exists t. unfold thing_at in *; cbn. split; [apply nth_app_old, H|auto].
  - intros o H. unfold x_ObjNode, thing_at in *; cbn. destruct (nth_error (things w ++ [mkThing 0 [] None]) o) as [t|] eqn:E; [|reflexivity].
    apply nth_app_inv in E. destruct E as [E|[_ ->]]; [congruence|reflexivity].
Qed.

Lemma maps_newObject : mf x_newObject.
Proof.
  intros w M o t k p T I. unfold thing_at in T; cbn in T. apply nth_app_inv in T. destruct T as [T|[_ ->]]; [|contradiction].
  exact (M o t k p T I).
Qed.

Lemma spares_NewSuper o w : spares o w (fst (x_NewSuper o w)).
Proof.
  unfold x_NewSuper. rewrite !fst_andthen.
  eapply spares_trans; [apply spares_keeps, keeps_newObject|].
  eapply spares_trans; [apply spares_SetCode1|].
  apply spares_keeps. eapply keeps_trans; [apply kf_addStandard|apply kf_update].
Qed.

Lemma mf_NewSuper o : mf (x_NewSuper o).
Proof.
  apply mf_andthen; [apply maps_newObject|]. apply mf_andthen; [apply maps_SetCode1|].
  apply mf_andthen; [apply mf_addStandard|apply mf_update].
Qed.

Lemma tf_after f g :
  (forall w, snd (f w) = []) -> (forall w, parents_ok w -> parents_ok (fst (f w))) -> tf g -> tf (andthen f g).
Proof.
  intros S F G w P. rewrite fst_andthen, snd_andthen, S. cbn. apply G, F, P.
Qed.

Lemma tf_NewSuper o : tf (x_NewSuper o).
Proof.
  apply tf_after; [reflexivity| |].
  - intros w. apply parents_kept, keeps_newObject.
  - apply tf_after; [reflexivity| |].
    + intros w. eapply parents_spared, spares_SetCode1.
    + apply tf_andthen; [apply kf_addStandard|apply kf_update|apply tf_addStandard|apply tf_update].
Qed.

(** Silence about an object that belongs to no node. *)
Definition quiet_for (w : state) (o : nat) : Prop := x_ObjNode w o = None.

Lemma quiet_SetPropertyData o k d w :
  maps_ok w -> x_ObjNode w o = None -> snd (x_SetPropertyData o k d w) = [].
Proof.
  intros M Q. unfold x_SetPropertyData, x_LookupProperty.
  destruct (thing_at w o) as [t|] eqn:T; [|reflexivity].
  destruct (look (t_props t) k) as [p|] eqn:L; [|reflexivity].
  assert (I : exists x, In (x, p) (t_props t)).
  { revert L. induction (t_props t) as [|[y r] m IH]; cbn; [discriminate|].
    destruct (y =? k); [intros [= ->]; eauto|]. intros L. destruct (IH L) as (x & H); eauto. }
  destruct I as (x & I). destruct (M _ _ _ _ T I) as (c & C & O & _).
  unfold x_SetData. rewrite C. cbn. destruct (IsAnnounceable (c_prop c)); [|reflexivity].
  unfold x_Announce, x_Node, x_Object.
  assert (C' : cell_at (put_cell w p (mkCell (with_data (c_prop c) d) (c_object c))) p
               = Some (mkCell (with_data (c_prop c) d) (c_object c))).
  { unfold cell_at, put_cell in *; cbn. rewrite nth_set, Nat.eqb_refl, C. reflexivity. }
  rewrite C'. cbn [c_object]. rewrite O.
  replace (x_ObjNode (put_cell w p _) o) with (x_ObjNode w o) by reflexivity.
  rewrite Q. reflexivity.
Qed.

Lemma tf_updateNodeProfile n : tf (x_updateNodeProfile n).
Proof.
  intros w P. unfold x_updateNodeProfile.
  destruct (site_at w n) as [s|]; [|constructor]. destruct (x_NodeProfile w s) as [o|]; [|constructor].
  destruct (classes <- collect_classes (x_values w (s_devices s)) [] ;; collect_classes (x_values w (s_profiles s)) classes);
    [|constructor..].
  apply tf_each; [intros; apply kf_SetPropertyData|intros; apply tf_SetPropertyData|exact P].
Qed.

Lemma kf_updateNodeProfile n : kf (x_updateNodeProfile n).
Proof.
  intros w. unfold x_updateNodeProfile.
  destruct (site_at w n) as [s|]; [|apply keeps_refl]. destruct (x_NodeProfile w s) as [o|]; [|apply keeps_refl].
  destruct (classes <- collect_classes (x_values w (s_devices s)) [] ;; collect_classes (x_values w (s_profiles s)) classes);
    [|apply keeps_refl..].
  apply kf_each. intros. apply kf_SetPropertyData.
Qed.

Lemma mf_updateNodeProfile n : mf (x_updateNodeProfile n).
Proof.
  intros w M. unfold x_updateNodeProfile.
  destruct (site_at w n) as [s|]; [|exact M]. destruct (x_NodeProfile w s) as [o|]; [|exact M].
  destruct (classes <- collect_classes (x_values w (s_devices s)) [] ;; collect_classes (x_values w (s_profiles s)) classes);
    [|exact M..].
  apply mf_each; [|exact M]. intros. apply mf_SetPropertyData.
Qed.

(** ** Pieces that work on an object of no node say nothing *)

Definition hf (o : nat) (f : act) : Prop := forall w, maps_ok w -> x_ObjNode w o = None -> snd (f w) = [].
Definition nf (f : act) : Prop := forall w x, x_ObjNode (fst (f w)) x = x_ObjNode w x.

Lemma nf_kf f : kf f -> nf f.
Proof. intros K w x. apply node_kept, K. Qed.

Lemma nf_andthen f g : nf f -> nf g -> nf (andthen f g).
Proof. intros F G w x. rewrite fst_andthen, G. apply F. Qed.

Lemma hf_andthen o f g : mf f -> nf f -> hf o f -> hf o g -> hf o (andthen f g).
Proof.
  intros M N F G w H Q. rewrite snd_andthen, (F w H Q). cbn. apply G; [apply M, H|rewrite N; exact Q].
Qed.

Lemma hf_each {A} o (l : list A) f : (forall x, mf (f x)) -> (forall x, nf (f x)) -> (forall x, hf o (f x)) -> hf o (each l f).
Proof. intros M N F. induction l; cbn; [intros w _ _; reflexivity|]. apply hf_andthen; auto. Qed.

Lemma hf_setMap o m : hf o (x_setPropertyMap o m).
Proof.
  intros w M Q. unfold x_setPropertyMap. destruct (propertyMapBytes (snd m)); try reflexivity.
  apply quiet_SetPropertyData; assumption.
Qed.

Lemma hf_update o : hf o (x_updatePropertyMap o).
Proof.
  intros w M Q. apply (hf_each o); [intros; apply mf_setMap|intros; apply nf_kf, kf_setMap|intros; apply hf_setMap|exact M|exact Q].
Qed.

Lemma maps_fresh o q w : maps_ok w -> maps_ok (fst (x_AddProperty o (length (cells w)) (fst (x_NewProperty q None w)))).
Proof.
  intros M. apply maps_AddProperty; [|apply mf_NewProperty, M].
  left. unfold x_Object, cell_at, x_NewProperty, silent; cbn. rewrite nth_app_new. reflexivity.
Qed.

Lemma hf_AddCopy o q : hf o (x_AddCopy o q).
Proof.
  intros w M Q. unfold x_AddCopy, x_Super_AddProperty.
  rewrite !snd_andthen. cbn [x_NewProperty x_AddProperty silent snd List.app].
  apply hf_update; [exact (maps_fresh o (prop_Copy q) w M)|].
  transitivity (x_ObjNode w o); [|exact Q]. exact (node_kept _ _ o (keeps_fresh o (prop_Copy q) w)).
Qed.

Lemma hf_addStandard o k : hf o (x_addStandard o k).
Proof.
  unfold x_addStandard. destruct (DB_LookupObject k); [|intros w _ _; reflexivity].
  apply hf_each; intros; [apply mf_AddCopy|apply nf_kf, kf_AddCopy|apply hf_AddCopy].
Qed.

Lemma nf_spares o f : (forall w, spares o w (fst (f w))) -> nf f.
Proof. intros S w x. apply (z_node _ _ _ (S w)). Qed.

Lemma hf_SetCode o k : hf o (x_SetCode o k).
Proof.
  apply hf_andthen; [apply maps_SetCode1|eapply nf_spares; intros; apply spares_SetCode1|intros w _ _; reflexivity|apply hf_addStandard].
Qed.

Lemma hf_NewSuper o : hf o (x_NewSuper o).
Proof.
  apply hf_andthen; [apply maps_newObject|apply nf_kf; intros w; apply keeps_newObject|intros w _ _; reflexivity|].
  apply hf_andthen; [apply maps_SetCode1|eapply nf_spares; intros; apply spares_SetCode1|intros w _ _; reflexivity|].
  apply hf_andthen; [apply mf_addStandard|apply nf_kf, kf_addStandard|apply hf_addStandard|apply hf_update].
Qed.

(** ** Entering a node *)

Lemma site_append n ds ps w x :
  site_at (fst (x_append n ds ps w)) x =
  match site_at w x with
  | Some s => Some (if Nat.eqb n x then with_lists s (s_devices s ++ ds) (s_profiles s ++ ps) else s)
  | None => None
  end.
Proof.
  unfold x_append, silent; cbn. destruct (site_at w n) as [s|] eqn:S.
  - unfold site_at, put_site in *; cbn. rewrite nth_set. destruct (Nat.eqb n x) eqn:E.
    + apply Nat.eqb_eq in E. subst x. rewrite S. reflexivity.
    + destruct (nth_error (sites w) x); reflexivity.
  - destruct (Nat.eqb n x) eqn:E.
    + apply Nat.eqb_eq in E. subst x. rewrite S. reflexivity.
    + destruct (site_at w x); reflexivity.
Qed.

Lemma rest_append n ds ps w : cells (fst (x_append n ds ps w)) = cells w /\ things (fst (x_append n ds ps w)) = things w.
Proof. unfold x_append, silent; cbn. destruct (site_at w n); auto. Qed.

Lemma node_append n ds ps w o : x_ObjNode (fst (x_append n ds ps w)) o = x_ObjNode w o.
Proof. unfold x_ObjNode, thing_at. destruct (rest_append n ds ps w) as (_ & ->). reflexivity. Qed.

Lemma maps_same w w' : cells w' = cells w -> things w' = things w -> maps_ok w -> maps_ok w'.
Proof.
  intros C T M o t k p X I. unfold thing_at, cell_at in *. rewrite T in X. rewrite C. exact (M o t k p X I).
Qed.

Lemma thing_SetParent o n w x :
  thing_at (fst (x_SetParentNode o n w)) x =
  match thing_at w x with
  | Some t => Some (if Nat.eqb o x then mkThing (t_code t) (t_props t) n else t)
  | None => None
  end.
Proof.
  unfold x_SetParentNode, silent; cbn. destruct (thing_at w o) as [t|] eqn:T.
  - unfold thing_at, put_thing in *; cbn. rewrite nth_set. destruct (Nat.eqb o x) eqn:E.
    + apply Nat.eqb_eq in E. subst x. rewrite T. reflexivity.
    + destruct (nth_error (things w) x); reflexivity.
  - destruct (Nat.eqb o x) eqn:E.
    + apply Nat.eqb_eq in E. subst x. rewrite T. reflexivity.
    + destruct (thing_at w x); reflexivity.
Qed.

Lemma rest_SetParent o n w :
  cells (fst (x_SetParentNode o n w)) = cells w /\ sites (fst (x_SetParentNode o n w)) = sites w.
Proof. unfold x_SetParentNode, silent; cbn. destruct (thing_at w o); auto. Qed.

Lemma mf_SetParent o n : mf (x_SetParentNode o n).
Proof.
  intros w M x t k p X I. rewrite thing_SetParent in X.
  unfold cell_at. destruct (rest_SetParent o n w) as (-> & _).
  destruct (thing_at w x) as [t0|] eqn:T; [|discriminate X]. injection X as <-.
  apply (M x t0 k p T). destruct (Nat.eqb o x); exact I.
Qed.

Lemma node_SetParent o n w x :
  x_ObjNode (fst (x_SetParentNode o n w)) x =
  if Nat.eqb o x then match thing_at w x with Some _ => n | None => None end else x_ObjNode w x.
Proof.
  unfold x_ObjNode. rewrite thing_SetParent. destruct (thing_at w x) as [t|]; destruct (Nat.eqb o x); reflexivity.
Qed.

Lemma told_SetParent o n w s : told w s -> told (fst (x_SetParentNode o n w)) s.
Proof.
  intros (k & x & t & S & L & R & I & T & C). unfold told, site_at in *.
  destruct (rest_SetParent o n w) as (_ & ->). exists k, x, (if Nat.eqb o x then mkThing (t_code t) (t_props t) n else t).
  rewrite thing_SetParent, T. destruct (Nat.eqb o x); auto 10.
Qed.

(** What entering does to a state: the object is in the lists and its parent is the
    node; nothing else changes. *)
Lemma Add_steps n ds ps o w s : site_at w n = Some s ->
  exists w2, keeps (fst (x_append n ds ps w)) w2 /\ (maps_ok w -> maps_ok w2) /\
    keeps (fst (x_SetParentNode o (Some n) w2)) (fst (x_Add n ds ps o w)) /\
    (maps_ok w -> maps_ok (fst (x_Add n ds ps o w))).
Proof.
  intros S. unfold x_Add. rewrite S. destruct (s_local s).
  - exists (fst (x_SetManufacturer o (s_manufacturer s) (fst (x_append n ds ps w)))).
    rewrite !fst_andthen.
    assert (M : maps_ok w -> maps_ok (fst (x_SetManufacturer o (s_manufacturer s) (fst (x_append n ds ps w))))).
    { intros M. apply mf_SetPropertyData. destruct (rest_append n ds ps w). eapply maps_same; eauto. }
    split; [apply kf_SetPropertyData|]. split; [exact M|]. split; [apply kf_updateNodeProfile|].
    intros H. apply mf_updateNodeProfile, mf_SetParent, M, H.
  - exists (fst (x_append n ds ps w)). rewrite fst_andthen.
    assert (M : maps_ok w -> maps_ok (fst (x_append n ds ps w))).
    { intros M. destruct (rest_append n ds ps w). eapply maps_same; eauto. }
    split; [apply keeps_refl|]. split; [exact M|]. split; [apply keeps_refl|].
    intros H. apply mf_SetParent, M, H.
Qed.

Lemma node_Add n ds ps o w s x : site_at w n = Some s -> (exists t, thing_at w o = Some t) ->
  x_ObjNode (fst (x_Add n ds ps o w)) x = if Nat.eqb o x then Some n else x_ObjNode w x.
Proof.
  intros S C. destruct (Add_steps n ds ps o w s S) as (w2 & K1 & _ & K2 & _).
  rewrite (node_kept _ _ x K2), node_SetParent, (node_kept _ _ x K1), node_append.
  destruct (Nat.eqb o x) eqn:E; [|reflexivity].
  destruct C as (t & T). apply Nat.eqb_eq in E. subst x.
  assert (T1 : thing_at (fst (x_append n ds ps w)) o = Some t).
  { unfold thing_at in *. destruct (rest_append n ds ps w) as (_ & ->). exact T. }
  destruct (k_things _ _ K1 _ _ T1) as (t' & -> & _). reflexivity.
Qed.

Lemma site_Add n ds ps o w s x : site_at w n = Some s ->
  site_at (fst (x_Add n ds ps o w)) x = site_at (fst (x_append n ds ps w)) x.
Proof.
  intros S. destruct (Add_steps n ds ps o w s S) as (w2 & K1 & _ & K2 & _).
  unfold site_at. rewrite (k_sites _ _ K2). destruct (rest_SetParent o (Some n) w2) as (_ & ->).
  rewrite (k_sites _ _ K1). reflexivity.
Qed.

Lemma In_members_with s ds ps x :
  In x (members (with_lists s (s_devices s ++ ds) (s_profiles s ++ ps))) <-> In x (members s) \/ In x (ds ++ ps).
Proof.
  unfold members; cbn. rewrite !in_app_iff. tauto.
Qed.

Definition linked (w : state) : Prop := maps_ok w /\ listed_ok w /\ parents_ok w.

Lemma linked_kept w w' : keeps w w' -> maps_ok w' -> linked w -> linked w'.
Proof.
  intros K M (_ & L & P). split; [exact M|]. split; [eapply listed_kept; eauto|eapply parents_kept; eauto].
Qed.

Lemma linked_spared o w w' : spares o w w' -> maps_ok w' -> linked w -> linked w'.
Proof.
  intros K M (_ & L & P). split; [exact M|]. split; [eapply listed_spared; eauto|eapply parents_spared; eauto].
Qed.

Lemma linked_Add n ds ps o w :
  ds ++ ps = [o] -> (exists t, thing_at w o = Some t) ->
  x_ObjNode w o = None \/ x_ObjNode w o = Some n -> linked w -> linked (fst (x_Add n ds ps o w)).
Proof.
  intros D C Own (M & L & P). destruct (site_at w n) as [s|] eqn:S.
  2:{ unfold x_Add. rewrite S. split; auto. }
  destruct (Add_steps n ds ps o w s S) as (w2 & _ & _ & _ & MA).
  split; [exact (MA M)|]. split.
  - intros k t x H I. rewrite (site_Add _ _ _ _ _ _ _ S), site_append in H.
    rewrite (node_Add _ _ _ _ _ _ _ S C).
    destruct (site_at w k) as [t0|] eqn:K; [|discriminate H]. injection H as <-.
    destruct (Nat.eqb n k) eqn:E.
    + apply Nat.eqb_eq in E. subst k. apply In_members_with in I. rewrite D in I.
      destruct (Nat.eqb o x) eqn:X; [reflexivity|]. destruct I as [I|[->|[]]].
      * exact (L _ _ _ K I).
      * rewrite Nat.eqb_refl in X. discriminate X.
    + pose proof (L _ _ _ K I) as N. destruct (Nat.eqb o x) eqn:X; [|exact N].
      apply Nat.eqb_eq in X. subst x. apply Nat.eqb_neq in E. destruct Own; congruence.
  - intros x k H. rewrite (node_Add _ _ _ _ _ _ _ S C) in H. rewrite (site_Add _ _ _ _ _ _ _ S), site_append.
    destruct (Nat.eqb o x) eqn:X.
    + apply Nat.eqb_eq in X. subst x. injection H as <-. rewrite S, Nat.eqb_refl. eexists. split; [reflexivity|].
      apply In_members_with. right. rewrite D. left. reflexivity.
    + destruct (P _ _ H) as (t & T & I). rewrite T. eexists. split; [reflexivity|].
      destruct (Nat.eqb n k); [|exact I]. apply In_members_with. auto.
Qed.

Lemma told_Add n ds ps o w :
  ds ++ ps = [o] -> parents_ok w -> Forall (told (fst (x_Add n ds ps o w))) (snd (x_Add n ds ps o w)).
Proof.
  intros D P. unfold x_Add. destruct (site_at w n) as [s|] eqn:S; [|constructor].
  destruct (s_local s) eqn:Loc; [|constructor].
  rewrite !fst_andthen, !snd_andthen. cbn [x_append x_SetParentNode silent snd List.app].
  set (w1 := fst (x_append n ds ps w)).
  assert (P1 : parents_ok w1).
  { intros x k H. unfold w1 in *. rewrite node_append in H. rewrite site_append. destruct (P _ _ H) as (t & T & I).
    rewrite T. eexists. split; [reflexivity|]. destruct (Nat.eqb n k); [|exact I]. apply In_members_with. auto. }
  assert (S1 : exists t, site_at w1 n = Some t /\ In o (members t)).
  { unfold w1. rewrite site_append, S, Nat.eqb_refl. eexists. split; [reflexivity|]. apply In_members_with. rewrite D. cbn. auto. }
  change (fst (silent _ w)) with w1. clearbody w1.
  set (w2 := fst (x_SetManufacturer o (s_manufacturer s) w1)).
  assert (K2 : keeps w1 w2) by apply kf_SetPropertyData.
  assert (T2 : Forall (told w2) (snd (x_SetManufacturer o (s_manufacturer s) w1))) by (apply tf_SetPropertyData, P1).
  assert (P2 : parents_ok w2) by (eapply parents_kept; eauto).
  assert (S2 : exists t, site_at w2 n = Some t /\ In o (members t)).
  { unfold site_at in *. rewrite (k_sites _ _ K2). exact S1. }
  clearbody w2.
  match goal with |- context [x_updateNodeProfile n ?w] => change w with (fst (x_SetParentNode o (Some n) w2)) end.
  assert (P3 : parents_ok (fst (x_SetParentNode o (Some n) w2))).
  { intros x k H. rewrite node_SetParent in H. unfold site_at. destruct (rest_SetParent o (Some n) w2) as (_ & ->).
    destruct (Nat.eqb o x) eqn:X.
    - apply Nat.eqb_eq in X. subst x. destruct (thing_at w2 o); [|discriminate H]. injection H as <-. exact S2.
    - exact (P2 _ _ H). }
  apply Forall_app. split.
  - eapply told_all_kept; [apply kf_updateNodeProfile|]. eapply Forall_impl; [|exact T2]. intros. apply told_SetParent. assumption.
  - apply tf_updateNodeProfile, P3.
Qed.
