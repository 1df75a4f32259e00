(** C94: a change is told by the node that holds the changed thing. *)

From Verif Require Import Go Encoding Protocol StdDB Property Object Node Owner OwnerFacts.
Local Open Scope Z_scope.

(** A careful program puts a property into one object and an object into one node: it
    adds a property that has no object yet (or again to its object), gives a property
    its code before adding it, adds a device that has no node yet (or again to its
    node), and leaves SetParentNode to the library. *)
Definition careful (w : state) (c : call) : Prop :=
  match c with
  | SetPropertyCode p _ => x_Object w p = None
  | AddPropertyTo o p => x_Object w p = None \/ x_Object w p = Some o
  | SetParent _ _ => False
  | AddDeviceTo n o => (exists t, thing_at w o = Some t) /\ (x_ObjNode w o = None \/ x_ObjNode w o = Some n)
  | _ => True
  end.

Fixpoint careful_all (w : state) (cs : list call) : Prop :=
  match cs with
  | [] => True
  | c :: t => careful w c /\ careful_all (fst (does c w)) t
  end.

(** The state after a program. *)
Definition after (cs : list call) : state := fst (program cs nothing).

(** What a reader of the object gets for a code: property_map.go L86-L89. *)
Definition value_of (w : state) (o : nat) (code : Z) : option (list Z) :=
  match x_LookupProperty w o code with
  | Some p => option_map (fun c => p_data (c_prop c)) (cell_at w p)
  | None => None
  end.

(** The objects a node lists. *)
Definition lists (w : state) (n o : nat) : Prop :=
  exists s, site_at w n = Some s /\ In o (s_devices s ++ s_profiles s).

(** ** Lemmas *)

Lemma linked_nothing : linked nothing.
Proof.
  split; [|split].
  - intros o t k p H. unfold thing_at in H; cbn in H. destruct o; discriminate H.
  - intros n s o H. unfold site_at in H; cbn in H. destruct n; discriminate H.
  - intros o n H. unfold x_ObjNode, thing_at in H; cbn in H. destruct o; discriminate H.
Qed.

Lemma parents_sites w w' :
  things w' = things w ->
  (forall n s, site_at w n = Some s -> exists s', site_at w' n = Some s' /\ (forall o, In o (members s) -> In o (members s'))) ->
  parents_ok w -> parents_ok w'.
Proof.
  intros T S P o n H. unfold x_ObjNode, thing_at in *. rewrite T in H. destruct (P o n H) as (s & E & I).
  destruct (S _ _ E) as (s' & E' & J). exists s'. auto.
Qed.

Lemma listed_sites w w' :
  things w' = things w ->
  (forall n s', site_at w' n = Some s' -> (exists s, site_at w n = Some s /\ members s = members s') \/ members s' = []) ->
  listed_ok w -> listed_ok w'.
Proof.
  intros T S L n s o E I. unfold x_ObjNode, thing_at in *. rewrite T.
  destruct (S _ _ E) as [(s0 & E0 & M)|M].
  - rewrite <- M in I. exact (L _ _ _ E0 I).
  - rewrite M in I. destruct I.
Qed.

(** a node that changes, not its lists *)
Lemma linked_put_site w n s s' :
  site_at w n = Some s -> members s' = members s -> linked w -> linked (put_site w n s').
Proof.
  intros E M (A & L & P).
  assert (X : forall k, site_at (put_site w n s') k = if Nat.eqb n k then Some s' else site_at w k).
  { intros k. unfold site_at, put_site in *; cbn. rewrite nth_set, E. reflexivity. }
  split; [|split].
  - eapply maps_same; [| |exact A]; reflexivity.
  - eapply (listed_sites w); [reflexivity| |exact L]. intros k t H. rewrite X in H. destruct (Nat.eqb n k) eqn:Q.
    + apply Nat.eqb_eq in Q. subst k. injection H as <-. left. eauto.
    + left. eauto.
  - eapply (parents_sites w); [reflexivity| |exact P]. intros k t H. rewrite X. destruct (Nat.eqb n k) eqn:Q.
    + apply Nat.eqb_eq in Q. subst k. rewrite E in H. injection H as <-. exists s'. rewrite M. auto.
    + eauto.
Qed.

Definition new_site (local : bool) (w : state) : state :=
  mkState (cells w) (things w) (sites w ++ [mkSite local false [] [] NodeManufacturerExperimental]).

Lemma linked_new_site local w : linked w -> linked (new_site local w).
Proof.
  intros (A & L & P). split; [|split].
  - eapply maps_same; [| |exact A]; reflexivity.
  - eapply (listed_sites w); [reflexivity| |exact L]. intros k t H. unfold site_at, new_site in *; cbn in H.
    apply nth_app_inv in H. destruct H as [H|[_ ->]]; [left; eauto|right; reflexivity].
  - eapply (parents_sites w); [reflexivity| |exact P]. intros k t H. unfold site_at, new_site in *; cbn.
    exists t. split; [apply nth_app_old, H|auto].
Qed.

(** the profile of a new node, before it is added *)
Definition make_profile (o : nat) : act :=
  andthen (x_NewSuper o) (andthen (x_SetCode o NodeProfileObjectCode) (x_SetCode o NodeProfileObjectCode)).

Lemma NewNode_local w :
  x_NewNode true w = andthen (silent (new_site true))
    (andthen (x_NewSuper (length (things w))) (andthen (x_SetCode (length (things w)) NodeProfileObjectCode)
       (andthen (x_SetCode (length (things w)) NodeProfileObjectCode)
          (x_AddProfile (length (sites w)) (length (things w)))))) w.
Proof. reflexivity. Qed.

Lemma fst_make_profile o w :
  fst (make_profile o w) = fst (x_SetCode o NodeProfileObjectCode (fst (x_SetCode o NodeProfileObjectCode (fst (x_NewSuper o w))))).
Proof. unfold make_profile. rewrite !fst_andthen. reflexivity. Qed.

Lemma spares_make o w : spares o w (fst (make_profile o w)).
Proof.
  rewrite fst_make_profile. eapply spares_trans; [apply spares_NewSuper|].
  eapply spares_trans; apply spares_SetCode.
Qed.

Lemma mf_make o : mf (make_profile o).
Proof. apply mf_andthen; [apply mf_NewSuper|]. apply mf_andthen; apply mf_SetCode. Qed.

Lemma hf_make o : hf o (make_profile o).
Proof.
  apply hf_andthen; [apply mf_NewSuper|eapply nf_spares; intros; apply spares_NewSuper|apply hf_NewSuper|].
  apply hf_andthen; [apply mf_SetCode|eapply nf_spares; intros; apply spares_SetCode|apply hf_SetCode|apply hf_SetCode].
Qed.

Lemma made o w : o = length (things w) -> exists t, thing_at (fst (x_NewSuper o w)) o = Some t.
Proof.
  intros ->. unfold x_NewSuper. rewrite !fst_andthen.
  assert (H : exists t, thing_at (fst (x_newObject w)) (length (things w)) = Some t).
  { eexists. unfold thing_at; cbn. apply nth_app_new. }
  destruct H as (t & H).
  assert (H1 : exists t, thing_at (fst (x_Obj_SetCode (length (things w)) 0 (fst (x_newObject w)))) (length (things w)) = Some t).
  { unfold x_Obj_SetCode, silent. cbn [fst]. change (things w ++ [mkThing 0 [] None]) with (things (fst (x_newObject w))).
    rewrite H. eexists. unfold thing_at, put_thing in *. cbn [things]. rewrite nth_set, Nat.eqb_refl, H. reflexivity. }
  destruct H1 as (t1 & H1).
  destruct (k_things _ _ (kf_addStandard (length (things w)) 0 _) _ _ H1) as (t2 & H2 & _).
  destruct (k_things _ _ (kf_update (length (things w)) _) _ _ H2) as (t3 & H3 & _). eauto.
Qed.

Lemma spared_thing o w w' x t : spares o w w' -> thing_at w x = Some t -> exists t', thing_at w' x = Some t'.
Proof.
  intros S T. destruct (thing_at w' x) as [t'|] eqn:E; [eauto|].
  unfold thing_at in *. apply nth_error_None in E. pose proof (z_count _ _ _ S).
  assert (x < length (things w))%nat by (apply nth_error_Some; congruence). lia.
Qed.

Lemma unknown w o : thing_at w o = None -> x_ObjNode w o = None.
Proof. intros H. unfold x_ObjNode. rewrite H. reflexivity. Qed.

Lemma thing_len w : thing_at w (length (things w)) = None.
Proof. unfold thing_at. apply nth_error_None. auto. Qed.

(** a step of the claim *)
Lemma step_ok c w : linked w -> careful w c ->
  linked (fst (does c w)) /\ Forall (told (fst (does c w))) (snd (does c w)).
Proof.
  intros Lk Ca. pose proof Lk as (M & L & P). destruct c; cbn [does careful] in *.
  - split; [|constructor]. eapply linked_kept; [apply kf_NewProperty|apply mf_NewProperty, M|exact Lk].
  - split; [|constructor]. unfold x_Rename, silent; cbn. destruct (cell_at w p) as [x|] eqn:C; [|exact Lk].
    unfold x_Object in Ca. rewrite C in Ca.
    split; [|split].
    + intros o t k q T I. destruct (M _ _ _ _ T I) as (y & Y & O & K).
      exists y. split; [|auto]. unfold cell_at, put_cell in *; cbn. rewrite nth_set.
      destruct (Nat.eqb p q) eqn:E; [|exact Y]. apply Nat.eqb_eq in E. subst q. congruence.
    + intros n s o S I. exact (L n s o S I).
    + intros o n N. exact (P o n N).
  - split; [|apply tf_SetData, P]. eapply linked_kept; [apply kf_SetData|apply mf_SetData, M|exact Lk].
  - unfold x_NewDevice. set (o := length (things w)). rewrite fst_andthen, snd_andthen.
    assert (Q : x_ObjNode w o = None) by apply unknown, thing_len.
    rewrite (hf_NewSuper o w M Q). cbn [List.app].
    assert (Q1 : x_ObjNode (fst (x_NewSuper o w)) o = None) by (rewrite (z_node _ _ _ (spares_NewSuper o w)); exact Q).
    rewrite (hf_SetCode o code _ (mf_NewSuper o w M) Q1). split; [|constructor].
    eapply linked_spared; [apply spares_SetCode|apply mf_SetCode, mf_NewSuper, M|].
    eapply linked_spared; [apply spares_NewSuper|apply mf_NewSuper, M|exact Lk].
  - split; [|apply tf_SetCode, P]. eapply linked_spared; [apply spares_SetCode|apply mf_SetCode, M|exact Lk].
  - unfold x_Super_AddProperty. rewrite fst_andthen, snd_andthen. cbn [x_AddProperty silent snd List.app].
    set (w1 := fst (x_AddProperty o p w)).
    assert (Lk1 : linked w1).
    { split; [apply maps_AddProperty; assumption|]. unfold w1. split.
      - intros n s x S I. rewrite node_AddProperty. unfold site_at in S. rewrite sites_AddProperty in S. exact (L n s x S I).
      - intros x n N. rewrite node_AddProperty in N. unfold site_at. rewrite sites_AddProperty. exact (P x n N). }
    match goal with |- context [x_updatePropertyMap o ?v] => change v with w1 end.
    destruct Lk1 as (M1 & L1 & P1). split; [|apply tf_update, P1].
    eapply linked_kept; [apply kf_update|apply mf_update, M1|split; auto].
  - split; [|apply tf_SetPropertyData, P]. eapply linked_kept; [apply kf_SetPropertyData|apply mf_SetPropertyData, M|exact Lk].
  - contradiction.
  - destruct local.
    + rewrite NewNode_local. set (o := length (things w)). set (n := length (sites w)).
      set (w1 := new_site true w).
      assert (Lk1 : linked w1) by (apply linked_new_site, Lk). destruct Lk1 as (M1 & L1 & P1).
      assert (E1 : fst (andthen (silent (new_site true)) (andthen (x_NewSuper o) (andthen (x_SetCode o NodeProfileObjectCode)
                 (andthen (x_SetCode o NodeProfileObjectCode) (x_AddProfile n o)))) w)
               = fst (x_AddProfile n o (fst (make_profile o w1)))).
      { rewrite !fst_andthen, fst_make_profile. reflexivity. }
      assert (E2 : snd (andthen (silent (new_site true)) (andthen (x_NewSuper o) (andthen (x_SetCode o NodeProfileObjectCode)
                 (andthen (x_SetCode o NodeProfileObjectCode) (x_AddProfile n o)))) w)
               = snd (make_profile o w1) ++ snd (x_AddProfile n o (fst (make_profile o w1)))).
      { unfold make_profile. rewrite !snd_andthen, !fst_andthen, <- !app_assoc. reflexivity. }
      rewrite E1, E2. clear E1 E2.
      assert (Q : x_ObjNode w1 o = None) by (apply unknown; exact (thing_len w)).
      rewrite (hf_make o w1 M1 Q). cbn [List.app].
      set (w2 := fst (make_profile o w1)).
      assert (Lk2 : linked w2) by (eapply linked_spared; [apply spares_make|apply mf_make, M1|split; auto]).
      assert (Q2 : x_ObjNode w2 o = None) by (unfold w2; rewrite (z_node _ _ _ (spares_make o w1)); exact Q).
      assert (T2 : exists t, thing_at w2 o = Some t).
      { unfold w2. rewrite fst_make_profile. destruct (made o w1 eq_refl) as (t & T).
        destruct (spared_thing _ _ _ _ _ (spares_SetCode o NodeProfileObjectCode _) T) as (t1 & T1).
        exact (spared_thing _ _ _ _ _ (spares_SetCode o NodeProfileObjectCode _) T1). }
      split.
      * apply linked_Add; auto.
      * apply told_Add; [reflexivity|]. apply Lk2.
    + unfold x_NewNode. rewrite fst_andthen, snd_andthen. split; [|constructor].
      exact (linked_new_site false w Lk).
  - destruct Ca as (T & Own). split; [apply linked_Add; auto|apply told_Add; auto].
  - unfold x_Node_SetManufacturer. destruct (site_at w n) as [s|] eqn:S; [|split; [exact Lk|constructor]].
    rewrite fst_andthen, snd_andthen. cbn [silent fst snd List.app].
    set (w1 := put_site w n _).
    assert (Lk1 : linked w1) by (eapply linked_put_site; [exact S|reflexivity|exact Lk]).
    destruct Lk1 as (M1 & L1 & P1). split.
    + eapply linked_kept; [apply kf_each; intros; apply kf_SetPropertyData| |split; auto].
      apply mf_each; [intros; apply mf_SetPropertyData|exact M1].
    + apply tf_each; [intros; apply kf_SetPropertyData|intros; apply tf_SetPropertyData|exact P1].
  - unfold x_Start. destruct (site_at w n) as [s|] eqn:S; [|split; [exact Lk|constructor]].
    destruct (s_local s) eqn:Loc; [|split; [exact Lk|constructor]].
    rewrite fst_andthen, snd_andthen. cbn [x_AnnounceNode fst snd].
    assert (Lk1 : linked (fst (x_run n true w))).
    { unfold x_run, silent; cbn. rewrite S. eapply linked_put_site; [exact S|reflexivity|exact Lk]. }
    split; [exact Lk1|]. cbn [x_run silent snd List.app].
    set (w1 := fst (x_run n true w)) in *.
    assert (S1 : site_at w1 n = Some (mkSite true true (s_devices s) (s_profiles s) (s_manufacturer s))).
    { unfold w1, x_run, silent; cbn. rewrite S, Loc. unfold site_at, put_site in *; cbn. rewrite nth_set, Nat.eqb_refl, S. reflexivity. }
    match goal with |- context [site_at ?v n] => change v with w1 end.
    rewrite S1. clearbody w1. destruct (x_NodeProfile w1 _) as [o|] eqn:NP; [|constructor].
    assert (I : In o (s_profiles s)).
    { assert (F : forall l k x, x_find w1 l k = Some x -> In x l).
      { intros l k x. induction l as [|y l IH]; cbn; [discriminate|]. destruct (thing_at w1 y) as [t|]; [|auto].
        destruct (t_code t =? k); [intros [= ->]; auto|auto]. }
      unfold x_NodeProfile in NP; cbn in NP. destruct (x_find w1 (s_profiles s) NodeProfileObjectCode) eqn:F1.
      - injection NP as ->. eapply F; eauto.
      - eapply F; eauto. }
    destruct (x_LookupProperty w1 o NodeProfileInstanceListNotification) as [p|] eqn:Lp; [|constructor].
    unfold x_AnnounceProperty.
    destruct (cell_at w1 p) as [y|] eqn:C; [|constructor].
    destruct (c_object y) as [o'|] eqn:O; [|constructor]. destruct (thing_at w1 o') as [t|] eqn:T; [|constructor].
    constructor; [|constructor].
    assert (o' = o) as ->.
    { unfold x_LookupProperty in Lp. destruct (thing_at w1 o) as [t0|] eqn:T0; [|discriminate Lp].
      assert (I0 : exists k, In (k, p) (t_props t0)).
      { revert Lp. generalize (t_props t0). intros m. induction m as [|[a b] m IH]; cbn; [discriminate|].
        destruct (a =? NodeProfileInstanceListNotification); [intros [= ->]; eauto|]. intros H. destruct (IH H); eauto. }
      destruct I0 as (k & I0). destruct (proj1 Lk1 _ _ _ _ T0 I0) as (y' & C' & O' & _). congruence. }
    eexists _, o, t. split; [exact S1|]. repeat split; auto. unfold members; cbn. apply in_app_iff. auto.
  - unfold x_Stop, x_run, silent; cbn. split; [|constructor]. destruct (site_at w n) as [s|] eqn:S; [|exact Lk].
    eapply linked_put_site; [exact S|reflexivity|exact Lk].
Qed.

Lemma run_ok cs : forall w, linked w -> careful_all w cs -> linked (fst (program cs w)).
Proof.
  induction cs as [|c cs IH]; intros w Lk; cbn [careful_all]; [intros _; exact Lk|].
  intros (C & R). unfold program. cbn [each]. rewrite fst_andthen. apply IH; [|exact R]. apply step_ok; assumption.
Qed.

Lemma look_In m k p : look m k = Some p -> In (k, p) m.
Proof.
  induction m as [|[a b] m IH]; cbn; [discriminate|].
  destruct (a =? k) eqn:E; [|auto]. apply Z.eqb_eq in E. intros [= ->]. left. congruence.
Qed.

(** a write to a property that the map of an object shows, in a state with good links *)
Lemma write_ok w n o s t p k c d :
  linked w -> site_at w n = Some s -> In o (s_devices s ++ s_profiles s) -> thing_at w o = Some t ->
  x_LookupProperty w o k = Some p -> cell_at w p = Some c ->
  snd (x_SetData p d w) =
    (if IsAnnounceable (c_prop c) && s_local s && s_running s then [mkShout n (t_code t) (mkPProp k d)] else []) /\
  value_of (fst (x_SetData p d w)) o k = Some d.
Proof.
  intros (M & L & P) S I T Lp C. unfold x_LookupProperty in Lp. rewrite T in Lp.
  destruct (M _ _ _ _ T (look_In _ _ _ Lp)) as (c' & C' & O & K). rewrite C in C'. injection C' as <-.
  pose proof (L _ _ _ S I) as N.
  set (w1 := put_cell w p (mkCell (with_data (c_prop c) d) (c_object c))).
  assert (C1 : cell_at w1 p = Some (mkCell (with_data (c_prop c) d) (c_object c))).
  { unfold w1, cell_at, put_cell in *; cbn. rewrite nth_set, Nat.eqb_refl, C. reflexivity. }
  assert (T1 : thing_at w1 o = Some t) by exact T.
  assert (N1 : x_ObjNode w1 o = Some n) by exact N.
  assert (S1 : site_at w1 n = Some s) by exact S.
  unfold x_SetData. rewrite C. cbn [fst snd]. fold w1. split.
  - unfold x_Announce, x_Node, x_Object, x_AnnounceProperty. rewrite C1. cbn [c_object c_prop]. rewrite O, N1, S1, T1.
    rewrite <- andb_assoc. destruct (IsAnnounceable (c_prop c)); [|reflexivity]. cbn [andb].
    destruct (s_local s && s_running s); [|reflexivity].
    unfold ToProtocol, with_data; cbn. rewrite K. reflexivity.
  - unfold value_of, x_LookupProperty. rewrite T1, Lp, C1. reflexivity.
Qed.

(** ** Theorems *)

(** Every announcement a careful program causes is made by a running local node, in
    the name of a device or profile that this node lists. *)
Theorem C94_said_by_holder :
  forall (cs : list call) (c : call) (h : shout),
  careful_all nothing (cs ++ [c]) ->
  In h (snd (does c (after cs))) ->
  exists s o t,
    site_at (after (cs ++ [c])) (sh_node h) = Some s /\ s_local s = true /\ s_running s = true /\
    In o (s_devices s ++ s_profiles s) /\
    thing_at (after (cs ++ [c])) o = Some t /\ t_code t = sh_from h.
Proof.
  intros cs c h Ca I.
  assert (Split : forall l w, careful_all w (l ++ [c]) -> careful_all w l /\ careful (fst (program l w)) c).
  { induction l as [|x l IH]; intros w; cbn [List.app careful_all].
    - intros (H & _). split; [exact Logic.I|exact H].
    - intros (H & R). destruct (IH _ R) as (A & B). unfold program. cbn [each]. rewrite fst_andthen. auto. }
  assert (Last : forall l w, fst (program (l ++ [c]) w) = fst (does c (fst (program l w)))).
  { induction l as [|x l IH]; intros w; unfold program; cbn [List.app each]; rewrite !fst_andthen; [reflexivity|].
    apply IH. }
  destruct (Split _ _ Ca) as (A & B).
  destruct (step_ok c (after cs) (run_ok cs _ linked_nothing A) B) as (_ & F).
  rewrite Forall_forall in F. destruct (F h I) as (s & o & t & H). unfold after. rewrite Last.
  exists s, o, t. exact H.
Qed.

(** After a careful program, writing a property of an object that a node lists is
    announced exactly by that node, with the code of that object and the value
    written, if the node is a running local one and the property is announceable,
    and not at all otherwise; and the object answers with that value.  The same
    holds for a write through the property itself. *)
Theorem C94_write :
  forall (cs : list call) (n o : nat) (s : site) (t : thing) (k : Z) (p : nat) (c : cell) (d : list Z),
  careful_all nothing cs ->
  site_at (after cs) n = Some s -> In o (s_devices s ++ s_profiles s) ->
  thing_at (after cs) o = Some t ->
  x_LookupProperty (after cs) o k = Some p -> cell_at (after cs) p = Some c ->
  forall a, a = SetPropertyDataOf o k d \/ a = SetDataOf p d ->
  snd (does a (after cs)) =
    (if IsAnnounceable (c_prop c) && s_local s && s_running s then [mkShout n (t_code t) (mkPProp k d)] else []) /\
  value_of (fst (does a (after cs))) o k = Some d.
Proof.
  intros cs n o s t k p c d Ca S I T Lp C a A.
  assert (E : does a (after cs) = x_SetData p d (after cs)).
  { destruct A as [-> | ->]; [|reflexivity]. cbn [does]. unfold x_SetPropertyData. rewrite Lp. reflexivity. }
  rewrite E. apply (write_ok (after cs) n o s t p k c d); auto. apply run_ok; [apply linked_nothing|exact Ca].
Qed.

(** The devices of a node found in the network and the objects of no node are never
    announced. *)
Theorem C94_silent :
  forall (cs : list call) (o : nat) (k : Z) (d : list Z),
  careful_all nothing cs ->
  (forall n s, site_at (after cs) n = Some s -> In o (s_devices s ++ s_profiles s) -> s_local s = false) ->
  snd (does (SetPropertyDataOf o k d) (after cs)) = [].
Proof.
  intros cs o k d Ca H. pose proof (run_ok cs _ linked_nothing Ca) as Lk. fold (after cs) in Lk.
  destruct (x_ObjNode (after cs) o) as [n|] eqn:N.
  - destruct Lk as (M & L & P). destruct (P _ _ N) as (s & S & I).
    cbn [does]. unfold x_SetPropertyData. destruct (x_LookupProperty (after cs) o k) as [p|] eqn:Lp; [|reflexivity].
    pose proof Lp as Lp0. unfold x_LookupProperty in Lp. destruct (thing_at (after cs) o) as [t|] eqn:T; [|discriminate Lp].
    destruct (M _ _ _ _ T (look_In _ _ _ Lp)) as (c & C & _).
    destruct (write_ok (after cs) n o s t p k c d) as (E & _); auto.
    { repeat split; auto. }
    rewrite E, (H n s S I), andb_false_r. reflexivity.
  - apply quiet_SetPropertyData; [apply Lk|exact N].
Qed.

(** For every program, careful or not: a write to a property is announced at most
    once, by the node of the object of the property, with the code of that object. *)
Theorem C94_announcer :
  forall (w : state) (p : nat) (d : list Z) (h : shout),
  In h (snd (does (SetDataOf p d) w)) ->
  snd (does (SetDataOf p d) w) = [h] /\
  exists c o t s,
    cell_at w p = Some c /\ x_Object w p = Some o /\ thing_at w o = Some t /\
    t_node t = Some (sh_node h) /\ site_at w (sh_node h) = Some s /\ s_local s = true /\ s_running s = true /\
    sh_from h = t_code t /\ sh_what h = mkPProp (p_code (c_prop c)) d.
Proof.
  intros w p d h. cbn [does]. unfold x_SetData. destruct (cell_at w p) as [c|] eqn:C; [|intros []].
  cbn [snd]. destruct (IsAnnounceable (c_prop c)); [|intros []].
  set (w1 := put_cell w p (mkCell (with_data (c_prop c) d) (c_object c))).
  assert (C1 : cell_at w1 p = Some (mkCell (with_data (c_prop c) d) (c_object c))).
  { unfold w1, cell_at, put_cell in *; cbn. rewrite nth_set, Nat.eqb_refl, C. reflexivity. }
  unfold x_Announce, x_Node, x_Object, x_AnnounceProperty. rewrite C1. cbn [c_object c_prop].
  destruct (c_object c) as [o|] eqn:O; [|intros []].
  assert (NN : x_ObjNode w1 o = x_ObjNode w o) by reflexivity. rewrite NN. unfold x_ObjNode.
  assert (TT : thing_at w1 o = thing_at w o) by reflexivity. rewrite TT.
  destruct (thing_at w o) as [t|] eqn:T; [|intros []].
  destruct (t_node t) as [n|] eqn:N; [|intros []].
  assert (SS : site_at w1 n = site_at w n) by reflexivity. rewrite SS.
  destruct (site_at w n) as [s|] eqn:S; [|intros []].
  destruct (s_local s) eqn:Lo; [|intros []]. destruct (s_running s) eqn:R; [|intros []]. cbn.
  intros [<-|[]]. split; [reflexivity|]. exists c, o, t, s. rewrite C. cbn. auto 12.
Qed.

(** For every program: the object of a property changes only by adding the property
    to an object, and is then that object. *)
Theorem C94_object_changes :
  forall (w : state) (c : call) (p : nat) (x : cell),
  cell_at w p = Some x ->
  x_Object (fst (does c w)) p = x_Object w p \/
  exists o, c = AddPropertyTo o p /\ x_Object (fst (does c w)) p = Some o.
Proof.
  intros w c p x C.
  assert (KK : forall w', keeps w w' -> x_Object w' p = x_Object w p).
  { intros w' K. unfold x_Object. rewrite C. destruct (k_cells _ _ K _ _ C) as (c' & -> & E & _). exact E. }
  assert (ZZ : forall o w', spares o w w' -> x_Object w' p = x_Object w p).
  { intros o w' K. unfold x_Object. rewrite C. destruct (z_cells _ _ _ K _ _ C) as (c' & -> & E & _). exact E. }
  assert (AA : forall n ds ps o v y, cell_at v p = Some y -> c_object y = c_object x -> x_Object (fst (x_Add n ds ps o v)) p = c_object x).
  { intros n ds ps o v y Y E. destruct (site_at v n) as [s|] eqn:S.
    - destruct (Add_steps n ds ps o v s S) as (w2 & K1 & _ & K2 & _).
      assert (Y1 : cell_at (fst (x_append n ds ps v)) p = Some y).
      { unfold cell_at in *. destruct (rest_append n ds ps v) as (-> & _). exact Y. }
      destruct (k_cells _ _ K1 _ _ Y1) as (y2 & Y2 & E2 & _).
      assert (Y3 : cell_at (fst (x_SetParentNode o (Some n) w2)) p = Some y2).
      { unfold cell_at in *. destruct (rest_SetParent o (Some n) w2) as (-> & _). exact Y2. }
      destruct (k_cells _ _ K2 _ _ Y3) as (y4 & Y4 & E4 & _). unfold x_Object. rewrite Y4. congruence.
    - unfold x_Add. rewrite S. cbn. unfold x_Object. rewrite Y. exact E. }
  assert (E0 : x_Object w p = c_object x) by (unfold x_Object; rewrite C; reflexivity).
  destruct c; cbn [does].
  - left. apply KK, kf_NewProperty.
  - left. unfold x_Rename, silent; cbn. destruct (cell_at w p0) as [y|] eqn:Y; [|reflexivity].
    unfold x_Object, cell_at, put_cell in *; cbn. rewrite nth_set. destruct (Nat.eqb p0 p) eqn:E; [|reflexivity].
    apply Nat.eqb_eq in E. subst p0. rewrite Y. reflexivity.
  - left. apply KK, kf_SetData.
  - left. unfold x_NewDevice. rewrite fst_andthen. eapply ZZ, spares_trans; [apply spares_NewSuper|apply spares_SetCode].
  - left. eapply ZZ, spares_SetCode.
  - unfold x_Super_AddProperty. rewrite fst_andthen.
    destruct (thing_at w o) as [t|] eqn:T.
    + pose proof (cell_AddProperty o p0 w t T p) as H. rewrite C in H.
      destruct (k_cells _ _ (kf_update o (fst (x_AddProperty o p0 w))) _ _ H) as (c' & C' & E & _).
      destruct (Nat.eqb p0 p) eqn:Q.
      * apply Nat.eqb_eq in Q. subst p0. right. exists o. split; [reflexivity|]. unfold x_Object. rewrite C'. exact E.
      * left. unfold x_Object. rewrite C', C. exact E.
    + left. assert (E : fst (x_AddProperty o p0 w) = w) by (unfold x_AddProperty, silent; cbn; rewrite T; reflexivity).
      rewrite E. apply KK, kf_update.
  - left. apply KK, kf_SetPropertyData.
  - left. unfold x_Object, cell_at. destruct (rest_SetParent o n w) as (-> & _). reflexivity.
  - left. rewrite E0. destruct local.
    + rewrite NewNode_local. rewrite !fst_andthen. cbn [silent fst].
      set (o := length (things w)). set (n := length (sites w)).
      assert (K : spares o (new_site true w) (fst (make_profile o (new_site true w)))) by apply spares_make.
      rewrite fst_make_profile in K.
      assert (C1 : cell_at (new_site true w) p = Some x) by exact C.
      destruct (z_cells _ _ _ K _ _ C1) as (y & Y & E & _).
      exact (AA _ _ _ _ _ _ Y E).
    + unfold x_NewNode. rewrite fst_andthen. exact E0.
  - left. rewrite E0. exact (AA _ _ _ _ _ _ C eq_refl).
  - left. unfold x_Node_SetManufacturer. destruct (site_at w n) as [s|] eqn:S; [|reflexivity].
    rewrite fst_andthen. cbn [silent fst]. set (w1 := put_site w n _).
    assert (C1 : cell_at w1 p = Some x) by exact C.
    assert (K : keeps w1 (fst (each (s_devices s ++ s_profiles s) (fun o => x_SetManufacturer o code) w1))).
    { apply kf_each. intros. apply kf_SetPropertyData. }
    destruct (k_cells _ _ K _ _ C1) as (y & Y & E & _). unfold x_Object. rewrite Y, C. exact E.
  - left. unfold x_Start. destruct (site_at w n) as [s|] eqn:S; [|reflexivity]. destruct (s_local s); [|reflexivity].
    rewrite fst_andthen. cbn [x_AnnounceNode fst]. unfold x_run, silent; cbn. rewrite S. reflexivity.
  - left. unfold x_Stop, x_run, silent; cbn. destruct (site_at w n); reflexivity.
Qed.

(** For every program: the node of an object changes only by adding it to a node or
    by SetParentNode, and is then the one named there. *)
Theorem C94_node_changes :
  forall (w : state) (c : call) (o : nat) (t : thing),
  thing_at w o = Some t ->
  x_ObjNode (fst (does c w)) o = x_ObjNode w o \/
  (exists n, c = AddDeviceTo n o /\ x_ObjNode (fst (does c w)) o = Some n) \/
  (exists n, c = SetParent o n /\ x_ObjNode (fst (does c w)) o = n).
Proof.
  intros w c o t T. destruct c; cbn [does].
  - left. apply nf_kf, kf_NewProperty.
  - left. unfold x_Rename, silent; cbn. destruct (cell_at w p); reflexivity.
  - left. apply nf_kf, kf_SetData.
  - left. unfold x_NewDevice. rewrite fst_andthen, (z_node _ _ _ (spares_SetCode _ _ _)). apply (z_node _ _ _ (spares_NewSuper _ _)).
  - left. apply (z_node _ _ _ (spares_SetCode _ _ _)).
  - left. unfold x_Super_AddProperty. rewrite fst_andthen, (node_kept _ _ o (kf_update _ _)). apply node_AddProperty.
  - left. apply nf_kf, kf_SetPropertyData.
  - rewrite node_SetParent. destruct (Nat.eqb o0 o) eqn:E; [|auto].
    apply Nat.eqb_eq in E. subst o0. rewrite T. right. right. eauto.
  - left. destruct local.
    + rewrite NewNode_local. rewrite !fst_andthen. cbn [silent fst].
      set (x := length (things w)). set (n := length (sites w)).
      rewrite <- (fst_make_profile x (new_site true w)).
      assert (K : spares x (new_site true w) (fst (make_profile x (new_site true w)))) by apply spares_make.
      assert (Tx : exists t, thing_at (fst (make_profile x (new_site true w))) x = Some t).
      { rewrite fst_make_profile. destruct (made x (new_site true w) eq_refl) as (t1 & T1).
        destruct (spared_thing _ _ _ _ _ (spares_SetCode x NodeProfileObjectCode _) T1) as (t2 & T2).
        exact (spared_thing _ _ _ _ _ (spares_SetCode x NodeProfileObjectCode _) T2). }
      assert (Sx : site_at (fst (make_profile x (new_site true w))) n = Some (mkSite true false [] [] NodeManufacturerExperimental)).
      { unfold site_at. rewrite (z_sites _ _ _ K). apply nth_app_new. }
      unfold x_AddProfile. rewrite (node_Add _ _ _ _ _ _ _ Sx Tx).
      destruct (Nat.eqb x o) eqn:E.
      * apply Nat.eqb_eq in E. subst o. unfold x in T. rewrite thing_len in T. discriminate T.
      * rewrite (z_node _ _ _ K). reflexivity.
    + unfold x_NewNode. rewrite fst_andthen. reflexivity.
  - unfold x_AddDevice. destruct (site_at w n) as [s|] eqn:S.
    + destruct (thing_at w o0) as [t0|] eqn:T0.
      * rewrite (node_Add n [o0] [] o0 w s o S (ex_intro _ t0 T0)).
        destruct (Nat.eqb o0 o) eqn:E; [|auto]. apply Nat.eqb_eq in E. subst o0. right. left. eauto.
      * left. destruct (Add_steps n [o0] [] o0 w s S) as (w2 & K1 & _ & K2 & _).
        rewrite (node_kept _ _ o K2), node_SetParent, (node_kept _ _ o K1), node_append.
        destruct (Nat.eqb o0 o) eqn:E; [|reflexivity]. apply Nat.eqb_eq in E. congruence.
    + left. unfold x_Add. rewrite S. reflexivity.
  - left. unfold x_Node_SetManufacturer. destruct (site_at w n) as [s|] eqn:S; [|reflexivity].
    rewrite fst_andthen. cbn [silent fst]. set (w1 := put_site w n _).
    assert (K : keeps w1 (fst (each (s_devices s ++ s_profiles s) (fun o => x_SetManufacturer o code) w1))).
    { apply kf_each. intros. apply kf_SetPropertyData. }
    rewrite (node_kept _ _ o K). reflexivity.
  - left. unfold x_Start. destruct (site_at w n) as [s|] eqn:S; [|reflexivity]. destruct (s_local s); [|reflexivity].
    rewrite fst_andthen. cbn [x_AnnounceNode fst]. unfold x_run, silent; cbn. rewrite S. reflexivity.
  - left. unfold x_Stop, x_run, silent; cbn. destruct (site_at w n); reflexivity.
Qed.

(** ** What fails for programs that are not careful, and for a property that was
    replaced *)

(** A node, started, with one lamp (a general lighting device). *)
Definition lamp : list call := [NewNodeOf true; NewDeviceOf 0x029101; StartNode 0; AddDeviceTo 0 1].

Definition pointer (w : state) (o : nat) (k : Z) : nat :=
  match x_LookupProperty w o k with Some p => p | None => O end.

(** The lamp is also added to a second node: the first still lists it and stays
    silent, the second speaks for it. *)
Definition shared_lamp : list call := lamp ++ [NewNodeOf true; StartNode 1; AddDeviceTo 1 1].

Theorem C94_two_nodes_refuted :
  ~ (forall (cs : list call) (n o : nat) (s : site) (t : thing) (k : Z) (p : nat) (c : cell) (d : list Z),
     site_at (after cs) n = Some s -> In o (s_devices s ++ s_profiles s) ->
     s_local s = true -> s_running s = true ->
     thing_at (after cs) o = Some t -> x_LookupProperty (after cs) o k = Some p -> cell_at (after cs) p = Some c ->
     IsAnnounceable (c_prop c) = true ->
     exists h, In h (snd (does (SetPropertyDataOf o k d) (after cs))) /\ sh_node h = n).
Proof.
  intros H. specialize (H shared_lamp 0%nat 1%nat).
  remember (after shared_lamp) as w eqn:W. vm_compute in W. subst w.
  specialize (H _ _ 0x80 _ _ [0x30] eq_refl (or_introl eq_refl) eq_refl eq_refl eq_refl eq_refl eq_refl eq_refl).
  destruct H as (h & I & N). vm_compute in I. destruct I as [<-|[]]. discriminate N.
Qed.

(** A property taken from the lamp before its code is set again is announced as if it
    were the lamp's, but the lamp answers with another value. *)
Theorem C94_replaced_refuted :
  ~ (forall (cs1 cs2 : list call) (o : nat) (k : Z) (p : nat) (d : list Z),
     careful_all nothing (cs1 ++ cs2) ->
     x_LookupProperty (after cs1) o k = Some p ->
     snd (does (SetDataOf p d) (after (cs1 ++ cs2))) <> [] ->
     value_of (fst (does (SetDataOf p d) (after (cs1 ++ cs2)))) o k = Some d).
Proof.
  intros H. specialize (H lamp [SetObjectCode 1 0x029102] 1%nat 0x80 (pointer (after lamp) 1 0x80) [0x30]).
  assert (A : careful_all nothing (lamp ++ [SetObjectCode 1 0x029102])).
  { cbn [lamp List.app careful_all careful]. repeat split.
    - remember (thing_at _ _) as x eqn:E. vm_compute in E. subst x. eexists. reflexivity.
    - left. vm_compute. reflexivity. }
  specialize (H A). clear A.
  assert (B : x_LookupProperty (after lamp) 1 0x80 = Some (pointer (after lamp) 1 0x80)) by (vm_compute; reflexivity).
  specialize (H B). clear B.
  remember (does _ _) as r eqn:R in H. vm_compute in R. subst r.
  assert (N : snd (does (SetDataOf (pointer (after lamp) 1 0x80) [0x30]) (after (lamp ++ [SetObjectCode 1 0x029102]))) <> []).
  { remember (snd _) as r eqn:R. vm_compute in R. subst r. discriminate. }
  specialize (H ltac:(first [exact N | vm_compute; discriminate])). vm_compute in H. discriminate H.
Qed.

(** A property whose code is changed after it was added is announced under a code
    the object does not answer to. *)
Theorem C94_renamed_refuted :
  ~ (forall (cs : list call) (o : nat) (k : Z) (p : nat) (d : list Z) (h : shout),
     x_LookupProperty (after cs) o k = Some p ->
     In h (snd (does (SetDataOf p d) (after cs))) ->
     exists q, x_LookupProperty (after cs) o (pp_code (sh_what h)) = Some q).
Proof.
  intros H.
  specialize (H (lamp ++ [SetPropertyCode (pointer (after lamp) 1 0x80) 0xF5]) 1%nat 0x80 (pointer (after lamp) 1 0x80) [0x30]
                (mkShout 0 0x029101 (mkPProp 0xF5 [0x30]))).
  assert (B : x_LookupProperty (after (lamp ++ [SetPropertyCode (pointer (after lamp) 1 0x80) 0xF5])) 1 0x80 = Some (pointer (after lamp) 1 0x80))
    by (vm_compute; reflexivity).
  specialize (H B). clear B.
  assert (I : In (mkShout 0 0x029101 (mkPProp 0xF5 [0x30]))
    (snd (does (SetDataOf (pointer (after lamp) 1 0x80) [0x30]) (after (lamp ++ [SetPropertyCode (pointer (after lamp) 1 0x80) 0xF5]))))).
  { remember (snd _) as r eqn:R. vm_compute in R. subst r. left. reflexivity. }
  destruct (H I) as (q & Q).
  remember (x_LookupProperty _ _ _) as r eqn:R in Q. vm_compute in R. subst r. discriminate Q.
Qed.

(** ** A case *)

(** Switching the lamp on is told by its node in the name of the lamp; a second lamp
    of no node and a lamp of a node found in the network are changed in silence. *)
Example C94_example :
  careful_all nothing (lamp ++ [NewDeviceOf 0x029102; NewNodeOf false; NewDeviceOf 0x029103; AddDeviceTo 1 3]) /\
  let w := after (lamp ++ [NewDeviceOf 0x029102; NewNodeOf false; NewDeviceOf 0x029103; AddDeviceTo 1 3]) in
  snd (does (SetPropertyDataOf 1 0x80 [0x30]) w) = [mkShout 0 0x029101 (mkPProp 0x80 [0x30])] /\
  snd (does (SetPropertyDataOf 2 0x80 [0x30]) w) = [] /\
  snd (does (SetPropertyDataOf 3 0x80 [0x30]) w) = [] /\
  value_of (fst (does (SetPropertyDataOf 3 0x80 [0x30]) w)) 3 0x80 = Some [0x30].
Proof.
  split.
  - cbn [lamp List.app careful_all careful]. repeat split.
    1, 3: remember (thing_at _ _) as x eqn:E; vm_compute in E; subst x; eexists; reflexivity.
    all: left; vm_compute; reflexivity.
  - vm_compute. auto.
Qed.

Print Assumptions C94_said_by_holder.
Print Assumptions C94_write.
Print Assumptions C94_silent.
Print Assumptions C94_announcer.
Print Assumptions C94_object_changes.
Print Assumptions C94_node_changes.
Print Assumptions C94_two_nodes_refuted.
Print Assumptions C94_replaced_refuted.
Print Assumptions C94_renamed_refuted.
