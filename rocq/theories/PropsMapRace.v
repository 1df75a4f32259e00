(** C95: no concurrent access to a map stops the program. *)

From Verif Require Import Go MapRace.

(** The object to whose map a call adds. *)
Definition builds (j : job) : option nat :=
  match j with
  | JAddProperty o _ | JSetCode o _ | JNew o _ _ _ _ | JCopy _ o _ => Some o
  | _ => None
  end.

(** The object a call hands to others. *)
Definition hands_over (j : job) (m : nat) : Prop :=
  match j with
  | JShare o | JAddDevice o _ _ => o = m
  | _ => False
  end.

Definition map_of (a : access) : nat :=
  match a with Rd m | WrBegin m | WrEnd m | Share m => m end.

(** ** Lemmas: the shape of the accesses *)

(** every write is finished before the next access *)
Inductive tidy : list access -> Prop :=
| tidy_nil : tidy []
| tidy_rd m l : tidy l -> tidy (Rd m :: l)
| tidy_share m l : tidy l -> tidy (Share m :: l)
| tidy_wr m l : tidy l -> tidy (WrBegin m :: WrEnd m :: l).

Lemma tidy_app l1 l2 : tidy l1 -> tidy l2 -> tidy (l1 ++ l2).
Proof. intros H1 H2. induction H1; cbn; [exact H2|constructor; assumption..]. Qed.

Lemma tidy_flat {A} (f : A -> list access) l : (forall x, tidy (f x)) -> tidy (flat_map f l).
Proof. intros H. induction l; cbn; [constructor|apply tidy_app; auto]. Qed.

Lemma tidy_reads o k : tidy (repeat (Rd o) k).
Proof. induction k; cbn; constructor; assumption. Qed.

Lemma tidy_map_rd l : tidy (map Rd l).
Proof. induction l; cbn; constructor; assumption. Qed.

Lemma tidy_Properties o k : tidy (a_Properties o k).
Proof. apply tidy_app; apply tidy_reads. Qed.

Lemma tidy_look o : tidy (a_LookupProperty o).
Proof. repeat constructor. Qed.

Lemma tidy_setMap o b : tidy (a_setPropertyMap o b).
Proof. destruct b; repeat constructor. Qed.

Lemma tidy_update o u : tidy (a_updatePropertyMap o u).
Proof. unfold a_updatePropertyMap. apply tidy_app; [apply tidy_Properties|]. apply tidy_app; [apply tidy_setMap|]. apply tidy_app; apply tidy_setMap. Qed.

Lemma tidy_SuperAdd o u : tidy (a_Super_AddProperty o u).
Proof. apply tidy_app; [repeat constructor|apply tidy_update]. Qed.

Lemma tidy_standard o d : tidy (a_addStandard o d).
Proof.
  constructor. destruct (d_found d) as [[s us]|]; [|constructor].
  apply tidy_app; [apply tidy_Properties|apply tidy_flat; intros; apply tidy_SuperAdd].
Qed.

Lemma tidy_accesses j : tidy (accesses j).
Proof.
  destruct j; cbn [accesses].
  - apply tidy_look.
  - apply tidy_Properties.
  - apply tidy_SuperAdd.
  - apply tidy_standard.
  - unfold a_New, a_NewSuper. apply tidy_app; [apply tidy_app; [apply tidy_standard|apply tidy_update]|].
    apply tidy_app; [apply tidy_map_rd|apply tidy_flat; intros; apply tidy_standard].
  - apply tidy_app; [apply tidy_Properties|apply tidy_flat; intros; repeat constructor].
  - repeat constructor.
  - constructor. destruct prof; [|constructor]. apply tidy_app; [apply tidy_look|apply tidy_flat; intros; apply tidy_look].
  - apply tidy_flat. intros. apply tidy_look.
  - apply tidy_look.
  - apply tidy_flat. intros. apply tidy_look.
  - apply tidy_flat. intros. apply tidy_look.
Qed.

Lemma no_write_reads m o k : ~ In (WrBegin m) (repeat (Rd o) k).
Proof. intros H. apply repeat_spec in H. discriminate H. Qed.

Lemma no_write_update m o u : ~ In (WrBegin m) (a_updatePropertyMap o u).
Proof.
  unfold a_updatePropertyMap, a_Properties, a_setPropertyMap, a_LookupProperty. intros H.
  rewrite !in_app_iff in H.
  destruct H as [[H|H]|H]; [exact (no_write_reads _ _ _ H)..|].
  destruct (u_get u), (u_set u), (u_anno u); cbn in H; repeat (destruct H as [H|H]); congruence || tauto.
Qed.

Lemma write_SuperAdd m o u : In (WrBegin m) (a_Super_AddProperty o u) -> m = o.
Proof.
  unfold a_Super_AddProperty, a_AddProperty. intros H. rewrite in_app_iff in H. destruct H as [H|H].
  - cbn in H. destruct H as [H|[H|[]]]; congruence.
  - destruct (no_write_update _ _ _ H).
Qed.

Lemma write_standard m o d : In (WrBegin m) (a_addStandard o d) -> m = o.
Proof.
  unfold a_addStandard. intros [H|H]; [discriminate H|]. destruct (d_found d) as [[s us]|]; [|destruct H].
  rewrite in_app_iff in H. destruct H as [H|H].
  - unfold a_Properties in H. rewrite in_app_iff in H. destruct H as [H|H]; destruct (no_write_reads _ _ _ H).
  - rewrite in_flat_map in H. destruct H as (u & _ & H). exact (write_SuperAdd _ _ _ H).
Qed.

Lemma no_write_looks {A} m o (l : list A) : ~ In (WrBegin m) (flat_map (fun _ => a_LookupProperty o) l).
Proof. rewrite in_flat_map. intros (x & _ & [H|[]]). discriminate H. Qed.

(** only the building calls write, and only to the object they build *)
Lemma write_builds m j : In (WrBegin m) (accesses j) -> builds j = Some m.
Proof.
  destruct j; cbn [accesses builds].
  - intros [H|[]]; discriminate H.
  - unfold a_Properties. rewrite in_app_iff. intros [H|H]; destruct (no_write_reads _ _ _ H).
  - intros H. rewrite (write_SuperAdd _ _ _ H). reflexivity.
  - intros H. rewrite (write_standard _ _ _ H). reflexivity.
  - unfold a_New, a_NewSuper. rewrite !in_app_iff, in_map_iff, in_flat_map.
    intros [[H|H]|[(x & H & _)|(x & _ & H)]].
    + rewrite (write_standard _ _ _ H). reflexivity.
    + destruct (no_write_update _ _ _ H).
    + discriminate H.
    + rewrite (write_standard _ _ _ H). reflexivity.
  - unfold a_Copy. rewrite in_app_iff, in_flat_map. intros [H|(x & _ & H)].
    + unfold a_Properties in H. rewrite in_app_iff in H. destruct H as [H|H]; destruct (no_write_reads _ _ _ H).
    + cbn in H. destruct H as [H|[H|[]]]; congruence.
  - intros [H|[]]; discriminate H.
  - unfold a_AddDevice. intros [H|H]; [discriminate H|]. destruct prof; [|destruct H].
    rewrite in_app_iff in H. destruct H as [[H|[]]|H]; [discriminate H|destruct (no_write_looks _ _ _ H)].
  - unfold a_SetManufacturer. rewrite in_flat_map. intros (x & _ & [H|[]]). discriminate H.
  - intros [H|[]]; discriminate H.
  - intros H. destruct (no_write_looks _ _ _ H).
  - intros H. destruct (no_write_looks _ _ _ H).
Qed.

Lemma share_hands m j : In (Share m) (accesses j) -> hands_over j m.
Proof.
  assert (R : forall o k, ~ In (Share m) (repeat (Rd o) k)).
  { intros o k H. apply repeat_spec in H. discriminate H. }
  assert (P : forall o k, ~ In (Share m) (a_Properties o k)).
  { intros o k. unfold a_Properties. rewrite in_app_iff. intros [H|H]; exact (R _ _ H). }
  assert (U : forall o u, ~ In (Share m) (a_updatePropertyMap o u)).
  { intros o u. unfold a_updatePropertyMap, a_setPropertyMap, a_LookupProperty. rewrite !in_app_iff.
    intros [H|H]; [exact (P _ _ H)|].
    destruct (u_get u), (u_set u), (u_anno u); cbn in H; repeat (destruct H as [H|H]); congruence || tauto. }
  assert (S : forall o u, ~ In (Share m) (a_Super_AddProperty o u)).
  { intros o u. unfold a_Super_AddProperty, a_AddProperty. rewrite in_app_iff. intros [H|H]; [|exact (U _ _ H)].
    cbn in H. destruct H as [H|[H|[]]]; discriminate H. }
  assert (D : forall o d, ~ In (Share m) (a_addStandard o d)).
  { intros o d. unfold a_addStandard. intros [H|H]; [discriminate H|]. destruct (d_found d) as [[s us]|]; [|exact H].
    rewrite in_app_iff, in_flat_map in H. destruct H as [H|(u & _ & H)]; [exact (P _ _ H)|exact (S _ _ H)]. }
  assert (L : forall A o (l : list A), ~ In (Share m) (flat_map (fun _ => a_LookupProperty o) l)).
  { intros A o l. rewrite in_flat_map. intros (x & _ & [H|[]]). discriminate H. }
  destruct j; cbn [accesses hands_over].
  - intros [H|[]]; discriminate H.
  - apply P.
  - apply S.
  - apply D.
  - unfold a_New, a_NewSuper. rewrite !in_app_iff, in_map_iff, in_flat_map.
    intros [[H|H]|[(x & H & _)|(x & _ & H)]]; [exact (D _ _ H)|exact (U _ _ H)|discriminate H|exact (D _ _ H)].
  - unfold a_Copy. rewrite in_app_iff, in_flat_map. intros [H|(x & _ & H)]; [exact (P _ _ H)|].
    cbn in H. destruct H as [H|[H|[]]]; discriminate H.
  - intros [H|[]]. congruence.
  - unfold a_AddDevice. intros [H|H]; [congruence|]. destruct prof; [|destruct H].
    rewrite in_app_iff in H. destruct H as [[H|[]]|H]; [discriminate H|destruct (L _ _ _ H)].
  - unfold a_SetManufacturer. rewrite in_flat_map. intros (x & _ & [H|[]]). discriminate H.
  - intros [H|[]]; discriminate H.
  - apply L.
  - apply L.
Qed.

(** ** Lemmas: the runtime *)

Lemma mem_spec m l : mem m l = true <-> In m l.
Proof.
  unfold mem. rewrite existsb_exists. split.
  - intros (x & I & E). apply Nat.eqb_eq in E. subst. exact I.
  - intros I. exists m. split; [exact I|apply Nat.eqb_refl].
Qed.

Lemma nth_set {A} (l : list A) i j v :
  nth_error (set_nth l i v) j = if Nat.eqb i j then match nth_error l i with Some _ => Some v | None => None end
                                else nth_error l j.
Proof.
  revert i j; induction l as [|a l IH]; intros i j; cbn.
  - destruct (Nat.eqb i j); destruct i, j; reflexivity.
  - destruct i as [|i], j as [|j]; cbn; try reflexivity. apply IH.
Qed.

(** what is left of a goroutine: tidy, perhaps in the middle of a write *)
Definition left_ok (l : list access) : Prop := tidy l \/ exists m r, l = WrEnd m :: r /\ tidy r.

Definition writes_ok (own : nat -> nat) (sh : list nat) (i : nat) (l : list access) : Prop :=
  forall a m b, l = a ++ WrBegin m :: b -> own m = i /\ ~ In m sh /\ ~ In (Share m) a.

Definition inv (own : nat -> nat) (r : runtime) : Prop :=
  (forall i l, nth_error (threads r) i = Some l -> left_ok l /\ writes_ok own (shared r) i l) /\
  (forall m, In m (writing r) -> ~ In m (shared r) /\
     exists l, nth_error (threads r) (own m) = Some (WrEnd m :: l)).

Lemma writes_ok_tail own sh i x l : writes_ok own sh i (x :: l) -> writes_ok own sh i l.
Proof.
  intros W a m b E. destruct (W (x :: a) m b) as (O & N & S); [cbn; congruence|].
  repeat split; auto. intros H. apply S. right. exact H.
Qed.

Lemma left_tail x l : left_ok (x :: l) -> match x with WrBegin m => exists r, l = WrEnd m :: r /\ tidy r | _ => tidy l end.
Proof.
  intros [H|(m & r & E & H)].
  - inversion H; subst; auto. exists l0. auto.
  - injection E as -> ->. exact H.
Qed.

Lemma inv_step own r i a rest :
  inv own r -> nth_error (threads r) i = Some (a :: rest) ->
  match access_step own r i a rest with Goes r' => inv own r' | Waits => True | Fatal => False end.
Proof.
  intros (T & Wr) N.
  destruct (T i _ N) as (Lo & Wo).
  pose proof (left_tail _ _ Lo) as Lt. pose proof (writes_ok_tail _ _ _ _ _ Wo) as Wt.
  assert (Next : forall j, nth_error (set_nth (threads r) i rest) j = if Nat.eqb i j then Some rest else nth_error (threads r) j).
  { intros j. rewrite nth_set, N. reflexivity. }
  (* the writers other than i go on *)
  assert (Busy : forall m, In m (writing r) -> a <> WrEnd m ->
     exists l, nth_error (set_nth (threads r) i rest) (own m) = Some (WrEnd m :: l)).
  { intros m I D. destruct (Wr m I) as (_ & l & E). rewrite Next. destruct (Nat.eqb i (own m)) eqn:Q; [|eauto].
    apply Nat.eqb_eq in Q. subst i. congruence. }
  assert (NoFatal : forall m, (a = Rd m \/ a = WrBegin m \/ a = Share m) ->
     Nat.eqb (own m) i || mem m (shared r) = true -> In m (writing r) -> False).
  { intros m A K I. destruct (Wr m I) as (S & l & E). apply Bool.orb_true_iff in K. destruct K as [K|K].
    - apply Nat.eqb_eq in K. subst i. rewrite N in E. injection E as -> _. destruct A as [A|[A|A]]; discriminate A.
    - apply mem_spec in K. contradiction. }
  destruct a as [m|m|m|m]; cbn [access_step].
  - destruct (Nat.eqb (own m) i || mem m (shared r)) eqn:K; [|exact Logic.I].
    destruct (mem m (writing r)) eqn:M.
    { apply mem_spec in M. eapply NoFatal; eauto. }
    split; cbn [threads writing shared].
    + intros j l H. rewrite Next in H. destruct (Nat.eqb i j) eqn:Q; [|exact (T j l H)].
      apply Nat.eqb_eq in Q. subst j. injection H as <-. split; [left; exact Lt|exact Wt].
    + intros x I. split; [apply (Wr x I)|]. apply Busy; [exact I|discriminate].
  - destruct (Nat.eqb (own m) i || mem m (shared r)) eqn:K; [|exact Logic.I].
    destruct (mem m (writing r)) eqn:M.
    { apply mem_spec in M. eapply NoFatal; eauto. }
    destruct Lt as (r0 & -> & Lt).
    destruct (Wo [] m (WrEnd m :: r0) eq_refl) as (O & S & _).
    split; cbn [threads writing shared].
    + intros j l H. rewrite Next in H. destruct (Nat.eqb i j) eqn:Q; [|exact (T j l H)].
      apply Nat.eqb_eq in Q. subst j. injection H as <-. split; [right; eauto|exact Wt].
    + intros x [<-|I].
      * split; [exact S|]. rewrite Next, O, Nat.eqb_refl. eauto.
      * split; [apply (Wr x I)|]. apply Busy; [exact I|discriminate].
  - split; cbn [threads writing shared].
    + intros j l H. rewrite Next in H. destruct (Nat.eqb i j) eqn:Q; [|exact (T j l H)].
      apply Nat.eqb_eq in Q. subst j. injection H as <-. split; [left; exact Lt|exact Wt].
    + intros x I. apply in_remove in I. destruct I as (I & D). split; [apply (Wr x I)|].
      apply Busy; [exact I|congruence].
  - destruct (Nat.eqb (own m) i || mem m (shared r)) eqn:K; [|exact Logic.I].
    split; cbn [threads writing shared].
    + intros j l H. rewrite Next in H.
      assert (Keep : forall l, left_ok l -> writes_ok own (shared r) j l -> (own m = j -> forall a b, l <> a ++ WrBegin m :: b) ->
                     left_ok l /\ writes_ok own (m :: shared r) j l).
      { intros l0 L0 W0 NW. split; [exact L0|]. intros a x b E. destruct (W0 a x b E) as (O & S & P).
        repeat split; auto. intros [<-|I]; [|contradiction]. exact (NW O a b E). }
      destruct (Nat.eqb i j) eqn:Q.
      * apply Nat.eqb_eq in Q. subst j. injection H as <-. apply Keep; [left; exact Lt|exact Wt|].
        intros _ a b E. destruct (Wo (Share m :: a) m b) as (_ & _ & P); [cbn; congruence|]. apply P. left. reflexivity.
      * destruct (T j l H) as (L0 & W0). apply Keep; [exact L0|exact W0|].
        intros O a b E. destruct (W0 a m b E) as (_ & S & _). apply Bool.orb_true_iff in K. destruct K as [K|K].
        -- apply Nat.eqb_eq in K. apply Nat.eqb_neq in Q. congruence.
        -- apply mem_spec in K. contradiction.
    + intros x I. split.
      * intros [<-|H]; [|exact (proj1 (Wr x I) H)]. eapply NoFatal; eauto.
      * apply Busy; [exact I|discriminate].
Qed.

Lemma inv_safe own s : forall r, inv own r -> crashes own r s = false.
Proof.
  induction s as [|i s IH]; intros r H; [reflexivity|]. cbn [crashes].
  destruct (nth_error (threads r) i) as [[|a rest]|] eqn:N; [apply IH, H| |apply IH, H].
  pose proof (inv_step own r i a rest H N) as K. destruct (access_step own r i a rest); [apply IH, K|apply IH, H|destruct K].
Qed.

Lemma split_jobs js : forall a m b, flat_map accesses js = a ++ WrBegin m :: b ->
  exists js1 j js2 a1, js = js1 ++ j :: js2 /\ In (WrBegin m) (accesses j) /\ a = flat_map accesses js1 ++ a1 /\
    exists b1, accesses j = a1 ++ WrBegin m :: b1.
Proof.
  induction js as [|j js IH]; intros a m b E; cbn in E.
  - destruct a; discriminate E.
  - destruct (le_lt_dec (length (accesses j)) (length a)) as [L|L].
    + assert (A : exists a2, a = accesses j ++ a2).
      { exists (skipn (length (accesses j)) a). rewrite <- (firstn_skipn (length (accesses j)) a) at 1. f_equal.
        pose proof (f_equal (firstn (length (accesses j))) E) as F.
        rewrite firstn_app, Nat.sub_diag, firstn_O, app_nil_r, firstn_all in F.
        rewrite firstn_app in F. replace (length (accesses j) - length a)%nat with 0%nat in F by lia.
        rewrite firstn_O, app_nil_r in F. congruence. }
      destruct A as (a2 & ->). rewrite <- app_assoc in E. apply app_inv_head in E.
      destruct (IH _ _ _ E) as (js1 & j1 & js2 & a1 & -> & I & -> & B).
      exists (j :: js1), j1, js2, a1. cbn. rewrite <- app_assoc. auto.
    + assert (B : exists b1, accesses j = a ++ WrBegin m :: b1).
      { exists (skipn (S (length a)) (accesses j)).
        pose proof (f_equal (firstn (S (length a))) E) as F.
        rewrite !firstn_app in F. replace (S (length a) - length (accesses j))%nat with 0%nat in F by lia.
        rewrite firstn_O, app_nil_r, (firstn_all2 a) in F by lia.
        replace (S (length a) - length a)%nat with 1%nat in F by lia.
        change (firstn 1 (WrBegin m :: b)) with [WrBegin m] in F.
        rewrite <- (firstn_skipn (S (length a)) (accesses j)) at 1. rewrite F, <- app_assoc. reflexivity. }
      destruct B as (b1 & B). exists [], j, js, a. repeat split; auto.
      * rewrite B. apply in_app_iff. right. left. reflexivity.
      * eauto.
Qed.

(** ** Theorems *)

(** If every call that adds to a map adds to an object that its goroutine makes and
    has not handed over yet, no interleaving of any number of goroutines with any
    calls ends in a fatal error. *)
Theorem C95_safe :
  forall (own : nat -> nat) (start : list nat) (calls : list (list job)),
  (forall i js before j after m,
     nth_error calls i = Some js -> js = before ++ j :: after -> builds j = Some m ->
     own m = i /\ ~ In m start /\ forall x, In x before -> ~ hands_over x m) ->
  forall schedule, crashes own (running start calls) schedule = false.
Proof.
  intros own start calls H schedule. apply inv_safe. split; [|intros m []].
  cbn [running threads shared]. intros i l N. rewrite nth_error_map in N.
  destruct (nth_error calls i) as [js|] eqn:C; [|discriminate N]. injection N as <-.
  split; [left; apply tidy_flat; apply tidy_accesses|].
  intros a m b E. destruct (split_jobs js a m b E) as (js1 & j & js2 & a1 & -> & I & -> & b1 & B).
  destruct (H i _ js1 j js2 m C eq_refl (write_builds _ _ I)) as (O & S & P). repeat split; auto.
  rewrite in_app_iff, in_flat_map. intros [(x & X & Y)|Y].
  - exact (P x X (share_hands _ _ Y)).
  - (* a building call hands nothing over *)
    assert (Y' : In (Share m) (accesses j)) by (rewrite B; apply in_app_iff; auto).
    apply share_hands in Y'. apply write_builds in I. destruct j; cbn in *; try discriminate I; contradiction.
Qed.

(** So a node that is set up before it is started, whose goroutines then only handle
    requests, look, write values, add ready devices and announce, never stops that
    way. *)
Theorem C95_running :
  forall (own : nat -> nat) (start : list nat) (calls : list (list job)),
  (forall js j, In js calls -> In j js -> builds j = None) ->
  forall schedule, crashes own (running start calls) schedule = false.
Proof.
  intros own start calls H. apply C95_safe. intros i js before j after m C E B. exfalso.
  rewrite (H js j) in B; [discriminate B|eapply nth_error_In; eauto|subst js; apply in_app_iff; right; left; reflexivity].
Qed.

(** Neither does a controller that any number of goroutines feed with found nodes,
    beside requests, if all objects are new. *)
Theorem C95_finding :
  forall (own : nat -> nat) (start : list nat) (others : list (list job))
         (finders : list (list (nat * standard * update * list nat * list standard))),
  (forall js j, In js others -> In j js -> builds j = None) ->
  (forall i makes o d0 u looks ds, nth_error finders i = Some makes -> In (o, d0, u, looks, ds) makes ->
     own o = (length others + i)%nat /\ ~ In o start) ->
  forall schedule, crashes own (running start (others ++ map finder finders)) schedule = false.
Proof.
  intros own start others finders Q F. apply C95_safe. intros i js before j after m C E B.
  destruct (Nat.lt_ge_cases i (length others)) as [L|L].
  - rewrite nth_error_app1 in C by exact L. exfalso.
    rewrite (Q js j) in B; [discriminate B|eapply nth_error_In; eauto|subst js; apply in_app_iff; right; left; reflexivity].
  - rewrite nth_error_app2 in C by exact L. rewrite nth_error_map in C.
    destruct (nth_error finders (i - length others)) as [makes|] eqn:N; [|discriminate C]. injection C as <-.
    unfold finder in E.
    assert (M : In j (map (fun x => let '(o, d0, u, looks, ds) := x in JNew o d0 u looks ds) makes) /\
                (forall x, In x before -> In x (map (fun x => let '(o, d0, u, looks, ds) := x in JNew o d0 u looks ds) makes))).
    { set (A := map _ makes) in E at 1. set (S := map _ makes) in E.
      assert (NS : forall x, In x S -> builds x = None).
      { intros x X. unfold S in X. apply in_map_iff in X. destruct X as ([[[[o d0] u] looks] ds] & <- & _). reflexivity. }
      fold A. clearbody A S. clear - E B NS.
      revert before E. induction A as [|y A IH]; intros before E; cbn in E.
      - exfalso. subst S. rewrite (NS j) in B; [discriminate B|apply in_app_iff; right; left; reflexivity].
      - destruct before as [|z before]; cbn in E.
        + injection E as -> _. split; [left; reflexivity|intros x []].
        + injection E as -> E. destruct (IH _ E) as (I1 & I2). split; [right; exact I1|].
          intros x [<-|X]; [left; reflexivity|right; auto]. }
    destruct M as (I & P). apply in_map_iff in I. destruct I as ([[[[o d0] u] looks] ds] & <- & I).
    cbn in B. injection B as ->. destruct (F _ _ _ _ _ _ _ N I) as (O & S). rewrite O.
    split; [lia|]. split; [exact S|]. intros x X Y. apply P in X. apply in_map_iff in X.
    destruct X as ([[[[o' d0'] u'] looks'] ds'] & <- & _). destruct Y.
Qed.

(** ** Lemmas: reaching a crash *)

(** thread [i] goes on alone until it is in the middle of a write to [m] *)
Lemma reach_write own i m l : forall r,
  tidy l -> nth_error (threads r) i = Some l -> writing r = [] ->
  (forall a, In a l -> In (map_of a) (shared r)) -> In (WrBegin m) l ->
  exists s r', (forall s', crashes own r (s ++ s') = crashes own r' s') /\ writing r' = [m] /\
    (forall j, j <> i -> nth_error (threads r') j = nth_error (threads r) j) /\
    (forall x, In x (shared r) -> In x (shared r')).
Proof.
  intros r T. revert r. induction T as [|x l T IH|x l T IH|x l T IH]; intros r N W K I; [destruct I|..].
  - destruct I as [I|I]; [discriminate I|].
    assert (X : mem x (shared r) = true) by (apply mem_spec; apply (K (Rd x)); left; reflexivity).
    destruct (IH (mkRuntime (set_nth (threads r) i l) (writing r) (shared r))) as (s & r' & C & W' & O & S);
      cbn [threads writing shared]; auto.
    { rewrite nth_set, N, Nat.eqb_refl. reflexivity. }
    { intros a A. apply K. right. exact A. }
    cbn [threads writing shared] in O, S.
    exists (i :: s), r'. repeat split; auto.
    + intros s'. cbn [List.app crashes]. rewrite N. cbn [access_step]. rewrite X, Bool.orb_true_r, W. cbn [mem existsb].
      rewrite <- W. apply C.
    + intros j D. rewrite (O j D), nth_set. apply Nat.neq_sym, Nat.eqb_neq in D. rewrite D. reflexivity.
  - destruct I as [I|I]; [discriminate I|].
    assert (X : mem x (shared r) = true) by (apply mem_spec; apply (K (Share x)); left; reflexivity).
    destruct (IH (mkRuntime (set_nth (threads r) i l) (writing r) (x :: shared r))) as (s & r' & C & W' & O & S);
      cbn [threads writing shared]; auto.
    { rewrite nth_set, N, Nat.eqb_refl. reflexivity. }
    { intros a A. right. apply K. right. exact A. }
    cbn [threads writing shared] in O, S.
    exists (i :: s), r'. repeat split; auto.
    + intros s'. cbn [List.app crashes]. rewrite N. cbn [access_step]. rewrite X, Bool.orb_true_r. apply C.
    + intros j D. rewrite (O j D), nth_set. apply Nat.neq_sym, Nat.eqb_neq in D. rewrite D. reflexivity.
    + intros y Y. apply S. right. exact Y.
  - assert (X : mem x (shared r) = true) by (apply mem_spec; apply (K (WrBegin x)); left; reflexivity).
    destruct (Nat.eq_dec x m) as [->|D].
    + exists [i], (mkRuntime (set_nth (threads r) i (WrEnd m :: l)) (m :: writing r) (shared r)). repeat split.
      * intros s'. cbn [List.app crashes]. rewrite N. cbn [access_step]. rewrite X, Bool.orb_true_r, W. reflexivity.
      * cbn. rewrite W. reflexivity.
      * intros j D. cbn [threads]. rewrite nth_set. apply Nat.neq_sym, Nat.eqb_neq in D. rewrite D. reflexivity.
      * auto.
    + destruct I as [I|[I|I]]; [congruence|discriminate I|].
      destruct (IH (mkRuntime (set_nth (set_nth (threads r) i (WrEnd x :: l)) i l) [] (shared r))) as (s & r' & C & W' & O & S);
        cbn [threads writing shared]; auto.
      { rewrite !nth_set, N, !Nat.eqb_refl. reflexivity. }
      { intros a A. apply K. right. right. exact A. }
      cbn [threads writing shared] in O, S.
      exists (i :: i :: s), r'. repeat split; auto.
      * intros s'. cbn [List.app crashes]. rewrite N. cbn [access_step]. rewrite X, Bool.orb_true_r, W. cbn [mem existsb].
        cbn [crashes threads]. rewrite nth_set, N, Nat.eqb_refl. cbn [access_step writing shared threads].
        replace (remove Nat.eq_dec x [x]) with (@nil nat); [apply C|].
        cbn [remove]. destruct (Nat.eq_dec x x); [reflexivity|contradiction].
      * intros j J. rewrite (O j J), !nth_set. apply Nat.neq_sym, Nat.eqb_neq in J. rewrite J. reflexivity.
Qed.

(** thread [j] meets the write *)
Lemma meet_write own j m l : forall r,
  tidy l -> nth_error (threads r) j = Some l -> writing r = [m] ->
  (forall a, In a l -> In (map_of a) (shared r)) -> (In (Rd m) l \/ In (WrBegin m) l) ->
  exists s, crashes own r s = true.
Proof.
  intros r T. revert r. induction T as [|x l T IH|x l T IH|x l T IH]; intros r N W K I; [destruct I as [[]|[]]|..].
  - assert (X : mem x (shared r) = true) by (apply mem_spec; apply (K (Rd x)); left; reflexivity).
    destruct (Nat.eq_dec x m) as [->|D].
    { exists [j]. cbn [crashes]. rewrite N. cbn [access_step]. rewrite X, Bool.orb_true_r, W. cbn [mem existsb].
      rewrite Nat.eqb_refl. reflexivity. }
    destruct (IH (mkRuntime (set_nth (threads r) j l) (writing r) (shared r))) as (s & C); cbn [threads writing shared]; auto.
    { rewrite nth_set, N, Nat.eqb_refl. reflexivity. }
    { intros a A. apply K. right. exact A. }
    { destruct I as [[I|I]|[I|I]]; auto; congruence. }
    exists (j :: s). cbn [crashes]. rewrite N. cbn [access_step]. rewrite X, Bool.orb_true_r.
    replace (mem x (writing r)) with false; [exact C|]. rewrite W. cbn. apply Nat.eqb_neq in D. rewrite D. reflexivity.
  - assert (X : mem x (shared r) = true) by (apply mem_spec; apply (K (Share x)); left; reflexivity).
    destruct (IH (mkRuntime (set_nth (threads r) j l) (writing r) (x :: shared r))) as (s & C); cbn [threads writing shared]; auto.
    { rewrite nth_set, N, Nat.eqb_refl. reflexivity. }
    { intros a A. right. apply K. right. exact A. }
    { destruct I as [[I|I]|[I|I]]; auto; discriminate I. }
    exists (j :: s). cbn [crashes]. rewrite N. cbn [access_step]. rewrite X, Bool.orb_true_r. exact C.
  - assert (X : mem x (shared r) = true) by (apply mem_spec; apply (K (WrBegin x)); left; reflexivity).
    destruct (Nat.eq_dec x m) as [->|D].
    { exists [j]. cbn [crashes]. rewrite N. cbn [access_step]. rewrite X, Bool.orb_true_r, W. cbn [mem existsb].
      rewrite Nat.eqb_refl. reflexivity. }
    destruct (IH (mkRuntime (set_nth (set_nth (threads r) j (WrEnd x :: l)) j l) [m] (shared r))) as (s & C);
      cbn [threads writing shared]; auto.
    { rewrite !nth_set, N, !Nat.eqb_refl. reflexivity. }
    { intros a A. apply K. right. right. exact A. }
    { destruct I as [[I|[I|I]]|[I|[I|I]]]; auto; congruence. }
    exists (j :: j :: s). cbn [crashes]. rewrite N. cbn [access_step]. rewrite X, Bool.orb_true_r.
    replace (mem x (writing r)) with false by (rewrite W; cbn; apply Nat.eqb_neq in D; rewrite D; reflexivity).
    cbn [crashes threads]. rewrite nth_set, N, Nat.eqb_refl. cbn [access_step writing shared threads].
    replace (remove Nat.eq_dec x (x :: writing r)) with [m]; [exact C|].
    rewrite W. cbn [remove]. destruct (Nat.eq_dec x x); [|contradiction]. destruct (Nat.eq_dec x m); [contradiction|reflexivity].
Qed.

(** The condition cannot be dropped: whenever one goroutine adds a property to an
    object that all know, or gives it a code with standard properties, and another
    makes any access to the map of the object, some interleaving is fatal. *)
Theorem C95_crash :
  forall (own : nat -> nat) (start : list nat) (calls : list (list job)) (i j : nat) ci cj (m : nat),
  i <> j -> nth_error calls i = Some ci -> nth_error calls j = Some cj ->
  (forall x a, In x (ci ++ cj) -> In a (accesses x) -> In (map_of a) start) ->
  (exists u, In (JAddProperty m u) ci) \/
  (exists d std u us, In (JSetCode m d) ci /\ d_found d = Some (std, u :: us)) ->
  (exists x, In x cj /\ (In (Rd m) (accesses x) \/ In (WrBegin m) (accesses x))) ->
  exists schedule, crashes own (running start calls) schedule = true.
Proof.
  intros own start calls i j ci cj m D Ci Cj K B (x & Ix & Ax).
  assert (Wi : In (WrBegin m) (flat_map accesses ci)).
  { apply in_flat_map. destruct B as [(u & I)|(d & std & u & us & I & F)].
    - exists (JAddProperty m u). split; [exact I|]. left. reflexivity.
    - exists (JSetCode m d). split; [exact I|]. cbn [accesses]. unfold a_SetCode, a_addStandard. rewrite F. right.
      apply in_app_iff. right. left. reflexivity. }
  assert (T : forall c, tidy (flat_map accesses c)) by (intros c; apply tidy_flat, tidy_accesses).
  destruct (reach_write own i m (flat_map accesses ci) (running start calls)) as (s & r' & C & W & O & S); auto.
  { cbn. rewrite nth_error_map, Ci. reflexivity. }
  { cbn [running shared]. intros a A. apply in_flat_map in A. destruct A as (y & Y & A).
    apply (K y a); [apply in_app_iff; auto|exact A]. }
  destruct (meet_write own j m (flat_map accesses cj) r') as (s' & C'); auto.
  { rewrite O by (intros E; congruence). cbn. rewrite nth_error_map, Cj. reflexivity. }
  { intros a A. apply S. cbn [running shared]. apply in_flat_map in A. destruct A as (y & Y & A).
    apply (K y a); [apply in_app_iff; auto|exact A]. }
  { destruct Ax as [A|A]; [left|right]; apply in_flat_map; eauto. }
  exists (s ++ s'). rewrite C. exact C'.
Qed.

(** So a program that adds a property to a device of its running node can be stopped
    by any request to this device. *)
Theorem C95_attached_refuted :
  forall (own : nat -> nat) (dev : nat) (u : update) (k1 k2 : nat) (listeners : list job),
  (1 <= k1)%nat -> (forall x a, In x listeners -> In a (accesses x) -> map_of a = dev) ->
  exists schedule,
    crashes own (running [dev] [[JAddProperty dev u]; handler dev k1 listeners k2]) schedule = true.
Proof.
  intros own dev u k1 k2 listeners L A.
  apply (C95_crash own [dev] _ 0 1 [JAddProperty dev u] (handler dev k1 listeners k2) dev); try reflexivity.
  - discriminate.
  - assert (Ak : forall k a, In a (flat_map (fun _ => a_LookupProperty dev) (repeat tt k)) -> map_of a = dev).
    { intros k a I. apply in_flat_map in I. destruct I as (y & _ & [<-|[]]). reflexivity. }
    intros x a X Y. left. symmetry. apply in_app_iff in X. destruct X as [[<-|[]]|X].
    + cbn [accesses] in Y. unfold a_Super_AddProperty, a_AddProperty, a_updatePropertyMap, a_Properties, a_setPropertyMap, a_LookupProperty in Y.
      rewrite !in_app_iff in Y. destruct Y as [Y|[[Y|Y]|Y]].
      * destruct Y as [<-|[<-|[]]]; reflexivity.
      * apply repeat_spec in Y. subst a. reflexivity.
      * apply repeat_spec in Y. subst a. reflexivity.
      * destruct (u_get u), (u_set u), (u_anno u); cbn in Y;
          repeat match goal with H : _ \/ _ |- _ => destruct H | H : False |- _ => destruct H end; subst a; reflexivity.
    + unfold handler in X. destruct X as [<-|X]; [exact (Ak _ _ Y)|]. apply in_app_iff in X.
      destruct X as [X|[<-|[]]]; [exact (A x a X Y)|exact (Ak _ _ Y)].
  - left. exists u. left. reflexivity.
  - exists (JValidate dev k1). split; [left; reflexivity|]. left. destruct k1; [lia|]. left. reflexivity.
Qed.

(** A node with the device 0 and the profile 1 (database 9, object of the database 8)
    that handles a request while another goroutine makes the device 2, and adds it when
    it is ready: no interleaving is fatal.  When the new property is added after
    AddDevice, a request to the device 2 can meet the write. *)
Example C95_example :
  let own m := match m with 2%nat => 1%nat | _ => 7%nat end in
  let d := mkStandard 9 (Some (8%nat, [mkUpdate 1 true false false; mkUpdate 2 true true true])) in
  let new := JNew 2 d (mkUpdate 2 true true true) [9%nat] [d] in
  let add := JAddProperty 2 (mkUpdate 3 true true true) in
  let good := [handler 2 2 [JLook 0] 2; [new; add; JAddDevice 2 (Some 1%nat) 5; JLook 2]; [JAnnounce 1]] in
  let bad := [handler 2 2 [JLook 0] 2; [new; JAddDevice 2 (Some 1%nat) 5; add; JLook 2]; [JAnnounce 1]] in
  (forall schedule, crashes own (running [0; 1; 8; 9]%nat good) schedule = false) /\
  (exists n, crashes own (running [0; 1; 8; 9]%nat bad) (repeat 1%nat n ++ [0]%nat) = true) /\
  (forall n : nat, In n [0; 5; 20; 40; 75; 77]%nat -> crashes own (running [0; 1; 8; 9]%nat bad) (repeat 1%nat n ++ [0]%nat) = false).
Proof.
  cbv zeta. split; [|split].
  - apply C95_safe. intros i js before j after m C E B.
    destruct i as [|[|[|i]]]; cbn in C; [| | |destruct i; discriminate C]; injection C as <-.
    + exfalso. destruct before as [|? [|? [|? [|]]]]; cbn in E; try discriminate E;
        injection E as; subst; try discriminate B; try (destruct before; discriminate).
    + destruct before as [|b0 [|b1 [|b2 [|b3 [|]]]]]; cbn in E; try discriminate E; injection E as; subst; cbn in B;
        try discriminate B; injection B as <-; (split; [reflexivity|]); (split; [cbn; lia|]); intros x X;
        cbn in X; repeat (destruct X as [<-|X]; [intros []|]); destruct X.
    + exfalso. destruct before as [|? [|]]; cbn in E; try discriminate E. injection E as; subst. discriminate B.
  - exists 76%nat. vm_compute. reflexivity.
  - intros n I. cbn in I. repeat (destruct I as [<-|I]; [vm_compute; reflexivity|]). destruct I.
Qed.

Print Assumptions C95_safe.
Print Assumptions C95_running.
Print Assumptions C95_finding.
Print Assumptions C95_crash.
Print Assumptions C95_attached_refuted.
