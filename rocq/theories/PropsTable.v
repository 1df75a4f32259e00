(** Theorems about the controller's table when announcements are handled at the same time: C77. *)

From Coq Require Import Permutation.
From Verif Require Import Go GoFacts Encoding Protocol Parser MessageFacts ParserFacts Property Object Spec Node NodeFacts Handler HandlerFacts
  Remote RemoteFacts PropsRemote Concurrent ConcurrentFacts TableFacts.
From Coq Require Import ZifyBool ZifyNat.
Local Open Scope Z_scope.

(** Every theorem is about [table_run conf self grow es]: any configuration, any
    growth of Go's arrays and any schedule [es] of arriving messages, steps of
    their goroutines and calls of Clear. *)

(** The node is the one some message of the schedule announces. *)
Definition offered (conf : ctrl_conf) (self : bool) (es : list table_event) (n : rnode) : Prop :=
  exists m codes, In (TMessage m) es /\ received m /\ (self = true \/ ~ from_server conf m) /\
    In (m_esv m) [0x72; 0x73; 0x74; 0x7E] /\ In (DEOJ m) [0x0EF001; 0x0EF002] /\
    instance_list m codes /\ Forall acceptable codes /\ describes (sender conf m) codes n.

Definition all_received (es : list table_event) : Prop := forall m, In (TMessage m) es -> received m.

(** No goroutine is under way. *)
Definition at_rest (f : finds) : Prop := Forall (fun ph => ph = AEnd) (f_adding f).

Lemma self_iff conf m : isSelfMessage conf m = true <-> from_server conf m.
Proof.
  unfold isSelfMessage. rewrite existsb_exists. split.
  - intros ([[p|] [i|]] & I & H); cbn [fst snd] in H; try discriminate H;
      destruct (Z.eqb_spec (a_port (m_from m)) p) as [E|]; cbn [negb] in H; try discriminate H.
    destruct (Z.eqb_spec (a_ip (m_from m)) i) as [E'|]; [|discriminate H]. exists p, i. split; [exact I|].
    destruct (m_from m) as [i' p']. cbn in *. congruence.
  - intros (p & i & I & E). exists (Some p, Some i). split; [exact I|]. cbn [fst snd]. rewrite E. cbn [a_port a_ip].
    rewrite !Z.eqb_refl. reflexivity.
Qed.

Lemma announced_offered conf self es m n : In (TMessage m) es -> received m -> announced conf self m = Some n ->
  offered conf self es n.
Proof.
  intros I HR H. unfold announced in H.
  destruct (negb self && isSelfMessage conf m) eqn:ES; [discriminate H|].
  destruct (isNodeProfileMessage m) eqn:EP; [|discriminate H]. apply profile_message_iff in EP. destruct EP as (HE & HD).
  destruct (accepted_dec m HR) as [(codes & HI & HC)|HN].
  - destruct (remote_described conf m codes HR HI HC) as (n' & E & D). rewrite E in H. injection H as <-.
    exists m, codes. repeat (split; [assumption|]). split; [|auto 6].
    destruct self; [left; reflexivity|right]. cbn [negb andb] in ES. rewrite <- self_iff. congruence.
  - destruct (remote_none conf m HR HN) as (e & E). rewrite E in H. discriminate H.
Qed.

(** ** Entries *)

Definition cells_good (Src : rnode -> Prop) (l : list (option rnode)) (k : nat) : Prop :=
  (k <= length l)%nat /\ Forall (fun c => exists n, c = Some n /\ Src n) (firstn k l).

Lemma firstn_set {A} (l : list A) : forall k j y, firstn k (set_nth l j y) = set_nth (firstn k l) j y.
Proof. induction l as [|a l IH]; intros [|k] [|j] y; cbn; try reflexivity. f_equal. apply IH. Qed.

Lemma cells_over Src l k j n : cells_good Src l k -> Src n -> cells_good Src (set_nth l j (Some n)) k.
Proof.
  intros [H1 H2] HS. split; [rewrite set_nth_length; exact H1|]. rewrite firstn_set.
  apply Forall_set_nth; [exact H2|]. eauto.
Qed.

Lemma cells_next Src l j n : cells_good Src l j -> (j < length l)%nat -> Src n -> cells_good Src (set_nth l j (Some n)) (S j).
Proof.
  intros [H1 H2] HL HS. split; [rewrite set_nth_length; lia|]. rewrite firstn_set_at by assumption.
  apply Forall_app. split; [exact H2|]. constructor; [eauto|constructor].
Qed.

Lemma firstn_grow {A} (l : list A) j x r : (j <= length l)%nat -> firstn (S j) (firstn j l ++ x :: r) = firstn j l ++ [x].
Proof.
  intros H. assert (E : length (firstn j l) = j) by (apply firstn_length_le, H).
  rewrite firstn_app, E, firstn_firstn, Nat.min_r by lia. replace (S j - j)%nat with 1%nat by lia. reflexivity.
Qed.

Lemma cells_grow Src l j n r : cells_good Src l j -> Src n -> cells_good Src (firstn j l ++ Some n :: r) (S j).
Proof.
  intros [H1 H2] HS. split.
  - rewrite app_length, firstn_length_le by assumption. cbn [length]. lia.
  - rewrite firstn_grow by assumption. apply Forall_app. split; [exact H2|]. constructor; [eauto|constructor].
Qed.

Lemma new_slices (Good : list (option rnode) -> nat -> Prop) (Src : rnode -> Prop) : Good [] 0%nat -> slices Good Src newFinds.
Proof.
  intros G. split.
  - intros a len [[-> ->]|(i & n & j & H)]; [exists []; auto|]. cbn in H. destruct i; cbn in H; intuition discriminate.
  - intros [|i] ph n H; discriminate H.
Qed.

Lemma cells_run (Src : rnode -> Prop) conf self grow es : (forall m n, In (TMessage m) es -> announced conf self m = Some n -> Src n) ->
  slices (cells_good Src) Src (table_run conf self grow es).
Proof.
  intros HS. assert (G0 : cells_good Src [] 0) by (split; [apply le_n|constructor]).
  apply slices_run; auto.
  - intros l k [H _]. exact H.
  - intros l k j n A _ _. apply cells_over, A.
  - apply cells_next.
  - intros l j n r. apply cells_grow.
  - apply new_slices, G0.
Qed.

(** Induction over the events, with everything known about the state before each. *)
Lemma run_ind conf self grow (P : list table_event -> finds -> Prop) :
  P [] newFinds ->
  (forall es e, P es (table_run conf self grow es) -> P (es ++ [e]) (table_step conf self grow (table_run conf self grow es) e)) ->
  forall es, P es (table_run conf self grow es).
Proof.
  intros H0 HS es. induction es as [|e es IH] using rev_ind; [exact H0|].
  unfold table_run. rewrite fold_left_app. cbn [fold_left]. apply HS, IH.
Qed.

Lemma no_panic conf self grow es : Forall (fun ph => ph <> APanic) (f_adding (table_run conf self grow es)).
Proof.
  induction es as [|e es IH] using rev_ind; [constructor|]. unfold table_run in *. rewrite fold_left_app. cbn [fold_left].
  fold (table_run conf self grow es) in *.
  destruct (cells_run (fun _ => True) conf self grow es (fun _ _ _ _ => I)) as [SL _].
  set (f := table_run conf self grow es) in *. destruct e as [m|i|]; cbn [table_step f_adding].
  - destruct (announced conf self m) as [n|]; [|exact IH]. cbn [f_adding]. apply Forall_app. split; [exact IH|].
    constructor; [discriminate|constructor].
  - destruct (nth_error (f_adding f) i) as [ph|] eqn:E; [|exact IH].
    assert (NP : ph <> APanic) by (eapply Forall_forall in IH; [exact IH|]; eapply nth_error_In; exact E).
    assert (NX : snd (add_step grow (cc_listener conf) (f_table f) (f_told f) ph) <> APanic).
    { destruct ph as [n|n a len j|n|n a len|n a len|n| |]; cbn [add_step]; try discriminate; [|destruct (_ <? _)%nat; discriminate|congruence].
      destruct (Nat.ltb_spec j len) as [L|L]; [|discriminate].
      destruct (SL a len) as (l & Hl & [G1 G2]); [right; exists i, n, j; auto|].
      unfold array_at. rewrite Hl. destruct (nth_error l j) as [c|] eqn:EC.
      2:{ apply nth_error_None in EC. lia. }
      assert (IN : In c (firstn len l)).
      { apply nth_error_In with (n := j). rewrite <- EC. rewrite <- (firstn_skipn len l) at 2.
        rewrite nth_error_app1; [reflexivity|]. rewrite firstn_length_le by assumption. exact L. }
      rewrite Forall_forall in G2. destruct (G2 c IN) as (x & -> & _). destruct (addr_eqb _ _); discriminate. }
    destruct (add_step _ _ _ _ _) as [[t told] ph']. cbn [f_adding snd] in *. apply Forall_set_nth; assumption.
  - exact IH.
Qed.

Lemma told_src (Src : rnode -> Prop) conf self grow es : (forall m n, In (TMessage m) es -> announced conf self m = Some n -> Src n) ->
  Forall Src (f_told (table_run conf self grow es)).
Proof.
  induction es as [|e es IH] using rev_ind; intros HS; [constructor|]. unfold table_run in *. rewrite fold_left_app. cbn [fold_left].
  fold (table_run conf self grow es) in *.
  assert (HS' : forall m n, In (TMessage m) es -> announced conf self m = Some n -> Src n).
  { intros m n I. apply HS, in_or_app. left. exact I. }
  specialize (IH HS'). destruct (cells_run Src conf self grow es HS') as [_ CR].
  set (f := table_run conf self grow es) in *. destruct e as [m|i|]; cbn [table_step f_told]; [|  |exact IH].
  - destruct (announced conf self m); exact IH.
  - destruct (nth_error (f_adding f) i) as [ph|] eqn:E; [|exact IH].
    destruct ph as [n|n a len j|n|n a len|n a len|n| |]; cbn [add_step f_told]; try exact IH.
    + destruct (_ <? _)%nat; [|exact IH]. destruct (nth_error (array_at _ _) _) as [[x|]|]; [destruct (addr_eqb _ _)| |]; exact IH.
    + destruct (_ <? _)%nat; exact IH.
    + destruct (cc_listener conf); [|exact IH]. apply Forall_app. split; [exact IH|]. constructor; [|constructor].
      eapply CR; [exact E|]. left. reflexivity.
Qed.

(** Under every schedule no goroutine panics, every entry of the table is a node
    (no nil) some received message announced, as announced, and so is every node
    the listener is told. *)
Theorem C77_entries : forall conf self grow es, all_received es ->
  let f := table_run conf self grow es in
  Forall (fun ph => ph <> APanic) (f_adding f) /\
  (exists ns, table_nodes (f_table f) = map Some ns /\ Forall (offered conf self es) ns) /\
  Forall (offered conf self es) (f_told f).
Proof.
  intros conf self grow es HR f.
  assert (HS : forall m n, In (TMessage m) es -> announced conf self m = Some n -> offered conf self es n).
  { intros m n I E. eapply announced_offered; [exact I|apply HR, I|exact E]. }
  split; [apply no_panic|]. split; [|apply told_src, HS].
  destruct (cells_run _ conf self grow es HS) as [SL _].
  destruct (SL (t_array (f_table f)) (t_len (f_table f))) as (l & Hl & [_ G]); [left; auto|].
  unfold table_nodes, array_at. fold f in Hl. rewrite Hl. clear -G. induction (firstn (t_len (f_table f)) l) as [|c cs IH].
  - exists []. split; [reflexivity|constructor].
  - inversion G as [|? ? (n & -> & Hn) G']; subst. destruct (IH G') as (ns & -> & F). exists (n :: ns).
    split; [reflexivity|]. constructor; assumption.
Qed.

(** ** The listener knows the table *)

Definition telling (f : finds) (n : rnode) : Prop :=
  In n (f_told f) \/ exists i a k, nth_error (f_adding f) i = Some (AStore n a k) \/ nth_error (f_adding f) i = Some (ATell n).

Definition told_inv (f : finds) : Prop := forall l n, In l (t_arrays (f_table f)) -> In (Some n) l -> telling f n.

Lemma In_set {A} (l : list A) : forall i y x, In x (set_nth l i y) -> x = y \/ In x l.
Proof.
  induction l as [|a l IH]; intros [|i] y x H; cbn in *; auto.
  - destruct H; auto.
  - destruct H as [H|H]; [auto|]. destruct (IH i y x H); auto.
Qed.

Lemma told_step grow f i ph : told_inv f -> nth_error (f_adding f) i = Some ph ->
  let '(t, told, ph') := add_step grow true (f_table f) (f_told f) ph in
  told_inv (mkFinds t (set_nth (f_adding f) i ph') told).
Proof.
  intros HI Hi.
  assert (LI : (i < length (f_adding f))%nat) by (apply nth_error_Some; congruence).
  assert (MV : forall t told ph' n, telling f n -> incl (f_told f) told ->
            ((exists a k, ph = AStore n a k) \/ ph = ATell n -> ph' = ATell n \/ In n told) ->
            telling (mkFinds t (set_nth (f_adding f) i ph') told) n).
  { intros t told ph' n [H|(j & a & k & H)] HT HP; [left; apply HT, H|].
    destruct (Nat.eq_dec i j) as [<-|D].
    - destruct HP as [-> |HP]; [|right|left; exact HP].
      + rewrite Hi in H. destruct H as [[= ->]|[= ->]]; eauto.
      + exists i, 0%nat, 0%nat. right. cbn [f_adding]. apply set_nth_eq, LI.
    - right. exists j, a, k. cbn [f_adding]. rewrite set_nth_neq by assumption. exact H. }
  destruct ph as [n|n a len j|n|n a len|n a len|n| |]; cbn [add_step].
  - intros l x Hl Hx. apply MV; [eapply HI; eassumption|apply incl_refl|]. intros [(? & ? & E)|E]; discriminate E.
  - assert (X : forall ph', told_inv (mkFinds (f_table f) (set_nth (f_adding f) i ph') (f_told f))).
    { intros ph' l x Hl Hx. apply MV; [eapply HI; eassumption|apply incl_refl|]. intros [(? & ? & E)|E]; discriminate E. }
    destruct (_ <? _)%nat; [|apply X]. destruct (nth_error (array_at _ _) _) as [[x|]|]; [destruct (addr_eqb _ _)| |]; apply X.
  - intros l x Hl Hx. apply MV; [eapply HI; eassumption|apply incl_refl|]. intros [(? & ? & E)|E]; discriminate E.
  - assert (NEW : forall t a' k', telling (mkFinds t (set_nth (f_adding f) i (AStore n a' k')) (f_told f)) n).
    { intros t a' k'. right. exists i, a', k'. left. cbn [f_adding]. apply set_nth_eq, LI. }
    assert (OLD : forall t a' k' x, telling f x -> telling (mkFinds t (set_nth (f_adding f) i (AStore n a' k')) (f_told f)) x).
    { intros t a' k' x T. apply MV; [exact T|apply incl_refl|]. intros [(? & ? & E)|E]; discriminate E. }
    assert (AT : forall x, In (Some x) (array_at (f_table f) a) -> telling f x).
    { intros x Hx. unfold array_at in Hx. destruct (nth_error (t_arrays (f_table f)) a) as [l|] eqn:E; [|destruct Hx].
      eapply HI; [eapply nth_error_In; exact E|exact Hx]. }
    destruct (_ <? _)%nat; intros l x Hl Hx; cbn [f_table t_arrays] in Hl.
    + apply In_set in Hl. destruct Hl as [->|Hl]; [|apply OLD; eapply HI; eassumption].
      apply In_set in Hx. destruct Hx as [[= ->]|Hx]; [apply NEW|apply OLD, AT, Hx].
    + apply in_app_or in Hl. destruct Hl as [Hl|[<-|[]]]; [apply OLD; eapply HI; eassumption|].
      apply in_app_or in Hx. destruct Hx as [Hx|[[= ->]|Hx]]; [|apply NEW|apply repeat_spec in Hx; discriminate Hx].
      apply OLD, AT. rewrite <- (firstn_skipn len (array_at (f_table f) a)). apply in_or_app. left. exact Hx.
  - intros l x Hl Hx. apply MV; [eapply HI; eassumption|apply incl_refl|].
    intros [(? & ? & [= -> -> ->])|E]; [left; reflexivity|discriminate E].
  - intros l x Hl Hx. apply MV; [eapply HI; eassumption|intros y Hy; apply in_or_app; left; exact Hy|].
    intros [(? & ? & E)|[= ->]]; [discriminate E|]. right. apply in_or_app. right. left. reflexivity.
  - intros l x Hl Hx. apply MV; [eapply HI; eassumption|apply incl_refl|]. intros [(? & ? & E)|E]; discriminate E.
  - intros l x Hl Hx. apply MV; [eapply HI; eassumption|apply incl_refl|]. intros [(? & ? & E)|E]; discriminate E.
Qed.

Lemma told_run conf self grow es : cc_listener conf = true -> told_inv (table_run conf self grow es).
Proof.
  intros HL. apply (run_ind conf self grow (fun _ => told_inv)).
  - intros l n [<-|[]] [].
  - intros es' e IH. set (f := table_run conf self grow es') in *. destruct e as [m|i|]; cbn [table_step].
    + destruct (announced conf self m) as [n|]; [|exact IH]. intros l x Hl Hx. destruct (IH l x Hl Hx) as [H|(j & a & k & H)]; [left; exact H|].
      right. exists j, a, k. cbn [f_adding]. rewrite !nth_error_app1 by (apply nth_error_Some; intuition congruence). exact H.
    + destruct (nth_error (f_adding f) i) as [ph|] eqn:E; [|exact IH]. rewrite HL.
      pose proof (told_step grow f i ph IH E) as S. destruct (add_step _ _ _ _ _) as [[t told] ph']. exact S.
    + intros l x Hl Hx. cbn [f_table clear_table t_arrays] in Hl. apply in_app_or in Hl. destruct Hl as [Hl|[<-|[]]]; [|destruct Hx].
      exact (IH l x Hl Hx).
Qed.

(** Once the goroutines are done the listener has been told of every node in the
    table (the other direction is [C77_lost_refuted]). *)
Theorem C77_told : forall conf self grow es, cc_listener conf = true ->
  let f := table_run conf self grow es in
  at_rest f -> forall n, In (Some n) (table_nodes (f_table f)) -> In n (f_told f).
Proof.
  intros conf self grow es HL f HR n HN.
  assert (X : exists l, In l (t_arrays (f_table f)) /\ In (Some n) l).
  { unfold table_nodes, array_at in HN. destruct (nth_error _ _) as [l|] eqn:E.
    - exists l. split; [eapply nth_error_In; exact E|]. rewrite <- (firstn_skipn (t_len (f_table f)) l). apply in_or_app. left. exact HN.
    - rewrite firstn_nil in HN. destruct HN. }
  destruct X as (l & Hl & Hx). destruct (told_run conf self grow es HL l n Hl Hx) as [H|(i & a & k & H)]; [exact H|].
  exfalso. unfold at_rest in HR. rewrite Forall_forall in HR.
  destruct H as [H|H]; apply nth_error_In in H; apply HR in H; discriminate H.
Qed.

(** ** Different nodes never give duplicates *)

Definition cells (l : list (option rnode)) : list address :=
  flat_map (fun c => match c with Some n => [rn_addr n] | None => [] end) l.

(** The addresses still to be written. *)
Definition before (ph : adding) : list address :=
  match ph with AStart n | AScan n _ _ _ | ALoad n | AWrite n _ _ => [rn_addr n] | _ => [] end.
Definition announces (conf : ctrl_conf) (self : bool) (e : table_event) : list address :=
  match e with
  | TMessage m => match announced conf self m with Some n => [rn_addr n] | None => [] end
  | _ => []
  end.

Definition dist_inv (f : finds) (todo : list address) : Prop :=
  (forall l, In l (t_arrays (f_table f)) -> NoDup (cells l) /\ forall x, In x todo -> ~ In x (cells l)) /\ NoDup todo.

Lemma NoDup_right {A} (l k : list A) : NoDup (l ++ k) -> NoDup k.
Proof. induction l as [|x l IH]; intros H; [exact H|]. inversion H; auto. Qed.

Lemma NoDup_left {A} (l k : list A) : NoDup (l ++ k) -> NoDup l.
Proof.
  induction l as [|x l IH]; intros H; [constructor|]. inversion H as [|? ? N D]; subst. constructor; [|auto].
  intros I. apply N, in_or_app. left. exact I.
Qed.

Lemma dist_sub f f' todo todo' : t_arrays (f_table f') = t_arrays (f_table f) ->
  (exists drop, Permutation todo (drop ++ todo')) -> dist_inv f todo -> dist_inv f' todo'.
Proof.
  intros E (drop & P) [H1 H2]. split.
  - intros l Hl. rewrite E in Hl. destruct (H1 l Hl) as [A B]. split; [exact A|]. intros x Hx. apply B.
    apply (Permutation_in _ (Permutation_sym P)), in_or_app. right. exact Hx.
  - apply (Permutation_NoDup P) in H2. apply NoDup_right in H2. exact H2.
Qed.

Lemma cells_set l j n : (j < length l)%nat -> exists c1 c c2,
  cells l = c1 ++ c ++ c2 /\ cells (set_nth l j (Some n)) = c1 ++ rn_addr n :: c2.
Proof.
  intros H. destruct (nth_error l j) as [c|] eqn:E; [|apply nth_error_None in E; lia].
  apply nth_error_split in E. destruct E as (l1 & l2 & -> & <-). rewrite set_nth_mid.
  unfold cells. rewrite !flat_map_app. cbn [flat_map]. eauto.
Qed.

Lemma NoDup_replace {A} (c1 c c2 : list A) x : NoDup (c1 ++ c ++ c2) -> ~ In x (c1 ++ c ++ c2) -> NoDup (c1 ++ x :: c2).
Proof.
  intros H N. apply NoDup_Add with (a := x) (l := c1 ++ c2); [apply Add_app|]. split.
  - apply (Permutation_NoDup (l' := c ++ c1 ++ c2)) in H.
    + apply NoDup_right in H. exact H.
    + rewrite !app_assoc. apply Permutation_app_tail, Permutation_app_comm.
  - intros I. apply N. apply in_app_or in I. apply in_or_app. destruct I; [left; assumption|right; apply in_or_app; right; assumption].
Qed.

Lemma cells_firstn l j : exists r, cells l = cells (firstn j l) ++ r.
Proof. exists (cells (skipn j l)). unfold cells. rewrite <- flat_map_app, firstn_skipn. reflexivity. Qed.

Lemma cells_none k : cells (repeat None k) = [].
Proof. induction k as [|k IH]; [reflexivity|exact IH]. Qed.

Lemma flat_set {A B} (g : A -> list B) l i x y : nth_error l i = Some x -> exists l1 l2,
  flat_map g l = l1 ++ g x ++ l2 /\ flat_map g (set_nth l i y) = l1 ++ g y ++ l2.
Proof.
  intros E. apply nth_error_split in E. destruct E as (a & b & -> & <-). rewrite set_nth_mid.
  rewrite !flat_map_app. cbn [flat_map]. eauto.
Qed.

Lemma dist_step grow lis f i ph rest :
  nth_error (f_adding f) i = Some ph -> dist_inv f (flat_map before (f_adding f) ++ rest) ->
  let '(t, told, ph') := add_step grow lis (f_table f) (f_told f) ph in
  dist_inv (mkFinds t (set_nth (f_adding f) i ph') told) (flat_map before (set_nth (f_adding f) i ph') ++ rest).
Proof.
  intros Hi HD.
  assert (SUB : forall t told ph', t_arrays t = t_arrays (f_table f) -> (before ph' = before ph \/ before ph' = []) ->
            dist_inv (mkFinds t (set_nth (f_adding f) i ph') told) (flat_map before (set_nth (f_adding f) i ph') ++ rest)).
  { intros t told ph' ET EB. destruct (flat_set before _ _ _ ph' Hi) as (l1 & l2 & E1 & E2).
    eapply dist_sub; [exact ET| |exact HD]. rewrite E1, E2. destruct EB as [-> | ->].
    - exists []. apply Permutation_refl.
    - exists (before ph). cbn [app]. rewrite <- !app_assoc. rewrite (app_assoc l1), (app_assoc (before ph)).
      apply Permutation_app_tail, Permutation_app_comm. }
  destruct ph as [n|n a len j|n|n a len|n a len|n| |]; cbn [add_step].
  - apply SUB; auto.
  - destruct (_ <? _)%nat; [|apply SUB; auto].
    destruct (nth_error (array_at _ _) _) as [[x|]|]; [destruct (addr_eqb _ _)| |]; apply SUB; auto.
  - apply SUB; auto.
  - assert (GEN : forall t told a' k' new, (forall l, In l (t_arrays t) -> l = new \/ In l (t_arrays (f_table f))) ->
              NoDup (cells new) -> (forall x, In x (cells new) -> x = rn_addr n \/ exists l, In l (t_arrays (f_table f)) /\ In x (cells l)) ->
              dist_inv (mkFinds t (set_nth (f_adding f) i (AStore n a' k')) told) (flat_map before (set_nth (f_adding f) i (AStore n a' k')) ++ rest)).
    { intros t told a' k' new HT HN HX. destruct (flat_set before _ _ _ (AStore n a' k') Hi) as (l1 & l2 & E1 & E2).
      cbn [before app] in E1, E2. rewrite E1 in HD. rewrite E2. destruct HD as [D1 D2].
      assert (P : Permutation ((l1 ++ rn_addr n :: l2) ++ rest) (rn_addr n :: (l1 ++ l2) ++ rest)).
      { rewrite <- !app_assoc. cbn [app]. apply Permutation_sym, Permutation_middle. }
      pose proof (Permutation_NoDup P D2) as D3. inversion D3 as [|? ? D4 D5]; subst. split; [|exact D5].
      intros l Hl. destruct (HT l Hl) as [-> |HO].
      - split; [exact HN|]. intros x Hx HC. destruct (HX x HC) as [-> |(l & Hl' & HC')]; [contradiction|].
        apply (proj2 (D1 l Hl') x); [|exact HC']. apply (Permutation_in _ (Permutation_sym P)). right. exact Hx.
      - destruct (D1 l HO) as [A B]. split; [exact A|]. intros x Hx. apply B.
        apply (Permutation_in _ (Permutation_sym P)). right. exact Hx. }
    assert (FRESH : forall l, In l (t_arrays (f_table f)) -> NoDup (cells l) /\ ~ In (rn_addr n) (cells l)).
    { intros l Hl. destruct HD as [D1 _]. destruct (D1 l Hl) as [A B]. split; [exact A|]. apply B. apply in_or_app. left.
      apply in_flat_map. exists (AWrite n a len). split; [eapply nth_error_In; exact Hi|left; reflexivity]. }
    unfold array_at. destruct (nth_error (t_arrays (f_table f)) a) as [l|] eqn:E.
    + apply nth_error_In in E. destruct (FRESH l E) as [F1 F2].
      destruct (Nat.ltb_spec len (length l)) as [L|L].
      * apply (GEN _ _ _ _ (set_nth l len (Some n))).
        { intros l' H. cbn [t_arrays] in H. apply In_set in H. exact H. }
        { destruct (cells_set l len n L) as (c1 & c & c2 & E1 & ->). rewrite E1 in F1, F2. eapply NoDup_replace; eassumption. }
        { destruct (cells_set l len n L) as (c1 & c & c2 & E1 & ->). intros x Hx. apply in_app_or in Hx.
          destruct Hx as [Hx|[<-|Hx]]; [right|left; reflexivity|right]; exists l; split; try exact E; rewrite E1;
            apply in_or_app; [left; exact Hx|right; apply in_or_app; right; exact Hx]. }
      * apply (GEN _ _ _ _ (firstn len l ++ Some n :: repeat None (grow len))).
        { intros l' H. cbn [t_arrays] in H. apply in_app_or in H. destruct H as [H|[<-|[]]]; auto. }
        { destruct (cells_firstn l len) as (r & E1). rewrite E1 in F1, F2. unfold cells at 1. rewrite flat_map_app.
          cbn [flat_map]. fold (cells (firstn len l)) (cells (repeat None (grow len))). rewrite cells_none. cbn [app].
          apply (NoDup_replace (cells (firstn len l)) r []); rewrite app_nil_r; assumption. }
        { intros x Hx. unfold cells in Hx. rewrite flat_map_app in Hx. apply in_app_or in Hx. cbn [flat_map] in Hx.
          fold (cells (firstn len l)) (cells (repeat None (grow len))) in Hx. rewrite cells_none in Hx.
          destruct Hx as [Hx|[<-|[]]]; [right|left; reflexivity]. exists l. split; [exact E|].
          destruct (cells_firstn l len) as (r & ->). apply in_or_app. left. exact Hx. }
    + cbn [length]. destruct (Nat.ltb_spec len 0) as [L|L]; [lia|]. apply (GEN _ _ _ _ (firstn len [] ++ Some n :: repeat None (grow len))).
      * intros l' H. cbn [t_arrays] in H. apply in_app_or in H. destruct H as [H|[<-|[]]]; auto.
      * rewrite firstn_nil. cbn [app]. unfold cells. cbn [flat_map]. fold (cells (repeat None (grow len))). rewrite cells_none.
        cbn [app]. constructor; [intros []|constructor].
      * rewrite firstn_nil. cbn [app]. unfold cells at 1. cbn [flat_map]. fold (cells (repeat None (grow len))). rewrite cells_none.
        intros x [<-|[]]. left. reflexivity.
  - apply SUB; auto.
  - apply SUB; auto.
  - apply SUB; auto.
  - apply SUB; auto.
Qed.

Lemma dist_run conf self grow es : forall f,
  dist_inv f (flat_map before (f_adding f) ++ flat_map (announces conf self) es) ->
  exists todo, dist_inv (fold_left (table_step conf self grow) es f) todo.
Proof.
  induction es as [|e es IH]; intros f H; [eauto|]. cbn [fold_left]. apply IH. cbn [flat_map] in H.
  destruct e as [m|i|]; cbn [table_step announces] in *.
  - destruct (announced conf self m) as [n|] eqn:E.
    + cbn [f_adding]. rewrite flat_map_app. cbn [flat_map before app]. rewrite <- app_assoc. exact H.
    + exact H.
  - destruct (nth_error (f_adding f) i) as [ph|] eqn:E; [|exact H].
    pose proof (dist_step grow (cc_listener conf) f i ph _ E H) as S. destruct (add_step _ _ _ _ _) as [[t told] ph']. exact S.
  - destruct H as [H1 H2]. split; [|exact H2]. intros l Hl. cbn [f_table clear_table t_arrays] in Hl.
    apply in_app_or in Hl. destruct Hl as [Hl|[<-|[]]]; [exact (H1 l Hl)|]. split; [constructor|]. intros x _ [].
Qed.

Lemma cells_nodup conf self grow es :
  NoDup (flat_map (announces conf self) es) -> NoDup (cells (table_nodes (f_table (table_run conf self grow es)))).
Proof.
  intros H. destruct (dist_run conf self grow es newFinds) as (todo & [D _]).
  - split; [|exact H]. intros l [<-|[]]. split; [constructor|]. intros x _ [].
  - fold (table_run conf self grow es) in D. set (f := table_run conf self grow es) in *. unfold table_nodes, array_at.
    destruct (nth_error _ _) as [l|] eqn:E; [|rewrite firstn_nil; constructor].
    apply nth_error_In in E. destruct (D l E) as [A _]. destruct (cells_firstn l (t_len (f_table f))) as (r & R).
    rewrite R in A. apply NoDup_left in A. exact A.
Qed.

Lemma announces_nodup conf self es : all_received es ->
  (forall i j m m' codes codes', nth_error es i = Some (TMessage m) -> nth_error es j = Some (TMessage m') -> i <> j ->
     instance_list m codes -> instance_list m' codes' -> sender conf m <> sender conf m') ->
  NoDup (flat_map (announces conf self) es).
Proof.
  assert (AN : forall es e x, all_received es -> In e es -> In x (announces conf self e) ->
            exists m codes, e = TMessage m /\ instance_list m codes /\ x = sender conf m).
  { intros es' e x HR I' H. destruct e as [m|i|]; cbn [announces] in H; try destruct H.
    destruct (announced conf self m) as [n|] eqn:E; [|destruct H]. destruct H as [<-|[]].
    destruct (announced_offered conf self [TMessage m] m n (or_introl eq_refl) (HR m I') E)
      as (m' & codes & [EM|[]] & _ & _ & _ & _ & HI & _ & (HA & _)).
    injection EM as <-. exists m, codes. auto. }
  induction es as [|e es IH]; intros HR HD; [constructor|]. cbn [flat_map].
  assert (HR' : all_received es) by (intros m I'; apply HR; right; exact I').
  assert (ND : NoDup (flat_map (announces conf self) es)).
  { apply IH; [exact HR'|]. intros i j m m' codes codes' A B C. apply (HD (S i) (S j)); [exact A|exact B|congruence]. }
  destruct (announces conf self e) as [|x [|y l]] eqn:EA; [exact ND| |].
  - cbn [app]. constructor; [|exact ND]. intros HX. apply in_flat_map in HX. destruct HX as (e' & I' & HX).
    destruct (AN (e :: es) e x HR (or_introl eq_refl)) as (m & codes & -> & C & E); [rewrite EA; left; reflexivity|].
    destruct (AN es e' x HR' I' HX) as (m' & codes' & -> & C' & E').
    apply In_nth_error in I'. destruct I' as (j & Hj).
    apply (HD 0%nat (S j) m m' codes codes'); auto; congruence.
  - exfalso. destruct e as [m|i|]; cbn [announces] in EA; try discriminate EA. destruct (announced conf self m); discriminate EA.
Qed.

(** When no two announcements of the schedule come from one address, no schedule
    makes a duplicate.  Missing for the full claim: a node that announces twice
    ([C77_set_refuted]). *)
Theorem C77_distinct_partial : forall conf self grow es, all_received es ->
  (forall i j m m' codes codes', nth_error es i = Some (TMessage m) -> nth_error es j = Some (TMessage m') -> i <> j ->
     instance_list m codes -> instance_list m' codes' -> sender conf m <> sender conf m') ->
  forall i j n n', let T := table_nodes (f_table (table_run conf self grow es)) in
    nth_error T i = Some (Some n) -> nth_error T j = Some (Some n') -> i <> j -> rn_addr n <> rn_addr n'.
Proof.
  intros conf self grow es HR HD i j n n' T Hi Hj D E.
  pose proof (cells_nodup conf self grow es (announces_nodup conf self es HR HD)) as ND. fold T in ND.
  clearbody T. clear HR HD. revert i j Hi Hj D. induction T as [|c T IH]; intros [|i] [|j] Hi Hj D; try discriminate; try congruence.
  - injection Hi as ->. cbn in Hj. unfold cells in ND. cbn [flat_map app] in ND. inversion ND as [|? ? N _]; subst. apply N.
    apply in_flat_map. exists (Some n'). split; [eapply nth_error_In; exact Hj|]. left. congruence.
  - injection Hj as ->. cbn in Hi. unfold cells in ND. cbn [flat_map app] in ND. inversion ND as [|? ? N _]; subst. apply N.
    apply in_flat_map. exists (Some n). split; [eapply nth_error_In; exact Hi|]. left. congruence.
  - unfold cells in ND. cbn [flat_map] in ND. apply NoDup_right in ND. apply (IH ND i j Hi Hj). congruence.
Qed.

(** ** What is in the table when nothing is under way stays *)

Definition starts_with (T : list (option rnode)) (l : list (option rnode)) (k : nat) : Prop :=
  (length T <= k <= length l)%nat /\ firstn (length T) l = T.

(** Missing for the full claim that nodes stay in the table: nodes that were
    added while other announcements were under way ([C77_lost_refuted]). *)
Theorem C77_keeps_partial : forall conf self grow es es', ~ In TClear es' -> at_rest (table_run conf self grow es) ->
  exists more, table_nodes (f_table (table_run conf self grow (es ++ es'))) =
               table_nodes (f_table (table_run conf self grow es)) ++ more.
Proof.
  intros conf self grow es es' HC HR. unfold table_run at 1. rewrite fold_left_app. fold (table_run conf self grow es).
  destruct (cells_run (fun _ => True) conf self grow es (fun _ _ _ _ => I)) as [SL _].
  set (f := table_run conf self grow es) in *. set (T := table_nodes (f_table f)).
  assert (S : slices (starts_with T) (fun _ => True) (fold_left (table_step conf self grow) es' f)).
  { apply slices_run; auto.
    - intros l k [H _]. lia.
    - intros l k j n [A B] [C D] L _. split; [rewrite set_nth_length; exact A|]. rewrite firstn_set_after by lia. exact B.
    - intros l j n [A B] L _. split; [rewrite set_nth_length; lia|]. rewrite firstn_set_after by lia. exact B.
    - intros l j n r [A B] _. assert (E : length (firstn j l) = j) by (apply firstn_length_le; lia). split.
      + rewrite app_length, E. cbn [length]. lia.
      + rewrite firstn_app, E. replace (length T - j)%nat with 0%nat by lia. cbn [firstn]. rewrite app_nil_r.
        rewrite firstn_firstn, Nat.min_l by lia. exact B.
    - split; [|auto]. intros a len [[-> ->]|(i & n & j & H)].
      + destruct (SL (t_array (f_table f)) (t_len (f_table f))) as (l & Hl & [G _]); [left; auto|]. exists l. split; [exact Hl|].
        assert (E : T = firstn (t_len (f_table f)) l) by (unfold T, table_nodes, array_at; rewrite Hl; reflexivity).
        assert (E' : length T = t_len (f_table f)) by (rewrite E; apply firstn_length_le, G).
        split; [lia|]. rewrite E'. auto.
      + exfalso. unfold at_rest in HR. rewrite Forall_forall in HR.
        destruct H as [H|[H|H]]; apply nth_error_In in H; apply HR in H; discriminate H. }
  destruct S as [S _]. set (f' := fold_left _ es' f) in *.
  destruct (S (t_array (f_table f')) (t_len (f_table f'))) as (l & Hl & [A B]); [left; auto|].
  exists (firstn (t_len (f_table f') - length T) (skipn (length T) l)).
  unfold table_nodes at 1, array_at. rewrite Hl.
  rewrite <- (firstn_skipn (length T) l) at 1. rewrite B. rewrite firstn_app. f_equal. apply firstn_all2. lia.
Qed.

(** ** A single announcement *)

Fixpoint adds (grow : nat -> nat) (lis : bool) (k : nat) (x : table * list rnode * adding) : table * list rnode * adding :=
  match k with
  | O => x
  | S k => let '(t, told, ph) := x in adds grow lis k (add_step grow lis t told ph)
  end.

Lemma steps_adds conf self grow ts k : forall t told ph,
  fold_left (table_step conf self grow) (repeat (TStep (length ts)) k) (mkFinds t (ts ++ [ph]) told) =
  let '(t', told', ph') := adds grow (cc_listener conf) k (t, told, ph) in mkFinds t' (ts ++ [ph']) told'.
Proof.
  induction k as [|k IH]; intros t told ph; [reflexivity|]. cbn [repeat fold_left table_step f_adding f_table f_told adds].
  rewrite nth_error_mid. destruct (add_step _ _ _ _ _) as [[t' told'] ph']. rewrite set_nth_mid. apply IH.
Qed.

Lemma adds_end grow lis k t told : adds grow lis k (t, told, AEnd) = (t, told, AEnd).
Proof. induction k as [|k IH]; [reflexivity|]. exact IH. Qed.

Lemma adds_plus grow lis k k' : forall x, adds grow lis (k + k') x = adds grow lis k' (adds grow lis k x).
Proof. induction k as [|k IH]; intros [[t told] ph]; [reflexivity|]. cbn [Nat.add adds]. apply IH. Qed.

Lemma adds_scan grow lis t told n a ns r l : nth_error (t_arrays t) a = Some l -> forall done,
  l = map Some done ++ map Some ns ++ r ->
  adds grow lis (S (length ns)) (t, told, AScan n a (length done + length ns) (length done)) =
  (t, told, if existsb (fun x => addr_eqb (rn_addr n) (rn_addr x)) ns then AEnd else ALoad n).
Proof.
  intros Ha. induction ns as [|x ns IH]; intros done El.
  - cbn [length adds add_step existsb]. destruct (Nat.ltb_spec (length done) (length done + 0)); [lia|reflexivity].
  - cbn [length]. change (adds grow lis (S (S (length ns)))) with
      (fun x => let '(t, told, ph) := x in adds grow lis (S (length ns)) (add_step grow lis t told ph)).
    cbv beta iota. cbn [add_step]. destruct (Nat.ltb_spec (length done) (length done + S (length ns))); [|lia].
    unfold array_at. rewrite Ha.
    assert (EN : nth_error l (length done) = Some (Some x)).
    { rewrite El. cbn [map app]. rewrite <- (map_length Some done). apply nth_error_mid. }
    rewrite EN. cbn [existsb].
    destruct (addr_eqb (rn_addr n) (rn_addr x)); cbn [orb]; [apply adds_end|].
    specialize (IH (done ++ [x])). rewrite app_length in IH. cbn [length] in IH.
    replace (length done + 1 + length ns)%nat with (length done + S (length ns))%nat in IH by lia.
    replace (length done + 1)%nat with (S (length done)) in IH by lia. apply IH.
    rewrite map_app, <- app_assoc. exact El.
Qed.

Lemma adds_four grow lis t told n l : nth_error (t_arrays t) (t_array t) = Some l -> (t_len t <= length l)%nat ->
  exists t', adds grow lis 4 (t, told, ALoad n) = (t', if lis then told ++ [n] else told, AEnd) /\
    table_nodes t' = table_nodes t ++ [Some n].
Proof.
  intros Hl G. assert (AL : array_at t (t_array t) = l) by (unfold array_at; rewrite Hl; reflexivity).
  unfold table_nodes at 2. rewrite AL. cbn [adds]. cbn [add_step]. rewrite AL.
  destruct (Nat.ltb_spec (t_len t) (length l)) as [L|L]; cbn [add_step]; eexists; (split; [reflexivity|]);
    unfold table_nodes, array_at; cbn [t_len t_array t_arrays].
  - rewrite set_nth_eq by (apply nth_error_Some; congruence). apply firstn_set_at, L.
  - rewrite nth_error_app2, Nat.sub_diag by lia. cbn [nth_error]. apply firstn_grow, G.
Qed.

Lemma firstn_split {A} (l : list A) k : l = firstn k l ++ skipn k l.
Proof. symmetry. apply firstn_skipn. Qed.

(** While no other announcement is under way, one announcement does what the
    sequential reading of the code (C37-C40) says, whatever happened before. *)
Theorem C77_alone : forall conf self grow es m k ns msgs,
  let f := table_run conf self grow es in
  received m -> at_rest f -> table_nodes (f_table f) = map Some ns -> (length ns + 6 <= k)%nat ->
  exists ct', OnMessage conf self (mkCtrl ns (f_told f) msgs) m = Ok ct' /\
    let f' := table_run conf self grow (es ++ TMessage m :: repeat (TStep (length (f_adding f))) k) in
    at_rest f' /\ table_nodes (f_table f') = map Some (ct_found ct') /\ f_told f' = ct_told ct'.
Proof.
  intros conf self grow es m k ns msgs f HM HR HT HK. unfold table_run. rewrite fold_left_app.
  fold (table_run conf self grow es). fold f. cbn [fold_left table_step].
  destruct (cells_run (fun _ => True) conf self grow es (fun _ _ _ _ => I)) as [SL _]. fold f in SL.
  destruct (SL (t_array (f_table f)) (t_len (f_table f))) as (l & Hl & [G _]); [left; auto|]. clear SL.
  unfold announced, OnMessage, parseNodeProfileMessage.
  assert (NONE : forall ct', ct_found ct' = ns -> ct_told ct' = f_told f ->
            let f' := fold_left (table_step conf self grow) (repeat (TStep (length (f_adding f))) k) f in
            at_rest f' /\ table_nodes (f_table f') = map Some (ct_found ct') /\ f_told f' = ct_told ct').
  { intros ct' E1 E2. assert (X : fold_left (table_step conf self grow) (repeat (TStep (length (f_adding f))) k) f = f).
    { clear -f. induction k as [|k IH]; [reflexivity|]. cbn [repeat fold_left table_step].
      assert (N : nth_error (f_adding f) (length (f_adding f)) = None) by (apply nth_error_None; lia).
      rewrite N. exact IH. }
    rewrite X, E1, E2. auto. }
  destruct (negb self && isSelfMessage conf m).
  { eexists. split; [reflexivity|]. apply NONE; reflexivity. }
  destruct (isNodeProfileMessage m).
  2:{ cbn [bind]. eexists. split; [reflexivity|]. apply NONE; destruct (cc_listener conf); reflexivity. }
  destruct (newRemoteNodeWithInstanceListMessageAndConfig m (cc_auto conf)) as [n|e|] eqn:EN; cbn [bind].
  3:{ exfalso. destruct (accepted_dec m HM) as [(codes & HI & HC)|HN].
      - destruct (remote_described conf m codes HM HI HC) as (n' & E & _). congruence.
      - destruct (remote_none conf m HM HN) as (e & E). congruence. }
  2:{ eexists. split; [reflexivity|]. apply NONE; destruct (cc_listener conf); reflexivity. }
  eexists. split; [reflexivity|]. cbn [f_adding f_table f_told]. rewrite steps_adds.
  assert (LN : length ns = t_len (f_table f)).
  { rewrite <- (map_length Some ns), <- HT. unfold table_nodes, array_at. rewrite Hl. apply firstn_length_le, G. }
  assert (FL : firstn (t_len (f_table f)) l = map Some ns).
  { rewrite <- HT. unfold table_nodes, array_at. rewrite Hl. reflexivity. }
  replace k with (1 + (S (length ns) + (4 + (k - (length ns + 6)))))%nat by lia.
  rewrite adds_plus. cbn [adds add_step]. rewrite adds_plus.
  assert (SC := adds_scan grow (cc_listener conf) (f_table f) (f_told f) n (t_array (f_table f)) ns (skipn (t_len (f_table f)) l) l Hl []).
  cbn [length map app Nat.add] in SC. rewrite <- LN. rewrite SC by (rewrite <- FL; apply firstn_split). clear SC.
  unfold addNode. cbn [ct_found ct_told ct_messages]. destruct (existsb _ ns) eqn:EX.
  { rewrite adds_end. cbn [f_adding f_table f_told]. split; [|destruct (cc_listener conf); auto].
    apply Forall_app. split; [exact HR|]. constructor; [reflexivity|constructor]. }
  rewrite adds_plus. destruct (adds_four grow (cc_listener conf) (f_table f) (f_told f) n l Hl G) as (t' & E4 & N4).
  rewrite E4, adds_end. cbn [f_adding f_table f_told]. rewrite N4, HT.
  split; [apply Forall_app; split; [exact HR|]; constructor; [reflexivity|constructor]|].
  destruct (cc_listener conf); cbn [ct_found ct_told]; rewrite map_app; auto.
Qed.

(** ** The property in full, and why it fails *)

(** Go doubles small arrays. *)
Definition doubling : nat -> nat := pred.
Definition turns (i k : nat) : list table_event := repeat (TStep i) k.
Definition rest_b (f : finds) : bool := forallb (fun ph => match ph with AEnd => true | _ => false end) (f_adding f).

Lemma rest_iff f : rest_b f = true -> at_rest f.
Proof.
  unfold rest_b, at_rest. intros H. apply Forall_forall. intros ph I'. rewrite forallb_forall in H. specialize (H ph I').
  destruct ph; congruence.
Qed.

Definition light_from (ip : Z) : message := ex_from ip 1 [2; 0x90; 1].

Lemma light_received ip : received (light_from ip).
Proof.
  unfold light_from, ex_from.
  destruct (NewMessageWithBytes _) as [m| |] eqn:E; [|vm_compute in E; discriminate E..].
  eexists _, m, _, 2. split; [|split; [exact E|reflexivity]].
  repeat (constructor; [unfold is_byte; vm_compute; split; [discriminate|reflexivity]|]). constructor.
Qed.

Lemma turns_received es : (forall m, In (TMessage m) es -> exists ip, m = light_from ip) -> all_received es.
Proof. intros H m I'. destruct (H m I') as (ip & ->). apply light_received. Qed.

Ltac events := let m := fresh in let I' := fresh in
  intros m I'; repeat (apply in_app_or in I'; destruct I' as [I'|I']);
  try (apply repeat_spec in I'; discriminate I'); cbn [In] in I';
  repeat (destruct I' as [I'|I']; [try discriminate I'; injection I' as <-; eexists; reflexivity|]); destruct I'.

(** One node announces itself twice: both goroutines look before either adds. *)
Definition twice : list table_event :=
  [TMessage (light_from 1); TMessage (light_from 1)] ++ turns 0 2 ++ turns 1 10 ++ turns 0 10.
(** Two nodes: both goroutines read the slice before either stores it. *)
Definition both : list table_event :=
  [TMessage (light_from 1); TMessage (light_from 2)] ++ turns 0 3 ++ turns 1 10 ++ turns 0 10.
(** A node is added, another one is announced; Clear comes after its goroutine
    has read the slice. *)
Definition uncleared : list table_event :=
  [TMessage (light_from 1)] ++ turns 0 10 ++ [TMessage (light_from 2)] ++ turns 1 4.

Definition addresses (f : finds) : list (option Z) :=
  map (fun c => match c with Some n => Some (a_ip (rn_addr n)) | None => None end) (table_nodes (f_table f)).

Example C77_twice_example :
  let f := table_run ex_conf false doubling twice in
  rest_b f = true /\ addresses f = [Some 1; Some 1] /\ map (fun n => a_ip (rn_addr n)) (f_told f) = [1; 1].
Proof. vm_compute. auto. Qed.

Example C77_both_example :
  let f := table_run ex_conf false doubling both in
  rest_b f = true /\ addresses f = [Some 1] /\ map (fun n => a_ip (rn_addr n)) (f_told f) = [2; 1].
Proof. vm_compute. auto. Qed.

Example C77_clear_example :
  addresses (table_run ex_conf false doubling uncleared) = [Some 1] /\
  addresses (table_run ex_conf false doubling (uncleared ++ [TClear])) = [] /\
  addresses (table_run ex_conf false doubling (uncleared ++ [TClear] ++ turns 1 10)) = [Some 1; Some 2].
Proof. vm_compute. auto. Qed.

(** One after the other, the same messages give one entry per node. *)
Example C77_ordered_example :
  let f := table_run ex_conf false doubling
    ([TMessage (light_from 1)] ++ turns 0 10 ++ [TMessage (light_from 2)] ++ turns 1 10 ++ [TMessage (light_from 1)] ++ turns 2 10) in
  rest_b f = true /\ addresses f = [Some 1; Some 2] /\ map (fun n => a_ip (rn_addr n)) (f_told f) = [1; 2].
Proof. vm_compute. auto. Qed.

(** The table is not a set of addresses. *)
Theorem C77_set_refuted : ~ (forall conf self grow es, all_received es ->
  let f := table_run conf self grow es in at_rest f ->
  forall i j n n', nth_error (table_nodes (f_table f)) i = Some (Some n) ->
    nth_error (table_nodes (f_table f)) j = Some (Some n') -> i <> j -> rn_addr n <> rn_addr n').
Proof.
  intros H. specialize (H ex_conf false doubling twice). cbv zeta in H.
  assert (R : all_received twice) by (apply turns_received; events).
  assert (Q : at_rest (table_run ex_conf false doubling twice)) by (apply rest_iff; vm_compute; reflexivity).
  specialize (H R Q 0%nat 1%nat).
  assert (X : exists n, table_nodes (f_table (table_run ex_conf false doubling twice)) = [Some n; Some n])
    by (vm_compute; eexists; reflexivity).
  destruct X as (n & E). rewrite E in H. apply (H n n eq_refl eq_refl); [discriminate|reflexivity].
Qed.

(** A node the listener was told of need not be in the table, without Clear. *)
Theorem C77_lost_refuted : ~ (forall conf self grow es, all_received es -> ~ In TClear es ->
  let f := table_run conf self grow es in at_rest f ->
  forall n, In n (f_told f) -> exists n', In (Some n') (table_nodes (f_table f)) /\ rn_addr n' = rn_addr n).
Proof.
  intros H. specialize (H ex_conf false doubling both). cbv zeta in H.
  assert (R : all_received both) by (apply turns_received; events).
  assert (Q : at_rest (table_run ex_conf false doubling both)) by (apply rest_iff; vm_compute; reflexivity).
  assert (NC : ~ In TClear both).
  { intros I'. unfold both, turns in I'. repeat (apply in_app_or in I'; destruct I' as [I'|I']);
      try (apply repeat_spec in I'; discriminate I'). cbn [In] in I'. intuition discriminate. }
  specialize (H R NC Q).
  assert (X : exists n1 n2, table_nodes (f_table (table_run ex_conf false doubling both)) = [Some n1] /\
                f_told (table_run ex_conf false doubling both) = [n2; n1] /\ rn_addr n1 <> rn_addr n2).
  { vm_compute. eexists _, _. split; [reflexivity|]. split; [reflexivity|]. discriminate. }
  destruct X as (n1 & n2 & E1 & E2 & D). rewrite E1, E2 in H. destruct (H n2 (or_introl eq_refl)) as (n' & [I'|[]] & E).
  injection I' as <-. contradiction.
Qed.

(** After Clear an earlier node can come back, although it does not announce
    itself again and none of its announcements is under way. *)
Theorem C77_clear_refuted : ~ (forall conf self grow es es', all_received es ->
  (forall m, ~ In (TMessage m) es') ->
  forall n, In (Some n) (table_nodes (f_table (table_run conf self grow es))) ->
  (forall ph n', In ph (f_adding (table_run conf self grow es)) -> In n' (carries ph) -> rn_addr n' <> rn_addr n) ->
  ~ In (Some n) (table_nodes (f_table (table_run conf self grow (es ++ TClear :: es'))))).
Proof.
  intros H. specialize (H ex_conf false doubling uncleared (turns 1 10)).
  assert (R : all_received uncleared) by (apply turns_received; events).
  assert (NM : forall m, ~ In (TMessage m) (turns 1 10)) by (intros m I'; apply repeat_spec in I'; discriminate I').
  specialize (H R NM).
  assert (X : exists n1 n2 a k, table_nodes (f_table (table_run ex_conf false doubling uncleared)) = [Some n1] /\
            f_adding (table_run ex_conf false doubling uncleared) = [AEnd; AWrite n2 a k] /\ rn_addr n2 <> rn_addr n1 /\
            table_nodes (f_table (table_run ex_conf false doubling (uncleared ++ TClear :: turns 1 10))) = [Some n1; Some n2]).
  { vm_compute. eexists _, _, _, _. split; [reflexivity|]. split; [reflexivity|]. split; [discriminate|reflexivity]. }
  destruct X as (n1 & n2 & a & k & E1 & E2 & D & E3). rewrite E1, E2, E3 in H. apply (H n1); [left; reflexivity| |left; reflexivity].
  intros ph n' [<-|[<-|[]]] I'; cbn [carries In] in I'; [destruct I'|]. destruct I' as [<-|[]]. exact D.
Qed.

Print Assumptions C77_entries.
Print Assumptions C77_told.
Print Assumptions C77_distinct_partial.
Print Assumptions C77_keeps_partial.
Print Assumptions C77_alone.
Print Assumptions C77_set_refuted.
Print Assumptions C77_lost_refuted.
Print Assumptions C77_clear_refuted.
