(** Facts about concurrent calls. *)

From Verif Require Import Go GoFacts Encoding EncodingFacts Protocol MessageFacts ProtocolFacts Node Post.
From Coq Require Import ZifyBool ZifyNat.
Local Open Scope Z_scope.

Lemma upd_same {A} (f : nat -> A) i a : upd f i a i = a.
Proof. unfold upd. rewrite Nat.eqb_refl. reflexivity. Qed.
Lemma upd_other {A} (f : nat -> A) i a j : j <> i -> upd f i a j = f j.
Proof. unfold upd. destruct (Nat.eqb_spec j i); [contradiction|reflexivity]. Qed.

Lemma is_closed_iff s c : is_closed s c = true <-> In c (ps_closed s).
Proof.
  unfold is_closed. rewrite existsb_exists. split.
  - intros (x & H & E). apply Nat.eqb_eq in E. subst. assumption.
  - intros H. exists c. split; [assumption|]. apply Nat.eqb_refl.
Qed.

Lemma p_run_app ls ls' : forall s, p_run s (ls ++ ls') = match p_run s ls with None => None | Some s' => p_run s' ls' end.
Proof.
  induction ls as [|l ls IH]; intros s; [reflexivity|]. cbn [app p_run].
  destruct (p_step s l); [apply IH|reflexivity].
Qed.

(** Induction over schedules. *)
Lemma reach_inv (P : pstate -> Prop) last :
  P (p_init last) -> (forall s l s', P s -> p_step s l = Some s' -> P s') ->
  forall s, reachable last s -> P s.
Proof.
  intros H0 HS s (ls & E). revert H0 E. generalize (p_init last). induction ls as [|l ls IH]; intros s0 H0 E.
  - injection E as <-. assumption.
  - cbn [p_run] in E. destruct (p_step s0 l) as [s1|] eqn:E1; [|discriminate E]. eapply IH; [|exact E]. eauto.
Qed.

Lemma reach_step last s l s' : reachable last s -> p_step s l = Some s' -> reachable last s'.
Proof.
  intros (ls & E) H. exists (ls ++ [l]). rewrite p_run_app, E. cbn [p_run]. rewrite H. reflexivity.
Qed.

Lemma reach_run last s ls s' : reachable last s -> p_run s ls = Some s' -> reachable last s'.
Proof. intros (ls0 & E) H. exists (ls0 ++ ls). rewrite p_run_app, E. assumption. Qed.

(** ** The critical section *)

Definition in_cs (p : cpc) : bool :=
  match p with
  | CMake | CSetReq | CRun | CTid _ | CHead _ | CSend | CWait | CEnd _ _ => true
  | _ => false
  end.

Definition open_ch (s : pstate) : Prop := exists c, ps_ch s = Some c /\ ~ In c (ps_closed s).

(** What the holder of the lock knows about the shared fields. *)
Definition holder_ok (s : pstate) (i : nat) : Prop :=
  match c_pc (ps_callers s i) with
  | CMake | CEnd _ EUnlock => ps_ch s = None /\ ps_req s = None
  | CSetReq => open_ch s /\ ps_req s = None
  | CRun | CTid _ | CHead _ | CSend | CWait | CEnd _ ECheck | CEnd _ EClose => open_ch s /\ ps_req s = Some i
  | CEnd _ EClearCh => ps_ch s <> None /\ ps_req s = Some i
  | CEnd _ EClearReq => ps_ch s = None /\ ps_req s = Some i
  | _ => False
  end.

Definition inv (s : pstate) : Prop :=
  (forall i, in_cs (c_pc (ps_callers s i)) = true -> ps_lock s = Some i) /\
  match ps_lock s with None => ps_ch s = None /\ ps_req s = None | Some i => holder_ok s i end /\
  (forall c, In c (ps_closed s) \/ ps_ch s = Some c -> (c < ps_next s)%nat).

(** Steps that leave the callers and the shared fields of PostMessage alone. *)
Definition same_core (s s' : pstate) : Prop :=
  ps_lock s' = ps_lock s /\ ps_ch s' = ps_ch s /\ ps_next s' = ps_next s /\ ps_closed s' = ps_closed s /\
  ps_req s' = ps_req s /\ ps_callers s' = ps_callers s.

Lemma inv_same s s' : same_core s s' -> inv s -> inv s'.
Proof.
  intros (E1 & E2 & E3 & E4 & E5 & E6) (H1 & H2 & H3). unfold inv, holder_ok, open_ch.
  rewrite E1, E2, E3, E4, E5, E6. auto.
Qed.

Ltac opt H := repeat match type of H with
  | match ?x with _ => _ end = Some _ => destruct x eqn:?; try discriminate H
  | (let '(_, _) := ?x in _) = Some _ => destruct x eqn:?
  end.

Lemma handle_same s h s' : handle_step s h = Some s' ->
  same_core s s' /\ ps_last s' = ps_last s /\ ps_drawn s' = ps_drawn s /\ ps_senders s' = ps_senders s /\
  ps_wire s' = ps_wire s /\ exists p, ps_handlers s' = upd (ps_handlers s) h (mkHandler p (h_msg (ps_handlers s h)) (h_during (ps_handlers s h))).
Proof.
  unfold handle_step. intros H.
  assert (G : exists p, s' = set_handler s h (mkHandler p (h_msg (ps_handlers s h)) (h_during (ps_handlers s h)))).
  { cbv zeta in H. opt H; try (injection H as <-; eexists; reflexivity). }
  destruct G as (p & ->). unfold same_core. cbn. repeat split. exists p. reflexivity.
Qed.

Lemma sender_same s j ok s' : sender_step s j ok = Some s' ->
  same_core s s' /\ ps_handlers s' = ps_handlers s /\ exists x, ps_senders s' = upd (ps_senders s) j x.
Proof.
  unfold sender_step. intros H. cbv zeta in H. opt H; injection H as <-; unfold same_core; cbn; repeat split;
    try (destruct ok; repeat split); eexists; reflexivity.
Qed.

Lemma others_out s i : inv s -> ps_lock s = Some i -> forall j, j <> i -> in_cs (c_pc (ps_callers s j)) = false.
Proof.
  intros (H1 & _) L j N. destruct (in_cs _) eqn:E; [|reflexivity]. apply H1 in E. congruence.
Qed.

Lemma nobody s : inv s -> ps_lock s = None -> forall j, in_cs (c_pc (ps_callers s j)) = false.
Proof. intros (H1 & _) L j. destruct (in_cs _) eqn:E; [|reflexivity]. apply H1 in E. congruence. Qed.

(** A step of the holder that keeps the lock. *)
Lemma inv_hold s s' i c : inv s -> ps_lock s = Some i -> ps_lock s' = Some i ->
  ps_callers s' = upd (ps_callers s) i c -> in_cs (c_pc c) = true -> holder_ok s' i ->
  (forall c, In c (ps_closed s') \/ ps_ch s' = Some c -> (c < ps_next s')%nat) -> inv s'.
Proof.
  intros HI L L' EC HC HO HN. split; [|split].
  - intros j HJ. rewrite EC in HJ. destruct (Nat.eq_dec j i) as [->|N]; [assumption|].
    rewrite upd_other in HJ by assumption. rewrite (others_out s i HI L j N) in HJ. discriminate HJ.
  - rewrite L'. assumption.
  - assumption.
Qed.

(** A step outside the critical section. *)
Lemma inv_out s s' i c : inv s -> in_cs (c_pc (ps_callers s i)) = false -> ps_callers s' = upd (ps_callers s) i c ->
  in_cs (c_pc c) = false -> ps_lock s' = ps_lock s -> ps_ch s' = ps_ch s -> ps_next s' = ps_next s ->
  ps_closed s' = ps_closed s -> ps_req s' = ps_req s -> inv s'.
Proof.
  intros (H1 & H2 & H3) HO EC HC E1 E2 E3 E4 E5. split; [|split].
  - intros j HJ. rewrite EC in HJ. destruct (Nat.eq_dec j i) as [->|N].
    + rewrite upd_same in HJ. congruence.
    + rewrite upd_other in HJ by assumption. rewrite E1. auto.
  - rewrite E1. destruct (ps_lock s) as [k|] eqn:L; [|rewrite E2, E5; assumption].
    unfold holder_ok, open_ch in *. rewrite E2, E4, E5, EC. destruct (Nat.eq_dec k i) as [->|N].
    + destruct (c_pc (ps_callers s i)); discriminate HO || contradiction.
    + rewrite upd_other by assumption. assumption.
  - rewrite E2, E3, E4. assumption.
Qed.

(** What the initial and every reachable state satisfies. *)
Lemma inv_init last : inv (p_init last).
Proof. split; [|split]; cbn; [discriminate|auto|intros c [[]|X]; discriminate X]. Qed.

Lemma holder_of s i : inv s -> in_cs (c_pc (ps_callers s i)) = true -> ps_lock s = Some i /\ holder_ok s i.
Proof. intros (H1 & H2 & _) H. apply H1 in H. rewrite H in H2. auto. Qed.

Ltac hold i := match goal with
  | HI : inv ?s, L : ps_lock ?s = Some i |- inv ?s' =>
      eapply (inv_hold s s' i); [exact HI|exact L|cbn; (exact L || reflexivity)|reflexivity|reflexivity| |cbn; try apply HI]
  end.

Lemma end_inv s i r e s' : inv s -> c_pc (ps_callers s i) = CEnd r e -> end_step s i r e = Some s' -> inv s'.
Proof.
  intros HI EP H. destruct (holder_of s i HI) as (L & HO); [rewrite EP; reflexivity|].
  unfold holder_ok in HO. rewrite EP in HO. unfold end_step, go_on in H.
  destruct e; cbn in HO.
  - destruct HO as ((c & C & NC) & R). rewrite C in H. injection H as <-. hold i.
    unfold holder_ok, open_ch. cbn. rewrite upd_same. cbn. eauto.
  - destruct HO as ((c & C & NC) & R). rewrite C in H.
    destruct (is_closed s c); [discriminate H|]. injection H as <-.
    hold i.
    + unfold holder_ok. cbn. rewrite upd_same. cbn. split; [discriminate|assumption].
    + destruct HI as (_ & _ & HN). intros x [[<-|HX]|HX]; auto. injection HX as <-. auto.
  - injection H as <-. hold i; [|intros x [X|X]; [apply HI; auto|discriminate X]].
    unfold holder_ok. cbn. rewrite upd_same. cbn. split; [reflexivity|apply HO].
  - injection H as <-. hold i. unfold holder_ok. cbn. rewrite upd_same. cbn. split; [apply HO|reflexivity].
  - injection H as <-. split; [|split].
    + cbn. intros j HJ. destruct (Nat.eq_dec j i) as [->|N].
      * rewrite upd_same in HJ. discriminate HJ.
      * rewrite upd_other in HJ by assumption. rewrite (others_out s i HI L j N) in HJ. discriminate HJ.
    + cbn. exact HO.
    + cbn. apply HI.
Qed.

Ltac outside i := match goal with
  | HI : inv ?s |- inv ?s' => eapply (inv_out s s' i); [exact HI| |reflexivity| |reflexivity|reflexivity|reflexivity|reflexivity|reflexivity]
  end.

Ltac holder_goal := unfold holder_ok, open_ch in *; cbn; rewrite upd_same; cbn; eauto.

Lemma call_inv s i ok s' : inv s -> call_step s i ok = Some s' -> inv s'.
Proof.
  intros HI H. unfold call_step in H. cbv zeta in H.
  destruct (c_pc (ps_callers s i)) eqn:EP.
  - discriminate H.
  - unfold go_on in H. injection H as <-. outside i; [rewrite EP; reflexivity|destruct ok; reflexivity].
  - destruct (tid_step (ps_last s) t) as [[v st] k]. unfold go_on in H. injection H as <-.
    outside i; [rewrite EP; reflexivity|destruct k; reflexivity].
  - injection H as <-. outside i; [rewrite EP; reflexivity|destruct ok; reflexivity].
  - destruct ok; [discriminate H|]. unfold go_on in H. injection H as <-. outside i; [rewrite EP; reflexivity|reflexivity].
  - destruct (ps_lock s) eqn:L; [discriminate H|]. unfold go_on in H. injection H as <-.
    pose proof HI as (_ & H2 & H3). rewrite L in H2. split; [|split]; cbn.
    + intros j HJ. destruct (Nat.eq_dec j i) as [->|N]; [reflexivity|].
      rewrite upd_other in HJ by assumption. rewrite (nobody s HI L) in HJ. discriminate HJ.
    + holder_goal.
    + assumption.
  - destruct (holder_of s i HI) as (L & HO); [rewrite EP; reflexivity|]. unfold holder_ok in HO. rewrite EP in HO.
    unfold go_on in H. injection H as <-. hold i.
    + unfold holder_ok, open_ch. cbn. rewrite upd_same. cbn. split; [|apply HO]. exists (ps_next s). split; [reflexivity|].
      intros X. destruct HI as (_ & _ & HN). specialize (HN (ps_next s) (or_introl X)). lia.
    + destruct HI as (_ & _ & HN). intros c [X|X]; [specialize (HN c (or_introl X)); lia|injection X as <-; lia].
  - destruct (holder_of s i HI) as (L & HO); [rewrite EP; reflexivity|]. unfold holder_ok in HO. rewrite EP in HO.
    unfold go_on in H. injection H as <-. hold i. unfold holder_ok, open_ch in *. cbn. rewrite upd_same. cbn.
    split; [apply HO|reflexivity].
  - destruct (holder_of s i HI) as (L & HO); [rewrite EP; reflexivity|]. unfold holder_ok in HO. rewrite EP in HO.
    unfold go_on in H. destruct ok; injection H as <-; hold i; holder_goal.
  - destruct (holder_of s i HI) as (L & HO); [rewrite EP; reflexivity|]. unfold holder_ok in HO. rewrite EP in HO.
    destruct (tid_step (ps_last s) t) as [[v st] k]. unfold go_on in H. destruct k; injection H as <-; hold i; holder_goal.
  - destruct (holder_of s i HI) as (L & HO); [rewrite EP; reflexivity|]. unfold holder_ok in HO. rewrite EP in HO.
    destruct ok; injection H as <-; hold i; holder_goal.
  - destruct (holder_of s i HI) as (L & HO); [rewrite EP; reflexivity|]. unfold holder_ok in HO. rewrite EP in HO.
    unfold go_on in H. destruct ok; injection H as <-; hold i; holder_goal.
  - discriminate H.
  - eapply end_inv; eauto.
  - discriminate H.
Qed.

Lemma inv_step s l s' : inv s -> p_step s l = Some s' -> inv s'.
Proof.
  intros HI H. destruct l; cbn [p_step] in H.
  - destruct (c_pc (ps_callers s i)) eqn:EP; try discriminate H. injection H as <-.
    outside i; [rewrite EP; reflexivity|destruct tcp; reflexivity].
  - eapply call_inv; eauto.
  - destruct (c_pc (ps_callers s i)) eqn:EP; try discriminate H. unfold go_on in H. injection H as <-.
    outside i; [rewrite EP; reflexivity|reflexivity].
  - destruct (c_pc (ps_callers s i)) eqn:EP; try discriminate H.
    destruct (holder_of s i HI) as (L & HO); [rewrite EP; reflexivity|]. unfold holder_ok in HO. rewrite EP in HO.
    unfold go_on in H. injection H as <-. hold i; holder_goal.
  - destruct (c_pc (ps_callers s i)) eqn:EP; try discriminate H.
    destruct (holder_of s i HI) as (L & HO); [rewrite EP; reflexivity|]. unfold holder_ok in HO. rewrite EP in HO.
    unfold go_on in H. opt H. injection H as <-. hold i; holder_goal.
  - opt H. injection H as <-. eapply inv_same; [|exact HI]. unfold same_core. cbn. auto 10.
  - apply handle_same in H. eapply inv_same; [|exact HI]. apply H.
  - opt H. injection H as <-. eapply inv_same; [|exact HI]. unfold same_core. cbn. auto 10.
  - apply sender_same in H. eapply inv_same; [|exact HI]. apply H.
Qed.

Lemma reachable_inv last s : reachable last s -> inv s.
Proof. apply reach_inv; [apply inv_init|]. intros. eapply inv_step; eauto. Qed.

(** ** Progress of a call *)

Definition of_call (i : nat) (l : label) : bool :=
  match l with
  | LCall j _ _ | LStep j _ | LTcp j _ | LTimeout j | LDeliver j _ => Nat.eqb j i
  | _ => false
  end.

Definition rank_t (t : tpc) : nat := match t with T1 => 4 | T2 _ => 3 | T3 _ => 2 | T4 => 1 end.
Definition rank_e (e : epc) : nat := match e with ECheck => 5 | EClose => 4 | EClearCh => 3 | EClearReq => 2 | EUnlock => 1 end.
Definition rank (p : cpc) : nat :=
  match p with
  | CIdle => 25
  | CTcpRun => 24 | CTcpTid t => 19 + rank_t t | CTcpHead _ => 19 | CTcpPost => 18
  | CLock => 17 | CMake => 16 | CSetReq => 15 | CRun => 14 | CTid t => 9 + rank_t t | CHead _ => 8 | CSend => 7
  | CWait => 6 | CEnd _ e => rank_e e | CDone _ => 0
  end.

Lemma tid_rank last t : match snd (tid_step last t) with inl t' => (rank_t t' < rank_t t)%nat | inr _ => t = T4 end.
Proof. destruct t as [|[]| |]; cbn; auto. Qed.

Lemma callers_of s l s' : p_step s l = Some s' ->
  forall j, of_call j l = false -> ps_callers s' j = ps_callers s j.
Proof.
  intros H j N. assert (U : forall i c, Nat.eqb i j = false -> upd (ps_callers s) i c j = ps_callers s j).
  { intros i c E. apply upd_other. intros ->. rewrite Nat.eqb_refl in E. discriminate E. }
  destruct l; cbn [p_step of_call] in *.
  - opt H; injection H as <-; apply U, N.
  - unfold call_step, end_step, go_on in H. cbv zeta in H.
    opt H; injection H as <-; apply U, N.
  - unfold go_on in H. opt H; injection H as <-; apply U, N.
  - unfold go_on in H. opt H; injection H as <-; apply U, N.
  - unfold go_on in H. opt H; injection H as <-; apply U, N.
  - opt H; injection H as <-; reflexivity.
  - apply handle_same in H. destruct H as ((_ & _ & _ & _ & _ & E) & _). rewrite E. reflexivity.
  - opt H; injection H as <-; reflexivity.
  - apply sender_same in H. destruct H as ((_ & _ & _ & _ & _ & E) & _). rewrite E. reflexivity.
Qed.

Lemma rank_step s l s' i : p_step s l = Some s' -> of_call i l = true ->
  (rank (c_pc (ps_callers s' i)) < rank (c_pc (ps_callers s i)))%nat.
Proof.
  intros H N. destruct l as [j m tcp|j ok|j m|j|j h| | | |]; cbn [p_step of_call] in *; try discriminate N;
    apply Nat.eqb_eq in N; subst j.
  - destruct (c_pc (ps_callers s i)); try discriminate H. injection H as <-. cbn. rewrite upd_same. destruct tcp; cbn; lia.
  - unfold call_step in H. cbv zeta in H.
    destruct (c_pc (ps_callers s i)) as [| |t|t| | | | | |t|t| | |r e|r] eqn:EP; try discriminate H.
    + unfold go_on in H. injection H as <-. cbn. rewrite upd_same. destruct ok; cbn; lia.
    + pose proof (tid_rank (ps_last s) t) as R. destruct (tid_step (ps_last s) t) as [[v st] k]. cbn [snd] in R.
      unfold go_on in H. injection H as <-. cbn. rewrite upd_same. destruct k; [cbn; lia|subst t; cbn; lia].
    + injection H as <-. cbn. rewrite upd_same. destruct ok; cbn; lia.
    + destruct ok; [discriminate H|]. unfold go_on in H. injection H as <-. cbn. rewrite upd_same. cbn. lia.
    + destruct (ps_lock s); [discriminate H|]. unfold go_on in H. injection H as <-. cbn. rewrite upd_same. cbn. lia.
    + unfold go_on in H. injection H as <-. cbn. rewrite upd_same. cbn; lia.
    + unfold go_on in H. injection H as <-. cbn. rewrite upd_same. cbn; lia.
    + unfold go_on in H. injection H as <-. cbn. rewrite upd_same. destruct ok; cbn; lia.
    + pose proof (tid_rank (ps_last s) t) as R. destruct (tid_step (ps_last s) t) as [[v st] k]. cbn [snd] in R.
      unfold go_on in H. injection H as <-. cbn. rewrite upd_same. destruct k; [cbn; lia|subst t; cbn; lia].
    + injection H as <-. cbn. rewrite upd_same. destruct ok; cbn; lia.
    + unfold go_on in H. destruct ok; injection H as <-; cbn; rewrite upd_same; cbn; lia.
    + unfold end_step, go_on in H. destruct e; opt H; injection H as <-; cbn; rewrite upd_same; cbn; lia.
  - destruct (c_pc (ps_callers s i)); try discriminate H. unfold go_on in H. injection H as <-. cbn. rewrite upd_same. cbn. lia.
  - destruct (c_pc (ps_callers s i)); try discriminate H. unfold go_on in H. injection H as <-. cbn. rewrite upd_same. cbn. lia.
  - destruct (c_pc (ps_callers s i)); try discriminate H. unfold go_on in H. opt H. injection H as <-. cbn. rewrite upd_same. cbn. lia.
Qed.

Lemma steps_bounded ls : forall s s' i, p_run s ls = Some s' ->
  (length (filter (of_call i) ls) + rank (c_pc (ps_callers s' i)) <= rank (c_pc (ps_callers s i)))%nat.
Proof.
  induction ls as [|l ls IH]; intros s s' i H.
  - injection H as <-. cbn. lia.
  - cbn [p_run] in H. destruct (p_step s l) as [s1|] eqn:E; [|discriminate H].
    specialize (IH s1 s' i H). cbn [filter]. destruct (of_call i l) eqn:O.
    + pose proof (rank_step s l s1 i E O). cbn [length]. lia.
    + rewrite (callers_of s l s1 E i O) in IH. lia.
Qed.

(** The own step a call can make, unless it waits for the lock. *)
Definition next_label (s : pstate) (i : nat) : label :=
  match c_pc (ps_callers s i) with
  | CTcpPost => LStep i false
  | CWait => LTimeout i
  | _ => LStep i true
  end.

Lemma next_label_of s i : of_call i (next_label s i) = true.
Proof. unfold next_label. destruct (c_pc (ps_callers s i)); cbn [of_call]; apply Nat.eqb_refl. Qed.

Definition started (p : cpc) : Prop := match p with CIdle => False | _ => True end.
Definition ended (p : cpc) : Prop := match p with CDone _ => True | _ => False end.

Lemma can_step s i : inv s -> started (c_pc (ps_callers s i)) -> ~ ended (c_pc (ps_callers s i)) ->
  (c_pc (ps_callers s i) = CLock -> ps_lock s = None) -> exists s', p_step s (next_label s i) = Some s'.
Proof.
  intros HI HS HE HL. unfold next_label.
  destruct (c_pc (ps_callers s i)) as [| |t|t| | | | | |t|t| | |r e|r] eqn:EP; cbn [started ended] in *; try contradiction;
    cbn [p_step]; unfold call_step, go_on; cbv zeta; rewrite EP; try (eexists; reflexivity).
  - destruct (tid_step (ps_last s) t) as [[v st] k]. eexists; reflexivity.
  - rewrite (HL eq_refl). eexists; reflexivity.
  - destruct (tid_step (ps_last s) t) as [[v st] k]. eexists; reflexivity.
  - destruct (holder_of s i HI) as (L & HO); [rewrite EP; reflexivity|]. unfold holder_ok in HO. rewrite EP in HO.
    unfold end_step, go_on. destruct e; try (eexists; reflexivity).
    + destruct (ps_ch s); eexists; reflexivity.
    + destruct HO as ((c & C & NC) & _). rewrite C.
      destruct (is_closed s c) eqn:X; [apply is_closed_iff in X; contradiction|]. eexists; reflexivity.
Qed.

Lemma finish s i : inv s -> started (c_pc (ps_callers s i)) ->
  (in_cs (c_pc (ps_callers s i)) = true \/ ps_lock s = None) ->
  exists ls s', p_run s ls = Some s' /\ ended (c_pc (ps_callers s' i)) /\ ps_lock s' = None /\ inv s' /\
    forall j, j <> i -> ps_callers s' j = ps_callers s j.
Proof.
  remember (rank (c_pc (ps_callers s i))) as n eqn:EN. revert s EN.
  induction n as [n IH] using lt_wf_ind. intros s EN HI HS HL.
  destruct (c_pc (ps_callers s i)) as [| |t|t| | | | | |t|t| | |r e|r] eqn:EP.
  15:{ exists [], s. split; [reflexivity|]. rewrite EP. split; [exact I|].
       split; [destruct HL as [HL|HL]; [discriminate HL|assumption]|]. split; [assumption|]. auto. }
  1: contradiction.
  all: destruct (can_step s i HI) as (s1 & E1);
    [rewrite EP; exact I|rewrite EP; auto|rewrite EP; intros X; (discriminate X || (destruct HL as [HL|HL]; [discriminate HL|exact HL]))|].
  all: pose proof (rank_step s _ s1 i E1 (next_label_of s i)) as HR; rewrite EP in HR; rewrite <- EN in HR.
  all: assert (HI1 : inv s1) by (eapply inv_step; eauto).
  all: assert (HS1 : started (c_pc (ps_callers s1 i)) /\ (in_cs (c_pc (ps_callers s1 i)) = true \/ ps_lock s1 = None)).
  all: try (unfold next_label in E1; rewrite EP in E1; cbn [p_step] in E1;
    unfold call_step, go_on in E1; cbv zeta in E1; rewrite EP in E1;
    first [destruct (tid_step (ps_last s) t) as [[v st] k]; injection E1 as <-; cbn; rewrite upd_same;
             destruct k; cbn; (split; [exact I|]); solve [left; reflexivity|right; destruct HL as [HL|HL]; [discriminate HL|exact HL]]
          |unfold end_step, go_on in E1; opt E1; injection E1 as <-; cbn; rewrite upd_same; cbn; (split; [exact I|]);
             solve [left; reflexivity|right; reflexivity|right; destruct HL as [HL|HL]; [discriminate HL|exact HL]]]).
  all: destruct HS1 as (HS1 & HL1); destruct (IH _ HR s1 eq_refl HI1 HS1 HL1) as (ls & s2 & E2 & A & B & C & D);
    exists (next_label s i :: ls), s2; (split; [cbn [p_run]; rewrite E1; exact E2|]);
    (split; [exact A|]); (split; [exact B|]); (split; [exact C|]);
    intros j N; rewrite (D j N); apply (callers_of s _ s1 E1);
    pose proof (next_label_of s i) as O; unfold of_call in *; destruct (next_label s i); try discriminate O;
    apply Nat.eqb_eq in O; subst; apply Nat.eqb_neq; congruence.
Qed.

(** From every reachable state every started call can be brought to its end. *)
Lemma can_finish s i : inv s -> started (c_pc (ps_callers s i)) ->
  exists ls s', p_run s ls = Some s' /\ ended (c_pc (ps_callers s' i)).
Proof.
  intros HI HS. destruct (in_cs (c_pc (ps_callers s i))) eqn:C.
  { destruct (finish s i HI HS) as (ls & s' & A & B & _); [auto|]. eauto. }
  destruct (ps_lock s) as [k|] eqn:L.
  - assert (K : in_cs (c_pc (ps_callers s k)) = true).
    { pose proof HI as (_ & H2 & _). rewrite L in H2. unfold holder_ok in H2.
      destruct (c_pc (ps_callers s k)); try contradiction; reflexivity. }
    assert (NK : i <> k) by (intros ->; congruence).
    destruct (finish s k HI) as (ls1 & s1 & E1 & _ & L1 & HI1 & O1); [destruct (c_pc (ps_callers s k)); (discriminate K || exact I)|auto|].
    destruct (finish s1 i HI1) as (ls2 & s2 & E2 & A & _); [rewrite O1 by assumption; assumption|auto|].
    exists (ls1 ++ ls2), s2. rewrite p_run_app, E1. auto.
  - destruct (finish s i HI HS) as (ls & s' & A & B & _); [auto|]. eauto.
Qed.

(** ** How a call ended *)

Definition ends (i : nat) (l : label) : bool :=
  match l with LTcp j _ | LTimeout j | LDeliver j _ => Nat.eqb j i | _ => false end.

Definition ending (i : nat) (ls : list label) (r : result) : Prop :=
  match r with
  | RResponse h m => filter (ends i) ls = [LDeliver i h] /\ In (LRecv h m) ls
  | RTcp m => filter (ends i) ls = [LTcp i m]
  | RTimeout => filter (ends i) ls = [LTimeout i]
  | RError => filter (ends i) ls = [] /\ In (LStep i false) ls
  end.

Definition call_history (i : nat) (ls : list label) (p : cpc) : Prop :=
  match p with
  | CEnd r _ | CDone r => ending i ls r
  | _ => filter (ends i) ls = []
  end.

Lemma filter_snoc {A} (f : A -> bool) l a : filter f (l ++ [a]) = filter f l ++ (if f a then [a] else []).
Proof. rewrite filter_app. cbn [filter]. destruct (f a); reflexivity. Qed.

Lemma ending_keep i ls l r : ends i l = false -> ending i ls r -> ending i (ls ++ [l]) r.
Proof.
  intros E H. unfold ending in *. rewrite !filter_snoc, E, app_nil_r.
  destruct r; try assumption; (split; [apply H|]); apply in_app_iff; left; apply H.
Qed.

Lemma history_keep i ls l p : ends i l = false -> call_history i ls p -> call_history i (ls ++ [l]) p.
Proof.
  intros E H. unfold call_history in *. destruct p; try (apply ending_keep; assumption);
    rewrite filter_snoc, E, app_nil_r; assumption.
Qed.

Lemma handlers_of s l s' : p_step s l = Some s' ->
  forall h, h_pc (ps_handlers s' h) <> HIdle ->
    (h_pc (ps_handlers s h) <> HIdle /\ h_msg (ps_handlers s' h) = h_msg (ps_handlers s h)
       /\ h_during (ps_handlers s' h) = h_during (ps_handlers s h)) \/
    (l = LRecv h (h_msg (ps_handlers s' h)) /\ h_during (ps_handlers s' h) = waiting s).
Proof.
  intros H h N. destruct l; cbn [p_step] in *.
  - opt H; injection H as <-; auto.
  - unfold call_step, end_step, go_on in H. cbv zeta in H. opt H; injection H as <-; auto.
  - unfold go_on in H. opt H; injection H as <-; auto.
  - unfold go_on in H. opt H; injection H as <-; auto.
  - unfold go_on in H. opt H; injection H as <-. cbn in *. destruct (Nat.eq_dec h h0) as [->|NE].
    + rewrite upd_same in *. left. rewrite Heqh1. cbn. repeat split; discriminate.
    + rewrite upd_other in * by assumption. auto.
  - opt H; injection H as <-. cbn in *. destruct (Nat.eq_dec h h0) as [->|NE].
    + rewrite upd_same in *. right. cbn. auto.
    + rewrite upd_other in * by assumption. auto.
  - pose proof H as H'. apply handle_same in H. destruct H as (_ & _ & _ & _ & _ & p & E). rewrite E in *.
    destruct (Nat.eq_dec h h0) as [->|NE].
    + rewrite upd_same in *. cbn. left. split; [|auto]. intros X. unfold handle_step in H'. cbv zeta in H'.
      rewrite X in H'. discriminate H'.
    + rewrite upd_other in * by assumption. auto.
  - opt H; injection H as <-; auto.
  - apply sender_same in H. destruct H as (_ & E & _). rewrite E in *. auto.
Qed.

Lemma run_history last ls : forall s, p_run (p_init last) ls = Some s ->
  (forall i, call_history i ls (c_pc (ps_callers s i))) /\
  (forall h, h_pc (ps_handlers s h) <> HIdle -> In (LRecv h (h_msg (ps_handlers s h))) ls).
Proof.
  induction ls as [|l ls IH] using rev_ind; intros s H.
  - injection H as <-. split; [intros i; reflexivity|]. intros h N. exfalso. apply N. reflexivity.
  - rewrite p_run_app in H. destruct (p_run (p_init last) ls) as [s0|] eqn:E0; [|discriminate H].
    cbn [p_run] in H. destruct (p_step s0 l) as [s1|] eqn:E1; [|discriminate H]. injection H as <-.
    destruct (IH s0 eq_refl) as (HC & HH). split.
    2:{ intros h N. apply in_app_iff. destruct (handlers_of s0 l s1 E1 h N) as [(A & B & _)|(A & _)].
        - left. rewrite B. apply HH, A.
        - right. left. exact A. }
    intros i. destruct (of_call i l) eqn:O.
    2:{ rewrite (callers_of s0 l s1 E1 i O). apply history_keep; [|apply HC].
        destruct l; cbn [of_call ends] in *; auto. }
    specialize (HC i).
    destruct l as [j m tcp|j ok|j m|j|j h| | | |]; cbn [p_step of_call] in *; try discriminate O;
      apply Nat.eqb_eq in O; subst j.
    + destruct (c_pc (ps_callers s0 i)); try discriminate E1. injection E1 as <-. cbn. rewrite upd_same.
      unfold call_history in *. rewrite filter_snoc. cbn [ends]. rewrite HC. destruct tcp; reflexivity.
    + assert (KE : forall r, ending i ls r -> ending i (ls ++ [LStep i ok]) r) by (intros r; apply ending_keep; reflexivity).
      assert (KF : filter (ends i) ls = [] -> filter (ends i) (ls ++ [LStep i ok]) = []).
      { intros X. rewrite filter_snoc, X. reflexivity. }
      assert (IN : In (LStep i ok) (ls ++ [LStep i ok])) by (apply in_app_iff; right; left; reflexivity).
      unfold call_step, end_step, go_on in E1. cbv zeta in E1.
      destruct (c_pc (ps_callers s0 i)) as [| |t|t| | | | | |t|t| | |r e|r] eqn:EP; try discriminate E1; cbn [call_history] in HC.
      * injection E1 as <-. cbn. rewrite upd_same. cbn [c_pc]. destruct ok; cbn [call_history]; auto.
      * destruct (tid_step (ps_last s0) t) as [[v st] k]. injection E1 as <-. cbn. rewrite upd_same. destruct k; cbn [c_pc call_history]; auto.
      * injection E1 as <-. cbn. rewrite upd_same. cbn [c_pc]. destruct ok; cbn [call_history]; auto.
      * destruct ok; [discriminate E1|]. injection E1 as <-. cbn. rewrite upd_same. cbn [c_pc call_history]. auto.
      * destruct (ps_lock s0); [discriminate E1|]. injection E1 as <-. cbn. rewrite upd_same. cbn [c_pc call_history]. auto.
      * injection E1 as <-. cbn. rewrite upd_same. cbn [c_pc call_history]. auto.
      * injection E1 as <-. cbn. rewrite upd_same. cbn [c_pc call_history]. auto.
      * injection E1 as <-. cbn. rewrite upd_same. cbn [c_pc]. destruct ok; cbn [call_history ending]; auto.
      * destruct (tid_step (ps_last s0) t) as [[v st] k]. injection E1 as <-. cbn. rewrite upd_same. destruct k; cbn [c_pc call_history]; auto.
      * injection E1 as <-. cbn. rewrite upd_same. cbn [c_pc]. destruct ok; cbn [call_history ending]; auto.
      * destruct ok; injection E1 as <-; cbn; rewrite upd_same; cbn [c_pc call_history ending]; auto.
      * opt E1; injection E1 as <-; cbn; rewrite upd_same; cbn [c_pc call_history]; auto.
    + destruct (c_pc (ps_callers s0 i)); try discriminate E1. unfold go_on in E1. injection E1 as <-. cbn. rewrite upd_same.
      cbn [c_pc call_history ending] in *. rewrite filter_snoc, HC. cbn [ends]. rewrite Nat.eqb_refl. reflexivity.
    + destruct (c_pc (ps_callers s0 i)); try discriminate E1. unfold go_on in E1. injection E1 as <-. cbn. rewrite upd_same.
      cbn [c_pc call_history ending] in *. rewrite filter_snoc, HC. cbn [ends]. rewrite Nat.eqb_refl. reflexivity.
    + destruct (c_pc (ps_callers s0 i)); try discriminate E1. unfold go_on in E1. opt E1. injection E1 as <-.
      cbn. rewrite upd_same. cbn [c_pc call_history ending] in *. rewrite filter_snoc, HC. cbn [ends]. rewrite Nat.eqb_refl.
      split; [reflexivity|]. apply in_app_iff. left. apply HH. congruence.
Qed.

(** ** Matching of responses *)

(** For a handler whose message arrived while call [i] was waiting, as long as
    that call is waiting: what has been checked so far. *)
Definition checked_so_far (s : pstate) (x : handler) (i : nat) : Prop :=
  c_pc (ps_callers s i) = CWait ->
  let q := c_msg (ps_callers s i) in
  match h_pc x with
  | HTid => Equals (Some (h_msg x)) (Some q) = Ok false
  | HReq2 | HCh2 | HSend | HBlocked _ => Equals (Some (h_msg x)) (Some q) = Ok false /\ TID (h_msg x) = TID q
  | _ => True
  end.

Definition match_inv (s : pstate) : Prop :=
  (forall h i, h_during (ps_handlers s h) = Some i ->
     checked_so_far s (ps_handlers s h) i /\ rank (c_pc (ps_callers s i)) <= rank CWait)%nat /\
  (forall i h m, (exists e, c_pc (ps_callers s i) = CEnd (RResponse h m) e) \/ c_pc (ps_callers s i) = CDone (RResponse h m) ->
     h_msg (ps_handlers s h) = m /\ h_pc (ps_handlers s h) <> HIdle /\
     (h_during (ps_handlers s h) = Some i ->
       Equals (Some m) (Some (c_msg (ps_callers s i))) = Ok false /\ TID m = TID (c_msg (ps_callers s i)))) /\
  (forall i, (rank (c_pc (ps_callers s i)) <= rank CWait)%nat ->
     match c_pc (ps_callers s i) with
     | CWait | CEnd (RResponse _ _) _ | CDone (RResponse _ _) | CEnd RTimeout _ | CDone RTimeout =>
         exists w, In w (ps_wire s) /\ w_by w = ByCall i /\ w_msg w = c_msg (ps_callers s i)
     | _ => True
     end) /\
  (forall h, h_pc (ps_handlers s h) = HIdle -> h_during (ps_handlers s h) = None).

Definition result_of (p : cpc) : option result :=
  match p with CEnd r _ | CDone r => Some r | _ => None end.

(** What a step does to one call. *)
Lemma caller_change s l s' i : p_step s l = Some s' ->
  let c := ps_callers s i in let c' := ps_callers s' i in
  c' = c \/
  (of_call i l = true /\
   ((rank (c_pc c) <= rank CWait)%nat -> c_msg c' = c_msg c) /\
   (c_pc c' = CWait -> c_pc c = CSend /\ c_msg c' = c_msg c /\
      ps_wire s' = ps_wire s ++ [mkWired (ByCall i) (ps_drawn s) (c_msg c)]) /\
   match result_of (c_pc c') with
   | Some r => (result_of (c_pc c) = Some r /\ c_msg c' = c_msg c) \/
       (result_of (c_pc c) = None /\
        match r with
        | RResponse h m => l = LDeliver i h /\ c_pc c = CWait /\ m = h_msg (ps_handlers s h) /\ c_msg c' = c_msg c /\
            exists b, h_pc (ps_handlers s h) = HBlocked b
        | RTimeout => c_pc c = CWait /\ c_msg c' = c_msg c
        | _ => True
        end)
   | None => result_of (c_pc c) = None
   end).
Proof.
  intros H c c'. destruct (of_call i l) eqn:O; [|left; apply (callers_of s l s' H i O)]. right.
  split; [reflexivity|]. subst c c'.
  destruct l as [j m tcp|j ok|j m|j|j h| | | |]; cbn [p_step of_call] in *; try discriminate O;
    apply Nat.eqb_eq in O; subst j.
  - destruct (c_pc (ps_callers s i)); try discriminate H. injection H as <-. cbn. rewrite upd_same. cbn.
    split; [lia|]. destruct tcp; cbn; split; try discriminate; reflexivity.
  - unfold call_step, end_step, go_on in H. cbv zeta in H.
    destruct (c_pc (ps_callers s i)) as [| |t|t| | | | | |t|t| | |r e|r] eqn:EP; try discriminate H.
    + injection H as <-. cbn. rewrite upd_same. cbn. split; [lia|]. destruct ok; cbn; split; try discriminate; reflexivity.
    + destruct (tid_step (ps_last s) t) as [[v st] k]. injection H as <-. cbn. rewrite upd_same. cbn. split; [lia|].
      destruct k; cbn; split; try discriminate; reflexivity.
    + injection H as <-. cbn. rewrite upd_same. cbn. split; [lia|]. destruct ok; cbn; split; try discriminate; reflexivity.
    + destruct ok; [discriminate H|]. injection H as <-. cbn. rewrite upd_same. cbn. split; [lia|]. split; [discriminate|reflexivity].
    + destruct (ps_lock s); [discriminate H|]. injection H as <-. cbn. rewrite upd_same. cbn. split; [lia|]. split; [discriminate|reflexivity].
    + injection H as <-. cbn. rewrite upd_same. cbn. split; [lia|]. split; [discriminate|reflexivity].
    + injection H as <-. cbn. rewrite upd_same. cbn. split; [lia|]. split; [discriminate|reflexivity].
    + injection H as <-. cbn. rewrite upd_same. cbn. split; [lia|]. destruct ok; cbn; (split; [discriminate|]); auto.
    + destruct (tid_step (ps_last s) t) as [[v st] k]. injection H as <-. cbn. rewrite upd_same. cbn. split; [lia|].
      destruct k; cbn; split; try discriminate; reflexivity.
    + injection H as <-. cbn. rewrite upd_same. cbn. split; [lia|]. destruct ok; cbn; (split; [discriminate|]); auto.
    + destruct ok; injection H as <-; cbn; rewrite upd_same; cbn; (split; [lia|]); (split; [intros X; auto; discriminate X|]); auto.
    + destruct e; opt H; injection H as <-; cbn; rewrite upd_same; cbn; (split; [auto|]); (split; [discriminate|]); auto.
  - destruct (c_pc (ps_callers s i)); try discriminate H. unfold go_on in H. injection H as <-. cbn. rewrite upd_same. cbn.
    split; [lia|]. split; [discriminate|]. auto.
  - destruct (c_pc (ps_callers s i)); try discriminate H. unfold go_on in H. injection H as <-. cbn. rewrite upd_same. cbn.
    split; [auto|]. split; [discriminate|]. auto.
  - destruct (c_pc (ps_callers s i)); try discriminate H. unfold go_on in H. opt H. injection H as <-. cbn. rewrite upd_same. cbn.
    split; [auto|]. split; [discriminate|]. right. split; [reflexivity|]. split; [reflexivity|]. split; [reflexivity|].
    split; [reflexivity|]. split; [reflexivity|]. eauto.
Qed.

Lemma late_step s l s' i : p_step s l = Some s' -> (rank (c_pc (ps_callers s i)) <= rank CWait)%nat ->
  (rank (c_pc (ps_callers s' i)) <= rank CWait)%nat /\ c_msg (ps_callers s' i) = c_msg (ps_callers s i) /\
  (c_pc (ps_callers s' i) = CWait -> c_pc (ps_callers s i) = CWait).
Proof.
  intros H R. destruct (caller_change s l s' i H) as [E|(O & M & W & _)]; [rewrite E; auto|].
  pose proof (rank_step s l s' i H O). split; [lia|]. split; [auto|].
  intros X. destruct (W X) as (Y & _). rewrite Y in R. cbn in R. lia.
Qed.

Lemma wire_grows s l s' : p_step s l = Some s' -> exists more, ps_wire s' = ps_wire s ++ more.
Proof.
  intros H. destruct l; cbn [p_step] in *.
  all: try (unfold call_step, end_step, go_on in H; cbv zeta in H; opt H; injection H as <-; cbn;
    solve [exists []; rewrite app_nil_r; reflexivity|eexists; reflexivity]).
  - apply handle_same in H. destruct H as (_ & _ & _ & _ & E & _). rewrite E. exists []. rewrite app_nil_r. reflexivity.
  - unfold sender_step in H. cbv zeta in H. opt H; injection H as <-; cbn;
      try (destruct ok; cbn); solve [exists []; rewrite app_nil_r; reflexivity|eexists; reflexivity].
Qed.

Lemma match_init last : match_inv (p_init last).
Proof.
  split; [|split; [|split]]; cbn.
  - discriminate.
  - intros i h m [(e & X)|X]; discriminate X.
  - intros i X. lia.
  - reflexivity.
Qed.

Lemma waiting_wait s i : waiting s = Some i -> c_pc (ps_callers s i) = CWait.
Proof.
  unfold waiting. destruct (ps_lock s) as [k|]; [|discriminate].
  destruct (c_pc (ps_callers s k)) eqn:E; try discriminate. intros [= <-]. assumption.
Qed.

Lemma wait_req s i : inv s -> c_pc (ps_callers s i) = CWait -> ps_req s = Some i.
Proof.
  intros HI E. destruct (holder_of s i HI) as (_ & HO); [rewrite E; reflexivity|]. unfold holder_ok in HO. rewrite E in HO. apply HO.
Qed.

Lemma match_step s l s' : inv s -> match_inv s -> p_step s l = Some s' -> match_inv s'.
Proof.
  intros HI (H1 & H2 & H3 & H4) H.
  assert (K1 : forall h i, h_during (ps_handlers s' h) = Some i ->
    checked_so_far s' (ps_handlers s' h) i /\ (rank (c_pc (ps_callers s' i)) <= rank CWait)%nat).
  { intros h i D.
    assert (NI : h_pc (ps_handlers s' h) <> HIdle).
    { intros X. destruct l; cbn [p_step] in H.
      1-4: unfold call_step, end_step, go_on in H; cbv zeta in H; opt H; injection H as <-; cbn in *; rewrite H4 in D by assumption; discriminate D.
      - unfold go_on in H. opt H. injection H as <-. cbn in *. destruct (Nat.eq_dec h h0) as [->|N].
        + rewrite upd_same in *. discriminate X.
        + rewrite upd_other in * by assumption. rewrite H4 in D by assumption. discriminate D.
      - opt H. injection H as <-. cbn in *. destruct (Nat.eq_dec h h0) as [->|N].
        + rewrite upd_same in *. discriminate X.
        + rewrite upd_other in * by assumption. rewrite H4 in D by assumption. discriminate D.
      - unfold handle_step in H. cbv zeta in H. destruct (Nat.eq_dec h h0) as [->|N].
        + opt H; injection H as <-; cbn in *; rewrite upd_same in *; discriminate X.
        + opt H; injection H as <-; cbn in *; rewrite upd_other in * by assumption; rewrite H4 in D by assumption; discriminate D.
      - opt H; injection H as <-; cbn in *; rewrite H4 in D by assumption; discriminate D.
      - apply sender_same in H. destruct H as (_ & E & _). rewrite E in *. rewrite H4 in D by assumption. discriminate D. }
    destruct (handlers_of s l s' H h NI) as [(A & B & C)|(A & C)].
    - rewrite C in D. destruct (H1 h i D) as (P & R). destruct (late_step s l s' i H R) as (R' & M & W).
      split; [|assumption]. unfold checked_so_far in *. intros X. specialize (W X). specialize (P W). rewrite B, M.
      (* the handler's own step *)
      assert (Q : h_pc (ps_handlers s' h) = h_pc (ps_handlers s h) \/ l = LHandle h \/ exists j, l = LDeliver j h).
      { destruct l; cbn [p_step] in H.
        1-4: left; unfold call_step, end_step, go_on in H; cbv zeta in H; opt H; injection H as <-; reflexivity.
        - unfold go_on in H. opt H. injection H as <-. destruct (Nat.eq_dec h h0) as [->|N]; [eauto|].
          left. cbn. rewrite upd_other by assumption. reflexivity.
        - opt H. injection H as <-. destruct (Nat.eq_dec h h0) as [->|N].
          + rewrite Heqh1 in A. contradiction.
          + left. cbn. rewrite upd_other by assumption. reflexivity.
        - destruct (Nat.eq_dec h h0) as [->|N]; [auto|]. left. apply handle_same in H.
          destruct H as (_ & _ & _ & _ & _ & p & E). rewrite E. rewrite upd_other by assumption. reflexivity.
        - left. opt H; injection H as <-; reflexivity.
        - left. apply sender_same in H. destruct H as (_ & E & _). rewrite E. reflexivity. }
      destruct Q as [Q|[->|(j & ->)]].
      + rewrite Q. exact P.
      + cbn [p_step] in H. unfold handle_step in H. cbv zeta in H. pose proof (wait_req s i HI W) as RQ. rewrite RQ in H. cbn [option_map] in H.
        destruct (h_pc (ps_handlers s h)) eqn:EH; cbv zeta in P.
        all: try discriminate H; opt H; injection H as <-; cbn in *; rewrite ?upd_same in *; cbn; auto.
        split; [assumption|]. lia.
      + cbn [p_step] in H. unfold go_on in H. opt H. injection H as <-. cbn in *. rewrite upd_same. cbn. exact I.
    - rewrite C in D. subst l. pose proof (waiting_wait s i D) as W. cbn [p_step] in H. opt H. injection H as <-.
      cbn in *. rewrite upd_same. cbn. split; [intros _; exact I|]. rewrite W. cbn. lia. }
  split; [exact K1|]. split; [|split].
  - intros i h m HE.
    assert (HR : result_of (c_pc (ps_callers s' i)) = Some (RResponse h m)).
    { destruct HE as [(e & E)|E]; rewrite E; reflexivity. }
    assert (FW : forall hh mm, result_of (c_pc (ps_callers s i)) = Some (RResponse hh mm) ->
      h_msg (ps_handlers s hh) = mm /\ h_pc (ps_handlers s hh) <> HIdle /\
      (h_during (ps_handlers s hh) = Some i ->
        Equals (Some mm) (Some (c_msg (ps_callers s i))) = Ok false /\ TID mm = TID (c_msg (ps_callers s i)))).
    { intros hh mm X. apply H2. destruct (c_pc (ps_callers s i)); try discriminate X; injection X as ->; eauto. }
    assert (HK : forall hh, h_pc (ps_handlers s hh) <> HIdle -> h_pc (ps_handlers s' hh) <> HIdle /\
      h_msg (ps_handlers s' hh) = h_msg (ps_handlers s hh) /\ h_during (ps_handlers s' hh) = h_during (ps_handlers s hh)).
    { intros hh NI. destruct l; cbn [p_step] in H.
      1-4: unfold call_step, end_step, go_on in H; cbv zeta in H; opt H; injection H as <-; cbn; auto.
      - unfold go_on in H. opt H. injection H as <-. cbn. destruct (Nat.eq_dec hh h0) as [->|N].
        + rewrite upd_same. cbn. repeat split; discriminate.
        + rewrite upd_other by assumption. auto.
      - opt H. injection H as <-. cbn. destruct (Nat.eq_dec hh h0) as [->|N]; [congruence|].
        rewrite upd_other by assumption. auto.
      - unfold handle_step in H. cbv zeta in H. destruct (Nat.eq_dec hh h0) as [->|N].
        + opt H; injection H as <-; cbn; rewrite upd_same; cbn; repeat split; discriminate.
        + opt H; injection H as <-; cbn; rewrite upd_other by assumption; auto.
      - opt H; injection H as <-; cbn; auto.
      - apply sender_same in H. destruct H as (_ & E & _). rewrite E. auto. }
    destruct (caller_change s l s' i H) as [E|(O & M & W & R)].
    + rewrite E in *. destruct (FW h m HR) as (A & B & C). destruct (HK h B) as (X & Y & Z). rewrite Y, Z. auto.
    + rewrite HR in R. destruct R as [(R & EM)|(R & EL & EW & EM & EC & b & EB)].
      * destruct (FW h m R) as (A & B & C). destruct (HK h B) as (X & Y & Z). rewrite Y, Z, EM. auto.
      * assert (NI : h_pc (ps_handlers s h) <> HIdle) by congruence.
        destruct (HK h NI) as (X & Y & Z). rewrite Y, Z, EC. split; [auto|]. split; [assumption|].
        intros D. destruct (H1 h i D) as (P & _). unfold checked_so_far in P. specialize (P EW). rewrite EB in P.
        rewrite EM. exact P.
  - intros i RK. destruct (wire_grows s l s' H) as (more & EWr).
    assert (G : forall (P : Prop), (exists w, In w (ps_wire s) /\ w_by w = ByCall i /\ w_msg w = c_msg (ps_callers s i)) ->
      c_msg (ps_callers s' i) = c_msg (ps_callers s i) ->
      exists w, In w (ps_wire s') /\ w_by w = ByCall i /\ w_msg w = c_msg (ps_callers s' i)).
    { intros _ (w & A & B & C) E. exists w. rewrite EWr, E. split; [apply in_app_iff; auto|auto]. }
    destruct (caller_change s l s' i H) as [E|(O & M & W & R)].
    + specialize (H3 i). rewrite E in *. specialize (H3 RK). destruct (c_pc (ps_callers s i)); auto.
      all: try (rewrite EWr; destruct H3 as (w & A & B); exists w; split; [apply in_app_iff; auto|auto]).
      all: destruct r; auto; rewrite EWr; destruct H3 as (w & A & B); exists w; (split; [apply in_app_iff; auto|auto]).
    + destruct (c_pc (ps_callers s' i)) eqn:EP'; auto.
      * destruct (W eq_refl) as (A & B & C). rewrite C, B. eexists. split; [apply in_app_iff; right; left; reflexivity|]. auto.
      * cbn [result_of] in R. specialize (H3 i). destruct r; auto.
        -- destruct R as [(R & EM)|(R & EL & EW & _ & EC & _)]; apply (G True); auto.
           ++ destruct (c_pc (ps_callers s i)); try discriminate R; injection R as ->; cbn [rank] in H3; apply H3; [destruct e0; cbn; lia|lia].
           ++ rewrite EW in H3. apply H3. lia.
        -- destruct R as [(R & EM)|(R & EW & EC)]; apply (G True); auto.
           ++ destruct (c_pc (ps_callers s i)); try discriminate R; injection R as ->; cbn [rank] in H3; apply H3; [destruct e0; cbn; lia|lia].
           ++ rewrite EW in H3. apply H3. lia.
      * cbn [result_of] in R. specialize (H3 i). destruct r; auto.
        -- destruct R as [(R & EM)|(R & EL & EW & _ & EC & _)]; apply (G True); auto.
           ++ destruct (c_pc (ps_callers s i)); try discriminate R; injection R as ->; cbn [rank] in H3; apply H3; [destruct e; cbn; lia|lia].
           ++ rewrite EW in H3. apply H3. lia.
        -- destruct R as [(R & EM)|(R & EW & EC)]; apply (G True); auto.
           ++ destruct (c_pc (ps_callers s i)); try discriminate R; injection R as ->; cbn [rank] in H3; apply H3; [destruct e; cbn; lia|lia].
           ++ rewrite EW in H3. apply H3. lia.
  - intros h X. destruct (h_during (ps_handlers s' h)) as [i|] eqn:D; [|reflexivity].
    exfalso. destruct l; cbn [p_step] in H.
    1-4: unfold call_step, end_step, go_on in H; cbv zeta in H; opt H; injection H as <-; cbn in *; rewrite H4 in D by assumption; discriminate D.
    + unfold go_on in H. opt H. injection H as <-. cbn in *. destruct (Nat.eq_dec h h0) as [->|N].
      * rewrite upd_same in *. discriminate X.
      * rewrite upd_other in * by assumption. rewrite H4 in D by assumption. discriminate D.
    + opt H. injection H as <-. cbn in *. destruct (Nat.eq_dec h h0) as [->|N].
      * rewrite upd_same in *. discriminate X.
      * rewrite upd_other in * by assumption. rewrite H4 in D by assumption. discriminate D.
    + unfold handle_step in H. cbv zeta in H. destruct (Nat.eq_dec h h0) as [->|N].
      * opt H; injection H as <-; cbn in *; rewrite upd_same in *; discriminate X.
      * opt H; injection H as <-; cbn in *; rewrite upd_other in * by assumption; rewrite H4 in D by assumption; discriminate D.
    + opt H; injection H as <-; cbn in *; rewrite H4 in D by assumption; discriminate D.
    + apply sender_same in H. destruct H as (_ & E & _). rewrite E in *. rewrite H4 in D by assumption. discriminate D.
Qed.
