(** C44, for every schedule: what it takes for a received message to crash the process
    or to block its goroutine for ever, and which messages can do it. *)

From Verif Require Import Go GoFacts Encoding EncodingFacts Protocol MessageFacts ProtocolFacts Node NodeFacts Post PostFacts PostCalm PropsPost.
From Coq Require Import ZifyBool ZifyNat.
Local Open Scope Z_scope.

(** ** Statement vocabulary *)

(** At some point of the schedule a call was closing its channel while the goroutine [h]
    was between its receipt and the hand-over of its message. *)
Definition overtaken (last : Z) (ls : list label) (h : nat) : Prop :=
  exists ls1 ls2 s1 i r e, ls = ls1 ++ ls2 /\ p_run (p_init last) ls1 = Some s1 /\
    match h_pc (ps_handlers s1 h) with HIdle | HRest | HNil | HPanic => False | _ => True end /\
    c_pc (ps_callers s1 i) = CEnd r e.

(** ** Facts *)

Lemma one_step s l s' h : inv s -> shapes s ->
  (examining (h_pc (ps_handlers s h)) = true -> forall i r e, c_pc (ps_callers s i) <> CEnd r e) ->
  handler_ok s (ps_handlers s h) -> p_step s l = Some s' -> handler_ok s' (ps_handlers s' h).
Proof.
  intros HI (S1 & S2) HC HH H.
  destruct (handler_change s l s' h H) as [E|[(i & -> & E)|[(m & -> & E)| -> ]]].
  - rewrite E. unfold handler_ok in *.
    assert (K : examining (h_pc (ps_handlers s h)) = true -> ps_req s <> None -> ps_req s' = ps_req s /\ ps_ch s' = ps_ch s).
    { intros X Y. apply (frozen s l s' HI); [exact (HC X)|exact Y|exact H]. }
    destruct (h_pc (ps_handlers s h)); auto; cbn in K.
    all: try (destruct (K eq_refl HH) as (-> & _); assumption).
    destruct HH as (A & B). destruct (K eq_refl B) as (-> & ->). auto.
  - unfold handler_ok. rewrite E. exact I.
  - unfold handler_ok. rewrite E. exact I.
  - cbn [p_step] in H. pose proof (handle_same s h s' H) as ((_ & EC & _ & _ & ER & _) & _).
    unfold handler_ok in *. rewrite EC, ER. clear EC ER.
    unfold handle_step in H. cbv zeta in H.
    destruct (h_pc (ps_handlers s h)) eqn:EH; try discriminate H; cbn in HC; specialize (HC eq_refl).
    1-4: opt H; injection H as <-; cbn; rewrite upd_same; cbn; auto; discriminate.
    + destruct (ps_req s) as [i|] eqn:ER; [|contradiction]. cbn [option_map Equals] in H.
      rewrite (Bytes_general _ (S2 h)), (Bytes_general _ (S1 i)) in H. cbn [bind] in H.
      destruct (bytes_eqb _ _); injection H as <-; cbn; rewrite upd_same; cbn; auto.
    + destruct (ps_req s) as [i|] eqn:ER; [|contradiction].
      destruct (_ =? _); injection H as <-; cbn; rewrite upd_same; cbn; auto.
    + opt H; injection H as <-; cbn; rewrite upd_same; cbn; auto; discriminate.
    + opt H; injection H as <-; cbn; rewrite upd_same; cbn; auto; discriminate.
    + destruct (calm_req_open s HI HC HH) as (c & E & NC). rewrite E, NC in H. injection H as <-.
      cbn. rewrite upd_same. cbn. auto.
    + destruct HH as (A & B). destruct (calm_req_open s HI HC B) as (c' & E & NC). rewrite E in A. injection A as <-.
      rewrite NC in H. discriminate H.
Qed.

Lemma ending_dec s : inv s -> (exists i r e, c_pc (ps_callers s i) = CEnd r e) \/ (forall i r e, c_pc (ps_callers s i) <> CEnd r e).
Proof.
  intros HI. destruct (ps_lock s) as [k|] eqn:EL.
  - destruct (c_pc (ps_callers s k)) eqn:EP.
    all: try (left; eexists; eexists; eexists; exact EP).
    all: right; intros i r0 e0 X; destruct (holder_of s i HI) as (L & _); [rewrite X; reflexivity|]; assert (i = k) by congruence; subst i; congruence.
  - right. intros i r e X. destruct (holder_of s i HI) as (L & _); [rewrite X; reflexivity|]. congruence.
Qed.

Lemma shapes_run ls : forall s s', shapes s -> Forall label_ok ls -> p_run s ls = Some s' -> shapes s'.
Proof.
  induction ls as [|l ls IH]; intros s s' HS HF E; [injection E as <-; exact HS|].
  cbn [p_run] in E. destruct (p_step s l) as [s1|] eqn:E1; [|discriminate E]. inversion HF; subst.
  eapply (IH s1); [eapply shapes_step; eauto|assumption|exact E].
Qed.

Lemma cause last ls h : Forall label_ok ls -> forall s, p_run (p_init last) ls = Some s ->
  overtaken last ls h \/ handler_ok s (ps_handlers s h).
Proof.
  induction ls as [|l ls IH] using rev_ind; intros HF s' E.
  - injection E as <-. right. exact I.
  - apply Forall_app in HF. destruct HF as (HF & HL). inversion HL as [|? ? HL1 _]; subst.
    rewrite p_run_app in E. destruct (p_run (p_init last) ls) as [s|] eqn:ER; [|discriminate E]. cbn [p_run] in E.
    destruct (p_step s l) as [s0|] eqn:H; [|discriminate E]. injection E as ->.
    destruct (IH HF s eq_refl) as [(ls1 & ls2 & s1 & i & r & e & -> & A)|HO].
    { left. exists ls1, (ls2 ++ [l]), s1, i, r, e. rewrite app_assoc. auto. }
    assert (HI : inv s) by (apply (reachable_inv last); exists ls; exact ER).
    pose proof (shapes_run ls _ _ (shapes_init last) HF ER) as HS.
    destruct (ending_dec s HI) as [(i & r & e & EP)|N].
    + destruct (examining (h_pc (ps_handlers s h))) eqn:EX.
      * left. exists ls, [l], s, i, r, e. split; [reflexivity|]. split; [exact ER|]. split; [|exact EP].
        unfold handler_ok in HO. destruct (h_pc (ps_handlers s h)); try discriminate EX; try exact I; contradiction.
      * right. apply (one_step s l s' h HI HS); [intros X; congruence|exact HO|exact H].
    + right. apply (one_step s l s' h HI HS); [intros _; exact N|exact HO|exact H].
Qed.

(** ** C44 *)

(** In every schedule: a message crashes the process, is left at a nil channel, or at a channel that
    is no more that of the node, only if a call ended while this message was being examined. *)
Theorem C44_cause : forall last ls s h, Forall label_ok ls -> p_run (p_init last) ls = Some s ->
  h_pc (ps_handlers s h) = HPanic \/ h_pc (ps_handlers s h) = HNil \/ (exists c, h_pc (ps_handlers s h) = HBlocked c /\ ps_ch s <> Some c) ->
  overtaken last ls h.
Proof.
  intros last ls s h HF E H. destruct (cause last ls h HF s E) as [X|X]; [exact X|]. exfalso. unfold handler_ok in X.
  destruct H as [H|[H|(c & H & N)]]; rewrite H in X; [exact X|exact X|apply N, X].
Qed.

(** Without calls no message does any of this. *)
Theorem C44_no_call : forall last ls s h, Forall label_ok ls -> p_run (p_init last) ls = Some s ->
  (forall i m tcp, ~ In (LCall i m tcp) ls) -> h_pc (ps_handlers s h) <> HPanic /\ h_pc (ps_handlers s h) <> HNil /\ forall c, h_pc (ps_handlers s h) <> HBlocked c.
Proof.
  intros last ls s h HF E N.
  assert (IDLE : forall ls s, p_run (p_init last) ls = Some s -> (forall i m tcp, ~ In (LCall i m tcp) ls) -> forall i, c_pc (ps_callers s i) = CIdle).
  { clear. induction ls as [|l ls IH] using rev_ind; intros s' E N i; [injection E as <-; reflexivity|].
    rewrite p_run_app in E. destruct (p_run (p_init last) ls) as [s|] eqn:ER; [|discriminate E]. cbn [p_run] in E.
    destruct (p_step s l) as [s0|] eqn:H; [|discriminate E]. injection E as ->.
    assert (IH' : forall i, c_pc (ps_callers s i) = CIdle).
    { apply IH; [reflexivity|]. intros j m tcp X. apply (N j m tcp). apply in_or_app. auto. }
    destruct (of_call i l) eqn:O; [|rewrite (callers_of s l s' H i O); apply IH'].
    destruct l as [j m tcp|j ok|j m|j|j k| | | |]; cbn [of_call] in O; try discriminate O; apply Nat.eqb_eq in O; subst j.
    { exfalso. apply (N i m tcp). apply in_or_app. right. left. reflexivity. }
    all: cbn [p_step] in H; unfold call_step in H; cbv zeta in H; rewrite (IH' i) in H; discriminate H. }
  assert (NO : ~ overtaken last ls h).
  { intros (ls1 & ls2 & s1 & i & r & e & -> & A & _ & B).
    rewrite (IDLE ls1 s1 A) in B; [discriminate B|]. intros j m tcp X. apply (N j m tcp). apply in_or_app. auto. }
  split; [intros X; apply NO, (C44_cause last ls s h HF E); auto|]. split; [intros X; apply NO, (C44_cause last ls s h HF E); auto|].
  intros c X. apply NO, (C44_cause last ls s h HF E). right. right. exists c. split; [exact X|].
  assert (HI : inv s) by (apply (reachable_inv last); exists ls; exact E).
  intros Y. destruct HI as (_ & HL & _). destruct (ps_lock s) as [k|]; [|destruct HL; congruence].
  unfold holder_ok in HL. rewrite (IDLE ls s E N) in HL. exact HL.
Qed.

(** False in the code, for every message whatever: not only a response, any message received while
    a call times out can crash the process, also one that has nothing to do with the request. *)
Definition any_race (m : message) : list label :=
  [LCall 0 request false] ++ steps 0 10 ++ [LRecv 0 m] ++ handles 0 4 ++ [LTimeout 0] ++ steps 0 4 ++ handles 0 2.
Theorem C44_any_refuted : forall m, handler_at (p_run (p_init 0) (any_race m)) 0 = Some HPanic.
Proof. intros m. reflexivity. Qed.

(** In every schedule, a message that has passed its first check and is examined when the call has
    cleared its request crashes the process; one handed over when the channel is cleared stays for ever. *)
Theorem C44_cleared_refuted : forall s h,
  (h_pc (ps_handlers s h) = HEq \/ h_pc (ps_handlers s h) = HTid -> ps_req s = None ->
   exists k s', p_run s (handles h k) = Some s' /\ h_pc (ps_handlers s' h) = HPanic) /\
  (h_pc (ps_handlers s h) = HSend -> ps_ch s = None ->
   exists s', p_step s (LHandle h) = Some s' /\ forall ls s2, p_run s' ls = Some s2 -> h_pc (ps_handlers s2 h) = HNil).
Proof.
  intros s h. split.
  - assert (LAST : forall s, h_pc (ps_handlers s h) = HTid -> ps_req s = None ->
      exists s', p_step s (LHandle h) = Some s' /\ h_pc (ps_handlers s' h) = HPanic).
    { clear. intros s X E. cbn [p_step]. unfold handle_step. cbv zeta. rewrite X, E. eexists. split; [reflexivity|]. cbn. rewrite upd_same. reflexivity. }
    intros [X|X] E.
    + destruct (LAST (set_handler s h (mkHandler HTid (h_msg (ps_handlers s h)) (h_during (ps_handlers s h))))) as (s' & A & B);
        [cbn; rewrite upd_same; reflexivity|exact E|].
      exists 2%nat, s'. split; [|exact B]. change (handles h 2) with [LHandle h; LHandle h]. cbn [p_run].
      assert (F : p_step s (LHandle h) = Some (set_handler s h (mkHandler HTid (h_msg (ps_handlers s h)) (h_during (ps_handlers s h))))).
      { cbn [p_step]. unfold handle_step. cbv zeta. rewrite X, E. reflexivity. }
      rewrite F, A. reflexivity.
    + destruct (LAST s X E) as (s' & A & B). exists 1%nat, s'. split; [|exact B]. change (handles h 1) with [LHandle h]. cbn [p_run]. rewrite A. reflexivity.
  - intros X E. cbn [p_step]; unfold handle_step; cbv zeta; rewrite X, E. eexists. split; [reflexivity|].
    intros ls s2. apply nil_for_ever. cbn. rewrite upd_same. reflexivity.
Qed.

(** The schedules of the refutations are overtaken in this sense. *)
Example C44_overtaken_example : overtaken 0 (any_race (answer 7)) 0 /\ TID (answer 7) = 7 /\ Forall label_ok (any_race (answer 7)).
Proof.
  split; [|split; [reflexivity|]].
  - exists (firstn 17 (any_race (answer 7))), (skipn 17 (any_race (answer 7))).
    destruct (p_run (p_init 0) (firstn 17 (any_race (answer 7)))) as [s|] eqn:E; [|vm_compute in E; discriminate E].
    exists s, 0%nat, RTimeout, ECheck. split; [reflexivity|]. split; [reflexivity|].
    assert (A : option_map (fun s => (h_pc (ps_handlers s 0), c_pc (ps_callers s 0))) (p_run (p_init 0) (firstn 17 (any_race (answer 7))))
                = Some (HEq, CEnd RTimeout ECheck)) by (vm_compute; reflexivity).
    rewrite E in A. cbn [option_map] in A. injection A as A1 A2. rewrite A1, A2. auto.
  - unfold any_race. cbn [app steps handles repeat]. repeat constructor.
Qed.

Print Assumptions C44_cause.
Print Assumptions C44_no_call.
Print Assumptions C44_any_refuted.
Print Assumptions C44_cleared_refuted.
