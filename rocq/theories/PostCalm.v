(** Facts about schedules in which no call ends while a received message is
    being examined. *)

From Verif Require Import Go GoFacts Encoding EncodingFacts Protocol MessageFacts ProtocolFacts Node Post PostFacts.
From Coq Require Import ZifyBool ZifyNat.
Local Open Scope Z_scope.

Lemma reachable_match last s : reachable last s -> match_inv s.
Proof.
  intros H. cut (inv s /\ match_inv s); [intros (_ & X); exact X|]. revert s H.
  apply reach_inv; [split; [apply inv_init|apply match_init]|].
  intros s l s' (HI & HM) E. split; [eapply inv_step; eauto|eapply match_step; eauto].
Qed.

(** A handler between its first check and the hand-over. *)
Definition examining (p : hpc) : bool := match p with HIdle | HRest => false | _ => true end.

Definition calm (s : pstate) : Prop :=
  forall h i r e, examining (h_pc (ps_handlers s h)) = true -> c_pc (ps_callers s i) <> CEnd r e.

(** The messages that calls and the network bring in have object codes of three
    bytes (all messages made by the library have). *)
Definition label_ok (l : label) : Prop :=
  match l with LCall _ m _ | LRecv _ m => shape m | _ => True end.

(** Every state along the schedule is calm. *)
Fixpoint calm_run (s : pstate) (ls : list label) : Prop :=
  calm s /\ match ls with
            | [] => True
            | l :: ls => label_ok l /\ forall s', p_step s l = Some s' -> calm_run s' ls
            end.

Definition handler_ok (s : pstate) (x : handler) : Prop :=
  match h_pc x with
  | HIdle | HRest | HReq0 => True
  | HBlocked c => ps_ch s = Some c /\ ps_req s <> None
  | HNil | HPanic => False
  | _ => ps_req s <> None
  end.

Definition shapes (s : pstate) : Prop :=
  (forall i, shape (c_msg (ps_callers s i))) /\ (forall h, shape (h_msg (ps_handlers s h))).

Lemma shape_header m t ok : shape m -> shape (with_header m t ok).
Proof.
  intros [H1 H2]. unfold with_header. destruct ok; [|split; assumption].
  split; [|exact H2]. unfold SetSEOJ. cbn [with_seoj m_seoj]. rewrite IntegerToByte_length. exact H1.
Qed.

Lemma shapes_step s l s' : shapes s -> label_ok l -> p_step s l = Some s' -> shapes s'.
Proof.
  intros (H1 & H2) HL H.
  assert (UC : forall i p m, shape m -> forall j, shape (c_msg (upd (ps_callers s) i (mkCaller p m) j))).
  { intros i p m S j. unfold upd. destruct (Nat.eqb j i); [exact S|apply H1]. }
  assert (UH : forall i p m d, shape m -> forall j, shape (h_msg (upd (ps_handlers s) i (mkHandler p m d) j))).
  { intros i p m d S j. unfold upd. destruct (Nat.eqb j i); [exact S|apply H2]. }
  destruct l; cbn [p_step label_ok] in *.
  - opt H. injection H as <-. split; cbn; [apply UC; assumption|assumption].
  - unfold call_step, end_step, go_on in H; cbv zeta in H.
    opt H; injection H as <-; (split; [cbn; apply UC; first [apply shape_header, H1|apply H1]|cbn; assumption]).
  - unfold go_on in H. opt H. injection H as <-. split; cbn; [apply UC, H1|assumption].
  - unfold go_on in H. opt H. injection H as <-. split; cbn; [apply UC, H1|assumption].
  - unfold go_on in H. opt H. injection H as <-. split; cbn; [apply UC, H1|apply UH, H2].
  - opt H. injection H as <-. split; cbn; [assumption|apply UH; assumption].
  - apply handle_same in H. destruct H as ((_ & _ & _ & _ & _ & E) & _ & _ & _ & _ & p & E').
    split; [rewrite E; assumption|rewrite E'; apply UH, H2].
  - opt H. injection H as <-. split; cbn; assumption.
  - apply sender_same in H. destruct H as ((_ & _ & _ & _ & _ & E) & E' & _). split; [rewrite E|rewrite E']; assumption.
Qed.

(** While a request is registered and no call is ending, no step touches the
    request and the channel. *)
Lemma req_holder s : inv s -> ps_req s <> None -> exists i, ps_lock s = Some i /\ ps_req s = Some i /\ holder_ok s i.
Proof.
  intros (_ & H & _) N. destruct (ps_lock s) as [i|]; [|destruct H; contradiction].
  exists i. split; [reflexivity|]. split; [|exact H].
  unfold holder_ok in H. destruct (c_pc (ps_callers s i)) as [| | | | | | | | | | | | |r e|r]; try contradiction; try apply H;
    try (destruct H; contradiction). destruct e; try apply H. destruct H; contradiction.
Qed.

Lemma frozen s l s' : inv s -> (forall i r e, c_pc (ps_callers s i) <> CEnd r e) -> ps_req s <> None ->
  p_step s l = Some s' -> ps_req s' = ps_req s /\ ps_ch s' = ps_ch s.
Proof.
  intros HI HC HR H. destruct (req_holder s HI HR) as (k & L & R & HO).
  destruct l; cbn [p_step] in H.
  - opt H. injection H as <-. auto.
  - unfold call_step in H. cbv zeta in H.
    destruct (c_pc (ps_callers s i)) as [| |t|t| | | | | |t|t| | |r e|r] eqn:EP; unfold go_on in H; try discriminate H.
    all: try (opt H; injection H as <-; auto; fail).
    + exfalso. pose proof HI as (H1 & _). specialize (H1 i). rewrite EP in H1. specialize (H1 eq_refl).
      assert (i = k) by congruence. subst k. unfold holder_ok in HO. rewrite EP in HO. destruct HO; contradiction.
    + exfalso. pose proof HI as (H1 & _). specialize (H1 i). rewrite EP in H1. specialize (H1 eq_refl).
      assert (i = k) by congruence. subst k. unfold holder_ok in HO. rewrite EP in HO. destruct HO; contradiction.
    + exfalso. apply (HC i r e EP).
  - unfold go_on in H. opt H. injection H as <-. auto.
  - unfold go_on in H. opt H. injection H as <-. auto.
  - unfold go_on in H. opt H. injection H as <-. auto.
  - opt H. injection H as <-. auto.
  - apply handle_same in H. destruct H as ((_ & A & _ & _ & B & _) & _). auto.
  - opt H. injection H as <-. auto.
  - apply sender_same in H. destruct H as ((_ & A & _ & _ & B & _) & _). auto.
Qed.

(** What a step does to one handler. *)
Lemma handler_change s l s' h : p_step s l = Some s' ->
  ps_handlers s' h = ps_handlers s h \/
  (exists i, l = LDeliver i h /\ h_pc (ps_handlers s' h) = HRest) \/
  (exists m, l = LRecv h m /\ h_pc (ps_handlers s' h) = HReq0) \/
  l = LHandle h.
Proof.
  intros H. destruct l; cbn [p_step] in H.
  1-4: left; unfold call_step, end_step, go_on in H; cbv zeta in H; opt H; injection H as <-; reflexivity.
  - unfold go_on in H. opt H. injection H as <-. cbn. destruct (Nat.eq_dec h h0) as [->|N].
    + right. left. exists i. rewrite upd_same. auto.
    + left. apply upd_other, N.
  - opt H. injection H as <-. cbn. destruct (Nat.eq_dec h h0) as [->|N].
    + right. right. left. exists m. rewrite upd_same. auto.
    + left. apply upd_other, N.
  - destruct (Nat.eq_dec h h0) as [->|N]; [auto|]. left. apply handle_same in H.
    destruct H as (_ & _ & _ & _ & _ & p & E). rewrite E. apply upd_other, N.
  - left. opt H; injection H as <-; reflexivity.
  - left. apply sender_same in H. destruct H as (_ & E & _). rewrite E. reflexivity.
Qed.

Lemma calm_req_open s : inv s -> (forall i r e, c_pc (ps_callers s i) <> CEnd r e) -> ps_req s <> None ->
  exists c, ps_ch s = Some c /\ is_closed s c = false.
Proof.
  intros HI HC HR. destruct (req_holder s HI HR) as (k & L & R & HO). unfold holder_ok in HO.
  assert (X : open_ch s).
  { destruct (c_pc (ps_callers s k)) eqn:EP; try contradiction; try apply HO; exfalso; try (apply (HC k _ _ EP)); destruct HO; contradiction. }
  destruct X as (c & E & N). exists c. split; [exact E|]. destruct (is_closed s c) eqn:X; [|reflexivity].
  apply is_closed_iff in X. contradiction.
Qed.

Lemma calm_step s l s' : inv s -> calm s -> shapes s ->
  (forall h, handler_ok s (ps_handlers s h)) -> p_step s l = Some s' ->
  forall h, handler_ok s' (ps_handlers s' h).
Proof.
  intros HI HC (S1 & S2) HH H h. specialize (HH h).
  destruct (handler_change s l s' h H) as [E|[(i & -> & E)|[(m & -> & E)| -> ]]].
  - rewrite E. unfold handler_ok in *.
    assert (K : examining (h_pc (ps_handlers s h)) = true -> ps_req s <> None -> ps_req s' = ps_req s /\ ps_ch s' = ps_ch s).
    { intros X Y. apply (frozen s l s' HI); [intros i r e; apply (HC h i r e X)|exact Y|exact H]. }
    destruct (h_pc (ps_handlers s h)); auto; cbn in K.
    all: try (destruct (K eq_refl HH) as (-> & _); assumption).
    destruct HH as (A & B). destruct (K eq_refl B) as (-> & ->). auto.
  - unfold handler_ok. rewrite E. exact I.
  - unfold handler_ok. rewrite E. exact I.
  - cbn [p_step] in H. pose proof (handle_same s h s' H) as ((_ & EC & _ & _ & ER & _) & _).
    unfold handler_ok in *. rewrite EC, ER. clear EC ER.
    assert (K : examining (h_pc (ps_handlers s h)) = true -> forall i r e, c_pc (ps_callers s i) <> CEnd r e).
    { intros X i r e. apply (HC h i r e X). }
    unfold handle_step in H. cbv zeta in H.
    destruct (h_pc (ps_handlers s h)) eqn:EH; try discriminate H; cbn in K; specialize (K eq_refl).
    1-4: opt H; injection H as <-; cbn; rewrite upd_same; cbn; auto; discriminate.
    + destruct (ps_req s) as [i|] eqn:ER; [|contradiction]. cbn [option_map Equals] in H.
      rewrite (Bytes_general _ (S2 h)), (Bytes_general _ (S1 i)) in H. cbn [bind] in H.
      destruct (bytes_eqb _ _); injection H as <-; cbn; rewrite upd_same; cbn; auto.
    + destruct (ps_req s) as [i|] eqn:ER; [|contradiction].
      destruct (_ =? _); injection H as <-; cbn; rewrite upd_same; cbn; auto.
    + opt H; injection H as <-; cbn; rewrite upd_same; cbn; auto; discriminate.
    + opt H; injection H as <-; cbn; rewrite upd_same; cbn; auto; discriminate.
    + destruct (calm_req_open s HI K HH) as (c & E & NC). rewrite E, NC in H. injection H as <-.
      cbn. rewrite upd_same. cbn. auto.
    + destruct HH as (A & B). destruct (calm_req_open s HI K B) as (c' & E & NC). rewrite E in A. injection A as <-.
      rewrite NC in H. discriminate H.
Qed.

Lemma calm_run_ok ls : forall s s', inv s -> shapes s -> (forall h, handler_ok s (ps_handlers s h)) ->
  calm_run s ls -> p_run s ls = Some s' ->
  calm s' /\ inv s' /\ forall h, handler_ok s' (ps_handlers s' h).
Proof.
  induction ls as [|l ls IH]; intros s s' HI HS HH HC E.
  - injection E as <-. cbn in HC. destruct HC; auto.
  - cbn [p_run] in E. destruct (p_step s l) as [s1|] eqn:E1; [|discriminate E].
    cbn [calm_run] in HC. destruct HC as (C0 & L & C1). eapply (IH s1).
    + eapply inv_step; eauto.
    + eapply shapes_step; eauto.
    + eapply calm_step; eauto.
    + apply C1, E1.
    + exact E.
Qed.

Lemma shapes_init last : shapes (p_init last).
Proof. split; intros; split; reflexivity. Qed.

(** ** A handler that is still blocked when the call is over *)

Definition blocked_inv (s : pstate) : Prop :=
  forall h c, h_pc (ps_handlers s h) = HBlocked c -> ps_ch s = Some c \/ In c (ps_closed s).

Lemma closed_kept s l s' : p_step s l = Some s' -> forall c, In c (ps_closed s) -> In c (ps_closed s').
Proof.
  intros H c HC. destruct l; cbn [p_step] in H.
  1-6: unfold call_step, end_step, go_on in H; cbv zeta in H; opt H; injection H as <-; cbn; auto.
  - apply handle_same in H. destruct H as ((_ & _ & _ & E & _) & _). rewrite E. assumption.
  - opt H; injection H as <-; assumption.
  - apply sender_same in H. destruct H as ((_ & _ & _ & E & _) & _). rewrite E. assumption.
Qed.

(** EClearCh comes after EClose: then the channel is among the closed ones. *)
Definition clear_inv (s : pstate) : Prop :=
  forall i r c, c_pc (ps_callers s i) = CEnd r EClearCh -> ps_ch s = Some c -> In c (ps_closed s).

Lemma clear_step s l s' : inv s -> clear_inv s -> p_step s l = Some s' -> clear_inv s'.
Proof.
  intros HI HCl H i r c EP EC.
  destruct (of_call i l) eqn:O.
  - destruct l as [j m tcp|j ok|j m|j|j h| | | |]; cbn [p_step of_call] in *; try discriminate O;
      apply Nat.eqb_eq in O; subst j.
    + opt H; injection H as <-; cbn in EP; rewrite upd_same in EP; destruct tcp; discriminate EP.
    + unfold call_step, end_step, go_on in H; cbv zeta in H.
      opt H; injection H as <-; cbn in *; rewrite upd_same in EP; cbn in EP; try discriminate EP;
        try (destruct ok; discriminate EP); try (destruct s0; discriminate EP).
      left. congruence.
    + unfold go_on in H; opt H; injection H as <-; cbn in EP; rewrite upd_same in EP; discriminate EP.
    + unfold go_on in H; opt H; injection H as <-; cbn in EP; rewrite upd_same in EP; discriminate EP.
    + unfold go_on in H; opt H; injection H as <-; cbn in EP; rewrite upd_same in EP; discriminate EP.
  - rewrite (callers_of s l s' H i O) in EP. apply (closed_kept s l s' H).
    apply (HCl i r c EP). rewrite <- EC. symmetry.
    (* another call cannot touch the channel: i holds the lock *)
    destruct (holder_of s i HI) as (L & HO); [rewrite EP; reflexivity|].
    destruct l; cbn [p_step of_call] in *.
    + opt H; injection H as <-; reflexivity.
    + assert (N : in_cs (c_pc (ps_callers s i0)) = false).
      { apply (others_out s i HI L). apply Nat.eqb_neq. assumption. }
      unfold call_step, end_step, go_on in H; cbv zeta in H.
      destruct (c_pc (ps_callers s i0)); cbn in N; try discriminate N; try discriminate H; opt H; injection H as <-; reflexivity.
    + unfold go_on in H; opt H; injection H as <-; reflexivity.
    + unfold go_on in H; opt H; injection H as <-; reflexivity.
    + unfold go_on in H; opt H; injection H as <-; (reflexivity || (cbn; congruence)).
    + opt H; injection H as <-; reflexivity.
    + apply handle_same in H. apply H.
    + opt H; injection H as <-; reflexivity.
    + apply sender_same in H. apply H.
Qed.

Lemma blocked_step s l s' : inv s -> clear_inv s -> blocked_inv s -> p_step s l = Some s' -> blocked_inv s'.
Proof.
  intros HI HCl HB H h c EB.
  assert (ST : ps_ch s = Some c \/ In c (ps_closed s) -> ps_ch s' = Some c \/ In c (ps_closed s')).
  { intros [X|X]; [|right; eapply closed_kept; eauto].
    destruct l; cbn [p_step] in H.
    - opt H; injection H as <-; auto.
    - unfold call_step in H; cbv zeta in H.
      destruct (c_pc (ps_callers s i)) as [| |t|t| | | | | |t|t| | |r e|r] eqn:EP; unfold go_on in H; try discriminate H;
        try (opt H; injection H as <-; auto; fail).
      + destruct (holder_of s i HI) as (L & HO); [rewrite EP; reflexivity|]. unfold holder_ok in HO. rewrite EP in HO.
        destruct HO as (Y & _). congruence.
      + unfold end_step, go_on in H. destruct e.
        * opt H; injection H as <-; cbn; left; congruence.
        * opt H; injection H as <-; cbn. left; congruence.
        * injection H as <-. cbn. right. eapply HCl; eauto.
        * injection H as <-; auto.
        * injection H as <-; auto.
    - unfold go_on in H; opt H; injection H as <-; auto.
    - unfold go_on in H; opt H; injection H as <-; cbn in *; auto; left; congruence.
    - unfold go_on in H; opt H; injection H as <-; cbn in *; auto; left; congruence.
    - opt H; injection H as <-; cbn in *; auto; left; congruence.
    - apply handle_same in H. destruct H as ((_ & E & _) & _). rewrite E. auto.
    - opt H; injection H as <-; auto.
    - apply sender_same in H. destruct H as ((_ & E & _) & _). rewrite E. auto. }
  destruct (handler_change s l s' h H) as [E|[(i & -> & E)|[(m & -> & E)| -> ]]].
  - rewrite E in EB. apply ST, (HB h c EB).
  - congruence.
  - congruence.
  - cbn [p_step] in H. pose proof (handle_same s h s' H) as ((_ & EC & _ & ED & _) & _). rewrite EC, ED.
    unfold handle_step in H; cbv zeta in H.
    opt H; injection H as <-; cbn in EB; rewrite upd_same in EB; cbn in EB; try discriminate EB.
    injection EB as <-. auto.
Qed.

Lemma reachable_blocked last s : reachable last s -> inv s /\ clear_inv s /\ blocked_inv s.
Proof.
  revert s. apply reach_inv.
  - split; [apply inv_init|]. split; [intros i r c X; discriminate X|intros h c X; discriminate X].
  - intros s0 l s' (HI & HC & HB) E. split; [eapply inv_step; eauto|]. split; [eapply clear_step; eauto|eapply blocked_step; eauto].
Qed.

(** A handler at a nil channel stays there. *)
Lemma nil_for_ever h ls : forall s s', h_pc (ps_handlers s h) = HNil -> p_run s ls = Some s' ->
  h_pc (ps_handlers s' h) = HNil.
Proof.
  induction ls as [|l ls IH]; intros s s' E H.
  - injection H as <-. assumption.
  - cbn [p_run] in H. destruct (p_step s l) as [s1|] eqn:E1; [|discriminate H]. apply (IH s1); [|assumption].
    destruct (handler_change s l s1 h E1) as [X|[(i & -> & X)|[(m & -> & X)| -> ]]].
    + rewrite X. assumption.
    + cbn [p_step] in E1. unfold go_on in E1. rewrite E in E1. destruct (c_pc (ps_callers s i)); discriminate E1.
    + cbn [p_step] in E1. rewrite E in E1. discriminate E1.
    + cbn [p_step] in E1. unfold handle_step in E1; cbv zeta in E1. rewrite E in E1. discriminate E1.
Qed.
