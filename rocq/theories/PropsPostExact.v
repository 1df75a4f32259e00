(** C43, for every schedule: what a message that PostMessage returns has to do with the
    requests of the node. *)

From Verif Require Import Go GoFacts Encoding EncodingFacts Protocol MessageFacts ProtocolFacts Node NodeFacts Post PostFacts PostCalm PostTid PropsPost.
From Coq Require Import ZifyBool ZifyNat.
Local Open Scope Z_scope.

(** ** Statement vocabulary *)

(** At that point of the schedule the message [m] had been received by the goroutine
    [h] and the call [j], which held the lock, had registered its message, whose
    transaction identifier then was that of [m]. *)
Definition matched (ls : list label) (s : pstate) (h : nat) (m : message) (j : nat) : Prop :=
  In (LRecv h m) ls /\ ps_req s = Some j /\ ps_lock s = Some j /\ TID m = TID (c_msg (ps_callers s j)).

Definition was_matched (last : Z) (ls : list label) (h : nat) (m : message) : Prop :=
  exists ls1 ls2 s1 j, ls = ls1 ++ ls2 /\ p_run (p_init last) ls1 = Some s1 /\ matched ls1 s1 h m j.

(** ** Facts *)

Definition past_check (p : hpc) : bool := match p with HReq2 | HCh2 | HSend | HBlocked _ | HNil => true | _ => false end.

Lemma handler_change s l s' h : p_step s l = Some s' ->
  (past_check (h_pc (ps_handlers s' h)) = true -> past_check (h_pc (ps_handlers s h)) = true \/
     (h_pc (ps_handlers s h) = HTid /\ exists j, ps_req s = Some j /\ TID (h_msg (ps_handlers s h)) = TID (c_msg (ps_callers s j)))) /\
  (h_pc (ps_handlers s h) = HRest -> h_pc (ps_handlers s' h) = HRest).
Proof.
  intros H. destruct l as [| | | |i k|k m|k| |]; cbn [p_step] in H.
  1: opt H; injection H as <-; auto.
  1: unfold call_step, end_step, go_on in H; cbv zeta in H; opt H; injection H as <-; auto.
  1-2: unfold go_on in H; opt H; injection H as <-; auto.
  - unfold go_on in H. opt H. injection H as <-. cbn. destruct (Nat.eq_dec h k) as [->|N].
    + rewrite upd_same. cbn. split; [discriminate|reflexivity].
    + rewrite upd_other by assumption. auto.
  - opt H. injection H as <-. cbn. destruct (Nat.eq_dec h k) as [->|N].
    + rewrite upd_same. cbn. split; [discriminate|congruence].
    + rewrite upd_other by assumption. auto.
  - unfold handle_step in H. cbv zeta in H. destruct (Nat.eq_dec h k) as [->|N].
    + destruct (h_pc (ps_handlers s k)) eqn:EP; opt H; try discriminate H; injection H as <-; cbn; rewrite upd_same; cbn;
        (split; [intros X; try discriminate X; try (left; reflexivity)|intros X; discriminate X]).
      right. split; [reflexivity|]. eexists. split; [reflexivity|]. lia.
    + opt H; injection H as <-; cbn; rewrite upd_other by assumption; auto.
  - opt H; injection H as <-; auto.
  - apply sender_same in H. destruct H as (_ & E & _). rewrite E. auto.
Qed.

Lemma req_lock s j : inv s -> ps_req s = Some j -> ps_lock s = Some j.
Proof.
  intros (_ & H & _) E. destruct (ps_lock s) as [i|]; [|destruct H; congruence]. unfold holder_ok in H.
  destruct (c_pc (ps_callers s i)) as [| | | | | | | | | | | | |r []|]; intuition congruence.
Qed.

Lemma matched_later last ls l h m : was_matched last ls h m -> was_matched last (ls ++ [l]) h m.
Proof.
  intros (ls1 & ls2 & s1 & j & -> & H). exists ls1, (ls2 ++ [l]), s1, j. rewrite app_assoc. auto.
Qed.

Lemma exact_inv last ls : forall s, p_run (p_init last) ls = Some s ->
  (forall h, h_pc (ps_handlers s h) <> HIdle -> In (LRecv h (h_msg (ps_handlers s h))) ls) /\
  (forall h, past_check (h_pc (ps_handlers s h)) = true -> was_matched last ls h (h_msg (ps_handlers s h))) /\
  (forall i h m, result_of (c_pc (ps_callers s i)) = Some (RResponse h m) ->
     h_pc (ps_handlers s h) = HRest /\ h_msg (ps_handlers s h) = m /\ was_matched last ls h m /\
     forall i' m', result_of (c_pc (ps_callers s i')) = Some (RResponse h m') -> i' = i).
Proof.
  induction ls as [|l ls IH] using rev_ind; intros s' E.
  - cbn in E. injection E as <-. cbn. split; [congruence|]. split; [discriminate|]. intros i h m X. discriminate X.
  - rewrite p_run_app in E. destruct (p_run (p_init last) ls) as [s|] eqn:ER; [|discriminate E]. cbn [p_run] in E.
    destruct (p_step s l) as [s0|] eqn:H; [|discriminate E]. injection E as ->. destruct (IH s eq_refl) as (I1 & I2 & I3). clear IH.
    assert (HI : inv s) by (apply (reachable_inv last); exists ls; exact ER).
    assert (K1 : forall h, h_pc (ps_handlers s' h) <> HIdle -> In (LRecv h (h_msg (ps_handlers s' h))) (ls ++ [l])).
    { intros h N. apply in_or_app. destruct (handlers_of s l s' H h N) as [(A & B & _)|(A & _)].
      - left. rewrite B. apply I1, A.
      - right. left. exact A. }
    split; [exact K1|]. split.
    + intros h P. destruct (handler_change s l s' h H) as (A & _). specialize (A P).
      assert (N : h_pc (ps_handlers s h) <> HIdle).
      { destruct A as [A|(A & _)]; [intros X; rewrite X in A; discriminate A|congruence]. }
      assert (EM : h_msg (ps_handlers s' h) = h_msg (ps_handlers s h)).
      { destruct (handlers_of s l s' H h) as [(_ & B & _)|(B & _)]; [intros X; rewrite X in P; discriminate P|exact B|].
        exfalso. subst l. cbn [p_step] in H. destruct (h_pc (ps_handlers s h)); congruence. }
      rewrite EM. destruct A as [A|(A & j & B & C)]; [apply matched_later, I2, A|].
      exists ls, [l], s, j. split; [reflexivity|]. split; [exact ER|]. split; [apply I1, N|]. split; [exact B|].
      split; [apply req_lock; assumption|exact C].
    + assert (OLD : forall i h m, result_of (c_pc (ps_callers s' i)) = Some (RResponse h m) ->
        result_of (c_pc (ps_callers s i)) = Some (RResponse h m) \/
        (l = LDeliver i h /\ m = h_msg (ps_handlers s h) /\ exists b, h_pc (ps_handlers s h) = HBlocked b)).
      { intros i h m R. destruct (caller_change s l s' i H) as [X|(_ & _ & _ & X)]; [rewrite X in R; auto|]. rewrite R in X.
        destruct X as [(X & _)|(_ & X & _ & Y & _ & Z)]; auto. }
      intros i h m R. destruct (OLD i h m R) as [R0|(L & EM & b & EB)].
      * destruct (I3 i h m R0) as (A & B & C & D). split; [apply (handler_change s l s' h H), A|].
        assert (NI : h_pc (ps_handlers s' h) <> HIdle) by (rewrite (proj2 (handler_change s l s' h H) A); discriminate).
        split.
        { destruct (handlers_of s l s' H h NI) as [(_ & X & _)|(X & _)]; [congruence|]. exfalso. subst l. cbn [p_step] in H. rewrite A in H. discriminate H. }
        split; [apply matched_later, C|]. intros i' m' R'. destruct (OLD i' h m' R') as [R1|(_ & _ & b & X)]; [eapply D, R1|congruence].
      * subst l. assert (P : past_check (h_pc (ps_handlers s h)) = true) by (rewrite EB; reflexivity).
        assert (ST : h_pc (ps_handlers s' h) = HRest /\ h_msg (ps_handlers s' h) = h_msg (ps_handlers s h)).
        { cbn [p_step] in H. unfold go_on in H. opt H. injection H as <-. cbn. rewrite upd_same. auto. }
        split; [apply ST|]. split; [rewrite (proj2 ST); congruence|]. split; [apply matched_later; rewrite EM; apply I2, P|].
        intros i' m' R'. destruct (OLD i' h m' R') as [R1|(X & _)]; [|congruence]. destruct (I3 i' h m' R1) as (X & _). congruence.
Qed.

(** ** C43 *)

(** In every schedule, a message returned for a request without TCP was received, and
    had, when it was examined, the transaction identifier of the message of a call then in
    progress.  (C43_early_refuted and C43_late_refuted: this call may be another one, and
    the identifier one that was not sent.) *)
Theorem C43_returned : forall last ls s i h m, p_run (p_init last) ls = Some s ->
  c_pc (ps_callers s i) = CDone (RResponse h m) -> was_matched last ls h m.
Proof.
  intros last ls s i h m E R. destruct (exact_inv last ls s E) as (_ & _ & K). destruct (K i h m) as (_ & _ & M & _); [rewrite R; reflexivity|exact M].
Qed.

(** No received message is returned to two calls. *)
Theorem C43_once : forall last s i i' h m m', reachable last s ->
  c_pc (ps_callers s i) = CDone (RResponse h m) -> c_pc (ps_callers s i') = CDone (RResponse h m') -> i' = i.
Proof.
  intros last s i i' h m m' (ls & E) R R'. destruct (exact_inv last ls s E) as (_ & _ & K).
  destruct (K i h m) as (_ & _ & _ & M); [rewrite R; reflexivity|]. apply (M i' m'). rewrite R'. reflexivity.
Qed.

(** A message with an identifier that no message of a call ever had is never returned. *)
Theorem C43_foreign : forall last ls s i h m, p_run (p_init last) ls = Some s ->
  (forall ls1 ls2 s1 j, ls = ls1 ++ ls2 -> p_run (p_init last) ls1 = Some s1 -> TID m <> TID (c_msg (ps_callers s1 j))) ->
  c_pc (ps_callers s i) <> CDone (RResponse h m).
Proof.
  intros last ls s i h m E N R. destruct (C43_returned last ls s i h m E R) as (ls1 & ls2 & s1 & j & X & Y & _ & _ & _ & Z).
  exact (N ls1 ls2 s1 j X Y Z).
Qed.

(** The response of the first call of the schedule of C42, and the answer of
    C43_late_refuted, which was examined for call 0 and returned to call 1. *)
Example C43_returned_example :
  option_map (fun s => (ps_req s, ps_lock s, TID (c_msg (ps_callers s 0)), h_pc (ps_handlers s 0)))
    (p_run (p_init 0) (firstn 18 late_answer)) = Some (Some 0%nat, Some 0%nat, 1, HTid) /\
  TID (answer 1) = 1 /\
  result_at (p_run (p_init 0) late_answer) 1 = Some (CDone (RResponse 0 (answer 1))).
Proof. vm_compute. auto. Qed.

Print Assumptions C43_returned.
Print Assumptions C43_once.
Print Assumptions C43_foreign.
