(** Theorems C42-C45: concurrent requests.  A schedule is a list of labels; what
    holds of [reachable] states holds after every schedule, for any number of
    calls, received messages and direct senders. *)

From Verif Require Import Go GoFacts Encoding EncodingFacts Protocol MessageFacts ProtocolFacts Node NodeFacts Post PostFacts PostCalm PostTid.
From Coq Require Import ZifyBool ZifyNat Sorted.
Local Open Scope Z_scope.

(** Calls and handlers for the examples: a read request, answers to it. *)
Definition request : message := SetESV (SetDEOJ NewMessage 0x013001) 0x62.
Definition answer (tid : Z) : message := SetESV (SetSEOJ (SetTID NewMessage tid) 0x013001) 0x72.
Definition steps (i n : nat) : list label := repeat (LStep i true) n.
Definition handles (h n : nat) : list label := repeat (LHandle h) n.
Definition result_at (o : option pstate) (i : nat) : option cpc := option_map (fun s => c_pc (ps_callers s i)) o.
Definition handler_at (o : option pstate) (h : nat) : option hpc := option_map (fun s => h_pc (ps_handlers s h)) o.
Definition wire_tids (o : option pstate) : option (list Z) :=
  option_map (fun s => map (fun w => TID (w_msg w)) (ps_wire s)) o.

(** ** C42: one outstanding request at a time *)

(** Between taking and releasing the lock, and in particular while waiting, there
    is at most one call. *)
Theorem C42_one_waiting : forall last s i j, reachable last s ->
  in_cs (c_pc (ps_callers s i)) = true -> in_cs (c_pc (ps_callers s j)) = true -> i = j.
Proof.
  intros last s i j H Hi Hj. apply reachable_inv in H. destruct H as (H & _).
  apply H in Hi. apply H in Hj. congruence.
Qed.

Theorem C42_one_wait : forall last s i j, reachable last s ->
  c_pc (ps_callers s i) = CWait -> c_pc (ps_callers s j) = CWait -> i = j.
Proof. intros last s i j H Hi Hj. apply (C42_one_waiting last s); [assumption|rewrite Hi|rewrite Hj]; reflexivity. Qed.

(** How a finished call ended: there was exactly one event that ended it. *)
Theorem C42_outcome : forall last ls s i r, p_run (p_init last) ls = Some s ->
  c_pc (ps_callers s i) = CDone r ->
  match r with
  | RResponse h m => filter (ends i) ls = [LDeliver i h] /\ In (LRecv h m) ls
  | RTcp m => filter (ends i) ls = [LTcp i m]
  | RTimeout => filter (ends i) ls = [LTimeout i]
  | RError => filter (ends i) ls = [] /\ In (LStep i false) ls
  end.
Proof.
  intros last ls s i r H E. destruct (run_history last ls s H) as (HC & _). specialize (HC i). rewrite E in HC. exact HC.
Qed.

(** The outcome is final. *)
Theorem C42_final : forall s i r ls s', c_pc (ps_callers s i) = CDone r -> p_run s ls = Some s' ->
  c_pc (ps_callers s' i) = CDone r /\ filter (of_call i) ls = [].
Proof.
  intros s i r ls. revert s. induction ls as [|l ls IH]; intros s s' E H.
  - injection H as <-. auto.
  - cbn [p_run] in H. destruct (p_step s l) as [s1|] eqn:E1; [|discriminate H]. cbn [filter].
    destruct (of_call i l) eqn:O.
    + pose proof (rank_step s l s1 i E1 O) as R. rewrite E in R. cbn in R. lia.
    + rewrite <- (callers_of s l s1 E1 i O) in E. apply (IH s1); assumption.
Qed.

(** A call that got a response or a timeout over UDP had put its request on the wire. *)
Theorem C42_request_sent : forall last s i r, reachable last s -> c_pc (ps_callers s i) = CDone r ->
  match r with
  | RResponse _ _ | RTimeout => exists w, In w (ps_wire s) /\ w_by w = ByCall i /\ w_msg w = c_msg (ps_callers s i)
  | _ => True
  end.
Proof.
  intros last s i r H E. destruct (reachable_match last s H) as (_ & _ & H3 & _). specialize (H3 i). rewrite E in H3.
  cbn in H3. specialize (H3 ltac:(lia)). destruct r; auto.
Qed.

(** A call makes at most 25 steps of its own; a step is always possible except
    while another call holds the lock, and then that call can make a step; so
    every call can be brought to its end. *)
Theorem C42_bounded : forall last ls s i, p_run (p_init last) ls = Some s ->
  (length (filter (of_call i) ls) <= 25)%nat.
Proof.
  intros last ls s i H. pose proof (steps_bounded ls (p_init last) s i H) as B. cbn in B. lia.
Qed.

Theorem C42_enabled : forall last s i, reachable last s ->
  started (c_pc (ps_callers s i)) -> ~ ended (c_pc (ps_callers s i)) ->
  (exists l s', of_call i l = true /\ p_step s l = Some s') \/
  (c_pc (ps_callers s i) = CLock /\ exists k l s', ps_lock s = Some k /\ of_call k l = true /\ p_step s l = Some s').
Proof.
  intros last s i H HS HE. apply reachable_inv in H.
  destruct (c_pc (ps_callers s i)) eqn:EP.
  6:{ destruct (ps_lock s) as [k|] eqn:L.
      - right. split; [reflexivity|]. pose proof H as (_ & H2 & _). rewrite L in H2. unfold holder_ok in H2.
        destruct (can_step s k H) as (s' & E).
        + destruct (c_pc (ps_callers s k)); try contradiction; exact I.
        + destruct (c_pc (ps_callers s k)); try contradiction; intros [].
        + intros X. rewrite X in H2. contradiction.
        + exists k, (next_label s k), s'. split; [reflexivity|]. split; [apply next_label_of|exact E].
      - left. destruct (can_step s i H) as (s' & E); [rewrite EP; exact I|rewrite EP; exact HE|auto|].
        exists (next_label s i), s'. split; [apply next_label_of|exact E]. }
  all: left; destruct (can_step s i H) as (s' & E); [rewrite EP; exact HS|rewrite EP; exact HE|rewrite EP; discriminate|];
    exists (next_label s i), s'; (split; [apply next_label_of|exact E]).
Qed.

Theorem C42_can_finish : forall last s i, reachable last s -> started (c_pc (ps_callers s i)) ->
  exists ls s', p_run s ls = Some s' /\ ended (c_pc (ps_callers s' i)).
Proof. intros last s i H. apply can_finish, (reachable_inv last), H. Qed.

(** Two calls; the first gets its answer, the second waits and times out. *)
Definition two_calls : list label :=
  [LCall 0 request false; LCall 1 request false] ++ steps 0 10 ++ [LRecv 0 (answer 1)] ++ handles 0 9 ++
  [LDeliver 0 0] ++ steps 0 5 ++ steps 1 10 ++ [LTimeout 1] ++ steps 1 5.
Example C42_example :
  result_at (p_run (p_init 0) two_calls) 0 = Some (CDone (RResponse 0 (answer 1))) /\
  result_at (p_run (p_init 0) two_calls) 1 = Some (CDone RTimeout) /\
  wire_tids (p_run (p_init 0) two_calls) = Some [1; 2] /\
  handler_at (p_run (p_init 0) two_calls) 0 = Some HRest.
Proof. vm_compute. auto. Qed.
(* While call 0 is in its critical section call 1 cannot enter. *)
Example C42_example_locked :
  result_at (p_run (p_init 0) ([LCall 0 request false; LCall 1 request false] ++ steps 0 4 ++ steps 1 1)) 1 = None.
Proof. vm_compute. reflexivity. Qed.

(** ** C43: a response is matched to its request

    Full statement: whenever call [i] has ended with message [m], [m] carries the
    TID of the message that call put on the wire and differs from it. *)
Definition C43_statement : Prop :=
  forall last s i r m, reachable last s -> 0 <= last <= 65535 -> c_pc (ps_callers s i) = CDone r ->
    (r = RTcp m \/ exists h, r = RResponse h m) ->
    TID m = TID (c_msg (ps_callers s i)) /\ Equals (Some m) (Some (c_msg (ps_callers s i))) = Ok false.

(** Proved for every message that arrived while the call was already waiting
    ([h_during] is the call waiting at the arrival).  Missing: the message may
    have arrived before the request was sent, or during an earlier call, or over
    TCP. *)
Theorem C43_matched_partial : forall last s i h m, reachable last s ->
  c_pc (ps_callers s i) = CDone (RResponse h m) -> h_during (ps_handlers s h) = Some i ->
  h_msg (ps_handlers s h) = m /\
  exists w, In w (ps_wire s) /\ w_by w = ByCall i /\
    TID m = TID (w_msg w) /\ Equals (Some m) (Some (w_msg w)) = Ok false.
Proof.
  intros last s i h m H E D. pose proof (reachable_match last s H) as (_ & H2 & _).
  destruct (H2 i h m (or_intror E)) as (A & _ & B). split; [exact A|]. destruct (B D) as (B1 & B2).
  destruct (C42_request_sent last s i _ H E) as (w & W1 & W2 & W3). exists w. rewrite W3. auto.
Qed.
Example C43_example :
  option_map (fun s => h_during (ps_handlers s 0)) (p_run (p_init 0) two_calls) = Some (Some 0%nat).
Proof. vm_compute. reflexivity. Qed.

(** False in the code, first way: the request is registered before its TID is
    set, so a message with the TID that the caller's message object happened to
    have (here 0) is taken for the response to TID 1. *)
Definition early_answer : list label :=
  [LCall 0 request false] ++ steps 0 4 ++ [LRecv 0 (answer 0)] ++ handles 0 9 ++ steps 0 6 ++ [LDeliver 0 0] ++ steps 0 5.
Theorem C43_early_refuted :
  result_at (p_run (p_init 0) early_answer) 0 = Some (CDone (RResponse 0 (answer 0))) /\
  wire_tids (p_run (p_init 0) early_answer) = Some [1] /\ TID (answer 0) = 0.
Proof. vm_compute. auto. Qed.

(** Second way: an answer to the first request, checked before that call timed
    out, is handed over to the second call. *)
Definition late_answer : list label :=
  [LCall 0 request false; LCall 1 request false] ++ steps 0 10 ++ [LRecv 0 (answer 1)] ++ handles 0 6 ++
  [LTimeout 0] ++ steps 0 5 ++ steps 1 10 ++ handles 0 3 ++ [LDeliver 1 0] ++ steps 1 5.
Theorem C43_late_refuted :
  result_at (p_run (p_init 0) late_answer) 1 = Some (CDone (RResponse 0 (answer 1))) /\
  wire_tids (p_run (p_init 0) late_answer) = Some [1; 2] /\ TID (answer 1) = 1.
Proof. vm_compute. auto. Qed.

(** Third way: what comes back over TCP is returned whatever it is. *)
Theorem C43_tcp_refuted : forall last m r, exists ls s,
  p_run (p_init last) ls = Some s /\ c_pc (ps_callers s 0) = CDone (RTcp r) /\
  exists t, c_msg (ps_callers s 0) = with_header m t true.
Proof.
  intros last m r.
  assert (G : forall t0 k, (rank_t t0 <= k)%nat -> forall s, c_pc (ps_callers s 0) = CTcpTid t0 -> c_msg (ps_callers s 0) = m ->
    exists ls s', p_run s ls = Some s' /\ (exists t, c_pc (ps_callers s' 0) = CTcpHead t) /\ c_msg (ps_callers s' 0) = m).
  { intros t0 k. revert t0. induction k as [|k IH]; intros t0 R s EP EM; [destruct t0; cbn in R; lia|].
    pose proof (tid_rank (ps_last s) t0) as TR.
    assert (E1 : p_step s (LStep 0 true) =
      (let '(v, st, k0) := tid_step (ps_last s) t0 in
       go_on (set_last s v st) 0 (match k0 with inl t => CTcpTid t | inr v => CTcpHead v end))).
    { cbn [p_step]. unfold call_step. cbv zeta. rewrite EP. reflexivity. }
    destruct (tid_step (ps_last s) t0) as [[v st] [t1|t1]]; cbn [snd] in TR; unfold go_on in E1.
    - match type of E1 with _ = Some ?s1 =>
        destruct (IH t1 ltac:(lia) s1) as (ls & s' & A & B & C); [cbn; reflexivity|cbn; exact EM|] end.
      exists (LStep 0 true :: ls), s'. split; [|auto]. cbn [p_run]. rewrite E1. exact A.
    - match type of E1 with _ = Some ?s1 => exists [LStep 0 true], s1 end. split; [cbn [p_run]; rewrite E1; reflexivity|].
      split; [exists t1; reflexivity|cbn; exact EM]. }
  destruct (p_run (p_init last) [LCall 0 m true; LStep 0 true]) as [s0|] eqn:E0; [|discriminate E0].
  destruct (G T1 4%nat ltac:(cbn; lia) s0) as (ls & s1 & E1 & (t & EP) & EM);
    [injection E0 as <-; reflexivity|injection E0 as <-; reflexivity|].
  set (s2 := set_caller s1 0 (mkCaller CTcpPost (with_header m t true))).
  assert (E2 : p_step s1 (LStep 0 true) = Some s2).
  { cbn [p_step]. unfold call_step. cbv zeta. rewrite EP, EM. reflexivity. }
  exists ([LCall 0 m true; LStep 0 true] ++ ls ++ [LStep 0 true; LTcp 0 r]).
  exists (set_caller s2 0 (mkCaller (CDone (RTcp r)) (with_header m t true))).
  split; [|split; [reflexivity|exists t; reflexivity]].
  rewrite p_run_app, E0, p_run_app, E1. cbn [p_run]. rewrite E2. reflexivity.
Qed.

Theorem C43_refuted : ~ C43_statement.
Proof.
  intros H. destruct (p_run (p_init 0) early_answer) as [s|] eqn:E; [|vm_compute in E; discriminate E].
  pose proof C43_early_refuted as (R & _). rewrite E in R. cbn [result_at option_map] in R.
  assert (M : option_map (fun s => TID (c_msg (ps_callers s 0))) (p_run (p_init 0) early_answer) = Some 1) by (vm_compute; reflexivity).
  rewrite E in M. cbn [option_map] in M. injection R as R. injection M as M.
  destruct (H 0 s 0%nat (RResponse 0 (answer 0)) (answer 0)) as (T & _); [exists early_answer; exact E|lia|exact R|eauto|].
  rewrite M in T. vm_compute in T. discriminate T.
Qed.

(** ** C44: no schedule of responses crashes the process

    Full statement: no handler of a received message panics or is left at a send
    that can never proceed. *)
Definition C44_statement : Prop :=
  forall last s h, reachable last s ->
    h_pc (ps_handlers s h) <> HPanic /\ h_pc (ps_handlers s h) <> HNil.

(** Proved when no call ends while a received message is between its first check
    and the hand-over: no panic, no send on a nil channel, and a handler that is
    blocked is blocked on the open channel of a call that has not ended, whose
    receive operation takes the message. *)
Theorem C44_calm_partial : forall last ls s h,
  calm_run (p_init last) ls -> p_run (p_init last) ls = Some s ->
  h_pc (ps_handlers s h) <> HPanic /\ h_pc (ps_handlers s h) <> HNil /\
  forall c, h_pc (ps_handlers s h) = HBlocked c ->
    exists i, ps_lock s = Some i /\ result_of (c_pc (ps_callers s i)) = None /\
      (c_pc (ps_callers s i) = CWait -> exists s', p_step s (LDeliver i h) = Some s').
Proof.
  intros last ls s h HC E.
  destruct (calm_run_ok ls (p_init last) s (inv_init last) (shapes_init last)) as (C & HI & HH); auto.
  { intros k. exact I. }
  specialize (HH h). unfold handler_ok in HH.
  split; [intros X; rewrite X in HH; exact HH|]. split; [intros X; rewrite X in HH; exact HH|].
  intros c EB. rewrite EB in HH. destruct HH as (CH & RQ).
  destruct (req_holder s HI RQ) as (i & L & R & HO). exists i. split; [exact L|].
  assert (NE : forall i r e, c_pc (ps_callers s i) <> CEnd r e) by (intros j r e; apply (C h); rewrite EB; reflexivity).
  split.
  - unfold holder_ok in HO. destruct (c_pc (ps_callers s i)) eqn:EP; try reflexivity; try contradiction.
    exfalso. apply (NE i _ _ EP).
  - intros EP. destruct (calm_req_open s HI NE RQ) as (c' & E1 & E2). cbn [p_step]. rewrite EP, EB, CH.
    assert (c' = c) by congruence. subst c'. rewrite E2, Nat.eqb_refl. eexists. reflexivity.
Qed.

(** The schedule of the C42 example is calm in this sense. *)
Example C44_example_calm : calm_run (p_init 0) two_calls.
Proof.
  assert (S : shape request /\ shape (answer 1)) by (split; split; reflexivity). destruct S as (S1 & S2).
  unfold two_calls. cbn [app steps handles repeat].
  repeat (cbn [calm_run]; split;
    [intros [|[|h]] [|[|i]] r e; cbn; intros X Y; solve [discriminate X|discriminate Y]
    |try exact I; split; [solve [exact I|exact S1|exact S2]|];
     let s := fresh "s" in intros s E; vm_compute in E; injection E as <-]).
  split; [|exact I]. intros [|[|h]] [|[|i]] r e; cbn; intros X Y; solve [discriminate X|discriminate Y].
Qed.

(** False in the code: a duplicate of the response panics with a send on a closed
    channel ... *)
Definition duplicate : list label :=
  [LCall 0 request false] ++ steps 0 10 ++ [LRecv 0 (answer 1)] ++ handles 0 9 ++ [LRecv 1 (answer 1)] ++ handles 1 9 ++
  [LDeliver 0 0] ++ steps 0 2 ++ handles 1 1.
Theorem C44_duplicate_refuted : handler_at (p_run (p_init 0) duplicate) 1 = Some HPanic.
Proof. vm_compute. reflexivity. Qed.

(** ... as does every handler that is still blocked when the call it found is
    over, in every schedule ... *)
Theorem C44_left_over_refuted : forall last s h c, reachable last s ->
  h_pc (ps_handlers s h) = HBlocked c -> ps_ch s <> Some c ->
  exists s', p_step s (LHandle h) = Some s' /\ h_pc (ps_handlers s' h) = HPanic.
Proof.
  intros last s h c H E N. destruct (reachable_blocked last s H) as (_ & _ & HB).
  destruct (HB h c E) as [X|X]; [contradiction|]. apply is_closed_iff in X.
  cbn [p_step]. unfold handle_step. cbv zeta. rewrite E, X. eexists. split; [reflexivity|]. cbn. rewrite upd_same. reflexivity.
Qed.

(** ... a response that is examined while the call times out dereferences nil ... *)
Definition timeout_race : list label :=
  [LCall 0 request false] ++ steps 0 10 ++ [LRecv 0 (answer 1)] ++ handles 0 5 ++ [LTimeout 0] ++ steps 0 4 ++ handles 0 1.
Theorem C44_timeout_refuted : handler_at (p_run (p_init 0) timeout_race) 0 = Some HPanic.
Proof. vm_compute. reflexivity. Qed.

(** ... or is left for ever at a send on the nil channel, with no schedule to free it. *)
Definition timeout_nil : list label :=
  [LCall 0 request false] ++ steps 0 10 ++ [LRecv 0 (answer 1)] ++ handles 0 8 ++ [LTimeout 0] ++ steps 0 5 ++ handles 0 1.
Theorem C44_stuck_refuted :
  exists s, p_run (p_init 0) timeout_nil = Some s /\ result_at (Some s) 0 = Some (CDone RTimeout) /\
    forall ls s', p_run s ls = Some s' -> h_pc (ps_handlers s' 0) = HNil.
Proof.
  destruct (p_run (p_init 0) timeout_nil) as [s|] eqn:E; [|vm_compute in E; discriminate E].
  exists s. split; [reflexivity|].
  assert (A : handler_at (p_run (p_init 0) timeout_nil) 0 = Some HNil /\
              result_at (p_run (p_init 0) timeout_nil) 0 = Some (CDone RTimeout)) by (vm_compute; auto).
  rewrite E in A. destruct A as (A & B). split; [exact B|]. intros ls s'. apply nil_for_ever. injection A as A. exact A.
Qed.

Theorem C44_refuted : ~ C44_statement.
Proof.
  intros H. pose proof C44_duplicate_refuted as R. destruct (p_run (p_init 0) duplicate) as [s|] eqn:E; [|discriminate R].
  injection R as R. destruct (H 0 s 1%nat) as (X & _); [exists duplicate; exact E|]. contradiction.
Qed.

(** ** C45: concurrent senders use different transaction identifiers

    Full statement: two different messages on the wire, with less than 65536
    identifiers drawn, have different TIDs. *)
Definition C45_statement : Prop :=
  forall last s, reachable last s -> 0 <= last <= 65535 -> ps_drawn s < 65536 ->
    NoDup (map (fun w => TID (w_msg w)) (ps_wire s)).

(** Proved when only PostMessage (without TCP) draws identifiers: up to 65536
    calls, in every schedule, all TIDs on the wire differ. *)
Theorem C45_posts_partial : forall last ls s, 0 <= last <= 65535 -> Forall posts_only ls ->
  p_run (p_init last) ls = Some s -> Z.of_nat (length (filter is_call ls)) <= 65536 ->
  NoDup (map (fun w => TID (w_msg w)) (ps_wire s)).
Proof.
  intros last ls s HL HP H HN. destruct (run_tid last ls HL HP s H) as (_ & _ & _ & _ & HF & HO).
  eapply tids_distinct; [exact HO|exact HF|]. pose proof (drawn_calls last ls s HL HP H). lia.
Qed.

(** And in such schedules of any length: the TID is the number of identifiers
    drawn so far, and the numbers increase along the wire. *)
Theorem C45_posts_serial_partial : forall last ls s, 0 <= last <= 65535 -> Forall posts_only ls ->
  p_run (p_init last) ls = Some s ->
  Forall (fun w => TID (w_msg w) = (last + w_drawn w) mod 65536) (ps_wire s) /\
  StronglySorted Z.lt (map w_drawn (ps_wire s)).
Proof.
  intros last ls s HL HP H. destruct (run_tid last ls HL HP s H) as (_ & _ & _ & _ & HF & HO). split; [|exact HO].
  eapply Forall_impl; [|exact HF]. cbv beta. intros w (A & _). exact A.
Qed.

(** Without interruption the four steps of NextTID are the sequential NextTID. *)
Theorem C45_next_tid : forall last, 0 <= last <= 65535 ->
  tid_run 4 last T1 = Some ((last + 1) mod 65536, (last + 1) mod 65536).
Proof. exact tid_run_spec. Qed.

Example C45_example :
  wire_tids (p_run (p_init 65534)
    ([LCall 0 request false; LCall 1 request false] ++ steps 0 10 ++ [LTimeout 0] ++ steps 0 5 ++ steps 1 9)) = Some [65535; 0].
Proof. vm_compute. reflexivity. Qed.

(** False in the code: NextTID takes no lock.  Two direct senders, a sender and a
    PostMessage call, or two PostMessage calls over TCP draw the same TID. *)
Definition sends (j n : nat) : list label := repeat (LSendStep j true) n.
Definition racing_senders : list label :=
  [LSendCall 0 request false; LSendCall 1 request false] ++ sends 0 3 ++ sends 1 3 ++ sends 0 4 ++ sends 1 4.
Theorem C45_senders_refuted : wire_tids (p_run (p_init 0) racing_senders) = Some [1; 1].
Proof. vm_compute. reflexivity. Qed.
Definition racing_call : list label :=
  [LCall 0 request false; LSendCall 0 request true] ++ steps 0 4 ++ sends 0 1 ++ steps 0 2 ++ sends 0 3 ++ steps 0 4 ++ sends 0 3.
Theorem C45_call_refuted : wire_tids (p_run (p_init 0) racing_call) = Some [1; 1].
Proof. vm_compute. reflexivity. Qed.

Theorem C45_refuted : ~ C45_statement.
Proof.
  intros H. pose proof C45_senders_refuted as R. destruct (p_run (p_init 0) racing_senders) as [s|] eqn:E; [|discriminate R].
  assert (D : option_map ps_drawn (p_run (p_init 0) racing_senders) = Some 2) by (vm_compute; reflexivity).
  rewrite E in D. cbn [option_map wire_tids] in *. injection D as D. injection R as R.
  specialize (H 0 s (ex_intro _ _ E) ltac:(lia) ltac:(lia)). rewrite R in H. inversion H; subst. apply H2. left. reflexivity.
Qed.

Print Assumptions C42_one_waiting. Print Assumptions C42_one_wait. Print Assumptions C42_outcome.
Print Assumptions C42_final. Print Assumptions C42_request_sent. Print Assumptions C42_bounded.
Print Assumptions C42_enabled. Print Assumptions C42_can_finish.
Print Assumptions C43_matched_partial. Print Assumptions C43_early_refuted. Print Assumptions C43_late_refuted.
Print Assumptions C43_tcp_refuted. Print Assumptions C43_refuted.
Print Assumptions C44_calm_partial. Print Assumptions C44_duplicate_refuted. Print Assumptions C44_left_over_refuted.
Print Assumptions C44_timeout_refuted. Print Assumptions C44_stuck_refuted. Print Assumptions C44_refuted.
Print Assumptions C45_posts_partial. Print Assumptions C45_posts_serial_partial. Print Assumptions C45_next_tid.
Print Assumptions C45_senders_refuted. Print Assumptions C45_call_refuted. Print Assumptions C45_refuted.
