(** C102: how long a request takes. *)

From Verif Require Import Go GoFacts Encoding EncodingFacts Protocol Parser MessageFacts ParserFacts
  ProtocolFacts Reader ReaderFacts StdDB Property PropertyFacts Object ObjectFacts Spec Node NodeFacts
  Handler HandlerFacts PropsHandler Transport TransportFacts Exchange ExchangeFacts PropsExchange PropsConnection Timing.
Local Open Scope Z_scope.

(** ** What is asked *)

Definition sum (l : list Z) : Z := fold_right Z.add 0 l.

(** The times of the network are no negative numbers. *)
Definition sane_took (t : took) : Prop := 0 <= tk_dial t /\ 0 <= tk_write t /\ 0 <= tk_read t.
Definition sane (net : timed_net) : Prop := Forall (fun x => sane_took (snd x)) (tn_post net) /\ Forall (fun x => sane_took (snd x)) (tn_send net).
Definition sane_response (response : option (Z * message)) : Prop := forall t m, response = Some (t, m) -> 0 <= t.

Definition dials (net : timed_net) : Z := sum (map (fun x => tk_dial (snd x)) (tn_post net)) + sum (map (fun x => tk_dial (snd x)) (tn_send net)).
Definition total (x : Z * Z) : Z := fst x + snd x.
Definition size {A} (l : list A) : Z := Z.of_nat (length l).

(** ** Lemmas *)

Lemma size_cons {A} (a : A) l : size (a :: l) = size l + 1.
Proof. unfold size. cbn [length]. lia. Qed.

Lemma within_bounds T t : 0 <= t -> 0 <= within T t <= Z.max 0 T.
Proof. unfold within. lia. Qed.

Lemma dial_bounds T a t : sane_took t -> 0 <= dial_time T a t <= tk_dial t + Z.max 0 T.
Proof. intros (A & B & C). pose proof (within_bounds T _ B). destruct a; cbn [dial_time]; lia. Qed.
Lemma exchange_bounds T a t : sane_took t -> 0 <= exchange_time T a t <= tk_dial t + 2 * Z.max 0 T.
Proof.
  intros S. pose proof (dial_bounds T a t S). destruct S as (A & B & C). pose proof (within_bounds T _ C). unfold exchange_time.
  destruct a as [| | |n|[|] segs]; lia.
Qed.

Lemma post_bounds T : forall answers k dst m, Forall (fun x => sane_took (snd x)) answers ->
  0 <= UManager_Post_time T k dst answers m <= sum (map (fun x => tk_dial (snd x)) answers) + 2 * size answers * Z.max 0 T.
Proof.
  induction answers as [|[a t] rest IH]; intros k dst m H; cbn [UManager_Post_time map sum fold_right snd]; [cbn; lia|].
  inversion H as [|? ? Ha Hr]; subst. cbn [snd] in Ha. pose proof (exchange_bounds T a t Ha) as E. specialize (IH (S k) dst m Hr). fold (sum (map (fun x : tcp_answer * took => tk_dial (snd x)) rest)).
  rewrite size_cons. assert (X : 0 <= sum (map (fun x : tcp_answer * took => tk_dial (snd x)) rest)).
  { clear -Hr. induction Hr as [|x l (A & _) _ IH]; cbn; [lia|]. fold (sum (map (fun x : tcp_answer * took => tk_dial (snd x)) l)). lia. }
  assert (Y : 0 <= size rest) by (unfold size; lia).
  destruct (TCP_PostMessage k dst a m) as [[e [r|r|]]| |]; nia.
Qed.

Lemma send_bounds tcp T : forall answers k m, Forall (fun x => sane_took (snd x)) answers ->
  0 <= UManager_Send_time tcp T k answers m <= (if tcp then sum (map (fun x => tk_dial (snd x)) answers) + size answers * Z.max 0 T else 0).
Proof.
  induction answers as [|[[a u] t] rest IH]; intros k m H; cbn [UManager_Send_time map sum fold_right snd]; [destruct tcp; cbn; lia|].
  inversion H as [|? ? Ha Hr]; subst. cbn [snd] in Ha. pose proof (dial_bounds T a t Ha) as E. specialize (IH (S k) m Hr). fold (sum (map (fun x : tcp_answer * bool * took => tk_dial (snd x)) rest)).
  rewrite size_cons. assert (X : 0 <= sum (map (fun x : tcp_answer * bool * took => tk_dial (snd x)) rest)).
  { clear -Hr. induction Hr as [|x l (A & _) _ IH]; cbn; [lia|]. fold (sum (map (fun x : tcp_answer * bool * took => tk_dial (snd x)) l)). lia. }
  assert (Y : 0 <= size rest) by (unfold size; lia).
  destruct (UServer_SendMessage tcp k a u m) as [[e [|]]| |]; destruct tcp; nia.
Qed.

Lemma wait_bounds ctx R response : sane_response response -> 0 <= fst (wait_response ctx (Z.max 0 R) response) <= Z.max 0 R.
Proof.
  intros H. unfold wait_response. destruct response as [[t m]|]; [|cbn; lia]. specialize (H t m eq_refl). destruct (t <? Z.max 0 R) eqn:E; cbn [fst]; lia.
Qed.

Lemma sum_nonneg {A} (f : A -> Z) l : Forall (fun x => 0 <= f x) l -> 0 <= sum (map f l).
Proof. induction 1 as [|x l H _ IH]; cbn; [lia|]. fold (sum (map f l)). lia. Qed.

Lemma locked_bounds T R nd m net ctx response : sane net -> sane_response response ->
  0 <= locked_time T R nd m net ctx response <=
    (if tn_server_tcp net then sum (map (fun x => tk_dial (snd x)) (tn_send net)) + size (tn_send net) * Z.max 0 T else 0) + Z.max 0 R.
Proof.
  intros (S1 & S2) SR. unfold locked_time. pose proof (wait_bounds ctx R response SR) as W.
  assert (X : 0 <= (if tn_server_tcp net then sum (map (fun x => tk_dial (snd x)) (tn_send net)) + size (tn_send net) * Z.max 0 T else 0)) by apply (Z.le_trans _ _ _ (proj1 (send_bounds (tn_server_tcp net) T (tn_send net) 0 m S2)) (proj2 (send_bounds (tn_server_tcp net) T (tn_send net) 0 m S2))).
  destruct (negb (n_running nd)); [lia|]. destruct (updateMessageDestinationHeader nd m) as [nd' [m'|e|]]; try lia.
  pose proof (send_bounds (tn_server_tcp net) T (tn_send net) 0 m' S2) as B.
  destruct (UManager_Send _ _ _ m') as [[e [|]]| |]; lia.
Qed.

(** ** Theorems *)

(** The time of a call is bounded by the times of its dials, three timeouts of the
    connection for each server, and the request timeout. *)
Theorem C102_bound : forall T R nd dst msg net ctx response, sane net -> sane_response response ->
  0 <= total (Node_PostMessage_time T R nd dst msg net ctx response)
    <= dials net + (2 * size (tn_post net) + size (tn_send net)) * Z.max 0 T + Z.max 0 R.
Proof.
  intros T R nd dst msg net ctx response SN SR. unfold Node_PostMessage_time, total, dials. destruct SN as (S1 & S2).
  assert (D1 : 0 <= sum (map (fun x => tk_dial (snd x)) (tn_post net))) by (apply sum_nonneg; eapply Forall_impl; [|exact S1]; intros x (A & _); exact A).
  assert (D2 : 0 <= sum (map (fun x => tk_dial (snd x)) (tn_send net))) by (apply sum_nonneg; eapply Forall_impl; [|exact S2]; intros x (A & _); exact A).
  assert (Z1 : 0 <= size (tn_post net)) by (unfold size; lia). assert (Z2 : 0 <= size (tn_send net)) by (unfold size; lia).
  assert (P : 0 <= (if tn_node_tcp net then post_tcp_time T nd dst msg net else 0) <= sum (map (fun x => tk_dial (snd x)) (tn_post net)) + 2 * size (tn_post net) * Z.max 0 T).
  { destruct (tn_node_tcp net); [|nia]. unfold post_tcp_time. destruct (negb (n_running nd)); [nia|]. destruct (updateMessageDestinationHeader nd msg) as [nd' [m'|e|]]; try nia.
    destruct (tn_server_tcp net); [apply post_bounds, S1|nia]. }
  assert (L : forall nd' m', 0 <= locked_time T R nd' m' net ctx response <= sum (map (fun x => tk_dial (snd x)) (tn_send net)) + size (tn_send net) * Z.max 0 T + Z.max 0 R).
  { intros nd' m'. pose proof (locked_bounds T R nd' m' net ctx response (conj S1 S2) SR) as B. destruct (tn_server_tcp net); nia. }
  destruct (if tn_node_tcp net then post_tcp nd dst msg (untimed net) else _) as [[[[nd' m'] e] [r|]]| |]; cbn [fst snd]; try nia.

Qed.

(** Without TCP a call takes the time of the wait: the response time, or the request
    timeout. *)
Theorem C102_udp : forall T R nd dst msg net ctx response nd' evs p, tn_node_tcp net = false -> tn_server_tcp net = false ->
  Node_PostMessage nd dst msg (untimed net) = Ok (nd', evs, p) ->
  total (Node_PostMessage_time T R nd dst msg net ctx response) =
    match p with PostWaits _ => match response with Some (t, _) => Z.min t (Z.max 0 R) | None => Z.max 0 R end | _ => 0 end.
Proof.
  intros T R nd dst msg net ctx response nd' evs p H1 H2. unfold Node_PostMessage, Node_PostMessage_time, total, locked_time. cbn [untimed pn_node_tcp pn_server_tcp pn_send]. rewrite H1, H2. cbn [bind fst snd].
  destruct (negb (n_running nd)); [intros H; injection H as _ _ <-; reflexivity|]. destruct (updateMessageDestinationHeader nd msg) as [nd1 [m1|e|]]; [|intros H; injection H as _ _ <-; reflexivity|discriminate].
  assert (Z0 : forall answers k, UManager_Send_time false T k answers m1 = 0).
  { induction answers as [|[[a u] t] rest IH]; intros k; [reflexivity|]. cbn [UManager_Send_time]. rewrite IH. destruct (UServer_SendMessage false k a u m1) as [[? [|]]| |]; reflexivity. }
  rewrite Z0. destruct (UManager_Send false 0 (map fst (tn_send net)) m1) as [[es [|]]| |]; try discriminate; cbn [bind fst snd]; intros H; injection H as _ _ <-; [|reflexivity].
  unfold wait_response. destruct response as [[t m]|]; [|cbn [fst]; lia]. destruct (t <? Z.max 0 R) eqn:E; cbn [fst]; lia.
Qed.

(** A call whose first server gets the response takes the time of that exchange. *)
Theorem C102_answered : forall T R nd dst msg net ctx response nd1 m1 a t rest evs r,
  tn_node_tcp net = true -> tn_server_tcp net = true -> n_running nd = true -> updateMessageDestinationHeader nd msg = (nd1, Ok m1) ->
  tn_post net = (a, t) :: rest -> TCP_PostMessage 0 dst a m1 = Ok (evs, Ok r) ->
  Node_PostMessage_time T R nd dst msg net ctx response = (tk_dial t + within T (tk_write t) + within T (tk_read t), 0).
Proof.
  intros T R nd dst msg net ctx response nd1 m1 a t rest evs r H1 H2 H3 H4 H5 H6. unfold Node_PostMessage_time, post_tcp_time, post_tcp. cbn [untimed pn_node_tcp pn_server_tcp pn_post].
  rewrite H1, H2, H3, H4, H5. cbn [negb map fst UManager_Post UManager_Post_time]. rewrite H6. cbn [bind snd fst].
  assert (X : exchange_time T a t = tk_dial t + within T (tk_write t) + within T (tk_read t)).
  { unfold TCP_PostMessage in H6. destruct (Bytes m1) as [b| |]; try discriminate H6. cbn [bind] in H6. destruct a as [| | |n|[|] segs]; cbn [dialAndWriteBytes negb] in H6; try discriminate H6. unfold exchange_time, dial_time. lia. }
  rewrite X. f_equal. lia.
Qed.

(** Callers that wait for the lock: in whatever order they get it, all are done when the
    lock has been held for all of them after the last came. *)
Theorem C102_queue : forall callers free t, Forall (fun c => 0 <= snd c) callers ->
  In t (lock_queue free callers) -> t <= Z.max free (fold_right Z.max free (map fst callers)) + sum (map snd callers).
Proof.
  intros callers. assert (G : forall free M t, Forall (fun c => 0 <= snd c) callers -> free <= M -> Forall (fun c => fst c <= M) callers -> In t (lock_queue free callers) -> t <= M + sum (map snd callers)).
  { induction callers as [|[r h] rest IH]; intros free M t H HF HM HI; cbn [lock_queue] in HI; [destruct HI|].
    inversion H as [|? ? Hh Hr]; subst. inversion HM as [|? ? Hm Hs]; subst. cbn [fst snd map sum fold_right] in *. fold (sum (map snd rest)).
    assert (N : 0 <= sum (map snd rest)) by (apply sum_nonneg; exact Hr).
    destruct HI as [<-|HI]; [lia|]. specialize (IH (Z.max free r + h) (M + h) t Hr). rewrite <- Z.add_assoc in IH. apply IH; [lia| |exact HI]. eapply Forall_impl; [|exact Hs]. cbn. intros; lia. }
  intros free t H HI. eapply G; [exact H| | |exact HI]; [lia|].
  clear. apply Forall_forall. intros x Hx. assert (X : fst x <= fold_right Z.max free (map fst callers)); [|lia].
  induction callers as [|y l IH]; [destruct Hx|]. cbn [map fold_right]. destruct Hx as [->|Hx]; [lia|]. specialize (IH Hx). lia.
Qed.

(** ** The bound is attained *)

(** A peer that accepts connections, takes all the time it has and never answers: every
    server is tried twice. *)
Definition slow (d T : Z) (n : nat) : timed_net :=
  mkTimedNet true true (repeat (AWritten true [], mkTook d T T) n)
    (repeat (AWriteFails 0, false, mkTook d T 0) (n - 1) ++ [(AWriteFails 0, true, mkTook d T 0)]).

Lemma slow_post_time T d : forall n k dst m b, 0 <= T -> Bytes m = Ok b ->
  UManager_Post_time T k dst (repeat (AWritten true [], mkTook d T T) n) m = Z.of_nat n * (d + 2 * T).
Proof.
  induction n as [|n IH]; intros k dst m b HT HB; [reflexivity|]. cbn [repeat UManager_Post_time].
  assert (E : TCP_PostMessage k dst (AWritten true []) m = Ok ([Opened k; Wrote k b; Closed k], Err ErrEOF)) by (unfold TCP_PostMessage; rewrite HB; reflexivity).
  rewrite E, (IH (S k) dst m b HT HB). unfold exchange_time, dial_time, within. cbn [tk_dial tk_write tk_read]. lia.
Qed.

Lemma slow_send_time T d : forall n k m b, 0 <= T -> Bytes m = Ok b ->
  UManager_Send_time true T k (repeat (AWriteFails 0, false, mkTook d T 0) n ++ [(AWriteFails 0, true, mkTook d T 0)]) m = (Z.of_nat n + 1) * (d + T).
Proof.
  induction n as [|n IH]; intros k m b HT HB; cbn [repeat app UManager_Send_time].
  - assert (E : UServer_SendMessage true k (AWriteFails 0) true m = Ok ([Opened k; Wrote k []; Closed k; SentUDP k b], true)) by (unfold UServer_SendMessage, TCP_SendMessage; rewrite HB; reflexivity).
    rewrite E. unfold dial_time, within. cbn [tk_dial tk_write]. lia.
  - assert (E : UServer_SendMessage true k (AWriteFails 0) false m = Ok ([Opened k; Wrote k []; Closed k], false)) by (unfold UServer_SendMessage, TCP_SendMessage; rewrite HB; reflexivity).
    rewrite E, (IH (S k) m b HT HB). unfold dial_time, within. cbn [tk_dial tk_write]. lia.
Qed.

Lemma slow_send T d : forall n k m b, Bytes m = Ok b ->
  exists evs, UManager_Send true k (map fst (repeat (AWriteFails 0, false, mkTook d T 0) n ++ [(AWriteFails 0, true, mkTook d T 0)])) m = Ok (evs, true).
Proof.
  induction n as [|n IH]; intros k m b HB; cbn [repeat app map fst UManager_Send].
  - assert (E : UServer_SendMessage true k (AWriteFails 0) true m = Ok ([Opened k; Wrote k []; Closed k; SentUDP k b], true)) by (unfold UServer_SendMessage, TCP_SendMessage; rewrite HB; reflexivity).
    rewrite E. eexists. reflexivity.
  - assert (E : UServer_SendMessage true k (AWriteFails 0) false m = Ok ([Opened k; Wrote k []; Closed k], false)) by (unfold UServer_SendMessage, TCP_SendMessage; rewrite HB; reflexivity).
    rewrite E. cbn [bind]. destruct (IH (S k) m b HB) as (evs & ->). cbn [bind fst snd]. eexists. reflexivity.
Qed.

Theorem C102_attained : forall cl sa obj esv ps n d T R ctx,
  library_node cl -> n_running cl = true -> 0 <= obj < 2 ^ 24 -> 0 <= esv < 256 -> fits ps -> (0 < n)%nat -> 0 <= T -> 0 <= R ->
  Node_PostMessage_time T R cl sa (new_request obj esv ps) (slow d T n) ctx None =
    (Z.of_nat n * (d + 2 * T), Z.of_nat n * (d + T) + R).
Proof.
  intros cl sa obj esv ps n d T R ctx Hcl Hrun Hobj Hesv HS Hn HT HR. destruct (library_ok cl Hcl) as (HI & HTid).
  set (request := fun k => mkContent ((n_lastTID cl + k) mod 65536) 0x0EF001 obj esv (map to_pair ps)).
  assert (HL : forall k, in_limits (request k)) by (intros k; apply fits_limits; try assumption; apply tid_small).
  unfold Node_PostMessage_time, slow. cbn [tn_node_tcp]. unfold post_tcp_time, post_tcp. cbn [untimed pn_server_tcp pn_post tn_server_tcp tn_post]. rewrite Hrun. cbn [negb].
  rewrite header_run by assumption. set (t1 := (n_lastTID cl + 1) mod 65536).
  pose proof (represents_Bytes _ _ (request_represents obj esv ps t1 0x0EF001) (HL 1)) as B1. fold t1 in B1.
  rewrite (slow_post_time T d n 0%nat sa _ _ HT B1).
  assert (E : exists evs e, UManager_Post 0 sa (map fst (repeat (AWritten true [], mkTook d T T) n)) (SetSEOJ (SetTID (new_request obj esv ps) t1) 0x0EF001) = Ok (evs, Err e)).
  { destruct (silent_post (map fst (repeat (AWritten true [], mkTook d T T) n)) _ ltac:(apply Forall_forall; intros x Hx; apply in_map_iff in Hx; destruct Hx as (y & <- & Hy); apply repeat_spec in Hy; subst y; reflexivity) 0%nat sa _ B1) as (e & E). eexists. eexists. exact E. }
  destruct E as (evs & e & ->). cbn [bind fst snd]. f_equal. unfold locked_time. cbn [hand_over with_lastTID n_running]. rewrite Hrun. cbn [negb].
  set (m1 := SetSEOJ (SetTID (new_request obj esv ps) t1) 0x0EF001) in *.
  match goal with |- context [updateMessageDestinationHeader ?n m1] => set (cl1 := n) end.
  assert (HI1 : core_inv (core_of cl1)) by exact HI.
  assert (HT1 : tid_ok cl1) by (change (0 <= t1 <= 65535); pose proof (tid_small (n_lastTID cl + 1)); unfold t1; lia).
  rewrite header_run by assumption. cbn [tn_server_tcp tn_send].
  assert (ET : (n_lastTID cl1 + 1) mod 65536 = (n_lastTID cl + 2) mod 65536).
  { change (n_lastTID cl1) with t1. unfold t1. rewrite Zplus_mod_idemp_l. apply (f_equal (fun x => x mod 65536)). lia. }
  rewrite ET.
  assert (EM : SetSEOJ (SetTID m1 ((n_lastTID cl + 2) mod 65536)) 0x0EF001 = SetSEOJ (SetTID (new_request obj esv ps) ((n_lastTID cl + 2) mod 65536)) 0x0EF001).
  { unfold m1. generalize (new_request obj esv ps) ((n_lastTID cl + 2) mod 65536) t1. intros x t t'. unfold SetSEOJ, SetTID. cbn [with_seoj with_tid m_seoj]. rewrite IntegerToByte_length. reflexivity. }
  rewrite EM. pose proof (represents_Bytes _ _ (request_represents obj esv ps ((n_lastTID cl + 2) mod 65536) 0x0EF001) (HL 2)) as B2.
  rewrite (slow_send_time T d (n - 1) 0%nat _ _ HT B2). destruct (slow_send T d (n - 1) 0%nat _ _ B2) as (evs2 & ->). cbn [wait_response fst].
  replace (Z.of_nat (n - 1) + 1) with (Z.of_nat n) by lia. lia.
Qed.

Lemma slow_sane d T n : 0 <= d -> 0 <= T -> sane (slow d T n).
Proof.
  intros Hd HT. unfold sane, slow. cbn [tn_post tn_send]. split; [|apply Forall_app; split].
  - apply Forall_forall. intros x Hx. apply repeat_spec in Hx. subst x. repeat split; assumption.
  - apply Forall_forall. intros x Hx. apply repeat_spec in Hx. subst x. repeat split; cbn; lia.
  - repeat constructor; cbn; lia.
Qed.

(** A call does not end within any time: not at the deadline of its context, not after
    the request timeout, not after any function of the timeouts and the number of
    servers, since the dial has no deadline. *)
Theorem C102_limit_refuted : forall cl sa obj esv ps n T R limit,
  library_node cl -> n_running cl = true -> 0 <= obj < 2 ^ 24 -> 0 <= esv < 256 -> fits ps -> (0 < n)%nat -> 0 <= T -> 0 <= R -> 0 <= limit ->
  exists net, sane net /\ size (tn_post net) = Z.of_nat n /\
    limit < total (Node_PostMessage_time T R cl sa (new_request obj esv ps) net (Some limit) None).
Proof.
  intros cl sa obj esv ps n T R limit Hcl Hrun Hobj Hesv HS Hn HT HR HL. exists (slow (limit + 1) T n). split; [apply slow_sane; lia|]. split.
  - unfold size, slow. cbn [tn_post]. rewrite repeat_length. reflexivity.
  - rewrite C102_attained by assumption. unfold total. cbn [fst snd]. nia.
Qed.

(** Even if every dial succeeds at once, the request timeout bounds a call only if the
    connections have no time at all. *)
Theorem C102_timeout_refuted : forall cl sa obj esv ps n T R ctx,
  library_node cl -> n_running cl = true -> 0 <= obj < 2 ^ 24 -> 0 <= esv < 256 -> fits ps -> (0 < n)%nat -> 0 < T -> 0 <= R ->
  exists net, sane net /\ dials net = 0 /\ R + 3 * Z.of_nat n * T = total (Node_PostMessage_time T R cl sa (new_request obj esv ps) net ctx None).
Proof.
  intros cl sa obj esv ps n T R ctx Hcl Hrun Hobj Hesv HS Hn HT HR. exists (slow 0 T n). split; [apply slow_sane; lia|]. split.
  - unfold dials, slow. cbn [tn_post tn_send]. rewrite map_app.
    assert (X : forall A (x : A * took) k, tk_dial (snd x) = 0 -> sum (map (fun x => tk_dial (snd x)) (repeat x k)) = 0) by (intros A x k E; induction k as [|k IH]; cbn; [reflexivity|]; fold (sum (map (fun x : A * took => tk_dial (snd x)) (repeat x k))); lia).
    rewrite X by reflexivity. unfold sum at 1. rewrite fold_right_app. cbn [map fold_right snd tk_dial]. change (0 + 0) with 0. fold (sum (map (fun x : tcp_answer * bool * took => tk_dial (snd x)) (repeat (AWriteFails 0, false, mkTook 0 T 0) (n - 1)))). rewrite X by reflexivity. reflexivity.
  - rewrite C102_attained by (assumption || lia). unfold total. cbn [fst snd]. nia.
Qed.

(** ** A case: the default timeouts, 5 s each (transport/const.go L31-L32), two servers
    and a silent peer: 35 s, of which the lock is held for 15 s. *)
Example C102_example :
  (cl <- ex_client ;;
   Ok (Node_PostMessage_time 5000 5000 cl (mkAddress 9 3610) (new_request 0x029101 0x62 [mkPProp 0x80 []]) (slow 0 5000 2) (Some 3000) None)) = Ok (20000, 15000) /\
  lock_queue 0 [(20000, 15000); (20000, 15000); (100, 7)] = [35000; 50000; 50007].
Proof. vm_compute. split; reflexivity. Qed.

Print Assumptions C102_bound.
Print Assumptions C102_udp.
Print Assumptions C102_answered.
Print Assumptions C102_queue.
Print Assumptions C102_attained.
Print Assumptions C102_limit_refuted.
Print Assumptions C102_timeout_refuted.
