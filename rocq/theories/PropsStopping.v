(** C101: what a stopped server still does. *)

From Coq Require Import Permutation.
From Verif Require Import Go GoFacts Encoding Spec Protocol Parser Reader ParserFacts ReaderFacts Transport TransportFacts Stopping.
Local Open Scope Z_scope.

(** ** What is asked *)

(** The messages handed to the message handler by server [i], those it read, and what
    happened to a connection of it. *)
Definition call_of (i : nat) (e : sevent) : list message :=
  match e with ECall j m => if Nat.eqb j i then [m] else [] | _ => [] end.
Definition read_of (i : nat) (e : sevent) : list message :=
  match e with ERead j m | EReadConn j _ m => if Nat.eqb j i then [m] else [] | _ => [] end.
Definition datagram_of (i : nat) (e : sevent) : list message :=
  match e with ERead j m => if Nat.eqb j i then [m] else [] | _ => [] end.
Definition accept_of (i : nat) (e : sevent) : list nat :=
  match e with EAccept j k => if Nat.eqb j i then [k] else [] | _ => [] end.
Definition on_conn (i k : nat) (e : sevent) : bool :=
  match e with
  | EAccept j n | EReadConn j n _ | EReply j n _ | EClose j n => Nat.eqb j i && Nat.eqb n k
  | _ => false
  end.
Definition calls (i : nat) (evs : list sevent) := flat_map (call_of i) evs.
Definition reads (i : nat) (evs : list sevent) := flat_map (read_of i) evs.
Definition datagrams (i : nat) (evs : list sevent) := flat_map (datagram_of i) evs.
Definition accepts (i : nat) (evs : list sevent) := flat_map (accept_of i) evs.

(** The messages held by goroutines of connections, and the connections still read. *)
Definition held (s : sserver) : list message := flat_map (fun c => match c with CHolds m => [m] | _ => [] end) (ss_conns s).
Definition is_reading (c : conn_at) : bool := match c with CReading _ => true | _ => false end.
Definition waiting (s : sserver) : nat := length (filter is_reading (ss_conns s)).
Definition inside (l : loop_at) : nat := match l with Inside => 1%nat | _ => 0%nat end.

Definition reachable (s : sysstate) : Prop := exists ls, sys_run sys_init ls = Some s.
Definition server (s : sysstate) (i : nat) (sv : sserver) : Prop := nth_error (sy_servers s) i = Some sv.

(** ** Steps *)

Definition foreign (i : nat) (e : sevent) : Prop := call_of i e = [] /\ read_of i e = [] /\ datagram_of i e = [] /\ accept_of i e = [] /\ forall k, on_conn i k e = false.

Lemma nth_replace_same {A} (l : list A) n a x : nth_error l n = Some x -> nth_error (replace_nth l n a) n = Some a.
Proof. revert n. induction l as [|y l IH]; intros [|n]; cbn; try discriminate; auto. Qed.
Lemma nth_replace_other {A} (l : list A) n k a : n <> k -> nth_error (replace_nth l n a) k = nth_error l k.
Proof. revert n k. induction l as [|y l IH]; intros [|n] [|k] H; cbn; try congruence. apply IH. congruence. Qed.
Lemma length_replace {A} (l : list A) n a : length (replace_nth l n a) = length l.
Proof. revert n. induction l as [|y l IH]; intros [|n]; cbn; auto. Qed.
Lemma replace_app {A} (l : list A) n a x : nth_error l n = Some x ->
  exists l1 l2, l = l1 ++ x :: l2 /\ replace_nth l n a = l1 ++ a :: l2 /\ length l1 = n.
Proof.
  revert n. induction l as [|y l IH]; intros [|n] H; cbn in H; try discriminate H.
  - injection H as ->. exists [], l. repeat split.
  - destruct (IH n H) as (l1 & l2 & -> & E & L). exists (y :: l1), l2. cbn. rewrite E, L. repeat split.
Qed.
Lemma remove_app {A} (l : list A) n x : nth_error l n = Some x -> exists l1 l2, l = l1 ++ x :: l2 /\ remove_nth l n = l1 ++ l2.
Proof.
  revert n. induction l as [|y l IH]; intros [|n] H; cbn in H; try discriminate H.
  - injection H as ->. exists [], l. split; reflexivity.
  - destruct (IH n H) as (l1 & l2 & E1 & E2). exists (y :: l1), l2. subst l. split; [reflexivity|]. unfold remove_nth in *. cbn [firstn skipn app] in *. rewrite E2. reflexivity.
Qed.

Lemma others_foreign bo i j sv x sv' evs : j <> i -> server_step bo j sv x = Some (sv', evs) -> Forall (foreign i) evs.
Proof.
  intros N H. assert (E : Nat.eqb j i = false) by (apply Nat.eqb_neq; exact N).
  assert (F : forall l, Forall (fun e => match e with EAnswer _ _ _ _ => True | ERead a _ | EAccept a _ | EReadConn a _ _ | ECall a _ | EReply a _ _ | EClose a _ => a = j end) l -> Forall (foreign i) l).
  { intros l. apply Forall_impl. intros [a m|a k|a k m|a m|a b m r|a k r|a k] Ha; unfold foreign, call_of, read_of, datagram_of, accept_of, on_conn; try subst a;
      rewrite ?E; cbn [andb]; auto 10. }
  apply F. clear F. destruct x as [|d| |k r| |f| |k segs|k r|v|]; cbn [server_step] in H.
  - destruct (ss_loop sv); [|discriminate H..]. destruct (ss_cancel sv); [|destruct (ss_bound sv)]; injection H as _ <-; constructor.
  - destruct (ss_loop sv); [discriminate H| |discriminate H]. destruct (ReadMessage d); [| |discriminate H]; injection H as _ <-; repeat constructor.
  - destruct (ss_loop sv); [discriminate H| |discriminate H]. injection H as _ <-. constructor.
  - destruct (nth_error (ss_flying sv) k); [|discriminate H]. injection H as _ <-. constructor; [reflexivity|].
    destruct r; [|constructor]. destruct (ss_multicast sv); [destruct (ss_via sv)|]; repeat constructor.
  - destruct (ss_listener sv); [|discriminate H..]. destruct (ss_cancel sv); injection H as _ <-; constructor.
  - destruct (ss_listener sv); [discriminate H| |discriminate H]. injection H as _ <-. repeat constructor.
  - destruct (ss_listener sv); [discriminate H| |discriminate H]. injection H as _ <-. constructor.
  - destruct (nth_error (ss_conns sv) k) as [[]|]; try discriminate H. destruct (NewMessageWithReader _ _); [| |discriminate H]; injection H as _ <-; repeat constructor.
  - destruct (nth_error (ss_conns sv) k) as [[]|]; try discriminate H. injection H as _ <-. constructor; [reflexivity|]. destruct r; repeat constructor.
  - destruct (ss_multicast sv); [|discriminate H]. injection H as _ <-. constructor.
  - destruct (ss_stopped sv); [discriminate H|]. injection H as _ <-. constructor.
Qed.

Lemma sys_step_server s l s' i sv : sys_step s l = Some s' -> server s i sv ->
  exists sv' evs, server s' i sv' /\ sy_log s' = sy_log s ++ evs /\
    ((sv' = sv /\ Forall (foreign i) evs) \/ exists x, l = On i x /\ server_step (bound_in (sy_servers s)) i sv x = Some (sv', evs)).
Proof.
  intros H HS. unfold server in *. destruct l as [j x|m t]; cbn [sys_step] in H.
  - destruct (nth_error (sy_servers s) j) as [svj|] eqn:EJ; [|discriminate H].
    destruct (server_step (bound_in (sy_servers s)) j svj x) as [[sj evs]|] eqn:ES; [|discriminate H]. injection H as <-. cbn [sy_servers sy_log].
    destruct (Nat.eq_dec j i) as [->|N].
    + assert (svj = sv) by congruence. subst svj. exists sj, evs. split; [eapply nth_replace_same; eassumption|]. split; [reflexivity|]. right. exists x. split; [reflexivity|exact ES].
    + exists sv, evs. split; [rewrite nth_replace_other by exact N; exact HS|]. split; [reflexivity|]. left. split; [reflexivity|]. eapply others_foreign; eassumption.
  - injection H as <-. cbn [sy_servers sy_log]. exists sv, []. split.
    + rewrite nth_error_app1; [exact HS|]. apply nth_error_Some. congruence.
    + rewrite app_nil_r. split; [reflexivity|]. left. split; [reflexivity|constructor].
Qed.

(** What holds of every server. *)
Definition sinv (sv : sserver) : Prop :=
  (ss_multicast sv = false -> ss_bound sv = negb (ss_stopped sv)) /\
  (ss_stopped sv = true -> ss_bound sv = false) /\
  (ss_stopped sv = true -> ss_multicast sv = false -> ss_cancel sv = true) /\
  (ss_multicast sv = true -> ss_listener sv = Returned /\ ss_conns sv = []).

Lemma sinv_started m t : sinv (started m t).
Proof. unfold sinv, started. cbn. destruct m; cbn; repeat split; try discriminate; auto. Qed.

Ltac fields := cbn [ss_multicast ss_tcp ss_cancel ss_bound ss_stopped ss_loop ss_listener ss_flying ss_conns ss_via with_loop with_listener with_flying with_conns with_bound stop_server] in *.

Lemma loop_returns_inv sv : sinv sv -> sinv (loop_returns sv).
Proof.
  intros (A & B & C & D). unfold loop_returns. fields. destruct (ss_multicast sv) eqn:E; unfold sinv; fields; rewrite ?E.
  - split; [discriminate|]. split; [reflexivity|]. split; [discriminate|]. intros _. apply D. reflexivity.
  - auto.
Qed.
Lemma loop_returns_fields sv : ss_stopped (loop_returns sv) = ss_stopped sv /\ ss_flying (loop_returns sv) = ss_flying sv /\ ss_conns (loop_returns sv) = ss_conns sv /\
  ss_listener (loop_returns sv) = ss_listener sv /\ ss_loop (loop_returns sv) = Returned /\ ss_multicast (loop_returns sv) = ss_multicast sv /\ ss_cancel (loop_returns sv) = ss_cancel sv.
Proof. unfold loop_returns. fields. destruct (ss_multicast sv) eqn:E; fields; rewrite ?E; repeat split. Qed.

Lemma sinv_step bo i sv x sv' evs : sinv sv -> server_step bo i sv x = Some (sv', evs) -> sinv sv' /\ (ss_stopped sv = true -> ss_stopped sv' = true).
Proof.
  intros I H. pose proof (loop_returns_inv sv I) as LR. destruct (loop_returns_fields sv) as (LS & _). pose proof I as (A & B & C & D).
  destruct x as [|d| |k r| |f| |k segs|k r|v|]; cbn [server_step] in H.
  - destruct (ss_loop sv); [|discriminate H..]. destruct (ss_cancel sv); [|destruct (ss_bound sv) eqn:EB]; injection H as <- _; split; try assumption; try congruence; auto.
  - destruct (ss_loop sv); [discriminate H| |discriminate H]. destruct (ReadMessage d); [| |discriminate H]; injection H as <- _; split; try assumption; try congruence; auto.
  - destruct (ss_loop sv); [discriminate H| |discriminate H]. injection H as <- _. split; [assumption|congruence].
  - destruct (nth_error (ss_flying sv) k); [|discriminate H]. injection H as <- _. split; [exact I|auto].
  - destruct (ss_listener sv) eqn:EL; [|discriminate H..].
    assert (M : ss_multicast sv = false) by (destruct (ss_multicast sv); [destruct (D eq_refl) as (X & _); discriminate X|reflexivity]).
    destruct (ss_cancel sv) eqn:EC; injection H as <- _; (split; [|auto]); unfold sinv; fields; rewrite ?M, ?EC in *; repeat split; auto; try discriminate.
  - destruct (ss_listener sv) eqn:EL; [discriminate H| |discriminate H].
    assert (M : ss_multicast sv = false) by (destruct (ss_multicast sv); [destruct (D eq_refl) as (X & _); discriminate X|reflexivity]).
    injection H as <- _; (split; [|auto]); unfold sinv; fields; rewrite ?M in *; repeat split; auto; try discriminate.
  - destruct (ss_listener sv) eqn:EL; [discriminate H| |discriminate H].
    assert (M : ss_multicast sv = false) by (destruct (ss_multicast sv); [destruct (D eq_refl) as (X & _); discriminate X|reflexivity]).
    injection H as <- _; (split; [|auto]); unfold sinv; fields; rewrite ?M in *; repeat split; auto; try discriminate.
  - destruct (nth_error (ss_conns sv) k) as [[]|] eqn:EK; try discriminate H.
    assert (M : ss_multicast sv = false) by (destruct (ss_multicast sv); [destruct (D eq_refl) as (_ & X); rewrite X in EK; destruct k; discriminate EK|reflexivity]).
    destruct (NewMessageWithReader _ _); [| |discriminate H]; injection H as <- _; (split; [|auto]); unfold sinv; fields; rewrite ?M in *; repeat split; auto; try discriminate.
  - destruct (nth_error (ss_conns sv) k) as [[]|] eqn:EK; try discriminate H.
    assert (M : ss_multicast sv = false) by (destruct (ss_multicast sv); [destruct (D eq_refl) as (_ & X); rewrite X in EK; destruct k; discriminate EK|reflexivity]).
    injection H as <- _; (split; [|auto]); unfold sinv; fields; rewrite ?M in *; repeat split; auto; try discriminate.
  - destruct (ss_multicast sv) eqn:EM; [|discriminate H]. injection H as <- _. split; [|auto]. unfold sinv; fields. repeat split; auto; try discriminate; apply D; reflexivity.
  - destruct (ss_stopped sv) eqn:ES; [discriminate H|]. injection H as <- _. split; [|auto]. unfold sinv; fields. repeat split; auto; try (apply D; assumption).
    intros _ ->. reflexivity.
Qed.

Lemma reachable_inv s i sv : reachable s -> server s i sv -> sinv sv.
Proof.
  intros (ls & H). revert i sv. unfold server.
  assert (G : forall ls s0, (forall i sv, nth_error (sy_servers s0) i = Some sv -> sinv sv) -> sys_run s0 ls = Some s -> forall i sv, nth_error (sy_servers s) i = Some sv -> sinv sv).
  { clear. induction ls as [|l ls IH]; intros s0 H0 H; cbn [sys_run] in H; [injection H as <-; exact H0|].
    destruct (sys_step s0 l) as [s1|] eqn:E; [|discriminate H]. apply (IH s1); [|exact H]. intros i sv HS.
    destruct l as [j x|m t]; cbn [sys_step] in E.
    - destruct (nth_error (sy_servers s0) j) as [svj|] eqn:EJ; [|discriminate E].
      destruct (server_step _ j svj x) as [[sj evs]|] eqn:ES; [|discriminate E]. injection E as <-. cbn [sy_servers] in HS.
      destruct (Nat.eq_dec j i) as [->|N].
      + rewrite (nth_replace_same _ _ _ _ EJ) in HS. injection HS as <-. eapply sinv_step; [|exact ES]. apply (H0 i), EJ.
      + rewrite nth_replace_other in HS by exact N. apply (H0 i), HS.
    - injection E as <-. cbn [sy_servers] in HS. destruct (Nat.lt_ge_cases i (length (sy_servers s0))) as [L|L].
      + rewrite nth_error_app1 in HS by exact L. apply (H0 i), HS.
      + rewrite nth_error_app2 in HS by exact L. destruct (i - length (sy_servers s0))%nat as [|[|n]]; cbn in HS; try discriminate HS. injection HS as <-. apply sinv_started. }
  apply (G ls sys_init); [|exact H]. intros [|i] sv X; discriminate X.
Qed.

(** Relations between a server now and later, with the events in between. *)
Lemma run_rel (i : nat) (I : sserver -> Prop) (R : sserver -> sserver -> list sevent -> Prop) :
  (forall sv evs, Forall (foreign i) evs -> R sv sv evs) ->
  (forall a b c e f, R a b e -> R b c f -> R a c (e ++ f)) ->
  (forall bo sv x sv' evs, I sv -> server_step bo i sv x = Some (sv', evs) -> R sv sv' evs /\ I sv') ->
  forall ls s s' sv, I sv -> server s i sv -> sys_run s ls = Some s' ->
  exists sv' evs, server s' i sv' /\ sy_log s' = sy_log s ++ evs /\ R sv sv' evs /\ I sv'.
Proof.
  intros HR HT HS. induction ls as [|l ls IH]; intros s s' sv HI S H; cbn [sys_run] in H.
  - injection H as <-. exists sv, []. split; [exact S|]. rewrite app_nil_r. split; [reflexivity|]. split; [apply HR; constructor|exact HI].
  - destruct (sys_step s l) as [s1|] eqn:E; [|discriminate H].
    destruct (sys_step_server _ _ _ _ _ E S) as (sv1 & evs & S1 & L1 & C).
    assert (X : R sv sv1 evs /\ I sv1).
    { destruct C as [(-> & F)|(x & _ & ES)]; [split; [apply HR, F|exact HI]|eapply HS; eassumption]. }
    destruct X as (R1 & I1). destruct (IH s1 s' sv1 I1 S1 H) as (sv' & evs' & S' & L' & R' & I').
    exists sv', (evs ++ evs'). split; [exact S'|]. split; [rewrite L', L1, app_assoc; reflexivity|]. split; [eapply HT; eassumption|exact I'].
Qed.

Lemma flat_foreign {A} (f : sevent -> list A) evs : Forall (fun e => f e = []) evs -> flat_map f evs = [].
Proof. induction 1 as [|e evs H _ IH]; [reflexivity|]. cbn [flat_map]. rewrite H, IH. reflexivity. Qed.
Lemma foreign_calls i evs : Forall (foreign i) evs -> calls i evs = [] /\ reads i evs = [] /\ datagrams i evs = [] /\ accepts i evs = [].
Proof.
  intros H. repeat split; apply flat_foreign; (eapply Forall_impl; [|exact H]); intros e (A & B & C & D & _); assumption.
Qed.

(** ** Every message is handled once *)

Definition moves (i : nat) (a b : sserver) (e : list sevent) : Prop :=
  Permutation (ss_flying a ++ held a ++ reads i e) (ss_flying b ++ held b ++ calls i e).

Lemma held_replace sv k c x : nth_error (ss_conns sv) k = Some x ->
  let h c := match c with CHolds m => [m] | _ => [] end in
  exists a b, held sv = a ++ h x ++ b /\ held (with_conns sv (replace_nth (ss_conns sv) k c)) = a ++ h c ++ b.
Proof.
  intros H h. destruct (replace_app _ k c _ H) as (l1 & l2 & E1 & E2 & _). unfold held. fields. rewrite E2, E1.
  exists (flat_map h l1), (flat_map h l2). rewrite !flat_map_app. cbn [flat_map]. split; reflexivity.
Qed.

Lemma moves_step bo i sv x sv' evs : server_step bo i sv x = Some (sv', evs) -> moves i sv sv' evs.
Proof.
  intros H. unfold moves. destruct (loop_returns_fields sv) as (_ & LF & LC & _).
  assert (LH : held (loop_returns sv) = held sv) by (unfold held; rewrite LC; reflexivity).
  destruct x as [|d| |k r| |f| |k segs|k r|v|]; cbn [server_step] in H.
  - destruct (ss_loop sv); [|discriminate H..]. destruct (ss_cancel sv); [|destruct (ss_bound sv)]; injection H as <- <-; rewrite ?LF, ?LH; reflexivity.
  - destruct (ss_loop sv); [discriminate H| |discriminate H]. destruct (ReadMessage d) as [m| |]; [| |discriminate H]; injection H as <- <-; [|rewrite LF, LH; reflexivity].
    fields. cbn [reads calls flat_map read_of call_of]. rewrite Nat.eqb_refl. cbn [app]. rewrite app_nil_r, <- !app_assoc. apply Permutation_app_head.
    change (held (with_loop (with_flying sv (ss_flying sv ++ [SetPacketType m (loop_type sv)])) AtSelect)) with (held sv). apply Permutation_app_comm.
  - destruct (ss_loop sv); [discriminate H| |discriminate H]. injection H as <- <-. rewrite LF, LH. reflexivity.
  - destruct (nth_error (ss_flying sv) k) as [m|] eqn:EK; [|discriminate H]. injection H as <- <-. fields.
    destruct (remove_app _ _ _ EK) as (l1 & l2 & E1 & E2). rewrite E2, E1.
    change (held (with_flying sv (l1 ++ l2))) with (held sv).
    cbn [reads calls flat_map read_of call_of]. rewrite Nat.eqb_refl.
    assert (Q : flat_map (read_of i) match r with Some r0 => if ss_multicast sv then match ss_via sv with Some j => [EAnswer j (bo j) m r0] | None => [] end else [EAnswer i (bo i) m r0] | None => [] end = [] /\
                flat_map (call_of i) match r with Some r0 => if ss_multicast sv then match ss_via sv with Some j => [EAnswer j (bo j) m r0] | None => [] end else [EAnswer i (bo i) m r0] | None => [] end = []).
    { destruct r; [|split; reflexivity]. destruct (ss_multicast sv); [destruct (ss_via sv)|]; split; reflexivity. }
    destruct Q as (-> & ->). cbn [app]. rewrite !app_nil_r, <- !app_assoc. apply Permutation_app_head. cbn [app].
    transitivity (l2 ++ m :: held sv); [apply Permutation_middle|]. apply Permutation_app_head. apply Permutation_cons_append.
  - destruct (ss_listener sv); [|discriminate H..]. destruct (ss_cancel sv); injection H as <- <-; reflexivity.
  - destruct (ss_listener sv); [discriminate H| |discriminate H]. injection H as <- <-. fields. cbn [reads calls flat_map read_of call_of app].
    unfold held. fields. rewrite flat_map_app. cbn [flat_map]. rewrite !app_nil_r. reflexivity.
  - destruct (ss_listener sv); [discriminate H| |discriminate H]. injection H as <- <-. reflexivity.
  - destruct (nth_error (ss_conns sv) k) as [[from|m|]|] eqn:EK; try discriminate H.
    destruct (NewMessageWithReader _ _) as [m| |]; [| |discriminate H]; injection H as <- <-.
    + destruct (held_replace sv k (CHolds (SetPacketType (SetFrom m from) TCPUnicastPacket)) _ EK) as (a & b & E1 & E2). cbn [app] in E1, E2. rewrite E1, E2. fields.
      cbn [reads calls flat_map read_of call_of]. rewrite Nat.eqb_refl. cbn [app]. rewrite app_nil_r. apply Permutation_app_head. rewrite <- !app_assoc. apply Permutation_app_head.
      symmetry. apply Permutation_cons_append.
    + destruct (held_replace sv k CClosed _ EK) as (a & b & E1 & E2). cbn [app] in E1, E2. rewrite E1, E2. fields. reflexivity.
  - destruct (nth_error (ss_conns sv) k) as [[from|m|]|] eqn:EK; try discriminate H. injection H as <- <-.
    destruct (held_replace sv k CClosed _ EK) as (a & b & E1 & E2). cbn [app] in E1, E2. rewrite E1, E2. fields.
    cbn [reads calls flat_map read_of call_of]. rewrite Nat.eqb_refl.
    assert (Q : flat_map (read_of i) (match r with None => [] | Some r => [EReply i k r] end ++ [EClose i k]) = [] /\
                flat_map (call_of i) (match r with None => [] | Some r => [EReply i k r] end ++ [EClose i k]) = []) by (destruct r; split; reflexivity).
    destruct Q as (-> & ->). cbn [app]. rewrite app_nil_r. apply Permutation_app_head. rewrite <- app_assoc. apply Permutation_app_head. cbn [app]. apply Permutation_cons_append.
  - destruct (ss_multicast sv); [|discriminate H]. injection H as <- <-. reflexivity.
  - destruct (ss_stopped sv); [discriminate H|]. injection H as <- <-. reflexivity.
Qed.

Lemma moves_trans i a b c e f : moves i a b e -> moves i b c f -> moves i a c (e ++ f).
Proof.
  unfold moves, reads, calls. intros H1 H2. rewrite !flat_map_app.
  set (fa := ss_flying a) in *. set (fb := ss_flying b) in *. set (fc := ss_flying c) in *.
  rewrite !app_assoc. rewrite !app_assoc in H1, H2.
  transitivity (((fb ++ held b) ++ flat_map (call_of i) e) ++ flat_map (read_of i) f).
  - apply Permutation_app_tail. exact H1.
  - transitivity (((fb ++ held b) ++ flat_map (read_of i) f) ++ flat_map (call_of i) e).
    { rewrite <- !app_assoc. do 2 apply Permutation_app_head. apply Permutation_app_comm. }
    transitivity (((fc ++ held c) ++ flat_map (call_of i) f) ++ flat_map (call_of i) e); [apply Permutation_app_tail; exact H2|].
    rewrite <- !app_assoc. do 2 apply Permutation_app_head. apply Permutation_app_comm.
Qed.

Lemma moves_run i ls s s' sv : server s i sv -> sys_run s ls = Some s' ->
  exists sv' evs, server s' i sv' /\ sy_log s' = sy_log s ++ evs /\ moves i sv sv' evs.
Proof.
  intros S H. destruct (run_rel i (fun _ => True) (moves i)) with (ls := ls) (s := s) (s' := s') (sv := sv) as (sv' & evs & A & B & C & _); try assumption; auto.
  - intros sv0 evs F. unfold moves. destruct (foreign_calls i evs F) as (-> & -> & _). reflexivity.
  - apply moves_trans.
  - intros bo sv0 x sv' evs _ E. split; [eapply moves_step; eassumption|exact I].
  - exists sv', evs. auto.
Qed.

(** Whatever was read is handled once, is in flight or held, and nothing else is
    handled: over any part of a run, and so over all of it. *)
Theorem C101_once : forall s ls s' i sv, server s i sv -> sys_run s ls = Some s' ->
  exists sv' new, server s' i sv' /\ sy_log s' = sy_log s ++ new /\
    Permutation (ss_flying sv ++ held sv ++ reads i new) (ss_flying sv' ++ held sv' ++ calls i new).
Proof. intros s ls s' i sv S H. exact (moves_run i ls s s' sv S H). Qed.

(** ** After Stop *)

Definition pending (s : sserver) : nat :=
  (length (ss_flying s) + length (held s) + waiting s + inside (ss_loop s) + inside (ss_listener s))%nat.

Definition fades (i : nat) (a b : sserver) (e : list sevent) : Prop :=
  (length (datagrams i e) + inside (ss_loop b) <= inside (ss_loop a))%nat /\
  (length (accepts i e) + inside (ss_listener b) <= inside (ss_listener a))%nat /\
  (length (calls i e) + pending b <= pending a)%nat.

Lemma waiting_replace sv k c x : nth_error (ss_conns sv) k = Some x ->
  (waiting (with_conns sv (replace_nth (ss_conns sv) k c)) + (if is_reading x then 1 else 0) = waiting sv + (if is_reading c then 1 else 0))%nat.
Proof.
  intros H. destruct (replace_app _ k c _ H) as (l1 & l2 & E1 & E2 & _). unfold waiting. fields. rewrite E2, E1. rewrite !filter_app, !app_length. cbn [filter].
  destruct (is_reading x), (is_reading c); cbn [length]; lia.
Qed.
Lemma held_length sv k c x : nth_error (ss_conns sv) k = Some x ->
  let n c := match c with CHolds _ => 1%nat | _ => 0%nat end in
  (length (held (with_conns sv (replace_nth (ss_conns sv) k c))) + n x = length (held sv) + n c)%nat.
Proof.
  intros H n. destruct (held_replace sv k c x H) as (a & b & E1 & E2). rewrite E1, E2, !app_length. destruct x, c; cbn; lia.
Qed.

Lemma fades_step bo i sv x sv' evs : sinv sv /\ ss_stopped sv = true -> server_step bo i sv x = Some (sv', evs) -> fades i sv sv' evs.
Proof.
  intros ((A & B & C & D) & ST) H. specialize (B ST). specialize (C ST). destruct (loop_returns_fields sv) as (_ & LF & LC & LL & LP & LM & LCa).
  assert (LH : held (loop_returns sv) = held sv) by (unfold held; rewrite LC; reflexivity).
  assert (LW : waiting (loop_returns sv) = waiting sv) by (unfold waiting; rewrite LC; reflexivity).
  assert (LFades : fades i sv (loop_returns sv) []).
  { unfold fades, pending. rewrite LF, LH, LW, LL, LP. cbn [datagrams accepts calls flat_map length inside]. destruct (ss_loop sv); cbn [inside]; lia. }
  destruct x as [|d| |k r| |f| |k segs|k r|v|]; cbn [server_step] in H.
  - destruct (ss_loop sv) eqn:EL; [|discriminate H..]. rewrite B in H. destruct (ss_cancel sv); injection H as <- <-; exact LFades.
  - destruct (ss_loop sv) eqn:EL; [discriminate H| |discriminate H]. destruct (ReadMessage d) as [m| |]; [| |discriminate H]; injection H as <- <-; [|exact LFades].
    unfold fades, pending. fields. cbn [datagrams accepts calls flat_map datagram_of accept_of call_of]. rewrite Nat.eqb_refl, EL. cbn [app length inside].
    change (held (with_loop (with_flying sv (ss_flying sv ++ [SetPacketType m (loop_type sv)])) AtSelect)) with (held sv).
    change (waiting (with_loop (with_flying sv (ss_flying sv ++ [SetPacketType m (loop_type sv)])) AtSelect)) with (waiting sv).
    rewrite app_length. cbn [length]. lia.
  - destruct (ss_loop sv); [discriminate H| |discriminate H]. injection H as <- <-. exact LFades.
  - destruct (nth_error (ss_flying sv) k) as [m|] eqn:EK; [|discriminate H]. injection H as <- <-.
    destruct (remove_app _ _ _ EK) as (l1 & l2 & E1 & E2). rewrite E2.
    assert (Q : forall l, Forall (fun e => match e with EAnswer _ _ _ _ => True | _ => False end) l ->
      flat_map (datagram_of i) l = [] /\ flat_map (accept_of i) l = [] /\ flat_map (call_of i) l = []).
    { induction 1 as [|e l He _ (I1 & I2 & I3)]; [repeat split|]. cbn [flat_map]. rewrite I1, I2, I3. destruct e; try destruct He. repeat split. }
    destruct (Q match r with Some r0 => if ss_multicast sv then match ss_via sv with Some j => [EAnswer j (bo j) m r0] | None => [] end else [EAnswer i (bo i) m r0] | None => [] end) as (Q1 & Q2 & Q3).
    { destruct r; [|constructor]. destruct (ss_multicast sv); [destruct (ss_via sv)|]; repeat constructor. }
    unfold fades, pending, datagrams, accepts, calls. cbn [flat_map datagram_of accept_of call_of]. rewrite Q1, Q2, Q3, Nat.eqb_refl. fields. rewrite E1.
    change (held (with_flying sv (l1 ++ l2))) with (held sv). change (waiting (with_flying sv (l1 ++ l2))) with (waiting sv).
    rewrite !app_length. cbn [length app]. lia.
  - destruct (ss_listener sv) eqn:EL; [|discriminate H..].
    assert (M : ss_multicast sv = false) by (destruct (ss_multicast sv); [destruct (D eq_refl) as (X & _); discriminate X|reflexivity]).
    rewrite (C M) in H. injection H as <- <-. unfold fades, pending. fields. rewrite EL. change (held (with_listener sv Returned)) with (held sv).
    change (waiting (with_listener sv Returned)) with (waiting sv). cbn. lia.
  - destruct (ss_listener sv) eqn:EL; [discriminate H| |discriminate H]. injection H as <- <-. unfold fades, pending. fields. rewrite EL.
    cbn [datagrams accepts calls flat_map datagram_of accept_of call_of]. rewrite Nat.eqb_refl. cbn [app length inside].
    unfold held, waiting. fields. rewrite flat_map_app, filter_app, !app_length. cbn [flat_map filter is_reading app length]. lia.
  - destruct (ss_listener sv) eqn:EL; [discriminate H| |discriminate H]. injection H as <- <-. unfold fades, pending. fields. rewrite EL.
    change (held (with_listener sv Returned)) with (held sv). change (waiting (with_listener sv Returned)) with (waiting sv). cbn. lia.
  - destruct (nth_error (ss_conns sv) k) as [[from|m|]|] eqn:EK; try discriminate H.
    destruct (NewMessageWithReader _ _) as [m| |]; [| |discriminate H]; injection H as <- <-.
    + pose proof (waiting_replace sv k (CHolds (SetPacketType (SetFrom m from) TCPUnicastPacket)) _ EK) as W.
      pose proof (held_length sv k (CHolds (SetPacketType (SetFrom m from) TCPUnicastPacket)) _ EK) as HL. cbn [is_reading] in W. cbv zeta beta iota in HL.
      unfold fades, pending. fields. cbn [datagrams accepts calls flat_map datagram_of accept_of call_of app length]. lia.
    + pose proof (waiting_replace sv k CClosed _ EK) as W. pose proof (held_length sv k CClosed _ EK) as HL. cbn [is_reading] in W. cbv zeta beta iota in HL.
      unfold fades, pending. fields. cbn [datagrams accepts calls flat_map datagram_of accept_of call_of app length]. lia.
  - destruct (nth_error (ss_conns sv) k) as [[from|m|]|] eqn:EK; try discriminate H. injection H as <- <-.
    pose proof (waiting_replace sv k CClosed _ EK) as W. pose proof (held_length sv k CClosed _ EK) as HL. cbn [is_reading] in W. cbv zeta beta iota in HL.
    unfold fades, pending, datagrams, accepts, calls. fields. cbn [flat_map datagram_of accept_of call_of]. rewrite Nat.eqb_refl. destruct r; cbn [app flat_map datagram_of accept_of call_of length]; lia.
  - destruct (ss_multicast sv); [|discriminate H]. injection H as <- <-. unfold fades, pending. fields. cbn. unfold held, waiting. fields. lia.
  - rewrite ST in H. discriminate H.
Qed.

Lemma fades_trans i a b c e f : fades i a b e -> fades i b c f -> fades i a c (e ++ f).
Proof.
  unfold fades, datagrams, accepts, calls. intros (H1 & H2 & H3) (K1 & K2 & K3). rewrite !flat_map_app, !app_length. lia.
Qed.

(** A stopped server reads at most one datagram more, and only by a read that was in
    progress, and accepts at most one connection more, by an accept in progress; the
    message handler gets from it no more messages than were in flight or held, plus one
    for each connection still open and for the read and the accept in progress.  So it is
    whatever other servers do and how often the node is started again. *)
Theorem C101_after_stop : forall s ls s' i sv, reachable s -> server s i sv -> ss_stopped sv = true -> sys_run s ls = Some s' ->
  exists sv' new, server s' i sv' /\ sy_log s' = sy_log s ++ new /\ ss_stopped sv' = true /\
    (length (datagrams i new) <= inside (ss_loop sv))%nat /\ (length (accepts i new) <= inside (ss_listener sv))%nat /\
    (length (calls i new) <= length (ss_flying sv) + length (held sv) + waiting sv + inside (ss_loop sv) + inside (ss_listener sv))%nat.
Proof.
  intros s ls s' i sv RE S ST H.
  destruct (run_rel i (fun sv => sinv sv /\ ss_stopped sv = true) (fades i)) with (ls := ls) (s := s) (s' := s') (sv := sv) as (sv' & evs & A & B & (F1 & F2 & F3) & (_ & I')); try assumption.
  - intros sv0 evs F. unfold fades. destruct (foreign_calls i evs F) as (-> & _ & -> & ->). cbn [length]. lia.
  - apply fades_trans.
  - intros bo sv0 x sv' evs I E. split; [eapply fades_step; eassumption|]. destruct (sinv_step _ _ _ _ _ _ (proj1 I) E) as (X & Y). split; [exact X|apply Y, I].
  - split; [eapply reachable_inv; eassumption|exact ST].
  - exists sv', evs. unfold pending in F3. repeat split; try assumption; lia.
Qed.

(** ** Connections *)

Definition conn_events (i k : nat) (log : list sevent) : list sevent := filter (on_conn i k) log.

(** What has happened to a connection. *)
Definition conn_story (i k : nat) (c : option conn_at) (l : list sevent) : Prop :=
  match c with
  | None => l = []
  | Some (CReading _) => l = [EAccept i k]
  | Some (CHolds m) => l = [EAccept i k; EReadConn i k m]
  | Some CClosed =>
      l = [EAccept i k; EClose i k] \/
      (exists m, l = [EAccept i k; EReadConn i k m; EClose i k]) \/
      (exists m r, l = [EAccept i k; EReadConn i k m; EReply i k r; EClose i k])
  end.

Definition told (i : nat) (sv : sserver) (log : list sevent) : Prop := forall k, conn_story i k (nth_error (ss_conns sv) k) (conn_events i k log).

Lemma foreign_conn i k evs : Forall (foreign i) evs -> conn_events i k evs = [].
Proof. induction 1 as [|e evs (_ & _ & _ & _ & H) _ IH]; [reflexivity|]. unfold conn_events in *. cbn [filter]. rewrite H. exact IH. Qed.
Lemma conn_events_app i k a b : conn_events i k (a ++ b) = conn_events i k a ++ conn_events i k b.
Proof. apply filter_app. Qed.

Lemma told_silent i sv sv' log evs : told i sv log -> ss_conns sv' = ss_conns sv -> (forall k, conn_events i k evs = []) -> told i sv' (log ++ evs).
Proof. intros T E Q k. rewrite conn_events_app, Q, app_nil_r, E. apply T. Qed.

Lemma told_step bo i sv x sv' evs log : told i sv log -> server_step bo i sv x = Some (sv', evs) -> told i sv' (log ++ evs).
Proof.
  intros T H. destruct (loop_returns_fields sv) as (_ & _ & LC & _).
  destruct x as [|d| |k r| |f| |k segs|k r|v|]; cbn [server_step] in H.
  - destruct (ss_loop sv); [|discriminate H..]. destruct (ss_cancel sv); [|destruct (ss_bound sv)]; injection H as <- <-; (eapply told_silent; [exact T| |reflexivity]); auto.
  - destruct (ss_loop sv); [discriminate H| |discriminate H]. destruct (ReadMessage d); [| |discriminate H]; injection H as <- <-; (eapply told_silent; [exact T| |reflexivity]); auto.
  - destruct (ss_loop sv); [discriminate H| |discriminate H]. injection H as <- <-. eapply told_silent; [exact T|exact LC|reflexivity].
  - destruct (nth_error (ss_flying sv) k); [|discriminate H]. injection H as <- <-. eapply told_silent; [exact T|reflexivity|]. intros n. unfold conn_events. cbn [filter on_conn].
    destruct r; [|reflexivity]. destruct (ss_multicast sv); [destruct (ss_via sv)|]; reflexivity.
  - destruct (ss_listener sv); [|discriminate H..]. destruct (ss_cancel sv); injection H as <- <-; (eapply told_silent; [exact T| |reflexivity]); auto.
  - destruct (ss_listener sv); [discriminate H| |discriminate H]. injection H as <- <-. intros n. rewrite conn_events_app. fields. unfold conn_events at 2. cbn [filter on_conn]. rewrite Nat.eqb_refl. cbn [andb].
    specialize (T n). destruct (Nat.eqb (length (ss_conns sv)) n) eqn:E.
    + apply Nat.eqb_eq in E. subst n. rewrite nth_error_app2, Nat.sub_diag by lia. cbn [nth_error conn_story].
      rewrite (proj2 (nth_error_None _ _)) in T by lia. cbn [conn_story] in T. rewrite T. reflexivity.
    + apply Nat.eqb_neq in E. rewrite app_nil_r. destruct (Nat.lt_ge_cases n (length (ss_conns sv))) as [L|L]; [rewrite nth_error_app1 by exact L; exact T|].
      rewrite (proj2 (nth_error_None _ _)) in T by lia. rewrite (proj2 (nth_error_None _ _)) by (rewrite app_length; cbn [length]; lia). exact T.
  - destruct (ss_listener sv); [discriminate H| |discriminate H]. injection H as <- <-. eapply told_silent; [exact T|reflexivity|reflexivity].
  - destruct (nth_error (ss_conns sv) k) as [[from|m|]|] eqn:EK; try discriminate H.
    destruct (NewMessageWithReader _ _) as [m| |]; [| |discriminate H]; injection H as <- <-; intros n; rewrite conn_events_app; fields; unfold conn_events at 2; cbn [filter on_conn]; rewrite Nat.eqb_refl; cbn [andb];
      specialize (T n); (destruct (Nat.eqb k n) eqn:E; [apply Nat.eqb_eq in E; subst n|apply Nat.eqb_neq in E; rewrite app_nil_r, nth_replace_other by exact E; exact T]);
      rewrite EK in T; cbn [conn_story] in T; rewrite T, (nth_replace_same _ _ _ _ EK); cbn [conn_story app]; auto.
  - destruct (nth_error (ss_conns sv) k) as [[from|m|]|] eqn:EK; try discriminate H. injection H as <- <-. intros n. rewrite conn_events_app. fields. specialize (T n).
    destruct (Nat.eq_dec k n) as [->|N].
    + rewrite EK in T. cbn [conn_story] in T. rewrite T, (nth_replace_same _ _ _ _ EK). cbn [conn_story]. unfold conn_events. right.
      destruct r as [r|]; cbn [app filter on_conn]; rewrite !Nat.eqb_refl; cbn [andb app]; [right; exists m, r; reflexivity|left; exists m; reflexivity].
    + rewrite nth_replace_other by exact N. assert (X : Nat.eqb k n = false) by (apply Nat.eqb_neq; exact N).
      unfold conn_events at 2. destruct r; cbn [app filter on_conn]; rewrite X, andb_false_r, app_nil_r; exact T.
  - destruct (ss_multicast sv); [|discriminate H]. injection H as <- <-. eapply told_silent; [exact T|reflexivity|reflexivity].
  - destruct (ss_stopped sv); [discriminate H|]. injection H as <- <-. eapply told_silent; [exact T|reflexivity|reflexivity].
Qed.

(** Every accepted connection is read until it gives one message, which is handled and
    answered at most once, on that connection, and is then closed; it is closed once, and
    a closed one has no goroutine any more. *)
Theorem C101_connection : forall s i sv k, reachable s -> server s i sv ->
  conn_story i k (nth_error (ss_conns sv) k) (conn_events i k (sy_log s)).
Proof.
  intros s i sv k (ls & H). revert i sv k.
  assert (G : forall ls s0, (forall i sv, server s0 i sv -> told i sv (sy_log s0)) -> (forall i, nth_error (sy_servers s0) i = None -> forall k, conn_events i k (sy_log s0) = []) ->
    sys_run s0 ls = Some s -> forall i sv, server s i sv -> told i sv (sy_log s)).
  { clear. induction ls as [|l ls IH]; intros s0 H0 N0 H; cbn [sys_run] in H; [injection H as <-; exact H0|].
    destruct (sys_step s0 l) as [s1|] eqn:E; [|discriminate H]. apply (IH s1); [| |exact H].
    - intros i sv HS. destruct (nth_error (sy_servers s0) i) as [sv0|] eqn:E0.
      + destruct (sys_step_server _ _ _ _ _ E E0) as (sv1 & evs & S1 & L1 & C). unfold server in *. assert (sv1 = sv) by congruence. subst sv1. rewrite L1.
        destruct C as [(-> & F)|(x & _ & ES)]; [|eapply told_step; [apply H0, E0|exact ES]]. eapply told_silent; [apply H0, E0|reflexivity|]. intros k. apply foreign_conn, F.
      + destruct l as [j x|m t]; cbn [sys_step] in E.
        * exfalso. destruct (nth_error (sy_servers s0) j); [|discriminate E]. destruct (server_step _ _ _ _) as [[sj ?]|]; [|discriminate E]. injection E as <-. unfold server in HS. cbn [sy_servers] in HS.
          apply nth_error_None in E0. assert (X : nth_error (replace_nth (sy_servers s0) j sj) i <> None) by congruence. apply nth_error_Some in X. rewrite length_replace in X. lia.
        * injection E as <-. unfold server in HS. cbn [sy_servers sy_log] in *. intros k. rewrite (N0 i E0). apply nth_error_None in E0. rewrite nth_error_app2 in HS by exact E0.
          destruct (i - length (sy_servers s0))%nat as [|[|n]]; cbn in HS; try discriminate HS. injection HS as <-. unfold started. fields. destruct k; reflexivity.
    - intros i E1 k. destruct l as [j x|m t]; cbn [sys_step] in E.
      + destruct (nth_error (sy_servers s0) j) as [svj|] eqn:EJ; [|discriminate E]. destruct (server_step _ _ _ _) as [[sj evs]|] eqn:ES; [|discriminate E]. injection E as <-. cbn [sy_servers sy_log] in *.
        assert (E0 : nth_error (sy_servers s0) i = None) by (apply nth_error_None; apply nth_error_None in E1; rewrite length_replace in E1; exact E1).
        rewrite conn_events_app, (N0 i E0), (foreign_conn i k evs); [reflexivity|]. eapply others_foreign; [|exact ES]. congruence.
      + injection E as <-. cbn [sy_servers sy_log] in *. apply N0. apply nth_error_None. apply nth_error_None in E1. rewrite app_length in E1. lia. }
  intros i sv k HS. apply (G ls sys_init); try assumption; [intros [|i0] sv0 X; discriminate X|reflexivity].
Qed.

(** ** Where an answer leaves from *)

(** A datagram that answers a request leaves from the port of the unicast server as long
    as that is not stopped; afterwards it leaves from a port the system picks. *)
Theorem C101_source : forall s l s' evs j b m r svj, reachable s -> sys_step s l = Some s' -> sy_log s' = sy_log s ++ evs ->
  In (EAnswer j b m r) evs -> server s j svj -> ss_multicast svj = false -> b = negb (ss_stopped svj).
Proof.
  intros s l s' evs j b m r svj RE H EL HI HS HM. destruct (reachable_inv _ _ _ RE HS) as (A & _).
  assert (B : b = bound_in (sy_servers s) j).
  { destruct l as [i x|mm t]; cbn [sys_step] in H.
    - destruct (nth_error (sy_servers s) i) as [sv|]; [|discriminate H]. destruct (server_step _ i sv x) as [[sv' es]|] eqn:E; [|discriminate H]. injection H as <-. cbn [sy_log] in EL.
      apply app_inv_head in EL. subst es. clear - E HI. destruct x as [|d| |k r0| |f| |k segs|k r0|v|]; cbn [server_step] in E.
      + destruct (ss_loop sv); [|discriminate E..]. destruct (ss_cancel sv); [|destruct (ss_bound sv)]; injection E as _ <-; destruct HI.
      + destruct (ss_loop sv); [discriminate E| |discriminate E]. destruct (ReadMessage d); [| |discriminate E]; injection E as _ <-; [destruct HI as [X|[]]; discriminate X|destruct HI].
      + destruct (ss_loop sv); [discriminate E| |discriminate E]. injection E as _ <-. destruct HI.
      + destruct (nth_error (ss_flying sv) k); [|discriminate E]. injection E as _ <-. destruct HI as [X|HI]; [discriminate X|]. destruct r0; [|destruct HI].
        destruct (ss_multicast sv); [destruct (ss_via sv); [|destruct HI]|]; (destruct HI as [X|[]]; injection X as <- <- _ _; reflexivity).
      + destruct (ss_listener sv); [|discriminate E..]. destruct (ss_cancel sv); injection E as _ <-; destruct HI.
      + destruct (ss_listener sv); [discriminate E| |discriminate E]. injection E as _ <-. destruct HI as [X|[]]; discriminate X.
      + destruct (ss_listener sv); [discriminate E| |discriminate E]. injection E as _ <-. destruct HI.
      + destruct (nth_error (ss_conns sv) k) as [[]|]; try discriminate E. destruct (NewMessageWithReader _ _); [| |discriminate E]; injection E as _ <-; (destruct HI as [X|[]]; discriminate X).
      + destruct (nth_error (ss_conns sv) k) as [[]|]; try discriminate E. injection E as _ <-. destruct HI as [X|HI]; [discriminate X|]. destruct r0; cbn [app] in HI; [destruct HI as [X|HI]; [discriminate X|]|]; (destruct HI as [X|[]]; discriminate X).
      + destruct (ss_multicast sv); [|discriminate E]. injection E as _ <-. destruct HI.
      + destruct (ss_stopped sv); [discriminate E|]. injection E as _ <-. destruct HI.
    - injection H as <-. cbn [sy_log] in EL. rewrite <- (app_nil_r (sy_log s)) in EL at 1. apply app_inv_head in EL. subst evs. destruct HI. }
  subst b. unfold bound_in. rewrite HS. apply A, HM.
Qed.

(** ** The goroutines of a stopped server end *)

(** The steps its goroutines take by themselves: nothing arrives. *)
Definition own (i : nat) (l : syslabel) : Prop :=
  match l with
  | On j (SSelect | SReadFails | SHandle _ _ | SListen | SAcceptFails | SHandleConn _ _) => j = i
  | _ => False
  end.
Definition live (l : loop_at) : nat := match l with Returned => 0%nat | _ => 1%nat end.
Definition work (s : sserver) : nat := (length (ss_flying s) + length (held s) + live (ss_loop s) + live (ss_listener s))%nat.
Definition finished (s : sserver) : Prop :=
  ss_loop s = Returned /\ ss_listener s = Returned /\ ss_flying s = [] /\ forall m, ~ In (CHolds m) (ss_conns s).

Lemma held_in s m : In (CHolds m) (ss_conns s) <-> In m (held s).
Proof.
  unfold held. rewrite in_flat_map. split.
  - intros H. exists (CHolds m). split; [exact H|left; reflexivity].
  - intros (c & H1 & H2). destruct c as [f|x|]; [destruct H2| |destruct H2]. destruct H2 as [->|[]]. exact H1.
Qed.
Lemma work_finished s : work s = 0%nat <-> finished s.
Proof.
  unfold work, finished. split.
  - intros H. assert (A : live (ss_loop s) = 0%nat) by lia. assert (B : live (ss_listener s) = 0%nat) by lia.
    assert (C : length (ss_flying s) = 0%nat) by lia. assert (D : length (held s) = 0%nat) by lia.
    split; [destruct (ss_loop s); try discriminate A; reflexivity|]. split; [destruct (ss_listener s); try discriminate B; reflexivity|].
    apply length_zero_iff_nil in C, D. split; [exact C|]. intros m Hm. apply held_in in Hm. rewrite D in Hm. destruct Hm.
  - intros (A & B & C & D). rewrite A, B, C. destruct (held s) as [|m h] eqn:E; [reflexivity|]. exfalso. apply (D m). apply held_in. rewrite E. left. reflexivity.
Qed.

Lemma own_step bo i sv x sv' evs : sinv sv -> ss_stopped sv = true -> own i (On i x) -> server_step bo i sv x = Some (sv', evs) ->
  S (work sv') = work sv /\ waiting sv' = waiting sv.
Proof.
  intros (A & B & C & D) ST HO H. specialize (B ST). specialize (C ST). destruct (loop_returns_fields sv) as (_ & LF & LC & LL & LP & _).
  assert (LH : held (loop_returns sv) = held sv) by (unfold held; rewrite LC; reflexivity).
  assert (LW : waiting (loop_returns sv) = waiting sv) by (unfold waiting; rewrite LC; reflexivity).
  destruct x as [|d| |k r| |f| |k segs|k r|v|]; cbn [own] in HO; try destruct HO; cbn [server_step] in H.
  - destruct (ss_loop sv) eqn:EL; [|discriminate H..]. rewrite B in H. assert (E : sv' = loop_returns sv) by (destruct (ss_cancel sv); congruence). subst sv'.
    unfold work. rewrite LF, LH, LW, LL, LP, EL. cbn [live]. lia.
  - destruct (ss_loop sv) eqn:EL; [discriminate H| |discriminate H]. injection H as <- _. unfold work. rewrite LF, LH, LW, LL, LP, EL. cbn [live]. lia.
  - destruct (nth_error (ss_flying sv) k) as [m|] eqn:EK; [|discriminate H]. injection H as <- _. destruct (remove_app _ _ _ EK) as (l1 & l2 & E1 & E2). rewrite E2.
    unfold work. fields. change (held (with_flying sv (l1 ++ l2))) with (held sv). change (waiting (with_flying sv (l1 ++ l2))) with (waiting sv). rewrite E1, !app_length. cbn [length]. lia.
  - destruct (ss_listener sv) eqn:EL; [|discriminate H..].
    assert (M : ss_multicast sv = false) by (destruct (ss_multicast sv); [destruct (D eq_refl) as (X & _); discriminate X|reflexivity]).
    rewrite (C M) in H. injection H as <- _. unfold work. fields. rewrite EL. change (held (with_listener sv Returned)) with (held sv).
    change (waiting (with_listener sv Returned)) with (waiting sv). cbn [live]. lia.
  - destruct (ss_listener sv) eqn:EL; [discriminate H| |discriminate H]. injection H as <- _. unfold work. fields. rewrite EL. change (held (with_listener sv Returned)) with (held sv).
    change (waiting (with_listener sv Returned)) with (waiting sv). cbn [live]. lia.
  - destruct (nth_error (ss_conns sv) k) as [[from|m|]|] eqn:EK; try discriminate H. injection H as <- _.
    pose proof (waiting_replace sv k CClosed _ EK) as W. pose proof (held_length sv k CClosed _ EK) as HL. cbn [is_reading] in W. cbv zeta beta iota in HL. unfold work. fields. lia.
Qed.

Lemma work_step bo i sv : sinv sv -> ss_stopped sv = true -> (0 < work sv)%nat -> exists x sv' evs, own i (On i x) /\ server_step bo i sv x = Some (sv', evs).
Proof.
  intros (A & B & C & D) ST H.
  destruct (ss_loop sv) eqn:EL.
  - exists SSelect. cbn [server_step own]. rewrite EL, (B ST). destruct (ss_cancel sv); eexists; eexists; split; reflexivity.
  - exists SReadFails. cbn [server_step own]. rewrite EL. eexists; eexists; split; reflexivity.
  - destruct (ss_listener sv) eqn:EN.
    + exists SListen. cbn [server_step own]. rewrite EN. destruct (ss_cancel sv); eexists; eexists; split; reflexivity.
    + exists SAcceptFails. cbn [server_step own]. rewrite EN. eexists; eexists; split; reflexivity.
    + destruct (ss_flying sv) as [|m fl] eqn:EF.
      * destruct (held sv) as [|m h] eqn:EH; [unfold work in H; rewrite EL, EN, EF, EH in H; cbn in H; lia|].
        assert (X : In (CHolds m) (ss_conns sv)) by (apply held_in; rewrite EH; left; reflexivity). apply In_nth_error in X. destruct X as (k & X).
        exists (SHandleConn k None). cbn [server_step own]. rewrite X. eexists; eexists; split; reflexivity.
      * exists (SHandle 0%nat None). cbn [server_step own]. rewrite EF. cbn [nth_error]. eexists; eexists; split; reflexivity.
Qed.

Lemma own_run i : forall ls s s' sv, reachable s -> server s i sv -> ss_stopped sv = true -> Forall (own i) ls -> sys_run s ls = Some s' ->
  exists sv', server s' i sv' /\ reachable s' /\ ss_stopped sv' = true /\ (length ls + work sv' = work sv)%nat /\ waiting sv' = waiting sv.
Proof.
  induction ls as [|l ls IH]; intros s s' sv RE HS ST HO H; cbn [sys_run] in H; [injection H as <-; exists sv; auto|].
  destruct (sys_step s l) as [s1|] eqn:E; [|discriminate H]. inversion HO as [|? ? Hl Hls]; subst.
  assert (RE1 : reachable s1).
  { destruct RE as (l0 & R0). exists (l0 ++ [l]). clear - R0 E. revert R0. generalize sys_init. induction l0 as [|x l0 IH]; intros s0 R0; cbn [sys_run app] in *.
    - injection R0 as ->. rewrite E. reflexivity.
    - destruct (sys_step s0 x); [|discriminate R0]. apply IH, R0. }
  destruct l as [j x|mm t]; [|destruct Hl]. assert (j = i) by (destruct x; cbn in Hl; tauto). subst j.
  destruct (sys_step_server _ _ _ _ _ E HS) as (sv1 & evs & S1 & L1 & Cs). pose proof (reachable_inv _ _ _ RE HS) as I0.
  cbn [sys_step] in E. unfold server in HS. rewrite HS in E. destruct (server_step (bound_in (sy_servers s)) i sv x) as [[sv2 es]|] eqn:ES; [|discriminate E]. injection E as <-.
  assert (sv2 = sv1) by (unfold server in S1; cbn [sy_servers] in S1; rewrite (nth_replace_same _ _ _ _ HS) in S1; congruence). subst sv2.
  destruct (own_step _ _ _ _ _ _ I0 ST Hl ES) as (W1 & W2). destruct (sinv_step _ _ _ _ _ _ I0 ES) as (_ & ST1).
  destruct (IH _ _ _ RE1 S1 (ST1 ST) Hls H) as (sv' & A & B & C & D & F). exists sv'. cbn [length]. repeat split; auto; lia.
Qed.

(** The goroutines of a stopped server, left alone, take exactly [work] steps, in
    whatever order and whatever the handler answers, and then both loops have returned
    and nothing is in flight; until then one of them can go on.  The connections that
    are being read stay as they are. *)
Theorem C101_ends : forall s ls s' i sv, reachable s -> server s i sv -> ss_stopped sv = true -> Forall (own i) ls -> sys_run s ls = Some s' ->
  exists sv', server s' i sv' /\ (length ls + work sv' = work sv)%nat /\ waiting sv' = waiting sv /\
    (finished sv' \/ exists l s'', own i l /\ sys_step s' l = Some s'').
Proof.
  intros s ls s' i sv RE HS ST HO H. destruct (own_run i ls s s' sv RE HS ST HO H) as (sv' & A & B & C & D & E). exists sv'. repeat split; try assumption.
  destruct (work sv') as [|n] eqn:W; [left; apply work_finished, W|right].
  destruct (work_step (bound_in (sy_servers s')) i sv' (reachable_inv _ _ _ B A) C) as (x & sv'' & evs & X1 & X2); [lia|].
  exists (On i x). cbn [sys_step]. unfold server in A. rewrite A, X2. eexists. split; [exact X1|reflexivity].
Qed.

(** ** Open connections *)

(** A connection that is being read stays so until something comes over it, whatever is
    stopped or started meanwhile. *)
Theorem C101_idle : forall ls s s' i k sv from, server s i sv -> nth_error (ss_conns sv) k = Some (CReading from) ->
  (forall segs, ~ In (On i (SRead k segs)) ls) -> sys_run s ls = Some s' ->
  exists sv', server s' i sv' /\ nth_error (ss_conns sv') k = Some (CReading from).
Proof.
  induction ls as [|l ls IH]; intros s s' i k sv from HS HC HN H; cbn [sys_run] in H; [injection H as <-; exists sv; auto|].
  destruct (sys_step s l) as [s1|] eqn:E; [|discriminate H]. destruct (sys_step_server _ _ _ _ _ E HS) as (sv1 & evs & S1 & _ & C).
  apply (IH s1 s' i k sv1 from S1); [|intros segs X; apply (HN segs); right; exact X|exact H].
  destruct C as [(-> & _)|(x & -> & ES)]; [exact HC|]. destruct (loop_returns_fields sv) as (_ & _ & LC & _).
  destruct x as [|d| |n r| |f| |n segs|n r|v|]; cbn [server_step] in ES.
  - destruct (ss_loop sv); [|discriminate ES..]. destruct (ss_cancel sv); [|destruct (ss_bound sv)]; injection ES as <- _; rewrite ?LC; exact HC.
  - destruct (ss_loop sv); [discriminate ES| |discriminate ES]. destruct (ReadMessage d); [| |discriminate ES]; injection ES as <- _; rewrite ?LC; exact HC.
  - destruct (ss_loop sv); [discriminate ES| |discriminate ES]. injection ES as <- _. rewrite LC. exact HC.
  - destruct (nth_error (ss_flying sv) n); [|discriminate ES]. injection ES as <- _. exact HC.
  - destruct (ss_listener sv); [|discriminate ES..]. destruct (ss_cancel sv); injection ES as <- _; exact HC.
  - destruct (ss_listener sv); [discriminate ES| |discriminate ES]. injection ES as <- _. fields. rewrite nth_error_app1; [exact HC|]. apply nth_error_Some. congruence.
  - destruct (ss_listener sv); [discriminate ES| |discriminate ES]. injection ES as <- _. exact HC.
  - assert (N : n <> k) by (intros ->; apply (HN segs); left; reflexivity).
    destruct (nth_error (ss_conns sv) n) as [[]|]; try discriminate ES. destruct (NewMessageWithReader _ _); [| |discriminate ES]; injection ES as <- _; fields; rewrite nth_replace_other by exact N; exact HC.
  - assert (N : nth_error (ss_conns sv) n <> Some (CReading from) -> n <> k) by (intros X ->; apply X, HC).
    destruct (nth_error (ss_conns sv) n) as [[f|m|]|]; try discriminate ES. injection ES as <- _. fields. rewrite nth_replace_other by (apply N; congruence). exact HC.
  - destruct (ss_multicast sv); [|discriminate ES]. injection ES as <- _. exact HC.
  - destruct (ss_stopped sv); [discriminate ES|]. injection ES as <- _. exact HC.
Qed.

(** A request that comes over an open connection is handled and answered, whether the
    server was stopped or not. *)
Theorem C101_still_served : forall s i sv k from segs m r, server s i sv -> nth_error (ss_conns sv) k = Some (CReading from) ->
  NewMessageWithReader bufio_Read (NewBufio segs) = Ok m ->
  exists s', sys_run s [On i (SRead k segs); On i (SHandleConn k (Some r))] = Some s' /\
    let x := SetPacketType (SetFrom m from) TCPUnicastPacket in
    sy_log s' = sy_log s ++ [EReadConn i k x; ECall i x; EReply i k r; EClose i k].
Proof.
  intros s i sv k from segs m r HS HC HR. unfold server in HS. cbn [sys_run sys_step]. rewrite HS. cbn [server_step]. rewrite HC, HR. cbn [sy_servers sy_log].
  rewrite (nth_replace_same _ _ _ _ HS). cbn [server_step]. fields. rewrite (nth_replace_same _ _ _ _ HC). eexists. split; [reflexivity|]. cbn [sy_log]. rewrite <- app_assoc. reflexivity.
Qed.

(** ** What does not hold *)

(** Stop does not close the connections: any number of them can stay open for ever. *)
Lemma connects from : forall n s sv, server s 0 sv -> ss_cancel sv = false -> ss_listener sv = AtSelect ->
  exists s', sys_run s (concat (repeat [On 0 SListen; On 0 (SConnect from)] n)) = Some s' /\
    server s' 0 (with_conns sv (ss_conns sv ++ repeat (CReading from) n)).
Proof.
  induction n as [|n IH]; intros s sv HS HC HL.
  - exists s. split; [reflexivity|]. cbn [repeat]. rewrite app_nil_r. destruct sv. exact HS.
  - cbn [repeat concat app sys_run sys_step]. unfold server in HS. rewrite HS. cbn [server_step]. rewrite HL, HC. cbn [sy_servers]. rewrite (nth_replace_same _ _ _ _ HS). cbn [server_step]. fields. cbn [sy_servers].
    edestruct IH as (s' & R & S'); [| | |exists s'; split; [exact R|]].
    + unfold server. cbn [sy_servers]. eapply nth_replace_same. eapply nth_replace_same. exact HS.
    + fields. exact HC.
    + fields. reflexivity.
    + unfold server in *. rewrite S'. fields. rewrite <- app_assoc. cbn [app]. rewrite <- HL. reflexivity.
Qed.

Lemma run_app : forall a b s, sys_run s (a ++ b) = match sys_run s a with None => None | Some s' => sys_run s' b end.
Proof. induction a as [|l a IH]; intros b s; [reflexivity|]. cbn [app sys_run]. destruct (sys_step s l); [apply IH|reflexivity]. Qed.

Lemma steps_on s i sv x sv' evs : server s i sv -> server_step (bound_in (sy_servers s)) i sv x = Some (sv', evs) ->
  exists s', sys_step s (On i x) = Some s' /\ server s' i sv' /\ sy_log s' = sy_log s ++ evs.
Proof.
  intros HS HE. unfold server in *. cbn [sys_step]. rewrite HS, HE. eexists. split; [reflexivity|]. cbn [sy_servers sy_log]. split; [eapply nth_replace_same; exact HS|reflexivity].
Qed.

Theorem C101_idle_refuted : forall n, exists s sv, reachable s /\ server s 0 sv /\ ss_stopped sv = true /\ finished sv /\ waiting sv = n.
Proof.
  intros n. set (from := NewAddress).
  destruct (connects from n (mkSys [started false true] []) (started false true)) as (s1 & R & S1); [reflexivity..|].
  unfold server in S1. cbn [started ss_conns app] in S1.
  assert (R2 : exists s2 sv2, sys_run s1 [On 0 SStop; On 0 SSelect; On 0 SListen] = Some s2 /\ server s2 0 sv2 /\ ss_stopped sv2 = true /\ finished sv2 /\ waiting sv2 = n).
  { destruct (steps_on _ _ _ SStop (stop_server (with_conns (started false true) (repeat (CReading from) n))) [] S1 eq_refl) as (s2 & E2 & S2 & _).
    destruct (steps_on _ _ _ SSelect (loop_returns (stop_server (with_conns (started false true) (repeat (CReading from) n)))) [] S2 eq_refl) as (s3 & E3 & S3 & _).
    destruct (steps_on _ _ _ SListen (with_listener (loop_returns (stop_server (with_conns (started false true) (repeat (CReading from) n)))) Returned) [] S3 eq_refl) as (s4 & E4 & S4 & _).
    exists s4. eexists. cbn [sys_run]. rewrite E2, E3, E4. split; [reflexivity|]. split; [exact S4|]. split; [reflexivity|]. split.
    - split; [reflexivity|]. split; [reflexivity|]. split; [reflexivity|]. intros m Hm. cbn in Hm. apply repeat_spec in Hm. discriminate Hm.
    - unfold waiting. cbn [loop_returns stop_server with_conns with_listener with_loop started ss_multicast ss_conns negb andb]. clear. induction n as [|n IH]; [reflexivity|]. cbn [repeat filter is_reading length]. rewrite IH. reflexivity. }
  destruct R2 as (s2 & sv2 & R2 & A & B & C & D). exists s2, sv2. repeat split; try assumption; try apply C.
  exists (Starts false true :: concat (repeat [On 0 SListen; On 0 (SConnect from)] n) ++ [On 0 SStop; On 0 SSelect; On 0 SListen]).
  cbn [sys_run sys_step sys_init sy_servers sy_log app]. rewrite run_app, R. exact R2.
Qed.

(** Nor does it keep the handler from being called: a datagram whose read was in
    progress, and one that was in flight, are handled after Stop, and their answers
    leave from another port. *)
Theorem C101_silent_refuted : forall d m d2 m2 r, ReadMessage d = Ok m -> ReadMessage d2 = Ok m2 ->
  exists s s' sv, reachable s /\ server s 0 sv /\ ss_stopped sv = true /\
    sys_run s [On 0 (SHandle 0 (Some r)); On 0 (SDatagram d2); On 0 (SHandle 0 (Some r))] = Some s' /\
    let x := SetPacketType m UDPUnicastPacket in let x2 := SetPacketType m2 UDPUnicastPacket in
    sy_log s' = sy_log s ++ [ECall 0 x; EAnswer 0 false x r; ERead 0 x2; ECall 0 x2; EAnswer 0 false x2 r].
Proof.
  intros d m d2 m2 r HR HR2.
  assert (R : exists s sv, sys_run sys_init [Starts false true; On 0 SSelect; On 0 (SDatagram d); On 0 SSelect; On 0 SStop] = Some s /\ sy_servers s = [sv] /\
    sv = mkSS false true true false true Inside AtSelect [SetPacketType m UDPUnicastPacket] [] None).
  { cbn [sys_run sys_step sys_init sy_servers app nth_error server_step started ss_loop ss_cancel ss_bound with_loop replace_nth]. rewrite HR.
    eexists. eexists. split; [reflexivity|]. split; reflexivity. }
  destruct R as (s & sv & R & ES & EV). subst sv. eexists s, _, _. split; [eexists; exact R|]. split; [unfold server; rewrite ES; reflexivity|]. split; [reflexivity|].
  cbn [sys_run sys_step]. rewrite ES. cbn [nth_error server_step ss_flying ss_multicast sy_servers sy_log replace_nth with_flying remove_nth firstn skipn app ss_loop]. rewrite HR2.
  cbn [nth_error server_step ss_flying ss_multicast sy_servers sy_log replace_nth with_flying with_loop remove_nth firstn skipn app ss_loop]. split; [reflexivity|].
  cbn [sy_log bound_in nth_error ss_bound]. rewrite <- !app_assoc. reflexivity.
Qed.

(** ** No step is stuck on what arrives *)

Theorem C101_no_panic : forall s i sv, server s i sv ->
  (forall d, Forall (fun b => 0 <= b < 256) (d_bytes d) -> ss_loop sv = Inside -> sys_step s (On i (SDatagram d)) <> None) /\
  (forall k from segs, Forall (fun b => 0 <= b < 256) (concat segs) -> nth_error (ss_conns sv) k = Some (CReading from) -> sys_step s (On i (SRead k segs)) <> None).
Proof.
  intros s i sv HS. unfold server in HS. split.
  - intros d HB HL. cbn [sys_step]. rewrite HS. cbn [server_step]. rewrite HL.
    assert (N : ReadMessage d <> Panic).
    { unfold ReadMessage. assert (HB' : is_bytes (firstn (Z.to_nat MaxPacketSize) (d_bytes d))) by (apply Forall_firstn; exact HB).
      destruct (parse_total _ HB') as [(x & E)|E]; rewrite E; discriminate. }
    destruct (ReadMessage d); [discriminate|discriminate|congruence].
  - intros k from segs HB HC. cbn [sys_step]. rewrite HS. cbn [server_step]. rewrite HC.
    pose proof (reader_no_panic bufio bufio_Read bufio_stream bufio_read_stream (NewBufio segs) HB) as N. destruct (NewMessageWithReader _ _); [discriminate|discriminate|congruence].
Qed.

(** ** The loop *)

(** What the reads of the loop of server [i] met. *)
Definition inputs (i : nat) (ls : list syslabel) : list read_event :=
  flat_map (fun l => match l with
                     | On j (SDatagram d) => if Nat.eqb j i then [RDatagram d] else []
                     | On j SReadFails => if Nat.eqb j i then [RError] else []
                     | _ => []
                     end) ls.

Lemma returned_stays bo i sv x sv' evs : ss_loop sv = Returned -> server_step bo i sv x = Some (sv', evs) ->
  ss_loop sv' = Returned /\ inputs i [On i x] = [] /\ datagrams i evs = [].
Proof.
  intros HR H. destruct x as [|d| |k r| |f| |k segs|k r|v|]; cbn [server_step] in H; rewrite ?HR in H; try discriminate H.
  - destruct (nth_error (ss_flying sv) k) as [m|]; [|discriminate H]. injection H as <- <-. split; [exact HR|]. split; [reflexivity|].
    destruct r; [|reflexivity]. destruct (ss_multicast sv); [destruct (ss_via sv)|]; reflexivity.
  - destruct (ss_listener sv); [|discriminate H..]. destruct (ss_cancel sv); injection H as <- <-; repeat split; try exact HR.
  - destruct (ss_listener sv); [discriminate H| |discriminate H]. injection H as <- <-. repeat split; try exact HR.
  - destruct (ss_listener sv); [discriminate H| |discriminate H]. injection H as <- <-. repeat split; try exact HR.
  - destruct (nth_error (ss_conns sv) k) as [[]|]; try discriminate H. destruct (NewMessageWithReader _ _); [| |discriminate H]; injection H as <- <-; repeat split; try exact HR.
  - destruct (nth_error (ss_conns sv) k) as [[]|]; try discriminate H. injection H as <- <-. split; [exact HR|]. split; [reflexivity|]. destruct r; reflexivity.
  - destruct (ss_multicast sv); [|discriminate H]. injection H as <- <-. repeat split; try exact HR.
  - destruct (ss_stopped sv); [discriminate H|]. injection H as <- <-. repeat split; try exact HR.
Qed.

(** A step of another server is no input. *)
Lemma inputs_other i j x : j <> i -> inputs i [On j x] = [].
Proof. intros N. assert (E : Nat.eqb j i = false) by (apply Nat.eqb_neq; exact N). destruct x; cbn; rewrite ?E; reflexivity. Qed.
Lemma inputs_cons i l ls : inputs i (l :: ls) = inputs i [l] ++ inputs i ls.
Proof. unfold inputs. cbn [flat_map]. rewrite app_nil_r. reflexivity. Qed.

Lemma step_cases s l s' i sv : sys_step s l = Some s' -> server s i sv ->
  exists sv' evs, server s' i sv' /\ sy_log s' = sy_log s ++ evs /\
    ((sv' = sv /\ datagrams i evs = [] /\ inputs i [l] = []) \/ exists x, l = On i x /\ server_step (bound_in (sy_servers s)) i sv x = Some (sv', evs)).
Proof.
  intros H HS. destruct (sys_step_server _ _ _ _ _ H HS) as (sv' & evs & A & B & C). exists sv', evs. split; [exact A|]. split; [exact B|].
  destruct l as [j x|m t].
  - destruct (Nat.eq_dec j i) as [->|N].
    + right. exists x. split; [reflexivity|]. cbn [sys_step] in H. unfold server in *. rewrite HS in H. destruct (server_step _ i sv x) as [[sv2 es]|] eqn:ES; [|discriminate H]. injection H as <-.
      cbn [sy_servers sy_log] in *. rewrite (nth_replace_same _ _ _ _ HS) in A. apply app_inv_head in B. congruence.
    + left. destruct C as [(-> & F)|(y & [= X _] & _)]; [|congruence]. split; [reflexivity|]. split; [apply (foreign_calls _ _ F)|apply inputs_other, N].
  - left. destruct C as [(-> & F)|(y & X & _)]; [|discriminate X]. split; [reflexivity|]. split; [apply (foreign_calls _ _ F)|reflexivity].
Qed.

Lemma returned_run i : forall ls s s' sv, server s i sv -> ss_loop sv = Returned -> sys_run s ls = Some s' ->
  inputs i ls = [] /\ exists new, sy_log s' = sy_log s ++ new /\ datagrams i new = [].
Proof.
  induction ls as [|l ls IH]; intros s s' sv HS HR H; cbn [sys_run] in H.
  - injection H as <-. split; [reflexivity|]. exists []. rewrite app_nil_r. split; reflexivity.
  - destruct (sys_step s l) as [s1|] eqn:E; [|discriminate H]. destruct (step_cases _ _ _ _ _ E HS) as (sv1 & evs & S1 & L1 & C).
    assert (X : ss_loop sv1 = Returned /\ inputs i [l] = [] /\ datagrams i evs = []).
    { destruct C as [(-> & D & I)|(x & -> & ES)]; [auto|]. eapply returned_stays; eassumption. }
    destruct X as (R1 & I1 & D1). destruct (IH s1 s' sv1 S1 R1 H) as (I2 & new & L2 & D2). rewrite inputs_cons, I1, I2. split; [reflexivity|].
    exists (evs ++ new). rewrite L2, L1, <- app_assoc. split; [reflexivity|]. unfold datagrams in *. rewrite flat_map_app, D1, D2. reflexivity.
Qed.

(** What a server reads is what the loop of C46 gives for the same reads, whatever
    happens to other goroutines and servers. *)
Theorem C101_loop : forall ls s s' i sv, server s i sv -> sys_run s ls = Some s' ->
  exists new, sy_log s' = sy_log s ++ new /\ datagrams i new = fst (receive_loop (loop_type sv) (inputs i ls)).
Proof.
  induction ls as [|l ls IH]; intros s s' i sv HS H; cbn [sys_run] in H.
  - injection H as <-. exists []. rewrite app_nil_r. split; reflexivity.
  - destruct (sys_step s l) as [s1|] eqn:E; [|discriminate H]. destruct (step_cases _ _ _ _ _ E HS) as (sv1 & evs & S1 & L1 & C).
    assert (REST : inputs i [l] = [] -> datagrams i evs = [] -> loop_type sv1 = loop_type sv ->
      exists new, sy_log s' = sy_log s ++ new /\ datagrams i new = fst (receive_loop (loop_type sv) (inputs i (l :: ls)))).
    { intros I D T. destruct (IH s1 s' i sv1 S1 H) as (new & L2 & D2). exists (evs ++ new). rewrite L2, L1, <- app_assoc. split; [reflexivity|].
      rewrite inputs_cons, I, <- T. cbn [app]. rewrite <- D2. unfold datagrams in *. rewrite flat_map_app, D. reflexivity. }
    destruct C as [(-> & D & I)|(x & -> & ES)]; [apply REST; auto|].
    assert (T1 : loop_type sv1 = loop_type sv).
    { unfold loop_type. destruct (loop_returns_fields sv) as (_ & _ & _ & _ & _ & LM & _). assert (X : ss_multicast sv1 = ss_multicast sv); [|rewrite X; reflexivity].
      clear - ES LM. destruct x as [|d| |k r| |f| |k segs|k r|v|]; cbn [server_step] in ES.
      - destruct (ss_loop sv); [|discriminate ES..]. destruct (ss_cancel sv); [|destruct (ss_bound sv)]; injection ES as <- _; auto.
      - destruct (ss_loop sv); [discriminate ES| |discriminate ES]. destruct (ReadMessage d); [| |discriminate ES]; injection ES as <- _; auto.
      - destruct (ss_loop sv); [discriminate ES| |discriminate ES]. injection ES as <- _. auto.
      - destruct (nth_error (ss_flying sv) k); [|discriminate ES]. injection ES as <- _. reflexivity.
      - destruct (ss_listener sv); [|discriminate ES..]. destruct (ss_cancel sv); injection ES as <- _; reflexivity.
      - destruct (ss_listener sv); [discriminate ES| |discriminate ES]. injection ES as <- _. reflexivity.
      - destruct (ss_listener sv); [discriminate ES| |discriminate ES]. injection ES as <- _. reflexivity.
      - destruct (nth_error (ss_conns sv) k) as [[]|]; try discriminate ES. destruct (NewMessageWithReader _ _); [| |discriminate ES]; injection ES as <- _; reflexivity.
      - destruct (nth_error (ss_conns sv) k) as [[]|]; try discriminate ES. injection ES as <- _. reflexivity.
      - destruct (ss_multicast sv) eqn:EM; [|discriminate ES]. injection ES as <- _. reflexivity.
      - destruct (ss_stopped sv); [discriminate ES|]. injection ES as <- _. reflexivity. }
    destruct x as [|d| |k r| |f| |k segs|k r|v|]; try (apply REST; [reflexivity| |exact T1]; clear REST).
    + cbn [server_step] in ES. destruct (ss_loop sv); [|discriminate ES..]. destruct (ss_cancel sv); [|destruct (ss_bound sv)]; injection ES as _ <-; reflexivity.
    + clear REST. cbn [server_step] in ES. destruct (ss_loop sv) eqn:EL; [discriminate ES| |discriminate ES]. rewrite inputs_cons. unfold inputs at 1. cbn [flat_map app]. rewrite Nat.eqb_refl. cbn [app receive_loop].
      destruct (ReadMessage d) as [m|e|] eqn:EM; [| |discriminate ES]; injection ES as <- <-.
      * destruct (IH s1 s' i _ S1 H) as (new & L2 & D2). rewrite T1 in D2. destruct (receive_loop (loop_type sv) (inputs i ls)) as [ms st] eqn:ER. cbn [fst] in *.
        eexists. rewrite L2, L1, <- app_assoc. split; [reflexivity|]. unfold datagrams in *. rewrite flat_map_app, D2. cbn [flat_map datagram_of]. rewrite Nat.eqb_refl. reflexivity.
      * destruct (loop_returns_fields sv) as (_ & _ & _ & _ & LP & _). destruct (returned_run i ls s1 s' _ S1 LP H) as (I2 & new & L2 & D2).
        exists new. rewrite L2, L1, app_nil_r. split; [reflexivity|]. rewrite D2. reflexivity.
    + clear REST. cbn [server_step] in ES. destruct (ss_loop sv) eqn:EL; [discriminate ES| |discriminate ES]. injection ES as <- <-. rewrite inputs_cons. unfold inputs at 1. cbn [flat_map app]. rewrite Nat.eqb_refl. cbn [app receive_loop fst].
      destruct (loop_returns_fields sv) as (_ & _ & _ & _ & LP & _). destruct (returned_run i ls s1 s' _ S1 LP H) as (I2 & new & L2 & D2).
      exists new. rewrite L2, L1, app_nil_r. split; [reflexivity|exact D2].
    + cbn [server_step] in ES. destruct (nth_error (ss_flying sv) k); [|discriminate ES]. injection ES as _ <-. destruct r; [|reflexivity]. destruct (ss_multicast sv); [destruct (ss_via sv)|]; reflexivity.
    + cbn [server_step] in ES. destruct (ss_listener sv); [|discriminate ES..]. destruct (ss_cancel sv); injection ES as _ <-; reflexivity.
    + cbn [server_step] in ES. destruct (ss_listener sv); [discriminate ES| |discriminate ES]. injection ES as _ <-. reflexivity.
    + cbn [server_step] in ES. destruct (ss_listener sv); [discriminate ES| |discriminate ES]. injection ES as _ <-. reflexivity.
    + cbn [server_step] in ES. destruct (nth_error (ss_conns sv) k) as [[]|]; try discriminate ES. destruct (NewMessageWithReader _ _); [| |discriminate ES]; injection ES as _ <-; reflexivity.
    + cbn [server_step] in ES. destruct (nth_error (ss_conns sv) k) as [[]|]; try discriminate ES. injection ES as _ <-. destruct r; reflexivity.
    + cbn [server_step] in ES. destruct (ss_multicast sv); [|discriminate ES]. injection ES as _ <-. reflexivity.
    + cbn [server_step] in ES. destruct (ss_stopped sv); [discriminate ES|]. injection ES as _ <-. reflexivity.
Qed.

(** ** Cases *)

Definition ask : list Z := [0x10; 0x81; 0; 7; 5; 255; 1; 0x02; 0x91; 1; 0x62; 1; 0x80; 0].

(** A unicast and a multicast server; two datagrams are read, a connection is accepted,
    both servers are stopped with a read in progress; then the read still gives a
    datagram, the multicast message is answered through the stopped unicast server, and
    the request over the connection is answered. *)
Definition a_run : list syslabel :=
  [Starts false true; Starts true true; On 1 (SVia 0); On 1 SSelect; On 0 SSelect; On 1 (SDatagram (mkDatagram ask (mkAddress 9 3610)));
   On 0 (SDatagram (mkDatagram ask (mkAddress 8 3610))); On 0 SListen; On 0 (SConnect (mkAddress 7 40000)); On 0 SSelect; On 0 (SHandle 0 None);
   On 0 SStop; On 1 SStop].
Definition a_rest (r : message) : list syslabel :=
  [On 0 (SDatagram (mkDatagram ask (mkAddress 6 3610))); On 0 SSelect; On 1 (SHandle 0 (Some r)); On 0 SListen; On 1 SSelect;
   On 0 (SRead 0 [ask]); On 0 (SHandleConn 0 (Some r)); On 0 (SHandle 0 None)].
Definition kind (e : sevent) : nat * nat :=
  match e with
  | ERead i _ => (1, i)%nat | EAccept i _ => (2, i)%nat | EReadConn i _ _ => (3, i)%nat | ECall i _ => (4, i)%nat
  | EAnswer i b _ _ => (if b then 5 else 6, i)%nat | EReply i _ _ => (7, i)%nat | EClose i _ => (8, i)%nat
  end.
Definition faces (s : sserver) := (ss_loop s, ss_listener s, length (ss_flying s), length (ss_conns s), waiting s, work s).

Example C101_example :
  match sys_run sys_init a_run, NewMessageWithBytes ask with
  | Some s, Ok r =>
      map faces (sy_servers s) = [(Inside, AtSelect, 0%nat, 1%nat, 1%nat, 2%nat); (AtSelect, Returned, 1%nat, 0%nat, 0%nat, 2%nat)] /\
      match sys_run s (a_rest r) with
      | Some s' =>
          map kind (skipn (length (sy_log s)) (sy_log s')) = [(1, 0); (4, 1); (6, 0); (3, 0); (4, 0); (7, 0); (8, 0); (4, 0)]%nat /\
          map faces (sy_servers s') = [(Returned, Returned, 0%nat, 1%nat, 0%nat, 0%nat); (Returned, Returned, 0%nat, 0%nat, 0%nat, 0%nat)] /\
          map a_port (map m_from (calls 0 (sy_log s'))) = [3610; 40000; 3610] /\
          sys_step s' (On 0 SStop) = None
      | None => False
      end
  | _, _ => False
  end.
Proof. vm_compute. repeat split. Qed.

Print Assumptions C101_once.
Print Assumptions C101_after_stop.
Print Assumptions C101_connection.
Print Assumptions C101_source.
Print Assumptions C101_ends.
Print Assumptions C101_idle.
Print Assumptions C101_still_served.
Print Assumptions C101_idle_refuted.
Print Assumptions C101_silent_refuted.
Print Assumptions C101_no_panic.
Print Assumptions C101_loop.
