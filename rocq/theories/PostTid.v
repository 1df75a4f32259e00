(** Transaction identifiers of concurrent PostMessage calls. *)

From Verif Require Import Go GoFacts Encoding EncodingFacts Protocol MessageFacts ProtocolFacts Node NodeFacts Post PostFacts.
From Coq Require Import ZifyBool ZifyNat Sorted.
Local Open Scope Z_scope.

Lemma TID_header m t ok : 0 <= t <= 65535 -> TID (with_header m t ok) = t.
Proof.
  intros H. assert (E : m_tid (with_header m t ok) = (t / 256, t mod 256)).
  { unfold with_header. destruct ok; [cbn [SetSEOJ with_seoj m_tid]|]; apply SetTID_TID, H. }
  unfold TID. rewrite E. cbn [fst snd]. rewrite Z.shiftl_mul_pow2 by lia. change (2 ^ 8) with 256.
  pose proof (Z.div_mod t 256). lia.
Qed.

(** NextTID without interruption is the sequential function. *)
Fixpoint tid_run (k : nat) (last : Z) (t : tpc) : option (Z * Z) :=
  match k with
  | O => None
  | S k => match tid_step last t with
           | (v, _, inl t) => tid_run k v t
           | (v, _, inr r) => Some (v, r)
           end
  end.

Lemma tid_run_spec last : 0 <= last <= 65535 -> tid_run 4 last T1 = Some ((last + 1) mod 65536, (last + 1) mod 65536).
Proof.
  intros H. cbn. unfold TIDMax, TIDMin. destruct (65535 <=? last) eqn:E.
  - assert (last = 65535) by lia. subst. reflexivity.
  - rewrite (Z.mod_small (last + 1)) by lia. reflexivity.
Qed.

(** Schedules in which identifiers are drawn only by calls of PostMessage with
    TCP disabled. *)
Definition posts_only (l : label) : Prop :=
  match l with LSendCall _ _ _ => False | LCall _ _ tcp => tcp = false | _ => True end.

Definition fresh (s : pstate) : Prop := 0 < ps_drawn s /\ Forall (fun w => w_drawn w < ps_drawn s) (ps_wire s).

Definition drawing (s : pstate) (c : caller) : Prop :=
  match c_pc c with
  | CTcpRun | CTcpTid _ | CTcpHead _ | CTcpPost => False
  | CTid (T2 w) => w = (65535 <=? ps_last s)
  | CTid (T3 v) => v = ps_last s /\ v < 65535
  | CTid T4 => fresh s
  | CHead t => t = ps_last s /\ fresh s
  | CSend => TID (c_msg c) = ps_last s /\ fresh s
  | _ => True
  end.

Definition tid_inv (last : Z) (s : pstate) : Prop :=
  (forall j, s_pc (ps_senders s j) = SIdle) /\
  (0 <= ps_last s <= 65535 /\ 0 <= ps_drawn s /\ ps_last s = (last + ps_drawn s) mod 65536) /\
  (forall i, drawing s (ps_callers s i)) /\
  (Forall (fun w => TID (w_msg w) = (last + w_drawn w) mod 65536 /\ 0 < w_drawn w <= ps_drawn s) (ps_wire s) /\
   StronglySorted Z.lt (map w_drawn (ps_wire s))).

Lemma drawing_same s s' c : ps_last s' = ps_last s -> ps_drawn s' = ps_drawn s -> ps_wire s' = ps_wire s ->
  drawing s c -> drawing s' c.
Proof. intros E1 E2 E3. unfold drawing, fresh. rewrite E1, E2, E3. auto. Qed.

Lemma drawing_out s s' c : in_cs (c_pc c) = false -> drawing s c -> drawing s' c.
Proof. unfold drawing. destruct (c_pc c); intros X H; try discriminate X; auto. Qed.

(** A step that draws nothing and sends nothing. *)
Lemma tid_quiet last s s' : tid_inv last s ->
  ps_senders s' = ps_senders s -> ps_last s' = ps_last s -> ps_drawn s' = ps_drawn s -> ps_wire s' = ps_wire s ->
  (forall i, drawing s' (ps_callers s' i)) -> tid_inv last s'.
Proof.
  intros (A & B & C & D) E1 E2 E3 E4 H. unfold tid_inv. rewrite E1, E2, E3, E4. auto.
Qed.

Lemma drawing_upd s s' i c : (forall j, drawing s (ps_callers s j)) ->
  ps_last s' = ps_last s -> ps_drawn s' = ps_drawn s -> ps_wire s' = ps_wire s ->
  ps_callers s' = upd (ps_callers s) i c -> drawing s' c -> forall j, drawing s' (ps_callers s' j).
Proof.
  intros H E1 E2 E3 E4 HC j. rewrite E4. unfold upd. destruct (Nat.eqb j i); [exact HC|].
  apply (drawing_same s); auto.
Qed.

Ltac quiet i := match goal with
  | HT : tid_inv ?l ?s |- tid_inv ?l ?s' =>
      apply (tid_quiet l s s' HT); [reflexivity|reflexivity|reflexivity|reflexivity|];
      eapply (drawing_upd s s' i); [apply HT|reflexivity|reflexivity|reflexivity|reflexivity|]
  end.

Lemma sorted_snoc l (x : Z) : StronglySorted Z.lt l -> Forall (fun y => y < x) l -> StronglySorted Z.lt (l ++ [x]).
Proof.
  induction 1 as [|a l H IH F]; intros G; cbn.
  - constructor; constructor.
  - inversion G; subst. constructor; [apply IH; assumption|]. apply Forall_app. split; [assumption|]. constructor; [assumption|constructor].
Qed.

Lemma next_mod last n v : v = (last + n) mod 65536 -> 0 <= v -> v < 65535 -> v + 1 = (last + (n + 1)) mod 65536.
Proof. intros. rewrite Z.add_assoc. rewrite <- Zplus_mod_idemp_l, <- H. rewrite Z.mod_small; lia. Qed.
Lemma wrap_mod last n : 65535 = (last + n) mod 65536 -> 0 = (last + (n + 1)) mod 65536.
Proof. intros. rewrite Z.add_assoc. rewrite <- Zplus_mod_idemp_l, <- H. reflexivity. Qed.

Lemma tid_inv_step last s l s' : inv s -> tid_inv last s -> posts_only l -> p_step s l = Some s' -> tid_inv last s'.
Proof.
  intros HI HT HL H. pose proof HT as (HS & (HB & HN & HM) & HD & (HW & HO)).
  destruct l; cbn [p_step posts_only] in *.
  - subst tcp. opt H. injection H as <-. quiet i. exact I.
  - assert (CS : in_cs (c_pc (ps_callers s i)) = true -> forall j, j <> i -> in_cs (c_pc (ps_callers s j)) = false).
    { intros X. apply (others_out s i HI). destruct (holder_of s i HI X); assumption. }
    assert (OTH : forall s1 c, in_cs (c_pc (ps_callers s i)) = true -> drawing s1 c ->
      forall j, drawing s1 (upd (ps_callers s) i c j)).
    { intros s1 c X HC j. destruct (Nat.eq_dec j i) as [->|N]; [rewrite upd_same; exact HC|].
      rewrite upd_other by assumption. apply (drawing_out s); [apply (CS X j N)|apply HD]. }
    unfold call_step in H; cbv zeta in H. pose proof (HD i) as DI. unfold drawing in DI.
    destruct (c_pc (ps_callers s i)) as [| |t|t| | | | | |t|t| | |r e|r] eqn:EP; unfold go_on in H; try discriminate H;
      try contradiction.
    + opt H. injection H as <-. quiet i. exact I.
    + injection H as <-. quiet i. exact I.
    + injection H as <-. quiet i. exact I.
    + injection H as <-. quiet i. destruct ok; exact I.
    + destruct t as [|[]|v|]; cbn [tid_step] in H; injection H as <-.
      * quiet i. cbn. reflexivity.
      * split; [exact HS|]. split; [|split].
        -- cbn. unfold TIDMin. split; [lia|]. split; [lia|]. apply wrap_mod. rewrite <- HM. lia.
        -- cbn [set_caller ps_callers set_last]. apply OTH; [reflexivity|]. cbn. unfold fresh. cbn. split; [lia|]. eapply Forall_impl; [|exact HW].
           cbv beta. intros w. lia.
        -- cbn. split; [|exact HO]. eapply Forall_impl; [|exact HW]. cbv beta. intros w. lia.
      * quiet i. cbn. split; [reflexivity|lia].
      * destruct DI as (-> & LV). split; [exact HS|]. split; [|split].
        -- cbn. split; [lia|]. split; [lia|]. apply next_mod; [exact HM|lia|lia].
        -- cbn [set_caller ps_callers set_last]. apply OTH; [reflexivity|]. cbn. unfold fresh. cbn. split; [lia|]. eapply Forall_impl; [|exact HW].
           cbv beta. intros w. lia.
        -- cbn. split; [|exact HO]. eapply Forall_impl; [|exact HW]. cbv beta. intros w. lia.
      * quiet i. cbn. split; [reflexivity|exact DI].
    + destruct DI as (-> & F). injection H as <-. quiet i. destruct ok; [|exact I]. cbn.
      split; [|exact F]. apply (TID_header _ _ true), HB.
    + destruct DI as (ET & F). destruct ok; injection H as <-.
      * split; [exact HS|]. split; [cbn; auto|]. split.
        -- cbn [set_caller ps_callers put_wire]. apply OTH; [reflexivity|]. exact I.
        -- cbn. split.
           ++ apply Forall_app. split; [exact HW|]. constructor; [|constructor]. cbn. destruct F. split; [lia|lia].
           ++ rewrite map_app. cbn [map w_drawn]. apply sorted_snoc; [exact HO|]. apply Forall_map. apply F.
      * quiet i. exact I.
    + unfold end_step, go_on in H. destruct e; opt H; injection H as <-; quiet i; exact I.
  - unfold go_on in H. opt H. injection H as <-. quiet i. exact I.
  - unfold go_on in H. opt H. injection H as <-. quiet i. exact I.
  - unfold go_on in H. opt H. injection H as <-. quiet i. exact I.
  - opt H. injection H as <-. exact HT.
  - apply handle_same in H. destruct H as ((_ & _ & _ & _ & _ & E) & E1 & E2 & E3 & E4 & _).
    apply (tid_quiet last s s' HT); try assumption. rewrite E. intros i. apply (drawing_same s); auto.
  - contradiction.
  - unfold sender_step in H; cbv zeta in H. rewrite HS in H. discriminate H.
Qed.

Lemma tid_init last : 0 <= last <= 65535 -> tid_inv last (p_init last).
Proof.
  intros H. split; [reflexivity|]. split; [|split].
  - cbn. rewrite Z.add_0_r, Z.mod_small by lia. lia.
  - intros i. exact I.
  - cbn. split; constructor.
Qed.

Lemma run_tid last ls : 0 <= last <= 65535 -> Forall posts_only ls ->
  forall s, p_run (p_init last) ls = Some s -> inv s /\ tid_inv last s.
Proof.
  intros HL. induction ls as [|l ls IH] using rev_ind; intros HP s H.
  - injection H as <-. split; [apply inv_init|apply tid_init, HL].
  - apply Forall_app in HP. destruct HP as (HP & HP1). inversion HP1; subst.
    rewrite p_run_app in H. destruct (p_run (p_init last) ls) as [s0|] eqn:E0; [|discriminate H].
    cbn [p_run] in H. destruct (p_step s0 l) as [s1|] eqn:E1; [|discriminate H]. injection H as <-.
    destruct (IH HP s0 eq_refl) as (HI & HT). split; [eapply inv_step; eauto|eapply tid_inv_step; eauto].
Qed.

(** ** At most one identifier is drawn per call *)

Definition is_call (l : label) : bool := match l with LCall _ _ _ => true | _ => false end.
Definition called (ls : list label) : list nat := flat_map (fun l => match l with LCall i _ _ => [i] | _ => [] end) ls.

Lemma called_length ls : length (called ls) = length (filter is_call ls).
Proof. induction ls as [|[]]; cbn; auto. Qed.

Definition drawn_by (s : pstate) (D : list nat) : Prop :=
  NoDup D /\ Z.of_nat (length D) = ps_drawn s /\ forall i, In i D -> (rank (c_pc (ps_callers s i)) <= 10)%nat.

Lemma rank_down s l s' i : p_step s l = Some s' -> (rank (c_pc (ps_callers s' i)) <= rank (c_pc (ps_callers s i)))%nat.
Proof.
  intros H. destruct (of_call i l) eqn:O; [pose proof (rank_step s l s' i H O); lia|].
  rewrite (callers_of s l s' H i O). lia.
Qed.

Lemma drawn_step last s l s' D : tid_inv last s -> posts_only l -> drawn_by s D -> p_step s l = Some s' ->
  exists D', drawn_by s' D'.
Proof.
  intros (HS & _ & HD & _) HL (ND & LD & RD) H.
  assert (KEEP : ps_drawn s' = ps_drawn s -> exists D', drawn_by s' D').
  { intros E. exists D. split; [exact ND|]. split; [lia|]. intros i I. pose proof (RD i I). pose proof (rank_down s l s' i H). lia. }
  assert (DRAW : forall i, (10 < rank (c_pc (ps_callers s i)))%nat -> (rank (c_pc (ps_callers s' i)) <= 10)%nat ->
    ps_drawn s' = ps_drawn s + 1 -> exists D', drawn_by s' D').
  { intros i R1 R2 E. exists (i :: D). split; [|split].
    - constructor; [|exact ND]. intros X. specialize (RD i X). lia.
    - cbn [length]. lia.
    - intros j [<-|I]; [exact R2|]. pose proof (RD j I). pose proof (rank_down s l s' j H). lia. }
  destruct l; cbn [p_step posts_only] in *.
  - apply KEEP. opt H; injection H as <-; reflexivity.
  - pose proof H as H'. unfold call_step in H'; cbv zeta in H'. pose proof (HD i) as DI. unfold drawing in DI.
    destruct (c_pc (ps_callers s i)) as [| |t|t| | | | | |t|t| | |r e|r] eqn:EP; unfold end_step, go_on in H'; try discriminate H';
      try contradiction.
    all: try (apply KEEP; opt H'; injection H' as <-; reflexivity).
    destruct t as [|[]|v|]; cbn [tid_step] in H'; injection H' as H'.
    + apply KEEP. rewrite <- H'. reflexivity.
    + apply (DRAW i); rewrite <- ?H'; [rewrite EP; cbn; lia|cbn; rewrite upd_same; cbn; lia|reflexivity].
    + apply KEEP. rewrite <- H'. reflexivity.
    + apply (DRAW i); rewrite <- ?H'; [rewrite EP; cbn; lia|cbn; rewrite upd_same; cbn; lia|reflexivity].
    + apply KEEP. rewrite <- H'. reflexivity.
  - apply KEEP. unfold go_on in H. opt H; injection H as <-; reflexivity.
  - apply KEEP. unfold go_on in H. opt H; injection H as <-; reflexivity.
  - apply KEEP. unfold go_on in H. opt H; injection H as <-; reflexivity.
  - apply KEEP. opt H; injection H as <-; reflexivity.
  - apply KEEP. apply handle_same in H. apply H.
  - contradiction.
  - unfold sender_step in H; cbv zeta in H. rewrite HS in H. discriminate H.
Qed.

Lemma started_called last ls : forall s, p_run (p_init last) ls = Some s ->
  forall i, (rank (c_pc (ps_callers s i)) < 25)%nat -> In i (called ls).
Proof.
  induction ls as [|l ls IH] using rev_ind; intros s H i R.
  - injection H as <-. cbn in R. lia.
  - rewrite p_run_app in H. destruct (p_run (p_init last) ls) as [s0|] eqn:E0; [|discriminate H].
    cbn [p_run] in H. destruct (p_step s0 l) as [s1|] eqn:E1; [|discriminate H]. injection H as <-.
    unfold called. rewrite flat_map_app. apply in_app_iff.
    destruct (of_call i l) eqn:O.
    2:{ left. apply (IH s0 eq_refl). rewrite (callers_of s0 l s1 E1 i O) in R. exact R. }
    destruct (Nat.ltb (rank (c_pc (ps_callers s0 i))) 25) eqn:R0.
    { left. apply (IH s0 eq_refl). lia. }
    right. assert (EP : c_pc (ps_callers s0 i) = CIdle).
    { destruct (c_pc (ps_callers s0 i)) as [| |t|t| | | | | |t|t| | |r e|r]; try discriminate R0; try reflexivity;
        [destruct t|destruct t|destruct e]; discriminate R0. }
    destruct l; cbn [of_call] in O; try discriminate O; apply Nat.eqb_eq in O; subst; cbn [p_step] in E1; unfold call_step in E1;
      cbv zeta in E1; rewrite EP in E1; try discriminate E1. left. reflexivity.
Qed.

Lemma drawn_calls last ls s : 0 <= last <= 65535 -> Forall posts_only ls -> p_run (p_init last) ls = Some s ->
  ps_drawn s <= Z.of_nat (length (filter is_call ls)).
Proof.
  intros HL HP H.
  assert (G : exists D, drawn_by s D).
  { revert s H. induction ls as [|l ls IH] using rev_ind; intros s H.
    - injection H as <-. exists []. split; [constructor|]. split; [reflexivity|]. intros i [].
    - apply Forall_app in HP. destruct HP as (HP & HP1). inversion HP1; subst.
      rewrite p_run_app in H. destruct (p_run (p_init last) ls) as [s0|] eqn:E0; [|discriminate H].
      cbn [p_run] in H. destruct (p_step s0 l) as [s1|] eqn:E1; [|discriminate H]. injection H as <-.
      destruct (IH HP s0 eq_refl) as (D & HD). apply (drawn_step last s0 l s1 D); auto. apply (run_tid last ls HL HP s0 E0). }
  destruct G as (D & ND & LD & RD). rewrite <- called_length.
  assert (incl D (called ls)).
  { intros i I. apply (started_called last ls s H). pose proof (RD i I). lia. }
  pose proof (NoDup_incl_length ND H0). lia.
Qed.

Lemma tids_distinct last ws n : StronglySorted Z.lt (map w_drawn ws) ->
  Forall (fun w => TID (w_msg w) = (last + w_drawn w) mod 65536 /\ 0 < w_drawn w <= n) ws ->
  n <= 65536 -> NoDup (map (fun w => TID (w_msg w)) ws).
Proof.
  intros HS HF HN. induction ws as [|w ws IH]; [constructor|].
  inversion HS; subst. inversion HF; subst. cbn [map]. constructor; [|apply IH; auto].
  rewrite in_map_iff. intros (w' & E & I). rewrite Forall_forall in H2. specialize (H2 (w_drawn w') (in_map w_drawn _ _ I)).
  rewrite Forall_forall in H4. destruct (H4 w' I) as (E' & B'). destruct H3 as (E3 & B3).
  rewrite E3, E' in E. clear - E B3 B' H2 HN.
  pose proof (Z.div_mod (last + w_drawn w) 65536). pose proof (Z.div_mod (last + w_drawn w') 65536). lia.
Qed.
