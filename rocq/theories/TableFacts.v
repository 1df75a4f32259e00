(** Facts about the controller's table when announcements are handled at the same time. *)

From Coq Require Import Permutation.
From Verif Require Import Go GoFacts Protocol MessageFacts Property Object Spec Node NodeFacts Handler HandlerFacts
  Remote RemoteFacts PropsRemote Concurrent ConcurrentFacts.
From Coq Require Import ZifyBool ZifyNat.
Local Open Scope Z_scope.

Lemma nth_split_at {A} (l : list A) i x : nth_error l i = Some x -> exists l1 l2, l = l1 ++ x :: l2 /\ length l1 = i.
Proof. apply nth_error_split. Qed.

Lemma set_nth_eq {A} (l : list A) : forall i y, (i < length l)%nat -> nth_error (set_nth l i y) i = Some y.
Proof. induction l as [|a l IH]; intros [|i] y H; cbn in *; try lia; [reflexivity|apply IH; lia]. Qed.

Lemma set_nth_neq {A} (l : list A) : forall i j y, i <> j -> nth_error (set_nth l i y) j = nth_error l j.
Proof. induction l as [|a l IH]; intros [|i] [|j] y H; cbn; auto; try congruence. Qed.

Lemma firstn_set_after {A} (l : list A) : forall k i y, (k <= i)%nat -> firstn k (set_nth l i y) = firstn k l.
Proof. induction l as [|a l IH]; intros [|k] [|i] y H; cbn; try reflexivity; try lia. f_equal. apply IH. lia. Qed.

Lemma firstn_set_at {A} (l : list A) : forall i y, (i < length l)%nat -> firstn (S i) (set_nth l i y) = firstn i l ++ [y].
Proof.
  induction l as [|a l IH]; intros [|i] y H; cbn [length] in H; try lia; [reflexivity|].
  cbn [set_nth]. rewrite !firstn_cons. cbn [app]. f_equal. apply IH. lia.
Qed.

(** ** A condition on every slice in existence *)

(** The slices: the one of the controller and those goroutines have read. *)
Definition holds (f : finds) (a len : nat) : Prop :=
  (a = t_array (f_table f) /\ len = t_len (f_table f)) \/
  exists i n j, nth_error (f_adding f) i = Some (AScan n a len j) \/ nth_error (f_adding f) i = Some (AWrite n a len) \/
    nth_error (f_adding f) i = Some (AStore n a len).

(** The node of an announcement under way. *)
Definition carries (ph : adding) : list rnode :=
  match ph with
  | AStart n | AScan n _ _ _ | ALoad n | AWrite n _ _ | AStore n _ _ | ATell n => [n]
  | APanic | AEnd => []
  end.

Section Slices.

Variable Good : list (option rnode) -> nat -> Prop.
Variable Src : rnode -> Prop.
Hypothesis good_len : forall l k, Good l k -> (k <= length l)%nat.
Hypothesis good_over : forall l k j n, Good l k -> Good l j -> (j < length l)%nat -> Src n -> Good (set_nth l j (Some n)) k.
Hypothesis good_next : forall l j n, Good l j -> (j < length l)%nat -> Src n -> Good (set_nth l j (Some n)) (S j).
Hypothesis good_grow : forall l j n r, Good l j -> Src n -> Good (firstn j l ++ Some n :: r) (S j).

Definition good_at (t : table) (a len : nat) : Prop := exists l, nth_error (t_arrays t) a = Some l /\ Good l len.

Definition slices (f : finds) : Prop :=
  (forall a len, holds f a len -> good_at (f_table f) a len) /\
  (forall i ph n, nth_error (f_adding f) i = Some ph -> In n (carries ph) -> Src n).

Lemma slices_message f n : slices f -> Src n -> slices (mkFinds (f_table f) (f_adding f ++ [AStart n]) (f_told f)).
Proof.
  intros [H1 H2] HS. split.
  - intros a len H. apply H1. destruct H as [H|(i & x & j & H)]; [left; exact H|]. right. cbn [f_adding] in H.
    destruct (Nat.lt_ge_cases i (length (f_adding f))) as [L|L].
    + rewrite nth_error_app1 in H by assumption. eauto.
    + rewrite nth_error_app2 in H by assumption.
      destruct (i - length (f_adding f))%nat as [|[|k]]; cbn in H; intuition discriminate.
  - intros i ph x H I. cbn [f_adding] in H. destruct (Nat.lt_ge_cases i (length (f_adding f))) as [L|L].
    + rewrite nth_error_app1 in H by assumption. eauto.
    + rewrite nth_error_app2 in H by assumption.
      destruct (i - length (f_adding f))%nat as [|[|k]]; cbn in H; try discriminate H.
      injection H as <-. destruct I as [<-|[]]. exact HS.
Qed.

Lemma good_keep f j n a len :
  slices f -> (exists i, nth_error (f_adding f) i = Some (AWrite n a len)) -> (len < length (array_at (f_table f) a))%nat ->
  forall b k, good_at (f_table f) b k ->
  good_at (mkTable (set_nth (t_arrays (f_table f)) a (set_nth (array_at (f_table f) a) len (Some n)))
             (t_array (f_table f)) j) b k.
Proof.
  intros [H1 H2] (i & Hi) HL b k (l & Hl & G).
  destruct (H1 a len) as (la & Ha & Ga); [right; exists i, n, 0%nat; auto|].
  assert (SN : Src n) by (eapply H2; [exact Hi|left; reflexivity]).
  unfold array_at in *. rewrite Ha in *. unfold good_at. cbn [t_arrays].
  destruct (Nat.eq_dec a b) as [<-|D].
  - assert (l = la) by congruence. subst l. eexists. split; [apply set_nth_eq; apply nth_error_Some; congruence|].
    apply good_over; assumption.
  - rewrite set_nth_neq by assumption. eauto.
Qed.

Lemma slices_step grow lis f i ph : slices f -> nth_error (f_adding f) i = Some ph ->
  let '(t, told, ph') := add_step grow lis (f_table f) (f_told f) ph in
  slices (mkFinds t (set_nth (f_adding f) i ph') told).
Proof.
  intros [H1 H2] Hi.
  (* The table stays: only the phase is new. *)
  assert (STAY : forall told ph', (forall a len n j, ph' = AScan n a len j \/ ph' = AWrite n a len \/ ph' = AStore n a len ->
                    holds f a len) -> (forall n, In n (carries ph') -> In n (carries ph)) ->
                  slices (mkFinds (f_table f) (set_nth (f_adding f) i ph') told)).
  { intros told ph' HH HC. split.
    - intros a len [H|(k & n & j & H)]; [apply H1; left; exact H|]. cbn [f_adding f_table] in *. apply H1.
      destruct (Nat.eq_dec i k) as [<-|D].
      + rewrite set_nth_eq in H by (apply nth_error_Some; congruence).
        apply (HH a len n j). intuition congruence.
      + rewrite set_nth_neq in H by assumption. right. eauto.
    - intros k p n H I. cbn [f_adding] in H. destruct (Nat.eq_dec i k) as [<-|D].
      + rewrite set_nth_eq in H by (apply nth_error_Some; congruence). injection H as <-.
        eapply H2; [exact Hi|]. apply HC, I.
      + rewrite set_nth_neq in H by assumption. eauto. }
  destruct ph as [n|n a len j|n|n a len|n a len|n| |]; cbn [add_step].
  - apply STAY; [|auto]. intros a' len' n' j' [E|[E|E]]; try discriminate E. injection E as _ <- <- _. left. auto.
  - destruct (_ <? _)%nat.
    + destruct (nth_error (array_at (f_table f) a) j) as [[x|]|]; [destruct (addr_eqb _ _)| |];
        apply STAY; cbn [carries In]; try tauto; intros a' len' n' j' [E|[E|E]]; try discriminate E.
      injection E as _ <- <- _. right. exists i, n, j. auto.
    + apply STAY; [|auto]. intros a' len' n' j' [E|[E|E]]; discriminate E.
  - apply STAY; [|auto]. intros a' len' n' j' [E|[E|E]]; try discriminate E. injection E as _ <- <-. left. auto.
  - destruct (H1 a len) as (la & Ha & Ga); [right; exists i, n, 0%nat; auto|].
    assert (SN : Src n) by (eapply H2; [exact Hi|left; reflexivity]).
    destruct (Nat.ltb_spec len (length (array_at (f_table f) a))) as [L|L].
    + split.
      * intros b k [H|(i' & x & j & H)].
        { eapply good_keep; [split; eassumption|eauto|exact L|]. apply H1. left. exact H. }
        cbn [f_adding f_table] in *. destruct (Nat.eq_dec i i') as [<-|D].
        { rewrite set_nth_eq in H by (apply nth_error_Some; congruence). destruct H as [H|[H|H]]; try discriminate H.
          injection H as <- <- <-. unfold good_at, array_at in *. rewrite Ha in *. cbn [t_arrays].
          eexists. split; [apply set_nth_eq, nth_error_Some; congruence|]. apply good_next; assumption. }
        rewrite set_nth_neq in H by assumption. eapply good_keep; [split; eassumption|eauto|exact L|].
        apply H1. right. eauto.
      * intros i' p x H I'. cbn [f_adding] in H. destruct (Nat.eq_dec i i') as [<-|D].
        { rewrite set_nth_eq in H by (apply nth_error_Some; congruence). injection H as <-. destruct I' as [<-|[]]. exact SN. }
        rewrite set_nth_neq in H by assumption. eauto.
    + assert (KEEP : forall b k l, good_at (f_table f) b k -> good_at (mkTable (t_arrays (f_table f) ++ l) (t_array (f_table f)) (t_len (f_table f))) b k).
      { intros b k l (x & Hx & G). exists x. cbn [t_arrays]. split; [|exact G].
        rewrite nth_error_app1; [exact Hx|]. apply nth_error_Some. congruence. }
      split.
      * intros b k [H|(i' & x & j & H)]; [apply KEEP, H1; left; exact H|].
        cbn [f_adding f_table] in *. destruct (Nat.eq_dec i i') as [<-|D].
        { rewrite set_nth_eq in H by (apply nth_error_Some; congruence). destruct H as [H|[H|H]]; try discriminate H.
          injection H as <- <- <-. unfold good_at. cbn [t_arrays]. rewrite nth_error_app2, Nat.sub_diag by lia.
          eexists. split; [reflexivity|]. apply good_grow; [|exact SN]. unfold array_at. rewrite Ha. exact Ga. }
        rewrite set_nth_neq in H by assumption. apply KEEP, H1. right. eauto.
      * intros i' p x H I'. cbn [f_adding] in H. destruct (Nat.eq_dec i i') as [<-|D].
        { rewrite set_nth_eq in H by (apply nth_error_Some; congruence). injection H as <-. destruct I' as [<-|[]]. exact SN. }
        rewrite set_nth_neq in H by assumption. eauto.
  - split.
    + intros b k [H|(i' & x & j & H)]; cbn [f_adding f_table t_arrays t_array t_len] in *.
      * destruct H as [-> ->]. destruct (H1 a len) as (la & Ha & Ga); [right; exists i, n, 0%nat; auto|].
        exists la. auto.
      * assert (G : holds f b k).
        { right. destruct (Nat.eq_dec i i') as [<-|D].
          - rewrite set_nth_eq in H by (apply nth_error_Some; congruence). intuition discriminate.
          - rewrite set_nth_neq in H by assumption. eauto. }
        destruct (H1 b k G) as (l & Hl & Gl). exists l. auto.
    + intros i' p x H I'. cbn [f_adding] in H. destruct (Nat.eq_dec i i') as [<-|D].
      * rewrite set_nth_eq in H by (apply nth_error_Some; congruence). injection H as <-. eapply H2; [exact Hi|exact I'].
      * rewrite set_nth_neq in H by assumption. eauto.
  - apply STAY; [|intros ? []]. intros a' len' n' j' [E|[E|E]]; discriminate E.
  - apply STAY; [|auto]. intros a' len' n' j' [E|[E|E]]; discriminate E.
  - apply STAY; [|auto]. intros a' len' n' j' [E|[E|E]]; discriminate E.
Qed.

Lemma slices_run conf self grow es : forall f, slices f ->
  (forall m n, In (TMessage m) es -> announced conf self m = Some n -> Src n) ->
  ((Good [] 0%nat) \/ ~ In TClear es) ->
  slices (fold_left (table_step conf self grow) es f).
Proof.
  induction es as [|e es IH]; intros f HF HS HC; [exact HF|]. cbn [fold_left]. apply IH.
  - destruct e as [m|i|]; cbn [table_step].
    + destruct (announced conf self m) as [n|] eqn:E; [|exact HF]. apply slices_message; [exact HF|].
      eapply HS; [left; reflexivity|exact E].
    + destruct (nth_error (f_adding f) i) as [ph|] eqn:E; [|exact HF].
      pose proof (slices_step grow (cc_listener conf) f i ph HF E) as S.
      destruct (add_step _ _ _ _ _) as [[t told] ph']. exact S.
    + destruct HC as [G0|HC]; [|exfalso; apply HC; left; reflexivity]. destruct HF as [H1 H2]. split; [|exact H2].
      intros a len [H|H]; cbn [clear_table f_table t_array t_len t_arrays] in *.
      * destruct H as [-> ->]. exists []. cbn [t_arrays clear_table]. rewrite nth_error_app2, Nat.sub_diag by lia. split; [reflexivity|].
        exact G0.
      * destruct (H1 a len) as (l & Hl & G); [right; exact H|]. exists l. cbn [t_arrays clear_table]. split; [|exact G].
        rewrite nth_error_app1; [exact Hl|]. apply nth_error_Some. congruence.
  - intros m n I. apply HS. right. exact I.
  - destruct HC as [HC|HC]; [left; exact HC|right]. intros I. apply HC. right. exact I.
Qed.

End Slices.
