(** Lemmas about the run time pieces of [Go]. *)

From Verif Require Import Go.
From Coq Require Import ZifyBool ZifyNat Permutation Sorted.
Local Open Scope Z_scope.

Ltac inv H := inversion H; subst; clear H.

Lemma len_nonneg {A} (l : list A) : 0 <= len l.
Proof. unfold len. lia. Qed.

Lemma len_app {A} (l k : list A) : len (l ++ k) = len l + len k.
Proof. unfold len. rewrite app_length. lia. Qed.

Lemma len_cons {A} (a : A) l : len (a :: l) = 1 + len l.
Proof. unfold len. simpl length. lia. Qed.

Lemma len_nil {A} : len (@nil A) = 0.
Proof. reflexivity. Qed.

Lemma idx_nth {A} (l : list A) (n : nat) :
  idx l (Z.of_nat n) = match nth_error l n with Some a => Ok a | None => Panic end.
Proof.
  unfold idx. destruct (Z.of_nat n <? 0) eqn:E; [lia|].
  rewrite Nat2Z.id. reflexivity.
Qed.

Lemma idx_app_r {A} (l k : list A) a i :
  i = len l -> idx (l ++ a :: k) i = Ok a.
Proof.
  intros ->. unfold len. rewrite idx_nth, nth_error_app2 by lia.
  rewrite Nat.sub_diag. reflexivity.
Qed.

Lemma set_nth_length {A} (l : list A) i v : length (set_nth l i v) = length l.
Proof. revert i. induction l; destruct i; simpl; auto. Qed.

Lemma set_nth_app {A} (l k : list A) a v :
  set_nth (l ++ a :: k) (length l) v = l ++ v :: k.
Proof. induction l; simpl; congruence. Qed.

Lemma set_idx_app {A} (l k : list A) a v i :
  i = len l -> set_idx (l ++ a :: k) i v = Ok (l ++ v :: k).
Proof.
  intros ->. unfold set_idx.
  pose proof (len_nonneg l). pose proof (len_nonneg k).
  rewrite len_app, len_cons.
  destruct ((len l <? 0) || (len l + (1 + len k) <=? len l)) eqn:E; [lia|].
  unfold len. rewrite Nat2Z.id, set_nth_app. reflexivity.
Qed.

Lemma bytes_eqb_eq a b : bytes_eqb a b = true <-> a = b.
Proof.
  revert b. induction a as [|x a IH]; intros [|y b]; simpl; split; intro H;
    try congruence; try discriminate.
  - apply andb_prop in H as [H1 H2]. apply Z.eqb_eq in H1. apply IH in H2. congruence.
  - inv H. rewrite Z.eqb_refl. simpl. apply IH. reflexivity.
Qed.

Lemma contains_In l x : contains l x = true <-> In x l.
Proof.
  unfold contains. rewrite existsb_exists. split.
  - intros (y & Hy & E). apply Z.eqb_eq in E. subst. assumption.
  - intros H. exists x. split; [assumption|apply Z.eqb_refl].
Qed.

(** A loop over indices that only looks at the n-th element is a loop over the
    elements. *)
Lemma for_range_elems {A S : Type} (l : list A) (f : A -> S -> res S) body :
  (forall n s, body (Z.of_nat n) s =
     match nth_error l n with Some p => f p s | None => Ok s end) ->
  forall k i s,
    for_range k (Z.of_nat i) body s = for_each (firstn k (skipn i l)) f s.
Proof.
  intros Hb. induction k as [|k IH]; intros i s; [reflexivity|].
  cbn [for_range]. rewrite Hb.
  replace (Z.of_nat i + 1) with (Z.of_nat (Datatypes.S i)) by lia.
  destruct (nth_error l i) as [a|] eqn:E.
  - assert (Hs : skipn i l = a :: skipn (Datatypes.S i) l).
    { clear -E. revert i E. induction l as [|x l IHl]; intros [|i] E; simpl in *;
        try discriminate; [congruence|apply IHl; assumption]. }
    rewrite Hs. cbn [firstn for_each].
    destruct (f a s); cbn [bind]; [apply IH|reflexivity|reflexivity].
  - apply nth_error_None in E.
    cbn [bind]. rewrite IH. rewrite !skipn_all2 by lia.
    rewrite !firstn_nil. reflexivity.
Qed.

Lemma for_each_app {A S} (l1 l2 : list A) (f : A -> S -> res S) s :
  for_each (l1 ++ l2) f s = (s' <- for_each l1 f s ;; for_each l2 f s').
Proof.
  revert s. induction l1; intro s; simpl; [reflexivity|].
  destruct (f a s); simpl; auto.
Qed.

(** Sorting. *)
Lemma insert_z_perm x l : Permutation (x :: l) (insert_z x l).
Proof.
  induction l as [|y l IH]; simpl; [reflexivity|].
  destruct (x <=? y); [reflexivity|].
  rewrite perm_swap. constructor. assumption.
Qed.

Lemma sort_z_perm l : Permutation l (sort_z l).
Proof.
  induction l as [|x l IH]; simpl; [reflexivity|].
  rewrite <- insert_z_perm. constructor. assumption.
Qed.

Lemma insert_z_sorted x l : StronglySorted Z.le l -> StronglySorted Z.le (insert_z x l).
Proof.
  induction 1 as [|y l Hs IH Hall]; simpl.
  - repeat constructor.
  - destruct (x <=? y) eqn:E.
    + constructor; [constructor; assumption|].
      constructor; [lia|]. eapply Forall_impl; [|exact Hall]. simpl. intros; lia.
    + constructor; [assumption|].
      rewrite <- insert_z_perm. constructor; [lia|assumption].
Qed.

Lemma sort_z_sorted l : StronglySorted Z.le (sort_z l).
Proof. induction l; simpl; [constructor|apply insert_z_sorted; assumption]. Qed.

Lemma sorted_perm_eq l k :
  StronglySorted Z.le l -> StronglySorted Z.le k -> Permutation l k -> l = k.
Proof.
  intros Hl. revert k. induction Hl as [|x l Hs IH Hall]; intros k Hk HP.
  - apply Permutation_nil in HP. congruence.
  - destruct k as [|y k].
    + apply Permutation_sym, Permutation_nil in HP. discriminate.
    + inversion Hk as [|? ? Hs' Hall']; subst.
      assert (x = y).
      { assert (In x (y :: k)) as Hx by (eapply Permutation_in; [exact HP|left; reflexivity]).
        assert (In y (x :: l)) as Hy
            by (eapply Permutation_in; [apply Permutation_sym; exact HP|left; reflexivity]).
        rewrite Forall_forall in Hall, Hall'.
        destruct Hx as [->|Hx]; [reflexivity|].
        destruct Hy as [->|Hy]; [reflexivity|].
        specialize (Hall _ Hy). specialize (Hall' _ Hx). lia. }
      subst y. f_equal. apply IH; [assumption|].
      eapply Permutation_cons_inv. exact HP.
Qed.

Lemma sort_z_unique l k : Permutation l k -> sort_z l = sort_z k.
Proof.
  intros HP. apply sorted_perm_eq; try apply sort_z_sorted.
  rewrite <- !sort_z_perm. assumption.
Qed.

Lemma sort_z_In x l : In x (sort_z l) <-> In x l.
Proof.
  split; apply Permutation_in; [apply Permutation_sym|]; apply sort_z_perm.
Qed.

Lemma sort_z_length l : length (sort_z l) = length l.
Proof. symmetry. apply Permutation_length, sort_z_perm. Qed.

Lemma sort_z_NoDup l : NoDup l -> NoDup (sort_z l).
Proof. intros. eapply Permutation_NoDup; [apply sort_z_perm|assumption]. Qed.
