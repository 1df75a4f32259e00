(** Facts about [Alias]: who owns which array. *)

From Coq Require Import ZifyBool ZifyNat Permutation.
From Verif Require Import Go GoFacts Encoding EncodingFacts Protocol Parser MessageFacts ParserFacts StdDB Property PropertyFacts
  Object ObjectFacts Alias.
Local Open Scope Z_scope.
Local Open Scope list_scope.

(** ** Lists *)

Lemma nth_set_same {A} (l : list A) : forall i x d, (i < length l)%nat -> nth i (set_nth l i x) d = x.
Proof. induction l as [|y l IH]; intros [|i] x d H; cbn in *; try lia; [reflexivity|]. apply IH. lia. Qed.

Lemma nth_set_other {A} (l : list A) : forall i j x d, i <> j -> nth j (set_nth l i x) d = nth j l d.
Proof. induction l as [|y l IH]; intros [|i] [|j] x d H; cbn; try reflexivity; try congruence. apply IH. congruence. Qed.

Lemma nth_error_set_same {A} (l : list A) : forall i x, (i < length l)%nat -> nth_error (set_nth l i x) i = Some x.
Proof. induction l as [|y l IH]; intros [|i] x H; cbn in *; try lia; [reflexivity|]. apply IH. lia. Qed.

Lemma nth_error_set_other {A} (l : list A) : forall i j x, i <> j -> nth_error (set_nth l i x) j = nth_error l j.
Proof. induction l as [|y l IH]; intros [|i] [|j] x H; cbn; try reflexivity; try congruence. apply IH. congruence. Qed.

Lemma set_nth_len {A} (l : list A) : forall i x, length (set_nth l i x) = length l.
Proof. induction l as [|y l IH]; intros [|i] x; cbn; auto. Qed.

Lemma map_set {A B} (f : A -> B) l : forall i x, map f (set_nth l i x) = set_nth (map f l) i (f x).
Proof. induction l as [|y l IH]; intros [|i] x; cbn; try reflexivity. rewrite IH. reflexivity. Qed.

Lemma set_nth_id {A} (l : list A) : forall i x, nth_error l i = Some x -> set_nth l i x = l.
Proof. induction l as [|y l IH]; intros [|i] x H; cbn in *; try discriminate; [congruence|]. rewrite IH by assumption. reflexivity. Qed.

Lemma nth_nth_error {A} (l : list A) i d : (i < length l)%nat -> nth_error l i = Some (nth i l d).
Proof. apply nth_error_nth'. Qed.

(** ** Slices *)

Definition inside (a : arrays) (s : window) : Prop :=
  (w_arr s < length a)%nat /\ (w_off s + w_len s <= length (array a (w_arr s)))%nat.

Definition whole (a : arrays) (s : window) : Prop :=
  (w_arr s < length a)%nat /\ w_off s = O /\ w_len s = length (array a (w_arr s)).

Lemma whole_inside a s : whole a s -> inside a s.
Proof. intros (A & B & C). split; [exact A|]. rewrite B, C. lia. Qed.

Lemma content_len a s : inside a s -> length (content a s) = w_len s.
Proof. intros (_ & H). unfold content. rewrite firstn_length, skipn_length. lia. Qed.

Lemma content_whole a s : whole a s -> content a s = array a (w_arr s).
Proof. intros (_ & B & C). unfold content. rewrite B, C. cbn [skipn]. apply firstn_all. Qed.

Lemma array_app a l i : (i < length a)%nat -> array (a ++ l) i = array a i.
Proof. intros H. unfold array. apply app_nth1, H. Qed.

Lemma content_app a l s : (w_arr s < length a)%nat -> content (a ++ l) s = content a s.
Proof. intros H. unfold content. rewrite array_app by exact H. reflexivity. Qed.

Lemma inside_app a l s : inside a s -> inside (a ++ l) s.
Proof. intros (A & B). split; [rewrite app_length; lia|]. rewrite array_app by exact A. exact B. Qed.

Lemma whole_app a l s : whole a s -> whole (a ++ l) s.
Proof. intros (A & B & C). split; [rewrite app_length; lia|]. rewrite array_app by exact A. auto. Qed.

Lemma array_new a l : array (a ++ [l]) (length a) = l.
Proof. unfold array. rewrite app_nth2 by lia. rewrite Nat.sub_diag. reflexivity. Qed.

Lemma alloc_eq a l : alloc a l = (a ++ [l], mkWindow (length a) 0 (length l)).
Proof. reflexivity. Qed.

Lemma alloc_whole a l : whole (a ++ [l]) (mkWindow (length a) 0 (length l)).
Proof. split; [rewrite app_length; cbn; lia|]. split; [reflexivity|]. cbn [w_arr w_len]. rewrite array_new. reflexivity. Qed.

Lemma alloc_content a l : content (a ++ [l]) (mkWindow (length a) 0 (length l)) = l.
Proof. rewrite (content_whole _ _ (alloc_whole a l)). apply array_new. Qed.

Lemma array_set_same a i l : (i < length a)%nat -> array (set_nth a i l) i = l.
Proof. apply nth_set_same. Qed.
Lemma array_set_other a i j l : i <> j -> array (set_nth a i l) j = array a j.
Proof. apply nth_set_other. Qed.

Lemma set_app_last {A} (a : list A) x y : set_nth (a ++ [x]) (length a) y = a ++ [y].
Proof. induction a as [|z a IH]; cbn; [reflexivity|]. rewrite IH. reflexivity. Qed.

(** A clone is an array of its own with the same bytes. *)
Lemma clone_eq a s : inside a s -> clone a s = alloc a (content a s).
Proof.
  intros H. unfold clone. cbn [alloc]. unfold copies_to, store. cbn [w_arr w_off w_len].
  rewrite content_app by apply H. pose proof (content_len a s H) as L.
  rewrite array_new. cbn [firstn]. rewrite set_app_last. unfold zeros. rewrite Nat2Z.id, repeat_length.
  rewrite <- L. rewrite firstn_all. rewrite skipn_all2; [|rewrite repeat_length; lia]. rewrite app_nil_r. reflexivity.
Qed.

Lemma store_whole a s l : whole a s -> (length l <= w_len s)%nat ->
  store a s l = set_nth a (w_arr s) (l ++ skipn (length l) (array a (w_arr s))).
Proof. intros (_ & B & _) _. unfold store. rewrite B. reflexivity. Qed.

Lemma stored_len a s l : whole a s -> (length l <= w_len s)%nat ->
  length (l ++ skipn (length l) (array a (w_arr s))) = length (array a (w_arr s)).
Proof. intros (_ & _ & C) H. rewrite app_length, skipn_length. lia. Qed.

Lemma inside_set a i l s : length l = length (array a i) -> inside a s -> inside (set_nth a i l) s.
Proof.
  intros HL (A & B). split; [rewrite set_nth_len; exact A|].
  destruct (Nat.eq_dec i (w_arr s)) as [->|N]; [rewrite array_set_same by exact A; lia|rewrite array_set_other by exact N; exact B].
Qed.
Lemma whole_set a i l s : length l = length (array a i) -> whole a s -> whole (set_nth a i l) s.
Proof.
  intros HL (A & B & C). split; [rewrite set_nth_len; exact A|]. split; [exact B|].
  destruct (Nat.eq_dec i (w_arr s)) as [->|N]; [rewrite array_set_same by exact A; lia|rewrite array_set_other by exact N; exact C].
Qed.
Lemma content_set a i l s : i <> w_arr s -> content (set_nth a i l) s = content a s.
Proof. intros N. unfold content. rewrite array_set_other by exact N. reflexivity. Qed.

(** ** Owners *)

(** An array is written to by the application only, is the code of one object, is the
    buffer of the socket, or is never written to again. *)
Inductive kind : Set := KOwn (v : nat) | KCodes (o : nat) | KBuffer | KFrozen.

Definition frozen (k : nat -> kind) (a : arrays) (s : window) : Prop := inside a s /\ k (w_arr s) = KFrozen.

Record held (k : nat -> kind) (h : memory) : Prop := {
  held_objs : forall o x, nth_error (h_objs h) o = Some x -> whole (h_arrays h) (s_codes x) /\ k (w_arr (s_codes x)) = KCodes o;
  held_cells : Forall (fun c => frozen k (h_arrays h) (c_data c)) (h_cells h);
  held_msgs : Forall (fun e => Forall (fun p => frozen k (h_arrays h) (snd p)) (e_props e)) (h_msgs h);
  held_vars : forall v s own, nth_error (h_vars h) v = Some (s, own) ->
    if own then whole (h_arrays h) s /\ k (w_arr s) = KOwn v else frozen k (h_arrays h) s;
  held_buffer : whole (h_arrays h) (h_buffer h) /\ k (w_arr (h_buffer h)) = KBuffer;
  held_ptrs : forall o x, nth_error (h_objs h) o = Some x ->
    NoDup (s_props x) /\ Forall (fun p => (p < length (h_cells h))%nat) (s_props x);
  held_apart : forall o x o' x' p, nth_error (h_objs h) o = Some x -> nth_error (h_objs h) o' = Some x' ->
    In p (s_props x) -> In p (s_props x') -> o = o' }.

Definition ok (h : memory) : Prop := exists k, held k h.

(** ** New arrays *)

Definition upd (k : nat -> kind) (i : nat) (x : kind) : nat -> kind := fun j => if (j =? i)%nat then x else k j.
Lemma upd_same k i x : upd k i x i = x.
Proof. unfold upd. rewrite Nat.eqb_refl. reflexivity. Qed.
Lemma upd_other k i x j : j <> i -> upd k i x j = k j.
Proof. unfold upd. intros N. destruct (Nat.eqb_spec j i); [contradiction|reflexivity]. Qed.

Lemma frozen_grow k a l x s : frozen k a s -> frozen (upd k (length a) x) (a ++ [l]) s.
Proof. intros (A & B). split; [apply inside_app, A|]. rewrite upd_other; [exact B|]. destruct A. lia. Qed.

Lemma held_grow k h l x : held k h -> held (upd k (length (h_arrays h)) x) (with_arrays h (h_arrays h ++ [l])).
Proof.
  intros [H1 H2 H3 H4 H5 H6 H7]. constructor; cbn [with_arrays h_arrays h_cells h_objs h_msgs h_vars h_buffer].
  - intros o y E. destruct (H1 o y E) as (A & B). split; [apply whole_app, A|]. rewrite upd_other; [exact B|]. destruct A. lia.
  - eapply Forall_impl; [|exact H2]. intros c. apply frozen_grow.
  - eapply Forall_impl; [|exact H3]. intros e. apply Forall_impl. intros p. apply frozen_grow.
  - intros v s own E. specialize (H4 v s own E). destruct own.
    + destruct H4 as (A & B). split; [apply whole_app, A|]. rewrite upd_other; [exact B|]. destruct A. lia.
    + apply frozen_grow, H4.
  - destruct H5 as (A & B). split; [apply whole_app, A|]. rewrite upd_other; [exact B|]. destruct A. lia.
  - exact H6.
  - exact H7.
Qed.

Lemma held_inside_var k h v s own : held k h -> nth_error (h_vars h) v = Some (s, own) -> inside (h_arrays h) s.
Proof.
  intros H E. pose proof (held_vars _ _ H v s own E) as X. destruct own; [apply whole_inside, X|apply X].
Qed.

Lemma see_cell_app a l c : inside a (c_data c) -> see_cell (a ++ l) c = see_cell a c.
Proof. intros H. unfold see_cell. rewrite content_app by apply H. reflexivity. Qed.

Lemma see_object_ext a a' cs cs' x : content a' (s_codes x) = content a (s_codes x) ->
  (forall p, In p (s_props x) -> see_cell a' (nth p cs' no_cell) = see_cell a (nth p cs no_cell)) ->
  see_object a' cs' x = see_object a cs x.
Proof.
  intros H1 H2. unfold see_object. rewrite H1. f_equal. apply map_ext_in, H2.
Qed.

Lemma see_message_ext a a' e : Forall (fun p => content a' (snd p) = content a (snd p)) (e_props e) ->
  see_message a' e = see_message a e.
Proof.
  intros H. unfold see_message. f_equal. induction H as [|p l E _ IH]; cbn [map]; [reflexivity|]. rewrite E, IH. reflexivity.
Qed.

Lemma see_grow k h l : held k h -> see (with_arrays h (h_arrays h ++ l)) = see h.
Proof.
  intros H. unfold see. cbn [with_arrays h_arrays h_cells h_objs h_msgs h_vars h_buffer]. f_equal.
  - apply map_ext_in. intros (s, own) I. apply In_nth_error in I. destruct I as (v & E). apply content_app.
    apply (held_inside_var _ _ _ _ _ H E).
  - apply map_ext_in. intros x I. apply In_nth_error in I. destruct I as (o & E). apply see_object_ext.
    + apply content_app. apply (held_objs _ _ H o x E).
    + intros p Ip. apply see_cell_app. pose proof (held_cells _ _ H) as HC. rewrite Forall_forall in HC. apply HC. apply nth_In.
      pose proof (proj2 (held_ptrs _ _ H o x E)) as HP. rewrite Forall_forall in HP. apply HP, Ip.
  - apply map_ext_in. intros e I. apply see_message_ext. pose proof (held_msgs _ _ H) as HM. rewrite Forall_forall in HM.
    eapply Forall_impl; [|apply (HM e I)]. intros p X. apply content_app. apply X.
Qed.

(** ** Looking up *)

Lemma lookup_ptr_in cs ps code p : lookup_ptr cs ps code = Some p -> In p ps /\ c_code (nth p cs no_cell) = code.
Proof.
  induction ps as [|q ps IH]; cbn [lookup_ptr]; [discriminate|]. destruct (Z.eqb_spec (c_code (nth q cs no_cell)) code) as [E|N].
  - intros X. injection X as <-. split; [left; reflexivity|exact E].
  - intros X. destruct (IH X). split; [right; assumption|assumption].
Qed.

Lemma lookup_ptr_see a cs ps code :
  LookupProperty (map (fun p => see_cell a (nth p cs no_cell)) ps) code =
  match lookup_ptr cs ps code with Some p => Some (see_cell a (nth p cs no_cell)) | None => None end.
Proof.
  induction ps as [|q ps IH]; cbn [map LookupProperty lookup_ptr]; [reflexivity|]. unfold see_cell at 1. cbn [p_code].
  destruct (c_code (nth q cs no_cell) =? code); [reflexivity|exact IH].
Qed.

Lemma add_ptr_see a cs ps q :
  map (fun p => see_cell a (nth p cs no_cell)) (add_ptr cs ps q) =
  AddPropertyMap (map (fun p => see_cell a (nth p cs no_cell)) ps) (see_cell a (nth q cs no_cell)).
Proof.
  induction ps as [|p ps IH]; cbn [map add_ptr AddPropertyMap]; [reflexivity|].
  change (p_code (see_cell a (nth p cs no_cell))) with (c_code (nth p cs no_cell)).
  change (p_code (see_cell a (nth q cs no_cell))) with (c_code (nth q cs no_cell)).
  destruct (c_code (nth p cs no_cell) =? c_code (nth q cs no_cell)); cbn [map]; [reflexivity|].
  rewrite IH. reflexivity.
Qed.

Lemma ptrs_see a cs ps : map (fun p => see_cell a (nth p cs no_cell)) (ptrs cs ps) =
  Properties (map (fun p => see_cell a (nth p cs no_cell)) ps).
Proof.
  unfold ptrs, Properties, Properties_order. rewrite map_map. cbn [see_cell p_code].
  generalize (sort_z (map (fun p => c_code (nth p cs no_cell)) ps)). intros l.
  induction l as [|c l IH]; cbn [flat_map]; [reflexivity|]. rewrite map_app, IH. f_equal. rewrite lookup_ptr_see.
  destruct (lookup_ptr cs ps c); reflexivity.
Qed.

Lemma ptrs_in cs ps p : In p (ptrs cs ps) -> In p ps.
Proof.
  unfold ptrs. intros H. apply in_flat_map in H. destruct H as (c & _ & H). destruct (lookup_ptr cs ps c) as [q|] eqn:E; [|destruct H].
  destruct H as [<-|[]]. apply (lookup_ptr_in _ _ _ _ E).
Qed.

(** ** Properties *)

Lemma held_new_cell k h c : held k h -> frozen k (h_arrays h) (c_data c) -> held k (with_cells h (h_cells h ++ [c])).
Proof.
  intros [H1 H2 H3 H4 H5 H6 H7] F. constructor; cbn [with_cells h_arrays h_cells h_objs h_msgs h_vars h_buffer]; auto.
  - apply Forall_app. split; [exact H2|]. apply Forall_cons; [exact F|constructor].
  - intros o x E. destruct (H6 o x E) as (A & B). split; [exact A|]. eapply Forall_impl; [|exact B].
    intros p Hp. cbn beta in *. rewrite app_length. cbn [length]. lia.
Qed.

Lemma see_object_cells k h cs o x : held k h -> nth_error (h_objs h) o = Some x ->
  (forall p, In p (s_props x) -> nth p cs no_cell = nth p (h_cells h) no_cell) ->
  see_object (h_arrays h) cs x = see_object (h_arrays h) (h_cells h) x.
Proof. intros H E S. apply see_object_ext; [reflexivity|]. intros p Ip. rewrite S by exact Ip. reflexivity. Qed.

Lemma map_same_at {A B} (f g : A -> B) l : (forall o x, nth_error l o = Some x -> f x = g x) -> map f l = map g l.
Proof. intros H. apply map_ext_in. intros x I. apply In_nth_error in I. destruct I as (o & E). exact (H o x E). Qed.

Lemma see_cells_same k h cs : held k h ->
  (forall o x p, nth_error (h_objs h) o = Some x -> In p (s_props x) -> nth p cs no_cell = nth p (h_cells h) no_cell) ->
  see (with_cells h cs) = see h.
Proof.
  intros H S. unfold see. cbn [with_cells h_arrays h_cells h_objs h_msgs h_vars h_buffer]. f_equal.
  apply map_same_at. intros o x E. apply (see_object_cells k h cs o x H E). intros p. apply (S o x p E).
Qed.

Lemma see_new_cell k h c : held k h -> see (with_cells h (h_cells h ++ [c])) = see h.
Proof.
  intros H. apply (see_cells_same k); [exact H|]. intros o x p E Ip. apply app_nth1.
  pose proof (proj2 (held_ptrs _ _ H o x E)) as HP. rewrite Forall_forall in HP. apply HP, Ip.
Qed.

Lemma Forall_set {A} (P : A -> Prop) l : forall i x, Forall P l -> P x -> Forall P (set_nth l i x).
Proof. induction l as [|y l IH]; intros [|i] x H Px; cbn; auto; inversion H; subst; constructor; auto. Qed.

Lemma held_set_cell k h p c : held k h -> frozen k (h_arrays h) (c_data c) -> held k (with_cells h (set_nth (h_cells h) p c)).
Proof.
  intros [H1 H2 H3 H4 H5 H6 H7] F. constructor; cbn [with_cells h_arrays h_cells h_objs h_msgs h_vars h_buffer]; auto.
  - apply Forall_set; assumption.
  - intros o x E. destruct (H6 o x E) as (A & B). split; [exact A|]. rewrite set_nth_len. exact B.
Qed.

Definition loose (h : memory) (q : nat) : Prop := forall o x, nth_error (h_objs h) o = Some x -> ~ In q (s_props x).

Lemma see_set_loose k h q c : held k h -> loose h q -> see (with_cells h (set_nth (h_cells h) q c)) = see h.
Proof.
  intros H L. apply (see_cells_same k); [exact H|]. intros o x p E Ip. apply nth_set_other. intros ->. exact (L o x E Ip).
Qed.

Definition set_window (c : cell) (s : window) : cell := mkCell (c_code c) (c_get c) (c_set c) (c_anno c) s.

Lemma map_set_ptr a cs p s : forall ps, NoDup ps -> (p < length cs)%nat -> lookup_ptr cs ps (c_code (nth p cs no_cell)) = Some p ->
  map (fun q => see_cell a (nth q (set_nth cs p (set_window (nth p cs no_cell) s)) no_cell)) ps =
  set_data (map (fun q => see_cell a (nth q cs no_cell)) ps) (c_code (nth p cs no_cell)) (content a s).
Proof.
  induction ps as [|q ps IH]; intros ND Hp E; cbn [lookup_ptr] in E; [discriminate|]. cbn [map set_data].
  apply NoDup_cons_iff in ND. destruct ND as (NI & ND).
  change (p_code (see_cell a (nth q cs no_cell))) with (c_code (nth q cs no_cell)).
  destruct (Z.eqb_spec (c_code (nth q cs no_cell)) (c_code (nth p cs no_cell))) as [Ec|Nc].
  - injection E as ->. rewrite nth_set_same by exact Hp. f_equal. apply map_ext_in. intros r Ir. rewrite nth_set_other; [reflexivity|].
    intros ->. exact (NI Ir).
  - rewrite nth_set_other by congruence. f_equal. apply IH; assumption.
Qed.

Lemma set_nth_map {A B} (f g : A -> B) l : forall o x y, nth_error l o = Some x -> g x = y ->
  (forall o' x', o' <> o -> nth_error l o' = Some x' -> g x' = f x') -> map g l = set_nth (map f l) o y.
Proof.
  induction l as [|z l IH]; intros [|o] x y E G S; cbn in *; try discriminate.
  - injection E as ->. rewrite G. f_equal. apply map_same_at. intros o' x' E'. apply (S (Datatypes.S o')); [congruence|exact E'].
  - rewrite (S O z) by (congruence || reflexivity). f_equal. apply (IH o x y E G). intros o' x' N E'. apply (S (Datatypes.S o') x'); [congruence|exact E'].
Qed.

Lemma see_set_cell k h o x code p s : held k h -> nth_error (h_objs h) o = Some x ->
  lookup_ptr (h_cells h) (s_props x) code = Some p ->
  see (with_cells h (set_nth (h_cells h) p (set_window (nth p (h_cells h) no_cell) s))) =
  put_obj (see h) o (mkObject (content (h_arrays h) (s_codes x))
     (set_data (o_props (see_object (h_arrays h) (h_cells h) x)) code (content (h_arrays h) s))).
Proof.
  intros H E L. destruct (lookup_ptr_in _ _ _ _ L) as (Ip & Ec).
  destruct (held_ptrs _ _ H o x E) as (ND & R). rewrite Forall_forall in R. specialize (R p Ip).
  unfold see, put_obj. cbn [with_cells h_arrays h_cells h_objs h_msgs h_vars h_buffer v_vars v_objs v_msgs v_size]. f_equal.
  apply (set_nth_map _ _ _ o x _ E).
  - unfold see_object. f_equal. rewrite <- Ec. apply map_set_ptr; [exact ND|exact R|rewrite Ec; exact L].
  - intros o' x' N E'. apply (see_object_cells k h _ o' x' H E'). intros q Iq. apply nth_set_other. intros ->.
    apply N. symmetry. exact (held_apart _ _ H o x o' x' q E E' Ip Iq).
Qed.

(** ** Objects *)

Lemma nth_error_set_inv {A} (l : list A) o y : forall o' x', nth_error (set_nth l o y) o' = Some x' ->
  (o' = o /\ x' = y /\ (o < length l)%nat) \/ (o' <> o /\ nth_error l o' = Some x').
Proof.
  intros o' x' E. destruct (Nat.eq_dec o' o) as [->|N].
  - left. assert (o < length l)%nat as L by (rewrite <- (set_nth_len l o y); apply nth_error_Some; congruence).
    rewrite nth_error_set_same in E by exact L. split; [reflexivity|]. split; [congruence|exact L].
  - right. rewrite nth_error_set_other in E by congruence. auto.
Qed.

Lemma add_ptr_in cs ps q p : In p (add_ptr cs ps q) -> p = q \/ In p ps.
Proof.
  induction ps as [|r ps IH]; cbn [add_ptr In]; [intuition|]. destruct (c_code (nth r cs no_cell) =? c_code (nth q cs no_cell)); cbn [In]; intuition.
Qed.

Lemma add_ptr_nodup cs ps q : NoDup ps -> ~ In q ps -> NoDup (add_ptr cs ps q).
Proof.
  induction ps as [|r ps IH]; cbn [add_ptr]; intros ND NI; [constructor; [intros []|constructor]|].
  apply NoDup_cons_iff in ND. destruct ND as (N & ND). destruct (c_code (nth r cs no_cell) =? c_code (nth q cs no_cell)).
  - constructor; [intros I; apply NI; right; exact I|exact ND].
  - constructor; [|apply IH; [exact ND|intros I; apply NI; right; exact I]]. intros I. apply add_ptr_in in I. destruct I as [->|I]; [|exact (N I)].
    apply NI. left. reflexivity.
Qed.

Lemma held_add k h o x q : held k h -> nth_error (h_objs h) o = Some x -> loose h q -> (q < length (h_cells h))%nat ->
  held k (h_AddProperty h o q) /\
  see (h_AddProperty h o q) = put_obj (see h) o (Obj_AddProperty (see_object (h_arrays h) (h_cells h) x) (see_cell (h_arrays h) (nth q (h_cells h) no_cell))).
Proof.
  intros H E L R. unfold h_AddProperty. replace (obj_of h o) with x by (symmetry; apply nth_error_nth; exact E). split.
  - destruct H as [H1 H2 H3 H4 H5 H6 H7]. constructor; cbn [with_objs h_arrays h_cells h_objs h_msgs h_vars h_buffer]; auto.
    + intros o' x' E'. apply nth_error_set_inv in E'. destruct E' as [(-> & -> & _)|(N & E')]; [|exact (H1 o' x' E')].
      cbn [s_codes]. exact (H1 o x E).
    + intros o' x' E'. apply nth_error_set_inv in E'. destruct E' as [(-> & -> & _)|(N & E')]; [|exact (H6 o' x' E')].
      cbn [s_props]. destruct (H6 o x E) as (A & B). split; [apply add_ptr_nodup; [exact A|exact (L o x E)]|].
      rewrite Forall_forall in *. intros p Ip. apply add_ptr_in in Ip. destruct Ip as [->|Ip]; [exact R|exact (B p Ip)].
    + intros o1 x1 o2 x2 p E1 E2 I1 I2. apply nth_error_set_inv in E1. apply nth_error_set_inv in E2.
      destruct E1 as [(-> & -> & _)|(N1 & E1)]; destruct E2 as [(-> & -> & _)|(N2 & E2)]; cbn [s_props] in *; [reflexivity| | |].
      * apply add_ptr_in in I1. destruct I1 as [->|I1]; [destruct (L o2 x2 E2 I2)|]. exact (H7 o x o2 x2 p E E2 I1 I2).
      * apply add_ptr_in in I2. destruct I2 as [->|I2]; [destruct (L o1 x1 E1 I1)|]. exact (H7 o1 x1 o x p E1 E I1 I2).
      * exact (H7 o1 x1 o2 x2 p E1 E2 I1 I2).
  - unfold see, put_obj. cbn [with_objs h_arrays h_cells h_objs h_msgs h_vars h_buffer v_vars v_objs v_msgs v_size]. f_equal.
    rewrite map_set. f_equal. unfold see_object, Obj_AddProperty, with_props. cbn [s_codes s_props o_codes o_props]. f_equal. apply add_ptr_see.
Qed.

(** Writing into the code bytes of an object. *)
Lemma held_write k h i l : held k h -> length l = length (array (h_arrays h) i) -> held k (with_arrays h (set_nth (h_arrays h) i l)).
Proof.
  intros [H1 H2 H3 H4 H5 H6 H7] HL. constructor; cbn [with_arrays h_arrays h_cells h_objs h_msgs h_vars h_buffer]; auto.
  - intros o x E. destruct (H1 o x E) as (A & B). split; [apply whole_set; assumption|exact B].
  - eapply Forall_impl; [|exact H2]. intros c (A & B). split; [apply inside_set; assumption|exact B].
  - eapply Forall_impl; [|exact H3]. intros e. apply Forall_impl. intros p (A & B). split; [apply inside_set; assumption|exact B].
  - intros v s own E. specialize (H4 v s own E). destruct own; destruct H4 as (A & B); (split; [|exact B]); [apply whole_set; assumption|apply inside_set; assumption].
  - destruct H5 as (A & B). split; [apply whole_set; assumption|exact B].
Qed.

Lemma see_write k h i l w : held k h -> k i <> KFrozen ->
  (forall v s own, nth_error (h_vars h) v = Some (s, own) -> w_arr s = i -> False) ->
  w = mkWorld (v_vars (see h)) (map (see_object (set_nth (h_arrays h) i l) (h_cells h)) (h_objs h)) (v_msgs (see h)) (v_size (see h)) ->
  see (with_arrays h (set_nth (h_arrays h) i l)) = w.
Proof.
  intros H K NV ->. unfold see. cbn [with_arrays h_arrays h_cells h_objs h_msgs h_vars h_buffer v_vars v_objs v_msgs v_size]. f_equal.
  - apply map_same_at. intros v (s, own) E. cbn [fst]. apply content_set. intros ->. exact (NV v s own E eq_refl).
  - apply map_ext_in. intros e I. apply see_message_ext. pose proof (held_msgs _ _ H) as HM. rewrite Forall_forall in HM.
    eapply Forall_impl; [|exact (HM e I)]. intros p (A & B). apply content_set. intros ->. contradiction.
Qed.

Lemma see_cell_write k h i l p : held k h -> k i <> KFrozen -> (p < length (h_cells h))%nat ->
  see_cell (set_nth (h_arrays h) i l) (nth p (h_cells h) no_cell) = see_cell (h_arrays h) (nth p (h_cells h) no_cell).
Proof.
  intros H K R. unfold see_cell. rewrite content_set; [reflexivity|]. intros ->. apply K.
  pose proof (held_cells _ _ H) as HC. rewrite Forall_forall in HC. apply HC. apply nth_In, R.
Qed.

Lemma see_object_write k h i l o x : held k h -> k i <> KFrozen -> nth_error (h_objs h) o = Some x ->
  see_object (set_nth (h_arrays h) i l) (h_cells h) x =
  mkObject (content (set_nth (h_arrays h) i l) (s_codes x)) (o_props (see_object (h_arrays h) (h_cells h) x)).
Proof.
  intros H K E. unfold see_object. cbn [o_props]. f_equal. apply map_ext_in. intros p Ip. apply (see_cell_write k); [exact H|exact K|].
  pose proof (proj2 (held_ptrs _ _ H o x E)) as HP. rewrite Forall_forall in HP. apply HP, Ip.
Qed.

Lemma held_codes k h o x l : held k h -> nth_error (h_objs h) o = Some x -> (length l <= w_len (s_codes x))%nat ->
  let h' := with_arrays h (store (h_arrays h) (s_codes x) l) in
  held k h' /\
  see h' = put_obj (see h) o (mkObject (l ++ skipn (length l) (content (h_arrays h) (s_codes x))) (o_props (see_object (h_arrays h) (h_cells h) x))) /\
  content (h_arrays h') (s_codes x) = l ++ skipn (length l) (content (h_arrays h) (s_codes x)).
Proof.
  intros H E HL. cbn zeta. destruct (held_objs _ _ H o x E) as (W & K). rewrite (store_whole _ _ _ W HL), (content_whole _ _ W).
  pose proof (stored_len _ _ _ W HL) as HL'. set (l' := l ++ skipn (length l) (array (h_arrays h) (w_arr (s_codes x)))) in *.
  assert (k (w_arr (s_codes x)) <> KFrozen) as NK by congruence.
  assert (content (set_nth (h_arrays h) (w_arr (s_codes x)) l') (s_codes x) = l') as C.
  { rewrite content_whole by (apply whole_set; assumption). apply array_set_same. apply W. }
  split; [apply held_write; assumption|]. split; [|exact C].
  apply (see_write k); [exact H|exact NK| |].
  - intros v s own Ev Es. pose proof (held_vars _ _ H v s own Ev) as X. destruct own; destruct X as (_ & X); rewrite Es in X; congruence.
  - unfold put_obj, see. cbn [v_vars v_objs v_msgs v_size]. f_equal. symmetry. apply (set_nth_map _ _ _ o x _ E).
    + rewrite (see_object_write k h _ _ o x H NK E), C. reflexivity.
    + intros o' x' N E'. rewrite (see_object_write k h _ _ o' x' H NK E'). unfold see_object at 2. cbn [o_props]. f_equal.
      apply content_set. intros X. destruct (held_objs _ _ H o' x' E') as (_ & K'). rewrite <- X in K'. congruence.
Qed.

(** ** Steps *)

(** What Copy takes over from a property. *)
Definition head (c : cell) : Z * attr * attr * attr := (c_code c, c_get c, c_set c, c_anno c).

Definition heads_kept (h h' : memory) : Prop :=
  forall p, (p < length (h_cells h))%nat ->
    (p < length (h_cells h'))%nat /\ head (nth p (h_cells h') no_cell) = head (nth p (h_cells h) no_cell).

Lemma heads_refl h : heads_kept h h.
Proof. intros p H. auto. Qed.
Lemma heads_trans h1 h2 h3 : heads_kept h1 h2 -> heads_kept h2 h3 -> heads_kept h1 h3.
Proof. intros A B p H. destruct (A p H) as (A1 & A2). destruct (B p A1) as (B1 & B2). split; [exact B1|congruence]. Qed.
Lemma heads_same h h' : h_cells h' = h_cells h -> heads_kept h h'.
Proof. intros E p H. rewrite E. auto. Qed.
Lemma heads_app h h' l : h_cells h' = h_cells h ++ l -> heads_kept h h'.
Proof. intros E p H. rewrite E. split; [rewrite app_length; lia|]. rewrite app_nth1 by exact H. reflexivity. Qed.
Lemma heads_set h h' p s : h_cells h' = set_nth (h_cells h) p (set_window (nth p (h_cells h) no_cell) s) -> heads_kept h h'.
Proof.
  intros E q H. rewrite E. split; [rewrite set_nth_len; exact H|]. destruct (Nat.eq_dec p q) as [->|N].
  - rewrite nth_set_same by exact H. reflexivity.
  - rewrite nth_set_other by exact N. reflexivity.
Qed.

Record goes (h h' : memory) (w : world) : Prop := {
  goes_ok : ok h';
  goes_see : see h' = w;
  goes_db : h_db h' = h_db h;
  goes_heads : heads_kept h h' }.

Lemma goes_trans h1 h2 h3 w1 w2 : goes h1 h2 w1 -> goes h2 h3 w2 -> goes h1 h3 w2.
Proof.
  intros [A1 A2 A3 A4] [B1 B2 B3 B4]. constructor; [exact B1|exact B2|congruence|eapply heads_trans; eassumption].
Qed.

Lemma goes_stay h : ok h -> goes h h (see h).
Proof. intros H. constructor; [exact H|reflexivity|reflexivity|apply heads_refl]. Qed.

(** ** Worlds *)

Lemma put_put w o x y : put_obj (put_obj w o x) o y = put_obj w o y.
Proof.
  unfold put_obj. cbn [v_vars v_objs v_msgs v_size]. f_equal. generalize (v_objs w). intros l. revert o.
  induction l as [|z l IH]; intros [|o]; cbn; try reflexivity. rewrite IH. reflexivity.
Qed.
Lemma put_same w o x : nth_error (v_objs w) o = Some x -> put_obj w o x = w.
Proof. intros E. unfold put_obj. rewrite set_nth_id by exact E. destruct w; reflexivity. Qed.
Lemma put_at w o x y : nth_error (v_objs w) o = Some x -> nth_error (v_objs (put_obj w o y)) o = Some y.
Proof. intros E. unfold put_obj. cbn [v_objs]. apply nth_error_set_same. apply nth_error_Some. congruence. Qed.
Lemma put_new w x y : put_obj (new_obj w x) (length (v_objs w)) y = new_obj w y.
Proof. unfold put_obj, new_obj. cbn [v_vars v_objs v_msgs v_size]. rewrite set_app_last. reflexivity. Qed.
Lemma new_at w x : nth_error (v_objs (new_obj w x)) (length (v_objs w)) = Some x.
Proof. unfold new_obj. cbn [v_objs]. rewrite nth_error_app2 by lia. rewrite Nat.sub_diag. reflexivity. Qed.

Lemma see_objs_at h o x : nth_error (v_objs (see h)) o = Some x ->
  exists s, nth_error (h_objs h) o = Some s /\ x = see_object (h_arrays h) (h_cells h) s.
Proof.
  unfold see. cbn [v_objs]. rewrite nth_error_map. destruct (nth_error (h_objs h) o) as [s|]; [|discriminate].
  intros E. injection E as <-. eauto.
Qed.

Lemma see_objs_len h : length (v_objs (see h)) = length (h_objs h).
Proof. unfold see. cbn [v_objs]. apply map_length. Qed.

(** ** What the library does *)

Lemma frozen_new k a l : frozen (upd k (length a) KFrozen) (a ++ [l]) (mkWindow (length a) 0 (length l)).
Proof. split; [apply whole_inside, alloc_whole|]. cbn [w_arr]. apply upd_same. Qed.

Lemma do_set h o x code src : ok h -> nth_error (v_objs (see h)) o = Some x -> inside (h_arrays h) src ->
  goes h (h_SetPropertyData h o code src) (put_obj (see h) o (fst (fst (SetPropertyData x code (content (h_arrays h) src))))).
Proof.
  intros (k & H) E I. destruct (see_objs_at _ _ _ E) as (s & Es & ->). unfold h_SetPropertyData, SetPropertyData, SetPropertyDataMap.
  replace (obj_of h o) with s by (symmetry; apply nth_error_nth; exact Es).
  change (o_props (see_object (h_arrays h) (h_cells h) s)) with (map (fun p => see_cell (h_arrays h) (nth p (h_cells h) no_cell)) (s_props s)).
  rewrite lookup_ptr_see. destruct (lookup_ptr (h_cells h) (s_props s) code) as [p|] eqn:L.
  - unfold h_SetData. rewrite (clone_eq _ _ I), alloc_eq. cbn [lift_props fst].
    set (d := content (h_arrays h) src). pose proof (held_grow k h d KFrozen H) as H1.
    set (h1 := with_arrays h (h_arrays h ++ [d])) in *.
    pose proof (frozen_new k (h_arrays h) d) as F. set (w := mkWindow (length (h_arrays h)) 0 (length d)) in *.
    pose proof (see_set_cell _ h1 o s code p w H1 Es L) as S. cbn [h1 with_arrays h_arrays h_cells] in S.
    unfold w in S at 2. rewrite alloc_content in S. fold w in S.
    assert (see h1 = see h) as S1 by (apply (see_grow k); exact H).
    constructor.
    + exists (upd k (length (h_arrays h)) KFrozen). apply (held_set_cell _ h1 p _ H1). cbn [c_data]. exact F.
    + etransitivity; [exact S|]. fold h1. rewrite S1. f_equal. 
      unfold with_props. cbn [see_object o_codes]. f_equal.
      * apply content_app. apply (held_objs _ _ H o s Es).
      * f_equal. cbn [see_object o_props]. apply map_ext_in. intros q Iq. apply see_cell_app. pose proof (held_cells _ _ H) as HC. rewrite Forall_forall in HC.
        apply HC. apply nth_In. pose proof (proj2 (held_ptrs _ _ H o s Es)) as HP. rewrite Forall_forall in HP. apply HP, Iq.
    + reflexivity.
    + apply (heads_set h _ p w). reflexivity.
  - cbn [lift_props fst]. unfold with_props. cbn [see_object o_codes].
    change (mkObject (content (h_arrays h) (s_codes s)) (map (fun p => see_cell (h_arrays h) (nth p (h_cells h) no_cell)) (s_props s)))
      with (see_object (h_arrays h) (h_cells h) s). rewrite (put_same _ _ _ E). apply goes_stay. exists k. exact H.
Qed.

(** A new property, not part of any object. *)
Record fresh (h h' : memory) (q : nat) (p : property) : Prop := {
  fresh_goes : goes h h' (see h);
  fresh_objs : h_objs h' = h_objs h;
  fresh_loose : loose h' q;
  fresh_in : (q < length (h_cells h'))%nat;
  fresh_prop : see_cell (h_arrays h') (nth q (h_cells h') no_cell) = p }.

Lemma do_new h code g s a : ok h ->
  let '(h', q) := h_NewProperty h code g s a in
  fresh h h' q (newProperty code g s a) /\ exists l, h_arrays h' = h_arrays h ++ l.
Proof.
  intros (k & H). unfold h_NewProperty. rewrite alloc_eq. cbv beta iota.
  pose proof (held_grow k h [] KFrozen H) as H1. set (h1 := with_arrays h (h_arrays h ++ [[]])) in *.
  pose proof (frozen_new k (h_arrays h) []) as F. cbn [length] in F. set (w := mkWindow (length (h_arrays h)) 0 0) in *. cbn [length].
  set (c := mkCell code g s a w).
  assert (see (with_cells h1 (h_cells h ++ [c])) = see h) as S.
  { etransitivity; [apply (see_new_cell _ h1 c H1)|]. apply (see_grow k). exact H. }
  split; [|exists [[]]; reflexivity]. constructor.
  - constructor; [eexists; apply (held_new_cell _ h1 c H1); exact F|exact S|reflexivity|]. apply (heads_app h _ [c]). reflexivity.
  - reflexivity.
  - intros o x E I. cbn [with_cells h_objs h1 with_arrays] in E. pose proof (proj2 (held_ptrs _ _ H o x E)) as HP. rewrite Forall_forall in HP.
    specialize (HP _ I). cbn beta in HP. lia.
  - cbn [with_cells h_cells]. rewrite app_length. cbn [length]. lia.
  - cbn [with_cells h_cells h_arrays h1 with_arrays]. rewrite app_nth2 by lia. rewrite Nat.sub_diag. cbn [nth]. unfold see_cell, c. cbn [c_code c_get c_set c_anno c_data].
    unfold w. change 0%nat with (length (@nil Z)) at 2. rewrite alloc_content. reflexivity.
Qed.

Lemma fresh_copy h h0 p : ok h -> heads_kept h0 h -> (p < length (h_cells h0))%nat ->
  let '(h', q) := h_CopyProperty h p in
  fresh h h' q (prop_Copy (see_cell (h_arrays h0) (nth p (h_cells h0) no_cell))).
Proof.
  intros H K R. destruct (K p R) as (_ & E). unfold head in E. injection E as E1 E2 E3 E4. unfold h_CopyProperty.
  pose proof (do_new h (c_code (nth p (h_cells h) no_cell)) (c_get (nth p (h_cells h) no_cell)) (c_set (nth p (h_cells h) no_cell))
    (c_anno (nth p (h_cells h) no_cell)) H) as X.
  destruct (h_NewProperty _ _ _ _ _) as [h' q]. destruct X as (X & _). unfold prop_Copy. cbn [see_cell p_code p_get p_set p_anno].
  rewrite <- E1, <- E2, <- E3, <- E4. exact X.
Qed.

Lemma fresh_data h h1 q p src : ok h -> fresh h h1 q p -> (exists l, h_arrays h1 = h_arrays h ++ l) -> inside (h_arrays h) src ->
  fresh h (h_SetData h1 q src) q (with_data p (content (h_arrays h) src)).
Proof.
  intros _ [G O L R P] (l & El) I. destruct G as [(k & H1) S D K]. unfold h_SetData.
  assert (inside (h_arrays h1) src) as I1 by (rewrite El; apply inside_app, I).
  rewrite (clone_eq _ _ I1), alloc_eq. cbv beta iota.
  replace (content (h_arrays h1) src) with (content (h_arrays h) src) by (rewrite El; symmetry; apply content_app, I).
  set (d := content (h_arrays h) src). pose proof (held_grow k h1 d KFrozen H1) as H2. set (h2 := with_arrays h1 (h_arrays h1 ++ [d])) in *.
  pose proof (frozen_new k (h_arrays h1) d) as F. set (w := mkWindow (length (h_arrays h1)) 0 (length d)) in *.
  change (mkCell (c_code (nth q (h_cells h1) no_cell)) (c_get (nth q (h_cells h1) no_cell)) (c_set (nth q (h_cells h1) no_cell))
    (c_anno (nth q (h_cells h1) no_cell)) w) with (set_window (nth q (h_cells h1) no_cell) w).
  constructor.
  - constructor.
    + eexists. apply (held_set_cell _ h2 q _ H2). exact F.
    + etransitivity; [apply (see_set_loose _ h2 q _ H2 L)|]. rewrite <- S. apply (see_grow k). exact H1.
    + exact D.
    + eapply heads_trans; [exact K|]. apply (heads_set h1 _ q w). reflexivity.
  - exact O.
  - exact L.
  - cbn [with_cells h_cells]. rewrite set_nth_len. exact R.
  - cbn [with_cells h_cells h_arrays h2 with_arrays]. rewrite nth_set_same by exact R. rewrite <- P. unfold see_cell, set_window, with_data.
    cbn [c_code c_get c_set c_anno c_data p_code p_get p_set p_anno]. f_equal. unfold w. apply alloc_content.
Qed.

Lemma do_add h h1 q p o x : fresh h h1 q p -> nth_error (v_objs (see h)) o = Some x ->
  goes h (h_AddProperty h1 o q) (put_obj (see h) o (Obj_AddProperty x p)).
Proof.
  intros [G O L R P] E. destruct G as [(k & H1) S D K]. rewrite <- S in E. destruct (see_objs_at _ _ _ E) as (s & Es & ->).
  destruct (held_add k h1 o s q H1 Es L R) as (H2 & S2). constructor.
  - exists k. exact H2.
  - rewrite S2, S, P. reflexivity.
  - exact D.
  - eapply heads_trans; [exact K|]. apply heads_same. reflexivity.
Qed.

(** The outcome of an operation that may panic. *)
Definition goes_opt (h : memory) (o : nat) (r : option memory) (v : option object) : Prop :=
  match r, v with
  | Some h', Some y => goes h h' (put_obj (see h) o y)
  | None, None => True
  | _, _ => False
  end.

Lemma do_setmap h o x mc codes : ok h -> nth_error (v_objs (see h)) o = Some x ->
  goes_opt h o (h_setPropertyMap h o mc codes) (option_map (fun e => fst (fst e)) (setPropertyMapProperty x mc codes)).
Proof.
  intros H E. pose proof H as (k & Hk). destruct (see_objs_at _ _ _ E) as (s & Es & Ex). unfold h_setPropertyMap, setPropertyMapProperty, HasProp.
  replace (obj_of h o) with s by (symmetry; apply nth_error_nth; exact Es).
  assert (LookupProperty (o_props x) mc = match lookup_ptr (h_cells h) (s_props s) mc with
    Some p => Some (see_cell (h_arrays h) (nth p (h_cells h) no_cell)) | None => None end) as ->
    by (rewrite Ex; apply lookup_ptr_see).
  destruct (lookup_ptr (h_cells h) (s_props s) mc) as [p|]; cbn [negb].
  - destruct (propertyMapBytes codes) as [d|e|]; cbn [option_map fst]; [|cbn [goes_opt]; rewrite put_same by exact E; apply goes_stay; exact H|exact I].
    rewrite alloc_eq. cbv beta iota. set (h1 := with_arrays h (h_arrays h ++ [d])).
    assert (see h1 = see h) as S1 by (apply (see_grow k); exact Hk).
    assert (ok h1) as O1 by (eexists; apply (held_grow k h d KFrozen Hk)).
    rewrite <- S1 in E. pose proof (do_set h1 o x mc (mkWindow (length (h_arrays h)) 0 (length d)) O1 E (whole_inside _ _ (alloc_whole _ _))) as G.
    cbn [h1 with_arrays h_arrays] in G. rewrite alloc_content in G. fold h1 in G. rewrite S1 in G. cbn [goes_opt].
    destruct G as [G1 G2 G3 G4]. constructor; assumption.
  - cbn [option_map fst goes_opt]. rewrite put_same by exact E. apply goes_stay. exact H.
Qed.

Lemma filter_codes a (f : attr -> bool) (sel : cell -> attr) (g : property -> bool) l :
  (forall c, g (see_cell a c) = f (sel c)) ->
  map p_code (filter g (map (see_cell a) l)) = map c_code (filter (fun c => f (sel c)) l).
Proof.
  intros E. induction l as [|c l IH]; cbn [map filter]; [reflexivity|]. rewrite E. destruct (f (sel c)); cbn [map]; rewrite IH; reflexivity.
Qed.

Lemma codes_see h o s f sel g : nth_error (h_objs h) o = Some s -> (forall c, g (see_cell (h_arrays h) c) = f (sel c)) ->
  ptr_codes f sel h o = map_codes g (see_object (h_arrays h) (h_cells h) s).
Proof.
  intros E G. unfold ptr_codes, map_codes. replace (obj_of h o) with s by (symmetry; apply nth_error_nth; exact E).
  cbn [see_object o_props]. rewrite <- ptrs_see. rewrite <- (filter_codes (h_arrays h) f sel g) by exact G. rewrite map_map. reflexivity.
Qed.

Lemma do_update h o x : ok h -> nth_error (v_objs (see h)) o = Some x ->
  goes_opt h o (h_updatePropertyMap h o) (option_map (fun e => fst (fst e)) (updatePropertyMap x)).
Proof.
  intros H E. destruct (see_objs_at _ _ _ E) as (s & Es & Ex). unfold h_updatePropertyMap, updatePropertyMap.
  rewrite (codes_see h o s _ _ IsReadable Es) by reflexivity. rewrite (codes_see h o s _ _ IsWritable Es) by reflexivity.
  rewrite (codes_see h o s _ _ IsAnnounceable Es) by reflexivity. rewrite <- Ex.
  generalize (map_codes IsReadable x) (map_codes IsWritable x) (map_codes IsAnnounceable x). intros c1 c2 c3.
  assert (forall ms h1 x1 ev er, goes h h1 (put_obj (see h) o x1) ->
    goes_opt h o
      (fold_left (fun acc m => match acc with None => None | Some h => h_setPropertyMap h o (fst m) (snd m) end) ms (Some h1))
      (option_map (fun e : effect => fst (fst e)) (fold_left (fun acc m =>
        match acc with
        | None => None
        | Some (o, ev, lastErr) =>
            match setPropertyMapProperty o (fst m) (snd m) with
            | None => None
            | Some (o', ev', e) => Some (o', ev ++ ev', match e with Some x => Some x | None => lastErr end)
            end
        end) ms (Some (x1, ev, er))))) as F.
  { assert (forall ms : list (Z * list Z), fold_left (fun acc m => match acc with None => None | Some h => h_setPropertyMap h o (fst m) (snd m) end) ms None = None) as N1
      by (induction ms; cbn; auto).
    induction ms as [|m ms IH]; intros h1 x1 ev er G; cbn [fold_left]; [exact G|].
    assert (nth_error (v_objs (see h1)) o = Some x1) as E1 by (rewrite (goes_see _ _ _ G); eapply put_at; exact E).
    pose proof (do_setmap h1 o x1 (fst m) (snd m) (goes_ok _ _ _ G) E1) as D. cbv beta.
    destruct (h_setPropertyMap h1 o (fst m) (snd m)) as [h2|]; destruct (setPropertyMapProperty x1 (fst m) (snd m)) as [((x2, ev2), er2)|]; cbn [option_map goes_opt fst] in D; try contradiction.
    - apply IH. rewrite (goes_see _ _ _ G), put_put in D. eapply goes_trans; eassumption.
    - rewrite N1.
      match goal with |- goes_opt _ _ _ (option_map _ (fold_left ?f ms None)) => replace (fold_left f ms None) with (@None effect); [exact I|] end.
      clear. induction ms; cbn [fold_left]; auto. }
  apply F. rewrite put_same by exact E. apply goes_stay. exact H.
Qed.

Lemma do_super_add h h1 q p o x : fresh h h1 q p -> nth_error (v_objs (see h)) o = Some x ->
  goes_opt h o (h_Super_AddProperty h1 o q) (option_map fst (Super_AddProperty x p)).
Proof.
  intros F E. pose proof (do_add h h1 q p o x F E) as G. unfold h_Super_AddProperty, Super_AddProperty.
  assert (nth_error (v_objs (see (h_AddProperty h1 o q))) o = Some (Obj_AddProperty x p)) as E1 by (rewrite (goes_see _ _ _ G); eapply put_at; exact E).
  pose proof (do_update _ o _ (goes_ok _ _ _ G) E1) as U.
  destruct (h_updatePropertyMap (h_AddProperty h1 o q) o) as [h2|]; destruct (updatePropertyMap (Obj_AddProperty x p)) as [((y, ev), er)|];
    cbn [option_map goes_opt fst] in *; try contradiction; [|exact I].
  rewrite (goes_see _ _ _ G), put_put in U. eapply goes_trans; eassumption.
Qed.

(** ** The database *)

Definition numbered {A} (db : list (Z * A)) (n : nat) : list (Z * nat) := combine (map fst db) (seq n (length db)).

Lemma assoc_numbered {A} (db : list (Z * A)) c : forall n,
  match assoc_z (numbered db n) c with
  | Some i => exists x, assoc_z db c = Some x /\ (n <= i < n + length db)%nat /\ nth_error (map snd db) (i - n) = Some x
  | None => assoc_z db c = None
  end.
Proof.
  induction db as [|(k, x) db IH]; intros n; [reflexivity|]. unfold numbered. cbn [map fst snd length seq combine assoc_z].
  destruct (k =? c).
  - exists x. rewrite Nat.sub_diag. split; [reflexivity|]. split; [lia|reflexivity].
  - specialize (IH (S n)). unfold numbered in IH. destruct (assoc_z (combine (map fst db) (seq (S n) (length db))) c) as [i|]; [|exact IH].
    destruct IH as (y & E1 & L & E2). exists y. split; [exact E1|]. split; [lia|]. replace (i - n)%nat with (S (i - S n)) by lia. exact E2.
Qed.

Definition size_db : nat := length db_objects.

(** The database is in its place. *)
Definition placed (h : memory) : Prop :=
  h_db h = numbered db_objects 0 /\ firstn size_db (v_objs (see h)) = map snd db_objects.

Lemma placed_at h o x : placed h -> (o < size_db)%nat -> nth_error (map snd db_objects) o = Some x -> nth_error (v_objs (see h)) o = Some x.
Proof.
  intros (_ & P) L E. rewrite <- P in E. rewrite <- (firstn_skipn size_db (v_objs (see h))).
  rewrite nth_error_app1; [exact E|]. rewrite P, map_length. exact L.
Qed.

Lemma placed_len h : placed h -> (size_db <= length (v_objs (see h)))%nat.
Proof. intros (_ & P). apply (f_equal (@length _)) in P. rewrite firstn_length, map_length in P. fold size_db in P. lia. Qed.

Lemma firstn_set {A} (l : list A) : forall n i x, (n <= i)%nat -> firstn n (set_nth l i x) = firstn n l.
Proof. induction l as [|y l IH]; intros [|n] [|i] x H; cbn; try reflexivity; try lia. rewrite IH by lia. reflexivity. Qed.

Lemma placed_put h h' o y : placed h -> (size_db <= o)%nat -> goes h h' (put_obj (see h) o y) -> placed h'.
Proof.
  intros (P1 & P2) L [_ S D _]. split; [congruence|]. rewrite S. unfold put_obj. cbn [v_objs]. rewrite firstn_set by exact L. exact P2.
Qed.
Lemma placed_new h h' y : placed h -> goes h h' (new_obj (see h) y) -> placed h'.
Proof.
  intros P [_ S D _]. pose proof (placed_len h P) as L. destruct P as (P1 & P2). split; [congruence|]. rewrite S. unfold new_obj. cbn [v_objs].
  rewrite firstn_app. replace (size_db - length (v_objs (see h)))%nat with O by lia. cbn [firstn]. rewrite app_nil_r. exact P2.
Qed.

Lemma fold_none {A B} (f : A -> B -> option A) l : fold_left (fun acc p => match acc with None => None | Some h => f h p end) l None = None.
Proof. induction l; cbn; auto. Qed.

Lemma do_standard h o x code : ok h -> placed h -> nth_error (v_objs (see h)) o = Some x ->
  goes_opt h o (h_addStandard h o code) (option_map fst (addStandardPropertiesWithCode x code)).
Proof.
  intros H P E. unfold h_addStandard, addStandardPropertiesWithCode, DB_LookupObject. rewrite (proj1 P).
  pose proof (assoc_numbered db_objects (Z.land code 0xFFFF00) 0) as A.
  destruct (assoc_z (numbered db_objects 0) (Z.land code 0xFFFF00)) as [i|].
  - destruct A as (std & -> & L & En). rewrite Nat.sub_0_r in En. pose proof (placed_at h i std P (proj2 L) En) as Ei.
    destruct (see_objs_at _ _ _ Ei) as (s & Es & ->). replace (obj_of h i) with s by (symmetry; apply nth_error_nth; exact Es).
    cbn [see_object o_props]. rewrite <- ptrs_see.
    assert (Forall (fun p => (p < length (h_cells h))%nat) (ptrs (h_cells h) (s_props s))) as R.
    { destruct H as (k & H). pose proof (proj2 (held_ptrs _ _ H i s Es)) as HP. rewrite Forall_forall in *. intros p Ip. apply HP. eapply ptrs_in, Ip. }
    revert R. generalize (ptrs (h_cells h) (s_props s)). intros ps R.
    assert (forall h1 x1 ev, goes h h1 (put_obj (see h) o x1) ->
      goes_opt h o
        (fold_left (fun acc p => match acc with None => None | Some h => let '(h, q) := h_CopyProperty h p in h_Super_AddProperty h o q end) ps (Some h1))
        (option_map fst (fold_left (fun acc stdProp => match acc with None => None | Some (o, ev) =>
            match Super_AddProperty o (prop_Copy stdProp) with None => None | Some (o', ev') => Some (o', ev ++ ev') end end)
            (map (fun p => see_cell (h_arrays h) (nth p (h_cells h) no_cell)) ps) (Some (x1, ev))))) as F.
    { induction R as [|p ps R0 R IH]; intros h1 x1 ev G; cbn [map fold_left]; [exact G|].
      assert (nth_error (v_objs (see h1)) o = Some x1) as E1 by (rewrite (goes_see _ _ _ G); eapply put_at; exact E).
      pose proof (fresh_copy h1 h p (goes_ok _ _ _ G) (goes_heads _ _ _ G) R0) as C. destruct (h_CopyProperty h1 p) as [h2 q].
      pose proof (do_super_add h1 h2 q _ o x1 C E1) as D.
      destruct (h_Super_AddProperty h2 o q) as [h3|];
        destruct (Super_AddProperty x1 (prop_Copy (see_cell (h_arrays h) (nth p (h_cells h) no_cell)))) as [(x2, ev2)|];
        cbn [option_map goes_opt fst] in D; try contradiction.
      - apply IH. rewrite (goes_see _ _ _ G), put_put in D. eapply goes_trans; eassumption.
      - rewrite (fold_none (fun h p => let '(h, q) := h_CopyProperty h p in h_Super_AddProperty h o q)).
        match goal with |- goes_opt _ _ _ (option_map _ (fold_left ?f ?l None)) => replace (fold_left f l None) with (@None (object * list pprop)); [exact I|] end.
        clear. induction ps; cbn [map fold_left]; auto. }
    apply F. rewrite put_same by exact E. apply goes_stay. exact H.
  - rewrite A. cbn [option_map goes_opt fst]. rewrite put_same by exact E. apply goes_stay. exact H.
Qed.

Lemma do_codes h o x l : ok h -> nth_error (v_objs (see h)) o = Some x -> (length l <= length (o_codes x))%nat ->
  goes h (with_arrays h (store (h_arrays h) (s_codes (obj_of h o)) l)) (put_obj (see h) o (with_codes x (l ++ skipn (length l) (o_codes x)))).
Proof.
  intros (k & H) E L. destruct (see_objs_at _ _ _ E) as (s & Es & ->). replace (obj_of h o) with s by (symmetry; apply nth_error_nth; exact Es).
  cbn [see_object o_codes] in L. rewrite content_len in L by (apply whole_inside, (held_objs _ _ H o s Es)).
  destruct (held_codes k h o s l H Es L) as (H1 & S & _). constructor; [exists k; exact H1|exact S|reflexivity|apply heads_same; reflexivity].
Qed.

Lemma codes_len h o x : ok h -> nth_error (v_objs (see h)) o = Some x -> w_len (s_codes (obj_of h o)) = length (o_codes x) /\
  content (h_arrays h) (s_codes (obj_of h o)) = o_codes x.
Proof.
  intros (k & H) E. destruct (see_objs_at _ _ _ E) as (s & Es & ->). replace (obj_of h o) with s by (symmetry; apply nth_error_nth; exact Es).
  cbn [see_object o_codes]. rewrite content_len by (apply whole_inside, (held_objs _ _ H o s Es)). auto.
Qed.

Lemma do_setcode h o x code : ok h -> nth_error (v_objs (see h)) o = Some x ->
  goes h (h_SetCode h o code) (put_obj (see h) o (Obj_SetCode x code)).
Proof.
  intros H E. unfold h_SetCode, Obj_SetCode. destruct (codes_len h o x H E) as (L & _). rewrite L.
  pose proof (do_codes h o x (IntegerToByte code (length (o_codes x))) H E) as G. rewrite IntegerToByte_length in G. specialize (G (le_n _)).
  rewrite skipn_all, app_nil_r in G. exact G.
Qed.

Lemma do_setcodes h o x src : ok h -> nth_error (v_objs (see h)) o = Some x -> inside (h_arrays h) src ->
  goes h (h_SetCodes h o src) (put_obj (see h) o (Obj_SetCodes x (content (h_arrays h) src))).
Proof.
  intros H E I. unfold h_SetCodes, Obj_SetCodes, copies_to, copy_into. destruct (codes_len h o x H E) as (L & _). rewrite L.
  set (d := content (h_arrays h) src).
  pose proof (do_codes h o x (firstn (length (o_codes x)) d) H E (firstn_le_length _ _)) as G.
  replace (skipn (length (firstn (length (o_codes x)) d)) (o_codes x)) with (skipn (length d) (o_codes x)) in G; [exact G|].
  rewrite firstn_length. destruct (Nat.le_ge_cases (length d) (length (o_codes x))) as [A|A].
  - rewrite Nat.min_r by exact A. reflexivity.
  - rewrite Nat.min_l by exact A. rewrite !skipn_all2; [reflexivity|lia|exact A].
Qed.

Lemma do_super_code h o x code : ok h -> placed h -> (size_db <= o)%nat -> nth_error (v_objs (see h)) o = Some x ->
  goes_opt h o (h_Super_SetCode h o code) (option_map fst (Super_SetCode x code)).
Proof.
  intros H P L E. unfold h_Super_SetCode, Super_SetCode. pose proof (do_setcode h o x code H E) as G. set (h1 := h_SetCode h o code) in *.
  assert (nth_error (v_objs (see h1)) o = Some (Obj_SetCode x code)) as E1 by (rewrite (goes_see _ _ _ G); eapply put_at; exact E).
  destruct (codes_len h1 o _ (goes_ok _ _ _ G) E1) as (_ & C). cbv zeta. rewrite C. unfold Code.
  pose proof (do_standard h1 o _ (ByteToInteger (o_codes (Obj_SetCode x code))) (goes_ok _ _ _ G) (placed_put _ _ _ _ P L G) E1) as D.
  destruct (h_addStandard h1 o (ByteToInteger (o_codes (Obj_SetCode x code)))) as [h2|];
    destruct (addStandardPropertiesWithCode (Obj_SetCode x code) (ByteToInteger (o_codes (Obj_SetCode x code)))) as [(y, ev)|];
    cbn [option_map goes_opt fst] in *; try contradiction; [|exact I].
  rewrite (goes_see _ _ _ G), put_put in D. eapply goes_trans; eassumption.
Qed.

Lemma held_new_obj k h l : held k h ->
  held (upd k (length (h_arrays h)) (KCodes (length (h_objs h))))
    (with_objs (with_arrays h (h_arrays h ++ [l])) (h_objs h ++ [mkShape (mkWindow (length (h_arrays h)) 0 (length l)) []])).
Proof.
  intros H. pose proof (held_grow k h l (KCodes (length (h_objs h))) H) as [H1 H2 H3 H4 H5 H6 H7].
  set (k' := upd k (length (h_arrays h)) (KCodes (length (h_objs h)))) in *.
  constructor; cbn [with_objs with_arrays h_arrays h_cells h_objs h_msgs h_vars h_buffer] in *; auto.
  - intros o x E. destruct (Nat.lt_trichotomy o (length (h_objs h))) as [L|[->|L]].
    + rewrite nth_error_app1 in E by exact L. exact (H1 o x E).
    + rewrite nth_error_app2, Nat.sub_diag in E by lia. injection E as <-. cbn [s_codes w_arr]. split; [apply alloc_whole|apply upd_same].
    + rewrite (proj2 (nth_error_None _ _)) in E; [discriminate|]. rewrite app_length. cbn. lia.
  - intros o x E. destruct (Nat.lt_trichotomy o (length (h_objs h))) as [L|[->|L]].
    + rewrite nth_error_app1 in E by exact L. exact (H6 o x E).
    + rewrite nth_error_app2, Nat.sub_diag in E by lia. injection E as <-. split; constructor.
    + rewrite (proj2 (nth_error_None _ _)) in E; [discriminate|]. rewrite app_length. cbn. lia.
  - assert (forall o x p, nth_error (h_objs h ++ [mkShape (mkWindow (length (h_arrays h)) 0 (length l)) []]) o = Some x -> In p (s_props x) ->
      nth_error (h_objs h) o = Some x) as X.
    { intros o x p E I. destruct (Nat.lt_ge_cases o (length (h_objs h))) as [L|L]; [rewrite nth_error_app1 in E by exact L; exact E|].
      rewrite nth_error_app2 in E by exact L. destruct (o - length (h_objs h))%nat as [|[|n]]; cbn in E; try discriminate. injection E as <-. destruct I. }
    intros o x o' x' p E E' I I'. exact (H7 o x o' x' p (X _ _ _ E I) (X _ _ _ E' I') I I').
Qed.

Lemma do_newobj h : ok h -> goes h (fst (h_newObject h)) (new_obj (see h) newObject) /\ snd (h_newObject h) = length (v_objs (see h)).
Proof.
  intros (k & H). unfold h_newObject. rewrite alloc_eq. cbn [fst snd length]. split; [|symmetry; apply see_objs_len].
  set (w := mkWindow (length (h_arrays h)) 0 3). constructor.
  - eexists. apply (held_new_obj k h [0; 0; 0] H).
  - pose proof (see_grow k h [[0;0;0]] H) as S. unfold see in *. cbn [with_objs with_arrays h_arrays h_cells h_objs h_msgs h_vars h_buffer] in *.
    injection S as S1 S2 S3. unfold new_obj. cbn [v_vars v_objs v_msgs v_size]. rewrite S1, map_app, S2, S3. f_equal. f_equal. cbn [map]. unfold see_object. cbn [s_codes s_props map].
    unfold w, newObject. change 3%nat with (length [0;0;0]). rewrite alloc_content. reflexivity.
  - reflexivity.
  - apply heads_same. reflexivity.
Qed.

(** The outcome of making an object. *)
Definition makes (h : memory) (r : option memory) (v : option object) : Prop :=
  match r, v with
  | Some h', Some y => goes h h' (new_obj (see h) y)
  | None, None => True
  | _, _ => False
  end.

Lemma after_new h h1 x : goes h h1 (new_obj (see h) x) -> forall r v, goes_opt h1 (length (v_objs (see h))) r v -> makes h r v.
Proof.
  intros G r v D. destruct r as [h2|]; destruct v as [y|]; cbn [goes_opt makes] in *; try contradiction; [|exact I].
  rewrite (goes_see _ _ _ G), put_new in D. eapply goes_trans; eassumption.
Qed.
Lemma at_new h h1 x : goes h h1 (new_obj (see h) x) -> nth_error (v_objs (see h1)) (length (v_objs (see h))) = Some x.
Proof. intros G. rewrite (goes_see _ _ _ G). apply new_at. Qed.

Lemma do_super h : ok h -> placed h ->
  makes h (option_map fst (h_NewSuperObject h)) NewSuperObject /\
  (forall h' o, h_NewSuperObject h = Some (h', o) -> o = length (v_objs (see h))).
Proof.
  intros H P. unfold h_NewSuperObject, NewSuperObject. destruct (do_newobj h H) as (G & En). destruct (h_newObject h) as [h1 o]. cbn [fst snd] in *. subst o.
  set (o := length (v_objs (see h))) in *. pose proof (placed_len h P) as L. fold o in L.
  pose proof (do_setcode h1 o _ 0 (goes_ok _ _ _ G) (at_new _ _ _ G)) as G1. rewrite (goes_see _ _ _ G) in G1. unfold o in G1 at 2. rewrite put_new in G1.
  pose proof (goes_trans _ _ _ _ _ G G1) as G2. set (h2 := h_SetCode h1 o 0) in *.
  pose proof (do_standard h2 o _ 0 (goes_ok _ _ _ G2) (placed_new _ _ _ P G2) (at_new _ _ _ G2)) as D.
  destruct (h_addStandard h2 o 0) as [h3|]; destruct (addStandardPropertiesWithCode (Obj_SetCode newObject 0) 0) as [(x3, ev)|];
    cbn [option_map goes_opt fst] in D; try contradiction; [|split; [exact I|discriminate]].
  rewrite (goes_see _ _ _ G2) in D. unfold o in D at 1. rewrite put_new in D. pose proof (goes_trans _ _ _ _ _ G2 D) as G3.
  pose proof (do_update h3 o _ (goes_ok _ _ _ G3) (at_new _ _ _ G3)) as U. apply (after_new _ _ _ G3) in U.
  destruct (h_updatePropertyMap h3 o) as [h4|]; destruct (updatePropertyMap x3) as [((x4, ev4), er4)|];
    cbn [option_map makes fst] in *; try contradiction; [|split; [exact I|discriminate]].
  split; [exact U|]. intros h' o' X. injection X as _ <-. reflexivity.
Qed.

Lemma do_device h code : ok h -> placed h ->
  makes h (h_NewDevice h code) (match NewDeviceWithCode code with Ok x => Some x | _ => None end).
Proof.
  intros H P. unfold h_NewDevice, NewDeviceWithCode. destruct (do_super h H P) as (D & En).
  destruct (h_NewSuperObject h) as [(h1, o)|]; destruct NewSuperObject as [x1|]; cbn [option_map makes fst] in D; try contradiction; [|exact I].
  rewrite (En h1 o eq_refl). unfold DB_LookupObject. rewrite (proj1 P).
  pose proof (assoc_numbered db_objects (Z.land code 0xFFFF00) 0) as A.
  destruct (assoc_z (numbered db_objects 0) (Z.land code 0xFFFF00)) as [i|]; [destruct A as (y & -> & _)|rewrite A; exact I].
  apply (after_new h h1 x1 D). pose proof (do_super_code h1 (length (v_objs (see h))) x1 code (goes_ok _ _ _ D) (placed_new _ _ _ P D) (placed_len h P) (at_new _ _ _ D)) as S.
  destruct (Super_SetCode x1 code) as [(x2, ev)|]; exact S.
Qed.

Lemma do_copy h o x : ok h -> nth_error (v_objs (see h)) o = Some x -> goes h (h_Copy h o) (new_obj (see h) (Obj_Copy x)).
Proof.
  intros H E. unfold h_Copy, Obj_Copy. destruct (do_newobj h H) as (G & En). destruct (h_newObject h) as [h1 n]. cbn [fst snd] in *. subst n.
  set (n := length (v_objs (see h))) in *.
  destruct (codes_len h1 n newObject (goes_ok _ _ _ G) (at_new _ _ _ G)) as (_ & C). cbv zeta. rewrite C.
  pose proof (do_setcode h1 n _ (ByteToInteger (o_codes newObject)) (goes_ok _ _ _ G) (at_new _ _ _ G)) as G1. rewrite (goes_see _ _ _ G) in G1. unfold n in G1 at 2. rewrite put_new in G1.
  pose proof (goes_trans _ _ _ _ _ G G1) as G2. clear G1. set (h2 := h_SetCode h1 n (ByteToInteger (o_codes newObject))) in *.
  destruct (see_objs_at _ _ _ E) as (s & Es & Ex). replace (obj_of h o) with s by (symmetry; apply nth_error_nth; exact Es).
  assert (Properties (o_props x) = map (fun p => see_cell (h_arrays h) (nth p (h_cells h) no_cell)) (ptrs (h_cells h) (s_props s))) as ->
    by (rewrite Ex; symmetry; apply ptrs_see).
  assert (Forall (fun p => (p < length (h_cells h))%nat) (ptrs (h_cells h) (s_props s))) as R.
  { destruct H as (k & H). pose proof (proj2 (held_ptrs _ _ H o s Es)) as HP. rewrite Forall_forall in *. intros p Ip. apply HP. eapply ptrs_in, Ip. }
  revert R. generalize (ptrs (h_cells h) (s_props s)). intros ps R. clear G C. unfold Code. fold newObject.
  revert G2. generalize (Obj_SetCode newObject (ByteToInteger (o_codes newObject))). generalize h2. clear h2. induction R as [|p ps R0 R IH]; intros h2 x2 G; cbn [map fold_left]; [exact G|].
  pose proof (fresh_copy h2 h p (goes_ok _ _ _ G) (goes_heads _ _ _ G) R0) as F. destruct (h_CopyProperty h2 p) as [h3 q].
  pose proof (do_add h2 h3 q _ n x2 F (at_new _ _ _ G)) as D. rewrite (goes_see _ _ _ G) in D. unfold n in D at 2. rewrite put_new in D. apply IH. eapply goes_trans; eassumption.
Qed.

(** ** Messages *)

Definition frozen_from (k : nat -> kind) (n : nat) : nat -> kind := fun i => if (i <? n)%nat then k i else KFrozen.

Lemma frozen_many k a l s : frozen k a s -> frozen (frozen_from k (length a)) (a ++ l) s.
Proof.
  intros (A & B). split; [apply inside_app, A|]. unfold frozen_from. destruct A as (A & _). destruct (Nat.ltb_spec (w_arr s) (length a)); [exact B|lia].
Qed.

Lemma held_many k h l : held k h -> held (frozen_from k (length (h_arrays h))) (with_arrays h (h_arrays h ++ l)).
Proof.
  assert (forall i, (i < length (h_arrays h))%nat -> frozen_from k (length (h_arrays h)) i = k i) as F.
  { intros i L. unfold frozen_from. destruct (Nat.ltb_spec i (length (h_arrays h))); [reflexivity|lia]. }
  intros [H1 H2 H3 H4 H5 H6 H7]. constructor; cbn [with_arrays h_arrays h_cells h_objs h_msgs h_vars h_buffer]; auto.
  - intros o y E. destruct (H1 o y E) as (A & B). split; [apply whole_app, A|]. rewrite F; [exact B|apply A].
  - eapply Forall_impl; [|exact H2]. intros c. apply frozen_many.
  - eapply Forall_impl; [|exact H3]. intros e. apply Forall_impl. intros p. apply frozen_many.
  - intros v s own E. specialize (H4 v s own E). destruct own; [|apply frozen_many, H4].
    destruct H4 as (A & B). split; [apply whole_app, A|]. rewrite F; [exact B|apply A].
  - destruct H5 as (A & B). split; [apply whole_app, A|]. rewrite F; [exact B|apply A].
Qed.

(** Slices of arrays made from the [n]-th on. *)
Definition recent (n : nat) (a : arrays) (s : window) : Prop := inside a s /\ (n <= w_arr s)%nat.

Lemma recent_app n a l s : recent n a s -> recent n (a ++ l) s.
Proof. intros (A & B). split; [apply inside_app, A|exact B]. Qed.

Definition see_prop (a : arrays) (p : Z * window) : pprop := mkPProp (fst p) (content a (snd p)).

Lemma see_prop_app a l p : inside a (snd p) -> see_prop (a ++ l) p = see_prop a p.
Proof. intros H. unfold see_prop. rewrite content_app by apply H. reflexivity. Qed.

Lemma blank_spec n : forall a m, (m <= length a)%nat ->
  let '(a', ps) := blank_props a n in
  (exists l, a' = a ++ l) /\ Forall (fun p => recent m a' (snd p)) ps /\ map (see_prop a') ps = repeat NewPProp n.
Proof.
  induction n as [|n IH]; intros a m L; cbn [blank_props].
  - split; [exists []; symmetry; apply app_nil_r|]. split; [constructor|reflexivity].
  - rewrite alloc_eq. cbv beta iota. specialize (IH (a ++ [[]]) m). rewrite app_length in IH. specialize (IH ltac:(lia)).
    destruct (blank_props (a ++ [[]]) n) as [a' ps]. destruct IH as ((l & ->) & F & E).
    split; [exists ([[]] ++ l); rewrite app_assoc; reflexivity|].
    assert (recent m (a ++ [[]]) (mkWindow (length a) 0 0)) as R.
    { split; [apply (whole_inside _ _ (alloc_whole a []))|cbn [w_arr]; exact L]. }
    split; [apply Forall_cons; [apply recent_app, R|exact F]|]. cbn [map repeat]. rewrite E. reflexivity.
Qed.

Lemma skipn_twice {A} (l : list A) : forall n m, skipn n (skipn m l) = skipn (m + n) l.
Proof.
  intros n m. revert n l. induction m as [|m IH]; intros n l; [reflexivity|]. destruct l as [|x l]; [rewrite !skipn_nil; reflexivity|]. cbn [skipn Nat.add]. apply IH.
Qed.

Lemma sub_content a s off n : inside a s -> (off + n <= w_len s)%nat ->
  content a (mkWindow (w_arr s) (w_off s + off) n) = firstn n (skipn off (content a s)).
Proof.
  intros _ L. unfold content. cbn [w_arr w_off w_len]. rewrite skipn_firstn_comm, firstn_firstn, Nat.min_l by lia.
  rewrite skipn_twice. reflexivity.
Qed.
Lemma sub_inside a s off n : inside a s -> (off + n <= w_len s)%nat -> inside a (mkWindow (w_arr s) (w_off s + off) n).
Proof. intros (A & B) L. split; cbn [w_arr w_off w_len]; [exact A|lia]. Qed.

Lemma parse_prop_spec a data p off m : inside a data -> (m <= length a)%nat -> recent m a (snd p) ->
  match h_parse_prop a data p off, parse_prop (content a data) (see_prop a p) off with
  | Ok (a', p', off'), Ok (q, off'') =>
      (exists l, a' = a ++ l) /\ off' = off'' /\ see_prop a' p' = q /\ recent m a' (snd p')
  | Err _, Err _ | Panic, Panic => True
  | _, _ => False
  end.
Proof.
  intros I Lm R. unfold h_parse_prop, parse_prop. set (d := content a data). pose proof (content_len a data I) as Ld. fold d in Ld.
  assert (forall c, see_prop a (c, snd p) = pp_SetCode (see_prop a p) c) as SC by reflexivity.
  assert (exists l : list (list Z), a = a ++ l) as X0 by (exists []; symmetry; apply app_nil_r).
  cbv zeta. destruct (len d - 1 <? off); [auto|]. unfold bind. destruct (idx d off) as [c|e|]; [|exact Logic.I|exact Logic.I].
  destruct (len d - 1 <? off + 1); [rewrite <- SC; auto|]. destruct (idx d (off + 1)) as [n|e|]; [|exact Logic.I|exact Logic.I].
  destruct (len d - 1 <? off + 1 + 1 + n - 1); [rewrite <- SC; auto|].
  unfold Go.slice. destruct ((off + 1 + 1 <? 0) || (off + 1 + 1 + n <? off + 1 + 1) || (len d <? off + 1 + 1 + n)) eqn:B; [exact Logic.I|].
  unfold len in B. replace (off + 1 + 1 + n - (off + 1 + 1)) with n by lia. set (o2 := off + 1 + 1) in *. clearbody o2.
  assert (Z.to_nat o2 + Z.to_nat n <= w_len data)%nat as W by lia.
  rewrite clone_eq by (apply sub_inside; assumption). rewrite (sub_content _ _ _ _ I W), alloc_eq. fold d. cbv beta iota.
  set (b := firstn (Z.to_nat n) (skipn (Z.to_nat o2) d)). split; [eexists; reflexivity|]. split; [reflexivity|]. cbn [fst snd]. split.
  - unfold see_prop. cbn [fst snd]. rewrite alloc_content. reflexivity.
  - split; [apply whole_inside, alloc_whole|]. cbn [w_arr]. exact Lm.
Qed.

Lemma parse_props_spec data : forall ps a off m, inside a data -> (m <= length a)%nat -> Forall (fun p => recent m a (snd p)) ps ->
  match h_parse_props a data ps off, parse_props (content a data) (map (see_prop a) ps) off with
  | Ok (a', ps'), Ok qs =>
      (exists l, a' = a ++ l) /\ map (see_prop a') ps' = qs /\ Forall (fun p => recent m a' (snd p)) ps'
  | Err _, Err _ | Panic, Panic => True
  | _, _ => False
  end.
Proof.
  induction ps as [|p ps IH]; intros a off m I Lm F; cbn [h_parse_props parse_props map].
  - split; [exists []; symmetry; apply app_nil_r|]. split; [reflexivity|constructor].
  - apply Forall_inv in F as F0. apply Forall_inv_tail in F. pose proof (parse_prop_spec a data p off m I Lm F0) as S. unfold bind.
    destruct (h_parse_prop a data p off) as [((a1, p1), off1)|e|]; destruct (parse_prop (content a data) (see_prop a p) off) as [(q1, off1')|e'|];
      try contradiction; try exact Logic.I.
    destruct S as ((l & ->) & <- & Eq & R1). cbn [fst snd].
    assert (Forall (fun p => recent m (a ++ l) (snd p)) ps) as F1 by (eapply Forall_impl; [|exact F]; intros x; apply recent_app).
    specialize (IH (a ++ l) off1 m (inside_app _ _ _ I) ltac:(rewrite app_length; lia) F1). rewrite content_app in IH by apply I.
    assert (map (see_prop (a ++ l)) ps = map (see_prop a) ps) as Em.
    { apply map_ext_in. intros x Ix. rewrite Forall_forall in F. apply see_prop_app. apply (F x Ix). }
    rewrite Em in IH.
    destruct (h_parse_props (a ++ l) data ps off1) as [(a2, ps2)|e|]; destruct (parse_props (content a data) (map (see_prop a) ps) off1) as [qs|e'|];
      try contradiction; try exact Logic.I.
    destruct IH as ((l2 & ->) & <- & F2). cbn [fst snd]. split; [exists (l ++ l2); rewrite app_assoc; reflexivity|].
    split; [|apply Forall_cons; [apply recent_app, R1|exact F2]]. cbn [map]. f_equal. rewrite see_prop_app by apply R1. exact Eq.
Qed.

Lemma format1_blank m d m' : parseFormat1HeaderBytes m d = Ok m' -> m_ep m' = repeat NewPProp (Z.to_nat (m_opc m')).
Proof.
  unfold parseFormat1HeaderBytes, bind. destruct (len d <? Format1HeaderSize); [discriminate|].
  repeat (match goal with |- context [idx ?l ?i] => destruct (idx l i); [|discriminate|discriminate] end).
  intros E. injection E as <-. reflexivity.
Qed.

Lemma held_new_msg k h e : held k h -> Forall (fun p => frozen k (h_arrays h) (snd p)) (e_props e) -> held k (with_msgs h (h_msgs h ++ [e])).
Proof.
  intros [H1 H2 H3 H4 H5 H6 H7] F. constructor; cbn [with_msgs h_arrays h_cells h_objs h_msgs h_vars h_buffer]; auto.
  apply Forall_app. split; [exact H3|]. apply Forall_cons; [exact F|constructor].
Qed.
Lemma held_set_msg k h m e : held k h -> Forall (fun p => frozen k (h_arrays h) (snd p)) (e_props e) -> held k (with_msgs h (set_nth (h_msgs h) m e)).
Proof.
  intros [H1 H2 H3 H4 H5 H6 H7] F. constructor; cbn [with_msgs h_arrays h_cells h_objs h_msgs h_vars h_buffer]; auto.
  apply Forall_set; assumption.
Qed.
Lemma see_new_msg h e : see (with_msgs h (h_msgs h ++ [e])) = new_msg (see h) (see_message (h_arrays h) e).
Proof. unfold see, new_msg. cbn [with_msgs h_arrays h_cells h_objs h_msgs h_vars h_buffer v_vars v_objs v_msgs v_size]. rewrite map_app. reflexivity. Qed.
Lemma see_set_msg h m e : see (with_msgs h (set_nth (h_msgs h) m e)) = put_msg (see h) m (see_message (h_arrays h) e).
Proof. unfold see, put_msg. cbn [with_msgs h_arrays h_cells h_objs h_msgs h_vars h_buffer v_vars v_objs v_msgs v_size]. rewrite map_set. reflexivity. Qed.

Lemma do_decode h data : ok h -> inside (h_arrays h) data ->
  match h_Decode h data, NewMessageWithBytes (content (h_arrays h) data) with
  | Ok h', Ok m => goes h h' (new_msg (see h) m) /\ exists e, h_msgs h' = h_msgs h ++ [e]
  | Err _, Err _ | Panic, Panic => True
  | _, _ => False
  end.
Proof.
  intros (k & H) I. unfold h_Decode, NewMessageWithBytes, ParseBytes. pose proof (content_len _ _ I) as Ld. set (d := content (h_arrays h) data) in *.
  unfold bind. destruct (parseFrameHeaderBytes NewMessage d) as [m1|e|]; [|exact Logic.I|exact Logic.I].
  destruct (slice_from d FrameHeaderSize) as [d1|e|]; [|exact Logic.I|exact Logic.I].
  destruct (parseFormat1HeaderBytes m1 d1) as [m2|e|] eqn:E2; [|exact Logic.I|exact Logic.I].
  destruct (slice_from d Format1MinSize) as [d2|e|] eqn:E3; [|exact Logic.I|exact Logic.I].
  assert (d2 = skipn 12 d /\ (12 <= length d)%nat) as (-> & L12).
  { unfold slice_from, Go.slice in E3. destruct ((Format1MinSize <? 0) || (len d <? Format1MinSize) || (len d <? len d)) eqn:B; [discriminate|].
    injection E3 as <-. unfold len, Format1MinSize, FrameHeaderSize, Format1HeaderSize in *. split; [|lia].
    change (Z.to_nat 12) with 12%nat. apply firstn_all2. rewrite skipn_length. lia. }
  pose proof (blank_spec (Z.to_nat (m_opc m2)) (h_arrays h) (length (h_arrays h)) (le_n _)) as BS.
  destruct (blank_props (h_arrays h) (Z.to_nat (m_opc m2))) as [a1 ps]. destruct BS as ((l & ->) & F & E).
  set (sub := mkWindow (w_arr data) (w_off data + 12) (w_len data - 12)).
  assert (inside (h_arrays h ++ l) sub) as Is by (apply inside_app, sub_inside; [exact I|lia]).
  pose proof (parse_props_spec sub ps (h_arrays h ++ l) 0 (length (h_arrays h)) Is ltac:(rewrite app_length; lia) F) as PS.
  assert (content (h_arrays h ++ l) sub = skipn 12 d) as Cs.
  { rewrite content_app by apply I. unfold sub. rewrite sub_content by (exact I || lia). fold d. apply firstn_all2. rewrite skipn_length. lia. }
  rewrite E, Cs in PS. unfold parseFormat1PropertyBytes, bind. rewrite (format1_blank _ _ _ E2).
  destruct (h_parse_props (h_arrays h ++ l) sub ps 0) as [(a2, ps2)|e|]; destruct (parse_props (skipn 12 d) (repeat NewPProp (Z.to_nat (m_opc m2))) 0) as [qs|e'|];
    try contradiction; try exact Logic.I.
  destruct PS as ((l2 & ->) & <- & F2). cbn [fst snd]. rewrite <- app_assoc in *. split; [|eexists; reflexivity].
  pose proof (held_many k h (l ++ l2) H) as H1. set (h1 := with_arrays h (h_arrays h ++ l ++ l2)) in *.
  set (en := mkEnvelope (Protocol.with_props m2 (m_opc m2) []) ps2).
  assert (Forall (fun p => frozen (frozen_from k (length (h_arrays h))) (h_arrays h1) (snd p)) (e_props en)) as F3.
  { eapply Forall_impl; [|exact F2]. intros p (A & B). split; [exact A|]. unfold frozen_from. destruct (Nat.ltb_spec (w_arr (snd p)) (length (h_arrays h))); [lia|reflexivity]. }
  constructor.
  - eexists. apply (held_new_msg _ h1 en H1 F3).
  - etransitivity; [apply (see_new_msg h1 en)|]. unfold h1 at 1. rewrite (see_grow k h _ H). reflexivity.
  - reflexivity.
  - apply heads_same. reflexivity.
Qed.

Lemma do_add_msg h m code src : ok h -> inside (h_arrays h) src ->
  goes h (h_AddMessageProperty h m code src) (add_to_msg (see h) m (mkPProp code (content (h_arrays h) src))).
Proof.
  intros (k & H) I. unfold h_AddMessageProperty, add_to_msg. cbn [see v_msgs]. rewrite nth_error_map.
  destruct (nth_error (h_msgs h) m) as [e|] eqn:E; cbn [option_map]; [|apply goes_stay; exists k; exact H].
  rewrite (clone_eq _ _ I), alloc_eq. cbv beta iota. set (d := content (h_arrays h) src).
  pose proof (held_grow k h d KFrozen H) as H1. set (h1 := with_arrays h (h_arrays h ++ [d])) in *. set (w := mkWindow (length (h_arrays h)) 0 (length d)).
  set (e1 := mkEnvelope (Protocol.with_props (e_msg e) (u8 (m_opc (e_msg e) + 1)) []) (e_props e ++ [(code, w)])).
  pose proof (held_msgs _ _ H) as HM. rewrite Forall_forall in HM. specialize (HM e (nth_error_In _ _ E)).
  assert (Forall (fun p => frozen (upd k (length (h_arrays h)) KFrozen) (h_arrays h1) (snd p)) (e_props e1)) as F.
  { cbn [e1 e_props]. apply Forall_app. split.
    - eapply Forall_impl; [|exact HM]. intros p. apply frozen_grow.
    - apply Forall_cons; [apply frozen_new|constructor]. }
  constructor.
  - eexists. apply (held_set_msg _ h1 m e1 H1 F).
  - etransitivity; [apply (see_set_msg h1 m e1)|]. unfold h1 at 1. rewrite (see_grow k h _ H). unfold put_msg. cbn [see v_vars v_objs v_msgs v_size]. f_equal. f_equal.
    unfold see_message, AddProperty, Protocol.with_props. cbn [e1 e_msg e_props m_ehd1 m_ehd2 m_tid m_seoj m_deoj m_esv m_opc m_ep m_from m_pktType]. f_equal.
    rewrite map_app. f_equal.
    + apply map_ext_in. intros p Ip. rewrite Forall_forall in HM. f_equal. apply content_app. apply (HM p Ip).
    + cbn [map fst snd]. unfold w. cbn [h1 with_arrays h_arrays]. rewrite alloc_content. reflexivity.
  - reflexivity.
  - apply heads_same. reflexivity.
Qed.

(** ** Calls *)

Lemma placed_same h h' : placed h -> v_objs (see h') = v_objs (see h) -> h_db h' = h_db h -> placed h'.
Proof. intros (P1 & P2) E D. split; [congruence|]. rewrite E. exact P2. Qed.

Definition good (h : memory) : Prop := ok h /\ placed h.

Definition follows (h h' : memory) (w : world) : Prop := good h' /\ see h' = w.

Lemma follows_put h h' o y : good h -> (size_db <= o)%nat -> goes h h' (put_obj (see h) o y) -> follows h h' (put_obj (see h) o y).
Proof. intros (_ & P) L G. split; [|apply G]. split; [apply G|]. eapply placed_put; eassumption. Qed.
Lemma follows_new h h' y : good h -> goes h h' (new_obj (see h) y) -> follows h h' (new_obj (see h) y).
Proof. intros (_ & P) G. split; [|apply G]. split; [apply G|]. eapply placed_new; eassumption. Qed.
Lemma follows_same h h' w : good h -> goes h h' w -> v_objs w = v_objs (see h) -> follows h h' w.
Proof. intros (_ & P) G E. split; [|apply G]. split; [apply G|]. apply (placed_same h); [exact P| |apply G]. rewrite (goes_see _ _ _ G). exact E. Qed.
Lemma follows_stay h : good h -> follows h h (see h).
Proof. intros H. split; [exact H|reflexivity]. Qed.

Lemma see_var h v : nth_error (v_vars (see h)) v = option_map (content (h_arrays h)) (var_of h v).
Proof. unfold see, var_of. cbn [v_vars]. rewrite nth_error_map. destruct (nth_error (h_vars h) v); reflexivity. Qed.

Lemma var_inside h v s : ok h -> var_of h v = Some s -> inside (h_arrays h) s.
Proof.
  intros (k & H) E. unfold var_of in E. destruct (nth_error (h_vars h) v) as [(s', own)|] eqn:Ev; [|discriminate]. injection E as <-.
  eapply held_inside_var; eassumption.
Qed.

Lemma held_new_var k h s (own : bool) : held k h ->
  (if own then whole (h_arrays h) s /\ k (w_arr s) = KOwn (length (h_vars h)) else frozen k (h_arrays h) s) -> held k (add_var h s own).
Proof.
  intros [H1 H2 H3 H4 H5 H6 H7] F. constructor; cbn [add_var h_arrays h_cells h_objs h_msgs h_vars h_buffer]; auto.
  intros v s' own' E. destruct (Nat.lt_ge_cases v (length (h_vars h))) as [L|L].
  - rewrite nth_error_app1 in E by exact L. exact (H4 v s' own' E).
  - rewrite nth_error_app2 in E by exact L. destruct (v - length (h_vars h))%nat as [|[|n]] eqn:N; cbn in E; try discriminate. injection E as <- <-.
    assert (v = length (h_vars h)) as -> by lia. exact F.
Qed.

Lemma see_new_var h s own : see (add_var h s own) = new_var (see h) (content (h_arrays h) s).
Proof. unfold see, new_var. cbn [add_var h_arrays h_cells h_objs h_msgs h_vars h_buffer v_vars v_objs v_msgs v_size]. rewrite map_app. reflexivity. Qed.

Lemma do_make h l : ok h ->
  goes h (add_var (with_arrays h (h_arrays h ++ [l])) (mkWindow (length (h_arrays h)) 0 (length l)) true) (new_var (see h) l).
Proof.
  intros (k & H). pose proof (held_grow k h l (KOwn (length (h_vars h))) H) as H1. set (h1 := with_arrays h (h_arrays h ++ [l])) in *. constructor.
  - eexists. apply (held_new_var _ h1 _ true H1). split; [apply alloc_whole|apply upd_same].
  - rewrite see_new_var. unfold h1 at 1. rewrite (see_grow k h _ H). cbn [h1 with_arrays h_arrays]. rewrite alloc_content. reflexivity.
  - reflexivity.
  - apply heads_same. reflexivity.
Qed.

Lemma do_keep h s : ok h -> (forall k, held k h -> frozen k (h_arrays h) s) -> goes h (add_var h s false) (new_var (see h) (content (h_arrays h) s)).
Proof.
  intros (k & H) F. constructor.
  - exists k. apply held_new_var; [exact H|exact (F k H)].
  - apply see_new_var.
  - reflexivity.
  - apply heads_same. reflexivity.
Qed.

Lemma edit_at w o f : edit_obj w o f = match nth_error (v_objs w) o with Some x => match f x with Some y => put_obj w o y | None => w end | None => w end.
Proof. reflexivity. Qed.

Lemma ltb_at h o : (o <? length (h_objs h))%nat = match nth_error (v_objs (see h)) o with Some _ => true | None => false end.
Proof.
  rewrite <- see_objs_len. destruct (nth_error (v_objs (see h)) o) eqn:E.
  - apply Nat.ltb_lt. apply nth_error_Some. congruence.
  - apply Nat.ltb_ge. apply nth_error_None. exact E.
Qed.

Lemma lookup_at h o code : lookup_ptr (h_cells h) (s_props (obj_of h o)) code =
  match nth_error (h_objs h) o with Some s => lookup_ptr (h_cells h) (s_props s) code | None => None end.
Proof.
  unfold obj_of. destruct (nth_error (h_objs h) o) as [s|] eqn:E.
  - rewrite (nth_error_nth _ _ _ E). reflexivity.
  - rewrite nth_overflow by (apply nth_error_None; exact E). reflexivity.
Qed.

Lemma lookup_view h o code :
  match nth_error (v_objs (see h)) o with Some x => LookupProperty (o_props x) code | None => None end =
  option_map (fun p => see_cell (h_arrays h) (nth p (h_cells h) no_cell)) (lookup_ptr (h_cells h) (s_props (obj_of h o)) code).
Proof.
  rewrite lookup_at. unfold see. cbn [v_objs]. rewrite nth_error_map. destruct (nth_error (h_objs h) o) as [s|]; [|reflexivity]. cbn [option_map see_object o_props].
  rewrite lookup_ptr_see. destruct (lookup_ptr (h_cells h) (s_props s) code); reflexivity.
Qed.

Lemma lookup_range k h o code p : held k h -> lookup_ptr (h_cells h) (s_props (obj_of h o)) code = Some p ->
  (p < length (h_cells h))%nat /\ frozen k (h_arrays h) (c_data (nth p (h_cells h) no_cell)).
Proof.
  intros H. rewrite lookup_at. destruct (nth_error (h_objs h) o) as [s|] eqn:E; [|discriminate]. intros L. apply lookup_ptr_in in L.
  pose proof (proj2 (held_ptrs _ _ H o s E)) as HP. rewrite Forall_forall in HP. specialize (HP p (proj1 L)). split; [exact HP|].
  pose proof (held_cells _ _ H) as HC. rewrite Forall_forall in HC. apply HC. apply nth_In, HP.
Qed.

Lemma do_write h v s i b : ok h -> nth_error (h_vars h) v = Some (s, true) -> (i < w_len s)%nat ->
  goes h (with_arrays h (store_byte (h_arrays h) s i b))
    (mkWorld (set_nth (v_vars (see h)) v (set_nth (content (h_arrays h) s) i b)) (v_objs (see h)) (v_msgs (see h)) (v_size (see h))).
Proof.
  intros (k & H) E L. destruct (held_vars _ _ H v s true E) as (W & K). unfold store_byte. rewrite (proj1 (proj2 W)). cbn [Nat.add].
  rewrite (content_whole _ _ W). set (l := set_nth (array (h_arrays h) (w_arr s)) i b).
  assert (length l = length (array (h_arrays h) (w_arr s))) as HL by apply set_nth_len.
  assert (content (set_nth (h_arrays h) (w_arr s) l) s = l) as C.
  { rewrite content_whole by (apply whole_set; assumption). apply array_set_same. apply W. }
  assert (k (w_arr s) <> KFrozen) as NK by congruence.
  constructor; [exists k; apply held_write; assumption| |reflexivity|apply heads_same; reflexivity].
  unfold see. cbn [with_arrays h_arrays h_cells h_objs h_msgs h_vars h_buffer v_vars v_objs v_msgs v_size]. f_equal.
  - apply (set_nth_map _ _ _ v (s, true) _ E); [exact C|]. intros v' (s', own') N E'. cbn [fst]. apply content_set. intros X.
    pose proof (held_vars _ _ H v' s' own' E') as Y. destruct own'; destruct Y as (_ & Y); rewrite <- X in Y; congruence.
  - apply map_same_at. intros o x Eo. rewrite (see_object_write k h _ _ o x H NK Eo). unfold see_object. cbn [o_props]. f_equal. apply content_set.
    intros X. destruct (held_objs _ _ H o x Eo) as (_ & Y). rewrite <- X in Y. congruence.
  - apply map_ext_in. intros e Ie. apply see_message_ext. pose proof (held_msgs _ _ H) as HM. rewrite Forall_forall in HM.
    eapply Forall_impl; [|exact (HM e Ie)]. intros p (A & B). apply content_set. intros X. rewrite <- X in B. congruence.
Qed.

Lemma do_buffer h d : ok h -> (length d <= w_len (h_buffer h))%nat ->
  let h' := with_arrays h (store (h_arrays h) (h_buffer h) d) in
  goes h h' (see h) /\ inside (h_arrays h') (mkWindow (w_arr (h_buffer h)) (w_off (h_buffer h)) (length d)) /\
  content (h_arrays h') (mkWindow (w_arr (h_buffer h)) (w_off (h_buffer h)) (length d)) = d.
Proof.
  intros (k & H) L. cbn zeta. destruct (held_buffer _ _ H) as (W & K). rewrite (store_whole _ _ _ W L). pose proof (stored_len _ _ _ W L) as HL.
  set (l := d ++ skipn (length d) (array (h_arrays h) (w_arr (h_buffer h)))) in *.
  assert (k (w_arr (h_buffer h)) <> KFrozen) as NK by congruence.
  assert (array (set_nth (h_arrays h) (w_arr (h_buffer h)) l) (w_arr (h_buffer h)) = l) as A by (apply array_set_same, W).
  split; [|split].
  - constructor; [exists k; apply held_write; assumption| |reflexivity|apply heads_same; reflexivity].
    apply (see_write k); [exact H|exact NK| |].
    + intros v s own Ev Es. pose proof (held_vars _ _ H v s own Ev) as X. destruct own; destruct X as (_ & X); rewrite Es in X; congruence.
    + unfold see. cbn [v_vars v_objs v_msgs v_size]. f_equal. apply map_same_at. intros o x Eo. rewrite (see_object_write k h _ _ o x H NK Eo).
      unfold see_object. cbn [o_props]. f_equal. symmetry. apply content_set.
      intros X. destruct (held_objs _ _ H o x Eo) as (_ & Y). rewrite <- X in Y. congruence.
  - split; cbn [with_arrays h_arrays w_arr w_off w_len]; [rewrite set_nth_len; apply W|]. rewrite A, (proj1 (proj2 W)), HL. cbn [Nat.add].
    rewrite <- (proj2 (proj2 W)). exact L.
  - unfold content. cbn [with_arrays h_arrays w_arr w_off w_len]. rewrite A, (proj1 (proj2 W)). cbn [skipn]. unfold l.
    rewrite firstn_app, firstn_all, Nat.sub_diag. cbn [firstn]. apply app_nil_r.
Qed.

Lemma edit_opt h o x r f : good h -> (size_db <= o)%nat -> nth_error (v_objs (see h)) o = Some x -> goes_opt h o r (f x) ->
  follows h (or_same h r) (edit_obj (see h) o f).
Proof.
  intros H L E G. rewrite edit_at, E. destruct r as [h'|]; destruct (f x) as [y|]; cbn [goes_opt or_same] in *; try contradiction.
  - apply follows_put; assumption.
  - apply follows_stay, H.
Qed.

Lemma copied_message m b from pkt :
  if_decoded m (match b with Ok c => Ok (SetPacketType (SetFrom c from) pkt) | Err e => Err e | Panic => Panic end) =
  match b with Ok c => new_msg m (SetPacketType (SetFrom c from) pkt) | _ => m end.
Proof. destruct b; reflexivity. Qed.

Theorem step h c : good h -> careful h c -> follows h (perform h c) (on_values (see h) c).
Proof.
  intros GH C. pose proof GH as (H & P). destruct c as
    [l|v i b| |o code|o v|o|o code g s a v|o o' code|o code v|o code|code|o code g s a v|o code|o| |m tid seoj deoj esv|m code v|m o code|v lo hi|d|m n|m|m];
    cbn [perform on_values careful] in *; try contradiction; fold size_db in *.
  - rewrite alloc_eq. cbv beta iota. apply follows_same; [exact GH|apply do_make, H|reflexivity].
  - destruct (nth_error (h_vars h) v) as [(s, own)|] eqn:E.
    + specialize (C s own eq_refl). subst own. unfold var_of. rewrite E. cbn [option_map fst].
      assert (nth v (v_vars (see h)) [] = content (h_arrays h) s) as ->.
      { apply nth_error_nth. rewrite see_var. unfold var_of. rewrite E. reflexivity. }
      destruct (Nat.ltb_spec i (w_len s)) as [L|L].
      * apply follows_same; [exact GH|apply do_write; assumption|reflexivity].
      * assert (set_nth (content (h_arrays h) s) i b = content (h_arrays h) s) as ->.
        { assert (inside (h_arrays h) s) as I by (apply (var_inside h v); [exact H|unfold var_of; rewrite E; reflexivity]).
          rewrite <- (content_len _ _ I) in L. revert i L. generalize (content (h_arrays h) s). intros l. induction l as [|y l IH]; intros [|i] L; cbn in *; try reflexivity; [lia|].
          rewrite IH by lia. reflexivity. }
        rewrite set_nth_id by (rewrite see_var; unfold var_of; rewrite E; reflexivity). replace (mkWorld _ _ _ _) with (see h) by (destruct (see h); reflexivity).
        apply follows_stay, GH.
    + unfold var_of. rewrite E. cbn [option_map].
      assert (forall x, set_nth (v_vars (see h)) v x = v_vars (see h)) as X.
      { assert (nth_error (v_vars (see h)) v = None) as N by (rewrite see_var; unfold var_of; rewrite E; reflexivity).
        revert v E C N. generalize (v_vars (see h)). intros l v _ _. revert v. induction l as [|y l IH]; intros [|v] N x; cbn in *; try reflexivity; [discriminate|].
        rewrite (IH v N). reflexivity. }
      rewrite X. replace (mkWorld _ _ _ _) with (see h) by (destruct (see h); reflexivity). apply follows_stay, GH.
  - apply follows_new; [exact GH|]. apply do_newobj, H.
  - rewrite ltb_at, edit_at. destruct (nth_error (v_objs (see h)) o) as [x|] eqn:E; [|apply follows_stay, GH].
    apply follows_put; [exact GH|exact C|]. apply do_setcode; assumption.
  - rewrite see_var. destruct (var_of h v) as [s|] eqn:V; cbn [option_map]; [|apply follows_stay, GH].
    rewrite ltb_at, edit_at. destruct (nth_error (v_objs (see h)) o) as [x|] eqn:E; [|apply follows_stay, GH].
    apply follows_put; [exact GH|exact C|]. apply do_setcodes; [exact H|exact E|]. eapply var_inside; eassumption.
  - rewrite see_var. destruct (var_of h v) as [src|] eqn:V; cbn [option_map]; [|apply follows_stay, GH].
    rewrite ltb_at, edit_at. destruct (nth_error (v_objs (see h)) o) as [x|] eqn:E; [|apply follows_stay, GH].
    pose proof (do_new h code g s a H) as F. destruct (h_NewProperty h code g s a) as [h1 q]. destruct F as (F & X).
    apply follows_put; [exact GH|exact C|]. apply (do_add h); [|exact E]. apply fresh_data; [exact H|exact F|exact X|]. eapply var_inside; eassumption.
  - rewrite see_var. destruct (var_of h v) as [src|] eqn:V; cbn [option_map]; [|apply follows_stay, GH].
    rewrite ltb_at, edit_at. destruct (nth_error (v_objs (see h)) o) as [x|] eqn:E; [|apply follows_stay, GH].
    apply follows_put; [exact GH|exact C|]. apply do_set; [exact H|exact E|]. eapply var_inside; eassumption.
  - pose proof (lookup_view h o code) as LV. destruct (nth_error (v_objs (see h)) o) as [x|].
    + rewrite LV. destruct (lookup_ptr (h_cells h) (s_props (obj_of h o)) code) as [p|] eqn:L; cbn [option_map]; [|apply follows_stay, GH].
      apply follows_same; [exact GH| |reflexivity]. apply do_keep; [exact H|]. intros k Hk. eapply lookup_range; eassumption.
    + destruct (lookup_ptr (h_cells h) (s_props (obj_of h o)) code) as [p|]; [discriminate|]. apply follows_stay, GH.
  - pose proof (do_device h code H P) as D. destruct (h_NewDevice h code) as [h'|]; destruct (NewDeviceWithCode code) as [x|e|];
      cbn [makes or_same] in *; try contradiction; try (apply follows_stay, GH). apply follows_new; assumption.
  - rewrite see_var. destruct (var_of h v) as [src|] eqn:V; cbn [option_map]; [|apply follows_stay, GH].
    rewrite ltb_at. destruct (nth_error (v_objs (see h)) o) as [x|] eqn:E; [|unfold edit_obj; rewrite E; apply follows_stay, GH].
    pose proof (do_new h code g s a H) as F. destruct (h_NewProperty h code g s a) as [h1 q]. destruct F as (F & X).
    apply (edit_opt h o x); [exact GH|exact C|exact E|]. apply (do_super_add h); [|exact E]. apply fresh_data; [exact H|exact F|exact X|]. eapply var_inside; eassumption.
  - rewrite ltb_at. destruct (nth_error (v_objs (see h)) o) as [x|] eqn:E; [|unfold edit_obj; rewrite E; apply follows_stay, GH].
    apply (edit_opt h o x); [exact GH|exact C|exact E|]. apply do_super_code; assumption.
  - rewrite ltb_at. destruct (nth_error (v_objs (see h)) o) as [x|] eqn:E; [|apply follows_stay, GH].
    apply follows_new; [exact GH|]. apply do_copy; assumption.
  - apply follows_same; [exact GH| |reflexivity]. destruct H as (k & H). constructor; [exists k; apply held_new_msg; [exact H|constructor]| |reflexivity|apply heads_same; reflexivity].
    rewrite see_new_msg. reflexivity.
  - cbn [see v_msgs]. rewrite nth_error_map. destruct (nth_error (h_msgs h) m) as [e|] eqn:E; cbn [option_map]; [|apply follows_stay, GH].
    apply follows_same; [exact GH| |reflexivity]. destruct H as (k & H). pose proof (held_msgs _ _ H) as HM. rewrite Forall_forall in HM. specialize (HM e (nth_error_In _ _ E)).
    constructor; [exists k; apply held_set_msg; [exact H|exact HM]| |reflexivity|apply heads_same; reflexivity].
    rewrite see_set_msg. reflexivity.
  - rewrite see_var. destruct (var_of h v) as [src|] eqn:V; cbn [option_map]; [|apply follows_stay, GH].
    apply follows_same; [exact GH|apply do_add_msg; [exact H|]; eapply var_inside; eassumption|]. unfold add_to_msg. destruct (nth_error (v_msgs (see h)) m); reflexivity.
  - pose proof (lookup_view h o code) as LV. destruct (nth_error (v_objs (see h)) o) as [x|].
    + rewrite LV. destruct (lookup_ptr (h_cells h) (s_props (obj_of h o)) code) as [p|] eqn:L; cbn [option_map]; [|apply follows_stay, GH].
      apply follows_same; [exact GH| |unfold add_to_msg; destruct (nth_error (v_msgs (see h)) m); reflexivity].
      apply do_add_msg; [exact H|]. destruct H as (k & H). eapply lookup_range; eassumption.
    + destruct (lookup_ptr (h_cells h) (s_props (obj_of h o)) code) as [p|]; [discriminate|]. apply follows_stay, GH.
  - rewrite see_var. destruct (var_of h v) as [s|] eqn:V; cbn [option_map]; [|apply follows_stay, GH]. pose proof (var_inside h v s H V) as I.
    unfold sub_window, Go.slice. pose proof (content_len _ _ I) as L. unfold len. rewrite L.
    destruct ((lo <=? hi)%nat && (hi <=? w_len s)%nat) eqn:B.
    + replace ((Z.of_nat lo <? 0) || (Z.of_nat hi <? Z.of_nat lo) || (Z.of_nat (w_len s) <? Z.of_nat hi)) with false by lia.
      replace (Z.to_nat (Z.of_nat hi - Z.of_nat lo)) with (hi - lo)%nat by lia. rewrite Nat2Z.id.
      rewrite <- (sub_content _ _ lo (hi - lo) I) by lia.
      pose proof (do_decode h (mkWindow (w_arr s) (w_off s + lo) (hi - lo)) H ltac:(apply sub_inside; [exact I|lia])) as D.
      destruct (h_Decode h _) as [h'|e|]; destruct (NewMessageWithBytes _) as [x|e'|]; cbn [if_ok if_decoded] in *; try contradiction; try (apply follows_stay, GH).
      apply follows_same; [exact GH|apply D|reflexivity].
    + replace ((Z.of_nat lo <? 0) || (Z.of_nat hi <? Z.of_nat lo) || (Z.of_nat (w_len s) <? Z.of_nat hi)) with true by lia. apply follows_stay, GH.
  - cbn [see v_size]. set (b := firstn (w_len (h_buffer h)) d). destruct (do_buffer h b H) as (G & I & E); [apply firstn_le_length|].
    set (h1 := with_arrays h (store (h_arrays h) (h_buffer h) b)) in *.
    pose proof (do_decode h1 _ (goes_ok _ _ _ G) I) as D. rewrite E in D. change (h_buffer h1) with (h_buffer h).
    destruct (h_Decode h1 _) as [h'|e|]; destruct (NewMessageWithBytes b) as [x|e'|]; cbn [if_ok if_decoded] in *; try contradiction.
    + apply follows_same; [exact GH| |reflexivity]. rewrite (goes_see _ _ _ G) in D. eapply goes_trans; [exact G|apply D].
    + apply follows_same; [exact GH|exact G|reflexivity].
    + apply follows_same; [exact GH|exact G|reflexivity].
  - cbn [see v_msgs]. rewrite nth_error_map. destruct (nth_error (h_msgs h) m) as [e|] eqn:E; cbn [option_map]; [|apply follows_stay, GH].
    unfold see_message. cbn [m_ep Protocol.with_props]. rewrite nth_error_map. destruct (nth_error (e_props e) n) as [p|] eqn:En; cbn [option_map pp_data]; [|apply follows_stay, GH].
    apply follows_same; [exact GH| |reflexivity]. apply do_keep; [exact H|]. intros k Hk. pose proof (held_msgs _ _ Hk) as HM. rewrite Forall_forall in HM.
    specialize (HM e (nth_error_In _ _ E)). rewrite Forall_forall in HM. exact (HM p (nth_error_In _ _ En)).
  - cbn [see v_msgs]. rewrite nth_error_map. destruct (nth_error (h_msgs h) m) as [e|] eqn:E; cbn [option_map]; [|apply follows_stay, GH].
    destruct (Bytes (see_message (h_arrays h) e)) as [b|er|]; try (apply follows_stay, GH). rewrite alloc_eq. cbv beta iota.
    apply follows_same; [exact GH|apply do_make, H|reflexivity].
  - cbn [see v_msgs]. rewrite nth_error_map. destruct (nth_error (h_msgs h) m) as [e|] eqn:E; cbn [option_map]; [|apply follows_stay, GH].
    unfold NewMessageWithMessage, bind. destruct (Bytes (see_message (h_arrays h) e)) as [b|er|]; try (apply follows_stay, GH). rewrite alloc_eq. cbv beta iota.
    rewrite copied_message. destruct H as (k & H). pose proof (held_grow k h b KFrozen H) as H1. pose proof (see_grow k h [b] H) as S1. set (h1 := with_arrays h (h_arrays h ++ [b])) in *.
    assert (ok h1) as O1 by (eexists; exact H1).
    pose proof (do_decode h1 (mkWindow (length (h_arrays h)) 0 (length b)) O1 (whole_inside _ _ (alloc_whole _ _))) as D. cbn [h1 with_arrays h_arrays] in D.
    rewrite alloc_content in D. fold h1 in D.
    destruct (h_Decode h1 _) as [h2|er|]; destruct (NewMessageWithBytes b) as [x|er'|]; try contradiction; try (apply follows_stay, GH).
    destruct D as (D & e2 & E2). rewrite E2. change (h_msgs h1) with (h_msgs h) in *. rewrite nth_error_app2, Nat.sub_diag by lia. cbn [nth_error].
    rewrite set_app_last. destruct D as [(k2 & D1) D2 D3 D4]. rewrite S1 in D2.
    assert (see_message (h_arrays h2) e2 = x) as Ex.
    { apply (f_equal v_msgs) in D2. unfold see, new_msg in D2. cbn [v_msgs] in D2. rewrite E2, map_app in D2. cbn [map] in D2. apply app_inj_tail in D2. apply D2. }
    apply follows_same; [exact GH| |reflexivity]. constructor.
    + exists k2. rewrite <- (set_app_last (h_msgs h) e2), <- E2. apply held_set_msg; [exact D1|]. cbn [e_props]. pose proof (held_msgs _ _ D1) as HM. rewrite E2 in HM. apply Forall_app in HM.
      destruct HM as (_ & HM). apply Forall_inv in HM. exact HM.
    + rewrite <- (set_app_last (h_msgs h) e2), <- E2. rewrite see_set_msg, D2. unfold put_msg, new_msg. cbn [v_vars v_objs v_msgs v_size].
      replace (length (h_msgs h)) with (length (v_msgs (see h))) by (cbn [see v_msgs]; apply map_length). rewrite set_app_last. rewrite <- Ex. reflexivity.
    + exact D3.
    + exact D4.
Qed.

Theorem steps cs : forall h, good h -> all_careful h cs ->
  good (performs h cs) /\ see (performs h cs) = on_values_all (see h) cs.
Proof.
  induction cs as [|c cs IH]; intros h G C; [split; [exact G|reflexivity]|]. destruct C as (C & CS).
  destruct (step h c G C) as (G1 & E1). destruct (IH _ G1 CS) as (G2 & E2). split; [exact G2|]. cbn [on_values_all fold_left]. rewrite <- E1. exact E2.
Qed.

(** ** The start *)

Lemma place_props_spec m : forall a cs n, (n <= length a)%nat ->
  let '(a', cs', ps) := place_props a cs m in
  (exists l, a' = a ++ l) /\
  (exists new, cs' = cs ++ new /\ Forall (fun c => recent n a' (c_data c)) new /\ ps = seq (length cs) (length new) /\ map (see_cell a') new = m).
Proof.
  induction m as [|p m IH]; intros a cs n L; cbn [place_props].
  - split; [exists []; symmetry; apply app_nil_r|]. exists []. split; [symmetry; apply app_nil_r|]. split; [constructor|]. split; reflexivity.
  - rewrite alloc_eq. cbv beta iota. set (c := mkCell (p_code p) (p_get p) (p_set p) (p_anno p) (mkWindow (length a) 0 (length (p_data p)))).
    specialize (IH (a ++ [p_data p]) (cs ++ [c]) n ltac:(rewrite app_length; lia)).
    destruct (place_props (a ++ [p_data p]) (cs ++ [c]) m) as [[a' cs'] ps]. destruct IH as ((l & ->) & new & -> & F & -> & E).
    split; [exists ([p_data p] ++ l); rewrite app_assoc; reflexivity|]. exists (c :: new).
    split; [rewrite <- app_assoc; reflexivity|].
    assert (recent n (a ++ [p_data p]) (c_data c)) as R by (split; [apply whole_inside, alloc_whole|exact L]).
    split; [apply Forall_cons; [apply recent_app, R|exact F]|]. split; [rewrite app_length; cbn [length]; rewrite Nat.add_1_r; reflexivity|].
    cbn [map]. rewrite E. f_equal. rewrite see_cell_app by apply R. unfold see_cell, c. cbn [c_code c_get c_set c_anno c_data]. rewrite alloc_content. destruct p; reflexivity.
Qed.

Lemma numbered_snoc {A} (db : list (Z * A)) k x : numbered (db ++ [(k, x)]) 0 = numbered db 0 ++ [(k, length db)].
Proof.
  unfold numbered. rewrite map_app, app_length. cbn [length map fst]. rewrite Nat.add_1_r, seq_S. cbn [Nat.add].
  generalize (seq 0 (length db)), (seq_length (length db) 0). intros s Ls. rewrite <- (map_length fst db) in Ls. revert s Ls.
  generalize (length db). generalize (map fst db). intros l. induction l as [|y l IH]; intros n [|z s] Ls; cbn in *; try discriminate; [reflexivity|].
  rewrite IH by congruence. reflexivity.
Qed.

Lemma map_seq_cells a cs new : map (fun p => see_cell a (nth p (cs ++ new) no_cell)) (seq (length cs) (length new)) = map (see_cell a) new.
Proof.
  revert cs. induction new as [|c new IH]; intros cs; [reflexivity|]. cbn [length seq map]. rewrite app_nth2, Nat.sub_diag by lia. cbn [nth]. f_equal.
  specialize (IH (cs ++ [c])). rewrite app_length in IH. cbn [length] in IH. rewrite Nat.add_1_r, <- app_assoc in IH. exact IH.
Qed.

Lemma place_spec db : forall h done, ok h -> v_objs (see h) = map snd done -> h_db h = numbered done 0 ->
  let h' := place_objects h db in
  ok h' /\ see h' = mkWorld (v_vars (see h)) (map snd (done ++ db)) (v_msgs (see h)) (v_size (see h)) /\ h_db h' = numbered (done ++ db) 0.
Proof.
  induction db as [|(key, x) db IH]; intros h done H S D; cbn zeta.
  - rewrite app_nil_r. cbn [place_objects]. split; [exact H|]. split; [|exact D]. rewrite <- S. destruct (see h); reflexivity.
  - cbn [place_objects]. rewrite alloc_eq. cbv beta iota.
    pose proof (place_props_spec (o_props x) (h_arrays h ++ [o_codes x]) (h_cells h) (Datatypes.S (length (h_arrays h))) ltac:(rewrite app_length; cbn [length]; lia)) as PP.
    destruct (place_props (h_arrays h ++ [o_codes x]) (h_cells h) (o_props x)) as [[a' cs'] ps]. destruct PP as ((l & ->) & new & -> & F & -> & E).
    set (w := mkWindow (length (h_arrays h)) 0 (length (o_codes x))). set (sh := mkShape w (seq (length (h_cells h)) (length new))).
    set (h1 := mkMemory _ _ _ _ _ _ _).
    destruct H as (k & H).
    assert (held (upd (frozen_from k (length (h_arrays h))) (length (h_arrays h)) (KCodes (length (h_objs h)))) h1) as H1.
    { rewrite <- app_assoc in *. pose proof (held_many k h ([o_codes x] ++ l) H) as [Q1 Q2 Q3 Q4 Q5 Q6 Q7]. cbn [with_arrays h_arrays h_cells h_objs h_msgs h_vars h_buffer] in *.
      assert (forall s, inside (h_arrays h) s -> upd (frozen_from k (length (h_arrays h))) (length (h_arrays h)) (KCodes (length (h_objs h))) (w_arr s) = k (w_arr s)) as U.
      { intros s (L & _). rewrite upd_other by lia. unfold frozen_from. destruct (Nat.ltb_spec (w_arr s) (length (h_arrays h))); [reflexivity|lia]. }
      destruct H as [K1 K2 K3 K4 K5 K6 K7]. unfold h1. constructor; cbn [h_arrays h_cells h_objs h_msgs h_vars h_buffer]; rewrite <- ?app_assoc.
      - intros o y Ey. destruct (Nat.lt_ge_cases o (length (h_objs h))) as [L|L].
        + rewrite nth_error_app1 in Ey by exact L. destruct (K1 o y Ey) as (A & B). split; [apply whole_app, A|]. rewrite U by (apply whole_inside, A). exact B.
        + rewrite nth_error_app2 in Ey by exact L. destruct (o - length (h_objs h))%nat as [|[|n]] eqn:N; cbn in Ey; try discriminate. injection Ey as <-.
          assert (o = length (h_objs h)) as -> by lia. cbn [sh s_codes]. split; [rewrite app_assoc; apply whole_app, alloc_whole|]. cbn [w w_arr]. apply upd_same.
      - apply Forall_app. split.
        + eapply Forall_impl; [|exact K2]. intros c (A & B). split; [apply inside_app, A|]. rewrite U by exact A. exact B.
        + rewrite Forall_forall in *. intros c Ic. destruct (F c Ic) as (A & B). split; [exact A|]. rewrite upd_other by lia. unfold frozen_from. destruct (Nat.ltb_spec (w_arr (c_data c)) (length (h_arrays h))); [lia|reflexivity].
      - eapply Forall_impl; [|exact K3]. intros e. apply Forall_impl. intros p (A & B). split; [apply inside_app, A|]. rewrite U by exact A. exact B.
      - intros v s own Ev. specialize (K4 v s own Ev). destruct own; destruct K4 as (A & B).
        + split; [apply whole_app, A|]. rewrite U by (apply whole_inside, A). exact B.
        + split; [apply inside_app, A|]. rewrite U by exact A. exact B.
      - destruct K5 as (A & B). split; [apply whole_app, A|]. rewrite U by (apply whole_inside, A). exact B.
      - intros o y Ey. destruct (Nat.lt_ge_cases o (length (h_objs h))) as [L|L].
        + rewrite nth_error_app1 in Ey by exact L. destruct (K6 o y Ey) as (A & B). split; [exact A|]. eapply Forall_impl; [|exact B]. intros p Lp. cbn beta in *. rewrite app_length. lia.
        + rewrite nth_error_app2 in Ey by exact L. destruct (o - length (h_objs h))%nat as [|[|n]] eqn:N; cbn in Ey; try discriminate. injection Ey as <-.
          cbn [sh s_props]. split; [apply seq_NoDup|]. apply Forall_forall. intros p Ip. apply in_seq in Ip. rewrite app_length. lia.
      - assert (forall o y p, nth_error (h_objs h ++ [sh]) o = Some y -> In p (s_props y) ->
          nth_error (h_objs h) o = Some y /\ (p < length (h_cells h))%nat \/ o = length (h_objs h) /\ (length (h_cells h) <= p)%nat) as X.
        { intros o y p Ey Ip. destruct (Nat.lt_ge_cases o (length (h_objs h))) as [L|L].
          - rewrite nth_error_app1 in Ey by exact L. left. split; [exact Ey|]. destruct (K6 o y Ey) as (_ & B). rewrite Forall_forall in B. exact (B p Ip).
          - rewrite nth_error_app2 in Ey by exact L. destruct (o - length (h_objs h))%nat as [|[|n]] eqn:N; cbn in Ey; try discriminate. injection Ey as <-.
            right. split; [lia|]. cbn [sh s_props] in Ip. apply in_seq in Ip. lia. }
        intros o y o' y' p Ey Ey' Ip Ip'. destruct (X o y p Ey Ip) as [(A & B)|(A & B)]; destruct (X o' y' p Ey' Ip') as [(A' & B')|(A' & B')]; try lia.
        exact (K7 o y o' y' p A A' Ip Ip'). }
    assert (see h1 = new_obj (see h) x) as S1.
    { unfold h1, see, new_obj. cbn [h_arrays h_cells h_objs h_msgs h_vars h_buffer v_vars v_objs v_msgs v_size].
      pose proof (see_grow k h ([o_codes x] ++ l) H) as SG. rewrite app_assoc in SG. unfold see in SG. cbn [with_arrays h_arrays h_cells h_objs h_msgs h_vars h_buffer] in SG. injection SG as SG1 SG2 SG3.
      rewrite SG1, SG3. f_equal. rewrite map_app, <- SG2. f_equal.
      - apply map_same_at. intros o y Ey. apply see_object_ext; [reflexivity|]. intros p Ip. rewrite app_nth1; [reflexivity|].
        pose proof (proj2 (held_ptrs _ _ H o y Ey)) as B. rewrite Forall_forall in B. exact (B p Ip).
      - cbn [map]. f_equal. unfold see_object, sh. cbn [s_codes s_props]. rewrite map_seq_cells, E, content_app; [|rewrite app_length; cbn [w w_arr length]; lia].
        unfold w. rewrite alloc_content. destruct x; reflexivity. }
    specialize (IH h1 (done ++ [(key, x)])). rewrite <- app_assoc in IH. cbn [app] in IH. cbn zeta in IH. rewrite S1 in IH. apply IH.
    + eexists. exact H1.
    + unfold new_obj. cbn [v_objs]. rewrite map_app, S. reflexivity.
    + cbn [h1 h_db]. rewrite D, numbered_snoc. f_equal. f_equal. f_equal. apply (f_equal (@length _)) in S. rewrite see_objs_len, map_length in S. exact S.
Qed.

Lemma start_good size : good (memory_start size) /\ see (memory_start size) = mkWorld [] (map snd db_objects) [] size.
Proof.
  unfold memory_start. set (h := mkMemory _ _ _ _ _ _ _).
  assert (held (fun _ => KBuffer) h) as H.
  { constructor; cbn [h h_arrays h_cells h_objs h_msgs h_vars h_buffer].
    - intros [|o] x E; discriminate.
    - constructor.
    - constructor.
    - intros [|v] s own E; discriminate.
    - split; [|reflexivity]. split; [cbn; lia|]. split; [reflexivity|]. cbn [w_arr w_len array nth]. unfold zeros. rewrite Nat2Z.id, repeat_length. reflexivity.
    - intros [|o] x E; discriminate.
    - intros [|o] x o' x' p E; discriminate. }
  destruct (place_spec db_objects h [] (ex_intro _ _ H) eq_refl eq_refl) as (O & S & D). cbn [app] in S, D. cbv zeta in *.
  split; [|exact S]. split; [exact O|]. split; [exact D|]. rewrite S. cbn [v_objs]. unfold size_db. rewrite <- (map_length snd db_objects). apply firstn_all.
Qed.

(** ** Deciding care *)

Definition carefulb (h : memory) (c : call) : bool :=
  match c with
  | AWrite v _ _ => match nth_error (h_vars h) v with Some (_, own) => own | None => true end
  | ACodes _ | AShare _ _ _ => false
  | ASetCode o _ | ASetCodes o _ | AAddProperty o _ _ _ _ _ | ASetPropertyData o _ _
  | ASuperAddProperty o _ _ _ _ _ | ASuperSetCode o _ => (length db_objects <=? o)%nat
  | _ => true
  end.
Fixpoint all_carefulb (h : memory) (cs : list call) : bool :=
  match cs with [] => true | c :: cs => carefulb h c && all_carefulb (perform h c) cs end.

Lemma carefulb_ok h c : carefulb h c = true -> careful h c.
Proof.
  destruct c; cbn [carefulb careful]; try discriminate; try (intros _; exact I); try apply Nat.leb_le.
  intros B s own E. rewrite E in B. exact B.
Qed.
Lemma all_carefulb_ok cs : forall h, all_carefulb h cs = true -> all_careful h cs.
Proof.
  induction cs as [|c cs IH]; intros h B; cbn [all_carefulb all_careful] in *; [exact I|]. apply andb_prop in B. split; [apply carefulb_ok, B|apply IH, B].
Qed.
