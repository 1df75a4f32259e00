(** Facts for C107: an object that is reached by pointers and the value of that
    object change alike. *)

From Verif Require Import Go GoFacts Encoding EncodingFacts Protocol StdDB Property PropertyFacts Object ObjectFacts
  Node NodeFacts Owner OwnerFacts Values.
Local Open Scope Z_scope.

(** ** What a pointer sees *)

Definition entry (w : state) (o : nat) (kp : Z * nat) (q : property) : Prop :=
  cell_at w (snd kp) = Some (mkCell q (Some o)) /\ p_code q = fst kp.

Definition sees (w : state) (o : nat) (obj : object) : Prop :=
  exists t, thing_at w o = Some t /\ code3 obj /\ o_codes obj = IntegerToByte (t_code t) 3 /\ Code obj = t_code t /\
    Forall2 (entry w o) (t_props t) (o_props obj) /\ NoDup (map fst (t_props t)).

(** who is heard when a property of [o] is announced *)
Definition voice (w : state) (o : nat) (code : Z) (ev : list pprop) : list shout :=
  match x_ObjNode w o with
  | None => []
  | Some n =>
      match site_at w n with
      | None => []
      | Some s => if s_local s && s_running s then map (mkShout n code) ev else []
      end
  end.

Record others (o : nat) (w w' : state) : Prop := {
  h_sites : sites w' = sites w;
  h_count : length (things w') = length (things w);
  h_things : forall x, x <> o -> thing_at w' x = thing_at w x;
  h_node : x_ObjNode w' o = x_ObjNode w o;
  h_cells : forall p c x, x <> o -> cell_at w p = Some c -> c_object c = Some x -> cell_at w' p = Some c }.

Lemma others_refl o w : others o w w.
Proof. split; auto. Qed.

Lemma others_trans o w1 w2 w3 : others o w1 w2 -> others o w2 w3 -> others o w1 w3.
Proof.
  intros A B. split.
  - rewrite (h_sites _ _ _ B). apply (h_sites _ _ _ A).
  - rewrite (h_count _ _ _ B). apply (h_count _ _ _ A).
  - intros x N. rewrite (h_things _ _ _ B x N). apply (h_things _ _ _ A x N).
  - rewrite (h_node _ _ _ B). apply (h_node _ _ _ A).
  - intros p c x N H E. apply (h_cells _ _ _ B p c x N); [|exact E]. apply (h_cells _ _ _ A p c x N H E).
Qed.

Lemma others_node o w w' x : others o w w' -> x_ObjNode w' x = x_ObjNode w x.
Proof.
  intros A. destruct (Nat.eq_dec x o) as [->|N]; [apply (h_node _ _ _ A)|].
  unfold x_ObjNode. rewrite (h_things _ _ _ A x N). reflexivity.
Qed.

Lemma others_voice o w w' : others o w w' -> voice w' o = voice w o.
Proof. intros A. unfold voice, site_at. rewrite (h_node _ _ _ A), (h_sites _ _ _ A). reflexivity. Qed.

Lemma others_sees o w w' x obj : others o w w' -> x <> o -> sees w x obj -> sees w' x obj.
Proof.
  intros A N (t & T & C & K & L & F & D). exists t. rewrite (h_things _ _ _ A x N). repeat split; try assumption; try apply C.
  clear T D. induction F as [|kp q m l (E & P) F IH]; constructor; [|exact IH].
  split; [|exact P]. exact (h_cells _ _ _ A _ _ x N E eq_refl).
Qed.

(** ** Simulation of a piece of code that works on one object *)

Definition change : Type := object -> option (object * list pprop).

Definition sim (o : nat) (f : act) (F : change) : Prop :=
  forall w obj obj' ev, sees w o obj -> F obj = Some (obj', ev) ->
    sees (fst (f w)) o obj' /\ o_codes obj' = o_codes obj /\
    snd (f w) = voice w o (Code obj) ev /\ others o w (fst (f w)).

Definition chain (F G : change) : change := fun obj =>
  match F obj with
  | None => None
  | Some (o1, e1) => match G o1 with None => None | Some (o2, e2) => Some (o2, e1 ++ e2) end
  end.

Definition stay : change := fun obj => Some (obj, []).

Lemma voice_nil w o c : voice w o c [] = [].
Proof.
  unfold voice. destruct (x_ObjNode w o) as [n|]; [|reflexivity]. destruct (site_at w n) as [s|]; [|reflexivity].
  destruct (s_local s && s_running s); reflexivity.
Qed.

Lemma voice_app w o c a b : voice w o c (a ++ b) = voice w o c a ++ voice w o c b.
Proof.
  unfold voice. destruct (x_ObjNode w o) as [n|]; [|reflexivity]. destruct (site_at w n) as [s|]; [|reflexivity].
  destruct (s_local s && s_running s); [apply map_app|reflexivity].
Qed.

Lemma sim_skip o : sim o skip stay.
Proof.
  intros w obj obj' ev S E. injection E as <- <-. repeat split; [exact S|symmetry; apply voice_nil|apply others_refl..].
Qed.

Lemma same_codes a b : o_codes a = o_codes b -> Code a = Code b.
Proof. unfold Code. intros ->. reflexivity. Qed.

Lemma sim_andthen o f g F G : sim o f F -> sim o g G -> sim o (andthen f g) (chain F G).
Proof.
  intros Hf Hg w obj obj' ev S E. unfold chain in E.
  destruct (F obj) as [(o1, e1)|] eqn:EF; [|discriminate E].
  destruct (G o1) as [(o2, e2)|] eqn:EG; [|discriminate E]. injection E as <- <-.
  destruct (Hf _ _ _ _ S EF) as (S1 & C1 & V1 & A1).
  destruct (Hg _ _ _ _ S1 EG) as (S2 & C2 & V2 & A2).
  rewrite fst_andthen, snd_andthen. repeat split.
  - exact S2.
  - congruence.
  - rewrite V1, V2, (others_voice _ _ _ A1), (same_codes _ _ C1), voice_app. reflexivity.
  - apply (others_trans _ _ _ _ A1 A2).
  - apply (others_trans _ _ _ _ A1 A2).
  - apply (others_trans _ _ _ _ A1 A2).
  - apply (others_trans _ _ _ _ A1 A2).
  - apply (others_trans _ _ _ _ A1 A2).
Qed.

Lemma sim_ext o f F G : sim o f F -> (forall x, G x = F x) -> sim o f G.
Proof. intros H E w obj obj' ev S Q. apply H; [exact S|]. rewrite <- E. exact Q. Qed.

(** ** The map *)

Lemma look_some w o m l k p : Forall2 (entry w o) m l -> look m k = Some p ->
  exists q, cell_at w p = Some (mkCell q (Some o)) /\ p_code q = k /\ LookupProperty l k = Some q.
Proof.
  induction 1 as [|(k0, p0) q m l (E & P) F IH]; cbn; [discriminate|]. cbn [fst snd] in E, P.
  rewrite P. destruct (k0 =? k) eqn:K.
  - intros [= <-]. exists q. apply Z.eqb_eq in K. repeat split; congruence.
  - exact IH.
Qed.

Lemma look_none w o m l k : Forall2 (entry w o) m l -> look m k = None -> LookupProperty l k = None.
Proof.
  induction 1 as [|(k0, p0) q m l (E & P) F IH]; cbn; [reflexivity|]. cbn [fst snd] in E, P.
  rewrite P. destruct (k0 =? k); [discriminate|exact IH].
Qed.

Lemma entries_keys w o m l : Forall2 (entry w o) m l -> map fst m = map p_code l.
Proof. induction 1 as [|kp q m l (E & P) F IH]; cbn; congruence. Qed.

Lemma look_key m k p : look m k = Some p -> In k (map fst m).
Proof.
  induction m as [|(k0, p0) m IH]; cbn; [discriminate|]. destruct (k0 =? k) eqn:K.
  - intros _. left. apply Z.eqb_eq, K.
  - intros H. right. apply IH, H.
Qed.

(** writing the property under [k] *)
Lemma entries_set w o m l k p q d : Forall2 (entry w o) m l -> NoDup (map fst m) -> look m k = Some p ->
  cell_at w p = Some (mkCell q (Some o)) ->
  Forall2 (entry (put_cell w p (mkCell (with_data q d) (Some o))) o) m (set_data l k d).
Proof.
  intros F D L C. assert (Q : p_code q = k).
  { destruct (look_some _ _ _ _ _ _ F L) as (q' & C' & P & _). congruence. }
  assert (G : forall p', cell_at (put_cell w p (mkCell (with_data q d) (Some o))) p' =
                         if Nat.eqb p p' then Some (mkCell (with_data q d) (Some o)) else cell_at w p').
  { intros p'. unfold cell_at, put_cell in *; cbn. rewrite nth_set. destruct (Nat.eqb p p') eqn:E; [|reflexivity].
    apply Nat.eqb_eq in E. subst p'. rewrite C. reflexivity. }
  subst k. revert D L. induction F as [|(k0, p0) q0 m l (E & P) F IH]; intros D L; cbn [set_data]; [constructor|].
  cbn [fst snd] in E, P. cbn in D. apply NoDup_cons_iff in D as (N & D'). cbn in L. rewrite P. destruct (k0 =? p_code q) eqn:K.
  - injection L as <-. rewrite C in E. injection E as <-. constructor.
    + split; [cbn [snd]; rewrite G, Nat.eqb_refl; reflexivity|exact P].
    + clear IH D'. rewrite (entries_keys _ _ _ _ F) in N. clear K.
      induction F as [|(k1, p1) q1 m l (E & P1) F IH]; constructor.
      * cbn [fst snd] in E, P1. split; [|exact P1]. cbn [snd]. rewrite G. destruct (Nat.eqb p0 p1) eqn:X; [|exact E].
        apply Nat.eqb_eq in X. subst p1. rewrite C in E. injection E as <-. exfalso. apply N. left. congruence.
      * apply IH. intros I. apply N. right. exact I.
  - constructor; [|apply IH; assumption]. split; [|exact P]. cbn [snd]. rewrite G. destruct (Nat.eqb p p0) eqn:X; [|exact E].
    apply Nat.eqb_eq in X. subst p0. rewrite C in E. injection E as <-. apply Z.eqb_neq in K. congruence.
Qed.

(** ** Object code, listed *)

Definition setting (k : Z) (d : list Z) : change := fun obj =>
  let '(obj', ev, _) := SetPropertyData obj k d in Some (obj', ev).

Lemma cell_put w p c c0 : cell_at w p = Some c0 -> forall q,
  cell_at (put_cell w p c) q = if Nat.eqb p q then Some c else cell_at w q.
Proof.
  intros C q. unfold cell_at, put_cell in *; cbn. rewrite nth_set. destruct (Nat.eqb p q) eqn:E; [|reflexivity].
  apply Nat.eqb_eq in E. subst q. rewrite C. reflexivity.
Qed.

Lemma sim_SetPropertyData o k d : sim o (x_SetPropertyData o k d) (setting k d).
Proof.
  intros w obj obj' ev (t & T & C3 & CO & CC & F & D) E.
  unfold setting, SetPropertyData, SetPropertyDataMap in E.
  unfold x_SetPropertyData, x_LookupProperty. rewrite T. destruct (look (t_props t) k) as [p|] eqn:L.
  - destruct (look_some _ _ _ _ _ _ F L) as (q & C & Q & LQ). rewrite LQ in E. cbn in E. injection E as <- <-.
    unfold x_SetData. rewrite C. cbv zeta. cbn [fst snd c_prop c_object].
    pose proof (cell_put w p (mkCell (with_data q d) (Some o)) _ C) as G.
    assert (A : others o w (put_cell w p (mkCell (with_data q d) (Some o)))).
    { split; try reflexivity. intros p' c x N H X. rewrite G. destruct (Nat.eqb p p') eqn:Y; [|exact H].
      apply Nat.eqb_eq in Y. subst p'. rewrite C in H. injection H as <-. cbn in X. congruence. }
    split; [|split; [reflexivity|split; [|exact A]]].
    + exists t. repeat split; try assumption; try apply C3. apply entries_set; assumption.
    + unfold announcement. rewrite <- (others_voice _ _ _ A). unfold x_Announce, x_Node, x_Object, voice.
      rewrite G, Nat.eqb_refl. cbn [c_object].
      replace (IsAnnounceable (with_data q d)) with (IsAnnounceable q) by reflexivity.
      destruct (IsAnnounceable q).
      * destruct (x_ObjNode (put_cell w p (mkCell (with_data q d) (Some o))) o) as [n|]; [|reflexivity].
        destruct (site_at (put_cell w p (mkCell (with_data q d) (Some o))) n) as [s|]; [|reflexivity].
        destruct (s_local s && s_running s); [|reflexivity].
        unfold x_AnnounceProperty. rewrite G, Nat.eqb_refl. cbn [c_object c_prop].
        change (thing_at (put_cell w p (mkCell (with_data q d) (Some o))) o) with (thing_at w o). rewrite T. rewrite CC. reflexivity.
      * destruct (x_ObjNode (put_cell w p (mkCell (with_data q d) (Some o))) o) as [n|]; [|reflexivity].
        destruct (site_at (put_cell w p (mkCell (with_data q d) (Some o))) n) as [s|]; [|reflexivity].
        destruct (s_local s && s_running s); reflexivity.
  - rewrite (look_none _ _ _ _ _ F L) in E. cbn in E. injection E as <- <-. cbn [fst snd].
    split; [exists t; repeat split; try assumption; apply C3|].
    split; [reflexivity|]. split; [symmetry; apply voice_nil|apply others_refl].
Qed.

Lemma codes_seen w o obj f : sees w o obj -> x_codes w o f = map_codes f obj.
Proof.
  intros (t & T & _ & _ & _ & F & D). unfold x_codes, x_Properties, map_codes, Properties, Properties_order. rewrite T.
  rewrite (entries_keys _ _ _ _ F). induction (sort_z (map p_code (o_props obj))) as [|k l IH]; [reflexivity|].
  cbn [flat_map]. rewrite flat_map_app, filter_app, map_app, <- IH. f_equal.
  destruct (look (t_props t) k) as [p|] eqn:L.
  - destruct (look_some _ _ _ _ _ _ F L) as (q & C & Q & ->). cbn [flat_map filter]. rewrite C. cbn [c_prop].
    destruct (f q); reflexivity.
  - rewrite (look_none _ _ _ _ _ F L). reflexivity.
Qed.

Definition putting (m : Z * list Z) : change := fun obj =>
  match setPropertyMapProperty obj (fst m) (snd m) with
  | None => None
  | Some (obj', ev, _) => Some (obj', ev)
  end.

Lemma sim_setMap o m : sim o (x_setPropertyMap o m) (putting m).
Proof.
  intros w obj obj' ev S E. unfold putting, setPropertyMapProperty in E. unfold x_setPropertyMap.
  destruct (HasProp (o_props obj) (fst m)) eqn:H; cbn in E.
  - destruct (propertyMapBytes (snd m)) as [d|e|].
    + apply (sim_SetPropertyData o (fst m) d); [exact S|]. unfold setting.
      destruct (SetPropertyData obj (fst m) d) as ((a, b), c). exact E.
    + injection E as <- <-. apply sim_skip; [exact S|reflexivity].
    + discriminate E.
  - injection E as <- <-. unfold HasProp in H. destruct (LookupProperty (o_props obj) (fst m)) eqn:L; [discriminate H|].
    destruct (propertyMapBytes (snd m)) as [d|e|]; try (apply sim_skip; [exact S|reflexivity]).
    apply (sim_SetPropertyData o (fst m) d); [exact S|]. unfold setting, SetPropertyData, SetPropertyDataMap.
    rewrite L. cbn. destruct obj; reflexivity.
Qed.

Definition updating : change := fun obj =>
  match updatePropertyMap obj with
  | None => None
  | Some (obj', ev, _) => Some (obj', ev)
  end.

Lemma sim_update o : sim o (x_updatePropertyMap o) updating.
Proof.
  intros w obj obj' ev S E. unfold x_updatePropertyMap. rewrite !(codes_seen _ _ _ _ S). cbn [each].
  set (m1 := (ObjectGetPropertyMap, map_codes IsReadable obj)).
  set (m2 := (ObjectSetPropertyMap, map_codes IsWritable obj)).
  set (m3 := (ObjectAnnoPropertyMap, map_codes IsAnnounceable obj)).
  assert (H : sim o (andthen (x_setPropertyMap o m1) (andthen (x_setPropertyMap o m2) (andthen (x_setPropertyMap o m3) skip)))
                (chain (putting m1) (chain (putting m2) (chain (putting m3) stay))))
    by (repeat apply sim_andthen; try apply sim_setMap; apply sim_skip).
  apply H; [exact S|]. clear H. revert E. unfold updating, updatePropertyMap. cbv zeta. cbn [fold_left].
  fold m1 m2 m3. unfold chain, putting, stay.
  destruct (setPropertyMapProperty obj (fst m1) (snd m1)) as [((o1, e1), r1)|]; [|intros H; exact H].
  destruct (setPropertyMapProperty o1 (fst m2) (snd m2)) as [((o2, e2), r2)|]; [|intros H; exact H].
  destruct (setPropertyMapProperty o2 (fst m3) (snd m3)) as [((o3, e3), r3)|]; [|intros H; exact H].
  cbn [app]. rewrite app_nil_r, <- app_assoc. intros H; exact H.
Qed.

(** ** A new property *)

Definition x_fresh (o : nat) (q : property) : act := fun w =>
  andthen (x_NewProperty q None) (x_AddProperty o (length (cells w))) w.

Definition entering (q : property) : change := fun obj => Some (Obj_AddProperty obj q, []).

Lemma cell_len w : cell_at w (length (cells w)) = None.
Proof. apply nth_error_None. lia. Qed.

Lemma cell_lt w p c : cell_at w p = Some c -> (p < length (cells w))%nat.
Proof. intros H. apply nth_error_Some. unfold cell_at in H. congruence. Qed.

Lemma enter_keys m k p : NoDup (map fst m) -> NoDup (map fst (enter m k p)) /\
  (forall x, In x (map fst (enter m k p)) -> x = k \/ In x (map fst m)).
Proof.
  induction m as [|(k0, p0) m IH]; cbn; intros D.
  - split; [constructor; [intros []|constructor]|intros x [<-|[]]; auto].
  - apply NoDup_cons_iff in D as (N & D'). destruct (k0 =? k) eqn:K.
    + apply Z.eqb_eq in K. subst k0. cbn. split; [constructor; assumption|]. intros x [<-|I]; auto.
    + apply Z.eqb_neq in K. destruct (IH D') as (A & B). cbn. split.
      * constructor; [|exact A]. intros I. destruct (B _ I) as [X|X]; [congruence|contradiction].
      * intros x [<-|I]; [auto|]. destruct (B _ I); auto.
Qed.

Lemma sim_fresh o q : sim o (x_fresh o q) (entering q).
Proof.
  intros w obj obj' ev (t & T & C3 & CO & CC & F & D) E. injection E as <- <-.
  set (p := length (cells w)).
  set (w' := mkState (cells w ++ [mkCell q (Some o)])
                     (set_nth (things w) o (mkThing (t_code t) (enter (t_props t) (p_code q) p) (t_node t))) (sites w)).
  assert (W : x_fresh o q w = (w', [])).
  { unfold x_fresh, andthen, x_NewProperty, x_AddProperty, silent. fold p.
    change (thing_at (mkState (cells w ++ [mkCell q None]) (things w) (sites w)) o) with (thing_at w o).
    rewrite T. unfold cell_at. cbn [cells]. unfold p at 1. rewrite nth_app_new. cbn [c_prop].
    unfold put_cell, put_thing, w'. cbn [cells things sites]. do 2 f_equal.
    unfold p. clear. induction (cells w) as [|c l IH]; cbn; [reflexivity|]. rewrite IH. reflexivity. }
  rewrite W. cbn [fst snd].
  assert (TO : forall x, thing_at w' x =
    if Nat.eqb o x then Some (mkThing (t_code t) (enter (t_props t) (p_code q) p) (t_node t)) else thing_at w x).
  { intros x. unfold thing_at, w' in *. cbn [things]. rewrite nth_set. destruct (Nat.eqb o x) eqn:X; [|reflexivity].
    apply Nat.eqb_eq in X. subst x. rewrite T. reflexivity. }
  assert (CE : forall p' c, cell_at w p' = Some c -> cell_at w' p' = Some c).
  { intros p' c H. unfold cell_at, w' in *. cbn [cells]. apply nth_app_old. exact H. }
  split; [|split; [reflexivity|split; [symmetry; apply voice_nil|]]].
  - exists (mkThing (t_code t) (enter (t_props t) (p_code q) p) (t_node t)). rewrite TO, Nat.eqb_refl. cbn [t_code t_props].
    split; [reflexivity|]. split; [exact C3|]. split; [exact CO|]. split; [exact CC|]. split; [|apply enter_keys, D].
    cbn [Obj_AddProperty with_props o_props]. clear D T CO CC TO W. 
    assert (N : entry w' o (p_code q, p) q).
    { split; [|reflexivity]. cbn [snd]. unfold cell_at, w'. cbn [cells]. apply nth_app_new. }
    clearbody w' p. induction F as [|(k0, p0) q0 m l (A & B) F IH]; cbn [enter AddPropertyMap]; [constructor; [exact N|constructor]|].
    cbn [fst snd] in A, B. rewrite B. destruct (k0 =? p_code q).
    + constructor; [exact N|]. clear IH. induction F as [|(k1, p1) q1 m' l' (A1 & B1) F' IH]; constructor; [|exact IH].
      split; [apply CE, A1|exact B1].
    + constructor; [split; [apply CE, A|exact B]|exact IH].
  - split.
    + reflexivity.
    + unfold w'. cbn [things]. apply len_set.
    + intros x N. rewrite TO. destruct (Nat.eqb o x) eqn:X; [apply Nat.eqb_eq in X; congruence|reflexivity].
    + unfold x_ObjNode. rewrite TO, Nat.eqb_refl, T. reflexivity.
    + intros p' c x _ H _. apply CE, H.
Qed.

Definition adding (q : property) : change := fun obj => Super_AddProperty obj q.

Definition x_AddFresh (o : nat) (q : property) : act := fun w =>
  andthen (x_NewProperty q None) (x_Super_AddProperty o (length (cells w))) w.

Lemma andthen_assoc f g h w : andthen (andthen f g) h w = andthen f (andthen g h) w.
Proof.
  unfold andthen. destruct (f w) as (w1, s1). destruct (g w1) as (w2, s2). destruct (h w2) as (w3, s3).
  rewrite app_assoc. reflexivity.
Qed.

Lemma AddFresh_eq o q w : x_AddFresh o q w = andthen (x_fresh o q) (x_updatePropertyMap o) w.
Proof.
  unfold x_AddFresh, x_fresh, x_Super_AddProperty. rewrite <- andthen_assoc. unfold andthen at 1 3. reflexivity.
Qed.

Lemma sim_AddFresh o q : sim o (x_AddFresh o q) (adding q).
Proof.
  intros w obj obj' ev S E. rewrite AddFresh_eq.
  apply (sim_andthen _ _ _ _ _ (sim_fresh o q) (sim_update o)); [exact S|]. revert E.
  unfold adding, Super_AddProperty, chain, entering, updating.
  destruct (updatePropertyMap (Obj_AddProperty obj q)) as [((o1, e1), r1)|]; intros H; exact H.
Qed.

Definition standard (code : Z) : change := fun obj => addStandardPropertiesWithCode obj code.

Lemma fold_none {A} (g : option (object * list pprop) -> A -> option (object * list pprop)) (l : list A) :
  (forall x, g None x = None) -> fold_left g l None = None.
Proof. intros H. induction l; cbn; [reflexivity|]. rewrite H. exact IHl. Qed.

Lemma sim_copies o l : sim o (each l (x_AddCopy o)) (fun obj =>
  fold_left (fun acc stdProp =>
          match acc with
          | None => None
          | Some (o, ev) =>
              match Super_AddProperty o (prop_Copy stdProp) with
              | None => None
              | Some (o', ev') => Some (o', ev ++ ev')
              end
          end) l (Some (obj, []))).
Proof.
  set (g := fun (acc : option (object * list pprop)) (stdProp : property) =>
          match acc with
          | None => None
          | Some (o, ev) =>
              match Super_AddProperty o (prop_Copy stdProp) with
              | None => None
              | Some (o', ev') => Some (o', ev ++ ev')
              end
          end).
  assert (P : forall l obj ev, fold_left g l (Some (obj, ev)) =
    match fold_left g l (Some (obj, [])) with None => None | Some (o', ev') => Some (o', ev ++ ev') end).
  { clear. induction l as [|x l IH]; intros obj ev; cbn [fold_left]; [rewrite app_nil_r; reflexivity|]. cbn [g].
    destruct (Super_AddProperty obj (prop_Copy x)) as [(o1, e1)|].
    - rewrite (IH o1 (ev ++ e1)), (IH o1 ([] ++ e1)). destruct (fold_left g l (Some (o1, []))) as [(o2, e2)|]; [|reflexivity].
      cbn [app]. rewrite app_assoc. reflexivity.
    - rewrite fold_none by reflexivity. reflexivity. }
  induction l as [|x l IH].
  - apply sim_skip.
  - cbn [each fold_left]. apply (sim_ext o _ (chain (adding (prop_Copy x)) (fun obj => fold_left g l (Some (obj, []))))).
    + apply sim_andthen; [|exact IH]. exact (sim_AddFresh o (prop_Copy x)).
    + intros obj. unfold chain, adding. cbn [g]. destruct (Super_AddProperty obj (prop_Copy x)) as [(o1, e1)|].
      * rewrite P. reflexivity.
      * apply fold_none. reflexivity.
Qed.

Lemma sim_standard o code : sim o (x_addStandard o code) (standard code).
Proof.
  unfold x_addStandard, standard, addStandardPropertiesWithCode. destruct (DB_LookupObject code) as [std|].
  - apply sim_copies.
  - apply sim_skip.
Qed.

(** ** Code changes *)

Definition fits (o : nat) (f : act) (F : change) : Prop :=
  forall w obj obj' ev, sees w o obj -> F obj = Some (obj', ev) ->
    sees (fst (f w)) o obj' /\ snd (f w) = voice w o (Code obj') ev /\ others o w (fst (f w)).

Lemma sim_fits o f F : sim o f F -> fits o f F.
Proof.
  intros H w obj obj' ev S E. destruct (H _ _ _ _ S E) as (S' & C & V & A). repeat split; try apply A; [exact S'|].
  rewrite V, (same_codes _ _ C). reflexivity.
Qed.

Lemma seen_SetCode1 o code w obj : sees w o obj ->
  sees (fst (x_Obj_SetCode o code w)) o (Obj_SetCode obj code) /\ others o w (fst (x_Obj_SetCode o code w)).
Proof.
  intros (t & T & C3 & CO & CC & F & D). unfold x_Obj_SetCode, silent. cbn [fst]. rewrite T.
  set (t' := mkThing (ByteToInteger (IntegerToByte code 3)) (t_props t) (t_node t)).
  assert (TO : forall x, thing_at (put_thing w o t') x = if Nat.eqb o x then Some t' else thing_at w x).
  { intros x. unfold thing_at, put_thing in *. cbn [things]. rewrite nth_set. destruct (Nat.eqb o x) eqn:X; [|reflexivity].
    apply Nat.eqb_eq in X. subst x. rewrite T. reflexivity. }
  assert (L : length (o_codes obj) = 3%nat) by apply C3.
  split.
  - exists t'. rewrite TO, Nat.eqb_refl. unfold Obj_SetCode, Code. rewrite L. cbn [with_codes o_codes o_props t_code t_props t'].
    assert (B : is_bytes (IntegerToByte code 3)) by apply IntegerToByte_bytes.
    assert (B3 : length (IntegerToByte code 3) = 3%nat) by apply IntegerToByte_length.
    split; [reflexivity|]. split; [split; assumption|]. split; [|split; [reflexivity|split; [exact F|exact D]]].
    assert (X := IntegerToByte_ByteToInteger (IntegerToByte code 3) B ltac:(rewrite B3; lia)).
    rewrite B3 in X. symmetry. exact X.
  - split.
    + reflexivity.
    + apply len_put.
    + intros x N. rewrite TO. destruct (Nat.eqb o x) eqn:X; [apply Nat.eqb_eq in X; congruence|reflexivity].
    + unfold x_ObjNode. rewrite TO, Nat.eqb_refl, T. reflexivity.
    + intros p c x _ H _. exact H.
Qed.

Definition recoding (code : Z) : change := fun obj => Super_SetCode obj code.

Lemma fits_SetCode o code : fits o (x_SetCode o code) (recoding code).
Proof.
  intros w obj obj' ev S E. unfold recoding, Super_SetCode in E. cbv zeta in E.
  destruct (seen_SetCode1 o code w obj S) as (S1 & A1).
  assert (K : Code (Obj_SetCode obj code) = ByteToInteger (IntegerToByte code 3)).
  { destruct S as (t & _ & (L & _) & _). unfold Code, Obj_SetCode. rewrite L. reflexivity. }
  rewrite K in E. destruct (sim_standard o _ _ _ _ _ S1 E) as (S2 & C2 & V2 & A2).
  unfold x_SetCode. rewrite fst_andthen, snd_andthen. split; [exact S2|]. split; [|apply (others_trans _ _ _ _ A1 A2)].
  rewrite V2, (others_voice _ _ _ A1), (same_codes _ _ C2). reflexivity.
Qed.

(** ** New objects *)

Lemma seen_new w : let o := length (things w) in let w1 := fst (x_newObject w) in
  sees w1 o newObject /\ x_ObjNode w1 o = None.
Proof.
  cbv zeta. assert (T : thing_at (fst (x_newObject w)) (length (things w)) = Some (mkThing 0 [] None))
    by (unfold thing_at; cbn; apply nth_app_new).
  split; [|unfold x_ObjNode; rewrite T; reflexivity].
  exists (mkThing 0 [] None). split; [exact T|]. split; [apply code3_zero|]. split; [reflexivity|]. split; [reflexivity|].
  split; constructor.
Qed.

Lemma voice_none w o c ev : x_ObjNode w o = None -> voice w o c ev = [].
Proof. unfold voice. intros ->. reflexivity. Qed.

(** what a making of an object does *)
Definition makes (f : nat -> act) (obj : object) : Prop := forall w,
  let o := length (things w) in
  sees (fst (f o w)) o obj /\ others o (fst (x_newObject w)) (fst (f o w)) /\ snd (f o w) = [].

Lemma makes_NewSuper obj : NewSuperObject = Some obj -> makes x_NewSuper obj.
Proof.
  intros E w o. unfold NewSuperObject in E. cbv zeta in E.
  destruct (addStandardPropertiesWithCode (Obj_SetCode newObject 0) 0) as [(o1, e1)|] eqn:E1; [|discriminate E].
  destruct (updatePropertyMap o1) as [((o2, e2), r2)|] eqn:E2; [|discriminate E]. injection E as <-.
  destruct (seen_new w) as (S0 & N0). fold o in S0, N0. set (w1 := fst (x_newObject w)) in *.
  destruct (seen_SetCode1 o 0 w1 newObject S0) as (S1 & A1).
  destruct (sim_standard o 0 _ _ _ _ S1 E1) as (S2 & C2 & V2 & A2).
  assert (E3 : updating o1 = Some (o2, e2)) by (unfold updating; rewrite E2; reflexivity).
  destruct (sim_update o _ _ _ _ S2 E3) as (S3 & C3 & V3 & A3).
  unfold x_NewSuper. rewrite !fst_andthen, !snd_andthen. fold w1.
  split; [exact S3|]. split; [exact (others_trans _ _ _ _ A1 (others_trans _ _ _ _ A2 A3))|].
  rewrite V2, V3, (others_voice _ _ _ A2), (others_voice _ _ _ A1), !voice_none by exact N0. reflexivity.
Qed.

Lemma makes_then f obj code obj' ev : makes f obj -> Super_SetCode obj code = Some (obj', ev) ->
  makes (fun o => andthen (f o) (x_SetCode o code)) obj'.
Proof.
  intros M E w o. destruct (M w) as (S & A & V). fold o in S, A, V.
  destruct (fits_SetCode o code _ _ _ _ S E) as (S' & V' & A'). rewrite fst_andthen, snd_andthen, V, V'.
  split; [exact S'|]. split; [exact (others_trans _ _ _ _ A A')|].
  rewrite (others_voice _ _ _ A). apply voice_none. apply (seen_new w).
Qed.

Lemma makes_device code obj : NewDeviceWithCode code = Ok obj ->
  makes (fun o => andthen (x_NewSuper o) (x_SetCode o code)) obj.
Proof.
  intros E. unfold NewDeviceWithCode in E. destruct NewSuperObject as [o0|] eqn:E0; [|discriminate E].
  destruct (DB_LookupObject code); [|discriminate E].
  destruct (Super_SetCode o0 code) as [(o1, e1)|] eqn:E1; [|discriminate E]. injection E as <-.
  exact (makes_then _ _ _ _ _ (makes_NewSuper _ E0) E1).
Qed.

Lemma makes_profile obj : NewNodeProfile = Ok obj ->
  makes (fun o => andthen (andthen (x_NewSuper o) (x_SetCode o NodeProfileObjectCode)) (x_SetCode o NodeProfileObjectCode)) obj.
Proof.
  intros E. unfold NewNodeProfile, NewProfile, NewProfileWithCode in E.
  destruct NewSuperObject as [o0|] eqn:E0; [|discriminate E].
  destruct (Super_SetCode o0 NodeProfileObjectCode) as [(o1, e1)|] eqn:E1; [|discriminate E]. cbn [bind] in E.
  destruct (Super_SetCode o1 NodeProfileObjectCode) as [(o2, e2)|] eqn:E2; [|discriminate E]. injection E as <-.
  exact (makes_then _ _ _ _ _ (makes_then _ _ _ _ _ (makes_NewSuper _ E0) E1) E2).
Qed.

(** ** A node *)

Lemma F2_impl {A B} (P Q : A -> B -> Prop) l l' : (forall a b, P a b -> Q a b) -> Forall2 P l l' -> Forall2 Q l l'.
Proof. intros H. induction 1; constructor; auto. Qed.

Definition ref (w : state) (n : nat) (r : objref) : option nat :=
  match site_at w n with
  | None => None
  | Some s => match r with DevRef i => nth_error (s_devices s) i | ProfRef i => nth_error (s_profiles s) i end
  end.

Definition held (w : state) (n x : nat) (obj : object) : Prop := sees w x obj /\ x_ObjNode w x = Some n.

Definition matches (w : state) (n : nat) (nd : node) : Prop :=
  exists s, site_at w n = Some s /\ s_local s = true /\ s_running s = n_running nd /\ s_manufacturer s = n_manufacturer nd /\
    Forall2 (held w n) (s_devices s) (n_devices nd) /\ Forall2 (held w n) (s_profiles s) (n_profiles nd) /\
    NoDup (s_devices s ++ s_profiles s).

Record within (n : nat) (w w' : state) : Prop := {
  i_sites : forall m, m <> n -> site_at w' m = site_at w m;
  i_count : length (sites w') = length (sites w);
  i_things : length (things w') = length (things w);
  i_node : forall x, x_ObjNode w' x = x_ObjNode w x;
  i_sees : forall x obj, x_ObjNode w x <> Some n -> sees w x obj -> sees w' x obj }.

Lemma within_refl n w : within n w w.
Proof. split; auto. Qed.

Lemma within_trans n w1 w2 w3 : within n w1 w2 -> within n w2 w3 -> within n w1 w3.
Proof.
  intros A B. split.
  - intros m N. rewrite (i_sites _ _ _ B m N). apply (i_sites _ _ _ A m N).
  - rewrite (i_count _ _ _ B). apply (i_count _ _ _ A).
  - rewrite (i_things _ _ _ B). apply (i_things _ _ _ A).
  - intros x. rewrite (i_node _ _ _ B). apply (i_node _ _ _ A).
  - intros x obj N S. apply (i_sees _ _ _ B); [rewrite (i_node _ _ _ A); exact N|]. apply (i_sees _ _ _ A _ _ N S).
Qed.

Lemma others_within n x w w' : others x w w' -> x_ObjNode w x = Some n -> within n w w'.
Proof.
  intros A N. split.
  - intros m _. unfold site_at. rewrite (h_sites _ _ _ A). reflexivity.
  - rewrite (h_sites _ _ _ A). reflexivity.
  - apply (h_count _ _ _ A).
  - intros y. apply (others_node _ _ _ _ A).
  - intros y obj M S. apply (others_sees _ _ _ _ _ A); [congruence|exact S].
Qed.

Lemma within_matches n m w w' nd : within n w w' -> m <> n -> matches w m nd -> matches w' m nd.
Proof.
  intros W N (s & S & L & R & M & D & P & U). exists s. rewrite (i_sites _ _ _ W m N).
  assert (H : forall x obj, held w m x obj -> held w' m x obj).
  { intros x obj (Sx & Nx). split; [|rewrite (i_node _ _ _ W); exact Nx]. apply (i_sees _ _ _ W); [congruence|exact Sx]. }
  repeat split; try assumption; eapply F2_impl; eauto.
Qed.

Lemma ref_held w n nd r x : matches w n nd -> ref w n r = Some x -> exists obj, obj_at nd r = Some obj /\ held w n x obj.
Proof.
  intros (s & S & _ & _ & _ & D & P & _) H. unfold ref in H. rewrite S in H.
  assert (G : forall l l' i, Forall2 (held w n) l l' -> nth_error l i = Some x -> exists obj, nth_error l' i = Some obj /\ held w n x obj).
  { clear. intros l l' i F. revert i. induction F as [|a b l l' E F IH]; intros [|i] E'; cbn in *; try discriminate.
    - injection E' as <-. eauto.
    - apply IH, E'. }
  destruct r; cbn [obj_at]; eapply G; eauto.
Qed.

(** *** What is sent *)

Lemma said_hand_over nd m : said (hand_over nd (Multicast m)) = said nd ++ map (pair (SEOJ m)) (m_ep m).
Proof. unfold said, hand_over. cbn [n_sent]. rewrite flat_map_app. cbn [flat_map]. rewrite app_nil_r. reflexivity. Qed.

Lemma said_property nd code p : n_running nd = true -> 0 <= code < 2 ^ 24 ->
  said (fst (AnnounceProperty nd code p)) = said nd ++ [(code, p)] /\ n_running (fst (AnnounceProperty nd code p)) = true.
Proof.
  intros R C. unfold AnnounceProperty, AnnounceMessage. cbv zeta. rewrite R. cbn [negb].
  unfold NextTID. cbn [fst]. split; [|exact R]. rewrite said_hand_over. unfold said at 1. cbn [n_sent with_lastTID].
  fold (said nd). f_equal.
  match goal with |- map (pair (SEOJ ?m)) (m_ep ?m) = _ =>
    change (m_ep m) with [p]; change (SEOJ m) with (ByteToInteger (IntegerToByte code 3)) end.
  cbn [map]. rewrite IntegerToByte_3, ByteToInteger_be3 by exact C. reflexivity.
Qed.

Lemma said_all ev : forall nd code, 0 <= code < 2 ^ 24 ->
  said (announce_all nd code ev) = said nd ++ (if n_running nd then map (pair code) ev else []).
Proof.
  induction ev as [|p ev IH]; intros nd code C.
  - cbn. destruct (n_running nd); symmetry; apply app_nil_r.
  - unfold announce_all. cbn [fold_left].
    fold (announce_all (match fst (prop_Announce (Some nd) code p) with Some nd' => nd' | None => nd end) code ev).
    rewrite IH by exact C. unfold prop_Announce. destruct (n_running nd) eqn:R; cbn [negb].
    + pose proof (said_property nd code p R C) as (S & R'). destruct (AnnounceProperty nd code p) as (nd1, e). cbn [fst] in *.
      rewrite S, R'. cbn [map]. rewrite <- app_assoc. reflexivity.
    + cbn [fst]. rewrite R. reflexivity.
Qed.

Lemma said_commit nd r o ev : code3 o ->
  said (commit nd r o ev) = said nd ++ (if n_running nd then map (pair (Code o)) ev else []).
Proof.
  intros C. unfold commit. rewrite said_all.
  - destruct r; reflexivity.
  - destruct C as [Hl Hb]. unfold Code. destruct (o_codes o) as [|a [|b [|c [|]]]]; try discriminate.
    inversion Hb as [|? ? Ha Hb1]; subst. inversion Hb1 as [|? ? Hb2 Hc]; subst. inversion Hc as [|? ? Hc1 _]; subst.
    rewrite ByteToInteger_3 by assumption. unfold is_byte in *. lia.
Qed.

(** what node [n] has said between [nd] and [nd'] *)
Definition spoke (n : nat) (nd nd' : node) (l : list shout) : Prop :=
  said nd' = said nd ++ map (fun s => (sh_from s, sh_what s)) l /\ Forall (fun s => sh_node s = n) l.

Lemma spoke_nil n nd nd' : said nd' = said nd -> spoke n nd nd' [].
Proof. intros E. split; [rewrite E; symmetry; apply app_nil_r|constructor]. Qed.

Lemma spoke_app n nd1 nd2 nd3 a b : spoke n nd1 nd2 a -> spoke n nd2 nd3 b -> spoke n nd1 nd3 (a ++ b).
Proof.
  intros (A & FA) (B & FB). split; [|apply Forall_app; auto]. rewrite B, A, map_app, app_assoc. reflexivity.
Qed.

Lemma node_fields nd nd' : core_of nd' = core_of nd ->
  n_devices nd' = n_devices nd /\ n_profiles nd' = n_profiles nd /\ n_manufacturer nd' = n_manufacturer nd /\ n_running nd' = n_running nd.
Proof. unfold core_of. intros E. injection E as A B C D. auto. Qed.

Lemma NoDup_app_l {A} (a b : list A) : NoDup (a ++ b) -> NoDup a.
Proof. induction a; cbn; intros H; [constructor|]. apply NoDup_cons_iff in H as (N & H). constructor; [|auto]. intros I. apply N, in_or_app. auto. Qed.

Lemma NoDup_app_r {A} (a b : list A) : NoDup (a ++ b) -> NoDup b.
Proof. induction a; cbn; intros H; [exact H|]. apply NoDup_cons_iff in H as (N & H). auto. Qed.

Lemma NoDup_app_not {A} (a b : list A) x : NoDup (a ++ b) -> In x a -> ~ In x b.
Proof.
  induction a as [|y a IH]; cbn; intros H I; [destruct I|]. apply NoDup_cons_iff in H as (N & H).
  destruct I as [<-|I]; [intros J; apply N, in_or_app; auto|auto].
Qed.

(** the lists after the change of the object at one place *)
Lemma held_set w w' n x obj' l l' i : Forall2 (held w n) l l' -> NoDup l -> nth_error l i = Some x ->
  others x w w' -> held w' n x obj' -> Forall2 (held w' n) l (set_nth l' i obj').
Proof.
  intros F. revert i. induction F as [|a b l l' E F IH]; intros [|i] D X A H; cbn in *; try discriminate.
  - injection X as ->. constructor; [exact H|]. apply NoDup_cons_iff in D as (N & _). clear IH H.
    induction F as [|a1 b1 l l' (E1 & E2) F IH]; constructor.
    + split; [|rewrite (others_node _ _ _ _ A); exact E2]. apply (others_sees _ _ _ _ _ A); [|exact E1].
      intros ->. apply N. left. reflexivity.
    + apply IH. intros I. apply N. right. exact I.
  - apply NoDup_cons_iff in D as (N & D). constructor; [|apply IH; assumption].
    destruct E as (E1 & E2). split; [|rewrite (others_node _ _ _ _ A); exact E2]. apply (others_sees _ _ _ _ _ A); [|exact E1].
    intros ->. apply N. apply nth_error_In with i. exact X.
Qed.

Lemma held_keep w w' n x l l' : Forall2 (held w n) l l' -> ~ In x l -> others x w w' -> Forall2 (held w' n) l l'.
Proof.
  intros F N A. induction F as [|a1 b1 l l' (E1 & E2) F IH]; constructor.
  - split; [|rewrite (others_node _ _ _ _ A); exact E2]. apply (others_sees _ _ _ _ _ A); [|exact E1].
    intros ->. apply N. left. reflexivity.
  - apply IH. intros I. apply N. right. exact I.
Qed.

(** the object at a place of the node changes *)
Lemma step_commit w n nd r x f F obj obj' ev :
  matches w n nd -> ref w n r = Some x -> fits x f F -> obj_at nd r = Some obj -> F obj = Some (obj', ev) ->
  matches (fst (f w)) n (commit nd r obj' ev) /\ spoke n nd (commit nd r obj' ev) (snd (f w)) /\
  others x w (fst (f w)) /\ x_ObjNode w x = Some n /\ obj_at (commit nd r obj' ev) r = Some obj' /\
  (forall m, ref (fst (f w)) m = ref w m).
Proof.
  intros M R H O E. destruct (ref_held _ _ _ _ _ M R) as (obj0 & O0 & S & N). rewrite O in O0. injection O0 as <-.
  destruct (H _ _ _ _ S E) as (S' & V & A).
  destruct M as (s & Sn & L & Rn & Mn & D & P & U).
  destruct (node_fields _ _ (commit_core nd r obj' ev)) as (FD & FP & FM & FR).
  assert (X : held (fst (f w)) n x obj') by (split; [exact S'|rewrite (others_node _ _ _ _ A); exact N]).
  split; [|split; [|split; [exact A|split; [exact N|split]]]].
  - exists s. rewrite FD, FP, FM, FR. unfold site_at in *. rewrite (h_sites _ _ _ A).
    split; [exact Sn|]. split; [exact L|]. unfold ref, site_at in R. rewrite Sn in R.
    destruct r as [i|i]; cbn [put_at with_objects n_running n_manufacturer n_devices n_profiles].
    + split; [exact Rn|]. split; [exact Mn|]. split; [|split; [|exact U]].
      * apply (held_set w _ n x obj'); auto. apply NoDup_app_l in U. exact U.
      * apply (held_keep w _ n x); auto. apply (NoDup_app_not _ _ _ U). apply nth_error_In with i. exact R.
    + split; [exact Rn|]. split; [exact Mn|]. split; [|split; [|exact U]].
      * apply (held_keep w _ n x); auto. intros I. apply (NoDup_app_not _ _ _ U I). apply nth_error_In with i. exact R.
      * apply (held_set w _ n x obj'); auto. apply NoDup_app_r in U. exact U.
  - rewrite V. unfold voice. rewrite N, Sn, L, Rn. cbn [andb].
    assert (C : code3 obj') by (destruct S' as (t & _ & C & _); exact C).
    split; [rewrite said_commit by exact C|].
    + destruct (n_running nd); [|reflexivity]. rewrite map_map. cbn [sh_from sh_what]. reflexivity.
    + destruct (n_running nd); [|constructor]. apply Forall_map. apply Forall_forall. reflexivity.
  - unfold obj_at in *. rewrite FD, FP. destruct r as [i|i]; cbn [put_at with_objects n_devices n_profiles].
    + rewrite nth_set, Nat.eqb_refl, O. reflexivity.
    + rewrite nth_set, Nat.eqb_refl, O. reflexivity.
  - intros m. unfold ref, site_at. rewrite (h_sites _ _ _ A). reflexivity.
Qed.

(** ** Steps of one node *)

Definition evolves (n : nat) (w : state) (nd : node) (p : state * list shout) (nd' : node) : Prop :=
  matches (fst p) n nd' /\ spoke n nd nd' (snd p) /\ within n w (fst p) /\ sites (fst p) = sites w.

Lemma ref_same w w' m r : sites w' = sites w -> ref w' m r = ref w m r.
Proof. unfold ref, site_at. intros ->. reflexivity. Qed.

Lemma evolves_skip n w nd : matches w n nd -> evolves n w nd (skip w) nd.
Proof. intros M. split; [exact M|]. split; [apply spoke_nil; reflexivity|]. split; [apply within_refl|reflexivity]. Qed.

Lemma evolves_then n w nd f nd1 g nd2 : evolves n w nd (f w) nd1 ->
  (matches (fst (f w)) n nd1 -> (forall m r, ref (fst (f w)) m r = ref w m r) ->
     evolves n (fst (f w)) nd1 (g (fst (f w))) nd2) ->
  evolves n w nd (andthen f g w) nd2.
Proof.
  intros (M1 & S1 & W1 & R1) H. destruct (H M1 (fun m r => ref_same _ _ m r R1)) as (M2 & S2 & W2 & R2).
  unfold evolves. rewrite fst_andthen, snd_andthen. split; [exact M2|]. split; [exact (spoke_app _ _ _ _ _ _ S1 S2)|].
  split; [exact (within_trans _ _ _ _ W1 W2)|]. rewrite R2. exact R1.
Qed.

Lemma evolves_fits n w nd r x f F obj obj' ev :
  matches w n nd -> ref w n r = Some x -> fits x f F -> obj_at nd r = Some obj -> F obj = Some (obj', ev) ->
  evolves n w nd (f w) (commit nd r obj' ev) /\ obj_at (commit nd r obj' ev) r = Some obj'.
Proof.
  intros M R H O E. destruct (step_commit _ _ _ _ _ _ _ _ _ _ M R H O E) as (M' & S' & A & N & O' & R').
  split; [|exact O']. split; [exact M'|]. split; [exact S'|]. split; [exact (others_within _ _ _ _ A N)|].
  apply (h_sites _ _ _ A).
Qed.

Lemma evolves_on n w nd r x f (E : object -> effect) :
  matches w n nd -> ref w n r = Some x -> fits x f (fun o => let '(o', ev, _) := E o in Some (o', ev)) ->
  evolves n w nd (f w) (fst (on_object nd r E)) /\
  exists obj, obj_at nd r = Some obj /\ obj_at (fst (on_object nd r E)) r = Some (fst (fst (E obj))).
Proof.
  intros M R H. destruct (ref_held _ _ _ _ _ M R) as (obj & O & _). unfold on_object. rewrite O.
  destruct (E obj) as ((obj', ev), e) eqn:Ee. cbn [fst].
  destruct (evolves_fits n w nd r x f _ obj obj' ev M R H O) as (V & O'); [rewrite Ee; reflexivity|].
  split; [exact V|]. exists obj. split; [reflexivity|]. rewrite Ee. exact O'.
Qed.

Lemma fits_set x k d : fits x (x_SetPropertyData x k d) (fun o => let '(o', ev, _) := SetPropertyData o k d in Some (o', ev)).
Proof. apply sim_fits. exact (sim_SetPropertyData x k d). Qed.

(** *** The lists of the node profile *)

Lemma find_seen w n l l' code : Forall2 (held w n) l l' ->
  match x_find w l code with
  | Some x => exists i, find_code l' code = Some i /\ nth_error l i = Some x
  | None => find_code l' code = None
  end.
Proof.
  induction 1 as [|x obj l l' ((t & T & _ & _ & C & _) & _) F IH]; cbn; [reflexivity|]. rewrite T, C.
  destruct (t_code t =? code); [exists 0%nat; auto|]. destruct (x_find w l code) as [y|].
  - destruct IH as (i & -> & I). exists (S i). auto.
  - rewrite IH. reflexivity.
Qed.

Lemma values_seen w n l l' : Forall2 (held w n) l l' -> map o_codes (x_values w l) = map o_codes l'.
Proof.
  induction 1 as [|x obj l l' ((t & T & _ & C & _) & _) F IH]; [reflexivity|].
  unfold x_values in *. cbn [flat_map]. rewrite T. cbn [app map o_codes]. rewrite IH, C. reflexivity.
Qed.

Lemma collect_ext l l' : map o_codes l = map o_codes l' -> forall acc, collect_classes l acc = collect_classes l' acc.
Proof.
  revert l'. induction l as [|a l IH]; intros [|b l'] E acc; cbn in E; try discriminate; [reflexivity|].
  injection E as E1 E2. unfold collect_classes. cbn [for_each]. unfold Class at 1 3. rewrite E1.
  fold (Class b). destruct (c <- Class b;; b0 <- has_class acc c;; (if b0 then Ok acc else Ok (acc ++ [c]))); cbn [bind]; auto.
  apply (IH l' E2).
Qed.

Lemma instances_ext l l' : map o_codes l = map o_codes l' -> instance_list l = instance_list l' /\ len l = len l'.
Proof.
  intros E. assert (L : len l = len l') by (unfold len; rewrite <- (map_length o_codes l), E, map_length; reflexivity).
  split; [|exact L]. unfold instance_list. rewrite L. f_equal. rewrite !flat_map_concat_map. unfold Codes.
  change (map (fun o => o_codes o)) with (map o_codes). rewrite E. reflexivity.
Qed.

Lemma codes3_held w n l l' : Forall2 (held w n) l l' -> Forall code3 l'.
Proof. induction 1 as [|x obj l l' ((t & _ & C & _) & _) F IH]; constructor; auto. Qed.

Lemma prof_devices nd i E : n_devices (fst (on_object nd (ProfRef i) E)) = n_devices nd.
Proof.
  pose proof (on_object_core nd (ProfRef i) E) as H. unfold put_core, core_of in H. cbn in H. congruence.
Qed.

Lemma evolves_update n w nd : matches w n nd ->
  exists nd', updateNodeProfile nd = Ok nd' /\ evolves n w nd (x_updateNodeProfile n w) nd'.
Proof.
  intros M. pose proof M as (s & S & L & R & Mn & D & P & U).
  unfold x_updateNodeProfile, updateNodeProfile. rewrite S.
  assert (NP : match x_NodeProfile w s with
               | Some o => exists i, NodeProfile nd = Some (ProfRef i) /\ nth_error (s_profiles s) i = Some o
               | None => NodeProfile nd = None
               end).
  { unfold x_NodeProfile, NodeProfile, LookupProfile.
    pose proof (find_seen w n _ _ NodeProfileObjectCode P) as F1. destruct (x_find w (s_profiles s) NodeProfileObjectCode) as [o|].
    - destruct F1 as (i & -> & I). exists i. auto.
    - rewrite F1. cbn. pose proof (find_seen w n _ _ NodeProfileObjectReadOnlyCode P) as F2.
      destruct (x_find w (s_profiles s) NodeProfileObjectReadOnlyCode) as [o|].
      + destruct F2 as (i & -> & I). exists i. auto.
      + rewrite F2. reflexivity. }
  destruct (x_NodeProfile w s) as [o|].
  2:{ rewrite NP. exists nd. split; [reflexivity|]. apply evolves_skip, M. }
  destruct NP as (i & NP & I). rewrite NP.
  pose proof (values_seen _ _ _ _ D) as VD. pose proof (values_seen _ _ _ _ P) as VP.
  destruct (collect_spec (n_devices nd) (codes3_held _ _ _ _ D) [] (Forall_nil _)) as (C1 & H1).
  destruct (collect_spec (n_profiles nd) (codes3_held _ _ _ _ P) _ H1) as (C2 & _).
  rewrite (collect_ext _ _ VD), C1. cbn [bind]. rewrite (collect_ext _ _ VP), C2. cbn [bind].
  set (classes := fold_left addc (map cls (n_profiles nd)) (fold_left addc (map cls (n_devices nd)) [])). clearbody classes.
  destruct (instances_ext _ _ VD) as (ID & LD). rewrite ID, LD.
  set (r := ProfRef i).
  assert (RF : ref w n r = Some o) by (unfold ref; rewrite S; exact I).
  set (nd1 := fst (on_object nd r (fun o => SetInstanceCount o (len (n_devices nd))))).
  set (nd2 := fst (on_object nd1 r (fun o => SetClassCount o (len classes)))).
  set (nd3 := fst (on_object nd2 r (fun o => SetInstanceList o (n_devices nd2)))).
  assert (D2 : n_devices nd2 = n_devices nd).
  { unfold nd2, nd1, r. rewrite !prof_devices. reflexivity. }
  exists (fst (on_object nd3 r (fun o => SetClassList o classes))). split; [reflexivity|].
  cbn [app each].
  (* the counts *)
  eapply evolves_then; [exact (proj1 (evolves_on n w nd r o _ (fun o => SetInstanceCount o (len (n_devices nd))) M RF (fits_set o _ _)))|].
  fold nd1. cbn [fst snd]. intros M1 R1.
  destruct (evolves_on n w nd r o _ (fun o => SetInstanceCount o (len (n_devices nd))) M RF (fits_set o _ _))
    as (_ & obj & O & O1). fold nd1 in O1.
  set (w1 := fst (x_SetPropertyData o NodeProfileNumberOfInstances (IntegerToByte (len (n_devices nd)) 3) w)) in *.
  assert (RF1 : ref w1 n r = Some o) by (rewrite R1; exact RF).
  destruct (evolves_on n w1 nd1 r o _ (fun o => SetClassCount o (len classes)) M1 RF1 (fits_set o _ _))
    as (E2 & obj1 & O1' & O2). fold nd2 in E2, O2.
  eapply evolves_then; [exact E2|]. cbn [fst snd]. intros M2 R2.
  set (w2 := fst (x_SetPropertyData o NodeProfileNumberOfClasses (IntegerToByte (len classes) 2) w1)) in *.
  assert (RF2 : ref w2 n r = Some o) by (rewrite R2; exact RF1).
  rewrite O1 in O1'. injection O1' as <-.
  set (obj2 := fst (fst (SetClassCount (fst (fst (SetInstanceCount obj (len (n_devices nd))))) (len classes)))) in *.
  assert (HP : HasProp (o_props obj2) NodeProfileInstanceListNotification = HasProp (o_props obj) NodeProfileInstanceListNotification).
  { unfold obj2, SetClassCount, SetInstanceCount. rewrite !SetPropertyInteger_setd. unfold setd. cbn [Object.with_props o_props].
    rewrite !HasProp_set. reflexivity. }
  assert (LO : match x_LookupProperty w o NodeProfileInstanceListNotification with
               | Some _ => HasProp (o_props obj) NodeProfileInstanceListNotification = true
               | None => HasProp (o_props obj) NodeProfileInstanceListNotification = false
               end).
  { destruct (ref_held _ _ _ _ _ M RF) as (obj' & O' & ((t & T & _ & _ & _ & F & _) & _)). rewrite O in O'. injection O' as <-.
    unfold x_LookupProperty, HasProp. rewrite T. destruct (look (t_props t) NodeProfileInstanceListNotification) as [p|] eqn:Lk.
    - destruct (look_some _ _ _ _ _ _ F Lk) as (q & _ & _ & ->). reflexivity.
    - rewrite (look_none _ _ _ _ _ F Lk). reflexivity. }
  (* the last list *)
  assert (LAST : forall w3, matches w3 n nd3 -> (forall m r, ref w3 m r = ref w2 m r) ->
            evolves n w3 nd3 (andthen (x_SetPropertyData o NodeProfileClassListS (class_list classes)) skip w3)
              (fst (on_object nd3 r (fun o0 => SetClassList o0 classes)))).
  { intros w3 M3 R3. assert (RF3 : ref w3 n r = Some o) by (rewrite R3; exact RF2).
    eapply evolves_then; [exact (proj1 (evolves_on n w3 nd3 r o _ (fun o => SetClassList o classes) M3 RF3 (fits_set o _ _)))|].
    intros M4 _. apply evolves_skip, M4. }
  assert (N3 : nd3 = commit nd2 r (fst (fst (SetInstanceList obj2 (n_devices nd)))) (snd (fst (SetInstanceList obj2 (n_devices nd))))).
  { unfold nd3, on_object. rewrite O2, D2. destruct (SetInstanceList obj2 (n_devices nd)) as ((a, b), c). reflexivity. }
  unfold SetInstanceList in N3. cbv zeta in N3.
  destruct (x_LookupProperty w o NodeProfileInstanceListNotification) as [p|]; rewrite LO in HP; cbn [app each].
  - rewrite <- andthen_assoc. cbn [fst snd].
    set (F := chain (setting NodeProfileInstanceListNotification (instance_list (n_devices nd)))
                    (setting NodeProfileInstanceListS (instance_list (n_devices nd)))).
    assert (FF : fits o (andthen (x_SetPropertyData o NodeProfileInstanceListNotification (instance_list (n_devices nd)))
                                 (x_SetPropertyData o NodeProfileInstanceListS (instance_list (n_devices nd)))) F)
      by (apply sim_fits, sim_andthen; apply sim_SetPropertyData).
    assert (FE : F obj2 = Some (fst (fst (SetInstanceList obj2 (n_devices nd))), snd (fst (SetInstanceList obj2 (n_devices nd))))).
    { unfold F, chain, setting, SetInstanceList. cbv zeta. unfold HasProp in HP.
      assert (X : snd (SetPropertyData obj2 NodeProfileInstanceListNotification (instance_list (n_devices nd))) = None).
      { unfold SetPropertyData, SetPropertyDataMap. destruct (LookupProperty (o_props obj2) NodeProfileInstanceListNotification); [reflexivity|discriminate HP]. }
      destruct (SetPropertyData obj2 NodeProfileInstanceListNotification (instance_list (n_devices nd))) as ((o1, e1), r1).
      cbn [snd] in X. subst r1.
      destruct (SetPropertyData o1 NodeProfileInstanceListS (instance_list (n_devices nd))) as ((o2, e2), r2). reflexivity. }
    fold (SetInstanceList obj2 (n_devices nd)) in N3.
    destruct (evolves_fits n w2 nd2 r o _ F obj2 _ _ M2 RF2 FF O2 FE) as (E3 & _). rewrite <- N3 in E3.
    eapply evolves_then; [exact E3|]. intros M3 R3. apply LAST; assumption.
  - assert (X : SetPropertyData obj2 NodeProfileInstanceListNotification (instance_list (n_devices nd)) = (obj2, [], Some ErrNotFound)).
    { unfold SetPropertyData, SetPropertyDataMap. unfold HasProp in HP.
      destruct (LookupProperty (o_props obj2) NodeProfileInstanceListNotification); [discriminate HP|]. destruct obj2; reflexivity. }
    rewrite X in N3. cbn [fst snd] in N3.
    destruct (evolves_fits n w2 nd2 r o _ _ obj2 obj2 [] M2 RF2
                (fits_set o NodeProfileInstanceListNotification (instance_list (n_devices nd))) O2) as (E3 & _).
    { rewrite X. reflexivity. }
    rewrite <- N3 in E3. cbn [fst snd]. eapply evolves_then; [exact E3|]. intros M3 R3. apply LAST; assumption.
Qed.

(** *** Entering an object *)

Lemma sees_same w w' x obj : things w' = things w -> cells w' = cells w -> sees w x obj -> sees w' x obj.
Proof. unfold sees, entry, thing_at, cell_at. intros -> ->. auto. Qed.

Lemma sees_SetParent o n w x obj : sees w x obj -> sees (fst (x_SetParentNode o n w)) x obj.
Proof.
  intros (t & T & C3 & CO & CC & F & D). pose proof (thing_SetParent o n w x) as H. rewrite T in H.
  eexists. split; [exact H|]. destruct (rest_SetParent o n w) as (RC & _).
  assert (F' : Forall2 (entry (fst (x_SetParentNode o n w)) x) (t_props t) (o_props obj)).
  { eapply F2_impl; [|exact F]. intros a b. unfold entry, cell_at. rewrite RC. auto. }
  destruct (Nat.eqb o x); cbn [t_code t_props]; auto 10.
Qed.

Definition entered (dev : bool) (nd : node) (obj : object) : node :=
  with_objects nd (n_devices nd ++ if dev then [obj] else []) (n_profiles nd ++ if dev then [] else [obj]).

Definition new_ref (dev : bool) (nd : node) : objref :=
  if dev then DevRef (length (n_devices nd)) else ProfRef (length (n_profiles nd)).

Lemma F2_len {A B} (P : A -> B -> Prop) l l' : Forall2 P l l' -> length l = length l'.
Proof. induction 1; cbn; congruence. Qed.

Lemma nth_snoc {A} (l : list A) x i y : nth_error (l ++ [x]) i = Some y <-> nth_error l i = Some y \/ (i = length l /\ y = x).
Proof.
  split; [apply nth_app_inv|]. intros [H|(-> & ->)]; [apply nth_app_old, H|apply nth_app_new].
Qed.

Lemma add_steps (dev : bool) n x w nd obj : matches w n nd -> sees w x obj -> x_ObjNode w x = None ->
  let obj1 := fst (fst (SetManufacturerCode obj (n_manufacturer nd))) in
  exists w3, matches w3 n (entered dev nd obj1) /\
    (forall y o, y <> x -> sees w y o -> sees w3 y o) /\
    (forall y, x_ObjNode w3 y = if Nat.eqb x y then Some n else x_ObjNode w y) /\
    (forall m, m <> n -> site_at w3 m = site_at w m) /\
    length (sites w3) = length (sites w) /\ length (things w3) = length (things w) /\
    (forall r y, ref w3 n r = Some y <-> ref w n r = Some y \/ (y = x /\ r = new_ref dev nd)) /\
    x_Add n (if dev then [x] else []) (if dev then [] else [x]) x w = x_updateNodeProfile n w3.
Proof.
  intros (s & S & L & R & Mn & D & P & U) Sx Nx obj1.
  set (ds := if dev then [x] else []). set (ps := if dev then [] else [x]).
  set (w1 := fst (x_append n ds ps w)). set (w2 := fst (x_SetManufacturer x (s_manufacturer s) w1)).
  set (w3 := fst (x_SetParentNode x (Some n) w2)). exists w3.
  assert (Cw : cells w1 = cells w /\ things w1 = things w) by (unfold w1; apply rest_append).
  destruct Cw as (C1 & T1).
  assert (S1 : sees w1 x obj) by (apply (sees_same w); auto).
  assert (N1 : x_ObjNode w1 x = None) by (unfold w1; rewrite node_append; exact Nx).
  assert (F : fits x (x_SetManufacturer x (s_manufacturer s))
                (fun o => let '(o', ev, _) := SetManufacturerCode o (n_manufacturer nd) in Some (o', ev))).
  { rewrite <- Mn. exact (fits_set x ObjectManufacturerCode (IntegerToByte (s_manufacturer s) 3)). }
  destruct (SetManufacturerCode obj (n_manufacturer nd)) as ((o1, e1), r1) eqn:EM. cbn [fst] in obj1. subst obj1.
  destruct (F w1 obj o1 e1 S1) as (S2 & V2 & A2); [rewrite EM; reflexivity|]. fold w2 in S2, A2.
  assert (ST : forall m, site_at w3 m = site_at w1 m).
  { intros m. unfold site_at, w3. destruct (rest_SetParent x (Some n) w2) as (_ & ->). rewrite (h_sites _ _ _ A2). reflexivity. }
  assert (LT : length (things w3) = length (things w)).
  { unfold w3, x_SetParentNode, silent. cbn [fst]. rewrite <- T1, <- (h_count _ _ _ A2).
    destruct (thing_at w2 x); [apply len_put|reflexivity]. }
  assert (NO : forall y, x_ObjNode w3 y = if Nat.eqb x y then Some n else x_ObjNode w y).
  { intros y. unfold w3. rewrite node_SetParent. destruct (Nat.eqb x y) eqn:Y.
    - apply Nat.eqb_eq in Y. subst y. destruct S2 as (t & -> & _). reflexivity.
    - rewrite (others_node _ _ _ _ A2). unfold w1. apply node_append. }
  assert (SE : forall y o, y <> x -> sees w y o -> sees w3 y o).
  { intros y o N H. apply sees_SetParent, (others_sees _ _ _ _ _ A2 N), (sees_same w); auto. }
  set (s' := with_lists s (s_devices s ++ ds) (s_profiles s ++ ps)).
  assert (Sn : site_at w3 n = Some s').
  { rewrite ST. unfold w1. rewrite site_append, Nat.eqb_refl, S. reflexivity. }
  assert (K : forall l l', Forall2 (held w n) l l' -> Forall2 (held w3 n) l l').
  { intros l l'. apply F2_impl. intros a b (Ha & Hn). assert (a <> x) by congruence.
    split; [apply SE; assumption|]. rewrite NO. destruct (Nat.eqb x a) eqn:Y; [reflexivity|exact Hn]. }
  assert (X : held w3 n x o1).
  { split; [apply sees_SetParent, S2|rewrite NO, Nat.eqb_refl; reflexivity]. }
  assert (NI : ~ In x (s_devices s ++ s_profiles s)).
  { intros I. apply in_app_or in I.
    assert (Y : forall l l', Forall2 (held w n) l l' -> In x l -> x_ObjNode w x = Some n).
    { clear. induction 1 as [|a b l l' (_ & H) F IH]; intros I; [destruct I|]. destruct I as [<-|I]; auto. }
    destruct I as [I|I]; [pose proof (Y _ _ D I)|pose proof (Y _ _ P I)]; congruence. }
  split; [|split; [exact SE|split; [exact NO|split; [|split; [|split; [exact LT|split]]]]]].
  - exists s'. split; [exact Sn|]. split; [exact L|]. split; [exact R|]. split; [exact Mn|].
    cbn [s' with_lists s_devices s_profiles entered with_objects n_devices n_profiles].
    split; [|split].
    + apply Forall2_app; [apply K, D|]. unfold ds. destruct dev; constructor; [exact X|constructor].
    + apply Forall2_app; [apply K, P|]. unfold ps. destruct dev; constructor; [exact X|constructor].
    + unfold ds, ps. destruct dev; rewrite ?app_nil_r, <- ?app_assoc.
      * cbn [app]. apply NoDup_Add with (a := x) (l := s_devices s ++ s_profiles s); [apply Add_app|auto].
      * rewrite app_assoc. apply NoDup_Add with (a := x) (l := s_devices s ++ s_profiles s); [|auto].
        rewrite <- (app_nil_r (s_devices s ++ s_profiles s)) at 1. apply Add_app.
  - intros m N. rewrite ST. unfold w1. rewrite site_append. destruct (Nat.eqb n m) eqn:Y; [apply Nat.eqb_eq in Y; congruence|].
    destruct (site_at w m); reflexivity.
  - unfold w3. destruct (rest_SetParent x (Some n) w2) as (_ & ->). rewrite (h_sites _ _ _ A2).
    unfold w1, x_append, silent. cbn [fst]. rewrite S. unfold put_site. cbn [sites]. apply len_set.
  - intros r y. unfold ref. rewrite Sn, S. cbn [s' with_lists s_devices s_profiles]. unfold ds, ps, new_ref.
    rewrite <- (F2_len _ _ _ D), <- (F2_len _ _ _ P).
    destruct dev, r as [i|i]; rewrite ?app_nil_r, ?nth_snoc; (split; [intros H|intros [H|(H1 & H2)]]); auto.
    + destruct H as [H|(-> & ->)]; auto.
    + injection H2 as ->. auto.
    + discriminate H2.
    + discriminate H2.
    + destruct H as [H|(-> & ->)]; auto.
    + injection H2 as ->. auto.
  - unfold x_Add. rewrite S, L. fold ds ps. unfold andthen at 1.
    assert (E0 : x_append n ds ps w = (w1, [])) by reflexivity. rewrite E0.
    unfold andthen at 1.
    assert (E1 : x_SetManufacturer x (s_manufacturer s) w1 = (w2, [])).
    { rewrite (surjective_pairing (x_SetManufacturer x (s_manufacturer s) w1)). fold w2. rewrite V2, voice_none by exact N1. reflexivity. }
    rewrite E1. unfold andthen.
    assert (E2 : x_SetParentNode x (Some n) w2 = (w3, [])) by reflexivity. rewrite E2.
    destruct (x_updateNodeProfile n w3) as (w4, l4). reflexivity.
Qed.

(** *** Manufacturer *)

Lemma evolves_man_loop mk code n l : forall a w nd, matches w n nd ->
  (forall j x, nth_error l j = Some x -> ref w n (mk (a + j)%nat) = Some x) ->
  evolves n w nd (each l (fun o => x_SetManufacturer o code) w) (set_manufacturer_loop mk a (length l) code nd).
Proof.
  induction l as [|x l IH]; intros a w nd M H; cbn [each length set_manufacturer_loop].
  - apply evolves_skip, M.
  - pose proof (H 0%nat x eq_refl) as R. rewrite Nat.add_0_r in R.
    eapply evolves_then; [exact (proj1 (evolves_on n w nd (mk a) x _ (fun o => SetManufacturerCode o code) M R (fits_set x _ _)))|].
    intros M1 R1. apply IH; [exact M1|]. intros j y Hj. rewrite R1. rewrite Nat.add_succ_comm. apply H. exact Hj.
Qed.

Lemma each_app {A} (a b : list A) f w : each (a ++ b) f w = andthen (each a f) (each b f) w.
Proof.
  revert w. induction a as [|x a IH]; intros w; cbn [each app].
  - unfold andthen, skip. destruct (each b f w) as (w1, l1). reflexivity.
  - rewrite andthen_assoc. unfold andthen at 1. symmetry. unfold andthen at 1. destruct (f x w) as (w1, l1). rewrite IH. reflexivity.
Qed.

Lemma matches_put w n s s' nd nd' : site_at w n = Some s -> matches w n nd ->
  s_local s' = true -> s_running s' = n_running nd' -> s_manufacturer s' = n_manufacturer nd' ->
  s_devices s' = s_devices s -> s_profiles s' = s_profiles s -> n_devices nd' = n_devices nd -> n_profiles nd' = n_profiles nd ->
  matches (put_site w n s') n nd' /\ within n w (put_site w n s') /\ (forall m r, ref (put_site w n s') m r = ref w m r).
Proof.
  intros S (s0 & S0 & _ & _ & _ & D & P & U) L R M ED EP DD PP. rewrite S in S0. injection S0 as <-.
  assert (ST : forall m, site_at (put_site w n s') m = if Nat.eqb n m then Some s' else site_at w m).
  { intros m. unfold site_at, put_site in *. cbn [sites]. rewrite nth_set. destruct (Nat.eqb n m) eqn:E; [|reflexivity].
    apply Nat.eqb_eq in E. subst m. rewrite S. reflexivity. }
  split; [|split].
  - exists s'. rewrite ST, Nat.eqb_refl, ED, EP, DD, PP. auto 10.
  - split.
    + intros m N. rewrite ST. destruct (Nat.eqb n m) eqn:E; [apply Nat.eqb_eq in E; congruence|reflexivity].
    + unfold put_site. cbn [sites]. apply len_set.
    + reflexivity.
    + reflexivity.
    + intros x obj _ H. exact H.
  - intros m r. unfold ref. rewrite ST. destruct (Nat.eqb n m) eqn:E; [|reflexivity]. apply Nat.eqb_eq in E. subst m.
    rewrite S, ED, EP. reflexivity.
Qed.

(** like [evolves], for steps that change the node's own fields *)
Definition turns (n : nat) (w : state) (nd : node) (p : state * list shout) (nd' : node) : Prop :=
  matches (fst p) n nd' /\ spoke n nd nd' (snd p) /\ within n w (fst p) /\ (forall m r, ref (fst p) m r = ref w m r).

Lemma evolves_turns n w nd p nd' : evolves n w nd p nd' -> turns n w nd p nd'.
Proof. intros (M & S & W & E). repeat split; try apply W; try apply S; try exact M. intros m r. apply ref_same, E. Qed.

Lemma turns_manufacturer n w nd code : matches w n nd ->
  turns n w nd (x_Node_SetManufacturer n code w) (Node_SetManufacturerCode nd code).
Proof.
  intros M. pose proof M as (s & S & L & R & Mn & D & P & U). unfold x_Node_SetManufacturer, Node_SetManufacturerCode. rewrite S.
  cbv zeta. set (s' := mkSite (s_local s) (s_running s) (s_devices s) (s_profiles s) code).
  destruct (matches_put w n s s' nd (with_manufacturer nd code) S M L R eq_refl eq_refl eq_refl eq_refl eq_refl) as (M1 & W1 & R1).
  set (w1 := put_site w n s') in *. set (nd1 := with_manufacturer nd code) in *.
  assert (S1 : site_at w1 n = Some s').
  { unfold w1, site_at, put_site in *. cbn [sites]. rewrite nth_set, Nat.eqb_refl, S. reflexivity. }
  assert (E : evolves n w1 nd1 (each (s_devices s ++ s_profiles s) (fun o => x_SetManufacturer o code) w1)
               (set_manufacturer_loop ProfRef 0 (length (s_profiles s)) code
                 (set_manufacturer_loop DevRef 0 (length (s_devices s)) code nd1))).
  { rewrite each_app. eapply evolves_then.
    - apply (evolves_man_loop DevRef code n (s_devices s) 0 w1 nd1 M1). intros j x H. unfold ref. rewrite S1. exact H.
    - intros M2 R2. apply (evolves_man_loop ProfRef code n (s_profiles s) 0); [exact M2|].
      intros j x H. rewrite R2. unfold ref. rewrite S1. exact H. }
  assert (LD : length (n_devices nd1) = length (s_devices s)) by (rewrite (F2_len _ _ _ D); reflexivity).
  rewrite LD. set (nd2 := set_manufacturer_loop DevRef 0 (length (s_devices s)) code nd1) in *.
  assert (LP : length (n_profiles nd2) = length (s_profiles s)).
  { rewrite (F2_len _ _ _ P). change (n_profiles nd2) with (k_profs (core_of nd2)). unfold nd2.
    rewrite (set_man_loop DevRef true eq_refl); [reflexivity|]. cbv zeta iota. rewrite LD. lia. }
  rewrite LP. destruct E as (M2 & S2 & W2 & E2). unfold turns. rewrite fst_andthen, snd_andthen. cbn [silent fst snd app].
  split; [exact M2|]. split; [exact S2|]. split; [exact (within_trans _ _ _ _ W1 W2)|].
  intros m r. rewrite <- R1. apply ref_same. exact E2.
Qed.

(** *** Start and Stop *)

Lemma turns_stop n w nd : matches w n nd -> turns n w nd (x_Stop n w) (Node_Stop nd).
Proof.
  intros M. pose proof M as (s & S & L & R & Mn & D & P & U). unfold x_Stop, x_run, silent. rewrite S.
  destruct (matches_put w n s (mkSite (s_local s) (s_local s && false) (s_devices s) (s_profiles s) (s_manufacturer s))
              nd (Node_Stop nd) S M L) as (M1 & W1 & R1); cbn; auto; [rewrite L; reflexivity|].
  split; [exact M1|]. split; [apply spoke_nil; reflexivity|]. split; [exact W1|exact R1].
Qed.

Lemma turns_start n w nd : matches w n nd -> turns n w nd (x_Start n w) (fst (Node_Start nd None)).
Proof.
  intros M. pose proof M as (s & S & L & R & Mn & D & P & U). unfold x_Start. rewrite S, L. unfold Node_Start.
  set (nd1 := with_running nd true).
  set (s' := mkSite (s_local s) (s_local s && true) (s_devices s) (s_profiles s) (s_manufacturer s)).
  destruct (matches_put w n s s' nd nd1 S M L) as (M1 & W1 & R1);
    [cbn; rewrite L; reflexivity|exact Mn|reflexivity|reflexivity|reflexivity|reflexivity|].
  assert (E0 : x_run n true w = (put_site w n s', [])).
  { unfold x_run, silent. rewrite S. reflexivity. }
  unfold andthen. rewrite E0. set (w1 := put_site w n s') in *. unfold x_AnnounceNode. cbn [app].
  pose proof M1 as (s1 & S1 & L1 & Rn1 & Mn1 & D1 & P1 & U1). rewrite S1.
  assert (Q : spoke n nd (fst (Announce nd1))
                match x_NodeProfile w1 s1 with
                | None => []
                | Some o => match x_LookupProperty w1 o NodeProfileInstanceListNotification with
                            | None => []
                            | Some p => x_AnnounceProperty w1 n p
                            end
                end /\ core_of (fst (Announce nd1)) = core_of nd1).
  { split; [|apply Announce_core]. unfold Announce, x_NodeProfile, NodeProfile, LookupProfile.
    assert (G : forall code o, x_find w1 (s_profiles s1) code = Some o -> exists i, find_code (n_profiles nd1) code = Some i /\
      spoke n nd (fst match obj_at nd1 (ProfRef i) with
                      | None => (nd1, Some ErrNotFound)
                      | Some o => match LookupProperty (o_props o) NodeProfileInstanceListNotification with
                                  | None => (nd1, Some ErrNotFound)
                                  | Some p => AnnounceProperty nd1 (Code o) (ToProtocol p)
                                  end
                      end)
                match x_LookupProperty w1 o NodeProfileInstanceListNotification with
                | None => []
                | Some p => x_AnnounceProperty w1 n p
                end).
    { intros code o Fo. pose proof (find_seen w1 n _ _ code P1) as F1. rewrite Fo in F1. destruct F1 as (i & F1 & I).
      exists i. split; [exact F1|].
      assert (RF : ref w1 n (ProfRef i) = Some o) by (unfold ref; rewrite S1; exact I).
      destruct (ref_held _ _ _ _ _ M1 RF) as (obj & O & ((t & T & C3 & CO & CC & F & _) & _)). rewrite O.
      unfold x_LookupProperty. rewrite T. destruct (look (t_props t) NodeProfileInstanceListNotification) as [p|] eqn:Lk.
      - destruct (look_some _ _ _ _ _ _ F Lk) as (q & Cq & _ & ->). unfold x_AnnounceProperty. rewrite Cq. cbn [c_object c_prop].
        rewrite T. destruct (said_property nd1 (Code obj) (ToProtocol q) eq_refl) as (H1 & _).
        { destruct C3 as [Hl Hb]. unfold Code. destruct (o_codes obj) as [|a [|b [|c [|]]]]; try discriminate.
          inversion Hb as [|? ? Ha Hb1]; subst. inversion Hb1 as [|? ? Hb2 Hc]; subst. inversion Hc as [|? ? Hc1 _]; subst.
          rewrite ByteToInteger_3 by assumption. unfold is_byte in *. lia. }
        split; [rewrite H1, CC; reflexivity|]. constructor; [reflexivity|constructor].
      - rewrite (look_none _ _ _ _ _ F Lk). apply spoke_nil. reflexivity. }
    destruct (x_find w1 (s_profiles s1) NodeProfileObjectCode) as [o|] eqn:F1.
    - destruct (G _ _ F1) as (i & -> & H). exact H.
    - pose proof (find_seen w1 n _ _ NodeProfileObjectCode P1) as F1'. rewrite F1 in F1'. rewrite F1'. cbn [option_map].
      destruct (x_find w1 (s_profiles s1) NodeProfileObjectReadOnlyCode) as [o|] eqn:F2.
      + destruct (G _ _ F2) as (i & -> & H). exact H.
      + pose proof (find_seen w1 n _ _ NodeProfileObjectReadOnlyCode P1) as F2'. rewrite F2 in F2'. rewrite F2'.
        apply spoke_nil. reflexivity. }
  destruct Q as (Q1 & Q2). destruct (node_fields _ _ Q2) as (QD & QP & QM & QR).
  split; [|split; [exact Q1|split; [exact W1|exact R1]]].
  exists s1. cbn [fst]. rewrite QD, QP, QM, QR. auto 10.
Qed.

(** ** All nodes and objects *)

Record related (w : state) (v : shelf) : Prop := {
  r_places : length (v_places v) = length (things w);
  r_sites : length (v_nodes v) = length (sites w);
  r_nodes : forall n nd, nth_error (v_nodes v) n = Some nd -> matches w n nd;
  r_loose : forall x obj, nth_error (v_places v) x = Some (Loose obj) -> sees w x obj /\ x_ObjNode w x = None;
  r_inside : forall x n r, nth_error (v_places v) x = Some (Inside n r) <-> ref w n r = Some x }.

Definition said_of (v : shelf) (n : nat) : list (Z * pprop) :=
  match nth_error (v_nodes v) n with Some nd => said nd | None => [] end.

Definition by_node (n : nat) (l : list shout) : list (Z * pprop) :=
  map (fun s => (sh_from s, sh_what s)) (filter (fun s => Nat.eqb (sh_node s) n) l).

Definition heard (v v' : shelf) (l : list shout) : Prop := forall n, said_of v' n = said_of v n ++ by_node n l.

Lemma by_app n a b : by_node n (a ++ b) = by_node n a ++ by_node n b.
Proof. unfold by_node. rewrite filter_app, map_app. reflexivity. Qed.

Lemma by_other n m l : Forall (fun s => sh_node s = n) l -> m <> n -> by_node m l = [].
Proof.
  intros F N. unfold by_node. induction F as [|s l E F IH]; cbn; [reflexivity|].
  destruct (Nat.eqb (sh_node s) m) eqn:X; [apply Nat.eqb_eq in X; congruence|exact IH].
Qed.

Lemma by_own n l : Forall (fun s => sh_node s = n) l -> by_node n l = map (fun s => (sh_from s, sh_what s)) l.
Proof.
  intros F. unfold by_node. induction F as [|s l E F IH]; cbn; [reflexivity|]. rewrite E, Nat.eqb_refl. cbn. rewrite IH. reflexivity.
Qed.

Lemma heard_silent v v' : (forall n, said_of v' n = said_of v n) -> heard v v' [].
Proof. intros H n. rewrite H. symmetry. apply app_nil_r. Qed.

Lemma heard_node v places n nd nd' l : nth_error (v_nodes v) n = Some nd -> spoke n nd nd' l ->
  heard v (mkShelf places (set_nth (v_nodes v) n nd')) l.
Proof.
  intros N (S & F) m. unfold said_of. cbn [v_nodes]. rewrite nth_set. destruct (Nat.eqb n m) eqn:E.
  - apply Nat.eqb_eq in E. subst m. rewrite N, S, by_own by exact F. reflexivity.
  - apply Nat.eqb_neq in E. rewrite (by_other n m l F) by congruence. symmetry. apply app_nil_r.
Qed.

Lemma site_lt w n nd : matches w n nd -> (n < length (sites w))%nat.
Proof. intros (s & S & _). apply nth_error_Some. unfold site_at in S. congruence. Qed.

(** A node changes. *)
Lemma related_turn w v n nd p nd' : related w v -> nth_error (v_nodes v) n = Some nd -> turns n w nd p nd' ->
  related (fst p) (mkShelf (v_places v) (set_nth (v_nodes v) n nd')) /\
  heard v (mkShelf (v_places v) (set_nth (v_nodes v) n nd')) (snd p).
Proof.
  intros R N (M & S & W & E). split; [|exact (heard_node v _ n nd nd' _ N S)].
  split; cbn [v_places v_nodes].
  - rewrite (i_things _ _ _ W). apply (r_places _ _ R).
  - rewrite len_set, (i_count _ _ _ W). apply (r_sites _ _ R).
  - intros m ndm H. rewrite nth_set in H. destruct (Nat.eqb n m) eqn:X.
    + apply Nat.eqb_eq in X. subst m. rewrite N in H. injection H as <-. exact M.
    + apply Nat.eqb_neq in X. apply (within_matches n m w); [exact W|congruence|]. apply (r_nodes _ _ R _ _ H).
  - intros x obj H. destruct (r_loose _ _ R _ _ H) as (A & B). rewrite (i_node _ _ _ W). split; [|exact B].
    apply (i_sees _ _ _ W); [congruence|exact A].
  - intros x m r. rewrite E. apply (r_inside _ _ R).
Qed.

(** A loose object changes. *)
Lemma related_loose w v x obj w' obj' : related w v -> nth_error (v_places v) x = Some (Loose obj) ->
  others x w w' -> sees w' x obj' -> related w' (mkShelf (set_nth (v_places v) x (Loose obj')) (v_nodes v)).
Proof.
  intros R L A S. destruct (r_loose _ _ R _ _ L) as (_ & Nx). split; cbn [v_places v_nodes].
  - rewrite len_set, (h_count _ _ _ A). apply (r_places _ _ R).
  - rewrite (h_sites _ _ _ A). apply (r_sites _ _ R).
  - intros n nd H. destruct (r_nodes _ _ R _ _ H) as (s & Sn & Ln & Rn & Mn & D & P & U). exists s.
    unfold site_at in *. rewrite (h_sites _ _ _ A).
    assert (K : forall a b, held w n a b -> held w' n a b).
    { intros a b (Ha & Hn). split; [|rewrite (others_node _ _ _ _ A); exact Hn].
      apply (others_sees _ _ _ _ _ A); [congruence|exact Ha]. }
    repeat split; try assumption; eapply F2_impl; eauto.
  - intros y o H. rewrite nth_set in H. rewrite (others_node _ _ _ _ A). destruct (Nat.eqb x y) eqn:X.
    + apply Nat.eqb_eq in X. subst y. rewrite L in H. injection H as <-. auto.
    + apply Nat.eqb_neq in X. destruct (r_loose _ _ R _ _ H) as (B & C). split; [|exact C].
      apply (others_sees _ _ _ _ _ A); [congruence|exact B].
  - intros y n r. rewrite (ref_same _ _ _ _ (h_sites _ _ _ A)). rewrite <- (r_inside _ _ R), nth_set.
    destruct (Nat.eqb x y) eqn:X; [|reflexivity]. apply Nat.eqb_eq in X. subst y. rewrite L. split; intros H; discriminate H.
Qed.

Lemma alter_ok w v x f F v' : related w v -> fits x f F ->
  alter v x F = Some v' -> related (fst (f w)) v' /\ heard v v' (snd (f w)).
Proof.
  intros R H E. unfold alter in E. destruct (nth_error (v_places v) x) as [[obj|n r]|] eqn:P.
  - destruct (F obj) as [(obj', ev)|] eqn:EF; [|discriminate E]. injection E as <-.
    destruct (r_loose _ _ R _ _ P) as (S & N). destruct (H _ _ _ _ S EF) as (S' & V & A). split.
    + apply (related_loose w v x obj); assumption.
    + rewrite V, voice_none by exact N. apply heard_silent. reflexivity.
  - destruct (nth_error (v_nodes v) n) as [nd|] eqn:N; [|discriminate E].
    destruct (obj_at nd r) as [obj|] eqn:O; [|discriminate E].
    destruct (F obj) as [(obj', ev)|] eqn:EF; [|discriminate E]. injection E as <-.
    apply (r_inside _ _ R) in P.
    destruct (evolves_fits n w nd r x f F obj obj' ev (r_nodes _ _ R _ _ N) P H O EF) as (V & _).
    exact (related_turn w v n nd (f w) _ R N (evolves_turns _ _ _ _ _ V)).
  - discriminate E.
Qed.

(** *** New objects and nodes *)

Lemma sees_new w x obj : sees w x obj -> sees (fst (x_newObject w)) x obj.
Proof.
  intros (t & T & H). exists t. split; [|exact H]. unfold thing_at in *. cbn. apply nth_app_old, T.
Qed.

Lemma node_new w x : x_ObjNode (fst (x_newObject w)) x = x_ObjNode w x.
Proof.
  unfold x_ObjNode, thing_at. cbn. destruct (nth_error (things w) x) as [t|] eqn:E.
  - rewrite (nth_app_old _ _ _ _ E). reflexivity.
  - destruct (nth_error (things w ++ [mkThing 0 [] None]) x) as [t|] eqn:E'; [|reflexivity].
    apply nth_app_inv in E' as [E'|(_ & ->)]; [congruence|reflexivity].
Qed.

Lemma sees_lt w x obj : sees w x obj -> (x < length (things w))%nat.
Proof. intros (t & T & _). apply nth_error_Some. unfold thing_at in T. congruence. Qed.

Lemma made_rest f obj w : makes f obj -> let o := length (things w) in let w' := fst (f o w) in
  sites w' = sites w /\ length (things w') = S (length (things w)) /\ (forall x, x_ObjNode w' x = x_ObjNode w x) /\
  (forall x o', x <> o -> sees w x o' -> sees w' x o').
Proof.
  intros M o w'. destruct (M w) as (S & A & V). fold o in S, A. fold w' in S, A.
  split; [rewrite (h_sites _ _ _ A); reflexivity|]. split.
  - rewrite (h_count _ _ _ A). cbn. rewrite app_length. cbn. lia.
  - split; [intros x; rewrite (others_node _ _ _ _ A); apply node_new|].
    intros x o' N H. apply (others_sees _ _ _ _ _ A N), sees_new, H.
Qed.

Lemma related_device w v f obj : related w v -> makes f obj ->
  let o := length (things w) in
  related (fst (f o w)) (mkShelf (v_places v ++ [Loose obj]) (v_nodes v)) /\ snd (f o w) = [].
Proof.
  intros R M o. destruct (M w) as (S & A & V). destruct (made_rest f obj w M) as (ES & LT & NO & SE). fold o in S, A, V, ES, LT, NO, SE.
  set (w' := fst (f o w)) in *. split; [|exact V].
  assert (NN : x_ObjNode w o = None).
  { unfold x_ObjNode, thing_at, o. replace (nth_error (things w) (length (things w))) with (@None thing);
      [reflexivity|]. symmetry. apply nth_error_None. lia. }
  split; cbn [v_places v_nodes].
  - rewrite app_length, LT, (r_places _ _ R). cbn. lia.
  - rewrite ES. apply (r_sites _ _ R).
  - intros n nd H. destruct (r_nodes _ _ R _ _ H) as (s & Sn & Ln & Rn & Mn & D & P & U). exists s.
    unfold site_at in *. rewrite ES.
    assert (K : forall a b, held w n a b -> held w' n a b).
    { intros a b (Ha & Hn). split; [|rewrite NO; exact Hn]. apply SE; [congruence|exact Ha]. }
    repeat split; try assumption; eapply F2_impl; eauto.
  - intros x o' H. apply nth_snoc in H as [H|(E & H)].
    + destruct (r_loose _ _ R _ _ H) as (B & C). rewrite NO. split; [|exact C]. apply SE; [|exact B].
      apply sees_lt in B. unfold o. lia.
    + injection H as ->. rewrite E, (r_places _ _ R). fold o. rewrite NO. auto.
  - intros x n r. rewrite (ref_same w w' n r ES), <- (r_inside _ _ R), nth_snoc. split; [|auto].
    intros [H|(_ & H)]; [exact H|discriminate H].
Qed.

Lemma related_new_site w v : related w v ->
  let w' := mkState (cells w) (things w) (sites w ++ [mkSite true false [] [] NodeManufacturerExperimental]) in
  related w' (mkShelf (v_places v) (v_nodes v ++ [emptyNode])).
Proof.
  intros R w'. assert (SO : forall n s, site_at w n = Some s -> site_at w' n = Some s).
  { intros n s H. unfold site_at in *. cbn. apply nth_app_old, H. }
  split; cbn [v_places v_nodes].
  - apply (r_places _ _ R).
  - cbn. rewrite !app_length, (r_sites _ _ R). reflexivity.
  - intros n nd H. apply nth_snoc in H as [H|(-> & ->)].
    + destruct (r_nodes _ _ R _ _ H) as (s & Sn & rest). exists s. split; [apply SO, Sn|exact rest].
    + exists (mkSite true false [] [] NodeManufacturerExperimental). split.
      * unfold site_at, w'. cbn. rewrite (r_sites _ _ R). apply nth_app_new.
      * repeat split; constructor.
  - exact (r_loose _ _ R).
  - intros x n r. rewrite (r_inside _ _ R). unfold ref. unfold site_at at 2. cbn. unfold site_at.
    destruct (nth_error (sites w) n) as [s|] eqn:E.
    + rewrite (nth_app_old _ _ _ _ E). reflexivity.
    + destruct (nth_error (sites w ++ [mkSite true false [] [] NodeManufacturerExperimental]) n) as [s|] eqn:E'; [|reflexivity].
      apply nth_app_inv in E' as [E'|(_ & ->)]; [congruence|].
      destruct r as [[|i]|[|i]]; cbn; split; discriminate.
Qed.

(** An object enters a node. *)
Lemma related_enter (dev : bool) w v n x nd obj : related w v -> nth_error (v_nodes v) n = Some nd ->
  nth_error (v_places v) x = Some (Loose obj) ->
  let obj1 := fst (fst (SetManufacturerCode obj (n_manufacturer nd))) in
  let p := x_Add n (if dev then [x] else []) (if dev then [] else [x]) x w in
  exists nd', updateNodeProfile (entered dev nd obj1) = Ok nd' /\
    let v' := mkShelf (set_nth (v_places v) x (Inside n (new_ref dev nd))) (set_nth (v_nodes v) n nd') in
    related (fst p) v' /\ heard v v' (snd p).
Proof.
  intros R N L obj1 p. destruct (r_loose _ _ R _ _ L) as (Sx & Nx).
  destruct (add_steps dev n x w nd obj (r_nodes _ _ R _ _ N) Sx Nx) as (w3 & M3 & SE & NO & ST & LS & LT & RF & EQ).
  fold obj1 in M3. fold p in EQ. destruct (evolves_update n w3 _ M3) as (nd' & U & (M4 & S4 & W4 & E4)).
  exists nd'. split; [exact U|]. rewrite EQ. set (w4 := fst (x_updateNodeProfile n w3)) in *.
  assert (X : (x < length (v_places v))%nat) by (apply nth_error_Some; congruence).
  split; [|exact (heard_node v _ n nd nd' _ N S4)].
  split; cbn [v_places v_nodes].
  - rewrite len_set, (i_things _ _ _ W4), LT. apply (r_places _ _ R).
  - rewrite len_set, (i_count _ _ _ W4), LS. apply (r_sites _ _ R).
  - intros m ndm H. rewrite nth_set in H. destruct (Nat.eqb n m) eqn:Y.
    + apply Nat.eqb_eq in Y. subst m. rewrite N in H. injection H as <-. exact M4.
    + apply Nat.eqb_neq in Y. apply (within_matches n m w3); [exact W4|congruence|].
      destruct (r_nodes _ _ R _ _ H) as (s & Sn & Ln & Rn & Mn & D & P & Un). exists s. rewrite ST by congruence.
      assert (K : forall a b, held w m a b -> held w3 m a b).
      { intros a b (Ha & Hn). assert (a <> x) by congruence. split; [apply SE; assumption|]. rewrite NO.
        destruct (Nat.eqb x a) eqn:Z; [apply Nat.eqb_eq in Z; congruence|exact Hn]. }
      repeat split; try assumption; eapply F2_impl; eauto.
  - intros y o H. rewrite nth_set in H. destruct (Nat.eqb x y) eqn:Y.
    + apply Nat.eqb_eq in Y. subst y. rewrite L in H. discriminate H.
    + pose proof Y as Y'. apply Nat.eqb_neq in Y. destruct (r_loose _ _ R _ _ H) as (B & C).
      assert (N3 : x_ObjNode w3 y = None) by (rewrite NO, Y'; exact C).
      rewrite (i_node _ _ _ W4). split; [|exact N3]. apply (i_sees _ _ _ W4); [congruence|]. apply SE; [congruence|exact B].
  - intros y m r. rewrite (ref_same _ _ _ _ E4), nth_set.
    assert (RM : ref w3 m r = Some y <-> ref w m r = Some y \/ (y = x /\ m = n /\ r = new_ref dev nd)).
    { destruct (Nat.eq_dec m n) as [->|D].
      - rewrite RF. tauto.
      - unfold ref. rewrite ST by exact D. tauto. }
    rewrite RM, <- (r_inside _ _ R). destruct (Nat.eqb x y) eqn:Y.
    + apply Nat.eqb_eq in Y. subst y. rewrite L. split.
      * intros H. injection H as <- <-. auto.
      * intros [H|(_ & -> & ->)]; [discriminate H|reflexivity].
    + apply Nat.eqb_neq in Y. split; [auto|]. intros [H|(H & _)]; [exact H|congruence].
Qed.

(** ** A step *)

Lemma one_call c w : program [c] w = does c w.
Proof. unfold program. cbn [each]. unfold andthen, skip. destruct (does c w) as (w1, l1). rewrite app_nil_r. reflexivity. Qed.

Lemma two_calls q x w :
  program [NewPropertyFor q None; AddPropertyTo x (length (cells w))] w = x_AddFresh x q w.
Proof.
  unfold program. cbn [each does]. unfold x_AddFresh, andthen, skip.
  destruct (x_NewProperty q None w) as (w1, l1). destruct (x_Super_AddProperty x (length (cells w)) w1) as (w2, l2).
  rewrite app_nil_r. reflexivity.
Qed.

Lemma step_related e w v v' : related w v -> vdoes e v = Some v' ->
  related (fst (program (calls_of w e) w)) v' /\ heard v v' (snd (program (calls_of w e) w)).
Proof.
  intros R E. destruct e as [code| |x code d|x q|x code|n x|n code|n|n]; cbn [calls_of vdoes] in *; rewrite ?one_call; cbn [does].
  - destruct (NewDeviceWithCode code) as [o| |] eqn:ED; try discriminate E. injection E as <-.
    destruct (related_device w v _ o R (makes_device code o ED)) as (R' & V').
    unfold x_NewDevice. cbv zeta. rewrite V'. split; [exact R'|]. apply heard_silent. reflexivity.
  - unfold newLocalNode in E. destruct NewNodeProfile as [np| |] eqn:EP; try discriminate E. cbn [bind] in E.
    set (w1 := mkState (cells w) (things w) (sites w ++ [mkSite true false [] [] NodeManufacturerExperimental])).
    pose proof (related_new_site w v R) as R1. cbv zeta in R1. fold w1 in R1.
    destruct (related_device w1 _ _ np R1 (makes_profile np EP)) as (R2 & V2). cbn [v_places v_nodes] in R2.
    set (o := length (things w1)) in *.
    set (mk := andthen (andthen (x_NewSuper o) (x_SetCode o NodeProfileObjectCode)) (x_SetCode o NodeProfileObjectCode)) in *.
    destruct (related_enter false (fst (mk w1)) _ (length (v_nodes v)) o emptyNode np R2) as (nd' & U & R3 & H3).
    { cbn [v_nodes]. apply nth_app_new. }
    { cbn [v_places]. unfold o. cbn. rewrite <- (r_places _ _ R). apply nth_app_new. }
    cbn [v_places v_nodes] in R3, H3.
    assert (EN : Node_AddProfile emptyNode np = Ok nd').
    { unfold Node_AddProfile. rewrite <- U. unfold entered.
      destruct (SetManufacturerCode np (n_manufacturer emptyNode)) as ((a, b), c). cbn [fst]. rewrite app_nil_r. reflexivity. }
    rewrite EN in E. injection E as <-.
    assert (EV : mkShelf (set_nth (v_places v ++ [Loose np]) o (Inside (length (v_nodes v)) (new_ref false emptyNode)))
                   (set_nth (v_nodes v ++ [emptyNode]) (length (v_nodes v)) nd') =
                 mkShelf (v_places v ++ [Inside (length (v_nodes v)) (ProfRef 0)]) (v_nodes v ++ [nd'])).
    { unfold o. cbn [things w1]. rewrite <- (r_places _ _ R). f_equal.
      - clear. induction (v_places v) as [|a l IH]; cbn; [reflexivity|]. cbn in IH. rewrite IH. reflexivity.
      - clear. induction (v_nodes v) as [|a l IH]; cbn; [reflexivity|]. rewrite IH. reflexivity. }
    rewrite EV in R3, H3.
    assert (EW : x_NewNode true w = x_Add (length (v_nodes v)) [] [o] o (fst (mk w1))).
    { unfold x_NewNode. cbv zeta. cbn [silent]. unfold andthen at 1. cbn [fst snd silent]. fold w1. rewrite <- (r_sites _ _ R).
      change (length (things w)) with o. rewrite <- andthen_assoc, <- andthen_assoc. fold mk.
      unfold andthen at 1. rewrite (surjective_pairing (mk w1)), V2. unfold x_AddProfile. cbn [fst].
      destruct (x_Add (length (v_nodes v)) [] [o] o (fst (mk w1))) as (w9, l9). reflexivity. }
    rewrite EW. split; [exact R3|]. intros n. rewrite H3. f_equal. unfold said_of. cbn [v_nodes].
    destruct (nth_error (v_nodes v) n) as [nd|] eqn:X; [rewrite (nth_app_old _ _ _ _ X); reflexivity|].
    destruct (nth_error (v_nodes v ++ [emptyNode]) n) as [nd|] eqn:X'; [|reflexivity].
    apply nth_app_inv in X' as [X'|(_ & ->)]; [congruence|reflexivity].
  - exact (alter_ok w v x _ _ v' R (fits_set x code d) E).
  - rewrite two_calls. exact (alter_ok w v x _ (adding q) v' R (sim_fits _ _ _ (sim_AddFresh x q)) E).
  - exact (alter_ok w v x _ (recoding code) v' R (fits_SetCode x code) E).
  - destruct (nth_error (v_nodes v) n) as [nd|] eqn:N; [|discriminate E].
    destruct (nth_error (v_places v) x) as [[obj|m r]|] eqn:P; [|discriminate E|discriminate E].
    destruct (related_enter true w v n x nd obj R N P) as (nd' & U & R1 & H1).
    assert (EN : Node_AddDevice nd obj = Ok nd').
    { unfold Node_AddDevice. rewrite <- U. unfold entered.
      destruct (SetManufacturerCode obj (n_manufacturer nd)) as ((a, b), c). cbn [fst]. rewrite app_nil_r. reflexivity. }
    rewrite EN in E. injection E as <-. split; [exact R1|exact H1].
  - unfold on_node in E. destruct (nth_error (v_nodes v) n) as [nd|] eqn:N; [|discriminate E]. injection E as <-.
    exact (related_turn w v n nd _ _ R N (turns_manufacturer n w nd code (r_nodes _ _ R _ _ N))).
  - unfold on_node in E. destruct (nth_error (v_nodes v) n) as [nd|] eqn:N; [|discriminate E]. injection E as <-.
    exact (related_turn w v n nd _ _ R N (turns_start n w nd (r_nodes _ _ R _ _ N))).
  - unfold on_node in E. destruct (nth_error (v_nodes v) n) as [nd|] eqn:N; [|discriminate E]. injection E as <-.
    exact (related_turn w v n nd _ _ R N (turns_stop n w nd (r_nodes _ _ R _ _ N))).
Qed.

(** ** A whole program *)

Lemma related_nothing : related nothing bare.
Proof.
  split; try reflexivity.
  - intros [|n] nd H; discriminate H.
  - intros [|x] obj H; discriminate H.
  - intros x n r. unfold ref. assert (N : site_at nothing n = None) by (destruct n; reflexivity). rewrite N.
    assert (P : nth_error (v_places bare) x = None) by (destruct x; reflexivity). rewrite P. split; discriminate.
Qed.

Lemma heard_trans v1 v2 v3 a b : heard v1 v2 a -> heard v2 v3 b -> heard v1 v3 (a ++ b).
Proof. intros A B n. rewrite B, A, by_app, app_assoc. reflexivity. Qed.

Lemma play_related es : forall w v v', related w v -> vplay es v = Some v' ->
  related (fst (play es w)) v' /\ heard v v' (snd (play es w)).
Proof.
  induction es as [|e es IH]; intros w v v' R E; cbn [vplay] in E.
  - injection E as <-. split; [exact R|]. apply heard_silent. reflexivity.
  - destruct (vdoes e v) as [v1|] eqn:E1; [|discriminate E]. destruct (step_related e w v v1 R E1) as (R1 & H1).
    destruct (IH _ _ _ R1 E) as (R2 & H2). unfold play in *. cbn [each]. rewrite fst_andthen, snd_andthen.
    split; [exact R2|]. exact (heard_trans _ _ _ _ _ H1 H2).
Qed.

Lemma vplay_app a b v : vplay (a ++ b) v = match vplay a v with Some v' => vplay b v' | None => None end.
Proof.
  revert v. induction a as [|e a IH]; intros v; cbn [vplay app]; [reflexivity|]. destruct (vdoes e v); [apply IH|reflexivity].
Qed.

(** *** No call of a proper program panics *)

Record good (v : shelf) : Prop := {
  g_loose : forall x o, nth_error (v_places v) x = Some (Loose o) -> obj_ok o;
  g_nodes : forall n nd, nth_error (v_nodes v) n = Some nd -> core_inv (core_of nd) }.

Lemma good_node v n nd' : good v -> core_inv (core_of nd') -> good (mkShelf (v_places v) (set_nth (v_nodes v) n nd')).
Proof.
  intros G K. split; cbn [v_places v_nodes]; [apply (g_loose _ G)|]. intros m nd H. rewrite nth_set in H.
  destruct (Nat.eqb n m); [|apply (g_nodes _ G _ _ H)]. destruct (nth_error (v_nodes v) n); [|discriminate H].
  injection H as <-. exact K.
Qed.

Lemma good_loose v x o : good v -> obj_ok o -> good (mkShelf (set_nth (v_places v) x (Loose o)) (v_nodes v)).
Proof.
  intros G K. split; cbn [v_places v_nodes]; [|apply (g_nodes _ G)]. intros y o' H. rewrite nth_set in H.
  destruct (Nat.eqb x y); [|apply (g_loose _ G _ _ H)]. destruct (nth_error (v_places v) x); [|discriminate H].
  injection H as <-. exact K.
Qed.

Lemma at_ok nd r o : core_inv (core_of nd) -> obj_at nd r = Some o -> obj_ok o.
Proof.
  intros (H1 & H2 & _) E. cbn [core_of k_devs k_profs] in *. rewrite Forall_forall in H1, H2.
  destruct r; cbn [obj_at] in E; apply nth_error_In in E; auto.
Qed.

Lemma recode_ok o code : obj_ok o -> 0 <= code < 2 ^ 64 -> exists o' ev, Super_SetCode o code = Some (o', ev) /\ obj_ok o'.
Proof.
  intros (C & W) H. pose proof (Z.mod_pos_bound code (2 ^ 24)) as B.
  destruct (selects_dec code) as [(c & Sc)|Sc]; [lia| |].
  - destruct (Super_SetCode_known o code c C W H Sc) as (ev & E). eexists _, ev. split; [exact E|].
    split; [apply be3_code3; lia|]. apply with_std_wf; [exact W|]. apply class_props_wf, Sc.
  - eexists _, _. split; [apply (Super_SetCode_unknown o code C H Sc)|]. split; [apply be3_code3; lia|exact W].
Qed.

Lemma inside_at w v x n r : related w v -> nth_error (v_places v) x = Some (Inside n r) ->
  exists nd o, nth_error (v_nodes v) n = Some nd /\ obj_at nd r = Some o.
Proof.
  intros R P. apply (r_inside _ _ R) in P.
  destruct (nth_error (v_nodes v) n) as [nd|] eqn:N.
  - destruct (ref_held _ _ _ _ _ (r_nodes _ _ R _ _ N) P) as (o & O & _). eauto.
  - exfalso. apply nth_error_None in N. rewrite (r_sites _ _ R) in N. apply nth_error_None in N.
    unfold ref, site_at in P. rewrite N in P. discriminate P.
Qed.

(** a change of one object that keeps good objects good and the node profile in place *)
Lemma alter_total w v x F : related w v -> good v -> (x < length (v_places v))%nat ->
  (forall o, obj_ok o -> exists o' ev, F o = Some (o', ev) /\ obj_ok o') ->
  (forall n i, nth_error (v_places v) x = Some (Inside n (ProfRef i)) -> forall o o' ev, F o = Some (o', ev) -> obj_ok o -> grows o o') ->
  exists v', alter v x F = Some v' /\ good v'.
Proof.
  intros R G X K KG. unfold alter. destruct (nth_error (v_places v) x) as [[o|n r]|] eqn:P.
  - destruct (K o (g_loose _ G _ _ P)) as (o' & ev & -> & O'). eexists. split; [reflexivity|]. apply good_loose; assumption.
  - destruct (inside_at w v x n r R P) as (nd & o & N & O). rewrite N, O.
    pose proof (g_nodes _ G _ _ N) as C. pose proof (at_ok _ _ _ C O) as OO.
    destruct (K o OO) as (o' & ev & EF & O'). rewrite EF. eexists. split; [reflexivity|].
    apply good_node; [exact G|]. rewrite commit_core. destruct C as (C1 & C2 & C3).
    destruct r as [i|i]; unfold core_inv, put_at, core_of in *; cbn [k_devs k_profs n_devices n_profiles with_objects obj_at] in *.
    + split; [apply Forall_set_nth; assumption|]. auto.
    + split; [exact C1|]. split; [apply Forall_set_nth; assumption|].
      destruct C3 as (np & rest & E3 & Hc & Hd). rewrite E3 in *.
      destruct i as [|i]; cbn [set_nth nth_error] in *.
      * injection O as ->. destruct (KG n 0%nat eq_refl _ _ _ EF OO) as (G1 & G2). exists o', rest.
        split; [reflexivity|]. split; [congruence|auto].
      * exists np, (set_nth rest i o'). auto.
  - exfalso. apply nth_error_None in P. lia.
Qed.

Lemma op_total v n nd op : good v -> nth_error (v_nodes v) n = Some nd -> node_op_ok op ->
  exists nd', node_step op nd = Ok nd' /\ good (mkShelf (v_places v) (set_nth (v_nodes v) n nd')).
Proof.
  intros G N O. destruct (node_step_core op nd (g_nodes _ G _ _ N) O) as (nd' & E & _ & K). exists nd'. split; [exact E|].
  apply good_node; assumption.
Qed.

Lemma nth_lt {A} (l : list A) i : (i < length l)%nat -> exists a, nth_error l i = Some a.
Proof. intros H. apply nth_error_Some in H. destruct (nth_error l i); [eauto|contradiction]. Qed.

Lemma step_total e w v : related w v -> good v -> proper e -> refers v e -> exists v', vdoes e v = Some v' /\ good v'.
Proof.
  intros R G P F. destruct e as [code| |x code d|x q|x code|n x|n code|n|n]; cbn [proper refers vdoes] in *.
  - destruct P as (B & K). destruct (selects_dec code) as [(c & Sc)|Sc]; [lia| |].
    + rewrite (NewDevice_known code c B Sc). eexists. split; [reflexivity|]. pose proof (Z.mod_pos_bound code (2 ^ 24)) as M.
      split; cbn [v_places v_nodes]; [|apply (g_nodes _ G)]. intros x o H. apply nth_snoc in H as [H|(_ & H)]; [apply (g_loose _ G _ _ H)|].
      injection H as ->. split; [apply be3_code3; lia|]. apply with_std_wf; [apply new_super_wf|apply class_props_wf, Sc].
    + exfalso. apply K, DB_lookup_none; [lia|exact Sc].
  - destruct newLocalNode_core as (nd & -> & K & _). eexists. split; [reflexivity|]. split; cbn [v_places v_nodes].
    + intros x o H. apply nth_snoc in H as [H|(_ & H)]; [apply (g_loose _ G _ _ H)|discriminate H].
    + intros n nd' H. apply nth_snoc in H as [H|(_ & ->)]; [apply (g_nodes _ G _ _ H)|]. rewrite K. apply initial_inv.
  - apply (alter_total w); [exact R|exact G|exact F| |].
    + intros o O. pose proof (SetPropertyData_setd o code d) as E. destruct (SetPropertyData o code d) as ((o', ev), r). cbn [fst] in E. subst o'.
      eexists _, _. split; [reflexivity|]. apply setd_ok; assumption.
    + intros _ _ _ o o' ev E _. pose proof (SetPropertyData_setd o code d) as E'. destruct (SetPropertyData o code d) as ((o1, e1), r).
      cbn [fst] in E'. injection E as <- <-. subst o1. apply setd_grows.
  - assert (PW : prop_wf q) by exact P. apply (alter_total w); [exact R|exact G|exact F| |].
    + intros o (C & W). rewrite Super_AddProperty_spec by assumption. eexists _, _. split; [reflexivity|].
      exact (add_std_ok q o PW (conj C W)).
    + intros _ _ _ o o' ev E (_ & W). rewrite Super_AddProperty_spec in E by assumption. injection E as <- _. exact (add_std_grows q o).
  - apply (alter_total w); [exact R|exact G| | |].
    + apply nth_error_Some. destruct (nth_error (v_places v) x); [discriminate|contradiction].
    + intros o O. apply recode_ok; assumption.
    + intros n i H. rewrite H in F. contradiction.
  - destruct F as (Ln & o & Po). destruct (nth_lt _ _ Ln) as (nd & N). rewrite N, Po.
    destruct (op_total v n nd (NAddDevice o) G N (g_loose _ G _ _ Po)) as (nd' & E & G'). cbn [node_step] in E. rewrite E.
    eexists. split; [reflexivity|]. split; cbn [v_places v_nodes]; [|exact (g_nodes _ G')].
    intros y o' H. rewrite nth_set in H. destruct (Nat.eqb x y); [|apply (g_loose _ G _ _ H)].
    destruct (nth_error (v_places v) x); discriminate H.
  - destruct (nth_lt _ _ F) as (nd & N). unfold on_node. rewrite N. eexists. split; [reflexivity|].
    destruct (op_total v n nd (NSetManufacturer code) G N Logic.I) as (nd' & E & G'). injection E as <-. exact G'.
  - destruct (nth_lt _ _ F) as (nd & N). unfold on_node. rewrite N. eexists. split; [reflexivity|].
    destruct (op_total v n nd (NStart None) G N Logic.I) as (nd' & E & G'). injection E as <-. exact G'.
  - destruct (nth_lt _ _ F) as (nd & N). unfold on_node. rewrite N. eexists. split; [reflexivity|].
    destruct (op_total v n nd NStop G N Logic.I) as (nd' & E & G'). injection E as <-. exact G'.
Qed.

Lemma vplay_total es : forall w v, related w v -> good v -> sensible v es -> exists v', vplay es v = Some v'.
Proof.
  induction es as [|e es IH]; intros w v R G F; cbn [vplay sensible] in *; [eauto|]. destruct F as (P & Q & F).
  destruct (step_total e w v R G P Q) as (v1 & E1 & G1). rewrite E1.
  destruct (step_related e w v v1 R E1) as (R1 & _). exact (IH _ _ R1 G1 (F v1 E1)).
Qed.

Lemma good_bare : good bare.
Proof. split; intros [|n] a H; discriminate H. Qed.

(** *** What is seen of an object *)

Lemma value_sees w v x o : related w v -> value_at v x = Some o -> sees w x o.
Proof.
  intros R E. unfold value_at in E. destruct (nth_error (v_places v) x) as [[o'|n r]|] eqn:P; [|destruct (nth_error (v_nodes v) n) as [nd|] eqn:N; [|discriminate E]|discriminate E].
  - injection E as <-. apply (r_loose _ _ R _ _ P).
  - apply (r_inside _ _ R) in P. destruct (ref_held _ _ _ _ _ (r_nodes _ _ R _ _ N) P) as (o1 & O & (S & _)).
    rewrite O in E. injection E as <-. exact S.
Qed.

Lemma value_some w v x : related w v -> (x < length (v_places v))%nat -> exists o, value_at v x = Some o.
Proof.
  intros R X. destruct (nth_lt _ _ X) as (p & P). unfold value_at. rewrite P. destruct p as [o|n r]; [eauto|].
  destruct (inside_at w v x n r R P) as (nd & o & -> & ->). eauto.
Qed.

(** *** What a call leaves alone *)

Lemma at_other nd r r' o : r <> r' -> obj_at (put_at nd r o) r' = obj_at nd r'.
Proof.
  intros N. destruct r as [i|i], r' as [j|j]; cbn; try reflexivity; rewrite nth_set; destruct (Nat.eqb i j) eqn:E;
    try reflexivity; apply Nat.eqb_eq in E; congruence.
Qed.

Lemma at_core nd nd' r : core_of nd = core_of nd' -> obj_at nd r = obj_at nd' r.
Proof. intros E. destruct (node_fields _ _ E) as (D & P & _). destruct r; cbn; congruence. Qed.

Lemma alter_other w v x F v' y : related w v -> alter v x F = Some v' -> y <> x -> value_at v' y = value_at v y.
Proof.
  intros R E N. unfold alter in E. destruct (nth_error (v_places v) x) as [[o|n r]|] eqn:P; [| |discriminate E].
  - destruct (F o) as [(o', ev)|]; [|discriminate E]. injection E as <-. unfold value_at. cbn [v_places v_nodes]. rewrite nth_set.
    destruct (Nat.eqb x y) eqn:X; [apply Nat.eqb_eq in X; congruence|reflexivity].
  - destruct (nth_error (v_nodes v) n) as [nd|] eqn:Nn; [|discriminate E]. destruct (obj_at nd r) as [o|] eqn:O; [|discriminate E].
    destruct (F o) as [(o', ev)|]; [|discriminate E]. injection E as <-. unfold value_at. cbn [v_places v_nodes].
    destruct (nth_error (v_places v) y) as [[oy|m r']|] eqn:Py; try reflexivity. rewrite nth_set.
    destruct (Nat.eqb n m) eqn:X; [|reflexivity]. apply Nat.eqb_eq in X. subst m. rewrite Nn.
    rewrite (at_core (commit nd r o' ev) (put_at nd r o')) by apply commit_core. apply at_other. intros <-.
    apply (r_inside _ _ R) in P. apply (r_inside _ _ R) in Py. congruence.
Qed.

Lemma node_other v n nd' y : (forall r, nth_error (v_places v) y <> Some (Inside n r)) ->
  value_at (mkShelf (v_places v) (set_nth (v_nodes v) n nd')) y = value_at v y.
Proof.
  intros N. unfold value_at. cbn [v_places v_nodes]. destruct (nth_error (v_places v) y) as [[o|m r]|]; try reflexivity.
  rewrite nth_set. destruct (Nat.eqb n m) eqn:X; [|reflexivity]. apply Nat.eqb_eq in X. subst m. exfalso. apply (N r). reflexivity.
Qed.

Lemma node_core v n nd nd' y : nth_error (v_nodes v) n = Some nd -> (forall r, obj_at nd' r = obj_at nd r) ->
  value_at (mkShelf (v_places v) (set_nth (v_nodes v) n nd')) y = value_at v y.
Proof.
  intros N C. unfold value_at. cbn [v_places v_nodes]. destruct (nth_error (v_places v) y) as [[o|m r]|]; try reflexivity.
  rewrite nth_set. destruct (Nat.eqb n m) eqn:X; [|reflexivity]. apply Nat.eqb_eq in X. subst m. rewrite N. apply C.
Qed.

Lemma step_other e w v v' y : related w v -> vdoes e v = Some v' -> ~ concerns v e y -> value_at v' y = value_at v y.
Proof.
  intros R E N. destruct e as [code| |x code d|x q|x code|n x|n code|n|n]; cbn [vdoes concerns] in *;
    try (apply (alter_other w v x _ v' y R E); exact N).
  - destruct (NewDeviceWithCode code) as [o| |]; try discriminate E. injection E as <-. unfold value_at. cbn [v_places v_nodes].
    destruct (nth_error (v_places v) y) as [p|] eqn:P; [rewrite (nth_app_old _ _ _ _ P); reflexivity|].
    destruct (nth_error (v_places v ++ [Loose o]) y) as [p|] eqn:P'; [|reflexivity].
    apply nth_snoc in P' as [P'|(P' & _)]; congruence.
  - destruct newLocalNode as [nd| |]; try discriminate E. injection E as <-. unfold value_at. cbn [v_places v_nodes].
    destruct (nth_error (v_places v) y) as [p|] eqn:P.
    + rewrite (nth_app_old _ _ _ _ P). destruct p as [o|n r]; [reflexivity|].
      destruct (inside_at w v y n r R P) as (nd0 & o & N0 & _). rewrite (nth_app_old _ _ _ _ N0), N0. reflexivity.
    + destruct (nth_error (v_places v ++ [Inside (length (v_nodes v)) (ProfRef 0)]) y) as [p|] eqn:P'; [|reflexivity].
      apply nth_snoc in P' as [P'|(P' & _)]; congruence.
  - destruct (nth_error (v_nodes v) n) as [nd|] eqn:Nn; [|discriminate E].
    destruct (nth_error (v_places v) x) as [[o|m r]|] eqn:Px; try discriminate E.
    destruct (Node_AddDevice nd o) as [nd'| |]; try discriminate E. injection E as <-.
    transitivity (value_at (mkShelf (v_places v) (set_nth (v_nodes v) n nd')) y).
    + unfold value_at. cbn [v_places v_nodes]. rewrite (nth_set (v_places v)).
      destruct (Nat.eqb x y) eqn:X; [apply Nat.eqb_eq in X; subst; exfalso; auto|reflexivity].
    + apply node_other. intros r H. apply N. right. eauto.
  - unfold on_node in E. destruct (nth_error (v_nodes v) n) as [nd|] eqn:Nn; [|discriminate E]. injection E as <-.
    apply node_other. intros r H. apply N. eauto.
  - unfold on_node in E. destruct (nth_error (v_nodes v) n) as [nd|] eqn:Nn; [|discriminate E]. injection E as <-.
    apply (node_core v n nd); [exact Nn|]. intros r. unfold Node_Start.
    rewrite (at_core _ (with_running nd true) r) by apply Announce_core. destruct r; reflexivity.
  - unfold on_node in E. destruct (nth_error (v_nodes v) n) as [nd|] eqn:Nn; [|discriminate E]. injection E as <-.
    apply (node_core v n nd); [exact Nn|]. intros r. destruct r; reflexivity.
Qed.

Lemma vplay_related es v : vplay es bare = Some v -> related (fst (play es nothing)) v /\ heard bare v (snd (play es nothing)).
Proof. apply play_related, related_nothing. Qed.
