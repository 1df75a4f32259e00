(** Facts about objects, the standard database and devices. *)

From Verif Require Import Go GoFacts Encoding EncodingFacts Protocol StdDB Property
  PropertyFacts Object Spec.
From Coq Require Import ZifyBool ZifyNat Permutation Sorted.
Local Open Scope Z_scope.

(** ** updatePropertyMap as a function on property lists *)

Definition codes_of (f : property -> bool) (m : props) : list Z :=
  map p_code (filter f (Properties m)).

Definition upd_props (m : props) : props :=
  set_data (set_data (set_data m 0x9F (map_bytes (codes_of IsReadable m)))
                     0x9E (map_bytes (codes_of IsWritable m)))
           0x9D (map_bytes (codes_of IsAnnounceable m)).

Definition ev_set (m : props) (c : Z) (d : list Z) : list pprop :=
  match LookupProperty m c with Some p => announcement (with_data p d) | None => [] end.

Definition upd_events (m : props) : list pprop :=
  ev_set m 0x9F (map_bytes (codes_of IsReadable m)) ++
  ev_set m 0x9E (map_bytes (codes_of IsWritable m)) ++
  ev_set m 0x9D (map_bytes (codes_of IsAnnounceable m)).

Definition add_props (m : props) (q : property) : props := upd_props (AddPropertyMap m q).

(** Values of the Go types: property codes and data are bytes. *)
Definition prop_wf (p : property) : Prop := is_byte (p_code p) /\ is_bytes (p_data p).
Definition wf (m : props) : Prop := props_ok m /\ Forall prop_wf m.

Lemma wf_nil : wf [].
Proof. split; constructor. Qed.

Lemma wf_Add m q : wf m -> prop_wf q -> wf (AddPropertyMap m q).
Proof.
  intros [H1 H2] Hq. split; [apply Add_ok; assumption|]. clear H1.
  induction H2 as [|p m Hp Hm IH]; simpl; [constructor; [assumption|constructor]|].
  destruct (p_code p =? p_code q); constructor; assumption.
Qed.

Lemma wf_set m c d : wf m -> is_bytes d -> wf (set_data m c d).
Proof.
  intros [H1 H2] Hd. split; [apply set_data_ok; assumption|]. clear H1.
  induction H2 as [|p m [Hp1 Hp2] Hm IH]; simpl; [constructor|].
  destruct (p_code p =? c); constructor; try assumption; split; assumption.
Qed.

Lemma wf_codes m : wf m -> Forall is_byte (map p_code m).
Proof.
  intros [_ H]. induction H as [|p m [Hp _] Hm IH]; simpl; constructor; assumption.
Qed.

Lemma wf_lookup m c p : wf m -> LookupProperty m c = Some p -> prop_wf p.
Proof.
  intros [_ H] HL. rewrite Forall_forall in H. apply H. eapply Lookup_In; eauto.
Qed.

Lemma Forall_map_p f m : wf m -> Forall is_byte (codes_of f m).
Proof.
  intros Hw. unfold codes_of. apply Forall_forall. intros c Hc.
  apply in_map_iff in Hc as (p & <- & Hp). apply filter_In in Hp as [Hp _].
  destruct Hw as [H1 H2]. rewrite Properties_In in Hp by assumption.
  rewrite Forall_forall in H2. apply H2. assumption.
Qed.

Lemma map_bytes_bytes codes : Forall is_byte codes -> is_bytes (map_bytes codes).
Proof.
  intros H. unfold map_bytes. destruct (Z_le_gt_dec (len codes) 15).
  - rewrite propertyMapBytes_1 by assumption. constructor.
    + pose proof (len_nonneg codes). unfold is_byte. lia.
    + clear. induction codes; simpl; constructor; [apply u8_byte|assumption].
  - destruct (propertyMapBytes_2 codes) as (cells & -> & _ & Hb & _); [lia|assumption|].
    constructor; [apply u8_byte|assumption].
Qed.

Lemma wf_upd m : wf m -> wf (upd_props m).
Proof.
  intros H. unfold upd_props.
  repeat apply wf_set; auto; apply map_bytes_bytes, Forall_map_p; assumption.
Qed.

Lemma wf_add m q : wf m -> prop_wf q -> wf (add_props m q).
Proof. intros. apply wf_upd, wf_Add; assumption. Qed.

Lemma setPropertyMapProperty_spec o c codes : Forall is_byte codes ->
  exists e, setPropertyMapProperty o c codes =
    Some (with_props o (set_data (o_props o) c (map_bytes codes)),
          ev_set (o_props o) c (map_bytes codes), e).
Proof.
  intros H. unfold setPropertyMapProperty, HasProp, ev_set.
  destruct (LookupProperty (o_props o) c) as [p|] eqn:E; simpl negb; cbv iota.
  - rewrite propertyMapBytes_ok by assumption. exists None.
    unfold SetPropertyData, SetPropertyDataMap, lift_props. rewrite E. reflexivity.
  - exists (Some ErrNotFound). rewrite set_data_absent by assumption.
    destruct o; reflexivity.
Qed.

Lemma updatePropertyMap_spec o : wf (o_props o) ->
  exists e, updatePropertyMap o =
    Some (with_props o (upd_props (o_props o)), upd_events (o_props o), e).
Proof.
  intros Hw. unfold updatePropertyMap, map_codes. cbn [fold_left fst snd].
  fold (codes_of IsReadable (o_props o)). fold (codes_of IsWritable (o_props o)).
  fold (codes_of IsAnnounceable (o_props o)).
  destruct (setPropertyMapProperty_spec o ObjectGetPropertyMap _
              (Forall_map_p IsReadable _ Hw)) as [e1 ->].
  match goal with |- context [setPropertyMapProperty ?o1 ObjectSetPropertyMap _] =>
    destruct (setPropertyMapProperty_spec o1 ObjectSetPropertyMap _
              (Forall_map_p IsWritable _ Hw)) as [e2 ->] end.
  match goal with |- context [setPropertyMapProperty ?o1 ObjectAnnoPropertyMap _] =>
    destruct (setPropertyMapProperty_spec o1 ObjectAnnoPropertyMap _
              (Forall_map_p IsAnnounceable _ Hw)) as [e3 ->] end.
  eexists. unfold upd_props, upd_events, ObjectGetPropertyMap, ObjectSetPropertyMap,
    ObjectAnnoPropertyMap. cbn [with_props o_props o_codes].
  unfold ev_set at 2 3. rewrite !Lookup_set. cbn [Z.eqb Pos.eqb].
  unfold ev_set at 2 3. rewrite app_nil_l, <- app_assoc. reflexivity.
Qed.

Lemma Super_AddProperty_spec o p : wf (o_props o) -> prop_wf p ->
  Super_AddProperty o p =
    Some (with_props o (add_props (o_props o) p), upd_events (AddPropertyMap (o_props o) p)).
Proof.
  intros Hw Hp. unfold Super_AddProperty, Obj_AddProperty.
  destruct (updatePropertyMap_spec (with_props o (AddPropertyMap (o_props o) p))) as [e ->].
  - apply wf_Add; assumption.
  - reflexivity.
Qed.

(** ** Effect of updates on lookups *)

Lemma upd_strip m : map strip (upd_props m) = map strip m.
Proof. unfold upd_props. rewrite !set_data_strip. reflexivity. Qed.

Lemma upd_codes m : map p_code (upd_props m) = map p_code m.
Proof. unfold upd_props. rewrite !set_data_codes. reflexivity. Qed.

Lemma upd_lookup_strip m c :
  option_map strip (LookupProperty (upd_props m) c) = option_map strip (LookupProperty m c).
Proof. rewrite <- !Lookup_map_strip, upd_strip. reflexivity. Qed.

Lemma upd_lookup_other m c : ~ is_map_code c ->
  LookupProperty (upd_props m) c = LookupProperty m c.
Proof.
  unfold is_map_code, upd_props. intros H. rewrite !Lookup_set.
  destruct (157 =? c) eqn:E1; [lia|]. destruct (158 =? c) eqn:E2; [lia|].
  destruct (159 =? c) eqn:E3; [lia|]. reflexivity.
Qed.

Lemma blind_r : blind IsReadable. Proof. intro; reflexivity. Qed.
Lemma blind_w : blind IsWritable. Proof. intro; reflexivity. Qed.
Lemma blind_a : blind IsAnnounceable. Proof. intro; reflexivity. Qed.

Lemma codes_of_strip f m k : blind f -> map strip m = map strip k -> codes_of f m = codes_of f k.
Proof.
  intros Hb H. unfold codes_of.
  rewrite (filter_codes_strip f (Properties m)), (filter_codes_strip f (Properties k)) by assumption.
  rewrite !Properties_strip, H. reflexivity.
Qed.

Lemma codes_of_In f m c : props_ok m ->
  (In c (codes_of f m) <-> exists p, LookupProperty m c = Some p /\ f p = true).
Proof.
  intros Hok. unfold codes_of. rewrite in_map_iff. split.
  - intros (p & <- & Hp). apply filter_In in Hp as [H1 H2].
    rewrite Properties_In in H1 by assumption. exists p. split; [|assumption].
    apply In_Lookup; assumption.
  - intros (p & H1 & H2). exists p. split; [eapply Lookup_code; eauto|].
    apply filter_In. split; [|assumption]. apply Properties_In; [assumption|].
    eapply Lookup_In; eauto.
Qed.

Lemma StronglySorted_filter f l :
  StronglySorted Z.le (map p_code l) -> StronglySorted Z.le (map p_code (filter f l)).
Proof.
  induction l as [|p l IH]; simpl; intros H; [assumption|]. inversion H as [|? ? Hs Ha]; subst.
  destruct (f p); simpl; [|auto]. constructor; [auto|].
  rewrite Forall_forall in *. intros x Hx. apply Ha.
  apply in_map_iff in Hx as (q & <- & Hq). apply filter_In in Hq as [Hq _].
  apply in_map. assumption.
Qed.

Lemma codes_of_sorted f m : StronglySorted Z.le (codes_of f m).
Proof.
  unfold codes_of. apply StronglySorted_filter. rewrite Properties_codes. apply sort_z_sorted.
Qed.

Lemma NoDup_filter_codes f l : NoDup (map p_code l) -> NoDup (map p_code (filter f l)).
Proof.
  induction l as [|p l IH]; simpl; intros H; [assumption|]. inversion H as [|? ? Hn Hd]; subst.
  destruct (f p); simpl; [|auto]. constructor; [|auto].
  intros Hx. apply Hn. apply in_map_iff in Hx as (q & Hq1 & Hq). apply filter_In in Hq as [Hq _].
  rewrite <- Hq1. apply in_map. assumption.
Qed.

Lemma codes_of_NoDup f m : props_ok m -> NoDup (codes_of f m).
Proof.
  intros H. unfold codes_of. apply NoDup_filter_codes. apply Properties_ok. assumption.
Qed.

(** ** The property maps describe the object *)

Definition maps_ok (m : props) : Prop :=
  forall c f p, In (c, f) [(0x9F, IsReadable); (0x9E, IsWritable); (0x9D, IsAnnounceable)] ->
    LookupProperty m c = Some p -> p_data p = map_bytes (codes_of f m).

Lemma maps_ok_upd m : maps_ok (upd_props m).
Proof.
  intros c f p Hin HL.
  assert (HE : codes_of f (upd_props m) = codes_of f m).
  { apply codes_of_strip; [|apply upd_strip].
    destruct Hin as [H|[H|[H|[]]]]; inv H; [apply blind_r|apply blind_w|apply blind_a]. }
  rewrite HE. unfold upd_props in HL. rewrite !Lookup_set in HL.
  destruct Hin as [H|[H|[H|[]]]]; inv H; cbn [Z.eqb Pos.eqb] in HL;
    destruct (LookupProperty m _) as [q|]; cbn in HL; inv HL; reflexivity.
Qed.

Lemma maps_ok_set m c d : ~ is_map_code c -> maps_ok m -> maps_ok (set_data m c d).
Proof.
  intros Hc H c' f p Hin HL.
  assert (HE : codes_of f (set_data m c d) = codes_of f m).
  { apply codes_of_strip; [|apply set_data_strip].
    destruct Hin as [H1|[H1|[H1|[]]]]; inv H1; [apply blind_r|apply blind_w|apply blind_a]. }
  rewrite HE. rewrite Lookup_set in HL. destruct (c =? c') eqn:E.
  - exfalso. apply Hc. assert (c = c') as -> by lia. unfold is_map_code.
    destruct Hin as [H1|[H1|[H1|[]]]]; inv H1; auto.
  - eapply H; eauto.
Qed.

(** ** Attributes *)

Definition attrs (p : property) : attr * attr * attr := (p_get p, p_set p, p_anno p).
Definition attrs_at (m : props) (c : Z) : option (attr * attr * attr) :=
  option_map attrs (LookupProperty m c).

Lemma attrs_strip m k c : map strip m = map strip k -> attrs_at m c = attrs_at k c.
Proof.
  intros H. unfold attrs_at.
  assert (H1 := Lookup_map_strip m c). assert (H2 := Lookup_map_strip k c).
  rewrite H, H2 in H1.
  destruct (LookupProperty m c) as [p|], (LookupProperty k c) as [q|]; simpl in *;
    try discriminate; [|reflexivity].
  unfold strip, with_data in H1. injection H1 as E1 E2 E3 E4. unfold attrs. congruence.
Qed.

Lemma attrs_set m c d c' : attrs_at (set_data m c d) c' = attrs_at m c'.
Proof. apply attrs_strip, set_data_strip. Qed.

Lemma attrs_upd m c : attrs_at (upd_props m) c = attrs_at m c.
Proof. apply attrs_strip, upd_strip. Qed.

Lemma attrs_add m q c :
  attrs_at (add_props m q) c = if p_code q =? c then Some (attrs q) else attrs_at m c.
Proof.
  unfold add_props. rewrite attrs_upd. unfold attrs_at. rewrite Lookup_Add.
  destruct (p_code q =? c); reflexivity.
Qed.

Definition first_some {A} (x y : option A) : option A :=
  match x with Some _ => x | None => y end.

(** Adding a list without repeated codes. *)
Lemma attrs_fold l : NoDup (map p_code l) -> forall m c,
  attrs_at (fold_left add_props l m) c = first_some (attrs_at l c) (attrs_at m c).
Proof.
  induction l as [|q l IH]; intros Hn m c; [reflexivity|]. inv Hn.
  cbn [fold_left]. rewrite IH by assumption. rewrite attrs_add.
  unfold attrs_at at 1 3. cbn [LookupProperty].
  destruct (p_code q =? c) eqn:E; [|reflexivity].
  assert (LookupProperty l c = None) as ->; [|reflexivity].
  apply Lookup_None. assert (p_code q = c) as <- by lia. assumption.
Qed.

Lemma wf_fold l : Forall prop_wf l -> forall m, wf m -> wf (fold_left add_props l m).
Proof.
  induction 1 as [|q l Hq Hl IH]; intros m Hm; [assumption|]. simpl.
  apply IH, wf_add; assumption.
Qed.

(** ** Standard properties *)

Definition copies (m : props) : list property := map prop_Copy (Properties m).

Lemma copies_codes m : map p_code (copies m) = sort_z (map p_code m).
Proof. unfold copies. rewrite map_map. simpl. apply Properties_codes. Qed.

Lemma copies_lookup m c : props_ok m ->
  LookupProperty (copies m) c = option_map prop_Copy (LookupProperty m c).
Proof.
  intros H. unfold copies. change prop_Copy with strip.
  rewrite Lookup_map_strip, Lookup_Properties by assumption. reflexivity.
Qed.

Lemma copies_attrs m c : props_ok m -> attrs_at (copies m) c = attrs_at m c.
Proof.
  intros H. unfold attrs_at. rewrite copies_lookup by assumption.
  destruct (LookupProperty m c); reflexivity.
Qed.

Lemma copies_wf m : wf m -> Forall prop_wf (copies m).
Proof.
  intros [H1 H2]. unfold copies. apply Forall_forall. intros p Hp.
  apply in_map_iff in Hp as (q & <- & Hq). rewrite Properties_In in Hq by assumption.
  rewrite Forall_forall in H2. destruct (H2 q Hq) as [Hc _]. split; [assumption|constructor].
Qed.

(** The properties after adding those of a standard object. *)
Definition with_std (m std : props) : props := fold_left add_props (copies std) m.

Lemma with_std_attrs m std c : props_ok std ->
  attrs_at (with_std m std) c = first_some (attrs_at std c) (attrs_at m c).
Proof.
  intros H. unfold with_std. rewrite attrs_fold.
  - rewrite copies_attrs by assumption. reflexivity.
  - rewrite copies_codes. apply sort_z_NoDup. assumption.
Qed.

Lemma with_std_wf m std : wf m -> wf std -> wf (with_std m std).
Proof. intros H1 H2. apply wf_fold; [apply copies_wf|]; assumption. Qed.

Lemma with_std_maps m std : maps_ok m -> maps_ok (with_std m std).
Proof.
  unfold with_std. generalize (copies std) as l. intros l H.
  revert m H. induction l as [|q l IH]; intros m H; [assumption|].
  simpl. apply IH. apply maps_ok_upd.
Qed.

Lemma addStd_fold l : forall o ev, wf (o_props o) -> Forall prop_wf (map prop_Copy l) ->
  exists ev', fold_left (fun acc stdProp =>
          match acc with
          | None => None
          | Some (o, ev) =>
              match Super_AddProperty o (prop_Copy stdProp) with
              | None => None
              | Some (o', ev') => Some (o', ev ++ ev')
              end
          end) l (Some (o, ev)) =
    Some (with_props o (fold_left add_props (map prop_Copy l) (o_props o)), ev').
Proof.
  induction l as [|p l IH]; intros o ev Hw Hl.
  - exists ev. destruct o; reflexivity.
  - inversion Hl as [|? ? Hp Hl']; subst. cbn [fold_left map].
    rewrite Super_AddProperty_spec by assumption.
    destruct (IH (with_props o (add_props (o_props o) (prop_Copy p)))
                 (ev ++ upd_events (AddPropertyMap (o_props o) (prop_Copy p)))) as [ev' ->].
    + apply wf_add; assumption.
    + assumption.
    + exists ev'. reflexivity.
Qed.

Lemma addStd_spec o code std : wf (o_props o) -> DB_LookupObject code = Some std -> wf (o_props std) ->
  exists ev, addStandardPropertiesWithCode o code =
    Some (with_props o (with_std (o_props o) (o_props std)), ev).
Proof.
  intros Hw Hdb Hs. unfold addStandardPropertiesWithCode. rewrite Hdb.
  apply addStd_fold; [assumption|]. apply copies_wf. assumption.
Qed.

Lemma addStd_none o code : DB_LookupObject code = None ->
  addStandardPropertiesWithCode o code = Some (o, []).
Proof. intros H. unfold addStandardPropertiesWithCode. rewrite H. reflexivity. Qed.

(** ** The database *)

Definition entries_props (es : list mra_entry) : props :=
  fold_left (fun m e => AddPropertyMap m (newStandardProperty e)) es [].

Lemma newStandardObject_eq c :
  newStandardObject c = mkObject [cl_grp c; cl_cls c; 0] (entries_props (cl_entries c)).
Proof.
  unfold newStandardObject, entries_props.
  generalize (@nil property) as m. induction (cl_entries c) as [|e es IH]; intros m; [reflexivity|].
  simpl. unfold Obj_AddProperty at 2. simpl. apply IH.
Qed.

(** The last entry of a code is the one that counts. *)
Fixpoint last_entry (es : list mra_entry) (c : Z) : option mra_entry :=
  match es with
  | [] => None
  | e :: t => match last_entry t c with
              | Some x => Some x
              | None => if pe_code e =? c then Some e else None
              end
  end.

Lemma entries_lookup es c :
  LookupProperty (entries_props es) c = option_map newStandardProperty (last_entry es c).
Proof.
  unfold entries_props.
  assert (H : forall m, LookupProperty (fold_left (fun m e => AddPropertyMap m (newStandardProperty e)) es m) c
    = match last_entry es c with
      | Some e => Some (newStandardProperty e) | None => LookupProperty m c end).
  { induction es as [|e es IH]; intros m; [reflexivity|].
    cbn [fold_left last_entry]. rewrite IH. destruct (last_entry es c); [reflexivity|].
    rewrite Lookup_Add. simpl. destruct (pe_code e =? c); reflexivity. }
  rewrite H. destruct (last_entry es c); reflexivity.
Qed.

Definition entry_attrs (e : mra_entry) : attr * attr * attr :=
  (rule_attr (pe_get e), rule_attr (pe_set e), rule_attr (pe_anno e)).

Lemma entries_attrs es c :
  attrs_at (entries_props es) c = option_map entry_attrs (last_entry es c).
Proof.
  unfold attrs_at. rewrite entries_lookup. destruct (last_entry es c); reflexivity.
Qed.

Definition class_ok (c : mra_class) : bool :=
  (0 <=? cl_grp c) && (cl_grp c <? 256) && (0 <=? cl_cls c) && (cl_cls c <? 256)
  && forallb (fun e => (128 <=? pe_code e) && (pe_code e <? 256)) (cl_entries c).

Lemma table_ok : forallb class_ok mra_table = true.
Proof. vm_compute. reflexivity. Qed.

Fixpoint distinct (l : list Z) : bool :=
  match l with [] => true | x :: t => negb (contains t x) && distinct t end.

Lemma distinct_NoDup l : distinct l = true -> NoDup l.
Proof.
  induction l as [|x l IH]; simpl; intros H; constructor.
  - rewrite <- contains_In. destruct (contains l x); [discriminate|congruence].
  - apply IH. apply andb_prop in H as [_ H]. assumption.
Qed.

Definition class_key (c : mra_class) : Z := cl_grp c * 65536 + cl_cls c * 256.

Lemma table_keys : NoDup (map class_key mra_table).
Proof. apply distinct_NoDup. vm_compute. reflexivity. Qed.

Lemma class_ok_of c : In c mra_table ->
  is_byte (cl_grp c) /\ is_byte (cl_cls c) /\
  Forall (fun e => 128 <= pe_code e < 256) (cl_entries c).
Proof.
  intros H. pose proof table_ok as T. rewrite forallb_forall in T. specialize (T c H).
  unfold class_ok in T. apply andb_prop in T as [T T2]. unfold is_byte.
  split; [lia|]. split; [lia|]. apply Forall_forall. intros e He.
  rewrite forallb_forall in T2. specialize (T2 e He). lia.
Qed.

Lemma entries_wf es : Forall (fun e => 128 <= pe_code e < 256) es -> wf (entries_props es).
Proof.
  unfold entries_props. intros H. generalize wf_nil. generalize (@nil property) as m.
  induction H as [|e es He Hes IH]; intros m Hm; [assumption|]. simpl.
  apply IH, wf_Add; [assumption|]. split; [unfold is_byte; simpl; lia|constructor].
Qed.

Lemma entries_blank es c p : LookupProperty (entries_props es) c = Some p -> p_data p = [].
Proof.
  rewrite entries_lookup. destruct (last_entry es c); intro H; inv H. reflexivity.
Qed.

Lemma std_Code c : In c mra_table -> Code (newStandardObject c) = class_key c.
Proof.
  intros H. destruct (class_ok_of c H) as (H1 & H2 & _).
  rewrite newStandardObject_eq. unfold Code. cbn [o_codes].
  rewrite ByteToInteger_3 by (try assumption; unfold is_byte; lia).
  unfold class_key. lia.
Qed.

Lemma assoc_add db o k :
  assoc_z (addObject db o) k = if Code o =? k then Some o else assoc_z db k.
Proof.
  induction db as [|[x v] db IH]; simpl.
  - destruct (Code o =? k); reflexivity.
  - destruct (x =? Code o) eqn:E; simpl.
    + destruct (x =? k) eqn:E1; destruct (Code o =? k) eqn:E2; try lia; reflexivity.
    + rewrite IH. destruct (x =? k) eqn:E1; destruct (Code o =? k) eqn:E2; try lia; reflexivity.
Qed.

Lemma assoc_fold (l : list mra_class) k : (forall c, In c l -> In c mra_table) ->
  NoDup (map class_key l) -> forall db,
  assoc_z (fold_left (fun db c => addObject db (newStandardObject c)) l db) k =
  match find (fun c => class_key c =? k) l with
  | Some c => Some (newStandardObject c)
  | None => assoc_z db k
  end.
Proof.
  intros Hin Hn. induction l as [|c l IH]; intros db; [reflexivity|]. inversion Hn as [|? ? H1 H2]; subst.
  cbn [fold_left find]. rewrite IH by (auto; intros; apply Hin; right; assumption).
  rewrite assoc_add, std_Code by (apply Hin; left; reflexivity).
  destruct (class_key c =? k) eqn:E; [|reflexivity].
  destruct (find (fun c0 => class_key c0 =? k) l) as [c'|] eqn:E2; [|reflexivity].
  apply find_some in E2 as [E2 E3]. exfalso. apply H1.
  replace (class_key c) with (class_key c') by lia. apply in_map. assumption.
Qed.

Lemma mask_class code : 0 <= code ->
  Z.land code 0xFFFF00 = (code / 65536) mod 256 * 65536 + (code / 256) mod 256 * 256.
Proof.
  intros H. change 0xFFFF00 with (Z.shiftl (Z.ones 16) 8).
  assert (Z.land code (Z.shiftl (Z.ones 16) 8) = Z.shiftl (Z.land (Z.shiftr code 8) (Z.ones 16)) 8) as ->.
  { apply Z.bits_inj'. intros n Hn. rewrite Z.land_spec.
    destruct (Z_lt_le_dec n 8).
    - rewrite !Z.shiftl_spec_low by lia. apply andb_false_r.
    - rewrite !Z.shiftl_spec, Z.land_spec, Z.shiftr_spec by lia.
      replace (n - 8 + 8) with n by lia. reflexivity. }
  rewrite Z.land_ones, Z.shiftl_mul_pow2, Z.shiftr_div_pow2 by lia.
  change (2 ^ 16) with (256 * 256). change (2 ^ 8) with 256.
  rewrite Z.rem_mul_r by lia. rewrite Z.div_div by lia. change (256 * 256) with 65536. lia.
Qed.

(** The class of the table that an object code (of any unsigned value) selects. *)
Definition selects (code : Z) (c : mra_class) : Prop :=
  In c mra_table /\ cl_grp c = (code / 65536) mod 256 /\ cl_cls c = (code / 256) mod 256.

Lemma key_eq c code : In c mra_table -> 0 <= code ->
  (class_key c = Z.land code 0xFFFF00 <->
   cl_grp c = (code / 65536) mod 256 /\ cl_cls c = (code / 256) mod 256).
Proof.
  intros Hin H. destruct (class_ok_of c Hin) as (H1 & H2 & _). rewrite mask_class by assumption.
  unfold class_key, is_byte in *.
  pose proof (Z.mod_pos_bound (code / 65536) 256). pose proof (Z.mod_pos_bound (code / 256) 256). lia.
Qed.

Lemma DB_lookup_some code c : 0 <= code -> selects code c ->
  DB_LookupObject code = Some (newStandardObject c).
Proof.
  intros H (Hin & Hg & Hc). unfold DB_LookupObject, db_objects.
  rewrite assoc_fold by (try apply table_keys; auto).
  destruct (find (fun c0 => class_key c0 =? Z.land code 0xFFFF00) mra_table) as [c'|] eqn:E.
  - apply find_some in E as [E1 E2]. f_equal. f_equal.
    pose proof table_keys as HN.
    assert (HK : class_key c' = class_key c).
    { rewrite (proj2 (key_eq c code Hin H)) by auto. lia. }
    clear -E1 Hin HN HK. induction mra_table as [|x l IH]; [destruct Hin|].
    simpl in HN. inv HN. destruct E1 as [->|E1], Hin as [->|Hin]; auto.
    + exfalso. apply H1. rewrite HK. apply in_map. assumption.
    + exfalso. apply H1. rewrite <- HK. apply in_map. assumption.
  - exfalso. apply find_none with (x := c) in E; [|assumption].
    rewrite (proj2 (key_eq c code Hin H)) in E by auto. lia.
Qed.

Lemma DB_lookup_none code : 0 <= code -> (forall c, ~ selects code c) ->
  DB_LookupObject code = None.
Proof.
  intros H Hno. unfold DB_LookupObject, db_objects.
  rewrite assoc_fold by (try apply table_keys; auto).
  destruct (find (fun c0 => class_key c0 =? Z.land code 0xFFFF00) mra_table) as [c'|] eqn:E;
    [|reflexivity].
  apply find_some in E as [E1 E2]. exfalso. apply (Hno c'). split; [assumption|].
  apply key_eq; [assumption|assumption|lia].
Qed.

Lemma selects_dec code : 0 <= code -> (exists c, selects code c) \/ (forall c, ~ selects code c).
Proof.
  intros H. destruct (find (fun c0 => class_key c0 =? Z.land code 0xFFFF00) mra_table) as [c'|] eqn:E.
  - apply find_some in E as [E1 E2]. left. exists c'. split; [assumption|].
    apply key_eq; [assumption|assumption|lia].
  - right. intros c (Hin & Hg & Hc). apply find_none with (x := c) in E; [|assumption].
    rewrite (proj2 (key_eq c code Hin H)) in E by auto. lia.
Qed.

Lemma mod24_parts code : 0 <= code ->
  (code mod 2 ^ 24) / 65536 mod 256 = (code / 65536) mod 256 /\
  (code mod 2 ^ 24) / 256 mod 256 = (code / 256) mod 256.
Proof.
  intros H. change (2 ^ 24) with 16777216.
  split; Z.div_mod_to_equations; lia.
Qed.

Lemma selects_mod code c : 0 <= code -> selects (code mod 2 ^ 24) c <-> selects code c.
Proof.
  intros H. unfold selects. destruct (mod24_parts code H) as [-> ->]. tauto.
Qed.

Lemma DB_wf code std : 0 <= code -> DB_LookupObject code = Some std -> wf (o_props std).
Proof.
  intros H Hs. destruct (selects_dec code H) as [[c Hc]|Hno].
  - rewrite (DB_lookup_some code c H Hc) in Hs. inv Hs. rewrite newStandardObject_eq. simpl.
    apply entries_wf. apply class_ok_of. apply Hc.
  - rewrite DB_lookup_none in Hs by assumption. discriminate.
Qed.

(** ** Super objects, devices and profiles *)

Definition super_class : mra_class := nth 0 mra_table (CL 0 0 []).

Lemma super_selected : selects 0 super_class.
Proof. split; [left; reflexivity|split; reflexivity]. Qed.

Definition super_props : props := entries_props (cl_entries super_class).

Lemma super_props_wf : wf super_props.
Proof. apply entries_wf. apply class_ok_of. apply super_selected. Qed.

(** The properties of a new super object. *)
Definition new_super : props := upd_props (with_std [] super_props).

Lemma NewSuperObject_spec : NewSuperObject = Some (mkObject [0; 0; 0] new_super).
Proof.
  unfold NewSuperObject.
  change (Obj_SetCode newObject 0) with (mkObject [0; 0; 0] []). cbv zeta.
  destruct (addStd_spec (mkObject [0; 0; 0] []) 0 (newStandardObject super_class)) as [ev ->].
  - apply wf_nil.
  - apply DB_lookup_some; [lia|apply super_selected].
  - rewrite newStandardObject_eq. apply super_props_wf.
  - rewrite newStandardObject_eq. cbn [with_props o_props o_codes].
    fold super_props. unfold with_props. cbn [o_codes o_props].
    unfold new_super.
    assert (Hw : wf (with_std [] super_props))
      by (apply with_std_wf; [apply wf_nil|apply super_props_wf]).
    revert Hw. generalize (with_std [] super_props) as m. intros m Hw.
    destruct (updatePropertyMap_spec (mkObject [0; 0; 0] m) Hw) as [e ->]. reflexivity.
Qed.

Lemma new_super_wf : wf new_super.
Proof. apply wf_upd, with_std_wf; [apply wf_nil|apply super_props_wf]. Qed.

Lemma new_super_maps : maps_ok new_super.
Proof. apply maps_ok_upd. Qed.

Lemma new_super_attrs c : attrs_at new_super c = option_map entry_attrs (last_entry (cl_entries super_class) c).
Proof.
  unfold new_super. rewrite attrs_upd, with_std_attrs by apply super_props_wf.
  unfold super_props. rewrite entries_attrs.
  destruct (last_entry (cl_entries super_class) c); reflexivity.
Qed.

(** SetCode on a super object. *)
Definition class_props (c : mra_class) : props := entries_props (cl_entries c).

Lemma class_props_wf c : In c mra_table -> wf (class_props c).
Proof. intros H. apply entries_wf, class_ok_of. assumption. Qed.

Definition code3 (o : object) : Prop := length (o_codes o) = 3%nat /\ is_bytes (o_codes o).

Lemma Obj_SetCode_codes o code : code3 o -> 0 <= code < 2 ^ 64 ->
  o_codes (Obj_SetCode o code) = be3 (code mod 2 ^ 24) /\ Code (Obj_SetCode o code) = code mod 2 ^ 24.
Proof.
  intros [Hl _] H. unfold Obj_SetCode, Code. rewrite Hl. cbn [with_codes o_codes].
  pose proof (Z.mod_pos_bound code (2 ^ 24)).
  assert (IntegerToByte code 3 = be3 (code mod 2 ^ 24)) as ->.
  { apply be_value_inj.
    - apply IntegerToByte_bytes.
    - rewrite <- IntegerToByte_3 by lia. apply IntegerToByte_bytes.
    - rewrite IntegerToByte_length. reflexivity.
    - rewrite <- (IntegerToByte_3 (code mod 2 ^ 24)) by lia.
      rewrite !be_value_IntegerToByte. change (256 ^ Z.of_nat 3) with (2 ^ 24).
      unfold u64. rewrite (Z.mod_small code (2 ^ 64)), (Z.mod_small (code mod _) (2 ^ 64)) by lia.
      rewrite Z.mod_mod by lia. reflexivity. }
  split; [reflexivity|]. apply ByteToInteger_be3. lia.
Qed.

Lemma Super_SetCode_known o code c : code3 o -> wf (o_props o) -> 0 <= code < 2 ^ 64 ->
  selects code c ->
  exists ev, Super_SetCode o code =
    Some (mkObject (be3 (code mod 2 ^ 24)) (with_std (o_props o) (class_props c)), ev).
Proof.
  intros Hc3 Hw H Hc. unfold Super_SetCode. cbv zeta.
  destruct (Obj_SetCode_codes o code Hc3 H) as [H1 H2]. rewrite H2.
  pose proof (Z.mod_pos_bound code (2 ^ 24)).
  destruct (addStd_spec (Obj_SetCode o code) (code mod 2 ^ 24) (newStandardObject c)) as [ev ->].
  - exact Hw.
  - apply DB_lookup_some; [lia|]. apply selects_mod; [lia|assumption].
  - rewrite newStandardObject_eq. apply class_props_wf. apply Hc.
  - exists ev. rewrite newStandardObject_eq. unfold with_props. rewrite H1. reflexivity.
Qed.

Lemma Super_SetCode_unknown o code : code3 o -> 0 <= code < 2 ^ 64 ->
  (forall c, ~ selects code c) ->
  Super_SetCode o code = Some (mkObject (be3 (code mod 2 ^ 24)) (o_props o), []).
Proof.
  intros Hc3 H Hc. unfold Super_SetCode. cbv zeta.
  destruct (Obj_SetCode_codes o code Hc3 H) as [H1 H2]. rewrite H2.
  pose proof (Z.mod_pos_bound code (2 ^ 24)).
  rewrite addStd_none.
  - rewrite <- H1. reflexivity.
  - apply DB_lookup_none; [lia|]. intros c Hs. apply (Hc c). apply selects_mod; [lia|assumption].
Qed.

Lemma code3_zero m : code3 (mkObject [0; 0; 0] m).
Proof. split; [reflexivity|]. repeat constructor; unfold is_byte; simpl; lia. Qed.

Lemma NewDevice_known code c : 0 <= code < 2 ^ 64 -> selects code c ->
  NewDeviceWithCode code =
    Ok (mkObject (be3 (code mod 2 ^ 24)) (with_std new_super (class_props c))).
Proof.
  intros H Hc. unfold NewDeviceWithCode. rewrite NewSuperObject_spec.
  rewrite (DB_lookup_some code c) by (try assumption; lia).
  destruct (Super_SetCode_known (mkObject [0; 0; 0] new_super) code c) as [ev ->];
    auto using code3_zero, new_super_wf.
Qed.

Lemma NewDevice_unknown code : 0 <= code < 2 ^ 64 -> (forall c, ~ selects code c) ->
  NewDeviceWithCode code = Err ErrOther.
Proof.
  intros H Hc. unfold NewDeviceWithCode. rewrite NewSuperObject_spec.
  rewrite DB_lookup_none by (try assumption; lia). reflexivity.
Qed.

Lemma NewProfile_known code c : 0 <= code < 2 ^ 64 -> selects code c ->
  NewProfileWithCode code =
    Ok (mkObject (be3 (code mod 2 ^ 24)) (with_std new_super (class_props c))).
Proof.
  intros H Hc. unfold NewProfileWithCode. rewrite NewSuperObject_spec.
  destruct (Super_SetCode_known (mkObject [0; 0; 0] new_super) code c) as [ev ->];
    auto using code3_zero, new_super_wf.
Qed.

Lemma NewProfile_unknown code : 0 <= code < 2 ^ 64 -> (forall c, ~ selects code c) ->
  NewProfileWithCode code = Ok (mkObject (be3 (code mod 2 ^ 24)) new_super).
Proof.
  intros H Hc. unfold NewProfileWithCode. rewrite NewSuperObject_spec.
  rewrite Super_SetCode_unknown by (auto using code3_zero). reflexivity.
Qed.

Definition node_profile_class : mra_class := nth 1 mra_table (CL 0 0 []).

Lemma node_profile_selected : selects 0x0EF001 node_profile_class.
Proof. split; [right; left; reflexivity|split; reflexivity]. Qed.

Definition node_profile_props : props :=
  with_std (with_std new_super (class_props node_profile_class)) (class_props node_profile_class).

Lemma be3_code3 v m : 0 <= v < 2 ^ 24 -> code3 (mkObject (be3 v) m).
Proof.
  intros H. split; [reflexivity|]. cbn [o_codes].
  rewrite <- IntegerToByte_3 by assumption. apply IntegerToByte_bytes.
Qed.

Lemma NewNodeProfile_spec : NewNodeProfile = Ok (mkObject [14; 240; 1] node_profile_props).
Proof.
  unfold NewNodeProfile, NewProfile, NodeProfileObjectCode.
  rewrite (NewProfile_known 0x0EF001 _ ltac:(lia) node_profile_selected). cbn [bind].
  match goal with |- context [Super_SetCode ?o _] =>
    destruct (Super_SetCode_known o 0x0EF001 node_profile_class) as [ev ->] end.
  - apply be3_code3. apply Z.mod_pos_bound. lia.
  - apply with_std_wf; [apply new_super_wf|apply class_props_wf, node_profile_selected].
  - lia.
  - apply node_profile_selected.
  - change (be3 (0x0EF001 mod 2 ^ 24)) with [14; 240; 1].
    unfold node_profile_props. cbn [o_props].
    generalize (class_props node_profile_class), new_super. reflexivity.
Qed.

(** Fresh data. *)
Definition fresh (m : props) : Prop :=
  forall c p, LookupProperty m c = Some p -> ~ is_map_code c -> p_data p = [].

Lemma fresh_add m q : fresh m -> p_data q = [] -> fresh (add_props m q).
Proof.
  intros Hf Hq c p HL Hc. unfold add_props in HL. rewrite upd_lookup_other in HL by assumption.
  rewrite Lookup_Add in HL. destruct (p_code q =? c); [congruence|]. eapply Hf; eauto.
Qed.

Lemma fresh_with_std m std : fresh m -> fresh (with_std m std).
Proof.
  unfold with_std, copies. generalize (Properties std) as l. intros l. revert m.
  induction l as [|q l IH]; intros m Hm; [assumption|]. simpl.
  apply IH. apply fresh_add; [assumption|reflexivity].
Qed.

Lemma fresh_upd m : fresh m -> fresh (upd_props m).
Proof.
  intros Hf c p HL Hc. rewrite upd_lookup_other in HL by assumption. eapply Hf; eauto.
Qed.

Lemma fresh_nil : fresh [].
Proof. intros c p H. discriminate. Qed.

Lemma fresh_new_super : fresh new_super.
Proof. exact (fresh_upd _ (fresh_with_std _ super_props fresh_nil)). Qed.
