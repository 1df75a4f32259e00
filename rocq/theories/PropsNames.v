(** C90: names of objects and properties. *)

From Coq Require Import String ZifyBool.
From Verif Require Import Go GoFacts Encoding EncodingFacts Protocol StdDB StdNames Property PropertyFacts Object ObjectFacts
  Spec Names PropsOptions.

Local Open Scope Z_scope.
Local Open Scope list_scope.

(** ** Vocabulary *)

(** The class of the table of names with the group and class bytes of the code. *)
Definition standard_class (code : Z) : option name_class :=
  find (fun k => (nc_grp k =? code / 65536 mod 256) && (nc_cls k =? code / 256 mod 256)) name_table.

(** The last name in the list for a property code. *)
Definition last_name (l : list (Z * string)) (c : Z) : option string :=
  option_map snd (find (fun e => fst e =? c) (rev l)).

(** What a call says about the class name, and about the name of property [c]. *)
Definition says_class (op : name_op) : option string :=
  match op with
  | NmSetCode code => option_map nc_name (standard_class code)
  | NmSetCodes codes => option_map nc_name (standard_class (be_value codes))
  | NmSetClassName s => Some s
  | NmSetCodeByte _ _ | NmAddProperty _ _ => None
  end.
Definition says_property (c : Z) (op : name_op) : option string :=
  match op with
  | NmSetCode code => match standard_class code with Some k => last_name (nc_props k) c | None => None end
  | NmSetCodes codes => match standard_class (be_value codes) with Some k => last_name (nc_props k) c | None => None end
  | NmAddProperty p s => if p_code p =? c then Some s else None
  | NmSetCodeByte _ _ | NmSetClassName _ => None
  end.

(** Codes are unsigned 64 bit numbers or three bytes, indices and data are in range. *)
Definition name_op_ok (op : name_op) : Prop :=
  match op with
  | NmSetCode code => 0 <= code < 2 ^ 64
  | NmSetCodes codes => length codes = 3%nat /\ is_bytes codes
  | NmSetCodeByte i b => 0 <= i < 3 /\ is_byte b
  | NmAddProperty p _ => is_byte (p_code p) /\ is_bytes (p_data p)
  | NmSetClassName _ => True
  end.

(** ** The tables *)

Lemma tables_agree : map (fun c => (cl_grp c, cl_cls c, map pe_code (cl_entries c))) mra_table =
  map (fun k => (nc_grp k, nc_cls k, map fst (nc_props k))) name_table.
Proof. vm_compute. reflexivity. Qed.

Definition name_key (k : name_class) : Z := nc_grp k * 65536 + nc_cls k * 256.

Lemma db_names_eq : db_names = map (fun k => (name_key k, standard_names k)) name_table.
Proof. vm_compute. reflexivity. Qed.

Lemma name_classes : Forall (fun k => 0 <= nc_grp k < 256 /\ 0 <= nc_cls k < 256 /\ nc_name k <> EmptyString /\
  Forall (fun e => snd e <> EmptyString) (nc_props k)) name_table.
Proof.
  assert (T : forallb (fun k => (0 <=? nc_grp k) && (nc_grp k <? 256) && (0 <=? nc_cls k) && (nc_cls k <? 256) &&
    negb (String.eqb (nc_name k) "") && forallb (fun e => negb (String.eqb (snd e) "")) (nc_props k)) name_table = true)
    by (vm_compute; reflexivity).
  rewrite forallb_forall in T. apply Forall_forall. intros k Hk. specialize (T k Hk).
  apply andb_prop in T. destruct T as (T & T2). apply andb_prop in T. destruct T as (T & T3).
  split; [lia|]. split; [lia|]. split.
  - intros E. rewrite E in T3. discriminate T3.
  - apply Forall_forall. intros e He. rewrite forallb_forall in T2. specialize (T2 e He). intros E. rewrite E in T2. discriminate T2.
Qed.

Lemma DB_names code : 0 <= code -> DB_LookupNames code = option_map standard_names (standard_class code).
Proof.
  intros H. unfold DB_LookupNames, standard_class. rewrite db_names_eq, mask_class by exact H.
  pose proof name_classes as HC. induction name_table as [|k l IH]; [reflexivity|].
  inversion HC as [|? ? (G1 & G2 & _) HC']; subst. cbn [map assoc_z find]. rewrite IH by exact HC'.
  pose proof (Z.mod_pos_bound (code / 65536) 256 ltac:(clear; lia)). pose proof (Z.mod_pos_bound (code / 256) 256 ltac:(clear; lia)).
  replace (name_key k =? code / 65536 mod 256 * 65536 + code / 256 mod 256 * 256)
    with ((nc_grp k =? code / 65536 mod 256) && (nc_cls k =? code / 256 mod 256)).
  - destruct (_ && _); reflexivity.
  - unfold name_key. set (x := code / 65536 mod 256) in *. set (y := code / 256 mod 256) in *. clearbody x y. lia.
Qed.

Lemma find_app {A} (f : A -> bool) l l' : find f (l ++ l') = match find f l with Some x => Some x | None => find f l' end.
Proof. induction l as [|x l IH]; [reflexivity|]. cbn [app find]. destruct (f x); [reflexivity|exact IH]. Qed.

Lemma last_name_cons e l c : last_name (e :: l) c =
  match last_name l c with Some s => Some s | None => if fst e =? c then Some (snd e) else None end.
Proof.
  unfold last_name. cbn [rev]. rewrite find_app. destruct (find _ (rev l)); [reflexivity|]. cbn [find].
  destruct (fst e =? c); reflexivity.
Qed.

Lemma last_name_none l c : last_name l c = None <-> ~ In c (map fst l).
Proof.
  induction l as [|e l IH]; [unfold last_name; cbn; tauto|]. rewrite last_name_cons. cbn [map In].
  destruct (last_name l c) as [s|].
  - assert (~ ~ In c (map fst l)) by (rewrite <- IH; discriminate). split; [discriminate|tauto].
  - destruct (fst e =? c) eqn:E; [split; [discriminate|intros H; exfalso; apply H; lia]|].
    assert (~ In c (map fst l)) by tauto. split; [|reflexivity]. intros _ [K|K]; [lia|tauto].
Qed.

Lemma put_lookup m c s c' : assoc_z (put_name m c s) c' = if c =? c' then Some s else assoc_z m c'.
Proof.
  induction m as [|[k v] m IH]; cbn [put_name assoc_z].
  - reflexivity.
  - destruct (k =? c) eqn:E; cbn [assoc_z].
    + destruct (c =? c') eqn:E1; destruct (k =? c') eqn:E2; try lia; reflexivity.
    + rewrite IH. destruct (k =? c') eqn:E2; destruct (c =? c') eqn:E1; try lia; reflexivity.
Qed.

Lemma puts_lookup l : forall m c, assoc_z (fold_left (fun m e => put_name m (fst e) (snd e)) l m) c =
  match last_name l c with Some s => Some s | None => assoc_z m c end.
Proof.
  induction l as [|e l IH]; intros m c; [reflexivity|]. cbn [fold_left]. rewrite IH, last_name_cons.
  destruct (last_name l c); [reflexivity|]. rewrite put_lookup. destruct (fst e =? c); reflexivity.
Qed.

(** The second fold of [addStandardNames] goes over distinct codes. *)
Lemma put_codes m c s : map fst (put_name m c s) = if existsb (Z.eqb c) (map fst m) then map fst m else map fst m ++ [c].
Proof.
  induction m as [|[k v] m IH]; [reflexivity|]. cbn [put_name map existsb fst].
  destruct (k =? c) eqn:E.
  - assert (k = c) by lia. subst. rewrite Z.eqb_refl. reflexivity.
  - replace (c =? k) with false by lia. cbn [orb map fst]. rewrite IH. destruct (existsb _ _); reflexivity.
Qed.

Lemma nodup_snoc (l : list Z) c : NoDup l -> ~ In c l -> NoDup (l ++ [c]).
Proof.
  induction l as [|x l IH]; intros H I; [repeat constructor; intros []|]. inversion H as [|? ? H1 H2]; subst. cbn [app]. constructor.
  - intros X. apply in_app_or in X. destruct X as [X|[X|[]]]; [exact (H1 X)|]. subst. apply I. left. reflexivity.
  - apply IH; [exact H2|]. intros X. apply I. right. exact X.
Qed.

Lemma put_NoDup m c s : NoDup (map fst m) -> NoDup (map fst (put_name m c s)).
Proof.
  intros H. rewrite put_codes. destruct (existsb (Z.eqb c) (map fst m)) eqn:E; [exact H|].
  apply nodup_snoc; [exact H|]. intros I. assert (existsb (Z.eqb c) (map fst m) = true); [|congruence].
  apply existsb_exists. exists c. split; [exact I|lia].
Qed.

Lemma puts_NoDup l : forall m, NoDup (map fst m) -> NoDup (map fst (fold_left (fun m e => put_name m (fst e) (snd e)) l m)).
Proof. induction l as [|e l IH]; intros m H; [exact H|]. cbn [fold_left]. apply IH, put_NoDup, H. Qed.

Lemma assoc_last m c : NoDup (map fst m) -> last_name m c = assoc_z m c.
Proof.
  induction m as [|[k v] m IH]; intros H; [reflexivity|]. cbn [map fst] in H. inversion H as [|? ? H1 H2]; subst.
  rewrite last_name_cons. cbn [assoc_z fst snd]. rewrite (IH H2). destruct (assoc_z m c) as [s|] eqn:E; [|reflexivity].
  destruct (k =? c) eqn:E2; [|reflexivity]. exfalso. apply H1. assert (k = c) by lia. subst k.
  destruct (in_dec Z.eq_dec c (map fst m)) as [I|I]; [exact I|]. apply last_name_none in I. rewrite (IH H2) in I. congruence.
Qed.

Lemma addStandardNames_spec code cls m : 0 <= code ->
  fst (addStandardNames code cls m) = match standard_class code with Some k => nc_name k | None => cls end /\
  forall c, assoc_z (snd (addStandardNames code cls m)) c =
    match (match standard_class code with Some k => last_name (nc_props k) c | None => None end) with
    | Some s => Some s | None => assoc_z m c end.
Proof.
  intros H. unfold addStandardNames. rewrite DB_names by exact H. destruct (standard_class code) as [k|]; [|split; reflexivity].
  cbn [option_map standard_names]. split; [reflexivity|]. intros c. cbn [snd]. rewrite puts_lookup.
  rewrite assoc_last by (apply puts_NoDup; constructor). rewrite puts_lookup. destruct (last_name (nc_props k) c); reflexivity.
Qed.

(** ** Objects and their names *)

Definition has (o : object) (c : Z) : Prop := attrs_at (o_props o) c <> None.

Lemma has_lookup o c : has o c <-> exists p, LookupProperty (o_props o) c = Some p.
Proof.
  unfold has, attrs_at. destruct (LookupProperty (o_props o) c) as [p|]; cbn [option_map]; split.
  - eauto.
  - discriminate.
  - intros H. exfalso. apply H. reflexivity.
  - intros [p H]. discriminate H.
Qed.

Lemma class_has_iff code k c kc : standard_class code = Some k -> selects code kc ->
  (attrs_at (class_props kc) c <> None <-> last_name (nc_props k) c <> None).
Proof.
  intros Hk Hc. unfold class_props. rewrite entries_attrs.
  assert (E1 : last_entry (cl_entries kc) c = None <-> ~ In c (map pe_code (cl_entries kc))).
  { induction (cl_entries kc) as [|e l IH]; [cbn; tauto|]. cbn [last_entry map In]. destruct (last_entry l c) as [s|].
    - assert (~ ~ In c (map pe_code l)) by (rewrite <- IH; discriminate). split; [discriminate|tauto].
    - destruct (pe_code e =? c) eqn:E; [split; [discriminate|intros H; exfalso; apply H; lia]|].
      assert (~ In c (map pe_code l)) by tauto. split; [|reflexivity]. intros _ [K|K]; [lia|tauto]. }
  assert (E2 : map pe_code (cl_entries kc) = map fst (nc_props k)).
  { apply find_some in Hk. destruct Hk as (Ik & Ek). destruct Hc as (Ic & G1 & G2).
    pose proof tables_agree as T. pose proof table_keys as N.
    assert (I1 : In (nc_grp k, nc_cls k, map fst (nc_props k)) (map (fun c => (cl_grp c, cl_cls c, map pe_code (cl_entries c))) mra_table)).
    { rewrite T. exact (in_map (fun k => (nc_grp k, nc_cls k, map fst (nc_props k))) _ _ Ik). }
    apply in_map_iff in I1. destruct I1 as (c2 & I1 & I2). injection I1 as K1 K2 K3.
    assert (c2 = kc); [|subst; exact K3].
    assert (KK : class_key c2 = class_key kc) by (unfold class_key; lia).
    clear -I2 Ic N KK. induction mra_table as [|x l IH]; [destruct I2|]. cbn [map] in N. inversion N as [|? ? N1 N2]; subst.
    destruct I2 as [->|I2], Ic as [->|Ic]; auto.
    - exfalso. apply N1. rewrite KK. apply in_map, Ic.
    - exfalso. apply N1. rewrite <- KK. apply in_map, I2. }
  pose proof (last_name_none (nc_props k) c) as E3. rewrite <- E2 in E3.
  split; intros X Y; apply X.
  - rewrite (proj2 E1 (proj1 E3 Y)). reflexivity.
  - apply E3, E1. destruct (last_entry (cl_entries kc) c); [discriminate Y|reflexivity].
Qed.

Lemma class_exists code : 0 <= code -> (exists k, standard_class code = Some k) <-> exists kc, selects code kc.
Proof.
  intros H. split.
  - intros [k Hk]. apply find_some in Hk. destruct Hk as (Ik & Ek).
    assert (I1 : In (nc_grp k, nc_cls k, map fst (nc_props k)) (map (fun c => (cl_grp c, cl_cls c, map pe_code (cl_entries c))) mra_table)).
    { rewrite tables_agree. exact (in_map (fun k => (nc_grp k, nc_cls k, map fst (nc_props k))) _ _ Ik). }
    apply in_map_iff in I1. destruct I1 as (c2 & I1 & I2). injection I1 as K1 K2 K3. exists c2.
    apply andb_prop in Ek. split; [exact I2|]. split; [rewrite K1|rewrite K2]; lia.
  - intros [kc (I1 & G1 & G2)].
    assert (I2 : In (cl_grp kc, cl_cls kc, map pe_code (cl_entries kc)) (map (fun k => (nc_grp k, nc_cls k, map fst (nc_props k))) name_table)).
    { rewrite <- tables_agree. exact (in_map (fun c => (cl_grp c, cl_cls c, map pe_code (cl_entries c))) _ _ I1). }
    apply in_map_iff in I2. destruct I2 as (k & I2 & Ik). injection I2 as K1 K2 _.
    destruct (standard_class code) as [k'|] eqn:E; [eauto|]. exfalso.
    pose proof (find_none _ _ E k Ik) as F. cbn beta in F. rewrite K1, K2, G1, G2, !Z.eqb_refl in F. discriminate F.
Qed.

Definition named_inv (n : named) : Prop :=
  code3 (na_obj n) /\ wf (o_props (na_obj n)) /\ forall c, has (na_obj n) c <-> PropertyName n c <> None.

Definition said (code c : Z) : option string :=
  match standard_class code with Some k => last_name (nc_props k) c | None => None end.

Lemma add_standard o code : code3 o -> wf (o_props o) -> 0 <= code ->
  exists o' ev, addStandardPropertiesWithCode o code = Some (o', ev) /\ o_codes o' = o_codes o /\ wf (o_props o') /\
    forall c, has o' c <-> has o c \/ said code c <> None.
Proof.
  intros HC HW H. destruct (selects_dec code H) as [[kc Hs]|Hno].
  - destruct (proj2 (class_exists code H) (ex_intro _ kc Hs)) as [k Hk].
    pose proof (DB_lookup_some code kc H Hs) as L.
    assert (WS : wf (o_props (newStandardObject kc))) by (eapply DB_wf; eassumption).
    destruct (addStd_spec o code _ HW L WS) as [ev E]. exists (with_props o (with_std (o_props o) (o_props (newStandardObject kc)))), ev.
    split; [exact E|]. split; [reflexivity|]. split; [apply with_std_wf; assumption|]. intros c. unfold has. cbn [with_props o_props].
    rewrite with_std_attrs by apply WS. unfold said. rewrite Hk. rewrite <- (class_has_iff code k c kc Hk Hs).
    rewrite newStandardObject_eq. cbn [o_props]. fold (class_props kc).
    destruct (attrs_at (class_props kc) c); cbn [first_some]; split; intros K; try tauto; try discriminate; auto.
  - exists o, []. split; [apply addStd_none, DB_lookup_none; assumption|]. split; [reflexivity|]. split; [exact HW|].
    intros c. unfold said. destruct (standard_class code) as [k|] eqn:E; [|tauto].
    exfalso. destruct (proj1 (class_exists code H) (ex_intro _ k E)) as [kc Hc]. exact (Hno kc Hc).
Qed.

Lemma standard_class_mod code : 0 <= code -> standard_class (code mod 2 ^ 24) = standard_class code.
Proof. intros H. unfold standard_class. destruct (mod24_parts code H) as (-> & ->). reflexivity. Qed.

Lemma step_standard n o code : code3 o -> wf (o_props o) -> Code o = code -> 0 <= code ->
  (forall c, has o c <-> PropertyName n c <> None) ->
  exists o' ev, addStandardPropertiesWithCode o (Code o) = Some (o', ev) /\
    let n' := (let '(s, m) := addStandardNames (Code o') (na_class n) (na_props n) in mkNamed o' s m) in
    named_inv n' /\ na_obj n' = o' /\ o_codes o' = o_codes o /\
    na_class n' = match option_map nc_name (standard_class code) with Some s => s | None => na_class n end /\
    forall c, PropertyName n' c = match said code c with Some s => Some s | None => PropertyName n c end.
Proof.
  intros HC HW E H HN. rewrite E. destruct (add_standard o code HC HW H) as (o' & ev & E1 & E2 & E3 & E4).
  exists o', ev. split; [exact E1|]. replace (Code o') with code by (unfold Code; rewrite E2; symmetry; exact E).
  destruct (addStandardNames_spec code (na_class n) (na_props n) H) as (K1 & K2).
  destruct (addStandardNames code (na_class n) (na_props n)) as [s m]. cbn [fst snd] in K1, K2. cbv zeta. cbn [na_obj na_class].
  assert (K3 : forall c, PropertyName (mkNamed o' s m) c = match said code c with Some s => Some s | None => PropertyName n c end)
    by (intros c; unfold PropertyName, said; cbn [na_props]; exact (K2 c)).
  split; [|split; [reflexivity|split; [exact E2|split; [|exact K3]]]].
  - split; [|split; [exact E3|]].
    + unfold code3 in *. cbn [na_obj]. rewrite E2. exact HC.
    + intros c. cbn [na_obj]. rewrite K3, E4, HN. destruct (said code c); [|tauto]. split; [discriminate|]. right. discriminate.
  - rewrite K1. destruct (standard_class code); reflexivity.
Qed.

Lemma Code_nonneg o : code3 o -> 0 <= Code o.
Proof.
  intros (L & B). unfold Code. rewrite ByteToInteger_small by (try exact B; lia). apply be_value_bound, B.
Qed.

Lemma name_step_spec n op : named_inv n -> name_op_ok op -> exists n', name_step n op = Some n' /\ named_inv n' /\
  na_class n' = match says_class op with Some s => s | None => na_class n end /\
  forall c, PropertyName n' c = match says_property c op with Some s => Some s | None => PropertyName n c end.
Proof.
  intros (HC & HW & HN) HO. destruct op as [code|codes|i b|p s|s]; cbn [name_op_ok] in HO; cbn [name_step says_class].
  - unfold Super_SetCode. destruct (Obj_SetCode_codes (na_obj n) code HC HO) as (C1 & C2).
    pose proof (Z.mod_pos_bound code (2 ^ 24) ltac:(clear; lia)) as HM.
    destruct (step_standard n (Obj_SetCode (na_obj n) code) (code mod 2 ^ 24)) as (o' & ev & E1 & E2).
    + unfold code3. rewrite C1. split; [reflexivity|]. rewrite <- IntegerToByte_3 by lia. apply IntegerToByte_bytes.
    + exact HW.
    + exact C2.
    + lia.
    + exact HN.
    + cbv zeta in E1. rewrite E1. destruct (addStandardNames (Code o') (na_class n) (na_props n)) as [s m] eqn:EA.
      cbv zeta in E2. destruct E2 as (I1 & _ & _ & I2 & I3). exists (mkNamed o' s m). split; [reflexivity|]. split; [exact I1|].
      unfold said in I3. rewrite standard_class_mod in I2 by apply HO. split; [exact I2|]. intros c. rewrite I3.
      rewrite standard_class_mod by apply HO. reflexivity.
  - unfold Super_SetCodes. destruct HO as (L & B). pose proof HC as (HL & _).
    assert (EC : o_codes (Obj_SetCodes (na_obj n) codes) = codes).
    { unfold Obj_SetCodes, copy_into. cbn [with_codes o_codes]. rewrite HL, <- L, firstn_all, skipn_all2 by lia. apply app_nil_r. }
    assert (CC : Code (Obj_SetCodes (na_obj n) codes) = be_value codes).
    { unfold Code. rewrite EC. apply ByteToInteger_small; [exact B|lia]. }
    destruct (step_standard n (Obj_SetCodes (na_obj n) codes) (be_value codes)) as (o' & ev & E1 & E2).
    + unfold code3. rewrite EC. auto.
    + exact HW.
    + exact CC.
    + apply be_value_bound, B.
    + exact HN.
    + cbv zeta in E1. rewrite E1. destruct (addStandardNames (Code o') (na_class n) (na_props n)) as [s m] eqn:EA.
      cbv zeta in E2. destruct E2 as (I1 & _ & _ & I2 & I3). exists (mkNamed o' s m). split; [reflexivity|]. split; [exact I1|].
      split; [exact I2|]. intros c. rewrite I3. reflexivity.
  - destruct HO as (Hi & Hb). destruct HC as (HL & HB).
    destruct (o_codes (na_obj n)) as [|a [|b0 [|c0 [|d l]]]] eqn:EO; try discriminate HL.
    assert (X : exists o', SetCodeByte (na_obj n) i b = Ok o' /\ code3 o' /\ o_props o' = o_props (na_obj n)).
    { unfold SetCodeByte. rewrite EO. assert (i = 0 \/ i = 1 \/ i = 2) as [->|[->| ->]] by lia;
        (eexists; split; [reflexivity|]; split; [|reflexivity]; split; [reflexivity|];
         inversion HB as [|? ? B1 HB1]; subst; inversion HB1 as [|? ? B2 HB2]; subst; inversion HB2; subst;
         repeat (apply Forall_cons; [assumption|]); apply Forall_nil). }
    destruct X as (o' & -> & X1 & X2). eexists. split; [reflexivity|]. split; [|split; [reflexivity|intros c; reflexivity]].
    split; [exact X1|]. split; [cbn [na_obj]; rewrite X2; exact HW|]. intros c. unfold has. cbn [na_obj]. rewrite X2. apply HN.
  - rewrite Super_AddProperty_spec by (try exact HW; exact HO). eexists. split; [reflexivity|]. split; [|split; [reflexivity|]].
    + split; [exact HC|]. split; [cbn [na_obj with_props o_props]; apply wf_add; [exact HW|exact HO]|].
      intros c. unfold has, PropertyName. cbn [na_obj with_props o_props na_props]. rewrite attrs_add, put_lookup.
      destruct (p_code p =? c); [split; discriminate|]. apply HN.
    + intros c. unfold PropertyName. cbn [na_props says_property]. rewrite put_lookup. destruct (p_code p =? c); reflexivity.
  - eexists. split; [reflexivity|]. split; [split; [exact HC|split; [exact HW|exact HN]]|]. split; [reflexivity|]. intros c. reflexivity.
Qed.

Lemma super_class_name : standard_class 0 = Some (nth 0 name_table (NC 0 0 "" [])).
Proof. vm_compute. reflexivity. Qed.

Lemma named_super : exists n, NamedSuperObject = Some n /\ NewSuperObject = Some (na_obj n) /\ named_inv n /\
  na_class n = "Super class"%string /\ forall c, PropertyName n c = said 0 c.
Proof.
  unfold NamedSuperObject. rewrite NewSuperObject_spec.
  destruct (addStandardNames_spec 0 EmptyString [] ltac:(clear; lia)) as (K1 & K2).
  destruct (addStandardNames 0 EmptyString []) as [s m]. cbn [fst snd] in K1, K2.
  assert (K3 : forall c, PropertyName (mkNamed (mkObject [0; 0; 0] new_super) s m) c = said 0 c).
  { intros c. unfold PropertyName. cbn [na_props]. rewrite K2. fold (said 0 c). destruct (said 0 c); reflexivity. }
  eexists. split; [reflexivity|]. split; [reflexivity|]. split; [|split; [|exact K3]].
  - split; [split; [reflexivity|repeat (apply Forall_cons; [unfold is_byte; lia|]); apply Forall_nil]|].
    split; [apply new_super_wf|]. intros c. rewrite K3. unfold has. cbn [na_obj o_props]. rewrite new_super_attrs.
    pose proof (class_has_iff 0 _ c super_class super_class_name super_selected) as X.
    unfold class_props in X. rewrite entries_attrs in X. unfold said. rewrite super_class_name. exact X.
  - cbn [na_class]. rewrite K1, super_class_name. reflexivity.
Qed.

(** ** Statements *)

(** Whatever is done with an object, its class name is the one of the standard class
    assigned last (or set last).  It has a name for each property it has, the one
    given with the property last: by the last assigned class that has the property
    or by the last AddProperty for the code, and by the super class otherwise. *)
Theorem C90_names : forall ops, Forall name_op_ok ops ->
  exists n0 n, NamedSuperObject = Some n0 /\ NewSuperObject = Some (na_obj n0) /\ name_run n0 ops = Some n /\
  chosen says_class ops "Super class"%string (ClassName n) /\
  (forall c, chosen (fun op => option_map Some (says_property c op)) ops
     (match standard_class 0 with Some k => last_name (nc_props k) c | None => None end) (PropertyName n c)) /\
  (forall c, (exists p, LookupProperty (o_props (na_obj n)) c = Some p) <-> exists s, PropertyName n c = Some s).
Proof.
  intros ops HO. destruct named_super as (n0 & E0 & ES & I0 & C0 & P0). exists n0.
  assert (G : forall done ops n, Forall name_op_ok ops -> named_inv n -> chosen says_class done "Super class"%string (na_class n) ->
    (forall c, chosen (fun op => option_map Some (says_property c op)) done (said 0 c) (PropertyName n c)) ->
    exists n', name_run n ops = Some n' /\ named_inv n' /\ chosen says_class (done ++ ops) "Super class"%string (na_class n') /\
      forall c, chosen (fun op => option_map Some (says_property c op)) (done ++ ops) (said 0 c) (PropertyName n' c)).
  { clear. intros done ops. revert done. induction ops as [|op ops IH]; intros done n HO I HC HP.
    - exists n. rewrite app_nil_r. auto.
    - inversion HO as [|? ? O1 O2]; subst. cbn [name_run]. destruct (name_step_spec n op I O1) as (n1 & -> & I1 & C1 & P1).
      destruct (IH (done ++ [op]) n1 O2 I1) as (n' & E & H).
      + rewrite C1. apply chosen_snoc, HC.
      + intros c. pose proof (chosen_snoc _ _ _ _ op (HP c)) as X. cbn beta in X. rewrite P1.
        destruct (says_property c op); exact X.
      + exists n'. rewrite <- app_assoc in H. auto. }
  destruct (G [] ops n0 HO I0) as (n & E & I & H1 & H2).
  - rewrite C0. apply chosen_nil.
  - intros c. rewrite P0. apply chosen_nil.
  - exists n. split; [exact E0|]. split; [exact ES|]. split; [exact E|]. split; [exact H1|]. split; [exact H2|].
    intros c. destruct I as (_ & _ & IH). rewrite <- has_lookup, IH. destruct (PropertyName n c) as [s|].
    + split; [eauto|discriminate].
    + split; [intros X; exfalso; apply X; reflexivity|intros [s X]; discriminate X].
Qed.

(** The names of a device made for a code: the class name is the one of the standard,
    each property has the last name the class gives to its code, or else the last
    one of the super class; no name is blank. *)
Theorem C90_device : forall code n, 0 <= code < 2 ^ 64 -> NamedDeviceWithCode code = Ok n ->
  NewDeviceWithCode code = Ok (na_obj n) /\
  exists k sup, standard_class code = Some k /\ standard_class 0 = Some sup /\ ClassName n = nc_name k /\ ClassName n <> ""%string /\
  forall c p, LookupProperty (o_props (na_obj n)) c = Some p -> exists s, PropertyName n c = Some s /\ s <> ""%string /\
    (last_name (nc_props k) c = Some s \/ last_name (nc_props k) c = None /\ last_name (nc_props sup) c = Some s).
Proof.
  intros code n H E. unfold NamedDeviceWithCode in E. destruct named_super as (n0 & E0 & ES & I0 & C0 & P0). rewrite E0 in E.
  unfold NewDeviceWithCode. rewrite ES. destruct (DB_LookupObject code) as [std|] eqn:ED; [|discriminate E].
  destruct (name_step_spec n0 (NmSetCode code) I0 H) as (n' & E1 & I1 & C1 & P1). rewrite E1 in E. injection E as <-.
  split.
  { cbn [name_step] in E1. destruct (Super_SetCode (na_obj n0) code) as [[o ev]|]; [|discriminate E1].
    destruct (addStandardNames (Code o) (na_class n0) (na_props n0)) as [s m]. injection E1 as <-. reflexivity. }
  destruct (selects_dec code (proj1 H)) as [[kc Hs]|Hno]; [|rewrite DB_lookup_none in ED by (try exact Hno; apply H); discriminate ED].
  destruct (proj2 (class_exists code (proj1 H)) (ex_intro _ kc Hs)) as [k Hk].
  exists k, (nth 0 name_table (NC 0 0 "" [])). split; [exact Hk|]. split; [exact super_class_name|].
  cbn [says_class] in C1. rewrite Hk in C1. cbn [option_map] in C1.
  assert (NB : forall k', In k' name_table -> nc_name k' <> ""%string /\ forall c s, last_name (nc_props k') c = Some s -> s <> ""%string).
  { intros k' I. pose proof name_classes as X. rewrite Forall_forall in X. destruct (X k' I) as (_ & _ & X1 & X2). split; [exact X1|].
    intros c s L. unfold last_name in L. destruct (find (fun e => fst e =? c) (rev (nc_props k'))) as [e|] eqn:F; [|discriminate L].
    injection L as <-. apply find_some in F. destruct F as (F & _). rewrite <- in_rev in F. rewrite Forall_forall in X2. exact (X2 e F). }
  assert (Ik : In k name_table) by (apply find_some in Hk; apply Hk).
  split; [exact C1|]. split; [unfold ClassName; rewrite C1; apply (NB k Ik)|].
  intros c p L. assert (HH : has (na_obj n') c) by (apply has_lookup; eauto). destruct I1 as (_ & _ & IH). apply IH in HH.
  specialize (P1 c). cbn [says_property] in P1. rewrite Hk in P1.
  assert (Is : In (nth 0 name_table (NC 0 0 "" [])) name_table) by (pose proof super_class_name as X; apply find_some in X; apply X).
  destruct (last_name (nc_props k) c) as [s|] eqn:EL.
  - exists s. split; [exact P1|]. split; [|left; reflexivity]. apply (proj2 (NB k Ik) c s EL).
  - rewrite P0 in P1. unfold said in P1. rewrite super_class_name in P1.
    destruct (last_name (nc_props (nth 0 name_table (NC 0 0 "" []))) c) as [s|] eqn:EL2; [|congruence].
    exists s. split; [exact P1|]. split; [|right; auto]. apply (proj2 (NB _ Is) c s EL2).
Qed.

(** Such a device can be made exactly for the codes of the classes of the table. *)
Theorem C90_made : forall code, 0 <= code < 2 ^ 64 ->
  ((exists n, NamedDeviceWithCode code = Ok n) <-> exists k, standard_class code = Some k).
Proof.
  intros code H. rewrite (class_exists code (proj1 H)). unfold NamedDeviceWithCode.
  destruct named_super as (n0 & E0 & _ & I0 & _). rewrite E0. split.
  - intros [n E]. destruct (selects_dec code (proj1 H)) as [Hs|Hno]; [exact Hs|].
    rewrite DB_lookup_none in E by (try exact Hno; apply H). discriminate E.
  - intros [kc Hs]. rewrite (DB_lookup_some code kc (proj1 H) Hs).
    destruct (name_step_spec n0 (NmSetCode code) I0 H) as (n' & -> & _). eauto.
Qed.

(** The class name tells the class. *)
Theorem C90_class_names : forall c1 c2 k1 k2, standard_class c1 = Some k1 -> standard_class c2 = Some k2 ->
  nc_name k1 = nc_name k2 -> c1 / 65536 mod 256 = c2 / 65536 mod 256 /\ c1 / 256 mod 256 = c2 / 256 mod 256.
Proof.
  assert (T : forallb (fun k => forallb (fun k' => negb (String.eqb (nc_name k) (nc_name k')) || ((nc_grp k =? nc_grp k') && (nc_cls k =? nc_cls k')))
    name_table) name_table = true) by (vm_compute; reflexivity).
  intros c1 c2 k1 k2 H1 H2 E. apply find_some in H1. apply find_some in H2. destruct H1 as (I1 & G1), H2 as (I2 & G2).
  rewrite forallb_forall in T. specialize (T k1 I1). rewrite forallb_forall in T. specialize (T k2 I2). rewrite E, String.eqb_refl in T.
  cbn [negb orb] in T. lia.
Qed.

(** Full claim: a device shows every name the table of the standard has for its
    class.  It is false, since the table has two names for some codes: the names of
    location information and remote control setting are both under 0x93 of the super
    class.  No standard device shows the first one. *)
Definition C90_claim : Prop := forall code n k c s, 0 <= code < 2 ^ 64 -> NamedDeviceWithCode code = Ok n ->
  standard_class code = Some k -> In (c, s) (nc_props k) -> PropertyName n c = Some s.

(** It holds for a name with no other behind it for the same code. *)
Theorem C90_every_name_partial : forall code n k c s before after, 0 <= code < 2 ^ 64 -> NamedDeviceWithCode code = Ok n ->
  standard_class code = Some k -> nc_props k = before ++ (c, s) :: after -> ~ In c (map fst after) -> PropertyName n c = Some s.
Proof.
  intros code n k c s before after H E Hk EP HN. unfold NamedDeviceWithCode in E.
  destruct named_super as (n0 & E0 & ES & I0 & C0 & P0). rewrite E0 in E. destruct (DB_LookupObject code); [|discriminate E].
  destruct (name_step_spec n0 (NmSetCode code) I0 H) as (n' & E1 & _ & _ & P1). rewrite E1 in E. injection E as <-.
  rewrite P1. cbn [says_property]. rewrite Hk, EP.
  assert (L : last_name (before ++ (c, s) :: after) c = Some s).
  { clear -HN. induction before as [|e l IH].
    - cbn [app]. rewrite last_name_cons. apply last_name_none in HN. rewrite HN. cbn [fst snd]. rewrite Z.eqb_refl. reflexivity.
    - cbn [app]. rewrite last_name_cons, IH. reflexivity. }
  rewrite L. reflexivity.
Qed.

Theorem C90_shadowed_refuted : forall code n, 0 <= code < 2 ^ 64 -> NamedDeviceWithCode code = Ok n ->
  PropertyName n 0x93 <> Some "Location information"%string.
Proof.
  assert (T : forallb (fun k => match last_name (nc_props k) 0x93 with
     | Some s => negb (String.eqb s "Location information") | None => true end) name_table = true) by (vm_compute; reflexivity).
  intros code n H E X. destruct (C90_device code n H E) as (_ & k & sup & K1 & K2 & _ & _ & K3).
  unfold NamedDeviceWithCode in E.
  destruct named_super as (n0 & E0 & ES & I0 & C0 & P0). rewrite E0 in E. destruct (DB_LookupObject code); [|discriminate E].
  destruct (name_step_spec n0 (NmSetCode code) I0 H) as (n' & E1 & (_ & _ & IH) & _). rewrite E1 in E. injection E as <-.
  assert (HH : has (na_obj n') 0x93) by (apply IH; rewrite X; discriminate).
  apply has_lookup in HH. destruct HH as (p & L). destruct (K3 0x93 p L) as (s & S1 & _ & S2).
  rewrite X in S1. injection S1 as <-. rewrite forallb_forall in T.
  destruct S2 as [S2|[_ S2]].
  - apply find_some in K1. specialize (T k (proj1 K1)). rewrite S2 in T. discriminate T.
  - apply find_some in K2. specialize (T sup (proj1 K2)). rewrite S2 in T. discriminate T.
Qed.

Theorem C90_every_name_refuted : ~ C90_claim.
Proof.
  intros HC.
  assert (EN : exists n, NamedDeviceWithCode 1 = Ok n).
  { unfold NamedDeviceWithCode. destruct named_super as (n0 & E0 & _ & I0 & _). rewrite E0.
    destruct (DB_LookupObject 1) eqn:E.
    - destruct (name_step_spec n0 (NmSetCode 1) I0 ltac:(cbn; lia)) as (n' & -> & _). eauto.
    - exfalso. rewrite (DB_lookup_some 1 super_class ltac:(lia) ltac:(split; [left; reflexivity|split; reflexivity])) in E. discriminate E. }
  destruct EN as (n & En). apply (C90_shadowed_refuted 1 n ltac:(lia) En).
  apply (HC 1 n (nth 0 name_table (NC 0 0 "" [])) 0x93 "Location information"%string ltac:(lia) En).
  - vm_compute. reflexivity.
  - cbn. tauto.
Qed.

(** A general lighting device and an air conditioner of an object with two lives. *)
Example C90_example :
  match NamedDeviceWithCode 0x029001 with
  | Ok n => (ClassName n, PropertyName n 0x80, PropertyName n 0xB0, PropertyName n 0x93, PropertyName n 0xE1)
  | _ => (""%string, None, None, None, None)
  end = ("General lighting"%string, Some "Operation status"%string, Some "Light level"%string,
         Some "Remote control setting"%string, None).
Proof. vm_compute. reflexivity. Qed.

Example C90_example_history :
  match NamedSuperObject with
  | Some n0 =>
      match name_run n0 [NmSetCode 0x013001; NmAddProperty (mkProperty 0xB0 Optional Optional Prohibited [1]) "mine"; NmSetCode 0x029001;
                         NmSetCodeByte 1 0x30] with
      | Some n => (ClassName n, PropertyName n 0xB0, PropertyName n 0xA0, Code (na_obj n))
      | None => (""%string, None, None, 0)
      end
  | None => (""%string, None, None, 0)
  end = ("General lighting"%string, Some "Light level"%string, Some "Air flow rate setting"%string, 0x023001).
Proof. vm_compute. reflexivity. Qed.

Print Assumptions C90_names.
Print Assumptions C90_device.
Print Assumptions C90_made.
Print Assumptions C90_class_names.
Print Assumptions C90_every_name_partial.
Print Assumptions C90_every_name_refuted.
Print Assumptions C90_shadowed_refuted.
