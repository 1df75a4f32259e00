(** C103: the listings of the standard database. *)

From Coq Require Import String Permutation.
From Verif Require Import Go GoFacts Encoding StdDB Property Object ObjectFacts PropsObject ManDB Programs PropsPrograms Listing.
Local Open Scope Z_scope.

(** The code of a class with instance 0. *)
Definition class_code (c : mra_class) : Z := cl_grp c * 65536 + cl_cls c * 256.

(** ** Lemmas *)

Lemma appended {A B} (f : A -> B) l : forall acc, fold_left (fun a x => a ++ [f x]) l acc = acc ++ map f l.
Proof. induction l as [|x l IH]; intros acc; cbn [fold_left map]; [rewrite app_nil_r; reflexivity|]. rewrite IH, <- app_assoc. reflexivity. Qed.
Lemma Objects_map order : Objects order = map snd order.
Proof. unfold Objects. rewrite (appended snd). reflexivity. Qed.
Lemma Manufactures_map order : Manufactures order = order.
Proof. unfold Manufactures. rewrite (appended (fun x => x)). apply map_id. Qed.

Fixpoint distinct (l : list Z) : bool := match l with [] => true | x :: t => negb (existsb (Z.eqb x) t) && distinct t end.
Lemma distinct_NoDup l : distinct l = true -> NoDup l.
Proof.
  induction l as [|x l IH]; intros H; [constructor|]. cbn [distinct] in H. apply andb_prop in H as (H1 & H2). constructor; [|auto].
  intros HI. rewrite Bool.negb_true_iff in H1. rewrite <- Bool.not_true_iff_false in H1. apply H1. apply existsb_exists. exists x. split; [exact HI|apply Z.eqb_refl].
Qed.

Lemma db_keys : map fst db_objects = map class_code mra_table.
Proof. vm_compute. reflexivity. Qed.
Lemma db_keys_distinct : NoDup (map fst db_objects).
Proof. apply distinct_NoDup. vm_compute. reflexivity. Qed.
Lemma db_codes : forall k o, In (k, o) db_objects -> Code o = k.
Proof.
  assert (T : forallb (fun e => Code (snd e) =? fst e) db_objects = true) by (vm_compute; reflexivity).
  intros k o H. rewrite forallb_forall in T. specialize (T _ H). cbn [fst snd] in T. apply Z.eqb_eq in T. exact T.
Qed.

Lemma assoc_in {A} (l : list (Z * A)) k v : NoDup (map fst l) -> (assoc_z l k = Some v <-> In (k, v) l).
Proof.
  induction l as [|[x a] l IH]; intros N; cbn [assoc_z map fst] in *.
  - split; [discriminate|intros []].
  - inversion N as [|? ? N1 N2]; subst. destruct (x =? k) eqn:E.
    + apply Z.eqb_eq in E. subst x. split; [intros [= ->]; left; reflexivity|]. intros [[= ->]|H]; [reflexivity|]. exfalso. apply N1. apply in_map_iff. exists (k, v). auto.
    + apply Z.eqb_neq in E. rewrite (IH N2). split; [intros H; right; exact H|]. intros [[= ? ?]|H]; [congruence|exact H].
Qed.

(** ** Theorems *)

(** In whatever order the map is ranged over, Objects has exactly one object for each
    class of the table. *)
Theorem C103_objects : forall order, Permutation order db_objects ->
  Permutation (map Code (Objects order)) (map class_code mra_table) /\ NoDup (map Code (Objects order)).
Proof.
  intros order HP. rewrite Objects_map, map_map.
  assert (E : map (fun x => Code (snd x)) order = map fst order).
  { apply map_ext_in. intros [k o] H. cbn [fst snd]. apply db_codes. eapply Permutation_in; eassumption. }
  rewrite E. rewrite <- db_keys. split; [apply Permutation_map, HP|]. eapply Permutation_NoDup; [apply Permutation_sym, Permutation_map, HP|]. apply db_keys_distinct.
Qed.

(** What LookupObject finds is what is listed: the object of the class of the code, for
    all 256 instances of it. *)
Theorem C103_lookup : forall order code o, Permutation order db_objects -> 0 <= code ->
  (DB_LookupObject code = Some o <-> In o (Objects order) /\ Code o = code / 256 mod 65536 * 256).
Proof.
  intros order code o HP HC. unfold DB_LookupObject. rewrite (assoc_in _ _ _ db_keys_distinct), Objects_map.
  assert (EL : Z.land code 0xFFFF00 = code / 256 mod 65536 * 256).
  { assert (EQ : code / 256 mod 65536 * 256 = Z.shiftl (Z.land (Z.shiftr code 8) (Z.ones 16)) 8).
    { rewrite Z.shiftl_mul_pow2, Z.land_ones, Z.shiftr_div_pow2 by lia. reflexivity. }
    rewrite EQ. change 0xFFFF00 with (Z.shiftl (Z.ones 16) 8).
    apply Z.bits_inj'. intros n Hn. rewrite Z.land_spec, !Z.shiftl_spec by exact Hn. destruct (Z.lt_ge_cases n 8) as [L|L].
    - rewrite !(Z.testbit_neg_r _ (n - 8)) by lia. apply Bool.andb_false_r.
    - rewrite Z.land_spec, Z.shiftr_spec by lia. replace (n - 8 + 8) with n by lia. reflexivity. }
  rewrite EL. split.
  - intros H. split; [apply in_map_iff; exists (code / 256 mod 65536 * 256, o); split; [reflexivity|]; eapply Permutation_in; [apply Permutation_sym; exact HP|exact H]|]. apply db_codes, H.
  - intros (H1 & H2). apply in_map_iff in H1. destruct H1 as ([k o'] & E & H1). cbn [snd] in E. subst o'. apply (Permutation_in _ HP) in H1. pose proof (db_codes _ _ H1) as E. congruence.
Qed.

(** The object of a class has exactly the properties of its entries in the table. *)
Theorem C103_contents : forall order o, Permutation order db_objects -> In o (Objects order) ->
  exists c, In c mra_table /\ Code o = class_code c /\ o = newStandardObject c /\
    forall code, In code (map p_code (o_props o)) <-> exists e, In e (cl_entries c) /\ pe_code e = code.
Proof.
  assert (T : Forall2 (fun e c => snd e = newStandardObject c) db_objects mra_table).
  { assert (G : forall cs db, NoDup (map class_code cs) -> (forall c, In c cs -> Code (newStandardObject c) = class_code c) -> (forall c, In c cs -> ~ In (class_code c) (map fst db)) ->
      fold_left (fun db c => addObject db (newStandardObject c)) cs db = db ++ map (fun c => (class_code c, newStandardObject c)) cs).
    { induction cs as [|c cs IH]; intros db N HC HD; cbn [fold_left map]; [rewrite app_nil_r; reflexivity|].
      assert (A : addObject db (newStandardObject c) = db ++ [(class_code c, newStandardObject c)]).
      { specialize (HD c (or_introl eq_refl)). specialize (HC c (or_introl eq_refl)). clear -HC HD. induction db as [|[k v] db IH]; cbn [addObject app]; [rewrite HC; reflexivity|].
        rewrite HC in *. cbn [map fst] in HD. destruct (k =? class_code c) eqn:E; [apply Z.eqb_eq in E; exfalso; apply HD; left; exact E|]. rewrite IH; [reflexivity|]. intros X. apply HD. right. exact X. }
      inversion N as [|? ? N1 N2]; subst. rewrite A, IH, <- app_assoc; [reflexivity|exact N2|intros; apply HC; right; assumption|].
      intros c' H' X. rewrite map_app, in_app_iff in X. destruct X as [X|[X|[]]]; [apply (HD c' (or_intror H') X)|]. cbn [fst] in X. apply N1. apply in_map_iff. exists c'. split; [congruence|exact H']. }
    unfold db_objects. rewrite (G mra_table []).
    - cbn [app]. generalize mra_table. induction l as [|c l IH]; constructor; [reflexivity|exact IH].
    - rewrite <- db_keys. apply db_keys_distinct.
    - assert (T : forallb (fun c => Code (newStandardObject c) =? class_code c) mra_table = true) by (vm_compute; reflexivity).
      intros c H. rewrite forallb_forall in T. apply Z.eqb_eq, T, H.
    - intros c _ []. }
  intros order o HP H. rewrite Objects_map in H. apply in_map_iff in H. destruct H as ([k o'] & E & H). cbn [snd] in E. subst o'. apply (Permutation_in _ HP) in H.
  assert (X : exists c, In c mra_table /\ o = newStandardObject c).
  { clear -T H. induction T as [|e c l1 l2 E _ IH]; [destruct H|]. destruct H as [->|H]; [exists c; split; [left; reflexivity|exact E]|]. destruct (IH H) as (c' & A & B). exists c'. split; [right; exact A|exact B]. }
  destruct X as (c & HC & ->). exists c. split; [exact HC|]. split.
  - assert (T2 : forallb (fun c => Code (newStandardObject c) =? class_code c) mra_table = true) by (vm_compute; reflexivity). rewrite forallb_forall in T2. apply Z.eqb_eq, T2, HC.
  - split; [reflexivity|]. intros code.
    assert (T3 : forallb (fun c => forallb (fun x => existsb (fun e => pe_code e =? x) (cl_entries c)) (map p_code (o_props (newStandardObject c))) &&
                                   forallb (fun e => existsb (Z.eqb (pe_code e)) (map p_code (o_props (newStandardObject c)))) (cl_entries c)) mra_table = true) by (vm_compute; reflexivity).
    rewrite forallb_forall in T3. specialize (T3 c HC). apply andb_prop in T3. destruct T3 as (T3 & T4). rewrite forallb_forall in T3, T4. split.
    + intros X. specialize (T3 code X). apply existsb_exists in T3. destruct T3 as (e & E1 & E2). exists e. split; [exact E1|apply Z.eqb_eq; exact E2].
    + intros (e & E1 & <-). specialize (T4 e E1). apply existsb_exists in T4. destruct T4 as (x & E2 & E3). apply Z.eqb_eq in E3. subst x. exact E2.
Qed.

(** The super class and the node profile are in it. *)
Theorem C103_special : (exists o, SuperObject = Some o /\ Code o = 0 /\ HasProp (o_props o) 0x9F = true) /\
  (exists o, DB_NodeProfile = Some o /\ Code o = 0x0EF000 /\ HasProp (o_props o) 0xD5 = true).
Proof. split; (eexists; split; [vm_compute; reflexivity|split; vm_compute; reflexivity]). Qed.

(** The manufacturers: one for each code of the table, with its name; LookupManufacture
    finds exactly the listed ones. *)
Theorem C103_manufacturers : forall order, Permutation order db_manufactures ->
  Permutation (Manufactures order) man_table /\ NoDup (map fst (Manufactures order)) /\
  forall c s, LookupManufacture c = Some s <-> In (c, s) (Manufactures order).
Proof.
  intros order HP. rewrite Manufactures_map.
  assert (E : db_manufactures = man_table) by (vm_compute; reflexivity).
  assert (N : NoDup (map fst db_manufactures)) by (apply distinct_NoDup; vm_compute; reflexivity).
  split; [rewrite <- E; exact HP|]. split; [eapply Permutation_NoDup; [apply Permutation_sym, Permutation_map, HP|exact N]|].
  intros c s. unfold LookupManufacture. rewrite (assoc_in _ _ _ N). split; apply Permutation_in; [apply Permutation_sym, HP|exact HP].
Qed.

(** A case: the map ranged over backwards. *)
Example C103_example :
  length (Objects (rev db_objects)) = length mra_table /\ nth_error (map Code (rev (Objects (rev db_objects)))) 1 = Some 0x0EF000 /\
  option_map fst (hd_error (rev (Manufactures (rev db_manufactures)))) = option_map fst (hd_error man_table) /\
  DB_LookupObject 0x0291FF = DB_LookupObject 0x029100 /\ DB_LookupObject 0x02FF01 = None.
Proof. vm_compute. repeat split. Qed.

Print Assumptions C103_objects.
Print Assumptions C103_lookup.
Print Assumptions C103_contents.
Print Assumptions C103_special.
Print Assumptions C103_manufacturers.
