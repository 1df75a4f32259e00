(** Facts about property maps (as Go maps and as ECHONET property map data). *)

From Verif Require Import Go GoFacts Encoding EncodingFacts Protocol StdDB Property.
From Coq Require Import ZifyBool ZifyNat Permutation Sorted.
Local Open Scope Z_scope.

(** ** The Go map of properties *)

Definition props_ok (m : props) : Prop := NoDup (map p_code m).

Lemma Lookup_code m c p : LookupProperty m c = Some p -> p_code p = c.
Proof.
  induction m as [|q m IH]; simpl; [discriminate|].
  destruct (p_code q =? c) eqn:E; intro H; [inv H; lia|auto].
Qed.

Lemma Lookup_In m c p : LookupProperty m c = Some p -> In p m.
Proof.
  induction m as [|q m IH]; simpl; [discriminate|].
  destruct (p_code q =? c) eqn:E; intro H; [inv H; auto|auto].
Qed.

Lemma Lookup_None m c : LookupProperty m c = None <-> ~ In c (map p_code m).
Proof.
  induction m as [|q m IH]; simpl; [tauto|].
  destruct (p_code q =? c) eqn:E.
  - split; [discriminate|intros H; exfalso; apply H; left; lia].
  - rewrite IH. split; [intros H [H1|H1]; [lia|auto]|tauto].
Qed.

Lemma Lookup_Some_In m c : In c (map p_code m) <-> exists p, LookupProperty m c = Some p.
Proof.
  destruct (LookupProperty m c) as [p|] eqn:E.
  - split; [eauto|]. intros _. rewrite <- (Lookup_code _ _ _ E).
    apply in_map, (Lookup_In _ _ _ E).
  - apply Lookup_None in E. split; [tauto|intros [p Hp]; discriminate].
Qed.

Lemma In_Lookup m p : props_ok m -> In p m -> LookupProperty m (p_code p) = Some p.
Proof.
  unfold props_ok. induction m as [|q m IH]; simpl; [tauto|].
  intros Hn [->|Hin]; inv Hn.
  - rewrite Z.eqb_refl. reflexivity.
  - destruct (p_code q =? p_code p) eqn:E; [|auto].
    exfalso. apply H1. apply Z.eqb_eq in E. rewrite E. apply in_map. assumption.
Qed.

Lemma Lookup_Add m q c :
  LookupProperty (AddPropertyMap m q) c =
  if p_code q =? c then Some q else LookupProperty m c.
Proof.
  induction m as [|p m IH]; simpl; [reflexivity|].
  destruct (p_code p =? p_code q) eqn:E; simpl.
  - destruct (p_code q =? c) eqn:E1; destruct (p_code p =? c) eqn:E2;
      try reflexivity; lia.
  - destruct (p_code p =? c) eqn:E2; [|assumption].
    destruct (p_code q =? c) eqn:E1; [lia|reflexivity].
Qed.

Lemma Add_codes m q :
  map p_code (AddPropertyMap m q) =
  if contains (map p_code m) (p_code q) then map p_code m
  else map p_code m ++ [p_code q].
Proof.
  induction m as [|p m IH]; simpl; [reflexivity|].
  unfold contains in *. simpl.
  destruct (p_code p =? p_code q) eqn:E; simpl.
  - replace (p_code q =? p_code p) with true by lia. simpl. f_equal. lia.
  - replace (p_code q =? p_code p) with false by lia. simpl. rewrite IH.
    destruct (existsb _ _); reflexivity.
Qed.

Lemma Add_ok m q : props_ok m -> props_ok (AddPropertyMap m q).
Proof.
  unfold props_ok. rewrite Add_codes.
  destruct (contains (map p_code m) (p_code q)) eqn:E; [auto|].
  intros H. apply Permutation_NoDup with (p_code q :: map p_code m).
  - apply Permutation_cons_append.
  - constructor; [|assumption]. rewrite <- contains_In, E. discriminate.
Qed.

Lemma Lookup_set m k d c :
  LookupProperty (set_data m k d) c =
  if k =? c then option_map (fun p => with_data p d) (LookupProperty m c)
  else LookupProperty m c.
Proof.
  induction m as [|p m IH]; simpl; [destruct (k =? c); reflexivity|].
  destruct (p_code p =? k) eqn:E; simpl.
  - destruct (p_code p =? c) eqn:E2; destruct (k =? c) eqn:E3; try lia; reflexivity.
  - rewrite IH. destruct (p_code p =? c) eqn:E2; destruct (k =? c) eqn:E3; try lia;
      reflexivity.
Qed.

Lemma set_data_codes m k d : map p_code (set_data m k d) = map p_code m.
Proof.
  induction m as [|p m IH]; simpl; [reflexivity|].
  destruct (p_code p =? k); simpl; congruence.
Qed.

Lemma set_data_ok m k d : props_ok m -> props_ok (set_data m k d).
Proof. unfold props_ok. rewrite set_data_codes. auto. Qed.

Lemma set_data_absent m k d : LookupProperty m k = None -> set_data m k d = m.
Proof.
  induction m as [|p m IH]; simpl; [reflexivity|].
  destruct (p_code p =? k); [discriminate|]. intros H. f_equal. auto.
Qed.

(** Two property lists with the same lookups and the same codes are equal. *)
Lemma props_ext m k :
  props_ok m -> map p_code m = map p_code k ->
  (forall c, LookupProperty m c = LookupProperty k c) -> m = k.
Proof.
  unfold props_ok. revert k. induction m as [|p m IH]; intros [|q k] Hn Hc HL;
    simpl in *; try discriminate; [reflexivity|].
  inv Hc. inv Hn.
  assert (p = q) as ->.
  { specialize (HL (p_code p)). rewrite Z.eqb_refl in HL.
    replace (p_code q =? p_code p) with true in HL by lia. congruence. }
  f_equal. apply IH; [assumption|assumption|].
  intros c. specialize (HL c).
  destruct (p_code q =? c) eqn:E; [|assumption].
  assert (c = p_code q) as -> by lia.
  rewrite (proj2 (Lookup_None m (p_code q))) by assumption.
  rewrite (proj2 (Lookup_None k (p_code q))) by congruence. reflexivity.
Qed.

(** ** Enumeration *)

Lemma Properties_order_any order m :
  Permutation order (map p_code m) -> Properties_order order m = Properties m.
Proof.
  intros H. unfold Properties, Properties_order. f_equal. apply sort_z_unique. assumption.
Qed.

Lemma flat_lookup_map m l :
  (forall c, In c l -> In c (map p_code m)) ->
  map p_code (flat_map (fun c => match LookupProperty m c with
                                 | Some p => [p] | None => [] end) l) = l.
Proof.
  induction l as [|c l IH]; intros H; simpl; [reflexivity|].
  destruct (proj1 (Lookup_Some_In m c)) as [p Hp]; [apply H; left; reflexivity|].
  rewrite Hp. simpl. rewrite IH by (intros; apply H; right; assumption).
  f_equal. apply (Lookup_code _ _ _ Hp).
Qed.

Lemma Properties_codes m : map p_code (Properties m) = sort_z (map p_code m).
Proof.
  unfold Properties, Properties_order. apply flat_lookup_map.
  intros c Hc. rewrite sort_z_In in Hc. exact Hc.
Qed.

Lemma Properties_In m p : props_ok m -> (In p (Properties m) <-> In p m).
Proof.
  intros Hok. unfold Properties, Properties_order. rewrite in_flat_map. split.
  - intros (c & _ & Hp). destruct (LookupProperty m c) eqn:E; [|destruct Hp].
    destruct Hp as [<-|[]]. eapply Lookup_In; eauto.
  - intros H. exists (p_code p). rewrite (In_Lookup _ _ Hok H). split.
    + apply sort_z_In, in_map. assumption.
    + left. reflexivity.
Qed.

Lemma Properties_ok m : props_ok m -> props_ok (Properties m).
Proof. unfold props_ok. rewrite Properties_codes. apply sort_z_NoDup. Qed.

Lemma Properties_perm m : props_ok m -> Permutation (Properties m) m.
Proof.
  intros H. apply NoDup_Permutation.
  - apply (NoDup_map_inv p_code). apply Properties_ok. assumption.
  - apply (NoDup_map_inv p_code). assumption.
  - intros p. apply Properties_In. assumption.
Qed.

Lemma Lookup_Properties m c :
  props_ok m -> LookupProperty (Properties m) c = LookupProperty m c.
Proof.
  intros H. destruct (LookupProperty m c) as [p|] eqn:E.
  - pose proof (Lookup_code _ _ _ E) as <-.
    apply In_Lookup; [apply Properties_ok; assumption|].
    apply Properties_In; [assumption|]. eapply Lookup_In; eauto.
  - apply Lookup_None. apply Lookup_None in E. rewrite Properties_codes.
    rewrite sort_z_In. assumption.
Qed.

(** Everything of a property but its data. *)
Definition strip (p : property) : property := with_data p [].

Definition blind (f : property -> bool) : Prop := forall p, f p = f (strip p).

Lemma Lookup_map_strip m c :
  LookupProperty (map strip m) c = option_map strip (LookupProperty m c).
Proof.
  induction m as [|p m IH]; simpl; [reflexivity|].
  destruct (p_code p =? c); simpl; auto.
Qed.

Lemma map_code_strip m : map p_code (map strip m) = map p_code m.
Proof. rewrite map_map. reflexivity. Qed.

Lemma Properties_strip m : map strip (Properties m) = Properties (map strip m).
Proof.
  unfold Properties, Properties_order. rewrite map_code_strip.
  induction (sort_z (map p_code m)) as [|c l IH]; simpl; [reflexivity|].
  rewrite map_app, IH, Lookup_map_strip. destruct (LookupProperty m c); reflexivity.
Qed.

Lemma filter_codes_strip f l :
  blind f -> map p_code (filter f l) = map p_code (filter f (map strip l)).
Proof.
  intros H. induction l as [|p l IH]; simpl; [reflexivity|].
  rewrite <- H. destruct (f p); simpl; rewrite IH; reflexivity.
Qed.

Lemma set_data_strip m k d : map strip (set_data m k d) = map strip m.
Proof.
  induction m as [|p m IH]; simpl; [reflexivity|].
  destruct (p_code p =? k); simpl; [reflexivity|congruence].
Qed.

(** ** Property map data *)

(** What the code writes: the list format up to 15 codes, otherwise the number
    of codes and 16 cells in which bit n (0..3) of cell r stands for the code
    0x80 + 16 n + r. *)
Definition in_cell (codes : list Z) (r : nat) (n : Z) : bool :=
  (n <? 4) && contains codes (128 + 16 * n + Z.of_nat r).

Definition code_bit (c : Z) : Z := (c - 128) / 16.
Definition code_row (c : Z) : nat := Z.to_nat ((c - 128) mod 16).

Lemma format2_code_sweep :
  forallb (fun c => match propertyMapCodeToFormat2 c with
                    | Some (i, b) => (128 <=? c) && (i =? Z.of_nat (code_row c) + 1)
                                     && (b =? code_bit c)
                    | None => c <? 128
                    end) (map Z.of_nat (seq 0 256)) = true.
Proof. vm_compute. reflexivity. Qed.

Lemma format2_code c : is_byte c ->
  propertyMapCodeToFormat2 c =
  if c <? 128 then None else Some (Z.of_nat (code_row c) + 1, code_bit c).
Proof.
  intros Hc. pose proof format2_code_sweep as H. rewrite forallb_forall in H.
  specialize (H c). unfold is_byte in Hc.
  assert (In c (map Z.of_nat (seq 0 256))) as Hin.
  { apply in_map_iff. exists (Z.to_nat c). split; [lia|apply in_seq; lia]. }
  specialize (H Hin). destruct (propertyMapCodeToFormat2 c) as [[i b]|].
  - destruct (c <? 128) eqn:E; [lia|]. f_equal. f_equal; lia.
  - rewrite H. reflexivity.
Qed.

Lemma code_row_lt c : (code_row c < 16)%nat.
Proof. unfold code_row. pose proof (Z.mod_pos_bound (c - 128) 16). lia. Qed.

Lemma code_bit_range c : 128 <= c < 256 -> 0 <= code_bit c < 8.
Proof. unfold code_bit. intros. split; [apply Z.div_pos; lia|apply Z.div_lt_upper_bound; lia]. Qed.

Lemma code_split c : 128 <= c -> c = 128 + 16 * code_bit c + Z.of_nat (code_row c).
Proof.
  intros. unfold code_bit, code_row. pose proof (Z.mod_pos_bound (c - 128) 16).
  pose proof (Z.div_mod (c - 128) 16). lia.
Qed.

Lemma mask_sweep :
  forallb (fun b => forallb (fun n =>
     Bool.eqb (Z.testbit (u8 (Z.land (Z.shiftl 1 b) 15)) n) ((b =? n) && (n <? 4)))
     (map Z.of_nat (seq 0 8))) (map Z.of_nat (seq 0 8)) = true.
Proof. vm_compute. reflexivity. Qed.

Lemma in_zseq n k : 0 <= n < Z.of_nat k -> In n (map Z.of_nat (seq 0 k)).
Proof.
  intros. apply in_map_iff. exists (Z.to_nat n). split; [lia|apply in_seq; lia].
Qed.

Lemma mask_bit b n : 0 <= b < 8 -> 0 <= n < 8 ->
  Z.testbit (u8 (Z.land (Z.shiftl 1 b) 15)) n = ((b =? n) && (n <? 4)).
Proof.
  intros Hb Hn. pose proof mask_sweep as H. rewrite forallb_forall in H.
  specialize (H b (in_zseq b 8 Hb)). rewrite forallb_forall in H.
  specialize (H n (in_zseq n 8 Hn)). apply Bool.eqb_prop in H. assumption.
Qed.

Lemma set_nth_nth {A} (l : list A) i j v d :
  (i < length l)%nat ->
  nth j (set_nth l i v) d = if Nat.eqb i j then v else nth j l d.
Proof.
  revert i j. induction l as [|x l IH]; intros [|i] [|j] H; simpl in *; try lia;
    try reflexivity.
  rewrite IH by lia. reflexivity.
Qed.

Lemma idx_nth_ok {A} (l : list A) (i : nat) d :
  (i < length l)%nat -> idx l (Z.of_nat i) = Ok (nth i l d).
Proof.
  intros H. rewrite idx_nth. rewrite (nth_error_nth' l d H). reflexivity.
Qed.

Lemma set_idx_ok {A} (l : list A) (i : nat) v :
  (i < length l)%nat -> set_idx l (Z.of_nat i) v = Ok (set_nth l i v).
Proof.
  intros H. unfold set_idx, len.
  destruct ((Z.of_nat i <? 0) || (Z.of_nat (length l) <=? Z.of_nat i)) eqn:E; [lia|].
  rewrite Nat2Z.id. reflexivity.
Qed.

Lemma is_byte_lor a b : is_byte a -> is_byte b -> is_byte (Z.lor a b).
Proof.
  unfold is_byte. intros Ha Hb. split; [apply Z.lor_nonneg; lia|].
  destruct (Z.eq_dec (Z.lor a b) 0) as [->|Hz]; [lia|].
  apply Z.log2_lt_cancel. rewrite Z.log2_lor by lia.
  change (Z.log2 256) with 8.
  destruct (Z.eq_dec a 0) as [->|]; destruct (Z.eq_dec b 0) as [->|];
    try (change (Z.log2 0) with 0);
    apply Z.max_lub_lt; try lia; apply Z.log2_lt_pow2; lia.
Qed.

Lemma u8_byte v : is_byte (u8 v).
Proof. unfold is_byte, u8. apply Z.mod_pos_bound. lia. Qed.

Definition fmt2_state (d : list Z) : Prop := length d = 17%nat /\ is_bytes d.

Lemma format2_loop_spec codes : forall d,
  Forall is_byte codes -> fmt2_state d ->
  exists d', format2_loop codes d = Ok d' /\ fmt2_state d' /\
    nth 0 d' 0 = nth 0 d 0 /\
    forall r n, (r < 16)%nat -> 0 <= n < 8 ->
      Z.testbit (nth (S r) d' 0) n = Z.testbit (nth (S r) d 0) n || in_cell codes r n.
Proof.
  unfold format2_loop. induction codes as [|c codes IH]; intros d Hc [Hl Hb].
  - exists d. cbn [for_each]. repeat split; auto.
    intros. unfold in_cell, contains. simpl. rewrite andb_false_r, orb_false_r. reflexivity.
  - inversion Hc as [|? ? Hc1 Hc2]; subst. cbn [for_each].
    rewrite format2_code by assumption.
    destruct (c <? 128) eqn:E; cbn [bind].
    + destruct (IH d Hc2 (conj Hl Hb)) as (d' & H1 & H2 & H3 & H4).
      exists d'. split; [assumption|]. split; [assumption|]. split; [assumption|].
      intros r n Hr Hn. rewrite H4 by assumption. f_equal.
      unfold in_cell, contains. cbn [existsb].
      replace (128 + 16 * n + Z.of_nat r =? c) with false by lia. reflexivity.
    + replace (Z.of_nat (code_row c) + 1) with (Z.of_nat (S (code_row c))) by lia.
      pose proof (code_row_lt c) as Hrow.
      unfold is_byte in Hc1.
      pose proof (code_bit_range c ltac:(lia)) as Hbit.
      rewrite (idx_nth_ok d _ 0) by lia. cbn [bind].
      rewrite set_idx_ok by lia. cbn [bind].
      set (v := Z.lor _ _).
      assert (Hv : is_byte v).
      { apply is_byte_lor; [|apply u8_byte].
        unfold is_bytes in Hb. rewrite Forall_forall in Hb. apply Hb, nth_In. lia. }
      destruct (IH (set_nth d (S (code_row c)) v) Hc2) as (d' & H1 & H2 & H3 & H4).
      { split; [rewrite set_nth_length; assumption|].
        unfold is_bytes. apply Forall_forall. intros x Hx.
        apply (In_nth _ _ 0) in Hx as (j & Hj & <-).
        rewrite set_nth_length in Hj. rewrite set_nth_nth by lia.
        destruct (Nat.eqb _ _); [assumption|].
        unfold is_bytes in Hb. rewrite Forall_forall in Hb. apply Hb, nth_In. lia. }
      exists d'. split; [assumption|]. split; [assumption|].
      rewrite set_nth_nth in H3 by lia. split; [exact H3|].
      intros r n Hr Hn. rewrite H4 by assumption.
      rewrite set_nth_nth by lia.
      unfold in_cell, contains. cbn [existsb].
      destruct (Nat.eqb (S (code_row c)) (S r)) eqn:E3.
      * apply Nat.eqb_eq in E3. injection E3 as <-. unfold v.
        rewrite Z.lor_spec, mask_bit by assumption.
        replace (128 + 16 * n + Z.of_nat (code_row c) =? c) with (code_bit c =? n).
        2:{ pose proof (code_split c ltac:(lia)) as Hs.
            destruct (code_bit c =? n) eqn:E4; symmetry;
              [apply Z.eqb_eq; lia|apply Z.eqb_neq; lia]. }
        destruct (Z.testbit _ _), (code_bit c =? n), (n <? 4), (existsb _ _); reflexivity.
      * apply Nat.eqb_neq in E3.
        replace (128 + 16 * n + Z.of_nat r =? c) with false; [reflexivity|].
        symmetry. apply Z.eqb_neq. intros <-. apply E3.
        unfold code_row. replace (128 + 16 * n + Z.of_nat r - 128) with (Z.of_nat r + n * 16) by lia.
        rewrite Z.mod_add by lia. rewrite Z.mod_small by lia. rewrite Nat2Z.id. reflexivity.
Qed.

Lemma format1_loop_spec : forall rest done h,
  for_range (length rest) (Z.of_nat (length done))
    (fun n d => c <- idx (done ++ rest) n ;; set_idx d (n + 1) (u8 c))
    (h :: map u8 done ++ repeat 0 (length rest)) = Ok (h :: map u8 (done ++ rest)).
Proof.
  induction rest as [|c rest IH]; intros done h.
  - cbn. rewrite !app_nil_r. reflexivity.
  - cbn [length for_range]. rewrite idx_app_r by reflexivity. cbn [bind].
    replace (h :: map u8 done ++ repeat 0 (S (length rest)))
      with ((h :: map u8 done) ++ 0 :: repeat 0 (length rest)) by reflexivity.
    rewrite set_idx_app.
    2:{ rewrite len_cons. unfold len. rewrite map_length. lia. }
    cbn [bind].
    pose proof (IH (done ++ [c]) h) as H.
    replace (done ++ c :: rest) with ((done ++ [c]) ++ rest) by (rewrite <- app_assoc; reflexivity).
    rewrite <- H. rewrite app_length. cbn [length].
    replace (Z.of_nat (length done) + 1) with (Z.of_nat (length done + 1)) by lia.
    f_equal. rewrite map_app. cbn [map]. rewrite <- app_assoc. reflexivity.
Qed.

Lemma zeros_S n : 0 <= n -> zeros (n + 1) = 0 :: zeros n.
Proof. intros. unfold zeros. replace (Z.to_nat (n + 1)) with (S (Z.to_nat n)) by lia. reflexivity. Qed.

Lemma propertyMapBytes_1 codes : len codes <= 15 ->
  propertyMapBytes codes = Ok (len codes :: map u8 codes).
Proof.
  intros H. unfold propertyMapBytes, isPropertyMapDescriptionFormat1, PropertyMapFormat1MaxSize.
  destruct (len codes <=? 15) eqn:E; [|lia].
  pose proof (len_nonneg codes).
  rewrite zeros_S by lia.
  replace (set_idx (0 :: zeros (len codes)) 0 (u8 (len codes)))
    with (Ok (len codes :: zeros (len codes))).
  2:{ rewrite (set_idx_app [] (zeros (len codes)) 0) by reflexivity. simpl.
      unfold u8. rewrite Z.mod_small by lia. reflexivity. }
  cbn [bind]. unfold format1_loop.
  pose proof (format1_loop_spec codes [] (len codes)) as H1.
  cbn [app map length Z.of_nat] in H1.
  unfold zeros. unfold len at 2. rewrite Nat2Z.id. exact H1.
Qed.

Lemma fmt2_zero n : is_byte n -> fmt2_state (n :: repeat 0 16).
Proof.
  intros Hn. split; [reflexivity|]. constructor; [assumption|].
  apply Forall_forall. intros x Hx. apply repeat_spec in Hx. subst. unfold is_byte. lia.
Qed.

Lemma propertyMapBytes_2 codes : 15 < len codes -> Forall is_byte codes ->
  exists cells, propertyMapBytes codes = Ok (u8 (len codes) :: cells) /\
    length cells = 16%nat /\ is_bytes cells /\
    forall r n, (r < 16)%nat -> 0 <= n < 8 ->
      Z.testbit (nth r cells 0) n = in_cell codes r n.
Proof.
  intros H Hc. unfold propertyMapBytes, isPropertyMapDescriptionFormat1, PropertyMapFormat1MaxSize.
  destruct (len codes <=? 15) eqn:E; [lia|].
  change (set_idx (zeros (Z.of_nat PropertyMapFormat2MapSize + 1)) 0 (u8 (len codes)))
    with (Ok (u8 (len codes) :: repeat 0 16)). cbn [bind].
  destruct (format2_loop_spec codes _ Hc (fmt2_zero _ (u8_byte (len codes))))
    as (d' & H1 & [H2 H2'] & H3 & H4).
  destruct d' as [|h cells]; [discriminate|]. cbn [nth] in H3. subst h.
  exists cells. split; [exact H1|]. inv H2'. simpl in H2. split; [lia|]. split; [assumption|].
  intros r n Hr Hn. specialize (H4 r n Hr Hn). cbn [nth] in H4. rewrite H4.
  replace (nth r (repeat 0 16) 0) with 0.
  2:{ symmetry. apply nth_repeat. }
  rewrite Z.bits_0. reflexivity.
Qed.

Lemma propertyMapBytes_total codes : Forall is_byte codes ->
  exists d, propertyMapBytes codes = Ok d.
Proof.
  intros Hc. destruct (Z_le_gt_dec (len codes) 15).
  - rewrite propertyMapBytes_1 by assumption. eauto.
  - destruct (propertyMapBytes_2 codes) as (cells & H & _); [lia|assumption|]. eauto.
Qed.

(** The data, as a function (all codes are bytes). *)
Definition map_bytes (codes : list Z) : list Z :=
  match propertyMapBytes codes with Ok d => d | _ => [] end.

Lemma propertyMapBytes_ok codes : Forall is_byte codes ->
  propertyMapBytes codes = Ok (map_bytes codes).
Proof.
  intros H. unfold map_bytes. destruct (propertyMapBytes_total codes H) as [d ->]. reflexivity.
Qed.

(** Decoding of the cells. *)
Lemma decode_bit_sweep :
  forallb (fun b => forallb (fun n =>
     Bool.eqb (Z.land b (u8 (Z.land (Z.shiftl 1 n) 15)) =? 0)
              (negb (Z.testbit b n && (n <? 4))))
     (map Z.of_nat (seq 0 8))) (map Z.of_nat (seq 0 256)) = true.
Proof. vm_compute. reflexivity. Qed.

Lemma decode_bit b n : is_byte b -> 0 <= n < 8 ->
  (Z.land b (u8 (Z.land (Z.shiftl 1 n) 15)) =? 0) = negb (Z.testbit b n && (n <? 4)).
Proof.
  intros Hb Hn. pose proof decode_bit_sweep as H. rewrite forallb_forall in H.
  specialize (H b (in_zseq b 256 Hb)). rewrite forallb_forall in H.
  specialize (H n (in_zseq n 8 Hn)). apply Bool.eqb_prop in H. assumption.
Qed.

Lemma ByteToCodes_In r b c : (r < 16)%nat -> is_byte b ->
  (In c (propertyMapFormat2ByteToCodes (Z.of_nat r) b) <->
   exists n, 0 <= n < 4 /\ Z.testbit b n = true /\ c = 128 + 16 * n + Z.of_nat r).
Proof.
  intros Hr Hb. unfold propertyMapFormat2ByteToCodes. rewrite in_flat_map. split.
  - intros (n & Hn & Hc). apply in_seq in Hn. cbn zeta in Hc.
    rewrite decode_bit in Hc by (try assumption; lia).
    destruct (Z.testbit b (Z.of_nat n) && (Z.of_nat n <? 4)) eqn:E; [|destruct Hc].
    apply andb_prop in E as [E1 E2]. destruct Hc as [<-|[]].
    exists (Z.of_nat n). split; [lia|]. split; [assumption|].
    unfold propertyMapFormat2BitToCode, PropertyCodeMin, u8. rewrite Z.mod_small; lia.
  - intros (n & Hn & Ht & ->). exists (Z.to_nat n). split; [apply in_seq; lia|].
    cbn zeta. rewrite Z2Nat.id by lia. rewrite decode_bit by (try assumption; lia).
    rewrite Ht. replace (n <? 4) with true by lia. cbn [negb andb In].
    left. unfold propertyMapFormat2BitToCode, PropertyCodeMin, u8. rewrite Z.mod_small; lia.
Qed.

Lemma flat_map_NoDup {A B} (f : A -> list B) l :
  NoDup l -> (forall a, In a l -> NoDup (f a)) ->
  (forall a b x, In a l -> In b l -> In x (f a) -> In x (f b) -> a = b) ->
  NoDup (flat_map f l).
Proof.
  intros Hn. induction Hn as [|a l Ha Hn IH]; intros H1 H2; simpl; [constructor|].
  assert (HN : NoDup (flat_map f l)).
  { apply IH; [intros; apply H1; right; assumption|].
    intros a' b' x ? ?; apply H2; right; assumption. }
  assert (HD : forall x, In x (f a) -> ~ In x (flat_map f l)).
  { intros x Hx Hx'. apply in_flat_map in Hx' as (b & Hb & Hxb).
    assert (a = b) as <- by (apply (H2 a b x); simpl; auto). contradiction. }
  specialize (H1 a (or_introl eq_refl)).
  clear -HN HD H1. induction H1 as [|y k Hy Hk IHk]; simpl; [assumption|].
  constructor.
  - rewrite in_app_iff. intros [H|H]; [contradiction|].
    apply (HD y); [left; reflexivity|assumption].
  - apply IHk. intros x Hx. apply HD. right. assumption.
Qed.

Lemma ByteToCodes_NoDup r b : (r < 16)%nat -> NoDup (propertyMapFormat2ByteToCodes (Z.of_nat r) b).
Proof.
  intros Hr. unfold propertyMapFormat2ByteToCodes. apply flat_map_NoDup.
  - apply seq_NoDup.
  - intros n _. cbn zeta. destruct (_ =? 0); [constructor|constructor; [simpl; tauto|constructor]].
  - intros n k x Hn Hk Hx Hy. apply in_seq in Hn, Hk. cbn zeta in *.
    destruct (_ =? 0) in Hx; [destruct Hx|]. destruct (_ =? 0) in Hy; [destruct Hy|].
    destruct Hx as [<-|[]]. destruct Hy as [Hy|[]].
    unfold propertyMapFormat2BitToCode, PropertyCodeMin, u8 in Hy.
    rewrite !Z.mod_small in Hy by lia. lia.
Qed.

(** The loops of the decoder. *)
Lemma decode1_loop : forall (rest done : list Z) (h : Z) (acc : list Z),
  for_range (length rest) (Z.of_nat (length done))
    (fun n codes => b <- idx (h :: done ++ rest) (n + 1) ;; Ok (codes ++ [b])) acc
  = Ok (acc ++ rest).
Proof.
  induction rest as [|c rest IH]; intros done h acc.
  - cbn. rewrite app_nil_r. reflexivity.
  - cbn [length for_range].
    replace (h :: done ++ c :: rest) with ((h :: done) ++ c :: rest) by reflexivity.
    rewrite idx_app_r by (rewrite len_cons; unfold len; lia). cbn [bind].
    specialize (IH (done ++ [c]) h (acc ++ [c])).
    replace (h :: (done ++ [c]) ++ rest) with ((h :: done) ++ c :: rest) in IH
      by (cbn [app]; rewrite <- app_assoc; reflexivity).
    replace (Z.of_nat (length (done ++ [c]))) with (Z.of_nat (length done) + 1) in IH
      by (rewrite app_length; simpl; lia).
    rewrite IH. rewrite <- app_assoc. reflexivity.
Qed.

Fixpoint cells_codes (r : nat) (cells : list Z) : list Z :=
  match cells with
  | [] => []
  | b :: t => propertyMapFormat2ByteToCodes (Z.of_nat r) b ++ cells_codes (S r) t
  end.

Lemma decode2_loop : forall (rest done : list Z) (h : Z) (acc : list Z),
  for_range (length rest) (Z.of_nat (length done))
    (fun n codes => b <- idx (h :: done ++ rest) (n + 1) ;;
                    Ok (codes ++ propertyMapFormat2ByteToCodes n b)) acc
  = Ok (acc ++ cells_codes (length done) rest).
Proof.
  induction rest as [|c rest IH]; intros done h acc.
  - cbn. rewrite app_nil_r. reflexivity.
  - cbn [length for_range].
    replace (h :: done ++ c :: rest) with ((h :: done) ++ c :: rest) by reflexivity.
    rewrite idx_app_r by (rewrite len_cons; unfold len; lia). cbn [bind].
    specialize (IH (done ++ [c]) h (acc ++ propertyMapFormat2ByteToCodes (Z.of_nat (length done)) c)).
    replace (h :: (done ++ [c]) ++ rest) with ((h :: done) ++ c :: rest) in IH
      by (cbn [app]; rewrite <- app_assoc; reflexivity).
    replace (Z.of_nat (length (done ++ [c]))) with (Z.of_nat (length done) + 1) in IH
      by (rewrite app_length; simpl; lia).
    rewrite IH. rewrite <- app_assoc. rewrite app_length. cbn [length cells_codes].
    rewrite Nat.add_1_r. reflexivity.
Qed.

Definition is_map_code (c : Z) : Prop := c = 0x9D \/ c = 0x9E \/ c = 0x9F.

Lemma map_code_test p : is_map_code (p_code p) ->
  (p_code p =? ObjectGetPropertyMap) || (p_code p =? ObjectSetPropertyMap)
  || (p_code p =? ObjectAnnoPropertyMap) = true.
Proof. unfold is_map_code, ObjectGetPropertyMap, ObjectSetPropertyMap, ObjectAnnoPropertyMap. lia. Qed.

Lemma decode_1 p codes : is_map_code (p_code p) -> len codes <= 15 ->
  p_data p = len codes :: codes -> PropertyMapData p = Ok codes.
Proof.
  intros Hm Hl Hd. unfold PropertyMapData. rewrite map_code_test by assumption.
  rewrite Hd. pose proof (len_nonneg codes).
  rewrite len_cons. destruct (1 + len codes =? 0) eqn:E; [lia|].
  change (idx (len codes :: codes) 0) with (Ok (len codes)). cbn [bind].
  unfold isPropertyMapDescriptionFormat1, PropertyMapFormat1MaxSize.
  destruct (len codes <=? 15) eqn:E2; [|lia].
  destruct (negb (1 + len codes =? len codes + 1)) eqn:E3; [lia|].
  unfold len at 1. rewrite Nat2Z.id.
  apply (decode1_loop codes [] (len codes) []).
Qed.

Lemma decode_2 p h cells : is_map_code (p_code p) -> 15 < h -> length cells = 16%nat ->
  p_data p = h :: cells -> PropertyMapData p = Ok (cells_codes 0 cells).
Proof.
  intros Hm Hl Hc Hd. unfold PropertyMapData. rewrite map_code_test by assumption.
  rewrite Hd. rewrite len_cons. unfold len. rewrite Hc.
  change (1 + Z.of_nat 16 =? 0) with false. cbv iota.
  change (idx (h :: cells) 0) with (Ok h). cbn [bind].
  unfold isPropertyMapDescriptionFormat1, PropertyMapFormat1MaxSize.
  destruct (h <=? 15) eqn:E2; [lia|].
  change (negb (1 + Z.of_nat 16 =? Z.of_nat PropertyMapFormat2MapSize + 1)) with false. cbv iota.
  unfold PropertyMapFormat2MapSize. rewrite <- Hc.
  apply (decode2_loop cells [] h []).
Qed.

Lemma cells_codes_In cells : is_bytes cells -> forall r c, (r + length cells <= 16)%nat ->
  (In c (cells_codes r cells) <->
   exists i n, (i < length cells)%nat /\ 0 <= n < 4 /\ Z.testbit (nth i cells 0) n = true /\
               c = 128 + 16 * n + Z.of_nat (r + i)).
Proof.
  induction 1 as [|b cells Hb Hcs IH]; intros r c Hr; cbn [cells_codes length] in *.
  - split; [intros []|]. intros (i & n & Hi & _). lia.
  - rewrite in_app_iff, ByteToCodes_In, IH by (try assumption; lia). split.
    + intros [(n & Hn & Ht & ->)|(i & n & Hi & Hn & Ht & ->)].
      * exists 0%nat, n. repeat split; try lia. assumption.
      * exists (S i), n. repeat split; try lia. assumption.
    + intros (i & n & Hi & Hn & Ht & ->). destruct i as [|i].
      * left. exists n. repeat split; try lia. assumption.
      * right. exists i, n. repeat split; try lia. assumption.
Qed.

Lemma NoDup_app_intro {A} (l k : list A) :
  NoDup l -> NoDup k -> (forall x, In x l -> ~ In x k) -> NoDup (l ++ k).
Proof.
  intros Hl Hk H. induction Hl as [|x l Hx Hl IH]; simpl; [assumption|].
  constructor.
  - rewrite in_app_iff. intros [?|?]; [contradiction|].
    apply (H x); [left; reflexivity|assumption].
  - apply IH. intros y Hy. apply H. right. assumption.
Qed.

Lemma cells_codes_NoDup cells : is_bytes cells -> forall r, (r + length cells <= 16)%nat ->
  NoDup (cells_codes r cells).
Proof.
  induction 1 as [|b cells Hb Hcs IH]; intros r Hr; cbn [cells_codes length] in *; [constructor|].
  apply NoDup_app_intro.
  - apply ByteToCodes_NoDup. lia.
  - apply IH. lia.
  - intros c H1 H2. apply ByteToCodes_In in H1; [|lia|assumption].
    apply cells_codes_In in H2; [|assumption|lia].
    destruct H1 as (n & Hn & _ & ->). destruct H2 as (i & k & Hi & Hk & _ & H2). lia.
Qed.

(** Decoding what the library encodes. *)
Lemma map_round_trip_1 p codes :
  is_map_code (p_code p) -> Forall is_byte codes -> len codes <= 15 ->
  p_data p = map_bytes codes -> PropertyMapData p = Ok codes.
Proof.
  intros Hm Hb Hl Hd. apply decode_1; [assumption|assumption|].
  rewrite Hd. unfold map_bytes. rewrite propertyMapBytes_1 by assumption. f_equal.
  clear -Hb. induction Hb as [|c codes Hc Hb IH]; simpl; [reflexivity|].
  rewrite IH. unfold u8, is_byte in *. rewrite Z.mod_small by lia. reflexivity.
Qed.

Lemma map_round_trip_2 p codes :
  is_map_code (p_code p) -> Forall is_byte codes -> 15 < len codes < 256 ->
  p_data p = map_bytes codes ->
  exists l, PropertyMapData p = Ok l /\ NoDup l /\
            forall c, In c l <-> In c codes /\ 0x80 <= c < 0xC0.
Proof.
  intros Hm Hb Hl Hd. unfold map_bytes in Hd.
  destruct (propertyMapBytes_2 codes) as (cells & H1 & H2 & H3 & H4); [lia|assumption|].
  rewrite H1 in Hd. exists (cells_codes 0 cells). split.
  - eapply decode_2; eauto. unfold u8. rewrite Z.mod_small; lia.
  - split; [apply cells_codes_NoDup; [assumption|lia]|].
    intros c. rewrite cells_codes_In by (try assumption; lia). split.
    + intros (i & n & Hi & Hn & Ht & ->). rewrite H4 in Ht by lia.
      unfold in_cell in Ht. apply andb_prop in Ht as [_ Ht]. apply contains_In in Ht.
      rewrite Nat.add_0_l. split; [assumption|lia].
    + intros [Hc Hr]. exists (code_row c), (code_bit c).
      pose proof (code_row_lt c). pose proof (code_split c ltac:(lia)) as Hs.
      assert (0 <= code_bit c < 4).
      { unfold code_bit. split; [apply Z.div_pos; lia|apply Z.div_lt_upper_bound; lia]. }
      split; [lia|]. split; [assumption|]. split; [|rewrite Nat.add_0_l; exact Hs].
      rewrite H4 by lia. unfold in_cell. rewrite <- Hs.
      replace (code_bit c <? 4) with true by lia. apply contains_In in Hc. rewrite Hc. reflexivity.
Qed.
