(** Facts about the message encoder. *)

From Verif Require Import Go GoFacts Encoding EncodingFacts Protocol Spec.
From Coq Require Import ZifyBool ZifyNat.
Local Open Scope Z_scope.
Ltac Zify.zify_post_hook ::= Z.div_mod_to_equations.

Definition raw_prop (p : pprop) : list Z :=
  u8 (pp_code p) :: u8 (len (pp_data p)) :: pp_data p.

Definition raw_size (ps : list pprop) : nat := length (flat_map raw_prop ps).

Definition visited (m : message) : list pprop := firstn (Z.to_nat (m_opc m)) (m_ep m).

Definition shape (m : message) : Prop :=
  length (m_seoj m) = 3%nat /\ length (m_deoj m) = 3%nat.

Definition raw_header (m : message) : list Z :=
  [m_ehd1 m; m_ehd2 m; fst (m_tid m); snd (m_tid m)] ++ m_seoj m ++ m_deoj m ++
  [m_esv m; m_opc m].

Lemma raw_prop_length p : length (raw_prop p) = (2 + length (pp_data p))%nat.
Proof. reflexivity. Qed.

Lemma raw_size_cons p ps : raw_size (p :: ps) = (2 + length (pp_data p) + raw_size ps)%nat.
Proof. unfold raw_size. cbn [flat_map]. rewrite app_length, raw_prop_length. reflexivity. Qed.

Lemma MsgProperty_nth m n : MsgProperty m (Z.of_nat n) = Ok (nth_error (m_ep m) n).
Proof.
  unfold MsgProperty.
  destruct (nth_error (m_ep m) n) eqn:E.
  - assert (n < length (m_ep m))%nat by (apply nth_error_Some; congruence).
    unfold len. destruct (Z.of_nat (length (m_ep m)) - 1 <? Z.of_nat n) eqn:L; [lia|].
    rewrite idx_nth, E. reflexivity.
  - apply nth_error_None in E.
    unfold len. destruct (Z.of_nat (length (m_ep m)) - 1 <? Z.of_nat n) eqn:L; [|lia].
    reflexivity.
Qed.

(** Property(n) for a negative n panics. *)
Lemma MsgProperty_negative m n : n < 0 -> MsgProperty m n = Panic.
Proof.
  intros H. unfold MsgProperty. pose proof (len_nonneg (m_ep m)).
  destruct (len (m_ep m) - 1 <? n) eqn:E; [lia|].
  unfold idx. destruct (n <? 0) eqn:E2; [reflexivity|lia].
Qed.

Lemma Size_for_each ps s :
  for_each ps (fun p msgSize => Ok (msgSize + 2 + pp_Size p)) s
  = Ok (s + Z.of_nat (raw_size ps)).
Proof.
  revert s. induction ps as [|p ps IH]; intros s.
  - cbn [for_each]. change (raw_size []) with 0%nat. f_equal. lia.
  - cbn [for_each bind]. rewrite IH, raw_size_cons. f_equal. unfold pp_Size, len. lia.
Qed.

Lemma Size_spec m : Size m = Ok (12 + Z.of_nat (raw_size (visited m))).
Proof.
  unfold Size. change 0 with (Z.of_nat 0) at 1.
  erewrite for_range_elems with (l := m_ep m)
     (f := fun p msgSize => Ok (msgSize + 2 + pp_Size p)).
  - cbn [skipn]. fold (visited m). rewrite Size_for_each. reflexivity.
  - intros n s. rewrite MsgProperty_nth. cbn [bind].
    destruct (nth_error (m_ep m) n); reflexivity.
Qed.

Lemma set_idx_nat {A} (l : list A) (n : nat) v :
  (n < length l)%nat -> set_idx l (Z.of_nat n) v = Ok (set_nth l n v).
Proof.
  intros H. unfold set_idx, len.
  destruct ((Z.of_nat n <? 0) || (Z.of_nat (length l) <=? Z.of_nat n)) eqn:E; [lia|].
  rewrite Nat2Z.id. reflexivity.
Qed.

Lemma header_writes_spec m k :
  shape m ->
  header_writes m (repeat 0 (12 + k)) = Ok (raw_header m ++ repeat 0 k).
Proof.
  intros [Hs Hd].
  destruct (m_seoj m) as [|s0 [|s1 [|s2 [|]]]] eqn:Es; try discriminate.
  destruct (m_deoj m) as [|d0 [|d1 [|d2 [|]]]] eqn:Ed; try discriminate.
  unfold header_writes, raw_header. rewrite Es, Ed.
  change (repeat 0 (12 + k))
    with ([0;0;0;0;0;0;0;0;0;0;0;0] ++ repeat 0 k).
  remember (repeat 0 k) as z.
  change (idx [s0; s1; s2] 0) with (Ok s0). change (idx [s0; s1; s2] 1) with (Ok s1).
  change (idx [s0; s1; s2] 2) with (Ok s2). change (idx [d0; d1; d2] 0) with (Ok d0).
  change (idx [d0; d1; d2] 1) with (Ok d1). change (idx [d0; d1; d2] 2) with (Ok d2).
  cbn [bind app].
  repeat match goal with
  | |- context [set_idx ?l ?i ?v] =>
      let n := eval compute in (Z.to_nat i) in
      change (set_idx l i v) with (set_idx l (Z.of_nat n) v);
      rewrite (set_idx_nat l n v) by (simpl length; lia);
      cbn [set_nth app bind]
  end.
  reflexivity.
Qed.

Lemma copy_data_gen d2 : forall d1 done rest,
  for_range (length d2) (len d1)
    (fun i b => x <- idx (d1 ++ d2) i ;; set_idx b (len done + i) x)
    (done ++ d1 ++ repeat 0 (length d2) ++ rest)
  = Ok (done ++ d1 ++ d2 ++ rest).
Proof.
  induction d2 as [|x d2 IH]; intros d1 done rest; [reflexivity|].
  cbn [for_range length repeat].
  rewrite (idx_app_r d1 d2 x) by reflexivity. cbn [bind].
  rewrite (app_assoc done d1).
  cbn [app].
  rewrite (set_idx_app (done ++ d1)) by (rewrite len_app; reflexivity).
  cbn [bind].
  replace (len d1 + 1) with (len (d1 ++ [x])) by (rewrite len_app; reflexivity).
  replace (d1 ++ x :: d2) with ((d1 ++ [x]) ++ d2) by (rewrite <- app_assoc; reflexivity).
  replace ((done ++ d1) ++ x :: repeat 0 (length d2) ++ rest)
    with (done ++ (d1 ++ [x]) ++ repeat 0 (length d2) ++ rest)
    by (rewrite <- !app_assoc; reflexivity).
  rewrite IH. rewrite <- !app_assoc. reflexivity.
Qed.

Lemma copy_data_spec d done rest :
  copy_data d (len done) (done ++ repeat 0 (length d) ++ rest) = Ok (done ++ d ++ rest).
Proof.
  unfold copy_data. exact (copy_data_gen d [] done rest).
Qed.

Definition write_one (p : pprop) (st : list Z * Z) : res (list Z * Z) :=
  let '(buf, offset) := st in
  b <- set_idx buf offset (u8 (pp_code p)) ;;
  let offset := offset + 1 in
  let propSize := pp_Size p in
  b <- set_idx b offset (u8 propSize) ;;
  let offset := offset + 1 in
  if propSize =? 0 then Ok (b, offset)
  else
    b <- copy_data (pp_data p) offset b ;;
    Ok (b, offset + propSize).

Lemma write_one_spec p done k :
  write_one p (done ++ repeat 0 (2 + length (pp_data p) + k), len done)
  = Ok (done ++ raw_prop p ++ repeat 0 k, len (done ++ raw_prop p)).
Proof.
  unfold write_one. cbn [Init.Nat.add repeat app].
  rewrite (set_idx_app done) by reflexivity. cbn [bind].
  replace (done ++ u8 (pp_code p) :: 0 :: repeat 0 (length (pp_data p) + k))
    with ((done ++ [u8 (pp_code p)]) ++ 0 :: repeat 0 (length (pp_data p) + k))
    by (rewrite <- app_assoc; reflexivity).
  rewrite set_idx_app by (rewrite len_app; reflexivity). cbn [bind].
  rewrite <- app_assoc. cbn [app].
  unfold pp_Size.
  destruct (len (pp_data p) =? 0) eqn:E.
  - assert (pp_data p = []) as Hn
      by (destruct (pp_data p); [reflexivity|rewrite len_cons in E; pose proof (len_nonneg l); lia]).
    unfold raw_prop. rewrite Hn. cbn [length Init.Nat.add app].
    f_equal. f_equal. rewrite len_app. cbn. lia.
  - rewrite repeat_app.
    replace (done ++ u8 (pp_code p) :: u8 (len (pp_data p))
               :: repeat 0 (length (pp_data p)) ++ repeat 0 k)
      with ((done ++ [u8 (pp_code p); u8 (len (pp_data p))])
              ++ repeat 0 (length (pp_data p)) ++ repeat 0 k)
      by (rewrite <- app_assoc; reflexivity).
    replace (len done + 1 + 1)
      with (len (done ++ [u8 (pp_code p); u8 (len (pp_data p))]))
      by (rewrite len_app; cbn; lia).
    rewrite copy_data_spec. cbn [bind].
    f_equal. f_equal.
    + rewrite <- app_assoc. reflexivity.
    + unfold raw_prop. rewrite !len_app, !len_cons, len_nil. lia.
Qed.

Lemma write_all_spec ps : forall done k,
  for_each ps write_one (done ++ repeat 0 (raw_size ps + k), len done)
  = Ok (done ++ flat_map raw_prop ps ++ repeat 0 k, len (done ++ flat_map raw_prop ps)).
Proof.
  induction ps as [|p ps IH]; intros done k.
  - cbn [for_each flat_map]. rewrite app_nil_r. reflexivity.
  - cbn [for_each flat_map]. rewrite raw_size_cons.
    rewrite <- Nat.add_assoc. rewrite write_one_spec. cbn [bind].
    rewrite app_assoc. rewrite IH. rewrite <- !app_assoc. reflexivity.
Qed.

(** The encoder never panics on a constructed message, and this is its output,
    also when the property counter or a data length exceeds a byte. *)
Theorem Bytes_general m :
  shape m -> Bytes m = Ok (raw_header m ++ flat_map raw_prop (visited m)).
Proof.
  intros Hs. unfold Bytes. rewrite Size_spec. cbn [bind].
  unfold zeros.
  replace (Z.to_nat (12 + Z.of_nat (raw_size (visited m))))
    with (12 + raw_size (visited m))%nat by lia.
  rewrite header_writes_spec by assumption. cbn [bind].
  change 0 with (Z.of_nat 0) at 1.
  erewrite for_range_elems with (l := m_ep m) (f := write_one).
  - cbn [skipn]. fold (visited m).
    replace 12 with (len (raw_header m)).
    + rewrite <- (Nat.add_0_r (raw_size (visited m))).
      rewrite write_all_spec. cbn [bind fst repeat]. rewrite app_nil_r. reflexivity.
    + destruct Hs as [Hs Hd]. unfold raw_header.
      rewrite !len_app. unfold len. rewrite Hs, Hd. reflexivity.
  - intros n [buf offset]. unfold write_prop. rewrite MsgProperty_nth. cbn [bind].
    destruct (nth_error (m_ep m) n); reflexivity.
Qed.

Lemma Bytes_length m b : shape m -> Bytes m = Ok b -> Size m = Ok (len b).
Proof.
  intros Hs. rewrite Bytes_general by assumption. intros H; inv H.
  rewrite Size_spec. apply f_equal. destruct Hs as [Hs Hd].
  unfold raw_header, len, raw_size. cbn [length]. rewrite !app_length, Hs, Hd. cbn [length]. lia.
Qed.

(** ** The message builder of the API *)

Lemma SetTID_TID m v : 0 <= v <= 65535 -> m_tid (SetTID m v) = (v / 256, v mod 256).
Proof.
  intros Hv. unfold SetTID, TIDMax. destruct (65535 <? v) eqn:E; [lia|].
  cbn [m_tid with_tid]. unfold u8.
  change 0xFF with (Z.ones 8) at 1. rewrite Z.land_ones by lia. change (2 ^ 8) with 256.
  replace (Z.shiftr (Z.land v 0xFF00) 8) with (v / 256).
  - f_equal; [|rewrite Z.mod_mod by lia; reflexivity]. apply Z.mod_small. lia.
  - rewrite Z.shiftr_land. change (Z.shiftr 0xFF00 8) with (Z.ones 8).
    rewrite Z.land_ones by lia. rewrite Z.shiftr_div_pow2 by lia.
    change (2 ^ 8) with 256. symmetry. apply Z.mod_small. lia.
Qed.

Lemma TID_SetTID m v : 0 <= v <= 65535 -> TID (SetTID m v) = v.
Proof.
  intros Hv. unfold TID. rewrite SetTID_TID by assumption. cbn [fst snd].
  rewrite Z.shiftl_mul_pow2 by lia. change (2 ^ 8) with 256. lia.
Qed.

(** Out of range values are reduced modulo 65535 (not 65536). *)
Lemma TID_SetTID_large m v : 65535 < v -> TID (SetTID m v) = v mod 65535.
Proof.
  intros Hv. rewrite <- (TID_SetTID m (v mod 65535)) by lia.
  unfold SetTID, TIDMax. destruct (65535 <? v) eqn:E; [|lia].
  destruct (65535 <? v mod 65535) eqn:E2; [lia|reflexivity].
Qed.

Lemma fold_AddProperty_ep ps : forall m,
  m_ep (fold_left AddProperty ps m) = m_ep m ++ ps.
Proof.
  induction ps as [|p ps IH]; intros m; simpl.
  - rewrite app_nil_r. reflexivity.
  - rewrite IH. cbn [m_ep AddProperty with_props]. rewrite <- app_assoc. reflexivity.
Qed.

Lemma fold_AddProperty_opc ps : forall m,
  0 <= m_opc m < 256 ->
  m_opc (fold_left AddProperty ps m) = (m_opc m + len ps) mod 256.
Proof.
  induction ps as [|p ps IH]; intros m Hm; cbn [fold_left].
  - rewrite len_nil, Z.add_0_r, Z.mod_small by assumption. reflexivity.
  - rewrite IH; cbn [m_opc AddProperty with_props]; unfold u8.
    + rewrite len_cons. rewrite Z.add_mod_idemp_l by lia. f_equal. lia.
    + apply Z.mod_pos_bound. lia.
Qed.

Lemma AddProperties_frame ps m :
  let m' := AddProperties m ps in
  m_ehd1 m' = m_ehd1 m /\ m_ehd2 m' = m_ehd2 m /\ m_tid m' = m_tid m /\
  m_seoj m' = m_seoj m /\ m_deoj m' = m_deoj m /\ m_esv m' = m_esv m /\
  m_from m' = m_from m /\ m_pktType m' = m_pktType m.
Proof.
  unfold AddProperties. revert m. induction ps as [|p ps IH]; intros m; cbn [fold_left].
  - repeat split.
  - specialize (IH (AddProperty m p)). cbn zeta in *.
    destruct IH as (H1 & H2 & H3 & H4 & H5 & H6 & H7 & H8).
    rewrite H1, H2, H3, H4, H5, H6, H7, H8. repeat split.
Qed.

(** The message a user builds with the setters. *)
Definition build (tid seoj deoj esv : Z) (ps : list pprop) : message :=
  AddProperties (SetESV (SetDEOJ (SetSEOJ (SetTID NewMessage tid) seoj) deoj) esv) ps.

Definition to_pair (p : pprop) : Z * list Z := (pp_code p, pp_data p).

Lemma raw_prop_wire p :
  prop_in_limits (to_pair p) -> raw_prop p = wire_prop (to_pair p).
Proof.
  intros (Hc & Hl & _). unfold raw_prop, wire_prop. cbn [fst snd to_pair] in *.
  unfold u8. rewrite !Z.mod_small; [reflexivity| |lia].
  unfold len. lia.
Qed.

Lemma flat_map_raw_wire ps :
  Forall prop_in_limits (map to_pair ps) ->
  flat_map raw_prop ps = flat_map wire_prop (map to_pair ps).
Proof.
  induction ps as [|p ps IH]; intros H; [reflexivity|].
  cbn [map] in H. inv H. cbn [flat_map map]. rewrite raw_prop_wire, IH by assumption.
  reflexivity.
Qed.

Lemma build_shape tid seoj deoj esv ps : shape (build tid seoj deoj esv ps).
Proof.
  unfold shape, build.
  edestruct (AddProperties_frame ps) as (_ & _ & _ & -> & -> & _).
  split; cbn [m_seoj m_deoj SetESV SetDEOJ SetSEOJ SetTID with_tid with_seoj with_deoj];
    apply IntegerToByte_length.
Qed.

Lemma build_fields tid seoj deoj esv ps :
  frame_in_limits tid seoj deoj esv (map to_pair ps) ->
  let m := build tid seoj deoj esv ps in
  m_ehd1 m = 0x10 /\ m_ehd2 m = 0x81 /\ m_tid m = (tid / 256, tid mod 256) /\
  m_seoj m = be3 seoj /\ m_deoj m = be3 deoj /\ m_esv m = esv /\
  m_opc m = len ps /\ m_ep m = ps.
Proof.
  intros (Ht & Hs & Hd & He & Hl & Hp). cbn zeta.
  rewrite map_length in Hl.
  unfold build.
  edestruct (AddProperties_frame ps) as (-> & -> & -> & -> & -> & -> & _).
  assert (Hop : m_opc (AddProperties
     (SetESV (SetDEOJ (SetSEOJ (SetTID NewMessage tid) seoj) deoj) esv) ps) = len ps).
  { unfold AddProperties. rewrite fold_AddProperty_opc by (cbn; lia).
    cbn. unfold len. apply Z.mod_small. lia. }
  rewrite Hop.
  unfold AddProperties. rewrite fold_AddProperty_ep.
  pose proof (SetTID_TID NewMessage tid ltac:(lia)) as HT.
  cbn [m_ehd1 m_ehd2 m_tid m_seoj m_deoj m_esv m_ep SetESV SetDEOJ SetSEOJ
       with_tid with_seoj with_deoj app].
  rewrite HT. unfold SetTID.
  cbn [m_ehd1 m_ehd2 m_tid m_seoj m_deoj m_esv m_ep with_tid with_seoj with_deoj
       NewMessage length app].
  repeat split.
  - apply IntegerToByte_3. assumption.
  - apply IntegerToByte_3. assumption.
Qed.

Theorem build_Bytes tid seoj deoj esv ps :
  frame_in_limits tid seoj deoj esv (map to_pair ps) ->
  Bytes (build tid seoj deoj esv ps) = Ok (wire_frame tid seoj deoj esv (map to_pair ps)).
Proof.
  intros HL. rewrite Bytes_general by apply build_shape.
  destruct (build_fields _ _ _ _ _ HL) as (H1 & H2 & H3 & H4 & H5 & H6 & H7 & H8).
  unfold raw_header, visited. rewrite H1, H2, H3, H4, H5, H6, H7, H8.
  unfold len at 2. rewrite Nat2Z.id, firstn_all.
  destruct HL as (_ & _ & _ & _ & _ & Hp).
  rewrite flat_map_raw_wire by assumption.
  unfold wire_frame, be2, len. rewrite map_length.
  cbn [fst snd]. rewrite <- !app_assoc. reflexivity.
Qed.
