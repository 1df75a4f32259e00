(** Facts about whole messages: construction histories, equality, responses. *)

From Verif Require Import Go GoFacts Encoding EncodingFacts Protocol Parser Spec
  MessageFacts ParserFacts.
From Coq Require Import ZifyBool ZifyNat.
Local Open Scope Z_scope.
Ltac Zify.zify_post_hook ::= Z.div_mod_to_equations.

(** ** Construction histories *)

(** The public setters (message.go L162, L187, L202, L217, L232, L247). *)
Definition apply_op (m : message) (o : msg_op) : message :=
  match o with
  | OSetTID v => SetTID m v
  | OSetSEOJ v => SetSEOJ m v
  | OSetDEOJ v => SetDEOJ m v
  | OSetESV v => SetESV m v
  | OSetOPC v => SetOPC m v
  | OAddProperty c d => AddProperty m (mkPProp c d)
  end.

Definition built (ops : list msg_op) : message := fold_left apply_op ops NewMessage.

(** The message represents the content, field by field. *)
Definition represents (m : message) (c : content) : Prop :=
  m_ehd1 m = 0x10 /\ m_ehd2 m = 0x81 /\
  m_tid (SetTID m (c_tid c)) = m_tid m /\
  m_seoj m = IntegerToByte (c_seoj c) 3 /\
  m_deoj m = IntegerToByte (c_deoj c) 3 /\
  m_esv m = c_esv c /\
  m_ep m = map of_pair (c_props c) /\
  m_opc m = Z.of_nat (length (c_props c)) mod 256.

Lemma m_tid_SetTID_indep m m' v : m_tid (SetTID m v) = m_tid (SetTID m' v).
Proof. reflexivity. Qed.

Lemma land_255_mod v : u8 (Z.land v 255) = v mod 256.
Proof.
  unfold u8. change 255 with (Z.ones 8). rewrite Z.land_ones by lia.
  change (2 ^ 8) with 256. apply Z.mod_mod. lia.
Qed.

Lemma represents_step m c o : represents m c -> represents (apply_op m o) (content_step c o).
Proof.
  intros (H1 & H2 & H3 & H4 & H5 & H6 & H7 & H8).
  destruct o; unfold represents, apply_op, content_step;
    cbn [c_tid c_seoj c_deoj c_esv c_props];
    unfold SetSEOJ, SetDEOJ, SetESV, SetOPC, AddProperty, with_seoj, with_deoj, with_props;
    cbn [m_ehd1 m_ehd2 m_seoj m_deoj m_esv m_opc m_ep m_tid].
  - repeat split; try assumption.
  - repeat split; try assumption. rewrite H4, IntegerToByte_length. reflexivity.
  - repeat split; try assumption. rewrite H5, IntegerToByte_length. reflexivity.
  - repeat split; try assumption.
  - repeat split; try assumption.
    + rewrite land_255_mod. generalize (Z.to_nat (v mod 256)) as k. clear.
      induction k as [|k IH]; [reflexivity|]. cbn [repeat map]. rewrite IH. reflexivity.
    + rewrite land_255_mod, repeat_length. rewrite Z2Nat.id by lia.
      rewrite Z.mod_mod by lia. reflexivity.
  - repeat split; try assumption.
    + rewrite H7, map_app. reflexivity.
    + rewrite H8, app_length. cbn [length]. unfold u8.
      rewrite Zplus_mod_idemp_l. f_equal. lia.
Qed.

Lemma represents_fold ops : forall m c,
  represents m c -> represents (fold_left apply_op ops m) (fold_left content_step ops c).
Proof.
  induction ops as [|o ops IH]; intros m c H; [assumption|].
  cbn [fold_left]. apply IH, represents_step, H.
Qed.

Lemma built_represents ops : represents (built ops) (content_of ops).
Proof.
  apply represents_fold. repeat split; reflexivity.
Qed.

Lemma represents_in_limits m c :
  represents m c -> in_limits c ->
  m_ehd1 m = 0x10 /\ m_ehd2 m = 0x81 /\ m_tid m = (c_tid c / 256, c_tid c mod 256) /\
  m_seoj m = be3 (c_seoj c) /\ m_deoj m = be3 (c_deoj c) /\ m_esv m = c_esv c /\
  m_opc m = Z.of_nat (length (c_props c)) /\ m_ep m = map of_pair (c_props c).
Proof.
  intros (H1 & H2 & H3 & H4 & H5 & H6 & H7 & H8) (Ht & Hs & Hd & He & Hl & Hp).
  rewrite SetTID_TID in H3 by lia.
  rewrite IntegerToByte_3 in H4, H5 by assumption.
  repeat split; try congruence. rewrite H8. apply Z.mod_small. lia.
Qed.

Lemma represents_Bytes m c :
  represents m c -> in_limits c -> Bytes m = Ok (wire c).
Proof.
  intros HR HL.
  destruct (represents_in_limits _ _ HR HL) as (H1 & H2 & H3 & H4 & H5 & H6 & H7 & H8).
  rewrite Bytes_general by (split; rewrite ?H4, ?H5; reflexivity).
  unfold raw_header, visited. rewrite H1, H2, H3, H4, H5, H6, H7, H8.
  rewrite Nat2Z.id. rewrite <- (map_length of_pair (c_props c)) at 2. rewrite firstn_all.
  rewrite flat_map_raw_wire; rewrite to_of_pair; [|apply HL].
  unfold wire, wire_frame, be2, be3. cbn [fst snd app]. reflexivity.
Qed.

Lemma represents_shape m c : represents m c -> shape m.
Proof.
  intros (_ & _ & _ & H4 & H5 & _). split; rewrite ?H4, ?H5; apply IntegerToByte_length.
Qed.

Lemma represents_getters m c :
  represents m c -> in_limits c ->
  TID m = c_tid c /\ SEOJ m = c_seoj c /\ DEOJ m = c_deoj c /\ m_esv m = c_esv c /\
  OPC m = Z.of_nat (length (c_props c)) /\ m_ep m = map of_pair (c_props c).
Proof.
  intros HR HL.
  destruct (represents_in_limits _ _ HR HL) as (H1 & H2 & H3 & H4 & H5 & H6 & H7 & H8).
  destruct HL as (Ht & Hs & Hd & He & Hl & Hp).
  unfold TID, SEOJ, DEOJ, OPC. rewrite H3, H4, H5, !ByteToInteger_be3 by assumption.
  repeat split; try assumption. cbn [fst snd].
  rewrite Z.shiftl_mul_pow2 by lia. change (2 ^ 8) with 256. lia.
Qed.

(** Conversely every decoded message represents a content. *)
Lemma decoded_represents data m :
  is_bytes data -> NewMessageWithBytes data = Ok m ->
  exists c, represents m c /\
    (0 <= c_tid c < 65536 /\ 0 <= c_seoj c < 2 ^ 24 /\ 0 <= c_deoj c < 2 ^ 24 /\
     0 <= c_esv c < 256 /\ (length (c_props c) <= 255)%nat) /\
    Forall (fun p => 0 <= fst p < 256 /\ is_bytes (snd p)) (c_props c).
Proof.
  intros HB HM. destruct (Z_lt_le_dec (len data) 12) as [HL|HL].
  - rewrite ParseBytes_short in HM by assumption. discriminate.
  - destruct (list12 _ HL) as (e1&e2&t0&t1&s0&s1&s2&d0&d1&d2&e&o&area&->).
    rewrite ParseBytes_long in HM by assumption.
    destruct ((e1 =? 16) && (e2 =? 129)) eqn:E; [|discriminate]. inv HM.
    unfold is_bytes in HB.
    repeat match goal with
    | H : Forall is_byte (_ :: _) |- _ =>
        let H1 := fresh "Hb" in
        pose proof (Forall_inv H) as H1; apply Forall_inv_tail in H; unfold is_byte in H1
    end.
    assert (HS : forall k d, length (split_props k d) = k).
    { clear. induction k as [|k IH]; intros d; [reflexivity|]. cbn [split_props].
      destruct d as [|c [|n rest]]; try (cbn [length]; rewrite IH; reflexivity).
      destruct (n <=? _); cbn [length]; rewrite IH; reflexivity. }
    exists (mkContent (t0 * 256 + t1) (s0 * 65536 + s1 * 256 + s2)
                      (d0 * 65536 + d1 * 256 + d2) e
                      (split_props (Z.to_nat o) area)).
    change (2 ^ 24) with 16777216.
    repeat split; cbn [c_tid c_seoj c_deoj c_esv c_props parsed m_tid m_seoj m_deoj m_opc];
      rewrite ?HS; try lia.
    + rewrite SetTID_TID by lia. f_equal; lia.
    + rewrite IntegerToByte_3 by (change (2 ^ 24) with 16777216; lia). unfold be3.
      repeat (f_equal; try lia).
    + rewrite IntegerToByte_3 by (change (2 ^ 24) with 16777216; lia). unfold be3.
      repeat (f_equal; try lia).
    + revert HB. generalize (Z.to_nat o). clear. intros k. revert area.
      induction k as [|k IH]; intros d HB; [constructor|]. cbn [split_props].
      destruct d as [|c [|n rest]].
      * constructor; [split; [cbn; lia|constructor]|]. apply IH. constructor.
      * inv HB. constructor; [split; [assumption|constructor]|]. apply IH. constructor.
      * inversion HB as [|? ? Hc HB1]; subst. inversion HB1 as [|? ? Hn HB2]; subst.
        destruct (n <=? _).
        -- rewrite <- (firstn_skipn (Z.to_nat n) rest) in HB2.
           apply Forall_app in HB2 as [HA HC].
           constructor; [split; assumption|]. apply IH. assumption.
        -- constructor; [split; [assumption|constructor]|]. apply IH. assumption.
Qed.

(** ** The frame grammar is uniquely readable *)

Lemma wire_props_prefix ps : forall qs t t',
  length ps = length qs ->
  flat_map wire_prop ps ++ t = flat_map wire_prop qs ++ t' -> ps = qs /\ t = t'.
Proof.
  induction ps as [|[c d] ps IH]; intros [|[c' d'] qs] t t' HL H; try discriminate.
  - split; [reflexivity|exact H].
  - cbn [flat_map] in H. unfold wire_prop in H. cbn [fst snd app] in H.
    injection H as Hc Hn H. subst c'.
    rewrite <- !app_assoc in H.
    assert (HN : length d = length d') by lia.
    assert (Hd : d = d').
    { apply (f_equal (firstn (length d))) in H.
      rewrite firstn_app, firstn_all, Nat.sub_diag in H. cbn [firstn] in H.
      rewrite app_nil_r in H. rewrite HN in H.
      rewrite firstn_app, firstn_all, Nat.sub_diag in H. cbn [firstn] in H.
      rewrite app_nil_r in H. exact H. }
    subst d'. apply app_inv_head in H.
    cbn [length] in HL. destruct (IH qs t t' ltac:(lia) H) as [-> ->].
    split; reflexivity.
Qed.

Lemma be2_inj a b : 0 <= a < 65536 -> 0 <= b < 65536 -> be2 a = be2 b -> a = b.
Proof. intros Ha Hb H. injection H as H1 H2. lia. Qed.

Lemma be3_inj a b : 0 <= a < 2 ^ 24 -> 0 <= b < 2 ^ 24 -> be3 a = be3 b -> a = b.
Proof.
  change (2 ^ 24) with 16777216. intros Ha Hb H. injection H as H1 H2 H3. lia.
Qed.

Lemma wire_prefix c c' t t' :
  in_limits c -> in_limits c' -> wire c ++ t = wire c' ++ t' -> c = c' /\ t = t'.
Proof.
  destruct c as [a1 a2 a3 a4 a5], c' as [b1 b2 b3 b4 b5].
  intros (Ht & Hs & Hd & He & Hl & Hp) (Ht' & Hs' & Hd' & He' & Hl' & Hp') H.
  cbn [c_tid c_seoj c_deoj c_esv c_props] in *.
  unfold wire, wire_frame in H. cbn [c_tid c_seoj c_deoj c_esv c_props] in H.
  unfold be2, be3 in H. cbn [app] in H.
  injection H as I1 I2 I3 I4 I5 I6 I7 I8 I9 I10 H.
  destruct (wire_props_prefix a5 b5 t t' ltac:(lia) H) as [-> ->].
  assert (a1 = b1) by lia.
  assert (a2 = b2) by (apply be3_inj; try assumption; unfold be3; congruence).
  assert (a3 = b3) by (apply be3_inj; try assumption; unfold be3; congruence).
  subst. split; reflexivity.
Qed.

Lemma wire_inj c c' : in_limits c -> in_limits c' -> wire c = wire c' -> c = c'.
Proof.
  intros H H' E. destruct (wire_prefix c c' [] [] H H') as [-> _]; [|reflexivity].
  rewrite !app_nil_r. assumption.
Qed.

(** ** C05: cuts *)

Lemma wire_length c : length (wire c) = (12 + length (flat_map wire_prop (c_props c)))%nat.
Proof. unfold wire, wire_frame, be2, be3. cbn [app length]. lia. Qed.

Lemma cut_not_complete c k :
  in_limits c -> (k < length (wire c))%nat -> ~ complete_frame (firstn k (wire c)).
Proof.
  intros HL Hk (tid & seoj & deoj & esv & props & trailing & HL' & E).
  set (c' := mkContent tid seoj deoj esv props).
  destruct (wire_prefix c c' [] (trailing ++ skipn k (wire c)) HL HL') as [Hc Ht].
  - rewrite app_nil_r, app_assoc. change (wire c' ++ trailing) with
      (wire_frame tid seoj deoj esv props ++ trailing). rewrite <- E.
    symmetry. apply firstn_skipn.
  - symmetry in Ht. apply app_eq_nil in Ht as [_ Ht].
    apply (f_equal (@length Z)) in Ht. rewrite skipn_length in Ht. cbn [length] in Ht. lia.
Qed.

Lemma is_bytes_firstn k l : is_bytes l -> is_bytes (firstn k l).
Proof.
  unfold is_bytes. intros H. rewrite <- (firstn_skipn k l) in H.
  apply Forall_app in H. apply H.
Qed.

Lemma cut_accepted c k :
  in_limits c -> (12 <= k)%nat -> (k < length (wire c))%nat ->
  exists m, NewMessageWithBytes (firstn k (wire c)) = Ok m.
Proof.
  intros HL H1 H2. apply parse_accepts.
  - apply is_bytes_firstn, wire_frame_bytes, HL.
  - split.
    + unfold len. rewrite firstn_length. lia.
    + rewrite firstn_firstn. replace (min 2 k) with 2%nat by lia.
      reflexivity.
Qed.

Lemma cut_header_rejected c k :
  in_limits c -> (k < 12)%nat -> NewMessageWithBytes (firstn k (wire c)) = Err ErrInvalid.
Proof.
  intros HL Hk. apply ParseBytes_short.
  - apply is_bytes_firstn, wire_frame_bytes, HL.
  - unfold len. rewrite firstn_length. lia.
Qed.

(** ** C08 *)

Lemma byte_sweep (f : Z -> bool) :
  forallb f (map Z.of_nat (seq 0 256)) = true -> forall v, 0 <= v < 256 -> f v = true.
Proof.
  intros H v Hv. rewrite forallb_forall in H. apply H.
  apply in_map_iff. exists (Z.to_nat v). split; [lia|]. apply in_seq. lia.
Qed.

Definition is_request (v : Z) : bool :=
  ESV_IsWriteRequest v || ESV_IsReadRequest v || ESV_IsNotificationRequest v.
Definition is_response (v : Z) : bool :=
  ESV_IsWriteResponse v || ESV_IsReadResponse v || ESV_IsNotificationResponse v.

Definition esv_check (v : Z) : bool :=
  Bool.eqb (ESV_IsValid v)
     (contains (spec_request ++ spec_response ++ spec_notification ++ spec_error) v) &&
  Bool.eqb (is_request v) (contains spec_request v) &&
  Bool.eqb (is_response v) (contains spec_response v) &&
  Bool.eqb (ESV_IsNotification v) (contains spec_notification v) &&
  Bool.eqb (ESV_IsResponseRequired v) (contains (map fst spec_answer) v) &&
  (if is_request v then negb (is_response v) && negb (ESV_IsNotification v) else true) &&
  (if is_response v then negb (ESV_IsNotification v) else true) &&
  Bool.eqb (contains spec_error v)
    (ESV_IsValid v && negb (is_request v) && negb (is_response v) && negb (ESV_IsNotification v)).

Lemma esv_check_all v : 0 <= v < 256 -> esv_check v = true.
Proof. apply byte_sweep. vm_compute. reflexivity. Qed.

(** ** Responses *)

Lemma response_facts req :
  0 <= TID req < 65536 -> 0 <= SEOJ req < 2 ^ 24 -> 0 <= DEOJ req < 2 ^ 24 ->
  let r := NewResponseMessageWithMessage req in
  TID r = TID req /\ SEOJ r = DEOJ req /\ DEOJ r = SEOJ req /\
  m_esv r = response_esv (m_esv req) /\ m_ep r = [] /\ OPC r = 0.
Proof.
  intros Ht Hs Hd r. subst r. unfold NewResponseMessageWithMessage.
  repeat split.
  - rewrite <- (TID_SetTID NewMessage (TID req)) at 2 by lia. reflexivity.
  - change (ByteToInteger (IntegerToByte (DEOJ req) 3) = DEOJ req).
    rewrite (IntegerToByte_3 (DEOJ req)) by assumption. apply ByteToInteger_be3. assumption.
  - change (ByteToInteger (IntegerToByte (SEOJ req) 3) = SEOJ req).
    rewrite (IntegerToByte_3 (SEOJ req)) by assumption. apply ByteToInteger_be3. assumption.
Qed.

Lemma impossible_loop j : forall k m,
  0 <= m_opc m < 256 -> (k <= length (m_ep m))%nat ->
  Forall (fun p => p = NewPProp) (m_ep m) ->
  (j + k <= length (m_ep m))%nat ->
  exists m', for_range j (Z.of_nat k)
    (fun n msg =>
       reqProp <- MsgProperty msg n ;;
       match reqProp with
       | Some p => Ok (AddProperty msg p)
       | None => Panic
       end) m = Ok m' /\
    m_ep m' = m_ep m ++ repeat NewPProp j /\
    m_opc m' = (m_opc m + Z.of_nat j) mod 256 /\
    m_ehd1 m' = m_ehd1 m /\ m_ehd2 m' = m_ehd2 m /\
    m_tid m' = m_tid m /\ m_seoj m' = m_seoj m /\ m_deoj m' = m_deoj m /\
    m_esv m' = m_esv m /\ m_from m' = m_from m /\ m_pktType m' = m_pktType m.
Proof.
  induction j as [|j IH]; intros k m Ho Hk HF HJ.
  - exists m. cbn [for_range repeat]. rewrite app_nil_r.
    repeat split. rewrite Z.add_0_r, Z.mod_small by assumption. reflexivity.
  - cbn [for_range]. rewrite MsgProperty_nth. cbn [bind].
    destruct (nth_error (m_ep m) k) as [p|] eqn:E.
    + assert (p = NewPProp) as ->.
      { rewrite Forall_forall in HF. apply HF. eapply nth_error_In; eassumption. }
      cbn [bind]. replace (Z.of_nat k + 1) with (Z.of_nat (S k)) by lia.
      destruct (IH (S k) (AddProperty m NewPProp)) as
        (m' & E' & H1 & H2 & H3 & H4 & H5 & H6 & H7 & H8 & H9 & H10).
      * cbn [AddProperty with_props m_opc]. unfold u8. lia.
      * cbn [AddProperty with_props m_ep]. rewrite app_length. cbn [length]. lia.
      * cbn [AddProperty with_props m_ep]. apply Forall_app. split; [assumption|].
        repeat constructor.
      * cbn [AddProperty with_props m_ep]. rewrite app_length. cbn [length]. lia.
      * exists m'. split; [exact E'|].
        cbn [AddProperty with_props m_ep m_opc m_ehd1 m_ehd2 m_tid m_seoj m_deoj m_esv
             m_from m_pktType] in *.
        repeat split; try assumption.
        -- rewrite H1, <- app_assoc. reflexivity.
        -- rewrite H2. unfold u8. rewrite Zplus_mod_idemp_l. f_equal. lia.
    + exfalso. apply nth_error_None in E. lia.
Qed.

(** Exact content of an error response. *)
Lemma impossible_facts req :
  0 <= TID req < 65536 -> 0 <= SEOJ req < 2 ^ 24 -> 0 <= DEOJ req < 2 ^ 24 ->
  0 <= OPC req < 256 ->
  exists r, NewImpossibleMessageWithMessage req = Ok r /\
    TID r = TID req /\ SEOJ r = DEOJ req /\ DEOJ r = SEOJ req /\
    m_esv r = impossible_esv (m_esv req) /\
    OPC r = (2 * OPC req) mod 256 /\
    m_ep r = repeat NewPProp (Z.to_nat (2 * OPC req)) /\
    m_ehd1 r = 0x10 /\ m_ehd2 r = 0x81 /\
    m_seoj r = be3 (DEOJ req) /\ m_deoj r = be3 (SEOJ req) /\
    m_tid r = m_tid (SetTID NewMessage (TID req)).
Proof.
  intros Ht Hs Hd Ho. unfold NewImpossibleMessageWithMessage.
  set (m0 := SetESV _ _).
  destruct (impossible_loop (Z.to_nat (OPC req)) 0 (SetOPC m0 (OPC req))) as
    (r & E & H1 & H2 & H3 & H4 & H5 & H6 & H7 & H8 & _ & _).
  - unfold SetOPC. cbn [with_props m_opc]. rewrite land_255_mod. lia.
  - lia.
  - unfold SetOPC. cbn [with_props m_ep]. apply Forall_forall. intros p Hp.
    apply repeat_spec in Hp. assumption.
  - unfold SetOPC. cbn [with_props m_ep]. rewrite repeat_length, land_255_mod, Z.mod_small; lia.
  - exists r. change (Z.of_nat 0) with 0 in E. split; [exact E|].
    unfold SetOPC in *. cbn [with_props m_ep m_opc m_ehd1 m_ehd2 m_tid m_seoj m_deoj m_esv] in *.
    rewrite land_255_mod, (Z.mod_small (OPC req)) in H1, H2 by assumption.
    assert (S1 : m_seoj r = be3 (DEOJ req)).
    { rewrite H6. subst m0. cbn [SetESV SetDEOJ SetSEOJ with_deoj with_seoj m_seoj].
      apply IntegerToByte_3. assumption. }
    assert (S2 : m_deoj r = be3 (SEOJ req)).
    { rewrite H7. subst m0. cbn [SetESV SetDEOJ SetSEOJ with_deoj with_seoj m_deoj].
      apply IntegerToByte_3. assumption. }
    repeat split.
    + unfold TID at 1. rewrite H5.
      exact (TID_SetTID NewMessage (TID req) ltac:(lia)).
    + unfold SEOJ. rewrite S1. apply ByteToInteger_be3. assumption.
    + unfold DEOJ at 1. rewrite S2. apply ByteToInteger_be3. assumption.
    + rewrite H8. reflexivity.
    + unfold OPC in *. rewrite H2. f_equal. lia.
    + rewrite H1, <- repeat_app. f_equal. lia.
    + rewrite H3. reflexivity.
    + rewrite H4. reflexivity.
    + assumption.
    + assumption.
    + rewrite H5. reflexivity.
Qed.

(** Decoded messages have in-range header fields. *)
Lemma decoded_header data m :
  is_bytes data -> NewMessageWithBytes data = Ok m ->
  0 <= TID m < 65536 /\ 0 <= SEOJ m < 2 ^ 24 /\ 0 <= DEOJ m < 2 ^ 24 /\
  0 <= OPC m < 256 /\ 0 <= m_esv m < 256 /\ Z.of_nat (length (m_ep m)) = OPC m.
Proof.
  intros HB HM. destruct (decoded_represents _ _ HB HM) as
    (c & (R1 & R2 & R3 & R4 & R5 & R6 & R7 & R8) & (Ht & Hs & Hd & He & Hl) & Hp).
  rewrite SetTID_TID in R3 by lia.
  rewrite IntegerToByte_3 in R4, R5 by assumption.
  unfold TID, SEOJ, DEOJ, OPC. rewrite <- R3, R4, R5, R6, R7, R8.
  rewrite !ByteToInteger_be3 by assumption. cbn [fst snd].
  rewrite Z.shiftl_mul_pow2 by lia. change (2 ^ 8) with 256.
  rewrite map_length. change (2 ^ 24) with 16777216 in *.
  rewrite (Z.mod_small (Z.of_nat _)) by lia. lia.
Qed.

(** ** Equality and copies *)

Lemma equals_built m c m' c' :
  represents m c -> in_limits c -> represents m' c' -> in_limits c' ->
  exists b, Equals (Some m) (Some m') = Ok b /\ (b = true <-> c = c').
Proof.
  intros HR HL HR' HL'. unfold Equals.
  rewrite (represents_Bytes m c), (represents_Bytes m' c') by assumption. cbn [bind].
  eexists. split; [reflexivity|]. rewrite bytes_eqb_eq. split.
  - apply wire_inj; assumption.
  - intros ->. reflexivity.
Qed.

Lemma copy_built m c :
  represents m c -> in_limits c ->
  exists k, NewMessageWithMessage m = Ok k /\ represents k c /\
    m_from k = m_from m /\ m_pktType k = m_pktType m.
Proof.
  intros HR HL. unfold NewMessageWithMessage. rewrite (represents_Bytes m c) by assumption.
  cbn [bind].
  destruct (parse_wire _ _ _ _ _ [] HL) as
    (k & Ek & _ & _ & _ & He & Ho & Hp & H1 & H2 & Ht & Hs & Hd & _ & _); [constructor|].
  rewrite app_nil_r in Ek. fold (wire c) in Ek. rewrite Ek. cbn [bind].
  eexists. split; [reflexivity|].
  destruct HL as (Lt & Ls & Ld & Le & Ll & Lp).
  repeat split; cbn [SetPacketType SetFrom m_ehd1 m_ehd2 m_seoj m_deoj m_esv m_ep m_opc];
    try assumption.
  - rewrite SetTID_TID by lia. symmetry. exact Ht.
  - rewrite IntegerToByte_3 by assumption. exact Hs.
  - rewrite IntegerToByte_3 by assumption. exact Hd.
  - unfold OPC in Ho. rewrite Ho. unfold len. rewrite Z.mod_small by lia. reflexivity.
Qed.
