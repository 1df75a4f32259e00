(** Facts about the datagram decoder. *)

From Verif Require Import Go GoFacts Encoding EncodingFacts Protocol Parser Spec MessageFacts.
From Coq Require Import ZifyBool ZifyNat.
Local Open Scope Z_scope.
Ltac Zify.zify_post_hook ::= Z.div_mod_to_equations.

Definition of_pair (p : Z * list Z) : pprop := mkPProp (fst p) (snd p).

Lemma to_of_pair ps : map to_pair (map of_pair ps) = ps.
Proof. rewrite map_map. rewrite <- (map_id ps) at 2. apply map_ext. intros []; reflexivity. Qed.

Lemma of_to_pair ps : map of_pair (map to_pair ps) = ps.
Proof. rewrite map_map. rewrite <- (map_id ps) at 2. apply map_ext. intros []; reflexivity. Qed.

Lemma slice_app {A} (pre a rest : list A) lo hi :
  lo = len pre -> hi = len pre + len a -> slice (pre ++ a ++ rest) lo hi = Ok a.
Proof.
  intros -> ->. unfold slice.
  pose proof (len_nonneg pre). pose proof (len_nonneg a). pose proof (len_nonneg rest).
  rewrite !len_app.
  destruct ((len pre <? 0) || (len pre + len a <? len pre)
            || (len pre + (len a + len rest) <? len pre + len a)) eqn:E; [lia|].
  replace (len pre + len a - len pre) with (len a) by lia.
  unfold len. rewrite !Nat2Z.id.
  rewrite skipn_app, skipn_all, Nat.sub_diag. cbn [app skipn].
  rewrite firstn_app, firstn_all, Nat.sub_diag. cbn [firstn]. rewrite app_nil_r.
  reflexivity.
Qed.

Lemma slice_from_app {A} (pre a : list A) lo :
  lo = len pre -> slice_from (pre ++ a) lo = Ok a.
Proof.
  intros ->. unfold slice_from.
  rewrite <- (app_nil_r (pre ++ a)), <- app_assoc.
  apply slice_app; [reflexivity|]. rewrite !len_app. rewrite len_nil. lia.
Qed.

Lemma parse_prop_nil pre p : parse_prop (pre ++ []) p (len pre) = Ok (p, len pre).
Proof.
  rewrite app_nil_r. unfold parse_prop.
  destruct (len pre - 1 <? len pre) eqn:E; [reflexivity|lia].
Qed.

Lemma parse_prop_one pre c p :
  parse_prop (pre ++ [c]) p (len pre) = Ok (pp_SetCode p c, len (pre ++ [c])).
Proof.
  unfold parse_prop. rewrite len_app, len_cons, len_nil.
  destruct (len pre + (1 + 0) - 1 <? len pre) eqn:E; [lia|].
  rewrite (idx_app_r pre) by reflexivity. cbn [bind].
  destruct (len pre + (1 + 0) - 1 <? len pre + 1) eqn:E2; [|lia].
  reflexivity.
Qed.

Lemma parse_prop_full pre c n rest p :
  0 <= n ->
  parse_prop (pre ++ c :: n :: rest) p (len pre) =
  if n <=? len rest
  then Ok (mkPProp c (firstn (Z.to_nat n) rest),
           len (pre ++ c :: n :: firstn (Z.to_nat n) rest))
  else Ok (pp_SetCode p c, len (pre ++ [c; n])).
Proof.
  intros Hn. unfold parse_prop.
  pose proof (len_nonneg rest).
  rewrite len_app, !len_cons.
  destruct (len pre + (1 + (1 + len rest)) - 1 <? len pre) eqn:E; [lia|].
  rewrite (idx_app_r pre) by reflexivity. cbn [bind].
  destruct (len pre + (1 + (1 + len rest)) - 1 <? len pre + 1) eqn:E2; [lia|].
  replace (pre ++ c :: n :: rest) with ((pre ++ [c]) ++ n :: rest)
    by (rewrite <- app_assoc; reflexivity).
  rewrite (idx_app_r (pre ++ [c])) by (rewrite len_app; reflexivity). cbn [bind].
  destruct (len pre + (1 + (1 + len rest)) - 1 <? len pre + 1 + 1 + n - 1) eqn:E3.
  - destruct (n <=? len rest) eqn:E4; [lia|].
    f_equal. f_equal. rewrite len_app, !len_cons, len_nil. lia.
  - destruct (n <=? len rest) eqn:E4; [|lia].
    assert (Hfl : len (firstn (Z.to_nat n) rest) = n).
    { unfold len in *. rewrite firstn_length. lia. }
    replace ((pre ++ [c]) ++ n :: rest)
      with ((pre ++ [c; n]) ++ firstn (Z.to_nat n) rest ++ skipn (Z.to_nat n) rest)
      by (rewrite firstn_skipn, <- !app_assoc; reflexivity).
    rewrite slice_app; cbn [bind].
    + f_equal. f_equal. rewrite len_app, !len_cons, Hfl. lia.
    + rewrite len_app, !len_cons, len_nil. lia.
    + rewrite Hfl, len_app, !len_cons, len_nil. lia.
Qed.

Lemma parse_props_split k : forall pre d,
  is_bytes d ->
  parse_props (pre ++ d) (repeat NewPProp k) (len pre)
  = Ok (map of_pair (split_props k d)).
Proof.
  induction k as [|k IH]; intros pre d Hd; [reflexivity|].
  cbn [repeat parse_props split_props].
  destruct d as [|c [|n rest]].
  - rewrite parse_prop_nil. cbn [bind fst snd].
    rewrite IH by constructor. reflexivity.
  - rewrite parse_prop_one. cbn [bind fst snd].
    rewrite <- (app_nil_r (pre ++ [c])) at 1.
    rewrite IH by constructor. reflexivity.
  - inversion Hd as [|? ? Hc Hd']; subst. inversion Hd' as [|? ? Hnn Hr]; subst.
    rewrite parse_prop_full by (unfold is_byte in *; lia).
    fold (len rest).
    destruct (n <=? len rest) eqn:E; cbn [bind fst snd].
    + replace (pre ++ c :: n :: rest)
        with ((pre ++ c :: n :: firstn (Z.to_nat n) rest) ++ skipn (Z.to_nat n) rest)
        by (rewrite <- app_assoc; cbn [app]; rewrite firstn_skipn; reflexivity).
      rewrite IH.
      * reflexivity.
      * unfold is_bytes. rewrite <- (firstn_skipn (Z.to_nat n) rest) in Hr.
        apply Forall_app in Hr. apply Hr.
    + replace (pre ++ c :: n :: rest) with ((pre ++ [c; n]) ++ rest)
        by (rewrite <- app_assoc; reflexivity).
      rewrite IH by assumption. reflexivity.
Qed.

Definition parsed (t0 t1 s0 s1 s2 d0 d1 d2 e o : Z) (area : list Z) : message :=
  mkMessage 0x10 0x81 (t0, t1) [s0; s1; s2] [d0; d1; d2] e o
            (map of_pair (split_props (Z.to_nat o) area)) NewAddress 0.

(** What decoding does with any byte string of at least twelve bytes. *)
Lemma ParseBytes_long e1 e2 t0 t1 s0 s1 s2 d0 d1 d2 e o area :
  is_bytes (e1 :: e2 :: t0 :: t1 :: s0 :: s1 :: s2 :: d0 :: d1 :: d2 :: e :: o :: area) ->
  NewMessageWithBytes
    (e1 :: e2 :: t0 :: t1 :: s0 :: s1 :: s2 :: d0 :: d1 :: d2 :: e :: o :: area)
  = if (e1 =? 0x10) && (e2 =? 0x81)
    then Ok (parsed t0 t1 s0 s1 s2 d0 d1 d2 e o area)
    else Err ErrInvalid.
Proof.
  intros Hb. unfold NewMessageWithBytes, ParseBytes, parseFrameHeaderBytes.
  set (data := e1 :: _).
  assert (HL : len data = 12 + len area) by (subst data; rewrite !len_cons; lia).
  pose proof (len_nonneg area).
  unfold FrameHeaderSize.
  destruct (len data <? 4) eqn:E; [lia|].
  change (idx data 0) with (Ok e1). change (idx data 1) with (Ok e2).
  change (idx data 2) with (Ok t0). change (idx data 3) with (Ok t1).
  cbn [bind]. unfold EHD1Echonet, EHD2Format1.
  destruct (e1 =? 16) eqn:E1; cbn [negb andb bind]; [|reflexivity].
  destruct (e2 =? 129) eqn:E2; cbn [negb andb bind]; [|reflexivity].
  assert (H4 : slice_from data 4
             = Ok (s0 :: s1 :: s2 :: d0 :: d1 :: d2 :: e :: o :: area))
    by (exact (slice_from_app [e1; e2; t0; t1] _ 4 eq_refl)).
  rewrite H4. cbn [bind].
  unfold parseFormat1HeaderBytes, Format1HeaderSize.
  set (d8 := s0 :: _).
  assert (HL8 : len d8 = 8 + len area) by (subst d8; rewrite !len_cons; lia).
  destruct (len d8 <? 8) eqn:E8; [lia|].
  change (idx d8 0) with (Ok s0). change (idx d8 1) with (Ok s1).
  change (idx d8 2) with (Ok s2). change (idx d8 3) with (Ok d0).
  change (idx d8 4) with (Ok d1). change (idx d8 5) with (Ok d2).
  change (idx d8 6) with (Ok e). change (idx d8 7) with (Ok o).
  cbn [bind].
  assert (H12 : slice_from data Format1MinSize = Ok area)
    by (exact (slice_from_app [e1; e2; t0; t1; s0; s1; s2; d0; d1; d2; e; o] _ 12 eq_refl)).
  rewrite H12. cbn [bind].
  assert (Ho : is_byte o /\ is_bytes area).
  { unfold is_bytes in *. subst data. do 11 (apply Forall_inv_tail in Hb).
    split; [exact (Forall_inv Hb)|exact (Forall_inv_tail Hb)]. }
  destruct Ho as [Ho Ha]. unfold is_byte in Ho.
  unfold parseFormat1PropertyBytes, SetOPC. cbn [m_ep with_props m_opc].
  replace (u8 (Z.land o 255)) with o.
  - pose proof (parse_props_split (Z.to_nat o) [] area Ha) as HP.
    cbn [app] in HP. change (len []) with 0 in HP. rewrite HP. reflexivity.
  - unfold u8. change 255 with (Z.ones 8). rewrite Z.land_ones by lia.
    change (2 ^ 8) with 256. rewrite Z.mod_mod by lia. symmetry. apply Z.mod_small. lia.
Qed.

(** Short inputs. *)
Lemma ParseBytes_short data :
  is_bytes data -> len data < 12 -> NewMessageWithBytes data = Err ErrInvalid.
Proof.
  intros Hb HL. unfold NewMessageWithBytes, ParseBytes, parseFrameHeaderBytes.
  unfold FrameHeaderSize.
  destruct (len data <? 4) eqn:E; [reflexivity|].
  destruct data as [|e1 [|e2 [|t0 [|t1 rest]]]]; try (cbn in E; discriminate).
  set (data := e1 :: _) in *.
  change (idx data 0) with (Ok e1). change (idx data 1) with (Ok e2).
  change (idx data 2) with (Ok t0). change (idx data 3) with (Ok t1).
  cbn [bind].
  destruct (e1 =? EHD1Echonet); cbn [negb bind]; [|reflexivity].
  destruct (e2 =? EHD2Format1); cbn [negb bind]; [|reflexivity].
  assert (H4 : slice_from data 4 = Ok rest)
    by (exact (slice_from_app [e1; e2; t0; t1] _ 4 eq_refl)).
  rewrite H4. cbn [bind]. unfold parseFormat1HeaderBytes, Format1HeaderSize.
  subst data. rewrite !len_cons in HL.
  destruct (len rest <? 8) eqn:E8; [reflexivity|lia].
Qed.

Lemma list12 {A} (data : list A) :
  12 <= len data ->
  exists e1 e2 t0 t1 s0 s1 s2 d0 d1 d2 e o area,
    data = e1 :: e2 :: t0 :: t1 :: s0 :: s1 :: s2 :: d0 :: d1 :: d2 :: e :: o :: area.
Proof.
  intros H. do 12 (destruct data as [|? data]; [unfold len in H; simpl in H; lia|]).
  repeat eexists.
Qed.

(** Decoding is total and accepts by length and header. *)
Theorem parse_total data :
  is_bytes data ->
  (exists m, NewMessageWithBytes data = Ok m) \/ NewMessageWithBytes data = Err ErrInvalid.
Proof.
  intros Hb. destruct (Z_lt_le_dec (len data) 12) as [HL|HL].
  - right. apply ParseBytes_short; assumption.
  - destruct (list12 _ HL) as (e1&e2&t0&t1&s0&s1&s2&d0&d1&d2&e&o&area&->).
    rewrite ParseBytes_long by assumption.
    destruct ((e1 =? 16) && (e2 =? 129)); eauto.
Qed.

Theorem parse_accepts data :
  is_bytes data ->
  (exists m, NewMessageWithBytes data = Ok m) <->
  (12 <= len data /\ firstn 2 data = [0x10; 0x81]).
Proof.
  intros Hb. split.
  - intros [m Hm]. destruct (Z_lt_le_dec (len data) 12) as [HL|HL].
    + rewrite ParseBytes_short in Hm by assumption. discriminate.
    + split; [assumption|].
      destruct (list12 _ HL) as (e1&e2&t0&t1&s0&s1&s2&d0&d1&d2&e&o&area&->).
      rewrite ParseBytes_long in Hm by assumption.
      destruct ((e1 =? 16) && (e2 =? 129)) eqn:E; [|discriminate].
      apply andb_prop in E as [E1 E2]. apply Z.eqb_eq in E1, E2. subst. reflexivity.
  - intros [HL HF].
    destruct (list12 _ HL) as (e1&e2&t0&t1&s0&s1&s2&d0&d1&d2&e&o&area&->).
    cbn in HF. inv HF. rewrite ParseBytes_long by assumption. cbn. eauto.
Qed.

(** ** Round trips *)

Lemma wire_prop_bytes p : prop_in_limits p -> is_bytes (wire_prop p).
Proof.
  intros (Hc & Hl & Hb). unfold wire_prop, is_bytes.
  repeat constructor; unfold is_byte in *; try lia. exact Hb.
Qed.

Lemma wire_props_bytes ps : Forall prop_in_limits ps -> is_bytes (flat_map wire_prop ps).
Proof.
  induction 1; [constructor|]. cbn [flat_map]. apply Forall_app. split; [|assumption].
  apply wire_prop_bytes. assumption.
Qed.

Lemma be2_bytes v : 0 <= v < 65536 -> is_bytes (be2 v).
Proof. intros. repeat constructor; unfold is_byte; lia. Qed.

Lemma be3_bytes v : 0 <= v < 2 ^ 24 -> is_bytes (be3 v).
Proof.
  intros. change (2 ^ 24) with 16777216 in *.
  repeat constructor; unfold is_byte; lia.
Qed.

Lemma wire_frame_bytes tid seoj deoj esv ps :
  frame_in_limits tid seoj deoj esv ps -> is_bytes (wire_frame tid seoj deoj esv ps).
Proof.
  intros (Ht & Hs & Hd & He & Hl & Hp). unfold wire_frame, is_bytes.
  repeat rewrite Forall_app. repeat split.
  - repeat constructor; unfold is_byte; lia.
  - apply be2_bytes. assumption.
  - apply be3_bytes. assumption.
  - apply be3_bytes. assumption.
  - repeat constructor; unfold is_byte; lia.
  - apply wire_props_bytes. assumption.
Qed.

(** A complete property area is split back into its properties, whatever
    follows it. *)
Lemma split_props_wire ps trailing :
  Forall prop_in_limits ps ->
  split_props (length ps) (flat_map wire_prop ps ++ trailing) = ps.
Proof.
  induction 1 as [|[c d] ps (Hc & Hl & Hb) _ IH]; [reflexivity|].
  cbn [flat_map length]. unfold wire_prop at 1. cbn [fst snd app] in *.
  cbn [split_props].
  rewrite <- app_assoc.
  rewrite app_length.
  destruct (Z.of_nat (length d) <=?
            Z.of_nat (length d + length (flat_map wire_prop ps ++ trailing))) eqn:E; [|lia].
  rewrite Nat2Z.id.
  rewrite firstn_app, firstn_all, Nat.sub_diag. cbn [firstn]. rewrite app_nil_r.
  rewrite skipn_app, skipn_all, Nat.sub_diag. cbn [skipn app].
  rewrite IH. reflexivity.
Qed.

Theorem parse_wire tid seoj deoj esv ps trailing :
  frame_in_limits tid seoj deoj esv ps -> is_bytes trailing ->
  exists m,
    NewMessageWithBytes (wire_frame tid seoj deoj esv ps ++ trailing) = Ok m /\
    TID m = tid /\ SEOJ m = seoj /\ DEOJ m = deoj /\ m_esv m = esv /\
    OPC m = len ps /\ m_ep m = map of_pair ps /\
    m_ehd1 m = 0x10 /\ m_ehd2 m = 0x81 /\ m_tid m = (tid / 256, tid mod 256) /\
    m_seoj m = be3 seoj /\ m_deoj m = be3 deoj /\ m_pktType m = UnknownPacket /\
    m_from m = NewAddress.
Proof.
  intros HL HT.
  pose proof (wire_frame_bytes _ _ _ _ _ HL) as HB.
  destruct HL as (Ht & Hs & Hd & He & Hl & Hp).
  assert (HBT : is_bytes (wire_frame tid seoj deoj esv ps ++ trailing))
    by (apply Forall_app; split; assumption).
  unfold wire_frame, be2, be3 in *. rewrite <- !app_assoc in *. cbn [app] in *.
  rewrite ParseBytes_long by assumption. cbn [Z.eqb Pos.eqb andb].
  eexists. split; [reflexivity|].
  unfold parsed.
  rewrite Nat2Z.id, split_props_wire by assumption.
  unfold TID, SEOJ, DEOJ, OPC.
  cbn [m_ehd1 m_ehd2 m_tid m_seoj m_deoj m_esv m_opc m_ep m_from m_pktType fst snd].
  repeat split.
  - rewrite Z.shiftl_mul_pow2 by lia. change (2 ^ 8) with 256. lia.
  - fold (be3 seoj). apply ByteToInteger_be3. assumption.
  - fold (be3 deoj). apply ByteToInteger_be3. assumption.
Qed.
