(** Properties C01 - C10, C12, C13: messages on the wire. *)

From Verif Require Import Go GoFacts Encoding EncodingFacts Protocol Parser Reader Spec
  MessageFacts ParserFacts ReaderFacts ProtocolFacts.
From Coq Require Import ZifyBool ZifyNat.
Local Open Scope Z_scope.

(** A construction history used by the examples: a read request for two
    properties, one of them with data. *)
Definition sample_ops : list msg_op :=
  [ OSetTID 0x1234; OSetSEOJ 0x05FF01; OSetDEOJ 0x029001; OSetESV 0x61;
    OAddProperty 0x80 [0x30]; OAddProperty 0xB0 [] ].

Lemma sample_in_limits : in_limits (content_of sample_ops).
Proof.
  unfold in_limits, frame_in_limits. cbn.
  repeat split; try lia; repeat constructor; cbn; try lia; repeat constructor; lia.
Qed.

(** ** C01 *)

(** For every construction history whose content fits the format: decoding the
    encoded bytes gives a message whose getters return exactly that content. *)
Theorem C01_round_trip : forall ops,
  in_limits (content_of ops) ->
  exists b m,
    Bytes (built ops) = Ok b /\ NewMessageWithBytes b = Ok m /\
    TID m = c_tid (content_of ops) /\ SEOJ m = c_seoj (content_of ops) /\
    DEOJ m = c_deoj (content_of ops) /\ m_esv m = c_esv (content_of ops) /\
    OPC m = Z.of_nat (length (c_props (content_of ops))) /\
    map (fun p => (pp_code p, pp_data p)) (m_ep m) = c_props (content_of ops) /\
    (TID m, SEOJ m, DEOJ m, m_esv m, OPC m, m_ep m)
    = (TID (built ops), SEOJ (built ops), DEOJ (built ops), m_esv (built ops),
       OPC (built ops), m_ep (built ops)).
Proof.
  intros ops HL.
  destruct (represents_getters _ _ (built_represents ops) HL) as (G1 & G2 & G3 & G4 & G5 & G6).
  destruct (parse_wire _ _ _ _ _ [] HL) as
    (m & Em & H1 & H2 & H3 & H4 & H5 & H6 & _); [constructor|].
  rewrite app_nil_r in Em.
  exists (wire (content_of ops)), m.
  split; [apply represents_Bytes; [apply built_represents|assumption]|].
  split; [exact Em|].
  rewrite G1, G2, G3, G4, G5, G6, H1, H2, H3, H4, H5, H6.
  repeat split. apply to_of_pair.
Qed.

Example C01_example : in_limits (content_of sample_ops).
Proof. exact sample_in_limits. Qed.

(** Outside the limits the round trip fails: 256 data bytes are encoded with a
    PDC of 0, and a message with 256 properties is encoded with OPC 0. *)
Example C01_beyond_limits :
  exists b m, Bytes (built [OAddProperty 0x80 (repeat 1 256)]) = Ok b /\
    NewMessageWithBytes b = Ok m /\ m_ep m = [mkPProp 0x80 []].
Proof.
  eexists; eexists. split; [vm_compute; reflexivity|]. split; [vm_compute; reflexivity|].
  reflexivity.
Qed.

(** ** C02 *)

Theorem C02_wire_layout : forall ops,
  in_limits (content_of ops) ->
  let c := content_of ops in
  let frame := [0x10; 0x81] ++ [c_tid c / 256; c_tid c mod 256] ++
               be3 (c_seoj c) ++ be3 (c_deoj c) ++
               [c_esv c; Z.of_nat (length (c_props c))] ++
               flat_map (fun p => fst p :: Z.of_nat (length (snd p)) :: snd p) (c_props c) in
  Bytes (built ops) = Ok frame /\ Size (built ops) = Ok (Z.of_nat (length frame)).
Proof.
  intros ops HL c frame.
  assert (HB : Bytes (built ops) = Ok frame)
    by (apply (represents_Bytes (built ops) c); [apply built_represents|assumption]).
  split; [exact HB|].
  apply (Bytes_length (built ops) frame); [|exact HB].
  eapply represents_shape, built_represents.
Qed.

Example C02_example :
  Bytes (built sample_ops)
  = Ok [0x10; 0x81; 0x12; 0x34; 0x05; 0xFF; 0x01; 0x02; 0x90; 0x01; 0x61; 2;
        0x80; 1; 0x30; 0xB0; 0].
Proof. vm_compute. reflexivity. Qed.

(** ** C03 *)

Theorem C03_decoder_total : forall data,
  Forall (fun b => 0 <= b < 256) data ->
  NewMessageWithBytes data <> Panic /\
  ((exists m, NewMessageWithBytes data = Ok m) <->
   (12 <= Z.of_nat (length data) /\ firstn 2 data = [0x10; 0x81])).
Proof.
  intros data HB. split.
  - destruct (parse_total data HB) as [[m ->]| ->]; discriminate.
  - apply parse_accepts. exact HB.
Qed.

(** What is delivered, exactly, for every accepted input. *)
Theorem C03_decoder_exact : forall t0 t1 s0 s1 s2 d0 d1 d2 e o area,
  Forall (fun b => 0 <= b < 256) (t0 :: t1 :: s0 :: s1 :: s2 :: d0 :: d1 :: d2 :: e :: o :: area) ->
  exists m,
    NewMessageWithBytes (0x10 :: 0x81 :: t0 :: t1 :: s0 :: s1 :: s2 :: d0 :: d1 :: d2 :: e :: o :: area)
    = Ok m /\
    TID m = t0 * 256 + t1 /\ SEOJ m = s0 * 65536 + s1 * 256 + s2 /\
    DEOJ m = d0 * 65536 + d1 * 256 + d2 /\ m_esv m = e /\ OPC m = o /\
    map (fun p => (pp_code p, pp_data p)) (m_ep m) = split_props (Z.to_nat o) area.
Proof.
  intros t0 t1 s0 s1 s2 d0 d1 d2 e o area HB.
  rewrite ParseBytes_long; [|do 2 (constructor; [unfold is_byte; lia|]); exact HB].
  cbn [Z.eqb Pos.eqb andb]. eexists. split; [reflexivity|].
  repeat match goal with
  | H : Forall _ (_ :: _) |- _ =>
      let H1 := fresh "Hb" in
      pose proof (Forall_inv H) as H1; apply Forall_inv_tail in H; cbv beta in H1
  end.
  unfold parsed, TID, SEOJ, DEOJ, OPC.
  cbn [m_tid m_seoj m_deoj m_esv m_opc m_ep fst snd].
  rewrite !ByteToInteger_3 by (unfold is_byte; assumption).
  repeat split; [|apply to_of_pair].
  rewrite Z.shiftl_mul_pow2 by lia. reflexivity.
Qed.

Example C03_example :
  NewMessageWithBytes [0x10; 0x81; 0; 1; 5; 0xFF; 1; 0x0E; 0xF0; 1; 0x62; 255] <> Panic /\
  NewMessageWithBytes [0x10; 0x81] = Err ErrInvalid /\
  NewMessageWithBytes [] = Err ErrInvalid.
Proof. vm_compute. repeat split; discriminate. Qed.

(** ** C04 *)

Theorem C04_reencode : forall tid seoj deoj esv props trailing,
  frame_in_limits tid seoj deoj esv props ->
  Forall (fun b => 0 <= b < 256) trailing ->
  exists m,
    NewMessageWithBytes (wire_frame tid seoj deoj esv props ++ trailing) = Ok m /\
    Bytes m = Ok (wire_frame tid seoj deoj esv props).
Proof.
  intros tid seoj deoj esv props trailing HL HT.
  destruct (parse_wire tid seoj deoj esv props trailing HL HT) as
    (m & Em & _ & _ & _ & He & Ho & Hp & H1 & H2 & Ht & Hs & Hd & _ & _).
  exists m. split; [exact Em|].
  rewrite Bytes_general by (split; rewrite ?Hs, ?Hd; reflexivity).
  unfold raw_header, visited, OPC in *.
  rewrite H1, H2, Ht, Hs, Hd, He, Ho, Hp. unfold len. rewrite Nat2Z.id.
  rewrite <- (map_length of_pair props) at 2. rewrite firstn_all.
  rewrite flat_map_raw_wire; rewrite to_of_pair; [|apply HL].
  reflexivity.
Qed.

Example C04_example :
  frame_in_limits 0x1234 0x05FF01 0x029001 0x61 [(0x80, [0x30]); (0xB0, [])].
Proof. exact sample_in_limits. Qed.

(** ** C05 *)

(** Full statement: [forall data, is_bytes data -> (exists m,
    NewMessageWithBytes data = Ok m) -> complete_frame data].  It is false: every
    cut of a valid frame behind the header is accepted. *)
Theorem C05_truncation_refuted : forall c k,
  in_limits c -> (12 <= k < length (wire c))%nat ->
  ~ complete_frame (firstn k (wire c)) /\
  exists m, NewMessageWithBytes (firstn k (wire c)) = Ok m.
Proof.
  intros c k HL Hk. split.
  - apply cut_not_complete; [assumption|lia].
  - apply cut_accepted; [assumption|lia|lia].
Qed.

(** What does hold: a frame cut inside its header is rejected. *)
Theorem C05_truncation_partial : forall c k,
  in_limits c -> (k < 12)%nat ->
  NewMessageWithBytes (firstn k (wire c)) = Err ErrInvalid.
Proof. exact cut_header_rejected. Qed.

(** The invented contents: the announced property with two bytes of data cut to
    one byte is delivered with no data, and its remaining byte is delivered as
    the code of a second property. *)
Example C05_example :
  exists m,
    NewMessageWithBytes
      ([0x10; 0x81; 0; 1; 5; 0xFF; 1; 0x0E; 0xF0; 1; 0x61; 2] ++ [0x80; 2; 0x31]) = Ok m /\
    m_ep m = [mkPProp 0x80 []; mkPProp 0x31 []].
Proof. eexists. vm_compute. split; reflexivity. Qed.

(** ** C06 *)

(** The pieces in which the stream decoder asks for its input. *)
Definition stream_pieces (tid seoj deoj esv : Z) (props : list (Z * list Z)) : list (list Z) :=
  [ [0x10; 0x81] ++ be2 tid;
    be3 seoj ++ be3 deoj ++ [esv; Z.of_nat (length props)] ] ++
  flat_map (fun p => [ [fst p; Z.of_nat (length (snd p))]; snd p ]) props.

(** TCP: equality with datagram decoding when the segment ends fall on ends of
    these pieces (in particular when the frame arrives in one segment, and
    whatever segments follow). *)
Theorem C06_stream_partial : forall tid seoj deoj esv props (groups : list (list (list Z))) later,
  frame_in_limits tid seoj deoj esv props ->
  concat groups = stream_pieces tid seoj deoj esv props ++ later ->
  Forall (fun g => concat g <> []) groups ->
  NewMessageWithReader bufio_Read (NewBufio (map (@concat Z) groups))
  = NewMessageWithBytes (wire_frame tid seoj deoj esv props).
Proof.
  intros tid seoj deoj esv props groups later HL HG HN.
  apply (reader_deliver bufio bufio_Read
           (fun b ps => exists later, bufio_ready b (ps ++ later))).
  - intros r p ps [l H]. cbn [app] in H.
    destruct (bufio_ready_step _ _ _ H) as (b' & E & H'). eauto.
  - assumption.
  - exists later. split; [reflexivity|].
    exists [], groups. cbn [concat app b_buf b_segs NewBufio]. repeat split; assumption.
Qed.

(** TCP, every segmentation: a message that is delivered is the message of the
    received bytes, and those bytes hold a complete frame. *)
Theorem C06_stream_sound : forall segs m,
  Forall (fun b => 0 <= b < 256) (concat segs) ->
  NewMessageWithReader bufio_Read (NewBufio segs) = Ok m ->
  NewMessageWithBytes (concat segs) = Ok m /\ complete_frame (concat segs).
Proof.
  intros segs m HB H.
  exact (reader_sound bufio bufio_Read bufio_stream bufio_read_stream (NewBufio segs) m HB H).
Qed.

Theorem C06_stream_no_panic : forall segs,
  Forall (fun b => 0 <= b < 256) (concat segs) ->
  NewMessageWithReader bufio_Read (NewBufio segs) <> Panic.
Proof.
  intros segs HB.
  exact (reader_no_panic bufio bufio_Read bufio_stream bufio_read_stream (NewBufio segs) HB).
Qed.

(** TCP, the exact condition: a frame that arrives is decoded when no segment ends
    strictly inside a piece, and refused otherwise. *)
Definition cut_inside (segs pieces : list (list Z)) : Prop :=
  exists s1 s2 p1 p p2, segs = s1 ++ s2 /\ pieces = p1 ++ p :: p2 /\
    (length (concat p1) < length (concat s1) < length (concat p1) + length p)%nat.

Theorem C06_stream_exact : forall tid seoj deoj esv props segs later,
  frame_in_limits tid seoj deoj esv props -> Forall (fun s => s <> []) segs ->
  concat segs = wire_frame tid seoj deoj esv props ++ later ->
  (~ cut_inside segs (stream_pieces tid seoj deoj esv props) /\
   NewMessageWithReader bufio_Read (NewBufio segs) = NewMessageWithBytes (wire_frame tid seoj deoj esv props)) \/
  (cut_inside segs (stream_pieces tid seoj deoj esv props) /\
   NewMessageWithReader bufio_Read (NewBufio segs) = Err ErrInvalid).
Proof.
  intros tid seoj deoj esv props segs later HL HS HC.
  change (stream_pieces tid seoj deoj esv props) with (frame_pieces tid seoj deoj esv props).
  pose proof (concat_frame_pieces tid seoj deoj esv props) as HP. set (ps := frame_pieces tid seoj deoj esv props) in *.
  assert (FU := fed_uncut ps [] segs later HS). cbn [app] in FU. rewrite HP in FU. specialize (FU HC). rewrite uncut_nil_seg in FU.
  destruct (fed [] segs ps) eqn:EF.
  - left. split.
    + destruct FU as [FU _]. specialize (FU eq_refl). intros (s1 & s2 & p1 & p & p2 & A & B & C). exact (FU s1 s2 p1 p p2 A B C).
    + apply (reader_deliver bufio bufio_Read (fun b ps => b_err b = None /\ bufio_stream b = concat ps ++ later /\
         Forall (fun s => s <> []) (b_segs b) /\ fed (b_buf b) (b_segs b) ps = true)); [|exact HL|].
      * intros b p qs (A & B & C & D). destruct (fed_ready b p qs later A B C) as [(b' & E & A' & B' & C' & D')|(X & _)]; [|congruence].
        exists b'. split; [exact E|]. rewrite D'. auto.
      * fold ps. rewrite HP. unfold NewBufio, bufio_stream. cbn [b_err b_buf b_segs app]. auto.
  - right. split.
    + destruct (fed_cut ps [] segs later HS) as (s1 & s2 & p1 & p & p2 & A & B & C); [cbn [app]; rewrite HP; exact HC|exact EF|].
      destruct s1 as [|x s1]; [change (seg_size []) with O in C; lia|]. cbn [app] in A. injection A as <- A.
      exists s1, s2, p1, p, p2. auto.
    + apply (reader_short bufio bufio_Read ErrInvalid (fun b ps => b_err b = None /\ bufio_stream b = concat ps ++ later /\
         Forall (fun s => s <> []) (b_segs b) /\ fed (b_buf b) (b_segs b) ps = false)) with (tid := tid) (seoj := seoj) (deoj := deoj) (esv := esv) (props := props).
      * intros b (_ & _ & _ & D). discriminate D.
      * intros b p qs (A & B & C & D). destruct (fed_ready b p qs later A B C) as [(b' & E & A' & B' & C' & D')|(_ & d & b' & E & L)];
          unfold read_exactly; rewrite E.
        { left. exists b'. rewrite Z.ltb_irrefl. split; [reflexivity|]. rewrite D'. auto. }
        right. destruct (Z.ltb_spec (len d) (len p)); [reflexivity|lia].
      * exact HL.
      * fold ps. rewrite HP. unfold NewBufio, bufio_stream. cbn [b_err b_buf b_segs app]. auto.
Qed.

(** Full statement [forall segs, concat segs = wire_frame ... -> the decoders
    agree] is false: every frame whose first segment has one to three bytes is
    refused. *)
Theorem C06_stream_refuted : forall tid seoj deoj esv props k,
  frame_in_limits tid seoj deoj esv props -> (1 <= k <= 3)%nat ->
  let f := wire_frame tid seoj deoj esv props in
  NewMessageWithReader bufio_Read (NewBufio [firstn k f; skipn k f]) = Err ErrInvalid /\
  exists m, NewMessageWithBytes (concat [firstn k f; skipn k f]) = Ok m.
Proof.
  intros tid seoj deoj esv props k HL Hk f. split.
  - apply bufio_short_first.
    + subst f. unfold wire_frame. destruct k; [lia|]. cbn. discriminate.
    + unfold len. rewrite firstn_length. lia.
  - cbn [concat]. rewrite app_nil_r, firstn_skipn.
    destruct (parse_wire _ _ _ _ _ [] HL) as (m & Em & _); [constructor|].
    rewrite app_nil_r in Em. eauto.
Qed.

(** bytes.Reader: equality when data follow the frame or the last property has
    data. *)
Theorem C06_bytes_reader_partial : forall tid seoj deoj esv props trailing,
  frame_in_limits tid seoj deoj esv props ->
  (trailing <> [] \/ props = [] \/ snd (last props (0, [])) <> []) ->
  NewMessageWithReader bytes_Read (wire_frame tid seoj deoj esv props ++ trailing)
  = NewMessageWithBytes (wire_frame tid seoj deoj esv props).
Proof.
  intros tid seoj deoj esv props trailing HL HT.
  apply (reader_deliver (list Z) bytes_Read bytes_ready).
  - exact bytes_ready_step.
  - assumption.
  - exists trailing. rewrite concat_frame_pieces. split; [reflexivity|].
    intros _ Hr. destruct HT as [HT|[->|HT]]; [congruence|discriminate|].
    unfold frame_pieces.
    destruct (exists_last (l := props)) as (q & p & ->).
    + intros ->. apply HT. reflexivity.
    + rewrite last_last in HT.
      rewrite flat_map_app. cbn [flat_map]. rewrite app_nil_r.
      unfold prop_pieces at 2. rewrite !app_comm_cons.
      change [[fst p; Z.of_nat (length (snd p))]; snd p]
        with ([[fst p; Z.of_nat (length (snd p))]] ++ [snd p]).
      rewrite app_assoc, last_last. exact HT.
Qed.

(** Every complete frame with an empty last property is refused at the end of a
    bytes.Reader. *)
Theorem C06_bytes_reader_refuted : forall tid seoj deoj esv props,
  frame_in_limits tid seoj deoj esv props -> props <> [] -> snd (last props (0, [])) = [] ->
  NewMessageWithReader bytes_Read (wire_frame tid seoj deoj esv props) = Err ErrEOF /\
  exists m, NewMessageWithBytes (wire_frame tid seoj deoj esv props) = Ok m.
Proof.
  intros tid seoj deoj esv props HL HN HE. split.
  2:{ destruct (parse_wire _ _ _ _ _ [] HL) as (m & Em & _); [constructor|]. rewrite app_nil_r in Em. eauto. }
  apply (reader_short (list Z) bytes_Read ErrEOF
           (fun s ps => s = concat ps /\ exists qs, ps = qs ++ [[]])) with (tid := tid) (seoj := seoj) (deoj := deoj) (esv := esv) (props := props).
  - intros r (_ & qs & E). destruct qs; discriminate E.
  - intros r p ps (-> & qs & E). unfold read_exactly, bytes_Read. cbn [concat].
    destruct (p ++ concat ps) as [|x l] eqn:EC; [right; reflexivity|]. left. rewrite <- EC.
    rewrite firstn_len_app, skipn_len_app, Z.ltb_irrefl. eexists. split; [reflexivity|]. split; [reflexivity|].
    destruct qs as [|q qs]; cbn [app] in E; injection E as -> ->; [discriminate EC|eauto].
  - exact HL.
  - split; [symmetry; apply concat_frame_pieces|]. destruct (exists_last HN) as (q & p & ->). rewrite last_last in HE.
    exists ((([0x10; 0x81] ++ be2 tid) :: (be3 seoj ++ be3 deoj ++ [esv; Z.of_nat (length (q ++ [p]))]) ::
      flat_map prop_pieces q) ++ [[fst p; Z.of_nat (length (snd p))]]).
    unfold frame_pieces. rewrite flat_map_app. cbn [flat_map prop_pieces app]. rewrite HE, <- app_assoc. reflexivity.
Qed.

Example C06_bytes_example : exists m,
  NewMessageWithBytes (wire_frame 0x1234 0x05FF01 0x029001 0x61 [(0x80, [0x30]); (0xB0, [])]) = Ok m /\
  NewMessageWithReader bytes_Read (wire_frame 0x1234 0x05FF01 0x029001 0x61 [(0x80, [0x30]); (0xB0, [])]) = Err ErrEOF.
Proof. eexists. vm_compute. split; reflexivity. Qed.

(** One segment per piece group: 4-byte header and 8-byte header together, the
    properties in a second segment. *)
Example C06_example :
  exists m, NewMessageWithReader bufio_Read
    (NewBufio [[0x10; 0x81; 0x12; 0x34; 0x05; 0xFF; 0x01; 0x02; 0x90; 0x01; 0x61; 2];
               [0x80; 1; 0x30; 0xB0; 0]]) = Ok m.
Proof. eexists. vm_compute. reflexivity. Qed.

(** The same bytes with a segment end inside the second header. *)
Example C06_exact_example :
  cut_inside [[0x10; 0x81; 0x12; 0x34; 0x05]; [0xFF; 0x01; 0x02; 0x90; 0x01; 0x61; 2; 0x80; 1; 0x30; 0xB0; 0]]
    (stream_pieces 0x1234 0x05FF01 0x029001 0x61 [(0x80, [0x30]); (0xB0, [])]) /\
  NewMessageWithReader bufio_Read
    (NewBufio [[0x10; 0x81; 0x12; 0x34; 0x05]; [0xFF; 0x01; 0x02; 0x90; 0x01; 0x61; 2; 0x80; 1; 0x30; 0xB0; 0]]) = Err ErrInvalid.
Proof.
  split; [|vm_compute; reflexivity].
  eexists [_], [_], [_], _, _. split; [reflexivity|]. split; [reflexivity|]. cbn. lia.
Qed.

(** ** C07 *)

Theorem C07_integer_codec :
  (forall v n, 0 <= v < 2 ^ 64 ->
     length (IntegerToByte v n) = n /\
     Forall (fun b => 0 <= b < 256) (IntegerToByte v n) /\
     be_value (IntegerToByte v n) = v mod 256 ^ Z.of_nat n /\
     ByteToInteger (IntegerToByte v n) = v mod 256 ^ Z.of_nat n) /\
  (forall b, Forall (fun x => 0 <= x < 256) b -> (length b <= 8)%nat ->
     ByteToInteger b = be_value b /\ IntegerToByte (ByteToInteger b) (length b) = b) /\
  (forall b, Forall (fun x => 0 <= x < 256) b ->
     ByteToInteger b = be_value b mod 2 ^ 64).
Proof.
  split; [|split].
  - intros v n Hv. repeat split.
    + apply IntegerToByte_length.
    + apply IntegerToByte_bytes.
    + rewrite be_value_IntegerToByte. unfold u64. rewrite (Z.mod_small v) by assumption.
      reflexivity.
    + apply ByteToInteger_IntegerToByte. assumption.
  - intros b Hb Hl. split.
    + apply ByteToInteger_small; assumption.
    + apply IntegerToByte_ByteToInteger; assumption.
  - exact ByteToInteger_spec.
Qed.

Example C07_example :
  IntegerToByte 0x0EF001 3 = [0x0E; 0xF0; 1] /\ ByteToInteger [0x0E; 0xF0; 1] = 0x0EF001.
Proof. vm_compute. split; reflexivity. Qed.

(** ** C08 *)

Theorem C08_service_codes : forall esv, 0 <= esv < 256 ->
  let request := ESV_IsWriteRequest esv = true \/ ESV_IsReadRequest esv = true \/
                 ESV_IsNotificationRequest esv = true in
  let response := ESV_IsWriteResponse esv = true \/ ESV_IsReadResponse esv = true \/
                  ESV_IsNotificationResponse esv = true in
  let notification := ESV_IsNotification esv = true in
  (ESV_IsValid esv = true <->
   In esv (spec_request ++ spec_response ++ spec_notification ++ spec_error)) /\
  (request <-> In esv spec_request) /\ (response <-> In esv spec_response) /\
  (notification <-> In esv spec_notification) /\
  (ESV_IsResponseRequired esv = true <-> In esv (map fst spec_answer)) /\
  ~ (request /\ response) /\ ~ (request /\ notification) /\ ~ (response /\ notification) /\
  (In esv spec_error <-> ESV_IsValid esv = true /\ ~ request /\ ~ response /\ ~ notification).
Proof.
  intros esv Hv request response notification.
  pose proof (esv_check_all esv Hv) as H. unfold esv_check in H.
  apply andb_prop in H as [H H8]. apply andb_prop in H as [H H7].
  apply andb_prop in H as [H H6]. apply andb_prop in H as [H H5].
  apply andb_prop in H as [H H4]. apply andb_prop in H as [H H3].
  apply andb_prop in H as [H1 H2].
  apply eqb_prop in H1, H2, H3, H4, H5, H8.
  assert (R1 : request <-> is_request esv = true).
  { unfold request, is_request. rewrite !orb_true_iff. tauto. }
  assert (R2 : response <-> is_response esv = true).
  { unfold response, is_response. rewrite !orb_true_iff. tauto. }
  rewrite <- !contains_In, R1, R2. unfold notification.
  rewrite <- H1, <- H2, <- H3, <- H4, <- H5, H8.
  destruct (is_request esv), (is_response esv), (ESV_IsNotification esv), (ESV_IsValid esv);
    cbn in *; intuition congruence.
Qed.

Example C08_example : In 0x6E (map fst spec_answer) /\ ESV_IsResponseRequired 0x6E = true.
Proof. vm_compute. tauto. Qed.

(** ** C09 *)

Theorem C09_success_response : forall data req,
  Forall (fun b => 0 <= b < 256) data ->
  NewMessageWithBytes data = Ok req ->
  let r := NewResponseMessageWithMessage req in
  TID r = TID req /\ SEOJ r = DEOJ req /\ DEOJ r = SEOJ req /\
  (forall a, In (m_esv req, a) spec_answer -> m_esv r = a) /\
  (~ In (m_esv req) (map fst spec_answer) -> m_esv r = 0).
Proof.
  intros data req HB HM r.
  destruct (decoded_header _ _ HB HM) as (Ht & Hs & Hd & Ho & He & _).
  destruct (response_facts req Ht Hs Hd) as (H1 & H2 & H3 & H4 & _).
  split; [exact H1|]. split; [exact H2|]. split; [exact H3|].
  subst r. rewrite H4. unfold response_esv. split.
  - intros a Ha. cbn [spec_answer In] in Ha.
    repeat destruct Ha as [Ha|Ha]; try contradiction;
      injection Ha as Hr Ha; rewrite <- Hr, <- Ha; reflexivity.
  - intros Hn. cbn [spec_answer map fst In] in Hn.
    repeat match goal with
    | |- context [?x =? ?y] => let E := fresh "E" in destruct (x =? y) eqn:E;
        [apply Z.eqb_eq in E; rewrite E in Hn; exfalso; apply Hn; vm_compute; tauto|]
    end. reflexivity.
Qed.

Definition sample_request : list Z :=
  [0x10; 0x81; 0x12; 0x34; 0x05; 0xFF; 0x01; 0x02; 0x90; 0x01; 0x62; 1; 0x80; 0].

Example C09_example :
  exists req, NewMessageWithBytes sample_request = Ok req /\
    TID (NewResponseMessageWithMessage req) = 0x1234 /\
    SEOJ (NewResponseMessageWithMessage req) = 0x029001 /\
    DEOJ (NewResponseMessageWithMessage req) = 0x05FF01 /\
    m_esv (NewResponseMessageWithMessage req) = 0x72.
Proof. eexists. split; [vm_compute; reflexivity|]. vm_compute. repeat split. Qed.

(** ** C10 *)

Theorem C10_error_response_partial : forall data req,
  Forall (fun b => 0 <= b < 256) data ->
  NewMessageWithBytes data = Ok req ->
  exists r, NewImpossibleMessageWithMessage req = Ok r /\
    TID r = TID req /\ SEOJ r = DEOJ req /\ DEOJ r = SEOJ req /\
    (forall a, In (m_esv req, a) spec_error_answer -> m_esv r = a).
Proof.
  intros data req HB HM.
  destruct (decoded_header _ _ HB HM) as (Ht & Hs & Hd & Ho & He & _).
  destruct (impossible_facts req Ht Hs Hd Ho) as (r & E & H1 & H2 & H3 & H4 & _).
  exists r. repeat split; try assumption.
  intros a Ha. rewrite H4. cbn [spec_error_answer In] in Ha.
  repeat destruct Ha as [Ha|Ha]; try contradiction;
    injection Ha as Hr Ha; rewrite <- Hr, <- Ha; reflexivity.
Qed.

(** Missing part, refuted for every request with at least one property: the
    error response lists twice as many properties (modulo 256), all with code 0
    and without data. *)
Theorem C10_error_response_refuted : forall data req,
  Forall (fun b => 0 <= b < 256) data ->
  NewMessageWithBytes data = Ok req -> 0 < OPC req ->
  exists r, NewImpossibleMessageWithMessage req = Ok r /\
    OPC r = (2 * OPC req) mod 256 /\ OPC r <> OPC req /\
    length (m_ep r) = (2 * length (m_ep req))%nat /\
    Forall (fun p => pp_code p = 0 /\ pp_data p = []) (m_ep r).
Proof.
  intros data req HB HM Hpos.
  destruct (decoded_header _ _ HB HM) as (Ht & Hs & Hd & Ho & He & Hn).
  destruct (impossible_facts req Ht Hs Hd Ho) as (r & E & _ & _ & _ & _ & H5 & H6 & _).
  exists r. split; [exact E|]. split; [exact H5|]. split; [|split].
  - rewrite H5. intros H. Z.div_mod_to_equations. lia.
  - rewrite H6, repeat_length. lia.
  - rewrite H6. apply Forall_forall. intros p Hp. apply repeat_spec in Hp. subst p.
    split; reflexivity.
Qed.

Example C10_example :
  exists req r, NewMessageWithBytes sample_request = Ok req /\ 0 < OPC req /\
    NewImpossibleMessageWithMessage req = Ok r /\ m_esv r = 0x52 /\ OPC r = 2.
Proof.
  eexists; eexists. split; [vm_compute; reflexivity|]. split; [reflexivity|].
  split; [vm_compute; reflexivity|]. vm_compute. split; reflexivity.
Qed.

(** ** C12 *)

Theorem C12_property_count : forall ops,
  (length (c_props (content_of ops)) <= 255)%nat ->
  let m := built ops in
  let ps := c_props (content_of ops) in
  OPC m = Z.of_nat (length ps) /\
  (forall n, MsgProperty m (Z.of_nat n)
             = Ok (option_map (fun p => mkPProp (fst p) (snd p)) (nth_error ps n))) /\
  (forall code, HasProperty m code = true <-> In code (map fst ps)).
Proof.
  intros ops HL m ps.
  destruct (built_represents ops) as (_ & _ & _ & _ & _ & _ & Hp & Ho).
  fold m ps in Hp, Ho, HL. split; [|split].
  - unfold OPC. rewrite Ho. apply Z.mod_small. lia.
  - intros n. rewrite MsgProperty_nth, Hp. f_equal. apply nth_error_map.
  - intros code. unfold HasProperty. rewrite Hp, existsb_exists, in_map_iff. split.
    + intros (p & Hin & E). apply in_map_iff in Hin as (q & <- & Hq).
      apply Z.eqb_eq in E. exists q. split; assumption.
    + intros (q & E & Hq). exists (of_pair q). split; [apply in_map; assumption|].
      apply Z.eqb_eq. exact E.
Qed.

(** Beyond the limit the count wraps. *)
Theorem C12_property_count_wrap : forall ops,
  OPC (built ops) = Z.of_nat (length (c_props (content_of ops))) mod 256.
Proof. intros ops. apply built_represents. Qed.

Example C12_example :
  OPC (built sample_ops) = 2 /\ MsgProperty (built sample_ops) 1 = Ok (Some (mkPProp 0xB0 [])) /\
  HasProperty (built sample_ops) 0xB0 = true /\ HasProperty (built sample_ops) 0xB1 = false.
Proof. vm_compute. repeat split. Qed.

(** ** C13 *)

Theorem C13_equality : forall ops ops',
  in_limits (content_of ops) -> in_limits (content_of ops') ->
  exists b, Equals (Some (built ops)) (Some (built ops')) = Ok b /\
            (b = true <-> content_of ops = content_of ops').
Proof.
  intros ops ops' H H'.
  apply equals_built; try assumption; apply built_represents.
Qed.

Theorem C13_copy : forall ops from pkt,
  in_limits (content_of ops) ->
  let m := SetPacketType (SetFrom (built ops) from) pkt in
  exists k, NewMessageWithMessage m = Ok k /\
    Equals (Some m) (Some k) = Ok true /\
    m_from k = from /\ m_pktType k = pkt /\
    (TID k, SEOJ k, DEOJ k, m_esv k, OPC k, m_ep k)
    = (TID m, SEOJ m, DEOJ m, m_esv m, OPC m, m_ep m).
Proof.
  intros ops from pkt HL m.
  assert (HR : represents m (content_of ops)) by exact (built_represents ops).
  destruct (copy_built m _ HR HL) as (k & Ek & HRk & Hf & Hp).
  exists k. split; [exact Ek|].
  destruct (equals_built m _ k _ HR HL HRk HL) as (b & Eb & Hb).
  destruct (represents_getters _ _ HR HL) as (A1 & A2 & A3 & A4 & A5 & A6).
  destruct (represents_getters _ _ HRk HL) as (B1 & B2 & B3 & B4 & B5 & B6).
  split; [|repeat split; try assumption; congruence].
  rewrite Eb. f_equal. apply Hb. reflexivity.
Qed.

Theorem C13_nil : forall m, Equals None m = Ok false /\ Equals m None = Ok false.
Proof. intros [m|]; split; reflexivity. Qed.

Example C13_example :
  in_limits (content_of sample_ops) /\
  Equals (Some (built sample_ops)) (Some (built sample_ops)) = Ok true /\
  Equals (Some (built sample_ops)) (Some (built (sample_ops ++ [OSetTID 1]))) = Ok false.
Proof. split; [exact sample_in_limits|]. vm_compute. split; reflexivity. Qed.

Print Assumptions C01_round_trip.
Print Assumptions C02_wire_layout.
Print Assumptions C03_decoder_total.
Print Assumptions C03_decoder_exact.
Print Assumptions C04_reencode.
Print Assumptions C05_truncation_refuted.
Print Assumptions C05_truncation_partial.
Print Assumptions C06_stream_partial.
Print Assumptions C06_stream_exact.
Print Assumptions C06_stream_sound.
Print Assumptions C06_stream_no_panic.
Print Assumptions C06_stream_refuted.
Print Assumptions C06_bytes_reader_partial.
Print Assumptions C06_bytes_reader_refuted.
Print Assumptions C07_integer_codec.
Print Assumptions C08_service_codes.
Print Assumptions C09_success_response.
Print Assumptions C10_error_response_partial.
Print Assumptions C10_error_response_refuted.
Print Assumptions C12_property_count.
Print Assumptions C12_property_count_wrap.
Print Assumptions C13_equality.
Print Assumptions C13_copy.
Print Assumptions C13_nil.
