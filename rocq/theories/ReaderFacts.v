(** Facts about the stream decoder. *)

From Verif Require Import Go GoFacts Encoding EncodingFacts Protocol Parser Reader Spec
  MessageFacts ParserFacts.
From Coq Require Import ZifyBool ZifyNat.
Local Open Scope Z_scope.
Ltac Zify.zify_post_hook ::= Z.div_mod_to_equations.

(** The pieces in which the decoder asks for a frame. *)
Definition prop_pieces (p : Z * list Z) : list (list Z) :=
  [ [fst p; Z.of_nat (length (snd p))]; snd p ].

Definition frame_pieces (tid seoj deoj esv : Z) (props : list (Z * list Z))
  : list (list Z) :=
  ([0x10; 0x81] ++ be2 tid) ::
  (be3 seoj ++ be3 deoj ++ [esv; Z.of_nat (length props)]) ::
  flat_map prop_pieces props.

Lemma concat_prop_pieces props : concat (flat_map prop_pieces props) = flat_map wire_prop props.
Proof.
  induction props as [|p props IH]; [reflexivity|].
  cbn [flat_map]. rewrite concat_app, IH. unfold prop_pieces, wire_prop.
  cbn [concat app]. rewrite app_nil_r. reflexivity.
Qed.

Lemma concat_frame_pieces tid seoj deoj esv props :
  concat (frame_pieces tid seoj deoj esv props) = wire_frame tid seoj deoj esv props.
Proof.
  unfold frame_pieces, wire_frame. cbn [concat]. rewrite concat_prop_pieces.
  rewrite <- !app_assoc. reflexivity.
Qed.

(** Decoding of the two headers from buffers of exactly their size. *)
Lemma header4 m e1 e2 t0 t1 :
  parseFrameHeaderBytes m [e1; e2; t0; t1]
  = if (e1 =? 0x10) && (e2 =? 0x81) then Ok (with_tid m (t0, t1)) else Err ErrInvalid.
Proof.
  unfold parseFrameHeaderBytes. cbn [len length Z.of_nat Pos.of_succ_nat Pos.succ].
  change (4 <? FrameHeaderSize) with false. cbv iota.
  change (len [e1; e2; t0; t1] <? FrameHeaderSize) with false.
  change (idx [e1; e2; t0; t1] 0) with (Ok e1). change (idx [e1; e2; t0; t1] 1) with (Ok e2).
  change (idx [e1; e2; t0; t1] 2) with (Ok t0). change (idx [e1; e2; t0; t1] 3) with (Ok t1).
  cbn [bind]. unfold EHD1Echonet, EHD2Format1.
  destruct (e1 =? 16); cbn [negb andb]; [|reflexivity].
  destruct (e2 =? 129); reflexivity.
Qed.

Lemma header8 m s0 s1 s2 d0 d1 d2 e o :
  0 <= o < 256 ->
  parseFormat1HeaderBytes m [s0; s1; s2; d0; d1; d2; e; o]
  = Ok (mkMessage (m_ehd1 m) (m_ehd2 m) (m_tid m) [s0; s1; s2] [d0; d1; d2] e o
          (repeat NewPProp (Z.to_nat o)) (m_from m) (m_pktType m)).
Proof.
  intros Ho. unfold parseFormat1HeaderBytes.
  set (d8 := [s0; s1; s2; d0; d1; d2; e; o]).
  change (len d8 <? Format1HeaderSize) with false. cbv iota.
  change (idx d8 0) with (Ok s0). change (idx d8 1) with (Ok s1).
  change (idx d8 2) with (Ok s2). change (idx d8 3) with (Ok d0).
  change (idx d8 4) with (Ok d1). change (idx d8 5) with (Ok d2).
  change (idx d8 6) with (Ok e). change (idx d8 7) with (Ok o).
  cbn [bind]. unfold SetOPC.
  replace (u8 (Z.land o 255)) with o; [reflexivity|].
  unfold u8. change 255 with (Z.ones 8). rewrite Z.land_ones by lia.
  change (2 ^ 8) with 256. rewrite Z.mod_mod by lia. symmetry. apply Z.mod_small. lia.
Qed.

Lemma list4 {A} (l : list A) : len l = 4 -> exists a b c d, l = [a; b; c; d].
Proof.
  intros H. do 4 (destruct l as [|? l]; [unfold len in H; simpl in H; lia|]).
  destruct l; [|unfold len in H; simpl in H; lia]. repeat eexists.
Qed.

Lemma list8 {A} (l : list A) :
  len l = 8 -> exists a b c d e f g h, l = [a; b; c; d; e; f; g; h].
Proof.
  intros H. do 8 (destruct l as [|? l]; [unfold len in H; simpl in H; lia|]).
  destruct l; [|unfold len in H; simpl in H; lia]. repeat eexists.
Qed.

Lemma list2 {A} (l : list A) : len l = 2 -> exists a b, l = [a; b].
Proof.
  intros H. do 2 (destruct l as [|? l]; [unfold len in H; simpl in H; lia|]).
  destruct l; [|unfold len in H; simpl in H; lia]. repeat eexists.
Qed.

Section Deliver.
  Variable R : Type.
  Variable Read : R -> Z -> read_result R.

  (** Abstract invariant: the reader will deliver these pieces one by one. *)
  Variable ready : R -> list (list Z) -> Prop.
  Hypothesis ready_step : forall r p ps,
    ready r (p :: ps) -> exists r', Read r (len p) = (p, None, r') /\ ready r' ps.

  Lemma read_exactly_ready r p ps :
    ready r (p :: ps) -> exists r', read_exactly Read r (len p) = Ok (p, r') /\ ready r' ps.
  Proof.
    intros H. destruct (ready_step _ _ _ H) as (r' & E & H').
    exists r'. split; [|assumption]. unfold read_exactly. rewrite E.
    rewrite Z.ltb_irrefl. reflexivity.
  Qed.

  Lemma read_props_ready props : forall r,
    ready r (flat_map prop_pieces props) ->
    exists r', read_props Read (repeat NewPProp (length props)) r
               = Ok (map of_pair props, r').
  Proof.
    induction props as [|[c d] props IH]; intros r H.
    - exists r. reflexivity.
    - cbn [flat_map prop_pieces app fst snd] in H.
      destruct (read_exactly_ready _ _ _ H) as (r1 & E1 & H1).
      destruct (read_exactly_ready _ _ _ H1) as (r2 & E2 & H2).
      destruct (IH _ H2) as (r3 & E3).
      exists r3. cbn [length repeat read_props].
      change (len [c; Z.of_nat (length d)]) with Format1PropertyHeaderSize in E1.
      rewrite E1. cbn [bind].
      change (idx [c; Z.of_nat (length d)] 0) with (Ok c).
      change (idx [c; Z.of_nat (length d)] 1) with (Ok (Z.of_nat (length d))).
      cbn [bind]. unfold len in E2. rewrite E2. cbn [bind]. rewrite E3. reflexivity.
  Qed.

  Lemma reader_deliver r tid seoj deoj esv props :
    frame_in_limits tid seoj deoj esv props ->
    ready r (frame_pieces tid seoj deoj esv props) ->
    NewMessageWithReader Read r
    = NewMessageWithBytes (wire_frame tid seoj deoj esv props).
  Proof.
    intros HL HR.
    pose proof (wire_frame_bytes _ _ _ _ _ HL) as HB.
    unfold frame_pieces in HR.
    destruct (read_exactly_ready _ _ _ HR) as (r1 & E1 & H1).
    destruct (read_exactly_ready _ _ _ H1) as (r2 & E2 & H2).
    destruct (read_props_ready _ _ H2) as (r3 & E3).
    unfold wire_frame, be2, be3 in *. cbn [app] in *.
    rewrite ParseBytes_long by assumption. cbn [Z.eqb Pos.eqb andb].
    unfold parsed.
    destruct HL as (_ & _ & _ & _ & Hl & Hp).
    rewrite <- (app_nil_r (flat_map wire_prop props)), Nat2Z.id.
    rewrite split_props_wire by assumption.
    unfold NewMessageWithReader, ParseReader.
    match type of E1 with
    | read_exactly _ _ (len ?l) = _ => change (len l) with FrameHeaderSize in E1 end.
    match type of E2 with
    | read_exactly _ _ (len ?l) = _ => change (len l) with Format1HeaderSize in E2 end.
    rewrite E1. cbn [bind]. rewrite header4. cbn [Z.eqb Pos.eqb andb bind].
    rewrite E2. cbn [bind]. rewrite header8 by lia. cbn [bind].
    unfold parseFormat1PropertyReader. cbn [m_ep]. rewrite Nat2Z.id, E3.
    reflexivity.
  Qed.
End Deliver.

Section Refuse.
  Variable R : Type.
  Variable Read : R -> Z -> read_result R.

  (** Abstract invariant: the read of one of these pieces fails. *)
  Variable e : err.
  Variable short : R -> list (list Z) -> Prop.
  Hypothesis short_nil : forall r, ~ short r [].
  Hypothesis read_exactly_short : forall r p ps, short r (p :: ps) ->
    (exists r', read_exactly Read r (len p) = Ok (p, r') /\ short r' ps) \/
    read_exactly Read r (len p) = Err e.

  Lemma read_props_short props : forall r, short r (flat_map prop_pieces props) ->
    read_props Read (repeat NewPProp (length props)) r = Err e.
  Proof.
    induction props as [|[c d] props IH]; intros r H; [exfalso; exact (short_nil _ H)|].
    cbn [flat_map prop_pieces app fst snd] in H. cbn [length repeat read_props].
    change Format1PropertyHeaderSize with (len [c; Z.of_nat (length d)]).
    destruct (read_exactly_short _ _ _ H) as [(r1 & -> & H1)| ->]; [|reflexivity]. cbn [bind].
    change (idx [c; Z.of_nat (length d)] 0) with (Ok c).
    change (idx [c; Z.of_nat (length d)] 1) with (Ok (Z.of_nat (length d))). cbn [bind].
    change (Z.of_nat (length d)) with (len d).
    destruct (read_exactly_short _ _ _ H1) as [(r2 & -> & H2)| ->]; [|reflexivity]. cbn [bind].
    rewrite (IH _ H2). reflexivity.
  Qed.

  Lemma reader_short r tid seoj deoj esv props :
    frame_in_limits tid seoj deoj esv props ->
    short r (frame_pieces tid seoj deoj esv props) ->
    NewMessageWithReader Read r = Err e.
  Proof.
    intros HL HR. unfold frame_pieces, be2, be3 in HR. cbn [app] in HR.
    unfold NewMessageWithReader, ParseReader.
    match type of HR with short _ (?l :: ?l' :: _) => change FrameHeaderSize with (len l); change Format1HeaderSize with (len l') end.
    destruct (read_exactly_short _ _ _ HR) as [(r1 & -> & H1)| ->]; [|reflexivity]. cbn [bind].
    rewrite header4. cbn [Z.eqb Pos.eqb andb bind].
    destruct (read_exactly_short _ _ _ H1) as [(r2 & -> & H2)| ->]; [|reflexivity]. cbn [bind].
    destruct HL as (_ & _ & _ & _ & Hl & _). rewrite header8 by lia. cbn [bind].
    unfold parseFormat1PropertyReader. cbn [m_ep]. rewrite Nat2Z.id, (read_props_short _ _ H2). reflexivity.
  Qed.
End Refuse.

Section Sound.
  Variable R : Type.
  Variable Read : R -> Z -> read_result R.

  (** Abstract view: the bytes still to come. *)
  Variable stream : R -> list Z.
  Hypothesis read_stream : forall r n d r',
    Read r n = (d, None, r') -> stream r = d ++ stream r' /\ (0 <= n -> len d <= n).

  Lemma read_exactly_sound r n d r' :
    0 <= n -> read_exactly Read r n = Ok (d, r') -> stream r = d ++ stream r' /\ len d = n.
  Proof.
    intros Hn. unfold read_exactly.
    destruct (Read r n) as [[d0 [e|]] r0] eqn:E; [discriminate|].
    destruct (read_stream _ _ _ _ E) as [HS HL].
    destruct (len d0 <? n) eqn:EL; [discriminate|]. intros H. inv H.
    split; [assumption|]. specialize (HL Hn). lia.
  Qed.

  Lemma read_props_sound k : forall r ps r',
    is_bytes (stream r) ->
    read_props Read (repeat NewPProp k) r = Ok (ps, r') ->
    exists props, ps = map of_pair props /\ length props = k /\
      Forall prop_in_limits props /\
      stream r = flat_map wire_prop props ++ stream r'.
  Proof.
    induction k as [|k IH]; intros r ps r' HB H.
    - cbn in H. inv H. exists []. repeat split; constructor.
    - cbn [repeat read_props] in H.
      destruct (read_exactly Read r Format1PropertyHeaderSize) as [[hdr r1]| |] eqn:E1;
        cbn [bind] in H; try discriminate.
      apply read_exactly_sound in E1 as [S1 L1]; [|unfold Format1PropertyHeaderSize; lia].
      destruct (list2 _ L1) as (c & n & ->).
      change (idx [c; n] 0) with (Ok c) in H. change (idx [c; n] 1) with (Ok n) in H.
      cbn [bind] in H.
      rewrite S1 in HB. cbn [app] in HB.
      inversion HB as [|? ? Hc HB']; subst. inversion HB' as [|? ? Hn HB1]; subst.
      unfold is_byte in Hc, Hn.
      destruct (read_exactly Read r1 n) as [[d r2]| |] eqn:E2;
        cbn [bind] in H; try discriminate.
      apply read_exactly_sound in E2 as [S2 L2]; [|lia].
      destruct (read_props Read (repeat NewPProp k) r2) as [[ps' r3]| |] eqn:E3;
        cbn [bind] in H; try discriminate.
      inv H.
      rewrite S2 in HB1. apply Forall_app in HB1 as [HBd HB2].
      destruct (IH _ _ _ HB2 E3) as (props & -> & Hk & Hp & S3).
      exists ((c, d) :: props). unfold len in *. cbn [flat_map map length].
      repeat split.
      + lia.
      + constructor; [|assumption]. repeat split; cbn [fst snd]; try lia. assumption.
      + rewrite S1, S2, S3. unfold wire_prop. cbn [fst snd app].
        rewrite <- app_assoc. reflexivity.
  Qed.

  (** Whatever the reader does, a decoded message is the message of the bytes
      consumed so far. *)
  Lemma reader_sound r m :
    is_bytes (stream r) ->
    NewMessageWithReader Read r = Ok m ->
    NewMessageWithBytes (stream r) = Ok m /\ complete_frame (stream r).
  Proof.
    intros HB. unfold NewMessageWithReader, ParseReader.
    destruct (read_exactly Read r FrameHeaderSize) as [[h4 r1]| |] eqn:E1;
      cbn [bind]; try discriminate.
    apply read_exactly_sound in E1 as [S1 L1]; [|unfold FrameHeaderSize; lia].
    destruct (list4 _ L1) as (e1 & e2 & t0 & t1 & ->).
    rewrite header4.
    destruct ((e1 =? 16) && (e2 =? 129)) eqn:EH; cbn [bind]; try discriminate.
    apply andb_prop in EH as [EH1 EH2]. apply Z.eqb_eq in EH1, EH2. subst e1 e2.
    destruct (read_exactly Read r1 Format1HeaderSize) as [[h8 r2]| |] eqn:E2;
      cbn [bind]; try discriminate.
    apply read_exactly_sound in E2 as [S2 L2]; [|unfold Format1HeaderSize; lia].
    destruct (list8 _ L2) as (s0 & s1 & s2 & d0 & d1 & d2 & e & o & ->).
    assert (HB0 := HB). rewrite S1, S2 in HB. cbn [app] in HB.
    unfold is_bytes in HB.
    repeat match goal with
    | H : Forall is_byte (_ :: _) |- _ =>
        let H1 := fresh "Hb" in
        pose proof (Forall_inv H) as H1; apply Forall_inv_tail in H; unfold is_byte in H1
    end.
    rewrite header8 by assumption. cbn [bind].
    unfold parseFormat1PropertyReader. cbn [m_ep].
    destruct (read_props Read (repeat NewPProp (Z.to_nat o)) r2) as [[ps r3]| |] eqn:E3;
      cbn [bind]; try discriminate.
    intros H. inv H.
    apply read_props_sound in E3 as (props & -> & Hk & Hp & S3); [|assumption].
    assert (HS : stream r = [16; 129; t0; t1; s0; s1; s2; d0; d1; d2; e; o]
                   ++ flat_map wire_prop props ++ stream r3)
      by (rewrite S1, S2, S3; reflexivity).
    split.
    - rewrite HS in HB0 |- *. cbn [app] in HB0 |- *.
      rewrite ParseBytes_long by assumption. cbn [Z.eqb Pos.eqb andb].
      unfold parsed. rewrite <- Hk, split_props_wire by assumption.
      reflexivity.
    - exists (be_value [t0; t1]), (be_value [s0; s1; s2]), (be_value [d0; d1; d2]), e, props,
        (stream r3).
      split.
      + unfold be_value, be_value_acc, frame_in_limits.
        change (2 ^ 24) with 16777216. repeat split; try lia. assumption.
      + rewrite HS. unfold wire_frame, be2, be3, be_value, be_value_acc.
        rewrite <- !app_assoc. cbn [app].
        repeat (f_equal; try lia).
  Qed.

  (** Decoding never crashes. *)
  Lemma reader_no_panic r : is_bytes (stream r) -> NewMessageWithReader Read r <> Panic.
  Proof.
    intros HB. unfold NewMessageWithReader, ParseReader.
    assert (NP : forall r n, read_exactly Read r n <> Panic).
    { intros r0 n. unfold read_exactly. destruct (Read r0 n) as [[d0 [e|]] r']; [discriminate|].
      destruct (len d0 <? n); discriminate. }
    destruct (read_exactly Read r FrameHeaderSize) as [[h4 r1]| |] eqn:E1;
      cbn [bind]; [|discriminate|exfalso; eapply NP; eassumption].
    apply read_exactly_sound in E1 as [S1 L1]; [|unfold FrameHeaderSize; lia].
    destruct (list4 _ L1) as (e1 & e2 & t0 & t1 & ->).
    rewrite header4. destruct ((e1 =? 16) && (e2 =? 129)); cbn [bind]; [|discriminate].
    destruct (read_exactly Read r1 Format1HeaderSize) as [[h8 r2]| |] eqn:E2;
      cbn [bind]; [|discriminate|exfalso; eapply NP; eassumption].
    apply read_exactly_sound in E2 as [S2 L2]; [|unfold Format1HeaderSize; lia].
    destruct (list8 _ L2) as (s0 & s1 & s2 & d0 & d1 & d2 & e & o & ->).
    rewrite S1, S2 in HB. cbn [app] in HB. unfold is_bytes in HB.
    repeat match goal with
    | H : Forall is_byte (_ :: _) |- _ =>
        let H1 := fresh "Hb" in
        pose proof (Forall_inv H) as H1; apply Forall_inv_tail in H; unfold is_byte in H1
    end.
    rewrite header8 by assumption. cbn [bind].
    unfold parseFormat1PropertyReader. cbn [m_ep].
    assert (NPP : forall k r, is_bytes (stream r) ->
                    read_props Read (repeat NewPProp k) r <> Panic).
    { induction k as [|k IH]; intros r0 HB0; [discriminate|].
      cbn [repeat read_props].
      destruct (read_exactly Read r0 Format1PropertyHeaderSize) as [[hdr r4]| |] eqn:E4;
        cbn [bind]; [|discriminate|exfalso; eapply NP; eassumption].
      apply read_exactly_sound in E4 as [S4 L4]; [|unfold Format1PropertyHeaderSize; lia].
      destruct (list2 _ L4) as (c & n & ->).
      change (idx [c; n] 0) with (Ok c). change (idx [c; n] 1) with (Ok n). cbn [bind].
      rewrite S4 in HB0. cbn [app] in HB0.
      inversion HB0 as [|? ? Hc HB']; subst. inversion HB' as [|? ? Hn HB1]; subst.
      destruct (read_exactly Read r4 n) as [[d5 r5]| |] eqn:E5;
        cbn [bind]; [|discriminate|exfalso; eapply NP; eassumption].
      apply read_exactly_sound in E5 as [S5 L5]; [|unfold is_byte in Hn; lia].
      rewrite S5 in HB1. apply Forall_app in HB1 as [_ HB1].
      specialize (IH _ HB1).
      destruct (read_props Read (repeat NewPProp k) r5) as [[? ?]| |];
        cbn [bind]; congruence. }
    specialize (NPP (Z.to_nat o) r2 HB).
    destruct (read_props Read (repeat NewPProp (Z.to_nat o)) r2) as [[? ?]| |];
      cbn [bind]; congruence.
  Qed.
End Sound.

(** ** bufio.Reader *)

Definition bufio_ready (b : bufio) (ps : list (list Z)) : Prop :=
  b_err b = None /\
  exists g gs, b_buf b = concat g /\ b_segs b = map (@concat Z) gs /\
    Forall (fun g => concat g <> []) gs /\ g ++ concat gs = ps.

Lemma firstn_len_app {A} (p r : list A) : firstn (Z.to_nat (len p)) (p ++ r) = p.
Proof.
  unfold len. rewrite Nat2Z.id, firstn_app, firstn_all, Nat.sub_diag. apply app_nil_r.
Qed.

Lemma skipn_len_app {A} (p r : list A) : skipn (Z.to_nat (len p)) (p ++ r) = r.
Proof.
  unfold len. rewrite Nat2Z.id, skipn_app, skipn_all, Nat.sub_diag. reflexivity.
Qed.

Lemma bufio_ready_step b p ps :
  bufio_ready b (p :: ps) ->
  exists b', bufio_Read b (len p) = (p, None, b') /\ bufio_ready b' ps.
Proof.
  destruct b as [buf segs er]. intros (He & g & gs & Hb & Hs & Hne & Hg).
  cbn [b_err b_buf b_segs] in *. subst er buf segs.
  unfold bufio_Read. cbn [b_err b_buf b_segs].
  destruct p as [|x p].
  - change (len [] =? 0) with true. cbv iota.
    assert (HR : bufio_ready (mkBufio (concat g) (map (@concat Z) gs) None) ps).
    { split; [reflexivity|]. cbn [b_err b_buf b_segs].
      destruct g as [|g0 g].
      - destruct gs as [|g1 gs]; [discriminate|]. cbn [concat app] in Hg.
        inversion Hne as [|? ? Hn1 Hne']; subst.
        destruct g1 as [|p1 g1]; [cbn in Hn1; congruence|].
        cbn [app] in Hg. inv Hg.
        exists [], (g1 :: gs). repeat split. constructor; assumption.
      - cbn [app] in Hg. inv Hg. exists g, gs. repeat split; assumption. }
    destruct (concat g) as [|y t].
    + eexists. split; [reflexivity|assumption].
    + eexists. split; [reflexivity|assumption].
  - assert (Hn : len (x :: p) =? 0 = false) by (rewrite len_cons; pose proof (len_nonneg p); lia).
    rewrite Hn. unfold bufio_copy. cbn [b_err b_buf b_segs].
    destruct g as [|g0 g].
    + destruct gs as [|g1 gs]; [discriminate|]. cbn [concat app] in Hg |- *.
      inversion Hne as [|? ? Hn1 Hne']; subst.
      destruct g1 as [|p1 g1]; [cbn in Hn1; congruence|].
      cbn [app] in Hg. inv Hg. cbn [map concat].
      rewrite firstn_len_app, skipn_len_app.
      eexists. split; [reflexivity|]. split; [reflexivity|].
      exists g1, gs. repeat split. assumption.
    + cbn [app] in Hg. inv Hg. cbn [concat].
      change ((x :: p) ++ concat g) with (x :: (p ++ concat g)) at 1. cbv iota.
      rewrite firstn_len_app, skipn_len_app.
      eexists. split; [reflexivity|]. split; [reflexivity|].
      exists g, gs. repeat split. assumption.
Qed.

Definition bufio_stream (b : bufio) : list Z := b_buf b ++ concat (b_segs b).

Lemma bufio_copy_stream b n d b' :
  bufio_copy b n = (d, None, b') ->
  bufio_stream b = d ++ bufio_stream b' /\ (0 <= n -> len d <= n).
Proof.
  unfold bufio_copy, bufio_stream. intros H. inv H. cbn [b_buf b_segs].
  rewrite app_assoc, firstn_skipn. split; [reflexivity|].
  intros Hn. unfold len. rewrite firstn_length. lia.
Qed.

Lemma bufio_read_stream b n d b' :
  bufio_Read b n = (d, None, b') ->
  bufio_stream b = d ++ bufio_stream b' /\ (0 <= n -> len d <= n).
Proof.
  unfold bufio_Read. destruct b as [buf segs er]. cbn [b_buf b_segs b_err].
  destruct (n =? 0) eqn:En.
  - destruct buf; intros H; inv H; (split; [reflexivity|unfold len; cbn [length]; lia]).
  - destruct buf.
    + destruct er; [discriminate|]. destruct segs as [|s t]; [discriminate|].
      intros H. apply bufio_copy_stream in H. exact H.
    + apply bufio_copy_stream.
Qed.

(** ** Where segments may end *)

(** The buffer and the segments give every piece in one read. *)
Fixpoint fed (buf : list Z) (segs : list (list Z)) (ps : list (list Z)) : bool :=
  match ps with
  | [] => true
  | [] :: ps => fed buf segs ps
  | p :: ps =>
      let '(buf, segs) := match buf, segs with [], s :: segs => (s, segs) | _, _ => (buf, segs) end in
      if (length buf <? length p)%nat then false else fed (skipn (length p) buf) segs ps
  end.

Definition seg_size (l : list (list Z)) : nat := length (concat l).

(** No segment ends strictly inside a piece. *)
Definition uncut (segs pieces : list (list Z)) : Prop :=
  forall s1 s2 p1 p p2, segs = s1 ++ s2 -> pieces = p1 ++ p :: p2 -> ~ (seg_size p1 < seg_size s1 < seg_size p1 + length p)%nat.

Lemma seg_size_cons x l : seg_size (x :: l) = (length x + seg_size l)%nat.
Proof. unfold seg_size. cbn [concat]. apply app_length. Qed.

Lemma uncut_nil_piece segs ps : uncut segs ([] :: ps) <-> uncut segs ps.
Proof.
  split; intros H s1 s2 p1 p p2 E1 E2 C.
  - apply (H s1 s2 ([] :: p1) p p2 E1); [rewrite E2; reflexivity|]. rewrite seg_size_cons. exact C.
  - destruct p1 as [|q p1]; cbn [app] in E2; injection E2 as <- E2.
    + cbn [length] in C. lia.
    + apply (H s1 s2 p1 p p2 E1 E2). rewrite seg_size_cons in C. exact C.
Qed.

Lemma uncut_nil_seg segs ps : uncut ([] :: segs) ps <-> uncut segs ps.
Proof.
  split; intros H s1 s2 p1 p p2 E1 E2 C.
  - apply (H ([] :: s1) s2 p1 p p2); [rewrite E1; reflexivity|exact E2|]. rewrite seg_size_cons. exact C.
  - destruct s1 as [|q s1]; [change (seg_size []) with O in C; lia|]. cbn [app] in E1. injection E1 as <- E1.
    apply (H s1 s2 p1 p p2 E1 E2). rewrite seg_size_cons in C. exact C.
Qed.

Lemma uncut_step buf segs p ps : (length p <= length buf)%nat ->
  (uncut (buf :: segs) (p :: ps) <-> uncut (skipn (length p) buf :: segs) ps).
Proof.
  intros HL. pose proof (skipn_length (length p) buf) as SL. split; intros H s1 s2 p1 q p2 E1 E2 C.
  - destruct s1 as [|x s1]; [change (seg_size []) with O in C; lia|]. cbn [app] in E1. injection E1 as <- E1.
    apply (H (buf :: s1) s2 (p :: p1) q p2); [rewrite E1; reflexivity|rewrite E2; reflexivity|].
    rewrite !seg_size_cons in *. lia.
  - destruct s1 as [|x s1]; [change (seg_size []) with O in C; lia|]. cbn [app] in E1. injection E1 as <- E1.
    destruct p1 as [|y p1]; cbn [app] in E2; injection E2 as <- E2.
    + rewrite seg_size_cons in C. cbn [seg_size concat length] in C. lia.
    + apply (H (skipn (length p) buf :: s1) s2 p1 q p2); [rewrite E1; reflexivity|exact E2|].
      rewrite !seg_size_cons in *. lia.
Qed.

Lemma fed_uncut ps : forall buf segs later, Forall (fun s => s <> []) segs ->
  buf ++ concat segs = concat ps ++ later -> (fed buf segs ps = true <-> uncut (buf :: segs) ps).
Proof.
  induction ps as [|p ps IH]; intros buf segs later HS HC.
  { split; [|reflexivity]. intros _ s1 s2 p1 q p2 _ E. destruct p1; discriminate E. }
  destruct p as [|x p]; [rewrite uncut_nil_piece; apply (IH _ _ later HS HC)|].
  assert (MAIN : forall buf segs, buf <> [] -> Forall (fun s => s <> []) segs ->
    buf ++ concat segs = (x :: p) ++ concat ps ++ later ->
    ((if (length buf <? length (x :: p))%nat then false else fed (skipn (length (x :: p)) buf) segs ps) = true
     <-> uncut (buf :: segs) ((x :: p) :: ps))).
  { clear buf segs HS HC. intros buf segs HB HS HC. destruct (Nat.ltb_spec (length buf) (length (x :: p))) as [L|L].
    - split; [discriminate|]. intros U. exfalso. apply (U [buf] segs [] (x :: p) ps eq_refl eq_refl).
      unfold seg_size. cbn [concat]. rewrite app_nil_r. destruct buf; [congruence|]. cbn [length] in *. lia.
    - rewrite uncut_step by exact L. apply (IH _ _ later HS).
      apply (app_inv_head (x :: p)). rewrite <- HC. rewrite app_assoc. f_equal.
      rewrite <- (firstn_skipn (length (x :: p)) buf) at 2. f_equal.
      assert (E := f_equal (firstn (length (x :: p))) HC). rewrite !firstn_app in E.
      replace (length (x :: p) - length buf)%nat with 0%nat in E by lia. rewrite Nat.sub_diag in E.
      cbn [firstn] in E. rewrite !app_nil_r in E. rewrite (firstn_all (x :: p)) in E. symmetry. exact E. }
  cbn [concat] in HC. rewrite <- app_assoc in HC. cbn [fed]. destruct buf as [|y buf].
  - destruct segs as [|s segs]; [discriminate HC|]. inversion HS; subst. rewrite uncut_nil_seg.
    apply MAIN; assumption.
  - apply MAIN; [discriminate|assumption|assumption].
Qed.

Lemma fed_cut ps : forall buf segs later, Forall (fun s => s <> []) segs ->
  buf ++ concat segs = concat ps ++ later -> fed buf segs ps = false ->
  exists s1 s2 p1 p p2, buf :: segs = s1 ++ s2 /\ ps = p1 ++ p :: p2 /\ (seg_size p1 < seg_size s1 < seg_size p1 + length p)%nat.
Proof.
  induction ps as [|p ps IH]; intros buf segs later HS HC HF; [discriminate HF|].
  destruct p as [|x p].
  { destruct (IH buf segs later HS HC HF) as (s1 & s2 & p1 & q & p2 & A & B & C).
    exists s1, s2, ([] :: p1), q, p2. split; [exact A|]. split; [rewrite B; reflexivity|]. rewrite seg_size_cons. exact C. }
  assert (MAIN : forall buf segs, buf <> [] -> Forall (fun s => s <> []) segs ->
    buf ++ concat segs = (x :: p) ++ concat ps ++ later ->
    (if (length buf <? length (x :: p))%nat then false else fed (skipn (length (x :: p)) buf) segs ps) = false ->
    exists s1 s2 p1 q p2, buf :: segs = s1 ++ s2 /\ (x :: p) :: ps = p1 ++ q :: p2 /\ (seg_size p1 < seg_size s1 < seg_size p1 + length q)%nat).
  { clear buf segs HS HC HF. intros buf segs HB HS HC HF. destruct (Nat.ltb_spec (length buf) (length (x :: p))) as [L|L].
    - exists [buf], segs, [], (x :: p), ps. split; [reflexivity|]. split; [reflexivity|].
      rewrite seg_size_cons. change (seg_size []) with O. destruct buf; [congruence|]. cbn [length] in *. lia.
    - destruct (IH (skipn (length (x :: p)) buf) segs later HS) as (s1 & s2 & p1 & q & p2 & A & B & C); [|exact HF|].
      + apply (app_inv_head (x :: p)). rewrite <- HC. rewrite app_assoc. f_equal.
        rewrite <- (firstn_skipn (length (x :: p)) buf) at 2. f_equal.
        assert (E := f_equal (firstn (length (x :: p))) HC). rewrite !firstn_app in E.
        replace (length (x :: p) - length buf)%nat with 0%nat in E by lia. rewrite Nat.sub_diag in E.
        cbn [firstn] in E. rewrite !app_nil_r in E. rewrite (firstn_all (x :: p)) in E. symmetry. exact E.
      + destruct s1 as [|y s1]; [change (seg_size []) with O in C; lia|]. assert (EY := f_equal (hd []) A). assert (A' := f_equal (@tl _) A). cbn [app hd tl] in EY, A'. subst y.
        exists (buf :: s1), s2, ((x :: p) :: p1), q, p2. split; [rewrite A'; reflexivity|]. split; [rewrite B; reflexivity|].
        pose proof (skipn_length (length (x :: p)) buf) as SL. rewrite !seg_size_cons in *. lia. }
  cbn [concat] in HC. rewrite <- app_assoc in HC. cbn [fed] in HF. destruct buf as [|y buf].
  - destruct segs as [|s segs]; [discriminate HC|]. inversion HS; subst.
    destruct (MAIN s segs) as (s1 & s2 & p1 & q & p2 & A & B & C); try assumption.
    exists ([] :: s1), s2, p1, q, p2. split; [rewrite A; reflexivity|]. split; [exact B|]. rewrite seg_size_cons. exact C.
  - apply MAIN; [discriminate|assumption..].
Qed.

Lemma fed_ready b p ps later : b_err b = None -> bufio_stream b = concat (p :: ps) ++ later ->
  Forall (fun s => s <> []) (b_segs b) ->
  (exists b', bufio_Read b (len p) = (p, None, b') /\ b_err b' = None /\ bufio_stream b' = concat ps ++ later /\
     Forall (fun s => s <> []) (b_segs b') /\ fed (b_buf b') (b_segs b') ps = fed (b_buf b) (b_segs b) (p :: ps)) \/
  (fed (b_buf b) (b_segs b) (p :: ps) = false /\ exists d b', bufio_Read b (len p) = (d, None, b') /\ len d < len p).
Proof.
  destruct b as [buf segs er]. unfold bufio_stream. cbn [b_err b_buf b_segs]. intros -> HC HS.
  destruct p as [|x p].
  - left. unfold bufio_Read. cbn [b_err b_buf b_segs]. change (len [] =? 0) with true. cbv iota.
    destruct buf; eexists; (split; [reflexivity|]); cbn [b_err b_buf b_segs fed]; auto.
  - assert (Hn : len (x :: p) =? 0 = false) by (rewrite len_cons; pose proof (len_nonneg p); lia).
    unfold bufio_Read. cbn [b_err b_buf b_segs]. rewrite Hn. cbn [concat] in HC. rewrite <- app_assoc in HC.
    assert (MAIN : forall buf segs, Forall (fun s => s <> []) segs -> buf ++ concat segs = (x :: p) ++ concat ps ++ later ->
      (exists b', bufio_copy (mkBufio buf segs None) (len (x :: p)) = (x :: p, None, b') /\ b_err b' = None /\
         b_buf b' ++ concat (b_segs b') = concat ps ++ later /\ Forall (fun s => s <> []) (b_segs b') /\
         fed (b_buf b') (b_segs b') ps =
         if (length buf <? length (x :: p))%nat then false else fed (skipn (length (x :: p)) buf) segs ps) \/
      ((if (length buf <? length (x :: p))%nat then false else fed (skipn (length (x :: p)) buf) segs ps) = false /\
       exists d b', bufio_copy (mkBufio buf segs None) (len (x :: p)) = (d, None, b') /\ len d < len (x :: p))).
    { clear buf segs HS HC. intros buf segs HS HC. unfold bufio_copy. cbn [b_err b_buf b_segs].
      destruct (Nat.ltb_spec (length buf) (length (x :: p))) as [L|L].
      - right. split; [reflexivity|]. eexists _, _. split; [reflexivity|]. unfold len. rewrite firstn_length. lia.
      - left. assert (E := f_equal (firstn (length (x :: p))) HC). rewrite !firstn_app in E.
        replace (length (x :: p) - length buf)%nat with 0%nat in E by lia. rewrite Nat.sub_diag in E.
        cbn [firstn] in E. rewrite !app_nil_r in E. rewrite (firstn_all (x :: p)) in E.
        unfold len. rewrite Nat2Z.id, E. eexists. split; [reflexivity|]. cbn [b_err b_buf b_segs].
        split; [reflexivity|]. split; [|auto]. apply (app_inv_head (x :: p)). rewrite <- HC. rewrite app_assoc. f_equal.
        rewrite <- E at 1. apply firstn_skipn. }
    destruct buf as [|y buf].
    + destruct segs as [|s segs]; [discriminate HC|]. inversion HS; subst. apply (MAIN s segs); assumption.
    + apply (MAIN (y :: buf) segs); assumption.
Qed.

(** A frame of which some requested piece is cut by a segment end is refused. *)
Lemma bufio_short_first s segs :
  s <> [] -> len s < 4 ->
  NewMessageWithReader bufio_Read (NewBufio (s :: segs)) = Err ErrInvalid.
Proof.
  intros Hs HL. unfold NewMessageWithReader, ParseReader, read_exactly, NewBufio, bufio_Read, FrameHeaderSize.
  cbn [FrameHeaderSize Z.eqb b_buf b_err b_segs]. unfold bufio_copy. cbn [b_buf].
  rewrite firstn_all2 by (unfold len in HL; change (Z.to_nat 4) with 4%nat; lia).
  destruct (len s <? 4) eqn:E; [reflexivity|lia].
Qed.

(** ** bytes.Reader *)

(** [bytes_Read] delivers the pieces of a frame as long as none of them, when
    asked for, is at the very end of the data. *)
Definition bytes_ready (s : list Z) (ps : list (list Z)) : Prop :=
  exists rest, s = concat ps ++ rest /\ (ps <> [] -> rest = [] -> last ps [] <> []).

Lemma bytes_ready_step s p ps :
  bytes_ready s (p :: ps) ->
  exists s', bytes_Read s (len p) = (p, None, s') /\ bytes_ready s' ps.
Proof.
  intros (rest & -> & Hl). cbn [concat]. rewrite <- app_assoc.
  unfold bytes_Read.
  assert (Hne : p ++ concat ps ++ rest <> []).
  { intros E. apply app_eq_nil in E as [-> E]. apply app_eq_nil in E as [E ->].
    specialize (Hl ltac:(discriminate) eq_refl). apply Hl.
    clear Hl. destruct ps as [|q ps]; [reflexivity|].
    assert (HF : Forall (fun x => x = []) (q :: ps)).
    { clear -E. revert E. generalize (q :: ps). induction l as [|a l IH]; intros E; constructor.
      - cbn in E. apply app_eq_nil in E as [E _]. assumption.
      - apply IH. cbn in E. apply app_eq_nil in E as [_ E]. assumption. }
    change (last ([] :: q :: ps) []) with (last (q :: ps) (@nil Z)).
    revert HF. generalize (q :: ps). clear. induction l as [|a l IH]; intros HF; [reflexivity|].
    inversion HF; subst. destruct l; [reflexivity|]. apply IH. assumption. }
  destruct (p ++ concat ps ++ rest) eqn:E; [congruence|]. rewrite <- E. clear E.
  rewrite firstn_len_app, skipn_len_app.
  eexists. split; [reflexivity|].
  exists rest. split; [reflexivity|]. intros Hp Hr.
  specialize (Hl ltac:(discriminate) Hr). destruct ps; [congruence|]. exact Hl.
Qed.

Lemma bytes_read_stream s n d s' :
  bytes_Read s n = (d, None, s') -> s = d ++ s' /\ (0 <= n -> len d <= n).
Proof.
  unfold bytes_Read. destruct s; [discriminate|]. intros H. inv H.
  rewrite firstn_skipn. split; [reflexivity|].
  intros Hn. unfold len. rewrite firstn_length. lia.
Qed.
