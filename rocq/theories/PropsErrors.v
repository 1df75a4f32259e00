(** C109: errors tell what went wrong. *)

From Coq Require Import String Ascii.
From Coq Require Import ZArith Lia.
From Verif Require Import Go GoFacts Encoding Spec Protocol Parser ParserFacts ProtocolFacts Reader Property Object Node NodeFacts Cmd CmdFacts SearchTool Packet
  PropsDetails PropsSearchTool PropsProtocol PropsText Errors.
Local Open Scope Z_scope.

(** ** What a text says *)

(** errors.Is is true for the variable [v] and for no other. *)
Definition only (v : variable) (e : gerror) : Prop := forall w, Is e w = true <-> w = v.
Definition none (e : gerror) : Prop := forall w, Is e w = false.

(** Two hexadecimal digits, and a decimal number. *)
Definition two_digits (v : Z) (s : string) : Prop := exists a b,
  String.get (Z.to_nat (v / 16)) "0123456789ABCDEF" = Some a /\
  String.get (Z.to_nat (v mod 16)) "0123456789ABCDEF" = Some b /\ s = String a (String b "").
Inductive decimal : Z -> string -> Prop :=
| decimal_one d c : 0 <= d -> String.get (Z.to_nat d) "0123456789" = Some c -> decimal d (String c "")
| decimal_more v s d c : 0 < v -> 0 <= d -> String.get (Z.to_nat d) "0123456789" = Some c -> decimal v s -> decimal (10 * v + d) (s ++ String c "").

Lemma err_eqb_eq a b : err_eqb a b = true <-> a = b.
Proof. destruct a, b; cbn; split; congruence. Qed.
Lemma variable_eqb_eq a b : variable_eqb a b = true <-> a = b.
Proof. destruct a, b; cbn; rewrite ?err_eqb_eq; split; congruence. Qed.
Lemma only_wrap v b a : only v (Wrap b (Var v) a).
Proof. intros w. cbn [Is]. rewrite variable_eqb_eq. split; congruence. Qed.
Lemma only_var v : only v (Var v).
Proof. intros w. cbn [Is]. rewrite variable_eqb_eq. split; congruence. Qed.

Lemma upper_get d : 0 <= d < 16 -> String.get (Z.to_nat d) "0123456789ABCDEF" = Some (upper_digit d).
Proof.
  intros H. replace d with (Z.of_nat (Z.to_nat d)) at 2 by lia. assert (L : (Z.to_nat d < 16)%nat) by lia.
  generalize dependent (Z.to_nat d). intros n L. do 16 (destruct n as [|n]; [reflexivity|]). lia.
Qed.
Lemma upper_get10 d : 0 <= d < 10 -> String.get (Z.to_nat d) "0123456789" = Some (upper_digit d).
Proof.
  intros H. replace d with (Z.of_nat (Z.to_nat d)) at 2 by lia. assert (L : (Z.to_nat d < 10)%nat) by lia.
  generalize dependent (Z.to_nat d). intros n L. do 10 (destruct n as [|n]; [reflexivity|]). lia.
Qed.

Lemma two_digits_fmt v : is_byte v -> two_digits v (fmt_X 2 v).
Proof.
  intros [H1 H2]. exists (upper_digit (v / 16)), (upper_digit (v mod 16)).
  assert (A : 0 <= v / 16 < 16) by (split; [apply Z.div_pos; lia|apply Z.div_lt_upper_bound; lia]).
  pose proof (Z.mod_pos_bound v 16 eq_refl) as B.
  split; [apply upper_get; exact A|]. split; [apply upper_get; exact B|].
  unfold fmt_X. change 64%nat with (S (S 62)). generalize 62%nat. intros k. cbn [digits]. destruct (Z.ltb_spec v 16) as [L|L].
  - rewrite Z.div_small, Z.mod_small by lia. reflexivity.
  - destruct (Z.ltb_spec (v / 16) 16); [reflexivity|lia].
Qed.

Lemma text_app a b : text (a ++ b) = (text a ++ text b)%string.
Proof. induction a as [|x a IH]; [reflexivity|]. cbn [app text]. rewrite IH. reflexivity. Qed.

Lemma decimal_digits n : forall v, 0 <= v < 10 ^ Z.of_nat n -> (0 < n)%nat -> decimal v (text (map upper_digit (rev (digits n 10 v)))).
Proof.
  induction n as [|n IH]; intros v H P; [lia|].
  - cbn [digits]. destruct (Z.ltb_spec v 10) as [L|L].
    + apply decimal_one; [lia|]. apply upper_get10. lia.
    + cbn [rev]. rewrite map_app, text_app. replace v with (10 * (v / 10) + v mod 10) at 1 by (symmetry; apply Z.div_mod; lia).
      pose proof (Z.mod_pos_bound v 10 eq_refl) as B. apply decimal_more.
      * apply Z.div_str_pos. lia.
      * lia.
      * apply upper_get10. lia.
      * rewrite Nat2Z.inj_succ, Z.pow_succ_r in H by lia. apply IH.
        -- split; [apply Z.div_pos; lia|]. apply Z.div_lt_upper_bound; lia.
        -- destruct n; [change (10 ^ Z.of_nat 0) with 1 in H; lia|lia].
Qed.
Lemma decimal_fmt v : 0 <= v < 2 ^ 64 -> decimal v (fmt_d v).
Proof. intros H. apply decimal_digits; [|lia]. pose proof (printable_pow 10 v). apply H0; [lia|exact H]. Qed.

Lemma cancel a : forall b c, (a ++ b)%string = (a ++ c)%string -> b = c.
Proof. intros b c E. exact (proj2 (string_app_inj a a b c eq_refl E)). Qed.

(** ** The whole errors and the kinds of the other models *)

Definition kind (v : variable) : err :=
  match v with
  | EchonetInvalid | ProtocolInvalid | TransportInvalid => ErrInvalid
  | EchonetNoData | ProtocolNoData => ErrNoData
  | EchonetNotFound => ErrNotFound
  | EchonetUnknown => ErrOther
  | EchonetTimeout => ErrTimeout
  | IoError e => e
  end.
Fixpoint kind_of (e : gerror) : err := match e with Var v => kind v | Wrap _ e _ => kind_of e | Plain _ => ErrOther end.
Definition forget {A} (x : full A) : res A := match x with Value a => Ok a | Fails e => Err (kind_of e) | Panics => Panic end.

Lemma forget_silent {A} (x : res A) : forget (silent x) = x.
Proof. destruct x; reflexivity. Qed.
Lemma forget_then {A B} (x : full A) (k : A -> full B) (k' : A -> res B) :
  (forall a, forget (k a) = k' a) -> forget (then_ x k) = bind (forget x) k'.
Proof. intros H. destruct x; cbn; auto. Qed.
Lemma forget_if {A} (b : bool) (x y : full A) : forget (if b then x else y) = if b then forget x else forget y.
Proof. destruct b; reflexivity. Qed.

Lemma agree_frame m data : forget (parseFrameHeaderBytes_full m data) = parseFrameHeaderBytes m data.
Proof.
  unfold parseFrameHeaderBytes_full, parseFrameHeaderBytes. rewrite forget_if. destruct (len data <? FrameHeaderSize); [reflexivity|].
  erewrite forget_then; [rewrite forget_silent; reflexivity|]. intros b0. rewrite forget_if. destruct (negb (b0 =? EHD1Echonet)); [reflexivity|].
  erewrite forget_then; [rewrite forget_silent; reflexivity|]. intros b1. rewrite forget_if. destruct (negb (b1 =? EHD2Format1)); [reflexivity|].
  apply forget_silent.
Qed.
Lemma agree_format1 m data : forget (parseFormat1HeaderBytes_full m data) = parseFormat1HeaderBytes m data.
Proof.
  unfold parseFormat1HeaderBytes_full. rewrite forget_if, forget_silent. unfold parseFormat1HeaderBytes.
  destruct (len data <? Format1HeaderSize); reflexivity.
Qed.
Lemma agree_read {R} (Read : R -> Z -> read_result R) said r n :
  forget (read_exactly_full Read said r n) = read_exactly Read r n.
Proof.
  unfold read_exactly_full, read_exactly. destruct (Read r n) as [[d [e|]] r']; [reflexivity|]. destruct (len d <? n); reflexivity.
Qed.
Lemma agree_props {R} (Read : R -> Z -> read_result R) ps : forall k r,
  forget (read_props_full Read k ps r) = read_props Read ps r.
Proof.
  induction ps as [|p ps IH]; intros k r; [reflexivity|]. cbn [read_props_full read_props].
  erewrite forget_then; [rewrite agree_read; reflexivity|]. intros [h r1].
  erewrite forget_then; [rewrite forget_silent; reflexivity|]. intros c.
  erewrite forget_then; [rewrite forget_silent; reflexivity|]. intros n.
  erewrite forget_then; [rewrite agree_read; reflexivity|]. intros [d r2].
  erewrite forget_then; [rewrite IH; reflexivity|]. intros [ps' r3]. reflexivity.
Qed.

(** The functions with whole errors return the values, the kinds of errors and the panics
    of the models the other properties are about. *)
Theorem C109_agree :
  (forall v w d, kind v = ErrNoData -> kind w = ErrInvalid ->
     forget (AsByte_full v w d) = AsByte d /\ forget (AsString_full v d) = AsString d /\ forget (AsInteger_full v d) = AsInteger d) /\
  (forall m code, forget (LookupPropertyDataSize_full m code) = LookupPropertyDataSize m code /\
     forget (LookupPropertyData_full m code) = LookupPropertyData m code /\
     forget (LookupPropertyByte_full m code) = LookupPropertyByte m code /\
     forget (LookupPropertyInteger_full m code) = LookupPropertyInteger m code /\
     forall d, option_map kind_of (SetPropertyDataMap_error m code) = snd (SetPropertyDataMap m code d)) /\
  (forall p, forget (PropertyMapData_full p) = PropertyMapData p) /\
  (forall o, forget (StandardVersion_full o) = StandardVersion o) /\
  (forall codes, forget (NewObjectCodeFromBytes_full codes) = NewObjectCodeFromBytes codes) /\
  (forall data, forget (NewMessageWithBytes_full data) = NewMessageWithBytes data) /\
  (forall R (Read : R -> Z -> read_result R) r, forget (NewMessageWithReader_full Read r) = NewMessageWithReader Read r).
Proof.
  assert (V : forall v w d, kind v = ErrNoData -> kind w = ErrInvalid ->
     forget (AsByte_full v w d) = AsByte d /\ forget (AsString_full v d) = AsString d /\ forget (AsInteger_full v d) = AsInteger d).
  { intros v w d Hv Hw. destruct d as [|b [|b' d]]; cbn; rewrite ?Hv, ?Hw; auto. }
  split; [exact V|]. split.
  { intros m code. unfold LookupPropertyDataSize_full, LookupPropertyDataSize, LookupPropertyData_full, LookupPropertyData,
      LookupPropertyByte_full, LookupPropertyByte, LookupPropertyInteger_full, LookupPropertyInteger, SetPropertyDataMap_error, SetPropertyDataMap.
    destruct (LookupProperty m code) as [p|]; [|cbn; auto].
    destruct (V EchonetNoData EchonetInvalid (p_data p) eq_refl eq_refl) as (A & _ & B). split; [reflexivity|]. split; [reflexivity|]. split; [exact A|]. split; [unfold prop_AsInteger; destruct (p_data p); reflexivity|]. reflexivity. }
  split.
  { intros p. unfold PropertyMapData_full, PropertyMapData. rewrite forget_if.
    destruct ((p_code p =? ObjectGetPropertyMap) || (p_code p =? ObjectSetPropertyMap) || (p_code p =? ObjectAnnoPropertyMap)); [|reflexivity].
    rewrite forget_if. destruct (len (p_data p) =? 0); [reflexivity|].
    erewrite forget_then; [rewrite forget_silent; reflexivity|]. intros c. rewrite forget_if.
    destruct (isPropertyMapDescriptionFormat1 c); rewrite forget_if, forget_silent; reflexivity. }
  split.
  { intros o. unfold StandardVersion_full, StandardVersion. rewrite (forget_then _ _ (fun d => if len d <=? 4 then Err ErrInvalid else idx d 2)).
    - unfold LookupPropertyData_full, LookupPropertyData. destruct (LookupProperty (o_props o) DeviceStandardVersion); reflexivity.
    - intros d. rewrite forget_if, forget_silent. reflexivity. }
  split.
  { intros codes. unfold NewObjectCodeFromBytes_full, NewObjectCodeFromBytes. rewrite forget_if. reflexivity. }
  split.
  { intros data. unfold NewMessageWithBytes_full, NewMessageWithBytes, ParseBytes.
    erewrite forget_then; [rewrite agree_frame; reflexivity|]. intros m.
    erewrite forget_then; [rewrite forget_silent; reflexivity|]. intros d.
    erewrite forget_then; [rewrite agree_format1; reflexivity|]. intros m1.
    erewrite forget_then; [rewrite forget_silent; reflexivity|]. intros d1. apply forget_silent. }
  intros R Read r. unfold NewMessageWithReader_full, NewMessageWithReader, ParseReader, parseFormat1PropertyReader.
  erewrite forget_then with (k' := fun '(h, r) => m <- parseFrameHeaderBytes NewMessage h ;;
     y <- read_exactly Read r Format1HeaderSize ;; let '(format1Header, r0) := y in
     m <- parseFormat1HeaderBytes m format1Header ;; x <- read_props Read (m_ep m) r0 ;; Ok (Protocol.with_props m (m_opc m) (fst x))).
  - rewrite agree_read. destruct (read_exactly Read r FrameHeaderSize) as [[h r1]| |]; [|reflexivity|reflexivity]. cbn [bind].
    destruct (parseFrameHeaderBytes NewMessage h) as [m| |]; [|reflexivity|reflexivity]. cbn [bind].
    destruct (read_exactly Read r1 Format1HeaderSize) as [[h2 r2]| |]; [|reflexivity|reflexivity]. cbn [bind].
    destruct (parseFormat1HeaderBytes m h2) as [m2| |]; [|reflexivity|reflexivity]. cbn [bind].
    destruct (read_props Read (m_ep m2) r2) as [[ps r3]| |]; reflexivity.
  - intros [h r1]. erewrite forget_then; [rewrite agree_frame; reflexivity|]. intros m.
    erewrite forget_then; [rewrite agree_read; reflexivity|]. intros [h2 r2].
    erewrite forget_then; [rewrite agree_format1; reflexivity|]. intros m2.
    erewrite forget_then; [rewrite agree_props; reflexivity|]. intros [ps r3]. reflexivity.
Qed.

(** ** Values *)

(** A value that cannot be read as a byte is missing, or has the size the text says. *)
Theorem C109_values : forall d v w e, In (v, w) [(EchonetNoData, EchonetInvalid); (ProtocolNoData, ProtocolInvalid)] -> len d < 2 ^ 64 ->
  (AsByte_full v w d = Fails e ->
     d = [] /\ only v e /\ Error e = "no data"%string \/
     (2 <= length d)%nat /\ only w e /\ exists n, decimal (Z.of_nat (length d)) n /\ Error e = ("invalid data size (" ++ n ++ ")")%string) /\
  (AsString_full v d = Fails e \/ AsInteger_full v d = Fails e -> d = [] /\ only v e /\ Error e = "no data"%string).
Proof.
  intros d v w e HI HL.
  assert (T : variable_text v = "no data"%string /\ variable_text w = "invalid"%string).
  { destruct HI as [E|[E|[]]]; injection E as <- <-; split; reflexivity. }
  destruct T as [Tv Tw]. split.
  - destruct d as [|b [|b' d]]; cbn [AsByte_full]; [intros [= <-]| |intros [= <-]].
    + left. split; [reflexivity|]. split; [apply only_var|exact Tv].
    + discriminate.
    + right. split; [cbn; lia|]. split; [apply only_wrap|]. unfold len in *. exists (fmt_d (Z.of_nat (length (b :: b' :: d)))).
      split; [apply decimal_fmt; lia|]. cbn [Error errDataSize]. rewrite Tw. reflexivity.
  - destruct d as [|b d]; cbn [AsString_full AsInteger_full]; intros [E|E]; try discriminate E; injection E as <-; (split; [reflexivity|]; split; [apply only_var|exact Tv]).
Qed.

(** ** Properties *)

Definition no_property (code : Z) (e : gerror) : Prop :=
  only EchonetNotFound e /\ exists h, two_digits code h /\ Error e = ("not found: property (" ++ h ++ ")")%string.

Lemma no_property_error code : is_byte code -> no_property code (errPropertyNotFound code).
Proof.
  intros H. split; [apply only_wrap|]. exists (fmt_X 2 code). split; [apply two_digits_fmt, H|reflexivity].
Qed.

(** Reading and writing a property that is not in the object fails and the text has its
    code; a property of the object has no such error. *)
Theorem C109_properties : forall m code e, is_byte code ->
  (LookupProperty m code = None ->
     (exists x, SetPropertyDataMap_error m code = Some x) /\ (exists x, LookupPropertyDataSize_full m code = Fails x) /\
     (exists x, LookupPropertyData_full m code = Fails x) /\ (exists x, LookupPropertyByte_full m code = Fails x) /\
     (exists x, LookupPropertyInteger_full m code = Fails x)) /\
  (SetPropertyDataMap_error m code = Some e \/ LookupPropertyDataSize_full m code = Fails e \/ LookupPropertyData_full m code = Fails e ->
     LookupProperty m code = None /\ no_property code e) /\
  (LookupPropertyByte_full m code = Fails e \/ LookupPropertyInteger_full m code = Fails e ->
     LookupProperty m code = None /\ no_property code e \/
     exists p, LookupProperty m code = Some p /\ ~ only EchonetNotFound e /\
       (AsByte_full EchonetNoData EchonetInvalid (p_data p) = Fails e \/ AsInteger_full EchonetNoData (p_data p) = Fails e)).
Proof.
  intros m code e HB.
  unfold SetPropertyDataMap_error, LookupPropertyDataSize_full, LookupPropertyData_full, LookupPropertyByte_full, LookupPropertyInteger_full.
  destruct (LookupProperty m code) as [p|].
  - split; [discriminate|]. split; [intros [E|[E|E]]; discriminate E|]. intros H. right. exists p. split; [reflexivity|]. split; [|exact H].
    intros HO. specialize (HO EchonetNotFound). destruct HO as [_ HO]. specialize (HO eq_refl).
    destruct (p_data p) as [|b [|b' d]]; cbn in H; destruct H as [E|E]; try discriminate E; injection E as <-; cbn in HO; discriminate HO.
  - split; [intros _; repeat split; eexists; reflexivity|]. split.
    + intros [E|[E|E]]; injection E as <-; (split; [reflexivity|apply no_property_error, HB]).
    + intros [E|E]; injection E as <-; left; (split; [reflexivity|apply no_property_error, HB]).
Qed.

Lemma two_digits_inj a b s : is_byte a -> is_byte b -> two_digits a s -> two_digits b s -> a = b.
Proof.
  intros HA HB (x & y & X & Y & ->) (x' & y' & X' & Y' & E). injection E as <- <-.
  assert (G : forall u v c, 0 <= u < 16 -> 0 <= v < 16 -> String.get (Z.to_nat u) "0123456789ABCDEF" = Some c ->
            String.get (Z.to_nat v) "0123456789ABCDEF" = Some c -> u = v).
  { intros u v c Hu Hv Eu Ev. rewrite upper_get in Eu, Ev by assumption. injection Eu as <-. injection Ev as Ev.
    assert (X1 : Forall (fun d => 0 <= d < 16) [v]) by (repeat constructor; lia).
    assert (X2 : Forall (fun d => 0 <= d < 16) [u]) by (repeat constructor; lia).
    assert (U : map upper_digit [v] = map upper_digit [u]) by (cbn [map]; rewrite Ev; reflexivity).
    apply upper_inj in U; [congruence|assumption..]. }
  unfold is_byte in *. pose proof (Z.mod_pos_bound a 16 eq_refl). pose proof (Z.mod_pos_bound b 16 eq_refl).
  assert (0 <= a / 16 < 16) by (split; [apply Z.div_pos; lia|apply Z.div_lt_upper_bound; lia]).
  assert (0 <= b / 16 < 16) by (split; [apply Z.div_pos; lia|apply Z.div_lt_upper_bound; lia]).
  pose proof (G _ _ _ H1 H2 X X'). pose proof (G _ _ _ H H0 Y Y').
  rewrite (Z.div_mod a 16), (Z.div_mod b 16) by lia. congruence.
Qed.

(** The text tells which property it was. *)
Theorem C109_property_told : forall a b e, is_byte a -> is_byte b -> no_property a e -> no_property b e -> a = b.
Proof.
  intros a b e HA HB (_ & h & H1 & E1) (_ & k & K1 & E2). rewrite E1 in E2. apply cancel in E2.
  assert (L : String.length h = String.length k).
  { destruct H1 as (? & ? & _ & _ & ->). destruct K1 as (? & ? & _ & _ & ->). reflexivity. }
  destruct (string_app_inj _ _ _ _ L E2) as [-> _]. exact (two_digits_inj a b k HA HB H1 K1).
Qed.

(** A property map that cannot be read is no property map, and the text has its code, or
    has other bytes than a map, and the text has them. *)
Theorem C109_maps : forall p e, is_byte (p_code p) -> is_bytes (p_data p) -> PropertyMapData_full p = Fails e ->
  only EchonetInvalid e /\
  (~ In (p_code p) [0x9D; 0x9E; 0x9F] /\ (exists h, two_digits (p_code p) h /\ Error e = ("invalid: property code (" ++ h ++ ")")%string) \/
   In (p_code p) [0x9D; 0x9E; 0x9F] /\ Error e = ("invalid: property map data (" ++ hex_text (p_data p) ++ ")")%string).
Proof.
  intros p e HC HD. unfold PropertyMapData_full.
  change ObjectGetPropertyMap with 0x9F. change ObjectSetPropertyMap with 0x9E. change ObjectAnnoPropertyMap with 0x9D.
  destruct ((p_code p =? 0x9F) || (p_code p =? 0x9E) || (p_code p =? 0x9D)) eqn:M.
  - assert (HI : In (p_code p) [0x9D; 0x9E; 0x9F]).
    { apply orb_true_iff in M. destruct M as [M|M]; [apply orb_true_iff in M; destruct M as [M|M]|]; apply Z.eqb_eq in M; rewrite M; cbn; auto. }
    destruct (len (p_data p) =? 0) eqn:L.
    + intros [= <-]. split; [apply only_wrap|]. right. split; [exact HI|]. apply Z.eqb_eq in L. destruct (p_data p); [reflexivity|unfold len in L; cbn in L; lia].
    + assert (S : forall A (x : res A) (y : gerror), x <> Panic -> (forall z, x <> Err z) -> silent x <> Fails y).
      { intros A [a|z|] y H1 H2; cbn; congruence. }
      assert (D : forall x, x = errInvalidPropertyMapData (EncodeToString (p_data p)) -> only EchonetInvalid x /\
        (~ In (p_code p) [0x9D; 0x9E; 0x9F] /\ (exists h, two_digits (p_code p) h /\ Error x = ("invalid: property code (" ++ h ++ ")")%string) \/
         In (p_code p) [0x9D; 0x9E; 0x9F] /\ Error x = ("invalid: property map data (" ++ hex_text (p_data p) ++ ")")%string)).
      { intros x ->. split; [apply only_wrap|]. right. split; [exact HI|]. rewrite hex_encode by exact HD. reflexivity. }
      assert (F : forall n f (l : list Z) z, (forall i c z, f i c <> Err z) -> for_range n 0 f l <> Err z).
      { intros n f l z Hf. generalize 0. revert l. induction n as [|n IH]; intros l i; cbn [for_range]; [discriminate|].
        pose proof (Hf i l) as Hi. destruct (f i l); cbn [bind]; [apply IH|exfalso; apply (Hi e0); reflexivity|discriminate]. }
      assert (X : forall (l : list Z) i z, idx l i <> Err z).
      { intros l i z. unfold idx. destruct (i <? 0); [discriminate|]. destruct (nth_error l (Z.to_nat i)); discriminate. }
      destruct (p_data p) as [|b0 ds] eqn:ED; [unfold len in L; cbn in L; discriminate L|]. rewrite <- ED in *.
      assert (E0 : idx (p_data p) 0 = Ok b0) by (rewrite ED; reflexivity). rewrite E0. cbn [silent then_].
      destruct (isPropertyMapDescriptionFormat1 b0).
      * destruct (negb (len (p_data p) =? b0 + 1)); [intros [= <-]; apply D; reflexivity|]. intros H. exfalso. revert H.
        match goal with |- silent ?x = _ -> _ => destruct x as [a|z|] eqn:EX; cbn [silent]; try discriminate end.
        revert EX. intros EX. eapply F in EX; [destruct EX|]. intros i c z0. destruct (idx (p_data p) (i + 1)) eqn:EI; cbn [bind]; try discriminate. intros _. exact (X _ _ _ EI).
      * destruct (negb (len (p_data p) =? Z.of_nat PropertyMapFormat2MapSize + 1)); [intros [= <-]; apply D; reflexivity|]. intros H. exfalso. revert H.
        match goal with |- silent ?x = _ -> _ => destruct x as [a|z|] eqn:EX; cbn [silent]; try discriminate end.
        revert EX. intros EX. eapply F in EX; [destruct EX|]. intros i c z0. destruct (idx (p_data p) (i + 1)) eqn:EI; cbn [bind]; try discriminate. intros _. exact (X _ _ _ EI).
  - intros [= <-]. split; [apply only_wrap|]. left. split.
    + intros HI. apply orb_false_iff in M. destruct M as [M M3]. apply orb_false_iff in M. destruct M as [M1 M2].
      apply Z.eqb_neq in M1, M2, M3. cbn in HI. lia.
    + exists (fmt_X 2 (p_code p)). split; [apply two_digits_fmt, HC|reflexivity].
Qed.

(** The standard version of a device that cannot be read: there is no such property, or
    the text has its bytes. *)
Theorem C109_version : forall o e, StandardVersion_full o = Fails e ->
  LookupProperty (o_props o) 0x82 = None /\ no_property 0x82 e \/
  exists p, LookupProperty (o_props o) 0x82 = Some p /\ (length (p_data p) <= 4)%nat /\ only EchonetInvalid e /\
    Error e = ("invalid: device standard version (" ++ text (map char_of (p_data p)) ++ ")")%string.
Proof.
  intros o e. unfold StandardVersion_full, LookupPropertyData_full. change DeviceStandardVersion with 0x82.
  destruct (LookupProperty (o_props o) 0x82) as [p|]; cbn [then_].
  - destruct (Z.leb_spec (len (p_data p)) 4) as [L|L].
    + intros [= <-]. right. exists p. split; [reflexivity|]. unfold len in L. split; [lia|]. split; [apply only_wrap|reflexivity].
    + unfold len in L. destruct (p_data p) as [|a [|b [|c d]]]; try (cbn in L; lia). discriminate.
  - intros [= <-]. left. split; [reflexivity|]. apply no_property_error. unfold is_byte. lia.
Qed.

(** ** Objects *)

Definition no_object (code : Z) (e : gerror) : Prop :=
  only EchonetNotFound e /\ exists s, spelled (fmt_X 6 code) s /\ Error e = ("not found: object (" ++ s ++ ")")%string.

(** Looking up an object fails exactly for the codes no object of the node has; the text
    has the ASCII codes of the digits of the code. *)
Theorem C109_objects : forall nd code,
  ((exists e, LookupObject_full nd code = Fails e) <-> forall o, In o (Objects nd) -> Code o <> code) /\
  forall e, LookupObject_full nd code = Fails e \/ LookupDevice_full nd code = Fails e \/ LookupProfile_full nd code = Fails e -> no_object code e.
Proof.
  intros nd code.
  assert (N : no_object code (errObjectNotFound code)).
  { split; [apply only_wrap|]. exists (fmt_X_String (fmt_X 6 code)). split; [apply spelled_out|reflexivity]. }
  assert (G : forall objs, (forall o, In o objs -> Code o <> code) <-> find_code objs code = None).
  { induction objs as [|o objs IH]; cbn [find_code]; [split; [reflexivity|intros _ o []]|].
    destruct (Z.eqb_spec (Code o) code) as [E|E].
    - split; [intros H; exfalso; apply (H o (or_introl eq_refl) E)|discriminate].
    - destruct (find_code objs code) as [i|] eqn:F.
      + split; [|discriminate]. intros H. exfalso. assert (X : Some i = None); [|discriminate X]. apply IH. intros o' Ho. apply H. right. exact Ho.
      + split; [reflexivity|]. intros _ o' [<-|Ho]; [exact E|]. apply (proj2 IH eq_refl). exact Ho. }
  unfold LookupObject_full, LookupDevice_full, LookupProfile_full, LookupDevice, LookupProfile, Objects.
  pose proof (G (n_devices nd)) as G1. pose proof (G (n_profiles nd)) as G2. split.
  - destruct (find_code (n_devices nd) code) as [i|]; cbn [option_map].
    + split; [intros [e E]; discriminate E|]. intros H. exfalso. assert (X : Some i = None); [|discriminate X]. apply G1. intros o Ho. apply H, in_or_app. left. exact Ho.
    + destruct (find_code (n_profiles nd) code) as [i|]; cbn [option_map].
      * split; [intros [e E]; discriminate E|]. intros H. exfalso. assert (X : Some i = None); [|discriminate X]. apply G2. intros o Ho. apply H, in_or_app. right. exact Ho.
      * split; [|intros _; eexists; reflexivity]. intros _ o Ho. apply in_app_or in Ho. destruct Ho as [Ho|Ho]; [apply (proj2 G1 eq_refl), Ho|apply (proj2 G2 eq_refl), Ho].
  - intros e [E|[E|E]].
    + destruct (find_code (n_devices nd) code); cbn [option_map] in E; [discriminate E|].
      destruct (find_code (n_profiles nd) code); cbn [option_map] in E; [discriminate E|]. injection E as <-. exact N.
    + destruct (find_code (n_devices nd) code); cbn [option_map] in E; [discriminate E|]. injection E as <-. exact N.
    + destruct (find_code (n_profiles nd) code); cbn [option_map] in E; [discriminate E|]. injection E as <-. exact N.
Qed.

(** The text does not have the six digits of the code, for any object. *)
Theorem C109_digits_refuted : forall nd code e, LookupObject_full nd code = Fails e ->
  Error e <> ("not found: object (" ++ fmt_X 6 code ++ ")")%string.
Proof.
  intros nd code e HE H. destruct (C109_objects nd code) as [_ G]. destruct (G e (or_introl HE)) as (_ & s & S & T). rewrite T in H.
  apply cancel in H. apply (f_equal String.length) in H.
  assert (A : forall a b, String.length (a ++ b) = (String.length a + String.length b)%nat).
  { induction a as [|c a IH]; intros b; [reflexivity|]. cbn [String.append String.length]. rewrite IH. reflexivity. }
  rewrite !A in H. rewrite (spelled_length _ _ S) in H.
  assert (P : (0 < String.length (fmt_X 6 code))%nat).
  { unfold fmt_X. change 64%nat with (Datatypes.S 63%nat). generalize 63%nat. intros k. cbn [digits]. rewrite text_length, map_length, app_length, rev_length.
    destruct (code <? 16); cbn [length]; lia. }
  lia.
Qed.

(** The code can be told from it. *)
Theorem C109_object_told : forall a b e, printable a -> printable b -> no_object a e -> no_object b e -> a = b.
Proof.
  intros a b e HA HB (_ & s & S & E1) (_ & t & T & E2). rewrite E1 in E2. apply cancel in E2.
  assert (C : forall x y : string, (x ++ ")")%string = (y ++ ")")%string -> x = y).
  { induction x as [|c x IH]; intros [|d y] H; cbn in H; [reflexivity| | |].
    - injection H as _ H. destruct y; discriminate H.
    - injection H as _ H. destruct x; discriminate H.
    - injection H as -> H. f_equal. apply IH, H. }
  apply C in E2. subst t. exact (fmt_X_inj 6 6 a b HA HB (spelled_inj _ _ S _ T)).
Qed.

(** A device of a class that is not in the database: errors.Is finds nothing at all. *)
Theorem C109_device : forall code e, WithDeviceCode_error code = Some e -> none e /\
  exists s, spelled (fmt_X 6 code) s /\ Error e = ("object code (" ++ s ++ ") not found in standard database")%string.
Proof.
  intros code e. unfold WithDeviceCode_error. destruct (DB_LookupObject code); [discriminate|]. intros [= <-]. split; [intros w; reflexivity|].
  exists (fmt_X_String (fmt_X 6 code)). split; [apply spelled_out|reflexivity].
Qed.

(** ** Messages *)

(** The first of the checks a datagram fails, and the numbers in the text. *)
Definition bad_message (data : list Z) (e : gerror) : Prop :=
  let n := Z.of_nat (length data) in
  (n < 4 /\ exists s, decimal n s /\ Error e = ("invalid: message length : " ++ s ++ " < 4")%string) \/
  (4 <= n /\ exists b h, nth_error data 0 = Some b /\ b <> 0x10 /\ two_digits b h /\ Error e = ("invalid: message header [0] : " ++ h ++ " != 10")%string) \/
  (4 <= n /\ nth_error data 0 = Some 0x10 /\ exists b h, nth_error data 1 = Some b /\ b <> 0x81 /\ two_digits b h /\ Error e = ("invalid: message header [1] : " ++ h ++ " != 81")%string) \/
  (4 <= n < 12 /\ firstn 2 data = [0x10; 0x81] /\ exists s, decimal n s /\ Error e = ("invalid: message length : " ++ s ++ " < 12")%string).

Theorem C109_message : forall data e, is_bytes data -> NewMessageWithBytes_full data = Fails e ->
  only ProtocolInvalid e /\ bad_message data e.
Proof.
  intros data e HB HE. unfold NewMessageWithBytes_full, parseFrameHeaderBytes_full in HE. unfold bad_message.
  change FrameHeaderSize with 4 in *. change EHD1Echonet with 0x10 in *. change EHD2Format1 with 0x81 in *.
  destruct (Z.ltb_spec (len data) 4) as [L|L].
  { cbn [then_] in HE. injection HE as <-. split; [apply only_wrap|]. left. unfold len in L. split; [exact L|].
    exists (fmt_d (len data)). split; [apply decimal_fmt; unfold len; lia|]. reflexivity. }
  destruct data as [|b0 [|b1 [|b2 [|b3 rest]]]]; try (exfalso; unfold len in L; cbn in L; lia).
  inversion HB as [|? ? B0 HB1]; subst. inversion HB1 as [|? ? B1 HB2]; subst.
  assert (N : 4 <= Z.of_nat (length (b0 :: b1 :: b2 :: b3 :: rest))) by (cbn [length]; lia).
  change (silent (idx (b0 :: b1 :: b2 :: b3 :: rest) 0)) with (@Value Z b0) in HE. change (silent (idx (b0 :: b1 :: b2 :: b3 :: rest) 1)) with (@Value Z b1) in HE.
  cbn [then_] in HE. destruct (Z.eqb_spec b0 0x10) as [E0|E0]; cbn [negb] in HE.
  2:{ cbn [then_] in HE. injection HE as <-. split; [apply only_wrap|]. right. left. split; [exact N|]. exists b0, (fmt_X 2 b0).
      split; [reflexivity|]. split; [exact E0|]. split; [apply two_digits_fmt, B0|reflexivity]. }
  destruct (Z.eqb_spec b1 0x81) as [E1|E1]; cbn [negb] in HE.
  2:{ cbn [then_] in HE. injection HE as <-. split; [apply only_wrap|]. right. right. left. split; [exact N|]. subst b0. split; [reflexivity|]. exists b1, (fmt_X 2 b1).
      split; [reflexivity|]. split; [exact E1|]. split; [apply two_digits_fmt, B1|reflexivity]. }
  change (idx (b0 :: b1 :: b2 :: b3 :: rest) 2) with (Ok b2) in HE. change (idx (b0 :: b1 :: b2 :: b3 :: rest) 3) with (Ok b3) in HE.
  cbn [bind silent then_] in HE.
  assert (S4 : slice_from (b0 :: b1 :: b2 :: b3 :: rest) 4 = Ok rest).
  { apply (slice_from_app [b0; b1; b2; b3] rest). reflexivity. }
  rewrite S4 in HE. cbn [silent then_] in HE. unfold parseFormat1HeaderBytes_full in HE. change Format1HeaderSize with 8 in HE. change FrameHeaderSize with 4 in HE.
  destruct (Z.ltb_spec (len rest) 8) as [L8|L8].
  { cbn [then_] in HE. injection HE as <-. split; [apply only_wrap|]. right. right. right. unfold len in *. cbn [length] in *.
    split; [lia|]. subst. split; [reflexivity|]. replace (Z.of_nat (S (S (S (S (length rest)))))) with (Z.of_nat (length rest) + 4) by lia.
    exists (fmt_d (Z.of_nat (length rest) + 4)). split; [apply decimal_fmt; lia|]. reflexivity. }
  exfalso. assert (HP : exists m, NewMessageWithBytes (b0 :: b1 :: b2 :: b3 :: rest) = Ok m).
  { apply (proj2 (C03_decoder_total _ HB)). subst. split; [cbn [length]; unfold len in L8; lia|reflexivity]. }
  destruct HP as [m HP]. destruct C109_agree as (_ & _ & _ & _ & _ & A & _). specialize (A (b0 :: b1 :: b2 :: b3 :: rest)). rewrite HP in A.
  unfold NewMessageWithBytes_full in A.
  assert (P1 : parseFrameHeaderBytes_full NewMessage (b0 :: b1 :: b2 :: b3 :: rest) = Value (with_tid NewMessage (b2, b3))).
  { unfold parseFrameHeaderBytes_full. change FrameHeaderSize with 4. destruct (Z.ltb_spec (len (b0 :: b1 :: b2 :: b3 :: rest)) 4); [lia|].
    change (idx (b0 :: b1 :: b2 :: b3 :: rest) 0) with (Ok b0). change (idx (b0 :: b1 :: b2 :: b3 :: rest) 1) with (Ok b1).
    change (idx (b0 :: b1 :: b2 :: b3 :: rest) 2) with (Ok b2). change (idx (b0 :: b1 :: b2 :: b3 :: rest) 3) with (Ok b3).
    cbn [silent then_ bind]. change EHD1Echonet with 0x10. change EHD2Format1 with 0x81. rewrite E0, E1. reflexivity. }
  rewrite P1 in A. cbn [then_] in A. change FrameHeaderSize with 4 in A. rewrite S4 in A. cbn [silent then_] in A.
  unfold parseFormat1HeaderBytes_full in A. change Format1HeaderSize with 8 in A. destruct (Z.ltb_spec (len rest) 8); [lia|].
  rewrite HE in A. discriminate A.
Qed.

(** *** Messages from a connection *)

Lemma buffered_read n d rest said : len d = n -> d ++ rest <> [] ->
  read_exactly_full bufio_Read said (mkBufio (d ++ rest) [] None) n = Value (d, mkBufio rest [] None).
Proof.
  intros <- HN. unfold read_exactly_full, bufio_Read, len. cbn [b_buf b_segs b_err].
  destruct d as [|x d].
  - cbn [length]. change (Z.of_nat 0 =? 0) with true. cbv iota. cbn [app] in *. destruct rest as [|y rest]; [congruence|]. reflexivity.
  - destruct (Z.eqb_spec (Z.of_nat (length (x :: d))) 0) as [E|_]; [cbn [length] in E; lia|]. cbn [app].
    unfold bufio_copy. cbn [b_buf b_segs b_err]. rewrite Nat2Z.id.
    change (x :: d ++ rest) with ((x :: d) ++ rest). rewrite firstn_app, Nat.sub_diag, firstn_all, firstn_O, app_nil_r.
    rewrite skipn_app, Nat.sub_diag, skipn_all, app_nil_l. cbn [skipn].
    destruct (Z.ltb_spec (Z.of_nat (length (x :: d))) (Z.of_nat (length (x :: d)))); [lia|reflexivity].
Qed.
Lemma fresh_read n d rest said : len d = n -> d <> [] ->
  read_exactly_full bufio_Read said (NewBufio [d ++ rest]) n = Value (d, mkBufio rest [] None).
Proof.
  intros HL HN. rewrite <- (buffered_read n d rest said HL); [|destruct d; [congruence|discriminate]].
  unfold read_exactly_full, bufio_Read, NewBufio. cbn [b_buf b_segs b_err].
  destruct (Z.eqb_spec n 0) as [E|E]; [destruct d; [congruence|unfold len in HL; cbn [length] in HL; lia]|].
  destruct d as [|x d]; [congruence|]. cbn [app]. reflexivity.
Qed.
Lemma short_read n d said : (0 < length d)%nat -> len d < n ->
  read_exactly_full bufio_Read said (mkBufio d [] None) n = Fails (errInvalidMessageSize (said (len d)) n).
Proof.
  intros HN HL. unfold read_exactly_full, bufio_Read. cbn [b_buf b_segs b_err]. unfold len in *.
  destruct (Z.eqb_spec n 0); [lia|]. destruct d as [|x d]; [cbn in HN; lia|]. unfold bufio_copy. cbn [b_buf b_segs b_err].
  rewrite firstn_all2 by lia. destruct (Z.ltb_spec (Z.of_nat (length (x :: d))) n); [reflexivity|lia].
Qed.

(** A property of which something, but not all, arrives: the code alone, or a part of the
    data; [n] is the number of bytes the program waits for. *)
Definition cut_property (cut : list Z) (n : Z) : Prop :=
  (exists c, cut = [c] /\ n = 2) \/
  (exists c d, cut = c :: n :: d /\ (0 < length d)%nat /\ Z.of_nat (length d) < n).

Lemma read_cut ps : forall k more cut n, Forall prop_in_limits ps -> cut_property cut n -> (length ps < length more)%nat ->
  read_props_full bufio_Read k more (mkBufio (flat_map wire_prop ps ++ cut) [] None) = Fails (errInvalidMessageSize (k + Z.of_nat (length ps)) n).
Proof.
  induction ps as [|[c d] ps IH]; intros k [|p more] cut n HP HC HL; cbn [length] in HL; try lia.
  - cbn [flat_map app length read_props_full]. rewrite Z.add_0_r. change Format1PropertyHeaderSize with 2.
    destruct HC as [(c & -> & ->)|(c & d & -> & H1 & H2)].
    + rewrite short_read; [reflexivity|cbn; lia|reflexivity].
    + change (c :: n :: d) with ([c; n] ++ d). rewrite buffered_read; [|reflexivity|discriminate]. cbn [then_ silent idx].
      change (silent (idx [c; n] 0)) with (@Value Z c). change (silent (idx [c; n] 1)) with (@Value Z n). cbn [then_].
      rewrite short_read; [reflexivity|exact H1|exact H2].
  - inversion HP as [|? ? H1 H2]; subst. cbn [read_props_full]. change Format1PropertyHeaderSize with 2.
    replace (flat_map wire_prop ((c, d) :: ps) ++ cut) with ([c; Z.of_nat (length d)] ++ d ++ flat_map wire_prop ps ++ cut)
      by (cbn [flat_map wire_prop fst snd app]; unfold wire_prop at 2; cbn [fst snd app]; rewrite <- app_assoc; reflexivity).
    rewrite buffered_read; [|reflexivity|discriminate]. cbn [then_].
    change (silent (idx [c; Z.of_nat (length d)] 0)) with (@Value Z c). change (silent (idx [c; Z.of_nat (length d)] 1)) with (@Value Z (Z.of_nat (length d))).
    cbn [then_]. rewrite buffered_read; [|reflexivity|]. 2:{ intros E. apply app_eq_nil in E. destruct E as [_ E]. apply app_eq_nil in E. destruct E as [_ E].
      destruct HC as [(? & -> & _)|(? & ? & -> & _)]; discriminate E. }
    cbn [then_]. rewrite (IH (k + 1) more cut n H2 HC) by lia. cbn [then_]. cbn [length]. f_equal. f_equal. lia.
Qed.

Lemma header_value m t0 t1 : parseFrameHeaderBytes_full m [16; 129; t0; t1] = Value (with_tid m (t0, t1)).
Proof. reflexivity. Qed.

Definition header_of (tid seoj deoj esv opc : Z) : list Z := [0x10; 0x81] ++ be2 tid ++ be3 seoj ++ be3 deoj ++ [esv; opc].

(** When the stream ends in the middle of a property, the text says how many properties
    came before it, where the bytes of the last read should be; it never depends on how
    much of the property came. *)
Theorem C109_stream : forall tid seoj deoj esv opc ps cut n,
  0 <= opc < 256 -> Forall prop_in_limits ps -> Z.of_nat (length ps) < opc -> cut_property cut n -> 0 <= n < 256 ->
  exists e said waited, NewMessageWithReader_full bufio_Read (NewBufio [header_of tid seoj deoj esv opc ++ flat_map wire_prop ps ++ cut]) = Fails e /\
    only ProtocolInvalid e /\ decimal (Z.of_nat (length ps)) said /\ decimal n waited /\
    Error e = ("invalid: message length : " ++ said ++ " < " ++ waited)%string.
Proof.
  intros tid seoj deoj esv opc ps cut n HO HP HL HC Hn.
  exists (errInvalidMessageSize (Z.of_nat (length ps)) n), (fmt_d (Z.of_nat (length ps))), (fmt_d n). split.
  2:{ split; [apply only_wrap|]. split; [apply decimal_fmt; lia|]. split; [apply decimal_fmt; lia|]. reflexivity. }
  unfold NewMessageWithReader_full, header_of, be2, be3. cbn [app]. change FrameHeaderSize with 4. change Format1HeaderSize with 8.
  match goal with |- context [NewBufio [?a0 :: ?a1 :: ?a2 :: ?a3 :: ?l]] => change (a0 :: a1 :: a2 :: a3 :: l) with ([a0; a1; a2; a3] ++ l) end.
  rewrite fresh_read; [|reflexivity|discriminate]. cbn [then_].
  rewrite header_value. cbn [then_].
  match goal with |- context [mkBufio (?a0 :: ?a1 :: ?a2 :: ?a3 :: ?a4 :: ?a5 :: ?a6 :: ?a7 :: ?l) _ _] =>
    change (a0 :: a1 :: a2 :: a3 :: a4 :: a5 :: a6 :: a7 :: l) with ([a0; a1; a2; a3; a4; a5; a6; a7] ++ l); set (h := [a0; a1; a2; a3; a4; a5; a6; a7]) end.
  rewrite (buffered_read 8 h); [|reflexivity|discriminate]. cbn [then_].
  unfold parseFormat1HeaderBytes_full. change (len h <? Format1HeaderSize) with false. cbv iota.
  match goal with |- context [silent (parseFormat1HeaderBytes ?m h)] => destruct (parseFormat1HeaderBytes m h) as [m'| |] eqn:EM end; [|discriminate EM|discriminate EM].
  assert (EP : m_ep m' = repeat NewPProp (Z.to_nat opc)).
  { unfold parseFormat1HeaderBytes, h in EM. cbn in EM. injection EM as <-. cbn [SetOPC SetESV Protocol.with_props m_ep]. f_equal. f_equal.
    change 255 with (Z.ones 8). rewrite Z.land_ones by lia. unfold u8. change (2 ^ 8) with 256. rewrite Z.mod_mod, Z.mod_small by lia. reflexivity. }
  cbn [silent then_]. rewrite EP. rewrite (read_cut ps 0 _ cut n HP HC); [reflexivity|]. rewrite repeat_length. lia.
Qed.

Definition C109_stream_claim : Prop := forall tid seoj deoj esv opc ps cut n arrived said e,
  0 <= opc < 256 -> Forall prop_in_limits ps -> Z.of_nat (length ps) < opc -> cut_property cut n -> 0 <= n < 256 ->
  NewMessageWithReader_full bufio_Read (NewBufio [header_of tid seoj deoj esv opc ++ flat_map wire_prop ps ++ cut]) = Fails e ->
  (cut = [hd 0 cut] /\ arrived = 1 \/ arrived = Z.of_nat (length cut) - 2) -> decimal arrived said ->
  exists waited, Error e = ("invalid: message length : " ++ said ++ " < " ++ waited)%string.

(** One byte of the first property came, and the text says none. *)
Theorem C109_stream_refuted : ~ C109_stream_claim.
Proof.
  intros H. specialize (H 1 0x05FF01 0x0EF001 0x62 1 [] [0x80] 2 1 "1"%string).
  assert (D : decimal 1 "1") by (apply decimal_one; [lia|reflexivity]).
  assert (C : cut_property [0x80] 2) by (left; exists 0x80; split; reflexivity).
  specialize (H (errInvalidMessageSize 0 2) ltac:(lia) ltac:(constructor) ltac:(cbn; lia) C ltac:(lia) eq_refl (or_introl (conj eq_refl eq_refl)) D).
  destruct H as [w H]. discriminate H.
Qed.

(** ** Packages *)

Definition C109_packages_claim : Prop := forall codes e, NewObjectCodeFromBytes_full codes = Fails e -> Is e EchonetInvalid = true.

(** The package echonet has an error variable for invalid values, but its function
    NewObjectCodeFromBytes, and the messages a caller gets from it, return that of the
    package protocol, which is another with the same text. *)
Theorem C109_packages_refuted :
  ~ C109_packages_claim /\
  (forall codes e, NewObjectCodeFromBytes_full codes = Fails e -> length codes <> 3%nat /\ only ProtocolInvalid e /\
     exists t, Error e = (variable_text EchonetInvalid ++ t)%string) /\
  (forall d e, AsByte_full ProtocolNoData ProtocolInvalid d = Fails e -> Is e EchonetNoData = false /\ Is e EchonetInvalid = false).
Proof.
  assert (A : forall codes e, NewObjectCodeFromBytes_full codes = Fails e -> length codes <> 3%nat /\ only ProtocolInvalid e /\
     exists t, Error e = (variable_text EchonetInvalid ++ t)%string).
  { intros codes e. unfold NewObjectCodeFromBytes_full, len. destruct (Z.eqb_spec (Z.of_nat (length codes)) 3) as [E|E]; cbn [negb]; [discriminate|].
    intros [= <-]. split; [lia|]. split; [apply only_wrap|]. eexists. reflexivity. }
  split.
  { intros H. specialize (H [] _ eq_refl). discriminate H. }
  split; [exact A|]. intros d e HE. destruct d as [|b [|b' d]]; cbn in HE; try discriminate HE; injection HE as <-; split; reflexivity.
Qed.

(** The errors of the package transport are a third of that text; their texts tell them apart. *)
Theorem C109_transport :
  let all := [errSocketClosed; errTCPSocketDisabled; errAvailableAddressNotFound; errAvailableInterfaceFound; errUnicastServerNotRunning] in
  Forall (only TransportInvalid) all /\ NoDup (map Error all) /\
  Forall (fun e => exists t, Error e = (variable_text EchonetInvalid ++ ": " ++ t)%string) all.
Proof.
  cbv zeta. split; [repeat constructor; apply only_wrap|]. split.
  - cbn. repeat constructor; cbn; intuition discriminate.
  - repeat constructor; eexists; reflexivity.
Qed.

(** ** Nodes *)

(** A request without answer: the error is the timeout, and the text has the request. *)
Theorem C109_timeout : forall m c, represents m c -> in_limits c ->
  exists e, PostMessage_timeout m = Value e /\ only EchonetTimeout e /\ Error e = ("request timeout (" ++ hex_text (wire c) ++ ")")%string.
Proof.
  intros m c HR HL. unfold PostMessage_timeout. rewrite (represented_text m c HR HL).
  exists (errNodeRequestTimeout (hex_text (wire c))). split; [reflexivity|]. split; [apply only_wrap|reflexivity].
Qed.

(** A node that does not run announces nothing. *)
Theorem C109_stopped : forall nd name, 
  (AnnounceMessage_error nd name = None <-> n_running nd = true) /\
  (forall e, AnnounceMessage_error nd name = Some e -> only EchonetInvalid e /\ Error e = ("invalid: node (" ++ name ++ ") is not running ")%string) /\
  (forall msg, option_map kind_of (AnnounceMessage_error nd name) = snd (AnnounceMessage nd msg)).
Proof.
  intros nd name. unfold AnnounceMessage_error, AnnounceMessage. destruct (n_running nd); cbn [negb].
  - split; [split; reflexivity|]. split; [discriminate|]. intros msg. destruct (NextTID nd) as [nd' tid]. reflexivity.
  - split; [split; discriminate|]. split; [|reflexivity]. intros e [= <-]. split; [apply only_wrap|reflexivity].
Qed.

Example C109_example :
  Error (errObjectNotFound 0x029001) = "not found: object (303239303031)"%string /\
  Error (errPropertyNotFound 0x80) = "not found: property (80)"%string /\
  (exists e, NewMessageWithBytes_full [0x10; 0x81; 0; 1; 5] = Fails e /\ Error e = "invalid: message length : 5 < 12"%string) /\
  (exists e, NewMessageWithReader_full bufio_Read (NewBufio [header_of 1 0x05FF01 0x0EF001 0x62 2 ++ [0x80; 0; 0x81; 10; 1; 2; 3]]) = Fails e /\
     Error e = "invalid: message length : 1 < 10"%string).
Proof. split; [vm_compute; reflexivity|]. split; [vm_compute; reflexivity|]. split; eexists; (split; vm_compute; reflexivity). Qed.

Print Assumptions C109_agree.
Print Assumptions C109_values.
Print Assumptions C109_properties.
Print Assumptions C109_property_told.
Print Assumptions C109_maps.
Print Assumptions C109_objects.
Print Assumptions C109_object_told.
Print Assumptions C109_digits_refuted.
Print Assumptions C109_device.
Print Assumptions C109_message.
Print Assumptions C109_stream.
Print Assumptions C109_stream_refuted.
Print Assumptions C109_packages_refuted.
Print Assumptions C109_transport.
Print Assumptions C109_version.
Print Assumptions C109_timeout.
Print Assumptions C109_stopped.
