(** Theorems about the output formats (C70) and the detailed scan (C71). *)

From Coq Require Import String Ascii ZifyBool ZifyNat.
From Verif Require Import Go GoFacts Encoding EncodingFacts Protocol Parser MessageFacts ParserFacts
  ProtocolFacts StdDB Property PropertyFacts Object ObjectFacts Spec Node NodeFacts Handler HandlerFacts
  Remote RemoteFacts Cmd CmdFacts CmdTable.
From Verif Require PropsRemote.
From Verif Require Import PropsCmd PropsScan.
Local Open Scope Z_scope.
Local Open Scope list_scope.

(** ** C70 *)

(** The name of a format, and a word that in_letters it in capitals, small letters or
    any mixture. *)
Definition format_name (f : format) : string :=
  match f with FormatTable => "table" | FormatJSON => "json" | FormatCSV => "csv" end%string.
Fixpoint in_letters (word name : string) : Prop :=
  match word, name with
  | EmptyString, EmptyString => True
  | String c w, String d n => (c = d \/ nat_of_ascii c + 32 = nat_of_ascii d)%nat /\ in_letters w n
  | _, _ => False
  end.
(** Blank characters: space, tab, newline, vertical tab, form feed, return. *)
Fixpoint blank (s : string) : Prop :=
  match s with
  | EmptyString => True
  | String c s => In (nat_of_ascii c) [32; 9; 10; 11; 12; 13]%nat /\ blank s
  end.

Lemma code_nat c : char_code c = Z.of_nat (nat_of_ascii c).
Proof. unfold char_code, nat_of_ascii. lia. Qed.

Lemma space_iff c : is_space c = true <-> In (nat_of_ascii c) [32; 9; 10; 11; 12; 13]%nat.
Proof. unfold is_space. rewrite code_nat. cbn [In]. lia. Qed.

Lemma app_nil_s s : (s ++ "")%string = s.
Proof. induction s as [|c s IH]; [reflexivity|]. cbn. rewrite IH. reflexivity. Qed.

Lemma app_assoc_s a b c : ((a ++ b) ++ c)%string = (a ++ (b ++ c))%string.
Proof. induction a as [|x a IH]; [reflexivity|]. cbn. rewrite IH. reflexivity. Qed.

Lemma trim_left_spec s : exists pre, s = (pre ++ trim_left s)%string /\ blank pre.
Proof.
  induction s as [|c s (pre & E & B)]; [exists ""%string; split; [reflexivity|exact I]|]. cbn [trim_left].
  destruct (is_space c) eqn:S.
  - exists (String c pre). split; [cbn; rewrite <- E; reflexivity|]. split; [apply space_iff, S|exact B].
  - exists ""%string. split; [reflexivity|exact I].
Qed.

Lemma trim_right_spec s : exists post, s = (trim_right s ++ post)%string /\ blank post.
Proof.
  induction s as [|c s (post & E & B)]; [exists ""%string; split; [reflexivity|exact I]|]. cbn [trim_right].
  destruct (trim_right s) as [|d t] eqn:T.
  - cbn in E. destruct (is_space c) eqn:S.
    + exists (String c s). split; [reflexivity|]. rewrite E. split; [apply space_iff, S|exact B].
    + exists s. split; [reflexivity|]. rewrite E. exact B.
  - exists post. split; [cbn in E |- *; rewrite <- E; reflexivity|exact B].
Qed.

Lemma trim_left_blank pre s : blank pre -> trim_left (pre ++ s) = trim_left s.
Proof.
  induction pre as [|c pre IH]; [reflexivity|]. intros [H B]. cbn. apply space_iff in H. rewrite H. auto.
Qed.

Lemma trim_right_all post : blank post -> trim_right post = ""%string.
Proof.
  induction post as [|c post IH]; [reflexivity|]. intros [H B]. cbn. rewrite (IH B). apply space_iff in H. rewrite H. reflexivity.
Qed.

Lemma trim_right_blank post : blank post -> forall s, trim_right (s ++ post) = trim_right s.
Proof.
  intros B. induction s as [|c s IH]; [apply trim_right_all, B|]. cbn. rewrite IH. reflexivity.
Qed.

(** A word without blanks stays. *)
Fixpoint no_blank (s : string) : Prop :=
  match s with EmptyString => True | String c s => is_space c = false /\ no_blank s end.

Lemma trim_right_word s : no_blank s -> trim_right s = s.
Proof.
  induction s as [|c s IH]; [reflexivity|]. intros [H B]. cbn. rewrite (IH B). destruct s; [rewrite H|]; reflexivity.
Qed.

Lemma trim_left_word s t : s <> ""%string -> no_blank s -> trim_left (s ++ t) = (s ++ t)%string.
Proof. destruct s as [|c s]; [congruence|]. intros _ [H _]. cbn. rewrite H. reflexivity. Qed.

(** Letters of the names are small. *)
Fixpoint small (s : string) : Prop :=
  match s with EmptyString => True | String c s => (97 <= nat_of_ascii c <= 122)%nat /\ small s end.

Lemma lower_letters c d : (97 <= nat_of_ascii d <= 122)%nat ->
  lower_char c = d <-> (c = d \/ nat_of_ascii c + 32 = nat_of_ascii d)%nat.
Proof.
  intros HD. unfold lower_char. destruct ((65 <=? char_code c) && (char_code c <=? 90)) eqn:E; rewrite code_nat in *.
  - assert (X : char_of (Z.of_nat (nat_of_ascii c) + 32) = ascii_of_nat (nat_of_ascii c + 32)).
    { unfold char_of, ascii_of_nat. f_equal. lia. }
    rewrite X. split.
    + intros <-. right. rewrite nat_ascii_embedding by lia. reflexivity.
    + intros [<-|H]; [lia|]. rewrite H. apply ascii_nat_embedding.
  - split; [intros <-; left; reflexivity|]. intros [<-|H]; [reflexivity|]. lia.
Qed.

Lemma ToLower_letters name : small name -> forall w, ToLower w = name <-> in_letters w name.
Proof.
  induction name as [|d name IH]; intros HS w.
  - destruct w as [|c w]; cbn; [tauto|split; [discriminate|tauto]].
  - destruct HS as [H1 H2]. destruct w as [|c w]; cbn [ToLower in_letters]; [split; [discriminate|tauto]|].
    rewrite <- (IH H2 w), <- (lower_letters c d H1). split; [intros H; injection H; auto|intros [-> ->]; reflexivity].
Qed.

Lemma letters_word name : small name -> forall w, in_letters w name -> no_blank w.
Proof.
  induction name as [|d name IH]; intros HS w.
  - destruct w; cbn; tauto.
  - destruct HS as [H1 H2]. destruct w as [|c w]; cbn [in_letters no_blank]; [tauto|]. intros [HC HW].
    split; [|exact (IH H2 w HW)]. unfold is_space. rewrite code_nat. destruct HC as [<-|HC]; lia.
Qed.

Lemma name_small f : small (format_name f).
Proof. destruct f; cbn; repeat split; repeat constructor. Qed.

Lemma format_eqb s f : NewFormatFromString s = Ok f <-> ToLower (TrimSpace s) = format_name f.
Proof.
  unfold NewFormatFromString. set (t := ToLower (TrimSpace s)). cbv zeta.
  destruct (String.eqb_spec t "table") as [->|N1]; [destruct f; cbn; split; congruence|].
  destruct (String.eqb_spec t "json") as [->|N2]; [destruct f; cbn; split; congruence|].
  destruct (String.eqb_spec t "csv") as [->|N3]; [destruct f; cbn; split; congruence|].
  destruct f; cbn [format_name]; split; try discriminate; intros H; contradiction.
Qed.

(** A text is taken for a format exactly when it in_letters the name of the format,
    with any blanks around it. *)
Theorem C70_accepted : forall s f,
  NewFormatFromString s = Ok f <->
  exists pre word post, s = (pre ++ word ++ post)%string /\ blank pre /\ blank post /\ in_letters word (format_name f).
Proof.
  intros s f. rewrite format_eqb, (ToLower_letters _ (name_small f)). unfold TrimSpace. split.
  - intros H. destruct (trim_left_spec s) as (pre & E1 & B1). destruct (trim_right_spec (trim_left s)) as (post & E2 & B2).
    exists pre, (trim_right (trim_left s)), post. rewrite <- E2. auto.
  - intros (pre & word & post & -> & B1 & B2 & H). rewrite trim_left_blank by exact B1.
    pose proof (letters_word _ (name_small f) word H) as HW.
    rewrite trim_left_word; [|intros ->; destruct f; exact H|exact HW].
    rewrite (trim_right_blank post B2), (trim_right_word word HW). exact H.
Qed.

(** Every other text is refused, and a format is named as it is accepted. *)
Theorem C70_refused : forall s, (forall f, NewFormatFromString s <> Ok f) -> NewFormatFromString s = Err ErrInvalid.
Proof.
  intros s H. unfold NewFormatFromString in *. cbv zeta in *.
  destruct (String.eqb _ "table"); [destruct (H FormatTable eq_refl)|].
  destruct (String.eqb _ "json"); [destruct (H FormatJSON eq_refl)|].
  destruct (String.eqb _ "csv"); [destruct (H FormatCSV eq_refl)|]. reflexivity.
Qed.

Theorem C70_named : forall f, NewFormatFromString (Format_String f) = Ok f.
Proof. destruct f; reflexivity. Qed.

Example C70_example :
  map NewFormatFromString ["json"; " CSV"; "Table "; "js on"; ""; "xml"]%string =
  [Ok FormatJSON; Ok FormatCSV; Ok FormatTable; Err ErrInvalid; Err ErrInvalid; Err ErrInvalid].
Proof. vm_compute. reflexivity. Qed.

(** ** C71 *)

(** The text of a byte string: two of these digits for each byte. *)
Definition hex_chars : list ascii := list_ascii_of_string "0123456789abcdef".
Fixpoint hex_text (l : list Z) : string :=
  match l with
  | [] => EmptyString
  | b :: l => String (nth (Z.to_nat (b / 16)) hex_chars Ascii.zero)
                (String (nth (Z.to_nat (b mod 16)) hex_chars Ascii.zero) (hex_text l))
  end.

(** A request to read one property of one object. *)
Definition asks (m : message) (obj code : Z) : Prop :=
  m_esv m = 0x62 /\ DEOJ m = obj /\ OPC m = 1 /\ m_ep m = [mkPProp code []].

(** A letter for each right: capital when required, small when allowed. *)
Definition letter (a : attr) (small capital : ascii) (c : ascii) : Prop :=
  match a with Required => c = capital | Optional => c = small | Prohibited => c = "-"%char end.
Definition rule (p : property) (s : string) : Prop :=
  exists r w a, s = String r (String w (String a EmptyString)) /\
    letter (p_get p) "r" "R" r /\ letter (p_set p) "w" "W" w /\ letter (p_anno p) "a" "A" a.

(** What a row shows of an answer: the value when exactly one property came back,
    the text of the error when none did. *)
Definition shown (answer : message + string) (s : string) : Prop :=
  match answer with
  | inr e => s = e
  | inl res => match m_ep res with [q] => Forall is_byte (pp_data q) -> s = hex_text (pp_data q) | _ => s = ""%string end
  end.
Definition shown_manufacturer (env : scan_env) (answer : message + string) (s : string) : Prop :=
  match answer with
  | inl res =>
      match m_ep res with
      | [q] => match se_manufacture env (ByteToInteger (pp_data q)) with Some name => s = name | None => s = "unknown"%string end
      | _ => s = "unknown"%string
      end
  | inr _ => s = "unknown"%string
  end.

Definition cells (env : scan_env) (t : rnode * object * property) (row : list string) : Prop :=
  let '(nd, o, p) := t in
  exists ad po man oc on pc pn ru data, row = [ad; po; man; oc; on; pc; pn; ru; data] /\
    rule p ru /\
    (exists n m, asks m 0x0EF001 0x8A /\ shown_manufacturer env (se_post env n nd m) man) /\
    (p_get p <> Required -> data = ""%string) /\
    (p_get p = Required -> exists n m, asks m (Code o) (p_code p) /\ shown (se_post env n nd m) data).

(** The properties of the listed nodes, in the order of the rows. *)
Definition all_properties (nodes : list rnode) : list (rnode * object * property) :=
  flat_map (fun nd => flat_map (fun o => map (fun p => (nd, o, p)) (Properties (o_props o))) (rn_devices nd ++ rn_profiles nd)) nodes.

Lemma read_asks obj code : 0 <= obj < 2 ^ 24 -> asks (read_message obj code) obj code.
Proof.
  intros H. unfold asks, read_message. split; [reflexivity|]. split; [|split; reflexivity].
  change (DEOJ (AddProperties (SetDEOJ (SetESV NewMessage ESVReadRequest) obj) [mkPProp code []]))
    with (ByteToInteger (IntegerToByte obj 3)).
  rewrite IntegerToByte_3 by assumption. unfold be3. rewrite ByteToInteger_3; unfold is_byte; lia.
Qed.

Lemma hex_nth d : 0 <= d < 16 -> nth (Z.to_nat d) hex_chars Ascii.zero = lower_digit d.
Proof.
  intros H.
  assert (X : forallb (fun k => Ascii.eqb (nth k hex_chars Ascii.zero) (lower_digit (Z.of_nat k))) (seq 0 16) = true) by (vm_compute; reflexivity).
  rewrite forallb_forall in X. specialize (X (Z.to_nat d)). rewrite Z2Nat.id in X by lia.
  apply Ascii.eqb_eq, X, in_seq. lia.
Qed.

Lemma hex_encode l : Forall is_byte l -> EncodeToString l = hex_text l.
Proof.
  induction 1 as [|b l H _ IH]; [reflexivity|]. unfold EncodeToString in *. cbn [flat_map app text hex_text].
  unfold is_byte in H. rewrite !hex_nth by lia. rewrite IH. reflexivity.
Qed.

Lemma rule_spec p : rule p (rule_text p).
Proof.
  unfold rule, rule_text, attr_text. destruct (p_get p), (p_set p), (p_anno p); cbn; eexists; eexists; eexists; (split; [reflexivity|]); auto.
Qed.

Definition good (o : object) : Prop := 0 <= Code o < 2 ^ 24.

Lemma detail_rows env man nd o (man_ok : exists n m, asks m 0x0EF001 0x8A /\ shown_manufacturer env (se_post env n nd m) man) :
  good o -> forall ps n, Forall2 (cells env) (map (fun p => (nd, o, p)) ps) (snd (property_rows env n man nd o ps)).
Proof.
  intros HG. induction ps as [|p ps IH]; intros n; cbn [property_rows map]; [constructor|].
  destruct (property_data env n nd o p) as [n1 data] eqn:ED. specialize (IH n1).
  destruct (property_rows env n1 man nd o ps) as [n2 rows]. cbn [snd] in *. constructor; [|exact IH].
  unfold cells, object_cells. cbn [app].
  do 9 eexists. split; [reflexivity|]. split; [apply rule_spec|]. split; [exact man_ok|].
  unfold property_data, IsReadRequired in ED. split.
  - intros HN. destruct (p_get p); cbn [attr_IsRequired] in ED; try (injection ED as _ <-; reflexivity). congruence.
  - intros HR. rewrite HR in ED. cbn [attr_IsRequired] in ED. injection ED as _ <-.
    exists n, (read_message (Code o) (p_code p)). split; [apply read_asks, HG|].
    destruct (se_post env n nd (read_message (Code o) (p_code p))) as [res|e]; [|reflexivity]. cbn [shown].
    destruct (m_ep res) as [|q [|]]; [reflexivity| |reflexivity]. intros HB. apply hex_encode, HB.
Qed.

Lemma Forall2_app_cells {A B} (R : A -> B -> Prop) l1 l2 r1 r2 : Forall2 R l1 r1 -> Forall2 R l2 r2 -> Forall2 R (l1 ++ l2) (r1 ++ r2).
Proof. intros H1 H2. apply Forall2_app; assumption. Qed.

Lemma detail_objects env man nd (man_ok : exists n m, asks m 0x0EF001 0x8A /\ shown_manufacturer env (se_post env n nd m) man) os :
  Forall good os -> forall n,
  Forall2 (cells env) (flat_map (fun o => map (fun p => (nd, o, p)) (Properties (o_props o))) os) (snd (object_rows env true n man nd os)).
Proof.
  induction 1 as [|o os HG _ IH]; intros n; [constructor|]. cbn [object_rows flat_map].
  pose proof (detail_rows env man nd o man_ok HG (Properties (o_props o)) n) as HP.
  destruct (property_rows env n man nd o (Properties (o_props o))) as [n1 mine]. cbn [snd] in HP.
  specialize (IH n1). destruct (object_rows env true n1 man nd os) as [n2 rows]. cbn [snd] in *.
  apply Forall2_app; assumption.
Qed.

(** Every row of a detailed scan: the rights of the property, the manufacturer the
    node profile answers, and the answer to a read request for exactly this
    property, which is asked for exactly when reading is mandatory. *)
Theorem C71_details : forall env ct address,
  Forall (fun nd => Forall (fun o => 0 <= Code o < 2 ^ 24) (rn_devices nd ++ rn_profiles nd)) (ct_found ct) ->
  Forall2 (cells env) (all_properties (listed env address ct)) (t_rows (DiscoveredNodeTable env ct true address)).
Proof.
  intros env ct address HG. unfold DiscoveredNodeTable, listed. cbn [t_rows]. generalize 0%nat as n.
  induction HG as [|nd nodes H _ IH]; intros n.
  { destruct address; constructor. }
  cbn [node_rows]. cbv zeta.
  assert (MO : exists n' m, asks m 0x0EF001 0x8A /\ shown_manufacturer env (se_post env n' nd m) (manufacture_name env n nd)).
  { exists n, (read_message 0x0EF001 0x8A). split; [apply read_asks; lia|]. unfold manufacture_name, shown_manufacturer, unknown.
    destruct (se_post env n nd (read_message 0x0EF001 0x8A)) as [res|e]; [|reflexivity].
    destruct (m_ep res) as [|q [|]]; try reflexivity. destruct (se_manufacture env (ByteToInteger (pp_data q))); reflexivity. }
  pose proof (detail_objects env (manufacture_name env n nd) nd MO _ H (S n)) as HO.
  destruct (object_rows env true (S n) (manufacture_name env n nd) nd (rn_devices nd ++ rn_profiles nd)) as [n' mine]. cbn [snd] in HO.
  assert (HX : Forall2 (cells env)
    (all_properties (nd :: match address with EmptyString => nodes
       | _ => filter (fun nd => String.eqb (se_address env (a_ip (rn_addr nd))) address) nodes end))
    (mine ++ node_rows env true address n' nodes)).
  { unfold all_properties in *. cbn [flat_map]. apply Forall2_app; [exact HO|apply IH]. }
  destruct address as [|c address]; [exact HX|]. cbn [is_blank negb andb filter].
  destruct (String.eqb (se_address env (a_ip (rn_addr nd))) (String c address)); cbn [negb]; [exact HX|apply IH].
Qed.

(** The letters tell the rights apart. *)
Theorem C71_rule_determined : forall p q s, rule p s -> rule q s ->
  p_get p = p_get q /\ p_set p = p_set q /\ p_anno p = p_anno q.
Proof.
  intros p q s (r & w & a & -> & A1 & A2 & A3) (r' & w' & a' & E & B1 & B2 & B3). injection E as <- <- <-.
  unfold letter in *.
  destruct (p_get p), (p_get q), (p_set p), (p_set q), (p_anno p), (p_anno q); subst; try discriminate; auto.
Qed.

(** The value shown can be given to the set command again. *)
Theorem C71_readback : forall l, Forall is_byte l -> hexStringToByte (hex_text l) = Ok l.
Proof.
  intros l H.
  assert (X : forall l, Forall is_byte l -> remove_spaces (ToLower (hex_text l)) = hex_text l /\
    Z.of_nat (String.length (hex_text l)) = 2 * len l /\ DecodeString (hex_text l) = Ok l).
  { clear. induction 1 as [|b l H _ (I1 & I2 & I3)]; [auto|]. unfold is_byte in H. cbn [hex_text].
    assert (D : forall d, 0 <= d < 16 -> lower_char (nth (Z.to_nat d) hex_chars Ascii.zero) = nth (Z.to_nat d) hex_chars Ascii.zero /\
      (char_code (nth (Z.to_nat d) hex_chars Ascii.zero) =? 32) = false /\ from_hex (nth (Z.to_nat d) hex_chars Ascii.zero) = Some d).
    { intros d Hd.
      assert (Y : forallb (fun k => let c := nth k hex_chars Ascii.zero in Ascii.eqb (lower_char c) c && negb (char_code c =? 32) &&
         match from_hex c with Some x => x =? Z.of_nat k | None => false end) (seq 0 16) = true) by (vm_compute; reflexivity).
      rewrite forallb_forall in Y. specialize (Y (Z.to_nat d)). cbv zeta in Y. rewrite !andb_true_iff in Y.
      destruct Y as ((Y1 & Y2) & Y3); [apply in_seq; lia|].
      split; [apply Ascii.eqb_eq, Y1|]. split; [destruct (char_code _ =? 32); [discriminate Y2|reflexivity]|].
      destruct (from_hex _) as [x|]; [|discriminate Y3]. f_equal. lia. }
    destruct (D (b / 16)) as (A1 & A2 & A3); [lia|]. destruct (D (b mod 16)) as (B1 & B2 & B3); [lia|].
    cbn [ToLower remove_spaces]. rewrite A1, B1, A2, B2, I1. split; [reflexivity|]. split.
    - cbn [String.length]. rewrite len_cons. lia.
    - cbn [DecodeString]. rewrite A3, B3, I3. cbn [bind]. f_equal. f_equal. lia. }
  destruct (X l H) as (E1 & E2 & E3). unfold hexStringToByte. rewrite E1, E2.
  rewrite Z.mul_comm, Z.mod_mul by lia. exact E3.
Qed.

(** The first rows of a scan of a node with one light that answers 0x30. *)
Definition ex_answer : message := AddProperties NewMessage [mkPProp 0x80 [0x30; 0x0F]].
Example C71_example :
  map (fun row => skipn 5 row) (firstn 3 (t_rows (DiscoveredNodeTable
    (mkEnv (fun _ => "a"%string) (fun _ => "b"%string) (fun _ _ => "c"%string) (fun _ => None)
       (fun n _ _ => if Nat.eqb n 1 then inl ex_answer else inr "timeout"%string)) ex_found true ""))) =
  [["80"; "c"; "RWA"; "300f"]; ["81"; "c"; "RWA"; "timeout"]; ["82"; "c"; "R-a"; "timeout"]]%string.
Proof. vm_compute. reflexivity. Qed.

Print Assumptions C70_accepted.
Print Assumptions C70_refused.
Print Assumptions C70_named.
Print Assumptions C71_details.
Print Assumptions C71_rule_determined.
Print Assumptions C71_readback.
