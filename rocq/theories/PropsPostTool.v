(** C96: what uechopost prints. *)

From Coq Require Import String ZifyBool ZifyNat.
From Verif Require Import Go GoFacts Encoding EncodingFacts Protocol Parser MessageFacts ParserFacts
  ProtocolFacts Reader StdDB Property PropertyFacts Object ObjectFacts Spec Node NodeFacts
  Handler HandlerFacts PropsHandler Remote RemoteFacts PropsRemote Transport TransportFacts Exchange ExchangeFacts
  PropsExchange PropsSearch Lan LanFacts PropsLan Cmd CmdFacts LanScan PropsLanScan Programs PropsPrograms SearchTool PostTool.
From Verif Require PropsSearchTool.
Local Open Scope Z_scope.
Local Open Scope list_scope.

(** ** Vocabulary *)

(** The text of a property: two digits for the code, two for each byte of data; a
    code of one digit has a blank before it. *)
Definition word (p : pprop) (w : string) : Prop :=
  (16 <= pp_code p -> written w (nibbles (pp_code p :: pp_data p))) /\
  (pp_code p < 16 -> exists w', w = String (char_of 32) w' /\ written w' (pp_code p :: nibbles (pp_data p))).

Definition blank : string := String (char_of 32) EmptyString.

Definition spaced (ws : list string) : string := fold_right (fun w l => w ++ blank ++ l)%string EmptyString ws.

(** A line: the direction, the address in 15 columns, the object, the service and
    the properties.  Of the six digits of the object and the two of the service it
    has the ASCII codes. *)
Definition line_of (prefix addr : string) (obj esv : Z) (ps : list pprop) (o12 e4 : string) (ws : list string) (line : string) : Prop :=
  exists a15 o6 e2, PropsSearchTool.wide 15 addr a15 /\
    (numeral o6 obj /\ String.length o6 = 6%nat /\ PropsSearchTool.spelled o6 o12) /\
    (numeral e2 esv /\ String.length e2 = 2%nat /\ PropsSearchTool.spelled e2 e4) /\ Forall2 word ps ws /\
    line = (prefix ++ blank ++ a15 ++ blank ++ ":" ++ blank ++ o12 ++ blank ++ e4 ++ blank ++ spaced ws)%string.

Definition shows (prefix addr : string) (obj esv : Z) (ps : list pprop) (line : string) : Prop :=
  exists o12 e4 ws, line_of prefix addr obj esv ps o12 e4 ws line.

(** ** Lemmas: the text *)

Lemma written_app s1 d1 s2 d2 : written s1 d1 -> written s2 d2 -> written (s1 ++ s2) (d1 ++ d2).
Proof. induction 1; cbn; [auto|]. intros H2. constructor; auto. Qed.

Lemma written_upper ds : Forall (fun d => 0 <= d < 16) ds -> written (text (map upper_digit ds)) ds.
Proof.
  induction 1 as [|d ds Hd _ IH]; cbn [map text]; constructor; [|exact IH].
  apply plain_digit. apply digit_value, Hd.
Qed.

Lemma written_lower ds : Forall (fun d => 0 <= d < 16) ds -> written (text (map lower_digit ds)) ds.
Proof.
  induction 1 as [|d ds Hd _ IH]; cbn [map text]; constructor; [|exact IH].
  apply plain_digit. apply digit_value, Hd.
Qed.

Lemma nibbles_range l : is_bytes l -> Forall (fun d => 0 <= d < 16) (nibbles l).
Proof.
  induction 1 as [|b l Hb _ IH]; [constructor|]. unfold nibbles in *. cbn [flat_map app]. unfold is_byte in Hb.
  constructor; [|constructor; [|exact IH]]; lia.
Qed.

Lemma written_encode l : is_bytes l -> written (EncodeToString l) (nibbles l).
Proof.
  intros H. unfold EncodeToString.
  replace (flat_map (fun b => [lower_digit (b / 16); lower_digit (b mod 16)]) l) with (map lower_digit (nibbles l)).
  - apply written_lower, nibbles_range, H.
  - unfold nibbles. clear H. induction l as [|b l IH]; [reflexivity|]. cbn [flat_map app map]. rewrite IH. reflexivity.
Qed.

Lemma number_app base l d : number base (l ++ [d]) = base * number base l + d.
Proof. unfold number. rewrite fold_left_app. reflexivity. Qed.

Lemma number_rev base l : number base (rev l) = undigits base l.
Proof. induction l as [|d l IH]; [reflexivity|]. cbn [rev undigits]. rewrite number_app, IH. lia. Qed.

Lemma number_padded base v k : 2 <= base -> printable v -> number base (repeat 0 k ++ rev (digits 64 base v)) = v.
Proof.
  intros HB Hv. rewrite <- (rev_repeat 0 k), <- rev_app_distr, number_rev, undigits_zeros.
  apply digits_value; [lia|]. apply printable_pow; assumption.
Qed.

Lemma digits_nonempty fuel base v : digits (S fuel) base v <> [].
Proof. cbn [digits]. destruct (v <? base); discriminate. Qed.

Lemma digits_short base w : 1 < base -> forall fuel v, (w <> 0)%nat -> 0 <= v < base ^ Z.of_nat w ->
  (length (digits fuel base v) <= w)%nat.
Proof.
  intros HB. induction w as [|w IH]; intros fuel v HW Hv; [congruence|].
  destruct fuel as [|fuel]; cbn [digits]; [cbn; lia|].
  destruct (Z.ltb_spec v base); [cbn; lia|]. cbn [length].
  rewrite Nat2Z.inj_succ, Z.pow_succ_r in Hv by lia.
  destruct (Nat.eq_dec w 0) as [->|D]; [cbn in Hv; lia|].
  assert (0 <= v / base < base ^ Z.of_nat w).
  { split; [apply Z.div_pos; lia|]. apply Z.div_lt_upper_bound; lia. }
  specialize (IH fuel (v / base) D H0). lia.
Qed.

Lemma fmt_X_numeral w v : printable v -> numeral (fmt_X w v) v.
Proof.
  intros Hv. unfold fmt_X. cbv zeta. exists (repeat 0 (w - length (rev (digits 64 16 v))) ++ rev (digits 64 16 v)). split; [|split].
  - intros E. apply app_eq_nil in E. destruct E as (_ & E). apply (f_equal (@rev Z)) in E. rewrite rev_involutive in E.
    exact (digits_nonempty 63 16 v E).
  - apply written_upper, digits_ok; [lia|exact Hv].
  - symmetry. apply number_padded; [lia|exact Hv].
Qed.

Lemma fmt_X_length w v : (w <> 0)%nat -> 0 <= v < 16 ^ Z.of_nat w -> String.length (fmt_X w v) = w.
Proof.
  intros HW Hv. unfold fmt_X. cbv zeta. rewrite text_length, map_length, app_length, repeat_length, rev_length.
  pose proof (digits_short 16 w ltac:(lia) 64 v HW Hv). lia.
Qed.

Lemma property_word_spec p : is_byte (pp_code p) -> is_bytes (pp_data p) ->
  exists w, property_word p = (w ++ blank)%string /\ word p w.
Proof.
  intros Hc Hd. unfold is_byte in Hc. unfold property_word.
  exists (fmt_2X (pp_code p) ++ EncodeToString (pp_data p))%string. split.
  { generalize (fmt_2X (pp_code p)) (EncodeToString (pp_data p)). intros a b. induction a as [|c a IH]; cbn; [reflexivity|].
    rewrite IH. reflexivity. }
  pose proof (written_encode _ Hd) as HW. unfold fmt_2X, fmt_X. cbv zeta.
  change (0 - length (rev (digits 64 16 (pp_code p))))%nat with 0%nat. cbn [repeat app].
  change 64%nat with (S (S 62)). cbn [digits]. split; intros H.
  - destruct (Z.ltb_spec (pp_code p) 16); [lia|].
    assert (0 <= pp_code p / 16 < 16) by lia. destruct (Z.ltb_spec (pp_code p / 16) 16); [|lia].
    cbn [rev app map text String.length spaces Nat.sub String.append]. change (nibbles (pp_code p :: pp_data p)) with (pp_code p / 16 :: pp_code p mod 16 :: nibbles (pp_data p)).
    constructor; [apply plain_digit, digit_value; lia|]. constructor; [apply plain_digit, digit_value; lia|]. exact HW.
  - destruct (Z.ltb_spec (pp_code p) 16); [|lia].
    cbn [rev app map text String.length spaces Nat.sub String.append]. eexists. split; [reflexivity|].
    constructor; [apply plain_digit, digit_value; lia|]. exact HW.
Qed.

Lemma app_assoc_s a b c : ((a ++ b) ++ c = a ++ (b ++ c))%string.
Proof. induction a as [|x a IH]; cbn; [reflexivity|]. rewrite IH. reflexivity. Qed.

Lemma property_words_spec ps : Forall (fun p => is_byte (pp_code p) /\ is_bytes (pp_data p)) ps ->
  exists ws, Forall2 word ps ws /\ property_words ps = spaced ws.
Proof.
  induction 1 as [|p ps (Hc & Hd) _ IH]; [exists []; split; [constructor|reflexivity]|].
  destruct IH as (ws & F & E). destruct (property_word_spec p Hc Hd) as (w & Ew & Hw).
  exists (w :: ws). split; [constructor; assumption|]. cbn [property_words]. change (spaced (w :: ws)) with (w ++ blank ++ spaced ws)%string. rewrite E, Ew. apply app_assoc_s.
Qed.

Lemma spaces_length n : String.length (spaces n) = n.
Proof. induction n; cbn; auto. Qed.

Lemma spaces_blank n : Forall (fun c => c = 32) (map char_code (list_ascii_of_string (spaces n))).
Proof. induction n as [|n IH]; cbn; constructor; [reflexivity|exact IH]. Qed.

Lemma length_app_s a b : String.length (a ++ b) = (String.length a + String.length b)%nat.
Proof. induction a as [|x a IH]; cbn; [reflexivity|]. rewrite IH. reflexivity. Qed.

Lemma pad_right_wide n s : PropsSearchTool.wide n s (pad_right n s).
Proof.
  unfold pad_right, PropsSearchTool.wide. exists (spaces (n - String.length s)). split; [reflexivity|]. split; [apply spaces_blank|].
  rewrite length_app_s, spaces_length. lia.
Qed.

Lemma output_shows prefix addr obj m : 0 <= obj < 2 ^ 24 -> is_byte (m_esv m) ->
  Forall (fun p => is_byte (pp_code p) /\ is_bytes (pp_data p)) (m_ep m) ->
  shows prefix addr obj (m_esv m) (m_ep m) (outputTransportMessage prefix addr obj m).
Proof.
  intros Ho He Hp. destruct (property_words_spec _ Hp) as (ws & F & E). unfold is_byte in He.
  exists (fmt_X_String (fmt_X 6 obj)), (fmt_X_String (fmt_X 2 (m_esv m))), ws, (pad_right 15 addr), (fmt_X 6 obj), (fmt_X 2 (m_esv m)).
  split; [apply pad_right_wide|]. split; [split; [apply fmt_X_numeral; unfold printable; lia|]|].
  { split; [apply fmt_X_length; [lia|change (16 ^ Z.of_nat 6) with (2 ^ 24); exact Ho]|apply PropsSearchTool.spelled_out]. }
  split; [split; [apply fmt_X_numeral; unfold printable; lia|]|].
  { split; [apply fmt_X_length; [lia|change (16 ^ Z.of_nat 2) with 256; exact He]|apply PropsSearchTool.spelled_out]. }
  split; [exact F|]. unfold outputTransportMessage. rewrite E. reflexivity.
Qed.

(** ** Lemmas: reading a line *)

Definition no_blank (s : string) : Prop := Forall (fun c => c <> char_of 32) (list_ascii_of_string s).

Lemma written_no_blank s ds : written s ds -> no_blank s.
Proof.
  unfold no_blank. induction 1 as [|c v s ds H _ IH]; cbn; constructor; [|exact IH].
  intros ->. apply plain_digit in H. vm_compute in H. discriminate H.
Qed.

Lemma blank_first s : no_blank (String (char_of 32) s) -> False.
Proof. intros H. inversion H as [|? ? X _]. exact (X eq_refl). Qed.

Lemma cut_blank a : forall a' r r', no_blank a -> no_blank a' -> (a ++ blank ++ r = a' ++ blank ++ r')%string -> a = a' /\ r = r'.
Proof.
  unfold no_blank. induction a as [|c a IH]; intros [|c' a'] r r' H H' E.
  - cbn in E. injection E as E. auto.
  - injection E as E _. rewrite <- E in H'. destruct (blank_first _ H').
  - injection E as E _. rewrite E in H. destruct (blank_first _ H).
  - cbn in E. injection E as -> E. cbn in H, H'. inversion H; subst. inversion H'; subst.
    destruct (IH a' r r') as (-> & ->); auto.
Qed.

Lemma blanks_are b : Forall (fun c => c = 32) (map char_code (list_ascii_of_string b)) -> b = spaces (String.length b).
Proof.
  induction b as [|c b IH]; cbn [list_ascii_of_string map]; intros H; [reflexivity|]. inversion H as [|? ? H1 H2]; subst.
  cbn [String.length spaces]. rewrite <- IH by exact H2. f_equal. unfold char_code in H1. unfold char_of.
  rewrite <- (Ascii.ascii_N_embedding c). f_equal. lia.
Qed.

Lemma blanks_swap n r : (spaces n ++ blank ++ r)%string = (blank ++ spaces n ++ r)%string.
Proof. induction n as [|n IH]; cbn; [reflexivity|]. cbn in IH. rewrite IH. reflexivity. Qed.

Lemma word_byte p w : word p w -> 0 <= pp_code p < 256 -> w <> EmptyString.
Proof.
  intros (W1 & W2) H. destruct (Z.ltb_spec (pp_code p) 16) as [L|L].
  - destruct (W2 L) as (w' & -> & _). discriminate.
  - specialize (W1 ltac:(lia)). intros ->. inversion W1.
Qed.

Lemma numeral_fun s v v' : numeral s v -> numeral s v' -> v = v'.
Proof. intros (d & _ & W & ->) (d' & _ & W' & ->). rewrite (written_fun _ _ _ W W'). reflexivity. Qed.

Lemma word_fun p p' w : word p w -> word p' w -> is_bytes (pp_code p :: pp_data p) -> is_bytes (pp_code p' :: pp_data p') -> p = p'.
Proof.
  intros (W1 & W2) (V1 & V2) B B'. destruct p as [c d], p' as [c' d']. cbn [pp_code pp_data] in *.
  destruct (Z.ltb_spec c 16) as [L|L], (Z.ltb_spec c' 16) as [L'|L'].
  - destruct (W2 L) as (w1 & E1 & H1). destruct (V2 L') as (w2 & E2 & H2). assert (w1 = w2) by congruence. subst w2.
    pose proof (written_fun _ _ _ H1 H2) as E. injection E as -> E. apply nibbles_inj in E. subst. reflexivity.
  - destruct (W2 L) as (w1 & E1 & H1). specialize (V1 ltac:(lia)). subst w. apply written_no_blank in V1.
    destruct (blank_first _ V1).
  - destruct (V2 L') as (w1 & E1 & H1). specialize (W1 ltac:(lia)). subst w. apply written_no_blank in W1.
    destruct (blank_first _ W1).
  - specialize (W1 ltac:(lia)). specialize (V1 ltac:(lia)). pose proof (written_fun _ _ _ W1 V1) as E.
    apply nibbles_inj in E. congruence.
Qed.

Lemma words_fun ps : forall ws ps' ws', Forall2 word ps ws -> Forall2 word ps' ws' ->
  Forall (fun p => is_bytes (pp_code p :: pp_data p)) ps -> Forall (fun p => is_bytes (pp_code p :: pp_data p)) ps' ->
  spaced ws = spaced ws' ->
  ps = ps' /\ ws = ws'.
Proof.
  induction ps as [|p ps IH]; intros ws ps' ws' F F' B B' E.
  - inversion F; subst. inversion F' as [|p' w' ? ? W _]; subst; [auto|]. cbn in E. destruct w'; discriminate E.
  - inversion F as [|? w ? ws1 W F1]; subst. inversion F' as [|p' w' ps1 ws1' W' F1']; subst; [cbn in E; destruct w; discriminate E|].
    inversion B as [|? ? Bp B1]; subst. inversion B' as [|? ? Bp' B1']; subst. change (w ++ blank ++ spaced ws1 = w' ++ blank ++ spaced ws1')%string in E.
    assert (K : w = w' /\ spaced ws1 = spaced ws1').
    { destruct W as (A1 & A2), W' as (A1' & A2').
      destruct (Z.ltb_spec (pp_code p) 16) as [L|L], (Z.ltb_spec (pp_code p') 16) as [L'|L'].
      - destruct (A2 L) as (x & -> & Hx). destruct (A2' L') as (x' & -> & Hx'). cbn [String.append] in E. injection E as E. fold (x ++ blank ++ spaced ws1)%string (x' ++ blank ++ spaced ws1')%string in E.
        destruct (cut_blank x x' _ _ (written_no_blank _ _ Hx) (written_no_blank _ _ Hx') E) as (-> & ->). auto.
      - exfalso. destruct (A2 L) as (x & -> & _). specialize (A1' ltac:(lia)). unfold nibbles in A1'. cbn [flat_map app] in A1'.
        inversion A1' as [|? ? ? ? H1 H2]; subst. cbn in E. injection E as E _. rewrite <- E in H1. apply plain_digit in H1. vm_compute in H1. discriminate H1.
      - exfalso. destruct (A2' L') as (x & -> & _). specialize (A1 ltac:(lia)). unfold nibbles in A1. cbn [flat_map app] in A1.
        inversion A1 as [|? ? ? ? H1 H2]; subst. cbn in E. injection E as E _. rewrite E in H1. apply plain_digit in H1. vm_compute in H1. discriminate H1.
      - specialize (A1 ltac:(lia)). specialize (A1' ltac:(lia)).
        destruct (cut_blank w w' _ _ (written_no_blank _ _ A1) (written_no_blank _ _ A1') E) as (-> & ->). auto. }
    destruct K as (-> & K). destruct (IH _ _ _ F1 F1' B1 B1' K) as (-> & ->). rewrite (word_fun _ _ _ W W' Bp Bp'). auto.
Qed.

(** ** Theorems *)

(** Two lines that look alike show the same: the address, the object, the service and
    all properties with their data. *)
Theorem C96_determined : forall prefix addr obj esv ps addr' obj' esv' ps' line,
  no_blank addr -> no_blank addr' ->
  Forall (fun p => is_bytes (pp_code p :: pp_data p)) ps -> Forall (fun p => is_bytes (pp_code p :: pp_data p)) ps' ->
  shows prefix addr obj esv ps line -> shows prefix addr' obj' esv' ps' line ->
  addr = addr' /\ obj = obj' /\ esv = esv' /\ ps = ps'.
Proof.
  intros prefix addr obj esv ps addr' obj' esv' ps' line NA NA' B B'
    (o12 & e4 & ws & a15 & o6 & e2 & A & (O & OL & OS) & (E & EL & ES) & F & L)
    (o12' & e4' & ws' & a15' & o6' & e2' & A' & (O' & OL' & OS') & (E' & EL' & ES') & F' & L').
  rewrite L in L'. clear L line.
  destruct (string_app_inj prefix prefix _ _ eq_refl L') as (_ & L). destruct (string_app_inj blank blank _ _ eq_refl L) as (_ & L1). clear L L'.
  destruct A as (b & -> & Hb & Lb). destruct A' as (b' & -> & Hb' & Lb').
  rewrite (blanks_are b Hb), (blanks_are b' Hb') in L1. rewrite !app_assoc_s, !blanks_swap in L1.
  destruct (cut_blank _ _ _ _ NA NA' L1) as (-> & L2).
  rewrite !length_app_s in Lb, Lb'.
  destruct (string_app_inj (spaces (String.length b)) (spaces (String.length b')) _ _ ltac:(rewrite !spaces_length; lia) L2) as (_ & L3).
  destruct (string_app_inj ":" ":" _ _ eq_refl L3) as (_ & L4). destruct (string_app_inj blank blank _ _ eq_refl L4) as (_ & L5).
  destruct (string_app_inj o12 o12' _ _ ltac:(rewrite (PropsSearchTool.spelled_length _ _ OS), (PropsSearchTool.spelled_length _ _ OS'); congruence) L5) as (-> & L6). destruct (string_app_inj blank blank _ _ eq_refl L6) as (_ & L7).
  destruct (string_app_inj e4 e4' _ _ ltac:(rewrite (PropsSearchTool.spelled_length _ _ ES), (PropsSearchTool.spelled_length _ _ ES'); congruence) L7) as (-> & L8). destruct (string_app_inj blank blank _ _ eq_refl L8) as (_ & L9).
  destruct (words_fun _ _ _ _ F F' B B' L9) as (-> & _).
  rewrite (PropsSearchTool.spelled_inj _ _ OS _ OS') in O. rewrite (PropsSearchTool.spelled_inj _ _ ES _ ES') in E.
  split; [reflexivity|]. split; [exact (numeral_fun _ _ _ O O')|]. split; [exact (numeral_fun _ _ _ E E')|reflexivity].
Qed.

(** The words of the properties of a printed request are arguments for the same
    properties again, if their codes have two digits. *)
Theorem C96_words : forall ct ip obj esv args dst m prefix addr o12 e4 ws line,
  post_request ct ip obj esv args = Ok (dst, m) -> Forall (fun p => 16 <= pp_code p) (m_ep m) ->
  line_of prefix addr (DEOJ m) (m_esv m) (m_ep m) o12 e4 ws line ->
  post_request ct ip obj esv ws = Ok (dst, m).
Proof.
  intros ct ip obj esv args dst m prefix addr o12 e4 ws line R H16 (a15 & o6 & e2 & _ & _ & _ & F & _).
  destruct (C74_content _ _ _ _ _ _ _ R) as (oc & e & ps & N1 & N2 & G & P1 & P2 & P3 & _).
  rewrite P3 in F, H16.
  assert (GW : Forall2 gives ws ps).
  { clear - F H16 G. revert args G. induction F as [|p w ps ws W F IH]; intros args G; [constructor|].
    inversion G as [|a ? args' ? Ga G1]; subst. inversion H16 as [|? ? Hp H1]; subst. constructor; [|eapply IH; eauto].
    destruct Ga as (G2 & G3 & _). split; [exact G2|]. split; [exact G3|]. apply W. exact Hp. }
  assert (PS : post_properties ws = Ok ps) by (apply post_properties_spec; exact GW).
  assert (PS0 : post_properties args = Ok ps) by (apply post_properties_spec; exact G).
  unfold post_request in R |- *. rewrite PS. rewrite PS0 in R. exact R.
Qed.

Lemma number_cons d l : number 16 (d :: l) = d * 16 ^ Z.of_nat (length l) + number 16 l.
Proof.
  unfold number. cbn [fold_left].
  assert (G : forall l a, fold_left (fun a d => 16 * a + d) l a = a * 16 ^ Z.of_nat (length l) + fold_left (fun a d => 16 * a + d) l 0).
  { clear. induction l as [|x l IH]; intros a; cbn [fold_left length]; [cbn; lia|].
    rewrite IH, (IH (16 * 0 + x)), Nat2Z.inj_succ, Z.pow_succ_r by lia. ring. }
  rewrite G. reflexivity.
Qed.

Lemma written_len s ds : written s ds -> length ds = String.length s.
Proof. induction 1; cbn; congruence. Qed.

(** The first digit of a spelled digit is 3, 4 or 6. *)
Lemma spelled_large t u k v : PropsSearchTool.spelled t u -> numeral t k -> numeral u v -> 3 * 16 ^ Z.of_nat (2 * String.length t - 1) <= v.
Proof.
  intros S (ds & D0 & D & _) (es & E0 & E & ->). pose proof (written_len _ _ E) as LE. rewrite (PropsSearchTool.spelled_length _ _ S) in LE.
  inversion S as [|c t' a b u' Ha Hb S']; subst; [inversion D; subst; congruence|].
  inversion D as [|? d ? ds' Hd _]; subst. inversion E as [|? e1 ? es' He Er]; subst. clear D E.
  assert (E3 : 3 <= e1).
  { apply plain_digit in Hd, He. clear - Ha Hd He.
    assert (K : forall c, match from_hex c with None => true | Some _ =>
       match String.get (Z.to_nat (char_code c / 16)) "0123456789ABCDEF" with
       | Some a => match from_hex a with Some e => 3 <=? e | None => true end | None => true end end = true)
      by (intros x; destruct x as [[|] [|] [|] [|] [|] [|] [|] [|]]; vm_compute; reflexivity).
    specialize (K c). rewrite Hd, Ha, He in K. lia. }
  rewrite number_cons. cbn [length] in LE.
  replace (2 * String.length (String c t') - 1)%nat with (length es') by lia.
  assert (N0 : 0 <= number 16 es').
  { apply number_nonneg. clear - Er. induction Er as [|x v s ds [H _] _ IH]; constructor; [lia|exact IH]. }
  assert (0 < 16 ^ Z.of_nat (length es')) by (apply Z.pow_pos_nonneg; lia). nia.
Qed.

(** But the words of the object and of the service are never accepted. *)
Theorem C96_again_refuted : forall prefix addr obj esv ps o12 e4 ws line,
  line_of prefix addr obj esv ps o12 e4 ws line ->
  forall ct ip args dst m x, post_request ct ip o12 x args <> Ok (dst, m) /\ post_request ct ip x e4 args <> Ok (dst, m).
Proof.
  intros prefix addr obj esv ps o12 e4 ws line (a15 & o6 & e2 & _ & (O & OL & OS) & (E & EL & ES) & _) ct ip args dst m x.
  split; intros R; unfold post_request in R; (destruct (LookupNode ct ip); [|discriminate R]).
  - destruct (ParseUint o12 32) as [v| |] eqn:EV; cbn [bind] in R; try discriminate R. apply ParseUint_spec in EV. destruct EV as (EV & LV).
    pose proof (spelled_large _ _ _ _ OS O EV) as B. rewrite OL in B. change (3 * 16 ^ Z.of_nat (2 * 6 - 1)) with (3 * 2 ^ 44) in B. lia.
  - destruct (ParseUint x 32) as [w| |]; cbn [bind] in R; try discriminate R. destruct (rn_LookupObject _ _); [|discriminate R].
    destruct (ParseUint e4 8) as [v| |] eqn:EV; cbn [bind] in R; try discriminate R. apply ParseUint_spec in EV. destruct EV as (EV & LV).
    pose proof (spelled_large _ _ _ _ ES E EV) as B. rewrite EL in B. change (3 * 16 ^ Z.of_nat (2 * 2 - 1)) with 12288 in B. lia.
Qed.

Section Exchange.
Context {W : Type}.
Variable conf : ctrl_conf.
Variable addr_text : Z -> string.
Implicit Types (s : lan W) (h : host W).

(** A network whose members have different addresses, with a running controller;
    member [i] is [h]. *)
Definition stands s (i : nat) h : Prop :=
  library_node (l_node s) /\ n_running (l_node s) = true /\ NoDup (map n_addr (members s)) /\
  nth_error (l_hosts s) i = Some h.

Lemma stands_owner s i h : stands s i h -> owner (members s) (n_addr (h_node h)) = Some (S i) /\ n_addr (l_node s) <> n_addr (h_node h).
Proof.
  intros (_ & _ & ND & N). split.
  - apply owner_of; [exact ND|]. unfold members. cbn [nth_error]. rewrite nth_error_map, N. reflexivity.
  - unfold members in ND. cbn [map] in ND. inversion ND as [|? ? X _]; subst. intros E. apply X. rewrite E.
    apply in_map. apply in_map. eapply nth_error_In, N.
Qed.

Lemma request_of ct ip obj esv args dst m oc e ps : post_request ct ip obj esv args = Ok (dst, m) ->
  numeral obj oc -> numeral esv e -> Forall2 gives args ps -> m = new_request oc e ps.
Proof.
  intros R N1 N2 G. unfold post_request in R. destruct (LookupNode ct ip); [|discriminate R].
  destruct (ParseUint obj 32) as [x| |] eqn:EX; cbn [bind] in R; try discriminate R. apply ParseUint_spec in EX.
  destruct (rn_LookupObject _ _); [|discriminate R].
  destruct (ParseUint esv 8) as [y| |] eqn:EY; cbn [bind] in R; try discriminate R. apply ParseUint_spec in EY.
  destruct (negb (ESV_IsValid y)); [discriminate R|].
  destruct (post_properties args) as [qs| |] eqn:EP; cbn [bind] in R; try discriminate R. apply post_properties_spec in EP.
  injection R as _ <-. rewrite (numeral_fun _ _ _ (proj1 EX) N1), (numeral_fun _ _ _ (proj1 EY) N2).
  unfold new_request. f_equal. clear - EP G. revert ps G. induction EP as [|a q args qs Ga EP IH]; intros ps G; inversion G as [|? p ? ps' Gp G']; subst; [reflexivity|].
  f_equal; [|apply IH; exact G']. destruct Ga as (_ & _ & A), Gp as (_ & _ & B). 
  pose proof (nibbles_inj _ _ (written_fun _ _ _ A B)) as E. destruct q, p. cbn in E. congruence.
Qed.

Lemma accepted ct ip obj esv args dst oc e ps : LookupNode ct ip = Some dst ->
  numeral obj oc -> oc < 2 ^ 24 -> (exists o, In o (rn_devices dst ++ rn_profiles dst) /\ Code o = oc) ->
  numeral esv e -> known_esv e -> Forall2 gives args ps -> post_request ct ip obj esv args = Ok (dst, new_request oc e ps).
Proof.
  intros L N1 HO HI N2 KE G.
  destruct (proj2 (C74_request ct ip obj esv args dst)) as (m & R).
  { split; [exact L|]. exists oc, e, ps. split; [exact N1|]. split; [lia|]. split; [exact HI|]. auto. }
  rewrite R. rewrite (request_of _ _ _ _ _ _ _ _ _ _ R N1 N2 G). reflexivity.
Qed.

Lemma request_shows own obj esv oc e ps : numeral obj oc -> oc < 2 ^ 24 -> is_byte e -> sendable ps ->
  numeral esv e -> shows "->" own oc e ps (outputRequestMessage own (new_request oc e ps)).
Proof.
  intros N1 HO HE (_ & HS & _) _. pose proof (numeral_nonneg _ _ N1).
  destruct (posted_made oc e ps ltac:(lia)) as (P1 & P2 & P3 & _).
  change (AddProperties (SetESV (SetDEOJ NewMessage oc) e) ps) with (new_request oc e ps) in P1, P2, P3.
  unfold outputRequestMessage. rewrite P1, Z.mod_small by lia.
  assert (X : shows "->" own oc (m_esv (new_request oc e ps)) (m_ep (new_request oc e ps)) (outputTransportMessage "->" own oc (new_request oc e ps))).
  { apply output_shows; [lia|rewrite P2; exact HE|]. rewrite P3. eapply Forall_impl; [|exact HS].
    intros p (A & _ & B). split; [exact A|exact B]. }
  rewrite P2, P3 in X. exact X.
Qed.

Lemma answer_known e a : In (e, a) spec_answer \/ (In (e, a) spec_error_answer /\ e <> 0x60) ->
  known_esv e /\ is_byte e /\ is_byte a /\ ESV_IsResponseRequired e = true.
Proof.
  unfold spec_answer, spec_error_answer, known_esv, is_byte, spec_request, spec_response, spec_notification, spec_error.
  intros [H|(H & N)]; cbn [In app] in *; repeat destruct H as [H|H]; try contradiction; injection H as <- <-;
    (try (exfalso; apply N; reflexivity)); (split; [tauto|]); (split; [lia|]); (split; [lia|]); reflexivity.
Qed.

Lemma with_values_ok ps vs : Forall (fun p => 0 <= pp_code p < 256 /\ value (pp_data p)) ps -> Forall value vs ->
  Forall (fun p => is_byte (pp_code p) /\ is_bytes (pp_data p)) (with_values ps vs).
Proof.
  intros H. revert vs. unfold with_values. induction H as [|p ps (A & _) _ IH]; intros vs V; [constructor|].
  destruct V as [|v vs (_ & Bv) V]; [constructor|]. cbn [combine map fst snd]. constructor; [split; [exact A|exact Bv]|]. apply IH, V.
Qed.

Lemma put_get {A} (l : list A) : forall i x, (i < length l)%nat -> nth_error (set_nth l i x) i = Some x.
Proof. induction l as [|a l IH]; intros [|i] x H; cbn [length] in H; cbn [set_nth nth_error]; try lia; [reflexivity|]. apply IH. lia. Qed.

(** The network during an exchange with member [i], as computed by [net_post]. *)
Lemma post_gives s i h m0 m cl b : stands s i h -> n_addr cl = n_addr (l_node s) ->
  Node_PostMessage (l_node s) (n_addr (h_node h)) m0 (udp_net [] ADialFails []) = Ok (cl, [SentUDP 0 b], PostWaits m) ->
  let sv := serve_datagram (h_cb h) (h_app h) (h_node h) None UDPUnicastPacket (n_addr (h_node h)) (mkDatagram b (n_addr (l_node s))) in
  let r := net_post conf s (n_addr (h_node h)) m0 in
  nth_error (l_hosts (fst r)) i = Some (mkHost (out_node (fst sv)) (out_world (fst sv)) (h_cb h)) /\
  (forall b' resp, snd sv = Ok (Some (n_addr (l_node s), mkDatagram b' (n_addr (h_node h)))) ->
     ReadMessage (mkDatagram b' (n_addr (h_node h))) = Ok resp ->
     out_delivered (fst (serve_datagram (ctrl_callbacks conf) (l_ctrl s) cl (Some m) UDPUnicastPacket (n_addr (l_node s)) (mkDatagram b' (n_addr (h_node h))))) = true ->
     snd r = inl (SetPacketType resp UDPUnicastPacket)).
Proof.
  intros ST NA EP sv r. destruct (stands_owner _ _ _ ST) as (EO & _). destruct ST as (_ & _ & _ & EH).
  subst r sv. unfold net_post. unfold udp_net in EP. rewrite EP, EO, EH, NA.
  destruct (serve_datagram (h_cb h) (h_app h) (h_node h) None UDPUnicastPacket (n_addr (h_node h)) (mkDatagram b (n_addr (l_node s)))) as [out r].
  cbn [fst snd].
  assert (SN : nth_error (set_nth (l_hosts s) i (mkHost (out_node out) (out_world out) (h_cb h))) i = Some (mkHost (out_node out) (out_world out) (h_cb h))).
  { apply put_get. apply nth_error_Some. rewrite EH. discriminate. }
  split.
  - destruct r as [[[dst d]|]| |]; [|exact SN..]. destruct (negb (addr_eqb dst (n_addr (l_node s)))); [exact SN|].
    destruct (serve_datagram (ctrl_callbacks conf) (l_ctrl s) cl (Some m) UDPUnicastPacket (n_addr (l_node s)) d). exact SN.
  - intros b' resp E1 E2 E3. rewrite E1. rewrite (proj2 (addr_eqb_iff _ _) eq_refl). cbn [negb].
    destruct (serve_datagram (ctrl_callbacks conf) (l_ctrl s) cl (Some m) UDPUnicastPacket (n_addr (l_node s)) (mkDatagram b' (n_addr (h_node h)))) as [o2 r2].
    cbn [fst] in E3. cbn [snd]. rewrite E3, E2. reflexivity.
Qed.

(** The two lines of a request the node serves: what was asked, and the values the
    device has after the request. *)
Theorem C96_exchange own s i h ip dst obj esv args oc e aesv ps k od :
  stands s i h -> library_node (h_node h) -> respects calls_library (h_cb h) -> never_fails (h_cb h) ->
  LookupNode (l_ctrl s) ip = Some dst -> rn_addr dst = n_addr (h_node h) ->
  numeral obj oc -> oc < 2 ^ 24 -> (exists o, In o (rn_devices dst ++ rn_profiles dst) /\ Code o = oc) ->
  numeral esv e -> In (e, aesv) spec_answer -> Forall2 gives args ps -> sendable ps ->
  LookupObject (h_node h) oc = Some (DevRef k) -> obj_at (h_node h) (DevRef k) = Some od -> Forall (accepts od e) ps ->
  let r := uechopost conf addr_text own s ip obj esv args in
  exists h' o' vs, nth_error (l_hosts (fst r)) i = Some h' /\ obj_at (h_node h') (DevRef k) = Some o' /\
    Forall2 (holds o') (map pp_code ps) vs /\
    (Forall value vs -> (message_size vs <= 1024)%nat ->
     exists l1 l2, snd r = Some [l1; l2] /\ shows "->" own oc e ps l1 /\
       shows "<-" (addr_text (a_ip (n_addr (h_node h)))) oc aesv (with_values ps vs) l2).
Proof.
  intros ST HL HK HF LN EA N1 HO HI N2 HE G HS LO OA AC r.
  destruct (answer_known e aesv (or_introl HE)) as (KE & BE & BA & RR).
  assert (R : post_request (l_ctrl s) ip obj esv args = Ok (dst, new_request oc e ps)) by (eapply accepted; eauto).
  pose proof (numeral_nonneg _ _ N1) as H0. pose proof (stands_owner _ _ _ ST) as (_ & NE). pose proof ST as (HC & HR & _ & EH).
  assert (HH : hears (h_node h) (n_addr (l_node s))) by (right; exact NE).
  destruct (exchange W (h_cb h) (h_app h) (l_node s) (h_node h) k od None UDPUnicastPacket (n_addr (l_node s)) (n_addr (h_node h)) oc e aesv ps
              [] ADialFails [] HC HR HL HK I HH HE ltac:(lia) HS LO OA AC) as (c & m & cl' & rq & _ & _ & _ & _ & _ & _ & _ & NA & _ & _ & _ & _ & _ & EP & _).
  destruct (C60_request_partial W (h_cb h) (h_app h) (l_node s) (h_node h) k od None UDPUnicastPacket (n_addr (l_node s)) (n_addr (h_node h)) oc e aesv ps
              [] ADialFails [] HC HR HL HK I HH HE ltac:(lia) HS LO OA AC) as (m2 & cl2 & b & EP2 & _ & EA2).
  rewrite EP in EP2. injection EP2 as <- <- EB. rewrite <- EB in EA2.
  assert (Q : forall x e0, In (x, e0) (out_calls (fst (serve_datagram (h_cb h) (h_app h) (h_node h) None UDPUnicastPacket (n_addr (h_node h)) (mkDatagram (wire c) (n_addr (l_node s)))))) -> e0 = false).
  { intros x e0. unfold serve_datagram. destruct (ReadMessage _); cbn [fst out_calls]; try (intros []). apply out_quiet, HF. }
  destruct (EA2 Q) as (o' & vs & O' & F & HV). clear EA2.
  destruct (post_gives s i h _ _ _ _ ST NA EP) as (P1 & P2). cbv zeta in P1, P2.
  assert (ESV : m_esv (new_request oc e ps) = e) by (apply (posted_made oc e ps); lia).
  subst r. unfold uechopost. rewrite R, ESV, RR, EA.
  destruct (net_post conf s (n_addr (h_node h)) (new_request oc e ps)) as [s' res]. cbn [fst snd] in P1, P2 |- *.
  eexists. exists o', vs. split; [exact P1|]. split; [exact O'|]. split; [exact F|].
  intros Hv Hsz. destruct (HV Hv Hsz) as (b' & resp & E1 & E2 & E3 & _ & E5 & _ & E7 & _ & E9 & E10).
  destruct (E10 ltac:(right; congruence) ctrl (ctrl_callbacks conf) (l_ctrl s) UDPUnicastPacket) as (E11 & _).
  rewrite (P2 b' resp E1 E2 E11). eexists. eexists. split; [reflexivity|]. split.
  - eapply request_shows; eauto.
  - unfold outputResponseMessage. change (m_from (SetPacketType resp UDPUnicastPacket)) with (m_from resp).
    change (SEOJ (SetPacketType resp UDPUnicastPacket)) with (SEOJ resp). rewrite E3, E5.
    rewrite <- E7, <- E9. apply (output_shows _ _ _ (SetPacketType resp UDPUnicastPacket)).
    + lia.
    + change (is_byte (m_esv resp)). rewrite E7. exact BA.
    + change (Forall (fun p => is_byte (pp_code p) /\ is_bytes (pp_data p)) (m_ep resp)). rewrite E9. apply with_values_ok; [apply HS|exact Hv].
Qed.

(** The second line of a request the node refuses: the error response. *)
Theorem C96_refused own s i h ip dst obj esv args oc e eesv ps :
  stands s i h -> LookupNode (l_ctrl s) ip = Some dst -> rn_addr dst = n_addr (h_node h) ->
  numeral obj oc -> oc < 2 ^ 24 -> (exists o, In o (rn_devices dst ++ rn_profiles dst) /\ Code o = oc) ->
  numeral esv e -> In (e, eesv) spec_error_answer -> e <> 0x60 -> Forall2 gives args ps -> sendable ps ->
  cannot_serve (h_node h) oc e ps ->
  let r := uechopost conf addr_text own s ip obj esv args in
  nth_error (l_hosts (fst r)) i = Some h /\
  exists l1 l2, snd r = Some [l1; l2] /\ shows "->" own oc e ps l1 /\
    shows "<-" (addr_text (a_ip (n_addr (h_node h)))) oc eesv (repeat (mkPProp 0 []) (Z.to_nat (2 * Z.of_nat (length ps) mod 256))) l2.
Proof.
  intros ST LN EA N1 HO HI N2 HE H60 G HS CS r.
  destruct (answer_known e eesv (or_intror (conj HE H60))) as (KE & BE & BA & RR).
  assert (R : post_request (l_ctrl s) ip obj esv args = Ok (dst, new_request oc e ps)) by (eapply accepted; eauto).
  pose proof (numeral_nonneg _ _ N1) as H0. pose proof (stands_owner _ _ _ ST) as (_ & NE). pose proof ST as (HC & HR & _ & EH).
  assert (HH : hears (h_node h) (n_addr (l_node s))) by (right; exact NE).
  assert (HH2 : hears (l_node s) (n_addr (h_node h))) by (right; congruence).
  destruct (C61_refused W (h_cb h) (h_app h) (l_node s) (h_node h) None UDPUnicastPacket (n_addr (l_node s)) (n_addr (h_node h)) oc e eesv ps
              [] ADialFails [] HC HR HH2 I HH HE ltac:(lia) HS CS)
    as (m & cl' & b & b' & resp & EP & _ & W1 & W2 & E1 & E2 & E3 & _ & E5 & _ & E7 & E9 & E10).
  assert (NA : n_addr cl' = n_addr (l_node s)).
  { destruct (library_ok _ HC) as (HI' & HT).
    assert (HLc : in_limits (mkContent ((n_lastTID (l_node s) + 1) mod 65536) 0x0EF001 oc e (map to_pair ps))).
    { apply sendable_limits; [apply tid_small|lia|exact BE|exact HS]. }
    rewrite (post_udp _ (n_addr (h_node h)) oc e ps [] ADialFails [] HI' HT HR HLc) in EP. injection EP as <- _ _. reflexivity. }
  destruct (post_gives s i h _ _ _ _ ST NA EP) as (P1 & P2). cbv zeta in P1, P2.
  assert (ESV : m_esv (new_request oc e ps) = e) by (apply (posted_made oc e ps); lia).
  subst r. unfold uechopost. rewrite R, ESV, RR, EA.
  destruct (net_post conf s (n_addr (h_node h)) (new_request oc e ps)) as [s' res]. cbn [fst snd] in P1, P2 |- *.
  rewrite W1, W2 in P1. split; [destruct h; exact P1|].
  destruct (E10 ctrl (ctrl_callbacks conf) (l_ctrl s) UDPUnicastPacket) as (E11 & _).
  rewrite (P2 b' resp E1 E2 E11). eexists. eexists. split; [reflexivity|]. split.
  - eapply request_shows; eauto.
  - unfold outputResponseMessage. change (m_from (SetPacketType resp UDPUnicastPacket)) with (m_from resp).
    change (SEOJ (SetPacketType resp UDPUnicastPacket)) with (SEOJ resp). rewrite E3, E5.
    rewrite <- E7, <- E9. apply (output_shows _ _ _ (SetPacketType resp UDPUnicastPacket)).
    + lia.
    + change (is_byte (m_esv resp)). rewrite E7. exact BA.
    + change (Forall (fun p => is_byte (pp_code p) /\ is_bytes (pp_data p)) (m_ep resp)). rewrite E9.
      apply Forall_forall. intros p Hp. apply repeat_spec in Hp. subst p. split; [unfold is_byte; cbn; lia|constructor].
Qed.

(** A request that wants no answer: its line only. *)
Theorem C96_oneway own s ip dst obj esv args oc e ps :
  LookupNode (l_ctrl s) ip = Some dst -> numeral obj oc -> oc < 2 ^ 24 ->
  (exists o, In o (rn_devices dst ++ rn_profiles dst) /\ Code o = oc) ->
  numeral esv e -> known_esv e -> ~ In e (map fst spec_answer) -> Forall2 gives args ps -> sendable ps ->
  exists l1, snd (uechopost conf addr_text own s ip obj esv args) = Some [l1] /\ shows "->" own oc e ps l1.
Proof.
  intros LN N1 HO HI N2 KE NA G HS.
  assert (R : post_request (l_ctrl s) ip obj esv args = Ok (dst, new_request oc e ps)) by (eapply accepted; eauto).
  pose proof (numeral_nonneg _ _ N1) as H0.
  assert (ESV : m_esv (new_request oc e ps) = e) by (apply (posted_made oc e ps); lia).
  assert (BE : is_byte e /\ ESV_IsResponseRequired e = false).
  { unfold known_esv, spec_request, spec_response, spec_notification, spec_error, spec_answer in *. cbn [In app map fst] in *. unfold is_byte.
    repeat destruct KE as [KE|KE]; try contradiction; subst e; (split; [lia|]); try reflexivity; exfalso; apply NA; tauto. }
  destruct BE as (BE & RR). unfold uechopost. rewrite R, ESV, RR. eexists. split; [reflexivity|]. eapply request_shows; eauto.
Qed.

(** After a search every node is found at its address with its devices, if no other
    node found has its IP address. *)
Theorem C96_found s0 es1 esv es2 i h o : network conf s0 -> l_packets s0 = [] -> l_ctrl s0 = newCtrl ->
  n_self (l_node s0) = false -> Forall (fun h => recorded conf (h_node h) = n_addr (h_node h)) (l_hosts s0) ->
  Forall allowed es1 -> In esv [0x62; 0x63] -> Forall allowed es2 -> Forall lossless es2 ->
  let s := lan_run conf s0 (es1 ++ LSearch 0 esv :: es2) in
  l_packets s = [] -> nth_error (l_hosts s) i = Some h -> In o (n_devices (h_node h)) ->
  (forall j h', nth_error (l_hosts s) j = Some h' -> a_ip (n_addr (h_node h')) = a_ip (n_addr (h_node h)) -> j = i) ->
  exists dst, LookupNode (l_ctrl s) (a_ip (n_addr (h_node h))) = Some dst /\ rn_addr dst = n_addr (h_node h) /\
    exists o', In o' (rn_devices dst ++ rn_profiles dst) /\ Code o' = Code o.
Proof.
  intros HN HP HC Hself HR HA1 HE HA2 HL s Hq EH Ho HU.
  assert (HA : Forall allowed (es1 ++ LSearch 0 esv :: es2)) by (apply Forall_app; split; [exact HA1|constructor; assumption]).
  destruct (run_table_shows conf s0 (es1 ++ LSearch 0 esv :: es2) s0 (settled_start conf s0 HN HP) HA) as (HSs & HT).
  { unfold table_shows. rewrite HC. split; [constructor|intros n []]. }
  fold s in HSs, HT.
  assert (PM : Permutation.Permutation (map view (ct_found (l_ctrl s))) (map (expected conf) (map h_node (l_hosts s0)))).
  { replace (map h_node (l_hosts s0)) with (audible s0) by (unfold audible; rewrite Hself; reflexivity).
    apply C79_found; assumption. }
  pose proof HSs as ((I1 & _) & HM & _).
  assert (Em : nth_error (members s) (S i) = Some (h_node h)) by (unfold members; cbn [nth_error]; rewrite nth_error_map, EH; reflexivity).
  destruct (same_at _ _ _ _ HM Em) as (nd0 & E0 & (A1 & _)).
  assert (X : In (expected conf nd0) (map view (ct_found (l_ctrl s)))).
  { apply (Permutation.Permutation_in _ (Permutation.Permutation_sym PM)). apply in_map. cbn [members nth_error] in E0. eapply nth_error_In, E0. }
  apply in_map_iff in X. destruct X as (rn & EV & Irn). unfold view, expected in EV. injection EV as EV _.
  assert (EI : a_ip (rn_addr rn) = a_ip (n_addr (h_node h))) by (rewrite EV, A1; reflexivity).
  unfold LookupNode. destruct (find (fun n => a_ip (rn_addr n) =? a_ip (n_addr (h_node h))) (ct_found (l_ctrl s))) as [dst|] eqn:EF.
  2:{ exfalso. pose proof (find_none _ _ EF rn Irn) as Z0. cbn beta in Z0. lia. }
  apply find_some in EF. destruct EF as (Id & Ed). exists dst. split; [reflexivity|].
  destruct (proj2 HT dst Id) as (j & nd1 & E1 & Hj & (S1 & S2 & S3)).
  destruct Hj as [Hj|Hj]; [congruence|]. destruct j as [|j]; [exfalso; apply Hj; reflexivity|]. clear Hj.
  destruct (same_at' _ _ _ _ HM E1) as (nd & E & (B1 & _ & B3 & _)).
  assert (EA : n_addr nd = rn_addr dst).
  { rewrite S1. unfold members in E1. cbn [nth_error] in E1. rewrite nth_error_map in E1.
    destruct (nth_error (l_hosts s0) j) as [h0|] eqn:EH0; [|discriminate E1]. injection E1 as E1.
    rewrite Forall_forall in HR. specialize (HR h0 (nth_error_In _ _ EH0)). rewrite E1, recorded_seen, <- B1 in HR. symmetry. rewrite <- B1. exact HR. }
  unfold members in E. cbn [nth_error] in E. rewrite nth_error_map in E.
  destruct (nth_error (l_hosts s) j) as [h1|] eqn:EH1; [|discriminate E]. injection E as E.
  assert (j = i) by (apply (HU j h1 EH1); rewrite E, EA; lia). subst j. rewrite EH in EH1. injection EH1 as <-. subst nd.
  split; [symmetry; exact EA|].
  rewrite <- B3 in S2. assert (Ic : In (o_codes o) (map o_codes (rn_devices dst))) by (rewrite S2; unfold devs_of; apply in_map, Ho).
  apply in_map_iff in Ic. destruct Ic as (o' & EC & Io'). exists o'. split; [apply in_or_app; left; exact Io'|]. unfold Code. rewrite EC. reflexivity.
Qed.
End Exchange.

(** A code of one digit is printed with a blank before it; neither that word nor its
    digits alone are an argument of the program. *)
Theorem C96_low_refuted : forall p w q, 0 <= pp_code p < 16 -> word p w ->
  ~ gives w q /\ forall d, w = String (char_of 32) d -> ~ gives d q.
Proof.
  intros p w q Hc (_ & W2). destruct (W2 ltac:(lia)) as (w' & -> & Hw). split.
  - intros (_ & _ & G). exact (blank_first _ (written_no_blank _ _ G)).
  - intros d E (_ & _ & G). injection E as <-. pose proof (written_fun _ _ _ Hw G) as X. apply (f_equal (@length Z)) in X. cbn [length] in X.
    assert (K : forall l, length (nibbles l) = (2 * length l)%nat).
    { intros l. unfold nibbles. induction l as [|b l IH]; [reflexivity|]. cbn [flat_map app length]. rewrite IH. lia. }
    rewrite !K in X. cbn [length] in X. lia.
Qed.

(** ** Examples *)

(** The network of [PropsSearchTool]: a read of the light at 192.168.0.9, a write, and
    a read of a property the light has not. *)
Definition ex_post (esv : string) (args : list string) : option (list string) :=
  snd (uechopost ex_conf PropsSearchTool.ex_text "192.168.0.5" PropsSearchTool.ex_lan 9 "029001" esv args).

Example C96_example :
  ex_post "62" ["8000"]%string = Some ["-> 192.168.0.5     : 303239303031 3632 8000 "; "<- 192.168.0.9     : 303239303031 3732 8030 "]%string /\
  ex_post "61" ["8031"]%string = Some ["-> 192.168.0.5     : 303239303031 3631 8031 "; "<- 192.168.0.9     : 303239303031 3731 8030 "]%string /\
  ex_post "62" ["E500"; "8000"]%string = Some ["-> 192.168.0.5     : 303239303031 3632 E500 8000 "; "<- 192.168.0.9     : 303239303031 3532  0  0  0  0 "]%string /\
  ex_post "60" ["8031"]%string = Some ["-> 192.168.0.5     : 303239303031 3630 8031 "]%string /\
  ex_post "62" ["80"]%string = None.
Proof. vm_compute. repeat split. Qed.

(** The hypotheses of [C96_exchange] hold for the nodes of this network when the
    controller knows them. *)
Definition ex_known : lan unit := mkLan (l_node ex_net) (l_ctrl PropsSearchTool.ex_lan) (l_hosts ex_net) [].

Lemma lan_library nd : lan_node nd -> library_node nd.
Proof. intros (ops & nd0 & a & self & H & _ & E & -> & _). exists ops, nd0, a, self. auto. Qed.

Lemma known_nodes (s : lan unit) nd c hs : s = mkLan nd c hs [] -> lan_node nd ->
  Forall (fun h => lan_node (h_node h) /\ keeps_node (h_cb h) /\ never_fails (h_cb h)) hs ->
  lan_node (l_node s) /\ Forall (fun h => lan_node (h_node h) /\ keeps_node (h_cb h) /\ never_fails (h_cb h)) (l_hosts s).
Proof. intros ->. auto. Qed.

Example C96_applies :
  let r := uechopost ex_conf PropsSearchTool.ex_text "192.168.0.5" ex_known 9 "029001" "62" ["8000"%string] in
  exists h' o' vs, nth_error (l_hosts (fst r)) 1 = Some h' /\ obj_at (h_node h') (DevRef 0) = Some o' /\
    Forall2 (holds o') [0x80] vs /\
    (Forall value vs -> (message_size vs <= 1024)%nat ->
     exists l1 l2, snd r = Some [l1; l2] /\ shows "->" "192.168.0.5" 0x029001 0x62 [mkPProp 0x80 [0]] l1 /\
       shows "<-" "192.168.0.9" 0x029001 0x72 (with_values [mkPProp 0x80 [0]] vs) l2).
Proof.
  assert (M : lan_node (l_node ex_known) /\ Forall (fun h => lan_node (h_node h) /\ keeps_node (h_cb h) /\ never_fails (h_cb h)) (l_hosts ex_known)).
  { destruct ex_network as (M & K & _). unfold members in M.
    apply Forall_cons_iff in M. destruct M as (M0 & M). apply (known_nodes ex_known (l_node ex_net) (l_ctrl PropsSearchTool.ex_lan) (l_hosts ex_net) eq_refl); [exact M0|]. rewrite Forall_map in M.
    rewrite Forall_forall in M, K |- *. intros h Hh. split; [exact (M h Hh)|exact (K h Hh)]. }
  destruct M as (M0 & M).
  assert (HR : n_running (l_node ex_known) = true) by (vm_compute; reflexivity).
  assert (HD : map n_addr (members ex_known) = [mkAddress 5 3610; mkAddress 7 3610; mkAddress 9 3610]) by (vm_compute; reflexivity).
  assert (HX : option_map (fun h => (n_addr (h_node h), LookupObject (h_node h) 0x029001,
                 match obj_at (h_node h) (DevRef 0) with
                 | Some o => match LookupProperty (o_props o) 0x80 with Some q => match p_get q with Prohibited => false | _ => true end | None => false end
                 | None => false end)) (nth_error (l_hosts ex_known) 1) = Some (mkAddress 9 3610, Some (DevRef 0), true)) by (vm_compute; reflexivity).
  assert (HY : option_map (fun n => (rn_addr n, existsb (fun o => Code o =? 0x029001) (rn_devices n ++ rn_profiles n))) (LookupNode (l_ctrl ex_known) 9) =
               Some (mkAddress 9 3610, true)) by (vm_compute; reflexivity).
  revert M0 M HR HD HX HY. generalize ex_known. intros s M0 M HR HD HX HY.
  destruct (nth_error (l_hosts s) 1) as [h|] eqn:EH; [|discriminate HX]. cbn [option_map] in HX.
  destruct (obj_at (h_node h) (DevRef 0)) as [od|] eqn:EO; [|discriminate HX]. injection HX as H1 H2 H3.
  destruct (LookupNode (l_ctrl s) 9) as [dst|] eqn:ED; [|discriminate HY]. cbn [option_map] in HY. injection HY as H4 H5.
  rewrite Forall_forall in M. destruct (M h (nth_error_In _ _ EH)) as (M1 & M2 & M3).
  replace "192.168.0.9"%string with (PropsSearchTool.ex_text (a_ip (n_addr (h_node h)))) by (rewrite H1; reflexivity).
  apply (C96_exchange ex_conf PropsSearchTool.ex_text "192.168.0.5" s 1 h 9 dst "029001" "62" ["8000"%string] 0x029001 0x62 0x72 [mkPProp 0x80 [0]] 0 od).
  - split; [apply lan_library, M0|]. split; [exact HR|]. split; [|exact EH].
    rewrite HD. repeat constructor; cbn [In]; intros X; repeat destruct X as [X|X]; try discriminate X; exact X.
  - apply lan_library, M1.
  - clear - M2. destruct M2 as (A & B & C).
    assert (L : forall nd nd', nd' = nd -> calls_library nd nd') by (intros nd nd' ->; exists []; split; [constructor|reflexivity]).
    split; [|split]; intros; apply L; eauto.
  - exact M3.
  - exact ED.
  - rewrite H1, H4. reflexivity.
  - exists [0; 2; 9; 0; 0; 1]. split; [discriminate|]. split; [|reflexivity]. apply written_iff. vm_compute. reflexivity.
  - lia.
  - apply existsb_exists in H5. destruct H5 as (o & I1 & I2). exists o. split; [exact I1|lia].
  - exists [6; 2]. split; [discriminate|]. split; [|reflexivity]. apply written_iff. vm_compute. reflexivity.
  - cbn. tauto.
  - constructor; [|constructor]. split; [discriminate|]. split; [repeat constructor; unfold is_byte; cbn; lia|]. apply written_iff. vm_compute. reflexivity.
  - split; [cbn; lia|]. split; [|cbn; lia]. constructor; [|constructor]. cbn [pp_code pp_data]. split; [lia|]. split; [cbn; lia|]. repeat constructor; lia.
  - exact H2.
  - exact EO.
  - constructor; [|constructor]. unfold accepts. cbn [pp_code]. destruct (LookupProperty (o_props od) 0x80) as [q|]; [|discriminate H3]. exists q. split; [reflexivity|].
    split; [intros _ Y; rewrite Y in H3; discriminate H3|]. unfold writes. cbn [In]. lia.
Qed.

Print Assumptions C96_determined.
Print Assumptions C96_words.
Print Assumptions C96_again_refuted.
Print Assumptions C96_exchange.
Print Assumptions C96_refused.
Print Assumptions C96_oneway.
Print Assumptions C96_found.
Print Assumptions C96_low_refuted.
