(** Theorems about the command line tool: C52, C53, C56 - C59. *)

From Coq Require Import String Ascii ZifyBool ZifyNat.
From Verif Require Import Go GoFacts Encoding EncodingFacts Protocol Parser MessageFacts ParserFacts
  ProtocolFacts StdDB Property PropertyFacts Object ObjectFacts Spec Node NodeFacts Handler HandlerFacts
  Remote RemoteFacts Cmd CmdFacts CmdTable.
From Verif Require PropsNode PropsRemote.
Local Open Scope Z_scope.
Local Open Scope list_scope.

(** ** C53: hexadecimal arguments *)

(** [spells s ds] (CmdFacts): the text consists of the hexadecimal digits [ds],
    in either case, with spaces anywhere.  [number 16 ds] is the number they
    write, [nibbles bs] the digits of the bytes [bs]. *)

(** An argument is accepted as bytes exactly if it writes bytes, and gives those. *)
Theorem C53_bytes : forall s bs,
  hexStringToByte s = Ok bs <-> spells s (nibbles bs) /\ is_bytes bs.
Proof.
  intros s bs. pose proof (hexStringToByte_spec s) as H. split.
  - intros E. rewrite E in H. exact H.
  - intros [H1 H2]. destruct (hexStringToByte s) as [bs'|e|]; [|exfalso; exact (H bs H1)|contradiction].
    destruct H as [H _]. f_equal. apply nibbles_inj. exact (spells_fun _ _ _ H H1).
Qed.

Example C53_bytes_ex : hexStringToByte "0a FF 3" = Err ErrInvalid /\ hexStringToByte "0a fF 30" = Ok [10; 255; 48].
Proof. split; vm_compute; reflexivity. Qed.

(** An argument is accepted as a number exactly if it has an even number of
    digits, and gives the number as a 64 bit int. *)
Theorem C53_number : forall s v,
  hexStringToInt s = Ok v <->
  exists ds, spells s ds /\ Nat.even (length ds) = true /\ v = (number 16 ds + 2 ^ 63) mod 2 ^ 64 - 2 ^ 63.
Proof.
  intros s v. pose proof (hexStringToInt_spec s) as H. split.
  - intros E. rewrite E in H. destruct H as (bs & H1 & H2 & ->). exists (nibbles bs). split; [exact H1|].
    rewrite nibbles_length, number_nibbles. split; [|reflexivity]. apply Nat.even_spec. exists (length bs). reflexivity.
  - intros (ds & H1 & H2 & ->). destruct (nibbles_even ds (spells_range s ds H1) H2) as (bs & -> & HB).
    destruct (hexStringToInt s) as [v|e|]; [|exfalso; exact (H bs H1)|contradiction].
    destruct H as (bs' & H3 & _ & ->). rewrite (nibbles_inj bs bs' (spells_fun _ _ _ H1 H3)), number_nibbles. reflexivity.
Qed.

(** Below 2^63 that is the number itself. *)
Theorem C53_value_partial : forall s ds,
  spells s ds -> Nat.even (length ds) = true -> number 16 ds < 2 ^ 63 -> hexStringToInt s = Ok (number 16 ds).
Proof.
  intros s ds H1 H2 H3. apply C53_number. exists ds. split; [exact H1|]. split; [exact H2|].
  assert (H0 : 0 <= number 16 ds).
  { destruct (nibbles_even ds (spells_range s ds H1) H2) as (bs & -> & HB). rewrite number_nibbles. unfold number.
    assert (HG : forall r, 0 <= r -> 0 <= fold_left (fun a d => 256 * a + d) bs r).
    { clear -HB. induction HB as [|b bs [B _] _ IH]; intros r Hr; cbn [fold_left]; [exact Hr|]. apply IH. lia. }
    apply HG. lia. }
  symmetry. rewrite Z.mod_small by lia. lia.
Qed.

Example C53_value_ex : hexStringToInt "01 3001" = Ok 0x013001.
Proof. vm_compute. reflexivity. Qed.

Theorem C53_no_panic : forall s, hexStringToInt s <> Panic /\ hexStringToByte s <> Panic.
Proof.
  intros s. pose proof (hexStringToByte_spec s) as H. pose proof (hexStringToInt_spec s) as H'.
  split; intros E; [rewrite E in H'; exact H'|rewrite E in H; exact H].
Qed.

(** False in the code: a number with an odd number of digits is refused ... *)
Theorem C53_odd_refuted : forall s ds, spells s ds -> Nat.odd (length ds) = true -> exists e, hexStringToInt s = Err e.
Proof.
  intros s ds H HO. destruct (C53_no_panic s) as [HP _]. destruct (hexStringToInt s) as [v|e|] eqn:E; [|exists e; reflexivity|contradiction].
  apply C53_number in E as (ds' & H' & HE & _). rewrite <- (spells_fun _ _ _ H H'), <- Nat.negb_odd, HO in HE. discriminate HE.
Qed.

Lemma C53_odd_ex : spells "1" [1] /\ hexStringToInt "1" = Err ErrInvalid.
Proof. split; [|vm_compute; reflexivity]. apply spells_clean. vm_compute. reflexivity. Qed.

(** ... no digits at all are taken for 0, and large numbers become negative. *)
Theorem C53_refuted :
  hexStringToInt "" = Ok 0 /\ hexStringToInt "  " = Ok 0 /\
  exists s ds v, spells s ds /\ hexStringToInt s = Ok v /\ v < 0 /\ 0 < number 16 ds.
Proof.
  split; [vm_compute; reflexivity|]. split; [vm_compute; reflexivity|].
  exists "8000000000000000"%string, [8;0;0;0;0;0;0;0;0;0;0;0;0;0;0;0], (- 2 ^ 63).
  split; [apply spells_clean; vm_compute; reflexivity|]. split; [vm_compute; reflexivity|]. split; vm_compute; reflexivity.
Qed.

(** ** C52: hidden cells *)

(** [full k row]: at least [k] cells and the first [k] not blank.
    [fill_down k rows]: in every row the blank cells among the first [k] are
    replaced by the cells of the restored row above. *)

(** Two neighbouring rows of which the second adds nothing: the same first [k]
    cells and no other text. *)
Definition adds_nothing (k : nat) (above row : list string) : Prop :=
  firstn k row = firstn k above /\ Forall (fun c => c = EmptyString) (skipn k row).

Lemma repeats_iff k above row : repeats k above row = true <-> adds_nothing k above row.
Proof.
  unfold repeats, adds_nothing. rewrite Bool.andb_true_iff, forallb_forall, Forall_forall.
  assert (HB : (forall x, In x (skipn k row) -> is_blank x = true) <-> (forall x, In x (skipn k row) -> x = EmptyString)).
  { split; intros H x Hx; specialize (H x Hx); destruct x; auto; discriminate H. }
  rewrite HB. destruct (list_eq_dec string_dec (firstn k row) (firstn k above)); intuition discriminate.
Qed.

(** The rows of [rows] that remain when every row that adds nothing to the row
    above it is dropped. *)
Inductive without_repeats (k : nat) : list (list string) -> list (list string) -> Prop :=
| wr_nil : without_repeats k [] []
| wr_one r : without_repeats k [r] [r]
| wr_drop r r' rows out : adds_nothing k r r' -> without_repeats k (r' :: rows) (r' :: out) ->
    without_repeats k (r :: r' :: rows) (r :: out)
| wr_keep r r' rows out : ~ adds_nothing k r r' -> without_repeats k (r' :: rows) out ->
    without_repeats k (r :: r' :: rows) (r :: out).

Lemma drop_without k rows : forall r, without_repeats k (r :: rows) (r :: drop_repeats k r rows).
Proof.
  induction rows as [|r' rows IH]; intros r; [constructor|]. cbn [drop_repeats].
  destruct (repeats k r r') eqn:E; [apply wr_drop|apply wr_keep]; try apply IH.
  - apply repeats_iff, E.
  - rewrite <- repeats_iff, E. intros X. discriminate X.
Qed.

(** What restoring gives for every table whose hidden columns are filled. *)
Theorem C52_restored : forall cols rows k, (1 <= k)%nat -> Forall (full k) rows ->
  exists shown, HideDuplicateColumns (mkTable cols rows) (map Z.of_nat (seq 0 k)) = Ok (mkTable cols shown) /\
    without_repeats k rows (fill_down k shown).
Proof.
  intros cols rows k Hk HF. eexists. split; [apply Hide_spec, HF|].
  destruct rows as [|r rows]; [constructor|]. inversion HF as [|? ? HR HF']; subst. cbn [hide_all filter].
  replace (forallb is_blank r) with false.
  - cbn [negb fill_down]. rewrite (fill_hide_rows k rows r r Hk HR HF' eq_refl). apply drop_without.
  - destruct HR as [HL HN]. destruct k; [lia|]. destruct r as [|c r]; [cbn in HL; lia|]. inversion HN; subst. destruct c; [congruence|reflexivity].
Qed.

(** So nothing is lost if no row adds nothing to the row above. *)
Theorem C52_lossless_partial : forall cols rows k, (1 <= k)%nat -> Forall (full k) rows ->
  (forall i above row, nth_error rows i = Some above -> nth_error rows (S i) = Some row -> ~ adds_nothing k above row) ->
  exists shown, HideDuplicateColumns (mkTable cols rows) (map Z.of_nat (seq 0 k)) = Ok (mkTable cols shown) /\
    fill_down k shown = rows.
Proof.
  intros cols rows k Hk HF HN. destruct (C52_restored cols rows k Hk HF) as (shown & E & W).
  exists shown. split; [exact E|]. clear -HN W. remember (fill_down k shown) as out eqn:HO. clear HO.
  induction W as [|r|r r' rows out HA W IH|r r' rows out HA W IH]; [reflexivity..| |].
  - exfalso. exact (HN O r r' eq_refl eq_refl HA).
  - f_equal. apply IH. intros i above row E1 E2. apply (HN (S i)); assumption.
Qed.

Example C52_ex : 
  HideDuplicateColumns (mkTable ["a"; "b"; "c"] [["1"; "x"; ""]; ["1"; "x"; "p"]; ["1"; "y"; "p"]; ["2"; "y"; "p"]])%string [0; 1]
  = Ok (mkTable ["a"; "b"; "c"] [["1"; "x"; ""]; [""; ""; "p"]; [""; "y"; "p"]; ["2"; "y"; "p"]])%string.
Proof. vm_compute. reflexivity. Qed.

(** False in the code: the shown table does not determine the original one, when
    a row is repeated and when a cell of a hidden column is blank. *)
Theorem C52_refuted :
  (exists t t' cols, t <> t' /\ Forall (full 2) (t_rows t) /\ Forall (full 2) (t_rows t') /\
     HideDuplicateColumns t cols = HideDuplicateColumns t' cols /\ HideDuplicateColumns t cols <> Panic) /\
  (exists t t' cols, t <> t' /\ length (t_rows t) = length (t_rows t') /\
     HideDuplicateColumns t cols = HideDuplicateColumns t' cols /\ HideDuplicateColumns t cols <> Panic).
Proof.
  split.
  - exists (mkTable ["a"; "b"] [["1"; "x"]])%string, (mkTable ["a"; "b"] [["1"; "x"]; ["1"; "x"]])%string, [0; 1].
    split; [discriminate|]. split; [repeat constructor; discriminate|]. split; [repeat constructor; discriminate|].
    split; [vm_compute; reflexivity|vm_compute; discriminate].
  - exists (mkTable ["a"; "b"] [["1"; "x"]; [""; "y"]])%string, (mkTable ["a"; "b"] [["1"; "x"]; ["1"; "y"]])%string, [0; 1].
    split; [discriminate|]. split; [reflexivity|].
    split; [vm_compute; reflexivity|vm_compute; discriminate].
Qed.

(** Filling every blank cell, not only those of the hidden columns, is wrong as
    well: an empty last column (property data) takes over the text above. *)
Theorem C52_all_columns_refuted : exists t shown, Forall (full 1) (t_rows t) /\
  HideDuplicateColumns t [0] = Ok (mkTable (t_columns t) shown) /\ fill_down (length (t_columns t)) shown <> t_rows t.
Proof.
  exists (mkTable ["a"; "b"; "c"] [["1"; "x"; "30"]; ["1"; "y"; ""]])%string, [["1"; "x"; "30"]; [""; "y"; ""]]%string.
  split; [repeat constructor; discriminate|]. split; [vm_compute; reflexivity|vm_compute; discriminate].
Qed.

(** Hiding fails, with an index panic, exactly if a row has no cell in one of the columns. *)
Lemma strip_total c rows : forall first last, 0 <= c -> Forall (fun r => c < len r) rows ->
  exists rows', strip_rows c first last rows = Ok rows' /\ map (@length string) rows' = map (@length string) rows.
Proof.
  induction rows as [|r rows IH]; intros first last Hc HF; [exists []; split; reflexivity|].
  inversion HF as [|? ? HR HF']; subst. cbn [strip_rows].
  assert (HI : forall j, 0 <= j <= c -> exists x, idx r j = Ok x).
  { intros j Hj. unfold idx. destruct (Z.ltb_spec j 0); [lia|]. destruct (nth_error r (Z.to_nat j)) as [x|] eqn:E; [exists x; reflexivity|].
    apply nth_error_None in E. unfold len in HR. lia. }
  assert (HS : exists r', set_idx r c EmptyString = Ok r' /\ length r' = length r).
  { unfold set_idx. replace ((c <? 0) || (len r <=? c)) with false by lia. eexists. split; [reflexivity|].
    generalize (Z.to_nat c). clear. intros n. revert n. induction r as [|a r IH]; intros [|n]; cbn; auto. }
  destruct (HI c ltac:(lia)) as (cell & E). rewrite E. cbn [bind].
  destruct first.
  { destruct (IH false cell Hc HF') as (rows' & -> & L). cbn [bind]. eexists. split; [reflexivity|]. cbn [map]. rewrite L. reflexivity. }
  destruct (String.eqb cell last).
  - assert (HX : exists r', (if c =? 0 then set_idx r c EmptyString
                             else prev <- idx r (c - 1);; (if is_blank prev then set_idx r c EmptyString else Ok r)) = Ok r' /\ length r' = length r).
    { destruct (Z.eqb_spec c 0); [exact HS|]. destruct (HI (c - 1) ltac:(lia)) as (x & ->). cbn [bind].
      destruct (is_blank x); [exact HS|]. exists r. auto. }
    destruct HX as (r' & -> & L'). cbn [bind]. destruct (IH false last Hc HF') as (rows' & -> & L). cbn [bind].
    eexists. split; [reflexivity|]. cbn [map]. rewrite L, L'. reflexivity.
  - destruct (IH false cell Hc HF') as (rows' & -> & L). cbn [bind]. eexists. split; [reflexivity|]. cbn [map]. rewrite L. reflexivity.
Qed.

Lemma strip_panics c rows : forall first last, ~ (0 <= c /\ Forall (fun r => c < len r) rows) -> rows <> [] ->
  strip_rows c first last rows = Panic.
Proof.
  induction rows as [|r rows IH]; intros first last HN HE; [congruence|]. cbn [strip_rows].
  destruct (idx r c) as [cell|e|] eqn:E; cbn [bind]; [| |reflexivity].
  2:{ unfold idx in E. destruct (c <? 0); [discriminate E|]. destruct (nth_error r (Z.to_nat c)); discriminate E. }
  assert (HC : 0 <= c < len r).
  { unfold idx in E. destruct (Z.ltb_spec c 0); [discriminate E|]. destruct (nth_error r (Z.to_nat c)) eqn:E1; [|discriminate E].
    assert (nth_error r (Z.to_nat c) <> None) by congruence. apply nth_error_Some in H0. unfold len. lia. }
  assert (HR : rows <> [] /\ ~ (0 <= c /\ Forall (fun r => c < len r) rows)).
  { split.
    - intros ->. apply HN. split; [lia|]. repeat constructor. lia.
    - intros [_ H]. apply HN. split; [lia|]. constructor; [lia|exact H]. }
  destruct HR as [HR1 HR2].
  destruct first; [rewrite IH by assumption; reflexivity|].
  destruct (String.eqb cell last); [|rewrite IH by assumption; reflexivity].
  assert (HX : exists r', (if c =? 0 then set_idx r c EmptyString
                           else prev <- idx r (c - 1);; (if is_blank prev then set_idx r c EmptyString else Ok r)) = Ok r').
  { assert (HS : exists r', set_idx r c EmptyString = Ok r').
    { unfold set_idx. replace ((c <? 0) || (len r <=? c)) with false by lia. eexists. reflexivity. }
    destruct (Z.eqb_spec c 0); [exact HS|].
    assert (HI : exists x, idx r (c - 1) = Ok x).
    { unfold idx. destruct (Z.ltb_spec (c - 1) 0); [lia|]. destruct (nth_error r (Z.to_nat (c - 1))) as [x|] eqn:E1; [exists x; reflexivity|].
      apply nth_error_None in E1. unfold len in HC. lia. }
    destruct HI as (x & ->). cbn [bind]. destruct (is_blank x); [exact HS|]. exists r. reflexivity. }
  destruct HX as (r' & ->). cbn [bind]. rewrite IH by assumption. reflexivity.
Qed.

Theorem C52_panic_exact : forall t cols,
  (HideDuplicateColumns t cols = Panic <-> exists c row, In c cols /\ In row (t_rows t) /\ ~ (0 <= c < len row)) /\
  (forall e, HideDuplicateColumns t cols <> Err e).
Proof.
  intros t cols. unfold HideDuplicateColumns.
  assert (HG : forall rows, map (@length string) rows = map (@length string) (t_rows t) ->
    ((exists rows', for_each cols (fun c rows => strip_rows c true EmptyString rows) rows = Ok rows') /\
     forall c row, In c cols -> In row (t_rows t) -> 0 <= c < len row) \/
    for_each cols (fun c rows => strip_rows c true EmptyString rows) rows = Panic /\
    exists c row, In c cols /\ In row (t_rows t) /\ ~ (0 <= c < len row)).
  { induction cols as [|c cols IH]; intros rows HL; [left; split; [eexists; reflexivity|intros c row []]|]. cbn [for_each].
    assert (HIn : forall (P : nat -> Prop) a b, map (@length string) a = map (@length string) b ->
              (forall r : list string, In r a -> P (length r)) -> forall r, In r b -> P (length r)).
    { intros P a b E H r I. assert (HM : In (length r) (map (@length string) a)) by (rewrite E; apply in_map; exact I).
      apply in_map_iff in HM as (r' & EL & I'). rewrite <- EL. auto. }
    destruct rows as [|r0 rs].
    - cbn [strip_rows bind]. assert (HT : t_rows t = []) by (destruct (t_rows t); [reflexivity|discriminate HL]).
      destruct (IH [] HL) as [[HO _]|(HP & c' & row & I & HR)]; [left; split; [exact HO|]|right].
      + rewrite HT. intros c' row _ [].
      + split; [exact HP|]. exists c', row. split; [right; exact I|exact HR].
    - remember (r0 :: rs) as rows eqn:Hrows.
      assert (HD : (0 <= c /\ Forall (fun r => c < len r) rows) \/ exists row, In row rows /\ ~ (0 <= c < len row)).
      { destruct (Forall_dec (fun r : list string => c < len r) (fun r => Z_lt_dec c (len r)) rows) as [F|F].
        - destruct (Z_le_dec 0 c) as [P|P]; [left; auto|]. right. exists r0. split; [subst; left; reflexivity|lia].
        - right. apply neg_Forall_Exists_neg in F; [|intros r; apply Z_lt_dec].
          apply Exists_exists in F as (row & I & N). exists row. split; [exact I|lia]. }
      destruct HD as [[H1 H2]|(row & I & N)].
      + destruct (strip_total c rows true EmptyString H1 H2) as (rows' & -> & L). cbn [bind].
        destruct (IH rows' ltac:(congruence)) as [[HO HA]|(HP & c' & row & I & HR)]; [left; split; [exact HO|]|right].
        * intros c' row [<-|I] HR; [|exact (HA c' row I HR)]. split; [exact H1|]. rewrite Forall_forall in H2.
          exact (HIn (fun n => c < Z.of_nat n) rows (t_rows t) HL H2 row HR).
        * split; [exact HP|]. exists c', row. split; [right; exact I|exact HR].
      + right. rewrite strip_panics; [|intros [H1 H2]; rewrite Forall_forall in H2; specialize (H2 row I); lia|congruence].
        split; [reflexivity|]. exists c.
        assert (HM : In (length row) (map (@length string) (t_rows t))) by (rewrite <- HL; apply in_map; exact I).
        apply in_map_iff in HM as (row' & EL & I'). exists row'. split; [left; reflexivity|]. split; [exact I'|].
        unfold len in *. rewrite EL. exact N. }
  destruct (HG (t_rows t) eq_refl) as [[(rows' & ->) HA]|(-> & HX)]; cbn [bind].
  - split; [|intros e X; discriminate X]. split; [intros X; discriminate X|].
    intros (c & row & I & R & N). exfalso. apply N, HA; assumption.
  - split; [|intros e X; discriminate X]. split; [intros _; exact HX|reflexivity].
Qed.

Example C52_panic_ex : HideDuplicateColumns (mkTable ["a"; "b"] [["1"; "x"]; ["1"]])%string [0; 1] = Panic.
Proof. vm_compute. reflexivity. Qed.

(** ** C56: the request of a get or set command *)

(** The arguments write the numbers [o] and [p] and, for set, the bytes [data]. *)
Definition argument (s : string) (v : Z) : Prop :=
  exists ds, spells s ds /\ Nat.even (length ds) = true /\ v = number 16 ds.

Lemma argument_nonneg s v : argument s v -> 0 <= v.
Proof.
  intros (ds & H1 & H2 & ->). destruct (nibbles_even ds (spells_range s ds H1) H2) as (bs & -> & HB). rewrite number_nibbles. unfold number.
  assert (HG : forall r, 0 <= r -> 0 <= fold_left (fun a d => 256 * a + d) bs r).
  { clear -HB. induction HB as [|b bs [B _] _ IH]; intros r Hr; cbn [fold_left]; [exact Hr|]. apply IH. lia. }
  apply HG. lia.
Qed.

Lemma argument_int s v : argument s v -> hexStringToInt s = Ok (i64 v).
Proof. intros (ds & H1 & H2 & ->). apply C53_number. exists ds. auto. Qed.

Lemma u64_i64_mod v m : 0 < m -> (2 ^ 64) mod m = 0 -> u64 (i64 v) mod m = v mod m.
Proof.
  intros H0 HD. apply Z.mod_divide in HD; [|lia]. unfold u64. rewrite i64_mod.
  destruct HD as (q & HQ). rewrite (Z.mod_eq v (2 ^ 64)) by lia. rewrite HQ at 1.
  replace (v - q * m * (v / 2 ^ 64)) with (v + (- (q * (v / 2 ^ 64))) * m) by ring. apply Z.mod_add. lia.
Qed.

Lemma SetDEOJ_mod v w : u64 (i64 v) = w -> SetDEOJ NewMessage w = SetDEOJ NewMessage (v mod 2 ^ 24).
Proof.
  intros <-. unfold SetDEOJ. f_equal. change (length (m_deoj NewMessage)) with 3%nat.
  apply be_value_inj; try apply IntegerToByte_bytes; [rewrite !IntegerToByte_length; reflexivity|].
  assert (H0 : 0 <= u64 (i64 v)) by (unfold u64; apply Z.mod_pos_bound; lia).
  rewrite !be_value_IntegerToByte. change (256 ^ Z.of_nat 3) with (2 ^ 24).
  assert (HU : u64 (u64 (i64 v)) = u64 (i64 v)) by (unfold u64; rewrite Z.mod_mod by lia; reflexivity).
  rewrite HU, (u64_i64_mod v (2 ^ 24)) by (vm_compute; reflexivity).
  unfold u64. pose proof (Z.mod_pos_bound v (2 ^ 24) ltac:(lia)) as HB.
  rewrite (Z.mod_small (v mod 2 ^ 24) (2 ^ 64)) by lia. rewrite Z.mod_mod by lia. reflexivity.
Qed.

Lemma u8_i64 v : u8 (i64 v) = v mod 256.
Proof.
  unfold u8. rewrite <- (u64_i64_mod v 256) by (vm_compute; reflexivity). unfold u64.
  symmetry. rewrite (Z.mod_eq (i64 v) (2 ^ 64)) by lia.
  replace (i64 v - 2 ^ 64 * (i64 v / 2 ^ 64)) with (i64 v + (- (2 ^ 56 * (i64 v / 2 ^ 64))) * 256) by lia. apply Z.mod_add. lia.
Qed.

(** The construction history of a request. *)
Definition request_ops (o p esv tid seoj : Z) (data : list Z) : list msg_op :=
  [OSetDEOJ o; OSetESV esv; OAddProperty p data; OSetTID tid; OSetSEOJ seoj].

Lemma request_wire o p esv tid seoj data :
  0 <= tid < 65536 -> 0 <= seoj < 2 ^ 24 -> 0 <= esv < 256 -> is_bytes data -> (length data <= 255)%nat ->
  Bytes (SetSEOJ (SetTID (AddProperties (SetESV (SetDEOJ NewMessage (o mod 2 ^ 24)) esv) [mkPProp (p mod 256) data]) tid) seoj)
  = Ok (wire_frame tid seoj (o mod 2 ^ 24) esv [(p mod 256, data)]).
Proof.
  intros H1 H2 H3 H4 H5.
  pose proof (represents_Bytes (built (request_ops (o mod 2 ^ 24) (p mod 256) esv tid seoj data)) _ (built_represents _)) as HB.
  apply HB. unfold in_limits, content_of, request_ops, frame_in_limits. cbn [fold_left content_step c_tid c_seoj c_deoj c_esv c_props empty_content app length].
  pose proof (Z.mod_pos_bound o (2 ^ 24) ltac:(lia)). pose proof (Z.mod_pos_bound p 256 ltac:(lia)).
  repeat (split; [lia|]). constructor; [|constructor]. split; [cbn [fst]; lia|]. split; [exact H5|]. exact H4.
Qed.

(** What a get command asks for, for all arguments. *)
Theorem C56_get_exact : forall obj prop o p tid seoj, argument obj o -> argument prop p ->
  0 <= tid < 65536 -> 0 <= seoj < 2 ^ 24 ->
  exists req, get_request obj prop = Ok req /\
    Bytes (SetSEOJ (SetTID req tid) seoj) = Ok (wire_frame tid seoj (o mod 2 ^ 24) 0x62 [(p mod 256, [])]).
Proof.
  intros obj prop o p tid seoj HO HP HT HS. unfold get_request. rewrite (argument_int _ _ HO), (argument_int _ _ HP). cbn [bind].
  eexists. split; [reflexivity|]. rewrite (SetDEOJ_mod o _ eq_refl), u8_i64.
  apply request_wire; [assumption|assumption|unfold ESVReadRequest; lia|constructor|cbn; lia].
Qed.

(** For codes that fit: exactly the object and property named. *)
Theorem C56_get_partial : forall obj prop o p tid seoj, argument obj o -> argument prop p -> o < 2 ^ 24 -> p < 256 ->
  0 <= tid < 65536 -> 0 <= seoj < 2 ^ 24 ->
  exists req, get_request obj prop = Ok req /\ Bytes (SetSEOJ (SetTID req tid) seoj) = Ok (wire_frame tid seoj o 0x62 [(p, [])]).
Proof.
  intros obj prop o p tid seoj HO HP H1 H2 HT HS.
  pose proof (argument_nonneg _ _ HO). pose proof (argument_nonneg _ _ HP).
  rewrite <- (Z.mod_small o (2 ^ 24)) by lia. rewrite <- (Z.mod_small p 256) by lia. apply C56_get_exact; assumption.
Qed.

Lemma sent_by_set nd t m a : tid_ok nd -> n_running nd = true -> has_np (n_profiles nd) -> t = (n_lastTID nd + 1) mod 65536 ->
  SendMessage nd a m = (hand_over (with_lastTID nd t) (Unicast a (SetSEOJ (SetTID m t) 0x0EF001)), None).
Proof.
  intros Ho Hr (np & rest & Hp & Hc & _) ->. unfold SendMessage, send_with. rewrite Hr. cbn [negb].
  unfold updateMessageDestinationHeader. rewrite NextTID_spec by assumption.
  rewrite (NodeProfile_first _ np rest) by assumption. cbn [obj_at with_lastTID n_profiles]. rewrite Hp. cbn [nth_error].
  rewrite (np_Code np Hc). reflexivity.
Qed.

(** A set command, from any state of a running node, sends one SetI request to
    the node found under the address, and this is its exact content. *)
Theorem C56_set_exact : forall ops nd ct ip n obj prop data o p bs,
  Forall node_op_ok ops -> node_after ops = Ok nd -> n_running nd = true ->
  LookupNode ct ip = Some n -> argument obj o -> argument prop p -> spells data (nibbles bs) -> is_bytes bs -> (length bs <= 255)%nat ->
  exists nd' m tid, set_command nd ct ip obj prop data = (nd', None) /\
    n_sent nd' = n_sent nd ++ [Unicast (rn_addr n) m] /\ 0 <= tid < 65536 /\
    Bytes m = Ok (wire_frame tid 0x0EF001 (o mod 2 ^ 24) 0x60 [(p mod 256, bs)]).
Proof.
  intros ops nd ct ip n obj prop data o p bs Hops HA HR HL HO HP HD HB HN.
  destruct (node_after_spec ops Hops) as (nd0 & E0 & (_ & _ & Hnp) & _ & HT & _).
  rewrite HA in E0. injection E0 as <-. cbn [core_of k_profs] in Hnp.
  assert (Ho : tid_ok nd) by (unfold tid_ok; rewrite HT; apply mod_tid).
  unfold set_command, set_request. rewrite (argument_int _ _ HO), (argument_int _ _ HP). cbn [bind].
  rewrite (proj2 (C53_bytes data bs) (conj HD HB)). cbn [bind]. rewrite HL.
  rewrite (sent_by_set nd _ _ _ Ho HR Hnp eq_refl). eexists. eexists. exists ((n_lastTID nd + 1) mod 65536).
  split; [reflexivity|]. split; [reflexivity|]. pose proof (mod_tid (n_lastTID nd + 1)). split; [lia|].
  rewrite (SetDEOJ_mod o _ eq_refl), u8_i64.
  apply request_wire; [lia|lia|unfold ESVWriteRequest; lia|exact HB|exact HN].
Qed.

Theorem C56_set_partial : forall ops nd ct ip n obj prop data o p bs,
  Forall node_op_ok ops -> node_after ops = Ok nd -> n_running nd = true ->
  LookupNode ct ip = Some n -> argument obj o -> argument prop p -> spells data (nibbles bs) -> is_bytes bs -> (length bs <= 255)%nat ->
  o < 2 ^ 24 -> p < 256 ->
  exists nd' m tid, set_command nd ct ip obj prop data = (nd', None) /\
    n_sent nd' = n_sent nd ++ [Unicast (rn_addr n) m] /\ 0 <= tid < 65536 /\
    Bytes m = Ok (wire_frame tid 0x0EF001 o 0x60 [(p, bs)]).
Proof.
  intros ops nd ct ip n obj prop data o p bs Hops HA HR HL HO HP HD HB HN H1 H2.
  pose proof (argument_nonneg _ _ HO). pose proof (argument_nonneg _ _ HP).
  destruct (C56_set_exact ops nd ct ip n obj prop data o p bs Hops HA HR HL HO HP HD HB HN) as (nd' & m & tid & A & B & C & D).
  rewrite !Z.mod_small in D by lia. exists nd', m, tid. auto.
Qed.

(** A malformed argument is reported, and nothing is sent. *)
Theorem C56_malformed : forall nd ct ip obj prop data,
  (forall o, ~ argument obj o) \/ (forall p, ~ argument prop p) \/ (forall bs, ~ (spells data (nibbles bs) /\ is_bytes bs)) ->
  exists e, set_command nd ct ip obj prop data = (nd, Some e).
Proof.
  intros nd ct ip obj prop data H.
  assert (HI : forall s, (exists v, argument s v) \/ exists e, hexStringToInt s = Err e).
  { intros s. destruct (C53_no_panic s) as [HP _]. destruct (hexStringToInt s) as [v|e|] eqn:E; [|right; exists e; reflexivity|contradiction].
    left. apply C53_number in E as (ds & H1 & H2 & _). exists (number 16 ds), ds. auto. }
  unfold set_command, set_request.
  destruct (HI obj) as [(o & HO)|(e & ->)]; [|exists e; reflexivity]. rewrite (argument_int _ _ HO). cbn [bind].
  destruct (HI prop) as [(p & HP)|(e & ->)]; [|exists e; reflexivity]. rewrite (argument_int _ _ HP). cbn [bind].
  destruct (C53_no_panic data) as [_ HN]. destruct (hexStringToByte data) as [bs|e|] eqn:E; [|exists e; reflexivity|contradiction].
  exfalso. apply C53_bytes in E. destruct H as [H|[H|H]]; [exact (H o HO)|exact (H p HP)|exact (H bs E)].
Qed.

Theorem C56_unknown_node : forall nd ct ip obj prop data, LookupNode ct ip = None ->
  exists e, set_command nd ct ip obj prop data = (nd, Some e).
Proof.
  intros nd ct ip obj prop data H. unfold set_command. destruct (set_request obj prop data); rewrite ?H; eexists; reflexivity.
Qed.

(** False in the code: codes that do not fit are cut without an error, and an
    empty argument is code 0, so the request goes to another object. *)
Theorem C56_refuted :
  (exists obj prop o p req, argument obj o /\ argument prop p /\ get_request obj prop = Ok req /\
     DEOJ req <> o /\ map pp_code (m_ep req) <> [p]) /\
  (exists req, get_request "" "" = Ok req /\ DEOJ req = 0 /\ map pp_code (m_ep req) = [0]).
Proof.
  split.
  - exists "0105FF01"%string, "0180"%string, 0x0105FF01, 0x0180. eexists.
    split; [exists [0; 1; 0; 5; 15; 15; 0; 1]; split; [apply spells_clean; vm_compute; reflexivity|split; vm_compute; reflexivity]|].
    split; [exists [0; 1; 8; 0]; split; [apply spells_clean; vm_compute; reflexivity|split; vm_compute; reflexivity]|].
    split; [vm_compute; reflexivity|]. split; vm_compute; discriminate.
  - eexists. split; [vm_compute; reflexivity|]. split; vm_compute; reflexivity.
Qed.

(** More than 255 bytes of data: the size byte on the wire is wrong. *)
Theorem C56_long_data_refuted : exists req b,
  set_request "029001" "80" (fmt_bytes (repeat 0x30 256)) = Ok req /\ Bytes req = Ok b /\
  nth_error b 13 = Some 0 /\ length b = 270%nat.
Proof. eexists. eexists. split; [vm_compute; reflexivity|]. split; [vm_compute; reflexivity|]. split; vm_compute; reflexivity. Qed.

Example C56_ex : match get_request "029001" "b0" with Ok r => Bytes r | _ => Panic end
  = Ok [0x10; 0x81; 0; 0; 0; 0; 0; 2; 0x90; 1; 0x62; 1; 0xB0; 0].
Proof. vm_compute. reflexivity. Qed.

(** ** C57: the printed response *)

Lemma cells_inj ps : forall qs, Forall (fun p => is_byte (pp_code p) /\ is_bytes (pp_data p)) ps ->
  Forall (fun p => is_byte (pp_code p) /\ is_bytes (pp_data p)) qs -> flat_map prop_cells ps = flat_map prop_cells qs -> ps = qs.
Proof.
  induction ps as [|[c d] ps IH]; intros [|[c' d'] qs] Fp Fq E; try discriminate E; [reflexivity|].
  inversion Fp as [|? ? [Hc Hd] Fp']; subst. inversion Fq as [|? ? [Hc' Hd'] Fq']; subst. cbn [pp_code pp_data] in *.
  cbn [flat_map] in E. unfold prop_cells at 1 3 in E. cbn [app pp_code pp_data] in E. injection E as E1 _ E3 E4.
  apply fmt_X_inj in E1; [|unfold printable; unfold is_byte in *; lia..]. apply fmt_bytes_inj in E3; [|assumption..].
  subst. f_equal. apply IH; assumption.
Qed.

(** Two received messages that are printed alike agree in every field. *)
Theorem C57_determined : forall m m', received m -> received m' -> message_row m = message_row m' ->
  TID m = TID m' /\ SEOJ m = SEOJ m' /\ DEOJ m = DEOJ m' /\ m_esv m = m_esv m' /\ OPC m = OPC m' /\ m_ep m = m_ep m'.
Proof.
  intros m m' H H' E.
  destruct (received_header m H) as (A1 & A2 & A3 & A4 & A5 & A6 & A7).
  destruct (received_header m' H') as (B1 & B2 & B3 & B4 & B5 & B6 & B7).
  unfold message_row in E. cbn [app] in E. injection E as E1 E2 E3 E4 E5 E6 E7.
  assert (HT : TID m = TID m') by (apply fmt_X_inj in E2; [exact E2|unfold printable; lia..]).
  assert (HS : SEOJ m = SEOJ m') by (apply fmt_X_inj in E3; [exact E3|unfold printable; lia..]).
  assert (HD : DEOJ m = DEOJ m') by (apply fmt_X_inj in E4; [exact E4|unfold printable; lia..]).
  assert (HE : m_esv m = m_esv m') by (apply fmt_X_inj in E5; [exact E5|unfold printable; lia..]).
  assert (HO : OPC m = OPC m') by (apply fmt_X_inj in E6; [exact E6|unfold printable; lia..]).
  assert (HP : m_ep m = m_ep m') by (apply cells_inj in E7; [exact E7|apply received_props; assumption..]).
  auto 10.
Qed.

(** The JSON object of a response: every column once, with the cell of that
    column (so no two columns share a name and no cell is missing). *)
Lemma map_set_fresh m k v : ~ In k (map fst m) -> map_set m k v = m ++ [(k, v)].
Proof.
  induction m as [|[k' v'] m IH]; intros H; [reflexivity|]. cbn [map_set map fst] in *.
  destruct (String.eqb_spec k' k) as [->|N]; [exfalso; apply H; left; reflexivity|]. rewrite IH; [reflexivity|]. intros I. apply H. right. exact I.
Qed.

Lemma json_row_spec cols : forall j row m, NoDup cols -> (forall c, In c cols -> ~ In c (map fst m)) ->
  (j + length cols <= length row)%nat -> json_row cols (Z.of_nat j) row m = Ok (m ++ combine cols (skipn j row)).
Proof.
  induction cols as [|c cols IH]; intros j row m HN HF HL; cbn [json_row length] in *; [cbn; rewrite app_nil_r; reflexivity|].
  inversion HN as [|? ? HN1 HN2]; subst.
  destruct (nth_error row j) as [v|] eqn:E; [|apply nth_error_None in E; lia].
  rewrite (idx_nth _ j v E). cbn [bind]. rewrite map_set_fresh by (apply HF; left; reflexivity).
  replace (Z.of_nat j + 1) with (Z.of_nat (S j)) by lia. rewrite IH; [|exact HN2| |lia].
  - assert (ES : skipn j row = v :: skipn (S j) row).
    { clear -E. revert row E. induction j as [|j IH]; intros [|x row] E; try discriminate E; cbn in *; [congruence|]. rewrite (IH row E). reflexivity. }
    rewrite ES. cbn [combine]. rewrite <- app_assoc. reflexivity.
  - intros x Hx. rewrite map_app. cbn [map fst]. intros I. apply in_app_or in I as [I|[<-|[]]]; [|contradiction].
    apply (HF x); [right; exact Hx|exact I].
Qed.

Lemma digits_nonempty k base v : exists d l, digits (S k) base v = d :: l.
Proof. cbn [digits]. destruct (v <? base); eexists; eexists; reflexivity. Qed.
Lemma digits_nonblank base v pre : exists c s, text (map upper_digit (pre ++ rev (digits 64 base v))) = String c s.
Proof.
  destruct (digits_nonempty 63 base v) as (d & l & E). rewrite E.
  destruct (text (map upper_digit (pre ++ rev (d :: l)))) as [|c s] eqn:ET; [|exists c, s; reflexivity].
  apply (f_equal String.length) in ET. rewrite text_length, map_length, app_length, rev_length in ET. cbn in ET. lia.
Qed.
Lemma fmt_d_nonblank v : exists c s, fmt_d v = String c s.
Proof. exact (digits_nonblank 10 v []). Qed.
Lemma fmt_X_nonblank w v : exists c s, fmt_X w v = String c s.
Proof. apply digits_nonblank. Qed.

Definition column_of (c : string) (n : nat) : Prop :=
  c = ("EPC" ++ fmt_d (Z.of_nat n))%string \/ c = ("PDC" ++ fmt_d (Z.of_nat n))%string \/ c = ("EDT" ++ fmt_d (Z.of_nat n))%string.

Lemma column_in c ns : In c (flat_map (fun n => prop_columns (Z.of_nat n)) ns) -> exists n, In n ns /\ column_of c n.
Proof. intros H. apply in_flat_map in H as (n & I & H). exists n. split; [exact I|]. cbn in H. unfold column_of. intuition. Qed.

Lemma column_fun c n n' : Z.of_nat n < 256 -> Z.of_nat n' < 256 -> column_of c n -> column_of c n' -> n = n'.
Proof.
  intros H H' HC HC'. apply Nat2Z.inj. apply fmt_d_inj; [unfold printable; lia..|].
  destruct HC as [->|[->| ->]], HC' as [E|[E|E]]; try discriminate E; injection E as E; exact E.
Qed.

Lemma NoDup_columns ns : NoDup ns -> Forall (fun n => Z.of_nat n < 256) ns ->
  NoDup (flat_map (fun n => prop_columns (Z.of_nat n)) ns).
Proof.
  induction ns as [|n ns IH]; intros HN HF; [constructor|]. inversion HN as [|? ? HN1 HN2]; subst. inversion HF as [|? ? HF1 HF2]; subst.
  cbn [flat_map]. unfold prop_columns at 1. cbn [app].
  assert (HI : forall c, column_of c n -> ~ In c (flat_map (fun n => prop_columns (Z.of_nat n)) ns)).
  { intros c HC I. apply column_in in I as (n' & I & HC'). rewrite Forall_forall in HF2.
    rewrite (column_fun c n n' HF1 (HF2 n' I) HC HC') in HN1. contradiction. }
  repeat constructor.
  - intros [E|[E|I]]; [discriminate E|discriminate E|]. apply (HI _ ltac:(left; reflexivity) I).
  - intros [E|I]; [discriminate E|]. apply (HI _ ltac:(right; left; reflexivity) I).
  - intros I. apply (HI _ ltac:(right; right; reflexivity) I).
  - apply IH; assumption.
Qed.

Lemma Columns_one m : 0 <= OPC m -> Columns [m] = ["EHD"; "TID"; "SEOJ"; "DEOJ"; "ESV"; "OPC"]%string
    ++ flat_map (fun n => prop_columns (Z.of_nat n)) (seq 0 (Z.to_nat (OPC m))).
Proof.
  intros H. unfold Columns, max_opc. cbn [fold_left]. replace (if 0 <? OPC m then OPC m else 0) with (OPC m); [reflexivity|].
  destruct (Z.ltb_spec 0 (OPC m)); lia.
Qed.

Lemma Columns_NoDup m : 0 <= OPC m < 256 -> NoDup (Columns [m]).
Proof.
  intros H. rewrite Columns_one by lia. cbn [app].
  assert (HI : forall c, In c ["EHD"; "TID"; "SEOJ"; "DEOJ"; "ESV"; "OPC"]%string ->
                 ~ In c (flat_map (fun n => prop_columns (Z.of_nat n)) (seq 0 (Z.to_nat (OPC m))))).
  { intros c HC I. apply column_in in I as (n & _ & HE). destruct (fmt_d_nonblank (Z.of_nat n)) as (x & s & EF). unfold column_of in HE. rewrite EF in HE.
    cbn in HC. repeat destruct HC as [<-|HC]; [..|contradiction]; destruct HE as [HE|[HE|HE]]; discriminate HE. }
  repeat match goal with
  | |- NoDup (?c :: flat_map _ _) => constructor; [apply HI; cbn; auto 10|]
  | |- NoDup (?c :: _) => constructor; [intros I; cbn [In] in I; repeat destruct I as [I|I]; try discriminate I; revert I; apply HI; cbn; auto 10|]
  end.
  apply NoDup_columns; [apply seq_NoDup|]. apply Forall_forall. intros n Hn. apply in_seq in Hn. lia.
Qed.

Lemma row_length m : length (message_row m) = (6 + 3 * length (m_ep m))%nat.
Proof.
  unfold message_row. rewrite app_length. cbn [length]. f_equal.
  induction (m_ep m) as [|p ps IH]; [reflexivity|]. cbn [flat_map]. rewrite app_length, IH. cbn [prop_cells length]. lia.
Qed.
Lemma props_columns_length k : forall j, length (flat_map (fun n => prop_columns (Z.of_nat n)) (seq j k)) = (3 * k)%nat.
Proof. induction k as [|k IH]; intros j; [reflexivity|]. cbn [seq flat_map]. rewrite app_length, IH. cbn [prop_columns length]. lia. Qed.
Lemma columns_length m : 0 <= OPC m -> length (Columns [m]) = (6 + 3 * Z.to_nat (OPC m))%nat.
Proof.
  intros H. rewrite Columns_one by exact H. rewrite app_length, props_columns_length. reflexivity.
Qed.

Theorem C57_json : forall m, received m ->
  OutputJSON (message_table [m]) = Ok [combine (Columns [m]) (message_row m)] /\
  NoDup (Columns [m]) /\ length (Columns [m]) = length (message_row m).
Proof.
  intros m H. destruct (received_header m H) as (_ & _ & _ & A4 & _ & A6 & _).
  pose proof (Columns_NoDup m A4) as HN.
  assert (HL : length (Columns [m]) = length (message_row m)) by (rewrite row_length, columns_length by lia; lia).
  split; [|auto]. unfold OutputJSON, message_table, Rows. cbn [t_columns t_rows map json_rows].
  change 0 with (Z.of_nat 0). rewrite json_row_spec; [reflexivity|exact HN|intros c _ []|lia].
Qed.

(** A response to "get 80" of a light that is on, and the table printed. *)
Definition ex_response : list Z := [0x10; 0x81; 0; 1; 2; 0x90; 1; 0x0E; 0xF0; 1; 0x72; 1; 0x80; 1; 0x30].
Example C57_ex : match NewMessageWithBytes ex_response with Ok m => OutputJSON (message_table [m]) | _ => Panic end
  = Ok [[("EHD", "1081"); ("TID", "0001"); ("SEOJ", "029001"); ("DEOJ", "0EF001"); ("ESV", "72"); ("OPC", "01");
         ("EPC0", "80"); ("PDC0", "01"); ("EDT0", "30")]]%string.
Proof. vm_compute. reflexivity. Qed.

(** False in the code for several messages: OutputJSON panics as soon as one of
    them has fewer properties than another. *)
Theorem C57_several_refuted : forall m m', received m -> received m' -> OPC m < OPC m' ->
  OutputJSON (message_table [m; m']) = Panic.
Proof.
  intros m m' H H' HO. destruct (received_header m H) as (_ & _ & _ & A4 & _ & A6 & _).
  unfold OutputJSON, message_table, Rows. cbn [t_columns t_rows map json_rows].
  assert (HL : (length (message_row m) < length (Columns [m; m']))%nat).
  { rewrite row_length. unfold Columns, max_opc. cbn [fold_left]. rewrite app_length.
    assert (HM : (if (if 0 <? OPC m then OPC m else 0) <? OPC m' then OPC m' else if 0 <? OPC m then OPC m else 0) = OPC m').
    { destruct (Z.ltb_spec 0 (OPC m)); destruct (Z.ltb_spec (OPC m) (OPC m')); try lia. destruct (Z.ltb_spec 0 (OPC m')); lia. }
    rewrite HM. clear HM.
    rewrite props_columns_length. cbn [length]. lia. }
  assert (HP : forall cols j row mm, (j <= length row)%nat -> (length row < j + length cols)%nat -> json_row cols (Z.of_nat j) row mm = Panic).
  { clear. induction cols as [|c cols IH]; intros j row mm H0 HJ; cbn [json_row length] in *; [lia|].
    destruct (nth_error row j) as [v|] eqn:E.
    - assert (HJ' : (j < length row)%nat) by (apply nth_error_Some; congruence).
      rewrite (idx_nth _ j v E). cbn [bind]. replace (Z.of_nat j + 1) with (Z.of_nat (S j)) by lia. apply IH; lia.
    - unfold idx. destruct (Z.ltb_spec (Z.of_nat j) 0); [lia|]. rewrite Nat2Z.id, E. reflexivity. }
  change 0 with (Z.of_nat 0). rewrite HP; [reflexivity|lia|lia].
Qed.

(** ** C58: comma separated output *)

(** [plain s]: no comma and no line break. *)
Definition plain_table (t : table) : Prop :=
  t_columns t <> [] /\ Forall plain (t_columns t) /\ Forall (fun r => r <> [] /\ Forall plain r) (t_rows t).

(** The text determines the table. *)
Theorem C58_determined_partial : forall t t', plain_table t -> plain_table t' -> OutputCSV t = OutputCSV t' -> t = t'.
Proof.
  intros [c r] [c' r'] (H1 & H2 & H3) (H1' & H2' & H3') E. cbn [t_columns t_rows] in *. unfold OutputCSV in E. cbn [t_columns t_rows] in E.
  apply csv_inj in E; [|constructor; auto..]. congruence.
Qed.

Lemma text_chars l : list_ascii_of_string (text l) = l.
Proof. induction l as [|c l IH]; cbn; [reflexivity|]. rewrite IH. reflexivity. Qed.

Lemma upper_plain d : 0 <= d < 16 -> ~ sep (upper_digit d).
Proof.
  intros H [E|E]; pose proof (sixteen d H) as HH; repeat destruct HH as [HH|HH]; subst d; vm_compute in E; discriminate E.
Qed.
Lemma digits_plain l : Forall (fun d => 0 <= d < 16) l -> plain (text (map upper_digit l)).
Proof.
  intros H c Hc. rewrite text_chars in Hc. apply in_map_iff in Hc as (d & <- & Hd). apply upper_plain. rewrite Forall_forall in H. auto.
Qed.
Lemma fmt_X_plain w v : printable v -> plain (fmt_X w v).
Proof. intros H. apply digits_plain. apply (digits_ok 16); [lia|exact H]. Qed.
Lemma fmt_d_plain v : printable v -> plain (fmt_d v).
Proof. intros H. apply digits_plain. apply (digits_ok 10 v 0); [lia|exact H]. Qed.
Lemma fmt_bytes_plain l : is_bytes l -> plain (fmt_bytes l).
Proof.
  intros H c Hc. unfold fmt_bytes in Hc. rewrite text_chars in Hc. apply in_flat_map in Hc as (b & Hb & Hc).
  unfold is_bytes in H. rewrite Forall_forall in H. destruct (H b Hb) as [B1 B2]. destruct Hc as [<-|[<-|[]]]; apply upper_plain.
  - split; [apply Z.div_pos; lia|apply Z.div_lt_upper_bound; lia].
  - apply Z.mod_pos_bound. lia.
Qed.
Lemma plain_app a b : plain a -> plain b -> plain (a ++ b)%string.
Proof.
  intros Ha Hb c. induction a as [|x a IH]; cbn; [apply Hb|]. intros [<-|H]; [apply Ha; left; reflexivity|].
  apply IH; [|exact H]. intros y Hy. apply Ha. right. exact Hy.
Qed.

Lemma plain_literal s : forallb (fun c => negb (Ascii.eqb c comma || Ascii.eqb c nl)) (list_ascii_of_string s) = true -> plain s.
Proof.
  intros H c Hc [->| ->]; rewrite forallb_forall in H; specialize (H _ Hc); vm_compute in H; discriminate H.
Qed.

Lemma ehd_bytes m : received m -> is_byte (m_ehd1 m) /\ is_byte (m_ehd2 m).
Proof.
  intros (data & m0 & a & t & HB & HM & ->). cbn [SetPacketType SetFrom m_ehd1 m_ehd2].
  destruct (decoded_represents data m0 HB HM) as (c & (-> & -> & _) & _). unfold is_byte. lia.
Qed.

Lemma received_short m : received m -> Forall (fun p => (length (pp_data p) <= 255)%nat) (m_ep m).
Proof.
  intros (data & m0 & a & t & HB & HM & ->). cbn [SetPacketType SetFrom m_ep].
  destruct (Z_lt_le_dec (len data) 12) as [HL|HL].
  - rewrite ParseBytes_short in HM by assumption. discriminate HM.
  - destruct (list12 _ HL) as (e1&e2&t0&t1&s0&s1&s2&d0&d1&d2&e&o&area&->). rewrite ParseBytes_long in HM by assumption.
    destruct ((e1 =? 16) && (e2 =? 129)); [|discriminate HM]. injection HM as <-. unfold parsed. cbn [m_ep].
    apply Forall_map. do 12 (apply Forall_inv_tail in HB).
    eapply Forall_impl; [|apply (PropsNode.split_props_short (Z.to_nat o) area HB)]. intros [x d] H. exact H.
Qed.

Lemma message_plain m : received m -> plain_table (message_table [m]).
Proof.
  intros H. destruct (received_header m H) as (A1 & A2 & A3 & A4 & A5 & A6 & _). pose proof (received_props m H) as HP.
  destruct (ehd_bytes m H) as [HE1 HE2]. unfold is_byte in HE1, HE2.
  unfold plain_table, message_table. cbn [t_columns t_rows]. split; [unfold Columns; discriminate|]. split.
  - rewrite Columns_one by lia. apply Forall_app. split.
    + repeat constructor; apply plain_literal; vm_compute; reflexivity.
    + apply Forall_forall. intros c Hc. apply column_in in Hc as (n & Hn & HC). apply in_seq in Hn.
      destruct HC as [->|[->| ->]]; (apply plain_app; [apply plain_literal; vm_compute; reflexivity|apply fmt_d_plain; unfold printable; lia]).
  - constructor; [|constructor]. split; [unfold message_row; discriminate|]. unfold message_row. apply Forall_app. split.
    + repeat constructor; try (apply fmt_X_plain; unfold printable; lia). apply plain_app; apply fmt_X_plain; unfold printable; lia.
    + pose proof (received_short m H) as HSh. clear -HP HSh. revert HSh. induction HP as [|p ps [P1 P2] _ IH]; intros HSh; [constructor|]. cbn [flat_map].
      inversion HSh as [|? ? S1 S2]; subst. apply Forall_app. split; [|exact (IH S2)]. unfold is_byte in P1.
      repeat constructor; [apply fmt_X_plain; unfold printable; lia| |apply fmt_bytes_plain; exact P2].
      apply fmt_X_plain. unfold printable, pp_Size, len. lia.
Qed.

(** The text printed for a response determines the response. *)
Theorem C58_message : forall m m', received m -> received m' ->
  OutputCSV (message_table [m]) = OutputCSV (message_table [m']) ->
  TID m = TID m' /\ SEOJ m = SEOJ m' /\ DEOJ m = DEOJ m' /\ m_esv m = m_esv m' /\ OPC m = OPC m' /\ m_ep m = m_ep m'.
Proof.
  intros m m' H H' E. apply C57_determined; [assumption..|].
  apply C58_determined_partial in E; [|apply message_plain; assumption..].
  apply (f_equal t_rows) in E. cbn [message_table Rows t_rows map] in E.
  apply (f_equal (fun l => hd [] l)) in E. exact E.
Qed.

(** How many fields a reader of the text finds in a line: the separators and one. *)
Definition fields (line : string) : nat :=
  S (length (filter (Ascii.eqb comma) (list_ascii_of_string line))).

Lemma filter_plain s : plain s -> filter (Ascii.eqb comma) (list_ascii_of_string s) = [].
Proof.
  induction s as [|c s IH]; intros H; [reflexivity|]. cbn [list_ascii_of_string filter].
  destruct (Ascii.eqb_spec comma c) as [<-|N]; [exfalso; apply (H comma); [left; reflexivity|left; reflexivity]|].
  apply IH. intros y Hy. apply H. right. exact Hy.
Qed.
Lemma string_app_chars a b : list_ascii_of_string (a ++ b)%string = list_ascii_of_string a ++ list_ascii_of_string b.
Proof. induction a as [|c a IH]; cbn; [reflexivity|]. rewrite IH. reflexivity. Qed.

(** In a line the number of fields is the number of cells exactly if no cell has a comma. *)
Theorem C58_fields_exact : forall row, row <> [] ->
  (fields (csv_line row) = length row <-> Forall (fun c => ~ In comma (list_ascii_of_string c)) row).
Proof.
  intros row HR.
  assert (HC : length (filter (Ascii.eqb comma) (list_ascii_of_string (csv_line row)))
               = (length row - 1 + list_sum (map (fun c => length (filter (Ascii.eqb comma) (list_ascii_of_string c))) row))%nat).
  { destruct row as [|c row]; [congruence|]. unfold csv_line. rewrite string_app_chars, filter_app, app_length.
    replace (length (filter (Ascii.eqb comma) (list_ascii_of_string newline))) with 0%nat by reflexivity. rewrite Nat.add_0_r. clear HR.
    revert c. induction row as [|c' row IH]; intros c; [cbn; lia|]. rewrite line_cons, string_app_chars, filter_app, app_length.
    cbn [list_ascii_of_string filter]. rewrite (Ascii.eqb_refl comma). cbn [length map list_sum fold_right]. rewrite IH.
    cbn [length map]. unfold list_sum. cbn [fold_right]. lia. }
  unfold fields. rewrite HC. destruct row as [|c0 row0]; [congruence|]. remember (c0 :: row0) as row eqn:Er.
  assert (HL : (1 <= length row)%nat) by (subst; cbn; lia). clear Er HC HR.
  assert (HS : forall l, list_sum (map (fun c => length (filter (Ascii.eqb comma) (list_ascii_of_string c))) l) = 0%nat <->
               Forall (fun c => ~ In comma (list_ascii_of_string c)) l).
  { clear. induction l as [|c l IH]; [split; [constructor|reflexivity]|]. cbn [map]. unfold list_sum in *. cbn [fold_right]. split.
    - intros H. constructor; [|apply IH; lia]. intros I.
      assert (HF : In comma (filter (Ascii.eqb comma) (list_ascii_of_string c))) by (apply filter_In; split; [exact I|apply Ascii.eqb_refl]).
      destruct (filter (Ascii.eqb comma) (list_ascii_of_string c)); [destruct HF|cbn in H; lia].
    - intros H. inversion H as [|? ? H1 H2]; subst. rewrite (proj2 IH H2).
      destruct (filter (Ascii.eqb comma) (list_ascii_of_string c)) as [|y r] eqn:EF; [reflexivity|]. exfalso. apply H1.
      assert (HF : In y (filter (Ascii.eqb comma) (list_ascii_of_string c))) by (rewrite EF; left; reflexivity).
      apply filter_In in HF as [I E]. apply Ascii.eqb_eq in E as ->. exact I. }
  rewrite <- HS. lia.
Qed.

(** False in the code: cells are not quoted.  Two tables are printed alike, and a
    manufacturer of the built-in table (database_manufacturers.go L9) makes a line of
    one field too many. *)
Theorem C58_refuted :
  (exists t t', t <> t' /\ t_columns t = t_columns t' /\ Forall (fun r => length r = length (t_columns t)) (t_rows t) /\
     Forall (fun r => length r = length (t_columns t)) (t_rows t') /\ OutputCSV t = OutputCSV t') /\
  fields (csv_line ["192.168.1.2"; "3610"; "afterFIT Co., Ltd."; "0EF001"; "Node profile"])%string = 6%nat.
Proof.
  split; [|vm_compute; reflexivity].
  exists (mkTable ["manufacture"; "object_name"] [["a"; "b,c"]])%string, (mkTable ["manufacture"; "object_name"] [["a,b"; "c"]])%string.
  repeat (split; [first [discriminate | reflexivity | repeat constructor]|]). vm_compute. reflexivity.
Qed.

Print Assumptions C52_restored.
Print Assumptions C52_lossless_partial.
Print Assumptions C52_refuted.
Print Assumptions C52_all_columns_refuted.
Print Assumptions C52_panic_exact.
Print Assumptions C53_bytes.
Print Assumptions C53_number.
Print Assumptions C53_value_partial.
Print Assumptions C53_no_panic.
Print Assumptions C53_odd_refuted.
Print Assumptions C53_refuted.
Print Assumptions C56_get_exact.
Print Assumptions C56_get_partial.
Print Assumptions C56_set_exact.
Print Assumptions C56_set_partial.
Print Assumptions C56_malformed.
Print Assumptions C56_unknown_node.
Print Assumptions C56_refuted.
Print Assumptions C56_long_data_refuted.
Print Assumptions C57_determined.
Print Assumptions C57_json.
Print Assumptions C57_several_refuted.
Print Assumptions C58_determined_partial.
Print Assumptions C58_message.
Print Assumptions C58_fields_exact.
Print Assumptions C58_refuted.
