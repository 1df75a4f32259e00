(** Theorems about the scan command: C52 (scan part) and C59. *)

From Coq Require Import String Ascii ZifyBool ZifyNat.
From Verif Require Import Go GoFacts Encoding EncodingFacts Protocol Parser MessageFacts ParserFacts
  ProtocolFacts StdDB Property PropertyFacts Object ObjectFacts Spec Node NodeFacts Handler HandlerFacts
  Remote RemoteFacts Cmd CmdFacts CmdTable.
From Verif Require PropsRemote.
From Verif Require Import PropsCmd.
Local Open Scope Z_scope.
Local Open Scope list_scope.

(** Everything below holds for every [env]: any address texts, class, property
    and manufacturer names and any results of the requests the scan posts. *)

(** ** What the rows contain *)

(** A row without details, and the cells of a row with details up to the data. *)
Definition row_of (env : scan_env) (man : string) (nd : rnode) (o : object) : list string :=
  [se_address env (a_ip (rn_addr nd)); fmt_d (a_port (rn_addr nd)); man; fmt_X 6 (Code o); object_name env o].

Lemma objects_plain env n man nd os : object_rows env false n man nd os = (n, map (row_of env man nd) os).
Proof. induction os as [|o os IH]; [reflexivity|]. cbn [object_rows]. rewrite IH. reflexivity. Qed.

Definition detail_of (env : scan_env) (man : string) (nd : rnode) (o : object) (p : property) (row : list string) : Prop :=
  exists data, row = row_of env man nd o ++ [fmt_X 2 (p_code p); property_name env o p; rule_text p; data].

Lemma properties_rows env man nd o ps : forall n,
  Forall2 (detail_of env man nd o) ps (snd (property_rows env n man nd o ps)).
Proof.
  induction ps as [|p ps IH]; intros n; cbn [property_rows]; [constructor|].
  destruct (property_data env n nd o p) as [n1 data]. specialize (IH n1).
  destruct (property_rows env n1 man nd o ps) as [n2 rows]. cbn [snd] in *. constructor; [|exact IH].
  exists data. reflexivity.
Qed.

(** The nodes a scan lists: those found, or only the one asked for. *)
Definition listed (env : scan_env) (address : string) (ct : ctrl) : list rnode :=
  match address with
  | EmptyString => ct_found ct
  | _ => filter (fun nd => String.eqb (se_address env (a_ip (rn_addr nd))) address) (ct_found ct)
  end.

(** Each node comes with one name of its manufacturer. *)
Definition blocks (env : scan_env) (nodes : list rnode) (rows : list (list string))
  (block : string -> rnode -> list (list string) -> Prop) : Prop :=
  exists parts, rows = concat parts /\ Forall2 (fun nd part => exists man, block man nd part /\
    (man = "unknown"%string \/ exists c, se_manufacture env c = Some man)) nodes parts.

Lemma man_cases env n nd :
  manufacture_name env n nd = "unknown"%string \/ exists c, se_manufacture env c = Some (manufacture_name env n nd).
Proof.
  unfold manufacture_name, unknown. destruct (se_post env n nd _) as [res|]; [|left; reflexivity].
  destruct (m_ep res) as [|p [|q r]]; [left; reflexivity| |left; reflexivity].
  destruct (se_manufacture env (ByteToInteger (pp_data p))) as [name|] eqn:E; [|left; reflexivity].
  right. exists (ByteToInteger (pp_data p)). exact E.
Qed.

Definition block_plain (env : scan_env) (man : string) (nd : rnode) (part : list (list string)) : Prop :=
  part = map (row_of env man nd) (rn_devices nd ++ rn_profiles nd).
Definition block_details (env : scan_env) (man : string) (nd : rnode) (part : list (list string)) : Prop :=
  exists subs, part = concat subs /\
    Forall2 (fun o sub => Forall2 (detail_of env man nd o) (Properties (o_props o)) sub) (rn_devices nd ++ rn_profiles nd) subs.

Lemma objects_details env man nd os : forall n,
  exists subs, snd (object_rows env true n man nd os) = concat subs /\
    Forall2 (fun o sub => Forall2 (detail_of env man nd o) (Properties (o_props o)) sub) os subs.
Proof.
  induction os as [|o os IH]; intros n; [exists []; split; [reflexivity|constructor]|]. cbn [object_rows].
  pose proof (properties_rows env man nd o (Properties (o_props o)) n) as HP.
  destruct (property_rows env n man nd o (Properties (o_props o))) as [n1 mine]. cbn [snd] in HP.
  destruct (IH n1) as (subs & E & F). destruct (object_rows env true n1 man nd os) as [n2 rows]. cbn [snd] in *. subst rows.
  exists (mine :: subs). split; [reflexivity|]. constructor; assumption.
Qed.

Lemma nodes_rows env details address nodes : forall n,
  blocks env (match address with EmptyString => nodes | _ => filter (fun nd => String.eqb (se_address env (a_ip (rn_addr nd))) address) nodes end)
    (node_rows env details address n nodes) (if details then block_details env else block_plain env).
Proof.
  induction nodes as [|nd nodes IH]; intros n.
  { exists []. split; [reflexivity|]. destruct address; constructor. }
  cbn [node_rows]. cbv zeta.
  assert (HB : exists mine n', object_rows env details (S n) (manufacture_name env n nd) nd (rn_devices nd ++ rn_profiles nd) = (n', mine) /\
    (if details then block_details env else block_plain env) (manufacture_name env n nd) nd mine).
  { destruct details.
    - destruct (objects_details env (manufacture_name env n nd) nd (rn_devices nd ++ rn_profiles nd) (S n)) as (subs & E & F).
      destruct (object_rows env true (S n) (manufacture_name env n nd) nd (rn_devices nd ++ rn_profiles nd)) as [n' mine].
      exists mine, n'. split; [reflexivity|]. exists subs. split; [exact E|exact F].
    - exists (map (row_of env (manufacture_name env n nd) nd) (rn_devices nd ++ rn_profiles nd)), (S n).
      rewrite objects_plain. split; reflexivity. }
  destruct HB as (mine & n' & EB & HB). rewrite EB.
  assert (HC : blocks env (nd :: match address with EmptyString => nodes | _ => filter (fun nd => String.eqb (se_address env (a_ip (rn_addr nd))) address) nodes end)
    (mine ++ node_rows env details address n' nodes) (if details then block_details env else block_plain env)).
  { destruct (IH n') as (parts & E & F). exists (mine :: parts). split; [cbn [concat]; rewrite <- E; reflexivity|].
    constructor; [|exact F]. exists (manufacture_name env n nd). split; [exact HB|apply man_cases]. }
  destruct address as [|c address]; [exact HC|]. cbn [is_blank negb andb filter].
  destruct (String.eqb (se_address env (a_ip (rn_addr nd))) (String c address)); cbn [negb]; [exact HC|apply IH].
Qed.

(** ** C59 *)

(** Without details: the rows are, in order, the objects of the listed nodes,
    each with the address and port of its node, its code and its name. *)
Definition key (row : list string) : option (string * string * string * string) :=
  match row with [a; p; _; c; nm] => Some (a, p, c, nm) | _ => None end.

Theorem C59_listed : forall env ct address,
  map key (t_rows (DiscoveredNodeTable env ct false address)) =
  flat_map (fun nd => map (fun o => Some (se_address env (a_ip (rn_addr nd)), fmt_d (a_port (rn_addr nd)), fmt_X 6 (Code o), object_name env o))
                          (rn_devices nd ++ rn_profiles nd)) (listed env address ct).
Proof.
  intros env ct address. destruct (nodes_rows env false address (ct_found ct) 0) as (parts & E & F).
  unfold DiscoveredNodeTable. cbn [t_rows]. rewrite E. unfold listed. clear E.
  induction F as [|nd part nodes parts (man & HB & _) _ IH]; [reflexivity|]. cbn [concat flat_map]. rewrite map_app, IH. f_equal.
  unfold block_plain in HB. rewrite HB, map_map. apply map_ext. reflexivity.
Qed.

(** With details: one row for each property of each object. *)
Definition detail_key (row : list string) : option (string * string * string * string * string * string) :=
  match row with [a; p; _; c; _; e; nm; rule; _] => Some (a, p, c, e, nm, rule) | _ => None end.

Theorem C59_details : forall env ct address,
  map detail_key (t_rows (DiscoveredNodeTable env ct true address)) =
  flat_map (fun nd => flat_map (fun o => map (fun p =>
      Some (se_address env (a_ip (rn_addr nd)), fmt_d (a_port (rn_addr nd)), fmt_X 6 (Code o), fmt_X 2 (p_code p), property_name env o p, rule_text p))
      (Properties (o_props o))) (rn_devices nd ++ rn_profiles nd)) (listed env address ct).
Proof.
  intros env ct address. destruct (nodes_rows env true address (ct_found ct) 0) as (parts & E & F).
  unfold DiscoveredNodeTable. cbn [t_rows]. rewrite E. unfold listed. clear E.
  induction F as [|nd part nodes parts (man & (subs & -> & HB) & _) _ IH]; [reflexivity|]. cbn [concat flat_map]. rewrite map_app, IH. f_equal.
  clear -HB. induction HB as [|o sub os subs H _ IH]; [reflexivity|]. cbn [concat flat_map]. rewrite map_app, IH. f_equal.
  clear -H. induction H as [|p row ps rows (data & ->) _ IH]; [reflexivity|]. cbn [map]. rewrite IH. reflexivity.
Qed.

(** False in the code: every node that was discovered is listed with its node
    profile twice. *)
Definition profile_key (env : scan_env) (nd : rnode) : option (string * string * string * string) :=
  Some (se_address env (a_ip (rn_addr nd)), fmt_d (a_port (rn_addr nd)), "0EF001"%string, object_name env np_object).

Lemma key_dec : forall a b : option (string * string * string * string), {a = b} + {a <> b}.
Proof. repeat decide equality. Qed.

Theorem C59_twice_refuted : forall env conf evs n, Forall PropsRemote.event_ok evs -> ~ In PropsRemote.Clears evs ->
  let ct := PropsRemote.ctrl_run conf evs newCtrl in
  In n (ct_found ct) ->
  (2 <= count_occ key_dec (map key (t_rows (DiscoveredNodeTable env ct false ""))) (profile_key env n))%nat.
Proof.
  intros env conf evs n HF HC ct HI.
  destruct (PropsRemote.C38_grows conf [] evs (Forall_nil _) HF HC) as (more & EM & _ & HD). cbn [app] in EM. fold ct in EM.
  change (ct_found (PropsRemote.ctrl_run conf [] newCtrl)) with (@nil rnode) in EM. cbn [app] in EM.
  assert (HN : exists ps, rn_profiles n = np_object :: ps ++ [np_object]).
  { rewrite EM in HI. rewrite Forall_forall in HD. destruct (HD n HI) as (nd & m & codes & _ & _ & _ & _ & _ & ps & E & _). exists ps. exact E. }
  destruct HN as (ps & EP). rewrite C59_listed. cbn [listed].
  assert (HX : forall l1 l2, (count_occ key_dec (l1 ++ l2) (profile_key env n) = count_occ key_dec l1 (profile_key env n) + count_occ key_dec l2 (profile_key env n))%nat)
    by (intros; apply count_occ_app).
  apply in_split in HI as (l1 & l2 & EL). rewrite EL, flat_map_app, HX. cbn [flat_map]. rewrite HX, EP.
  rewrite map_app, HX. cbn [map]. rewrite map_app. cbn [map].
  assert (EK : Some (se_address env (a_ip (rn_addr n)), fmt_d (a_port (rn_addr n)), fmt_X 6 (Code np_object), object_name env np_object) = profile_key env n).
  { unfold profile_key. replace (Code np_object) with 0x0EF001 by (symmetry; apply np_Code; reflexivity). reflexivity. }
  rewrite EK. rewrite count_occ_cons_eq by reflexivity. rewrite HX, count_occ_cons_eq by reflexivity. cbn [count_occ]. lia.
Qed.

(** A concrete scan: a controller that received the announcement of a node with
    one light; names and addresses as printed. *)
Definition ex_env : scan_env :=
  mkEnv (fun _ => "192.168.1.2"%string) (fun o => if Code o =? 0x0EF001 then "Node profile"%string else "General lighting"%string)
        (fun _ _ => ""%string) (fun _ => None) (fun _ _ _ => inr "timeout"%string).
Definition ex_found : ctrl :=
  PropsRemote.ctrl_run PropsRemote.ex_conf
    [PropsRemote.Receives PropsRemote.ex_ctrl_node (PropsRemote.ex_from 1 1 [2; 0x90; 1])] newCtrl.
Example C59_ex : t_rows (DiscoveredNodeTable ex_env ex_found false "") =
  [["192.168.1.2"; "3610"; "unknown"; "029001"; "General lighting"];
   ["192.168.1.2"; "3610"; "unknown"; "0EF001"; "Node profile"];
   ["192.168.1.2"; "3610"; "unknown"; "0EF001"; "Node profile"]]%string.
Proof. vm_compute. reflexivity. Qed.

(** ** The default format *)

(** Names and addresses are not empty. *)
Definition named (env : scan_env) : Prop :=
  (forall ip, se_address env ip <> EmptyString) /\ (forall c name, se_manufacture env c = Some name -> name <> EmptyString).

Lemma row_full env man nd o : named env -> man = "unknown"%string \/ (exists c, se_manufacture env c = Some man) ->
  Forall (fun c => c <> EmptyString) (row_of env man nd o).
Proof.
  intros [H1 H2] HM. unfold row_of. constructor; [apply H1|].
  constructor; [destruct (fmt_d_nonblank (a_port (rn_addr nd))) as (c & s & ->); discriminate|].
  constructor; [destruct HM as [->|(c & E)]; [discriminate|exact (H2 c man E)]|].
  constructor; [destruct (fmt_X_nonblank 6 (Code o)) as (c & s & ->); discriminate|].
  constructor; [|constructor]. unfold object_name, unknown. destruct (se_class_name env o) eqn:E; cbn [is_blank]; discriminate.
Qed.

Lemma scan_full env ct details address : named env -> Forall (full 5) (t_rows (DiscoveredNodeTable env ct details address)) /\
  (details = true -> Forall (fun r => ~ Forall (fun c => c = EmptyString) (skipn 5 r)) (t_rows (DiscoveredNodeTable env ct details address))) /\
  (details = false -> Forall (fun r => length r = 5%nat) (t_rows (DiscoveredNodeTable env ct details address))).
Proof.
  intros HN. destruct (nodes_rows env details address (ct_found ct) 0) as (parts & E & F).
  unfold DiscoveredNodeTable. cbn [t_rows]. rewrite E. clear E.
  assert (HC : forall (P : list string -> Prop) ls, Forall (Forall P) ls -> Forall P (concat ls)).
  { intros P ls H. induction H as [|l ls H _ IH]; [constructor|]. cbn [concat]. apply Forall_app. auto. }
  assert (HG : Forall (Forall (fun r => full 5 r /\ (details = true -> ~ Forall (fun c => c = EmptyString) (skipn 5 r)) /\
                                        (details = false -> length r = 5%nat))) parts).
  { clear HC. induction F as [|nd part nodes parts (man & HB & HM) _ IH]; constructor; [|exact IH]. clear IH. destruct details.
    - destruct HB as (subs & -> & HB). induction HB as [|o sub os subs H _ IH]; [constructor|]. cbn [concat]. apply Forall_app. split; [|exact IH].
      clear -H HM HN. induction H as [|p row ps rows (data & ->) _ IH]; constructor; [|exact IH]. split; [split|split].
      + cbn. lia.
      + exact (row_full env man nd o HN HM).
      + intros _ X. cbn [row_of app skipn] in X. apply Forall_inv in X. destruct (fmt_X_nonblank 2 (p_code p)) as (c & s & EX). rewrite EX in X. discriminate X.
      + intros X. discriminate X.
    - unfold block_plain in HB. rewrite HB. apply Forall_map, Forall_forall. intros o _. split; [split|split].
      + cbn. lia.
      + exact (row_full env man nd o HN HM).
      + intros X. discriminate X.
      + reflexivity. }
  apply HC in HG. split; [|split].
  - eapply Forall_impl; [|exact HG]. intros r (X & _). exact X.
  - intros HD. eapply Forall_impl; [|exact HG]. intros r (_ & X & _). exact (X HD).
  - intros HD. eapply Forall_impl; [|exact HG]. intros r (_ & _ & X). exact (X HD).
Qed.

(** A scan with details is printed without loss ... *)
Theorem C52_scan_details : forall env ct address, named env ->
  exists shown, scan_table env ct true address = Ok (mkTable (scan_columns true) shown) /\
    fill_down 5 shown = t_rows (DiscoveredNodeTable env ct true address).
Proof.
  intros env ct address HN. destruct (scan_full env ct true address HN) as (HF & HD & _). specialize (HD eq_refl).
  apply (C52_lossless_partial (scan_columns true) (t_rows (DiscoveredNodeTable env ct true address)) 5); [lia|exact HF|].
  intros i above row _ E [_ HA]. rewrite Forall_forall in HD. apply (HD row); [eapply nth_error_In; exact E|exact HA].
Qed.

(** ... and without details all but the repetitions of neighbouring rows. *)
Theorem C52_scan_summary : forall env ct address, named env ->
  exists shown, scan_table env ct false address = Ok (mkTable (scan_columns false) shown) /\
    without_repeats 5 (t_rows (DiscoveredNodeTable env ct false address)) (fill_down 5 shown).
Proof.
  intros env ct address HN. destruct (scan_full env ct false address HN) as (HF & _).
  apply (C52_restored (scan_columns false) (t_rows (DiscoveredNodeTable env ct false address)) 5); [lia|exact HF].
Qed.

(** So in the default format each object is listed once, if the nodes announced no
    profiles, no object twice, and if addresses have different texts. *)
Lemma without_same k rows a b : without_repeats k rows a -> without_repeats k rows b -> a = b.
Proof.
  intros H. revert b. induction H as [|r|r r' rows out HA W IH|r r' rows out HA W IH]; intros b HB; inversion HB; subst; try reflexivity; try contradiction.
  - match goal with H : without_repeats k (r' :: rows) (r' :: ?o) |- _ => specialize (IH _ H) end. congruence.
  - f_equal. apply IH. assumption.
Qed.

Lemma full_rows_eq a b : length a = 5%nat -> length b = 5%nat -> (adds_nothing 5 a b <-> b = a).
Proof.
  intros Ha Hb. unfold adds_nothing. rewrite !firstn_all2 by lia. rewrite skipn_all2 by lia. split; [tauto|]. intros ->. auto.
Qed.

(** Rows in which every row of [out] stands once or several times in a row. *)
Inductive stutters : list (list string) -> list (list string) -> Prop :=
| st_nil : stutters [] []
| st_new r rows out : stutters rows out -> stutters (r :: rows) (r :: out)
| st_again r rows out : stutters (r :: rows) (r :: out) -> stutters (r :: r :: rows) (r :: out).

Lemma stutters_head rows out : stutters rows out -> forall r rows', rows = r :: rows' -> exists out', out = r :: out'.
Proof. intros H. induction H as [|r rows out H IH|r rows out H IH]; intros r0 rows0 E; [discriminate E| |]; injection E as <- <-; eexists; reflexivity. Qed.

Lemma stutters_without rows out : stutters rows out -> NoDup out -> Forall (fun r => length r = 5%nat) rows -> without_repeats 5 rows out.
Proof.
  intros H. induction H as [|r rows out H IH|r rows out H IH]; intros HN HF; [constructor| |].
  - inversion HN as [|? ? HN1 HN2]; subst. inversion HF as [|? ? HF1 HF2]; subst. specialize (IH HN2 HF2).
    destruct rows as [|r' rows]; [inversion H; subst; constructor|]. apply wr_keep; [|exact IH].
    inversion HF2 as [|? ? HF3 _]; subst. rewrite full_rows_eq by assumption. intros ->.
    destruct (stutters_head _ _ H r rows eq_refl) as (out' & ->). apply HN1. left. reflexivity.
  - inversion HF as [|? ? HF1 HF2]; subst. apply wr_drop; [apply full_rows_eq; auto|]. apply IH; assumption.
Qed.

Lemma stutters_app a b c d : stutters a b -> stutters c d -> stutters (a ++ c) (b ++ d).
Proof. intros H1 H2. induction H1; cbn [app] in *; [exact H2|apply st_new; assumption|apply st_again; assumption]. Qed.
Lemma stutters_refl a : stutters a a.
Proof. induction a; constructor; assumption. Qed.

Definition bare (nd : rnode) : Prop :=
  rn_profiles nd = [np_object; np_object] /\ NoDup (map Code (rn_devices nd)) /\
  Forall (fun o => Code o <> 0x0EF001 /\ 0 <= Code o < 2 ^ 64) (rn_devices nd).

Theorem C59_default_partial : forall env ct, named env ->
  (forall ip ip', se_address env ip = se_address env ip' -> ip = ip') ->
  NoDup (map (fun nd => a_ip (rn_addr nd)) (ct_found ct)) -> Forall bare (ct_found ct) ->
  exists shown, scan_table env ct false "" = Ok (mkTable (scan_columns false) shown) /\ NoDup (fill_down 5 shown) /\
    map key (fill_down 5 shown) =
    flat_map (fun nd => map (fun o => Some (se_address env (a_ip (rn_addr nd)), fmt_d (a_port (rn_addr nd)), fmt_X 6 (Code o), object_name env o))
                            (rn_devices nd ++ [np_object])) (ct_found ct).
Proof.
  intros env ct HN HI HND HB. destruct (C52_scan_summary env ct "" HN) as (shown & E & W).
  destruct (scan_full env ct false "" HN) as (_ & _ & HL). specialize (HL eq_refl).
  exists shown. split; [exact E|]. clear E.
  destruct (nodes_rows env false "" (ct_found ct) 0) as (parts & EP & F). unfold DiscoveredNodeTable in W, HL. cbn [t_rows] in W, HL. rewrite EP in W, HL. clear EP.
  set (want := fun nd => map (fun o => Some (se_address env (a_ip (rn_addr nd)), fmt_d (a_port (rn_addr nd)), fmt_X 6 (Code o), object_name env o))
                            (rn_devices nd ++ [np_object])).
  assert (HS : exists out, stutters (concat parts) out /\ map key out = flat_map want (ct_found ct) /\ NoDup out).
  { clear W HL shown. induction F as [|nd part nodes parts (man & HP & _) F IH]; [exists []; split; [constructor|split; [reflexivity|constructor]]|].
    inversion HB as [|? ? (B1 & B2 & B3) HB']; subst. cbn [map] in HND. inversion HND as [|? ? HND1 HND2]; subst.
    destruct (IH HND2 HB') as (out & S & K & N). unfold block_plain in HP. rewrite B1 in HP.
    exists (map (row_of env man nd) (rn_devices nd ++ [np_object]) ++ out). split; [|split].
    - cbn [concat]. apply stutters_app; [|exact S]. subst part. rewrite !map_app. apply stutters_app; [apply stutters_refl|].
      cbn [map]. apply st_again, st_new. constructor.
    - rewrite map_app, K. cbn [flat_map]. f_equal. unfold want. rewrite map_map. apply map_ext. reflexivity.
    - assert (NK : NoDup (map key (map (row_of env man nd) (rn_devices nd ++ [np_object]) ++ out)) -> NoDup (map (row_of env man nd) (rn_devices nd ++ [np_object]) ++ out))
        by apply NoDup_map_inv.
      assert (HO : NoDup (map Code (rn_devices nd ++ [np_object]))).
      { rewrite map_app. cbn [map]. replace (Code np_object) with 0x0EF001 by (symmetry; apply np_Code; reflexivity).
        apply (NoDup_Add (a := 0x0EF001) (l := map Code (rn_devices nd))); [rewrite <- (app_nil_r (map Code (rn_devices nd))) at 1; apply Add_app|].
        split; [exact B2|]. intros I. apply in_map_iff in I as (o & EC & I). rewrite Forall_forall in B3. destruct (B3 o I) as [X _]. congruence. }
      assert (HR : NoDup (map (row_of env man nd) (rn_devices nd ++ [np_object]))).
      { assert (HCb : Forall (fun o => 0 <= Code o < 2 ^ 64) (rn_devices nd ++ [np_object])).
        { apply Forall_app. split; [eapply Forall_impl; [|exact B3]; intros x [_ X]; exact X|]. constructor; [|constructor].
          replace (Code np_object) with 0x0EF001 by (symmetry; apply np_Code; reflexivity). lia. }
        clear -HO HCb. induction (rn_devices nd ++ [np_object]) as [|o os IHo]; [constructor|]. cbn [map] in *.
        inversion HO as [|? ? O1 O2]; subst. inversion HCb as [|? ? C1 C2]; subst. constructor; [|apply IHo; assumption].
        intros I. apply in_map_iff in I as (o' & ER & I). apply O1. apply in_map_iff. exists o'. split; [|exact I].
        unfold row_of in ER. injection ER as EX _. rewrite Forall_forall in C2. apply fmt_X_inj in EX; [exact EX|apply C2; exact I|exact C1]. }
      clear NK. revert HR. 
      assert (HX : forall r, In r out -> exists nd', In nd' nodes /\ exists rest, key r = Some (se_address env (a_ip (rn_addr nd')), fst (fst rest), snd (fst rest), snd rest)).
      { intros r Hr. assert (Hk : In (key r) (map key out)) by (apply in_map; exact Hr). rewrite K in Hk. apply in_flat_map in Hk as (nd' & I & Hk).
        exists nd'. split; [exact I|]. unfold want in Hk. apply in_map_iff in Hk as (o & <- & _). eexists (_, _, _). reflexivity. }
      generalize (rn_devices nd ++ [np_object]). intros os. induction os as [|o os IHo]; intros HR; [exact N|]. cbn [map app] in *.
      inversion HR as [|? ? R1 R2]; subst. constructor; [|apply IHo; exact R2]. intros I. apply in_app_or in I as [I|I]; [contradiction|].
      destruct (HX _ I) as (nd' & In' & rest & EK). cbn [row_of key] in EK. injection EK as EA _ _ _. apply HI in EA.
      apply HND1. apply in_map_iff. exists nd'. split; [symmetry; exact EA|exact In']. }
  destruct HS as (out & S & K & N). pose proof (stutters_without _ _ S N HL) as W'.
  rewrite (without_same _ _ _ _ W W'). split; [exact N|exact K].
Qed.

Example C59_default_ex : scan_table ex_env ex_found false "" = Ok (mkTable (scan_columns false)
  [["192.168.1.2"; "3610"; "unknown"; "029001"; "General lighting"]; [""; ""; ""; "0EF001"; "Node profile"]]%string).
Proof. vm_compute. reflexivity. Qed.
Example C59_bare_ex : Forall bare (ct_found ex_found).
Proof.
  assert (E : exists n, ct_found ex_found = [n] /\ rn_profiles n = [np_object; np_object] /\ map Code (rn_devices n) = [0x029001]).
  { eexists. split; [vm_compute; reflexivity|]. split; vm_compute; reflexivity. }
  destruct E as (n & -> & E1 & E2). constructor; [|constructor]. split; [exact E1|]. rewrite E2. split; [repeat constructor; intros []|].
  apply (proj1 (Forall_map Code (fun c => c <> 0x0EF001 /\ 0 <= c < 2 ^ 64) (rn_devices n))). rewrite E2. repeat constructor; lia.
Qed.

(** An address that was not found lists nothing. *)
Theorem C59_other_address : forall env ct details address,
  address <> EmptyString -> (forall nd, In nd (ct_found ct) -> se_address env (a_ip (rn_addr nd)) <> address) ->
  t_rows (DiscoveredNodeTable env ct details address) = [].
Proof.
  intros env ct details address HA H. destruct (nodes_rows env details address (ct_found ct) 0) as (parts & E & F).
  unfold DiscoveredNodeTable. cbn [t_rows]. rewrite E. destruct address as [|c address]; [congruence|].
  assert (EF : filter (fun nd => String.eqb (se_address env (a_ip (rn_addr nd))) (String c address)) (ct_found ct) = []).
  { clear F E. induction (ct_found ct) as [|nd l IH]; [reflexivity|]. cbn [filter].
    destruct (String.eqb_spec (se_address env (a_ip (rn_addr nd))) (String c address)) as [X|X]; [exfalso; apply (H nd); [left; reflexivity|exact X]|].
    apply IH. intros nd' I. apply H. right. exact I. }
  rewrite EF in F. inversion F; subst. reflexivity.
Qed.

Print Assumptions C52_scan_details.
Print Assumptions C52_scan_summary.
Print Assumptions C59_listed.
Print Assumptions C59_details.
Print Assumptions C59_twice_refuted.
Print Assumptions C59_default_partial.
Print Assumptions C59_other_address.
