(** * C113: what the command get of uechoctl prints on a network *)

From Coq Require Import String Ascii ZifyBool Permutation.
From Verif Require PropsPrograms PropsPostTool.
From Verif Require Import Go GoFacts Encoding EncodingFacts Protocol Parser MessageFacts ParserFacts
  ProtocolFacts Reader StdDB Property PropertyFacts Object ObjectFacts Spec Node NodeFacts
  Handler HandlerFacts PropsHandler Remote RemoteFacts PropsRemote Transport TransportFacts Exchange ExchangeFacts
  PropsExchange PropsSearch Lan LanFacts PropsLan Cmd LanScan PropsLanScan TabWriter JsonText CmdRun CmdFacts PropsCmd PropsCmdRun.
Local Open Scope Z_scope.
Local Open Scope list_scope.

(** ** Vocabulary *)

(** The calls of the command are those of a controller on the network [s], which
    is the network after its search: starting, searching and stopping report no
    error, a request goes out over UDP and the answer comes before the timeout
    or not at all, the different IP addresses of the nodes have different texts. *)
Definition on_network {W} (conf : ctrl_conf) (s : lan W) (env : command_env) : Prop :=
  ce_start env = None /\ ce_search env = None /\ ce_stop env = None /\ ce_nodes env = l_ctrl s /\
  (forall rn m, ce_post env rn m = match snd (net_post conf s (rn_addr rn) m) with inl r => inl r | inr _ => inr ErrTimeout end) /\
  (forall nd nd', In nd (map h_node (l_hosts s)) -> In nd' (map h_node (l_hosts s)) ->
     se_address (ce_scan env) (a_ip (n_addr nd)) = se_address (ce_scan env) (a_ip (n_addr nd')) -> a_ip (n_addr nd) = a_ip (n_addr nd')).

(** No other node of the list has the IP address of [nd]. *)
Definition alone (nds : list node) (nd : node) : Prop :=
  forall nd', In nd' nds -> a_ip (n_addr nd') = a_ip (n_addr nd) -> nd' = nd.

(** The run of a command that asked the node with address [a] once and printed [b]. *)
Definition printed_after_asking (a : address) (b : list Z) (out : outcome) : Prop :=
  snd out = Ok tt /\ exists rn m, rn_addr rn = a /\ fst out = [AStart; ASearch; APost rn m; APrint b; AStop].

(** ** Lemmas *)

Section Net.
Context {W : Type}.
Variable conf : ctrl_conf.
Implicit Types (s : lan W).

Lemma found_is_host s0 s rn : settled conf s0 s -> table_shows conf s0 s -> n_self (l_node s0) = false ->
  Forall (fun h => recorded conf (h_node h) = n_addr (h_node h)) (l_hosts s0) -> In rn (ct_found (l_ctrl s)) ->
  exists nd, In nd (map h_node (l_hosts s)) /\ n_addr nd = rn_addr rn.
Proof.
  intros HS (_ & HT) Hself HR J1. destruct (HT rn J1) as (j & nd0 & E0 & Hj & (S1 & _)).
  destruct Hj as [Hj|Hj]; [congruence|]. destruct j as [|i]; [exfalso; apply Hj; reflexivity|]. clear Hj.
  pose proof HS as ((I1 & _) & HM & _). destruct (same_at' _ _ _ _ HM E0) as (nd & E & (A1 & _)).
  exists nd. split; [unfold members in E; cbn [nth_error] in E; eapply nth_error_In, E|].
  rewrite S1. unfold members in E0. cbn [nth_error] in E0. rewrite nth_error_map in E0.
  destruct (nth_error (l_hosts s0) i) as [h|] eqn:EH; [|discriminate E0]. injection E0 as E0.
  rewrite Forall_forall in HR. specialize (HR h (nth_error_In _ _ EH)). rewrite E0, recorded_seen, <- A1 in HR. symmetry.
  rewrite A1 in *. exact HR.
Qed.

Lemma host_is_found s0 s nd : settled conf s0 s ->
  Forall (fun h => recorded conf (h_node h) = n_addr (h_node h)) (l_hosts s0) ->
  Permutation (map view (ct_found (l_ctrl s))) (map (expected conf) (map h_node (l_hosts s0))) ->
  In nd (map h_node (l_hosts s)) -> exists rn, In rn (ct_found (l_ctrl s)) /\ rn_addr rn = n_addr nd.
Proof.
  intros HSs HR PM Hnd. apply In_nth_error in Hnd. destruct Hnd as (i & Ei).
  pose proof HSs as (_ & HM & _).
  assert (Em : nth_error (members s) (S i) = Some nd) by exact Ei.
  destruct (same_at _ _ _ _ HM Em) as (nd0 & E0 & (A1 & _)).
  assert (X : In (expected conf nd0) (map view (ct_found (l_ctrl s)))).
  { apply (Permutation_in _ (Permutation_sym PM)). apply in_map. cbn [members nth_error] in E0. eapply nth_error_In, E0. }
  apply in_map_iff in X. destruct X as (rn & EV & Irn). exists rn. split; [exact Irn|].
  unfold view, expected in EV. injection EV as EV1 _. rewrite EV1, A1.
  cbn [members nth_error] in E0. rewrite nth_error_map in E0.
  destruct (nth_error (l_hosts s0) i) as [h|] eqn:EH; [|discriminate E0]. injection E0 as E0.
  rewrite Forall_forall in HR. specialize (HR h (nth_error_In _ _ EH)). rewrite E0 in HR. exact HR.
Qed.

(** The whole answer to a request of the controller. *)
Lemma asked s0 s a nd : settled conf s0 s -> In nd (map h_node (l_hosts s)) -> n_addr nd = a ->
  let tid := (n_lastTID (l_node s) + 1) mod 65536 in
  (forall obj code v, 0 <= obj < 2 ^ 24 -> 0 <= code < 256 -> readable_value nd obj code v ->
     exists resp, snd (net_post conf s a (read_message obj code)) = inl resp /\
       represents resp (mkContent tid obj 0x0EF001 0x72 [(code, v)]) /\ received resp) /\
  (forall obj code, 0 <= obj < 2 ^ 24 -> 0 <= code < 256 -> unreadable nd obj code ->
     exists resp, snd (net_post conf s a (read_message obj code)) = inl resp /\
       represents resp (mkContent tid obj 0x0EF001 0x52 [(0, []); (0, [])]) /\ received resp).
Proof.
  intros ((I1 & I2 & I3 & _) & _) Hnd EA tid.
  assert (Rc : ready (l_node s)) by (unfold members in I1; inversion I1; assumption).
  assert (U0 : unchanged s s).
  { unfold unchanged. split; [reflexivity|]. split; [exact I2|]. destruct Rc as (A & _ & _ & B & C & _). auto. }
  destruct U0 as (U1 & U2 & U3 & U4 & U5 & U6 & U7).
  apply in_map_iff in Hnd. destruct Hnd as (h & EN & Ih). apply In_nth_error in Ih. destruct Ih as (i & EH).
  assert (EI : nth_error (members s) (S i) = Some nd).
  { unfold members. cbn [nth_error]. rewrite nth_error_map, EH. cbn [option_map]. rewrite EN. reflexivity. }
  assert (EO : owner (members s) a = Some (S i)) by (rewrite <- EA; apply owner_of; assumption).
  assert (NE : n_addr (l_node s) <> a).
  { unfold members in I3. cbn [map] in I3. inversion I3 as [|? ? N _]; subst. intros X. apply N. rewrite X.
    apply in_map. unfold members in EI. cbn [nth_error] in EI. eapply nth_error_In, EI. }
  rewrite Forall_forall in U2. destruct (U2 h (nth_error_In _ _ EH)) as (K1 & K2).
  split.
  - intros obj code v Ho Hc HV. rewrite <- EN in HV.
    destruct (post_read_full conf s i h obj code a v) as (resp & P1 & _ & P3 & P4); try assumption; [congruence|].
    exists resp. auto.
  - intros obj code Ho Hc HV. rewrite <- EN in HV.
    destruct (post_refused_full conf s i h obj code a) as (resp & P1 & _ & P3 & P4); try assumption; [congruence|].
    exists resp. auto.
Qed.

End Net.

Lemma get_request_is obj prop o c : argument obj o -> argument prop c -> 0 <= o < 2 ^ 24 -> 0 <= c < 256 ->
  get_request obj prop = Ok (read_message o c).
Proof.
  intros HO HP Ro Rc. unfold get_request. rewrite (argument_int _ _ HO), (argument_int _ _ HP). cbn [bind].
  assert (E1 : u64 (i64 o) = o) by (unfold u64, i64; rewrite ?Z.mod_small; lia).
  assert (E2 : u8 (i64 c) = c) by (unfold u8, i64; rewrite ?Z.mod_small; lia).
  rewrite E1, E2. reflexivity.
Qed.

(** The text [t] has [w] digits and they are those of the number [v], base 16. *)
Definition hex_cell (w : nat) (t : string) (v : Z) : Prop := PropsPrograms.numeral t v /\ String.length t = w.

Lemma hex_cell_of w v : (0 < w <= 6)%nat -> 0 <= v < 16 ^ Z.of_nat w -> hex_cell w (fmt_X w v) v.
Proof.
  intros Hw Hv. split; [apply PropsPostTool.fmt_X_numeral|apply PropsPostTool.fmt_X_length; [lia|exact Hv]].
  assert (16 ^ Z.of_nat w <= 16 ^ 6) by (apply Z.pow_le_mono_r; lia). change (16 ^ 6) with 16777216 in H. unfold printable. lia.
Qed.

Lemma upper_hex d : 0 <= d < 16 -> hex_digit (upper_digit d) d.
Proof.
  intros H. apply from_hex_inv.
  assert (K : forallb (fun n => match from_hex (lower_char (upper_digit (Z.of_nat n))) with Some x => x =? Z.of_nat n | None => false end)
                (seq 0 16) = true) by reflexivity.
  rewrite forallb_forall in K. specialize (K (Z.to_nat d) ltac:(apply in_seq; lia)). rewrite Z2Nat.id in K by lia.
  destruct (from_hex (lower_char (upper_digit d))); [|discriminate K]. apply Z.eqb_eq in K. congruence.
Qed.

Lemma data_cell v : Forall (fun b => 0 <= b < 256) v -> spells (fmt_bytes v) (nibbles v).
Proof.
  unfold fmt_bytes, nibbles. induction 1 as [|b v Hb _ IH]; cbn [flat_map app text]; [constructor|].
  repeat (constructor; [apply upper_hex; lia|]). exact IH.
Qed.

Lemma tid_range x : 0 <= (x + 1) mod 65536 < 65536. Proof. apply Z.mod_pos_bound. lia. Qed.

(** The table of a message with these contents. *)
Lemma table_of resp tid o esv ps : represents resp (mkContent tid o 0x0EF001 esv ps) -> 0 <= tid < 65536 -> 0 <= o < 2 ^ 24 ->
  0 <= esv < 256 -> (length ps <= 255)%nat -> Forall (fun p => 0 <= fst p < 256 /\ value (snd p)) ps ->
  exists t oc, hex_cell 4 t tid /\ hex_cell 6 oc o /\ message_table [resp] =
    mkTable (["EHD"; "TID"; "SEOJ"; "DEOJ"; "ESV"; "OPC"]%string ++ flat_map (fun n => prop_columns (Z.of_nat n)) (seq 0 (length ps)))
      [["1081"%string; t; oc; "0EF001"%string; fmt_X 2 esv; fmt_X 2 (Z.of_nat (length ps))] ++ flat_map prop_cells (map of_pair ps)].
Proof.
  intros HR Ht Ho He Hl Hp.
  assert (HL : in_limits (mkContent tid o 0x0EF001 esv ps)).
  { unfold in_limits, frame_in_limits. cbn [c_tid c_seoj c_deoj c_esv c_props].
    repeat split; try lia. eapply Forall_impl; [|exact Hp]. intros p (A & B & C). repeat split; try lia; assumption. }
  destruct (represents_getters _ _ HR HL) as (G1 & G2 & G3 & G4 & G5 & G6). cbn [c_tid c_seoj c_deoj c_esv c_props] in *.
  destruct HR as (E1 & E2 & _).
  exists (fmt_X 4 tid), (fmt_X 6 o). split; [apply hex_cell_of; [lia|exact Ht]|]. split; [apply hex_cell_of; [lia|exact Ho]|].
  unfold message_table, Columns, Rows, max_opc. cbn [fold_left map].
  assert (EM : (if 0 <? OPC resp then OPC resp else 0) = Z.of_nat (length ps)) by (rewrite G5; destruct (Z.ltb_spec 0 (Z.of_nat (length ps))); lia).
  rewrite EM, Nat2Z.id. unfold message_row. rewrite E1, E2, G1, G2, G3, G4, G5, G6. reflexivity.
Qed.

Lemma get_prints env fmt f address obj prop more req n resp b : ce_start env = None -> ce_search env = None -> ce_stop env = None ->
  NewFormatFromString fmt = Ok f -> get_request obj prop = Ok req -> lookup_text env address = Some n ->
  ce_post env n req = inl resp -> print_bytes f (message_table [resp]) = Ok b ->
  get_run env fmt (address :: obj :: prop :: more) = ([AStart; ASearch; APost n req; APrint b; AStop], Ok tt).
Proof.
  intros H1 H2 H3 H4 H5 H6 H7 H8. unfold get_run. rewrite H4, H5. unfold reach, call. rewrite H1, H2, H6, H7, H8.
  unfold printing, stopping, call. rewrite H3. reflexivity.
Qed.

(** The node of a given address text. *)
Lemma address_reaches {W} conf (s0 s : lan W) env nd : settled conf s0 s -> table_shows conf s0 s -> n_self (l_node s0) = false ->
  Forall (fun h => recorded conf (h_node h) = n_addr (h_node h)) (l_hosts s0) ->
  Permutation (map view (ct_found (l_ctrl s))) (map (expected conf) (map h_node (l_hosts s0))) ->
  on_network conf s env -> In nd (map h_node (l_hosts s)) -> alone (map h_node (l_hosts s)) nd ->
  exists rn, lookup_text env (se_address (ce_scan env) (a_ip (n_addr nd))) = Some rn /\ rn_addr rn = n_addr nd.
Proof.
  intros HS HT Hself HR PM (_ & _ & _ & EN & _ & INJ) Hnd HA.
  destruct (host_is_found conf s0 s nd HS HR PM Hnd) as (rn & Irn & Ern).
  destruct (lookup_text env (se_address (ce_scan env) (a_ip (n_addr nd)))) as [rn'|] eqn:EL.
  - exists rn'. split; [reflexivity|]. destruct (lookup_text_spec _ _ _ EL) as (I' & E'). rewrite EN in I'.
    destruct (found_is_host conf s0 s rn' HS HT Hself HR I') as (nd' & Hnd' & Eq). rewrite <- Eq. f_equal.
    apply HA; [exact Hnd'|]. apply INJ; [exact Hnd'|exact Hnd|]. rewrite Eq. exact E'.
  - exfalso. unfold lookup_text in EL. rewrite EN in EL. pose proof (find_none _ _ EL rn Irn) as X. cbn beta in X.
    rewrite Ern, String.eqb_refl in X. discriminate X.
Qed.

Section Statements.
Context {W : Type}.
Implicit Types (s : lan W).

(** After a search in which nothing is lost, once the network is quiet, get with
    the address of a node, an object of it and a property the object lets read
    asks this node, prints one row with the object, the property and the value
    the object holds, in any format, and reports success. *)
Theorem C113_get : forall conf s0 es1 esv es2 env, network conf s0 -> l_packets s0 = [] -> l_ctrl s0 = newCtrl ->
  n_self (l_node s0) = false -> Forall (fun h => recorded conf (h_node h) = n_addr (h_node h)) (l_hosts s0) ->
  Forall allowed es1 -> In esv [0x62; 0x63] -> Forall allowed es2 -> Forall lossless es2 ->
  let s := lan_run conf s0 (es1 ++ LSearch 0 esv :: es2) in
  l_packets s = [] -> on_network conf s env ->
  forall nd obj prop more o c v fmt f, In nd (map h_node (l_hosts s)) -> alone (map h_node (l_hosts s)) nd ->
  argument obj o -> argument prop c -> o < 2 ^ 24 -> c < 256 -> readable_value nd o c v -> NewFormatFromString fmt = Ok f ->
  exists tid b t oc pc sz d, 0 <= tid < 65536 /\
    printed_after_asking (n_addr nd) b (get_run env fmt (se_address (ce_scan env) (a_ip (n_addr nd)) :: obj :: prop :: more)) /\
    print_bytes f (mkTable ["EHD"; "TID"; "SEOJ"; "DEOJ"; "ESV"; "OPC"; "EPC0"; "PDC0"; "EDT0"]%string
      [["1081"; t; oc; "0EF001"; "72"; "01"; pc; sz; d]%string]) = Ok b /\
    hex_cell 4 t tid /\ hex_cell 6 oc o /\ hex_cell 2 pc c /\ hex_cell 2 sz (Z.of_nat (length v)) /\ spells d (nibbles v).
Proof.
  intros conf s0 es1 esv es2 env HN HP HC Hself HR HA1 HE HA2 HL s Hq HO nd obj prop more o c v fmt f Hnd HAl Ao Ac Ro Rc HV Hf.
  assert (HA : Forall allowed (es1 ++ LSearch 0 esv :: es2)) by (apply Forall_app; split; [exact HA1|constructor; assumption]).
  destruct (run_table_shows conf s0 (es1 ++ LSearch 0 esv :: es2) s0 (settled_start conf s0 HN HP) HA) as (HSs & HT).
  { unfold table_shows. rewrite HC. split; [constructor|intros n []]. }
  fold s in HSs, HT.
  assert (PM : Permutation (map view (ct_found (l_ctrl s))) (map (expected conf) (map h_node (l_hosts s0)))).
  { replace (map h_node (l_hosts s0)) with (audible s0) by (unfold audible; rewrite Hself; reflexivity).
    apply C79_found; assumption. }
  destruct (address_reaches conf s0 s env nd HSs HT Hself HR PM HO Hnd HAl) as (rn & EL & ER).
  pose proof (argument_nonneg _ _ Ao) as Po. pose proof (argument_nonneg _ _ Ac) as Pc.
  destruct (asked conf s0 s (n_addr nd) nd HSs Hnd eq_refl) as (P1 & _).
  destruct (P1 o c v (conj Po Ro) (conj Pc Rc) HV) as (resp & E1 & E2 & E3). clear P1.
  destruct HO as (O1 & O2 & O3 & _ & O5 & _).
  assert (EP : ce_post env rn (read_message o c) = inl resp) by (rewrite O5, ER, E1; reflexivity).
  assert (VV : value v) by (destruct HV as (? & ? & ? & _ & _ & _ & _ & _ & X); exact X).
  destruct (table_of resp _ o 0x72 _ E2 (tid_range _) (conj Po Ro) ltac:(lia)) as (t & oc & T1 & T2 & T3).
  { cbn; lia. } { constructor; [|constructor]. cbn [fst snd]. split; [lia|exact VV]. }
  destruct (printed_message f resp E3) as (b & EB).
  exists ((n_lastTID (l_node s) + 1) mod 65536), b, t, oc, (fmt_X 2 c), (fmt_X 2 (Z.of_nat (length v))), (fmt_bytes v).
  split; [apply tid_range|]. split.
  { unfold printed_after_asking.
    rewrite (get_prints env fmt f _ obj prop more _ rn resp b O1 O2 O3 Hf (get_request_is _ _ o c Ao Ac (conj Po Ro) (conj Pc Rc)) EL EP EB).
    split; [reflexivity|]. exists rn, (read_message o c). split; [exact ER|reflexivity]. }
  split; [rewrite T3 in EB; exact EB|]. split; [exact T1|]. split; [exact T2|].
  split; [apply hex_cell_of; [lia|exact (conj Pc Rc)]|]. split.
  - apply hex_cell_of; [lia|]. destruct VV as (X & _). change (16 ^ Z.of_nat 2) with 256. lia.
  - apply data_cell, VV.
Qed.

(** If the object does not let the property be read, get prints the refusal, two
    empty properties, and reports success all the same. *)
Theorem C113_refused : forall conf s0 es1 esv es2 env, network conf s0 -> l_packets s0 = [] -> l_ctrl s0 = newCtrl ->
  n_self (l_node s0) = false -> Forall (fun h => recorded conf (h_node h) = n_addr (h_node h)) (l_hosts s0) ->
  Forall allowed es1 -> In esv [0x62; 0x63] -> Forall allowed es2 -> Forall lossless es2 ->
  let s := lan_run conf s0 (es1 ++ LSearch 0 esv :: es2) in
  l_packets s = [] -> on_network conf s env ->
  forall nd obj prop more o c fmt f, In nd (map h_node (l_hosts s)) -> alone (map h_node (l_hosts s)) nd ->
  argument obj o -> argument prop c -> o < 2 ^ 24 -> c < 256 -> unreadable nd o c -> NewFormatFromString fmt = Ok f ->
  exists tid b t oc, 0 <= tid < 65536 /\
    printed_after_asking (n_addr nd) b (get_run env fmt (se_address (ce_scan env) (a_ip (n_addr nd)) :: obj :: prop :: more)) /\
    print_bytes f (mkTable ["EHD"; "TID"; "SEOJ"; "DEOJ"; "ESV"; "OPC"; "EPC0"; "PDC0"; "EDT0"; "EPC1"; "PDC1"; "EDT1"]%string
      [["1081"; t; oc; "0EF001"; "52"; "02"; "00"; "00"; ""; "00"; "00"; ""]%string]) = Ok b /\
    hex_cell 4 t tid /\ hex_cell 6 oc o.
Proof.
  intros conf s0 es1 esv es2 env HN HP HC Hself HR HA1 HE HA2 HL s Hq HO nd obj prop more o c fmt f Hnd HAl Ao Ac Ro Rc HV Hf.
  assert (HA : Forall allowed (es1 ++ LSearch 0 esv :: es2)) by (apply Forall_app; split; [exact HA1|constructor; assumption]).
  destruct (run_table_shows conf s0 (es1 ++ LSearch 0 esv :: es2) s0 (settled_start conf s0 HN HP) HA) as (HSs & HT).
  { unfold table_shows. rewrite HC. split; [constructor|intros n []]. }
  fold s in HSs, HT.
  assert (PM : Permutation (map view (ct_found (l_ctrl s))) (map (expected conf) (map h_node (l_hosts s0)))).
  { replace (map h_node (l_hosts s0)) with (audible s0) by (unfold audible; rewrite Hself; reflexivity).
    apply C79_found; assumption. }
  destruct (address_reaches conf s0 s env nd HSs HT Hself HR PM HO Hnd HAl) as (rn & EL & ER).
  pose proof (argument_nonneg _ _ Ao) as Po. pose proof (argument_nonneg _ _ Ac) as Pc.
  destruct (asked conf s0 s (n_addr nd) nd HSs Hnd eq_refl) as (_ & P2).
  destruct (P2 o c (conj Po Ro) (conj Pc Rc) HV) as (resp & E1 & E2 & E3). clear P2.
  destruct HO as (O1 & O2 & O3 & _ & O5 & _).
  assert (EP : ce_post env rn (read_message o c) = inl resp) by (rewrite O5, ER, E1; reflexivity).
  destruct (table_of resp _ o 0x52 _ E2 (tid_range _) (conj Po Ro) ltac:(lia)) as (t & oc & T1 & T2 & T3).
  { cbn; lia. } { repeat constructor; cbn; lia. }
  destruct (printed_message f resp E3) as (b & EB).
  exists ((n_lastTID (l_node s) + 1) mod 65536), b, t, oc. split; [apply tid_range|]. split.
  { unfold printed_after_asking.
    rewrite (get_prints env fmt f _ obj prop more _ rn resp b O1 O2 O3 Hf (get_request_is _ _ o c Ao Ac (conj Po Ro) (conj Pc Rc)) EL EP EB).
    split; [reflexivity|]. exists rn, (read_message o c). split; [exact ER|reflexivity]. }
  split; [rewrite T3 in EB; exact EB|]. auto.
Qed.

(** An address at which there is no node: nothing is asked, nothing is printed,
    and get reports that it found nothing. *)
Theorem C113_nobody : forall conf s0 es env, network conf s0 -> l_packets s0 = [] -> l_ctrl s0 = newCtrl ->
  n_self (l_node s0) = false -> Forall (fun h => recorded conf (h_node h) = n_addr (h_node h)) (l_hosts s0) -> Forall allowed es ->
  let s := lan_run conf s0 es in on_network conf s env ->
  forall address obj prop more o c fmt f,
  (forall nd, In nd (map h_node (l_hosts s)) -> se_address (ce_scan env) (a_ip (n_addr nd)) <> address) ->
  argument obj o -> argument prop c -> NewFormatFromString fmt = Ok f ->
  get_run env fmt (address :: obj :: prop :: more) = ([AStart; ASearch], Err ErrNotFound).
Proof.
  intros conf s0 es env HN HP HC Hself HR HA s (O1 & O2 & O3 & O4 & _) address obj prop more o c fmt f HX Ao Ac Hf.
  destruct (run_table_shows conf s0 es s0 (settled_start conf s0 HN HP) HA) as (HSs & HT).
  { unfold table_shows. rewrite HC. split; [constructor|intros n []]. }
  fold s in HSs, HT.
  unfold get_run. rewrite Hf. unfold get_request. rewrite (argument_int _ _ Ao), (argument_int _ _ Ac). cbn [bind].
  unfold reach, call. rewrite O1, O2.
  destruct (lookup_text env address) as [rn|] eqn:EL; [exfalso|reflexivity].
  destruct (lookup_text_spec _ _ _ EL) as (I' & E'). rewrite O4 in I'.
  destruct (found_is_host conf s0 s rn HSs HT Hself HR I') as (nd' & Hnd' & Eq). apply (HX nd' Hnd'). rewrite Eq. exact E'.
Qed.

End Statements.

(** ** Nodes that share an address *)

(** Only the first of the nodes found at one IP address can be asked: whatever the
    arguments are, no get and no set goes to the other, although the scan lists it
    with its port. *)
Theorem C113_shared_refuted : forall env found rn between rn' rest, ct_found (ce_nodes env) = found ++ rn :: between ++ rn' :: rest ->
  a_ip (rn_addr rn) = a_ip (rn_addr rn') ->
  Forall (fun n => n <> rn') (found ++ rn :: between) ->
  forall fmt args m, ~ In (APost rn' m) (fst (get_run env fmt args)) /\ ~ In (ASend rn' m) (fst (set_run env args)).
Proof.
  intros env found rn between rn' rest EF EI HD fmt args m.
  assert (KEY : forall address, lookup_text env address <> Some rn').
  { intros address EL. pose proof (lookup_text_spec _ _ _ EL) as (_ & E'). unfold lookup_text in EL. rewrite EF in EL.
    assert (X : forall l k, Forall (fun n => n <> rn') l -> In rn l -> find (fun n => String.eqb (se_address (ce_scan env) (a_ip (rn_addr n))) address) (l ++ k) <> Some rn').
    { clear EL. induction l as [|n l IH]; intros k HF HI; [destruct HI|]. cbn [app find]. pose proof (Forall_inv HF) as N1. pose proof (Forall_inv_tail HF) as N2. cbn beta in N1.
      destruct (String.eqb (se_address (ce_scan env) (a_ip (rn_addr n))) address) eqn:EQ; [congruence|].
      destruct HI as [->|HI]; [rewrite EI, E', String.eqb_refl in EQ; discriminate EQ|apply IH; assumption]. }
    replace (found ++ rn :: between ++ rn' :: rest) with ((found ++ rn :: between) ++ rn' :: rest) in EL by (rewrite <- app_assoc; reflexivity).
    apply (X _ _ HD) in EL; [destruct EL|]. apply in_or_app. right. left. reflexivity. }
  split.
  - unfold get_run. destruct args as [|a [|o [|p r]]]; [nothing..|].
    destruct (NewFormatFromString fmt) as [f| |]; [|nothing..]. destruct (get_request o p) as [req| |]; [|nothing..].
    unfold reach, call. destruct (ce_start env); [nothing|]. destruct (ce_search env); [nothing|].
    specialize (KEY a). destruct (lookup_text env a) as [n|]; [|nothing]. assert (NE : n <> rn') by congruence. clear KEY.
    destruct (ce_post env n req) as [x|e].
    2: { cbn [fst]. intros [X|[X|[X|[]]]]; try discriminate X. injection X as X _. exact (NE X). }
    generalize (print_bytes f (message_table [x])). intros b. unfold printing, stopping, call.
    destruct b; destruct (ce_stop env); cbn [fst snd]; intros X;
      repeat (destruct X as [X|X]; [try discriminate X; injection X as X _; exact (NE X)|]); destruct X.
  - unfold set_run. destruct args as [|a [|o [|p [|d r]]]]; [nothing..|].
    destruct (set_request o p d) as [req| |]; [|nothing..].
    unfold reach, call. destruct (ce_start env); [nothing|]. destruct (ce_search env); [nothing|].
    specialize (KEY a). destruct (lookup_text env a) as [n|]; [|nothing]. assert (NE : n <> rn') by congruence. clear KEY.
    unfold stopping, call.
    destruct (ce_send env n req); destruct (ce_stop env); cbn [fst snd]; intros X;
      repeat (destruct X as [X|X]; [try discriminate X; injection X as X _; exact (NE X)|]); destruct X.
Qed.

(** Two lights of one computer, on ports 3610 and 3611: the scan lists both, the
    second is never asked. *)
Definition ex_pair : command_env :=
  let light port := mkRNode (mkAddress 7 port) [mkObject [2; 0x90; 1] []] [] in
  mkCommandEnv None None (mkCtrl [light 3610; light 3611] [] []) (fun _ _ => inr ErrTimeout) (fun _ _ => None) None
    (mkEnv (fun _ => "192.168.0.7"%string) (fun _ => "light"%string) (fun _ _ => EmptyString) (fun _ => None) (fun _ _ _ => inr "timeout"%string)).
Example C113_shared_example :
  t_rows (DiscoveredNodeTable (ce_scan ex_pair) (ce_nodes ex_pair) false "") =
    [["192.168.0.7"; "3610"; "unknown"; "029001"; "light"]; ["192.168.0.7"; "3611"; "unknown"; "029001"; "light"]]%string /\
  forall rn', nth_error (ct_found (ce_nodes ex_pair)) 1 = Some rn' -> forall fmt args m,
    ~ In (APost rn' m) (fst (get_run ex_pair fmt args)) /\ ~ In (ASend rn' m) (fst (set_run ex_pair args)).
Proof.
  split; [vm_compute; reflexivity|]. intros rn' E. cbn in E. injection E as <-.
  eapply (C113_shared_refuted ex_pair [] _ []); [reflexivity|reflexivity|]. constructor; [|constructor]. discriminate.
Qed.

(** ** A network *)

Definition ex_lan : lan unit := lan_run ex_conf ex_net ([] ++ LSearch 0 0x62 :: ex_deliveries).
Definition ex_command : command_env :=
  mkCommandEnv None None (l_ctrl ex_lan)
    (fun rn m => match snd (net_post ex_conf ex_lan (rn_addr rn) m) with inl r => inl r | inr _ => inr ErrTimeout end)
    (fun _ _ => None) None (ex_scan ex_lan).

(** What is printed for the light at address 9: that it is on, and that it refuses
    to have property 0xF0 read. *)
Example C113_example :
  let run prop := match get_run ex_command "csv" ["192.168.0.9"; "0290 01"; prop]%string with
                  | ([AStart; ASearch; APost _ _; APrint b; AStop], Ok tt) => Some b | _ => None end in
  run "80"%string = Some (codes ("EHD,TID,SEOJ,DEOJ,ESV,OPC,EPC0,PDC0,EDT0" ++ String "010"%char ("1081,0003,029001,0EF001,72,01,80,01,30" ++ String "010"%char ""))) /\
  run "F0"%string = Some (codes ("EHD,TID,SEOJ,DEOJ,ESV,OPC,EPC0,PDC0,EDT0,EPC1,PDC1,EDT1" ++ String "010"%char ("1081,0003,029001,0EF001,52,02,00,00,,00,00," ++ String "010"%char ""))) /\
  get_run ex_command "csv" ["192.168.0.8"; "029001"; "80"]%string = ([AStart; ASearch], Err ErrNotFound).
Proof. split; [vm_compute; reflexivity|]. split; vm_compute; reflexivity. Qed.

(** The hypotheses of C113_get hold for this network and its second node. *)
Lemma ex_on_network : on_network ex_conf ex_lan ex_command.
Proof.
  split; [reflexivity|]. split; [reflexivity|]. split; [reflexivity|]. split; [reflexivity|]. split; [reflexivity|].
  assert (E : map (fun nd => a_ip (n_addr nd)) (map h_node (l_hosts ex_lan)) = [7; 9]) by (vm_compute; reflexivity).
  intros nd nd' H H'. apply (in_map (fun nd => a_ip (n_addr nd))) in H, H'. rewrite E in H, H'. cbn beta in H, H'.
  unfold ex_command, ex_scan. cbn [ce_scan se_address].
  destruct H as [<-|[<-|[]]]; destruct H' as [<-|[<-|[]]]; cbn; congruence.
Qed.

Example C113_applies : exists nd tid b t oc pc sz d, nth_error (map h_node (l_hosts ex_lan)) 1 = Some nd /\
  printed_after_asking (n_addr nd) b (get_run ex_command "json" ["192.168.0.9"; "029001"; "80"]%string) /\
  print_bytes FormatJSON (mkTable ["EHD"; "TID"; "SEOJ"; "DEOJ"; "ESV"; "OPC"; "EPC0"; "PDC0"; "EDT0"]%string
      [["1081"; t; oc; "0EF001"; "72"; "01"; pc; sz; d]%string]) = Ok b /\ hex_cell 4 t tid /\ spells d [3; 0].
Proof.
  assert (H1 : l_packets ex_lan = []) by (vm_compute; reflexivity).
  assert (H2 : n_self (l_node ex_net) = false) by (vm_compute; reflexivity).
  assert (H3 : Forall (fun h => recorded ex_conf (h_node h) = n_addr (h_node h)) (l_hosts ex_net)).
  { apply Forall_cons; [vm_compute; reflexivity|]. apply Forall_cons; [vm_compute; reflexivity|]. apply Forall_nil. }
  assert (H4 : Forall allowed ex_deliveries) by (unfold ex_deliveries; repeat (apply Forall_cons; [exact I|]); apply Forall_nil).
  assert (H5 : Forall lossless ex_deliveries) by (unfold ex_deliveries; repeat (apply Forall_cons; [exact I|]); apply Forall_nil).
  assert (HX : exists x y, map h_node (l_hosts ex_lan) = [x; y]).
  { assert (E : length (map h_node (l_hosts ex_lan)) = 2%nat) by (vm_compute; reflexivity).
    destruct (map h_node (l_hosts ex_lan)) as [|x [|y [|? ?]]]; try discriminate E. eauto. }
  destruct HX as (x & y & HX).
  assert (E : map (fun nd => a_ip (n_addr nd)) (map h_node (l_hosts ex_lan)) = [7; 9]) by (vm_compute; reflexivity).
  rewrite HX in E. cbn [map] in E.
  assert (Ex : a_ip (n_addr x) = 7) by congruence. assert (Ey : a_ip (n_addr y) = 9) by congruence.
  assert (HV : readable_value y 0x029001 0x80 [0x30]).
  { assert (K : match nth_error (map h_node (l_hosts ex_lan)) 1 with
                | Some nd => match LookupObject nd 0x029001 with
                  | Some r => match obj_at nd r with
                    | Some o => match LookupProperty (o_props o) 0x80 with
                      | Some q => match p_get q with Prohibited => false | _ => true end && (match p_data q with [b] => b =? 0x30 | _ => false end)
                      | None => false end
                    | None => false end
                  | None => false end
                | None => false end = true) by (vm_compute; reflexivity).
    rewrite HX in K. cbn [nth_error] in K.
    destruct (LookupObject y 0x029001) as [r|] eqn:K1; [|discriminate K]. destruct (obj_at y r) as [o|] eqn:K2; [|discriminate K].
    destruct (LookupProperty (o_props o) 0x80) as [q|] eqn:K3; [|discriminate K]. exists r, o, q.
    apply andb_prop in K. destruct K as (K4 & K5). destruct (p_data q) as [|z [|? ?]] eqn:K6; try discriminate K5.
    apply Z.eqb_eq in K5. subst z. split; [exact K1|]. split; [exact K2|]. split; [exact K3|].
    split; [intros X; rewrite X in K4; discriminate K4|]. split; [reflexivity|]. split; [cbn; lia|]. repeat constructor; lia. }
  assert (EQ : lan_run ex_conf ex_net ([] ++ LSearch 0 0x62 :: ex_deliveries) = ex_lan) by (unfold ex_lan; reflexivity).
  pose proof (C113_get ex_conf ex_net [] 0x62 ex_deliveries ex_command ex_network eq_refl eq_refl H2 H3 (Forall_nil _) (or_introl eq_refl) H4 H5) as G.
  cbv zeta in G. rewrite EQ, HX in G. specialize (G H1 ex_on_network y "029001"%string "80"%string [] 0x029001 0x80 [0x30] "json"%string FormatJSON).
  destruct G as (tid & b & t & oc & pc & sz & d & R1 & R2 & R3 & R4 & _ & _ & _ & R5).
  - right. left. reflexivity.
  - intros nd' [<-|[<-|[]]] Q; [congruence|reflexivity].
  - exists [0; 2; 9; 0; 0; 1]. split; [apply spells_clean; vm_compute; reflexivity|]. split; reflexivity.
  - exists [8; 0]. split; [apply spells_clean; vm_compute; reflexivity|]. split; reflexivity.
  - lia.
  - lia.
  - exact HV.
  - reflexivity.
  - exists y, tid, b, t, oc, pc, sz, d. rewrite HX. split; [reflexivity|]. rewrite Ey in R2.
    change (se_address (ce_scan ex_command) 9) with "192.168.0.9"%string in R2.
    split; [exact R2|]. split; [exact R3|]. split; [exact R4|exact R5].
Qed.

Print Assumptions C113_get.
Print Assumptions C113_refused.
Print Assumptions C113_nobody.
Print Assumptions C113_shared_refuted.
