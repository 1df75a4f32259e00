(** * C112: what a command of uechoctl does, and when it reports success *)

From Coq Require Import String.
From Verif Require Import Go Encoding Protocol StdDB Property Object Node Remote Cmd TabWriter JsonText CmdRun.
From Verif Require Import Parser GoFacts HandlerFacts Spec CmdFacts PropsCmd PropsScan.
From Verif Require PropsJson.
Local Open Scope Z_scope.
Local Open Scope list_scope.

(** The phases of a command. *)
Definition phase (a : action) : Z :=
  match a with AStart => 0 | ASearch => 1 | APost _ _ | ASend _ _ => 2 | APrint _ => 3 | AStop => 4 end.
Definition start_of (l whole : list Z) : Prop := exists rest, l ++ rest = whole.

Ltac shape := cbn [fst snd call stopping printing map phase] in *.
Ltac prefix := match goal with |- start_of ?l _ => cbn; eexists; reflexivity end.

(** Each step is made at most once and in the order of the help text. *)
Theorem C112_order : forall env fmt args verbose,
  start_of (map phase (fst (get_run env fmt args))) [0; 1; 2; 3; 4] /\
  start_of (map phase (fst (set_run env args))) [0; 1; 2; 4] /\
  start_of (map phase (fst (scan_run env verbose fmt args))) [0; 1; 3; 4].
Proof.
  intros env fmt args verbose. split; [|split].
  - unfold get_run. destruct args as [|a [|o [|p r]]]; try prefix.
    destruct (NewFormatFromString fmt) as [f| |]; try prefix. destruct (get_request o p) as [req| |]; try prefix.
    unfold reach, call. destruct (ce_start env); try prefix. destruct (ce_search env); try prefix.
    destruct (lookup_text env a) as [n|]; try prefix. destruct (ce_post env n req) as [m|e]; try prefix.
    generalize (print_bytes f (message_table [m])). intros b. unfold printing, stopping, call.
    destruct b; destruct (ce_stop env); prefix.
  - unfold set_run. destruct args as [|a [|o [|p [|d r]]]]; try prefix.
    destruct (set_request o p d) as [req| |]; try prefix.
    unfold reach, call. destruct (ce_start env); try prefix. destruct (ce_search env); try prefix.
    destruct (lookup_text env a) as [n|]; try prefix. unfold stopping, call.
    destruct (ce_send env n req); destruct (ce_stop env); prefix.
  - unfold scan_run. destruct args as [|a [|o r]]; try prefix.
    all: destruct (NewFormatFromString fmt) as [f| |]; try prefix.
    all: match goal with |- context [scan_bytes ?e ?f ?d ?a] => generalize (scan_bytes e f d a) end; intros b.
    all: unfold call; destruct (ce_start env); try prefix; destruct (ce_search env); try prefix.
    all: unfold printing, stopping, call; destruct b; destruct (ce_stop env); prefix.
Qed.

(** ** Success, exactly *)

Theorem C112_get : forall env fmt args,
  snd (get_run env fmt args) = Ok tt <->
  exists address obj prop more f req n res bytes,
    args = address :: obj :: prop :: more /\ NewFormatFromString fmt = Ok f /\ get_request obj prop = Ok req /\
    ce_start env = None /\ ce_search env = None /\ lookup_text env address = Some n /\
    ce_post env n req = inl res /\ print_bytes f (message_table [res]) = Ok bytes /\ ce_stop env = None /\
    fst (get_run env fmt args) = [AStart; ASearch; APost n req; APrint bytes; AStop].
Proof.
  intros env fmt args. split.
  - intros H. unfold get_run in H |- *. destruct args as [|a [|o [|p r]]]; try discriminate H.
    destruct (NewFormatFromString fmt) as [f| |] eqn:EF; try discriminate H.
    destruct (get_request o p) as [req| |] eqn:ER; try discriminate H.
    unfold reach, call in H |- *. destruct (ce_start env) eqn:E1; try discriminate H. destruct (ce_search env) eqn:E2; try discriminate H.
    destruct (lookup_text env a) as [n|] eqn:EL; try discriminate H. destruct (ce_post env n req) as [m|e] eqn:EP; try discriminate H.
    exists a, o, p, r, f, req, n, m.
    remember (print_bytes f (message_table [m])) as b eqn:EB in *. unfold printing, stopping, call in H |- *.
    destruct b as [b| |]; try discriminate H. destruct (ce_stop env) eqn:E4; try discriminate H.
    exists b. repeat (split; [first [reflexivity|assumption|congruence]|]). reflexivity.
  - intros (a & o & p & r & f & req & n & m & b & -> & EF & ER & E1 & E2 & EL & EP & EB & E4 & _).
    unfold get_run. rewrite EF, ER. unfold reach. rewrite E1, E2, EL, EP, EB. unfold printing, stopping. rewrite E4. reflexivity.
Qed.

Theorem C112_set : forall env args,
  snd (set_run env args) = Ok tt <->
  exists address obj prop data more req n,
    args = address :: obj :: prop :: data :: more /\ set_request obj prop data = Ok req /\
    ce_start env = None /\ ce_search env = None /\ lookup_text env address = Some n /\
    ce_send env n req = None /\ ce_stop env = None /\
    fst (set_run env args) = [AStart; ASearch; ASend n req; AStop].
Proof.
  intros env args. split.
  - intros H. unfold set_run in H |- *. destruct args as [|a [|o [|p [|d r]]]]; try discriminate H.
    destruct (set_request o p d) as [req| |] eqn:ER; try discriminate H.
    unfold reach, call in H |- *. destruct (ce_start env) eqn:E1; try discriminate H. destruct (ce_search env) eqn:E2; try discriminate H.
    destruct (lookup_text env a) as [n|] eqn:EL; try discriminate H. unfold stopping, call in H |- *.
    destruct (ce_send env n req) eqn:EP; try discriminate H. destruct (ce_stop env) eqn:E4; try discriminate H.
    exists a, o, p, d, r, req, n. repeat (split; [first [reflexivity|assumption|congruence]|]). reflexivity.
  - intros (a & o & p & d & r & req & n & -> & ER & E1 & E2 & EL & EP & E4 & _).
    unfold set_run. rewrite ER. unfold reach. rewrite E1, E2, EL, EP. unfold stopping. rewrite E4. reflexivity.
Qed.

(** The address a scan was asked for, if any. *)
Definition scan_argument (args : list string) (address : string) : Prop :=
  args = [] /\ address = EmptyString \/ args = [address].

Theorem C112_scan : forall env verbose fmt args,
  snd (scan_run env verbose fmt args) = Ok tt <->
  exists address f bytes,
    scan_argument args address /\ NewFormatFromString fmt = Ok f /\ ce_start env = None /\ ce_search env = None /\
    scan_bytes env f (verbose || negb (is_blank address)) address = Ok bytes /\ ce_stop env = None /\
    fst (scan_run env verbose fmt args) = [AStart; ASearch; APrint bytes; AStop].
Proof.
  intros env verbose fmt args. split.
  - intros H. unfold scan_run in H |- *. destruct args as [|a [|o r]]; try discriminate H.
    all: destruct (NewFormatFromString fmt) as [f| |] eqn:EF; try discriminate H.
    all: match type of H with context [scan_bytes ?e ?f ?d ?a] => exists a, f; remember (scan_bytes e f d a) as b eqn:EB in *; clear EB end.
    all: unfold call in H |- *; destruct (ce_start env) eqn:E1; try discriminate H; destruct (ce_search env) eqn:E2; try discriminate H.
    all: unfold printing, stopping, call in H |- *; destruct b as [b| |]; try discriminate H; destruct (ce_stop env) eqn:E4; try discriminate H.
    all: exists b; repeat (split; [first [reflexivity|left; split; reflexivity|right; reflexivity]|]); reflexivity.
  - intros (a & f & b & HA & EF & E1 & E2 & EB & E4 & _).
    assert (HR : scan_run env verbose fmt args = call AStart (ce_start env) (call ASearch (ce_search env)
      (printing (scan_bytes env f (verbose || negb (is_blank a)) a) (stopping env)))).
    { unfold scan_run. destruct HA as [[-> ->]| ->]; rewrite EF; reflexivity. }
    rewrite HR, E1, E2, EB. unfold printing, stopping. rewrite E4. reflexivity.
Qed.

(** ** Bad arguments: nothing is started, nothing is printed *)

(** Nothing was done exactly when the command was refused for its arguments or its format; the
    environment has no part in it. *)
Theorem C112_refused_get : forall env fmt args,
  fst (get_run env fmt args) = [] <->
  (length args < 3)%nat \/ (forall f, NewFormatFromString fmt <> Ok f) \/
  exists address obj prop more, args = address :: obj :: prop :: more /\ forall req, get_request obj prop <> Ok req.
Proof.
  intros env fmt args. split.
  - unfold get_run. destruct args as [|a [|o [|p r]]]; try (intros _; left; cbn; lia).
    destruct (NewFormatFromString fmt) as [f| |]; try (intros _; right; left; congruence).
    destruct (get_request o p) as [req| |] eqn:ER; try (intros _; right; right; exists a, o, p, r; split; [reflexivity|congruence]).
    unfold reach, call. destruct (ce_start env); discriminate.
  - unfold get_run. destruct args as [|a [|o [|p r]]]; try reflexivity. intros [H|[H|(a' & o' & p' & r' & E & H)]].
    + cbn in H. lia.
    + destruct (NewFormatFromString fmt) as [f| |]; [destruct (H f eq_refl)|reflexivity..].
    + injection E as <- <- <- <-. destruct (NewFormatFromString fmt); [|reflexivity..].
      destruct (get_request o p) as [req| |]; [destruct (H req eq_refl)|reflexivity..].
Qed.
Theorem C112_refused_set : forall env args,
  fst (set_run env args) = [] <->
  (length args < 4)%nat \/
  exists address obj prop data more, args = address :: obj :: prop :: data :: more /\ forall req, set_request obj prop data <> Ok req.
Proof.
  intros env args. split.
  - unfold set_run. destruct args as [|a [|o [|p [|d r]]]]; try (intros _; left; cbn; lia).
    destruct (set_request o p d) as [req| |] eqn:ER; try (intros _; right; exists a, o, p, d, r; split; [reflexivity|congruence]).
    unfold reach, call. destruct (ce_start env); discriminate.
  - unfold set_run. destruct args as [|a [|o [|p [|d r]]]]; try reflexivity. intros [H|(a' & o' & p' & d' & r' & E & H)].
    + cbn in H. lia.
    + injection E as <- <- <- <- <-. destruct (set_request o p d) as [req| |]; [destruct (H req eq_refl)|reflexivity..].
Qed.
Theorem C112_refused_scan : forall env verbose fmt args,
  fst (scan_run env verbose fmt args) = [] <-> (1 < length args)%nat \/ (forall f, NewFormatFromString fmt <> Ok f).
Proof.
  intros env verbose fmt args. split.
  - unfold scan_run. destruct args as [|a [|o r]]; try (intros _; left; cbn; lia).
    all: destruct (NewFormatFromString fmt) as [f| |]; try (intros _; right; congruence).
    all: unfold call; destruct (ce_start env); discriminate.
  - unfold scan_run. destruct args as [|a [|o r]]; try reflexivity; (intros [H|H]; [cbn in H; lia|]).
    all: destruct (NewFormatFromString fmt) as [f| |]; [destruct (H f eq_refl)|reflexivity..].
Qed.
(** A refused command reports an error. *)
Theorem C112_refused_error : forall env fmt args verbose,
  (fst (get_run env fmt args) = [] -> snd (get_run env fmt args) <> Ok tt) /\
  (fst (set_run env args) = [] -> snd (set_run env args) <> Ok tt) /\
  (fst (scan_run env verbose fmt args) = [] -> snd (scan_run env verbose fmt args) <> Ok tt).
Proof.
  intros env fmt args verbose. split; [|split]; intros H E.
  - apply C112_get in E. destruct E as (a & o & p & r & f & req & n & m & b & _ & _ & _ & _ & _ & _ & _ & _ & _ & E). congruence.
  - apply C112_set in E. destruct E as (a & o & p & d & r & req & n & _ & _ & _ & _ & _ & _ & _ & E). congruence.
  - apply C112_scan in E. destruct E as (a & f & b & _ & _ & _ & _ & _ & _ & E). congruence.
Qed.

(** ** Whom a command addresses, and what it asks *)

Lemma lookup_text_spec env address n : lookup_text env address = Some n ->
  In n (ct_found (ce_nodes env)) /\ se_address (ce_scan env) (a_ip (rn_addr n)) = address.
Proof. intros H. apply find_some in H. destruct H as (A & B). apply String.eqb_eq in B. auto. Qed.

Ltac nothing := intros X; cbn [fst] in X; repeat (destruct X as [X|X]; [discriminate X|]); destruct X.

(** get: one read of the named property of the named object, to a node the search found under the
    named address, whatever transaction id and source are put in afterwards. *)
Theorem C112_asks_get : forall env fmt address obj prop more o p n m tid seoj,
  argument obj o -> argument prop p -> 0 <= tid < 65536 -> 0 <= seoj < 2 ^ 24 ->
  (In (APost n m) (fst (get_run env fmt (address :: obj :: prop :: more))) ->
   In n (ct_found (ce_nodes env)) /\ se_address (ce_scan env) (a_ip (rn_addr n)) = address /\
   Bytes (SetSEOJ (SetTID m tid) seoj) = Ok (wire_frame tid seoj (o mod 2 ^ 24) 0x62 [(p mod 256, [])])) /\
  ~ In (ASend n m) (fst (get_run env fmt (address :: obj :: prop :: more))).
Proof.
  intros env fmt a obj prop more o p n m tid seoj HO HP HT HS.
  destruct (C56_get_exact obj prop o p tid seoj HO HP HT HS) as (req & ER & EB).
  unfold get_run. destruct (NewFormatFromString fmt) as [f| |]; [|split; nothing..]. rewrite ER.
  unfold reach, call. destruct (ce_start env); [split; nothing|]. destruct (ce_search env); [split; nothing|].
  destruct (lookup_text env a) as [n'|] eqn:EL; [|split; nothing].
  assert (HA : forall rest, (In (APost n m) (APost n' req :: rest) -> ~ In (APost n m) rest -> n = n' /\ m = req)).
  { intros rest [X|X] N; [injection X as <- <-; auto|destruct (N X)]. }
  destruct (ce_post env n' req) as [res|e].
  2: { split; [|nothing]. intros X. cbn [fst] in X. destruct X as [X|[X|[X|[]]]]; try discriminate X. injection X as <- <-.
       destruct (lookup_text_spec _ _ _ EL) as (A & B). split; [exact A|]. split; [exact B|exact EB]. }
  generalize (print_bytes f (message_table [res])). intros b. unfold printing, stopping, call.
  assert (HG : forall acts, ~ In (APost n m) acts -> ~ In (ASend n m) acts ->
    (In (APost n m) (AStart :: ASearch :: APost n' req :: acts) ->
     In n (ct_found (ce_nodes env)) /\ se_address (ce_scan env) (a_ip (rn_addr n)) = a /\
     Bytes (SetSEOJ (SetTID m tid) seoj) = Ok (wire_frame tid seoj (o mod 2 ^ 24) 0x62 [(p mod 256, [])])) /\
    ~ In (ASend n m) (AStart :: ASearch :: APost n' req :: acts)).
  { intros acts N1 N2. split.
    - intros [X|[X|[X|X]]]; try discriminate X; [|destruct (N1 X)]. injection X as <- <-.
      destruct (lookup_text_spec _ _ _ EL) as (A & B). split; [exact A|]. split; [exact B|exact EB].
    - intros [X|[X|[X|X]]]; try discriminate X. exact (N2 X). }
  destruct b as [b| |]; destruct (ce_stop env); cbn [fst snd]; apply HG; nothing.
Qed.

(** set: one write of the named bytes. *)
Theorem C112_asks_set : forall env address obj prop data more o p bs n m tid seoj,
  argument obj o -> argument prop p -> spells data (nibbles bs) -> is_bytes bs -> (length bs <= 255)%nat ->
  0 <= tid < 65536 -> 0 <= seoj < 2 ^ 24 ->
  (In (ASend n m) (fst (set_run env (address :: obj :: prop :: data :: more))) ->
   In n (ct_found (ce_nodes env)) /\ se_address (ce_scan env) (a_ip (rn_addr n)) = address /\
   Bytes (SetSEOJ (SetTID m tid) seoj) = Ok (wire_frame tid seoj (o mod 2 ^ 24) 0x60 [(p mod 256, bs)])) /\
  ~ In (APost n m) (fst (set_run env (address :: obj :: prop :: data :: more))).
Proof.
  intros env a obj prop data more o p bs n m tid seoj HO HP HD HB HN HT HS.
  assert (ER : exists req, set_request obj prop data = Ok req /\
    Bytes (SetSEOJ (SetTID req tid) seoj) = Ok (wire_frame tid seoj (o mod 2 ^ 24) 0x60 [(p mod 256, bs)])).
  { unfold set_request. rewrite (argument_int _ _ HO), (argument_int _ _ HP). cbn [bind].
    rewrite (proj2 (C53_bytes data bs) (conj HD HB)). cbn [bind]. eexists. split; [reflexivity|].
    rewrite (SetDEOJ_mod o _ eq_refl), u8_i64. apply request_wire; [assumption|assumption|unfold ESVWriteRequest; lia|assumption|assumption]. }
  destruct ER as (req & ER & EB).
  unfold set_run. rewrite ER.
  unfold reach, call. destruct (ce_start env); [split; nothing|]. destruct (ce_search env); [split; nothing|].
  destruct (lookup_text env a) as [n'|] eqn:EL; [|split; nothing]. unfold stopping, call.
  assert (HG : forall acts, ~ In (APost n m) acts -> ~ In (ASend n m) acts ->
    (In (ASend n m) (AStart :: ASearch :: ASend n' req :: acts) ->
     In n (ct_found (ce_nodes env)) /\ se_address (ce_scan env) (a_ip (rn_addr n)) = a /\
     Bytes (SetSEOJ (SetTID m tid) seoj) = Ok (wire_frame tid seoj (o mod 2 ^ 24) 0x60 [(p mod 256, bs)])) /\
    ~ In (APost n m) (AStart :: ASearch :: ASend n' req :: acts)).
  { intros acts N1 N2. split.
    - intros [X|[X|[X|X]]]; try discriminate X; [|destruct (N2 X)]. injection X as <- <-.
      destruct (lookup_text_spec _ _ _ EL) as (A & B). split; [exact A|]. split; [exact B|exact EB].
    - intros [X|[X|[X|X]]]; try discriminate X. exact (N1 X). }
  destruct (ce_send env n' req); destruct (ce_stop env); cbn [fst snd]; apply HG; nothing.
Qed.

(** scan sends nothing but the search and the reads of its table. *)
Theorem C112_asks_scan : forall env verbose fmt args n m,
  ~ In (APost n m) (fst (scan_run env verbose fmt args)) /\ ~ In (ASend n m) (fst (scan_run env verbose fmt args)).
Proof.
  intros env verbose fmt args n m. unfold scan_run. destruct args as [|a [|o r]]; try (split; nothing).
  all: destruct (NewFormatFromString fmt) as [f| |]; try (split; nothing).
  all: match goal with |- context [scan_bytes ?e ?f ?d ?a] => generalize (scan_bytes e f d a) end; intros b.
  all: unfold call; destruct (ce_start env); try (split; nothing); destruct (ce_search env); try (split; nothing).
  all: unfold printing, stopping, call; destruct b; destruct (ce_stop env); split; nothing.
Qed.

(** Arguments beyond those named are ignored, for get and set. *)
Theorem C112_more_ignored : forall env fmt address obj prop data more more',
  get_run env fmt (address :: obj :: prop :: more) = get_run env fmt (address :: obj :: prop :: more') /\
  set_run env (address :: obj :: prop :: data :: more) = set_run env (address :: obj :: prop :: data :: more').
Proof. split; reflexivity. Qed.

(** ** No panic *)

Definition answers_read (env : command_env) : Prop := forall n m res, ce_post env n m = inl res -> received res.

Lemma printed_message f m : received m -> exists b, print_bytes f (message_table [m]) = Ok b.
Proof.
  intros H. destruct f; [eexists; reflexivity| |eexists; reflexivity].
  cbn [print_bytes]. unfold OutputJSON_text. destruct (C57_json m H) as (E & _). rewrite E. eexists. reflexivity.
Qed.

Lemma property_rows_width env man nd o ps : forall n, Forall (fun r => length r = 9%nat) (snd (property_rows env n man nd o ps)).
Proof.
  induction ps as [|p ps IH]; intros n; [constructor|]. cbn [property_rows].
  destruct (property_data env n nd o p) as [n1 d]. specialize (IH n1). destruct (property_rows env n1 man nd o ps) as [n2 rows].
  constructor; [reflexivity|exact IH].
Qed.
Lemma object_rows_width env details man nd os : forall n,
  Forall (fun r => length r = length (scan_columns details)) (snd (object_rows env details n man nd os)).
Proof.
  induction os as [|o os IH]; intros n; [constructor|]. cbn [object_rows].
  destruct details.
  - pose proof (property_rows_width env man nd o (Properties (o_props o)) n) as W.
    destruct (property_rows env n man nd o (Properties (o_props o))) as [n1 mine].
    specialize (IH n1). destruct (object_rows env true n1 man nd os) as [n2 rows]. apply Forall_app. split; [exact W|exact IH].
  - specialize (IH n). destruct (object_rows env false n man nd os) as [n2 rows]. constructor; [reflexivity|exact IH].
Qed.
Lemma node_rows_width env details address nodes : forall n,
  Forall (fun r => length r = length (scan_columns details)) (node_rows env details address n nodes).
Proof.
  induction nodes as [|nd nodes IH]; intros n; [constructor|]. cbn [node_rows].
  destruct (negb (is_blank address) && negb (String.eqb (se_address env (a_ip (rn_addr nd))) address)); [apply IH|].
  pose proof (object_rows_width env details (manufacture_name env n nd) nd (rn_devices nd ++ rn_profiles nd) (Datatypes.S n)) as W.
  destruct (object_rows env details (Datatypes.S n) (manufacture_name env n nd) nd (rn_devices nd ++ rn_profiles nd)) as [n1 mine].
  apply Forall_app. split; [exact W|apply IH].
Qed.
Lemma scan_printed env f details address : exists b, scan_bytes env f details address = Ok b.
Proof.
  pose proof (node_rows_width (ce_scan env) details address (ct_found (ce_nodes env)) 0) as W. destruct f; cbn [scan_bytes].
  - unfold scan_table. destruct (C52_panic_exact (DiscoveredNodeTable (ce_scan env) (ce_nodes env) details address) [0; 1; 2; 3; 4]) as (P & E).
    destruct (HideDuplicateColumns (DiscoveredNodeTable (ce_scan env) (ce_nodes env) details address) [0; 1; 2; 3; 4]) as [t|e|].
    + eexists. reflexivity.
    + destruct (E e eq_refl).
    + destruct (proj1 P eq_refl) as (c & row & Hc & Hr & N). exfalso. apply N. rewrite Forall_forall in W. specialize (W row Hr).
      unfold len. rewrite W. destruct details; cbn; repeat (destruct Hc as [<-|Hc]; [lia|]); destruct Hc.
  - cbn [print_bytes]. unfold OutputJSON_text, DiscoveredNodeTable. rewrite PropsJson.OutputJSON_rows; [eexists; reflexivity| |exact W].
    destruct details; vm_compute; repeat constructor; intros X; repeat (destruct X as [X|X]; [discriminate X|]); exact X.
  - eexists. reflexivity.
Qed.

Lemma requests_total obj prop data : get_request obj prop <> Panic /\ set_request obj prop data <> Panic.
Proof.
  assert (HD : forall s, DecodeString s <> Panic).
  { fix go 1. intros [|a [|b t]]; [discriminate|discriminate|]. cbn [DecodeString]. destruct (from_hex a), (from_hex b); try discriminate.
    specialize (go t). destruct (DecodeString t); try discriminate. congruence. }
  assert (HB : forall s, hexStringToByte s <> Panic).
  { intros s. unfold hexStringToByte. destruct (negb _); [discriminate|apply HD]. }
  assert (HI : forall s, hexStringToInt s <> Panic).
  { intros s. unfold hexStringToInt. specialize (HB s). destruct (hexStringToByte s); try discriminate. congruence. }
  unfold get_request, set_request. pose proof (HI obj) as H1. pose proof (HI prop) as H2. pose proof (HB data) as H3.
  destruct (hexStringToInt obj); [|split; discriminate|congruence]. cbn [bind].
  destruct (hexStringToInt prop); [|split; discriminate|congruence]. cbn [bind].
  destruct (hexStringToByte data); [|split; discriminate|congruence]. split; discriminate.
Qed.
Lemma format_total s : NewFormatFromString s <> Panic.
Proof.
  unfold NewFormatFromString. destruct (String.eqb _ _); [discriminate|]. destruct (String.eqb _ _); [discriminate|].
  destruct (String.eqb _ _); discriminate.
Qed.

(** No arguments, no environment and no received response crash a command. *)
Theorem C112_no_panic : forall env fmt args verbose, answers_read env ->
  snd (get_run env fmt args) <> Panic /\ snd (set_run env args) <> Panic /\ snd (scan_run env verbose fmt args) <> Panic.
Proof.
  intros env fmt args verbose HR. split; [|split].
  - unfold get_run. destruct args as [|a [|o [|p r]]]; try discriminate.
    pose proof (format_total fmt) as HF. destruct (NewFormatFromString fmt) as [f| |]; [|discriminate|congruence].
    destruct (requests_total o p EmptyString) as (HQ & _). destruct (get_request o p) as [req| |]; [|discriminate|congruence].
    unfold reach, call. destruct (ce_start env); try discriminate. destruct (ce_search env); try discriminate.
    destruct (lookup_text env a) as [n|]; try discriminate. destruct (ce_post env n req) as [m|e] eqn:EP; try discriminate.
    destruct (printed_message f m (HR _ _ _ EP)) as (b & ->). unfold printing, stopping, call. destruct (ce_stop env); discriminate.
  - unfold set_run. destruct args as [|a [|o [|p [|d r]]]]; try discriminate.
    destruct (requests_total o p d) as (_ & HQ). destruct (set_request o p d) as [req| |]; [|discriminate|congruence].
    unfold reach, call. destruct (ce_start env); try discriminate. destruct (ce_search env); try discriminate.
    destruct (lookup_text env a) as [n|]; try discriminate. unfold stopping, call.
    destruct (ce_send env n req); try discriminate. destruct (ce_stop env); discriminate.
  - pose proof (format_total fmt) as HF. unfold scan_run. destruct args as [|a [|o r]]; try discriminate.
    all: destruct (NewFormatFromString fmt) as [f| |]; [|discriminate|congruence].
    all: match goal with |- context [scan_bytes ?e ?f ?d ?a] => destruct (scan_printed e f d a) as (b & ->) end.
    all: unfold call; destruct (ce_start env); try discriminate; destruct (ce_search env); try discriminate.
    all: unfold printing, stopping, call; destruct (ce_stop env); discriminate.
Qed.

(** ** Output *)

(** What a get prints is the response it was given, and it prints only what a peer answered. *)
Theorem C112_printed_get : forall env fmt args b,
  In (APrint b) (fst (get_run env fmt args)) <->
  exists address obj prop more f req n res,
    args = address :: obj :: prop :: more /\ NewFormatFromString fmt = Ok f /\ get_request obj prop = Ok req /\
    ce_start env = None /\ ce_search env = None /\ lookup_text env address = Some n /\
    ce_post env n req = inl res /\ print_bytes f (message_table [res]) = Ok b.
Proof.
  intros env fmt args b. split.
  - unfold get_run. destruct args as [|a [|o [|p r]]]; try nothing.
    destruct (NewFormatFromString fmt) as [f| |]; try nothing. destruct (get_request o p) as [req| |] eqn:ER; try nothing.
    unfold reach, call. destruct (ce_start env); try nothing. destruct (ce_search env); try nothing.
    destruct (lookup_text env a) as [n|] eqn:EL; try nothing. destruct (ce_post env n req) as [m|e] eqn:EP; try nothing.
    remember (print_bytes f (message_table [m])) as x eqn:EX. unfold printing, stopping, call.
    destruct x as [x| |]; [|nothing..]. intros X.
    assert (x = b) as ->.
    { destruct (ce_stop env); cbn [fst snd] in X; repeat (destruct X as [X|X]; [first [discriminate X|injection X as ->; reflexivity]|]); destruct X. }
    exists a, o, p, r, f, req, n, m. repeat (split; [first [reflexivity|assumption]|]). symmetry. exact EX.
  - intros (a & o & p & r & f & req & n & m & -> & EF & ER & E1 & E2 & EL & EP & EB).
    unfold get_run. rewrite EF, ER. unfold reach. rewrite E1, E2, EL, EP, EB. unfold printing, stopping, call.
    destruct (ce_stop env); cbn; auto 6.
Qed.
Theorem C112_printed_scan : forall env verbose fmt args b,
  In (APrint b) (fst (scan_run env verbose fmt args)) <->
  exists address f, scan_argument args address /\ NewFormatFromString fmt = Ok f /\ ce_start env = None /\ ce_search env = None /\
    scan_bytes env f (verbose || negb (is_blank address)) address = Ok b.
Proof.
  intros env verbose fmt args b. split.
  - unfold scan_run. destruct args as [|a [|o r]]; try nothing.
    all: destruct (NewFormatFromString fmt) as [f| |]; try nothing.
    all: match goal with |- context [scan_bytes ?e ?f ?d ?a] => remember (scan_bytes e f d a) as x eqn:EX; intros X; exists a, f end.
    all: unfold call in X; destruct (ce_start env); [repeat (destruct X as [X|X]; [discriminate X|]); destruct X|].
    all: destruct (ce_search env); [repeat (destruct X as [X|X]; [discriminate X|]); destruct X|].
    all: assert (x = Ok b) as -> by (unfold printing, stopping, call in X; destruct x as [x| |]; destruct (ce_stop env); cbn [fst snd] in X;
           repeat (destruct X as [X|X]; [first [discriminate X|injection X as ->; reflexivity]|]); destruct X).
    + split; [left; auto|]. repeat (split; [reflexivity|]). symmetry. exact EX.
    + split; [right; auto|]. repeat (split; [reflexivity|]). symmetry. exact EX.
  - intros (a & f & HA & EF & E1 & E2 & EB).
    assert (HR : scan_run env verbose fmt args = call AStart (ce_start env) (call ASearch (ce_search env)
      (printing (scan_bytes env f (verbose || negb (is_blank a)) a) (stopping env)))).
    { unfold scan_run. destruct HA as [[-> ->]| ->]; rewrite EF; reflexivity. }
    rewrite HR, E1, E2, EB. unfold printing, stopping, call. destruct (ce_stop env); cbn; auto.
Qed.
(** What scan prints: json and csv give the whole table of the nodes, the default
    format the table with the repeated cells of its first five columns left out.
    Details are listed exactly with the flag or an address. *)
Theorem C112_text_scan : forall env verbose fmt args b, In (APrint b) (fst (scan_run env verbose fmt args)) ->
  exists address f, scan_argument args address /\ NewFormatFromString fmt = Ok f /\
    let t := DiscoveredNodeTable (ce_scan env) (ce_nodes env) (verbose || negb (is_blank address)) address in
    match f with
    | FormatJSON => OutputJSON_text t = Ok b
    | FormatCSV => b = codes (OutputCSV t)
    | FormatTable => exists short, HideDuplicateColumns t [0; 1; 2; 3; 4] = Ok short /\ b = Output short
    end.
Proof.
  intros env verbose fmt args b X. apply C112_printed_scan in X. destruct X as (a & f & HA & EF & _ & _ & EB).
  exists a, f. split; [exact HA|]. split; [exact EF|]. cbv zeta. unfold scan_bytes, print_bytes in EB.
  destruct f; [|congruence..]. unfold scan_table in EB.
  destruct (HideDuplicateColumns _ _) as [short| |]; cbn [bind] in EB; try discriminate EB.
  exists short. split; [reflexivity|]. congruence.
Qed.
(** Once it has printed, a command reports what the stop reports; what was not printed is not a success. *)
Definition stop_status (env : command_env) : res unit := match ce_stop env with None => Ok tt | Some e => Err e end.
Theorem C112_printed_status : forall env fmt args verbose,
  ((exists b, In (APrint b) (fst (get_run env fmt args))) ->
     snd (get_run env fmt args) = stop_status env /\ In AStop (fst (get_run env fmt args))) /\
  ((exists b, In (APrint b) (fst (scan_run env verbose fmt args))) ->
     snd (scan_run env verbose fmt args) = stop_status env /\ In AStop (fst (scan_run env verbose fmt args))) /\
  (snd (get_run env fmt args) = Ok tt -> exists b, In (APrint b) (fst (get_run env fmt args))) /\
  (snd (scan_run env verbose fmt args) = Ok tt -> exists b, In (APrint b) (fst (scan_run env verbose fmt args))).
Proof.
  intros env fmt args verbose. split; [|split; [|split]].
  - intros (b & H). apply C112_printed_get in H. destruct H as (a & o & p & r & f & req & n & m & -> & EF & ER & E1 & E2 & EL & EP & EB).
    unfold get_run. rewrite EF, ER. unfold reach. rewrite E1, E2, EL, EP, EB. unfold printing, stopping, stop_status, call.
    destruct (ce_stop env); cbn; auto 8.
  - intros (b & H). apply C112_printed_scan in H. destruct H as (a & f & HA & EF & E1 & E2 & EB).
    assert (HR : scan_run env verbose fmt args = call AStart (ce_start env) (call ASearch (ce_search env)
      (printing (scan_bytes env f (verbose || negb (is_blank a)) a) (stopping env)))).
    { unfold scan_run. destruct HA as [[-> ->]| ->]; rewrite EF; reflexivity. }
    rewrite HR, E1, E2, EB. unfold printing, stopping, stop_status, call. destruct (ce_stop env); cbn; auto 6.
  - intros E. apply C112_get in E. destruct E as (a & o & p & r & f & req & n & m & b & _ & _ & _ & _ & _ & _ & _ & _ & _ & ->). exists b. cbn. auto 6.
  - intros E. apply C112_scan in E. destruct E as (a & f & b & _ & _ & _ & _ & _ & _ & ->). exists b. cbn. auto.
Qed.

(** ** The controller afterwards *)

(** Part: a command that reports success has stopped its controller. *)
Theorem C112_stopped_partial : forall env fmt args verbose,
  (snd (get_run env fmt args) = Ok tt -> In AStop (fst (get_run env fmt args)) /\ ce_stop env = None) /\
  (snd (set_run env args) = Ok tt -> In AStop (fst (set_run env args)) /\ ce_stop env = None) /\
  (snd (scan_run env verbose fmt args) = Ok tt -> In AStop (fst (scan_run env verbose fmt args)) /\ ce_stop env = None).
Proof.
  intros env fmt args verbose. split; [|split]; intros E.
  - apply C112_get in E. destruct E as (a & o & p & r & f & req & n & m & b & _ & _ & _ & _ & _ & _ & _ & _ & ES & ->). cbn. auto 8.
  - apply C112_set in E. destruct E as (a & o & p & d & r & req & n & _ & _ & _ & _ & _ & _ & ES & ->). cbn. auto 8.
  - apply C112_scan in E. destruct E as (a & f & b & _ & _ & _ & _ & _ & ES & ->). cbn. auto 8.
Qed.

(** False in the code otherwise: every command that fails before its stop leaves the controller as it is,
    exactly. *)
Theorem C112_unstopped_get : forall env fmt args,
  In AStart (fst (get_run env fmt args)) ->
  (~ In AStop (fst (get_run env fmt args)) <->
   (ce_start env <> None \/ ce_search env <> None \/
    exists address obj prop more f req, args = address :: obj :: prop :: more /\ NewFormatFromString fmt = Ok f /\ get_request obj prop = Ok req /\
      match lookup_text env address with
      | None => True
      | Some n => match ce_post env n req with inl res => forall b, print_bytes f (message_table [res]) <> Ok b | inr _ => True end
      end)).
Proof.
  intros env fmt args. unfold get_run. destruct args as [|a [|o [|p r]]]; try (intros []).
  destruct (NewFormatFromString fmt) as [f| |] eqn:EF; try (intros []). destruct (get_request o p) as [req| |] eqn:ER; try (intros []).
  intros _. unfold reach, call. destruct (ce_start env) eqn:E1; [split; [left; discriminate|intros _; nothing]|].
  destruct (ce_search env) eqn:E2; [split; [right; left; discriminate|intros _; nothing]|].
  destruct (lookup_text env a) as [n|] eqn:EL; [|split; [intros _; right; right; exists a, o, p, r, f, req; rewrite EL; auto|intros _; nothing]].
  destruct (ce_post env n req) as [m|e] eqn:EP; [|split; [intros _; right; right; exists a, o, p, r, f, req; rewrite EL, EP; auto|intros _; nothing]].
  remember (print_bytes f (message_table [m])) as x eqn:EX. unfold printing, stopping, call.
  destruct x as [x| |].
  - split; [intros H; exfalso; apply H; destruct (ce_stop env); cbn; auto 8|].
    intros [H|[H|(a' & o' & p' & r' & f' & req' & EA & EF' & ER' & H)]]; [congruence..|].
    injection EA as <- <- <- <-. injection EF' as <-. rewrite ER in ER'. injection ER' as <-. rewrite EL, EP, <- EX in H. destruct (H x eq_refl).
  - split; [intros _; right; right; exists a, o, p, r, f, req; rewrite EL, EP, <- EX; repeat (split; [first [reflexivity|assumption]|]); congruence|intros _; destruct (ce_stop env); nothing].
  - split; [intros _; right; right; exists a, o, p, r, f, req; rewrite EL, EP, <- EX; repeat (split; [first [reflexivity|assumption]|]); congruence|intros _; destruct (ce_stop env); nothing].
Qed.

(** The same for set, which fails before its stop when there is no such node or
    the request cannot be sent, and for scan, which always has something to print. *)
Theorem C112_unstopped_set : forall env args,
  In AStart (fst (set_run env args)) ->
  (~ In AStop (fst (set_run env args)) <->
   (ce_start env <> None \/ ce_search env <> None \/
    exists address obj prop data more req, args = address :: obj :: prop :: data :: more /\ set_request obj prop data = Ok req /\
      match lookup_text env address with
      | None => True
      | Some n => ce_send env n req <> None
      end)).
Proof.
  intros env args. unfold set_run. destruct args as [|a [|o [|p [|d r]]]]; try (intros []).
  destruct (set_request o p d) as [req| |] eqn:ER; try (intros []).
  intros _. unfold reach, call. destruct (ce_start env) eqn:E1; [split; [left; discriminate|intros _; nothing]|].
  destruct (ce_search env) eqn:E2; [split; [right; left; discriminate|intros _; nothing]|].
  destruct (lookup_text env a) as [n|] eqn:EL; [|split; [intros _; right; right; exists a, o, p, d, r, req; rewrite EL; auto|intros _; nothing]].
  destruct (ce_send env n req) as [e|] eqn:EP.
  - split; [|intros _; nothing]. intros _. right. right. exists a, o, p, d, r, req. rewrite EL, EP.
    split; [reflexivity|]. split; [exact ER|discriminate].
  - unfold stopping, call. split; [intros H; exfalso; apply H; destruct (ce_stop env); cbn; auto 8|].
    intros [H|[H|(a' & o' & p' & d' & r' & req' & EA & ER' & H)]]; [congruence..|].
    injection EA as <- <- <- <- <-. rewrite ER in ER'. injection ER' as <-. rewrite EL in H. congruence.
Qed.
Theorem C112_unstopped_scan : forall env verbose fmt args,
  In AStart (fst (scan_run env verbose fmt args)) ->
  (~ In AStop (fst (scan_run env verbose fmt args)) <-> (ce_start env <> None \/ ce_search env <> None)).
Proof.
  intros env verbose fmt args. unfold scan_run.
  destruct args as [|a [|o r]]; [|  |intros []].
  all: destruct (NewFormatFromString fmt) as [f| |]; try (intros []); intros _.
  all: unfold call; destruct (ce_start env); [split; [left; discriminate|intros _; nothing]|].
  all: destruct (ce_search env); [split; [right; discriminate|intros _; nothing]|].
  all: match goal with |- context [scan_bytes ?e ?f ?d ?a] => destruct (scan_printed e f d a) as (b & ->) end.
  all: unfold printing, stopping, call; split; [intros H; exfalso; apply H; destruct (ce_stop env); cbn; auto 8|intros [H|H]; congruence].
Qed.
(** A light that is there but to which nothing can be sent. *)
Example C112_unstopped_example :
  let env := mkCommandEnv None None (mkCtrl [rn_SetAddress newRemoteNode (mkAddress 7 3610)] [] []) (fun _ _ => inr ErrTimeout) (fun _ _ => Some ErrInvalid) None
               (mkEnv (fun _ => "192.168.0.7"%string) (fun _ => "light"%string) (fun _ _ => EmptyString) (fun _ => None) (fun _ _ _ => inr "timeout"%string)) in
  map phase (fst (set_run env ["192.168.0.7"; "029001"; "80"; "31"]%string)) = [0; 1; 2] /\
  map phase (fst (scan_run env false "csv" [])) = [0; 1; 3; 4].
Proof. split; vm_compute; reflexivity. Qed.

(** ** What success does not say *)

(** The status of a get does not depend on what the device answered, only on that it answered. *)
Theorem C112_status_get : forall env env' fmt args,
  ce_start env' = ce_start env -> ce_search env' = ce_search env -> ce_nodes env' = ce_nodes env -> ce_stop env' = ce_stop env ->
  ce_scan env' = ce_scan env -> answers_read env -> answers_read env' ->
  (forall n m, match ce_post env n m, ce_post env' n m with inl _, inl _ => True | inr e, inr e' => e = e' | _, _ => False end) ->
  snd (get_run env fmt args) = snd (get_run env' fmt args).
Proof.
  intros env env' fmt args H1 H2 H3 H4 H5 R R' HP. unfold get_run. destruct args as [|a [|o [|p r]]]; try reflexivity.
  destruct (NewFormatFromString fmt) as [f| |]; try reflexivity. destruct (get_request o p) as [req| |]; try reflexivity.
  assert (HL : lookup_text env' a = lookup_text env a) by (unfold lookup_text; rewrite H3, H5; reflexivity).
  unfold reach, call. rewrite H1, H2, HL. destruct (ce_start env); [reflexivity|]. destruct (ce_search env); [reflexivity|].
  destruct (lookup_text env a) as [n|]; [|reflexivity]. specialize (HP n req).
  destruct (ce_post env n req) as [m|e] eqn:EP; destruct (ce_post env' n req) as [m'|e'] eqn:EP'; try destruct HP; [|reflexivity].
  destruct (printed_message f m (R _ _ _ EP)) as (b & ->). destruct (printed_message f m' (R' _ _ _ EP')) as (b' & ->).
  unfold printing, stopping, call. rewrite H4. destruct (ce_stop env); reflexivity.
Qed.

(** ** Concrete cases *)

(** One node, 192.168.0.10, with a light; every read is answered with [bytes]. *)
Definition ex_node : rnode := rn_SetAddress newRemoteNode (mkAddress 0xC0A8000A 3610).
Definition ex_answer (bytes : list Z) : message + err :=
  match NewMessageWithBytes bytes with Ok m => inl m | _ => inr ErrTimeout end.
Definition ex_env (bytes : list Z) : command_env :=
  mkCommandEnv None None (mkCtrl [ex_node] [] []) (fun _ _ => ex_answer bytes) (fun _ _ => None) None
    (mkEnv (fun ip => if ip =? 0xC0A8000A then "192.168.0.10"%string else "?"%string) (fun _ => "light"%string)
           (fun _ _ => EmptyString) (fun _ => None) (fun _ _ _ => inr "timeout"%string)).
Definition ex_args : list string := ["192.168.0.10"; "029001"; "80"]%string.
(** The light answers that it is on; and that it has no such property (ESV 0x52). *)
Definition ex_on : list Z := [0x10; 0x81; 0; 1; 2; 0x90; 1; 0x0E; 0xF0; 1; 0x72; 1; 0x80; 1; 0x30].
Definition ex_refusal : list Z := [0x10; 0x81; 0; 1; 2; 0x90; 1; 0x0E; 0xF0; 1; 0x52; 1; 0x80; 0].

Example C112_example :
  map phase (fst (get_run (ex_env ex_on) "csv" ex_args)) = [0; 1; 2; 3; 4] /\
  snd (get_run (ex_env ex_on) "csv" ex_args) = Ok tt /\
  In (APrint (codes ("EHD,TID,SEOJ,DEOJ,ESV,OPC,EPC0,PDC0,EDT0" ++ newline ++ "1081,0001,029001,0EF001,72,01,80,01,30" ++ newline)))
     (fst (get_run (ex_env ex_on) "csv" ex_args)).
Proof. split; [vm_compute; reflexivity|]. split; [vm_compute; reflexivity|]. vm_compute. auto 6. Qed.
Example C112_set_example :
  map phase (fst (set_run (ex_env ex_on) ["192.168.0.10"; "029001"; "80"; "31"]%string)) = [0; 1; 2; 4] /\
  set_run (ex_env ex_on) ["192.168.0.10"; "029001"; "80"; "3"]%string = ([], Err ErrInvalid) /\
  set_run (ex_env ex_on) ["192.168.0.11"; "029001"; "80"; "31"]%string = ([AStart; ASearch], Err ErrNotFound).
Proof. split; [vm_compute; reflexivity|]. split; vm_compute; reflexivity. Qed.
Example C112_scan_example :
  map phase (fst (scan_run (ex_env ex_on) false "table" [])) = [0; 1; 3; 4] /\
  scan_run (ex_env ex_on) false "xml" [] = ([], Err ErrInvalid).
Proof. split; vm_compute; reflexivity. Qed.
Example C112_hypotheses_example : answers_read (ex_env ex_on) /\ answers_read (ex_env ex_refusal).
Proof.
  split; intros n m res H; cbn in H; unfold ex_answer in H.
  - exists ex_on, res, (m_from res), (m_pktType res). split; [unfold is_bytes; repeat constructor; lia|].
    destruct (NewMessageWithBytes ex_on) as [x| |] eqn:E; try discriminate H. injection H as <-. split; [reflexivity|destruct x; reflexivity].
  - exists ex_refusal, res, (m_from res), (m_pktType res). split; [unfold is_bytes; repeat constructor; lia|].
    destruct (NewMessageWithBytes ex_refusal) as [x| |] eqn:E; try discriminate H. injection H as <-. split; [reflexivity|destruct x; reflexivity].
Qed.

(** False in the code: a get that was refused by the device is a success; and a controller that was
    started is left running when the node is not there. *)
Theorem C112_status_refuted :
  snd (get_run (ex_env ex_refusal) "csv" ex_args) = Ok tt /\
  (exists m, ex_answer ex_refusal = inl m /\ m_esv m = 0x52) /\
  set_run (ex_env ex_on) ["192.168.0.10"; "029001"; "80"; "31"; "32"]%string =
  set_run (ex_env ex_on) ["192.168.0.10"; "029001"; "80"; "31"]%string.
Proof. split; [vm_compute; reflexivity|]. split; [eexists; split; vm_compute; reflexivity|vm_compute; reflexivity]. Qed.
Theorem C112_stopped_refuted : exists env fmt args,
  ce_start env = None /\ In AStart (fst (get_run env fmt args)) /\ ~ In AStop (fst (get_run env fmt args)) /\
  snd (get_run env fmt args) = Err ErrNotFound.
Proof.
  exists (ex_env ex_on), "table"%string, ["192.168.0.11"; "029001"; "80"]%string. split; [reflexivity|].
  split; [vm_compute; auto|]. split; [vm_compute; intros [X|[X|[]]]; discriminate X|vm_compute; reflexivity].
Qed.

Print Assumptions C112_order.
Print Assumptions C112_get.
Print Assumptions C112_set.
Print Assumptions C112_scan.
Print Assumptions C112_refused_get.
Print Assumptions C112_refused_set.
Print Assumptions C112_refused_scan.
Print Assumptions C112_refused_error.
Print Assumptions C112_asks_get.
Print Assumptions C112_asks_set.
Print Assumptions C112_asks_scan.
Print Assumptions C112_more_ignored.
Print Assumptions C112_no_panic.
Print Assumptions C112_printed_get.
Print Assumptions C112_printed_scan.
Print Assumptions C112_text_scan.
Print Assumptions C112_printed_status.
Print Assumptions C112_stopped_partial.
Print Assumptions C112_unstopped_get.
Print Assumptions C112_unstopped_set.
Print Assumptions C112_unstopped_scan.
Print Assumptions C112_status_get.
Print Assumptions C112_status_refuted.
Print Assumptions C112_stopped_refuted.
