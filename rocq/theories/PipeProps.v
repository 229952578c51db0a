(** C63: TCP counters, from the events to the exporter. *)
From Verif Require Import Base Decimal AttrModel PoolModel KeyModel KeyProps AggModel AggSpec AggProofs AggProofs2 AggProps AggTotal SampleModel SampleProps EventModel
  K8sModel EnrichModel EnrichSpec EnrichProofs EnrichProps EnrichHist TcpModel TcpSpec TcpProps PipeModel.
Open Scope string_scope. Open Scope list_scope. Open Scope Z_scope.

Notation defaultKm := (toAggregatedConfig defaultKindMap).

(** ** Specification *)
(** The labels an exported TCP series shows: the selected ones. *)
Definition shown (m : labels) : labels := getLabels (getLabelKeys tcpSelectors m).
(** The labels of what the event says, with the Kubernetes metadata known at that moment. *)
Definition seen it lip lname (enable : bool) (v : view) (s : saying) (m : labels) : Prop :=
  let t := s_tuple s in
  enrich it lip lname enable (v_clock v) (v_k8s v) (bs (s_group s)) (tupleLabels t (v_dnat v (t_sip t) (t_sport t) (t_dip t) (t_dport t))) = Ok m.
(** What a step adds to the counters of group [nm] over the labels chosen by [P]. *)
Definition adds it lip lname enable (nm : string) (P : labels -> bool) (o : pipe_op) (w : Z) : Prop :=
  match o with
  | QTick => w = 0
  | QEvent e v _ => (tcpSays e None /\ w = 0) \/
      exists s m, tcpSays e (Some s) /\ seen it lip lname enable v s m /\ w = if eqb (s_group s) nm && P (shown m) then s_value s else 0
  end.
(** Every event of the history is well formed. *)
Definition wellFormed (os : list pipe_op) : Prop := forall e v d, In (QEvent e v d) os -> exists r, tcpSays e r.
Definition counterMetric (nm out : string) : Prop :=
  (nm = "tcp_drop_metric_group" /\ out = "kindling_tcp_packet_loss_total") \/ (nm = "tcp_retransmit_metric_group" /\ out = "kindling_tcp_retransmit_total").

(** ** Reduction to the aggregator *)
Lemma tuple_wellTyped t n : wellTyped (tupleLabels t n).
Proof.
  split.
  - intros k v I G. unfold tupleLabels in G. cbn in G.
    repeat match type of G with (if (k =? ?x)%string then _ else _) = _ => destruct (String.eqb_spec k x) as [->|] end;
      try discriminate G; first [injection G as <-; eexists; reflexivity | exfalso; cbn in I; repeat (destruct I as [I|I]; [discriminate I|]); destruct I].
  - intros v G. cbn in G. injection G as <-. eexists. reflexivity.
Qed.
Lemma seen_exists it lip lname enable v s : exists m, seen it lip lname enable v s m.
Proof.
  unfold seen. cbv zeta. match goal with |- exists m, enrich _ _ _ _ _ _ _ (tupleLabels ?t ?n) = _ =>
    destruct (C43_others_kept it lip lname enable (v_clock v) (v_k8s v) (bs (s_group s)) _ (tuple_wellTyped t n)) as (m & E & _) end.
  exists m. exact E.
Qed.
Definition tcpNames : list string := ["tcp_rtt_metric_group"; "tcp_retransmit_metric_group"; "tcp_drop_metric_group"].
Lemma says_name e s : tcpSays e (Some s) -> In (s_group s) tcpNames.
Proof. intros H. inversion H; subst; cbn; tauto. Qed.
Definition kind3 (s : saying) : Prop :=
  (s_group s, s_metric s) = ("tcp_rtt_metric_group", "kindling_tcp_srtt_microseconds") \/
  (s_group s, s_metric s) = ("tcp_retransmit_metric_group", "kindling_tcp_retransmit_total") \/
  (s_group s, s_metric s) = ("tcp_drop_metric_group", "kindling_tcp_packet_loss_total").
Lemma says_kind e s : tcpSays e (Some s) -> kind3 s.
Proof. intros H. unfold kind3. inversion H; subst; cbn; tauto. Qed.

Section Pipe.
  Context (it : forall A : Type, nat -> list A -> list A) (lip lname : bytes) (enable : bool) (cfg : sampling).
  (** The aggregation call of one step. *)
  Definition call (o : pipe_op) (c : list agg_op) : Prop :=
    match o with
    | QTick => c = [ODump]
    | QEvent e v _ => (tcpSays e None /\ c = []) \/
        exists s m, tcpSays e (Some s) /\ seen it lip lname enable v s m /\
          c = [OAgg {| gname := s_group s; gmetrics := [(s_metric s, MInt (s_value s))]; glabels := m; gts := e_ts e |} tcpSelectors]
    end.
  Lemma call_step km s o c : call o c ->
    match agg_run km s c with
    | Ok (es, s') => exists e, pipe_step it lip lname enable km cfg s o = Ok (e, s') /\ e = List.concat es
    | Err => pipe_step it lip lname enable km cfg s o = Err
    | Panic => pipe_step it lip lname enable km cfg s o = Panic
    end.
  Proof.
    destruct o as [e v d|]; cbn [call].
    - intros [[S ->]|(sy & m & S & SE & ->)].
      + cbn [agg_run pipe_step]. rewrite (C62_says (v_dnat v) e _ S). cbn [bind option_map]. exists []. split; reflexivity.
      + cbn [agg_run pipe_step]. rewrite (C62_says (v_dnat v) e _ S). cbn [bind option_map].
        unfold enrichGroup, groupOf. cbv zeta. unfold seen in SE. cbv zeta in SE. unfold oneMetric. cbn [gname glabels gmetrics gts]. rewrite SE. cbn [bind].
        unfold consume. cbn [gname glabels].
        assert (NN : eqb (s_group sy) netRequestGroup = false) by (pose proof (says_name e sy S) as I; destruct I as [<-|[<-|[<-|[]]]]; reflexivity).
        assert (TT : eqb (s_group sy) tcpRttGroup || eqb (s_group sy) tcpRetransmitGroup || eqb (s_group sy) tcpDropGroup = true)
          by (pose proof (says_name e sy S) as I; destruct I as [<-|[<-|[<-|[]]]]; reflexivity).
        rewrite NN, TT. cbn [agg_step]. destruct (aggregate km s _ tcpSelectors) as [s'| |]; cbn [bind fst snd]; [|reflexivity|reflexivity].
        exists []. split; reflexivity.
    - intros ->. cbn [agg_run agg_step pipe_step]. destruct (dump s) as [[e s']| |]; cbn [bind fst snd]; [|reflexivity|reflexivity].
      exists e. split; [reflexivity|]. cbn. rewrite app_nil_r. reflexivity.
  Qed.
  Lemma calls_run km : forall os cs s, Forall2 call os cs ->
    match agg_run km s (List.concat cs) with
    | Ok (es, s') => exists es', pipe_run it lip lname enable km cfg s os = Ok (es', s') /\ List.concat es' = List.concat es
    | Err => pipe_run it lip lname enable km cfg s os = Err
    | Panic => pipe_run it lip lname enable km cfg s os = Panic
    end.
  Proof.
    intros os cs s F. revert s. induction F as [|o c os cs C F IH]; intros s.
    - cbn. exists []. split; reflexivity.
    - cbn [List.concat]. rewrite agg_run_app. pose proof (call_step km s o c C) as X. cbn [pipe_run].
      destruct (agg_run km s c) as [[e1 s1]| |]; cbn [bind fst snd].
      + destruct X as (e & -> & ->). cbn [bind fst snd]. specialize (IH s1).
        destruct (agg_run km s1 (List.concat cs)) as [[e2 s2]| |]; cbn [bind fst snd]; [|rewrite IH; reflexivity|rewrite IH; reflexivity].
        destruct IH as (es' & -> & E). cbn [bind fst snd]. exists (List.concat e1 :: es'). split; [reflexivity|].
        cbn [List.concat]. rewrite E, concat_app. reflexivity.
      + rewrite X. reflexivity.
      + rewrite X. reflexivity.
  Qed.
  Lemma adds_calls nm P os ws : Forall2 (adds it lip lname enable nm P) os ws -> exists cs, Forall2 call os cs /\
    Forall2 (fun c w => fedWhere defaultKm nm P (if eqb nm "tcp_drop_metric_group" then "kindling_tcp_packet_loss_total" else "kindling_tcp_retransmit_total") c =
       if eqb nm "tcp_drop_metric_group" || eqb nm "tcp_retransmit_metric_group" then w else 0) cs ws.
  Proof.
    intros F. induction F as [|o w os ws A F (cs & C & D)]; [exists []; split; constructor|].
    destruct o as [e v d|]; cbn [adds] in A.
    - destruct A as [[S ->]|(s & m & S & SE & ->)].
      + exists ([] :: cs). split; constructor; try assumption; [left; split; [exact S|reflexivity]|]. cbn. match goal with |- 0 = (if ?b then _ else _) => destruct b; reflexivity end.
      + exists ([OAgg {| gname := s_group s; gmetrics := [(s_metric s, MInt (s_value s))]; glabels := m; gts := e_ts e |} tcpSelectors] :: cs).
        split; constructor; try assumption.
        * right. exists s, m. split; [exact S|]. split; [exact SE|reflexivity].
        * unfold fedWhere. cbn [map]. rewrite zsum_cons. cbn [gname glabels]. fold (shown m). change (zsum []) with 0. rewrite Z.add_0_r.
          pose proof (says_kind e s S) as K. unfold kind3 in K. destruct s as [sg sm sv st]. cbn [s_group s_metric s_value] in *.
          destruct (P (shown m)); cbn [andb]; [rewrite andb_true_r|rewrite andb_false_r; match goal with |- 0 = (if ?b then _ else _) => destruct b; reflexivity end].
          case_eqb sg nm; [|match goal with |- 0 = (if ?b then _ else _) => destruct b; reflexivity end].
          subst nm. destruct K as [K|[K|K]]; injection K as -> ->; unfold contribution; cbn -[Z.add]; rewrite ?Z.add_0_r; reflexivity.
    - subst w. exists ([ODump] :: cs). split; constructor; try assumption; [reflexivity|]. cbn. match goal with |- 0 = (if ?b then _ else _) => destruct b; reflexivity end.
  Qed.
  Lemma call_shape os cs g sels : Forall2 call os cs -> In (OAgg g sels) (List.concat cs) ->
    exists s, kind3 s /\ gname g = s_group s /\ gmetrics g = [(s_metric s, MInt (s_value s))] /\ sels = tcpSelectors.
  Proof.
    intros F. induction F as [|o c os cs C F IH]; intros I; [destruct I|]. cbn [List.concat] in I. apply in_app_or in I. destruct I as [I|I]; [|exact (IH I)].
    destruct o as [e v d|]; cbn [call] in C.
    - destruct C as [[_ ->]|(s & m & S & _ & ->)]; [destruct I|]. destruct I as [I|[]]. injection I as <- <-.
      exists s. split; [exact (says_kind e s S)|]. split; [reflexivity|]. split; reflexivity.
    - subst c. destruct I as [I|[]]. discriminate I.
  Qed.
  Lemma calls_int os cs g sels : Forall2 call os cs -> In (OAgg g sels) (List.concat cs) -> int_group g.
  Proof. intros F I. destruct (call_shape os cs g sels F I) as (s & _ & _ & M & _). intros m d J. rewrite M in J. destruct J as [J|[]]. injection J as _ <-. eexists. reflexivity. Qed.
  Lemma calls_uniform os cs : Forall2 call os cs -> uniform (List.concat cs).
  Proof.
    intros F g1 s1 g2 s2 I1 I2 N _ m.
    destruct (call_shape os cs g1 s1 F I1) as (a & Ka & Na & Ma & _). destruct (call_shape os cs g2 s2 F I2) as (b & Kb & Nb & Mb & _).
    unfold mnames. rewrite Ma, Mb. cbn [map fst]. assert (s_metric a = s_metric b); [|rewrite H; reflexivity].
    rewrite Na, Nb in N. unfold kind3 in *. destruct a as [ag am av at_], b as [bg bm bv bt]. cbn [s_group s_metric] in *. subst bg.
    destruct Ka as [K|[K|K]]; injection K as -> ->; destruct Kb as [K|[K|K]]; first [discriminate K | injection K as K]; congruence.
  Qed.
End Pipe.

Lemma counters_default out : out = "kindling_tcp_packet_loss_total" \/ out = "kindling_tcp_retransmit_total" -> counter_output defaultKm out.
Proof.
  intros O m cs c G I E. cbn in G.
  repeat (destruct (m =? _)%string in G; [inversion G; subst cs; clear G; cbn in I;
    repeat (destruct I as [<-|I]; [first [left; reflexivity | right; reflexivity | destruct O; subst out; discriminate]|]); destruct I|]). discriminate.
Qed.

(** C63: over any history of well-formed events that ends with a tick - whatever the translations, the Kubernetes caches and their changes,
    the order of events and ticks - the lost packets and the retransmitted segments exported for any choice of labels are those the events reported. *)
Theorem C63_counters_end_to_end : forall it lip lname enable cfg (nm out : string) (P : labels -> bool) os ws es s,
  counterMetric nm out ->
  Forall2 (adds it lip lname enable nm P) os ws ->
  pipe_run it lip lname enable defaultKm cfg [] (os ++ [QTick]) = Ok (es, s) ->
  s64 (exportedWhere nm P out es) = s64 (zsum ws).
Proof.
  intros it lip lname enable cfg nm out P os ws es s CM F R.
  destruct (adds_calls it lip lname enable nm P os ws F) as (cs & C & D).
  assert (C' : Forall2 (call it lip lname enable) (os ++ [QTick]) (cs ++ [[ODump]])) by (apply Forall2_app; [exact C|constructor; [reflexivity|constructor]]).
  pose proof (calls_run it lip lname enable cfg defaultKm _ _ [] C') as X. rewrite R in X. rewrite concat_app in X. cbn [List.concat app] in X.
  destruct (agg_run defaultKm [] (List.concat cs ++ [ODump])) as [[es1 s1]| |] eqn:R1; [|discriminate X|discriminate X].
  destruct X as (es' & E & EC). injection E as <- <-.
  assert (O : out = "kindling_tcp_packet_loss_total" \/ out = "kindling_tcp_retransmit_total") by (destruct CM as [[_ ->]|[_ ->]]; tauto).
  pose proof (C02_totals_conserved defaultKm out nm P (List.concat cs) es1 s (counters_default out O) (calls_uniform _ _ _ _ _ _ C)
    (fun g sels I => int_ok _ _ (calls_int _ _ _ _ os cs g sels C I)) R1) as T.
  unfold exportedWhere in T |- *. rewrite EC. rewrite T. f_equal.
  assert (FA : forall a b, fedWhere defaultKm nm P out (a ++ b) = fedWhere defaultKm nm P out a + fedWhere defaultKm nm P out b)
    by (intros a b; unfold fedWhere; rewrite map_app, zsum_app; reflexivity).
  clear -CM D FA. induction D as [|c w cs ws E D IH]; [reflexivity|]. cbn [List.concat]. rewrite FA, IH, zsum_cons. f_equal.
  destruct CM as [[-> ->]|[-> ->]]; exact E.
Qed.
Print Assumptions C63_counters_end_to_end.

(** C63: such a history runs to its end, and the numbers above exist, whatever the caches hold. *)
Lemma calls_exist it lip lname enable os : wellFormed os -> exists cs, Forall2 (call it lip lname enable) os cs.
Proof.
  induction os as [|o os IH]; intros W; [exists []; constructor|].
  destruct IH as (cs & F); [intros e v d I; apply (W e v d); right; exact I|].
  destruct o as [e v d|].
  - destruct (W e v d (or_introl eq_refl)) as ([s|] & S).
    + destruct (seen_exists it lip lname enable v s) as (m & SE).
      eexists (_ :: cs). constructor; [|exact F]. right. exists s, m. split; [exact S|]. split; [exact SE|reflexivity].
    + exists ([] :: cs). constructor; [|exact F]. left. split; [exact S|reflexivity].
  - exists ([ODump] :: cs). constructor; [reflexivity|exact F].
Qed.
Theorem C63_runs : forall it lip lname enable cfg nm P os,
  wellFormed os -> zlen os < 2 ^ 63 ->
  (exists es s, pipe_run it lip lname enable defaultKm cfg [] os = Ok (es, s)) /\ (exists ws, Forall2 (adds it lip lname enable nm P) os ws).
Proof.
  intros it lip lname enable cfg nm P os W L. split.
  - destruct (calls_exist it lip lname enable os W) as (cs & F).
    pose proof (calls_run it lip lname enable cfg defaultKm os cs [] F) as X.
    destruct (C02_no_panic_on_integers defaultKm (List.concat cs)) as (es & s & R).
    + intros g sels. exact (calls_int it lip lname enable os cs g sels F).
    + assert (V : volume (List.concat cs) <= zlen os); [|lia].
      clear -F. induction F as [|o c os cs C F IH]; [cbn; lia|]. cbn [List.concat]. unfold volume in *. rewrite map_app, zsum_app. replace (zlen (o :: os)) with (zlen os + 1) by (unfold zlen; cbn [List.length]; lia).
      assert (B : zsum (map (fun o => match o with OAgg g _ => Z.of_nat (List.length (gmetrics g)) | _ => 0 end) c) <= 1); [|lia].
      destruct o as [e v d|]; cbn [call] in C.
      * destruct C as [[_ ->]|(s & m & _ & _ & ->)]; cbn; lia.
      * subst c. cbn. lia.
    + rewrite R in X. destruct X as (es' & X & _). exists es', s. exact X.
  - clear L. induction os as [|o os IH]; [exists []; constructor|].
    destruct IH as (ws & F); [intros e v d I; apply (W e v d); right; exact I|].
    destruct o as [e v d|].
    + destruct (W e v d (or_introl eq_refl)) as ([s|] & S).
      * destruct (seen_exists it lip lname enable v s) as (m & SE).
        eexists (_ :: ws). constructor; [|exact F]. right. exists s, m. split; [exact S|]. split; [exact SE|reflexivity].
      * exists (0 :: ws). constructor; [|exact F]. left. split; [exact S|reflexivity].
    + exists (0 :: ws). constructor; [reflexivity|exact F].
Qed.
Print Assumptions C63_runs.

(** C63: all in all, as many lost packets are exported as there were drop events of complete connections, and as many retransmissions as the
    events reported segments. *)
Definition reported (nm : string) (o : pipe_op) (w : Z) : Prop :=
  match o with
  | QTick => w = 0
  | QEvent e _ _ => (tcpSays e None /\ w = 0) \/ exists s, tcpSays e (Some s) /\ w = if eqb (s_group s) nm then s_value s else 0
  end.
Theorem C63_totals : forall it lip lname enable cfg (nm out : string) os ws es s,
  counterMetric nm out -> Forall2 (reported nm) os ws ->
  pipe_run it lip lname enable defaultKm cfg [] (os ++ [QTick]) = Ok (es, s) ->
  s64 (exportedWhere nm (fun _ => true) out es) = s64 (zsum ws).
Proof.
  intros it lip lname enable cfg nm out os ws es s CM F R.
  apply (C63_counters_end_to_end it lip lname enable cfg nm out (fun _ => true) os ws es s CM); [|exact R].
  clear R. induction F as [|o w os ws A F IH]; constructor; [|exact IH].
  destruct o as [e v d|]; cbn [reported adds] in *; [|exact A]. destruct A as [A|(sy & S & ->)]; [left; exact A|right].
  destruct (seen_exists it lip lname enable v sy) as (m & SE). exists sy, m. split; [exact S|]. split; [exact SE|]. rewrite andb_true_r. reflexivity.
Qed.
Print Assumptions C63_totals.

(** ** By pod *)
(** The pod that the Kubernetes caches name for the source of the connection. *)
Definition sourcePod it (v : view) (t : tuple) : option podInfo :=
  match tcpSource it (v_k8s v) (v_clock v) (addressText (t_sip t)) (t_sport t) with
  | FContainer c => Some (podOf (v_k8s v) c)
  | FPod r => Some r
  | _ => None
  end.
Definition isPod (ns p : bytes) (r : option podInfo) : bool := match r with Some r => eqb (pi_name r) p && eqb (pi_ns r) ns | None => false end.
Definition ofPod (ns p : bytes) (L : labels) : bool := eqb (strOf L "src_pod") p && eqb (strOf L "src_namespace") ns.

Lemma shown_string m k : In (k, StringType) tcpSelectors -> strOf (shown m) k = strOf m k.
Proof.
  intros I. unfold shown, getLabels, getLabelKeys, pad, strOf. rewrite fold_left_app, fold_blank.
  change (firstn maxLabelKeySize tcpSelectors) with tcpSelectors.
  destruct selectors_fit as (_ & (_ & V & ND) & _).
  assert (G : forall sels acc, NoDup (map fst sels) -> In (k, StringType) sels ->
     aget (fold_left keyLabel (map (selectKey m) sels) acc) k = Some (SV (asString (aget m k)))).
  { assert (K : forall acc s, fst s <> k -> aget (keyLabel acc (selectKey m s)) k = aget acc k).
    { intros acc s N. unfold keyLabel, selectKey, ktype, kname. cbn [fst snd].
      destruct (eqb (snd s) BooleanType), (eqb (snd s) StringType), (eqb (snd s) IntType); rewrite ?aget_aset_other by congruence; reflexivity. }
    assert (KF : forall sels acc, ~ In k (map fst sels) -> aget (fold_left keyLabel (map (selectKey m) sels) acc) k = aget acc k).
    { induction sels as [|s sels IH]; intros acc N; [reflexivity|]. cbn [map fold_left]. rewrite IH by (intros J; apply N; right; exact J).
      apply K. intros E. apply N. left. exact E. }
    induction sels as [|s sels IH]; intros acc N J; [destruct J|]. cbn [map] in N. apply NoDup_cons_iff in N. destruct N as [NI N]. cbn [map fold_left].
    destruct J as [->|J]; [|apply IH; assumption].
    rewrite KF by exact NI. unfold keyLabel, selectKey, ktype, kname, kvalue. cbn [fst snd].
    change (eqb StringType BooleanType) with false. change (eqb StringType StringType) with true. cbv iota. apply aget_aset_same. }
  rewrite (G tcpSelectors [] ND I). reflexivity.
Qed.
Lemma tcpDstT_src it st n ip port nip nport k : In k ["src_pod"; "src_namespace"] -> aget (tcpDstT it st n ip port nip nport) k = None.
Proof.
  intros I. unfold tcpDstT, byAddress.
  assert (S : forall i, aget (serviceT st i) k = None) by (intros i; repeat (destruct I as [<-|I]; [reflexivity|]); destruct I).
  assert (H : forall a p c, aget (hostPortT st a p c) k = None) by (intros a p c; repeat (destruct I as [<-|I]; [reflexivity|]); destruct I).
  assert (N : forall v, aget [("dst_namespace", SV v)] k = None) by (intros v; repeat (destruct I as [<-|I]; [reflexivity|]); destruct I).
  assert (D : forall a r, aget (podDstT a r) k = None) by (intros a r; unfold podDstT; destruct (eqb a []); repeat (destruct I as [<-|I]; [reflexivity|]); destruct I).
  assert (C : forall a c, aget (containerDstT st a c) k = None).
  { intros a c. unfold containerDstT. rewrite aget_app, D. repeat (destruct I as [<-|I]; [reflexivity|]); destruct I. }
  destruct (getServiceByIpPort st ip (w32 port)) as [i|].
  - rewrite aget_app, S. destruct (eqb nip []); [reflexivity|]. destruct (nport =? -1); [reflexivity|]. destruct (getContainerByIpPort _ _ _ _ _); [|reflexivity].
    rewrite C. reflexivity.
  - destruct (getContainerByIpPort _ _ _ _ _); [apply C|]. cbv zeta. rewrite aget_app.
    destruct (getContainerByHostIpPort _ _ _) as [c|]; (destruct (getPodByIp _ _ _ _); [rewrite D|destruct (getNodeName _ _); rewrite N]);
      rewrite ?aget_app, ?H, ?C; reflexivity.
Qed.
Lemma seen_pod it lip lname v s m ns p : kind3 s -> p <> [] -> seen it lip lname true v s m ->
  ofPod ns p (shown m) = isPod ns p (sourcePod it v (s_tuple s)).
Proof.
  intros K NP SE. unfold ofPod. rewrite !shown_string by (cbn [In tcpSelectors]; tauto).
  unfold seen in SE. cbv zeta in SE. set (t := s_tuple s) in *. set (nat := v_dnat v (t_sip t) (t_sport t) (t_dip t) (t_dport t)) in *.
  assert (T : EnrichProps.isTcp (bs (s_group s)) = true).
  { unfold kind3 in K. destruct s as [sg sm sv st]. cbn [s_group s_metric] in *. destruct K as [K|[K|K]]; injection K as -> _; vm_compute; reflexivity. }
  destruct (C43_tcp it lip lname (v_clock v) (v_k8s v) (bs (s_group s)) (tupleLabels t nat) (tuple_wellTyped t nat) T) as (m1 & m2 & E & W & X).
  assert (m2 = m) by congruence. subst m2. cbv zeta in X. destruct X as (_ & _ & _ & _ & _ & X).
  unfold strOf. rewrite !X by (cbn [In]; intuition discriminate).
  rewrite !W, !aget_app, !tcpDstT_src by (cbn [In]; tauto).
  change (strOf (tupleLabels t nat) "src_ip") with (addressText (t_sip t)). change (intOf (tupleLabels t nat) "src_port") with (t_sport t).
  unfold sourcePod. destruct (tcpSource it (v_k8s v) (v_clock v) (addressText (t_sip t)) (t_sport t)) as [c|r| |ip nm|]; cbn [tcpSrcT isPod].
  - reflexivity.
  - reflexivity.
  - change (asString (aget (tupleLabels t nat) "src_pod")) with (@nil Z). cbn. destruct p; [congruence|reflexivity].
  - cbn. destruct p; [congruence|reflexivity].
  - cbn. destruct p; [congruence|reflexivity].
Qed.

(** C63: the counters exported for a pod are those of the events whose source address was this pod's at that moment. *)
Definition reportedFrom it (ns p : bytes) (nm : string) (o : pipe_op) (w : Z) : Prop :=
  match o with
  | QTick => w = 0
  | QEvent e v _ => (tcpSays e None /\ w = 0) \/
      exists s, tcpSays e (Some s) /\ w = if eqb (s_group s) nm && isPod ns p (sourcePod it v (s_tuple s)) then s_value s else 0
  end.
Theorem C63_of_a_pod : forall it lip lname cfg (nm out : string) (ns p : bytes) os ws es s,
  counterMetric nm out -> p <> [] -> Forall2 (reportedFrom it ns p nm) os ws ->
  pipe_run it lip lname true defaultKm cfg [] (os ++ [QTick]) = Ok (es, s) ->
  s64 (exportedWhere nm (ofPod ns p) out es) = s64 (zsum ws).
Proof.
  intros it lip lname cfg nm out ns p os ws es s CM NP F R.
  apply (C63_counters_end_to_end it lip lname true cfg nm out (ofPod ns p) os ws es s CM); [|exact R].
  clear R. induction F as [|o w os ws A F IH]; constructor; [|exact IH].
  destruct o as [e v d|]; cbn [reportedFrom adds] in *; [|exact A]. destruct A as [A|(sy & S & ->)]; [left; exact A|right].
  destruct (seen_exists it lip lname true v sy) as (m & SE). exists sy, m. split; [exact S|]. split; [exact SE|].
  rewrite (seen_pod it lip lname v sy m ns p (says_kind e sy S) NP SE). reflexivity.
Qed.
Print Assumptions C63_of_a_pod.

(** ** Round trip times: the last one since the last tick *)
Lemma says_det it lip lname enable v e s1 s2 m1 m2 : tcpSays e (Some s1) -> tcpSays e (Some s2) -> seen it lip lname enable v s1 m1 -> seen it lip lname enable v s2 m2 ->
  s_group s1 = s_group s2 /\ s_metric s1 = s_metric s2 /\ s_value s1 = s_value s2 /\ m1 = m2.
Proof.
  intros A B SA SB. pose proof (C62_says (v_dnat v) e _ A) as X. rewrite (C62_says (v_dnat v) e _ B) in X. cbn [option_map] in X.
  assert (Y : groupOf (v_dnat v) (e_ts e) s2 = groupOf (v_dnat v) (e_ts e) s1) by congruence. clear X.
  unfold groupOf, oneMetric in Y. cbv zeta in Y.
  assert (G : s_group s2 = s_group s1) by (apply (f_equal gname) in Y; exact Y).
  assert (M : [(s_metric s2, MInt (s_value s2))] = [(s_metric s1, MInt (s_value s1))]) by (apply (f_equal gmetrics) in Y; exact Y).
  apply (f_equal glabels) in Y. cbn [glabels] in Y. unfold seen in SA, SB. cbv zeta in SA, SB. rewrite G, Y in SB. rewrite SA in SB.
  injection M as M1 M2. injection SB as SB. split; [congruence|]. split; [congruence|]. split; congruence.
Qed.
Lemma says_none e s : tcpSays e None -> tcpSays e (Some s) -> False.
Proof. intros A B. pose proof (C62_says (fun _ _ _ _ => None) e _ A) as X. rewrite (C62_says _ e _ B) in X. discriminate X. Qed.

(** The step contributes a value to the series [key] of group [nm]. *)
Definition hits it lip lname enable nm key (o : pipe_op) (s : saying) : Prop :=
  exists e v d m, o = QEvent e v d /\ tcpSays e (Some s) /\ s_group s = nm /\ seen it lip lname enable v s m /\ getLabelKeys tcpSelectors m = key.
Definition is_tick (o : pipe_op) : Prop := o = QTick.

Lemma window_snoc nm key h o : window nm key (h ++ [o]) = window_step nm key (window nm key h) o.
Proof. unfold window. rewrite fold_left_app. reflexivity. Qed.
Lemma window_app_nil nm key h : window nm key (h ++ []) = window nm key h.
Proof. rewrite app_nil_r. reflexivity. Qed.

Lemma window_last it lip lname enable nm key : forall os cs, Forall2 (call it lip lname enable) os cs ->
  match rev (window nm key (List.concat cs)) with
  | [] => forall a o b s, os = a ++ o :: b -> (forall x, In x b -> x <> QTick) -> hits it lip lname enable nm key o s -> False
  | g :: _ => exists a o b s, os = a ++ o :: b /\ (forall x, In x b -> x <> QTick) /\ hits it lip lname enable nm key o s /\
       gmetrics g = [(s_metric s, MInt (s_value s))] /\ forall x s', In x b -> ~ hits it lip lname enable nm key x s'
  end.
Proof.
  intros os. induction os as [|o os IH] using rev_ind; intros cs F.
  - inversion F; subst. cbn. intros a o b s E. destruct a; discriminate E.
  - apply Forall2_app_inv_l in F. destruct F as (cs0 & c1 & F & F1 & ->). inversion F1 as [|? c ? ? C F2]; subst. inversion F2; subst. clear F1 F2.
    rewrite concat_app. cbn [List.concat]. rewrite app_nil_r. specialize (IH cs0 F).
    assert (SPL : forall a o' b, os ++ [o] = a ++ o' :: b -> (b = [] /\ o' = o /\ os = a) \/ exists b', b = b' ++ [o] /\ os = a ++ o' :: b').
    { intros a o' b E. destruct b as [|y b] using rev_ind.
      - left. apply app_inj_tail in E. destruct E as [-> ->]. auto.
      - right. exists b. change (a ++ o' :: b ++ [y]) with (a ++ (o' :: b) ++ [y]) in E. rewrite app_assoc in E. apply app_inj_tail in E. destruct E as [-> ->]. auto. }
    destruct o as [e v d|]; cbn [call] in C.
    + assert (Miss : (forall s, ~ hits it lip lname enable nm key (QEvent e v d) s) ->
        match rev (window nm key (List.concat cs0)) with
        | [] => forall a o b s, os ++ [QEvent e v d] = a ++ o :: b -> (forall x, In x b -> x <> QTick) -> hits it lip lname enable nm key o s -> False
        | g :: _ => exists a o b s, os ++ [QEvent e v d] = a ++ o :: b /\ (forall x, In x b -> x <> QTick) /\ hits it lip lname enable nm key o s /\
             gmetrics g = [(s_metric s, MInt (s_value s))] /\ forall x s', In x b -> ~ hits it lip lname enable nm key x s'
        end).
      { intros NH. destruct (rev (window nm key (List.concat cs0))) as [|g l].
        - intros a o b s E NT H. destruct (SPL a o b E) as [(-> & -> & ->)|(b' & -> & E')]; [exact (NH s H)|].
          apply (IH a o b' s E'); [|exact H]. intros x I. apply NT. apply in_or_app. left. exact I.
        - destruct IH as (a & o & b & s & -> & NT & H & G & L). exists a, o, (b ++ [QEvent e v d]), s. split; [rewrite <- app_assoc; reflexivity|].
          split; [intros x I; apply in_app_or in I; destruct I as [I|[<-|[]]]; [exact (NT x I)|discriminate]|].
          split; [exact H|]. split; [exact G|]. intros x s' I. apply in_app_or in I. destruct I as [I|[<-|[]]]; [exact (L x s' I)|apply NH]. }
      destruct C as [[S ->]|(s & m & S & SE & ->)].
      * rewrite app_nil_r. apply Miss. intros s (e' & v' & d' & m' & E & S' & _). injection E as <- _ _. exact (says_none e s S S').
      * rewrite window_snoc. cbn [window_step gname glabels].
        destruct (eqb (s_group s) nm && eqb (getLabelKeys tcpSelectors m) key) eqn:B.
        -- rewrite rev_app_distr. cbn [rev app]. apply andb_true_iff in B. destruct B as [B1 B2]. apply (eqb_eq (s_group s) nm) in B1. apply (eqb_eq (getLabelKeys tcpSelectors m) key) in B2.
           exists os, (QEvent e v d), [], s. split; [reflexivity|]. split; [intros x []|]. split; [|split; [reflexivity|intros x s' []]].
           exists e, v, d, m. split; [reflexivity|]. split; [exact S|]. split; [exact B1|]. split; [exact SE|exact B2].
        -- apply Miss. intros s' (e' & v' & d' & m' & E & S' & G' & SE' & K'). injection E as <- <- <-.
           destruct (says_det it lip lname enable v e s s' m m' S S' SE SE') as (G & _ & _ & ->).
           rewrite G, G', K', !eqb_refl in B. discriminate B.
    + subst c. rewrite window_snoc. cbn [window_step rev]. intros a o b s E NT H.
      destruct (SPL a o b E) as [(-> & -> & ->)|(b' & -> & _)].
      * destruct H as (e & v & d & m & E' & _). discriminate E'.
      * apply (NT QTick); [|reflexivity]. apply in_or_app. right. left. reflexivity.
Qed.

Lemma Forall2_in_r {A B} (R : A -> B -> Prop) l1 l2 : Forall2 R l1 l2 -> forall b, In b l2 -> exists a, In a l1 /\ R a b.
Proof.
  induction 1 as [|a b l1 l2 H F IH]; intros y I; [destruct I|]. destruct I as [<-|I]; [exists a; split; [left; reflexivity|exact H]|].
  destruct (IH y I) as (x & J & Q). exists x. split; [right; exact J|exact Q].
Qed.
Lemma Forall2_in_l {A B} (R : A -> B -> Prop) l1 l2 : Forall2 R l1 l2 -> forall a, In a l1 -> exists b, In b l2 /\ R a b.
Proof.
  induction 1 as [|a b l1 l2 H F IH]; intros y I; [destruct I|]. destruct I as [<-|I]; [exists b; split; [left; reflexivity|exact H]|].
  destruct (IH y I) as (x & J & Q). exists x. split; [right; exact J|exact Q].
Qed.
Lemma window_in nm key : forall h x, In x (window nm key h) -> exists sels, In (OAgg x sels) h /\ gname x = nm.
Proof.
  intros h. induction h as [|o h IH] using rev_ind; intros x I; [destruct I|]. rewrite window_snoc in I. destruct o as [g sels| |n]; cbn [window_step] in I.
  - destruct (eqb (gname g) nm && eqb (getLabelKeys sels (glabels g)) key) eqn:B.
    + apply in_app_or in I. destruct I as [I|[<-|[]]].
      * destruct (IH x I) as (s & J & N). exists s. split; [apply in_or_app; left; exact J|exact N].
      * apply andb_true_iff in B. destruct B as [B _]. apply (eqb_eq (gname g) nm) in B. exists sels. split; [apply in_or_app; right; left; reflexivity|exact B].
    + destruct (IH x I) as (s & J & N). exists s. split; [apply in_or_app; left; exact J|exact N].
  - destruct I.
  - destruct (eqb n nm); [destruct I|]. destruct (IH x I) as (s & J & N). exists s. split; [apply in_or_app; left; exact J|exact N].
Qed.

(** C63: a tick exports one round trip time per series that had one since the previous tick, and its value is that of the last one. *)
Theorem C63_rtt_is_the_last : forall it lip lname enable cfg os es s,
  wellFormed os ->
  pipe_run it lip lname enable defaultKm cfg [] (os ++ [QTick]) = Ok (es, s) ->
  exists before gs, es = before ++ [gs] /\
    (forall g, In g gs -> gname g = "tcp_rtt_metric_group" ->
       exists a e v d b sy m, os = a ++ QEvent e v d :: b /\ (forall x, In x b -> x <> QTick) /\
         tcpSays e (Some sy) /\ s_group sy = "tcp_rtt_metric_group" /\ seen it lip lname enable v sy m /\
         glabels g = shown m /\ gmetrics g = [("kindling_tcp_srtt_microseconds", MInt (s_value sy))] /\
         (* no later one of the same series *)
         forall e' v' d' sy' m', In (QEvent e' v' d') b -> tcpSays e' (Some sy') -> s_group sy' = "tcp_rtt_metric_group" -> seen it lip lname enable v' sy' m' ->
           ~ (forall sel, In sel tcpSelectors -> selected m' sel = selected m sel)) /\
    (forall a e v d b sy m, os = a ++ QEvent e v d :: b -> (forall x, In x b -> x <> QTick) ->
       tcpSays e (Some sy) -> s_group sy = "tcp_rtt_metric_group" -> seen it lip lname enable v sy m ->
       exists g, In g gs /\ gname g = "tcp_rtt_metric_group" /\ glabels g = shown m).
Proof.
  intros it lip lname enable cfg os es s W R. destruct (calls_exist it lip lname enable os W) as (cs & C).
  assert (C' : Forall2 (call it lip lname enable) (os ++ [QTick]) (cs ++ [[ODump]])) by (apply Forall2_app; [exact C|constructor; [reflexivity|constructor]]).
  (* the run up to the last tick *)
  assert (RA : forall s0 l1 l2, pipe_run it lip lname enable defaultKm cfg s0 (l1 ++ l2) =
     bind (pipe_run it lip lname enable defaultKm cfg s0 l1) (fun r => bind (pipe_run it lip lname enable defaultKm cfg (snd r) l2) (fun r' => Ok (fst r ++ fst r', snd r')))).
  { intros s0 l1. revert s0. induction l1 as [|o l1 IH]; intros s0 l2.
    - cbn [app pipe_run bind fst snd]. destruct (pipe_run it lip lname enable defaultKm cfg s0 l2) as [[e0 s1]| |]; reflexivity.
    - cbn [app pipe_run]. destruct (pipe_step it lip lname enable defaultKm cfg s0 o) as [[e0 s1]| |]; cbn [bind fst snd]; [|reflexivity|reflexivity].
      rewrite IH. destruct (pipe_run it lip lname enable defaultKm cfg s1 l1) as [[e1 s2]| |]; cbn [bind fst snd]; [|reflexivity|reflexivity].
      destruct (pipe_run it lip lname enable defaultKm cfg s2 l2) as [[e2 s3]| |]; reflexivity. }
  rewrite RA in R. destruct (pipe_run it lip lname enable defaultKm cfg [] os) as [[es0 s0]| |] eqn:R0; cbn [bind fst snd] in R; try discriminate R.
  cbn [pipe_run pipe_step] in R. destruct (dump s0) as [[gs s1]| |] eqn:D; cbn [bind fst snd] in R; try discriminate R. injection R as <- <-.
  pose proof (calls_run it lip lname enable cfg defaultKm os cs [] C) as X. rewrite R0 in X.
  destruct (agg_run defaultKm [] (List.concat cs)) as [[ea sa]| |] eqn:RG; [|discriminate X|discriminate X].
  destruct X as (es' & E & _). injection E as <- <-.
  assert (RD : agg_run defaultKm [] (List.concat cs ++ [ODump]) = Ok (ea ++ [gs], s1)).
  { rewrite agg_run_app, RG. cbn [bind fst snd agg_run agg_step]. rewrite D. reflexivity. }
  destruct (C03_dump_exports_windows defaultKm (List.concat cs) (ea ++ [gs]) s1
     (fun g sels I => int_ok _ _ (calls_int _ _ _ _ os cs g sels C I)) RD) as (bf & gs' & series & E & ND & IS & DS).
  apply app_inj_tail in E. destruct E as [_ <-]. exists es0, gs. split; [reflexivity|]. split.
  - intros g I N. destruct (Forall2_in_r _ _ _ DS g I) as ([nm key] & J & (D1 & D2 & (g0 & r & names & WE & NN & NI & MS))). cbn [fst snd] in *.
    rewrite N in D1. subst nm. pose proof (window_last it lip lname enable "tcp_rtt_metric_group" key os cs C) as WL.
    (* every group of the window carries only the round trip time *)
    assert (AW : forall x, In x (window "tcp_rtt_metric_group" key (List.concat cs)) -> exists z, gmetrics x = [("kindling_tcp_srtt_microseconds", MInt z)]).
    { intros x IX. destruct (window_in _ _ _ _ IX) as (sels & IO & NX). destruct (call_shape it lip lname enable os cs x sels C IO) as (sy & K & NG & MG & _).
      rewrite NX in NG. unfold kind3 in K. destruct sy as [sg sm sv st]. cbn [s_group s_metric s_value] in *. subst sg.
      destruct K as [K|[K|K]]; [injection K as ->|discriminate K|discriminate K]. exists sv. exact MG. }
    destruct (rev (window "tcp_rtt_metric_group" key (List.concat cs))) as [|gl rl] eqn:RV.
    { apply (f_equal (@List.length _)) in RV. rewrite rev_length, WE in RV. discriminate RV. }
    destruct WL as (a & o & b & sy & EO & NT & (e & v & d & m & -> & S & G & SE & K) & GM & LT).
    exists a, e, v, d, b, sy, m. split; [exact EO|]. split; [exact NT|]. split; [exact S|]. split; [exact G|]. split; [exact SE|].
    split; [rewrite D2, <- K; reflexivity|]. split.
    + assert (LW : window "tcp_rtt_metric_group" key (List.concat cs) = rev rl ++ [gl]) by (rewrite <- (rev_involutive (window _ _ _)), RV; reflexivity).
      assert (GL : gmetrics gl = [("kindling_tcp_srtt_microseconds", MInt (s_value sy))]).
      { destruct (AW gl) as (z & GZ); [rewrite LW; apply in_or_app; right; left; reflexivity|]. rewrite GZ in GM |- *. injection GM as _ ->. reflexivity. }
      assert (NM : names = ["kindling_tcp_srtt_microseconds"]).
      { destruct (AW g0) as (z & GZ); [rewrite WE; left; reflexivity|]. unfold mnames in NI. rewrite GZ in NI. cbn [map fst] in NI.
        destruct names as [|n1 [|n2 names]].
        - exfalso. apply (NI "kindling_tcp_srtt_microseconds"). split; [left; reflexivity|]. vm_compute. discriminate.
        - f_equal. destruct (NI n1) as [Q _]. destruct Q as [[Q|[]] _]; [left; reflexivity|]. congruence.
        - exfalso. destruct (NI n1) as [Q1 _]. destruct Q1 as [[Q1|[]] _]; [left; reflexivity|].
          destruct (NI n2) as [Q2 _]. destruct Q2 as [[Q2|[]] _]; [right; left; reflexivity|].
          apply NoDup_cons_iff in NN. destruct NN as [NN _]. apply NN. left. congruence. }
      rewrite MS, NM. cbn [flat_map].
      change (kindsDefault defaultKm "kindling_tcp_srtt_microseconds") with (Some [{| c_out := "kindling_tcp_srtt_microseconds"; c_kind := LastKind; c_bounds := [] |}]).
      cbn [map c_out]. rewrite app_nil_r. f_equal. f_equal. unfold expected. cbn [c_kind]. f_equal.
      rewrite LW. unfold readings. rewrite flat_map_app. cbn [flat_map]. rewrite GL. unfold ints. rewrite flat_map_app.
      cbn [map filter fst snd]. rewrite eqb_refl. cbn [map snd flat_map app]. rewrite last_last. reflexivity.
    + intros e' v' d' sy' m' I' S' G' SE' SAME. apply (LT (QEvent e' v' d') sy' I'). exists e', v', d', m'.
      split; [reflexivity|]. split; [exact S'|]. split; [exact G'|]. split; [exact SE'|].
      rewrite <- K. apply (C06_series_labels_fit m' m). exact SAME.
  - intros a e v d b sy m EO NT S G SE.
    assert (NW : window "tcp_rtt_metric_group" (getLabelKeys tcpSelectors m) (List.concat cs) <> []).
    { intros NW. pose proof (window_last it lip lname enable "tcp_rtt_metric_group" (getLabelKeys tcpSelectors m) os cs C) as WL. rewrite NW in WL. cbn [rev] in WL.
      apply (WL a (QEvent e v d) b sy EO NT). exists e, v, d, m. split; [reflexivity|]. split; [exact S|]. split; [exact G|]. split; [exact SE|reflexivity]. }
    apply IS in NW. destruct (Forall2_in_l _ _ _ DS _ NW) as (g & I & (D1 & D2 & _)). cbn [fst snd] in *. exists g. split; [exact I|]. split; [exact D1|]. exact D2.
Qed.
Print Assumptions C63_rtt_is_the_last.

(** Two lost packets and a retransmission of three segments of one connection, over two ticks, outside Kubernetes. *)
Definition noView (st : kstate) : view := {| v_dnat := fun _ _ _ _ => None; v_clock := O; v_k8s := st |}.
Definition coords : list keyvalue := [slotOf "sip" TUint32 [10; 0; 0; 1]; slotOf "sport" TUint16 [136; 19]; slotOf "dip" TUint32 [10; 96; 0; 1]; slotOf "dport" TUint16 [80; 0]].
Definition tcpHistory (st : kstate) : list pipe_op :=
  [QEvent (tcpEvent "tcp_drop" coords) (noView st) 0; QTick; QEvent (tcpEvent "tcp_drop" coords) (noView st) 0;
   QEvent (tcpEvent "tcp_retransmit_skb" (coords ++ [slotOf "segs" TInt32 [3; 0; 0; 0]])) (noView st) 0; QEvent (tcpEvent "page_fault" coords) (noView st) 0].
Example C63_example :
  match pipe_run (fun _ _ l => l) (bs "192.168.0.1") (bs "node-1") true defaultKm defaultSampling [] (tcpHistory k0 ++ [QTick]) with
  | Ok (es, _) => exportedWhere "tcp_drop_metric_group" (fun L => eqb (strOf L "src_ip") (bs "10.0.0.1")) "kindling_tcp_packet_loss_total" es = 2 /\
                  exportedWhere "tcp_retransmit_metric_group" (fun _ => true) "kindling_tcp_retransmit_total" es = 3
  | _ => False
  end.
Proof. vm_compute. split; reflexivity. Qed.
