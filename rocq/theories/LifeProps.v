(** C77: a collector comes up exactly with the configurations its user would call complete, its analyzers share one connection tracker, and a
    signal ends it. *)
From Verif Require Import Base LifeModel LifeSpec.
Open Scope string_scope. Open Scope list_scope. Open Scope Z_scope.

Lemma s64_in x : - 2 ^ 63 <= x < 2 ^ 63 -> s64 x = x.
Proof. intros H. unfold s64. rewrite Z.mod_small by lia. lia. Qed.
Lemma newTicker_ok d : newTicker d = Ok tt <-> 0 < d.
Proof. unfold newTicker. destruct (Z.ltb_spec 0 d); split; intros; [lia|reflexivity|discriminate|lia]. Qed.
Lemma seconds_ok n : fits second n -> (newTicker (seconds n) = Ok tt <-> 0 < n).
Proof. intros H. rewrite newTicker_ok. unfold seconds, fits, second in *. rewrite s64_in by lia. lia. Qed.
Lemma makeChan_ok n : makeChan n = Ok tt <-> 0 <= n.
Proof. unfold makeChan. destruct (Z.ltb_spec n 0); split; intros; [discriminate|lia|lia|reflexivity]. Qed.
Lemma bind_ok {A B} (r : res A) (f : A -> res B) y : bind r f = Ok y <-> exists x, r = Ok x /\ f x = Ok y.
Proof. destruct r; cbn [bind]; split; [intros H; eexists; eauto|intros (x & E & H); injection E as ->; exact H|discriminate|intros (x & E & _); discriminate|discriminate|intros (x & E & _); discriminate]. Qed.
Lemma ok_unit (r : res unit) : (exists x, r = Ok x) <-> r = Ok tt.
Proof. split; [intros ([] & E); exact E|eauto]. Qed.

Lemma registerModules_ok ms : forall has, (exists h, registerModules has ms = Ok h) <-> ((if has then 1 else 0) + count_occ string_dec ms "profile" <= 1)%nat.
Proof.
  induction ms as [|m ms IH]; intros has; cbn [registerModules count_occ].
  - split; [destruct has; lia|eauto].
  - destruct (string_dec m "profile") as [->|N].
    + change (eqb "profile" "profile") with true. cbn iota. destruct has.
      * split; [intros (h & E); discriminate|lia].
      * rewrite IH. split; lia.
    + apply (proj2 (eqb_neq _ _)) in N. rewrite N. apply IH.
Qed.
Lemma controllerConfig_ok c : (exists has, controllerConfig c = Ok (Some has)) <-> (exists on, c_http c = Some on) /\ (count_occ string_dec (c_modules c) "profile" <= 1)%nat.
Proof.
  unfold controllerConfig. destruct (c_http c) as [on|].
  - pose proof (registerModules_ok (c_modules c) false) as R. cbn [Nat.add] in R. split.
    + intros (has & E). apply bind_ok in E. destruct E as (x & E & _). split; [eauto|]. apply R. eauto.
    + intros (_ & H). apply R in H. destruct H as (h & E). exists h. rewrite E. reflexivity.
  - split; [intros (has & E); discriminate|intros ((on & E) & _); discriminate].
Qed.
Lemma controllerConfig_none c : controllerConfig c = Ok None -> c_http c = None.
Proof. unfold controllerConfig. destruct (c_http c); [|reflexivity]. intros E. apply bind_ok in E. destruct E as (x & _ & E). discriminate. Qed.

Lemma push_ok c e s : push c e s = Ok tt <-> c_adapter c = true /\ e_exporters e = true /\ exists p, s = Some p /\ 0 < p.
Proof.
  unfold push. destruct s as [p|]; [|split; [discriminate|intros (_ & _ & p & E & _); discriminate]].
  destruct (e_exporters e), (c_adapter c); try rewrite newTicker_ok; split; intros H; try discriminate; try (destruct H as (? & ? & ?); discriminate).
  - repeat split; eauto.
  - destruct H as (_ & _ & q & E & Q). injection E as <-. exact Q.
Qed.
Lemma resetSchedule_ok m : (forall h, m = Some (true, h) -> fits hour h) -> (resetSchedule m = Ok tt <-> forall h, m = Some (true, h) -> h = 0 \/ 0 < h).
Proof.
  intros F. destruct m as [[[|] h]|]; cbn [resetSchedule].
  - specialize (F h eq_refl). destruct (Z.eqb_spec h 0) as [->|N].
    + split; [intros _ h' E; injection E as <-; left; reflexivity|reflexivity].
    + rewrite newTicker_ok. unfold hours, fits, hour, second in *. rewrite s64_in by lia. split.
      * intros H h' E. injection E as <-. right. lia.
      * intros H. destruct (H h eq_refl); lia.
  - split; [intros _ h' E; discriminate|reflexivity].
  - split; [intros _ h' E; discriminate|reflexivity].
Qed.
Lemma newOtel_ok c e : sane c -> (newOtel c e = Ok tt <-> exporterOk c e).
Proof.
  intros (_ & _ & _ & F). unfold newOtel, exporterOk.
  destruct (eqb (c_kind c) "prometheus") eqn:K1.
  { apply eqb_true in K1. rewrite K1. destruct (c_prom c) as [m|] eqn:P.
    - assert (F' : forall h, m = Some (true, h) -> fits hour h) by (intros h ->; apply F; reflexivity).
      destruct (e_prom e), (c_adapter c); try rewrite (resetSchedule_ok m F'); split; intros H; try discriminate.
      + split; [reflexivity|]. left. repeat split. exists m. split; [reflexivity|exact H].
      + destruct H as (_ & [(_ & _ & m' & E & G)|[(E & _)|(E & _)]]); try discriminate E. injection E as <-. exact G.
      + destruct H as (E & _). discriminate.
      + destruct H as (_ & [(_ & E & _)|[(E & _)|(E & _)]]); discriminate E.
      + destruct H as (E & _). discriminate.
    - split; [discriminate|]. intros (_ & [(_ & _ & m & E & _)|[(E & _)|(E & _)]]); discriminate E. }
  apply (proj1 (eqb_neq _ _)) in K1. destruct (eqb (c_kind c) "stdout") eqn:K2.
  { apply eqb_true in K2. rewrite K2, push_ok. split.
    - intros (A & B & C). split; [exact A|]. right. left. auto.
    - intros (A & [(E & _)|[(_ & B & C)|(E & _)]]); try discriminate E. auto. }
  apply (proj1 (eqb_neq _ _)) in K2. destruct (eqb (c_kind c) "otlp") eqn:K3.
  { apply eqb_true in K3. rewrite K3, push_ok. split.
    - intros (A & B & C). split; [exact A|]. right. right. auto.
    - intros (A & [(E & _)|[(E & _)|(_ & B & C)]]); try discriminate E. auto. }
  apply (proj1 (eqb_neq _ _)) in K3. split; [discriminate|]. intros (_ & [(E & _)|[(E & _)|(E & _)]]); congruence.
Qed.
Lemma newCamera_ok c e : (exists w, newCamera c e = Ok w) <->
  (c_storage c = "file" -> (exists p, c_path c = bs "/" ++ p) /\ e_mkdir e = true) /\ (c_storage c = "elasticsearch" -> c_es c = true /\ e_es e = true).
Proof.
  unfold newCamera. destruct (eqb (c_storage c) "elasticsearch") eqn:K1.
  { apply eqb_true in K1. rewrite K1. split.
    - intros (w & E). split; [discriminate|]. intros _. destruct (c_es c), (e_es e); try discriminate E. auto.
    - intros (_ & H). destruct (H eq_refl) as [-> ->]. exists (Some WEs). reflexivity. }
  apply (proj1 (eqb_neq _ _)) in K1. destruct (eqb (c_storage c) "file") eqn:K2.
  { apply eqb_true in K2. rewrite K2. split.
    - intros (w & E). split; [|discriminate]. intros _. destruct (c_path c) as [|b p]; [discriminate E|].
      destruct (Z.eq_dec b 47) as [->|N].
      + split; [exists p; reflexivity|]. destruct (e_mkdir e); [reflexivity|discriminate E].
      + exfalso. destruct b as [|b|b]; try discriminate E. do 6 (destruct b as [b|b|]; try discriminate E). congruence.
    - intros (H & _). destruct (H eq_refl) as ((p & ->) & ->). exists (Some WFile). reflexivity. }
  apply (proj1 (eqb_neq _ _)) in K2. split; [intros _; split; intros; congruence|eauto].
Qed.
Lemma newK8s_ok c e : newK8s c e = Ok tt <-> (c_k8s c = true -> e_k8s e = true).
Proof. unfold newK8s. destruct (c_k8s c), (e_k8s e); split; intros; try reflexivity; try discriminate; auto. specialize (H eq_refl). discriminate. Qed.
Lemma allRun_ok c : sane c -> (allRun c analyzers = Ok tt <-> 3 <= c_connWait c /\ 0 < c_infoInterval c).
Proof.
  intros (_ & F1 & F2 & _). unfold allRun, analyzers, firstStep. change (newTicker 1000000000) with (@Ok unit tt). cbn [bind].
  assert (Q : fits second (Z.quot (c_connWait c) 3)).
  { unfold fits, second in *. pose proof (Z.quot_rem (c_connWait c) 3 ltac:(lia)). destruct (Z_le_gt_dec 0 (c_connWait c)).
    - pose proof (Z.rem_bound_pos (c_connWait c) 3 ltac:(lia) ltac:(lia)). lia.
    - pose proof (Z.rem_bound_pos (- c_connWait c) 3 ltac:(lia) ltac:(lia)). rewrite Z.rem_opp_l in H0 by lia. lia. }
  split.
  - intros H. apply bind_ok in H. destruct H as ([] & A & H). apply bind_ok in H. destruct H as ([] & B & _).
    apply (seconds_ok _ Q) in A. apply (seconds_ok _ F2) in B. split; [|exact B].
    pose proof (Z.quot_rem (c_connWait c) 3 ltac:(lia)). destruct (Z_le_gt_dec 0 (c_connWait c)).
    + pose proof (Z.rem_bound_pos (c_connWait c) 3 ltac:(lia) ltac:(lia)). lia.
    + pose proof (Z.rem_bound_pos (- c_connWait c) 3 ltac:(lia) ltac:(lia)). rewrite Z.rem_opp_l in H0 by lia. lia.
  - intros (A & B). assert (A' : 0 < Z.quot (c_connWait c) 3).
    { rewrite Z.quot_div_nonneg by lia. apply Z.div_str_pos. lia. }
    rewrite (proj2 (seconds_ok _ Q) A'). cbn [bind]. rewrite (proj2 (seconds_ok _ F2) B). reflexivity.
Qed.

(** A collector comes up exactly when its configuration is complete and in range, and the others answer. *)
Theorem C77_starts : forall c e, sane c -> ((exists b, start c e = Ok b) <-> wellFormed c e).
Proof.
  intros c e S. pose proof (newOtel_ok c e S) as O. pose proof (newCamera_ok c e) as W. pose proof (controllerConfig_ok c) as H.
  pose proof (allRun_ok c S) as R. pose proof (newK8s_ok c e) as K. destruct S as (Fa & _ & _ & _). pose proof (seconds_ok _ Fa) as G.
  unfold start, new, run, buildPipeline, newAggregate, newNetwork, newTcpConnect, wellFormed. split.
  - intros (b & E). apply bind_ok in E. destruct E as (b' & E & E2). apply bind_ok in E. destruct E as (api & Ea & E).
    apply bind_ok in E. destruct E as ([] & Eo & E). apply bind_ok in E. destruct E as (w & Ew & E). apply bind_ok in E. destruct E as ([] & Eg & E).
    apply bind_ok in E. destruct E as ([] & Ek & E). apply bind_ok in E. destruct E as (n & En & E). apply bind_ok in E. destruct E as (t & Et & E).
    apply bind_ok in En. destruct En as ([] & En & _). apply bind_ok in Et. destruct Et as ([] & Et & _).
    apply bind_ok in E2. destruct E2 as ([] & E2 & _). apply bind_ok in E2. destruct E2 as ([] & Er & Ep).
    destruct api as [has|]; [|discriminate E]. apply makeChan_ok in En. apply makeChan_ok in Et.
    apply O in Eo. apply G in Eg. pose proof (proj1 K Ek) as Ek'. apply R in Er. destruct Er as (R1 & R2).
    pose proof (proj1 W (ex_intro _ w Ew)) as (W1 & W2). pose proof (proj1 H (ex_intro _ has Ea)) as (H1 & H2).
    destruct (e_probe e); [|discriminate Ep]. repeat (split; [assumption|]). reflexivity.
  - intros (H1 & H2 & Eo & W1 & W2 & A & I1 & C3 & N & T & Ek & P).
    destruct (proj2 H (conj H1 H2)) as (has & ->). apply O in Eo. apply G in A. pose proof (proj2 K Ek) as Ek'.
    pose proof (proj2 R (conj C3 I1)) as Er. destruct (proj2 W (conj W1 W2)) as (w & ->).
    apply makeChan_ok in N. apply makeChan_ok in T.
    cbn [bind]. rewrite Eo. cbn [bind]. rewrite A. cbn [bind]. rewrite Ek'. cbn [bind]. rewrite N. cbn [bind].
    destruct (c_conntrack c); eexists; cbn [bind snd fst]; rewrite T; cbn [bind]; rewrite Er; cbn [bind]; rewrite P; reflexivity.
Qed.
Print Assumptions C77_starts.

(** The analyzers share one connection tracker: the kernel's when the network analyzer's option asks for it and netlink answers, and otherwise
    one that finds nothing; the network analyzer never asks a tracker that is not there. *)
Theorem C77_one_tracker : forall c e b, start c e = Ok b ->
  b_tcp b = (if c_conntrack c && e_netlink e then TNetlink else TNoop) /\ b_conn b = b_tcp b /\
  networkAsks c (b_net b) = Ok (if c_conntrack c then Some (b_tcp b) else None).
Proof.
  intros c e b E. unfold start, new, buildPipeline, newNetwork, newTcpConnect in E.
  apply bind_ok in E. destruct E as (b' & E & E2). apply bind_ok in E2. destruct E2 as (u & _ & E2). injection E2 as <-.
  apply bind_ok in E. destruct E as (api & _ & E). apply bind_ok in E. destruct E as (x1 & _ & E). apply bind_ok in E. destruct E as (w & _ & E).
  apply bind_ok in E. destruct E as (x2 & _ & E). apply bind_ok in E. destruct E as (x3 & _ & E). apply bind_ok in E. destruct E as (n & En & E).
  apply bind_ok in E. destruct E as (t & Et & E). apply bind_ok in En. destruct En as (x4 & _ & En). apply bind_ok in Et. destruct Et as (x5 & _ & Et).
  destruct api as [has|]; [|discriminate E]. injection E as <-. unfold networkAsks. injection Et as <-.
  destruct (c_conntrack c); injection En as <-; cbn; destruct (e_netlink e); auto.
Qed.
Print Assumptions C77_one_tracker.

Definition exConf : conf := {| c_http := Some true; c_modules := ["profile"]; c_kind := "prometheus"; c_prom := Some (Some (true, 12)); c_stdout := Some 15000000000;
  c_otlp := Some 15000000000; c_adapter := true; c_storage := "file"; c_es := true; c_path := bs "/tmp/kindling/"; c_aggInterval := 5; c_k8s := true; c_netChan := 10000;
  c_conntrack := true; c_connChan := 2000; c_connWait := 10; c_infoInterval := 15 |}.
Definition exEnv : env := {| e_prom := true; e_exporters := true; e_k8s := true; e_es := true; e_mkdir := true; e_netlink := true; e_probe := true |}.
Example C77_starts_example : sane exConf /\ wellFormed exConf exEnv /\ (exists b, start exConf exEnv = Ok b /\ b_net b = Some TNetlink /\ b_conn b = TNetlink).
Proof.
  split; [|split].
  - unfold sane, fits, second, hour. cbn. repeat split; try lia; intros; try (injection H as <-; lia).
  - unfold wellFormed, exporterOk. cbn. repeat split; try lia; eauto; try discriminate. left. repeat split. eexists. split; [reflexivity|]. intros h E. injection E as <-. lia.
  - vm_compute. eauto.
Qed.

Definition withWait (w : Z) : conf := {| c_http := Some true; c_modules := ["profile"]; c_kind := "prometheus"; c_prom := Some None; c_stdout := None;
  c_otlp := None; c_adapter := true; c_storage := "file"; c_es := true; c_path := bs "/tmp/kindling/"; c_aggInterval := 5; c_k8s := true; c_netChan := 10000;
  c_conntrack := true; c_connChan := 2000; c_connWait := w; c_infoInterval := 15 |}.
(** The seconds to wait for the events of a connection may be any positive number, as far as the configuration says; with 1 or 2 the collector
    stops with a panic right after it started, because a third of it, rounded down, is the period of a ticker. *)
Theorem C77_short_wait_refuted : forall w, (w = 1 \/ w = 2) -> start (withWait w) exEnv = Panic /\ (exists b, start (withWait 3) exEnv = Ok b).
Proof. intros w [-> | ->]; vm_compute; eauto. Qed.
Print Assumptions C77_short_wait_refuted.
(** A very long period is a negative one: an interval of 300 years for the aggregation stops the start. *)
Theorem C77_long_period_refuted : exists c, 0 < c_aggInterval c <= 300 * 366 * 86400 /\ start c exEnv = Panic /\
  (exists b, start {| c_http := c_http c; c_modules := c_modules c; c_kind := c_kind c; c_prom := c_prom c; c_stdout := c_stdout c; c_otlp := c_otlp c;
     c_adapter := c_adapter c; c_storage := c_storage c; c_es := c_es c; c_path := c_path c; c_aggInterval := 5; c_k8s := c_k8s c; c_netChan := c_netChan c;
     c_conntrack := c_conntrack c; c_connChan := c_connChan c; c_connWait := c_connWait c; c_infoInterval := c_infoInterval c |} exEnv = Ok b).
Proof.
  exists {| c_http := Some true; c_modules := []; c_kind := "prometheus"; c_prom := Some None; c_stdout := None;
  c_otlp := None; c_adapter := true; c_storage := "file"; c_es := true; c_path := bs "/tmp/kindling/"; c_aggInterval := 300 * 366 * 86400; c_k8s := true; c_netChan := 10000;
  c_conntrack := true; c_connChan := 2000; c_connWait := 10; c_infoInterval := 15 |}. cbn [c_aggInterval]. split; [lia|]. vm_compute. eauto.
Qed.
Print Assumptions C77_long_period_refuted.

Definition withHttp (h : option bool) (ms : list string) (st : string) : conf := {| c_http := h; c_modules := ms; c_kind := "prometheus"; c_prom := Some None; c_stdout := None;
  c_otlp := None; c_adapter := true; c_storage := st; c_es := false; c_path := bs "/tmp/kindling/"; c_aggInterval := 5; c_k8s := true; c_netChan := 10000;
  c_conntrack := true; c_connChan := 2000; c_connWait := 10; c_infoInterval := 15 |}.
(** Leaving out the section of the control API does not run the collector without that API: it does not start. *)
Theorem C77_without_api_refuted : (forall c e b, c_http c = None -> start c e <> Ok b) /\
  start (withHttp None [] "file") exEnv = Panic /\ (exists b, start (withHttp (Some true) [] "file") exEnv = Ok b).
Proof.
  split; [|vm_compute; eauto]. intros c e b H E. unfold start, new, controllerConfig in E. rewrite H in E. cbn [bind] in E.
  apply bind_ok in E. destruct E as (b' & E & _). unfold buildPipeline in E.
  apply bind_ok in E. destruct E as (x1 & _ & E). apply bind_ok in E. destruct E as (w & _ & E).
  apply bind_ok in E. destruct E as (x2 & _ & E). apply bind_ok in E. destruct E as (x3 & _ & E). apply bind_ok in E. destruct E as (n & _ & E).
  apply bind_ok in E. destruct E as (t & _ & E). discriminate E.
Qed.
Print Assumptions C77_without_api_refuted.
(** Switching the control API off leaves it on: a collector with [enable: false] serves requests just as one with [enable: true]. *)
Theorem C77_api_disabled_refuted : forall ms st e, start (withHttp (Some false) ms st) e = start (withHttp (Some true) ms st) e /\
  (exists b, start (withHttp (Some false) ["profile"] "file") exEnv = Ok b /\ b_api b = true).
Proof. intros ms st e. split; [reflexivity|]. vm_compute. eauto. Qed.
Print Assumptions C77_api_disabled_refuted.
(** A storage with an unknown name is accepted, and the first trace or profile then stops the collector. *)
Theorem C77_unknown_storage_refuted : exists c b, start c exEnv = Ok b /\ c_storage c = "files" /\ cameraConsume (b_writer b) = Panic.
Proof. exists (withHttp (Some true) [] "files"). eexists. vm_compute. repeat split. Qed.
Print Assumptions C77_unknown_storage_refuted.
(** With one of the two known names, traces and profiles go to that storage. *)
Theorem C77_storage : forall c e b, start c e = Ok b ->
  (c_storage c = "file" -> cameraConsume (b_writer b) = Ok WFile) /\ (c_storage c = "elasticsearch" -> cameraConsume (b_writer b) = Ok WEs).
Proof.
  intros c e b E. unfold start, new, buildPipeline in E.
  apply bind_ok in E. destruct E as (b' & E & E2). apply bind_ok in E2. destruct E2 as (u & _ & E2). injection E2 as <-.
  apply bind_ok in E. destruct E as (api & _ & E). apply bind_ok in E. destruct E as (x1 & _ & E). apply bind_ok in E. destruct E as (w & Ew & E).
  apply bind_ok in E. destruct E as (x2 & _ & E). apply bind_ok in E. destruct E as (x3 & _ & E). apply bind_ok in E. destruct E as (n & _ & E).
  apply bind_ok in E. destruct E as (t & _ & E). destruct api as [has|]; [|discriminate E]. injection E as <-. cbn [b_writer].
  unfold newCamera in Ew. split; intros S; rewrite S in Ew.
  - change (eqb "file" "elasticsearch") with false in Ew. change (eqb "file" "file") with true in Ew. cbn iota in Ew.
    destruct (c_path c) as [|x p]; [discriminate Ew|]. destruct (Z.eq_dec x 47) as [->|N].
    + destruct (e_mkdir e); [|discriminate Ew]. injection Ew as <-. reflexivity.
    + exfalso. destruct x as [|x|x]; try discriminate Ew. do 6 (destruct x as [x|x|]; try discriminate Ew). congruence.
  - change (eqb "elasticsearch" "elasticsearch") with true in Ew. cbn iota in Ew. destruct (c_es c), (e_es e); try discriminate Ew. injection Ew as <-. reflexivity.
Qed.
Print Assumptions C77_storage.

(** ** Stopping *)
Definition okLife (s : life) : Prop :=
  (f_profile s = true -> f_pchan s = POpen) /\ (f_profile s = false -> f_pchan s <> POpen) /\
  (f_conn s = false -> f_connLive s = true) /\
  (f_main s = MExit 0 \/ f_main s = MCpu \/ f_main s = MCpuStop \/ f_main s = MInfo \/ f_connLive s = true \/ exists b, f_main s = MKilled b) /\
  (forall code, f_main s = MExit code -> code = 0).
Ltac life_cases s := let m := fresh "m" in let sg := fresh "sg" in let cn := fresh "cn" in let lv := fresh "lv" in let pr := fresh "pr" in let pc := fresh "pc" in let md := fresh "md" in
  destruct s as [m sg cn lv pr pc md]; cbn [f_main f_signals f_conn f_connLive f_profile f_pchan f_module] in *.
Lemma okLife_step s l s' : okLife s -> lifeStep s l = Some s' -> okLife s'.
Proof.
  intros (A & B & C & D & E) H. unfold lifeStep, stopProfile, setMain in H. life_cases s.
  destruct m; try discriminate H; destruct l; try discriminate H;
  repeat match type of H with
  | Some _ = Some _ => injection H as <-
  | context [if ?b then _ else _] => destruct b eqn:?; try discriminate H
  | context [match ?p with PNil => _ | POpen => _ | PClosed => _ end] => destruct p eqn:?; try discriminate H
  end; unfold okLife; cbn [f_main f_signals f_conn f_connLive f_profile f_pchan f_module]; repeat split; intros; subst; try congruence; try tauto; auto;
  try (destruct cn, lv; cbn in *; try congruence; tauto);
  try (exfalso; destruct D as [D|[D|[D|[D|[D|[x D]]]]]]; discriminate D).
  all: try (right; right; right; right; right; eexists; reflexivity).
  all: try (destruct D as [D|[D|[D|[D|[D|[x D]]]]]]; try discriminate D; subst; auto 10).
  all: try (specialize (E _ eq_refl); congruence).
  all: try (destruct pr; auto 10; discriminate).
Qed.
Lemma okLife0 : okLife life0.
Proof. unfold okLife, life0. cbn. repeat split; try congruence; try discriminate; auto 10. Qed.
Lemma okLife_run : forall ls s s', okLife s -> lives s ls = Some s' -> okLife s'.
Proof.
  induction ls as [|l ls IH]; intros s s' O H; cbn [lives] in H; [congruence|].
  destruct (lifeStep s l) as [s1|] eqn:E; [|discriminate]. exact (IH _ _ (okLife_step _ _ _ O E) H).
Qed.

(** Steps main still has to make. *)
Definition rank (m : mpc) : nat :=
  match m with MBoot => 10 | MWait => 9 | MReceiver => 8 | MNet => 7 | MTcp => 6 | MConn => 5 | MCpu => 4 | MCpuStop => 3 | MInfo => 2 | MExit _ => 0 | MKilled _ => 0 end.
Definition calm (s : life) : Prop := okLife s /\ (pastReceiver (f_main s) \/ f_main s = MExit 0) /\ (f_main s = MCpuStop -> f_profile s = true).
Lemma calm_step s l s' : calm s -> isStop l = false -> lifeStep s l = Some s' ->
  calm s' /\ (rank (f_main s') + (match l with SGo => 1 | _ => 0 end) <= rank (f_main s))%nat.
Proof.
  intros (O & P & Q) N H. pose proof (okLife_step _ _ _ O H) as O'. unfold calm. split; [split; [exact O'|]|].
  - destruct O as (A & B & C & D & E). unfold lifeStep, stopProfile, setMain in H. clear O'. unfold pastReceiver in *. life_cases s.
    destruct m; try discriminate H; destruct l; try discriminate H; try discriminate N;
    repeat match type of H with
    | Some _ = Some _ => injection H as <-
    | context [if ?b then _ else _] => destruct b eqn:?; try discriminate H
    | context [match ?p with PNil => _ | POpen => _ | PClosed => _ end] => destruct p eqn:?; try discriminate H
    end; cbn [f_main f_signals f_conn f_connLive f_profile f_pchan f_module In] in *.
    all: try (specialize (Q eq_refl)); try (specialize (A Q)); try discriminate.
    all: try (split; [intuition congruence|intuition congruence]).
    all: destruct pr; split; intros; try discriminate; try reflexivity; auto 10.
  - unfold lifeStep, stopProfile, setMain in H. clear O O' P Q. life_cases s.
    destruct m; try discriminate H; destruct l; try discriminate H; try discriminate N;
    repeat match type of H with
    | Some _ = Some _ => injection H as <-
    | context [if ?b then _ else _] => destruct b eqn:?; try discriminate H
    | context [match ?p with PNil => _ | POpen => _ | PClosed => _ end] => destruct p eqn:?; try discriminate H
    end; cbn [f_main f_signals f_conn f_connLive f_profile f_pchan f_module rank]; try destruct pr; cbn [rank]; lia.
Qed.
Lemma calm_run : forall ls s s', calm s -> forallb (fun l => negb (isStop l)) ls = true -> lives s ls = Some s' ->
  calm s' /\ (rank (f_main s') + mains ls <= rank (f_main s))%nat.
Proof.
  unfold mains. induction ls as [|l ls IH]; intros s s' C F H; cbn [lives] in H.
  - injection H as <-. split; [exact C|]. cbn. lia.
  - cbn [forallb] in F. apply andb_true_iff in F. destruct F as (F1 & F2). apply negb_true_iff in F1.
    destruct (lifeStep s l) as [s1|] eqn:E; [|discriminate]. destruct (calm_step _ _ _ C F1 E) as (C1 & R1).
    destruct (IH _ _ C1 F2 H) as (C2 & R2). split; [exact C2|]. cbn [filter]. destruct l; cbn [List.length]; lia.
Qed.

(** Once the receiver's Shutdown returned, nothing keeps the process from ending with code 0, as long as nobody stops or starts the profiling
    meanwhile: whatever else happens, main makes at most seven more steps, there is always one it can make, at the latest when the goroutine
    of the connection analyzer is back at its select, and when it has made them all the code is 0. *)
Theorem C77_ends : forall ls1 s1 ls2 s2, lives life0 ls1 = Some s1 -> pastReceiver (f_main s1) -> (f_main s1 = MCpuStop -> f_profile s1 = true) ->
  forallb (fun l => negb (isStop l)) ls2 = true -> lives s1 ls2 = Some s2 ->
  (mains ls2 <= 7)%nat /\
  (f_main s2 = MExit 0 \/ exists s3, lifeStep s2 SGo = Some s3 \/ lives s2 [SConnFree; SGo] = Some s3).
Proof.
  intros ls1 s1 ls2 s2 H1 P Q F H2. assert (C : calm s1).
  { split; [exact (okLife_run _ _ _ okLife0 H1)|]. split; [left; exact P|exact Q]. }
  destruct (calm_run _ _ _ C F H2) as ((O & P2 & Q2) & R). split.
  - assert (rank (f_main s1) <= 7)%nat. { unfold pastReceiver in P. cbn [In] in P. destruct P as [<-|[<-|[<-|[<-|[<-|[<-|[]]]]]]]; cbn [rank]; lia. }
    lia.
  - destruct P2 as [P2|P2]; [|left; exact P2]. right. destruct O as (A & B & C2 & D & E). unfold pastReceiver in P2. cbn [In] in P2. life_cases s2.
    destruct P2 as [<-|[<-|[<-|[<-|[<-|[<-|[]]]]]]]; cbn [lifeStep f_main]; try (eexists; left; reflexivity).
    + assert (L : lv = true) by (destruct D as [D|[D|[D|[D|[D|[x D]]]]]]; try discriminate D; exact D). subst lv. destruct cn; cbn; eexists; [left|right]; reflexivity.
    + specialize (Q2 eq_refl). specialize (A Q2). subst. eexists. left. cbn. reflexivity.
Qed.
Print Assumptions C77_ends.
Example C77_ends_example : exists s1 s2, lives life0 [SNotify; SStart; SConnBusy; SSignal; SGo; SGo] = Some s1 /\ pastReceiver (f_main s1) /\
  lives s1 [SGo; SGo; SSignal; SConnFree; SGo; SGo; SGo; SGo] = Some s2 /\ f_main s2 = MExit 0.
Proof. do 2 eexists. split; [reflexivity|]. split; [left; reflexivity|]. split; reflexivity. Qed.

Lemma heard_step s l s' : f_main s <> MBoot -> lifeStep s l = Some s' -> f_main s' <> MBoot /\
  ((f_main s <> MWait \/ f_signals s = true) -> (f_main s' <> MWait \/ f_signals s' = true)).
Proof.
  intros N H. unfold lifeStep, stopProfile, setMain in H. life_cases s.
  destruct m; try discriminate H; destruct l; try discriminate H;
  repeat match type of H with
  | Some _ = Some _ => injection H as <-
  | context [if ?b then _ else _] => destruct b eqn:?; try discriminate H
  | context [match ?p with PNil => _ | POpen => _ | PClosed => _ end] => destruct p eqn:?; try discriminate H
  end; cbn [f_main f_signals] in *; try destruct pr; split; intros; intuition congruence.
Qed.
Lemma heard_run : forall ls s s', f_main s <> MBoot -> (f_main s <> MWait \/ f_signals s = true) -> lives s ls = Some s' -> f_main s' <> MWait \/ f_signals s' = true.
Proof.
  induction ls as [|l ls IH]; intros s s' N P H; cbn [lives] in H; [injection H as <-; exact P|].
  destruct (lifeStep s l) as [s1|] eqn:E; [|discriminate]. destruct (heard_step _ _ _ N E) as (N1 & P1). exact (IH _ _ N1 (P1 P) H).
Qed.
(** A signal that comes when the collector is up is not lost: as long as main still waits, its step to the Shutdown of the receiver can be taken. *)
Theorem C77_signal_heard : forall ls1 ls2 s1 s, lives life0 ls1 = Some s1 -> f_main s1 <> MBoot -> lives s1 (SSignal :: ls2) = Some s ->
  f_main s = MWait -> exists s', lifeStep s SGo = Some s' /\ f_main s' = MReceiver.
Proof.
  intros ls1 ls2 s1 s _ N H W. cbn [lives] in H. destruct (lifeStep s1 SSignal) as [s2|] eqn:E; [|discriminate].
  assert (P : f_main s2 <> MBoot /\ f_signals s2 = true).
  { unfold lifeStep, setMain in E. life_cases s1. destruct m; try discriminate E; try congruence; injection E as <-; cbn; split; congruence. }
  destruct P as (N2 & P). destruct (heard_run _ _ _ N2 (or_intror P) H) as [G|G]; [congruence|].
  unfold lifeStep. rewrite W, G. eexists. split; reflexivity.
Qed.
Print Assumptions C77_signal_heard.

(** While the collector is still starting, which takes at least the four seconds its receiver sleeps, a signal ends the process on the spot: no
    component is shut down. *)
Theorem C77_early_signal_refuted : exists s, lives life0 [SSignal] = Some s /\ f_main s = MKilled true.
Proof. eexists. split; reflexivity. Qed.
Print Assumptions C77_early_signal_refuted.
(** A further signal does not help when the Shutdown of the receiver does not return (C72 shows that it may not): however many come, main is
    where it was. *)
Theorem C77_further_signals_refuted : forall n s, f_main s = MReceiver -> exists s', lives s (repeat SSignal n) = Some s' /\ f_main s' = MReceiver.
Proof.
  induction n as [|n IH]; intros s M; cbn [repeat lives]; [eauto|]. unfold lifeStep at 1. rewrite M. apply IH. reflexivity.
Qed.
Print Assumptions C77_further_signals_refuted.
(** Shutting down while a request stops the profiling may panic: the request may come between the look at the flag and the stop, and the same
    channel is closed twice. *)
Theorem C77_stop_race_refuted : exists s, lives life0 [SNotify; SStart; SSignal; SGo; SGo; SGo; SGo; SGo; SGo; SStop false; SGo] = Some s /\ f_main s = MKilled false.
Proof. eexists. split; reflexivity. Qed.
Print Assumptions C77_stop_race_refuted.
(** Nor does the module know that the analyzer's Shutdown stopped its session: when the session's timer fires after it, the process ends with a
    panic instead of code 0. *)
Theorem C77_timer_after_stop_refuted : exists s, lives life0 [SNotify; SStart; SSignal; SGo; SGo; SGo; SGo; SGo; SGo; SGo; SStop true] = Some s /\ f_main s = MKilled false.
Proof. eexists. split; reflexivity. Qed.
Print Assumptions C77_timer_after_stop_refuted.
