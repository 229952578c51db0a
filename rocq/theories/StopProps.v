(** C71: the network analyzer goes on whatever the socket events are. *)
From Verif Require Import Base Decimal AttrModel PoolModel EventModel PairModel PairSpec PairProps MsgModel LabelNames HttpModel HttpProps RedisModel RedisProps MysqlModel MysqlProps DnsModel DnsProps DubboModel
  RocketModel RocketProps KafkaModel KafkaProps DetectModel RecordModel RecordSpec RecordProps FactoryModel RecordParsers NetModel NetSpec NetProofs3 NetParsers NetProps StopSpec StopProofs.
Open Scope string_scope. Open Scope list_scope. Open Scope Z_scope.

(** Every history of events and scans is worked off, if the parsers give verdicts on payloads of [n] bytes and more and every message has as many. *)
Theorem C71_goes_on : forall n an os, steady n an -> Forall (wholeNop n) os -> exists es s, netRun an n0 os = Ok (es, s).
Proof.
  intros n an os ST F. destruct (run_ok n an ST os n0) as ([es s] & E & _); [|exact F|eauto]. split; [constructor|]. exists []. reflexivity.
Qed.
Print Assumptions C71_goes_on.

(** The parsers of the collector: how many bytes each needs to give a verdict. *)
Definition bytesNeeded (name : string) : option Z :=
  if eqb name "redis" then Some 1 else if eqb name "mysql" then Some 8 else if eqb name "dubbo" then None else Some 0.
Section Shipped.
  Context (clustering : bytes -> bytes) (b64 : bytes -> option bytes) (json : bytes -> option rheader) (ipOther : bytes -> bytes) (ignore3 : bool).
  Theorem C71_parser_verdicts p k n : In p (factory b64 clustering json ipOther ignore3) -> bytesNeeded (pr_name p) = Some k -> k <= n -> verdictsFrom n p.
  Proof.
    intros F K L. cbn [factory In] in F. repeat destruct F as [<- | F]; try destruct F; cbn in K; try discriminate; injection K as <-;
      (split; [|split]); try (intros ms m; left; reflexivity); cbn [httpParser kafkaParser mysqlParser redisParser rocketParser genericParser dnsParser plain pr_request pr_response pr_match].
    - intros d _ _. apply (C21_total b64 clustering d []).
    - intros d a _ _. apply (C21_total b64 clustering d a).
    - intros d _ _. destruct (C26_kafka_request_total d) as (ok & m & E & _). eauto.
    - intros d a _ _. destruct (C26_kafka_response_total d a) as (ok & m & E & _). eauto.
    - intros d _ _. destruct (C23_request_total d) as (ok & m & E & _). eauto.
    - intros d a _ D. apply C23_response_total. left. lia.
    - intros d _ D. apply (C22_total d []). intros ->. cbn in D. lia.
    - intros d a _ D. apply (C22_total d a). intros ->. cbn in D. lia.
    - intros d B _. destruct (C25_request_only true d B) as (ok & m & E & _). eauto.
    - intros d a B _. destruct (C25_response_total ipOther true ignore3 d a B) as (ok & m & E & _). eauto.
    - intros ms m. destruct (C25_pair ms m) as [(E & _)|(q & pre & s & E & E2 & _)]; [left; exact E|right]. rewrite E2, E. unfold zlen. rewrite List.app_length. cbn [List.length]. lia.
    - intros d B _. destruct (C26_rocketmq_total json d [] B) as ((ok & m & E & _) & _). eauto.
    - intros d a B _. destruct (C26_rocketmq_total json d a B) as (_ & (ok & m & E & _)). eauto.
    - intros d _ _. eexists; eexists; reflexivity.
    - intros d a _ _. eexists; eexists; reflexivity.
  Qed.
  Context (JS : forall d h, json d = Some h -> - 2 ^ 15 <= r_code h < 2 ^ 15 /\ - 2 ^ 31 <= r_opaque h < 2 ^ 31).
  (** An analyzer with some of these parsers, and no port given to dubbo. *)
  Definition runs (names : list string) (an : analyzer) : Prop :=
    an_parser an = withParsers (filter (fun p => member (pr_name p) (names ++ [NOSUPPORT])) (factory b64 clustering json ipOther ignore3)) /\
    (forall port, aget (static (an_ports an)) port <> Some "dubbo").
  Lemma runs_steady names an n : runs names an -> ~ In "dubbo" names -> (forall name k, In name names -> bytesNeeded name = Some k -> k <= n) -> 0 <= n -> steady n an.
  Proof.
    intros (E & S) ND L N0. split; [|intros port H; destruct (S port H)]. intros name p P. rewrite E in P. unfold withParsers in P. apply find_some in P. destruct P as (P & _).
    apply filter_In in P. destruct P as (P & M). apply DetectProofs.member_in in M. apply in_app_or in M.
    assert (K : exists k, bytesNeeded (pr_name p) = Some k /\ k <= n).
    { destruct M as [M|[M|[]]]; [|rewrite <- M; exists 0; split; [reflexivity|exact N0]].
      destruct (bytesNeeded (pr_name p)) as [k|] eqn:B; [exists k; split; [reflexivity|eapply L; [exact M|exact B]]|]. exfalso. apply ND. unfold bytesNeeded in B.
      destruct (eqb (pr_name p) "redis"); [discriminate|]. destruct (eqb (pr_name p) "mysql"); [discriminate|]. case_eqb (pr_name p) "dubbo"; [|discriminate]. congruence. }
    destruct K as (k & B & K). split; [apply (C70_shipped_parsers clustering b64 json ipOther ignore3 JS p P)|]. split; [eapply C71_parser_verdicts; eassumption|].
    intros D. exfalso. apply ND. rewrite D in M. destruct M as [M|[M|[]]]; [exact M|discriminate].
  Qed.
  (** The configuration shipped with the collector goes on if every message has at least eight bytes. *)
  Theorem C71_shipped_configuration an os : runs ["http"; "mysql"; "dns"; "redis"; "kafka"; "rocketmq"] an -> Forall (wholeNop 8) os -> exists es s, netRun an n0 os = Ok (es, s).
  Proof.
    intros R F. apply (C71_goes_on 8); [|exact F]. eapply runs_steady; [exact R|cbn; intuition discriminate| |lia].
    intros name k J. cbn [In] in J. unfold bytesNeeded. repeat destruct J as [<- | J]; try destruct J; cbn; intros E; injection E as <-; lia.
  Qed.
  (** Without the MySQL parser it goes on whatever the events are, except for messages without a byte in a sendmmsg. *)
  Theorem C71_without_mysql an os : runs ["http"; "dns"; "redis"; "kafka"; "rocketmq"] an -> Forall (wholeNop 1) os -> exists es s, netRun an n0 os = Ok (es, s).
  Proof.
    intros R F. apply (C71_goes_on 1); [|exact F]. eapply runs_steady; [exact R|cbn; intuition discriminate| |lia].
    intros name k J. cbn [In] in J. unfold bytesNeeded. repeat destruct J as [<- | J]; try destruct J; cbn; intros E; injection E as <-; lia.
  Qed.
  (** Without the Redis parser as well, whatever the events are. *)
  Theorem C71_without_mysql_and_redis an os : runs ["http"; "dns"; "kafka"; "rocketmq"] an -> Forall (wholeNop 0) os -> exists es s, netRun an n0 os = Ok (es, s).
  Proof.
    intros R F. apply (C71_goes_on 0); [|exact F]. eapply runs_steady; [exact R|cbn; intuition discriminate| |lia].
    intros name k J. cbn [In] in J. unfold bytesNeeded. repeat destruct J as [<- | J]; try destruct J; cbn; intros E; injection E as <-; lia.
  Qed.
End Shipped.
Print Assumptions C71_shipped_configuration. Print Assumptions C71_without_mysql. Print Assumptions C71_without_mysql_and_redis.

(** The requests and responses taken from any event but a sendmmsg have a byte, so only those are restricted above. *)
Theorem C71_every_message_has_a_byte : forall e, goodEvent e -> (e_sip e <> [] -> e_dip e <> []) -> getResVal e <> Panic ->
  wholeEvent 0 e /\ (e_name e <> "sendmmsg" -> wholeEvent 1 e).
Proof.
  intros e G D R. split; [split; [exact G|]; split; [exact D|]; split; [exact R|]; intros l t m _ _ _; unfold zlen; lia|].
  intros N. split; [exact G|]. split; [exact D|]. split; [exact R|]. intros l t m C J M. unfold classify in C. destruct (negb (e_net e)); [injection C as <-; destruct J|].
  destruct (e_sip e); [injection C as <-; destruct J|]. rewrite (proj2 (eqb_neq (e_name e) "sendmmsg") N) in C.
  assert (X : isConnect e = true /\ l = [KConn e] \/ l = [] \/ getDataLen e > 0 /\ (l = [KReq e] \/ l = [KResp e])).
  { destruct (e_proto e); try (right; left; congruence); (destruct (isConnect e); [left; split; congruence|]); (destruct (getDataLen e <=? 0) eqn:L; [right; left; congruence|]); apply Z.leb_gt in L;
      (destruct (getResVal e) as [r| |]; try discriminate); (destruct (r <? 0); [right; left; congruence|]); (destruct (isRequest e) as [[|]| |]; try discriminate); right; right; (split; [lia|]); first [left; congruence|right; congruence]. }
  unfold getDataLen in X. destruct X as [(_ & ->)|[-> | (L & [-> | ->])]]; try destruct J as [<-|[]]; try destruct J; cbn [message] in M; try discriminate; injection M as <-; lia.
Qed.
Print Assumptions C71_every_message_has_a_byte.

(** ** What stops the collector *)
(** The configuration shipped (collector/docker/kindling-collector-config.yml), without the decoding of base64 and JSON. *)
Definition shippedAnalyzer (names : list string) (ports : list (Z * pname)) : analyzer :=
  {| an_conf := {| c_snaplen := 200; c_connTimeout := 100; c_fdReuse := 2; c_noResp := 120; c_dnsPorts := [53] |};
     an_rconf := {| rc_slow := []; rc_default := 500; rc_payload := [("http", 200); ("dubbo", 200)] |};
     an_ports := startConf ports names ["http"; "kafka"; "mysql"; "redis"; "dubbo"; "dns"; "rocketmq"; NOSUPPORT] ["dns"];
     an_parser := withParsers (filter (fun p => member (pr_name p) (names ++ [NOSUPPORT])) (factory (fun _ => None) (fun u => u) (fun _ => None) (fun _ => []) false)) |}.
Definition shippedPorts : list (Z * pname) := [(80, "http"); (3306, "mysql"); (9092, "kafka"); (6379, "redis"); (53, "dns"); (9876, "rocketmq"); (10911, "rocketmq")].
Definition shippedNames : list string := ["http"; "mysql"; "dns"; "redis"; "kafka"; "rocketmq"].
Definition rawEvent (name : string) (ts : Z) (dport : Z) (d : bytes) : event :=
  {| e_name := name; e_ts := ts; e_lat := 10; e_net := true; e_params := 2;
     e_attrs := [{| kv_key := "res"; kv_type := EventModel.TInt64; kv_val := leBytes 8 (zlen d) |}; {| kv_key := "data"; kv_type := EventModel.TBytebuf; kv_val := d |}];
     e_pid := 7; e_tid := 8; e_comm := "app"; e_cid := "aaaaaaaaaaaa"; e_fd := 4; e_proto := L4Tcp; e_role := false;
     e_sip := [16777226]; e_dip := [33554442]; e_sport := 4000; e_dport := dport |}.
Definition rawNop (name : string) (ts dport : Z) (d : bytes) : nop := NEvent (fun _ => exMenv) (rawEvent name ts dport d).
Definition exTick : nop := NScan (fun _ => exMenv) (200 * 1000000000).
Lemma le_some n : forall v, exists z, leValue n (leBytes n v) = Ok z.
Proof. induction n as [|n IH]; intros v; [exists 0; reflexivity|]. cbn [leBytes leValue]. destruct (IH (v / 256)) as (z & ->). cbn [bind]. eauto. Qed.
Lemma rawEvent_whole name ts dport d : 0 <= dport < 2 ^ 32 -> Forall is_byte d -> wholeEvent 0 (rawEvent name ts dport d).
Proof.
  intros P B. apply C71_every_message_has_a_byte.
  - split; [cbn [rawEvent e_pid]; lia|]. split; [cbn [rawEvent e_tid]; lia|]. split; [cbn [rawEvent e_sport]; lia|]. split; [exact P|]. exact B.
  - discriminate.
  - unfold getResVal. replace (getUserAttribute (rawEvent name ts dport d) "res") with (Some {| kv_key := "res"; kv_type := EventModel.TInt64; kv_val := leBytes 8 (zlen d) |}) by reflexivity. cbn [kv_val]. destruct (le_some 8 (zlen d)) as (z & ->). discriminate.
Qed.
Lemma shipped_runs names ports : (forall port, aget ports port <> Some "dubbo") -> runs (fun u => u) (fun _ => None) (fun _ => None) (fun _ => []) false names (shippedAnalyzer names ports).
Proof. intros H. split; [reflexivity|exact H]. Qed.

Lemma exMenv_typed : typedPool exMenv.
Proof. intros i k v E. discriminate. Qed.
Lemma rawNop_whole name ts dport d : 0 <= dport < 2 ^ 32 -> Forall is_byte d -> wholeNop 0 (rawNop name ts dport d).
Proof. intros P B. split; [apply rawEvent_whole; assumption|]. intros i. exact exMenv_typed. Qed.
Lemma exTick_whole n : wholeNop n exTick.
Proof. intros k. exact exMenv_typed. Qed.
Ltac wholes := repeat (apply Forall_cons; [first [apply exTick_whole|apply rawNop_whole; [lia|repeat (apply Forall_cons; [unfold is_byte; lia|]); apply Forall_nil]]|]); apply Forall_nil.
Ltac stops := split; [wholes|vm_compute; reflexivity].
(** With the shipped configuration, a MySQL server (or anything on its port) that answers a query with an error packet of six bytes stops the collector. *)
Theorem C71_short_mysql_error_stops_refuted : exists os, Forall (wholeNop 0) os /\ netRun (shippedAnalyzer shippedNames shippedPorts) n0 os = Panic.
Proof.
  exists [rawNop "write" 1000 3306 [9; 0; 0; 0; 3; 115; 101; 108; 101; 99; 116; 32; 49]; rawNop "read" 5000 3306 [2; 0; 0; 1; 255; 16]; exTick]. stops.
Qed.
Print Assumptions C71_short_mysql_error_stops_refuted.
(** So does a process that sends, on any TCP connection, two empty messages by one sendmmsg: the Redis parser reads the first byte of an empty payload. *)
Theorem C71_empty_messages_stop_refuted : exists os, Forall (wholeNop 0) os /\ netRun (shippedAnalyzer shippedNames shippedPorts) n0 os = Panic.
Proof. exists [rawNop "sendmmsg" 1000 8443 [0; 0; 0; 0; 0; 0; 0; 0]; exTick]. stops. Qed.
Print Assumptions C71_empty_messages_stop_refuted.
(** With the Dubbo parser switched on, a JSON call with a line of one character does, on any port without a configured protocol. *)
Theorem C71_dubbo_json_stops_refuted : exists os, Forall (wholeNop 0) os /\ netRun (shippedAnalyzer (shippedNames ++ ["dubbo"]) shippedPorts) n0 os = Panic.
Proof.
  exists [rawNop "write" 1000 20880 [218; 187; 198; 0; 0; 0; 0; 0; 0; 0; 0; 1; 0; 0; 0; 8; 34; 50; 34; 10; 34; 10; 1; 1]; exTick]. stops.
Qed.
Print Assumptions C71_dubbo_json_stops_refuted.
(** With a port configured as Dubbo, any request below sixteen bytes does, whether the parser is on or off. *)
Theorem C71_dubbo_port_stops_refuted : exists os, Forall (wholeNop 1) os /\ netRun (shippedAnalyzer shippedNames [(20880, "dubbo")]) n0 os = Panic.
Proof.
  exists [rawNop "write" 1000 20880 (bs "ls"); exTick]. split; [|vm_compute; reflexivity].
  constructor; [|constructor; [apply exTick_whole|constructor]]. split; [|intros i; exact exMenv_typed]. apply C71_every_message_has_a_byte; [| | |discriminate].
  - apply rawEvent_whole; [lia|apply bs_bytes].
  - discriminate.
  - apply rawEvent_whole; [lia|apply bs_bytes].
Qed.
Print Assumptions C71_dubbo_port_stops_refuted.

(** ** Example: the shipped configuration works off a history with requests of three protocols, garbage and a connect that fails. *)
Definition exStory : list nop :=
  [rawNop "write" 1000 3306 [9; 0; 0; 0; 3; 115; 101; 108; 101; 99; 116; 32; 49]; rawNop "read" 5000 3306 [3; 0; 0; 1; 255; 16; 4; 0; 0]; rawNop "write" 6000 80 (bs "GET /a HTTP/1.1");
   rawNop "read" 7000 80 [255; 255; 255; 255; 255; 255; 255; 255; 0]; rawNop "connect" 8000 80 []; exTick].
Example C71_story : Forall (wholeNop 8) exStory /\ exists es s, netRun (shippedAnalyzer shippedNames shippedPorts) n0 exStory = Ok (es, s) /\ List.length (flat_map en_records es) = 3%nat.
Proof.
  split; [|vm_compute; eexists; eexists; split; reflexivity].
  assert (W : forall name ts dport d, 0 <= dport < 2 ^ 32 -> Forall is_byte d -> (forall l t m, classify (rawEvent name ts dport d) = Ok l -> In t l -> message t = Some m -> 8 <= zlen (EventModel.getData m)) -> wholeNop 8 (rawNop name ts dport d)).
  { intros name ts dport d P B L. destruct (rawEvent_whole name ts dport d P B) as (A1 & A2 & A3 & _). split; [|intros i; exact exMenv_typed]. split; [exact A1|]. split; [exact A2|]. split; [exact A3|exact L]. }
  repeat (apply Forall_cons; [first [apply exTick_whole|apply W; [lia|first [apply bs_bytes|repeat (apply Forall_cons; [unfold is_byte; lia|]); apply Forall_nil]|]]|]); [..|apply Forall_nil];
    intros l t m C J M; vm_compute in C; injection C as <-; destruct J as [<-|[]]; cbn [message] in M; try discriminate; injection M as <-; vm_compute; discriminate.
Qed.
Example C71_story_runs : runs (fun u => u) (fun _ => None) (fun _ => None) (fun _ => []) false shippedNames (shippedAnalyzer shippedNames shippedPorts).
Proof. apply shipped_runs. intros port. unfold shippedPorts. cbn [aget]. repeat (destruct (eqb port _); [discriminate|]). discriminate. Qed.
