(** The labels the protocol parsers set: none of the analyzer's own, and is_error, error_type only with a flag and a number. *)
From Verif Require Import Base Decimal AttrModel LabelNames MsgModel TextModel HttpModel RedisModel SqlModel MysqlModel DnsModel DubboModel RocketModel KafkaModel
  RecordModel RecordSpec FactoryModel.
Open Scope string_scope. Open Scope list_scope. Open Scope Z_scope.

Class HasGood (A : Type) : Type := good : A -> Prop.
#[local] Instance good_msg : HasGood msg | 0 := fun m => parserMaySet (m_attrs m).
#[local] Instance good_prod {A B} `{HasGood A} `{HasGood B} : HasGood (A * B) | 1 := fun p => good (fst p) /\ good (snd p).
#[local] Instance good_option {A} `{HasGood A} : HasGood (option A) | 1 := fun o => match o with Some a => good a | None => True end.
#[local] Instance good_any {A} : HasGood A | 9 := fun _ => True.

Definition keeps {A} `{HasGood A} (r : res A) : Prop := forall a, r = Ok a -> good a.
Lemma keeps_bind {A B} `{HasGood A} `{HasGood B} (r : res A) (f : A -> res B) :
  keeps r -> (forall a, good a -> keeps (f a)) -> keeps (bind r f).
Proof. intros R F b. destruct r as [a| |]; cbn [bind]; [apply F, R; reflexivity|discriminate|discriminate]. Qed.
Lemma keeps_ok {A} `{HasGood A} (a : A) : good a -> keeps (Ok a).
Proof. intros G b E. inversion E; subst. exact G. Qed.
Lemma keeps_err {A} `{HasGood A} : keeps (@Err A).
Proof. intros b E. discriminate. Qed.
Lemma keeps_panic {A} `{HasGood A} : keeps (@Panic A).
Proof. intros b E. discriminate. Qed.
Lemma keeps_orFail {A} `{HasGood A} (r : res A) m f : keeps r -> good m -> (forall a, good a -> keeps (f a)) -> keeps (orFail r m f).
Proof. intros R M F. destruct r as [a| |]; cbn [orFail]; [apply F, R; reflexivity|apply keeps_ok; repeat split; apply M|apply keeps_panic]. Qed.

Definition allowed (k : string) (v : aval) : bool :=
  negb (existsb (String.eqb k) ownLabels) &&
  (negb (String.eqb k "is_error") || match v with BV _ => true | _ => false end) &&
  (negb (String.eqb k "error_type") || match v with IV _ => true | _ => false end).
Lemma may_aset l k v : allowed k v = true -> parserMaySet l -> parserMaySet (aset l k v).
Proof.
  intros A (N & O & E & T). unfold allowed in A. apply andb_prop in A. destruct A as (A & A3). apply andb_prop in A. destruct A as (A1 & A2).
  split; [apply NoDup_keys_aset; exact N|]. split; [|split].
  - intros k' I. rewrite aget_aset. case_eqb k' k; [|apply O; exact I]. subst k'. exfalso.
    apply negb_true_iff in A1. assert (X : existsb (String.eqb k) ownLabels = true) by (apply existsb_exists; exists k; split; [exact I|apply String.eqb_refl]).
    congruence.
  - intros v' G. rewrite aget_aset in G. case_eqb "is_error" k; [subst k|apply E; exact G]. inversion G; subst.
    cbn in A2. destruct v'; try discriminate. eauto.
  - intros v' G. rewrite aget_aset in G. case_eqb "error_type" k; [subst k|apply T; exact G]. inversion G; subst.
    cbn in A3. destruct v'; try discriminate. eauto.
Qed.
Lemma good_add m k v : allowed k v = true -> good m -> good (addAttr m k v).
Proof. apply may_aset. Qed.
Lemma good_off m o : good m -> good (setOff m o).
Proof. intros G. exact G. Qed.

(** the parser trees *)
Inductive pkgGood : pkg -> Prop :=
| PG ff ps ch : (forall m, good m -> keeps (ff m)) -> (forall m, good m -> keeps (ps m)) -> Forall pkgGood ch -> pkgGood (Pkg ff ps ch).
Fixpoint frame_good (p : pkg) {struct p} : pkgGood p -> forall m, good m -> keeps (parseOneFrame p m).
Proof.
  destruct p as [ff ps ch]. intros G m M. inversion G as [? ? ? F P C]; subst. clear G.
  assert (R : Forall (fun c => forall m, good m -> keeps (parseOneFrame c m)) ch).
  { clear - frame_good C. induction ch as [|c ch IH]; constructor.
    - apply frame_good. inversion C; assumption.
    - apply IH. inversion C; assumption. }
  clear frame_good C. cbn [parseOneFrame].
  apply keeps_bind; [apply F, M|]. intros [bad m0] (_ & M0). cbn [snd] in M0.
  destruct bad; [apply keeps_ok; split; [exact I|exact M0]|].
  apply keeps_bind; [apply P, M0|]. intros [[ok complete] m1] (_ & M1). cbn [snd] in M1.
  destruct ok; cbn [negb]; [|apply keeps_ok; split; [exact I|exact M1]].
  destruct complete; [apply keeps_ok; split; [exact I|exact M1]|].
  assert (X : forall cs m, Forall (fun c => forall m, good m -> keeps (parseOneFrame c m)) cs -> good m ->
     keeps ((fix each (cs : list pkg) (m : msg) : res (status * msg) :=
                      match cs with
                      | [] => Ok (PFail, m)
                      | c :: cs' =>
                          bind (parseOneFrame c m) (fun '(s, m2) =>
                            match s with PFail => each cs' m2 | _ => Ok (s, m2) end)
                      end) cs m)).
  { clear. induction cs as [|c cs IH]; intros m R M; [apply keeps_ok; split; [exact I|exact M]|]. inversion R; subst.
    apply keeps_bind; [auto|]. intros [s m2] (_ & M2). cbn [snd] in M2.
    destruct s; [apply IH; assumption|apply keeps_ok; split; [exact I|exact M2]|apply keeps_ok; split; [exact I|exact M2]]. }
  destruct ch as [|c0 ch0]; [apply keeps_ok; split; [exact I|exact M1]|]. exact (X (c0 :: ch0) m1 R M1).
Qed.
Lemma payload_good multi p m : pkgGood p -> good m -> keeps (parsePayload multi p m).
Proof.
  intros P M. unfold parsePayload. destruct multi.
  - cut (forall n m', good m' -> keeps (framesLoop n p m')); [intros X; apply X; exact M|].
    intros n. induction n as [|n IH]; intros m' M'; cbn [framesLoop]; [apply keeps_err|].
    apply keeps_bind; [apply frame_good; assumption|]. intros [s m1] (_ & M1). cbn [snd] in M1.
    destruct s; [apply keeps_ok; split; [exact I|exact M1]|apply IH, M1|apply keeps_ok; split; [exact I|exact M1]].
  - apply keeps_bind; [apply frame_good; assumption|]. intros [s m1] (_ & M1). apply keeps_ok. split; [exact I|exact M1].
Qed.

Ltac goods :=
  repeat match goal with
  | H : good (_, _) |- _ => let H1 := fresh "G" in let H2 := fresh "G" in destruct H as [H1 H2]; cbn [fst snd] in H1, H2
  | H : good (Some ?x) |- _ => change (good x) in H
  end.
Ltac kp :=
  goods;
  match goal with
  | |- good (addAttr _ _ _) => apply good_add; [reflexivity|kp]
  | |- good (setOff _ _) => apply good_off; kp
  | |- good (if ?b then _ else _) => destruct b; kp
  | |- good (_, _) => split; cbn [fst snd]; kp
  | |- good (@None _) => exact I
  | |- good (Some ?x) => change (good x); kp
  | |- good _ => first [assumption | exact I]
  | |- keeps (bind _ _) => apply keeps_bind; [kp|let x := fresh "x" in let G := fresh "G" in intros x G; kp]
  | |- keeps (orFail _ _ _) => apply keeps_orFail; [kp|kp|let x := fresh "x" in let G := fresh "G" in intros x G; kp]
  | |- keeps (Ok _) => apply keeps_ok; kp
  | |- keeps Err => apply keeps_err
  | |- keeps Panic => apply keeps_panic
  | |- keeps (if ?b then _ else _) => destruct b; kp
  | |- keeps (let '(_, _) := ?x in _) => destruct x; kp
  | |- keeps (match ?x with _ => _ end) => destruct x; kp
  | |- keeps (let x := _ in _) => cbv zeta; kp
  | H : forall m, good m -> keeps (?f m) |- keeps (?f _) => apply H; kp
  | |- keeps _ => let a := fresh "a" in intros a _; repeat match goal with x : _ * _ |- _ => destruct x | x : option _ |- _ => destruct x end;
                  cbv [good good_prod good_option good_any fst snd]; tauto
  end.

Lemma orZero_keeps r : keeps (orZero r).
Proof. intros a _. exact I. Qed.
Lemma readQuery_good m n : good m -> keeps (readQuery m n).
Proof. intros M. unfold readQuery. apply keeps_bind; [intros o _; destruct o as [[? ?]|]; [split|]; exact I|]. intros [[dm o]|] _; apply keeps_ok; [split; [exact I|exact M]|exact I]. Qed.
Section Each.
  Context (clustering : bytes -> bytes) (b64 : bytes -> option bytes) (json : bytes -> option rheader) (ipOther : bytes -> bytes) (ignore3 : bool).
  Lemma addTrace_good m : good m -> keeps (addTrace b64 m).
  Proof. intros M. unfold addTrace. kp. Qed.
  Lemma http_good : pkgGood (httpRequestParser b64 clustering) /\ pkgGood (httpResponseParser b64).
  Proof.
    pose proof addTrace_good. split; (constructor; [..|constructor]); intros m M.
    - unfold fastfailHttpRequest. kp.
    - unfold parseHttpRequest. kp.
    - unfold fastfailHttpResponse. kp.
    - unfold parseHttpResponse. kp.
  Qed.
  Lemma redis_good : pkgGood redisRequestParser /\ pkgGood redisResponseParser.
  Proof.
    assert (F : forall l m, good m -> keeps (fastfailByte l m)) by (intros l m M; unfold fastfailByte; kp).
    assert (N : forall m, good m -> keeps (parseRedisNumber m)) by (intros m M; unfold parseRedisNumber; kp).
    assert (B : forall m, good m -> keeps (parseRedisBulkString m)) by (intros m M; unfold parseRedisBulkString; kp).
    assert (S1 : forall m, good m -> keeps (parseRedisSimpleString m)) by (intros m M; unfold parseRedisSimpleString; kp).
    assert (E1 : forall m, good m -> keeps (parseRedisError m)) by (intros m M; unfold parseRedisError; kp).
    assert (R1 : forall m, good m -> keeps (parseRedisRoot m)) by (intros m M; unfold parseRedisRoot; kp).
    split; repeat (constructor; auto).
  Qed.
  Lemma mysql_good : pkgGood mysqlRequestParser /\ pkgGood mysqlResponseParser.
  Proof.
    assert (F : forall l m, good m -> keeps (fastfailCommand l m)) by (intros l m M; unfold fastfailCommand; kp).
    assert (F2 : forall l m, good m -> keeps (shorterThan l m)) by (intros l m M; unfold shorterThan; kp).
    assert (F3 : forall m, good m -> keeps (fastfailMysqlResultSet m)) by (intros m M; unfold fastfailMysqlResultSet; kp).
    assert (R1 : forall m, good m -> keeps (parseMysqlRoot m)) by (intros m M; unfold parseMysqlRoot; kp).
    assert (P1 : forall m, good m -> keeps (parseMysqlPrepare m)) by (intros m M; unfold parseMysqlPrepare, addSql; kp).
    assert (P2 : forall m, good m -> keeps (parseMysqlQuery m)) by (intros m M; unfold parseMysqlQuery, addSql; kp).
    assert (P3 : forall m, good m -> keeps (parseMysqlQuit m)) by (intros m M; unfold parseMysqlQuit; kp).
    assert (P4 : forall m, good m -> keeps (parseMysqlErr m)) by (intros m M; unfold parseMysqlErr; kp).
    assert (P5 : forall m, good m -> keeps (parseMysqlNothing m)) by (intros m M; unfold parseMysqlNothing; kp).
    split; repeat (constructor; auto).
  Qed.
  Lemma dubbo_good : pkgGood dubboRequestParser /\ pkgGood dubboResponseParser.
  Proof.
    split; (constructor; [..|constructor]); intros m M.
    - unfold fastfailDubbo. kp.
    - unfold parseDubboRequest. kp.
    - unfold fastfailDubbo. kp.
    - unfold parseDubboResponse. kp.
  Qed.
  Lemma rocket_good : pkgGood (Pkg fastfailRocket (parseRocketRequest json) []) /\ pkgGood (Pkg fastfailRocket (parseRocketResponse json) []).
  Proof.
    assert (H : forall d, keeps (rocketHeader json d)) by (intros d [h|] _; exact I).
    split; (constructor; [..|constructor]); intros m M.
    - unfold fastfailRocket. kp.
    - unfold parseRocketRequest. apply keeps_bind; [apply H|]. intros o _. kp.
    - unfold fastfailRocket. kp.
    - unfold parseRocketResponse. apply keeps_bind; [apply H|]. intros o _. kp.
  Qed.
  Lemma kafka_good : pkgGood kafkaRequestParser /\ pkgGood kafkaResponseParser.
  Proof.
    assert (F1 : forall n m, good m -> keeps (fastfailKafka n m)) by (intros n m M; unfold fastfailKafka; kp).
    assert (F2 : forall n m, good m -> keeps (fastfailApi n m)) by (intros n m M; unfold fastfailApi; kp).
    assert (F3 : forall m, good m -> keeps (fastfailOther m)) by (intros m M; unfold fastfailOther; kp).
    assert (P1 : forall m, good m -> keeps (parseKafkaRequest m)) by (intros m M; unfold parseKafkaRequest; kp).
    assert (P2 : forall m, good m -> keeps (parseKafkaResponse m)) by (intros m M; unfold parseKafkaResponse; kp).
    assert (P3 : forall m, good m -> keeps (parseKafkaOther m)) by (intros m M; unfold parseKafkaOther; kp).
    assert (P4 : forall m, good m -> keeps (parseRequestFetch m)) by (intros m M; unfold parseRequestFetch, requestTopic, addTopic; cbv zeta; kp).
    assert (P5 : forall m, good m -> keeps (parseRequestProduce m)) by (intros m M; unfold parseRequestProduce, requestTopic, addTopic; cbv zeta; kp).
    assert (P6 : forall m, good m -> keeps (parseResponseFetch m)) by (intros m M; unfold parseResponseFetch, fetchTopics, partitionError, finishTopic, addTopic; cbv zeta; kp).
    assert (P7 : forall m, good m -> keeps (parseResponseProduce m)) by (intros m M; unfold parseResponseProduce, partitionError, finishTopic, addTopic; cbv zeta; kp).
    split; repeat (constructor; auto).
  Qed.
  Lemma dns_good : pkgGood (Pkg fastfailDns (parseTcp parseDnsRequest) []) /\ pkgGood (Pkg fastfailDns (parseTcp (parseDnsResponse ipOther ignore3)) []).
  Proof.
    assert (A1 : forall m n, good m -> keeps (readIpV4Answer ipOther m n)).
    { intros m n M. unfold readIpV4Answer. apply keeps_bind; [intros [? ?] _; split; exact I|]. intros [? ?] _. kp. }
    assert (U : forall m o, keeps (u16or0 m o)) by (intros m o z _; exact I).
    split; (constructor; [..|constructor]); intros m M.
    - unfold fastfailDns. kp.
    - unfold parseTcp, parseDnsRequest. apply keeps_bind; [apply U|]. intros id _. apply keeps_bind; [apply U|]. intros n _.
      destruct (n =? 0); [kp|]. apply keeps_bind; [apply readQuery_good; kp|]. intros o G. kp.
    - unfold fastfailDns. kp.
    - unfold parseTcp, parseDnsResponse. apply keeps_bind; [apply U|]. intros id _. apply keeps_bind; [apply U|]. intros n _. cbv zeta.
      apply keeps_bind; [apply U|]. intros n1 _. apply keeps_bind; [apply U|]. intros n2 _.
      destruct (n1 =? 0); [kp|]. apply keeps_bind; [apply readQuery_good; kp|]. intros o G.
      destruct o as [[dm m1]|]; [|kp]. change (good (dm, m1)) in G. goods. apply keeps_bind; [apply A1; kp|]. intros [ip m2] G2. kp.
  Qed.
  Lemma generic_good : pkgGood (Pkg fastfailGeneric parseGeneric []).
  Proof. constructor; [..|constructor]; intros m M; [unfold fastfailGeneric|unfold parseGeneric]; kp. Qed.

  Lemma empty_may : parserMaySet [].
  Proof. split; [constructor|]. split; [reflexivity|]. split; intros v G; discriminate. Qed.
  Lemma new_good d a : parserMaySet a -> good (newResponse d a).
  Proof. intros G. exact G. Qed.
  (** Every parser of the collector sets only labels the analyzer does not set itself, and is_error and error_type with a flag and a number. *)
  Theorem C55_parser_labels p : In p (factory b64 clustering json ipOther ignore3) ->
    (forall d ok m, pr_request p d = Ok (ok, m) -> parserMaySet (m_attrs m)) /\
    (forall d a ok m, parserMaySet a -> pr_response p d a = Ok (ok, m) -> parserMaySet (m_attrs m)).
  Proof.
    intros F.
    assert (Q : exists multi rq rs, pkgGood rq /\ pkgGood rs /\ pr_request p = (fun d => parsePayload multi rq (newRequest d)) /\
      pr_response p = (fun d a => parsePayload multi rs (newResponse d a))).
    { cbn [factory In] in F. repeat destruct F as [<- | F]; try destruct F.
      - exists false, (httpRequestParser b64 clustering), (httpResponseParser b64). destruct http_good. auto.
      - exists false, kafkaRequestParser, kafkaResponseParser. destruct kafka_good. auto.
      - exists false, mysqlRequestParser, mysqlResponseParser. destruct mysql_good. auto.
      - exists true, redisRequestParser, redisResponseParser. destruct redis_good. auto.
      - exists false, dubboRequestParser, dubboResponseParser. destruct dubbo_good. auto.
      - exists false, (Pkg fastfailDns (parseTcp parseDnsRequest) []), (Pkg fastfailDns (parseTcp (parseDnsResponse ipOther ignore3)) []). destruct dns_good. auto.
      - exists false, (Pkg fastfailRocket (parseRocketRequest json) []), (Pkg fastfailRocket (parseRocketResponse json) []). destruct rocket_good. auto.
      - exists false, (Pkg fastfailGeneric parseGeneric []), (Pkg fastfailGeneric parseGeneric []). pose proof generic_good. auto. }
    destruct Q as (multi & rq & rs & G1 & G2 & -> & ->). split.
    - intros d ok m E. exact (proj2 (payload_good multi rq (newRequest d) G1 empty_may _ E)).
    - intros d a ok m A E. exact (proj2 (payload_good multi rs (newResponse d a) G2 A _ E)).
  Qed.
End Each.
Print Assumptions C55_parser_labels.
