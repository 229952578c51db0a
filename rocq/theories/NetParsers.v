(** The labels the protocol parsers set: integers are int64, and none of the labels of the Kubernetes metadata. *)
From Verif Require Import Base Decimal AttrModel LabelNames MsgModel TextModel HttpModel RedisModel SqlModel MysqlModel DnsModel DubboModel RocketModel KafkaModel
  EnrichSpec RecordModel RecordSpec FactoryModel RecordParsers NetModel NetSpec NetProofs3.
Open Scope string_scope. Open Scope list_scope. Open Scope Z_scope.

Class HasGood (A : Type) : Type := good : A -> Prop.
#[local] Instance good_msg : HasGood msg | 0 := fun m => (forall k v, aget (m_attrs m) k = Some v -> goodLabel k v) /\ Forall is_byte (m_data m).
#[local] Instance good_prod {A B} `{HasGood A} `{HasGood B} : HasGood (A * B) | 1 := fun p => good (fst p) /\ good (snd p).
#[local] Instance good_option {A} `{HasGood A} : HasGood (option A) | 1 := fun o => match o with Some a => good a | None => True end.
#[local] Instance good_any {A} : HasGood A | 9 := fun _ => True.

Definition keeps {A} `{HasGood A} (r : res A) : Prop := forall a, r = Ok a -> good a.
Lemma keeps_bind {A B} `{HasGood A} `{HasGood B} (r : res A) (f : A -> res B) :
  keeps r -> (forall a, r = Ok a -> good a -> keeps (f a)) -> keeps (bind r f).
Proof. intros R F b. destruct r as [a| |]; cbn [bind]; [apply F; [reflexivity|apply R; reflexivity]|discriminate|discriminate]. Qed.
Lemma keeps_ok {A} `{HasGood A} (a : A) : good a -> keeps (Ok a).
Proof. intros G b E. inversion E; subst. exact G. Qed.
Lemma keeps_err {A} `{HasGood A} : keeps (@Err A).
Proof. intros b E. discriminate. Qed.
Lemma keeps_panic {A} `{HasGood A} : keeps (@Panic A).
Proof. intros b E. discriminate. Qed.
Lemma keeps_orFail {A} `{HasGood A} (r : res A) m f : keeps r -> good m -> (forall a, r = Ok a -> good a -> keeps (f a)) -> keeps (orFail r m f).
Proof. intros R M F. destruct r as [a| |]; cbn [orFail]; [apply F; [reflexivity|apply R; reflexivity]|apply keeps_ok; split; [split; exact I|exact M]|apply keeps_panic]. Qed.

Definition range (v : aval) : Prop := forall z, v = IV z -> - 2 ^ 63 <= z < 2 ^ 63.
Definition allowed (k : string) : bool := negb (existsb (String.eqb k) ("dst_port" :: stringLabels)).
Lemma good_add m k v : allowed k = true -> range v -> good m -> good (addAttr m k v).
Proof.
  intros A R (G & D). split; [|exact D]. intros k' v' X. unfold addAttr in X. cbn [m_attrs] in X. rewrite aget_aset in X. case_eqb k' k; [|exact (G _ _ X)]. subst k'. injection X as <-.
  unfold allowed in A. apply negb_true_iff in A. split; [exact R|]. split.
  - intros J. exfalso. assert (Y : existsb (String.eqb k) ("dst_port" :: stringLabels) = true) by (apply existsb_exists; exists k; split; [right; exact J|apply String.eqb_refl]). congruence.
  - intros ->. discriminate.
Qed.
Lemma good_off m o : good m -> good (setOff m o).
Proof. intros G. exact G. Qed.

(** what the readers return *)
Lemma readInt16_range d o v o' : readInt16 d o = Ok (v, o') -> - 2 ^ 15 <= v < 2 ^ 15.
Proof.
  unfold readInt16. destruct (o <? 0); [discriminate|]. destruct (_ <? _); [discriminate|]. destruct (gindex d o); cbn [bind]; try discriminate. destruct (gindex d (o + 1)); cbn [bind]; try discriminate.
  intros E. injection E as <- _. unfold s16. pose proof (Z.mod_pos_bound (Z.lor (Z.shiftl a 8) a0 + 2 ^ 15) (2 ^ 16) ltac:(lia)). lia.
Qed.
Lemma readInt32_range d o v o' : readInt32 d o = Ok (v, o') -> - 2 ^ 31 <= v < 2 ^ 31.
Proof.
  unfold readInt32. destruct (o <? 0); [discriminate|]. destruct (_ <? _); [discriminate|]. destruct (gindex d o) as [a| |]; cbn [bind]; try discriminate. destruct (gindex d (o + 1)) as [b| |]; cbn [bind]; try discriminate.
  destruct (gindex d (o + 2)) as [c| |]; cbn [bind]; try discriminate. destruct (gindex d (o + 3)) as [e| |]; cbn [bind]; try discriminate.
  intros E. injection E as <- _. unfold s32. match goal with |- context [?x mod 2 ^ 32] => pose proof (Z.mod_pos_bound x (2 ^ 32) ltac:(lia)) end. lia.
Qed.
Lemma orZero16_range d o v : orZero (readInt16 d o) = Ok v -> - 2 ^ 15 <= v < 2 ^ 15.
Proof. destruct (readInt16 d o) as [[x o']| |] eqn:E; cbn [orZero]; intros X; try discriminate; injection X as <-; [exact (readInt16_range _ _ _ _ E)|lia]. Qed.
Lemma orZero32_range d o v : orZero (readInt32 d o) = Ok v -> - 2 ^ 31 <= v < 2 ^ 31.
Proof. destruct (readInt32 d o) as [[x o']| |] eqn:E; cbn [orZero]; intros X; try discriminate; injection X as <-; [exact (readInt32_range _ _ _ _ E)|lia]. Qed.
Lemma gindex_is_byte d i b : Forall is_byte d -> gindex d i = Ok b -> is_byte b.
Proof. intros F. unfold gindex, znth. destruct (i <? 0); [discriminate|]. destruct (nth_error d (Z.to_nat i)) eqn:E; [|discriminate]. intros X. injection X as <-. rewrite Forall_forall in F. apply F. eapply nth_error_In. exact E. Qed.
Lemma lor_bytes a b : is_byte a -> is_byte b -> 0 <= Z.lor (Z.shiftl a 8) b < 2 ^ 16.
Proof.
  unfold is_byte. intros A B. rewrite Z.shiftl_mul_pow2 by lia.
  assert (N : 0 <= Z.lor (a * 2 ^ 8) b) by (apply Z.lor_nonneg; lia). split; [exact N|].
  destruct (Z.eq_dec (Z.lor (a * 2 ^ 8) b) 0) as [->|Z0]; [lia|]. apply Z.log2_lt_pow2; [lia|]. rewrite Z.log2_lor by lia.
  apply Z.max_lub_lt; [destruct (Z.eq_dec a 0) as [->|]; [reflexivity|]; apply Z.log2_lt_pow2; lia|destruct (Z.eq_dec b 0) as [->|]; [reflexivity|]; apply Z.log2_lt_pow2; lia].
Qed.
Lemma u16_range m o v : Forall is_byte (m_data m) -> u16or0 m o = Ok v -> 0 <= v < 2 ^ 16.
Proof.
  intros F. unfold u16or0. destruct (readUInt16 (m_data m) o) as [x| |] eqn:E; intros X; try discriminate; injection X as <-; [|lia].
  unfold readUInt16 in E. destruct (o <? 0); [discriminate|]. destruct (_ <? _); [discriminate|]. destruct (gindex (m_data m) o) as [a| |] eqn:A; cbn [bind] in E; try discriminate.
  destruct (gindex (m_data m) (o + 1)) as [b| |] eqn:B; cbn [bind] in E; try discriminate. injection E as <-. apply lor_bytes; eapply gindex_is_byte; eassumption.
Qed.
Lemma range_of z : - 2 ^ 63 <= z < 2 ^ 63 -> range (IV z).
Proof. intros R x E. injection E as <-. exact R. Qed.
Lemma range_code n : range (IV (if (999 <? n) || (n <? 99) then 0 else n)).
Proof. apply range_of. destruct (999 <? n) eqn:A; cbn [orb]; [lia|]. destruct (n <? 99) eqn:B; lia. Qed.
Ltac rng :=
  first [ intros ? ?; discriminate
        | apply range_code
        | apply range_of;
          repeat match goal with
          | H : orZero (readInt16 _ _) = Ok _ |- _ => apply orZero16_range in H
          | H : orZero (readInt32 _ _) = Ok _ |- _ => apply orZero32_range in H
          | H : readInt16 _ _ = Ok (_, _) |- _ => apply readInt16_range in H
          | H : readInt32 _ _ = Ok (_, _) |- _ => apply readInt32_range in H
          end;
          unfold ProtocolError in *; lia ].

(** the parser trees *)
Inductive pkgGood : pkg -> Prop :=
| PG ff ps ch : (forall m, good m -> keeps (ff m)) -> (forall m, good m -> keeps (ps m)) -> Forall pkgGood ch -> pkgGood (Pkg ff ps ch).
Fixpoint frame_good (p : pkg) {struct p} : pkgGood p -> forall m, good m -> keeps (parseOneFrame p m).
Proof.
  destruct p as [ff ps ch]. intros G m M. inversion G as [? ? ? F P C]; subst. clear G.
  assert (R : Forall (fun c => forall m, good m -> keeps (parseOneFrame c m)) ch).
  { clear - frame_good C. induction ch as [|c ch IH]; constructor.
    - apply frame_good. inversion C; assumption.
    - apply IH. inversion C; assumption. }
  clear frame_good C. cbn [parseOneFrame].
  apply keeps_bind; [apply F, M|]. intros [bad m0] _ (_ & M0). cbn [snd] in M0.
  destruct bad; [apply keeps_ok; split; [exact I|exact M0]|].
  apply keeps_bind; [apply P, M0|]. intros [[ok complete] m1] _ (_ & M1). cbn [snd] in M1.
  destruct ok; cbn [negb]; [|apply keeps_ok; split; [exact I|exact M1]].
  destruct complete; [apply keeps_ok; split; [exact I|exact M1]|].
  assert (X : forall cs m, Forall (fun c => forall m, good m -> keeps (parseOneFrame c m)) cs -> good m ->
     keeps ((fix each (cs : list pkg) (m : msg) : res (status * msg) :=
                      match cs with
                      | [] => Ok (PFail, m)
                      | c :: cs' =>
                          bind (parseOneFrame c m) (fun '(s, m2) =>
                            match s with PFail => each cs' m2 | _ => Ok (s, m2) end)
                      end) cs m)).
  { clear. induction cs as [|c cs IH]; intros m R M; [apply keeps_ok; split; [exact I|exact M]|]. inversion R; subst.
    apply keeps_bind; [auto|]. intros [s m2] _ (_ & M2). cbn [snd] in M2.
    destruct s; [apply IH; assumption|apply keeps_ok; split; [exact I|exact M2]|apply keeps_ok; split; [exact I|exact M2]]. }
  destruct ch as [|c0 ch0]; [apply keeps_ok; split; [exact I|exact M1]|]. exact (X (c0 :: ch0) m1 R M1).
Qed.
Lemma payload_good multi p m : pkgGood p -> good m -> keeps (parsePayload multi p m).
Proof.
  intros P M. unfold parsePayload. destruct multi.
  - cut (forall n m', good m' -> keeps (framesLoop n p m')); [intros X; apply X; exact M|].
    intros n. induction n as [|n IH]; intros m' M'; cbn [framesLoop]; [apply keeps_err|].
    apply keeps_bind; [apply frame_good; assumption|]. intros [s m1] _ (_ & M1). cbn [snd] in M1.
    destruct s; [apply keeps_ok; split; [exact I|exact M1]|apply IH, M1|apply keeps_ok; split; [exact I|exact M1]].
  - apply keeps_bind; [apply frame_good; assumption|]. intros [s m1] _ (_ & M1). apply keeps_ok. split; [exact I|exact M1].
Qed.

Ltac goods :=
  repeat match goal with
  | H : good (_, _) |- _ => let H1 := fresh "G" in let H2 := fresh "G" in destruct H as [H1 H2]; cbn [fst snd] in H1, H2
  | H : good (Some ?x) |- _ => change (good x) in H
  end.
Ltac kp :=
  goods;
  match goal with
  | |- good (addAttr _ _ _) => apply good_add; [reflexivity|rng|kp]
  | |- good (setOff _ _) => apply good_off; kp
  | |- good (if ?b then _ else _) => destruct b; kp
  | |- good (_, _) => split; cbn [fst snd]; kp
  | |- good (@None _) => exact I
  | |- good (Some ?x) => change (good x); kp
  | |- good _ => first [assumption | exact I]
  | |- keeps (bind _ _) => apply keeps_bind; [kp|let x := fresh "x" in let E := fresh "E" in let G := fresh "G" in intros x E G; kp]
  | |- keeps (orFail _ _ _) => apply keeps_orFail; [kp|kp|let x := fresh "x" in let E := fresh "E" in let G := fresh "G" in intros x E G; kp]
  | |- keeps (Ok _) => apply keeps_ok; kp
  | |- keeps Err => apply keeps_err
  | |- keeps Panic => apply keeps_panic
  | |- keeps (if ?b then _ else _) => destruct b; kp
  | |- keeps (let '(_, _) := ?x in _) => destruct x; kp
  | |- keeps (match ?x with _ => _ end) => destruct x; kp
  | |- keeps (let x := _ in _) => cbv zeta; kp
  | H : forall m, good m -> keeps (?f m) |- keeps (?f _) => apply H; kp
  | |- keeps _ => let a := fresh "a" in intros a _; repeat match goal with x : _ * _ |- _ => destruct x | x : option _ |- _ => destruct x end;
                  cbv [good good_prod good_option good_any fst snd]; tauto
  end.

Lemma orZero_keeps r : keeps (orZero r).
Proof. intros a _. exact I. Qed.
Lemma readQuery_good m n : good m -> keeps (readQuery m n).
Proof. intros M. unfold readQuery. apply keeps_bind; [intros o _; destruct o as [[? ?]|]; [split|]; exact I|]. intros [[dm o]|] _ _; apply keeps_ok; [split; [exact I|exact M]|exact I]. Qed.
Section Each.
  Context (clustering : bytes -> bytes) (b64 : bytes -> option bytes) (json : bytes -> option rheader) (ipOther : bytes -> bytes) (ignore3 : bool)
    (JS : forall b h, json b = Some h -> - 2 ^ 15 <= r_code h < 2 ^ 15 /\ - 2 ^ 31 <= r_opaque h < 2 ^ 31).
  Lemma addTrace_good m : good m -> keeps (addTrace b64 m).
  Proof. intros M. unfold addTrace. kp. Qed.
  Lemma http_good : pkgGood (httpRequestParser b64 clustering) /\ pkgGood (httpResponseParser b64).
  Proof.
    pose proof addTrace_good. split; (constructor; [..|constructor]); intros m M.
    - unfold fastfailHttpRequest. kp.
    - unfold parseHttpRequest. kp.
    - unfold fastfailHttpResponse. kp.
    - unfold parseHttpResponse. kp.
  Qed.
  Lemma redis_good : pkgGood redisRequestParser /\ pkgGood redisResponseParser.
  Proof.
    assert (F : forall l m, good m -> keeps (fastfailByte l m)) by (intros l m M; unfold fastfailByte; kp).
    assert (N : forall m, good m -> keeps (parseRedisNumber m)) by (intros m M; unfold parseRedisNumber; kp).
    assert (B : forall m, good m -> keeps (parseRedisBulkString m)) by (intros m M; unfold parseRedisBulkString; kp).
    assert (S1 : forall m, good m -> keeps (parseRedisSimpleString m)) by (intros m M; unfold parseRedisSimpleString; kp).
    assert (E1 : forall m, good m -> keeps (parseRedisError m)) by (intros m M; unfold parseRedisError; kp).
    assert (R1 : forall m, good m -> keeps (parseRedisRoot m)) by (intros m M; unfold parseRedisRoot; kp).
    split; repeat (constructor; auto).
  Qed.
  Lemma mysql_good : pkgGood mysqlRequestParser /\ pkgGood mysqlResponseParser.
  Proof.
    assert (F : forall l m, good m -> keeps (fastfailCommand l m)) by (intros l m M; unfold fastfailCommand; kp).
    assert (F2 : forall l m, good m -> keeps (shorterThan l m)) by (intros l m M; unfold shorterThan; kp).
    assert (F3 : forall m, good m -> keeps (fastfailMysqlResultSet m)) by (intros m M; unfold fastfailMysqlResultSet; kp).
    assert (R1 : forall m, good m -> keeps (parseMysqlRoot m)) by (intros m M; unfold parseMysqlRoot; kp).
    assert (P1 : forall m, good m -> keeps (parseMysqlPrepare m)) by (intros m M; unfold parseMysqlPrepare, addSql; kp).
    assert (P2 : forall m, good m -> keeps (parseMysqlQuery m)) by (intros m M; unfold parseMysqlQuery, addSql; kp).
    assert (P3 : forall m, good m -> keeps (parseMysqlQuit m)) by (intros m M; unfold parseMysqlQuit; kp).
    assert (P4 : forall m, good m -> keeps (parseMysqlErr m)) by 
      (intros m M; unfold parseMysqlErr; apply keeps_bind; [kp|]; intros c E1 _; apply keeps_bind; [kp|]; intros lo E2 _; apply keeps_bind; [kp|]; intros hi E3 _; cbv zeta;
       apply gslice_inv in E1; destruct E1 as (_ & _ & _ & ->);
       assert (X := bytes_slice (m_data m) 5 7 (proj2 M)); pose proof (gindex_is_byte _ _ _ X E2) as B1; pose proof (gindex_is_byte _ _ _ X E3) as B2;
       pose proof (lor_bytes hi lo B2 B1) as R; rewrite Z.lor_comm in R; kp).
    assert (P5 : forall m, good m -> keeps (parseMysqlNothing m)) by (intros m M; unfold parseMysqlNothing; kp).
    split; repeat (constructor; auto).
  Qed.
  Lemma dubbo_good : pkgGood dubboRequestParser /\ pkgGood dubboResponseParser.
  Proof.
    split; (constructor; [..|constructor]); intros m M.
    - unfold fastfailDubbo. kp.
    - unfold parseDubboRequest. kp.
    - unfold fastfailDubbo. kp.
    - unfold parseDubboResponse. apply keeps_bind; [kp|]. intros c E _.
      assert (R : - 2 ^ 15 <= c < 2 ^ 15).
      { unfold getErrorCode in E. destruct (gindex (m_data m) 2); cbn [bind] in E; try discriminate. destruct (_ =? 0); [injection E as <-; lia|]. destruct (negb _); [injection E as <-; lia|].
        destruct (negb _); [injection E as <-; lia|]. pose proof (gindex_is_byte _ _ _ (proj2 M) E) as B. unfold is_byte in B. lia. }
      kp.
  Qed.
  Lemma rocket_good : pkgGood (Pkg fastfailRocket (parseRocketRequest json) []) /\ pkgGood (Pkg fastfailRocket (parseRocketResponse json) []).
  Proof.
    assert (H : forall d, keeps (rocketHeader json d)) by (intros d [h|] _; exact I).
    assert (R : forall d h, rocketHeader json d = Ok (Some h) -> - 2 ^ 15 <= r_code h < 2 ^ 15 /\ - 2 ^ 31 <= r_opaque h < 2 ^ 31).
    { intros d h. unfold rocketHeader. destruct (gindex d 4); cbn [bind]; try discriminate. destruct (_ =? 0).
      - destruct (orZero (readInt32 d 4)) as [n| |]; cbn [bind]; try discriminate. destruct (readBytes d 8 n) as [[hb ?]| |]; try discriminate. intros X. injection X as X. exact (JS _ _ X).
      - destruct (_ =? 1); [|discriminate]. unfold parseHeader. destruct (orZero (readInt16 d 8)) eqn:E1; cbn [bind]; try discriminate. destruct (gindex d 10); cbn [bind]; try discriminate.
        destruct (orZero (readInt32 d 13)) eqn:E2; cbn [bind]; try discriminate. destruct (orZero (readInt32 d 21)); cbn [bind]; try discriminate.
        destruct (orZero (readInt32 d 25)); cbn [bind]; try discriminate. destruct (if _ && _ then extLoop _ _ _ _ _ _ else Ok []); cbn [bind]; try discriminate. intros X. injection X as <-.
        split; [exact (orZero16_range _ _ _ E1)|exact (orZero32_range _ _ _ E2)]. }
    split; (constructor; [..|constructor]); intros m M.
    - unfold fastfailRocket. kp.
    - unfold parseRocketRequest. apply keeps_bind; [apply H|]. intros o E _. destruct o as [h|]; [|kp]. destruct (R _ _ E) as (R1 & R2). kp.
    - unfold fastfailRocket. kp.
    - unfold parseRocketResponse. apply keeps_bind; [apply H|]. intros o E _. destruct o as [h|]; [|kp]. destruct (R _ _ E) as (R1 & R2). kp.
  Qed.
  Lemma kafka_good : pkgGood kafkaRequestParser /\ pkgGood kafkaResponseParser.
  Proof.
    assert (F1 : forall n m, good m -> keeps (fastfailKafka n m)) by (intros n m M; unfold fastfailKafka; kp).
    assert (F2 : forall n m, good m -> keeps (fastfailApi n m)) by (intros n m M; unfold fastfailApi; kp).
    assert (F3 : forall m, good m -> keeps (fastfailOther m)) by (intros m M; unfold fastfailOther; kp).
    assert (P1 : forall m, good m -> keeps (parseKafkaRequest m)) by (intros m M; unfold parseKafkaRequest; kp).
    assert (P2 : forall m, good m -> keeps (parseKafkaResponse m)) by (intros m M; unfold parseKafkaResponse; kp).
    assert (P3 : forall m, good m -> keeps (parseKafkaOther m)) by (intros m M; unfold parseKafkaOther; kp).
    assert (P4 : forall m, good m -> keeps (parseRequestFetch m)) by (intros m M; unfold parseRequestFetch, requestTopic, addTopic; cbv zeta; kp).
    assert (P5 : forall m, good m -> keeps (parseRequestProduce m)) by (intros m M; unfold parseRequestProduce, requestTopic, addTopic; cbv zeta; kp).
    assert (P6 : forall m, good m -> keeps (parseResponseFetch m)) by (intros m M; unfold parseResponseFetch, fetchTopics, partitionError, finishTopic, addTopic; cbv zeta; kp).
    assert (P7 : forall m, good m -> keeps (parseResponseProduce m)) by (intros m M; unfold parseResponseProduce, partitionError, finishTopic, addTopic; cbv zeta; kp).
    split; repeat (constructor; auto).
  Qed.
  Lemma dns_good : pkgGood (Pkg fastfailDns (parseTcp parseDnsRequest) []) /\ pkgGood (Pkg fastfailDns (parseTcp (parseDnsResponse ipOther ignore3)) []).
  Proof.
    assert (A1 : forall m n, good m -> keeps (readIpV4Answer ipOther m n)).
    { intros m n M. unfold readIpV4Answer. apply keeps_bind; [intros [? ?] _; split; exact I|]. intros [? ?] _ _. kp. }
    assert (U : forall m o, keeps (u16or0 m o)) by (intros m o z _; exact I).
    split; (constructor; [..|constructor]); intros m M.
    - unfold fastfailDns. kp.
    - unfold parseTcp, parseDnsRequest. apply keeps_bind; [apply U|]. intros id E1 _. apply keeps_bind; [apply U|]. intros n E2 _.
      apply u16_range in E1; [|apply M]. destruct (n =? 0); [kp|]. apply keeps_bind; [apply readQuery_good; kp|]. intros o _ G. kp.
    - unfold fastfailDns. kp.
    - unfold parseTcp, parseDnsResponse. apply keeps_bind; [apply U|]. intros id E1 _. apply keeps_bind; [apply U|]. intros n E2 _. cbv zeta.
      apply keeps_bind; [apply U|]. intros n1 E3 _. apply keeps_bind; [apply U|]. intros n2 E4 _.
      apply u16_range in E1; [|apply M]. apply u16_range in E2; [|apply M].
      assert (RC : 0 <= Z.land n 15 < 16) by (change 15 with (Z.ones 4); rewrite Z.land_ones by lia; apply Z.mod_pos_bound; lia).
      destruct (n1 =? 0); [kp|]. apply keeps_bind; [apply readQuery_good; kp|]. intros o _ G.
      destruct o as [[dm m1]|]; [|kp]. change (good (dm, m1)) in G. goods. apply keeps_bind; [apply A1; kp|]. intros [ip m2] _ G2. kp.
  Qed.
  Lemma generic_good : pkgGood (Pkg fastfailGeneric parseGeneric []).
  Proof. constructor; [..|constructor]; intros m M; [unfold fastfailGeneric|unfold parseGeneric]; kp. Qed.

  (** Every parser of the collector is good, and the one for DNS is the only one that looks at more than one message. *)
  Theorem C70_shipped_parsers p : In p (factory b64 clustering json ipOther ignore3) -> goodParser p /\ (pr_multi p = true -> pr_name p = "dns").
  Proof.
    intros F. destruct (C55_parser_labels clustering b64 json ipOther ignore3 p F) as (L1 & L2).
    assert (Q : exists multi rq rs, pkgGood rq /\ pkgGood rs /\ pr_request p = (fun d => parsePayload multi rq (newRequest d)) /\
      pr_response p = (fun d a => parsePayload multi rs (newResponse d a)) /\ (pr_multi p = true -> pr_name p = "dns")).
    { clear L1 L2. cbn [factory In] in F. repeat destruct F as [<- | F]; try destruct F.
      - exists false, (httpRequestParser b64 clustering), (httpResponseParser b64). destruct http_good. repeat (split; [assumption || reflexivity|]). discriminate.
      - exists false, kafkaRequestParser, kafkaResponseParser. destruct kafka_good. repeat (split; [assumption || reflexivity|]). discriminate.
      - exists false, mysqlRequestParser, mysqlResponseParser. destruct mysql_good. repeat (split; [assumption || reflexivity|]). discriminate.
      - exists true, redisRequestParser, redisResponseParser. destruct redis_good. repeat (split; [assumption || reflexivity|]). discriminate.
      - exists false, dubboRequestParser, dubboResponseParser. destruct dubbo_good. repeat (split; [assumption || reflexivity|]). discriminate.
      - exists false, (Pkg fastfailDns (parseTcp parseDnsRequest) []), (Pkg fastfailDns (parseTcp (parseDnsResponse ipOther ignore3)) []). destruct dns_good. repeat (split; [assumption || reflexivity|]). reflexivity.
      - exists false, (Pkg fastfailRocket (parseRocketRequest json) []), (Pkg fastfailRocket (parseRocketResponse json) []). destruct rocket_good. repeat (split; [assumption || reflexivity|]). discriminate.
      - exists false, (Pkg fastfailGeneric parseGeneric []), (Pkg fastfailGeneric parseGeneric []). pose proof generic_good. repeat (split; [assumption || reflexivity|]). discriminate. }
    destruct Q as (multi & rq & rs & G1 & G2 & E1 & E2 & MU). split; [|exact MU]. split.
    - intros d ok m D E. pose proof (L1 _ _ _ E) as P. split; [exact P|]. split; [apply P|]. rewrite E1 in E.
      assert (N : good (newRequest d)) by (split; [discriminate|exact D]). exact (proj1 (proj2 (payload_good multi rq _ G1 N _ E))).
    - intros d a ok m D (A1 & A2) E. pose proof (L2 _ _ _ _ A1 E) as P. split; [exact P|]. split; [apply P|]. rewrite E2 in E.
      assert (N : good (newResponse d a)) by (split; [exact (proj2 A2)|exact D]). exact (proj1 (proj2 (payload_good multi rs _ G2 N _ E))).
  Qed.
End Each.
Print Assumptions C70_shipped_parsers.
