(** C26, Kafka. *)
From Verif Require Import Base DetectProofs AttrModel LabelNames MsgModel ReaderSpec ReaderProofs ReaderProps TextModel TextSpec TextProofs TextProps HttpProofs RocketModel RocketProps KafkaModel KafkaSpec.
Open Scope string_scope. Open Scope list_scope. Open Scope Z_scope.

(** A request is of a known kind and version exactly when the table of the collector's api kinds says so. *)
Theorem C26_kafka_versions api ver : isValidVersion api ver = true <-> exists name mx, In (name, api, mx) apiKinds /\ 0 <= ver <= mx.
Proof.
  assert (A : forallb (fun p => existsb (fun q => (snd (fst q) =? fst p) && (snd q =? snd p)) apiKinds) kafkaApis = true) by (vm_compute; reflexivity).
  assert (B : forallb (fun q => match aget kafkaApis (snd (fst q)) with Some m => m =? snd q | None => false end) apiKinds = true) by (vm_compute; reflexivity).
  rewrite forallb_forall in A, B. unfold isValidVersion. split.
  - destruct (aget kafkaApis api) as [mx|] eqn:E; [|discriminate]. intros V. apply aget_in in E. specialize (A _ E). apply existsb_exists in A. destruct A as (((name & c) & m) & I & H). cbn [fst snd] in H.
    exists name, mx. split; [|lia]. replace c with api in I by lia. replace m with mx in I by lia. exact I.
  - intros (name & mx & I & V). specialize (B _ I). cbn [fst snd] in B. destruct (aget kafkaApis api) as [m|]; [|discriminate]. lia.
Qed.
Print Assumptions C26_kafka_versions.
Example C26_kafka_versions_example : In ("Produce", 0, 9) apiKinds /\ isValidVersion 0 9 = true /\ isValidVersion 0 10 = false /\ isValidVersion 52 0 = false.
Proof. split; [|vm_compute; tauto]. vm_compute. tauto. Qed.

(** ** Requests *)
Definition verdict (r : res ((bool * bool) * msg)) : res (bool * msg) := bind r (fun '((ok, _), m) => Ok (ok, m)).
Definition complete (f : msg -> res ((bool * bool) * msg)) : Prop := forall m ok c m', f m = Ok ((ok, c), m') -> c = true /\ (ok = false -> m' = m).
Lemma topic_complete compact off : complete (fun m => requestTopic m compact off).
Proof.
  intros m ok c m'. unfold requestTopic, orFail, addTopic. destruct (readArraySize (m_data m) off compact) as [[n o]| |]; [|intros E; injection E as <- <- <-; tauto|discriminate].
  destruct (0 <? n); [|intros E; injection E as <- <- <-; split; [reflexivity|discriminate]]. destruct (readString (m_data m) o compact) as [[t o2]| |]; [|intros E; injection E as <- <- <-; tauto|discriminate].
  destruct (formatUtf8 t) as [q| |]; cbn [bind]; try discriminate. intros E. injection E as <- <- <-. split; [reflexivity|discriminate].
Qed.
Lemma fetch_complete : complete parseRequestFetch.
Proof. intros m ok c m'. unfold parseRequestFetch. cbn zeta. apply topic_complete. Qed.
Lemma produce_complete : complete parseRequestProduce.
Proof.
  intros m ok c m'. unfold parseRequestProduce. cbn zeta. destruct (3 <=? attrInt m LKafkaVersion); [|apply topic_complete]. unfold orFail.
  destruct (readNullableString (m_data m) (m_off m) (9 <=? attrInt m LKafkaVersion)) as [[t o]| |]; [|intros E; injection E as <- <- <-; tauto|discriminate]. apply topic_complete.
Qed.
(** the children, in order; exactly one of them applies *)
Definition byApi (fetch produce : msg -> res ((bool * bool) * msg)) (m : msg) : res (bool * msg) :=
  if attrInt m LKafkaApi =? 1 then verdict (fetch m) else if attrInt m LKafkaApi =? 0 then verdict (produce m)
  else if attrInt m LKafkaApi <=? 1 then Ok (false, m) else Ok (true, m).
Lemma tree_eval n root fetch produce m m1 : complete fetch -> complete produce -> n <= zlen (m_data m) -> root m = Ok ((true, false), m1) ->
  parsePayload false (Pkg (fastfailKafka n) root [Pkg (fastfailApi 1) fetch []; Pkg (fastfailApi 0) produce []; Pkg fastfailOther parseKafkaOther []]) m = byApi fetch produce m1.
Proof.
  intros CF CP L R. unfold parsePayload. cbn [parseOneFrame]. unfold fastfailKafka. replace (zlen (m_data m) <? n) with false by lia. cbn [bind]. rewrite R. cbn [bind negb].
  unfold byApi, fastfailApi. cbn [bind]. destruct (attrInt m1 LKafkaApi =? 1) eqn:Q1; cbn [negb bind].
  - destruct (fetch m1) as [[[ok c] m2]| |] eqn:F; cbn [bind]; try reflexivity. destruct (CF _ _ _ _ F) as [-> U]. destruct ok; cbn [negb]; [reflexivity|]. specialize (U eq_refl). subst m2.
    cbn [bind]. replace (attrInt m1 LKafkaApi =? 0) with false by lia. cbn [negb bind]. unfold fastfailOther. replace (attrInt m1 LKafkaApi <=? 1) with true by lia. reflexivity.
  - destruct (attrInt m1 LKafkaApi =? 0) eqn:Q0; cbn [negb bind].
    + destruct (produce m1) as [[[ok c] m2]| |] eqn:F; cbn [bind]; try reflexivity. destruct (CP _ _ _ _ F) as [-> U]. destruct ok; cbn [negb]; [reflexivity|]. specialize (U eq_refl). subst m2.
      cbn [bind]. unfold fastfailOther. cbn [bind]. replace (attrInt m1 LKafkaApi <=? 1) with true by lia. reflexivity.
    + unfold fastfailOther. cbn [bind]. destruct (attrInt m1 LKafkaApi <=? 1); reflexivity.
Qed.
Lemma tree_refused n root ch m : zlen (m_data m) < n \/ (n <= zlen (m_data m) /\ exists c, root m = Ok ((false, c), m)) ->
  parsePayload false (Pkg (fastfailKafka n) root ch) m = Ok (false, m).
Proof.
  intros H. unfold parsePayload. cbn [parseOneFrame]. unfold fastfailKafka. destruct H as [H|[H [c R]]].
  - replace (zlen (m_data m) <? n) with true by lia. reflexivity.
  - replace (zlen (m_data m) <? n) with false by lia. cbn [bind]. rewrite R. reflexivity.
Qed.
Definition headed (api ver cid off : Z) (d : bytes) : msg :=
  addAttr (addAttr (addAttr (setOff (newRequest d) off) LKafkaApi (IV api)) LKafkaVersion (IV ver)) LKafkaCorrelationId (IV cid).
Definition int16 (z : Z) : Prop := - 2 ^ 15 <= z < 2 ^ 15.
Definition int32 (z : Z) : Prop := - 2 ^ 31 <= z < 2 ^ 31.
Lemma header_eval len api ver cid client body : int32 len -> int16 api -> int16 ver -> int32 cid -> zlen client < 2 ^ 15 ->
  let d := kafkaFrame len api ver cid (Some client) body in
  parseKafkaRequest (newRequest d) = Ok (if (8 <? len) && isValidVersion api ver && (0 <=? cid) then ((true, false), headed api ver cid (14 + zlen client) d) else ((false, true), newRequest d)).
Proof.
  intros IL IA IV IC LC d. pose proof (zlen_nonneg client) as NC. pose proof (zlen_nonneg body) as NB.
  assert (R0 : readInt32 d 0 = Ok (len, 4)) by exact (readInt32_at [] len (be16 api ++ be16 ver ++ be32 cid ++ encNullStr (Some client) ++ body) IL).
  assert (R4 : readInt16 d 4 = Ok (api, 6)) by exact (readInt16_at (be32 len) api (be16 ver ++ be32 cid ++ encNullStr (Some client) ++ body) IA).
  assert (R6 : readInt16 d 6 = Ok (ver, 8)) by exact (readInt16_at (be32 len ++ be16 api) ver (be32 cid ++ encNullStr (Some client) ++ body) IV).
  assert (R8 : readInt32 d 8 = Ok (cid, 12)) by exact (readInt32_at (be32 len ++ be16 api ++ be16 ver) cid (encNullStr (Some client) ++ body) IC).
  assert (R12 : readInt16 d 12 = Ok (zlen client, 14)).
  { unfold d, kafkaFrame, encNullStr. rewrite <- (app_assoc (be16 (zlen client))). exact (readInt16_at (be32 len ++ be16 api ++ be16 ver ++ be32 cid) (zlen client) (client ++ body) ltac:(lia)). }
  assert (LD : zlen d = 14 + zlen client + zlen body) by (unfold d, kafkaFrame, encNullStr, be16, be32; cbn [app]; rewrite !zlen_cons, zlen_app; lia).
  unfold parseKafkaRequest. cbn zeta. change (m_data (newRequest d)) with d. rewrite R0, R4, R6, R8, R12. cbn [orZero bind].
  destruct (len <=? 8) eqn:Q; [replace (8 <? len) with false by lia; reflexivity|]. replace (8 <? len) with true by lia. cbn [andb].
  destruct (isValidVersion api ver); cbn [negb andb]; [|reflexivity]. destruct (cid <? 0) eqn:Q2; [replace (0 <=? cid) with false by lia; reflexivity|]. replace (0 <=? cid) with true by lia.
  replace (zlen client <? 0) with false by lia. cbn [orb]. replace (zlen d <? zlen client + 14) with false by lia. unfold headed. replace (zlen client + 14) with (14 + zlen client) by lia. reflexivity.
Qed.
Lemma frame_split len api ver cid client body : exists p, kafkaFrame len api ver cid (Some client) body = p ++ body /\ zlen p = 14 + zlen client.
Proof.
  exists (be32 len ++ be16 api ++ be16 ver ++ be32 cid ++ encNullStr (Some client)). split; [unfold kafkaFrame; rewrite <- !app_assoc; reflexivity|].
  unfold encNullStr, be16, be32. cbn [app]. rewrite !zlen_cons. lia.
Qed.
Lemma topic_at m p n t rest : m_data m = p ++ topics n t rest -> 0 < n < 2 ^ 31 -> zlen t < 2 ^ 15 -> asciiText t ->
  requestTopic m false (zlen p) = Ok ((true, true), addAttr m LKafkaTopic (SV t)).
Proof.
  intros D N L A. unfold requestTopic, topics in *. rewrite D. destruct (C20_array_sizes p (encStr t ++ rest)) as [AS _]. rewrite AS by lia. replace (n <? -1) with false by lia. rewrite Z.max_l by lia. cbn [orFail].
  replace (0 <? n) with true by lia. rewrite (app_assoc p). replace (zlen p + 4) with (zlen (p ++ be32 n)) by (rewrite zlen_app; reflexivity).
  destruct (C20_strings (p ++ be32 n) rest) as [ST _]. rewrite ST by exact L. cbn [orFail]. unfold addTopic. rewrite formatUtf8_ascii by exact A. reflexivity.
Qed.
(** The frame of a supported request; the client id is present. *)
Definition goodFrame (len api ver cid : Z) (client : bytes) : Prop :=
  8 < len < 2 ^ 31 /\ int16 api /\ isValidVersion api ver = true /\ 0 <= cid < 2 ^ 31 /\ zlen client < 2 ^ 15.
Lemma valid_version api ver : isValidVersion api ver = true -> 0 <= api <= 61 /\ 0 <= ver <= 12.
Proof.
  unfold isValidVersion. destruct (aget kafkaApis api) as [mx|] eqn:E; [|discriminate]. intros V.
  assert (F : forallb (fun p => (0 <=? fst p) && (fst p <=? 61) && (snd p <=? 12)) kafkaApis = true) by (vm_compute; reflexivity). rewrite forallb_forall in F.
  apply aget_in in E. specialize (F _ E). cbn [fst snd] in F. lia.
Qed.
Lemma request_by_api len api ver cid client body : goodFrame len api ver cid client -> let d := kafkaFrame len api ver cid (Some client) body in
  kafkaRequest d = byApi parseRequestFetch parseRequestProduce (headed api ver cid (14 + zlen client) d).
Proof.
  intros (GL & GA & GV & GC & GN) d. pose proof (valid_version api ver GV). unfold kafkaRequest, kafkaRequestParser. apply tree_eval; [exact fetch_complete|exact produce_complete| |].
  - change (m_data (newRequest d)) with d. destruct (frame_split len api ver cid client body) as (p & E & LP). unfold d. rewrite E, zlen_app. pose proof (zlen_nonneg client). pose proof (zlen_nonneg body). lia.
  - unfold d. rewrite header_eval; unfold int16, int32 in *; try lia. rewrite GV. replace (8 <? len) with true by lia. replace (0 <=? cid) with true by lia. reflexivity.
Qed.
Definition identity (api ver cid : Z) : list (string * aval) := [(LKafkaApi, IV api); (LKafkaVersion, IV ver); (LKafkaCorrelationId, IV cid)].
(** A fetch request below version 12 is labelled with its identity and its first topic. *)
Theorem C26_kafka_fetch len ver cid client h n topic rest : goodFrame len FETCH ver cid client -> ver < 12 ->
  zlen h = fetchFixed ver -> 0 < n < 2 ^ 31 -> zlen topic < 2 ^ 15 -> asciiText topic ->
  exists m, kafkaRequest (kafkaFrame len FETCH ver cid (Some client) (h ++ topics n topic rest)) = Ok (true, m) /\
    m_attrs m = identity FETCH ver cid ++ [(LKafkaTopic, SV topic)].
Proof.
  intros G V LH N LT A. rewrite request_by_api by exact G. set (m := headed _ _ _ _ _). unfold byApi. change (attrInt m LKafkaApi) with 1. change (1 =? 1) with true. cbn iota.
  destruct (frame_split len FETCH ver cid client (h ++ topics n topic rest)) as (p & E & LP).
  unfold parseRequestFetch. change (attrInt m LKafkaVersion) with ver. change (m_off m) with (14 + zlen client). cbn zeta.
  replace (12 <=? ver) with false by lia.
  match goal with |- context [requestTopic m false ?o] => replace o with (zlen (p ++ h)) by (rewrite zlen_app, LP, LH; unfold fetchFixed; destruct (3 <=? ver), (4 <=? ver), (7 <=? ver); lia) end.
  rewrite (topic_at m (p ++ h) n topic rest); [|change (m_data m) with (kafkaFrame len FETCH ver cid (Some client) (h ++ topics n topic rest)); rewrite E; apply app_assoc|exact N|exact LT|exact A].
  eexists. split; [reflexivity|reflexivity].
Qed.
Print Assumptions C26_kafka_fetch.
(** So is a produce request below version 9. *)
Theorem C26_kafka_produce len ver cid client txn acks n topic rest : goodFrame len PRODUCE ver cid client -> ver < 9 ->
  (forall t, txn = Some t -> zlen t < 2 ^ 15) -> zlen acks = 6 -> 0 < n < 2 ^ 31 -> zlen topic < 2 ^ 15 -> asciiText topic ->
  exists m, kafkaRequest (kafkaFrame len PRODUCE ver cid (Some client) (produceHead ver txn acks ++ topics n topic rest)) = Ok (true, m) /\
    m_attrs m = identity PRODUCE ver cid ++ [(LKafkaTopic, SV topic)].
Proof.
  intros G V TX LH N LT A. rewrite request_by_api by exact G. set (m := headed _ _ _ _ _). unfold byApi. change (attrInt m LKafkaApi) with 0. change (0 =? 1) with false. change (0 =? 0) with true. cbn iota.
  destruct (frame_split len PRODUCE ver cid client (produceHead ver txn acks ++ topics n topic rest)) as (p & E & LP).
  unfold parseRequestProduce. change (attrInt m LKafkaVersion) with ver. change (m_off m) with (14 + zlen client). cbn zeta. replace (9 <=? ver) with false by lia.
  assert (D : m_data m = p ++ produceHead ver txn acks ++ topics n topic rest) by (exact E). rewrite <- LP. unfold produceHead in D. destruct (3 <=? ver).
  - destruct (C20_strings p (acks ++ topics n topic rest)) as (_ & NS & _). specialize (NS txn TX).
    replace (p ++ encNullStr txn ++ acks ++ topics n topic rest) with (m_data m) in NS by (rewrite D, <- !app_assoc; reflexivity). rewrite NS. cbn [orFail].
    replace (zlen p + zlen (encNullStr txn) + 6) with (zlen (p ++ encNullStr txn ++ acks)) by (rewrite !zlen_app; lia).
    rewrite (topic_at m (p ++ encNullStr txn ++ acks) n topic rest); [|rewrite D, <- !app_assoc; reflexivity|exact N|exact LT|exact A]. eexists. split; reflexivity.
  - cbn [app] in D. replace (zlen p + 6) with (zlen (p ++ acks)) by (rewrite zlen_app; lia).
    rewrite (topic_at m (p ++ acks) n topic rest); [|rewrite D, <- !app_assoc; reflexivity|exact N|exact LT|exact A]. eexists. split; reflexivity.
Qed.
Print Assumptions C26_kafka_produce.
(** Every other request carries its identity alone. *)
Theorem C26_kafka_other len api ver cid client body : goodFrame len api ver cid client -> api <> FETCH -> api <> PRODUCE ->
  exists m, kafkaRequest (kafkaFrame len api ver cid (Some client) body) = Ok (true, m) /\ m_attrs m = identity api ver cid.
Proof.
  intros G NF NP. unfold FETCH, PRODUCE in *. rewrite request_by_api by exact G. destruct G as (_ & _ & GV & _). pose proof (valid_version api ver GV) as VR. set (m := headed _ _ _ _ _). unfold byApi. change (attrInt m LKafkaApi) with api.
  replace (api =? 1) with false by lia. replace (api =? 0) with false by lia. replace (api <=? 1) with false by lia. eexists. split; reflexivity.
Qed.
Print Assumptions C26_kafka_other.
Example C26_kafka_ex :
  (exists m, kafkaRequest (kafkaFrame 60 1 11 7 (Some (bs "app")) (repeat 0 25 ++ topics 1 (bs "orders") (bs "tail"))) = Ok (true, m) /\ aget (m_attrs m) LKafkaTopic = Some (SV (bs "orders"))) /\
  (exists m, kafkaRequest (kafkaFrame 60 0 7 7 (Some (bs "app")) (produceHead 7 None [255; 255; 0; 0; 0; 9] ++ topics 1 (bs "orders") (bs "tail"))) = Ok (true, m) /\ aget (m_attrs m) LKafkaTopic = Some (SV (bs "orders"))).
Proof. split; eexists; split; vm_compute; reflexivity. Qed.
Lemma orZero16 d o : exists v, orZero (readInt16 d o) = Ok v.
Proof. destruct (C20_in_bounds d o) as (_ & [NP _] & _). destruct (readInt16 d o) as [[v o']| |]; [exists v; reflexivity|exists 0; reflexivity|congruence]. Qed.
Lemma orZero32 d o : exists v, orZero (readInt32 d o) = Ok v.
Proof. destruct (C20_in_bounds d o) as (_ & _ & [NP _] & _). destruct (readInt32 d o) as [[v o']| |]; [exists v; reflexivity|exists 0; reflexivity|congruence]. Qed.
Lemma addTopic_total m t : exists m', addTopic m t = Ok m'.
Proof. unfold addTopic. destruct (formatUtf8_prefix t) as (q & r & -> & _). eexists. reflexivity. Qed.
Lemma topic_total m compact off : requestTopic m compact off <> Panic /\ requestTopic m compact off <> Err.
Proof.
  unfold requestTopic, orFail. destruct (C20_in_bounds (m_data m) off) as (_ & _ & _ & _ & _ & F & _). destruct (F compact) as ([NP _] & _ & _). destruct (readArraySize (m_data m) off compact) as [[n o]| |]; [|split; discriminate|congruence].
  destruct (0 <? n); [|split; discriminate]. destruct (C20_in_bounds (m_data m) o) as (_ & _ & _ & _ & _ & F2 & _). destruct (F2 compact) as (_ & [NP2 _] & _). destruct (readString (m_data m) o compact) as [[t o2]| |]; [|split; discriminate|congruence].
  destruct (addTopic_total m t) as (m' & ->). split; discriminate.
Qed.
Lemma not_stuck {A} (r : res A) : r <> Panic /\ r <> Err -> exists a, r = Ok a.
Proof. intros [P E]. destruct r as [a| |]; [exists a; reflexivity|congruence|congruence]. Qed.
(** Every payload gets a verdict; what is accepted has a supported kind and version, what is refused in its header is not labelled. *)
Theorem C26_kafka_request_total d : exists ok m, kafkaRequest d = Ok (ok, m) /\
  (ok = true -> exists api ver cid, isValidVersion api ver = true /\ 0 <= cid /\ aget (m_attrs m) LKafkaApi = Some (IV api) /\ aget (m_attrs m) LKafkaVersion = Some (IV ver) /\
     aget (m_attrs m) LKafkaCorrelationId = Some (IV cid)).
Proof.
  unfold kafkaRequest, kafkaRequestParser. destruct (Z_lt_ge_dec (zlen d) 12) as [S|S]; [exists false; eexists; split; [apply tree_refused; left; exact S|discriminate]|].
  assert (ROOT : (exists c, parseKafkaRequest (newRequest d) = Ok ((false, c), newRequest d)) \/ exists api ver cid off, isValidVersion api ver = true /\ 0 <= cid /\ parseKafkaRequest (newRequest d) = Ok ((true, false), headed api ver cid off d)).
  { unfold parseKafkaRequest. cbn zeta. change (m_data (newRequest d)) with d. destruct (orZero32 d 0) as (pl & ->). destruct (orZero16 d 4) as (api & ->). destruct (orZero16 d 6) as (ver & ->). destruct (orZero32 d 8) as (cid & ->). destruct (orZero16 d 12) as (cl & ->). cbn [bind].
    destruct (pl <=? 8); [left; eexists; reflexivity|]. destruct (isValidVersion api ver) eqn:V; cbn [negb]; [|left; eexists; reflexivity]. destruct ((cid <? 0) || (cl <? 0)) eqn:Q; [left; eexists; reflexivity|]. destruct (zlen d <? cl + 14); [left; eexists; reflexivity|].
    right. exists api, ver, cid, (cl + 14). split; [exact V|]. split; [lia|reflexivity]. }
  destruct ROOT as [R|(api & ver & cid & off & V & C & R)]; [exists false; eexists; split; [apply tree_refused; right; split; [change (m_data (newRequest d)) with d; lia|exact R]|discriminate]|].
  rewrite (tree_eval 12 parseKafkaRequest parseRequestFetch parseRequestProduce (newRequest d) (headed api ver cid off d) fetch_complete produce_complete ltac:(change (m_data (newRequest d)) with d; lia) R).
  pose (m := headed api ver cid off d). fold m.
  assert (RT : forall f, complete f -> (forall ok c m', f m = Ok ((ok, c), m') -> m' = m \/ exists t, m' = addAttr m LKafkaTopic t) -> f m <> Panic /\ f m <> Err ->
    exists ok m', verdict (f m) = Ok (ok, m') /\ (ok = true -> exists api0 ver0 cid0, isValidVersion api0 ver0 = true /\ 0 <= cid0 /\ aget (m_attrs m') LKafkaApi = Some (IV api0) /\ aget (m_attrs m') LKafkaVersion = Some (IV ver0) /\ aget (m_attrs m') LKafkaCorrelationId = Some (IV cid0))).
  { intros f CF SH NS. apply not_stuck in NS. destruct NS as ([[ok c] m'] & E). rewrite E. cbn [verdict bind]. exists ok, m'. split; [reflexivity|]. intros _. exists api, ver, cid. split; [exact V|]. split; [exact C|].
    destruct (SH ok c m' E) as [-> | (t & ->)]; split; reflexivity || (split; reflexivity). }
  assert (TOP : forall compact o ok c m', requestTopic m compact o = Ok ((ok, c), m') -> m' = m \/ exists t, m' = addAttr m LKafkaTopic t).
  { intros compact o ok c m'. unfold requestTopic, orFail. destruct (readArraySize (m_data m) o compact) as [[n o1]| |]; [|intros E; injection E as _ _ <-; left; reflexivity|discriminate].
    destruct (0 <? n); [|intros E; injection E as _ _ <-; left; reflexivity]. destruct (readString (m_data m) o1 compact) as [[t o2]| |]; [|intros E; injection E as _ _ <-; left; reflexivity|discriminate].
    unfold addTopic. destruct (formatUtf8 t) as [q| |]; cbn [bind]; try discriminate. intros E. injection E as _ _ <-. right. eexists. reflexivity. }
  unfold byApi. destruct (attrInt m LKafkaApi =? 1).
  - apply RT; [exact fetch_complete|intros ok c m'; unfold parseRequestFetch; cbn zeta; apply TOP|unfold parseRequestFetch; cbn zeta; apply topic_total].
  - destruct (attrInt m LKafkaApi =? 0).
    + apply RT; [exact produce_complete| |].
      * intros ok c m'. unfold parseRequestProduce. cbn zeta. destruct (3 <=? attrInt m LKafkaVersion); [|apply TOP]. unfold orFail. destruct (readNullableString (m_data m) (m_off m) (9 <=? attrInt m LKafkaVersion)) as [[t o]| |]; [apply TOP|intros E; injection E as _ _ <-; left; reflexivity|discriminate].
      * unfold parseRequestProduce. cbn zeta. destruct (3 <=? attrInt m LKafkaVersion); [|apply topic_total]. unfold orFail. destruct (C20_in_bounds (m_data m) (m_off m)) as (_ & _ & _ & _ & _ & F & _). destruct (F (9 <=? attrInt m LKafkaVersion)) as (_ & _ & [NP _]).
        destruct (readNullableString (m_data m) (m_off m) (9 <=? attrInt m LKafkaVersion)) as [[t o]| |]; [apply topic_total|split; discriminate|congruence].
    + destruct (attrInt m LKafkaApi <=? 1); [exists false; eexists; split; [reflexivity|discriminate]|]. exists true. eexists. split; [reflexivity|]. intros _. exists api, ver, cid. split; [exact V|]. split; [exact C|]. split; [reflexivity|]. split; reflexivity.
Qed.
Print Assumptions C26_kafka_request_total.
(** A request whose client gives no name is not recognised. *)
Theorem C26_kafka_nameless_client_refuted len api ver cid body : 8 < len < 2 ^ 31 -> int16 api -> isValidVersion api ver = true -> 0 <= cid < 2 ^ 31 ->
  exists m, kafkaRequest (kafkaFrame len api ver cid None body) = Ok (false, m).
Proof.
  intros IL IA V IC. pose proof (valid_version api ver V). set (d := kafkaFrame _ _ _ _ _ _). unfold int16 in IA.
  assert (R0 : readInt32 d 0 = Ok (len, 4)) by exact (readInt32_at [] len (be16 api ++ be16 ver ++ be32 cid ++ encNullStr None ++ body) ltac:(lia)).
  assert (R4 : readInt16 d 4 = Ok (api, 6)) by exact (readInt16_at (be32 len) api (be16 ver ++ be32 cid ++ encNullStr None ++ body) ltac:(lia)).
  assert (R6 : readInt16 d 6 = Ok (ver, 8)) by exact (readInt16_at (be32 len ++ be16 api) ver (be32 cid ++ encNullStr None ++ body) ltac:(lia)).
  assert (R8 : readInt32 d 8 = Ok (cid, 12)) by exact (readInt32_at (be32 len ++ be16 api ++ be16 ver) cid (encNullStr None ++ body) ltac:(lia)).
  assert (R12 : readInt16 d 12 = Ok (-1, 14)) by exact (readInt16_at (be32 len ++ be16 api ++ be16 ver ++ be32 cid) (-1) body ltac:(lia)).
  eexists. unfold kafkaRequest, kafkaRequestParser. apply tree_refused. right. split.
  - change (m_data (newRequest d)) with d. unfold d, kafkaFrame, encNullStr, be16, be32. cbn [app]. rewrite !zlen_cons. pose proof (zlen_nonneg body). lia.
  - exists true. unfold parseKafkaRequest. cbn zeta. change (m_data (newRequest d)) with d. rewrite R0, R4, R6, R8, R12. cbn [orZero bind]. replace (len <=? 8) with false by lia. rewrite V. cbn [negb]. rewrite orb_true_r. reflexivity.
Qed.
Print Assumptions C26_kafka_nameless_client_refuted.
(** The tagged fields of the flexible request header are not skipped: a current fetch request gets a mangled topic. *)
Theorem C26_kafka_flexible_topic_refuted : exists m t,
  kafkaRequest (flexibleFrame 60 FETCH 12 7 (Some (bs "app")) (repeat 0 25 ++ leb 2 ++ encCompactStr (bs "orders") ++ bs "tail")) = Ok (true, m) /\
  aget (m_attrs m) LKafkaTopic = t /\ t <> Some (SV (bs "orders")).
Proof. eexists. eexists. split; [vm_compute; reflexivity|]. split; [vm_compute; reflexivity|]. discriminate. Qed.
Print Assumptions C26_kafka_flexible_topic_refuted.

(** ** Responses *)
Lemma finish_complete t e m ok c m' : finishTopic m t e = Ok ((ok, c), m') -> c = true /\ ok = true /\ exists q, m' = addAttr (addAttr m LKafkaTopic (SV q)) LKafkaErrorCode (IV e).
Proof. unfold finishTopic, addTopic. destruct (formatUtf8 t) as [q| |]; cbn [bind]; try discriminate. intros E. injection E as <- <- <-. split; [reflexivity|]. split; [reflexivity|]. exists q. reflexivity. Qed.
(** what a response may do to the message: nothing, or the code, or the topic and the code *)
Definition answered (m m' : msg) : Prop := exists e, m' = addAttr m LKafkaErrorCode (IV e) \/ exists q, m' = addAttr (addAttr m LKafkaTopic (SV q)) LKafkaErrorCode (IV e).
Definition outcome (r : res ((bool * bool) * msg)) (m : msg) : Prop := exists ok m', r = Ok ((ok, true), m') /\ ((ok = false /\ m' = m) \/ (ok = true /\ answered m m')).
Lemma out_fail m : outcome (Ok ((false, true), m)) m.
Proof. exists false, m. split; [reflexivity|]. left. split; reflexivity. Qed.
Lemma out_finish m t e : outcome (finishTopic m t e) m.
Proof. unfold finishTopic, addTopic. destruct (formatUtf8_prefix t) as (q & r & -> & _). cbn [bind]. exists true. eexists. split; [reflexivity|]. right. split; [reflexivity|]. exists e. right. exists q. reflexivity. Qed.
Lemma out_none m e : outcome (Ok ((true, true), addAttr m LKafkaErrorCode (IV e))) m.
Proof. exists true. eexists. split; [reflexivity|]. right. split; [reflexivity|]. exists e. left. reflexivity. Qed.
Lemma out_size d off compact m k : (forall n o, outcome (k (n, o)) m) -> outcome (orFail (readArraySize d off compact) m k) m.
Proof. intros K. destruct (C20_in_bounds d off) as (_ & _ & _ & _ & _ & F & _). destruct (F compact) as ([NP _] & _ & _). destruct (readArraySize d off compact) as [[n o]| |]; cbn [orFail]; [apply K|apply out_fail|congruence]. Qed.
Lemma out_string d off compact m k : (forall n o, outcome (k (n, o)) m) -> outcome (orFail (readString d off compact) m k) m.
Proof. intros K. destruct (C20_in_bounds d off) as (_ & _ & _ & _ & _ & F & _). destruct (F compact) as (_ & [NP _] & _). destruct (readString d off compact) as [[n o]| |]; cbn [orFail]; [apply K|apply out_fail|congruence]. Qed.
Lemma out_16 d off m k : (forall n o, outcome (k (n, o)) m) -> outcome (orFail (readInt16 d off) m k) m.
Proof. intros K. destruct (C20_in_bounds d off) as (_ & [NP _] & _). destruct (readInt16 d off) as [[n o]| |]; cbn [orFail]; [apply K|apply out_fail|congruence]. Qed.
Lemma out_partition m compact off t e : outcome (partitionError m compact off t e) m.
Proof. unfold partitionError. apply out_size. intros n o. destruct (0 <? n); [|apply out_finish]. apply out_16. intros c o2. apply out_finish. Qed.
Lemma out_topics m ver compact off e : outcome (fetchTopics m ver compact off e) m.
Proof. unfold fetchTopics. apply out_size. intros n o. destruct (0 <? n); [|apply out_none]. apply out_string. intros t o2. destruct (ver <? 7); [apply out_partition|apply out_finish]. Qed.
Lemma out_fetch m : outcome (parseResponseFetch m) m.
Proof. unfold parseResponseFetch. cbn zeta. destruct (7 <=? attrInt m LKafkaVersion); [|apply out_topics]. apply out_16. intros c o. apply out_topics. Qed.
Lemma out_produce m : outcome (parseResponseProduce m) m.
Proof. unfold parseResponseProduce. cbn zeta. apply out_size. intros n o. destruct (0 <? n); [|apply out_none]. apply out_string. intros t o2. apply out_partition. Qed.
Lemma outcome_complete f : (forall m, outcome (f m) m) -> complete f.
Proof. intros O m ok c m' E. destruct (O m) as (ok' & m2 & E2 & H). rewrite E in E2. injection E2 as -> -> ->. split; [reflexivity|]. intros ->. destruct H as [[_ H]|[H _]]; [exact H|discriminate]. Qed.
(** an answer that repeats the number of the request *)
Definition answers (len cid : Z) (attrs : list (string * aval)) : Prop := 4 < len < 2 ^ 31 /\ int32 cid /\ aget attrs LKafkaCorrelationId = Some (IV cid).
Lemma answer_root len cid body attrs : answers len cid attrs -> let d := kafkaAnswer len cid body in
  kafkaResponse d attrs = byApi parseResponseFetch parseResponseProduce (setOff (newResponse d attrs) 8).
Proof.
  intros (L & C & A) d. unfold kafkaResponse, kafkaResponseParser. pose proof (zlen_nonneg body). unfold int32 in C.
  apply tree_eval; [apply outcome_complete; exact out_fetch|apply outcome_complete; exact out_produce| |].
  - change (m_data (newResponse d attrs)) with d. unfold d, kafkaAnswer, be32. cbn [app]. rewrite !zlen_cons. lia.
  - unfold parseKafkaResponse. change (m_data (newResponse d attrs)) with d.
    assert (R0 : readInt32 d 0 = Ok (len, 4)) by exact (readInt32_at [] len (be32 cid ++ body) ltac:(lia)).
    assert (R4 : readInt32 d 4 = Ok (cid, 8)) by exact (readInt32_at (be32 len) cid body ltac:(lia)).
    rewrite R0, R4. cbn [orZero bind]. replace (len <=? 4) with false by lia. unfold hasAttr, attrInt, ahas. cbn [newResponse m_attrs]. rewrite A. cbn [asInt negb orb]. rewrite Z.eqb_refl. reflexivity.
Qed.
Lemma finish_ascii m t e : asciiText t -> finishTopic m t e = Ok ((true, true), addAttr (addAttr m LKafkaTopic (SV t)) LKafkaErrorCode (IV e)).
Proof. intros A. unfold finishTopic, addTopic. rewrite formatUtf8_ascii by exact A. reflexivity. Qed.
Lemma size_at p n s : 0 < n < 2 ^ 31 -> readArraySize (p ++ be32 n ++ s) (zlen p) false = Ok (n, zlen (p ++ be32 n)).
Proof. intros N. destruct (C20_array_sizes p s) as [AS _]. rewrite AS by lia. replace (n <? -1) with false by lia. rewrite Z.max_l by lia. rewrite zlen_app. reflexivity. Qed.
Lemma string_at p t s : zlen t < 2 ^ 15 -> readString (p ++ encStr t ++ s) (zlen p) false = Ok (t, zlen (p ++ encStr t)).
Proof. intros L. destruct (C20_strings p s) as [ST _]. rewrite ST by exact L. rewrite zlen_app. reflexivity. Qed.
Lemma partition_at m p pn ix err rest t e0 : m_data m = p ++ partitions pn ix err rest -> 0 < pn < 2 ^ 31 -> zlen ix = 4 -> int16 err -> asciiText t ->
  partitionError m false (zlen p) t e0 = Ok ((true, true), addAttr (addAttr m LKafkaTopic (SV t)) LKafkaErrorCode (IV err)).
Proof.
  intros D N LI IE A. unfold partitionError. rewrite D. unfold partitions. rewrite size_at by exact N. cbn [orFail]. replace (0 <? pn) with true by lia.
  replace (zlen (p ++ be32 pn) + 4) with (zlen (p ++ be32 pn ++ ix)) by (rewrite !zlen_app, LI; lia). replace (p ++ be32 pn ++ ix ++ be16 err ++ rest) with ((p ++ be32 pn ++ ix) ++ be16 err ++ rest) by (rewrite <- !app_assoc; reflexivity).
  rewrite readInt16_at by exact IE. cbn [orFail]. apply finish_ascii. exact A.
Qed.
Lemma topics_split p n t s : p ++ topics n t s = (p ++ be32 n) ++ encStr t ++ s /\ p ++ topics n t s = ((p ++ be32 n) ++ encStr t) ++ s.
Proof. unfold topics. rewrite <- !app_assoc. split; reflexivity. Qed.
(** The labels of an answered fetch or produce. *)
Definition answerLabels (attrs : list (string * aval)) (m : msg) (topic : bytes) (err : Z) : Prop :=
  aget (m_attrs m) LKafkaTopic = Some (SV topic) /\ aget (m_attrs m) LKafkaErrorCode = Some (IV err) /\
  forall k, k <> LKafkaTopic -> k <> LKafkaErrorCode -> aget (m_attrs m) k = aget attrs k.
Lemma labels_of attrs d o t e : answerLabels attrs (addAttr (addAttr (setOff (newResponse d attrs) o) LKafkaTopic (SV t)) LKafkaErrorCode (IV e)) t e.
Proof. split; [labels; reflexivity|]. split; [labels; reflexivity|]. intros k K1 K2. cbn [addAttr setOff newResponse m_attrs]. rewrite !aget_aset_other by congruence. reflexivity. Qed.
(** The answer to a produce request below version 9 records the topic and the error code of its first partition. *)
Theorem C26_kafka_produce_answer len cid ver attrs n topic pn index err rest : answers len cid attrs ->
  aget attrs LKafkaApi = Some (IV PRODUCE) -> aget attrs LKafkaVersion = Some (IV ver) -> ver < 9 ->
  0 < n < 2 ^ 31 -> zlen topic < 2 ^ 15 -> asciiText topic -> 0 < pn < 2 ^ 31 -> zlen index = 4 -> int16 err ->
  exists m, kafkaResponse (kafkaAnswer len cid (topics n topic (partitions pn index err rest))) attrs = Ok (true, m) /\ answerLabels attrs m topic err.
Proof.
  intros A AA AV V N LT AT PN LI IE. rewrite answer_root by exact A. set (d := kafkaAnswer _ _ _). set (m := setOff (newResponse d attrs) 8). unfold byApi.
  assert (E1 : attrInt m LKafkaApi = 0) by (unfold attrInt; cbn [m setOff newResponse m_attrs]; rewrite AA; reflexivity). assert (E2 : attrInt m LKafkaVersion = ver) by (unfold attrInt; cbn [m setOff newResponse m_attrs]; rewrite AV; reflexivity).
  rewrite E1. change (0 =? 1) with false. change (0 =? 0) with true. cbn iota. unfold parseResponseProduce. rewrite E2. cbn zeta. replace (9 <=? ver) with false by lia.
  pose (p := be32 len ++ be32 cid).
  assert (D : m_data m = p ++ topics n topic (partitions pn index err rest)) by (unfold p; rewrite <- app_assoc; reflexivity). change (m_off m) with (zlen p).
  rewrite D. unfold topics at 1. rewrite size_at by exact N. cbn [orFail]. replace (0 <? n) with true by lia.
  destruct (topics_split p n topic (partitions pn index err rest)) as [S1 S2]. rewrite S1. rewrite string_at by exact LT. cbn [orFail].
  rewrite (partition_at m ((p ++ be32 n) ++ encStr topic) pn index err rest topic 0); [|rewrite D; exact S2|exact PN|exact LI|exact IE|exact AT].
  eexists. split; [reflexivity|]. apply labels_of.
Qed.
Print Assumptions C26_kafka_produce_answer.
(** The answer to a fetch request below version 12: the code of the whole answer since version 7, else that of the first partition. *)
Theorem C26_kafka_fetch_answer len cid ver attrs th ss err n topic pn index perr rest : answers len cid attrs ->
  aget attrs LKafkaApi = Some (IV FETCH) -> aget attrs LKafkaVersion = Some (IV ver) -> 0 <= ver < 12 -> zlen th = 4 -> zlen ss = 4 -> int16 err ->
  0 < n < 2 ^ 31 -> zlen topic < 2 ^ 15 -> asciiText topic -> 0 < pn < 2 ^ 31 -> zlen index = 4 -> int16 perr ->
  exists m, kafkaResponse (kafkaAnswer len cid (fetchAnswerHead ver th err ss ++ topics n topic (partitions pn index perr rest))) attrs = Ok (true, m) /\
    answerLabels attrs m topic (if 7 <=? ver then err else perr).
Proof.
  intros A AA AV V LTH LSS IER N LT AT PN LI IE. rewrite answer_root by exact A. set (d := kafkaAnswer _ _ _). set (m := setOff (newResponse d attrs) 8). unfold byApi.
  assert (E1 : attrInt m LKafkaApi = 1) by (unfold attrInt; cbn [m setOff newResponse m_attrs]; rewrite AA; reflexivity). assert (E2 : attrInt m LKafkaVersion = ver) by (unfold attrInt; cbn [m setOff newResponse m_attrs]; rewrite AV; reflexivity).
  rewrite E1. change (1 =? 1) with true. cbn iota. unfold parseResponseFetch. rewrite E2. cbn zeta. replace (12 <=? ver) with false by lia.
  pose (h := be32 len ++ be32 cid).
  assert (D : m_data m = h ++ fetchAnswerHead ver th err ss ++ topics n topic (partitions pn index perr rest)) by (unfold h; rewrite <- app_assoc; reflexivity). change (m_off m) with (zlen h).
  pose (p := h ++ fetchAnswerHead ver th err ss).
  assert (DP : m_data m = p ++ topics n topic (partitions pn index perr rest)) by (unfold p; rewrite D, <- app_assoc; reflexivity).
  assert (FT : forall e, fetchTopics m ver false (zlen p) e = Ok ((true, true), addAttr (addAttr m LKafkaTopic (SV topic)) LKafkaErrorCode (IV (if 7 <=? ver then e else perr)))).
  { intros e. unfold fetchTopics. rewrite DP. unfold topics at 1. rewrite size_at by exact N. cbn [orFail]. replace (0 <? n) with true by lia.
    destruct (topics_split p n topic (partitions pn index perr rest)) as [S1 S2]. rewrite S1. rewrite string_at by exact LT. cbn [orFail]. destruct (ver <? 7) eqn:Q.
    - replace (7 <=? ver) with false by lia. apply (partition_at m ((p ++ be32 n) ++ encStr topic) pn index perr rest topic e); [rewrite DP; exact S2|exact PN|exact LI|exact IE|exact AT].
    - replace (7 <=? ver) with true by lia. apply finish_ascii. exact AT. }
  destruct (7 <=? ver) eqn:Q7.
  - replace (1 <=? ver) with true by lia. unfold fetchAnswerHead in D. rewrite Q7 in D. replace (1 <=? ver) with true in D by lia.
    assert (R : readInt16 (m_data m) (zlen h + 4) = Ok (err, zlen h + 4 + 2)).
    { rewrite D. replace (zlen h + 4) with (zlen (h ++ th)) by (rewrite zlen_app; lia). replace (h ++ (th ++ be16 err ++ ss) ++ topics n topic (partitions pn index perr rest)) with ((h ++ th) ++ be16 err ++ ss ++ topics n topic (partitions pn index perr rest)) by (rewrite <- !app_assoc; reflexivity). apply readInt16_at. exact IER. }
    rewrite R. cbn [orFail]. replace (zlen h + 4 + 2 + 4) with (zlen p) by (unfold p, fetchAnswerHead; rewrite Q7; replace (1 <=? ver) with true by lia; rewrite !zlen_app; change (zlen (be16 err)) with 2; lia). rewrite FT. eexists. split; [reflexivity|]. apply labels_of.
  - replace (if 1 <=? ver then zlen h + 4 else zlen h) with (zlen p) by (unfold p, fetchAnswerHead; rewrite Q7, app_nil_r, zlen_app; destruct (1 <=? ver); rewrite ?zlen_nil; lia).
    rewrite FT. eexists. split; [reflexivity|]. apply labels_of.
Qed.
Print Assumptions C26_kafka_fetch_answer.
Example C26_kafka_answer_ex : exists m, kafkaResponse (kafkaAnswer 40 7 (topics 1 (bs "orders") (partitions 1 [0; 0; 0; 0] 3 (bs "tail")))) (identity PRODUCE 7 7) = Ok (true, m) /\
  m_attrs m = identity PRODUCE 7 7 ++ [(LKafkaTopic, SV (bs "orders")); (LKafkaErrorCode, IV 3)].
Proof. eexists. split; vm_compute; reflexivity. Qed.
(** An answer with another number, or to no request, is refused without a trace. *)
Theorem C26_kafka_answer_of_other_request len cid body attrs : int32 len -> int32 cid -> aget attrs LKafkaCorrelationId <> Some (IV cid) ->
  (forall v, aget attrs LKafkaCorrelationId = Some v -> exists z, v = IV z) ->
  let d := kafkaAnswer len cid body in kafkaResponse d attrs = Ok (false, newResponse d attrs).
Proof.
  intros L C A TY d. unfold int32 in *. unfold kafkaResponse, kafkaResponseParser. apply tree_refused. right. split.
  - change (m_data (newResponse d attrs)) with d. unfold d, kafkaAnswer, be32. cbn [app]. rewrite !zlen_cons. pose proof (zlen_nonneg body). lia.
  - exists true. unfold parseKafkaResponse. change (m_data (newResponse d attrs)) with d.
    assert (R0 : readInt32 d 0 = Ok (len, 4)) by exact (readInt32_at [] len (be32 cid ++ body) ltac:(lia)).
    assert (R4 : readInt32 d 4 = Ok (cid, 8)) by exact (readInt32_at (be32 len) cid body ltac:(lia)).
    rewrite R0, R4. cbn [orZero bind]. destruct (len <=? 4); [reflexivity|]. unfold hasAttr, attrInt, ahas. cbn [newResponse m_attrs]. destruct (aget attrs LKafkaCorrelationId) as [v|]; [|reflexivity].
    destruct (TY v eq_refl) as (z & ->). cbn [asInt negb orb]. replace (z =? cid) with false by (symmetry; apply Z.eqb_neq; congruence). reflexivity.
Qed.
Print Assumptions C26_kafka_answer_of_other_request.
(** Every payload gets a verdict, and no answer ever marks an error, whatever code the broker reports. *)
Theorem C26_kafka_response_total d attrs : exists ok m, kafkaResponse d attrs = Ok (ok, m) /\
  forall k, k <> LKafkaTopic -> k <> LKafkaErrorCode -> aget (m_attrs m) k = aget attrs k.
Proof.
  unfold kafkaResponse, kafkaResponseParser. destruct (Z_lt_ge_dec (zlen d) 8) as [S|S]; [exists false; eexists; split; [apply tree_refused; left; exact S|reflexivity]|].
  assert (ROOT : (exists c, parseKafkaResponse (newResponse d attrs) = Ok ((false, c), newResponse d attrs)) \/ parseKafkaResponse (newResponse d attrs) = Ok ((true, false), setOff (newResponse d attrs) 8)).
  { unfold parseKafkaResponse. change (m_data (newResponse d attrs)) with d. destruct (orZero32 d 0) as (pl & ->). destruct (orZero32 d 4) as (cid & ->). cbn [bind]. destruct (pl <=? 4); [left; eexists; reflexivity|].
    destruct (negb (hasAttr (newResponse d attrs) LKafkaCorrelationId) || negb (attrInt (newResponse d attrs) LKafkaCorrelationId =? cid)); [left; eexists; reflexivity|right; reflexivity]. }
  destruct ROOT as [R|R]; [exists false; eexists; split; [apply tree_refused; right; split; [change (m_data (newResponse d attrs)) with d; lia|exact R]|reflexivity]|].
  set (m := setOff (newResponse d attrs) 8) in *.
  rewrite (tree_eval 8 parseKafkaResponse parseResponseFetch parseResponseProduce (newResponse d attrs) m (outcome_complete _ out_fetch) (outcome_complete _ out_produce) ltac:(change (m_data (newResponse d attrs)) with d; lia) R).
  assert (K : forall r, outcome r m -> exists ok m', verdict r = Ok (ok, m') /\ forall k, k <> LKafkaTopic -> k <> LKafkaErrorCode -> aget (m_attrs m') k = aget attrs k).
  { intros r (ok & m' & -> & H). cbn [verdict bind]. exists ok, m'. split; [reflexivity|]. intros k K1 K2. destruct H as [[_ ->]|[_ (e & [-> | (q & ->)])]]; [reflexivity| |]; cbn [addAttr m_attrs]; rewrite ?aget_aset_other by congruence; reflexivity. }
  unfold byApi. destruct (attrInt m LKafkaApi =? 1); [apply K, out_fetch|]. destruct (attrInt m LKafkaApi =? 0); [apply K, out_produce|].
  destruct (attrInt m LKafkaApi <=? 1); [exists false|exists true]; eexists; (split; [reflexivity|]); intros k _ _; reflexivity.
Qed.
Print Assumptions C26_kafka_response_total.
(** A failed produce request is not reported as an error. *)
Theorem C26_kafka_error_unmarked_refuted : exists d attrs m, kafkaResponse d attrs = Ok (true, m) /\ aget (m_attrs m) LKafkaErrorCode = Some (IV 3) /\ aget (m_attrs m) LIsError = None.
Proof.
  exists (kafkaAnswer 40 7 (topics 1 (bs "orders") (partitions 1 [0; 0; 0; 0] 3 []))), (identity PRODUCE 7 7). eexists. split; [vm_compute; reflexivity|]. split; vm_compute; reflexivity.
Qed.
Print Assumptions C26_kafka_error_unmarked_refuted.
