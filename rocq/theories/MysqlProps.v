(** C23: MySQL requests and responses. *)
From Verif Require Import Base DetectProofs AttrModel LabelNames MsgModel ReaderProofs TextModel TextSpec TextProofs TextProps HttpProofs SqlModel SqlSpec SqlProofs SqlProps MysqlModel MysqlSpec MysqlProofs.
Open Scope string_scope. Open Scope list_scope. Open Scope Z_scope.

Lemma strip_statement s : statement s -> strip s = s.
Proof.
  intros S. destruct s as [|a [|e [|c r]]]; try reflexivity. cbn [strip]. destruct (a =? 0) eqn:A; [|reflexivity]. exfalso. assert (a = 0) as -> by lia.
  destruct S as (op & ks & w & r' & I & E & L). pose proof ops_first as F. rewrite forallb_forall in F. specialize (F _ I). cbn [fst] in F. rewrite <- L in F.
  destruct w as [|b w]; [discriminate|]. cbn [app] in E. injection E as <- E. cbn in F. discriminate.
Qed.
(** A query or a statement to prepare is recorded with its key, also behind an empty list of query attributes. *)
Theorem C23_statement h cmd body s : zlen h = 4 -> statement s -> asciiText s ->
  (cmd = COM_STMT_PREPARE /\ body = s) \/ (cmd = COM_QUERY /\ body = s) \/ (cmd = COM_QUERY /\ body = noParameters ++ s) ->
  exists m, mysqlRequest (packet h cmd body) = Ok (true, m) /\ m_attrs m = [(LSql, SV s); (LContentKey, SV (mergeSql s))].
Proof.
  intros L S A C. pose proof (formatUtf8_ascii s A) as F.
  assert (Q : forall m, verdict (addSql m s) = Ok (true, addAttr (addAttr m LSql (SV s)) LContentKey (SV (mergeSql s)))) by (intros m; rewrite (addSql_eval m s s F), (proj2 (isSql_spec s) S); reflexivity).
  exists (addAttr (addAttr (newRequest (packet h cmd body)) LSql (SV s)) LContentKey (SV (mergeSql s))). split; [|reflexivity].
  destruct C as [[-> ->]|[[-> ->]|[-> ->]]]; rewrite request_eval by exact L; unfold COM_STMT_PREPARE, COM_QUERY; cbn [Z.eqb Pos.eqb]; rewrite <- Q; [reflexivity|rewrite (strip_statement s S); reflexivity|].
  replace (strip (noParameters ++ s)) with s; [reflexivity|]. destruct s as [|c r]; [|reflexivity].
  exfalso. destruct S as (op & ks & w & r' & I & E & LC). symmetry in E. apply app_eq_nil in E. destruct E as [-> ->]. pose proof ops_first as X. rewrite forallb_forall in X. specialize (X _ I). cbn [fst] in X. rewrite <- LC in X. discriminate.
Qed.
Print Assumptions C23_statement.
Example C23_statement_ex : exists m, mysqlRequest (packet [33; 0; 0; 0] 3 (bs "SELECT id FROM users WHERE id=7")) = Ok (true, m) /\
  m_attrs m = [(LSql, SV (bs "SELECT id FROM users WHERE id=7")); (LContentKey, SV (bs "select users *"))].
Proof. eexists. split; vm_compute; reflexivity. Qed.
(** Beyond ASCII, the recorded text is a prefix of the statement. *)
Theorem C23_statement_any h s : zlen h = 4 -> statement s -> exists m q r, mysqlRequest (packet h COM_QUERY s) = Ok (true, m) /\
  formatUtf8 s = Ok q /\ s = q ++ r /\ m_attrs m = [(LSql, SV q); (LContentKey, SV (mergeSql s))].
Proof.
  intros L S. destruct (formatUtf8_prefix s) as (q & r & F & E). eexists. exists q, r. split; [|split; [exact F|split; [exact E|]]].
  - rewrite request_eval by exact L. unfold COM_QUERY. cbn [Z.eqb Pos.eqb]. rewrite (strip_statement s S), (addSql_eval _ _ _ F), (proj2 (isSql_spec s) S). reflexivity.
  - reflexivity.
Qed.
Print Assumptions C23_statement_any.
(** The end of a connection needs no answer. *)
Theorem C23_quit h body : zlen h = 4 -> exists m, mysqlRequest (packet h COM_QUIT body) = Ok (true, m) /\ m_attrs m = [(LOneway, BV true)].
Proof. intros L. eexists. split; [rewrite request_eval by exact L; reflexivity|reflexivity]. Qed.
Print Assumptions C23_quit.
(** Every payload gets a verdict, and only those three commands are taken for requests. *)
Theorem C23_request_total d : exists ok m, mysqlRequest d = Ok (ok, m) /\
  (ok = true -> exists h body, zlen h = 4 /\
     (d = packet h COM_QUIT body \/ (d = packet h COM_STMT_PREPARE body /\ statement body) \/
      (d = packet h COM_QUERY body /\ (statement body \/ exists s, body = noParameters ++ s /\ statement s)))) /\
  (ok = false -> m_attrs m = []).
Proof.
  destruct (Z_lt_ge_dec (zlen d) 5) as [S|S].
  { exists false, (newRequest d). split; [apply request_short; exact S|]. split; [discriminate|reflexivity]. }
  destruct (packet_split d ltac:(lia)) as (h & c & b & -> & L). rewrite request_eval by exact L.
  assert (AD : forall x, exists ok m, verdict (addSql (newRequest (packet h c b)) x) = Ok (ok, m) /\ (ok = true -> statement x) /\ (ok = false -> m_attrs m = [])).
  { intros x. destruct (formatUtf8_prefix x) as (q & r & F & _). rewrite (addSql_eval _ _ _ F). destruct (isSql x) eqn:Q.
    - eexists. eexists. split; [reflexivity|]. split; [intros _; apply isSql_spec; exact Q|discriminate].
    - eexists. eexists. split; [reflexivity|]. split; [discriminate|reflexivity]. }
  destruct (c =? 22) eqn:C22; [|destruct (c =? 3) eqn:C3; [|destruct (c =? 1) eqn:C1]].
  - assert (c = 22) as -> by lia. destruct (AD b) as (ok & m & E & T & F). exists ok, m. split; [exact E|]. split; [|exact F]. intros O. exists h, b. split; [exact L|]. right. left. split; [reflexivity|apply T; exact O].
  - assert (c = 3) as -> by lia. destruct (AD (strip b)) as (ok & m & E & T & F). exists ok, m. split; [exact E|]. split; [|exact F]. intros O. exists h, b. split; [exact L|]. right. right. split; [reflexivity|].
    specialize (T O). destruct b as [|a [|e [|f r]]]; try (left; exact T). cbn [strip] in T. destruct ((a =? 0) && (e =? 1)) eqn:Q; [|left; exact T]. right. exists (f :: r). split; [|exact T].
    assert (a = 0) as -> by lia. assert (e = 1) as -> by lia. reflexivity.
  - assert (c = 1) as -> by lia. eexists. eexists. split; [reflexivity|]. split; [|discriminate]. intros _. exists h, b. split; [exact L|]. left. reflexivity.
  - eexists. eexists. split; [reflexivity|]. split; [discriminate|reflexivity].
Qed.
Print Assumptions C23_request_total.

Lemma code_bytes code : 0 <= code < 65536 -> Z.lor (code mod 256) (Z.shiftl (code / 256) 8) = code.
Proof.
  intros B. rewrite Z.lor_comm, (lor_disjoint (code / 256) (code mod 256) 8); [|lia|apply Z.mod_pos_bound; lia].
  change (2 ^ 8) with 256. pose proof (Z.div_mod code 256 ltac:(lia)). lia.
Qed.
(** An error packet records the code and the message it transmits, and marks the exchange as an error. *)
Theorem C23_error h code state text attrs : zlen h = 4 -> 0 < code < 65536 -> zlen state = 5 -> hd 0 state <> 35 -> asciiText (state ++ text) ->
  exists m, mysqlResponse (errorPacket h code (marked state text)) attrs = Ok (true, m) /\
    aget (m_attrs m) LSqlErrCode = Some (IV code) /\ aget (m_attrs m) LSqlErrMsg = Some (SV (state ++ text)) /\
    aget (m_attrs m) LIsError = Some (BV true) /\ aget (m_attrs m) LErrorType = Some (IV ProtocolError) /\
    (forall k, ~ In k [LSqlErrCode; LSqlErrMsg; LIsError; LErrorType] -> aget (m_attrs m) k = aget attrs k).
Proof.
  intros L C LS HD A. unfold errorPacket, marked. change ([35] ++ state ++ text) with (35 :: (state ++ text)).
  assert (LL : 6 <= zlen (packet h 255 ([code mod 256; code / 256] ++ 35 :: state ++ text))).
  { rewrite packet_len by exact L. rewrite zlen_app. change (zlen [code mod 256; code / 256]) with 2. pose proof (zlen_nonneg (35 :: state ++ text)). lia. }
  assert (T : errText (35 :: state ++ text) = state ++ text).
  { destruct state as [|s1 [|s2 [|s3 [|s4 [|s5 [|s6 rr]]]]]]; rewrite ?zlen_cons in LS; change (zlen (@nil Z)) with 0 in LS; try lia; [|pose proof (zlen_nonneg rr); lia].
    cbn [hd] in HD. cbn [app errText]. destruct text as [|t1 [|t2 r]]; try reflexivity. replace (s1 =? 35) with false by lia. reflexivity. }
  assert (F : formatUtf8 (errText (35 :: state ++ text)) = Ok (state ++ text)) by (rewrite T; apply formatUtf8_ascii; exact A).
  eexists. split.
  - rewrite response_root by exact LL. rewrite packet_cmd by exact L. cbn [bind]. change (255 =? 255) with true. cbn iota. unfold verdict.
    rewrite (err_eval h (code mod 256) (code / 256) (state ++ text) 35 attrs (state ++ text) L F). cbn [bind]. reflexivity.
  - cbn zeta. rewrite code_bytes by lia. replace (code =? 0) with false by lia. cbn [addAttr newResponse m_attrs].
    split; [labels; reflexivity|]. split; [labels; reflexivity|]. split; [labels; reflexivity|]. split; [labels; reflexivity|].
    intros k N. cbn [In] in N. rewrite !aget_aset_other by (intros ->; apply N; tauto). reflexivity.
Qed.
Print Assumptions C23_error.
Example C23_error_ex : exists m, mysqlResponse (errorPacket [23; 0; 0; 1] 1064 (marked (bs "42000") (bs "You have an error"))) [] = Ok (true, m) /\
  aget (m_attrs m) LSqlErrMsg = Some (SV (bs "42000You have an error")).
Proof. eexists. split; vm_compute; reflexivity. Qed.
(** Every other response leaves the labels, so only error packets mark errors. *)
Theorem C23_no_error d attrs : gindex d 4 <> Ok 255 -> exists ok, mysqlResponse d attrs = Ok (ok, newResponse d attrs).
Proof.
  intros N. destruct (Z_lt_ge_dec (zlen d) 6) as [S|S]; [exists false; apply response_short; exact S|].
  rewrite response_root by lia. destruct (gindex_in d 4 ltac:(lia)) as (c & G). rewrite G in *. cbn [bind]. replace (c =? 255) with false by (symmetry; apply Z.eqb_neq; congruence).
  destruct ((c =? 0) || (c =? 254)); [exists true; reflexivity|eexists; reflexivity].
Qed.
Print Assumptions C23_no_error.
(** OK and EOF packets, and anything that answers a recorded statement, are responses. *)
Theorem C23_response_accepted d c attrs : 6 <= zlen d -> gindex d 4 = Ok c -> c <> 255 ->
  mysqlResponse d attrs = Ok (true, newResponse d attrs) <-> (c = 0 \/ c = 254 \/ ahas attrs LSql = true).
Proof.
  intros L G N. rewrite response_root by exact L. rewrite G. cbn [bind]. replace (c =? 255) with false by lia. unfold hasAttr. cbn [newResponse m_attrs].
  split.
  - destruct ((c =? 0) || (c =? 254)) eqn:Q; [intros _; lia|]. intros E. injection E as E. right. right. exact E.
  - intros [-> | [-> | E]]; [reflexivity|reflexivity|]. rewrite E. destruct ((c =? 0) || (c =? 254)); reflexivity.
Qed.
Print Assumptions C23_response_accepted.
(** Responses of at least eight bytes, and all but error packets below that, get a verdict. *)
Theorem C23_response_total d attrs : 8 <= zlen d \/ gindex d 4 <> Ok 255 -> exists ok m, mysqlResponse d attrs = Ok (ok, m).
Proof.
  intros H. destruct (Z_lt_ge_dec (zlen d) 6) as [S|S]; [exists false; eexists; apply response_short; exact S|].
  destruct (gindex_in d 4 ltac:(lia)) as (c & G). destruct (Z.eq_dec c 255) as [->|N].
  2: { destruct (C23_no_error d attrs) as (ok & E); [congruence|]. exists ok. eexists. exact E. }
  destruct H as [H|H]; [|congruence]. destruct (packet_split d ltac:(lia)) as (h & c' & b & -> & L). rewrite packet_cmd in G by exact L. injection G as ->.
  rewrite packet_len in H by exact L. destruct b as [|lo [|hi [|x b]]]; rewrite ?zlen_cons in H; change (zlen (@nil Z)) with 0 in H; try lia.
  rewrite response_root by lia. rewrite packet_cmd by exact L. cbn [bind]. change (255 =? 255) with true. cbn iota.
  destruct (formatUtf8_prefix (errText (x :: b))) as (t & r & F & _). change (lo :: hi :: x :: b) with ([lo; hi] ++ x :: b).
  rewrite (err_eval h lo hi b x attrs t L F). unfold verdict. cbn [bind]. eexists. eexists. reflexivity.
Qed.
Print Assumptions C23_response_total.
(** An error packet of six or seven bytes stops the process. *)
Theorem C23_short_error_panics_refuted d attrs : zlen d = 6 \/ zlen d = 7 -> gindex d 4 = Ok 255 -> mysqlResponse d attrs = Panic.
Proof.
  intros L G. rewrite response_root by lia. rewrite G. cbn [bind]. change (255 =? 255) with true. cbn iota. rewrite short_err by lia. reflexivity.
Qed.
Print Assumptions C23_short_error_panics_refuted.
Example C23_short_error_ex : mysqlResponse [2; 0; 0; 1; 255; 16] [] = Panic.
Proof. vm_compute. reflexivity. Qed.
(** Before protocol 4.1 there is no marker: the message loses its first character. *)
Theorem C23_unmarked_message_refuted h code c text attrs : zlen h = 4 -> 0 < code < 65536 -> zlen text < 7 -> asciiText text ->
  exists m, mysqlResponse (errorPacket h code (c :: text)) attrs = Ok (true, m) /\ aget (m_attrs m) LSqlErrMsg = Some (SV text).
Proof.
  intros L C LT A. unfold errorPacket.
  assert (LL : 6 <= zlen (packet h 255 ([code mod 256; code / 256] ++ c :: text))).
  { rewrite packet_len by exact L. rewrite zlen_app. change (zlen [code mod 256; code / 256]) with 2. pose proof (zlen_nonneg (c :: text)). lia. }
  assert (T : errText (c :: text) = text).
  { destruct text as [|s1 [|s2 [|s3 [|s4 [|s5 [|s6 [|s7 r]]]]]]]; try reflexivity. rewrite !zlen_cons in LT. pose proof (zlen_nonneg r). lia. }
  assert (F : formatUtf8 (errText (c :: text)) = Ok text) by (rewrite T; apply formatUtf8_ascii; exact A).
  eexists. split.
  - rewrite response_root by exact LL. rewrite packet_cmd by exact L. cbn [bind]. change (255 =? 255) with true. cbn iota. unfold verdict.
    rewrite (err_eval h (code mod 256) (code / 256) text c attrs text L F). cbn [bind]. reflexivity.
  - cbn zeta. rewrite code_bytes by lia. replace (code =? 0) with false by lia. cbn [addAttr newResponse m_attrs]. labels. reflexivity.
Qed.
Print Assumptions C23_unmarked_message_refuted.
