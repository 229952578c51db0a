(** C26, Dubbo. *)
From Verif Require Import Base DetectProofs AttrModel LabelNames MsgModel ReaderSpec ReaderProofs ReaderProps TextProofs HttpProofs DubboModel DubboSpec.
Open Scope string_scope. Open Scope list_scope. Open Scope Z_scope.

Lemma flag_bits rq tw ev s : 0 <= s < 32 ->
  Z.land (dubboFlag rq tw ev s) 31 = s /\ (Z.land (dubboFlag rq tw ev s) 32 =? 0) = negb ev /\
  (Z.land (dubboFlag rq tw ev s) 128 =? 0) = negb rq /\ (Z.land (dubboFlag rq tw ev s) 64 =? 0) = negb tw.
Proof.
  intros B. assert (I : In s (map Z.of_nat (seq 0 32))) by (apply in_map_iff; exists (Z.to_nat s); split; [lia|apply in_seq; lia]).
  assert (F : forallb (fun s => (Z.land (dubboFlag rq tw ev s) 31 =? s) && Bool.eqb (Z.land (dubboFlag rq tw ev s) 32 =? 0) (negb ev) &&
    Bool.eqb (Z.land (dubboFlag rq tw ev s) 128 =? 0) (negb rq) && Bool.eqb (Z.land (dubboFlag rq tw ev s) 64 =? 0) (negb tw)) (map Z.of_nat (seq 0 32)) = true)
    by (destruct rq, tw, ev; vm_compute; reflexivity).
  rewrite forallb_forall in F. specialize (F s I). cbn beta in F. apply andb_prop in F. destruct F as [F F4]. apply andb_prop in F. destruct F as [F F3]. apply andb_prop in F. destruct F as [F1 F2].
  apply Bool.eqb_prop in F2, F3, F4. split; [lia|]. tauto.
Qed.
Lemma any_flag f : 0 <= f < 256 -> exists rq tw ev s, f = dubboFlag rq tw ev s /\ 0 <= s < 32.
Proof.
  intros B. unfold dubboFlag. pose proof (Z.mod_pos_bound f 32 ltac:(lia)). 
  exists (128 <=? f), (64 <=? f mod 128), (32 <=? f mod 64), (f mod 32). split; [|lia].
  destruct (128 <=? f) eqn:A; destruct (64 <=? f mod 128) eqn:C; destruct (32 <=? f mod 64) eqn:E; Z.to_euclidean_division_equations; lia.
Qed.
Lemma packet_split d : Forall is_byte d -> 16 <= zlen d -> gindex d 0 = Ok 218 -> gindex d 1 = Ok 187 ->
  exists rq tw ev s st il body, d = dubboPacket (dubboFlag rq tw ev s) st il body /\ 0 <= s < 32 /\ is_byte st /\ zlen il = 12.
Proof.
  intros B L G0 G1. destruct d as [|a [|b [|f [|st r]]]]; try (cbn in L; lia).
  cbn in G0, G1. injection G0 as ->. injection G1 as ->.
  inversion B as [|? ? _ B1]; subst. inversion B1 as [|? ? _ B2]; subst. inversion B2 as [|? ? BF B3]; subst. inversion B3 as [|? ? BS _]; subst.
  destruct (any_flag f BF) as (rq & tw & ev & s & -> & R). exists rq, tw, ev, s, st, (firstn 12 r), (skipn 12 r).
  split; [unfold dubboPacket; rewrite firstn_skipn; reflexivity|]. split; [exact R|]. split; [exact BS|].
  unfold zlen in *. rewrite firstn_length. cbn [List.length] in L. lia.
Qed.
Lemma packet_16 f st il body : zlen il = 12 -> dubboPacket f st il body = ([218; 187; f; st] ++ il) ++ body /\ zlen ([218; 187; f; st] ++ il) = 16.
Proof. intros L. unfold dubboPacket. rewrite <- app_assoc. split; [reflexivity|]. rewrite zlen_app, L. reflexivity. Qed.
Lemma packet_len16 f st il body : zlen il = 12 -> zlen (dubboPacket f st il body) = 16 + zlen body.
Proof. intros L. destruct (packet_16 f st il body L) as [-> E]. rewrite zlen_app, E. reflexivity. Qed.

(** ** Requests *)
Definition strings (s : Z) (d : bytes) : res bytes :=
  if s =? 2 then dubboStrings eatHessian getHessian d else if s =? 6 then dubboStrings eatJson getJson d else Ok (bs "UnSupportSerialFormat").
Definition keyOf (rq tw ev : bool) (s : Z) (d : bytes) : res bytes :=
  if s =? 0 then Ok [] else if ev then Ok (bs "Heartbeat") else if negb rq then Ok [] else if negb tw then Ok (bs "Oneway") else strings s d.
Lemma request_eval rq tw ev s st il body : 0 <= s < 32 -> zlen il = 12 -> let d := dubboPacket (dubboFlag rq tw ev s) st il body in
  dubboRequest d = bind (keyOf rq tw ev s d) (fun k => Ok (if zlen k =? 0 then (false, newRequest d) else (true, addAttr (newRequest d) LContentKey (SV k)))).
Proof.
  intros S L d. unfold dubboRequest, parsePayload, dubboRequestParser. cbn [parseOneFrame]. unfold fastfailDubbo. change (m_data (newRequest d)) with d.
  unfold d at 1. rewrite packet_len16 by exact L. pose proof (zlen_nonneg body). replace (16 + zlen body <? 16) with false by lia.
  change (gindex d 0) with (Ok 218). change (gindex d 1) with (Ok 187). cbn [bind Z.eqb Pos.eqb negb]. unfold parseDubboRequest. change (m_data (newRequest d)) with d.
  unfold getContentKey. change (gindex d 2) with (Ok (dubboFlag rq tw ev s)). cbn [bind]. cbn zeta.
  destruct (flag_bits rq tw ev s S) as (-> & -> & -> & ->). rewrite negb_involutive.
  match goal with |- context [bind (if s =? 0 then ?a else ?b)] => change (if s =? 0 then a else b) with (keyOf rq tw ev s d) end.
  destruct (keyOf rq tw ev s d) as [k| |]; cbn [bind]; [|reflexivity|reflexivity].
  destruct (zlen k =? 0); reflexivity.
Qed.
Lemma hessian_byte (v : bytes) : zlen v < 1024 -> 0 <= zlen v / 256 < 4.
Proof. intros B. pose proof (zlen_nonneg v). split; [apply Z.div_pos; lia|apply Z.div_lt_upper_bound; lia]. Qed.
Lemma hessian_len v : 0 < zlen (hessian v).
Proof. unfold hessian. pose proof (zlen_nonneg v). destruct (zlen v <? 32); rewrite !zlen_cons; lia. Qed.
Lemma sh8 a b : Z.shiftl (48 + a - 48) 8 + b = 256 * a + b.
Proof. replace (48 + a - 48) with a by lia. rewrite Z.shiftl_mul_pow2 by lia. change (2 ^ 8) with 256. lia. Qed.
Lemma eat_at p v s : zlen v < 1024 -> eatHessian (p ++ hessian v ++ s) (zlen p) = Ok (zlen p + zlen (hessian v)).
Proof.
  intros B. pose proof (hessian_len v) as HL. pose proof (zlen_nonneg v) as NV. pose proof (zlen_nonneg s) as NS. unfold eatHessian.
  assert (LT : zlen (p ++ hessian v ++ s) = zlen p + zlen (hessian v) + zlen s) by (rewrite !zlen_app; lia).
  replace (zlen (p ++ hessian v ++ s) <=? zlen p) with false by lia. clear LT.
  unfold hessian. destruct (zlen v <? 32) eqn:Q.
  - cbn [app]. rewrite g0. cbn [bind]. replace ((48 <=? zlen v) && (zlen v <=? 51)) with false by lia. rewrite zlen_cons. f_equal. lia.
  - cbn [app]. rewrite g0, g1. cbn [bind]. pose proof (hessian_byte v B). replace ((48 <=? 48 + zlen v / 256) && (48 + zlen v / 256 <=? 51)) with true by lia.
    match goal with |- context [?a =? zlen ?x] => replace (a =? zlen x) with false by (rewrite zlen_app, !zlen_cons, zlen_app; lia) end.
    f_equal. rewrite !zlen_cons. pose proof (sh8 (zlen v / 256) (zlen v mod 256)) as SH. pose proof (Z.div_mod (zlen v) 256 ltac:(lia)). lia.
Qed.
Lemma hessianText_at p v s : hessianText (p ++ v ++ s) (zlen p) (zlen v) = Ok (v, zlen p + zlen v).
Proof.
  unfold hessianText. pose proof (zlen_nonneg s). assert (LT : zlen (p ++ v ++ s) = zlen p + zlen v + zlen s) by (rewrite !zlen_app; lia).
  destruct (zlen (p ++ v ++ s) <=? zlen p + zlen v) eqn:Q.
  - destruct s as [|x s]; [|rewrite zlen_cons in *; pose proof (zlen_nonneg s); lia]. rewrite app_nil_r in *. rewrite (gslice_suf p v) by reflexivity. cbn [bind]. rewrite LT. rewrite zlen_nil. f_equal. f_equal. lia.
  - rewrite (gslice_mid p v s) by reflexivity. reflexivity.
Qed.
Lemma get_at p v s : zlen v < 1024 -> getHessian (p ++ hessian v ++ s) (zlen p) = Ok (v, zlen p + zlen (hessian v)).
Proof.
  intros B. pose proof (hessian_len v) as HL. pose proof (zlen_nonneg v) as NV. pose proof (zlen_nonneg s) as NS. unfold getHessian.
  assert (LT : zlen (p ++ hessian v ++ s) = zlen p + zlen (hessian v) + zlen s) by (rewrite !zlen_app; lia).
  replace (zlen (p ++ hessian v ++ s) <=? zlen p) with false by lia. clear LT.
  unfold hessian. destruct (zlen v <? 32) eqn:Q.
  - cbn [app]. rewrite g0. cbn [bind]. replace ((48 <=? zlen v) && (zlen v <=? 51)) with false by lia.
    pose proof (hessianText_at (p ++ [zlen v]) v s) as HH. rewrite <- app_assoc in HH. cbn [app] in HH. rewrite zlen_app, zlen_one in HH. rewrite HH. rewrite zlen_cons. f_equal. f_equal. lia.
  - cbn [app]. rewrite g0, g1. cbn [bind]. pose proof (hessian_byte v B) as HB. replace ((48 <=? 48 + zlen v / 256) && (48 + zlen v / 256 <=? 51)) with true by lia.
    match goal with |- context [?a =? zlen ?x] => replace (a =? zlen x) with false by (rewrite zlen_app, !zlen_cons, zlen_app; lia) end.
    rewrite sh8. replace (256 * (zlen v / 256) + zlen v mod 256) with (zlen v) by (pose proof (Z.div_mod (zlen v) 256 ltac:(lia)); lia).
    pose proof (hessianText_at (p ++ [48 + zlen v / 256; zlen v mod 256]) v s) as HH. rewrite <- app_assoc in HH. cbn [app] in HH. rewrite zlen_app in HH. change (zlen [48 + zlen v / 256; zlen v mod 256]) with 2 in HH. rewrite HH. rewrite !zlen_cons. f_equal. f_equal. lia.
Qed.
Lemma four_strings eat get enc (P Q : bytes -> Prop) :
  (forall p v s, P v -> eat (p ++ enc v ++ s) (zlen p) = Ok (zlen p + zlen (enc v))) ->
  (forall p v s, Q v -> exists t, get (p ++ enc v ++ s) (zlen p) = Ok (t, zlen p + zlen (enc v)) /\ t = v) ->
  forall p ver sv sver me rest, zlen p = 16 -> P ver -> Q sv -> P sver -> Q me ->
  dubboStrings eat get (p ++ call enc ver sv sver me rest) = Ok (sv ++ bs "#" ++ me).
Proof.
  intros E G p ver sv sver me rest L V1 V2 V3 V4. unfold dubboStrings, call.
  rewrite <- L. rewrite E by exact V1. cbn [bind].
  replace (p ++ enc ver ++ enc sv ++ enc sver ++ enc me ++ rest) with ((p ++ enc ver) ++ enc sv ++ enc sver ++ enc me ++ rest) by (rewrite <- app_assoc; reflexivity).
  rewrite <- zlen_app. destruct (G (p ++ enc ver) sv (enc sver ++ enc me ++ rest) V2) as (t & -> & ->). cbn [bind].
  replace ((p ++ enc ver) ++ enc sv ++ enc sver ++ enc me ++ rest) with (((p ++ enc ver) ++ enc sv) ++ enc sver ++ enc me ++ rest) by (rewrite <- app_assoc; reflexivity).
  rewrite <- zlen_app. rewrite E by exact V3. cbn [bind].
  replace (((p ++ enc ver) ++ enc sv) ++ enc sver ++ enc me ++ rest) with ((((p ++ enc ver) ++ enc sv) ++ enc sver) ++ enc me ++ rest) by (rewrite <- app_assoc; reflexivity).
  rewrite <- zlen_app. destruct (G (((p ++ enc ver) ++ enc sv) ++ enc sver) me rest V4) as (t & -> & ->). cbn [bind]. reflexivity.
Qed.
Lemma key_len a b : (zlen (a ++ bs "#" ++ b) =? 0) = false.
Proof. rewrite !zlen_app. change (zlen (bs "#")) with 1. pose proof (zlen_nonneg a). pose proof (zlen_nonneg b). lia. Qed.
(** A two-way call in Hessian is keyed by service and method. *)
Theorem C26_dubbo_hessian_call il st ver sv sver me rest : zlen il = 12 ->
  zlen ver < 1024 -> zlen sv < 1024 -> zlen sver < 1024 -> zlen me < 1024 ->
  exists m, dubboRequest (dubboPacket (dubboFlag true true false HESSIAN2) st il (call hessian ver sv sver me rest)) = Ok (true, m) /\
    m_attrs m = [(LContentKey, SV (sv ++ bs "#" ++ me))].
Proof.
  intros L V1 V2 V3 V4. eexists. split.
  - rewrite request_eval by (unfold HESSIAN2; lia). unfold keyOf, strings, HESSIAN2. cbn [Z.eqb Pos.eqb negb].
    destruct (packet_16 (dubboFlag true true false 2) st il (call hessian ver sv sver me rest) L) as [-> E].
    rewrite (four_strings eatHessian getHessian hessian (fun v => zlen v < 1024) (fun v => zlen v < 1024)); try assumption.
    + cbn [bind]. rewrite key_len. reflexivity.
    + intros p v s B. apply eat_at. exact B.
    + intros p v s B. exists v. split; [apply get_at; exact B|reflexivity].
  - reflexivity.
Qed.
Print Assumptions C26_dubbo_hessian_call.
Example C26_dubbo_hessian_call_ex : exists m,
  dubboRequest ([218; 187; 194; 0; 0; 0; 0; 0; 0; 0; 0; 9; 0; 0; 1; 0] ++ [5] ++ bs "2.0.2" ++ [48; 33] ++ bs "io.example.inventory.StockService" ++ [5] ++ bs "0.0.0" ++ [7] ++ bs "reserve" ++ bs "xx") = Ok (true, m) /\
  m_attrs m = [(LContentKey, SV (bs "io.example.inventory.StockService#reserve"))].
Proof. eexists. split; vm_compute; reflexivity. Qed.

Lemma eatJson_at p v s : v <> [] -> ~ In 10 (tl v) -> eatJson (p ++ jsonLine v ++ s) (zlen p) = Ok (zlen p + zlen (jsonLine v)).
Proof.
  intros NE N. destruct v as [|a v]; [congruence|]. cbn [tl] in N. unfold eatJson, jsonLine.
  assert (LT : zlen (p ++ ((a :: v) ++ [10]) ++ s) = zlen p + 2 + zlen v + zlen s) by (rewrite !zlen_app, zlen_cons, zlen_one; lia).
  pose proof (zlen_nonneg v). pose proof (zlen_nonneg s). replace (zlen (p ++ ((a :: v) ++ [10]) ++ s) <=? zlen p) with false by lia.
  rewrite LT. pose proof (scan_found (p ++ [a]) (p ++ ((a :: v) ++ [10]) ++ s) 10 v N s (Z.to_nat (zlen p + 2 + zlen v + zlen s - (zlen p + 1)))) as SF.
  rewrite zlen_app, zlen_one in SF. rewrite SF; [|unfold zlen in *; lia|cbn [app]; rewrite <- !app_assoc; reflexivity]. cbn [bind]. rewrite zlen_app, zlen_cons, zlen_one. f_equal. lia.
Qed.
Lemma getJson_at p v s : ~ In 10 v -> getJson (p ++ jsonLine (quoted v) ++ s) (zlen p) = Ok (v, zlen p + zlen (jsonLine (quoted v))).
Proof.
  intros N. unfold getJson, jsonLine, quoted.
  assert (LT : zlen (p ++ (([34] ++ v ++ [34]) ++ [10]) ++ s) = zlen p + 3 + zlen v + zlen s) by (rewrite !zlen_app, !zlen_one; lia).
  pose proof (zlen_nonneg v). pose proof (zlen_nonneg s). pose proof (zlen_nonneg p). replace (zlen (p ++ (([34] ++ v ++ [34]) ++ [10]) ++ s) <=? zlen p) with false by lia.
  assert (N2 : ~ In 10 (v ++ [34])) by (intros I; apply in_app_or in I; destruct I as [I|[I|[]]]; [exact (N I)|discriminate]).
  rewrite LT. pose proof (scan_found (p ++ [34]) (p ++ (([34] ++ v ++ [34]) ++ [10]) ++ s) 10 (v ++ [34]) N2 s (Z.to_nat (zlen p + 3 + zlen v + zlen s - (zlen p + 1)))) as SF.
  rewrite zlen_app, zlen_one in SF. rewrite SF.
  2: { rewrite app_length. cbn [List.length]. unfold zlen in *. lia. }
  2: { cbn [app]. rewrite <- !app_assoc. cbn [app]. rewrite <- ?app_assoc. reflexivity. }
  cbn [bind]. replace (p ++ (([34] ++ v ++ [34]) ++ [10]) ++ s) with ((p ++ [34]) ++ v ++ ([34; 10] ++ s)) by (rewrite <- !app_assoc; reflexivity).
  rewrite (gslice_mid (p ++ [34]) v ([34; 10] ++ s)); [|rewrite zlen_app, zlen_one; lia|rewrite !zlen_app, !zlen_one; lia].
  cbn [bind]. rewrite !zlen_app, !zlen_one. f_equal. f_equal. lia.
Qed.
(** The same call in JSON lines; the two versions may be any value on one line, also null. *)
Theorem C26_dubbo_json_call il st ver sv sver me rest : zlen il = 12 -> ver <> [] -> sver <> [] ->
  ~ In 10 ver -> ~ In 10 sv -> ~ In 10 sver -> ~ In 10 me ->
  exists m, dubboRequest (dubboPacket (dubboFlag true true false FASTJSON) st il
      (jsonLine ver ++ jsonLine (quoted sv) ++ jsonLine sver ++ jsonLine (quoted me) ++ rest)) = Ok (true, m) /\
    m_attrs m = [(LContentKey, SV (sv ++ bs "#" ++ me))].
Proof.
  intros L N1 N2 I1 I2 I3 I4. set (body := jsonLine ver ++ _). eexists. split.
  - rewrite request_eval by (unfold FASTJSON; lia). unfold keyOf, strings, FASTJSON. cbn [Z.eqb Pos.eqb negb].
    destruct (packet_16 (dubboFlag true true false 6) st il body L) as [-> E]. set (p := [218; 187; dubboFlag true true false 6; st] ++ il) in *.
    assert (T : forall v, ~ In 10 v -> ~ In 10 (tl v)) by (intros [|a v] NI; [exact NI|intros I; apply NI; right; exact I]).
    assert (X : dubboStrings eatJson getJson (p ++ body) = Ok (sv ++ bs "#" ++ me)).
    { unfold dubboStrings, body. rewrite <- E. rewrite eatJson_at by (try apply T; assumption). cbn [bind].
      rewrite <- zlen_app. rewrite (app_assoc p (jsonLine ver)). rewrite getJson_at by assumption. cbn [bind].
      rewrite <- zlen_app. rewrite (app_assoc (p ++ jsonLine ver) (jsonLine (quoted sv))). rewrite eatJson_at by (try apply T; assumption). cbn [bind].
      rewrite <- zlen_app. rewrite (app_assoc _ (jsonLine sver)). rewrite getJson_at by assumption. reflexivity. }
    rewrite X. cbn [bind]. rewrite key_len. reflexivity.
  - reflexivity.
Qed.
Print Assumptions C26_dubbo_json_call.
Example C26_dubbo_json_call_ex : exists m,
  dubboRequest ([218; 187; 198; 0; 0; 0; 0; 0; 0; 0; 0; 9; 0; 0; 1; 0] ++ jsonLine (quoted (bs "2.0.2")) ++ jsonLine (quoted (bs "StockService")) ++ jsonLine (bs "null") ++ jsonLine (quoted (bs "reserve"))) = Ok (true, m) /\
  m_attrs m = [(LContentKey, SV (bs "StockService#reserve"))].
Proof. eexists. split; vm_compute; reflexivity. Qed.
(** Heartbeats, one-way calls and other serializations carry a fixed key; packets without a serialization, and responses, are no requests. *)
Theorem C26_dubbo_other_requests rq tw ev s st il body : 0 <= s < 32 -> zlen il = 12 ->
  let d := dubboPacket (dubboFlag rq tw ev s) st il body in
  let keyed k := dubboRequest d = Ok (true, addAttr (newRequest d) LContentKey (SV (bs k))) in
  (s = 0 \/ (ev = false /\ rq = false) -> dubboRequest d = Ok (false, newRequest d)) /\
  (s <> 0 -> ev = true -> keyed "Heartbeat") /\
  (s <> 0 -> ev = false -> rq = true -> tw = false -> keyed "Oneway") /\
  (s <> 0 -> s <> HESSIAN2 -> s <> FASTJSON -> ev = false -> rq = true -> tw = true -> keyed "UnSupportSerialFormat").
Proof.
  intros S L d keyed. unfold keyed, d. clear keyed d. rewrite request_eval by assumption. unfold keyOf, strings, HESSIAN2, FASTJSON.
  split; [|split; [|split]].
  - intros [-> | [-> ->]]; [reflexivity|]. destruct (s =? 0); reflexivity.
  - intros N ->. replace (s =? 0) with false by lia. reflexivity.
  - intros N -> -> ->. replace (s =? 0) with false by lia. reflexivity.
  - intros N N2 N6 -> -> ->. replace (s =? 0) with false by lia. replace (s =? 2) with false by lia. replace (s =? 6) with false by lia. reflexivity.
Qed.
Print Assumptions C26_dubbo_other_requests.
Lemma eatHessian_ok d off : Forall is_byte d -> 0 <= off -> exists o, eatHessian d off = Ok o /\ 0 <= o.
Proof.
  intros B O. pose proof (zlen_nonneg d). unfold eatHessian. destruct (zlen d <=? off) eqn:Q; [eexists; split; [reflexivity|lia]|].
  destruct (gindex_in d off ltac:(lia)) as (t & G). rewrite G. cbn [bind]. apply gindex_inv in G. destruct G as [_ G]. apply nth_error_In in G. rewrite Forall_forall in B. pose proof (B _ G) as BT. unfold is_byte in BT.
  destruct ((48 <=? t) && (t <=? 51)) eqn:Q2.
  - destruct (off + 1 =? zlen d) eqn:Q3; [eexists; split; [reflexivity|lia]|]. destruct (gindex_in d (off + 1) ltac:(lia)) as (b & G2). rewrite G2. cbn [bind]. apply gindex_inv in G2. destruct G2 as [_ G2]. apply nth_error_In in G2. specialize (B _ G2). unfold is_byte in B.
    eexists. split; [reflexivity|]. rewrite Z.shiftl_mul_pow2 by lia. lia.
  - eexists. split; [reflexivity|]. lia.
Qed.
Lemma hessianText_ok d off len : 0 <= off <= zlen d -> 0 <= len -> exists v o, hessianText d off len = Ok (v, o) /\ 0 <= o.
Proof.
  intros O L. unfold hessianText. destruct (zlen d <=? off + len) eqn:Q.
  - rewrite gslice_ok by lia. cbn [bind]. eexists. eexists. split; [reflexivity|]. lia.
  - rewrite gslice_ok by lia. cbn [bind]. eexists. eexists. split; [reflexivity|]. lia.
Qed.
Lemma getHessian_ok d off : Forall is_byte d -> 0 <= off -> exists v o, getHessian d off = Ok (v, o) /\ 0 <= o.
Proof.
  intros B O. pose proof (zlen_nonneg d). unfold getHessian. destruct (zlen d <=? off) eqn:Q; [eexists; eexists; split; [reflexivity|lia]|].
  destruct (gindex_in d off ltac:(lia)) as (t & G). rewrite G. cbn [bind]. apply gindex_inv in G. destruct G as [_ G]. apply nth_error_In in G. rewrite Forall_forall in B. pose proof (B _ G) as BT. unfold is_byte in BT.
  destruct ((48 <=? t) && (t <=? 51)) eqn:Q2.
  - destruct (off + 1 =? zlen d) eqn:Q3; [eexists; eexists; split; [reflexivity|lia]|]. destruct (gindex_in d (off + 1) ltac:(lia)) as (b & G2). rewrite G2. cbn [bind]. apply gindex_inv in G2. destruct G2 as [_ G2]. apply nth_error_In in G2. specialize (B _ G2). unfold is_byte in B.
    apply hessianText_ok; [lia|]. rewrite Z.shiftl_mul_pow2 by lia. lia.
  - apply hessianText_ok; lia.
Qed.
Lemma eatJson_ok d off : 0 <= off -> exists o, eatJson d off = Ok o /\ 0 <= o /\ (o < zlen d -> 17 <= o - 1 + (16 - off) /\ gindex d (o - 1) = Ok 10).
Proof.
  intros O. pose proof (zlen_nonneg d). unfold eatJson. destruct (zlen d <=? off) eqn:Q; [eexists; split; [reflexivity|lia]|].
  destruct (scan_spec 10 (Z.to_nat (zlen d - (off + 1))) d (off + 1) ltac:(lia) ltac:(lia)) as [(j & -> & J & G & _)|[-> _]]; cbn [bind]; eexists; (split; [reflexivity|]); [|lia].
  split; [lia|]. intros _. replace (j + 1 - 1) with j by lia. split; [lia|exact G].
Qed.
Lemma getJson_ok d off : 0 <= off -> gindex d (off + 1) <> Ok 10 -> exists v o, getJson d off = Ok (v, o) /\ 0 <= o /\ (o < zlen d -> off < o - 1 /\ gindex d (o - 1) = Ok 10).
Proof.
  intros O N. pose proof (zlen_nonneg d). unfold getJson. destruct (zlen d <=? off) eqn:Q; [eexists; eexists; split; [reflexivity|lia]|].
  destruct (scan_spec 10 (Z.to_nat (zlen d - (off + 1))) d (off + 1) ltac:(lia) ltac:(lia)) as [(j & -> & J & G & _)|[-> _]]; cbn [bind]; [|eexists; eexists; split; [reflexivity|lia]].
  assert (j <> off + 1) by congruence. rewrite gslice_ok by lia. cbn [bind]. eexists. eexists. split; [reflexivity|]. split; [lia|]. intros _. replace (j + 1 - 1) with j by lia. split; [lia|exact G].
Qed.
(** Every request gets a verdict, unless it is a two-way call in JSON with a line of a single character. *)
Theorem C26_dubbo_request_total d : Forall is_byte d ->
  (forall f, gindex d 2 = Ok f -> Z.land f 31 <> FASTJSON) \/ (forall i, 17 <= i -> gindex d i = Ok 10 -> gindex d (i + 2) <> Ok 10) ->
  exists ok m, dubboRequest d = Ok (ok, m) /\
    (ok = true -> 16 <= zlen d /\ gindex d 0 = Ok 218 /\ gindex d 1 = Ok 187 /\ exists k, k <> [] /\ m_attrs m = [(LContentKey, SV k)]) /\
    (ok = false -> m_attrs m = []).
Proof.
  intros B H. destruct (Z_lt_ge_dec (zlen d) 16) as [LT|GE].
  { exists false, (newRequest d). split; [|split; [discriminate|reflexivity]]. unfold dubboRequest, parsePayload, dubboRequestParser. cbn [parseOneFrame]. unfold fastfailDubbo. change (m_data (newRequest d)) with d. replace (zlen d <? 16) with true by lia. reflexivity. }
  destruct (gindex_in d 0 ltac:(lia)) as (a & A). destruct (gindex_in d 1 ltac:(lia)) as (b & BB).
  destruct ((a =? 218) && (b =? 187)) eqn:MG.
  2: { exists false, (newRequest d). split; [|split; [discriminate|reflexivity]]. unfold dubboRequest, parsePayload, dubboRequestParser. cbn [parseOneFrame]. unfold fastfailDubbo. change (m_data (newRequest d)) with d. replace (zlen d <? 16) with false by lia. rewrite A, BB. cbn [bind]. destruct (a =? 218) eqn:Q; cbn [negb bind andb] in *; [rewrite MG|]; reflexivity. }
  assert (a = 218) as -> by lia. assert (b = 187) as -> by lia.
  destruct (packet_split d B ltac:(lia) A BB) as (rq & tw & ev & s & st & il & body & E & S & BS & L).
  assert (K : exists k, keyOf rq tw ev s d = Ok k).
  { unfold keyOf. destruct (s =? 0); [eexists; reflexivity|]. destruct ev; [eexists; reflexivity|]. destruct rq; [|eexists; reflexivity]. destruct tw; [|eexists; reflexivity]. cbn [negb].
    unfold strings. destruct (s =? 2).
    - unfold dubboStrings. destruct (eatHessian_ok d 16 B ltac:(lia)) as (o1 & -> & O1). cbn [bind]. destruct (getHessian_ok d o1 B O1) as (v & o2 & -> & O2). cbn [bind].
      destruct (eatHessian_ok d o2 B O2) as (o3 & -> & O3). cbn [bind]. destruct (getHessian_ok d o3 B O3) as (w & o4 & -> & O4). cbn [bind]. eexists. reflexivity.
    - destruct (s =? 6) eqn:Q6; [|eexists; reflexivity]. destruct H as [H|H].
      + exfalso. apply (H (dubboFlag true true false s)); [rewrite E; reflexivity|]. destruct (flag_bits true true false s S) as (-> & _). unfold FASTJSON. lia.
      + unfold dubboStrings. destruct (eatJson_ok d 16 ltac:(lia)) as (o1 & -> & O1 & X1). cbn [bind].
        assert (D2 : forall o, 0 <= o -> (o < zlen d -> 17 <= o - 1 /\ gindex d (o - 1) = Ok 10) -> gindex d (o + 1) <> Ok 10).
        { intros o OO X G. pose proof (gindex_inv _ _ _ G) as [R _]. destruct (X ltac:(lia)) as [R1 G1]. apply (H (o - 1) R1 G1). replace (o - 1 + 2) with (o + 1) by lia. exact G. }
        destruct (getJson_ok d o1 O1 (D2 o1 O1 ltac:(intros Y; destruct (X1 Y); split; [lia|assumption]))) as (v & o2 & -> & O2 & X2). cbn [bind].
        destruct (eatJson_ok d o2 O2) as (o3 & -> & O3 & X3). cbn [bind].
        assert (P2 : o2 < zlen d -> 17 <= o2 - 1).
        { intros Y. destruct (X2 Y) as [Z1 _]. destruct (Z_lt_ge_dec o1 (zlen d)) as [C|C]; [destruct (X1 C); lia|lia]. }
        destruct (getJson_ok d o3 O3 (D2 o3 O3 ltac:(intros Y; destruct (X3 Y); split; [destruct (Z_lt_ge_dec o2 (zlen d)) as [C|C]; [specialize (P2 C); lia|lia]|assumption]))) as (w & o4 & -> & _ & _). cbn [bind]. eexists. reflexivity. }
  destruct K as (k & K). assert (EV : dubboRequest d = bind (keyOf rq tw ev s d) (fun k => Ok (if zlen k =? 0 then (false, newRequest d) else (true, addAttr (newRequest d) LContentKey (SV k))))) by (rewrite E; apply request_eval; assumption).
  rewrite EV, K. cbn [bind]. destruct (zlen k =? 0) eqn:Q.
  - exists false, (newRequest d). split; [reflexivity|]. split; [discriminate|reflexivity].
  - exists true. eexists. split; [reflexivity|]. split; [|discriminate]. intros _. split; [lia|]. split; [exact A|]. split; [exact BB|]. exists k. split; [intros ->; discriminate|reflexivity].
Qed.
Print Assumptions C26_dubbo_request_total.
(** A JSON line of one character stops the process. *)
Theorem C26_dubbo_json_short_line_panics_refuted il st ver c rest : zlen il = 12 -> ver <> [] -> ~ In 10 ver ->
  dubboRequest (dubboPacket (dubboFlag true true false FASTJSON) st il (jsonLine ver ++ [c; 10] ++ rest)) = Panic.
Proof.
  intros L NE N. rewrite request_eval by (unfold FASTJSON; lia). unfold keyOf, strings, FASTJSON. cbn [Z.eqb Pos.eqb negb].
  destruct (packet_16 (dubboFlag true true false 6) st il (jsonLine ver ++ [c; 10] ++ rest) L) as [-> E]. set (p := [218; 187; dubboFlag true true false 6; st] ++ il) in *.
  unfold dubboStrings. rewrite <- E. rewrite eatJson_at; [|exact NE|destruct ver; [assumption|intros I; apply N; right; exact I]]. cbn [bind].
  rewrite <- zlen_app, (app_assoc p). unfold getJson. pose proof (zlen_nonneg rest). pose proof (zlen_nonneg (p ++ jsonLine ver)).
  assert (LT : zlen ((p ++ jsonLine ver) ++ [c; 10] ++ rest) = zlen (p ++ jsonLine ver) + 2 + zlen rest) by (rewrite (zlen_app (p ++ jsonLine ver)), (zlen_app [c; 10]); change (zlen [c; 10]) with 2; lia).
  replace (zlen ((p ++ jsonLine ver) ++ [c; 10] ++ rest) <=? zlen (p ++ jsonLine ver)) with false by lia. rewrite LT.
  replace (Z.to_nat (zlen (p ++ jsonLine ver) + 2 + zlen rest - (zlen (p ++ jsonLine ver) + 1))) with (S (Z.to_nat (zlen rest))) by lia.
  cbn [scan]. cbn [app]. rewrite g1. cbn [bind]. change (10 =? 10) with true. cbn iota. cbn [bind].
  unfold gslice. match goal with |- context [if ?x then Ok _ else Panic] => replace x with false by lia end. reflexivity.
Qed.
Print Assumptions C26_dubbo_json_short_line_panics_refuted.
Example C26_dubbo_json_short_line_ex : dubboRequest ([218; 187; 198; 0; 0; 0; 0; 0; 0; 0; 0; 9; 0; 0; 1; 0] ++ bs """2.0.2""" ++ [10; 49; 10]) = Panic.
Proof. vm_compute. reflexivity. Qed.
(** A call without a service version: Hessian writes null as the letter N, which is read as a string of 78 bytes, so the method is lost. *)
Theorem C26_dubbo_null_version_refuted il st ver sv me rest : zlen il = 12 -> zlen ver < 1024 -> zlen sv < 1024 -> zlen (hessian me ++ rest) <= 78 ->
  exists m, dubboRequest (dubboPacket (dubboFlag true true false HESSIAN2) st il (hessian ver ++ hessian sv ++ [78] ++ hessian me ++ rest)) = Ok (true, m) /\
    m_attrs m = [(LContentKey, SV (sv ++ bs "#"))].
Proof.
  intros L V1 V2 V3. eexists. split.
  - rewrite request_eval by (unfold HESSIAN2; lia). unfold keyOf, strings, HESSIAN2. cbn [Z.eqb Pos.eqb negb].
    set (body := hessian ver ++ _). destruct (packet_16 (dubboFlag true true false 2) st il body L) as [-> E]. set (p := [218; 187; dubboFlag true true false 2; st] ++ il) in *.
    assert (X : dubboStrings eatHessian getHessian (p ++ body) = Ok (sv ++ bs "#" ++ [])).
    { unfold dubboStrings, body. rewrite <- E. rewrite eat_at by exact V1. cbn [bind]. rewrite <- zlen_app, (app_assoc p). rewrite get_at by exact V2. cbn [bind].
      rewrite <- zlen_app, (app_assoc (p ++ hessian ver)). set (q := (p ++ hessian ver) ++ hessian sv). 
      assert (LT : zlen (q ++ [78] ++ hessian me ++ rest) = zlen q + 1 + zlen (hessian me ++ rest)) by (rewrite zlen_app, (zlen_app [78]), zlen_one; lia). pose proof (zlen_nonneg (hessian me ++ rest)).
      unfold eatHessian. replace (zlen (q ++ [78] ++ hessian me ++ rest) <=? zlen q) with false by lia. cbn [app]. rewrite g0. cbn [bind]. change ((48 <=? 78) && (78 <=? 51)) with false. cbn iota. cbn [bind].
      unfold getHessian. change (78 :: hessian me ++ rest) with ([78] ++ hessian me ++ rest). replace (zlen (q ++ [78] ++ hessian me ++ rest) <=? zlen q + 1 + 78) with true by lia. reflexivity. }
    rewrite X. cbn [bind]. rewrite key_len. reflexivity.
  - rewrite app_nil_r. reflexivity.
Qed.
Print Assumptions C26_dubbo_null_version_refuted.
Example C26_dubbo_null_version_ex : exists m, dubboRequest ([218; 187; 194; 0; 0; 0; 0; 0; 0; 0; 0; 9; 0; 0; 1; 0] ++ hessian (bs "2.0.2") ++ hessian (bs "StockService") ++ [78] ++ hessian (bs "reserve") ++ [0]) = Ok (true, m) /\
  m_attrs m = [(LContentKey, SV (bs "StockService#"))].
Proof. eexists. split; vm_compute; reflexivity. Qed.

(** ** Responses *)
Lemma response_eval rq tw ev s st il body attrs : 0 <= s < 32 -> is_byte st -> zlen il = 12 -> let d := dubboPacket (dubboFlag rq tw ev s) st il body in let m := newResponse d attrs in
  dubboResponse d attrs = Ok (if (s =? 0) || (negb ev && rq) then (false, m)
    else let c := if ev then 20 else st in let m1 := addAttr m LDubboErrorCode (IV c) in
      (true, if 20 <? c then addAttr (addAttr m1 LIsError (BV true)) LErrorType (IV ProtocolError) else m1)).
Proof.
  intros S BS L d m. unfold is_byte in BS. unfold dubboResponse, parsePayload, dubboResponseParser. cbn [parseOneFrame]. unfold fastfailDubbo. fold m. change (m_data m) with d.
  unfold d at 1. rewrite packet_len16 by exact L. pose proof (zlen_nonneg body). replace (16 + zlen body <? 16) with false by lia.
  change (gindex d 0) with (Ok 218). change (gindex d 1) with (Ok 187). cbn [bind Z.eqb Pos.eqb negb]. unfold parseDubboResponse. change (m_data m) with d.
  unfold getErrorCode. change (gindex d 2) with (Ok (dubboFlag rq tw ev s)). change (gindex d 3) with (Ok st). cbn [bind].
  destruct (flag_bits rq tw ev s S) as (-> & -> & -> & _). rewrite !negb_involutive. destruct (s =? 0); [reflexivity|]. destruct ev; [reflexivity|]. destruct rq; [reflexivity|].
  cbn [bind orb negb andb]. replace (st =? -1) with false by lia. reflexivity.
Qed.
(** A response is labelled with its status, and is an error exactly above 20 (OK); heartbeats are fine whatever they say. *)
Theorem C26_dubbo_response tw ev s st il body attrs : 0 < s < 32 -> is_byte st -> zlen il = 12 ->
  exists m, dubboResponse (dubboPacket (dubboFlag false tw ev s) st il body) attrs = Ok (true, m) /\
    (forall k, k <> LDubboErrorCode -> k <> LIsError -> k <> LErrorType -> aget (m_attrs m) k = aget attrs k) /\
    aget (m_attrs m) LDubboErrorCode = Some (IV (if ev then 20 else st)) /\
    (ev = false /\ 20 < st -> aget (m_attrs m) LIsError = Some (BV true) /\ aget (m_attrs m) LErrorType = Some (IV ProtocolError)) /\
    (ev = true \/ st <= 20 -> aget (m_attrs m) LIsError = aget attrs LIsError /\ aget (m_attrs m) LErrorType = aget attrs LErrorType).
Proof.
  intros S BS L. rewrite response_eval by (try assumption; lia). replace (s =? 0) with false by lia. rewrite andb_false_r. cbn [orb]. cbn zeta. eexists. split; [reflexivity|].
  destruct ev; [change (20 <? 20) with false; cbn iota|].
  - split; [intros k K1 K2 K3; cbn [addAttr newResponse m_attrs]; rewrite aget_aset_other by congruence; reflexivity|]. split; [labels; reflexivity|]. split; [intros [X _]; discriminate|]. intros _. split; labels; reflexivity.
  - destruct (20 <? st) eqn:Q.
    + split; [intros k K1 K2 K3; cbn [addAttr newResponse m_attrs]; rewrite !aget_aset_other by congruence; reflexivity|]. split; [labels; reflexivity|]. split; [intros _; split; labels; reflexivity|]. intros [X|X]; [discriminate|lia].
    + split; [intros k K1 K2 K3; cbn [addAttr newResponse m_attrs]; rewrite aget_aset_other by congruence; reflexivity|]. split; [labels; reflexivity|]. split; [intros [_ X]; lia|]. intros _. split; labels; reflexivity.
Qed.
Print Assumptions C26_dubbo_response.
Example C26_dubbo_response_ex : exists m, dubboResponse ([218; 187; 2; 31; 0; 0; 0; 0; 0; 0; 0; 9; 0; 0; 0; 0]) [(LContentKey, SV (bs "S#m"))] = Ok (true, m) /\
  m_attrs m = [(LContentKey, SV (bs "S#m")); (LDubboErrorCode, IV 31); (LIsError, BV true); (LErrorType, IV 3)].
Proof. eexists. split; vm_compute; reflexivity. Qed.
(** Every response gets a verdict; what is refused leaves the labels alone. *)
Theorem C26_dubbo_response_total d attrs : Forall is_byte d -> exists ok m, dubboResponse d attrs = Ok (ok, m) /\
  (ok = false -> m = newResponse d attrs) /\
  (ok = true <-> exists rq tw ev s st il body, d = dubboPacket (dubboFlag rq tw ev s) st il body /\ 0 < s < 32 /\ zlen il = 12 /\ (ev = true \/ rq = false)).
Proof.
  intros B.
  assert (NO : forall X : Prop, (16 <= zlen d /\ gindex d 0 = Ok 218 /\ gindex d 1 = Ok 187 -> False) ->
     (exists rq tw ev s st il body, d = dubboPacket (dubboFlag rq tw ev s) st il body /\ 0 < s < 32 /\ zlen il = 12 /\ (ev = true \/ rq = false)) -> X).
  { intros X N (rq & tw & ev & s & st & il & body & -> & _ & L & _). exfalso. apply N. rewrite packet_len16 by exact L. pose proof (zlen_nonneg body). split; [lia|]. split; reflexivity. }
  destruct (Z_lt_ge_dec (zlen d) 16) as [LT|GE].
  { exists false, (newResponse d attrs). split; [|split; [reflexivity|split; [discriminate|apply NO; lia]]]. unfold dubboResponse, parsePayload, dubboResponseParser. cbn [parseOneFrame]. unfold fastfailDubbo. change (m_data (newResponse d attrs)) with d. replace (zlen d <? 16) with true by lia. reflexivity. }
  destruct (gindex_in d 0 ltac:(lia)) as (a & A). destruct (gindex_in d 1 ltac:(lia)) as (b & BB).
  destruct ((a =? 218) && (b =? 187)) eqn:MG.
  2: { exists false, (newResponse d attrs). split; [|split; [reflexivity|split; [discriminate|apply NO; intros (_ & X & Y); rewrite A in X; rewrite BB in Y; injection X as ->; injection Y as ->; discriminate]]]. unfold dubboResponse, parsePayload, dubboResponseParser. cbn [parseOneFrame]. unfold fastfailDubbo. change (m_data (newResponse d attrs)) with d. replace (zlen d <? 16) with false by lia. rewrite A, BB. cbn [bind]. destruct (a =? 218) eqn:Q; cbn [negb bind andb] in *; [rewrite MG|]; reflexivity. }
  assert (a = 218) as -> by lia. assert (b = 187) as -> by lia.
  destruct (packet_split d B ltac:(lia) A BB) as (rq & tw & ev & s & st & il & body & -> & S & BS & L).
  rewrite response_eval by assumption. destruct ((s =? 0) || (negb ev && rq)) eqn:Q.
  - exists false. eexists. split; [reflexivity|]. split; [reflexivity|]. split; [discriminate|].
    intros (rq' & tw' & ev' & s' & st' & il' & body' & E & S' & L' & C). exfalso. unfold dubboPacket in E. cbn [app] in E. injection E as E _ _.
    destruct (flag_bits rq tw ev s S) as (F1 & F2 & F3 & _). destruct (flag_bits rq' tw' ev' s' ltac:(lia)) as (G1 & G2 & G3 & _). rewrite E in *. rewrite F1 in G1. rewrite F2 in G2. rewrite F3 in G3.
    destruct ev, ev', rq, rq'; cbn [negb andb orb] in *; try discriminate; destruct C; try discriminate; lia.
  - exists true. eexists. split; [reflexivity|]. split; [discriminate|]. split; [|reflexivity]. intros _. exists rq, tw, ev, s, st, il, body. split; [reflexivity|]. split; [lia|]. split; [exact L|]. destruct ev; [left; reflexivity|right]. destruct rq; [cbn in Q; lia|reflexivity].
Qed.
Print Assumptions C26_dubbo_response_total.
