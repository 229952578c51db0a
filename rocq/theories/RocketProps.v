(** C26, RocketMQ. The JSON decoder is an arbitrary function throughout. *)
From Verif Require Import Base Decimal DetectProofs AttrModel LabelNames MsgModel ReaderSpec ReaderProofs ReaderProps TextProofs HttpProofs RocketModel RocketSpec.
Open Scope string_scope. Open Scope list_scope. Open Scope Z_scope.

(** ** The names of requests and errors *)
Lemma table (t : list (Z * string)) (sp : list (string * Z)) : forallb (fun p => existsb (fun q => eqb (fst q) (snd p) && (snd q =? fst p)) sp) t = true ->
  forallb (fun q => match aget t (snd q) with Some n => eqb n (fst q) | None => false end) sp = true -> forall c n, aget t c = Some n <-> In (n, c) sp.
Proof.
  intros A B c n. rewrite forallb_forall in A, B. split; intros H.
  - apply aget_in in H. specialize (A _ H). apply existsb_exists in A. destruct A as ((n2 & c2) & I & E). cbn [fst snd] in E. apply andb_true_iff in E. destruct E as (E1 & E2).
    apply eqb_true in E1. apply Z.eqb_eq in E2. subst. exact I.
  - specialize (B _ H). cbn [fst snd] in B. destruct (aget t c) as [m|]; [|discriminate]. apply eqb_true in B. subst. reflexivity.
Qed.
(** The label of a request's code is the name of the kind of request with that code; the label of an unknown code is empty. *)
Lemma request_kinds c n : aget requestMsgMap c = Some n <-> In (n, c) requestKinds.
Proof. revert c n. apply table; vm_compute; reflexivity. Qed.
Lemma error_kinds c n : aget responseErrMsgMap c = Some n <-> In (n, c) errorKinds.
Proof. revert c n. apply table; vm_compute; reflexivity. Qed.
Theorem C26_rocketmq_names code : (forall name, In (name, code) requestKinds -> msgOf requestMsgMap code = bs name) /\ ((forall name, ~ In (name, code) requestKinds) -> msgOf requestMsgMap code = []) /\
  (forall name, In (name, code) errorKinds <-> aget responseErrMsgMap code = Some name).
Proof.
  split; [intros name H; apply request_kinds in H; unfold msgOf; rewrite H; reflexivity|]. split; [|intros name; split; apply error_kinds].
  intros H. unfold msgOf. destruct (aget requestMsgMap code) as [n|] eqn:E; [|reflexivity]. exfalso. apply request_kinds in E. exact (H _ E).
Qed.
Print Assumptions C26_rocketmq_names.
Example C26_rocketmq_names_example : msgOf requestMsgMap 10 = bs "SEND_MESSAGE" /\ In ("SEND_MESSAGE", 10) requestKinds /\ msgOf requestMsgMap 16 = [].
Proof. split; [vm_compute; reflexivity|]. split; [|vm_compute; reflexivity]. vm_compute. tauto. Qed.

Lemma field_len k v : zlen (field (k, v)) = 6 + zlen k + zlen v.
Proof. unfold field. cbn [fst snd]. rewrite !zlen_app. change (zlen (be16 (zlen k))) with 2. change (zlen (be32 (zlen v))) with 4. lia. Qed.
Lemma find_none l : find isTopic l = None -> forall kv, In kv l -> isTopic kv = false.
Proof. intros F kv I. exact (find_none isTopic l F kv I). Qed.
Lemma ext_loop : forall l f p d rest m used n, d = p ++ fields l ++ rest -> used + 29 = zlen p -> smallFields l ->
  (List.length l < f)%nat -> aget m (bs "topic") = None -> aget m (bs "b") = None ->
  (n = used + zlen (fields l) \/ (used + zlen (fields l) <= n /\ find isTopic l <> None)) ->
  exists m', extLoop f d (zlen p) used n m = Ok m' /\
    match find isTopic l with
    | Some (k, v) => aget m' k = Some v /\ forall k', (k' = bs "topic" \/ k' = bs "b") -> k' <> k -> aget m' k' = None
    | None => aget m' (bs "topic") = None /\ aget m' (bs "b") = None
    end.
Proof.
  induction l as [|[k v] l IH]; intros f p d rest m used n D U SM F T B N; (destruct f as [|f]; [cbn in F; lia|]); cbn [extLoop].
  - destruct N as [N|[_ N]]; [|cbn in N; congruence]. change (fields []) with (@nil Z) in N. rewrite zlen_nil in N. replace (used <? n) with false by lia. cbn [andb].
    exists m. split; [reflexivity|]. cbn [find]. split; assumption.
  - assert (FL : fields ((k, v) :: l) = field (k, v) ++ fields l) by reflexivity. rewrite FL in *. clear FL.
    pose proof (field_len k v) as LF. pose proof (zlen_nonneg k) as NK. pose proof (zlen_nonneg v) as NV. pose proof (zlen_nonneg (fields l)) as NF. pose proof (zlen_nonneg rest) as NR.
    assert (LD : zlen d = zlen p + zlen (field (k, v)) + zlen (fields l) + zlen rest) by (rewrite D, !zlen_app; lia). rewrite zlen_app in N.
    replace (used <? n) with true by lia. replace (used + 29 <? zlen d) with true by lia. cbn [andb].
    inversion SM as [|? ? [SK SV] SM']; subst. cbn [fst snd] in SK, SV.
    assert (D1 : p ++ (field (k, v) ++ fields l) ++ rest = p ++ be16 (zlen k) ++ (k ++ be32 (zlen v) ++ v ++ fields l ++ rest)) by (unfold field; cbn [fst snd]; rewrite <- !app_assoc; reflexivity).
    assert (R1 : readInt16 (p ++ (field (k, v) ++ fields l) ++ rest) (zlen p) = Ok (zlen k, zlen p + 2)) by (rewrite D1; apply readInt16_at; lia).
    assert (R2 : readBytes (p ++ (field (k, v) ++ fields l) ++ rest) (zlen p + 2) (zlen k) = Ok (k, zlen p + 2 + zlen k)).
    { rewrite D1, app_assoc. replace (zlen p + 2) with (zlen (p ++ be16 (zlen k))) by (rewrite zlen_app; reflexivity). apply readBytes_at. }
    assert (R3 : readInt32 (p ++ (field (k, v) ++ fields l) ++ rest) (zlen p + 2 + zlen k) = Ok (zlen v, zlen p + 2 + zlen k + 4)).
    { rewrite D1. rewrite (app_assoc p), (app_assoc (p ++ be16 (zlen k))). replace (zlen p + 2 + zlen k) with (zlen ((p ++ be16 (zlen k)) ++ k)) by (rewrite !zlen_app; reflexivity). apply readInt32_at. lia. }
    assert (R4 : readBytes (p ++ (field (k, v) ++ fields l) ++ rest) (zlen p + 2 + zlen k + 4) (zlen v) = Ok (v, zlen p + 2 + zlen k + 4 + zlen v)).
    { rewrite D1. rewrite (app_assoc p), (app_assoc (p ++ be16 (zlen k))), (app_assoc ((p ++ be16 (zlen k)) ++ k)). replace (zlen p + 2 + zlen k + 4) with (zlen (((p ++ be16 (zlen k)) ++ k) ++ be32 (zlen v))) by (rewrite !zlen_app; reflexivity). apply readBytes_at. }
    rewrite R1. cbn [orBreak]. rewrite R2. cbn [orBreak]. rewrite R3. cbn [orBreak]. rewrite R4. cbn [orBreak]. cbn [find]. cbn zeta. unfold isTopic at 1 2. cbn [fst].
    destruct (eqb k (bs "topic") || eqb k (bs "b")) eqn:Q.
    + eexists. split; [reflexivity|]. split; [rewrite aget_aset, eqb_refl; reflexivity|]. intros k' [-> | ->] NE; rewrite aget_aset_other by congruence; assumption.
    + apply orb_false_elim in Q. destruct Q as [Q1 Q2]. apply eqb_neq in Q1. apply eqb_neq in Q2.
      replace (zlen p + 2 + zlen k + 4 + zlen v) with (zlen (p ++ field (k, v))) by (rewrite zlen_app, LF; lia).
      apply (IH f (p ++ field (k, v)) _ rest); [rewrite <- !app_assoc; reflexivity|rewrite zlen_app; lia|exact SM'|cbn in F; lia|rewrite aget_aset_other by congruence; exact T|rewrite aget_aset_other by congruence; exact B|].
      destruct N as [N|[N1 N2]]; [left; lia|right]. split; [lia|]. cbn [find] in N2. unfold isTopic at 1 in N2. cbn [fst] in N2. rewrite (proj2 (eqb_neq k (bs "topic")) Q1), (proj2 (eqb_neq k (bs "b")) Q2) in N2. exact N2.
Qed.

Definition safe0 {A} (d : bytes) (off : Z) (r : res (A * Z)) : Prop := r <> Panic /\ forall v o, r = Ok (v, o) -> 0 <= off /\ off <= o /\ o <= zlen d.
Lemma readBytes_safe d off len : safe0 d off (readBytes d off len).
Proof.
  unfold readBytes. destruct ((off <? 0) || (len <? 0)) eqn:Q; [split; [discriminate|intros; discriminate]|]. destruct (zlen d <? off + len) eqn:Q2; [split; [discriminate|intros; discriminate]|].
  rewrite gslice_ok by lia. cbn [bind]. split; [discriminate|]. intros v o E. injection E as _ <-. lia.
Qed.
Lemma extLoop_total : forall f d off used n m, 0 <= off <= zlen d -> zlen d - off < Z.of_nat f -> exists m', extLoop f d off used n m = Ok m'.
Proof.
  induction f as [|f IH]; intros d off used n m O F; [exfalso; lia|]. cbn [extLoop].
  destruct ((used <? n) && (used + 29 <? zlen d)); [|eexists; reflexivity].
  destruct (C20_in_bounds d off) as (_ & [NP1 A1] & _). destruct (readInt16 d off) as [[kl o1]| |]; cbn [orBreak]; [|eexists; reflexivity|congruence]. specialize (A1 kl o1 eq_refl). unfold advanced in A1.
  destruct (readBytes_safe d o1 kl) as [NP2 A2]. destruct (readBytes d o1 kl) as [[k o2]| |]; cbn [orBreak]; [|eexists; reflexivity|congruence]. specialize (A2 k o2 eq_refl).
  destruct (C20_in_bounds d o2) as (_ & _ & [NP3 A3] & _). destruct (readInt32 d o2) as [[vl o3]| |]; cbn [orBreak]; [|eexists; reflexivity|congruence]. specialize (A3 vl o3 eq_refl). unfold advanced in A3.
  destruct (readBytes_safe d o3 vl) as [NP4 A4]. destruct (readBytes d o3 vl) as [[v o4]| |]; cbn [orBreak]; [|eexists; reflexivity|congruence]. specialize (A4 v o4 eq_refl).
  cbn zeta. destruct (eqb k (bs "topic") || eqb k (bs "b")); [eexists; reflexivity|]. apply IH; lia.
Qed.

Section AnyJson.
Variable json : bytes -> option rheader.

Lemma command_len total hl code lang version opaque flag remark n rest : zlen (command total hl code lang version opaque flag remark n rest) = 29 + zlen rest.
Proof. unfold command, be16, be32. cbn [app]. rewrite !zlen_cons. lia. Qed.
Lemma header_eval total hl code lang version opaque flag remark n rest ext :
  - 2 ^ 15 <= code < 2 ^ 15 -> - 2 ^ 31 <= opaque < 2 ^ 31 -> - 2 ^ 31 <= remark < 2 ^ 31 -> - 2 ^ 31 <= n < 2 ^ 31 ->
  let d := command total hl code lang version opaque flag remark n rest in
  (if (0 <? n) && (remark =? 0) then extLoop (S (List.length d)) d 29 0 n [] else Ok []) = Ok ext ->
  rocketHeader json d = Ok (Some {| r_code := code; r_opaque := opaque; r_remark := []; r_ext := ext |}).
Proof.
  intros C O RM NN d EX. unfold rocketHeader. change (gindex d 4) with (Ok 1). cbn [bind]. change (1 =? 0) with false. change (1 =? 1) with true. cbn iota. unfold parseHeader.
  set (h8 := be32 total ++ [1; hl / 2 ^ 16 mod 2 ^ 8; hl / 2 ^ 8 mod 2 ^ 8; hl mod 2 ^ 8]).
  assert (R8 : readInt16 d 8 = Ok (code, 10)) by (exact (readInt16_at h8 code ([lang] ++ be16 version ++ be32 opaque ++ be32 flag ++ be32 remark ++ be32 n ++ rest) C)).
  assert (R13 : readInt32 d 13 = Ok (opaque, 17)) by (exact (readInt32_at (h8 ++ be16 code ++ [lang] ++ be16 version) opaque (be32 flag ++ be32 remark ++ be32 n ++ rest) O)).
  assert (R21 : readInt32 d 21 = Ok (remark, 25)) by (exact (readInt32_at (h8 ++ be16 code ++ [lang] ++ be16 version ++ be32 opaque ++ be32 flag) remark (be32 n ++ rest) RM)).
  assert (R25 : readInt32 d 25 = Ok (n, 29)) by (exact (readInt32_at (h8 ++ be16 code ++ [lang] ++ be16 version ++ be32 opaque ++ be32 flag ++ be32 remark) n rest NN)).
  rewrite R8, R13, R21, R25. change (gindex d 10) with (Ok lang). cbn [orZero bind]. rewrite EX. reflexivity.
Qed.
Lemma request_eval d : 29 <= zlen d -> rocketRequest json d = bind (parseRocketRequest json (newRequest d)) (fun '((ok, _), m) => Ok (ok, m)).
Proof.
  intros L. unfold rocketRequest, parsePayload. cbn [parseOneFrame]. unfold fastfailRocket. change (m_data (newRequest d)) with d. replace (zlen d <? 29) with false by lia. cbn [bind].
  unfold parseRocketRequest. destruct (rocketHeader json (m_data (newRequest d))) as [[h|]| |]; reflexivity.
Qed.
(** A request is labelled with its kind and its opaque number, and keyed by its topic, or else by its kind. *)
Theorem C26_rocketmq_request total hl code lang version opaque flag n l rest :
  - 2 ^ 15 <= code < 2 ^ 15 -> - 2 ^ 31 <= opaque < 2 ^ 31 -> smallFields l -> n < 2 ^ 31 ->
  n = zlen (fields l) \/ (zlen (fields l) <= n /\ find isTopic l <> None) ->
  exists m, rocketRequest json (command total hl code lang version opaque flag 0 n (fields l ++ rest)) = Ok (true, m) /\
    m_attrs m = [(LRocketMQRequestMsg, SV (msgOf requestMsgMap code)); (LRocketMQOpaque, IV opaque);
      (LContentKey, SV (if eqb (topicOf l) [] then msgOf requestMsgMap code else bs "Topic:" ++ topicOf l))].
Proof.
  intros C O SM NB N. pose proof (zlen_nonneg (fields l)) as NF. pose proof (zlen_nonneg rest) as NR. set (d := command _ _ _ _ _ _ _ _ _ _).
  assert (LD : zlen d = 29 + zlen (fields l ++ rest)) by apply command_len. rewrite zlen_app in LD.
  assert (X : exists ext, (if (0 <? n) && (0 =? 0) then extLoop (S (List.length d)) d 29 0 n [] else Ok []) = Ok ext /\
    match find isTopic l with
    | Some (k, v) => aget ext k = Some v /\ forall k', (k' = bs "topic" \/ k' = bs "b") -> k' <> k -> aget ext k' = None
    | None => aget ext (bs "topic") = None /\ aget ext (bs "b") = None
    end).
  { destruct (0 <? n) eqn:Q.
    - pose (p := be32 total ++ [1; hl / 2 ^ 16 mod 2 ^ 8; hl / 2 ^ 8 mod 2 ^ 8; hl mod 2 ^ 8] ++ be16 code ++ [lang] ++ be16 version ++ be32 opaque ++ be32 flag ++ be32 0 ++ be32 n).
      assert (LL : (List.length l <= List.length (fields l))%nat).
      { clear. induction l as [|[k v] l IH]; [cbn; lia|]. change (fields ((k, v) :: l)) with (field (k, v) ++ fields l). rewrite app_length. pose proof (field_len k v). unfold zlen in *. cbn [List.length]. lia. }
      exact (ext_loop l (S (List.length d)) p d rest [] 0 n eq_refl eq_refl SM ltac:(unfold zlen in *; lia) eq_refl eq_refl ltac:(rewrite Z.add_0_l; exact N)).
    - exists []. split; [reflexivity|]. destruct l as [|[k v] l]; [split; reflexivity|]. exfalso. change (fields ((k, v) :: l)) with (field (k, v) ++ fields l) in *. rewrite zlen_app, field_len in *. pose proof (zlen_nonneg k). pose proof (zlen_nonneg v). pose proof (zlen_nonneg (fields l)). lia. }
  destruct X as (ext & EX & LK).
  rewrite request_eval by lia. unfold parseRocketRequest. change (m_data (newRequest d)) with d.
  pose proof (header_eval total hl code lang version opaque flag 0 n (fields l ++ rest) ext C O ltac:(lia) ltac:(lia) EX) as HE. fold d in HE. rewrite HE. cbn [bind r_code r_opaque]. cbn zeta.
  eexists. split; [reflexivity|]. cbn [addAttr newRequest m_attrs]. cbv [aset]. cbn [aset eqb Eqb_string String.eqb Ascii.eqb Bool.eqb LRocketMQRequestMsg LRocketMQOpaque LContentKey].
  f_equal. f_equal. f_equal. f_equal. f_equal. unfold extOf, topicOf. cbn [r_ext].
  assert (Z0 : forall x : bytes, (zlen x =? 0) = eqb x []) by (intros [|a x]; [reflexivity|rewrite zlen_cons; pose proof (zlen_nonneg x); replace (1 + zlen x =? 0) with false by lia; reflexivity]).
  destruct (find isTopic l) as [[k v]|] eqn:FI.
  - cbn [snd]. destruct LK as [K1 K2]. pose proof (find_some isTopic l FI) as [_ TK]. unfold isTopic in TK. cbn [fst] in TK. apply orb_true_iff in TK. destruct TK as [TK|TK]; apply eqb_true in TK; subst k.
    + rewrite K1, (K2 (bs "b") (or_intror eq_refl)) by discriminate. rewrite Z0. destruct (eqb v []); reflexivity.
    + rewrite K1, (K2 (bs "topic") (or_introl eq_refl)) by discriminate. rewrite zlen_nil. change (negb (0 =? 0)) with false. cbn iota. rewrite Z0. destruct (eqb v []); reflexivity.
  - destruct LK as [-> ->]. reflexivity.
Qed.
Lemma json_header total header rest h : zlen header < 2 ^ 24 -> 21 <= zlen (header ++ rest) -> json header = Some h ->
  29 <= zlen (jsonCommand total header rest) /\ rocketHeader json (jsonCommand total header rest) = Ok (Some h).
Proof.
  intros LH LR J. set (d := jsonCommand total header rest). pose proof (zlen_nonneg header) as NH.
  assert (LD : 29 <= zlen d) by (unfold d, jsonCommand; rewrite (zlen_app (be32 total)), zlen_app; change (zlen (be32 total)) with 4; match goal with |- context [zlen [?a; ?b; ?c; ?e]] => change (zlen [a; b; c; e]) with 4 end; lia).
  assert (RH : rocketHeader json d = Ok (Some h)).
  { unfold rocketHeader. change (gindex d 4) with (Ok 0). cbn [bind]. change (0 =? 0) with true. cbn iota.
    assert (R4 : readInt32 d 4 = Ok (zlen header, 8)).
    { assert (B : be32 (zlen header) = [0; zlen header / 2 ^ 16 mod 2 ^ 8; zlen header / 2 ^ 8 mod 2 ^ 8; zlen header mod 2 ^ 8]) by (unfold be32; rewrite (Z.div_small _ (2 ^ 24)) by lia; reflexivity).
      unfold d, jsonCommand. rewrite <- B. exact (readInt32_at (be32 total) (zlen header) (header ++ rest) ltac:(lia)). }
    rewrite R4. cbn [orZero bind].
    pose proof (readBytes_at (be32 total ++ [0; zlen header / 2 ^ 16 mod 2 ^ 8; zlen header / 2 ^ 8 mod 2 ^ 8; zlen header mod 2 ^ 8]) header rest) as RB.
    rewrite <- app_assoc in RB. fold (jsonCommand total header rest) in RB. fold d in RB. rewrite zlen_app in RB. change (zlen (be32 total)) with 4 in RB.
    match type of RB with context [zlen [?a; ?b; ?c; ?e]] => change (zlen [a; b; c; e]) with 4 in RB end. change (4 + 4) with 8 in RB. rewrite RB. rewrite J. reflexivity. }
  split; assumption.
Qed.
(** With a JSON header the labels are those of whatever the decoder returns; a header that is cut off or not JSON is refused. *)
Theorem C26_rocketmq_json_request total header rest h : zlen header < 2 ^ 24 -> 21 <= zlen (header ++ rest) -> json header = Some h ->
  exists m, rocketRequest json (jsonCommand total header rest) = Ok (true, m) /\
    aget (m_attrs m) LRocketMQRequestMsg = Some (SV (msgOf requestMsgMap (r_code h))) /\ aget (m_attrs m) LRocketMQOpaque = Some (IV (r_opaque h)) /\
    aget (m_attrs m) LContentKey = Some (SV (
      if negb (eqb (extOf h (bs "topic")) []) then bs "Topic:" ++ extOf h (bs "topic")
      else if negb (eqb (extOf h (bs "b")) []) then bs "Topic:" ++ extOf h (bs "b") else msgOf requestMsgMap (r_code h))).
Proof.
  intros LH LR J. set (d := jsonCommand total header rest). pose proof (zlen_nonneg header) as NH.
  destruct (json_header total header rest h LH LR J) as (LD & RH). fold d in LD, RH.
  rewrite request_eval by exact LD. unfold parseRocketRequest. change (m_data (newRequest d)) with d. rewrite RH. cbn [bind]. cbn zeta. eexists. split; [reflexivity|].
  split; [labels; reflexivity|]. split; [labels; reflexivity|]. labels.
  assert (Z0 : forall x : bytes, (zlen x =? 0) = eqb x []) by (intros [|a x]; [reflexivity|rewrite zlen_cons; pose proof (zlen_nonneg x); replace (1 + zlen x =? 0) with false by lia; reflexivity]).
  rewrite !Z0. reflexivity.
Qed.

(** ** Responses *)
Lemma response_eval d attrs : 29 <= zlen d -> rocketResponse json d attrs = bind (parseRocketResponse json (newResponse d attrs)) (fun '((ok, _), m) => Ok (ok, m)).
Proof.
  intros L. unfold rocketResponse, parsePayload. cbn [parseOneFrame]. unfold fastfailRocket. change (m_data (newResponse d attrs)) with d. replace (zlen d <? 29) with false by lia. cbn [bind].
  unfold parseRocketResponse. destruct (rocketHeader json (m_data (newResponse d attrs))) as [[h|]| |]; try reflexivity. cbn [bind]. destruct (negb (hasAttr (newResponse d attrs) LRocketMQOpaque) || negb (attrInt (newResponse d attrs) LRocketMQOpaque =? r_opaque h)); reflexivity.
Qed.
(** A response is accepted when it repeats the opaque number of its request; a code above zero is an error. *)
Theorem C26_rocketmq_response total hl code lang version opaque flag remark n rest attrs :
  - 2 ^ 15 <= code < 2 ^ 15 -> - 2 ^ 31 <= opaque < 2 ^ 31 -> - 2 ^ 31 <= remark < 2 ^ 31 -> - 2 ^ 31 <= n < 2 ^ 31 ->
  aget attrs LRocketMQOpaque = Some (IV opaque) ->
  exists m, rocketResponse json (command total hl code lang version opaque flag remark n rest) attrs = Ok (true, m) /\
    aget (m_attrs m) LRocketMQErrCode = Some (IV code) /\
    (0 < code -> aget (m_attrs m) LIsError = Some (BV true) /\ aget (m_attrs m) LErrorType = Some (IV ProtocolError) /\
       aget (m_attrs m) LRocketMQErrMsg = Some (SV (match aget responseErrMsgMap code with Some t => bs t | None => bs "error:response code is " ++ formatInt code end))) /\
    (code <= 0 -> aget (m_attrs m) LIsError = aget attrs LIsError /\ aget (m_attrs m) LErrorType = aget attrs LErrorType /\ aget (m_attrs m) LRocketMQErrMsg = aget attrs LRocketMQErrMsg) /\
    (forall k, ~ In k [LRocketMQErrCode; LIsError; LErrorType; LRocketMQErrMsg] -> aget (m_attrs m) k = aget attrs k).
Proof.
  intros C O RM NN A. set (d := command _ _ _ _ _ _ _ _ _ _). assert (LD : zlen d = 29 + zlen rest) by apply command_len. pose proof (zlen_nonneg rest).
  destruct (extLoop_total (S (List.length d)) d 29 0 n []) as (ext & EX); [unfold zlen in *; lia|unfold zlen in *; lia|].
  assert (EX2 : exists e2, (if (0 <? n) && (remark =? 0) then extLoop (S (List.length d)) d 29 0 n [] else Ok []) = Ok e2) by (destruct ((0 <? n) && (remark =? 0)); eexists; [exact EX|reflexivity]).
  destruct EX2 as (e2 & EX2). rewrite response_eval by lia. unfold parseRocketResponse. change (m_data (newResponse d attrs)) with d.
  pose proof (header_eval total hl code lang version opaque flag remark n rest e2 C O RM NN EX2) as HE. fold d in HE. rewrite HE. cbn [bind r_code r_opaque r_remark].
  unfold hasAttr, attrInt, ahas. cbn [newResponse m_attrs]. rewrite A. cbn [asInt negb orb]. rewrite Z.eqb_refl. cbn [negb]. cbn zeta. eexists. split; [reflexivity|].
  destruct (0 <? code) eqn:Q.
  - split; [labels; reflexivity|]. split; [intros _|split; [intros; lia|]].
    + split; [labels; reflexivity|]. split; [labels; reflexivity|]. labels. unfold msgOf. destruct (aget responseErrMsgMap code); reflexivity.
    + intros k N. cbn [In] in N. cbn [addAttr newResponse m_attrs]. rewrite !aget_aset_other by (intros ->; apply N; tauto). reflexivity.
  - split; [labels; reflexivity|]. split; [intros; lia|]. split; [intros _|].
    + split; [labels; reflexivity|]. split; labels; reflexivity.
    + intros k N. cbn [In] in N. cbn [addAttr newResponse m_attrs]. rewrite !aget_aset_other by (intros ->; apply N; tauto). reflexivity.
Qed.
(** With a JSON header: the error of a code above zero is its name, or else the broker's remark, or else the code. *)
Theorem C26_rocketmq_json_response total header rest h attrs : zlen header < 2 ^ 24 -> 21 <= zlen (header ++ rest) -> json header = Some h -> aget attrs LRocketMQOpaque = Some (IV (r_opaque h)) ->
  exists m, rocketResponse json (jsonCommand total header rest) attrs = Ok (true, m) /\ aget (m_attrs m) LRocketMQErrCode = Some (IV (r_code h)) /\
    (0 < r_code h -> aget (m_attrs m) LIsError = Some (BV true) /\ aget (m_attrs m) LErrorType = Some (IV ProtocolError) /\
       (forall name, In (name, r_code h) errorKinds -> aget (m_attrs m) LRocketMQErrMsg = Some (SV (bs name))) /\
       ((forall name, ~ In (name, r_code h) errorKinds) -> r_remark h <> [] -> aget (m_attrs m) LRocketMQErrMsg = Some (SV (r_remark h))) /\
       ((forall name, ~ In (name, r_code h) errorKinds) -> r_remark h = [] -> aget (m_attrs m) LRocketMQErrMsg = Some (SV (bs "error:response code is " ++ formatInt (r_code h))))) /\
    (r_code h <= 0 -> aget (m_attrs m) LIsError = aget attrs LIsError /\ aget (m_attrs m) LErrorType = aget attrs LErrorType /\ aget (m_attrs m) LRocketMQErrMsg = aget attrs LRocketMQErrMsg).
Proof.
  intros LH LR J A. set (d := jsonCommand total header rest). destruct (json_header total header rest h LH LR J) as (LD & RH). fold d in LD, RH.
  rewrite response_eval by exact LD. unfold parseRocketResponse. change (m_data (newResponse d attrs)) with d. rewrite RH. cbn [bind].
  unfold hasAttr, attrInt, ahas. cbn [newResponse m_attrs]. rewrite A. cbn [asInt negb orb]. rewrite Z.eqb_refl. cbn [negb]. cbn zeta. eexists. split; [reflexivity|].
  destruct (0 <? r_code h) eqn:Q.
  - split; [labels; reflexivity|]. split; [intros _|intros; lia]. split; [labels; reflexivity|]. split; [labels; reflexivity|]. unfold msgOf.
    destruct (aget responseErrMsgMap (r_code h)) as [t|] eqn:T.
    + pose proof (proj1 (error_kinds _ _) T) as T'. split; [intros name N; labels; apply error_kinds in N; congruence|]. split; intros N; exfalso; exact (N _ T').
    + split; [intros name N; apply error_kinds in N; congruence|]. split; intros N R; labels.
      * destruct (r_remark h) as [|x l]; [contradiction|]. rewrite zlen_cons. pose proof (zlen_nonneg l). replace (1 + zlen l =? 0) with false by lia. reflexivity.
      * rewrite R. reflexivity.
  - split; [labels; reflexivity|]. split; [intros; lia|]. intros _. split; [labels; reflexivity|]. split; labels; reflexivity.
Qed.
Lemma header_total d : Forall is_byte d -> 29 <= zlen d -> exists oh, rocketHeader json d = Ok oh.
Proof.
  intros B L. unfold rocketHeader. destruct (gindex_in d 4 ltac:(lia)) as (t & ->). cbn [bind].
  assert (Z32 : forall o, exists v, orZero (readInt32 d o) = Ok v).
  { intros o. destruct (C20_in_bounds d o) as (_ & _ & [NP _] & _). destruct (readInt32 d o) as [[v o']| |]; [exists v; reflexivity|exists 0; reflexivity|congruence]. }
  assert (Z16 : forall o, exists v, orZero (readInt16 d o) = Ok v).
  { intros o. destruct (C20_in_bounds d o) as (_ & [NP _] & _). destruct (readInt16 d o) as [[v o']| |]; [exists v; reflexivity|exists 0; reflexivity|congruence]. }
  destruct (t =? 0).
  - destruct (Z32 4) as (hl & ->). cbn [bind]. pose proof (readBytes_safe d 8 hl) as [NP _]. destruct (readBytes d 8 hl) as [[hb o]| |]; [eexists; reflexivity|eexists; reflexivity|congruence].
  - destruct (t =? 1); [|eexists; reflexivity]. unfold parseHeader. destruct (Z16 8) as (code & ->). cbn [bind]. destruct (gindex_in d 10 ltac:(lia)) as (lc & ->). cbn [bind].
    destruct (Z32 13) as (opq & ->). cbn [bind]. destruct (Z32 21) as (rl & ->). cbn [bind]. destruct (Z32 25) as (el & ->). cbn [bind].
    destruct ((0 <? el) && (rl =? 0)); [|eexists; reflexivity]. destruct (extLoop_total (S (List.length d)) d 29 0 el []) as (ext & ->); [lia|unfold zlen; lia|]. eexists. reflexivity.
Qed.
(** A response that does not repeat the number is refused and changes nothing; so does any other refusal. *)
Theorem C26_rocketmq_total d attrs : Forall is_byte d ->
  (exists ok m, rocketRequest json d = Ok (ok, m) /\ (ok = false -> m_attrs m = []) /\ (zlen d < 29 -> ok = false)) /\
  (exists ok m, rocketResponse json d attrs = Ok (ok, m) /\ (ok = false -> m = newResponse d attrs) /\ (zlen d < 29 -> ok = false) /\ (aget attrs LRocketMQOpaque = None -> ok = false)).
Proof.
  intros B. destruct (Z_lt_ge_dec (zlen d) 29) as [S|S].
  - split; exists false; eexists; (split; [unfold rocketRequest, rocketResponse, parsePayload; cbn [parseOneFrame]; unfold fastfailRocket; cbn [newRequest newResponse m_data]; replace (zlen d <? 29) with true by lia; reflexivity|]).
    + split; reflexivity.
    + split; [reflexivity|]. split; reflexivity.
  - destruct (header_total d B ltac:(lia)) as (oh & H). split.
    + rewrite request_eval by lia. unfold parseRocketRequest. change (m_data (newRequest d)) with d. rewrite H. cbn [bind]. destruct oh as [h|]; cbn [bind].
      * exists true. eexists. split; [reflexivity|]. split; [discriminate|lia].
      * exists false. eexists. split; [reflexivity|]. split; reflexivity.
    + rewrite response_eval by lia. unfold parseRocketResponse. change (m_data (newResponse d attrs)) with d. rewrite H. cbn [bind]. destruct oh as [h|]; cbn [bind].
      * unfold hasAttr, ahas. cbn [newResponse m_attrs]. destruct (aget attrs LRocketMQOpaque) as [v|]; cbn [negb orb].
        -- destruct (negb (attrInt (newResponse d attrs) LRocketMQOpaque =? r_opaque h)); cbn [bind].
           ++ exists false. eexists. split; [reflexivity|]. split; [reflexivity|]. split; [lia|discriminate].
           ++ exists true. eexists. split; [reflexivity|]. split; [discriminate|]. split; [lia|discriminate].
        -- cbn [bind]. exists false. eexists. split; [reflexivity|]. split; [reflexivity|]. split; [lia|reflexivity].
      * exists false. eexists. split; [reflexivity|]. split; [reflexivity|]. split; reflexivity.
Qed.
(** A different number is refused. *)
Theorem C26_rocketmq_response_of_other_request total hl code lang version opaque flag remark n rest attrs other :
  - 2 ^ 15 <= code < 2 ^ 15 -> - 2 ^ 31 <= opaque < 2 ^ 31 -> - 2 ^ 31 <= remark < 2 ^ 31 -> - 2 ^ 31 <= n < 2 ^ 31 ->
  aget attrs LRocketMQOpaque = Some (IV other) -> other <> opaque ->
  let d := command total hl code lang version opaque flag remark n rest in rocketResponse json d attrs = Ok (false, newResponse d attrs).
Proof.
  intros C O RM NN A NE d. assert (LD : zlen d = 29 + zlen rest) by apply command_len. pose proof (zlen_nonneg rest).
  destruct (extLoop_total (S (List.length d)) d 29 0 n []) as (ext & EX); [unfold zlen in *; lia|unfold zlen in *; lia|].
  assert (EX2 : exists e2, (if (0 <? n) && (remark =? 0) then extLoop (S (List.length d)) d 29 0 n [] else Ok []) = Ok e2) by (destruct ((0 <? n) && (remark =? 0)); eexists; [exact EX|reflexivity]).
  destruct EX2 as (e2 & EX2). rewrite response_eval by lia. unfold parseRocketResponse. change (m_data (newResponse d attrs)) with d.
  pose proof (header_eval total hl code lang version opaque flag remark n rest e2 C O RM NN EX2) as HE. fold d in HE. rewrite HE. cbn [bind r_code r_opaque r_remark].
  unfold hasAttr, attrInt, ahas. cbn [newResponse m_attrs]. rewrite A. cbn [asInt negb orb]. replace (other =? opaque) with false by lia. reflexivity.
Qed.
End AnyJson.
Print Assumptions C26_rocketmq_request.
Print Assumptions C26_rocketmq_json_request.
Print Assumptions C26_rocketmq_response.
Print Assumptions C26_rocketmq_json_response.
Print Assumptions C26_rocketmq_total.
Print Assumptions C26_rocketmq_response_of_other_request.
Example C26_rocketmq_request_ex : exists m,
  rocketRequest (fun _ => None) (command 100 60 310 9 401 77 0 0 50 (fields [(bs "a", bs "group"); (bs "b", bs "orders")] ++ bs "rest")) = Ok (true, m) /\
  aget (m_attrs m) LContentKey = Some (SV (bs "Topic:orders")) /\ aget (m_attrs m) LRocketMQOpaque = Some (IV 77).
Proof. eexists. split; [vm_compute; reflexivity|]. split; vm_compute; reflexivity. Qed.
Example C26_rocketmq_response_ex : exists m,
  rocketResponse (fun _ => None) (command 100 60 17 9 401 77 1 0 0 []) [(LRocketMQOpaque, IV 77)] = Ok (true, m) /\
  aget (m_attrs m) LIsError = Some (BV true) /\ aget (m_attrs m) LRocketMQErrMsg = Some (SV (bs "TOPIC_NOT_EXIST")).
Proof. eexists. split; [vm_compute; reflexivity|]. split; vm_compute; reflexivity. Qed.
Example C26_rocketmq_json_response_ex : exists m,
  rocketResponse (fun _ => Some {| r_code := 1; r_opaque := 77; r_remark := bs "no route"; r_ext := [] |}) (jsonCommand 40 (bs "{""code"":1,""opaque"":77}") (bs "")) [(LRocketMQOpaque, IV 77)] = Ok (true, m) /\
  aget (m_attrs m) LRocketMQErrMsg = Some (SV (bs "no route")).
Proof. eexists. split; vm_compute; reflexivity. Qed.
