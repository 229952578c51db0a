(** Facts about HTTP header and line parsing. *)
From Verif Require Import Base Decimal DetectProofs AttrModel LabelNames MsgModel ReaderProofs ReaderProps TextModel TextSpec TextProofs TextProps HttpModel HttpSpec.
Open Scope string_scope. Open Scope list_scope. Open Scope Z_scope.

(** Reading labels written under fixed names. *)
Ltac labels :=
  unfold label, addAttr, setOff; cbn [m_attrs m_data m_off];
  repeat (rewrite aget_aset;
          match goal with |- context [if eqb ?a ?b then _ else _] =>
            let v := eval vm_compute in (eqb a b) in change (eqb a b) with v end; cbn iota).

Lemma indexByte_absent c l : ~ In c l -> indexByte c l = -1.
Proof.
  induction l as [|x l IH]; intros N; [reflexivity|]. cbn [indexByte]. destruct (x =? c) eqn:Q; [exfalso; apply N; left; lia|].
  rewrite IH; [reflexivity|]. intros I. apply N. right. exact I.
Qed.
Lemma indexByte_at c l r : ~ In c l -> indexByte c (l ++ c :: r) = zlen l.
Proof.
  induction l as [|x l IH]; intros N; cbn [indexByte app].
  - rewrite Z.eqb_refl. reflexivity.
  - destruct (x =? c) eqn:Q; [exfalso; apply N; left; lia|]. rewrite IH by (intros I; apply N; right; exact I).
    pose proof (zlen_nonneg l). replace (zlen l <? 0) with false by lia. rewrite zlen_cons. lia.
Qed.
Lemma indexByte_range c l : -1 <= indexByte c l < zlen l \/ (indexByte c l = -1 /\ l = []).
Proof.
  induction l as [|x l IH]; [right; split; reflexivity|]. left. cbn [indexByte]. rewrite zlen_cons. pose proof (zlen_nonneg l).
  destruct (x =? c); [lia|]. destruct IH as [IH|[-> ->]]; [|cbn; lia]. destruct (indexByte c l <? 0) eqn:Q; lia.
Qed.

Lemma readUntilCRLF_total d from : 0 <= from -> readUntilCRLF d from = Ok None \/
  exists v o, readUntilCRLF d from = Ok (Some (v, o)) /\ from < o <= zlen d.
Proof.
  intros F. destruct (Z.le_gt_cases from (zlen d)) as [L|L].
  - destruct (C20_text_in_bounds d from) as (_ & _ & [E|(v & o & E & B & _)]); [lia|left; exact E|right; exists v, o; split; [exact E|lia]].
  - left. unfold readUntilCRLF. replace (zlen d <=? from) with true by lia. reflexivity.
Qed.
Lemma headersLoop_total : forall f d from acc, 0 <= from -> exists r, headersLoop f d from acc = Ok r.
Proof.
  induction f as [|f IH]; intros d from acc F; cbn [headersLoop]; [exists acc; reflexivity|].
  destruct (readUntilCRLF_total d from F) as [E|(v & o & E & B)]; rewrite E; cbn [bind]; [exists acc; reflexivity|].
  destruct ((0 <? indexByte 58 v) && (indexByte 58 v <? zlen v - 2)) eqn:Q; [|exists acc; reflexivity].
  rewrite !gslice_ok by lia. cbn [bind]. apply IH. lia.
Qed.
Lemma parseHeaders_total d : exists r, parseHeaders d = Ok r.
Proof.
  unfold parseHeaders. destruct (readUntilCRLF_total d 0) as [E|(v & o & E & B)]; [lia| |]; rewrite E; cbn [bind]; [exists []; reflexivity|].
  apply headersLoop_total. lia.
Qed.

Definition addHeader (a : list (bytes * bytes)) (h : header) : list (bytes * bytes) := aset a (lower (fst h)) (snd h).
Lemma toLower_lower s : toLower s = lower s.
Proof. reflexivity. Qed.
Lemma headersLoop_block : forall hs pre rest acc fuel, Forall goodHeader hs -> endOfHeaders rest -> (List.length hs < fuel)%nat ->
  headersLoop fuel (pre ++ headerBlock hs ++ rest) (zlen pre) acc = Ok (fold_left addHeader hs acc).
Proof.
  induction hs as [|h hs IH]; intros pre rest acc fuel G R F; (destruct fuel as [|fuel]; [lia|]); cbn [headersLoop].
  - cbn [headerBlock map List.concat app fold_left]. destruct R as [->|(body & ->)].
    + rewrite app_nil_r. destruct (C20_until_crlf pre [] [] (fun x => x)) as (_ & _ & _ & _ & E). rewrite E by lia. reflexivity.
    + destruct (C20_until_crlf pre [] body (fun x => x)) as (E & _). cbn [app] in E. unfold CRLF. cbn [app]. rewrite E. reflexivity.
  - inversion G as [|? ? GH G2]; subst. destruct h as [k v]. destruct GH as (K0 & K1 & K2 & V0 & V1). cbn [fst snd] in *.
    assert (KP : 0 < zlen k) by (destruct k; [congruence|rewrite zlen_cons; pose proof (zlen_nonneg k); lia]).
    assert (VP : 0 < zlen v) by (destruct v; [congruence|rewrite zlen_cons; pose proof (zlen_nonneg v); lia]).
    set (line := k ++ bs ": " ++ v). assert (NL : ~ In 13 line).
    { unfold line. intros I. apply in_app_or in I. destruct I as [I|I]; [contradiction|]. cbn in I. destruct I as [I|[I|I]]; try discriminate. contradiction. }
    assert (D : pre ++ headerBlock ((k, v) :: hs) ++ rest = pre ++ line ++ 13 :: 10 :: (headerBlock hs ++ rest)).
    { unfold headerBlock, headerLine, line. cbn [map List.concat fst snd]. rewrite <- !app_assoc. reflexivity. }
    match goal with |- context [readUntilCRLF ?x _] => replace x with (pre ++ line ++ 13 :: 10 :: (headerBlock hs ++ rest)) by (symmetry; exact D) end.
    destruct (C20_until_crlf pre line (headerBlock hs ++ rest) NL) as (E & _). rewrite E. cbn [bind].
    assert (P : indexByte 58 line = zlen k) by (unfold line; cbn [bs app list_ascii_of_string map]; apply indexByte_at; exact K1). rewrite P.
    assert (LL : zlen line = zlen k + 2 + zlen v) by (unfold line; rewrite !zlen_app; change (zlen (bs ": ")) with 2; lia).
    replace ((0 <? zlen k) && (zlen k <? zlen line - 2)) with true by lia.
    replace (gslice line 0 (zlen k)) with (Ok k).
    2: { symmetry. unfold line. change (k ++ bs ": " ++ v) with ([] ++ k ++ (bs ": " ++ v)). apply gslice_mid; [reflexivity|]. change (zlen (@nil Z)) with 0. lia. }
    replace (gslice line (zlen k + 2) (zlen line)) with (Ok v).
    2: { symmetry. unfold line at 1. rewrite app_assoc. apply gslice_suf; [rewrite zlen_app; reflexivity|]. unfold line. rewrite app_assoc. reflexivity. }
    cbn [bind]. cbn [fold_left].
    specialize (IH (pre ++ line ++ [13; 10]) rest (aset acc (toLower k) v) fuel G2 R ltac:(cbn in F; lia)).
    replace (pre ++ line ++ 13 :: 10 :: headerBlock hs ++ rest) with ((pre ++ line ++ [13; 10]) ++ headerBlock hs ++ rest) by (rewrite <- !app_assoc; reflexivity).
    replace (zlen pre + zlen line + 2) with (zlen (pre ++ line ++ [13; 10])) by (rewrite !zlen_app; change (zlen [13; 10]) with 2; lia).
    exact IH.
Qed.
Lemma block_len hs rest : (List.length hs <= List.length (headerBlock hs ++ rest))%nat.
Proof.
  rewrite app_length. induction hs as [|h hs IH]; cbn [headerBlock map List.concat List.length]; [lia|].
  rewrite app_length. unfold headerLine at 1. rewrite !app_length. change (List.length CRLF) with 2%nat. unfold headerBlock in IH. lia.
Qed.
Lemma parseHeaders_message first hs rest : ~ In 13 first -> Forall goodHeader hs -> endOfHeaders rest ->
  parseHeaders (message first hs rest) = Ok (fold_left addHeader hs []).
Proof.
  intros N G R. unfold parseHeaders, message. destruct (C20_until_crlf [] first (headerBlock hs ++ rest) N) as (E & _).
  cbn [app] in E. change (zlen (@nil Z)) with 0 in E. cbn [CRLF app]. rewrite E. cbn [bind].
  replace (first ++ 13 :: 10 :: headerBlock hs ++ rest) with ((first ++ CRLF) ++ headerBlock hs ++ rest) by (rewrite <- app_assoc; reflexivity).
  replace (0 + zlen first + 2) with (zlen (first ++ CRLF)) by (rewrite zlen_app; change (zlen CRLF) with 2; lia).
  apply headersLoop_block; [exact G|exact R|]. rewrite app_length. pose proof (block_len hs rest). lia.
Qed.
Lemma headerValue_snoc hs h name : headerValue (hs ++ [h]) name = if eqb name (lower (fst h)) then Some (snd h) else headerValue hs name.
Proof. unfold headerValue. rewrite rev_app_distr. cbn [rev app find]. rewrite (eqb_sym name). destruct (eqb (lower (fst h)) name); reflexivity. Qed.
Lemma aget_headers hs name : aget (fold_left addHeader hs []) name = headerValue hs name.
Proof.
  revert name. induction hs as [|h hs IH] using rev_ind; intros name; [reflexivity|].
  rewrite fold_left_app, headerValue_snoc. cbn [fold_left]. unfold addHeader at 1. rewrite aget_aset, IH. reflexivity.
Qed.

Lemma beforeDash_upTo l : beforeDash l = upTo 45 l.
Proof. induction l as [|c l IH]; [reflexivity|]. cbn [beforeDash upTo]. destruct (c =? 45); [reflexivity|]. rewrite IH. reflexivity. Qed.
Lemma jaeger_eq v : (let pos := indexByte 58 v in if 0 <? pos then bind (gslice v 0 pos) (fun id => Ok (bs "jaeger", id)) else Ok (bs "jaeger", v)) = Ok (bs "jaeger", jaegerId v).
Proof.
  cbn zeta. unfold jaegerId. destruct v as [|c v]; [reflexivity|]. cbn [starts_with]. rewrite andb_true_r. rewrite (Z.eqb_sym 58 c).
  destruct (c =? 58) eqn:Q; [cbn [indexByte]; rewrite Q; reflexivity|].
  assert (H : indexByte 58 (c :: v) <= 0 /\ upTo 58 (c :: v) = c :: v \/ 0 < indexByte 58 (c :: v) /\ indexByte 58 (c :: v) <= zlen (c :: v) /\ slice (c :: v) 0 (indexByte 58 (c :: v)) = upTo 58 (c :: v)).
  { assert (GEN : forall l, (indexByte 58 l = -1 /\ upTo 58 l = l) \/ (0 <= indexByte 58 l <= zlen l /\ slice l 0 (indexByte 58 l) = upTo 58 l)).
    { clear. induction l as [|a l IH]; [left; split; reflexivity|]. cbn [indexByte upTo]. destruct (a =? 58) eqn:Q.
      - right. rewrite zlen_cons. pose proof (zlen_nonneg l). split; [lia|reflexivity].
      - destruct IH as [[E1 E2]|[E1 E2]].
        + left. rewrite E1. cbn. rewrite E2. split; reflexivity.
        + right. replace (indexByte 58 l <? 0) with false by lia. rewrite zlen_cons. split; [lia|].
          unfold slice in *. rewrite Z.sub_0_r in *. replace (Z.to_nat (indexByte 58 l + 1)) with (S (Z.to_nat (indexByte 58 l))) by lia.
          cbn [Z.to_nat skipn firstn] in *. rewrite E2. reflexivity. }
    destruct (GEN (c :: v)) as [[E1 E2]|[E1 E2]]; [left; split; [lia|exact E2]|].
    right. split; [|split; [lia|exact E2]]. cbn [indexByte] in *. rewrite Q in *. destruct (indexByte 58 v <? 0) eqn:Q2; lia. }
  destruct H as [[H1 H2]|(H1 & H2 & H3)].
  - replace (0 <? indexByte 58 (c :: v)) with false by lia. rewrite H2. reflexivity.
  - replace (0 <? indexByte 58 (c :: v)) with true by lia. rewrite gslice_ok by lia. cbn [bind]. rewrite H3. reflexivity.
Qed.
Lemma w3c_slice (v : bytes) : 35 <= zlen v -> gslice v 3 35 = Ok (firstn 32 (skipn 3 v)).
Proof. intros L. rewrite gslice_ok by lia. reflexivity. Qed.

(** ParseTraceHeader is the priority list. *)
Lemma parseTraceHeader_spec b64 hs : parseTraceHeader b64 hs =
  Ok (match firstScheme (schemes b64) (aget hs) with Some p => p | None => ([], []) end).
Proof.
  unfold parseTraceHeader, schemes. cbn [firstScheme].
  destruct (aget hs (bs "sw8")) as [v|].
  { unfold parseSkyWalkingTraceId, skywalkingId. rewrite beforeDash_upTo. reflexivity. }
  destruct (aget hs (bs "apm-transactionid")) as [v|]; [reflexivity|].
  destruct (aget hs (bs "x-b3-traceid")) as [v|]; [reflexivity|].
  destruct (aget hs (bs "uber-trace-id")) as [v|]; [apply jaeger_eq|].
  cbn zeta. unfold w3cId.
  destruct (aget hs (bs "traceparent")) as [v|]; [destruct (35 <=? zlen v) eqn:Q|].
  - rewrite w3c_slice by lia. replace (zlen v <? 35) with false by lia. reflexivity.
  - replace (zlen v <? 35) with true by lia. destruct (aget hs (bs "traceresponse")) as [w|]; [|reflexivity].
    destruct (35 <=? zlen w) eqn:Q2; [rewrite w3c_slice by lia; replace (zlen w <? 35) with false by lia; reflexivity|replace (zlen w <? 35) with true by lia; reflexivity].
  - destruct (aget hs (bs "traceresponse")) as [w|]; [|reflexivity].
    destruct (35 <=? zlen w) eqn:Q2; [rewrite w3c_slice by lia; replace (zlen w <? 35) with false by lia; reflexivity|replace (zlen w <? 35) with true by lia; reflexivity].
Qed.
Lemma firstScheme_ext ss f g : (forall n, f n = g n) -> firstScheme ss f = firstScheme ss g.
Proof. intros E. induction ss as [|[[n ty] ex] ss IH]; [reflexivity|]. cbn [firstScheme]. rewrite E, IH. reflexivity. Qed.
Lemma schemes_type b64 f ty id : firstScheme (schemes b64) f = Some (ty, id) -> 0 < zlen ty.
Proof.
  unfold schemes. cbn [firstScheme]. intros E.
  repeat match type of E with
  | context [match f ?n with Some _ => _ | None => _ end] => destruct (f n) as [?v|]
  | context [match w3cId ?v with Some _ => _ | None => _ end] => destruct (w3cId v)
  end; inversion E; reflexivity.
Qed.

Definition withTrace (m : msg) (t : option (bytes * bytes)) : msg :=
  match t with Some (ty, id) => addAttr (addAttr m LHttpApmTraceType (SV ty)) LHttpApmTraceId (SV id) | None => m end.
Lemma addTrace_total b64 m : exists t, addTrace b64 m = Ok (withTrace m t).
Proof.
  unfold addTrace. destruct (parseHeaders_total (m_data m)) as (hs & E). rewrite E. cbn [bind]. rewrite parseTraceHeader_spec. cbn [bind].
  destruct (firstScheme (schemes b64) (aget hs)) as [[ty id]|]; [|exists None; reflexivity].
  destruct ((0 <? zlen ty) && (0 <? zlen id)); [exists (Some (ty, id)); reflexivity|exists None; reflexivity].
Qed.
Lemma addTrace_message b64 m first hs rest : m_data m = message first hs rest -> ~ In 13 first -> Forall goodHeader hs -> endOfHeaders rest ->
  addTrace b64 m = Ok (withTrace m (traceOf b64 hs)).
Proof.
  intros D N G R. unfold addTrace. rewrite D, (parseHeaders_message first hs rest N G R). cbn [bind]. rewrite parseTraceHeader_spec. cbn [bind].
  rewrite (firstScheme_ext _ _ _ (aget_headers hs)). unfold traceOf.
  destruct (firstScheme (schemes b64) (headerValue hs)) as [[ty id]|] eqn:E; [|reflexivity].
  apply schemes_type in E. replace (0 <? zlen ty) with true by lia. destruct id as [|a id]; [reflexivity|].
  replace (0 <? zlen (a :: id)) with true by (rewrite zlen_cons; pose proof (zlen_nonneg id); lia). reflexivity.
Qed.
Lemma withTrace_other m t k : k <> LHttpApmTraceType -> k <> LHttpApmTraceId -> aget (m_attrs (withTrace m t)) k = aget (m_attrs m) k.
Proof.
  intros A B. destruct t as [[ty id]|]; [|reflexivity]. cbn [withTrace addAttr m_attrs]. rewrite !aget_aset_other by assumption. reflexivity.
Qed.
Lemma withTrace_data m t : m_data (withTrace m t) = m_data m /\ m_off (withTrace m t) = m_off m.
Proof. destruct t as [[ty id]|]; split; reflexivity. Qed.
