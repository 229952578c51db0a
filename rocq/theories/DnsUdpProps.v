(** C80: DNS queries over UDP, from the events to the records. *)
From Verif Require Import Base Decimal DetectProofs ReaderSpec ReaderProofs ReaderProps AttrModel PoolModel EventModel EventProps PairModel PairSpec PairProps LabelNames MsgModel DnsModel DnsSpec DnsProofs DnsProps
  UdpModel UdpSpec UdpProofs UdpProps RecordModel RecordSpec RecordProofs RecordParsers RecordProps DnsUdpModel DnsUdpSpec.
From Verif Require NetProofs3.
Open Scope string_scope. Open Scope list_scope. Open Scope Z_scope.

(** ** What the parser finds *)
Lemma bytes_same d : Forall is_byte d -> byteList d.
Proof. intros F. exact F. Qed.
Lemma field_det d o a b : field d o a -> field d o b -> a = b.
Proof.
  intros F1 F2. pose proof (field_read {| m_data := d; m_off := 0; m_attrs := [] |} o a F1) as R1.
  pose proof (field_read {| m_data := d; m_off := 0; m_attrs := [] |} o b F2) as R2. congruence.
Qed.
Lemma request_found d id f n : dnsMessage d id f n -> requestAttrs d = Some [(LDnsId, IV id); (LDnsDomain, SV (dotted n))].
Proof.
  intros (L & FI & FF & qs & e & FN & Q). destruct (C25_request false d id n qs e L FI FN Q) as (m & R & A).
  unfold requestAttrs. change (udpDnsRequest d) with (dnsRequest false d). rewrite R, A. reflexivity.
Qed.
Lemma request_only d a : byteList d -> requestAttrs d = Some a -> exists id f n, dnsMessage d id f n.
Proof.
  intros B. unfold requestAttrs. change (udpDnsRequest d) with (dnsRequest false d). destruct (C25_request_only false d B) as (ok & m & -> & T & F).
  destruct ok.
  - intros _. destruct (T eq_refl) as (id & q & qs & e & L & FI & FN & Q).
    destruct (read_field {| m_data := d; m_off := 0; m_attrs := [] |} 2 B ltac:(lia)) as (fl & _ & FF); [cbn [m_data]; lia|].
    exists id, fl, q. split; [exact L|]. split; [exact FI|]. split; [exact FF|]. exists qs, e. split; [exact FN|exact Q].
  - rewrite (F eq_refl). discriminate.
Qed.
Lemma request_id d id : byteList d -> requestId d = Some id <-> exists f n, dnsMessage d id f n.
Proof.
  intros B. unfold requestId. split.
  - destruct (requestAttrs d) as [a|] eqn:R; [|discriminate]. cbn [attrId]. intros E. injection E as <-.
    destruct (request_only d a B R) as (i & f & n & M). pose proof (request_found _ _ _ _ M) as F. rewrite F in R. injection R as <-. cbn [aget asInt].
    rewrite eqb_refl. exists f, n. exact M.
  - intros (f & n & M). rewrite (request_found _ _ _ _ M). cbn [attrId aget]. rewrite eqb_refl. reflexivity.
Qed.

Lemma response_may ipOther ig d ok m : dnsResponse ipOther false ig d [] = Ok (ok, m) -> parserMaySet (m_attrs m).
Proof.
  rewrite response_eval. destruct (zlen d <=? 12); [intros E; injection E as <- <-; exact empty_may|].
  unfold parseDnsResponse. intros E.
  repeat match type of E with
  | fin (bind ?r _) = _ => let R := fresh "R" in destruct r eqn:R; cbn [bind fin] in E; try discriminate
  end.
  match type of E with fin (if ?b then _ else _) = _ => destruct b end; [injection E as <- <-; exact empty_may|].
  match type of E with fin (bind ?r _) = _ => destruct r as [[[dm m1]|]| |] eqn:RQ; cbn [bind fin] in E; try discriminate end; [|injection E as <- <-; exact empty_may].
  match type of E with bind (bind ?r _) _ = _ => destruct r as [[ip m2]| |] eqn:RI; cbn [bind] in E; try discriminate
                     | fin (bind ?r _) = _ => destruct r as [[ip m2]| |] eqn:RI; cbn [bind fin] in E; try discriminate end.
  assert (A1 : m_attrs m1 = []).
  { unfold readQuery in RQ. match type of RQ with bind ?r _ = _ => destruct r as [[[t e]|]| |]; cbn [bind] in RQ; try discriminate end. injection RQ as _ <-. reflexivity. }
  assert (A2 : m_attrs m2 = []).
  { unfold readIpV4Answer in RI. match type of RI with bind ?r _ = _ => destruct r as [[l o]| |]; cbn [bind] in RI; try discriminate end. injection RI as _ <-. exact A1. }
  injection E as <- <-. assert (G : parserMaySet (m_attrs m2)) by (rewrite A2; exact empty_may).
  unfold addAttr. destruct (_ || _), (0 <? _); cbn [m_attrs]; repeat (apply may_aset; [reflexivity|]); exact G.
Qed.
Lemma response_found ipOther ig d id f n : byteList d -> dnsMessage d id f n -> exists a, responseAttrs ipOther ig d = Some a /\ parserMaySet a /\
  aget a "dns_domain" = Some (SV (dotted n)) /\ aget a "dns_id" = Some (IV id) /\ aget a "dns_rcode" = Some (IV (rcode f)) /\
  (failure ig f -> aget a "is_error" = Some (BV true) /\ aget a "error_type" = Some (IV 3)) /\
  (~ failure ig f -> aget a "is_error" = None /\ aget a "error_type" = None).
Proof.
  intros B (L & FI & FF & qs & e & FN & Q).
  destruct (read_field {| m_data := d; m_off := 0; m_attrs := [] |} 6 B ltac:(lia)) as (na & _ & FA); [cbn [m_data]; lia|]. cbn [m_data] in FA.
  destruct (answer_total ipOther d (Z.to_nat na) e []) as (ips & o & AL).
  destruct (response_core ipOther false ig d [] id f na n qs e ips o L FI FF FN FA Q AL) as (m & R & H1 & H2 & H3 & _ & H5 & H6 & _).
  exists (m_attrs m). split.
  - unfold responseAttrs. change (udpDnsResponse ipOther ig d []) with (dnsResponse ipOther false ig d []). rewrite R. unfold ahas. rewrite H2. reflexivity.
  - split; [eapply response_may; exact R|]. split; [exact H1|]. split; [exact H2|]. split; [exact H3|]. split; [exact H5|exact H6].
Qed.
Lemma response_only ipOther ig d a : byteList d -> responseAttrs ipOther ig d = Some a -> exists id f n, dnsMessage d id f n.
Proof.
  intros B. unfold responseAttrs. change (udpDnsResponse ipOther ig d []) with (dnsResponse ipOther false ig d []). rewrite response_eval.
  destruct (zlen d <=? 12) eqn:L; [discriminate|]. set (m := begin false d []).
  assert (R : forall o, 0 <= o <= 10 -> exists v, u16or0 m o = Ok v /\ field d o v).
  { intros o O. destruct (read_field m o B) as (v & E & F); [lia|cbn [m begin m_data]; lia|exists v; split; [exact E|exact F]]. }
  unfold parseDnsResponse. change (m_off m) with 0.
  destruct (R 0 ltac:(lia)) as (id & -> & FI). cbn [bind]. destruct (R (0 + 2) ltac:(lia)) as (fl & -> & FF). cbn [bind].
  destruct (R (0 + 4) ltac:(lia)) as (n & -> & FN). cbn [bind]. destruct (R (0 + 6) ltac:(lia)) as (na & -> & FA). cbn [bind].
  destruct (n =? 0) eqn:N0; [discriminate|]. unfold readQuery. change (m_off m) with 0.
  destruct (readQueryLoop (Z.to_nat n) m (0 + 12) []) as [[[t e]|]| |] eqn:RQ; cbn [bind fin]; try discriminate. intros _.
  apply query_backward in RQ; [|exact B|lia]. destruct RQ as (qs & LQ & QS & _ & _). assert (NB : 0 <= n) by (destruct FN as (? & ? & _ & _ & ?); lia).
  destruct qs as [|q qs]; [cbn [List.length] in LQ; lia|].
  exists id, fl, q. split; [lia|]. split; [exact FI|]. split; [exact FF|]. exists qs, e. split; [|exact QS].
  replace (zlen (q :: qs)) with n by (unfold zlen; lia). exact FN.
Qed.
Lemma response_id ipOther ig d id : byteList d -> responseId ipOther ig d = Some id <-> exists f n, dnsMessage d id f n.
Proof.
  intros B. unfold responseId. split.
  - destruct (responseAttrs ipOther ig d) as [a|] eqn:R; [|discriminate]. cbn [attrId]. intros E. injection E as <-.
    destruct (response_only _ _ d a B R) as (i & f & n & M). destruct (response_found ipOther ig d i f n B M) as (a' & R' & _ & _ & I & _).
    rewrite R in R'. injection R' as <-. change LDnsId with "dns_id". rewrite I. cbn [asInt]. exists f, n. exact M.
  - intros (f & n & M). destruct (response_found ipOther ig d id f n B M) as (a' & -> & _ & _ & I & _). cbn [attrId]. change LDnsId with "dns_id". rewrite I. reflexivity.
Qed.

(** ** Payloads of the messages of a batch are bytes too *)
Lemma requests_sound c e k l x : Forall is_byte (EventModel.getData e) -> classifyUdp c e = Ok (URequests k l) -> In x l -> Forall is_byte (EventModel.getData x).
Proof.
  intros B. unfold classifyUdp. destruct (negb (e_net e)); [discriminate|]. destruct (e_sip e); [discriminate|]. destruct (e_proto e); try discriminate.
  destruct (negb _); [discriminate|]. destruct (isRequest e) as [b0| |]; cbn [bind]; try discriminate. destruct (getUdpKey e) as [k1| |]; cbn [bind]; try discriminate.
  destruct b0; [|discriminate]. destruct (eqb (e_name e) "sendmmsg") eqn:N.
  - unfold convertSendmmsg. rewrite N. cbn [negb]. destruct (splitDataBytes (EventModel.getData e)) as [[bl| |]|] eqn:SP; try discriminate.
    intros E. injection E as _ <-. intros I. apply in_map_iff in I. destruct I as (b & <- & I).
    unfold splitDataBytes in SP. apply NetProofs3.split_bytes in SP; [|exact B]. rewrite Forall_forall in SP.
    apply NetProofs3.data_set; [exact (SP b I)|]. apply NetProofs3.data_set; [exact (NetProofs3.bytes_le 8 (zlen b))|exact B].
  - intros E. injection E as _ <-. intros [<-|[]]. exact B.
Qed.
Lemma requests_shape c e k l : classifyUdp c e = Ok (URequests k l) -> l = [e] \/ convertSendmmsg e = Some (Ok l).
Proof.
  unfold classifyUdp. destruct (negb (e_net e)); [discriminate|]. destruct (e_sip e); [discriminate|]. destruct (e_proto e); try discriminate.
  destruct (negb _); [discriminate|]. destruct (isRequest e) as [b0| |]; cbn [bind]; try discriminate. destruct (getUdpKey e) as [k1| |]; cbn [bind]; try discriminate.
  destruct b0; [|discriminate]. destruct (eqb (e_name e) "sendmmsg"); [|intros E; injection E as _ <-; left; reflexivity].
  destruct (convertSendmmsg e) as [[l1| |]|]; try discriminate. intros E. injection E as _ <-. right. reflexivity.
Qed.
Lemma sub_in {A} (a b : list A) x : Subseq a b -> In x a -> In x b.
Proof. induction 1 as [|y a b S IH|y a b S IH]; intros J; [destruct J|..]. 
  - first [right; apply IH; exact J | destruct J as [->|J]; [left; reflexivity|right; apply IH; exact J]].
  - first [right; apply IH; exact J | destruct J as [->|J]; [left; reflexivity|right; apply IH; exact J]].
Qed.
Lemma key_addresses e k : getUdpKey e = Ok k -> e_sip e <> [] /\ e_dip e <> [].
Proof. unfold getUdpKey, getSip, getDip. destruct (e_sip e), (e_dip e); try discriminate. intros _. split; discriminate. Qed.

Section Run.
  Context (ipOther : bytes -> bytes) (ignore3 : bool).
  Notation pq := requestId.
  Notation ps := (responseId ipOther ignore3).

  Lemma outs_sound c ops m out : sound ops -> urun pq ps c [] ops = Ok (m, out) -> forall o, In o out ->
    Forall is_byte (EventModel.getData (o_req o)) /\ e_sip (o_req o) <> [] /\ e_dip (o_req o) <> [] /\
    (forall e, o_resp o = Some e -> Forall is_byte (EventModel.getData e)).
  Proof.
    intros SD R o IN. pose proof (outs_known pq ps c ops [] m out (Inv_nil pq) R) as F.
    destruct (proj1 (Forall_forall _ _) F _ IN) as (k & id & K & P).
    assert (IN2 : In o (filter (about pq k id) out)).
    { apply filter_In. split; [exact IN|]. unfold about. rewrite K, P. cbn [resEqb]. rewrite !eqb_refl. reflexivity. }
    destruct (key_addresses _ _ K) as (S1 & S2). split; [|split; [exact S1|split; [exact S2|]]].
    - assert (Q : In (o_req o) (queriesOf (flat_map (uproject pq ps c k id) ops))).
      { eapply sub_in; [exact (C19_at_most_once pq ps c ops m out R k id)|]. apply in_or_app. left. apply in_map. exact IN2. }
      unfold queriesOf in Q. apply in_flat_map in Q. destruct Q as (i & Q & QI). destruct i as [x|x|now]; try contradiction. destruct QI as [->|[]].
      apply in_flat_map in Q. destruct Q as (op & O & Q). destruct op as [e|now]; cbn [uproject] in Q; [|destruct Q as [Q|[]]; discriminate].
      destruct (classifyUdp c e) as [[|k1 l|k1 e1]| |] eqn:CL; try contradiction.
      + destruct (eqb k k1); [|contradiction]. apply in_map_iff in Q. destruct Q as (x & E & Q). injection E as ->. apply filter_In in Q.
        eapply requests_sound; [apply (SD e O)|exact CL|apply Q].
      + destruct (_ && _); [|contradiction]. destruct Q as [Q|[]]. discriminate.
    - intros e E. destruct (C19_each_id pq ps c ops m out R k id) as (FE & _). rewrite FE in IN2. destruct o as [q rs]. cbn [o_resp] in E. subst rs.
      apply utalk_resp in IN2. apply in_flat_map in IN2. destruct IN2 as (op & O & Q). destruct op as [e0|now]; cbn [uproject] in Q; [|destruct Q as [Q|[]]; discriminate].
      destruct (classifyUdp c e0) as [[|k1 l|k1 e1]| |] eqn:CL; try contradiction.
      + destruct (eqb k k1); [|contradiction]. apply in_map_iff in Q. destruct Q as (x & E & _). discriminate.
      + pose proof (classify_keys c e0 _ CL) as (-> & _). destruct (_ && _); [|contradiction]. destruct Q as [Q|[]]. injection Q as <-. apply (SD e0 O).
  Qed.

  Lemma records_each c pool : forall out i l, dnsRecords ipOther ignore3 c pool i out = Ok l ->
    map fst l = out /\ Forall (fun p => exists j, dnsRecord ipOther ignore3 c (pool j) (fst p) = Ok (snd p)) l.
  Proof.
    induction out as [|o out IH]; intros i l; cbn [dnsRecords]; [intros E; injection E as <-; split; [reflexivity|constructor]|].
    destruct (dnsRecord _ _ _ _ o) as [r| |] eqn:R; cbn [bind]; try discriminate. destruct (dnsRecords _ _ _ _ _ out) as [rs| |] eqn:RS; cbn [bind]; try discriminate.
    intros E. injection E as <-. destruct (IH _ _ RS) as (M & F). cbn [map fst]. split; [f_equal; exact M|]. constructor; [exists i; exact R|exact F].
  Qed.

  (** Every record names the process, the addresses and the id of the query it is made for.  With an answer it has the name, the
      response code and the error of the answer, which came from the same peer over the same socket with the same id, and the time
      until it came.  Without one it has the name that was asked for and is marked as unanswered. *)
  Theorem C80_records c rc pool ops m l t : sound ops -> dnsRun ipOther ignore3 c rc pool ops = Ok (m, l) ->
    thresholdMs rc "dns" t -> t * 1000000 < 2 ^ 63 ->
    forall o r, In (o, r) l -> clocks o -> reports ignore3 t o r.
  Proof.
    intros SD E T TL o r IN CK. unfold dnsRun in E. destruct (urun pq ps c [] ops) as [[m1 out]| |] eqn:R; cbn [bind] in E; try discriminate.
    destruct (dnsRecords ipOther ignore3 rc pool 0 out) as [l1| |] eqn:RS; cbn [bind] in E; try discriminate. injection E as <- <-.
    destruct (records_each _ _ _ _ _ RS) as (M & F). destruct (proj1 (Forall_forall _ _) F _ IN) as (j & DR). cbn [fst snd] in DR.
    assert (IO : In o out) by (rewrite <- M; apply in_map_iff; exists (o, r); auto).
    destruct (outs_sound c ops m1 out SD R o IO) as (BQ & _ & _ & BR).
    destruct (proj1 (Forall_forall _ _) (outs_known pq ps c ops [] m1 out (Inv_nil pq) R) _ IO) as (k & id & K & P).
    destruct (proj1 (request_id _ _ BQ) P) as (f & n & MQ). exists id, f, n. split; [exact MQ|].
    unfold dnsRecord in DR. destruct o as [q [e|]]; cbn [o_req o_resp] in *.
    - destruct (C19_answer_matches_query pq ps c ops m1 out R q e IO) as (k' & id' & K1 & K2 & P1 & P2).
      assert (id' = id) by congruence. subst id'. pose proof (BR e eq_refl) as BE.
      destruct (proj1 (response_id _ _ _ _ BE) P2) as (f' & n' & MR).
      destruct (response_found ipOther ignore3 _ _ _ _ BE MR) as (a & RA & MS & A1 & A2 & A3 & A4 & A5). rewrite RA in DR.
      assert (DU : sDuration {| sp_req := q; sp_resp := Some e |} = elapsed q e).
      { unfold sDuration, elapsed. cbn [sp_req sp_resp]. unfold clocks, elapsed in CK. cbn [o_resp o_req] in CK. unfold w64. rewrite Z.mod_small; lia. }
      destruct (C55_single rc (pool j) {| sp_req := q; sp_resp := Some e |} "dns" a None r t MS DR T TL) as (H1 & _ & H3 & H4 & H5 & H6 & H7 & H8 & _ & _ & _ & _ & H9 & _).
      { rewrite DU. exact (proj2 CK). }
      cbn [sp_req sp_resp] in *. rewrite DU in H8, H9. cbn [andb] in H8.
      split; [exact H1|]. split; [exact H5|]. split; [apply (H4 "dns_id" (IV id)); [discriminate|discriminate|exact A2]|]. split; [exact H6|].
      exists f', n'. split; [exact MR|]. split; [congruence|].
      split; [apply (H4 "dns_domain"); [discriminate|discriminate|exact A1]|]. split; [apply (H4 "dns_rcode"); [discriminate|discriminate|exact A3]|]. split; [exact H7|].
      destruct H3 as (E1 & E2 & _ & E4 & E5). split; [|split; [|split; [exact H9|exact H8]]].
      + intros X. destruct (A4 X) as (X1 & X2). split; [apply E1; left; exact X1|apply E4; [auto|exact X2]].
      + intros X. destruct (A5 X) as (X1 & X2). split; [apply E2; split; [|reflexivity]; unfold parserError; cbn [attributesOf]; rewrite X1; discriminate|apply E5; [auto|exact X2]].
    - pose proof (request_found _ _ _ _ MQ) as RA. rewrite RA in DR.
      assert (MS : parserMaySet [(LDnsId, IV id); (LDnsDomain, SV (dotted n))]).
      { apply (may_aset [(LDnsId, IV id)] LDnsDomain (SV (dotted n)) eq_refl). apply (may_aset [] LDnsId (IV id) eq_refl). exact empty_may. }
      destruct (C55_single rc (pool j) {| sp_req := q; sp_resp := None |} "dns" _ None r t MS DR T TL) as (H1 & _ & H3 & H4 & H5 & H6 & H7 & H8 & _ & _ & _ & _ & H9 & _).
      { change (0 < 2 ^ 63). lia. }
      cbn [sp_req sp_resp andb] in *. destruct H3 as (E1 & _ & E3 & _ & _).
      split; [exact H1|]. split; [exact H5|]. split; [apply (H4 "dns_id" (IV id)); [discriminate|discriminate|reflexivity]|]. split; [exact H6|].
      split; [apply (H4 "dns_domain"); [discriminate|discriminate|reflexivity]|]. split; [exact H7|]. split; [apply E1; right; reflexivity|].
      split; [apply E3; [reflexivity|discriminate]|]. split; [exact H9|exact H8].
  Qed.

  (** No history crashes the analyzer, and each answered or overdue query has its record. *)
  Theorem C80_total c rc pool ops : sound ops -> (forall i, typed (glabels (pool i))) -> exists m l, dnsRun ipOther ignore3 c rc pool ops = Ok (m, l).
  Proof.
    intros SD TP. assert (NP : urun pq ps c [] ops <> Panic).
    { apply C19_no_panic. apply Forall_forall. intros [e|now] O; [|exact Logic.I]. destruct (SD e O) as (B & D). split; [exact D|exact B]. }
    assert (NE : forall os m, urun pq ps c m os <> Err).
    { induction os as [|o os IH]; intros m; cbn [urun]; [discriminate|]. destruct (ustep pq ps c m o) as [r| |] eqn:SE; cbn [bind]; [|exfalso|discriminate].
      - specialize (IH (fst r)). destruct (urun pq ps c (fst r) os); cbn [bind]; congruence.
      - destruct o as [e|now]; cbn [ustep] in SE; [|discriminate]. unfold deliverUdp in SE. destruct (classifyUdp c e) as [[| |]| |]; discriminate. }
    unfold dnsRun. destruct (urun pq ps c [] ops) as [[m out]| |] eqn:R; [|exfalso; eapply NE; exact R|congruence]. cbn [bind].
    assert (EA : forall o, In o out -> forall g, typed (glabels g) -> exists r, dnsRecord ipOther ignore3 rc g o = Ok r).
    { intros o IO g TG. destruct (outs_sound c ops m out SD R o IO) as (BQ & S1 & S2 & BR).
      destruct (proj1 (Forall_forall _ _) (outs_known pq ps c ops [] m out (Inv_nil pq) R) _ IO) as (k & id & K & P).
      destruct (proj1 (request_id _ _ BQ) P) as (f & n & MQ).
      assert (A : exists a, match o_resp o with Some e => responseAttrs ipOther ignore3 (EventModel.getData e) | None => requestAttrs (EventModel.getData (o_req o)) end = Some a /\ parserMaySet a).
      { destruct o as [q [e|]]; cbn [o_req o_resp] in *.
        - destruct (C19_answer_matches_query pq ps c ops m out R q e IO) as (k' & id' & _ & _ & _ & P2). pose proof (BR e eq_refl) as BE.
          destruct (proj1 (response_id _ _ _ _ BE) P2) as (f' & n' & MR). destruct (response_found ipOther ignore3 _ _ _ _ BE MR) as (a & RA & MS & _). eauto.
        - rewrite (request_found _ _ _ _ MQ). eexists. split; [reflexivity|].
          apply (may_aset [(LDnsId, IV id)] LDnsDomain (SV (dotted n)) eq_refl). apply (may_aset [] LDnsId (IV id) eq_refl). exact empty_may. }
      destruct A as (a & EQ & MS). unfold dnsRecord. cbv zeta. rewrite EQ. unfold getSingleRecord. cbn [sp_req sp_resp].
      match goal with |- context [fillLabels rc g ?e ?p ?s ?x ?d ?y ?nt] => destruct (fill_ok rc g e p s x d y nt) as (g1 & -> & _) end; cbn [bind]; eauto.
      - unfold okAttrs. intros l X. injection X as <-. exact MS.
      - apply C55_text_exists. left. discriminate.
      - intros d _. apply C55_text_exists. left. discriminate. }
    assert (RS : forall i, exists l, dnsRecords ipOther ignore3 rc pool i out = Ok l).
    { clear R NP. revert EA. induction out as [|o out IH]; intros EA i; cbn [dnsRecords]; [eauto|]. destruct (EA o ltac:(left; reflexivity) (pool i) (TP i)) as (r & ->). cbn [bind].
      destruct (IH (fun o' J => EA o' (or_intror J)) (Datatypes.S i)) as (l & ->). cbn [bind]. eauto. }
    destruct (RS 0%nat) as (l & ->). cbn [bind]. eauto.
  Qed.

  (** ** A query on its own *)
  Lemma query_classified c q k : sentQuery c q -> getUdpKey q = Ok k -> classifyUdp c q = Ok (URequests k [q]).
  Proof.
    intros ((A & B & C & D & _) & R & N) K. unfold classifyUdp. rewrite A. cbn [negb]. destruct (e_sip q); [congruence|]. rewrite B.
    assert (X : existsb (Z.eqb (e_dport q)) (c_dnsPorts c) = true) by (apply existsb_exists; exists (e_dport q); split; [exact C|apply Z.eqb_refl]).
    rewrite X, R, K. cbn [negb bind]. rewrite (proj2 (eqb_neq (e_name q) "sendmmsg") N). reflexivity.
  Qed.
  Lemma answer_classified c e k : receivedAnswer c e -> getUdpKey e = Ok k -> classifyUdp c e = Ok (UResponse k e).
  Proof.
    intros ((A & B & C & D & _) & R) K. unfold classifyUdp. rewrite A. cbn [negb]. destruct (e_sip e); [congruence|]. rewrite B.
    assert (X : existsb (Z.eqb (e_dport e)) (c_dnsPorts c) = true) by (apply existsb_exists; exists (e_dport e); split; [exact C|apply Z.eqb_refl]).
    rewrite X, R, K. reflexivity.
  Qed.
  Lemma apart_items c q id k ops : sound ops -> getUdpKey q = Ok k -> apart q id ops ->
    flat_map (uproject pq ps c k id) ops = flat_map (fun o => match o with UTick now => [IScan now] | UDeliver _ => [] end) ops.
  Proof.
    intros SD K AP. induction ops as [|o ops IH]; [reflexivity|]. cbn [flat_map]. rewrite IH.
    2: { intros e I. apply SD. right. exact I. }
    2: { intros e I. apply AP. right. exact I. }
    f_equal. destruct o as [e|now]; [|reflexivity]. cbn [uproject]. destruct (SD e ltac:(left; reflexivity)) as (B & _).
    pose proof (AP e ltac:(left; reflexivity)) as NC. destruct (classifyUdp c e) as [[|k1 l|k1 e1]| |] eqn:CL; try reflexivity.
    - destruct (eqb k k1) eqn:EK; [|reflexivity]. apply eqb_true in EK. subst k1.
      pose proof (classify_keys c e _ CL) as CK.
      destruct (filter _ l) as [|x xs] eqn:FL; [reflexivity|]. exfalso.
      assert (IX : In x (filter (fun x => eqb (pq (EventModel.getData x)) (Some id)) l)) by (rewrite FL; left; reflexivity).
      apply filter_In in IX. destruct IX as (IX & PX). apply eqb_true in PX.
      pose proof (requests_sound c e k l x B CL IX) as BX. destruct (proj1 (request_id _ _ BX) PX) as (f & n & MX).
      apply NC; [destruct CK as (-> & _); congruence|]. destruct (requests_shape c e k l CL) as [->|CS].
      + destruct IX as [<-|[]]. left. eauto.
      + right. exists l, x, f, n. auto.
    - pose proof (classify_keys c e _ CL) as (-> & K1). destruct (eqb k k1) eqn:EK; [|reflexivity]. apply eqb_true in EK. subst k1. cbn [andb].
      destruct (eqb (ps (EventModel.getData e)) (Some id)) eqn:EI; [|reflexivity]. apply eqb_true in EI. exfalso.
      destruct (proj1 (response_id _ _ _ _ B) EI) as (f & n & MX). apply NC; [congruence|]. left. eauto.
  Qed.
  (** scans before the query, or while it is not overdue, change nothing *)
  Lemma scans_idle c ops : utalk c None (flat_map (fun o => match o with UTick now => [IScan now] | UDeliver _ => [] end) ops) = (None, []).
  Proof. induction ops as [|[e|now] ops IH]; cbn [flat_map app]; [reflexivity|exact IH|]. cbn [utalk unext]. rewrite IH. reflexivity. Qed.
  Lemma scans_wait c q ops : inTime c q ops -> utalk c (Some q) (flat_map (fun o => match o with UTick now => [IScan now] | UDeliver _ => [] end) ops) = (Some q, []).
  Proof.
    induction ops as [|[e|now] ops IH]; intros T; cbn [flat_map app]; [reflexivity|..].
    - apply IH. intros x J. apply T. right. exact J.
    - cbn [utalk unext]. pose proof (T now ltac:(left; reflexivity)) as X. replace (getNoResponseThreshold c <=? ageSeconds now q) with false by lia.
      rewrite IH; [reflexivity|]. intros x J. apply T. right. exact J.
  Qed.
  Lemma scans_report c q now ops : getNoResponseThreshold c <= ageSeconds now q ->
    utalk c (Some q) (flat_map (fun o => match o with UTick now => [IScan now] | UDeliver _ => [] end) ops ++ [IScan now]) = (None, [{| o_req := q; o_resp := None |}]).
  Proof.
    intros T. induction ops as [|[e|x] ops IH]; cbn [flat_map app].
    - cbn [utalk unext]. replace (getNoResponseThreshold c <=? ageSeconds now q) with true by lia. reflexivity.
    - exact IH.
    - cbn [utalk unext]. destruct (getNoResponseThreshold c <=? ageSeconds x q); [|rewrite IH; reflexivity].
      assert (N : utalk c None (flat_map (fun o => match o with UTick now => [IScan now] | UDeliver _ => [] end) ops ++ [IScan now]) = (None, [])).
      { clear. induction ops as [|[e|x] ops IH]; cbn [flat_map app]; [reflexivity|exact IH|]. cbn [utalk unext]. rewrite IH. reflexivity. }
      rewrite N. reflexivity.
  Qed.
  Lemma utalk_app c : forall a cur b, utalk c cur (a ++ b) = let '(g, o) := utalk c cur a in let '(g2, o2) := utalk c g b in (g2, o ++ o2).
  Proof.
    induction a as [|i a IH]; intros cur b; cbn [app utalk]; [destruct (utalk c cur b); reflexivity|].
    destruct (unext c cur i) as (g1, o1). rewrite IH. destruct (utalk c g1 a) as (g2, o2). destruct (utalk c g2 b) as (g3, o3). rewrite app_assoc. reflexivity.
  Qed.
  (** one report about a socket and an id among the reports gives one record *)
  Lemma only_one c rc pool ops m l q k id o : sound ops -> dnsRun ipOther ignore3 c rc pool ops = Ok (m, l) -> getUdpKey q = Ok k ->
    snd (utalk c None (flat_map (uproject pq ps c k id) ops)) = [o] -> exists r, onlyRecord q id o l r.
  Proof.
    intros SD E K U. unfold dnsRun in E. destruct (urun pq ps c [] ops) as [[m1 out]| |] eqn:R; cbn [bind] in E; try discriminate.
    destruct (dnsRecords ipOther ignore3 rc pool 0 out) as [l1| |] eqn:RS; cbn [bind] in E; try discriminate. injection E as <- <-.
    destruct (records_each _ _ _ _ _ RS) as (M & _). destruct (C19_each_id pq ps c ops m1 out R k id) as (F & _). rewrite U in F.
    assert (IO : In o out) by (assert (X : In o (filter (about pq k id) out)) by (rewrite F; left; reflexivity); apply filter_In in X; apply X).
    assert (SO : forall x, In x out -> Forall is_byte (EventModel.getData (o_req x))) by (intros x X; exact (proj1 (outs_sound c ops m1 out SD R x X))).
    clear R RS U. revert l1 M. induction out as [|x out IH]; intros l1 M; [destruct IO|].
    destruct l1 as [|[x' r] l1]; [discriminate|]. cbn [map fst] in M. injection M as -> M. cbn [filter] in F.
    destruct (about pq k id x) eqn:A.
    - injection F as -> F. exists r, [], l1. split; [reflexivity|]. cbn [app]. intros p J KK f n MM.
      assert (PO : In (fst p) out) by (rewrite <- M; apply in_map; exact J).
      assert (X : In (fst p) (filter (about pq k id) out)).
      { apply filter_In. split; [exact PO|]. unfold about. rewrite KK, K. cbn [resEqb]. rewrite eqb_refl. cbn [andb].
        rewrite (proj2 (request_id _ id (SO _ (or_intror PO))) (ex_intro _ f (ex_intro _ n MM))). apply eqb_refl. }
      rewrite F in X. destruct X.
    - destruct IO as [->|IO].
      + assert (X : In o (filter (about pq k id) out)) by (rewrite F; left; reflexivity). apply filter_In in X. destruct X as (_ & X). congruence.
      + destruct (IH F IO ltac:(intros y Y; apply SO; right; exact Y) l1 M) as (r1 & l2 & l3 & -> & H). exists r1, ((x, r) :: l2), l3. split; [reflexivity|].
        intros p J KK f n MM. cbn [app] in J. destruct J as [<-|J]; [|eapply H; eassumption]. cbn [fst] in KK, MM.
        unfold about in A. rewrite KK, K in A. cbn [resEqb] in A. rewrite eqb_refl in A. cbn [andb] in A.
        rewrite (proj2 (request_id _ id (SO _ (or_introl eq_refl))) (ex_intro _ f (ex_intro _ n MM))), eqb_refl in A. discriminate.
  Qed.
  Lemma sound_part a b : sound (a ++ b) -> sound a /\ sound b.
  Proof. intros SD. split; intros e J; apply SD; apply in_or_app; auto. Qed.
  Lemma query_item c q k id f n : Forall is_byte (EventModel.getData q) -> sentQuery c q -> getUdpKey q = Ok k -> dnsMessage (EventModel.getData q) id f n -> uproject pq ps c k id (UDeliver q) = [IReq q].
  Proof.
    intros B Q K M. cbn [uproject]. rewrite (query_classified c q k Q K), eqb_refl. cbn [filter].
    rewrite (proj2 (request_id _ id B) (ex_intro _ f (ex_intro _ n M))), eqb_refl. reflexivity.
  Qed.
  Lemma answer_item c e k id f n : Forall is_byte (EventModel.getData e) -> receivedAnswer c e -> getUdpKey e = Ok k -> dnsMessage (EventModel.getData e) id f n -> uproject pq ps c k id (UDeliver e) = [IResp e].
  Proof.
    intros B Q K M. cbn [uproject]. rewrite (answer_classified c e k Q K), eqb_refl.
    rewrite (proj2 (response_id ipOther ignore3 _ id B) (ex_intro _ f (ex_intro _ n M))), eqb_refl. reflexivity.
  Qed.
  Lemma socket_key c e : dnsSocket c e -> exists k, getUdpKey e = Ok k.
  Proof. intros (_ & _ & _ & S & D). unfold getUdpKey, getSip, getDip. destruct (e_sip e); [congruence|]. destruct (e_dip e); [congruence|]. eexists. reflexivity. Qed.

  (** A query and its answer, whatever else goes over this and other sockets in between, are one record. *)
  Theorem C80_answered c rc pool before between after q e id f n f' n' m l t :
    let ops := before ++ UDeliver q :: between ++ UDeliver e :: after in
    sound ops -> sentQuery c q -> receivedAnswer c e -> getUdpKey e = getUdpKey q ->
    dnsMessage (EventModel.getData q) id f n -> dnsMessage (EventModel.getData e) id f' n' ->
    apart q id before -> apart q id between -> apart q id after -> inTime c q between ->
    dnsRun ipOther ignore3 c rc pool ops = Ok (m, l) -> thresholdMs rc "dns" t -> t * 1000000 < 2 ^ 63 -> 0 <= elapsed q e < 2 ^ 63 ->
    exists r, onlyRecord q id {| o_req := q; o_resp := Some e |} l r /\ reports ignore3 t {| o_req := q; o_resp := Some e |} r.
  Proof.
    intros ops SD SQ RA KE MQ ME A1 A2 A3 IT R T TL CK. destruct (socket_key c q (proj1 SQ)) as (k & K).
    assert (BQ : Forall is_byte (EventModel.getData q)) by (refine (proj1 (SD q _)); unfold ops; apply in_or_app; right; left; reflexivity).
    assert (BE : Forall is_byte (EventModel.getData e)) by (refine (proj1 (SD e _)); unfold ops; apply in_or_app; right; right; apply in_or_app; right; left; reflexivity).
    assert (S1 : sound before) by (intros x J; apply SD; unfold ops; apply in_or_app; left; exact J).
    assert (S2 : sound between) by (intros x J; apply SD; unfold ops; apply in_or_app; right; right; apply in_or_app; left; exact J).
    assert (S3 : sound after) by (intros x J; apply SD; unfold ops; apply in_or_app; right; right; apply in_or_app; right; right; exact J).
    assert (U : snd (utalk c None (flat_map (uproject pq ps c k id) ops)) = [{| o_req := q; o_resp := Some e |}]).
    { unfold ops. rewrite flat_map_app. cbn [flat_map]. rewrite flat_map_app. cbn [flat_map].
      rewrite (query_item c q k id f n BQ SQ K MQ), (answer_item c e k id f' n' BE RA ltac:(congruence) ME).
      rewrite (apart_items c q id k before S1 K A1), (apart_items c q id k between S2 K A2), (apart_items c q id k after S3 K A3).
      rewrite utalk_app, scans_idle. cbn [app utalk unext]. rewrite utalk_app, (scans_wait c q between IT). cbn [app utalk unext]. rewrite scans_idle. reflexivity. }
    destruct (only_one c rc pool ops m l q k id _ SD R K U) as (r & O). exists r. split; [exact O|].
    destruct O as (l1 & l2 & -> & _). eapply C80_records; [exact SD|exact R|exact T|exact TL|apply in_or_app; right; left; reflexivity|exact CK].
  Qed.

  (** A query without an answer is one record, once a scan finds it overdue. *)
  Theorem C80_unanswered c rc pool before between q now id f n m l t :
    let ops := before ++ UDeliver q :: between ++ [UTick now] in
    sound ops -> sentQuery c q -> dnsMessage (EventModel.getData q) id f n ->
    apart q id before -> apart q id between -> getNoResponseThreshold c <= ageSeconds now q ->
    dnsRun ipOther ignore3 c rc pool ops = Ok (m, l) -> thresholdMs rc "dns" t -> t * 1000000 < 2 ^ 63 ->
    exists r, onlyRecord q id {| o_req := q; o_resp := None |} l r /\ reports ignore3 t {| o_req := q; o_resp := None |} r.
  Proof.
    intros ops SD SQ MQ A1 A2 OD R T TL. destruct (socket_key c q (proj1 SQ)) as (k & K).
    assert (BQ : Forall is_byte (EventModel.getData q)) by (refine (proj1 (SD q _)); unfold ops; apply in_or_app; right; left; reflexivity).
    assert (S1 : sound before) by (intros x J; apply SD; unfold ops; apply in_or_app; left; exact J).
    assert (S2 : sound between) by (intros x J; apply SD; unfold ops; apply in_or_app; right; right; apply in_or_app; left; exact J).
    assert (U : snd (utalk c None (flat_map (uproject pq ps c k id) ops)) = [{| o_req := q; o_resp := None |}]).
    { unfold ops. rewrite flat_map_app. cbn [flat_map]. rewrite flat_map_app. cbn [flat_map].
      rewrite (query_item c q k id f n BQ SQ K MQ), (apart_items c q id k before S1 K A1), (apart_items c q id k between S2 K A2).
      rewrite utalk_app, scans_idle. cbn [app utalk unext]. cbn [uproject]. rewrite app_nil_r, (scans_report c q now between OD). reflexivity. }
    destruct (only_one c rc pool ops m l q k id _ SD R K U) as (r & O). exists r. split; [exact O|].
    destruct O as (l1 & l2 & -> & _). eapply C80_records; [exact SD|exact R|exact T|exact TL|apply in_or_app; right; left; reflexivity|exact Logic.I].
  Qed.
End Run.
Print Assumptions C80_records.
Print Assumptions C80_total.
Print Assumptions C80_answered.
Print Assumptions C80_unanswered.

(** ** Examples *)
Definition dnsQuestion (id : Z) (flags : Z) (name : list bytes) : bytes := be16 id ++ be16 flags ++ [0; 1; 0; 0; 0; 0; 0; 0] ++ wire name ++ [0; 1; 0; 1].
Definition rc0 : rconf := {| rc_slow := []; rc_default := 500; rc_payload := [] |}.
Definition pool0 (i : nat) : group := createDataGroup 0.
(** Two queries over one socket; one is answered after 0.9 s with the code for a server failure, the other one never. *)
Definition exOps : list uop :=
  [UDeliver (udpEv "sendto" 1000 (dnsQuestion 7 256 [bs "a"; bs "org"])); UDeliver (udpEv "sendto" 1100 (dnsQuestion 8 256 [bs "b"]));
   UDeliver (udpEv "recvfrom" 900000997 (dnsQuestion 7 33154 [bs "a"; bs "org"])); UTick (10 ^ 15)].
Example C80_example : exists m r1 r2,
  dnsRun (fun _ => []) false cfg0 rc0 pool0 exOps =
    Ok (m, [({| o_req := udpEv "sendto" 1000 (dnsQuestion 7 256 [bs "a"; bs "org"]); o_resp := Some (udpEv "recvfrom" 900000997 (dnsQuestion 7 33154 [bs "a"; bs "org"])) |}, r1);
            ({| o_req := udpEv "sendto" 1100 (dnsQuestion 8 256 [bs "b"]); o_resp := None |}, r2)]) /\
  says r1 "dns_domain" (SV (bs "a.org.")) /\ says r1 "dns_rcode" (IV 2) /\ says r1 "is_error" (BV true) /\ says r1 "error_type" (IV 3) /\ says r1 "is_slow" (BV true) /\
  measures r1 "request_total_time" 900000000 /\
  says r2 "dns_domain" (SV (bs "b.")) /\ says r2 "is_error" (BV true) /\ says r2 "error_type" (IV 2) /\ says r2 "is_slow" (BV false).
Proof.
  do 3 eexists. split; [vm_compute; reflexivity|]. unfold says, measures. repeat (split; [vm_compute; reflexivity|]). vm_compute. reflexivity.
Qed.
Lemma ex_message id f name : 0 <= id < 65536 -> 0 <= f < 65536 -> Forall label name -> octets name < 255 -> dnsMessage (dnsQuestion id f name) id f name.
Proof.
  intros I F LN ON. unfold dnsQuestion, dnsMessage.
  assert (N2 : forall v, zlen (be16 v) = 2) by reflexivity.
  pose proof (zlen_nonneg (wire name)) as W.
  split. { rewrite !zlen_app, !N2. change (zlen [0; 1; 0; 0; 0; 0; 0; 0]) with 8. change (zlen [0; 1; 0; 1]) with 4. lia. }
  split. { exists [], (be16 f ++ [0; 1; 0; 0; 0; 0; 0; 0] ++ wire name ++ [0; 1; 0; 1]). split; [reflexivity|]. split; [reflexivity|exact I]. }
  split. { exists (be16 id), ([0; 1; 0; 0; 0; 0; 0; 0] ++ wire name ++ [0; 1; 0; 1]). split; [reflexivity|]. split; [reflexivity|exact F]. }
  exists [], (12 + zlen (wire name) + 4). split.
  - exists (be16 id ++ be16 f), ([0; 0; 0; 0; 0; 0] ++ wire name ++ [0; 1; 0; 1]). split; [rewrite <- !app_assoc; reflexivity|]. split; [rewrite zlen_app, !N2; reflexivity|]. change (zlen [name]) with 1. lia.
  - econstructor; [|exact ON| | |constructor].
    + pose proof (wire_at name LN (be16 id ++ be16 f ++ [0; 1; 0; 0; 0; 0; 0; 0]) [0; 1; 0; 1]) as X. rewrite <- !app_assoc in X. exact X.
    + lia.
    + rewrite !zlen_app, !N2. change (zlen [0; 1; 0; 0; 0; 0; 0; 0]) with 8. change (zlen [0; 1; 0; 1]) with 4. lia.
Qed.

(** The answered query of the example meets all the hypotheses of C80_answered. *)
Example C80_hypotheses : let q := udpEv "sendto" 1000 (dnsQuestion 7 256 [bs "a"; bs "org"]) in let e := udpEv "recvfrom" 900000997 (dnsQuestion 7 33154 [bs "a"; bs "org"]) in
  let between := [UDeliver (udpEv "sendto" 1100 (dnsQuestion 8 256 [bs "b"]))] in
  exOps = [] ++ UDeliver q :: between ++ UDeliver e :: [UTick (10 ^ 15)] /\ sound exOps /\ sentQuery cfg0 q /\ receivedAnswer cfg0 e /\ getUdpKey e = getUdpKey q /\
  dnsMessage (EventModel.getData q) 7 256 [bs "a"; bs "org"] /\ dnsMessage (EventModel.getData e) 7 33154 [bs "a"; bs "org"] /\
  apart q 7 between /\ inTime cfg0 q between /\ thresholdMs rc0 "dns" 500 /\ 0 <= elapsed q e < 2 ^ 63 /\ forall i, typed (glabels (pool0 i)).
Proof.
  cbv zeta. assert (LB : forall s, 1 <= zlen (bs s) <= 63 -> Forall is_byte (bs s) -> label (bs s)) by (intros s L B; split; [exact L|exact B]).
  assert (BY : forall d, forallb (fun x => (0 <=? x) && (x <? 256)) d = true -> Forall is_byte d).
  { intros d F. apply Forall_forall. intros x J. rewrite forallb_forall in F. specialize (F x J). unfold is_byte. lia. }
  assert (L1 : Forall label [bs "a"; bs "org"]) by (repeat (apply Forall_cons; [apply LB; [vm_compute; split; discriminate|apply BY; reflexivity]|]); constructor).
  split; [reflexivity|]. split.
  { intros e J. split; [|intros _]; cbn [exOps In] in J; repeat destruct J as [J|J]; try discriminate; try (injection J as <-); try destruct J; first [apply BY; vm_compute; reflexivity|discriminate]. }
  assert (DS : forall nm ts d, dnsSocket cfg0 (udpEv nm ts d)) by (intros nm ts d; split; [reflexivity|]; split; [reflexivity|]; split; [vm_compute; auto|]; split; discriminate).
  split; [split; [apply DS|]; split; [vm_compute; reflexivity|discriminate]|]. split; [split; [apply DS|vm_compute; reflexivity]|]. split; [reflexivity|].
  split; [change (EventModel.getData (udpEv "sendto" 1000 (dnsQuestion 7 256 [bs "a"; bs "org"]))) with (dnsQuestion 7 256 [bs "a"; bs "org"]); apply ex_message; [lia|lia|exact L1|vm_compute; reflexivity]|].
  split; [change (EventModel.getData (udpEv "recvfrom" 900000997 (dnsQuestion 7 33154 [bs "a"; bs "org"]))) with (dnsQuestion 7 33154 [bs "a"; bs "org"]); apply ex_message; [lia|lia|exact L1|vm_compute; reflexivity]|].
  split.
  { intros e [J|[]] _ C. injection J as <-. destruct C as [(f & n & M)|(l & x & f & n & C & J & _)].
    - change (EventModel.getData (udpEv "sendto" 1100 (dnsQuestion 8 256 [bs "b"]))) with (dnsQuestion 8 256 [bs "b"]) in M.
      assert (X : requestId (dnsQuestion 8 256 [bs "b"]) = Some 7) by (apply request_id; [apply BY; vm_compute; reflexivity|eauto]). vm_compute in X. discriminate.
    - vm_compute in C. injection C as <-. destruct J. }
  split; [intros now [J|[]]; discriminate|]. split; [|split; [vm_compute; split; [discriminate|reflexivity]|]].
  - unfold thresholdMs. cbn. right. split; [intros v X; discriminate|]. left. split; [reflexivity|lia].
  - intros i k v G. discriminate.
Qed.

(** An answer is matched by its id alone: one about another name takes the place of the answer, and the record shows that name. *)
Theorem C80_name_asked_for_refuted : exists q e m r, dnsMessage (EventModel.getData q) 7 256 [bs "a"] /\ dnsMessage (EventModel.getData e) 7 33152 [bs "z"] /\
  dnsRun (fun _ => []) false cfg0 rc0 pool0 [UDeliver q; UDeliver e] = Ok (m, [({| o_req := q; o_resp := Some e |}, r)]) /\
  says r "dns_domain" (SV (bs "z.")) /\ says r "is_error" (BV false).
Proof.
  exists (udpEv "sendto" 1000 (dnsQuestion 7 256 [bs "a"])), (udpEv "recvfrom" 2000 (dnsQuestion 7 33152 [bs "z"])). do 2 eexists.
  assert (LB : forall x, 97 <= x <= 122 -> Forall label [[x]]) by (intros x X; constructor; [split; [change (zlen [x]) with 1; lia|constructor; [lia|constructor]]|constructor]).
  split; [change (EventModel.getData _) with (dnsQuestion 7 256 [bs "a"]); apply ex_message; [lia|lia|apply (LB 97); lia|vm_compute; reflexivity]|].
  split; [change (EventModel.getData _) with (dnsQuestion 7 33152 [bs "z"]); apply ex_message; [lia|lia|apply (LB 122); lia|vm_compute; reflexivity]|].
  split; [vm_compute; reflexivity|]. split; vm_compute; reflexivity.
Qed.
Print Assumptions C80_name_asked_for_refuted.
