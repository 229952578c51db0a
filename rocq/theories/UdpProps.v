(** C19: UDP DNS queries and their answers. *)
From Verif Require Import Base EventModel EventProps PairModel PairSpec PairProps UdpModel UdpSpec UdpProofs.
Open Scope string_scope. Open Scope list_scope. Open Scope Z_scope.

(** For every history, what is reported about a key and an id, and what waits there, is what the one-query machine of
    UdpSpec.v says for the part of the history that concerns them. *)
Theorem C19_each_id : forall parseReq parseResp c ops m out, urun parseReq parseResp c [] ops = Ok (m, out) -> forall k id,
  filter (about parseReq k id) out = snd (utalk c None (flat_map (uproject parseReq parseResp c k id) ops)) /\
  waiting m k id = fst (utalk c None (flat_map (uproject parseReq parseResp c k id) ops)).
Proof.
  intros pq ps c ops m out R k id. destruct (urun_moves pq ps c ops [] m out (Inv_nil pq) R) as (_ & W).
  specialize (W k id). change (waiting [] k id) with (@None event) in W. rewrite <- W. split; reflexivity.
Qed.
Print Assumptions C19_each_id.

(** *** everything reported is about a query that was parsed *)
Lemma out_known pq ps c m o m' out : Inv pq m -> ustep pq ps c m o = Ok (m', out) -> Forall (fun x => exists k id, entryOk pq k id (o_req x)) out.
Proof.
  intros I. destruct o as [e|now]; cbn [ustep].
  - unfold deliverUdp. destruct (classifyUdp c e) as [a| |]; try discriminate; [|intros H; inversion H; constructor].
    destruct a as [|k l|k e']; intros H; inversion H; subst; try constructor.
    unfold consumeUdpDnsResponse in *. destruct (ps (getData e')) as [id|]; [|inversion H; subst; constructor].
    destruct (aget m k) as [ch|] eqn:G; [|inversion H; subst; constructor]. unfold getMatchRequest in *.
    destruct (aget (u_reqs ch) id) as [r|] eqn:A; inversion H; subst; [|constructor].
    constructor; [|constructor]. exists k, id. cbn [o_req]. apply (proj2 I k ch G). assumption.
  - intros H. inversion H as [H1]. clear H. revert m' out H1. pose proof I as (D & OK). clear I.
    induction m as [|(k0, ch) m IH]; cbn [scanMonitor]; intros m' out H; [inversion H; constructor|].
    cbn [keys map fst] in D. inversion D as [|? ? NI D']; subst.
    assert (OK0 : okc pq k0 ch) by (apply OK; cbn [aget]; rewrite eqb_refl; reflexivity).
    destruct OK0 as (O1 & O2 & O3).
    pose proof (scanRequests_spec c now (u_reqs ch) ch O1 O1 (fun _ _ H => H)) as S. destruct (scanRequests c now (u_reqs ch) ch) as (ch', o).
    destruct S as (_ & _ & S3 & _). destruct (scanMonitor c now m) as (m1, o1). inversion H; subst. apply Forall_app. split.
    + apply Forall_forall. intros x IN. apply in_map_iff in IN. destruct IN as (e & <- & IN). apply filter_In in IN. destruct IN as (IN & _).
      apply in_map_iff in IN. destruct IN as ((id, e1) & <- & IN). exists k0, id. cbn [none o_req snd]. apply O3. apply in_aget; assumption.
    + apply (IH D') with (m' := m1); [|reflexivity]. intros k ch1 H1. apply OK. cbn [aget]. case_eqb k k0; [|assumption]. subst. exfalso. apply NI. exact (aget_some_in_keys m k0 ch1 H1).
Qed.
Lemma outs_known pq ps c : forall ops m m' out, Inv pq m -> urun pq ps c m ops = Ok (m', out) -> Forall (fun x => exists k id, entryOk pq k id (o_req x)) out.
Proof.
  induction ops as [|o l IH]; intros m m' out I; cbn [urun]; [intros H; inversion H; constructor|].
  destruct (ustep pq ps c m o) as [(m1, o1)| |] eqn:S1; cbn [bind]; try discriminate. cbn [fst snd].
  destruct (urun pq ps c m1 l) as [(m2, o2)| |] eqn:S2; cbn [bind]; try discriminate. cbn [fst snd]. intros H. inversion H; subst.
  apply Forall_app. split; [exact (out_known pq ps c m o m1 o1 I S1)|]. apply (IH m1 m' o2); [|assumption].
  apply (ustep_moves pq ps c m o m1 o1 I S1).
Qed.

Lemma utalk_resp c : forall l cur r e, In {| o_req := r; o_resp := Some e |} (snd (utalk c cur l)) -> In (IResp e) l.
Proof.
  induction l as [|i l IH]; intros cur r e; cbn [utalk]; [contradiction|].
  destruct (unext c cur i) as (g, o) eqn:U. destruct (utalk c g l) as (g2, o2) eqn:T. cbn [snd]. intros IN. apply in_app_or in IN. destruct IN as [IN|IN].
  - left. destruct i as [q|q|now], cur as [w|]; cbn [unext] in U.
    + inversion U; subst. contradiction.
    + inversion U; subst. contradiction.
    + inversion U; subst. destruct IN as [IN|[]]. inversion IN. reflexivity.
    + inversion U; subst. contradiction.
    + destruct (getNoResponseThreshold c <=? ageSeconds now w); inversion U; subst; [|contradiction]. destruct IN as [IN|[]]. inversion IN.
    + inversion U; subst. contradiction.
  - right. apply (IH g r e). rewrite T. exact IN.
Qed.

(** An answer is reported only together with a query of the same process, descriptor, addresses, ports and DNS id. *)
Theorem C19_answer_matches_query : forall parseReq parseResp c ops m out, urun parseReq parseResp c [] ops = Ok (m, out) ->
  forall r e, In {| o_req := r; o_resp := Some e |} out ->
  exists k id, getUdpKey r = Ok k /\ getUdpKey e = Ok k /\ parseReq (getData r) = Some id /\ parseResp (getData e) = Some id.
Proof.
  intros pq ps c ops m out R r e IN. pose proof (outs_known pq ps c ops [] m out (Inv_nil pq) R) as F.
  destruct (proj1 (Forall_forall _ _) F _ IN) as (k & id & K & P). cbn [o_req] in K, P.
  destruct (C19_each_id pq ps c ops m out R k id) as (E & _).
  assert (IN2 : In {| o_req := r; o_resp := Some e |} (filter (about pq k id) out)).
  { apply filter_In. split; [assumption|]. unfold about. cbn [o_req]. rewrite K, P. cbn [resEqb]. rewrite !eqb_refl. reflexivity. }
  rewrite E in IN2. apply utalk_resp in IN2. apply in_flat_map in IN2. destruct IN2 as (o & _ & IP). exists k, id. split; [assumption|].
  destruct o as [e0|now]; cbn [uproject] in IP; [|destruct IP as [IP|[]]; discriminate].
  destruct (classifyUdp c e0) as [[|k1 l|k1 e1]| |] eqn:CL; try contradiction.
  - destruct (eqb k k1); [|contradiction]. apply in_map_iff in IP. destruct IP as (x & H & _). discriminate.
  - pose proof (classify_keys c e0 _ CL) as (-> & K1). destruct (eqb k k1) eqn:EK; cbn [andb] in IP; [|contradiction]. apply eqb_true in EK. subst k1.
    destruct (eqb (ps (getData e0)) (Some id)) eqn:EI; [|contradiction]. apply eqb_true in EI. destruct IP as [IP|[]]. inversion IP; subst. auto.
Qed.
Print Assumptions C19_answer_matches_query.

(** *** at most once *)
Definition toList (o : option event) : list event := match o with Some e => [e] | None => [] end.
Lemma utalk_sub c : forall l cur, let '(g, o) := utalk c cur l in Subseq (map o_req o ++ toList g) (toList cur ++ queriesOf l).
Proof.
  induction l as [|i l IH]; intros cur; cbn [utalk].
  - cbn [map app queriesOf flat_map]. rewrite app_nil_r. apply sub_refl.
  - destruct (unext c cur i) as (g, o) eqn:U. specialize (IH g). destruct (utalk c g l) as (g2, o2). rewrite map_app, <- app_assoc.
    apply sub_trans with (b := map o_req o ++ (toList g ++ queriesOf l)).
    + apply sub_app; [apply sub_refl|exact IH].
    + unfold queriesOf at 2. cbn [flat_map]. fold (queriesOf l). rewrite !app_assoc. apply sub_app; [|apply sub_refl].
      destruct i as [q|q|now], cur as [w|]; cbn [unext] in U.
      * inversion U; subst. cbn [map toList app]. apply sub_skip, sub_refl.
      * inversion U; subst. apply sub_refl.
      * inversion U; subst. apply sub_refl.
      * inversion U; subst. apply sub_refl.
      * destruct (getNoResponseThreshold c <=? ageSeconds now w); inversion U; subst; apply sub_refl.
      * inversion U; subst. apply sub_refl.
Qed.
(** Every query is reported at most once, answered or not, in the order they came. *)
Theorem C19_at_most_once : forall parseReq parseResp c ops m out, urun parseReq parseResp c [] ops = Ok (m, out) -> forall k id,
  Subseq (map o_req (filter (about parseReq k id) out) ++ toList (waiting m k id)) (queriesOf (flat_map (uproject parseReq parseResp c k id) ops)).
Proof.
  intros pq ps c ops m out R k id. destruct (C19_each_id pq ps c ops m out R k id) as (E & W). rewrite E, W.
  pose proof (utalk_sub c (flat_map (uproject pq ps c k id) ops) None) as H. destruct (utalk c None _). exact H.
Qed.
Print Assumptions C19_at_most_once.

(** Every query is reported or still waiting, as long as no query repeats an id that is still waiting. *)
Fixpoint neverRepeated (c : config) (cur : option event) (l : list uitem) : bool :=
  match l with
  | [] => true
  | i :: l' => match i, cur with IReq _, Some _ => false | _, _ => neverRepeated c (fst (unext c cur i)) l' end
  end.
Lemma utalk_all c : forall l cur, neverRepeated c cur l = true -> let '(g, o) := utalk c cur l in map o_req o ++ toList g = toList cur ++ queriesOf l.
Proof.
  induction l as [|i l IH]; intros cur NR; cbn [utalk].
  - cbn [map app queriesOf flat_map]. rewrite app_nil_r. reflexivity.
  - cbn [neverRepeated] in NR. assert (N2 : neverRepeated c (fst (unext c cur i)) l = true) by (destruct i, cur; auto; discriminate).
    specialize (IH _ N2). destruct (unext c cur i) as (g, o) eqn:U. cbn [fst] in IH. destruct (utalk c g l) as (g2, o2). rewrite map_app, <- app_assoc, IH.
    unfold queriesOf at 2. cbn [flat_map]. fold (queriesOf l). rewrite !app_assoc. f_equal.
    destruct i as [q|q|now], cur as [w|]; cbn [unext] in U; try discriminate; try (inversion U; subst; reflexivity).
    destruct (getNoResponseThreshold c <=? ageSeconds now w); inversion U; subst; reflexivity.
Qed.
Theorem C19_no_query_lost : forall parseReq parseResp c ops m out, urun parseReq parseResp c [] ops = Ok (m, out) -> forall k id,
  neverRepeated c None (flat_map (uproject parseReq parseResp c k id) ops) = true ->
  map o_req (filter (about parseReq k id) out) ++ toList (waiting m k id) = queriesOf (flat_map (uproject parseReq parseResp c k id) ops).
Proof.
  intros pq ps c ops m out R k id NR. destruct (C19_each_id pq ps c ops m out R k id) as (E & W). rewrite E, W.
  pose proof (utalk_all c _ None NR) as H. destruct (utalk c None _). exact H.
Qed.
Print Assumptions C19_no_query_lost.

(** A scan reports every waiting query that has waited for the threshold, and only those; none of them waits any longer. *)
Theorem C19_scan_reports_overdue : forall parseReq parseResp c ops m out now, urun parseReq parseResp c [] ops = Ok (m, out) ->
  forall k id, let '(m', o) := scanMonitor c now m in
  filter (about parseReq k id) o =
    match waiting m k id with Some e => if getNoResponseThreshold c <=? ageSeconds now e then [{| o_req := e; o_resp := None |}] else [] | None => [] end /\
  waiting m' k id =
    match waiting m k id with Some e => if getNoResponseThreshold c <=? ageSeconds now e then None else Some e | None => None end.
Proof.
  intros pq ps c ops m out now R k id. destruct (urun_moves pq ps c ops [] m out (Inv_nil pq) R) as (I & _).
  pose proof (scan_moves pq c now m I) as S. destruct (scanMonitor c now m) as (m', o). destruct S as (_ & _ & S). specialize (S k id).
  cbn [utalk unext] in S. destruct (waiting m k id) as [e|]; [destruct (getNoResponseThreshold c <=? ageSeconds now e)|]; cbn [app] in S; inversion S; auto.
Qed.
Print Assumptions C19_scan_reports_overdue.

(** Nothing here crashes as long as events that have a source address have a destination address too. *)
Theorem C19_no_panic : forall parseReq parseResp c ops,
  Forall (fun o => match o with UDeliver e => (e_sip e <> [] -> e_dip e <> []) /\ Forall is_byte (getData e) | UTick _ => True end) ops ->
  forall m, urun parseReq parseResp c m ops <> Panic.
Proof.
  intros pq ps c ops F. induction F as [|o ops H F IH]; intros m; cbn [urun]; [discriminate|].
  assert (S : exists r, ustep pq ps c m o = Ok r).
  { destruct o as [e|now]; cbn [ustep]; [|eexists; reflexivity]. destruct H as (D & B). unfold deliverUdp.
    assert (NP : classifyUdp c e <> Panic).
    { unfold classifyUdp. destruct (negb (e_net e)); [discriminate|]. destruct (e_sip e) as [|x xs] eqn:SI; [discriminate|].
      destruct (e_proto e); try discriminate. destruct (negb (existsb _ _)); [discriminate|].
      destruct (C54_direction e) as (_ & _ & NP). destruct (isRequest e) as [b| |]; cbn [bind]; [|discriminate|congruence].
      destruct (e_dip e) as [|y ys] eqn:DI; [exfalso; apply D; [discriminate|reflexivity]|].
      assert (K : exists k, getUdpKey e = Ok k).
      { unfold getUdpKey, getSip, getDip. rewrite SI, DI. eexists. reflexivity. }
      destruct K as (k & ->). cbn [bind]. destruct b; [|discriminate]. destruct (eqb (e_name e) "sendmmsg") eqn:N; [|discriminate].
      unfold convertSendmmsg. rewrite N. cbn [negb]. destruct (C11_split_total _ B) as (l2 & ->). discriminate. }
    destruct (classifyUdp c e) as [[|k l|k e1]| |]; try congruence; eexists; reflexivity. }
  destruct S as (r & ->). cbn [bind]. specialize (IH (fst r)). destruct (urun pq ps c (fst r) ops); cbn [bind]; congruence.
Qed.
Print Assumptions C19_no_panic.

(** *** Findings *)
Definition udpEv (name : string) (ts : Z) (data : bytes) : event :=
  {| e_name := name; e_ts := ts; e_lat := 3; e_net := true; e_params := 2;
     e_attrs := [{| kv_key := "res"; kv_type := TInt64; kv_val := leBytes 8 (zlen data) |};
                 {| kv_key := "data"; kv_type := TBytebuf; kv_val := data |}];
     e_pid := 1; e_tid := 4; e_comm := "c"; e_cid := ""; e_fd := 5; e_proto := L4Udp; e_role := false;
     e_sip := [1]; e_dip := [2]; e_sport := 7; e_dport := 53 |}.
(** the id is the first byte of the payload *)
Definition firstByte (b : bytes) : option Z := match b with x :: _ => Some x | [] => None end.

(** A query that repeats an id still waiting takes the place of the earlier one, which is then never reported. *)
Theorem C19_repeated_id_lost_refuted :
  exists ops m out, urun firstByte firstByte cfg0 [] ops = Ok (m, out) /\
  ops = [UDeliver (udpEv "sendto" 100 [9; 1]); UDeliver (udpEv "sendto" 200 [9; 2]); UDeliver (udpEv "recvfrom" 300 [9]); UTick (10 ^ 15)] /\
  map (fun o => getData (o_req o)) out = [[9; 2]] /\ (forall k id, waiting m k id = None).
Proof.
  do 3 eexists. split; [|split; [reflexivity|]]; [vm_compute; reflexivity|]. split; [reflexivity|].
  intros k id. unfold waiting. cbn [aget]. destruct (eqb k _); reflexivity.
Qed.
Print Assumptions C19_repeated_id_lost_refuted.

(** After that the emptied cache stays in the monitor for good: its count never comes back to zero. *)
Theorem C19_cache_never_removed_refuted :
  exists ops m out, urun firstByte firstByte cfg0 [] ops = Ok (m, out) /\ (forall k id, waiting m k id = None) /\
  forall ticks, exists m', urun firstByte firstByte cfg0 m (map UTick ticks) = Ok (m', []) /\ m' = m /\ List.length m' = 1%nat.
Proof.
  exists [UDeliver (udpEv "sendto" 100 [9; 1]); UDeliver (udpEv "sendto" 200 [9; 2]); UDeliver (udpEv "recvfrom" 300 [9])].
  do 2 eexists. split; [vm_compute; reflexivity|]. split.
  - intros k id. unfold waiting. cbn [aget]. destruct (eqb k _); reflexivity.
  - intros ticks. eexists. split; [|split; [reflexivity|reflexivity]]. induction ticks as [|t ticks IH]; [reflexivity|].
    cbn [map urun]. match goal with |- context [ustep ?a ?b ?c ?m (UTick t)] => change (ustep a b c m (UTick t)) with (Ok (m, @nil uout)) end.
    cbn [bind fst snd]. rewrite IH. reflexivity.
Qed.
Print Assumptions C19_cache_never_removed_refuted.

(** Three queries: one answered, one timed out, one still waiting. *)
Example C19_example :
  exists m out, urun firstByte firstByte cfg0 []
    [UDeliver (udpEv "sendto" 100 [9; 1]); UDeliver (udpEv "sendto" 200 [8; 2]); UDeliver (udpEv "recvfrom" 300 [9]); UTick (200 * 10 ^ 9);
     UDeliver (udpEv "sendto" (150 * 10 ^ 9) [9; 3]); UTick (201 * 10 ^ 9)] = Ok (m, out) /\
  map (fun o => (getData (o_req o), option_map getData (o_resp o))) out = [([9; 1], Some [9]); ([8; 2], None)] /\
  match getUdpKey (udpEv "sendto" 0 []) with Ok k => option_map getData (waiting m k 9) = Some [9; 3] | _ => False end.
Proof. do 2 eexists. split; [vm_compute; reflexivity|]. split; vm_compute; reflexivity. Qed.

(** Queries of different processes, descriptors, addresses or ports never share a cache. *)
Theorem C19_conversations_apart : forall e1 e2 k, getUdpKey e1 = Ok k -> getUdpKey e2 = Ok k ->
  e_pid e1 = e_pid e2 /\ e_fd e1 = e_fd e2 /\ getSip e1 = getSip e2 /\ getDip e1 = getDip e2 /\
  e_sport e1 = e_sport e2 /\ e_dport e1 = e_dport e2.
Proof.
  unfold getUdpKey. intros e1 e2 k H1 H2.
  destruct (getSip e1) eqn:S1, (getDip e1) eqn:D1, (getSip e2) eqn:S2, (getDip e2) eqn:D2; cbn [bind] in H1, H2; try discriminate.
  inversion H1; subst k. inversion H2; subst. auto 10.
Qed.
Print Assumptions C19_conversations_apart.
Example C19_conversations_apart_example :
  exists k, getUdpKey (udpEv "sendto" 100 [9]) = Ok k /\ getUdpKey (udpEv "recvfrom" 200 [8]) = Ok k.
Proof. eexists. split; vm_compute; reflexivity. Qed.
