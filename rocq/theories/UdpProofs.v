From Verif Require Import Base EventModel PairModel UdpModel UdpSpec.
Open Scope list_scope. Open Scope Z_scope.

Lemma aset_len {V} (m : list (Z * V)) k v : zlen (aset m k v) <= zlen m + 1.
Proof.
  unfold zlen. induction m as [|(k1, v1) m IH]; [cbn; lia|]. cbn [aset]. destruct (eqb k k1); cbn [List.length]; lia.
Qed.
Lemma adel_absent {V} (m : list (Z * V)) k : ~ In k (keys m) -> adel m k = m.
Proof.
  unfold adel. induction m as [|(k1, v1) m IH]; intros N; [reflexivity|]. cbn [keys map fst] in N. cbn [filter fst].
  rewrite (proj2 (eqb_neq k k1)) by (intros ->; apply N; left; reflexivity). cbn [negb]. f_equal. apply IH. intros H. apply N. right. exact H.
Qed.
Lemma adel_len {V} (m : list (Z * V)) k v : NoDup (keys m) -> aget m k = Some v -> zlen (adel m k) = zlen m - 1.
Proof.
  unfold zlen. induction m as [|(k1, v1) m IH]; intros D G; [discriminate|]. cbn [keys map fst] in D. inversion D as [|? ? D1 D2]; subst.
  cbn [aget] in G. unfold adel. cbn [filter fst]. destruct (eqb k k1) eqn:E; cbn [negb List.length].
  - apply eqb_true in E. subst k1. fold (adel m k). rewrite adel_absent by assumption. lia.
  - fold (adel m k). specialize (IH D2 G). lia.
Qed.

Section Parser.
  Context (parseReq parseResp : bytes -> option Z) (c : config).

  Definition entryOk (k : ukey) (id : Z) (e : event) : Prop := getUdpKey e = Ok k /\ parseReq (getData e) = Some id.
  Definition okc (k : ukey) (ch : cache) : Prop :=
    NoDup (keys (u_reqs ch)) /\ zlen (u_reqs ch) <= u_count ch /\ forall id e, aget (u_reqs ch) id = Some e -> entryOk k id e.
  Definition Inv (m : monitor) : Prop := NoDup (keys m) /\ forall k ch, aget m k = Some ch -> okc k ch.

  Lemma okc_new k : okc k newCache.
  Proof. unfold okc, newCache. cbn [u_reqs u_count keys map aget]. repeat split; try constructor; discriminate. Qed.

  Lemma request_moves k m e : Inv m -> getUdpKey e = Ok k ->
    Inv (consumeUdpDnsRequest parseReq k m e) /\
    forall k' id, waiting (consumeUdpDnsRequest parseReq k m e) k' id =
      if eqb k' k && eqb (parseReq (getData e)) (Some id) then Some e else waiting m k' id.
  Proof.
    intros (D & OK) K. unfold consumeUdpDnsRequest. destruct (parseReq (getData e)) as [id0|] eqn:P.
    2:{ split; [split; assumption|]. intros k' id. destruct (eqb k' k); reflexivity. }
    set (ch := match aget m k with Some ch => ch | None => newCache end).
    assert (OC : okc k ch). { unfold ch. destruct (aget m k) eqn:G; [apply OK; assumption|apply okc_new]. }
    destruct OC as (O1 & O2 & O3). split.
    - split; [apply NoDup_keys_aset; assumption|]. intros k1 ch1. rewrite aget_aset. case_eqb k1 k; [|apply OK].
      subst k1. intros H. inversion H; subst. unfold okc, addRequest. cbn [u_reqs u_count]. split; [apply NoDup_keys_aset; assumption|].
      split; [pose proof (aset_len (u_reqs ch) id0 e); lia|].
      intros id e1. rewrite aget_aset. case_eqb id id0; [|apply O3]. intros H1. inversion H1; subst. split; assumption.
    - intros k' id. unfold waiting. rewrite aget_aset. case_eqb k' k.
      + subst k'. cbn [andb addRequest u_reqs]. rewrite aget_aset.
        change (eqb (Some id0) (Some id)) with (eqb id0 id). rewrite (eqb_sym id0 id). destruct (eqb id id0); [reflexivity|].
        unfold ch. destruct (aget m k); reflexivity.
      + reflexivity.
  Qed.

  Lemma waiting_ok m k id e : Inv m -> waiting m k id = Some e -> entryOk k id e.
  Proof. intros (D & OK). unfold waiting. destruct (aget m k) as [ch|] eqn:G; [|discriminate]. intros H. apply (OK k ch G). exact H. Qed.
  Lemma about_ok k id e r k' id' : entryOk k id e -> about parseReq k' id' {| o_req := e; o_resp := r |} = eqb k' k && eqb id' id.
  Proof.
    intros (A & B). unfold about. cbn [o_req]. rewrite A, B. cbn [resEqb]. change (eqb (Some id) (Some id')) with (eqb id id'). rewrite (eqb_sym id id'). reflexivity.
  Qed.

  Lemma response_moves k m e : Inv m ->
    let '(m', o) := consumeUdpDnsResponse parseResp k m e in
    Inv m' /\ forall k' id, (waiting m' k' id, filter (about parseReq k' id) o) =
       utalk c (waiting m k' id) (if eqb k' k && eqb (parseResp (getData e)) (Some id) then [IResp e] else []).
  Proof.
    intros I. pose proof I as (D & OK). unfold consumeUdpDnsResponse. destruct (parseResp (getData e)) as [id0|].
    2:{ split; [assumption|]. intros k' id. destruct (eqb k' k); reflexivity. }
    destruct (aget m k) as [ch|] eqn:G.
    2:{ split; [assumption|]. intros k' id. case_eqb k' k; cbn [andb]; [|reflexivity]. subst k'. change (eqb (Some id0) (Some id)) with (eqb id0 id).
        unfold waiting. rewrite G. destruct (eqb id0 id); reflexivity. }
    destruct (OK k ch G) as (O1 & O2 & O3). unfold getMatchRequest. destruct (aget (u_reqs ch) id0) as [r|] eqn:A.
    - set (ch' := {| u_count := u_count ch - 1; u_reqs := adel (u_reqs ch) id0 |}).
      assert (OC : okc k ch').
      { unfold okc, ch'. cbn [u_reqs u_count]. split; [apply NoDup_keys_adel; assumption|]. split; [rewrite (adel_len _ _ r) by assumption; lia|].
        intros id e1. rewrite aget_adel. case_eqb id id0; [discriminate|apply O3]. }
      assert (W : forall k' id, waiting (if u_count ch' <=? 0 then adel m k else aset m k ch') k' id = if eqb k' k then aget (u_reqs ch') id else waiting m k' id).
      { intros k' id. unfold waiting. destruct (u_count ch' <=? 0) eqn:Z0.
        - rewrite aget_adel. case_eqb k' k; [|reflexivity]. destruct OC as (_ & L & _).
          assert (u_reqs ch' = []) as ->; [|reflexivity]. destruct (u_reqs ch') as [|x y]; [reflexivity|]. unfold zlen in L. cbn [List.length] in L. lia.
        - rewrite aget_aset. case_eqb k' k; reflexivity. }
      split.
      + destruct (u_count ch' <=? 0); split.
        * apply NoDup_keys_adel. assumption.
        * intros k1 ch1. rewrite aget_adel. case_eqb k1 k; [discriminate|apply OK].
        * apply NoDup_keys_aset. assumption.
        * intros k1 ch1. rewrite aget_aset. case_eqb k1 k; [|apply OK]. subst k1. intros H. inversion H; subst. assumption.
      + intros k' id. rewrite W. cbn [filter]. rewrite (about_ok k id0 r _ k' id (O3 _ _ A)).
        change (eqb (Some id0) (Some id)) with (eqb id0 id). rewrite (eqb_sym id id0). case_eqb k' k; cbn [andb].
        * subst k'. unfold ch'. cbn [u_reqs]. rewrite aget_adel. unfold waiting. rewrite G. case_eqb id0 id.
          -- subst id. rewrite eqb_refl, A. cbn [utalk unext]. reflexivity.
          -- rewrite (proj2 (eqb_neq id id0)) by congruence. reflexivity.
        * reflexivity.
    - set (m' := if u_count ch <=? 0 then adel m k else aset m k ch).
      assert (W : forall k' id, waiting m' k' id = waiting m k' id).
      { intros k' id. unfold waiting, m'. destruct (u_count ch <=? 0) eqn:Z0.
        - rewrite aget_adel. case_eqb k' k; [|reflexivity]. subst k'. rewrite G.
          assert (u_reqs ch = []) as ->; [|reflexivity]. destruct (u_reqs ch) as [|x y]; [reflexivity|]. unfold zlen in O2. cbn [List.length] in O2. lia.
        - rewrite aget_aset. case_eqb k' k; [|reflexivity]. subst k'. rewrite G. reflexivity. }
      split.
      + unfold m'. destruct (u_count ch <=? 0); split.
        * apply NoDup_keys_adel. assumption.
        * intros k1 ch1. rewrite aget_adel. case_eqb k1 k; [discriminate|apply OK].
        * apply NoDup_keys_aset. assumption.
        * intros k1 ch1. rewrite aget_aset. case_eqb k1 k; [|apply OK]. subst k1. intros H. inversion H; subst. apply OK. assumption.
      + intros k' id. rewrite W. cbn [filter]. case_eqb k' k; cbn [andb]; [|reflexivity]. subst k'. change (eqb (Some id0) (Some id)) with (eqb id0 id).
        case_eqb id0 id; [|reflexivity]. subst id. unfold waiting. rewrite G, A. reflexivity.
  Qed.

  (** the scan *)
  Definition none (e : event) : uout := {| o_req := e; o_resp := None |}.
  Lemma scanRequests_spec now : forall l ch, NoDup (keys l) -> NoDup (keys (u_reqs ch)) -> (forall id e, aget l id = Some e -> aget (u_reqs ch) id = Some e) ->
    let '(ch', o) := scanRequests c now l ch in
    NoDup (keys (u_reqs ch')) /\ u_count ch' - zlen (u_reqs ch') = u_count ch - zlen (u_reqs ch) /\
    o = map none (filter (lateUdp c now) (map snd l)) /\
    forall id, aget (u_reqs ch') id = match aget l id with Some e => if lateUdp c now e then None else aget (u_reqs ch) id | None => aget (u_reqs ch) id end.
  Proof.
    induction l as [|(id0, e0) l IH]; intros ch DL DC S.
    - cbn [scanRequests map filter aget]. auto.
    - cbn [keys map fst] in DL. inversion DL as [|? ? NI DL']; subst. cbn [scanRequests map snd filter].
      assert (AL : forall id e, aget l id = Some e -> id <> id0) by (intros id e H ->; apply NI; exact (aget_some_in_keys l id0 e H)).
      assert (S0 : aget (u_reqs ch) id0 = Some e0) by (apply S; cbn [aget]; rewrite eqb_refl; reflexivity).
      assert (S1 : forall id e, aget l id = Some e -> aget (u_reqs ch) id = Some e).
      { intros id e H. apply S. cbn [aget]. rewrite (proj2 (eqb_neq id id0)) by (eapply AL; eassumption). assumption. }
      destruct (lateUdp c now e0) eqn:LT.
      + specialize (IH (deleteRequest ch id0) DL'). destruct (scanRequests c now l (deleteRequest ch id0)) as (ch', o).
        destruct IH as (I1 & I2 & I3 & I4).
        { cbn [deleteRequest u_reqs]. apply NoDup_keys_adel. assumption. }
        { intros id e H. cbn [deleteRequest u_reqs]. rewrite aget_adel_other by (eapply AL; eassumption). apply S1. assumption. }
        split; [assumption|]. split; [|split].
        * cbn [deleteRequest u_reqs u_count] in I2. rewrite (adel_len _ _ e0) in I2 by assumption. lia.
        * cbn [map]. rewrite I3. reflexivity.
        * intros id. rewrite I4. cbn [aget deleteRequest u_reqs]. rewrite aget_adel. case_eqb id id0.
          -- subst id. rewrite LT. destruct (aget l id0) as [e1|]; [destruct (lateUdp c now e1)|]; reflexivity.
          -- reflexivity.
      + specialize (IH ch DL' DC S1). destruct (scanRequests c now l ch) as (ch', o). destruct IH as (I1 & I2 & I3 & I4).
        split; [assumption|]. split; [assumption|]. split; [assumption|]. intros id. rewrite I4. cbn [aget]. case_eqb id id0.
        * subst id. rewrite LT. destruct (aget l id0) as [e1|] eqn:E1; [|reflexivity]. exfalso. exact (AL _ _ E1 eq_refl).
        * reflexivity.
  Qed.
  Lemma scan_out k now : forall l, NoDup (keys l) -> (forall id e, In (id, e) l -> entryOk k id e) -> forall k' id,
    filter (about parseReq k' id) (map none (filter (lateUdp c now) (map snd l))) =
    if eqb k' k then match aget l id with Some e => if lateUdp c now e then [none e] else [] | None => [] end else [].
  Proof.
    induction l as [|(id0, e0) l IH]; intros D OK k' id.
    - cbn [map filter aget]. destruct (eqb k' k); reflexivity.
    - cbn [keys map fst] in D. inversion D as [|? ? NI D']; subst. specialize (IH D' (fun i e H => OK i e (or_intror H)) k' id).
      cbn [map snd filter aget]. assert (E0 := OK id0 e0 (or_introl eq_refl)).
      destruct (lateUdp c now e0) eqn:LT.
      + cbn [map filter]. unfold none at 1. rewrite (about_ok k id0 e0 None k' id E0). rewrite IH. clear IH. case_eqb k' k; cbn [andb].
        * case_eqb id id0.
          -- subst id. rewrite LT. replace (aget l id0) with (@None event); [reflexivity|]. symmetry. apply aget_none_notin. assumption.
          -- reflexivity.
        * reflexivity.
      + rewrite IH. case_eqb k' k; [|reflexivity]. case_eqb id id0; [|reflexivity]. subst id. rewrite LT.
        replace (aget l id0) with (@None event); [reflexivity|]. symmetry. apply aget_none_notin. assumption.
  Qed.

  Lemma scan_moves now : forall m, Inv m ->
    let '(m', o) := scanMonitor c now m in
    Inv m' /\ (forall k, aget m k = None -> aget m' k = None) /\
    forall k id, (waiting m' k id, filter (about parseReq k id) o) = utalk c (waiting m k id) [IScan now].
  Proof.
    induction m as [|(k0, ch) m IH]; intros (D & OK).
    - cbn [scanMonitor]. split; [split; assumption|]. split; [auto|]. intros k id. reflexivity.
    - cbn [keys map fst] in D. inversion D as [|? ? NI D']; subst.
      assert (OK0 : okc k0 ch) by (apply OK; cbn [aget]; rewrite eqb_refl; reflexivity).
      assert (IM : Inv m).
      { split; [assumption|]. intros k ch1 H. apply OK. cbn [aget]. case_eqb k k0; [|assumption]. subst. exfalso. apply NI. exact (aget_some_in_keys m k0 ch1 H). }
      specialize (IH IM). cbn [scanMonitor]. destruct OK0 as (O1 & O2 & O3).
      pose proof (scanRequests_spec now (u_reqs ch) ch O1 O1 (fun _ _ H => H)) as S. destruct (scanRequests c now (u_reqs ch) ch) as (ch', o).
      destruct S as (S1 & S2 & S3 & S4). destruct (scanMonitor c now m) as (m', o'). destruct IH as (I1 & I2 & I3).
      assert (N0 : aget m k0 = None) by (apply aget_none_notin; assumption).
      assert (OKC : okc k0 ch').
      { split; [assumption|]. split; [lia|]. intros id e. rewrite S4. destruct (aget (u_reqs ch) id) as [e1|] eqn:E1; [|discriminate].
        destruct (lateUdp c now e1); [discriminate|]. intros H. inversion H; subst. apply O3. assumption. }
      assert (W : forall k id, waiting (if isEmpty ch' then m' else (k0, ch') :: m') k id = if eqb k k0 then aget (u_reqs ch') id else waiting m' k id).
      { intros k id. unfold waiting. destruct (isEmpty ch') eqn:EM; cbn [aget].
        - case_eqb k k0; [|reflexivity]. subst k. rewrite (I2 k0 N0). unfold isEmpty in EM.
          destruct OKC as (_ & L & _). assert (u_reqs ch' = []) as ->; [|reflexivity]. destruct (u_reqs ch') as [|x y]; [reflexivity|]. unfold zlen in L. cbn [List.length] in L. lia.
        - case_eqb k k0; reflexivity. }
      split; [|split].
      + destruct (isEmpty ch'); [assumption|]. destruct I1 as (J1 & J2). split.
        * cbn [keys map fst]. constructor; [|assumption]. apply aget_none_notin. apply I2. assumption.
        * intros k ch1. cbn [aget]. case_eqb k k0; [|apply J2]. subst. intros H. inversion H; subst. assumption.
      + intros k. cbn [aget]. case_eqb k k0; [discriminate|]. intros H. destruct (isEmpty ch'); cbn [aget]; [apply I2; assumption|].
        rewrite (proj2 (eqb_neq k k0)) by assumption. apply I2. assumption.
      + intros k id. rewrite W, filter_app, S3.
        rewrite (scan_out k0 now (u_reqs ch) O1) by (intros i e H; apply O3; apply in_aget; assumption).
        specialize (I3 k id). replace (waiting ((k0, ch) :: m) k id) with (if eqb k k0 then aget (u_reqs ch) id else waiting m k id) by (unfold waiting; cbn [aget]; destruct (eqb k k0); reflexivity).
        case_eqb k k0.
        * subst k. unfold waiting in I3 at 2. rewrite N0 in I3. cbn [utalk unext app] in I3. inversion I3 as [[I3a I3b]]. rewrite I3b, app_nil_r. rewrite S4.
          destruct (aget (u_reqs ch) id) as [e1|]; [|reflexivity]. cbn [utalk unext]. unfold ageSeconds. fold (lateUdp c now e1).
          destruct (lateUdp c now e1); reflexivity.
        * cbn [app]. exact I3.
  Qed.

  Lemma utalk_app l1 : forall cur l2, utalk c cur (l1 ++ l2) = let '(g1, o1) := utalk c cur l1 in let '(g2, o2) := utalk c g1 l2 in (g2, o1 ++ o2).
  Proof.
    induction l1 as [|i l1 IH]; intros cur l2; cbn [app utalk].
    - destruct (utalk c cur l2); reflexivity.
    - destruct (unext c cur i) as (g, o). rewrite IH. destruct (utalk c g l1) as (g1, o1). destruct (utalk c g1 l2) as (g2, o2). rewrite app_assoc. reflexivity.
  Qed.

  Lemma udpKey_attrs e l : getUdpKey (withAttrs e l) = getUdpKey e.
  Proof. reflexivity. Qed.
  Lemma split_key e l : convertSendmmsg e = Some (Ok l) -> Forall (fun x => getUdpKey x = getUdpKey e) l.
  Proof.
    unfold convertSendmmsg. destruct (negb _); [intros H; inversion H; constructor|]. destruct (splitDataBytes (getData e)) as [[l0| |]|]; try discriminate.
    intros H. inversion H; subst. apply Forall_forall. intros x IN. apply in_map_iff in IN. destruct IN as (b & <- & _).
    unfold setUserAttribute. destruct (e_params e =? 0) eqn:Z0; [rewrite Z0; reflexivity|]. cbn [withAttrs e_params]. rewrite Z0. reflexivity.
  Qed.
  Lemma classify_keys e a : classifyUdp c e = Ok a ->
    match a with UNothing => True | URequests k l => getUdpKey e = Ok k /\ Forall (fun x => getUdpKey x = Ok k) l | UResponse k e' => e' = e /\ getUdpKey e = Ok k end.
  Proof.
    unfold classifyUdp. destruct (negb (e_net e)); [intros H; inversion H; exact I|]. destruct (e_sip e); [intros H; inversion H; exact I|].
    destruct (e_proto e); try (intros H; inversion H; exact I). destruct (negb (existsb _ _)); [intros H; inversion H; exact I|].
    destruct (isRequest e) as [r| |]; cbn [bind]; try discriminate. destruct (getUdpKey e) as [k| |] eqn:K; cbn [bind]; try discriminate.
    destruct r.
    - destruct (eqb (e_name e) "sendmmsg"%string).
      + destruct (convertSendmmsg e) as [[l0| |]|] eqn:CV; try discriminate; [|intros H; inversion H; exact I].
        intros H. inversion H; subst. split; [reflexivity|]. pose proof (split_key e l0 CV) as F. eapply Forall_impl; [|exact F]. intros x Hx. cbn beta in Hx. congruence.
      + intros H. inversion H; subst. split; [reflexivity|]. constructor; [assumption|constructor].
    - intros H. inversion H; subst. auto.
  Qed.

  Lemma requests_moves k : forall l m, Inv m -> Forall (fun x => getUdpKey x = Ok k) l ->
    Inv (fold_left (consumeUdpDnsRequest parseReq k) l m) /\
    forall k' id, (waiting (fold_left (consumeUdpDnsRequest parseReq k) l m) k' id, @nil uout) =
      utalk c (waiting m k' id) (if eqb k' k then map IReq (filter (fun x => eqb (parseReq (getData x)) (Some id)) l) else []).
  Proof.
    induction l as [|e l IH]; intros m I F.
    - cbn [fold_left filter map]. split; [assumption|]. intros k' id. destruct (eqb k' k); reflexivity.
    - inversion F; subst. cbn [fold_left]. destruct (request_moves k m e I H1) as (I1 & W1). destruct (IH _ I1 H2) as (I2 & W2).
      split; [assumption|]. intros k' id. rewrite W2, W1. cbn [filter]. case_eqb k' k; cbn [andb]; [|reflexivity].
      destruct (eqb (parseReq (getData e)) (Some id)); [|reflexivity]. cbn [map utalk unext]. destruct (utalk c (Some e) _); reflexivity.
  Qed.

  Lemma ustep_moves m o m' out : Inv m -> ustep parseReq parseResp c m o = Ok (m', out) ->
    Inv m' /\ forall k id, (waiting m' k id, filter (about parseReq k id) out) = utalk c (waiting m k id) (uproject parseReq parseResp c k id o).
  Proof.
    intros I. destruct o as [e|now]; cbn [ustep uproject].
    - unfold deliverUdp. destruct (classifyUdp c e) as [a| |] eqn:CL; try discriminate.
      + pose proof (classify_keys e a CL) as CK. destruct a as [|k l|k e'].
        * intros H. inversion H; subst. split; [assumption|]. reflexivity.
        * intros H. inversion H; subst. destruct CK as (_ & F). destruct (requests_moves k l m I F) as (I1 & W1). split; [assumption|].
          intros k' id. cbn [filter]. apply W1.
        * destruct CK as (-> & K). intros H. pose proof (response_moves k m e I) as R. destruct (consumeUdpDnsResponse parseResp k m e). inversion H; subst.
          destruct R as (R1 & R2). split; assumption.
      + intros H. inversion H; subst. split; [assumption|]. reflexivity.
    - intros H. pose proof (scan_moves now m I) as R. destruct (scanMonitor c now m). inversion H; subst. destruct R as (R1 & _ & R2). split; assumption.
  Qed.
  Lemma urun_moves : forall l m m' out, Inv m -> urun parseReq parseResp c m l = Ok (m', out) ->
    Inv m' /\ forall k id, (waiting m' k id, filter (about parseReq k id) out) = utalk c (waiting m k id) (flat_map (uproject parseReq parseResp c k id) l).
  Proof.
    induction l as [|o l IH]; intros m m' out I.
    - cbn [urun flat_map]. intros H. inversion H; subst. split; [assumption|]. reflexivity.
    - cbn [urun flat_map]. destruct (ustep parseReq parseResp c m o) as [(m1, o1)| |] eqn:S1; cbn [bind]; try discriminate. cbn [fst snd].
      destruct (urun parseReq parseResp c m1 l) as [(m2, o2)| |] eqn:S2; cbn [bind]; try discriminate. cbn [fst snd]. intros H. inversion H; subst.
      destruct (ustep_moves m o m1 o1 I S1) as (I1 & W1). destruct (IH m1 m' o2 I1 S2) as (I2 & W2). split; [assumption|].
      intros k id. rewrite utalk_app, <- W1, <- W2, filter_app. reflexivity.
  Qed.
  Lemma Inv_nil : Inv [].
  Proof. split; [constructor|discriminate]. Qed.
End Parser.
