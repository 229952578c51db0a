(** Proofs about PairModel.v. *)
From Verif Require Import Base EventModel PairModel PairSpec.
Open Scope list_scope. Open Scope Z_scope.

(** *** merging *)
Lemma fold_first l : forall v, v_first (fold_left mergeEvent l v) = v_first v.
Proof. induction l as [|e l IH]; intros v; cbn [fold_left]; [reflexivity|]. rewrite IH. reflexivity. Qed.
Lemma fold_max l : forall v, v_max (fold_left mergeEvent l v) = v_max v.
Proof. induction l as [|e l IH]; intros v; cbn [fold_left]; [reflexivity|]. rewrite IH. reflexivity. Qed.

Lemma buildEvs_snoc max l e :
  buildEvs max (l ++ [e]) = Some (match buildEvs max l with None => newEvents e max | Some v => mergeEvent v e end).
Proof.
  destruct l as [|f l]; [reflexivity|]. cbn [app buildEvs]. rewrite fold_left_app. reflexivity.
Qed.
Lemma buildEvs_max max l v : buildEvs max l = Some v -> v_max v = max.
Proof. destruct l; [discriminate|]. intros E. inversion E. rewrite fold_max. reflexivity. Qed.
Lemma buildEvs_first max l v : buildEvs max l = Some v -> exists l', l = v_first v :: l'.
Proof. destruct l as [|e l]; [discriminate|]. intros E. inversion E. rewrite fold_first. exists l. reflexivity. Qed.
Lemma lastTs_merge v e : lastTs (mergeEvent v e) = e_ts e.
Proof. reflexivity. Qed.
Lemma lastTs_build max l : forall v d, buildEvs max l = Some v -> lastTs v = lastEvTs l d.
Proof.
  induction l as [|e l IH] using rev_ind; intros v d E; [discriminate|].
  rewrite buildEvs_snoc in E. inversion E. subst v. unfold lastEvTs. rewrite map_app. cbn [map].
  rewrite last_last. destruct (buildEvs max l); reflexivity.
Qed.
Lemma putEventBack_build max l r e :
  buildEvs max l = Some r -> putEventBack (newEvents e max) r = mergeEvent r e.
Proof.
  intros E. pose proof (buildEvs_max _ _ _ E) as M. unfold putEventBack. cbn [v_first v_max newEvents].
  destruct r as [f m x]. cbn [v_max] in M. subst x. reflexivity.
Qed.

(** *** one connection *)
Definition wfk (k : key) (g : conv) : Prop :=
  (g_con g <> None \/ g_req g <> []) /\ (g_req g = [] -> g_resp g = []) /\
  (forall e, g_con g = Some e -> evKey e = k) /\ Forall (fun e => evKey e = k) (g_req g).

Lemma key_of_build max send k g : wfk k g -> getKey (build max send g) = k.
Proof.
  intros (N & R & C & Q). unfold getKey, build. cbn [p_con p_req p_resp].
  destruct (g_con g) as [e|]; [cbn [newEvents v_first]; auto|].
  destruct (g_req g) as [|e l]; [destruct N; congruence|].
  cbn [buildEvs]. rewrite fold_first. cbn [newEvents v_first]. inversion Q. assumption.
Qed.

Definition sumbool_resp (p : pairs) : bool := match p_resp p with Some _ => true | None => false end.
Lemma resp_some max send g : sumbool_resp (build max send g) = negb (isNil (g_resp g)).
Proof. unfold sumbool_resp, build. cbn [p_resp]. destruct (g_resp g); reflexivity. Qed.
Lemma timeoutTs_build max send g : getTimeoutTs (build max send g) = lastTime g.
Proof.
  unfold getTimeoutTs, build, lastTime. cbn [p_con p_req p_resp].
  destruct (buildEvs max (g_resp g)) as [v|] eqn:E.
  - rewrite (lastTs_build _ _ _ 0 E). destruct (g_resp g); [discriminate|reflexivity].
  - destruct (g_resp g); [|discriminate].
    destruct (buildEvs max (g_req g)) as [v|] eqn:E2.
    + rewrite (lastTs_build _ _ _ 0 E2). destruct (g_req g); [discriminate|reflexivity].
    + destruct (g_req g); [|discriminate]. destruct (g_con g); reflexivity.
Qed.
Lemma expired_build c now max send g : expired c now (build max send g) = overdue c now g.
Proof.
  unfold expired, overdue. rewrite timeoutTs_build. change (match p_resp (build max send g) with Some _ => true | None => false end) with (sumbool_resp (build max send g)).
  rewrite resp_some. reflexivity.
Qed.
Lemma stale_build max e e' t : isTimeout (newEvents e max) e' t = connectStale e e' t.
Proof.
  unfold isTimeout, connectStale. cbn [newEvents v_first].
  rewrite Z.ltb_antisym. destruct (w64 (e_ts e - e_lat e) <=? e_ts e'); reflexivity.
Qed.

Definition rep (c : config) (o : option conv) : option pairs := option_map (build (c_snaplen c) 0) o.
Definition outs (c : config) (l : list conv) : list pairs := map (build (c_snaplen c) 1) l.
Definition okO (k : key) (o : option conv) : Prop := match o with Some g => wfk k g | None => True end.

Definition ofKey (k : key) (p : pairs) : bool := eqb k (getKey p).

(** distributing the pair of a well-formed conversation *)
Lemma distribute_build c st k g new cont :
  wfk k g -> aget (st_map st) k = rep c (Some g) ->
  match new with Some n => wfk k n /\ (List.length (g_req n) <= 1)%nat /\ g_resp n = [] | None => True end ->
  let '(st', out) := distribute st (build (c_snaplen c) 0 g) (rep c new) cont in
  let '(g', o) := hand g new cont in
  out = outs c o /\ aget (st_map st') k = rep c g' /\ (forall k', k' <> k -> aget (st_map st') k' = aget (st_map st) k') /\
  okO k g' /\ Forall (wfk k) o /\
  keys (st_map st') = (match new with None => filter (fun x => negb (eqb k x)) (keys (st_map st)) | Some _ => keys (st_map st) end) /\
  st_gauge st' = st_gauge st - (match new with None => 1 | Some _ => 0 end).
Proof.
  intros W A NW. set (p := build (c_snaplen c) 0 g).
  assert (K : getKey p = k) by (apply key_of_build; assumption).
  assert (HK : ahas (st_map st) k = true) by (unfold ahas; rewrite A; reflexivity).
  unfold distribute.
  assert (CS : checkSend p = true) by reflexivity.
  destruct W as (N & RR & C & Q).
  assert (GATE : match p_con p, p_req p with None, None => False | _, _ => True end).
  { unfold p, build; cbn [p_con p_req]. destruct (g_con g); [exact I|].
    destruct (g_req g); [destruct N; congruence|exact I]. }
  set (st1 := match rep c new with
              | Some n => {| st_map := aset (st_map st) (getKey n) n; st_gauge := st_gauge st |}
              | None => {| st_map := adel (st_map st) (getKey p); st_gauge := st_gauge st - 1 |}
              end).
  assert (S1 : aget (st_map st1) k = rep c new /\ (forall k', k' <> k -> aget (st_map st1) k' = aget (st_map st) k') /\
               keys (st_map st1) = (match new with None => filter (fun x => negb (eqb k x)) (keys (st_map st)) | Some _ => keys (st_map st) end) /\
               st_gauge st1 = st_gauge st - (match new with None => 1 | Some _ => 0 end)).
  { unfold st1. destruct new as [n|]; cbn [rep option_map st_map st_gauge].
    - destruct NW as (NW & _). rewrite (key_of_build _ _ k n NW). rewrite keys_aset, HK.
      repeat split.
      + apply aget_aset_same.
      + intros k' NE. apply aget_aset_other. assumption.
      + lia.
    - rewrite K. repeat split.
      + apply aget_adel_same.
      + intros k' NE. apply aget_adel_other. assumption.
      + apply keys_adel. }
  clearbody st1.
  assert (W : wfk k g) by (repeat split; assumption).
  destruct S1 as (S1 & S2 & S3 & S4).
  unfold hand.
  assert (HP : p_req p = buildEvs (c_snaplen c) (g_req g)) by reflexivity.
  assert (OUT : [bumpSend p] = outs c [g]) by reflexivity.
  assert (FIN : forall o, match p_con p, p_req p with
    | None, None => (st, [])
    | _, _ => o end = o :> (state * list pairs)).
  { intros o. destruct (p_con p), (p_req p); try reflexivity. contradiction. }
  rewrite FIN, CS. cbn [negb]. rewrite HP.
  destruct (g_req g) as [|e l] eqn:EQ.
  { cbn [buildEvs isNil negb]. rewrite andb_false_r. cbn [fst snd].
    split; [assumption|]. split; [assumption|]. split; [assumption|]. split; [destruct new; [apply NW|exact I]|].
    split; [|auto]. constructor; [|constructor].
    repeat split; try assumption; rewrite ?EQ; auto. }
  cbn [buildEvs isNil negb]. rewrite andb_true_r.
  assert (EK : evKey e = k) by (inversion Q; assumption).
  rewrite fold_first. cbn [newEvents v_first]. rewrite EK, S1.
  destruct cont.
  - destruct new as [n|]; cbn [rep option_map].
    + destruct NW as (NW & L1 & NR). cbn [st_map st_gauge].
      set (v := fold_left mergeEvent l (newEvents e (c_snaplen c))).
      assert (BV : buildEvs (c_snaplen c) (g_req g) = Some v) by (rewrite EQ; reflexivity).
      assert (PB : putRequestBack (build (c_snaplen c) 0 n) v =
                   build (c_snaplen c) 0 {| g_con := g_con n; g_req := (e :: l) ++ g_req n; g_resp := g_resp n |}).
      { destruct NW as (NN & _). unfold putRequestBack, build. cbn [p_req g_con g_req g_resp]. unfold withReq.
        cbn [p_con p_resp p_send p_max].
        destruct (g_req n) as [|r [|r2 rl]].
        - cbn [buildEvs]. rewrite app_nil_r. rewrite EQ in BV. cbn [buildEvs] in BV. cbn [buildEvs]. fold v. reflexivity.
        - cbn [buildEvs fold_left]. rewrite (putEventBack_build _ _ _ _ BV).
          rewrite buildEvs_snoc. rewrite EQ in BV. rewrite BV. reflexivity.
        - cbn [List.length] in L1. lia. }
      rewrite PB. cbn [option_map].
      split; [reflexivity|]. split; [apply aget_aset_same|]. split.
      { intros k' NE. rewrite aget_aset_other by assumption. apply S2. assumption. }
      split.
      { destruct NW as (NN & NRR & NC & NQ). cbn [okO]. repeat split; cbn [g_con g_req g_resp].
        - right. discriminate.
        - discriminate.
        - assumption.
        - apply Forall_app. split; [inversion Q; constructor; assumption|assumption]. }
      split; [constructor|]. split; [|assumption].
      rewrite keys_aset. unfold ahas. rewrite S1. cbn [rep option_map]. assumption.
    + split; [reflexivity|]. split; [assumption|]. split; [assumption|]. split; [exact I|].
      split; [constructor|]. split; assumption.
  - cbn [fst snd]. split; [assumption|]. split; [assumption|]. split; [assumption|].
    split; [destruct new; [apply NW|exact I]|].
    split; [constructor; [assumption|constructor]|]. split; assumption.
Qed.

Definition corr (c : config) (k : key) (st : state) (o : option conv) : Prop :=
  aget (st_map st) k = rep c o /\ okO k o.


Definition drift (st : state) : Z := st_gauge st - zlen (st_map st).
Lemma len_keys {V} (a b : list (key * V)) : keys a = keys b -> zlen a = zlen b.
Proof. intros E. unfold zlen. rewrite <- (map_length fst a), <- (map_length fst b). unfold keys in E. rewrite E. reflexivity. Qed.
Lemma store_same st k p : ahas (st_map st) k = true ->
  keys (aset (st_map st) k p) = keys (st_map st) /\ drift {| st_map := aset (st_map st) k p; st_gauge := st_gauge st |} = drift st.
Proof.
  intros H. assert (KL : keys (aset (st_map st) k p) = keys (st_map st)) by (rewrite keys_aset, H; reflexivity).
  split; [assumption|]. unfold drift. cbn [st_map st_gauge]. rewrite (len_keys _ _ KL). reflexivity.
Qed.
Lemma store_fresh st k p : aget (st_map st) k = None ->
  keys (aset (st_map st) k p) = keys (st_map st) ++ [k] /\ drift {| st_map := aset (st_map st) k p; st_gauge := st_gauge st + 1 |} = drift st.
Proof.
  intros H. assert (KL : keys (aset (st_map st) k p) = keys (st_map st) ++ [k]) by (rewrite keys_aset; unfold ahas; rewrite H; reflexivity).
  split; [assumption|]. unfold drift, zlen. cbn [st_map st_gauge].
  rewrite <- (map_length fst (aset _ _ _)), <- (map_length fst (st_map st)). unfold keys in KL. rewrite KL, app_length. cbn [List.length]. lia.
Qed.

Lemma keep_nd {st : state} {st' : state} : keys (st_map st') = keys (st_map st) -> NoDup (keys (st_map st)) -> NoDup (keys (st_map st')).
Proof. intros ->. auto. Qed.

(** what a step does, seen from connection [k] *)
Definition good (c : config) (k : key) (st st' : state) (out : list pairs) (o' : option conv) (l : list conv) : Prop :=
  corr c k st' o' /\ out = outs c l /\ Forall (wfk k) l /\ (forall k', k' <> k -> aget (st_map st') k' = aget (st_map st) k') /\
  (NoDup (keys (st_map st)) -> NoDup (keys (st_map st'))) /\ drift st' = drift st.

Lemma good_replace c k st g g' :
  aget (st_map st) k = rep c (Some g) -> wfk k g' ->
  good c k st {| st_map := aset (st_map st) k (build (c_snaplen c) 0 g'); st_gauge := st_gauge st |} [] (Some g') [].
Proof.
  intros A W. assert (H : ahas (st_map st) k = true) by (unfold ahas; rewrite A; reflexivity).
  destruct (store_same st k (build (c_snaplen c) 0 g') H) as (K & D).
  unfold good, corr. cbn [st_map]. split; [split; [apply aget_aset_same|exact W]|].
  split; [reflexivity|]. split; [constructor|]. split; [intros k' NE; apply aget_aset_other; assumption|].
  split; [rewrite K; auto|exact D].
Qed.
Lemma good_fresh c k st g' :
  aget (st_map st) k = None -> wfk k g' ->
  good c k st {| st_map := aset (st_map st) k (build (c_snaplen c) 0 g'); st_gauge := st_gauge st + 1 |} [] (Some g') [].
Proof.
  intros A W. destruct (store_fresh st k (build (c_snaplen c) 0 g') A) as (K & D).
  unfold good, corr. cbn [st_map]. split; [split; [apply aget_aset_same|exact W]|].
  split; [reflexivity|]. split; [constructor|]. split; [intros k' NE; apply aget_aset_other; assumption|].
  split; [intros ND; apply NoDup_keys_aset; assumption|exact D].
Qed.
Lemma good_hand c k st g n cont :
  wfk k g -> aget (st_map st) k = rep c (Some g) -> wfk k n -> (List.length (g_req n) <= 1)%nat -> g_resp n = [] ->
  let '(st', out) := distribute st (build (c_snaplen c) 0 g) (Some (build (c_snaplen c) 0 n)) cont in
  let '(o', l) := hand g (Some n) cont in good c k st st' out o' l.
Proof.
  intros W A NW L R. pose proof (distribute_build c st k g (Some n) cont W A (conj NW (conj L R))) as D.
  cbn [rep option_map] in D. destruct (distribute _ _ _ _) as (st', out). destruct (hand g (Some n) cont) as (o', l).
  destruct D as (D1 & D2 & D3 & D4 & D5 & D6 & D7).
  unfold good, corr. repeat split; try assumption.
  - rewrite D6. auto.
  - unfold drift. rewrite (len_keys _ _ D6), D7. lia.
Qed.
Lemma good_stay c k st o : corr c k st o -> good c k st st [] o [].
Proof. intros C. unfold good. repeat split; auto; try apply C. Qed.

Lemma wfk_connect k e : evKey e = k -> wfk k {| g_con := Some e; g_req := []; g_resp := [] |}.
Proof.
  intros E. repeat split; cbn [g_con g_req g_resp].
  - left. discriminate.
  - intros e1 E1. inversion E1. subst e1. assumption.
  - constructor.
Qed.
Lemma wfk_request k e : evKey e = k -> wfk k {| g_con := None; g_req := [e]; g_resp := [] |}.
Proof.
  intros E. repeat split; cbn [g_con g_req g_resp].
  - right. discriminate.
  - discriminate.
  - repeat constructor. assumption.
Qed.

(** one classified event, seen from its own connection *)
Lemma analyse_own c st k o cont t :
  evKey (tokEv t) = k -> corr c k st o ->
  let '(st', out) := analyse c st cont t in
  let '(o', l) := next c o (IEv cont t) in good c k st st' out o' l.
Proof.
  intros EK (A & W).
  destruct t as [e|e|e]; cbn [tokEv] in EK; cbn [analyse next].
  - (* connect *)
    pose proof (wfk_connect k e EK) as FW. set (fresh := {| g_con := Some e; g_req := []; g_resp := [] |}) in *.
    unfold analyseConnect. change (connectPair c e) with (build (c_snaplen c) 0 fresh).
    rewrite (key_of_build _ _ k fresh FW). rewrite A.
    destruct o as [g|]; cbn [rep option_map].
    + cbn [okO] in W.
      assert (GH : let '(st', out) := distribute st (build (c_snaplen c) 0 g) (Some (build (c_snaplen c) 0 fresh)) cont in
                   let '(o', l) := hand g (Some fresh) cont in good c k st st' out o' l).
      { apply good_hand; [assumption|assumption|assumption|cbn [fresh g_req List.length]; lia|reflexivity]. }
      change (p_req (build (c_snaplen c) 0 g)) with (buildEvs (c_snaplen c) (g_req g)).
      change (p_con (build (c_snaplen c) 0 g)) with (match g_con g with Some e => Some (newEvents e (c_snaplen c)) | None => None end).
      destruct (g_req g) as [|r rl] eqn:ER; cbn [buildEvs].
      * destruct (g_con g) as [f|] eqn:EC; [|exact GH].
        rewrite stale_build. destruct (connectStale f e (getConnectTimeout c)); [exact GH|].
        assert (MC : mergeConnect (build (c_snaplen c) 0 g) e = build (c_snaplen c) 0 fresh).
        { destruct W as (_ & WR & _). specialize (WR ER).
          unfold mergeConnect, build, withCon. cbn [p_req p_con p_resp p_send p_max]. rewrite ER, WR. reflexivity. }
        rewrite MC. apply good_replace with (g := g); assumption.
      * exact GH.
    + apply good_fresh; assumption.
  - (* request *)
    pose proof (wfk_request k e EK) as FW. set (fresh := {| g_con := None; g_req := [e]; g_resp := [] |}) in *.
    unfold analyseRequest. change (requestPair c e) with (build (c_snaplen c) 0 fresh).
    rewrite (key_of_build _ _ k fresh FW). rewrite A.
    destruct o as [g|]; cbn [rep option_map].
    + cbn [okO] in W.
      assert (GH : let '(st', out) := distribute st (build (c_snaplen c) 0 g) (Some (build (c_snaplen c) 0 fresh)) cont in
                   let '(o', l) := hand g (Some fresh) cont in good c k st st' out o' l).
      { apply good_hand; [assumption|assumption|assumption|cbn [fresh g_req List.length]; lia|reflexivity]. }
      change (match p_resp (build (c_snaplen c) 0 g) with Some _ => true | None => false end) with (sumbool_resp (build (c_snaplen c) 0 g)).
      rewrite resp_some.
      change (p_req (build (c_snaplen c) 0 g)) with (buildEvs (c_snaplen c) (g_req g)).
      change (p_con (build (c_snaplen c) 0 g)) with (match g_con g with Some e => Some (newEvents e (c_snaplen c)) | None => None end).
      destruct W as (WN & WR & WC & WQ).
      destruct (g_req g) as [|r rl] eqn:ER; cbn [buildEvs].
      * specialize (WR eq_refl). destruct (g_con g) as [f|] eqn:EC; [|destruct WN; congruence].
        set (g' := {| g_con := Some f; g_req := [e]; g_resp := [] |}).
        assert (MR : mergeRequest (build (c_snaplen c) 0 g) e = build (c_snaplen c) 0 g').
        { unfold mergeRequest, build, withReq. cbn [p_req p_con p_resp p_send p_max]. rewrite ER, WR, EC. reflexivity. }
        assert (W' : wfk k g').
        { repeat split; cbn [g' g_con g_req g_resp].
          - left; discriminate.
          - intros e1 E1. apply WC. assumption.
          - repeat constructor. assumption. }
        rewrite MR, (key_of_build _ _ k g' W'). apply good_replace with (g := g); assumption.
      * unfold isSportChanged. rewrite fold_first. cbn [newEvents v_first].
        destruct (negb (isNil (g_resp g)) || negb (e_sport e =? e_sport r)) eqn:SW; [exact GH|].
        apply orb_false_elim in SW. destruct SW as (SW & _). apply negb_false_iff in SW.
        assert (RN : g_resp g = []) by (destruct (g_resp g); [reflexivity|discriminate]).
        set (g' := {| g_con := g_con g; g_req := (r :: rl) ++ [e]; g_resp := [] |}).
        assert (MR : mergeRequest (build (c_snaplen c) 0 g) e = build (c_snaplen c) 0 g').
        { unfold mergeRequest, build, withReq. cbn [p_req p_con p_resp p_send p_max g' g_con g_req g_resp].
          rewrite buildEvs_snoc, ER, RN. reflexivity. }
        assert (W' : wfk k g').
        { repeat split; cbn [g' g_con g_req g_resp]; auto.
          - right; discriminate.
          - apply Forall_app. split; [assumption|]. repeat constructor. assumption. }
        rewrite MR. apply good_replace with (g := g); assumption.
    + apply good_fresh; assumption.
  - (* response *)
    unfold analyseResponse. rewrite EK, A.
    destruct o as [g|]; cbn [rep option_map]; [|apply good_stay; split; assumption].
    change (p_req (build (c_snaplen c) 0 g)) with (buildEvs (c_snaplen c) (g_req g)).
    destruct (g_req g) as [|r rl] eqn:ER; cbn [buildEvs]; [apply good_stay; split; assumption|].
    cbn [okO] in W. destruct W as (WN & WR & WC & WQ).
    set (g' := {| g_con := g_con g; g_req := r :: rl; g_resp := g_resp g ++ [e] |}).
    assert (MR : mergeResponse (build (c_snaplen c) 0 g) e = build (c_snaplen c) 0 g').
    { unfold mergeResponse, build, withResp. cbn [p_req p_con p_resp p_send p_max g' g_con g_req g_resp].
      rewrite buildEvs_snoc, ER. destruct (buildEvs (c_snaplen c) (g_resp g)); reflexivity. }
    assert (W' : wfk k g').
    { repeat split; cbn [g' g_con g_req g_resp]; auto.
      - right; discriminate.
      - discriminate.
      - rewrite <- ER. assumption. }
    rewrite MR, (key_of_build _ _ k g' W'). apply good_replace with (g := g); assumption.
Qed.

Definition Corr (c : config) (st : state) (S0 : key -> option conv) : Prop :=
  NoDup (keys (st_map st)) /\ forall k, corr c k st (S0 k).

Lemma filter_all {A} (f : A -> bool) l : Forall (fun x => f x = true) l -> filter f l = l.
Proof. induction 1 as [|x l H _ IH]; cbn [filter]; [reflexivity|]. rewrite H, IH. reflexivity. Qed.
Lemma filter_none {A} (f : A -> bool) l : Forall (fun x => f x = false) l -> filter f l = [].
Proof. induction 1 as [|x l H _ IH]; cbn [filter]; [reflexivity|]. rewrite H. exact IH. Qed.
Lemma outs_key c k k' l : Forall (wfk k) l -> filter (ofKey k') (outs c l) = if eqb k' k then outs c l else [].
Proof.
  intros F. case_eqb k' k.
  - subst k'. apply filter_all. unfold outs. apply Forall_map. eapply Forall_impl; [|exact F].
    intros g W. unfold ofKey. cbv beta. rewrite (key_of_build _ _ k g W). apply eqb_refl.
  - apply filter_none. unfold outs. apply Forall_map. eapply Forall_impl; [|exact F].
    intros g W. unfold ofKey. cbv beta. rewrite (key_of_build _ _ k g W). apply eqb_neq. assumption.
Qed.

(** what a whole step does: every connection makes its own move *)
Definition moves (c : config) (st' : state) (out : list pairs) (S0 : key -> option conv) (h : key -> list item) : Prop :=
  NoDup (keys (st_map st')) /\
  forall k, corr c k st' (fst (talk c (S0 k) (h k))) /\ filter (ofKey k) out = outs c (snd (talk c (S0 k) (h k))).

Lemma talk_app c l1 : forall l2 g, talk c g (l1 ++ l2) =
  (fst (talk c (fst (talk c g l1)) l2), snd (talk c g l1) ++ snd (talk c (fst (talk c g l1)) l2)).
Proof.
  induction l1 as [|i l1 IH]; intros l2 g; cbn [app talk].
  - cbn [fst snd app]. destruct (talk c g l2); reflexivity.
  - destruct (next c g i) as (g1, o1). rewrite IH. destruct (talk c g1 l1) as (g2, o2). cbn [fst snd].
    rewrite app_assoc. reflexivity.
Qed.
Lemma talk_one c g i : talk c g [i] = next c g i.
Proof. cbn [talk]. destruct (next c g i) as (a, b). rewrite app_nil_r. reflexivity. Qed.

Lemma analyse_moves c st S0 cont t :
  Corr c st S0 ->
  let '(st', out) := analyse c st cont t in
  moves c st' out S0 (fun k => if eqb k (evKey (tokEv t)) then [IEv cont t] else []) /\ drift st' = drift st.
Proof.
  intros (ND & C). set (k0 := evKey (tokEv t)).
  pose proof (analyse_own c st k0 (S0 k0) cont t eq_refl (C k0)) as G.
  destruct (analyse c st cont t) as (st', out). destruct (next c (S0 k0) (IEv cont t)) as (o', l) eqn:EN.
  destruct G as (G1 & G2 & G3 & G4 & G5 & G6). split; [|assumption]. split; [auto|].
  intros k. case_eqb k k0.
  - subst k. rewrite talk_one, EN. cbn [fst snd]. split; [assumption|]. rewrite G2, (outs_key c k0 k0 l G3), eqb_refl. reflexivity.
  - cbn [talk fst snd outs map]. split.
    + destruct (C k) as (A & W). split; [|assumption]. rewrite G4 by assumption. assumption.
    + rewrite G2, (outs_key c k0 k l G3). rewrite (proj2 (eqb_neq k k0) E). reflexivity.
Qed.

Lemma analyseAll_moves c conts : forall l n st S0,
  Corr c st S0 ->
  let '(st', out) := analyseAll c st conts n l in
  moves c st' out S0 (fun k => numbered k conts n l) /\ drift st' = drift st.
Proof.
  induction l as [|t l IH]; intros n st S0 C.
  - cbn [analyseAll numbered]. split; [|reflexivity]. split; [apply C|]. intros k. cbn [talk fst snd filter outs map].
    split; [apply C|reflexivity].
  - cbn [analyseAll]. pose proof (analyse_moves c st S0 (conts n) t C) as M.
    destruct (analyse c st (conts n) t) as (st1, o1). destruct M as ((ND1 & M) & D1).
    set (S1 := fun k => fst (talk c (S0 k) (if eqb k (evKey (tokEv t)) then [IEv (conts n) t] else []))).
    specialize (IH (Datatypes.S n) st1 S1). destruct (analyseAll c st1 conts (Datatypes.S n) l) as (st2, o2).
    destruct IH as ((ND2 & IH) & D2).
    { split; [assumption|]. intros k. apply M. }
    split; [|congruence]. split; [assumption|]. intros k. cbn [numbered].
    rewrite talk_app. cbn [fst snd]. destruct (M k) as (_ & MO). destruct (IH k) as (IC & IO).
    split; [exact IC|]. rewrite filter_app, MO, IO. unfold outs. rewrite map_app. reflexivity.
Qed.

(** the scan *)
Lemma scan_moves_aux c now conts : forall l st out0 S0,
  NoDup (keys l) -> (forall k p, In (k, p) l -> aget (st_map st) k = Some p) -> Corr c st S0 ->
  let '(st', out) := fold_left (scanEntry c now conts) l (st, out0) in
  NoDup (keys (st_map st')) /\ drift st' = drift st /\
  exists out1, out = out0 ++ out1 /\
  forall k, corr c k st' (fst (talk c (S0 k) (if ahas l k then [ITick (conts k) now] else []))) /\
            filter (ofKey k) out1 = outs c (snd (talk c (S0 k) (if ahas l k then [ITick (conts k) now] else []))).
Proof.
  induction l as [|(k, p) l IH]; intros st out0 S0 NDl AG C.
  - cbn [fold_left]. split; [apply C|]. split; [reflexivity|]. exists []. rewrite app_nil_r. split; [reflexivity|].
    intros k. unfold ahas. cbn [aget talk fst snd outs map filter]. split; [apply C|reflexivity].
  - cbn [fold_left]. inversion NDl as [|? ? NI ND']; subst.
    assert (AK : aget (st_map st) k = Some p) by (apply AG; left; reflexivity).
    destruct (proj2 C k) as (RK & WK).
    destruct (S0 k) as [g|] eqn:ES; [|rewrite AK in RK; discriminate].
    assert (EP : p = build (c_snaplen c) 0 g) by (rewrite AK in RK; inversion RK; reflexivity).
    cbn [okO] in WK.
    assert (NK : ahas l k = false).
    { unfold ahas. destruct (aget l k) eqn:E; [|reflexivity]. apply aget_some_in_keys in E. contradiction. }
    unfold scanEntry at 2. subst p. rewrite expired_build. cbn [fst snd].
    destruct (overdue c now g) eqn:OV.
    + pose proof (distribute_build c st k g None (conts k) WK RK I) as D. cbn [rep option_map] in D.
      destruct (distribute st (build (c_snaplen c) 0 g) None (conts k)) as (st1, o1).
      destruct (hand g None (conts k)) as (g', o) eqn:EH.
      destruct D as (D1 & D2 & D3 & D4 & D5 & D6 & D7).
      set (S1 := fun k' => if eqb k' k then g' else S0 k').
      assert (C1 : Corr c st1 S1).
      { split; [rewrite D6; apply NoDup_filter; apply C|]. intros k'. unfold S1. case_eqb k' k.
        - subst k'. split; assumption.
        - destruct (proj2 C k') as (A' & W'). split; [|assumption]. rewrite D3 by assumption. assumption. }
      specialize (IH st1 (out0 ++ o1) S1 ND').
      destruct (fold_left (scanEntry c now conts) l (st1, out0 ++ o1)) as (st2, out2).
      destruct IH as (I1 & I2 & out1 & I3 & I4).
      { intros k' p' IN. assert (k' <> k). { intros ->. apply NI. apply in_map with (f := fst) in IN. exact IN. }
        rewrite D3 by assumption. apply AG. right. assumption. }
      { assumption. }
      split; [assumption|]. split.
      { rewrite I2. unfold drift. rewrite D7.
        assert (LL : zlen (st_map st1) = zlen (st_map st) - 1); [|lia].
        unfold zlen. rewrite <- (map_length fst (st_map st1)), <- (map_length fst (st_map st)).
        change (map fst (st_map st1)) with (keys (st_map st1)). change (map fst (st_map st)) with (keys (st_map st)).
        rewrite D6. pose proof (aget_some_in_keys _ _ _ AK) as INK. pose proof (proj1 C) as NDS.
        revert INK NDS. generalize (keys (st_map st)). clear. intros ks.
        induction ks as [|x ks IHk]; cbn [In filter List.length]; intros IN ND; [contradiction|].
        inversion ND; subst. destruct IN as [->|IN].
        - rewrite eqb_refl. cbn [negb].
          assert (F : filter (fun x => negb (eqb k x)) ks = ks).
          { apply filter_all. apply Forall_forall. intros y Y. apply negb_true_iff, eqb_neq. intros ->. contradiction. }
          rewrite F. lia.
        - assert (NE : eqb k x = false) by (apply eqb_neq; intros ->; contradiction).
          rewrite NE. cbn [negb List.length]. specialize (IHk IN H2). lia. }
      exists (o1 ++ out1). split; [rewrite app_assoc; assumption|].
      intros k'. destruct (I4 k') as (I4a & I4b). unfold S1 in I4a, I4b.
      unfold ahas. cbn [aget]. case_eqb k' k.
      * subst k'. rewrite NK in I4a, I4b. cbn [talk fst snd outs map] in I4a, I4b.
        rewrite talk_one. cbn [next]. rewrite ES, OV, EH. cbn [fst snd]. split; [assumption|].
        rewrite filter_app, I4b, app_nil_r, D1, (outs_key c k k o D5), eqb_refl. reflexivity.
      * fold (ahas l k'). split; [assumption|]. rewrite filter_app, I4b, D1, (outs_key c k k' o D5).
        rewrite (proj2 (eqb_neq k' k) E). reflexivity.
    + specialize (IH st out0 S0 ND').
      destruct (fold_left (scanEntry c now conts) l (st, out0)) as (st2, out2).
      destruct IH as (I1 & I2 & out1 & I3 & I4).
      { intros k' p' IN. apply AG. right. assumption. }
      { assumption. }
      split; [assumption|]. split; [assumption|]. exists out1. split; [assumption|].
      intros k'. destruct (I4 k') as (I4a & I4b). unfold ahas. cbn [aget]. case_eqb k' k.
      * subst k'. rewrite NK in I4a, I4b. cbn [talk fst snd outs map] in I4a, I4b.
        rewrite talk_one. cbn [next]. rewrite ES in *. rewrite OV. cbn [fst snd outs map]. split; assumption.
      * fold (ahas l k'). split; assumption.
Qed.

Lemma scan_moves c st S0 now conts :
  Corr c st S0 ->
  let '(st', out) := scan c st now conts in
  moves c st' out S0 (fun k => [ITick (conts k) now]) /\ drift st' = drift st.
Proof.
  intros C. unfold scan. pose proof (scan_moves_aux c now conts (st_map st) st [] S0 (proj1 C)) as A.
  destruct (fold_left (scanEntry c now conts) (st_map st) (st, [])) as (st', out).
  destruct A as (A1 & A2 & out1 & A3 & A4).
  { intros k p IN. apply in_aget; [apply C|assumption]. }
  { assumption. }
  cbn [app] in A3. subst out1. split; [|assumption]. split; [assumption|]. intros k.
  destruct (A4 k) as (A4a & A4b). unfold ahas in A4a, A4b. destruct (aget (st_map st) k) eqn:G.
  - split; assumption.
  - destruct (proj2 C k) as (R & _). rewrite G in R. destruct (S0 k) eqn:ES; [discriminate|].
    rewrite talk_one. cbn [next]. cbn [talk fst snd] in *. split; assumption.
Qed.

Lemma step_moves c st S0 o :
  Corr c st S0 ->
  let '(st', out) := step c st o in moves c st' out S0 (fun k => project k o) /\ drift st' = drift st.
Proof.
  intros C. destruct o as [conts e|conts now]; cbn [step project].
  - destruct (classify e) as [l| |].
    + exact (analyseAll_moves c conts l 0 st S0 C).
    + split; [|reflexivity]. split; [apply C|]. intros k. cbn [talk fst snd filter outs map]. split; [apply C|reflexivity].
    + split; [|reflexivity]. split; [apply C|]. intros k. cbn [talk fst snd filter outs map]. split; [apply C|reflexivity].
  - exact (scan_moves c st S0 now conts C).
Qed.

Lemma run_moves c : forall ops st S0,
  Corr c st S0 ->
  let '(st', out) := run c st ops in moves c st' out S0 (fun k => flat_map (project k) ops) /\ drift st' = drift st.
Proof.
  induction ops as [|o ops IH]; intros st S0 C.
  - cbn [run flat_map]. split; [|reflexivity]. split; [apply C|]. intros k. cbn [talk fst snd filter outs map]. split; [apply C|reflexivity].
  - cbn [run]. pose proof (step_moves c st S0 o C) as M. destruct (step c st o) as (st1, o1). destruct M as ((ND1 & M) & D1).
    set (S1 := fun k => fst (talk c (S0 k) (project k o))).
    specialize (IH st1 S1). destruct (run c st1 ops) as (st2, o2).
    destruct IH as ((ND2 & IH) & D2).
    { split; [assumption|]. intros k. apply M. }
    split; [|congruence]. split; [assumption|]. intros k. cbn [flat_map].
    rewrite talk_app. cbn [fst snd]. destruct (M k) as (_ & MO). destruct (IH k) as (IC & IO).
    split; [exact IC|]. rewrite filter_app, MO, IO. unfold outs. rewrite map_app. reflexivity.
Qed.

Lemma Corr_init c : Corr c init (fun _ => None).
Proof. split; [constructor|]. intros k. split; [reflexivity|exact I]. Qed.

Lemma run_init c ops :
  let '(st', out) := run c init ops in
  NoDup (keys (st_map st')) /\ st_gauge st' = zlen (st_map st') /\
  forall k, corr c k st' (fst (talk c None (flat_map (project k) ops))) /\
            filter (ofKey k) out = outs c (snd (talk c None (flat_map (project k) ops))).
Proof.
  pose proof (run_moves c ops init _ (Corr_init c)) as M. destruct (run c init ops) as (st', out).
  destruct M as ((ND & M) & D). split; [assumption|]. split; [unfold drift, init, zlen in D; cbn [st_gauge st_map List.length] in D; unfold zlen; lia|exact M].
Qed.
