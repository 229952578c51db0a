(** C15, the other half: when the goroutines do not overlap (every event and every timeout runs to its end before the
    other goroutine moves) the machine of PairConcModel.v does what the sequential machine of PairModel.v does.  So the
    theorems of PairProps.v hold for every history without overlap, and everything PairConcProps.v refutes is due to overlap. *)
From Verif Require Import Base EventModel PairModel PairSpec PairProofs PairProps PairConcModel PairConcProps.
Open Scope string_scope. Open Scope list_scope. Open Scope Z_scope.

(** The requestMonitor as the sequential machine sees it: keys to pairs. *)
Definition view (s : cstate) : state :=
  {| st_map := map (fun ka => (fst ka, deref s (snd ka))) (h_map s); st_gauge := h_gauge s |}.
(** Every entry leads to a pair of its own, stored under that pair's key. *)
Definition wf (s : cstate) : Prop :=
  NoDup (keys (h_map s)) /\ NoDup (map snd (h_map s)) /\
  (forall k a, In (k, a) (h_map s) -> (a < List.length (h_heap s))%nat /\ getKey (deref s a) = k).

Section Maps.
  Context {V W : Type} (f : V -> W).
  Definition onv (ka : key * V) : key * W := (fst ka, f (snd ka)).
  Lemma map_aset m k v : map onv (aset m k v) = aset (map onv m) k (f v).
  Proof.
    induction m as [|(k1, v1) m IH]; [reflexivity|]. cbn [aset map onv fst snd]. destruct (eqb k k1); cbn [map onv fst snd]; [reflexivity|]. f_equal. exact IH.
  Qed.
  Lemma map_adel m k : map onv (adel m k) = adel (map onv m) k.
  Proof.
    unfold adel. induction m as [|(k1, v1) m IH]; [reflexivity|]. cbn [filter map onv fst snd]. destruct (negb (eqb k k1)); cbn [map onv fst snd]; rewrite IH; reflexivity.
  Qed.
  Lemma aget_map m k : aget (map onv m) k = option_map f (aget m k).
  Proof. induction m as [|(k1, v1) m IH]; [reflexivity|]. cbn [map onv fst snd aget]. destruct (eqb k k1); [reflexivity|exact IH]. Qed.
End Maps.
Lemma aset_get_id {V} (m : list (key * V)) k v : aget m k = Some v -> aset m k v = m.
Proof.
  induction m as [|(k1, v1) m IH]; [discriminate|]. cbn [aget aset]. destruct (eqb k k1) eqn:E.
  - apply eqb_true in E. intros H. inversion H. subst. reflexivity.
  - intros H. rewrite IH by assumption. reflexivity.
Qed.

Lemma view_get s k : aget (st_map (view s)) k = option_map (deref s) (aget (h_map s) k).
Proof. exact (aget_map (deref s) (h_map s) k). Qed.
Lemma view_write s k a q : wf s -> aget (h_map s) k = Some a -> st_map (view (write s a q)) = aset (st_map (view s)) k q.
Proof.
  intros (N1 & N2 & P) G. apply aget_in in G as IN. destruct (P _ _ IN) as (LA & _).
  unfold view. cbn [st_map write h_map].
  assert (Q : forall m, incl m (h_map s) -> NoDup (map snd m) -> NoDup (keys m) -> In (k, a) m ->
     map (fun ka => (fst ka, deref (write s a q) (snd ka))) m = aset (map (fun ka => (fst ka, deref s (snd ka))) m) k q).
  { induction m as [|(k1, a1) m IH]; intros I D1 D2 IM; [contradiction|].
    cbn [map fst snd aset keys] in *. inversion D1 as [|? ? X1 X2]; subst. inversion D2 as [|? ? Y1 Y2]; subst.
    rewrite deref_write. destruct (Nat.eqb_spec a1 a) as [->|NE].
    - assert (k1 = k). { destruct IM as [IM|IM]; [congruence|]. exfalso. apply X1. apply in_map_iff. exists (k, a). auto. } subst k1.
      rewrite eqb_refl. rewrite (proj2 (Nat.ltb_lt _ _) LA). f_equal.
      apply map_ext_in. intros (k2, a2) H2. cbn [fst snd]. rewrite deref_write. destruct (Nat.eqb_spec a2 a) as [->|]; [|reflexivity].
      exfalso. apply X1. apply in_map_iff. exists (k2, a). auto.
    - destruct IM as [IM|IM]; [congruence|].
      assert (k1 <> k). { intros ->. apply Y1. apply in_map_iff. exists (k, a). auto. }
      rewrite (proj2 (eqb_neq k k1)) by congruence. f_equal. apply IH; auto. intros x Hx. apply I. right. assumption. }
  apply Q; auto. apply incl_refl.
Qed.
Lemma view_alloc s k q : wf s -> st_map (view (allocAt s k q)) = aset (st_map (view s)) k q.
Proof.
  intros (N1 & N2 & P). unfold view. cbn [st_map allocAt h_map].
  transitivity (map (onv (deref (allocAt s k q))) (aset (h_map s) k (List.length (h_heap s)))); [reflexivity|].
  rewrite map_aset. rewrite deref_alloc, Nat.eqb_refl. f_equal. apply map_ext_in. intros (k2, a2) H2. unfold onv. cbn [fst snd].
  rewrite deref_alloc. destruct (P _ _ H2) as (L & _). destruct (Nat.eqb_spec a2 (List.length (h_heap s))); [lia|reflexivity].
Qed.
Lemma view_del s k : st_map (view (setMap s (adel (h_map s) k))) = adel (st_map (view s)) k.
Proof. exact (map_adel (deref s) (h_map s) k). Qed.

Lemma wf_write s k a q : wf s -> aget (h_map s) k = Some a -> getKey q = k -> wf (write s a q).
Proof.
  intros (N1 & N2 & P) G K. apply aget_in in G as IN. unfold wf. cbn [write h_map h_heap]. repeat split; auto.
  - rewrite upd_length. apply (P _ _ H).
  - rewrite deref_write. destruct (P _ _ H) as (L1 & K1). destruct (Nat.eqb_spec a0 a) as [->|]; [|exact K1].
    destruct (P _ _ IN) as (L2 & K2). rewrite (proj2 (Nat.ltb_lt _ _) L2). congruence.
Qed.
Lemma in_aset {V} (m : list (key * V)) k v x : In x (aset m k v) -> x = (k, v) \/ In x m.
Proof.
  induction m as [|(k1, v1) m IH]; cbn [aset]; [intros [H|[]]; auto|]. destruct (eqb k k1) eqn:E.
  - apply eqb_true in E. subst. intros [H|H]; cbn [In]; auto.
  - intros [H|H]; cbn [In]; auto. destruct (IH H); auto.
Qed.
Lemma NoDup_snd_aset (m : list (key * addr)) k n : NoDup (map snd m) -> ~ In n (map snd m) -> NoDup (map snd (aset m k n)).
Proof.
  induction m as [|(k1, v1) m IH]; intros D NI; cbn [aset map snd]; [repeat constructor; auto|].
  cbn [map snd] in D, NI. inversion D as [|? ? X1 X2]; subst. destruct (eqb k k1); cbn [map snd]; constructor.
  - intros H. apply NI. right. assumption.
  - assumption.
  - intros H. apply in_map_iff in H. destruct H as ((k2, a2) & E & I). cbn [snd] in E. subst a2. apply in_aset in I.
    destruct I as [I|I]; [inversion I; subst; apply NI; left; reflexivity|]. apply X1. apply in_map_iff. exists (k2, v1). auto.
  - apply IH; [assumption|]. intros H. apply NI. right. assumption.
Qed.
Lemma wf_alloc s k q : wf s -> getKey q = k -> wf (allocAt s k q).
Proof.
  intros (N1 & N2 & P) K. unfold wf. cbn [allocAt h_map h_heap]. rewrite app_length. cbn [List.length].
  assert (NI : ~ In (List.length (h_heap s)) (map snd (h_map s))).
  { intros H. apply in_map_iff in H. destruct H as ((k2, a2) & E & I). cbn [snd] in E. subst. destruct (P _ _ I). lia. }
  repeat split.
  - apply NoDup_keys_aset. assumption.
  - apply NoDup_snd_aset; assumption.
  - apply in_aset in H. destruct H as [H|H]; [inversion H; lia|]. destruct (P _ _ H). lia.
  - rewrite deref_alloc. apply in_aset in H. destruct H as [H|H].
    + inversion H; subst. rewrite Nat.eqb_refl. reflexivity.
    + destruct (P _ _ H) as (L1 & K1). destruct (Nat.eqb_spec a (List.length (h_heap s))); [lia|assumption].
Qed.
Lemma wf_del s k : wf s -> wf (setMap s (adel (h_map s) k)).
Proof.
  intros (N1 & N2 & P). unfold wf. cbn [setMap h_map h_heap]. split; [|split].
  - apply NoDup_keys_adel. assumption.
  - unfold adel. clear N1 P. induction (h_map s) as [|x m IH]; [constructor|]. cbn [map snd] in N2. inversion N2; subst. cbn [filter].
    destruct (negb (eqb k (fst x))); [|auto]. cbn [map]. constructor; [|auto]. intros H. apply H1. apply in_map_iff in H. destruct H as (y & E & I).
    apply filter_In in I. apply in_map_iff. exists y. tauto.
  - intros k0 a H. apply filter_In in H. destruct (P _ _ (proj1 H)). split; assumption.
Qed.

(** A goroutine running to its end, in at most [n] steps. *)
Inductive runs (c : config) : nat -> cstate -> pc -> cstate -> Prop :=
| runs_done n s : runs c n s PIdle s
| runs_step n s p s1 p1 s2 : p <> PIdle -> stepPc c s p = (s1, p1) -> runs c n s1 p1 s2 -> runs c (Datatypes.S n) s p s2.
Lemma runs_more c n s p s' : runs c n s p s' -> runs c (Datatypes.S n) s p s'.
Proof. induction 1 as [n s|n s p s1 p1 s2 N E R IH]; [apply runs_done|]. eapply runs_step; eassumption. Qed.
Ltac go := eapply runs_step; [discriminate|cbn [stepPc]|].

Definition same (s s' : cstate) : Prop := h_ev s' = h_ev s /\ h_tm s' = h_tm s /\ h_todo s' = h_todo s.
(** what a block leaves behind *)
Definition effect (s s' : cstate) (r : state * list pairs) : Prop :=
  wf s' /\ view s' = fst r /\ map snd (h_out s') = map snd (h_out s) ++ snd r.
Lemma eta_state x m g : st_map x = m -> st_gauge x = g -> x = {| st_map := m; st_gauge := g |}.
Proof. destruct x as [m0 g0]. cbn [st_map st_gauge]. intros; subst; reflexivity. Qed.

Lemma key_merges p e v : 
  (p_con p = Some v -> p_req p = None -> getKey (mergeConnect p e) = evKey e) /\
  ((p_req p <> None \/ p_con p <> None) -> getKey (mergeRequest p e) = getKey p).
Proof.
  split.
  - intros C R. unfold mergeConnect. rewrite R. reflexivity.
  - intros H. unfold mergeRequest, getKey. destruct (p_req p) as [r|]; cbn [withReq p_con p_req p_resp]; destruct (p_con p); try reflexivity.
    destruct H; congruence.
Qed.
Lemma key_back p r : getKey p = evKey (v_first r) -> getKey (putRequestBack p r) = evKey (v_first r).
Proof.
  unfold putRequestBack, getKey. destruct (p_req p) as [q|]; cbn [withReq p_con p_req p_resp]; destruct (p_con p); intros H; auto.
Qed.

(** distributeTraceMetric, undisturbed *)
Lemma distribute_runs c s k a new ct : wf s -> aget (h_map s) k = Some a -> match new with Some n => getKey n = k | None => True end ->
  exists s', runs c 5 s (PCheck a new ct) s' /\ effect s s' (distribute (view s) (deref s a) new ct).
Proof.
  intros W G KN. pose proof W as (N1 & N2 & P). apply aget_in in G as IN. destruct (P _ _ IN) as (LA & KA).
  unfold distribute.
  assert (HIT : p_con (deref s a) <> None \/ p_req (deref s a) <> None ->
     exists s', runs c 5 s (PCheck a new ct) s' /\ effect s s'
      (if negb (checkSend (deref s a))
      then ({| st_map := aset (st_map (view s)) (getKey (deref s a)) (bumpSend (deref s a)); st_gauge := st_gauge (view s) |}, [])
      else
        let st1 := match new with
                   | Some n => {| st_map := aset (st_map (view s)) (getKey n) n; st_gauge := st_gauge (view s) |}
                   | None => {| st_map := adel (st_map (view s)) (getKey (deref s a)); st_gauge := st_gauge (view s) - 1 |}
                   end in
        match p_req (deref s a) with
        | Some r =>
            if ct
            then match aget (st_map st1) (evKey (v_first r)) with
                 | Some cur => ({| st_map := aset (st_map st1) (evKey (v_first r)) (putRequestBack cur r); st_gauge := st_gauge st1 |}, [])
                 | None => (st1, [])
                 end
            else (st1, [bumpSend (deref s a)])
        | None => (st1, [bumpSend (deref s a)])
        end)).
  { intros H. set (s1 := write s a (bumpSend (deref s a))).
    assert (KB : getKey (bumpSend (deref s a)) = k) by exact KA.
    assert (W1 : wf s1) by (apply (wf_write s k); assumption).
    assert (V1 : st_map (view s1) = aset (st_map (view s)) k (bumpSend (deref s a))) by (apply view_write; assumption).
    assert (D1 : deref s1 a = bumpSend (deref s a)) by (unfold s1; rewrite deref_write, Nat.eqb_refl, (proj2 (Nat.ltb_lt _ _) LA); reflexivity).
    assert (STEP : forall nx, stepPc c s (PCheck a new ct) = (if checkSend (deref s a) then (s1, nx) else (s1, PIdle)) ->
       stepPc c s (PCheck a new ct) = (s1, if checkSend (deref s a) then nx else PIdle)) by (intros nx ->; destruct (checkSend (deref s a)); reflexivity).
    specialize (STEP (match new with Some n => PPut a n ct | None => PDown a ct end)).
    assert (ST : stepPc c s (PCheck a new ct) = (s1, if checkSend (deref s a) then match new with Some n => PPut a n ct | None => PDown a ct end else PIdle)).
    { apply STEP. cbn [stepPc]. fold s1. destruct (p_con (deref s a)), (p_req (deref s a)); try reflexivity. destruct H; congruence. }
    clear STEP. destruct (checkSend (deref s a)); cbn [negb].
    2:{ exists s1. split.
        - eapply runs_step; [discriminate|exact ST|apply runs_done].
        - unfold effect. cbn [fst snd]. rewrite app_nil_r. split; [assumption|]. split; [|reflexivity].
          apply eta_state; [|reflexivity]. rewrite KA. exact V1. }
    cbv zeta.
    (* the map is updated; then the pair is parsed *)
    assert (MID : exists s2, (forall s3, runs c 2 s2 (PEmit a ct) s3 -> runs c 5 s (PCheck a new ct) s3) /\ wf s2 /\
        view s2 = match new with
                   | Some n => {| st_map := aset (st_map (view s)) (getKey n) n; st_gauge := st_gauge (view s) |}
                   | None => {| st_map := adel (st_map (view s)) (getKey (deref s a)); st_gauge := st_gauge (view s) - 1 |}
                   end /\ h_out s2 = h_out s /\ deref s2 a = bumpSend (deref s a)).
    { destruct new as [n|].
      - exists (allocAt s1 (getKey n) n). split; [|split; [|split; [|split; [reflexivity|]]]].
        + intros s3 R. apply runs_more in R. eapply runs_step; [discriminate|exact ST|]. go; [reflexivity|]. exact R.
        + apply wf_alloc; auto.
        + apply eta_state; [|reflexivity]. rewrite view_alloc, V1, KN by assumption. clear.
          induction (st_map (view s)) as [|(k1, v1) m IH]; cbn [aset]; [rewrite eqb_refl; reflexivity|].
          destruct (eqb k k1) eqn:E; cbn [aset]; [rewrite eqb_refl; reflexivity|]. rewrite E. f_equal. exact IH.
        + rewrite deref_alloc. unfold s1. cbn [write h_heap]. rewrite upd_length. destruct (Nat.eqb_spec a (List.length (h_heap s))); [lia|exact D1].
      - exists (setMap (addGauge s1 (-1)) (adel (h_map s1) (getKey (bumpSend (deref s a))))).
        assert (WD : wf (setMap s1 (adel (h_map s1) (getKey (bumpSend (deref s a)))))) by (apply wf_del; assumption).
        split; [|split; [exact WD|split; [|split; [reflexivity|exact D1]]]].
        + intros s3 R. eapply runs_step; [discriminate|exact ST|]. go; [reflexivity|]. go; [reflexivity|].
          change (deref (addGauge s1 (-1)) a) with (deref s1 a). rewrite D1. exact R.
        + apply eta_state; [|reflexivity].
          transitivity (st_map (view (setMap s1 (adel (h_map s1) (getKey (bumpSend (deref s a))))))); [reflexivity|].
          rewrite view_del, V1, KB, KA. clear. unfold adel. induction (st_map (view s)) as [|(k1, v1) m IH]; cbn [aset filter fst]; [rewrite eqb_refl; reflexivity|].
          destruct (eqb k k1) eqn:E; cbn [filter fst negb].
          * rewrite eqb_refl. reflexivity.
          * rewrite E. cbn [negb]. f_equal. exact IH. }
    destruct MID as (s2 & TO & W2 & V2 & O2 & D2). rewrite <- V2. clear V2.
    assert (EMIT : effect s (emit s2 a) (view s2, [bumpSend (deref s a)])).
    { unfold effect. cbn [fst snd emit h_out]. split; [exact W2|]. split; [reflexivity|]. rewrite map_app, O2, D2. reflexivity. }
    assert (R2 : p_req (deref s2 a) = p_req (deref s a)) by (rewrite D2; reflexivity).
    destruct (p_req (deref s a)) as [r|] eqn:PR.
    - destruct ct.
      + rewrite view_get. destruct (aget (h_map s2) (evKey (v_first r))) as [cur|] eqn:GC; cbn [option_map].
        * exists (write s2 cur (putRequestBack (deref s2 cur) r)). split.
          -- apply TO. go; [rewrite R2, GC; reflexivity|]. go; [rewrite R2; reflexivity|]. apply runs_done.
          -- apply aget_in in GC as INC. pose proof W2 as (_ & _ & P2). destruct (P2 _ _ INC) as (LC & KC).
             unfold effect. cbn [fst snd write h_out]. rewrite O2, app_nil_r. split; [|split; [|reflexivity]].
             ++ apply (wf_write s2 (evKey (v_first r))); auto. apply key_back. assumption.
             ++ apply eta_state; [|reflexivity]. apply view_write; assumption.
        * exists s2. split.
          -- apply TO. go; [rewrite R2, GC; reflexivity|]. apply runs_done.
          -- unfold effect. cbn [fst snd]. rewrite O2, app_nil_r. auto.
      + exists (emit s2 a). split; [|exact EMIT]. apply TO. go; [rewrite R2; reflexivity|]. apply runs_done.
    - exists (emit s2 a). split; [|exact EMIT]. apply TO. go; [rewrite R2; reflexivity|]. apply runs_done. }
  destruct (p_con (deref s a)) eqn:PC, (p_req (deref s a)) eqn:PR; try (apply HIT; first [left; discriminate|right; discriminate]).
  exists s. split.
  - go; [rewrite PC, PR; reflexivity|]. apply runs_done.
  - unfold effect. cbn [fst snd]. rewrite app_nil_r. auto.
Qed.

Lemma effect_write s k a q : wf s -> aget (h_map s) k = Some a -> getKey q = k ->
  effect s (write s a q) ({| st_map := aset (st_map (view s)) k q; st_gauge := st_gauge (view s) |}, []).
Proof.
  intros W G K. unfold effect. cbn [fst snd write h_out]. rewrite app_nil_r. split; [|split; [|reflexivity]].
  - apply (wf_write s k); assumption.
  - apply eta_state; [|reflexivity]. apply view_write; assumption.
Qed.
Lemma store_id s k a q : aget (h_map s) k = Some a -> getKey (deref (write s a q) a) = k ->
  setMap (write s a q) (aset (h_map (write s a q)) (getKey (deref (write s a q) a)) a) = write s a q.
Proof. intros G K. rewrite K. cbn [write h_map]. rewrite aset_get_id by assumption. reflexivity. Qed.

Lemma analyse_runs c s cont t : wf s -> exists s1 p1 s', startEv c s cont t = (s1, p1) /\ runs c 6 s1 p1 s' /\ effect s s' (analyse c (view s) cont t).
Proof.
  intros W. pose proof W as (N1 & N2 & P).
  assert (NEW : forall n, aget (h_map s) (getKey n) = None -> 
     runs c 6 (allocAt s (getKey n) n) PGauge (addGauge (allocAt s (getKey n) n) 1) /\
     effect s (addGauge (allocAt s (getKey n) n) 1) ({| st_map := aset (st_map (view s)) (getKey n) n; st_gauge := st_gauge (view s) + 1 |}, [])).
  { intros n _. split; [go; [reflexivity|apply runs_done]|]. unfold effect. cbn [fst snd addGauge allocAt h_out]. rewrite app_nil_r. split; [|split; [|reflexivity]].
    - exact (wf_alloc s (getKey n) n W eq_refl).
    - apply eta_state; [|reflexivity]. exact (view_alloc s (getKey n) n W). }
  destruct t as [e|e|e]; cbn [startEv analyse].
  - unfold analyseConnect. rewrite view_get. destruct (aget (h_map s) (getKey (connectPair c e))) as [old|] eqn:G; cbn [option_map].
    2:{ do 3 eexists. split; [reflexivity|]. apply NEW. assumption. }
    apply aget_in in G as IN. destruct (P _ _ IN) as (LA & KA).
    assert (D : stepPc c s (PConn e old (connectPair c e) cont) = (s, PCheck old (Some (connectPair c e)) cont) ->
        exists s1 p1 s', (s, PConn e old (connectPair c e) cont) = (s1, p1) /\ runs c 6 s1 p1 s' /\ effect s s' (distribute (view s) (deref s old) (Some (connectPair c e)) cont)).
    { intros ST. destruct (distribute_runs c s _ old (Some (connectPair c e)) cont W G eq_refl) as (s' & R & E).
      exists s, (PConn e old (connectPair c e) cont), s'. split; [reflexivity|]. split; [|exact E]. eapply runs_step; [discriminate|exact ST|exact R]. }
    destruct (p_req (deref s old)) as [r|] eqn:PR.
    + apply D. cbn [stepPc]. rewrite PR. reflexivity.
    + destruct (p_con (deref s old)) as [v|] eqn:PC.
      * destruct (isTimeout v e (getConnectTimeout c)) eqn:T.
        -- apply D. cbn [stepPc]. rewrite PR, PC, T. reflexivity.
        -- exists s, (PConn e old (connectPair c e) cont), (write s old (mergeConnect (deref s old) e)). split; [reflexivity|]. split.
           ++ go; [rewrite PR, PC, T; reflexivity|]. go; [reflexivity|]. apply runs_done.
           ++ apply effect_write; auto. destruct (key_merges (deref s old) e v) as (K1 & _). rewrite (K1 PC PR). reflexivity.
      * apply D. cbn [stepPc]. rewrite PR, PC. reflexivity.
  - unfold analyseRequest. rewrite view_get. destruct (aget (h_map s) (getKey (requestPair c e))) as [old|] eqn:G; cbn [option_map].
    2:{ do 3 eexists. split; [reflexivity|]. apply NEW. assumption. }
    apply aget_in in G as IN. destruct (P _ _ IN) as (LA & KA).
    assert (DW : deref (write s old (mergeRequest (deref s old) e)) old = mergeRequest (deref s old) e)
      by (rewrite deref_write, Nat.eqb_refl, (proj2 (Nat.ltb_lt _ _) LA); reflexivity).
    destruct (p_req (deref s old)) as [r|] eqn:PR.
    + destruct ((match p_resp (deref s old) with Some _ => true | None => false end) || isSportChanged r e) eqn:C1.
      * destruct (distribute_runs c s _ old (Some (requestPair c e)) cont W G eq_refl) as (s' & R & E).
        exists s, (PReq e old (requestPair c e) cont), s'. split; [reflexivity|]. split; [|exact E]. go; [rewrite PR, C1; reflexivity|exact R].
      * exists s, (PReq e old (requestPair c e) cont), (write s old (mergeRequest (deref s old) e)). split; [reflexivity|]. split.
        -- go; [rewrite PR, C1; reflexivity|]. go; [reflexivity|]. apply runs_done.
        -- apply effect_write; auto. destruct (key_merges (deref s old) e r) as (_ & K2). rewrite K2; [exact KA|left; congruence].
    + destruct (p_con (deref s old)) as [v|] eqn:PC.
      * destruct (key_merges (deref s old) e v) as (_ & K2).
        assert (KM : getKey (mergeRequest (deref s old) e) = getKey (requestPair c e)) by (rewrite K2; [exact KA|right; congruence]).
        exists s, (PReq e old (requestPair c e) cont), (write s old (mergeRequest (deref s old) e)). split; [reflexivity|]. split.
        -- go; [rewrite PR, PC; reflexivity|]. go; [reflexivity|]. go; [|apply runs_done].
           rewrite (store_id s (getKey (requestPair c e)) old _ G) by (rewrite DW; exact KM). reflexivity.
        -- rewrite KM. apply effect_write; auto.
      * exists s, (PReq e old (requestPair c e) cont), (allocAt s (getKey (requestPair c e)) (requestPair c e)). split; [reflexivity|]. split.
        -- go; [rewrite PR, PC; reflexivity|]. go; [reflexivity|]. apply runs_done.
        -- unfold effect. cbn [fst snd allocAt h_out]. rewrite app_nil_r. split; [|split; [|reflexivity]].
           ++ exact (wf_alloc s _ _ W eq_refl).
           ++ apply eta_state; [|reflexivity]. exact (view_alloc s _ _ W).
  - unfold analyseResponse. rewrite view_get. destruct (aget (h_map s) (evKey e)) as [old|] eqn:G; cbn [option_map].
    2:{ exists s, PIdle, s. split; [reflexivity|]. split; [apply runs_done|]. unfold effect. cbn [fst snd]. rewrite app_nil_r. auto. }
    apply aget_in in G as IN. destruct (P _ _ IN) as (LA & KA).
    destruct (p_req (deref s old)) as [r|] eqn:PR.
    + assert (KM : getKey (mergeResponse (deref s old) e) = evKey e) by (rewrite getKey_resp; [exact KA|congruence]).
      assert (DW : deref (write s old (mergeResponse (deref s old) e)) old = mergeResponse (deref s old) e)
        by (rewrite deref_write, Nat.eqb_refl, (proj2 (Nat.ltb_lt _ _) LA); reflexivity).
      exists s, (PResp e old), (write s old (mergeResponse (deref s old) e)). split; [reflexivity|]. split.
      * go; [rewrite PR; reflexivity|]. go; [reflexivity|]. go; [|apply runs_done].
        rewrite (store_id s (evKey e) old _ G) by (rewrite DW; exact KM). reflexivity.
      * rewrite KM. apply effect_write; auto.
    + exists s, (PResp e old), s. split; [reflexivity|]. split; [go; [rewrite PR; reflexivity|apply runs_done]|].
      unfold effect. cbn [fst snd]. rewrite app_nil_r. auto.
Qed.

(** back to schedules *)
Lemma step_withEv c s p l q : stepPc c (withEv s p l) q = (withEv (fst (stepPc c s q)) p l, snd (stepPc c s q)).
Proof.
  destruct q as [|e old new cont|e old new cont|e old|e old|e old st|e old|old|new| |old new ct|old new ct|old ct|old ct|old ct|old cur]; cbn [stepPc];
    change (deref (withEv s p l)) with (deref s); change (h_map (withEv s p l)) with (h_map s); try reflexivity.
  - destruct (p_req (deref s old)), (p_con (deref s old)) as [v|]; try (destruct (isTimeout v e (getConnectTimeout c))); reflexivity.
  - destruct (p_req (deref s old)) as [r|]; [|destruct (p_con (deref s old))];
      try (destruct ((match p_resp (deref s old) with Some _ => true | None => false end) || isSportChanged r e)); reflexivity.
  - destruct (p_req (deref s old)); reflexivity.
  - destruct (p_con (deref s old)), (p_req (deref s old)); try (destruct (checkSend (deref s old))); reflexivity.
  - destruct (p_req (deref s old)) as [r|]; [|reflexivity]. destruct ct; [|reflexivity]. destruct (aget (h_map s) (evKey (v_first r))); reflexivity.
  - destruct (p_req (deref s old)); reflexivity.
Qed.
Lemma step_withTm c s p q : stepPc c (withTm s p) q = (withTm (fst (stepPc c s q)) p, snd (stepPc c s q)).
Proof.
  destruct q as [|e old new cont|e old new cont|e old|e old|e old st|e old|old|new| |old new ct|old new ct|old ct|old ct|old ct|old cur]; cbn [stepPc];
    change (deref (withTm s p)) with (deref s); change (h_map (withTm s p)) with (h_map s); try reflexivity.
  - destruct (p_req (deref s old)), (p_con (deref s old)) as [v|]; try (destruct (isTimeout v e (getConnectTimeout c))); reflexivity.
  - destruct (p_req (deref s old)) as [r|]; [|destruct (p_con (deref s old))];
      try (destruct ((match p_resp (deref s old) with Some _ => true | None => false end) || isSportChanged r e)); reflexivity.
  - destruct (p_req (deref s old)); reflexivity.
  - destruct (p_con (deref s old)), (p_req (deref s old)); try (destruct (checkSend (deref s old))); reflexivity.
  - destruct (p_req (deref s old)) as [r|]; [|reflexivity]. destruct ct; [|reflexivity]. destruct (aget (h_map s) (evKey (v_first r))); reflexivity.
  - destruct (p_req (deref s old)); reflexivity.
Qed.
(** Let a goroutine go on until it is idle. *)
Fixpoint finishEv (c : config) (fuel : nat) (s : cstate) : cstate :=
  match fuel with
  | O => s
  | Datatypes.S n => match h_ev s with PIdle => s | _ => finishEv c n (stepEv c s) end
  end.
Fixpoint finishTm (c : config) (fuel : nat) (k : key) (now : Z) (cont : bool) (s : cstate) : cstate :=
  match fuel with
  | O => s
  | Datatypes.S n => match h_tm s with PIdle => s | _ => finishTm c n k now cont (stepTm c s k now cont) end
  end.
Lemma finishEv_idle c n s : h_ev s = PIdle -> finishEv c n s = s.
Proof. intros E. destruct n; [reflexivity|]. cbn [finishEv]. rewrite E. reflexivity. Qed.
Lemma finishTm_idle c n k now cont s : h_tm s = PIdle -> finishTm c n k now cont s = s.
Proof. intros E. destruct n; [reflexivity|]. cbn [finishTm]. rewrite E. reflexivity. Qed.
Lemma runs_ev c n s p s' l : runs c n s p s' -> finishEv c n (withEv s p l) = withEv s' PIdle l.
Proof.
  induction 1 as [n s|n s p s1 p1 s2 N E R IH]; [destruct n; reflexivity|].
  cbn [finishEv]. assert (B : stepEv c (withEv s p l) = withEv s1 p1 l).
  { rewrite (stepEv_busy c (withEv s p l)) by exact N. cbn [withEv h_ev h_todo]. fold (withEv s p l). rewrite step_withEv, E. reflexivity. }
  rewrite B. cbn [withEv h_ev]. fold (withEv s1 p1 l). destruct p; try exact IH. congruence.
Qed.
Lemma runs_tm c n s p s' k now cont : runs c n s p s' -> finishTm c n k now cont (withTm s p) = withTm s' PIdle.
Proof.
  induction 1 as [n s|n s p s1 p1 s2 N E R IH]; [destruct n; reflexivity|].
  cbn [finishTm]. assert (B : stepTm c (withTm s p) k now cont = withTm s1 p1).
  { rewrite (stepTm_busy c (withTm s p) k now cont) by exact N. cbn [withTm h_tm]. fold (withTm s p). rewrite step_withTm, E. reflexivity. }
  rewrite B. cbn [withTm h_tm]. fold (withTm s1 p1). destruct p; try exact IH. congruence.
Qed.

(** Histories without overlap. *)
Inductive block : Type := BEvent | BTimeout (k : key) (now : Z) (cont : bool).
Definition apart (c : config) (s : cstate) (b : block) : cstate :=
  match b with
  | BEvent => finishEv c 6 (stepEv c s)
  | BTimeout k now cont => finishTm c 6 k now cont (stepTm c s k now cont)
  end.
(** the same history for the sequential machine; the second component is what is left in the channel *)
Fixpoint sequential (c : config) (st : state) (todo : list (bool * tok)) (l : list block) : state * list (bool * tok) * list pairs :=
  match l with
  | [] => (st, todo, [])
  | BEvent :: l' =>
      match todo with
      | [] => sequential c st todo l'
      | (cont, t) :: todo' => let '(st1, o1) := analyse c st cont t in
                              let '(st2, td, o2) := sequential c st1 todo' l' in (st2, td, o1 ++ o2)
      end
  | BTimeout k now cont :: l' =>
      match aget (st_map st) k with
      | Some p => if expired c now p
                  then let '(st1, o1) := distribute st p None cont in
                       let '(st2, td, o2) := sequential c st1 todo l' in (st2, td, o1 ++ o2)
                  else sequential c st todo l'
      | None => sequential c st todo l'
      end
  end.

Lemma keep_ev c n s p s2 : runs c n s p s2 -> h_ev s2 = h_ev s /\ h_tm s2 = h_tm s /\ h_todo s2 = h_todo s.
Proof.
  induction 1 as [n s|n s p s1 p1 s2 N E R (I1 & I2 & I3)]; [auto|].
  pose proof (keep_other c s p) as (K1 & K2). rewrite E in K1, K2. cbn [fst] in K1, K2.
  assert (K3 : h_todo s1 = h_todo s).
  { pose proof (step_withEv c s (h_ev s) (h_todo s) p) as Q. replace (withEv s (h_ev s) (h_todo s)) with s in Q by (destruct s; reflexivity).
    rewrite E in Q. cbn [fst snd] in Q. inversion Q as [Q1]. rewrite Q1. reflexivity. }
  repeat split; congruence.
Qed.
Lemma blocks c : forall l s, wf s -> h_ev s = PIdle -> h_tm s = PIdle ->
  let s' := fold_left (apart c) l s in
  h_ev s' = PIdle /\ h_tm s' = PIdle /\ wf s' /\
  let '(st, todo, out) := sequential c (view s) (h_todo s) l in
  view s' = st /\ h_todo s' = todo /\ map snd (h_out s') = map snd (h_out s) ++ out.
Proof.
  induction l as [|b l IH]; intros s W EV TM.
  - cbn [fold_left sequential]. rewrite app_nil_r. auto 10.
  - cbn [fold_left]. assert (IDLE : apart c s b = s -> sequential c (view s) (h_todo s) (b :: l) = sequential c (view s) (h_todo s) l ->
       let s' := fold_left (apart c) l (apart c s b) in
       h_ev s' = PIdle /\ h_tm s' = PIdle /\ wf s' /\
       let '(st, todo, out) := sequential c (view s) (h_todo s) (b :: l) in
       view s' = st /\ h_todo s' = todo /\ map snd (h_out s') = map snd (h_out s) ++ out).
    { intros -> ->. apply IH; assumption. }
    destruct b as [|k now cont].
    + destruct (h_todo s) as [|(cont, t) todo] eqn:TD.
      * apply IDLE; [|reflexivity]. unfold apart, stepEv. rewrite EV, TD. apply finishEv_idle. exact EV.
      * clear IDLE. destruct (analyse_runs c s cont t W) as (s1 & p1 & s2 & ST & R & E).
        assert (S1 : apart c s BEvent = withEv s2 PIdle todo).
        { unfold apart, stepEv. rewrite EV, TD, ST. exact (runs_ev c 6 s1 p1 s2 todo R). }
        assert (TM2 : h_tm s2 = PIdle).
        { pose proof (start_keep c s cont t) as (_ & K). rewrite ST in K. cbn [fst] in K. destruct (keep_ev c 6 s1 p1 s2 R) as (_ & K2 & _). congruence. }
        destruct E as (W2 & V2 & O2). rewrite S1.
        pose proof (IH (withEv s2 PIdle todo) W2 eq_refl TM2) as H. cbv zeta in *. cbn [sequential].
        change (view (withEv s2 PIdle todo)) with (view s2) in H. cbn [withEv h_todo h_out] in H. fold (withEv s2 PIdle todo) in H.
        rewrite V2, O2 in H. destruct (analyse c (view s) cont t) as (st1, o1). cbn [fst snd] in *.
        destruct (sequential c st1 todo l) as ((st3, td), o2). rewrite app_assoc. exact H.
    + destruct (aget (h_map s) k) as [a|] eqn:G.
      2:{ apply IDLE.
          - unfold apart, stepTm. rewrite TM, G. apply finishTm_idle. exact TM.
          - cbn [sequential]. rewrite view_get, G. reflexivity. }
      destruct (expired c now (deref s a)) eqn:X.
      2:{ apply IDLE.
          - unfold apart, stepTm. rewrite TM, G, X. apply finishTm_idle. exact TM.
          - cbn [sequential]. rewrite view_get, G. cbn [option_map]. rewrite X. reflexivity. }
      clear IDLE. destruct (distribute_runs c s k a None cont W G I) as (s2 & R & E). apply runs_more in R.
      assert (S1 : apart c s (BTimeout k now cont) = withTm s2 PIdle).
      { unfold apart, stepTm. rewrite TM, G, X. exact (runs_tm c 6 s _ s2 k now cont R). }
      destruct (keep_ev c 6 s _ s2 R) as (EV2 & _ & TD2). rewrite EV in EV2. destruct E as (W2 & V2 & O2). rewrite S1.
      pose proof (IH (withTm s2 PIdle) W2 EV2 eq_refl) as H. cbv zeta in *. cbn [sequential]. rewrite view_get, G. cbn [option_map]. rewrite X.
      change (view (withTm s2 PIdle)) with (view s2) in H. cbn [withTm h_todo h_out] in H. fold (withTm s2 PIdle) in H.
      rewrite V2, O2, TD2 in H. destruct (distribute (view s) (deref s a) None cont) as (st1, o1). cbn [fst snd] in *.
      destruct (sequential c st1 (h_todo s) l) as ((st3, td), o2). rewrite app_assoc. exact H.
Qed.

(** Without overlap the two goroutines do what the sequential analyzer does: same map, same gauge, same reports. *)
Theorem C15_no_overlap_is_sequential : forall c todo l,
  let s := fold_left (apart c) l (cinit todo) in
  h_ev s = PIdle /\ h_tm s = PIdle /\
  sequential c init todo l = (view s, h_todo s, map snd (h_out s)).
Proof.
  intros c todo l. destruct (blocks c l (cinit todo)) as (H1 & H2 & _ & H3).
  - unfold wf, cinit. cbn [h_map keys map]. repeat split; try constructor; contradiction.
  - reflexivity.
  - reflexivity.
  - cbv zeta. split; [exact H1|]. split; [exact H2|]. change (view (cinit todo)) with init in H3. cbn [cinit h_todo h_out map app] in H3.
    fold (cinit todo) in H3. destruct (sequential c init todo l) as ((st, td), o). destruct H3 as (-> & -> & ->). reflexivity.
Qed.
Print Assumptions C15_no_overlap_is_sequential.

(** A request times out, a second one is answered and displaced by a third: two reports. *)
Example C15_example :
  let todo := [(false, KReq (netEv "write" 1000 10 1 [1])); (false, KReq (netEv "write" NOW 10 1 [2]));
               (false, KResp (netEv "read" NOW 10 1 [3])); (false, KReq (netEv "write" NOW 10 1 [4]))] in
  let s := fold_left (apart cfg0) [BEvent; BTimeout (1, 5) NOW false; BEvent; BEvent; BEvent] (cinit todo) in
  List.length (h_out s) = 2%nat /\ List.length (h_map s) = 1%nat /\ h_gauge s = 1 /\ h_todo s = [].
Proof. vm_compute. repeat split. Qed.
