(** C15: the event goroutine and the timeout goroutine on the same connections. *)
From Verif Require Import Base EventModel PairModel PairSpec PairProofs PairProps PairConcModel.
Open Scope string_scope. Open Scope list_scope. Open Scope Z_scope.

(** *** heap lemmas *)
Lemma upd_length {A} (l : list A) : forall n x, List.length (upd l n x) = List.length l.
Proof. induction l as [|y l IH]; intros [|n] x; cbn [upd List.length]; auto. Qed.
Lemma nth_upd {A} (d : A) (l : list A) : forall n x m, nth m (upd l n x) d = if Nat.eqb m n then (if Nat.ltb n (List.length l) then x else nth m l d) else nth m l d.
Proof.
  induction l as [|y l IH]; intros n x m.
  - destruct (Nat.eqb m n) eqn:E; reflexivity.
  - destruct n as [|n]; destruct m as [|m]; cbn [upd nth Nat.eqb List.length]; try reflexivity.
    rewrite IH. destruct (Nat.eqb m n); [|reflexivity]. destruct (Nat.ltb_spec n (List.length l)), (Nat.ltb_spec (Datatypes.S n) (Datatypes.S (List.length l))); try lia; reflexivity.
Qed.
Lemma deref_write s a p b : deref (write s a p) b = if Nat.eqb b a then (if Nat.ltb a (List.length (h_heap s)) then p else deref s b) else deref s b.
Proof. unfold deref, write. cbn [h_heap]. apply nth_upd. Qed.
Lemma deref_alloc s k p b : deref (allocAt s k p) b = if Nat.eqb b (List.length (h_heap s)) then p else deref s b.
Proof.
  unfold deref, allocAt. cbn [h_heap]. destruct (Nat.eqb_spec b (List.length (h_heap s))) as [->|N].
  - rewrite app_nth2, Nat.sub_diag by lia. reflexivity.
  - destruct (Nat.lt_ge_cases b (List.length (h_heap s))).
    + apply app_nth1. assumption.
    + rewrite (nth_overflow (h_heap s)) by lia. apply nth_overflow. rewrite app_length. cbn [List.length]. lia.
Qed.

(** *** at most once *)
Definition ticketOf (p : pc) : option addr :=
  match p with PPut a _ _ | PDown a _ | PDelete a _ | PEmit a _ | PBack a _ => Some a | _ => None end.
Definition holds (p : pc) (a : addr) : nat := match ticketOf p with Some b => if Nat.eqb a b then 1 else 0 | None => 0 end.
Definition reported (s : cstate) (a : addr) : nat := count_occ Nat.eq_dec (map fst (h_out s)) a.
Definition freshIn (p : pc) : Prop :=
  match p with PConn _ _ n _ | PReq _ _ n _ | PStoreNew n | PPut _ n _ | PCheck _ (Some n) _ => p_send n = 0 | _ => True end.
Definition tickets (s : cstate) (a : addr) : nat := (reported s a + holds (h_ev s) a + holds (h_tm s) a)%nat.
Definition inv (n : Z) (s : cstate) : Prop :=
  (forall a, 0 <= p_send (deref s a) <= n) /\
  (forall a, (tickets s a <= if (p_send (deref s a) =? 0)%Z then 0 else 1)%nat) /\ freshIn (h_ev s) /\ freshIn (h_tm s).

Lemma send_merge p e : p_send (mergeConnect p e) = p_send p /\ p_send (mergeRequest p e) = p_send p /\ p_send (mergeResponse p e) = p_send p.
Proof. unfold mergeConnect, mergeRequest, mergeResponse. destruct (p_req p), (p_con p), (p_resp p); auto. Qed.
Lemma send_back p v : p_send (putRequestBack p v) = p_send p.
Proof. unfold putRequestBack. destruct (p_req p); reflexivity. Qed.
Lemma s32_small x : - 2 ^ 31 <= x < 2 ^ 31 -> s32 x = x.
Proof. intros H. unfold s32. rewrite Z.mod_small by lia. lia. Qed.

(** what a step may do to counters and reports *)
Definition calm (s s' : cstate) (p p' : pc) (n : Z) : Prop :=
  (forall a, 0 <= p_send (deref s' a) <= n + 1) /\
  (forall a, (reported s' a + holds p' a + (if (p_send (deref s a) =? 0)%Z then 0 else 1)
              <= reported s a + holds p a + (if (p_send (deref s' a) =? 0)%Z then 0 else 1))%nat) /\
  (forall a, p_send (deref s a) <> 0 -> p_send (deref s' a) <> 0) /\ freshIn p'.

Lemma calm_write s a p p' q n :
  (forall b, 0 <= p_send (deref s b) <= n) -> p_send q = p_send (deref s a) -> (forall b, (holds p' b <= holds p b)%nat) -> freshIn p' ->
  calm s (write s a q) p p' n.
Proof.
  intros B Q H F.
  assert (E : forall b, p_send (deref (write s a q) b) = p_send (deref s b)).
  { intros b. rewrite deref_write. destruct (Nat.eqb_spec b a) as [->|]; [|reflexivity]. destruct (Nat.ltb a (List.length (h_heap s))); [assumption|reflexivity]. }
  unfold calm. repeat split; auto.
  - rewrite E. apply B.
  - rewrite E. specialize (B a0). lia.
  - intros b. rewrite E. unfold reported, write. cbn [h_out]. specialize (H b). lia.
  - intros b. rewrite E. auto.
Qed.
Lemma calm_same s s' p p' n :
  (forall b, 0 <= p_send (deref s b) <= n) -> h_heap s' = h_heap s -> h_out s' = h_out s -> (forall b, (holds p' b <= holds p b)%nat) -> freshIn p' ->
  calm s s' p p' n.
Proof.
  intros B HH HO H F. assert (E : forall b, deref s' b = deref s b) by (intros b; unfold deref; rewrite HH; reflexivity).
  unfold calm. repeat split; auto.
  - rewrite E. apply B.
  - rewrite E. specialize (B a). lia.
  - intros b. rewrite E. unfold reported. rewrite HO. specialize (H b). lia.
  - intros b. rewrite E. auto.
Qed.
Lemma calm_alloc s k q p p' n :
  (forall b, 0 <= p_send (deref s b) <= n) -> p_send q = 0 -> (forall b, (holds p' b <= holds p b)%nat) -> freshIn p' ->
  calm s (allocAt s k q) p p' n.
Proof.
  intros B Q H F.
  assert (E : forall b, p_send (deref (allocAt s k q) b) = p_send (deref s b)).
  { intros b. rewrite deref_alloc. destruct (Nat.eqb_spec b (List.length (h_heap s))) as [->|]; [|reflexivity].
    rewrite Q. unfold deref. rewrite nth_overflow by lia. reflexivity. }
  unfold calm. repeat split; auto.
  - rewrite E. apply B.
  - rewrite E. specialize (B a). lia.
  - intros b. rewrite E. unfold reported, allocAt. cbn [h_out]. specialize (H b). lia.
  - intros b. rewrite E. auto.
Qed.

Lemma stepPc_calm c s p n :
  0 <= n < 2 ^ 31 - 1 -> (forall b, 0 <= p_send (deref s b) <= n) -> freshIn p ->
  let '(s', p') := stepPc c s p in calm s s' p p' n.
Proof.
  intros N B F.
  assert (H0 : forall q b, ticketOf q = None -> (holds q b <= holds p b)%nat) by (intros q b E; unfold holds; rewrite E; lia).
  assert (H1 : forall q b, ticketOf q = ticketOf p -> (holds q b <= holds p b)%nat) by (intros q b E; unfold holds; rewrite E; lia).
  destruct p as [|e old new cont|e old new cont|e old|e old|e old st|e old|old|new| |old new ct|old new ct|old ct|old ct|old ct|old cur]; cbn [stepPc].
  - apply calm_same; auto.
  - destruct (p_req (deref s old)), (p_con (deref s old)) as [v|]; try (destruct (isTimeout v e (getConnectTimeout c)));
      (apply calm_same; [assumption|reflexivity|reflexivity|intros b; apply H0; reflexivity|exact F || exact I]).
  - destruct (p_req (deref s old)) as [r|]; [|destruct (p_con (deref s old))];
      try (destruct ((match p_resp (deref s old) with Some _ => true | None => false end) || isSportChanged r e));
      (apply calm_same; [assumption|reflexivity|reflexivity|intros b; apply H0; reflexivity|exact F || exact I]).
  - destruct (p_req (deref s old)); (apply calm_same; [assumption|reflexivity|reflexivity|intros b; apply H0; reflexivity|exact I]).
  - apply calm_write; [assumption|apply send_merge|intros b; apply H0; reflexivity|exact I].
  - destruct st; (apply calm_write; [assumption|apply send_merge|intros b; apply H0; reflexivity|exact I]).
  - apply calm_write; [assumption|apply send_merge|intros b; apply H0; reflexivity|exact I].
  - apply calm_same; [assumption|reflexivity|reflexivity|intros b; apply H0; reflexivity|exact I].
  - apply calm_alloc; [assumption|exact F|intros b; apply H0; reflexivity|exact I].
  - apply calm_same; [assumption|reflexivity|reflexivity|intros b; apply H0; reflexivity|exact I].
  - assert (G : let s' := write s old (bumpSend (deref s old)) in
        let p' := if checkSend (deref s old) then match new with Some nn => PPut old nn ct | None => PDown old ct end else PIdle in
        match p_con (deref s old), p_req (deref s old) with None, None => True | _, _ => calm s s' (PCheck old new ct) p' n end).
    { cbv zeta.
      assert (IN : match p_con (deref s old), p_req (deref s old) with None, None => True | _, _ => (old < List.length (h_heap s))%nat end).
      { destruct (Nat.lt_ge_cases old (List.length (h_heap s))) as [L|L].
        - destruct (p_con (deref s old)), (p_req (deref s old)); auto.
        - unfold deref. rewrite nth_overflow by assumption. exact I. }
      assert (G2 : (old < List.length (h_heap s))%nat -> calm s (write s old (bumpSend (deref s old))) (PCheck old new ct)
           (if checkSend (deref s old) then match new with Some nn => PPut old nn ct | None => PDown old ct end else PIdle) n).
      { intros L. pose proof (B old) as BO.
        assert (SB : p_send (bumpSend (deref s old)) = p_send (deref s old) + 1) by (unfold bumpSend; cbn [p_send]; apply s32_small; lia).
        assert (CS : checkSend (deref s old) = ((p_send (deref s old) =? 0)%Z)) by (unfold checkSend; rewrite SB; lia).
        assert (E : forall b, p_send (deref (write s old (bumpSend (deref s old))) b) = if Nat.eqb b old then p_send (deref s old) + 1 else p_send (deref s b)).
        { intros b. rewrite deref_write. destruct (Nat.eqb b old); [|reflexivity]. destruct (Nat.ltb_spec old (List.length (h_heap s))); [assumption|lia]. }
        set (p' := if checkSend (deref s old) then match new with Some nn => PPut old nn ct | None => PDown old ct end else PIdle).
        assert (HP : forall b, holds p' b = if Nat.eqb b old && ((p_send (deref s old) =? 0)%Z) then 1%nat else 0%nat).
        { intros b. unfold p'. rewrite CS. destruct ((p_send (deref s old) =? 0)%Z).
          - rewrite andb_true_r. destruct new; reflexivity.
          - rewrite andb_false_r. reflexivity. }
        unfold calm. repeat split.
        - rewrite E. destruct (Nat.eqb a old); [lia|]. specialize (B a). lia.
        - rewrite E. destruct (Nat.eqb a old); [lia|]. specialize (B a). lia.
        - intros b. rewrite E, HP. unfold reported, write. cbn [h_out].
          destruct (Nat.eqb_spec b old) as [->|]; cbn [andb].
          + destruct ((p_send (deref s old) =? 0)%Z) eqn:Z0; destruct (p_send (deref s old) + 1 =? 0) eqn:Z1; unfold holds; cbn [ticketOf]; lia.
          + unfold holds; cbn [ticketOf]. lia.
        - intros b. rewrite E. destruct (Nat.eqb_spec b old) as [->|]; [lia|auto].
        - unfold p'. destruct (checkSend (deref s old)); [|exact I]. destruct new; [exact F|exact I]. }
      destruct (p_con (deref s old)), (p_req (deref s old)); auto. }
    cbv zeta in G. destruct (p_con (deref s old)) eqn:PC, (p_req (deref s old)) eqn:PR;
      try (destruct (checkSend (deref s old)); exact G).
    apply calm_same; [assumption|reflexivity|reflexivity|intros b; apply H0; reflexivity|exact I].
  - apply calm_alloc; [assumption|exact F|intros b; apply H1; reflexivity|exact I].
  - apply calm_same; [assumption|reflexivity|reflexivity|intros b; apply H1; reflexivity|exact I].
  - apply calm_same; [assumption|reflexivity|reflexivity|intros b; apply H1; reflexivity|exact I].
  - assert (EM : calm s (emit s old) (PEmit old ct) PIdle n).
    { unfold calm. assert (E : forall b, deref (emit s old) b = deref s b) by reflexivity. repeat split; auto.
      - rewrite E. apply B.
      - rewrite E. specialize (B a). lia.
      - intros b. rewrite E. unfold reported, emit. cbn [h_out]. rewrite map_app, count_occ_app. cbn [map fst count_occ].
        unfold holds. cbn [ticketOf]. destruct (Nat.eq_dec old b) as [->|NE]; [rewrite Nat.eqb_refl; rewrite Nat.add_0_r; apply le_n|].
        destruct (Nat.eqb_spec b old); [congruence|rewrite !Nat.add_0_r; apply le_n]. }
    destruct (p_req (deref s old)) as [r|]; [|exact EM]. destruct ct; [|exact EM].
    destruct (aget (h_map s) (evKey (v_first r))).
    + apply calm_same; [assumption|reflexivity|reflexivity|intros b; apply H1; reflexivity|exact I].
    + apply calm_same; [assumption|reflexivity|reflexivity|intros b; apply H0; reflexivity|exact I].
  - destruct (p_req (deref s old)).
    + apply calm_write; [assumption|apply send_back|intros b; apply H0; reflexivity|exact I].
    + apply calm_same; [assumption|reflexivity|reflexivity|intros b; apply H0; reflexivity|exact I].
Qed.

Lemma keep_other c s p : h_ev (fst (stepPc c s p)) = h_ev s /\ h_tm (fst (stepPc c s p)) = h_tm s.
Proof.
  destruct p as [|e old new cont|e old new cont|e old|e old|e old st|e old|old|new| |old new ct|old new ct|old ct|old ct|old ct|old cur]; cbn [stepPc];
    try (split; reflexivity).
  - destruct (p_req (deref s old)), (p_con (deref s old)) as [v|]; try (destruct (isTimeout v e (getConnectTimeout c))); split; reflexivity.
  - destruct (p_req (deref s old)) as [r|]; [|destruct (p_con (deref s old))];
      try (destruct ((match p_resp (deref s old) with Some _ => true | None => false end) || isSportChanged r e)); split; reflexivity.
  - destruct (p_req (deref s old)); split; reflexivity.
  - destruct (p_con (deref s old)), (p_req (deref s old)); try (destruct (checkSend (deref s old))); split; reflexivity.
  - destruct (p_req (deref s old)) as [r|]; [|split; reflexivity]. destruct ct; [|split; reflexivity].
    destruct (aget (h_map s) (evKey (v_first r))); split; reflexivity.
  - destruct (p_req (deref s old)); split; reflexivity.
Qed.
Lemma start_keep c s cont t : h_ev (fst (startEv c s cont t)) = h_ev s /\ h_tm (fst (startEv c s cont t)) = h_tm s.
Proof.
  destruct t as [e|e|e]; cbn [startEv].
  - destruct (aget (h_map s) (getKey (connectPair c e))); split; reflexivity.
  - destruct (aget (h_map s) (getKey (requestPair c e))); split; reflexivity.
  - destruct (aget (h_map s) (evKey e)); split; reflexivity.
Qed.

Lemma inv_ev n s s' p' l : inv n s -> calm s s' (h_ev s) p' n -> h_tm s' = h_tm s -> inv (n + 1) (withEv s' p' l).
Proof.
  intros (B & T & F1 & F2) (C1 & C2 & C3 & C4) E. unfold inv.
  assert (D : forall a, deref (withEv s' p' l) a = deref s' a) by reflexivity.
  repeat split.
  - rewrite D. apply C1.
  - rewrite D. apply C1.
  - intros a. rewrite D. specialize (T a). specialize (C2 a). unfold tickets in *. cbn [withEv h_ev h_tm]. rewrite E.
    change (reported (withEv s' p' l) a) with (reported s' a). lia.
  - exact C4.
  - cbn [withEv h_tm]. rewrite E. exact F2.
Qed.
Lemma inv_tm n s s' p' : inv n s -> calm s s' (h_tm s) p' n -> h_ev s' = h_ev s -> inv (n + 1) (withTm s' p').
Proof.
  intros (B & T & F1 & F2) (C1 & C2 & C3 & C4) E. unfold inv.
  assert (D : forall a, deref (withTm s' p') a = deref s' a) by reflexivity.
  repeat split.
  - rewrite D. apply C1.
  - rewrite D. apply C1.
  - intros a. rewrite D. specialize (T a). specialize (C2 a). unfold tickets in *. cbn [withTm h_ev h_tm]. rewrite E.
    change (reported (withTm s' p') a) with (reported s' a). lia.
  - cbn [withTm h_ev]. rewrite E. exact F1.
  - exact C4.
Qed.
Lemma inv_mono n s : inv n s -> inv (n + 1) s.
Proof. intros (B & T). split; [|exact T]. intros a. specialize (B a). lia. Qed.

Lemma stepEv_busy c s : h_ev s <> PIdle -> stepEv c s = let '(s', p') := stepPc c s (h_ev s) in withEv s' p' (h_todo s).
Proof. intros N. unfold stepEv. destruct (h_ev s); [congruence|..]; destruct (h_todo s); reflexivity. Qed.
Lemma stepTm_busy c s k now cont : h_tm s <> PIdle -> stepTm c s k now cont = let '(s', p') := stepPc c s (h_tm s) in withTm s' p'.
Proof. intros N. unfold stepTm. destruct (h_tm s); [congruence|..]; reflexivity. Qed.
Lemma pc_idle_dec (p : pc) : p = PIdle \/ p <> PIdle.
Proof. destruct p; [left; reflexivity|right; discriminate..]. Qed.

Lemma inv_step c n s x : 0 <= n < 2 ^ 31 - 1 -> inv n s -> inv (n + 1) (cstep c s x).
Proof.
  intros N I. pose proof I as (B & T & F1 & F2). destruct x as [|k now cont]; cbn [cstep].
  - destruct (pc_idle_dec (h_ev s)) as [E|E].
    + unfold stepEv. rewrite E. destruct (h_todo s) as [|(cont, t) l]; [apply inv_mono; assumption|].
      pose proof (start_keep c s cont t) as (K1 & K2). destruct (startEv c s cont t) as (s', p') eqn:ES. cbn [fst] in K1, K2.
      apply (inv_ev n s s' p' l I); [|assumption]. rewrite E. unfold startEv in ES.
      assert (H0 : forall q b, ticketOf q = None -> (holds q b <= holds PIdle b)%nat) by (intros q b E2; unfold holds; rewrite E2; lia).
      destruct t as [e|e|e].
      * destruct (aget (h_map s) (getKey (connectPair c e))); inversion ES; subst.
        -- apply calm_same; [assumption|reflexivity|reflexivity|intros b; apply H0; reflexivity|reflexivity].
        -- apply calm_alloc; [assumption|reflexivity|intros b; apply H0; reflexivity|exact Logic.I].
      * destruct (aget (h_map s) (getKey (requestPair c e))); inversion ES; subst.
        -- apply calm_same; [assumption|reflexivity|reflexivity|intros b; apply H0; reflexivity|reflexivity].
        -- apply calm_alloc; [assumption|reflexivity|intros b; apply H0; reflexivity|exact Logic.I].
      * destruct (aget (h_map s) (evKey e)); inversion ES; subst;
          (apply calm_same; [assumption|reflexivity|reflexivity|intros b; apply H0; reflexivity|exact Logic.I]).
    + rewrite (stepEv_busy c s E). pose proof (keep_other c s (h_ev s)) as (K1 & K2). pose proof (stepPc_calm c s (h_ev s) n N B F1) as C.
      destruct (stepPc c s (h_ev s)) as (s', p'). cbn [fst] in K1, K2. apply (inv_ev n s); assumption.
  - destruct (pc_idle_dec (h_tm s)) as [E|E].
    + unfold stepTm. rewrite E. destruct (aget (h_map s) k) as [a|]; [|apply inv_mono; assumption].
      destruct (expired c now (deref s a)); [|apply inv_mono; assumption].
      apply (inv_tm n s s); [assumption| |reflexivity]. rewrite E.
      apply calm_same; [assumption|reflexivity|reflexivity|intros b; unfold holds; cbn [ticketOf]; lia|exact Logic.I].
    + rewrite (stepTm_busy c s k now cont E). pose proof (keep_other c s (h_tm s)) as (K1 & K2). pose proof (stepPc_calm c s (h_tm s) n N B F2) as C.
      destruct (stepPc c s (h_tm s)) as (s', p'). cbn [fst] in K1, K2. apply (inv_tm n s); assumption.
Qed.

Lemma inv_run c : forall l n s, 0 <= n -> n + zlen l < 2 ^ 31 -> inv n s -> inv (n + zlen l) (crun c s l).
Proof.
  induction l as [|x l IH]; intros n s N L I.
  - unfold zlen. cbn [List.length crun fold_left]. rewrite Z.add_0_r. assumption.
  - unfold crun. cbn [fold_left]. fold (crun c (cstep c s x) l).
    assert (ZL : zlen (x :: l) = zlen l + 1) by (unfold zlen; cbn [List.length]; lia).
    assert (0 <= zlen l) by (unfold zlen; lia).
    replace (n + zlen (x :: l)) with ((n + 1) + zlen l) by lia. apply IH; [lia|lia|]. apply inv_step; [lia|assumption].
Qed.

(** In every interleaving, however the goroutines overlap, a pair is reported at most once (the schedule has to stay
    shorter than 2^31 steps: the guard is a 32-bit counter). *)
Theorem C15_reported_at_most_once : forall c todo l,
  zlen l < 2 ^ 31 -> NoDup (map fst (h_out (crun c (cinit todo) l))).
Proof.
  intros c todo l L.
  assert (I0 : inv 0 (cinit todo)).
  { unfold inv, cinit, deref, tickets, reported. cbn [h_heap h_out h_ev h_tm map fst count_occ holds ticketOf freshIn]. repeat split.
    - destruct a; cbn [nth nilPair p_send]; lia.
    - destruct a; cbn [nth nilPair p_send]; lia.
    - intros a. unfold holds. cbn [ticketOf]. lia. }
  destruct (inv_run c l 0 (cinit todo) (Z.le_refl 0) L I0) as (_ & T & _ & _).
  apply (NoDup_count_occ Nat.eq_dec). intros a. specialize (T a). unfold tickets, reported in T.
  destruct (p_send (deref (crun c (cinit todo) l) a) =? 0); lia.
Qed.
Print Assumptions C15_reported_at_most_once.

(** *** A response arriving while the timeout goroutine hands its pair over takes the connection away for good. *)
Definition darkPc (a : addr) (p : pc) : Prop :=
  match p with
  | PIdle => True
  | PConn _ b _ _ | PReq _ b _ _ | PResp _ b | PMergeResp _ b | PStore b | PCheck b _ _ => b = a
  | _ => False
  end.
Definition dark (k : key) (a : addr) (n : Z) (s : cstate) : Prop :=
  h_map s = [(k, a)] /\ (a < List.length (h_heap s))%nat /\ 1 <= p_send (deref s a) <= n /\
  p_req (deref s a) <> None /\ p_resp (deref s a) <> None /\ getKey (deref s a) = k /\
  Forall (fun bt => evKey (tokEv (snd bt)) = k) (h_todo s) /\ darkPc a (h_ev s) /\ darkPc a (h_tm s).

Definition sameFrame (s s' : cstate) : Prop := h_todo s' = h_todo s /\ h_out s' = h_out s.
Lemma getKey_resp p e : p_req p <> None -> getKey (mergeResponse p e) = getKey p.
Proof. intros N. unfold getKey, mergeResponse. destruct (p_resp p); cbn [withResp p_con p_req p_resp]; destruct (p_con p); try reflexivity; destruct (p_req p); congruence. Qed.

Lemma dark_stepPc c k a n s p : 1 <= n < 2 ^ 31 - 1 -> dark k a n s -> darkPc a p ->
  let '(s', p') := stepPc c s p in
  h_map s' = [(k, a)] /\ (a < List.length (h_heap s'))%nat /\ 1 <= p_send (deref s' a) <= n + 1 /\
  p_req (deref s' a) <> None /\ p_resp (deref s' a) <> None /\ getKey (deref s' a) = k /\ darkPc a p' /\
  h_todo s' = h_todo s /\ h_out s' = h_out s.
Proof.
  intros N (M & L & S1 & Q & R & K & _ & _ & _) P.
  assert (LT : Nat.ltb a (List.length (h_heap s)) = true) by (apply Nat.ltb_lt; assumption).
  destruct p as [|e old new cont|e old new cont|e old|e old|e old st|e old|old|new| |old new ct|old new ct|old ct|old ct|old ct|old cur]; cbn [darkPc] in P; try contradiction; cbn [stepPc].
  - repeat split; auto; lia.
  - subst old. destruct (p_req (deref s a)) eqn:PR; [|congruence]. destruct (p_con (deref s a)); repeat split; auto; try discriminate; try (rewrite PR; discriminate); try (rewrite PQ; discriminate); try congruence; try lia.
  - subst old. destruct (p_req (deref s a)) eqn:PR; [|congruence]. destruct (p_resp (deref s a)) eqn:PQ; [|congruence]. cbn [orb]. repeat split; auto; try discriminate; try (rewrite PR; discriminate); try (rewrite PQ; discriminate); try congruence; try lia.
  - subst old. destruct (p_req (deref s a)) eqn:PR; [|congruence]. repeat split; auto; try discriminate; try (rewrite PR; discriminate); try (rewrite PQ; discriminate); try congruence; try lia.
  - subst old. rewrite deref_write, Nat.eqb_refl, LT. cbn [write h_map h_heap h_todo h_out]. rewrite upd_length.
    destruct (send_merge (deref s a) e) as (_ & _ & SM). rewrite SM. rewrite getKey_resp by assumption.
    repeat split; auto; try lia.
    + unfold mergeResponse. destruct (p_resp (deref s a)); cbn [withResp p_req]; assumption.
    + unfold mergeResponse. destruct (p_resp (deref s a)); cbn [withResp p_resp]; discriminate.
  - subst old. cbn [setMap h_map h_heap h_todo h_out]. change (deref (setMap s (aset (h_map s) (getKey (deref s a)) a)) a) with (deref s a).
    rewrite K, M. cbn [aset]. rewrite eqb_refl. repeat split; auto; lia.
  - subst old.
    assert (SB : p_send (bumpSend (deref s a)) = p_send (deref s a) + 1) by (unfold bumpSend; cbn [p_send]; apply s32_small; lia).
    assert (CS : checkSend (deref s a) = false) by (unfold checkSend; rewrite SB; lia).
    rewrite CS.
    assert (G : h_map (write s a (bumpSend (deref s a))) = [(k, a)] /\ (a < List.length (h_heap (write s a (bumpSend (deref s a)))))%nat /\
        1 <= p_send (deref (write s a (bumpSend (deref s a))) a) <= n + 1 /\
        p_req (deref (write s a (bumpSend (deref s a))) a) <> None /\ p_resp (deref (write s a (bumpSend (deref s a))) a) <> None /\
        getKey (deref (write s a (bumpSend (deref s a))) a) = k /\ darkPc a PIdle /\
        h_todo (write s a (bumpSend (deref s a))) = h_todo s /\ h_out (write s a (bumpSend (deref s a))) = h_out s).
    { rewrite deref_write, Nat.eqb_refl, LT, SB. cbn [write h_map h_heap h_todo h_out]. rewrite upd_length.
      repeat split; auto; try lia. }
    destruct (p_con (deref s a)), (p_req (deref s a)); try exact G. congruence.
Qed.

Lemma dark_step c k a n s x : 1 <= n < 2 ^ 31 - 1 -> dark k a n s -> dark k a (n + 1) (cstep c s x) /\ h_out (cstep c s x) = h_out s.
Proof.
  intros N D. pose proof D as (M & L & S1 & Q & R & K & T & PE & PT).
  destruct x as [|k1 now cont]; cbn [cstep].
  - destruct (pc_idle_dec (h_ev s)) as [E|E].
    + unfold stepEv. rewrite E. destruct (h_todo s) as [|(ct, t) l] eqn:TD.
      * split; [|reflexivity]. repeat split; auto; try lia. rewrite TD. constructor.
      * inversion T as [|? ? TK TL]; subst. cbn [snd] in TK.
        assert (G : exists p', startEv c s ct t = (s, p') /\ darkPc a p').
        { unfold startEv. destruct t as [e|e|e]; cbn [tokEv] in TK.
          - change (getKey (connectPair c e)) with (evKey e). rewrite TK, M. cbn [aget]. rewrite eqb_refl. eexists. split; [reflexivity|reflexivity].
          - change (getKey (requestPair c e)) with (evKey e). rewrite TK, M. cbn [aget]. rewrite eqb_refl. eexists. split; [reflexivity|reflexivity].
          - rewrite TK, M. cbn [aget]. rewrite eqb_refl. eexists. split; [reflexivity|reflexivity]. }
        destruct G as (p' & -> & DP). split; [|reflexivity].
        unfold dark. cbn [withEv h_map h_heap h_todo h_ev h_tm]. change (deref (withEv s p' l) a) with (deref s a).
        repeat split; auto; lia.
    + rewrite (stepEv_busy c s E). pose proof (dark_stepPc c k a n s (h_ev s) N D PE) as G.
      pose proof (keep_other c s (h_ev s)) as (K1 & K2).
      destruct (stepPc c s (h_ev s)) as (s', p'). cbn [fst] in K1, K2. destruct G as (G1 & G2 & G3 & G4 & G5 & G6 & G7 & G8 & G9).
      split; [|exact G9]. unfold dark. cbn [withEv h_map h_heap h_todo h_ev h_tm]. change (deref (withEv s' p' (h_todo s)) a) with (deref s' a).
      rewrite K2. repeat split; auto; lia.
  - destruct (pc_idle_dec (h_tm s)) as [E|E].
    + unfold stepTm. rewrite E.
      assert (SAME : dark k a (n + 1) s /\ h_out s = h_out s) by (split; [|reflexivity]; repeat split; auto; lia).
      rewrite M. cbn [aget]. destruct (eqb k1 k); [|exact SAME].
      destruct (expired c now (deref s a)); [|exact SAME]. split; [|reflexivity].
      unfold dark. cbn [withTm h_map h_heap h_todo h_ev h_tm]. change (deref (withTm s (PCheck a None cont)) a) with (deref s a).
      repeat split; auto; lia.
    + rewrite (stepTm_busy c s k1 now cont E). pose proof (dark_stepPc c k a n s (h_tm s) N D PT) as G.
      pose proof (keep_other c s (h_tm s)) as (K1 & K2).
      destruct (stepPc c s (h_tm s)) as (s', p'). cbn [fst] in K1, K2. destruct G as (G1 & G2 & G3 & G4 & G5 & G6 & G7 & G8 & G9).
      split; [|exact G9]. unfold dark. cbn [withTm h_map h_heap h_todo h_ev h_tm]. change (deref (withTm s' p') a) with (deref s' a).
      rewrite K1. repeat split; auto; try lia. rewrite G8. assumption.
Qed.

Lemma dark_run c k a : forall l n s, 1 <= n -> n + zlen l < 2 ^ 31 - 1 -> dark k a n s -> h_out (crun c s l) = h_out s.
Proof.
  induction l as [|x l IH]; intros n s N L D; [reflexivity|].
  assert (ZL : zlen (x :: l) = zlen l + 1) by (unfold zlen; cbn [List.length]; lia).
  assert (0 <= zlen l) by (unfold zlen; lia).
  unfold crun. cbn [fold_left]. fold (crun c (cstep c s x) l).
  destruct (dark_step c k a n s x) as (D' & O); [lia|assumption|]. rewrite (IH (n + 1) _ ltac:(lia) ltac:(lia) D'). exact O.
Qed.

(** Finding.  A request waits 120 s for its answer; the answer arrives just when the timeout goroutine has decided to
    hand the pair over.  The request is reported as unanswered, the response puts the spent pair back into the map, and
    from then on nothing at all is reported for this process and descriptor, whatever events follow and however often the
    scan runs; the gauge and the map disagree as well. *)
Definition NOW : Z := 200 * 1000000000.
Definition raceStart : list (bool * tok) :=
  [(false, KReq (netEv "write" 1000 10 1 [1])); (false, KResp (netEv "read" NOW 10 1 [2]))].
Definition raceSched : list sched :=
  let tm := TmMoves (1, 5) NOW false in
  [EvMoves; EvMoves; tm; tm; EvMoves; EvMoves; tm; tm; tm; EvMoves; EvMoves].
Theorem C15_connection_goes_dark_refuted : forall more l,
  Forall (fun bt => evKey (tokEv (snd bt)) = (1, 5)) more -> zlen l < 2 ^ 30 ->
  let s0 := crun cfg0 (cinit (raceStart ++ more)) raceSched in
  h_ev s0 = PIdle /\ h_tm s0 = PIdle /\ h_todo s0 = more /\ h_gauge s0 = 0 /\ zlen (h_map s0) = 1 /\
  map (fun x => p_resp (snd x)) (h_out s0) = [None] /\
  h_out (crun cfg0 s0 l) = h_out s0.
Proof.
  intros more l K L s0.
  assert (E : exists hp out, s0 = {| h_heap := [hp]; h_map := [((1, 5), 0%nat)]; h_gauge := 0; h_out := [(0%nat, out)]; h_todo := more; h_ev := PIdle; h_tm := PIdle |} /\
              p_send hp = 1 /\ p_req hp <> None /\ p_resp hp <> None /\ getKey hp = (1, 5) /\ p_resp out = None).
  { eexists. eexists. split; [unfold s0; vm_compute; reflexivity|]. repeat split; try discriminate; vm_compute; reflexivity. }
  destruct E as (hp & out & E & P1 & P2 & P3 & P4 & P5). rewrite E. clear E s0. repeat split.
  - cbn [h_out map snd]. rewrite P5. reflexivity.
  - apply (dark_run cfg0 (1, 5) 0%nat l 1); [lia|lia|].
    unfold dark, deref. cbn [h_map h_heap h_todo h_ev h_tm nth List.length darkPc]. repeat split; auto; lia.
Qed.
Print Assumptions C15_connection_goes_dark_refuted.

(** Finding.  A further request that is being merged into its pair while the timeout goroutine hands the pair over is
    lost: it is neither in a reported pair nor pending. *)
Definition mentions (p : pairs) (d : bytes) : Prop := exists v, p_req p = Some v /\ evsData v = d.
Theorem C15_request_lost_refuted :
  exists todo l, let s := crun cfg0 (cinit todo) l in
  h_ev s = PIdle /\ h_tm s = PIdle /\ h_todo s = [] /\ h_map s = [] /\
  map snd todo = [KReq (netEv "write" 1000 10 1 [1]); KReq (netEv "write" NOW 10 1 [2])] /\
  exists p, map snd (h_out s) = [p] /\ mentions p [1].
Proof.
  exists [(false, KReq (netEv "write" 1000 10 1 [1])); (false, KReq (netEv "write" NOW 10 1 [2]))].
  pose (tm := TmMoves (1, 5) NOW false).
  exists [EvMoves; EvMoves; tm; tm; EvMoves; EvMoves; tm; tm; tm; EvMoves].
  vm_compute. repeat split. eexists. split; [reflexivity|]. eexists. split; reflexivity.
Qed.
Print Assumptions C15_request_lost_refuted.

(** Finding.  With overlap the gauge no longer counts the pending connections: after the race above it is 0 with one
    connection in the map, and it stays one short from then on. *)
Theorem C16_gauge_drifts_refuted :
  exists todo l, let s := crun cfg0 (cinit todo) l in
  h_ev s = PIdle /\ h_tm s = PIdle /\ h_todo s = [] /\ h_gauge s <> zlen (h_map s).
Proof. exists raceStart, raceSched. vm_compute. repeat split. discriminate. Qed.
Print Assumptions C16_gauge_drifts_refuted.

(** Both goroutines try to hand over the same pair: one of them wins. *)
Example C15_at_most_once_example :
  let tm := TmMoves (1, 5) NOW false in
  let todo := [(false, KReq (netEv "write" 1000 10 1 [1])); (false, KResp (netEv "read" 2000 10 1 [2])); (false, KReq (netEv "write" NOW 10 1 [3]))] in
  let s := crun cfg0 (cinit todo) [EvMoves; EvMoves; EvMoves; EvMoves; EvMoves; EvMoves; tm; EvMoves; EvMoves; EvMoves; tm; EvMoves; EvMoves] in
  map fst (h_out s) = [0%nat] /\ p_send (deref s 0%nat) = 2 /\ List.length (h_map s) = 1%nat.
Proof. vm_compute. repeat split. Qed.
