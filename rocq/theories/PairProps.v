(** C12, C13, C14, C16: message pairs. *)
From Verif Require Import Base EventModel EventProps PairModel PairSpec PairProofs.
Open Scope string_scope. Open Scope list_scope. Open Scope Z_scope.

(** *** C13 the kept payload *)
Definition payloads (l : list event) : bytes := List.concat (map getData l).
Definition keptLength (max : Z) (l : list event) : nat :=
  match l with [] => 0%nat | e :: _ => Z.to_nat (Z.max max (zlen (getData e))) end.
Definition evsKept (v : evs) : list event := match v_merg v with None => [v_first v] | Some m => m_events m end.

Lemma kept_snoc max l e : l <> [] -> keptLength max (l ++ [e]) = keptLength max l.
Proof. destruct l; [congruence|reflexivity]. Qed.
Lemma payloads_snoc l e : payloads (l ++ [e]) = payloads l ++ getData e.
Proof. unfold payloads. rewrite map_app, concat_app. cbn [map List.concat]. rewrite app_nil_r. reflexivity. Qed.
Lemma mergable_build max l v : buildEvs max l = Some v ->
  m_data (mergable v) = evsData v /\ m_events (mergable v) = evsKept v /\ m_ts (mergable v) = lastTs v /\ m_lat (mergable v) = evsDuration v.
Proof. intros _. unfold mergable, evsData, evsKept, lastTs, evsDuration. destruct (v_merg v); auto. Qed.

Lemma data_build max : forall l v, buildEvs max l = Some v -> evsData v = firstn (keptLength max l) (payloads l).
Proof.
  induction l as [|e l IH] using rev_ind; intros v E; [discriminate|].
  rewrite buildEvs_snoc in E. destruct (buildEvs max l) as [w|] eqn:B.
  - assert (NE : l <> []) by (intros ->; discriminate).
    inversion E; subst v; clear E. rewrite (kept_snoc _ _ _ NE), payloads_snoc.
    destruct (mergable_build _ _ _ B) as (MD & _). pose proof (buildEvs_max _ _ _ B) as MX.
    specialize (IH _ eq_refl). unfold evsData, mergeEvent. cbn [v_merg m_data]. rewrite MD, IH, MX.
    set (K := keptLength max l). set (P := payloads l).
    assert (KB : max <= Z.of_nat K).
    { unfold K, keptLength. destruct l as [|f l]; [congruence|]. lia. }
    assert (KM : Z.of_nat K > max -> (K <= List.length P)%nat).
    { unfold K, keptLength, P. destruct l as [|f l]; [congruence|]. intros G. unfold payloads. cbn [map List.concat]. rewrite app_length.
      unfold zlen in *. lia. }
    rewrite firstn_app. unfold getAppendLength, zlen. rewrite firstn_length.
    destruct (max - Z.of_nat (Nat.min K (List.length P)) <=? 0) eqn:R.
    + rewrite Z.eqb_refl. assert (K - List.length P = 0)%nat as -> by lia. rewrite firstn_O, app_nil_r. reflexivity.
    + assert (Z.of_nat K = max) as KE by lia. assert (Nat.min K (List.length P) = List.length P) as -> by lia.
      destruct (max - Z.of_nat (List.length P) >? Z.of_nat (List.length (getData e))) eqn:R2.
      * rewrite (@firstn_all2 _ (K - List.length P)%nat (getData e)) by lia.
        destruct (Z.of_nat (List.length (getData e)) =? 0) eqn:Z0.
        -- assert (getData e = []) as -> by (destruct (getData e); [reflexivity|cbn [List.length] in Z0; lia]).
           rewrite app_nil_r. reflexivity.
        -- f_equal. unfold slice. rewrite Z.sub_0_r, Nat2Z.id. cbn [Z.to_nat skipn]. apply firstn_all.
      * destruct (max - Z.of_nat (List.length P) =? 0) eqn:Z0; [lia|].
        f_equal. unfold slice. rewrite Z.sub_0_r. cbn [Z.to_nat skipn].
        replace (Z.to_nat (max - Z.of_nat (List.length P))) with (K - List.length P)%nat by lia. reflexivity.
  - destruct l; [|discriminate]. inversion E. subst v. cbn [app keptLength payloads map List.concat evsData newEvents v_merg v_first].
    unfold evsData. cbn [v_merg newEvents v_first]. unfold payloads. cbn [map List.concat]. rewrite app_nil_r. symmetry. apply firstn_all2. unfold zlen. lia.
Qed.

Lemma kept_build max : forall l v, buildEvs max l = Some v -> evsKept v = firstn 10 l.
Proof.
  induction l as [|e l IH] using rev_ind; intros v E; [discriminate|].
  rewrite buildEvs_snoc in E. destruct (buildEvs max l) as [w|] eqn:B.
  - destruct (mergable_build _ _ _ B) as (_ & ME & _). specialize (IH _ eq_refl).
    inversion E; subst v; clear E. unfold evsKept, mergeEvent. cbn [v_merg m_events]. rewrite ME, IH.
    rewrite firstn_app. unfold zlen. rewrite firstn_length.
    destruct (Z.of_nat (Nat.min 10 (List.length l)) <? 10) eqn:L.
    + rewrite (@firstn_all2 _ 10%nat l) by lia. f_equal. symmetry. apply firstn_all2. cbn [List.length]. lia.
    + assert (10 - List.length l = 0)%nat as -> by lia. rewrite firstn_O, app_nil_r. reflexivity.
  - destruct l; [|discriminate]. inversion E. reflexivity.
Qed.

Lemma znth_nat {A} (l : list A) n : znth l (Z.of_nat n) = nth_error l n.
Proof. unfold znth. rewrite Nat2Z.id. destruct (Z.of_nat n <? 0) eqn:E; [lia|reflexivity]. Qed.

(** The payload kept for a message is a prefix of the bytes seen: the first [snaplen] bytes, or the whole first payload
    where that is longer.  At most ten of the events stay accessible one by one: the first ten. *)
Theorem C13_payload_prefix : forall max l v, buildEvs max l = Some v ->
  evsData v = firstn (keptLength max l) (payloads l) /\
  is_prefix (evsData v) (payloads l) /\
  (forall e rest, l = e :: rest -> zlen (evsData v) <= Z.max max (zlen (getData e))) /\
  size v = Z.min 10 (zlen l) /\
  (forall n, (n < 10)%nat -> getEvent v (Z.of_nat n) = nth_error l n) /\
  (forall i, i < 0 \/ 10 <= i -> getEvent v i = None).
Proof.
  intros max l v E. pose proof (data_build _ _ _ E) as D. pose proof (kept_build _ _ _ E) as K.
  destruct (buildEvs_first _ _ _ E) as (l' & L).
  assert (SZ : size v = zlen (evsKept v)) by (unfold size, evsKept; destruct (v_merg v); reflexivity).
  assert (GE : forall i, 0 < i -> getEvent v i = znth (evsKept v) i).
  { intros i I. unfold getEvent, evsKept. destruct (i =? 0) eqn:Z0; [lia|].
    destruct (v_merg v) as [m|].
    - destruct ((0 <? i) && (i <? zlen (m_events m))) eqn:B; [reflexivity|].
      unfold znth. destruct (i <? 0); [reflexivity|]. symmetry. apply nth_error_None. unfold zlen in B. lia.
    - unfold znth. destruct (i <? 0); [reflexivity|]. symmetry. apply nth_error_None. cbn [List.length]. lia. }
  split; [exact D|]. split; [|split; [|split; [|split]]].
  - rewrite D. exists (skipn (keptLength max l) (payloads l)). symmetry. apply firstn_skipn.
  - intros e rest L2. rewrite D. unfold zlen. rewrite firstn_length. unfold keptLength. rewrite L2. unfold zlen. lia.
  - rewrite SZ, K. unfold zlen. rewrite firstn_length. lia.
  - intros n N. destruct n as [|n].
    + unfold getEvent. cbn [Z.of_nat Z.eqb]. rewrite L. reflexivity.
    + rewrite GE by lia. rewrite K, znth_nat. revert N. generalize (Datatypes.S n). clear. intros n N.
      rewrite <- (firstn_skipn 10 l) at 2.
      destruct (Nat.lt_ge_cases n (List.length (firstn 10 l))) as [X|X].
      * rewrite nth_error_app1 by assumption. reflexivity.
      * assert (List.length l <= n)%nat by (rewrite firstn_length in X; lia).
        rewrite firstn_skipn. rewrite (proj2 (nth_error_None _ _)); [|assumption]. symmetry. apply nth_error_None. assumption.
  - intros i [I|I].
    + unfold getEvent. destruct (i =? 0) eqn:Z0; [lia|]. destruct (v_merg v); [|reflexivity].
      destruct (0 <? i) eqn:B; [lia|reflexivity].
    + rewrite GE by lia. rewrite K. unfold znth. destruct (i <? 0); [reflexivity|]. apply nth_error_None.
      rewrite firstn_length. lia.
Qed.
Print Assumptions C13_payload_prefix.

Lemma mod_s64 x : s64 x mod 2 ^ 64 = x mod 2 ^ 64.
Proof. unfold s64. rewrite Zminus_mod, Zmod_mod, <- Zminus_mod. f_equal. lia. Qed.
Lemma mod_w64 x : w64 x mod 2 ^ 64 = x mod 2 ^ 64.
Proof. unfold w64. apply Zmod_mod. Qed.
Definition sumZ (l : list Z) : Z := fold_right Z.add 0 l.
Lemma sumZ_snoc l x : sumZ (l ++ [x]) = sumZ l + x.
Proof. induction l as [|a l IH]; cbn [app sumZ fold_right]; [lia|]. unfold sumZ in IH. rewrite IH. lia. Qed.
Definition evsRes (v : evs) : Z := match v_merg v with None => resVal (v_first v) | Some m => m_res m end.

Lemma res_build max : forall l v, buildEvs max l = Some v -> evsRes v mod 2 ^ 64 = sumZ (map resVal l) mod 2 ^ 64.
Proof.
  induction l as [|e l IH] using rev_ind; intros v E; [discriminate|].
  rewrite buildEvs_snoc in E. destruct (buildEvs max l) as [w|] eqn:B.
  - specialize (IH _ eq_refl). inversion E; subst v; clear E.
    assert (MR : m_res (mergable w) = evsRes w) by (unfold mergable, evsRes; destruct (v_merg w); reflexivity).
    unfold evsRes at 1, mergeEvent. cbn [v_merg m_res]. rewrite MR, mod_s64, map_app. cbn [map]. rewrite sumZ_snoc.
    rewrite Zplus_mod, IH, <- Zplus_mod. reflexivity.
  - destruct l; [|discriminate]. inversion E. cbn [app map sumZ fold_right]. rewrite Z.add_0_r. reflexivity.
Qed.

(** The sizes reported are the sums of the system calls' results (unsigned 64-bit), however many calls there were. *)
Theorem C13_sizes : forall c g, 
  getRequestSize (build (c_snaplen c) 1 g) = sumZ (map resVal (g_req g)) mod 2 ^ 64 /\
  getResponseSize (build (c_snaplen c) 1 g) = sumZ (map resVal (g_resp g)) mod 2 ^ 64.
Proof.
  intros c g.
  assert (S : forall l, match buildEvs (c_snaplen c) l with None => 0 | Some v => evsSize v end = sumZ (map resVal l) mod 2 ^ 64).
  { intros l. destruct (buildEvs (c_snaplen c) l) as [v|] eqn:B.
    - rewrite <- (res_build _ _ _ B). unfold evsSize, evsRes, w64. destruct (v_merg v); reflexivity.
    - destruct l; [reflexivity|discriminate]. }
  split; apply S.
Qed.
Print Assumptions C13_sizes.

(** *** C12 timings *)
Lemma dur_build max : forall l v, buildEvs max l = Some v ->
  evsDuration v mod 2 ^ 64 = (lastTs v - e_ts (v_first v) + e_lat (v_first v)) mod 2 ^ 64.
Proof.
  induction l as [|e l IH] using rev_ind; intros v E; [discriminate|].
  rewrite buildEvs_snoc in E. destruct (buildEvs max l) as [w|] eqn:B.
  - specialize (IH _ eq_refl). destruct (mergable_build _ _ _ B) as (_ & _ & MT & ML).
    inversion E; subst v; clear E. unfold evsDuration at 1, lastTs at 1, mergeEvent. cbn [v_merg v_first m_lat m_ts].
    rewrite MT, ML. rewrite mod_w64.
    rewrite Zplus_mod, IH, <- Zplus_mod. f_equal. lia.
  - destruct l; [|discriminate]. inversion E. unfold evsDuration, lastTs. cbn [newEvents v_merg v_first]. f_equal. lia.
Qed.

Lemma lastEvTs_last q qs : lastEvTs (q :: qs) 0 = e_ts (last qs q).
Proof.
  destruct qs as [|x qs] using rev_ind; [reflexivity|]. unfold lastEvTs.
  change (q :: qs ++ [x]) with ((q :: qs) ++ [x]). rewrite map_app. cbn [map]. rewrite !last_last. reflexivity.
Qed.

(** For a conversation with a request and a response: the three parts add up to the duration, which runs from the start
    of the first request to the last response (all in 64-bit arithmetic), and the total adds the connect time. *)
Theorem C12_parts_add_up : forall c g q qs r rs,
  g_req g = q :: qs -> g_resp g = r :: rs ->
  let p := build (c_snaplen c) 1 g in
  (getSentTime p + getWaitingTime p + getDownloadTime p) mod 2 ^ 64 = getDuration p /\
  getDuration p = (e_ts (last rs r) - (e_ts q - e_lat q)) mod 2 ^ 64 /\
  getSentTime p mod 2 ^ 64 = (e_ts (last qs q) - (e_ts q - e_lat q)) mod 2 ^ 64 /\
  totalTime p mod 2 ^ 64 =
    (match g_con g with Some k => e_lat k | None => 0 end + getSentTime p + getWaitingTime p + getDownloadTime p) mod 2 ^ 64.
Proof.
  intros c g q qs r rs Q R p.
  assert (BQ : exists vq, buildEvs (c_snaplen c) (g_req g) = Some vq /\ v_first vq = q /\ lastTs vq = e_ts (last qs q)).
  { destruct (buildEvs (c_snaplen c) (g_req g)) as [v|] eqn:B; [|rewrite Q in B; discriminate].
    exists v. split; [reflexivity|]. destruct (buildEvs_first _ _ _ B) as (l' & L). rewrite Q in L. split; [congruence|].
    rewrite (lastTs_build _ _ _ 0 B). rewrite Q. apply lastEvTs_last. }
  assert (BR : exists vr, buildEvs (c_snaplen c) (g_resp g) = Some vr /\ v_first vr = r /\ lastTs vr = e_ts (last rs r)).
  { destruct (buildEvs (c_snaplen c) (g_resp g)) as [v|] eqn:B; [|rewrite R in B; discriminate].
    exists v. split; [reflexivity|]. destruct (buildEvs_first _ _ _ B) as (l' & L). rewrite R in L. split; [congruence|].
    rewrite (lastTs_build _ _ _ 0 B). rewrite R. apply lastEvTs_last. }
  destruct BQ as (vq & BQ & FQ & LQ). destruct BR as (vr & BR & FR & LR).
  pose proof (dur_build _ _ _ BQ) as DQ. pose proof (dur_build _ _ _ BR) as DR. rewrite FQ, LQ in DQ. rewrite FR, LR in DR.
  assert (GS : getSentTime p = s64 (evsDuration vq)) by (unfold getSentTime, p, build; cbn [p_req]; rewrite BQ; reflexivity).
  assert (GW : getWaitingTime p = s64 (e_ts r - e_lat r - e_ts (last qs q)))
    by (unfold getWaitingTime, p, build; cbn [p_req p_resp]; rewrite BQ, BR, FR, LQ; reflexivity).
  assert (GD : getDownloadTime p = s64 (evsDuration vr)) by (unfold getDownloadTime, p, build; cbn [p_resp]; rewrite BR; reflexivity).
  assert (GT : getDuration p = w64 (e_ts (last rs r) - getStartTime q))
    by (unfold getDuration, p, build; cbn [p_req p_resp]; rewrite BQ, BR, FQ, LR; reflexivity).
  assert (GT' : getDuration p = (e_ts (last rs r) - (e_ts q - e_lat q)) mod 2 ^ 64).
  { rewrite GT. unfold getStartTime, w64. rewrite Zminus_mod, Zmod_mod, <- Zminus_mod. reflexivity. }
  assert (SUM : (getSentTime p + getWaitingTime p + getDownloadTime p) mod 2 ^ 64 = getDuration p).
  { rewrite GT', GS, GW, GD.
    rewrite Zplus_mod, mod_s64, DR. rewrite <- Zplus_mod.
    replace (s64 (evsDuration vq) + s64 (e_ts r - e_lat r - e_ts (last qs q)) + (e_ts (last rs r) - e_ts r + e_lat r))
      with (s64 (evsDuration vq) + (s64 (e_ts r - e_lat r - e_ts (last qs q)) + (e_ts (last rs r) - e_ts r + e_lat r))) by lia.
    rewrite Zplus_mod, mod_s64, DQ, <- Zplus_mod.
    replace (e_ts (last qs q) - e_ts q + e_lat q + (s64 (e_ts r - e_lat r - e_ts (last qs q)) + (e_ts (last rs r) - e_ts r + e_lat r)))
      with (s64 (e_ts r - e_lat r - e_ts (last qs q)) + (e_ts (last qs q) - e_ts q + e_lat q + (e_ts (last rs r) - e_ts r + e_lat r))) by lia.
    rewrite Zplus_mod, mod_s64, <- Zplus_mod. f_equal. lia. }
  split; [exact SUM|]. split; [exact GT'|]. split.
  - rewrite GS, mod_s64, DQ. f_equal. lia.
  - unfold totalTime. rewrite mod_s64, mod_w64.
    replace (match g_con g with Some k => e_lat k | None => 0 end) with (getConnectDuration p)
      by (unfold getConnectDuration, p, build; cbn [p_con]; destruct (g_con g); reflexivity).
    replace (getConnectDuration p + getSentTime p + getWaitingTime p + getDownloadTime p)
      with (getConnectDuration p + (getSentTime p + getWaitingTime p + getDownloadTime p)) by lia.
    rewrite Zplus_mod. rewrite (Zplus_mod (getConnectDuration p) (getSentTime p + getWaitingTime p + getDownloadTime p)), SUM.
    rewrite GT' at 1. rewrite Zmod_mod, <- GT'. reflexivity.
Qed.
Print Assumptions C12_parts_add_up.

(** Timestamps of the events do not decrease, and they lie before the year 2262. *)
Definition ascending (l : list event) : Prop := forall i j a b, (i <= j)%nat -> nth_error l i = Some a -> nth_error l j = Some b -> e_ts a <= e_ts b.
Definition timely (q : event) (qs : list event) (r : event) (rs : list event) : Prop :=
  0 <= e_lat q <= e_ts q /\ ascending (q :: qs) /\ e_ts (last qs q) <= e_ts r - e_lat r /\ 0 <= e_lat r /\ ascending (r :: rs) /\
  e_ts (last rs r) < 2 ^ 63.

Lemma ascending_last l d : ascending (d :: l) -> e_ts d <= e_ts (last l d).
Proof.
  intros A. destruct (exists_last (l := d :: l)) as (l' & x & E); [discriminate|].
  assert (L : last l d = x).
  { assert (H : last (d :: l) d = x) by (rewrite E; apply last_last). destruct l; [cbn [last] in *; assumption|exact H]. }
  rewrite L. apply (A 0%nat (List.length l') d x); [lia|reflexivity|]. rewrite E. rewrite nth_error_app2 by lia. rewrite Nat.sub_diag. reflexivity.
Qed.
Lemma s64_small x : - 2 ^ 63 <= x < 2 ^ 63 -> s64 x = x.
Proof. intros H. unfold s64. rewrite Z.mod_small by lia. lia. Qed.

(** When events carry increasing timestamps nothing wraps: all parts are non-negative and mean what they say. *)
Theorem C12_exact : forall c g q qs r rs,
  g_req g = q :: qs -> g_resp g = r :: rs -> timely q qs r rs ->
  let p := build (c_snaplen c) 1 g in
  getSentTime p = e_ts (last qs q) - (e_ts q - e_lat q) /\
  getWaitingTime p = e_ts r - e_lat r - e_ts (last qs q) /\
  getDownloadTime p = e_ts (last rs r) - (e_ts r - e_lat r) /\
  getDuration p = getSentTime p + getWaitingTime p + getDownloadTime p /\
  0 <= getSentTime p /\ 0 <= getWaitingTime p /\ 0 <= getDownloadTime p.
Proof.
  intros c g q qs r rs Q R (T1 & T2 & T3 & T4 & T5 & T6) p.
  pose proof (ascending_last _ _ T2) as A1. pose proof (ascending_last _ _ T5) as A2.
  destruct (C12_parts_add_up c g q qs r rs Q R) as (P1 & P2 & P3 & _). fold p in P1, P2, P3.
  assert (SB : - 2 ^ 63 <= getSentTime p < 2 ^ 63).
  { unfold getSentTime, p, build. cbn [p_req]. rewrite Q. cbn [buildEvs]. unfold s64.
    match goal with |- context [?x mod 2 ^ 64] => pose proof (Z.mod_pos_bound x (2 ^ 64) ltac:(lia)) end. lia. }
  assert (U : forall x y, - 2 ^ 63 <= x < 2 ^ 63 -> - 2 ^ 63 <= y < 2 ^ 63 -> x mod 2 ^ 64 = y mod 2 ^ 64 -> x = y).
  { intros x y X Y E. rewrite <- (s64_small x X), <- (s64_small y Y). unfold s64. rewrite Zplus_mod, E, <- Zplus_mod. reflexivity. }
  assert (S : getSentTime p = e_ts (last qs q) - (e_ts q - e_lat q)) by (apply U; [assumption|lia|assumption]).
  assert (W : getWaitingTime p = e_ts r - e_lat r - e_ts (last qs q)).
  { unfold getWaitingTime, p, build. cbn [p_req p_resp].
    destruct (buildEvs (c_snaplen c) (g_resp g)) as [vr|] eqn:BR; [|rewrite R in BR; discriminate].
    destruct (buildEvs (c_snaplen c) (g_req g)) as [vq|] eqn:BQ; [|rewrite Q in BQ; discriminate].
    destruct (buildEvs_first _ _ _ BR) as (l' & L). rewrite R in L. assert (v_first vr = r) as -> by congruence.
    rewrite (lastTs_build _ _ _ 0 BQ), Q.
    rewrite lastEvTs_last. apply s64_small. lia. }
  assert (D : getDuration p = e_ts (last rs r) - (e_ts q - e_lat q)) by (rewrite P2; apply Z.mod_small; lia).
  assert (DB : - 2 ^ 63 <= getDownloadTime p < 2 ^ 63).
  { unfold getDownloadTime, p, build. cbn [p_resp]. rewrite R. cbn [buildEvs]. unfold s64.
    match goal with |- context [?x mod 2 ^ 64] => pose proof (Z.mod_pos_bound x (2 ^ 64) ltac:(lia)) end. lia. }
  assert (DL : getDownloadTime p = e_ts (last rs r) - (e_ts r - e_lat r)).
  { apply U; [assumption|lia|].
    assert (X : getDownloadTime p mod 2 ^ 64 = (getDuration p - getSentTime p - getWaitingTime p) mod 2 ^ 64).
    { rewrite <- P1, Zminus_mod, (Zminus_mod _ (getSentTime p)), !Zmod_mod, <- (Zminus_mod _ (getSentTime p)), <- Zminus_mod. f_equal. lia. }
    rewrite X, S, W, D. f_equal. lia. }
  rewrite S, W, DL, D. repeat split; lia.
Qed.
Print Assumptions C12_exact.

(** The same for one request and its response (UDP DNS and DNS over TCP). *)
Theorem C12_single : forall q r,
  let p := {| sp_req := q; sp_resp := Some r |} in
  (sSentTime p + sWaitingTime p + sDownloadTime p) mod 2 ^ 64 = sDuration p /\
  sDuration p = (e_ts r - (e_ts q - e_lat q)) mod 2 ^ 64.
Proof.
  intros q r p. unfold p, sSentTime, sWaitingTime, sDownloadTime, sDuration. cbn [sp_req sp_resp]. split.
  - rewrite Zplus_mod, mod_s64, <- Zplus_mod.
    replace (s64 (e_lat q) + s64 (e_ts r - e_lat r - e_ts q) + e_lat r) with (s64 (e_lat q) + (s64 (e_ts r - e_lat r - e_ts q) + e_lat r)) by lia.
    rewrite Zplus_mod, mod_s64, <- Zplus_mod.
    replace (e_lat q + (s64 (e_ts r - e_lat r - e_ts q) + e_lat r)) with (s64 (e_ts r - e_lat r - e_ts q) + (e_lat q + e_lat r)) by lia.
    rewrite Zplus_mod, mod_s64, <- Zplus_mod. unfold w64. f_equal. lia.
  - unfold w64. f_equal. lia.
Qed.
Print Assumptions C12_single.

(** *** C14 grouping *)

(** Whatever the history, the pairs handed over for connection [k], in order, are those of the conversations on [k],
    and the pair still stored under [k] is the one of the conversation going on. *)
Theorem C14_each_connection : forall c ops k,
  let '(st, out) := run c init ops in
  let '(cur, done) := talk c None (flat_map (project k) ops) in
  filter (ofKey k) out = map (build (c_snaplen c) 1) done /\
  aget (st_map st) k = option_map (build (c_snaplen c) 0) cur.
Proof.
  intros c ops k. pose proof (run_init c ops) as R. destruct (run c init ops) as (st, out).
  destruct R as (_ & _ & R). specialize (R k). destruct (talk c None (flat_map (project k) ops)) as (cur, done).
  cbn [fst snd] in R. destruct R as ((A & _) & O). split; assumption.
Qed.
Print Assumptions C14_each_connection.

Lemma sub_refl {A} (l : list A) : Subseq l l.
Proof. induction l; constructor; assumption. Qed.
Lemma sub_app {A} (a b c d : list A) : Subseq a b -> Subseq c d -> Subseq (a ++ c) (b ++ d).
Proof.
  intros S. revert c d. induction S as [l|x l m S IH|x l m S IH]; intros c d T; cbn [app].
  - induction l as [|x l IH]; cbn [app]; [assumption|]. apply sub_skip. assumption.
  - apply sub_take. auto.
  - apply sub_skip. auto.
Qed.
Lemma sub_trans {A} (a b c : list A) : Subseq a b -> Subseq b c -> Subseq a c.
Proof.
  intros S T. revert a S. induction T as [l|x l m T IH|x l m T IH]; intros a S.
  - inversion S. constructor.
  - inversion S; subst.
    + constructor.
    + apply sub_take. auto.
    + apply sub_skip. auto.
  - apply sub_skip. auto.
Qed.
Lemma sub_l {A} (a b : list A) : Subseq a (a ++ b).
Proof. rewrite <- (app_nil_r a) at 1. apply sub_app; [apply sub_refl|constructor]. Qed.
Lemma sub_r {A} (a b : list A) : Subseq b (a ++ b).
Proof. change b with ([] ++ b) at 1. apply sub_app; [constructor|apply sub_refl]. Qed.

Definition shaped (g : option conv) : Prop := match g with Some g => g_req g = [] -> g_resp g = [] | None => True end.

Lemma hand_flat g new cont :
  match new with Some n => g_resp n = [] | None => True end ->
  Subseq (flat_map flat (snd (hand g new cont)) ++ flatO (fst (hand g new cont))) (flat g ++ reqO new) /\
  shaped (fst (hand g new cont)).
Proof.
  intros N. unfold hand. destruct (cont && negb (isNil (g_req g))) eqn:C; cbn [fst snd flat_map app].
  - destruct new as [n|]; cbn [option_map flatO reqO]; unfold flat; cbn [g_req g_resp].
    + rewrite N, app_nil_r. split; [|cbn [shaped g_req g_resp]; auto].
      apply sub_app; [apply sub_l|apply sub_refl].
    + split; [constructor|exact I].
  - split.
    + destruct new as [n|]; cbn [flatO reqO]; unfold flat; [rewrite N, !app_nil_r|rewrite !app_nil_r]; apply sub_refl.
    + destruct new as [n|]; cbn [shaped]; auto.
Qed.

Lemma next_flat c g i : shaped g ->
  let '(g', o) := next c g i in
  Subseq (flat_map flat o ++ flatO g') (flatO g ++ trafficOf [i]) /\ shaped g'.
Proof.
  intros SH. destruct i as [cont [e|e|e]|cont now]; cbn [next trafficOf flat_map app].
  - set (fresh := {| g_con := Some e; g_req := []; g_resp := [] |}).
    destruct g as [g|]; [|cbn [flat_map app flatO flat fresh g_req g_resp]; split; [constructor|cbn [shaped]; auto]].
    assert (H : let '(g', o) := hand g (Some fresh) cont in
       Subseq (flat_map flat o ++ flatO g') (flatO (Some g) ++ []) /\ shaped g').
    { destruct (hand_flat g (Some fresh) cont eq_refl) as (H1 & H2). destruct (hand g (Some fresh) cont) as (g', o).
      cbn [fst snd reqO fresh g_req flatO] in *. split; assumption. }
    destruct (g_req g); [|exact H]. destruct (g_con g); [|exact H]. destruct (connectStale _ _ _); [exact H|].
    cbn [flat_map app flatO flat fresh g_req g_resp]. split; [constructor|cbn [shaped]; auto].
  - set (fresh := {| g_con := None; g_req := [e]; g_resp := [] |}).
    destruct g as [g|]; [|cbn [flat_map app flatO flat fresh g_req g_resp]; split; [apply sub_refl|cbn [shaped]; auto]].
    destruct (g_req g) as [|f l] eqn:ER.
    + cbn [flat_map app flatO flat g_req g_resp shaped]. split; [apply sub_r|auto].
    + destruct (negb (isNil (g_resp g)) || negb (e_sport e =? e_sport f)) eqn:SW.
      * destruct (hand_flat g (Some fresh) cont eq_refl) as (H1 & H2). destruct (hand g (Some fresh) cont) as (g', o).
        cbn [fst snd reqO fresh g_req flatO] in *. split; assumption.
      * apply orb_false_elim in SW. destruct SW as (SW & _). apply negb_false_iff in SW.
        assert (RN : g_resp g = []) by (destruct (g_resp g); [reflexivity|discriminate]).
        cbn [flat_map app flatO shaped g_req g_resp]. unfold flat. cbn [g_req g_resp]. rewrite RN, ER, !app_nil_r.
        split; [apply sub_refl|auto].
  - destruct g as [g|]; [|cbn [flat_map app flatO]; split; [constructor|exact I]].
    destruct (g_req g) as [|f l] eqn:ER.
    + cbn [flat_map app flatO]. split; [apply sub_l|exact SH].
    + cbn [flat_map app flatO shaped]. unfold flat. cbn [g_req g_resp]. rewrite ER, <- app_assoc. split; [apply sub_refl|]. cbn [shaped g_req g_resp]. discriminate.
  - destruct g as [g|]; [|cbn [flat_map app flatO]; split; [constructor|exact I]].
    destruct (overdue c now g).
    + destruct (hand_flat g None cont I) as (H1 & H2). destruct (hand g None cont) as (g', o). cbn [fst snd reqO flatO] in *. split; assumption.
    + cbn [flat_map app flatO]. split; [apply sub_l|exact SH].
Qed.

Lemma talk_flat c : forall l g, shaped g ->
  let '(g', o) := talk c g l in
  Subseq (flat_map flat o ++ flatO g') (flatO g ++ trafficOf l) /\ shaped g'.
Proof.
  induction l as [|i l IH]; intros g SH.
  - cbn [talk flat_map app trafficOf]. rewrite app_nil_r. split; [apply sub_refl|assumption].
  - cbn [talk]. pose proof (next_flat c g i SH) as N. destruct (next c g i) as (g1, o1). destruct N as (N1 & N2).
    specialize (IH g1 N2). destruct (talk c g1 l) as (g2, o2). destruct IH as (I1 & I2). split; [|assumption].
    rewrite flat_map_app, <- app_assoc.
    eapply sub_trans; [apply sub_app; [apply sub_refl|exact I1]|].
    rewrite app_assoc. change (i :: l) with ([i] ++ l). unfold trafficOf at 2. rewrite flat_map_app. fold (trafficOf [i]). fold (trafficOf l).
    rewrite app_assoc. apply sub_app; [exact N1|apply sub_refl].
Qed.

(** No request or response is reported twice and none is invented: the events of the reported conversations one after
    the other, then those still pending, form a subsequence of what arrived on the connection.  In particular the
    responses in a reported conversation arrived after its requests and before the requests of the next one. *)
Theorem C14_at_most_once : forall c k ops,
  let h := flat_map (project k) ops in
  let '(cur, done) := talk c None h in Subseq (flat_map flat done ++ flatO cur) (trafficOf h).
Proof.
  intros c k ops h. pose proof (talk_flat c h None I) as T. destruct (talk c None h) as (cur, done). exact (proj1 T).
Qed.
Print Assumptions C14_at_most_once.

Definition noContinue (l : list item) : Prop := forall i, In i l -> match i with IEv cont _ | ITick cont _ => cont = false end.

Lemma hand_req g new : hand g new false = (new, [g]).
Proof. reflexivity. Qed.
Lemma next_req c g i : match i with IEv cont _ | ITick cont _ => cont = false end ->
  let '(g', o) := next c g i in flat_map g_req o ++ reqO g' = reqO g ++ requestsOf [i].
Proof.
  intros NC. destruct i as [cont [e|e|e]|cont now]; subst cont; cbn [next requestsOf flat_map app]; rewrite ?app_nil_r.
  - destruct g as [g|]; [|reflexivity]. rewrite hand_req.
    destruct (g_req g) as [|q l] eqn:ER; [destruct (g_con g); [destruct (connectStale _ _ _)|]|];
      cbn [flat_map app reqO g_req]; rewrite ?ER, ?app_nil_r; reflexivity.
  - destruct g as [g|]; [|reflexivity]. rewrite hand_req.
    destruct (g_req g) as [|q l] eqn:ER; [cbn [flat_map app reqO g_req]; rewrite ER; reflexivity|].
    destruct (negb (isNil (g_resp g)) || negb (e_sport e =? e_sport q)); cbn [flat_map app reqO g_req]; rewrite ?ER, ?app_nil_r; reflexivity.
  - destruct g as [g|]; [|reflexivity]. destruct (g_req g) as [|q l] eqn:ER; cbn [flat_map app reqO g_req]; rewrite ?ER, ?app_nil_r; reflexivity.
  - destruct g as [g|]; [|reflexivity]. rewrite hand_req. destruct (overdue c now g); cbn [flat_map app reqO]; rewrite ?app_nil_r; reflexivity.
Qed.
Lemma talk_req c : forall l g, noContinue l ->
  let '(g', o) := talk c g l in flat_map g_req o ++ reqO g' = reqO g ++ requestsOf l.
Proof.
  induction l as [|i l IH]; intros g NC.
  - cbn [talk flat_map app requestsOf]. rewrite app_nil_r. reflexivity.
  - cbn [talk]. pose proof (next_req c g i (NC i (or_introl eq_refl))) as N. destruct (next c g i) as (g1, o1).
    specialize (IH g1 (fun j J => NC j (or_intror J))). destruct (talk c g1 l) as (g2, o2).
    rewrite flat_map_app, <- app_assoc, IH, app_assoc, N, <- app_assoc. f_equal.
    change (i :: l) with ([i] ++ l). unfold requestsOf. rewrite flat_map_app. reflexivity.
Qed.

(** No request gets lost: the requests of the reported conversations in order, then the pending ones, are exactly the
    requests that arrived (as long as no "100 Continue" exchange is put back). *)
Theorem C14_no_request_lost : forall c k ops,
  let h := flat_map (project k) ops in noContinue h ->
  let '(cur, done) := talk c None h in flat_map g_req done ++ reqO cur = requestsOf h.
Proof.
  intros c k ops h NC. pose proof (talk_req c h None NC) as T. destruct (talk c None h) as (cur, done). exact T.
Qed.
Print Assumptions C14_no_request_lost.

(** With "100 Continue" exchanges the requests are carried over to the next conversation (none is lost while events
    arrive; a scan that finds such a pair drops it). *)
Definition eventsOnly (l : list item) : Prop := forall i, In i l -> match i with IEv _ _ => True | ITick _ _ => False end.
Lemma hand_req_any g n cont : let '(g', o) := hand g (Some n) cont in flat_map g_req o ++ reqO g' = g_req g ++ g_req n.
Proof.
  unfold hand. destruct (cont && negb (isNil (g_req g))); cbn [option_map flat_map app reqO g_req]; [reflexivity|].
  rewrite app_nil_r. reflexivity.
Qed.
Lemma next_req_any c g cont t : let '(g', o) := next c g (IEv cont t) in flat_map g_req o ++ reqO g' = reqO g ++ requestsOf [IEv cont t].
Proof.
  destruct t as [e|e|e]; cbn [next requestsOf flat_map app]; rewrite ?app_nil_r.
  - destruct g as [g|]; [|reflexivity].
    pose proof (hand_req_any g {| g_con := Some e; g_req := []; g_resp := [] |} cont) as H. cbn [g_req] in H. rewrite app_nil_r in H.
    cbn [reqO].
    destruct (g_req g) as [|q l] eqn:ER; [|exact H].
    destruct (g_con g); [|exact H]. destruct (connectStale _ _ _); [exact H|reflexivity].
  - destruct g as [g|]; [|reflexivity].
    pose proof (hand_req_any g {| g_con := None; g_req := [e]; g_resp := [] |} cont) as H. cbn [g_req] in H.
    cbn [reqO]. destruct (g_req g) as [|q l] eqn:ER; [reflexivity|].
    destruct (negb (isNil (g_resp g)) || negb (e_sport e =? e_sport q)); [exact H|reflexivity].
  - destruct g as [g|]; [|reflexivity]. destruct (g_req g) as [|q l] eqn:ER; cbn [flat_map app reqO g_req]; rewrite ?ER, ?app_nil_r; reflexivity.
Qed.
Theorem C14_continue_carried_over : forall c k ops,
  let h := flat_map (project k) ops in eventsOnly h ->
  let '(cur, done) := talk c None h in flat_map g_req done ++ reqO cur = requestsOf h.
Proof.
  intros c k ops h EO.
  assert (G : forall l g, eventsOnly l -> let '(g', o) := talk c g l in flat_map g_req o ++ reqO g' = reqO g ++ requestsOf l).
  { clear. induction l as [|i l IH]; intros g EO.
    - cbn [talk flat_map app requestsOf]. rewrite app_nil_r. reflexivity.
    - cbn [talk]. pose proof (EO i (or_introl eq_refl)) as EI. destruct i as [cont t|]; [|contradiction].
      pose proof (next_req_any c g cont t) as N. destruct (next c g (IEv cont t)) as (g1, o1).
      specialize (IH g1 (fun j J => EO j (or_intror J))). destruct (talk c g1 l) as (g2, o2).
      rewrite flat_map_app, <- app_assoc, IH, app_assoc, N, <- app_assoc. f_equal.
      change (IEv cont t :: l) with ([IEv cont t] ++ l). unfold requestsOf. rewrite flat_map_app. reflexivity. }
  specialize (G h None EO). destruct (talk c None h) as (cur, done). exact G.
Qed.
Print Assumptions C14_continue_carried_over.

(** A scan late enough hands over everything that is pending. *)
Theorem C14_scan_flushes : forall c ops conts now,
  let '(st, _) := run c init ops in
  (forall k p, aget (st_map st) k = Some p -> getTimeoutTs p <> 0 /\
     getNoResponseThreshold c <= s64 (seconds now - seconds (s64 (getTimeoutTs p)))) ->
  st_map (fst (run c st [Tick conts now])) = [].
Proof.
  intros c ops conts now. pose proof (run_init c ops) as R. destruct (run c init ops) as (st, out).
  destruct R as (ND & _ & R). intros L.
  assert (C : Corr c st (fun k => fst (talk c None (flat_map (project k) ops)))) by (split; [assumption|]; intros k; apply R).
  pose proof (run_moves c [Tick conts now] st _ C) as M. destruct (run c st [Tick conts now]) as (st', o). destruct M as ((_ & M) & _).
  cbn [fst]. destruct (st_map st') as [|(k, p) m] eqn:EM; [reflexivity|exfalso].
  destruct (M k) as ((A & _) & _). cbn [flat_map project app] in A. rewrite EM in A. cbn [aget] in A. rewrite eqb_refl in A.
  rewrite talk_one in A. cbn [next] in A.
  destruct (fst (talk c None (flat_map (project k) ops))) as [g|] eqn:EG; [|discriminate].
  destruct (R k) as ((A0 & _) & _). rewrite EG in A0. destruct (L k _ A0) as (L1 & L2). rewrite timeoutTs_build in L1, L2.
  assert (OV : overdue c now g = true).
  { unfold overdue. rewrite (proj2 (Z.eqb_neq _ _) L1). apply orb_true_intro. right. apply Z.leb_le. exact L2. }
  rewrite OV in A. unfold hand in A. destruct (conts k && negb (isNil (g_req g))); discriminate.
Qed.
Print Assumptions C14_scan_flushes.

(** An event whose result field has its eight bytes never crashes the analyzer here. *)
Theorem C14_no_panic : forall e, Forall is_byte (getData e) -> getResVal e <> Panic -> classify e <> Panic.
Proof.
  intros e B R. unfold classify. destruct (negb (e_net e)); [discriminate|]. destruct (e_sip e); [discriminate|].
  assert (G : (if isConnect e then Ok [KConn e]
               else if getDataLen e <=? 0 then Ok []
               else match getResVal e with
                    | Panic => Panic | Err => Err
                    | Ok r => if r <? 0 then Ok []
                        else match isRequest e with
                             | Err => Err | Panic => Panic
                             | Ok true => if eqb (e_name e) "sendmmsg"
                                 then match convertSendmmsg e with Some (Ok l) => Ok (map KReq l) | Some Err => Err | Some Panic => Panic | None => Ok [] end
                                 else Ok [KReq e]
                             | Ok false => Ok [KResp e]
                             end
                    end) <> Panic).
  { destruct (isConnect e); [discriminate|]. destruct (getDataLen e <=? 0); [discriminate|].
    destruct (getResVal e) as [r| |]; [|discriminate|congruence]. destruct (r <? 0); [discriminate|].
    destruct (C54_direction e) as (_ & _ & NP). destruct (isRequest e) as [b| |]; [|discriminate|congruence].
    destruct b; [|discriminate]. destruct (eqb (e_name e) "sendmmsg") eqn:N; [|discriminate].
    unfold convertSendmmsg. rewrite N. cbn [negb]. destruct (C11_split_total _ B) as (l2 & ->). discriminate. }
  destruct (e_proto e); (discriminate || exact G).
Qed.
Print Assumptions C14_no_panic.

(** *** C16 the gauge *)
Theorem C16_gauge_is_pending : forall c ops,
  let '(st, _) := run c init ops in
  st_gauge st = zlen (st_map st) /\ NoDup (map fst (st_map st)) /\
  (forall k, In k (map fst (st_map st)) <-> fst (talk c None (flat_map (project k) ops)) <> None).
Proof.
  intros c ops. pose proof (run_init c ops) as R. destruct (run c init ops) as (st, out). destruct R as (ND & G & R).
  split; [assumption|]. split; [assumption|]. intros k. destruct (R k) as ((A & _) & _). split.
  - intros IN. destruct (in_keys_aget _ _ IN) as (v & V). rewrite A in V. destruct (fst (talk _ _ _)); [discriminate|discriminate].
  - intros NE. destruct (fst (talk c None (flat_map (project k) ops))) as [g|]; [|congruence].
    apply (aget_some_in_keys _ _ _ A).
Qed.
Print Assumptions C16_gauge_is_pending.

(** *** Examples *)
Definition netEv (name : string) (ts lat pid : Z) (data : bytes) : event :=
  {| e_name := name; e_ts := ts; e_lat := lat; e_net := true; e_params := 2;
     e_attrs := [{| kv_key := "res"; kv_type := TInt64; kv_val := leBytes 8 (zlen data) |};
                 {| kv_key := "data"; kv_type := TBytebuf; kv_val := data |}];
     e_pid := pid; e_tid := 4; e_comm := "c"; e_cid := ""; e_fd := 5; e_proto := L4Tcp; e_role := false;
     e_sip := [1]; e_dip := [2]; e_sport := 7; e_dport := 80 |}.
Definition cfg0 : config := {| c_snaplen := 4; c_connTimeout := 100; c_fdReuse := 15; c_noResp := 120; c_dnsPorts := [53] |}.
Definition noc : nat -> bool := fun _ => false.
Definition nock : key -> bool := fun _ => false.
(** Two processes; process 1 sends twice and reads twice, sends again; process 2 never gets an answer; a late scan. *)
Definition ops0 : list op :=
  [Deliver noc (netEv "write" 1000 10 1 [1; 2; 3]); Deliver noc (netEv "write" 1100 10 2 [9]);
   Deliver noc (netEv "write" 1200 10 1 [4; 5]); Deliver noc (netEv "read" 1500 20 1 [6]);
   Deliver noc (netEv "read" 1600 20 1 [7]); Deliver noc (netEv "write" 1700 10 1 [8]);
   Tick nock (200 * 1000000000)].
Example C14_example :
  let '(st, out) := run cfg0 init ops0 in
  st_map st = [] /\ st_gauge st = 0 /\
  map (fun p => (getKey p, match p_req p with Some v => evsData v | None => [] end,
                 match p_resp p with Some v => evsData v | None => [] end,
                 (getSentTime p, getWaitingTime p, getDownloadTime p, getDuration p))) out =
  [((1, 5), [1; 2; 3; 4], [6; 7], (210, 280, 120, 610)); ((1, 5), [8], [], (10, -1, -1, 0)); ((2, 5), [9], [], (10, -1, -1, 0))] /\
  noContinue (flat_map (project (1, 5)) ops0) /\
  trafficOf (flat_map (project (1, 5)) ops0) =
    [netEv "write" 1000 10 1 [1; 2; 3]; netEv "write" 1200 10 1 [4; 5]; netEv "read" 1500 20 1 [6]; netEv "read" 1600 20 1 [7]; netEv "write" 1700 10 1 [8]].
Proof.
  vm_compute. repeat split. intros i [<-|[<-|[<-|[<-|[<-|[<-|[]]]]]]]; reflexivity.
Qed.
Example C12_example :
  timely (netEv "write" 1000 10 1 [1; 2; 3]) [netEv "write" 1200 10 1 [4; 5]] (netEv "read" 1500 20 1 [6]) [netEv "read" 1600 20 1 [7]].
Proof.
  unfold timely, ascending. cbn [netEv e_lat e_ts last].
  repeat split; try lia; intros [|[|i]] [|[|j]] a b L A B; cbn [nth_error] in A, B; try discriminate;
    try (destruct i; discriminate); try (destruct j; discriminate);
    inversion A; inversion B; subst; cbn [netEv e_ts]; lia.
Qed.
(** An HTTP "100 Continue" exchange: the first pair is not reported, its request starts the next one. *)
Example C14_continue_example :
  let ops := [Deliver noc (netEv "write" 1000 10 1 [1]); Deliver noc (netEv "read" 1100 10 1 [2]);
              Deliver (fun _ => true) (netEv "write" 1200 10 1 [3]); Deliver noc (netEv "read" 1300 10 1 [4]); Tick nock (200 * 1000000000)] in
  map (fun p => (match p_req p with Some v => evsData v | None => [] end, match p_resp p with Some v => evsData v | None => [] end))
      (snd (run cfg0 init ops)) = [([1; 3], [4])].
Proof. reflexivity. Qed.
