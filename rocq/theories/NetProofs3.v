(** The conversations of NetModel.v and what their records add up to. *)
From Coq Require Import Sorting.Permutation.
From Verif Require Import Base Decimal AttrModel PoolModel KeyModel KeyProps AggModel AggSpec AggProofs SampleModel K8sModel EnrichModel EnrichSpec EventModel TcpModel PipeModel
  AdapterModel AdapterSpec OtelModel OtelSpec FlowModel FlowSpec PairModel PairSpec PairProofs PairProps MsgModel TextModel LabelNames DetectModel DetectProps RecordModel RecordSpec RecordProofs RecordProps NetModel NetSpec NetProofs NetProofs2.
Open Scope string_scope. Open Scope list_scope. Open Scope Z_scope.

(** ** Arithmetic modulo 2^64 *)
Definition eqm (a b : Z) : Prop := a mod 2 ^ 64 = b mod 2 ^ 64.
Lemma eqm_s64 a b : eqm a b -> s64 a = s64 b.
Proof. unfold eqm, s64. intros E. rewrite (Z.add_mod a), (Z.add_mod b), E by lia. reflexivity. Qed.
Lemma s64_eqm a : eqm (s64 a) a.
Proof. unfold eqm. apply mod_s64. Qed.
Lemma w64_eqm a : eqm (w64 a) a.
Proof. unfold eqm, w64. apply Z.mod_mod. lia. Qed.
Lemma eqm_refl a : eqm a a.
Proof. reflexivity. Qed.
Lemma eqm_trans a b c : eqm a b -> eqm b c -> eqm a c.
Proof. unfold eqm. congruence. Qed.
Lemma eqm_add a b c d : eqm a b -> eqm c d -> eqm (a + c) (b + d).
Proof. unfold eqm. intros A B. rewrite (Z.add_mod a), (Z.add_mod b), A, B by lia. reflexivity. Qed.
Lemma eqm_sum {A} (f g : A -> Z) l : (forall x, In x l -> eqm (f x) (g x)) -> eqm (zsum (map f l)) (zsum (map g l)).
Proof.
  induction l as [|x l IH]; intros H; [reflexivity|]. cbn [map]. rewrite !zsum_cons. apply eqm_add; [apply H; left; reflexivity|apply IH; intros y Y; apply H; right; exact Y].
Qed.

(** ** Conversations *)
Definition okConv (P : event -> Prop) (g : conv) : Prop :=
  opener g <> None /\ (g_req g = [] -> g_resp g = []) /\ (forall e, g_con g = Some e -> P e) /\ Forall P (g_req g) /\ Forall P (g_resp g) /\
  (forall a l, g_req g = a :: l -> Forall (fun e => e_sport e = e_sport a) l).
Definition okO (P : event -> Prop) (o : option conv) : Prop := match o with Some g => okConv P g | None => True end.
Definition itemOk (P : event -> Prop) (i : item) : Prop := match i with IEv b t => b = false /\ P (tokEv t) | ITick b _ => b = false end.
Lemma ok_fresh_con (P : event -> Prop) e : P e -> okConv P {| g_con := Some e; g_req := []; g_resp := [] |}.
Proof.
  intros H. unfold okConv. cbn [opener g_req g_con g_resp]. split; [discriminate|]. split; [reflexivity|]. split; [intros e' E; injection E as <-; exact H|]. split; [constructor|]. split; [constructor|discriminate].
Qed.
Lemma ok_fresh_req (P : event -> Prop) e : P e -> okConv P {| g_con := None; g_req := [e]; g_resp := [] |}.
Proof.
  intros H. unfold okConv. cbn [opener g_req g_con g_resp]. split; [discriminate|]. split; [reflexivity|]. split; [discriminate|]. split; [constructor; [exact H|constructor]|]. split; [constructor|].
  intros a l E. injection E as <- <-. constructor.
Qed.
Lemma next_ok (P : event -> Prop) c cur i : itemOk P i -> okO P cur -> let '(g, out) := next c cur i in okO P g /\ Forall (okConv P) out.
Proof.
  assert (H : forall g new, okConv P g -> okO P new -> let '(g', out) := hand g new false in okO P g' /\ Forall (okConv P) out) by (intros g new A B; cbn; split; [exact B|constructor; [exact A|constructor]]).
  destruct i as [b t|b now]; cbn [itemOk].
  - intros (-> & PT) CUR. destruct t as [e|e|e]; cbn [tokEv] in PT; cbn [next].
    + destruct cur as [g|]; [|split; [apply ok_fresh_con; exact PT|constructor]].
      destruct (g_req g); [destruct (g_con g); [destruct (connectStale _ _ _)|]|];
        first [apply H; [exact CUR|apply ok_fresh_con; exact PT]|split; [apply ok_fresh_con; exact PT|constructor]].
    + destruct cur as [g|]; [|split; [apply ok_fresh_req; exact PT|constructor]].
      destruct CUR as (O & NR & PC & PQ & PR & SP). destruct (g_req g) as [|f l] eqn:Q.
      * split; [|constructor]. unfold okO, okConv. cbn [opener g_req g_con g_resp app]. split; [discriminate|]. split; [reflexivity|]. split; [exact PC|]. split; [constructor; [exact PT|constructor]|]. split; [constructor|]. intros a l' E. injection E as <- <-. constructor.
      * destruct (negb (isNil (g_resp g)) || negb (e_sport e =? e_sport f)) eqn:T.
        -- apply H; [|apply ok_fresh_req; exact PT]. unfold okConv. rewrite Q. repeat split; assumption.
        -- apply orb_false_iff in T. destruct T as [_ T]. apply negb_false_iff in T. apply Z.eqb_eq in T. split; [|constructor].
           unfold okO, okConv. cbn [g_req g_resp g_con opener app]. split; [discriminate|]. split; [discriminate|]. split; [exact PC|]. split; [|split; [constructor|]].
           ++ change (f :: l ++ [e]) with ((f :: l) ++ [e]). apply Forall_app. split; [exact PQ|constructor; [exact PT|constructor]].
           ++ intros a l' E. injection E as <- <-. apply Forall_app. split; [exact (SP _ _ eq_refl)|constructor; [exact T|constructor]].
    + destruct cur as [g|]; [|split; [exact Logic.I|constructor]]. destruct CUR as (O & NR & PC & PQ & PR & SP). destruct (g_req g) as [|f l] eqn:Q.
      * split; [|constructor]. unfold okO, okConv. rewrite Q. repeat split; assumption.
      * split; [|constructor]. unfold okO, okConv. cbn [g_req g_resp g_con opener]. split; [discriminate|]. split; [discriminate|]. split; [exact PC|]. split; [exact PQ|]. split; [|exact SP].
        apply Forall_app. split; [exact PR|constructor; [exact PT|constructor]].
  - intros -> CUR. cbn [next]. destruct cur as [g|]; [|split; [exact Logic.I|constructor]]. destruct (overdue c now g); [apply H; [exact CUR|exact Logic.I]|split; [exact CUR|constructor]].
Qed.
Lemma talk_ok (P : event -> Prop) c : forall l cur, Forall (itemOk P) l -> okO P cur -> okO P (fst (talk c cur l)) /\ Forall (okConv P) (snd (talk c cur l)).
Proof.
  induction l as [|i l IH]; intros cur F O; cbn [talk]; [split; [exact O|constructor]|]. inversion F as [|? ? F1 F2]; subst.
  pose proof (next_ok P c cur i F1 O) as N. destruct (next c cur i) as [g1 o1]. destruct N as [N1 N2]. specialize (IH g1 F2 N1). destruct (talk c g1 l) as [g2 o2]. cbn [fst snd] in *.
  split; [apply IH|]. apply Forall_app. split; [exact N2|apply IH].
Qed.
Lemma talk_ticks c : forall l, Forall (fun i => match i with ITick _ _ => True | IEv _ _ => False end) l -> talk c None l = (None, []).
Proof. induction l as [|i l IH]; intros F; [reflexivity|]. inversion F as [|? ? F1 F2]; subst. destruct i; [destruct F1|]. cbn [talk next]. rewrite IH by exact F2. reflexivity. Qed.

(** the items of a history *)
Lemma happens_items (P : event -> Prop) k os : (forall t, In t (flat_map tokensOf os) -> P (tokEv t)) -> Forall (itemOk P) (flat_map (happens k) os).
Proof.
  intros H. apply Forall_forall. intros i J. apply in_flat_map in J. destruct J as (o & O & J). destruct o as [ms e|ms now]; cbn [happens] in J.
  - apply in_flat_map in J. destruct J as (t & T & J). destruct (eqb k (evKey (tokEv t))); [|destruct J]. destruct J as [<-|[]]. split; [reflexivity|]. apply H. apply in_flat_map. exists (NEvent ms e). auto.
  - destruct J as [<-|[]]. reflexivity.
Qed.
Lemma happens_key (P : event -> Prop) k os : (forall t, In t (flat_map tokensOf os) -> P (tokEv t)) -> Forall (itemOk (fun e => P e /\ evKey e = k)) (flat_map (happens k) os).
Proof.
  intros H. apply Forall_forall. intros i J. apply in_flat_map in J. destruct J as (o & O & J). destruct o as [ms e|ms now]; cbn [happens] in J.
  - apply in_flat_map in J. destruct J as (t & T & J). case_eqb k (evKey (tokEv t)); [|destruct J]. destruct J as [<-|[]]. split; [reflexivity|]. split; [|congruence]. apply H. apply in_flat_map. exists (NEvent ms e). auto.
  - destruct J as [<-|[]]. reflexivity.
Qed.
Lemma happens_other k os : ~ In k (connections os) -> Forall (fun i => match i with ITick _ _ => True | IEv _ _ => False end) (flat_map (happens k) os).
Proof.
  intros N. apply Forall_forall. intros i J. apply in_flat_map in J. destruct J as (o & O & J). destruct o as [ms e|ms now]; cbn [happens] in J.
  - apply in_flat_map in J. destruct J as (t & T & J). case_eqb k (evKey (tokEv t)); [|destruct J]. exfalso. apply N. unfold connections. rewrite distinct_in.
    apply in_map_iff. exists t. split; [congruence|]. apply in_flat_map. exists (NEvent ms e). auto.
  - destruct J as [<-|[]]. exact Logic.I.
Qed.
(** the events of a history *)
Lemma In_firstn {A} (x : A) : forall n l, In x (firstn n l) -> In x l.
Proof. induction n as [|n IH]; intros l J; [destruct J|]. destruct l as [|y l]; [destruct J|]. destruct J as [->|J]; [left; reflexivity|right; apply IH; exact J]. Qed.
Lemma In_skipn {A} (x : A) : forall n l, In x (skipn n l) -> In x l.
Proof. induction n as [|n IH]; intros l J; [exact J|]. destruct l as [|y l]; [destruct J|]. right. apply IH. exact J. Qed.
Lemma data_set e k v : Forall is_byte v -> Forall is_byte (EventModel.getData e) -> Forall is_byte (EventModel.getData (setUserAttribute e k v)).
Proof.
  intros V D. unfold EventModel.getData, getStringUserAttribute in *. rewrite (proj1 (EventProps.C09_set_then_get e k v)). case_eqb "data" k; [|exact D]. destruct (getUserAttribute e "data"); [exact V|constructor].
Qed.
Lemma sameFields_set e k v : Forall is_byte v -> goodEvent e -> goodEvent (setUserAttribute e k v).
Proof.
  intros V (A & B & C & D & F). pose proof (data_set e k v V F) as X. unfold setUserAttribute in *. destruct (e_params e =? 0); (split; [exact A|]; split; [exact B|]; split; [exact C|]; split; [exact D|exact X]).
Qed.
Lemma bytes_le n : forall v, Forall is_byte (leBytes n v).
Proof. induction n as [|n IH]; intros v; cbn [leBytes]; constructor; [|apply IH]. unfold is_byte. pose proof (Z.mod_pos_bound v 256 ltac:(lia)). lia. Qed.
Lemma bytes_slice d i j : Forall is_byte d -> Forall is_byte (slice d i j).
Proof. intros F. unfold slice. rewrite Forall_forall in *. intros x J. apply F. apply In_firstn in J. apply In_skipn in J. exact J. Qed.
Lemma split_bytes f : forall d l, Forall is_byte d -> splitLoop f d = Some (Ok l) -> Forall (Forall is_byte) l.
Proof.
  assert (NIL : forall l : list bytes, Some (Ok []) = Some (Ok l) -> Forall (Forall is_byte) l) by (intros l E; injection E as <-; apply Forall_nil).
  induction f as [|f IH]; intros d l F E; cbn [splitLoop] in E; (destruct d as [|x d']; [apply NIL; exact E|]); destruct (zlen (x :: d') <=? 4); try (apply NIL; exact E);
    (destruct (bind _ _) as [sz| |]; try discriminate); (cbv zeta in E; destruct (if 4 + sz <? zlen (x :: d') then gslice (x :: d') 4 (4 + sz) else gslice (x :: d') 4 (zlen (x :: d'))) as [c| |] eqn:C; try discriminate).
  destruct (splitLoop f _) as [[r| |]|] eqn:R; try discriminate. injection E as <-. apply Forall_cons.
  - destruct (4 + sz <? zlen (x :: d')); apply gslice_inv in C; destruct C as (_ & _ & _ & ->); apply bytes_slice; exact F.
  - eapply IH; [|exact R]. rewrite Forall_forall in *. intros y Y. apply F. apply In_skipn in Y. exact Y.
Qed.
Lemma classify_good e l t : goodEvent e -> classify e = Ok l -> In t l -> goodEvent (tokEv t).
Proof.
  intros G C J. unfold classify in C. destruct (negb (e_net e)); [injection C as <-; destruct J|]. destruct (e_sip e); [injection C as <-; destruct J|].
  assert (X : (if isConnect e then Ok [KConn e] else if getDataLen e <=? 0 then Ok []
       else match getResVal e with
            | Ok r => if r <? 0 then Ok [] else match isRequest e with
                | Ok true => if eqb (e_name e) "sendmmsg" then match convertSendmmsg e with Some (Ok l) => Ok (map KReq l) | Some Err => Err | Some Panic => Panic | None => Ok [] end else Ok [KReq e]
                | Ok false => Ok [KResp e] | Err => Err | Panic => Panic end
            | Err => Err | Panic => Panic end) = Ok l \/ l = []).
  { destruct (e_proto e); first [right; congruence|left; exact C]. }
  clear C. destruct X as [C| ->]; [|destruct J]. destruct (isConnect e); [injection C as <-; destruct J as [<-|[]]; exact G|].
  destruct (getDataLen e <=? 0); [injection C as <-; destruct J|]. destruct (getResVal e) as [r| |]; try discriminate. destruct (r <? 0); [injection C as <-; destruct J|].
  destruct (isRequest e) as [[|]| |]; try discriminate.
  - destruct (eqb (e_name e) "sendmmsg"); [|injection C as <-; destruct J as [<-|[]]; exact G].
    unfold convertSendmmsg in C. destruct (negb _); [injection C as <-; destruct J|]. destruct (splitDataBytes _) as [[bs'| |]|] eqn:SP; try discriminate.
    + injection C as <-. rewrite map_map in J. apply in_map_iff in J. destruct J as (b & <- & JB). cbn [tokEv].
      unfold splitDataBytes in SP. apply split_bytes in SP; [|apply G]. rewrite Forall_forall in SP. apply sameFields_set; [exact (SP b JB)|]. apply sameFields_set; [exact (bytes_le 8 (zlen b))|exact G].
    + injection C as <-. destruct J.
  - injection C as <-. destruct J as [<-|[]]. exact G.
Qed.
Lemma tokens_good os : Forall goodNop os -> forall t, In t (flat_map tokensOf os) -> goodEvent (tokEv t).
Proof.
  intros F t J. apply in_flat_map in J. destruct J as (o & O & J). rewrite Forall_forall in F. specialize (F o O). destruct o as [ms e|ms now]; [|destruct J]. cbn [tokensOf] in J.
  destruct (classify e) as [l| |] eqn:C; try destruct J. destruct F as [F _]. eapply classify_good; eassumption.
Qed.
