(** Lemmas about NetModel.v. *)
From Verif Require Import Base Decimal AttrModel PoolModel KeyModel KeyProps AggModel AggSpec AggProofs SampleModel K8sModel EnrichModel EnrichSpec EventModel TcpModel PipeModel
  AdapterModel AdapterSpec OtelModel OtelSpec FlowModel FlowSpec PairModel PairSpec PairProofs PairProps MsgModel TextModel LabelNames DetectModel DetectProps RecordModel RecordSpec RecordProofs RecordProps NetModel NetSpec.
Open Scope string_scope. Open Scope list_scope. Open Scope Z_scope.

(** ** The pairs handed over *)
Definition plainOp (o : nop) : op := match o with NEvent _ e => Deliver (fun _ => false) e | NScan _ now => Tick (fun _ => false) now end.

Lemma report_pair an m d x en d' : report an m d x = Ok (en, d') -> en_pair en = x.
Proof.
  unfold report. destruct (parseProtocols _ _ _ _ _ _) as [[v s]| |]; cbn [bind fst snd]; try discriminate.
  destruct v as [|p q|p].
  - destruct (getConnectFail _ _) as [l| |]; cbn [bind]; try discriminate. intros E. injection E as <- <-. reflexivity.
  - destruct q as [l| |]; cbn [bind]; try discriminate. intros E. injection E as <- <-. reflexivity.
  - destruct (getRecords _ _ _ _ _ _) as [l| |]; cbn [bind]; try discriminate. intros E. injection E as <- <-. reflexivity.
Qed.
Lemma distribute_one st old new cont x l : snd (distribute st old new cont) = x :: l -> l = [].
Proof.
  unfold distribute. destruct (p_con old), (p_req old); try discriminate; destruct (negb (checkSend old)); try discriminate;
    try (destruct cont); try (destruct (aget _ _)); cbn [snd]; congruence.
Qed.
Lemma analyse_one c st cont t x l : snd (analyse c st cont t) = x :: l -> l = [].
Proof.
  destruct t as [e|e|e]; cbn [analyse]; [unfold analyseConnect|unfold analyseRequest|discriminate].
  - destruct (aget _ _) as [old|]; [|discriminate]. destruct (p_req old); [apply distribute_one|]. destruct (p_con old); [|apply distribute_one].
    destruct (isTimeout _ _ _); [apply distribute_one|discriminate].
  - destruct (aget _ _) as [old|]; [|discriminate]. destruct (p_req old); [|destruct (p_con old); discriminate].
    destruct (_ || _); [apply distribute_one|discriminate].
Qed.
Definition allSent (l : list entry) : Prop := Forall (fun e => en_back e = false) l.
Lemma tok_pairs an n m t es n' : netTok an n m t = Ok (es, n') -> allSent es ->
  analyse (an_conf an) (n_pairs n) false t = (n_pairs n', map en_pair es).
Proof.
  unfold netTok. destruct (analyse (an_conf an) (n_pairs n) false t) as [st out] eqn:A. destruct out as [|x out].
  - intros E _. injection E as <- <-. reflexivity.
  - destruct (report an m (n_detect n) x) as [[en d]| |] eqn:R; cbn [bind fst snd]; try discriminate. intros E S. injection E as <- <-.
    inversion S as [|? ? B _]; subst. rewrite B, A. cbn [fst n_pairs map]. rewrite (report_pair _ _ _ _ _ _ R).
    rewrite (analyse_one (an_conf an) (n_pairs n) false t x out) by (rewrite A; reflexivity). reflexivity.
Qed.
Lemma toks_pairs an ms : forall l n i es n', netToks an n ms i l = Ok (es, n') -> allSent es ->
  analyseAll (an_conf an) (n_pairs n) (fun _ => false) i l = (n_pairs n', map en_pair es).
Proof.
  induction l as [|t l IH]; intros n i es n' E S; cbn [netToks analyseAll] in *; [injection E as <- <-; reflexivity|].
  destruct (netTok an n (ms i) t) as [[e1 n1]| |] eqn:T; cbn [bind fst snd] in E; try discriminate.
  destruct (netToks an n1 ms (Datatypes.S i) l) as [[e2 n2]| |] eqn:T2; cbn [bind fst snd] in E; try discriminate. injection E as <- <-.
  apply Forall_app in S. destruct S as [S1 S2]. rewrite (tok_pairs _ _ _ _ _ _ T S1). rewrite (IH _ _ _ _ T2 S2). rewrite map_app. reflexivity.
Qed.
Lemma scan_pairs an ms now : forall l n es n' acc, netScan an n ms now l = Ok (es, n') -> allSent es ->
  fold_left (scanEntry (an_conf an) now (fun _ => false)) l (n_pairs n, acc) = (n_pairs n', acc ++ map en_pair es).
Proof.
  induction l as [|[k p] l IH]; intros n es n' acc E S; cbn [netScan fold_left] in *; [injection E as <- <-; rewrite app_nil_r; reflexivity|].
  unfold scanEntry at 2. cbn [fst snd]. destruct (expired (an_conf an) now p); [|apply IH; assumption].
  destruct (distribute (n_pairs n) p None false) as [st out] eqn:D. destruct out as [|x out].
  - rewrite app_nil_r. exact (IH _ _ _ acc E S).
  - destruct (report an (ms k) (n_detect n) x) as [[en d]| |] eqn:R; cbn [bind fst snd] in E; try discriminate.
    destruct (netScan an _ ms now l) as [[e2 n2]| |] eqn:T; cbn [bind fst snd] in E; try discriminate. injection E as <- <-.
    inversion S as [|? ? B S2]; subst. rewrite B, D in T. cbn [fst] in T. specialize (IH _ _ _ (acc ++ [x]) T S2). cbn [n_pairs] in IH.
    rewrite (distribute_one (n_pairs n) p None false x out) by (rewrite D; reflexivity). rewrite IH. cbn [map]. rewrite (report_pair _ _ _ _ _ _ R), <- app_assoc. reflexivity.
Qed.
Lemma step_pairs an n o es n' : netStep an n o = Ok (es, n') -> allSent es ->
  step (an_conf an) (n_pairs n) (plainOp o) = (n_pairs n', map en_pair es).
Proof.
  destruct o as [ms e|ms now]; cbn [netStep plainOp step].
  - destruct (classify e) as [l| |]; [|intros E _; injection E as <- <-; reflexivity|discriminate]. apply toks_pairs.
  - intros E S. exact (scan_pairs an ms now _ _ _ _ [] E S).
Qed.
Lemma run_pairs an : forall os n es n', netRun an n os = Ok (es, n') -> allSent es ->
  run (an_conf an) (n_pairs n) (map plainOp os) = (n_pairs n', map en_pair es).
Proof.
  induction os as [|o os IH]; intros n es n' E S; cbn [netRun map run] in *; [injection E as <- <-; reflexivity|].
  destruct (netStep an n o) as [[e1 n1]| |] eqn:T; cbn [bind fst snd] in E; try discriminate.
  destruct (netRun an n1 os) as [[e2 n2]| |] eqn:T2; cbn [bind fst snd] in E; try discriminate. injection E as <- <-.
  apply Forall_app in S. destruct S as [S1 S2]. rewrite (step_pairs _ _ _ _ _ T S1), (IH _ _ _ T2 S2), map_app. reflexivity.
Qed.
Lemma happens_project k o : happens k o = project k (plainOp o).
Proof.
  destruct o as [ms e|ms now]; cbn [happens plainOp project tokensOf]; [|reflexivity].
  destruct (classify e) as [l| |]; try reflexivity. generalize 0%nat. induction l as [|t l IH]; intros n; cbn [flat_map numbered]; [reflexivity|]. rewrite (IH (S n)). reflexivity.
Qed.
Lemma happens_all k os : flat_map (happens k) os = flat_map (project k) (map plainOp os).
Proof. induction os as [|o os IH]; cbn [flat_map map]; [reflexivity|]. rewrite happens_project, IH. reflexivity. Qed.

(** ** Distinct keys *)
Lemma distinct_in k l : In k (distinctKeys l) <-> In k l.
Proof.
  induction l as [|x l IH]; [reflexivity|]. cbn [distinctKeys]. destruct (existsb (eqb x) l) eqn:E.
  - rewrite IH. split; [right; assumption|]. intros [<-|J]; [|exact J]. apply existsb_exists in E. destruct E as (y & Y & Q). apply eqb_true in Q. congruence.
  - cbn [In]. rewrite IH. reflexivity.
Qed.
Lemma distinct_nodup l : NoDup (distinctKeys l).
Proof.
  induction l as [|x l IH]; [constructor|]. cbn [distinctKeys]. destruct (existsb (eqb x) l) eqn:E; [exact IH|]. constructor; [|exact IH].
  rewrite distinct_in. intros J. assert (X : existsb (eqb x) l = true) by (apply existsb_exists; exists x; split; [exact J|apply eqb_refl]). congruence.
Qed.
(** summing by key *)
Lemma zsum_by_key {A} (f : A -> Z) (kof : A -> key) : forall K, NoDup K -> forall l, (forall x, In x l -> In (kof x) K) ->
  zsum (map f l) = zsum (map (fun k => zsum (map f (filter (fun x => eqb k (kof x)) l))) K).
Proof.
  intros K ND l. induction l as [|x l IH]; intros I; cbn [map filter].
  - clear. induction K as [|k K IH]; [reflexivity|]. cbn [map]. rewrite zsum_cons, <- IH. reflexivity.
  - rewrite zsum_cons, IH by (intros y Y; apply I; right; exact Y). specialize (I x (or_introl eq_refl)). clear IH.
    induction K as [|k K IHK]; [destruct I|]. inversion ND as [|? ? NI ND']; subst. cbn [map]. rewrite !zsum_cons. case_eqb k (kof x).
    + subst k. cbn [map]. rewrite zsum_cons. assert (X : zsum (map (fun k => zsum (map f (if eqb k (kof x) then x :: filter (fun y => eqb k (kof y)) l else filter (fun y => eqb k (kof y)) l))) K) =
         zsum (map (fun k => zsum (map f (filter (fun y => eqb k (kof y)) l))) K)).
      { f_equal. apply map_ext_in. intros k J. case_eqb k (kof x); [congruence|reflexivity]. }
      rewrite X. lia.
    + destruct I as [->|I]; [congruence|]. specialize (IHK ND' I). lia.
Qed.
