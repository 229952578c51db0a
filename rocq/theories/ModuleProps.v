(** C50: starting and stopping the profiling module. *)
From Coq Require Import Permutation.
From Verif Require Import Base ModuleModel.
Open Scope string_scope. Open Scope list_scope. Open Scope Z_scope.

(** ** Specification *)
(** Every pass over the sub-modules visits each of them once. *)
Definition validReq (subs : list string) (r : req) : Prop :=
  match r with RStart _ order _ => Permutation order subs | RStop order _ => Permutation order subs | _ => True end.
Definition validOp (subs : list string) (o : mop) : Prop :=
  match o with MReq r => validReq subs r | MAutoStop _ order _ => Permutation order subs | _ => True end.
(** The calls a sub-module saw: [true] for a start, [false] for a stop. *)
Definition calls (name : string) (log : list mev) : list bool :=
  flat_map (fun e => match e with Began l _ => map (fun _ => true) (filter (eqb name) l) | Ended l _ => map (fun _ => false) (filter (eqb name) l) end) log.
(** Every automatic stop directly follows the start that armed it. *)
Definition ownSession (log : list mev) : Prop :=
  forall pre l i post, log = pre ++ Ended l (Some i) :: post -> exists pre' l' ws, pre = pre' ++ [Began l' ws] /\ In i ws.
(** No start takes effect while a goroutine of an earlier session has not finished. *)
Fixpoint prompt (s : mst) (ops : list mop) : Prop :=
  match ops with
  | [] => True
  | o :: ops' =>
    (match o with MReq (RStart _ _ _) => m_running s = false -> Forall (eq Finished) (m_watch s) | _ => True end) /\
    (match mstep s o with Ok (s', _) => prompt s' ops' | _ => True end)
  end.
Definition noFileWatch (o : mop) : Prop := match o with MReq (RStart (Some j) _ _) => o_fileWatch j = false | _ => True end.

(** ** Alternation *)
Lemma filter_once (name : string) subs order : NoDup subs -> In name subs -> Permutation order subs -> filter (eqb name) order = [name].
Proof.
  intros ND I P. assert (ND' : NoDup order) by (eapply Permutation_NoDup; [apply Permutation_sym; exact P|exact ND]).
  assert (I' : In name order) by (eapply Permutation_in; [apply Permutation_sym; exact P|exact I]). clear ND I P.
  induction order as [|x l IH]; [destruct I'|]. inversion ND' as [|? ? NI N2]; subst. cbn [filter]. case_eqb name x.
  - subst x. f_equal. clear IH I' ND'. induction l as [|y l IH]; [reflexivity|]. cbn [filter]. case_eqb name y; [exfalso; apply NI; left; congruence|].
    apply IH; [|inversion N2; assumption]. intros X. apply NI. right. exact X.
  - destruct I' as [I'|I']; [congruence|]. apply IH; assumption.
Qed.
Lemma calls_app name a b : calls name (a ++ b) = calls name a ++ calls name b.
Proof. unfold calls. apply flat_map_app. Qed.

Definition alternates (running : bool) (c : list bool) : Prop := exists n, c = List.concat (repeat [true; false] n) ++ (if running then [true] else []).
Lemma alt_start c : alternates false c -> alternates true (c ++ [true]).
Proof. intros (n & ->). exists n. rewrite app_nil_r. reflexivity. Qed.
Lemma alt_stop c : alternates true c -> alternates false (c ++ [false]).
Proof.
  intros (n & ->). exists (S n). rewrite app_nil_r, <- app_assoc. cbn [app]. induction n as [|n IH]; [reflexivity|].
  cbn [repeat List.concat app] in *. f_equal. f_equal. exact IH.
Qed.

Lemma setPc_same s i p : m_running (setPc s i p) = m_running s /\ m_log (setPc s i p) = m_log s /\ m_chan (setPc s i p) = m_chan s /\ m_closed (setPc s i p) = m_closed s /\ m_chans (setPc s i p) = m_chans s.
Proof. repeat split. Qed.

Lemma doStop_cases s order fails by_ s' e : doStop s order fails by_ = Ok (s', e) ->
  (m_running s = false /\ s' = s /\ e = true) \/
  (m_running s = true /\ exists k, m_chan s = Some k /\ m_running s' = false /\ m_chan s' = m_chan s /\ m_chans s' = m_chans s /\ m_closed s' = k :: m_closed s /\
    m_watch s' = m_watch s /\ m_log s' = m_log s ++ [Ended order by_] /\ e = existsb fails order).
Proof.
  unfold doStop. destruct (m_running s); [|intros X; inversion X; subst; left; auto]. unfold closeChan. destruct (m_chan s) as [k|]; [|discriminate].
  destruct (existsb (Nat.eqb k) (m_closed s)); [discriminate|]. cbn [bind]. intros X. inversion X; subst. right. split; [reflexivity|]. exists k. repeat split.
Qed.
(** The effect of a step on what is visible: nothing, a start or a stop. *)
Lemma mstep_effect s o s' a : mstep s o = Ok (s', a) ->
  (m_running s' = m_running s /\ m_log s' = m_log s) \/
  (m_running s = false /\ m_running s' = true /\ exists order ws, m_log s' = m_log s ++ [Began order ws] /\ forall subs, validOp subs o -> Permutation order subs) \/
  (m_running s = true /\ m_running s' = false /\ exists order b, m_log s' = m_log s ++ [Ended order b] /\ forall subs, validOp subs o -> Permutation order subs).
Proof.
  intros H. destruct o as [[o order fails|order fails| |]|i|i|i|i order fails]; cbn [mstep handRequest] in H.
  - destruct (getOptions o) as [ds| |]; cbn [bind] in H; try discriminate. unfold doStart in H. destruct (m_running s) eqn:R; inversion H; subst; [left; auto|].
    right. left. split; [reflexivity|]. split; [reflexivity|]. do 2 eexists. split; [reflexivity|]. intros subs V. exact V.
  - destruct (doStop s order fails None) as [[s1 e]| |] eqn:D; cbn [bind] in H; try discriminate. inversion H; subst.
    apply doStop_cases in D. destruct D as [(R & -> & _)|(R & k & _ & R' & _ & _ & _ & _ & L & _)]; [left; auto|].
    right. right. split; [exact R|]. split; [exact R'|]. do 2 eexists. split; [exact L|]. intros subs V. exact V.
  - inversion H; subst. left. auto.
  - inversion H; subst. left. auto.
  - inversion H; subst. left. destruct (nth_error (m_watch s) i) as [[]|]; auto.
  - inversion H; subst. left. destruct (nth_error (m_watch s) i) as [[]|]; auto.
  - inversion H; subst. left. destruct (nth_error (m_watch s) i) as [[|c| |]|]; auto. destruct (isClosed s c); auto.
  - destruct (nth_error (m_watch s) i) as [[|c| |]|]; try (inversion H; subst; left; auto; fail).
    destruct (doStop s order fails (Some i)) as [[s1 e]| |] eqn:D; cbn [bind] in H; try discriminate. inversion H; subst.
    apply doStop_cases in D. destruct D as [(R & -> & _)|(R & k & _ & R' & _ & _ & _ & _ & L & _)]; [left; auto|].
    right. right. split; [exact R|]. split; [exact R'|]. do 2 eexists. split; [exact L|]. intros subs V. exact V.
Qed.

Lemma run_alternates subs name : NoDup subs -> In name subs -> forall ops s s' rs, Forall (validOp subs) ops -> mrun s ops = Ok (s', rs) ->
  alternates (m_running s) (calls name (m_log s)) -> alternates (m_running s') (calls name (m_log s')).
Proof.
  intros ND I. induction ops as [|o ops IH]; intros s s' rs V R A; cbn [mrun] in R; [inversion R; subst; exact A|].
  inversion V as [|? ? V1 V2]; subst. destruct (mstep s o) as [[s1 a]| |] eqn:M; cbn [bind] in R; try discriminate.
  destruct (mrun s1 ops) as [[s2 l]| |] eqn:RR; cbn [bind] in R; try discriminate. inversion R; subst. apply (IH _ _ _ V2 RR). clear IH RR R.
  destruct (mstep_effect _ _ _ _ M) as [(-> & ->)|[(R0 & -> & order & ws & -> & P)|(R0 & -> & order & b & -> & P)]]; [exact A| |]; rewrite R0 in A; rewrite calls_app.
  - replace (calls name [Began order ws]) with [true]; [apply alt_start; exact A|]. unfold calls. cbn [flat_map].
    rewrite (filter_once name subs order ND I (P subs V1)). reflexivity.
  - replace (calls name [Ended order b]) with [false]; [apply alt_stop; exact A|]. unfold calls. cbn [flat_map].
    rewrite (filter_once name subs order ND I (P subs V1)). reflexivity.
Qed.

(** Whatever requests and timers come in whatever order, every sub-module is started and stopped strictly alternately,
    beginning with a start, and it is started last exactly when the module says it is running. *)
Theorem C50_alternate : forall subs ops s rs name, NoDup subs -> In name subs -> Forall (validOp subs) ops ->
  mrun (newModule false) ops = Ok (s, rs) ->
  exists n, calls name (m_log s) = List.concat (repeat [true; false] n) ++ (if m_running s then [true] else []).
Proof. intros subs ops s rs name ND I V R. apply (run_alternates subs name ND I ops _ _ _ V R). exists 0%nat. reflexivity. Qed.
Print Assumptions C50_alternate.

(** ** No panic *)
Definition chansOk (s : mst) : Prop :=
  (forall k, In k (m_closed s) -> (k < m_chans s)%nat) /\ (m_running s = true -> exists k, m_chan s = Some k /\ (k < m_chans s)%nat /\ ~ In k (m_closed s)).
Lemma existsb_in k l : existsb (Nat.eqb k) l = false -> ~ In k l.
Proof. intros E I. assert (existsb (Nat.eqb k) l = true) by (apply existsb_exists; exists k; split; [exact I|apply Nat.eqb_refl]). congruence. Qed.
Lemma doStop_ok s order fails b : chansOk s -> exists s' e, doStop s order fails b = Ok (s', e) /\ chansOk s'.
Proof.
  intros (C & R). unfold doStop. destruct (m_running s) eqn:Q; [|exists s, true; split; [reflexivity|]; split; [exact C|rewrite Q; discriminate]].
  destruct (R eq_refl) as (k & E & LT & NI). unfold closeChan. rewrite E. destruct (existsb (Nat.eqb k) (m_closed s)) eqn:X.
  - exfalso. apply existsb_exists in X. destruct X as (x & Ix & X). apply Nat.eqb_eq in X. subst x. contradiction.
  - cbn [bind]. do 2 eexists. split; [reflexivity|]. split; cbn; [|discriminate]. intros j [<-|J]; [exact LT|apply C; exact J].
Qed.
Lemma setPc_chans s i p : chansOk s -> chansOk (setPc s i p).
Proof. intros (C & R). split; [exact C|exact R]. Qed.
Lemma mstep_ok s o : chansOk s -> noFileWatch o -> exists s' a, mstep s o = Ok (s', a) /\ chansOk s'.
Proof.
  intros C NF. destruct o as [[o order fails|order fails| |]|i|i|i|i order fails]; cbn [mstep handRequest].
  - assert (G : exists ds, getOptions o = Ok ds). { destruct o as [j|]; [|eexists; reflexivity]. cbn in NF |- *. rewrite NF. eexists. reflexivity. }
    destruct G as (ds & ->). cbn [bind]. unfold doStart. destruct (m_running s) eqn:R; [do 2 eexists; split; [reflexivity|exact C]|].
    do 2 eexists. split; [reflexivity|]. destruct C as (C & _). split; cbn.
    + intros k I. specialize (C k I). lia.
    + intros _. exists (m_chans s). split; [reflexivity|]. split; [lia|]. intros I. specialize (C _ I). lia.
  - destruct (doStop_ok s order fails None C) as (s' & e & -> & C'). cbn [bind]. do 2 eexists. split; [reflexivity|exact C'].
  - do 2 eexists. split; [reflexivity|exact C].
  - do 2 eexists. split; [reflexivity|exact C].
  - do 2 eexists. split; [reflexivity|]. destruct (nth_error (m_watch s) i) as [[]|]; exact C.
  - do 2 eexists. split; [reflexivity|]. destruct (nth_error (m_watch s) i) as [[]|]; exact C.
  - do 2 eexists. split; [reflexivity|]. destruct (nth_error (m_watch s) i) as [[|c| |]|]; try exact C. destruct (isClosed s c); exact C.
  - destruct (nth_error (m_watch s) i) as [[|c| |]|]; try (do 2 eexists; split; [reflexivity|exact C]).
    destruct (doStop_ok s order fails (Some i) C) as (s' & e & -> & C'). cbn [bind]. do 2 eexists. split; [reflexivity|apply setPc_chans; exact C'].
Qed.
(** A module created stopped never panics (no channel is closed twice or before it exists), unless a file watch is asked for. *)
Theorem C50_no_panic : forall ops, Forall noFileWatch ops -> exists s rs, mrun (newModule false) ops = Ok (s, rs).
Proof.
  intros ops. assert (C : chansOk (newModule false)). { split; cbn; [intros k []|discriminate]. }
  revert C. generalize (newModule false). induction ops as [|o ops IH]; intros s C F; cbn [mrun]; [do 2 eexists; reflexivity|].
  inversion F as [|? ? F1 F2]; subst. destruct (mstep_ok s o C F1) as (s1 & a & -> & C1). cbn [bind]. destruct (IH s1 C1 F2) as (s2 & rs & ->).
  cbn [bind]. do 2 eexists. reflexivity.
Qed.
Print Assumptions C50_no_panic.
(** A module created started panics on its first stop: there is no channel to close. *)
Theorem C50_created_started_refuted : forall order fails, mstep (newModule true) (MReq (RStop order fails)) = Panic.
Proof. reflexivity. Qed.
Print Assumptions C50_created_started_refuted.
(** A start that asks for the option file_watch panics: the option is not implemented. *)
Theorem C50_file_watch_refuted : forall s d order fails, mstep s (MReq (RStart (Some {| o_dur := d; o_fileWatch := true |}) order fails)) = Panic.
Proof. reflexivity. Qed.
Print Assumptions C50_file_watch_refuted.

(** ** Requests *)
(** What each request answers and does, in every state: a start while running and a stop while stopped change nothing
    and answer with an error. *)
Theorem C50_requests : forall s r s' a, handRequest s r = Ok (s', a) ->
  match r with
  | RStart o order fails =>
      (m_running s = true -> s' = s /\ r_code a = 2) /\
      (m_running s = false -> m_running s' = true /\ r_code a = (if existsb fails order then 2 else 1) /\ exists ws, m_log s' = m_log s ++ [Began order ws])
  | RStop order fails =>
      (m_running s = false -> s' = s /\ r_code a = 3) /\
      (m_running s = true -> m_running s' = false /\ r_code a = (if existsb fails order then 3 else 1) /\ m_log s' = m_log s ++ [Ended order None])
  | RStatus => s' = s /\ r_code a = 1 /\ r_running a = Some (m_running s)
  | ROther => s' = s /\ r_code a = 4
  end.
Proof.
  intros s [o order fails|order fails| |] s' a H; cbn [handRequest] in H.
  - destruct (getOptions o) as [ds| |]; cbn [bind] in H; try discriminate. unfold doStart in H. destruct (m_running s); inversion H; subst; (split; [intros Q|intros Q]); try discriminate.
    + auto.
    + split; [reflexivity|]. split; [cbn; destruct (existsb fails order); reflexivity|]. eexists. reflexivity.
  - destruct (doStop s order fails None) as [[s1 e]| |] eqn:D; cbn [bind] in H; try discriminate. inversion H; subst.
    apply doStop_cases in D. destruct D as [(R & -> & ->)|(R & k & _ & R' & _ & _ & _ & _ & L & ->)]; (split; intros Q; [|]); try congruence.
    + auto.
    + split; [exact R'|]. split; [cbn; destruct (existsb fails order); reflexivity|exact L].
  - inversion H; subst. auto.
  - inversion H; subst. auto.
Qed.
Print Assumptions C50_requests.
(** So a start can be answered with an error although the module, and with it every other sub-module, now runs. *)
Theorem C50_failed_start_runs_refuted : exists order fails s a, handRequest (newModule false) (RStart None order fails) = Ok (s, a) /\ r_code a = 2 /\ m_running s = true.
Proof. exists ["cpu"; "trace"], (eqb "cpu"). do 2 eexists. split; [reflexivity|]. split; reflexivity. Qed.
Print Assumptions C50_failed_start_runs_refuted.
(** A start arms exactly one automatic stop when a positive duration is decoded, and none for one that is not understood. *)
Theorem C50_armed : forall s o order fails s' a, m_running s = false -> handRequest s (RStart (Some o) order fails) = Ok (s', a) ->
  m_watch s' = m_watch s ++ (if 0 <? durationOf (o_dur o) then [Fresh] else []) /\ (o_dur o = DText None \/ o_dur o = DOther -> m_watch s' = m_watch s).
Proof.
  intros s o order fails s' a R H. cbn [handRequest getOptions] in H. destruct (o_fileWatch o); cbn [bind] in H; [discriminate|]. unfold doStart in H. rewrite R in H.
  assert (W : m_watch s' = m_watch s ++ (if 0 <? durationOf (o_dur o) then [Fresh] else [])).
  { inversion H; subst. cbn [m_watch]. destruct (0 <? durationOf (o_dur o)); reflexivity. }
  split; [exact W|]. intros D. rewrite W. destruct D as [-> | ->]; apply app_nil_r.
Qed.
Print Assumptions C50_armed.

(** ** Automatic stops *)
Lemma upd_nth {A} (l : list A) i p x : nth_error l i = Some x -> forall j, nth_error (firstn i l ++ p :: skipn (S i) l) j = if Nat.eqb j i then Some p else nth_error l j.
Proof.
  revert i. induction l as [|y l IH]; intros i H j; [destruct i; discriminate|]. destruct i as [|i]; cbn [firstn skipn app].
  - destruct j; reflexivity.
  - destruct j; [reflexivity|]. cbn [nth_error Nat.eqb]. apply IH. exact H.
Qed.
Definition live (s : mst) (ws : list nat) : Prop := forall i p, nth_error (m_watch s) i = Some p -> p <> Finished -> In i ws.
Definition promptInv (s : mst) : Prop :=
  ownSession (m_log s) /\
  (m_running s = true -> exists pre l ws, m_log s = pre ++ [Began l ws] /\ live s ws) /\
  (forall i c, nth_error (m_watch s) i = Some (Waiting c) -> c = m_chan s) /\
  (m_watch s <> [] -> m_chan s <> None) /\
  (m_running s = false -> forall k, m_chan s = Some k -> In k (m_closed s)).
Lemma own_began log l ws : ownSession log -> ownSession (log ++ [Began l ws]).
Proof.
  intros O pre l0 i post E. destruct (exists_last (l := Ended l0 (Some i) :: post)) as (q & x & Q); [discriminate|]. rewrite Q, app_assoc in E.
  apply app_inj_tail in E. destruct E as [E <-]. destruct q as [|y q]; [cbn in Q; discriminate|]. cbn [app] in Q. injection Q as <- ->. apply (O pre l0 i q). exact E.
Qed.
Lemma own_ended log l b : ownSession log -> (forall i, b = Some i -> exists pre l' ws, log = pre ++ [Began l' ws] /\ In i ws) -> ownSession (log ++ [Ended l b]).
Proof.
  intros O H pre l0 i post E. destruct (exists_last (l := Ended l0 (Some i) :: post)) as (q & x & Q); [discriminate|]. rewrite Q, app_assoc in E.
  apply app_inj_tail in E. destruct E as [E <-]. destruct q as [|y q].
  - cbn [app] in Q. injection Q as Q1 Q2 Q3. rewrite app_nil_r in E. rewrite <- E. apply H. congruence.
  - cbn [app] in Q. injection Q as <- ->. apply (O pre l0 i q). exact E.
Qed.
Lemma setPc_inv s i x p : nth_error (m_watch s) i = Some x -> x <> Finished -> (forall c, p = Waiting c -> c = m_chan s) -> promptInv s -> promptInv (setPc s i p).
Proof.
  intros N NX P (A & B & C & D & E). split; [exact A|]. split; [|split; [|split; [|exact E]]].
  - intros R. destruct (B R) as (pre & l & ws & L & V). exists pre, l, ws. split; [exact L|]. intros j q G NQ. cbn [m_watch setPc] in G.
    rewrite (upd_nth _ _ _ _ N) in G. destruct (Nat.eqb_spec j i) as [->|NE]; [exact (V i x N NX)|exact (V j q G NQ)].
  - intros j c G. cbn [m_watch setPc] in G. rewrite (upd_nth _ _ _ _ N) in G. destruct (Nat.eqb_spec j i) as [->|NE]; [injection G as ->; exact (P c eq_refl)|exact (C j c G)].
  - intros _. apply D. intros W. rewrite W in N. destruct i; discriminate.
Qed.
Lemma stop_inv s order fails b s' e : doStop s order fails b = Ok (s', e) -> promptInv s ->
  (forall i, b = Some i -> exists p, nth_error (m_watch s) i = Some p /\ p <> Finished) -> promptInv s'.
Proof.
  intros D (A & B & C & W & E) H. destruct (doStop_cases _ _ _ _ _ _ D) as [(R & -> & _)|(R & k & K & R' & C' & _ & CL & WW & L & _)]; [repeat split; assumption|].
  destruct (B R) as (pre & l & ws & LG & V). split; [|split; [|split; [|split]]].
  - rewrite L. apply own_ended; [exact A|]. intros i Hi. destruct (H i Hi) as (p & Np & NF). exists pre, l, ws. split; [exact LG|exact (V i p Np NF)].
  - congruence.
  - rewrite WW, C'. exact C.
  - rewrite WW, C'. exact W.
  - intros _ j J. rewrite CL. left. congruence.
Qed.
Lemma mstep_inv s o s' a : promptInv s -> mstep s o = Ok (s', a) ->
  (match o with MReq (RStart _ _ _) => m_running s = false -> Forall (eq Finished) (m_watch s) | _ => True end) -> promptInv s'.
Proof.
  intros I H P. destruct o as [[o order fails|order fails| |]|i|i|i|i order fails]; cbn [mstep handRequest] in H.
  - destruct (getOptions o) as [ds| |]; cbn [bind] in H; try discriminate. unfold doStart in H. destruct (m_running s) eqn:R; inversion H; subst; [exact I|].
    destruct I as (A & B & C & W & E). specialize (P eq_refl). split; [apply own_began; exact A|]. cbn [m_running m_log m_watch m_chan m_closed].
    assert (F : forall i p, nth_error (m_watch s ++ repeat Fresh (Datatypes.length ds)) i = Some p -> p <> Finished -> p = Fresh /\ In i (seq (Datatypes.length (m_watch s)) (Datatypes.length ds))).
    { intros i p G NF. destruct (Nat.lt_ge_cases i (List.length (m_watch s))) as [LT|GE].
      - rewrite nth_error_app1 in G by exact LT. rewrite Forall_forall in P. apply nth_error_In, P in G. congruence.
      - rewrite nth_error_app2 in G by exact GE. pose proof (nth_error_In _ _ G) as RI. apply repeat_spec in RI. split; [exact RI|].
        assert (i - List.length (m_watch s) < List.length (repeat Fresh (Datatypes.length ds)))%nat by (apply nth_error_Some; congruence).
        rewrite repeat_length in H0. apply in_seq. lia. }
    split; [|split; [|split]].
    + intros _. do 3 eexists. split; [reflexivity|]. intros i p G NF. exact (proj2 (F i p G NF)).
    + intros i c G. destruct (F i _ G) as [X _]; discriminate.
    + discriminate.
    + discriminate.
  - destruct (doStop s order fails None) as [[s1 e]| |] eqn:D; cbn [bind] in H; try discriminate. inversion H; subst.
    apply (stop_inv _ _ _ _ _ _ D I). discriminate.
  - inversion H; subst. exact I.
  - inversion H; subst. exact I.
  - inversion H; subst. destruct (nth_error (m_watch s) i) as [[]|] eqn:N; try exact I. apply (setPc_inv _ _ _ _ N); [discriminate|congruence|exact I].
  - inversion H; subst. destruct (nth_error (m_watch s) i) as [[]|] eqn:N; try exact I. apply (setPc_inv _ _ _ _ N); [discriminate|congruence|exact I].
  - inversion H; subst. destruct (nth_error (m_watch s) i) as [[|c| |]|] eqn:N; try exact I. destruct (isClosed s c); [|exact I]. apply (setPc_inv _ _ _ _ N); [discriminate|congruence|exact I].
  - destruct (nth_error (m_watch s) i) as [[|c| |]|] eqn:N; try (inversion H; subst; exact I).
    destruct (doStop s order fails (Some i)) as [[s1 e]| |] eqn:D; cbn [bind] in H; try discriminate. inversion H; subst.
    assert (I1 : promptInv s1). { apply (stop_inv _ _ _ _ _ _ D I). intros j J. injection J as <-. exists Firing. split; [exact N|discriminate]. }
    assert (N1 : nth_error (m_watch s1) i = Some Firing).
    { destruct (doStop_cases _ _ _ _ _ _ D) as [(_ & -> & _)|(_ & k & _ & _ & _ & _ & _ & -> & _)]; exact N. }
    apply (setPc_inv _ _ _ _ N1); [discriminate|congruence|exact I1].
Qed.
Lemma newModule_inv : promptInv (newModule false).
Proof.
  split; [|split; [|split; [|split]]]; cbn; try discriminate; try congruence.
  - intros pre l i post E. destruct pre; discriminate.
  - intros [|i] c; discriminate.
Qed.
Lemma mrun_inv : forall ops s s' rs, promptInv s -> prompt s ops -> mrun s ops = Ok (s', rs) -> promptInv s'.
Proof.
  induction ops as [|o ops IH]; intros s s' rs I P R; cbn [mrun prompt] in *; [inversion R; subst; exact I|].
  destruct P as [P1 P2]. destruct (mstep s o) as [[s1 a]| |] eqn:M; cbn [bind] in R; try discriminate.
  destruct (mrun s1 ops) as [[s2 l]| |] eqn:RR; cbn [bind] in R; try discriminate. inversion R; subst.
  apply (IH _ _ _ (mstep_inv _ _ _ _ I M P1) P2 RR).
Qed.
(** If the goroutines of a session finish before the next session starts, an automatic stop only ever ends the session it
    was armed for. *)
Theorem C50_own_session : forall ops s rs, prompt (newModule false) ops -> mrun (newModule false) ops = Ok (s, rs) -> ownSession (m_log s).
Proof. intros ops s rs P R. exact (proj1 (mrun_inv _ _ _ _ newModule_inv P R)). Qed.
Print Assumptions C50_own_session.
(** ... and once the session has ended they can: each of them reaches its end by its own steps, which change nothing else. *)
Theorem C50_can_finish : forall ops s rs i p, prompt (newModule false) ops -> mrun (newModule false) ops = Ok (s, rs) -> m_running s = false ->
  nth_error (m_watch s) i = Some p -> p <> Finished ->
  exists steps s', (steps = [MEnter i; MClear i] \/ steps = [MClear i] \/ steps = [MAutoStop i [] (fun _ => false)]) /\ mrun s steps = Ok (s', []) /\
    s' = setPc s i Finished.
Proof.
  intros ops s rs i p P R ST N NF. destruct (mrun_inv _ _ _ _ newModule_inv P R) as (_ & _ & C & W & E).
  assert (CH : isClosed s (m_chan s) = true).
  { destruct (m_chan s) as [k|] eqn:K.
    - cbn. apply existsb_exists. exists k. split; [apply (E ST); reflexivity|apply Nat.eqb_refl].
    - exfalso. apply W; [|reflexivity]. intros X. rewrite X in N. destruct i; discriminate. }
  destruct p as [|c| |].
  - exists [MEnter i; MClear i]. eexists. split; [auto|]. cbn [mrun mstep bind]. rewrite N. cbn [mrun mstep bind].
    assert (N1 : nth_error (m_watch (setPc s i (Waiting (m_chan s)))) i = Some (Waiting (m_chan s))) by (cbn [setPc m_watch]; rewrite (upd_nth _ _ _ _ N), Nat.eqb_refl; reflexivity).
    rewrite N1. unfold isClosed in *. cbn [setPc m_closed] in *. rewrite CH. split; [reflexivity|].
    unfold setPc. cbn [m_running m_chan m_chans m_closed m_watch m_log]. f_equal.
    assert (LT : (i < List.length (m_watch s))%nat) by (apply nth_error_Some; congruence).
    rewrite firstn_app, firstn_firstn, Nat.min_id, firstn_length_le by lia. rewrite Nat.sub_diag. cbn [firstn]. rewrite app_nil_r. f_equal. f_equal.
    rewrite skipn_app. rewrite skipn_all2 by (rewrite firstn_length_le; lia). rewrite firstn_length_le by lia.
    replace (S i - i)%nat with 1%nat by lia. reflexivity.
  - exists [MClear i]. eexists. split; [auto|]. cbn [mrun mstep bind]. rewrite N. rewrite (C i c N), CH. split; reflexivity.
  - exists [MAutoStop i [] (fun _ => false)]. eexists. split; [auto|]. cbn [mrun mstep bind]. rewrite N. unfold doStop. rewrite ST. cbn [bind]. split; reflexivity.
  - congruence.
Qed.
Print Assumptions C50_can_finish.

(** Otherwise an automatic stop may end a later session: here the timer of the first session fires just as that session is
    stopped by hand, and its stop comes when the second one runs ... *)
Theorem C50_stale_timer_refuted : exists ops s rs, mrun (newModule false) ops = Ok (s, rs) /\ Forall (validOp ["cpu"]) ops /\ Forall (fun r => r_code r = 1) rs /\ ~ ownSession (m_log s).
Proof.
  exists [MReq (RStart (Some {| o_dur := DNum 5; o_fileWatch := false |}) ["cpu"] (fun _ => false)); MEnter 0; MFire 0; MReq (RStop ["cpu"] (fun _ => false));
     MReq (RStart None ["cpu"] (fun _ => false)); MAutoStop 0 ["cpu"] (fun _ => false)].
  do 2 eexists. split; [vm_compute; reflexivity|]. split; [repeat (apply Forall_cons; [first [exact I|apply Permutation_refl]|]); apply Forall_nil|].
  split; [repeat (apply Forall_cons; [reflexivity|]); apply Forall_nil|]. cbn [m_log]. intros O.
  destruct (O [Began ["cpu"] [0%nat]; Ended ["cpu"] None; Began ["cpu"] []] ["cpu"] 0%nat [] eq_refl) as (pre & l & ws & E & I).
  change [Began ["cpu"] [0%nat]; Ended ["cpu"] None; Began ["cpu"] []] with ([Began ["cpu"] [0%nat]; Ended ["cpu"] None] ++ [Began ["cpu"] []]) in E.
  apply app_inj_tail in E. destruct E as [_ E]. injection E as _ <-. destruct I.
Qed.
Print Assumptions C50_stale_timer_refuted.
(** ... and here the first session's goroutine only gets to run in the second session, so it waits for that session's end. *)
Theorem C50_late_goroutine_refuted : exists ops s rs, mrun (newModule false) ops = Ok (s, rs) /\ Forall (validOp ["cpu"]) ops /\ Forall (fun r => r_code r = 1) rs /\ ~ ownSession (m_log s) /\
  (forall i, In (MFire i) ops -> exists a b, ops = a ++ MEnter i :: MFire i :: b).
Proof.
  exists [MReq (RStart (Some {| o_dur := DNum 5; o_fileWatch := false |}) ["cpu"] (fun _ => false)); MReq (RStop ["cpu"] (fun _ => false));
     MReq (RStart None ["cpu"] (fun _ => false)); MEnter 0; MFire 0; MAutoStop 0 ["cpu"] (fun _ => false)].
  do 2 eexists. split; [vm_compute; reflexivity|]. split; [repeat (apply Forall_cons; [first [exact I|apply Permutation_refl]|]); apply Forall_nil|].
  split; [repeat (apply Forall_cons; [reflexivity|]); apply Forall_nil|]. split.
  - cbn [m_log]. intros O.
    destruct (O [Began ["cpu"] [0%nat]; Ended ["cpu"] None; Began ["cpu"] []] ["cpu"] 0%nat [] eq_refl) as (pre & l & ws & E & I).
    change [Began ["cpu"] [0%nat]; Ended ["cpu"] None; Began ["cpu"] []] with ([Began ["cpu"] [0%nat]; Ended ["cpu"] None] ++ [Began ["cpu"] []]) in E.
    apply app_inj_tail in E. destruct E as [_ E]. injection E as _ <-. destruct I.
  - intros i H. cbn [In] in H. destruct H as [H|[H|[H|[H|[H|[H|[]]]]]]]; try discriminate. injection H as <-. do 2 eexists. cbn [app].
    match goal with |- ?a :: ?b :: ?c :: ?r = _ => instantiate (2 := [a; b; c]) end. reflexivity.
Qed.
Print Assumptions C50_late_goroutine_refuted.

Example exModule : let subs := ["cpu"; "trace"] in
  let ops := [MReq (RStart (Some {| o_dur := DText (Some 5); o_fileWatch := false |}) ["trace"; "cpu"] (fun _ => false)); MReq (RStart None subs (fun _ => false)); MEnter 0; MFire 0;
     MAutoStop 0 subs (fun _ => false); MReq (RStop subs (fun _ => false)); MReq (RStart None subs (fun _ => false)); MReq RStatus] in
  Forall (validOp subs) ops /\ prompt (newModule false) ops /\ exists s rs, mrun (newModule false) ops = Ok (s, rs) /\ map r_code rs = [1; 2; 3; 1; 1] /\ calls "cpu" (m_log s) = [true; false; true].
Proof.
  cbn zeta. split; [|split].
  - repeat (apply Forall_cons; [first [exact I|apply Permutation_refl|apply perm_swap]|]). apply Forall_nil.
  - cbn. repeat split; intros; try discriminate; repeat constructor.
  - do 2 eexists. split; [vm_compute; reflexivity|]. split; reflexivity.
Qed.
