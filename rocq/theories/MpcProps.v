(** C76: a collector that gets its metadata from the provider: what a connection does, wherever it breaks, and what follows. *)
From Verif Require Import Base K8sModel SnapModel MpcModel MpcSpec.
Open Scope string_scope. Open Scope list_scope. Open Scope Z_scope.

Lemma readLine_whole l : forall acc, ~ In 10 l -> readLine acc l = (rev acc ++ l, []).
Proof.
  induction l as [|c l IH]; intros acc N; cbn [readLine]; [rewrite app_nil_r; reflexivity|]. destruct (Z.eqb_spec c 10) as [->|NE]; [destruct N; left; reflexivity|].
  rewrite IH by (intros J; apply N; right; exact J). cbn [rev]. rewrite <- app_assoc. reflexivity.
Qed.
Lemma readLine_line l r : forall acc, ~ In 10 l -> readLine acc (l ++ 10 :: r) = (rev acc ++ l, r).
Proof.
  induction l as [|c l IH]; intros acc N; cbn [readLine app]; [rewrite Z.eqb_refl, app_nil_r; reflexivity|]. destruct (Z.eqb_spec c 10) as [->|NE]; [destruct N; left; reflexivity|].
  rewrite IH by (intros J; apply N; right; exact J). cbn [rev]. rewrite <- app_assoc. reflexivity.
Qed.
Lemma lines_part l : forall acc, ~ In 10 l -> lines acc l = [].
Proof.
  induction l as [|c l IH]; intros acc N; cbn [lines]; [reflexivity|]. destruct (Z.eqb_spec c 10) as [->|NE]; [destruct N; left; reflexivity|]. apply IH. intros J; apply N; right; exact J.
Qed.
Lemma lines_line l r : forall acc, ~ In 10 l -> lines acc (l ++ 10 :: r) = (rev acc ++ l) :: lines [] r.
Proof.
  induction l as [|c l IH]; intros acc N; cbn [lines app]; [rewrite Z.eqb_refl, app_nil_r; reflexivity|]. destruct (Z.eqb_spec c 10) as [->|NE]; [destruct N; left; reflexivity|].
  rewrite IH by (intros J; apply N; right; exact J). cbn [rev]. rewrite <- app_assoc. reflexivity.
Qed.
Lemma firstn_notin {A} (x : A) n l : ~ In x l -> ~ In x (firstn n l).
Proof. intros N J. apply N. rewrite <- (firstn_skipn n l). apply in_or_app. left. exact J. Qed.
Definition textOf {A} (enc : A -> bytes) (l : list A) : bytes := flat_map (fun a => enc a ++ [10]) l.
(** the lines of a part of a sequence of lines *)
Lemma lines_cut {A} (enc : A -> bytes) (l : list A) : Forall (fun a => ~ In 10 (enc a)) l -> forall n, exists j, (j <= List.length l)%nat /\
  lines [] (firstn n (textOf enc l)) = map enc (firstn j l) /\
  forall i, (0 < i <= List.length l)%nat -> ((i <= j)%nat <-> (List.length (textOf enc (firstn i l)) <= n)%nat).
Proof.
  unfold textOf. induction l as [|a l IH]; intros F n; [exists O; split; [auto|]; rewrite firstn_nil; split; [reflexivity|]; cbn [List.length]; intros i J; lia|]. inversion F as [|? ? N F']; subst. cbn [flat_map].
  destruct (Nat.leb_spec (S (List.length (enc a))) n) as [L|L].
  - destruct (IH F' (n - S (List.length (enc a)))%nat) as (j & J1 & J2 & J3). exists (S j). split; [cbn [List.length]; lia|]. split.
    + rewrite firstn_app, firstn_all2 by (rewrite app_length; cbn [List.length]; lia). rewrite <- app_assoc. cbn [app]. rewrite lines_line by exact N. cbn [rev app firstn map]. f_equal.
      rewrite app_length. cbn [List.length]. replace (n - (List.length (enc a) + 1))%nat with (n - S (List.length (enc a)))%nat by lia. exact J2.
    + intros [|i] I; [lia|]. cbn [firstn flat_map List.length] in *. rewrite !app_length. cbn [List.length]. destruct i as [|i]; [cbn [firstn flat_map List.length]; lia|].
      specialize (J3 (S i) ltac:(lia)). lia.
  - exists O. split; [lia|]. split.
    + cbn [firstn map]. apply lines_part. rewrite <- app_assoc, firstn_app. rewrite in_app_iff. intros [J|J]; [exact (firstn_notin _ _ _ N J)|].
      replace (n - List.length (enc a))%nat with O in J by lia. destruct J.
    + intros [|i] I; [lia|]. cbn [firstn flat_map]. rewrite !app_length. cbn [List.length]. lia.
Qed.

Section Stream.
  Context (decL : bytes -> option snapshot) (decVO : bytes -> option vo)
          (decPod : bytes -> option pod) (decSvc : bytes -> option service) (decRs : bytes -> option replicaset) (decNode : bytes -> option node).
  Context (encL : snapshot -> bytes) (encVO : vo -> bytes)
          (encPod : pod -> bytes) (encSvc : service -> bytes) (encRs : replicaset -> bytes) (encNode : node -> bytes)
          (latePod : pod -> bytes) (lateSvc : service -> bytes) (lateRs : replicaset -> bytes) (lateNode : node -> bytes).
  Notation connect := (listAndWatch decL decVO decPod decSvc decRs decNode).
  Notation msg := (message encPod encSvc encRs encNode latePod lateSvc lateRs lateNode).
  Notation stream := (stream encL encVO encPod encSvc encRs encNode latePod lateSvc lateRs lateNode).
  (** JSON does for a change what it is needed to do. *)
  Definition changeOk (e : pevent) : Prop :=
    lineOk encVO decVO (msg e) /\
    match e with
    | EPod c => objectOk encPod latePod decPod noPod c
    | ESvc c => objectOk encSvc lateSvc decSvc noSvc c
    | ERs c => objectOk encRs lateRs decRs noRs c
    | ENode c => objectOk encNode lateNode decNode noNode c
    end.
  Lemma unwrap_ok {O} t enc late dec (none : O) add update del c : objectOk enc late dec none c ->
    unwrap dec add update del (voOf t enc late c) = Some (match c with CAdd o => add o | CUpdate a b => update a b | CDelete o => del o | CLate _ => del none end).
  Proof.
    unfold unwrap. destruct c as [o|a b|o|o]; cbn [objectOk voOf v_op v_new v_old]; intros H.
    - change (eqb (bs "add") (bs "add")) with true. cbn iota. rewrite H. reflexivity.
    - change (eqb (bs "update") (bs "add")) with false. change (eqb (bs "update") (bs "update")) with true. cbn iota. destruct H as [-> ->]. reflexivity.
    - change (eqb (bs "delete") (bs "add")) with false. change (eqb (bs "delete") (bs "update")) with false. change (eqb (bs "delete") (bs "delete")) with true. cbn iota. rewrite H. reflexivity.
    - change (eqb (bs "delete") (bs "add")) with false. change (eqb (bs "delete") (bs "update")) with false. change (eqb (bs "delete") (bs "delete")) with true. cbn iota. rewrite H. reflexivity.
  Qed.
  Lemma type_voOf {O} t enc late (c : change O) : v_type (voOf t enc late c) = t.
  Proof. destruct c; reflexivity. Qed.
  Lemma apply_ok e : changeOk e -> applyVO decPod decSvc decRs decNode (msg e) = Ok (Some (eventOf e)).
  Proof.
    intros [_ H]. unfold applyVO. destruct e as [c|c|c|c]; cbn [message]; rewrite type_voOf.
    - change (eqb (bs "pod") (bs "pod")) with true. cbn iota. rewrite (unwrap_ok _ _ _ _ noPod) by exact H. destruct c; reflexivity.
    - change (eqb (bs "service") (bs "pod")) with false. change (eqb (bs "service") (bs "service")) with true. cbn iota. rewrite (unwrap_ok _ _ _ _ noSvc) by exact H. destruct c; reflexivity.
    - change (eqb (bs "rs") (bs "pod")) with false. change (eqb (bs "rs") (bs "service")) with false. change (eqb (bs "rs") (bs "rs")) with true. cbn iota. rewrite (unwrap_ok _ _ _ _ noRs) by exact H. destruct c; reflexivity.
    - change (eqb (bs "node") (bs "pod")) with false. change (eqb (bs "node") (bs "service")) with false. change (eqb (bs "node") (bs "rs")) with false. change (eqb (bs "node") (bs "node")) with true. cbn iota.
      rewrite (unwrap_ok _ _ _ _ noNode) by exact H. destruct c; reflexivity.
  Qed.
  Lemma watch_ok es : Forall changeOk es -> watchLoop decVO decPod decSvc decRs decNode (map (fun e => encVO (msg e)) es) = (map (fun e => AEvent (eventOf e)) es, Ended).
  Proof.
    induction es as [|e es IH]; intros F; [reflexivity|]. inversion F as [|? ? H F']; subst. cbn [map watchLoop]. destruct H as [[H1 H2] H3]. rewrite H2.
    rewrite (apply_ok e) by (split; [split; assumption|exact H3]). rewrite IH by exact F'. reflexivity.
  Qed.
  (** Wherever the connection breaks: before the snapshot has arrived nothing is changed and the attempt has failed; then the caches are loaded
      from the snapshot, and exactly the changes whose line has arrived as a whole are applied, in order; nothing stops the collector. *)
  Theorem C76_cut code s es n : code <> 500 -> lineOk encL decL s -> wholeOnly encL decL s -> Forall changeOk es ->
    let r := connect (Response code (firstn n (stream s es))) in
    if (n <? List.length (encL s))%nat then r = ([], Failed)
    else exists j, (j <= List.length es)%nat /\ r = (ASetup s :: map (fun e => AEvent (eventOf e)) (firstn j es), Ended) /\
           forall i, (0 < i <= List.length es)%nat -> ((i <= j)%nat <-> (List.length (stream s (firstn i es)) <= n)%nat).
  Proof.
    intros NC (N1 & D1) W F r. subst r. unfold listAndWatch. rewrite (proj2 (Z.eqb_neq _ _) NC). unfold MpcModel.stream. destruct (Nat.ltb_spec n (List.length (encL s))) as [L|L].
    - rewrite firstn_app. replace (n - List.length (encL s))%nat with O by lia. cbn [firstn]. rewrite app_nil_r, readLine_whole by (apply firstn_notin; exact N1). cbn [rev app fst].
      rewrite (W (firstn n (encL s)) (skipn n (encL s))); [reflexivity|symmetry; apply firstn_skipn|]. intros E. apply (f_equal (@List.length Z)) in E. rewrite skipn_length in E. cbn [List.length] in E. lia.
    - rewrite firstn_app, firstn_all2 by exact L. assert (FN : Forall (fun e => ~ In 10 (encVO (msg e))) es) by (eapply Forall_impl; [|exact F]; intros e [[H _] _]; exact H).
      destruct (Nat.eq_dec n (List.length (encL s))) as [E|NE].
      + replace (n - List.length (encL s))%nat with O by lia. cbn [firstn]. rewrite app_nil_r, readLine_whole by exact N1. cbn [rev app fst snd lines watchLoop]. rewrite D1. exists O. split; [lia|]. split; [reflexivity|].
        intros i I. rewrite app_length. cbn [app List.length]. lia.
      + destruct (n - List.length (encL s))%nat as [|m] eqn:M; [lia|]. cbn [app firstn]. rewrite readLine_line by exact N1. cbn [rev app fst snd]. rewrite D1.
        destruct (lines_cut (fun e => encVO (msg e)) es FN m) as (j & J1 & J2 & J3). unfold textOf in J2, J3. exists j. split; [exact J1|]. split.
        * cbv zeta. rewrite J2, watch_ok; [reflexivity|]. rewrite Forall_forall in *. intros e J. apply F. rewrite <- (firstn_skipn j es). apply in_or_app. left. exact J.
        * intros i I. rewrite (J3 i I), app_length. cbn [app List.length]. lia.
  Qed.
  (** A provider that is not ready, or no provider: nothing is changed, the attempt has failed. *)
  Theorem C76_not_ready r : r = NoResponse \/ (exists body, r = Response 500 body) -> connect r = ([], Failed).
  Proof. intros [-> | (body & ->)]; reflexivity. Qed.
End Stream.
Print Assumptions C76_cut.
Print Assumptions C76_not_ready.

Section State.
  Context (builtIn : bytes -> bool) (lower : bytes -> bytes) (myNode : bytes) (it : forall A : Type, nat -> list A -> list A) (grace : Z).
  (** Once a connection has loaded its snapshot, nothing the collector knew before makes a difference: the caches are those of the snapshot and of
      what came after it. *)
  Theorem C76_fresh : forall before n now s after st st',
    caches builtIn lower myNode it grace st (before ++ (n, now, CAct (ASetup s)) :: after) = caches builtIn lower myNode it grace st' ((n, now, CAct (ASetup s)) :: after).
  Proof. intros before n now s after st st'. unfold caches. rewrite fold_left_app. reflexivity. Qed.
End State.
Print Assumptions C76_fresh.

(** *** The attempts *)
Definition alive (os : list outcome) : Prop := ~ In Stopped os.
Lemma tries_cons a l : tries (a :: l) = ((match a with Try => 1 | _ => 0 end) + tries l)%nat.
Proof. unfold tries. destruct a; reflexivity. Qed.
Lemma pauses_cons a l : pauses (a :: l) = ((match a with Pause => 1 | _ => 0 end) + pauses l)%nat.
Proof. unfold pauses. destruct a; reflexivity. Qed.
(** The collector never gives up: there is an attempt for every end of one, whatever the ends were. *)
Theorem C76_keeps_trying : forall os i, alive os -> tries (retry i os) = List.length os.
Proof.
  induction os as [|o os IH]; intros i A; [reflexivity|]. cbn [retry]. rewrite tries_cons. cbn [List.length]. assert (A' : alive os) by (intros J; apply A; right; exact J).
  cbn [Nat.add]. f_equal. destruct o; cbv zeta.
  - destruct (i + 1 <? 3); [apply IH; exact A'|]. rewrite tries_cons. apply IH. exact A'.
  - cbn [Z.add Z.ltb]. apply IH. exact A'.
  - destruct A. left. reflexivity.
Qed.
Print Assumptions C76_keeps_trying.
(** The state of the loop after a history, and its history so far. *)
Fixpoint counter (i : Z) (os : list outcome) : Z :=
  match os with
  | [] => i
  | Failed :: os' => counter (if i + 1 <? 3 then i + 1 else 0) os'
  | _ :: os' => counter 1 os'
  end.
Lemma retry_app a : forall i b, alive a -> retry i (a ++ b) = retry i a ++ retry (counter i a) b.
Proof.
  induction a as [|o a IH]; intros i b A; [reflexivity|]. assert (A' : alive a) by (intros J; apply A; right; exact J). cbn [app retry counter]. cbv zeta. cbn [app]. f_equal. destruct o.
  - destruct (i + 1 <? 3); [apply IH; exact A'|]. cbn [app]. f_equal. apply IH. exact A'.
  - cbn [Z.add Z.ltb]. apply IH. exact A'.
  - destruct A. left. reflexivity.
Qed.
Lemma counter_range os : forall i, 0 <= i < 3 -> 0 <= counter i os < 3.
Proof.
  induction os as [|o os IH]; intros i R; [exact R|]. cbn [counter]. destruct o; try (apply IH; lia). destruct (Z.ltb_spec (i + 1) 3); apply IH; lia.
Qed.
(** Of any three attempts that fail in a row, one is followed by the pause of a minute; and a pause only ever follows a failure that had at least
    one failure just before it. *)
Theorem C76_three_failures : forall os, alive os -> exists a, (a < 3)%nat /\
  retry 0 (os ++ [Failed; Failed; Failed]) = retry 0 os ++ repeat Try (S a) ++ [Pause] ++ repeat Try (2 - a).
Proof.
  intros os A. rewrite retry_app by exact A. pose proof (counter_range os 0 ltac:(lia)) as R. set (c := counter 0 os) in *. assert (C : c = 0 \/ c = 1 \/ c = 2) by lia.
  destruct C as [-> | [-> | ->]]; [exists 2%nat|exists 1%nat|exists O]; (split; [lia|]); reflexivity.
Qed.
Print Assumptions C76_three_failures.
Lemma counter_two os : forall i, counter i os = 2 -> alive os -> (os = [] /\ i = 2) \/ (exists b, os = b ++ [Failed]).
Proof.
  induction os as [|o os IH]; intros i E A; [left; auto|]. assert (A' : alive os) by (intros J; apply A; right; exact J). right. cbn [counter] in E. destruct o.
  - destruct (IH _ E A') as [[-> _] | (b & ->)]; [exists []; reflexivity|exists (Failed :: b); reflexivity].
  - destruct (IH _ E A') as [[-> X] | (b & ->)]; [discriminate X|exists (Ended :: b); reflexivity].
  - destruct A. left. reflexivity.
Qed.
Theorem C76_pause_follows_failures : forall os o rest, alive (os ++ [o]) -> retry 0 (os ++ [o]) = retry 0 os ++ Try :: Pause :: rest -> o = Failed /\ rest = [] /\ exists b, os = b ++ [Failed].
Proof.
  intros os o rest A E. assert (A' : alive os) by (intros J; apply A; apply in_or_app; left; exact J). rewrite retry_app in E by exact A'. apply app_inv_head in E.
  pose proof (counter_range os 0 ltac:(lia)) as R. cbn [retry] in E. cbv zeta in E. destruct o.
  - destruct (Z.ltb_spec (counter 0 os + 1) 3) as [L|L]; [discriminate E|]. split; [reflexivity|]. split; [congruence|]. destruct (counter_two os 0 ltac:(lia) A') as [[-> X] | X]; [discriminate X|exact X].
  - discriminate E.
  - discriminate E.
Qed.
Print Assumptions C76_pause_follows_failures.
(** "It retries after 1 minute when it failed three times" (the message of initk8s.go:130) is false: after a connection two failures are enough. *)
Theorem C76_three_times_refuted : retry 0 [Ended; Failed; Failed; Failed] = [Try; Try; Try; Pause; Try] /\ retry 0 [Failed; Failed; Failed] = [Try; Try; Try; Pause].
Proof. split; reflexivity. Qed.
Print Assumptions C76_three_times_refuted.
(** Nothing slows the collector down when its connections end: a provider that sends the snapshot and closes is asked for it again and again, without a
    pause. *)
Theorem C76_slows_down_refuted : forall k i, retry i (repeat Ended k) = repeat Try k.
Proof. induction k as [|k IH]; intros i; [reflexivity|]. cbn [repeat retry]. cbv zeta. cbn [Z.add Z.ltb]. f_equal. apply IH. Qed.
Print Assumptions C76_slows_down_refuted.
(** "No line of the stream stops the collector" is false: one that names a known kind of object and an operation the collector does not know does (a
    provider of another version), though a line of an unknown kind, or one that is no JSON, is skipped. *)
Theorem C76_unknown_operation_refuted : forall decL decVO decPod decSvc decRs decNode s l0 l v, decL l0 = Some s -> ~ In 10 l0 -> ~ In 10 l -> decVO l = Some v ->
  v_type v = bs "pod" -> v_op v = bs "patch" ->
  listAndWatch decL decVO decPod decSvc decRs decNode (Response 200 (l0 ++ [10] ++ l ++ [10])) = ([ASetup s], Stopped).
Proof.
  intros decL decVO decPod decSvc decRs decNode s l0 l v D N0 N V T O. unfold listAndWatch. cbn [Z.eqb app]. rewrite readLine_line by exact N0. cbn [rev app fst snd]. rewrite D, lines_line by exact N. cbn [rev app lines watchLoop].
  rewrite V. unfold applyVO, unwrap. rewrite T, O. reflexivity.
Qed.
Print Assumptions C76_unknown_operation_refuted.

(** *** Example: a snapshot and three changes; the connection breaks in the middle of the third line. *)
Definition oneNode (name ip : bytes) : node := {| nd_name := name; nd_addresses := [(bs "InternalIP", ip)] |}.
Definition exSnap : snapshot := {| j_cids := []; j_ips := []; j_hosts := []; j_ipsvcs := []; j_gsvcs := []; j_rs := []; j_nodes := [(bs "10.0.0.1", {| ni_ip := bs "10.0.0.1"; ni_name := bs "n1" |})] |}.
Definition exChanges : list pevent := [ENode (CAdd (oneNode (bs "n2") (bs "10.0.0.2"))); ENode (CLate (oneNode (bs "n1") (bs "10.0.0.1"))); ENode (CAdd (oneNode (bs "n3") (bs "10.0.0.3")))].
(** a code for the objects of the example: a node by its name *)
Definition exEncNode (n : node) : bytes := nd_name n.
Definition exDecNode (b : bytes) : option node :=
  if eqb b (bs "n2") then Some (oneNode (bs "n2") (bs "10.0.0.2")) else if eqb b (bs "n3") then Some (oneNode (bs "n3") (bs "10.0.0.3")) else if eqb b (bs "{Key}") then Some noNode else None.
Definition exLate (n : node) : bytes := bs "{Key}".
Definition exEncVO (v : vo) : bytes := v_type v ++ [32] ++ v_op v ++ [32] ++ match v_new v with Some b => b | None => [] end ++ [32] ++ match v_old v with Some b => b | None => [] end.
Definition exDecVO (b : bytes) : option vo :=
  List.find (fun v => eqb b (exEncVO v)) (map (message (fun _ => []) (fun _ => []) (fun _ => []) exEncNode (fun _ => []) (fun _ => []) (fun _ => []) exLate) exChanges).
Definition exEncL (s : snapshot) : bytes := bs "{nodes: n1}".
Definition exDecL (b : bytes) : option snapshot := if eqb b (bs "{nodes: n1}") then Some exSnap else None.
Definition no {A} (b : bytes) : option A := None.
Lemma example_prefix p q : bs "{nodes: n1}" = p ++ q -> q <> [] -> exDecL p = None.
Proof.
  intros E NQ. unfold exDecL. match goal with |- (if ?x then _ else _) = _ => destruct x eqn:Q; [|reflexivity] end. apply (proj1 (eqb_eq _ _)) in Q. subst p. apply (f_equal (@List.length Z)) in E. rewrite app_length in E. destruct q; [congruence|]. cbn [List.length] in E. lia.
Qed.
Example C76_example :
  let str := stream exEncL exEncVO (fun _ => []) (fun _ => []) (fun _ => []) exEncNode (fun _ => []) (fun _ => []) (fun _ => []) exLate exSnap exChanges in
  lineOk exEncL exDecL exSnap /\ wholeOnly exEncL exDecL exSnap /\
  Forall (changeOk exDecVO no no no exDecNode exEncVO (fun _ => []) (fun _ => []) (fun _ => []) exEncNode (fun _ => []) (fun _ => []) (fun _ => []) exLate) exChanges /\
  List.length str = 69%nat /\
  listAndWatch exDecL exDecVO no no no exDecNode (Response 200 (firstn 60 str)) =
    ([ASetup exSnap; AEvent (OAddNode (oneNode (bs "n2") (bs "10.0.0.2"))); AEvent (ODeleteNode (Some noNode))], Ended).
Proof.
  cbv zeta. split; [split; [vm_compute; intuition discriminate|reflexivity]|]. split; [exact example_prefix|]. split.
  - repeat (apply Forall_cons; [split; [split; [vm_compute; intuition discriminate|vm_compute; reflexivity]|vm_compute; reflexivity]|]). apply Forall_nil.
  - split; vm_compute; reflexivity.
Qed.
