(** C49: routing of events.  C51: statistics of received events.  C52: node traffic. *)
From Verif Require Import Base Decimal AttrModel PoolModel EnrichModel AdapterModel SocketModel SocketProps AggSpec AggProofs2 RouteModel.
Open Scope string_scope. Open Scope list_scope. Open Scope Z_scope.

(** ** Specification of routing *)
Definition times {A} `{Eqb A} (l : list A) (x : A) : nat := List.length (filter (eqb x) l).
(** The analyzers subscribed to a name, in the order they were given (as often as they list it). *)
Definition subscribers (ans : list analyzer) (name : string) : list analyzer := flat_map (fun a => repeat a (times (an_events a) name)) ans.

Lemma addEvent_other a m all e n : n <> e -> aget (fst (addEvent a (m, all) e)) n = aget m n.
Proof. intros N. unfold addEvent. destruct (eqb e ConsumeAllEvents); cbn [fst]; [reflexivity|]. apply aget_aset_other. congruence. Qed.

Lemma addAnalyzer_ok a : forall m all,
  let r := addAnalyzer (m, all) a in
  snd r = all ++ repeat a (times (an_events a) ConsumeAllEvents) /\
  forall n, n <> ConsumeAllEvents ->
    sliceOf (fst r) n = sliceOf m n ++ repeat a (times (an_events a) n) /\
    (aget (fst r) n = None <-> aget m n = None /\ times (an_events a) n = 0%nat).
Proof.
  unfold addAnalyzer. induction (an_events a) as [|e l IH]; intros m all; cbn [fold_left].
  - cbn. rewrite app_nil_r. split; [reflexivity|]. intros n N. rewrite app_nil_r. split; [reflexivity|]. tauto.
  - destruct (addEvent a (m, all) e) as [m1 all1] eqn:E. specialize (IH m1 all1). cbn zeta in *. destruct IH as [IH1 IH2].
    unfold addEvent in E. split.
    + rewrite IH1. unfold times. cbn [filter]. rewrite (eqb_sym ConsumeAllEvents e). case_eqb e ConsumeAllEvents; inversion E; subst; [|reflexivity].
      rewrite <- app_assoc. reflexivity.
    + intros n N. destruct (IH2 n N) as [A B]. rewrite A, B. unfold times. cbn [filter]. case_eqb n e.
      * subst e. rewrite (proj2 (eqb_neq n ConsumeAllEvents)) in E by exact N. inversion E; subst. unfold sliceOf. rewrite aget_aset_same. split.
        -- rewrite <- app_assoc. reflexivity.
        -- split; [intros [X _]; discriminate|intros [_ X]; discriminate].
      * case_eqb e ConsumeAllEvents; inversion E; subst; [split; [reflexivity|tauto]|].
        unfold sliceOf. rewrite aget_aset_other by congruence. split; [reflexivity|tauto].
Qed.

Lemma fold_analyzers : forall ans m all,
  let r := fold_left addAnalyzer ans (m, all) in
  snd r = all ++ subscribers ans ConsumeAllEvents /\
  forall n, n <> ConsumeAllEvents ->
    sliceOf (fst r) n = sliceOf m n ++ subscribers ans n /\
    (aget (fst r) n = None <-> aget m n = None /\ subscribers ans n = []).
Proof.
  induction ans as [|a ans IH]; intros m all; cbn [fold_left].
  - cbn. rewrite app_nil_r. split; [reflexivity|]. intros n N. rewrite app_nil_r. split; [reflexivity|]. tauto.
  - pose proof (addAnalyzer_ok a m all) as A. destruct (addAnalyzer (m, all) a) as [m1 all1]. specialize (IH m1 all1). cbn zeta in *. cbn [fst snd] in A.
    destruct A as [A1 A2], IH as [IH1 IH2]. split.
    + rewrite IH1, A1. cbn [subscribers flat_map]. fold (subscribers ans ConsumeAllEvents). rewrite <- app_assoc. reflexivity.
    + intros n N. destruct (IH2 n N) as [B1 B2], (A2 n N) as [C1 C2]. rewrite B1, B2, C1, C2. cbn [subscribers flat_map]. fold (subscribers ans n).
      split; [rewrite <- app_assoc; reflexivity|]. split.
      * intros [[X Y] Z]. split; [exact X|]. rewrite Y, Z. reflexivity.
      * intros [X Y]. apply app_eq_nil in Y. destruct Y as [Y Z]. repeat split; try assumption. destruct (times (an_events a) n); [reflexivity|discriminate].
Qed.

Lemma fold_putAll (v : list analyzer) : forall all, fold_left (fun _ a => v ++ [a]) all v = match rev all with [] => v | x :: _ => v ++ [x] end.
Proof. induction all as [|x all IH] using rev_ind; [reflexivity|]. rewrite fold_left_app, rev_app_distr. reflexivity. Qed.

(** ** C49 *)
(** Exactly who gets an event: its subscribers; then all the catch-all analyzers if there are no subscribers,
    but only the last of them if there are. *)
Theorem C49_routing : forall ans m name, newManager ans = Some m -> name <> "consumeAllEvents" ->
  getConsumable m name = subscribers ans name ++
    (if eqb (List.length (subscribers ans name)) 0%nat then subscribers ans "consumeAllEvents"
     else match rev (subscribers ans "consumeAllEvents") with [] => [] | x :: _ => [x] end).
Proof.
  intros ans m name NM N. change "consumeAllEvents" with ConsumeAllEvents in *. unfold newManager in NM. destruct ans as [|a0 ans0]; [discriminate|].
  set (ans := a0 :: ans0) in *. clearbody ans. pose proof (fold_analyzers ans [] []) as F. destruct (fold_left addAnalyzer ans ([], [])) as [mm all].
  cbn zeta in F. cbn [fst snd app sliceOf aget] in F. destruct F as [F1 F2]. destruct (F2 name N) as [F3 F4]. inversion NM; subst m; clear NM.
  unfold getConsumable. cbn [eventMap consumeAll].
  replace (map (putAll all) mm) with (map (fun p => (fst p, (fun v => fold_left (fun _ a => v ++ [a]) all v) (snd p))) mm) by reflexivity.
  rewrite (aget_mapv (fun v => fold_left (fun _ a => v ++ [a]) all v)). cbn [sliceOf aget app] in F3. unfold sliceOf in F3.
  destruct (aget mm name) as [v|] eqn:G; cbn [option_map].
  - cbn [app] in F3. subst v. rewrite fold_putAll, <- F1.
    destruct (subscribers ans name) as [|s l] eqn:S; [exfalso; assert (X : Some (A := list analyzer) [] = None) by (apply F4; auto); discriminate|].
    cbn [List.length eqb Eqb_nat Nat.eqb]. destruct (rev all); [rewrite app_nil_r|]; reflexivity.
  - destruct (proj1 F4 eq_refl) as [_ ->]. cbn [List.length eqb Eqb_nat Nat.eqb app]. exact F1.
Qed.
Print Assumptions C49_routing.

(** An analyzer wants an event when it subscribed to its name or to all events. *)
Definition wants (a : analyzer) (name : string) : bool := existsb (eqb name) (an_events a) || existsb (eqb "consumeAllEvents") (an_events a).
(** Each analyzer lists an event once, a catch-all analyzer lists nothing else, and there is at most one of those. *)
Definition orderly (ans : list analyzer) : Prop :=
  NoDup (map an_id ans) /\ Forall (fun a => NoDup (an_events a)) ans /\
  Forall (fun a => In "consumeAllEvents" (an_events a) -> an_events a = ["consumeAllEvents"]) ans /\
  (List.length (filter (fun a => existsb (eqb "consumeAllEvents") (an_events a)) ans) <= 1)%nat.

Lemma times_nodup {A} `{Eqb A} (l : list A) x : NoDup l -> times l x = if existsb (eqb x) l then 1%nat else 0%nat.
Proof.
  unfold times. induction l as [|y l IH]; intros ND; [reflexivity|]. inversion ND as [|? ? NI ND']; subst. cbn [filter existsb].
  case_eqb x y; cbn [orb]; [|apply IH; assumption]. subst y. cbn [List.length]. f_equal. rewrite IH by assumption.
  destruct (existsb (eqb x) l) eqn:E; [|reflexivity]. apply existsb_exists in E. destruct E as (z & I & E). apply eqb_true in E. subst z. contradiction.
Qed.
Lemma subscribers_nodup ans n : Forall (fun a => NoDup (an_events a)) ans -> subscribers ans n = filter (fun a => existsb (eqb n) (an_events a)) ans.
Proof.
  induction 1 as [|a ans H F IH]; [reflexivity|]. cbn [subscribers flat_map filter]. fold (subscribers ans n). rewrite times_nodup by exact H.
  destruct (existsb (eqb n) (an_events a)); cbn [repeat app]; rewrite IH; reflexivity.
Qed.
Lemma count_filter (f g : analyzer -> bool) (a : analyzer) ans : NoDup (map an_id ans) -> In a ans ->
  (forall b, In b ans -> f b && g b = false) ->
  times (map an_id (filter f ans ++ filter g ans)) (an_id a) = if f a || g a then 1%nat else 0%nat.
Proof.
  assert (Z0 : forall l : list analyzer, forall h, ~ In (an_id a) (map an_id l) -> times (map an_id (filter h l)) (an_id a) = 0%nat).
  { induction l as [|b l IH]; intros h NI; [reflexivity|]. cbn [map In] in NI. cbn [filter]. destruct (h b); [|apply IH; tauto].
    unfold times in *. cbn [map filter]. case_eqb (an_id a) (an_id b); [exfalso; apply NI; left; congruence|]. apply IH. tauto. }
  assert (Z1 : forall l : list analyzer, forall h, NoDup (map an_id l) -> In a l -> times (map an_id (filter h l)) (an_id a) = if h a then 1%nat else 0%nat).
  { induction l as [|b l IH]; intros h ND I; [destruct I|]. cbn [map] in ND. inversion ND as [|? ? NI ND']; subst. destruct I as [->|I].
    - cbn [filter]. destruct (h a); [|apply Z0; exact NI]. unfold times. cbn [map filter]. rewrite eqb_refl. cbn [List.length]. f_equal. apply (Z0 l h NI).
    - cbn [filter]. destruct (h b); [|apply IH; assumption]. unfold times. cbn [map filter]. case_eqb (an_id a) (an_id b).
      + exfalso. apply NI. rewrite <- E. apply in_map. exact I.
      + apply IH; assumption. }
  intros ND I D. unfold times. rewrite map_app, filter_app, app_length. fold (times (map an_id (filter f ans)) (an_id a)) (times (map an_id (filter g ans)) (an_id a)).
  rewrite !Z1 by assumption. specialize (D a I). destruct (f a), (g a); try discriminate; reflexivity.
Qed.

Lemma wants_split ans name a : name <> "consumeAllEvents" -> orderly ans -> In a ans ->
  existsb (eqb name) (an_events a) && existsb (eqb "consumeAllEvents") (an_events a) = false.
Proof.
  intros N (_ & _ & C & _) I. destruct (existsb (eqb "consumeAllEvents") (an_events a)) eqn:X; [|apply andb_false_r].
  apply existsb_exists in X. destruct X as (z & Iz & X). apply eqb_true in X. subst z. rewrite Forall_forall in C. rewrite (C a I Iz).
  cbn [existsb]. rewrite (proj2 (eqb_neq name _)) by exact N. reflexivity.
Qed.

(** Then every analyzer gets exactly the events it wants, once each and in order. *)
Theorem C49_once : forall {E} ans m (evs : list (string * E)) a,
  orderly ans -> newManager ans = Some m -> In a ans -> Forall (fun ev => fst ev <> "consumeAllEvents") evs ->
  map snd (filter (fun d => eqb (fst d) (an_id a)) (consumeEvents m evs)) = filter (fun ev => wants a (fst ev)) evs.
Proof.
  intros E ans m evs a O NM I F. induction F as [|ev evs N F IH]; [reflexivity|]. unfold consumeEvents in *. cbn [flat_map]. rewrite filter_app, map_app, IH.
  cbn [filter]. clear IH F.
  assert (K : times (map an_id (getConsumable m (fst ev))) (an_id a) = if wants a (fst ev) then 1%nat else 0%nat).
  { rewrite (C49_routing ans m (fst ev) NM N). pose proof O as (ND & NE & C & ONE). rewrite !subscribers_nodup by exact NE.
    assert (TAIL : (if eqb (List.length (filter (fun a => existsb (eqb (fst ev)) (an_events a)) ans)) 0%nat
                    then filter (fun a => existsb (eqb "consumeAllEvents") (an_events a)) ans
                    else match rev (filter (fun a => existsb (eqb "consumeAllEvents") (an_events a)) ans) with [] => [] | x :: _ => [x] end)
                 = filter (fun a => existsb (eqb "consumeAllEvents") (an_events a)) ans).
    { destruct (eqb (List.length (filter (fun a => existsb (eqb (fst ev)) (an_events a)) ans)) 0%nat); [reflexivity|].
      destruct (filter (fun a => existsb (eqb "consumeAllEvents") (an_events a)) ans) as [|x [|y l]]; [reflexivity|reflexivity|cbn [List.length] in ONE; lia]. }
    rewrite TAIL. apply (count_filter (fun b => existsb (eqb (fst ev)) (an_events b)) (fun b => existsb (eqb "consumeAllEvents") (an_events b))); [exact ND|exact I|].
    intros b Ib. apply (wants_split ans); assumption. }
  unfold sendToNext. assert (G : forall l : list analyzer, map snd (filter (fun d => eqb (fst d) (an_id a)) (map (fun b => (an_id b, ev)) l)) = repeat ev (times (map an_id l) (an_id a))).
  { induction l as [|b l IHl]; [reflexivity|]. unfold times in *. cbn [map filter fst]. rewrite (eqb_sym (an_id b)). case_eqb (an_id a) (an_id b).
    - cbn [map snd List.length repeat]. rewrite IHl. reflexivity.
    - exact IHl. }
  rewrite G, K. destruct (wants a (fst ev)); reflexivity.
Qed.
Print Assumptions C49_once.

(** With two catch-all analyzers the first one misses every event somebody subscribed to. *)
Theorem C49_two_catch_all_refuted : exists ans m a, NoDup (map an_id ans) /\ newManager ans = Some m /\ In a ans /\ an_events a = ["consumeAllEvents"] /\
  ~ In a (getConsumable m "read") /\ In a (getConsumable m "write").
Proof.
  exists [{| an_id := 1; an_events := ["read"] |}; {| an_id := 2; an_events := ["consumeAllEvents"] |}; {| an_id := 3; an_events := ["consumeAllEvents"] |}].
  eexists. exists {| an_id := 2; an_events := ["consumeAllEvents"] |}. split; [repeat constructor; cbn; intuition discriminate|].
  split; [reflexivity|]. split; [right; left; reflexivity|]. split; [reflexivity|]. split.
  - vm_compute. intros [X|[X|[]]]; discriminate.
  - vm_compute. left. reflexivity.
Qed.
Print Assumptions C49_two_catch_all_refuted.
Example exOrderly : let ans := [{| an_id := 1; an_events := ["read"; "write"] |}; {| an_id := 2; an_events := ["consumeAllEvents"] |}; {| an_id := 3; an_events := ["read"] |}] in
  orderly ans /\ exists m, newManager ans = Some m /\ map an_id (getConsumable m "read") = [1; 3; 2]%nat /\ map an_id (getConsumable m "close") = [2]%nat.
Proof.
  cbn zeta. split.
  - split; [repeat constructor; cbn; intuition discriminate|]. split; [repeat constructor; cbn; intuition discriminate|]. split; [|vm_compute; lia].
    repeat constructor; cbn; intuition discriminate.
  - eexists. split; [reflexivity|]. split; reflexivity.
Qed.

(** ** C51 *)
(** The name an event is counted under. *)
Definition countedAs (subs : list bytes) (e : bytes) : bytes := if existsb (fun s => eqb (rawName s) e) subs then e else bs "other".
Definition seen (subs evs : list bytes) (n : bytes) : Z := zlen (filter (fun e => eqb (countedAs subs e) n) evs).

Lemma newStats_has subs n : ahas (newStats subs) n = existsb (fun s => eqb (rawName s) n) subs || eqb n (bs "other").
Proof.
  unfold newStats, ahas. rewrite aget_aset. change OtherEvent with (bs "other"). case_eqb n (bs "other"); [rewrite orb_true_r; reflexivity|].
  rewrite orb_false_r. clear E.
  assert (G : forall m, (if aget (fold_left (fun m s => aset m (rawName s) 0) subs m) n then true else false) =
                        existsb (fun s => eqb (rawName s) n) subs || (if aget m n then true else false)).
  { induction subs as [|s subs IH]; intros m; cbn [fold_left existsb]; [reflexivity|]. rewrite IH, aget_aset, (eqb_sym (rawName s) n).
    case_eqb n (rawName s); cbn [orb]; [apply orb_true_r|reflexivity]. }
  specialize (G []). cbn [aget] in G. rewrite orb_false_r in G. exact G.
Qed.
Lemma newStats_zero subs n v : aget (newStats subs) n = Some v -> v = 0.
Proof.
  unfold newStats. rewrite aget_aset. destruct (eqb n OtherEvent); [congruence|].
  assert (G : forall m, (aget m n = Some v -> v = 0) -> aget (fold_left (fun m s => aset m (rawName s) 0) subs m) n = Some v -> v = 0).
  { induction subs as [|s subs IH]; intros m H; cbn [fold_left]; [exact H|]. apply IH. rewrite aget_aset. destruct (eqb n (rawName s)); [congruence|exact H]. }
  apply G. discriminate.
Qed.
Lemma newStats_keys subs : NoDup (keys (newStats subs)).
Proof.
  unfold newStats. apply NoDup_keys_aset.
  assert (G : forall m : list (bytes * Z), NoDup (keys m) -> NoDup (keys (fold_left (fun m s => aset m (rawName s) 0) subs m))).
  { induction subs as [|s subs IH]; intros m H; cbn [fold_left]; [exact H|]. apply IH. apply NoDup_keys_aset. exact H. }
  apply G. constructor.
Qed.

Lemma addStat_eq subs m e : (forall n, ahas m n = existsb (fun s => eqb (rawName s) n) subs || eqb n (bs "other")) -> addStat m e = bump m (countedAs subs e).
Proof.
  intros H. unfold addStat, countedAs. rewrite H. change OtherEvent with (bs "other"). destruct (existsb (fun s => eqb (rawName s) e) subs); cbn [orb]; [reflexivity|].
  case_eqb e (bs "other"); subst; reflexivity.
Qed.

Lemma s64_small z : 0 <= z < 2 ^ 63 -> s64 z = z.
Proof. intros H. unfold s64. rewrite Z.mod_small by lia. lia. Qed.
Lemma zlen_cons {A} (x : A) l : zlen (x :: l) = zlen l + 1.
Proof. unfold zlen. cbn [List.length]. lia. Qed.
Lemma ahas_in_keys (m : list (bytes * Z)) k : ahas m k = true -> In k (keys m).
Proof. unfold ahas. destruct (aget m k) as [v|] eqn:G; [|discriminate]. intros _. exact (aget_some_in_keys _ _ _ G). Qed.
Lemma s64_succ z : s64 (s64 z + 1) = s64 (z + 1).
Proof.
  unfold s64. f_equal. replace ((z + 2 ^ 63) mod 2 ^ 64 - 2 ^ 63 + 1 + 2 ^ 63) with ((z + 2 ^ 63) mod 2 ^ 64 + 1) by lia.
  rewrite Zplus_mod_idemp_l. f_equal. lia.
Qed.

Lemma stats_inv subs : forall evs, let m := statsAfter subs evs in
  (forall n, ahas m n = existsb (fun s => eqb (rawName s) n) subs || eqb n (bs "other")) /\
  (forall n, aget m n = if existsb (fun s => eqb (rawName s) n) subs || eqb n (bs "other") then Some (s64 (seen subs evs n)) else None) /\
  keys m = keys (newStats subs).
Proof.
  induction evs as [|e evs IH] using rev_ind; cbn zeta in *.
  - unfold statsAfter. cbn [fold_left]. split; [apply newStats_has|]. split; [|reflexivity]. intros n. pose proof (newStats_has subs n) as H. unfold ahas in H.
    destruct (aget (newStats subs) n) as [v|] eqn:G; rewrite <- H; [|reflexivity]. rewrite (newStats_zero _ _ _ G). reflexivity.
  - unfold statsAfter in *. rewrite fold_left_app. cbn [fold_left]. set (m := fold_left addStat evs (newStats subs)) in *. clearbody m.
    destruct IH as (IH1 & IH2 & IH3). rewrite (addStat_eq subs m e IH1).
    assert (C : ahas m (countedAs subs e) = true).
    { rewrite IH1. unfold countedAs. destruct (existsb (fun s => eqb (rawName s) e) subs) eqn:X; [rewrite X; reflexivity|rewrite eqb_refl; apply orb_true_r]. }
    assert (IH2' : forall n, aget (bump m (countedAs subs e)) n = if existsb (fun s => eqb (rawName s) n) subs || eqb n (bs "other") then Some (s64 (seen subs (evs ++ [e]) n)) else None).
    { intros n. unfold bump. rewrite aget_aset. unfold seen, zlen. rewrite filter_app, app_length. cbn [filter]. rewrite (eqb_sym (countedAs subs e) n).
      case_eqb n (countedAs subs e).
      - rewrite <- E in *. pose proof C as C'. rewrite IH1 in C'. rewrite C', IH2, C'. cbn [List.length]. f_equal. unfold seen, zlen. rewrite Nat2Z.inj_add. change (Z.of_nat 1) with 1.
        apply s64_succ.
      - cbn [List.length]. rewrite Nat.add_0_r. apply IH2. }
    split; [|split; [exact IH2'|]].
    + intros n. unfold ahas. rewrite IH2'. destruct (existsb (fun s => eqb (rawName s) n) subs || eqb n (bs "other")); reflexivity.
    + rewrite <- IH3. unfold bump. rewrite keys_aset, C. reflexivity.
Qed.

(** Every counter shows exactly the events counted under its name: those of that name if it is subscribed, and the
    events of all other names under "other". *)
Theorem C51_counts : forall subs evs n, zlen evs < 2 ^ 63 ->
  aget (statsAfter subs evs) n =
  (if existsb (fun s => eqb (rawName s) n) subs then
     Some (if eqb n (bs "other") then zlen (filter (fun e => eqb e n || negb (existsb (fun s => eqb (rawName s) e) subs)) evs) else zlen (filter (fun e => eqb e n) evs))
   else if eqb n (bs "other") then Some (zlen (filter (fun e => negb (existsb (fun s => eqb (rawName s) e) subs)) evs)) else None).
Proof.
  intros subs evs n LT. destruct (stats_inv subs evs) as (_ & G & _). rewrite G.
  assert (B : forall f : bytes -> bool, 0 <= zlen (filter f evs) <= zlen evs).
  { intros f. unfold zlen. split; [lia|]. clear. induction evs as [|e evs IH]; [cbn; lia|]. cbn [filter]. destruct (f e); cbn [List.length]; lia. }
  assert (S : s64 (seen subs evs n) = seen subs evs n).
  { apply s64_small. specialize (B (fun e => eqb (countedAs subs e) n)). unfold seen. lia. }
  rewrite S. clear S B LT G. unfold seen, countedAs.
  destruct (existsb (fun s => eqb (rawName s) n) subs) eqn:X; cbn [orb].
  - case_eqb n (bs "other").
    + f_equal. unfold zlen. f_equal. f_equal. apply filter_ext. intros e. destruct (existsb (fun s => eqb (rawName s) e) subs) eqn:Y; cbn [negb].
      * rewrite orb_false_r. reflexivity.
      * rewrite orb_true_r. rewrite E. apply eqb_refl.
    + f_equal. unfold zlen. f_equal. f_equal. apply filter_ext. intros e. destruct (existsb (fun s => eqb (rawName s) e) subs) eqn:Y; [reflexivity|].
      rewrite (proj2 (eqb_neq (bs "other") n)) by congruence. symmetry. apply eqb_neq. intros ->. congruence.
  - case_eqb n (bs "other"); [|reflexivity]. f_equal. unfold zlen. f_equal. f_equal. apply filter_ext. intros e.
    destruct (existsb (fun s => eqb (rawName s) e) subs) eqn:Y; cbn [negb]; [|rewrite E; apply eqb_refl]. apply eqb_neq. intros ->. congruence.
Qed.
Print Assumptions C51_counts.

Lemma zsum_counts (f : bytes -> bytes) : forall ks evs, NoDup ks -> Forall (fun e => In (f e) ks) evs ->
  zsum (map (fun k => zlen (filter (fun e => eqb (f e) k) evs)) ks) = zlen evs.
Proof.
  intros ks evs ND. induction evs as [|e evs IH]; intros F.
  - cbn. clear. induction ks; [reflexivity|]. cbn. assumption.
  - inversion F as [|? ? I F']; subst. specialize (IH F'). clear F F'.
    assert (G : zsum (map (fun k => zlen (filter (fun e => eqb (f e) k) (e :: evs))) ks) = zsum (map (fun k => zlen (filter (fun e => eqb (f e) k) evs)) ks) + 1).
    { clear IH. induction ks as [|k ks IHk]; [destruct I|]. inversion ND as [|? ? NI ND']; subst. cbn [map zsum filter]. case_eqb (f e) k.
      - assert (R : map (fun k => zlen (filter (fun e0 => eqb (f e0) k) (e :: evs))) ks = map (fun k => zlen (filter (fun e0 => eqb (f e0) k) evs)) ks).
        { apply map_ext_in. intros k' I'. cbn [filter]. rewrite (proj2 (eqb_neq (f e) k')); [reflexivity|]. intros Q. apply NI. congruence. }
        cbn [filter] in R. rewrite R, zlen_cons. unfold zsum. cbn [fold_right]. lia.
      - destruct I as [I|I]; [congruence|]. specialize (IHk ND' I). cbn [filter] in IHk. unfold zsum in *. cbn [fold_right]. rewrite IHk. lia. }
    rewrite G, IH, zlen_cons. lia.
Qed.

(** The counters add up to the number of events received. *)
Theorem C51_sum : forall subs evs, zlen evs < 2 ^ 63 -> zsum (map snd (statsAfter subs evs)) = zlen evs.
Proof.
  intros subs evs LT. destruct (stats_inv subs evs) as (H & G & K).
  assert (ND : NoDup (keys (statsAfter subs evs))) by (rewrite K; apply newStats_keys).
  rewrite <- (zsum_counts (countedAs subs) (keys (statsAfter subs evs)) evs ND).
  - f_equal. unfold keys. rewrite map_map. apply map_ext_in. intros [n v] I. cbn [fst snd]. apply (in_aget _ n v ND) in I. rewrite G in I.
    destruct (existsb (fun s => eqb (rawName s) n) subs || eqb n (bs "other")); [|discriminate]. injection I as <-. unfold seen.
    apply s64_small. assert (B : forall f : bytes -> bool, 0 <= zlen (filter f evs) <= zlen evs).
    { intros f. unfold zlen. split; [lia|]. clear. induction evs as [|e evs IH]; [cbn; lia|]. cbn [filter]. destruct (f e); cbn [List.length]; lia. }
    specialize (B (fun e => eqb (countedAs subs e) n)). lia.
  - apply Forall_forall. intros e _. apply ahas_in_keys. rewrite H. unfold countedAs.
    destruct (existsb (fun s => eqb (rawName s) e) subs) eqn:X; [rewrite X; reflexivity|rewrite eqb_refl; apply orb_true_r].
Qed.
Print Assumptions C51_sum.

(** A subscription "category-name" is counted under its name; one without a dash under itself. *)
Theorem C51_subscription_name : forall cat name, ~ In 45 cat -> ~ In 45 name -> rawName (cat ++ [45] ++ name) = name /\ rawName name = name.
Proof.
  intros cat name NC NN.
  assert (S : splitOn (Z.eqb 45) name = [name]).
  { apply split_none. apply forallb_forall. intros x I. apply negb_true_iff, Z.eqb_neq. intros <-. contradiction. }
  assert (S2 : splitOn (Z.eqb 45) (cat ++ 45 :: name) = cat :: splitOn (Z.eqb 45) name).
  { apply split_at; [|reflexivity]. apply forallb_forall. intros x I. apply negb_true_iff, Z.eqb_neq. intros <-. contradiction. }
  unfold rawName. cbn [app]. rewrite S2, S. split; reflexivity.
Qed.
Print Assumptions C51_subscription_name.
(** ... but a name that has a dash itself is cut at it, so its events are counted as "other". *)
Theorem C51_dashed_name_refuted : exists sub evs, sub = bs "tracepoint-net-dev" /\ evs = [bs "net-dev"] /\
  aget (statsAfter [sub] evs) (bs "net-dev") = None /\ aget (statsAfter [sub] evs) (bs "other") = Some 1.
Proof. exists (bs "tracepoint-net-dev"), [bs "net-dev"]. repeat split; reflexivity. Qed.
Print Assumptions C51_dashed_name_refuted.
Example exStats : statsAfter [bs "syscall_exit-read"; bs "kprobe-tcp_close"; bs "page_fault"] [bs "read"; bs "tcp_close"; bs "write"; bs "read"; bs "page_fault"] =
  [(bs "read", 2); (bs "tcp_close", 1); (bs "page_fault", 1); (bs "other", 1)].
Proof. reflexivity. Qed.

(** ** C52 *)
(** A transfer: source address and node, destination address and node, which side observed it, bytes. *)
Record transfer := { t_srcIp : bytes; t_src : bytes; t_dstIp : bytes; t_dst : bytes; t_role : bytes; t_bytes : Z }.
(** What a request with known nodes amounts to: its request bytes from the source to the destination and its response
    bytes back. *)
Definition bytesIn (g : group) (name : string) : list Z := match aget (gmetrics g) name with Some (MInt v) => [v] | _ => [] end.
Definition known (g : group) : bool := negb (eqb (strOf (glabels g) "src_node_ip") []) && negb (eqb (strOf (glabels g) "dst_node_ip") []).
Definition roleOf (g : group) : bytes := if boolOf (glabels g) "is_server" then bs "server" else bs "client".
Definition transfersOf (g : group) : list transfer :=
  let l := glabels g in
  if known g then
    map (fun v => {| t_srcIp := strOf l "src_node_ip"; t_src := strOf l "src_node"; t_dstIp := strOf l "dst_node_ip"; t_dst := strOf l "dst_node"; t_role := roleOf g; t_bytes := v |}) (bytesIn g "request_io") ++
    map (fun v => {| t_srcIp := strOf l "dst_node_ip"; t_src := strOf l "dst_node"; t_dstIp := strOf l "src_node_ip"; t_dst := strOf l "src_node"; t_role := roleOf g; t_bytes := v |}) (bytesIn g "response_io")
  else [].
(** What a node metric says, and that it says nothing else. *)
Definition says (g : group) (t : transfer) : Prop :=
  gname g = "node_metric_metric_group" /\ gmetrics g = [("kindling_node_transmit_bytes_total", MInt (t_bytes t))] /\
  (forall k, aget (glabels g) k =
    if eqb k "src_node_ip" then Some (SV (t_srcIp t)) else if eqb k "src_node" then Some (SV (t_src t))
    else if eqb k "dst_node_ip" then Some (SV (t_dstIp t)) else if eqb k "dst_node" then Some (SV (t_dst t))
    else if eqb k "role" then Some (SV (t_role t)) else None).
(** A histogram among the two byte metrics. *)
Definition histogramIn (g : group) : Prop := exists n s c b k, (n = "request_io" \/ n = "response_io") /\ aget (gmetrics g) n = Some (MHist s c b k).

Lemma nodeConsume_ok g now : (~ histogramIn g \/ known g = false) -> exists out, nodeConsume g now = Ok out /\ Forall2 says out (transfersOf g) /\ Forall (fun o => gts o = now) out.
Proof.
  intros NH. unfold nodeConsume, transfersOf, known in *. rewrite (orb_comm (eqb _ _)).
  destruct (eqb (strOf (glabels g) "src_node_ip") []) eqn:A; cbn [orb negb andb]; [exists []; split; [reflexivity|split; constructor]|].
  destruct (eqb (strOf (glabels g) "dst_node_ip") []) eqn:B; cbn [orb negb andb]; [exists []; split; [reflexivity|split; constructor]|].
  destruct NH as [NH|NH]; [|discriminate].
  assert (R : bs (if boolOf (glabels g) "is_server" then "server" else "client") = roleOf g) by (unfold roleOf; destruct (boolOf (glabels g) "is_server"); reflexivity).
  unfold bytesIn, nodeGroup. rewrite R. clear R. generalize (roleOf g). intros role.
  assert (H1 : forall n, n = "request_io" \/ n = "response_io" -> match aget (gmetrics g) n with Some (MHist _ _ _ _) => False | _ => True end).
  { intros n Hn. destruct (aget (gmetrics g) n) as [[|s c b k]|] eqn:G; try exact I. apply NH. exists n, s, c, b, k. auto. }
  pose proof (H1 _ (or_introl eq_refl)) as Q1. pose proof (H1 _ (or_intror eq_refl)) as Q2. clear H1 NH A B.
  destruct (aget (gmetrics g) "request_io") as [[v|]|]; [|destruct Q1|]; destruct (aget (gmetrics g) "response_io") as [[w|]|]; [|destruct Q2| | |destruct Q2|];
    cbn [bind app map]; eexists; (split; [reflexivity|]); (split; repeat constructor; try reflexivity).
Qed.

(** For every sequence of requests, the node metrics are exactly the requests' transfers, one each, in order. *)
Theorem C52_exact : forall gs, Forall (fun p => ~ histogramIn (fst p) \/ known (fst p) = false) gs ->
  exists out, nodeRun gs = Ok out /\ Forall2 says out (flat_map (fun p => transfersOf (fst p)) gs).
Proof.
  induction 1 as [|[g now] gs H F (out & E & IH)]; [exists []; split; [reflexivity|constructor]|].
  cbn [nodeRun flat_map fst snd] in *. destruct (nodeConsume_ok g now H) as (o & -> & S & _). cbn [bind]. rewrite E. cbn [bind].
  exists (o ++ out). split; [reflexivity|]. apply Forall2_app; assumption.
Qed.
Print Assumptions C52_exact.

(** The bytes from one node to another, as seen by one side, are the request bytes of the requests in that direction
    plus the response bytes of those in the other. *)
Definition between (s d r : bytes) (t : transfer) : bool := eqb (t_srcIp t) s && eqb (t_dstIp t) d && eqb (t_role t) r.
Definition nodeBytes (s d r : bytes) (out : list group) : Z :=
  zsum (map (fun g => match gmetrics g with [(_, MInt v)] => v | _ => 0 end)
    (filter (fun g => eqb (strOf (glabels g) "src_node_ip") s && eqb (strOf (glabels g) "dst_node_ip") d && eqb (strOf (glabels g) "role") r) out)).
Definition requestBytes (s d r : bytes) (gs : list (group * Z)) (metric : string) : Z :=
  zsum (flat_map (fun p => if eqb (strOf (glabels (fst p)) "src_node_ip") s && eqb (strOf (glabels (fst p)) "dst_node_ip") d && eqb (roleOf (fst p)) r then bytesIn (fst p) metric else []) gs).

Lemma zsum_app a b : zsum (a ++ b) = zsum a + zsum b.
Proof. unfold zsum. induction a as [|x a IH]; cbn [app fold_right]; [lia|]. rewrite IH. lia. Qed.
Lemma says_bytes s d r out ts : Forall2 says out ts -> nodeBytes s d r out = zsum (map t_bytes (filter (between s d r) ts)).
Proof.
  unfold nodeBytes. induction 1 as [|g t out ts (_ & M & L) F IH]; [reflexivity|]. cbn [filter]. unfold between at 1.
  replace (strOf (glabels g) "src_node_ip") with (t_srcIp t) by (unfold strOf; rewrite L; reflexivity).
  replace (strOf (glabels g) "dst_node_ip") with (t_dstIp t) by (unfold strOf; rewrite L; reflexivity).
  replace (strOf (glabels g) "role") with (t_role t) by (unfold strOf; rewrite L; reflexivity).
  destruct (eqb (t_srcIp t) s && eqb (t_dstIp t) d && eqb (t_role t) r); [|exact IH]. cbn [map]. rewrite M. unfold zsum in *. cbn [fold_right]. rewrite IH. reflexivity.
Qed.
Theorem C52_conserved : forall gs s d r, Forall (fun p => ~ histogramIn (fst p)) gs -> s <> [] -> d <> [] ->
  exists out, nodeRun gs = Ok out /\ nodeBytes s d r out = requestBytes s d r gs "request_io" + requestBytes d s r gs "response_io".
Proof.
  intros gs s d r F NS ND. destruct (C52_exact gs) as (out & E & S). { eapply Forall_impl; [|exact F]. intros p H. left. exact H. }
  exists out. split; [exact E|]. rewrite (says_bytes s d r out _ S). clear E S F. unfold requestBytes.
  induction gs as [|[g now] gs IH]; [reflexivity|]. cbn [flat_map fst]. rewrite filter_app, map_app, !zsum_app, IH. clear IH.
  assert (K : zsum (map t_bytes (filter (between s d r) (transfersOf g))) =
    zsum (if eqb (strOf (glabels g) "src_node_ip") s && eqb (strOf (glabels g) "dst_node_ip") d && eqb (roleOf g) r then bytesIn g "request_io" else []) +
    zsum (if eqb (strOf (glabels g) "src_node_ip") d && eqb (strOf (glabels g) "dst_node_ip") s && eqb (roleOf g) r then bytesIn g "response_io" else [])).
  { unfold transfersOf, known. generalize (strOf (glabels g) "src_node_ip") as a, (strOf (glabels g) "dst_node_ip") as b. intros a b.
    case_eqb a (@nil Z); cbn [negb andb].
    - subst a. rewrite (proj2 (eqb_neq [] s)), (proj2 (eqb_neq [] d)) by congruence. reflexivity.
    - case_eqb b (@nil Z); cbn [negb].
      + subst b. rewrite (proj2 (eqb_neq [] s)), (proj2 (eqb_neq [] d)) by congruence. rewrite !andb_false_r. reflexivity.
      + rewrite filter_app, map_app, zsum_app. f_equal.
        * unfold bytesIn. destruct (aget (gmetrics g) "request_io") as [[v|]|]; cbn [map filter]; unfold between; cbn [t_srcIp t_dstIp t_role];
            destruct (eqb a s && eqb b d && eqb (roleOf g) r); reflexivity.
        * unfold bytesIn. destruct (aget (gmetrics g) "response_io") as [[v|]|]; cbn [map filter]; unfold between; cbn [t_srcIp t_dstIp t_role];
            rewrite (andb_comm (eqb a d)); destruct (eqb b s && eqb a d && eqb (roleOf g) r); reflexivity. }
  rewrite K. lia.
Qed.
Print Assumptions C52_conserved.

(** A request with an unknown node produces nothing, whatever its metrics. *)
Theorem C52_unknown : forall g now, strOf (glabels g) "src_node_ip" = [] \/ strOf (glabels g) "dst_node_ip" = [] -> nodeConsume g now = Ok [].
Proof.
  intros g now H. unfold nodeConsume. destruct H as [-> | ->]; [rewrite orb_true_r|]; reflexivity.
Qed.
Print Assumptions C52_unknown.
(** The only way to fail: a byte metric that is a histogram, between known nodes. *)
Theorem C52_panic : forall g now, nodeConsume g now = Panic <-> histogramIn g /\ known g = true.
Proof.
  intros g now. split.
  - intros P. destruct (known g) eqn:K.
    + split; [|reflexivity]. destruct (aget (gmetrics g) "request_io") as [[v|s c b k]|] eqn:A.
      2: { exists "request_io", s, c, b, k. auto. }
      all: destruct (aget (gmetrics g) "response_io") as [[w|s c b k]|] eqn:B; try (exists "response_io", s, c, b, k; auto; fail).
      all: destruct (nodeConsume_ok g now) as (o & E & _); [left; intros (n & s & c & b & k & [-> | ->] & G); congruence|congruence].
    + destruct (nodeConsume_ok g now (or_intror K)) as (o & E & _). congruence.
  - intros [(n & s & c & b & k & N & G) K]. unfold known in K. apply andb_true_iff in K. destruct K as [A B]. apply negb_true_iff in A, B.
    unfold nodeConsume. rewrite A, B. cbn [orb]. destruct N as [-> | ->].
    + rewrite G. reflexivity.
    + rewrite G. unfold nodeGroup. destruct (aget (gmetrics g) "request_io") as [[|]|]; reflexivity.
Qed.
Print Assumptions C52_panic.
Example exNode : let g := {| gname := "x"; gmetrics := [("request_io", MInt 100); ("response_io", MInt 7)];
    glabels := [("src_node_ip", SV (bs "10.0.0.1")); ("dst_node_ip", SV (bs "10.0.0.2")); ("src_node", SV (bs "a")); ("is_server", BV true)]; gts := 5 |} in
  known g = true /\ ~ histogramIn g /\ exists out, nodeRun [(g, 1); (g, 2)] = Ok out /\
  nodeBytes (bs "10.0.0.1") (bs "10.0.0.2") (bs "server") out = 200 /\ nodeBytes (bs "10.0.0.2") (bs "10.0.0.1") (bs "server") out = 14.
Proof.
  cbn zeta. split; [reflexivity|]. split; [intros (n & s & c & b & k & [-> | ->] & G); discriminate|]. eexists. split; [reflexivity|]. split; reflexivity.
Qed.
