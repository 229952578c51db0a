(** C46, C47: trace files. *)
From Verif Require Import Base Decimal AttrModel EnrichModel LabelNames CpuModel FileModel FileSpec FileProofs.
From Coq Require Import ZifyBool Permutation Sorting.Sorted.
Open Scope string_scope. Open Scope list_scope. Open Scope Z_scope.

Local Opaque getDateString b64.

(** * C46 *)
(** The date in a file name is the Gregorian date of the day. *)
Theorem C46_date dayNo y m d : absDate dayNo = (y, m, d) ->
  1 <= m <= 12 /\ (exists leap, (leap = true <-> leapYear y) /\ 1 <= d <= monthLength leap m /\ dayNumber leap y m d = dayNo).
Proof. intros A. destruct (absDate_spec _ _ _ _ A) as (M1 & M2 & M3 & _). split; [exact M1|]. exists (isLeap y). split; [apply isLeap_spec|]. split; assumption. Qed.
Print Assumptions C46_date.
(** Unix day 0 is 1 January 1970. *)
Example C46_epoch : absDate dayOffset = (1970, 1, 1) /\ dayNumber false 1970 1 1 = dayOffset. Proof. split; vm_compute; reflexivity. Qed.

(** Two traces get the same file name only if start time, protocol, content key and direction are equal. *)
Theorem C46_name zone p c t s p' c' t' s' : fixedZone zone -> plainName p -> plainName p' -> (forall x, In x c -> 0 <= x < 256) -> (forall x, In x c' -> 0 <= x < 256) ->
  0 <= t < 2 ^ 64 -> 0 <= t' < 2 ^ 64 -> getFileName zone p c t s = getFileName zone p' c' t' s' -> p = p' /\ c = c' /\ t = t' /\ s = s'.
Proof.
  intros Z0 P P' C C' T T' E. unfold getFileName, US in E.
  apply split_first in E; try apply date_plain. destruct E as [E1 E]. apply date_inj in E1; try assumption.
  apply split_first in E; try assumption. destruct E as [E2 E].
  apply split_last in E; try apply bool_plain. destruct E as [E3 E4]. apply b64_inj in E3; try assumption. apply formatBool_inj in E4. repeat split; assumption.
Qed.
Print Assumptions C46_name.
Lemma fixed_0 : fixedZone (fun _ => 0).
Proof. exists 0. split; [lia|reflexivity]. Qed.
Example C46_name_example : getFileName (fun _ => 28800) (bs "http") (bs "/cpu/hot") 1672887314101975422 true = bs "20230105105514.101975422_http_L2NwdS9ob3Q=_true".
Proof. vm_compute. reflexivity. Qed.
(** The directory tells the process and where it runs. *)
Theorem C46_directory wl pod cont pid wl' pod' cont' pid' : plainName wl -> plainName pod -> plainName cont -> plainName wl' -> plainName pod' -> plainName cont' ->
  pidFilePath wl pod cont pid = pidFilePath wl' pod' cont' pid' -> wl = wl' /\ pod = pod' /\ cont = cont' /\ pid = pid'.
Proof.
  intros A B C A' B' C' E. unfold pidFilePath, US in E. apply split_first in E; try assumption. destruct E as [E1 E]. apply split_first in E; try assumption. destruct E as [E2 E].
  apply split_first in E; try assumption. destruct E as [E3 E]. apply formatInt_inj in E. repeat split; assumption.
Qed.
Print Assumptions C46_directory.
(** So different traces have different files. *)
Theorem C46_path zone f f' : fixedZone zone -> wfElements f -> wfElements f' -> pathOf zone f = pathOf zone f' -> f = f'.
Proof.
  intros Z0 (A & B & C & D & K & T) (A' & B' & C' & D' & K' & T') E. unfold pathOf in E. inversion E as [[E1 E2]].
  apply C46_directory in E1; try assumption. apply C46_name in E2; try assumption. destruct f, f'; cbn in *. destruct E1 as (-> & -> & -> & ->), E2 as (-> & -> & -> & ->). reflexivity.
Qed.
Print Assumptions C46_path.
(** Not so when local time jumps back: two requests an hour apart on the day daylight saving ends share a name, and the later overwrites the earlier. *)
Definition autumn (s : Z) : Z := if s <? 1698541200 then 7200 else 3600.
Theorem C46_daylight_saving_refuted :
  getFileName autumn (bs "http") (bs "/a") 1698539400000000000 true = getFileName autumn (bs "http") (bs "/a") 1698543000000000000 true.
Proof. vm_compute. reflexivity. Qed.
Print Assumptions C46_daylight_saving_refuted.
(** Nor with an underscore in the protocol of an agent's trace. *)
Theorem C46_underscore_refuted : exists c c', c <> c' /\ getFileName (fun _ => 0) (bs "a") c 5 true = getFileName (fun _ => 0) (bs "a_AAA") c' 5 true.
Proof. exists [0; 0; 63; 4; 16; 65], [4; 16; 65]. split; [discriminate|]. vm_compute. reflexivity. Qed.
Print Assumptions C46_underscore_refuted.

(** The CPU events sent for a trace are appended to the file of that trace. *)
Lemma orElse_idem d b : d <> [] -> orElse d (orElse d b) = orElse d b.
Proof. intros D. destruct b; [destruct d; [congruence|reflexivity]|reflexivity]. Qed.
Lemma aget_merge (o : labels) : forall m k, NoDup (keys o) -> aget (mergeLabels m o) k = match aget o k with Some v => Some v | None => aget m k end.
Proof.
  unfold mergeLabels. induction o as [|[k' v'] o IH]; intros m k N; [reflexivity|]. cbn [fold_left fst snd]. inversion N as [|? ? N1 N2]; subst. rewrite IH by exact N2. cbn [aget].
  case_eqb k k'.
  - subst k'. assert (X : aget o k = None) by (apply aget_none_notin; exact N1). rewrite X. apply aget_aset_same.
  - destruct (aget o k); [reflexivity|]. apply aget_aset_other. exact E.
Qed.
Lemma seg_pid x texts : ~ In LbPid (map fst texts) -> aget (segLabels x texts) LbPid = Some (IV (x_pid x)).
Proof.
  intros N. unfold segLabels. set (m0 := [_; _; _; _; _; _] : labels). assert (H : aget m0 LbPid = Some (IV (x_pid x))) by reflexivity. clearbody m0. revert m0 H.
  induction texts as [|[k v] texts IH]; intros m0 H; [exact H|]. cbn [fold_left fst snd]. apply IH; [intros I; apply N; right; exact I|].
  destruct v; [|exact H]. rewrite aget_aset_other; [exact H|]. intros E. apply N. left. symmetry. exact E.
Qed.
Theorem C46_cpu_file zone g start x c f t s i name json ts : 0 <= start < 2 ^ 64 -> w_ts g = start -> x_pid x = intOf (w_labels g) "pid" ->
  cpuPath zone {| w_name := name; w_labels := cpuGroupLabels (w_labels g) start x (segTexts c f t s i); w_ts := ts; w_json := json |} = tracePath zone g.
Proof.
  intros R W P. unfold cpuPath, tracePath. cbn [w_labels w_ts]. rewrite W. f_equal.
  set (o := toAttributes (getElements (w_labels g) start)).
  assert (N : NoDup (keys o)).
  { unfold o, toAttributes, keys. cbn [map fst]. generalize (f_srv (getElements (w_labels g) start)). intros b.
    destruct b; repeat (constructor; [intros I; cbn [In] in I; repeat (destruct I as [I|I]; [discriminate I|]); exact I|]); constructor. }
  assert (G : forall k, aget (cpuGroupLabels (w_labels g) start x (segTexts c f t s i)) k = match aget o k with Some v => Some v | None => aget (segLabels x (segTexts c f t s i)) k end).
  { intros k. unfold cpuGroupLabels. apply aget_merge. exact N. }
  assert (Tm : aget o LTimestamp = Some (IV (s64 start))) by (unfold o, toAttributes; destruct (f_srv (getElements (w_labels g) start)); reflexivity).
  assert (Ti : w64 (intOf (cpuGroupLabels (w_labels g) start x (segTexts c f t s i)) LTimestamp) = start).
  { unfold intOf. rewrite G, Tm. apply w64_s64. exact R. }
  rewrite Ti.
  assert (Sv : aget o LIsServer = Some (BV (boolOf (w_labels g) LIsServer))) by reflexivity.
  assert (S : boolOf (cpuGroupLabels (w_labels g) start x (segTexts c f t s i)) LIsServer = boolOf (w_labels g) LIsServer) by (unfold boolOf at 1; rewrite G, Sv; reflexivity).
  assert (Pi : intOf (cpuGroupLabels (w_labels g) start x (segTexts c f t s i)) LbPid = intOf (w_labels g) LbPid).
  { unfold intOf at 1. rewrite G. assert (X : aget o LbPid = None) by (unfold o, toAttributes; destruct (f_srv (getElements (w_labels g) start)); reflexivity).
    rewrite X, seg_pid; [exact P|]. unfold segTexts. cbn [map fst In]. intros I. repeat (destruct I as [I|I]; [discriminate I|]). exact I. }
  assert (Pr : strOf (cpuGroupLabels (w_labels g) start x (segTexts c f t s i)) LProtocol = strOf (w_labels g) LProtocol).
  { unfold strOf at 1. rewrite G. assert (X : aget o LProtocol = Some (SV (strOf (w_labels g) LProtocol))) by (unfold o, toAttributes; destruct (f_srv (getElements (w_labels g) start)); reflexivity). rewrite X. reflexivity. }
  assert (Ck : strOf (cpuGroupLabels (w_labels g) start x (segTexts c f t s i)) LContentKey = strOf (w_labels g) LContentKey).
  { unfold strOf at 1. rewrite G. assert (X : aget o LContentKey = Some (SV (strOf (w_labels g) LContentKey))) by (unfold o, toAttributes; destruct (f_srv (getElements (w_labels g) start)); reflexivity). rewrite X. reflexivity. }
  assert (Nm : forall k v, aget o k = Some (SV v) -> strOf (cpuGroupLabels (w_labels g) start x (segTexts c f t s i)) k = v) by (intros k v E; unfold strOf; rewrite G, E; reflexivity).
  unfold getElements. rewrite S, Pi, Pr, Ck. unfold o, toAttributes, getElements in Nm. cbn [f_srv f_wl f_pod f_cont f_proto f_ck f_ts] in Nm. clear G N o Tm Sv.
  destruct (boolOf (w_labels g) LIsServer) eqn:B.
  - rewrite (Nm LbDstWorkloadName _ eq_refl), (Nm LbDstPod _ eq_refl), (Nm LbDstContainer _ eq_refl). rewrite !orElse_idem by discriminate. reflexivity.
  - rewrite (Nm LbSrcWorkloadName _ eq_refl), (Nm LbSrcPod _ eq_refl), (Nm LbSrcContainer _ eq_refl). rewrite !orElse_idem by discriminate. reflexivity.
Qed.
Print Assumptions C46_cpu_file.

(** ** What a file holds *)
Definition content (s : fsys) (p : path) : option bytes := option_map snd (aget (fs_files s) p).
Lemma elements_eqb_eq a b : elements_eqb a b = true <-> a = b.
Proof.
  unfold elements_eqb. split.
  - intros H. repeat (apply andb_true_iff in H; destruct H as [H ?]). rewrite !eqb_eq, ?Z.eqb_eq in *. destruct a, b; cbn in *; subst. reflexivity.
  - intros ->. repeat (apply andb_true_iff; split); try apply eqb_refl; apply Z.eqb_refl.
Qed.
Lemma ids_eqb zone i j : fixedZone zone -> wfElements i -> wfElements j -> eqb (pathOf zone i) (pathOf zone j) = elements_eqb i j.
Proof.
  intros Z0 I J. case_eqb (pathOf zone i) (pathOf zone j).
  - apply C46_path in E; try assumption. symmetry. apply elements_eqb_eq. exact E.
  - destruct (elements_eqb i j) eqn:X; [|reflexivity]. apply elements_eqb_eq in X. congruence.
Qed.
Definition wfOp (o : fop) : Prop := match o with FWrite g _ => (isTrace g = true -> wfElements (traceId g)) /\ (isCpu g = true -> wfElements (cpuId g)) | FRemove _ => True end.
(** Every operation changes the file of a trace as that trace's history says, and no operation on another trace touches it. *)
Theorem C46_own_file zone order creatable maxFiles s o s' i : fixedZone zone -> wfElements i -> wfOp o -> fstep zone order creatable maxFiles s o = Ok s' ->
  content s' (pathOf zone i) = history i (creatable (pathOf zone i)) (match o with FRemove p => eqb p (pathOf zone i) && existsb (eqb p) (fs_pending s) | FWrite _ _ => false end) (content s (pathOf zone i)) o.
Proof.
  intros Z0 WI WO E. destruct o as [g now|p]; unfold fstep, history in *.
  - destruct WO as [WT WC]. fold (isTrace g) in E. destruct (isTrace g) eqn:T.
    + unfold writeTrace in E. destruct (rotate order maxFiles _) as [old| |]; cbn [bind] in E; try discriminate E. inversion E; subst s'. clear E. unfold content. cbn [fs_files].
      change (tracePath zone g) with (pathOf zone (traceId g)).
      destruct (creatable (pathOf zone (traceId g))) eqn:C.
      * rewrite aget_aset, eqb_sym, ids_eqb by auto. destruct (elements_eqb (traceId g) i) eqn:X; [|reflexivity]. apply elements_eqb_eq in X. rewrite <- X, C. reflexivity.
      * destruct (elements_eqb (traceId g) i) eqn:X; [|reflexivity]. apply elements_eqb_eq in X. rewrite <- X, C. reflexivity.
    + fold (isCpu g) in E. destruct (isCpu g) eqn:K; inversion E; subst s'; [|reflexivity]. clear E. unfold writeCpuEvents. change (cpuPath zone g) with (pathOf zone (cpuId g)).
      unfold content. destruct (elements_eqb (cpuId g) i) eqn:X.
      * apply elements_eqb_eq in X. rewrite X. destruct (aget (fs_files s) (pathOf zone i)) as [[t c]|] eqn:A; cbn [fs_files]; [rewrite aget_aset_same; reflexivity|rewrite A; reflexivity].
      * destruct (aget (fs_files s) (pathOf zone (cpuId g))) as [[t c]|] eqn:A; [|reflexivity]. cbn [fs_files]. rewrite aget_aset, eqb_sym, ids_eqb by auto. rewrite X. reflexivity.
  - destruct (existsb (eqb p) (fs_pending s)) eqn:P; injection E as <-; [|rewrite andb_false_r; reflexivity]. unfold content. cbn [fs_files]. rewrite andb_true_r.
    rewrite aget_adel. rewrite (eqb_sym p). destruct (eqb (pathOf zone i) p); reflexivity.
Qed.
Print Assumptions C46_own_file.
(** A trace stays in its file, followed by the CPU events of that trace in the order sent, while its file is not removed and the trace is not written again. *)
Definition leavesAlone (zone : Z -> Z) (i : elements) (o : fop) : Prop :=
  wfOp o /\ match o with FWrite g _ => isTrace g = true -> traceId g <> i | FRemove p => p <> pathOf zone i end.
Definition cpuTexts (i : elements) (h : list fop) : bytes :=
  flat_map (fun o => match o with FWrite g _ => if negb (isTrace g) && isCpu g && elements_eqb (cpuId g) i then 10 :: bs "------" ++ 10 :: w_json g else [] | FRemove _ => [] end) h.
Theorem C46_trace_kept zone order creatable maxFiles i h s c s' : fixedZone zone -> wfElements i -> Forall (leavesAlone zone i) h -> content s (pathOf zone i) = Some c ->
  frun zone order creatable maxFiles s h = Ok s' -> content s' (pathOf zone i) = Some (c ++ cpuTexts i h).
Proof.
  intros Z0 WI. revert s c. induction h as [|o h IH]; intros s c F C E.
  - cbn [frun cpuTexts flat_map] in *. inversion E; subst. rewrite app_nil_r. exact C.
  - cbn [frun] in E. destruct (fstep zone order creatable maxFiles s o) as [s1| |] eqn:S; cbn [bind] in E; try discriminate E. inversion F as [|? ? [W L] F']; subst.
    pose proof (C46_own_file _ _ _ _ _ _ _ i Z0 WI W S) as H. rewrite C in H. unfold cpuTexts. cbn [flat_map]. rewrite app_assoc. apply (IH s1 _ F'); [|exact E].
    destruct o as [g now|p]; unfold history in H.
    + destruct (isTrace g) eqn:T; cbn [negb andb].
      * rewrite app_nil_r. destruct (elements_eqb (traceId g) i) eqn:X; [apply elements_eqb_eq in X; destruct (L eq_refl X)|exact H].
      * destruct (isCpu g); cbn [andb]; [|rewrite app_nil_r; exact H]. destruct (elements_eqb (cpuId g) i); [exact H|rewrite app_nil_r; exact H].
    + rewrite app_nil_r. case_eqb p (pathOf zone i); [destruct (L E0)|]. exact H.
Qed.
Print Assumptions C46_trace_kept.
Example C46_example :
  let tr := {| w_name := "single_net_request_metric_group"; w_labels := [("pid", IV 7); (LContentKey, SV (bs "/a")); (LIsServer, BV true); (LProtocol, SV (bs "http"))]; w_ts := 1000000000; w_json := bs "T" |} in
  let cpu := {| w_name := "camera_event_group"; w_labels := [("pid", IV 7); (LContentKey, SV (bs "/a")); (LIsServer, BV true); (LProtocol, SV (bs "http")); (LTimestamp, IV 1000000000)]; w_ts := 5; w_json := bs "C" |} in
  wfElements (traceId tr) /\ cpuId cpu = traceId tr /\
  (exists s', frun (fun _ => 0) (fun l => l) (fun _ => true) 50 fs0 [FWrite tr 1; FWrite cpu 2] = Ok s' /\
     content s' (bs "NoWorkloadName_NoPodName_NoContainerName_7", bs "19700101000001.00_http_L2E=_true") = Some (bs "T" ++ 10 :: bs "------" ++ 10 :: bs "C")).
Proof.
  cbv zeta. split.
  - unfold wfElements, plainName. repeat split; try (intros I; vm_compute in I; repeat (destruct I as [I|I]; [discriminate I|]); exact I); try (vm_compute; congruence).
    + vm_compute in H. repeat (destruct H as [<-|H]; [discriminate|]). destruct H.
    + vm_compute in H. repeat (destruct H as [<-|H]; [reflexivity|]). destruct H.
  - split; [vm_compute; reflexivity|]. eexists. split; vm_compute; reflexivity.
Qed.

(** * C47 *)
(** The order by modification time: a permutation in which the times do not decrease. *)
Definition sortsByTime (order : list (bytes * Z) -> list (bytes * Z)) : Prop := forall l, Permutation (order l) l /\ StronglySorted (fun a b => snd a <= snd b) (order l).
Lemma order_len order l : sortsByTime order -> zlen (order l) = zlen l.
Proof. intros S. unfold zlen. rewrite (Permutation_length (proj1 (S l))). reflexivity. Qed.
Lemma sorted_split {A} (R : A -> A -> Prop) : forall l n a b, StronglySorted R l -> In a (firstn n l) -> In b (skipn n l) -> R a b.
Proof.
  induction l as [|x l IH]; intros [|n] a b S I J; cbn [firstn skipn] in *; try contradiction. inversion S as [|? ? S' F]; subst. destruct I as [<-|I].
  - rewrite Forall_forall in F. apply F. rewrite <- (firstn_skipn n l). apply in_app_iff. right. exact J.
  - apply (IH n); assumption.
Qed.
(** A full directory loses its oldest files; the newest, half the limit less one, stay. *)
Theorem C47_rotation order maxFiles entries : sortsByTime order -> 2 <= maxFiles -> maxFiles <= zlen entries ->
  exists gone kept, rotate order maxFiles entries = Ok gone /\ Permutation (gone ++ kept) entries /\ zlen kept = maxFiles / 2 - 1 /\
    forall g k, In g gone -> In k kept -> snd g <= snd k.
Proof.
  intros S M L. set (n := zlen entries - Z.quot maxFiles 2 + 1). exists (firstn (Z.to_nat n) (order entries)), (skipn (Z.to_nat n) (order entries)).
  assert (Q : Z.quot maxFiles 2 = maxFiles / 2) by (apply Z.quot_div_nonneg; lia).
  assert (N : 0 <= n <= zlen entries) by (unfold n; rewrite Q; lia).
  split; [|split; [|split]].
  - unfold rotate. replace (maxFiles <=? 0) with false by lia. rewrite (order_len order _ S). replace (zlen entries <? maxFiles) with false by lia. fold n. replace ((n <? 0) || (zlen entries <? n)) with false by lia. reflexivity.
  - rewrite firstn_skipn. apply S.
  - unfold zlen. rewrite skipn_length. pose proof (order_len order entries S) as X. unfold zlen in X, N, L. unfold n, zlen. rewrite Q. unfold n, zlen in N. rewrite Q in N. lia.
  - intros g k G K. apply (sorted_split (fun a b => snd a <= snd b) (order entries) (Z.to_nat n)); [apply S|exact G|exact K].
Qed.
Print Assumptions C47_rotation.
(** Below the limit, or without one, nothing is removed. *)
Theorem C47_no_rotation order maxFiles entries : sortsByTime order -> maxFiles <= 0 \/ zlen entries < maxFiles -> rotate order maxFiles entries = Ok [].
Proof. intros S H. unfold rotate. rewrite (order_len order _ S). destruct (Z.leb_spec maxFiles 0); [reflexivity|]. replace (zlen entries <? maxFiles) with true by lia. reflexivity. Qed.
Print Assumptions C47_no_rotation.
(** Writing never fails for a limit other than one. *)
Theorem C47_no_panic zone order creatable maxFiles h s : sortsByTime order -> maxFiles <> 1 -> exists s', frun zone order creatable maxFiles s h = Ok s'.
Proof.
  intros S M. revert s. induction h as [|o h IH]; intros s; [exists s; reflexivity|]. cbn [frun].
  assert (X : exists s1, fstep zone order creatable maxFiles s o = Ok s1).
  { destruct o as [g now|p]; unfold fstep; [|eexists; reflexivity]. destruct (_ || _); [|destruct (eqb (w_name g) "camera_event_group"); eexists; reflexivity].
    unfold writeTrace. assert (Y : exists old, rotate order maxFiles (entriesIn (fst (tracePath zone g)) s) = Ok old).
    { destruct (Z.le_gt_cases maxFiles 0); [exists []; apply C47_no_rotation; auto|]. destruct (Z.lt_ge_cases (zlen (entriesIn (fst (tracePath zone g)) s)) maxFiles); [exists []; apply C47_no_rotation; auto|].
      destruct (C47_rotation order maxFiles (entriesIn (fst (tracePath zone g)) s) S) as (gone & ? & R & _); [lia|lia|]. exists gone. exact R. }
    destruct Y as (old & ->). cbn [bind]. eexists. reflexivity. }
  destruct X as (s1 & ->). cbn [bind]. apply IH.
Qed.
Print Assumptions C47_no_panic.
(** With a limit of one the second trace of a process stops the collector. *)
Theorem C47_limit_one_refuted order entries : sortsByTime order -> entries <> [] -> rotate order 1 entries = Panic.
Proof.
  intros S N. unfold rotate. rewrite (order_len order _ S). assert (L : 1 <= zlen entries) by (destruct entries; [congruence|unfold zlen; cbn [List.length]; lia]). change (1 <=? 0) with false. cbn [Z.quot].
  replace (zlen entries <? 1) with false by lia. cbv zeta. replace (_ || _) with true; [reflexivity|]. change (Z.quot 1 2) with 0. lia.
Qed.
Print Assumptions C47_limit_one_refuted.
(** With a limit of two or three even the newest files are removed. *)
Theorem C47_keeps_newest_refuted order maxFiles entries : sortsByTime order -> maxFiles = 2 \/ maxFiles = 3 -> maxFiles <= zlen entries ->
  exists gone, rotate order maxFiles entries = Ok gone /\ Permutation gone entries.
Proof.
  intros S M L. destruct (C47_rotation order maxFiles entries S) as (gone & kept & R & P & K & _); [lia|exact L|]. exists gone. split; [exact R|].
  assert (kept = []) by (destruct kept; [reflexivity|]; unfold zlen in K; cbn [List.length] in K; destruct M; subst maxFiles; [change (2 / 2) with 1 in K|change (3 / 2) with 1 in K]; lia).
  subst kept. rewrite app_nil_r in P. exact P.
Qed.
Print Assumptions C47_keeps_newest_refuted.
(** The files of a process, less those a rotation is still removing, never exceed the limit. *)
Definition remaining (dir : bytes) (s : fsys) : list (bytes * Z) := filter (fun e => negb (existsb (eqb (dir, fst e)) (fs_pending s))) (entriesIn dir s).
Definition cnt (dir : bytes) (f : bytes -> bool) (m : list (path * (Z * bytes))) : Z := zlen (filter (fun e => f (fst e)) (flat_map (fun x => if eqb (fst (fst x)) dir then [(snd (fst x), fst (snd x))] else []) m)).
Lemma cnt_cons dir f x m : cnt dir f (x :: m) = cnt dir f m + (if eqb (fst (fst x)) dir && f (snd (fst x)) then 1 else 0).
Proof.
  unfold cnt. cbn [flat_map]. rewrite filter_app. unfold zlen. rewrite app_length. destruct (eqb (fst (fst x)) dir); cbn [andb filter fst]; [|cbn [List.length]; lia]. destruct (f (snd (fst x))); cbn [List.length]; lia.
Qed.
Lemma cnt_aset dir f m p v : cnt dir f (aset m p v) <= cnt dir f m + (if eqb (fst p) dir && f (snd p) && negb (ahas m p) then 1 else 0).
Proof.
  induction m as [|[q w] m IH]; cbn [aset].
  - rewrite cnt_cons. cbn [fst]. unfold ahas. cbn [aget negb]. rewrite andb_true_r. lia.
  - unfold ahas in *. cbn [aget]. case_eqb p q.
    + subst q. rewrite !cnt_cons. cbn [fst negb]. rewrite andb_false_r. lia.
    + rewrite !cnt_cons. cbn [fst]. destruct (eqb (fst q) dir && f (snd q)); destruct (eqb (fst p) dir && f (snd p) && negb match aget m p with Some _ => true | None => false end); lia.
Qed.
Lemma cnt_mono dir f f' m : (forall n, f n = true -> f' n = true) -> cnt dir f m <= cnt dir f' m.
Proof. intros H. induction m as [|x m IH]; [apply Z.le_refl|]. rewrite !cnt_cons. destruct (eqb (fst (fst x)) dir); cbn [andb]; [|lia]. destruct (f (snd (fst x))) eqn:E; [rewrite (H _ E); lia|destruct (f' (snd (fst x))); lia]. Qed.
Lemma cnt_adel dir f f' m p : (forall n, (dir, n) <> p -> f n = true -> f' n = true) -> cnt dir f (adel m p) <= cnt dir f' m.
Proof.
  intros H. induction m as [|[q w] m IH]; [unfold adel; cbn; lia|]. change (adel ((q, w) :: m) p) with (if negb (eqb p q) then (q, w) :: adel m p else adel m p). rewrite (cnt_cons _ f'). cbn [fst].
  case_eqb p q; cbn [negb]; [destruct (eqb (fst q) dir && f' (snd q)); lia|]. rewrite cnt_cons. cbn [fst]. case_eqb (fst q) dir; cbn [andb]; [|lia].
  destruct (f (snd q)) eqn:F; [|destruct (f' (snd q)); lia]. rewrite H; [lia| |exact F]. intros X. apply E. rewrite <- X, <- E0. destruct q; reflexivity.
Qed.
Lemma remaining_cnt dir s : zlen (remaining dir s) = cnt dir (fun n => negb (existsb (eqb (dir, n)) (fs_pending s))) (fs_files s).
Proof. reflexivity. Qed.
Lemma filter_len {A} (f : A -> bool) l : zlen (filter f l) <= zlen l.
Proof. unfold zlen. induction l as [|x l IH]; cbn [filter]; [lia|]. destruct (f x); cbn [List.length]; lia. Qed.
Lemma removeOne_in (p q : path) l : q <> p -> existsb (eqb q) (removeOne p l) = existsb (eqb q) l.
Proof.
  intros N. induction l as [|x l IH]; [reflexivity|]. cbn [removeOne existsb]. case_eqb x p; [subst x; assert (X : eqb q p = false) by (apply eqb_neq; exact N); rewrite X; reflexivity|]. cbn [existsb]. rewrite IH. reflexivity.
Qed.
Theorem C47_bound zone order creatable maxFiles h s : sortsByTime order -> 2 <= maxFiles -> frun zone order creatable maxFiles fs0 h = Ok s -> forall dir, zlen (remaining dir s) <= maxFiles.
Proof.
  intros S M. assert (G : forall h s0 s, (forall dir, zlen (remaining dir s0) <= maxFiles) -> frun zone order creatable maxFiles s0 h = Ok s -> forall dir, zlen (remaining dir s) <= maxFiles).
  2:{ intros E. apply (G h fs0 s); [|exact E]. intros dir. cbn. lia. }
  clear h s. induction h as [|o h IH]; intros s0 s I E; cbn [frun] in E; [inversion E; subst; exact I|].
  destruct (fstep zone order creatable maxFiles s0 o) as [s1| |] eqn:F; cbn [bind] in E; try discriminate E. apply (IH s1 s); [|exact E]. clear IH E. intros dir. specialize (I dir).
  destruct o as [g now|p]; unfold fstep in F.
  - destruct (_ || _).
    + unfold writeTrace in F. remember (tracePath zone g) as p eqn:P. clear P. destruct (rotate order maxFiles (entriesIn (fst p) s0)) as [old| |] eqn:R; cbn [bind] in F; try discriminate F. injection F as <-.
      rewrite remaining_cnt in *. cbn [fs_files fs_pending] in *.
      set (pend := fs_pending s0 ++ map (fun e => (fst p, fst e)) old).
      assert (D : cnt dir (fun n => negb (existsb (eqb (dir, n)) pend)) (fs_files s0) <= maxFiles - (if eqb (fst p) dir then 1 else 0)).
      { case_eqb (fst p) dir; [|refine (Z.le_trans _ _ _ (cnt_mono _ _ _ _ _) _); [|rewrite Z.sub_0_r; exact I]; intros n X; cbv beta in *; unfold pend in X; rewrite existsb_app in X; destruct (existsb (eqb (dir, n)) (fs_pending s0)); [discriminate X|reflexivity]].
        subst dir. destruct (Z.lt_ge_cases (zlen (entriesIn (fst p) s0)) maxFiles) as [L|L].
        - refine (Z.le_trans _ _ _ (filter_len _ _) _). unfold entriesIn in L. lia.
        - destruct (C47_rotation order maxFiles (entriesIn (fst p) s0) S M L) as (gone & kept & R' & Pm & K & _). rewrite R' in R. injection R as <-.
          unfold cnt. change (flat_map _ (fs_files s0)) with (entriesIn (fst p) s0). set (f := fun e : bytes * Z => negb (existsb (eqb (fst p, fst e)) pend)).
          assert (X : zlen (filter f (entriesIn (fst p) s0)) = zlen (filter f (gone ++ kept))).
          { unfold zlen. f_equal. apply Permutation_length. clear -Pm. induction Pm as [|x l l' Q IHQ|x y l|l l' l'' Q1 IH1 Q2 IH2]; cbn [filter]; [constructor|destruct (f x); [constructor|]; exact IHQ|destruct (f x), (f y); try apply Permutation_refl; apply perm_swap|eapply Permutation_trans; eassumption]. }
          rewrite X, filter_app. assert (N : filter f gone = []).
          { assert (W : forall x, In x gone -> f x = false). { intros x J. unfold f. replace (existsb (eqb (fst p, fst x)) pend) with true; [reflexivity|]. symmetry. apply existsb_exists. exists (fst p, fst x). split; [|apply eqb_refl]. unfold pend. apply in_app_iff. right. apply in_map_iff. exists x. split; [reflexivity|exact J]. }
            clearbody f; clear - W. induction gone as [|x gone IH]; [reflexivity|]. cbn [filter]. rewrite (W x (or_introl eq_refl)). apply IH. intros y J. apply W. right. exact J. }
          rewrite N. cbn [app]. pose proof (filter_len f kept). lia. }
      destruct (creatable p); [|destruct (eqb (fst p) dir); lia].
      pose proof (cnt_aset dir (fun n => negb (existsb (eqb (dir, n)) pend)) (fs_files s0) p (now, w_json g)) as A. destruct (eqb (fst p) dir); cbn [andb] in A; [|lia]. destruct (_ && _) in A; lia.
    + destruct (eqb (w_name g) "camera_event_group"); injection F as <-; [|exact I]. unfold writeCpuEvents. destruct (aget (fs_files s0) (cpuPath zone g)) as [[t c]|] eqn:A; [|exact I].
      rewrite remaining_cnt in *. cbn [fs_files fs_pending] in *. refine (Z.le_trans _ _ _ (cnt_aset _ _ _ _ _) _). unfold ahas. rewrite A. cbn [negb]. rewrite andb_false_r. lia.
  - destruct (existsb (eqb p) (fs_pending s0)) eqn:X; injection F as <-; [|exact I]. rewrite remaining_cnt in *. cbn [fs_files fs_pending] in *.
    refine (Z.le_trans _ _ _ (cnt_adel _ _ _ _ _ _) I). intros n N Y. rewrite removeOne_in in Y by exact N. exact Y.
Qed.
Print Assumptions C47_bound.
(** An order by modification time exists, and a directory of five files with a limit of four keeps the newest one. *)
Fixpoint insertByTime (x : bytes * Z) (l : list (bytes * Z)) : list (bytes * Z) := match l with [] => [x] | y :: r => if snd x <=? snd y then x :: l else y :: insertByTime x r end.
Definition sortByTime (l : list (bytes * Z)) : list (bytes * Z) := fold_right insertByTime [] l.
Lemma insert_perm x l : Permutation (insertByTime x l) (x :: l).
Proof. induction l as [|y l IH]; cbn [insertByTime]; [apply Permutation_refl|]. destruct (snd x <=? snd y); [apply Permutation_refl|]. eapply Permutation_trans; [apply perm_skip, IH|apply perm_swap]. Qed.
Lemma insert_sorted x l : StronglySorted (fun a b => snd a <= snd b) l -> StronglySorted (fun a b : bytes * Z => snd a <= snd b) (insertByTime x l).
Proof.
  induction l as [|y l IH]; intros S; cbn [insertByTime]; [repeat constructor|]. inversion S as [|? ? S' F]; subst. destruct (Z.leb_spec (snd x) (snd y)) as [L|L].
  - constructor; [exact S|]. constructor; [exact L|]. rewrite Forall_forall in *. intros z I. specialize (F z I). cbn in F. lia.
  - constructor; [apply IH, S'|]. rewrite Forall_forall in *. intros z I. apply (Permutation_in _ (insert_perm x l)) in I. destruct I as [<-|I]; [lia|]. apply F. exact I.
Qed.
Lemma sortByTime_ok : sortsByTime sortByTime.
Proof.
  intros l. induction l as [|x l [P S]]; [split; [apply Permutation_refl|constructor]|]. cbn [sortByTime fold_right]. split; [eapply Permutation_trans; [apply insert_perm|apply perm_skip, P]|apply insert_sorted, S].
Qed.
Example C47_example : rotate sortByTime 4 [(bs "c", 30); (bs "a", 10); (bs "e", 50); (bs "b", 20); (bs "d", 40)] = Ok [(bs "a", 10); (bs "b", 20); (bs "c", 30); (bs "d", 40)].
Proof. vm_compute. reflexivity. Qed.
