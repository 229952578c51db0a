(* Lemmas about the lock programs: a static order of the locks that every function respects, and the invariant it gives
   to all schedules. *)
From Coq Require Import Lia.
From Verif Require Import Base LockModel LockSpec.
Open Scope list_scope.
Open Scope Z_scope.

Notation holds := (list (lock * mode)).

Definition rank (l : lock) : nat :=
  match l with
  | LSem => 0 | LRsUpd => 1 | LSvcUpd => 2 | LC => 3 | LP => 4 | LS => 5 | LHost => 6 | LNode => 7 | LPod => 8 | LRs => 9
  | LQueue => 10 | LSvc => 11 | LWork => 12
  | LTidQ => 0 | LRing => 1 | LJQ => 0 | LJt => 1
  end%nat.

Definition guard (v : var) : option lock :=
  match v with
  | VC => Some LC | VIp => Some LP | VIpS => Some LS | VHost => Some LHost | VNode => Some LNode | VPod => Some LPod
  | VRs => Some LRs | VQueue => Some LQueue | VSvc => Some LSvc | VWork => Some LWork | VPorts _ => None
  | VRings => Some LRing | VTids => Some LTidQ | VJava => Some LJt
  | VSeg | VJavaQ | VOn | VApm | VSample | VChan => None
  end.

Definition above (h : holds) (l : lock) : bool := forallb (fun p => (rank (fst p) <? rank l)%nat) h.
Definition mayRead (h : holds) (v : var) : bool :=
  match guard v with Some l => existsb (fun p => eqb (fst p) l) h | None => false end.
Definition mayWrite (h : holds) (v : var) : bool :=
  match guard v with Some l => existsb (fun p => eqb (fst p) l && eqb (snd p) W) h | None => false end.

(* what is held after the program, when it takes the locks upwards, releases the last taken first, and touches the
   checked tables only under their lock *)
Fixpoint go (chk : var -> bool) (h : holds) (p : list act) : option holds :=
  match p with
  | [] => Some h
  | ARLock l :: r => if above h l then go chk ((l, R) :: h) r else None
  | ALock l :: r => if above h l then go chk ((l, W) :: h) r else None
  | AAcquire :: r => if above h LSem then go chk ((LSem, R) :: h) r else None
  | ARUnlock l :: r => match h with (l', R) :: h' => if eqb l' l then go chk h' r else None | _ => None end
  | AUnlock l :: r => match h with (l', W) :: h' => if eqb l' l then go chk h' r else None | _ => None end
  | ARelease :: r => match h with (LSem, R) :: h' => go chk h' r | _ => None end
  | ARead v :: r => if negb (chk v) || mayRead h v then go chk h r else None
  | AWrite v :: r => if negb (chk v) || mayWrite h v then go chk h r else None
  | ASend :: r => go chk h r
  end.

Lemma go_app chk : forall p q h, go chk h (p ++ q) = match go chk h p with Some h' => go chk h' q | None => None end.
Proof.
  induction p as [|a p IH]; intros q h; [reflexivity|].
  destruct a; cbn [app go].
  - destruct (above h l); [apply IH|reflexivity].
  - destruct h as [|[l' m'] h']; [reflexivity|]. destruct m'; [|reflexivity|reflexivity]. destruct (eqb l' l); [apply IH|reflexivity].
  - destruct (above h l); [apply IH|reflexivity].
  - destruct h as [|[l' m'] h']; [reflexivity|]. destruct m'; [reflexivity| |reflexivity]. destruct (eqb l' l); [apply IH|reflexivity].
  - destruct (above h LSem); [apply IH|reflexivity].
  - destruct h as [|[l' m'] h']; [reflexivity|]. destruct l'; try reflexivity. destruct m'; [apply IH|reflexivity|reflexivity].
  - destruct (negb (chk v) || mayRead h v); [apply IH|reflexivity].
  - destruct (negb (chk v) || mayWrite h v); [apply IH|reflexivity].
  - apply IH.
Qed.

(* a program that leaves alone what is held, as long as only locks below b are held *)
Definition bal (chk : var -> bool) (b : nat) (p : list act) : Prop :=
  forall h, (forall q, In q h -> (rank (fst q) < b)%nat) -> go chk h p = Some h.

Lemma bal_nil chk b : bal chk b [].
Proof. intros h _. reflexivity. Qed.

Lemma bal_app chk b p q : bal chk b p -> bal chk b q -> bal chk b (p ++ q).
Proof. intros Hp Hq h Hh. rewrite go_app, (Hp h Hh). apply Hq, Hh. Qed.

Lemma bal_times chk b n p : bal chk b p -> bal chk b (times n p).
Proof. intros Hp. induction n as [|n IH]; [apply bal_nil|]. apply bal_app; assumption. Qed.

Lemma bal_flat_map {A} chk b (f : A -> list act) l : (forall x, In x l -> bal chk b (f x)) -> bal chk b (flat_map f l).
Proof.
  induction l as [|x l IH]; intros Hf; [apply bal_nil|]. cbn [flat_map]. apply bal_app.
  - apply Hf. left. reflexivity.
  - apply IH. intros y Hy. apply Hf. right. exact Hy.
Qed.

Lemma bal_if (c : bool) chk b p q : (c = true -> bal chk b p) -> (c = false -> bal chk b q) -> bal chk b (if c then p else q).
Proof. destruct c; intros Hp Hq; [apply Hp|apply Hq]; reflexivity. Qed.

Lemma bal_mono chk b b' p : (b' <= b)%nat -> bal chk b p -> bal chk b' p.
Proof. intros Hb Hp h Hh. apply Hp. intros q Hq. specialize (Hh q Hq). lia. Qed.

Lemma above_lt h l b : (forall q, In q h -> (rank (fst q) < b)%nat) -> (b <= rank l)%nat -> above h l = true.
Proof. intros Hh Hb. apply forallb_forall. intros q Hq. specialize (Hh q Hq). apply Nat.ltb_lt. lia. Qed.

Lemma bal_rd chk b l v : (b <= rank l)%nat -> (chk v = true -> guard v = Some l) -> bal chk b (rd l v).
Proof.
  intros Hb Hg h Hh. unfold rd. cbn [go]. rewrite (above_lt h l b Hh Hb).
  destruct (chk v) eqn:Hc.
  - unfold mayRead. rewrite (Hg eq_refl). cbn [existsb fst negb orb]. rewrite (eqb_refl l). cbn [orb]. reflexivity.
  - cbn [negb orb]. rewrite (eqb_refl l). reflexivity.
Qed.

Lemma bal_wr chk b l v : (b <= rank l)%nat -> (chk v = true -> guard v = Some l) -> bal chk b (wr l v).
Proof.
  intros Hb Hg h Hh. unfold wr. cbn [go]. rewrite (above_lt h l b Hh Hb).
  destruct (chk v) eqn:Hc.
  - unfold mayWrite. rewrite (Hg eq_refl). cbn [existsb fst snd negb orb andb]. rewrite (eqb_refl l), (eqb_refl W). cbn [orb andb]. reflexivity.
  - cbn [negb orb]. rewrite (eqb_refl l). reflexivity.
Qed.

(* around a section *)
Lemma bal_rsection chk b l p : (b <= rank l)%nat -> bal chk (S (rank l)) p -> bal chk b ([ARLock l] ++ p ++ [ARUnlock l]).
Proof.
  intros Hb Hp h Hh. cbn [app go]. rewrite (above_lt h l b Hh Hb), go_app, Hp.
  - cbn [go]. rewrite (eqb_refl l). reflexivity.
  - intros q [<-|Hq]; [cbn [fst]; lia|]. specialize (Hh q Hq). lia.
Qed.

Lemma bal_wsection chk b l p : (b <= rank l)%nat -> bal chk (S (rank l)) p -> bal chk b ([ALock l] ++ p ++ [AUnlock l]).
Proof.
  intros Hb Hp h Hh. cbn [app go]. rewrite (above_lt h l b Hh Hb), go_app, Hp.
  - cbn [go]. rewrite (eqb_refl l). reflexivity.
  - intros q [<-|Hq]; [cbn [fst]; lia|]. specialize (Hh q Hq). lia.
Qed.

(* the tables that are checked: a for the host ports and the workloads, b for the services *)
Definition chk (a b : bool) (v : var) : bool :=
  match v with
  | VHost | VWork => a | VSvc => b | VPorts _ => false
  | VSeg | VJavaQ | VOn | VApm | VSample | VChan => false
  | _ => true
  end.

Ltac bal1 :=
  repeat match goal with
  | |- bal _ _ [] => apply bal_nil
  | |- bal _ _ (rd _ _) => apply bal_rd; [cbn [rank]; lia|reflexivity]
  | |- bal _ _ (wr _ _) => apply bal_wr; [cbn [rank]; lia|reflexivity]
  | |- bal _ _ (times _ _) => apply bal_times
  | |- bal _ _ (_ ++ _) => apply bal_app
  | |- bal _ _ (if _ then _ else _) => apply bal_if; intros _
  end.

Lemma bal_addC a b : bal (chk a b) 3 addContainerByIpPort.
Proof. unfold addContainerByIpPort. bal1. Qed.
Lemma bal_delC a b f : bal (chk a b) 3 (deleteContainerByIpPort f).
Proof. unfold deleteContainerByIpPort. bal1. Qed.
Lemma bal_addS a b : bal (chk a b) 3 addServiceByIpPort.
Proof. unfold addServiceByIpPort. bal1. Qed.
Lemma bal_delS a b f : bal (chk a b) 3 (deleteServiceByIpPort f).
Proof. unfold deleteServiceByIpPort. bal1. Qed.

Lemma bal_addPort a b c hp : bal (chk a b) 3 (addPort c hp).
Proof.
  unfold addPort. apply bal_app; [|apply bal_addC]. destruct hp; [|apply bal_nil].
  change (AWrite (VPorts c) :: wr LHost VHost) with ([AWrite (VPorts c)] ++ wr LHost VHost). apply bal_app.
  - intros h Hh. reflexivity.
  - bal1.
Qed.

Lemma bal_addContainer a b c : bal (chk a b) 3 (addContainer c).
Proof.
  destruct c as [c ports]. unfold addContainer. cbn [fst snd]. destruct ports as [|p ports]; [apply bal_addC|].
  apply bal_flat_map. intros x _. apply bal_addPort.
Qed.

Lemma bal_addPod a b p : bal (chk a b) 1 (addPod p).
Proof.
  assert (He : addPod p = ([ARLock LRsUpd] ++ (if ps_rs p then rd LRs VRs else []) ++ [ARUnlock LRsUpd])
    ++ rd LSvc VSvc ++ times (ps_ids p) (wr LC VC) ++ (if ps_ip p then flat_map addContainer (ps_containers p) else [])
    ++ wr LPod VPod ++ (if ps_local p then wr LWork VWork else [])).
  { unfold addPod. rewrite <- !app_assoc. reflexivity. }
  rewrite He. apply bal_app.
  - apply bal_rsection; [cbn [rank]; lia|]. bal1.
  - bal1. apply bal_flat_map. intros c _. apply (bal_mono (chk a b) 3); [lia|]. apply bal_addContainer.
Qed.

Lemma bal_deletePodInfo a b d : bal (chk a b) 3 (deletePodInfo d).
Proof.
  unfold deletePodInfo. apply bal_app; [|apply bal_app; [|apply bal_app]].
  - destruct (ds_name d) as [c|]; bal1.
  - bal1.
  - apply bal_flat_map. intros f _. apply bal_app; [bal1|]. destruct f; [apply bal_delC|apply bal_nil].
  - apply bal_flat_map. intros f _. bal1.
Qed.

Lemma bal_addServicePort a b p : bal (chk a b) 3 (addServicePort p).
Proof.
  unfold addServicePort. apply bal_app; [apply bal_addS|]. destruct p as [n|]; [|apply bal_nil].
  apply bal_app; [bal1|]. apply bal_times, bal_addS.
Qed.

Lemma bal_addService a b s : bal (chk a b) 3 (addService s).
Proof.
  unfold addService. apply bal_app; [bal1|]. apply bal_app; apply bal_if; intros _; try apply bal_nil.
  - apply bal_app; [bal1|]. apply bal_flat_map. intros p _. bal1.
  - apply bal_flat_map. intros p _. apply bal_addServicePort.
Qed.

Lemma bal_deleteServicePort a b p : bal (chk a b) 3 (deleteServicePort p).
Proof.
  unfold deleteServicePort. apply bal_app; [apply bal_delS|]. destruct (snd p) as [n|]; [|apply bal_nil].
  apply bal_app; [bal1|]. apply bal_flat_map. intros f _. apply bal_delS.
Qed.

Lemma bal_deleteService a b s : bal (chk a b) 3 (deleteService s).
Proof.
  unfold deleteService. apply bal_app; [bal1|]. apply bal_if; intros _; [|apply bal_nil].
  apply bal_flat_map. intros p _. apply bal_deleteServicePort.
Qed.

Lemma go_ports c1 (a b : bool) cs : forall h, go (chk a b) h (map (fun c => ARead (VPorts c)) cs ++ c1) = go (chk a b) h c1.
Proof. induction cs as [|c cs IH]; intros h; [reflexivity|]. cbn [map app go chk negb orb]. apply IH. Qed.

(* the locks a snapshot has while it is built *)
Definition snapHeld : holds :=
  [(LQueue, W); (LRs, R); (LPod, R); (LNode, R); (LHost, R); (LS, R); (LP, R); (LC, R); (LSem, R)].

Lemma bal_snapshot a cs : bal (chk a false) 0 (snapshot cs).
Proof.
  intros h Hh. destruct h as [|q h]; [|specialize (Hh q (or_introl eq_refl)); lia].
  unfold snapshot, marshal. rewrite <- !app_assoc.
  rewrite (go_app _ [AAcquire]). change (go (chk a false) [] [AAcquire]) with (Some [(LSem, R)]). cbv iota.
  rewrite (go_app _ rLockAll). change (go (chk a false) [(LSem, R)] rLockAll) with (Some snapHeld). cbv iota.
  rewrite (go_app _ [ARead VC; _; _; _]).
  replace (go (chk a false) snapHeld [ARead VC; ARead VIp; ARead VIpS; ARead VHost]) with (Some snapHeld) by (destruct a; reflexivity).
  rewrite go_ports. destruct a; reflexivity.
Qed.

Lemma bal_setup u : bal (chk false false) 0 (setupCache u).
Proof.
  intros h Hh. destruct h as [|q h]; [|specialize (Hh q (or_introl eq_refl)); lia].
  destruct u as [[] [] [] [] [] [] []]; reflexivity.
Qed.

(* an access to a table that is not checked *)
Lemma bal_read (a b : bool) n v : chk a b v = false -> bal (chk a b) n [ARead v].
Proof. intros Hc h Hh. cbn [go]. rewrite Hc. reflexivity. Qed.
Lemma bal_write (a b : bool) n v : chk a b v = false -> bal (chk a b) n [AWrite v].
Proof. intros Hc h Hh. cbn [go]. rewrite Hc. reflexivity. Qed.
Lemma bal_reads (a b : bool) n v p : chk a b v = false -> bal (chk a b) n p -> bal (chk a b) n (ARead v :: p).
Proof. intros Hc Hp. change (ARead v :: p) with ([ARead v] ++ p). apply bal_app; [apply bal_read, Hc|exact Hp]. Qed.
Lemma bal_writes (a b : bool) n v p : chk a b v = false -> bal (chk a b) n p -> bal (chk a b) n (AWrite v :: p).
Proof. intros Hc Hp. change (AWrite v :: p) with ([AWrite v] ++ p). apply bal_app; [apply bal_write, Hc|exact Hp]. Qed.

Lemma bal_putEvent a b on : bal (chk a b) 1 (putEvent on).
Proof.
  intros h Hh. unfold putEvent. cbn [app go]. rewrite (above_lt h LRing 1 Hh ltac:(cbn [rank]; lia)). destruct on; cbn; reflexivity.
Qed.
Lemma bal_signal a b n on apm slow server : bal (chk a b) n (signalActs on apm slow server).
Proof. intros h Hh. destruct on, apm, slow, server; reflexivity. Qed.
Lemma bal_java a b entry slow on : bal (chk a b) 1 (javaActs entry slow on).
Proof.
  destruct entry; [|destruct slow as [k8s|]].
  - intros h Hh. unfold javaActs. cbn [app go]. rewrite (above_lt h LJt 1 Hh ltac:(cbn [rank]; lia)). reflexivity.
  - intros h Hh. unfold javaActs. cbn [app go]. rewrite (above_lt h LJt 1 Hh ltac:(cbn [rank]; lia)). cbn [chk negb orb].
    change (mayRead ((LJt, W) :: h) VJava) with true. cbn iota.
    rewrite !go_app. replace (go (chk a b) ((LJt, W) :: h) (if k8s then rd LC VC else [])) with (Some ((LJt, W) :: h)).
    + rewrite (bal_signal a b 2 on true true true).
      * reflexivity.
      * intros q [<-|Hq]; [cbn [fst rank]; lia|]. specialize (Hh q Hq). lia.
    + symmetry. destruct k8s; [|reflexivity]. apply (bal_rd (chk a b) 2 LC VC); [cbn [rank]; lia|reflexivity|].
      intros q [<-|Hq]; [cbn [fst rank]; lia|]. specialize (Hh q Hq). lia.
  - intros h Hh. unfold javaActs. cbn [app go]. rewrite (above_lt h LJt 1 Hh ltac:(cbn [rank]; lia)). reflexivity.
Qed.
Lemma go_times chk h p : go chk h p = Some h -> forall n, go chk h (times n p) = Some h.
Proof. intros Hp. induction n as [|n IH]; [reflexivity|]. cbn [times]. rewrite go_app, Hp. exact IH. Qed.
Lemma bal_tidRound a b n : bal (chk a b) 0 (tidRound n).
Proof.
  intros h Hh. destruct h as [|q h]; [|specialize (Hh q (or_introl eq_refl)); lia]. unfold tidRound.
  rewrite (go_app _ [ALock LTidQ]). change (go (chk a b) [] [ALock LTidQ]) with (Some [(LTidQ, W)]). cbv iota.
  rewrite go_app, (go_app _ [ARead VTids]). change (go (chk a b) [(LTidQ, W)] [ARead VTids]) with (Some [(LTidQ, W)]). cbv iota.
  rewrite go_times; reflexivity.
Qed.
Lemma bal_javaRound a b n : bal (chk a b) 0 (javaRound n).
Proof.
  intros h Hh. destruct h as [|q h]; [|specialize (Hh q (or_introl eq_refl)); lia]. unfold javaRound.
  rewrite (go_app _ [ALock LJQ]). change (go (chk a b) [] [ALock LJQ]) with (Some [(LJQ, W)]). cbv iota.
  rewrite go_app, (go_app _ [ARead VJavaQ]). change (go (chk a b) [(LJQ, W)] [ARead VJavaQ]) with (Some [(LJQ, W)]). cbv iota.
  rewrite go_times; reflexivity.
Qed.
Lemma bal_send a b n : bal (chk a b) 0 (sendEvents n).
Proof.
  intros h Hh. destruct h as [|q h]; [|specialize (Hh q (or_introl eq_refl)); lia]. unfold sendEvents.
  rewrite (go_app _ [ARLock LRing]). change (go (chk a b) [] [ARLock LRing]) with (Some [(LRing, R)]). cbv iota.
  rewrite go_app, (go_app _ [ARead VOn; ARead VRings]). change (go (chk a b) [(LRing, R)] [ARead VOn; ARead VRings]) with (Some [(LRing, R)]). cbv iota.
  rewrite go_times; reflexivity.
Qed.
Lemma bal_stop a b : bal (chk a b) 0 stopProfile.
Proof. intros h Hh. destruct h as [|q h]; [|specialize (Hh q (or_introl eq_refl)); lia]. reflexivity. Qed.

Lemma bal_op (a b : bool) o : (isSetup o -> a = false /\ b = false) -> (isSnapshot o -> b = false) -> bal (chk a b) 0 (acts o).
Proof.
  intros Hsu Hsn. destruct o; cbn [acts].
  all: try (bal1; fail).
  - bal1. destruct found; [|apply bal_nil]. intros h Hh. reflexivity.
  - unfold clearAll. bal1.
  - apply (bal_mono _ 1); [lia|]. apply bal_addPod.
  - unfold updatePod. bal1. apply (bal_mono _ 1); [lia|]. apply bal_addPod.
  - unfold deletePod. bal1.
  - unfold deleteRound. apply bal_app; [bal1|]. apply bal_flat_map. intros d _. apply (bal_mono _ 3); [lia|]. apply bal_deletePodInfo.
  - apply (bal_mono _ 3); [lia|]. apply bal_addService.
  - unfold updateService. apply bal_if; intros _; [apply bal_nil|].
    rewrite (app_assoc (deleteService _)). apply bal_wsection; [cbn [rank]; lia|]. apply bal_app; [apply bal_deleteService|apply bal_addService].
  - apply (bal_mono _ 3); [lia|]. apply bal_deleteService.
  - unfold addRs. bal1.
  - unfold updateRs. apply bal_if; intros _; [apply bal_nil|]. rewrite (app_assoc (wr LRs VRs)).
    apply bal_wsection; [cbn [rank]; lia|]. unfold addRs. bal1.
  - rewrite (Hsn (ex_intro _ _ eq_refl)). apply bal_snapshot.
  - destruct (Hsu (ex_intro _ _ eq_refl)) as [-> ->]. apply bal_setup.
  - apply bal_app; [apply bal_read; reflexivity|]. bal1. apply (bal_mono _ 1); [lia|]. apply bal_putEvent.
  - apply bal_app; [apply bal_read; reflexivity|]. bal1.
    + apply (bal_mono _ 1); [lia|]. apply bal_putEvent.
    + apply (bal_mono _ 1); [lia|]. apply bal_java.
  - apply bal_app; [apply bal_read; reflexivity|]. bal1.
  - apply bal_app; [apply bal_read; reflexivity|]. apply (bal_mono _ 1); [lia|]. apply bal_putEvent.
  - apply bal_signal.
  - apply bal_tidRound.
  - apply bal_javaRound.
  - apply bal_send.
  - apply bal_read. reflexivity.
  - intros h Hh. reflexivity.
  - apply bal_stop.
Qed.

(* ---- the invariant ---- *)
Definition noP (h : holds) : Prop := forall l, ~ In (l, P) h.

Definition wf (c : var -> bool) (t : thread) : Prop :=
  (noP (t_held t) /\ go c (t_held t) (t_rest t) = Some [])
  \/ (exists l h r, t_held t = (l, P) :: h /\ t_rest t = ALock l :: r /\ noP h /\ go c h (ALock l :: r) = Some []).

Definition excl (t u : thread) : Prop :=
  forall l, l <> LSem -> (In (l, W) (t_held t) -> forall m, ~ In (l, m) (t_held u))
            /\ (In (l, P) (t_held t) -> ~ In (l, W) (t_held u) /\ ~ In (l, P) (t_held u)).

Definition inv (c : var -> bool) (s : list thread) : Prop :=
  (forall i t, nth_error s i = Some t -> wf c t)
  /\ (forall i j t u, i <> j -> nth_error s i = Some t -> nth_error s j = Some u -> excl t u).

Lemma has_in l m t : has l m t = true <-> In (l, m) (t_held t).
Proof.
  unfold has. rewrite existsb_exists. split.
  - intros [[l' m'] [Hin Hp]]. cbn [fst snd] in Hp. apply andb_prop in Hp. destruct Hp as [Hl Hm].
    apply eqb_true in Hl. apply eqb_true in Hm. subst. exact Hin.
  - intros Hin. exists (l, m). split; [exact Hin|]. cbn [fst snd]. rewrite (eqb_refl l), (eqb_refl m). reflexivity.
Qed.

Lemma has_false l m t : has l m t = false <-> ~ In (l, m) (t_held t).
Proof. rewrite <- has_in. destruct (has l m t); split; congruence. Qed.

Lemma reading_true l s : reading l s = true -> exists i t, nth_error s i = Some t /\ In (l, R) (t_held t).
Proof.
  unfold reading. rewrite existsb_exists. intros [t [Hin Ht]]. apply In_nth_error in Hin. destruct Hin as [i Hi].
  exists i, t. split; [exact Hi|]. apply has_in, Ht.
Qed.

Lemma reading_false l s i t : reading l s = false -> nth_error s i = Some t -> ~ In (l, R) (t_held t).
Proof.
  unfold reading. intros Hr Hi Hin. apply nth_error_In in Hi. apply has_in in Hin.
  assert (Hb : existsb (has l R) s = true) by (apply existsb_exists; exists t; split; assumption). congruence.
Qed.

Lemma writing_true l s : writing l s = true -> exists i t, nth_error s i = Some t /\ (In (l, W) (t_held t) \/ In (l, P) (t_held t)).
Proof.
  unfold writing. rewrite existsb_exists. intros [t [Hin Ht]]. apply In_nth_error in Hin. destruct Hin as [i Hi].
  exists i, t. split; [exact Hi|]. apply orb_prop in Ht. destruct Ht as [Ht|Ht]; [left|right]; apply has_in, Ht.
Qed.

Lemma writing_false l s i t : writing l s = false -> nth_error s i = Some t -> ~ In (l, W) (t_held t) /\ ~ In (l, P) (t_held t).
Proof.
  unfold writing. intros Hr Hi. apply nth_error_In in Hi.
  assert (Hb : has l W t || has l P t = false).
  { destruct (has l W t || has l P t) eqn:Hb; [|reflexivity].
    assert (existsb (fun t => has l W t || has l P t) s = true) by (apply existsb_exists; exists t; split; assumption). congruence. }
  apply orb_false_elim in Hb. destruct Hb as [H1 H2]. split; apply has_false; assumption.
Qed.

Lemma nth_upd_same : forall s i t u, nth_error s i = Some u -> nth_error (upd i t s) i = Some t.
Proof. induction s as [|v s IH]; intros [|i] t u Hi; cbn [nth_error upd] in *; try congruence. apply (IH i t u), Hi. Qed.

Lemma nth_upd_other : forall s i j t, i <> j -> nth_error (upd i t s) j = nth_error s j.
Proof.
  induction s as [|v s IH]; intros [|i] [|j] t Hij; cbn [nth_error upd]; try reflexivity; try congruence.
  apply IH. congruence.
Qed.

Lemma above_not_in h l m : above h l = true -> ~ In (l, m) h.
Proof.
  intros Ha Hin. unfold above in Ha. rewrite forallb_forall in Ha. specialize (Ha (l, m) Hin). cbn [fst] in Ha.
  apply Nat.ltb_lt in Ha. lia.
Qed.

(* replacing one goroutine *)
Lemma inv_upd c s i t t' : inv c s -> nth_error s i = Some t -> wf c t' ->
  (forall j u, i <> j -> nth_error s j = Some u -> excl t' u /\ excl u t') -> inv c (upd i t' s).
Proof.
  intros [Hwf Hex] Hi Hwf' Hex'. split.
  - intros j u Hj. destruct (Nat.eq_dec i j) as [<-|Hij].
    + rewrite (nth_upd_same s i t' t Hi) in Hj. injection Hj as <-. exact Hwf'.
    + rewrite (nth_upd_other s i j t' Hij) in Hj. apply (Hwf j u Hj).
  - intros j k u v Hjk Hj Hk. destruct (Nat.eq_dec i j) as [<-|Hij].
    + rewrite (nth_upd_same s i t' t Hi) in Hj. injection Hj as <-. rewrite (nth_upd_other s i k t' Hjk) in Hk.
      apply (Hex' k v Hjk Hk).
    + rewrite (nth_upd_other s i j t' Hij) in Hj. destruct (Nat.eq_dec i k) as [<-|Hik].
      * rewrite (nth_upd_same s i t' t Hi) in Hk. injection Hk as <-. apply (Hex' j u Hij Hj).
      * rewrite (nth_upd_other s i k t' Hik) in Hk. apply (Hex j k u v Hjk Hj Hk).
Qed.

(* a goroutine that lets go of something excludes less *)
Lemma excl_sub t t' u : (forall q, In q (t_held t') -> In q (t_held t)) -> excl t u -> excl t' u.
Proof. intros Hs He l Hl. split; intros Hin; apply (He l Hl), Hs, Hin. Qed.
Lemma excl_sub' t t' u : (forall q, In q (t_held t') -> In q (t_held t)) -> excl u t -> excl u t'.
Proof.
  intros Hs He l Hl. split; intros Hin.
  - intros m Hm. exact (proj1 (He l Hl) Hin m (Hs _ Hm)).
  - destruct (proj2 (He l Hl) Hin) as [H1 H2]. split; intros Hm; [apply H1|apply H2]; apply Hs, Hm.
Qed.

Lemma noP_cons l m h : m <> P -> noP h -> noP ((l, m) :: h).
Proof. intros Hm Hn l' [He|Hin]; [congruence|]. apply (Hn l' Hin). Qed.
Lemma noP_tail p h : noP (p :: h) -> noP h.
Proof. intros Hn l Hin. apply (Hn l). right. exact Hin. Qed.

Lemma drop_hd l m h : drop l m ((l, m) :: h) = h.
Proof. cbn [drop fst snd]. rewrite (eqb_refl l), (eqb_refl m). reflexivity. Qed.

(* what the next action says about the goroutine *)
Lemma wf_next c t : wf c t -> forall a r, t_rest t = a :: r ->
  (noP (t_held t) /\ go c (t_held t) (a :: r) = Some [])
  \/ (exists l h, a = ALock l /\ t_held t = (l, P) :: h /\ noP h /\ go c h (ALock l :: r) = Some []).
Proof.
  intros [[Hn Hg]|(l & h & r' & Hh & Hr & Hn & Hg)] a r Ha.
  - left. rewrite Ha in Hg. split; assumption.
  - right. rewrite Hr in Ha. injection Ha as <- <-. exists l, h. split; [reflexivity|]. split; [exact Hh|]. split; assumption.
Qed.

Lemma step_inv c net s i s' : inv c s -> step net i s = Some s' -> inv c s'.
Proof.
  intros Hinv Hst. unfold step in Hst. destruct (nth_error s i) as [t|] eqn:Hi; [|discriminate].
  pose proof (proj1 Hinv i t Hi) as Hwt.
  assert (Hex : forall j u, i <> j -> nth_error s j = Some u -> excl t u /\ excl u t).
  { intros j u Hij Hj. split; [apply (proj2 Hinv i j t u Hij Hi Hj)|apply (proj2 Hinv j i u t (fun H => Hij (eq_sym H)) Hj Hi)]. }
  destruct (t_rest t) as [|a r] eqn:Hr; [discriminate|].
  pose proof (wf_next c t Hwt a r Hr) as Hnx.
  assert (Hsub : forall t', (forall q, In q (t_held t') -> In q (t_held t)) -> forall j u, i <> j -> nth_error s j = Some u -> excl t' u /\ excl u t').
  { intros t' Hs j u Hij Hj. destruct (Hex j u Hij Hj) as [H1 H2]. split; [apply (excl_sub t)|apply (excl_sub' t)]; assumption. }
  destruct a as [l|l|l|l| | |v|v|].
  - (* RLock *)
    destruct (writing l s) eqn:Hw; [discriminate|]. injection Hst as <-.
    destruct Hnx as [[Hn Hg]|(l0 & h0 & He & _)]; [|discriminate]. cbn [go] in Hg. destruct (above (t_held t) l) eqn:Ha; [|discriminate].
    apply (inv_upd c s i t); [exact Hinv|exact Hi| |].
    + left. cbn [t_held t_rest]. split; [|exact Hg]. apply noP_cons; [discriminate|exact Hn].
    + intros j u Hij Hj. destruct (Hex j u Hij Hj) as [H1 H2]. destruct (writing_false l s j u Hw Hj) as [Hw1 Hw2]. split.
      * intros l' Hl'. cbn [t_held]. split; intros [Hin|Hin]; try congruence; apply (H1 l' Hl'), Hin.
      * intros l' Hl'. cbn [t_held]. split; intros Hin.
        -- intros m [Hm|Hm]; [|exact (proj1 (H2 l' Hl') Hin m Hm)]. assert (l' = l) by congruence. subst l'. contradiction.
        -- destruct (proj2 (H2 l' Hl') Hin) as [H3 H4]. split; intros [Hm|Hm]; try congruence; contradiction.
  - (* RUnlock *)
    destruct (has l R t) eqn:Hhas; [|discriminate]. injection Hst as <-.
    destruct Hnx as [[Hn Hg]|(l0 & h0 & He & _)]; [|discriminate]. cbn [go] in Hg.
    destruct (t_held t) as [|[l' m'] h'] eqn:Hh; [discriminate|]. destruct m'; try discriminate.
    destruct (eqb l' l) eqn:Hl; [|discriminate]. apply eqb_true in Hl. subst l'. rewrite drop_hd.
    apply (inv_upd c s i t); [exact Hinv|exact Hi| |].
    + left. cbn [t_held t_rest]. split; [|exact Hg]. apply (noP_tail (l, R)), Hn.
    + apply Hsub. cbn [t_held]. intros q Hq. right. exact Hq.
  - (* Lock *)
    destruct (has l P t) eqn:Hp.
    + destruct (reading l s) eqn:Hrd; [discriminate|]. injection Hst as <-.
      destruct Hnx as [[Hn Hg]|(l0 & h0 & He & Hh & Hn & Hg)].
      { apply has_in in Hp. exfalso. exact (Hn l Hp). }
      injection He as <-. rewrite Hh, drop_hd. cbn [go] in Hg. destruct (above h0 l) eqn:Ha; [|discriminate].
      apply (inv_upd c s i t); [exact Hinv|exact Hi| |].
      * left. cbn [t_held t_rest]. split; [|exact Hg]. apply noP_cons; [discriminate|exact Hn].
      * intros j u Hij Hj. destruct (Hex j u Hij Hj) as [H1 H2]. pose proof (reading_false l s j u Hrd Hj) as Hnr.
        rewrite Hh in *. split.
        -- intros l' Hl'. cbn [t_held]. split.
           ++ intros [Hin|Hin].
              ** assert (l' = l) by congruence. subst l'. destruct (proj2 (H1 l Hl')) as [H3 H4]; [rewrite Hh; left; reflexivity|].
                 intros m Hm. destruct m; contradiction.
              ** apply (H1 l' Hl'). rewrite Hh. right. exact Hin.
           ++ intros [Hin|Hin]; [congruence|]. exfalso. exact (Hn l' Hin).
        -- intros l' Hl'. cbn [t_held]. split; intros Hin.
           ++ intros m Hm. pose proof (proj1 (H2 l' Hl') Hin) as H3. rewrite Hh in H3. destruct Hm as [Hm|Hm].
              ** assert (l' = l) by congruence. subst l'. apply (H3 P). left. reflexivity.
              ** apply (H3 m). right. exact Hm.
           ++ pose proof (proj2 (H2 l' Hl') Hin) as [H3 H4]. rewrite Hh in H3, H4. split; intros [Hm|Hm].
              ** assert (l' = l) by congruence. subst l'. apply H4. left. reflexivity.
              ** apply H3. right. exact Hm.
              ** congruence.
              ** apply H4. right. exact Hm.
    + destruct (writing l s) eqn:Hw; [discriminate|]. injection Hst as <-.
      destruct Hnx as [[Hn Hg]|(l0 & h0 & He & Hh & _)].
      2: { injection He as <-. apply has_false in Hp. exfalso. apply Hp. rewrite Hh. left. reflexivity. }
      apply (inv_upd c s i t); [exact Hinv|exact Hi| |].
      * right. exists l, (t_held t), r. cbn [t_held t_rest]. split; [reflexivity|]. split; [reflexivity|]. split; assumption.
      * intros j u Hij Hj. destruct (Hex j u Hij Hj) as [H1 H2]. destruct (writing_false l s j u Hw Hj) as [Hw1 Hw2]. split.
        -- intros l' Hl'. cbn [t_held]. split.
           ++ intros [Hin|Hin]; [congruence|]. apply (H1 l' Hl'), Hin.
           ++ intros [Hin|Hin]; [|apply (H1 l' Hl'), Hin]. assert (l' = l) by congruence. subst l'. split; assumption.
        -- intros l' Hl'. cbn [t_held]. split; intros Hin.
           ++ intros m [Hm|Hm]; [|exact (proj1 (H2 l' Hl') Hin m Hm)]. assert (l' = l) by congruence. subst l'. contradiction.
           ++ destruct (proj2 (H2 l' Hl') Hin) as [H3 H4]. split; intros [Hm|Hm].
              ** congruence.
              ** contradiction.
              ** assert (l' = l) by congruence. subst l'. contradiction.
              ** contradiction.
  - (* Unlock *)
    destruct (has l W t) eqn:Hhas; [|discriminate]. injection Hst as <-.
    destruct Hnx as [[Hn Hg]|(l0 & h0 & He & _)]; [|discriminate]. cbn [go] in Hg.
    destruct (t_held t) as [|[l' m'] h'] eqn:Hh; [discriminate|]. destruct m'; try discriminate.
    destruct (eqb l' l) eqn:Hl; [|discriminate]. apply eqb_true in Hl. subst l'. rewrite drop_hd.
    apply (inv_upd c s i t); [exact Hinv|exact Hi| |].
    + left. cbn [t_held t_rest]. split; [|exact Hg]. apply (noP_tail (l, W)), Hn.
    + apply Hsub. cbn [t_held]. intros q Hq. right. exact Hq.
  - (* Acquire *)
    destruct (users LSem s <? 16)%nat eqn:Hu; [|discriminate]. injection Hst as <-.
    destruct Hnx as [[Hn Hg]|(l0 & h0 & He & _)]; [|discriminate]. cbn [go] in Hg. destruct (above (t_held t) LSem) eqn:Ha; [|discriminate].
    apply (inv_upd c s i t); [exact Hinv|exact Hi| |].
    + left. cbn [t_held t_rest]. split; [|exact Hg]. apply noP_cons; [discriminate|exact Hn].
    + intros j u Hij Hj. destruct (Hex j u Hij Hj) as [H1 H2]. split.
      * intros l' Hl'. cbn [t_held]. split; intros [Hin|Hin]; try congruence; apply (H1 l' Hl'), Hin.
      * intros l' Hl'. cbn [t_held]. split; intros Hin.
        -- intros m [Hm|Hm]; [congruence|exact (proj1 (H2 l' Hl') Hin m Hm)].
        -- destruct (proj2 (H2 l' Hl') Hin) as [H3 H4]. split; intros [Hm|Hm]; try congruence; contradiction.
  - (* Release *)
    destruct (has LSem R t) eqn:Hhas; [|discriminate]. injection Hst as <-.
    destruct Hnx as [[Hn Hg]|(l0 & h0 & He & _)]; [|discriminate]. cbn [go] in Hg.
    destruct (t_held t) as [|[l' m'] h'] eqn:Hh; [discriminate|]. destruct l'; try discriminate. destruct m'; try discriminate.
    rewrite drop_hd. apply (inv_upd c s i t); [exact Hinv|exact Hi| |].
    + left. cbn [t_held t_rest]. split; [|exact Hg]. apply (noP_tail (LSem, R)), Hn.
    + apply Hsub. cbn [t_held]. intros q Hq. right. exact Hq.
  - injection Hst as <-. destruct Hnx as [[Hn Hg]|(l0 & h0 & He & _)]; [|discriminate]. cbn [go] in Hg.
    destruct (negb (c v) || mayRead (t_held t) v); [|discriminate].
    apply (inv_upd c s i t); [exact Hinv|exact Hi| |].
    + left. cbn [t_held t_rest]. split; assumption.
    + apply Hsub. cbn [t_held]. intros q Hq. exact Hq.
  - injection Hst as <-. destruct Hnx as [[Hn Hg]|(l0 & h0 & He & _)]; [|discriminate]. cbn [go] in Hg.
    destruct (negb (c v) || mayWrite (t_held t) v); [|discriminate].
    apply (inv_upd c s i t); [exact Hinv|exact Hi| |].
    + left. cbn [t_held t_rest]. split; assumption.
    + apply Hsub. cbn [t_held]. intros q Hq. exact Hq.
  - destruct (net i); [|discriminate]. injection Hst as <-. destruct Hnx as [[Hn Hg]|(l0 & h0 & He & _)]; [|discriminate]. cbn [go] in Hg.
    apply (inv_upd c s i t); [exact Hinv|exact Hi| |].
    + left. cbn [t_held t_rest]. split; assumption.
    + apply Hsub. cbn [t_held]. intros q Hq. exact Hq.
Qed.

Lemma go_calls (a b : bool) ops : (forall o, In o ops -> (isSetup o -> a = false /\ b = false) /\ (isSnapshot o -> b = false)) ->
  go (chk a b) [] (flat_map acts ops) = Some [].
Proof.
  intros Ho. assert (Hb : bal (chk a b) 0 (flat_map acts ops)).
  { apply bal_flat_map. intros o Hin. destruct (Ho o Hin) as [H1 H2]. apply bal_op; assumption. }
  apply Hb. intros q [].
Qed.

Lemma start_inv (a b : bool) calls :
  (forall ops o, In ops calls -> In o ops -> (isSetup o -> a = false /\ b = false) /\ (isSnapshot o -> b = false)) ->
  inv (chk a b) (map goroutine calls).
Proof.
  intros Hc. split.
  - intros i t Hi. apply nth_error_In in Hi. apply in_map_iff in Hi. destruct Hi as (ops & <- & Hin). left. split.
    + intros l [].
    + cbn [goroutine t_held t_rest]. apply go_calls. intros o Ho. apply (Hc ops o Hin Ho).
  - intros i j t u _ Hi _. apply nth_error_In in Hi. apply in_map_iff in Hi. destruct Hi as (ops & <- & _).
    intros l _. split; intros [].
Qed.

Lemma reach_inv (a b : bool) net calls s :
  (forall ops o, In ops calls -> In o ops -> (isSetup o -> a = false /\ b = false) /\ (isSnapshot o -> b = false)) ->
  reach net calls s -> inv (chk a b) s.
Proof.
  intros Hc Hr. induction Hr as [|s s' i Hr IH Hst]; [apply start_inv, Hc|]. apply (step_inv _ net s i s' IH Hst).
Qed.

(* ---- somebody can always go on ---- *)
Definition want (t : thread) : nat :=
  match t_rest t with ARLock l :: _ | ALock l :: _ => rank l | AAcquire :: _ => O | _ => 13%nat end.

Lemma wf_held_rest c t q : wf c t -> In q (t_held t) -> t_rest t <> [].
Proof.
  intros [[Hn Hg]|(l & h & r & Hh & Hr & _)] Hin He.
  - rewrite He in Hg. cbn [go] in Hg. injection Hg as Hg. rewrite Hg in Hin. destruct Hin.
  - congruence.
Qed.

(* who holds a lock wants a higher one or none *)
Lemma holder_wants c t l m : wf c t -> In (l, m) (t_held t) -> m <> P -> (rank l < want t)%nat.
Proof.
  intros Hw Hin Hm. pose proof (wf_held_rest c t _ Hw Hin) as Hne. unfold want.
  destruct (t_rest t) as [|a r] eqn:Hr; [congruence|].
  assert (Hab : forall h l', above h l' = true -> In (l, m) h -> (rank l < rank l')%nat).
  { intros h l' Ha Hi. unfold above in Ha. rewrite forallb_forall in Ha. specialize (Ha _ Hi). apply Nat.ltb_lt in Ha. exact Ha. }
  assert (Hlt : (rank l < 13)%nat) by (destruct l; cbn [rank]; lia).
  destruct (wf_next c t Hw a r Hr) as [[Hn Hg]|(l0 & h0 & He & Hh & Hn & Hg)].
  - destruct a as [l'|l'|l'|l'| | |v|v|]; try exact Hlt; cbn [go] in Hg.
    + destruct (above (t_held t) l') eqn:Ha; [|discriminate]. apply (Hab _ _ Ha Hin).
    + destruct (above (t_held t) l') eqn:Ha; [|discriminate]. apply (Hab _ _ Ha Hin).
    + destruct (above (t_held t) LSem) eqn:Ha; [|discriminate]. apply (Hab _ _ Ha Hin).
  - subst a. cbn [go] in Hg. destruct (above h0 l0) eqn:Ha; [|discriminate]. rewrite Hh in Hin. destruct Hin as [Hin|Hin]; [congruence|].
    apply (Hab _ _ Ha Hin).
Qed.

Lemma users_pos s : (users LSem s <? 16)%nat = false -> exists i t, nth_error s i = Some t /\ In (LSem, R) (t_held t).
Proof.
  intros Hu. apply Nat.ltb_ge in Hu. unfold users in Hu. destruct (filter (has LSem R) s) as [|t f] eqn:Hf; [cbn in Hu; lia|].
  assert (Hin : In t (filter (has LSem R) s)) by (rewrite Hf; left; reflexivity).
  apply filter_In in Hin. destruct Hin as [Hin Ht]. apply In_nth_error in Hin. destruct Hin as [i Hi].
  exists i, t. split; [exact Hi|]. apply has_in, Ht.
Qed.

Lemma progress c net s : every net -> inv c s -> forall n i t, nth_error s i = Some t -> t_rest t <> [] -> (13 - want t <= n)%nat -> alive net s.
Proof.
  intros Hnet Hinv.
  assert (Hhold : forall n, (forall i t, nth_error s i = Some t -> t_rest t <> [] -> (13 - want t <= n)%nat -> alive net s) ->
    forall j u l m k, nth_error s j = Some u -> In (l, m) (t_held u) -> m <> P -> k = rank l -> (13 - k <= S n)%nat -> alive net s).
  { intros n IH j u l m k Hj Hin Hm -> Hk. pose proof (proj1 Hinv j u Hj) as Hwu.
    apply (IH j u Hj); [apply (wf_held_rest c u _ Hwu Hin)|]. pose proof (holder_wants c u l m Hwu Hin Hm). lia. }
  induction n as [|n IH].
  - intros i t Hi Hne Hw.
    assert (Hw13 : (13 <= want t)%nat) by lia. unfold want in Hw13. destruct (t_rest t) as [|a r] eqn:Hr; [congruence|].
    assert (Hrk : forall l, (rank l < 13)%nat) by (intros []; cbn [rank]; lia).
    destruct a as [l|l|l|l| | |v|v|]; try (specialize (Hrk l); lia); try lia; exists i;
      unfold step; rewrite Hi, Hr; try (eexists; reflexivity).
    + destruct (wf_next c t (proj1 Hinv i t Hi) _ r Hr) as [[Hn Hg]|(l0 & h0 & He & _)]; [|discriminate]. cbn [go] in Hg.
      destruct (t_held t) as [|[l' m'] h'] eqn:Hh; [discriminate|]. destruct m'; try discriminate.
      destruct (eqb l' l) eqn:Hl; [|discriminate]. apply eqb_true in Hl. subst l'.
      replace (has l R t) with true; [eexists; reflexivity|]. symmetry. apply has_in. rewrite Hh. left. reflexivity.
    + destruct (wf_next c t (proj1 Hinv i t Hi) _ r Hr) as [[Hn Hg]|(l0 & h0 & He & _)]; [|discriminate]. cbn [go] in Hg.
      destruct (t_held t) as [|[l' m'] h'] eqn:Hh; [discriminate|]. destruct m'; try discriminate.
      destruct (eqb l' l) eqn:Hl; [|discriminate]. apply eqb_true in Hl. subst l'.
      replace (has l W t) with true; [eexists; reflexivity|]. symmetry. apply has_in. rewrite Hh. left. reflexivity.
    + destruct (wf_next c t (proj1 Hinv i t Hi) _ r Hr) as [[Hn Hg]|(l0 & h0 & He & _)]; [|discriminate]. cbn [go] in Hg.
      destruct (t_held t) as [|[l' m'] h'] eqn:Hh; [discriminate|]. destruct l'; try discriminate. destruct m'; try discriminate.
      replace (has LSem R t) with true; [eexists; reflexivity|]. symmetry. apply has_in. rewrite Hh. left. reflexivity.
    + rewrite Hnet. eexists. reflexivity.
  - intros i t Hi Hne Hw. destruct (Nat.le_gt_cases (13 - want t) n) as [Hle|Hgt]; [apply (IH i t Hi Hne Hle)|].
    pose proof (Hhold n IH) as Hh1. pose proof Hne as Hne0.
    unfold want in Hw, Hgt. destruct (t_rest t) as [|a r] eqn:Hr; [congruence|].
    assert (Hdone : alive net s \/ forall s', step net i s <> Some s').
    { destruct (step net i s) as [s'|] eqn:Hs; [left; exists i, s'; exact Hs|right; intros s'; discriminate]. }
    destruct Hdone as [Hd|Hd]; [exact Hd|].
    destruct a as [l|l|l|l| | |v|v|]; try lia.
    + (* a reader waits for a writer *)
      destruct (writing l s) eqn:Hwr.
      2: { exfalso. unfold step in Hd. rewrite Hi, Hr, Hwr in Hd. exact (Hd _ eq_refl). }
      destruct (writing_true l s Hwr) as (j & u & Hj & [Hin|Hin]).
      * apply (Hh1 j u l W (rank l) Hj Hin); [discriminate|reflexivity|exact Hw].
      * destruct (proj1 Hinv j u Hj) as [[Hn _]|(l0 & h0 & r0 & Hh & Hr0 & Hn & Hg)]; [exfalso; exact (Hn l Hin)|].
        assert (l0 = l) by (rewrite Hh in Hin; destruct Hin as [Hin|Hin]; [congruence|exfalso; exact (Hn l Hin)]). subst l0.
        destruct (reading l s) eqn:Hrd.
        -- destruct (reading_true l s Hrd) as (k & w & Hk & Hwk). apply (Hh1 k w l R (rank l) Hk Hwk); [discriminate|reflexivity|exact Hw].
        -- exists j. unfold step. rewrite Hj, Hr0, Hrd. replace (has l P u) with true; [eexists; reflexivity|].
           symmetry. apply has_in. exact Hin.
    + (* a writer waits for a writer, or for the readers *)
      destruct (has l P t) eqn:Hp.
      * destruct (reading l s) eqn:Hrd.
        2: { exfalso. unfold step in Hd. rewrite Hi, Hr, Hp, Hrd in Hd. exact (Hd _ eq_refl). }
        destruct (reading_true l s Hrd) as (k & w & Hk & Hwk). apply (Hh1 k w l R (rank l) Hk Hwk); [discriminate|reflexivity|exact Hw].
      * destruct (writing l s) eqn:Hwr.
        2: { exfalso. unfold step in Hd. rewrite Hi, Hr, Hp, Hwr in Hd. exact (Hd _ eq_refl). }
        destruct (writing_true l s Hwr) as (j & u & Hj & [Hin|Hin]).
        -- apply (Hh1 j u l W (rank l) Hj Hin); [discriminate|reflexivity|exact Hw].
        -- destruct (proj1 Hinv j u Hj) as [[Hn _]|(l0 & h0 & r0 & Hh & Hr0 & Hn & Hg)]; [exfalso; exact (Hn l Hin)|].
           assert (l0 = l) by (rewrite Hh in Hin; destruct Hin as [Hin|Hin]; [congruence|exfalso; exact (Hn l Hin)]). subst l0.
           destruct (reading l s) eqn:Hrd.
           ++ destruct (reading_true l s Hrd) as (k & w & Hk & Hwk). apply (Hh1 k w l R (rank l) Hk Hwk); [discriminate|reflexivity|exact Hw].
           ++ exists j. unfold step. rewrite Hj, Hr0, Hrd. replace (has l P u) with true; [eexists; reflexivity|].
              symmetry. apply has_in. exact Hin.
    + (* the semaphore *)
      destruct (users LSem s <? 16)%nat eqn:Hu.
      { exfalso. unfold step in Hd. rewrite Hi, Hr, Hu in Hd. exact (Hd _ eq_refl). }
      destruct (users_pos s Hu) as (j & u & Hj & Hin). apply (Hh1 j u LSem R (rank LSem) Hj Hin); [discriminate|reflexivity|exact Hw].
Qed.

(* ---- every step is counted ---- *)
Definition weight (a : act) : nat := match a with ALock _ => 2 | _ => 1 end%nat.
Definition weights (p : list act) : nat := fold_right (fun a n => weight a + n)%nat O p.
Definition waits (h : holds) : nat := if existsb (fun p => eqb (snd p) P) h then 1%nat else O.
Definition left1 (t : thread) : nat := (weights (t_rest t) - waits (t_held t))%nat.
Definition left_ (s : list thread) : nat := fold_right (fun t n => left1 t + n)%nat O s.

Lemma waits_noP h : noP h -> waits h = O.
Proof.
  intros Hn. unfold waits. replace (existsb (fun p => eqb (snd p) P) h) with false; [reflexivity|]. symmetry.
  destruct (existsb (fun p => eqb (snd p) P) h) eqn:He; [|reflexivity]. apply existsb_exists in He. destruct He as [[l m] [Hin Hm]].
  cbn [snd] in Hm. apply eqb_true in Hm. subst m. exfalso. exact (Hn l Hin).
Qed.

Lemma left_upd : forall s i t t', nth_error s i = Some t -> left1 t = S (left1 t') -> left_ s = S (left_ (upd i t' s)).
Proof.
  induction s as [|u s IH]; intros [|i] t t' Hi Hl; cbn [nth_error] in Hi; try congruence.
  - injection Hi as ->. cbn [upd left_ fold_right]. fold (left_ s). lia.
  - cbn [upd left_ fold_right]. fold (left_ s). fold (left_ (upd i t' s)). rewrite (IH i t t' Hi Hl). lia.
Qed.

Lemma step_left c net s i s' : inv c s -> step net i s = Some s' -> left_ s = S (left_ s').
Proof.
  intros Hinv Hst. unfold step in Hst. destruct (nth_error s i) as [t|] eqn:Hi; [|discriminate].
  pose proof (proj1 Hinv i t Hi) as Hwt. destruct (t_rest t) as [|a r] eqn:Hr; [discriminate|].
  assert (Hpl : forall h', noP (t_held t) -> noP h' -> weight a = 1%nat -> left_ s = S (left_ (upd i {| t_held := h'; t_rest := r |} s))).
  { intros h' H1 H2 H3. apply (left_upd s i t _ Hi). unfold left1. rewrite Hr. cbn [t_held t_rest weights fold_right].
    fold (weights r). rewrite (waits_noP _ H1), (waits_noP _ H2), H3. lia. }
  assert (Hdrop : forall l m h, noP h -> noP (drop l m h)).
  { intros l m h Hn l' Hin. apply (Hn l'). clear -Hin. induction h as [|p h IH]; [exact Hin|]. cbn [drop] in Hin.
    destruct (eqb (fst p) l && eqb (snd p) m); [right; exact Hin|]. destruct Hin as [->|Hin]; [left; reflexivity|right; apply IH, Hin]. }
  destruct (wf_next c t Hwt a r Hr) as [[Hn Hg]|(l0 & h0 & He & Hh & Hn & Hg)].
  - destruct a as [l|l|l|l| | |v|v|].
    + destruct (writing l s); [discriminate|]. injection Hst as <-. apply Hpl; [exact Hn|apply noP_cons; [discriminate|exact Hn]|reflexivity].
    + destruct (has l R t); [|discriminate]. injection Hst as <-. apply Hpl; [exact Hn|apply Hdrop, Hn|reflexivity].
    + destruct (has l P t) eqn:Hp; [apply has_in in Hp; exfalso; exact (Hn l Hp)|].
      destruct (writing l s); [discriminate|]. injection Hst as <-. apply (left_upd s i t _ Hi). unfold left1. rewrite Hr.
      cbn [t_held t_rest weights fold_right weight]. fold (weights r). rewrite (waits_noP _ Hn). unfold waits. cbn [existsb snd].
      rewrite (eqb_refl P). cbn [orb]. lia.
    + destruct (has l W t); [|discriminate]. injection Hst as <-. apply Hpl; [exact Hn|apply Hdrop, Hn|reflexivity].
    + destruct (users LSem s <? 16)%nat; [|discriminate]. injection Hst as <-. apply Hpl; [exact Hn|apply noP_cons; [discriminate|exact Hn]|reflexivity].
    + destruct (has LSem R t); [|discriminate]. injection Hst as <-. apply Hpl; [exact Hn|apply Hdrop, Hn|reflexivity].
    + injection Hst as <-. apply Hpl; [exact Hn|exact Hn|reflexivity].
    + injection Hst as <-. apply Hpl; [exact Hn|exact Hn|reflexivity].
    + destruct (net i); [|discriminate]. injection Hst as <-. apply Hpl; [exact Hn|exact Hn|reflexivity].
  - subst a. replace (has l0 P t) with true in Hst by (symmetry; apply has_in; rewrite Hh; left; reflexivity).
    destruct (reading l0 s); [discriminate|]. injection Hst as <-. apply (left_upd s i t _ Hi). unfold left1. rewrite Hr, Hh, drop_hd.
    cbn [t_held t_rest weights fold_right weight]. fold (weights r).
    rewrite (waits_noP ((l0, W) :: h0)); [|apply noP_cons; [discriminate|exact Hn]]. unfold waits. cbn [existsb snd]. rewrite (eqb_refl P). cbn [orb]. lia.
Qed.

Lemma left_ended c s : inv c s -> left_ s = O <-> allEnded s.
Proof.
  intros [Hwf _]. unfold allEnded, ended. induction s as [|t s IH].
  - split; [intros _ t []|reflexivity].
  - assert (IH' : left_ s = O <-> (forall u, In u s -> t_rest u = [])) by (apply IH; intros i u Hi; apply (Hwf (S i) u Hi)).
    cbn [left_ fold_right]. fold (left_ s).
    assert (Ht : left1 t = O <-> t_rest t = []).
    { unfold left1. split.
      - intros H0. destruct (t_rest t) as [|a r] eqn:Hr; [reflexivity|]. exfalso. destruct (wf_next c t (Hwf O t eq_refl) a r Hr) as [[Hn _]|(l0 & h0 & -> & _)].
        + rewrite (waits_noP _ Hn) in H0. cbn [weights fold_right] in H0. destruct a; cbn [weight] in H0; lia.
        + cbn [weights fold_right weight] in H0. unfold waits in H0. destruct (existsb (fun p => eqb (snd p) P) (t_held t)); lia.
      - intros ->. reflexivity. }
    split.
    + intros H0 u [<-|Hu]; [apply Ht; lia|]. apply IH'; [lia|exact Hu].
    + intros Ha. rewrite (proj2 Ht (Ha t (or_introl eq_refl))), (proj2 IH'); [reflexivity|]. intros u Hu. apply Ha. right. exact Hu.
Qed.
