(** C53: clients of the metadata provider miss no change. *)
From Verif Require Import Base K8sModel WatchModel WatchProofs.
Open Scope string_scope. Open Scope list_scope. Open Scope Z_scope.

(** *** Specification *)
(** What an update says about a key: nothing, the value it gets, or that it goes. *)
Definition writes {V} (u : upd V) (k : bytes) : option (option V) :=
  match u with USet k' v => if eqb k' k then Some (Some v) else None | UDel k' => if eqb k' k then Some None else None end.
(** The last update of a list about a key. *)
Definition lastWrite {V} (us : list (upd V)) (k : bytes) : option (option V) :=
  fold_left (fun r u => match writes u k with Some x => Some x | None => r end) us None.

Section Maps.
  Context {V : Type}.
  Lemma aget_app1 (m : list (bytes * V)) u k : aget (app1 m u) k = match writes u k with Some x => x | None => aget m k end.
  Proof.
    destruct u as [k' v|k']; cbn [app1 writes]; case_eqb k' k.
    - subst. apply aget_aset_same.
    - apply aget_aset_other. congruence.
    - subst. apply aget_adel_same.
    - apply aget_adel_other. congruence.
  Qed.
  Lemma lastWrite_snoc (us : list (upd V)) u k : lastWrite (us ++ [u]) k = match writes u k with Some x => Some x | None => lastWrite us k end.
  Proof. unfold lastWrite. rewrite fold_left_app. reflexivity. Qed.
  Lemma runUpd_snoc (us : list (upd V)) u m : runUpd (us ++ [u]) m = app1 (runUpd us m) u.
  Proof. unfold runUpd. rewrite fold_left_app. reflexivity. Qed.
  Lemma aget_runUpd us : forall (m : list (bytes * V)) k, aget (runUpd us m) k = match lastWrite us k with Some x => x | None => aget m k end.
  Proof.
    induction us as [|u us IH] using rev_ind; intros m k; [reflexivity|].
    rewrite runUpd_snoc, aget_app1, lastWrite_snoc, IH. destruct (writes u k); reflexivity.
  Qed.
  Lemma lastWrite_app (a b : list (upd V)) k : lastWrite (a ++ b) k = match lastWrite b k with Some x => Some x | None => lastWrite a k end.
  Proof.
    induction b as [|u b IH] using rev_ind; [rewrite app_nil_r; reflexivity|].
    rewrite app_assoc, !lastWrite_snoc, IH. destruct (writes u k); reflexivity.
  Qed.
  (** Updates seen twice, the second time from the start, leave the same map. *)
  Lemma twice (p q : list (upd V)) m k : aget (runUpd (p ++ q) (runUpd p m)) k = aget (runUpd (p ++ q) m) k.
  Proof.
    rewrite !aget_runUpd. rewrite lastWrite_app. destruct (lastWrite q k); [reflexivity|]. destruct (lastWrite p k); reflexivity.
  Qed.
End Maps.

Section C53.
  Context {E V : Type}.
  Implicit Types (s : wst E V) (w : watcher E V).

  (** For every order in which the events are handled and broadcast and the clients come, read and go: of every kind of object there is
      a number [b] of events such that the snapshot has all the changes of the first [b] events, and perhaps some or all of those of the next
      one; and the events sent to the client so far are those after the first [b], each once and in order, up to some point. *)
  Theorem C53_in_order ops i w : nth_error (s_ws (wrun s0 ops)) i = Some w -> forall t,
    exists b j, let h := s_hist (wrun s0 ops) t in
      (b <= List.length h)%nat /\
      (exists part, w_snap w t = runUpd (flat_map snd (firstn b h) ++ part) [] /\
        forall e us, nth_error h b = Some (e, us) -> exists rest, us = part ++ rest) /\
      ofType t (w_out w) = firstn j (map fst (skipn b h)).
  Proof.
    intros G t. cbv zeta. destruct (inv_w _ (wrun_inv ops s0 s0_inv) i w G) as [_ W]. destruct (W t) as [A B C D X Y Z T].
    set (h := s_hist (wrun s0 ops) t) in *. destruct A as [[A1 A2] A3]. destruct Z as (j & Z). exists (w_base w t), j.
    split; [lia|]. split.
    - destruct (Nat.eq_dec (w_base w t) (w_reg w t)) as [EQ|NE].
      + exists (w_pre w t). rewrite EQ. split; [exact C|exact (proj1 D)].
      + assert (R : w_reg w t = S (w_base w t)) by lia. destruct (nth_error h (w_base w t)) as [[e us]|] eqn:N.
        * exists us. split.
          -- rewrite C, (B ltac:(lia)), app_nil_r, R. f_equal.
             clear -N. revert N. generalize (w_base w t). induction h as [|x h IH]; intros [|n] N; try discriminate.
             ++ cbn in N. injection N as ->. cbn. rewrite app_nil_r. reflexivity.
             ++ cbn in N. specialize (IH n N). change (firstn (S (S n)) (x :: h)) with (x :: firstn (S n) h). change (firstn (S n) (x :: h)) with (x :: firstn n h).
                unfold ups in *. cbn [flat_map]. rewrite IH, app_assoc. reflexivity.
          -- intros e0 us0 Q. injection Q as <- <-. exists []. rewrite app_nil_r. reflexivity.
        * exfalso. apply nth_error_None in N. lia.
    - rewrite Z. unfold evs. rewrite skipn_map. reflexivity.
  Qed.

  (** Nothing is left out for a client that is connected and served (its channel is open and its loop has not left): the events after the
      first [b] are those sent, then the one being written and those in the channel, then perhaps the one whose broadcast
      has not reached it yet. *)
  Theorem C53_nothing_missed ops i w : nth_error (s_ws (wrun s0 ops)) i = Some w -> w_open w = true -> working (w_loop w) -> forall t,
    exists b waiting, let h := s_hist (wrun s0 ops) t in
      (b <= List.length h)%nat /\
      (exists part, w_snap w t = runUpd (flat_map snd (firstn b h) ++ part) [] /\
        (forall e us, nth_error h b = Some (e, us) -> exists rest, us = part ++ rest) /\ (b = List.length h -> s_pc (wrun s0 ops) t = Idle -> part = [])) /\
      map fst (skipn b h) = ofType t (w_out w ++ hand (w_loop w) ++ w_chan w) ++ waiting /\
      (waiting = [] \/ exists e, casting (s_pc (wrun s0 ops) t) = Some e /\ waiting = [e]).
  Proof.
    intros G OP WK t. cbv zeta. pose proof (wrun_inv ops s0 s0_inv) as I. destruct (inv_w _ I i w G) as [_ W]. destruct (W t) as [A B C D X Y Z T].
    destruct (inv_pc _ I t) as (P1 & _). set (h := s_hist (wrun s0 ops) t) in *. set (p := s_pc (wrun s0 ops) t) in *. specialize (T OP WK).
    destruct A as [[A1 A2] A3].
    assert (SN : exists part, w_snap w t = runUpd (flat_map snd (firstn (w_base w t) h) ++ part) [] /\
        (forall e us, nth_error h (w_base w t) = Some (e, us) -> exists rest, us = part ++ rest) /\ (w_base w t = List.length h -> p = Idle -> part = [])).
    { destruct (Nat.eq_dec (w_base w t) (w_reg w t)) as [EQ|NE].
      - exists (w_pre w t). rewrite EQ. split; [exact C|]. split; [exact (proj1 D)|]. intros Q PI. destruct (proj2 D Q) as (r & R). rewrite PI in R. cbn in R.
        symmetry in R. apply app_eq_nil in R. apply R.
      - assert (R : w_reg w t = S (w_base w t)) by lia. destruct (nth_error h (w_base w t)) as [[e us]|] eqn:N.
        + exists us. split; [|split].
          * rewrite C, (B ltac:(lia)), app_nil_r, R. f_equal.
             clear -N. revert N. generalize (w_base w t). induction h as [|x h IH]; intros [|n] N; try discriminate.
             -- cbn in N. injection N as ->. cbn. rewrite app_nil_r. reflexivity.
             -- cbn in N. specialize (IH n N). change (firstn (S (S n)) (x :: h)) with (x :: firstn (S n) h). change (firstn (S n) (x :: h)) with (x :: firstn n h).
                unfold ups in *. cbn [flat_map]. rewrite IH, app_assoc. reflexivity.
          * intros e0 us0 Q. injection Q as <- <-. exists []. rewrite app_nil_r. reflexivity.
          * intros Q. lia.
        + exfalso. apply nth_error_None in N. lia. }
    exists (w_base w t). destruct (unoffered i p) eqn:U.
    - (* the broadcast has not reached it *)
      assert (exists e, casting p = Some e) as (e & CE) by (destruct p; try discriminate U; eexists; reflexivity).
      destruct (P1 e CE) as (h' & d & H). assert (LH : List.length h = S (List.length h')) by (rewrite H, app_length; cbn; lia).
      rewrite LH in T. replace (S (List.length h') - 1)%nat with (List.length h') in T by lia.
      assert (EV : evs h = evs h' ++ [e]) by (rewrite H; unfold evs; rewrite map_app; reflexivity).
      assert (LE : List.length (evs h') = List.length h') by (unfold evs; apply map_length).
      rewrite EV, firstn_app, LE, Nat.sub_diag, firstn_O, app_nil_r, firstn_all2 in T by lia.
      destruct (Nat.eq_dec (w_base w t) (List.length h)) as [Q|NQ].
      + exists []. split; [lia|]. split; [exact SN|]. split; [|left; reflexivity]. rewrite app_nil_r, T, Q, LH. rewrite skipn_all2 by lia. rewrite skipn_all2 by lia. reflexivity.
      + exists [e]. split; [lia|]. split; [exact SN|]. split; [|right; exists e; split; [exact CE|reflexivity]].
        rewrite T. rewrite <- skipn_map. fold (evs h). rewrite EV, skipn_app. replace (w_base w t - List.length (evs h'))%nat with 0%nat by lia. reflexivity.
    - exists []. split; [lia|]. split; [exact SN|]. split; [|left; reflexivity]. rewrite app_nil_r, T, Nat.sub_0_r. rewrite firstn_all2 by (unfold evs; rewrite map_length; lia).
      unfold evs. rewrite skipn_map. reflexivity.
  Qed.

  (** The events handled are those the informer delivered, with their updates. *)
  Definition begun (o : wop) : list (rtype * E * list (upd V)) := match o with BeginEvent t e us => [(t, e, us)] | _ => [] end.
  Definition agree (P : rtype -> E -> list (upd V) -> Prop) (o : wop) : Prop := forall t e us, In (t, e, us) (begun o) -> P t e us.
  Definition HI (P : rtype -> E -> list (upd V) -> Prop) s : Prop := forall t,
    (forall e us, In (e, us) (s_hist s t) -> P t e us) /\ (forall e d r, s_pc s t = Applying e d r -> P t e (d ++ r)).
  Lemma HI_wstep cl s o : agree cl o -> HI cl s -> HI cl (wstep s o).
  Proof.
    intros AG H.
    assert (same : forall s', (forall t, s_hist s' t = s_hist s t) -> (forall t, s_pc s' t = s_pc s t \/ forall e d r, s_pc s' t <> Applying e d r) -> HI cl s').
    { intros s' A B t. destruct (H t) as [H1 H2]. split; [rewrite A; exact H1|]. intros e d r P. destruct (B t) as [Q|Q]; [rewrite Q in P; exact (H2 e d r P)|destruct (Q e d r P)]. }
    assert (pcs : forall s' t p, s_hist s' = s_hist s -> s_pc s' = setT (s_pc s) t p -> (forall e d r, p <> Applying e d r) -> HI cl s').
    { intros s' t p A B C. apply same; [intros u; rewrite A; reflexivity|]. intros u. rewrite B. destruct (rtype_dec u t) as [->|NE].
      - right. rewrite setT_same. exact C.
      - left. apply setT_other. exact NE. }
    destruct o as [t e us|t|t|t i|t i|t|t|t| |i|i ok|i|i|i]; cbn [wstep].
    - destruct (s_pc s t) eqn:P; try exact H. intros u. cbn [setPC s_hist s_pc]. destruct (H u) as [H1 H2]. split; [exact H1|]. intros e0 d r.
      destruct (rtype_dec u t) as [->|NE]; [rewrite setT_same; intros Q; injection Q as <- <- <-; cbn; apply AG; left; reflexivity|rewrite setT_other by exact NE; apply H2].
    - destruct (s_pc s t) as [|e d td| | |] eqn:P; try exact H. destruct td as [|x r]; [exact H|]. intros u. cbn [s_hist s_pc]. destruct (H u) as [H1 H2]. split; [exact H1|]. intros e0 d0 r0.
      destruct (rtype_dec u t) as [->|NE]; [rewrite setT_same; intros Q; injection Q as <- <- <-; rewrite <- app_assoc; exact (H2 e d (x :: r) P)|rewrite setT_other by exact NE; apply H2].
    - destruct (s_pc s t) as [|e d td| | |] eqn:P; try exact H. destruct td as [|x r]; [|exact H]. intros u. cbn [s_hist s_pc]. destruct (H u) as [H1 H2].
      destruct (rtype_dec u t) as [->|NE].
      + rewrite !setT_same. split; [|discriminate]. intros e0 us0 I. apply in_app_or in I. destruct I as [I|[I|[]]]; [exact (H1 e0 us0 I)|].
        injection I as <- <-. pose proof (H2 e d [] P) as Q. rewrite app_nil_r in Q. exact Q.
      + rewrite !setT_other by exact NE. split; [exact H1|exact H2].
    - destruct (s_pc s t) as [| |e v m| |] eqn:P; try exact H. destruct (nth_error (s_ws s) i) as [w|]; [|exact H]. destruct (_ && _ && _); [|exact H].
      apply (pcs _ t (Casting e (i :: v) m)); try reflexivity. discriminate.
    - destruct (s_pc s t) as [| |e v m| |] eqn:P; try exact H. destruct (nth_error (s_ws s) i) as [w|]; [|exact H]. destruct (_ && _); [|exact H].
      apply (pcs _ t (Closing e i v m)); try reflexivity. discriminate.
    - destruct (s_pc s t) as [| | |e i v m|] eqn:P; try exact H. destruct (nth_error (s_ws s) i) as [w|]; [|exact H].
      apply (pcs _ t (Dropping e i v m)); try reflexivity. discriminate.
    - destruct (s_pc s t) as [| | | |e i v m] eqn:P; try exact H. destruct (nth_error (s_ws s) i) as [w|]; [|exact H].
      apply (pcs _ t (Casting e (i :: v) m)); try reflexivity. discriminate.
    - destruct (s_pc s t) as [| |e v m| |] eqn:P; try exact H. destruct (forallb _ m); [|exact H]. apply (pcs _ t Idle); try reflexivity. discriminate.
    - apply same; [reflexivity|left; reflexivity].
    - destruct (nth_error (s_ws s) i) as [w|]; [|exact H]. destruct (w_loop w); try exact H. destruct (w_chan w); [exact H|]. apply same; [reflexivity|left; reflexivity].
    - destruct (nth_error (s_ws s) i) as [w|]; [|exact H]. destruct (w_loop w); try exact H. destruct (_ && _); (apply same; [reflexivity|left; reflexivity]).
    - destruct (nth_error (s_ws s) i) as [w|]; [|exact H]. destruct (w_loop w); exact H.
    - destruct (nth_error (s_ws s) i) as [w|]; [|exact H]. destruct (w_loop w); exact H.
    - destruct (nth_error (s_ws s) i) as [w|]; [|exact H]. destruct (w_loop w); exact H.
  Qed.
  Lemma HI_wrun cl ops : forall s, (forall o, In o ops -> agree cl o) -> HI cl s -> HI cl (wrun s ops).
  Proof.
    induction ops as [|o ops IH]; intros s AG H; [exact H|]. cbn [wrun fold_left]. apply IH; [intros o' I; apply AG; right; exact I|].
    apply HI_wstep; [apply AG; left; reflexivity|exact H].
  Qed.
  Lemma clientMap_eq cl w t : clientMap cl w t = runUpd (flat_map cl (ofType t (w_out w))) (w_snap w t).
  Proof.
    unfold clientMap. generalize (w_snap w t). induction (ofType t (w_out w)) as [|e l IH]; intros m; [reflexivity|]. cbn [fold_left flat_map]. rewrite IH, runUpd_app. reflexivity.
  Qed.

  (** Once the handler of a kind is idle and the client has been sent all it was given, the map of the client is the provider's, if an
      event changes both in the same way. *)
  Theorem C53_converges cl ops i w t : (forall e us, In (BeginEvent t e us) ops -> us = cl e) -> nth_error (s_ws (wrun s0 ops)) i = Some w ->
    w_open w = true -> w_loop w = Selecting -> w_chan w = [] -> s_pc (wrun s0 ops) t = Idle ->
    forall k, aget (clientMap cl w t) k = aget (s_cache (wrun s0 ops) t) k.
  Proof.
    intros AG G OP LP CH PC k. assert (WK : working (w_loop w)) by (rewrite LP; exact Logic.I).
    destruct (C53_nothing_missed ops i w G OP WK t) as (b & waiting & LB & (part & SN & PRE & EMP) & EVS & WT). rewrite LP, CH in EVS. cbn [hand app] in EVS. rewrite app_nil_r in EVS.
    assert (waiting = []). { destruct WT as [X|(e & X & _)]; [exact X|]. rewrite PC in X. discriminate. } subst waiting. rewrite app_nil_r in EVS.
    pose proof (inv_cache _ (wrun_inv ops s0 s0_inv) t) as C. rewrite PC in C. cbn [pending] in C. rewrite app_nil_r in C.
    assert (HH : HI (fun t' e us => t' = t -> us = cl e) (wrun s0 ops)).
    { apply HI_wrun; [|split; [intros e us []|discriminate]]. intros o IO t' e us J. destruct o; cbn [begun] in J; try (exfalso; exact J). destruct J as [J|[]]. injection J as <- <- <-.
      intros ->. exact (AG _ _ IO). }
    destruct (HH t) as [H0 _]. assert (H1 : forall e us, In (e, us) (s_hist (wrun s0 ops) t) -> us = cl e) by (intros e us J; exact (H0 e us J eq_refl)). clear H0.
    set (h := s_hist (wrun s0 ops) t) in *. rewrite clientMap_eq, <- EVS, C, SN.
    assert (U : flat_map cl (map fst (skipn b h)) = flat_map snd (skipn b h)).
    { assert (X : forall e us, In (e, us) (skipn b h) -> us = cl e). { intros e us I. apply H1. rewrite <- (firstn_skipn b h). apply in_or_app. right. exact I. }
      clear -X. induction (skipn b h) as [|[e us] l IH]; [reflexivity|]. cbn. rewrite IH by (intros e0 us0 I; apply X; right; exact I).
      rewrite <- (X e us (or_introl eq_refl)). reflexivity. }
    rewrite U. unfold ups. rewrite <- (firstn_skipn b h) at 3. rewrite flat_map_app. rewrite runUpd_app. rewrite (runUpd_app (flat_map snd (firstn b h))).
    generalize (runUpd (flat_map snd (firstn b h)) []). intros m.
    destruct (nth_error h b) as [[e us]|] eqn:N.
    - destruct (PRE e us eq_refl) as (rest & ->).
      assert (SK : skipn b h = (e, part ++ rest) :: skipn (S b) h).
      { clear -N. revert b N. induction h as [|x h IH]; intros [|b] N; try discriminate; [cbn in N; injection N as ->; reflexivity|exact (IH b N)]. }
      rewrite SK. cbn [flat_map snd]. rewrite <- app_assoc. apply twice.
    - apply nth_error_None in N. rewrite (skipn_all2 (n := b)) by exact N. cbn [flat_map].
      rewrite (EMP ltac:(lia) PC). reflexivity.
  Qed.
End C53.
Print Assumptions C53_in_order.
Print Assumptions C53_nothing_missed.
Print Assumptions C53_converges.

(** A small execution: a client comes after the first of the two updates of an event and is sent the event. *)
Definition exOps : list (wop (E := Z) (V := Z)) :=
  [BeginEvent TNode 1 [USet (bs "a") 1]; ApplyNext TNode; StartCast TNode; EndCast TNode;
   BeginEvent TNode 2 [UDel (bs "a"); USet (bs "b") 2]; ApplyNext TNode; Register; ApplyNext TNode; StartCast TNode; Give TNode 0; EndCast TNode; Take 0; Send 0 true].
Definition exCl (e : Z) : list (upd Z) := if e =? 1 then [USet (bs "a") 1] else [UDel (bs "a"); USet (bs "b") 2].
Example C53_converges_ex : (forall e us, In (BeginEvent TNode e us) exOps -> us = exCl e) /\
  exists w, nth_error (s_ws (wrun s0 exOps)) 0 = Some w /\ w_open w = true /\ w_loop w = Selecting /\ w_chan w = [] /\ s_pc (wrun s0 exOps) TNode = Idle /\
    w_snap w TNode = [] /\ ofType TNode (w_out w) = [2] /\ s_cache (wrun s0 exOps) TNode = [(bs "b", 2)] /\ clientMap exCl w TNode = [(bs "b", 2)].
Proof.
  split.
  - intros e us I. cbn in I. repeat (destruct I as [I|I]; [try discriminate I; injection I as <- <-; reflexivity|]). destruct I.
  - destruct (nth_error (s_ws (wrun s0 exOps)) 0) as [w|] eqn:N; vm_compute in N; [|discriminate]. exists w. injection N as <-. vm_compute. repeat split.
Qed.

(** *** Nodes and replica sets *)
Section Instances.
  Context (builtIn : bytes -> bool) (lower : bytes -> bytes) (myNode : bytes) (it : forall A : Type, nat -> list A -> list A) (grace now : Z).
  (** a collector handles a list of events *)
  Definition handle (l : list kop) (st : kstate) : kstate := fold_left (fun st o => kstep builtIn lower myNode it grace 0 now o st) l st.

  (** the changes an event makes to the map of nodes, each under its lock (node_watch.go:34-39, 60-64, 98-134) *)
  Definition nodeUps (o : kop) : list (upd nodeInfo) :=
    match o with
    | OAddNode n => [USet (internalIp n) {| ni_ip := internalIp n; ni_name := nd_name n |}]
    | OUpdateNode old new => [UDel (nd_name old); USet (internalIp new) {| ni_ip := internalIp new; ni_name := nd_name new |}]
    | ODeleteNode (Some n) => [UDel (nd_name n)]
    | _ => []
    end.
  Definition isNode (o : kop) : Prop := match o with OAddNode _ => True | OUpdateNode _ _ => True | ODeleteNode _ => True | _ => False end.
  Lemma handle_nodes l : forall st, Forall isNode l -> k_nodes (handle l st) = runUpd (flat_map nodeUps l) (k_nodes st).
  Proof.
    induction l as [|o l IH]; intros st F; [reflexivity|]. inversion F as [|? ? N F']; subst. unfold handle. cbn [fold_left]. fold (handle l). rewrite IH by exact F'.
    cbn [flat_map]. rewrite runUpd_app. f_equal. destruct o as [| | | | | | | | | |n|a b|[n|]]; try destruct N; reflexivity.
  Qed.
  (** the same for replica sets (replicaset_watch.go:48-66, 96-138) *)
  Definition rsAdd (r : replicaset) : list (upd controller) :=
    match List.find ow_controller (rs_owners r) with
    | None => []
    | Some o => [USet (mapKey (rs_ns r) (rs_name r)) {| co_name := ow_name o; co_kind := ow_kind o; co_api := ow_api o |}]
    end.
  Definition rsUps (o : kop) : list (upd controller) :=
    match o with
    | OAddRs r => rsAdd r
    | OUpdateRs old new => if eqb (rs_rv new) (rs_rv old) then [] else UDel (mapKey (rs_ns old) (rs_name old)) :: rsAdd new
    | ODeleteRs (Some r) => [UDel (mapKey (rs_ns r) (rs_name r))]
    | _ => []
    end.
  Definition isRs (o : kop) : Prop := match o with OAddRs _ => True | OUpdateRs _ _ => True | ODeleteRs _ => True | _ => False end.
  Lemma rsAdd_ok r st : k_rs (addReplicaSet r st) = runUpd (rsAdd r) (k_rs st).
  Proof. unfold addReplicaSet, rsAdd. destruct (List.find ow_controller (rs_owners r)); reflexivity. Qed.
  Lemma handle_rs l : forall st, Forall isRs l -> k_rs (handle l st) = runUpd (flat_map rsUps l) (k_rs st).
  Proof.
    induction l as [|o l IH]; intros st F; [reflexivity|]. inversion F as [|? ? N F']; subst. unfold handle. cbn [fold_left]. fold (handle l). rewrite IH by exact F'.
    cbn [flat_map]. rewrite runUpd_app. f_equal. destruct o as [| | | | | | |r|a b|[r|]| | |]; try destruct N.
    - apply rsAdd_ok.
    - cbn [kstep rsUps]. unfold updateReplicaSet. case_eqb (rs_rv b) (rs_rv a); [reflexivity|]. rewrite rsAdd_ok. reflexivity.
    - reflexivity.
    - reflexivity.
  Qed.

  (** A client that is connected and has read everything names every node as the provider does: it starts from the snapshot and
      handles the events it was sent with the code the provider handled them with. *)
  Theorem C53_nodes ops i w : (forall o us, In (BeginEvent TNode o us) ops -> isNode o /\ us = nodeUps o) ->
    nth_error (s_ws (wrun s0 ops)) i = Some w -> w_open w = true -> w_loop w = Selecting -> w_chan w = [] -> s_pc (wrun s0 ops) TNode = Idle ->
    forall ip, getNodeName (handle (ofType TNode (w_out w)) (setNodes k0 (w_snap w TNode))) ip =
               getNodeName (handle (map fst (s_hist (wrun s0 ops) TNode)) k0) ip.
  Proof.
    intros AG G OP LP CH PC ip.
    assert (HH : HI (fun t e us => t = TNode -> isNode e /\ us = nodeUps e) (wrun s0 ops)).
    { apply HI_wrun; [|split; [intros e us []|discriminate]]. intros o IO t e us J. destruct o; cbn [begun] in J; try (exfalso; exact J). destruct J as [J|[]]. injection J as <- <- <-.
      intros ->. exact (AG _ _ IO). }
    destruct (HH TNode) as [H0 _].
    assert (F : Forall isNode (map fst (s_hist (wrun s0 ops) TNode))).
    { apply Forall_forall. intros o I. apply in_map_iff in I. destruct I as ([o' us] & <- & I). exact (proj1 (H0 o' us I eq_refl)). }
    assert (U : flat_map nodeUps (map fst (s_hist (wrun s0 ops) TNode)) = flat_map snd (s_hist (wrun s0 ops) TNode)).
    { clear -H0. induction (s_hist (wrun s0 ops) TNode) as [|[o us] h IH]; [reflexivity|]. cbn [map fst flat_map snd].
      rewrite IH by (intros e us' I; apply H0; right; exact I). rewrite (proj2 (H0 o us (or_introl eq_refl) eq_refl)). reflexivity. }
    destruct (C53_in_order ops i w G TNode) as (b & j & _ & _ & OUT).
    assert (FO : Forall isNode (ofType TNode (w_out w))).
    { rewrite OUT. apply Forall_forall. intros o I. rewrite Forall_forall in F. apply F. clear -I.
      assert (K : In o (map fst (skipn b (s_hist (wrun s0 ops) TNode)))). { rewrite <- (firstn_skipn j). apply in_or_app. left. exact I. }
      rewrite <- (firstn_skipn b (s_hist (wrun s0 ops) TNode)), map_app. apply in_or_app. right. exact K. }
    unfold getNodeName. f_equal. rewrite !handle_nodes by assumption. cbn [setNodes k_nodes].
    pose proof (C53_converges nodeUps ops i w TNode (fun e us J => proj2 (AG e us J)) G OP LP CH PC ip) as X.
    rewrite clientMap_eq in X. rewrite X. rewrite (inv_cache _ (wrun_inv ops s0 s0_inv) TNode), PC. cbn [pending]. rewrite app_nil_r. unfold ups. rewrite U. reflexivity.
  Qed.
  (** The same for the owners of the replica sets. *)
  Theorem C53_replicasets ops i w : (forall o us, In (BeginEvent TRs o us) ops -> isRs o /\ us = rsUps o) ->
    nth_error (s_ws (wrun s0 ops)) i = Some w -> w_open w = true -> w_loop w = Selecting -> w_chan w = [] -> s_pc (wrun s0 ops) TRs = Idle ->
    forall k, aget (k_rs (handle (ofType TRs (w_out w)) (setRs k0 (w_snap w TRs)))) k =
              aget (k_rs (handle (map fst (s_hist (wrun s0 ops) TRs)) k0)) k.
  Proof.
    intros AG G OP LP CH PC k.
    assert (HH : HI (fun t e us => t = TRs -> isRs e /\ us = rsUps e) (wrun s0 ops)).
    { apply HI_wrun; [|split; [intros e us []|discriminate]]. intros o IO t e us J. destruct o; cbn [begun] in J; try (exfalso; exact J). destruct J as [J|[]]. injection J as <- <- <-.
      intros ->. exact (AG _ _ IO). }
    destruct (HH TRs) as [H0 _].
    assert (F : Forall isRs (map fst (s_hist (wrun s0 ops) TRs))).
    { apply Forall_forall. intros o I. apply in_map_iff in I. destruct I as ([o' us] & <- & I). exact (proj1 (H0 o' us I eq_refl)). }
    assert (U : flat_map rsUps (map fst (s_hist (wrun s0 ops) TRs)) = flat_map snd (s_hist (wrun s0 ops) TRs)).
    { clear -H0. induction (s_hist (wrun s0 ops) TRs) as [|[o us] h IH]; [reflexivity|]. cbn [map fst flat_map snd].
      rewrite IH by (intros e us' I; apply H0; right; exact I). rewrite (proj2 (H0 o us (or_introl eq_refl) eq_refl)). reflexivity. }
    destruct (C53_in_order ops i w G TRs) as (b & j & _ & _ & OUT).
    assert (FO : Forall isRs (ofType TRs (w_out w))).
    { rewrite OUT. apply Forall_forall. intros o I. rewrite Forall_forall in F. apply F. clear -I.
      assert (K : In o (map fst (skipn b (s_hist (wrun s0 ops) TRs)))). { rewrite <- (firstn_skipn j). apply in_or_app. left. exact I. }
      rewrite <- (firstn_skipn b (s_hist (wrun s0 ops) TRs)), map_app. apply in_or_app. right. exact K. }
    rewrite !handle_rs by assumption. cbn [setRs k_rs].
    pose proof (C53_converges rsUps ops i w TRs (fun e us J => proj2 (AG e us J)) G OP LP CH PC k) as X.
    rewrite clientMap_eq in X. rewrite X. rewrite (inv_cache _ (wrun_inv ops s0 s0_inv) TRs), PC. cbn [pending]. rewrite app_nil_r. unfold ups. rewrite U. reflexivity.
  Qed.
End Instances.
Print Assumptions C53_nodes.
Print Assumptions C53_replicasets.

(** One execution for the examples below: the handler of [t] handles each event of a list, to the end, and gives it to client 0. *)
Definition serve {E V} (t : rtype) (e : E) (us : list (upd V)) : list (wop (E := E) (V := V)) :=
  [BeginEvent t e us] ++ repeat (ApplyNext t) (List.length us) ++ [StartCast t; Give t 0; EndCast t; Take 0; Send 0 true].
Definition exNode (name ip : bytes) : node := {| nd_name := name; nd_addresses := [(bs "Hostname", name); (bs "InternalIP", ip)] |}.
Definition exNodeOps : list (wop (E := kop) (V := nodeInfo)) :=
  let a := OAddNode (exNode (bs "n1") (bs "10.0.0.1")) in let b := OUpdateNode (exNode (bs "n1") (bs "10.0.0.1")) (exNode (bs "n1") (bs "10.0.0.2")) in
  serve TNode a (nodeUps a) ++ [Register] ++ serve TNode b (nodeUps b).
Example C53_nodes_ex : (forall o us, In (BeginEvent TNode o us) exNodeOps -> isNode o /\ us = nodeUps o) /\
  exists w, nth_error (s_ws (wrun s0 exNodeOps)) 0 = Some w /\ w_open w = true /\ w_loop w = Selecting /\ w_chan w = [] /\ s_pc (wrun s0 exNodeOps) TNode = Idle /\
    getNodeName (handle (fun _ => true) (fun x => x) [] (fun _ _ l => l) 0 0 (ofType TNode (w_out w)) (setNodes k0 (w_snap w TNode))) (bs "10.0.0.2") = Some (bs "n1").
Proof.
  split.
  - intros o us I. vm_compute in I.
    repeat (destruct I as [I|I]; [first [discriminate I | injection I as <- <-; split; [exact Logic.I|reflexivity]]|]). destruct I.
  - destruct (nth_error (s_ws (wrun s0 exNodeOps)) 0) as [w|] eqn:N; vm_compute in N; [|discriminate]. exists w. injection N as <-. vm_compute. repeat split.
Qed.

(** *** What does not hold *)
(** service.go:89-118, handler.go:45-53, unwrapper_handler.go:108-115: a deletion the provider learned of late reaches its handler as a
    DeletedFinalStateUnknown.  The provider deletes the object in it, but sends it as it is, a JSON object with the fields Key and Obj; the client decodes this
    as a replica set, which has neither, and so deletes the object without a name. *)
Inductive rsEvent := RsAdd (r : replicaset) | RsDelete (late : bool) (r : replicaset).
Definition emptyRs : replicaset := {| rs_rv := []; rs_ns := []; rs_name := []; rs_owners := [] |}.
Definition atProvider (e : rsEvent) : kop := match e with RsAdd r => OAddRs r | RsDelete _ r => ODeleteRs (Some r) end.
Definition atClient (e : rsEvent) : kop := match e with RsAdd r => OAddRs r | RsDelete late r => ODeleteRs (Some (if late then emptyRs else r)) end.
Definition exRs : replicaset := {| rs_rv := bs "1"; rs_ns := bs "default"; rs_name := bs "web-7"; rs_owners := [{| ow_controller := true; ow_kind := bs "Deployment"; ow_name := bs "web"; ow_api := bs "apps/v1" |}] |}.
Definition lateOps : list (wop (E := rsEvent) (V := controller)) :=
  [Register] ++ serve TRs (RsAdd exRs) (rsUps (atProvider (RsAdd exRs))) ++ serve TRs (RsDelete true exRs) (rsUps (atProvider (RsDelete true exRs))).
Theorem C53_late_deletion_refuted : exists w, nth_error (s_ws (wrun s0 lateOps)) 0 = Some w /\ w_open w = true /\ w_loop w = Selecting /\ w_chan w = [] /\ s_pc (wrun s0 lateOps) TRs = Idle /\
  (forall e us, In (BeginEvent TRs e us) lateOps -> us = rsUps (atProvider e)) /\
  aget (s_cache (wrun s0 lateOps) TRs) (bs "default/web-7") = None /\
  aget (clientMap (fun e => rsUps (atClient e)) w TRs) (bs "default/web-7") <> None.
Proof.
  destruct (nth_error (s_ws (wrun s0 lateOps)) 0) as [w|] eqn:N; vm_compute in N; [|discriminate]. exists w. split; [reflexivity|]. injection N as <-.
  assert (A : forall e us, In (BeginEvent TRs e us) lateOps -> us = rsUps (atProvider e)).
  { intros o us I. vm_compute in I.
    repeat (destruct I as [I|I]; [try discriminate I; injection I as <- <-; reflexivity|]). destruct I. }
  split; [reflexivity|]. split; [reflexivity|]. split; [reflexivity|]. split; [vm_compute; reflexivity|]. split; [exact A|]. split; [vm_compute; reflexivity|]. vm_compute. discriminate.
Qed.
Print Assumptions C53_late_deletion_refuted.

(** Events of different kinds can reach a client in another order than the provider handled them: here the provider knows the owner of the
    replica set before it handles its pod, and the client does not, so the two give the pod different workloads. *)
Definition exPod : pod :=
  {| pd_uid := bs "u"; pd_rv := bs "1"; pd_ns := bs "default"; pd_name := bs "web-7-x"; pd_labels := []; pd_node := bs "n1"; pd_hostnet := false;
     pd_ip := bs "10.1.0.1"; pd_hostip := bs "10.0.0.1"; pd_owners := [{| ow_controller := true; ow_kind := bs "ReplicaSet"; ow_name := bs "web-7"; ow_api := bs "apps/v1" |}];
     pd_containers := [{| ct_name := bs "c"; ct_ports := [{| pt_container := 80; pt_host := 0 |}] |}]; pd_statuses := [(bs "c", bs "docker://0123456789abcdef")] |}.
Definition exRollout : replicaset :=
  {| rs_rv := bs "1"; rs_ns := bs "default"; rs_name := bs "web-7"; rs_owners := [{| ow_controller := true; ow_kind := bs "Rollout"; ow_name := bs "web"; ow_api := bs "argoproj.io/v1" |}] |}.
Definition crossOps : list (wop (E := kop) (V := unit)) :=
  [Register; BeginEvent TRs (OAddRs exRollout) [USet (bs "r") tt]; ApplyNext TRs; StartCast TRs;
   BeginEvent TPod (OAddPod exPod) [USet (bs "p") tt]; ApplyNext TPod; StartCast TPod; Give TPod 0; Give TRs 0; EndCast TPod; EndCast TRs;
   Take 0; Send 0 true; Take 0; Send 0 true].
Definition workloadAt (l : list kop) : option (bytes * bytes) :=
  let st := handle (fun a => eqb a (bs "apps/v1")) (fun x => x) (bs "n1") (fun _ _ l => l) 0 0 l k0 in
  option_map (fun i => (pi_wkind (podAt (k_pods st) i), pi_wname (podAt (k_pods st) i))) (getPodByContainerId st (bs "0123456789ab")).
Theorem C53_cross_kind_refuted : exists w, nth_error (s_ws (wrun s0 crossOps)) 0 = Some w /\ w_open w = true /\ w_loop w = Selecting /\ w_chan w = [] /\
  map snd (w_out w) = [OAddPod exPod; OAddRs exRollout] /\
  workloadAt [OAddRs exRollout; OAddPod exPod] = Some (bs "argoproj.io/v1/Rollout", bs "web") /\
  workloadAt (map snd (w_out w)) = Some (bs "deployment", bs "web").
Proof.
  destruct (nth_error (s_ws (wrun s0 crossOps)) 0) as [w|] eqn:N; vm_compute in N; [|discriminate]. exists w. split; [reflexivity|]. injection N as <-. vm_compute. repeat split.
Qed.
Print Assumptions C53_cross_kind_refuted.

(** *** Clients that are dropped *)
Section Drop.
  Context {E V : Type}.
  Implicit Types (s : wst E V) (w : watcher E V).
  (** In [ops] a broadcast only closes a client when there is an event for it to write: one in its channel, or one in hand. *)
  Fixpoint closesBusy s (ops : list wop) : Prop :=
    match ops with
    | [] => True
    | o :: r => match o with
                | CloseIt t => forall e i v m w, s_pc s t = Closing e i v m -> nth_error (s_ws s) i = Some w -> w_loop w = Selecting -> w_chan w <> []
                | _ => True
                end /\ closesBusy (wstep s o) r
    end.
  Definition told s : Prop := forall i w, nth_error (s_ws s) i = Some w -> w_open w = false -> w_loop w = Selecting -> w_chan w <> [].
  Lemma told_setW s i w w' : told s -> nth_error (s_ws s) i = Some w -> (w_open w' = false -> w_loop w' = Selecting -> w_chan w' <> []) -> told (setW s i w').
  Proof.
    intros T N H j x G OP LP. cbn [setW s_ws] in G. rewrite (upd_nth _ _ _ _ N) in G. destruct (Nat.eqb_spec j i) as [->|NE]; [injection G as <-; apply H; assumption|].
    exact (T j x G OP LP).
  Qed.
  Lemma told_wstep s o : told s -> match o with
                | CloseIt t => forall e i v m w, s_pc s t = Closing e i v m -> nth_error (s_ws s) i = Some w -> w_loop w = Selecting -> w_chan w <> []
                | _ => True end -> told (wstep s o).
  Proof.
    intros T B. destruct o as [t e us|t|t|t i|t i|t|t|t| |i|i ok|i|i|i]; cbn [wstep].
    - destruct (s_pc s t); exact T.
    - destruct (s_pc s t) as [|e d [|u r]| | |]; exact T.
    - destruct (s_pc s t) as [|e d [|u r]| | |]; exact T.
    - destruct (s_pc s t) as [| |e v m| |]; try exact T. destruct (nth_error (s_ws s) i) as [w|] eqn:N; [|exact T]. destruct (_ && _ && _); [|exact T].
      apply (told_setW s i w); [exact T|exact N|]. cbn [withBase withChan w_chan]. intros _ _ X. apply app_eq_nil in X. destruct X as [_ X]. discriminate.
    - destruct (s_pc s t) as [| |e v m| |]; try exact T. destruct (nth_error (s_ws s) i) as [w|] eqn:N; [|exact T]. destruct (_ && _); exact T.
    - destruct (s_pc s t) as [| | |e i v m|] eqn:P; try exact T. destruct (nth_error (s_ws s) i) as [w|] eqn:N; [|exact T].
      apply (told_setW s i w); [exact T|exact N|]. cbn [withOpen w_chan w_loop]. intros _ LP. exact (B e i v m w eq_refl N LP).
    - destruct (s_pc s t) as [| | | |e i v m] eqn:P; try exact T. destruct (nth_error (s_ws s) i) as [w|] eqn:N; [|exact T].
      apply (told_setW s i w); [exact T|exact N|]. cbn [withIn w_chan w_loop w_open]. intros OP LP. exact (T i w N OP LP).
    - destruct (s_pc s t) as [| |e v m| |]; try exact T. destruct (forallb _ m); exact T.
    - intros i w G OP LP. cbn [s_ws] in G. destruct (Nat.lt_ge_cases i (List.length (s_ws s))) as [LT|GE].
      + rewrite nth_error_app1 in G by exact LT. exact (T i w G OP LP).
      + rewrite nth_error_app2 in G by exact GE. destruct (i - List.length (s_ws s))%nat as [|[|k]]; try discriminate G. cbn in G. injection G as <-. discriminate OP.
    - destruct (nth_error (s_ws s) i) as [w|] eqn:N; [|exact T]. destruct (w_loop w); try exact T. destruct (w_chan w); [exact T|]. apply (told_setW s i w); [exact T|exact N|discriminate].
    - destruct (nth_error (s_ws s) i) as [w|] eqn:N; [|exact T]. destruct (w_loop w) eqn:LP; try exact T. destruct (w_open w && ok) eqn:Q; (apply (told_setW s i w); [exact T|exact N|]).
      + apply andb_true_iff in Q. cbn [withLoop withOut w_open]. intros X. destruct Q. congruence.
      + discriminate.
    - destruct (nth_error (s_ws s) i) as [w|] eqn:N; [|exact T]. destruct (w_loop w) eqn:LP; try exact T. apply (told_setW s i w); [exact T|exact N|discriminate].
    - destruct (nth_error (s_ws s) i) as [w|] eqn:N; [|exact T]. destruct (w_loop w) eqn:LP; try exact T. apply (told_setW s i w); [exact T|exact N|discriminate].
    - destruct (nth_error (s_ws s) i) as [w|] eqn:N; [|exact T]. destruct (w_loop w) eqn:LP; try exact T. apply (told_setW s i w); [exact T|exact N|discriminate].
  Qed.
  Lemma told_wrun ops : forall s, told s -> closesBusy s ops -> told (wrun s ops).
  Proof. induction ops as [|o ops IH]; intros s T B; [exact T|]. destruct B as [B1 B2]. cbn [wrun fold_left]. apply IH; [apply told_wstep; assumption|exact B2]. Qed.

  (** Then no client is cut off without noticing: a closed client whose loop waits has an event to write, and writing fails, so its
      connection ends. *)
  Theorem C53_dropped_client_told ops i w : closesBusy s0 ops -> nth_error (s_ws (wrun s0 ops)) i = Some w -> w_open w = false -> w_loop w = Selecting ->
    exists w', nth_error (s_ws (wrun s0 (ops ++ [Take i; Send i true]))) i = Some w' /\ w_loop w' = Leaving.
  Proof.
    intros B G OP LP. assert (T : told (wrun s0 ops)) by (apply told_wrun; [intros [|j] x X; discriminate X|exact B]). specialize (T i w G OP LP).
    unfold wrun. rewrite fold_left_app. fold (wrun s0 ops). cbn [fold_left wstep]. rewrite G, LP. destruct (w_chan w) as [|x c] eqn:CH; [destruct (T eq_refl)|].
    cbn [setW s_ws]. rewrite (upd_nth _ _ _ _ G), Nat.eqb_refl. cbn [withLoop withChan w_loop w_open]. rewrite OP. cbn [andb].
    eexists. split; [cbn [setW s_ws]; rewrite (upd_nth _ _ _ (withLoop (withChan w c) (InHand x))); [rewrite Nat.eqb_refl; reflexivity|]|reflexivity].
    rewrite (upd_nth _ _ _ _ G), Nat.eqb_refl. reflexivity.
  Qed.

  (** Nobody offers it anything and it has nothing to do. *)
  Definition cutOff s (i : nat) : Prop :=
    (exists w, nth_error (s_ws s) i = Some w /\ w_in w = false /\ w_loop w = Selecting /\ w_chan w = []) /\ forall t, ~ In i (musts (s_pc s t)).
  Lemma cut_setW s i j w w' : cutOff s i -> nth_error (s_ws s) j = Some w -> j <> i -> cutOff (setW s j w') i.
  Proof.
    intros [(x & G & X) M] N NE. split; [|exact M]. exists x. split; [|exact X]. cbn [setW s_ws]. rewrite (upd_nth _ _ _ _ N). destruct (Nat.eqb_spec i j); [congruence|exact G].
  Qed.
  Lemma cut_setPC s i t p : cutOff s i -> ~ In i (musts p) -> cutOff (setPC s t p) i.
  Proof.
    intros [X M] N. split; [exact X|]. intros u. cbn [setPC s_pc]. destruct (rtype_dec u t) as [->|NE]; [rewrite setT_same; exact N|rewrite setT_other by exact NE; apply M].
  Qed.
  Lemma cut_wstep s o i : cutOff s i -> o <> Leave i -> cutOff (wstep s o) i /\ forall w, nth_error (s_ws s) i = Some w -> exists w', nth_error (s_ws (wstep s o)) i = Some w' /\ w_out w' = w_out w.
  Proof.
    intros C NL. assert (K : cutOff s i /\ forall w, nth_error (s_ws s) i = Some w -> exists w', nth_error (s_ws s) i = Some w' /\ w_out w' = w_out w)
      by (split; [exact C|]; intros w G; exists w; split; [exact G|reflexivity]).
    pose proof C as [(x & G & IN & LP & CH) M].
    assert (OUT : forall j w w' t p, nth_error (s_ws s) j = Some w -> j <> i -> ~ In i (musts p) ->
      cutOff (setPC (setW s j w') t p) i /\ forall y, nth_error (s_ws s) i = Some y -> exists y', nth_error (s_ws (setPC (setW s j w') t p)) i = Some y' /\ w_out y' = w_out y).
    { intros j w w' t p N NE NP. split; [apply cut_setPC; [apply (cut_setW s i j w); assumption|exact NP]|]. intros y GY. exists y. split; [|reflexivity].
      cbn [setPC setW s_ws]. rewrite (upd_nth _ _ _ _ N). destruct (Nat.eqb_spec i j); [congruence|exact GY]. }
    assert (OUT' : forall j w w', nth_error (s_ws s) j = Some w -> j <> i ->
      cutOff (setW s j w') i /\ forall y, nth_error (s_ws s) i = Some y -> exists y', nth_error (s_ws (setW s j w')) i = Some y' /\ w_out y' = w_out y).
    { intros j w w' N NE. split; [apply (cut_setW s i j w); assumption|]. intros y GY. exists y. split; [|reflexivity].
      cbn [setPC setW s_ws]. rewrite (upd_nth _ _ _ _ N). destruct (Nat.eqb_spec i j); [congruence|exact GY]. }
    assert (PCS : forall t p, ~ In i (musts p) -> cutOff (setPC s t p) i /\ forall y, nth_error (s_ws s) i = Some y -> exists y', nth_error (s_ws (setPC s t p)) i = Some y' /\ w_out y' = w_out y).
    { intros t p NP. split; [apply cut_setPC; assumption|]. intros y GY. exists y. split; [exact GY|reflexivity]. }
    destruct o as [t e us|t|t|t j|t j|t|t|t| |j|j ok|j|j|j]; cbn [wstep].
    - destruct (s_pc s t); try exact K. apply PCS. intros [].
    - destruct (s_pc s t) as [|e d [|u r]| | |] eqn:P; try exact K. split; [|intros y GY; exists y; split; [exact GY|reflexivity]].
      destruct (PCS t (Applying e (d ++ [u]) r)) as [Y _]; [intros []|]. exact Y.
    - destruct (s_pc s t) as [|e d [|u r]| | |] eqn:P; try exact K. split; [|intros y GY; exists y; split; [exact GY|reflexivity]].
      destruct (PCS t (Casting e [] (members (s_ws s)))) as [Y _]; [|exact Y]. cbn [musts]. unfold members. intros J. apply filter_In in J. destruct J as [_ J]. rewrite G in J. congruence.
    - destruct (s_pc s t) as [| |e v m| |] eqn:P; try exact K. destruct (nth_error (s_ws s) j) as [w|] eqn:N; [|exact K]. destruct (_ && _ && _) eqn:Q; [|exact K].
      assert (NM : ~ In i m) by (specialize (M t); rewrite P in M; exact M).
      apply (OUT j w); [exact N| |exact NM]. intros ->. rewrite G in N. injection N as <-. rewrite IN in Q. cbn [orb] in Q.
      apply andb_true_iff in Q. destruct Q as [Q _]. apply andb_true_iff in Q. destruct Q as [_ Q]. apply in_existsb in Q. exact (NM Q).
    - destruct (s_pc s t) as [| |e v m| |] eqn:P; try exact K. destruct (nth_error (s_ws s) j) as [w|] eqn:N; [|exact K]. destruct (_ && _) eqn:Q; [|exact K].
      apply PCS. specialize (M t). rewrite P in M. exact M.
    - destruct (s_pc s t) as [| | |e j v m|] eqn:P; try exact K. destruct (nth_error (s_ws s) j) as [w|] eqn:N; [|exact K].
      assert (NM : ~ In i (musts (Dropping (V := V) e j v m))) by (specialize (M t); rewrite P in M; exact M).
      destruct (Nat.eq_dec j i) as [->|NE]; [|apply (OUT j w); assumption]. rewrite G in N. injection N as <-.
      split.
      + apply cut_setPC; [|exact NM]. split; [|exact M]. exists (withOpen x false). split; [cbn [setW s_ws]; rewrite (upd_nth _ _ _ _ G), Nat.eqb_refl; reflexivity|]. auto.
      + intros y GY. rewrite G in GY. injection GY as <-. exists (withOpen x false). split; [cbn [setPC setW s_ws]; rewrite (upd_nth _ _ _ _ G), Nat.eqb_refl; reflexivity|reflexivity].
    - destruct (s_pc s t) as [| | | |e j v m] eqn:P; try exact K. destruct (nth_error (s_ws s) j) as [w|] eqn:N; [|exact K].
      assert (NM : ~ In i (musts (Casting (V := V) e (j :: v) m))) by (specialize (M t); rewrite P in M; exact M).
      destruct (Nat.eq_dec j i) as [->|NE]; [|apply (OUT j w); assumption]. rewrite G in N. injection N as <-.
      split.
      + apply cut_setPC; [|exact NM]. split; [|exact M]. exists (withIn x false). split; [cbn [setW s_ws]; rewrite (upd_nth _ _ _ _ G), Nat.eqb_refl; reflexivity|]. auto.
      + intros y GY. rewrite G in GY. injection GY as <-. exists (withIn x false). split; [cbn [setPC setW s_ws]; rewrite (upd_nth _ _ _ _ G), Nat.eqb_refl; reflexivity|reflexivity].
    - destruct (s_pc s t) as [| |e v m| |]; try exact K. destruct (forallb _ m); [|exact K]. apply PCS. intros [].
    - assert (GG : forall y, nth_error (s_ws s) i = Some y -> nth_error (s_ws s ++ [register s]) i = Some y).
      { intros y GY. rewrite nth_error_app1; [exact GY|]. apply nth_error_Some. congruence. }
      split; [split; [|exact M]; exists x; auto|]. intros y GY. exists y. auto.
    - destruct (nth_error (s_ws s) j) as [w|] eqn:N; [|exact K]. destruct (w_loop w) eqn:L; try exact K. destruct (w_chan w) eqn:CC; [exact K|]. apply (OUT' j w); [exact N|]. intros ->. congruence.
    - destruct (nth_error (s_ws s) j) as [w|] eqn:N; [|exact K]. destruct (w_loop w) eqn:L; try exact K. destruct (w_open w && ok); (apply (OUT' j w); [exact N|intros ->; congruence]).
    - destruct (nth_error (s_ws s) j) as [w|] eqn:N; [|exact K]. destruct (w_loop w) eqn:L; try exact K. apply (OUT' j w); [exact N|]. intros ->. congruence.
    - destruct (nth_error (s_ws s) j) as [w|] eqn:N; [|exact K]. destruct (w_loop w) eqn:L; try exact K. apply (OUT' j w); [exact N|]. intros ->. congruence.
    - destruct (nth_error (s_ws s) j) as [w|] eqn:N; [|exact K]. destruct (w_loop w) eqn:L; try exact K. apply (OUT' j w); [exact N|]. intros ->. congruence.
  Qed.
  (** Such a client stays connected and hears nothing more, whatever happens, until it leaves by itself. *)
  Lemma cut_forever ops : forall s i w, cutOff s i -> ~ In (Leave i) ops -> nth_error (s_ws s) i = Some w ->
    exists w', nth_error (s_ws (wrun s ops)) i = Some w' /\ w_out w' = w_out w /\ w_loop w' = Selecting.
  Proof.
    induction ops as [|o ops IH]; intros s i w C NI G.
    - exists w. split; [exact G|]. split; [reflexivity|]. destruct C as [(x & GX & _ & LP & _) _]. congruence.
    - cbn [wrun fold_left]. fold (wrun (wstep s o) ops). destruct (cut_wstep s o i C) as [C' O]; [intros ->; apply NI; left; reflexivity|].
      destruct (O w G) as (w1 & G1 & E1). destruct (IH (wstep s o) i w1 C') as (w2 & G2 & E2 & L2); [intros J; apply NI; right; exact J|exact G1|].
      exists w2. split; [exact G2|]. split; [congruence|exact L2].
  Qed.
End Drop.
Print Assumptions C53_dropped_client_told.
(** service.go:133-152: the timer is stopped at the end only and Reset does not empty its channel, so a tick left by one client can be read for
    the next, whose channel is free.  That client is dropped; it stays connected, and hears of no later change. *)
Definition dropOps : list (wop (E := Z) (V := Z)) :=
  [Register; BeginEvent TPod 1 [USet (bs "a") 1]; ApplyNext TPod; StartCast TPod; GiveUp TPod 0; CloseIt TPod; RemoveIt TPod; EndCast TPod].
Theorem C53_silent_client_refuted : forall later, ~ In (Leave 0) later ->
  exists w, nth_error (s_ws (wrun s0 (dropOps ++ later))) 0 = Some w /\ w_out w = [] /\ w_loop w = Selecting.
Proof.
  intros later NI. unfold wrun. rewrite fold_left_app. fold (wrun (wrun s0 dropOps) later).
  destruct (nth_error (s_ws (wrun s0 dropOps)) 0) as [w|] eqn:N; [|vm_compute in N; discriminate].
  destruct (cut_forever later (wrun s0 dropOps) 0 w) as (w' & G & O & L); [|exact NI|exact N|].
  - split; [exists w; split; [exact N|]; vm_compute in N; injection N as <-; auto|]. intros [] []. 
  - exists w'. split; [exact G|]. split; [|exact L]. rewrite O. vm_compute in N. injection N as <-. reflexivity.
Qed.
Print Assumptions C53_silent_client_refuted.
(** A client whose channel is full is dropped and notices. *)
Definition slowOps : list (wop (E := Z) (V := Z)) :=
  [Register] ++ flat_map (fun n => [BeginEvent TPod n [USet (bs "a") n]; ApplyNext TPod; StartCast TPod; Give TPod 0; EndCast TPod]) [1; 2; 3; 4; 5; 6; 7; 8; 9; 10] ++
  [BeginEvent TPod 11 [USet (bs "a") 11]; ApplyNext TPod; StartCast TPod; GiveUp TPod 0; CloseIt TPod; RemoveIt TPod; EndCast TPod].
Example C53_dropped_client_told_ex : closesBusy s0 slowOps /\ exists w, nth_error (s_ws (wrun s0 slowOps)) 0 = Some w /\ w_open w = false /\ w_loop w = Selecting /\ List.length (w_chan w) = 10%nat.
Proof.
  split.
  - unfold slowOps. cbn [flat_map app]. repeat (cbn [closesBusy]; split; [exact Logic.I|]). cbn [closesBusy]. split.
    + intros e i v m w P G _. vm_compute in P. injection P as <- <- <- <-. vm_compute in G. injection G as <-. discriminate.
    + repeat (split; [exact Logic.I|]). exact Logic.I.
  - destruct (nth_error (s_ws (wrun s0 slowOps)) 0) as [w|] eqn:N; vm_compute in N; [|discriminate]. exists w. injection N as <-. vm_compute. repeat split.
Qed.
