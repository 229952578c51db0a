(** C19 with overlapping goroutines: two findings. *)
From Verif Require Import Base EventModel PairModel PairProps UdpModel UdpSpec UdpProofs UdpProps PairConcModel PairConcProps UdpConcModel.
Open Scope string_scope. Open Scope list_scope. Open Scope Z_scope.

Definition LATE : Z := 200 * 1000000000.
(** Finding.  A query can be reported twice, once answered and once unanswered: the answer arrives while the scan is
    looking at the query. *)
Theorem C19_overlap_reports_twice_refuted :
  exists todo l q r, let s := uxrun cfg0 (uinit todo) l in
  todo = [WReq 9 q; WResp 9 r] /\ x_ev s = EIdle /\ x_tm s = TIdle /\ x_todo s = [] /\
  x_out s = [{| o_req := q; o_resp := Some r |}; {| o_req := q; o_resp := None |}].
Proof.
  pose (q := udpEv "sendto" 100 [9]). pose (r := udpEv "recvfrom" LATE [9]). pose (t := UT LATE).
  exists [WReq 9 q; WResp 9 r], [UE; UE; UE; t None; t (Some 9); UE; UE; UE; UE; t None; t None; t None; t None; t None], q, r.
  vm_compute. repeat split.
Qed.
Print Assumptions C19_overlap_reports_twice_refuted.

(** *** A cache taken out of the monitor is out of reach *)
Definition evUses (p : evpc) (a : nat) : Prop :=
  match p with EStore b _ _ | ECount b | EMatch b _ _ | EDec b _ _ => b = a | _ => False end.
Definition tmUses (p : tmpc) (a : nat) : Prop :=
  match p with TIn b | TDel b _ _ | TDec b _ | TEmit b _ | TCheck b => b = a | TIdle => False end.
Definition orphan (a : nat) (s : ust) : Prop :=
  (a < List.length (x_heap s))%nat /\ x_mon s <> Some a /\ ~ evUses (x_ev s) a /\ ~ tmUses (x_tm s) a.
(** events mentioned anywhere but in cache [a] *)
Definition reaches (q : event) (a : nat) (s : ust) : Prop :=
  (exists b id, b <> a /\ In (id, q) (u_reqs (uderef s b))) \/ (exists o, In o (x_out s) /\ o_req o = q) \/
  (exists id, In (WReq id q) (x_todo s)) \/
  (match x_ev s with EStore _ _ e => e = q | EDec _ r _ => r = q | EClean _ o => exists x, In x o /\ o_req x = q | _ => False end) \/
  (match x_tm s with TDel _ _ e | TDec _ e | TEmit _ e => e = q | _ => False end).

Lemma uderef_uset s a ch b : uderef (uset s a ch) b = if Nat.eqb b a then (if Nat.ltb a (List.length (x_heap s)) then ch else uderef s b) else uderef s b.
Proof. unfold uderef, uset. cbn [x_heap]. apply nth_upd. Qed.
Lemma uderef_alloc s b : uderef (ualloc s) b = uderef s b.
Proof.
  unfold uderef, ualloc. cbn [x_heap]. destruct (Nat.lt_ge_cases b (List.length (x_heap s))).
  - apply app_nth1. assumption.
  - rewrite (nth_overflow (x_heap s)) by assumption. rewrite app_nth2 by assumption. destruct (b - List.length (x_heap s))%nat as [|[|n]]; reflexivity.
Qed.
Lemma in_aset_u (m : list (Z * event)) k v x : In x (aset m k v) -> x = (k, v) \/ In x m.
Proof.
  induction m as [|(k1, v1) m IH]; cbn [aset]; [intros [H|[]]; auto|]. destruct (eqb k k1) eqn:E.
  - apply eqb_true in E. subst. intros [H|H]; cbn [In]; auto.
  - intros [H|H]; cbn [In]; auto. destruct (IH H); auto.
Qed.
Lemma in_uset s a0 ch a b id q : In (id, q) (u_reqs (uderef (uset s a0 ch) b)) -> b <> a ->
  (b = a0 /\ In (id, q) (u_reqs ch)) \/ (exists b id, b <> a /\ In (id, q) (u_reqs (uderef s b))).
Proof.
  rewrite uderef_uset. intros H N. destruct (Nat.eqb_spec b a0) as [->|]; [|right; eauto].
  destruct (Nat.ltb a0 (List.length (x_heap s))); [left; auto|right; eauto].
Qed.

Lemma unreachable_ev a q s : orphan a s -> ~ reaches q a s -> orphan a (ustepEv s) /\ ~ reaches q a (ustepEv s).
Proof.
  intros (L & M & E & T) R.
  assert (R1 : forall b id, b <> a -> ~ In (id, q) (u_reqs (uderef s b))) by (intros b id N H; apply R; left; eauto).
  assert (R2 : forall o, In o (x_out s) -> o_req o <> q) by (intros o H H2; apply R; right; left; eauto).
  assert (R3 : forall id, ~ In (WReq id q) (x_todo s)) by (intros id H; apply R; right; right; left; eauto).
  assert (R4 : ~ match x_ev s with EStore _ _ e => e = q | EDec _ r _ => r = q | EClean _ o => exists x, In x o /\ o_req x = q | _ => False end) by (intros H; apply R; right; right; right; left; exact H).
  assert (R5 : ~ match x_tm s with TDel _ _ e | TDec _ e | TEmit _ e => e = q | _ => False end) by (intros H; apply R; right; right; right; right; exact H).
  clear R. unfold ustepEv. destruct (x_ev s) as [|b id e|b|b id e|b r e|size o] eqn:XE.
  - destruct (x_todo s) as [|[id e|id e] l] eqn:XT.
    + split; [unfold orphan; rewrite XE; auto|]. unfold reaches. rewrite XE, XT. intros [(b & id & N & H)|[(o & H & H2)|[(id & H)|[H|H]]]]; [exact (R1 b id N H)|exact (R2 o H H2)|destruct H|exact H|exact (R5 H)].
    + destruct (x_mon s) as [b|] eqn:XM.
      * split.
        -- unfold orphan. cbn [uev x_heap x_mon x_ev x_tm evUses]. rewrite XM. split; [exact L|]. split; [exact M|]. split; [congruence|exact T].
        -- unfold reaches. cbn [uev x_out x_todo x_ev x_tm]. intros [(b1 & id1 & N & H)|[(o & H & H2)|[(id1 & H)|[H|H]]]].
           ++ exact (R1 b1 id1 N H).
           ++ exact (R2 o H H2).
           ++ apply (R3 id1). right. exact H.
           ++ subst e. apply (R3 id). left. reflexivity.
           ++ exact (R5 H).
      * split.
        -- unfold orphan. cbn [uev ualloc x_heap x_mon x_ev x_tm evUses]. rewrite app_length. cbn [List.length]. split; [lia|]. split; [intros H; inversion H; lia|]. split; [lia|exact T].
        -- unfold reaches. cbn [uev ualloc x_out x_todo x_ev x_tm]. intros [(b1 & id1 & N & H)|[(o & H & H2)|[(id1 & H)|[H|H]]]].
           ++ change (In (id1, q) (u_reqs (uderef (ualloc s) b1))) in H. rewrite uderef_alloc in H. exact (R1 b1 id1 N H).
           ++ exact (R2 o H H2).
           ++ apply (R3 id1). right. exact H.
           ++ subst e. apply (R3 id). left. reflexivity.
           ++ exact (R5 H).
    + assert (G : forall p, (p = EIdle \/ exists b, x_mon s = Some b /\ p = EMatch b id e) -> orphan a (uev s p l) /\ ~ reaches q a (uev s p l)).
      { intros p HP. split.
        - unfold orphan. cbn [uev x_heap x_mon x_ev x_tm]. split; [exact L|]. split; [exact M|]. split; [|exact T]. destruct HP as [->|(b & B & ->)]; cbn [evUses]; [auto|congruence].
        - unfold reaches. cbn [uev x_out x_todo x_ev x_tm]. intros [(b1 & id1 & N & H)|[(o & H & H2)|[(id1 & H)|[H|H]]]].
          + exact (R1 b1 id1 N H).
          + exact (R2 o H H2).
          + apply (R3 id1). right. exact H.
          + destruct HP as [->|(b & B & ->)]; exact H.
          + exact (R5 H). }
      destruct (x_mon s) as [b|]; apply G; eauto.
  - cbn [evUses] in E. split.
    + unfold orphan. cbn [uev uset x_heap x_mon x_ev x_tm evUses]. rewrite upd_length. auto.
    + unfold reaches. cbn [uev uset x_out x_todo x_ev x_tm]. intros [(b1 & id1 & N & H)|[(o & H & H2)|[(id1 & H)|[H|H]]]]; try contradiction; eauto.
      * destruct (in_uset s b _ a b1 id1 q H N) as [(-> & H2)|(b2 & id2 & N2 & H2)]; [|exact (R1 b2 id2 N2 H2)].
        cbn [u_reqs] in H2. apply in_aset_u in H2. destruct H2 as [H2|H2]; [inversion H2; subst; apply R4; reflexivity|exact (R1 b id1 N H2)].
      * exact (R2 o H H2).
      * exact (R3 id1 H).
  - cbn [evUses] in E. split.
    + unfold orphan. cbn [uev uset x_heap x_mon x_ev x_tm evUses]. rewrite upd_length. auto.
    + unfold reaches. cbn [uev uset x_out x_todo x_ev x_tm]. intros [(b1 & id1 & N & H)|[(o & H & H2)|[(id1 & H)|[H|H]]]]; try contradiction; eauto.
      * destruct (in_uset s b _ a b1 id1 q H N) as [(-> & H2)|(b2 & id2 & N2 & H2)]; [exact (R1 b id1 N H2)|exact (R1 b2 id2 N2 H2)].
      * exact (R2 o H H2).
      * exact (R3 id1 H).
  - cbn [evUses] in E. destruct (aget (u_reqs (uderef s b)) id) as [r|] eqn:G.
    + split.
      * unfold orphan. cbn [uev uset x_heap x_mon x_ev x_tm evUses]. rewrite upd_length. auto.
      * unfold reaches. cbn [uev uset x_out x_todo x_ev x_tm]. intros [(b1 & id1 & N & H)|[(o & H & H2)|[(id1 & H)|[H|H]]]]; try contradiction; eauto.
        -- destruct (in_uset s b _ a b1 id1 q H N) as [(-> & H2)|(b2 & id2 & N2 & H2)]; [|exact (R1 b2 id2 N2 H2)].
           cbn [u_reqs] in H2. apply filter_In in H2. exact (R1 b id1 N (proj1 H2)).
        -- exact (R2 o H H2).
        -- exact (R3 id1 H).
        -- subst r. apply aget_in in G. exact (R1 b id E G).
    + split.
      * unfold orphan. cbn [uev x_heap x_mon x_ev x_tm evUses]. auto.
      * unfold reaches. cbn [uev x_out x_todo x_ev x_tm]. intros [(b1 & id1 & N & H)|[(o & H & H2)|[(id1 & H)|[H|H]]]].
        -- exact (R1 b1 id1 N H).
        -- exact (R2 o H H2).
        -- exact (R3 id1 H).
        -- destruct H as (x & [] & _).
        -- exact (R5 H).
  - cbn [evUses] in E. split.
    + unfold orphan. cbn [uev uset x_heap x_mon x_ev x_tm evUses]. rewrite upd_length. auto.
    + unfold reaches. cbn [uev uset x_out x_todo x_ev x_tm]. intros [(b1 & id1 & N & H)|[(o & H & H2)|[(id1 & H)|[H|H]]]].
      * destruct (in_uset s b _ a b1 id1 q H N) as [(-> & H2)|(b2 & id2 & N2 & H2)]; [exact (R1 b id1 N H2)|exact (R1 b2 id2 N2 H2)].
      * exact (R2 o H H2).
      * exact (R3 id1 H).
      * destruct H as (x & [<-|[]] & H). cbn [o_req] in H. exact (R4 H).
      * exact (R5 H).
  - split.
    + unfold orphan. cbn [uev uemit x_heap x_mon x_ev x_tm evUses]. destruct (size <=? 0); cbn [umon x_heap x_mon x_tm]; repeat split; auto. discriminate.
    + unfold reaches. cbn [uev uemit x_out x_todo x_ev x_tm].
      assert (HO : x_out (if size <=? 0 then umon s None else s) = x_out s) by (destruct (size <=? 0); reflexivity).
      assert (HT : x_tm (if size <=? 0 then umon s None else s) = x_tm s) by (destruct (size <=? 0); reflexivity).
      rewrite HO, HT. intros [(b1 & id1 & N & H)|[(o1 & H & H2)|[(id1 & H)|[H|H]]]].
      * assert (HH : x_heap (if size <=? 0 then umon s None else s) = x_heap s) by (destruct (size <=? 0); reflexivity).
        unfold uderef in H. cbn [uev uemit x_heap] in H. rewrite HH in H. exact (R1 b1 id1 N H).
      * apply in_app_or in H. destruct H as [H|H]; [exact (R2 o1 H H2)|]. apply R4. eauto.
      * exact (R3 id1 H).
      * exact H.
      * exact (R5 H).
Qed.
Lemma unreachable_tm c a q s now pick : orphan a s -> ~ reaches q a s -> orphan a (ustepTm c s now pick) /\ ~ reaches q a (ustepTm c s now pick).
Proof.
  intros O R. pose proof O as (L & M & E & T).
  assert (R1 : forall b id, b <> a -> ~ In (id, q) (u_reqs (uderef s b))) by (intros b id N H; apply R; left; eauto).
  assert (R2 : forall o, In o (x_out s) -> o_req o <> q) by (intros o H H2; apply R; right; left; eauto).
  assert (R3 : forall id, ~ In (WReq id q) (x_todo s)) by (intros id H; apply R; right; right; left; eauto).
  assert (R4 : ~ match x_ev s with EStore _ _ e => e = q | EDec _ r _ => r = q | EClean _ o => exists x, In x o /\ o_req x = q | _ => False end) by (intros H; apply R; right; right; right; left; exact H).
  assert (R5 : ~ match x_tm s with TDel _ _ e | TDec _ e | TEmit _ e => e = q | _ => False end) by (intros H; apply R; right; right; right; right; exact H).
  assert (MV : forall p, ~ tmUses p a -> (match p with TDel _ _ e | TDec _ e | TEmit _ e => e <> q | _ => True end) -> orphan a (utm s p) /\ ~ reaches q a (utm s p)).
  { intros p U Q. split; [unfold orphan; cbn [utm x_heap x_mon x_ev x_tm]; auto|]. unfold reaches. cbn [utm x_out x_todo x_ev x_tm].
    intros [(b1 & id1 & N & H)|[(o & H & H2)|[(id1 & H)|[H|H]]]].
    - exact (R1 b1 id1 N H).
    - exact (R2 o H H2).
    - exact (R3 id1 H).
    - exact (R4 H).
    - destruct p; auto. }
  unfold ustepTm. destruct (x_tm s) as [|b|b id e|b e|b e|b] eqn:XT; cbn [tmUses] in T.
  - destruct (x_mon s) as [b|] eqn:XM; [|auto]. apply MV; [cbn [tmUses]; congruence|exact I].
  - destruct pick as [id|]; [|apply MV; [exact T|exact I]]. destruct (aget (u_reqs (uderef s b)) id) as [e|] eqn:G; [|auto].
    destruct (lateUdp c now e); [|auto]. apply MV; [exact T|]. intros ->. apply aget_in in G. exact (R1 b id T G).
  - split.
    + unfold orphan. cbn [utm uset x_heap x_mon x_ev x_tm tmUses]. rewrite upd_length. auto.
    + unfold reaches. cbn [utm uset x_out x_todo x_ev x_tm]. intros [(b1 & id1 & N & H)|[(o & H & H2)|[(id1 & H)|[H|H]]]].
      * destruct (in_uset s b _ a b1 id1 q H N) as [(-> & H2)|(b2 & id2 & N2 & H2)]; [|exact (R1 b2 id2 N2 H2)].
        cbn [u_reqs] in H2. apply filter_In in H2. exact (R1 b id1 N (proj1 H2)).
      * exact (R2 o H H2).
      * exact (R3 id1 H).
      * exact (R4 H).
      * exact (R5 H).
  - split.
    + unfold orphan. cbn [utm uset x_heap x_mon x_ev x_tm tmUses]. rewrite upd_length. auto.
    + unfold reaches. cbn [utm uset x_out x_todo x_ev x_tm]. intros [(b1 & id1 & N & H)|[(o & H & H2)|[(id1 & H)|[H|H]]]].
      * destruct (in_uset s b _ a b1 id1 q H N) as [(-> & H2)|(b2 & id2 & N2 & H2)]; [exact (R1 b id1 N H2)|exact (R1 b2 id2 N2 H2)].
      * exact (R2 o H H2).
      * exact (R3 id1 H).
      * exact (R4 H).
      * exact (R5 H).
  - split.
    + unfold orphan. cbn [utm uemit x_heap x_mon x_ev x_tm tmUses]. auto.
    + unfold reaches. cbn [utm uemit x_out x_todo x_ev x_tm]. intros [(b1 & id1 & N & H)|[(o & H & H2)|[(id1 & H)|[H|H]]]].
      * exact (R1 b1 id1 N H).
      * apply in_app_or in H. destruct H as [H|[<-|[]]]; [exact (R2 o H H2)|]. exact (R5 H2).
      * exact (R3 id1 H).
      * exact (R4 H).
      * exact H.
  - destruct (u_count (uderef s b) =? 0); [|apply MV; [auto|exact I]]. split.
    + unfold orphan. cbn [utm umon x_heap x_mon x_ev x_tm tmUses]. repeat split; auto. discriminate.
    + unfold reaches. cbn [utm umon x_out x_todo x_ev x_tm]. intros [(b1 & id1 & N & H)|[(o & H & H2)|[(id1 & H)|[H|H]]]].
      * exact (R1 b1 id1 N H).
      * exact (R2 o H H2).
      * exact (R3 id1 H).
      * exact (R4 H).
      * exact H.
Qed.
Lemma unreachable_run c a q : forall l s, orphan a s -> ~ reaches q a s -> orphan a (uxrun c s l) /\ ~ reaches q a (uxrun c s l).
Proof.
  induction l as [|x l IH]; intros s O R; [auto|]. unfold uxrun. cbn [fold_left]. fold (uxrun c (uxstep c s x) l).
  assert (G : orphan a (uxstep c s x) /\ ~ reaches q a (uxstep c s x)).
  { destruct x as [|now pick]; cbn [uxstep]; [apply unreachable_ev|apply unreachable_tm]; assumption. }
  apply IH; apply G.
Qed.

(** Finding.  A query can be lost for good: the scan times out the last waiting query and takes the empty cache out of the
    monitor after the event goroutine has looked that cache up for a new query.  Whatever happens afterwards (any events
    that are not this very query, any number of scans), the new query is never reported. *)
Theorem C19_overlap_loses_query_refuted : forall more l,
  let q1 := udpEv "sendto" 100 [9] in let q2 := udpEv "sendto" LATE [8] in
  (forall id, ~ In (WReq id q2) more) ->
  let s := uxrun cfg0 (uinit ([WReq 9 q1; WReq 8 q2] ++ more))
             [UE; UE; UE; UT LATE None; UT LATE (Some 9); UT LATE None; UT LATE None; UT LATE None; UT LATE None; UE; UT LATE None; UE; UE] in
  x_ev s = EIdle /\ x_tm s = TIdle /\ x_todo s = more /\
  forall o, In o (x_out (uxrun cfg0 s l)) -> o_req o <> q2.
Proof.
  intros more l q1 q2 NM s.
  assert (E : s = {| x_heap := [{| u_count := 1; u_reqs := [(8, q2)] |}]; x_mon := None; x_out := [{| o_req := q1; o_resp := None |}];
                     x_todo := more; x_ev := EIdle; x_tm := TIdle |}) by (unfold s, q1, q2; vm_compute; reflexivity).
  clearbody s. subst s. repeat split.
  intros o IN EQ. destruct (unreachable_run cfg0 0%nat q2 l {| x_heap := [{| u_count := 1; u_reqs := [(8, q2)] |}]; x_mon := None; x_out := [{| o_req := q1; o_resp := None |}];
                     x_todo := more; x_ev := EIdle; x_tm := TIdle |}) as (_ & R).
  - unfold orphan. cbn [x_heap x_mon x_ev x_tm List.length evUses tmUses]. repeat split; auto. discriminate.
  - unfold reaches. cbn [x_out x_todo x_ev x_tm]. intros [(b & id & N & H)|[(o1 & [<-|[]] & H)|[(id & H)|[H|H]]]]; auto.
    + unfold uderef in H. cbn [x_heap] in H. destruct b as [|[|b]]; [congruence|contradiction|contradiction].
    + cbn [o_req] in H. unfold q1, q2 in H. inversion H.
    + exact (NM id H).
  - apply R. right. left. eauto.
Qed.
Print Assumptions C19_overlap_loses_query_refuted.
