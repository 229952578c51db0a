(** Property C64: from the netlink socket to the translation. *)
From Verif Require Import Base EventModel ConntrackModel ConntrackSpec ConntrackProofs NetlinkModel NetlinkSpec NetlinkProofs NetlinkProps ConntrackProps StreamModel StreamSpec.
Open Scope list_scope. Open Scope Z_scope.

(** *** The loop *)
Lemma check_clean m : checkMessage m = true <-> ~ error_message m.
Proof.
  unfold checkMessage, error_message, nlError. destruct (Z.eqb_spec (mtype m) 2) as [E|E]; cbn [negb].
  2:{ split; [intros _ (A & _); contradiction|reflexivity]. }
  destruct (mdata m) as [|b0 [|b1 [|b2 [|b3 r]]]]; cbn [leValue bind].
  1-4: split; [discriminate|intros N; exfalso; apply N; split; [exact E|intros; discriminate]].
  replace (b0 + 256 * (b1 + 256 * (b2 + 256 * (b3 + 256 * 0)))) with (b0 + 256 * b1 + 65536 * b2 + 16777216 * b3) by lia.
  split.
  - intros Z0 (_ & N). apply (N _ _ _ _ _ eq_refl). lia.
  - intros N. destruct (Z.eqb_spec (s32 (b0 + 256 * b1 + 65536 * b2 + 16777216 * b3)) 0) as [F|F]; [reflexivity|].
    exfalso. apply N. split; [exact E|]. intros c0 c1 c2 c3 q Q. injection Q as <- <- <- <- <-. exact F.
Qed.
Lemma clean_iff ms : forallb checkMessage ms = true <-> clean ms.
Proof.
  rewrite forallb_forall. unfold clean. split; intros H m I; [apply check_clean|apply (proj2 (check_clean m))]; apply H; exact I.
Qed.
Lemma ends_done ms : endsDone ms = true <-> exists b m, mtype m = 3 /\ ms = b ++ [m].
Proof.
  unfold endsDone. destruct (rev ms) as [|m r] eqn:E.
  - split; [discriminate|]. intros (b & m & _ & ->). rewrite rev_app_distr in E. discriminate.
  - assert (M : ms = rev r ++ [m]) by (rewrite <- (rev_involutive ms), E; reflexivity). unfold nlDone. split.
    + intros D. exists (rev r), m. split; [lia|exact M].
    + intros (b & m' & D & M'). rewrite M in M'. apply app_inj_tail in M'. destruct M' as [_ ->]. lia.
Qed.
Lemma body_without ms : body ms (withoutDone ms).
Proof.
  unfold withoutDone. destruct (endsDone ms) eqn:E.
  - apply ends_done in E. destruct E as (b & m & D & ->). left. exists m. split; [exact D|]. rewrite removelast_last. reflexivity.
  - right. split; [reflexivity|]. intros c m -> D. assert (X : endsDone (c ++ [m]) = true) by (apply ends_done; exists c, m; auto). congruence.
Qed.
Lemma body_fun ms a b : body ms a -> body ms b -> a = b.
Proof.
  intros [(m & D & ->)|(-> & N)] [(m' & D' & Q)|(Q & N')].
  - apply app_inj_tail in Q. apply Q.
  - exfalso. exact (N' a m eq_refl D).
  - exfalso. exact (N b m' Q D').
  - exact Q.
Qed.

(** No read of the list ends the loop: the socket is not closed, and no throttling fails. *)
Definition goes_on (reads : list (read * bool)) : Prop := forall r thr, In (r, thr) reads -> r <> REof /\ thr = false.
Lemma receive_stream reads : goes_on reads -> forall st, exists bs,
  batches reads bs /\ snd (receive true reads st) = false /\ sent (fst (receive true reads st)) = sent st ++ bs.
Proof.
  induction reads as [|[r thr] rest IH]; intros G st.
  - exists []. split; [constructor|]. split; [reflexivity|]. cbn. rewrite app_nil_r. reflexivity.
  - assert (G' : goes_on rest) by (intros r' t' I; apply (G r' t'); right; exact I).
    destruct (G r thr (or_introl eq_refl)) as [NE ->]. cbn [receive].
    destruct r as [|e|ms]; [contradiction| |].
    + cbn [andb forallb negb]. change (withoutDone []) with (@nil nlmsg). change (endsDone []) with false. cbn [andb].
      match goal with |- context [receive true rest ?s] => destruct (IH G' s) as (bs & B & F & S) end.
      exists ([] :: bs). split.
      * apply B_clean; [intros m []|right; split; [reflexivity|]|exact B]. intros c m Q. cbn in Q. destruct c; discriminate.
      * split; [exact F|]. rewrite S. cbn [sent]. rewrite <- app_assoc. reflexivity.
    + cbn [andb]. destruct (forallb checkMessage ms) eqn:C; cbn [negb].
      * rewrite Bool.andb_false_r. match goal with |- context [receive true rest ?s] => destruct (IH G' s) as (bs & B & F & S) end.
        exists (withoutDone ms :: bs). split; [apply B_clean; [apply clean_iff; exact C|apply body_without|exact B]|].
        split; [exact F|]. rewrite S. cbn [sent]. rewrite <- app_assoc. reflexivity.
      * match goal with |- context [receive true rest ?s] => destruct (IH G' s) as (bs & B & F & S) end.
        exists bs. split; [|split; [exact F|rewrite S; reflexivity]]. apply B_error; [|exact B].
        intros Q. apply (proj2 (clean_iff ms)) in Q. congruence.
Qed.
Lemma batches_fun reads : forall a b, batches reads a -> batches reads b -> a = b.
Proof.
  induction reads as [|[r thr] rest IH]; intros a b A B; inversion A; inversion B; subst; try contradiction; [reflexivity| |].
  - f_equal; [eapply body_fun; eassumption|apply IH; assumption].
  - apply IH; assumption.
Qed.

(** C64: as long as the socket is open, exactly the batches without an error message are passed on, in order and without
    the message that ends a reply. *)
Theorem C64_stream : forall (reads : list (read * bool)) (bs : list (list nlmsg)),
  goes_on reads -> batches reads bs ->
  sent (fst (receive true reads rinit)) = bs /\ snd (receive true reads rinit) = false.
Proof.
  intros reads bs G B. destruct (receive_stream reads G rinit) as (bs' & B' & F & S).
  rewrite (batches_fun reads bs bs' B B'), S. split; [reflexivity|exact F].
Qed.
Print Assumptions C64_stream.

(** C64: when the socket is closed, or throttling fails, nothing more is passed on. *)
Theorem C64_stream_ends : forall (reads rest : list (read * bool)) (bs : list (list nlmsg)) (r : read) (thr : bool),
  goes_on reads -> batches reads bs -> r = REof \/ thr = true ->
  sent (fst (receive true (reads ++ (r, thr) :: rest) rinit)) = bs /\ snd (receive true (reads ++ (r, thr) :: rest) rinit) = true.
Proof.
  intros reads rest bs r thr G B E. destruct (receive_stream reads G rinit) as (bs' & B' & F & S).
  rewrite (batches_fun reads bs bs' B B'). clear bs B B'. change (sent rinit ++ bs') with bs' in S. rewrite <- S. clear S bs'. revert F G. generalize rinit.
  induction reads as [|[r0 t0] reads IH]; intros st F G.
  - cbn [app]. destruct r as [|e|ms]; [split; reflexivity| |]; (destruct E as [E|E]; [discriminate|subst thr; cbn [receive andb]; split; reflexivity]).
  - assert (G' : goes_on reads) by (intros r' t' I; apply (G r' t'); right; exact I).
    destruct (G r0 t0 (or_introl eq_refl)) as [NE ->]. cbn [app]. destruct r0 as [|e|ms]; [contradiction| |];
      cbn [receive andb] in F |- *.
    + change (negb (forallb checkMessage [])) with false in F |- *. cbn [andb] in F |- *.
      change (endsDone []) with false in F |- *. cbn [andb] in F |- *. apply IH; assumption.
    + destruct (negb (forallb checkMessage ms)); [apply IH; assumption|]. rewrite Bool.andb_false_r in F |- *. apply IH; assumption.
Qed.
Print Assumptions C64_stream_ends.

(** C64: reading the initial table ends with the first batch that ends with the "done" message and has no error message,
    whatever would follow; all clean batches up to it have been passed on. *)
Definition ends_table (r : read) : Prop := exists ms b m, r = RMsgs ms /\ clean ms /\ mtype m = 3 /\ ms = b ++ [m].
Lemma receive_dump reads : (forall r thr, In (r, thr) reads -> r <> REof /\ ~ ends_table r) -> forall st tail, exists bs st',
  batches reads bs /\ sent st' = sent st ++ bs /\ receive false (reads ++ tail) st = receive false tail st'.
Proof.
  induction reads as [|[r thr] rest IH]; intros G st tail.
  - exists [], st. split; [constructor|]. split; [rewrite app_nil_r|]; reflexivity.
  - assert (G' : forall r thr, In (r, thr) rest -> r <> REof /\ ~ ends_table r) by (intros r' t' I; apply (G r' t'); right; exact I).
    destruct (G r thr (or_introl eq_refl)) as [NE NT]. cbn [app receive]. destruct r as [|e|ms]; [contradiction| |].
    + cbn [andb forallb negb]. change (withoutDone []) with (@nil nlmsg). change (endsDone []) with false. cbn [andb].
      match goal with |- context [receive false (rest ++ tail) ?s] => destruct (IH G' s tail) as (bs & st' & B & S & R) end.
      exists ([] :: bs), st'. split.
      * apply B_clean; [intros m []|right; split; [reflexivity|]|exact B]. intros c m Q. cbn in Q. destruct c; discriminate.
      * split; [|exact R]. rewrite S. cbn [sent]. rewrite <- app_assoc. reflexivity.
    + cbn [andb]. destruct (forallb checkMessage ms) eqn:C; cbn [negb].
      * assert (E : endsDone ms = false).
        { destruct (endsDone ms) eqn:E; [exfalso; apply NT|reflexivity]. apply ends_done in E. destruct E as (b & m & D & ->).
          exists (b ++ [m]), b, m. split; [reflexivity|]. split; [apply clean_iff; exact C|auto]. }
        rewrite E. cbn [andb]. match goal with |- context [receive false (rest ++ tail) ?s] => destruct (IH G' s tail) as (bs & st' & B & S & R) end.
        exists (withoutDone ms :: bs), st'. split; [apply B_clean; [apply clean_iff; exact C|apply body_without|exact B]|].
        split; [|exact R]. rewrite S. cbn [sent]. rewrite <- app_assoc. reflexivity.
      * match goal with |- context [receive false (rest ++ tail) ?s] => destruct (IH G' s tail) as (bs & st' & B & S & R) end.
        exists bs, st'. split; [|split; [rewrite S; reflexivity|exact R]]. apply B_error; [|exact B].
        intros Q. apply (proj2 (clean_iff ms)) in Q. congruence.
Qed.
Theorem C64_initial_table : forall (reads rest : list (read * bool)) (last : read) (thr : bool) (bs : list (list nlmsg)),
  (forall r t, In (r, t) reads -> r <> REof /\ ~ ends_table r) -> ends_table last ->
  batches (reads ++ [(last, thr)]) bs ->
  sent (fst (receive false (reads ++ (last, thr) :: rest) rinit)) = bs /\
  snd (receive false (reads ++ (last, thr) :: rest) rinit) = true.
Proof.
  intros reads rest last thr bs G (ms & b & m & -> & C & D & M) B.
  destruct (receive_dump reads G rinit ((RMsgs ms, thr) :: rest)) as (bs' & st' & B' & S & R). rewrite R. clear R.
  assert (E : endsDone ms = true) by (apply ends_done; exists b, m; auto).
  assert (X : batches (reads ++ [(RMsgs ms, thr)]) (bs' ++ [withoutDone ms])).
  { clear - B' C. induction B' as [|r t rest b0 bs C0 B0 _ IH|r t rest bs C0 _ IH]; cbn [app].
    - apply B_clean; [exact C|apply body_without|constructor].
    - apply B_clean; assumption.
    - apply B_error; assumption. }
  rewrite (batches_fun _ _ _ B X). cbn [receive]. cbn [andb]. rewrite (proj2 (clean_iff ms) C), E. cbn [negb andb fst snd sent].
  rewrite S. split; reflexivity.
Qed.
Print Assumptions C64_initial_table.

(** C64, finding: a connection in one batch with an error message is lost; an error message beside the end of the table keeps the
    loop waiting for an end that has passed. *)
Theorem C64_error_beside_refuted : exists (m e : nlmsg), ~ error_message m /\ error_message e /\
  forall streaming rest, receive streaming ((RMsgs [m; e], false) :: rest) rinit =
    receive streaming rest {| sent := []; enobufs := 0; readErrors := 0; msgErrors := 1 |}.
Proof.
  exists {| mtype := 3; mdata := [0;0;0;0] |}, {| mtype := 2; mdata := [255;255;255;255] |}. split; [|split].
  - intros (A & _). cbn in A. discriminate.
  - split; [reflexivity|]. cbn [mdata]. intros b0 b1 b2 b3 r Q. injection Q as <- <- <- <- <-. vm_compute. discriminate.
  - intros [|] rest; reflexivity.
Qed.
Print Assumptions C64_error_beside_refuted.

(** *** The tracker *)
Section Tracker.
  Variable maxSize : nat.
  Variable timeout : Z.
  Notation stepO := (stepOp maxSize timeout).
  Lemma cAdd_ops c x orph n1 n2 c' e : cAdd maxSize timeout c x orph n1 n2 = Some (c', e) ->
    c' = fold_left stepO (direction (origin x) (reply x) orph n1 ++ direction (reply x) (origin x) orph n2) c.
  Proof.
    unfold cAdd, direction. rewrite fold_left_app. destruct (origin x) as [o|]; [|discriminate]. destruct (reply x) as [r|]; [|discriminate].
    destruct (formatKey o) as [[k1|]|]; [| |discriminate].
    - destruct (formatIPTranslation r) as [t1|]; [|discriminate]. destruct (cRegister maxSize timeout c k1 t1 orph n1) as [c1 e1] eqn:E1.
      cbn [fold_left stepOp]. rewrite E1. cbn [fst]. destruct (formatKey r) as [[k2|]|]; [| |discriminate].
      + destruct (formatIPTranslation o) as [t2|]; [|discriminate]. destruct (cRegister maxSize timeout c1 k2 t2 orph n2) as [c2 e2] eqn:E2.
        intros Q. injection Q as <- _. cbn [fold_left stepOp]. rewrite E2. reflexivity.
      + intros Q. injection Q as <- _. reflexivity.
    - cbn [fold_left]. destruct (formatKey r) as [[k2|]|]; [| |discriminate].
      + destruct (formatIPTranslation o) as [t2|]; [|discriminate]. destruct (cRegister maxSize timeout c k2 t2 orph n2) as [c2 e2] eqn:E2.
        intros Q. injection Q as <- _. cbn [fold_left stepOp]. rewrite E2. reflexivity.
      + intros Q. injection Q as <- _. reflexivity.
  Qed.
  Lemma load_ops c x n1 n2 c' : load maxSize timeout c x n1 n2 = Some c' -> c' = fold_left stepO (con_ops false x n1 n2) c.
  Proof.
    unfold load, con_ops. destruct (IsNAT x) as [[|]|]; [|intros Q; injection Q as <-; reflexivity|discriminate].
    destruct (cAdd _ _ _ _ _ _ _) as [[c1 e]|] eqn:E; [|discriminate]. intros Q. injection Q as <-. exact (cAdd_ops _ _ _ _ _ _ _ E).
  Qed.
  Lemma register_con_ops c x n1 n2 c' : register maxSize timeout c x n1 n2 = Some c' -> c' = fold_left stepO (con_ops true x n1 n2) c.
  Proof.
    unfold register, con_ops. destruct (IsNAT x) as [[|]|]; [|intros Q; injection Q as <-; reflexivity|discriminate].
    destruct (cAdd _ _ _ _ _ _ _) as [[c1 e]|] eqn:E; [|discriminate]. intros Q. injection Q as <-. exact (cAdd_ops _ _ _ _ _ _ _ E).
  Qed.
  Lemma each_ops f orph : (forall c x n1 n2 c', f c x n1 n2 = Some c' -> c' = fold_left stepO (con_ops orph x n1 n2) c) ->
    forall xs clock i c c', each f c xs clock i = Some c' -> c' = fold_left stepO (cons_ops orph xs clock i) c.
  Proof.
    intros F. induction xs as [|x r IH]; intros clock i c c' E; cbn [each cons_ops] in *; [injection E as <-; reflexivity|].
    destruct (f c x (fst (clock i)) (snd (clock i))) as [c1|] eqn:E1; [|discriminate]. rewrite fold_left_app, <- (F _ _ _ _ _ E1). apply IH. exact E.
  Qed.
  Lemma decode_announced ms : forall xs, decodeBatch ms = Some xs -> xs = announced ms.
  Proof.
    unfold decodeBatch, announced. induction ms as [|m ms IH]; intros xs E; cbn [map decodeEvent flat_map] in *; [injection E as <-; reflexivity|].
    destruct (decodeMessage (mdata m)) as [[x| |]|]; try discriminate.
    - destruct (decodeEvent (map mdata ms)) as [[ys| |]|]; try discriminate. injection E as <-. cbn [app]. f_equal. apply IH. reflexivity.
    - exact (IH xs E).
  Qed.
  Lemma stepT_ops c s c' : stepT maxSize timeout c s = Some c' -> c' = fold_left stepO (step_ops s) c.
  Proof.
    destruct s as [ms clock|ms clock|s|s|now]; cbn [stepT step_ops]; intros E.
    - destruct (decodeBatch ms) as [xs|] eqn:D; [|discriminate]. rewrite <- (decode_announced _ _ D). exact (each_ops _ _ load_ops _ _ _ _ _ E).
    - destruct (decodeBatch ms) as [xs|] eqn:D; [|discriminate]. rewrite <- (decode_announced _ _ D). exact (each_ops _ _ register_con_ops _ _ _ _ _ E).
    - injection E as <-. reflexivity.
    - injection E as <-. reflexivity.
    - cbn [fold_left stepOp]. destruct (removeOrphans c now) as [[c1 n]|]; [injection E as <-; reflexivity|discriminate].
  Qed.
  Lemma runT_ops h : forall c c', runT maxSize timeout c h = Some c' -> c' = fold_left stepO (history_ops h) c.
  Proof.
    induction h as [|s h IH]; intros c c' E; cbn [runT] in E; [injection E as <-; reflexivity|].
    destruct (stepT maxSize timeout c s) as [c1|] eqn:E1; [|discriminate]. unfold history_ops. cbn [flat_map]. rewrite fold_left_app, <- (stepT_ops _ _ _ E1).
    apply IH. exact E.
  Qed.
End Tracker.

(** C64: whatever the tracker is given, its cache is the one the operations of C34 and C35 lead to. *)
Theorem C64_tracker_refines_cache : forall (maxSize : nat) (timeout : Z) (h : list tstep) (c : cache),
  runT maxSize timeout emptyCache h = Some c -> c = runOps maxSize timeout (history_ops h).
Proof. intros m to h c R. exact (runT_ops m to h _ _ R). Qed.
Print Assumptions C64_tracker_refines_cache.

Lemma cons_ops_app orph a b clock i : cons_ops orph (a ++ b) clock i = cons_ops orph a clock i ++ cons_ops orph b clock (i + List.length a)%nat.
Proof.
  revert i. induction a as [|x a IH]; intros i; cbn [app cons_ops List.length]; [f_equal; lia|]. rewrite IH, <- app_assoc. do 3 f_equal. lia.
Qed.
Lemma sameIP_sym a b : sameIP a b -> sameIP b a.
Proof. unfold sameIP. congruence. Qed.
Lemma sameIP_trans a b c : sameIP a b -> sameIP b c -> sameIP a c.
Proof. unfold sameIP. congruence. Qed.

(** A batch message that announces the connection (original and reply tuple). *)
Definition announces (m : nlmsg) (p : Z) (os od : bytes) (osp odp : Z) (rs rd : bytes) (rsp rdp : Z) : Prop :=
  exists header, (header = [] \/ exists f v r, (f = 2 \/ f = 10) /\ header = [f; 0; v; r]) /\
    mdata m = header ++ EncodeConn os od p osp odp rs rd p rsp rdp.
Definition valid_connection (p : Z) (os od : bytes) (osp odp : Z) (rs rd : bytes) (rsp rdp : Z) : Prop :=
  validIP os /\ validIP od /\ validIP rs /\ validIP rd /\
  0 <= osp < 65536 /\ 0 <= odp < 65536 /\ 0 <= rsp < 65536 /\ 0 <= rdp < 65536.
Lemma announced_ops m p typ os od osp odp rs rd rsp rdp orph n1 n2 :
  announces m p os od osp odp rs rd rsp rdp -> valid_connection p os od osp odp rs rd rsp rdp ->
  (p = 6 /\ typ = TCP) \/ (p = 17 /\ typ = UDP) ->
  ~ (sameIP os rd /\ sameIP od rs /\ osp = rdp /\ odp = rsp) ->
  exists x t1 t2, announced [m] = [x] /\
    con_ops orph x n1 n2 =
      [Reg (keyOfStats {| csource := os; cdest := od; csport := osp; cdport := odp; ctype := typ |}) t1 orph n1;
       Reg (keyOfStats {| csource := rs; cdest := rd; csport := rsp; cdport := rdp; ctype := typ |}) t2 orph n2] /\
    sameIP (replSrcIP t1) rs /\ sameIP (replDstIP t1) rd /\ replSrcPort t1 = rsp /\ replDstPort t1 = rdp /\
    sameIP (replSrcIP t2) os /\ sameIP (replDstIP t2) od /\ replSrcPort t2 = osp /\ replDstPort t2 = odp.
Proof.
  intros (header & H & M) (A & B & C & D & R1 & R2 & R3 & R4) P N.
  destruct (C36_roundtrip os od rs rd p osp odp p rsp rdp header A B C D R1 R2 R3 R4 H) as (o & r & E & DO & DR).
  assert (KO := C36_roundtrip_keys _ _ _ _ _ o A B DO). assert (KR := C36_roundtrip_keys _ _ _ _ _ r C D DR).
  destruct DO as (s1 & d1 & -> & VS1 & VD1 & S1 & D1). destruct DR as (s2 & d2 & -> & VS2 & VD2 & S2 & D2).
  exists (mkCon (mkTuple s1 d1 p osp odp) (mkTuple s2 d2 p rsp rdp)).
  exists {| replSrcIP := s2; replDstIP := d2; replSrcPort := rsp; replDstPort := rdp |}.
  exists {| replSrcIP := s1; replDstIP := d1; replSrcPort := osp; replDstPort := odp |}.
  cbn [replSrcIP replDstIP replSrcPort replDstPort].
  split; [unfold announced; cbn [flat_map]; rewrite M, E; reflexivity|]. split; [|repeat split; assumption].
  destruct (C35_nat_iff_not_mirror s1 d1 s2 d2 osp odp rsp rdp p p VS1 VD1 VS2 VD2) as (b & Nat & I).
  unfold con_ops. rewrite Nat. destruct b.
  2:{ exfalso. apply N. destruct (proj1 I eq_refl) as (X1 & X2 & X3 & X4). repeat split; [| |exact X3|exact X4].
      - eapply sameIP_trans; [apply sameIP_sym; exact S1|]. eapply sameIP_trans; [exact X1|exact D2].
      - eapply sameIP_trans; [apply sameIP_sym; exact D1|]. eapply sameIP_trans; [exact X2|exact S2]. }
  unfold direction. cbn [mkCon origin reply]. rewrite KO, KR. unfold formatKey, formatIPTranslation. cbn [mkTuple tsrc tdst tproto psport pdport pnum].
  destruct P as [[-> ->]|[-> ->]]; cbn [Z.eqb Pos.eqb app]; reflexivity.
Qed.

Lemma touched_cons (k k' : connKey) t o n rest :
  (List.length (nodup Eqb_dec (touched k (Reg k' t o n :: rest))) <= S (List.length (nodup Eqb_dec (touched k rest))))%nat.
Proof.
  unfold touched. match goal with |- context [flat_map ?f (_ :: rest)] => change (flat_map f (Reg k' t o n :: rest)) with (k' :: flat_map f rest); generalize (flat_map f rest) end.
  intros l. cbn [filter]. destruct (negb (eqb k' k)); [|lia]. cbn [nodup]. destruct (in_dec Eqb_dec k' _); cbn [List.length]; lia.
Qed.

Section EndToEnd.
  Variables (maxSize : nat) (timeout : Z).
  Variables (p typ : Z) (os od : bytes) (osp odp : Z) (rs rd : bytes) (rsp rdp : Z).
  Hypothesis V : valid_connection p os od osp odp rs rd rsp rdp.
  Hypothesis P : (p = 6 /\ typ = TCP) \/ (p = 17 /\ typ = UDP).
  Hypothesis N : ~ (sameIP os rd /\ sameIP od rs /\ osp = rdp /\ odp = rsp).
  Hypothesis N2 : ~ (sameIP os rs /\ sameIP od rd /\ osp = rsp /\ odp = rdp).
  Local Notation k := (keyOfStats {| csource := os; cdest := od; csport := osp; cdport := odp; ctype := typ |}).
  Local Notation k2 := (keyOfStats {| csource := rs; cdest := rd; csport := rsp; cdport := rdp; ctype := typ |}).
  Lemma directions_differ : k2 <> k.
  Proof.
    destruct V as (A & B & C & D & _). unfold keyOfStats. cbn [csource cdest csport cdport ctype]. intros E. inversion E as [[E1 E2 E3 E4]].
    apply N2. split; [|split; [|auto]]; [apply (addr_same os rs A C)|apply (addr_same od rd B D)]; congruence.
  Qed.
  Lemma found_ops orph m n1 n2 (h1 rest : list op) :
    announces m p os od osp odp rs rd rsp rdp ->
    (forall t b now, ~ In (Reg k t b now) rest) -> ~ In (Rem k) rest ->
    (S (List.length (nodup Eqb_dec (touched k rest))) < maxSize)%nat ->
    (orph = true -> ~ expired_unused timeout k n1 rest) ->
    exists x, announced [m] = [x] /\ exists t, snd (cGet (runOps maxSize timeout (h1 ++ con_ops orph x n1 n2 ++ rest)) k) = Some t /\
      sameIP (replSrcIP t) rs /\ sameIP (replDstIP t) rd /\ replSrcPort t = rsp /\ replDstPort t = rdp.
  Proof.
    intros M NR ND L NE. destruct (announced_ops m p typ os od osp odp rs rd rsp rdp orph n1 n2 M V P N) as (x & t1 & t2 & AX & O & T1 & T2 & T3 & T4 & _).
    exists x. split; [exact AX|]. exists t1. rewrite O. split; [|auto]. cbn [app].
    eapply (complete maxSize timeout ltac:(lia) _ k t1 orph n1).
    - exists h1. split; [reflexivity|]. split.
      + intros t' b now [J|J]; [|exact (NR _ _ _ J)]. apply directions_differ. congruence.
      + intros [J|J]; [discriminate|exact (ND J)].
    - eapply Nat.le_lt_trans; [apply touched_cons|exact L].
    - intros OT (a & now & b & E & LT & NG). apply (NE OT). destruct a as [|y a]; [discriminate|]. injection E as _ E. exists a, now, b. split; [exact E|]. split; [exact LT|].
      intros J. apply NG. right. exact J.
  Qed.
End EndToEnd.

(** What the tracker did after it took the message [m] of the batch [a ++ m :: b], in terms of cache operations. *)
Definition since (orph : bool) (a b : list nlmsg) (clock : nat -> Z * Z) (h2 : list tstep) : list op :=
  cons_ops orph (announced b) clock (S (List.length (announced a))) ++ history_ops h2.

(** C64: a translated connection announced in a batch is found, with the addresses and ports of its reply, as long as it is not
    announced again, not deleted, has not expired unused, and not too many other connections are in use. *)
Theorem C64_announced_is_found : forall (maxSize : nat) (timeout : Z) (h1 h2 : list tstep) (a b : list nlmsg) (m : nlmsg)
    (clock : nat -> Z * Z) (c : cache) (p typ : Z) (os od : bytes) (osp odp : Z) (rs rd : bytes) (rsp rdp : Z),
  runT maxSize timeout emptyCache (h1 ++ TEvent (a ++ m :: b) clock :: h2) = Some c ->
  announces m p os od osp odp rs rd rsp rdp -> valid_connection p os od osp odp rs rd rsp rdp ->
  (p = 6 /\ typ = TCP) \/ (p = 17 /\ typ = UDP) ->
  ~ (sameIP os rd /\ sameIP od rs /\ osp = rdp /\ odp = rsp) ->
  ~ (sameIP os rs /\ sameIP od rd /\ osp = rsp /\ odp = rdp) ->
  let s := {| csource := os; cdest := od; csport := osp; cdport := odp; ctype := typ |} in
  let rest := since true a b clock h2 in
  (forall t o now, ~ In (Reg (keyOfStats s) t o now) rest) -> ~ In (Rem (keyOfStats s)) rest ->
  (S (List.length (nodup Eqb_dec (touched (keyOfStats s) rest))) < maxSize)%nat ->
  ~ expired_unused timeout (keyOfStats s) (fst (clock (List.length (announced a)))) rest ->
  exists t, snd (GetTranslationForConn c s) = Some t /\
    sameIP (replSrcIP t) rs /\ sameIP (replDstIP t) rd /\ replSrcPort t = rsp /\ replDstPort t = rdp.
Proof.
  intros mx to h1 h2 a b m clock c p typ os od osp odp rs rd rsp rdp R M V P N N2 s rest NR ND L NE.
  rewrite (C64_tracker_refines_cache _ _ _ _ R). unfold history_ops. rewrite flat_map_app. cbn [flat_map step_ops].
  assert (X : announced (a ++ m :: b) = announced a ++ announced [m] ++ announced b).
  { unfold announced. rewrite flat_map_app. cbn [flat_map]. rewrite app_nil_r. reflexivity. }
  destruct (found_ops mx to p typ os od osp odp rs rd rsp rdp V P N N2 true m (fst (clock (List.length (announced a)))) (snd (clock (List.length (announced a))))
              (flat_map step_ops h1 ++ cons_ops true (announced a) clock 0) rest M NR ND L (fun _ => NE)) as (x & AX & t & G & T).
  exists t. split; [|exact T]. unfold GetTranslationForConn. rewrite <- G. do 3 f_equal. rewrite X, AX, cons_ops_app. cbn [app cons_ops Nat.add].
  unfold rest, since. rewrite <- !app_assoc. reflexivity.
Qed.
Print Assumptions C64_announced_is_found.

(** C64: the same for a connection in the table read at the start, which does not expire. *)
Theorem C64_loaded_is_found : forall (maxSize : nat) (timeout : Z) (h1 h2 : list tstep) (a b : list nlmsg) (m : nlmsg)
    (clock : nat -> Z * Z) (c : cache) (p typ : Z) (os od : bytes) (osp odp : Z) (rs rd : bytes) (rsp rdp : Z),
  runT maxSize timeout emptyCache (h1 ++ TLoad (a ++ m :: b) clock :: h2) = Some c ->
  announces m p os od osp odp rs rd rsp rdp -> valid_connection p os od osp odp rs rd rsp rdp ->
  (p = 6 /\ typ = TCP) \/ (p = 17 /\ typ = UDP) ->
  ~ (sameIP os rd /\ sameIP od rs /\ osp = rdp /\ odp = rsp) ->
  ~ (sameIP os rs /\ sameIP od rd /\ osp = rsp /\ odp = rdp) ->
  let s := {| csource := os; cdest := od; csport := osp; cdport := odp; ctype := typ |} in
  let rest := since false a b clock h2 in
  (forall t o now, ~ In (Reg (keyOfStats s) t o now) rest) -> ~ In (Rem (keyOfStats s)) rest ->
  (S (List.length (nodup Eqb_dec (touched (keyOfStats s) rest))) < maxSize)%nat ->
  exists t, snd (GetTranslationForConn c s) = Some t /\
    sameIP (replSrcIP t) rs /\ sameIP (replDstIP t) rd /\ replSrcPort t = rsp /\ replDstPort t = rdp.
Proof.
  intros mx to h1 h2 a b m clock c p typ os od osp odp rs rd rsp rdp R M V P N N2 s rest NR ND L.
  rewrite (C64_tracker_refines_cache _ _ _ _ R). unfold history_ops. rewrite flat_map_app. cbn [flat_map step_ops].
  assert (X : announced (a ++ m :: b) = announced a ++ announced [m] ++ announced b).
  { unfold announced. rewrite flat_map_app. cbn [flat_map]. rewrite app_nil_r. reflexivity. }
  destruct (found_ops mx to p typ os od osp odp rs rd rsp rdp V P N N2 false m (fst (clock (List.length (announced a)))) (snd (clock (List.length (announced a))))
              (flat_map step_ops h1 ++ cons_ops false (announced a) clock 0) rest M NR ND L ltac:(discriminate)) as (x & AX & t & G & T).
  exists t. split; [|exact T]. unfold GetTranslationForConn. rewrite <- G. do 3 f_equal. rewrite X, AX, cons_ops_app. cbn [app cons_ops Nat.add].
  unfold rest, since. rewrite <- !app_assoc. reflexivity.
Qed.
Print Assumptions C64_loaded_is_found.

(** C64: every message of a clean batch that was read is in a batch the tracker processes, unless it is the final "done". *)
Lemma batches_in reads bs : batches reads bs -> forall ms thr m, In (RMsgs ms, thr) reads -> clean ms -> In m ms -> mtype m <> 3 ->
  exists b, In b bs /\ In m b.
Proof.
  induction 1 as [|r t rest b bs C B _ IH|r t rest bs C _ IH]; intros ms thr m I CM IM NT; [destruct I| |].
  - destruct I as [Q|I].
    + injection Q as -> ->. cbn [messages_of] in *. exists b. split; [left; reflexivity|]. destruct B as [(d & D & Q)|(<- & _)]; [|exact IM].
      rewrite Q in IM. apply in_app_or in IM. destruct IM as [IM|[<-|[]]]; [exact IM|contradiction].
    + destruct (IH ms thr m I CM IM NT) as (b' & J & K). exists b'. split; [right; exact J|exact K].
  - destruct I as [Q|I]; [injection Q as -> ->; contradiction|]. exact (IH ms thr m I CM IM NT).
Qed.
Theorem C64_read_is_processed : forall (reads : list (read * bool)) (h : list tstep) (ms : list nlmsg) (thr : bool) (m : nlmsg),
  goes_on reads -> processed h = sent (fst (receive true reads rinit)) ->
  In (RMsgs ms, thr) reads -> clean ms -> In m ms -> mtype m <> 3 ->
  exists h1 a b clock h2, h = h1 ++ TEvent (a ++ m :: b) clock :: h2.
Proof.
  intros reads h ms thr m G PR I C IM NT. destruct (receive_stream reads G rinit) as (bs & B & _ & S). rewrite S in PR.
  change (sent rinit ++ bs) with bs in PR. destruct (batches_in _ _ B ms thr m I C IM NT) as (b & J & K). rewrite <- PR in J.
  unfold processed in J. apply in_flat_map in J. destruct J as (s & IS & J). destruct s as [?|ms' clock| | |]; try (destruct J; fail).
  destruct J as [<-|[]]. apply in_split in IS. destruct IS as (h1 & h2 & ->). apply in_split in K. destruct K as (x & y & ->). eauto 6.
Qed.
Print Assumptions C64_read_is_processed.

(** A DNAT connection announced by the kernel, read from the socket beside a message that does not decode, and looked up. *)
Definition exMsg : nlmsg := {| mtype := 256; mdata := [2; 0; 0; 0] ++ EncodeConn [10;0;0;1] [10;96;0;1] 6 40000 80 [10;1;0;9] [10;0;0;1] 6 8080 40000 |}.
Definition exReads : list (read * bool) :=
  [(RErr true, false); (RMsgs [{| mtype := 2; mdata := [1;0;0;0] |}], false); (RMsgs [{| mtype := 256; mdata := [7] |}; exMsg], false)].
Definition exTrack : list tstep := map (fun b => TEvent b (fun _ => (100, 101))) (sent (fst (receive true exReads rinit))).
Example C64_example :
  goes_on exReads /\ batches exReads [[]; [{| mtype := 256; mdata := [7] |}; exMsg]] /\
  announces exMsg 6 [10;0;0;1] [10;96;0;1] 40000 80 [10;1;0;9] [10;0;0;1] 8080 40000 /\
  valid_connection 6 [10;0;0;1] [10;96;0;1] 40000 80 [10;1;0;9] [10;0;0;1] 8080 40000 /\
  msgErrors (fst (receive true exReads rinit)) = 1 /\ enobufs (fst (receive true exReads rinit)) = 1 /\
  option_map (fun c => snd (GetTranslationForConn c {| csource := [10;0;0;1]; cdest := [10;96;0;1]; csport := 40000; cdport := 80; ctype := TCP |}))
    (runT 10 120 emptyCache exTrack) =
  Some (Some {| replSrcIP := [10;1;0;9]; replDstIP := [10;0;0;1]; replSrcPort := 8080; replDstPort := 40000 |}).
Proof.
  assert (NE : forall t d, t <> 2 -> ~ error_message {| mtype := t; mdata := d |}) by (intros t d T (A & _); exact (T A)).
  assert (NB : forall ms : list nlmsg, (forall m, In m ms -> mtype m <> 3) -> body ms ms).
  { intros ms H. right. split; [reflexivity|]. intros c m ->. apply H. apply in_or_app. right. left. reflexivity. }
  split.
  { intros r thr I. cbn [exReads In] in I. destruct I as [Q|[Q|[Q|[]]]]; injection Q as <- <-; split; discriminate || reflexivity. }
  split.
  { apply B_clean; [intros m []|apply NB; intros m []|]. apply B_error.
    - intros C. apply (C _ (or_introl eq_refl)). split; [reflexivity|]. cbn [mdata]. intros b0 b1 b2 b3 r Q. injection Q as <- <- <- <- <-. vm_compute. discriminate.
    - apply B_clean; [|apply NB|constructor]; cbn [messages_of].
      + intros m [<-|[<-|[]]]; apply NE; discriminate.
      + intros m [<-|[<-|[]]]; cbn; discriminate. }
  split; [exists [2;0;0;0]; split; [right; exists 2, 0, 0; auto|reflexivity]|].
  split; [unfold valid_connection, validIP; cbn [List.length]; repeat split; try lia; left; reflexivity|].
  split; [vm_compute; reflexivity|]. split; vm_compute; reflexivity.
Qed.
