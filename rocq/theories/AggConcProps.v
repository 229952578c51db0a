(** C02 for every interleaving of concurrent Aggregate calls with Dump. *)
From Verif Require Import Base Decimal AttrModel AttrProofs PoolModel KeyModel AggModel AggSpec AggProofs AggProofs2 AggConcModel.

(** The calls of a schedule, in the order in which they started. *)
Definition calls (l : list cact) : list agg_op :=
  flat_map (fun a => match a with
                     | ABegin _ g sels => [OAgg g sels]
                     | ADump => [ODump]
                     | ADumpSingle n => [ODumpSingle n]
                     | _ => []
                     end) l.

(** ** Shapes *)
Definition kindred (c : kcfg) (x : core) : Prop :=
  match c_kind c, x with
  | SumKind, CSum _ | MaxKind, CMax _ | AvgKind, CAvg _ _ | LastKind, CLast _ | CountKind, CCount _ => True
  | HistogramKind, CHist _ _ _ _ => True
  | _, _ => False
  end.
Definition shaped (c : kcfg) (a : aggv) : Prop := a_name a = c_out c /\ kindred c (a_core a).

Lemma feed_shaped out c a d a' : shaped c a -> feed a d = Ok a' ->
  shaped c a' /\
  eqm (if eqb (a_name a') out then coreVal (a_core a') else 0)
      ((if eqb (a_name a) out then coreVal (a_core a) else 0) + contribC out d c).
Proof.
  intros [N K] F. unfold feed in F. destruct (feedCore (a_core a) d) as [x| |] eqn:E; cbn [bind] in F; try discriminate.
  inversion F; subst a'; clear F. cbn [a_name a_core]. unfold shaped. cbn [a_name a_core]. rewrite N. unfold contribC.
  assert (T : forall u v, eqm (s64 (u + v)) (u + v)) by (intros; apply eqm_s64).
  assert (T2 : forall u v, eqm (s64 (u + s64 v)) (u + v)).
  { intros. eapply eqm_trans; [apply eqm_s64|]. apply eqm_add; [apply eqm_refl|apply eqm_s64]. }
  unfold kindred in *.
  destruct (c_kind c), (a_core a); try contradiction; destruct d; cbn [feedCore] in E;
    try (destruct (_ =? _)%nat; [destruct (mergeBuckets _ _); cbn [bind] in E|]);
    inversion E; subst x; (split; [split; [reflexivity|exact I]|]); destruct (eqb (c_out c) out); cbn [coreVal];
    try apply T; try apply T2; try apply eqm_refl.
Qed.

Definition vshape (km : kindMap) (names : list string) (l : list (string * list aggv)) : Prop :=
  NoDup (keys l) /\
  (forall m, In m (keys l) <-> In m names /\ kindsDefault km m <> None) /\
  (forall m sl, aget l m = Some sl -> exists cs, aget km m = Some cs /\ Forall2 shaped cs sl).

Lemma newValues_shape km ms : vshape km (map fst ms) (vals (newValues (kindsDefault km) ms)).
Proof.
  destruct (newValues_are (kindsDefault km) ms) as (A & B & C). split; [exact A|]. split; [exact B|].
  intros m sl G. destruct (C _ _ G) as (cs & F & ->). exists cs. split; [exact F|]. unfold sliceOf.
  clear. induction cs as [|c cs IH]; cbn [map]; constructor; [|exact IH].
  split; [reflexivity|]. cbn [a_core]. unfold kindred, coreOf. destruct (c_kind c); exact I.
Qed.

Lemma F2_length {A B} (R : A -> B -> Prop) l m : Forall2 R l m -> List.length l = List.length m.
Proof. induction 1; cbn [List.length]; congruence. Qed.

Definition todoVal (km : kindMap) (out : string) (t : string * nat * mdata) : Z :=
  match aget km (fst (fst t)) with
  | Some cs => match nth_error cs (snd (fst t)) with Some c => contribC out (snd t) c | None => 0 end
  | None => 0
  end.
Definition flightVal (km : kindMap) (nm : string) (L : labelset) (out : string) (p : Z * flight) : Z :=
  if eqb (f_name (snd p)) nm && eqb (getLabels (f_key (snd p))) L then zsum (map (todoVal km out) (f_todo (snd p))) else 0.
Definition inflight km nm L out (fl : list (Z * flight)) : Z := zsum (map (flightVal km nm L out) fl).

Lemma seq_contrib out d cs : forall n,
  zsum (map (fun i => match nth_error cs (i - n) with Some c => contribC out d c | None => 0 end) (seq n (List.length cs)))
  = zsum (map (contribC out d) cs).
Proof.
  induction cs as [|c cs IH]; intros n; [reflexivity|]. cbn [List.length seq map]. rewrite !zsum_cons, Nat.sub_diag. cbn [nth_error].
  f_equal. rewrite <- (IH (S n)). f_equal. apply map_ext_in. intros i I. apply in_seq in I.
  replace (i - n)%nat with (S (i - S n)) by lia. reflexivity.
Qed.

Lemma todo_contrib km out m ms names :
  vshape km names (vals m) -> (forall p, In p ms -> In (fst p) names) ->
  zsum (map (todoVal km out) (todoOf m ms)) = zsum (map (contribP km out) ms).
Proof.
  intros (ND & K & S) I. induction ms as [|p ms IH]; [reflexivity|].
  unfold todoOf in *. cbn [flat_map map]. rewrite map_app, zsum_app, zsum_cons. f_equal.
  - unfold contribP. destruct (aget (vals m) (fst p)) as [sl|] eqn:G.
    + destruct (S _ _ G) as (cs & F & SH). rewrite F, map_map. rewrite <- (F2_length _ _ _ SH).
      rewrite <- (seq_contrib out (snd p) cs 0). f_equal. apply map_ext. intros i. unfold todoVal. cbn [fst snd].
      rewrite F, Nat.sub_0_r. reflexivity.
    + destruct (aget km (fst p)) as [cs|] eqn:F; [|reflexivity].
      exfalso. apply aget_none_notin in G. apply G. apply K. split; [apply I; left; reflexivity|].
      unfold kindsDefault. congruence.
  - apply IH. intros q J. apply I. right. exact J.
Qed.

(** Every series was created by the first group of its series among [h]. *)
Definition sshape (km : kindMap) (h : list agg_op) (nm : string) (key : list lkey) (m : vmap) : Prop :=
  exists g0 sels0, In (OAgg g0 sels0) h /\ gname g0 = nm /\ getLabelKeys sels0 (glabels g0) = key /\
    vshape km (mnames g0) (vals m).

Definition tshape (m : vmap) (t : string * nat * mdata) : Prop :=
  exists sl, aget (vals m) (fst (fst t)) = Some sl /\ (snd (fst t) < List.length sl)%nat.

Definition cinv (km : kindMap) (h : list agg_op) (st : conc_state) : Prop :=
  NoDup (keys (fst st)) /\ (forall nm, NoDup (keys (recOf (fst st) nm))) /\ NoDup (keys (snd st)) /\
  (forall nm key m, aget (recOf (fst st) nm) key = Some m -> sshape km h nm key m) /\
  (forall id f, aget (snd st) id = Some f ->
     exists m, aget (recOf (fst st) (f_name f)) (f_key f) = Some m /\ Forall (tshape m) (f_todo f)).

Lemma sshape_more km h h' nm key m : (forall x, In x h -> In x h') -> sshape km h nm key m -> sshape km h' nm key m.
Proof. intros I (g0 & s0 & A & B). exists g0, s0. split; [apply I; exact A|exact B]. Qed.

Lemma cinv_more km h h' st : (forall x, In x h -> In x h') -> cinv km h st -> cinv km h' st.
Proof.
  intros I (A & B & C & D & E). split; [exact A|]. split; [exact B|]. split; [exact C|]. split; [|exact E].
  intros nm key m G. eapply sshape_more; [exact I|]. apply D. exact G.
Qed.

Lemma todoOf_shape m ms : Forall (tshape m) (todoOf m ms).
Proof.
  apply Forall_forall. intros t I. unfold todoOf in I. apply in_flat_map in I. destruct I as (p & _ & I).
  destruct (aget (vals m) (fst p)) as [sl|] eqn:G; [|destruct I].
  apply in_map_iff in I. destruct I as (i & <- & I). apply in_seq in I. exists sl. cbn [fst snd]. split; [exact G|lia].
Qed.

Lemma zsum_adel {V} (f : Z * V -> Z) (l : list (Z * V)) k v :
  NoDup (keys l) -> aget l k = Some v -> zsum (map f (adel l k)) = zsum (map f l) - f (k, v).
Proof.
  induction l as [|[k' v'] l IH]; intros ND G; [discriminate|]. cbn [keys map fst] in ND. inversion ND as [|? ? NI ND']; subst.
  cbn [adel filter fst]. cbn [aget] in G. case_eqb k k'.
  - subst k'. inversion G; subst v'. cbn [negb map]. rewrite zsum_cons.
    assert (E : adel l k = l).
    { unfold adel. clear -NI. induction l as [|[k2 v2] l IH]; [reflexivity|]. cbn [filter fst].
      cbn [map fst] in NI. rewrite (proj2 (eqb_neq k k2)) by (intros ->; apply NI; left; reflexivity). cbn [negb].
      f_equal. apply IH. intros I. apply NI. right. exact I. }
    unfold adel in E. rewrite E. lia.
  - cbn [negb map]. rewrite !zsum_cons. unfold adel in IH. rewrite IH by assumption. lia.
Qed.

Lemma set_nth_shaped out cs sl i a a' c :
  Forall2 shaped cs sl -> nth_error sl i = Some a -> nth_error cs i = Some c -> shaped c a' ->
  Forall2 shaped cs (set_nth sl i a') /\
  slVal out (set_nth sl i a') = slVal out sl - (if eqb (a_name a) out then coreVal (a_core a) else 0)
                                + (if eqb (a_name a') out then coreVal (a_core a') else 0).
Proof.
  intros F. revert i. unfold slVal. induction F as [|c0 a0 cs sl H F IH]; intros i N1 N2 SH; destruct i as [|i]; cbn [nth_error] in *; try discriminate.
  - inversion N1; inversion N2; subst. cbn [set_nth map]. rewrite !zsum_cons. split; [constructor; assumption|lia].
  - destruct (IH i N1 N2 SH) as [A B]. cbn [set_nth map]. rewrite !zsum_cons, B. split; [constructor; assumption|lia].
Qed.

Section Step.
Variables (km : kindMap) (out nm : string) (L : labelset).

Definition balance (st : conc_state) : Z := pend L out (recOf (fst st) nm) + inflight km nm L out (snd st).

Lemma begin_step h s fl id g sels es st' :
  uniform (h ++ [OAgg g sels]) -> cinv km h (s, fl) -> conc_step km (s, fl) (ABegin id g sels) = Ok (es, st') ->
  cinv km (h ++ [OAgg g sels]) st' /\ es = [] /\
  eqm (balance st') (balance (s, fl) + (fed km nm L out (h ++ [OAgg g sels]) - fed km nm L out h)).
Proof.
  intros U (ND & NDr & NDf & SS & FS) ST. cbn [conc_step] in ST. cbn [fst snd] in *.
  destruct (aget fl id) as [?|] eqn:GF; [discriminate|].
  set (key := getLabelKeys sels (glabels g)) in *.
  set (m := match aget (recOf s (gname g)) key with Some m => m | None => newValues (kindsDefault km) (gmetrics g) end) in *.
  inversion ST; subst es st'; clear ST.
  assert (INg : In (OAgg g sels) (h ++ [OAgg g sels])) by (apply in_or_app; right; left; reflexivity).
  assert (SM : sshape km (h ++ [OAgg g sels]) (gname g) key m).
  { unfold m. destruct (aget (recOf s (gname g)) key) as [m0|] eqn:G.
    - eapply sshape_more; [|exact (SS _ _ _ G)]. intros x I. apply in_or_app. left. exact I.
    - exists g, sels. split; [exact INg|]. split; [reflexivity|]. split; [reflexivity|]. apply newValues_shape. }
  split; [|split; [reflexivity|]].
  - split; [apply NoDup_keys_aset; exact ND|]. split.
    { intros n. cbn [fst]. rewrite recOf_aset. destruct (eqb n (gname g)); [apply NoDup_keys_aset|]; apply NDr. }
    split; [apply NoDup_keys_aset; exact NDf|]. cbn [fst snd]. split.
    + intros n k m1. rewrite recOf_aset. case_eqb n (gname g).
      * subst n. rewrite aget_aset. case_eqb k key.
        -- subst k. intros E; inversion E; subst m1. exact SM.
        -- intros G. eapply sshape_more; [|exact (SS _ _ _ G)]. intros x I. apply in_or_app. left. exact I.
      * intros G. eapply sshape_more; [|exact (SS _ _ _ G)]. intros x I. apply in_or_app. left. exact I.
    + intros i f. rewrite aget_aset. case_eqb i id.
      * subst i. intros E; inversion E; subst f. cbn [f_name f_key f_todo]. exists m.
        rewrite recOf_aset, eqb_refl, aget_aset, eqb_refl. split; [reflexivity|]. apply todoOf_shape.
      * intros G. destruct (FS _ _ G) as (m1 & G1 & T1). rewrite recOf_aset. case_eqb (f_name f) (gname g).
        -- rewrite aget_aset. case_eqb (f_key f) key.
           ++ exists m. split; [reflexivity|]. replace m with m1; [exact T1|]. unfold m.
              rewrite E0, E1 in G1. rewrite G1. reflexivity.
           ++ exists m1. rewrite <- E0. auto.
        -- exists m1. auto.
  - unfold balance. cbn [fst snd]. rewrite fed_snoc.
    match goal with |- eqm _ (_ + (?f + ?x - ?f)) => replace (f + x - f) with x by lia end.
    assert (IF : inflight km nm L out (aset fl id {| f_name := gname g; f_key := key; f_todo := todoOf m (gmetrics g) |})
                 = inflight km nm L out fl + (if eqb (gname g) nm && eqb (getLabels key) L then contribution km out g else 0)).
    { unfold inflight. rewrite zsum_aset_none by exact GF. f_equal. unfold flightVal. cbn [snd f_name f_key f_todo].
      destruct (eqb (gname g) nm && eqb (getLabels key) L); [|reflexivity]. rewrite contribution_eq.
      destruct SM as (g0 & s0 & I0 & N0 & K0 & V0). apply (todo_contrib km out m (gmetrics g) (mnames g0) V0).
      intros p J. apply in_map with (f := fst) in J.
      refine (proj1 (U g sels g0 s0 INg I0 _ _ (fst p)) J); [auto|]. unfold key in K0. auto. }
    assert (PE : pend L out (recOf (aset s (gname g) (aset (recOf s (gname g)) key m)) nm) = pend L out (recOf s nm)).
    { rewrite recOf_aset. case_eqb nm (gname g); [|reflexivity]. rewrite E. unfold pend, m.
      destruct (aget (recOf s (gname g)) key) as [m0|] eqn:G.
      - rewrite (zsum_aset_some _ _ _ _ _ G). lia.
      - rewrite (zsum_aset_none _ _ _ _ G). unfold pendP at 2. cbn [fst snd]. rewrite vout_new.
        destruct (eqb (getLabels key) L); lia. }
    fold key. rewrite IF, PE. apply (eqm_of 0). lia.
Qed.

Lemma feed_step h s fl id es st' :
  cinv km h (s, fl) -> conc_step km (s, fl) (AFeed id) = Ok (es, st') ->
  cinv km h st' /\ es = [] /\ eqm (balance st') (balance (s, fl)).
Proof.
  intros (ND & NDr & NDf & SS & FS) ST. cbn [conc_step] in ST. cbn [fst snd] in *.
  destruct (aget fl id) as [f|] eqn:GF; [|discriminate].
  destruct (FS _ _ GF) as (m & G & T).
  destruct (f_todo f) as [|[[mn i] d] rest] eqn:TD; [discriminate|].
  rewrite G in ST. destruct (aget (vals m) mn) as [sl|] eqn:GV; [|discriminate].
  unfold feedAt in ST. destruct (nth_error sl i) as [a|] eqn:NA; [|discriminate].
  destruct (feed a d) as [a'| |] eqn:FD; cbn [bind] in ST; try discriminate.
  inversion ST; subst es st'; clear ST.
  set (m' := {| vals := aset (vals m) mn (set_nth sl i a'); vts := vts m; vupd := vupd m |}).
  destruct (SS _ _ _ G) as (g0 & s0 & I0 & N0 & K0 & (VN & VK & VS)).
  destruct (VS _ _ GV) as (cs & KC & SH).
  destruct (nth_error cs i) as [c|] eqn:NC.
  2:{ exfalso. apply nth_error_None in NC. assert (nth_error sl i <> None) by congruence. apply nth_error_Some in H.
      rewrite (F2_length _ _ _ SH) in NC. lia. }
  assert (SA : shaped c a).
  { clear -SH NA NC. revert i NA NC. induction SH as [|c0 a0 cs sl H F IH]; intros i NA NC; destruct i; cbn [nth_error] in *; try discriminate.
    - inversion NA; inversion NC; subst; assumption.
    - eauto. }
  destruct (feed_shaped out c a d a' SA FD) as [SA' EV].
  destruct (set_nth_shaped out cs sl i a a' c SH NA NC SA') as [SH' SV].
  assert (V' : vshape km (mnames g0) (vals m')).
  { unfold m'. cbn [vals]. split; [apply NoDup_keys_aset; exact VN|]. split.
    - intros x. rewrite in_keys_aset, VK. split; [|auto]. intros [->|X]; [|exact X].
      apply VK. eapply aget_some_in_keys. exact GV.
    - intros x sl'. rewrite aget_aset. case_eqb x mn; [|apply VS]. subst x. intros X; inversion X; subst sl'.
      exists cs. auto. }
  split; [|split; [reflexivity|]].
  - split; [apply NoDup_keys_aset; exact ND|]. split.
    { intros n. cbn [fst]. rewrite recOf_aset. destruct (eqb n (f_name f)); [apply NoDup_keys_aset|]; apply NDr. }
    split; [apply NoDup_keys_aset; exact NDf|]. cbn [fst snd]. split.
    + intros n k m1. rewrite recOf_aset. case_eqb n (f_name f); [|apply SS].
      subst n. rewrite aget_aset. case_eqb k (f_key f); [|apply SS]. subst k. intros X; inversion X; subst m1.
      exists g0, s0. auto.
    + assert (TS : forall t, tshape m t -> tshape m' t).
      { intros t (sl1 & G1 & L1). unfold tshape, m'. cbn [vals]. rewrite aget_aset. case_eqb (fst (fst t)) mn.
        - exists (set_nth sl i a'). split; [reflexivity|]. rewrite set_nth_length. rewrite E in G1.
          rewrite GV in G1. inversion G1; subst. exact L1.
        - exists sl1. auto. }
      intros j f1. rewrite aget_aset. case_eqb j id.
      * subst j. intros X; inversion X; subst f1. cbn [f_name f_key f_todo]. exists m'.
        rewrite recOf_aset, eqb_refl, aget_aset, eqb_refl. split; [reflexivity|].
        inversion T; subst. eapply Forall_impl; [|eassumption]. exact TS.
      * intros GJ. destruct (FS _ _ GJ) as (m1 & G1 & T1). rewrite recOf_aset. case_eqb (f_name f1) (f_name f).
        -- rewrite aget_aset. case_eqb (f_key f1) (f_key f).
           ++ exists m'. split; [reflexivity|]. rewrite E0, E1, G in G1. inversion G1; subst m1.
              eapply Forall_impl; [|exact T1]. exact TS.
           ++ exists m1. rewrite <- E0. auto.
        -- exists m1. auto.
  - unfold balance. cbn [fst snd]. unfold inflight. rewrite (zsum_aset_some _ _ _ _ _ GF).
    unfold flightVal at 2 3. cbn [snd f_name f_key f_todo]. rewrite TD. cbn [map]. rewrite zsum_cons.
    unfold todoVal at 1. cbn [fst snd]. rewrite KC, NC.
    assert (VO : eqm (vout out m') (vout out m + contribC out d c)).
    { unfold vout, m'. cbn [vals]. rewrite (zsum_aset_some _ _ _ _ _ GV). unfold voutP at 2 3. cbn [snd]. rewrite SV.
      destruct (eqm_ex _ _ EV) as (k & D). apply (eqm_of k). lia. }
    rewrite recOf_aset. rewrite (eqb_sym (f_name f) nm). case_eqb nm (f_name f); cbn [andb].
    + rewrite E. unfold pend. rewrite (zsum_aset_some _ _ _ _ _ G). unfold pendP at 2 3. cbn [fst snd].
      destruct (eqb (getLabels (f_key f)) L).
      * destruct (eqm_ex _ _ VO) as (k & D). apply (eqm_of k). lia.
      * apply (eqm_of 0). lia.
    + apply (eqm_of 0). lia.
Qed.

Lemma end_step h s fl id es st' :
  cinv km h (s, fl) -> conc_step km (s, fl) (AEnd id) = Ok (es, st') ->
  cinv km h st' /\ es = [] /\ balance st' = balance (s, fl).
Proof.
  intros (ND & NDr & NDf & SS & FS) ST. cbn [conc_step] in ST. cbn [fst snd] in *.
  destruct (aget fl id) as [f|] eqn:GF; [|discriminate]. destruct (f_todo f) eqn:TD; [|discriminate].
  inversion ST; subst es st'; clear ST. split; [|split; [reflexivity|]].
  - split; [exact ND|]. split; [exact NDr|]. split; [apply NoDup_keys_adel; exact NDf|]. split; [exact SS|].
    cbn [fst snd]. intros j f1. rewrite aget_adel. destruct (eqb j id); [discriminate|apply FS].
  - unfold balance. cbn [fst snd]. unfold inflight. rewrite (zsum_adel _ _ _ _ NDf GF). unfold flightVal at 2. cbn [snd].
    rewrite TD. cbn [map zsum fold_right]. destruct (_ && _); lia.
Qed.

Lemma getAll_exported names m ms :
  counter_output km out -> vshape km names (vals m) -> getAll m = Ok ms ->
  zsum (map (fun p => if eqb (fst p) out then match snd p with MInt v => v | _ => 0 end else 0) ms) = vout out m.
Proof.
  intros CO (ND & K & S) G. unfold getAll in G. destruct (mapM _ (vals m)) as [ls| |] eqn:M; cbn [bind] in G; try discriminate.
  inversion G; subst ms; clear G. apply mapM_ok in M. unfold vout.
  assert (S' : forall p, In p (vals m) -> exists cs, aget km (fst p) = Some cs /\ Forall2 shaped cs (snd p)).
  { intros [x sl] I. cbn [fst snd]. apply S. apply in_aget; assumption. }
  clear K S ND. revert ls M. generalize (vals m) S'. clear S'.
  induction l as [|[x sl] l IH]; intros S' ls M; inversion M as [|? b ? ls' E F]; subst; [reflexivity|].
  cbn [List.concat map]. rewrite map_app, zsum_app, zsum_cons. f_equal.
  - destruct (S' (x, sl) (or_introl eq_refl)) as (cs & KF & SL). cbn [fst snd] in *. unfold voutP. cbn [snd].
    apply mapM_ok in E. unfold slVal.
    assert (CK : forall c, In c cs -> c_out c = out -> c_kind c = SumKind \/ c_kind c = CountKind) by (intros c I; exact (CO _ _ _ KF I)).
    clear -E CK SL. revert b E CK. induction SL as [|c a cs sl [N KI] SL IH]; intros b E CK; inversion E as [|? d ? b' X Y]; subst; [reflexivity|].
    cbn [map]. rewrite !zsum_cons. f_equal.
    + destruct (getCore (a_core a)) as [v| |] eqn:V; cbn [bind] in X; try discriminate.
      inversion X; subst d. cbn [fst snd]. rewrite N. case_eqb (c_out c) out; [|reflexivity].
      destruct (CK c (or_introl eq_refl) E0) as [k|k]; unfold kindred in KI; rewrite k in KI;
        destruct (a_core a); try contradiction; cbn [getCore] in V; inversion V; reflexivity.
    + apply IH; [assumption|]. intros c' I. apply CK. right. exact I.
  - apply IH; [|assumption]. intros p I. apply S'. right. exact I.
Qed.

Lemma recorder_exported nm0 r gs :
  counter_output km out ->
  (forall key m, In (key, m) r -> exists names, vshape km names (vals m)) ->
  dumpRecorder nm0 r = Ok gs ->
  exportedIn nm L out gs = if eqb nm0 nm then pend L out r else 0.
Proof.
  intros CO SI E. unfold dumpRecorder in E. apply mapM_ok in E. unfold exportedIn, pend.
  revert gs E. induction r as [|[key m] r IH]; intros gs E; inversion E as [|? g ? gs' X Y]; subst.
  - destruct (eqb nm0 nm); reflexivity.
  - cbn [map]. rewrite zsum_cons. rewrite IH; [|intros k m' I; apply (SI k m'); right; exact I|assumption].
    cbn [fst snd] in X. destruct (getAll m) as [ms| |] eqn:G; cbn [bind] in X; try discriminate. inversion X; subst g.
    cbn [gname glabels gmetrics]. destruct (SI key m (or_introl eq_refl)) as (names & V).
    rewrite (getAll_exported _ _ _ CO V G). destruct (eqb nm0 nm); cbn [andb]; [|reflexivity].
    rewrite zsum_cons. unfold pendP at 2. cbn [fst snd]. reflexivity.
Qed.

Lemma all_exported s ls :
  counter_output km out -> NoDup (keys s) ->
  (forall n r, In (n, r) s -> forall key m, In (key, m) r -> exists names, vshape km names (vals m)) ->
  mapM (fun p => dumpRecorder (fst p) (snd p)) s = Ok ls ->
  exportedIn nm L out (List.concat ls) = pend L out (recOf s nm).
Proof.
  intros CO ND SI E. rewrite exportedIn_concat. apply mapM_ok in E.
  induction E as [|[n r] gs s' ls' X Y IH]; [reflexivity|].
  cbn [map]. rewrite zsum_cons. cbn [fst snd] in X.
  rewrite (recorder_exported n r gs CO (SI n r (or_introl eq_refl)) X).
  cbn [keys map fst] in ND. inversion ND as [|? ? NI ND']; subst.
  rewrite IH; [|assumption|intros n' r' I; apply (SI n' r'); right; exact I].
  unfold recOf. cbn [aget]. rewrite (eqb_sym n nm). case_eqb nm n; [|reflexivity].
  subst n. apply aget_none_notin in NI. replace (aget s' nm) with (@None recorder) by (symmetry; exact NI). cbn. lia.
Qed.

Lemma dumps_step h s fl a es st' :
  counter_output km out -> (a = ADump \/ exists n, a = ADumpSingle n) ->
  cinv km h (s, fl) -> conc_step km (s, fl) a = Ok (es, st') ->
  cinv km h st' /\ exportedIn nm L out es + balance st' = balance (s, fl).
Proof.
  intros CO AA (ND & NDr & NDf & SS & FS) ST. cbn [fst snd] in *.
  assert (P : forall n r, In (n, r) s -> forall key m, In (key, m) r -> exists names, vshape km names (vals m)).
  { intros n r I key m J. specialize (NDr n). specialize (SS n key m). unfold recOf in *. rewrite (in_aget _ _ _ ND I) in *.
    destruct (SS (in_aget _ _ _ NDr J)) as (g0 & _ & _ & _ & _ & V). exists (mnames g0). exact V. }
  destruct AA as [->|(n & ->)]; cbn [conc_step] in ST; (destruct fl as [|? ?]; [|discriminate]).
  - unfold dump in ST. destruct (mapM _ s) as [ls| |] eqn:M; cbn [bind fst snd] in ST; try discriminate. inversion ST; subst es st'.
    split.
    + split; [unfold keys in *; cbn [fst]; rewrite map_map; exact ND|]. cbn [fst snd].
      split; [intros; rewrite recOf_reset; constructor|]. split; [constructor|].
      split; [intros n k m; rewrite recOf_reset; discriminate|]. intros id f; discriminate.
    + unfold balance. cbn [fst snd]. rewrite recOf_reset, (all_exported s ls CO ND P M). cbn [pend inflight map zsum fold_right]. lia.
  - unfold dumpSingle in ST. destruct (aget s n) as [r|] eqn:G.
    + destruct (dumpRecorder n r) as [gs| |] eqn:D; cbn [bind fst snd] in ST; try discriminate. inversion ST; subst es st'.
      split.
      * split; [apply NoDup_keys_aset; exact ND|]. cbn [fst snd].
        split; [intros x; rewrite recOf_aset; destruct (eqb x n); [constructor|apply NDr]|]. split; [constructor|].
        split; [|intros id f; discriminate].
        intros x k m. rewrite recOf_aset. destruct (eqb x n); [discriminate|apply SS].
      * unfold balance. cbn [fst snd].
        rewrite (recorder_exported n r gs CO (P n r (aget_in _ _ _ G)) D).
        rewrite recOf_aset, (eqb_sym n nm). case_eqb nm n.
        -- subst n. unfold recOf. rewrite G. cbn [pend inflight map zsum fold_right]. lia.
        -- lia.
    + cbn [bind fst snd] in ST. inversion ST; subst es st'. split; [|reflexivity].
      split; [exact ND|]. split; [exact NDr|]. split; [exact NDf|]. split; assumption.
Qed.

Lemma uniform_sub h h' : (forall x, In x h -> In x h') -> uniform h' -> uniform h.
Proof. intros I U g1 s1 g2 s2 A B. exact (U g1 s1 g2 s2 (I _ A) (I _ B)). Qed.

Lemma conc_conserves : counter_output km out ->
  forall l h st es st', uniform (h ++ calls l) -> cinv km h st -> conc_run km st l = Ok (es, st') ->
  eqm (exported nm L out es + balance st') (balance st + (fed km nm L out (h ++ calls l) - fed km nm L out h)).
Proof.
  intros CO. induction l as [|a l IH]; intros h st es st' U CI R; cbn [conc_run] in R.
  - inversion R; subst. cbn [calls flat_map]. rewrite app_nil_r. cbn [exported map zsum fold_right].
    apply (eqm_of 0). lia.
  - destruct (conc_step km st a) as [[e1 s1]| |] eqn:S1; cbn [bind fst snd] in R; try discriminate.
    destruct (conc_run km s1 l) as [[e2 s2]| |] eqn:R2; cbn [bind fst snd] in R; try discriminate.
    inversion R; subst es s2; clear R.
    set (o := match a with ABegin _ g sels => [OAgg g sels] | ADump => [ODump] | ADumpSingle n => [ODumpSingle n] | _ => [] end).
    assert (CE : calls (a :: l) = o ++ calls l) by reflexivity. rewrite CE in *. rewrite app_assoc in *.
    assert (ST : cinv km (h ++ o) s1 /\
                 eqm (exportedIn nm L out e1 + balance s1) (balance st + (fed km nm L out (h ++ o) - fed km nm L out h))).
    { destruct st as [s fl]. destruct a as [id g sels|id|id| |n]; cbn [o] in *; unfold o.
      - destruct (begin_step h s fl id g sels e1 s1) as (A & -> & C); [|exact CI|exact S1|].
        + eapply uniform_sub; [|exact U]. intros x I. apply in_or_app. left. exact I.
        + split; [exact A|]. exact C.
      - destruct (feed_step h s fl id e1 s1 CI S1) as (A & -> & C). rewrite app_nil_r. split; [exact A|].
        rewrite Z.sub_diag, Z.add_0_r. exact C.
      - destruct (end_step h s fl id e1 s1 CI S1) as (A & -> & C). rewrite app_nil_r. split; [exact A|].
        rewrite Z.sub_diag, Z.add_0_r. rewrite <- C. apply eqm_refl.
      - destruct (dumps_step h s fl ADump e1 s1 CO (or_introl eq_refl) CI S1) as (A & C).
        split; [eapply cinv_more; [|exact A]; intros x I; apply in_or_app; left; exact I|].
        rewrite fed_snoc, C. apply (eqm_of 0). lia.
      - destruct (dumps_step h s fl (ADumpSingle n) e1 s1 CO (or_intror (ex_intro _ n eq_refl)) CI S1) as (A & C).
        split; [eapply cinv_more; [|exact A]; intros x I; apply in_or_app; left; exact I|].
        rewrite fed_snoc, C. apply (eqm_of 0). lia. }
    destruct ST as [CI1 C1].
    assert (C2 := IH (h ++ o) s1 e2 st' U CI1 R2).
    unfold exported in *. cbn [map]. rewrite zsum_cons.
    destruct (eqm_ex _ _ C1) as (k1 & D1). destruct (eqm_ex _ _ C2) as (k2 & D2). apply (eqm_of (k1 + k2)). lia.
Qed.
End Step.

(** However concurrent Aggregate calls interleave with each other and with dumps, everything fed is exported exactly
    once: the final Dump can only run when no Aggregate is in progress. *)
Theorem C02_conserved_under_concurrency : forall km out nm L l es st,
  counter_output km out -> uniform (calls l) ->
  conc_run km ([], []) (l ++ [ADump]) = Ok (es, st) ->
  s64 (exported nm L out es) = s64 (fed km nm L out (calls l)).
Proof.
  intros km out nm L l es st CO U R.
  assert (CE : calls (l ++ [ADump]) = calls l ++ [ODump]) by (unfold calls; rewrite flat_map_app; reflexivity).
  assert (U' : uniform (calls (l ++ [ADump]))).
  { rewrite CE. intros g1 s1 g2 s2 I1 I2. apply in_app_or in I1. apply in_app_or in I2.
    destruct I1 as [I1|[I1|[]]]; [|discriminate]. destruct I2 as [I2|[I2|[]]]; [|discriminate]. exact (U g1 s1 g2 s2 I1 I2). }
  assert (C0 : cinv km [] ([], [])).
  { split; [constructor|]. split; [intros; constructor|]. split; [constructor|]. split; [intros n k m; discriminate|intros id f; discriminate]. }
  pose proof (conc_conserves km out nm L CO (l ++ [ADump]) [] ([], []) es st U' C0 R) as C.
  assert (B : balance km out nm L st = 0).
  { assert (G : forall l st0 es, conc_run km st0 (l ++ [ADump]) = Ok (es, st) -> exists s : agg_state, st = (map (fun p => (fst p, [])) s, [])).
    { clear. induction l as [|a l IH]; intros st0 es R; cbn [app conc_run] in R.
      - destruct (conc_step km st0 ADump) as [[e1 s1]| |] eqn:S1; cbn [bind fst snd] in R; try discriminate.
        inversion R; subst. destruct st0 as [s fl]. cbn [conc_step] in S1. destruct fl; [|discriminate].
        unfold dump in S1. destruct (mapM _ s); cbn [bind fst snd] in S1; try discriminate. inversion S1. exists s. reflexivity.
      - destruct (conc_step km st0 a) as [[e1 s1]| |]; cbn [bind fst snd] in R; try discriminate.
        destruct (conc_run km s1 (l ++ [ADump])) as [[e2 s2]| |] eqn:R2; cbn [bind fst snd] in R; try discriminate.
        inversion R; subst. eauto. }
    destruct (G l _ _ R) as (s & ->). unfold balance. cbn [fst snd]. rewrite recOf_reset. reflexivity. }
  cbn [app] in C. rewrite CE, fed_snoc, B in C. apply s64_eqm. destruct (eqm_ex _ _ C) as (k & D). apply (eqm_of k).
  change (balance km out nm L ([], [])) with 0 in D. change (fed km nm L out []) with 0 in D. lia.
Qed.
Print Assumptions C02_conserved_under_concurrency.

(** No call blocks half-way: an Aggregate in progress always has an enabled step of its own, given readings that its
    values accept. *)
Theorem C02_aggregate_always_progresses : forall km h s fl id f,
  cinv km h (s, fl) -> aget fl id = Some f ->
  (forall mn i d, In (mn, i, d) (f_todo f) -> exists x, d = MInt x) ->
  (exists st', conc_step km (s, fl) (AFeed id) = Ok ([], st')) \/
  (exists st', conc_step km (s, fl) (AEnd id) = Ok ([], st')).
Proof.
  intros km h s fl id f (ND & NDr & NDf & SS & FS) G IN. cbn [fst snd] in *. cbn [conc_step]. rewrite G.
  destruct (FS _ _ G) as (m & GM & T). destruct (f_todo f) as [|[[mn i] d] rest] eqn:TD.
  - right. eauto.
  - left. rewrite GM. inversion T as [|? ? (sl & GV & LT) T']; subst. cbn [fst snd] in *. rewrite GV. unfold feedAt.
    destruct (nth_error sl i) as [a|] eqn:NA; [|apply nth_error_None in NA; lia].
    destruct (IN mn i d (or_introl eq_refl)) as (x & ->). unfold feed.
    assert (exists c, feedCore (a_core a) (MInt x) = Ok c) as (c & ->) by (destruct (a_core a); cbn [feedCore]; eauto).
    cbn [bind]. eauto.
Qed.
Print Assumptions C02_aggregate_always_progresses.

(** Two calls on the same series, interleaved value by value. *)
Example conc_example :
  let km := [("dur"%string, [{| c_out := "sum"%string; c_kind := SumKind; c_bounds := [] |};
                             {| c_out := "cnt"%string; c_kind := CountKind; c_bounds := [] |}])] in
  let g x := {| gname := "net"%string; gmetrics := [("dur"%string, MInt x)]; glabels := []; gts := x |} in
  exists es st, conc_run km ([], []) ([ABegin 1 (g 4) []; ABegin 2 (g 7) []; AFeed 2; AFeed 1; AFeed 1; AEnd 1; AFeed 2; AEnd 2] ++ [ADump]) = Ok (es, st)
    /\ exported "net" [] "sum" es = 11 /\ exported "net" [] "cnt" es = 2.
Proof. eexists. eexists. split; [vm_compute; reflexivity|split; vm_compute; reflexivity]. Qed.
