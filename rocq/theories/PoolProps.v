(** C08: recycled data groups. *)
From Verif Require Import Base Decimal AttrModel AttrProofs PoolModel.

(** Specification: what a reader of a fresh group sees through the typed getters. *)
Definition reads_fresh (g : group) : Prop :=
  gname g = "net_request_metric_group"%string /\
  (forall k, asString (aget (glabels g) k) = [] /\ asInt (aget (glabels g) k) = 0 /\ asBool (aget (glabels g) k) = false) /\
  (forall n, In n ["connect_time"; "request_sent_time"; "waiting_ttfb_time"; "content_download_time";
                   "request_total_time"; "request_io"; "response_io"]%string -> getMetric g n = Some (MInt 0)) /\
  (forall n d, getMetric g n = Some d -> d = MInt 0 \/ d = MHist 0 0 [] []).

Lemma fresh_reads now : reads_fresh (createDataGroup now).
Proof.
  split; [reflexivity|]. split; [intros k; repeat split; reflexivity|]. split.
  - intros n I. cbn [In] in I. repeat (destruct I as [<-|I]; [reflexivity|]). destruct I.
  - intros n d G. unfold getMetric, createDataGroup in G. cbn [gmetrics] in G. apply aget_in in G.
    apply in_map_iff in G. destruct G as (x & E & _). inversion E. auto.
Qed.

(** every group always holds the seven metrics as integers *)
Definition has_seven (g : group) : Prop :=
  forall n, In n groupMetricNames -> exists v, getMetric g n = Some (MInt v).

Lemma aget_app {K V} `{Eqb K} (a b : list (K * V)) k :
  aget (a ++ b) k = match aget a k with Some v => Some v | None => aget b k end.
Proof. induction a as [|[k' v'] a IH]; [reflexivity|]. cbn [app aget]. destruct (eqb k k'); [reflexivity|exact IH]. Qed.

Lemma aget_map {K V W} `{Eqb K} (f : V -> W) (m : list (K * V)) k :
  aget (map (fun p => (fst p, f (snd p))) m) k = option_map f (aget m k).
Proof. induction m as [|[k' v] m IH]; [reflexivity|]. cbn [map aget fst snd]. destruct (eqb k k'); [reflexivity|exact IH]. Qed.

Lemma use_seven g u g' : has_seven g -> applyUse g u = Ok g' -> has_seven g'.
Proof.
  intros S E n I. destruct (S n I) as (v & G). unfold getMetric in *.
  destruct u; cbn [applyUse] in E; try (inversion E; subst; cbn [gmetrics withLabels]; eauto; fail).
  - inversion E; subst. cbn [gmetrics updateAddIntMetric]. rewrite aget_aset. destruct (eqb n n0); eauto.
  - inversion E; subst. cbn [gmetrics addMetric]. rewrite aget_app, G. eauto.
  - destruct (aget (glabels g) k) as [old|].
    + destruct (same_type old v0); inversion E; subst; cbn [gmetrics withLabels]; eauto.
    + inversion E; subst; cbn [gmetrics withLabels]; eauto.
Qed.

Lemma reset_seven g : has_seven g -> has_seven (resetGroup g).
Proof.
  intros S n I. destruct (S n I) as (v & G). unfold getMetric in *. cbn [gmetrics resetGroup].
  rewrite aget_map, G. cbn. eauto.
Qed.

Definition pinv (p : pool) : Prop :=
  (forall g, In g (objs p) -> has_seven g) /\
  (forall id, In id (free p) -> exists g, nth_error (objs p) id = Some g /\ reads_fresh g /\ gts g = 0) /\
  (forall id, In id (used p) -> (id < List.length (objs p))%nat) /\
  NoDup (free p ++ used p).

Lemma in_set_nth {A} (l : list A) n x y : In y (set_nth l n x) -> y = x \/ In y l.
Proof.
  revert n. induction l as [|a l IH]; intros [|n] I; cbn in *; try tauto.
  - destruct I; auto.
  - destruct I as [I|I]; [auto|]. apply IH in I. tauto.
Qed.

Lemma freed_reads g : has_seven g ->
  reads_fresh {| gname := netRequestGroup; gmetrics := gmetrics (resetGroup g); glabels := glabels (resetGroup g); gts := gts (resetGroup g) |}.
Proof.
  intros S. split; [reflexivity|]. split; [|split].
  - intros k. cbn [glabels resetGroup]. rewrite aget_map.
    destruct (aget (glabels g) k) as [[]|]; repeat split; reflexivity.
  - intros n I. destruct (S n I) as (v & G). unfold getMetric in *. cbn [gmetrics resetGroup]. rewrite aget_map, G. reflexivity.
  - intros n d. unfold getMetric. cbn [gmetrics resetGroup]. rewrite aget_map.
    destruct (aget (gmetrics g) n) as [[]|]; cbn; intros X; inversion X; auto.
Qed.

Lemma remove_nth_perm {A} (l : list A) n x : nth_error l n = Some x ->
  exists a b, l = a ++ x :: b /\ remove_nth l n = a ++ b.
Proof.
  intros E. apply nth_error_split in E. destruct E as (a & b & -> & L).
  exists a, b. split; [reflexivity|]. unfold remove_nth. subst n.
  rewrite firstn_app_exact by reflexivity. f_equal.
  replace (S (List.length a)) with (List.length (a ++ [x])) by (rewrite app_length; cbn; lia).
  change (a ++ x :: b) with (a ++ [x] ++ b). rewrite app_assoc. apply skipn_app_exact. reflexivity.
Qed.

Lemma existsb_nat_in id l : existsb (Nat.eqb id) l = true -> In id l.
Proof. intros E. apply existsb_exists in E. destruct E as (x & I & E). apply Nat.eqb_eq in E. subst. exact I. Qed.

Lemma NoDup_app_parts {A} (a b : list A) : NoDup (a ++ b) <-> NoDup a /\ NoDup b /\ forall x, In x a -> ~ In x b.
Proof.
  induction a as [|x a IH]; cbn [app].
  - split; [intros H; repeat split; [constructor|exact H|intros ? []]|tauto].
  - split.
    + intros H. inversion H as [|? ? NI ND]; subst. apply IH in ND. destruct ND as (A1 & B1 & C1).
      repeat split; [constructor; [|assumption]|assumption|].
      * intros I. apply NI. apply in_or_app. auto.
      * intros y [->|I]; [|apply C1; assumption]. intros I. apply NI. apply in_or_app. auto.
    + intros (A1 & B1 & C1). inversion A1 as [|? ? NI ND]; subst. constructor.
      * intros I. apply in_app_or in I. destruct I as [I|I]; [contradiction|]. eapply C1; [left; reflexivity|exact I].
      * apply IH. repeat split; auto. intros y I. apply C1. right. exact I.
Qed.

Lemma pstep_inv p o p' r : pinv p -> pstep p o = Ok (p', r) -> pinv p'.
Proof.
  intros (I1 & I2 & I3 & I4) S. destruct o as [[n|] now|id u|id]; cbn [pstep] in S.
  - destruct (nth_error (free p) n) as [id|] eqn:E; [|discriminate]. inversion S; subst p' r; clear S.
    destruct (remove_nth_perm _ _ _ E) as (a & b & F & RR).
    assert (IF : In id (free p)) by (rewrite F; apply in_or_app; right; left; reflexivity).
    repeat split; cbn [objs free used].
    + exact I1.
    + intros x I. apply I2. rewrite F. rewrite RR in I. apply in_app_or in I. apply in_or_app. destruct I; [left|right; right]; assumption.
    + intros x [<-|I]; [|auto]. destruct (I2 _ IF) as (g & G & _). eapply nth_lt; eassumption.
    + rewrite RR. rewrite F in I4. rewrite <- app_assoc in I4. cbn [app] in I4.
      apply NoDup_remove in I4. destruct I4 as [ND NI].
      apply NoDup_app_parts. rewrite app_assoc in ND, NI. apply NoDup_app_parts in ND. destruct ND as (A & B & C).
      repeat split; [assumption| |].
      * constructor; [|assumption]. intros I. apply NI. apply in_or_app. right. exact I.
      * intros x Hx [<-|Hu]; [|eapply C; eassumption]. apply NI. apply in_or_app. left. exact Hx.
  - inversion S; subst p' r; clear S. repeat split; cbn [objs free used].
    + intros g I. apply in_app_or in I. destruct I as [I|[<-|[]]]; [auto|].
      intros n In0. destruct (fresh_reads now) as (_ & _ & F & _). exists 0. apply F. exact In0.
    + intros id I. destruct (I2 _ I) as (g & G & RF). exists g. split; [|assumption].
      rewrite nth_error_app1; [assumption|eapply nth_lt; eassumption].
    + intros id. rewrite app_length. cbn [List.length]. intros [<-|I]; [lia|]. apply I3 in I. lia.
    + apply NoDup_app_parts in I4. destruct I4 as (A & B & C). apply NoDup_app_parts. repeat split; [assumption| |].
      * constructor; [|assumption]. intros I. apply I3 in I. lia.
      * intros x Hx [<-|Hu]; [|eapply C; eassumption].
        destruct (I2 _ Hx) as (g & G & _). apply nth_lt in G. lia.
  - destruct (existsb (Nat.eqb id) (used p)) eqn:U; [|discriminate]. apply existsb_nat_in in U.
    destruct (nth_error (objs p) id) as [g|] eqn:G; [|discriminate].
    destruct (applyUse g u) as [g'| |] eqn:A; try discriminate. inversion S; subst p' r; clear S.
    assert (NF : ~ In id (free p)).
    { apply NoDup_app_parts in I4. destruct I4 as (_ & _ & C). intros I. eapply C; eassumption. }
    repeat split; cbn [objs free used].
    + intros x I. apply in_set_nth in I. destruct I as [->|I]; [|auto].
      eapply use_seven; [|exact A]. apply I1. eapply nth_error_In; eassumption.
    + intros x I. destruct (I2 _ I) as (g0 & G0 & RF). exists g0. split; [|assumption].
      rewrite nth_set_other; [assumption|]. intros ->. contradiction.
    + intros x I. rewrite set_nth_length. auto.
    + assumption.
  - destruct (existsb (Nat.eqb id) (used p)) eqn:U; [|discriminate]. apply existsb_nat_in in U.
    destruct (nth_error (objs p) id) as [g|] eqn:G; [|discriminate]. inversion S; subst p' r; clear S.
    pose proof (nth_lt _ _ _ G) as LG.
    assert (SG : has_seven g) by (apply I1; eapply nth_error_In; eassumption).
    apply NoDup_app_parts in I4. destruct I4 as (A & B & C).
    repeat split; cbn [objs free used].
    + intros x I. apply in_set_nth in I. destruct I as [->|I]; [|auto]. apply (reset_seven g SG).
    + intros x I. destruct (Nat.eq_dec x id) as [->|N].
      * eexists. split; [apply nth_set_same; assumption|]. split; [apply freed_reads; assumption|reflexivity].
      * destruct I as [I|I]; [congruence|]. destruct (I2 _ I) as (g0 & G0 & RF). exists g0. split; [|assumption].
        rewrite nth_set_other; assumption.
    + intros x I. rewrite set_nth_length. apply filter_In in I. apply I3. tauto.
    + apply (proj2 (NoDup_app_parts (id :: free p) _)). repeat split.
      * constructor; [|assumption]. intros I. eapply C; eassumption.
      * apply NoDup_filter. assumption.
      * intros x Hx Hu. apply filter_In in Hu. destruct Hu as [Hu Q]. apply negb_true_iff, Nat.eqb_neq in Q.
        destruct Hx as [->|Hx]; [congruence|]. eapply C; eassumption.
Qed.

Lemma prun_inv os : forall p p', pinv p -> prun p os = Ok p' -> pinv p'.
Proof.
  induction os as [|o os IH]; intros p p' I R; cbn [prun] in R.
  - inversion R; subst. assumption.
  - destruct (pstep p o) as [[p1 r]| |] eqn:S; try discriminate. eapply IH; [|exact R]. eapply pstep_inv; eassumption.
Qed.

Lemma pempty_inv : pinv pempty.
Proof. repeat split; cbn; try tauto. constructor. Qed.

(** Whatever was done with the pooled groups before, the group handed out by the next Get reads like a fresh one,
    carries no earlier timestamp, and nobody else holds it. *)
Theorem C08_reads_fresh : forall os p choice now p' id,
  prun pempty os = Ok p -> pstep p (PGet choice now) = Ok (p', Some id) ->
  (exists g, nth_error (objs p') id = Some g /\ reads_fresh g /\ gts g = match choice with Some _ => 0 | None => now end) /\
  ~ In id (used p).
Proof.
  intros os p choice now p' id R S. pose proof (prun_inv os _ _ pempty_inv R) as (I1 & I2 & I3 & I4).
  apply NoDup_app_parts in I4. destruct I4 as (_ & _ & C).
  destruct choice as [n|]; cbn [pstep] in S.
  - destruct (nth_error (free p) n) as [x|] eqn:E; [|discriminate]. inversion S; subst. cbn [objs].
    apply nth_error_In in E. split; [apply I2; exact E|]. apply C. exact E.
  - inversion S; subst. cbn [objs]. split.
    + exists (createDataGroup now). rewrite nth_snoc, Nat.eqb_refl. split; [reflexivity|split; [apply fresh_reads|reflexivity]].
    + intros I. apply I3 in I. lia.
Qed.
Print Assumptions C08_reads_fresh.

Example C08_reads_fresh_meets : exists p p' , 
  prun pempty [PGet None 5; PUse 0 (UUpd "pid" (IV 12)); PUse 0 (UMetric "request_io" 99); PUse 0 (UMerge [("sql"%string, SV (bs "select 1"))]);
               PUse 0 (UName "single"); PFree 0] = Ok p /\
  pstep p (PGet (Some 0%nat) 6) = Ok (p', Some 0%nat).
Proof. eexists. eexists. split; reflexivity. Qed.

(** Finding: a recycled group still lists the label names of its previous use (with zero values), so through
    GetValues, HasAttribute, Size or the string form it does not look fresh. *)
Theorem C08_recycled_has_no_stale_names_refuted :
  exists os p p' id g, prun pempty os = Ok p /\ pstep p (PGet (Some 0%nat) 9) = Ok (p', Some id) /\
    nth_error (objs p') id = Some g /\ glabels g <> [].
Proof.
  exists [PGet None 5; PUse 0 (UMerge [("sql"%string, SV (bs "select 1"))]); PFree 0].
  eexists. eexists. exists 0%nat. eexists. split; [reflexivity|]. split; [reflexivity|]. split; [reflexivity|].
  vm_compute. discriminate.
Qed.
Print Assumptions C08_recycled_has_no_stale_names_refuted.

(** Label names a recycled group still lists were put there by an earlier use of that same group. *)
Definition putsName (k : string) (u : use) : bool :=
  match u with
  | UUpd k' _ => String.eqb k k'
  | UAdd k' _ => String.eqb k k'
  | UMerge l => existsb (fun p => String.eqb k (fst p)) l
  | _ => false
  end.

Lemma ahas_map {V W} (f : V -> W) (m : list (string * V)) k :
  aget (map (fun p => (fst p, f (snd p))) m) k = None <-> aget m k = None.
Proof. rewrite aget_map. destruct (aget m k); split; intros; try discriminate; reflexivity. Qed.

Lemma use_names g u g' k : applyUse g u = Ok g' -> putsName k u = false ->
  aget (glabels g) k = None -> aget (glabels g') k = None.
Proof.
  intros E P N. destruct u; cbn [applyUse putsName] in *; try (inversion E; subst; cbn [glabels withLabels updateAddIntMetric addMetric]; auto; fail).
  - assert (X : g' = withLabels g (aset (glabels g) k0 v)).
    { destruct (aget (glabels g) k0) as [old|]; [destruct (same_type old v)|]; inversion E; reflexivity. }
    subst. cbn [glabels withLabels]. rewrite aget_aset. cbn. rewrite P. exact N.
  - inversion E; subst. cbn [glabels withLabels]. rewrite aget_aset. cbn. rewrite P. exact N.
  - inversion E; subst. cbn [glabels withLabels]. clear E. revert N P. generalize (glabels g).
    induction attrs as [|[k1 v1] l IH]; intros m N P; [exact N|]. cbn [fold_left fst snd existsb] in *.
    apply orb_false_iff in P. destruct P as [P1 P2]. apply IH; [|exact P2].
    rewrite aget_aset. cbn. rewrite P1. exact N.
  - inversion E; subst. cbn [glabels withLabels]. rewrite aget_adel. destruct (eqb k k0); auto.
Qed.

Theorem C08_stale_names_were_written : forall os p id g k,
  prun pempty os = Ok p -> nth_error (objs p) id = Some g ->
  aget (glabels g) k <> None ->
  exists u, In (PUse id u) os /\ putsName k u = true.
Proof.
  assert (G : forall os p0 p id g k, prun p0 os = Ok p -> nth_error (objs p) id = Some g ->
     aget (glabels g) k <> None ->
     (exists u, In (PUse id u) os /\ putsName k u = true) \/ (exists g0, nth_error (objs p0) id = Some g0 /\ aget (glabels g0) k <> None)).
  { induction os as [|o os IH]; intros p0 p id g k R E N; cbn [prun] in R.
    - inversion R; subst. right. eauto.
    - destruct (pstep p0 o) as [[p1 r]| |] eqn:S; try discriminate.
      destruct (IH _ _ _ _ _ R E N) as [(u & I & P)|(g1 & E1 & N1)]; [left; exists u; split; [right; exact I|exact P]|].
      destruct o as [[n|] now|id' u|id']; cbn [pstep] in S.
      + destruct (nth_error (free p0) n); [|discriminate]. inversion S; subst. right. eauto.
      + inversion S; subst. cbn [objs] in E1. rewrite nth_snoc in E1.
        destruct (Nat.eqb id (List.length (objs p0))); [|right; eauto]. inversion E1; subst. cbn in N1. congruence.
      + destruct (existsb (Nat.eqb id') (used p0)); [|discriminate].
        destruct (nth_error (objs p0) id') as [g0|] eqn:G0; [|discriminate].
        destruct (applyUse g0 u) as [g'| |] eqn:A; try discriminate. inversion S; subst. cbn [objs] in E1.
        destruct (Nat.eq_dec id id') as [->|D].
        * rewrite nth_set_same in E1 by (eapply nth_lt; eassumption). inversion E1; subst g1.
          destruct (putsName k u) eqn:P.
          -- left. exists u. split; [left; reflexivity|exact P].
          -- right. exists g0. split; [assumption|]. intros X. apply N1. eapply use_names; eassumption.
        * rewrite nth_set_other in E1 by assumption. right. eauto.
      + destruct (existsb (Nat.eqb id') (used p0)); [|discriminate].
        destruct (nth_error (objs p0) id') as [g0|] eqn:G0; [|discriminate]. inversion S; subst. cbn [objs] in E1.
        destruct (Nat.eq_dec id id') as [->|D].
        * rewrite nth_set_same in E1 by (eapply nth_lt; eassumption). inversion E1; subst g1.
          cbn [glabels resetGroup] in N1. right. exists g0. split; [assumption|].
          intros X. apply N1. apply ahas_map. exact X.
        * rewrite nth_set_other in E1 by assumption. right. eauto. }
  intros os p id g k R E N. destruct (G _ _ _ _ _ _ R E N) as [X|(g0 & E0 & _)]; [exact X|].
  destruct id; discriminate.
Qed.
Print Assumptions C08_stale_names_were_written.

(** The converse of the type panic: if every label name is always written with one type, no use ever panics. *)
Definition typed_use (ty : string -> aval) (u : use) : Prop :=
  match u with
  | UUpd k v => same_type v (ty k) = true
  | UAdd k v => same_type v (ty k) = true
  | UMerge l => forall k v, In (k, v) l -> same_type v (ty k) = true
  | _ => True
  end.

Lemma same_type_trans a b c : same_type a c = true -> same_type b c = true -> same_type a b = true.
Proof. destruct a, b, c; cbn; congruence. Qed.
Lemma zero_type a c : same_type (zero_of a) c = same_type a c.
Proof. destruct a, c; reflexivity. Qed.

Definition typed_labels (ty : string -> aval) (l : list (string * aval)) : Prop :=
  forall k v, aget l k = Some v -> same_type v (ty k) = true.

Lemma typed_aset ty l k v : typed_labels ty l -> same_type v (ty k) = true -> typed_labels ty (aset l k v).
Proof. intros T S x y. rewrite aget_aset. case_eqb x k; [intros X; inversion X; subst; assumption|apply T]. Qed.

Lemma use_typed ty g u : typed_labels ty (glabels g) -> typed_use ty u ->
  exists g', applyUse g u = Ok g' /\ typed_labels ty (glabels g').
Proof.
  intros T TU. destruct u; cbn [applyUse typed_use] in *; try (eexists; split; [reflexivity|exact T]).
  - destruct (aget (glabels g) k) as [old|] eqn:E.
    + rewrite (same_type_trans old v (ty k)) by auto. eexists. split; [reflexivity|]. apply typed_aset; assumption.
    + eexists. split; [reflexivity|]. apply typed_aset; assumption.
  - eexists. split; [reflexivity|]. apply typed_aset; assumption.
  - eexists. split; [reflexivity|]. cbn [glabels withLabels]. revert T TU. generalize (glabels g).
    induction attrs as [|[k v] l IH]; intros m T TU; [exact T|]. cbn [fold_left fst snd]. apply IH.
    + apply typed_aset; [assumption|]. apply TU. left. reflexivity.
    + intros x y I. apply TU. right. exact I.
  - eexists. split; [reflexivity|]. cbn [glabels withLabels]. intros x y. rewrite aget_adel.
    destruct (eqb x k); [discriminate|apply T].
Qed.

Theorem C08_no_panic_when_typed : forall ty os,
  (forall id u, In (PUse id u) os -> typed_use ty u) -> prun pempty os <> Panic.
Proof.
  intros ty os TU.
  assert (G : forall os p, (forall id u, In (PUse id u) os -> typed_use ty u) ->
     (forall g, In g (objs p) -> typed_labels ty (glabels g)) -> prun p os <> Panic).
  { clear. induction os as [|o os IH]; intros p TU T; cbn [prun]; [discriminate|].
    destruct (pstep p o) as [[p1 r]| |] eqn:S; [|discriminate|].
    - apply IH; [intros id u I; apply (TU id); right; exact I|].
      destruct o as [[n|] now|id u|id]; cbn [pstep] in S.
      + destruct (nth_error (free p) n); [|discriminate]. inversion S; subst. exact T.
      + inversion S; subst. cbn [objs]. intros g I. apply in_app_or in I. destruct I as [I|[<-|[]]]; [auto|].
        intros x y. discriminate.
      + destruct (existsb (Nat.eqb id) (used p)); [|discriminate].
        destruct (nth_error (objs p) id) as [g0|] eqn:G0; [|discriminate].
        destruct (use_typed ty g0 u) as (g' & A & T').
        { apply T. eapply nth_error_In; eassumption. } { apply (TU id). left. reflexivity. }
        rewrite A in S. inversion S; subst. cbn [objs]. intros x I. apply in_set_nth in I. destruct I as [->|I]; auto.
      + destruct (existsb (Nat.eqb id) (used p)); [|discriminate].
        destruct (nth_error (objs p) id) as [g0|] eqn:G0; [|discriminate]. inversion S; subst. cbn [objs].
        intros x I. apply in_set_nth in I. destruct I as [->|I]; [|auto].
        intros k v. cbn [glabels resetGroup]. rewrite aget_map. destruct (aget (glabels g0) k) as [a|] eqn:Ea; cbn; [|discriminate].
        intros X; inversion X. rewrite zero_type. eapply (T g0); [eapply nth_error_In; eassumption|exact Ea].
    - exfalso. destruct o as [[n|] now|id u|id]; cbn [pstep] in S.
      + destruct (nth_error (free p) n); discriminate.
      + discriminate.
      + destruct (existsb (Nat.eqb id) (used p)); [|discriminate].
        destruct (nth_error (objs p) id) as [g0|] eqn:G0; [|discriminate].
        destruct (use_typed ty g0 u) as (g' & A & T').
        { apply T. eapply nth_error_In; eassumption. } { apply (TU id). left. reflexivity. }
        rewrite A in S. discriminate.
      + destruct (existsb (Nat.eqb id) (used p)); [|discriminate].
        destruct (nth_error (objs p) id); discriminate. }
  apply G; [exact TU|]. intros g [].
Qed.
Print Assumptions C08_no_panic_when_typed.
