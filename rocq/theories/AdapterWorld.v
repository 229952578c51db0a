(** The pools of the converters, over every history of an exporter. *)
From Verif Require Import Base Decimal AttrModel AttrProofs PoolModel LabelNames EnrichModel AdapterModel AdapterProofs AdapterSpec.
From Coq Require Import Permutation Sorting.Sorted.
Open Scope string_scope. Open Scope list_scope. Open Scope Z_scope.

(** ** The ten converters *)
Record shape := { s_base : list dict; s_extra : list (Z * list dict); s_val : vfun; s_adj : list adjust }.
Definition shapes : list shape :=
  [{| s_base := entityMetricDicList; s_extra := entityProtocol; s_val := VNone; s_adj := [] |};
   {| s_base := entityMetricDicList ++ isSlowDicList; s_extra := entityProtocol; s_val := VNone; s_adj := [] |};
   {| s_base := entityMetricDicList ++ entityInstanceMetricDicList ++ entityDetailMetricDicList; s_extra := entityProtocol; s_val := VNone; s_adj := [] |};
   {| s_base := entityMetricDicList ++ entityInstanceMetricDicList ++ entityDetailMetricDicList ++ isSlowDicList; s_extra := entityProtocol;
      s_val := VNone; s_adj := [] |};
   {| s_base := topologyMetricDicList; s_extra := topologyProtocol; s_val := VNone; s_adj := [ARemoveDstPod] |};
   {| s_base := topologyMetricDicList ++ isSlowDicList; s_extra := topologyProtocol; s_val := VNone; s_adj := [ARemoveDstPod] |};
   {| s_base := topologyMetricDicList ++ topologyInstanceMetricDicList ++ topologyDetailMetricDicList; s_extra := topologyProtocol; s_val := VNone;
      s_adj := [AReplaceByDnat] |};
   {| s_base := topologyMetricDicList ++ topologyInstanceMetricDicList ++ topologyDetailMetricDicList ++ isSlowDicList; s_extra := topologyProtocol;
      s_val := VNone; s_adj := [AReplaceByDnat] |};
   {| s_base := topologyMetricDicList ++ topologyInstanceMetricDicList ++ SpanDicList ++ dNatDicList; s_extra := spanProtocol; s_val := VSpan; s_adj := [] |};
   {| s_base := topologyMetricDicList ++ topologyInstanceMetricDicList ++ topologyDetailMetricDicList ++ dNatDicList; s_extra := entityProtocol;
      s_val := VStatus; s_adj := [] |}].
Definition build (cl : list (string * aval)) (s : shape) : converter :=
  {| c_real := fold_left (fun m p => aset m (fst p) (buildOne (s_base s ++ snd p) (vkeys (s_val s)) cl)) (s_extra s) []; c_val := s_val s; c_adj := s_adj s |}.
Lemma manager_eq cl : manager cl = map (build cl) shapes.
Proof. reflexivity. Qed.

Fixpoint nodupb {A} `{Eqb A} (l : list A) : bool := match l with [] => true | x :: l' => negb (existsb (eqb x) l') && nodupb l' end.
Lemma existsb_in {A} `{Eqb A} (x : A) l : existsb (eqb x) l = true <-> In x l.
Proof.
  rewrite existsb_exists. split.
  - intros (y & I & E). apply eqb_true in E. subst. exact I.
  - intros I. exists x. split; [exact I|apply eqb_refl].
Qed.
Lemma nodupb_ok {A} `{Eqb A} (l : list A) : nodupb l = true -> NoDup l.
Proof.
  induction l as [|x l IH]; cbn [nodupb]; intros E; [constructor|]. apply andb_prop in E. destruct E as [E1 E2].
  constructor; [|apply IH; exact E2]. intros I. apply existsb_in in I. rewrite I in E1. discriminate.
Qed.
Definition checkShape (s : shape) : bool :=
  nodupb (map fst (s_extra s)) && existsb (eqb pUNSUPPORTED) (map fst (s_extra s)) &&
  forallb (fun k => existsb (eqb k) (map newKey (s_base s))) (flat_map adjKeys (s_adj s)) &&
  forallb (fun p => forallb (fun k => existsb (eqb k) reserved) (wkeys (s_base s ++ snd p) (vkeys (s_val s)))) (s_extra s) &&
  forallb (fun p => (match s_val s with VSpan => eqb (fst p) pREDIS | _ => false end) || nodupb (wkeys (s_base s ++ snd p) (vkeys (s_val s)))) (s_extra s).
Lemma checked : forall s, In s shapes -> checkShape s = true.
Proof. apply forallb_forall. vm_compute. reflexivity. Qed.

Section Shape.
  Context (s : shape) (Hs : In s shapes).
  Lemma extra_nodup : NoDup (map fst (s_extra s)).
  Proof. assert (C := checked s Hs). unfold checkShape in C. repeat (apply andb_prop in C; destruct C as [C ?]). apply nodupb_ok. assumption. Qed.
  Lemma extra_unsupported : exists e, aget (s_extra s) pUNSUPPORTED = Some e.
  Proof.
    assert (C := checked s Hs). unfold checkShape in C. repeat (apply andb_prop in C; destruct C as [C ?]).
    destruct (aget (s_extra s) pUNSUPPORTED) as [e|] eqn:E; [eauto|]. exfalso.
    apply (proj1 (aget_none_notin _ _)) in E. apply E. apply existsb_in. assumption.
  Qed.
  Lemma adj_in_base k e : In k (flat_map adjKeys (s_adj s)) -> In k (wkeys (s_base s ++ e) (vkeys (s_val s))).
  Proof.
    intros I. assert (C := checked s Hs). unfold checkShape in C. repeat (apply andb_prop in C; destruct C as [C ?]).
    rewrite forallb_forall in H1. specialize (H1 k I). apply existsb_in in H1.
    unfold wkeys. rewrite map_app, !in_app_iff. auto.
  Qed.
  Lemma keys_reserved k e x : aget (s_extra s) k = Some e -> In x (wkeys (s_base s ++ e) (vkeys (s_val s))) -> In x reserved.
  Proof.
    intros G I. assert (C := checked s Hs). unfold checkShape in C. repeat (apply andb_prop in C; destruct C as [C ?]).
    rewrite forallb_forall in H0. specialize (H0 (k, e) (aget_in _ _ _ G)). cbn [snd] in H0. rewrite forallb_forall in H0.
    specialize (H0 x I). apply existsb_in in H0. exact H0.
  Qed.
  Lemma wkeys_nodup k e : aget (s_extra s) k = Some e -> (s_val s = VSpan -> k <> pREDIS) -> NoDup (wkeys (s_base s ++ e) (vkeys (s_val s))).
  Proof.
    intros G R. assert (C := checked s Hs). unfold checkShape in C. repeat (apply andb_prop in C; destruct C as [C ?]).
    rewrite forallb_forall in H. specialize (H (k, e) (aget_in _ _ _ G)). cbn [fst snd] in H. apply Bool.orb_prop in H. destruct H as [H|H].
    - exfalso. destruct (s_val s); [discriminate| |discriminate]. apply eqb_true in H. exact (R eq_refl H).
    - apply nodupb_ok. exact H.
  Qed.
End Shape.

Definition found (s : shape) (m : labels) : Z :=
  let k := updateProtocolKey m in if ahas (s_extra s) k then k else pUNSUPPORTED.
Lemma real_get cl s k : In s shapes ->
  aget (c_real (build cl s)) k = match aget (s_extra s) k with Some e => Some (buildOne (s_base s ++ e) (vkeys (s_val s)) cl) | None => None end.
Proof.
  intros Hs. assert (N := extra_nodup s Hs). cbn [build c_real].
  assert (G : forall l m, NoDup (map fst l) -> (forall x, In x (map fst l) -> aget m x = None) ->
    aget (fold_left (fun m p => aset m (fst p) (buildOne (s_base s ++ snd p) (vkeys (s_val s)) cl)) l m) k =
    match aget l k with Some e => Some (buildOne (s_base s ++ e) (vkeys (s_val s)) cl) | None => aget m k end).
  { induction l as [|[x e] l IH]; intros m ND Hm; cbn [fold_left aget fst snd map] in *; [reflexivity|].
    inversion ND as [|? ? NI ND']; subst. rewrite IH; [|exact ND'|].
    - case_eqb k x.
      + subst. rewrite (proj2 (aget_none_notin l x)) by exact NI. apply aget_aset_same.
      + destruct (aget l k); [reflexivity|]. apply aget_aset_other. congruence.
    - intros y Iy. rewrite aget_aset_other; [apply Hm; right; exact Iy|]. intros ->. contradiction. }
  rewrite G; [|exact N|reflexivity]. destruct (aget (s_extra s) k); reflexivity.
Qed.
Lemma search_ok cl s m : In s shapes ->
  exists e, aget (s_extra s) (found s m) = Some e /\ searchExtra (build cl s) m = Some (found s m, buildOne (s_base s ++ e) (vkeys (s_val s)) cl).
Proof.
  intros Hs. unfold searchExtra, found, ahas. rewrite !(real_get cl s _ Hs).
  destruct (aget (s_extra s) (updateProtocolKey m)) as [e|] eqn:E.
  - exists e. split; [exact E|reflexivity].
  - destruct (extra_unsupported s Hs) as (e & Eu). exists e. rewrite Eu. split; reflexivity.
Qed.

(** ** Value labels *)
Definition sixNames : list string := [LbRequestSentNs; LbWaitingTTfbNs; LbContentDownloadNs; LbRequestTotalNs; LbRequestIoBytes; LbResponseIoBytes].
Definition slotsOK (l : list kv) : Prop := Forall2 (fun k p => p = ("", None) \/ exists v, p = (k, Some v)) sixNames l.
Lemma spanValues_ok ms : forall l l', slotsOK l -> spanValues ms l = Ok l' -> slotsOK l'.
Proof.
  induction ms as [|[n d] ms IH]; intros l l' S H; cbn [spanValues] in H; [inversion H; subst; exact S|].
  destruct (spanSlot n) as [[i k]|] eqn:E; [|exact (IH _ _ S H)].
  destruct (intVal d) as [v| |]; cbn [bind] in H; try discriminate. refine (IH _ _ _ H). clear H.
  unfold slotsOK, sixNames in *. repeat match goal with H : Forall2 _ (_ :: _) _ |- _ => inversion H; clear H; subst | H : Forall2 _ [] _ |- _ => inversion H; clear H; subst end.
  unfold spanSlot in E.
  repeat (match goal with H : context [if ?c then _ else _] |- _ => destruct c end;
          [inversion E; subst; cbn [set_nth]; repeat (apply Forall2_cons || apply Forall2_nil); try assumption; right; eexists; reflexivity|]). discriminate.
Qed.
Lemma vlabels_ok v g vl : vlabels v g = Ok vl -> Forall2 (fun k p => p = ("", None) \/ exists w, p = (k, Some w)) (vkeys v) vl.
Proof.
  destruct v; cbn [vlabels vkeys]; intros H.
  - inversion H. constructor.
  - unfold getTraceSpanStatusLabels in H. destruct (spanValues (gmetrics g) (repeat ("", None) 6)) as [l| |] eqn:E; cbn [bind] in H; try discriminate.
    inversion H; subst. change traceSpanStatus with (sixNames ++ [LIsServer; LIsError; LIsSlow; LbIsConvergent; LbTimestamp]).
    apply Forall2_app; [|repeat (apply Forall2_cons || apply Forall2_nil); right; eexists; reflexivity].
    apply (spanValues_ok _ _ _ ltac:(cbn [repeat]; unfold slotsOK, sixNames; repeat (apply Forall2_cons || apply Forall2_nil); left; reflexivity) E).
  - unfold getTraceStatusLabels in H. destruct (statusValues (gmetrics g) 0 0 0 0) as [[[[a b] c] d]| |]; cbn [bind] in H; try discriminate.
    inversion H; subst. repeat (apply Forall2_cons || apply Forall2_nil); right; eexists; reflexivity.
Qed.
Lemma vlabels_len v g vl : vlabels v g = Ok vl -> List.length (vkeys v) = List.length vl.
Proof. intros H. apply vlabels_ok in H. induction H; cbn [List.length]; congruence. Qed.
Lemma vlabels_keys v g vl : vlabels v g = Ok vl -> forall k, In k (map fst vl) ->
  In k (vkeys v) \/ ~ In (Some k) (map (fun p : kv => match snd p with Some _ => Some (fst p) | None => None end) vl).
Proof.
  intros H k _. apply vlabels_ok in H. destruct (in_dec string_dec k (vkeys v)) as [I|N]; [auto|]. right. intros X. apply N.
  clear N. induction H as [|x p xs ps Hp H IH]; cbn [map] in X; [destruct X|]. destruct X as [X|X].
  - destruct Hp as [->|(w & ->)]; cbn in X; [discriminate|]. inversion X. left. reflexivity.
  - right. apply IH. exact X.
Qed.

(** ** The pools *)
Section World.
  Context (cl : list (string * aval)) (cfg : config).

  Definition listAt (h : home) (l : list kv) : Prop :=
    forall s e, nth_error shapes (fst h) = Some s -> aget (s_extra s) (snd h) = Some e -> listOK (s_base s ++ e) (vkeys (s_val s)) cl l.
  Definition mapAt (h : home) (m : labels) : Prop :=
    forall s e, nth_error shapes (fst h) = Some s -> aget (s_extra s) (snd h) = Some e -> mapOK (s_base s ++ e) (vkeys (s_val s)) cl m.
  Definition poolsOK (p : pools) : Prop :=
    (forall h l, In l (getAll (p_lists p) h) -> listAt h l) /\ (forall h m, In m (getAll (p_maps p) h) -> mapAt h m).
  Definition attrsAt (h : home) (a : attrs) : Prop := match a with AList l => listAt h l | AMap m => mapAt h m end.
  Definition resOK (r : result) : Prop := match res_home r with Some h => attrsAt h (res_attrs r) | None => True end.

  Lemma in_dropAt {A} (l : list A) : forall i x, In x (dropAt l i) -> In x l.
  Proof. induction l as [|y l IH]; intros [|i] x I; cbn [dropAt] in I; try exact I; [right; exact I|]. destruct I as [<-|I]; [left; reflexivity|right; eapply IH; exact I]. Qed.
  Lemma getAll_aset {A} (t : list (home * list A)) h v h' : getAll (aset t h v) h' = if eqb h' h then v else getAll t h'.
  Proof. unfold getAll. rewrite aget_aset. destruct (eqb h' h); reflexivity. Qed.
  Lemma getAll_drop {A} (t : list (home * list A)) h i h' x : In x (getAll (aset t h (dropAt (getAll t h) i)) h') -> In x (getAll t h').
  Proof. rewrite getAll_aset. case_eqb h' h; [|tauto]. subst. apply in_dropAt. Qed.

  Definition realAt (h : home) (r : real) : Prop :=
    forall s e, nth_error shapes (fst h) = Some s -> aget (s_extra s) (snd h) = Some e -> r = buildOne (s_base s ++ e) (vkeys (s_val s)) cl.
  Lemma takeList_ok p h r p' l : realAt h r -> poolsOK p -> takeList p h r = (p', l) -> poolsOK p' /\ listAt h l.
  Proof.
    intros R [PL PM] H.
    assert (T : listAt h (r_list r)) by (intros s e Hs He; rewrite (R s e Hs He); apply template_list).
    unfold takeList in H. destruct (nextChoice p) as [[|i] rest].
    - inversion H; subst. split; [split; assumption|exact T].
    - destruct (nth_error (getAll (p_lists p) h) i) as [l0|] eqn:E; inversion H; subst.
      + split; [split; [|exact PM]|].
        * intros h' x I. cbn [p_lists] in I. apply PL. eapply getAll_drop. exact I.
        * apply PL. eapply nth_error_In. exact E.
      + split; [split; assumption|exact T].
  Qed.
  Lemma takeMap_ok p h r p' m : realAt h r -> poolsOK p -> takeMap p h r = (p', m) -> poolsOK p' /\ mapAt h m.
  Proof.
    intros R [PL PM] H.
    assert (T : mapAt h (r_map r)) by (intros s e Hs He; rewrite (R s e Hs He); apply template_map).
    unfold takeMap in H. destruct (nextChoice p) as [[|i] rest].
    - inversion H; subst. split; [split; assumption|exact T].
    - destruct (nth_error (getAll (p_maps p) h) i) as [l0|] eqn:E; inversion H; subst.
      + split; [split; [exact PL|]|].
        * intros h' x I. cbn [p_maps] in I. apply PM. eapply getAll_drop. exact I.
        * apply PM. eapply nth_error_In. exact E.
      + split; [split; assumption|exact T].
  Qed.

  Definition tableOf (s : shape) (e : list dict) (m : labels) (vl : list kv) : list kv :=
    adjusted (s_adj s) m (rawTable m (s_base s ++ e) (vkeys (s_val s)) (map snd vl) cl).
  Lemma create_ok t ms g x ty p s vl : poolsOK p -> nth_error shapes x = Some s -> vlabels (s_val s) g = Ok vl ->
    exists e p' r, aget (s_extra s) (found s (glabels g)) = Some e /\ create cl t ms g x ty p = Ok (p', r) /\ poolsOK p' /\ resOK r /\
      res_type r = t /\ res_metrics r = ms /\ res_ts r = gts g /\ res_home r = Some (x, found s (glabels g)) /\ formOf (res_attrs r) = ty /\
      match res_attrs r with
      | AList l => map fst l = sorted (s_base s ++ e) (vkeys (s_val s)) cl /\
                   forall k, clean (s_base s ++ e) (vkeys (s_val s)) cl k -> aget l k = aget (tableOf s e (glabels g) vl) k
      | AMap m => mapOK (s_base s ++ e) (vkeys (s_val s)) cl m /\
                  (map fst vl = vkeys (s_val s) -> (forall p, In p vl -> snd p <> None) ->
                   forall k, once k (allKeys (s_base s ++ e) (vkeys (s_val s)) cl) -> aget m k = join (aget (tableOf s e (glabels g) vl) k))
      end.
  Proof.
    intros P Hs V. assert (Is := nth_error_In _ _ Hs).
    destruct (search_ok cl s (glabels g) Is) as (e & Ee & Es). exists e.
    assert (L := vlabels_len _ _ _ V). assert (AK := fun k => adj_in_base s Is k e).
    assert (R : realAt (x, found s (glabels g)) (buildOne (s_base s ++ e) (vkeys (s_val s)) cl)).
    { intros s' e' Hs' He'. cbn [fst snd] in *. rewrite Hs in Hs'. inversion Hs'; subst s'. rewrite Ee in He'. inversion He'; subst. reflexivity. }
    unfold create. rewrite manager_eq, nth_error_map, Hs. cbn [option_map]. rewrite Es. destruct ty.
    - destruct (takeList p (x, found s (glabels g)) (buildOne (s_base s ++ e) (vkeys (s_val s)) cl)) as [p1 l] eqn:T.
      destruct (takeList_ok _ _ _ _ _ R P T) as [P1 Hl]. specialize (Hl s e Hs Ee).
      destruct (convert_ok _ _ _ (build cl s) g l vl Hl V L AK) as (l' & Cv & Hl' & Q). rewrite Cv. cbn [bind].
      eexists p1, _. split; [exact Ee|]. split; [reflexivity|]. split; [exact P1|].
      split; [|cbn [res_type res_metrics res_ts res_home res_attrs formOf]; do 5 (split; [reflexivity|]); split; [exact (proj1 Hl')|exact Q]].
      intros s' e' Hs' He'. cbn [fst snd] in *. rewrite Hs in Hs'. inversion Hs'; subst s'. rewrite Ee in He'. inversion He'; subst. exact Hl'.
    - destruct (takeMap p (x, found s (glabels g)) (buildOne (s_base s ++ e) (vkeys (s_val s)) cl)) as [p1 m] eqn:T.
      destruct (takeMap_ok _ _ _ _ _ R P T) as [P1 Hm]. specialize (Hm s e Hs Ee).
      destruct (transform_ok _ _ _ (build cl s) g m vl Hm V L (vlabels_keys _ _ _ V) AK) as (m' & Cv & Hm' & Q). rewrite Cv. cbn [bind].
      eexists p1, _. split; [exact Ee|]. split; [reflexivity|]. split; [exact P1|].
      split; [|cbn [res_type res_metrics res_ts res_home res_attrs formOf]; do 5 (split; [reflexivity|]); split; [exact Hm'|exact Q]].
      intros s' e' Hs' He'. cbn [fst snd] in *. rewrite Hs in Hs'. inversion Hs'; subst s'. rewrite Ee in He'. inversion He'; subst. exact Hm'.
  Qed.
  Lemma create_inv t ms g x ty p p' r : poolsOK p -> create cl t ms g x ty p = Ok (p', r) -> poolsOK p' /\ resOK r.
  Proof.
    intros P H. destruct (nth_error shapes x) as [s|] eqn:Hs.
    - destruct (vlabels (s_val s) g) as [vl| |] eqn:V.
      + destruct (create_ok t ms g x ty p s vl P Hs V) as (e & p1 & r1 & _ & C & P1 & R1 & _). rewrite C in H. inversion H; subst. auto.
      + exfalso. unfold create in H. rewrite manager_eq, nth_error_map, Hs in H. cbn [option_map] in H.
        destruct (searchExtra (build cl s) (glabels g)) as [[k r0]|]; [|discriminate]. destruct ty.
        * destruct (takeList p (x, k) r0) as [p1 l]. unfold convertOn in H. cbn [build c_val] in H. rewrite V in H.
          destruct (writeAll r0 0 _ l); discriminate.
        * destruct (takeMap p (x, k) r0) as [p1 l]. unfold transformOn in H. cbn [build c_val] in H. rewrite V in H. discriminate.
      + exfalso. unfold create in H. rewrite manager_eq, nth_error_map, Hs in H. cbn [option_map] in H.
        destruct (searchExtra (build cl s) (glabels g)) as [[k r0]|]; [|discriminate]. destruct ty.
        * destruct (takeList p (x, k) r0) as [p1 l]. unfold convertOn in H. cbn [build c_val] in H. rewrite V in H.
          destruct (writeAll r0 0 _ l); discriminate.
        * destruct (takeMap p (x, k) r0) as [p1 l]. unfold transformOn in H. cbn [build c_val] in H. rewrite V in H. discriminate.
    - exfalso. unfold create in H. rewrite manager_eq, nth_error_map, Hs in H. discriminate.
  Qed.

  Definition keeps (f : pools -> res (pools * list result)) : Prop :=
    forall p p' rs, poolsOK p -> f p = Ok (p', rs) -> poolsOK p' /\ Forall resOK rs.
  Lemma keeps_none : keeps (fun p => Ok (p, [])).
  Proof. intros p p' rs P H. inversion H; subst. auto. Qed.
  Lemma keeps_if b t ms g x ty : keeps (createIf cl b t ms g x ty).
  Proof.
    intros p p' rs P H. unfold createIf in H. destruct b; [|inversion H; subst; auto].
    destruct (create cl t ms g x ty p) as [[p1 r]| |] eqn:C; cbn [bind fst snd] in H; try discriminate. inversion H; subst.
    destruct (create_inv _ _ _ _ _ _ _ _ P C). auto.
  Qed.
  Lemma keeps_both f1 f2 : keeps f1 -> keeps f2 -> keeps (both f1 f2).
  Proof.
    intros K1 K2 p p' rs P H. unfold both in H. destruct (f1 p) as [[p1 r1]| |] eqn:E1; cbn [bind fst snd] in H; try discriminate.
    destruct (f2 p1) as [[p2 r2]| |] eqn:E2; cbn [bind fst snd] in H; try discriminate. inversion H; subst.
    destruct (K1 _ _ _ P E1) as [P1 F1]. destruct (K2 _ _ _ P1 E2) as [P2 F2]. split; [exact P2|]. apply Forall_app. auto.
  Qed.
  Lemma keeps_adapt g ty : keeps (adapt cl cfg g ty).
  Proof.
    unfold adapt. destruct (eqb (gname g) AggregatedNetRequestMetricGroup); [|destruct (eqb (gname g) SingleNetRequestMetricGroup); [|exact keeps_none]].
    - intros p p' rs P H. unfold dealWithPreAgg in H. revert p p' rs P H. apply keeps_both.
      + destruct (_ && _ && _); [|exact keeps_none]. unfold createNetMetricResults. apply keeps_both; apply keeps_if.
      + destruct (StorePodDetail cfg), (boolOf (glabels g) LIsServer); unfold createNetMetricResults; apply keeps_both; apply keeps_if.
    - unfold dealWithSingle. intros p p' rs P H. destruct (getMetric g MRequestTotalTime) as [d|]; [|exact (keeps_none _ _ _ P H)].
      revert p p' rs P H. apply keeps_both; apply keeps_if.
  Qed.

  Definition worldOK (w : wstate) : Prop := poolsOK (w_pools w) /\ Forall resOK (w_out w).
  Lemma hstep_ok w o : worldOK w -> worldOK (hstep cl cfg w o).
  Proof.
    intros [P F]. destruct o as [g ty c|i|h b i]; cbn [hstep].
    - destruct (adapt cl cfg g ty (withChoices (w_pools w) c)) as [[p rs]| |] eqn:A; [|split; assumption|split; assumption].
      destruct (keeps_adapt g ty (withChoices (w_pools w) c) p rs P A) as [P1 F1]. split; [exact P1|]. cbn [w_out]. apply Forall_app. auto.
    - destruct (nth_error (w_out w) i) as [r|] eqn:E; [|split; assumption].
      assert (R : resOK r) by (rewrite Forall_forall in F; apply F; eapply nth_error_In; exact E).
      split; cbn [w_pools w_out].
      + unfold freeResult, resOK in *. destruct (res_home r) as [h|]; [|exact P]. destruct P as [PL PM].
        destruct (res_attrs r) as [l|m]; cbn [attrsAt] in R; split; cbn [p_lists p_maps]; try assumption.
        * intros h' x I. rewrite getAll_aset in I. case_eqb h' h; [|apply PL; exact I]. subst. destruct I as [<-|I]; [exact R|apply PL; exact I].
        * intros h' x I. rewrite getAll_aset in I. case_eqb h' h; [|apply PM; exact I]. subst. destruct I as [<-|I]; [exact R|apply PM; exact I].
      + rewrite Forall_forall in *. intros x I. apply F. eapply in_dropAt. exact I.
    - destruct P as [PL PM]. split; [|exact F]. cbn [w_pools]. destruct b; split; cbn [p_lists p_maps]; try assumption;
        intros h' x I; [apply PL|apply PM]; eapply getAll_drop; exact I.
  Qed.
  Lemma hrun_ok h : worldOK (hrun cl cfg h).
  Proof.
    unfold hrun. assert (W : worldOK w0) by (split; [split; intros h' x I; destruct I|constructor]).
    revert W. generalize w0. induction h as [|o h IH]; intros w W; cbn [fold_left]; [exact W|]. apply IH. apply hstep_ok. exact W.
  Qed.
  Lemma hrun_pools h c : poolsOK (withChoices (w_pools (hrun cl cfg h)) c).
  Proof. destruct (hrun_ok h) as [P _]. exact P. Qed.
End World.
