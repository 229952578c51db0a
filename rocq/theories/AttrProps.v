(** C07: label maps. *)
From Verif Require Import Base Decimal AttrModel AttrSpec AttrProofs.

(** Worlds a program can reach from nothing. *)
Definition reachable (w : world) : Prop := exists os, arun empty_world os = Ok w.

Lemma reachable_wf w : reachable w -> wf w.
Proof. intros (os & R). eapply run_wf; [apply wf_empty|exact R]. Qed.

(** Programs that never call Merge: label maps are exactly independent partial functions, and the
    program panics exactly when an UpdateAdd meets a value of another type (or a map that does not exist). *)
Theorem C07_independent_maps : forall os,
  forallb (fun o => negb (is_merge o)) os = true ->
  match arun empty_world os, vrun vempty os with
  | Ok w, Some v => forall i k, look w i k = vms v i k
  | Panic, None => True
  | _, _ => False
  end.
Proof.
  intros os NM. pose proof (refine_run os empty_world vempty wf_empty) as R.
  assert (A : agree empty_world vempty). { split; [reflexivity|]. intros [|i] k; reflexivity. }
  specialize (R A). assert (SP : forall i j, i <> j -> sep empty_world i j).
  { intros i j _ m m' k k' l E. destruct i; discriminate. }
  specialize (R SP NM). destruct (arun empty_world os), (vrun vempty os); auto. apply R.
Qed.
Print Assumptions C07_independent_maps.

Example C07_independent_maps_meets :
  let os := [ANew; AAdd 0 "a" (IV 1); AUpd 0 "b" (SV (bs "x")); AClone 0; AUpd 1 "a" (IV 2); ARemove 0 "b"] in
  forallb (fun o => negb (is_merge o)) os = true /\
  (match arun empty_world os with
   | Ok w => look w 0 "a" = Some (IV 1) /\ look w 1 "a" = Some (IV 2) /\ look w 0 "b" = None /\ look w 1 "b" = Some (SV (bs "x"))
   | _ => False end).
Proof. vm_compute. repeat split; reflexivity. Qed.

(** In every reachable world, merges included: after a successful operation the map it targets is
    exactly what the independent maps would give (added label reads back, the rest unchanged; Merge: the other
    map wins and the rest stays; Remove, Clear, Reset, Clone likewise). *)
Theorem C07_target_exact : forall w o w',
  reachable w -> astep w o = Ok w' ->
  exists m, vtarget (look w) o = Some m /\ forall k, look w' (target (List.length (maps w)) o) k = m k.
Proof.
  intros w o w' R S. pose proof (step_shape _ _ _ (reachable_wf _ R) S) as SH.
  destruct (sh_content _ _ _ SH) as [NN C]. destruct (vtarget (look w) o) as [m|]; [|congruence].
  exists m. split; [reflexivity|]. intros k. apply C. reflexivity.
Qed.
Print Assumptions C07_target_exact.

(** Every operation on existing maps succeeds, except an UpdateAdd that meets a value of another type, which panics. *)
Theorem C07_panics_only_on_type_change : forall w o,
  reachable w -> (forall i, In i (mentions o) -> (i < List.length (maps w))%nat) ->
  (exists w', astep w o = Ok w') \/
  (astep w o = Panic /\ exists i k v old, o = AUpd i k v /\ look w i k = Some old /\ same_type old v = false).
Proof.
  intros w o R M. destruct (step_outcome w o (reachable_wf _ R)) as [[S _]|[S [F|V]]].
  - left. exact S.
  - exfalso. rewrite (proj2 (forallb_forall _ _)) in F; [discriminate|].
    intros i I. apply Nat.ltb_lt. apply M. exact I.
  - right. split; [exact S|]. destruct o; try discriminate. cbn [vtarget] in V.
    destruct (look w i k) as [old|] eqn:L; [|discriminate].
    destruct (same_type old v) eqn:T; [discriminate|]. exists i, k, v, old. auto.
Qed.
Print Assumptions C07_panics_only_on_type_change.

(** A clone never changes through operations on other maps, and operations on the clone never change the others. *)
Theorem C07_clone_independent : forall w i w1,
  reachable w -> astep w (AClone i) = Ok w1 ->
  let c := List.length (maps w) in
  (forall k, look w1 c k = look w i k) /\
  (forall os w2, arun w1 os = Ok w2 -> (forall o, In o os -> ~ In c (mentions o)) ->
     forall k, look w2 c k = look w i k) /\
  (forall os w2, arun w1 os = Ok w2 -> (forall o, In o os -> mentions o = [c] /\ forall j, o <> AClone j) ->
     forall j k, (j < c)%nat -> look w2 j k = look w j k).
Proof.
  intros w i w1 R St c. pose proof (reachable_wf _ R) as W.
  pose proof (step_wf _ _ _ W St) as W1. pose proof (step_shape _ _ _ W St) as SH.
  assert (L1 : List.length (maps w1) = S c) by (rewrite (sh_mapslen _ _ _ SH); cbn [target]; unfold c; lia).
  assert (E : forall k, look w1 c k = look w i k).
  { intros k. apply (proj2 (sh_content _ _ _ SH)). reflexivity. }
  assert (SP : forall j, j <> c -> sep w1 c j) by (intros j N; eapply clone_sep; eassumption).
  split; [exact E|]. split.
  - intros os w2 RR M k. rewrite <- E. eapply run_apart; try eassumption. lia.
  - intros os w2 RR M j k L. transitivity (look w1 j k).
    + eapply run_own with (c := c); try eassumption; try lia.
      * intros o I. apply M. exact I.
      * intros o I. apply M. exact I.
    + unfold look. rewrite (sh_others _ _ _ SH) by (cbn [target]; unfold c in L; lia).
      destruct (nth_error (maps w) j) as [m|] eqn:Ej; [|reflexivity].
      unfold deref. destruct (aget m k) as [l|] eqn:G; [|reflexivity].
      apply (sh_heap _ _ _ SH).
      * destruct W as [W0 _]. destruct (W0 _ _ Ej) as [_ V]. eauto.
      * intros m' k' E'. cbn [target] in E'. rewrite (proj2 (nth_error_None _ _)) in E' by lia. discriminate.
Qed.
Print Assumptions C07_clone_independent.

Example C07_clone_independent_meets :
  exists w w1, reachable w /\ astep w (AClone 1) = Ok w1 /\ look w 1 "a" = Some (IV 7) /\ List.length (maps w) = 2%nat.
Proof.
  eexists. eexists. split.
  - exists [ANew; AAdd 0 "a" (IV 7); ANew; AMerge 1 0]. reflexivity.
  - repeat split; reflexivity.
Qed.

(** A map keeps its content while other maps are operated on, as long as no Merge involved it. *)
Theorem C07_others_unchanged_without_merge : forall os i w os' w',
  arun empty_world os = Ok w -> arun w os' = Ok w' ->
  (i < List.length (maps w))%nat ->
  (forall o, In o os -> is_merge o = true -> ~ In i (mentions o)) ->
  (forall o, In o os' -> ~ In i (mentions o)) ->
  forall k, look w' i k = look w i k.
Proof.
  intros os i w os' w' R R' L NM NM'.
  enough (SP : forall j, j <> i -> sep w i j).
  { eapply run_apart; try eassumption. eapply run_wf; [apply wf_empty|exact R]. }
  clear R' NM' w' os' L.
  assert (G : forall os w0, wf w0 -> arun w0 os = Ok w ->
     (forall o, In o os -> is_merge o = true -> ~ In i (mentions o)) ->
     (forall j, j <> i -> sep w0 i j) -> forall j, j <> i -> sep w i j).
  { clear. induction os as [|o os IH]; intros w0 W R NM SP; cbn [arun] in R.
    - inversion R; subst. exact SP.
    - destruct (astep w0 o) as [w1| |] eqn:S; cbn [bind] in R; try discriminate.
      eapply IH; [eapply step_wf; eassumption|exact R| |].
      + intros o' I. apply NM. right. exact I.
      + specialize (NM o (or_introl eq_refl)).
        destruct (Nat.eq_dec i (target (List.length (maps w0)) o)) as [T|T].
        * destruct (is_merge o) eqn:M.
          -- exfalso. destruct o; try discriminate. apply (NM eq_refl). left. symmetry. exact T.
          -- eapply sep_step_own; eassumption.
        * pose proof (step_shape _ _ _ W S) as SH. intros j N.
          intros m m' k k' l E E' H H'.
          rewrite (sh_others _ _ _ SH) in E by assumption.
          destruct (Nat.eq_dec j (target (List.length (maps w0)) o)) as [->|NT].
          -- destruct (sh_target _ _ _ SH) as (mt & ST & _ & SV0 & _). rewrite ST in E'. inversion E'; subst mt.
             destruct (SV0 _ _ H') as [_ [Ge|(i0 & m0 & O & A & B)]].
             ++ destruct W as [W1 _]. destruct (W1 _ _ E) as [_ V]. apply V in H. lia.
             ++ destruct O as [->|[M O]].
                ** eapply SP; [|exact E|exact A|exact H|exact B]. congruence.
                ** assert (i0 <> i) by (intros ->; exact (NM M O)). eapply SP; eassumption.
          -- rewrite (sh_others _ _ _ SH) in E' by assumption. eapply (SP j N); eassumption. }
  apply (G os empty_world); auto.
  - apply wf_empty.
  - intros j _ m m' k k' l E. destruct i; discriminate.
Qed.
Print Assumptions C07_others_unchanged_without_merge.

Example C07_others_unchanged_meets :
  exists w w', arun empty_world [ANew; AAdd 0 "a" (IV 7); ANew; AAdd 1 "a" (IV 8); ANew; AMerge 2 1] = Ok w /\
    arun w [AUpd 2 "a" (IV 9)] = Ok w' /\ look w' 0 "a" = Some (IV 7) /\ look w' 1 "a" = Some (IV 9).
Proof. eexists. eexists. repeat split; reflexivity. Qed.

(** Finding: Merge copies pointers, so a later UpdateAdd on the receiver changes the other map as well:
    independence does not hold for maps that took part in a Merge. *)
Theorem C07_merge_independent_refuted :
  exists os os' w w' k, arun empty_world os = Ok w /\ arun w os' = Ok w' /\
    (forall o, In o os' -> mentions o = [0%nat]) /\ look w 1 k <> look w' 1 k.
Proof.
  exists [ANew; ANew; AAdd 1 "status" (IV 200); AMerge 0 1], [AUpd 0 "status" (IV 500)].
  eexists. eexists. exists "status"%string.
  split; [reflexivity|]. split; [reflexivity|]. split; [intros o [<-|[]]; reflexivity|].
  vm_compute. discriminate.
Qed.
Print Assumptions C07_merge_independent_refuted.

(** The string form lists exactly the labels of the map, each formatted by its type. *)
Theorem C07_string_form : forall w i m, reachable w -> nth_error (maps w) i = Some m ->
  forall k, aget (toStringMap (hp w) m) k =
    match look w i k with
    | Some (SV s) => Some s
    | Some (IV z) => Some (formatInt z)
    | Some (BV b) => Some (bs (if b then "true" else "false"))
    | None => None
    end.
Proof.
  intros w i m R E k. pose proof (reachable_wf _ R) as [W _]. destruct (W _ _ E) as [ND V].
  rewrite toStringMap_get by assumption. rewrite (look_some _ _ _ _ E).
  destruct (deref (hp w) m k) as [[s|z|[]]|]; reflexivity.
Qed.
Print Assumptions C07_string_form.
