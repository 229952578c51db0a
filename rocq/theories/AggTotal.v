(** C02: sums over many label sets are conserved as well. *)
From Verif Require Import Base Decimal AttrModel PoolModel KeyModel AggModel AggSpec AggProofs AggProofs2 AggProps.
Open Scope string_scope. Open Scope list_scope. Open Scope Z_scope.

(** What one exported group carries for [out]. *)
Definition valueOf (out : string) (g : group) : Z :=
  zsum (map (fun p => if eqb (fst p) out then match snd p with MInt v => v | _ => 0 end else 0) (gmetrics g)).
(** Everything exported under a name by the label sets that satisfy [P]; everything fed to them. *)
Definition exportedWhere (nm : string) (P : labelset -> bool) (out : string) (es : list (list group)) : Z :=
  zsum (map (fun g => if eqb (gname g) nm && P (glabels g) then valueOf out g else 0) (List.concat es)).
Definition fedWhere (km : kindMap) (nm : string) (P : labelset -> bool) (out : string) (h : list agg_op) : Z :=
  zsum (map (fun o => match o with
                      | OAgg g sels => if eqb (gname g) nm && P (getLabels (getLabelKeys sels (glabels g))) then contribution km out g else 0
                      | _ => 0
                      end) h).

Lemma zsum_zero {A} (f : A -> Z) l : (forall a, In a l -> f a = 0) -> zsum (map f l) = 0.
Proof. induction l as [|a l IH]; intros H; [reflexivity|]. cbn. rewrite (H a (or_introl eq_refl)). apply IH. intros b I. apply H. right. exact I. Qed.
Lemma zsum_plus {A} (f g : A -> Z) l : zsum (map (fun a => f a + g a) l) = zsum (map f l) + zsum (map g l).
Proof. unfold zsum. induction l as [|a l IH]; [reflexivity|]. cbn [map fold_right]. lia. Qed.
Lemma zsum_ext {A} (f g : A -> Z) l : (forall a, In a l -> f a = g a) -> zsum (map f l) = zsum (map g l).
Proof. induction l as [|a l IH]; intros H; [reflexivity|]. unfold zsum in *. cbn [map fold_right]. rewrite (H a (or_introl eq_refl)), IH; [reflexivity|]. intros b I. apply H. right. exact I. Qed.
Lemma zsum_one {K} `{Eqb K} (P : K -> bool) (x : Z) (k : K) Ls : NoDup Ls -> In k Ls ->
  zsum (map (fun L => if P L then if eqb k L then x else 0 else 0) Ls) = if P k then x else 0.
Proof.
  induction Ls as [|L Ls IH]; intros ND I; [destruct I|]. apply NoDup_cons_iff in ND. destruct ND as [NI ND]. unfold zsum in *. cbn [map fold_right].
  destruct I as [->|I].
  - rewrite (eqb_refl k). fold (zsum (map (fun L => if P L then if eqb k L then x else 0 else 0) Ls)). rewrite zsum_zero; [lia|].
    intros a J. replace (eqb k a) with false; [destruct (P a); reflexivity|]. symmetry. apply eqb_neq. intros ->. exact (NI J).
  - rewrite IH by assumption. replace (eqb k L) with false; [destruct (P L); lia|]. symmetry. apply eqb_neq. intros ->. exact (NI I).
Qed.
Lemma zsum_by_key {A K} `{Eqb K} (f : A -> K) (v : A -> Z) (P : K -> bool) Ls l : NoDup Ls -> (forall a, In a l -> v a <> 0 -> In (f a) Ls) ->
  zsum (map (fun a => if P (f a) then v a else 0) l) = zsum (map (fun L => if P L then zsum (map (fun a => if eqb (f a) L then v a else 0) l) else 0) Ls).
Proof.
  intros ND. induction l as [|a l IH]; intros IN.
  - symmetry. apply zsum_zero. intros L _. destruct (P L); reflexivity.
  - cbn [map]. rewrite zsum_cons, IH by (intros b I; apply IN; right; exact I).
    transitivity (zsum (map (fun L => if P L then if eqb (f a) L then v a else 0 else 0) Ls) +
                  zsum (map (fun L => if P L then zsum (map (fun a0 => if eqb (f a0) L then v a0 else 0) l) else 0) Ls)).
    + f_equal. destruct (Z.eq_dec (v a) 0) as [Z0|NZ].
      * rewrite Z0. rewrite zsum_zero; [destruct (P (f a)); reflexivity|]. intros L _. destruct (P L), (eqb (f a) L); reflexivity.
      * symmetry. apply zsum_one; [exact ND|]. apply IN; [left; reflexivity|exact NZ].
    + rewrite <- zsum_plus. apply zsum_ext. intros L _. rewrite zsum_cons. destruct (P L); lia.
Qed.
Lemma zsum_concat {A} (f : A -> Z) ls : zsum (map f (List.concat ls)) = zsum (map (fun l => zsum (map f l)) ls).
Proof. induction ls as [|l ls IH]; [reflexivity|]. cbn [List.concat map]. rewrite map_app, zsum_app, zsum_cons, IH. reflexivity. Qed.
Lemma eqm_sum {A} (f g : A -> Z) l : (forall a, In a l -> eqm (f a) (g a)) -> eqm (zsum (map f l)) (zsum (map g l)).
Proof. induction l as [|a l IH]; intros H; [apply eqm_refl|]. cbn [map]. rewrite !zsum_cons. apply eqm_add; [apply H; left; reflexivity|]. apply IH. intros b I. apply H. right. exact I. Qed.
Lemma s64_eqm_inv a b : s64 a = s64 b -> eqm a b.
Proof. intros E. apply eqm_trans with (s64 a); [apply eqm_sym, eqm_s64|]. rewrite E. apply eqm_s64. Qed.

(** Over any choice of label sets - a pod, a node, everything - the values exported for a counter add up to what was fed. *)
Theorem C02_totals_conserved : forall km out nm (P : labelset -> bool) h es s,
  counter_output km out -> uniform h ->
  (forall g sels, In (OAgg g sels) h -> readings_ok km g) ->
  agg_run km [] (h ++ [ODump]) = Ok (es, s) ->
  s64 (exportedWhere nm P out es) = s64 (fedWhere km nm P out h).
Proof.
  intros km out nm P h es s CO U RO R. apply s64_eqm.
  set (fedLabels := flat_map (fun o => match o with OAgg g sels => [getLabels (getLabelKeys sels (glabels g))] | _ => [] end) h).
  set (Ls := nodup (@Eqb_dec labelset _) (map glabels (List.concat es) ++ fedLabels)).
  assert (ND : NoDup Ls) by apply NoDup_nodup.
  assert (E1 : exportedWhere nm P out es = zsum (map (fun L => if P L then exported nm L out es else 0) Ls)).
  { unfold exportedWhere.
    rewrite (zsum_ext _ (fun g => if P (glabels g) then (if eqb (gname g) nm then valueOf out g else 0) else 0))
      by (intros g _; destruct (eqb (gname g) nm), (P (glabels g)); reflexivity).
    rewrite (zsum_by_key glabels _ P Ls) by (try exact ND; intros g I _; apply nodup_In, in_or_app; left; apply in_map; exact I).
    apply zsum_ext. intros L _. destruct (P L); [|reflexivity]. unfold exported. rewrite zsum_concat. apply zsum_ext. intros gs _.
    unfold exportedIn. apply zsum_ext. intros g _. unfold valueOf. destruct (eqb (gname g) nm), (eqb (glabels g) L); reflexivity. }
  assert (E2 : fedWhere km nm P out h = zsum (map (fun L => if P L then fed km nm L out h else 0) Ls)).
  { unfold fedWhere.
    set (f := fun o => match o with OAgg g sels => getLabels (getLabelKeys sels (glabels g)) | _ => [] end).
    set (v := fun o => match o with OAgg g sels => if eqb (gname g) nm then contribution km out g else 0 | _ => 0 end).
    rewrite (zsum_ext _ (fun o => if P (f o) then v o else 0))
      by (intros [g sels| |n] _; unfold f, v; [destruct (eqb (gname g) nm), (P (getLabels (getLabelKeys sels (glabels g)))); reflexivity| |]; destruct (P []); reflexivity).
    rewrite (zsum_by_key f v P Ls).
    - apply zsum_ext. intros L _. destruct (P L); [|reflexivity]. unfold fed. apply zsum_ext.
      intros [g sels| |n] _; unfold f, v; [destruct (eqb (gname g) nm), (eqb (getLabels (getLabelKeys sels (glabels g))) L); reflexivity| |];
        match goal with |- (if ?b then _ else _) = _ => destruct b; reflexivity end.
    - exact ND.
    - intros [g sels| |n] I NZ; unfold v in NZ; try congruence. apply nodup_In, in_or_app. right. unfold fedLabels. apply in_flat_map.
      exists (OAgg g sels). split; [exact I|left; reflexivity]. }
  rewrite E1, E2. apply eqm_sum. intros L _. destruct (P L); [|apply eqm_refl].
  apply s64_eqm_inv. exact (C02_counters_conserved km out nm L h es s CO U RO R).
Qed.
Print Assumptions C02_totals_conserved.

(** Two series of one pod, over two windows: the pod's total. *)
Example C02_totals_example :
  let km := [("drops", [{| c_out := "drops"; c_kind := SumKind; c_bounds := [] |}])] in
  let g ip n := {| gname := "tcp"; gmetrics := [("drops", MInt n)]; glabels := [("pod", SV (bs "web")); ("ip", SV (bs ip))]; gts := 0 |} in
  let sels := [("pod", StringType); ("ip", StringType)] in
  let h := [OAgg (g "10.0.0.1" 2) sels; OAgg (g "10.0.0.2" 3) sels; ODump; OAgg (g "10.0.0.1" 4) sels] in
  match agg_run km [] (h ++ [ODump]) with
  | Ok (es, _) => exportedWhere "tcp" (fun L => eqb (aget L "pod") (Some (SV (bs "web")))) "drops" es = 9
  | _ => False
  end.
Proof. vm_compute. reflexivity. Qed.
