(** C37, C39: the address caches under concurrency. *)
From Verif Require Import Base CompareModel K8sModel K8sProofs K8sConcModel.
Open Scope string_scope. Open Scope list_scope. Open Scope Z_scope.

Section Spec.
  Context {V : Type}.
  (** Every interleaving from empty caches, with the operations in the order they finished. *)
  Inductive runs (ok : cstate V -> cact V -> Prop) : list (aop V) -> cstate V -> Prop :=
  | Run_start : runs ok [] c0
  | Run_read done st id o st' : runs ok done st -> ok st (CRead id o) -> cstep (CRead id o) st = Some st' -> runs ok done st'
  | Run_write done st id o r st' : runs ok done st -> ok st (CWrite id) -> aget (c_flights st) id = Some (o, r) -> cstep (CWrite id) st = Some st' -> runs ok (done ++ [o]) st'.
  (** one after the other *)
  Definition seq1 (m : list (bytes * list (Z * V))) (o : aop V) : list (bytes * list (Z * V)) := match o with AAdd ip p v => put2 m ip p v | ADelete ip p => del2 m ip p end.
  (** no two operations on one address overlap *)
  Definition apartIps (st : cstate V) (a : cact V) : Prop :=
    match a with CRead _ o => forall id o' r, aget (c_flights st) id = Some (o', r) -> ipOf o' <> ipOf o | CWrite _ => True end.
  Definition anyOverlap (st : cstate V) (a : cact V) : Prop := True.
End Spec.

Section Proofs.
  Context {V : Type}.
  Record CInv (m : list (bytes * list (Z * V))) (st : cstate V) : Prop := {
    ci_valid : forall ip i, aget (c_outer st) ip = Some i -> (i < List.length (c_heap st))%nat;
    ci_one : forall a b i, aget (c_outer st) a = Some i -> aget (c_outer st) b = Some i -> a = b;
    ci_apart : forall id id' o o' r r', aget (c_flights st) id = Some (o, r) -> aget (c_flights st) id' = Some (o', r') -> ipOf o = ipOf o' -> id = id';
    ci_ref : forall id o r, aget (c_flights st) id = Some (o, r) -> r = aget (c_outer st) (ipOf o);
    ci_view : forall ip p, view st ip p = get2 m ip p }.
  Lemma nth_upd_map (h : list (list (Z * V))) i f j : (i < List.length h)%nat -> nth j (upd h i f) [] = if Nat.eqb j i then f (nth i h []) else nth j h [].
  Proof.
    revert i j. induction h as [|m h IH]; intros [|i] [|j] L; cbn in *; try lia; try reflexivity. apply IH. lia.
  Qed.
  Lemma upd_length (h : list (list (Z * V))) i f : List.length (upd h i f) = List.length h.
  Proof. revert i. induction h as [|m h IH]; intros [|i]; cbn; auto. Qed.
  Lemma runs_inv (done : list (aop V)) st : runs apartIps done st -> CInv (fold_left seq1 done []) st.
  Proof.
    intros R. induction R as [|done st id o st' R IV OK S | done st id o r st' R IV OK F S].
    - split; cbn; discriminate || reflexivity.
    - cbn [cstep] in S. destruct (aget (c_flights st) id) as [x|] eqn:FR; [discriminate|]. inversion S; subst st'. clear S. cbn [apartIps] in OK. split; cbn [c_outer c_heap c_flights]; try apply IV.
      + intros i i' a a' q q'. rewrite !aget_aset. case_eqb i id; case_eqb i' id; intros A B IE; subst; try reflexivity.
        * inversion A; subst. exfalso. exact (OK _ _ _ B (eq_sym IE)).
        * inversion B; subst. exfalso. exact (OK _ _ _ A IE).
        * exact (ci_apart _ _ IV _ _ _ _ _ _ A B IE).
      + intros i a q. rewrite aget_aset. case_eqb i id; intros A; [inversion A; subst; reflexivity|]. exact (ci_ref _ _ IV _ _ _ A).
    - rewrite fold_left_app. cbn [fold_left]. set (m := fold_left seq1 done []) in *. cbn [cstep] in S. rewrite F in S.
      pose proof (ci_ref _ _ IV _ _ _ F) as RF.
      assert (OF : forall i o' r', aget (adel (c_flights st) id) i = Some (o', r') -> i <> id /\ aget (c_flights st) i = Some (o', r') /\ ipOf o' <> ipOf o).
      { intros i o' r'. rewrite aget_adel. case_eqb i id; [discriminate|]. intros A. split; [exact E|]. split; [exact A|]. intros X. apply E. exact (ci_apart _ _ IV _ _ _ _ _ _ A F X). }
      destruct o as [ip p v | ip p]; cbn [ipOf] in *; inversion S; subst st'; clear S; cbn [seq1].
      + destruct r as [i|]; cbn [writeAdd].
        * symmetry in RF. pose proof (ci_valid _ _ IV _ _ RF) as L. split; cbn [c_outer c_heap c_flights]; try apply IV.
          -- intros x j. rewrite upd_length. apply IV.
          -- intros a b oa ob ra rb A B. apply OF in A. apply OF in B. apply (ci_apart _ _ IV a b oa ob ra rb); tauto.
          -- intros a oa ra A. apply OF in A. apply (ci_ref _ _ IV a oa ra). tauto.
          -- intros x q. rewrite get2_put2, <- (ci_view _ _ IV). unfold view. cbn [c_outer c_heap]. case_eqb x ip.
             ++ rewrite E, RF, nth_upd_map by exact L. rewrite Nat.eqb_refl. cbn [andb]. rewrite aget_aset. destruct (eqb q p); reflexivity.
             ++ cbn [andb]. destruct (aget (c_outer st) x) as [j|] eqn:G; [|reflexivity]. rewrite nth_upd_map by exact L. destruct (Nat.eqb j i) eqn:J; [|reflexivity]. apply Nat.eqb_eq in J. subst j. exfalso. apply E. exact (ci_one _ _ IV _ _ _ G RF).
        * symmetry in RF. split; cbn [c_outer c_heap c_flights].
          -- intros x j. rewrite app_length. cbn [List.length]. rewrite aget_aset. case_eqb x ip; intros A; [inversion A; lia|]. pose proof (ci_valid _ _ IV _ _ A). lia.
          -- intros a b j. rewrite !aget_aset. case_eqb a ip; case_eqb b ip; intros A B; try congruence.
             ++ inversion A; subst. pose proof (ci_valid _ _ IV _ _ B). lia.
             ++ inversion B; subst. pose proof (ci_valid _ _ IV _ _ A). lia.
             ++ exact (ci_one _ _ IV _ _ _ A B).
          -- intros a b oa ob ra rb A B. apply OF in A. apply OF in B. apply (ci_apart _ _ IV a b oa ob ra rb); tauto.
          -- intros a oa ra A. apply OF in A. destruct A as (_ & A & N). rewrite aget_aset_other by exact N. exact (ci_ref _ _ IV a oa ra A).
          -- intros x q. rewrite get2_put2, <- (ci_view _ _ IV). unfold view. cbn [c_outer c_heap]. rewrite aget_aset. case_eqb x ip.
             ++ rewrite app_nth2 by lia. rewrite Nat.sub_diag. cbn [nth aget andb]. rewrite E, RF. destruct (eqb q p); reflexivity.
             ++ cbn [andb]. destruct (aget (c_outer st) x) as [j|] eqn:G; [|reflexivity]. pose proof (ci_valid _ _ IV _ _ G). rewrite app_nth1 by exact H. reflexivity.
      + destruct r as [i|]; cbn [writeDelete].
        * symmetry in RF. pose proof (ci_valid _ _ IV _ _ RF) as L.
          set (out := match nth i (upd (c_heap st) i (fun m => adel m p)) [] with [] => adel (c_outer st) ip | _ => c_outer st end).
          assert (OUT : forall x, x <> ip -> aget out x = aget (c_outer st) x). { intros x N. unfold out. destruct (nth i _ []); [apply aget_adel_other; exact N|reflexivity]. }
          assert (OUTI : forall x j, aget out x = Some j -> aget (c_outer st) x = Some j). { intros x j. unfold out. destruct (nth i _ []); [|auto]. rewrite aget_adel. destruct (eqb x ip); [discriminate|auto]. }
          split; cbn [c_outer c_heap c_flights].
          -- intros x j A. rewrite upd_length. apply (ci_valid _ _ IV x). apply OUTI. exact A.
          -- intros a b j A B. apply (ci_one _ _ IV a b j); apply OUTI; assumption.
          -- intros a b oa ob ra rb A B. apply OF in A. apply OF in B. apply (ci_apart _ _ IV a b oa ob ra rb); tauto.
          -- intros a oa ra A. apply OF in A. destruct A as (_ & A & N). rewrite OUT by exact N. exact (ci_ref _ _ IV a oa ra A).
          -- intros x q. rewrite get2_del2, <- (ci_view _ _ IV). unfold view. cbn [c_outer c_heap]. case_eqb x ip.
             ++ rewrite E, RF. unfold out. cbn [andb]. rewrite nth_upd_map by exact L. rewrite Nat.eqb_refl. destruct (adel (nth i (c_heap st) []) p) as [|e l] eqn:D.
                ** rewrite aget_adel_same. pose proof (aget_adel (nth i (c_heap st) []) p q) as X. rewrite D in X. cbn [aget] in X. destruct (eqb q p); [reflexivity|exact X].
                ** rewrite RF. rewrite nth_upd_map by exact L. rewrite Nat.eqb_refl. apply aget_adel.
             ++ cbn [andb]. rewrite OUT by exact E. destruct (aget (c_outer st) x) as [j|] eqn:G; [|reflexivity]. rewrite nth_upd_map by exact L. destruct (Nat.eqb j i) eqn:J; [|reflexivity]. apply Nat.eqb_eq in J. subst j. exfalso. apply E. exact (ci_one _ _ IV _ _ _ G RF).
        * symmetry in RF. split; cbn [c_outer c_heap c_flights]; try apply IV.
          -- intros a b oa ob ra rb A B. apply OF in A. apply OF in B. apply (ci_apart _ _ IV a b oa ob ra rb); tauto.
          -- intros a oa ra A. apply OF in A. apply (ci_ref _ _ IV a oa ra). tauto.
          -- intros x q. rewrite get2_del2, <- (ci_view _ _ IV). unfold view. cbn [c_outer c_heap]. case_eqb x ip; [|reflexivity]. rewrite E, RF. destruct (_ && _)%bool; reflexivity.
  Qed.
End Proofs.

(** While no two operations on one address overlap, every interleaving leaves what the operations one after the other leave. *)
Theorem C37_conc_apart : forall (V : Type) (done : list (aop V)) st ip p,
  runs apartIps done st -> view st ip p = get2 (fold_left seq1 done []) ip p.
Proof. intros V done st ip p R. apply (ci_view _ _ (runs_inv done st R)). Qed.
Print Assumptions C37_conc_apart.

(** Two addresses at the same time. *)
Example C37_conc_history : exists st, runs apartIps [AAdd (bs "10.0.0.1") 80 1; AAdd (bs "10.0.0.2") 80 2; AAdd (bs "10.0.0.2") 90 3; ADelete (bs "10.0.0.1") 80] st /\
  view st (bs "10.0.0.1") 80 = None /\ view st (bs "10.0.0.2") 80 = Some 2 /\ view st (bs "10.0.0.2") 90 = Some 3.
Proof.
  pose proof (Run_start (V := Z) apartIps) as R.
  assert (A1 : forall ip o, apartIps (V := Z) c0 (CRead ip o)) by (intros ip o id o' r X; discriminate X).
  pose proof (Run_read _ _ _ 1 (AAdd (bs "10.0.0.1") 80 1) _ R (A1 _ _) eq_refl) as R1.
  pose proof (Run_write _ _ _ 1 _ _ _ R1 I eq_refl eq_refl) as R2. clear R R1. cbn in R2.
  match type of R2 with runs _ _ ?st => assert (AR3 : apartIps st (CRead 1 (AAdd (bs "10.0.0.2") 80 2))) by (intros id o' r X; vm_compute in X; repeat match type of X with (match ?x with _ => _ end) = _ => destruct x; try discriminate X end; try discriminate X; inversion X; subst; intros Y; vm_compute in Y; discriminate Y) end.
  pose proof (Run_read _ _ _ 1 (AAdd (bs "10.0.0.2") 80 2) _ R2 AR3 eq_refl) as R3.
  match type of R3 with runs _ _ ?st => assert (AR4 : apartIps st (CRead 2 (ADelete (bs "10.0.0.1") 80))) by (intros id o' r X; vm_compute in X; repeat match type of X with (match ?x with _ => _ end) = _ => destruct x; try discriminate X end; try discriminate X; inversion X; subst; intros Y; vm_compute in Y; discriminate Y) end.
  pose proof (Run_read _ _ _ 2 (ADelete (bs "10.0.0.1") 80) _ R3 AR4 eq_refl) as R4.
  pose proof (Run_write _ _ _ 1 _ _ _ R4 I eq_refl eq_refl) as R5. clear R2 R3 R4. cbn in R5.
  match type of R5 with runs _ _ ?st => assert (AR6 : apartIps st (CRead 1 (AAdd (bs "10.0.0.2") 90 3))) by (intros id o' r X; vm_compute in X; repeat match type of X with (match ?x with _ => _ end) = _ => destruct x; try discriminate X end; try discriminate X; inversion X; subst; intros Y; vm_compute in Y; discriminate Y) end.
  pose proof (Run_read _ _ _ 1 (AAdd (bs "10.0.0.2") 90 3) _ R5 AR6 eq_refl) as R6.
  pose proof (Run_write _ _ _ 1 _ _ _ R6 I eq_refl eq_refl) as R7. pose proof (Run_write _ _ _ 2 _ _ _ R7 I eq_refl eq_refl) as R8.
  eexists. split; [exact R8|]. repeat split; vm_compute; reflexivity.
Qed.

(** The last port of an address deleted between the two halves of an addition: the addition goes to a map nobody finds any more. *)
Theorem C37_conc_lost_addition_refuted : exists st : cstate Z, runs anyOverlap [AAdd (bs "10.0.0.1") 80 1; ADelete (bs "10.0.0.1") 80; AAdd (bs "10.0.0.1") 90 2] st /\ c_flights st = [] /\
  get2 (fold_left seq1 [AAdd (bs "10.0.0.1") 80 1; ADelete (bs "10.0.0.1") 80; AAdd (bs "10.0.0.1") 90 2] []) (bs "10.0.0.1") 90 = Some 2 /\ view st (bs "10.0.0.1") 90 = None.
Proof.
  pose proof (Run_start (V := Z) anyOverlap) as R.
  pose proof (Run_read _ _ _ 1 (AAdd (bs "10.0.0.1") 80 1) _ R I eq_refl) as R1.
  pose proof (Run_write _ _ _ 1 _ _ _ R1 I eq_refl eq_refl) as R2.
  pose proof (Run_read _ _ _ 1 (AAdd (bs "10.0.0.1") 90 2) _ R2 I eq_refl) as R3.
  pose proof (Run_read _ _ _ 2 (ADelete (bs "10.0.0.1") 80) _ R3 I eq_refl) as R4.
  pose proof (Run_write _ _ _ 2 _ _ _ R4 I eq_refl eq_refl) as R5. pose proof (Run_write _ _ _ 1 _ _ _ R5 I eq_refl eq_refl) as R6.
  eexists. split; [exact R6|]. repeat split; vm_compute; reflexivity.
Qed.
Print Assumptions C37_conc_lost_addition_refuted.
