(** Proofs about the goroutines of a profiling session. *)
From Coq Require Import Sorting.Permutation.
From Verif Require Import Base ProfModel ProfSpec.
Open Scope list_scope. Open Scope Z_scope.

Lemma prun_app h1 h2 s : prun (h1 ++ h2) s = match prun h1 s with Some s' => prun h2 s' | None => None end.
Proof. revert s. induction h1 as [|o h1 IH]; intros s; [reflexivity|]. cbn [prun app]. destruct (pdo o s); [apply IH|reflexivity]. Qed.
Lemma prun_snoc h o s s' : prun (h ++ [o]) s = Some s' -> exists s1, prun h s = Some s1 /\ pdo o s1 = Some s'.
Proof. rewrite prun_app. destruct (prun h s) as [s1|]; [|discriminate]. cbn [prun]. destruct (pdo o s1) as [s2|] eqn:E; [|discriminate]. intros [= <-]. eauto. Qed.
Lemma clean_app h1 h2 : clean (h1 ++ h2) -> clean h1.
Proof. intros C a b s E R. apply (C a (b ++ h2) s); [|exact R]. rewrite E, <- app_assoc. reflexivity. Qed.
(** a way to check that a history is clean *)
Fixpoint overAll (l : list spc) : bool := match l with [] => true | SEnd :: l' => overAll l' | _ => false end.
Fixpoint overAllR (l : list rpc) : bool := match l with [] => true | REnd :: l' => overAllR l' | _ => false end.
Fixpoint cleanRun (h : list pop_) (s : pst) : bool :=
  match h with
  | [] => true
  | o :: h' => match o with PStart => overAll (p_sam s) && overAllR (p_rd s) | _ => true end && match pdo o s with Some s' => cleanRun h' s' | None => true end
  end.
Lemma overAll_Forall l : overAll l = true -> Forall overS l.
Proof. induction l as [|x l IH]; intros E; [constructor|]. destruct x; try discriminate. constructor; [reflexivity|exact (IH E)]. Qed.
Lemma overAllR_Forall l : overAllR l = true -> Forall overR l.
Proof. induction l as [|x l IH]; intros E; [constructor|]. destruct x; try discriminate. constructor; [reflexivity|exact (IH E)]. Qed.
Lemma clean_run h : cleanRun h p0 = true -> clean h.
Proof.
  intros C h1 h2 s E R. subst h. revert C R. generalize p0 as t. induction h1 as [|o h1 IH]; intros t C R.
  - cbn [prun] in R. injection R as ->. cbn [app cleanRun] in C. apply andb_true_iff in C. destruct C as (C & _). apply andb_true_iff in C. destruct C as (A & B). split; [apply overAll_Forall|apply overAllR_Forall]; assumption.
  - cbn [app cleanRun] in C. apply andb_true_iff in C. destruct C as (_ & C). cbn [prun] in R. destruct (pdo o t) as [t'|]; [|discriminate]. exact (IH t' C R).
Qed.
Lemma arrived_app h1 h2 : arrived (h1 ++ h2) = arrived h1 ++ arrived h2.
Proof. induction h1 as [|o h1 IH]; [reflexivity|]. destruct o; cbn [arrived app]; rewrite IH; reflexivity. Qed.

Definition handR (x : rpc) : list nat := match x with RWork id => [id] | _ => [] end.
Definition headS (s : pst) : spc := match p_sam s with [] => SEnd | x :: _ => x end.
Definition headR (s : pst) : rpc := match p_rd s with [] => REnd | x :: _ => x end.
(** what has been sent to the trigger channel of this session, or was stored before *)
Definition sent (s : pst) : list nat := p_queue s ++ handR (headR s) ++ p_out s.
(** what may still be sent *)
Definition pend (s : pst) : list nat :=
  match headS s with
  | SRange l g => if Nat.eqb g (p_gen s) then map snd (p_map s) else map snd l
  | SDel k l g => if Nat.eqb g (p_gen s) then map snd (adel (p_map s) k) else map snd l
  | _ => map snd (p_map s)
  end.
Definition rangeOk (s : pst) : Prop :=
  match headS s with
  | SRange l g => (g <= p_gen s)%nat /\ if Nat.eqb g (p_gen s) then NoDup (keys l) /\ incl l (p_map s) else p_on s = false
  | SDel k l g => (g <= p_gen s)%nat /\ if Nat.eqb g (p_gen s)
                  then NoDup (k :: keys l) /\ incl l (p_map s) /\ (exists v, aget (p_map s) k = Some v /\ In v (sent s)) else p_on s = false
  | _ => True
  end.
(** at most the newest goroutine of each kind is alive; nothing is held twice; everything held has arrived *)
Definition PJ (all : list nat) (s : pst) : Prop :=
  Forall overS (tl (p_sam s)) /\ Forall overR (tl (p_rd s)) /\ NoDup (keys (p_map s)) /\ (p_on s = false -> p_map s = []) /\
  rangeOk s /\ NoDup (pend s ++ sent s) /\ incl (pend s ++ sent s) all.

Lemma nth_over {A} (P : A -> Prop) (l : list A) i x : Forall P (tl l) -> nth_error l i = Some x -> i = 0%nat \/ P x.
Proof. intros F E. destruct i as [|i]; [left; reflexivity|]. right. destruct l as [|y l]; [discriminate|]. cbn [nth_error] in E. cbn [tl] in F. rewrite Forall_forall in F. apply F. eapply nth_error_In; eauto. Qed.
Lemma upd_0 {A} (l : list A) x y : nth_error l 0 = Some y -> upd l 0 x = x :: tl l.
Proof. destruct l; [discriminate|reflexivity]. Qed.
Lemma adel_incl {V} (m : list (bytes * V)) k : incl (adel m k) m.
Proof. intros p I. unfold adel in I. apply filter_In in I. apply I. Qed.

Lemma perm_adel (m : list (bytes * nat)) k v : NoDup (keys m) -> aget m k = Some v -> Permutation (map snd m) (v :: map snd (adel m k)).
Proof.
  induction m as [|[a b] m IH]; intros N E; [discriminate|]. cbn [keys map fst] in N. inversion N as [|? ? N1 N2]; subst. cbn [aget] in E. unfold adel. cbn [filter map snd fst].
  case_eqb k a.
  - subst a. injection E as <-. cbn [negb]. apply perm_skip. fold (adel m k).
    assert (X : adel m k = m).
    { clear -N1. induction m as [|[c d] m IH]; [reflexivity|]. unfold adel. cbn [filter fst]. case_eqb k c; [exfalso; apply N1; left; symmetry; assumption|]. cbn [negb]. f_equal. apply IH. intros I. apply N1. right. exact I. }
    rewrite X. apply Permutation_refl.
  - cbn [negb map snd]. fold (adel m k). eapply Permutation_trans; [apply perm_skip; apply IH; assumption|]. apply perm_swap.
Qed.
Lemma incl_adel l (m : list (bytes * nat)) k : incl l m -> ~ In k (keys l) -> incl l (adel m k).
Proof.
  intros C N p I. unfold adel. apply filter_In. split; [exact (C p I)|]. destruct p as [a b]. cbn [fst]. case_eqb k a; [|reflexivity].
  exfalso. apply N. subst a. change k with (fst (k, b)). apply in_map. exact I.
Qed.
Lemma nodup_sub l : forall m : list (bytes * nat), NoDup (keys m) -> NoDup (keys l) -> incl l m ->
  exists r, Permutation (map snd m) (map snd l ++ r).
Proof.
  induction l as [|[k v] l IH]; intros m Nm Nl C; [exists (map snd m); apply Permutation_refl|].
  cbn [keys map fst] in Nl. inversion Nl as [|? ? N1 N2]; subst.
  assert (E : aget m k = Some v) by (apply in_aget; [exact Nm|apply C; left; reflexivity]).
  destruct (IH (adel m k)) as (r & P).
  - apply NoDup_keys_adel. exact Nm.
  - exact N2.
  - apply incl_adel; [|exact N1]. intros p I. apply C. right. exact I.
  - exists r. cbn [map snd app]. eapply Permutation_trans; [apply (perm_adel m k v Nm E)|]. apply perm_skip. exact P.
Qed.
Lemma PJ_perm {A} (x y z : list A) : Permutation x (y ++ z) -> NoDup x -> NoDup y.
Proof. intros P N. apply (Permutation_NoDup P) in N. clear P. induction y as [|a y IH]; [constructor|]. inversion N; subst. constructor; [intros I; apply H1; apply in_or_app; left; exact I|apply IH; assumption]. Qed.
Lemma keys_snoc (m : list (bytes * nat)) k v : NoDup (keys m) -> aget m k = None -> NoDup (keys (m ++ [(k, v)])).
Proof.
  intros N E. unfold keys. rewrite map_app. cbn [map fst]. apply aget_none_notin in E. eapply Permutation_NoDup; [apply Permutation_cons_append|]. constructor; assumption.
Qed.
Lemma aget_snoc (m : list (bytes * nat)) k v k0 : k0 <> k -> aget (m ++ [(k, v)]) k0 = aget m k0.
Proof. intros D. induction m as [|[a b] m IH]; cbn [aget app]; [rewrite (proj2 (eqb_neq k0 k) D); reflexivity|]. destruct (eqb k0 a); [reflexivity|exact IH]. Qed.
Lemma adel_snoc (m : list (bytes * nat)) k v k0 : k0 <> k -> adel (m ++ [(k, v)]) k0 = adel m k0 ++ [(k, v)].
Proof. intros D. unfold adel. rewrite filter_app. cbn [filter fst]. rewrite (proj2 (eqb_neq k0 k) D). reflexivity. Qed.

Lemma NoDup_app_r {A} (x y : list A) : NoDup (x ++ y) -> NoDup y.
Proof. induction x as [|a x IH]; intros N; [exact N|]. inversion N; subst. apply IH. assumption. Qed.
Lemma incl_perm {A} (x y a : list A) : Permutation x y -> incl x a -> incl y a.
Proof. intros P C z I. apply C. eapply Permutation_in; [apply Permutation_sym; exact P|exact I]. Qed.

Lemma PJ_step all s o s' : PJ all s -> pdo o s = Some s' -> (o = PStart -> quiet s) ->
  (forall k id, o = PSignal k id -> ~ In id all) ->
  PJ (match o with PSignal _ id => all ++ [id] | _ => all end) s'.
Proof.
  intros (FS & FR & NK & OFF & RO & ND & IN) D Q FRESH. destruct o as [| |k id|i|i|i|i|i|i|i|i|i]; cbn [pdo] in D.
  - (* start *)
    destruct (p_on s) eqn:On; [discriminate|]. injection D as <-. destruct (Q eq_refl) as (Q1 & Q2).
    unfold PJ, rangeOk, pend, sent, headS, headR, quiet in *. cbn [p_on p_map p_gen p_queue p_sam p_rd p_out tl handR map keys app] in *.
    repeat split; try assumption; try constructor.
    + apply NoDup_app_r in ND. apply NoDup_app_r in ND. apply NoDup_app_r in ND. exact ND.
    + intros x I. apply IN. apply in_or_app; right. apply in_or_app; right. apply in_or_app; right. exact I.
  - (* stop *)
    destruct (p_on s) eqn:On; [|discriminate]. injection D as <-.
    assert (FS' : Forall overS (tl (map wakeS (p_sam s)))).
    { destruct (p_sam s) as [|x l]; [constructor|]. cbn [tl map] in *. rewrite Forall_map. eapply Forall_impl; [|exact FS]. intros y ->. reflexivity. }
    assert (FR' : Forall overR (tl (map wakeR (p_rd s)))).
    { destruct (p_rd s) as [|x l]; [constructor|]. cbn [tl map] in *. rewrite Forall_map. eapply Forall_impl; [|exact FR]. intros y ->. reflexivity. }
    assert (H : handR (match map wakeR (p_rd s) with [] => REnd | x :: _ => x end) = handR (headR s)).
    { unfold headR. destruct (p_rd s) as [|[] l]; reflexivity. }
    assert (B : exists l, pend {| p_on := false; p_map := []; p_gen := S (p_gen s); p_queue := []; p_sam := map wakeS (p_sam s); p_rd := map wakeR (p_rd s); p_out := p_out s |} = l
              /\ exists r, Permutation (pend s) (l ++ r)).
    { eexists. split; [reflexivity|]. unfold pend, rangeOk, headS in *. cbn [p_sam p_map p_gen] in *. destruct (p_sam s) as [|x l]; [exists (map snd (p_map s)); apply Permutation_refl|]. cbn [map].
      destruct x as [| |l0 g|k l0 g|]; cbn [wakeS map app]; try (eexists; apply Permutation_refl).
      - destruct RO as (G & RO). destruct (Nat.eqb_spec g (S (p_gen s))) as [->|_]; [lia|].
        destruct (Nat.eqb g (p_gen s)); [|congruence]. destruct RO as (N & C). exact (nodup_sub _ _ NK N C).
      - destruct RO as (G & RO). destruct (Nat.eqb_spec g (S (p_gen s))) as [->|_]; [lia|].
        destruct (Nat.eqb g (p_gen s)); [|congruence]. destruct RO as (N & C & _). inversion N; subst.
        apply nodup_sub; [apply NoDup_keys_adel; exact NK|assumption|apply incl_adel; assumption]. }
    destruct B as (l & B1 & r & B2).
    assert (P : Permutation (pend s ++ sent s) ((l ++ handR (headR s) ++ p_out s) ++ r ++ p_queue s)).
    { unfold sent. eapply Permutation_trans; [apply Permutation_app_tail; exact B2|]. rewrite <- !app_assoc. apply Permutation_app_head.
      rewrite (app_assoc r), (app_assoc (handR (headR s))). apply Permutation_app_comm. }
    unfold PJ. rewrite B1. unfold sent, headR. cbn [p_on p_map p_gen p_queue p_sam p_rd p_out app]. rewrite H.
    split; [exact FS'|]. split; [exact FR'|]. split; [constructor|]. split; [reflexivity|]. split; [|split].
    + unfold rangeOk, headS in *. cbn [p_sam p_map p_gen p_on]. destruct (p_sam s) as [|x l0]; [exact Logic.I|]. cbn [map].
      destruct x as [| |l1 g|k l1 g|]; cbn [wakeS]; try exact Logic.I; destruct RO as (G & RO); (split; [lia|]); destruct (Nat.eqb_spec g (S (p_gen s))); [lia|reflexivity|lia|reflexivity].
    + exact (PJ_perm _ _ _ P ND).
    + intros x I. apply IN. eapply Permutation_in; [apply Permutation_sym; exact P|]. apply in_or_app. left. exact I.
  - (* signal *)
    injection D as <-. assert (Fr : ~ In id all) by (apply (FRESH k id eq_refl)).
    assert (W : PJ (all ++ [id]) s).
    { repeat split; try assumption. intros x I. apply in_or_app. left. apply IN. exact I. }
    destruct (p_on s) eqn:On; [|exact W]. destruct (aget (p_map s) k) eqn:A; [exact W|]. clear W.
    assert (P : pend (setMap s (p_map s ++ [(k, id)])) = pend s ++ [id]).
    { unfold pend, rangeOk, setMap, headS in *. cbn [p_sam p_map p_gen] in *. destruct (p_sam s) as [|x l]; [rewrite map_app; reflexivity|].
      destruct x as [| |l0 g|k0 l0 g|]; try (rewrite map_app; reflexivity).
      - destruct RO as (G & RO). destruct (Nat.eqb g (p_gen s)); [rewrite map_app; reflexivity|congruence].
      - destruct RO as (G & RO). destruct (Nat.eqb g (p_gen s)); [|congruence]. destruct RO as (N & C & v & V & I).
        rewrite adel_snoc, map_app; [reflexivity|]. intros ->. congruence. }
    unfold PJ. rewrite P. change (sent (setMap s (p_map s ++ [(k, id)]))) with (sent s). unfold setMap. cbn [p_on p_map p_gen p_queue p_sam p_rd p_out].
    split; [exact FS|]. split; [exact FR|]. split; [apply keys_snoc; assumption|]. split; [congruence|]. split; [|split].
    + unfold rangeOk, headS in *. cbn [p_sam p_map p_gen p_on]. destruct (p_sam s) as [|x l]; [exact Logic.I|].
      destruct x as [| |l0 g|k0 l0 g|]; try exact Logic.I; destruct RO as (G & RO); (split; [exact G|]); destruct (Nat.eqb g (p_gen s)); try congruence.
      * destruct RO as (N & C). split; [exact N|]. intros p I. apply in_or_app. left. apply C. exact I.
      * destruct RO as (N & C & v & V & I). split; [exact N|]. split; [intros p J; apply in_or_app; left; apply C; exact J|].
        exists v. split; [|exact I]. rewrite aget_snoc; [exact V|]. intros ->. congruence.
    + rewrite <- app_assoc. eapply Permutation_NoDup; [apply Permutation_middle|]. constructor; [|exact ND]. intros I. apply Fr. apply IN. exact I.
    + intros x I. rewrite <- app_assoc in I. apply in_or_app. apply in_app_or in I. destruct I as [I|I]; [left; apply IN; apply in_or_app; left; exact I|].
      apply in_app_or in I. destruct I as [[->|[]]|I]; [right; left; reflexivity|]. left. apply IN. apply in_or_app. right. exact I.
  - (* sampler parks *)
    destruct (nth_error (p_sam s) i) as [x|] eqn:E; [|discriminate]. destruct (nth_over _ _ _ _ FS E) as [->|O]; [|rewrite O in D; discriminate].
    destruct x; try discriminate. destruct (p_on s) eqn:On; [|discriminate]. injection D as <-.
    unfold PJ, rangeOk, pend, sent, headS, headR, setSam in *. cbn [p_on p_map p_gen p_queue p_sam p_rd p_out]. rewrite (upd_0 _ _ _ E).
    destruct (p_sam s) as [|y l]; [discriminate|]. injection E as ->. cbn [tl] in *. repeat split; try assumption. congruence.
  - (* sampler starts to range *)
    destruct (nth_error (p_sam s) i) as [x|] eqn:E; [|discriminate]. destruct (nth_over _ _ _ _ FS E) as [->|O]; [|rewrite O in D; discriminate].
    assert (X : s' = setSam s 0 (SRange (p_map s) (p_gen s)) /\ (x = SHead \/ x = SWait)) by (destruct x; try discriminate; injection D as <-; auto). clear D. destruct X as (-> & X).
    unfold PJ, rangeOk, pend, sent, headS, headR, setSam in *. cbn [p_on p_map p_gen p_queue p_sam p_rd p_out]. rewrite (upd_0 _ _ _ E).
    destruct (p_sam s) as [|y l]; [discriminate|]. injection E as ->. cbn [tl] in *. rewrite Nat.eqb_refl.
    assert (ND' : NoDup (map snd (p_map s) ++ p_queue s ++ handR match p_rd s with [] => REnd | z :: _ => z end ++ p_out s)) by (destruct X as [->| ->]; exact ND).
    assert (IN' : incl (map snd (p_map s) ++ p_queue s ++ handR match p_rd s with [] => REnd | z :: _ => z end ++ p_out s) all) by (destruct X as [->| ->]; exact IN).
    split; [exact FS|]. split; [exact FR|]. split; [exact NK|]. split; [exact OFF|]. split; [split; [lia|split; [exact NK|apply incl_refl]]|]. split; assumption.
  - (* sampler visits *)
    destruct (nth_error (p_sam s) i) as [x|] eqn:E; [|discriminate]. destruct (nth_over _ _ _ _ FS E) as [->|O]; [|rewrite O in D; discriminate].
    destruct x as [| |l g| |]; try discriminate. destruct l as [|[k id] l].
    + injection D as <-. unfold PJ, rangeOk, pend, sent, headS, headR, setSam in *. cbn [p_on p_map p_gen p_queue p_sam p_rd p_out]. rewrite (upd_0 _ _ _ E).
      destruct (p_sam s) as [|y m]; [discriminate|]. injection E as ->. cbn [tl] in *. destruct RO as (G & RO). destruct (Nat.eqb g (p_gen s)).
      * repeat split; assumption.
      * rewrite (OFF RO) in *. cbn [map] in *. repeat split; try assumption; try constructor.
    + assert (RO' := RO). unfold rangeOk, headS in RO. destruct (p_sam s) as [|y m] eqn:Sam; [discriminate|]. cbn [nth_error] in E. injection E as ->. destruct RO as (G & RO).
      assert (V : (if Nat.eqb g (p_gen s) then aget (p_map s) k else Some id) = Some id).
      { destruct (Nat.eqb g (p_gen s)); [|reflexivity]. destruct RO as (N & C). apply in_aget; [exact NK|]. apply C. left. reflexivity. }
      rewrite V in D. injection D as <-.
      assert (P : Permutation (pend s ++ sent s) (pend (setQueue (setSam s 0 (SDel k l g)) (p_queue s ++ [id])) ++ sent (setQueue (setSam s 0 (SDel k l g)) (p_queue s ++ [id])))).
      { unfold pend, sent, headS, headR, setQueue, setSam. cbn [p_on p_map p_gen p_queue p_sam p_rd p_out]. rewrite Sam. cbn [upd].
        assert (Z : forall A B C D : list nat, Permutation A (id :: B) -> Permutation (A ++ C ++ D) (B ++ (C ++ [id]) ++ D)).
        { intros A B C D' H. eapply Permutation_trans; [apply Permutation_app_tail; exact H|]. cbn [app]. rewrite <- app_assoc. cbn [app].
          rewrite !app_assoc. eapply Permutation_trans; [|apply Permutation_middle]. rewrite <- app_assoc. apply perm_skip. rewrite app_assoc. apply Permutation_refl. }
        apply Z. destruct (Nat.eqb g (p_gen s)); [apply perm_adel; [exact NK|exact V]|apply Permutation_refl]. }
      assert (ND' := Permutation_NoDup P ND). assert (IN' := incl_perm _ _ _ P IN).
      unfold PJ. split; [|split; [|split; [|split; [|split; [|split; assumption]]]]].
      * unfold setQueue, setSam. cbn [p_sam]. rewrite Sam. cbn [upd tl] in *. exact FS.
      * exact FR.
      * exact NK.
      * exact OFF.
      * unfold rangeOk, sent, headS, headR, setQueue, setSam. cbn [p_on p_map p_gen p_queue p_sam p_rd p_out]. rewrite Sam. cbn [upd]. split; [exact G|].
        destruct (Nat.eqb g (p_gen s)); [|exact RO]. destruct RO as (N & C). split; [exact N|]. split; [intros p J; apply C; right; exact J|].
        exists id. split; [exact V|]. apply in_or_app. left. apply in_or_app. right. left. reflexivity.
  - (* sampler deletes *)
    destruct (nth_error (p_sam s) i) as [x|] eqn:E; [|discriminate]. destruct (nth_over _ _ _ _ FS E) as [->|O]; [|rewrite O in D; discriminate].
    destruct x as [| | |k l g|]; try discriminate. injection D as <-.
    unfold PJ, rangeOk, pend, sent, headS, headR, setSam, setMap in *. cbn [p_on p_map p_gen p_queue p_sam p_rd p_out]. rewrite (upd_0 _ _ _ E).
    destruct (p_sam s) as [|y m]; [discriminate|]. injection E as ->. cbn [tl] in *. destruct RO as (G & RO).
    split; [exact FS|]. split; [exact FR|]. split; [apply NoDup_keys_adel; exact NK|]. split; [intros O; rewrite (OFF O); reflexivity|].
    destruct (Nat.eqb g (p_gen s)) eqn:GE.
    + destruct RO as (N & C & _). inversion N; subst. repeat split; try assumption. apply incl_adel; assumption.
    + repeat split; assumption.
  - (* sampler returns *)
    destruct (nth_error (p_sam s) i) as [x|] eqn:E; [|discriminate]. destruct (nth_over _ _ _ _ FS E) as [->|O]; [|rewrite O in D; discriminate].
    destruct x; try discriminate. destruct (p_on s) eqn:On; [discriminate|]. injection D as <-.
    unfold PJ, rangeOk, pend, sent, headS, headR, setSam in *. cbn [p_on p_map p_gen p_queue p_sam p_rd p_out]. rewrite (upd_0 _ _ _ E).
    destruct (p_sam s) as [|y l]; [discriminate|]. injection E as ->. cbn [tl] in *. repeat split; try assumption. intros _. exact (OFF eq_refl).
  - (* reader parks *)
    destruct (nth_error (p_rd s) i) as [x|] eqn:E; [|discriminate]. destruct (nth_over _ _ _ _ FR E) as [->|O]; [|rewrite O in D; discriminate].
    destruct x; try discriminate. destruct (p_on s) eqn:On; [|discriminate]. injection D as <-.
    unfold PJ, rangeOk, pend, sent, headS, headR, setRd in *. cbn [p_on p_map p_gen p_queue p_sam p_rd p_out]. rewrite (upd_0 _ _ _ E).
    destruct (p_rd s) as [|y l]; [discriminate|]. injection E as ->. cbn [tl handR] in *. repeat split; try assumption. congruence.
  - (* reader takes *)
    destruct (nth_error (p_rd s) i) as [x|] eqn:E; [|discriminate]. destruct (nth_over _ _ _ _ FR E) as [->|O]; [|rewrite O in D; discriminate].
    assert (X : exists id q, p_queue s = id :: q /\ s' = setQueue (setRd s 0 (RWork id)) q /\ handR x = []).
    { destruct x; try discriminate; destruct (p_queue s) as [|id q]; try discriminate; injection D as <-; exists id, q; auto. }
    destruct X as (id & q & Q0 & -> & HX). clear D.
    destruct (p_rd s) as [|y l] eqn:Rd; [discriminate|]. injection E as ->.
    assert (SP : Permutation (sent s) (sent (setQueue (setRd s 0 (RWork id)) q))).
    { unfold sent, headR, setQueue, setRd. cbn [p_on p_map p_gen p_queue p_sam p_rd p_out]. rewrite Rd, Q0. cbn [upd handR app]. rewrite HX. cbn [app]. apply Permutation_middle. }
    assert (P : Permutation (pend s ++ sent s) (pend (setQueue (setRd s 0 (RWork id)) q) ++ sent (setQueue (setRd s 0 (RWork id)) q))) by (apply Permutation_app_head; exact SP).
    unfold PJ. split; [exact FS|]. split; [unfold setQueue, setRd; cbn [p_rd]; rewrite Rd; exact FR|]. split; [exact NK|]. split; [exact OFF|].
    split; [|split; [exact (Permutation_NoDup P ND)|exact (incl_perm _ _ _ P IN)]].
    unfold rangeOk in *. change (headS (setQueue (setRd s 0 (RWork id)) q)) with (headS s). destruct (headS s); try exact RO.
    destruct RO as (G & RO). split; [exact G|]. cbn [p_gen setQueue setRd p_map p_on]. destruct (Nat.eqb g (p_gen s)); [|exact RO]. destruct RO as (N & C & v & V & J).
    split; [exact N|]. split; [exact C|]. exists v. split; [exact V|]. eapply Permutation_in; eauto.
  - (* reader stores *)
    destruct (nth_error (p_rd s) i) as [x|] eqn:E; [|discriminate]. destruct (nth_over _ _ _ _ FR E) as [->|O]; [|rewrite O in D; discriminate].
    destruct x as [| |id|]; try discriminate. injection D as <-.
    destruct (p_rd s) as [|y l] eqn:Rd; [discriminate|]. injection E as ->.
    assert (SP : Permutation (sent s) (sent (store (setRd s 0 RHead) id))).
    { unfold sent, headR, store, setRd. cbn [p_on p_map p_gen p_queue p_sam p_rd p_out]. rewrite Rd. cbn [upd handR app]. apply Permutation_app_head. apply Permutation_cons_append. }
    assert (P : Permutation (pend s ++ sent s) (pend (store (setRd s 0 RHead) id) ++ sent (store (setRd s 0 RHead) id))) by (apply Permutation_app_head; exact SP).
    unfold PJ. split; [exact FS|]. split; [unfold store, setRd; cbn [p_rd]; rewrite Rd; exact FR|]. split; [exact NK|]. split; [exact OFF|].
    split; [|split; [exact (Permutation_NoDup P ND)|exact (incl_perm _ _ _ P IN)]].
    unfold rangeOk in *. change (headS (store (setRd s 0 RHead) id)) with (headS s). destruct (headS s); try exact RO.
    destruct RO as (G & RO). split; [exact G|]. cbn [p_gen store setRd p_map p_on]. destruct (Nat.eqb g (p_gen s)); [|exact RO]. destruct RO as (N & C & v & V & J).
    split; [exact N|]. split; [exact C|]. exists v. split; [exact V|]. eapply Permutation_in; eauto.
  - (* reader returns *)
    destruct (nth_error (p_rd s) i) as [x|] eqn:E; [|discriminate]. destruct (nth_over _ _ _ _ FR E) as [->|O]; [|rewrite O in D; discriminate].
    destruct x; try discriminate. destruct (p_on s) eqn:On; [discriminate|]. injection D as <-.
    unfold PJ, rangeOk, pend, sent, headS, headR, setRd in *. cbn [p_on p_map p_gen p_queue p_sam p_rd p_out]. rewrite (upd_0 _ _ _ E).
    destruct (p_rd s) as [|y l]; [discriminate|]. injection E as ->. cbn [tl handR] in *. repeat split; try assumption. intros _. exact (OFF eq_refl).
Qed.

Lemma PJ_run h : forall s, prun h p0 = Some s -> clean h -> NoDup (arrived h) -> PJ (arrived h) s.
Proof.
  induction h as [|o h IH] using rev_ind; intros s R C N.
  - injection R as <-. unfold PJ, rangeOk, pend, sent, headS, headR, p0. cbn. repeat split; try constructor. intros x [].
  - destruct (prun_snoc _ _ _ _ R) as (s1 & R1 & D). rewrite arrived_app in *.
    assert (N1 : NoDup (arrived h)) by (eapply PJ_perm; [apply Permutation_refl|exact N]).
    assert (J := IH s1 R1 (clean_app _ _ C) N1).
    assert (X := PJ_step _ _ _ _ J D). destruct o; cbn [arrived] in *; rewrite ?app_nil_r in *; apply X; try discriminate.
    + intros _. exact (C h [] s1 eq_refl R1).
    + intros k0 id0 [= <- <-]. apply Permutation_NoDup with (l' := id :: arrived h) in N; [|apply Permutation_sym, Permutation_cons_append]. inversion N; assumption.
Qed.

(** ** Nothing is lost while profiling stays on *)
Lemma sent_held s v : In v (sent s) -> In v (p_queue s) \/ In (RWork v) (p_rd s) \/ In v (p_out s).
Proof.
  intros I. unfold sent in I. apply in_app_or in I. destruct I as [I|I]; [left; exact I|]. apply in_app_or in I.
  destruct I as [I|I]; [|right; right; exact I]. right; left. unfold headR in I. destruct (p_rd s) as [|x l]; [destruct I|].
  destruct x; cbn [handR] in I; try (destruct I; fail). destruct I as [->|[]]. left. reflexivity.
Qed.
Lemma In_upd {A} (l : list A) i x y z : In z l -> nth_error l i = Some y -> z <> y -> In z (upd l i x).
Proof.
  revert i. induction l as [|a l IH]; intros i I E D; [destruct I|]. destruct i as [|i]; cbn [nth_error upd] in *.
  - injection E as ->. destruct I as [->|I]; [contradiction|]. right. exact I.
  - destruct I as [->|I]; [left; reflexivity|]. right. exact (IH i I E D).
Qed.
Lemma In_upd_new {A} (l : list A) i x y : nth_error l i = Some y -> In x (upd l i x).
Proof. revert i. induction l as [|a l IH]; intros i E; destruct i as [|i]; try discriminate; cbn [nth_error upd] in *; [left; reflexivity|right; exact (IH i E)]. Qed.

Lemma held_step all s o s' id : PJ all s -> pdo o s = Some s' -> o <> PStop -> p_on s = true -> held s id -> held s' id /\ p_on s' = true.
Proof.
  intros J D NS On H. destruct o as [| |k v|i|i|i|i|i|i|i|i|i]; cbn [pdo] in D; rewrite ?On in D; try discriminate; try contradiction.
  - injection D as <-. destruct (aget (p_map s) k); [split; assumption|]. split; [|exact On]. destruct H as [H|H]; [|right; exact H]. left. unfold setMap. cbn [p_map]. rewrite map_app. apply in_or_app. left. exact H.
  - destruct (nth_error (p_sam s) i) as [[]|]; try discriminate. injection D as <-. split; assumption.
  - destruct (nth_error (p_sam s) i) as [[]|]; try discriminate; injection D as <-; split; assumption.
  - destruct (nth_error (p_sam s) i) as [[| |l g| |]|]; try discriminate. destruct l as [|[k v] l]; [injection D as <-; split; assumption|].
    destruct (if Nat.eqb g (p_gen s) then aget (p_map s) k else Some v) as [u|]; injection D as <-; [|split; assumption]. split; [|exact On].
    destruct H as [H|[H|H]]; [left; exact H| |right; right; exact H]. right; left. unfold setQueue. cbn [p_queue]. apply in_or_app. left. exact H.
  - destruct J as (FS & _ & NK & _ & RO & _). destruct (nth_error (p_sam s) i) as [x|] eqn:E; [|discriminate]. destruct (nth_over _ _ _ _ FS E) as [->|O]; [|rewrite O in D; discriminate].
    destruct x as [| | |k l g|]; try discriminate. injection D as <-. split; [|exact On]. unfold rangeOk, headS in RO. destruct (p_sam s) as [|y m]; [discriminate|]. injection E as ->. destruct RO as (_ & RO).
    destruct (Nat.eqb g (p_gen s)); [|congruence]. destruct RO as (_ & _ & v & V & I).
    destruct H as [H|H]; [|right; exact H].
    assert (P := perm_adel _ _ _ NK V). apply (Permutation_in _ P) in H. destruct H as [<-|H]; [|left; exact H].
    right. exact (sent_held _ _ I).
  - destruct (nth_error (p_sam s) i) as [[]|]; discriminate.
  - destruct (nth_error (p_rd s) i) as [[]|] eqn:E; try discriminate. injection D as <-. split; [|exact On].
    destruct H as [H|[H|[H|H]]]; [left|right; left|right; right; left|right; right; right]; try exact H. unfold setRd. cbn [p_rd]. eapply In_upd; [exact H|exact E|discriminate].
  - assert (X : exists x v q, nth_error (p_rd s) i = Some x /\ (forall w, RWork w <> x) /\ p_queue s = v :: q /\ s' = setQueue (setRd s i (RWork v)) q).
    { destruct (nth_error (p_rd s) i) as [x|]; [|discriminate]. destruct x; try discriminate; destruct (p_queue s) as [|v q]; try discriminate; injection D as <-;
        eexists _, v, q; (split; [reflexivity|split; [discriminate|split; reflexivity]]). }
    destruct X as (x & v & q & E & DX & Q & ->). split; [|exact On]. unfold held, setQueue, setRd. cbn [p_map p_queue p_rd p_out].
    destruct H as [H|[H|[H|H]]]; [left; exact H| |right; right; left; eapply In_upd; eauto|right; right; right; exact H].
    rewrite Q in H. destruct H as [->|H]; [right; right; left; eapply In_upd_new; eauto|right; left; exact H].
  - destruct (nth_error (p_rd s) i) as [[| |v|]|] eqn:E; try discriminate. injection D as <-. split; [|exact On]. unfold held, store, setRd. cbn [p_map p_queue p_rd p_out].
    destruct H as [H|[H|[H|H]]]; [left; exact H|right; left; exact H| |right; right; right; apply in_or_app; left; exact H].
    destruct (Nat.eq_dec id v) as [->|N]; [right; right; right; apply in_or_app; right; left; reflexivity|]. right; right; left. eapply In_upd; [exact H|exact E|congruence].
  - destruct (nth_error (p_rd s) i) as [[]|]; discriminate.
Qed.

(** ** The goroutines of a session can return once profiling is off *)
Definition ofWorkers (o : pop_) : Prop := match o with PStart | PStop | PSignal _ _ => False | _ => True end.
Definition noParked (s : pst) : Prop := p_on s = false -> Forall (fun x => x <> SWait) (p_sam s) /\ Forall (fun x => x <> RWait) (p_rd s).
Lemma Forall_upd {A} (P : A -> Prop) l i x : Forall P l -> P x -> Forall P (upd l i x).
Proof. revert i. induction l as [|a l IH]; intros i F H; [constructor|]. inversion F; subst. destruct i; cbn [upd]; constructor; auto. Qed.
Lemma noParked_step s o s' : noParked s -> pdo o s = Some s' -> noParked s'.
Proof.
  intros N D. unfold noParked in *. destruct o as [| |k v|i|i|i|i|i|i|i|i|i]; cbn [pdo] in D.
  - destruct (p_on s); [discriminate|]. injection D as <-. cbn [p_on]. discriminate.
  - destruct (p_on s); [|discriminate]. injection D as <-. intros _. cbn [p_sam p_rd]. rewrite !Forall_map. split; apply Forall_forall; intros x _; destruct x; discriminate.
  - injection D as <-. destruct (p_on s) eqn:On; [|rewrite On; exact N]. destruct (aget (p_map s) k); [rewrite On; exact N|]. unfold setMap. cbn [p_on]. congruence.
  - destruct (nth_error (p_sam s) i) as [[]|]; try discriminate. destruct (p_on s) eqn:On; [|discriminate]. injection D as <-. unfold setSam. cbn [p_on]. congruence.
  - destruct (nth_error (p_sam s) i) as [[]|]; try discriminate; injection D as <-; intros O; destruct (N O); (split; [apply Forall_upd; [assumption|discriminate]|assumption]).
  - destruct (nth_error (p_sam s) i) as [[| |l g| |]|]; try discriminate. destruct l as [|[k v] l]; [|destruct (if Nat.eqb g (p_gen s) then aget (p_map s) k else Some v)];
      injection D as <-; intros O; destruct (N O); (split; [apply Forall_upd; [assumption|discriminate]|assumption]).
  - destruct (nth_error (p_sam s) i) as [[]|]; try discriminate; injection D as <-; intros O; destruct (N O); (split; [apply Forall_upd; [assumption|discriminate]|assumption]).
  - destruct (nth_error (p_sam s) i) as [[]|]; try discriminate. destruct (p_on s); [discriminate|]. injection D as <-; intros O; destruct (N eq_refl); (split; [apply Forall_upd; [assumption|discriminate]|assumption]).
  - destruct (nth_error (p_rd s) i) as [[]|]; try discriminate. destruct (p_on s) eqn:On; [|discriminate]. injection D as <-. unfold setRd. cbn [p_on]. congruence.
  - destruct (nth_error (p_rd s) i) as [x|]; [|discriminate]. destruct x; try discriminate; destruct (p_queue s) as [|v q]; try discriminate; injection D as <-; intros O; destruct (N O); (split; [assumption|apply Forall_upd; [assumption|discriminate]]).
  - destruct (nth_error (p_rd s) i) as [[]|]; try discriminate; injection D as <-; intros O; destruct (N O); (split; [assumption|apply Forall_upd; [assumption|discriminate]]).
  - destruct (nth_error (p_rd s) i) as [[]|]; try discriminate. destruct (p_on s); [discriminate|]. injection D as <-; intros O; destruct (N eq_refl); (split; [assumption|apply Forall_upd; [assumption|discriminate]]).
Qed.
Lemma noParked_run h : forall s s', noParked s -> prun h s = Some s' -> noParked s'.
Proof. induction h as [|o h IH]; intros s s' N R; cbn [prun] in R; [injection R as <-; exact N|]. destruct (pdo o s) as [s1|] eqn:D; [|discriminate]. eapply IH; [eapply noParked_step; eauto|exact R]. Qed.

Lemma nth_upd_same {A} (l : list A) i x y : nth_error l i = Some y -> nth_error (upd l i x) i = Some x.
Proof. revert i. induction l as [|a l IH]; intros [|i] E; try discriminate; [reflexivity|]. cbn [nth_error upd] in *. exact (IH i E). Qed.
Lemma upd_upd {A} (l : list A) i x y : upd (upd l i x) i y = upd l i y.
Proof. revert i. induction l as [|a l IH]; intros [|i]; cbn [upd]; try reflexivity. rewrite IH. reflexivity. Qed.
Lemma upd_length {A} (l : list A) i x : List.length (upd l i x) = List.length l.
Proof. revert i. induction l as [|a l IH]; intros [|i]; cbn [upd List.length]; try reflexivity. rewrite IH. reflexivity. Qed.

(** goroutine [i] of a kind returns; the others are where they were *)
Definition endsS (s : pst) (i : nat) : Prop := exists h s', Forall ofWorkers h /\ prun h s = Some s' /\ p_on s' = false /\ p_sam s' = upd (p_sam s) i SEnd /\ p_rd s' = p_rd s.
Lemma ends_head s i : p_on s = false -> nth_error (p_sam s) i = Some SHead -> endsS s i.
Proof. intros O E. exists [PSQuit i]. eexists. split; [constructor; [exact Logic.I|constructor]|]. cbn [prun pdo]. rewrite E, O. split; [reflexivity|]. split; [exact O|]. split; reflexivity. Qed.
Lemma endsS_trans s s1 o i x : ofWorkers o -> pdo o s = Some s1 -> p_sam s1 = upd (p_sam s) i x -> p_rd s1 = p_rd s -> endsS s1 i -> endsS s i.
Proof.
  intros W D PS PR (h & s' & F & R & O & S1 & R1). exists (o :: h), s'. split; [constructor; assumption|]. cbn [prun]. rewrite D. split; [exact R|]. split; [exact O|].
  rewrite S1, PS, upd_upd, R1, PR. split; reflexivity.
Qed.
Lemma ends_range l : forall s i g, p_on s = false -> nth_error (p_sam s) i = Some (SRange l g) -> endsS s i.
Proof.
  induction l as [|[k v] l IH]; intros s i g O E.
  - eapply (endsS_trans s (setSam s i SHead) (PSVisit i)); [exact Logic.I|cbn [pdo]; rewrite E; reflexivity|reflexivity|reflexivity|]. apply ends_head; [exact O|]. cbn [setSam p_sam]. eapply nth_upd_same; eauto.
  - destruct (if Nat.eqb g (p_gen s) then aget (p_map s) k else Some v) as [u|] eqn:V.
    + eapply (endsS_trans s (setQueue (setSam s i (SDel k l g)) (p_queue s ++ [u])) (PSVisit i)); [exact Logic.I|cbn [pdo]; rewrite E, V; reflexivity|reflexivity|reflexivity|].
      set (s1 := setQueue _ _). assert (E1 : nth_error (p_sam s1) i = Some (SDel k l g)) by (unfold s1; cbn [setQueue setSam p_sam]; eapply nth_upd_same; eauto).
      eapply (endsS_trans s1 (setMap (setSam s1 i (SRange l g)) (adel (p_map s1) k)) (PSDel i)); [exact Logic.I|cbn [pdo]; rewrite E1; reflexivity|reflexivity|reflexivity|].
      apply (IH _ i g); [exact O|]. cbn [setMap setSam p_sam]. eapply nth_upd_same; eauto.
    + eapply (endsS_trans s (setSam s i (SRange l g)) (PSVisit i)); [exact Logic.I|cbn [pdo]; rewrite E, V; reflexivity|reflexivity|reflexivity|].
      apply (IH _ i g); [exact O|]. cbn [setSam p_sam]. eapply nth_upd_same; eauto.
Qed.
Lemma upd_same {A} (l : list A) i x : nth_error l i = Some x -> upd l i x = l.
Proof. revert i. induction l as [|a l IH]; intros [|i] E; try discriminate; cbn [nth_error upd] in *; [injection E as ->; reflexivity|]. rewrite (IH i E). reflexivity. Qed.
Lemma ends_any s i x : p_on s = false -> nth_error (p_sam s) i = Some x -> x <> SWait -> endsS s i.
Proof.
  intros O E N. destruct x as [| |l g|k l g|]; [apply ends_head; assumption|contradiction|eapply ends_range; eassumption| |].
  - eapply (endsS_trans s (setMap (setSam s i (SRange l g)) (adel (p_map s) k)) (PSDel i)); [exact Logic.I|cbn [pdo]; rewrite E; reflexivity|reflexivity|reflexivity|].
    apply (ends_range l _ i g); [exact O|]. cbn [setMap setSam p_sam]. eapply nth_upd_same; eauto.
  - exists [], s. split; [constructor|]. split; [reflexivity|]. split; [exact O|]. split; [symmetry; apply upd_same; exact E|reflexivity].
Qed.
Definition endsR (s : pst) (i : nat) : Prop := exists h s', Forall ofWorkers h /\ prun h s = Some s' /\ p_on s' = false /\ p_rd s' = upd (p_rd s) i REnd /\ p_sam s' = p_sam s.
Lemma endsR_any s i x : p_on s = false -> nth_error (p_rd s) i = Some x -> x <> RWait -> endsR s i.
Proof.
  intros O E N. destruct x as [| |v|]; [|contradiction| |].
  - exists [PRQuit i]. eexists. split; [constructor; [exact Logic.I|constructor]|]. cbn [prun pdo]. rewrite E, O. split; [reflexivity|]. split; [exact O|]. split; reflexivity.
  - exists [PRPut i; PRQuit i]. eexists. split; [repeat (constructor; [exact Logic.I|]); constructor|]. cbn [prun pdo]. rewrite E. cbn [store setRd p_rd p_on]. rewrite (nth_upd_same _ _ _ _ E), O. split; [reflexivity|].
    split; [exact O|]. cbn [store setRd p_rd p_sam]. rewrite upd_upd. split; reflexivity.
  - exists [], s. split; [constructor|]. split; [reflexivity|]. split; [exact O|]. split; [symmetry; apply upd_same; exact E|reflexivity].
Qed.
Lemma upd_firstn {A} (P : A -> Prop) l n x : Forall P (firstn n l) -> P x -> Forall P (firstn (S n) (upd l n x)).
Proof. revert n. induction l as [|a l IH]; intros [|n] F H; cbn [upd firstn] in *; try constructor; auto; inversion F; subst; auto. Qed.
Lemma ends_all n : forall s, p_on s = false -> Forall (fun x => x <> SWait) (p_sam s) -> (n <= List.length (p_sam s))%nat ->
  exists h s', Forall ofWorkers h /\ prun h s = Some s' /\ p_on s' = false /\ Forall overS (firstn n (p_sam s')) /\ List.length (p_sam s') = List.length (p_sam s) /\
    Forall (fun x => x <> SWait) (p_sam s') /\ p_rd s' = p_rd s.
Proof.
  induction n as [|n IH]; intros s O F L.
  - exists [], s. repeat split; try constructor; assumption.
  - destruct (IH s O F ltac:(lia)) as (h & s1 & W & R & O1 & F1 & L1 & P1 & R1).
    destruct (nth_error (p_sam s1) n) as [x|] eqn:E; [|apply nth_error_None in E; lia].
    assert (X : x <> SWait) by (rewrite Forall_forall in P1; apply P1; eapply nth_error_In; eauto).
    destruct (ends_any s1 n x O1 E X) as (h2 & s2 & W2 & R2 & O2 & S2 & T2).
    exists (h ++ h2), s2. split; [apply Forall_app; split; assumption|]. split; [rewrite prun_app, R; exact R2|]. split; [exact O2|]. rewrite S2.
    split; [apply upd_firstn; [exact F1|reflexivity]|]. split; [rewrite upd_length; exact L1|]. split; [apply Forall_upd; [exact P1|discriminate]|congruence].
Qed.
Lemma endsR_all n : forall s, p_on s = false -> Forall (fun x => x <> RWait) (p_rd s) -> (n <= List.length (p_rd s))%nat ->
  exists h s', Forall ofWorkers h /\ prun h s = Some s' /\ p_on s' = false /\ Forall overR (firstn n (p_rd s')) /\ List.length (p_rd s') = List.length (p_rd s) /\
    Forall (fun x => x <> RWait) (p_rd s') /\ p_sam s' = p_sam s.
Proof.
  induction n as [|n IH]; intros s O F L.
  - exists [], s. repeat split; try constructor; assumption.
  - destruct (IH s O F ltac:(lia)) as (h & s1 & W & R & O1 & F1 & L1 & P1 & R1).
    destruct (nth_error (p_rd s1) n) as [x|] eqn:E; [|apply nth_error_None in E; lia].
    assert (X : x <> RWait) by (rewrite Forall_forall in P1; apply P1; eapply nth_error_In; eauto).
    destruct (endsR_any s1 n x O1 E X) as (h2 & s2 & W2 & R2 & O2 & S2 & T2).
    exists (h ++ h2), s2. split; [apply Forall_app; split; assumption|]. split; [rewrite prun_app, R; exact R2|]. split; [exact O2|]. rewrite S2.
    split; [apply upd_firstn; [exact F1|reflexivity]|]. split; [rewrite upd_length; exact L1|]. split; [apply Forall_upd; [exact P1|discriminate]|congruence].
Qed.
Lemma can_be_quiet s : noParked s -> p_on s = false -> exists h s', Forall ofWorkers h /\ prun h s = Some s' /\ quiet s'.
Proof.
  intros N O. destruct (N O) as (NS & NR).
  destruct (ends_all (List.length (p_sam s)) s O NS ltac:(lia)) as (h1 & s1 & W1 & R1 & O1 & F1 & L1 & _ & T1).
  destruct (endsR_all (List.length (p_rd s1)) s1 O1 ltac:(rewrite T1; exact NR) ltac:(lia)) as (h2 & s2 & W2 & R2 & O2 & F2 & L2 & _ & T2).
  exists (h1 ++ h2), s2. split; [apply Forall_app; split; assumption|]. split; [rewrite prun_app, R1; exact R2|]. split.
  - rewrite T2. rewrite <- L1, firstn_all in F1. exact F1.
  - rewrite <- L2, firstn_all in F2. exact F2.
Qed.

(** ** The routine of one trace *)
Lemma krun_runs w h : forall s s', krun w h s = Some s' -> (k_runs s + (if k_full s then 1 else 0) <= k_fired s)%nat ->
  (k_runs s' + (if k_full s' then 1 else 0) <= k_fired s')%nat /\ k_fired s' = (k_fired s + ticks h)%nat.
Proof.
  induction h as [|o h IH]; intros s s' R B; cbn [krun] in R; [injection R as <-; cbn [ticks]; split; [exact B|lia]|].
  destruct (kdo w o s) as [s1|] eqn:D; [|discriminate]. unfold kdo in D. destruct (k_done s); [discriminate|]. destruct o.
  - destruct (Nat.ltb (k_fired s) w || k_timer s); [|discriminate]. injection D as <-. destruct (IH _ _ R) as (X & Y); [cbn [k_runs k_full k_fired]; destruct (k_full s); lia|].
    split; [exact X|]. rewrite Y. cbn [k_fired ticks]. lia.
  - destruct (Nat.eqb (k_fired s) w && negb (k_timer s)); [|discriminate]. injection D as <-. destruct (IH _ _ R) as (X & Y); [exact B|]. split; [exact X|exact Y].
  - destruct (k_full s); [|discriminate]. injection D as <-. destruct (IH _ _ R) as (X & Y); [cbn [k_runs k_full k_fired]; lia|]. split; [exact X|exact Y].
  - destruct (k_ready s); [|discriminate]. injection D as <-. destruct (IH _ _ R) as (X & Y); [exact B|]. split; [exact X|exact Y].
Qed.
Lemma krun_before w h : forall s s', krun w h s = Some s' -> k_timer s' = false -> (k_timer s = false -> (k_fired s <= w)%nat) -> (k_fired s' <= w)%nat.
Proof.
  induction h as [|o h IH]; intros s s' R T B; cbn [krun] in R; [injection R as <-; exact (B T)|].
  destruct (kdo w o s) as [s1|] eqn:D; [|discriminate]. unfold kdo in D. destruct (k_done s); [discriminate|]. destruct o.
  - destruct (Nat.ltb_spec (k_fired s) w) as [L|L]; cbn [orb] in D; [|destruct (k_timer s) eqn:T0; [|discriminate]]; injection D as <-; (eapply IH; [exact R|exact T|]); cbn [k_timer k_fired]; intros; try congruence; lia.
  - destruct (Nat.eqb (k_fired s) w && negb (k_timer s)); [|discriminate]. injection D as <-. eapply IH; [exact R|exact T|]. cbn [k_timer]. discriminate.
  - destruct (k_full s); [|discriminate]. injection D as <-. eapply IH; [exact R|exact T|exact B].
  - destruct (k_ready s); [|discriminate]. injection D as <-. eapply IH; [exact R|exact T|exact B].
Qed.
Lemma krun_prompt w n : forall h s s', (List.length h <= n)%nat -> krun w h s = Some s' -> prompt h -> k_full s = false -> k_timer s = false -> k_runs s = k_fired s -> k_runs s' = w /\ k_done s' = true.
Proof.
  induction n as [|n IH]; intros h s s' L R P F T E.
  { destruct h; [destruct P|cbn [List.length] in L; lia]. }
  destruct h as [|[] h]; try (destruct P; fail).
  - destruct h as [|[] h]; try (destruct P; fail). cbn [prompt] in P. cbn [List.length] in L. cbn [krun] in R. unfold kdo at 1 in R. destruct (k_done s) eqn:Dn; [discriminate|].
    destruct (Nat.ltb (k_fired s) w || k_timer s); [|discriminate]. unfold kdo at 1 in R. cbn [k_done k_full k_fired k_timer k_ready k_runs] in R.
    apply (IH h _ _ ltac:(lia) R P); cbn [k_full k_timer k_runs k_fired]; congruence.
  - destruct h as [|[] [|? ?]]; try (destruct P; fail). cbn [krun] in R. unfold kdo at 1 in R. destruct (k_done s); [discriminate|].
    destruct (Nat.eqb_spec (k_fired s) w) as [W|W]; [|discriminate]. rewrite T in R. cbn [andb negb] in R. unfold kdo in R. cbn [k_done k_ready k_full k_fired k_timer k_runs] in R. injection R as <-.
    cbn [k_runs k_done]. split; [congruence|reflexivity].
Qed.
