(** C87: a client's stream that is closed gets nothing more. *)
From Verif Require Import Base FlushModel.
Open Scope list_scope. Open Scope Z_scope.

(** ** Specification *)
Definition who (e : event) : nat := match e with EBegin t _ | EWritten t _ | EFlushed t | EReturn t _ => t end.
(** What one goroutine is seen to do *)
Definition of_ (t : nat) (l : list event) : list event := filter (fun e => Nat.eqb (who e) t) l.
(** The beginnings of a list *)
Definition prefix {A} (p l : list A) : Prop := exists r, l = p ++ r.
(** How often Close has succeeded *)
Definition closes (l : list event) : list event := filter (fun e => match e with EReturn _ (RClose true) => true | _ => false end) l.
Definition idle (s : flusher) : Prop := forall t, f_at s t = Idle.

Section Any.
Variable takes : Z -> bool.
Notation run := (run takes). Notation step := (step takes).

(** ** Proofs *)
Lemma at_same s t p : f_at (goto s t p) t = p.
Proof. cbn. rewrite Nat.eqb_refl. reflexivity. Qed.
Lemma at_other s t p u : u <> t -> f_at (goto s t p) u = f_at s u.
Proof. intros N. cbn. destruct (Nat.eqb_spec u t); [contradiction|reflexivity]. Qed.
Lemma run_app : forall l1 l2 s, run s (l1 ++ l2) = bind (run s l1) (fun x => bind (run (fst x) l2) (fun y => Ok (fst y, snd x ++ snd y))).
Proof.
  induction l1 as [|a l1 IH]; intros l2 s; cbn [app FlushModel.run bind fst snd].
  - destruct (run s l2) as [[s' e]| |]; reflexivity.
  - destruct (step s a) as [[s1 e1]| |]; cbn [bind fst snd]; [|reflexivity|reflexivity]. rewrite IH. destruct (run s1 l1) as [[s2 e2]| |]; cbn [bind fst snd]; [|reflexivity|reflexivity].
    destruct (run s2 l2) as [[s3 e3]| |]; cbn [bind fst snd]; [rewrite app_assoc; reflexivity|reflexivity|reflexivity].
Qed.
Lemma step_one s a s' e : step s a = Ok (s', e) -> (List.length e <= 1)%nat.
Proof.
  destruct a as [t o|t]; cbn [FlushModel.step].
  - destruct (f_at s t); intros H; injection H as <- <-; cbn; lia.
  - destruct (f_at s t); try (intros H; injection H as <- <-; cbn; lia).
    + destruct (takes m); intros H; injection H as <- <-; cbn; lia.
    + destruct (f_once s); [|destruct (f_flushed s)]; intros H; try discriminate H; injection H as <- <-; cbn; lia.
    + destruct (f_lock s); intros H; injection H as <- <-; cbn; lia.
    + destruct (f_closed s); intros H; try discriminate H; injection H as <- <-; cbn; lia.
Qed.
(** Everything seen was seen at one step. *)
Lemma run_split : forall l s s' es e1 e e2, run s l = Ok (s', es) -> es = e1 ++ e :: e2 ->
  exists l1 a l2 s1 s2, l = l1 ++ a :: l2 /\ run s l1 = Ok (s1, e1) /\ step s1 a = Ok (s2, [e]) /\ run s2 l2 = Ok (s', e2).
Proof.
  induction l as [|a l IH]; intros s s' es e1 e e2 R E; cbn [FlushModel.run] in R.
  - injection R as <- <-. destruct e1; discriminate E.
  - destruct (step s a) as [[sx ex]| |] eqn:S; try discriminate R. cbn [bind fst snd] in R. destruct (run sx l) as [[sy ey]| |] eqn:R2; try discriminate R. cbn [bind fst snd] in R. injection R as <- <-.
    pose proof (step_one _ _ _ _ S) as L. destruct ex as [|x [|x' ex]]; [| |cbn in L; lia].
    + cbn [app] in E. destruct (IH _ _ _ _ _ _ R2 E) as (l1 & a' & l2 & s1 & s2 & -> & A & B & C). exists (a :: l1), a', l2, s1, s2. repeat split; [|exact B|exact C].
      cbn [FlushModel.run]. rewrite S. cbn [bind fst snd]. rewrite A. reflexivity.
    + destruct e1 as [|y e1]; cbn [app] in E; injection E as -> E.
      * subst ey. exists [], a, l, s, sx. repeat split; [exact S|exact R2].
      * destruct (IH _ _ _ _ _ _ R2 E) as (l1 & a' & l2 & s1 & s2 & -> & A & B & C). exists (a :: l1), a', l2, s1, s2. repeat split; [|exact B|exact C].
        cbn [FlushModel.run]. rewrite S. cbn [bind fst snd]. rewrite A. reflexivity.
Qed.

(** Who holds the lock, and the two channels *)
Definition holds (p : place) : bool := match p with CCheck | CClose | CUnlock _ => true | _ => false end.
(** [k]: how many times Close is on its way to return nil or has *)
Definition closing (p : place) : bool := match p with CUnlock (RClose true) | Ret (RClose true) => true | _ => false end.
Definition shut (p : place) : bool := match p with CUnlock _ | Ret (RClose _) => true | _ => false end.
Definition fits (p : place) : Prop := match p with CUnlock (RClose _) => True | CUnlock _ => False | FCheck (RClose _) | FOnce (RClose _) | FFlush (RClose _) => False | _ => True end.
Record inv (s : flusher) (l : list event) : Prop := {
  v_hold : forall t, holds (f_at s t) = true <-> f_lock s = Some t;
  v_open : forall t, f_at s t = CClose -> f_closed s = false;
  v_once : f_flushed s = f_once s;
  v_fits : forall t, fits (f_at s t);
  v_shut : forall t, shut (f_at s t) = true -> f_closed s = true;
  v_log : forall t r, In (EReturn t (RClose r)) l -> f_closed s = true;
  v_one : forall t u, closing (f_at s t) = true -> closing (f_at s u) = true -> t = u;
  v_none : forall t, closing (f_at s t) = true -> closes l = [];
  v_most : (List.length (closes l) <= 1)%nat;
  v_closed : f_closed s = true -> closes l <> [] \/ exists t, closing (f_at s t) = true }.
Lemma new_inv : inv new [].
Proof. constructor; cbn; intros; try reflexivity; try discriminate; try contradiction; try lia. split; discriminate. Qed.

(** A step that moves one goroutine between places that have nothing to do with closing *)
Lemma inv_move s l t p fl on e : inv s l -> f_at s t <> CClose -> holds (f_at s t) = false -> closing (f_at s t) = false -> fl = on ->
  holds p = false -> closing p = false -> shut p = false -> p <> CClose -> fits p -> closes e = [] -> (forall u r, In (EReturn u (RClose r)) e -> f_closed s = true) ->
  inv (goto {| f_closed := f_closed s; f_flushed := fl; f_once := on; f_lock := f_lock s; f_at := f_at s |} t p) (l ++ e).
Proof.
  intros I N1 N2 N3 EQ P1 P2 P3 P4 P5 E1 E2. assert (CA : closes (l ++ e) = closes l) by (unfold closes in *; rewrite filter_app, E1, app_nil_r; reflexivity). destruct I. constructor; cbn; rewrite ?CA; try assumption.
  - intros u. destruct (Nat.eqb_spec u t) as [->|N]; [|apply v_hold0]. rewrite P1. split; [discriminate|]. intros H. apply v_hold0 in H. congruence.
  - intros u. destruct (Nat.eqb_spec u t) as [->|N]; [congruence|apply v_open0].
  - intros u. destruct (Nat.eqb_spec u t) as [->|N]; [exact P5|apply v_fits0].
  - intros u. destruct (Nat.eqb_spec u t) as [->|N]; [congruence|apply v_shut0].
  - intros u r H. apply in_app_iff in H. destruct H as [H|H]; [exact (v_log0 u r H)|exact (E2 u r H)].
  - intros u u'. destruct (Nat.eqb_spec u t) as [->|N]; [congruence|]. destruct (Nat.eqb_spec u' t) as [->|N']; [congruence|apply v_one0].
  - intros u. destruct (Nat.eqb_spec u t) as [->|N]; [congruence|apply v_none0].
  - intros H. destruct (v_closed0 H) as [C|(u & C)]; [left; exact C|right]. exists u. destruct (Nat.eqb_spec u t) as [->|N]; [congruence|exact C].
Qed.
Lemma same_state s : {| f_closed := f_closed s; f_flushed := f_flushed s; f_once := f_once s; f_lock := f_lock s; f_at := f_at s |} = s.
Proof. destruct s. reflexivity. Qed.
Lemma step_inv s l a : inv s l -> exists s' e, step s a = Ok (s', e) /\ inv s' (l ++ e).
Proof.
  intros I. assert (STAY : inv s (l ++ [])) by (rewrite app_nil_r; exact I).
  assert (MV : forall t p e, f_at s t <> CClose -> holds (f_at s t) = false -> closing (f_at s t) = false -> holds p = false -> closing p = false -> shut p = false -> p <> CClose -> fits p ->
    closes e = [] -> (forall u r, In (EReturn u (RClose r)) e -> f_closed s = true) -> inv (goto s t p) (l ++ e)).
  { intros t p e A1 A2 A3 A4 A5 A6 A7 A8 A9 A10. pose proof (inv_move s l t p (f_flushed s) (f_once s) e I A1 A2 A3 (v_once _ _ I) A4 A5 A6 A7 A8 A9 A10) as X. rewrite same_state in X. exact X. }
  destruct a as [t o|t]; cbn [FlushModel.step].
  - destruct (f_at s t) eqn:P; try (exists s, []; split; [reflexivity|exact STAY]). exists (goto s t (entry o)), [EBegin t o]. split; [reflexivity|].
    apply MV; rewrite ?P; try reflexivity; try discriminate; try (destruct o; cbn; try reflexivity; try discriminate; exact Logic.I). all: intros u r [H|[]]; discriminate H.
  - pose proof (v_fits _ _ I t) as FT. destruct (f_at s t) as [|m|m|r|r|r| | | | |r|r] eqn:P.
    + exists s, []. split; [reflexivity|exact STAY].
    + eexists; eexists; split; [reflexivity|]. apply MV; rewrite ?P; try reflexivity; try discriminate; try (destruct (f_closed s); cbn; try reflexivity; try discriminate; exact Logic.I). all: intros u r [].
    + eexists; eexists; split; [reflexivity|]. apply MV; rewrite ?P; try reflexivity; try discriminate; try exact Logic.I; try (destruct (takes m); reflexivity). all: intros u r H; destruct (takes m); [destruct H as [H|[]]; discriminate H|destruct H].
    + eexists; eexists; split; [reflexivity|]. cbn in FT. apply MV; rewrite ?P; try reflexivity; try discriminate; try (destruct (f_closed s), r; cbn; try reflexivity; try discriminate; try exact Logic.I; destruct FT). all: intros u r0 [].
    + destruct (f_once s) eqn:O.
      * eexists; eexists; split; [reflexivity|]. apply MV; rewrite ?P; try reflexivity; try discriminate; try exact FT. all: intros u r0 [].
      * rewrite (v_once _ _ I), O. eexists; eexists; split; [reflexivity|]. apply (inv_move s l t (FFlush r) true true []); rewrite ?P; try reflexivity; try discriminate; try exact I; try exact FT. all: intros u r0 [].
    + eexists; eexists; split; [reflexivity|]. cbn in FT. apply MV; rewrite ?P; try reflexivity; try discriminate; try (destruct r; cbn; try reflexivity; try exact Logic.I; destruct FT). all: intros u r0 [H|[]]; discriminate H.
    + eexists; eexists; split; [reflexivity|]. apply MV; rewrite ?P; try reflexivity; try discriminate; try exact Logic.I. all: intros u r0 [].
    + (* CLock *) destruct (f_lock s) as [h|] eqn:L; [exists s, []; split; [reflexivity|exact STAY]|]. eexists; eexists; split; [reflexivity|]. rewrite app_nil_r. destruct I. constructor; cbn; try assumption.
      * intros u. destruct (Nat.eqb_spec u t) as [->|N]; [split; reflexivity|]. split; intros H; [apply v_hold0 in H; congruence|congruence].
      * intros u. destruct (Nat.eqb_spec u t) as [->|N]; [discriminate|apply v_open0].
      * intros u. destruct (Nat.eqb_spec u t) as [->|N]; [exact Logic.I|apply v_fits0].
      * intros u. destruct (Nat.eqb_spec u t) as [->|N]; [discriminate|apply v_shut0].
      * intros u u'. destruct (Nat.eqb_spec u t) as [->|N]; [discriminate|]. destruct (Nat.eqb_spec u' t) as [->|N']; [discriminate|apply v_one0].
      * intros u. destruct (Nat.eqb_spec u t) as [->|N]; [discriminate|apply v_none0].
      * intros H. destruct (v_closed0 H) as [C|(u & C)]; [left; exact C|right]. exists u. destruct (Nat.eqb_spec u t) as [->|N]; [rewrite P in C; discriminate C|exact C].
    + (* CCheck *) eexists; eexists; split; [reflexivity|]. rewrite app_nil_r. assert (HL : f_lock s = Some t) by (apply (v_hold _ _ I); rewrite P; reflexivity).
      assert (Q : exists q, (if f_closed s then CUnlock (RClose false) else CClose) = q /\ holds q = true /\ closing q = false /\ fits q /\ (q = CClose -> f_closed s = false) /\ (shut q = true -> f_closed s = true)).
      { eexists. split; [reflexivity|]. destruct (f_closed s); repeat split; try discriminate; reflexivity. }
      destruct Q as (q & -> & Q1 & Q2 & Q3 & Q4 & Q5). destruct I. constructor; cbn; try assumption.
      * intros u. destruct (Nat.eqb_spec u t) as [->|N]; [rewrite Q1, HL; split; reflexivity|apply v_hold0].
      * intros u. destruct (Nat.eqb_spec u t) as [->|N]; [exact Q4|apply v_open0].
      * intros u. destruct (Nat.eqb_spec u t) as [->|N]; [exact Q3|apply v_fits0].
      * intros u. destruct (Nat.eqb_spec u t) as [->|N]; [exact Q5|apply v_shut0].
      * intros u u'. destruct (Nat.eqb_spec u t) as [->|N]; [congruence|]. destruct (Nat.eqb_spec u' t) as [->|N']; [congruence|apply v_one0].
      * intros u. destruct (Nat.eqb_spec u t) as [->|N]; [congruence|apply v_none0].
      * intros H. destruct (v_closed0 H) as [C|(u & C)]; [left; exact C|right]. exists u. destruct (Nat.eqb_spec u t) as [->|N]; [rewrite P in C; discriminate C|exact C].
    + (* CClose *) pose proof (v_open _ _ I t P) as OP. rewrite OP. eexists; eexists; split; [reflexivity|]. rewrite app_nil_r. assert (HL : f_lock s = Some t) by (apply (v_hold _ _ I); rewrite P; reflexivity).
      assert (NOC : forall u, closing (f_at s u) = false). { intros u. destruct (closing (f_at s u)) eqn:C; [|reflexivity]. exfalso. assert (SH : shut (f_at s u) = true) by (destruct (f_at s u) as [| | | | | | | | | |[]|[]]; cbn in *; congruence). rewrite (v_shut _ _ I u SH) in OP. discriminate OP. }
      assert (NOL : closes l = []). { destruct (closes l) as [|x r] eqn:C; [reflexivity|]. exfalso. assert (K : In x (closes l)) by (rewrite C; left; reflexivity). apply filter_In in K. destruct K as (K & T). destruct x as [| | |u [| | |b]]; try discriminate T. rewrite (v_log _ _ I u b K) in OP. discriminate OP. }
      pose proof I as IJ. destruct IJ. constructor; cbn; try assumption; try reflexivity.
      * intros u. destruct (Nat.eqb_spec u t) as [->|N]; [rewrite HL; split; reflexivity|apply v_hold0].
      * intros u. destruct (Nat.eqb_spec u t) as [->|N]; [discriminate|]. intros H. assert (K : holds (f_at s u) = true) by (rewrite H; reflexivity). apply v_hold0 in K. congruence.
      * intros u. destruct (Nat.eqb_spec u t) as [->|N]; [exact Logic.I|apply v_fits0].
      * intros u u'. destruct (Nat.eqb_spec u t) as [->|N]; destruct (Nat.eqb_spec u' t) as [->|N']; try reflexivity; rewrite ?NOC; discriminate.
      * intros _ _. exact NOL.
      * intros _. right. exists t. rewrite Nat.eqb_refl. reflexivity.
    + (* CUnlock *) destruct r as [| | |b]; try destruct FT. eexists; eexists; split; [reflexivity|]. rewrite app_nil_r. assert (HL : f_lock s = Some t) by (apply (v_hold _ _ I); rewrite P; reflexivity).
      assert (SC : f_closed s = true) by (apply (v_shut _ _ I t); rewrite P; reflexivity). pose proof (v_one _ _ I) as ONE. pose proof (v_none _ _ I t) as NONE. rewrite P in NONE.
      assert (CL : closing (Ret (RClose b)) = closing (f_at s t)) by (rewrite P; destruct b; reflexivity).
      destruct I. constructor; cbn [f_at f_lock f_closed f_flushed f_once goto]; try assumption.
      * intros u. destruct (Nat.eqb_spec u t) as [->|N]; [split; discriminate|]. split; intros H; [apply v_hold0 in H; congruence|discriminate H].
      * intros u. destruct (Nat.eqb_spec u t) as [->|N]; [discriminate|apply v_open0].
      * intros u. destruct (Nat.eqb_spec u t) as [->|N]; [exact Logic.I|apply v_fits0].
      * intros u. destruct (Nat.eqb_spec u t) as [->|N]; [intros _; exact SC|apply v_shut0].
      * intros u u'. destruct (Nat.eqb_spec u t) as [->|N]; destruct (Nat.eqb_spec u' t) as [->|N']; rewrite ?CL; apply ONE.
      * intros u. destruct (Nat.eqb_spec u t) as [->|N]; rewrite ?CL; apply v_none0.
      * intros H. destruct (v_closed0 H) as [C|(u & C)]; [left; exact C|right]. exists u. destruct (Nat.eqb_spec u t) as [->|N]; [rewrite CL; exact C|exact C].
    + (* Ret *) eexists; eexists; split; [reflexivity|]. destruct r as [ok| |b|b]; try (apply MV; rewrite ?P; try reflexivity; try discriminate; try exact Logic.I; intros u r0 [H|[]]; discriminate H).
      assert (SC : f_closed s = true) by (apply (v_shut _ _ I t); rewrite P; reflexivity). pose proof (v_none _ _ I t) as NONE. rewrite P in NONE.
      destruct I. constructor; cbn [f_at f_lock f_closed f_flushed f_once goto]; try assumption.
      * intros u. destruct (Nat.eqb_spec u t) as [->|N]; [|apply v_hold0]. split; [discriminate|]. intros H. apply v_hold0 in H. rewrite P in H. discriminate H.
      * intros u. destruct (Nat.eqb_spec u t) as [->|N]; [discriminate|apply v_open0].
      * intros u. destruct (Nat.eqb_spec u t) as [->|N]; [exact Logic.I|apply v_fits0].
      * intros u. destruct (Nat.eqb_spec u t) as [->|N]; [discriminate|apply v_shut0].
      * intros _ _ _. exact SC.
      * intros u u'. destruct (Nat.eqb_spec u t) as [->|N]; [discriminate|]. destruct (Nat.eqb_spec u' t) as [->|N']; [discriminate|apply v_one0].
      * intros u. destruct (Nat.eqb_spec u t) as [->|N]; [discriminate|]. intros C. unfold closes. rewrite filter_app. fold (closes l). rewrite (v_none0 u C). cbn. destruct b; [|reflexivity].
        exfalso. apply N. apply v_one0; [exact C|rewrite P; reflexivity].
      * unfold closes. rewrite filter_app, app_length. fold (closes l). cbn. destruct b; cbn; [rewrite NONE by reflexivity; cbn; lia|lia].
      * intros H. unfold closes. rewrite filter_app. fold (closes l). destruct b; cbn [filter]; [left; destruct (closes l); discriminate|]. rewrite app_nil_r. destruct (v_closed0 H) as [C|(u & C)]; [left; exact C|right]. exists u. destruct (Nat.eqb_spec u t) as [->|N]; [rewrite P in C; discriminate C|exact C].
Qed.
Lemma run_inv : forall l s es, inv s es -> exists s' e, run s l = Ok (s', e) /\ inv s' (es ++ e).
Proof.
  induction l as [|a l IH]; intros s es I; cbn [FlushModel.run]; [exists s, []; rewrite app_nil_r; split; [reflexivity|exact I]|].
  destruct (step_inv s es a I) as (s1 & e1 & -> & I1). cbn [bind fst snd]. destruct (IH s1 _ I1) as (s2 & e2 & -> & I2). cbn [bind fst snd]. exists s2, (e1 ++ e2). split; [reflexivity|]. rewrite app_assoc. exact I2.
Qed.
Lemma run_new l s es : run new l = Ok (s, es) -> inv s es.
Proof. intros R. destruct (run_inv l new [] new_inv) as (s' & e & R' & I). rewrite R in R'. injection R' as -> ->. exact I. Qed.

(** A closed stream stays closed, and a write that is at its first step only returns an error. *)
Lemma step_closed s a s' e : step s a = Ok (s', e) -> f_closed s = true -> f_closed s' = true.
Proof.
  destruct a as [t o|t]; cbn [FlushModel.step].
  - destruct (f_at s t); intros H C; injection H as <- <-; exact C.
  - destruct (f_at s t); try (intros H C; injection H as <- <-; exact C).
    + destruct (f_once s); [|destruct (f_flushed s)]; intros H C; try discriminate H; injection H as <- <-; exact C.
    + destruct (f_lock s); intros H C; injection H as <- <-; exact C.
    + destruct (f_closed s); intros H C; try discriminate H; injection H as <- <-; reflexivity.
Qed.
Lemma step_frame s a s' e t : step s a = Ok (s', e) -> (match a with ABegin u _ | AStep u => u end) <> t -> f_at s' t = f_at s t /\ of_ t e = [].
Proof.
  intros H N. destruct a as [u o|u]; cbn [FlushModel.step] in H; assert (NB : Nat.eqb u t = false) by (apply Nat.eqb_neq; exact N); assert (NB' : Nat.eqb t u = false) by (apply Nat.eqb_neq; congruence).
  - destruct (f_at s u); injection H as <- <-; cbn; rewrite ?NB, ?NB'; split; reflexivity.
  - destruct (f_at s u); try (injection H as <- <-; cbn; rewrite ?NB, ?NB'; split; reflexivity).
    + destruct (takes m); injection H as <- <-; cbn; rewrite ?NB, ?NB'; split; reflexivity.
    + destruct (f_once s); [|destruct (f_flushed s)]; try discriminate H; injection H as <- <-; cbn; rewrite ?NB, ?NB'; split; reflexivity.
    + destruct (f_lock s); injection H as <- <-; cbn; rewrite ?NB, ?NB'; split; reflexivity.
    + destruct (f_closed s); try discriminate H; injection H as <- <-; cbn; rewrite ?NB, ?NB'; split; reflexivity.
Qed.
Lemma of_app t a b : of_ t (a ++ b) = of_ t a ++ of_ t b.
Proof. apply filter_app. Qed.
Definition failing (p : place) : Prop := match p with WCheck _ | Ret (RWrite false) => True | _ => False end.
Lemma run_failing t : forall l s s' es, run s l = Ok (s', es) -> f_closed s = true -> failing (f_at s t) -> of_ t es = [] \/ exists r, of_ t es = EReturn t (RWrite false) :: r.
Proof.
  induction l as [|a l IH]; intros s s' es R C F; cbn [FlushModel.run] in R; [injection R as <- <-; left; reflexivity|].
  destruct (step s a) as [[s1 e1]| |] eqn:S; try discriminate R. cbn [bind fst snd] in R. destruct (run s1 l) as [[s2 e2]| |] eqn:R2; try discriminate R. cbn [bind fst snd] in R. injection R as <- <-. rewrite of_app.
  pose proof (step_closed _ _ _ _ S C) as C1. destruct (Nat.eq_dec (match a with ABegin u _ | AStep u => u end) t) as [E|N].
  - destruct a as [u o|u]; subst u; cbn [FlushModel.step] in S; destruct (f_at s t) as [|m|m|r|r|r| | | | |r|r] eqn:P; try destruct F; try (destruct r as [[]| | |]; try destruct F).
    + injection S as <- <-. cbn [of_ filter app]. apply (IH s s2 e2 R2 C). rewrite P. exact Logic.I.
    + injection S as <- <-. cbn [of_ filter app]. apply (IH s s2 e2 R2 C). rewrite P. exact Logic.I.
    + rewrite C in S. injection S as <- <-. cbn [of_ filter app]. apply (IH _ s2 e2 R2 C). rewrite at_same. exact Logic.I.
    + injection S as <- <-. right. cbn [of_ filter who]. rewrite Nat.eqb_refl. cbn [app]. eexists. reflexivity.
  - destruct (step_frame _ _ _ _ t S N) as (A & ->). cbn [app]. apply (IH s1 s2 e2 R2 C1). rewrite A. exact F.
Qed.

(** Without a Close *)
Definition expect (p : place) (t : nat) : option (list event) :=
  match p with
  | WCheck m | WWrite m => Some (if takes m then [EWritten t m; EFlushed t; EReturn t (RWrite true)] else [EFlushed t; EReturn t (RWrite false)])
  | FCheck r | FOnce r | FFlush r => Some [EFlushed t; EReturn t r]
  | Ret r => Some [EReturn t r]
  | _ => None
  end.
Lemma run_expect t : forall l s s' es x, (forall u, ~ In (ABegin u OClose) l) -> (forall u, match f_at s u with CLock | CCheck | CClose | CUnlock _ => False | _ => True end) -> f_closed s = false ->
  run s l = Ok (s', es) -> expect (f_at s t) t = Some x -> prefix (of_ t es) x \/ prefix x (of_ t es).
Proof.
  induction l as [|a l IH]; intros s s' es x NC P C R X; cbn [FlushModel.run] in R; [injection R as <- <-; left; exists x; reflexivity|].
  destruct (step s a) as [[s1 e1]| |] eqn:S; try discriminate R. cbn [bind fst snd] in R. destruct (run s1 l) as [[s2 e2]| |] eqn:R2; try discriminate R. cbn [bind fst snd] in R. injection R as <- <-. rewrite of_app.
  assert (NC' : forall u, ~ In (ABegin u OClose) l) by (intros u H; exact (NC u (or_intror H))).
  assert (KEEP : f_closed s1 = false /\ forall u, match f_at s1 u with CLock | CCheck | CClose | CUnlock _ => False | _ => True end).
  { assert (ST : forall v p fl on, match p with CLock | CCheck | CClose | CUnlock _ => False | _ => True end ->
      forall u, match f_at (goto {| f_closed := f_closed s; f_flushed := fl; f_once := on; f_lock := f_lock s; f_at := f_at s |} v p) u with CLock | CCheck | CClose | CUnlock _ => False | _ => True end).
    { intros v p fl on Hp u. cbn. destruct (Nat.eqb u v); [exact Hp|apply P]. }
    destruct a as [v o|v]; cbn [FlushModel.step] in S; pose proof (P v) as PV; destruct (f_at s v) as [|m|m|r|r|r| | | | |r|r] eqn:AV; try destruct PV; try (injection S as <- <-; split; [exact C|exact P]).
    - injection S as <- <-. split; [exact C|]. apply (ST v (entry o) (f_flushed s) (f_once s)). destruct o; try exact Logic.I. exact (NC v (or_introl eq_refl)).
    - injection S as <- <-. split; [exact C|]. apply (ST v _ (f_flushed s) (f_once s)). rewrite C. exact Logic.I.
    - injection S as <- <-. split; [exact C|]. apply (ST v _ (f_flushed s) (f_once s)). exact Logic.I.
    - injection S as <- <-. split; [exact C|]. apply (ST v _ (f_flushed s) (f_once s)). rewrite C. exact Logic.I.
    - destruct (f_once s); [|destruct (f_flushed s); [discriminate S|]]; injection S as <- <-; (split; [exact C|]); [apply (ST v _ (f_flushed s) (f_once s))|apply (ST v _ true true)]; exact Logic.I.
    - injection S as <- <-. split; [exact C|]. apply (ST v _ (f_flushed s) (f_once s)). exact Logic.I.
    - injection S as <- <-. split; [exact C|]. apply (ST v _ (f_flushed s) (f_once s)). exact Logic.I.
    - injection S as <- <-. split; [exact C|]. apply (ST v _ (f_flushed s) (f_once s)). exact Logic.I. }
  destruct KEEP as (C1 & P1). destruct (Nat.eq_dec (match a with ABegin u _ | AStep u => u end) t) as [E|N].
  - assert (CONS : forall z y, prefix (of_ t e2) y \/ prefix y (of_ t e2) -> prefix (z ++ of_ t e2) (z ++ y) \/ prefix (z ++ y) (z ++ of_ t e2)).
    { intros z y [(w & ->)|(w & W)]; [left; exists w; rewrite app_assoc; reflexivity|right; exists w; rewrite W, app_assoc; reflexivity]. }
    destruct a as [u o|u]; subst u; cbn [FlushModel.step] in S; destruct (f_at s t) as [|m|m|r|r|r| | | | |r|r] eqn:AT; cbn [expect] in X; try discriminate X;
      try (injection S as <- <-; cbn [of_ filter app]; apply (IH _ _ _ _ NC' P1 C1 R2); rewrite AT; exact X).
    + rewrite C in S. injection S as <- <-. cbn [of_ filter app]. apply (IH _ _ _ _ NC' P1 C1 R2). rewrite at_same. exact X.
    + injection S as <- <-. injection X as <-. destruct (takes m) eqn:T.
      * cbn [of_ filter who]. rewrite Nat.eqb_refl. apply (CONS [EWritten t m]). apply (IH _ _ _ _ NC' P1 C1 R2). rewrite at_same. cbn [expect]. reflexivity.
      * cbn [of_ filter app]. apply (IH _ _ _ _ NC' P1 C1 R2). rewrite at_same. cbn [expect]. reflexivity.
    + rewrite C in S. injection S as <- <-. cbn [of_ filter app]. apply (IH _ _ _ _ NC' P1 C1 R2). rewrite at_same. exact X.
    + assert (EX : expect (f_at s1 t) t = Some x /\ e1 = []). { destruct (f_once s); [|destruct (f_flushed s); [discriminate S|]]; injection S as <- <-; (split; [rewrite at_same; exact X|reflexivity]). }
      destruct EX as (EX & ->). cbn [of_ filter app]. apply (IH _ _ _ _ NC' P1 C1 R2 EX).
    + injection S as <- <-. injection X as <-. cbn [of_ filter who]. rewrite Nat.eqb_refl. apply (CONS [EFlushed t]). apply (IH _ _ _ _ NC' P1 C1 R2). rewrite at_same. reflexivity.
    + injection S as <- <-. injection X as <-. cbn [of_ filter who]. rewrite Nat.eqb_refl. right. eexists. reflexivity.
  - destruct (step_frame _ _ _ _ t S N) as (A & ->). cbn [app]. apply (IH s1 s2 e2 x NC' P1 C1 R2). rewrite A. exact X.
Qed.
Lemma run_open : forall l s s' es, (forall u, ~ In (ABegin u OClose) l) -> (forall u, match f_at s u with CLock | CCheck | CClose | CUnlock _ => False | _ => True end) -> f_closed s = false -> run s l = Ok (s', es) ->
  f_closed s' = false /\ forall u, match f_at s' u with CLock | CCheck | CClose | CUnlock _ => False | _ => True end.
Proof.
  induction l as [|a l IH]; intros s s' es NC P C R; cbn [FlushModel.run] in R; [injection R as <- <-; split; assumption|].
  destruct (step s a) as [[s1 e1]| |] eqn:S; try discriminate R. cbn [bind fst snd] in R. destruct (run s1 l) as [[s2 e2]| |] eqn:R2; try discriminate R. cbn [bind fst snd] in R. injection R as <- <-.
  assert (NC' : forall u, ~ In (ABegin u OClose) l) by (intros u H; exact (NC u (or_intror H))).
  assert (ST : forall v p fl on, match p with CLock | CCheck | CClose | CUnlock _ => False | _ => True end ->
      forall u, match f_at (goto {| f_closed := f_closed s; f_flushed := fl; f_once := on; f_lock := f_lock s; f_at := f_at s |} v p) u with CLock | CCheck | CClose | CUnlock _ => False | _ => True end).
  { intros v p fl on Hp u. cbn. destruct (Nat.eqb u v); [exact Hp|apply P]. }
  apply (IH s1 s2 e2 NC'); [| |exact R2]; destruct a as [v o|v]; cbn [FlushModel.step] in S; pose proof (P v) as PV; destruct (f_at s v) as [|m|m|r|r|r| | | | |r|r] eqn:AV; try destruct PV; try (injection S as <- <-; first [exact C|exact P]).
  - injection S as <- <-. apply (ST v (entry o) (f_flushed s) (f_once s)). destruct o; try exact Logic.I. exact (NC v (or_introl eq_refl)).
  - injection S as <- <-. apply (ST v _ (f_flushed s) (f_once s)). rewrite C. exact Logic.I.
  - injection S as <- <-. apply (ST v _ (f_flushed s) (f_once s)). exact Logic.I.
  - injection S as <- <-. apply (ST v _ (f_flushed s) (f_once s)). rewrite C. exact Logic.I.
  - destruct (f_once s); [|destruct (f_flushed s); [discriminate S|]]; injection S as <- <-; [apply (ST v _ (f_flushed s) (f_once s))|apply (ST v _ true true)]; exact Logic.I.
  - injection S as <- <-. apply (ST v _ (f_flushed s) (f_once s)). exact Logic.I.
  - injection S as <- <-. apply (ST v _ (f_flushed s) (f_once s)). exact Logic.I.
  - injection S as <- <-. apply (ST v _ (f_flushed s) (f_once s)). exact Logic.I.
  - destruct (f_once s); [|destruct (f_flushed s); [discriminate S|]]; injection S as <- <-; exact C.
Qed.

(** The first flush is remembered. *)
Lemma step_flushed s a s' e : step s a = Ok (s', e) -> (forall t r, f_at s t = FFlush r -> f_once s = true) -> f_flushed s = f_once s ->
  (f_once s = true -> f_once s' = true) /\ f_flushed s' = f_once s' /\ (forall t r, f_at s' t = FFlush r -> f_once s' = true) /\ (forall t, In (EFlushed t) e -> f_once s' = true).
Proof.
  intros H F Q.
  assert (MV : forall t p e, (forall r, p = FFlush r -> f_once s = true) -> (forall u, In (EFlushed u) e -> f_once s = true) ->
    (f_once s = true -> f_once (goto s t p) = true) /\ f_flushed (goto s t p) = f_once (goto s t p) /\ (forall u r, f_at (goto s t p) u = FFlush r -> f_once (goto s t p) = true) /\ (forall u, In (EFlushed u) e -> f_once (goto s t p) = true)).
  { intros t p e0 A B. split; [intros X; exact X|]. split; [exact Q|]. split; [|exact B]. intros u r. cbn. destruct (Nat.eqb u t); [apply A|apply F]. }
  destruct a as [t o|t]; cbn [FlushModel.step] in H; destruct (f_at s t) as [|m|m|r|r|r| | | | |r|r] eqn:P; try (injection H as <- <-; split; [intros X; exact X|]; split; [exact Q|]; split; [exact F|]; intros u []).
  - injection H as <- <-. apply MV; [destruct o; discriminate|]. intros u [K|[]]. discriminate K.
  - injection H as <- <-. apply MV; [destruct (f_closed s); discriminate|]. intros u [].
  - injection H as <- <-. apply MV; [discriminate|]. intros u K. destruct (takes m); [destruct K as [K|[]]; discriminate K|destruct K].
  - injection H as <- <-. apply MV; [destruct (f_closed s); discriminate|]. intros u [].
  - destruct (f_once s) eqn:O; [injection H as <- <-; apply MV; [reflexivity|intros u []]|]. rewrite Q in H. injection H as <- <-. cbn. split; [reflexivity|]. split; [reflexivity|]. split; [reflexivity|]. intros u [].
  - injection H as <- <-. apply MV; [discriminate|]. intros u _. exact (F t r P).
  - injection H as <- <-. apply MV; [discriminate|]. intros u [].
  - destruct (f_lock s); injection H as <- <-; [split; [intros X; exact X|]; split; [exact Q|]; split; [exact F|]; intros u []|]. cbn. split; [intros X; exact X|]. split; [exact Q|]. split; [|intros u []]. intros u r. destruct (Nat.eqb u t); [discriminate|apply F].
  - injection H as <- <-. apply MV; [destruct (f_closed s); discriminate|]. intros u [].
  - destruct (f_closed s); [discriminate H|]. injection H as <- <-. cbn. split; [intros X; exact X|]. split; [exact Q|]. split; [|intros u []]. intros u r. destruct (Nat.eqb u t); [discriminate|apply F].
  - injection H as <- <-. cbn. split; [intros X; exact X|]. split; [exact Q|]. split; [|intros u []]. intros u r0. destruct (Nat.eqb u t); [discriminate|apply F].
  - injection H as <- <-. apply MV; [discriminate|]. intros u [K|[]]. discriminate K.
Qed.
Lemma run_flushed : forall l s s' es, run s l = Ok (s', es) -> (forall t r, f_at s t = FFlush r -> f_once s = true) -> f_flushed s = f_once s ->
  (f_once s = true -> f_once s' = true) /\ f_flushed s' = f_once s' /\ (forall t r, f_at s' t = FFlush r -> f_once s' = true) /\ (forall t, In (EFlushed t) es -> f_once s' = true).
Proof.
  induction l as [|a l IH]; intros s s' es R F Q; cbn [FlushModel.run] in R.
  - injection R as <- <-. split; [intros X; exact X|]. split; [exact Q|]. split; [exact F|]. intros t [].
  - destruct (step s a) as [[s1 e1]| |] eqn:S; try discriminate R. cbn [bind fst snd] in R. destruct (run s1 l) as [[s2 e2]| |] eqn:R2; try discriminate R. cbn [bind fst snd] in R. injection R as <- <-.
    destruct (step_flushed _ _ _ _ S F Q) as (A1 & A2 & A3 & A4). destruct (IH _ _ _ R2 A3 A2) as (B1 & B2 & B3 & B4). split; [auto|]. split; [exact B2|]. split; [exact B3|].
    intros t K. apply in_app_iff in K. destruct K as [K|K]; [exact (B1 (A4 t K))|exact (B4 t K)].
Qed.
Definition answering (p : place) : Prop := match p with FRead | Ret (RFlushed true) => True | _ => False end.
Lemma run_answering t : forall l s s' es, run s l = Ok (s', es) -> f_once s = true -> f_flushed s = f_once s -> (forall u r, f_at s u = FFlush r -> f_once s = true) -> answering (f_at s t) ->
  of_ t es = [] \/ exists r, of_ t es = EReturn t (RFlushed true) :: r.
Proof.
  induction l as [|a l IH]; intros s s' es R O Q F A; cbn [FlushModel.run] in R; [injection R as <- <-; left; reflexivity|].
  destruct (step s a) as [[s1 e1]| |] eqn:S; try discriminate R. cbn [bind fst snd] in R. destruct (run s1 l) as [[s2 e2]| |] eqn:R2; try discriminate R. cbn [bind fst snd] in R. injection R as <- <-. rewrite of_app.
  destruct (step_flushed _ _ _ _ S F Q) as (A1 & A2 & A3 & _). destruct (Nat.eq_dec (match a with ABegin u _ | AStep u => u end) t) as [E|N].
  - destruct a as [u o|u]; subst u; cbn [FlushModel.step] in S; destruct (f_at s t) as [|m|m|r|r|r| | | | |r|r] eqn:P; try destruct A; try (destruct r as [| |[]|]; try destruct A).
    + injection S as <- <-. cbn [of_ filter app]. apply (IH s s2 e2 R2 O Q F). rewrite P. exact Logic.I.
    + injection S as <- <-. cbn [of_ filter app]. apply (IH s s2 e2 R2 O Q F). rewrite P. exact Logic.I.
    + injection S as <- <-. cbn [of_ filter app]. apply (IH _ s2 e2 R2 O Q A3). rewrite at_same, Q, O. exact Logic.I.
    + injection S as <- <-. right. cbn [of_ filter who]. rewrite Nat.eqb_refl. cbn [app]. eexists. reflexivity.
  - destruct (step_frame _ _ _ _ t S N) as (B & ->). cbn [app]. apply (IH s1 s2 e2 R2 (A1 O) A2 A3). rewrite B. exact A.
Qed.

(** ** Theorems *)
(** No schedule of any number of goroutines makes the stream panic. *)
Theorem C87_total : forall l, exists s es, run new l = Ok (s, es).
Proof. intros l. destruct (run_inv l new [] new_inv) as (s & es & R & _). exists s, es. exact R. Qed.

(** However many goroutines close it, at most one is told that it did, and exactly one when all of them are done and one has been called. *)
Theorem C87_one_close : forall l s es, run new l = Ok (s, es) ->
  (List.length (closes es) <= 1)%nat /\ (idle s -> (exists t r, In (EReturn t (RClose r)) es) -> List.length (closes es) = 1%nat).
Proof.
  intros l s es R. pose proof (run_new _ _ _ R) as I. split; [exact (v_most _ _ I)|]. intros ID (t & r & K). pose proof (v_most _ _ I) as M. destruct (v_closed _ _ I (v_log _ _ I t r K)) as [C|(u & C)].
  - destruct (closes es) as [|x [|y q]]; [contradiction|reflexivity|cbn in M; lia].
  - rewrite (ID u) in C. discriminate C.
Qed.

(** A Write that is called after a Close has returned (whatever it returned) writes nothing, flushes nothing, and returns an error. *)
Theorem C87_closed : forall l s e1 t r e2 u m e3, run new l = Ok (s, e1 ++ EReturn t (RClose r) :: e2 ++ EBegin u (OWrite m) :: e3) ->
  of_ u e3 = [] \/ exists rest, of_ u e3 = EReturn u (RWrite false) :: rest.
Proof.
  intros l s e1 t r e2 u m e3 R. replace (e1 ++ EReturn t (RClose r) :: e2 ++ EBegin u (OWrite m) :: e3) with ((e1 ++ EReturn t (RClose r) :: e2) ++ EBegin u (OWrite m) :: e3) in R by (rewrite <- app_assoc; reflexivity).
  destruct (run_split _ _ _ _ _ _ _ R eq_refl) as (l1 & a & l2 & s1 & s2 & _ & R1 & S & R2).
  assert (C : f_closed s1 = true). { apply (v_log _ _ (run_new _ _ _ R1) t r). apply in_app_iff. right. left. reflexivity. }
  assert (AT : f_at s2 u = WCheck m).
  { destruct a as [v o|v]; cbn [FlushModel.step] in S.
    - destruct (f_at s1 v); try discriminate S. injection S as <- -> ->. rewrite at_same. reflexivity.
    - destruct (f_at s1 v); try discriminate S; repeat match type of S with context [match ?b with _ => _ end] => destruct b; try discriminate S end. }
  apply (run_failing u l2 s2 s e3 R2 (step_closed _ _ _ _ S C)). rewrite AT. exact Logic.I.
Qed.

(** As long as nobody closes it, a Write whose message the connection takes has it written and flushed before it returns without an error, and nothing else. *)
Theorem C87_write : forall l s e1 t m e2, (forall u, ~ In (ABegin u OClose) l) -> run new l = Ok (s, e1 ++ EBegin t (OWrite m) :: e2) ->
  let all := if takes m then [EWritten t m; EFlushed t; EReturn t (RWrite true)] else [EFlushed t; EReturn t (RWrite false)] in prefix (of_ t e2) all \/ prefix all (of_ t e2).
Proof.
  intros l s e1 t m e2 NC R. destruct (run_split _ _ _ _ _ _ _ R eq_refl) as (l1 & a & l2 & s1 & s2 & -> & R1 & S & R2).
  assert (P : f_closed s2 = false /\ forall u, match f_at s2 u with CLock | CCheck | CClose | CUnlock _ => False | _ => True end).
  { apply (run_open (l1 ++ [a]) new s2 (e1 ++ [EBegin t (OWrite m)])); [intros u K; apply (NC u); apply in_app_iff in K; apply in_app_iff; cbn in *; tauto|intros u; exact Logic.I|reflexivity|].
    rewrite run_app, R1. cbn [bind fst snd FlushModel.run]. rewrite S. reflexivity. }
  destruct P as (C & P). assert (AT : f_at s2 t = WCheck m).
  { destruct a as [v o|v]; cbn [FlushModel.step] in S.
    - destruct (f_at s1 v); try discriminate S. injection S as <- -> ->. rewrite at_same. reflexivity.
    - destruct (f_at s1 v); try discriminate S; repeat match type of S with context [match ?b with _ => _ end] => destruct b; try discriminate S end. }
  assert (N2 : forall u, ~ In (ABegin u OClose) l2) by (intros u K; apply (NC u); apply in_app_iff; right; right; exact K).
  apply (run_expect t l2 s2 s e2 _ N2 P C R2). rewrite AT. reflexivity.
Qed.
(** After something has been flushed, Flushed says so, closed or not. *)
Theorem C87_flushed : forall l s e1 t e2 u e3, run new l = Ok (s, e1 ++ EFlushed t :: e2 ++ EBegin u OFlushed :: e3) -> of_ u e3 = [] \/ exists rest, of_ u e3 = EReturn u (RFlushed true) :: rest.
Proof.
  intros l s e1 t e2 u e3 R. replace (e1 ++ EFlushed t :: e2 ++ EBegin u OFlushed :: e3) with ((e1 ++ EFlushed t :: e2) ++ EBegin u OFlushed :: e3) in R by (rewrite <- app_assoc; reflexivity).
  destruct (run_split _ _ _ _ _ _ _ R eq_refl) as (l1 & a & l2 & s1 & s2 & _ & R1 & S & R2).
  assert (FN : forall v r, f_at new v = FFlush r -> f_once new = true) by discriminate. destruct (run_flushed _ _ _ _ R1 FN eq_refl) as (_ & Q1 & F1 & O1).
  assert (O : f_once s1 = true) by (apply (O1 t); apply in_app_iff; right; left; reflexivity). destruct (step_flushed _ _ _ _ S F1 Q1) as (M & Q2 & F2 & _).
  assert (AT : f_at s2 u = FRead).
  { destruct a as [v o|v]; cbn [FlushModel.step] in S.
    - destruct (f_at s1 v); try discriminate S. injection S as <- -> ->. rewrite at_same. reflexivity.
    - destruct (f_at s1 v); try discriminate S; repeat match type of S with context [match ?b with _ => _ end] => destruct b; try discriminate S end. }
  apply (run_answering u l2 s2 s e3 R2 (M O) Q2 F2). rewrite AT. exact Logic.I.
Qed.
End Any.
Print Assumptions C87_flushed.
Print Assumptions C87_total.
Print Assumptions C87_one_close.
Print Assumptions C87_closed.
Print Assumptions C87_write.

(** False for a Write that is under way: it can pass its test before the Close, and write to the connection after Close has returned. *)
Theorem C87_after_close_refuted : exists l s e1 e2, run (fun _ => true) new l = Ok (s, e1 ++ EReturn 2 (RClose true) :: e2) /\ In (EWritten 1 7) e2.
Proof.
  set (l := [ABegin 1 (OWrite 7); AStep 1; ABegin 2 OClose; AStep 2; AStep 2; AStep 2; AStep 2; AStep 2; AStep 1]).
  assert (X : match run (fun _ => true) new l with Ok x => snd x | _ => [] end = [EBegin 1 (OWrite 7); EBegin 2 OClose; EReturn 2 (RClose true); EWritten 1 7]) by (vm_compute; reflexivity).
  destruct (C87_total (fun _ => true) l) as (s & es & R). rewrite R in X. cbn [snd] in X. exists l, s, [EBegin 1 (OWrite 7); EBegin 2 OClose], [EWritten 1 7]. split; [rewrite R, X; reflexivity|left; reflexivity].
Qed.
Print Assumptions C87_after_close_refuted.

(** ** A case: two goroutines close it while a third writes, then writes again *)
Definition exActions : list action :=
  [ABegin 1 (OWrite 7); AStep 1; AStep 1; ABegin 2 OClose; ABegin 3 OClose; AStep 3; AStep 2; AStep 3; AStep 1; AStep 3; AStep 3; AStep 2; AStep 2; AStep 2; AStep 2; AStep 3; AStep 1; AStep 1; AStep 1;
   ABegin 1 (OWrite 8); AStep 1; AStep 1].
Example C87_example : match run (fun _ => true) new exActions with Ok x => snd x | _ => [] end =
  [EBegin 1 (OWrite 7); EWritten 1 7; EBegin 2 OClose; EBegin 3 OClose; EReturn 2 (RClose false); EReturn 3 (RClose true); EFlushed 1; EReturn 1 (RWrite true); EBegin 1 (OWrite 8); EReturn 1 (RWrite false)].
Proof. vm_compute. reflexivity. Qed.
