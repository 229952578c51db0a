(** Invariants of the metadata provider. *)
From Verif Require Import Base WatchModel.
Open Scope string_scope. Open Scope list_scope. Open Scope Z_scope.

Section W.
  Context {E V : Type}.
  Notation watcher := (watcher E V). Notation hpc := (hpc E V). Notation wst := (wst E V).

  Lemma upd_nth {A} (l : list A) i p x : nth_error l i = Some x -> forall j, nth_error (firstn i l ++ p :: skipn (S i) l) j = if Nat.eqb j i then Some p else nth_error l j.
  Proof.
    revert i. induction l as [|y l IH]; intros i H j; [destruct i; discriminate|]. destruct i as [|i]; cbn [firstn skipn app].
    - destruct j; reflexivity.
    - destruct j; [reflexivity|]. cbn [nth_error Nat.eqb]. apply IH. exact H.
  Qed.
  Lemma in_existsb i l : existsb (Nat.eqb i) l = true <-> In i l.
  Proof.
    rewrite existsb_exists. split.
    - intros (x & I & X). apply Nat.eqb_eq in X. subst x. exact I.
    - intros I. exists i. split; [exact I|apply Nat.eqb_refl].
  Qed.

  Definition ups (h : list (E * list (upd V))) : list (upd V) := flat_map snd h.
  Definition evs (h : list (E * list (upd V))) : list E := map fst h.
  Definition hand (l : loop E) : list (rtype * E) := match l with InHand x => [x] | _ => [] end.
  Definition working (l : loop E) : Prop := match l with Selecting => True | InHand _ => True | _ => False end.
  (** whether the event being broadcast has still to be offered to watcher [i] *)
  Definition unoffered (i : nat) (p : hpc) : bool :=
    match p with Casting _ v _ => negb (existsb (Nat.eqb i) v) | Closing _ _ v _ => negb (existsb (Nat.eqb i) v) | Dropping _ _ v _ => negb (existsb (Nat.eqb i) v) | _ => false end.
  Definition musts (p : hpc) : list nat := match p with Casting _ _ m => m | Closing _ _ _ m => m | Dropping _ _ _ m => m | _ => [] end.
  Definition casting (p : hpc) : option E := match p with Casting e _ _ => Some e | Closing e _ _ _ => Some e | Dropping e _ _ _ => Some e | _ => None end.

  (** a watcher, for one kind of object *)
  Record WI (h : list (E * list (upd V))) (p : hpc) (i : nat) (t : rtype) (w : watcher) : Prop := {
    wi_base : (w_base w t <= w_reg w t <= List.length h)%nat /\ (w_reg w t <= S (w_base w t))%nat;
    wi_pre0 : (w_base w t < w_reg w t)%nat -> w_pre w t = [];
    wi_snap : w_snap w t = runUpd (ups (firstn (w_reg w t) h) ++ w_pre w t) [];
    wi_next : (forall e us, nth_error h (w_reg w t) = Some (e, us) -> exists r, us = w_pre w t ++ r) /\
              (w_reg w t = List.length h -> exists r, pending p = w_pre w t ++ r);
    wi_cast : casting p <> None -> w_base w t = List.length h -> w_pre w t = [];
    wi_must : w_open w = true -> unoffered i p = true -> In i (musts p) \/ w_base w t = List.length h;
    wi_out : exists j, ofType t (w_out w) = firstn j (skipn (w_base w t) (evs h));
    wi_all : w_open w = true -> working (w_loop w) ->
      ofType t (w_out w ++ hand (w_loop w) ++ w_chan w) = skipn (w_base w t) (firstn (List.length h - (if unoffered i p then 1 else 0)) (evs h)) }.
  Definition WL (w : watcher) : Prop :=
    (w_open w = true -> w_in w = true) /\ (w_open w = true -> w_loop w <> Removing /\ w_loop w <> Done).
  Definition PI (h : list (E * list (upd V))) (p : hpc) (ws : list watcher) : Prop :=
    (forall e, casting p = Some e -> exists h' d, h = h' ++ [(e, d)]) /\
    (forall e i v m, p = Closing e i v m \/ p = Dropping e i v m -> (i < List.length ws)%nat) /\
    (forall e i v m w, p = Dropping e i v m -> nth_error ws i = Some w -> w_open w = false).
  Record Inv (s : wst) : Prop := {
    inv_cache : forall t, s_cache s t = runUpd (ups (s_hist s t) ++ pending (s_pc s t)) [];
    inv_pc : forall t, PI (s_hist s t) (s_pc s t) (s_ws s);
    inv_w : forall i w, nth_error (s_ws s) i = Some w -> WL w /\ forall t, WI (s_hist s t) (s_pc s t) i t w }.

  Lemma runUpd_app (a b : list (upd V)) m : runUpd (a ++ b) m = runUpd b (runUpd a m).
  Proof. unfold runUpd. apply fold_left_app. Qed.
  Lemma ups_app a b : ups (a ++ b) = ups a ++ ups b.
  Proof. unfold ups. apply flat_map_app. Qed.
  Lemma ofType_app t (a b : list (rtype * E)) : ofType t (a ++ b) = ofType t a ++ ofType t b.
  Proof. unfold ofType. rewrite filter_app, map_app. reflexivity. Qed.
  Lemma setT_same {A} (f : rtype -> A) t x : setT f t x t = x.
  Proof. unfold setT. rewrite eqb_refl. reflexivity. Qed.
  Lemma setT_other {A} (f : rtype -> A) t u x : u <> t -> setT f t x u = f u.
  Proof. intros N. unfold setT. rewrite (proj2 (eqb_neq u t)) by exact N. reflexivity. Qed.
  Lemma rtype_dec (t u : rtype) : {t = u} + {t <> u}.
  Proof. decide equality. Qed.

  (** The handler moves and the watchers stay. *)
  Lemma inv_pc_step (s s' : wst) t : Inv s -> s_ws s' = s_ws s ->
    (forall u, u <> t -> s_cache s' u = s_cache s u /\ s_hist s' u = s_hist s u /\ s_pc s' u = s_pc s u) ->
    s_cache s' t = runUpd (ups (s_hist s' t) ++ pending (s_pc s' t)) [] ->
    PI (s_hist s' t) (s_pc s' t) (s_ws s) ->
    (forall i w, nth_error (s_ws s) i = Some w -> WL w -> WI (s_hist s t) (s_pc s t) i t w -> WI (s_hist s' t) (s_pc s' t) i t w) -> Inv s'.
  Proof.
    intros [C P W] EW O Ct Pt Wt. split.
    - intros u. destruct (rtype_dec u t) as [->|N]; [exact Ct|]. destruct (O u N) as (-> & -> & ->). apply C.
    - intros u. rewrite EW. destruct (rtype_dec u t) as [->|N]; [exact Pt|]. destruct (O u N) as (_ & -> & ->). apply P.
    - intros i w G. rewrite EW in G. destruct (W i w G) as [L H]. split; [exact L|]. intros u.
      destruct (rtype_dec u t) as [->|N]; [apply Wt; auto|]. destruct (O u N) as (_ & -> & ->). apply H.
  Qed.
  (** One watcher moves. *)
  Lemma inv_w_step (s : wst) i w w' : Inv s -> nth_error (s_ws s) i = Some w ->
    (w_open w' = true -> w_open w = true) -> WL w' -> (forall t, WI (s_hist s t) (s_pc s t) i t w -> WI (s_hist s t) (s_pc s t) i t w') -> Inv (setW s i w').
  Proof.
    intros [C P W] N O L H. assert (LEN : List.length (firstn i (s_ws s) ++ w' :: skipn (S i) (s_ws s)) = List.length (s_ws s)).
    { assert (i < List.length (s_ws s))%nat by (apply nth_error_Some; congruence). rewrite app_length. cbn [List.length]. rewrite firstn_length_le, skipn_length by lia. lia. }
    split.
    - exact C.
    - intros t. destruct (P t) as (P1 & P2 & P3). cbn [setW s_hist s_pc s_ws]. split; [exact P1|]. split; [rewrite LEN; exact P2|].
      intros e j v m x D G. rewrite (upd_nth _ _ _ _ N) in G. destruct (Nat.eqb_spec j i) as [->|NE]; [|exact (P3 e j v m x D G)].
      injection G as <-. destruct (w_open w') eqn:OP; [|reflexivity]. rewrite <- (P3 e i v m w D N). symmetry. apply O. reflexivity.
    - intros j x G. cbn [setW s_hist s_pc s_ws] in *. rewrite (upd_nth _ _ _ _ N) in G. destruct (Nat.eqb_spec j i) as [->|NE]; [|exact (W j x G)].
      injection G as <-. split; [exact L|]. intros t. apply H. exact (proj2 (W i w N) t).
  Qed.

  Lemma s0_inv : Inv s0.
  Proof.
    split.
    - intros t. reflexivity.
    - intros t. cbn. split; [discriminate|]. split; [intros e i v m [X|X]; discriminate|]. intros e i v m w X. discriminate.
    - intros [|i] w G; discriminate.
  Qed.

  Lemma wstep_inv s o : Inv s -> Inv (wstep s o).
  Proof.
    intros I. destruct o as [t e us|t|t|t i|t i|t|t|t| |i|i ok|i|i|i]; cbn [wstep].
    - (* BeginEvent *)
      destruct (s_pc s t) eqn:P; try exact I. apply (inv_pc_step s _ t I); cbn [setPC s_ws s_cache s_hist s_pc].
      + reflexivity.
      + intros u N. rewrite setT_other by exact N. auto.
      + rewrite setT_same. cbn [pending]. rewrite (inv_cache s I t), P. reflexivity.
      + rewrite setT_same. split; [discriminate|]. split; [intros e0 i v m [X|X]; discriminate|]. intros e0 i v m w X. discriminate.
      + rewrite setT_same. intros i w G L [A B C D X Y Z T]. rewrite P in *. split; auto; try (intros; discriminate).
    - (* ApplyNext *)
      destruct (s_pc s t) as [|e d td| | |] eqn:P; try exact I. destruct td as [|u r]; [exact I|]. apply (inv_pc_step s _ t I); cbn [s_ws s_cache s_hist s_pc].
      + reflexivity.
      + intros x N. rewrite !setT_other by exact N. auto.
      + rewrite !setT_same. cbn [pending]. rewrite (inv_cache s I t), P. cbn [pending]. rewrite !runUpd_app. reflexivity.
      + rewrite setT_same. split; [discriminate|]. split; [intros e0 i v m [X|X]; discriminate|]. intros e0 i v m w X. discriminate.
      + rewrite setT_same. intros i w G L [A B C D X Y Z T]. rewrite P in *. split; auto.
        * destruct D as [D1 D2]. split; [exact D1|]. intros R. destruct (D2 R) as (r0 & D3). cbn [pending] in *. rewrite D3. exists (r0 ++ [u]). rewrite app_assoc. reflexivity.
    - (* StartCast *)
      destruct (s_pc s t) as [|e d td| | |] eqn:P; try exact I. destruct td as [|u r]; [|exact I]. apply (inv_pc_step s _ t I); cbn [s_ws s_cache s_hist s_pc].
      + reflexivity.
      + intros x N. rewrite !setT_other by exact N. auto.
      + rewrite !setT_same. cbn [pending]. rewrite (inv_cache s I t), P. cbn [pending]. rewrite ups_app. cbn [ups flat_map snd]. rewrite !app_nil_r. reflexivity.
      + rewrite !setT_same. split; [intros e0 X; injection X as <-; exists (s_hist s t), d; reflexivity|].
        split; [intros e0 i v m [X|X]; discriminate|]. intros e0 i v m w X. discriminate.
      + rewrite !setT_same. intros i w G L [A B C D X Y Z T]. rewrite P in *. set (h := s_hist s t) in *. destruct A as [[A1 A2] A3].
        assert (LH : List.length (h ++ [(e, d)]) = S (List.length h)) by (rewrite app_length; cbn; lia). split.
        * rewrite LH. lia.
        * exact B.
        * rewrite firstn_app. replace (w_reg w t - Datatypes.length h)%nat with 0%nat by lia. rewrite firstn_O, app_nil_r. exact C.
        * destruct D as [D1 D2]. split; [|intros R; rewrite LH in R; lia]. intros e0 us Q.
          destruct (Nat.lt_ge_cases (w_reg w t) (List.length h)) as [LT|GE].
          -- rewrite nth_error_app1 in Q by exact LT. exact (D1 e0 us Q).
          -- assert (R : w_reg w t = List.length h) by lia. rewrite nth_error_app2, R, Nat.sub_diag in Q by lia. injection Q as -> ->. exact (D2 R).
        * intros _ R. rewrite LH in R. lia.
        * intros OP _. left. cbn [musts]. unfold members. apply filter_In. assert (i < List.length (s_ws s))%nat by (apply nth_error_Some; congruence).
          split; [apply in_seq; lia|]. rewrite G. apply (proj1 L). exact OP.
        * destruct Z as (j & Z). destruct (Nat.le_gt_cases j (List.length (skipn (w_base w t) (evs h)))) as [LE|GT].
          -- exists j. rewrite Z. unfold evs. rewrite map_app, skipn_app. fold (evs h). rewrite firstn_app.
             replace (j - _)%nat with 0%nat by lia. rewrite firstn_O, app_nil_r. reflexivity.
          -- exists (List.length (skipn (w_base w t) (evs h))). rewrite Z. rewrite firstn_all2 by lia. unfold evs. rewrite map_app, skipn_app. fold (evs h). rewrite firstn_app.
             rewrite Nat.sub_diag, firstn_O, app_nil_r, firstn_all. reflexivity.
        * intros OP W. rewrite (T OP W). cbn [unoffered existsb negb]. rewrite LH. f_equal. rewrite Nat.sub_0_r. unfold evs. rewrite map_app, firstn_app, map_length.
          replace (S (List.length h) - 1)%nat with (List.length h) by lia. rewrite Nat.sub_diag, firstn_O, app_nil_r. reflexivity.
    - (* Give *)
      destruct (s_pc s t) as [| |e v m| |] eqn:P; try exact I. destruct (nth_error (s_ws s) i) as [w|] eqn:N; [|exact I].
      destruct (negb (existsb (Nat.eqb i) v) && (w_in w || existsb (Nat.eqb i) m) && room w) eqn:Q; [|exact I].
      apply andb_true_iff in Q. destruct Q as [Q _]. apply andb_true_iff in Q. destruct Q as [Q _]. apply negb_true_iff in Q.
      pose proof I as [IC IP IW]. destruct (IP t) as (P1 & P2 & P3). rewrite P in *.
      destruct (P1 e eq_refl) as (h' & d & H).
      set (w' := withBase (withChan w (w_chan w ++ [(t, e)])) (setT (w_base w) t (Nat.min (w_base w t) (List.length (s_hist s t) - 1)))).
      assert (LEN : List.length (firstn i (s_ws s) ++ w' :: skipn (S i) (s_ws s)) = List.length (s_ws s)).
      { assert (i < List.length (s_ws s))%nat by (apply nth_error_Some; congruence). rewrite app_length. cbn [List.length]. rewrite firstn_length_le, skipn_length by lia. lia. }
      split; cbn [setPC setW s_cache s_hist s_pc s_ws].
      + intros u. destruct (rtype_dec u t) as [->|NE]; [rewrite setT_same, IC, P; reflexivity|rewrite setT_other by exact NE; apply IC].
      + intros u. destruct (rtype_dec u t) as [->|NE].
        * rewrite setT_same. split; [intros e0 X; injection X as <-; exists h', d; exact H|]. split; [intros e0 j v0 m0 [X|X]; discriminate|]. intros e0 j v0 m0 x X. discriminate.
        * rewrite setT_other by exact NE. destruct (IP u) as (Q1 & Q2 & Q3). split; [exact Q1|]. split; [rewrite LEN; exact Q2|].
          intros e0 j v0 m0 x D G. rewrite (upd_nth _ _ _ _ N) in G. destruct (Nat.eqb_spec j i) as [->|NJ]; [|exact (Q3 e0 j v0 m0 x D G)].
          injection G as <-. exact (Q3 e0 i v0 m0 w D N).
      + intros j x G. rewrite (upd_nth _ _ _ _ N) in G. destruct (Nat.eqb_spec j i) as [->|NJ].
        * injection G as <-. destruct (IW i w N) as [L WW]. split; [exact L|]. intros u. specialize (WW u). destruct (rtype_dec u t) as [->|NE].
          -- rewrite setT_same. destruct WW as [A B C D X Y Z T]. rewrite P in *. set (h := s_hist s t) in *.
             assert (LH : List.length h = S (List.length h')) by (rewrite H, app_length; cbn; lia).
             assert (BB : w_base w' t = Nat.min (w_base w t) (List.length h - 1)) by (cbn [w' withBase withChan w_base]; apply setT_same).
             destruct A as [[A1 A2] A3].
             assert (OUTB : (w_base w t = List.length h -> ofType t (w_out w) = [])).
             { intros R. destruct Z as (k & Z). rewrite Z, R. unfold evs. rewrite skipn_all2 by (rewrite map_length; lia). apply firstn_nil. }
             split.
             ++ rewrite BB. cbn [w' withBase withChan w_reg]. lia.
             ++ rewrite BB. cbn [w' withBase withChan w_reg w_pre]. intros LT. destruct (Nat.eq_dec (w_base w t) (List.length h)) as [R|NR]; [apply X; [discriminate|exact R]|apply B; lia].
             ++ exact C.
             ++ exact D.
             ++ intros _. rewrite BB. intros R. lia.
             ++ cbn [unoffered existsb]. rewrite Nat.eqb_refl. discriminate.
             ++ cbn [w' withBase withChan w_out]. rewrite BB. destruct (Nat.eq_dec (w_base w t) (List.length h)) as [R|NR].
                ** exists 0%nat. rewrite (OUTB R). reflexivity.
                ** destruct Z as (k & Z). exists k. rewrite Z. f_equal. f_equal. lia.
             ++ cbn [w' withBase withChan w_open w_loop w_out w_chan]. intros OP WK. specialize (T OP WK). cbn [unoffered] in T. rewrite Q in T. cbn [negb] in T.
                rewrite BB. cbn [unoffered existsb]. rewrite Nat.eqb_refl. cbn [orb negb].
                rewrite !app_assoc, ofType_app. rewrite <- app_assoc, T. unfold ofType. cbn [filter fst]. rewrite eqb_refl. cbn [map snd].
                rewrite Nat.sub_0_r. rewrite (firstn_all2 (n := List.length h)) by (unfold evs; rewrite map_length; lia).
                assert (EV : evs h = evs h' ++ [e]) by (rewrite H; unfold evs; rewrite map_app; reflexivity).
                rewrite EV, LH. replace (S (List.length h') - 1)%nat with (List.length (evs h')) by (unfold evs; rewrite map_length; lia).
                rewrite firstn_app, Nat.sub_diag, firstn_O, app_nil_r, firstn_all. rewrite skipn_app.
                assert (LE : List.length (evs h') = List.length h') by (unfold evs; apply map_length).
                destruct (Nat.eq_dec (w_base w t) (List.length h)) as [R|NR].
                ** rewrite R, LH. rewrite Nat.min_r by lia. rewrite (skipn_all2 (n := S (List.length h'))) by lia. rewrite skipn_all. rewrite Nat.sub_diag. reflexivity.
                ** rewrite Nat.min_l by lia. replace (w_base w t - Datatypes.length (evs h'))%nat with 0%nat by lia. reflexivity.
          -- rewrite setT_other by exact NE. destruct WW as [A B C D X Y Z T].
             assert (BB : w_base w' u = w_base w u) by (cbn [w' withBase withChan w_base]; apply setT_other; exact NE).
             split; try rewrite BB; try assumption.
             ++ cbn [w' withBase withChan w_open w_loop w_out w_chan]. intros OP WK. rewrite <- (T OP WK). rewrite !app_assoc, ofType_app. unfold ofType at 2. cbn [filter fst].
                rewrite (proj2 (eqb_neq t u)) by congruence. cbn [map]. rewrite app_nil_r. reflexivity.
        * destruct (IW j x G) as [L WW]. split; [exact L|]. intros u. specialize (WW u). destruct (rtype_dec u t) as [->|NE].
          -- rewrite setT_same. destruct WW as [A B C D X Y Z T]. rewrite P in *.
             assert (UN : unoffered j (Casting e (i :: v) m) = unoffered j (Casting (V := V) e v m)) by (cbn [unoffered existsb]; rewrite (proj2 (Nat.eqb_neq j i)) by exact NJ; reflexivity).
             split; try rewrite UN; auto.
          -- rewrite setT_other by exact NE. exact WW.
    - (* GiveUp *)
      destruct (s_pc s t) as [| |e v m| |] eqn:P; try exact I. destruct (nth_error (s_ws s) i) as [w|] eqn:N; [|exact I].
      destruct (negb (existsb (Nat.eqb i) v) && (w_in w || existsb (Nat.eqb i) m)) eqn:Q; [|exact I]. apply (inv_pc_step s _ t I); cbn [setPC s_ws s_cache s_hist s_pc].
      + reflexivity.
      + intros u NE. rewrite setT_other by exact NE. auto.
      + rewrite setT_same. cbn [pending]. rewrite (inv_cache s I t), P. reflexivity.
      + rewrite setT_same. destruct (inv_pc s I t) as (P1 & P2 & P3). rewrite P in *. split; [exact P1|]. split; [|intros e0 j v0 m0 x X; discriminate].
        intros e0 j v0 m0 [X|X]; inversion X; subst. apply nth_error_Some. congruence.
      + rewrite setT_same. intros j x G L [A B C D X Y Z T]. rewrite P in *. split; auto.
    - (* CloseIt *)
      destruct (s_pc s t) as [| | |e i v m|] eqn:P; try exact I. destruct (nth_error (s_ws s) i) as [w|] eqn:N; [|exact I].
      assert (I1 : Inv (setW s i (withOpen w false))).
      { apply (inv_w_step s i w _ I N).
        - discriminate.
        - split; discriminate.
        - intros u [A B C D X Y Z T]. split; auto; cbn [withOpen w_open]; discriminate. }
      apply (inv_pc_step _ _ t I1); cbn [setPC setW s_ws s_cache s_hist s_pc].
      + reflexivity.
      + intros u NE. rewrite setT_other by exact NE. auto.
      + rewrite setT_same. cbn [pending]. rewrite (inv_cache s I t), P. reflexivity.
      + rewrite setT_same. destruct (inv_pc _ I1 t) as (P1 & P2 & P3). cbn [setW s_hist s_pc s_ws] in *. rewrite P in *. split; [exact P1|]. split.
        * intros e0 j v0 m0 [X|X]; inversion X; subst. apply (P2 e0 j v0 m0). left. reflexivity.
        * intros e0 j v0 m0 x X G. inversion X; subst. rewrite (upd_nth _ _ _ _ N), Nat.eqb_refl in G. injection G as <-. reflexivity.
      + rewrite setT_same. intros j x G L [A B C D X Y Z T]. rewrite P in *. split; auto.
    - (* RemoveIt *)
      destruct (s_pc s t) as [| | | |e i v m] eqn:P; try exact I. destruct (nth_error (s_ws s) i) as [w|] eqn:N; [|exact I].
      assert (OPF : w_open w = false). { destruct (inv_pc s I t) as (_ & _ & P3). exact (P3 e i v m w P N). }
      assert (I1 : Inv (setW s i (withIn w false))).
      { apply (inv_w_step s i w _ I N).
        - intros X. exact X.
        - split; cbn [withIn w_open]; congruence.
        - intros u [A B C D X Y Z T]. split; auto. }
      apply (inv_pc_step _ _ t I1); cbn [setPC setW s_ws s_cache s_hist s_pc].
      + reflexivity.
      + intros u NE. rewrite setT_other by exact NE. auto.
      + rewrite setT_same. cbn [pending]. rewrite (inv_cache s I t), P. reflexivity.
      + rewrite setT_same. destruct (inv_pc _ I1 t) as (P1 & P2 & P3). cbn [setW s_hist s_pc s_ws] in *. rewrite P in *. split; [exact P1|]. split.
        * intros e0 j v0 m0 [X|X]; discriminate.
        * intros e0 j v0 m0 x X. discriminate.
      + rewrite setT_same. intros j x G L [A B C D X Y Z T]. rewrite P in *. rewrite (upd_nth _ _ _ _ N) in G. destruct (Nat.eqb_spec j i) as [->|NJ].
        * injection G as <-. cbn [withIn w_open] in *. split; auto; cbn [withIn w_open]; congruence.
        * assert (UN : unoffered j (Casting e (i :: v) m) = unoffered j (Dropping (V := V) e i v m)) by (cbn [unoffered existsb]; rewrite (proj2 (Nat.eqb_neq j i)) by exact NJ; reflexivity).
          split; try rewrite UN; auto.
    - (* EndCast *)
      destruct (s_pc s t) as [| |e v m| |] eqn:P; try exact I.
      destruct (forallb (fun i => existsb (Nat.eqb i) v || match nth_error (s_ws s) i with Some w => negb (w_in w) | None => true end) m) eqn:Q; [|exact I].
      apply (inv_pc_step s _ t I); cbn [setPC s_ws s_cache s_hist s_pc].
      + reflexivity.
      + intros u NE. rewrite setT_other by exact NE. auto.
      + rewrite setT_same. cbn [pending]. rewrite (inv_cache s I t), P. reflexivity.
      + rewrite setT_same. split; [discriminate|]. split; [intros e0 j v0 m0 [X|X]; discriminate|]. intros e0 j v0 m0 x X. discriminate.
      + rewrite setT_same. intros j x G L [A B C D X Y Z T]. rewrite P in *. split; auto; try (intros; discriminate).
        * intros OP WK. rewrite (T OP WK). cbn [unoffered]. destruct (existsb (Nat.eqb j) v) eqn:VJ; [reflexivity|]. cbn [negb].
          destruct (Y OP) as [M|R]; [cbn [unoffered]; rewrite VJ; reflexivity| |].
          -- exfalso. cbn [musts] in M. rewrite forallb_forall in Q. specialize (Q j M). rewrite VJ, G in Q. cbn [orb] in Q. rewrite (proj1 L OP) in Q. discriminate.
          -- rewrite R. rewrite !skipn_all2; [reflexivity| |]; rewrite firstn_length; unfold evs; rewrite map_length; lia.
    - (* Register *)
      pose proof I as [IC IP IW]. split; cbn [s_cache s_hist s_pc s_ws].
      + exact IC.
      + intros t. destruct (IP t) as (P1 & P2 & P3). split; [exact P1|]. split.
        * intros e i v m X. rewrite app_length. cbn. specialize (P2 e i v m X). lia.
        * intros e i v m w X G. assert (LT : (i < List.length (s_ws s))%nat) by (apply (P2 e i v m); right; exact X).
          rewrite nth_error_app1 in G by exact LT. exact (P3 e i v m w X G).
      + intros i w G. destruct (Nat.lt_ge_cases i (List.length (s_ws s))) as [LT|GE].
        * rewrite nth_error_app1 in G by exact LT. exact (IW i w G).
        * rewrite nth_error_app2 in G by exact GE. destruct (i - List.length (s_ws s))%nat as [|k] eqn:K; [|destruct k; discriminate]. cbn in G. injection G as <-.
          split; [split; [reflexivity|intros _; split; discriminate]|]. intros t. split; cbn [register w_base w_reg w_pre w_snap w_open w_out w_loop w_chan].
          -- lia.
          -- lia.
          -- rewrite firstn_all. apply IC.
          -- split; [|intros _; exists []; rewrite app_nil_r; reflexivity]. intros e us Q. exfalso.
             assert (List.length (s_hist s t) < List.length (s_hist s t))%nat by (apply nth_error_Some; congruence). lia.
          -- intros CA _. destruct (s_pc s t); try reflexivity. cbn in CA. congruence.
          -- intros _ _. right. reflexivity.
          -- exists 0%nat. reflexivity.
          -- intros _ _. cbn [hand app]. rewrite skipn_all2; [reflexivity|]. rewrite firstn_length. unfold evs. rewrite map_length. lia.
    - (* Take *)
      destruct (nth_error (s_ws s) i) as [w|] eqn:N; [|exact I]. destruct (w_loop w) eqn:LP; try exact I. destruct (w_chan w) as [|x c] eqn:CH; [exact I|].
      apply (inv_w_step s i w _ I N).
      + intros X. exact X.
      + pose proof (proj1 (inv_w s I i w N)) as [L1 L2]. split; [exact L1|]. intros _. split; discriminate.
      + intros u [A B C D X Y Z T]. split; auto. cbn [withLoop withChan w_open w_loop w_out w_chan w_base]. intros OP _. rewrite LP, CH in T. cbn [hand app] in *. exact (T OP Logic.I).
    - (* Send *)
      destruct (nth_error (s_ws s) i) as [w|] eqn:N; [|exact I]. destruct (w_loop w) as [|x| | |] eqn:LP; try exact I. destruct (w_open w && ok) eqn:Q.
      + apply andb_true_iff in Q. destruct Q as [OP _]. apply (inv_w_step s i w _ I N).
        * intros _. exact OP.
        * pose proof (proj1 (inv_w s I i w N)) as [L1 L2]. split; [exact L1|]. intros _. split; discriminate.
        * intros u [A B C D X Y Z T]. rewrite LP in T. cbn [hand] in T. specialize (T OP Logic.I). split; auto; cbn [withLoop withOut w_open w_loop w_out w_chan w_base].
          -- rewrite app_assoc, ofType_app in T. unfold evs in *.
             exists (List.length (ofType u (w_out w ++ [x]))).
             assert (K : exists y, skipn (w_base w u) (map fst (s_hist s u)) = ofType u (w_out w ++ [x]) ++ y).
             { exists (ofType u (w_chan w) ++ skipn (List.length (s_hist s u) - (if unoffered i (s_pc s u) then 1 else 0) - w_base w u) (skipn (w_base w u) (map fst (s_hist s u)))).
               rewrite app_assoc, T. rewrite skipn_firstn_comm. symmetry. apply firstn_skipn. }
             destruct K as (y & ->). rewrite firstn_app, Nat.sub_diag, firstn_O, app_nil_r, firstn_all. reflexivity.
          -- intros _ _. rewrite <- T. cbn [hand app]. rewrite <- app_assoc. reflexivity.
      + apply (inv_w_step s i w _ I N).
        * intros X. exact X.
        * pose proof (proj1 (inv_w s I i w N)) as [L1 L2]. split; [exact L1|]. intros _. split; discriminate.
        * intros u [A B C D X Y Z T]. split; auto. cbn [withLoop w_loop working]. intros _ [].
    - (* Leave *)
      destruct (nth_error (s_ws s) i) as [w|] eqn:N; [|exact I]. destruct (w_loop w) as [|x| | |] eqn:LP; try exact I. apply (inv_w_step s i w _ I N).
      + intros X. exact X.
      + pose proof (proj1 (inv_w s I i w N)) as [L1 L2]. split; [exact L1|]. intros _. split; discriminate.
      + intros u [A B C D X Y Z T]. split; auto. cbn [withLoop w_loop working]. intros _ [].
    - (* CloseSelf *)
      destruct (nth_error (s_ws s) i) as [w|] eqn:N; [|exact I]. destruct (w_loop w) as [|x| | |] eqn:LP; try exact I. apply (inv_w_step s i w _ I N).
      + discriminate.
      + split; discriminate.
      + intros u [A B C D X Y Z T]. split; auto; cbn [withLoop withOpen w_open]; discriminate.
    - (* RemoveSelf *)
      destruct (nth_error (s_ws s) i) as [w|] eqn:N; [|exact I]. destruct (w_loop w) as [|x| | |] eqn:LP; try exact I.
      assert (OPF : w_open w = false). { destruct (w_open w) eqn:OP; [|reflexivity]. destruct (proj2 (proj1 (inv_w s I i w N)) OP) as [X _]. congruence. }
      apply (inv_w_step s i w _ I N).
      + intros X. exact X.
      + split; cbn [withLoop withIn w_open]; congruence.
      + intros u [A B C D X Y Z T]. split; auto; cbn [withLoop withIn w_open]; congruence.
  Qed.

  Lemma wrun_inv ops : forall s, Inv s -> Inv (wrun s ops).
  Proof. induction ops as [|o ops IH]; intros s I; [exact I|]. cbn [wrun fold_left]. apply IH. apply wstep_inv. exact I. Qed.
End W.
