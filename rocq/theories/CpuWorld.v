From Verif Require Import Base AttrModel AttrProofs CpuModel CpuSpec CpuProofs.
From Coq Require Import ZifyBool.
Open Scope string_scope. Open Scope list_scope. Open Scope Z_scope.

(** The exits not yet acted on, oldest first. *)
Fixpoint pending (d : Z) (cs : list Z) (rh : list cop) : list (Z * Z * Z) :=
  match rh with
  | [] => []
  | OExit p t tm :: r => pending d cs r ++ (if isOn r && forallb (fun c => c <? tm + d) cs then [(p, t, tm)] else [])
  | OCheck c :: r => pending d (c :: cs) r
  | _ :: r => pending d cs r
  end.
Definition isDue (d pid tid now : Z) (x : Z * Z * Z) : bool := (fst (fst x) =? pid) && (snd (fst x) =? tid) && (snd x + d <=? now).
Lemma due_pending d pid tid now : forall rh cs, due d pid tid now cs rh = existsb (isDue d pid tid now) (pending d cs rh).
Proof.
  induction rh as [|o r IH]; intros cs; [reflexivity|]. destruct o; cbn [due pending]; try apply IH.
  rewrite IH, existsb_app, orb_comm. f_equal. destruct (isOn r); cbn [andb existsb].
  - destruct (forallb (fun c => c <? now0 + d) cs); cbn [existsb]; [|rewrite !andb_false_r; reflexivity].
    unfold isDue. cbn [fst snd]. rewrite orb_false_r, !andb_true_r. reflexivity.
  - rewrite andb_false_r, !andb_false_l. reflexivity.
Qed.
Lemma pending_check d c : forall rh cs, pending d (c :: cs) rh = filter (fun x => c <? snd x + d) (pending d cs rh).
Proof.
  assert (P : forall rh cs cs', (forall x, forallb (fun c => c <? x) cs = forallb (fun c => c <? x) cs') -> pending d cs rh = pending d cs' rh).
  { induction rh as [|o r IH]; intros cs cs' E; [reflexivity|]. destruct o; cbn [pending]; try (apply IH; exact E).
    - rewrite (IH cs cs' E), E. reflexivity.
    - apply IH. intros x. cbn [forallb]. rewrite E. reflexivity. }
  induction rh as [|o r IH]; intros cs; [reflexivity|]. destruct o; cbn [pending]; try apply IH.
  - rewrite IH, filter_app. f_equal. cbn [forallb]. destruct (isOn r); cbn [andb]; [|reflexivity].
    destruct (forallb (fun c0 => c0 <? now + d) cs); rewrite ?andb_true_r, ?andb_false_r; [|reflexivity].
    cbn [filter snd]. destruct (c <? now + d); reflexivity.
  - rewrite (P r (now :: c :: cs) (c :: now :: cs)); [apply IH|]. intros x. cbn [forallb]. rewrite !andb_assoc, (andb_comm (now <? x)). reflexivity.
Qed.

(** Nondecreasing queues. *)
Lemma nondecreasing_app a b : nondecreasing (a ++ b) <-> nondecreasing a /\ nondecreasing b /\ (forall x y, In x a -> In y b -> x <= y).
Proof.
  induction a as [|x a IH]; cbn [app nondecreasing]; [split; [intros H; split; [exact I|split; [exact H|intros ? ? []]]|intros (_ & H & _); exact H]|].
  rewrite IH, Forall_app, !Forall_forall. split.
  - intros ((A & B) & C & D & E). split; [auto|]. split; [exact D|]. intros u v [U|U] V; [subst; auto|auto].
  - intros ((A & C) & D & E). split; [split; [exact A|intros v V; apply E; [left; reflexivity|exact V]]|]. split; [exact C|]. split; [exact D|].
    intros u v U V. apply E; [right; exact U|exact V].
Qed.
Lemma times_app a b : times (a ++ b) = times a ++ times b.
Proof. induction a as [|o a IH]; [reflexivity|]. destruct o; cbn [app times]; rewrite ?IH; reflexivity. Qed.
Lemma pending_in d : forall rh cs x, In x (pending d cs rh) -> In (snd x) (times (rev rh)).
Proof.
  induction rh as [|o r IH]; intros cs x I; [destruct I|]. cbn [rev]. rewrite times_app, in_app_iff.
  destruct o; cbn [pending] in I; try (left; apply (IH _ _ I)).
  apply in_app_iff in I. destruct I as [I|I]; [left; apply (IH _ _ I)|]. right. destruct (isOn r && _); [|destruct I]. destruct I as [I|[]]. subst x. left. reflexivity.
Qed.
Lemma pending_sorted d : forall rh cs, nondecreasing (times (rev rh)) -> nondecreasing (map snd (pending d cs rh)).
Proof.
  induction rh as [|o r IH]; intros cs H; [exact I|]. cbn [rev] in H. rewrite times_app in H. apply nondecreasing_app in H. destruct H as (A & B & C).
  destruct o; cbn [pending]; try (apply IH; exact A).
  rewrite map_app. apply nondecreasing_app. split; [apply IH; exact A|]. destruct (isOn r && _); cbn [map snd nondecreasing]; [|split; [exact I|intros ? ? _ []]].
  split; [split; [constructor|exact I]|]. intros u v U [V|[]]. subst v. apply in_map_iff in U. destruct U as (x & <- & U). apply C; [apply (pending_in d r cs x U)|left; reflexivity].
Qed.

Definition ringOf (rs : list (Z * list (Z * ring))) (pid tid : Z) : option ring := match aget rs pid with Some l => aget l tid | None => None end.
Lemma ringOf_threads s pid tid : ringOf (c_rings s) pid tid = aget (threads s pid) tid.
Proof. unfold ringOf, threads. destruct (aget (c_rings s) pid); reflexivity. Qed.
Definition keysOK (rs : list (Z * list (Z * ring))) : Prop := forall pid l, aget rs pid = Some l -> NoDup (keys l).

Lemma tidDelete_spec d now : forall q rs, nondecreasing (map snd q) -> keysOK rs ->
  fst (tidDelete d now q rs) = filter (fun x => now <? snd x + d) q /\
  (forall pid tid, ringOf (snd (tidDelete d now q rs)) pid tid = if existsb (isDue d pid tid now) q then None else ringOf rs pid tid) /\
  keysOK (snd (tidDelete d now q rs)) /\ (rs = [] -> snd (tidDelete d now q rs) = []).
Proof.
  induction q as [|[[p t] tm] q IH]; intros rs S K; cbn [tidDelete map snd nondecreasing] in *.
  - split; [reflexivity|]. split; [reflexivity|]. split; [exact K|auto].
  - destruct S as [S1 S2]. destruct (now <? tm + d) eqn:E.
    + cbn [fst snd filter]. rewrite E.
      assert (X : forall x, In x q -> (now <? snd x + d) = true).
      { intros x I. rewrite Forall_forall in S1. specialize (S1 (snd x) (in_map snd q x I)). lia. }
      split; [f_equal; symmetry; clear -X; induction q as [|x q IH]; [reflexivity|]; cbn [filter]; rewrite (X x (or_introl eq_refl)); f_equal; apply IH; intros y I; apply X; right; exact I|].
      split; [|split; [exact K|auto]]. intros pid tid.
      assert (Y : existsb (isDue d pid tid now) ((p, t, tm) :: q) = false).
      { cbn [existsb]. apply orb_false_iff. split; [unfold isDue; cbn [fst snd]; lia|]. destruct (existsb (isDue d pid tid now) q) eqn:F; [|reflexivity].
        apply existsb_exists in F. destruct F as (x & I & F). specialize (X x I). unfold isDue in F. lia. }
      rewrite Y. reflexivity.
    + set (rs1 := match aget rs p with Some l => aset rs p (adel l t) | None => rs end).
      assert (R1 : forall pid tid, ringOf rs1 pid tid = if (p =? pid) && (t =? tid) then None else ringOf rs pid tid).
      { intros pid tid. unfold rs1, ringOf. destruct (aget rs p) as [l|] eqn:G.
        - rewrite aget_aset. change (eqb pid p) with (pid =? p). rewrite (Z.eqb_sym pid p). destruct (p =? pid) eqn:Ep; cbn [andb]; [|reflexivity].
          apply Z.eqb_eq in Ep. subst pid. rewrite G, aget_adel. change (eqb tid t) with (tid =? t). rewrite (Z.eqb_sym tid t). reflexivity.
        - destruct (p =? pid) eqn:Ep; cbn [andb]; [|reflexivity]. apply Z.eqb_eq in Ep. subst pid. rewrite G. destruct (t =? tid); reflexivity. }
      assert (K1 : keysOK rs1).
      { unfold rs1. destruct (aget rs p) as [l|] eqn:G; [|exact K]. intros pid l1. rewrite aget_aset. change (eqb pid p) with (pid =? p).
        destruct (pid =? p) eqn:Ep; [|apply K]. intros H. inversion H; subst. apply NoDup_keys_adel. apply (K p). exact G. }
      destruct (IH rs1 S2 K1) as (I1 & I2 & I3 & I4). cbn [filter snd]. rewrite E. split; [exact I1|]. split; [|split; [exact I3|]].
      * intros pid tid. rewrite I2, R1. cbn [existsb]. unfold isDue at 2. cbn [fst snd]. replace (tm + d <=? now) with true by lia. rewrite andb_true_r.
        destruct (existsb (isDue d pid tid now) q); [rewrite orb_true_r; reflexivity|]. rewrite orb_false_r. reflexivity.
      * intros ->. apply I4. reflexivity.
Qed.

Lemma aget_map_val (f : Z -> ring -> ring) l tid : aget (map (fun p => (fst p, f (fst p) (snd p))) l) tid = option_map (f tid) (aget l tid).
Proof.
  induction l as [|[t r] l IH]; [reflexivity|]. cbn [map aget fst snd]. case_eqb tid t; [subst; reflexivity|exact IH].
Qed.

Record world (n : nat) (d : Z) (h : list cop) (s : cpu) : Prop := {
  w_on : c_on s = isOn (rev h);
  w_q : c_queue s = pending d [] (rev h);
  w_ring : forall pid tid, ringOf (c_rings s) pid tid = trun n pid tid (life d pid tid (rev h));
  w_keys : keysOK (c_rings s);
  w_off : c_on s = false -> c_rings s = [] }.

Lemma trun_snoc n pid tid l it : trun n pid tid (l ++ [it]) = tstep n pid tid (trun n pid tid l) it.
Proof. unfold trun. rewrite fold_left_app. reflexivity. Qed.

Lemma crun_world n d h : nondecreasing (times h) -> world n d h (crun n d h).
Proof.
  induction h as [|o h IH] using rev_ind; intros T.
  - split; try reflexivity. intros pid l H. discriminate H.
  - rewrite times_app in T. apply nondecreasing_app in T. destruct T as (T1 & _ & _). specialize (IH T1).
    destruct IH as [On Q R K Off]. unfold crun in *. rewrite fold_left_app. cbn [fold_left]. set (s := fold_left (cstep n d) h cpu0) in *.
    destruct o as [| |p t nm e|p a b|p t now|now]; cbn [cstep].
    + split; cbn [c_on c_rings c_queue]; rewrite ?rev_app_distr; cbn [rev app isOn pending life]; auto; try congruence.
    + destruct (c_on s) eqn:E.
      * split; cbn [c_on c_rings c_queue]; rewrite ?rev_app_distr; cbn [rev app isOn pending life]; auto; try congruence. intros pid l H. discriminate H.
      * assert (X : c_rings s = []) by (apply Off; congruence). split; rewrite ?rev_app_distr; cbn [rev app isOn pending life]; auto; try congruence.
        intros pid tid. rewrite X. reflexivity.
    + unfold putEvent. destruct (c_on s) eqn:E.
      * split; cbn [c_on c_rings c_queue]; rewrite ?rev_app_distr; cbn [rev app isOn pending life]; auto; try congruence.
        -- intros pid tid. rewrite <- On, andb_true_r. unfold ringOf. rewrite aget_aset. change (eqb pid p) with (pid =? p). rewrite (Z.eqb_sym pid p).
           destruct (p =? pid) eqn:Ep; cbn [andb]; [|apply R]. apply Z.eqb_eq in Ep. subst p. rewrite aget_aset. change (eqb tid t) with (tid =? t).
           rewrite (Z.eqb_sym tid t). destruct (t =? tid) eqn:Et; [|rewrite <- ringOf_threads; apply R]. apply Z.eqb_eq in Et. subst t.
           rewrite trun_snoc, <- R, ringOf_threads. reflexivity.
        -- intros pid l. rewrite aget_aset. change (eqb pid p) with (pid =? p). destruct (pid =? p) eqn:Ep; [|apply K]. apply Z.eqb_eq in Ep. subst pid.
           intros H. inversion H. apply NoDup_keys_aset. unfold threads. destruct (aget (c_rings s) p) eqn:G; [apply (K p); exact G|constructor].
      * split; rewrite ?rev_app_distr; cbn [rev app isOn pending life]; auto; try congruence. intros pid tid. rewrite <- On, andb_false_r. apply R.
    + unfold sendEvents. destruct (c_on s) eqn:E.
      * destruct (aget (c_rings s) p) as [ths|] eqn:G; cbn [snd].
        -- split; cbn [c_on c_rings c_queue]; rewrite ?rev_app_distr; cbn [rev app isOn pending life]; auto; try congruence.
           ++ intros pid tid. rewrite <- On, andb_true_r. unfold ringOf. rewrite aget_aset. change (eqb pid p) with (pid =? p). rewrite (Z.eqb_sym pid p).
              destruct (p =? pid) eqn:Ep; [|apply R]. apply Z.eqb_eq in Ep. subst p.
              rewrite (aget_map_val (fun t r => snd (sendThread n pid t r a b))), trun_snoc, <- R. unfold ringOf. rewrite G. reflexivity.
           ++ intros pid l. rewrite aget_aset. change (eqb pid p) with (pid =? p). destruct (pid =? p) eqn:Ep; [|apply K]. intros H. inversion H.
              unfold keys. rewrite map_map. cbn [fst]. apply (K p). exact G.
        -- split; rewrite ?rev_app_distr; cbn [rev app isOn pending life]; auto; try congruence.
           intros pid tid. rewrite <- On, andb_true_r. destruct (p =? pid) eqn:Ep; [|apply R]. apply Z.eqb_eq in Ep. subst p.
           rewrite trun_snoc, <- R. unfold ringOf. rewrite G. reflexivity.
      * cbn [snd]. split; rewrite ?rev_app_distr; cbn [rev app isOn pending life]; auto; try congruence. intros pid tid. rewrite <- On, andb_false_r. apply R.
    + destruct (c_on s) eqn:E.
      * split; cbn [c_on c_rings c_queue]; rewrite ?rev_app_distr; cbn [rev app isOn pending life]; auto; try congruence. rewrite <- On, Q. reflexivity.
      * split; rewrite ?rev_app_distr; cbn [rev app isOn pending life]; auto; try congruence. rewrite <- On, app_nil_r. exact Q.
    + destruct (tidDelete d now (c_queue s) (c_rings s)) as [q rs] eqn:D.
      assert (S : nondecreasing (map snd (c_queue s))) by (rewrite Q; apply pending_sorted; rewrite rev_involutive; exact T1).
      destruct (tidDelete_spec d now (c_queue s) (c_rings s) S K) as (D1 & D2 & D3 & D4). rewrite D in D1, D2, D3, D4. cbn [fst snd] in *.
      split; cbn [c_on c_rings c_queue]; rewrite ?rev_app_distr; cbn [rev app isOn pending life]; auto; try congruence.
      * rewrite pending_check, D1, Q. reflexivity.
      * intros pid tid. rewrite D2, due_pending, <- Q. destruct (existsb _ _); [reflexivity|apply R].
Qed.

Lemma life_sane n d pid tid h : Forall (saneOp n) h -> Forall (saneItem n) (life d pid tid (rev h)).
Proof.
  induction h as [|o h IH] using rev_ind; intros S; [constructor|]. apply Forall_app in S. destruct S as [S1 S2]. inversion S2 as [|? ? S3 _]; subst. specialize (IH S1).
  rewrite rev_app_distr. cbn [rev app]. destruct o; cbn [life saneOp] in *; auto.
  - destruct (_ && _); [|exact IH]. apply Forall_app. split; [exact IH|]. constructor; [exact S3|constructor].
  - destruct (_ && _); [|exact IH]. apply Forall_app. split; [exact IH|]. constructor; [exact S3|constructor].
  - destruct (due _ _ _ _ _ _); [constructor|exact IH].
Qed.

Lemma flat_map_ext_in {A B} (f g : A -> list B) l : (forall x, In x l -> f x = g x) -> flat_map f l = flat_map g l.
Proof. intros H. induction l as [|a l IH]; [reflexivity|]. cbn [flat_map]. rewrite (H a (or_introl eq_refl)), IH; [reflexivity|]. intros x I. apply H. right. exact I. Qed.
Lemma flat_map_map {A B C} (f : A -> B) (g : B -> list C) l : flat_map g (map f l) = flat_map (fun x => g (f x)) l.
Proof. induction l as [|a l IH]; [reflexivity|]. cbn [map flat_map]. rewrite IH. reflexivity. Qed.

(** What one send emits, over all the threads of the process. *)
Lemma send_world n c d h pid a b : n = (2 * c)%nat -> (0 < c)%nat -> nondecreasing (times h) -> Forall (saneOp (Z.of_nat n)) h -> 0 <= a < 2 ^ 64 -> 0 <= b < 2 ^ 64 ->
  let s := crun n d h in
  NoDup (keys (threads s pid)) /\
  (forall tid, In tid (keys (threads s pid)) <-> exists k, tracked (Z.of_nat n) (life d pid tid (rev h)) = Some k) /\
  fst (sendEvents n pid a b s) = if isOn (rev h) then flat_map (fun tid => expectedOf (Z.of_nat n) pid tid a b (tracked (Z.of_nat n) (life d pid tid (rev h)))) (keys (threads s pid)) else [].
Proof.
  intros En Cp T S Ha Hb. cbv zeta. pose proof (crun_world n d h T) as [On Q R K Off]. set (s := crun n d h) in *.
  assert (ND : NoDup (keys (threads s pid))). { unfold threads. destruct (aget (c_rings s) pid) eqn:G; [apply (K pid); exact G|constructor]. }
  assert (V : forall tid, match aget (threads s pid) tid, tracked (Z.of_nat n) (life d pid tid (rev h)) with Some r, Some k => inv n k r | None, None => True | _, _ => False end).
  { intros tid. rewrite <- ringOf_threads, R. apply (trun_inv n c); [exact En|exact Cp|]. apply life_sane. exact S. }
  split; [exact ND|]. split.
  - intros tid. specialize (V tid). split.
    + intros I. apply in_keys_aget in I. destruct I as [r G]. rewrite G in V. destruct (tracked _ _) as [k|]; [exists k; reflexivity|contradiction].
    + intros [k Ek]. rewrite Ek in V. destruct (aget (threads s pid) tid) as [r|] eqn:G; [|contradiction]. eapply aget_some_in_keys. exact G.
  - unfold sendEvents. rewrite On. destruct (isOn (rev h)); [|reflexivity]. unfold threads in *. destruct (aget (c_rings s) pid) as [ths|] eqn:G; [|reflexivity].
    cbn [fst]. unfold keys. rewrite flat_map_map. apply flat_map_ext_in. intros [tid r] I. cbn [fst snd]. specialize (V tid).
    rewrite (in_aget ths tid r ND I) in V. destruct (tracked (Z.of_nat n) (life d pid tid (rev h))) as [k|]; [|contradiction]. apply send_out; assumption.
Qed.
