(** Lemmas behind AttrProps.v. *)
From Verif Require Import Base Decimal AttrModel AttrSpec.

Lemma nth_set_same {A} (l : list A) n x : (n < List.length l)%nat -> nth_error (set_nth l n x) n = Some x.
Proof.
  revert n. induction l as [|a l IH]; intros [|n] L; cbn in *; try lia; [reflexivity|]. apply IH. lia.
Qed.
Lemma nth_set_other {A} (l : list A) n x j : j <> n -> nth_error (set_nth l n x) j = nth_error l j.
Proof.
  revert n j. induction l as [|a l IH]; intros [|n] [|j] N; cbn; try reflexivity; try congruence.
  apply IH. congruence.
Qed.
Lemma set_nth_length {A} (l : list A) n x : List.length (set_nth l n x) = List.length l.
Proof. revert n. induction l as [|a l IH]; intros [|n]; cbn; auto. Qed.

Lemma nth_lt {A} (l : list A) n x : nth_error l n = Some x -> (n < List.length l)%nat.
Proof. intros E. apply nth_error_Some. congruence. Qed.

Lemma nth_snoc {A} (l : list A) x j :
  nth_error (l ++ [x]) j = if Nat.eqb j (List.length l) then Some x else nth_error l j.
Proof.
  destruct (Nat.eqb_spec j (List.length l)) as [->|N].
  - rewrite nth_error_app2, Nat.sub_diag by lia. reflexivity.
  - destruct (Nat.lt_ge_cases j (List.length l)).
    + rewrite nth_error_app1 by assumption. reflexivity.
    + rewrite nth_error_app2 by lia. rewrite (proj2 (nth_error_None l j)) by lia.
      destruct (j - List.length l)%nat eqn:E; [lia|]. destruct n; reflexivity.
Qed.

(** ** Merge *)
Lemma merge_nil o : forall m, mergeMaps m o = fold_left (fun m p => aset m (fst p) (snd p)) o m.
Proof. reflexivity. Qed.

Lemma aget_merge (o : amap) : forall m k, NoDup (keys o) ->
  aget (mergeMaps m o) k = match aget o k with Some l => Some l | None => aget m k end.
Proof.
  induction o as [|[k' l'] o IH]; intros m k ND; [reflexivity|].
  cbn [keys map fst] in ND. inversion ND as [|? ? NI ND']; subst.
  unfold mergeMaps. cbn [fold_left fst snd]. fold (mergeMaps (aset m k' l') o).
  rewrite IH by assumption. cbn [aget]. rewrite aget_aset.
  case_eqb k k'.
  - subst k'. apply aget_none_notin in NI. rewrite NI. reflexivity.
  - reflexivity.
Qed.

Lemma NoDup_merge (o : amap) : forall m, NoDup (keys m) -> NoDup (keys (mergeMaps m o)).
Proof.
  induction o as [|[k l] o IH]; intros m ND; [exact ND|].
  unfold mergeMaps. cbn [fold_left fst snd]. apply IH. apply NoDup_keys_aset. exact ND.
Qed.

(** ** ResetValues *)
Lemma zero_of_idem v : zero_of (zero_of v) = zero_of v.
Proof. destruct v; reflexivity. Qed.

Lemma reset_cons h k l m : resetValues h ((k, l) :: m) =
  resetValues (match nth_error h l with Some v => set_nth h l (zero_of v) | None => h end) m.
Proof. reflexivity. Qed.

Lemma reset_length m : forall h, List.length (resetValues h m) = List.length h.
Proof.
  induction m as [|[k l] m IH]; intros h; [reflexivity|].
  rewrite reset_cons, IH. destruct (nth_error h l); [apply set_nth_length|reflexivity].
Qed.

Lemma reset_nth m : forall h x,
  nth_error (resetValues h m) x =
  if existsb (fun p => Nat.eqb x (snd p)) m then option_map zero_of (nth_error h x) else nth_error h x.
Proof.
  induction m as [|[k l] m IH]; intros h x; [reflexivity|].
  rewrite reset_cons, IH. cbn [existsb snd]. destruct (Nat.eqb_spec x l) as [->|N]; cbn [orb].
  - destruct (nth_error h l) as [v|] eqn:E.
    + rewrite nth_set_same by (eapply nth_lt; eassumption). cbn [option_map]. rewrite zero_of_idem.
      destruct (existsb _ m); reflexivity.
    + rewrite E. destruct (existsb _ m); reflexivity.
  - destruct (nth_error h l) as [v|] eqn:E.
    + rewrite nth_set_other by assumption. reflexivity.
    + reflexivity.
Qed.

(** ** Clone *)
Definition clone_from (h : heap) (c : amap) (m : amap) : heap * amap :=
  fold_left (fun (st : heap * amap) p =>
               match nth_error (fst st) (snd p) with
               | Some v => addValue (fst st) (snd st) (fst p) v
               | None => st
               end) m (h, c).

Lemma clone_from_cons h c k l m :
  clone_from h c ((k, l) :: m) =
  match nth_error h l with
  | Some v => clone_from (h ++ [v]) (aset c k (List.length h)) m
  | None => clone_from h c m
  end.
Proof. unfold clone_from. cbn [fold_left fst snd]. destruct (nth_error h l); reflexivity. Qed.

Lemma clone_from_ok m : forall h c h' c' n0,
  clone_from h c m = (h', c') ->
  NoDup (keys m) ->
  (forall k l, aget m k = Some l -> (l < n0)%nat) ->
  (n0 <= List.length h)%nat ->
  (forall k, In k (keys m) -> aget c k = None) ->
  NoDup (keys c) ->
  (forall k l, aget c k = Some l -> (n0 <= l < List.length h)%nat) ->
  (forall k k' l, aget c k = Some l -> aget c k' = Some l -> k = k') ->
  (exists t, h' = h ++ t) /\ NoDup (keys c') /\
  (forall k l, aget c' k = Some l -> (n0 <= l < List.length h')%nat) /\
  (forall k k' l, aget c' k = Some l -> aget c' k' = Some l -> k = k') /\
  (forall k, deref h' c' k = match aget c k with Some l => nth_error h l | None => deref h m k end).
Proof.
  induction m as [|[k0 l0] m IH]; intros h c h' c' n0 E ND V L D NDc R I.
  - cbn in E. inversion E; subst h' c'. split; [|split; [|split; [|split]]]; try assumption.
    + exists []. rewrite app_nil_r. reflexivity.
    + intros k. unfold deref. destruct (aget c k); reflexivity.
  - rewrite clone_from_cons in E.
    cbn [keys map fst] in ND. inversion ND as [|? ? NI ND']; subst.
    assert (V0 : (l0 < n0)%nat). { apply (V k0). cbn [aget]. rewrite eqb_refl. reflexivity. }
    destruct (nth_error h l0) as [v|] eqn:G; [|apply nth_error_None in G; lia].
    edestruct (IH (h ++ [v]) (aset c k0 (List.length h)) h' c' n0) as (T & A & B & C & F); try eassumption.
    + intros k l Hk. apply (V k). cbn [aget]. case_eqb k k0; [|exact Hk].
      subst k. apply aget_some_in_keys in Hk. contradiction.
    + rewrite app_length. lia.
    + intros k Hk. rewrite aget_aset_other by (intros ->; contradiction).
      apply D. right. exact Hk.
    + apply NoDup_keys_aset. assumption.
    + intros k l. rewrite aget_aset, app_length. cbn [List.length]. case_eqb k k0.
      * intros X; inversion X. lia.
      * intros Hk. apply R in Hk. lia.
    + intros k k' l. rewrite !aget_aset. case_eqb k k0; case_eqb k' k0; subst; auto.
      * intros X Y; inversion X; subst. apply R in Y. lia.
      * intros Y X; inversion X; subst. apply R in Y. lia.
      * apply I.
    + split; [|split; [|split; [|split]]]; try assumption.
      * destruct T as (t & ->). exists (v :: t). rewrite <- app_assoc. reflexivity.
      * intros k. rewrite F, aget_aset. case_eqb k k0.
        -- subst. rewrite D by (left; reflexivity). rewrite nth_snoc, Nat.eqb_refl.
           unfold deref. cbn [aget]. rewrite eqb_refl. congruence.
        -- destruct (aget c k) as [l|] eqn:Hc.
           ++ rewrite nth_error_app1; [reflexivity|]. apply R in Hc. lia.
           ++ unfold deref. cbn [aget]. rewrite (proj2 (eqb_neq k k0) E0).
              destruct (aget m k) as [l|] eqn:Hm; [|reflexivity].
              rewrite nth_error_app1; [reflexivity|].
              specialize (V k l). cbn [aget] in V. rewrite (proj2 (eqb_neq k k0) E0) in V.
              specialize (V Hm). lia.
Qed.

(** ** Well-formed worlds *)
Definition wf (w : world) : Prop :=
  (forall i m, nth_error (maps w) i = Some m ->
     NoDup (keys m) /\ forall k l, aget m k = Some l -> (l < List.length (hp w))%nat) /\
  (forall i j m m' k k' l, nth_error (maps w) i = Some m -> nth_error (maps w) j = Some m' ->
     aget m k = Some l -> aget m' k' = Some l -> k = k').

Lemma wf_empty : wf empty_world.
Proof. split; intros; destruct i; discriminate. Qed.

(** One step, seen from outside. *)
Record shape (w w' : world) (o : aop) : Prop := {
  sh_len : (List.length (hp w) <= List.length (hp w'))%nat;
  sh_mapslen : List.length (maps w') = Nat.max (List.length (maps w)) (S (target (List.length (maps w)) o));
  sh_ment : forall i, In i (mentions o) -> (i < List.length (maps w))%nat;
  sh_others : forall j, j <> target (List.length (maps w)) o -> nth_error (maps w') j = nth_error (maps w) j;
  sh_target : exists m', nth_error (maps w') (target (List.length (maps w)) o) = Some m' /\
     NoDup (keys m') /\
     (forall k l, aget m' k = Some l -> (l < List.length (hp w'))%nat /\
        ((List.length (hp w) <= l)%nat \/
         exists i m, (i = target (List.length (maps w)) o \/ is_merge o = true /\ In i (mentions o)) /\
                     nth_error (maps w) i = Some m /\ aget m k = Some l)) /\
     (forall k k' l, (List.length (hp w) <= l)%nat -> aget m' k = Some l -> aget m' k' = Some l -> k = k');
  sh_heap : forall l, (l < List.length (hp w))%nat ->
     (forall m k, nth_error (maps w) (target (List.length (maps w)) o) = Some m -> aget m k <> Some l) ->
     nth_error (hp w') l = nth_error (hp w) l;
  sh_content : vtarget (look w) o <> None /\
     forall m k, vtarget (look w) o = Some m -> look w' (target (List.length (maps w)) o) k = m k
}.

Lemma look_some w i m k : nth_error (maps w) i = Some m -> look w i k = deref (hp w) m k.
Proof. intros E. unfold look. rewrite E. reflexivity. Qed.

Lemma deref_app h t m k : (forall l, aget m k = Some l -> (l < List.length h)%nat) -> deref (h ++ t) m k = deref h m k.
Proof.
  intros V. unfold deref. destruct (aget m k) as [l|] eqn:E; [|reflexivity].
  apply nth_error_app1. apply V. reflexivity.
Qed.

Lemma add_shape w i m k v w' o :
  wf w -> nth_error (maps w) i = Some m ->
  w' = {| hp := hp w ++ [v]; maps := set_nth (maps w) i (aset m k (List.length (hp w))) |} ->
  o = AAdd i k v \/ (o = AUpd i k v /\ aget m k = None) ->
  shape w w' o.
Proof.
  intros [W1 W2] E -> O.
  assert (T : target (List.length (maps w)) o = i) by (destruct O as [-> | [-> _]]; reflexivity).
  assert (M : mentions o = [i]) by (destruct O as [-> | [-> _]]; reflexivity).
  pose proof (nth_lt _ _ _ E) as LI.
  assert (VT : exists f, vtarget (look w) o = Some f /\ forall x, f x = vput (look w i) k (Some v) x).
  { destruct O as [-> | [-> N]]; cbn [vtarget].
    - eexists; split; [reflexivity|reflexivity].
    - rewrite (look_some w i m k E). unfold deref. rewrite N. eexists; split; [reflexivity|reflexivity]. }
  constructor; cbn [hp maps]; rewrite ?T, ?M.
  - rewrite app_length. lia.
  - rewrite set_nth_length. lia.
  - intros j [->|[]]. assumption.
  - intros j N. apply nth_set_other. assumption.
  - eexists. split; [apply nth_set_same; assumption|].
    destruct (W1 _ _ E) as [ND V]. split; [apply NoDup_keys_aset; assumption|]. split.
    + intros k0 l. rewrite aget_aset, app_length. cbn [List.length]. case_eqb k0 k.
      * intros X; inversion X; subst. split; [lia|]. left. lia.
      * intros G. split; [specialize (V _ _ G); lia|]. right. exists i, m. auto.
    + intros k1 k2 l Ge. rewrite !aget_aset.
      case_eqb k1 k; case_eqb k2 k; subst; auto.
      * intros _ G. apply V in G. lia.
      * intros G _. apply V in G. lia.
      * intros G _. apply V in G. lia.
  - intros l L _. apply nth_error_app1. assumption.
  - destruct VT as (f & F & FE). rewrite F. split; [discriminate|].
    intros m0 x X. inversion X; subst m0. rewrite FE.
    unfold look. cbn [maps hp]. rewrite nth_set_same by assumption.
    unfold deref at 1. rewrite aget_aset. unfold vput.
    case_eqb x k.
    + rewrite nth_snoc, Nat.eqb_refl. reflexivity.
    + fold (deref (hp w ++ [v]) m x). rewrite E. apply deref_app.
      intros l G. eapply (proj2 (W1 _ _ E)); eassumption.
Qed.

Lemma step_shape w o w' : wf w -> astep w o = Ok w' -> shape w w' o.
Proof.
  intros W S. pose proof W as [W1 W2]. destruct o as [|i k v|i k v|i k|i|i j|i|i]; cbn [astep] in S.
  - (* ANew *)
    inversion S; subst w'. constructor; cbn [hp maps target mentions is_merge vtarget].
    + lia.
    + rewrite app_length. cbn. lia.
    + intros i [].
    + intros j N. rewrite nth_snoc. destruct (Nat.eqb_spec j (List.length (maps w))); [contradiction|reflexivity].
    + exists []. rewrite nth_snoc, Nat.eqb_refl. split; [reflexivity|]. split; [constructor|].
      split; intros; discriminate.
    + reflexivity.
    + split; [discriminate|]. intros m k X. inversion X; subst.
      unfold look. cbn [maps]. rewrite nth_snoc, Nat.eqb_refl. reflexivity.
  - destruct (nth_error (maps w) i) as [m|] eqn:E; [|discriminate].
    unfold addValue in S. inversion S; subst w'. eapply add_shape; eauto.
  - destruct (nth_error (maps w) i) as [m|] eqn:E; [|discriminate].
    unfold updateAddValue in S. destruct (aget m k) as [l|] eqn:G.
    + destruct (nth_error (hp w) l) as [old|] eqn:H; [|discriminate].
      destruct (same_type old v) eqn:ST; [|discriminate]. inversion S; subst w'.
      destruct (W1 _ _ E) as [ND V]. pose proof (nth_lt _ _ _ E) as LI.
      pose proof (nth_lt _ _ _ H) as LL.
      constructor; cbn [hp maps target mentions is_merge].
      * rewrite set_nth_length. lia.
      * rewrite set_nth_length. lia.
      * intros j [->|[]]. assumption.
      * intros j N. apply nth_set_other. assumption.
      * exists m. split; [apply nth_set_same; assumption|]. split; [assumption|]. split.
        -- intros k0 l0 G0. rewrite set_nth_length. split; [eauto|]. right. exists i, m. auto.
        -- intros k1 k2 l0 Ge G1. apply V in G1. lia.
      * intros l0 L0 N. apply nth_set_other. intros ->. eapply N; eassumption.
      * cbn [vtarget]. rewrite (look_some w i m k E). unfold deref at 1 2. rewrite G, H, ST.
        split; [discriminate|]. intros m0 x X; inversion X; subst m0.
        unfold look. cbn [maps hp]. rewrite nth_set_same by assumption. unfold vput, deref.
        case_eqb x k.
        -- subst. rewrite G. apply nth_set_same. assumption.
        -- rewrite E. destruct (aget m x) as [l'|] eqn:G'; [|reflexivity].
           apply nth_set_other. intros ->. apply E0. exact (W2 _ _ _ _ _ _ _ E E G' G).
    + inversion S; subst w'. eapply add_shape; eauto.
  - destruct (nth_error (maps w) i) as [m|] eqn:E; [|discriminate]. inversion S; subst w'.
    destruct (W1 _ _ E) as [ND V]. pose proof (nth_lt _ _ _ E) as LI.
    constructor; cbn [hp maps target mentions is_merge].
    + lia.
    + rewrite set_nth_length. lia.
    + intros j [->|[]]. assumption.
    + intros j N. apply nth_set_other. assumption.
    + exists (adel m k). split; [apply nth_set_same; assumption|]. split; [apply NoDup_keys_adel; assumption|].
      split.
      * intros k0 l0. rewrite aget_adel. destruct (eqb k0 k); [discriminate|]. intros G.
        split; [eauto|]. right. exists i, m. auto.
      * intros k1 k2 l0 Ge. rewrite aget_adel. destruct (eqb k1 k); [discriminate|]. intros G. apply V in G. lia.
    + reflexivity.
    + cbn [vtarget]. split; [discriminate|]. intros m0 x X; inversion X; subst m0.
      unfold look. cbn [maps hp]. rewrite nth_set_same by assumption. unfold vput, deref.
      rewrite aget_adel. destruct (eqb x k); [reflexivity|]. rewrite E. reflexivity.
  - destruct (nth_error (maps w) i) as [m|] eqn:E; [|discriminate]. inversion S; subst w'.
    pose proof (nth_lt _ _ _ E) as LI.
    constructor; cbn [hp maps target mentions is_merge].
    + lia.
    + rewrite set_nth_length. lia.
    + intros j [->|[]]. assumption.
    + intros j N. apply nth_set_other. assumption.
    + exists []. split; [apply nth_set_same; assumption|]. split; [constructor|]. split; intros; discriminate.
    + reflexivity.
    + cbn [vtarget]. split; [discriminate|]. intros m0 x X; inversion X; subst m0.
      unfold look. cbn [maps hp]. rewrite nth_set_same by assumption. reflexivity.
  - destruct (nth_error (maps w) i) as [m|] eqn:E; [|discriminate].
    destruct (nth_error (maps w) j) as [n|] eqn:E2; [|discriminate]. inversion S; subst w'.
    destruct (W1 _ _ E) as [ND V]. destruct (W1 _ _ E2) as [ND2 V2]. pose proof (nth_lt _ _ _ E) as LI.
    pose proof (nth_lt _ _ _ E2) as LJ.
    constructor; cbn [hp maps target mentions is_merge].
    + lia.
    + rewrite set_nth_length. lia.
    + intros x [->|[->|[]]]; assumption.
    + intros x N. apply nth_set_other. assumption.
    + exists (mergeMaps m n). split; [apply nth_set_same; assumption|]. split; [apply NoDup_merge; assumption|].
      assert (X : forall k l, aget (mergeMaps m n) k = Some l -> aget n k = Some l \/ aget m k = Some l).
      { intros k l. rewrite aget_merge by assumption. destruct (aget n k); auto. }
      split.
      * intros k l G. apply X in G. destruct G as [G|G].
        -- split; [eauto|]. right. exists j, n. split; [right; split; [reflexivity|right; left; reflexivity]|]. auto.
        -- split; [eauto|]. right. exists i, m. auto.
      * intros k1 k2 l Ge G. apply X in G. destruct G as [G|G]; [apply V2 in G|apply V in G]; lia.
    + reflexivity.
    + cbn [vtarget]. split; [discriminate|]. intros m0 x X; inversion X; subst m0.
      rewrite (look_some w i m x E), (look_some w j n x E2).
      unfold look. cbn [maps hp]. rewrite nth_set_same by assumption. unfold deref at 1.
      rewrite aget_merge by assumption. unfold deref.
      destruct (aget n x) as [l|] eqn:G.
      * destruct (nth_error (hp w) l) eqn:H; [reflexivity|]. apply nth_error_None in H. apply V2 in G. lia.
      * reflexivity.
  - destruct (nth_error (maps w) i) as [m|] eqn:E; [|discriminate]. inversion S; subst w'.
    destruct (W1 _ _ E) as [ND V]. pose proof (nth_lt _ _ _ E) as LI.
    constructor; cbn [hp maps target mentions is_merge].
    + rewrite reset_length. lia.
    + lia.
    + intros j [->|[]]. assumption.
    + reflexivity.
    + exists m. split; [assumption|]. split; [assumption|]. split.
      * intros k l G. rewrite reset_length. split; [eauto|]. right. exists i, m. auto.
      * intros k1 k2 l Ge G. apply V in G. lia.
    + intros l L N. rewrite reset_nth.
      destruct (existsb (fun p => Nat.eqb l (snd p)) m) eqn:X; [|reflexivity].
      apply existsb_exists in X. destruct X as ((k & l') & I & Q). cbn [snd] in Q. apply Nat.eqb_eq in Q. subst l'.
      exfalso. eapply N; [exact E|]. apply in_aget; eassumption.
    + cbn [vtarget]. split; [discriminate|]. intros m0 x X; inversion X; subst m0.
      unfold look. cbn [maps hp]. rewrite E. unfold deref.
      destruct (aget m x) as [l|] eqn:G; [|reflexivity].
      rewrite reset_nth. replace (existsb (fun p => Nat.eqb l (snd p)) m) with true; [reflexivity|].
      symmetry. apply existsb_exists. exists (x, l). split; [apply aget_in; assumption|apply Nat.eqb_refl].
  - destruct (nth_error (maps w) i) as [m|] eqn:E; [|discriminate].
    destruct (cloneMap (hp w) m) as [h c] eqn:C. inversion S; subst w'.
    destruct (W1 _ _ E) as [ND V]. pose proof (nth_lt _ _ _ E) as LI.
    destruct (clone_from_ok m (hp w) [] h c (List.length (hp w))) as ((t & ->) & NDc & R & I & D); auto.
    { constructor. } { intros; discriminate. } { intros; discriminate. }
    cbn [aget] in D.
    constructor; cbn [hp maps target mentions is_merge].
    + rewrite app_length. lia.
    + rewrite app_length. cbn. lia.
    + intros j [->|[]]. assumption.
    + intros j N. rewrite nth_snoc. destruct (Nat.eqb_spec j (List.length (maps w))); [contradiction|reflexivity].
    + exists c. rewrite nth_snoc, Nat.eqb_refl. split; [reflexivity|]. split; [assumption|]. split.
      * intros k l G. apply R in G. split; [lia|]. left. lia.
      * intros k1 k2 l _. apply I.
    + intros l L _. apply nth_error_app1. assumption.
    + cbn [vtarget]. split; [discriminate|]. intros m0 x X; inversion X; subst m0.
      unfold look. cbn [maps hp]. rewrite nth_snoc, Nat.eqb_refl, E. apply D.
Qed.

Lemma shape_wf w w' o : wf w -> shape w w' o -> wf w'.
Proof.
  intros [W1 W2] S. destruct S as [SL SM SMT SO (mt & ST & SND & SV0 & SI) SH SC].
  set (t := target (List.length (maps w)) o) in *.
  split.
  - intros i m E. destruct (Nat.eq_dec i t) as [->|N].
    + rewrite ST in E. inversion E; subst. split; [assumption|]. intros k l G. apply (SV0 k l G).
    + rewrite SO in E by assumption. destruct (W1 _ _ E) as [A B]. split; [assumption|].
      intros k l G. apply B in G. lia.
  - assert (OLD : forall i m k l, nth_error (maps w') i = Some m -> aget m k = Some l -> (l < List.length (hp w))%nat ->
             exists i0 m0, nth_error (maps w) i0 = Some m0 /\ aget m0 k = Some l).
    { intros i m k l E G L. destruct (Nat.eq_dec i t) as [->|N].
      - rewrite ST in E. inversion E; subst. destruct (SV0 _ _ G) as [_ [Ge|(i0 & m0 & _ & A & B)]]; [lia|eauto].
      - rewrite SO in E by assumption. eauto. }
    intros i j m m' k k' l E1 E2 G1 G2.
    destruct (Nat.lt_ge_cases l (List.length (hp w))) as [L|L].
    + destruct (OLD _ _ _ _ E1 G1 L) as (a & ma & Ea & Ga).
      destruct (OLD _ _ _ _ E2 G2 L) as (b & mb & Eb & Gb). exact (W2 _ _ _ _ _ _ _ Ea Eb Ga Gb).
    + destruct (Nat.eq_dec i t) as [->|N].
      * destruct (Nat.eq_dec j t) as [->|N2].
        -- rewrite ST in E1, E2. inversion E1; inversion E2; subst. exact (SI _ _ _ L G1 G2).
        -- rewrite SO in E2 by assumption. destruct (W1 _ _ E2) as [_ V]. apply V in G2. lia.
      * rewrite SO in E1 by assumption. destruct (W1 _ _ E1) as [_ V]. apply V in G1. lia.
Qed.

Lemma step_wf w o w' : wf w -> astep w o = Ok w' -> wf w'.
Proof. intros W S. exact (shape_wf _ _ _ W (step_shape _ _ _ W S)). Qed.

Lemma run_wf os : forall w w', wf w -> arun w os = Ok w' -> wf w'.
Proof.
  induction os as [|o os IH]; intros w w' W R; cbn [arun] in R.
  - inversion R; subst. assumption.
  - destruct (astep w o) as [w1| |] eqn:S; cbn [bind] in R; try discriminate.
    eapply IH; [|exact R]. eapply step_wf; eassumption.
Qed.

(** ** Maps that share nothing *)
Definition sep (w : world) (i j : nat) : Prop :=
  forall m m' k k' l, nth_error (maps w) i = Some m -> nth_error (maps w) j = Some m' ->
    aget m k = Some l -> aget m' k' = Some l -> False.

Lemma frame w o w' j : wf w -> astep w o = Ok w' ->
  j <> target (List.length (maps w)) o -> sep w j (target (List.length (maps w)) o) ->
  forall k, look w' j k = look w j k.
Proof.
  intros W S N SP k. pose proof (step_shape _ _ _ W S) as SH. destruct W as [W1 _].
  unfold look. rewrite (sh_others _ _ _ SH) by assumption.
  destruct (nth_error (maps w) j) as [m|] eqn:E; [|reflexivity].
  unfold deref. destruct (aget m k) as [l|] eqn:G; [|reflexivity].
  apply (sh_heap _ _ _ SH).
  - destruct (W1 _ _ E) as [_ V]. eauto.
  - intros m' k' E' G'. eapply SP; eassumption.
Qed.

Lemma sep_step w o w' c : wf w -> astep w o = Ok w' ->
  c <> target (List.length (maps w)) o -> ~ In c (mentions o) ->
  (forall j, j <> c -> sep w c j) -> (forall j, j <> c -> sep w' c j).
Proof.
  intros W S N NM SP j NJ m m' k k' l E E' G G'.
  pose proof (step_shape _ _ _ W S) as SH. destruct W as [W1 _].
  rewrite (sh_others _ _ _ SH) in E by assumption.
  destruct (Nat.eq_dec j (target (List.length (maps w)) o)) as [->|NT].
  - destruct (sh_target _ _ _ SH) as (mt & ST & _ & SV0 & _). rewrite ST in E'. inversion E'; subst mt.
    destruct (SV0 _ _ G') as [_ [Ge|(i0 & m0 & O & A & B)]].
    + destruct (W1 _ _ E) as [_ V]. apply V in G. lia.
    + assert (i0 <> c) by (destruct O as [->|[_ O]]; congruence).
      eapply SP; eassumption.
  - rewrite (sh_others _ _ _ SH) in E' by assumption. eapply SP; eassumption.
Qed.

(** operations on [c] alone (no merge from it or into it) keep it separate *)
Lemma sep_step_own w o w' c : wf w -> astep w o = Ok w' ->
  c = target (List.length (maps w)) o -> is_merge o = false ->
  (forall j, j <> c -> sep w c j) -> (forall j, j <> c -> sep w' c j).
Proof.
  intros W S T NM SP j NJ m m' k k' l E E' G G'.
  pose proof (step_shape _ _ _ W S) as SH. destruct W as [W1 _].
  rewrite (sh_others _ _ _ SH) in E' by congruence.
  destruct (sh_target _ _ _ SH) as (mt & ST & _ & SV0 & _). rewrite <- T in ST. rewrite ST in E. inversion E; subst mt.
  destruct (SV0 _ _ G) as [_ [Ge|(i0 & m0 & O & A & B)]].
  - destruct (W1 _ _ E') as [_ V]. apply V in G'. lia.
  - destruct O as [->|[O _]]; [|congruence]. rewrite <- T in A. eapply SP; eassumption.
Qed.

Lemma step_mapslen w o w' : wf w -> astep w o = Ok w' -> (List.length (maps w) <= List.length (maps w'))%nat.
Proof. intros W S. pose proof (sh_mapslen _ _ _ (step_shape _ _ _ W S)). lia. Qed.

(** Steps that do not name [c] leave it alone, if it shares nothing. *)
Lemma run_apart os : forall w w' c, wf w -> arun w os = Ok w' ->
  (c < List.length (maps w))%nat ->
  (forall o, In o os -> ~ In c (mentions o)) ->
  (forall j, j <> c -> sep w c j) ->
  forall k, look w' c k = look w c k.
Proof.
  induction os as [|o os IH]; intros w w' c W R L NM SP k; cbn [arun] in R.
  - inversion R; subst. reflexivity.
  - destruct (astep w o) as [w1| |] eqn:S; cbn [bind] in R; try discriminate.
    assert (NT : c <> target (List.length (maps w)) o).
    { specialize (NM o (or_introl eq_refl)). intros T. destruct o; cbn [target mentions In] in *; try lia; apply NM; auto. }
    rewrite (IH w1 w' c).
    + eapply frame; try eassumption. apply SP. congruence.
    + eapply step_wf; eassumption.
    + exact R.
    + pose proof (step_mapslen _ _ _ W S). lia.
    + intros o' I. apply NM. right. exact I.
    + eapply sep_step; try eassumption. apply NM. left. reflexivity.
Qed.

(** Steps that only name [c] leave every other map alone. *)
Lemma run_own os : forall w w' c, wf w -> arun w os = Ok w' ->
  (c < List.length (maps w))%nat ->
  (forall o, In o os -> mentions o = [c]) ->
  (forall o, In o os -> forall i, o <> AClone i) ->
  (forall j, j <> c -> sep w c j) ->
  forall j k, (j < List.length (maps w))%nat -> j <> c -> look w' j k = look w j k.
Proof.
  induction os as [|o os IH]; intros w w' c W R L M NC SP j k LJ NJ; cbn [arun] in R.
  - inversion R; subst. reflexivity.
  - destruct (astep w o) as [w1| |] eqn:S; cbn [bind] in R; try discriminate.
    specialize (M o (or_introl eq_refl)) as MO. specialize (NC o (or_introl eq_refl)) as NCO.
    assert (T : c = target (List.length (maps w)) o).
    { destruct o; cbn [target mentions] in *; try (inversion MO; reflexivity); try discriminate.
      exfalso. eapply NCO. reflexivity. }
    assert (NMG : is_merge o = false) by (destruct o; try reflexivity; cbn in MO; inversion MO).
    pose proof (step_mapslen _ _ _ W S) as ML.
    rewrite (IH w1 w' c).
    + eapply frame; try eassumption; [congruence|]. rewrite <- T.
      intros m m' k0 k' l A B G G'. eapply (SP j); eassumption.
    + eapply step_wf; eassumption.
    + exact R.
    + lia.
    + intros o' I. apply M. right. exact I.
    + intros o' I. apply NC. right. exact I.
    + eapply sep_step_own; try eassumption.
    + lia.
    + exact NJ.
Qed.

Lemma clone_sep w i w' : wf w -> astep w (AClone i) = Ok w' ->
  forall j, j <> List.length (maps w) -> sep w' (List.length (maps w)) j.
Proof.
  intros W S j N m m' k k' l E E' G G'. cbn [astep] in S.
  destruct (nth_error (maps w) i) as [n|] eqn:X; [|discriminate].
  destruct (cloneMap (hp w) n) as [h c] eqn:C. inversion S; subst w'. cbn [maps] in *.
  destruct W as [W1 _]. destruct (W1 _ _ X) as [ND V].
  destruct (clone_from_ok n (hp w) [] h c (List.length (hp w))) as (_ & _ & R & _ & _); auto.
  { constructor. } { intros; discriminate. } { intros; discriminate. }
  rewrite nth_snoc, Nat.eqb_refl in E. inversion E; subst m.
  rewrite nth_snoc in E'. destruct (Nat.eqb_spec j (List.length (maps w))); [contradiction|].
  apply R in G. destruct (W1 _ _ E') as [_ V']. apply V' in G'. lia.
Qed.

(** ** Without Merge, the maps are independent values *)
Definition agree (w : world) (v : vworld) : Prop :=
  List.length (maps w) = vn v /\ forall i k, look w i k = vms v i k.

Lemma noalias_step w o w' : wf w -> astep w o = Ok w' -> is_merge o = false ->
  (forall i j, i <> j -> sep w i j) -> (forall i j, i <> j -> sep w' i j).
Proof.
  intros W S NM SP i j N m m' k k' l E E' G G'.
  pose proof (step_shape _ _ _ W S) as SH. pose proof W as [W1 _].
  destruct (sh_target _ _ _ SH) as (mt & ST & _ & SV0 & _).
  set (t := target (List.length (maps w)) o) in *.
  destruct (Nat.eq_dec i t) as [->|NI]; destruct (Nat.eq_dec j t) as [->|NJ]; try congruence.
  - rewrite ST in E. inversion E; subst mt. rewrite (sh_others _ _ _ SH) in E' by assumption.
    destruct (SV0 _ _ G) as [_ [Ge|(i0 & m0 & O & A & B)]].
    + destruct (W1 _ _ E') as [_ V]. apply V in G'. lia.
    + destruct O as [->|[O _]]; [|congruence]. eapply (SP t j); eassumption.
  - rewrite ST in E'. inversion E'; subst mt. rewrite (sh_others _ _ _ SH) in E by assumption.
    destruct (SV0 _ _ G') as [_ [Ge|(i0 & m0 & O & A & B)]].
    + destruct (W1 _ _ E) as [_ V]. apply V in G. lia.
    + destruct O as [->|[O _]]; [|congruence]. eapply (SP i t); eassumption.
  - rewrite (sh_others _ _ _ SH) in E by assumption. rewrite (sh_others _ _ _ SH) in E' by assumption.
    eapply (SP i j); eassumption.
Qed.

Lemma vtarget_ext f g o : (forall i k, f i k = g i k) ->
  match vtarget f o, vtarget g o with
  | Some a, Some b => forall k, a k = b k
  | None, None => True
  | _, _ => False
  end.
Proof.
  intros X. destruct o; cbn [vtarget]; intros; auto.
  - unfold vput. rewrite X. reflexivity.
  - rewrite X. destruct (g i k) as [old|].
    + destruct (same_type old v); [|exact I]. intros. unfold vput. rewrite X. reflexivity.
    + intros. unfold vput. rewrite X. reflexivity.
  - unfold vput. rewrite X. reflexivity.
  - rewrite !X. reflexivity.
  - rewrite X. reflexivity.
Qed.

Lemma look_oob w i k : (List.length (maps w) <= i)%nat -> look w i k = None.
Proof. intros L. unfold look. rewrite (proj2 (nth_error_None _ _) L). reflexivity. Qed.

(** Every step outcome: success exactly when the named maps exist and types agree; never [Err]. *)
Lemma step_outcome w o : wf w ->
  (exists w', astep w o = Ok w') /\ (forallb (fun i => (i <? List.length (maps w))%nat) (mentions o) = true /\ vtarget (look w) o <> None)
  \/ astep w o = Panic /\ (forallb (fun i => (i <? List.length (maps w))%nat) (mentions o) = false \/ vtarget (look w) o = None).
Proof.
  intros W. destruct (astep w o) as [w'| |] eqn:S.
  - left. split; [eauto|]. pose proof (step_shape _ _ _ W S) as SH. split.
    + apply forallb_forall. intros i I. apply (sh_ment _ _ _ SH) in I. apply Nat.ltb_lt. assumption.
    + apply (sh_content _ _ _ SH).
  - exfalso.
    assert (U : forall m k v, updateAddValue (hp w) m k v <> Err).
    { intros m k v. unfold updateAddValue, addValue.
      destruct (aget m k) as [l|]; [|discriminate].
      destruct (nth_error (hp w) l) as [a|]; [|discriminate]. destruct (same_type a v); discriminate. }
    destruct o; cbn [astep] in S; unfold addValue in S;
      try (destruct (nth_error (maps w) i) as [m|]; [|discriminate]); try discriminate.
    + specialize (U m k v). destruct (updateAddValue (hp w) m k v) as [[]| |]; congruence.
    + destruct (nth_error (maps w) j); discriminate.
    + destruct (cloneMap (hp w) m); discriminate.
  - right. split; [reflexivity|].
    assert (OOB : forall i, nth_error (maps w) i = None -> (i <? List.length (maps w))%nat = false).
    { intros i E. apply nth_error_None in E. apply Nat.ltb_ge. assumption. }
    destruct o; cbn [astep mentions forallb] in *; try discriminate.
    + destruct (nth_error (maps w) i) as [m|] eqn:E; [discriminate|]. left. rewrite OOB by assumption. reflexivity.
    + destruct (nth_error (maps w) i) as [m|] eqn:E; [|left; rewrite OOB by assumption; reflexivity].
      right. cbn [vtarget]. rewrite (look_some w i m k E). unfold updateAddValue in S. unfold deref.
      destruct (aget m k) as [l|] eqn:G; [|discriminate].
      destruct (nth_error (hp w) l) as [old|] eqn:H.
      * destruct (same_type old v); [discriminate|reflexivity].
      * destruct W as [W1 _]. destruct (W1 _ _ E) as [_ V]. apply V in G. apply nth_error_None in H. lia.
    + destruct (nth_error (maps w) i) as [m|] eqn:E; [discriminate|]. left. rewrite OOB by assumption. reflexivity.
    + destruct (nth_error (maps w) i) as [m|] eqn:E; [discriminate|]. left. rewrite OOB by assumption. reflexivity.
    + destruct (nth_error (maps w) i) as [m|] eqn:E.
      * destruct (nth_error (maps w) j) as [n|] eqn:E2; [discriminate|]. left. rewrite (OOB j) by assumption. apply andb_false_r.
      * left. rewrite OOB by assumption. reflexivity.
    + destruct (nth_error (maps w) i) as [m|] eqn:E; [discriminate|]. left. rewrite OOB by assumption. reflexivity.
    + destruct (nth_error (maps w) i) as [m|] eqn:E.
      * destruct (cloneMap (hp w) m); discriminate.
      * left. rewrite OOB by assumption. reflexivity.
Qed.

Lemma refine_run os : forall w v, wf w -> agree w v -> (forall i j, i <> j -> sep w i j) ->
  forallb (fun o => negb (is_merge o)) os = true ->
  match arun w os, vrun v os with
  | Ok w', Some v' => agree w' v'
  | Panic, None => True
  | _, _ => False
  end.
Proof.
  induction os as [|o os IH]; intros w v W [AL AG] SP NM; cbn [arun vrun].
  - split; assumption.
  - cbn [forallb] in NM. apply andb_prop in NM. destruct NM as [NM NMs].
    apply negb_true_iff in NM.
    pose proof (vtarget_ext (look w) (vms v) o AG) as VT.
    unfold vstep. rewrite <- AL.
    destruct (step_outcome w o W) as [[(w1 & S) [F V]]|[S D]]; rewrite S; cbn [bind].
    + rewrite F. destruct (vtarget (look w) o) as [f|] eqn:Ef; [|congruence].
      destruct (vtarget (vms v) o) as [g|] eqn:Eg; [|destruct VT].
      pose proof (step_shape _ _ _ W S) as SH.
      apply IH; [eapply step_wf; eassumption| |eapply noalias_step; eassumption|assumption].
      split; cbn [vn vms].
      * apply (sh_mapslen _ _ _ SH).
      * intros i k. destruct (Nat.eqb_spec i (target (List.length (maps w)) o)) as [->|N].
        -- rewrite <- VT. apply (proj2 (sh_content _ _ _ SH)). exact Ef.
        -- rewrite <- AG. eapply frame; eauto.
    + destruct D as [D|D].
      * rewrite D. exact I.
      * rewrite D in VT. destruct (forallb _ (mentions o)); [|exact I].
        destruct (vtarget (vms v) o); [destruct VT|exact I].
Qed.

(** ** ToStringMap *)
Lemma toStringMap_get h m k : NoDup (keys m) ->
  (forall x l, aget m x = Some l -> (l < List.length h)%nat) ->
  aget (toStringMap h m) k = option_map toString (deref h m k).
Proof.
  intros ND V.
  assert (G : forall m acc, NoDup (keys m) -> (forall x l, aget m x = Some l -> (l < List.length h)%nat) ->
     aget (fold_left (fun acc p => match nth_error h (snd p) with
                          | Some v => aset acc (fst p) (toString v) | None => acc end) m acc) k
     = match deref h m k with Some v => Some (toString v) | None => aget acc k end).
  { clear m ND V. induction m as [|[k0 l0] m IH]; intros acc ND V; [reflexivity|].
    cbn [keys map fst] in ND. inversion ND as [|? ? NI ND']; subst.
    cbn [fold_left fst snd].
    assert (V0 : (l0 < List.length h)%nat). { apply (V k0). cbn [aget]. rewrite eqb_refl. reflexivity. }
    destruct (nth_error h l0) as [v|] eqn:E; [|apply nth_error_None in E; lia].
    rewrite IH; cycle 1.
    - assumption.
    - intros x l Hx. apply (V x). cbn [aget]. case_eqb x k0; [|assumption].
      subst. apply aget_some_in_keys in Hx. contradiction.
    - unfold deref. cbn [aget]. rewrite aget_aset. case_eqb k k0.
      + subst. apply aget_none_notin in NI. unfold keys in NI. rewrite NI, E. reflexivity.
      + reflexivity. }
  unfold toStringMap. rewrite G by assumption. destruct (deref h m k); reflexivity.
Qed.
