(** Lemmas on the converters of AdapterModel.v. *)
From Verif Require Import Base Decimal AttrModel AttrProofs PoolModel LabelNames EnrichModel AdapterModel.
From Coq Require Import Permutation Sorting.Sorted.
Open Scope string_scope. Open Scope list_scope. Open Scope Z_scope.

(** ** Sorting *)
Lemma insert_perm k l : Permutation (insertKey k l) (k :: l).
Proof.
  induction l as [|x l IH]; cbn [insertKey]; [reflexivity|]. destruct (String.leb k x); [reflexivity|].
  rewrite IH. apply perm_swap.
Qed.
Lemma sort_perm l : Permutation (sortKeys l) l.
Proof. induction l as [|x l IH]; cbn [sortKeys fold_right]; [reflexivity|]. fold (sortKeys l). rewrite insert_perm. constructor. exact IH. Qed.
Lemma sort_in l k : In k (sortKeys l) <-> In k l.
Proof. split; apply Permutation_in; [|symmetry]; apply sort_perm. Qed.

Definition sle (a b : string) : Prop := String.leb a b = true.
Definition slt (a b : string) : Prop := String.ltb a b = true.
Lemma compare_refl s : String.compare s s = Eq.
Proof. induction s as [|c s IH]; cbn [String.compare]; [reflexivity|]. unfold Ascii.compare. rewrite N.compare_refl. exact IH. Qed.
Lemma sle_total a b : String.leb a b = false -> sle b a.
Proof. unfold sle. destruct (String.leb_total a b) as [H|H]; congruence. Qed.
Lemma ascii_trans a b c x y : Ascii.compare a b = x -> Ascii.compare b c = y -> x <> Gt -> y <> Gt ->
  Ascii.compare a c = match x with Eq => y | _ => Lt end.
Proof.
  unfold Ascii.compare. intros <- <-. set (p := Ascii.N_of_ascii a). set (q := Ascii.N_of_ascii b). set (r := Ascii.N_of_ascii c).
  destruct (N.compare_spec p q), (N.compare_spec q r); intros; try congruence.
  all: first [apply N.compare_eq_iff; lia | apply N.compare_lt_iff; lia].
Qed.
Lemma string_trans : forall a b c, String.compare a b <> Gt -> String.compare b c <> Gt ->
  String.compare a c = match String.compare a b with Eq => String.compare b c | _ => Lt end.
Proof.
  induction a as [|x a IH]; destruct b as [|y b]; destruct c as [|z c]; cbn [String.compare]; intros H1 H2; try congruence.
  destruct (Ascii.compare x y) eqn:E1; [| |congruence].
  - destruct (Ascii.compare y z) eqn:E2; [| |congruence].
    + rewrite (ascii_trans x y z _ _ E1 E2) by congruence. apply IH; assumption.
    + rewrite (ascii_trans x y z _ _ E1 E2) by congruence.
      destruct (String.compare a b) eqn:E; [reflexivity|reflexivity|congruence].
  - destruct (Ascii.compare y z) eqn:E2; [| |congruence]; rewrite (ascii_trans x y z _ _ E1 E2) by congruence; reflexivity.
Qed.
Lemma sle_trans a b c : sle a b -> sle b c -> sle a c.
Proof.
  unfold sle, String.leb. intros H1 H2.
  rewrite (string_trans a b c); destruct (String.compare a b), (String.compare b c); congruence.
Qed.
Lemma insert_sorted k l : StronglySorted sle l -> StronglySorted sle (insertKey k l).
Proof.
  induction l as [|x l IH]; cbn [insertKey]; intros S; [repeat constructor|].
  inversion S as [|? ? S' F]; subst. destruct (String.leb k x) eqn:E.
  - constructor; [exact S|]. constructor; [exact E|]. eapply Forall_impl; [|exact F]. intros y. cbn beta. apply sle_trans. exact E.
  - constructor; [apply IH; exact S'|]. apply Forall_forall. intros y I.
    apply (Permutation_in y (insert_perm k l)) in I. destruct I as [<-|I]; [apply sle_total; exact E|].
    rewrite Forall_forall in F. exact (F y I).
Qed.
Lemma sort_sorted l : StronglySorted sle (sortKeys l).
Proof. induction l as [|x l IH]; cbn [sortKeys fold_right]; [constructor|]. apply insert_sorted. exact IH. Qed.
Lemma sorted_strict l : StronglySorted sle l -> NoDup l -> StronglySorted slt l.
Proof.
  induction l as [|x l IH]; intros S N; [constructor|]. inversion S as [|? ? S' F]; inversion N as [|? ? NI N']; subst.
  constructor; [apply IH; assumption|]. apply Forall_forall. intros y I. rewrite Forall_forall in F. specialize (F y I).
  unfold sle, slt, String.leb, String.ltb in *. destruct (String.compare x y) eqn:E; [|reflexivity|exact F].
  apply String.compare_eq_iff in E. subst. contradiction.
Qed.

(** ** Names that occur once *)
Definition once (k : string) (l : list string) : Prop := count_occ string_dec l k = 1%nat.
Lemma once_in k l : once k l -> In k l.
Proof. unfold once. intros H. apply (count_occ_In string_dec). lia. Qed.
Lemma once_inj k l : once k l -> forall i j, nth_error l i = Some k -> nth_error l j = Some k -> i = j.
Proof.
  unfold once. induction l as [|x l IH]; intros O i j Hi Hj; [destruct i; discriminate|].
  destruct (string_dec x k) as [->|N].
  - rewrite count_occ_cons_eq in O by reflexivity.
    assert (NI : ~ In k l) by (intros I; apply (count_occ_In string_dec) in I; lia).
    destruct i, j; cbn [nth_error] in Hi, Hj; [reflexivity| | |].
    + apply nth_error_In in Hj. contradiction.
    + apply nth_error_In in Hi. contradiction.
    + apply nth_error_In in Hi. contradiction.
  - rewrite count_occ_cons_neq in O by exact N.
    destruct i, j; cbn [nth_error] in Hi, Hj; try congruence. f_equal. exact (IH O _ _ Hi Hj).
Qed.
Lemma once_perm k l l' : Permutation l l' -> once k l -> once k l'.
Proof. unfold once. intros P. rewrite (proj1 (Permutation_count_occ string_dec l l') P k). tauto. Qed.
Lemma NoDup_once k l : NoDup l -> In k l -> once k l.
Proof. intros N I. apply (NoDup_count_occ' string_dec); assumption. Qed.

(** ** Association lists *)
Lemma aget_map {V W} (f : string * V -> string * W) : (forall p, fst (f p) = fst p) -> forall (l : list (string * V)) k,
  aget (map f l) k = match aget l k with Some v => Some (snd (f (k, v))) | None => None end.
Proof.
  intros F. induction l as [|[x v] l IH]; intros k; cbn [map aget]; [reflexivity|].
  specialize (F (x, v)) as Fx. destruct (f (x, v)) as [x' w] eqn:E. cbn [fst] in Fx. subst x'.
  destruct (eqb k x) eqn:K; [|apply IH]. apply eqb_true in K. subst. rewrite E. reflexivity.
Qed.
Lemma aget_set_nth {V} (l : list (string * V)) k : forall q k' (v : V), nth_error (map fst l) q = Some k' -> k' <> k ->
  aget (set_nth l q (k', v)) k = aget l k.
Proof.
  induction l as [|[x w] l IH]; intros q k' v H N; [destruct q; discriminate|].
  destruct q as [|q]; cbn [map nth_error fst] in H.
  - inversion H; subst. cbn [set_nth aget]. rewrite (proj2 (eqb_neq k k')) by congruence. reflexivity.
  - cbn [set_nth aget]. rewrite (IH q k' v H N). reflexivity.
Qed.
Lemma aget_set_nth_once {V} (l : list (string * V)) k : forall q (v : V), nth_error (map fst l) q = Some k -> once k (map fst l) ->
  aget (set_nth l q (k, v)) k = Some v.
Proof.
  induction l as [|[x w] l IH]; intros q v H O; [destruct q; discriminate|].
  destruct q as [|q]; cbn [map nth_error fst] in H.
  - inversion H; subst. cbn [set_nth aget]. rewrite eqb_refl. reflexivity.
  - cbn [map fst] in O. cbn [set_nth aget].
    destruct (string_dec x k) as [->|N].
    + exfalso. assert (X := once_inj k (k :: map fst l) O 0%nat (S q) eq_refl H). discriminate.
    + rewrite (proj2 (eqb_neq k x)) by congruence. apply IH; [exact H|]. unfold once in *. rewrite count_occ_cons_neq in O by exact N. exact O.
Qed.
Lemma set_nth_keys {V} (l : list (string * V)) : forall q p v, nth_error l q = Some p -> map fst (set_nth l q (fst p, v)) = map fst l.
Proof.
  induction l as [|[x w] l IH]; intros q p v H; [destruct q; discriminate|].
  destruct q as [|q]; cbn [nth_error] in H.
  - inversion H; subst. reflexivity.
  - cbn [set_nth map fst]. f_equal. apply IH. exact H.
Qed.

Lemma aget_map_in {V} (f : string -> string * V) l k : (forall x, In x l -> fst (f x) = x) -> In k l -> aget (map f l) k = Some (snd (f k)).
Proof.
  induction l as [|x l IH]; intros F I; [destruct I|]. cbn [map aget].
  assert (Fx := F x (or_introl eq_refl)). destruct (f x) as [x' w] eqn:E. cbn [fst] in Fx. subst x'.
  case_eqb k x.
  - subst. rewrite E. reflexivity.
  - destruct I as [->|I]; [congruence|]. apply IH; [|exact I]. intros y Iy. apply F. right. exact Iy.
Qed.

(** ** Positions of the sorted names *)
Lemma firstIndex_spec k l : forall j i, firstIndex k l j = Some i -> exists d, (i = j + d)%nat /\ nth_error l d = Some k /\ forall e, (e < d)%nat -> nth_error l e <> Some k.
Proof.
  induction l as [|x l IH]; intros j i H; cbn [firstIndex] in H; [discriminate|].
  destruct (eqb x k) eqn:E.
  - inversion H; subst. apply eqb_true in E. subst. exists 0%nat. repeat split; [lia|]. intros e L. lia.
  - destruct (IH _ _ H) as (d & -> & N & F). exists (S d). repeat split; [lia|exact N|].
    intros [|e] L; cbn [nth_error]; [|apply F; lia]. intros X. inversion X; subst. rewrite eqb_refl in E. discriminate.
Qed.
Lemma firstIndex_in k l : forall j, In k l -> exists i, firstIndex k l j = Some i.
Proof.
  induction l as [|x l IH]; intros j [].
  - subst. cbn [firstIndex]. rewrite eqb_refl. eauto.
  - cbn [firstIndex]. destruct (eqb x k); eauto.
Qed.
Lemma sortCache_some sorted : forall s ps acc j q, aget (sortCache sorted s ps acc) j = Some q ->
  aget acc j = Some q \/ exists i k, q = (s + i)%nat /\ nth_error sorted i = Some k /\ firstIndex k (map fst ps) 0%nat = Some j.
Proof.
  induction sorted as [|k sorted IH]; intros s ps acc j q H; cbn [sortCache] in H; [auto|].
  destruct (IH _ _ _ _ _ H) as [A|(i & k' & -> & N & F)].
  - destruct (firstIndex k (map fst ps) 0%nat) as [j'|] eqn:E; [|auto].
    destruct (Nat.eq_dec j j') as [->|NE].
    + rewrite aget_aset_same in A. inversion A; subst. right. exists 0%nat, k. repeat split; [lia|exact E].
    + rewrite aget_aset_other in A by congruence. auto.
  - right. exists (S i), k'. repeat split; [lia|exact N|exact F].
Qed.
Lemma sortCache_keep sorted : forall s ps acc j, aget acc j <> None -> aget (sortCache sorted s ps acc) j <> None.
Proof.
  induction sorted as [|k sorted IH]; intros s ps acc j H; cbn [sortCache]; [exact H|].
  apply IH. destruct (firstIndex k (map fst ps) 0%nat) as [j'|]; [|exact H].
  destruct (Nat.eq_dec j j') as [->|NE]; [rewrite aget_aset_same; discriminate|rewrite aget_aset_other by congruence; exact H].
Qed.
Lemma sortCache_has sorted : forall s ps acc j k, In k sorted -> firstIndex k (map fst ps) 0%nat = Some j -> aget (sortCache sorted s ps acc) j <> None.
Proof.
  induction sorted as [|x sorted IH]; intros s ps acc j k I F; [destruct I|]. cbn [sortCache].
  destruct I as [->|I]; [|eapply IH; eassumption].
  apply sortCache_keep. rewrite F, aget_aset_same. discriminate.
Qed.

(** ** One converter, for one protocol *)
Section Real.
  Context (ds : list dict) (vs : list string) (cl : list (string * aval)).
  Definition wkeys : list string := map newKey ds ++ vs.
  Definition allKeys : list string := wkeys ++ map fst cl.
  Definition sorted : list string := sortKeys allKeys.
  Definition params : list kv := map (fun d => (newKey d, @None aval)) ds ++ map (fun k => (k, @None aval)) vs ++ map (fun p => (fst p, Some (snd p))) cl.
  Local Notation r := (buildOne ds vs cl).

  Lemma params_keys : map fst params = allKeys.
  Proof. unfold params, allKeys, wkeys. rewrite !map_app, !map_map. cbn [fst]. rewrite map_id, app_assoc. reflexivity. Qed.
  Lemma r_list_eq : r_list r = map (realParam params) sorted.
  Proof. unfold buildOne. cbn [r_list]. fold params. rewrite params_keys. reflexivity. Qed.
  Lemma r_sort_eq : r_sort r = sortCache sorted 0%nat params [].
  Proof. unfold buildOne. cbn [r_sort]. fold params. rewrite params_keys. reflexivity. Qed.

  Lemma realParam_key k : In k allKeys -> fst (realParam params k) = k.
  Proof.
    intros I. unfold realParam. rewrite params_keys. destruct (firstIndex_in k allKeys 0%nat I) as (i & F). rewrite F.
    destruct (firstIndex_spec _ _ _ _ F) as (d & -> & N & _). cbn [Nat.add]. rewrite <- params_keys, nth_error_map in N.
    destruct (nth_error params d) as [p|]; cbn [option_map] in N; [|discriminate]. inversion N. reflexivity.
  Qed.
  Lemma template_keys : map fst (r_list r) = sorted.
  Proof.
    rewrite r_list_eq, map_map. rewrite <- (map_id sorted) at 2. apply map_ext_in. intros k I. apply realParam_key.
    apply sort_in. exact I.
  Qed.
  Lemma template_custom k v : once k allKeys -> aget cl k = Some v -> aget (r_list r) k = Some (Some v).
  Proof.
    intros O G. rewrite r_list_eq.
    assert (P : realParam params k = (k, Some v)).
    { unfold realParam. rewrite params_keys. assert (I := once_in _ _ O). destruct (firstIndex_in k allKeys 0%nat I) as (i & F). rewrite F.
      destruct (firstIndex_spec _ _ _ _ F) as (d & -> & N & _). cbn [Nat.add].
      assert (L : In (k, Some v) params).
      { unfold params. rewrite !in_app_iff. right. right. apply in_map_iff. exists (k, v). split; [reflexivity|]. apply aget_in. exact G. }
      apply In_nth_error in L. destruct L as (e & L).
      assert (E : nth_error allKeys e = Some k) by (rewrite <- params_keys, nth_error_map, L; reflexivity).
      rewrite (once_inj _ _ O _ _ N E), L. reflexivity. }
    rewrite (aget_map_in (realParam params) sorted k).
    - rewrite P. reflexivity.
    - intros x I. apply realParam_key, sort_in, I.
    - apply sort_in, once_in, O.
  Qed.

  (** A name whose value only its own entry sets: it occurs once, and either no written name occurs twice or it is not the first name. *)
  Definition clean (k : string) : Prop := once k allKeys /\ (NoDup wkeys \/ nth_error sorted 0 <> Some k).

  Lemma nth_wkey j k : nth_error wkeys j = Some k -> nth_error allKeys j = Some k.
  Proof. intros H. unfold allKeys. rewrite nth_error_app1; [exact H|]. apply nth_error_Some. congruence. Qed.
  Lemma sortAt_range j k : nth_error wkeys j = Some k -> exists k', nth_error sorted (sortAt r j) = Some k'.
  Proof.
    intros H. unfold sortAt. rewrite r_sort_eq. destruct (aget (sortCache sorted 0%nat params []) j) as [q|] eqn:E.
    - destruct (sortCache_some _ _ _ _ _ _ E) as [A|(i & k' & -> & N & F)]; [discriminate|]. exists k'. exact N.
    - assert (I : In k sorted) by (apply sort_in; apply nth_error_In with j; apply nth_wkey; exact H).
      destruct sorted as [|x s]; [destruct I|]. exists x. reflexivity.
  Qed.
  Lemma sortAt_same j k : once k allKeys -> nth_error wkeys j = Some k -> nth_error sorted (sortAt r j) = Some k.
  Proof.
    intros O H. apply nth_wkey in H. unfold sortAt. rewrite r_sort_eq.
    assert (I : In k allKeys) by (apply once_in; exact O).
    destruct (firstIndex_in k allKeys 0%nat I) as (i & F).
    destruct (firstIndex_spec _ _ _ _ F) as (d & -> & N & _). cbn [Nat.add] in F.
    assert (d = j) by exact (once_inj _ _ O _ _ N H). subst d.
    assert (HS := sortCache_has sorted 0%nat params [] j k). rewrite params_keys in HS.
    specialize (HS (proj2 (sort_in _ _) I) F).
    destruct (aget (sortCache sorted 0%nat params []) j) as [q|] eqn:E; [|congruence].
    destruct (sortCache_some _ _ _ _ _ _ E) as [A|(i & k' & -> & N' & F')]; [discriminate|]. rewrite params_keys in F'.
    destruct (firstIndex_spec _ _ _ _ F') as (d' & E' & N2 & _). cbn [Nat.add] in *. subst d'. congruence.
  Qed.
  Lemma sortAt_other j k k' : clean k -> nth_error wkeys j = Some k' -> k' <> k -> nth_error sorted (sortAt r j) <> Some k.
  Proof.
    intros [O C] H NE. unfold sortAt. rewrite r_sort_eq. destruct (aget (sortCache sorted 0%nat params []) j) as [q|] eqn:E.
    - destruct (sortCache_some _ _ _ _ _ _ E) as [A|(i & k2 & -> & N' & F')]; [discriminate|]. rewrite params_keys in F'.
      destruct (firstIndex_spec _ _ _ _ F') as (d' & E' & N2 & _). cbn [Nat.add] in *. subst d'.
      rewrite (nth_wkey _ _ H) in N2. congruence.
    - destruct C as [ND|C]; [|exact C]. exfalso.
      assert (I : In k' allKeys) by (apply nth_error_In with j, nth_wkey, H).
      destruct (firstIndex_in k' allKeys 0%nat I) as (i & F).
      destruct (firstIndex_spec _ _ _ _ F) as (d & -> & N & FF). cbn [Nat.add] in *.
      assert (LJ : (j < List.length wkeys)%nat) by (apply nth_error_Some; congruence).
      assert (d = j).
      { destruct (lt_eq_lt_dec d j) as [[L|L]|L]; [|exact L|exfalso; exact (FF j L (nth_wkey _ _ H))].
        unfold allKeys in N. rewrite nth_error_app1 in N by lia.
        apply (proj1 (NoDup_nth_error wkeys) ND); [lia|congruence]. }
      subst d. apply (sortCache_has sorted 0%nat params [] j k'); [apply sort_in; exact I|rewrite params_keys; exact F|exact E].
  Qed.

  (** The names of a list of this converter never change. *)
  Lemma writeAt_keys l i v l' : writeAt l i v = Ok l' -> map fst l' = map fst l.
  Proof.
    unfold writeAt. destruct (nth_error l i) as [p|] eqn:E; [|discriminate]. intros H. inversion H; subst. apply set_nth_keys. exact E.
  Qed.
  Lemma writeAll_ok vals : forall i l, map fst l = sorted -> (i + List.length vals <= List.length wkeys)%nat ->
    exists l', writeAll r i vals l = Ok l' /\ map fst l' = sorted /\
      (forall k j, clean k -> nth_error wkeys j = Some k ->
         aget l' k = if ((i <=? j) && (j <? i + List.length vals))%nat then nth_error vals (j - i) else aget l k) /\
      (forall k, clean k -> ~ In k wkeys -> aget l' k = aget l k).
  Proof.
    induction vals as [|v vals IH]; intros i l K L; cbn [writeAll List.length] in *.
    - exists l. repeat split; [exact K|]. intros k j _ _. replace (i + 0)%nat with i by lia.
      destruct (i <=? j)%nat eqn:A, (j <? i)%nat eqn:B; cbn [andb]; try reflexivity. exfalso.
      apply Nat.leb_le in A. apply Nat.ltb_lt in B. lia.
    - destruct (nth_error wkeys i) as [ki|] eqn:Ei; [|exfalso; apply nth_error_None in Ei; lia].
      destruct (sortAt_range i ki Ei) as (k' & Sk'). rewrite <- K, nth_error_map in Sk'.
      destruct (nth_error l (sortAt r i)) as [p|] eqn:Ep; cbn [option_map] in Sk'; [|discriminate]. inversion Sk'; subst k'.
      unfold writeAt. rewrite Ep. cbn [bind].
      assert (K1 : map fst (set_nth l (sortAt r i) (fst p, v)) = sorted) by (rewrite set_nth_keys by exact Ep; exact K).
      destruct (IH (S i) _ K1 ltac:(lia)) as (l' & W & K' & A & B). exists l'. repeat split; [exact W|exact K'| |].
      + intros k j C J. rewrite (A k j C J).
        destruct (lt_eq_lt_dec i j) as [[LT|EQ]|GT].
        * rewrite (proj2 (Nat.leb_le i j)) by lia. rewrite (proj2 (Nat.leb_le (S i) j)) by lia. cbn [andb].
          replace (S i + List.length vals)%nat with (i + S (List.length vals))%nat by lia.
          destruct (j <? i + S (List.length vals))%nat eqn:Q.
          -- replace (j - i)%nat with (S (j - S i)) by lia. reflexivity.
          -- destruct (string_dec ki k) as [->|NE].
             ++ exfalso. assert (i = j) by (apply (once_inj k allKeys (proj1 C)); apply nth_wkey; assumption). lia.
             ++ apply aget_set_nth; [rewrite nth_error_map, Ep; reflexivity|]. intros X. apply (sortAt_other i k ki C Ei NE).
                rewrite <- K, nth_error_map, Ep, <- X. reflexivity.
        * subst j. rewrite (proj2 (Nat.leb_gt (S i) i)) by lia. cbn [andb]. rewrite (proj2 (Nat.leb_le i i)) by lia.
          rewrite (proj2 (Nat.ltb_lt i (i + S (List.length vals)))) by lia. cbn [andb]. replace (i - i)%nat with 0%nat by lia. cbn [nth_error].
          assert (ki = k) by congruence. subst ki.
          assert (S1 := sortAt_same i k (proj1 C) Ei). rewrite <- K, nth_error_map, Ep in S1. cbn [option_map] in S1.
          injection S1 as X. rewrite X. apply aget_set_nth_once; [rewrite nth_error_map, Ep, <- X; reflexivity|].
          rewrite K. apply (once_perm k allKeys); [symmetry; apply sort_perm|exact (proj1 C)].
        * rewrite (proj2 (Nat.leb_gt (S i) j)) by lia. rewrite (proj2 (Nat.leb_gt i j)) by lia. cbn [andb].
          destruct (string_dec ki k) as [->|NE].
          -- exfalso. assert (i = j) by (apply (once_inj k allKeys (proj1 C)); apply nth_wkey; assumption). lia.
          -- apply aget_set_nth; [rewrite nth_error_map, Ep; reflexivity|]. intros X. apply (sortAt_other i k ki C Ei NE).
             rewrite <- K, nth_error_map, Ep, <- X. reflexivity.
      + intros k C NI. rewrite (B k C NI). apply aget_set_nth; [rewrite nth_error_map, Ep; reflexivity|].
        assert (NE : ki <> k) by (intros ->; apply NI; apply nth_error_In with i; exact Ei).
        intros X. apply (sortAt_other i k ki C Ei NE). rewrite <- K, nth_error_map, Ep, <- X. reflexivity.
  Qed.

  Lemma template_custom_clean : forall k v, clean k -> aget cl k = Some v -> aget (r_list r) k = Some (Some v).
  Proof. intros k v [O _]. apply template_custom. exact O. Qed.
End Real.

Lemma writeAll_app r vs1 : forall i vs2 l, writeAll r i (vs1 ++ vs2) l = bind (writeAll r i vs1 l) (writeAll r (i + List.length vs1)%nat vs2).
Proof.
  induction vs1 as [|v vs1 IH]; intros i vs2 l; cbn [writeAll app List.length bind].
  - replace (i + 0)%nat with i by lia. reflexivity.
  - destruct (writeAt l (sortAt r i) v) as [l'| |]; cbn [bind]; [|reflexivity|reflexivity]. rewrite IH.
    replace (S i + List.length vs1)%nat with (i + S (List.length vs1))%nat by lia. reflexivity.
Qed.

(** ** The labels a converter should produce *)
Definition customs (cl : list (string * aval)) : list kv := map (fun p => (fst p, Some (snd p))) cl.
Definition dictTable (m : labels) (ds : list dict) : list kv := map (fun d => (newKey d, Some (dictValue m d))) ds.
Definition rawTable (m : labels) (ds : list dict) (vs : list string) (vals : list (option aval)) (cl : list (string * aval)) : list kv :=
  dictTable m ds ++ combine vs vals ++ customs cl.
Definition adjusted (adj : list adjust) (m : labels) (t : list kv) : list kv := fold_left (fun l a => adjustList a m l) adj t.

Lemma fst_combine {A B} (a : list A) : forall b : list B, List.length a = List.length b -> map fst (combine a b) = a.
Proof. induction a as [|x a IH]; intros [|y b] L; cbn in *; try discriminate; [reflexivity|]. f_equal. apply IH. congruence. Qed.
Lemma snd_combine {A B} (a : list A) : forall b : list B, List.length a = List.length b -> map snd (combine a b) = b.
Proof. induction a as [|x a IH]; intros [|y b] L; cbn in *; try discriminate; [reflexivity|]. f_equal. apply IH. congruence. Qed.
Lemma raw_keys m ds vs vals cl : List.length vs = List.length vals -> map fst (rawTable m ds vs vals cl) = allKeys ds vs cl.
Proof.
  intros L. unfold rawTable, dictTable, customs, allKeys, wkeys. rewrite !map_app, !map_map. cbn [fst]. rewrite fst_combine by exact L.
  rewrite app_assoc. reflexivity.
Qed.
Lemma aget_nth_once {V} (t : list (string * V)) k : forall j v, once k (map fst t) -> nth_error t j = Some (k, v) -> aget t k = Some v.
Proof.
  intros j v O H. assert (X := aget_set_nth_once t k j v). rewrite <- X; [|rewrite nth_error_map, H; reflexivity|exact O].
  f_equal. clear -H. revert j H. induction t as [|p t IH]; intros [|j] H; cbn in *; try discriminate; [congruence|]. f_equal. apply IH. exact H.
Qed.

Definition adjKeys (a : adjust) : list string := match a with ARemoveDstPod => [LbDstNode; LbDstPod] | AReplaceByDnat => [LbDstIp; LbDstPort] end.
Definition adjFun (a : adjust) (m : labels) (p : kv) : kv :=
  match a with
  | ARemoveDstPod => if eqb (fst p) LbDstNode || eqb (fst p) LbDstPod then (fst p, Some (SV [])) else p
  | AReplaceByDnat =>
      if eqb (fst p) LbDstIp && negb (eqb (strOf m LbDnatIp) []) then (fst p, Some (SV (strOf m LbDnatIp)))
      else if eqb (fst p) LbDstPort && (0 <? intOf m LbDnatPort) then (fst p, Some (IV (intOf m LbDnatPort))) else p
  end.
Definition adjOff (a : adjust) (m : labels) : bool :=
  match a with
  | ARemoveDstPod => namespaceNotFound (strOf m LbDstNamespace)
  | AReplaceByDnat => eqb (strOf m LbDnatIp) [] || (intOf m LbDnatPort <? 1)
  end.
Lemma adjust_eq a m l : adjustList a m l = if adjOff a m then l else map (adjFun a m) l.
Proof. destruct a; cbn [adjustList adjOff]; reflexivity. Qed.
Lemma adjFun_key a m p : fst (adjFun a m p) = fst p.
Proof.
  destruct a; cbn [adjFun].
  - destruct (eqb (fst p) LbDstNode || eqb (fst p) LbDstPod); reflexivity.
  - destruct (eqb (fst p) LbDstIp && negb (eqb (strOf m LbDnatIp) [])); [reflexivity|].
    destruct (eqb (fst p) LbDstPort && (0 <? intOf m LbDnatPort)); reflexivity.
Qed.
Lemma adjust_keys a m l : map fst (adjustList a m l) = map fst l.
Proof. rewrite adjust_eq. destruct (adjOff a m); [reflexivity|]. rewrite map_map. apply map_ext. intros p. apply adjFun_key. Qed.
Lemma adjust_aget a m l1 l2 k : aget l1 k = aget l2 k -> aget (adjustList a m l1) k = aget (adjustList a m l2) k.
Proof.
  intros H. rewrite !adjust_eq. destruct (adjOff a m); [exact H|]. rewrite !aget_map by apply adjFun_key. rewrite H. reflexivity.
Qed.
Lemma adjust_other a m l k : ~ In k (adjKeys a) -> aget (adjustList a m l) k = aget l k.
Proof.
  intros NI. rewrite adjust_eq. destruct (adjOff a m); [reflexivity|]. rewrite aget_map by apply adjFun_key.
  destruct (aget l k) as [v|]; [|reflexivity]. f_equal.
  destruct a; cbn [adjFun adjKeys fst] in *.
  - rewrite (proj2 (eqb_neq k LbDstNode)), (proj2 (eqb_neq k LbDstPod)) by (intros ->; apply NI; cbn; auto). reflexivity.
  - rewrite (proj2 (eqb_neq k LbDstIp)), (proj2 (eqb_neq k LbDstPort)) by (intros ->; apply NI; cbn; auto). reflexivity.
Qed.
Lemma adjusted_keys adj m : forall l, map fst (adjusted adj m l) = map fst l.
Proof. unfold adjusted. induction adj as [|a adj IH]; intros l; cbn [fold_left]; [reflexivity|]. rewrite IH. apply adjust_keys. Qed.
Lemma adjusted_aget adj m k : forall l1 l2, aget l1 k = aget l2 k -> aget (adjusted adj m l1) k = aget (adjusted adj m l2) k.
Proof. unfold adjusted. induction adj as [|a adj IH]; intros l1 l2 H; cbn [fold_left]; [exact H|]. apply IH. apply adjust_aget. exact H. Qed.
Lemma adjusted_other adj m k : ~ In k (flat_map adjKeys adj) -> forall l, aget (adjusted adj m l) k = aget l k.
Proof.
  unfold adjusted. induction adj as [|a adj IH]; intros NI l; cbn [fold_left flat_map] in *; [reflexivity|]. rewrite in_app_iff in NI.
  rewrite IH by tauto. apply adjust_other. tauto.
Qed.

(** ** The list form *)
Definition listOK (ds : list dict) (vs : list string) (cl : list (string * aval)) (l : list kv) : Prop :=
  map fst l = sorted ds vs cl /\ forall k v, clean ds vs cl k -> aget cl k = Some v -> aget l k = Some (Some v).

Lemma custom_notin ds vs cl k v : once k (allKeys ds vs cl) -> aget cl k = Some v -> ~ In k (wkeys ds vs).
Proof.
  intros O G I. apply aget_in in G. apply (in_map fst) in G. cbn [fst] in G.
  unfold once, allKeys in O. rewrite count_occ_app in O.
  apply (count_occ_In string_dec) in I. apply (count_occ_In string_dec) in G. lia.
Qed.

Lemma convert_ok ds vs cl c g l vl : listOK ds vs cl l -> vlabels (c_val c) g = Ok vl -> List.length vs = List.length vl ->
  (forall k, In k (flat_map adjKeys (c_adj c)) -> In k (wkeys ds vs)) ->
  exists l', convertOn c (buildOne ds vs cl) g l = Ok l' /\ listOK ds vs cl l' /\
    forall k, clean ds vs cl k -> aget l' k = aget (adjusted (c_adj c) (glabels g) (rawTable (glabels g) ds vs (map snd vl) cl)) k.
Proof.
  intros [K I] V L AK. set (m := glabels g). set (vals := map (fun d => Some (dictValue m d)) ds ++ map snd vl).
  assert (LV : List.length vals = List.length (wkeys ds vs)) by (unfold vals, wkeys; rewrite !app_length, !map_length; lia).
  destruct (writeAll_ok ds vs cl vals 0%nat l K ltac:(lia)) as (l1 & W & K1 & A & B).
  assert (G : forall k, clean ds vs cl k -> aget l1 k = aget (rawTable m ds vs (map snd vl) cl) k).
  { intros k C. assert (Ik := once_in _ _ (proj1 C)).
    assert (OR : once k (map fst (rawTable m ds vs (map snd vl) cl))) by (rewrite raw_keys by (rewrite map_length; exact L); exact (proj1 C)).
    unfold allKeys in Ik. apply in_app_or in Ik. destruct Ik as [Iw|Ic].
    - destruct (In_nth_error _ _ Iw) as (j & J). rewrite (A k j C J).
      assert (LJ : (j < List.length (wkeys ds vs))%nat) by (apply nth_error_Some; congruence).
      rewrite (proj2 (Nat.leb_le 0 j)) by lia. rewrite (proj2 (Nat.ltb_lt j _)) by lia. cbn [andb]. rewrite Nat.sub_0_r.
      destruct (nth_error vals j) as [v|] eqn:Ev; [|apply nth_error_None in Ev; lia].
      symmetry. apply (aget_nth_once _ k j v OR).
      unfold rawTable. rewrite app_assoc. rewrite nth_error_app1
        by (unfold dictTable; rewrite app_length, map_length, combine_length, map_length; unfold wkeys in LJ; rewrite app_length, map_length in LJ; lia).
      assert (CB : dictTable m ds ++ combine vs (map snd vl) = combine (wkeys ds vs) vals).
      { unfold wkeys, vals, dictTable. clear. induction ds as [|d ds' IH]; [reflexivity|]. cbn [map app combine]. f_equal. exact IH. }
      rewrite CB. clear -J Ev. revert j J Ev. generalize (wkeys ds vs) vals. intros a b. revert b.
      induction a as [|x a IH]; intros [|y b] [|j] J Ev; cbn in *; try discriminate; [congruence|]. apply IH; assumption.
    - assert (AG : exists v, aget cl k = Some v).
      { destruct (aget cl k) as [v|] eqn:E; [eauto|]. exfalso. apply (proj1 (aget_none_notin cl k)) in E. apply E. exact Ic. }
      destruct AG as (v & AG). assert (NI := custom_notin _ _ _ _ _ (proj1 C) AG).
      rewrite (B k C NI), (I k v C AG). symmetry.
      destruct (In_nth_error _ _ (aget_in _ _ _ AG)) as (e & E).
      apply (aget_nth_once _ k (List.length (dictTable m ds ++ combine vs (map snd vl)) + e)%nat (Some v) OR).
      unfold rawTable. rewrite app_assoc. rewrite nth_error_app2 by lia.
      replace (_ + e - _)%nat with e by lia. unfold customs. rewrite nth_error_map, E. reflexivity. }
  unfold vals in W. rewrite writeAll_app in W. rewrite map_length in W. cbn [Nat.add] in W.
  exists (adjusted (c_adj c) m l1). repeat split.
  - unfold convertOn. cbn [buildOne r_dict]. fold m.
    destruct (writeAll (buildOne ds vs cl) 0%nat (map (fun d => Some (dictValue m d)) ds) l) as [l0| |]; cbn [bind] in *; try discriminate.
    rewrite V. cbn [bind]. rewrite W. reflexivity.
  - rewrite adjusted_keys. exact K1.
  - intros k v C AG. rewrite adjusted_other.
    + rewrite (B k C (custom_notin _ _ _ _ _ (proj1 C) AG)). apply I; assumption.
    + intros X. apply (custom_notin _ _ _ _ _ (proj1 C) AG). apply AK. exact X.
  - intros k C. apply adjusted_aget. apply G. exact C.
Qed.

(** ** The map form *)
Definition join {A} (o : option (option A)) : option A := match o with Some x => x | None => None end.
Lemma aget_app_l {V} (a b : list (string * V)) k : aget (a ++ b) k = match aget a k with Some v => Some v | None => aget b k end.
Proof. induction a as [|[x v] a IH]; cbn [app aget]; [reflexivity|]. destruct (eqb k x); [reflexivity|exact IH]. Qed.
Lemma fold_aset {V W} (f : W -> string) (h : W -> V) (l : list W) : forall (m : list (string * V)) k,
  aget (fold_left (fun m d => aset m (f d) (h d)) l m) k =
  match aget (rev (map (fun d => (f d, h d)) l)) k with Some v => Some v | None => aget m k end.
Proof.
  induction l as [|d l IH]; intros m k; cbn [fold_left map rev aget]; [reflexivity|]. rewrite IH, aget_app_l.
  destruct (aget (rev (map (fun d => (f d, h d)) l)) k); [reflexivity|]. cbn [aget]. rewrite aget_aset. destruct (eqb k (f d)); reflexivity.
Qed.
Lemma count_le_rev {V} (t : list (string * V)) k : (count_occ string_dec (map fst t) k <= 1)%nat -> aget (rev t) k = aget t k.
Proof.
  induction t as [|[x v] t IH]; intros O; cbn [rev map fst] in *; [reflexivity|]. rewrite aget_app_l. cbn [aget].
  destruct (string_dec x k) as [->|NE].
  - rewrite count_occ_cons_eq in O by reflexivity. rewrite eqb_refl.
    assert (N : ~ In k (map fst t)) by (intros I; apply (count_occ_In string_dec) in I; lia).
    rewrite IH by lia. rewrite (proj2 (aget_none_notin t k)) by exact N. reflexivity.
  - rewrite count_occ_cons_neq in O by exact NE. rewrite (proj2 (eqb_neq k x)) by congruence. rewrite IH by lia.
    destruct (aget t k); reflexivity.
Qed.
Lemma fold_valueLabels (vl : list kv) : forall (m : labels) k, (count_occ string_dec (map fst vl) k <= 1)%nat ->
  aget (fold_left addValueLabel vl m) k = match aget vl k with Some (Some v) => Some v | _ => aget m k end.
Proof.
  induction vl as [|[x [v|]] vl IH]; intros m k O; cbn [fold_left addValueLabel snd fst map] in *; [reflexivity| |].
  - cbn [aget]. destruct (string_dec x k) as [->|NE].
    + rewrite count_occ_cons_eq in O by reflexivity. rewrite IH by lia. rewrite eqb_refl.
      assert (N : ~ In k (map fst vl)) by (intros I; apply (count_occ_In string_dec) in I; lia).
      rewrite (proj2 (aget_none_notin vl k)) by exact N. rewrite aget_aset_same. reflexivity.
    + rewrite count_occ_cons_neq in O by exact NE. rewrite IH by lia. rewrite (proj2 (eqb_neq k x)) by congruence.
      rewrite aget_aset_other by congruence. reflexivity.
  - cbn [aget]. destruct (string_dec x k) as [->|NE].
    + rewrite count_occ_cons_eq in O by reflexivity. rewrite IH by lia. rewrite eqb_refl.
      assert (N : ~ In k (map fst vl)) by (intros I; apply (count_occ_In string_dec) in I; lia).
      rewrite (proj2 (aget_none_notin vl k)) by exact N. reflexivity.
    + rewrite count_occ_cons_neq in O by exact NE. rewrite IH by lia. rewrite (proj2 (eqb_neq k x)) by congruence. reflexivity.
Qed.
Lemma adjustMap_aget a m (out : labels) (t : list kv) k : aget out k = join (aget t k) -> (forall k, In k (adjKeys a) -> In k (map fst t)) ->
  aget (adjustMap a m out) k = join (aget (adjustList a m t) k).
Proof.
  intros H I. rewrite adjust_eq. destruct a; cbn [adjustMap adjOff].
  - destruct (namespaceNotFound (strOf m LbDstNamespace)); [exact H|]. rewrite aget_map by apply adjFun_key.
    rewrite !aget_aset. cbn [adjFun fst].
    case_eqb k LbDstPod.
    + subst. rewrite Bool.orb_true_r. destruct (aget t LbDstPod) eqn:G; [reflexivity|].
      apply (proj1 (aget_none_notin t _)) in G. exfalso. apply G, I. cbn. auto.
    + case_eqb k LbDstNode.
      * subst. cbn [orb]. destruct (aget t LbDstNode) eqn:G; [reflexivity|].
        apply (proj1 (aget_none_notin t _)) in G. exfalso. apply G, I. cbn. auto.
      * cbn [orb]. rewrite H. destruct (aget t k); reflexivity.
  - destruct (eqb (strOf m LbDnatIp) [] || (intOf m LbDnatPort <? 1)) eqn:Off; [exact H|]. rewrite aget_map by apply adjFun_key.
    apply Bool.orb_false_elim in Off. destruct Off as [O1 O2]. apply Z.ltb_ge in O2.
    rewrite !aget_aset. cbn [adjFun fst]. rewrite O1. cbn [negb]. rewrite (proj2 (Z.ltb_lt 0 (intOf m LbDnatPort))) by lia.
    rewrite !Bool.andb_true_r.
    case_eqb k LbDstPort.
    + subst. change (eqb LbDstPort LbDstIp) with false. cbn iota. destruct (aget t LbDstPort) eqn:G; [reflexivity|].
      apply (proj1 (aget_none_notin t _)) in G. exfalso. apply G, I. cbn. auto.
    + case_eqb k LbDstIp.
      * subst. destruct (aget t LbDstIp) eqn:G; [reflexivity|].
        apply (proj1 (aget_none_notin t _)) in G. exfalso. apply G, I. cbn. auto.
      * rewrite H. destruct (aget t k); reflexivity.
Qed.
Definition adjustedMap (adj : list adjust) (m : labels) (o : labels) : labels := fold_left (fun o a => adjustMap a m o) adj o.
Lemma adjustedMap_aget adj m k : forall (out : labels) (t : list kv), aget out k = join (aget t k) ->
  (forall k, In k (flat_map adjKeys adj) -> In k (map fst t)) -> aget (adjustedMap adj m out) k = join (aget (adjusted adj m t) k).
Proof.
  unfold adjustedMap, adjusted. induction adj as [|a adj IH]; intros out t H I; cbn [fold_left flat_map] in *; [exact H|].
  apply IH.
  - apply adjustMap_aget; [exact H|]. intros k' Ik. apply I, in_or_app. auto.
  - intros k' Ik. rewrite adjust_keys. apply I, in_or_app. auto.
Qed.
Lemma adjustMap_other a m (out : labels) k : ~ In k (adjKeys a) -> aget (adjustMap a m out) k = aget out k.
Proof.
  intros NI. destruct a; cbn [adjustMap adjKeys] in *.
  - destruct (namespaceNotFound _); [reflexivity|]. rewrite !aget_aset_other by (intros ->; apply NI; cbn; auto). reflexivity.
  - destruct (_ || _); [reflexivity|]. rewrite !aget_aset_other by (intros ->; apply NI; cbn; auto). reflexivity.
Qed.
Lemma adjustedMap_other adj m k : ~ In k (flat_map adjKeys adj) -> forall out, aget (adjustedMap adj m out) k = aget out k.
Proof.
  unfold adjustedMap. induction adj as [|a adj IH]; intros NI out; cbn [fold_left flat_map] in *; [reflexivity|]. rewrite in_app_iff in NI.
  rewrite IH by tauto. apply adjustMap_other. tauto.
Qed.

Definition mapOK (ds : list dict) (vs : list string) (cl : list (string * aval)) (m : labels) : Prop :=
  (forall k v, once k (allKeys ds vs cl) -> aget cl k = Some v -> aget m k = Some v) /\ (forall k, aget m k <> None -> In k (allKeys ds vs cl)).
Lemma template_map ds vs cl : mapOK ds vs cl (r_map (buildOne ds vs cl)).
Proof.
  cbn [buildOne r_map]. split.
  - intros k v O G. rewrite (fold_aset fst snd cl).
    assert (E : map (fun d : string * aval => (fst d, snd d)) cl = cl) by (rewrite <- (map_id cl) at 2; apply map_ext; intros []; reflexivity).
    rewrite E, count_le_rev, G; [reflexivity|]. unfold once, allKeys in O. rewrite count_occ_app in O. lia.
  - intros k H. rewrite (fold_aset fst snd cl) in H.
    assert (E : map (fun d : string * aval => (fst d, snd d)) cl = cl) by (rewrite <- (map_id cl) at 2; apply map_ext; intros []; reflexivity).
    rewrite E in H. destruct (aget (rev cl) k) as [v|] eqn:G; [|cbn [aget] in H; congruence].
    apply aget_in in G. apply in_rev in G. unfold allKeys. apply in_or_app. right. apply (in_map fst) in G. exact G.
Qed.
Lemma template_list ds vs cl : listOK ds vs cl (r_list (buildOne ds vs cl)).
Proof. split; [apply template_keys|]. intros k v [O _]. apply template_custom. exact O. Qed.

Lemma fold_vl_other vs (vl : list kv) k :
  (forall k, In k (map fst vl) -> In k vs \/ ~ In (Some k) (map (fun p => match snd p with Some _ => Some (fst p) | None => None end) vl)) ->
  ~ In k vs -> forall m : labels, aget (fold_left addValueLabel vl m) k = aget m k.
Proof.
  intros VK NV.
  assert (VK' : ~ In (Some k) (map (fun p => match snd p with Some _ => Some (fst p) | None => None end) vl)).
  { destruct (in_dec string_dec k (map fst vl)) as [Ik|NIk]; [destruct (VK k Ik); [contradiction|assumption]|].
    intros X. apply in_map_iff in X. destruct X as ([x [w|]] & E & X); cbn in E; [|discriminate]. inversion E; subst.
    apply NIk. apply (in_map fst) in X. exact X. }
  clear VK. induction vl as [|[x [w|]] vl IH]; intros m1; cbn [fold_left addValueLabel snd fst map] in *; [reflexivity| |].
  - rewrite IH by (intros X; apply VK'; right; exact X). apply aget_aset_other. intros ->. apply VK'. left. reflexivity.
  - apply IH. intros X. apply VK'. right. exact X.
Qed.
Lemma transform_ok ds vs cl c g m0 vl : mapOK ds vs cl m0 -> vlabels (c_val c) g = Ok vl -> List.length vs = List.length vl ->
  (forall k, In k (map fst vl) -> In k vs \/ ~ In (Some k) (map (fun p => match snd p with Some _ => Some (fst p) | None => None end) vl)) ->
  (forall k, In k (flat_map adjKeys (c_adj c)) -> In k (wkeys ds vs)) ->
  exists m', transformOn c (buildOne ds vs cl) g m0 = Ok m' /\ mapOK ds vs cl m' /\
    (map fst vl = vs -> (forall p, In p vl -> snd p <> None) -> forall k, once k (allKeys ds vs cl) ->
       aget m' k = join (aget (adjusted (c_adj c) (glabels g) (rawTable (glabels g) ds vs (map snd vl) cl)) k)).
Proof.
  intros [I1 I2] V L VK AK. set (m := glabels g).
  set (m1 := fold_left (fun m1 d => aset m1 (newKey d) (dictValue m d)) ds m0).
  set (m2 := fold_left addValueLabel vl m1).
  exists (adjustedMap (c_adj c) m m2). repeat split.
  - unfold transformOn. cbn [buildOne r_dict]. rewrite V. reflexivity.
  - intros k v O G. assert (NI := custom_notin _ _ _ _ _ O G).
    rewrite adjustedMap_other by (intros X; apply NI, AK, X).
    assert (NV : ~ In k vs) by (intros X; apply NI; unfold wkeys; apply in_or_app; auto).
    assert (E2 : aget m2 k = aget m1 k).
    { unfold m2. apply (fold_vl_other vs vl k VK NV). }
    rewrite E2. unfold m1. rewrite fold_aset.
    destruct (aget (rev (map (fun d => (newKey d, dictValue m d)) ds)) k) as [w|] eqn:W; [|apply I1; assumption].
    exfalso. apply aget_in in W. apply in_rev in W. apply NI. unfold wkeys. apply in_or_app. left.
    apply in_map_iff in W. destruct W as (d & E & Id). inversion E; subst. apply in_map. exact Id.
  - intros k H. destruct (in_dec string_dec k (flat_map adjKeys (c_adj c))) as [Ia|Na].
    { unfold allKeys. apply in_or_app. left. apply AK. exact Ia. }
    rewrite adjustedMap_other in H by exact Na.
    destruct (in_dec string_dec k vs) as [Iv|Nv]; [unfold allKeys, wkeys; rewrite !in_app_iff; auto|].
    assert (H1 : aget m1 k <> None).
    { intros X. apply H. unfold m2. rewrite (fold_vl_other vs vl k VK Nv). exact X. }
    unfold m1 in H1. rewrite fold_aset in H1.
    destruct (aget (rev (map (fun d => (newKey d, dictValue m d)) ds)) k) as [w|] eqn:W; [|apply I2; exact H1].
    apply aget_in in W. apply in_rev in W. unfold allKeys, wkeys. rewrite !in_app_iff. left. left.
    apply in_map_iff in W. destruct W as (d & E & Id). inversion E; subst. apply in_map. exact Id.
  - intros KV NN k O. apply adjustedMap_aget.
    + assert (C := O). unfold once, allKeys, wkeys in C. rewrite !count_occ_app in C.
      unfold m2. etransitivity; [apply fold_valueLabels; rewrite KV; lia|]. unfold m1. rewrite fold_aset.
      rewrite count_le_rev by (rewrite map_map; cbn [fst]; change (fun x => newKey x) with newKey; lia).
      unfold rawTable. rewrite !aget_app_l.
      assert (ED : aget (dictTable m ds) k = match aget (map (fun d => (newKey d, dictValue m d)) ds) k with Some v => Some (Some v) | None => None end).
      { unfold dictTable. clear. induction ds as [|d ds IH]; cbn [map aget]; [reflexivity|]. destruct (eqb k (newKey d)); [reflexivity|exact IH]. }
      rewrite ED. assert (EV : combine vs (map snd vl) = vl).
      { rewrite <- KV. clear. induction vl as [|[] vl IH]; cbn; [reflexivity|]. f_equal. exact IH. }
      rewrite EV.
      assert (EC : aget (customs cl) k = match aget cl k with Some v => Some (Some v) | None => None end).
      { unfold customs. clear. induction cl as [|[x v] cl IH]; cbn [map aget fst snd]; [reflexivity|]. destruct (eqb k x); [reflexivity|exact IH]. }
      rewrite EC. clear ED EV EC.
      destruct (aget (map (fun d => (newKey d, dictValue m d)) ds) k) as [v|] eqn:GD.
      * cbn [join]. assert (Id : In k (map newKey ds)).
        { apply aget_in in GD. apply in_map_iff in GD. destruct GD as (d & E & Id). inversion E; subst. apply in_map. exact Id. }
        apply (count_occ_In string_dec) in Id.
        assert (NV : ~ In k (map fst vl)) by (rewrite KV; intros X; apply (count_occ_In string_dec) in X; lia).
        rewrite (proj2 (aget_none_notin vl k)) by exact NV. reflexivity.
      * destruct (aget vl k) as [[v|]|] eqn:GV; [reflexivity| |].
        --
           exfalso. apply aget_in in GV. exact (NN _ GV eq_refl).
        -- destruct (aget cl k) as [v|] eqn:GC; cbn [join]; [apply I1; assumption|].
           exfalso. apply once_in in O. unfold allKeys, wkeys in O. rewrite !in_app_iff in O.
           apply (proj1 (aget_none_notin _ k)) in GD, GV, GC. unfold keys in *. rewrite map_map in GD. cbn [fst] in GD. rewrite KV in GV. tauto.
    + intros k' Ik. rewrite raw_keys by (rewrite map_length; exact L). unfold allKeys. apply in_or_app. left. apply AK. exact Ik.
Qed.
