From Verif Require Import Base UrlModel UrlSpec.

Lemma isAlphabetical_letter b : isAlphabetical b = true <-> letter b.
Proof. unfold isAlphabetical, letter. lia. Qed.

Lemma isAlphabetical_not b : isAlphabetical b = false <-> ~ letter b.
Proof. rewrite <- isAlphabetical_letter. destruct (isAlphabetical b); split; intuition congruence. Qed.

Definition strip (s : bytes) : bytes := filter (fun b => negb (b =? 32)) s.

Definition good (s : bytes) : Prop := Forall letter s /\ (List.length s <= 25)%nat.

Definition seg_of (s : bytes) : bytes :=
  if forallb isAlphabetical (strip s) && (List.length (strip s) <=? 25)%nat then strip s else [42].

Lemma forallb_letters s : forallb isAlphabetical s = true <-> Forall letter s.
Proof.
  rewrite forallb_forall, Forall_forall. split; intros F x I; apply isAlphabetical_letter; auto.
Qed.

Lemma seg_of_spec s : clustered_segment s (seg_of s).
Proof.
  unfold clustered_segment, seg_of. fold (strip s).
  destruct (forallb isAlphabetical (strip s)) eqn:A; cbn [andb].
  - apply forallb_letters in A.
    destruct (List.length (strip s) <=? 25)%nat eqn:L.
    + apply Nat.leb_le in L. left. auto.
    + apply Nat.leb_gt in L. right. split; [|reflexivity]. intros [_ L']. lia.
  - right. split; [|reflexivity]. intros [F _]. apply forallb_letters in F. congruence.
Qed.

Lemma seg_of_unique s c : clustered_segment s c -> c = seg_of s.
Proof.
  intros C. pose proof (seg_of_spec s) as D. unfold clustered_segment in *.
  destruct C as [(F & L & ->)|[N ->]], D as [(F' & L' & E)|[N' E]]; rewrite E; try reflexivity; tauto.
Qed.

(** State after scanning the (slash- and question-mark-free) bytes [s] of the current segment. *)
Definition seg_inv (st : scan) (s : bytes) : Prop :=
  if sstar st then seg_of s = [42]
  else sseg st = strip s /\ forallb isAlphabetical (strip s) = true /\ (List.length (strip s) <= 25)%nat.

Lemma strip_snoc s b : strip (s ++ [b]) = strip s ++ (if b =? 32 then [] else [b]).
Proof. unfold strip. rewrite filter_app. cbn [filter]. destruct (b =? 32); reflexivity. Qed.

Lemma seg_inv_flush st s : seg_inv st s -> flush st = sres st ++ seg_of s.
Proof.
  unfold seg_inv, flush. destruct (sstar st).
  - intros ->. reflexivity.
  - intros (E & A & L). unfold seg_of. rewrite A. cbn [andb].
    apply Nat.leb_le in L. rewrite L, E. reflexivity.
Qed.

Lemma seg_of_bad s : seg_of s = [42] -> forallb isAlphabetical (strip s) = false \/ (25 < List.length (strip s))%nat.
Proof.
  unfold seg_of. destruct (forallb isAlphabetical (strip s)) eqn:A; cbn [andb]; [|auto].
  destruct (List.length (strip s) <=? 25)%nat eqn:L.
  - intros E. rewrite E in A. cbn in A. discriminate.
  - apply Nat.leb_gt in L. auto.
Qed.

Lemma seg_of_star_snoc s b : seg_of s = [42] -> seg_of (s ++ [b]) = [42].
Proof.
  intros E. apply seg_of_bad in E. unfold seg_of. rewrite strip_snoc, forallb_app, app_length.
  destruct E as [E|E].
  - rewrite E. reflexivity.
  - destruct (forallb isAlphabetical (strip s) && _) eqn:A; [|reflexivity]. cbn [andb].
    destruct (_ <=? 25)%nat eqn:L; [|reflexivity]. apply Nat.leb_le in L. lia.
Qed.

Lemma loop_segment s : forall l st done,
  is_segment s -> seg_inv st done ->
  exists st', clusterLoop (s ++ l) st = clusterLoop l st' /\ sres st' = sres st /\ seg_inv st' (done ++ s).
Proof.
  induction s as [|b s IH]; intros l st dn NS I.
  - exists st. rewrite app_nil_r. auto.
  - assert (NS' : is_segment s) by (destruct NS as [N1 N2]; split; intros F; [apply N1|apply N2]; right; exact F).
    assert (B1 : b <> 47) by (intros ->; apply (proj1 NS); left; reflexivity).
    assert (B2 : b <> 63) by (intros ->; apply (proj2 NS); left; reflexivity).
    replace (dn ++ b :: s) with ((dn ++ [b]) ++ s) by (rewrite <- app_assoc; reflexivity).
    cbn [app clusterLoop]. unfold SPACE, SLASH, QMARK.
    destruct (b =? 32) eqn:SP.
    { apply IH; [assumption|]. unfold seg_inv in *. destruct (sstar st).
      - apply seg_of_star_snoc; assumption.
      - rewrite strip_snoc, SP, app_nil_r. assumption. }
    replace (b =? 47) with false by lia. replace (b =? 63) with false by lia. cbn [orb].
    destruct (sstar st) eqn:ST.
    { apply IH; [assumption|]. unfold seg_inv in *. rewrite ST in *. apply seg_of_star_snoc; assumption. }
    unfold seg_inv in I. rewrite ST in I. destruct I as (E & A & L).
    destruct (isAlphabetical b) eqn:AB.
    + match goal with |- context[clusterLoop (s ++ l) ?X] => set (st1 := X) end.
      destruct (IH l st1 (dn ++ [b]) NS') as (st' & H1 & H2 & H3).
      { unfold seg_inv, st1. cbn [sstar sseg]. rewrite E, <- app_assoc || rewrite E.
        assert (SB : strip (dn ++ [b]) = strip dn ++ [b]) by (rewrite strip_snoc, SP; reflexivity).
        rewrite <- SB. unfold zlen.
        destruct (25 <? Z.of_nat (List.length (strip (dn ++ [b])))) eqn:LT.
        - unfold seg_of. replace (List.length (strip (dn ++ [b])) <=? 25)%nat with false by (symmetry; apply Nat.leb_gt; lia).
          rewrite andb_false_r. reflexivity.
        - split; [reflexivity|]. split; [|lia]. rewrite SB, forallb_app, A. cbn. rewrite AB. reflexivity. }
      exists st'. auto.
    + match goal with |- context[clusterLoop (s ++ l) ?X] => set (st1 := X) end.
      destruct (IH l st1 (dn ++ [b]) NS') as (st' & H1 & H2 & H3).
      { unfold seg_inv, st1. cbn [sstar]. unfold seg_of. rewrite strip_snoc, SP, forallb_app. cbn [forallb].
        rewrite AB, andb_false_r. reflexivity. }
      exists st'. auto.
Qed.

Lemma seg_inv_start r : seg_inv {| sres := r; sstar := false; sseg := [] |} [].
Proof. unfold seg_inv. cbn. repeat split; lia. Qed.

Lemma loop_query q st s : is_query q -> seg_inv st s -> flush (clusterLoop q st) = sres st ++ seg_of s.
Proof.
  intros [->|[r ->]] I; cbn [clusterLoop].
  - apply seg_inv_flush; assumption.
  - unfold flush at 1. cbn. rewrite app_nil_r. apply seg_inv_flush; assumption.
Qed.

Lemma loop_rest rest : forall st s q,
  Forall is_segment rest -> is_query q -> seg_inv st s ->
  flush (clusterLoop (List.concat (map (fun t => 47 :: t) rest) ++ q) st) =
  sres st ++ seg_of s ++ List.concat (map (fun t => 47 :: seg_of t) rest).
Proof.
  induction rest as [|t rest IH]; intros st s q F Q I; cbn [map List.concat app].
  - rewrite app_nil_r. apply loop_query; assumption.
  - inversion F as [|? ? Ft Frest]; subst. cbn [clusterLoop].
    change (47 =? SPACE) with false. change (47 =? SLASH) with true. cbn [orb].
    rewrite <- app_assoc.
    match goal with |- context[clusterLoop (t ++ ?l) ?X] =>
      destruct (loop_segment t l X [] Ft (seg_inv_start _)) as (st' & H1 & H2 & H3) end.
    rewrite H1, (IH st' t q Frest Q H3), H2. cbn [sres].
    rewrite (seg_inv_flush st s I). unfold SLASH. rewrite <- !app_assoc. reflexivity.
Qed.

Lemma clustering_join segs q :
  segs <> [] -> Forall is_segment segs -> is_query q ->
  Clustering (join_segments segs ++ q) = join_segments (map seg_of segs).
Proof.
  intros N F Q. destruct segs as [|s rest]; [contradiction|].
  inversion F as [|? ? Fs Frest]; subst.
  assert (E : Clustering (join_segments (s :: rest) ++ q) =
              flush (clusterLoop (join_segments (s :: rest) ++ q) {| sres := []; sstar := false; sseg := [] |})).
  { unfold Clustering. destruct (join_segments (s :: rest) ++ q); reflexivity. }
  rewrite E. cbn [join_segments map]. rewrite <- app_assoc.
  destruct (loop_segment s (List.concat (map (fun t => 47 :: t) rest) ++ q) _ [] Fs (seg_inv_start [])) as (st' & H1 & H2 & H3).
  rewrite H1, (loop_rest rest st' s q Frest Q H3), H2. cbn [sres app].
  rewrite map_map. reflexivity.
Qed.

(** Every byte string is a url in the sense of the specification. *)
Lemma url_decomposition u : exists segs q,
  u = join_segments segs ++ q /\ segs <> [] /\ Forall is_segment segs /\ is_query q.
Proof.
  induction u as [|b u IH].
  - exists [[]], []. cbn. repeat split; try discriminate; [|left; reflexivity].
    constructor; [|constructor]. split; intros [].
  - destruct IH as (segs & q & E & N & F & Q).
    destruct segs as [|s rest]; [contradiction|]. inversion F as [|? ? Fs Frest]; subst.
    destruct (Z.eq_dec b 63) as [->|N63].
    { exists [[]], (63 :: join_segments (s :: rest) ++ q). cbn. repeat split; try discriminate; [|right; eauto].
      constructor; [|constructor]. split; intros []. }
    destruct (Z.eq_dec b 47) as [->|N47].
    { exists ([] :: s :: rest), q. cbn. repeat split; try discriminate; [|assumption].
      constructor; [split; intros []|assumption]. }
    exists ((b :: s) :: rest), q. cbn. repeat split; try discriminate; [|assumption].
    constructor; [|assumption]. destruct Fs as [F1 F2].
    split; intros [I|I]; try congruence; contradiction.
Qed.

Lemma seg_of_cases s : (seg_of s = [42]) \/ (Forall letter (seg_of s) /\ (List.length (seg_of s) <= 25)%nat).
Proof.
  destruct (seg_of_spec s) as [(F & L & E)|[_ E]]; [right|left]; [|assumption].
  rewrite E. auto.
Qed.

Lemma letter_not_special b : letter b -> b <> 47 /\ b <> 63 /\ b <> 32 /\ b <> 42.
Proof. unfold letter. lia. Qed.

Lemma seg_of_is_segment s : is_segment (seg_of s).
Proof.
  destruct (seg_of_cases s) as [->|[F _]].
  - split; intros [I|[]]; discriminate.
  - rewrite Forall_forall in F. split; intros I; apply F in I; apply letter_not_special in I; tauto.
Qed.

Lemma strip_letters s : Forall letter s -> strip s = s.
Proof.
  induction 1 as [|b s L F IH]; [reflexivity|]. unfold strip in *. cbn [filter].
  apply letter_not_special in L. destruct (b =? 32) eqn:E; [lia|]. cbn [negb]. f_equal. assumption.
Qed.

Lemma seg_of_idem s : seg_of (seg_of s) = seg_of s.
Proof.
  destruct (seg_of_cases s) as [->|[F L]]; [reflexivity|].
  unfold seg_of at 1. rewrite (strip_letters _ F).
  apply forallb_letters in F. rewrite F. apply Nat.leb_le in L. rewrite L. reflexivity.
Qed.

Lemma Forall_map_seg segs : Forall is_segment (map seg_of segs).
Proof. apply Forall_map. apply Forall_forall. intros; apply seg_of_is_segment. Qed.

Lemma clustering_idempotent u : Clustering (Clustering u) = Clustering u.
Proof.
  destruct (url_decomposition u) as (segs & q & -> & N & F & Q).
  rewrite (clustering_join segs q N F Q).
  rewrite <- (app_nil_r (join_segments (map seg_of segs))) at 1.
  rewrite clustering_join.
  - rewrite map_map. f_equal. apply map_ext. intros; apply seg_of_idem.
  - destruct segs; [contradiction|discriminate].
  - apply Forall_map_seg.
  - left. reflexivity.
Qed.

Lemma clustering_spec segs q outs :
  segs <> [] -> Forall is_segment segs -> is_query q ->
  Forall2 clustered_segment segs outs ->
  Clustering (join_segments segs ++ q) = join_segments outs.
Proof.
  intros N F Q C. rewrite clustering_join by assumption. f_equal.
  clear N F Q. induction C as [|s c segs outs H C IH]; [reflexivity|].
  cbn [map]. rewrite IH. f_equal. symmetry. apply seg_of_unique. assumption.
Qed.

Lemma clustered_exist segs : exists outs, Forall2 clustered_segment segs outs.
Proof.
  exists (map seg_of segs). induction segs; cbn; constructor; auto. apply seg_of_spec.
Qed.

Definition output_segment (s : bytes) : Prop :=
  s = [42] \/ (Forall letter s /\ (List.length s <= 25)%nat).

Lemma clustering_output u : exists segs,
  Clustering u = join_segments segs /\
  Forall (fun s => s = [42] \/ (Forall letter s /\ (List.length s <= 25)%nat)) segs.
Proof.
  destruct (url_decomposition u) as (segs & q & -> & N & F & Q).
  exists (map seg_of segs). split; [apply clustering_join; assumption|].
  apply Forall_map. apply Forall_forall. intros s _. apply seg_of_cases.
Qed.

Lemma join_no_special segs x : (x = 63 \/ x = 32) -> Forall output_segment segs -> ~ In x (join_segments segs).
Proof.
  intros X F.
  assert (S1 : forall s, output_segment s -> ~ In x s).
  { intros s [->|[L _]] I.
    - destruct I as [I|[]]. lia.
    - rewrite Forall_forall in L. apply L in I. apply letter_not_special in I. lia. }
  destruct segs as [|s rest]; [intros []|]. inversion F as [|? ? Fs Fr]; subst.
  cbn [join_segments]. intros I. apply in_app_or in I. destruct I as [I|I]; [apply (S1 s Fs I)|].
  apply in_concat in I. destruct I as (y & Y & I). apply in_map_iff in Y. destruct Y as (t & <- & T).
  destruct I as [I|I]; [lia|]. rewrite Forall_forall in Fr. apply (S1 t (Fr t T) I).
Qed.

Lemma clustering_no_query u : ~ In 63 (Clustering u) /\ ~ In 32 (Clustering u).
Proof.
  destruct (clustering_output u) as (segs & -> & F).
  split; apply join_no_special; auto.
Qed.

(** Baseline *)
Lemma beforeQ_join segs q : Forall is_segment segs -> is_query q -> beforeQ (join_segments segs ++ q) = join_segments segs.
Proof.
  intros F Q.
  assert (B : forall l, ~ In 63 l -> beforeQ (l ++ q) = l).
  { induction l as [|b l IH]; intros N; cbn.
    - destruct Q as [->|[r ->]]; reflexivity.
    - destruct (b =? QMARK) eqn:E; unfold QMARK in E.
      + exfalso. apply N. left. lia.
      + f_equal. apply IH. intros I. apply N. right. assumption. }
  apply B. destruct segs as [|s rest]; [intros []|]. inversion F as [|? ? Fs Fr]; subst.
  cbn [join_segments]. intros I. apply in_app_or in I. destruct I as [I|I]; [apply (proj2 Fs I)|].
  apply in_concat in I. destruct I as (y & Y & I). apply in_map_iff in Y. destruct Y as (t & <- & T).
  destruct I as [I|I]; [discriminate|]. rewrite Forall_forall in Fr. apply (proj2 (Fr t T) I).
Qed.

Lemma trimLeft_id l : Forall plain_ascii l -> trimLeft l = l.
Proof.
  intros F. destruct l as [|b l]; [reflexivity|]. inversion F as [|? ? P _]; subst. cbn [trimLeft].
  unfold plain_ascii in P. unfold isSpace. destruct (_ || _) eqn:E; [lia|reflexivity].
Qed.
Lemma trimSpace_id l : Forall plain_ascii l -> trimSpace l = l.
Proof.
  intros F. unfold trimSpace. rewrite (trimLeft_id l F), trimLeft_id by (apply Forall_rev; assumption).
  apply rev_involutive.
Qed.

Lemma splitSlash_seg s : forall l cur, is_segment s -> splitSlash (s ++ l) cur = splitSlash l (cur ++ s).
Proof.
  induction s as [|b s IH]; intros l cur [N1 N2]; cbn [app].
  - rewrite app_nil_r. reflexivity.
  - cbn [splitSlash]. destruct (b =? SLASH) eqn:E; unfold SLASH in E.
    + exfalso. apply N1. left. lia.
    + rewrite IH.
      * rewrite <- app_assoc. reflexivity.
      * split; intros I; [apply N1|apply N2]; right; assumption.
Qed.

Lemma splitSlash_join segs : segs <> [] -> Forall is_segment segs -> splitSlash (join_segments segs) [] = segs.
Proof.
  intros N F. destruct segs as [|s rest]; [contradiction|]. clear N. cbn [join_segments].
  revert s F. induction rest as [|t rest IH]; intros s F; inversion F as [|? ? Fs Fr]; subst.
  - cbn. rewrite app_nil_r, <- (app_nil_r s) at 1. rewrite splitSlash_seg by assumption. reflexivity.
  - cbn [map List.concat]. rewrite splitSlash_seg by assumption. cbn [app splitSlash].
    change (47 =? SLASH) with true. cbn iota. f_equal. apply IH. assumption.
Qed.

Lemma joinSlash_join segs : segs <> [] -> joinSlash segs = join_segments segs.
Proof.
  intros N. destruct segs as [|s rest]; [contradiction|]. clear N. cbn [join_segments].
  revert s. induction rest as [|t rest IH]; intros s.
  - cbn. rewrite app_nil_r. reflexivity.
  - cbn [map List.concat]. cbn [app]. rewrite <- IH. reflexivity.
Qed.

Lemma baseSegment_seg_of s : Forall plain_ascii s -> baseSegment s = seg_of s.
Proof.
  intros P. assert (S : strip s = s).
  { clear -P. induction P as [|b s P F IH]; [reflexivity|]. unfold strip in *. cbn [filter].
    unfold plain_ascii in P. destruct (b =? 32) eqn:E; [lia|]. cbn [negb]. f_equal. assumption. }
  unfold baseSegment, seg_of. rewrite S. unfold zlen.
  destruct (25 <? Z.of_nat (List.length s)) eqn:L.
  - replace (List.length s <=? 25)%nat with false by (symmetry; apply Nat.leb_gt; lia).
    rewrite andb_false_r. reflexivity.
  - replace (List.length s <=? 25)%nat with true by (symmetry; apply Nat.leb_le; lia).
    rewrite andb_true_r. destruct s; [reflexivity|]. cbn [orb matchAlphabet]. reflexivity.
Qed.

Lemma Forall_join P segs : Forall P (join_segments segs) -> Forall (Forall P) segs.
Proof.
  destruct segs as [|s rest]; [constructor|]. cbn [join_segments]. intros F.
  apply Forall_app in F. destruct F as [Fs F]. constructor; [assumption|].
  induction rest as [|t rest IH]; [constructor|]. cbn [map List.concat] in F.
  change ((47 :: t) ++ List.concat (map (fun t => 47 :: t) rest)) with ([47] ++ (t ++ List.concat (map (fun t => 47 :: t) rest))) in F.
  apply Forall_app in F. destruct F as [_ F]. apply Forall_app in F. destruct F as [Ft F].
  constructor; auto.
Qed.

Lemma baseline_join segs q :
  segs <> [] -> Forall is_segment segs -> is_query q -> Forall plain_ascii (join_segments segs) ->
  ClusteringBaseline (join_segments segs ++ q) = join_segments (map seg_of segs).
Proof.
  intros N F Q P.
  assert (E : ClusteringBaseline (join_segments segs ++ q) =
     joinSlash (map baseSegment (splitSlash (trimSpace (beforeQ (join_segments segs ++ q))) []))).
  { unfold ClusteringBaseline. destruct (join_segments segs ++ q); reflexivity. }
  rewrite E, (beforeQ_join segs q F Q), (trimSpace_id _ P), (splitSlash_join segs N F).
  rewrite joinSlash_join by (destruct segs; [contradiction|discriminate]).
  f_equal. apply Forall_join in P. clear -P. induction P as [|s segs P F IH]; [reflexivity|].
  cbn [map]. rewrite IH, baseSegment_seg_of by assumption. reflexivity.
Qed.

Lemma clustering_baseline_agree u : Forall plain_ascii u -> Clustering u = ClusteringBaseline u.
Proof.
  intros P. destruct (url_decomposition u) as (segs & q & -> & N & F & Q).
  apply Forall_app in P. destruct P as [P _].
  rewrite clustering_join, baseline_join by assumption. reflexivity.
Qed.

Lemma join_length segs : forall outs,
  Forall2 (fun s o => (List.length o <= List.length s)%nat) segs outs ->
  (List.length (join_segments outs) <= List.length (join_segments segs))%nat.
Proof.
  intros outs F. destruct F as [|s o segs outs L F]; [lia|]. cbn [join_segments]. rewrite !app_length.
  assert (List.length (List.concat (map (fun t : list Z => (47 :: t)%Z) outs)) <= List.length (List.concat (map (fun t => (47 :: t)%Z) segs)))%nat; [|lia].
  clear L. induction F as [|s' o' segs outs L F IH]; [lia|]. cbn [map List.concat]. rewrite !app_length. cbn [List.length]. lia.
Qed.

Lemma seg_of_length s : (List.length (seg_of s) <= List.length s)%nat.
Proof.
  assert (S : (List.length (strip s) <= List.length s)%nat).
  { unfold strip. induction s as [|b s IH]; cbn; [lia|]. destruct (negb (b =? 32)); cbn; lia. }
  unfold seg_of. destruct (forallb isAlphabetical (strip s) && _) eqn:E; [lia|].
  destruct s as [|b s]; [cbn in E; discriminate|]. cbn. lia.
Qed.

Lemma clustering_length u : (List.length (Clustering u) <= List.length u)%nat.
Proof.
  destruct (url_decomposition u) as (segs & q & -> & N & F & Q).
  rewrite clustering_join by assumption. rewrite app_length.
  assert (L := join_length segs (map seg_of segs)).
  assert (Forall2 (fun s o => (List.length o <= List.length s)%nat) segs (map seg_of segs)).
  { clear. induction segs; cbn; constructor; auto. apply seg_of_length. }
  specialize (L H). lia.
Qed.

(** the no-parameter method *)
Lemma beforeQ_spec l : ~ In 63 (beforeQ l) /\ exists q, l = beforeQ l ++ q /\ is_query q.
Proof.
  induction l as [|b l [N (q & E & Q)]]; cbn [beforeQ].
  - split; [intros []|]. exists []. split; [reflexivity|]. left. reflexivity.
  - destruct (b =? QMARK) eqn:B; unfold QMARK in B.
    + split; [intros []|]. exists (b :: l). split; [reflexivity|]. right. exists l. f_equal. lia.
    + split.
      * intros [I|I]; [lia|contradiction].
      * exists q. split; [cbn; congruence|assumption].
Qed.

Lemma noparam_plain u : Forall plain_ascii u ->
  ~ In 63 (NoParamClustering u) /\ exists q, u = NoParamClustering u ++ q /\ is_query q.
Proof.
  intros P. assert (E : NoParamClustering u = beforeQ u).
  { unfold NoParamClustering. destruct u; [reflexivity|]. rewrite trimSpace_id by assumption. reflexivity. }
  rewrite E. apply beforeQ_spec.
Qed.

Lemma noparam_no_query u : ~ In 63 (NoParamClustering u).
Proof.
  unfold NoParamClustering. destruct u; [intros []|]. apply beforeQ_spec.
Qed.

Lemma method_no_query name u : ~ In 63 (NewMethod name u).
Proof.
  unfold NewMethod. destruct (String.eqb name "alphabet"); [apply clustering_no_query|].
  destruct (String.eqb name "noparam"); [apply noparam_no_query|].
  destruct (String.eqb name "blank"); [intros []|apply clustering_no_query].
Qed.
