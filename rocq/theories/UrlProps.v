(** C29 URL clustering. *)
From Verif Require Import Base UrlModel UrlSpec UrlProofs.

(** The exact result for every url written as segments and an optional query: each segment is kept when
    it is short and made of letters, and otherwise becomes a star; the query is dropped. *)
Theorem C29_clustering_by_segments : forall segs q outs,
  segs <> [] -> Forall is_segment segs -> is_query q ->
  Forall2 clustered_segment segs outs ->
  Clustering (join_segments segs ++ q) = join_segments outs.
Proof. exact clustering_spec. Qed.
Print Assumptions C29_clustering_by_segments.

(** Every byte string is covered by the previous theorem. *)
Theorem C29_every_url_has_segments : forall u, exists segs q,
  u = join_segments segs ++ q /\ segs <> [] /\ Forall is_segment segs /\ is_query q.
Proof. exact url_decomposition. Qed.
Print Assumptions C29_every_url_has_segments.

Theorem C29_every_segment_list_has_clustering : forall segs, exists outs, Forall2 clustered_segment segs outs.
Proof. exact clustered_exist. Qed.
Print Assumptions C29_every_segment_list_has_clustering.

Example C29_segments_example :
  Clustering (bs "/test_a/22?v=a") = bs "/test_a/*"
  /\ bs "/test_a/22?v=a" = join_segments [[]; bs "test_a"; bs "22"] ++ bs "?v=a".
Proof. split; reflexivity. Qed.

(** The vocabulary of the output: bounded cardinality per segment, no query part, no space. *)
Theorem C29_output_vocabulary : forall u, exists segs,
  Clustering u = join_segments segs /\
  Forall (fun s => s = [42] \/ (Forall letter s /\ (List.length s <= 25)%nat)) segs.
Proof. exact clustering_output. Qed.
Print Assumptions C29_output_vocabulary.

Theorem C29_no_query_no_space : forall u, ~ In 63 (Clustering u) /\ ~ In 32 (Clustering u).
Proof. exact clustering_no_query. Qed.
Print Assumptions C29_no_query_no_space.

Theorem C29_never_longer : forall u, (List.length (Clustering u) <= List.length u)%nat.
Proof. exact clustering_length. Qed.
Print Assumptions C29_never_longer.

Theorem C29_idempotent : forall u, Clustering (Clustering u) = Clustering u.
Proof. exact clustering_idempotent. Qed.
Print Assumptions C29_idempotent.

Example C29_idempotent_example : Clustering (bs "/a/1/b?x") = bs "/a/*/b" /\ Clustering (bs "/a/*/b") = bs "/a/*/b".
Proof. split; reflexivity. Qed.

(** The optimised and the readable implementation agree on urls without white space. *)
Theorem C29_agrees_with_baseline : forall u, Forall plain_ascii u -> Clustering u = ClusteringBaseline u.
Proof. exact clustering_baseline_agree. Qed.
Print Assumptions C29_agrees_with_baseline.

Example C29_agree_example :
  Forall plain_ascii (bs "/abcd/1234a/efg/b&*?q") /\ ClusteringBaseline (bs "/abcd/1234a/efg/b&*?q") = bs "/abcd/*/efg/*".
Proof. split; [repeat constructor; cbv; congruence|reflexivity]. Qed.

(** Finding: with a space inside a segment they differ ("/a b" -> "/ab" against "/*"). *)
Theorem C29_agrees_with_baseline_refuted : exists u, Forall (fun b => 32 <= b < 128) u /\ Clustering u <> ClusteringBaseline u.
Proof. exists (bs "/a b"). split; [repeat constructor; cbv; congruence|]. vm_compute. discriminate. Qed.
Print Assumptions C29_agrees_with_baseline_refuted.

(** The no-parameter method returns exactly the part before the query. *)
Theorem C29_noparam : forall u, Forall plain_ascii u ->
  ~ In 63 (NoParamClustering u) /\ exists q, u = NoParamClustering u ++ q /\ is_query q.
Proof. exact noparam_plain. Qed.
Print Assumptions C29_noparam.

Example C29_noparam_example : NoParamClustering (bs "/a/1?x=2") = bs "/a/1".
Proof. reflexivity. Qed.

(** Whatever method name is configured, the exported url carries no query part. *)
Theorem C29_no_query_any_method : forall name u, ~ In 63 (NewMethod name u).
Proof. exact method_no_query. Qed.
Print Assumptions C29_no_query_any_method.

(** The blank method hides the url entirely; an unknown name falls back to the alphabetic method. *)
Theorem C29_method_names : forall u,
  NewMethod "blank" u = [] /\ NewMethod "noparam" u = NoParamClustering u /\
  (forall name, name <> "blank"%string -> name <> "noparam"%string -> NewMethod name u = Clustering u).
Proof.
  intros u. repeat split. intros name N1 N2. unfold NewMethod.
  apply String.eqb_neq in N1, N2. rewrite N1, N2. destruct (String.eqb name "alphabet"); reflexivity.
Qed.
Print Assumptions C29_method_names.
