(** C41 slice comparison, C42 container ids. *)
From Verif Require Import Base CompareModel CompareProofs.

(** Removed elements: the old list restricted, in order and with repetitions, to the elements missing from
    the new list; added elements symmetrically. *)
Theorem C41_compare_exact : forall (A : Type) (E : Eqb A) (olds news : list A),
  let c := Compare (NewSlice olds news) in
  keeps (fun e => ~ In e news) olds (GetRemovedElements c) /\
  keeps (fun e => ~ In e olds) news (GetAddedElements c).
Proof. intros A E. exact compare_keeps. Qed.
Print Assumptions C41_compare_exact.

Theorem C41_compare_membership : forall (A : Type) (E : Eqb A) (olds news : list A) (e : A),
  let c := Compare (NewSlice olds news) in
  (In e (GetRemovedElements c) <-> In e olds /\ ~ In e news) /\
  (In e (GetAddedElements c) <-> In e news /\ ~ In e olds).
Proof. intros A E. exact compare_in. Qed.
Print Assumptions C41_compare_membership.

Example C41_example :
  let c := Compare (NewSlice [1; 2; 2; 3] [2; 4; 4; 1]) in
  GetRemovedElements c = [3] /\ GetAddedElements c = [4; 4].
Proof. split; reflexivity. Qed.

(** runtime://id : the first twelve characters of the id. *)
Theorem C42_container_id : forall runtime id,
  ~ In 58 runtime -> TruncateContainerId (runtime ++ bs "://" ++ id) = firstn 12 id.
Proof. exact truncate_runtime. Qed.
Print Assumptions C42_container_id.

Example C42_container_id_example :
  ~ In 58 (bs "docker") /\ TruncateContainerId (bs "docker://a1b2c3d4k6l7f8h9") = bs "a1b2c3d4k6l7".
Proof. split; [cbv; intuition discriminate|reflexivity]. Qed.

Theorem C42_no_prefix : forall s, (forall p r, s <> p ++ bs "://" ++ r) -> TruncateContainerId s = [].
Proof. exact truncate_no_sep. Qed.
Print Assumptions C42_no_prefix.

Example C42_no_prefix_example : TruncateContainerId (bs "a1b2c3d4k6l7f8h9") = [].
Proof. reflexivity. Qed.

Theorem C42_bounded : forall s, (List.length (TruncateContainerId s) <= 12)%nat.
Proof. exact truncate_length. Qed.
Print Assumptions C42_bounded.
