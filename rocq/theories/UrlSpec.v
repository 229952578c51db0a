(** Specification vocabulary for URL clustering (C29), independent of the scanning code. *)
From Verif Require Import Base.

(** A letter of the retained alphabet: A-Z a-z _ - *)
Definition letter (b : Z) : Prop :=
  65 <= b <= 90 \/ 97 <= b <= 122 \/ b = 95 \/ b = 45.

(** Segments put together with '/' between them. *)
Definition join_segments (segs : list bytes) : bytes :=
  match segs with
  | [] => []
  | s :: rest => s ++ List.concat (map (fun t => 47 :: t) rest)
  end.

(** A url: path segments (at least one, without '/' or '?'), then nothing or '?' and the query. *)
Definition is_segment (s : bytes) : Prop := ~ In 47 s /\ ~ In 63 s.
Definition is_query (q : bytes) : Prop := q = [] \/ exists r, q = 63 :: r.

(** What a segment (spaces dropped) is turned into: itself when short and made of letters, else a star. *)
Definition clustered_segment (s c : bytes) : Prop :=
  let s' := filter (fun b => negb (b =? 32)) s in
  (Forall letter s' /\ (List.length s' <= 25)%nat /\ c = s')
  \/ (~ (Forall letter s' /\ (List.length s' <= 25)%nat) /\ c = [42]).

(** ASCII without white space. *)
Definition plain_ascii (b : Z) : Prop := 33 <= b < 128.
