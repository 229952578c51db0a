(** C88: what the metadata provider says and counts. *)
From Verif Require Import Base EventModel SocketModel AddrModel ProvModel.
Open Scope string_scope. Open Scope list_scope. Open Scope Z_scope.

(** ** Specification *)
(** The four kinds of objects it watches *)
Definition types := ["pod"; "rs"; "node"; "service"].
Definition ops := ["add"; "update"; "delete"].
Definition opOf (c : change) : string := match c with CAdd _ => "add" | CUpdate _ _ => "update" | CDelete _ => "delete" end.
(** How many of the changes are of that type and operation *)
Definition number (typ op : string) (h : list (string * change)) : Z := zlen (filter (fun x => eqb (fst x) typ && eqb (opOf (snd x)) op) h).
(** Two objects that say the same but for the three parts of a pod *)
Definition sameParts (f : bool -> bool -> Prop) (p q : pod) : Prop := p_name p = p_name q /\ f (p_managed p) (p_managed q) /\ f (p_volumes p) (p_volumes q) /\ f (p_conditions p) (p_conditions q).
Fixpoint same (o q : obj) : Prop :=
  match o, q with
  | OPod (Some p), OPod (Some r) => sameParts (fun _ b => b = false) p r \/ p = r
  | OUnknown a, OUnknown b => same a b
  | _, _ => o = q
  end.
(** A message about a change: its type and operation, an update's old and new object, the object added as new, the object deleted as old *)
Definition tells (typ : string) (c : change) (m : message) : Prop :=
  m_type m = typ /\ m_op m = opOf c /\
  match c with
  | CAdd o => m_old m = None /\ m_new m = Some o
  | CUpdate a b => m_old m = Some a /\ m_new m = Some b
  | CDelete o => m_new m = None /\ exists o', m_old m = Some o' /\ same o o'
  end.
Definition keeps (c c' : change) : Prop := match c, c' with CDelete o, CDelete o' => same o o' | _, _ => c = c' end.
(** Each change is first kept in the provider's own cache and then told, before the next. *)
Inductive story : list (string * change) -> list out -> Prop :=
| s_nil : story [] []
| s_cons : forall typ c c' m h os, keeps c c' -> tells typ c m -> story h os -> story ((typ, c) :: h) (ToCache typ c' :: Broadcast m :: os).

(** ** Proofs *)
Lemma same_refl : forall o, same o o.
Proof. fix IH 1. intros [[p|]|n|o]; cbn; [right; reflexivity|reflexivity|reflexivity|apply IH]. Qed.
Lemma same_trim o : same o (decreasePodInfo o).
Proof. destruct o as [[p|]|n|[[p|]|n|o]]; cbn; try reflexivity; try (left; repeat split); try apply same_refl. Qed.
Lemma registered_two typ c : exists c' m, registered typ c = [ToCache typ c'; Broadcast m] /\ keeps c c' /\ tells typ c m.
Proof.
  unfold registered. destruct (eqb typ "pod"); destruct c as [o|a b|o]; cbn; do 2 eexists; (split; [reflexivity|]); (split; [cbn; first [reflexivity|apply same_trim|apply same_refl]|]); unfold tells; cbn; repeat split; try reflexivity.
  - exists (decreasePodInfo o). split; [reflexivity|apply same_trim].
  - exists o. split; [reflexivity|apply same_refl].
Qed.
Lemma zlen_cons {A} (x : A) l : zlen (x :: l) = 1 + zlen l.
Proof. unfold zlen. cbn [List.length]. lia. Qed.
Lemma count_counter v m typ op : In typ types -> In op ops -> In (m_type m) types -> In (m_op m) ops -> counter (count v m) typ op = counter v typ op + (if eqb (m_type m) typ && eqb (m_op m) op then 1 else 0).
Proof.
  destruct m as [t o a b]. cbn [m_type m_op]. intros T O T' O'.
  destruct T as [<-|[<-|[<-|[<-|[]]]]]; destruct O as [<-|[<-|[<-|[]]]]; destruct T' as [<-|[<-|[<-|[<-|[]]]]]; destruct O' as [<-|[<-|[<-|[]]]]; destruct v; cbn; lia.
Qed.

Section Any.
Variable v6 : bytes -> bytes.
Variable host : bytes -> option bytes.
(** ** Theorems *)
(** The address of a client, when there is one, is an address: X-Real-IP if that is one, or else the first in X-Forward-For that is, or else the one it connected from. *)
Theorem C88_client : forall q,
  (isIP v6 (q_header q "X-Real-IP") = true -> getIP v6 host q = Some (q_header q "X-Real-IP")) /\
  (isIP v6 (q_header q "X-Real-IP") = false -> forall a ip b, splitOn (Z.eqb 44) (q_header q "X-Forward-For") = a ++ ip :: b -> Forall (fun x => isIP v6 x = false) a -> isIP v6 ip = true -> getIP v6 host q = Some ip) /\
  (isIP v6 (q_header q "X-Real-IP") = false -> Forall (fun x => isIP v6 x = false) (splitOn (Z.eqb 44) (q_header q "X-Forward-For")) -> forall ip, host (q_remote q) = Some ip -> isIP v6 ip = true -> getIP v6 host q = Some ip) /\
  (forall ip, getIP v6 host q = Some ip -> isIP v6 ip = true).
Proof.
  intros q. unfold getIP. repeat split.
  - intros ->. reflexivity.
  - intros -> a ip b -> F T. replace (find (isIP v6) (a ++ ip :: b)) with (Some ip); [reflexivity|]. induction a as [|x a IH]; cbn [app find]; [rewrite T; reflexivity|]. inversion F as [|? ? F1 F2]; subst. rewrite F1. exact (IH F2).
  - intros -> F ip H T. replace (find (isIP v6) (splitOn (Z.eqb 44) (q_header q "X-Forward-For"))) with (@None bytes); [rewrite H, T; reflexivity|]. symmetry. induction F as [|x l F1 F2 IH]; [reflexivity|]. cbn [find]. rewrite F1. exact IH.
  - intros ip. destruct (isIP v6 (q_header q "X-Real-IP")) eqn:R; [intros H; injection H as <-; exact R|]. destruct (find _ _) as [x|] eqn:F; [intros H; injection H as <-; exact (proj2 (find_some _ _ F))|].
    destruct (host (q_remote q)) as [x|]; [|discriminate]. destruct (isIP v6 x) eqn:X; [|discriminate]. intros H. injection H as <-. exact X.
Qed.
End Any.
Print Assumptions C88_client.

(** Whatever the informers report, each change is kept and told once, in order, with its type, its operation and its objects; a deleted pod without the three parts at most. *)
Theorem C88_told : forall h, story h (fst (serve fresh h)).
Proof.
  intros h. generalize fresh as v. induction h as [|[typ c] h IH]; intros v; cbn [serve]; [constructor|]. destruct (registered_two typ c) as (c' & m & -> & K & T). cbn [fold_left].
  pose proof (IH (count v m)) as S. destruct (serve (count v m) h) as [rest v2]. cbn [fst app] in *. exact (s_cons _ _ _ _ _ _ K T S).
Qed.
Print Assumptions C88_told.

(** The counters of each type and operation are the numbers of changes reported. *)
Theorem C88_counted : forall h typ op, Forall (fun x => In (fst x) types) h -> In typ types -> In op ops -> counter (snd (serve fresh h)) typ op = number typ op h.
Proof.
  assert (G : forall h v typ op, Forall (fun x => In (fst x) types) h -> In typ types -> In op ops -> counter (snd (serve v h)) typ op = counter v typ op + number typ op h).
  { induction h as [|[t c] h IH]; intros v typ op F T O; cbn [serve]; [cbn; lia|]. inversion F as [|? ? F1 F2]; subst. cbn [fst] in F1. destruct (registered_two t c) as (c' & m & -> & _ & (M1 & M2 & _)). cbn [fold_left].
    pose proof (IH (count v m) typ op F2 T O) as S. destruct (serve (count v m) h) as [rest v2]. cbn [snd] in *. rewrite S.
    rewrite count_counter; [|exact T|exact O|rewrite M1; exact F1|rewrite M2; destruct c; cbn; auto]. rewrite M1, M2. unfold number. cbn [filter fst snd]. destruct (eqb t typ && eqb (opOf c) op); [rewrite zlen_cons|]; lia. }
  intros h typ op F T O. rewrite (G h fresh typ op F T O). destruct T as [<-|[<-|[<-|[<-|[]]]]]; destruct O as [<-|[<-|[<-|[]]]]; reflexivity.
Qed.
Print Assumptions C88_counted.

(** A deleted pod, known or last known, is told without the three parts. *)
Theorem C88_deleted : forall p u, registered "pod" (CDelete (if u : bool then OUnknown (OPod (Some p)) else OPod (Some p))) =
  let q := {| p_name := p_name p; p_managed := false; p_volumes := false; p_conditions := false |} in let o := if u then OUnknown (OPod (Some q)) else OPod (Some q) in
  [ToCache "pod" (CDelete o); Broadcast {| m_type := "pod"; m_op := "delete"; m_old := Some o; m_new := None |}].
Proof. intros p [|]; reflexivity. Qed.
Print Assumptions C88_deleted.

(** False for pods that are added or updated, although the handler has methods that would: they are told with all their parts. *)
Theorem C88_trim_refuted : exists p m, p_managed p = true /\ In (Broadcast m) (registered "pod" (CAdd (OPod (Some p)))) /\ m_new m = Some (OPod (Some p)).
Proof. exists {| p_name := 1; p_managed := true; p_volumes := true; p_conditions := true |}. eexists. split; [reflexivity|]. split; [right; left; reflexivity|reflexivity]. Qed.
Print Assumptions C88_trim_refuted.

(** False for a client behind a proxy that says so the usual way, in X-Forwarded-For: it has the proxy's name. *)
Definition behind : request := {| q_header := fun n => if eqb n "X-Forwarded-For" then bs "10.0.0.9" else []; q_remote := bs "10.0.0.1:80" |}.
Theorem C88_forwarded_refuted : forall v6, clientName v6 (fun _ => Some (bs "10.0.0.1")) behind = bs "10.0.0.1".
Proof. intros v6. reflexivity. Qed.
Print Assumptions C88_forwarded_refuted.
(** False for a list with blanks after its commas, as proxies write it: an address after a blank is not found. *)
Theorem C88_blank_refuted : forall v6, let q := {| q_header := fun n => if eqb n "X-Forward-For" then bs "unknown, 10.0.0.9" else []; q_remote := bs "10.0.0.1:80" |} in
  isIP v6 (bs "10.0.0.9") = true /\ clientName v6 (fun _ => Some (bs "10.0.0.1")) q = bs "10.0.0.1".
Proof. intros v6. split; reflexivity. Qed.
Print Assumptions C88_blank_refuted.

(** ** A case *)
Definition exPod := {| p_name := 1; p_managed := true; p_volumes := true; p_conditions := true |}.
Definition exHistory := [("pod", CAdd (OPod (Some exPod))); ("node", CAdd (OOther 2)); ("pod", CUpdate (OPod (Some exPod)) (OPod (Some exPod))); ("pod", CDelete (OUnknown (OPod (Some exPod))))].
Example C88_example : Forall (fun x => In (fst x) types) exHistory /\ counter (snd (serve fresh exHistory)) "pod" "delete" = 1 /\ counter (snd (serve fresh exHistory)) "node" "add" = 1 /\
  counter (snd (serve fresh exHistory)) "rs" "add" = 0 /\ List.length (fst (serve fresh exHistory)) = 8%nat /\ getIP (fun _ => []) (fun _ => None) {| q_header := fun n => if eqb n "X-Forward-For" then bs "x,10.1.2.3,10.1.2.4" else []; q_remote := [] |} = Some (bs "10.1.2.3").
Proof. split; [repeat (constructor; [cbn; tauto|]); constructor|]. repeat split; reflexivity. Qed.
