(** C86: data groups do not get into each other's way. *)
From Verif Require Import Base PoolModel GroupModel.
Open Scope string_scope. Open Scope list_scope. Open Scope Z_scope.

(** ** Specification: groups as values *)
(** Name, metrics in order, time stamp *)
Definition contents : Type := string * list (string * mdata) * Z.
(** The first metric of that name gets the value, or there is one more. *)
Fixpoint overwrite (l : list (string * mdata)) (n : string) (v : Z) : list (string * mdata) :=
  match l with [] => [(n, MInt v)] | p :: r => if eqb (fst p) n then (n, MInt v) :: r else p :: overwrite r n v end.
Definition zero (d : mdata) : mdata := match d with MInt _ => MInt 0 | MHist _ _ _ _ => MHist 0 0 [] [] end.
(** What an operation on one group makes of its contents; copying is not one of them. *)
Definition change (o : gop) (c : contents) : contents :=
  let '(name, ms, ts) := c in
  match o with
  | GAddInt _ n v => (name, ms ++ [(n, MInt v)], ts)
  | GAddHist _ n s k b a => (name, ms ++ [(n, MHist s k b a)], ts)
  | GUpdate _ n v => (name, overwrite ms n v, ts)
  | GRemove _ n => (name, filter (fun p => negb (eqb (fst p) n)) ms, ts)
  | GReset _ => ("", map (fun p => (fst p, zero (snd p))) ms, 0)
  | _ => c
  end.
Definition target (o : gop) : option nat :=
  match o with GAddInt i _ _ | GAddHist i _ _ _ _ _ | GUpdate i _ _ | GRemove i _ | GReset i => Some i | _ => None end.
(** A history on values: only the group an operation is for changes. *)
Definition vstep (l : list contents) (o : gop) : option (list contents) :=
  match o with
  | GNew n ts => Some (l ++ [(n, [], ts)])
  | GClone i => match nth_error l i with Some c => Some (l ++ [c]) | None => None end
  | GShare _ _ _ | GBucket _ _ _ _ => None
  | _ => match target o with
         | Some i => match nth_error l i with Some c => Some (firstn i l ++ change o c :: skipn (S i) l) | None => None end
         | None => None
         end
  end.
Fixpoint vrun (l : list contents) (os : list gop) : option (list contents) := match os with [] => Some l | o :: r => match vstep l o with Some l' => vrun l' r | None => None end end.
(** The program hands no metric of one group to another and writes into no slice. *)
Definition plain (o : gop) : Prop := match o with GShare _ _ _ | GBucket _ _ _ _ => False | _ => True end.
Definition views (w : world) : list contents := map (seenGroup w) (w_groups w).

(** ** Proofs *)
Lemma set_nth_split {A} : forall (l : list A) i x y, nth_error l i = Some y -> set_nth l i x = firstn i l ++ x :: skipn (S i) l.
Proof. induction l as [|a l IH]; intros [|i] x y H; try discriminate H; [reflexivity|]. cbn [set_nth firstn skipn app]. f_equal. exact (IH i x y H). Qed.
Lemma nth_set {A} : forall (l : list A) i x j, nth_error (set_nth l i x) j = if Nat.eqb j i then match nth_error l i with Some _ => Some x | None => None end else nth_error l j.
Proof. induction l as [|a l IH]; intros [|i] x [|j]; cbn [set_nth nth_error Nat.eqb]; try reflexivity; [destruct (Nat.eqb j i); reflexivity|apply IH]. Qed.
Lemma map_set {A B} (f : A -> B) : forall l i x, map f (set_nth l i x) = set_nth (map f l) i (f x).
Proof. induction l as [|a l IH]; intros [|i] x; cbn [set_nth map]; try reflexivity. f_equal. apply IH. Qed.
Lemma others {A B} (f f' : A -> B) t : forall l i x, nth_error l i = Some x -> (forall j y, nth_error l j = Some y -> j <> i -> f' y = f y) ->
  set_nth (map f' l) i t = firstn i (map f l) ++ t :: skipn (S i) (map f l).
Proof.
  intros l i x N H. rewrite (set_nth_split _ i t (f' x)) by (rewrite nth_error_map, N; reflexivity). revert i N H. induction l as [|a l IH]; intros [|i] N H; try discriminate N.
  - cbn [map firstn skipn app]. f_equal. apply map_ext_in. intros y K. apply In_nth_error in K. destruct K as (j & K). apply (H (S j) y K). discriminate.
  - cbn [map firstn app]. rewrite (H O a eq_refl ltac:(discriminate)). f_equal. exact (IH i N (fun j y K NE => H (S j) y K ltac:(congruence))).
Qed.
Lemma set_id {A} : forall (l : list A) i x, nth_error l i = Some x -> set_nth l i x = l.
Proof. induction l as [|a l IH]; intros [|i] x H; try discriminate H; [injection H as ->; reflexivity|]. cbn [set_nth]. f_equal. exact (IH i x H). Qed.
Lemma upd_same {A} (f : nat -> A) k x : upd f k x k = x.
Proof. unfold upd. rewrite Nat.eqb_refl. reflexivity. Qed.
Lemma upd_other {A} (f : nat -> A) k x i : i <> k -> upd f k x i = f i.
Proof. unfold upd. intros N. destruct (Nat.eqb_spec i k); [contradiction|reflexivity]. Qed.

(** Cells, values and arrays in use are below the counters, no metric is in two groups or twice in one, and no two metrics share a value. *)
Definition refs (d : value) (a : nat) : Prop := match d with RInt _ => False | RHist _ _ b k => b = Some a \/ k = Some a end.
Record inv (w : world) : Prop := {
  i_cells : forall i g c, nth_error (w_groups w) i = Some g -> In c (r_metrics g) -> (c < w_nc w)%nat;
  i_once : forall i g, nth_error (w_groups w) i = Some g -> NoDup (r_metrics g);
  i_apart : forall i j g g' c, nth_error (w_groups w) i = Some g -> nth_error (w_groups w) j = Some g' -> In c (r_metrics g) -> In c (r_metrics g') -> i = j;
  i_data : forall c, (c < w_nc w)%nat -> (snd (w_cells w c) < w_nd w)%nat;
  i_own : forall c c', (c < w_nc w)%nat -> (c' < w_nc w)%nat -> snd (w_cells w c) = snd (w_cells w c') -> c = c';
  i_arr : forall p a, (p < w_nd w)%nat -> refs (w_data w p) a -> (a < w_na w)%nat }.
(** Nothing that was there is changed. *)
Record ext (w w' : world) : Prop := {
  e_nc : (w_nc w <= w_nc w')%nat; e_nd : (w_nd w <= w_nd w')%nat; e_na : (w_na w <= w_na w')%nat;
  e_cells : forall c, (c < w_nc w)%nat -> w_cells w' c = w_cells w c;
  e_data : forall p, (p < w_nd w)%nat -> w_data w' p = w_data w p;
  e_arr : forall a, (a < w_na w)%nat -> w_arr w' a = w_arr w a;
  e_groups : w_groups w' = w_groups w }.
Lemma ext_refl w : ext w w.
Proof. constructor; intros; first [reflexivity|lia]. Qed.
Lemma ext_trans a b c : ext a b -> ext b c -> ext a c.
Proof.
  intros [A1 A2 A3 A4 A5 A6 A7] [B1 B2 B3 B4 B5 B6 B7]. constructor; intros; try lia; [rewrite B4 by lia; apply A4; assumption|rewrite B5 by lia; apply A5; assumption|rewrite B6 by lia; apply A6; assumption|congruence].
Qed.
Lemma seen_arr w w' p : (forall a, refs (w_data w p) a -> w_arr w' a = w_arr w a) -> w_data w' p = w_data w p -> seen w' p = seen w p.
Proof.
  intros A D. unfold seen. rewrite D. destruct (w_data w p) as [v|s k b a]; [reflexivity|]. unfold sliceOf. cbn [refs] in A.
  destruct b as [b|], a as [a|]; rewrite ?A; auto.
Qed.
Lemma ext_seen w w' c : inv w -> ext w w' -> (c < w_nc w)%nat -> seenMetric w' c = seenMetric w c.
Proof.
  intros I E L. unfold seenMetric. rewrite (e_cells _ _ E c L). f_equal. apply seen_arr; [|apply (e_data _ _ E), (i_data _ I _ L)].
  intros a R. apply (e_arr _ _ E). exact (i_arr _ I _ _ (i_data _ I _ L) R).
Qed.
Lemma seenGroup_ext w w' g : (forall c, In c (r_metrics g) -> seenMetric w' c = seenMetric w c) -> seenGroup w' g = seenGroup w g.
Proof. intros H. unfold seenGroup. f_equal. f_equal. apply map_ext_in. exact H. Qed.

(** A new metric *)
Lemma newMetric_ok w n d w' c : inv w -> (forall a, refs d a -> (a < w_na w)%nat) -> newMetric w n d = (w', c) ->
  ext w w' /\ inv w' /\ (w_nc w <= c < w_nc w')%nat /\ w_nc w' = S (w_nc w) /\ w_arr w' = w_arr w /\ w_na w' = w_na w /\ seenMetric w' c = (n, match d with RInt v => MInt v | RHist s k b a => MHist s k (sliceOf w b) (sliceOf w a) end).
Proof.
  intros I R H. unfold newMetric, newData in H. cbn in H. injection H as <- <-. destruct I as [I1 I2 I3 I4 I5 I6].
  split; [constructor; cbn; intros; try lia; try reflexivity; apply upd_other; lia|].
  split.
  { constructor; cbn; intros.
    - pose proof (I1 _ _ _ H H0). lia.
    - exact (I2 _ _ H).
    - exact (I3 _ _ _ _ _ H H0 H1 H2).
    - unfold upd. destruct (Nat.eqb_spec c (w_nc w)); [cbn; lia|]. pose proof (I4 c ltac:(lia)). lia.
    - unfold upd in H1. destruct (Nat.eqb_spec c (w_nc w)), (Nat.eqb_spec c' (w_nc w)); [congruence| | |apply I5; [lia|lia|exact H1]]; cbn in H1.
      + pose proof (I4 c' ltac:(lia)). lia.
      + pose proof (I4 c ltac:(lia)). lia.
    - unfold upd in H0. destruct (Nat.eqb_spec p (w_nd w)); [exact (R _ H0)|]. apply (I6 p); [lia|exact H0]. }
  cbn. split; [lia|]. split; [reflexivity|]. split; [reflexivity|]. split; [reflexivity|]. unfold seenMetric, seen. cbn. rewrite upd_same. cbn. rewrite upd_same. destruct d; reflexivity.
Qed.
Lemma filter_seen w n l : filter (fun p => negb (eqb (fst p) n)) (map (seenMetric w) l) = map (seenMetric w) (filter (fun c => negb (eqb (fst (w_cells w c)) n)) l).
Proof. induction l as [|c l IH]; [reflexivity|]. cbn [map filter]. change (fst (seenMetric w c)) with (fst (w_cells w c)). destruct (negb (eqb (fst (w_cells w c)) n)); cbn [map]; rewrite IH; reflexivity. Qed.
Lemma norefs v n a : refs (RInt v) a -> (a < n)%nat.
Proof. intros []. Qed.
(** Groups changed in an extension of the heap *)
Lemma add_ok w w1 i g c : inv w -> ext w w1 -> inv w1 -> (w_nc w <= c < w_nc w1)%nat -> nth_error (w_groups w) i = Some g ->
  inv (setGroup w1 i (addMetric g c)) /\
  views (setGroup w1 i (addMetric g c)) = firstn i (views w) ++ (r_name g, map (seenMetric w) (r_metrics g) ++ [seenMetric w1 c], r_ts g) :: skipn (S i) (views w).
Proof.
  intros I E I1 L G. pose proof (e_groups _ _ E) as EG. split.
  - destruct I1 as [A1 A2 A3 A4 A5 A6]. constructor; cbn; [| | |exact A4|exact A5|exact A6].
    + intros j g' c' H K. rewrite nth_set, EG, G in H. destruct (Nat.eqb j i); [injection H as <-; cbn in K; apply in_app_iff in K; destruct K as [K|[<-|[]]]; [|lia]|].
      * rewrite EG in A1. exact (A1 _ _ _ G K).
      * rewrite EG in A1. exact (A1 _ _ _ H K).
    + intros j g' H. rewrite nth_set, EG, G in H. destruct (Nat.eqb j i).
      * injection H as <-. cbn. rewrite EG in A2. pose proof (A2 _ _ G) as ND. clear -ND I G L. assert (N : ~ In c (r_metrics g)) by (intros K; pose proof (i_cells _ I _ _ _ G K); lia).
        induction (r_metrics g) as [|x l IH]; cbn [app]; [repeat constructor; intros []|]. inversion ND; subst. constructor; [|apply IH; [assumption|intros K; apply N; right; exact K]].
        intros K. apply in_app_iff in K. destruct K as [K|[->|[]]]; [contradiction|]. apply N. left. reflexivity.
      * rewrite EG in A2. exact (A2 _ _ H).
    + assert (NEW : forall j g', nth_error (w_groups w) j = Some g' -> ~ In c (r_metrics g')) by (intros j g' H K; pose proof (i_cells _ I _ _ _ H K); lia).
      intros j k g1 g2 c' H1 H2 K1 K2. rewrite nth_set, EG, G in H1, H2. rewrite EG in A3.
      destruct (Nat.eqb_spec j i) as [->|Nj], (Nat.eqb_spec k i) as [->|Nk]; [reflexivity| | |exact (A3 _ _ _ _ _ H1 H2 K1 K2)].
      * injection H1 as <-. cbn in K1. apply in_app_iff in K1. destruct K1 as [K1|[<-|[]]]; [exact (A3 _ _ _ _ _ G H2 K1 K2)|destruct (NEW _ _ H2 K2)].
      * injection H2 as <-. cbn in K2. apply in_app_iff in K2. destruct K2 as [K2|[<-|[]]]; [exact (A3 _ _ _ _ _ H1 G K1 K2)|destruct (NEW _ _ H1 K1)].
  - unfold views, setGroup. cbn. rewrite EG.
    assert (V : forall g', seenGroup (withGroups w1 (set_nth (w_groups w) i (addMetric g c))) g' = seenGroup w1 g') by reflexivity.
    rewrite (map_ext _ _ V), map_set.
    assert (X : map (seenGroup w1) (w_groups w) = map (seenGroup w) (w_groups w)).
    { apply map_ext_in. intros g' K. apply In_nth_error in K. destruct K as (j & K). apply seenGroup_ext. intros c' M. apply ext_seen; [exact I|exact E|exact (i_cells _ I _ _ _ K M)]. }
    assert (TG : seenGroup w1 (addMetric g c) = (r_name g, map (seenMetric w) (r_metrics g) ++ [seenMetric w1 c], r_ts g)).
    { unfold seenGroup, addMetric. cbn [r_name r_metrics r_ts]. rewrite map_app. cbn [map]. rewrite (map_ext_in (seenMetric w1) (seenMetric w)); [reflexivity|].
      intros c' M. apply ext_seen; [exact I|exact E|exact (i_cells _ I _ _ _ G M)]. }
    rewrite X, TG. eapply set_nth_split. rewrite nth_error_map, G. reflexivity.
Qed.
Lemma newArr_ok w l w' a : inv w -> newArr w l = (w', a) -> ext w w' /\ inv w' /\ (a < w_na w')%nat /\ w_na w' = S (w_na w) /\ w_arr w' a = l /\ a = w_na w.
Proof.
  intros [I1 I2 I3 I4 I5 I6] H. unfold newArr in H. injection H as <- <-. split; [constructor; cbn; intros; try lia; try reflexivity; apply upd_other; lia|].
  split; [constructor; cbn; try assumption; intros p a L R; pose proof (I6 p a L R); lia|]. cbn. rewrite upd_same. repeat split; lia.
Qed.
Lemma nth_views w i g : nth_error (w_groups w) i = Some g -> nth_error (views w) i = Some (seenGroup w g).
Proof. intros G. unfold views. rewrite nth_error_map, G. reflexivity. Qed.
Lemma find_first {A} (f : A -> bool) l x : find f l = Some x -> exists a b, l = a ++ x :: b /\ Forall (fun y => f y = false) a /\ f x = true.
Proof.
  induction l as [|y l IH]; cbn [find]; [discriminate|]. destruct (f y) eqn:E; intros H.
  - injection H as ->. exists [], l. repeat split; [constructor|exact E].
  - destruct (IH H) as (a & b & -> & F & T). exists (y :: a), b. repeat split; [constructor; assumption|exact T].
Qed.
Lemma overwrite_at a p b n v : Forall (fun q => eqb (fst q) n = false) a -> fst p = n -> overwrite (a ++ p :: b) n v = a ++ (n, MInt v) :: b.
Proof. intros F E. induction a as [|q a IH]; cbn [app overwrite]; [rewrite E, eqb_refl; reflexivity|]. inversion F as [|? ? F1 F2]; subst. rewrite F1, IH by exact F2. reflexivity. Qed.
Lemma overwrite_new l n v : Forall (fun q => eqb (fst q) n = false) l -> overwrite l n v = l ++ [(n, MInt v)].
Proof. induction l as [|q l IH]; intros F; [reflexivity|]. inversion F as [|? ? F1 F2]; subst. cbn [overwrite app]. rewrite F1, IH by exact F2. reflexivity. Qed.

(** Clearing the metrics of a list *)
Lemma clear_cells cs : forall w, w_cells (fold_left clear cs w) = w_cells w /\ w_arr (fold_left clear cs w) = w_arr w /\ w_nc (fold_left clear cs w) = w_nc w /\ w_nd (fold_left clear cs w) = w_nd w /\
  w_na (fold_left clear cs w) = w_na w /\ w_groups (fold_left clear cs w) = w_groups w.
Proof. induction cs as [|c cs IH]; intros w; [repeat split|]. cbn [fold_left]. destruct (IH (clear w c)) as (A & B & C & D & E & F). rewrite A, B, C, D, E, F. repeat split. Qed.
Definition cleared (d : value) : value := match d with RInt _ => RInt 0 | RHist _ _ _ _ => RHist 0 0 None None end.
Lemma clear_data cs : forall w p, w_data (fold_left clear cs w) p = if existsb (fun c => Nat.eqb (snd (w_cells w c)) p) cs then cleared (w_data w p) else w_data w p.
Proof.
  induction cs as [|c cs IH]; intros w p; [reflexivity|]. cbn [fold_left existsb]. rewrite IH. cbn [clear withData w_cells w_data]. unfold upd. rewrite (Nat.eqb_sym p).
  destruct (Nat.eqb_spec (snd (w_cells w c)) p) as [E|E]; cbn [orb]; [|reflexivity]. rewrite E. fold (cleared (w_data w p)). destruct (existsb _ cs); [|reflexivity]. destruct (w_data w p); reflexivity.
Qed.
(** Cloning the metrics of a list *)
Lemma cloneAll_ok cs : forall w w' cs', inv w -> (forall c, In c cs -> (c < w_nc w)%nat) -> cloneAll w cs = (w', cs') ->
  ext w w' /\ inv w' /\ NoDup cs' /\ (forall c, In c cs' -> (w_nc w <= c < w_nc w')%nat) /\ map (seenMetric w') cs' = map (seenMetric w) cs.
Proof.
  induction cs as [|c cs IH]; intros w w' cs' I L H; cbn [cloneAll] in H.
  - injection H as <- <-. split; [apply ext_refl|]. split; [exact I|]. split; [constructor|]. split; [intros c []|reflexivity].
  - unfold cloneMetric in H. destruct (newMetric w (fst (w_cells w c)) (w_data w (snd (w_cells w c)))) as [w1 c1] eqn:N.
    assert (Lc : (c < w_nc w)%nat) by (apply L; left; reflexivity).
    destruct (newMetric_ok _ _ _ _ _ I (fun a R => i_arr _ I _ a (i_data _ I c Lc) R) N) as (E1 & I1 & B & NC & AR & _ & V).
    destruct (cloneAll w1 cs) as [w2 r] eqn:C. injection H as <- <-. destruct (IH w1 w2 r I1 (fun x K => Nat.lt_le_trans _ _ _ (L x (or_intror K)) (e_nc _ _ E1)) C) as (E2 & I2 & ND & RG & M).
    split; [exact (ext_trans _ _ _ E1 E2)|]. split; [exact I2|]. split; [constructor; [|exact ND]; intros K; pose proof (RG _ K); lia|]. pose proof (e_nc _ _ E1). pose proof (e_nc _ _ E2).
    split; [intros x [<-|K]; [lia|pose proof (RG _ K); lia]|]. cbn [map]. f_equal.
    + rewrite (ext_seen w1 w2 c1 I1 E2) by lia. rewrite V. unfold seenMetric, seen. destruct (w_data w (snd (w_cells w c))); reflexivity.
    + rewrite M. apply map_ext_in. intros x K. apply (ext_seen w w1 x I E1). apply L. right. exact K.
Qed.

Lemma step_ok w o : inv w -> plain o ->
  match gstep w o with Some w' => inv w' /\ vstep (views w) o = Some (views w') | None => vstep (views w) o = None end.
Proof.
  intros I P.
  assert (NO : forall i, nth_error (w_groups w) i = None -> nth_error (views w) i = None) by (intros i H; unfold views; rewrite nth_error_map, H; reflexivity).
  destruct o as [n ts|i n v|i n s k b a|i n v|i n|i|i|i j n|i n k v]; try destruct P; cbn [gstep vstep target].
  - (* GNew *) split.
    + destruct I as [I1 I2 I3 I4 I5 I6]. constructor; cbn; try assumption.
      * intros i g c H K. destruct (Nat.lt_ge_cases i (List.length (w_groups w))); [rewrite nth_error_app1 in H by assumption; exact (I1 _ _ _ H K)|].
        rewrite nth_error_app2 in H by assumption. destruct (i - List.length (w_groups w))%nat as [|q]; [injection H as <-; destruct K|destruct q; discriminate H].
      * intros i g H. destruct (Nat.lt_ge_cases i (List.length (w_groups w))); [rewrite nth_error_app1 in H by assumption; exact (I2 _ _ H)|].
        rewrite nth_error_app2 in H by assumption. destruct (i - List.length (w_groups w))%nat as [|q]; [injection H as <-; constructor|destruct q; discriminate H].
      * assert (X : forall i g c, nth_error (w_groups w ++ [{| r_name := n; r_metrics := []; r_ts := ts |}]) i = Some g -> In c (r_metrics g) -> nth_error (w_groups w) i = Some g).
        { intros i g c H K. destruct (Nat.lt_ge_cases i (List.length (w_groups w))); [rewrite nth_error_app1 in H by assumption; exact H|].
          rewrite nth_error_app2 in H by assumption. destruct (i - List.length (w_groups w))%nat as [|q]; [injection H as <-; destruct K|destruct q; discriminate H]. }
        intros i j g g' c H1 H2 K1 K2. exact (I3 _ _ _ _ _ (X _ _ _ H1 K1) (X _ _ _ H2 K2) K1 K2).
    + unfold views. cbn. rewrite map_app. reflexivity.
  - (* GAddInt *) destruct (nth_error (w_groups w) i) as [g|] eqn:G; [|rewrite (NO _ G); reflexivity]. rewrite (nth_views _ _ _ G). destruct (newMetric w n (RInt v)) as [w1 c] eqn:N.
    destruct (newMetric_ok _ _ _ _ _ I (norefs v _) N) as (E & I1 & B & _ & _ & _ & V). destruct (add_ok w w1 i g c I E I1 B G) as (A1 & A2). split; [exact A1|]. rewrite A2, V. reflexivity.
  - (* GAddHist *) destruct (nth_error (w_groups w) i) as [g|] eqn:G; [|rewrite (NO _ G); reflexivity]. rewrite (nth_views _ _ _ G).
    destruct (newArr w b) as [w1 pb] eqn:N1. destruct (newArr_ok _ _ _ _ I N1) as (E1 & I1 & B1 & L1 & R1 & Q1). destruct (newArr w1 a) as [w2 pa] eqn:N2. destruct (newArr_ok _ _ _ _ I1 N2) as (E2 & I2 & B2 & L2 & R2 & Q2).
    destruct (newMetric w2 n (RHist s k (Some pb) (Some pa))) as [w3 c] eqn:N3.
    assert (RF : forall x, refs (RHist s k (Some pb) (Some pa)) x -> (x < w_na w2)%nat) by (intros x [X|X]; injection X as <-; lia).
    destruct (newMetric_ok _ _ _ _ _ I2 RF N3) as (E3 & I3 & B3 & _ & _ & _ & V).
    assert (NC : w_nc w2 = w_nc w) by (unfold newArr in N1, N2; injection N1 as <- _; injection N2 as <- _; reflexivity). rewrite NC in B3.
    destruct (add_ok w w3 i g c I (ext_trans _ _ _ E1 (ext_trans _ _ _ E2 E3)) I3 B3 G) as (A1 & A2). split; [exact A1|]. rewrite A2, V. cbn [sliceOf]. rewrite R2, (e_arr _ _ E2 pb B1), R1. reflexivity.
  - (* GUpdate *) destruct (nth_error (w_groups w) i) as [g|] eqn:G; [|rewrite (NO _ G); reflexivity]. rewrite (nth_views _ _ _ G). destruct (getMetric w g n) as [c|] eqn:GM.
    + apply find_first in GM. destruct GM as (a & b & EQ & F & T). apply eqb_true in T.
      assert (Lc : (c < w_nc w)%nat) by (apply (i_cells _ I i g); [exact G|rewrite EQ; apply in_app_iff; right; left; reflexivity]).
      cbn [newData]. set (w1 := withCells _ _).
      assert (SO : forall x, (x < w_nc w)%nat -> x <> c -> seenMetric w1 x = seenMetric w x).
      { intros x L N. unfold seenMetric, w1. cbn. rewrite upd_other by exact N. f_equal. apply seen_arr; cbn; [reflexivity|]. apply upd_other. pose proof (i_data _ I x L). lia. }
      assert (SC : seenMetric w1 c = (n, MInt v)). { unfold seenMetric, w1, seen. cbn. rewrite upd_same. cbn. rewrite upd_same, T. reflexivity. }
      split.
      * destruct I as [I1 I2 I3 I4 I5 I6]. constructor; cbn; try assumption.
        -- intros x L. unfold upd. destruct (Nat.eqb x c); cbn; [lia|]. pose proof (I4 x L). lia.
        -- intros x y Lx Ly. unfold upd. destruct (Nat.eqb_spec x c), (Nat.eqb_spec y c); cbn; intros H; [congruence|pose proof (I4 y Ly); lia|pose proof (I4 x Lx); lia|exact (I5 x y Lx Ly H)].
        -- intros p q L R. unfold upd in R. destruct (Nat.eqb_spec p (w_nd w)); [destruct R|]. apply (I6 p q); [lia|exact R].
      * f_equal. unfold views. change (w_groups w1) with (w_groups w).
        assert (OT : forall j g', nth_error (w_groups w) j = Some g' -> j <> i -> seenGroup w1 g' = seenGroup w g').
        { intros j g' H N. apply seenGroup_ext. intros x K. apply SO; [exact (i_cells _ I _ _ _ H K)|]. intros ->. apply N. apply (i_apart _ I j i g' g c); [exact H|exact G|exact K|]. rewrite EQ. apply in_app_iff. right. left. reflexivity. }
        assert (TG : seenGroup w1 g = change (GUpdate i n v) (seenGroup w g)).
        { unfold seenGroup, change. f_equal. f_equal. rewrite EQ, !map_app. cbn [map]. rewrite overwrite_at; [|rewrite Forall_map; exact F|exact T]. pose proof (i_once _ I _ _ G) as ND. rewrite EQ in ND.
          assert (DJ : forall x, In x a \/ In x b -> x <> c) by (intros x [K|K] ->; apply NoDup_remove_2 in ND; apply ND; apply in_app_iff; auto).
          rewrite SC. f_equal; [|f_equal]; apply map_ext_in; intros x K; apply SO; auto; apply (i_cells _ I i g); try exact G; rewrite EQ; apply in_app_iff; cbn; auto. }
        rewrite <- TG, <- (others _ (seenGroup w1) _ _ _ _ G OT). apply set_id. rewrite nth_error_map, G. reflexivity.
    + assert (F : Forall (fun q => eqb (fst q) n = false) (map (seenMetric w) (r_metrics g))). { apply Forall_map, Forall_forall. intros c K. exact (find_none _ _ GM c K). }
      destruct (newMetric w n (RInt v)) as [w1 c] eqn:N. destruct (newMetric_ok _ _ _ _ _ I (norefs v _) N) as (E & I1 & B & _ & _ & _ & V).
      destruct (add_ok w w1 i g c I E I1 B G) as (A1 & A2). split; [exact A1|]. rewrite A2, V. unfold seenGroup, change. rewrite (overwrite_new _ _ _ F). reflexivity.
  - (* GRemove *) destruct (nth_error (w_groups w) i) as [g|] eqn:G; [|rewrite (NO _ G); reflexivity]. rewrite (nth_views _ _ _ G). set (g2 := {| r_name := _; r_metrics := _; r_ts := _ |}).
    assert (SUB : forall c, In c (r_metrics g2) -> In c (r_metrics g)) by (intros c K; cbn in K; apply filter_In in K; tauto). split.
    + destruct I as [I1 I2 I3 I4 I5 I6]. constructor; cbn; try assumption.
      * intros j g' c H K. rewrite nth_set, G in H. destruct (Nat.eqb j i); [injection H as <-; exact (I1 _ _ _ G (SUB _ K))|exact (I1 _ _ _ H K)].
      * intros j g' H. rewrite nth_set, G in H. destruct (Nat.eqb j i); [injection H as <-; apply NoDup_filter; exact (I2 _ _ G)|exact (I2 _ _ H)].
      * intros j k g1 g3 c H1 H2 K1 K2. rewrite nth_set, G in H1, H2. destruct (Nat.eqb_spec j i) as [->|Nj], (Nat.eqb_spec k i) as [->|Nk]; [reflexivity| | |exact (I3 _ _ _ _ _ H1 H2 K1 K2)].
        -- injection H1 as <-. exact (I3 _ _ _ _ _ G H2 (SUB _ K1) K2).
        -- injection H2 as <-. exact (I3 _ _ _ _ _ H1 G K1 (SUB _ K2)).
    + f_equal. change (views (setGroup w i g2)) with (map (seenGroup w) (set_nth (w_groups w) i g2)). unfold views. rewrite map_set.
      assert (TG : seenGroup w g2 = change (GRemove i n) (seenGroup w g)).
      { unfold seenGroup, change, g2. cbn [r_name r_metrics r_ts]. replace (map (seenMetric w) (filter _ (r_metrics g))) with (filter (fun p => negb (eqb (fst p) n)) (map (seenMetric w) (r_metrics g))); [reflexivity|].
        apply filter_seen. }
      rewrite TG. symmetry. eapply set_nth_split. rewrite nth_error_map, G. reflexivity.
  - (* GReset *) destruct (nth_error (w_groups w) i) as [g|] eqn:G; [|rewrite (NO _ G); reflexivity]. rewrite (nth_views _ _ _ G). set (g2 := {| r_name := _; r_metrics := _; r_ts := _ |}).
    destruct (clear_cells (r_metrics g) w) as (C1 & C2 & C3 & C4 & C5 & C6). pose proof (clear_data (r_metrics g) w) as CD. set (wc := fold_left clear (r_metrics g) w) in *.
    assert (SO : forall x, (x < w_nc w)%nat -> ~ In x (r_metrics g) -> seenMetric wc x = seenMetric w x).
    { intros x L N. unfold seenMetric, seen. rewrite C1, CD. match goal with |- context [existsb ?f ?l] => replace (existsb f l) with false end; [unfold sliceOf; rewrite C2; reflexivity|]. symmetry. apply not_true_iff_false. intros X.
      apply existsb_exists in X. destruct X as (c & K & X). apply Nat.eqb_eq in X. apply N. replace x with c; [exact K|]. apply (i_own _ I); [exact (i_cells _ I _ _ _ G K)|exact L|exact X]. }
    assert (SC : forall x, In x (r_metrics g) -> seenMetric wc x = (fst (seenMetric w x), zero (snd (seenMetric w x)))).
    { intros x K. unfold seenMetric, seen. cbn [fst snd]. rewrite C1, CD. match goal with |- context [existsb ?f ?l] => replace (existsb f l) with true end; [destruct (w_data w (snd (w_cells w x))); reflexivity|]. symmetry. apply existsb_exists. exists x. split; [exact K|apply Nat.eqb_refl]. }
    split.
    + destruct I as [I1 I2 I3 I4 I5 I6]. constructor; cbn; rewrite ?C1, ?C3, ?C4, ?C5, ?C6; try assumption.
      * intros j g' c H K. rewrite nth_set, G in H. destruct (Nat.eqb j i); [injection H as <-; exact (I1 _ _ _ G K)|exact (I1 _ _ _ H K)].
      * intros j g' H. rewrite nth_set, G in H. destruct (Nat.eqb j i); [injection H as <-; exact (I2 _ _ G)|exact (I2 _ _ H)].
      * intros j k g1 g3 c H1 H2 K1 K2. rewrite nth_set, G in H1, H2. destruct (Nat.eqb_spec j i) as [->|Nj], (Nat.eqb_spec k i) as [->|Nk]; [reflexivity| | |exact (I3 _ _ _ _ _ H1 H2 K1 K2)].
        -- injection H1 as <-. exact (I3 _ _ _ _ _ G H2 K1 K2).
        -- injection H2 as <-. exact (I3 _ _ _ _ _ H1 G K1 K2).
      * intros p a L R. rewrite CD in R. apply (I6 p a L). destruct (existsb _ _); [|exact R]. destruct (w_data w p); cbn in R; [destruct R|]. destruct R as [R|R]; discriminate R.
    + f_equal. unfold views, setGroup. cbn. rewrite C6. assert (V : forall g', seenGroup (withGroups wc (set_nth (w_groups w) i g2)) g' = seenGroup wc g') by reflexivity. rewrite (map_ext _ _ V).
      assert (OT : forall j g', nth_error (w_groups w) j = Some g' -> j <> i -> seenGroup wc g' = seenGroup w g').
      { intros j g' H N. apply seenGroup_ext. intros x K. apply SO; [exact (i_cells _ I _ _ _ H K)|]. intros K'. apply N. exact (i_apart _ I _ _ _ _ _ H G K K'). }
      assert (TG : seenGroup wc g2 = change (GReset i) (seenGroup w g)). { unfold seenGroup, change, g2. cbn. do 2 f_equal. rewrite map_map. apply map_ext_in. exact SC. }
      rewrite map_set, TG, (others _ _ _ _ _ _ G OT). reflexivity.
  - (* GClone *) destruct (nth_error (w_groups w) i) as [g|] eqn:G; [|rewrite (NO _ G); reflexivity]. rewrite (nth_views _ _ _ G). destruct (cloneAll w (r_metrics g)) as [w1 cs] eqn:C.
    destruct (cloneAll_ok _ _ _ _ I (fun c K => i_cells _ I _ _ c G K) C) as (E & I1 & ND & RG & M). pose proof (e_groups _ _ E) as EG. set (g2 := {| r_name := _; r_metrics := cs; r_ts := _ |}).
    assert (X : forall j g', nth_error (w_groups w ++ [g2]) j = Some g' -> nth_error (w_groups w) j = Some g' \/ (j = List.length (w_groups w) /\ g' = g2)).
    { intros j g' H. destruct (Nat.lt_ge_cases j (List.length (w_groups w))); [rewrite nth_error_app1 in H by assumption; left; exact H|]. rewrite nth_error_app2 in H by assumption.
      destruct (j - List.length (w_groups w))%nat as [|q] eqn:Q; [injection H as <-; right; split; [lia|reflexivity]|destruct q; discriminate H]. }
    split.
    + destruct I1 as [A1 A2 A3 A4 A5 A6]. rewrite EG in A1, A2, A3. constructor; cbn; rewrite ?EG; try assumption.
      * intros j g' c H K. destruct (X _ _ H) as [H'|[-> ->]]; [exact (A1 _ _ _ H' K)|]. cbn in K. apply RG in K. lia.
      * intros j g' H. destruct (X _ _ H) as [H'|[-> ->]]; [exact (A2 _ _ H')|exact ND].
      * intros j k g1 g3 c H1 H2 K1 K2. destruct (X _ _ H1) as [H1'|[-> ->]], (X _ _ H2) as [H2'|[-> ->]]; [exact (A3 _ _ _ _ _ H1' H2' K1 K2)| | |reflexivity]; exfalso.
        -- cbn in K2. apply RG in K2. pose proof (i_cells _ I _ _ _ H1' K1). lia.
        -- cbn in K1. apply RG in K1. pose proof (i_cells _ I _ _ _ H2' K2). lia.
    + f_equal. unfold views. cbn. rewrite EG, map_app. cbn [map]. f_equal.
      * apply map_ext_in. intros g' K. apply In_nth_error in K. destruct K as (j & K). symmetry. apply (seenGroup_ext w w1). intros c Q. apply (ext_seen w w1 c I E). exact (i_cells _ I _ _ _ K Q).
      * f_equal. unfold seenGroup, g2. cbn. do 2 f_equal. symmetry. exact M.
Qed.
Lemma start_inv : inv start.
Proof. constructor; cbn; intros; try lia; destruct i; discriminate. Qed.

(** ** Theorems *)
(** Groups behave as values: whatever a program does with its groups through their methods, each of them shows what the operations on it alone make of it, and a
    clone what its original showed when it was cloned. *)
Theorem C86_values : forall os, Forall plain os ->
  match grun start os with Some w => vrun [] os = Some (views w) | None => vrun [] os = None end.
Proof.
  assert (G : forall os w, inv w -> Forall plain os -> match grun w os with Some w' => vrun (views w) os = Some (views w') | None => vrun (views w) os = None end).
  { induction os as [|o os IH]; intros w I F; [reflexivity|]. inversion F as [|? ? F1 F2]; subst. cbn [grun vrun]. pose proof (step_ok w o I F1) as S. destruct (gstep w o) as [w1|].
    - destruct S as (I1 & ->). exact (IH w1 I1 F2).
    - rewrite S. reflexivity. }
  intros os F. exact (G os start start_inv F).
Qed.
Print Assumptions C86_values.

(** After a clone, nothing done to the original (or to any other group) changes the clone, and nothing done to the clone changes the original. *)
Theorem C86_clone : forall os i w os' w', Forall plain os -> Forall plain os' -> grun start (os ++ [GClone i]) = Some w -> grun w os' = Some w' ->
  exists c, nth_error (views w) i = Some c /\ nth_error (views w) (List.length (w_groups w) - 1) = Some c /\
    (Forall (fun o => target o <> Some (List.length (w_groups w) - 1)%nat) os' -> nth_error (views w') (List.length (w_groups w) - 1) = Some c) /\
    (Forall (fun o => target o <> Some i) os' -> nth_error (views w') i = Some c).
Proof.
  intros os i w os' w' F F' R R'. assert (FC : Forall plain (os ++ [GClone i])) by (apply Forall_app; split; [exact F|repeat constructor]).
  pose proof (C86_values (os ++ [GClone i]) FC) as V. rewrite R in V.
  pose proof (C86_values ((os ++ [GClone i]) ++ os') ltac:(apply Forall_app; split; assumption)) as V'.
  assert (GA : forall a b x, grun x (a ++ b) = match grun x a with Some y => grun y b | None => None end). { induction a as [|o a IH]; intros b x; [reflexivity|]. cbn [app grun]. destruct (gstep x o); [apply IH|reflexivity]. }
  assert (VA : forall a b x, vrun x (a ++ b) = match vrun x a with Some y => vrun y b | None => None end). { induction a as [|o a IH]; intros b x; [reflexivity|]. cbn [app vrun]. destruct (vstep x o); [apply IH|reflexivity]. }
  rewrite GA, R, R', VA, V in V'. rewrite VA in V. destruct (vrun [] os) as [l|]; [|discriminate V]. cbn [vrun vstep] in V. destruct (nth_error l i) as [c|] eqn:N; [|discriminate V]. injection V as V.
  assert (LEN : List.length (w_groups w) = S (List.length l)). { pose proof (f_equal (@List.length _) V) as E. unfold views in E. rewrite map_length, app_length in E. cbn in E. lia. }
  assert (LI : (i < List.length l)%nat) by (apply nth_error_Some; congruence).
  assert (K1 : nth_error (views w) i = Some c) by (rewrite <- V, nth_error_app1 by exact LI; exact N).
  assert (K2 : nth_error (views w) (List.length (w_groups w) - 1) = Some c) by (rewrite <- V, LEN, nth_error_app2 by lia; replace (S (List.length l) - 1 - List.length l)%nat with O by lia; reflexivity).
  assert (KEEP : forall j x, nth_error (views w) j = Some x -> Forall (fun o => target o <> Some j) os' -> nth_error (views w') j = Some x).
  { intros j x. clear -V'. revert V'. generalize (views w) as a. generalize (views w') as b. induction os' as [|o os' IH]; intros b a V' NJ FA; cbn [vrun] in V'; [injection V' as <-; exact NJ|].
    inversion FA as [|? ? T FA']; subst. destruct (vstep a o) as [a1|] eqn:SS; [|discriminate V']. apply (IH b a1 V'); [|exact FA'].
    assert (AP : forall t, nth_error (a ++ t) j = Some x) by (intros t; rewrite nth_error_app1; [exact NJ|apply nth_error_Some; congruence]).
    assert (MID : forall q y, q <> j -> (q < List.length a)%nat -> nth_error (firstn q a ++ y :: skipn (S q) a) j = Some x).
    { intros q y NE LQ. destruct (nth_error a q) as [z|] eqn:Z; [|apply nth_error_None in Z; lia]. rewrite <- (set_nth_split a q y z Z), nth_set. destruct (Nat.eqb_spec j q); [congruence|exact NJ]. }
    destruct o as [n ts|q n v|q n s k b0 a0|q n v|q n|q|q|q r n|q n k v]; cbn [vstep target] in SS, T; try discriminate SS.
    - injection SS as <-. apply AP.
    - destruct (nth_error a q) as [z|] eqn:Z; [|discriminate SS]. injection SS as <-. apply MID; [congruence|apply nth_error_Some; congruence].
    - destruct (nth_error a q) as [z|] eqn:Z; [|discriminate SS]. injection SS as <-. apply MID; [congruence|apply nth_error_Some; congruence].
    - destruct (nth_error a q) as [z|] eqn:Z; [|discriminate SS]. injection SS as <-. apply MID; [congruence|apply nth_error_Some; congruence].
    - destruct (nth_error a q) as [z|] eqn:Z; [|discriminate SS]. injection SS as <-. apply MID; [congruence|apply nth_error_Some; congruence].
    - destruct (nth_error a q) as [z|] eqn:Z; [|discriminate SS]. injection SS as <-. apply MID; [congruence|apply nth_error_Some; congruence].
    - destruct (nth_error a q) as [z|] eqn:Z; [|discriminate SS]. injection SS as <-. apply AP. }
  exists c. split; [exact K1|]. split; [exact K2|]. split; intros FA; apply KEEP; assumption.
Qed.
Print Assumptions C86_clone.

(** False once a metric of one group is added to another: resetting one group for the pool clears it in the other. *)
Theorem C86_shared_metric_refuted : exists os, os = [GNew "a" 1; GNew "b" 2; GAddInt 0 "x" 5; GShare 1 0 "x"; GReset 0] /\ option_map views (grun start os) = Some [("", [("x", MInt 0)], 0); ("b", [("x", MInt 0)], 2)].
Proof. eexists. split; [reflexivity|]. vm_compute. reflexivity. Qed.
Print Assumptions C86_shared_metric_refuted.
(** False for the buckets of a histogram: the clone's are the original's, so a bucket written through one is written in the other. *)
Theorem C86_buckets_refuted : exists os, os = [GNew "a" 1; GAddHist 0 "h" 9 2 [10] [1; 1]; GClone 0; GBucket 1 "h" 0 7] /\
  option_map views (grun start os) = Some [("a", [("h", MHist 9 2 [10] [7; 1])], 1); ("a", [("h", MHist 9 2 [10] [7; 1])], 1)].
Proof. eexists. split; [reflexivity|]. vm_compute. reflexivity. Qed.
Print Assumptions C86_buckets_refuted.

(** ** A case *)
Definition exOps := [GNew "a" 1; GAddInt 0 "x" 5; GAddHist 0 "h" 9 2 [10] [1; 1]; GClone 0; GUpdate 1 "x" 8; GReset 0; GAddInt 0 "y" 1; GRemove 0 "x"].
Example C86_example : Forall plain exOps /\ option_map views (grun start exOps) = Some [("", [("h", MHist 0 0 [] []); ("y", MInt 1)], 0); ("a", [("x", MInt 8); ("h", MHist 9 2 [10] [1; 1])], 1)].
Proof. split; [repeat constructor|]. vm_compute. reflexivity. Qed.
