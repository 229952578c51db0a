(** Lemmas about the way of the slow outgoing calls. *)
From Coq Require Import Lia.
From Verif Require Import Base CallModel CallSpec.
Open Scope list_scope. Open Scope nat_scope.

Lemma put_same {A} : forall (l : list A) i x y, nth_error l i = Some y -> nth_error (put l i x) i = Some x.
Proof. induction l as [|z l IH]; intros [|i] x y H; cbn [nth_error put] in *; try discriminate; [reflexivity|]. apply (IH i x y H). Qed.
Lemma put_other {A} : forall (l : list A) i j x, i <> j -> nth_error (put l i x) j = nth_error l j.
Proof. induction l as [|z l IH]; intros [|i] [|j] x N; cbn [nth_error put]; try reflexivity; try congruence. apply IH. congruence. Qed.
Lemma put_length {A} : forall (l : list A) i x, List.length (put l i x) = List.length l.
Proof. induction l as [|z l IH]; intros [|i] x; cbn [put List.length]; try reflexivity. rewrite IH. reflexivity. Qed.
Lemma put_flat {A B} (dec : forall a b : B, {a = b} + {a <> b}) (f : A -> list B) : forall (l : list A) i x y b, nth_error l i = Some y ->
  count_occ dec (flat_map f (put l i x)) b + count_occ dec (f y) b = count_occ dec (flat_map f l) b + count_occ dec (f x) b.
Proof.
  induction l as [|z l IH]; intros [|i] x y b H; cbn [nth_error put flat_map] in *; try discriminate.
  - injection H as ->. rewrite !count_occ_app. lia.
  - rewrite !count_occ_app. specialize (IH i x y b H). lia.
Qed.
Lemma nth_split_last {A} (l : list A) x : nth_error (l ++ [x]) (List.length l) = Some x.
Proof. rewrite nth_error_app2 by lia. rewrite Nat.sub_diag. reflexivity. Qed.

Lemma crun_app cap : forall h1 h2 s s', crun cap (h1 ++ h2) s = Some s' -> exists m, crun cap h1 s = Some m /\ crun cap h2 m = Some s'.
Proof.
  induction h1 as [|o h1 IH]; intros h2 s s' R; cbn [app crun] in *; [exists s; split; [reflexivity|exact R]|].
  destruct (cdo cap o s) as [m|]; [|discriminate]. apply (IH h2 m s' R).
Qed.
Lemma crun_join cap : forall h1 h2 s m s', crun cap h1 s = Some m -> crun cap h2 m = Some s' -> crun cap (h1 ++ h2) s = Some s'.
Proof.
  induction h1 as [|o h1 IH]; intros h2 s m s' R1 R2; cbn [app crun] in *; [injection R1 as <-; exact R2|].
  destruct (cdo cap o s) as [m'|]; [|discriminate]. apply (IH h2 m' m s' R1 R2).
Qed.

(** one step, spelled out *)
Ltac dostep H :=
  unfold cdo in H;
  repeat match type of H with
  | match ?x with _ => _ end = Some _ => let E := fresh "E" in destruct x eqn:E; try discriminate H
  | (if ?x then _ else _) = Some _ => let E := fresh "E" in destruct x eqn:E; try discriminate H
  end;
  try (injection H as <-).

(** ** every call is in one place *)
Definition ofSender (x : spos) : list call := match x with SIdle => [] | SChecked c => [c] | SSending c _ => [c] end.
Definition ofReader (x : rpos) : list call := match x with RGot c => [c] | _ => [] end.
Definition places (s : cst) : list call := flat_map ofSender (c_send s) ++ flat_map (fun q => q) (c_chans s) ++ flat_map ofReader (c_rd s) ++ c_ring s.
Notation occ := (count_occ call_dec).

Lemma occ_cons x l c : occ (x :: l) c = (occ [x] c + occ l c)%nat.
Proof. change (x :: l) with ([x] ++ l). apply count_occ_app. Qed.
Lemma occ_places s c : occ (places s) c = (occ (flat_map ofSender (c_send s)) c + occ (flat_map (fun q => q) (c_chans s)) c + occ (flat_map ofReader (c_rd s)) c + occ (c_ring s) c)%nat.
Proof. unfold places. rewrite !count_occ_app. lia. Qed.

Ltac puts c :=
  repeat match goal with
  | E : nth_error ?l ?i = Some ?y |- context [flat_map ?f (put ?l ?i ?x)] =>
      let P := fresh "P" in pose proof (put_flat call_dec f l i x y c E) as P;
      let v := fresh "v" in remember (occ (flat_map f (put l i x)) c) as v
  end.

Lemma places_step cap o s s' c : cdo cap o s = Some s' -> (occ (places s') c <= occ (places s) c + occ (arrived1 o) c)%nat.
Proof.
  intros H. rewrite !occ_places. destruct o; dostep H.
  all: cbn [arrived1 c_send c_chans c_rd c_ring c_phase setPhase setChans setSend setRd addRing] in *.
  all: rewrite ?flat_map_app, ?count_occ_app; cbn [flat_map app].
  all: try match goal with |- context [enabled ?s] => destruct (enabled s) end.
  all: cbn [arrived1 c_send c_chans c_rd c_ring c_phase setPhase setChans setSend setRd addRing] in *.
  all: puts c.
  all: cbn [ofSender ofReader flat_map app] in *.
  all: rewrite ?count_occ_app in *.
  all: change (occ [] c) with 0%nat in *.
  all: unfold call in *.
  all: try lia.
  all: match goal with Q : _ = Some (?x :: ?q) |- context [count_occ _ (c_ring _) ?z] => pose proof (occ_cons x q z) as OC end; unfold call in *; lia.
Qed.

Lemma places_run cap : forall h s s' c, crun cap h s = Some s' -> (occ (places s') c <= occ (places s) c + occ (arrived h) c)%nat.
Proof.
  induction h as [|o h IH]; intros s s' c R; cbn [crun] in R; [injection R as <-; cbn; lia|].
  destruct (cdo cap o s) as [m|] eqn:D; [|discriminate]. specialize (IH m s' c R). pose proof (places_step cap o s m c D) as P.
  unfold arrived in *. cbn [flat_map]. rewrite count_occ_app. lia.
Qed.

Lemma places_0 n c : occ (places (c0 n)) c = 0%nat.
Proof. unfold places, c0. cbn. rewrite !app_nil_r. induction n as [|n IH]; [reflexivity|]. exact IH. Qed.

(** ** what is on its way stays on its way while the session is on *)
Definition liveS (g : nat) (x : spos) : list call := match x with SIdle => [] | SChecked c => [c] | SSending c g' => if Nat.eqb g' g then [c] else [] end.
Definition now (s : cst) : list call := nth (cur s) (c_chans s) [].
Definition live (s : cst) : list call := flat_map (liveS (cur s)) (c_send s) ++ now s ++ flat_map ofReader (c_rd s) ++ c_ring s.

Lemma occ_live s c : occ (live s) c = (occ (flat_map (liveS (cur s)) (c_send s)) c + occ (now s) c + occ (flat_map ofReader (c_rd s)) c + occ (c_ring s) c)%nat.
Proof. unfold live. rewrite !count_occ_app. lia. Qed.

Lemma nth_put {A} (l : list A) g x y d m : nth_error l g = Some y -> nth m (put l g x) d = if Nat.eqb g m then x else nth m l d.
Proof.
  intros E. destruct (Nat.eqb_spec g m) as [<-|N].
  - apply nth_error_nth, (put_same l g x y E).
  - destruct (nth_error l m) as [z|] eqn:Z.
    + rewrite (nth_error_nth l m d Z). apply nth_error_nth. rewrite (put_other l g m x N). exact Z.
    + rewrite !nth_overflow; [reflexivity|apply nth_error_None, Z|]. rewrite put_length. apply nth_error_None, Z.
Qed.

Lemma cur_setSend s i x : cur (setSend s i x) = cur s. Proof. reflexivity. Qed.
Lemma cur_setRd s i x : cur (setRd s i x) = cur s. Proof. reflexivity. Qed.
Lemma cur_addRing s c : cur (addRing s c) = cur s. Proof. reflexivity. Qed.
Lemma cur_put s g x : cur (setChans s (put (c_chans s) g x)) = cur s.
Proof. unfold cur. cbn [c_chans setChans]. rewrite put_length. reflexivity. Qed.

Lemma on_step cap o s s' : cdo cap o s = Some s' -> c_phase s = POn -> o <> KStop -> c_phase s' = POn /\ cur s' = cur s /\ c_sess s' = c_sess s.
Proof.
  intros H On N. unfold cur. destruct o; dostep H; try congruence.
  all: cbn [c_phase c_chans c_sess setPhase setChans setSend setRd addRing]; rewrite ?put_length; repeat split; try assumption.
  all: destruct (enabled s); repeat split; try assumption.
Qed.

Ltac nowput s :=
  match goal with E : nth_error (c_chans s) ?g = Some ?q |- context [nth (cur s) (put (c_chans s) ?g ?x) []] =>
    rewrite (nth_put (c_chans s) g x q [] (cur s) E);
    let D := fresh "D" in destruct (Nat.eqb_spec g (cur s)) as [D|D];
      [let K := fresh "K" in pose proof (nth_error_nth (c_chans s) (cur s) [] (eq_trans (f_equal _ (eq_sym D)) E)) as K; rewrite K|] end.
Ltac eqs s :=
  match goal with
  | D : ?g = cur s, P : context [if Nat.eqb ?g (cur s) then _ else _] |- _ => rewrite D, Nat.eqb_refl in P
  | D : ?g <> cur s, P : context [if Nat.eqb ?g (cur s) then _ else _] |- _ => rewrite (proj2 (Nat.eqb_neq g (cur s)) D) in P
  end.

Lemma live_step cap o s s' c : cdo cap o s = Some s' -> c_phase s = POn -> o <> KStop -> (occ (live s) c + occ (arrived1 o) c <= occ (live s') c)%nat.
Proof.
  intros H On N. destruct (on_step cap o s s' H On N) as (_ & C & _). rewrite !occ_live. unfold now. rewrite C. clear C.
  destruct o; dostep H; try congruence.
  all: cbn [arrived1 c_send c_chans c_rd c_ring c_phase setPhase setChans setSend setRd addRing] in *.
  all: try (unfold enabled; rewrite On); cbn [c_send c_chans c_rd c_ring setSend].
  all: try nowput s.
  all: puts c.
  all: cbn [liveS ofReader] in *.
  all: rewrite ?Nat.eqb_refl in *.
  all: try eqs s.
  all: rewrite ?count_occ_app in *.
  all: change (occ [] c) with 0%nat in *.
  all: try (match goal with Q : _ = Some (?x :: ?q) |- context [count_occ _ (c_ring _) ?z] => pose proof (occ_cons x q z) as OC end).
  all: unfold call in *.
  all: try lia.
Qed.

Lemma live_run cap : forall h s s' c, crun cap h s = Some s' -> c_phase s = POn -> ~ In KStop h -> c_phase s' = POn /\ (occ (live s) c + occ (arrived h) c <= occ (live s') c)%nat.
Proof.
  induction h as [|o h IH]; intros s s' c R On N; cbn [crun] in R; [injection R as <-; cbn; split; [exact On|lia]|].
  destruct (cdo cap o s) as [m|] eqn:D; [|discriminate].
  assert (No : o <> KStop) by (intros ->; apply N; left; reflexivity).
  destruct (on_step cap o s m D On No) as (Om & _). pose proof (live_step cap o s m c D On No) as P.
  destruct (IH m s' c R Om) as (O' & Q); [intros X; apply N; right; exact X|]. split; [exact O'|].
  unfold arrived in *. cbn [flat_map]. rewrite count_occ_app. lia.
Qed.

Lemma chans_nonempty cap : forall h s s', crun cap h s = Some s' -> c_chans s <> [] -> c_chans s' <> [].
Proof.
  induction h as [|o h IH]; intros s s' R N; cbn [crun] in R; [injection R as <-; exact N|].
  destruct (cdo cap o s) as [m|] eqn:D; [|discriminate]. apply (IH m s' R). clear IH R. intros X. apply N.
  assert (Z : forall g x, put (c_chans s) g x = [] -> c_chans s = []) by (intros g x; destruct (c_chans s), g; cbn [put]; congruence).
  assert (Y : forall x : list call, c_chans s ++ [x] <> []) by (intros x; destruct (c_chans s); discriminate).
  destruct o; dostep D; cbn [c_chans setPhase setChans setSend setRd addRing] in *; try (apply Z in X); try (apply Y in X; contradiction); try exact X.
  destruct (enabled s); exact X.
Qed.

Lemma live_onItsWay s c : c_chans s <> [] -> (In c (live s) <-> onItsWay s c \/ In c (c_ring s)).
Proof.
  intros NE. unfold live, onItsWay. rewrite !in_app_iff, !in_flat_map. split.
  - intros [(x & I1 & I2)|[I1|[(x & I1 & I2)|I1]]].
    + apply In_nth_error in I1. destruct I1 as [i I1]. destruct x as [|c'|c' g]; cbn [liveS] in I2; [destruct I2| |].
      * destruct I2 as [<-|[]]. left. left. exists i. exact I1.
      * destruct (Nat.eqb_spec g (cur s)) as [->|]; [|destruct I2]. destruct I2 as [<-|[]]. left. right. left. exists i. exact I1.
    + left. right. right. left. unfold now in I1.
      assert (L : (cur s < List.length (c_chans s))%nat) by (unfold cur; destruct (c_chans s); [congruence|cbn; lia]).
      exists (nth (cur s) (c_chans s) []). split; [apply nth_error_nth'; exact L|exact I1].
    + apply In_nth_error in I1. destruct I1 as [i I1]. destruct x as [|g k|c'|]; cbn [ofReader] in I2; try destruct I2 as [].
      * left. right. right. right. exists i. destruct H as []. exact I1.
      * destruct H.
    + right. exact I1.
  - intros [[(i & E)|[(i & E)|[(q & E & I1)|(j & E)]]]|I1].
    + left. exists (SChecked c). split; [apply (nth_error_In _ _ E)|left; reflexivity].
    + left. exists (SSending c (cur s)). split; [apply (nth_error_In _ _ E)|]. cbn [liveS]. rewrite Nat.eqb_refl. left. reflexivity.
    + right. left. unfold now. rewrite (nth_error_nth _ _ [] E). exact I1.
    + right. right. left. exists (RGot c). split; [apply (nth_error_In _ _ E)|left; reflexivity].
    + right. right. right. exact I1.
Qed.

(** ** the reader of the session that is on *)
Definition liveR (s : cst) (r : rpos) : Prop := match r with RHead => True | RSel g k => g = cur s /\ k = c_sess s | RGot _ => True | REnd => False end.
Definition hasReader (s : cst) : Prop := c_phase s = POn -> exists j r, nth_error (c_rd s) j = Some r /\ liveR s r.

Lemma liveR_eq s s' r : cur s' = cur s -> c_sess s' = c_sess s -> liveR s r -> liveR s' r.
Proof. intros A B. unfold liveR. rewrite A, B. exact (fun x => x). Qed.

Lemma hasReader_step cap o s s' : cdo cap o s = Some s' -> hasReader s -> hasReader s'.
Proof.
  intros H I On'. destruct (c_phase s) eqn:Ph.
  1,2,5: exfalso; destruct o; dostep H; cbn [c_phase setPhase setChans setSend setRd addRing] in *; try congruence; destruct (enabled s); cbn [c_phase setSend] in *; congruence.
  - (* only KStart3 leads to POn *)
    destruct o; dostep H; cbn [c_phase setPhase setChans setSend setRd addRing] in *; try congruence; try (destruct (enabled s); cbn [c_phase setSend] in *; congruence).
    exists (List.length (c_rd s)), RHead. split; [apply nth_split_last|exact Logic.I].
  - assert (N : o <> KStop) by (intros ->; unfold cdo in H; rewrite Ph in H; injection H as <-; discriminate On').
    destruct (on_step cap o s s' H Ph N) as (_ & C & K). destruct (I Ph) as (j & r & E & L).
    assert (L' : liveR s' r) by (apply (liveR_eq s s' r C K L)).
    destruct o; dostep H; cbn [c_phase c_rd setPhase setChans setSend setRd addRing] in *; try congruence;
      try (exists j, r; split; [assumption|assumption]).
    + exists j, r. split; [|exact L']. destruct (enabled s); exact E.
    + destruct (Nat.eq_dec j0 j) as [->|D].
      * exists j, (RSel (cur s) (c_sess s)). split; [eapply put_same; eassumption|]. split; reflexivity.
      * exists j, r. split; [rewrite put_other by exact D; exact E|exact L'].
    + destruct (Nat.eq_dec j0 j) as [->|D].
      * exists j, (RGot c). split; [eapply put_same; eassumption|exact Logic.I].
      * exists j, r. split; [rewrite put_other by exact D; exact E|exact L'].
    + destruct (Nat.eq_dec j0 j) as [->|D].
      * exists j, RHead. split; [eapply put_same; eassumption|exact Logic.I].
      * exists j, r. split; [rewrite put_other by exact D; exact E|exact L'].
    + destruct (Nat.eq_dec j0 j) as [->|D].
      * exfalso. match goal with A : nth_error (c_rd s) j = Some (RSel ?g ?k) |- _ => rewrite A in E; injection E as <- end.
        destruct L as [_ ->]. unfold closed in *. rewrite Ph, Nat.eqb_refl in *. discriminate.
      * exists j, r. split; [rewrite put_other by exact D; exact E|exact L'].
Qed.

Lemma hasReader_run cap : forall h s s', crun cap h s = Some s' -> hasReader s -> hasReader s'.
Proof.
  induction h as [|o h IH]; intros s s' R I; cbn [crun] in R; [injection R as <-; exact I|].
  destruct (cdo cap o s) as [m|] eqn:D; [|discriminate]. apply (IH m s' R). apply (hasReader_step cap o s m D I).
Qed.

(** ** everything on its way can arrive *)
Definition wS (g : nat) (x : spos) : nat := match x with SIdle => 0 | SChecked _ => 5 | SSending _ g' => if Nat.eqb g' g then 4 else 0 end.
Definition wR (x : rpos) : nat := match x with RHead => 1 | RGot _ => 2 | _ => 0 end.
Definition sumOf {A} (f : A -> nat) (l : list A) : nat := fold_right (fun x n => f x + n)%nat 0%nat l.
Definition weight (s : cst) : nat := (sumOf (wS (cur s)) (c_send s) + 3 * List.length (now s) + sumOf wR (c_rd s))%nat.

Lemma sum_put {A} (f : A -> nat) : forall l i x y, nth_error l i = Some y -> (sumOf f (put l i x) + f y = sumOf f l + f x)%nat.
Proof.
  induction l as [|z l IH]; intros [|i] x y H; cbn [nth_error put sumOf fold_right] in *; try discriminate.
  - injection H as ->. lia.
  - specialize (IH i x y H). unfold sumOf in IH. lia.
Qed.

Definition quiet (s : cst) : Prop := forall c, ~ onItsWay s c.

Lemma find_nth {A} (f : A -> bool) (l : list A) : (exists i x, nth_error l i = Some x /\ f x = true) \/ (forall i x, nth_error l i = Some x -> f x = false).
Proof.
  destruct (existsb f l) eqn:E.
  - left. apply existsb_exists in E. destruct E as (x & I & F). apply In_nth_error in I. destruct I as [i I]. exists i, x. split; assumption.
  - right. intros i x N. destruct (f x) eqn:F; [|reflexivity]. assert (existsb f l = true) by (apply existsb_exists; exists x; split; [apply (nth_error_In _ _ N)|exact F]). congruence.
Qed.

Lemma progress cap s : (0 < cap)%nat -> c_phase s = POn -> hasReader s -> c_chans s <> [] -> quiet s \/ exists o s', ofGoroutines o /\ cdo cap o s = Some s' /\ (weight s' < weight s)%nat.
Proof.
  intros Cap On HR NE. assert (L : (cur s < List.length (c_chans s))%nat) by (unfold cur; destruct (c_chans s); [congruence|cbn; lia]).
  destruct (find_nth (fun r => match r with RGot _ => true | _ => false end) (c_rd s)) as [(j & r & E & F)|F1].
  { right. destruct r as [|? ?|c|]; try discriminate. exists (KRPut j). eexists. split; [exact Logic.I|]. split.
    - unfold cdo. rewrite E, On. reflexivity.
    - unfold weight, now. rewrite cur_addRing, cur_setRd. cbn [c_send c_chans c_rd addRing setRd]. pose proof (sum_put wR (c_rd s) j RHead (RGot c) E) as P. cbn [wR] in P. lia. }
  destruct (find_nth (fun r => match r with RHead => true | _ => false end) (c_rd s)) as [(j & r & E & F)|F2].
  { right. destruct r; try discriminate. exists (KREval j). eexists. split; [exact Logic.I|]. split.
    - unfold cdo. rewrite E. reflexivity.
    - unfold weight, now. rewrite cur_setRd. cbn [c_send c_chans c_rd setRd]. pose proof (sum_put wR (c_rd s) j (RSel (cur s) (c_sess s)) RHead E) as P. cbn [wR] in P. lia. }
  destruct (HR On) as (j & r & E & LR). destruct r as [|g k|c|].
  { specialize (F2 _ _ E). discriminate. }
  2:{ specialize (F1 _ _ E). discriminate. }
  2:{ destruct LR. }
  destruct LR as [-> ->].
  pose proof (nth_error_nth' (c_chans s) [] L) as Q. fold (now s) in Q.
  destruct (now s) as [|c q] eqn:Nw.
  2:{ right. exists (KRTake j). eexists. split; [exact Logic.I|]. split.
      - unfold cdo. rewrite E, Q. reflexivity.
      - unfold weight, now. cbn [c_send c_chans c_rd setRd setChans].
        change (cur (setChans (setRd s j (RGot c)) (put (c_chans s) (cur s) q))) with (pred (List.length (put (c_chans s) (cur s) q))).
        rewrite put_length. fold (cur s). rewrite (nth_put (c_chans s) (cur s) q (c :: q) [] (cur s) Q), Nat.eqb_refl.
        pose proof (sum_put wR (c_rd s) j (RGot c) (RSel (cur s) (c_sess s)) E) as P. cbn [wR] in P. rewrite (nth_error_nth (c_chans s) (cur s) [] Q). cbn [List.length]. lia. }
  destruct (find_nth (fun x => match x with SChecked _ => true | _ => false end) (c_send s)) as [(i & x & Ei & F)|F3].
  { right. destruct x; try discriminate. exists (KEval i). eexists. split; [exact Logic.I|]. split.
    - unfold cdo. rewrite Ei. reflexivity.
    - unfold weight, now. rewrite cur_setSend. cbn [c_send c_chans c_rd setSend]. pose proof (sum_put (wS (cur s)) (c_send s) i (SSending c (cur s)) (SChecked c) Ei) as P.
      cbn [wS] in P. rewrite Nat.eqb_refl in P. lia. }
  destruct (find_nth (fun x => match x with SSending _ g => Nat.eqb g (cur s) | _ => false end) (c_send s)) as [(i & x & Ei & F)|F4].
  { right. destruct x as [| |c g]; try discriminate. apply Nat.eqb_eq in F. subst g. exists (KPut i). eexists. split; [exact Logic.I|]. split.
    - unfold cdo. rewrite Ei, Q. destruct (Nat.ltb_spec (List.length (@nil call)) cap) as [|X]; [reflexivity|cbn in X; lia].
    - unfold weight, now. change (cur (setChans (setSend s i SIdle) (put (c_chans s) (cur s) ([] ++ [c])))) with (pred (List.length (put (c_chans s) (cur s) ([] ++ [c])))).
      rewrite put_length. fold (cur s). cbn [c_send c_chans c_rd setSend setChans app]. rewrite (nth_put (c_chans s) (cur s) [c] [] [] (cur s) Q), Nat.eqb_refl.
      pose proof (sum_put (wS (cur s)) (c_send s) i SIdle (SSending c (cur s)) Ei) as P. cbn [wS] in P. rewrite Nat.eqb_refl in P. fold (now s). rewrite Nw. cbn [List.length]. lia. }
  left. intros c [(i & A)|[(i & A)|[(q & A & B)|(i & A)]]].
  - specialize (F3 _ _ A). discriminate.
  - specialize (F4 _ _ A). cbn beta iota in F4. rewrite Nat.eqb_refl in F4. discriminate.
  - rewrite Q in A. injection A as <-. destruct B.
  - specialize (F1 _ _ A). discriminate.
Qed.

Lemma ofGoroutines_noStop o : ofGoroutines o -> o <> KStop.
Proof. intros O ->. exact O. Qed.

Lemma can_be_quiet cap : (0 < cap)%nat -> forall n s, (weight s <= n)%nat -> c_phase s = POn -> hasReader s -> c_chans s <> [] ->
  exists h s', Forall ofGoroutines h /\ crun cap h s = Some s' /\ quiet s' /\ c_phase s' = POn.
Proof.
  intros Cap. induction n as [|n IH]; intros s W On HR NE.
  - destruct (progress cap s Cap On HR NE) as [Q|(o & s' & O & D & L)]; [|lia]. exists [], s. repeat split; try assumption. constructor.
  - destruct (progress cap s Cap On HR NE) as [Q|(o & s1 & O & D & L)]; [exists [], s; repeat split; try assumption; constructor|].
    destruct (on_step cap o s s1 D On (ofGoroutines_noStop o O)) as (On1 & _). pose proof (hasReader_step cap o s s1 D HR) as HR1.
    assert (NE1 : c_chans s1 <> []) by (apply (chans_nonempty cap [o] s s1); [cbn [crun]; rewrite D; reflexivity|exact NE]).
    destruct (IH s1 ltac:(lia) On1 HR1 NE1) as (h & s' & F & R & Q & O'). exists (o :: h), s'. split; [constructor; assumption|]. split; [cbn [crun]; rewrite D; exact R|]. split; assumption.
Qed.

(** ** a full channel that nobody reads stays full *)
Definition abandoned (cap : nat) (s : cst) (g : nat) : Prop :=
  (g < cur s)%nat /\ (exists q, nth_error (c_chans s) g = Some q /\ (cap <= List.length q)%nat) /\ forall j k, nth_error (c_rd s) j <> Some (RSel g k).

Lemma abandoned_step cap o s s' g : cdo cap o s = Some s' -> abandoned cap s g -> abandoned cap s' g /\ forall i c, nth_error (c_send s) i = Some (SSending c g) -> nth_error (c_send s') i = Some (SSending c g).
Proof.
  intros H (Lt & (q & Q & Full) & NR).
  assert (App : forall x, nth_error (c_chans s ++ [x]) g = Some q) by (intros x; rewrite nth_error_app1; [exact Q|apply nth_error_Some; congruence]).
  unfold abandoned, cur in *. destruct o; dostep H; cbn [c_phase c_chans c_send c_rd setPhase setChans setSend setRd addRing].
  - split; [|intros i c A; exact A]. split; [rewrite app_length; cbn; lia|]. split; [exists q; split; [apply App|exact Full]|exact NR].
  - split; [|intros i c A; exact A]. split; [exact Lt|]. split; [exists q; split; assumption|exact NR].
  - split; [|intros i c A; exact A]. split; [exact Lt|]. split; [exists q; split; assumption|].
    intros j k A. destruct (Nat.lt_ge_cases j (List.length (c_rd s))) as [X|X]; [rewrite nth_error_app1 in A by exact X; exact (NR j k A)|].
    rewrite nth_error_app2 in A by exact X. destruct (j - List.length (c_rd s))%nat as [|z]; [discriminate|destruct z; discriminate].
  - split; [|intros i c A; exact A]. split; [exact Lt|]. split; [exists q; split; assumption|exact NR].
  - split; [|intros i c A; exact A]. split; [rewrite app_length; cbn; lia|]. split; [exists q; split; [apply App|exact Full]|exact NR].
  - destruct (enabled s); cbn [c_chans c_send c_rd setSend].
    + split; [split; [exact Lt|split; [exists q; split; assumption|exact NR]]|]. intros i0 c A. destruct (Nat.eq_dec i i0) as [->|D]; [congruence|rewrite put_other by exact D; exact A].
    + split; [split; [exact Lt|split; [exists q; split; assumption|exact NR]]|]. intros i0 c A. exact A.
  - split; [split; [exact Lt|split; [exists q; split; assumption|exact NR]]|]. intros i0 c' A. destruct (Nat.eq_dec i i0) as [->|D]; [congruence|rewrite put_other by exact D; exact A].
  - apply Nat.ltb_lt in E2. rewrite put_length. split.
    + split; [exact Lt|]. split; [|exact NR]. exists q. split; [|exact Full]. rewrite put_other; [exact Q|]. intros ->. rewrite Q in E1. injection E1 as <-. lia.
    + intros i0 c' A. destruct (Nat.eq_dec i i0) as [->|D].
      * exfalso. rewrite E in A. injection A as -> ->. rewrite Q in E1. injection E1 as <-. lia.
      * rewrite put_other by exact D. exact A.
  - split; [|intros i c A; exact A]. split; [exact Lt|]. split; [exists q; split; assumption|].
    intros j0 k A. destruct (Nat.eq_dec j j0) as [->|D]; [|rewrite put_other in A by exact D; exact (NR j0 k A)].
    rewrite (put_same _ _ _ _ E) in A. injection A as A _. unfold cur in A. lia.
  - rewrite put_length. assert (D : g0 <> g) by (intros ->; exact (NR _ _ E)). split; [|intros i c' A; exact A]. split; [exact Lt|].
    split; [exists q; split; [rewrite put_other by exact D; exact Q|exact Full]|].
    intros j0 k0 A. destruct (Nat.eq_dec j j0) as [->|D']; [|rewrite put_other in A by exact D'; exact (NR j0 k0 A)].
    rewrite (put_same _ _ _ _ E) in A. discriminate.
  - split; [|intros i c' A; exact A]. split; [exact Lt|]. split; [exists q; split; assumption|].
    intros j0 k A. destruct (Nat.eq_dec j j0) as [->|D]; [|rewrite put_other in A by exact D; exact (NR j0 k A)].
    rewrite (put_same _ _ _ _ E) in A. discriminate.
  - split; [|intros i c' A; exact A]. split; [exact Lt|]. split; [exists q; split; assumption|].
    intros j0 k A. destruct (Nat.eq_dec j j0) as [->|D]; [|rewrite put_other in A by exact D; exact (NR j0 k A)].
    rewrite (put_same _ _ _ _ E) in A. discriminate.
  - split; [|intros i c' A; exact A]. split; [exact Lt|]. split; [exists q; split; assumption|].
    intros j0 k A. destruct (Nat.eq_dec j j0) as [->|D]; [|rewrite put_other in A by exact D; exact (NR j0 k A)].
    rewrite (put_same _ _ _ _ E) in A. discriminate.
  - split; [|intros i c' A; exact A]. split; [exact Lt|]. split; [exists q; split; assumption|].
    intros j0 k A. destruct (Nat.eq_dec j j0) as [->|D]; [|rewrite put_other in A by exact D; exact (NR j0 k A)].
    rewrite (put_same _ _ _ _ E) in A. discriminate.
  - split; [|intros i c' A; exact A]. split; [exact Lt|]. split; [exists q; split; assumption|].
    intros j0 k0 A. destruct (Nat.eq_dec j j0) as [->|D]; [|rewrite put_other in A by exact D; exact (NR j0 k0 A)].
    rewrite (put_same _ _ _ _ E) in A. discriminate.
Qed.

Lemma abandoned_run cap g i c : forall h s s', crun cap h s = Some s' -> abandoned cap s g -> nth_error (c_send s) i = Some (SSending c g) -> nth_error (c_send s') i = Some (SSending c g).
Proof.
  induction h as [|o h IH]; intros s s' R A N; cbn [crun] in R; [injection R as <-; exact N|].
  destruct (cdo cap o s) as [m|] eqn:D; [|discriminate]. destruct (abandoned_step cap o s m g D A) as (A' & K). exact (IH m s' R A' (K i c N)).
Qed.

(** ** one session: the calls of a goroutine stay in order *)
Definition before (s : cst) : Prop :=
  (c_phase s = POff \/ c_phase s = POpening \/ c_phase s = POpen) /\ (forall i x, nth_error (c_send s) i = Some x -> x = SIdle) /\ c_rd s = [] /\ c_ring s = [] /\
  (forall g q, nth_error (c_chans s) g = Some q -> q = []) /\ c_chans s <> [].

Definition pend (x : option spos) : list call := match x with Some y => ofSender y | None => [] end.
Definition own (s : cst) : Prop := forall i x, nth_error (c_send s) i = Some x ->
  match x with SIdle => True | SChecked c => fst c = i | SSending c g => fst c = i /\ g = cur s end.
Definition ordered (i : nat) (s : cst) (acc : list call) : Prop :=
  c_phase s = POn /\ c_chans s <> [] /\ own s /\ exists r, c_rd s = [r] /\ match r with RSel g _ => g = cur s | _ => True end /\
  acc = reports i (c_ring s ++ ofReader r ++ now s) ++ pend (nth_error (c_send s) i).

Lemma reports_app i a b : reports i (a ++ b) = reports i a ++ reports i b.
Proof. apply filter_app. Qed.

Lemma now_nth s q : c_chans s <> [] -> nth_error (c_chans s) (cur s) = Some q -> now s = q.
Proof. intros _ E. apply nth_error_nth, E. Qed.

Lemma own_put s i x : own s -> (match x with SIdle => True | SChecked c => fst c = i | SSending c g => fst c = i /\ g = cur s end) -> own (setSend s i x).
Proof.
  intros O Hx i' y N. cbn [c_send setSend] in N. destruct (Nat.eq_dec i i') as [<-|D].
  - destruct (nth_error (c_send s) i) as [z|] eqn:Z.
    + rewrite (put_same _ _ _ _ Z) in N. injection N as <-. exact Hx.
    + assert (nth_error (put (c_send s) i x) i = None) by (apply nth_error_None; rewrite put_length; apply nth_error_None, Z). congruence.
  - rewrite (put_other _ _ _ _ D) in N. exact (O i' y N).
Qed.

Lemma ordered_step cap o i s s' acc : cdo cap o s = Some s' -> o <> KStop -> ordered i s acc -> ordered i s' (acc ++ reports i (arrived1 o)).
Proof.
  intros H N (On & NE & O & r & Rd & Rok & Acc). destruct (on_step cap o s s' H On N) as (On' & C & K).
  assert (NE' : c_chans s' <> []) by (apply (chans_nonempty cap [o] s s'); [cbn [crun]; rewrite H; reflexivity|exact NE]).
  split; [exact On'|]. split; [exact NE'|].
  assert (One : forall j x, nth_error (c_rd s) j = Some x -> j = 0%nat /\ x = r).
  { intros j x E. rewrite Rd in E. destruct j as [|[|j]]; [injection E as <-; split; reflexivity|discriminate|destruct j; discriminate]. }
  destruct o; dostep H; try congruence; cbn [arrived1].
  - (* KRecv *)
    unfold enabled. rewrite On. split; [apply (own_put s i0 (SChecked (i0, id)) O); reflexivity|]. exists r. split; [exact Rd|]. split; [exact Rok|].
    cbn [c_ring c_send setSend]. change (now (setSend s i0 (SChecked (i0, id)))) with (now s). rewrite Acc. unfold reports at 2. cbn [filter]. unfold isBy at 1. cbn [fst].
    destruct (Nat.eqb_spec i0 i) as [->|D].
    + rewrite (put_same _ _ _ _ E), E. cbn [pend ofSender]. rewrite app_nil_r. reflexivity.
    + rewrite (put_other _ _ _ _ D). rewrite app_nil_r. reflexivity.
  - (* KEval *)
    split; [apply (own_put s i0 (SSending c (cur s)) O); split; [exact (O _ _ E)|reflexivity]|]. exists r. split; [exact Rd|]. split; [exact Rok|].
    cbn [c_ring c_send setSend]. change (now (setSend s i0 (SSending c (cur s)))) with (now s). rewrite Acc, app_nil_r. f_equal.
    destruct (Nat.eq_dec i0 i) as [->|D]; [rewrite (put_same _ _ _ _ E), E; reflexivity|rewrite (put_other _ _ _ _ D); reflexivity].
  - (* KPut *)
    destruct (O _ _ E) as [Fc ->].
    assert (Nw : now s = l) by (apply now_nth; assumption).
    assert (Nw' : now (setChans (setSend s i0 SIdle) (put (c_chans s) (cur s) (l ++ [c]))) = l ++ [c]).
    { unfold now. rewrite C. cbn [c_chans setChans]. rewrite (nth_put (c_chans s) (cur s) (l ++ [c]) l [] (cur s) E1), Nat.eqb_refl. reflexivity. }
    split.
    { intros i' y Ny. cbn [c_send setSend setChans] in Ny. pose proof (own_put s i0 SIdle O Logic.I i' y Ny) as X. destruct y; try exact X. rewrite C. exact X. }
    exists r. split; [exact Rd|]. split; [rewrite C; exact Rok|]. rewrite Nw'. cbn [c_ring c_send setSend setChans]. rewrite Acc, Nw, app_nil_r.
    destruct (Nat.eq_dec i0 i) as [->|D].
    + rewrite (put_same _ _ _ _ E), E. cbn [pend ofSender]. rewrite app_nil_r, !reports_app, <- !app_assoc. do 3 f_equal. unfold reports. cbn [filter isBy]. unfold isBy. rewrite (proj2 (Nat.eqb_eq _ _) Fc). reflexivity.
    + rewrite (put_other _ _ _ _ D). f_equal. rewrite !reports_app. do 2 f_equal. unfold reports at 3. cbn [filter]. unfold isBy at 1.
      destruct (Nat.eqb_spec (fst c) i) as [X|]; [congruence|]. rewrite app_nil_r. reflexivity.
  - (* KREval *)
    destruct (One _ _ E) as [-> <-]. split; [exact O|]. exists (RSel (cur s) (c_sess s)). cbn [c_rd setRd]. rewrite Rd. cbn [put]. split; [reflexivity|]. split; [reflexivity|].
    rewrite Acc, app_nil_r. reflexivity.
  - (* KRTake *)
    destruct (One _ _ E) as [-> <-]. subst g.
    assert (Nw : now s = c :: l0) by (apply now_nth; assumption).
    split; [intros i' y Ny; pose proof (O i' y Ny) as X; destruct y; try exact X; rewrite C; exact X|].
    exists (RGot c). cbn [c_rd setRd setChans]. rewrite Rd. cbn [put]. split; [reflexivity|]. split; [exact Logic.I|].
    unfold now. rewrite C. cbn [c_chans setChans setRd c_ring c_send]. rewrite (nth_put (c_chans s) (cur s) l0 (c :: l0) [] (cur s) E1), Nat.eqb_refl.
    rewrite Acc, Nw, app_nil_r. reflexivity.
  - (* KRPut, not closing *) destruct (One _ _ E) as [-> <-]. split; [exact O|]. exists RHead. cbn [c_rd setRd addRing]. rewrite Rd. cbn [put]. split; [reflexivity|]. split; [exact Logic.I|].
    cbn [c_ring c_send addRing setRd ofReader app]. change (now (addRing (setRd s 0 RHead) c)) with (now s). rewrite Acc, app_nil_r, <- !app_assoc. reflexivity.
  - (* KRQuit *) destruct (One _ _ E) as [-> <-]. split; [exact O|]. exists REnd. cbn [c_rd setRd]. rewrite Rd. cbn [put]. split; [reflexivity|]. split; [exact Logic.I|].
    rewrite Acc, app_nil_r. reflexivity.
Qed.

Lemma ordered_run cap i : forall h s s' acc, crun cap h s = Some s' -> ~ In KStop h -> ordered i s acc -> ordered i s' (acc ++ reports i (arrived h)).
Proof.
  induction h as [|o h IH]; intros s s' acc R N I; cbn [crun] in R; [injection R as <-; cbn; rewrite app_nil_r; exact I|].
  destruct (cdo cap o s) as [m|] eqn:D; [|discriminate].
  unfold arrived. cbn [flat_map]. rewrite reports_app, app_assoc. apply (IH m s' _ R); [intros X; apply N; right; exact X|].
  apply (ordered_step cap o i s m acc D); [intros ->; apply N; left; reflexivity|exact I].
Qed.

Lemma before_step cap o s s' : cdo cap o s = Some s' -> before s -> (o <> KStart3 /\ before s') \/ (o = KStart3 /\ forall i, ordered i s' []).
Proof.
  intros H (Ph & Sd & Rd & Rg & Ch & NE).
  assert (Emp : forall l : list (list call), (forall g q, nth_error l g = Some q -> q = []) -> forall g q, nth_error (l ++ [[]]) g = Some q -> q = []).
  { intros l Hl g q E. destruct (Nat.lt_ge_cases g (List.length l)) as [X|X]; [rewrite nth_error_app1 in E by exact X; exact (Hl g q E)|].
    rewrite nth_error_app2 in E by exact X. destruct (g - List.length l)%nat as [|[|z]]; [injection E as <-; reflexivity|discriminate|discriminate]. }
  assert (NoRd : forall j x, nth_error (c_rd s) j = Some x -> False) by (intros j x E; rewrite Rd in E; destruct j; discriminate).
  destruct o; dostep H; try (exfalso; eapply NoRd; eassumption).
  - left. split; [discriminate|]. unfold before. cbn [c_phase c_send c_rd c_ring c_chans setPhase setChans]. repeat split; try assumption; [right; left; reflexivity|apply Emp, Ch|destruct (c_chans s); discriminate].
  - left. split; [discriminate|]. unfold before. cbn [c_phase c_send c_rd c_ring c_chans]. repeat split; try assumption. right. right. reflexivity.
  - right. split; [reflexivity|]. intros i. split; [reflexivity|]. split; [exact NE|]. split.
    + intros i' x E'. cbn [c_send] in E'. rewrite (Sd i' x E'). exact Logic.I.
    + exists RHead. cbn [c_rd c_ring c_send]. rewrite Rd, Rg. split; [reflexivity|]. split; [exact Logic.I|]. cbn [ofReader app].
      match goal with |- _ = reports i (now ?t) ++ _ => assert (Z : now t = []) end.
      { unfold now. cbn [c_chans]. match goal with |- nth ?k ?l [] = [] => destruct (nth_error l k) as [q|] eqn:Q; [rewrite (nth_error_nth l k [] Q); exact (Ch k q Q)|apply nth_overflow, nth_error_None, Q] end. }
      rewrite Z. destruct (nth_error (c_send s) i) as [x|] eqn:X; [rewrite (Sd i x X); reflexivity|reflexivity].
  - exfalso. destruct Ph as [P|[P|P]]; congruence.
  - exfalso. destruct Ph as [P|[P|P]]; congruence.
  - left. split; [discriminate|]. unfold enabled. destruct Ph as [P|[P|P]]; rewrite P; unfold before; rewrite P; repeat split; try assumption; auto.
  - exfalso. specialize (Sd _ _ E). discriminate.
  - exfalso. specialize (Sd _ _ E). discriminate.
Qed.

Lemma before_run cap i : forall h s s', crun cap h s = Some s' -> ~ In KStop h -> before s ->
  (before s' /\ arrived (sinceOn h) = []) \/ ordered i s' (reports i (arrived (sinceOn h))).
Proof.
  induction h as [|o h IH]; intros s s' R N B; cbn [crun] in R; [injection R as <-; left; split; [exact B|reflexivity]|].
  destruct (cdo cap o s) as [m|] eqn:D; [|discriminate].
  assert (N' : ~ In KStop h) by (intros X; apply N; right; exact X).
  destruct (before_step cap o s m D B) as [(No & B')|(-> & I)].
  - replace (sinceOn (o :: h)) with (sinceOn h) by (destruct o; try reflexivity; congruence). exact (IH m s' R N' B').
  - right. cbn [sinceOn]. exact (ordered_run cap i h m s' [] R N' (I i)).
Qed.

Lemma before_0 n : before (c0 n).
Proof.
  unfold before, c0. cbn [c_phase c_send c_rd c_ring c_chans]. repeat split; try discriminate; [left; reflexivity| |].
  - intros i x E. apply nth_error_In, repeat_spec in E. exact E.
  - intros g q E. destruct g as [|[|g]]; [injection E as <-; reflexivity|discriminate|discriminate].
Qed.

Lemma reports_quiet i s acc : ordered i s acc -> quiet s -> acc = reports i (c_ring s).
Proof.
  intros (_ & NE & O & r & Rd & _ & ->) Q.
  assert (L : (cur s < List.length (c_chans s))%nat) by (unfold cur; destruct (c_chans s); [congruence|cbn; lia]).
  assert (A : ofReader r = []).
  { destruct r as [|g k|c|]; try reflexivity. exfalso. apply (Q c). right. right. right. exists 0%nat. rewrite Rd. reflexivity. }
  assert (B : now s = []).
  { destruct (now s) as [|c q] eqn:Nw; [reflexivity|]. exfalso. apply (Q c). right. right. left. exists (now s). split; [apply nth_error_nth', L|rewrite Nw; left; reflexivity]. }
  assert (D : pend (nth_error (c_send s) i) = []).
  { destruct (nth_error (c_send s) i) as [x|] eqn:X; [|reflexivity]. pose proof (O i x X) as Ox. destruct x as [|c|c g]; [reflexivity| |]; exfalso; apply (Q c).
    - left. exists i. exact X.
    - right. left. exists i. destruct Ox as [_ <-]. exact X. }
  rewrite A, B, D, !app_nil_r. reflexivity.
Qed.

Lemma traceCap_pos : (0 < traceCap)%nat.
Proof. unfold traceCap. lia. Qed.

Lemma reach_chans cap h n s : crun cap h (c0 n) = Some s -> c_chans s <> [].
Proof. intros R. apply (chans_nonempty cap h (c0 n) s R). discriminate. Qed.
Lemma reach_reader cap h n s : crun cap h (c0 n) = Some s -> hasReader s.
Proof. intros R. apply (hasReader_run cap h (c0 n) s R). discriminate. Qed.

(** the history that leaves a goroutine at a full channel *)
Fixpoint fill (k m : nat) : list cop := match m with O => [] | S m' => [KRecv 0 k; KEval 0; KPut 0] ++ fill (S k) m' end.
Definition filled (q : list call) : cst :=
  {| c_phase := POn; c_sess := 1; c_chans := [[]; q]; c_send := [SIdle]; c_rd := [RSel 1 1]; c_ring := [] |}.
Lemma fill_run cap : forall m k q, (List.length q + m <= cap)%nat -> exists q', List.length q' = (List.length q + m)%nat /\ crun cap (fill k m) (filled q) = Some (filled q').
Proof.
  induction m as [|m IH]; intros k q L; cbn [fill crun]; [exists q; split; [lia|reflexivity]|].
  destruct (IH (S k) (q ++ [(0, k)%nat])) as (q' & L' & R); [rewrite app_length; cbn [List.length]; lia|].
  exists q'. rewrite app_length in L'. cbn [List.length] in L'. split; [lia|].
  cbn [app crun]. unfold filled at 1. cbn [cdo c_send nth_error enabled c_phase setSend put c_sess c_chans c_rd c_ring cur List.length pred].
  assert (X : (List.length q <? cap)%nat = true) by (apply Nat.ltb_lt; lia).
  rewrite X. exact R.
Qed.
