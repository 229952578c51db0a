(** C82 the namespaces in which the collector reads the table of connections, and what it leaves open. *)
From Verif Require Import Base NsModel NsSpec.
From Coq Require Import ZifyBool.
Open Scope list_scope. Open Scope Z_scope.

Definition has (w : world) (h x : Z) : Prop := In (h, x) (fds w).
Lemma has_ns w h x : clean w -> has w h x -> nsOf w h = Some x.
Proof. intros [_ N] I. apply in_aget; assumption. Qed.
Lemma keys_app {A B} (a b : list (A * B)) : keys (a ++ b) = keys a ++ keys b.
Proof. unfold keys. apply map_app. Qed.
Lemma clean_fresh w : clean w -> ~ In (nxt w) (keys (fds w)).
Proof. intros [F _] I. unfold keys in I. apply in_map_iff in I. destruct I as (p & E & I). rewrite Forall_forall in F. specialize (F p I). lia. Qed.

Section Facts.
  Context (fails : kind -> nat -> bool) (peer : Z -> bool) (pick : nat -> nat).
  Notation noFault := (forall K k, fails K k = false).
  Notation noLoss := (forall k, fails KReturn k = false).

  (** [w'] comes after [w]: nothing closed, the threads and tables as they were *)
  Record later (w w' : world) (extra : list (Z * Z)) (tab : list Z) : Prop := {
    l_clean : clean w'; l_fds : fds w' = fds w ++ extra; l_tabs : tabs w' = tabs w ++ tab; l_thr : noLoss -> forall i, thr w' i = thr w i }.
  Lemma later_refl w : clean w -> later w w [] [].
  Proof. intros C. split; rewrite ?app_nil_r; auto. Qed.
  Lemma later_tock w : clean w -> later w (tock w) [] [].
  Proof. intros C. split; cbn [tock fds tabs thr]; rewrite ?app_nil_r; auto. Qed.
  Lemma later_trans w1 w2 w3 a b t u : later w1 w2 a t -> later w2 w3 b u -> later w1 w3 (a ++ b) (t ++ u).
  Proof.
    intros [A1 A2 A3 A4] [B1 B2 B3 B4]. split; [exact B1| | |].
    - rewrite B2, A2, app_assoc. reflexivity.
    - rewrite B3, A3, app_assoc. reflexivity.
    - intros L i. rewrite B4, A4 by exact L. reflexivity.
  Qed.
  Lemma later_has w w' e t h x : later w w' e t -> has w h x -> has w' h x.
  Proof. intros [_ F _ _] I. unfold has in *. rewrite F. apply in_or_app. left. exact I. Qed.

  Lemma open_spec x w : clean w -> match openNs fails x w with
    | (None, w') => later w w' [] [] /\ thr w' = thr w /\ fails KOpen (tick w) = true
    | (Some h, w') => h = nxt w /\ nxt w' = nxt w + 1 /\ thr w' = thr w /\ later w w' [(h, x)] [] end.
  Proof.
    intros C. unfold openNs. destruct (fails KOpen (tick w)); [split; [apply later_tock; exact C|split; reflexivity]|]. split; [reflexivity|]. split; [reflexivity|]. split; [reflexivity|].
    split; cbn [fds tabs thr]; rewrite ?app_nil_r; auto. pose proof (clean_fresh w C) as NF. destruct C as [F N]. split; cbn [fds nxt].
    - apply Forall_app. split; [|constructor; [cbn [fst]; lia|constructor]]. eapply Forall_impl; [|exact F]. cbn beta. lia.
    - rewrite keys_app. apply NoDup_snoc; assumption.
  Qed.

  (** what a function run in a namespace may do: read the table of the namespace of its thread, up to [n] times *)
  Definition readsOf (fn : nat -> world -> bool * world) (n : nat) : Prop := forall t w, clean w ->
    exists j, (j <= n)%nat /\ clean (snd (fn t w)) /\ fds (snd (fn t w)) = fds w /\ nxt (snd (fn t w)) = nxt w /\ tabs (snd (fn t w)) = tabs w ++ repeat (thr w t) j /\
      thr (snd (fn t w)) = thr w /\ (noFault -> j = n).
  Lemma dumpBody_reads : readsOf (dumpBody fails) 1.
  Proof.
    intros t w C. unfold dumpBody. destruct (fails KSocket (tick w)) eqn:E1.
    - exists 0%nat. cbn [snd repeat tock fds nxt tabs thr]. rewrite app_nil_r. split; [lia|]. split; [exact C|]. do 4 (split; [reflexivity|]). intros NF. rewrite NF in E1. discriminate.
    - cbv zeta. destruct (fails KSend (tick (tock w))) eqn:E2; cbn [snd repeat tock readTable fds nxt tabs thr].
      + exists 0%nat. cbn [repeat]. rewrite app_nil_r. split; [lia|]. split; [exact C|]. do 4 (split; [reflexivity|]). intros NF. rewrite NF in E2. discriminate.
      + exists 1%nat. cbn [repeat]. split; [lia|]. split; [exact C|]. do 4 (split; [reflexivity|]). reflexivity.
  Qed.

  (** WithNS: the function reads in the namespace asked for, whatever the thread; one handle is left open; the thread is back unless that failed. *)
  Lemma withNS_spec t h x fn n w : readsOf fn n -> clean w -> has w h x -> let w' := snd (withNS fails t h fn w) in
    exists extra j, later w w' extra (repeat x j) /\ (j <= n)%nat /\ (List.length extra <= 1)%nat /\ (noFault -> j = n /\ extra = [(nxt w, thr w t)] /\ nxt w' = nxt w + 1).
  Proof.
    intros R C H. cbv zeta. unfold withNS. pose proof (open_spec (thr w t) w C) as O. destruct (openNs fails (thr w t) w) as [[p|] w1].
    2:{ destruct O as (O & _ & F). exists [], 0%nat. split; [exact O|]. split; [lia|]. split; [cbn; lia|]. intros NF. rewrite NF in F. discriminate. }
    destruct O as (Ep & N1 & T1 & O). pose proof (later_has _ _ _ _ _ _ O H) as H1. pose proof (l_clean _ _ _ _ O) as C1.
    assert (Hp : has w1 p (thr w t)) by (unfold has; rewrite (l_fds _ _ _ _ O); apply in_or_app; right; left; reflexivity).
    unfold sameNs. rewrite (has_ns w1 h x C1 H1), (has_ns w1 p _ C1 Hp).
    destruct (x =? thr w t) eqn:E.
    - destruct (R t w1 C1) as (j & Lj & RC & RF & RN & RT & RH & RJ). exists [(p, thr w t)], j. destruct O as [_ O2 O3 O4]. split; [|split; [exact Lj|split; [cbn; lia|]]].
      + split; [exact RC|congruence| |].
        * rewrite RT, O3, app_nil_r, T1. do 2 f_equal. lia.
        * intros NL i. rewrite RH, T1. reflexivity.
      + intros NF. split; [auto|]. split; [congruence|lia].
    - destruct (fails KEnter (tick w1)) eqn:F1; cbn [snd].
      { exists [(p, thr w t)], 0%nat. split; [|split; [lia|split; [cbn; lia|intros NF; rewrite NF in F1; discriminate]]]. destruct O as [O1 O2 O3 O4]. split; auto. }
      destruct (R t (setThr t x (tock w1))) as (j & Lj & RC & RF & RN & RT & RH & RJ); [exact C1|]. destruct (fn t (setThr t x (tock w1))) as [ok w3]. cbn [snd] in *.
      cbn [setThr tock fds nxt tabs thr] in RF, RN, RT, RH. rewrite Nat.eqb_refl in RT. destruct O as [O1 O2 O3 O4]. rewrite app_nil_r in O3.
      destruct (fails KReturn (tick w3)) eqn:F2; cbn [snd].
      + exists [(p, thr w t)], j. split; [|split; [exact Lj|split; [cbn; lia|intros NF; rewrite NF in F2; discriminate]]].
        split; cbn [tock fds tabs thr]; [exact RC|congruence|congruence|]. intros NL. rewrite NL in F2. discriminate.
      + assert (Hp3 : nsOf w3 p = Some (thr w t)) by (apply has_ns; [exact RC|]; unfold has; rewrite RF; exact Hp). rewrite Hp3. cbn [snd].
        exists [(p, thr w t)], j. split; [|split; [exact Lj|split; [cbn; lia|]]].
        * split; cbn [setThr tock fds tabs thr]; [exact RC|congruence|congruence|]. intros NL i. destruct (i =? t)%nat eqn:Ei; [apply Nat.eqb_eq in Ei; congruence|].
          rewrite RH, Ei, T1. reflexivity.
        * intros NF. split; [auto|]. split; [congruence|]. cbn [setThr tock nxt]. lia.
  Qed.

  (** GetNetNamespaces *)
  Lemma adel_last w x : clean w -> adel (fds w ++ [(nxt w, x)]) (nxt w) = fds w.
  Proof.
    intros C. pose proof (clean_fresh w C) as NF. unfold adel. rewrite filter_app. cbn [filter fst]. rewrite eqb_refl. cbn [negb]. rewrite app_nil_r.
    generalize (fds w) NF. intros l. induction l as [|[k v] l IH]; intros NI; [reflexivity|]. cbn [filter fst]. destruct (eqb (nxt w) k) eqn:E.
    - apply eqb_true in E. exfalso. apply NI. left. symmetry. exact E.
    - cbn [negb]. rewrite IH; [reflexivity|]. intros I. apply NI. right. exact I.
  Qed.
  Lemma firsts_in x : forall l, In x (firsts l) <-> In x l.
  Proof.
    induction l as [|y l IH]; [reflexivity|]. cbn [firsts In]. rewrite filter_In, IH. split.
    - intros [->|[I _]]; auto.
    - intros [->|I]; [auto|]. destruct (Z.eq_dec x y) as [->|N]; [auto|]. right. split; [exact I|]. lia.
  Qed.
  Lemma firsts_nodup : forall l, NoDup (firsts l).
  Proof.
    induction l as [|y l IH]; [constructor|]. cbn [firsts]. constructor; [|apply NoDup_filter; exact IH]. rewrite filter_In. lia.
  Qed.
  Lemma filter2 {A} (p q : A -> bool) l : filter p (filter q l) = filter (fun x => q x && p x) l.
  Proof. induction l as [|a l IH]; [reflexivity|]. cbn [filter]. destruct (q a); cbn [andb filter]; [|exact IH]. destruct (p a); rewrite IH; reflexivity. Qed.

  Lemma collect_spec : forall procs seen w, clean w -> let '(hs, w') := collect fails procs seen w in
    exists xs, List.length hs = List.length xs /\ later w w' (combine hs xs) [] /\ NoDup xs /\ (forall x, In x xs -> In x procs /\ ~ In x seen) /\
      (noFault -> xs = filter (fun x => negb (existsb (Z.eqb x) seen)) (firsts procs)).
  Proof.
    induction procs as [|x procs IH]; intros seen w C; cbn [collect].
    - exists []. split; [reflexivity|]. split; [apply later_refl; exact C|]. split; [constructor|]. split; [intros y []|reflexivity].
    - pose proof (open_spec x w C) as O. destruct (openNs fails x w) as [[h|] w1] eqn:Eo.
      + destruct O as (-> & _ & T1 & O). destruct (existsb (Z.eqb x) seen) eqn:E.
        * assert (IS : In x seen) by (apply existsb_exists in E; destruct E as (y & I & Q); assert (x = y) by lia; congruence).
          assert (L : later w (closeFd (nxt w) w1) [] []).
          { destruct O as [O1 O2 O3 O4]. rewrite app_nil_r in O3. split; cbn [closeFd fds tabs thr]; rewrite ?app_nil_r; auto.
            - destruct O1 as [P Q]. split; cbn [closeFd fds nxt].
              + rewrite Forall_forall in *. intros p I. apply P. unfold adel in I. apply filter_In in I. apply I.
              + apply NoDup_keys_adel. exact Q.
            - rewrite O2. apply adel_last. exact C. }
          specialize (IH seen _ (l_clean _ _ _ _ L)). destruct (collect fails procs seen (closeFd (nxt w) w1)) as [hs w'].
          destruct IH as (xs & I1 & I2 & I3 & I4 & I5). exists xs. split; [exact I1|]. split; [exact (later_trans _ _ _ _ _ _ _ L I2)|]. split; [exact I3|].
          split; [intros y I; destruct (I4 y I); split; [right; assumption|assumption]|]. intros NF. rewrite (I5 NF). cbn [firsts filter]. rewrite E. cbn [negb]. rewrite filter2.
          apply filter_ext. intros y. destruct (existsb (Z.eqb y) seen) eqn:F; cbn [negb]; [rewrite andb_false_r; reflexivity|].
          rewrite andb_true_r. destruct (y =? x) eqn:Y; [|reflexivity]. assert (y = x) by lia. congruence.
        * specialize (IH (x :: seen) w1 (l_clean _ _ _ _ O)). destruct (collect fails procs (x :: seen) w1) as [hs w'].
          destruct IH as (xs & I1 & I2 & I3 & I4 & I5). exists (x :: xs). split; [cbn [List.length]; congruence|]. split; [exact (later_trans _ _ _ _ _ _ _ O I2)|].
          split; [constructor; [|exact I3]; intros I; apply (I4 x I); left; reflexivity|]. split.
          -- intros y [<-|I].
             ++ split; [left; reflexivity|]. intros I. assert (B : existsb (Z.eqb x) seen = true) by (apply existsb_exists; exists x; split; [exact I|lia]). congruence.
             ++ destruct (I4 y I) as [A B]. split; [right; exact A|]. intros J. apply B. right. exact J.
          -- intros NF. rewrite (I5 NF). cbn [firsts filter]. rewrite E. cbn [negb]. f_equal. rewrite filter2. apply filter_ext. intros y. cbn [existsb].
             rewrite negb_orb. reflexivity.
      + destruct O as (O & _ & F). specialize (IH seen w1 (l_clean _ _ _ _ O)). destruct (collect fails procs seen w1) as [hs w'].
        destruct IH as (xs & I1 & I2 & I3 & I4 & I5). exists xs. split; [exact I1|]. split; [exact (later_trans _ _ _ _ _ _ _ O I2)|]. split; [exact I3|].
        split; [intros y I; destruct (I4 y I); split; [right; assumption|assumption]|]. intros NF. rewrite NF in F. discriminate.
  Qed.

  (** the loop over the other namespaces *)
  Lemma dumpRest_spec r root : forall hs xs k w, clean w -> List.length hs = List.length xs -> has w r root -> (forall h x, In (h, x) (combine hs xs) -> has w h x) -> NoDup xs ->
    exists extra tab, later w (dumpRest fails peer pick k r hs w) extra tab /\ NoDup tab /\ (forall x, In x tab -> In x xs /\ x <> root /\ peer x = true) /\
      (noFault -> tab = filter (fun x => negb (x =? root) && peer x) xs /\ List.length extra = List.length tab).
  Proof.
    induction hs as [|h hs IH]; intros [|x xs] k w C L Hr Hh ND; cbn [dumpRest]; try discriminate L.
    - exists [], []. split; [apply later_refl; exact C|]. split; [constructor|]. split; [intros y []|]. intros _. split; reflexivity.
    - assert (Hx : has w h x) by (apply Hh; left; reflexivity). inversion ND as [|? ? NI ND']; subst. cbn [List.length] in L.
      assert (SK : forall w', later w w' [] [] -> (noFault -> negb (x =? root) && peer x = false) -> forall k, exists extra tab, later w (dumpRest fails peer pick k r hs w') extra tab /\ NoDup tab /\
        (forall y, In y tab -> In y (x :: xs) /\ y <> root /\ peer y = true) /\
        (noFault -> tab = filter (fun y => negb (y =? root) && peer y) (x :: xs) /\ List.length extra = List.length tab)).
      { intros w' Lw Q k'. destruct (IH xs k' w') as (e & t & A & B & D & F); [exact (l_clean _ _ _ _ Lw)|lia|exact (later_has _ _ _ _ _ _ Lw Hr)| |exact ND'|].
        - intros h' x' I. apply (later_has _ _ _ _ _ _ Lw). apply Hh. right. exact I.
        - exists e, t. split; [exact (later_trans _ _ _ _ _ _ _ Lw A)|]. split; [exact B|]. split; [intros y I; destruct (D y I); split; [right; assumption|assumption]|].
          intros NF. cbn [filter]. rewrite (Q NF). exact (F NF). }
      unfold sameNs. rewrite (has_ns w r root C Hr), (has_ns w h x C Hx). destruct (root =? x) eqn:E.
      + apply (SK w (later_refl w C)). intros _. lia.
      + destruct (fails KPeer (tick w)) eqn:F1; cbn [orb].
        { apply (SK (tock w) (later_tock w C)). intros NF. rewrite NF in F1. discriminate. }
        destruct (peer x) eqn:P; cbn [negb].
        2:{ apply (SK (tock w) (later_tock w C)). intros _. lia. }
        destruct (withNS_spec (pick k) h x (dumpBody fails) 1 (tock w) dumpBody_reads C Hx) as (e1 & j & A1 & A2 & A3 & A4).
        pose proof (later_trans _ _ _ _ _ _ _ (later_tock w C) A1) as A. cbn [app] in A.
        destruct (IH xs (S k) (snd (withNS fails (pick k) h (dumpBody fails) (tock w)))) as (e & t & B & D & F & G);
          [exact (l_clean _ _ _ _ A)|lia|exact (later_has _ _ _ _ _ _ A Hr)| |exact ND'|].
        { intros h' x' I. apply (later_has _ _ _ _ _ _ A). apply Hh. right. exact I. }
        exists (e1 ++ e), (repeat x j ++ t). split; [exact (later_trans _ _ _ _ _ _ _ A B)|].
        assert (J : j = 0%nat \/ j = 1%nat) by lia. destruct J as [-> | ->]; cbn [repeat app].
        * split; [exact D|]. split; [intros y I; destruct (F y I); split; [right; assumption|assumption]|]. intros NF. destruct (A4 NF) as (Z & _). discriminate Z.
        * split; [constructor; [|exact D]; intros I; apply NI; apply (F x I)|]. split.
          -- intros y [<-|I]; [split; [left; reflexivity|split; [lia|exact P]]|]. destruct (F y I). split; [right; assumption|assumption].
          -- intros NF. destruct (G NF) as [G1 G2]. destruct (A4 NF) as (_ & -> & _). cbn [filter]. rewrite P. replace (x =? root) with false by lia. cbn [negb andb].
             rewrite app_length. cbn [List.length]. split; [congruence|lia].
  Qed.

  (** closing *)
  Lemma adel_out (l : list (Z * Z)) k : ~ In k (keys l) -> adel l k = l.
  Proof.
    induction l as [|[k' v] l IH]; intros NI; [reflexivity|]. unfold adel in *. cbn [filter fst]. destruct (eqb k k') eqn:E.
    - apply eqb_true in E. exfalso. apply NI. left. symmetry. exact E.
    - cbn [negb]. rewrite IH; [reflexivity|]. intros I. apply NI. right. exact I.
  Qed.
  Lemma adel_mid (a b : list (Z * Z)) k v : NoDup (keys (a ++ (k, v) :: b)) -> adel (a ++ (k, v) :: b) k = a ++ b.
  Proof.
    intros N. rewrite keys_app in N. cbn [keys map fst] in N. unfold adel. rewrite filter_app. cbn [filter fst]. rewrite eqb_refl. cbn [negb].
    change (adel a k ++ adel b k = a ++ b). apply NoDup_remove_2 in N. rewrite !adel_out; [reflexivity| |]; intros I; apply N, in_or_app; auto.
  Qed.
  Lemma closeAll_spec : forall hs xs a b w, List.length hs = List.length xs -> NoDup (keys (a ++ combine hs xs ++ b)) -> fds w = a ++ combine hs xs ++ b ->
    let w' := fold_left (fun w h => closeFd h w) hs w in fds w' = a ++ b /\ tabs w' = tabs w /\ thr w' = thr w /\ nxt w' = nxt w.
  Proof.
    induction hs as [|h hs IH]; intros [|x xs] a b w L N F; try discriminate L; cbn [fold_left].
    - cbn [combine app] in F. auto.
    - cbn [combine app] in N, F. destruct (IH xs a b (closeFd h w)) as (A & B & D & E).
      + cbn [List.length] in L. lia.
      + rewrite keys_app in N |- *. cbn [keys map fst] in N. apply NoDup_remove_1 in N. exact N.
      + cbn [closeFd fds]. rewrite F. apply adel_mid. exact N.
      + auto.
  Qed.
End Facts.

(** One dump, whatever fails. *)
Lemma dump_spec fails peer pick all root procs w : clean w -> let '(b, w') := dumpTable fails peer pick all root procs w in
  exists extra tab, fds w' = fds w ++ extra /\ tabs w' = tabs w ++ tab /\ NoDup tab /\ (forall x, In x tab -> In x (wanted all root peer procs)) /\ clean w' /\
    ((forall k, fails KReturn k = false) -> forall i, thr w' i = thr w i) /\
    ((forall K k, fails K k = false) -> b = true /\ tab = wanted all root peer procs /\ List.length extra = List.length tab).
Proof.
  intros C. unfold dumpTable.
  assert (G : match (if all then getNamespaces fails procs w else (Some [], w)) with
    | (None, w1) => later fails w w1 [] [] /\ fails KDir (tick w) = true
    | (Some hs, w1) => exists xs, List.length hs = List.length xs /\ later fails w w1 (combine hs xs) [] /\ NoDup xs /\ (forall x, In x xs -> all = true /\ In x procs) /\
        ((forall K k, fails K k = false) -> xs = if all then firsts procs else []) end).
  { destruct all.
    - unfold getNamespaces. destruct (fails KDir (tick w)) eqn:E; [split; [apply later_tock; exact C|reflexivity]|].
      pose proof (collect_spec fails peer procs [] (tock w) C) as S. destruct (collect fails procs [] (tock w)) as [hs w1]. destruct S as (xs & A & B & D & F & H).
      exists xs. split; [exact A|]. split; [exact (later_trans _ _ _ _ _ _ _ _ (later_tock fails w C) B)|]. split; [exact D|]. split; [intros x I; split; [reflexivity|apply (F x I)]|].
      intros NF. rewrite (H NF). cbn [existsb negb]. clear. induction (firsts procs) as [|y l IH]; [reflexivity|]. cbn [filter]. rewrite IH. reflexivity.
    - exists []. split; [reflexivity|]. split; [apply later_refl; exact C|]. split; [constructor|]. split; [intros x []|reflexivity]. }
  destruct (if all then getNamespaces fails procs w else (Some [], w)) as [[hs|] w1].
  2:{ destruct G as [L F]. exists [], []. destruct L as [L1 L2 L3 L4]. do 2 (split; [assumption|]). split; [constructor|]. split; [intros x []|]. split; [exact L1|]. split; [exact L4|].
      intros NF. rewrite NF in F. discriminate. }
  destruct G as (xs & Lh & L1 & ND & IN & NFx). pose proof (l_clean _ _ _ _ _ L1) as C1.
  pose proof (open_spec fails peer root w1 C1) as O. destruct (openNs fails root w1) as [[r|] w2].
  2:{ destruct O as (O & _ & F). pose proof (later_trans _ _ _ _ _ _ _ _ L1 O) as [A B D E]. exists (combine hs xs ++ []), []. do 2 (split; [assumption|]). split; [constructor|]. split; [intros x []|].
      split; [exact A|]. split; [exact E|]. intros NF. rewrite NF in F. discriminate. }
  destruct O as (Er & _ & _ & O). pose proof (later_trans _ _ _ _ _ _ _ _ L1 O) as L2. cbn [app] in L2.
  destruct (fails KDial (tick w2)) eqn:FD.
  { destruct L2 as [A B D E]. exists (combine hs xs), []. cbn [closeFd tock fds tabs thr].
    assert (FE : adel (fds w2) r = fds w ++ combine hs xs).
    { rewrite B, app_assoc. rewrite <- (app_nil_r (fds w ++ combine hs xs)) at 2. apply (adel_mid (fds w ++ combine hs xs) []). rewrite <- app_assoc, <- B. apply A. }
    split; [exact FE|]. split; [exact D|]. split; [constructor|]. split; [intros x []|]. split; [|split; [exact E|intros NF; rewrite NF in FD; discriminate]].
    destruct A as [P Q]. split; cbn [closeFd tock fds nxt]; [|apply NoDup_keys_adel; exact Q]. rewrite Forall_forall in *. intros p I. apply P. unfold adel in I. apply filter_In in I. apply I. }
  pose proof (later_trans _ _ _ _ _ _ _ _ L2 (later_tock fails w2 (l_clean _ _ _ _ _ L2))) as L3. rewrite !app_nil_r in L3.
  assert (Hr : has (tock w2) r root) by (unfold has; rewrite (l_fds _ _ _ _ _ L3), app_assoc; apply in_or_app; right; left; reflexivity).
  destruct (withNS_spec fails peer pick (pick 0%nat) r root (dumpBody fails) 1 (tock w2) (dumpBody_reads fails pick) (l_clean _ _ _ _ _ L3) Hr) as (e1 & j & A1 & A2 & A3 & A4).
  set (w3 := snd (withNS fails (pick 0%nat) r (dumpBody fails) (tock w2))) in *. pose proof (later_trans _ _ _ _ _ _ _ _ L3 A1) as L4. cbn [app] in L4.
  destruct (dumpRest_spec fails peer pick r root hs xs 1%nat w3) as (e2 & t2 & B1 & B2 & B3 & B4).
  { exact (l_clean _ _ _ _ _ L4). } { exact Lh. } { exact (later_has _ _ _ _ _ _ _ A1 Hr). }
  { intros h x I. unfold has. rewrite (l_fds _ _ _ _ _ L4). apply in_or_app. right. apply in_or_app. left. apply in_or_app. left. exact I. } { exact ND. }
  pose proof (later_trans _ _ _ _ _ _ _ _ L4 B1) as L5. destruct L5 as [M1 M2 M3 M4]. set (w4 := dumpRest fails peer pick 1%nat r hs w3) in *.
  assert (F4 : fds w4 = fds w ++ combine hs xs ++ (r, root) :: (e1 ++ e2)) by (rewrite M2, <- !app_assoc; reflexivity).
  destruct (closeAll_spec peer hs xs (fds w) ((r, root) :: (e1 ++ e2)) w4 Lh) as (D1 & D2 & D3 & D4); [rewrite <- F4; apply M1|exact F4|].
  set (w5 := fold_left (fun w h => closeFd h w) hs w4) in *.
  assert (N5 : NoDup (keys (fds w ++ (r, root) :: e1 ++ e2))).
  { assert (N4 : NoDup (keys (fds w4))) by apply M1. rewrite F4, !keys_app in N4. clear - N4. rewrite keys_app. revert N4. generalize (keys (fds w)) (keys (combine hs xs)) (keys ((r, root) :: e1 ++ e2)).
    intros a b c. induction a as [|y a IH]; cbn [app]; intros N.
    - induction b as [|z b IHb]; [exact N|]. inversion N; auto.
    - inversion N as [|? ? NI N']; subst. constructor; [|exact (IH N')]. intros I. apply NI. apply in_or_app. apply in_app_or in I. destruct I; [left; assumption|right; apply in_or_app; right; assumption]. }
  assert (F5 : fds (closeFd r w5) = fds w ++ e1 ++ e2) by (cbn [closeFd fds]; rewrite D1; apply adel_mid; exact N5).
  exists (e1 ++ e2), (repeat root j ++ t2). split; [exact F5|]. split; [cbn [closeFd tabs]; rewrite D2, M3, <- ?app_assoc; reflexivity|].
  assert (J : j = 0%nat \/ j = 1%nat) by lia.
  assert (T2 : forall x, In x t2 -> In x (if all then filter (fun x => negb (x =? root) && peer x) (firsts procs) else [])).
  { intros x I. destruct (B3 x I) as (I1 & I2 & I3). destruct (IN x I1) as [-> I4]. apply filter_In. split; [rewrite (firsts_in peer); exact I4|]. rewrite I3. lia. }
  split; [|split; [|split; [|split]]].
  - destruct J as [-> | ->]; [exact B2|]. cbn [repeat app]. constructor; [|exact B2]. intros I. apply B3 in I. destruct I as (_ & I & _). congruence.
  - intros x I. unfold wanted. apply in_app_or in I. destruct I as [I|I]; [left; symmetry; exact (repeat_spec _ _ _ I)|]. right. exact (T2 x I).
  - split; [|rewrite F5, keys_app; rewrite keys_app in N5; cbn [keys map fst] in N5; exact (NoDup_remove_1 _ _ _ N5)]. cbn [closeFd fds nxt]. rewrite D4.
    destruct M1 as [P _]. rewrite Forall_forall in *. intros p I. apply P. change (adel (fds w5) r) with (fds (closeFd r w5)) in I. rewrite F5 in I. rewrite F4. apply in_app_or in I. apply in_or_app.
    destruct I as [I|I]; [left; exact I|]. right. apply in_or_app. right. right. exact I.
  - intros NL i. cbn [closeFd thr]. rewrite D3. apply M4. exact NL.
  - intros NF. destruct (A4 NF) as (-> & -> & _). destruct (B4 NF) as [-> E2]. rewrite (NFx NF) in *. split; [reflexivity|]. cbn [repeat app]. unfold wanted.
    destruct all; (split; [reflexivity|]); cbn [List.length app]; rewrite E2; reflexivity.
Qed.

(** * C82 *)
(** Whatever fails, no table is read twice, and only those of the root namespace and, if configured, of the namespaces of processes that
    are its peers; if nothing fails, all of these are read, the root's first. *)
Theorem C82_tables fails peer pick all root procs w b w' : clean w -> dumpTable fails peer pick all root procs w = (b, w') ->
  exists tab, tabs w' = tabs w ++ tab /\ NoDup tab /\ (forall x, In x tab -> In x (wanted all root peer procs)) /\
    ((forall K k, fails K k = false) -> b = true /\ tab = wanted all root peer procs).
Proof.
  intros C E. pose proof (dump_spec fails peer pick all root procs w C) as S. rewrite E in S. destruct S as (e & tab & _ & A & B & D & _ & _ & F).
  exists tab. split; [exact A|]. split; [exact B|]. split; [exact D|]. intros NF. destruct (F NF) as (G & H & _). auto.
Qed.
Print Assumptions C82_tables.

(** As long as switching back does not fail, every thread of the process is afterwards in the namespace it was in. *)
Theorem C82_threads fails peer pick all root procs w b w' : clean w -> dumpTable fails peer pick all root procs w = (b, w') ->
  (forall k, fails KReturn k = false) -> forall i, thr w' i = thr w i.
Proof.
  intros C E. pose proof (dump_spec fails peer pick all root procs w C) as S. rewrite E in S. destruct S as (e & tab & _ & _ & _ & _ & _ & F & _). exact F.
Qed.
Print Assumptions C82_threads.

Definition exW : world := {| thr := fun _ => 10; fds := []; nxt := 3; tick := 0; tabs := [] |}.
Lemma exW_clean : clean exW. Proof. split; constructor. Qed.

(** A thread whose switch back fails is given back to the scheduler where it is: other goroutines then run in that namespace. *)
Theorem C82_thread_back_refuted : ~ forall fails peer pick all root procs w b w', clean w -> dumpTable fails peer pick all root procs w = (b, w') ->
  forall i, thr w' i = thr w i.
Proof.
  intros H. specialize (H (fun K _ => match K with KReturn => true | _ => false end) (fun _ => true) (fun _ => 0%nat) true 1 [1; 5] exW _ _ exW_clean eq_refl 0%nat).
  vm_compute in H. discriminate H.
Qed.
Print Assumptions C82_thread_back_refuted.

(** When nothing fails, exactly one handle is left open for each table read. *)
Theorem C82_handles fails peer pick all root procs w b w' : clean w -> dumpTable fails peer pick all root procs w = (b, w') ->
  (forall K k, fails K k = false) -> exists extra, fds w' = fds w ++ extra /\ List.length extra = List.length (wanted all root peer procs).
Proof.
  intros C E NF. pose proof (dump_spec fails peer pick all root procs w C) as S. rewrite E in S. destruct S as (e & tab & A & _ & _ & _ & _ & _ & F).
  destruct (F NF) as (_ & -> & L). exists e. auto.
Qed.
Print Assumptions C82_handles.

(** The handles opened are not all closed: the one of the namespace to switch back to never is. *)
Theorem C82_handles_closed_refuted : ~ forall fails peer pick all root procs w b w', clean w -> dumpTable fails peer pick all root procs w = (b, w') ->
  (forall K k, fails K k = false) -> fds w' = fds w.
Proof.
  intros H. specialize (H (fun _ _ => false) (fun _ => true) (fun _ => 0%nat) false 10 [] exW _ _ exW_clean eq_refl (fun _ _ => eq_refl)). vm_compute in H. discriminate H.
Qed.
Print Assumptions C82_handles_closed_refuted.

(** A dump that cannot start leaves the handles of all the namespaces open. *)
Theorem C82_failed_dump_refuted : ~ forall fails peer pick all root procs w w', clean w -> dumpTable fails peer pick all root procs w = (false, w') -> fds w' = fds w.
Proof.
  intros H. specialize (H (fun K _ => match K with KDial => true | _ => false end) (fun _ => true) (fun _ => 0%nat) true 10 [10; 11; 12] exW _ exW_clean eq_refl). vm_compute in H. discriminate H.
Qed.
Print Assumptions C82_failed_dump_refuted.

Lemma stream_spec fails t root w : clean w -> (forall K k, fails K k = false) -> let w' := snd (openStream fails t root w) in
  clean w' /\ exists a b, fds w' = fds w ++ [a; b] /\ (forall i, thr w' i = thr w i) /\ tabs w' = tabs w.
Proof.
  intros C NF. cbv zeta. unfold openStream, withRootNS. pose proof (open_spec fails (fun _ => true) root w C) as O. destruct (openNs fails root w) as [[h|] w1].
  2:{ destruct O as (_ & _ & F). rewrite NF in F. discriminate. }
  destruct O as (Eh & _ & T1 & O). assert (Hh : has w1 h root) by (unfold has; rewrite (l_fds _ _ _ _ _ O); apply in_or_app; right; left; reflexivity).
  assert (R : readsOf fails (fun _ w => if fails KSocket (tick w) then (false, tock w) else (true, tock w)) 0).
  { intros t' w' C'. exists 0%nat. rewrite NF. cbn [snd tock fds nxt tabs thr repeat]. rewrite app_nil_r. split; [lia|]. split; [exact C'|]. do 4 (split; [reflexivity|]). reflexivity. }
  destruct (withNS_spec fails (fun _ => true) (fun _ => t) t h root _ 0 w1 R (l_clean _ _ _ _ _ O) Hh) as (e & j & A & B & D & E). destruct (E NF) as (-> & Ee & _). cbn [repeat] in A.
  pose proof (later_trans _ _ _ _ _ _ _ _ O A) as [P Q S U]. split; [exact P|]. exists (h, root), (nxt w1, thr w1 t). rewrite Q, Ee. split; [reflexivity|].
  split; [intros i; apply U; intros k; apply NF|]. rewrite S, app_nil_r. reflexivity.
Qed.
(** Each time the stream of new connections is opened, at the start and whenever too many arrive, two handles are left open, even though nothing fails. *)
Theorem C82_restarts fails root ts w : clean w -> (forall K k, fails K k = false) ->
  List.length (fds (restarts fails ts root w)) = (List.length (fds w) + 2 * List.length ts)%nat /\ forall i, thr (restarts fails ts root w) i = thr w i.
Proof.
  intros C NF. revert w C. unfold restarts. induction ts as [|t ts IH]; intros w C; cbn [fold_left List.length]; [split; [lia|reflexivity]|].
  destruct (stream_spec fails t root w C NF) as (C' & a & b & F & T & _). destruct (IH _ C') as [A B]. split.
  - rewrite A, F, app_length. cbn [List.length]. lia.
  - intros i. rewrite B, T. reflexivity.
Qed.
Print Assumptions C82_restarts.

Lemma aget_app_out (a b : list (Z * Z)) k : ~ In k (keys a) -> aget (a ++ b) k = aget b k.
Proof.
  induction a as [|[k' v] a IH]; intros N; [reflexivity|]. cbn [app aget]. destruct (eqb k k') eqn:E.
  - apply eqb_true in E. exfalso. apply N. left. symmetry. exact E.
  - apply IH. intros I. apply N. right. exact I.
Qed.
Lemma stream_ok fails t root w : clean w -> (forall K k, fails K k = false) -> fst (openStream fails t root w) = true.
Proof.
  intros C NF. unfold openStream, withRootNS, openNs. rewrite NF. unfold withNS, openNs. cbn [fst snd tick thr fds nxt tabs]. rewrite NF. set (w1 := {| thr := thr w |}).
  assert (H1 : nsOf w1 (nxt w) = Some root).
  { unfold nsOf, w1. cbn [fds]. rewrite <- app_assoc. rewrite (aget_app_out (fds w)); [cbn [app aget]; rewrite eqb_refl; reflexivity|]. exact (clean_fresh w C). }
  assert (H2 : nsOf w1 (nxt w + 1) = Some (thr w t)).
  { unfold nsOf, w1. cbn [fds]. rewrite aget_app_out; [cbn [aget]; rewrite eqb_refl; reflexivity|].
    rewrite keys_app. intros I. apply in_app_or in I. destruct C as [P _]. rewrite Forall_forall in P. destruct I as [I|[I|[]]].
    - unfold keys in I. apply in_map_iff in I. destruct I as (p & Ep & I). apply P in I. lia.
    - cbn [fst] in I. lia. }
  destruct (sameNs w1 (nxt w) (nxt w + 1)); [rewrite NF; reflexivity|]. rewrite NF, H1, NF, NF.
  change (nsOf (tock (setThr t root (tock w1))) (nxt w + 1)) with (nsOf w1 (nxt w + 1)). rewrite H2. reflexivity.
Qed.
(** A whole start without failures: both tables of every wanted namespace are read, and the handles left are one for each reading and two for the stream. *)
Theorem C82_whole_start fails peer pick4 pick6 t all root procs4 procs6 w : clean w -> (forall K k, fails K k = false) ->
  exists w', startOnce fails peer pick4 pick6 t all root procs4 procs6 w = (true, w') /\ tabs w' = tabs w ++ wanted all root peer procs4 ++ wanted all root peer procs6 /\ (forall i, thr w' i = thr w i) /\ List.length (fds w') = (List.length (fds w) + List.length (wanted all root peer procs4) + List.length (wanted all root peer procs6) + 2)%nat.
Proof.
  intros C NF. unfold startOnce. pose proof (dump_spec fails peer pick4 all root procs4 w C) as S. destruct (dumpTable fails peer pick4 all root procs4 w) as [b w1].
  destruct S as (e1 & t1 & A1 & A2 & _ & _ & C1 & A3 & A4). destruct (A4 NF) as (-> & -> & A5). clear A4.
  pose proof (dump_spec fails peer pick6 all root procs6 w1 C1) as S. destruct (dumpTable fails peer pick6 all root procs6 w1) as [b w2].
  destruct S as (e2 & t2 & B1 & B2 & _ & _ & C2 & B3 & B4). destruct (B4 NF) as (-> & -> & B5). clear B4.
  destruct (stream_spec fails t root w2 C2 NF) as (_ & x & y & F & T & U). pose proof (stream_ok fails t root w2 C2 NF) as O.
  destruct (openStream fails t root w2) as [b w3]. cbn [fst snd] in *. subst b. exists w3. split; [reflexivity|]. split; [rewrite U, B2, A2, app_assoc; reflexivity|].
  split; [intros i; rewrite T, (B3 (fun k => NF KReturn k)); apply A3; intros k; apply NF|]. rewrite F, B1, A1, !app_length. cbn [List.length]. lia.
Qed.
Print Assumptions C82_whole_start.

(** So no limit on open files is large enough for a collector that lives long. *)
Theorem C82_limit_refuted : ~ exists limit : nat, forall fails root ts w, clean w -> (forall K k, fails K k = false) -> fds w = [] ->
  (List.length (fds (restarts fails ts root w)) <= limit)%nat.
Proof.
  intros [limit H]. specialize (H (fun _ _ => false) 10 (repeat 0%nat (S limit)) exW exW_clean (fun _ _ => eq_refl) eq_refl).
  destruct (C82_restarts (fun _ _ => false) 10 (repeat 0%nat (S limit)) exW exW_clean (fun _ _ => eq_refl)) as [E _]. rewrite E, repeat_length in H. lia.
Qed.
Print Assumptions C82_limit_refuted.

(** ** The start of the tracker *)
Lemma crun_inv ok : forall es s s', (q_caller s = CWaiting \/ q_caller s = CTimedOut \/ q_caller s = CResult ok /\ q_setup s = SReported) -> crunTo ok s es = Some s' ->
  q_caller s' = CWaiting \/ q_caller s' = CTimedOut \/ q_caller s' = CResult ok /\ q_setup s' = SReported.
Proof.
  induction es as [|e es IH]; intros s s' I R; cbn [crunTo] in R; [inversion R; subst; exact I|]. destruct (cnext ok s e) as [s1|] eqn:E; [|discriminate R].
  apply (IH s1 s'); [|exact R]. unfold cnext in E. destruct e, (q_setup s) eqn:Q, (q_caller s) eqn:K; inversion E; subst; cbn [q_caller q_setup];
    destruct I as [I|[I|[I J]]]; try discriminate; auto.
Qed.
(** What the caller is told is what the set-up found; otherwise it is told that the time is over. *)
Theorem C82_start ok es s : crunTo ok cstart es = Some s -> q_caller s = CWaiting \/ q_caller s = CTimedOut \/ q_caller s = CResult ok /\ q_setup s = SReported.
Proof. intros R. apply (crun_inv ok es cstart s); [left; reflexivity|exact R]. Qed.
Print Assumptions C82_start.

(** As long as the caller waits it can be released, by the report or by the timer. *)
Theorem C82_released ok es s : crunTo ok cstart es = Some s -> q_caller s = CWaiting -> exists e s', cnext ok s e = Some s' /\ q_caller s' <> CWaiting.
Proof.
  intros R W. exists ETimer. unfold cnext. rewrite W. destruct (q_setup s); eexists; (split; [reflexivity|]); cbn [q_caller]; discriminate.
Qed.
Print Assumptions C82_released.

(** A caller whose time was over leaves the set-up waiting for ever, and with it a tracker that runs, reads and fills its cache although nobody can use or stop it. *)
Theorem C82_left_running_refuted : ~ forall ok es s, crunTo ok cstart es = Some s -> q_caller s = CTimedOut -> exists es' s', crunTo ok s es' = Some s' /\ q_setup s' = SReported.
Proof.
  intros H. destruct (H true [ETimer; ESetUp] {| q_caller := CTimedOut; q_setup := SReporting; q_running := true |} eq_refl eq_refl) as (es' & s' & R & Q).
  destruct es' as [|e es']; cbn [crunTo] in R; [inversion R; subst; discriminate Q|]. destruct e; discriminate R.
Qed.
Print Assumptions C82_left_running_refuted.

(** ** Examples *)
Example C82_example : let w := snd (dumpTable (fun _ _ => false) (fun x => negb (x =? 13)) (fun k => k) true 10 [10; 11; 13; 11; 12; 10] exW) in
  (tabs w, List.length (fds w), wanted true 10 (fun x => negb (x =? 13)) [10; 11; 13; 11; 12; 10]) = ([10; 11; 12], 3%nat, [10; 11; 12]).
Proof. vm_compute. reflexivity. Qed.
(** The second opening of a handle fails: the namespace is found through its next process. *)
Example C82_example_fault : tabs (snd (dumpTable (fun K k => match K with KOpen => (k =? 2)%nat | _ => false end) (fun _ => true) (fun k => k) true 10 [10; 11; 12; 11] exW)) = [10; 12; 11].
Proof. vm_compute. reflexivity. Qed.
Example C82_start_example : crunTo true cstart [ESetUp; EReport] = Some {| q_caller := CResult true; q_setup := SReported; q_running := true |}.
Proof. reflexivity. Qed.
