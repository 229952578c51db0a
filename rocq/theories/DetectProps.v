(** C17: the parser list of a port.  C18: which protocol a request is labelled with. *)
From Verif Require Import Base DetectModel DetectSpec DetectProofs.
Open Scope string_scope. Open Scope list_scope. Open Scope Z_scope.

Lemma added_nodup port : forall l acc, NoDup acc -> NoDup (added port l acc).
Proof.
  induction l as [|o l IH]; intros acc ND; [exact ND|]. destruct o as [q p|q p]; cbn [added]; apply IH; destruct (eqb q port); try exact ND.
  - destruct (in_dec string_dec p acc); [exact ND|]. apply NoDup_snoc; assumption.
  - apply without_nodup. exact ND.
Qed.
Lemma copRun_ok : forall l c (acc : Z -> list pname), (forall port, NoDup (acc port)) ->
  (forall port, cachedParsers c port = arranged (acc port)) ->
  exists c', copRun c l = Ok c' /\ forall port, cachedParsers c' port = arranged (added port l (acc port)).
Proof.
  induction l as [|o l IH]; intros c acc ND E.
  - exists c. split; [reflexivity|]. exact E.
  - destruct o as [q p|q p]; cbn [copRun copStep bind].
    + destruct (IH (addCached c q p) (fun port => if eqb q port then (if in_dec string_dec p (acc port) then acc port else acc port ++ [p]) else acc port)) as (c' & R & G).
      * intros port. destruct (eqb q port); [|apply ND]. destruct (in_dec string_dec p (acc port)); [apply ND|]. apply NoDup_snoc; [apply ND|assumption].
      * intros port. rewrite (addCached_ok c q p (acc q) (E q)). rewrite (eqb_sym port q). case_eqb q port; [subst; reflexivity|apply E].
      * exists c'. split; [exact R|]. intros port. rewrite G. reflexivity.
    + destruct (removeCached_ok c q p) as (c1 & R1 & G1).
      * intros val V. specialize (E q). unfold cachedParsers in E. rewrite V in E. subst val. apply arranged_nodup, ND.
      * rewrite R1. cbn [bind]. destruct (IH c1 (fun port => if eqb q port then without p (acc port) else acc port)) as (c' & R & G).
        -- intros port. destruct (eqb q port); [apply without_nodup|]; apply ND.
        -- intros port. rewrite G1. rewrite (eqb_sym port q). case_eqb q port; [|apply E]. rewrite E. apply arranged_without.
        -- exists c'. split; [exact R|]. intros port. rewrite G. reflexivity.
Qed.

(** After any additions and removals, for every port, the list holds exactly the protocols added and not removed since,
    in the order of their addition, with the generic parser moved to the end; nothing panics. *)
Theorem C17_list_content : forall l, exists c, copRun [] l = Ok c /\
  forall port, cachedParsers c port = expectedParsers port l.
Proof.
  intros l. destruct (copRun_ok l [] (fun _ => [])) as (c & R & G).
  - intros port. constructor.
  - intros port. reflexivity.
  - exists c. split; [exact R|]. exact G.
Qed.
Print Assumptions C17_list_content.
(** Each protocol at most once; nothing comes after the generic parser. *)
Theorem C17_no_duplicates_generic_last : forall l c port, copRun [] l = Ok c ->
  NoDup (cachedParsers c port) /\ (forall l1 l2, cachedParsers c port = l1 ++ NOSUPPORT :: l2 -> l2 = []).
Proof.
  intros l c port H. destruct (C17_list_content l) as (c' & R & G). rewrite R in H. inversion H; subst c'. rewrite G. split.
  - apply arranged_nodup, added_nodup. constructor.
  - intros l1 l2 E. exact (arranged_tail _ _ _ E).
Qed.
Print Assumptions C17_no_duplicates_generic_last.
Example C17_example :
  let l := [CAdd 80 NOSUPPORT; CAdd 80 "http"; CAdd 81 "dns"; CAdd 80 "redis"; CAdd 80 "http"; CRemove 80 "http"; CAdd 80 "http"; CRemove 81 NOSUPPORT] in
  exists c, copRun [] l = Ok c /\ cachedParsers c 80 = ["redis"; "http"; NOSUPPORT] /\ cachedParsers c 81 = ["dns"] /\ cachedParsers c 82 = [].
Proof. eexists. split; [vm_compute; reflexivity|]. vm_compute. auto. Qed.

Section C18.
  Context {X R : Type} (port : X -> Z) (hasRequest : X -> bool) (parse : pname -> X -> option R).
  Notation run := (runDetect port hasRequest parse).
  Notation times := (timesChosen (R:=R) port).

  Lemma firstAccepting_some l x p r : firstAccepting parse l x = Some (p, r) ->
    exists before after, l = before ++ p :: after /\ parse p x = Some r /\ forall q, In q before -> parse q x = None.
  Proof.
    induction l as [|a l IH]; cbn [firstAccepting]; [discriminate|]. destruct (parse a x) as [r0|] eqn:E.
    - intros H; inversion H; subst. exists [], l. split; [reflexivity|]. split; [exact E|]. intros q [].
    - intros H. destruct (IH H) as (b & c & E1 & E2 & E3). exists (a :: b), c. split; [rewrite E1; reflexivity|]. split; [exact E2|].
      intros q [<-|I]; auto.
  Qed.
  Lemma firstAccepting_none l x : firstAccepting parse l x = None -> forall q, In q l -> parse q x = None.
  Proof.
    induction l as [|a l IH]; cbn [firstAccepting]; intros H q I; [destruct I|]. destruct (parse a x) eqn:E; [discriminate|].
    destruct I as [<-|I]; [exact E|exact (IH H q I)].
  Qed.
  Lemma runDetect_snoc k x : forall l s vs s', run k s l = Ok (vs, s') ->
    run k s (l ++ [x]) = bind (parseProtocols port hasRequest parse k s' x) (fun a => Ok (vs ++ [fst a], snd a)).
  Proof.
    induction l as [|y l IH]; intros s vs s' H.
    - inversion H; subst. cbn [app runDetect]. destruct (parseProtocols port hasRequest parse k s' x) as [[v t]| |]; reflexivity.
    - cbn [app runDetect] in *. destruct (parseProtocols port hasRequest parse k s y) as [[v t]| |]; [|discriminate|discriminate].
      cbn [bind snd fst] in *. destruct (run k t l) as [[vs1 t1]| |] eqn:E1; [|discriminate|discriminate]. cbn [bind fst snd] in H. inversion H; subst.
      rewrite (IH _ _ _ E1). destruct (parseProtocols port hasRequest parse k s' x) as [[v2 t2]| |]; reflexivity.
  Qed.
  Lemma run_length k : forall l s vs s', run k s l = Ok (vs, s') -> List.length vs = List.length l.
  Proof.
    induction l as [|y l IH]; intros s vs s' H; [inversion H; reflexivity|]. cbn [runDetect] in H.
    destruct (parseProtocols port hasRequest parse k s y) as [[v t]| |]; [|discriminate|discriminate]. cbn [bind snd fst] in H.
    destruct (run k t l) as [[vs1 t1]| |] eqn:E1; [|discriminate|discriminate]. inversion H; subst. cbn [List.length]. f_equal. exact (IH _ _ _ E1).
  Qed.
  Lemma times_snoc k pt p x v : forall l vs, List.length vs = List.length l ->
    times k pt p (l ++ [x]) (vs ++ [v]) = times k pt p l vs + (if (port x =? pt) && negb (ahas (static k) pt) && chosenBy p v then 1 else 0).
  Proof.
    induction l as [|y l IH]; intros [|w vs] E; try discriminate; cbn [app timesChosen]; [lia|]. inversion E. rewrite (IH vs) by assumption. lia.
  Qed.
  Lemma times_nonneg k pt p : forall l vs, 0 <= times k pt p l vs.
  Proof. induction l as [|y l IH]; intros [|w vs]; cbn [timesChosen]; try lia. specialize (IH vs). destruct (_ && _); lia. Qed.

  (** what the counters and the cache hold, from the number of detections *)
  Definition countOf (p : pname) (n : Z) : Z := if eqb p NOSUPPORT then n mod 5000 else Z.min n 50.
  Definition good (k : dconf) (l : list X) (vs : list verdict) (s : dstate) : Prop :=
    (forall pt, exists a, NoDup a /\ cachedParsers (d_cache s) pt = arranged a) /\
    forall pt, ahas (static k) pt = false -> forall p,
      (In p (cachedParsers (d_cache s) pt) <-> remembered p (times k pt p l vs)) /\
      (match aget (d_count s) (p, pt) with Some v => v | None => 0 end) = countOf p (times k pt p l vs) /\
      (forall v, aget (d_count s) (p, pt) = Some v -> 1 <= v).

  Lemma addPortCount_get n p pt (v0 : Z) : (match aget n (p, pt) with Some v => v | None => 0 end) = v0 -> 0 <= v0 <= 5000 ->
    addPortCount n p pt = (aset n (p, pt) (v0 + 1), v0 + 1).
  Proof.
    unfold addPortCount. intros H B. destruct (aget n (p, pt)) as [v|]; subst; [|reflexivity]. unfold w32. rewrite Z.mod_small by lia. reflexivity.
  Qed.
  Lemma mod_next n : 0 <= n -> n mod 5000 <> 4999 -> (n + 1) mod 5000 = n mod 5000 + 1.
  Proof. intros. pose proof (Z.div_mod n 5000). pose proof (Z.mod_pos_bound n 5000). symmetry. apply Z.mod_unique with (n / 5000); lia. Qed.
  Lemma mod_wrap n : 0 <= n -> n mod 5000 = 4999 -> (n + 1) mod 5000 = 0.
  Proof. intros. pose proof (Z.div_mod n 5000). symmetry. apply Z.mod_unique with (n / 5000 + 1); lia. Qed.
  Lemma pair_ne (p q : pname) (a b : Z) : (p, a) <> (q, b) -> p <> q \/ a <> b.
  Proof. intros N. destruct (string_dec p q); [|auto]. destruct (Z.eq_dec a b); [|auto]. subst. congruence. Qed.

  Lemma same_times k pt p l vs x v : List.length vs = List.length l -> (port x =? pt) && negb (ahas (static k) pt) && chosenBy p v = false ->
    times k pt p (l ++ [x]) (vs ++ [v]) = times k pt p l vs.
  Proof. intros L E. rewrite times_snoc by exact L. rewrite E. lia. Qed.

  Lemma step_good k l vs s x : List.length vs = List.length l -> good k l vs s ->
    exists v s', parseProtocols port hasRequest parse k s x = Ok (v, s') /\ good k (l ++ [x]) (vs ++ [v]) s' /\
    (aget (static k) (port x) = None -> hasRequest x = true ->
     match v with
     | ConnectFail => False
     | Parsed p r => firstAccepting parse (cachedParsers (d_cache s) (port x) ++ tried k) x = Some (p, r)
     | Unparsed q => q = NOSUPPORT /\ firstAccepting parse (cachedParsers (d_cache s) (port x) ++ tried k) x = None
     end).
  Proof.
    intros L (G1 & G2).
    assert (FA : forall a b y, firstAccepting parse (a ++ b) y = match firstAccepting parse a y with Some z => Some z | None => firstAccepting parse b y end).
    { induction a as [|q a IH]; intros b y; [reflexivity|]. cbn [app firstAccepting]. destruct (parse q y); [reflexivity|apply IH]. }
    assert (KEEP : forall v, (forall pt p, (port x =? pt) && negb (ahas (static k) pt) && chosenBy p v = false) -> good k (l ++ [x]) (vs ++ [v]) s).
    { intros v HV. split; [exact G1|]. intros pt NS p. rewrite same_times by auto. exact (G2 pt NS p). }
    unfold parseProtocols. destruct (aget (static k) (port x)) as [sp|] eqn:ST.
    - assert (NO : forall (v : verdict (R:=R)) pt p, (port x =? pt) && negb (ahas (static k) pt) && chosenBy p v = false).
      { intros v pt p. destruct (Z.eqb_spec (port x) pt) as [<-|]; [|reflexivity]. unfold ahas. rewrite ST. reflexivity. }
      destruct (hasRequest x); cbn [negb].
      + destruct (if member sp (known k) then parse sp x else None); eexists; eexists; (split; [reflexivity|]); (split; [apply KEEP, NO|discriminate]).
      + eexists; eexists; (split; [reflexivity|]); (split; [apply KEEP, NO|discriminate]).
    - assert (NS0 : ahas (static k) (port x) = false) by (unfold ahas; rewrite ST; reflexivity).
      destruct (hasRequest x); cbn [negb].
      2:{ eexists; eexists; (split; [reflexivity|]). split; [|discriminate]. apply KEEP. intros pt p. apply andb_false_r. }
      rewrite FA. destruct (firstAccepting parse (cachedParsers (d_cache s) (port x)) x) as [(p0, r)|] eqn:F1.
      + destruct (firstAccepting_some _ _ _ _ F1) as (bef & aft & LST & _ & _).
        assert (INP : In p0 (cachedParsers (d_cache s) (port x))) by (rewrite LST; apply in_or_app; right; left; reflexivity).
        pose proof (proj1 (proj1 (G2 (port x) NS0 p0)) INP) as REM.
        case_eqb NOSUPPORT p0.
        * subst p0. destruct (G2 (port x) NS0 NOSUPPORT) as (_ & CNT & _). unfold countOf in CNT. rewrite eqb_refl in CNT.
          unfold remembered in REM. rewrite eqb_refl in REM.
          set (n := times k (port x) NOSUPPORT l vs) in *. pose proof (times_nonneg k (port x) NOSUPPORT l vs) as NN. fold n in NN.
          pose proof (Z.mod_pos_bound n 5000 ltac:(lia)) as MB.
          rewrite (addPortCount_get _ _ _ (n mod 5000) CNT ltac:(lia)). unfold CACHE_RESET_THRESHOLD.
          assert (TN : times k (port x) NOSUPPORT (l ++ [x]) (vs ++ [Parsed NOSUPPORT r]) = n + 1).
          { rewrite times_snoc by exact L. rewrite Z.eqb_refl, NS0. cbn [chosenBy]. rewrite eqb_refl. reflexivity. }
          assert (TO : forall pt p, (p, pt) <> (NOSUPPORT, port x) -> times k pt p (l ++ [x]) (vs ++ [Parsed NOSUPPORT r]) = times k pt p l vs).
          { intros pt p N. apply same_times; [exact L|]. destruct (pair_ne _ _ _ _ N) as [N2|N2].
            - cbn [chosenBy]. rewrite (proj2 (eqb_neq NOSUPPORT p)) by congruence. apply andb_false_r.
            - replace (port x =? pt) with false by lia. reflexivity. }
          destruct (Z.eqb_spec (n mod 5000 + 1) 5000) as [W|W].
          -- destruct (removeCached_ok (d_cache s) (port x) NOSUPPORT) as (c' & RC & GC).
             { intros val V. destruct (G1 (port x)) as (a & ND & EA). unfold cachedParsers in EA. rewrite V in EA. subst val. apply arranged_nodup. exact ND. }
             rewrite RC. cbn [bind]. eexists; eexists; (split; [reflexivity|]). split; [|auto].
             split; cbn [d_cache d_count].
             ++ intros pt. rewrite GC. destruct (G1 pt) as (a & ND & EA). case_eqb pt (port x); [|eauto].
                exists (without NOSUPPORT a). split; [apply without_nodup; exact ND|]. rewrite EA. apply arranged_without.
             ++ intros pt NS p. rewrite GC. unfold resetPort. rewrite !aget_adel.
                case_eqb (p, pt) (NOSUPPORT, port x).
                ** injection E as -> ->. rewrite eqb_refl. rewrite TN. split; [|split].
                   --- rewrite without_in. unfold remembered. rewrite eqb_refl, (mod_wrap n) by lia. split; [tauto|lia].
                   --- unfold countOf. rewrite eqb_refl, (mod_wrap n) by lia. reflexivity.
                   --- discriminate.
                ** rewrite aget_aset. rewrite (proj2 (eqb_neq _ _) E). rewrite (TO _ _ E). destruct (G2 pt NS p) as (A1 & A2 & A3).
                   split; [|split; [exact A2|exact A3]]. case_eqb pt (port x); [|exact A1]. subst pt. rewrite without_in, A1. split; [tauto|]. intros H. split; [exact H|congruence].
          -- eexists; eexists; (split; [reflexivity|]). split; [|auto]. split; cbn [d_cache d_count]; [exact G1|].
             intros pt NS p. rewrite !aget_aset. case_eqb (p, pt) (NOSUPPORT, port x).
             ++ injection E as -> ->. rewrite TN. split; [|split].
                ** rewrite (proj1 (G2 (port x) NS0 NOSUPPORT)). unfold remembered. rewrite eqb_refl. fold n. rewrite (mod_next n) by lia. lia.
                ** unfold countOf. rewrite eqb_refl, (mod_next n) by lia. reflexivity.
                ** intros v V. inversion V. lia.
             ++ rewrite (TO _ _ E). exact (G2 pt NS p).
        * unfold remembered in REM. rewrite (proj2 (eqb_neq p0 NOSUPPORT)) in REM by congruence.
          eexists; eexists; (split; [reflexivity|]). split; [|auto]. split; [exact G1|].
          intros pt NS p. destruct (G2 pt NS p) as (A1 & A2 & A3).
          case_eqb (p, pt) (p0, port x).
          -- injection E0 as -> ->. rewrite times_snoc by exact L. rewrite Z.eqb_refl, NS0. cbn [chosenBy negb andb]. rewrite eqb_refl.
             unfold remembered, countOf in *. rewrite (proj2 (eqb_neq p0 NOSUPPORT)) in * by congruence. split; [|split; [|exact A3]].
             ++ rewrite A1. lia.
             ++ rewrite A2. lia.
          -- rewrite same_times; [auto|exact L|]. destruct (pair_ne _ _ _ _ E0) as [N2|N2].
             ++ cbn [chosenBy]. rewrite (proj2 (eqb_neq p0 p)) by congruence. apply andb_false_r.
             ++ replace (port x =? pt) with false by lia. reflexivity.
      + pose proof (firstAccepting_none _ _ F1) as REJ.
        destruct (firstAccepting parse (tried k) x) as [(p0, r)|] eqn:F2.
        2:{ eexists; eexists; (split; [reflexivity|]). split; [|auto]. apply KEEP. intros pt p. apply andb_false_r. }
        destruct (firstAccepting_some _ _ _ _ F2) as (_ & _ & _ & ACC & _).
        assert (NIN : ~ In p0 (cachedParsers (d_cache s) (port x))) by (intros I; specialize (REJ _ I); congruence).
        destruct (G2 (port x) NS0 p0) as (A1 & A2 & A3).
        set (n := times k (port x) p0 l vs) in *. pose proof (times_nonneg k (port x) p0 l vs) as NN. fold n in NN.
        assert (LOW : countOf p0 n < 50 /\ 0 <= countOf p0 n /\ countOf p0 (n + 1) = countOf p0 n + 1 /\ (remembered p0 (n + 1) <-> countOf p0 n + 1 = 50)).
        { rewrite A1 in NIN. unfold remembered, countOf in *. case_eqb p0 NOSUPPORT; [|lia].
          pose proof (Z.mod_pos_bound n 5000 ltac:(lia)). rewrite (mod_next n) by lia. lia. }
        destruct LOW as (L1 & L2 & L3 & L4).
        rewrite (addPortCount_get _ _ _ _ A2) by lia. unfold CACHE_ADD_THRESHOLD.
        assert (TN : times k (port x) p0 (l ++ [x]) (vs ++ [Parsed p0 r]) = n + 1).
        { rewrite times_snoc by exact L. rewrite Z.eqb_refl, NS0. cbn [chosenBy negb andb]. rewrite eqb_refl. reflexivity. }
        assert (TO : forall pt p, (p, pt) <> (p0, port x) -> times k pt p (l ++ [x]) (vs ++ [Parsed p0 r]) = times k pt p l vs).
        { intros pt p N. apply same_times; [exact L|]. destruct (pair_ne _ _ _ _ N) as [N2|N2].
          - cbn [chosenBy]. rewrite (proj2 (eqb_neq p0 p)) by congruence. apply andb_false_r.
          - replace (port x =? pt) with false by lia. reflexivity. }
        eexists; eexists; (split; [reflexivity|]). split; [|auto]. destruct (G1 (port x)) as (a & ND & EA).
        destruct (Z.eqb_spec (countOf p0 n + 1) 50) as [W|W].
        * pose proof (addCached_ok (d_cache s) (port x) p0 a EA) as AD.
          assert (NA : ~ In p0 a) by (rewrite EA in NIN; rewrite arranged_in in NIN; exact NIN).
          destruct (in_dec string_dec p0 a) as [I|_]; [contradiction|].
          split; cbn [d_cache d_count].
          -- intros pt. rewrite AD. case_eqb pt (port x); [|apply G1]. exists (a ++ [p0]). split; [apply NoDup_snoc; assumption|reflexivity].
          -- intros pt NS p. rewrite AD, aget_aset. case_eqb (p, pt) (p0, port x).
             ++ injection E as -> ->. rewrite TN, eqb_refl. split; [|split].
                ** rewrite arranged_in, in_app_iff. cbn [In]. rewrite L4. tauto.
                ** rewrite L3. reflexivity.
                ** intros v V. inversion V. lia.
             ++ rewrite (TO _ _ E). destruct (G2 pt NS p) as (B1 & B2 & B3). split; [|auto]. case_eqb pt (port x); [|exact B1]. subst pt.
                rewrite <- B1, EA, !arranged_in, in_app_iff. cbn [In]. intuition congruence.
        * split; cbn [d_cache d_count]; [exact G1|]. intros pt NS p. rewrite aget_aset. case_eqb (p, pt) (p0, port x).
          -- injection E as -> ->. rewrite TN. split; [|split].
             ++ rewrite L4. tauto.
             ++ rewrite L3. reflexivity.
             ++ intros v V. inversion V. lia.
          -- rewrite (TO _ _ E). exact (G2 pt NS p).
  Qed.
  Lemma run_good k : forall l, exists vs s, run k initDetect l = Ok (vs, s) /\ good k l vs s.
  Proof.
    induction l as [|x l IH] using rev_ind.
    - exists [], initDetect. split; [reflexivity|]. split.
      + intros pt. exists []. split; [constructor|reflexivity].
      + intros pt NS p. split; [|split].
        * cbn [initDetect d_cache cachedParsers aget timesChosen]. unfold remembered. split; [intros []|]. destruct (eqb p NOSUPPORT); [rewrite Z.mod_0_l|]; lia.
        * cbn [initDetect d_count aget timesChosen]. unfold countOf. destruct (eqb p NOSUPPORT); reflexivity.
        * discriminate.
    - destruct IH as (vs & s & E & G). pose proof (run_length _ _ _ _ _ E) as L.
      destruct (step_good k l vs s x L G) as (v & s' & P & G' & _). exists (vs ++ [v]), s'. split; [|exact G'].
      rewrite (runDetect_snoc k x _ _ _ _ E), P. reflexivity.
  Qed.

  (** For every configuration and history: the detector never panics, and it remembers for a port exactly the protocols
      detected there at least 50 times, and "no protocol" from the 50th to the 4999th of every 5000 detections of it. *)
  Theorem C18_remembered_exactly : forall k l, exists vs s, run k initDetect l = Ok (vs, s) /\
    forall pt, ahas (static k) pt = false -> forall p,
      In p (cachedParsers (d_cache s) pt) <-> remembered p (times k pt p l vs).
  Proof. intros k l. destruct (run_good k l) as (vs & s & E & _ & G). exists vs, s. split; [exact E|]. intros pt NS p. apply (G pt NS p). Qed.

  (** The label of the next request on a port without a static protocol is the first accepting parser among the
      remembered ones (each once, the generic one last) and then the configured ones, with that parser's records. *)
  Theorem C18_first_accepting : forall k l x vs s, run k initDetect l = Ok (vs, s) ->
    aget (static k) (port x) = None -> hasRequest x = true ->
    exists mem v s', run k initDetect (l ++ [x]) = Ok (vs ++ [v], s') /\
      (forall p, In p mem <-> remembered p (times k (port x) p l vs)) /\ NoDup mem /\ (forall l1 l2, mem = l1 ++ NOSUPPORT :: l2 -> l2 = []) /\
      ((exists before p after r, mem ++ tried k = before ++ p :: after /\ parse p x = Some r /\ (forall q, In q before -> parse q x = None) /\ v = Parsed p r) \/
       ((forall q, In q (mem ++ tried k) -> parse q x = None) /\ v = Unparsed NOSUPPORT)).
  Proof.
    intros k l x vs s E ST HR. destruct (run_good k l) as (vs1 & s1 & E1 & G). rewrite E in E1. inversion E1; subst vs1 s1. clear E1.
    pose proof (run_length _ _ _ _ _ E) as L. destruct (step_good k l vs s x L G) as (v & s' & P & _ & V). specialize (V ST HR).
    exists (cachedParsers (d_cache s) (port x)), v, s'. destruct G as (G1 & G2). destruct (G1 (port x)) as (a & ND & EA). split; [|split; [|split; [|split]]].
    - rewrite (runDetect_snoc k x _ _ _ _ E), P. reflexivity.
    - intros p. apply G2. unfold ahas. rewrite ST. reflexivity.
    - rewrite EA. apply arranged_nodup. exact ND.
    - rewrite EA. apply arranged_tail.
    - destruct v as [|p r|q].
      + destruct V.
      + left. destruct (firstAccepting_some _ _ _ _ V) as (b & c & Q1 & Q2 & Q3). exists b, p, c, r. auto.
      + right. destruct V as (-> & V). split; [|reflexivity]. exact (firstAccepting_none _ _ V).
  Qed.

  (** A request on a port with a static protocol gets that protocol, whatever the bytes look like; a connection without a
      request is reported as a failed connect; neither changes what is remembered. *)
  Theorem C18_static_port : forall k s x sp, aget (static k) (port x) = Some sp -> hasRequest x = true ->
    exists v, parseProtocols port hasRequest parse k s x = Ok (v, s) /\
      (v = Unparsed sp \/ exists r, In sp (known k) /\ parse sp x = Some r /\ v = Parsed sp r) /\
      (forall r, In sp (known k) -> parse sp x = Some r -> v = Parsed sp r).
  Proof.
    intros k s x sp ST HR. unfold parseProtocols. rewrite ST, HR. cbn [negb]. destruct (member sp (known k)) eqn:M.
    - apply member_in in M. destruct (parse sp x) as [r|] eqn:P; eexists; (split; [reflexivity|]).
      + split; [right; eauto|]. intros r0 _ H. congruence.
      + split; [auto|]. discriminate.
    - eexists; (split; [reflexivity|]). split; [auto|]. intros r I. apply member_in in I. congruence.
  Qed.
  Theorem C18_connect_only : forall k s x, hasRequest x = false -> parseProtocols port hasRequest parse k s x = Ok (ConnectFail, s).
  Proof. intros k s x H. unfold parseProtocols. rewrite H. cbn [negb]. destruct (aget (static k) (port x)); reflexivity. Qed.
End C18.
Print Assumptions C18_remembered_exactly.
Print Assumptions C18_first_accepting.
Print Assumptions C18_static_port.
Print Assumptions C18_connect_only.

(** The configured protocols, in their order, without unknown or disabled ones, and the generic parser at the end. *)
Theorem C18_configured_parsers : forall ports configured have hidden,
  exists keep front, tried (startConf ports configured have hidden) = front ++ [NOSUPPORT] /\ front = filter keep configured /\
  (forall p, In p front <-> In p configured /\ In p have /\ ~ In p hidden) /\
  (forall p, In p (known (startConf ports configured have hidden)) <-> In p configured /\ In p have).
Proof.
  intros ports configured have hidden. exists (fun p => member p have && negb (member p hidden)). eexists. split; [reflexivity|]. split; [|split].
  - induction configured as [|p l IH]; [reflexivity|]. cbn [filter]. destruct (member p have); cbn [andb filter]; [|exact IH].
    destruct (negb (member p hidden)); [f_equal|]; exact IH.
  - intros p. rewrite !filter_In, member_in, negb_true_iff. rewrite <- not_true_iff_false, member_in. tauto.
  - intros p. cbn [startConf known]. rewrite filter_In, member_in. reflexivity.
Qed.
Print Assumptions C18_configured_parsers.

(** A sample configuration: a message is a port and the name of the protocol its bytes belong to. *)
Definition sampleParse (p : pname) (x : Z * pname) : option unit := if eqb p NOSUPPORT || eqb p (snd x) then Some tt else None.
Definition sampleConf : dconf := startConf [(3306, "mysql")] ["http"; "redis"; "ghost"; "mysql"] ["http"; "redis"; "mysql"; NOSUPPORT] ["mysql"].
Definition verdicts (l : list (Z * pname)) := match runDetect fst (fun _ => true) sampleParse sampleConf initDetect l with Ok (vs, _) => vs | _ => [] end.
Example C18_example : tried sampleConf = ["http"; "redis"; NOSUPPORT] /\
  verdicts [(80, "redis"); (80, "http"); (80, "xx"); (3306, "http"); (3306, "mysql"); (81, "mysql")] =
  [Parsed "redis" tt; Parsed "http" tt; Parsed NOSUPPORT tt; Unparsed "mysql"; Parsed "mysql" tt; Parsed NOSUPPORT tt].
Proof. vm_compute. auto. Qed.

(** Finding: a port that carried 50 unrecognised messages stops recognising new protocols: a plain HTTP request, which
    the configured HTTP parser accepts, is labelled "no protocol"; 4950 messages later it is recognised again. *)
Theorem C18_new_protocol_shadowed_refuted :
  exists junk x, In "http" (tried sampleConf) /\ sampleParse "http" x = Some tt /\
    verdicts [x] = [Parsed "http" tt] /\
    last (verdicts (repeat junk 49 ++ [x])) ConnectFail = Parsed "http" tt /\
    last (verdicts (repeat junk 50 ++ [x])) ConnectFail = Parsed NOSUPPORT tt /\
    last (verdicts (repeat junk (Z.to_nat 4999) ++ [x])) ConnectFail = Parsed NOSUPPORT tt /\
    last (verdicts (repeat junk (Z.to_nat 5000) ++ [x])) ConnectFail = Parsed "http" tt.
Proof. exists (80, "xx"), (80, "http"). vm_compute. auto 10. Qed.
Print Assumptions C18_new_protocol_shadowed_refuted.
