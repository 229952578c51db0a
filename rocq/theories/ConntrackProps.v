(** Properties C34, C35 and the conntrack half of C10. *)
From Verif Require Import Base ConntrackModel ConntrackSpec ConntrackProofs.

(** The tracker serialises every operation with one mutex, so a history is a list of operations.  [run h] is the cache
    after history [h]; a lookup of [k] answers [snd (cGet (run h) k)]. *)

(** C34: whatever a lookup returns is the translation of the latest registration of that key, which was not removed and
    has not expired unused. *)
Theorem C34_lookup_sound :
  forall (maxSize : nat) (timeout : Z) (h : list op) (k : connKey) (t : translation),
    (0 < maxSize)%nat -> monotone h ->
    snd (cGet (runOps maxSize timeout h) k) = Some t ->
    exists orph t0 h2, registered_since h k t orph t0 h2 /\
      (orph = true -> ~ expired_unused timeout k t0 h2).
Proof. intros m to h k t MP. exact (sound m to MP h k t). Qed.
Print Assumptions C34_lookup_sound.

(** C34: a registered key is found with its translation as long as it was not registered again, not removed, has not
    expired unused, and fewer than [maxSize] other keys were used since. *)
Theorem C34_lookup_complete :
  forall (maxSize : nat) (timeout : Z) (h : list op) (k : connKey) (t : translation) (orph : bool) (t0 : Z) (h2 : list op),
    (0 < maxSize)%nat ->
    registered_since h k t orph t0 h2 ->
    (List.length (nodup Eqb_dec (touched k h2)) < maxSize)%nat ->
    (orph = true -> ~ expired_unused timeout k t0 h2) ->
    snd (cGet (runOps maxSize timeout h) k) = Some t.
Proof. intros m to h k t orph t0 h2 MP. exact (complete m to MP h k t orph t0 h2). Qed.
Print Assumptions C34_lookup_complete.

(** C34: a looked-up entry no longer expires, whatever compactions follow. *)
Theorem C34_looked_up_stays :
  forall (maxSize : nat) (timeout : Z) (h a b : list op) (k : connKey) (t : translation) (orph : bool) (t0 : Z),
    (0 < maxSize)%nat ->
    (forall now, In (Compact now) a -> now <= t0 + timeout) ->
    registered_since h k t orph t0 (a ++ Get k :: b) ->
    (List.length (nodup Eqb_dec (touched k (a ++ Get k :: b))) < maxSize)%nat ->
    snd (cGet (runOps maxSize timeout h) k) = Some t.
Proof.
  intros m to h a b k t orph t0 MP C R L. apply (complete m to MP h k t orph t0 _ R L).
  intros _ (a' & now & b' & E & LT & NG).
  assert (J : In (Compact now) a) by (eapply (split_first (fun _ => True)); [exact E|assumption|discriminate]).
  apply C in J. lia.
Qed.
Print Assumptions C34_looked_up_stays.

(** C34: the cache never exceeds its configured size, and neither does the list of entries waiting to expire. *)
Theorem C34_size_bound :
  forall (maxSize : nat) (timeout : Z) (h : list op), (0 < maxSize)%nat ->
    (List.length (lru (runOps maxSize timeout h)) <= maxSize)%nat /\
    (List.length (orphans (runOps maxSize timeout h)) <= maxSize)%nat.
Proof.
  intros m to h MP. split; [apply size_bound; assumption|].
  eapply Nat.le_trans; [apply orphans_bound; assumption|apply size_bound; assumption].
Qed.
Print Assumptions C34_size_bound.

(** C34: a compaction always terminates and reports exactly the number of entries it removed. *)
Theorem C34_compaction_terminates :
  forall (maxSize : nat) (timeout : Z) (h : list op) (now : Z), (0 < maxSize)%nat ->
    exists c n, removeOrphans (runOps maxSize timeout h) now = Some (c, n) /\
      n = zlen (lru (runOps maxSize timeout h)) - zlen (lru c).
Proof. intros m to h now MP. exact (compaction_terminates m to MP h now). Qed.
Print Assumptions C34_compaction_terminates.

(** C34: a compaction removes exactly the keys that were registered, never looked up since, and whose time is over. *)
Theorem C34_compaction_exact :
  forall (maxSize : nat) (timeout : Z) (h : list op) (now : Z) (k : connKey) (t : translation) (orph : bool) (t0 : Z) (h2 : list op),
    (0 < maxSize)%nat -> monotone h ->
    registered_since h k t orph t0 h2 ->
    snd (cGet (runOps maxSize timeout h) k) = Some t ->
    (snd (cGet (runOps maxSize timeout (h ++ [Compact now])) k) = None
       <-> orph = true /\ ~ In (Get k) h2 /\ t0 + timeout < now) /\
    (snd (cGet (runOps maxSize timeout (h ++ [Compact now])) k) = Some t
       <-> ~ (orph = true /\ ~ In (Get k) h2 /\ t0 + timeout < now)).
Proof. intros m to h now k t orph t0 h2 MP. exact (compact_exact m to MP h now k t orph t0 h2). Qed.
Print Assumptions C34_compaction_exact.

(** C34: storing a translated TCP or UDP connection makes the original tuple map to the translated one and the translated
    one to the original, whatever was stored before. *)
Theorem C34_register_both_directions :
  forall (maxSize : nat) (timeout : Z) (h : list op) (os od rs rd : bytes) (osp odp rsp rdp p typ n1 n2 : Z),
    (2 <= maxSize)%nat ->
    validIP os -> validIP od -> validIP rs -> validIP rd ->
    (p = 6 /\ typ = TCP) \/ (p = 17 /\ typ = UDP) ->
    (* translated: the reply is not the mirror of the original *)
    ~ (sameIP os rd /\ sameIP od rs /\ osp = rdp /\ odp = rsp) ->
    (* the two directions are different tuples *)
    ~ (sameIP os rs /\ sameIP od rd /\ osp = rsp /\ odp = rdp) ->
    exists c,
      register maxSize timeout (runOps maxSize timeout h) (mkCon (mkTuple os od p osp odp) (mkTuple rs rd p rsp rdp)) n1 n2 = Some c /\
      snd (GetTranslationForConn c {| csource := os; cdest := od; csport := osp; cdport := odp; ctype := typ |}) =
        Some {| replSrcIP := rs; replDstIP := rd; replSrcPort := rsp; replDstPort := rdp |} /\
      snd (GetTranslationForConn c {| csource := rs; cdest := rd; csport := rsp; cdport := rdp; ctype := typ |}) =
        Some {| replSrcIP := os; replDstIP := od; replSrcPort := osp; replDstPort := odp |}.
Proof.
  intros m to h os od rs rd osp odp rsp rdp p typ n1 n2 MP A B C D P N1 N2.
  eexists. split; [apply (register_ops m to h os od osp odp rs rd rsp rdp p typ n1 n2 A B C D P N1)|].
  set (k1 := keyOfStats {| csource := os; cdest := od; csport := osp; cdport := odp; ctype := typ |}).
  set (k2 := keyOfStats {| csource := rs; cdest := rd; csport := rsp; cdport := rdp; ctype := typ |}).
  assert (NK : k1 <> k2).
  { unfold k1, k2, keyOfStats. cbn [csource cdest csport cdport ctype]. intros E. inversion E as [[E1 E2 E3 E4]].
    apply N2. rewrite <- (addr_same os rs A C), <- (addr_same od rd B D). auto. }
  split; unfold GetTranslationForConn; fold k1; fold k2.
  - eapply (complete m to ltac:(lia) _ _ _ true n1).
    + exists h. split; [reflexivity|]. split.
      * intros t' b now [J|[]]. inversion J. congruence.
      * intros [J|[]]. discriminate.
    + cbn [touched flat_map app filter]. destruct (negb (eqb k2 k1)); cbn; lia.
    + intros _ (a & now & b & E & _). destruct a as [|x [|y a]]; discriminate.
  - eapply (complete m to ltac:(lia) _ _ _ true n2 []).
    + eexists (h ++ [_]). split; [rewrite <- app_assoc; reflexivity|]. split; [intros ? ? ? []|intros []].
    + cbn. lia.
    + intros _ (a & now & b & E & _). destruct a; discriminate.
Qed.
Print Assumptions C34_register_both_directions.

(** A concrete history: three tuples, cache of two, timeout 10.  The oldest is evicted, the looked-up one survives a
    compaction after its expiry time, the other expires. *)
Section Example34.
  Let k (n : Z) : connKey := (V4 [10;0;0;n], 1000, (V4 [10;96;0;1], 80), TCP).
  Let t (n : Z) : translation := {| replSrcIP := [10;1;0;n]; replDstIP := [10;0;0;n]; replSrcPort := 8080; replDstPort := 1000 |}.
  Let h := [Reg (k 1) (t 1) true 0; Reg (k 2) (t 2) true 1; Reg (k 3) (t 3) true 2; Get (k 2); Compact 20].
  Example C34_example :
    monotone h /\
    snd (cGet (runOps 2 10 h) (k 1)) = None /\ snd (cGet (runOps 2 10 h) (k 2)) = Some (t 2) /\
    snd (cGet (runOps 2 10 h) (k 3)) = None /\
    registered_since h (k 2) (t 2) true 1 [Reg (k 3) (t 3) true 2; Get (k 2); Compact 20] /\
    List.length (nodup Eqb_dec (touched (k 2) [Reg (k 3) (t 3) true 2; Get (k 2); Compact 20])) = 1%nat.
  Proof.
    split.
    { unfold monotone. cbn. repeat split; intros b; intuition lia. }
    split; [vm_compute; reflexivity|]. split; [vm_compute; reflexivity|]. split; [vm_compute; reflexivity|].
    split; [|vm_compute; reflexivity].
    exists [Reg (k 1) (t 1) true 0]. split; [reflexivity|]. split.
    - intros t' b now J. cbn in J. intuition discriminate.
    - intros J. cbn in J. intuition discriminate.
  Qed.
End Example34.

(** C35: the NAT test says "no" exactly for mirror images; addresses are compared up to the IPv4-in-IPv6 form. *)
Theorem C35_nat_iff_not_mirror :
  forall (os od rs rd : bytes) (osp odp rsp rdp p q : Z),
    validIP os -> validIP od -> validIP rs -> validIP rd ->
    exists b, IsNAT (mkCon (mkTuple os od p osp odp) (mkTuple rs rd q rsp rdp)) = Some b /\
      (b = false <-> sameIP os rd /\ sameIP od rs /\ osp = rdp /\ odp = rsp).
Proof. intros os od rs rd osp odp rsp rdp p q. exact (IsNAT_iff os od osp odp rs rd rsp rdp p q). Qed.
Print Assumptions C35_nat_iff_not_mirror.

(** C35: registering a connection whose reply is the mirror of its original tuple leaves the cache as it was. *)
Theorem C35_mirror_not_stored :
  forall (maxSize : nat) (timeout : Z) (c : cache) (os od rs rd : bytes) (osp odp rsp rdp p q n1 n2 : Z),
    validIP os -> validIP od -> validIP rs -> validIP rd ->
    sameIP os rd -> sameIP od rs -> osp = rdp -> odp = rsp ->
    register maxSize timeout c (mkCon (mkTuple os od p osp odp) (mkTuple rs rd q rsp rdp)) n1 n2 = Some c.
Proof. intros m to c os od rs rd osp odp rsp rdp p q n1 n2. exact (register_mirror m to c os od osp odp rs rd rsp rdp p q n1 n2). Qed.
Print Assumptions C35_mirror_not_stored.

(** C35: the DNAT lookup answers with the stored translation, and only when that changes the destination. *)
Theorem C35_dnat_changes_destination :
  forall (c : cache) (s : connStats) (t : translation),
    snd (getDNATTuple c s) = Some t ->
    snd (GetTranslationForConn c s) = Some t /\
    (validIP (cdest s) -> validIP (replSrcIP t) -> ~ (sameIP (cdest s) (replSrcIP t) /\ replSrcPort t = cdport s)).
Proof. exact getDNAT_real. Qed.
Print Assumptions C35_dnat_changes_destination.

(** C35: and it does answer whenever the stored translation changes the destination. *)
Theorem C35_dnat_complete :
  forall (c : cache) (s : connStats) (t : translation),
    snd (GetTranslationForConn c s) = Some t ->
    validIP (cdest s) -> validIP (replSrcIP t) ->
    ~ (sameIP (cdest s) (replSrcIP t) /\ replSrcPort t = cdport s) ->
    snd (getDNATTuple c s) = Some t.
Proof. exact getDNAT_complete. Qed.
Print Assumptions C35_dnat_complete.

(** DNAT (service address replaced) is answered, SNAT (only the client side changed) is not. *)
Example C35_example :
  let c := runOps 10 100 [Reg (keyOfStats {| csource := [10;0;0;1]; cdest := [10;96;0;1]; csport := 5; cdport := 80; ctype := TCP |})
             {| replSrcIP := [10;1;0;9]; replDstIP := [10;0;0;1]; replSrcPort := 8080; replDstPort := 5 |} true 0;
             Reg (keyOfStats {| csource := [10;0;0;1]; cdest := [8;8;8;8]; csport := 6; cdport := 53; ctype := UDP |})
             {| replSrcIP := [8;8;8;8]; replDstIP := [192;168;0;1]; replSrcPort := 53; replDstPort := 6000 |} true 0] in
  snd (getDNATTuple c {| csource := [10;0;0;1]; cdest := [10;96;0;1]; csport := 5; cdport := 80; ctype := TCP |}) =
    Some {| replSrcIP := [10;1;0;9]; replDstIP := [10;0;0;1]; replSrcPort := 8080; replDstPort := 5 |} /\
  snd (getDNATTuple c {| csource := [10;0;0;1]; cdest := [8;8;8;8]; csport := 6; cdport := 53; ctype := UDP |}) = None.
Proof. vm_compute. auto. Qed.

(** C35 (finding): a malformed message without a source address makes the NAT test dereference nil. *)
Theorem C35_nat_test_total_refuted :
  exists x : con, IsNAT x = None.
Proof.
  exists (mkCon {| tsrc := None; tdst := None; tproto := Some {| pnum := Some 6; psport := Some 1; pdport := Some 2 |} |}
                (mkTuple [1;2;3;4] [5;6;7;8] 6 1 2)). reflexivity.
Qed.
Print Assumptions C35_nat_test_total_refuted.

(** C10: the conversions between 32-bit integers and IP values are mutually inverse. *)
Theorem C10_int_ip_int : forall i, 0 <= i < 2 ^ 32 -> IPToUInt32 (int32ToIp i) = i.
Proof. exact int32ToIp_back. Qed.
Print Assumptions C10_int_ip_int.
Theorem C10_ip_int_ip : forall a b c d, is_byte a -> is_byte b -> is_byte c -> is_byte d ->
  int32ToIp (IPToUInt32 [a; b; c; d]) = [a; b; c; d].
Proof. exact ip_back. Qed.
Print Assumptions C10_ip_int_ip.
