(** C72: the events of the probe on their way to the analyzers. *)
From Verif Require Import Base EventModel RouteModel RouteProps RecvModel RecvSpec RecvProofs AggSpec.
Open Scope string_scope. Open Scope list_scope. Open Scope Z_scope.

(** The event handed to the analyzers says the same as the event of the probe, and only one event does. *)
Theorem C72_conversion : forall c k, cstruct c -> convertEvent c = Ok k -> same c k.
Proof. exact convertEvent_same. Qed.
Print Assumptions C72_conversion.
Theorem C72_conversion_unique : forall c k k', cstruct c -> same c k -> same c k' -> k = k'.
Proof. exact same_fun. Qed.
Print Assumptions C72_conversion_unique.
Lemma vtypeOf_number n t : t <> TNone -> vtypeOf n = t <-> n = typeNumber t.
Proof.
  intros NT. split; [|intros ->; destruct t; try reflexivity; exfalso; apply NT; reflexivity]. intros <-. revert NT. unfold vtypeOf.
  repeat (match goal with |- context [n =? ?k] => destruct (Z.eqb_spec n k) as [->|_]; [reflexivity|] end). intros X. exfalso. apply X. reflexivity.
Qed.
Lemma protoOf_number n p : p <> L4Unknown -> protoOf n = p <-> n = protoNumber p.
Proof.
  intros NT. split; [|intros ->; destruct p; try reflexivity; exfalso; apply NT; reflexivity]. intros <-. revert NT. unfold protoOf.
  repeat (match goal with |- context [n =? ?k] => destruct (Z.eqb_spec n k) as [->|_]; [reflexivity|] end). intros X. exfalso. apply X. reflexivity.
Qed.
(** What the analyzers read of the event is what the probe wrote: its numbers, its protocol, and each parameter's value and type; a network event is one of category 3. *)
Theorem C72_seen : forall c k, cstruct c -> convertEvent c = Ok k ->
  let e := view k in
  e_ts e = c_ts c /\ e_lat e = c_lat c /\ e_params e = c_params c /\ e_pid e = c_pid c /\ e_tid e = c_tid c /\ e_fd e = c_fd c /\
  e_sip e = c_sip c /\ e_dip e = c_dip c /\ e_sport e = c_sport c /\ e_dport e = c_dport c /\
  (e_role e = true <-> c_role c <> 0) /\ (e_net e = true <-> c_cat c = 3) /\
  (forall p, p <> L4Unknown -> e_proto e = p <-> c_proto c = protoNumber p) /\
  forall i a, Z.of_nat i < c_params c -> nth_error (c_attrs c) i = Some a ->
    exists kv, nth_error (e_attrs e) i = Some kv /\ bytesAt (ca_val a) (ca_len a) (kv_val kv) /\ forall t, t <> TNone -> kv_type kv = t <-> ca_type a = typeNumber t.
Proof.
  intros c k CS K e. destruct (C72_conversion c k CS K) as (H1 & H2 & _ & H4 & H5 & (L1 & L2 & L3) & H7 & H8 & _ & _ & _ & _ & H13 & _ & _ & _ & H17 & H18 & H19 & H20 & H21 & H22 & _).
  subst e. cbn [view e_ts e_lat e_params e_pid e_tid e_fd e_sip e_dip e_sport e_dport e_role e_net e_proto e_attrs].
  repeat (split; [assumption|]). split; [rewrite H4; apply Z.eqb_eq|]. split; [intros p NP; rewrite H17; apply protoOf_number; exact NP|].
  intros i a LT NA. assert (IL : (i < List.length (k_attrs k))%nat) by (assert (i < List.length (c_attrs c))%nat by (apply nth_error_Some; rewrite NA; discriminate); destruct CS as (_ & CS & _); lia).
  destruct (nth_error (k_attrs k) i) as [ka|] eqn:NK; [|apply nth_error_None in NK; lia].
  destruct (L3 i a ka NA NK) as (S & _). destruct (S LT) as (_ & B & T).
  eexists. split; [rewrite nth_error_map, NK; reflexivity|]. cbn [kv_val kv_type]. split; [exact B|]. intros t NT. rewrite T. apply vtypeOf_number. exact NT.
Qed.
Print Assumptions C72_seen.
(** It stops the collector exactly on events the probe must not make: more than 16 parameters, a value of 2^31 bytes or
    more, a string without an end, a value that is not there. *)
Theorem C72_conversion_panics : forall c, cstruct c ->
  ((exists k, convertEvent c = Ok k) <-> readable c) /\ (convertEvent c = Panic <-> ~ readable c).
Proof.
  intros c H. pose proof (convertEvent_readable c H) as R. split; [exact R|]. split.
  - intros E X. destruct (proj2 R X) as (k & Ek). congruence.
  - intros N. destruct (convertEvent_res c) as [X|X]; [|exact X]. exfalso. apply N, R, X.
Qed.
Print Assumptions C72_conversion_panics.

(** An unsigned 64 bit parameter arrives as the number the probe stored, whatever follows it in the probe's memory. *)
Lemma str_bs_inj a b : Forall is_byte a -> Forall is_byte b -> str a = str b -> a = b.
Proof.
  intros FA FB E. unfold str in E. assert (E2 : map (fun z => Ascii.ascii_of_nat (Z.to_nat z)) a = map (fun z => Ascii.ascii_of_nat (Z.to_nat z)) b).
  { rewrite <- (list_ascii_of_string_of_list_ascii (map _ a)), E, list_ascii_of_string_of_list_ascii. reflexivity. }
  clear E. revert b FB E2. induction FA as [|x a Hx FA IH]; intros [|y b] FB E2; cbn [map] in E2; try discriminate; [reflexivity|].
  injection E2 as E3 E2. inversion FB as [|? ? Hy FB']; subst. f_equal; [|apply IH; assumption].
  unfold is_byte in *. apply (f_equal Ascii.nat_of_ascii) in E3. rewrite !Ascii.nat_ascii_embedding in E3 by lia. lia.
Qed.
Lemma findAttr_nth : forall l n key a (i : nat), (i < n)%nat -> nth_error l i = Some a -> kv_key a = key ->
  (forall j b, (j < i)%nat -> nth_error l j = Some b -> kv_key b <> key) -> findAttr n l key = Some a.
Proof.
  induction l as [|b l IH]; intros n key a i Hi N K F; destruct n; try lia; [destruct i; discriminate|]. cbn [findAttr].
  destruct i as [|i]; cbn [nth_error] in N.
  - injection N as ->. rewrite K, eqb_refl. reflexivity.
  - rewrite (proj2 (eqb_neq (kv_key b) key)) by (apply (F O b); [lia|reflexivity]). apply (IH n key a i); [lia|exact N|exact K|].
    intros j x Hj Nj. apply (F (Datatypes.S j)); [lia|exact Nj].
Qed.
Lemma leValue_app n b r : List.length b = n -> leValue n (b ++ r) = leValue n b.
Proof. revert b. induction n as [|n IH]; intros [|x b] L; cbn in *; try lia; [reflexivity|]. rewrite IH by lia. reflexivity. Qed.
Lemma leValue_bytes n v : 0 <= v < 2 ^ (8 * Z.of_nat n) -> leValue n (leBytes n v) = Ok v.
Proof.
  revert v. induction n as [|n IH]; intros v H; cbn [leValue leBytes]; [f_equal; cbn in H; lia|]. rewrite IH; [cbn [bind]; f_equal; pose proof (Z_div_mod_eq_full v 256); lia|].
  split; [apply Z.div_pos; lia|]. apply Z.div_lt_upper_bound; [lia|]. replace (256 * 2 ^ (8 * Z.of_nat n)) with (2 ^ (8 * Z.of_nat (Datatypes.S n))); [lia|].
  change 256 with (2 ^ 8). rewrite <- Z.pow_add_r by lia. f_equal. lia.
Qed.
Lemma leBytes_len n v : zlen (leBytes n v) = Z.of_nat n.
Proof. unfold zlen. revert v. induction n as [|n IH]; intros v; [reflexivity|]. cbn [leBytes List.length]. specialize (IH (v / 256)). lia. Qed.
Theorem C72_parameter : forall c k i a key v mem, cstruct c -> convertEvent c = Ok k ->
  Z.of_nat i < c_params c -> nth_error (c_attrs c) i = Some a ->
  stringAt (ca_key a) key -> ca_type a = 8 -> ca_len a = 8 -> ca_val a = Some (leBytes 8 v ++ mem) -> 0 <= v < 2 ^ 64 ->
  (forall j b n, (j < i)%nat -> nth_error (c_attrs c) j = Some b -> stringAt (ca_key b) n -> str n <> str key) ->
  getUintUserAttribute (view k) (str key) = Ok v.
Proof.
  intros c k i a key v mem ST E Hi Na Sk T8 L8 EV RV F. pose proof (convertEvent_same c k ST E) as SM. destruct ST as (RP & LA & _ ).
  unfold same in SM. destruct SM as (_ & _ & _ & _ & EPN & (LE & LEN & SA) & _).
  destruct (nth_error (k_attrs k) i) as [x|] eqn:Nx; [|apply nth_error_None in Nx; lia].
  destruct (proj1 (SA i a x Na Nx) Hi) as (S1 & S2 & S3).
  unfold getUintUserAttribute, getUserAttribute. cbn [view e_params e_attrs]. rewrite EPN. destruct (Z.eqb_spec (c_params c) 0); [lia|].
  rewrite (findAttr_nth _ _ (str key) {| kv_key := str (ka_key x); kv_type := vtypeOf (ka_type x); kv_val := ka_val x |} i).
  - unfold getUintValue. cbn [kv_type kv_val]. rewrite S3, T8. change (vtypeOf 8) with TUint64. cbn iota.
    assert (EX : ka_val x = leBytes 8 v).
    { apply (bytesAt_fun (ca_val a) (ca_len a)); [exact S2|]. split; [rewrite leBytes_len, L8; reflexivity|]. right. exists mem. exact EV. }
    rewrite EX. apply leValue_bytes. exact RV.
  - lia.
  - rewrite nth_error_map, Nx. reflexivity.
  - cbn [kv_key]. f_equal. exact (stringAt_fun _ _ _ S1 Sk).
  - intros j b Hj Nb. rewrite nth_error_map in Nb. destruct (nth_error (k_attrs k) j) as [y|] eqn:Ny; [|discriminate]. cbn in Nb. injection Nb as <-. cbn [kv_key].
    destruct (nth_error (c_attrs c) j) as [b|] eqn:Nb'; [|apply nth_error_None in Nb'; assert (List.length (k_attrs k) = 16%nat) by exact LEN; pose proof (proj1 (nth_error_Some (k_attrs k) j) ltac:(congruence)); lia].
    destruct (proj1 (SA j b y Nb' Ny) ltac:(lia)) as (T1 & _). exact (F j b _ Hj Nb' T1).
Qed.
Print Assumptions C72_parameter.

(** Whatever the goroutines' schedule: what the probe returned is, in order and without loss or repetition, what the
    analyzers were given, then the event they are being given, then the channel, then the rest of the last batch. *)
Theorem C72_in_order : forall cap ls s, Forall cstruct (probed ls) -> rrun cap ls rinit = Some s ->
  exists sent, probed ls = sent ++ unsent s /\ Forall2 same sent (r_out s ++ inHand s ++ r_chan s).
Proof.
  intros cap ls s FC R. destruct (order_inv cap ls s R) as (sent & P & F & _). exists sent. split; [exact P|].
  rewrite P in FC. apply Forall_app in FC. destruct FC as (FC & _). clear P R. revert FC. induction F as [|c e l l' Hc F IH]; intros FC; [constructor|].
  inversion FC as [|? ? H1 H2]; subst. constructor; [exact (convertEvent_same _ _ H1 Hc)|exact (IH H2)].
Qed.
Print Assumptions C72_in_order.
Theorem C72_bounded : forall cap ls s, 0 <= cap -> rrun cap ls rinit = Some s -> zlen (r_chan s) <= cap /\ zlen (unsent s) <= 1000.
Proof. intros cap ls s H R. destruct (ctl_run cap ls s H R) as (_ & _ & _ & B & U). split; [exact B|exact U]. Qed.
Print Assumptions C72_bounded.

Lemma Forall2_prefix {A B} (P : A -> B -> Prop) l a b : Forall2 P l (a ++ b) -> exists l1 l2, l = l1 ++ l2 /\ Forall2 P l1 a.
Proof. intros F. apply Forall2_app_inv_r in F. destruct F as (l1 & l2 & F1 & _ & ->). exists l1, l2. split; [reflexivity|exact F1]. Qed.
(** Every analyzer gets exactly those events it subscribed to, once and in the probe's order, out of a prefix of what the
    probe returned. *)
Theorem C72_analyzers : forall cap ls s ans m a, Forall cstruct (probed ls) -> rrun cap ls rinit = Some s ->
  orderly ans -> newManager ans = Some m -> In a ans -> Forall (fun e => str (k_name e) <> "consumeAllEvents") (r_out s) ->
  exists first rest evs, probed ls = first ++ rest /\ Forall2 same first evs /\
    map (fun d => snd (snd d)) (filter (fun d => eqb (fst d) (an_id a)) (deliveries m s)) = filter (fun e => wants a (str (k_name e))) evs.
Proof.
  intros cap ls s ans m a FC R O NM I FN. destruct (C72_in_order cap ls s FC R) as (sent & P & F).
  destruct (Forall2_prefix _ _ _ _ F) as (l1 & l2 & -> & F1). exists l1, (l2 ++ unsent s), (r_out s).
  split; [rewrite P, app_assoc; reflexivity|]. split; [exact F1|]. unfold deliveries.
  rewrite <- (map_map snd snd). rewrite (C49_once ans m _ a O NM I).
  - clear - s. induction (r_out s) as [|e l IH]; [reflexivity|]. cbn [map filter fst]. destruct (wants a (str (k_name e))); cbn [map snd]; rewrite IH; reflexivity.
  - clear - FN. induction FN as [|e l H F IH]; cbn [map]; constructor; [exact H|exact IH].
Qed.
Print Assumptions C72_analyzers.

(** The event counters add up to the events put into the channel, except one that is about to be counted. *)
Theorem C72_counters : forall cap ls s subs, rrun cap ls rinit = Some s -> zlen (r_counted s) < 2 ^ 63 ->
  let total := zlen (r_out s) + zlen (inHand s) + zlen (r_chan s) in
  zsum (map snd (counters subs s)) = match r_prod s with PCount _ _ => total - 1 | _ => total end.
Proof.
  intros cap ls s subs R B. cbv zeta. unfold counters. rewrite C51_sum by exact B. destruct (order_inv cap ls s R) as (sent & _ & _ & C).
  apply (f_equal (@List.length bytes)) in C. rewrite map_length, !app_length in C. unfold counting, zlen in *. destruct (r_prod s); cbn [List.length] in C; lia.
Qed.
Print Assumptions C72_counters.

(** If both loops were running when Shutdown was called, nothing is delivered, counted or read once it has returned. *)
Theorem C72_quiet_after_shutdown : forall cap ls1 ls2 ls3 s1 s2 s3, 0 <= cap ->
  rrun cap ls1 rinit = Some s1 -> started s1 -> r_shut s1 = SNo ->
  rrun cap ls2 s1 = Some s2 -> r_shut s2 = SRet ->
  rrun cap ls3 s2 = Some s3 -> s3 = s2 /\ ls3 = [].
Proof.
  intros cap ls1 ls2 ls3 s1 s2 s3 H R1 ST N R2 SR R3.
  assert (I1 : retInv cap s1) by (split; [exact (ctl_run cap ls1 s1 H R1)|split; [exact ST|congruence]]).
  pose proof (rrun_inv cap (retInv cap) (fun l a b => ret_step cap l a b H) ls2 s1 s2 I1 R2) as I2.
  destruct ls3 as [|l ls3]; cbn [rrun] in R3; [injection R3 as <-; split; reflexivity|]. rewrite (ret_still cap l s2 I2 SR) in R3. discriminate.
Qed.
Print Assumptions C72_quiet_after_shutdown.

(** After the call of Shutdown the loops take a bounded number of steps, and come to rest in one of three ways: an event
    crashed the collector, Shutdown returned, or the reading loop waits for ever for room in the channel. *)
Theorem C72_shutdown_bounded : forall cap ls1 ls2 s1 s2, 0 <= cap -> rrun cap ls1 rinit = Some s1 -> r_shut s1 <> SNo ->
  rrun cap ls2 s1 = Some s2 -> zlen ls2 <= 4010 + 2 * cap.
Proof.
  intros cap ls1 ls2 s1 s2 H R1 N R2. pose proof (ctl_run cap ls1 s1 H R1) as CI. destruct CI as (W & N1 & N2 & B & U) eqn:X; clear X.
  pose proof (mu_run cap ls2 s1 s2 (N2 N) R2). pose proof (mu_bound cap s1 (ctl_run cap ls1 s1 H R1) N). pose proof (mu_pos s2). lia.
Qed.
Print Assumptions C72_shutdown_bounded.
Theorem C72_shutdown_rest : forall cap ls s, 0 <= cap -> rrun cap ls rinit = Some s -> started s -> r_shut s <> SNo -> stuck cap s ->
  r_crash s = true \/ r_shut s = SRet \/ (r_cons s = CEnd /\ unsent s <> [] /\ zlen (r_chan s) = cap).
Proof.
  intros cap ls s H R ST N K. pose proof (ctl_run cap ls s H R) as CI. destruct (rest_cases cap s CI ST N K) as [X|[X|(EC & c & rest & EP & LE)]]; [left; exact X|right; left; exact X|].
  right. right. split; [exact EC|]. split; [unfold unsent; rewrite EP; discriminate|]. destruct CI as (_ & _ & _ & B & _). lia.
Qed.
Print Assumptions C72_shutdown_rest.
(** With room for one batch in the channel when it is called, Shutdown returns. *)
Theorem C72_shutdown_returns : forall cap ls1 ls2 s1 s2, 0 <= cap ->
  rrun cap ls1 rinit = Some s1 -> started s1 -> r_shut s1 = SNo -> zlen (r_chan s1) + 1000 <= cap ->
  rrun cap (LShutdown :: ls2) s1 = Some s2 -> stuck cap s2 -> r_crash s2 = true \/ r_shut s2 = SRet.
Proof.
  intros cap ls1 ls2 s1 s2 H R1 ST N RM R2 K. pose proof (ctl_run cap ls1 s1 H R1) as CI.
  assert (RA : rrun cap (ls1 ++ LShutdown :: ls2) rinit = Some s2) by (rewrite rrun_app, R1; exact R2).
  pose proof (ctl_run cap _ s2 H RA) as CI2. cbn [rrun] in R2. unfold rdo in R2. destruct (r_crash s1) eqn:ECR; [discriminate|]. rewrite N in R2.
  assert (R0 : room cap (setShut s1 SWait true)).
  { split; [reflexivity|]. cbn [setShut r_chan r_prod]. destruct CI as (_ & _ & _ & _ & U). unfold unsent in U. pose proof (zlen_pos (r_chan s1)). destruct (r_prod s1); lia. }
  assert (ST0 : started (setShut s1 SWait true)) by exact ST.
  pose proof (rrun_inv cap (room cap) (room_step cap) ls2 _ s2 R0 R2) as (_ & RM2).
  pose proof (rrun_inv cap started (started_step cap) ls2 _ s2 ST0 R2) as ST2.
  assert (N2 : r_shut s2 <> SNo).
  { apply (rrun_inv cap (fun s => r_shut s <> SNo)) with (ls := ls2) (s := setShut s1 SWait true); [|discriminate|exact R2].
    intros l a b NN D. unfold rdo in D. destruct (r_crash a); [discriminate|]. destruct l;
      repeat match type of D with context [match ?x with _ => _ end] => destruct x eqn:?; try discriminate end; try discriminate; injection D as <-; cbn; congruence. }
  destruct (rest_cases cap s2 CI2 ST2 N2 K) as [X|[X|(_ & c & rest & EP & LE)]]; [left; exact X|right; exact X|]. exfalso. rewrite EP in RM2. unfold zlen in *. cbn [List.length] in RM2. lia.
Qed.
Print Assumptions C72_shutdown_returns.

(** An event of the probe, for the examples: a read of process 7 with one 64 bit parameter. *)
Definition exAttr (key : string) (v : Z) : cattr := {| ca_key := Some (bs key ++ [0; 99; 99]); ca_val := Some (leBytes 8 v ++ [1; 2; 3]); ca_len := 8; ca_type := 8 |}.
Definition noAttr : cattr := {| ca_key := None; ca_val := None; ca_len := 0; ca_type := 0 |}.
Definition exC (name : string) (v : Z) : cevent :=
  {| c_ts := 1000; c_name := Some (bs name ++ [0; 120]); c_cat := 3; c_params := 1; c_lat := 20; c_attrs := exAttr "res" v :: repeat noAttr 15;
     c_pid := 7; c_tid := 8; c_uid := 0; c_gid := 0; c_comm := Some (bs "curl" ++ [0]); c_cid := Some [0];
     c_fd := 5; c_fdtype := 4; c_file := None; c_dir := None; c_proto := 1; c_role := 1; c_sip := [16777343; 0; 0; 0]; c_dip := [134744072; 0; 0; 0];
     c_sport := 40000; c_dport := 80; c_src := 0; c_dst := 0 |}.
Example exConvert : cstruct (exC "read" 42) /\ readable (exC "read" 42) /\
  exists k, convertEvent (exC "read" 42) = Ok k /\ k_name k = bs "read" /\ e_name (view k) = "read" /\ getUintUserAttribute (view k) "res" = Ok 42 /\ k_role k = true.
Proof.
  assert (C : cstruct (exC "read" 42)).
  { unfold cstruct, enum. cbn [exC c_params c_attrs c_sip c_dip c_cat c_fdtype c_proto]. repeat split; try lia. cbn [repeat].
    repeat (apply Forall_cons; [unfold exAttr, noAttr; cbn [ca_len ca_type]; lia|]). apply Forall_nil. }
  split; [exact C|]. split.
  - apply (C72_conversion_panics _ C). eexists. vm_compute. reflexivity.
  - eexists. split; [vm_compute; reflexivity|]. vm_compute. repeat split.
Qed.
Example exTooMany : convertEvent {| c_ts := 0; c_name := None; c_cat := 0; c_params := 17; c_lat := 0; c_attrs := repeat noAttr 16;
     c_pid := 0; c_tid := 0; c_uid := 0; c_gid := 0; c_comm := None; c_cid := None; c_fd := 0; c_fdtype := 0; c_file := None; c_dir := None; c_proto := 0; c_role := 0;
     c_sip := [0; 0; 0; 0]; c_dip := [0; 0; 0; 0]; c_sport := 0; c_dport := 0; c_src := 0; c_dst := 0 |} = Panic.
Proof. reflexivity. Qed.
Example exRun : exists s, rrun 300000 [LProdStart; LProdTop; LConsStart; LPoll [exC "read" 1; exC "write" 2]; LSend; LTake; LCount; LSend; LDeliver; LCount; LTake; LSend; LDeliver;
    LShutdown; LProdTop; LConsStop; LReturn] rinit = Some s /\ map k_name (r_out s) = [bs "read"; bs "write"] /\ r_shut s = SRet.
Proof. eexists. split; [vm_compute; reflexivity|]. vm_compute. split; reflexivity. Qed.

(** Shutdown can wait for ever: the channel is full, the consuming loop sees the stop first, and the reading loop waits for
    room that nobody makes any more.  For every capacity of the channel, whatever the event. *)
Theorem C72_shutdown_hangs_refuted : forall cap, 0 <= cap -> exists ls1 ls2 s1 s2,
  rrun cap ls1 rinit = Some s1 /\ started s1 /\ r_shut s1 = SNo /\ rrun cap (LShutdown :: ls2) s1 = Some s2 /\
  r_shut s2 = SWait /\ r_crash s2 = false /\ stuck cap s2.
Proof.
  intros cap H. destruct exConvert as (_ & _ & e & EC & _). set (c := exC "read" 42) in *.
  exists (([LProdStart; LConsStart] ++ List.concat (repeat (fillOne c) (Z.to_nat cap))) ++ [LProdTop; LPoll [c]]), [LConsStop].
  exists (setProd (filled e (Z.to_nat cap)) (PLoop [c])). eexists.
  split. { rewrite rrun_app, (fill cap c e) by (first [exact EC|lia]). reflexivity. }
  split. { split; discriminate. }
  split; [reflexivity|]. split; [reflexivity|]. split; [reflexivity|]. split; [reflexivity|].
  intros l. unfold rdo. cbn [setProd filled setShut setCons addWg r_crash r_prod r_cons r_shut r_wg r_chan]. destruct l; try reflexivity.
  rewrite EC. destruct (Z.ltb_spec (zlen (repeat e (Z.to_nat cap))) cap) as [L|L]; [|reflexivity]. unfold zlen in L. rewrite repeat_length in L. lia.
Qed.
Print Assumptions C72_shutdown_hangs_refuted.
(** Events that were read and counted need not reach the analyzers: Shutdown leaves what is in the channel. *)
Theorem C72_shutdown_loses_refuted : exists ls s, rrun 300000 ls rinit = Some s /\ r_shut s = SRet /\ r_counted s = [bs "read"] /\ r_out s = [].
Proof.
  exists [LProdStart; LConsStart; LProdTop; LPoll [exC "read" 1]; LSend; LCount; LSend; LShutdown; LConsStop; LProdTop; LReturn].
  eexists. split; [vm_compute; reflexivity|]. vm_compute. repeat split.
Qed.
Print Assumptions C72_shutdown_loses_refuted.
(** A loop joins the wait group only when it runs: Shutdown can return before the consuming loop has begun, and events are
    delivered afterwards. *)
Theorem C72_late_loop_refuted : exists ls1 ls2 s1 s2, rrun 300000 ls1 rinit = Some s1 /\ r_shut s1 = SRet /\ r_out s1 = [] /\
  rrun 300000 ls2 s1 = Some s2 /\ map k_name (r_out s2) = [bs "read"].
Proof.
  exists [LProdStart; LProdTop; LPoll [exC "read" 1]; LSend; LCount; LSend; LShutdown; LProdTop; LReturn], [LConsStart; LTake; LDeliver].
  eexists. eexists. split; [vm_compute; reflexivity|]. split; [reflexivity|]. split; [reflexivity|]. split; [vm_compute; reflexivity|]. vm_compute. reflexivity.
Qed.
Print Assumptions C72_late_loop_refuted.
