(** C62: what the TCP analyzer reports for an event. *)
From Verif Require Import Base Decimal AttrModel PoolModel EventModel EventProps ConntrackModel ConntrackSpec ConntrackProofs ConntrackProps TcpModel TcpSpec.
Open Scope string_scope. Open Scope list_scope. Open Scope Z_scope.

Lemma findAttr_first n l k : findAttr n l k = find (fun kv => eqb (kv_key kv) k) (firstn n l).
Proof. revert l. induction n as [|n IH]; intros [|kv l]; cbn [findAttr firstn find]; try reflexivity. destruct (eqb (kv_key kv) k); [reflexivity|apply IH]. Qed.
Lemma gua_find e k : getUserAttribute e k = find (fun kv => eqb (kv_key kv) k) (firstn (Z.to_nat (e_params e)) (e_attrs e)).
Proof.
  unfold getUserAttribute. destruct (Z.eqb_spec (e_params e) 0) as [E|E]; [|apply findAttr_first].
  rewrite E. reflexivity.
Qed.
Lemma find_app_not {A} (f : A -> bool) pre l : (forall x, In x pre -> f x = false) -> find f (pre ++ l) = find f l.
Proof. induction pre as [|x pre IH]; intros H; [reflexivity|]. cbn. rewrite (H x (or_introl eq_refl)). apply IH. intros y I. apply H. right. exact I. Qed.
Lemma carries_get e k ty v : carries e k ty v -> getUserAttribute e k = Some {| kv_key := k; kv_type := ty; kv_val := v |}.
Proof.
  intros (pre & post & E & N). rewrite gua_find, E, find_app_not.
  - cbn [find kv_key]. rewrite (eqb_refl k). reflexivity.
  - intros x I. apply eqb_neq. exact (N x I).
Qed.
Lemma lacks_get e k : lacks e k -> getUserAttribute e k = None.
Proof.
  intros H. rewrite gua_find. destruct (find _ _) as [kv|] eqn:F; [|reflexivity].
  apply find_some in F. destruct F as [I J]. apply (eqb_eq (kv_key kv) k) in J. destruct (H kv I J).
Qed.
Lemma leValue_leBytes n v rest : 0 <= v < 256 ^ Z.of_nat n -> leValue n (leBytes n v ++ rest) = Ok v.
Proof.
  revert v. induction n as [|n IH]; intros v R; cbn [leValue leBytes app].
  - change (256 ^ Z.of_nat 0) with 1 in R. f_equal. lia.
  - rewrite IH.
    + cbn [bind]. f_equal. pose proof (Z.div_mod v 256). lia.
    + rewrite Nat2Z.inj_succ, Z.pow_succ_r in R by lia. split; [apply Z.div_pos; lia|apply Z.div_lt_upper_bound; lia].
Qed.
Lemma unsigned_get e k v : unsignedAttr e k v -> exists kv, getUserAttribute e k = Some kv /\ getUintValue kv = Ok v.
Proof.
  intros (ty & n & rest & C & W & R). exists {| kv_key := k; kv_type := ty; kv_val := leBytes n v ++ rest |}. split; [apply carries_get; exact C|].
  unfold getUintValue. cbn [kv_type kv_val]. destruct ty; cbn in W; try discriminate W; injection W as <-; apply leValue_leBytes; exact R.
Qed.
Lemma unsigned_nonneg e k v : unsignedAttr e k v -> 0 <= v < 2 ^ 64.
Proof.
  intros (ty & n & rest & _ & W & R). destruct ty; cbn in W; try discriminate W; injection W as <-;
    (split; [lia|]); eapply Z.lt_le_trans; try apply R; vm_compute; discriminate.
Qed.
Lemma text_ipLong i : ipLong2String i = addressText i.
Proof.
  unfold addressText, quad, ipLong2String, formatInt.
  assert (P : forall x, (x mod 256 <? 0) = false) by (intros x; pose proof (Z.mod_pos_bound x 256); lia).
  rewrite !P. reflexivity.
Qed.
Lemma s64_id x : - 2 ^ 63 <= x < 2 ^ 63 -> s64 x = x.
Proof. intros R. unfold s64. rewrite Z.mod_small; lia. Qed.

Lemma tuple_labels dnat e t : ofTuple e t ->
  getTupleLabels dnat e = Ok (Some (tupleLabels t (dnat (t_sip t) (t_sport t) (t_dip t) (t_dport t)))).
Proof.
  intros (A & B & C & D & SI & DI & SP & DP).
  pose proof (unsigned_nonneg _ _ _ A). pose proof (unsigned_nonneg _ _ _ B). pose proof (unsigned_nonneg _ _ _ C). pose proof (unsigned_nonneg _ _ _ D).
  destruct (unsigned_get _ _ _ A) as (ka & GA & VA). destruct (unsigned_get _ _ _ B) as (kb & GB & VB).
  destruct (unsigned_get _ _ _ C) as (kc & GC & VC). destruct (unsigned_get _ _ _ D) as (kd & GD & VD).
  unfold getTupleLabels, tuple4. rewrite GA, GB, GC, GD. rewrite VA, VB, VC, VD. unfold bind.
  unfold w32. rewrite (Z.mod_small (t_sip t)), (Z.mod_small (t_dip t)) by lia.
  unfold findDNatTuple. rewrite (Z.mod_small (t_sport t)), (Z.mod_small (t_dport t)) by lia.
  rewrite !text_ipLong. unfold tupleLabels.
  destruct (dnat (t_sip t) (t_sport t) (t_dip t) (t_dport t)) as [[ip p]|]; rewrite !s64_id by lia; reflexivity.
Qed.

(** C62: a drop event is reported as one lost packet of its connection. *)
Theorem C62_drop : forall (dnat : Z -> Z -> Z -> Z -> option (bytes * Z)) (e : event) (t : tuple),
  e_name e = "tcp_drop" -> ofTuple e t ->
  consumeTcp dnat e = Ok (Some (oneMetric "tcp_drop_metric_group" "kindling_tcp_packet_loss_total" 1
                                  (tupleLabels t (dnat (t_sip t) (t_sport t) (t_dip t) (t_dport t))) (e_ts e))).
Proof. intros dnat e t N T. unfold consumeTcp. rewrite N. cbn [eqb Eqb_string String.eqb Ascii.eqb Bool.eqb orb]. unfold generateDrop. rewrite (tuple_labels _ _ _ T). reflexivity. Qed.
Print Assumptions C62_drop.

(** C62: a retransmission event counts its segments, or one when it does not say how many. *)
Theorem C62_retransmit : forall (dnat : Z -> Z -> Z -> Z -> option (bytes * Z)) (e : event) (t : tuple) (n : Z),
  e_name e = "tcp_retransmit_skb" -> ofTuple e t ->
  int32Attr e "segs" n \/ ((lacks e "segs" \/ exists ty v, carries e "segs" ty v /\ ty <> TInt32) /\ n = 1) ->
  consumeTcp dnat e = Ok (Some (oneMetric "tcp_retransmit_metric_group" "kindling_tcp_retransmit_total" n
                                  (tupleLabels t (dnat (t_sip t) (t_sport t) (t_dip t) (t_dport t))) (e_ts e))).
Proof.
  intros dnat e t n N T S. unfold consumeTcp. rewrite N. cbn [eqb Eqb_string String.eqb Ascii.eqb Bool.eqb orb]. unfold generateRetransmit. rewrite (tuple_labels _ _ _ T).
  cbn [bind]. replace (segs e) with (Ok n); [reflexivity|].
  unfold segs. destruct S as [(rest & C & R)|[[L|(ty & v & C & NT)] ->]].
  - rewrite (carries_get _ _ _ _ C). cbn [kv_type]. unfold getIntValue. cbn [kv_type kv_val].
    rewrite leValue_leBytes by (change (256 ^ Z.of_nat 4) with (2 ^ 32); apply Z.mod_pos_bound; lia).
    cbn [bind]. f_equal. unfold s32.
    rewrite Zplus_mod_idemp_l, Z.mod_small by lia. lia.
  - rewrite (lacks_get _ _ L). reflexivity.
  - rewrite (carries_get _ _ _ _ C). cbn [kv_type]. destruct ty; try reflexivity. congruence.
Qed.
Print Assumptions C62_retransmit.

(** C62: a round trip time is reported with its value, unless it is zero or absent; then nothing is reported. *)
Theorem C62_rtt : forall (dnat : Z -> Z -> Z -> Z -> option (bytes * Z)) (e : event) (t : tuple) (v : Z),
  e_name e = "tcp_close" \/ e_name e = "tcp_rcv_established" -> ofTuple e t ->
  unsignedAttr e "rtt" v \/ (lacks e "rtt" /\ v = 0) -> v < 2 ^ 63 ->
  (v <> 0 -> consumeTcp dnat e = Ok (Some (oneMetric "tcp_rtt_metric_group" "kindling_tcp_srtt_microseconds" v
                                  (tupleLabels t (dnat (t_sip t) (t_sport t) (t_dip t) (t_dport t))) (e_ts e)))) /\
  (v = 0 -> consumeTcp dnat e = Ok None).
Proof.
  intros dnat e t v N T A B.
  assert (X : consumeTcp dnat e = generateRtt dnat e) by (unfold consumeTcp; destruct N as [-> | ->]; reflexivity).
  rewrite X. unfold generateRtt. rewrite (tuple_labels _ _ _ T). cbn [bind].
  assert (Y : getUintUserAttribute e "rtt" = Ok v /\ 0 <= v).
  { unfold getUintUserAttribute. destruct A as [A|[A ->]].
    - destruct (unsigned_get _ _ _ A) as (kv & -> & V). split; [exact V|]. apply (unsigned_nonneg _ _ _ A).
    - rewrite (lacks_get _ _ A). split; [reflexivity|lia]. }
  destruct Y as [-> Y]. cbn [bind]. split; intros V.
  - replace (v =? 0) with false by lia. rewrite s64_id by lia. reflexivity.
  - replace (v =? 0) with true by lia. reflexivity.
Qed.
Print Assumptions C62_rtt.

(** C62: an event without one of the four coordinates, and an event of any other name, reports nothing. *)
Theorem C62_nothing_else : forall (dnat : Z -> Z -> Z -> Z -> option (bytes * Z)) (e : event),
  (exists k, In k ["sip"; "sport"; "dip"; "dport"] /\ lacks e k) \/
  ~ In (e_name e) ["tcp_close"; "tcp_rcv_established"; "tcp_drop"; "tcp_retransmit_skb"] ->
  consumeTcp dnat e = Ok None.
Proof.
  intros dnat e [(k & I & L)|N].
  - assert (X : getTupleLabels dnat e = Ok None).
    { unfold getTupleLabels, tuple4. apply lacks_get in L. cbn [In] in I.
      destruct I as [<-|[<-|[<-|[<-|[]]]]]; rewrite L;
        repeat match goal with |- context [match getUserAttribute e ?s with _ => _ end] => destruct (getUserAttribute e s) end; reflexivity. }
    unfold consumeTcp, generateRtt, generateDrop, generateRetransmit. rewrite X. cbn [bind].
    destruct (eqb (e_name e) "tcp_close" || eqb (e_name e) "tcp_rcv_established"), (eqb (e_name e) "tcp_drop"), (eqb (e_name e) "tcp_retransmit_skb"); reflexivity.
  - unfold consumeTcp.
    assert (Q : forall s, In s ["tcp_close"; "tcp_rcv_established"; "tcp_drop"; "tcp_retransmit_skb"] -> eqb (e_name e) s = false).
    { intros s I. apply eqb_neq. intros E. apply N. rewrite E. exact I. }
    rewrite !Q by (cbn [In]; tauto). reflexivity.
Qed.
Print Assumptions C62_nothing_else.

(** C62: with the connection tracker, a connection the kernel redirected carries the address and port it really goes to. *)
Lemma ipText_v4 v6 a b c d : is_byte a -> is_byte b -> is_byte c -> is_byte d -> ipText v6 [a; b; c; d] = quad a b c d.
Proof.
  unfold is_byte. intros A B C D. unfold ipText, to4. cbn [zlen List.length]. unfold quad, formatInt.
  replace (a <? 0) with false by lia. replace (b <? 0) with false by lia. replace (c <? 0) with false by lia. replace (d <? 0) with false by lia.
  reflexivity.
Qed.
Lemma parseDotted_valid i : validIP (parseDotted i).
Proof. right. reflexivity. Qed.
Theorem C62_redirected_connection :
  forall (v6text : bytes -> bytes) (maxSize : nat) (timeout : Z) (h : list op) (e : event) (t : tuple) (a b c d port : Z) (rd : bytes) (rdp n1 n2 : Z),
    (2 <= maxSize)%nat -> ofTuple e t -> e_name e = "tcp_drop" ->
    is_byte a -> is_byte b -> is_byte c -> is_byte d -> validIP rd ->
    (* really redirected: the replies come from another address or port *)
    ~ (sameIP (int32ToIp (t_dip t)) [a; b; c; d] /\ t_dport t = port) ->
    ~ (sameIP (int32ToIp (t_sip t)) [a; b; c; d] /\ sameIP (int32ToIp (t_dip t)) rd /\ t_sport t = port /\ t_dport t = rdp) ->
    exists tracker,
      register maxSize timeout (runOps maxSize timeout h)
        (mkCon (mkTuple (int32ToIp (t_sip t)) (int32ToIp (t_dip t)) 6 (t_sport t) (t_dport t)) (mkTuple [a; b; c; d] rd 6 port rdp)) n1 n2 = Some tracker /\
      consumeTcp (trackerDnat v6text tracker) e =
        Ok (Some (oneMetric "tcp_drop_metric_group" "kindling_tcp_packet_loss_total" 1 (tupleLabels t (Some (quad a b c d, port))) (e_ts e))).
Proof.
  intros v6 m to h e t a b c d port rd rdp n1 n2 M T N A B C D VR NR ND.
  assert (V4 : forall i, validIP (int32ToIp i)) by (intros i; left; reflexivity).
  assert (VQ : validIP [a; b; c; d]) by (left; reflexivity).
  assert (N1 : ~ (sameIP (int32ToIp (t_sip t)) rd /\ sameIP (int32ToIp (t_dip t)) [a; b; c; d] /\ t_sport t = rdp /\ t_dport t = port)) by tauto.
  destruct (C34_register_both_directions m to h _ _ _ _ _ _ _ _ 6 TCP n1 n2 M (V4 _) (V4 _) VQ VR (or_introl (conj eq_refl eq_refl)) N1 ND) as (tr & R & G & _).
  exists tr. split; [exact R|].
  rewrite (C62_drop _ _ _ N T). do 5 f_equal.
  unfold trackerDnat, getDNATTuple.
  assert (K : forall c s1 s2, keyOfStats s1 = keyOfStats s2 -> GetTranslationForConn c s1 = GetTranslationForConn c s2)
    by (intros ? ? ? Q; unfold GetTranslationForConn; rewrite Q; reflexivity).
  rewrite (K tr _ {| csource := int32ToIp (t_sip t); cdest := int32ToIp (t_dip t); csport := t_sport t; cdport := t_dport t; ctype := TCP |}) by reflexivity.
  destruct (GetTranslationForConn tr {| csource := int32ToIp (t_sip t); cdest := int32ToIp (t_dip t); csport := t_sport t; cdport := t_dport t; ctype := TCP |}) as [tr' o] eqn:Q. cbn [snd] in G. subst o.
  cbn [cdest cdport replSrcIP replSrcPort].
  destruct (ipEqual (parseDotted (t_dip t)) [a; b; c; d] && (port =? t_dport t)) eqn:X.
  - exfalso. apply NR. apply andb_true_iff in X. destruct X as [X Y]. split; [|lia].
    apply ipEqual_same in X; [|apply parseDotted_valid|exact VQ].
    unfold sameIP in *. rewrite <- X. reflexivity.
  - cbn [snd option_map replSrcIP replSrcPort]. rewrite ipText_v4 by assumption. reflexivity.
Qed.
Print Assumptions C62_redirected_connection.

(** C62, finding: an attribute shorter than its type ends the analyzer with a panic. *)
Definition slotOf (k : string) (ty : vtype) (v : bytes) : keyvalue := {| kv_key := k; kv_type := ty; kv_val := v |}.
Definition tcpEvent (name : string) (attrs : list keyvalue) : event :=
  {| e_name := name; e_ts := 7; e_lat := 0; e_net := false; e_params := zlen attrs; e_attrs := attrs; e_pid := 1; e_tid := 1; e_comm := ""; e_cid := "";
     e_fd := 0; e_proto := L4Tcp; e_role := false; e_sip := []; e_dip := []; e_sport := 0; e_dport := 0 |}.
Theorem C62_short_attribute_refuted :
  exists e, consumeTcp (fun _ _ _ _ => None) e = Panic /\ e_name e = "tcp_drop".
Proof.
  exists (tcpEvent "tcp_drop" [slotOf "sip" TUint32 [1; 2; 3]; slotOf "sport" TUint16 [1; 2]; slotOf "dip" TUint32 [1; 2; 3; 4]; slotOf "dport" TUint16 [1; 2]]).
  split; vm_compute; reflexivity.
Qed.
Print Assumptions C62_short_attribute_refuted.
(** C62, finding: an address given with a signed type is read as 0.0.0.0. *)
Theorem C62_signed_address_refuted :
  exists e g, carries e "sip" TInt32 [10; 0; 0; 1] /\ consumeTcp (fun _ _ _ _ => None) e = Ok (Some g) /\ aget (glabels g) "src_ip" = Some (SV (bs "0.0.0.0")).
Proof.
  exists (tcpEvent "tcp_drop" [slotOf "sip" TInt32 [10; 0; 0; 1]; slotOf "sport" TUint16 [1; 2]; slotOf "dip" TUint32 [1; 2; 3; 4]; slotOf "dport" TUint16 [1; 2]]).
  eexists. split; [|split; [vm_compute; reflexivity|vm_compute; reflexivity]].
  exists [], [slotOf "sport" TUint16 [1; 2]; slotOf "dip" TUint32 [1; 2; 3; 4]; slotOf "dport" TUint16 [1; 2]]. split; [reflexivity|intros ? []].
Qed.
Print Assumptions C62_signed_address_refuted.

(** A retransmission of three segments from 10.0.0.1:5000 to 10.96.0.1:80. *)
Example C62_example :
  let e := tcpEvent "tcp_retransmit_skb" [slotOf "sip" TUint32 [10; 0; 0; 1]; slotOf "sport" TUint16 [136; 19]; slotOf "dip" TUint32 [10; 96; 0; 1]; slotOf "dport" TUint16 [80; 0]; slotOf "segs" TInt32 [3; 0; 0; 0]] in
  let t := {| t_sip := 16777226; t_sport := 5000; t_dip := 16801802; t_dport := 80 |} in
  ofTuple e t /\ int32Attr e "segs" 3 /\
  consumeTcp (fun _ _ _ _ => Some (bs "10.1.0.9", 8080)) e =
    Ok (Some {| gname := "tcp_retransmit_metric_group"; gmetrics := [("kindling_tcp_retransmit_total", MInt 3)];
                glabels := [("src_ip", SV (bs "10.0.0.1")); ("src_port", IV 5000); ("dst_ip", SV (bs "10.96.0.1")); ("dst_port", IV 80); ("dnat_ip", SV (bs "10.1.0.9")); ("dnat_port", IV 8080)];
                gts := 7 |}).
Proof.
  cbv zeta. split; [|split; [|vm_compute; reflexivity]].
  - unfold ofTuple. cbn [t_sip t_sport t_dip t_dport].
    split; [exists TUint32, 4%nat, []; split; [exists []; eexists; split; [reflexivity|intros ? []]|split; [reflexivity|split; [lia|reflexivity]]]|].
    split; [exists TUint16, 2%nat, []; split; [exists [slotOf "sip" TUint32 [10; 0; 0; 1]]; eexists; split; [reflexivity|]|split; [reflexivity|split; [lia|reflexivity]]]|].
    { intros x [<-|[]]. discriminate. }
    split; [exists TUint32, 4%nat, []; split; [exists [slotOf "sip" TUint32 [10; 0; 0; 1]; slotOf "sport" TUint16 [136; 19]]; eexists; split; [reflexivity|]|split; [reflexivity|split; [lia|reflexivity]]]|].
    { intros x [<-|[<-|[]]]; discriminate. }
    split; [exists TUint16, 2%nat, []; split; [exists [slotOf "sip" TUint32 [10; 0; 0; 1]; slotOf "sport" TUint16 [136; 19]; slotOf "dip" TUint32 [10; 96; 0; 1]]; eexists; split; [reflexivity|]|split; [reflexivity|split; [lia|reflexivity]]]|].
    { intros x [<-|[<-|[<-|[]]]]; discriminate. }
    repeat split; reflexivity.
  - exists []. split; [|lia].
    exists [slotOf "sip" TUint32 [10; 0; 0; 1]; slotOf "sport" TUint16 [136; 19]; slotOf "dip" TUint32 [10; 96; 0; 1]; slotOf "dport" TUint16 [80; 0]], []. split; [reflexivity|].
    intros x [<-|[<-|[<-|[<-|[]]]]]; discriminate.
Qed.

(** C62, all in one: the analyzer passes on exactly what the event says. *)
Definition groupOf (dnat : Z -> Z -> Z -> Z -> option (bytes * Z)) (ts : Z) (s : saying) : group :=
  let t := s_tuple s in oneMetric (s_group s) (s_metric s) (s_value s) (tupleLabels t (dnat (t_sip t) (t_sport t) (t_dip t) (t_dport t))) ts.
Theorem C62_says : forall (dnat : Z -> Z -> Z -> Z -> option (bytes * Z)) (e : event) (r : option saying),
  tcpSays e r -> consumeTcp dnat e = Ok (option_map (groupOf dnat (e_ts e)) r).
Proof.
  intros dnat e r S. destruct S as [t N T|t n N T A|t v N T A R|t N T A|k I L|N].
  - exact (C62_drop dnat e t N T).
  - exact (C62_retransmit dnat e t n N T A).
  - apply (C62_rtt dnat e t v N T (or_introl A)); lia.
  - apply (C62_rtt dnat e t 0 N T); [|lia|reflexivity]. destruct A as [A|A]; [left; exact A|right; split; [exact A|reflexivity]].
  - apply C62_nothing_else. left. exists k. split; assumption.
  - apply C62_nothing_else. right. exact N.
Qed.
Print Assumptions C62_says.
