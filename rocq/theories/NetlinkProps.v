(** Property C36: netlink conntrack messages. *)
From Verif Require Import Base ConntrackModel ConntrackSpec NetlinkModel NetlinkSpec ConntrackProofs NetlinkProofs.

(** C36: what was encoded is what is decoded, for every protocol number and pair of tuples, with or without the
    four-byte family header the kernel puts in front.  Addresses come back as the same addresses. *)
Theorem C36_roundtrip :
  forall (os od rs rd : bytes) (on osp odp rn rsp rdp : Z) (header : bytes),
    validIP os -> validIP od -> validIP rs -> validIP rd ->
    0 <= osp < 65536 -> 0 <= odp < 65536 -> 0 <= rsp < 65536 -> 0 <= rdp < 65536 ->
    header = [] \/ (exists f v r, (f = 2 \/ f = 10) /\ header = [f; 0; v; r]) ->
    exists o r,
      decodeMessage (header ++ EncodeConn os od on osp odp rs rd rn rsp rdp) =
        Some (Ok {| origin := Some o; reply := Some r |}) /\
      denotes o os od on osp odp /\ denotes r rs rd rn rsp rdp.
Proof.
  intros os od rs rd on osp odp rn rsp rdp header V1 V2 V3 V4 A B C D H.
  exists (mkTuple (norm os) (norm od) on osp odp), (mkTuple (norm rs) (norm rd) rn rsp rdp). split.
  - destruct H as [->|(f & v & r & F & ->)]; [apply decode_roundtrip_plain|apply decode_roundtrip_header]; assumption.
  - split.
    + exists (norm os), (norm od). split; [reflexivity|]. repeat split; apply norm_same; assumption.
    + exists (norm rs), (norm rd). split; [reflexivity|]. repeat split; apply norm_same; assumption.
Qed.
Print Assumptions C36_roundtrip.

(** C36: the decoded connection has the same translation-cache keys as the original one. *)
Theorem C36_roundtrip_keys :
  forall (src dst : bytes) (n sp dp : Z) (t : ipTuple),
    validIP src -> validIP dst -> denotes t src dst n sp dp ->
    formatKey t = formatKey (mkTuple src dst n sp dp).
Proof.
  intros src dst n sp dp t V1 V2 (s & d & -> & W1 & W2 & S & D).
  apply (addr_same s src W1 V1) in S. apply (addr_same d dst W2 V2) in D.
  unfold formatKey. cbn [mkTuple tsrc tdst tproto psport pdport pnum]. rewrite S, D. reflexivity.
Qed.
Print Assumptions C36_roundtrip_keys.

(** C36: decoding any message, and any list of messages, terminates. *)
Theorem C36_terminates : forall data, exists r, decodeMessage data = Some r.
Proof. exact decode_terminates. Qed.
Print Assumptions C36_terminates.
Theorem C36_event_terminates : forall msgs, exists r, decodeEvent msgs = Some r.
Proof. exact decodeEvent_terminates. Qed.
Print Assumptions C36_event_terminates.

(** C36: the messages of an event that decode are all returned, in order; the others are skipped and lose nothing else. *)
Theorem C36_event_messages : forall msgs,
  (forall m, In m msgs -> decodeMessage m <> Some Panic) ->
  decodeEvent msgs =
    Some (Ok (flat_map (fun m => match decodeMessage m with Some (Ok c) => [c] | _ => [] end) msgs)).
Proof.
  induction msgs as [|m msgs IH]; intros NP; [reflexivity|]. cbn [decodeEvent flat_map].
  rewrite IH by (intros m' I; apply NP; right; exact I). specialize (NP m (or_introl eq_refl)).
  destruct (decode_terminates m) as (x & E). rewrite E in *. destruct x; [reflexivity|reflexivity|congruence].
Qed.
Print Assumptions C36_event_messages.
Example C36_event_example : exists c,
  decodeEvent [[0]; EncodeConn [10;0;0;1] [10;0;0;2] 6 80 81 [10;0;0;2] [10;0;0;1] 6 81 80; []] = Some (Ok [c]).
Proof. vm_compute. eexists. reflexivity. Qed.

(** C36: no access outside the buffer happens, except when a protocol attribute carries too little data. *)
Theorem C36_no_overread_partial : forall data, decodeMessage data = Some Panic -> short_proto_attr data.
Proof. exact decode_panic. Qed.
Print Assumptions C36_no_overread_partial.

(** C36 (finding): such a message does crash the decoder: a protocol-number attribute of length 4 (no data). *)
Theorem C36_no_overread_refuted : exists data, Forall is_byte data /\ decodeMessage data = Some Panic.
Proof.
  exists ([2; 0; 0; 0] ++ nested 1 (nested 2 (attr 1 []))). split.
  - vm_compute. repeat constructor; discriminate.
  - vm_compute. reflexivity.
Qed.
Print Assumptions C36_no_overread_refuted.

Example C36_example :
  decodeMessage ([2; 0; 0; 0] ++ EncodeConn [10;0;0;1] [10;96;0;1] 6 40000 80 [10;1;0;9] [10;0;0;1] 6 8080 40000) =
  Some (Ok (mkCon (mkTuple [10;0;0;1] [10;96;0;1] 6 40000 80) (mkTuple [10;1;0;9] [10;0;0;1] 6 8080 40000))).
Proof. vm_compute. reflexivity. Qed.
