From Verif Require Import Base ConntrackModel ConntrackSpec NetlinkModel NetlinkSpec.

Lemma nlaAlign_eq n : nlaAlign n = (n + 3) / 4 * 4.
Proof.
  unfold nlaAlign. replace (Z.lnot 3) with (Z.lnot (Z.ones 2)) by reflexivity.
  rewrite <- Z.ldiff_land. rewrite Z.ldiff_ones_r by lia.
  rewrite Z.shiftl_mul_pow2, Z.shiftr_div_pow2 by lia. reflexivity.
Qed.

Lemma nlaAlign_bounds n : n <= nlaAlign n < n + 4.
Proof. rewrite nlaAlign_eq. pose proof (Z.div_mod (n + 3) 4 ltac:(lia)). pose proof (Z.mod_pos_bound (n + 3) 4 ltac:(lia)). lia. Qed.

Lemma attr_length typ d : zlen (attr typ d) = nlaAlign (4 + zlen d).
Proof.
  unfold attr, zlen. rewrite !app_length, repeat_length. cbn [le16 List.length].
  pose proof (nlaAlign_bounds (4 + Z.of_nat (List.length d))). lia.
Qed.

Lemma unmarshal4 l0 l1 t0 t1 q :
  unmarshal (l0 :: l1 :: t0 :: t1 :: q) =
  let len := l0 + 256 * l1 in let typ := t0 + 256 * t1 in
  if 4 + zlen q <? len then Err else if len =? 0 then Ok (len, typ, []) else if len <? 4 then Err
  else Ok (len, typ, firstn (Z.to_nat (len - 4)) q).
Proof.
  unfold unmarshal. assert (Z4 : zlen (l0 :: l1 :: t0 :: t1 :: q) = 4 + zlen q) by (unfold zlen; cbn [List.length]; lia).
  pose proof (Zle_0_nat (List.length q)) as ZQ. fold (zlen q) in ZQ.
  rewrite Z4. unfold nlaHeaderLen. destruct (4 + zlen q <? 4) eqn:E; [apply Z.ltb_lt in E; lia|].
  rewrite !gslice_ok by (rewrite ?Z4; lia).
  change (slice (l0 :: l1 :: t0 :: t1 :: q) 0 2) with [l0; l1]. change (slice (l0 :: l1 :: t0 :: t1 :: q) 2 4) with [t0; t1].
  cbn [bind leUint16]. cbv zeta.
  destruct (4 + zlen q <? l0 + 256 * l1) eqn:E1; [reflexivity|].
  destruct (l0 + 256 * l1 =? 0) eqn:E2; [reflexivity|].
  destruct (l0 + 256 * l1 <? 4) eqn:E3; [reflexivity|].
  apply Z.ltb_ge in E1, E3. rewrite gslice_ok by (rewrite ?Z4; lia). reflexivity.
Qed.

Lemma next_inv b typ d rest : next b = Ok (Some (typ, d, rest)) ->
  exists l0 l1 t0 t1 q, b = l0 :: l1 :: t0 :: t1 :: q /\ typ = (t0 + 256 * t1) mod 16384 /\
    ((l0 + 256 * l1 = 0 /\ d = [] /\ rest = q) \/
     (4 <= l0 + 256 * l1 /\ l0 + 256 * l1 <= zlen b /\ d = firstn (Z.to_nat (l0 + 256 * l1 - 4)) q /\
      rest = skipn (Z.to_nat (nlaAlign (l0 + 256 * l1))) b)).
Proof.
  intros N. destruct b as [|l0 [|l1 [|t0 [|t1 q]]]]; [discriminate|discriminate|discriminate|discriminate|].
  exists l0, l1, t0, t1, q. split; [reflexivity|].
  unfold next in N. rewrite unmarshal4 in N. cbv zeta in N. remember (l0 + 256 * l1) as len eqn:EL.
  destruct (4 + zlen q <? len) eqn:E1; [discriminate|].
  destruct (len =? 0) eqn:E2.
  - apply Z.eqb_eq in E2. cbn [bind] in N. rewrite E2 in N. change (0 <? nlaHeaderLen) with true in N. cbv iota in N. inversion N.
    split; [reflexivity|]. left. auto.
  - destruct (len <? 4) eqn:E3; [discriminate|]. cbn [bind] in N. unfold nlaHeaderLen in N. rewrite E3 in N.
    inversion N. split; [reflexivity|]. right. apply Z.ltb_ge in E1, E3. split; [assumption|]. split; [|auto].
    unfold zlen in *. cbn [List.length]. lia.
Qed.

Lemma next_no_panic b : next b <> Panic.
Proof.
  destruct b as [|l0 [|l1 [|t0 [|t1 q]]]]; cbn [next]; try (cbn; discriminate).
  rewrite unmarshal4. cbv zeta. destruct (_ <? _); [discriminate|]. destruct (_ =? 0); [discriminate|].
  destruct (_ <? 4); discriminate.
Qed.

Lemma next_consumes b typ d rest : next b = Ok (Some (typ, d, rest)) ->
  (List.length rest + 4 <= List.length b)%nat /\ (exists p, b = p ++ rest) /\ (exists p q, b = p ++ d ++ q).
Proof.
  intros N. destruct (next_inv _ _ _ _ N) as (l0 & l1 & t0 & t1 & q & E & _ & [(L & D & R)|(L & L2 & D & R)]).
  - subst d rest b. cbn [List.length]. split; [lia|]. split; [exists [l0; l1; t0; t1]; reflexivity|].
    exists [l0; l1; t0; t1], q. reflexivity.
  - split; [|split].
    + rewrite R, skipn_length. pose proof (nlaAlign_bounds (l0 + 256 * l1)). subst b. cbn [List.length]. lia.
    + exists (firstn (Z.to_nat (nlaAlign (l0 + 256 * l1))) b). rewrite R. symmetry. apply firstn_skipn.
    + exists [l0; l1; t0; t1], (skipn (Z.to_nat (l0 + 256 * l1 - 4)) q). rewrite D, firstn_skipn. exact E.
Qed.

(** *** termination *)
Lemma scan_terminates {S} (h : Z -> bytes -> S -> option (option (res S))) :
  (forall typ d st, h typ d st <> Some None) ->
  forall fuel n b st, (List.length b <= fuel)%nat -> exists r, scan h fuel n b st = Some r.
Proof.
  intros H. induction fuel as [|fuel IH]; intros n b st L.
  - destruct b; [|cbn in L; lia]. destruct n; cbn; eauto.
  - destruct n as [|n]; cbn [scan]; [eauto|]. destruct (next b) as [[[[typ d] rest]|]| |] eqn:N; eauto.
    destruct (next_consumes _ _ _ _ N) as (C & _).
    destruct (h typ d st) as [[[st'| |]|]|] eqn:Eh; eauto.
    + apply IH. lia.
    + exfalso. exact (H _ _ _ Eh).
    + apply IH. lia.
Qed.

Lemma hIP_total typ d t : hIP typ d t <> Some None.
Proof. unfold hIP. destruct (_ || _); [discriminate|]. destruct (_ || _); discriminate. Qed.
Lemma hProto_total typ d t : hProto typ d t <> Some None.
Proof. unfold hProto. destruct (_ =? _); [discriminate|]. destruct (_ =? _); [discriminate|]. destruct (_ =? _); discriminate. Qed.
Lemma hTuple_total typ d t : hTuple typ d t <> Some None.
Proof.
  unfold hTuple. destruct (_ =? _).
  - unfold unmarshalTupleIP, scanAll. destruct (scan_terminates hIP hIP_total (List.length d) 2 d t (Nat.le_refl _)) as (r & ->). discriminate.
  - destruct (_ =? _); [|discriminate]. unfold unmarshalProto, scanAll.
    destruct (scan_terminates hProto hProto_total (List.length d) 3 d noProto (Nat.le_refl _)) as (r & ->). discriminate.
Qed.
Lemma unmarshalTuple_total b t : exists r, unmarshalTuple b t = Some r.
Proof. apply scan_terminates; [exact hTuple_total|lia]. Qed.
Lemma hCon_total typ d t : hCon typ d t <> Some None.
Proof.
  unfold hCon. destruct (_ =? _).
  - destruct (unmarshalTuple_total d (fst t)) as (r & ->). discriminate.
  - destruct (_ =? _); [|discriminate]. destruct (unmarshalTuple_total d (snd t)) as (r & ->). discriminate.
Qed.

Lemma decode_terminates data : exists r, decodeMessage data = Some r.
Proof.
  unfold decodeMessage. destruct (_ <? 2); [eauto|]. destruct (bind _ _); eauto.
  destruct (_ <=? _); [eauto|]. destruct (gslice _ _ _) as [b| |]; eauto.
  destruct (scan_terminates hCon hCon_total (List.length b) 2 b (noTuple, noTuple) (Nat.le_refl _)) as (r & E).
  unfold unmarshalCon, scanAll. rewrite E. eauto.
Qed.

Lemma decodeEvent_terminates msgs : exists r, decodeEvent msgs = Some r.
Proof.
  induction msgs as [|m r IH]; cbn [decodeEvent]; [eauto|]. destruct (decode_terminates m) as (x & ->). destruct IH as (y & ->).
  destruct x, y; eauto.
Qed.

(** *** the only panics *)
Lemma short_infix p d q : short_proto_attr d -> short_proto_attr (p ++ d ++ q).
Proof.
  intros (p0 & l0 & l1 & t0 & t1 & q0 & E & H). exists (p ++ p0), l0, l1, t0, t1, (q0 ++ q). split; [|exact H].
  rewrite E, <- !app_assoc. reflexivity.
Qed.

Lemma scan_panic {S} (h : Z -> bytes -> S -> option (option (res S))) :
  forall fuel n b st, scan h fuel n b st = Some Panic ->
  exists p b' typ d rest st', b = p ++ b' /\ next b' = Ok (Some (typ, d, rest)) /\ h typ d st' = Some (Some Panic).
Proof.
  induction fuel as [|fuel IH]; intros [|n] b st E; cbn [scan] in E; try discriminate.
  - destruct (next b) as [[[[typ d] rest]|]| |] eqn:N; try discriminate. exfalso. exact (next_no_panic b N).
  - destruct (next b) as [[[[typ d] rest]|]| |] eqn:N; try discriminate.
    + destruct (next_consumes _ _ _ _ N) as (_ & (p & EP) & _).
      destruct (h typ d st) as [[[st'| |]|]|] eqn:Eh; try discriminate.
      * destruct (IH _ _ _ E) as (p' & b' & typ' & d' & rest' & st'' & E1 & E2 & E3).
        exists (p ++ p'), b', typ', d', rest', st''. split; [|auto]. rewrite EP, E1, app_assoc. reflexivity.
      * exists [], b, typ, d, rest, st. auto.
      * destruct (IH _ _ _ E) as (p' & b' & typ' & d' & rest' & st'' & E1 & E2 & E3).
        exists (p ++ p'), b', typ', d', rest', st''. split; [|auto]. rewrite EP, E1, app_assoc. reflexivity.
    + exfalso. exact (next_no_panic b N).
Qed.

Lemma gindex0 {A} (d : list A) : gindex d 0 = Panic -> d = [].
Proof. destruct d; [reflexivity|]. unfold gindex, znth. cbn. discriminate. Qed.
Lemma beUint16_panic d : beUint16 d = Panic -> (List.length d < 2)%nat.
Proof. destruct d as [|x [|y d]]; cbn; try discriminate; lia. Qed.

Lemma proto_panic b p : scanAll hProto 3 b p = Some Panic -> short_proto_attr b.
Proof.
  intros E. apply scan_panic in E. destruct E as (p0 & b' & typ & d & rest & st & -> & N & H).
  destruct (next_inv _ _ _ _ N) as (l0 & l1 & t0 & t1 & q & -> & T & C).
  exists p0, l0, l1, t0, t1, q. split; [reflexivity|]. cbv zeta. rewrite <- T.
  assert (LD : forall k : nat, (List.length d < k)%nat -> (0 < k)%nat -> l0 + 256 * l1 = 0 \/ 4 <= l0 + 256 * l1 < 4 + Z.of_nat k).
  { intros k K K0. destruct C as [(L & D & R)|(L & L2 & D & R)]; [left; assumption|right].
    rewrite D, firstn_length in K. unfold zlen in L2. cbn [List.length] in L2. lia. }
  unfold hProto in H. destruct (typ =? 1) eqn:T1.
  { apply Z.eqb_eq in T1. left. split; [assumption|]. destruct (gindex d 0) eqn:G; cbn [bind] in H; try discriminate.
    apply gindex0 in G. subst d. specialize (LD 1%nat). cbn [List.length] in LD. lia. }
  destruct (typ =? 2) eqn:T2.
  { apply Z.eqb_eq in T2. right. split; [left; assumption|]. destruct (beUint16 d) eqn:G; cbn [bind] in H; try discriminate.
    apply beUint16_panic in G. specialize (LD 2%nat). lia. }
  destruct (typ =? 3) eqn:T3; [|discriminate].
  apply Z.eqb_eq in T3. right. split; [right; assumption|]. destruct (beUint16 d) eqn:G; cbn [bind] in H; try discriminate.
  apply beUint16_panic in G. specialize (LD 2%nat). lia.
Qed.

Lemma ip_no_panic b t : unmarshalTupleIP b t <> Some Panic.
Proof.
  intros E. apply scan_panic in E. destruct E as (p0 & b' & typ & d & rest & st & _ & N & H).
  unfold hIP in H. destruct (_ || _); [discriminate|]. destruct (_ || _); discriminate.
Qed.

Lemma infix_short b p b' typ d rest : b = p ++ b' -> next b' = Ok (Some (typ, d, rest)) -> short_proto_attr d -> short_proto_attr b.
Proof.
  intros -> N S. destruct (next_consumes _ _ _ _ N) as (_ & _ & (p1 & q1 & ->)).
  rewrite app_assoc. apply short_infix. assumption.
Qed.

Lemma tuple_panic b t : unmarshalTuple b t = Some Panic -> short_proto_attr b.
Proof.
  intros E. apply scan_panic in E. destruct E as (p0 & b' & typ & d & rest & st & E & N & H).
  eapply infix_short; [exact E|exact N|]. unfold hTuple in H.
  destruct (typ =? 1).
  - inversion H as [H']. exfalso. exact (ip_no_panic _ _ H').
  - destruct (typ =? 2); [|discriminate]. inversion H as [H']. unfold unmarshalProto in H'.
    destruct (scanAll hProto 3 d noProto) as [[r| |]|] eqn:SP; try discriminate. apply proto_panic in SP. assumption.
Qed.

Lemma con_panic b : unmarshalCon b = Some Panic -> short_proto_attr b.
Proof.
  intros E. apply scan_panic in E. destruct E as (p0 & b' & typ & d & rest & st & E & N & H).
  eapply infix_short; [exact E|exact N|]. unfold hCon in H.
  destruct (typ =? 1).
  - destruct (unmarshalTuple d (fst st)) as [[r| |]|] eqn:U; try discriminate. apply tuple_panic in U. assumption.
  - destruct (typ =? 2); [|discriminate].
    destruct (unmarshalTuple d (snd st)) as [[r| |]|] eqn:U; try discriminate. apply tuple_panic in U. assumption.
Qed.

Lemma decode_panic data : decodeMessage data = Some Panic -> short_proto_attr data.
Proof.
  unfold decodeMessage. destruct (zlen data <? 2) eqn:L; [discriminate|]. apply Z.ltb_ge in L.
  destruct data as [|b0 [|b1 r]]; [cbn in L; lia|cbn in L; lia|].
  rewrite gslice_ok by (try lia; exact L). change (slice (b0 :: b1 :: r) 0 2) with [b0; b1]. cbn [bind].
  unfold messageOffset. change (gindex [b0; b1] 0) with (@Ok Z b0). change (gindex [b0; b1] 1) with (@Ok Z b1). cbn [bind].
  set (off := if _ && _ then 4 else 0). assert (OF : 0 <= off) by (unfold off; destruct (_ && _); lia).
  destruct (zlen (b0 :: b1 :: r) <=? off) eqn:L2; [discriminate|]. apply Z.leb_gt in L2.
  rewrite gslice_ok by lia. intros E.
  destruct (unmarshalCon _) as [[x| |]|] eqn:U; try discriminate.
  { cbn [bind] in E. destruct x. discriminate. }
  apply con_panic in U. unfold slice in U.
  assert (EQ : firstn (Z.to_nat (zlen (b0 :: b1 :: r) - off)) (skipn (Z.to_nat off) (b0 :: b1 :: r)) = skipn (Z.to_nat off) (b0 :: b1 :: r)).
  { apply firstn_all2. rewrite skipn_length. unfold zlen. lia. }
  rewrite EQ in U. rewrite <- (firstn_skipn (Z.to_nat off) (b0 :: b1 :: r)).
  rewrite <- (app_nil_r (skipn _ _)). apply short_infix. assumption.
Qed.

(** *** round trip *)
Lemma next_attr typ d r : 0 <= typ < 65536 -> 4 + zlen d < 65536 ->
  next (attr typ d ++ r) = Ok (Some (typ mod 16384, d, r)).
Proof.
  intros T L. assert (LA := attr_length typ d). unfold attr in *.
  pose proof (Zle_0_nat (List.length d)) as ZD. fold (zlen d) in ZD.
  set (pad := repeat 0 _) in *.
  assert (ZP : 0 <= zlen pad) by apply Zle_0_nat.
  assert (E : (le16 (4 + zlen d) ++ le16 typ ++ d ++ pad) ++ r =
              (4 + zlen d) mod 256 :: (4 + zlen d) / 256 :: typ mod 256 :: typ / 256 :: (d ++ pad ++ r)).
  { unfold le16. cbn [app]. rewrite <- !app_assoc. reflexivity. }
  rewrite E. unfold next. rewrite unmarshal4. cbv zeta.
  assert (LE : (4 + zlen d) mod 256 + 256 * ((4 + zlen d) / 256) = 4 + zlen d).
  { pose proof (Z.div_mod (4 + zlen d) 256 ltac:(lia)). lia. }
  assert (TE : typ mod 256 + 256 * (typ / 256) = typ).
  { pose proof (Z.div_mod typ 256 ltac:(lia)). lia. }
  rewrite LE, TE.
  assert (LD : zlen (d ++ pad ++ r) = zlen d + zlen pad + zlen r) by (unfold zlen; rewrite !app_length; lia).
  assert (LR : 0 <= zlen r) by apply Zle_0_nat.
  rewrite LD. destruct (_ <? 4 + zlen d) eqn:E1; [apply Z.ltb_lt in E1; lia|].
  destruct (4 + zlen d =? 0) eqn:E2; [apply Z.eqb_eq in E2; lia|].
  destruct (4 + zlen d <? 4) eqn:E3; [apply Z.ltb_lt in E3; lia|]. cbn [bind]. unfold nlaHeaderLen. rewrite E3.
  f_equal. f_equal. f_equal.
  - f_equal. apply firstn_app_exact. unfold zlen. lia.
  - rewrite <- E. apply skipn_app_exact. rewrite <- LA. apply Nat2Z.id.
Qed.

Lemma next_nested typ d r : 0 <= typ < 16384 -> 4 + zlen d < 65536 ->
  next (nested typ d ++ r) = Ok (Some (typ, d, r)).
Proof.
  intros T L. unfold nested. rewrite next_attr by lia. replace ((32768 + typ) mod 16384) with typ; [reflexivity|].
  replace (32768 + typ) with (typ + 2 * 16384) by lia. rewrite Z.mod_add, Z.mod_small by lia. reflexivity.
Qed.

Lemma next_small typ d r : 0 <= typ < 16384 -> 4 + zlen d < 65536 -> next (attr typ d ++ r) = Ok (Some (typ, d, r)).
Proof. intros T L. rewrite next_attr by lia. rewrite Z.mod_small by lia. reflexivity. Qed.

Lemma scan_step {S} (h : Z -> bytes -> S -> option (option (res S))) b typ d rest st st' n fuel :
  next b = Ok (Some (typ, d, rest)) -> h typ d st = Some (Some (Ok st')) -> (List.length b <= fuel)%nat ->
  exists fuel', (List.length rest <= fuel')%nat /\ scan h fuel (Datatypes.S n) b st = scan h fuel' n rest st'.
Proof.
  intros N H L. destruct (next_consumes _ _ _ _ N) as (C & _). destruct fuel as [|fuel]; [lia|].
  exists fuel. split; [lia|]. cbn [scan]. rewrite N, H. reflexivity.
Qed.

Lemma scan_done {S} (h : Z -> bytes -> S -> option (option (res S))) fuel b st : scan h fuel 0 b st = Some (Ok st).
Proof. destruct fuel; reflexivity. Qed.

Definition norm (ip : bytes) : bytes := match to4 ip with Some i => i | None => ip end.

Lemma norm_len ip : validIP ip -> zlen (norm ip) <= 16.
Proof.
  intros [V|V]; unfold norm, to4, zlen; rewrite V.
  - cbn. rewrite V. lia.
  - change (Z.of_nat 16 =? 4) with false. change (Z.of_nat 16 =? 16) with true. cbn [andb]. cbv iota.
    destruct (starts_with _ _); [rewrite skipn_length|]; rewrite V; lia.
Qed.
Lemma marshalSrc_eq ip : exists typ, (typ = 1 \/ typ = 3) /\ marshalSrc ip = attr typ (norm ip).
Proof. unfold marshalSrc, norm. destruct (to4 ip); eauto. Qed.
Lemma marshalDst_eq ip : exists typ, (typ = 2 \/ typ = 4) /\ marshalDst ip = attr typ (norm ip).
Proof. unfold marshalDst, norm. destruct (to4 ip); eauto. Qed.

Lemma ip_roundtrip src dst t : validIP src -> validIP dst ->
  unmarshalTupleIP (marshalSrc src ++ marshalDst dst) t =
  Some (Ok {| tsrc := Some (norm src); tdst := Some (norm dst); tproto := tproto t |}).
Proof.
  intros V1 V2. pose proof (norm_len src V1). pose proof (norm_len dst V2).
  destruct (marshalSrc_eq src) as (t1 & T1 & E1). destruct (marshalDst_eq dst) as (t2 & T2 & E2). rewrite E1, E2.
  unfold unmarshalTupleIP, scanAll. rewrite <- (app_nil_r (attr t2 _)).
  edestruct (scan_step hIP) as (f1 & L1 & S1);
    [apply (next_small t1 (norm src)); lia|unfold hIP; replace ((t1 =? 1) || (t1 =? 3)) with true by lia; reflexivity|apply Nat.le_refl|].
  rewrite S1.
  edestruct (scan_step hIP) as (f2 & L2 & S2);
    [apply (next_small t2 (norm dst)); lia|
     unfold hIP; replace ((t2 =? 1) || (t2 =? 3)) with false by lia; replace ((t2 =? 2) || (t2 =? 4)) with true by lia; reflexivity|exact L1|].
  rewrite S2, scan_done. reflexivity.
Qed.

Lemma be16_back n : 0 <= n < 65536 -> beUint16 (be16 n) = Ok n.
Proof. intros R. unfold be16, beUint16. f_equal. pose proof (Z.div_mod n 256 ltac:(lia)). lia. Qed.

Lemma proto_roundtrip n sp dp t : 0 <= sp < 65536 -> 0 <= dp < 65536 ->
  unmarshalProto (marshalProto n sp dp) t =
  Some (Ok (setProto t {| pnum := Some n; psport := Some sp; pdport := Some dp |})).
Proof.
  intros A B. unfold unmarshalProto, scanAll, marshalProto. rewrite <- (app_nil_r (attr 3 _)).
  edestruct (scan_step hProto) as (f1 & L1 & S1);
    [apply (next_small 1 [n]); cbn; lia|unfold hProto; cbn [Z.eqb Pos.eqb]; reflexivity|apply Nat.le_refl|].
  rewrite S1.
  edestruct (scan_step hProto) as (f2 & L2 & S2);
    [apply (next_small 2 (be16 sp)); cbn; lia|unfold hProto; cbn [Z.eqb Pos.eqb]; rewrite be16_back by assumption; reflexivity|exact L1|].
  rewrite S2.
  edestruct (scan_step hProto) as (f3 & L3 & S3);
    [apply (next_small 3 (be16 dp)); cbn; lia|unfold hProto; cbn [Z.eqb Pos.eqb]; rewrite be16_back by assumption; reflexivity|exact L2|].
  rewrite S3, scan_done. reflexivity.
Qed.

Lemma zlen_app {A} (a b : list A) : zlen (a ++ b) = zlen a + zlen b.
Proof. unfold zlen. rewrite app_length. lia. Qed.

Lemma zlen_attr_le typ d : zlen (attr typ d) < 8 + zlen d.
Proof. rewrite attr_length. pose proof (nlaAlign_bounds (4 + zlen d)). lia. Qed.

Lemma ip_len src dst : validIP src -> validIP dst -> zlen (marshalSrc src ++ marshalDst dst) < 48.
Proof.
  intros V1 V2. pose proof (norm_len src V1). pose proof (norm_len dst V2).
  destruct (marshalSrc_eq src) as (t1 & T1 & E1). destruct (marshalDst_eq dst) as (t2 & T2 & E2). rewrite E1, E2.
  rewrite zlen_app. pose proof (zlen_attr_le t1 (norm src)). pose proof (zlen_attr_le t2 (norm dst)). lia.
Qed.
Lemma proto_len n sp dp : zlen (marshalProto n sp dp) = 24.
Proof. reflexivity. Qed.

Lemma tuple_len src dst n sp dp : validIP src -> validIP dst -> zlen (marshalIPTuple src dst n sp dp) < 200.
Proof.
  intros V1 V2. unfold marshalIPTuple. rewrite zlen_app. pose proof (ip_len src dst V1 V2).
  pose proof (zlen_attr_le (32768 + 1) (marshalSrc src ++ marshalDst dst)).
  pose proof (zlen_attr_le (32768 + 2) (marshalProto n sp dp)). rewrite proto_len in *. unfold nested. lia.
Qed.

Lemma tuple_roundtrip src dst n sp dp : validIP src -> validIP dst -> 0 <= sp < 65536 -> 0 <= dp < 65536 ->
  unmarshalTuple (marshalIPTuple src dst n sp dp) noTuple = Some (Ok (mkTuple (norm src) (norm dst) n sp dp)).
Proof.
  intros V1 V2 A B. pose proof (ip_len src dst V1 V2).
  unfold unmarshalTuple, scanAll, marshalIPTuple. rewrite <- (app_nil_r (nested 2 _)).
  edestruct (scan_step hTuple) as (f1 & L1 & S1);
    [apply (next_nested 1 (marshalSrc src ++ marshalDst dst)); lia|unfold hTuple; cbn [Z.eqb Pos.eqb]; rewrite ip_roundtrip by assumption; reflexivity|apply Nat.le_refl|].
  rewrite S1.
  edestruct (scan_step hTuple) as (f2 & L2 & S2);
    [apply (next_nested 2 (marshalProto n sp dp)); rewrite ?proto_len; lia|unfold hTuple; cbn [Z.eqb Pos.eqb]; rewrite proto_roundtrip by assumption; reflexivity|exact L1|].
  rewrite S2, scan_done. reflexivity.
Qed.

Lemma con_roundtrip os od on osp odp rs rd rn rsp rdp :
  validIP os -> validIP od -> validIP rs -> validIP rd ->
  0 <= osp < 65536 -> 0 <= odp < 65536 -> 0 <= rsp < 65536 -> 0 <= rdp < 65536 ->
  unmarshalCon (EncodeConn os od on osp odp rs rd rn rsp rdp) =
  Some (Ok (mkTuple (norm os) (norm od) on osp odp, mkTuple (norm rs) (norm rd) rn rsp rdp)).
Proof.
  intros V1 V2 V3 V4 A B C D. pose proof (tuple_len os od on osp odp V1 V2). pose proof (tuple_len rs rd rn rsp rdp V3 V4).
  unfold unmarshalCon, scanAll, EncodeConn. rewrite <- (app_nil_r (nested 2 _)).
  edestruct (scan_step hCon) with (st := (noTuple, noTuple)) as (f1 & L1 & S1);
    [apply (next_nested 1 (marshalIPTuple os od on osp odp)); lia|unfold hCon; cbn [Z.eqb Pos.eqb fst snd]; rewrite tuple_roundtrip by assumption; reflexivity|apply Nat.le_refl|].
  rewrite S1.
  edestruct (scan_step hCon) with (st := (mkTuple (norm os) (norm od) on osp odp, noTuple)) as (f2 & L2 & S2);
    [apply (next_nested 2 (marshalIPTuple rs rd rn rsp rdp)); lia|unfold hCon; cbn [Z.eqb Pos.eqb fst snd]; rewrite tuple_roundtrip by assumption; reflexivity|exact L1|].
  rewrite S2, scan_done. reflexivity.
Qed.

Lemma norm_same ip : validIP ip -> validIP (norm ip) /\ sameIP (norm ip) ip.
Proof.
  intros [V|V]; unfold norm, to4, zlen, validIP, sameIP, canonical; rewrite V.
  - cbn. rewrite V. auto.
  - change (Z.of_nat 16 =? 4) with false. change (Z.of_nat 16 =? 16) with true. cbn [andb]. cbv iota.
    destruct (starts_with v4InV6Prefix ip) eqn:S.
    + apply starts_with_iff in S. destruct S as (r & ->). rewrite skipn_app_exact by reflexivity.
      rewrite app_length in V. cbn [v4InV6Prefix List.length] in V. assert (R : List.length r = 4%nat) by lia. rewrite R. auto.
    + rewrite V. auto.
Qed.

Lemma first_len_byte src dst n sp dp : validIP src -> validIP dst ->
  56 <= 4 + zlen (marshalIPTuple src dst n sp dp) < 256 \/ 4 + zlen (marshalIPTuple src dst n sp dp) = 52.
Proof.
  intros V1 V2. pose proof (tuple_len src dst n sp dp V1 V2).
  destruct (Z.eq_dec (4 + zlen (marshalIPTuple src dst n sp dp)) 52); [right; assumption|left].
  split; [|lia].
  unfold marshalIPTuple, nested in *. rewrite zlen_app in *. rewrite (attr_length (32768 + 2)) in *. rewrite proto_len in *.
  change (nlaAlign (4 + 24)) with 28 in *. rewrite attr_length in *. rewrite zlen_app in *.
  destruct (marshalSrc_eq src) as (t1 & T1 & E1). destruct (marshalDst_eq dst) as (t2 & T2 & E2). rewrite E1, E2 in *.
  rewrite !attr_length in *.
  assert (X : forall ip, validIP ip -> nlaAlign (4 + zlen (norm ip)) = 8 \/ nlaAlign (4 + zlen (norm ip)) = 20).
  { clear. intros ip V. destruct (norm_same ip V) as [[L|L] _]; unfold zlen; rewrite L; [left|right]; reflexivity. }
  destruct (X src V1) as [Y|Y], (X dst V2) as [W|W]; rewrite Y, W in *.
  - change (nlaAlign (4 + (8 + 8))) with 20 in *. lia.
  - change (nlaAlign (4 + (8 + 20))) with 32 in *. lia.
  - change (nlaAlign (4 + (20 + 8))) with 32 in *. lia.
  - change (nlaAlign (4 + (20 + 20))) with 44 in *. lia.
Qed.

Lemma decode_roundtrip_plain os od on osp odp rs rd rn rsp rdp :
  validIP os -> validIP od -> validIP rs -> validIP rd ->
  0 <= osp < 65536 -> 0 <= odp < 65536 -> 0 <= rsp < 65536 -> 0 <= rdp < 65536 ->
  decodeMessage (EncodeConn os od on osp odp rs rd rn rsp rdp) =
  Some (Ok (mkCon (mkTuple (norm os) (norm od) on osp odp) (mkTuple (norm rs) (norm rd) rn rsp rdp))).
Proof.
  intros V1 V2 V3 V4 A B C D.
  pose proof (con_roundtrip os od on osp odp rs rd rn rsp rdp V1 V2 V3 V4 A B C D) as R.
  pose proof (first_len_byte os od on osp odp V1 V2) as FB.
  set (e := EncodeConn os od on osp odp rs rd rn rsp rdp) in *.
  set (L := 4 + zlen (marshalIPTuple os od on osp odp)) in *.
  assert (EE : exists q, e = L mod 256 :: L / 256 :: q) by (eexists; reflexivity).
  destruct EE as (q & EE).
  assert (ZL : 2 <= zlen e) by (rewrite EE; unfold zlen; cbn [List.length]; lia).
  unfold decodeMessage. destruct (zlen e <? 2) eqn:E1; [apply Z.ltb_lt in E1; lia|].
  rewrite gslice_ok by lia. assert (SL : slice e 0 2 = [L mod 256; L / 256]) by (rewrite EE; reflexivity). rewrite SL. cbn [bind].
  unfold messageOffset. change (gindex [L mod 256; L / 256] 0) with (@Ok Z (L mod 256)). change (gindex [L mod 256; L / 256] 1) with (@Ok Z (L / 256)).
  cbn [bind]. assert (LM : L mod 256 = L) by (apply Z.mod_small; lia). rewrite LM.
  replace (L =? 2) with false by lia. replace (L =? 10) with false by lia. cbn [orb andb]. cbv iota.
  replace (zlen e <=? 0) with false by lia. rewrite gslice_ok by lia.
  assert (SA : slice e 0 (zlen e) = e) by (unfold slice; cbn [skipn Z.to_nat]; apply firstn_all2; unfold zlen; lia).
  rewrite SA, R. reflexivity.
Qed.

Lemma decode_roundtrip_header f v r1 os od on osp odp rs rd rn rsp rdp :
  (f = 2 \/ f = 10) ->
  validIP os -> validIP od -> validIP rs -> validIP rd ->
  0 <= osp < 65536 -> 0 <= odp < 65536 -> 0 <= rsp < 65536 -> 0 <= rdp < 65536 ->
  decodeMessage ([f; 0; v; r1] ++ EncodeConn os od on osp odp rs rd rn rsp rdp) =
  Some (Ok (mkCon (mkTuple (norm os) (norm od) on osp odp) (mkTuple (norm rs) (norm rd) rn rsp rdp))).
Proof.
  intros F V1 V2 V3 V4 A B C D.
  pose proof (con_roundtrip os od on osp odp rs rd rn rsp rdp V1 V2 V3 V4 A B C D) as R.
  pose proof (first_len_byte os od on osp odp V1 V2) as FB.
  set (L := 4 + zlen (marshalIPTuple os od on osp odp)) in *.
  set (e := EncodeConn os od on osp odp rs rd rn rsp rdp) in *.
  assert (EE : exists q, e = L mod 256 :: L / 256 :: q) by (eexists; reflexivity).
  assert (ZE : 0 < zlen e) by (destruct EE as (q & ->); unfold zlen; cbn [List.length]; lia). clear EE.
  assert (ZL : zlen ([f; 0; v; r1] ++ e) = 4 + zlen e) by (rewrite zlen_app; reflexivity).
  unfold decodeMessage. rewrite ZL. replace (4 + zlen e <? 2) with false by lia.
  rewrite gslice_ok by lia. change (slice ([f; 0; v; r1] ++ e) 0 2) with [f; 0]. cbn [bind].
  unfold messageOffset. change (gindex [f; 0] 0) with (@Ok Z f). change (gindex [f; 0] 1) with (@Ok Z 0).
  cbn [bind]. replace (((f =? 2) || (f =? 10)) && (0 =? 0)) with true by lia. cbv iota.
  replace (4 + zlen e <=? 4) with false by lia. rewrite gslice_ok by lia.
  assert (SA : slice ([f; 0; v; r1] ++ e) 4 (4 + zlen e) = e).
  { unfold slice. change (skipn (Z.to_nat 4) ([f; 0; v; r1] ++ e)) with e. apply firstn_all2. unfold zlen. lia. }
  rewrite SA, R. reflexivity.
Qed.
