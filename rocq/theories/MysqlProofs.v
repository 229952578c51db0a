(** The MySQL parser in closed form. *)
From Verif Require Import Base DetectProofs AttrModel LabelNames MsgModel ReaderProofs TextModel TextSpec TextProofs TextProps HttpProofs SqlModel SqlSpec SqlProofs SqlProps MysqlModel MysqlSpec.
Open Scope string_scope. Open Scope list_scope. Open Scope Z_scope.

Definition verdict (r : res ((bool * bool) * msg)) : res (bool * msg) := bind r (fun '((ok, _), m) => Ok (ok, m)).
(** the query without the parameter count *)
Definition strip (body : bytes) : bytes := match body with a :: e :: c :: r => if (a =? 0) && (e =? 1) then c :: r else body | _ => body end.
Lemma packet_len h c b : zlen h = 4 -> zlen (packet h c b) = 5 + zlen b.
Proof. intros L. unfold packet. rewrite !zlen_app, L. change (zlen [c]) with 1. lia. Qed.
Lemma packet_cmd h c b : zlen h = 4 -> gindex (packet h c b) 4 = Ok c.
Proof. intros L. unfold packet. rewrite <- L. apply g0. Qed.
Lemma packet_body h c b : zlen h = 4 -> gslice (packet h c b) 5 (zlen (packet h c b)) = Ok b.
Proof.
  intros L. unfold packet. rewrite app_assoc. apply gslice_suf; [rewrite zlen_app, L; reflexivity|reflexivity].
Qed.
Lemma packet_split d : 5 <= zlen d -> exists h c b, d = packet h c b /\ zlen h = 4.
Proof.
  intros L. destruct d as [|a [|b [|c [|e [|f r]]]]]; try (cbn in L; lia). exists [a; b; c; e], f, r. split; reflexivity.
Qed.
Lemma formatUtf8_merge s : formatUtf8 (mergeSql s) = Ok (mergeSql s).
Proof.
  apply formatUtf8_ascii. destruct (C24_shape s) as [->|(op & ks & I & _ & [->|(pre & w & sp & t & rest & _ & _ & N & _ & ->)])]; [constructor| |].
  - pose proof (eq_refl : forallb (fun p => forallb (fun c => (0 <=? c) && (c <? 128)) (bs (fst p) ++ bs " *")) operations = true) as F.
    rewrite forallb_forall in F. specialize (F _ I). cbn [fst] in F. unfold asciiText. apply Forall_forall. intros c Ic. rewrite forallb_forall in F. specialize (F c Ic). cbn beta in F. lia.
  - pose proof (eq_refl : forallb (fun p => forallb (fun c => (0 <=? c) && (c <? 128)) (bs (fst p) ++ bs " *")) operations = true) as F.
    rewrite forallb_forall in F. specialize (F _ I). cbn [fst] in F. rewrite forallb_forall in F. unfold asciiText. apply Forall_forall. intros c Ic.
    apply in_app_or in Ic. destruct Ic as [Ic|Ic].
    + specialize (F c (in_or_app _ _ _ (or_introl Ic))). cbn beta in F. lia.
    + apply in_app_or in Ic. destruct Ic as [Ic|Ic]; [cbn in Ic; lia|]. apply in_app_or in Ic. destruct Ic as [Ic|Ic]; [|cbn in Ic; lia].
      destruct N as [_ N]. rewrite Forall_forall in N. specialize (N c Ic). unfold nameChar in N. lia.
Qed.
(** what a statement records; a payload that is none is refused *)
Lemma addSql_eval m s q : formatUtf8 s = Ok q ->
  addSql m s = if isSql s then Ok ((true, true), addAttr (addAttr m LSql (SV q)) LContentKey (SV (mergeSql s))) else Ok ((false, true), m).
Proof. intros F. unfold addSql. rewrite F, formatUtf8_merge. destruct (isSql s); reflexivity. Qed.
Lemma request_eval h c b : zlen h = 4 -> let m := newRequest (packet h c b) in
  mysqlRequest (packet h c b) =
    if c =? 22 then verdict (addSql m b) else if c =? 3 then verdict (addSql m (strip b))
    else if c =? 1 then Ok (true, addAttr m LOneway (BV true)) else Ok (false, m).
Proof.
  intros L m. unfold mysqlRequest. fold m. unfold parsePayload, mysqlRequestParser. cbn [parseOneFrame]. unfold shorterThan. cbn [bind].
  assert (D : m_data m = packet h c b) by reflexivity. rewrite D, (packet_len h c b L). pose proof (zlen_nonneg b) as NB.
  replace (5 + zlen b <? 5) with false by lia. unfold parseMysqlRoot. cbn [bind negb].
  destruct (formatUtf8_prefix b) as (q & r & Q & _). destruct (formatUtf8_prefix (strip b)) as (q2 & r2 & Q2 & _).
  rewrite !(addSql_eval _ _ _ Q), !(addSql_eval _ _ _ Q2).
  assert (FF : forall x, fastfailCommand [x] m = Ok (negb (c =? x), m)).
  { intros x. unfold fastfailCommand. rewrite D, (packet_cmd h c b L). cbn [bind existsb]. rewrite orb_false_r. reflexivity. }
  rewrite FF. cbn [bind]. destruct (c =? 22) eqn:C22; cbn [negb bind].
  - unfold parseMysqlPrepare. rewrite D, (packet_body h c b L). cbn [bind]. rewrite (addSql_eval _ _ _ Q). assert (c = 22) as -> by lia.
    destruct (isSql b); cbn [bind negb verdict]; [reflexivity|]. repeat (rewrite FF; cbn [bind Z.eqb Pos.eqb negb]; cbn iota). reflexivity.
  - rewrite FF. cbn [bind]. destruct (c =? 3) eqn:C3; cbn [negb bind].
    + unfold parseMysqlQuery. rewrite D, (packet_body h c b L). cbn [bind].
      assert (ST : (if 2 <? zlen b then bind (gindex b 0) (fun a => bind (gindex b 1) (fun e => if (a =? 0) && (e =? 1) then gslice b 2 (zlen b) else Ok b)) else Ok b) = Ok (strip b)).
      { destruct b as [|a [|e [|f b']]]; try reflexivity.
        assert (L3 : 2 < zlen (a :: e :: f :: b')) by (rewrite !zlen_cons; pose proof (zlen_nonneg b'); lia). replace (2 <? zlen (a :: e :: f :: b')) with true by lia. change (gindex (a :: e :: f :: b') 0) with (Ok a). change (gindex (a :: e :: f :: b') 1) with (Ok e). cbn [bind strip].
        destruct ((a =? 0) && (e =? 1)); [|reflexivity]. change (a :: e :: f :: b') with ([a; e] ++ f :: b'). apply gslice_suf; reflexivity. }
      match goal with |- context [if 2 <? zlen b then ?x else ?y] => replace (if 2 <? zlen b then x else y) with (Ok (strip b)) by (symmetry; exact ST) end. cbn [bind]. rewrite (addSql_eval _ _ _ Q2). assert (c = 3) as -> by lia.
      destruct (isSql (strip b)); cbn [bind negb verdict]; [reflexivity|]. repeat (rewrite FF; cbn [bind Z.eqb Pos.eqb negb]; cbn iota). reflexivity.
    + rewrite FF. cbn [bind]. destruct (c =? 1) eqn:C1; cbn [negb bind]; reflexivity.
Qed.
Lemma request_short d : zlen d < 5 -> mysqlRequest d = Ok (false, newRequest d).
Proof.
  intros L. unfold mysqlRequest, parsePayload, mysqlRequestParser. cbn [parseOneFrame]. unfold shorterThan. cbn [newRequest m_data bind].
  replace (zlen d <? 5) with true by lia. reflexivity.
Qed.
Lemma isSql_spec s : isSql s = true <-> statement s.
Proof.
  unfold isSql, statement. assert (LC : map foldByte s = lowerCase s) by reflexivity. rewrite LC. split.
  - intros E. apply existsb_exists in E. destruct E as (op & I & E).
    assert (I2 : In op (map fst operations)) by exact I. apply in_map_iff in I2. destruct I2 as ([op' ks] & E2 & I2). cbn [fst] in E2. subst op'.
    assert (X : exists w r, s = w ++ r /\ lowerCase w = bs op).
    { clear LC I. revert E. generalize (bs op). intros p. revert s. induction p as [|x p IH]; intros s E; [exists [], s; split; reflexivity|]. destruct s as [|y s]; [discriminate|]. cbn [lowerCase map starts_with] in E. apply andb_prop in E. destruct E as [E1 E2].
      destruct (IH s E2) as (w & r & -> & <-). exists (y :: w), r. split; [reflexivity|]. cbn [lowerCase map]. f_equal. lia. }
    destruct X as (w & r & X & Y). exists op, ks, w, r. split; [exact I2|]. split; [exact X|exact Y].
  - intros (op & ks & w & r & I & -> & L). apply existsb_exists. exists op. split; [apply (in_map fst) in I; exact I|].
    unfold lowerCase. rewrite map_app. unfold spells, lowerCase in L. rewrite L. apply starts_with_app.
Qed.

(** Responses. *)
Lemma packet5 h c lo hi b : zlen h = 4 -> gslice (packet h c ([lo; hi] ++ b)) 5 7 = Ok [lo; hi].
Proof.
  intros L. unfold packet. rewrite app_assoc. apply gslice_mid; [rewrite zlen_app, L; reflexivity|rewrite zlen_app, L; reflexivity].
Qed.
(** the recorded text of an error *)
Definition errText (body : bytes) : bytes :=
  match body with
  | _ :: b1 :: b2 :: b3 :: b4 :: b5 :: b6 :: b7 :: r =>
      if b1 =? 35 then [b1; b2; b3; b4; b5] ++ bs ":" ++ b6 :: b7 :: r else b1 :: b2 :: b3 :: b4 :: b5 :: b6 :: b7 :: r
  | _ :: r => r
  | [] => []
  end.
Lemma response_root d attrs : 6 <= zlen d -> let m := newResponse d attrs in
  mysqlResponse d attrs = bind (gindex d 4) (fun c =>
    if c =? 255 then verdict (parseMysqlErr m)
    else if (c =? 0) || (c =? 254) then Ok (true, m) else Ok (hasAttr m LSql, m)).
Proof.
  intros L m. unfold mysqlResponse. fold m. unfold parsePayload, mysqlResponseParser. cbn [parseOneFrame]. unfold shorterThan. cbn [bind].
  assert (D : m_data m = d) by reflexivity. rewrite D. replace (zlen d <? 6) with false by lia. unfold parseMysqlRoot. cbn [bind negb].
  destruct (gindex_in d 4 ltac:(lia)) as (c & G).
  assert (FF : forall l, fastfailCommand l m = Ok (negb (existsb (Z.eqb c) l), m)).
  { intros l. unfold fastfailCommand. rewrite D, G. reflexivity. }
  rewrite G. cbn [bind]. rewrite FF. cbn [bind existsb]. rewrite orb_false_r. destruct (c =? 255) eqn:C; cbn [negb bind].
  - unfold verdict. assert (OK : forall r m', parseMysqlErr m = Ok (r, m') -> r = (true, true)).
    { unfold parseMysqlErr. intros r m' E.
      repeat match type of E with
             | bind ?x _ = _ => destruct x; cbn [bind] in E; [|discriminate|discriminate]
             end. injection E as <- _. reflexivity. }
    destruct (parseMysqlErr m) as [[r m']| |] eqn:P; cbn [bind]; try reflexivity. rewrite (OK r m' eq_refl). cbn [negb]. reflexivity.
  - rewrite FF. cbn [bind existsb]. rewrite orb_false_r. destruct ((c =? 0) || (c =? 254)) eqn:C2; cbn [negb bind].
    + reflexivity.
    + rewrite FF. cbn [bind existsb]. replace (c =? 254) with false by lia. cbn [negb orb bind]. unfold fastfailMysqlResultSet. cbn [bind].
      destruct (hasAttr m LSql); reflexivity.
Qed.
Lemma response_short d attrs : zlen d < 6 -> mysqlResponse d attrs = Ok (false, newResponse d attrs).
Proof.
  intros L. unfold mysqlResponse, parsePayload, mysqlResponseParser. cbn [parseOneFrame]. unfold shorterThan. cbn [newResponse m_data bind].
  replace (zlen d <? 6) with true by lia. reflexivity.
Qed.
Lemma short_err d attrs : 6 <= zlen d -> zlen d < 8 -> parseMysqlErr (newResponse d attrs) = Panic.
Proof.
  intros L1 L2. unfold parseMysqlErr. cbn [newResponse m_data]. unfold gslice at 1.
  destruct ((0 <=? 5) && (5 <=? 7) && (7 <=? zlen d)) eqn:Q; [|reflexivity]. cbn [bind].
  assert (LS : zlen (slice d 5 7) = 2) by (pose proof (slice_length d 5 7); lia).
  destruct (gindex_in (slice d 5 7) 0 ltac:(lia)) as (lo & ->). destruct (gindex_in (slice d 5 7) 1 ltac:(lia)) as (hi & ->). cbn [bind]. cbn zeta.
  replace (14 <? zlen d) with false by lia. unfold gslice. replace ((0 <=? 8) && (8 <=? zlen d) && (zlen d <=? zlen d)) with false by lia. reflexivity.
Qed.
Lemma err_eval h lo hi b x attrs t : zlen h = 4 -> let d := packet h 255 ([lo; hi] ++ x :: b) in let m := newResponse d attrs in
  formatUtf8 (errText (x :: b)) = Ok t ->
  parseMysqlErr m = Ok ((true, true), let code := Z.lor lo (Z.shiftl hi 8) in let m1 := addAttr (addAttr m LSqlErrCode (IV code)) LSqlErrMsg (SV t) in
     if code =? 0 then m1 else addAttr (addAttr m1 LIsError (BV true)) LErrorType (IV ProtocolError)).
Proof.
  intros L d m F. unfold parseMysqlErr. assert (D : m_data m = d) by reflexivity. rewrite D. unfold d at 1. rewrite packet5 by exact L. cbn [bind].
  change (gindex [lo; hi] 0) with (Ok lo). change (gindex [lo; hi] 1) with (Ok hi). cbn [bind]. cbn zeta.
  assert (LD : zlen d = 8 + zlen b) by (unfold d; rewrite packet_len by exact L; rewrite zlen_app; change (zlen [lo; hi]) with 2; rewrite zlen_cons; lia).
  assert (D2 : d = (h ++ [255; lo; hi; x]) ++ b) by (unfold d, packet; rewrite <- app_assoc; reflexivity).
  assert (L8 : zlen (h ++ [255; lo; hi; x]) = 8) by (rewrite zlen_app, L; reflexivity).
  assert (TXT : (if 14 <? zlen d
            then bind (gindex d 8) (fun b0 =>
                   if b0 =? 35 then bind (gslice d 8 13) (fun st => bind (gslice d 13 (zlen d)) (fun t => Ok (st ++ bs ":" ++ t)))
                   else gslice d 8 (zlen d))
            else gslice d 8 (zlen d)) = Ok (errText (x :: b))).
  { assert (ALL : gslice d 8 (zlen d) = Ok b) by (rewrite D2; apply gslice_suf; [symmetry; exact L8|reflexivity]).
    rewrite ALL. destruct (14 <? zlen d) eqn:Q.
    - rewrite LD in Q. destruct b as [|b1 [|b2 [|b3 [|b4 [|b5 [|b6 [|b7 r]]]]]]]; rewrite ?zlen_cons in Q; change (zlen (@nil Z)) with 0 in Q; try lia.
      assert (G : gindex d 8 = Ok b1) by (rewrite D2, <- L8; apply g0). rewrite G. cbn [bind].
      destruct (b1 =? 35) eqn:E.
      + assert (b1 = 35) as -> by lia.
        assert (S1 : gslice d 8 13 = Ok [35; b2; b3; b4; b5]).
        { rewrite D2. change (35 :: b2 :: b3 :: b4 :: b5 :: b6 :: b7 :: r) with ([35; b2; b3; b4; b5] ++ b6 :: b7 :: r). apply gslice_mid; [symmetry; exact L8|rewrite L8; reflexivity]. }
        assert (S2 : gslice d 13 (zlen d) = Ok (b6 :: b7 :: r)).
        { rewrite D2. change (35 :: b2 :: b3 :: b4 :: b5 :: b6 :: b7 :: r) with ([35; b2; b3; b4; b5] ++ b6 :: b7 :: r). rewrite app_assoc. apply gslice_suf; [rewrite zlen_app, L8; reflexivity|reflexivity]. }
        rewrite S1, S2. reflexivity.
      + cbn [errText]. rewrite E. reflexivity.
    - rewrite LD in Q. cbn [errText]. destruct b as [|b1 [|b2 [|b3 [|b4 [|b5 [|b6 [|b7 r]]]]]]]; rewrite ?zlen_cons in Q; try (pose proof (zlen_nonneg r); lia); reflexivity. }
  rewrite TXT. cbn [bind]. rewrite F. reflexivity.
Qed.
