(** C24: the content key of a SQL statement. *)
From Verif Require Import Base DetectProofs AttrModel SqlModel SqlSpec SqlProofs.
Open Scope string_scope. Open Scope list_scope. Open Scope Z_scope.

(** No operation is a prefix of another. *)
Lemma prefixes_comparable {A} (a b c d : list A) : a ++ b = c ++ d -> (exists e, c = a ++ e) \/ (exists e, a = c ++ e).
Proof.
  revert c. induction a as [|x a IH]; intros c E; [left; exists c; reflexivity|]. destruct c as [|y c]; [right; exists (x :: a); reflexivity|].
  cbn [app] in E. injection E as -> E. destruct (IH c E) as [(e & ->)|(e & ->)]; [left|right]; exists e; reflexivity.
Qed.
Lemma starts_with_app (a b : bytes) : starts_with a (a ++ b) = true.
Proof. induction a as [|x a IH]; [reflexivity|]. cbn [app starts_with]. rewrite Z.eqb_refl. exact IH. Qed.
Lemma ops_prefix_free : forallb (fun p => forallb (fun q => eqb (fst p) (fst q) || negb (starts_with (bs (fst p)) (bs (fst q)))) operations) operations = true.
Proof. vm_compute. reflexivity. Qed.
Lemma ops_first : forallb (fun p => match bs (fst p) with c :: _ => (97 <=? c) && (c <=? 122) | [] => false end) operations = true.
Proof. vm_compute. reflexivity. Qed.
Lemma ops_keys : forallb (fun p => forallb (fun k => forallb (fun c => (97 <=? c) && (c <=? 122)) (bs k)) (snd p)) operations = true.
Proof. vm_compute. reflexivity. Qed.
Lemma opens_prefix s op ks : In (op, ks) operations -> opens s op -> exists r, lowerCase (dropWhile isSpace s) = bs op ++ r.
Proof.
  intros I O. pose proof ops_first as F. rewrite forallb_forall in F. specialize (F _ I). cbn [fst] in F. destruct (bs op) as [|c r] eqn:B; [discriminate|].
  pose proof (checkType_opens op s c r B ltac:(lia) O) as T. unfold checkType in T. destruct (matchFold (bs op) (dropWhile isSpace s)) as [m|] eqn:M; [|discriminate].
  apply matchFold_spec in M. destruct M as (w & E & L). rewrite E. exists (lowerCase m). unfold lowerCase in *. rewrite map_app, L, B. reflexivity.
Qed.
Lemma opens_unique s op ks op' ks' : In (op, ks) operations -> In (op', ks') operations -> opens s op -> opens s op' -> op = op'.
Proof.
  intros I I' O O'. destruct (opens_prefix _ _ _ I O) as (r & E). destruct (opens_prefix _ _ _ I' O') as (r' & E'). rewrite E in E'.
  pose proof ops_prefix_free as F. rewrite forallb_forall in F.
  destruct (prefixes_comparable _ _ _ _ E') as [(e & P)|(e & P)].
  - specialize (F _ I). rewrite forallb_forall in F. specialize (F _ I'). cbn [fst] in F. rewrite P, starts_with_app, orb_false_r in F. apply eqb_true in F. exact F.
  - specialize (F _ I'). rewrite forallb_forall in F. specialize (F _ I). cbn [fst] in F. rewrite P, starts_with_app, orb_false_r in F. apply eqb_true in F. symmetry. exact F.
Qed.
Lemma checkType_iff s op ks : In (op, ks) operations -> checkType op s = true <-> opens s op.
Proof.
  intros I. split; [apply checkType_spec|]. pose proof ops_first as F. rewrite forallb_forall in F. specialize (F _ I). cbn [fst] in F. destruct (bs op) as [|c r] eqn:B; [discriminate|].
  apply (checkType_opens op s c r B). lia.
Qed.
Lemma parse_nonempty op ks s : checkType op s = true -> parseStatement op ks s <> [].
Proof. intros T. unfold parseStatement. rewrite T. cbn [negb]. cbn zeta. intros E. apply app_eq_nil in E. destruct E as [_ E]. discriminate E. Qed.
Lemma merge_opens s op ks : In (op, ks) operations -> opens s op -> mergeSql s = parseStatement op ks s.
Proof.
  intros I O. unfold mergeSql. change factory with operations.
  assert (KU : forall k2, In (op, k2) operations -> k2 = ks).
  { intros k2 I2. clear -I I2. cbn [operations In] in I, I2. repeat match goal with H : _ \/ _ |- _ => destruct H as [H|H] end; try contradiction; congruence. }
  assert (G : forall fs, (forall p, In p fs -> In p operations) -> In (op, ks) fs -> mergeWith fs s = parseStatement op ks s).
  { induction fs as [|[ty k] fs IH]; intros SUB IN; [contradiction|]. cbn [mergeWith]. destruct (checkType ty s) eqn:T.
    - assert (ty = op) as -> by (apply (opens_unique s ty k op ks); [apply SUB; left; reflexivity|exact I|apply checkType_spec; exact T|exact O]).
      rewrite (KU k (SUB _ (or_introl eq_refl))) in *. destruct (parseStatement op ks s) eqn:P; [|reflexivity]. exfalso. exact (parse_nonempty op ks s T P).
    - apply IH; [intros p Ip; apply SUB; right; exact Ip|]. destruct IN as [IN|IN]; [|exact IN]. injection IN as -> ->. rewrite (proj2 (checkType_iff s op ks I) O) in T. discriminate. }
  apply G; [auto|exact I].
Qed.
(** A statement that opens with no known operation has an empty key. *)
Theorem C24_unknown s : (forall op ks, In (op, ks) operations -> ~ opens s op) -> mergeSql s = [].
Proof.
  intros N. unfold mergeSql. change factory with operations.
  assert (G : forall fs, (forall p, In p fs -> In p operations) -> mergeWith fs s = []); [|apply G; auto].
  induction fs as [|[ty k] fs IH]; intros SUB; [reflexivity|]. cbn [mergeWith]. destruct (checkType ty s) eqn:T.
  - exfalso. apply (N ty k); [apply SUB; left; reflexivity|apply checkType_spec; exact T].
  - apply IH. intros p I. apply SUB. right. exact I.
Qed.
Print Assumptions C24_unknown.

Lemma key_unspaced op ks k w : In (op, ks) operations -> In k ks -> spells w k -> unspaced w.
Proof.
  intros I K L. pose proof ops_keys as F. rewrite forallb_forall in F. specialize (F _ I). cbn [snd] in F. rewrite forallb_forall in F. specialize (F _ K).
  rewrite <- L in F. apply Forall_forall. intros c Ic S. rewrite forallb_forall in F. unfold lowerCase in F. specialize (F _ (in_map _ _ _ Ic)). cbn beta in F.
  unfold space in S. cbn [In] in S. destruct ((65 <=? c) && (c <=? 90)) eqn:Q; lia.
Qed.
Lemma unspaced_unique (a b r s : bytes) c d : unspaced a -> unspaced b -> space c -> space d -> a ++ c :: r = b ++ d :: s -> a = b /\ c :: r = d :: s.
Proof.
  revert b. induction a as [|x a IH]; intros [|y b] UA UB C D E; cbn [app] in E.
  - split; [reflexivity|exact E].
  - injection E as -> E. inversion UB; subst. contradiction.
  - injection E as -> E. inversion UA; subst. contradiction.
  - injection E as -> E. inversion UA; inversion UB; subst. destruct (IH b) as [-> EQ]; try assumption. split; [reflexivity|exact EQ].
Qed.
(** The value the merger finds at the first introducing word. *)
Lemma value_at op ks s pre w sp rest : In (op, ks) operations -> introduces ks s pre w sp rest -> firstIn ks s pre -> findKey ks s = Some (sp ++ rest).
Proof.
  intros I INT F. destruct (findKey ks s) as [r|] eqn:E.
  2: { exfalso. apply (findKey_none ks s E pre w sp rest INT). }
  apply findKey_found in E. destruct E as (pre0 & w0 & c & r' & INT0 & -> & F0).
  assert (L : List.length pre = List.length pre0) by (pose proof (F _ _ _ _ INT0); pose proof (F0 _ _ _ _ INT); lia).
  destruct INT as (H & (k & K & SP) & N & S). destruct INT0 as (H0 & (k0 & K0 & SP0) & _ & S0).
  assert (EQ : w ++ sp ++ rest = w0 ++ c :: r').
  { rewrite H in H0. revert H0 L. clear. revert pre0. induction pre as [|x pre IH]; intros [|y pre0] H0 L; cbn in L; try discriminate; [exact H0|]. cbn [app] in H0. injection H0 as _ H0. apply (IH pre0); [exact H0|lia]. }
  destruct sp as [|c1 sp]; [congruence|]. cbn [app] in EQ |- *.
  apply unspaced_unique in EQ; [destruct EQ as [_ EQ]; rewrite EQ; reflexivity|exact (key_unspaced op ks k w I K SP)|exact (key_unspaced op ks k0 w0 I K0 SP0)|inversion S; assumption|inversion S0; assumption].
Qed.

(** The first table name behind an introducing word, when made of letters, is the key's. *)
Theorem C24_table op ks s pre w sp t rest : In (op, ks) operations -> opens s op ->
  introduces ks s pre w sp (t ++ rest) -> firstIn ks s pre -> name t -> wordEnd rest ->
  mergeSql s = bs op ++ bs " " ++ t ++ bs " *".
Proof.
  intros I O INT F NT W. rewrite (merge_opens s op ks I O). unfold parseStatement. rewrite (proj2 (checkType_iff s op ks I) O). cbn [negb]. cbn zeta.
  unfold getRegexMatchStr. rewrite (value_at op ks s pre w sp (t ++ rest) I INT F). destruct INT as (_ & _ & _ & S).
  rewrite (word_of sp t rest S (name_unspaced t NT) (proj1 NT) W). destruct t as [|c t]; [destruct NT; congruence|].
  rewrite (proj2 (alphabet_spec _) NT). reflexivity.
Qed.
Print Assumptions C24_table.
(** Otherwise the key is the operation and a star: no introducing word, or a table that is not made of letters. *)
Theorem C24_fallback op ks s : In (op, ks) operations -> opens s op ->
  ((forall pre w sp rest, ~ introduces ks s pre w sp rest) -> mergeSql s = bs op ++ bs " *") /\
  (forall pre w sp t rest, introduces ks s pre w sp (t ++ rest) -> firstIn ks s pre -> unspaced t -> ~ name t -> wordEnd rest -> (t <> [] \/ rest = []) -> mergeSql s = bs op ++ bs " *").
Proof.
  intros I O. assert (M : forall v, getRegexMatchStr ks s = v -> isSqlAlphabet v = false -> mergeSql s = bs op ++ bs " *").
  { intros v V A. rewrite (merge_opens s op ks I O). unfold parseStatement. rewrite (proj2 (checkType_iff s op ks I) O). cbn [negb]. cbn zeta. rewrite V, A. reflexivity. }
  split.
  - intros N. apply (M (bs "*")); [|reflexivity]. unfold getRegexMatchStr. destruct (findKey ks s) as [r|] eqn:E; [|reflexivity].
    apply findKey_found in E. destruct E as (pre & w & c & r' & INT & _). exfalso. exact (N _ _ _ _ INT).
  - intros pre w sp t rest INT F U NN W TR. pose proof (value_at op ks s pre w sp (t ++ rest) I INT F) as V. destruct INT as (_ & _ & _ & S).
    destruct t as [|c t].
    + apply (M (bs "*")); [|reflexivity]. unfold getRegexMatchStr. rewrite V. destruct TR as [TR | ->]; [congruence|]. rewrite app_nil_r. cbn [app].
      assert (X : word sp = []); [|rewrite X; reflexivity]. unfold word. pose proof (dropWhile_spaces sp [] S) as D. rewrite app_nil_r in D. rewrite D. reflexivity.
    + apply (M (c :: t)).
      * unfold getRegexMatchStr. rewrite V. rewrite (word_of sp (c :: t) rest S U ltac:(discriminate) W). reflexivity.
      * destruct (isSqlAlphabet (c :: t)) eqn:A; [|reflexivity]. exfalso. apply NN. apply alphabet_spec. exact A.
Qed.
Print Assumptions C24_fallback.
(** Whatever the statement, the key is empty, "op *", or "op table *" for a name of letters that the statement holds behind an introducing word. *)
Theorem C24_shape s : mergeSql s = [] \/ exists op ks, In (op, ks) operations /\ opens s op /\
  (mergeSql s = bs op ++ bs " *" \/
   exists pre w sp t rest, introduces ks s pre w sp (t ++ rest) /\ firstIn ks s pre /\ name t /\ wordEnd rest /\ mergeSql s = bs op ++ bs " " ++ t ++ bs " *").
Proof.
  destruct (existsb (fun p => checkType (fst p) s) operations) eqn:E.
  - right. apply existsb_exists in E. destruct E as ([op ks] & I & T). cbn [fst] in T. exists op, ks. split; [exact I|]. apply checkType_spec in T. split; [exact T|].
    destruct (findKey ks s) as [r|] eqn:FK.
    + pose proof FK as FK0. apply findKey_found in FK. destruct FK as (pre & w & c & r' & INT & -> & F).
      destruct INT as (H & K & N & S). assert (SC : space c) by (inversion S; assumption).
      destruct (word_split r') as (sp & rest & E2 & S2 & U & W).
      assert (INT2 : introduces ks s pre w (c :: sp) (word r' ++ rest)).
      { split; [|split; [exact K|split; [discriminate|constructor; [exact SC|exact S2]]]]. rewrite H. cbn [app]. do 3 f_equal. exact E2. }
      destruct (isSqlAlphabet (word r')) eqn:A.
      * right. exists pre, w, (c :: sp), (word r'), rest. apply alphabet_spec in A. split; [exact INT2|]. split; [exact F|]. split; [exact A|]. split; [exact W|].
        eapply C24_table; eassumption.
      * left. assert (V : getRegexMatchStr ks s = match word r' with [] => bs "*" | t => t end).
        { unfold getRegexMatchStr. rewrite FK0. replace (word (c :: r')) with (word r'); [reflexivity|]. unfold word. cbn [dropWhile]. rewrite (proj2 (isSpace_spec c) SC). reflexivity. }
        rewrite (merge_opens s op ks I T). unfold parseStatement. rewrite (proj2 (checkType_iff s op ks I) T). cbn [negb]. cbn zeta. rewrite V.
        destruct (word r'); [reflexivity|]. rewrite A. reflexivity.
    + left. apply (proj1 (C24_fallback op ks s I T)). intros pre w sp rest. apply (findKey_none ks s FK).
  - left. apply C24_unknown. intros op ks I O. apply (checkType_iff s op ks I) in O.
    assert (X : existsb (fun p => checkType (fst p) s) operations = true) by (apply existsb_exists; exists (op, ks); split; [exact I|exact O]). congruence.
Qed.
Print Assumptions C24_shape.
Example C24_table_ex : mergeSql (bs "SELECT * FROM orders WHERE id = 42") = bs "select orders *" /\ mergeSql (bs "insert into t1 values (1)") = bs "insert *" /\ mergeSql (bs "SHOW TABLES") = [].
Proof. split; [|split]; vm_compute; reflexivity. Qed.

(** What follows the table name, literals included, does not matter. *)
Lemma foldByte_space c : space c -> foldByte c = c.
Proof. unfold space. cbn [In]. intros S. unfold foldByte. replace ((65 <=? c) && (c <=? 90)) with false by lia. reflexivity. Qed.
Lemma matchFold_ext k a c b r : unspaced k -> space c -> matchFold k (a ++ c :: b ++ r) = match matchFold k (a ++ c :: b) with Some y => Some (y ++ r) | None => None end.
Proof.
  intros U S. revert a. induction U as [|x k N U IH]; intros a; cbn [matchFold].
  - f_equal. rewrite <- app_assoc. reflexivity.
  - destruct a as [|y a]; cbn [app].
    + replace (foldByte c =? x) with false; [reflexivity|]. symmetry. apply Z.eqb_neq. intros E. apply N. rewrite <- E. rewrite foldByte_space by exact S. exact S.
    + destruct (foldByte y =? x); [apply IH|reflexivity].
Qed.
Lemma keyHere_ext ks a c b r : (forall k, In k ks -> unspaced (bs k)) -> space c ->
  keyHere ks (a ++ c :: b ++ r) = match keyHere ks (a ++ c :: b) with Some y => Some (y ++ r) | None => None end.
Proof.
  intros U S. induction ks as [|k ks IH]; [reflexivity|]. cbn [keyHere]. rewrite (matchFold_ext (bs k) a c b r (U k (or_introl eq_refl)) S).
  assert (IH' := IH (fun k0 I => U k0 (or_intror I))). destruct (matchFold (bs k) (a ++ c :: b)) as [m|] eqn:M; [|exact IH'].
  destruct m as [|y m]; [|destruct (isSpace y) eqn:Q; cbn [app]; rewrite Q; [reflexivity|exact IH']].
  exfalso. apply matchFold_spec in M. destruct M as (w & E & L). rewrite app_nil_r in E. subst w.
  specialize (U k (or_introl eq_refl)). rewrite <- L in U. unfold unspaced in U. rewrite Forall_forall in U.
  apply (U (foldByte c)).
  - apply in_map_iff. exists c. split; [reflexivity|]. apply in_or_app. right. left. reflexivity.
  - rewrite foldByte_space by exact S. exact S.
Qed.
Lemma findKey_ext ks pre w c sp t : (forall k, In k ks -> unspaced (bs k)) -> (exists k, In k ks /\ spells w k) -> space c ->
  exists a d y, pre ++ w ++ c :: sp ++ t = a ++ d :: y /\ space d /\ forall r, findKey ks (pre ++ w ++ c :: sp ++ t ++ r) = Some (d :: y ++ r).
Proof.
  intros U (k & K & L) S. induction pre as [|x pre (a & d & y & E & D & IH)].
  - cbn [app]. pose proof (keyHere_some ks k w c (sp ++ t) K L S) as NN. destruct (keyHere ks (w ++ c :: sp ++ t)) as [y0|] eqn:KH; [|congruence].
    pose proof KH as KH0. apply keyHere_spec in KH0. destruct KH0 as (k0 & w0 & d & y & _ & _ & E & -> & D).
    exists w0, d, y. split; [exact E|]. split; [exact D|]. intros r.
    pose proof (keyHere_ext ks w c (sp ++ t) r U S) as X. rewrite KH in X. rewrite <- app_assoc in X.
    destruct (w ++ c :: sp ++ t ++ r) eqn:Z; cbn [findKey]; rewrite X; reflexivity.
  - cbn [app]. destruct (keyHere ks (x :: pre ++ w ++ c :: sp ++ t)) as [y0|] eqn:KH.
    + pose proof KH as KH0. apply keyHere_spec in KH0. destruct KH0 as (k0 & w0 & d0 & y1 & _ & _ & E0 & -> & D0).
      exists w0, d0, y1. split; [exact E0|]. split; [exact D0|]. intros r. cbn [findKey].
      pose proof (keyHere_ext ks (x :: pre ++ w) c (sp ++ t) r U S) as X. cbn [app] in X. rewrite <- !app_assoc in X. cbn [app] in X. rewrite KH in X. rewrite X. reflexivity.
    + exists (x :: a), d, y. split; [cbn [app]; f_equal; exact E|]. split; [exact D|]. intros r. cbn [findKey].
      pose proof (keyHere_ext ks (x :: pre ++ w) c (sp ++ t) r U S) as X. cbn [app] in X. rewrite <- !app_assoc in X. cbn [app] in X. rewrite KH in X. rewrite X. apply IH.
Qed.
Lemma takeWhile_ext u t r : unspaced t -> wordEnd r -> takeWhile (fun c => negb (isSpace c)) (u ++ t ++ r) = takeWhile (fun c => negb (isSpace c)) (u ++ t).
Proof.
  intros U W. induction u as [|x u IH]; cbn [app].
  - rewrite (takeWhile_word t r U W). pose proof (takeWhile_word t [] U (or_introl eq_refl)) as X. rewrite app_nil_r in X. symmetry. exact X.
  - cbn [takeWhile]. rewrite IH. reflexivity.
Qed.
Lemma word_ext u t r : unspaced t -> t <> [] -> wordEnd r -> word (u ++ t ++ r) = word (u ++ t).
Proof.
  intros U N W. unfold word. induction u as [|x u IH].
  - cbn [app]. destruct t as [|c t]; [congruence|]. inversion U; subst. cbn [app]. rewrite !dropWhile_word by assumption. apply (takeWhile_ext [] (c :: t) r U W).
  - cbn [app dropWhile]. destruct (isSpace x) eqn:Q; [exact IH|]. apply (takeWhile_ext (x :: u) t r U W).
Qed.
Lemma opens_ext x r op : opens x op -> opens (x ++ r) op.
Proof. intros (sp & w & r' & -> & S & L). exists sp, w, (r' ++ r). split; [rewrite <- !app_assoc; reflexivity|split; assumption]. Qed.
Theorem C24_independent op ks pre w sp t r1 r2 : In (op, ks) operations -> opens (pre ++ w ++ sp ++ t) op ->
  (exists k, In k ks /\ spells w k) -> sp <> [] -> spaces sp -> t <> [] -> unspaced t -> wordEnd r1 -> wordEnd r2 ->
  mergeSql ((pre ++ w ++ sp ++ t) ++ r1) = mergeSql ((pre ++ w ++ sp ++ t) ++ r2).
Proof.
  intros I O K NS S NT U W1 W2.
  assert (UK : forall k, In k ks -> unspaced (bs k)).
  { intros k Ik. apply (key_unspaced op ks k (bs k) I Ik). unfold spells.
    pose proof ops_keys as F. rewrite forallb_forall in F. specialize (F _ I). cbn [snd] in F. rewrite forallb_forall in F. specialize (F _ Ik). clear -F.
    induction (bs k) as [|c l IH]; [reflexivity|]. cbn [forallb] in F. apply andb_prop in F. destruct F as [F1 F2]. cbn [lowerCase map]. unfold lowerCase in IH. rewrite (IH F2). f_equal. destruct ((65 <=? c) && (c <=? 90)) eqn:Q; [lia|reflexivity]. }
  destruct sp as [|c sp]; [congruence|]. inversion S; subst.
  destruct (findKey_ext ks pre w c sp t UK K) as (a & d & y & E & D & FK); [assumption|].
  assert (SUF : exists u, d :: y = u ++ t).
  { clear -E D U. change (pre ++ w ++ c :: sp ++ t) with (pre ++ w ++ (c :: sp) ++ t) in E. rewrite !app_assoc in E. remember ((pre ++ w) ++ c :: sp) as p eqn:Ep. clear Ep.
    revert a E. induction p as [|x p IH]; intros a E.
    - cbn [app] in E. exfalso. unfold unspaced in U. rewrite Forall_forall in U. apply (U d); [rewrite E; apply in_or_app; right; left; reflexivity|exact D].
    - destruct a as [|x' a]; [exists (x :: p); symmetry; exact E|]. cbn [app] in E. injection E as _ E. exact (IH a E). }
  destruct SUF as (u & SUF).
  assert (V : forall r, wordEnd r -> getRegexMatchStr ks ((pre ++ w ++ (c :: sp) ++ t) ++ r) = match word (d :: y) with [] => bs "*" | v => v end).
  { intros r W. unfold getRegexMatchStr. replace ((pre ++ w ++ (c :: sp) ++ t) ++ r) with (pre ++ w ++ c :: sp ++ t ++ r) by (cbn [app]; rewrite <- !app_assoc; cbn [app]; rewrite <- app_assoc; reflexivity).
    rewrite FK. replace (d :: y ++ r) with (u ++ t ++ r) by (rewrite (app_assoc u), <- SUF; reflexivity). rewrite (word_ext u t r U NT W), SUF. reflexivity. }
  rewrite !(merge_opens _ op ks I (opens_ext _ _ _ O)). unfold parseStatement. rewrite !(proj2 (checkType_iff _ op ks I) (opens_ext _ _ _ O)). cbn [negb]. cbn zeta.
  rewrite (V r1 W1), (V r2 W2). reflexivity.
Qed.
Print Assumptions C24_independent.
Example C24_independent_ex : mergeSql (bs "delete from users" ++ bs " where name = 'x from y'") = mergeSql (bs "delete from users" ++ []).
Proof.
  apply (C24_independent "delete" ["from"] (bs "delete ") (bs "from") (bs " ") (bs "users") (bs " where name = 'x from y'") []).
  - cbn. tauto.
  - exists [], (bs "delete"), (bs " from users"). split; [reflexivity|]. split; [constructor|reflexivity].
  - exists "from". split; [left; reflexivity|reflexivity].
  - discriminate.
  - apply Forall_forall. intros c [<-|[]]. unfold space. cbn [In]. tauto.
  - discriminate.
  - apply name_unspaced. apply alphabet_spec. reflexivity.
  - right. exists 32, (bs "where name = 'x from y'"). split; [reflexivity|unfold space; cbn; tauto].
  - left. reflexivity.
Qed.
(** A literal in front of the table does matter. *)
Theorem C24_literal_before_table_refuted : mergeSql (bs "select 'mail from bob ' from orders") = bs "select bob *".
Proof. vm_compute. reflexivity. Qed.
Print Assumptions C24_literal_before_table_refuted.
