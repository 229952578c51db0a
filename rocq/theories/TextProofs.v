(** Facts about payload text. *)
From Verif Require Import Base DetectProofs ReaderProofs TextModel TextSpec.
Open Scope string_scope. Open Scope list_scope. Open Scope Z_scope.

Lemma runeLoop_range : forall f p i n, 0 <= n -> n <= i -> i <= zlen p -> exists r, runeLoop f p i n = Ok r /\ 0 <= r <= zlen p.
Proof.
  induction f as [|f IH]; intros p i n N I L; cbn [runeLoop]; [exists (zlen p); split; [reflexivity|lia]|].
  destruct (zlen p <=? i) eqn:Q; [exists (zlen p); split; [reflexivity|lia]|].
  destruct (gindex_in p i) as (c & G); [lia|]. rewrite G. cbn [bind]. destruct (c <? 128).
  - destruct ((0 <? n) && (n <? 3)); [exists (i - n); split; [reflexivity|lia]|]. apply IH; lia.
  - destruct (firstInfo c) as [[[size lo] hi]|] eqn:FI; [|exists (i - n); split; [reflexivity|lia]].
    assert (SZ : 2 <= size <= 4).
    { unfold firstInfo in FI. repeat match type of FI with context[if ?b then _ else _] => destruct b end; inversion FI; lia. }
    destruct (zlen p <? i + size) eqn:Q2.
    + destruct ((0 <? n) && (n <? 3)); [exists (i - n)|exists i]; (split; [reflexivity|lia]).
    + destruct (gindex_in p (i + 1)) as (c1 & G1); [lia|]. rewrite G1. cbn [bind].
      destruct (outside c1 lo hi); [cbn [bind]; apply IH; lia|].
      destruct (size =? 2) eqn:S2; [cbn [bind]; apply IH; lia|].
      destruct (gindex_in p (i + 2)) as (c2 & G2); [lia|]. rewrite G2. cbn [bind].
      destruct (outside c2 128 191); [cbn [bind]; apply IH; lia|].
      destruct (size =? 3) eqn:S3; [cbn [bind]; apply IH; lia|].
      destruct (gindex_in p (i + 3)) as (c3 & G3); [lia|]. rewrite G3. cbn [bind].
      destruct (outside c3 128 191); cbn [bind]; apply IH; lia.
Qed.
Lemma formatUtf8_prefix p : exists q r, formatUtf8 p = Ok q /\ p = q ++ r.
Proof.
  unfold formatUtf8, runeIndex. destruct (runeLoop_range (List.length p) p 0 0) as (ix & E & R); [lia|lia|apply zlen_nonneg|].
  rewrite E. cbn [bind]. destruct (ix =? zlen p); [exists p, []; split; [reflexivity|rewrite app_nil_r; reflexivity]|].
  replace (ix <? 0) with false by lia. rewrite gslice_ok by lia. exists (slice p 0 ix), (skipn (Z.to_nat ix) p). split; [reflexivity|].
  unfold slice. rewrite Z.sub_0_r. cbn [Z.to_nat skipn]. symmetry. apply firstn_skipn.
Qed.
Lemma formatUtf8_at q r : runeIndex (q ++ r) = Ok (zlen q) -> formatUtf8 (q ++ r) = Ok q.
Proof.
  intros E. unfold formatUtf8. rewrite E. cbn [bind]. pose proof (zlen_nonneg q). pose proof (zlen_nonneg r).
  destruct (zlen q =? zlen (q ++ r)) eqn:Q.
  - rewrite zlen_app in Q. assert (zlen r = 0) by lia. destruct r; [rewrite app_nil_r; reflexivity|unfold zlen in *; cbn in *; lia].
  - replace (zlen q <? 0) with false by lia. change (q ++ r) with ([] ++ q ++ r). apply gslice_mid; [reflexivity|]. change (zlen (@nil Z)) with 0. lia.
Qed.

Definition is1 (ch : bytes) : bool := (zlen ch =? 1).
Lemma outside_false c lo hi : lo <= c <= hi -> outside c lo hi = false.
Proof. unfold outside. lia. Qed.

Lemma g0 {A} (pre : list A) a rest : gindex (pre ++ a :: rest) (zlen pre) = Ok a.
Proof. replace (zlen pre) with (zlen pre + 0) by lia. rewrite gindex_app_r by lia. reflexivity. Qed.
Lemma g1 {A} (pre : list A) a b rest : gindex (pre ++ a :: b :: rest) (zlen pre + 1) = Ok b.
Proof. rewrite gindex_app_r by lia. reflexivity. Qed.
Lemma g2 {A} (pre : list A) a b c rest : gindex (pre ++ a :: b :: c :: rest) (zlen pre + 2) = Ok c.
Proof. rewrite gindex_app_r by lia. reflexivity. Qed.
Lemma g3 {A} (pre : list A) a b c d rest : gindex (pre ++ a :: b :: c :: d :: rest) (zlen pre + 3) = Ok d.
Proof. rewrite gindex_app_r by lia. reflexivity. Qed.

Lemma firstInfo_2 a : 194 <= a <= 223 -> firstInfo a = Some (2, 128, 191).
Proof. intros. unfold firstInfo. replace (a <? 194) with false by lia. replace (a <? 224) with true by lia. reflexivity. Qed.
Lemma firstInfo_3 a : 224 <= a <= 239 -> exists lo hi, firstInfo a = Some (3, lo, hi) /\
  forall b, cont b -> (a = 224 -> 160 <= b) -> (a = 237 -> b <= 159) -> lo <= b <= hi.
Proof.
  intros. unfold firstInfo, cont. replace (a <? 194) with false by lia. replace (a <? 224) with false by lia.
  destruct (a =? 224) eqn:E1; [exists 160, 191; split; [reflexivity|intros; lia]|].
  destruct (a =? 237) eqn:E2; [exists 128, 159; split; [reflexivity|intros; lia]|].
  replace (a <? 240) with true by lia. exists 128, 191. split; [reflexivity|intros; lia].
Qed.
Lemma firstInfo_4 a : 240 <= a <= 244 -> exists lo hi, firstInfo a = Some (4, lo, hi) /\
  forall b, cont b -> (a = 240 -> 144 <= b) -> (a = 244 -> b <= 143) -> lo <= b <= hi.
Proof.
  intros. unfold firstInfo, cont. replace (a <? 194) with false by lia. replace (a <? 224) with false by lia.
  replace (a =? 224) with false by lia. replace (a =? 237) with false by lia. replace (a <? 240) with false by lia.
  destruct (a =? 240) eqn:E1; [exists 144, 191; split; [reflexivity|intros; lia]|].
  destruct (a <? 244) eqn:E2; [exists 128, 191; split; [reflexivity|intros; lia]|].
  replace (a =? 244) with true by lia. exists 128, 143. split; [reflexivity|intros; lia].
Qed.

Lemma runeLoop_char f pre ch rest n : utf8Char ch ->
  runeLoop (S f) (pre ++ ch ++ rest) (zlen pre) n =
    if is1 ch && (0 <? n) && (n <? 3) then Ok (zlen pre - n)
    else runeLoop f (pre ++ ch ++ rest) (zlen pre + zlen ch) (if is1 ch then 0 else zlen ch).
Proof.
  intros U. cbn [runeLoop]. pose proof (zlen_nonneg rest) as HR.
  assert (LB : forall l, zlen (pre ++ l ++ rest) = zlen pre + zlen l + zlen rest) by (intros; rewrite !zlen_app; lia).
  destruct U as [a A|a b A B|a b c A B C H1 H2|a b c d A B C D H1 H2]; rewrite LB.
  - replace (_ <=? zlen pre) with false by (rewrite zlen_one; lia). cbn [app]. rewrite g0. cbn [bind]. replace (a <? 128) with true by lia.
    unfold is1. rewrite zlen_one. cbn [andb Z.eqb Pos.eqb]. reflexivity.
  - change (zlen [a; b]) with 2. replace (_ <=? zlen pre) with false by lia. cbn [app]. rewrite g0. cbn [bind]. replace (a <? 128) with false by lia.
    rewrite firstInfo_2 by assumption. replace (_ <? zlen pre + 2) with false by lia. rewrite g1. cbn [bind].
    rewrite outside_false by (unfold cont in B; lia). reflexivity.
  - change (zlen [a; b; c]) with 3. replace (_ <=? zlen pre) with false by lia. cbn [app]. rewrite g0. cbn [bind]. replace (a <? 128) with false by lia.
    destruct (firstInfo_3 a A) as (lo & hi & E & R). rewrite E. replace (_ <? zlen pre + 3) with false by lia. rewrite g1. cbn [bind].
    rewrite outside_false by (apply R; assumption). cbn [Z.eqb Pos.eqb]. rewrite g2. cbn [bind]. rewrite outside_false by exact C. reflexivity.
  - change (zlen [a; b; c; d]) with 4. replace (_ <=? zlen pre) with false by lia. cbn [app]. rewrite g0. cbn [bind]. replace (a <? 128) with false by lia.
    destruct (firstInfo_4 a A) as (lo & hi & E & R). rewrite E. replace (_ <? zlen pre + 4) with false by lia. rewrite g1. cbn [bind].
    rewrite outside_false by (apply R; assumption). cbn [Z.eqb Pos.eqb]. rewrite g2. cbn [bind]. rewrite outside_false by exact C. rewrite g3. cbn [bind].
    rewrite outside_false by exact D. reflexivity.
Qed.
(** a proper beginning of a character *)
Definition cutChar (tl : bytes) : Prop := tl <> [] /\ exists r, r <> [] /\ utf8Char (tl ++ r).
Lemma runeLoop_cut f pre tl n : cutChar tl ->
  runeLoop (S f) (pre ++ tl) (zlen pre) n = Ok (if (0 <? n) && (n <? 3) then zlen pre - n else zlen pre).
Proof.
  intros (NE & r & NR & U). destruct tl as [|a tl]; [congruence|]. cbn [runeLoop]. pose proof (zlen_nonneg tl) as HT.
  assert (0 < zlen r) by (destruct r; [congruence|rewrite zlen_cons; pose proof (zlen_nonneg r); lia]).
  rewrite zlen_app, zlen_cons. replace (_ <=? zlen pre) with false by lia. rewrite g0. cbn [bind].
  assert (LL : zlen tl + zlen r = zlen (tl ++ r)) by (rewrite zlen_app; lia).
  remember ((a :: tl) ++ r) as ch eqn:E.
  destruct U as [x X|x y X Y|x y z X Y Z H1 H2|x y z w X Y Z W H1 H2]; cbn [app] in E; injection E as E1 E2; subst x; rewrite <- E2 in LL.
  - change (zlen (@nil Z)) with 0 in LL. lia.
  - change (zlen [y]) with 1 in LL. replace (a <? 128) with false by lia. rewrite firstInfo_2 by assumption.
    replace (_ <? zlen pre + 2) with true by lia. destruct ((0 <? n) && (n <? 3)); reflexivity.
  - change (zlen [y; z]) with 2 in LL. replace (a <? 128) with false by lia. destruct (firstInfo_3 a X) as (lo & hi & F & _). rewrite F.
    replace (_ <? zlen pre + 3) with true by lia. destruct ((0 <? n) && (n <? 3)); reflexivity.
  - change (zlen [y; z; w]) with 3 in LL. replace (a <? 128) with false by lia. destruct (firstInfo_4 a X) as (lo & hi & F & _). rewrite F.
    replace (_ <? zlen pre + 4) with true by lia. destruct ((0 <? n) && (n <? 3)); reflexivity.
Qed.
Lemma utf8Char_len ch : utf8Char ch -> 1 <= zlen ch <= 4.
Proof. intros []; unfold zlen; cbn; lia. Qed.

Definition lastLen (pcs : list bytes) (n : Z) : Prop := n = 0 \/ exists q c, pcs = q ++ [c] /\ n = zlen c.
Lemma runeLoop_end f p : runeLoop f p (zlen p) 0 = Ok (zlen p) /\ forall n, runeLoop f p (zlen p) n = Ok (zlen p).
Proof. destruct f; cbn [runeLoop]; [split; reflexivity|]. rewrite Z.leb_refl. split; reflexivity. Qed.

Lemma runeLoop_text : forall cs pcs tl n f, Forall utf8Char cs -> lastLen pcs n -> (tl = [] \/ cutChar tl) ->
  (List.length (List.concat cs ++ tl) <= f)%nat ->
  exists q r, pcs ++ cs = q ++ r /\ runeLoop f (List.concat pcs ++ List.concat cs ++ tl) (zlen (List.concat pcs)) n = Ok (zlen (List.concat q)).
Proof.
  induction cs as [|c cs IH]; intros pcs tl n f U LN T F.
  - cbn [List.concat app] in *. destruct T as [->|T].
    + exists pcs, []. split; [reflexivity|]. rewrite app_nil_r. apply runeLoop_end.
    + destruct f as [|f]; [destruct T as [NE _]; destruct tl; [congruence|cbn in F; lia]|].
      rewrite runeLoop_cut by assumption. destruct ((0 <? n) && (n <? 3)) eqn:Q.
      * destruct LN as [->|(q & c & -> & ->)]; [cbn in Q; discriminate|]. exists q, ([c] ++ []). split; [rewrite <- app_assoc; reflexivity|].
        f_equal. rewrite concat_app, zlen_app. cbn [List.concat]. rewrite app_nil_r. lia.
      * exists pcs, []. split; [reflexivity|reflexivity].
  - inversion U as [|? ? UC U2]; subst. pose proof (utf8Char_len c UC) as LC.
    destruct f as [|f]; [cbn [List.concat] in F; rewrite <- app_assoc, app_length in F; unfold zlen in LC; lia|].
    cbn [List.concat]. rewrite <- app_assoc. rewrite runeLoop_char by assumption.
    destruct (is1 c && (0 <? n) && (n <? 3)) eqn:Q.
    + destruct LN as [->|(q & c' & -> & ->)]; [rewrite andb_false_r in Q; discriminate|].
      exists q, ([c'] ++ c :: cs). split; [rewrite <- app_assoc; reflexivity|].
      f_equal. rewrite concat_app, zlen_app. cbn [List.concat]. rewrite app_nil_r. lia.
    + destruct (IH (pcs ++ [c]) tl (if is1 c then 0 else zlen c) f U2) as (q & r & E & R).
      * destruct (is1 c); [left; reflexivity|right; exists pcs, c; split; reflexivity].
      * exact T.
      * cbn [List.concat] in F. rewrite <- app_assoc, app_length in F. unfold zlen in LC. lia.
      * exists q, r. split; [rewrite <- E, <- app_assoc; reflexivity|].
        rewrite concat_app in R. cbn [List.concat] in R. rewrite app_nil_r, <- app_assoc, zlen_app in R. exact R.
Qed.
Lemma runeLoop_three : forall cs pre tl n f, asciiOrThree cs -> n = 0 \/ n = 3 -> (tl = [] \/ cutChar tl) ->
  (List.length (List.concat cs ++ tl) <= f)%nat ->
  runeLoop f (pre ++ List.concat cs ++ tl) (zlen pre) n = Ok (zlen (pre ++ List.concat cs)).
Proof.
  induction cs as [|c cs IH]; intros pre tl n f U N T F.
  - cbn [List.concat app] in *. destruct T as [->|T].
    + rewrite app_nil_r. apply runeLoop_end.
    + destruct f as [|f]; [destruct T as [NE _]; destruct tl; [congruence|cbn in F; lia]|].
      rewrite runeLoop_cut by assumption. rewrite app_nil_r. f_equal. destruct N as [-> | ->]; reflexivity.
  - inversion U as [|? ? [UC LC] U2]; subst. pose proof (utf8Char_len c UC).
    destruct f as [|f]; [cbn [List.concat] in F; rewrite <- app_assoc, app_length in F; unfold zlen in *; lia|].
    cbn [List.concat]. rewrite <- app_assoc. rewrite runeLoop_char by assumption.
    replace (is1 c && (0 <? n) && (n <? 3)) with false by (destruct N as [-> | ->]; rewrite ?andb_false_r; reflexivity).
    specialize (IH (pre ++ c) tl (if is1 c then 0 else zlen c) f U2). rewrite zlen_app, <- !app_assoc in IH. rewrite IH.
    + rewrite app_assoc. reflexivity.
    + unfold is1, zlen. destruct LC as [->| ->]; [left|right]; reflexivity.
    + exact T.
    + cbn [List.concat] in F. rewrite <- app_assoc, app_length in F. unfold zlen in *. lia.
Qed.

(** cutting well-formed text anywhere leaves whole characters and at most one cut one *)
Lemma firstn_text : forall cs k, Forall utf8Char cs -> exists q tl, firstn k (List.concat cs) = List.concat q ++ tl /\ Forall utf8Char q /\ (tl = [] \/ cutChar tl).
Proof.
  induction cs as [|c cs IH]; intros k U; [exists [], []; destruct k; cbn; auto|].
  inversion U as [|? ? UC U2]; subst. cbn [List.concat]. rewrite firstn_app.
  destruct (Nat.le_gt_cases (List.length c) k) as [L|L].
  - destruct (IH (k - List.length c)%nat U2) as (q & tl & E & F & T). exists (c :: q), tl. rewrite firstn_all2 by lia. rewrite E. cbn [List.concat].
    rewrite app_assoc. split; [reflexivity|]. split; [constructor; assumption|exact T].
  - replace (k - List.length c)%nat with O by lia. rewrite firstn_O, app_nil_r. exists [], (firstn k c). split; [reflexivity|]. split; [constructor|].
    destruct (Nat.eq_dec k 0) as [->|NZ]; [left; reflexivity|]. right. split.
    + intros E. apply (f_equal (@List.length Z)) in E. rewrite firstn_length in E. cbn in E. lia.
    + exists (skipn k c). split; [|rewrite firstn_skipn; exact UC]. intros E. apply (f_equal (@List.length Z)) in E. rewrite skipn_length in E. cbn in E. lia.
Qed.
