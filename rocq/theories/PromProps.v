(** C48: Prometheus metric names.  C61: what a Prometheus scrape shows. *)
From Verif Require Import Base Decimal AttrModel AttrProps PoolModel KeyModel KeyProps AggModel AggSpec AggProofs AggProofs2 AggProps PromModel PromSpec.
Open Scope string_scope. Open Scope list_scope. Open Scope Z_scope.

(** ** Names *)
Section Names.
Variables uLetter uDigit : Z -> bool.
Local Notation alnum := (letterOrDigit uLetter uDigit).
Lemma alnum_eq r : isLetter uLetter r || isDigitRune uDigit r = alnum r.
Proof. unfold isLetter, isDigitRune, letterOrDigit. destruct (r <? 128); reflexivity. Qed.

Lemma asciiLetter_spec r : asciiLetter r = true <-> 65 <= r <= 90 \/ 97 <= r <= 122.
Proof. unfold asciiLetter. rewrite orb_true_iff, !andb_true_iff, !Z.leb_le. lia. Qed.
Lemma asciiDigit_spec r : asciiDigit r = true <-> 48 <= r <= 57.
Proof. unfold asciiDigit. rewrite andb_true_iff, !Z.leb_le. lia. Qed.

Lemma rune_char r : r < 128 -> nameChar (sanitizeRune uLetter uDigit r).
Proof.
  intros H. unfold sanitizeRune, isLetter, isDigitRune. destruct (Z.ltb_spec r 128); [|lia].
  destruct (asciiLetter r) eqn:L.
  - apply asciiLetter_spec in L. cbn [orb]. unfold nameChar, letterOrUnderscore. lia.
  - destruct (asciiDigit r) eqn:D; cbn [orb].
    + apply asciiDigit_spec in D. unfold nameChar, letterOrUnderscore. lia.
    + unfold nameChar, letterOrUnderscore. lia.
Qed.
Lemma rune_same r : nameChar r -> sanitizeRune uLetter uDigit r = r.
Proof.
  intros H. unfold sanitizeRune, isLetter, isDigitRune. unfold nameChar, letterOrUnderscore in H.
  destruct (Z.ltb_spec r 128); [|lia].
  destruct (asciiLetter r) eqn:L; [reflexivity|]. destruct (asciiDigit r) eqn:D; [reflexivity|]. cbn [orb].
  assert (~ (65 <= r <= 90 \/ 97 <= r <= 122)) by (rewrite <- asciiLetter_spec; congruence).
  assert (~ (48 <= r <= 57)) by (rewrite <- asciiDigit_spec; congruence). lia.
Qed.
Lemma rune_alnum r : alnum r = true -> sanitizeRune uLetter uDigit r = r.
Proof. unfold sanitizeRune. rewrite alnum_eq. intros ->. reflexivity. Qed.

Lemma ascii_chars s : Forall (fun r => 0 <= r < 128) s -> Forall nameChar (map (sanitizeRune uLetter uDigit) s).
Proof. induction 1; cbn [map]; constructor; [apply rune_char; lia|assumption]. Qed.

Lemma digit_not_start r : nameChar r -> asciiDigit r = false -> letterOrUnderscore r.
Proof. intros [H|H] D; [exact H|]. apply asciiDigit_spec in H. congruence. Qed.

(** ** C48 *)
(** A non-empty ASCII name gives a name Prometheus accepts, not one reserved by a leading "__" - unless it is a single
    character that is neither a letter nor a digit. *)
Theorem C48_valid : forall s,
  s <> [] -> Forall (fun r => 0 <= r < 128) s -> (forall r, s = [r] -> alnum r = true) ->
  exists n, sanitize uLetter uDigit true s = Ok n /\ goodName n /\ ~ doubleUnderscore n.
Proof.
  intros s NE A SINGLE. destruct s as [|r s]; [congruence|]. pose proof (ascii_chars _ A) as C.
  unfold sanitize. cbn [map negb andb] in *. inversion C as [|? ? C1 C2]; subst. cbn [firstIs].
  destruct (asciiDigit (sanitizeRune uLetter uDigit r)) eqn:D.
  - cbn [app bs list_ascii_of_string map firstIs]. change (95 =? Z.of_nat (nat_of_ascii "k")) with false. cbn iota.
    eexists. split; [reflexivity|]. split.
    + eexists. eexists. split; [reflexivity|]. split; [vm_compute; right; left; split; discriminate|].
      repeat (apply Forall_cons; [first [left; right; left; vm_compute; split; discriminate | left; right; right; reflexivity | exact C1]|]). exact C2.
    + intros (l & E). discriminate E.
  - cbn [firstIs]. destruct (Z.eqb_spec 95 (sanitizeRune uLetter uDigit r)) as [U|U].
    + destruct s as [|c s].
      * exfalso. specialize (SINGLE r eq_refl). rewrite (rune_alnum _ SINGLE) in U. subst r. discriminate SINGLE.
      * cbn [map] in *. inversion C2 as [|? ? C3 C4]; subst. eexists. split; [reflexivity|].
        destruct (Z.eqb_spec (sanitizeRune uLetter uDigit c) 95) as [V|V].
        -- split.
           ++ eexists. eexists. split; [reflexivity|]. split; [vm_compute; right; left; split; discriminate|].
              repeat (apply Forall_cons; [first [left; right; left; vm_compute; split; discriminate | assumption]|]). exact C4.
           ++ intros (l & E). discriminate E.
        -- split.
           ++ eexists. eexists. split; [reflexivity|]. split; [apply digit_not_start; assumption|constructor; assumption].
           ++ intros (l & E). injection E as E1 E2 E3. contradiction.
    + eexists. split; [reflexivity|]. split.
      * eexists. eexists. split; [reflexivity|]. split; [apply digit_not_start; assumption|exact C2].
      * intros (l & E). injection E as E1 E2. congruence.
Qed.

(** Used for a label name (the other mode) every non-empty ASCII name is accepted, and none starts with an underscore. *)
Theorem C48_label_mode : forall s,
  s <> [] -> Forall (fun r => 0 <= r < 128) s ->
  exists n, sanitize uLetter uDigit false s = Ok n /\ goodName n /\ hd 0 n <> 95.
Proof.
  intros s NE A. destruct s as [|r s]; [congruence|]. pose proof (ascii_chars _ A) as C.
  unfold sanitize. cbn [map negb andb] in *. inversion C as [|? ? C1 C2]; subst. cbn [firstIs].
  destruct (asciiDigit (sanitizeRune uLetter uDigit r)) eqn:D.
  - cbn [app bs list_ascii_of_string map firstIs]. change (95 =? Z.of_nat (nat_of_ascii "k")) with false. cbn iota.
    cbn [firstIs]. change (95 =? Z.of_nat (nat_of_ascii "k")) with false. cbn iota.
    eexists. split; [reflexivity|]. split.
    + eexists. eexists. split; [reflexivity|]. split; [vm_compute; right; left; split; discriminate|].
      repeat (apply Forall_cons; [first [left; right; left; vm_compute; split; discriminate | left; right; right; reflexivity | exact C1]|]). exact C2.
    + vm_compute. discriminate.
  - cbn [firstIs]. destruct (Z.eqb_spec 95 (sanitizeRune uLetter uDigit r)) as [U|U].
    + cbn [app bs list_ascii_of_string map firstIs]. change (95 =? Z.of_nat (nat_of_ascii "k")) with false. cbn iota.
      eexists. split; [reflexivity|]. split.
      * eexists. eexists. split; [reflexivity|]. split; [vm_compute; right; left; split; discriminate|].
        repeat (apply Forall_cons; [first [left; right; left; vm_compute; split; discriminate | exact C1]|]). exact C2.
      * vm_compute. discriminate.
    + cbn [firstIs]. destruct (Z.eqb_spec 95 (sanitizeRune uLetter uDigit r)) as [U'|U']; [contradiction|]. eexists. split; [reflexivity|]. split.
      * eexists. eexists. split; [reflexivity|]. split; [apply digit_not_start; assumption|exact C2].
      * cbn [hd]. congruence.
Qed.

(** A name Prometheus accepts stays as it is. *)
Theorem C48_unchanged : forall s, goodName s -> ~ doubleUnderscore s -> s <> [95] -> sanitize uLetter uDigit true s = Ok s.
Proof.
  intros s (r & l & -> & H1 & H2) ND NU. unfold sanitize. cbn [map negb andb].
  assert (E : map (sanitizeRune uLetter uDigit) l = l).
  { clear -H2. induction H2 as [|x l Hx H IH]; [reflexivity|]. cbn [map]. rewrite IH, (rune_same _ Hx). reflexivity. }
  rewrite E, (rune_same r (or_introl H1)). cbn [firstIs].
  destruct (asciiDigit r) eqn:D; [exfalso; apply asciiDigit_spec in D; unfold letterOrUnderscore in H1; lia|].
  cbn [firstIs]. destruct (Z.eqb_spec 95 r) as [<-|U]; [|reflexivity].
  destruct l as [|c l]; [congruence|]. destruct (Z.eqb_spec c 95) as [->|V]; [|reflexivity].
  exfalso. apply ND. exists l. reflexivity.
Qed.

(** Letters and digits are kept, everything else becomes an underscore, and at most "key_" or "key" is put in front. *)
Theorem C48_characters : forall skip s n, sanitize uLetter uDigit skip s = Ok n ->
  exists p, n = p ++ map (fun r => if alnum r then r else 95) s /\ (p = [] \/ p = bs "key_" \/ p = bs "key").
Proof.
  intros skip s n E. destruct s as [|r s]; [exists []; cbn in *; inversion E; auto|].
  unfold sanitize in E. rewrite (map_ext _ (fun r => if alnum r then r else 95)) in E
    by (intros x; unfold sanitizeRune; rewrite alnum_eq; reflexivity).
  set (t := map (fun r => if alnum r then r else 95) (r :: s)) in *. clearbody t.
  destruct (firstIs asciiDigit t) eqn:D.
  - cbn [app bs list_ascii_of_string map firstIs] in E. change (95 =? Z.of_nat (nat_of_ascii "k")) with false in E.
    rewrite andb_false_r in E. cbn [firstIs] in E. change (95 =? Z.of_nat (nat_of_ascii "k")) with false in E. cbn iota in E.
    inversion E. exists (bs "key_"). auto.
  - destruct (negb skip && firstIs (Z.eqb 95) t) eqn:N.
    + cbn [app bs list_ascii_of_string map firstIs] in E. change (95 =? Z.of_nat (nat_of_ascii "k")) with false in E. cbn iota in E.
      inversion E. exists (bs "key"). auto.
    + destruct (firstIs (Z.eqb 95) t); [|inversion E; exists []; auto].
      destruct t as [|a [|c t]]; try discriminate. inversion E. destruct (c =? 95); [exists (bs "key")|exists []]; auto.
Qed.

(** A name of one character that is neither a letter nor a digit makes the exporter index past the end of "_": the process panics. *)
Theorem C48_single_symbol_refuted : forall r, alnum r = false -> sanitize uLetter uDigit true [r] = Panic.
Proof.
  intros r H. unfold sanitize. cbn [map negb andb]. assert (E : sanitizeRune uLetter uDigit r = 95).
  { unfold sanitizeRune. rewrite alnum_eq, H. reflexivity. }
  rewrite E. reflexivity.
Qed.

(** Letters beyond ASCII are kept, so the name is one Prometheus refuses. *)
Theorem C48_other_letters_refuted : forall r, 128 <= r -> uLetter r = true ->
  sanitize uLetter uDigit true [97; r] = Ok [97; r] /\ ~ goodName [97; r] /\ validMetricName [97; r] = false.
Proof.
  intros r R L. unfold sanitize, sanitizeRune, isLetter, isDigitRune. cbn [map].
  destruct (Z.ltb_spec r 128); [lia|]. rewrite L. split; [reflexivity|]. split.
  - intros (x & l & E & _ & F). injection E as <- <-. inversion F as [|? ? F1 _]; subst. unfold nameChar, letterOrUnderscore in F1. lia.
  - unfold validMetricName. cbn [forallb]. replace (nameRune true r) with false; [replace (asciiDigit r) with false; [rewrite andb_comm; reflexivity|]|].
    + symmetry. destruct (asciiDigit r) eqn:D; [apply asciiDigit_spec in D; lia|reflexivity].
    + symmetry. unfold nameRune. destruct (asciiLetter r) eqn:D; [apply asciiLetter_spec in D; lia|].
      destruct (Z.eqb_spec r 95); [lia|]. destruct (Z.eqb_spec r 58); [lia|reflexivity].
Qed.

(** Different names can become the same one. *)
Theorem C48_distinct_names_refuted : exists a b n, a <> b /\ sanitize uLetter uDigit true a = Ok n /\ sanitize uLetter uDigit true b = Ok n.
Proof. exists (bs "a.b"), (bs "a_b"), (bs "a_b"). split; [discriminate|]. split; reflexivity. Qed.

Lemma good_valid n : goodName n -> validMetricName n = true.
Proof.
  intros (r & l & -> & H & F). unfold validMetricName. apply andb_true_iff.
  assert (A : forall x, letterOrUnderscore x -> nameRune true x = true).
  { intros x X. unfold nameRune. destruct (asciiLetter x) eqn:L; [reflexivity|]. destruct (Z.eqb_spec x 95); [reflexivity|].
    exfalso. assert (~ (65 <= x <= 90 \/ 97 <= x <= 122)) by (rewrite <- asciiLetter_spec; congruence). unfold letterOrUnderscore in X. lia. }
  split; [apply A; exact H|]. apply forallb_forall. intros x I. rewrite Forall_forall in F. destruct (F x I) as [X|X].
  - rewrite (A x X). reflexivity.
  - apply asciiDigit_spec in X. rewrite X. apply orb_true_r.
Qed.
End Names.
Print Assumptions C48_valid.
Print Assumptions C48_label_mode.
Print Assumptions C48_unchanged.
Print Assumptions C48_characters.
Print Assumptions C48_single_symbol_refuted.
Print Assumptions C48_other_letters_refuted.
Print Assumptions C48_distinct_names_refuted.
Example exNames : map (sanitize (fun _ => true) (fun _ => false) true) [bs "http.server-1"; bs "2xx"; bs "__x"; bs "_x"; bs "a:b"; []; bs "."] =
  [Ok (bs "http_server_1"); Ok (bs "key_2xx"); Ok (bs "key__x"); Ok (bs "_x"); Ok (bs "a_b"); Ok []; Panic].
Proof. vm_compute. reflexivity. Qed.
