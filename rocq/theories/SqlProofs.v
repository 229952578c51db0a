(** Facts about the SQL merger. *)
From Verif Require Import Base DetectProofs AttrModel SqlModel SqlSpec.
Open Scope string_scope. Open Scope list_scope. Open Scope Z_scope.

Lemma isSpace_spec c : isSpace c = true <-> space c.
Proof. unfold isSpace, space. cbn [In]. rewrite !orb_true_iff, !Z.eqb_eq. intuition lia. Qed.
Lemma isSpace_no c : isSpace c = false <-> ~ space c.
Proof. rewrite <- isSpace_spec. destruct (isSpace c); split; congruence. Qed.
Lemma matchFold_spec p s r : matchFold p s = Some r <-> exists w, s = w ++ r /\ lowerCase w = p.
Proof.
  revert s. induction p as [|x p IH]; intros s; cbn [matchFold].
  - split.
    + intros E. injection E as ->. exists []. split; reflexivity.
    + intros (w & -> & E). apply map_eq_nil in E. subst w. reflexivity.
  - destruct s as [|c s].
    + split; [discriminate|]. intros (w & E & L). destruct w; [discriminate L|discriminate E].
    + destruct (foldByte c =? x) eqn:Q.
      * rewrite IH. apply Z.eqb_eq in Q. split; intros (w & E & L).
        -- exists (c :: w). split; [cbn [app]; congruence|]. cbn [lowerCase map]. unfold lowerCase in L. rewrite L. f_equal. exact Q.
        -- destruct w as [|c' w]; [discriminate L|]. injection E as <- E. injection L as L1 L2. exists w. split; assumption.
      * split; [discriminate|]. intros (w & E & L). destruct w as [|c' w]; [discriminate L|]. injection E as <- E. injection L as L1 L2. apply Z.eqb_neq in Q. unfold foldByte in Q. contradiction.
Qed.
Lemma dropWhile_spaces sp r : spaces sp -> dropWhile isSpace (sp ++ r) = dropWhile isSpace r.
Proof. induction 1 as [|c sp C F IH]; [reflexivity|]. cbn [app dropWhile]. rewrite (proj2 (isSpace_spec c) C). exact IH. Qed.
Lemma dropWhile_split s : exists sp, spaces sp /\ s = sp ++ dropWhile isSpace s.
Proof.
  induction s as [|c s (sp & F & E)]; [exists []; split; [constructor|reflexivity]|]. cbn [dropWhile]. destruct (isSpace c) eqn:Q.
  - exists (c :: sp). split; [constructor; [apply isSpace_spec; exact Q|exact F]|]. cbn [app]. congruence.
  - exists []. split; [constructor|reflexivity].
Qed.
Lemma dropWhile_word c r : ~ space c -> dropWhile isSpace (c :: r) = c :: r.
Proof. intros N. cbn [dropWhile]. rewrite (proj2 (isSpace_no c) N). reflexivity. Qed.
Lemma takeWhile_word t r : unspaced t -> wordEnd r -> takeWhile (fun c => negb (isSpace c)) (t ++ r) = t.
Proof.
  intros U W. induction U as [|c t N U IH]; cbn [app takeWhile].
  - destruct W as [->|(c & r' & -> & S)]; [reflexivity|]. cbn [takeWhile]. rewrite (proj2 (isSpace_spec c) S). reflexivity.
  - rewrite (proj2 (isSpace_no c) N). cbn [negb]. rewrite IH. reflexivity.
Qed.
Lemma word_of sp t r : spaces sp -> unspaced t -> t <> [] -> wordEnd r -> word (sp ++ t ++ r) = t.
Proof.
  intros S U N W. unfold word. rewrite (dropWhile_spaces _ _ S). destruct t as [|c t]; [congruence|]. inversion U; subst. cbn [app].
  rewrite dropWhile_word by assumption. apply (takeWhile_word (c :: t) r U W).
Qed.
Lemma takeWhile_split s : exists r, s = takeWhile (fun c => negb (isSpace c)) s ++ r /\ unspaced (takeWhile (fun c => negb (isSpace c)) s) /\ wordEnd r.
Proof.
  induction s as [|c s (r & E & U & W)]; [exists []; split; [reflexivity|split; [constructor|left; reflexivity]]|]. cbn [takeWhile]. destruct (isSpace c) eqn:Q; cbn [negb].
  - exists (c :: s). split; [reflexivity|]. split; [constructor|]. right. exists c, s. split; [reflexivity|apply isSpace_spec; exact Q].
  - exists r. split; [cbn [app]; congruence|]. split; [constructor; [apply isSpace_no; exact Q|exact U]|exact W].
Qed.
Lemma word_split r : exists sp rest, r = sp ++ word r ++ rest /\ spaces sp /\ unspaced (word r) /\ wordEnd rest.
Proof.
  destruct (dropWhile_split r) as (sp & S & E). destruct (takeWhile_split (dropWhile isSpace r)) as (rest & E2 & U & W).
  exists sp, rest. unfold word. split; [rewrite <- E2; exact E|]. split; [exact S|split; assumption].
Qed.

Lemma keyHere_spec ks s r : keyHere ks s = Some r -> exists k w c r', In k ks /\ spells w k /\ s = w ++ r /\ r = c :: r' /\ space c.
Proof.
  induction ks as [|k ks IH]; [discriminate|]. cbn [keyHere]. intros E.
  assert (REC : keyHere ks s = Some r -> exists k0 w c r', In k0 (k :: ks) /\ spells w k0 /\ s = w ++ r /\ r = c :: r' /\ space c).
  { intros H. destruct (IH H) as (k0 & w & c & r' & I & X). exists k0, w, c, r'. split; [right; exact I|exact X]. }
  destruct (matchFold (bs k) s) as [m|] eqn:M; [|exact (REC E)]. destruct m as [|c m]; [exact (REC E)|]. destruct (isSpace c) eqn:Q; [|exact (REC E)].
  injection E as <-. apply matchFold_spec in M. destruct M as (w & -> & L). exists k, w, c, m. split; [left; reflexivity|]. split; [exact L|]. split; [reflexivity|]. split; [reflexivity|]. apply isSpace_spec. exact Q.
Qed.
Lemma keyHere_some ks k w c r : In k ks -> spells w k -> space c -> keyHere ks (w ++ c :: r) <> None.
Proof.
  intros I L S. induction ks as [|k0 ks IH]; [contradiction|]. cbn [keyHere]. destruct I as [->|I].
  - replace (matchFold (bs k) (w ++ c :: r)) with (Some (c :: r)) by (symmetry; apply matchFold_spec; exists w; split; [reflexivity|exact L]).
    rewrite (proj2 (isSpace_spec c) S). discriminate.
  - destruct (matchFold (bs k0) (w ++ c :: r)) as [[|c' m]|]; try (apply IH; exact I). destruct (isSpace c'); [discriminate|apply IH; exact I].
Qed.
Lemma keyHere_none ks s : keyHere ks s = None -> forall w sp rest, ~ introduces ks s [] w sp rest.
Proof.
  intros E w sp rest (-> & (k & I & L) & N & S). destruct sp as [|c sp]; [congruence|]. inversion S; subst. cbn [app] in E.
  apply (keyHere_some ks k w c (sp ++ rest) I L); assumption.
Qed.

(** findKey gives the first introducing word. *)
Lemma findKey_found ks s r : findKey ks s = Some r -> exists pre w c r', introduces ks s pre w [c] r' /\ r = c :: r' /\ firstIn ks s pre.
Proof.
  induction s as [|x s IH]; cbn [findKey]; intros E.
  - destruct (keyHere ks []) as [r0|] eqn:K; [|discriminate]. injection E as <-. apply keyHere_spec in K. destruct K as (k & w & c & r' & I & L & H & -> & S). destruct w; discriminate H.
  - destruct (keyHere ks (x :: s)) as [r0|] eqn:K.
    + injection E as <-. apply keyHere_spec in K. destruct K as (k & w & c & r' & I & L & H & -> & S).
      exists [], w, c, r'. split; [|split; [reflexivity|intros pre' ? ? ? _; apply Nat.le_0_l]].
      split; [exact H|]. split; [exists k; split; assumption|]. split; [discriminate|]. constructor; [exact S|constructor].
    + destruct (IH E) as (pre & w & c & r' & (H & KK & N & S) & R & F). exists (x :: pre), w, c, r'. split; [|split; [exact R|]].
      * split; [cbn [app]; f_equal; exact H|]. split; [exact KK|split; assumption].
      * intros pre' w' sp' rest' INT. destruct pre' as [|y pre'].
        -- exfalso. apply (keyHere_none ks (x :: s) K w' sp' rest'). exact INT.
        -- cbn [List.length]. apply le_n_S. apply (F pre' w' sp' rest'). destruct INT as (H' & X). cbn [app] in H'. injection H' as _ H'. split; assumption.
Qed.
Lemma findKey_none ks s : findKey ks s = None -> forall pre w sp rest, ~ introduces ks s pre w sp rest.
Proof.
  induction s as [|x s IH]; cbn [findKey]; intros E pre w sp rest INT.
  - destruct (keyHere ks []) eqn:K; [discriminate|]. destruct pre; [apply (keyHere_none _ _ K w sp rest INT)|]. destruct INT as (H & _). discriminate H.
  - destruct (keyHere ks (x :: s)) eqn:K; [discriminate|]. destruct pre as [|y pre]; [apply (keyHere_none _ _ K w sp rest INT)|].
    destruct INT as (H & X). cbn [app] in H. injection H as _ H. apply (IH E pre w sp rest). split; assumption.
Qed.

Lemma checkType_spec op s : checkType op s = true -> opens s op.
Proof.
  unfold checkType. destruct (matchFold (bs op) (dropWhile isSpace s)) as [r|] eqn:M; [|discriminate]. intros _. apply matchFold_spec in M.
  destruct M as (w & E & L). destruct (dropWhile_split s) as (sp & S & E2). exists sp, w, r. split; [rewrite <- E; exact E2|]. split; assumption.
Qed.
Lemma checkType_opens op s c r : bs op = c :: r -> 97 <= c <= 122 -> opens s op -> checkType op s = true.
Proof.
  intros B R (sp & w & r' & -> & S & L). unfold checkType. rewrite (dropWhile_spaces _ _ S).
  destruct w as [|x w]; [unfold spells in L; rewrite B in L; discriminate L|].
  assert (NS : ~ space x).
  { unfold spells in L. rewrite B in L. cbn [lowerCase map] in L. injection L as L _. unfold space. cbn [In]. destruct ((65 <=? x) && (x <=? 90)) eqn:Q; lia. }
  cbn [app]. rewrite dropWhile_word by exact NS. replace (matchFold (bs op) (x :: w ++ r')) with (Some r'); [reflexivity|].
  symmetry. apply matchFold_spec. exists (x :: w). split; [reflexivity|exact L].
Qed.
Lemma alphabet_spec t : isSqlAlphabet t = true <-> name t.
Proof.
  unfold isSqlAlphabet, name. destruct t as [|c t]; [split; [discriminate|intros [N _]; congruence]|].
  rewrite forallb_forall. split.
  - intros H. split; [discriminate|]. apply Forall_forall. intros x I. specialize (H x I). unfold nameChar. cbn beta in H. lia.
  - intros [_ H] x I. rewrite Forall_forall in H. specialize (H x I). unfold nameChar in H. lia.
Qed.
Lemma name_unspaced t : name t -> unspaced t.
Proof. intros [_ F]. eapply Forall_impl; [|exact F]. unfold nameChar, space. cbn [In]. intros a H. intuition lia. Qed.
