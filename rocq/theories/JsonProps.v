(** C89: what is stored as JSON reads back. *)
From Verif Require Import Base Decimal AttrModel PoolModel JsonModel EvtTextModel EvtTextProps JsonSpec.
From Coq Require Import ZifyBool Permutation.
Open Scope string_scope. Open Scope list_scope. Open Scope Z_scope.

(** ** Texts *)
Lemma prepend_app a b r : prepend a (prepend b r) = prepend (a ++ b) r.
Proof. destruct r as [[s rest]|]; [|reflexivity]. cbn [prepend]. rewrite app_assoc. reflexivity. Qed.
Lemma read_ascii x rest : 0 <= x < 128 -> readString (ascii7 x ++ rest) = prepend [x] (readString rest).
Proof.
  intros R. rewrite <- (Z2Nat.id x) by lia. assert (L : (Z.to_nat x < 128)%nat) by lia. revert L. generalize (Z.to_nat x). intros n L.
  do 128 (destruct n as [|n]; [reflexivity|]). lia.
Qed.
Lemma read_high l rest : Forall (fun x => 128 <= x) l -> readString (l ++ rest) = prepend l (readString rest).
Proof.
  induction 1 as [|x l X F IH]; [cbn [app]; destruct (readString rest) as [[? ?]|]; reflexivity|]. cbn [app readString].
  replace (x =? 34) with false by lia. replace (x =? 92) with false by lia. replace (x <? 32) with false by lia. rewrite IH, prepend_app. reflexivity.
Qed.
Lemma size_ascii x r : x < 128 -> runeSize (x :: r) = 1%nat.
Proof.
  intros L. cbn [runeSize]. unfold inRange. replace ((194 <=? x) && (x <=? 223)) with false by lia. replace ((224 <=? x) && (x <=? 239)) with false by lia.
  replace ((240 <=? x) && (x <=? 244)) with false by lia. reflexivity.
Qed.
Lemma size_high x r : 128 <= x -> runeSize (x :: r) <> 1%nat -> Forall (fun y => 128 <= y) (firstn (runeSize (x :: r)) (x :: r)).
Proof.
  intros L. cbn [runeSize]. unfold inRange.
  repeat match goal with
         | |- context [if ?c then _ else _] => destruct c eqn:?
         | |- context [match ?l with [] => _ | _ :: _ => _ end] => destruct l
         end; intros N; try congruence; cbn [firstn]; repeat (constructor; [lia|]); try constructor; lia.
Qed.
Lemma read_piece x r rest : 0 <= x -> let b := x :: r in
  readString (piece b (runeSize b) x ++ rest) = prepend (if (128 <=? x) && (runeSize b =? 1)%nat then utf8 65533 else firstn (runeSize b) b) (readString rest).
Proof.
  intros P b. unfold piece. destruct (x <? 128) eqn:A.
  - unfold b. rewrite (size_ascii x r) by lia. replace (128 <=? x) with false by lia. cbn [andb firstn]. apply read_ascii. lia.
  - replace (128 <=? x) with true by lia. cbn [andb]. destruct (runeSize b =? 1)%nat eqn:N; [reflexivity|].
    case_eqb (firstn (runeSize b) b) [226; 128; 168]; [rewrite E; reflexivity|]. case_eqb (firstn (runeSize b) b) [226; 128; 169]; [rewrite E0; reflexivity|].
    apply read_high. apply size_high; [lia|]. apply Nat.eqb_neq. exact N.
Qed.
Lemma forall_skipn {A} (P : A -> Prop) n : forall l, Forall P l -> Forall P (skipn n l).
Proof. induction n as [|n IH]; intros l F; [exact F|]. destruct F; [constructor|]. cbn [skipn]. apply IH. assumption. Qed.
Lemma read_quoteF : forall f b rest, Forall is_byte b -> readString (quoteF f b ++ 34 :: rest) = Some (repairF f b, rest).
Proof.
  induction f as [|f IH]; intros b rest F; [reflexivity|]. destruct b as [|x r]; [reflexivity|]. cbn [quoteF repairF]. rewrite <- app_assoc.
  rewrite (read_piece x r (quoteF f (skipn (runeSize (x :: r)) (x :: r)) ++ 34 :: rest)); [|inversion F; subst; unfold is_byte in *; lia].
  rewrite IH by (apply forall_skipn; exact F). reflexivity.
Qed.
Lemma read_quote s rest : Forall is_byte s -> exists q, quote s = 34 :: q /\ readString (q ++ rest) = Some (repair s, rest).
Proof.
  intros F. exists (quoteF (List.length s) s ++ [34]). split; [reflexivity|]. rewrite <- app_assoc. apply read_quoteF. exact F.
Qed.
Lemma utf8_size c : scalar c -> exists x r, utf8 c = x :: r /\ (128 <= x -> List.length (utf8 c) <> 1%nat).
Proof.
  intros S. unfold utf8, scalar in *. destruct (c <? 128) eqn:A; [exists c, []; split; [reflexivity|lia]|].
  destruct (c <? 2048); [|destruct (c <? 65536)]; do 2 eexists; (split; [reflexivity|]); intros _; cbn; lia.
Qed.
Lemma firstn_app_exact {A} (a b : list A) : firstn (List.length a) (a ++ b) = a.
Proof. induction a as [|x a IH]; [reflexivity|]. cbn. rewrite IH. reflexivity. Qed.
Lemma repair_utf8 : forall cs f, Forall scalar cs -> (List.length (flat_map utf8 cs) <= f)%nat -> repairF f (flat_map utf8 cs) = flat_map utf8 cs.
Proof.
  induction cs as [|c cs IH]; intros f F L; [destruct f; reflexivity|]. inversion F as [|? ? S1 S2]; subst. cbn [flat_map] in *.
  destruct (utf8_size c S1) as (x & r & E & H). rewrite app_length in L. destruct f as [|f]; [rewrite E in L; cbn in L; lia|].
  pose proof (runeSize_utf8 c (flat_map utf8 cs) S1) as RS. pose proof (skipn_app_exact (utf8 c) (flat_map utf8 cs)) as SK. pose proof (firstn_app_exact (utf8 c) (flat_map utf8 cs)) as FI.
  assert (G : utf8 c ++ flat_map utf8 cs = x :: (r ++ flat_map utf8 cs)) by (rewrite E; reflexivity). rewrite <- RS in SK, FI. rewrite G in *. cbn [repairF]. rewrite SK, FI.
  replace ((128 <=? x) && (runeSize (x :: r ++ flat_map utf8 cs) =? 1)%nat) with false.
  - rewrite IH; [rewrite <- G; reflexivity|exact S2|]. rewrite E in L. cbn [List.length] in L. lia.
  - symmetry. rewrite RS. destruct (128 <=? x) eqn:X; [|reflexivity]. apply Nat.eqb_neq. apply H. lia.
Qed.
Lemma repair_text b : isText b -> repair b = b.
Proof. intros (cs & F & ->). apply repair_utf8; [exact F|lia]. Qed.

(** ** Numbers *)
Definition stops (rest : bytes) : Prop := match rest with x :: _ => isDigit x = false | [] => True end.
Lemma span_digits ds rest : forallb isDigit ds = true -> stops rest -> spanDigits (ds ++ rest) = (ds, rest).
Proof.
  induction ds as [|d ds IH]; intros D SS.
  - destruct rest as [|x r]; [reflexivity|]. cbn in *. rewrite SS. reflexivity.
  - cbn [forallb] in D. apply andb_true_iff in D. destruct D as (D1 & D2). cbn [app spanDigits]. rewrite D1, (IH D2 SS). reflexivity.
Qed.
Lemma read_number n rest : stops rest -> readNumber (formatInt n ++ rest) = Some (JInt n, rest).
Proof.
  intros SS. unfold readNumber, formatInt. destruct (n <? 0) eqn:N.
  - cbn [app]. cbn [Z.eqb Pos.eqb]. rewrite (span_digits _ _ (digits_all (- n) ltac:(lia)) SS). destruct (digits_first (- n) ltac:(lia)) as (c & r & E & _).
    pose proof (digits_value (- n) ltac:(lia)) as V. rewrite E in *. rewrite V. do 3 f_equal. lia.
  - destruct (digits_first n ltac:(lia)) as (c & r & E & D). pose proof (span_digits _ _ (digits_all n ltac:(lia)) SS) as SP. pose proof (digits_value n ltac:(lia)) as V. rewrite E in *. cbn [app] in *.
    unfold isDigit in D. replace (c =? 45) with false by lia. rewrite SP. rewrite V. reflexivity.
Qed.

(** ** Values *)
Fixpoint size (j : json) : nat :=
  match j with
  | JArr l => S (list_sum (map (fun v => S (size v)) l))
  | JObj m => S (list_sum (map (fun p => S (size (snd p))) m))
  | _ => 1%nat
  end.
Lemma commas_cons x l : l <> [] -> commas (x :: l) = x ++ 44 :: commas l.
Proof. destruct l; [congruence|reflexivity]. Qed.
Lemma size_pos j : (1 <= size j)%nat.
Proof. destruct j; cbn [size]; lia. Qed.
Lemma commas_length l : (list_sum (map (fun x => S (List.length x)) l) <= S (List.length (commas l)))%nat.
Proof.
  induction l as [|x l IH]; [cbn; lia|]. destruct l as [|y l]; [cbn; lia|]. rewrite commas_cons by discriminate. rewrite app_length. cbn [List.length map list_sum fold_right] in *. unfold list_sum in *. lia.
Qed.
Lemma sum_le {A} (f g : A -> nat) l : (forall x, In x l -> (f x <= g x)%nat) -> (list_sum (map f l) <= list_sum (map g l))%nat.
Proof.
  induction l as [|x l IH]; intros H; [cbn; lia|]. cbn [map list_sum fold_right]. pose proof (H x (or_introl eq_refl)). assert (list_sum (map f l) <= list_sum (map g l))%nat by (apply IH; intros; apply H; right; assumption).
  unfold list_sum in *. lia.
Qed.
Lemma in_sum {A} (f : A -> nat) l x : In x l -> (f x <= list_sum (map f l))%nat.
Proof. induction l as [|y l IH]; intros I; [destruct I|]. cbn [map list_sum fold_right]. unfold list_sum in *. destruct I as [<-|I]; [lia|]. specialize (IH I). lia. Qed.
Lemma size_length : forall n j, (size j <= n)%nat -> (size j <= List.length (encode j))%nat.
Proof.
  induction n as [|n IH]; intros j L; [pose proof (size_pos j); lia|]. destruct j as [|[]|k|s|l|m]; try (cbn; lia).
  - cbn [size encode]. unfold formatInt. destruct (k <? 0) eqn:K; [cbn; lia|]. destruct (digits_first k ltac:(lia)) as (c & r & -> & _). cbn. lia.
  - cbn [size encode] in *. cbn [List.length]. rewrite app_length. cbn [List.length]. pose proof (commas_length (map encode l)) as C. rewrite map_map in C.
    assert (list_sum (map (fun v => S (size v)) l) <= list_sum (map (fun x => S (List.length (encode x))) l))%nat.
    { apply sum_le. intros x I. pose proof (in_sum (fun v => S (size v)) l x I). cbn beta in *. specialize (IH x ltac:(lia)). lia. }
    lia.
  - cbn [size encode] in *. cbn [List.length]. rewrite app_length. cbn [List.length]. set (g := fun p : bytes * json => quote (fst p) ++ 58 :: encode (snd p)).
    pose proof (commas_length (map g m)) as C. rewrite map_map in C.
    assert (list_sum (map (fun p => S (size (snd p))) m) <= list_sum (map (fun x => S (List.length (g x))) m))%nat.
    { apply sum_le. intros x I. pose proof (in_sum (fun p => S (size (snd p))) m x I). cbn beta in *. specialize (IH (snd x) ltac:(lia)). unfold g. rewrite app_length. cbn [List.length]. lia. }
    lia.
Qed.
Definition good (j : json) : Prop := Forall (Forall is_byte) (textsOf j).
Lemma encode_head j : exists y r, encode j = y :: r /\ y <> 93.
Proof.
  destruct j as [|[]|k|s|l|m]; cbn [encode].
  1-3: do 2 eexists; (split; [reflexivity|]); vm_compute; discriminate.
  - unfold formatInt. destruct (k <? 0) eqn:K; [do 2 eexists; split; [reflexivity|lia]|]. destruct (digits_first k ltac:(lia)) as (c & r & -> & D). exists c, r. split; [reflexivity|]. unfold isDigit in D. lia.
  - do 2 eexists. split; [reflexivity|lia].
  - do 2 eexists. split; [reflexivity|lia].
  - do 2 eexists. split; [reflexivity|lia].
Qed.
Lemma strip_none p x r : match p with y :: _ => y <> x | [] => False end -> strip p (x :: r) = None.
Proof. destruct p as [|y p]; [intros []|]. intros N. cbn [strip]. replace (y =? x) with false by lia. reflexivity. Qed.
Lemma readValue_head f x r : x <> 110 -> x <> 116 -> x <> 102 -> readValue (S f) (x :: r) =
  (if x =? 34 then match readString r with Some (s, r') => Some (JStr s, r') | None => None end
   else if x =? 91 then
     match r with
     | y :: r' => if y =? 93 then Some (JArr [], r') else match readItems f r with Some (l, r'') => Some (JArr l, r'') | None => None end
     | [] => None
     end
   else if x =? 123 then
     match r with
     | y :: r' => if y =? 125 then Some (JObj [], r') else match readMembers f r with Some (m, r'') => Some (JObj m, r'') | None => None end
     | [] => None
     end
   else readNumber (x :: r)).
Proof.
  intros A B C. cbn [readValue]. rewrite !strip_none; [reflexivity|..]; cbn; lia.
Qed.

Lemma reads : forall f,
  (forall j rest, good j -> (size j <= f)%nat -> stops rest -> readValue f (encode j ++ rest) = Some (repaired j, rest)) /\
  (forall l rest, l <> [] -> Forall good l -> (list_sum (map (fun v => S (size v)) l) <= f)%nat -> readItems f (commas (map encode l) ++ 93 :: rest) = Some (map repaired l, rest)) /\
  (forall m rest, m <> [] -> Forall (fun p => Forall is_byte (fst p) /\ good (snd p)) m -> (list_sum (map (fun p => S (size (snd p))) m) <= f)%nat ->
     readMembers f (commas (map (fun p => quote (fst p) ++ 58 :: encode (snd p)) m) ++ 125 :: rest) = Some (map (fun p => (repair (fst p), repaired (snd p))) m, rest)).
Proof.
  induction f as [|f (IV_ & II & IM)].
  { split; [|split].
    - intros j rest G L. pose proof (size_pos j). lia.
    - intros [|v l] rest N; [congruence|]. intros _ L. cbn in L. lia.
    - intros [|p m] rest N; [congruence|]. intros _ L. cbn in L. lia. }
  split; [|split].
  - intros j rest G L SS. destruct j as [|[]|k|s|l|m].
    1-3: reflexivity.
    + cbn [encode repaired]. assert (H : exists c r, formatInt k ++ rest = c :: r /\ (c = 45 \/ isDigit c = true)).
      { unfold formatInt. destruct (k <? 0) eqn:K; [do 2 eexists; split; [reflexivity|left; reflexivity]|]. destruct (digits_first k ltac:(lia)) as (c & r & -> & D).
        exists c, (r ++ rest). split; [reflexivity|right; exact D]. }
      destruct H as (c & r & E & H). unfold isDigit in H. pose proof (read_number k rest SS) as R. rewrite E in *. rewrite readValue_head by lia.
      replace (c =? 34) with false by lia. replace (c =? 91) with false by lia. replace (c =? 123) with false by lia. exact R.
    + cbn [encode repaired]. assert (B : Forall is_byte s) by (inversion G; assumption). destruct (read_quote s rest B) as (q & -> & R). cbn [app]. rewrite readValue_head by lia.
      cbn [Z.eqb Pos.eqb]. rewrite R. reflexivity.
    + cbn [encode repaired app]. rewrite readValue_head by lia. cbn [Z.eqb Pos.eqb]. rewrite <- app_assoc. destruct l as [|v l]; [reflexivity|].
      set (w := v :: l) in *. destruct (encode_head v) as (y & r & E & N).
      assert (H : exists r', commas (map encode w) ++ [93] ++ rest = y :: r').
      { unfold w. cbn [map]. destruct (map encode l) as [|e es] eqn:M; [cbn [commas]; rewrite E; eexists; reflexivity|]. rewrite commas_cons by discriminate. rewrite E. eexists. reflexivity. }
      destruct H as (r' & H). pose proof (II w rest ltac:(discriminate)) as R. cbn [app] in *. rewrite H in *. replace (y =? 93) with false by lia. rewrite R; [reflexivity| |].
      * apply Forall_forall. intros x I. unfold good in *. apply Forall_forall. intros t T. rewrite Forall_forall in G. apply G. cbn [textsOf]. apply in_flat_map. exists x. split; assumption.
      * cbn [size] in L. lia.
    + cbn [encode repaired app]. rewrite readValue_head by lia. cbn [Z.eqb Pos.eqb]. rewrite <- app_assoc. destruct m as [|p m]; [reflexivity|].
      set (w := p :: m) in *. set (g := fun p : bytes * json => quote (fst p) ++ 58 :: encode (snd p)).
      assert (H : exists r', commas (map g w) ++ [125] ++ rest = 34 :: r').
      { unfold w. cbn [map]. destruct (map g m) as [|e es] eqn:M; [cbn [commas]; unfold g, quote; eexists; reflexivity|]. rewrite commas_cons by discriminate. unfold g, quote. eexists. reflexivity. }
      destruct H as (r' & H). pose proof (IM w rest ltac:(discriminate)) as R. fold g in R. cbn [app] in *. rewrite H in *. cbn [Z.eqb Pos.eqb]. rewrite R; [reflexivity| |].
      * apply Forall_forall. intros x I. unfold good in *. rewrite Forall_forall in G. cbn [textsOf] in G. split.
        -- apply G. apply in_flat_map. exists x. split; [exact I|left; reflexivity].
        -- apply Forall_forall. intros t T. apply G. apply in_flat_map. exists x. split; [exact I|right; exact T].
      * exact (le_S_n _ _ L).
  - intros [|v l] rest N F L; [congruence|]. inversion F as [|? ? F1 F2]; subst. assert (L' : (S (size v) + list_sum (map (fun v => S (size v)) l) <= S f)%nat) by exact L. clear L. cbn [readItems]. destruct l as [|v' l].
    + cbn [map commas]. rewrite IV_; [reflexivity|exact F1|cbn in L'; lia|reflexivity].
    + set (w := v' :: l) in *. cbn [map]. rewrite commas_cons by discriminate. rewrite <- app_assoc. cbn [app].
      rewrite IV_; [|exact F1|lia|reflexivity]. cbn [Z.eqb Pos.eqb]. rewrite II; [reflexivity|discriminate|exact F2|lia].
  - intros [|[pk pv] m] rest N F L; [congruence|]. inversion F as [|? ? F1 F2]; subst. destruct F1 as (F0 & F1). cbn [fst snd] in F0, F1. assert (L' : (S (size pv) + list_sum (map (fun p => S (size (snd p))) m) <= S f)%nat) by exact L. clear L. cbn [readMembers]. set (g := fun p : bytes * json => quote (fst p) ++ 58 :: encode (snd p)) in *.
    destruct m as [|p' m].
    + cbn [map commas]. unfold g; cbn [fst snd]. destruct (read_quote pk (58 :: encode pv ++ 125 :: rest) F0) as (q & -> & R). rewrite <- app_assoc. cbn [app] in *. cbn [Z.eqb Pos.eqb]. rewrite R. cbn [Z.eqb Pos.eqb].
      rewrite IV_; [reflexivity|exact F1|cbn in L'; lia|reflexivity].
    + set (w := p' :: m) in *. cbn [map]. rewrite commas_cons by discriminate. rewrite <- app_assoc. cbn [app].
      unfold g at 1; cbn [fst snd]. destruct (read_quote pk (58 :: encode pv ++ 44 :: commas (map g w) ++ 125 :: rest) F0) as (q & -> & R). rewrite <- app_assoc. cbn [app] in *. cbn [Z.eqb Pos.eqb]. rewrite R. cbn [Z.eqb Pos.eqb].
      rewrite IV_; [|exact F1|lia|reflexivity]. cbn [Z.eqb Pos.eqb]. unfold g. rewrite IM; [reflexivity|discriminate|exact F2|lia].
Qed.

(** Everything that is written reads back: the same value, with U+FFFD in place of each byte that is no UTF-8. *)
Theorem C89_read : forall j, Forall (Forall is_byte) (textsOf j) -> read (encode j) = Some (repaired j).
Proof.
  intros j G. unfold read. pose proof (proj1 (reads (List.length (encode j))) j [] G (size_length (size j) j (le_n _)) Logic.I) as R. rewrite app_nil_r in R. rewrite R. reflexivity.
Qed.
Lemma repaired_same : forall n j, (size j <= n)%nat -> Forall isText (textsOf j) -> repaired j = j.
Proof.
  induction n as [|n IH]; intros j L T; [pose proof (size_pos j); lia|]. rewrite Forall_forall in T. destruct j as [| | |s|l|m]; try reflexivity; cbn [repaired textsOf size] in *.
  - f_equal. apply repair_text. apply T. left. reflexivity.
  - f_equal. rewrite <- (map_id l) at 2. apply map_ext_in. intros x I. apply IH; [pose proof (in_sum (fun v => S (size v)) l x I); cbn beta in *; lia|]. apply Forall_forall. intros t U. apply T. apply in_flat_map. exists x. split; assumption.
  - f_equal. rewrite <- (map_id m) at 2. apply map_ext_in. intros x I. rewrite (IH (snd x)).
    + rewrite repair_text; [destruct x; reflexivity|]. apply T. apply in_flat_map. exists x. split; [exact I|left; reflexivity].
    + pose proof (in_sum (fun p => S (size (snd p))) m x I). cbn beta in *. lia.
    + apply Forall_forall. intros t U. apply T. apply in_flat_map. exists x. split; [exact I|right; exact U].
Qed.
Lemma utf8_bytes c : scalar c -> Forall is_byte (utf8 c).
Proof.
  intros S. unfold utf8, scalar, is_byte in *. assert (H : forall a, 0 <= a mod 64 < 64) by (intros a; apply Z.mod_pos_bound; lia). pose proof (H c). pose proof (H (c / 64)). pose proof (H (c / 4096)).
  assert (0 <= c / 64 /\ 0 <= c / 4096 /\ 0 <= c / 262144) by (repeat split; apply Z.div_pos; lia).
  destruct (c <? 128) eqn:A; [apply Forall_cons; [lia|apply Forall_nil]|]. destruct (c <? 2048) eqn:B; [|destruct (c <? 65536) eqn:D].
  - assert (c / 64 < 32) by (apply Z.div_lt_upper_bound; lia). repeat (apply Forall_cons; [lia|]). apply Forall_nil.
  - assert (c / 4096 < 16) by (apply Z.div_lt_upper_bound; lia). repeat (apply Forall_cons; [lia|]). apply Forall_nil.
  - assert (c / 262144 < 5) by (apply Z.div_lt_upper_bound; lia). repeat (apply Forall_cons; [lia|]). apply Forall_nil.
Qed.
Lemma text_bytes b : isText b -> Forall is_byte b.
Proof. intros (cs & F & ->). induction F as [|c cs C F IH]; [constructor|]. cbn [flat_map]. apply Forall_app. split; [apply utf8_bytes; exact C|exact IH]. Qed.
Theorem C89_same : forall j, Forall isText (textsOf j) -> read (encode j) = Some j.
Proof.
  intros j T. rewrite C89_read; [f_equal; apply (repaired_same (size j)); [apply le_n|exact T]|]. eapply Forall_impl; [|exact T]. intros b B. apply text_bytes. exact B.
Qed.

(** ** Data groups *)
Lemma ascii_text b : Forall (fun x => 0 <= x < 128) b -> isText b.
Proof.
  intros F. exists b. split; [eapply Forall_impl; [|exact F]; intros x X; cbn beta in X; left; lia|]. induction F as [|x b X F IH]; [reflexivity|]. cbn [flat_map]. rewrite <- IH. unfold utf8.
  replace (x <? 128) with true by lia. reflexivity.
Qed.
Lemma field_text s : forallb (fun x => (0 <=? x) && (x <? 128)) (bs s) = true -> isText (bs s).
Proof. intros F. apply ascii_text. apply Forall_forall. intros x I. rewrite forallb_forall in F. specialize (F x I). cbn beta in F. lia. Qed.
Lemma bs_inj a b : bs a = bs b -> a = b.
Proof.
  revert b. induction a as [|c a IH]; intros [|d b] E; try discriminate E; [reflexivity|]. unfold bs in E. cbn [list_ascii_of_string map] in E. injection E as E1 E2.
  rewrite (IH b E2). f_equal. rewrite <- (ascii_nat_embedding c), <- (ascii_nat_embedding d). f_equal. lia.
Qed.
Lemma formatInt_in n c : In c (formatInt n) -> c = 45 \/ 48 <= c <= 57.
Proof.
  assert (D : forall k, 0 <= k -> In c (digits k) -> 48 <= c <= 57). { intros k K I. pose proof (digits_all k K) as A. rewrite forallb_forall in A. specialize (A c I). unfold isDigit in A. lia. }
  unfold formatInt. destruct (n <? 0) eqn:E; intros I; [destruct I as [<-|I]; [left; reflexivity|]|]; right; eapply D; try eassumption; lia.
Qed.
Lemma insert_perm p l : Permutation (insertKey p l) (p :: l).
Proof.
  induction l as [|q r IH]; [reflexivity|]. cbn [insertKey]. destruct (before (fst p) (fst q)); [reflexivity|]. transitivity (q :: p :: r); [constructor; exact IH|apply perm_swap].
Qed.
Lemma sort_perm l : Permutation (sortKeys l) l.
Proof. induction l as [|p l IH]; [reflexivity|]. cbn [sortKeys]. transitivity (p :: sortKeys l); [apply insert_perm|constructor; exact IH]. Qed.
Lemma keys_map_bs (m : list (string * aval)) : keys (map (fun p => (bs (fst p), jsonValue (snd p))) m) = map bs (keys m).
Proof. unfold keys. rewrite !map_map. reflexivity. Qed.
Lemma nodup_map_inj {A B} (f : A -> B) l : (forall x y, f x = f y -> x = y) -> NoDup l -> NoDup (map f l).
Proof.
  intros J. induction 1 as [|x l N ND IH]; [constructor|]. cbn [map]. constructor; [|exact IH]. intros I. apply in_map_iff in I. destruct I as (y & E & I). apply J in E. subst y. contradiction.
Qed.
Lemma labels_shown m : NoDup (keys m) -> let ls := jsonLabels m in
  (forall k v, aget m k = Some v -> exists x, member k ls = Some x /\ tells v x) /\ (forall k, aget m k = None -> member k ls = None).
Proof.
  intros ND ls. set (q := map (fun p => (bs (fst p), jsonValue (snd p))) m). assert (P : Permutation (sortKeys q) q) by apply sort_perm.
  assert (KP : Permutation (keys (sortKeys q)) (map bs (keys m))). { rewrite <- keys_map_bs. fold q. unfold keys. apply Permutation_map. exact P. }
  assert (NDQ : NoDup (keys (sortKeys q))). { eapply Permutation_NoDup; [symmetry; exact KP|]. apply nodup_map_inj; [exact bs_inj|exact ND]. }
  split.
  - intros k v G. exists (jsonValue v). split; [|destruct v; reflexivity]. unfold ls, jsonLabels. cbn [member]. fold q. apply in_aget; [exact NDQ|]. eapply Permutation_in; [symmetry; exact P|].
    unfold q. apply in_map_iff. exists (k, v). split; [reflexivity|]. exact (aget_in m k v G).
  - intros k G. unfold ls, jsonLabels. cbn [member]. fold q. apply aget_none_notin. intros I. apply (Permutation_in _ KP) in I. apply in_map_iff in I. destruct I as (k' & E & I). apply bs_inj in E. subst k'.
    apply aget_none_notin in G. contradiction.
Qed.
Lemma labels_texts m t : In t (textsOf (jsonLabels m)) -> In t (flat_map (fun p : string * aval => bs (fst p) :: match snd p with SV s => [s] | _ => [] end) m).
Proof.
  cbn [jsonLabels textsOf]. intros I. apply in_flat_map in I. destruct I as ([k j] & I & T). apply (Permutation_in _ (sort_perm _)) in I. apply in_map_iff in I. destruct I as ([k' v] & E & I).
  injection E as <- <-. apply in_flat_map. exists (k', v). split; [exact I|]. cbn [fst snd] in *. destruct T as [<-|T]; [left; reflexivity|]. destruct v; cbn [jsonValue textsOf] in T; [right; exact T|destruct T|destruct T].
Qed.
Lemma numbers_texts nil l t : In t (textsOf (jsonSlice nil (map JInt l))) -> False.
Proof.
  destruct l as [|n l]; [destruct nil; intros []|]. cbn [map jsonSlice textsOf]. intros I. apply in_flat_map in I. destruct I as (x & I & T).
  change (JInt n :: map JInt l) with (map JInt (n :: l)) in I. apply in_map_iff in I. destruct I as (y & <- & _). destruct T.
Qed.
Lemma slice_texts nil l t : In t (textsOf (jsonSlice nil l)) -> exists x, In x l /\ In t (textsOf x).
Proof. destruct l as [|y l]; [destruct nil; intros []|]. cbn [jsonSlice textsOf]. intros I. apply in_flat_map in I. exact I. Qed.
Lemma group_texts nil g : Forall isText (groupTexts g) -> Forall isText (textsOf (jsonGroup nil g)).
Proof.
  intros T. rewrite Forall_forall in T. apply Forall_forall. intros t I. unfold jsonGroup in I. cbn [textsOf flat_map fst snd app] in I. unfold groupTexts in T.
  destruct I as [<-|I]; [apply field_text; reflexivity|]. destruct I as [<-|I]; [apply T; left; reflexivity|]. destruct I as [<-|I]; [apply field_text; reflexivity|].
  apply in_app_iff in I. destruct I as [I|I].
  - apply slice_texts in I. destruct I as (x & I & U). apply in_map_iff in I. destruct I as ([n d] & <- & I). unfold jsonMetric in U. cbn [textsOf flat_map fst snd app] in U.
    destruct U as [<-|U]; [apply field_text; reflexivity|]. destruct U as [<-|U]; [apply T; right; apply in_app_iff; left; apply in_map_iff; exists (n, d); split; [reflexivity|exact I]|].
    destruct U as [<-|U]; [apply field_text; reflexivity|]. rewrite app_nil_r in U. destruct d as [v|s c bo bu]; cbn [jsonData textsOf flat_map fst snd app] in U.
    + destruct U as [<-|[]]. apply field_text. reflexivity.
    + destruct U as [<-|U]; [apply field_text; reflexivity|]. destruct U as [<-|U]; [apply field_text; reflexivity|]. destruct U as [<-|U]; [apply field_text; reflexivity|].
      apply in_app_iff in U. destruct U as [U|U]; [destruct (numbers_texts _ _ _ U)|]. destruct U as [<-|U]; [apply field_text; reflexivity|]. rewrite app_nil_r in U. destruct (numbers_texts _ _ _ U).
  - destruct I as [<-|I]; [apply field_text; reflexivity|]. apply in_app_iff in I. destruct I as [I|I].
    + apply T. right. apply in_app_iff. right. apply labels_texts. exact I.
    + destruct I as [<-|[]]. apply field_text. reflexivity.
Qed.
Lemma slice_items nil l : items (Some (jsonSlice nil l)) = Some l.
Proof. destruct l; [destruct nil; reflexivity|reflexivity]. Qed.
Lemma metric_shown nil p : showsMetric p (jsonMetric nil p).
Proof.
  destruct p as [n d]. split; [reflexivity|]. exists (jsonData nil d). split; [reflexivity|]. destruct d as [v|s c bo bu]; [reflexivity|]. cbn [snd].
  split; [reflexivity|]. split; [reflexivity|]. split; [exact (slice_items nil (map JInt bo))|exact (slice_items nil (map JInt bu))].
Qed.

(** A stored data group reads back as what it is: its name, its time, every label with its value and type and no other, every metric with its numbers, in order. *)
Theorem C89_stored : forall nilSlices g, NoDup (keys (glabels g)) -> Forall isText (groupTexts g) ->
  exists j, read (encode (jsonGroup nilSlices g)) = Some j /\ shows g j.
Proof.
  intros nil g ND T. exists (jsonGroup nil g). split; [apply C89_same; apply group_texts; exact T|]. split; [reflexivity|]. split; [reflexivity|]. split.
  - exists (map (jsonMetric nil) (gmetrics g)). split; [exact (slice_items nil (map (jsonMetric nil) (gmetrics g)))|]. induction (gmetrics g) as [|p l IH]; [constructor|]. cbn [map]. constructor; [apply metric_shown|exact IH].
  - exists (jsonLabels (glabels g)). split; [reflexivity|]. apply labels_shown. exact ND.
Qed.

(** The text does not depend on the order in which a label map is ranged over. *)
Lemma before_total a : forall b, before a b = false -> before b a = true.
Proof. induction a as [|x a IH]; intros [|y b]; cbn [before]; try discriminate; try reflexivity. destruct (x <? y) eqn:A, (y <? x) eqn:B; try discriminate; try reflexivity. apply IH. Qed.
Lemma before_antisym a : forall b, before a b = true -> before b a = true -> a = b.
Proof.
  induction a as [|x a IH]; intros [|y b]; cbn [before]; try discriminate; [reflexivity|]. destruct (x <? y) eqn:A, (y <? x) eqn:B; try discriminate; try lia. intros H H'. f_equal; [lia|exact (IH b H H')].
Qed.
Lemma before_trans a : forall b c, before a b = true -> before b c = true -> before a c = true.
Proof.
  induction a as [|x a IH]; intros [|y b] [|z c]; cbn [before]; try discriminate; try reflexivity. destruct (x <? y) eqn:A, (y <? x) eqn:A', (y <? z) eqn:B, (z <? y) eqn:B', (x <? z) eqn:D, (z <? x) eqn:D'; try discriminate; try lia; try reflexivity. apply IH.
Qed.
Lemma insert_comm p q l : fst p <> fst q -> insertKey p (insertKey q l) = insertKey q (insertKey p l).
Proof.
  intros N. assert (T : forall P : Prop, (before (fst p) (fst q) = true -> before (fst q) (fst p) = false -> P) -> (before (fst p) (fst q) = false -> before (fst q) (fst p) = true -> P) -> P).
  { intros P A B. destruct (before (fst p) (fst q)) eqn:E; destruct (before (fst q) (fst p)) eqn:E'; auto.
    - exfalso. apply N. apply before_antisym; assumption.
    - apply before_total in E. congruence. }
  induction l as [|r l IH]; cbn [insertKey].
  - apply T; intros A B; rewrite A, B; reflexivity.
  - destruct (before (fst q) (fst r)) eqn:Q, (before (fst p) (fst r)) eqn:P; cbn [insertKey].
    + rewrite P, Q. apply T; intros A B; rewrite A, B; reflexivity.
    + rewrite P, Q. destruct (before (fst p) (fst q)) eqn:A; [|reflexivity]. pose proof (before_trans _ _ _ A Q). congruence.
    + rewrite P, Q. destruct (before (fst q) (fst p)) eqn:A; [|reflexivity]. pose proof (before_trans _ _ _ A P). congruence.
    + rewrite P, Q, IH. reflexivity.
Qed.
Lemma sort_same l l' : Permutation l l' -> NoDup (map fst l) -> sortKeys l = sortKeys l'.
Proof.
  induction 1 as [|p l l' P IH|p q l|l l' l'' P IH P' IH']; intros ND.
  - reflexivity.
  - cbn [sortKeys]. cbn [map] in ND. inversion ND; subst. rewrite IH by assumption. reflexivity.
  - cbn [sortKeys]. apply insert_comm. cbn [map] in ND. inversion ND as [|? ? N _]; subst. intros E. apply N. left. congruence.
  - rewrite IH by assumption. apply IH'. eapply Permutation_NoDup; [|exact ND]. apply Permutation_map. exact P.
Qed.
Theorem C89_canonical : forall m m', NoDup (keys m) -> Permutation m m' -> encode (jsonLabels m) = encode (jsonLabels m').
Proof.
  intros m m' ND P. unfold jsonLabels. rewrite (sort_same _ (map (fun p => (bs (fst p), jsonValue (snd p))) m')); [reflexivity|apply Permutation_map; exact P|].
  fold (keys (map (fun p => (bs (fst p), jsonValue (snd p))) m)). rewrite keys_map_bs. apply nodup_map_inj; [exact bs_inj|exact ND].
Qed.

(** ** The file of a trace *)
Definition clear10 (b : bytes) : Prop := ~ In 10 b.
Lemma clear_app a b : clear10 a -> clear10 b -> clear10 (a ++ b).
Proof. intros A B I. apply in_app_iff in I. destruct I; contradiction. Qed.
Lemma clear_cons x b : x <> 10 -> clear10 b -> clear10 (x :: b).
Proof. intros A B [I|I]; [congruence|contradiction]. Qed.
Lemma clear_ascii x : 0 <= x < 128 -> clear10 (ascii7 x).
Proof.
  intros R. assert (X : existsb (Z.eqb 10) (ascii7 x) = false).
  { rewrite <- (Z2Nat.id x) by lia. assert (L : (Z.to_nat x < 128)%nat) by lia. revert L. generalize (Z.to_nat x). intros n L. do 128 (destruct n as [|n]; [reflexivity|]). lia. }
  intros I. assert (Y : existsb (Z.eqb 10) (ascii7 x) = true) by (apply existsb_exists; exists 10; split; [exact I|reflexivity]). congruence.
Qed.
Lemma clear_bs s : existsb (Z.eqb 10) (bs s) = false -> clear10 (bs s).
Proof. intros X I. assert (Y : existsb (Z.eqb 10) (bs s) = true) by (apply existsb_exists; exists 10; split; [exact I|reflexivity]). congruence. Qed.
Lemma clear_quoteF : forall f b, Forall is_byte b -> clear10 (quoteF f b).
Proof.
  induction f as [|f IH]; intros b F; [intros []|]. destruct b as [|x r]; [intros []|]. cbn [quoteF]. apply clear_app; [|apply IH; apply forall_skipn; exact F].
  assert (P : 0 <= x) by (inversion F; subst; unfold is_byte in *; lia). unfold piece. destruct (x <? 128) eqn:A; [apply clear_ascii; lia|].
  destruct (runeSize (x :: r) =? 1)%nat eqn:N; [apply clear_cons; [lia|apply clear_bs; reflexivity]|].
  destruct (eqb (firstn _ _) [226; 128; 168]); [apply clear_cons; [lia|apply clear_bs; reflexivity]|]. destruct (eqb (firstn _ _) [226; 128; 169]); [apply clear_cons; [lia|apply clear_bs; reflexivity]|].
  intros I. pose proof (size_high x r ltac:(lia) ltac:(apply Nat.eqb_neq; exact N)) as H. rewrite Forall_forall in H. specialize (H 10 I). lia.
Qed.
Lemma clear_quote s : Forall is_byte s -> clear10 (quote s).
Proof. intros F. unfold quote. apply clear_cons; [lia|]. apply clear_app; [apply clear_quoteF; exact F|]. intros [I|[]]. lia. Qed.
Lemma clear_commas l : Forall clear10 l -> clear10 (commas l).
Proof.
  induction l as [|x l IH]; intros F; [intros []|]. inversion F; subst. destruct l as [|y l]; [assumption|]. rewrite commas_cons by discriminate. apply clear_app; [assumption|]. apply clear_cons; [lia|apply IH; assumption].
Qed.
Lemma clear_encode : forall n j, (size j <= n)%nat -> good j -> clear10 (encode j).
Proof.
  induction n as [|n IH]; intros j L G; [pose proof (size_pos j); lia|]. unfold good in *. rewrite Forall_forall in G. destruct j as [|[]|k|s|l|m]; cbn [encode].
  1-3: apply clear_bs; reflexivity.
  - intros I. apply formatInt_in in I. lia.
  - apply clear_quote. apply G. left. reflexivity.
  - apply clear_cons; [lia|]. apply clear_app; [|intros [I|[]]; lia]. apply clear_commas. apply Forall_forall. intros t I. apply in_map_iff in I. destruct I as (x & <- & I).
    apply IH; [pose proof (in_sum (fun v => S (size v)) l x I); cbn [size] in L; cbn beta in *; lia|]. apply Forall_forall. intros u U. apply G. cbn [textsOf]. apply in_flat_map. exists x. split; assumption.
  - apply clear_cons; [lia|]. apply clear_app; [|intros [I|[]]; lia]. apply clear_commas. apply Forall_forall. intros t I. apply in_map_iff in I. destruct I as ([k x] & <- & I). cbn [fst snd].
    apply clear_app; [apply clear_quote; apply G; cbn [textsOf]; apply in_flat_map; exists (k, x); split; [exact I|left; reflexivity]|]. apply clear_cons; [lia|].
    apply IH; [pose proof (in_sum (fun p => S (size (snd p))) m (k, x) I) as H; cbn beta in H; cbn [snd] in H; pose proof (le_S_n _ _ L) as L'; change (list_sum (map (fun p : bytes * json => S (size (snd p))) m) <= n)%nat in L'; lia|].
    apply Forall_forall. intros u U. apply G. cbn [textsOf]. apply in_flat_map. exists (k, x). split; [exact I|right; exact U].
Qed.
Notation dashes := (10 :: bs "------" ++ [10]).
Lemma strip_app p r : strip p (p ++ r) = Some r.
Proof. induction p as [|x p IH]; [reflexivity|]. cbn [app strip]. rewrite Z.eqb_refl. exact IH. Qed.
Lemma cut_piece rest : forall a f, clear10 a -> (List.length a < f)%nat -> cut dashes f (a ++ dashes ++ rest) = a :: cut dashes (f - List.length a - 1) rest.
Proof.
  induction a as [|x a IH]; intros f C L; (destruct f as [|f]; [cbn in L; lia|]).
  - cbn [app List.length cut]. change (10 :: (bs "------" ++ [10]) ++ rest) with (dashes ++ rest). rewrite strip_app. do 2 f_equal. lia.
  - cbn [app cut List.length]. rewrite strip_none; [|cbn; intros E; apply C; left; congruence]. cbn [List.length] in L. change (10 :: (bs "------" ++ [10]) ++ rest) with (dashes ++ rest). rewrite IH; [do 2 f_equal; lia|intros I; apply C; right; exact I|lia].
Qed.
Lemma cut_last : forall a f, clear10 a -> (List.length a < f)%nat -> cut dashes f a = [a].
Proof.
  induction a as [|x a IH]; intros f C L; (destruct f as [|f]; [cbn in L; lia|]); [reflexivity|].
  cbn [cut]. rewrite strip_none; [|cbn; intros E; apply C; left; congruence]. cbn [List.length] in L. rewrite IH; [reflexivity|intros I; apply C; right; exact I|lia].
Qed.
Lemma cut_all : forall events a f, clear10 a -> Forall clear10 events -> (List.length (a ++ flat_map (fun e => dashes ++ e) events) < f)%nat ->
  cut dashes f (a ++ flat_map (fun e => dashes ++ e) events) = a :: events.
Proof.
  induction events as [|e es IH]; intros a f C F L.
  - cbn [flat_map] in *. rewrite app_nil_r in *. apply cut_last; assumption.
  - inversion F; subst. cbn [flat_map] in *. rewrite <- app_assoc in *. rewrite !app_length in L. rewrite cut_piece by (try assumption; lia). f_equal. apply IH; [assumption|assumption|]. rewrite app_length. cbn [List.length] in L. lia.
Qed.
(** A trace file splits at its lines of dashes into the trace and the events that were appended, whatever is in them. *)
Theorem C89_parts : forall nilSlices trace events, Forall (fun g => Forall (Forall is_byte) (textsOf (jsonGroup nilSlices g))) (trace :: events) ->
  parts (storedTrace nilSlices trace events) = map (fun g => encode (jsonGroup nilSlices g)) (trace :: events).
Proof.
  intros nil trace events F. inversion F as [|? ? F1 F2]; subst. unfold parts, storedTrace. cbn [map].
  assert (E : flat_map (fun e => line ++ encode (jsonGroup nil e)) events = flat_map (fun e => dashes ++ e) (map (fun g => encode (jsonGroup nil g)) events)).
  { clear. induction events as [|e es IH]; [reflexivity|]. cbn [flat_map map]. rewrite IH. reflexivity. }
  rewrite E. apply cut_all; [exact (clear_encode _ _ (le_n _) F1)| |lia]. apply Forall_forall. intros t I. apply in_map_iff in I. destruct I as (g & <- & I). rewrite Forall_forall in F2. exact (clear_encode _ _ (le_n _) (F2 g I)).
Qed.

(** False: labels do not survive as Go values: the label map's own UnmarshalJSON refuses what its MarshalJSON wrote, as soon as there is a label. *)
Theorem C89_unmarshal_refuted : forall m, m <> [] -> exists e, In e (match jsonLabels m with JObj l => l | _ => [] end) /\ unmarshalLabels (jsonLabels m) = Err.
Proof.
  intros [|[k v] m] N; [congruence|]. unfold jsonLabels, unmarshalLabels. set (q := map (fun p => (bs (fst p), jsonValue (snd p))) ((k, v) :: m)).
  assert (I : In (bs k, jsonValue v) (sortKeys q)) by (eapply Permutation_in; [symmetry; apply sort_perm|left; reflexivity]). exists (bs k, jsonValue v). split; [exact I|].
  destruct (forallb _ (sortKeys q)) eqn:E; [|reflexivity]. rewrite forallb_forall in E. specialize (E _ I). cbn [snd] in E. destruct v; discriminate E.
Qed.
(** False: labels with bytes that are not UTF-8 are not kept: different traces are stored as the same text. *)
Theorem C89_bytes_refuted : exists g g', glabels g <> glabels g' /\ forall nilSlices, encode (jsonGroup nilSlices g) = encode (jsonGroup nilSlices g').
Proof.
  exists {| gname := "g"; gmetrics := []; glabels := [("sql", SV [255])]; gts := 1 |}, {| gname := "g"; gmetrics := []; glabels := [("sql", SV [254])]; gts := 1 |}.
  split; [discriminate|]. intros []; vm_compute; reflexivity.
Qed.
Print Assumptions C89_read.
Print Assumptions C89_same.
Print Assumptions C89_stored.
Print Assumptions C89_canonical.
Print Assumptions C89_parts.
Print Assumptions C89_unmarshal_refuted.
Print Assumptions C89_bytes_refuted.

(** ** A case *)
Definition exGroup : group := {| gname := "g"; gmetrics := [("latency", MInt (-5)); ("h", MHist 3 2 [1] [])]; glabels := [("url", SV [60; 195; 169; 10; 34]); ("pid", IV 7); ("is_slow", BV true)]; gts := 9 |}.
Example C89_example : NoDup (keys (glabels exGroup)) /\ Forall isText (groupTexts exGroup) /\
  encode (jsonLabels (glabels exGroup)) = bs "{""is_slow"":true,""pid"":7,""url"":""" ++ 92 :: bs "u003c" ++ [195; 169; 92; 110; 92; 34] ++ bs """}" /\
  parts (storedTrace true exGroup [exGroup; exGroup]) = [encode (jsonGroup true exGroup); encode (jsonGroup true exGroup); encode (jsonGroup true exGroup)].
Proof.
  split; [repeat constructor; cbn; intuition discriminate|]. split; [|split; vm_compute; reflexivity].
  repeat constructor; try (apply field_text; reflexivity). exists [60; 233; 10; 34]. split; [repeat (apply Forall_cons; [left; lia|]); apply Forall_nil|reflexivity].
Qed.
