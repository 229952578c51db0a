(** C85: the text of an event in the receiver's log. *)
From Verif Require Import Base LifeModel Decimal EventModel EventProps RouteModel ConfModel ConfProps LogModel LogProps RecvModel EvtTextModel.
From Coq Require Import ZifyBool.
Open Scope string_scope. Open Scope list_scope. Open Scope Z_scope.

(** ** Specification *)
(** UTF-8 (RFC 3629) *)
Definition scalar (c : Z) : Prop := 0 <= c < 55296 \/ 57344 <= c <= 1114111.
Definition utf8 (c : Z) : bytes :=
  if c <? 128 then [c] else if c <? 2048 then [192 + c / 64; 128 + c mod 64]
  else if c <? 65536 then [224 + c / 4096; 128 + c / 64 mod 64; 128 + c mod 64]
  else [240 + c / 262144; 128 + c / 4096 mod 64; 128 + c / 64 mod 64; 128 + c mod 64].
(** A character as it is shown: itself, if it can be printed in ASCII, or a dot. *)
Definition printable (c : Z) : Prop := 32 <= c <= 126.
Definition shown (c : Z) : Z := if (32 <=? c) && (c <=? 126) then c else 46.
(** The bytes a value of a type must have. *)
Definition needs (type : Z) : nat :=
  match type with 1 | 5 => 1%nat | 2 | 6 => 2%nat | 3 | 7 | 11 => 4%nat | 4 | 8 => 8%nat | _ => 0%nat end.
Definition longEnough (a : kattr) : Prop := (needs (ka_type a) <= List.length (ka_val a))%nat.
(** Texts with a blank between them. *)
Fixpoint spaced (l : list bytes) : bytes := match l with [] => [] | [x] => x | x :: r => x ++ 32 :: spaced r end.

(** ** Proofs *)
Lemma skipn_app_exact {A} (a b : list A) : skipn (List.length a) (a ++ b) = b.
Proof. induction a as [|x a IH]; [reflexivity|exact IH]. Qed.
Lemma runeSize_utf8 c r : scalar c -> runeSize (utf8 c ++ r) = List.length (utf8 c).
Proof.
  intros S. unfold utf8. destruct (c <? 128) eqn:A; [|destruct (c <? 2048) eqn:B; [|destruct (c <? 65536) eqn:C]]; cbn [app runeSize List.length]; unfold inRange, scalar in *.
  - replace ((194 <=? c) && (c <=? 223)) with false by lia. replace ((224 <=? c) && (c <=? 239)) with false by lia. replace ((240 <=? c) && (c <=? 244)) with false by lia. reflexivity.
  - pose proof (Z.div_mod c 64 ltac:(lia)). pose proof (Z.mod_pos_bound c 64 ltac:(lia)).
    replace ((194 <=? 192 + c / 64) && (192 + c / 64 <=? 223)) with true by lia. replace ((128 <=? 128 + c mod 64) && (128 + c mod 64 <=? 191)) with true by lia. reflexivity.
  - pose proof (Z.div_mod c 64 ltac:(lia)). pose proof (Z.mod_pos_bound c 64 ltac:(lia)). pose proof (Z.div_mod (c / 64) 64 ltac:(lia)). pose proof (Z.mod_pos_bound (c / 64) 64 ltac:(lia)).
    rewrite Z.div_div in * by lia. change (64 * 64) with 4096 in *.
    replace ((194 <=? 224 + c / 4096) && (224 + c / 4096 <=? 223)) with false by lia. replace ((224 <=? 224 + c / 4096) && (224 + c / 4096 <=? 239)) with true by lia.
    replace ((128 <=? 128 + c mod 64) && (128 + c mod 64 <=? 191)) with true by lia.
    replace (((if 224 + c / 4096 =? 224 then 160 else 128) <=? 128 + c / 64 mod 64) && (128 + c / 64 mod 64 <=? (if 224 + c / 4096 =? 237 then 159 else 191))) with true; [reflexivity|].
    symmetry. apply andb_true_iff. destruct (224 + c / 4096 =? 224) eqn:E1; destruct (224 + c / 4096 =? 237) eqn:E2; lia.
  - pose proof (Z.div_mod c 64 ltac:(lia)). pose proof (Z.mod_pos_bound c 64 ltac:(lia)). pose proof (Z.div_mod (c / 64) 64 ltac:(lia)). pose proof (Z.mod_pos_bound (c / 64) 64 ltac:(lia)).
    pose proof (Z.div_mod (c / 64 / 64) 64 ltac:(lia)). pose proof (Z.mod_pos_bound (c / 64 / 64) 64 ltac:(lia)).
    rewrite !Z.div_div in * by lia. change (64 * 64 * 64) with 262144 in *. change (64 * 4096) with 262144 in *. change (64 * 64) with 4096 in *. change (64 * 4096) with 262144 in *. change (4096 * 64) with 262144 in *.
    replace ((194 <=? 240 + c / 262144) && (240 + c / 262144 <=? 223)) with false by lia. replace ((224 <=? 240 + c / 262144) && (240 + c / 262144 <=? 239)) with false by lia.
    replace ((240 <=? 240 + c / 262144) && (240 + c / 262144 <=? 244)) with true by lia.
    replace ((128 <=? 128 + c mod 64) && (128 + c mod 64 <=? 191)) with true by lia. replace ((128 <=? 128 + c / 64 mod 64) && (128 + c / 64 mod 64 <=? 191)) with true by lia.
    replace (((if 240 + c / 262144 =? 240 then 144 else 128) <=? 128 + c / 4096 mod 64) && (128 + c / 4096 mod 64 <=? (if 240 + c / 262144 =? 244 then 143 else 191))) with true; [reflexivity|].
    symmetry. apply andb_true_iff. destruct (240 + c / 262144 =? 240) eqn:E1; destruct (240 + c / 262144 =? 244) eqn:E2; lia.
Qed.
Lemma utf8_head c : scalar c -> exists x r, utf8 c = x :: r /\ (if inRange 32 126 x then x else 46) = shown c.
Proof.
  intros S. unfold utf8, shown, inRange, scalar in *. destruct (c <? 128) eqn:A; [exists c, []; split; reflexivity|].
  replace ((32 <=? c) && (c <=? 126)) with false by lia.
  destruct (c <? 2048) eqn:B; [|destruct (c <? 65536) eqn:C]; do 2 eexists; (split; [reflexivity|]).
  - assert (0 <= c / 64) by (apply Z.div_pos; lia). replace ((32 <=? 192 + c / 64) && (192 + c / 64 <=? 126)) with false by lia. reflexivity.
  - assert (0 <= c / 4096) by (apply Z.div_pos; lia). replace ((32 <=? 224 + c / 4096) && (224 + c / 4096 <=? 126)) with false by lia. reflexivity.
  - assert (0 <= c / 262144) by (apply Z.div_pos; lia). replace ((32 <=? 240 + c / 262144) && (240 + c / 262144 <=? 126)) with false by lia. reflexivity.
Qed.
Lemma cleanF_utf8 : forall cs f, Forall scalar cs -> (List.length (flat_map utf8 cs) <= f)%nat -> cleanF f (flat_map utf8 cs) = map shown cs.
Proof.
  induction cs as [|c cs IH]; intros f S L; [destruct f; reflexivity|]. inversion S as [|? ? S1 S2]; subst. cbn [flat_map map] in *.
  destruct (utf8_head c S1) as (x & r & E & H). pose proof (runeSize_utf8 c (flat_map utf8 cs) S1) as RS. rewrite app_length in L.
  destruct f as [|f]; [rewrite E in L; cbn in L; lia|]. pose proof (skipn_app_exact (utf8 c) (flat_map utf8 cs)) as SK. rewrite <- RS in SK.
  assert (G : utf8 c ++ flat_map utf8 cs = x :: (r ++ flat_map utf8 cs)) by (rewrite E; reflexivity). rewrite G in *. cbn [cleanF]. rewrite SK, H.
  rewrite IH; [reflexivity|exact S2|]. rewrite E in L. cbn [List.length] in L. lia.
Qed.
Lemma cleanF_printable : forall f b c, In c (cleanF f b) -> printable c.
Proof.
  induction f as [|f IH]; intros b c I; [destruct I|]. destruct b as [|x r]; [destruct I|]. cbn [cleanF] in I. destruct I as [<-|I]; [|exact (IH _ _ I)].
  unfold inRange, printable. destruct ((32 <=? x) && (x <=? 126)) eqn:E; lia.
Qed.
Lemma cleanF_length : forall f b, (List.length (cleanF f b) <= List.length b)%nat.
Proof.
  induction f as [|f IH]; intros b; [cbn; lia|]. destruct b as [|x r]; [cbn; lia|]. cbn [cleanF List.length]. pose proof (IH (skipn (runeSize (x :: r)) (x :: r))) as H. rewrite skipn_length in H.
  assert (P : (1 <= runeSize (x :: r))%nat). { unfold runeSize. repeat match goal with |- context [match ?v with _ => _ end] => destruct v end; lia. }
  cbn [List.length] in H. lia.
Qed.
Lemma formatInt_printable z c : 0 <= z -> In c (formatInt z) -> printable c.
Proof.
  intros Z0 I. unfold formatInt in I. replace (z <? 0) with false in I by lia. unfold digits in I. revert z Z0 I.
  intros z Z0. generalize (S (Z.to_nat (Z.log2 z))) as f. intros f. revert z Z0. induction f as [|f IH]; intros n N J; cbn [digitsF] in J; [destruct J|]. destruct (n <? 10) eqn:E.
  - destruct J as [<-|[]]. unfold printable. lia.
  - apply in_app_iff in J. destruct J as [J|[<-|[]]]; [exact (IH _ (Z.div_pos n 10 N ltac:(lia)) J)|]. unfold printable. pose proof (Z.mod_pos_bound n 10). lia.
Qed.
Lemma leValue_total n : forall b, (exists v, leValue n b = Ok v) <-> (n <= List.length b)%nat.
Proof.
  induction n as [|n IH]; intros b; [split; [lia|intros _; exists 0; reflexivity]|]. destruct b as [|x b]; cbn [leValue List.length].
  - split; [intros (v & E); discriminate E|lia].
  - specialize (IH b). destruct (leValue n b) as [v| |]; cbn [bind].
    + split; [intros _; apply le_n_S, IH; eauto|intros _; eauto].
    + split; [intros (w & E); discriminate E|]. intros L. destruct IH as [_ IH]. destruct IH as (v & E); [lia|discriminate E].
    + split; [intros (w & E); discriminate E|]. intros L. destruct IH as [_ IH]. destruct IH as (v & E); [lia|discriminate E].
Qed.
Lemma bind_total {A B} (r : res A) (f : A -> B) : (exists v, bind r (fun x => Ok (f x)) = Ok v) <-> exists x, r = Ok x.
Proof. destruct r; cbn [bind]; split; intros (v & E); eauto; discriminate E. Qed.

Section Texts.
Variable float : Z -> bytes.
Variable context : kevent -> bytes.
Notation textAttribute := (textAttribute float).
Notation textAttributes := (textAttributes float).
Notation textEvent := (textEvent float context).
Notation sendAll := (sendAll float context).

Lemma attribute_total a : (exists t, textAttribute a = Ok t) <-> longEnough a.
Proof.
  destruct a as [key v t]. unfold textAttribute, longEnough. cbn [ka_type ka_key ka_val]. unfold getIntValue, getUintValue, valueOf, vtypeOf. cbn [kv_type kv_val ka_type ka_val].
  assert (T : t < 1 \/ 13 < t \/ t = 1 \/ t = 2 \/ t = 3 \/ t = 4 \/ t = 5 \/ t = 6 \/ t = 7 \/ t = 8 \/ t = 9 \/ t = 10 \/ t = 11 \/ t = 12 \/ t = 13) by lia.
  destruct T as [T|[T|T]].
  - unfold inRange. replace ((9 <=? t) && (t <=? 10)) with false by lia. replace ((1 <=? t) && (t <=? 4)) with false by lia. replace ((5 <=? t) && (t <=? 8)) with false by lia. replace (t =? 11) with false by lia.
    replace (needs t) with 0%nat by (destruct t as [|p|p]; [reflexivity|lia|reflexivity]). split; [lia|intros _; destruct (t =? 0); eauto].
  - unfold inRange. replace ((9 <=? t) && (t <=? 10)) with false by lia. replace ((1 <=? t) && (t <=? 4)) with false by lia. replace ((5 <=? t) && (t <=? 8)) with false by lia. replace (t =? 11) with false by lia. replace (t =? 0) with false by lia.
    replace (needs t) with 0%nat; [split; [lia|eauto]|]. destruct t as [|p|p]; [lia| |lia]. do 4 (destruct p as [p|p|]; try reflexivity; try lia).
  - repeat match type of T with _ \/ _ => destruct T as [T|T] end; subst t; cbn [needs]; cbv [inRange Z.leb Z.compare Pos.compare Pos.compare_cont andb]; cbn [Z.eqb Pos.eqb]; rewrite ?bind_total;
      try (split; [lia|intros _; eauto; fail]); try exact (leValue_total _ v).
    all: try (split; [intros _; lia|intros _; eexists; reflexivity]).
Qed.
Lemma loop_shape : forall l b, (exists t, textLoop float b l = Ok t) <-> Forall (fun a => ka_type a <> 0 -> longEnough a) l.
Proof.
  induction l as [|a l IH]; intros b; cbn [textLoop]; [split; [constructor|eauto]|]. destruct (ka_type a =? 0) eqn:E.
  - rewrite IH. split; [intros F; constructor; [lia|exact F]|intros F; inversion F; assumption].
  - pose proof (attribute_total a) as AT. specialize (IH true). split.
    + intros (t & H). destruct (textAttribute a) as [s| |]; cbn [bind] in H; try discriminate H. destruct (textLoop float true l) as [q| |]; cbn [bind] in H; try discriminate H.
      constructor; [intros _; apply AT; eauto|apply IH; eauto].
    + intros F. inversion F as [|? ? F1 F2]; subst. destruct (proj2 AT) as (s & ->); [apply F1; lia|]. destruct (proj2 IH F2) as (q & ->). cbn [bind]. eauto.
Qed.
Lemma loop_texts : forall l b t, textLoop float b l = Ok t ->
  exists ts, Forall2 (fun a s => textAttribute a = Ok s) (filter (fun a => negb (ka_type a =? 0)) l) ts /\ t = (if b then flat_map (fun s => 32 :: s) ts else spaced ts).
Proof.
  induction l as [|a l IH]; intros b t H; cbn [textLoop filter] in *; [injection H as <-; exists []; split; [constructor|destruct b; reflexivity]|].
  destruct (ka_type a =? 0); cbn [negb]; [apply IH; exact H|].
  destruct (textAttribute a) as [s| |] eqn:S; cbn [bind] in H; try discriminate H. destruct (textLoop float true l) as [q| |] eqn:Q; cbn [bind] in H; try discriminate H.
  injection H as <-. destruct (IH true q Q) as (ts & F & ->). exists (s :: ts). split; [constructor; assumption|].
  destruct b; cbn [flat_map app bs]; [reflexivity|]. change (s ++ flat_map (fun s0 => 32 :: s0) ts = spaced (s :: ts)). clear. revert s. induction ts as [|x ts IH]; intros s; [cbn; apply app_nil_r|].
  cbn [flat_map spaced]. change (s ++ 32 :: x ++ flat_map (fun s0 => 32 :: s0) ts = s ++ 32 :: spaced (x :: ts)). rewrite IH. reflexivity.
Qed.

(** ** Theorems *)
(** A text value is shown character by character, a dot for each that is not printable ASCII, also when it takes several bytes; beyond 200 bytes only the
    number of the bytes left out is said. *)
Theorem C85_characters : forall cs, Forall scalar cs -> zlen (flat_map utf8 cs) <= 200 -> bytesReader (flat_map utf8 cs) 200 = map shown cs.
Proof. intros cs S L. unfold bytesReader. replace (200 <? zlen _) with false by lia. apply cleanF_utf8; [exact S|lia]. Qed.
Theorem C85_long : forall cs rest, Forall scalar cs -> zlen (flat_map utf8 cs) = 200 -> rest <> [] ->
  bytesReader (flat_map utf8 cs ++ rest) 200 = map shown cs ++ bs "(" ++ formatInt (zlen rest) ++ bs " bytes more)".
Proof.
  intros cs rest S L R. unfold bytesReader. assert (Z.of_nat (List.length rest) > 0) by (destruct rest; [congruence|cbn [List.length]; lia]).
  assert (ZL : zlen (flat_map utf8 cs ++ rest) = 200 + zlen rest) by (unfold zlen in *; rewrite app_length; lia).
  replace (200 <? zlen (flat_map utf8 cs ++ rest)) with true by (unfold zlen in *; lia).
  assert (F : firstn (Z.to_nat 200) (flat_map utf8 cs ++ rest) = flat_map utf8 cs).
  { replace (Z.to_nat 200) with (List.length (flat_map utf8 cs)) by (unfold zlen in L; lia). rewrite firstn_app, firstn_all, Nat.sub_diag. cbn [firstn]. apply app_nil_r. }
  rewrite F. unfold clean. rewrite cleanF_utf8 by (first [exact S|lia]). replace (zlen (flat_map utf8 cs ++ rest) - 200) with (zlen rest) by lia. reflexivity.
Qed.
(** Whatever the bytes, the text is printable and of at most 200 characters and the count. *)
Theorem C85_printable : forall d, Forall printable (bytesReader d 200) /\
  exists shownPart count, bytesReader d 200 = shownPart ++ count /\ zlen shownPart <= 200 /\ (count = [] \/ count = bs "(" ++ formatInt (zlen d - 200) ++ bs " bytes more)" /\ 200 < zlen d).
Proof.
  intros d. unfold bytesReader. destruct (200 <? zlen d) eqn:E.
  - split.
    + apply Forall_forall. intros c I. apply in_app_iff in I. destruct I as [I|I]; [exact (cleanF_printable _ _ _ I)|].
      apply in_app_iff in I. destruct I as [I|I]; [cbn in I; unfold printable; lia|]. apply in_app_iff in I. destruct I as [I|I]; [apply (formatInt_printable (zlen d - 200)); [lia|exact I]|].
      vm_compute in I. unfold printable. lia.
    + do 2 eexists. split; [reflexivity|]. split; [|right; split; [reflexivity|lia]]. pose proof (cleanF_length (List.length (firstn (Z.to_nat 200) d)) (firstn (Z.to_nat 200) d)) as H.
      pose proof (firstn_le_length (Z.to_nat 200) d). fold (clean (firstn (Z.to_nat 200) d)) in H. unfold zlen. lia.
  - split; [apply Forall_forall; intros c I; exact (cleanF_printable _ _ _ I)|]. exists (clean d), []. split; [symmetry; apply app_nil_r|]. split; [|left; reflexivity].
    pose proof (cleanF_length (List.length d) d) as H. fold (clean d) in H. unfold zlen in *. lia.
Qed.

(** A number is shown in decimal, whatever its width. *)
Theorem C85_numbers : forall a type n v rest, (In (type, n) [(1, 1%nat); (2, 2%nat); (3, 4%nat); (4, 8%nat)] /\ - 2 ^ (8 * Z.of_nat n - 1) <= v < 2 ^ (8 * Z.of_nat n - 1)) \/
    (In (type, n) [(5, 1%nat); (6, 2%nat); (7, 4%nat); (8, 8%nat)] /\ 0 <= v < 2 ^ (8 * Z.of_nat n)) ->
  ka_type a = type -> ka_val a = leBytes n v ++ rest -> textAttribute a = Ok (ka_key a ++ bs ":" ++ formatInt v).
Proof.
  intros [key val t] type n v rest H T V. cbn [ka_type ka_key ka_val] in *. subst t val. unfold textAttribute, getIntValue, getUintValue, valueOf, vtypeOf. cbn [ka_type ka_key ka_val kv_type kv_val].
  assert (M : leValue n (leBytes n v ++ rest) = Ok (v mod 256 ^ Z.of_nat n)). { rewrite <- leBytes_mod. apply le_roundtrip. apply Z.mod_pos_bound. apply Z.pow_pos_nonneg; lia. }
  destruct H as [(I & R)|(I & R)]; cbn [In] in I; repeat destruct I as [I|I]; try contradiction; injection I as <- <-; cbv [inRange Z.leb Z.compare Pos.compare Pos.compare_cont andb]; cbn [Z.eqb Pos.eqb]; rewrite M; cbn [bind]; do 4 f_equal.
  all: match goal with |- context [256 ^ Z.of_nat ?k] => let x := eval vm_compute in (256 ^ Z.of_nat k) in change (256 ^ Z.of_nat k) with x end;
       match type of R with _ <= _ < ?y => let z := eval vm_compute in y in change y with z in R end.
  1: unfold s8. 2: unfold s16. 3: unfold s32. 4: unfold s64.
  all: try (rewrite Zplus_mod_idemp_l).
  all: try (change (2 ^ 8) with 256; change (2 ^ 7) with 128 in *); try (change (2 ^ 16) with 65536; change (2 ^ 15) with 32768 in *); try (change (2 ^ 32) with 4294967296; change (2 ^ 31) with 2147483648 in *);
       try (change (2 ^ 64) with 18446744073709551616; change (2 ^ 63) with 9223372036854775808 in *).
  all: rewrite ?Zplus_mod_idemp_l; rewrite Z.mod_small; lia.
Qed.

(** The attributes are shown in their order with a blank between them; those without a type are not. *)
Theorem C85_attributes : forall l t, textAttributes l = Ok t ->
  exists ts, Forall2 (fun a s => textAttribute a = Ok s) (filter (fun a => negb (ka_type a =? 0)) l) ts /\ t = 91 :: spaced ts ++ [93].
Proof.
  intros l t H. unfold EvtTextModel.textAttributes in H. destruct (textLoop float false l) as [q| |] eqn:Q; cbn [bind] in H; try discriminate H. injection H as <-.
  destruct (loop_texts l false q Q) as (ts & F & ->). exists ts. split; [exact F|reflexivity].
Qed.

(** The text of an event can be made exactly when every value has the bytes its type needs. *)
Theorem C85_total : forall e, (exists t, textEvent e = Ok t) <-> Forall (fun a => ka_type a <> 0 -> longEnough a) (k_attrs e).
Proof.
  intros e. unfold EvtTextModel.textEvent. rewrite bind_total. unfold EvtTextModel.textAttributes. rewrite bind_total. apply loop_shape.
Qed.

(** The whole text: seven labelled parts, separated by blanks, each the one its label names. *)
Definition labelled (ls : list (bytes * bytes)) : bytes := bs "{" ++ spaced (map (fun p => fst p ++ bs ":" ++ snd p) ls) ++ bs "}".
Theorem C85_text : forall e t, textEvent e = Ok t -> exists attrs, textAttributes (k_attrs e) = Ok attrs /\
  t = labelled [(bs "Name", k_name e); (bs "Category", formatInt (k_cat e)); (bs "ParamsNumber", formatInt (k_params e)); (bs "UserAttributes", attrs);
                (bs "Ctx", context e); (bs "Latency", formatInt (k_lat e)); (bs "Timestamp", formatInt (k_ts e))].
Proof.
  intros e t H. unfold EvtTextModel.textEvent in H. destruct (textAttributes (k_attrs e)) as [attrs| |] eqn:A; cbn [bind] in H; try discriminate H. injection H as <-.
  exists attrs. split; [reflexivity|]. unfold labelled, spaced, bs. cbn [map fst snd concat flat_map app list_ascii_of_string]. repeat first [rewrite <- app_assoc | progress cbn [app]]. reflexivity.
Qed.

(** The log does not change what the analyzers get: with the receiver's debugging messages off, and also with them on as long as every value has the bytes its
    type needs; then each event's text is in the log, in order. *)
Theorem C85_off : forall g m es, debugOf g = false -> sendAll g m es = Ok ([], consumeEvents m (map (fun e => (str (k_name e), e)) es)).
Proof.
  intros g m es D. induction es as [|e es IH]; [reflexivity|]. cbn [EvtTextModel.sendAll]. unfold sendLogged. rewrite D, IH. reflexivity.
Qed.
Theorem C85_on : forall g m es, debugOf g = true -> (forall e, In e es -> Forall (fun a => ka_type a <> 0 -> longEnough a) (k_attrs e)) ->
  exists ts, Forall2 (fun e t => textEvent e = Ok t) es ts /\
    sendAll g m es = Ok (map (fun t => bs "Event Output: " ++ t) ts, consumeEvents m (map (fun e => (str (k_name e), e)) es)).
Proof.
  intros g m es D. induction es as [|e es IH]; intros L; [exists []; split; [constructor|reflexivity]|].
  destruct IH as (ts & F & E); [intros x I; apply L; right; exact I|]. destruct (proj2 (C85_total e) (L e (or_introl eq_refl))) as (t & T).
  exists (t :: ts). split; [constructor; assumption|]. cbn [EvtTextModel.sendAll]. unfold sendLogged. rewrite D, T. cbn [bind]. rewrite E. reflexivity.
Qed.
(** When the receiver's messages are on: the level of one of the outputs is "debug", and nothing or the receiver is selected. *)
Theorem C85_when : forall v g, managerOf v = Ok g ->
  (debugOf g = true <-> (consoleLevel v = "debug" \/ fileLevel v = "debug") /\ (selected v = [] \/ In "cgoreceiver" (selected v))).
Proof.
  intros v g M. unfold managerOf in M. destruct (initLogger v) as [[]| |]; try discriminate M. cbn [bind] in M. injection M as <-. unfold debugOf, check.
  rewrite andb_true_iff, enable_wanted, and_comm. cbn [g_logger g_selector w_who w_level]. fold (consoleLevel v) (fileLevel v) (selected v). unfold wanted.
  assert (T : forall s, takes (Some (toLogLevel s)) Debug = true <-> s = "debug").
  { intros s. unfold toLogLevel. case_eqb s "debug"; [split; [intros _; exact E|reflexivity]|]. destruct (eqb s "info"); [split; [discriminate|congruence]|].
    destruct (eqb s "warn"); [split; [discriminate|congruence]|]. destruct (eqb s "error"); split; first [discriminate|congruence]. }
  assert (C : takes (l_console (cores (consoleLevel v) (fileLevel v))) Debug || takes (l_file (cores (consoleLevel v) (fileLevel v))) Debug = true <-> consoleLevel v = "debug" \/ fileLevel v = "debug").
  { unfold cores. case_eqb (consoleLevel v) "none"; case_eqb (fileLevel v) "none"; cbn [negb andb l_console l_file].
    - rewrite E, E0. split; [discriminate|intros [X|X]; discriminate X].
    - rewrite E. change (takes None Debug) with false. cbn [orb]. rewrite T. split; [right; assumption|intros [X|X]; [discriminate X|exact X]].
    - rewrite E0. change (takes None Debug) with false. rewrite orb_false_r, T. split; [left; assumption|intros [X|X]; [exact X|discriminate X]].
    - rewrite orb_true_iff, !T. reflexivity. }
  rewrite C. reflexivity.
Qed.
End Texts.
Print Assumptions C85_characters.
Print Assumptions C85_long.
Print Assumptions C85_printable.
Print Assumptions C85_numbers.
Print Assumptions C85_attributes.
Print Assumptions C85_total.
Print Assumptions C85_text.
Print Assumptions C85_off.
Print Assumptions C85_on.
Print Assumptions C85_when.

(** ** A case *)
Definition evt (attrs : list kattr) : kevent := {| k_ts := 5; k_name := bs "read"; k_cat := 6; k_params := zlen attrs; k_lat := 3; k_attrs := attrs;
  k_pid := 1; k_tid := 1; k_uid := 0; k_gid := 0; k_comm := []; k_cid := []; k_fd := 3; k_fdtype := 0; k_file := []; k_dir := []; k_proto := 1; k_role := true;
  k_sip := [0; 0; 0; 0]; k_dip := [0; 0; 0; 0]; k_sport := 1; k_dport := 2; k_src := 0; k_dst := 0 |}.
Definition exAttrs := [{| ka_key := bs "res"; ka_val := [255; 255; 255; 255; 255; 255; 255; 255]; ka_type := 4 |}; blank; {| ka_key := bs "data"; ka_val := [104; 195; 169; 10; 33]; ka_type := 10 |}].
Example C85_example : Forall (fun a => ka_type a <> 0 -> longEnough a) exAttrs /\ textAttributes (fun _ => []) exAttrs = Ok (bs "[res:-1 data:<h..!>]") /\
  flat_map utf8 [104; 233; 10; 33] = [104; 195; 169; 10; 33] /\ scalar 233.
Proof. split; [repeat constructor; intros _; vm_compute; lia|]. split; [reflexivity|]. split; [reflexivity|left; lia]. Qed.
Definition exDebug : LogModel.manager := {| g_logger := cores "debug" "none"; g_selector := ["cgoreceiver"] |}.
Definition exInfo : LogModel.manager := {| g_logger := cores "info" "none"; g_selector := ["cgoreceiver"] |}.
(** False: an event with a number of too few bytes, delivered otherwise, ends the collector when the receiver's debugging messages are on, though no analyzer reads that number. *)
Theorem C85_debug_refuted : forall float context m, exists c e, convertEvent c = Ok e /\
  sendAll float context exInfo m [e] = Ok ([], consumeEvents m [(str (k_name e), e)]) /\ sendAll float context exDebug m [e] = Panic.
Proof.
  intros float context m.
  exists {| c_ts := 5; c_name := Some [114; 0]; c_cat := 6; c_params := 1; c_lat := 3; c_attrs := [{| ca_key := Some [120; 0]; ca_val := Some [1; 2]; ca_len := 2; ca_type := 11 |}];
    c_pid := 1; c_tid := 1; c_uid := 0; c_gid := 0; c_comm := None; c_cid := None; c_fd := 3; c_fdtype := 0; c_file := None; c_dir := None; c_proto := 1; c_role := 1;
    c_sip := [0; 0; 0; 0]; c_dip := [0; 0; 0; 0]; c_sport := 1; c_dport := 2; c_src := 0; c_dst := 0 |}.
  eexists. split; [reflexivity|]. split; [apply C85_off; reflexivity|reflexivity].
Qed.
Print Assumptions C85_debug_refuted.
