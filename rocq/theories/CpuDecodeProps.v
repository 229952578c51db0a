(** C59: what the CPU analyzer stores is what the event says. *)
From Verif Require Import Base Decimal EventModel EventProps AttrModel PoolModel LabelNames EnrichModel RecordModel CpuModel TriggerModel CpuDecodeModel.
From Coq Require Import ZifyBool.
Open Scope string_scope. Open Scope list_scope. Open Scope Z_scope.

(** * Specification *)
Definition used (e : event) : list keyvalue := firstn (Z.to_nat (e_params e)) (e_attrs e).
(** The last attribute of a key. *)
Fixpoint lastAttr (key : string) (l : list keyvalue) : option keyvalue :=
  match l with [] => None | kv :: r => match lastAttr key r with Some x => Some x | None => if eqb (kv_key kv) key then Some kv else None end end.
(** The number of bytes of an unsigned attribute. *)
Definition width (t : vtype) : nat := match t with TUint8 => 1 | TUint16 => 2 | TUint32 => 4 | TUint64 => 8 | _ => 0 end%nat.
Definition littleEndian (b : bytes) : Z := fold_right (fun x a => x + 256 * a) 0 b.
Definition numberOf (o : option keyvalue) : Z := match o with Some kv => littleEndian (firstn (width (kv_type kv)) (kv_val kv)) | None => 0 end.
Definition textOf (o : option keyvalue) : bytes := match o with Some kv => kv_val kv | None => [] end.
Definition wordsOf (o : option keyvalue) : list Z := map (fun i => littleEndian (firstn 8 (skipn (8 * i) (textOf o)))) (seq 0 (List.length (textOf o) / 8)).
(** The times of a CPU event are long enough for their type. *)
Definition readable (l : list keyvalue) : Prop := forall kv, In kv l -> kv_key kv = "start_time" \/ kv_key kv = "end_time" -> (width (kv_type kv) <= List.length (kv_val kv))%nat.
Definition decoded (c : cpuEv) (l : list keyvalue) : Prop :=
  ce_start c = numberOf (lastAttr "start_time" l) /\ ce_end c = numberOf (lastAttr "end_time" l) /\ ce_specs c = wordsOf (lastAttr "time_specs" l) /\
  ce_runq c = wordsOf (lastAttr "runq_latency" l) /\ ce_types c = textOf (lastAttr "time_type" l) /\ ce_on c = textOf (lastAttr "on_info" l) /\
  ce_off c = textOf (lastAttr "off_info" l) /\ ce_log c = textOf (lastAttr "log" l) /\ ce_stack c = textOf (lastAttr "stack" l).

Definition tPid' (g : group) : Z := intOf (glabels g) LPid.

(** * Proofs *)
Lemma leValue_is n : forall b, (n <= List.length b)%nat -> leValue n b = Ok (littleEndian (firstn n b)).
Proof.
  induction n as [|n IH]; intros b L; [reflexivity|]. destruct b as [|x b]; [cbn in L; lia|]. cbn [leValue firstn littleEndian fold_right]. cbn [List.length] in L. rewrite IH by lia. reflexivity.
Qed.
Lemma uint_ok kv : (width (kv_type kv) <= List.length (kv_val kv))%nat -> getUintValue kv = Ok (numberOf (Some kv)).
Proof. intros L. unfold getUintValue. cbn [numberOf]. destruct (kv_type kv); cbn [width] in *; try reflexivity; apply leValue_is; exact L. Qed.
Lemma uint_short kv : (List.length (kv_val kv) < width (kv_type kv))%nat -> getUintValue kv = Panic.
Proof. intros L. unfold getUintValue. destruct (kv_type kv); cbn [width] in *; try lia; apply leValue_short; exact L. Qed.
Lemma skip_skip {A} m : forall n (l : list A), skipn n (skipn m l) = skipn (m + n) l.
Proof. induction m as [|m IH]; intros n l; [reflexivity|]. destruct l; cbn [skipn Nat.add]; [apply skipn_nil|apply IH]. Qed.
Lemma readWords_is n : forall b, (8 * n <= List.length b)%nat -> readWords n b = map (fun i => littleEndian (firstn 8 (skipn (8 * i) b))) (seq 0 n).
Proof.
  induction n as [|n IH]; intros b L; [reflexivity|]. cbn [readWords]. rewrite leValue_is by lia. cbn [seq map]. change (skipn (8 * 0) b) with b. f_equal.
  rewrite IH by (rewrite skipn_length; lia). rewrite <- seq_shift, map_map. apply map_ext. intros i. rewrite skip_skip. do 3 f_equal. lia.
Qed.
Lemma words_is kv : words (kv_val kv) = wordsOf (Some kv).
Proof. unfold words, wordsOf. cbn [textOf]. apply readWords_is. pose proof (Nat.mul_div_le (List.length (kv_val kv)) 8). lia. Qed.
Lemma lastAttr_snoc key l kv : lastAttr key (l ++ [kv]) = if eqb (kv_key kv) key then Some kv else lastAttr key l.
Proof.
  induction l as [|a l IH]; cbn [app lastAttr]; [destruct (eqb (kv_key kv) key); reflexivity|]. rewrite IH. destruct (eqb (kv_key kv) key); reflexivity.
Qed.
Lemma over_ind {A} (f : keyvalue -> A -> res A) (P : list keyvalue -> A -> Prop) :
  (forall l kv a a', P l a -> f kv a = Ok a' -> P (l ++ [kv]) a') ->
  forall n l pre a b, P pre a -> overAttrs f n l a = Ok b -> P (pre ++ firstn n l) b.
Proof.
  intros H. induction n as [|n IH]; intros l pre a b Hp E; cbn [overAttrs] in E.
  - inversion E; subst. cbn [firstn]. rewrite app_nil_r. exact Hp.
  - destruct l as [|kv l]; [discriminate E|]. cbn [firstn]. destruct (f kv a) as [a'| |] eqn:F; cbn [bind] in E; try discriminate E.
    replace (pre ++ kv :: firstn n l) with ((pre ++ [kv]) ++ firstn n l) by (rewrite <- app_assoc; reflexivity). apply (IH l _ a'); [apply (H pre kv a a' Hp F)|exact E].
Qed.
Lemma over_total {A} (f : keyvalue -> A -> res A) (ok : keyvalue -> Prop) : (forall kv a, ok kv -> exists a', f kv a = Ok a') ->
  forall n l a, (n <= List.length l)%nat -> (forall kv, In kv (firstn n l) -> ok kv) -> exists b, overAttrs f n l a = Ok b.
Proof.
  intros H. induction n as [|n IH]; intros l a L O; [exists a; reflexivity|]. destruct l as [|kv l]; [cbn in L; lia|]. cbn [firstn List.length] in *. cbn [overAttrs].
  destruct (H kv a (O kv (or_introl eq_refl))) as [a' E]. rewrite E. cbn [bind]. apply IH; [lia|]. intros kv' I. apply O. right. exact I.
Qed.
Ltac keyed := match goal with |- context [eqb ?a ?b] => let E := fresh "E" in destruct (eqb a b) eqn:E; [apply eqb_true in E|] end.
Lemma cpuAttr_ok kv c : (kv_key kv = "start_time" \/ kv_key kv = "end_time" -> (width (kv_type kv) <= List.length (kv_val kv))%nat) -> exists c', cpuAttr kv c = Ok c'.
Proof.
  intros H. unfold cpuAttr. keyed; [rewrite uint_ok by auto; cbn [bind]; eexists; reflexivity|]. keyed; [rewrite uint_ok by auto; cbn [bind]; eexists; reflexivity|].
  do 7 (keyed; [eexists; reflexivity|]). eexists. reflexivity.
Qed.
Lemma keys_ne a b k : eqb a b = true -> eqb b k = false -> eqb a k = false.
Proof. intros E. apply eqb_true in E. subst. auto. Qed.
Lemma cpuAttr_step l kv c c' : decoded c l -> (kv_key kv = "start_time" \/ kv_key kv = "end_time" -> (width (kv_type kv) <= List.length (kv_val kv))%nat) -> cpuAttr kv c = Ok c' -> decoded c' (l ++ [kv]).
Proof.
  intros D R. unfold decoded. rewrite !lastAttr_snoc. unfold cpuAttr.
  destruct D as (D1 & D2 & D3 & D4 & D5 & D6 & D7 & D8 & D9).
  repeat match goal with |- (if eqb (kv_key kv) ?k then _ else _) = _ -> _ => case_eqb (kv_key kv) k end; intros H;
    rewrite ?uint_ok in H by auto; cbn [bind] in H; inversion H; subst c'; clear H; cbn [ce_start ce_end ce_specs ce_runq ce_types ce_on ce_off ce_log ce_stack];
    repeat match goal with E : kv_key kv = _ |- _ => rewrite E; clear E end; rewrite ?words_is;
    repeat match goal with E : kv_key kv <> ?k |- _ => apply eqb_neq in E; rewrite ?E; clear E end; cbn [eqb Eqb_string]; repeat split; assumption || reflexivity.
Qed.

(** A CPU event whose times can be read is stored with the values of its attributes, the last one of each key counting; numbers are little
    endian, and the two arrays are the whole 8-byte words of their attributes. *)
Theorem C59_cpu e : e_params e <= zlen (e_attrs e) -> readable (used e) -> exists c, consumeCpu e = Ok c /\ decoded c (used e).
Proof.
  intros L R. unfold zlen in L. destruct (over_total cpuAttr (fun kv => kv_key kv = "start_time" \/ kv_key kv = "end_time" -> (width (kv_type kv) <= List.length (kv_val kv))%nat)
    cpuAttr_ok (Z.to_nat (e_params e)) (e_attrs e) cpuEv0) as [c E]; [lia|exact R|]. exists c. split; [exact E|].
  pose proof (over_ind cpuAttr (fun l c => readable l -> decoded c l)) as X.
  specialize (X ltac:(intros l kv a a' H F R'; apply (cpuAttr_step l kv a); [apply H; intros kv' I; apply R'; apply in_or_app; left; exact I|apply R'; apply in_or_app; right; left; reflexivity|exact F])).
  apply (X (Z.to_nat (e_params e)) (e_attrs e) [] cpuEv0 c); [intros _; repeat split|exact E|exact R].
Qed.
Print Assumptions C59_cpu.
(** It panics exactly if the event claims more attributes than the array holds or one of its times is cut short. *)
Theorem C59_cpu_panic e : consumeCpu e = Panic <-> zlen (e_attrs e) < Z.max 0 (e_params e) \/ ~ readable (used e).
Proof.
  assert (H : forall n l c, (List.length l < n)%nat \/ ~ readable (firstn n l) -> overAttrs cpuAttr n l c = Panic).
  { induction n as [|n IH]; intros l c [L|NR]; [lia|exfalso; apply NR; intros kv []| |].
    - destruct l as [|kv l]; [reflexivity|]. cbn [overAttrs]. cbn [List.length] in L.
      assert (T : (exists c', cpuAttr kv c = Ok c') \/ cpuAttr kv c = Panic).
      { destruct (le_lt_dec (width (kv_type kv)) (List.length (kv_val kv))) as [W|W]; [left; apply cpuAttr_ok; auto|].
        unfold cpuAttr. keyed; [right; rewrite uint_short by exact W; reflexivity|]. keyed; [right; rewrite uint_short by exact W; reflexivity|]. left. do 7 (keyed; [eexists; reflexivity|]). eexists. reflexivity. }
      destruct T as [[c' ->]| ->]; [|reflexivity]. cbn [bind]. apply IH. left. lia.
    - destruct l as [|kv l]; [reflexivity|]. cbn [overAttrs firstn] in *.
      destruct (le_lt_dec (width (kv_type kv)) (List.length (kv_val kv))) as [W|W].
      + destruct (cpuAttr_ok kv c) as [c' ->]; [auto|]. cbn [bind]. apply IH. right. intros R. apply NR. intros kv' [<-|I] K; [exact W|apply R; assumption].
      + destruct (eqb (kv_key kv) "start_time") eqn:E1; [unfold cpuAttr; rewrite E1, uint_short by exact W; reflexivity|].
        destruct (eqb (kv_key kv) "end_time") eqn:E2; [unfold cpuAttr; rewrite E1, E2, uint_short by exact W; reflexivity|].
        destruct (cpuAttr_ok kv c) as [c' ->]; [apply eqb_neq in E1; apply eqb_neq in E2; tauto|]. cbn [bind]. apply IH. right. intros R. apply NR. intros kv' [<-|I] K; [|apply R; assumption].
        apply eqb_neq in E1. apply eqb_neq in E2. tauto. }
  split.
  - intros P. destruct (Z_lt_dec (zlen (e_attrs e)) (Z.max 0 (e_params e))) as [L|L]; [left; exact L|right]. intros R. unfold zlen in L.
    destruct (over_total cpuAttr (fun kv => kv_key kv = "start_time" \/ kv_key kv = "end_time" -> (width (kv_type kv) <= List.length (kv_val kv))%nat)
      cpuAttr_ok (Z.to_nat (e_params e)) (e_attrs e) cpuEv0) as [c E]; [lia|exact R|]. unfold consumeCpu in P. congruence.
  - intros O. apply H. unfold zlen in O. destruct O as [O|O]; [left; lia|right; exact O].
Qed.
Print Assumptions C59_cpu_panic.

(** The times and numbers written by the probe are read back. *)
Lemma bytes_wordsOf kv vs rest : Forall (fun v => 0 <= v < 2 ^ 64) vs -> (List.length rest < 8)%nat -> kv_val kv = flat_map (leBytes 8) vs ++ rest -> wordsOf (Some kv) = vs.
Proof.
  intros F L E. rewrite <- words_is, E. clear E. unfold words.
  assert (Len : forall v, List.length (leBytes 8 v) = 8%nat) by (intros v; reflexivity).
  assert (N : (List.length (flat_map (leBytes 8) vs ++ rest) / 8)%nat = List.length vs).
  { rewrite app_length. assert (List.length (flat_map (leBytes 8) vs) = (List.length vs * 8)%nat) as ->.
    { clear. induction vs as [|v vs IH]; [reflexivity|]. cbn [flat_map]. rewrite app_length, IH. reflexivity. }
    rewrite Nat.div_add_l by lia. rewrite Nat.div_small by lia. lia. }
  rewrite N. clear N. induction F as [|v vs R F IH]; [reflexivity|]. cbn [List.length readWords flat_map]. rewrite <- app_assoc.
  rewrite le_roundtrip by (change (256 ^ Z.of_nat 8) with (2 ^ 64); exact R). f_equal. change (skipn 8 (leBytes 8 v ++ flat_map (leBytes 8) vs ++ rest)) with (flat_map (leBytes 8) vs ++ rest). exact IH.
Qed.
Theorem C59_roundtrip e st en sp rq ty oi oo lg sk :
  e_params e <= zlen (e_attrs e) -> readable (used e) -> 0 <= st < 2 ^ 64 -> 0 <= en < 2 ^ 64 -> Forall (fun v => 0 <= v < 2 ^ 64) sp -> Forall (fun v => 0 <= v < 2 ^ 64) rq ->
  (forall k t v, In (k, t, v) [("start_time", TUint64, leBytes 8 st); ("end_time", TUint64, leBytes 8 en); ("time_specs", TBytebuf, flat_map (leBytes 8) sp);
     ("runq_latency", TBytebuf, flat_map (leBytes 8) rq); ("time_type", TBytebuf, ty); ("on_info", TCharbuf, oi); ("off_info", TCharbuf, oo); ("log", TCharbuf, lg); ("stack", TCharbuf, sk)] ->
     lastAttr k (used e) = Some {| kv_key := k; kv_type := t; kv_val := v |}) ->
  consumeCpu e = Ok {| ce_start := st; ce_end := en; ce_specs := sp; ce_runq := rq; ce_types := ty; ce_on := oi; ce_off := oo; ce_log := lg; ce_stack := sk |}.
Proof.
  intros L R Rs Re Fs Fr H. destruct (C59_cpu e L R) as (c & -> & D). f_equal. destruct D as (D1 & D2 & D3 & D4 & D5 & D6 & D7 & D8 & D9).
  rewrite (H _ _ _ (or_introl eq_refl)) in D1. rewrite (H _ _ _ (or_intror (or_introl eq_refl))) in D2.
  rewrite (H "time_specs" TBytebuf _ ltac:(cbn; tauto)) in D3. rewrite (H "runq_latency" TBytebuf _ ltac:(cbn; tauto)) in D4.
  rewrite (H "time_type" TBytebuf _ ltac:(cbn; tauto)) in D5. rewrite (H "on_info" TCharbuf _ ltac:(cbn; tauto)) in D6.
  rewrite (H "off_info" TCharbuf _ ltac:(cbn; tauto)) in D7. rewrite (H "log" TCharbuf _ ltac:(cbn; tauto)) in D8. rewrite (H "stack" TCharbuf _ ltac:(cbn; tauto)) in D9.
  assert (N : forall k v, 0 <= v < 2 ^ 64 -> numberOf (Some {| kv_key := k; kv_type := TUint64; kv_val := leBytes 8 v |}) = v).
  { intros k v B. assert (X : leValue 8 (leBytes 8 v ++ []) = Ok v) by (apply le_roundtrip; change (256 ^ Z.of_nat 8) with (2 ^ 64); exact B). rewrite app_nil_r, leValue_is in X by (cbn; lia). cbn [numberOf kv_type kv_val width]. congruence. }
  rewrite N in D1 by exact Rs. rewrite N in D2 by exact Re.
  rewrite (bytes_wordsOf _ sp [] Fs ltac:(cbn; lia)) in D3 by (symmetry; apply app_nil_r). rewrite (bytes_wordsOf _ rq [] Fr ltac:(cbn; lia)) in D4 by (symmetry; apply app_nil_r).
  destruct c; cbn in *; subst; reflexivity.
Qed.
Print Assumptions C59_roundtrip.

(** Lock and span events: their start is the time of the event; their end is written in decimal. *)
Definition decimalOf (o : option keyvalue) (n : Z) : Prop := forall kv m, o = Some kv -> kv_val kv = digits m -> 0 <= m < 2 ^ 64 -> n = m.
Lemma textEv_spec f e (Hf : f = futexAttr \/ f = spanAttr) : e_params e <= zlen (e_attrs e) ->
  exists c, overAttrs f (Z.to_nat (e_params e)) (e_attrs e) {| te_start := e_ts e; te_end := 0; te_id := []; te_name := [] |} = Ok c /\ te_start c = e_ts e /\
    decimalOf (lastAttr "end_time" (used e)) (te_end c) /\ (lastAttr "end_time" (used e) = None -> te_end c = 0) /\
    (f = spanAttr -> te_id c = textOf (lastAttr "trace_id" (used e)) /\ te_name c = textOf (lastAttr "span" (used e))) /\
    (f = futexAttr -> te_name c = textOf (lastAttr "data" (used e))).
Proof.
  intros L. unfold zlen in L. destruct (over_total f (fun _ => True)) with (n := Z.to_nat (e_params e)) (l := e_attrs e) (a := {| te_start := e_ts e; te_end := 0; te_id := []; te_name := [] |}) as [c E].
  - intros kv a _. destruct Hf as [-> | ->]; unfold futexAttr, spanAttr; repeat (keyed; [eexists; reflexivity|]); eexists; reflexivity.
  - lia.
  - intros kv _. exact I.
  - exists c. split; [exact E|].
    apply (over_ind f (fun l c => te_start c = e_ts e /\ decimalOf (lastAttr "end_time" l) (te_end c) /\ (lastAttr "end_time" l = None -> te_end c = 0) /\
      (f = spanAttr -> te_id c = textOf (lastAttr "trace_id" l) /\ te_name c = textOf (lastAttr "span" l)) /\ (f = futexAttr -> te_name c = textOf (lastAttr "data" l)))) with (pre := []) in E; [exact E| |].
    + clear E. intros l kv a a' (H1 & H2 & H3 & H4 & H5) F. rewrite !lastAttr_snoc.
      assert (P : decimalOf (Some kv) (fst (parseUint 64 (kv_val kv)))) by (intros kv' m E' V B; inversion E'; subst; rewrite V, parseUint_digits by exact B; reflexivity).
      destruct Hf as [-> | ->]; unfold futexAttr, spanAttr in F.
      * case_eqb (kv_key kv) "end_time"; [rewrite E in *; cbn [eqb Eqb_string] in *|].
        { inversion F; subst; clear F. cbn. split; [exact H1|]. split; [exact P|]. split; [discriminate|]. split; [|intros X; exact (H5 X)].
          intros X. exfalso. apply (f_equal (fun g => g {| kv_key := "span"; kv_type := TNone; kv_val := [1] |} {| te_start := 0; te_end := 0; te_id := []; te_name := [] |})) in X. discriminate X. }
        assert (SP : futexAttr = spanAttr -> False) by (intros X; apply (f_equal (fun g => g {| kv_key := "span"; kv_type := TNone; kv_val := [1] |} {| te_start := 0; te_end := 0; te_id := []; te_name := [] |})) in X; discriminate X).
        case_eqb (kv_key kv) "data"; inversion F; subst; clear F; cbn [te_start te_end te_id te_name]; (split; [exact H1|]); (split; [exact H2|]); (split; [exact H3|]); (split; [intros X; destruct (SP X)|]); intros X; [reflexivity|apply H5; exact X].
      * assert (SP : spanAttr = futexAttr -> False) by (intros X; apply (f_equal (fun g => g {| kv_key := "span"; kv_type := TNone; kv_val := [1] |} {| te_start := 0; te_end := 0; te_id := []; te_name := [] |})) in X; discriminate X).
        case_eqb (kv_key kv) "end_time"; [rewrite E in *; cbn [eqb Eqb_string] in *|].
        { inversion F; subst; clear F. cbn. split; [exact H1|]. split; [exact P|]. split; [discriminate|]. split; [intros X; exact (H4 X)|intros X; destruct (SP X)]. }
        case_eqb (kv_key kv) "trace_id"; [rewrite E0 in *; cbn in F|].
        { inversion F; subst; clear F. cbn. split; [exact H1|]. split; [exact H2|]. split; [exact H3|]. split; [intros X; split; [reflexivity|apply (H4 X)]|intros X; destruct (SP X)]. }
        case_eqb (kv_key kv) "span"; inversion F; subst; clear F; cbn [te_start te_end te_id te_name]; (split; [exact H1|]); (split; [exact H2|]); (split; [exact H3|]); (split; [intros X; split; try apply (H4 X); reflexivity|intros X; destruct (SP X)]).
    + cbn. repeat split. intros kv m X. discriminate X.
Qed.
Theorem C59_futex e : e_params e <= zlen (e_attrs e) -> exists c, consumeFutex e = Ok c /\ te_start c = e_ts e /\
  decimalOf (lastAttr "end_time" (used e)) (te_end c) /\ (lastAttr "end_time" (used e) = None -> te_end c = 0) /\ te_name c = textOf (lastAttr "data" (used e)).
Proof. intros L. destruct (textEv_spec futexAttr e (or_introl eq_refl) L) as (c & A & B & C & D & _ & F). exists c. auto 6. Qed.
Print Assumptions C59_futex.
Theorem C59_span e : e_params e <= zlen (e_attrs e) -> exists c, consumeSpan e = Ok c /\ te_start c = e_ts e /\
  decimalOf (lastAttr "end_time" (used e)) (te_end c) /\ (lastAttr "end_time" (used e) = None -> te_end c = 0) /\
  te_id c = textOf (lastAttr "trace_id" (used e)) /\ te_name c = textOf (lastAttr "span" (used e)).
Proof. intros L. destruct (textEv_spec spanAttr e (or_intror eq_refl) L) as (c & A & B & C & D & F & _). destruct (F eq_refl). exists c. auto 7. Qed.
Print Assumptions C59_span.

(** Transaction events: the first attribute of each key counts. *)
Definition firstAttr (key : string) (l : list keyvalue) : option keyvalue := find (fun kv => eqb (kv_key kv) key) l.
Lemma first_attr e key : getStringUserAttribute e key = textOf (firstAttr key (used e)).
Proof.
  unfold getStringUserAttribute, getUserAttribute, used, firstAttr. destruct (e_params e =? 0) eqn:Z0; [replace (Z.to_nat (e_params e)) with 0%nat by lia; reflexivity|].
  assert (X : forall n l, findAttr n l key = find (fun kv => eqb (kv_key kv) key) (firstn n l)).
  { induction n as [|n IH]; intros [|a l]; try reflexivity. cbn [findAttr firstn find]. rewrite IH. reflexivity. }
  rewrite X. destruct (find _ _); reflexivity.
Qed.
Theorem C59_transaction e : let j := consumeTransaction e in
  j_ts j = e_ts e /\ j_pid j = e_pid e /\ j_tid j = textOf (firstAttr "trace_id" (used e)) /\ j_proto j = textOf (firstAttr "protocol" (used e)) /\
  j_url j = textOf (firstAttr "url" (used e)) /\ j_cid j = bs (e_cid e) /\
  forall n, 0 <= n < 2 ^ 32 -> textOf (firstAttr "is_enter" (used e)) = digits n -> j_entry j = n.
Proof.
  cbv zeta. unfold consumeTransaction. rewrite !first_attr. repeat (split; [reflexivity|]). cbn [j_entry]. intros n R E. rewrite E, parseUint_digits by exact R. unfold w32. apply Z.mod_small. exact R.
Qed.
Print Assumptions C59_transaction.

(** What an event makes the analyzer do: an event of a known kind is put, with its times, in the ring of its own process and thread, an exit
    marks the thread, and anything else does nothing. *)
Theorem C59_events ser e now ops o : consumeEvent ser e now = Ok ops -> In o ops ->
  match o with
  | OPut pid tid nm t => pid = e_pid e /\ tid = e_tid e /\ nm = bs (e_comm e) /\
      match t_kind t with
      | KCpu => e_name e = "cpu_event" /\ exists c, consumeCpu e = Ok c /\ t = timedEvent ser (SCpu c) /\ t_start t = ce_start c /\ t_end t = ce_end c
      | KFutex => e_name e = "java_futex_info" /\ exists c, consumeFutex e = Ok c /\ t = timedEvent ser (SFutex c) /\ t_start t = te_start c /\ t_end t = te_end c
      | KSpan => e_name e = "apm_span_event" /\ exists c, consumeSpan e = Ok c /\ t = timedEvent ser (SSpan c) /\ t_start t = te_start c /\ t_end t = te_end c
      | KTransaction => e_name e = "apm_trace_id_event" /\ t = timedEvent ser (STransaction (consumeTransaction e)) /\ t_start t = e_ts e /\ t_end t = e_ts e
      | KInner => False
      end
  | OExit pid tid t => e_name e = "procexit" /\ pid = e_pid e /\ tid = e_tid e /\ t = now
  | _ => False
  end.
Proof.
  unfold consumeEvent. intros H I.
  destruct (eqb (e_name e) "cpu_event") eqn:E1; [apply eqb_true in E1; destruct (consumeCpu e) as [c| |] eqn:C; cbn [bind] in H; inversion H; subst ops; destruct I as [<-|[]]; cbn; repeat (split; [reflexivity || exact E1|]); exists c; auto|].
  destruct (eqb (e_name e) "java_futex_info") eqn:E2; [apply eqb_true in E2; destruct (consumeFutex e) as [c| |] eqn:C; cbn [bind] in H; inversion H; subst ops; destruct I as [<-|[]]; cbn; repeat (split; [reflexivity || exact E2|]); exists c; auto|].
  destruct (eqb (e_name e) "apm_trace_id_event") eqn:E3; [apply eqb_true in E3; inversion H; subst ops; destruct I as [<-|[]]; cbn; auto 8|].
  destruct (eqb (e_name e) "procexit") eqn:E4; [apply eqb_true in E4; inversion H; subst ops; destruct I as [<-|[]]; auto|].
  destruct (eqb (e_name e) SpanGroup) eqn:E5; [apply eqb_true in E5; destruct (consumeSpan e) as [c| |] eqn:C; cbn [bind] in H; inversion H; subst ops; destruct I as [<-|[]]; cbn; repeat (split; [reflexivity || exact E5|]); exists c; auto|].
  inversion H; subst ops. destruct I.
Qed.
Print Assumptions C59_events.
(** None of them is lost: a readable event of a known kind always gives one. *)
Theorem C59_not_lost ser e now : e_params e <= zlen (e_attrs e) -> readable (used e) ->
  In (e_name e) ["cpu_event"; "java_futex_info"; "apm_trace_id_event"; "procexit"; "apm_span_event"] -> exists o, consumeEvent ser e now = Ok [o].
Proof.
  intros L R I. destruct (C59_cpu e L R) as (c & C & _). destruct (C59_futex e L) as (f & F & _). destruct (C59_span e L) as (s & S & _).
  destruct I as [I|[I|[I|[I|[I|[]]]]]]; unfold consumeEvent; rewrite <- I; cbn [eqb Eqb_string String.eqb Ascii.eqb Bool.eqb]; rewrite ?C, ?F, ?S; eexists; reflexivity.
Qed.
Print Assumptions C59_not_lost.
(** The call of another service that a client-side slow trace describes is put in the ring of the thread that sent the request. *)
Theorem C59_inner_call ser g v : 0 <= tPid' g < 2 ^ 32 -> 0 <= intOf (glabels g) LRequestTid < 2 ^ 32 -> 0 <= v -> 0 <= gts g -> gts g + v < 2 ^ 64 ->
  getMetric g RequestTotalTime = Some (MInt v) ->
  consumeTrace ser g = Ok [OPut (tPid' g) (intOf (glabels g) LRequestTid) (strOf (glabels g) LComm)
    {| t_kind := KInner; t_start := gts g; t_end := gts g + v; t_data := ser (SInner (gts g) (gts g + v) g) |}].
Proof.
  intros P T V G S M. unfold consumeTrace, tPid' in *. rewrite M. unfold w32, w64. rewrite !(Z.mod_small v) by lia. rewrite !Z.mod_small by lia. reflexivity.
Qed.
Print Assumptions C59_inner_call.

Definition cpuExample (l : list keyvalue) : event :=
  {| e_name := "cpu_event"; e_ts := 5; e_lat := 0; e_net := false; e_params := Z.of_nat (List.length l); e_attrs := l; e_pid := 7; e_tid := 8; e_comm := "java"; e_cid := "";
     e_fd := 0; e_proto := L4Unknown; e_role := false; e_sip := []; e_dip := []; e_sport := 0; e_dport := 0 |}.
Definition kv (k : string) (t : vtype) (v : bytes) : keyvalue := {| kv_key := k; kv_type := t; kv_val := v |}.
Example C59_example : let e := cpuExample [kv "start_time" TUint64 (leBytes 8 1234); kv "end_time" TUint64 (leBytes 8 99999); kv "x" TNone []; kv "time_specs" TBytebuf (flat_map (leBytes 8) [1; 70000] ++ [3]);
    kv "time_type" TBytebuf [0; 2]; kv "stack" TCharbuf (bs "main")] in
  readable (used e) /\ consumeCpu e = Ok {| ce_start := 1234; ce_end := 99999; ce_specs := [1; 70000]; ce_runq := []; ce_types := [0; 2]; ce_on := []; ce_off := []; ce_log := []; ce_stack := bs "main" |}.
Proof.
  cbv zeta. split; [|vm_compute; reflexivity]. intros k I K. unfold used in I. cbn in I. repeat (destruct I as [<-|I]; [cbn; lia|]). destruct I.
Qed.
