(** C83: the configuration file. *)
From Verif Require Import Base LifeModel LifeSpec LifeProps ConfModel ConfSpec.
From Verif Require SampleModel SampleProps PoolModel.
Open Scope string_scope. Open Scope list_scope. Open Scope Z_scope.

Section Odd.
Variable odd : ty -> val -> doc -> val * bool.

Lemma fields_aget f m fs : forall cs n t, map fst fs = map fst cs -> NoDup (map fst fs) -> In (n, t) fs ->
  exists c, aget cs n = Some c /\
  aget (map (fun r => (fst r, fst (snd r))) (fields f m fs cs)) n = Some (match look m n with Some d => fst (f t c d) | None => c end).
Proof.
  induction fs as [|[n0 t0] fs IH]; intros [|[n1 c1] cs] n t E ND I; cbn [map fst In] in *; try discriminate; try (destruct I; fail).
  injection E as -> E. inversion ND as [|? ? NI ND']; subst. cbn [aget fields map fst snd].
  destruct I as [I|I].
  - injection I as -> ->. rewrite eqb_refl. exists c1. split; [reflexivity|]. f_equal. destruct (look m n); reflexivity.
  - case_eqb n n1.
    + subst n1. exfalso. apply NI. apply in_map_iff. exists (n, t). split; [reflexivity|exact I].
    + exact (IH cs n t E ND' I).
Qed.
Lemma decode_struct fs cs m n t : map fst fs = map fst cs -> NoDup (map fst fs) -> In (n, t) fs ->
  field n (fst (decode odd (TStruct fs) (VStruct cs) (DMap m))) =
  match look m n with Some d => fst (decode odd t (field n (VStruct cs)) d) | None => field n (VStruct cs) end.
Proof.
  intros E ND I. destruct (fields_aget (decode odd) m fs cs n t E ND I) as (c & G & G'). cbn [decode fst field]. rewrite G', G. reflexivity.
Qed.
Lemma zero_struct fs : zero (TStruct fs) = VStruct (map (fun p => (fst p, zero (snd p))) fs).
Proof. cbn [zero]. f_equal. induction fs as [|[n t] fs IH]; [reflexivity|]. cbn [map fst snd]. rewrite IH. reflexivity. Qed.
Lemma field_zero fs n t : NoDup (map fst fs) -> In (n, t) fs -> field n (zero (TStruct fs)) = zero t.
Proof.
  intros ND I. rewrite zero_struct. cbn [field]. induction fs as [|[n0 t0] fs IH]; [destruct I|]. cbn [map fst snd aget]. cbn [map fst] in ND. inversion ND; subst.
  destruct I as [I|I].
  - injection I as -> ->. rewrite eqb_refl. reflexivity.
  - case_eqb n n0; [|exact (IH H2 I)]. subst n0. exfalso. apply H1. apply in_map_iff. exists (n, t). split; [reflexivity|exact I].
Qed.
Lemma unset_zero t : plain t -> zero t = unset t.
Proof. destruct t; cbn; intros H; try reflexivity. destruct H. Qed.
Lemma says_decode t d v cur : says t d v -> decode odd t cur d = (v, true).
Proof.
  intros S. destruct S; try reflexivity; cbn [decode].
  - do 2 f_equal. unfold w32. apply Z.mod_small. assumption.
  - rewrite !map_map. cbn [decode zero fst snd]. f_equal.
    + f_equal. apply map_ext_in. intros n I. f_equal. unfold w32. apply Z.mod_small. rewrite Forall_forall in H. exact (H n I).
    + clear H. induction l; [reflexivity|]. cbn [map forallb snd]. exact IHl.
  - rewrite !map_map. cbn [decode zero fst snd]. f_equal. induction l; [reflexivity|]. cbn [map forallb snd]. exact IHl.
  - rewrite !map_map. cbn [decode zero fst snd]. f_equal.
    + f_equal. induction l as [|[a b] l IH]; [reflexivity|]. cbn [map flat_map fst snd app]. f_equal. exact IH.
    + induction l as [|[a b] l IH]; [reflexivity|]. cbn [map forallb fst snd andb]. exact IH.
Qed.

Lemma decode_list t cur es : fst (decode odd (TList t) cur (DList es)) = VList (map (fun d => fst (decode odd t (zero t) d)) es).
Proof. transitivity (VList (map fst (map (decode odd t (zero t)) es))); [reflexivity|]. rewrite map_map. reflexivity. Qed.

(** The registered components are well formed *)
Definition shaped (k : component) : Prop := exists fs cs, k_ty k = TStruct fs /\ k_default k = VStruct cs /\ map fst fs = map fst cs /\ NoDup (map fst fs).
Lemma nodup_dec (l : list string) : (fix nd l := match l with [] => true | x :: l' => negb (existsb (eqb x) l') && nd l' end) l = true -> NoDup l.
Proof.
  induction l as [|x l IH]; [constructor|]. intros H. apply andb_true_iff in H. destruct H as (H & H'). constructor; [|exact (IH H')].
  intros I. assert (X : existsb (eqb x) l = true). { apply existsb_exists. exists x. split; [exact I|apply eqb_refl]. } rewrite X in H. discriminate H.
Qed.
Lemma registered_shaped k : In k registered -> shaped k.
Proof.
  intros I. repeat (destruct I as [<-|I]; [eexists; eexists; split; [reflexivity|]; split; [reflexivity|]; split; [reflexivity|apply nodup_dec; reflexivity]|]). destruct I.
Qed.

(** An option that the file gives has the given value; one that the section leaves out has its default; but when the whole section is left out
    (or is empty), every option is unset, whatever its default. *)
Theorem C83_option : forall text_ k n t, In k registered -> In (n, t) (options k) ->
  let v := field n (fst (construct odd (lowerKeys text_) k)) in
  (forall m d x, section text_ k = DMap m -> look m n = Some d -> says t d x -> v = x) /\
  (forall m, section text_ k = DMap m -> look m n = None -> v = field n (k_default k)) /\
  (section text_ k = DNull -> plain t -> v = unset t).
Proof.
  intros text_ k n t I In_ v. destruct (registered_shaped k I) as (fs & cs & T & D & E & ND). unfold options in In_. rewrite T in In_.
  unfold v, construct. unfold section in *. rewrite T, D. repeat split.
  - intros m d x -> L S. rewrite (decode_struct fs cs m n t E ND In_), L, (says_decode t d x _ S). reflexivity.
  - intros m -> L. rewrite (decode_struct fs cs m n t E ND In_), L. reflexivity.
  - intros -> P. change (field n (zero (TStruct fs)) = unset t). rewrite (field_zero fs n t ND In_). exact (unset_zero t P).
Qed.

(** The documented defaults hold in every file whose section says something else. *)
Theorem C83_defaults : forall text_ k n v m, In (k, n, v) documented -> section text_ k = DMap m -> look m n = None ->
  field n (fst (construct odd (lowerKeys text_) k)) = v.
Proof.
  intros text_ k n v m I S L.
  assert (X : In k registered /\ (exists t, In (n, t) (options k)) /\ field n (k_default k) = v).
  { unfold documented in I. repeat (destruct I as [I|I]; [injection I as <- <- <-; split; [cbn; tauto|]; split; [eexists; cbn; tauto|reflexivity]|]). destruct I. }
  destruct X as (R & (t & O) & <-). destruct (C83_option text_ k n t R O) as (_ & D & _). exact (D m S L).
Qed.

(** A section inside a section (such as sampling_rate): left out, it has its default; given, its options are those given, and the others are unset. *)
Theorem C83_nested : forall text_ k n fs m m', In k registered -> In (n, TPtr (TStruct fs)) (options k) -> section text_ k = DMap m -> look m n = Some (DMap m') ->
  NoDup (map fst fs) -> (forall n' t', In (n', t') fs -> plain t' /\ match look m' n' with Some d => exists x, says t' d x | None => True end) ->
  exists w, field n (fst (construct odd (lowerKeys text_) k)) = VPtr w /\
  forall n' t', In (n', t') fs -> (forall d x, look m' n' = Some d -> says t' d x -> field n' w = x) /\ (look m' n' = None -> field n' w = unset t').
Proof.
  intros text_ k n fs m m' I In_ S L ND W. destruct (registered_shaped k I) as (gs & cs & T & D & E & ND'). unfold options in In_. rewrite T in In_.
  unfold construct. unfold section in S. rewrite T, D, S, (decode_struct gs cs m n _ E ND' In_), L.
  set (z := VStruct (map (fun p => (fst p, zero (snd p))) fs)).
  assert (E' : map fst fs = map fst (map (fun p => (fst p, zero (snd p))) fs)). { rewrite map_map. reflexivity. }
  assert (OK : snd (decode odd (TStruct fs) z (DMap m')) = true).
  { unfold z. cbn [decode snd]. clear z ND E' In_. induction fs as [|[a b] fs IH]; [reflexivity|]. cbn [map fst snd fields forallb].
    apply andb_true_iff. split.
    - destruct (W a b (or_introl eq_refl)) as (_ & H). destruct (look m' a) as [d|]; [|reflexivity]. destruct H as (x & H). rewrite (says_decode b d x _ H). reflexivity.
    - apply IH. intros a' b' I'. apply W. right. exact I'. }
  exists (fst (decode odd (TStruct fs) z (DMap m'))). split.
  - cbn [decode]. rewrite zero_struct. fold z. cbn [decode] in OK. unfold z in OK |- *. rewrite OK. reflexivity.
  - intros n' t' I'. destruct (W n' t' I') as (P & _). unfold z. rewrite (decode_struct fs _ m' n' t' E' ND I'). split.
    + intros d x -> H. rewrite (says_decode t' d x _ H). reflexivity.
    + intros ->. pose proof (field_zero fs n' t' ND I') as F. rewrite zero_struct in F. rewrite F. exact (unset_zero t' P).
Qed.

(** The entries of a list of sections (such as protocol_config): as many as the file gives, in its order, each with the options given, and the others unset; a list
    that is given replaces the default one. *)
Theorem C83_listed : forall text_ k n fs m es, In k registered -> In (n, TList (TStruct fs)) (options k) -> NoDup (map fst fs) ->
  section text_ k = DMap m -> look m n = Some (DList es) ->
  exists ws, field n (fst (construct odd (lowerKeys text_) k)) = VList ws /\ List.length ws = List.length es /\
  forall i m' n' t', nth_error es i = Some (DMap m') -> In (n', t') fs -> plain t' -> exists w, nth_error ws i = Some w /\
    (forall d x, look m' n' = Some d -> says t' d x -> field n' w = x) /\ (look m' n' = None -> field n' w = unset t').
Proof.
  intros text_ k n fs m es I In_ ND S L. destruct (registered_shaped k I) as (gs & cs & T & D & E & ND'). unfold options in In_. rewrite T in In_.
  unfold construct. unfold section in S. rewrite T, D, S, (decode_struct gs cs m n _ E ND' In_), L, decode_list.
  eexists. split; [reflexivity|]. rewrite map_length. split; [reflexivity|]. intros i m' n' t' N I' P. eexists. split.
  { erewrite map_nth_error; [reflexivity|exact N]. }
  rewrite zero_struct. assert (E' : map fst fs = map fst (map (fun p => (fst p, zero (snd p))) fs)). { rewrite map_map. reflexivity. }
  rewrite (decode_struct fs _ m' n' t' E' ND I'). split.
  - intros d x -> H. rewrite (says_decode t' d x _ H). reflexivity.
  - intros ->. pose proof (field_zero fs n' t' ND I') as F. rewrite zero_struct in F. rewrite F. exact (unset_zero t' P).
Qed.
(** False: a port number that is none is not refused: 80 + 2^32 silently becomes 80, and -1 becomes 4294967295. *)
Theorem C83_port_refuted : forall text_ m es i m' ps, section text_ networkanalyzer = DMap m -> look m "protocol_config" = Some (DList es) ->
  nth_error es i = Some (DMap m') -> look m' "ports" = Some (DList (map DInt ps)) ->
  snd (decode odd (TList TUint) VNil (DList (map DInt ps))) = true /\
  exists ws w, field "protocol_config" (fst (construct odd (lowerKeys text_) networkanalyzer)) = VList ws /\ nth_error ws i = Some w /\
    field "ports" w = VList (map (fun n => VInt (n mod 2 ^ 32)) ps).
Proof.
  intros text_ m es i m' ps S L N P.
  assert (Dec : forall cur, decode odd (TList TUint) cur (DList (map DInt ps)) = (VList (map (fun n => VInt (n mod 2 ^ 32)) ps), true)).
  { intros cur. cbn [decode]. rewrite !map_map. cbn [decode zero fst snd]. f_equal. clear P. induction ps; [reflexivity|]. cbn [map forallb snd]. exact IHps. }
  split; [rewrite Dec; reflexivity|].
  destruct (registered_shaped networkanalyzer ltac:(cbn; tauto)) as (gs & cs & T & D & E & ND').
  assert (In_ : In ("protocol_config", TList ProtocolConfig) gs). { injection T as <-. cbn. tauto. }
  unfold construct. unfold section in S. rewrite T, D, S, (decode_struct gs cs m "protocol_config" _ E ND' In_), L, decode_list.
  eexists; eexists. split; [reflexivity|]. split. { erewrite map_nth_error; [reflexivity|exact N]. }
  unfold ProtocolConfig. rewrite zero_struct. rewrite (decode_struct _ _ m' "ports" (TList TUint)); [|reflexivity|apply nodup_dec; reflexivity|cbn; tauto].
  rewrite P, Dec. reflexivity.
Qed.

(** What the collector comes up with is what the file says: each setting is the option of its own section, as given or by default. *)
Theorem C83_settings : forall text_ k n,
  (forall f, In (k, n, f) numbers -> VInt (f (confOf odd (lowerKeys text_))) = field n (fst (construct odd (lowerKeys text_) k)) \/
     forall x, field n (fst (construct odd (lowerKeys text_) k)) <> VInt x) /\
  (forall f m x, In (k, n, f) numbers -> section text_ k = DMap m -> look m n = Some (DInt x) -> f (confOf odd (lowerKeys text_)) = x) /\
  (forall f m x, In (k, n, f) switches -> section text_ k = DMap m -> look m n = Some (DBool x) -> f (confOf odd (lowerKeys text_)) = x) /\
  (forall f m x, In (k, n, f) names -> section text_ k = DMap m -> look m n = Some (DStr x) -> f (confOf odd (lowerKeys text_)) = x).
Proof.
  intros text_ k n. repeat split.
  - intros f I. repeat (destruct I as [I|I]; [injection I as <- <- <-|]); [..|destruct I].
    all: cbn [confOf c_netChan c_connChan c_connWait c_infoInterval c_aggInterval]; cbv zeta.
    all: match goal with |- VInt (int ?v) = _ \/ _ => destruct v eqn:V; cbn [int]; try (right; congruence); left; reflexivity end.
  - intros f m x I S L. repeat (destruct I as [I|I]; [injection I as <- <- <-|]); [..|destruct I].
    all: cbn [confOf c_netChan c_connChan c_connWait c_infoInterval c_aggInterval]; cbv zeta.
    all: match goal with |- int (field ?n (fst (construct odd _ ?k))) = _ =>
           let R := fresh in assert (R : In k registered) by (cbn; tauto);
           let O := fresh in assert (O : In (n, TInt) (options k)) by (cbn; tauto);
           rewrite (proj1 (C83_option text_ k n TInt R O) m _ _ S L (says_number x)); reflexivity end.
  - intros f m x I S L. repeat (destruct I as [I|I]; [injection I as <- <- <-|]); [..|destruct I].
    all: cbn [confOf c_conntrack c_k8s]; cbv zeta.
    all: match goal with |- boolean (field ?n (fst (construct odd _ ?k))) = _ =>
           let R := fresh in assert (R : In k registered) by (cbn; tauto);
           let O := fresh in assert (O : In (n, TBool) (options k)) by (cbn; tauto);
           rewrite (proj1 (C83_option text_ k n TBool R O) m _ _ S L (says_switch x)); reflexivity end.
  - intros f m x I S L. repeat (destruct I as [I|I]; [injection I as <- <- <-|]); [..|destruct I].
    all: cbn [confOf c_kind c_storage]; cbv zeta.
    all: match goal with |- ConfModel.text (field ?n (fst (construct odd _ ?k))) = _ =>
           let R := fresh in assert (R : In k registered) by (cbn; tauto);
           let O := fresh in assert (O : In (n, TStr) (options k)) by (cbn; tauto);
           rewrite (proj1 (C83_option text_ k n TStr R O) m _ _ S L (says_text x)); reflexivity end.
Qed.

(** What comes up: the log and the collector's own metrics are complete, no option has a value that cannot be read, and the configuration is one to start with. *)
Theorem C83_starts : forall made text_ e, sane (confOf odd (lowerKeys text_)) ->
  ((exists b, startFile odd made text_ e = Ok b) <->
   logComplete (loggerOf odd (lowerKeys text_)) /\ selfComplete made (selfOf odd (lowerKeys text_)) /\
   (forall k, In k registered -> snd (construct odd (lowerKeys text_) k) = true) /\ wellFormed (confOf odd (lowerKeys text_)) e).
Proof.
  intros made text_ e S. unfold startFile. set (file := lowerKeys text_) in *. cbv zeta.
  assert (L : initLogger (loggerOf odd file) = Ok tt <-> logComplete (loggerOf odd file)).
  { unfold initLogger, logComplete. case_eqb (text (field "file_level" (loggerOf odd file))) "none".
    - split; [left; assumption|reflexivity].
    - unfold deref. destruct (field "file_rotation" (loggerOf odd file)); (split; [first [discriminate|eauto]|first [reflexivity|intros [?|(r & ?)]; [contradiction|discriminate]]]). }
  assert (M : initSelf made (selfOf odd file) = Ok tt <-> selfComplete made (selfOf odd file)).
  { unfold initSelf, selfComplete. cbv zeta. set (kind := text (field "export_kind" (selfOf odd file))).
    assert (P : forall p, pushSelf made p = Ok tt <-> exists s, p = VPtr s /\ (made = true -> 0 < int (field "collect_period" s))).
    { intros p. unfold pushSelf, deref, newTicker. destruct p as [| | | | | |p|]; try (split; [discriminate|intros (s' & E & _); discriminate E]).
      destruct made.
      - destruct (0 <? int (field "collect_period" p)) eqn:Q.
        + split; [|reflexivity]. intros _. exists p. split; [reflexivity|]. intros _. lia.
        + split; [discriminate|]. intros (s & E & H). injection E as <-. specialize (H eq_refl). lia.
      - split; [|reflexivity]. intros _. exists p. split; [reflexivity|discriminate]. }
    case_eqb kind "prometheus".
    - assert (Q : (made = true -> exists s, field "prometheus" (selfOf odd file) = VPtr s) <->
        (if made then match deref (field "prometheus" (selfOf odd file)) with Some _ => Ok tt | None => Panic end else Ok tt) = Ok tt).
      { destruct made; [|split; [reflexivity|discriminate]]. unfold deref. destruct (field "prometheus" (selfOf odd file));
          (split; [intros H; destruct (H eq_refl) as (s' & ?); first [discriminate|reflexivity]|first [discriminate|intros _ _; eauto]]). }
      rewrite <- Q. split.
      + intros H. split; [intros _; exact H|]. intros p [K|K]; rewrite E in K; discriminate K.
      + intros (H & _). exact (H E).
    - case_eqb kind "stdout".
      + rewrite P. split.
        * intros H. split; [intros K; congruence|]. intros p _ ->. rewrite E0. exact H.
        * intros (_ & H). specialize (H _ (or_introl E0) eq_refl). rewrite E0 in H. exact H.
      + case_eqb kind "otlp".
        * rewrite P. split.
          -- intros H. split; [intros K; congruence|]. intros p _ ->. rewrite E1. exact H.
          -- intros (_ & H). specialize (H _ (or_intror E1) eq_refl). rewrite E1 in H. exact H.
        * split; [|reflexivity]. intros _. split; [intros K; congruence|]. intros p [K|K]; congruence. }
  assert (C : (forallb (fun k => snd (construct odd file k)) registered = true) <-> forall k, In k registered -> snd (construct odd file k) = true) by apply forallb_forall.
  pose proof (C77_starts (confOf odd file) e S) as W. split.
  - intros (b & H). apply bind_ok in H. destruct H as ([] & H1 & H). apply bind_ok in H. destruct H as ([] & H2 & H). apply bind_ok in H. destruct H as (api & H3 & H).
    destruct (forallb (fun k => snd (construct odd file k)) registered) eqn:F; [|discriminate H].
    split; [apply L; exact H1|]. split; [apply M; exact H2|]. split; [apply C; reflexivity|]. apply W. exists b. exact H.
  - intros (H1 & H2 & H3 & H4). apply L in H1. apply M in H2. apply C in H3. apply W in H4. destruct H4 as (b & H4).
    rewrite H1, H2, H3. cbn [bind]. exists b. pose proof H4 as H5. unfold start, new in H5. apply bind_ok in H5. destruct H5 as (b' & H5 & _). apply bind_ok in H5.
    destruct H5 as (api & H5 & _). rewrite H5. exact H4.
Qed.

(** What a file must have for the collector to come up, whatever the machine answers. *)
Theorem C83_required : forall made text_ e b, startFile odd made text_ e = Ok b ->
  section text_ aggregateprocessor <> DNull /\ section text_ k8sinfoanalyzer <> DNull /\ section text_ tcpconnectanalyzer <> DNull /\ section text_ otelexporter <> DNull /\
  get (lowerKeys text_) ["controller"] <> DNull /\ get (lowerKeys text_) ["observability"; "logger"] <> DNull.
Proof.
  intros made text_ e b H. unfold section. unfold startFile in H. set (file := lowerKeys text_) in *. cbv zeta in H.
  apply bind_ok in H. destruct H as ([] & H1 & H). apply bind_ok in H. destruct H as ([] & H2 & H). apply bind_ok in H. destruct H as (api & H3 & H).
  destruct (forallb _ registered); [|discriminate H]. unfold start, new, buildPipeline, run, allRun, analyzers in H.
  apply bind_ok in H. destruct H as (b' & H & R). apply bind_ok in H. destruct H as (api' & Ea & H).
  apply bind_ok in H. destruct H as ([] & Eo & H). apply bind_ok in H. destruct H as (w & Ew & H). apply bind_ok in H. destruct H as ([] & Eg & H).
  apply bind_ok in H. destruct H as ([] & Ek & H). apply bind_ok in H. destruct H as (n & En & H). apply bind_ok in H. destruct H as (t & Et & H).
  apply bind_ok in R. destruct R as ([] & R & _). apply bind_ok in R. destruct R as ([] & R & _).
  apply bind_ok in R. destruct R as ([] & _ & R). apply bind_ok in R. destruct R as ([] & _ & R). apply bind_ok in R. destruct R as ([] & Rc & R).
  apply bind_ok in R. destruct R as ([] & _ & R). apply bind_ok in R. destruct R as ([] & Ri & _).
  repeat split; intros Z.
  - unfold newAggregate, confOf, construct in Eg. cbn [c_aggInterval] in Eg. rewrite Z in Eg. discriminate Eg.
  - unfold firstStep, confOf, construct in Ri. cbn [c_infoInterval] in Ri. rewrite Z in Ri. discriminate Ri.
  - unfold firstStep, confOf, construct in Rc. cbn [c_connWait] in Rc. rewrite Z in Rc. discriminate Rc.
  - unfold newOtel, confOf, construct in Eo. cbn [c_kind] in Eo. rewrite Z in Eo. discriminate Eo.
  - unfold controllerConfig, confOf, controllerOf in Ea. cbn [c_http] in Ea. rewrite Z in Ea. injection Ea as <-. discriminate H.
  - unfold initLogger, loggerOf in H1. rewrite Z in H1. discriminate H1.
Qed.

(** A section that is left out does not have its defaults: without the section of the network analyzer nothing is parsed, no translation is looked up
    and no request times out; without the one of the Kubernetes processor no metadata is fetched; without the one of the receiver nothing is subscribed. *)
Theorem C83_missing_section_refuted : forall text_,
  (section text_ networkanalyzer = DNull ->
     let v := fst (construct odd (lowerKeys text_) networkanalyzer) in
     field "protocol_parser" v = VNil /\ field "enable_conntrack" v = VBool false /\ field "enabletimeoutcheck" v = VBool false) /\
  (section text_ k8smetadataprocessor = DNull -> field "enable" (fst (construct odd (lowerKeys text_) k8smetadataprocessor)) = VBool false) /\
  (section text_ cgoreceiver = DNull -> field "subscribe" (fst (construct odd (lowerKeys text_) cgoreceiver)) = VNil).
Proof. intros text_. unfold section, construct. split; [intros ->; repeat split|]. split; intros ->; reflexivity. Qed.

(** A sampling_rate that gives only the rate of normal requests unsets the others, whose default is 100: then no slow and no failed request is traced. *)
Theorem C83_sampling_refuted : forall text_ m r, section text_ aggregateprocessor = DMap m -> look m "sampling_rate" = Some (DMap [("normal_data", DInt r)]) ->
  exists cfg, samplingOf odd (lowerKeys text_) = Ok cfg /\ SampleModel.normalRate cfg = r /\
  forall km draw g s out, PoolModel.gname g = PoolModel.netRequestGroup -> 0 <= draw < 100 -> SampleProps.slow g \/ SampleProps.failed g ->
    SampleProps.forwarded km cfg draw g s out -> out = [].
Proof.
  intros text_ m r S L. unfold section in S. unfold samplingOf, construct. rewrite S.
  change (k_ty aggregateprocessor) with (TStruct (options aggregateprocessor)).
  change (k_default aggregateprocessor) with (VStruct (match k_default aggregateprocessor with VStruct cs => cs | _ => [] end)).
  rewrite (decode_struct (options aggregateprocessor) (match k_default aggregateprocessor with VStruct cs => cs | _ => [] end) m "sampling_rate" (TPtr SampleConfig))
    by (first [reflexivity|apply nodup_dec; reflexivity|cbn; tauto]).
  rewrite L. eexists. split; [reflexivity|]. split; [reflexivity|].
  intros km draw g s out N D A F. destruct (SampleProps.C06_trace_decision km _ draw g s out N F) as [(_ & X)|(E & _)]; [|exact E]. exfalso.
  match type of X with context [SampleModel.slowRate ?c] => change (SampleModel.slowRate c) with 0 in X; change (SampleModel.errorRate c) with 0 in X end.
  unfold SampleProps.normal in X. destruct X as [(_ & X)|[(_ & X)|((X1 & X2 & _) & _)]]; [lia|lia|]. destruct A; contradiction.
Qed.

(** The names in a table (labels, metrics) are read in lower case. *)
Lemma lower_idem s : lower (lower s) = lower s.
Proof.
  induction s as [|c s IH]; [reflexivity|]. cbn [lower]. rewrite IH. f_equal. unfold lowerChar. cbv zeta.
  destruct ((65 <=? Z.of_nat (nat_of_ascii c)) && (Z.of_nat (nat_of_ascii c) <=? 90)) eqn:E; [|rewrite E; reflexivity].
  rewrite nat_ascii_embedding by lia. rewrite Z2Nat.id by lia.
  replace ((65 <=? Z.of_nat (nat_of_ascii c) + 32) && (Z.of_nat (nat_of_ascii c) + 32 <=? 90)) with false by (symmetry; lia). reflexivity.
Qed.
Definition low (d : doc) : Prop := exists x, d = lowerKeys x.
Lemma lowerKeys_map m : lowerKeys (DMap m) = DMap (map (fun p => (lower (fst p), lowerKeys (snd p))) m).
Proof. cbn [lowerKeys]. f_equal. induction m as [|[k x] m IH]; [reflexivity|]. cbn [map fst snd]. rewrite IH. reflexivity. Qed.
Lemma low_map m : low (DMap m) -> forall k d, In (k, d) m -> lower k = k /\ low d.
Proof.
  intros (x & E) k d I. destruct x; try discriminate E. rewrite lowerKeys_map in E. injection E as ->. apply in_map_iff in I. destruct I as ([k' d'] & E & _).
  cbn [fst snd] in E. injection E as <- <-. split; [apply lower_idem|]. exists d'. reflexivity.
Qed.
Lemma low_get path : forall d, low d -> low (get d path).
Proof.
  induction path as [|k path IH]; intros d L; [exact L|]. cbn [get]. destruct d; try (exists DNull; reflexivity).
  destruct (aget m k) as [x|] eqn:G; [|exists DNull; reflexivity]. apply IH. apply aget_in in G. exact (proj2 (low_map m L k x G)).
Qed.
Lemma look_in m n d : look m n = Some d -> exists k, In (k, d) m.
Proof.
  unfold look. destruct (aget m n) as [x|] eqn:G.
  - intros E. injection E as <-. apply aget_in in G. eauto.
  - clear G. induction m as [|[k x] m IH]; [discriminate|]. case_eqb (lower k) n.
    + intros E'. injection E' as <-. exists k. left. reflexivity.
    + intros H. destruct (IH H) as (k' & I). exists k'. right. exact I.
Qed.
(** Custom labels, and the metrics of the aggregation tables, lose their capital letters: no file can name one with a capital letter. *)
Theorem C83_names_refuted : forall text_ k m n m' name d, section text_ k = DMap m -> look m n = Some (DMap m') -> In (name, d) m' -> lower name = name.
Proof.
  intros text_ k m n m' name d S L I. assert (Lo : low (DMap m)). { rewrite <- S. apply low_get. exists text_. reflexivity. }
  destruct (look_in m n _ L) as (k' & I'). exact (proj1 (low_map m' (proj2 (low_map m Lo k' _ I')) name d I)).
Qed.
End Odd.
Print Assumptions C83_option.
Print Assumptions C83_defaults.
Print Assumptions C83_nested.
Print Assumptions C83_listed.
Print Assumptions C83_port_refuted.
Print Assumptions C83_settings.
Print Assumptions C83_starts.
Print Assumptions C83_required.
Print Assumptions C83_missing_section_refuted.
Print Assumptions C83_sampling_refuted.
Print Assumptions C83_names_refuted.

(** ** The file that comes with the collector (docker/kindling-collector-config.yml), shortened to fewer subscriptions and metrics.
    A text where a period is expected is read by the library: here any of them is fifteen seconds. *)
Definition exOdd (t : ty) (cur : val) (d : doc) : val * bool := match t, d with TInt, DStr _ => (VInt 15000000000, true) | _, _ => (cur, false) end.
Definition exLogger := ("logger", DMap [("console_level", DStr "info"); ("file_level", DStr "info"); ("debug_selector", DList []);
  ("file_rotation", DMap [("filename", DStr "agent.log"); ("maxsize", DInt 512); ("maxage", DInt 30); ("maxbackups", DInt 5); ("localtime", DBool true); ("compress", DBool false)])]).
Definition exFile (logger : list (string * doc)) (aggregate : doc) : doc := DMap [
  ("controller", DMap [("http", DMap [("enable", DBool true); ("port", DStr ":9503")]); ("modules", DList [DStr "profile"])]);
  ("receivers", DMap [("cgoreceiver", DMap [("subscribe", DList [DMap [("name", DStr "syscall_exit-writev"); ("category", DStr "net")]; DMap [("name", DStr "kprobe-tcp_close")]]);
     ("process_filter", DMap [("comms", DList [DStr "kindling-collec"; DStr "containerd"])])])]);
  ("analyzers", DMap [
     ("cpuanalyzer", DMap [("sampling_interval", DInt 5); ("segment_size", DInt 40); ("edge_events_window_size", DInt 2); ("java_trace_delete_interval", DInt 20); ("java_trace_expiration_time", DInt 120)]);
     ("tcpconnectanalyzer", DMap [("channel_size", DInt 10000); ("wait_event_second", DInt 10); ("need_process_info", DBool false)]);
     ("tcpmetricanalyzer", DNull);
     ("networkanalyzer", DMap [("event_channel_size", DInt 10000); ("fd_reuse_timeout", DInt 2); ("enable_conntrack", DBool true);
        ("protocol_config", DList [DMap [("key", DStr "http"); ("ports", DList [DInt 80]); ("payload_length", DInt 200); ("slow_threshold", DInt 500)]])]);
     ("k8sinfoanalyzer", DMap [("send_datagroup_interval", DInt 15)])]);
  ("processors", DMap [("k8smetadataprocessor", DMap [("enable", DBool true)]); ("aggregateprocessor", aggregate)]);
  ("exporters", DMap [
     ("cameraexporter", DMap [("storage", DStr "file"); ("file_config", DMap [("storage_path", DStr "/tmp/kindling"); ("max_file_count_each_process", DInt 50)])]);
     ("otelexporter", DMap [("adapter_config", DMap [("need_trace_as_metric", DBool true); ("need_pod_detail", DBool true)]); ("export_kind", DStr "prometheus");
        ("custom_labels", DMap [("Env", DStr "prod")]);
        ("prometheus", DMap [("port", DStr ":9500"); ("memcleanup", DMap [("enable", DBool false); ("restart_period", DInt 12)])]);
        ("otlp", DMap [("collect_period", DStr "15s")])])]);
  ("observability", DMap (logger ++ [("opentelemetry", DMap [("export_kind", DStr "stdout"); ("stdout", DMap [("collect_period", DStr "15s")])])]))].
Definition exAggregate : doc := DMap [("ticker_interval", DInt 5); ("sampling_rate", DMap [("normal_data", DInt 10)])].
Example C83_starts_example : exists b, startFile exOdd true (exFile [exLogger] exAggregate) exEnv = Ok b /\ b_tcp b = TNetlink.
Proof. eexists. split; vm_compute; reflexivity. Qed.
(** The same file without one of these sections: a stack trace at the start *)
Example C83_required_example : startFile exOdd true (exFile [exLogger] DNull) exEnv = Panic /\ startFile exOdd true (exFile [] exAggregate) exEnv = Panic.
Proof. split; vm_compute; reflexivity. Qed.
Example C83_option_example : forall odd, let v := fst (construct odd (lowerKeys (exFile [exLogger] exAggregate)) networkanalyzer) in
  field "fd_reuse_timeout" v = VInt 2 /\ field "no_response_threshold" v = VInt 120 /\
  field "protocol_parser" v = VList (map VStr ["http"; "mysql"; "dns"; "redis"; "kafka"; "dubbo"]) /\
  field "protocol_config" v = VList [proto "http" (VList [VInt 80]) 200 500].
Proof. intros odd. repeat split. Qed.
Example C83_listed_example : In ("protocol_config", TList ProtocolConfig) (options networkanalyzer) /\ In (networkanalyzer, "event_channel_size", c_netChan) numbers /\
  exists m es m', section (exFile [exLogger] exAggregate) networkanalyzer = DMap m /\ look m "protocol_config" = Some (DList es) /\ nth_error es 0 = Some (DMap m') /\
    look m' "ports" = Some (DList (map DInt [80])) /\ (2 ^ 32 + 80) mod 2 ^ 32 = 80 /\ -1 mod 2 ^ 32 = 4294967295.
Proof. split; [cbn; tauto|]. split; [cbn; tauto|]. eexists; eexists; eexists. repeat split. Qed.
Example C83_sampling_example : forall odd, exists cfg, samplingOf odd (lowerKeys (exFile [exLogger] exAggregate)) = Ok cfg /\
  SampleModel.normalRate cfg = 10 /\ SampleModel.slowRate cfg = 0 /\ SampleModel.errorRate cfg = 0.
Proof. intros odd. eexists. repeat split. Qed.
Example C83_names_example : forall odd, field "custom_labels" (fst (construct odd (lowerKeys (exFile [exLogger] exAggregate)) otelexporter)) = VMap [("env", VStr "prod")].
Proof. intros odd. reflexivity. Qed.
(** Without the camera exporter's section the collector comes up, and stops at the first thing there is to store *)
Theorem C83_missing_storage_refuted : exists text_ b, section text_ cameraexporter = DNull /\ startFile exOdd true text_ exEnv = Ok b /\ cameraConsume (b_writer b) = Panic.
Proof.
  exists (DMap (map (fun p => if eqb (fst p) "exporters" then (fst p, match snd p with DMap m => DMap (List.tl m) | d => d end) else p)
     (match exFile [exLogger] exAggregate with DMap m => m | _ => [] end))).
  eexists. split; [vm_compute; reflexivity|]. split; vm_compute; reflexivity.
Qed.
Print Assumptions C83_missing_storage_refuted.
