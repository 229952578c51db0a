(** The Redis parser reads a sequence of elements frame by frame. *)
From Verif Require Import Base Decimal DetectProofs AttrModel LabelNames MsgModel ReaderProofs ReaderProps TextModel TextSpec TextProofs TextProps HttpProps RedisModel RedisSpec.
Open Scope string_scope. Open Scope list_scope. Open Scope Z_scope.

Lemma digits_noCR n : 0 <= n -> noCR (digits n).
Proof.
  intros N I. pose proof (digits_all n N) as A. rewrite forallb_forall in A. specialize (A 13 I). discriminate.
Qed.
Lemma formatInt_noCR n : noCR (formatInt n).
Proof.
  unfold formatInt. destruct (n <? 0) eqn:Q; [|apply digits_noCR; lia]. intros [I|I]; [discriminate|]. apply (digits_noCR (- n)); [lia|exact I].
Qed.
Lemma upper_eq s : map upperByte s = upper s.
Proof. unfold upper. apply map_ext. intros b. unfold upperByte. destruct ((97 <=? b) && (b <=? 122)); lia. Qed.
Lemma maxCommandLen_bound c : In c redisCommands -> zlen (bs c) <= maxCommandLen.
Proof.
  assert (B : forallb (fun c => zlen (bs c) <=? maxCommandLen) redisCommands = true) by (vm_compute; reflexivity).
  intros I. rewrite forallb_forall in B. specialize (B c I). cbn beta in B. lia.
Qed.
Lemma isRedisCommand_spec s : isRedisCommand s = true <-> commandOf redisCommands s.
Proof.
  unfold isRedisCommand, commandOf. split.
  - destruct (maxCommandLen <? zlen s); [discriminate|]. intros E. apply existsb_exists in E. destruct E as (c & I & E). apply eqb_true in E.
    rewrite <- upper_eq, <- E. apply in_map. exact I.
  - intros I. apply in_map_iff in I. destruct I as (c & E & I). pose proof (maxCommandLen_bound c I) as B.
    assert (L : zlen (bs c) = zlen s) by (rewrite E; unfold upper, zlen; rewrite map_length; reflexivity).
    replace (maxCommandLen <? zlen s) with false by lia. apply existsb_exists. exists c. split; [exact I|]. rewrite upper_eq, E. apply eqb_refl.
Qed.
(** commands are ASCII, so their text is kept *)
Lemma command_ascii s : commandOf redisCommands s -> asciiText s.
Proof.
  assert (B : forallb (fun c => forallb (fun b => (0 <=? b) && (b <? 128)) (bs c)) redisCommands = true) by (vm_compute; reflexivity).
  intros I. apply in_map_iff in I. destruct I as (c & E & I). rewrite forallb_forall in B. specialize (B c I). cbn beta in B. rewrite E in B.
  unfold asciiText. apply Forall_forall. intros b Ib. rewrite forallb_forall in B.
  specialize (B (if (97 <=? b) && (b <=? 122) then b - 32 else b)). unfold upper in B. specialize (B (in_map _ _ _ Ib)). cbn beta in B.
  destruct ((97 <=? b) && (b <=? 122)) eqn:Q; lia.
Qed.

(** Label names that are no commands: what every label map of the analyzer has. *)
Definition plainNames (attrs : list (string * aval)) : Prop := forall k, In k (keys attrs) -> ~ commandOf redisCommands (bs k).
Lemma hasAttrNamed_false m v : plainNames (m_attrs m) -> commandOf redisCommands v -> hasAttrNamed m v = false.
Proof.
  intros P C. unfold hasAttrNamed. destruct (existsb _ _) eqn:E; [|reflexivity]. apply existsb_exists in E. destruct E as (k & I & E).
  apply eqb_true in E. subst v. exfalso. apply (P k I). exact C.
Qed.
Lemma keys_aset_in {K V} `{Eqb K} (l : list (K * V)) k v x : In x (keys (aset l k v)) -> x = k \/ In x (keys l).
Proof.
  induction l as [|[a b] l IH]; cbn [aset keys map fst In].
  - intros [<-|[]]. left. reflexivity.
  - destruct (eqb k a) eqn:Q; cbn [keys map fst In]; intros [<-|I]; try (left; reflexivity); try (right; left; reflexivity); try (right; right; exact I).
    apply IH in I. destruct I as [->|I]; [left; reflexivity|right; right; exact I].
Qed.
Lemma plain_aset attrs k v : ~ commandOf redisCommands (bs k) -> plainNames attrs -> plainNames (aset attrs k v).
Proof. intros N P x I. apply keys_aset_in in I. destruct I as [->|I]; [exact N|apply P; exact I]. Qed.
Lemma notCommand s : isRedisCommand s = false -> ~ commandOf redisCommands s.
Proof. intros E C. apply isRedisCommand_spec in C. congruence. Qed.

(** The labels after one element. *)
Definition recordCommand (attrs : list (string * aval)) (s : bytes) : list (string * aval) :=
  if isRedisCommand s then aset (aset attrs LContentKey (SV s)) LRedisCommand (SV s) else attrs.
Definition recordError (attrs : list (string * aval)) (s t : bytes) : list (string * aval) :=
  match s with
  | [] => attrs
  | _ => if ahas attrs LRedisErrMsg then attrs else aset (aset (aset attrs LRedisErrMsg (SV t)) LIsError (BV true)) LErrorType (IV ProtocolError)
  end.
Inductive after (attrs : list (string * aval)) : resp -> list (string * aval) -> Prop :=
| after_plain e : match e with Array _ | Nil | Int _ | Simple _ => True | _ => False end -> after attrs e attrs
| after_bulk s : after attrs (Bulk s) (recordCommand attrs s)
| after_error s t : formatUtf8 s = Ok t -> after attrs (Error s) (recordError attrs s t).
Lemma after_ex attrs e : exists a, after attrs e a.
Proof.
  destruct e; try (eexists; apply after_plain; exact I); [eexists; apply after_bulk|].
  destruct (formatUtf8_prefix s) as (t & r & T & _). eexists. apply (after_error _ _ t T).
Qed.
Lemma after_plainNames attrs e a : plainNames attrs -> after attrs e a -> plainNames a.
Proof.
  intros P A. destruct A as [e K|s|s t T]; [exact P| |].
  - unfold recordCommand. destruct (isRedisCommand s); [|exact P]. apply plain_aset; [apply notCommand; vm_compute; reflexivity|]. apply plain_aset; [apply notCommand; vm_compute; reflexivity|exact P].
  - unfold recordError. destruct s; [exact P|]. destruct (ahas attrs LRedisErrMsg); [exact P|].
    repeat (apply plain_aset; [apply notCommand; vm_compute; reflexivity|]). exact P.
Qed.

Definition at_ (d : bytes) (off : Z) (attrs : list (string * aval)) : msg := {| m_data := d; m_off := off; m_attrs := attrs |}.
Definition progress (s : bytes) : status := match s with [] => PComplete | _ => POk end.
Lemma complete_at (p e s : bytes) attrs : isComplete (at_ (p ++ e ++ s) (zlen (p ++ e)) attrs) = match s with [] => true | _ => false end.
Proof.
  unfold isComplete, at_. cbn [m_data m_off]. rewrite !zlen_app. destruct s as [|c s]; [change (zlen (@nil Z)) with 0; lia|].
  rewrite zlen_cons. pose proof (zlen_nonneg s). lia.
Qed.
Lemma line_at (p w s : bytes) c : noCR w -> readUntilCRLF (p ++ (c :: w ++ crlf) ++ s) (zlen p + 1) = Ok (Some (w, zlen (p ++ (c :: w ++ crlf)))).
Proof.
  intros N. destruct (C20_until_crlf (p ++ [c]) w s N) as (E & _).
  replace (p ++ (c :: w ++ crlf) ++ s) with ((p ++ [c]) ++ w ++ 13 :: 10 :: s) by (rewrite <- !app_assoc; cbn [app crlf]; rewrite <- app_assoc; reflexivity).
  replace (zlen p + 1) with (zlen (p ++ [c])) by (rewrite zlen_app; reflexivity). rewrite E.
  replace (zlen (p ++ (c :: w ++ crlf))) with (zlen (p ++ [c]) + zlen w + 2); [reflexivity|]. rewrite !zlen_app. change (zlen [c]) with 1. rewrite zlen_cons, zlen_app. change (zlen crlf) with 2. lia.
Qed.
Lemma first_at (p s : bytes) c w attrs : gindex (m_data (at_ (p ++ (c :: w) ++ s) (zlen p) attrs)) (m_off (at_ (p ++ (c :: w) ++ s) (zlen p) attrs)) = Ok c.
Proof. cbn [at_ m_data m_off]. replace (zlen p) with (zlen p + 0) by lia. rewrite gindex_app_r by lia. reflexivity. Qed.
Lemma parse_fits n : fits n -> parseInt 64 (formatInt n) = (n, true).
Proof. intros F. apply parseInt_format; [lia|]. exact F. Qed.

Ltac cpl p e s := match goal with |- context [isComplete ?m] => replace (isComplete m) with (match s with [] => true | _ => false end) by (symmetry; exact (complete_at p e s (m_attrs m))) end.
Lemma number_at p s c n attrs : fits n ->
  parseRedisNumber (at_ (p ++ (c :: formatInt n ++ crlf) ++ s) (zlen p) attrs) =
  Ok ((true, match s with [] => true | _ => false end), at_ (p ++ (c :: formatInt n ++ crlf) ++ s) (zlen (p ++ (c :: formatInt n ++ crlf))) attrs).
Proof.
  intros F. unfold parseRedisNumber. cbn [at_ m_data m_off m_attrs]. rewrite line_at by apply formatInt_noCR. cbn [bind]. rewrite (parse_fits n F). cbn [negb]. cbn zeta.
  unfold setOff. cbn [m_data m_attrs]. cpl p (c :: formatInt n ++ crlf) s. reflexivity.
Qed.
Lemma simple_at p s c w attrs : noCR w ->
  parseRedisSimpleString (at_ (p ++ (c :: w ++ crlf) ++ s) (zlen p) attrs) =
  Ok ((true, match s with [] => true | _ => false end), at_ (p ++ (c :: w ++ crlf) ++ s) (zlen (p ++ (c :: w ++ crlf))) attrs).
Proof.
  intros F. unfold parseRedisSimpleString. cbn [at_ m_data m_off m_attrs]. rewrite line_at by exact F. cbn [bind]. cbn zeta.
  unfold setOff. cbn [m_data m_attrs]. cpl p (c :: w ++ crlf) s. reflexivity.
Qed.
Lemma error_at p s c w t attrs : noCR w -> formatUtf8 w = Ok t ->
  parseRedisError (at_ (p ++ (c :: w ++ crlf) ++ s) (zlen p) attrs) =
  Ok ((true, match s with [] => true | _ => false end), at_ (p ++ (c :: w ++ crlf) ++ s) (zlen (p ++ (c :: w ++ crlf))) (recordError attrs w t)).
Proof.
  intros F T. unfold parseRedisError. cbn [at_ m_data m_off m_attrs]. rewrite line_at by exact F. cbn [bind]. cbn zeta.
  unfold setOff, hasAttr, at_. cbn [m_data m_off m_attrs]. set (d := p ++ (c :: w ++ crlf) ++ s).
  unfold recordError. destruct w as [|x w].
  - change (0 <? zlen (@nil Z)) with false. cbn [andb bind]. cpl p (c :: [] ++ crlf) s. reflexivity.
  - replace (0 <? zlen (x :: w)) with true by (rewrite zlen_cons; pose proof (zlen_nonneg w); lia). cbn [andb].
    destruct (ahas attrs LRedisErrMsg); cbn [negb bind].
    + cpl p (c :: (x :: w) ++ crlf) s. reflexivity.
    + rewrite T. cbn [bind]. unfold addAttr. cbn [m_data m_off m_attrs]. cpl p (c :: (x :: w) ++ crlf) s. reflexivity.
Qed.
Lemma nil_at p s attrs : parseRedisBulkString (at_ (p ++ enc Nil ++ s) (zlen p) attrs) =
  Ok ((true, match s with [] => true | _ => false end), at_ (p ++ enc Nil ++ s) (zlen (p ++ enc Nil)) attrs).
Proof.
  change (enc Nil) with (36 :: formatInt (-1) ++ crlf). unfold parseRedisBulkString. cbn [at_ m_data m_off m_attrs].
  rewrite line_at by apply formatInt_noCR. cbn [bind]. rewrite parse_fits by (unfold fits; lia). cbn [negb]. change (-1 =? -1) with true. cbn iota zeta.
  unfold setOff. cbn [m_data m_attrs]. cpl p (36 :: formatInt (-1) ++ crlf) s. reflexivity.
Qed.
Lemma bulk_at p s w attrs : noCR w -> fits (zlen w) -> plainNames attrs ->
  parseRedisBulkString (at_ (p ++ enc (Bulk w) ++ s) (zlen p) attrs) =
  Ok ((true, match s with [] => true | _ => false end), at_ (p ++ enc (Bulk w) ++ s) (zlen (p ++ enc (Bulk w))) (recordCommand attrs w)).
Proof.
  intros N F P. set (hd := 36 :: formatInt (zlen w) ++ crlf). pose proof (zlen_nonneg w) as WL.
  assert (EE : enc (Bulk w) = hd ++ w ++ crlf) by (cbn [enc]; unfold hd; cbn [bs list_ascii_of_string map app]; rewrite <- app_assoc; reflexivity).
  rewrite EE. unfold parseRedisBulkString. cbn [at_ m_data m_off m_attrs].
  replace (readUntilCRLF (p ++ (hd ++ w ++ crlf) ++ s) (zlen p + 1)) with (Ok (Some (formatInt (zlen w), zlen (p ++ hd)))).
  2: { symmetry. rewrite <- app_assoc. apply line_at. apply formatInt_noCR. }
  cbn [bind]. rewrite (parse_fits _ F). cbn [negb]. replace (zlen w =? -1) with false by lia.
  replace (readUntilCRLF (p ++ (hd ++ w ++ crlf) ++ s) (zlen (p ++ hd))) with (Ok (Some (w, zlen (p ++ hd ++ w ++ crlf)))).
  2: { symmetry. destruct (C20_until_crlf (p ++ hd) w s N) as (E & _).
       replace (p ++ (hd ++ w ++ crlf) ++ s) with ((p ++ hd) ++ w ++ 13 :: 10 :: s) by (rewrite <- !app_assoc; reflexivity). rewrite E.
       replace (zlen (p ++ hd ++ w ++ crlf)) with (zlen (p ++ hd) + zlen w + 2); [reflexivity|]. rewrite !zlen_app. change (zlen crlf) with 2. lia. }
  cbn [bind]. rewrite Z.eqb_refl. cbn [negb].
  unfold recordCommand. fold (at_ (p ++ (hd ++ w ++ crlf) ++ s) (zlen p) attrs).
  destruct (isRedisCommand w) eqn:Q.
  - apply isRedisCommand_spec in Q. rewrite (hasAttrNamed_false (at_ (p ++ (hd ++ w ++ crlf) ++ s) (zlen p) attrs) w P Q). cbn [negb andb].
    rewrite (formatUtf8_ascii _ (command_ascii _ Q)). cbn [bind]. unfold setOff, addAttr. cbn [at_ m_data m_off m_attrs]. cpl p (hd ++ w ++ crlf) s. reflexivity.
  - rewrite andb_false_r. cbn [bind]. unfold setOff. cbn [at_ m_data m_off m_attrs]. cpl p (hd ++ w ++ crlf) s. reflexivity.
Qed.

Lemma enc_head e : exists c w, enc e = c :: w /\
  c = match e with Array _ => 42 | Bulk _ | Nil => 36 | Int _ => 58 | Simple _ => 43 | Error _ => 45 end.
Proof. destruct e; cbn [enc bs list_ascii_of_string map app]; eexists; eexists; (split; [reflexivity|reflexivity]). Qed.

Ltac ff := unfold fastfailByte at 1; rewrite !first_at; cbn [bind existsb Z.eqb Pos.eqb orb negb]; cbn iota.

Lemma response_frame e p s attrs a : wellFormed e -> plainNames attrs -> after attrs e a ->
  parseOneFrame redisResponseParser (at_ (p ++ enc e ++ s) (zlen p) attrs) = Ok (progress s, at_ (p ++ enc e ++ s) (zlen (p ++ enc e)) a).
Proof.
  intros W P A. unfold redisResponseParser. cbn [parseOneFrame]. unfold parseRedisRoot.
  destruct A as [e K|w|w t T].
  - destruct e; try contradiction; cbn [wellFormed] in W.
    + change (enc (Array n)) with (42 :: formatInt n ++ crlf). repeat ff. rewrite number_at by exact W. cbn [bind negb]. destruct s; reflexivity.
    + change (enc Nil) with (36 :: 45 :: 49 :: crlf). repeat ff. pose proof (nil_at p s attrs) as E. change (enc Nil) with (36 :: 45 :: 49 :: crlf) in E. rewrite E. cbn [bind negb]. destruct s; reflexivity.
    + change (enc (Int n)) with (58 :: formatInt n ++ crlf). repeat ff. rewrite number_at by exact W. cbn [bind negb]. destruct s; reflexivity.
    + change (enc (Simple s0)) with (43 :: s0 ++ crlf). repeat ff. rewrite simple_at by exact W. cbn [bind negb]. destruct s; reflexivity.
  - destruct W as [N F]. pose proof (bulk_at p s w attrs N F P) as E. destruct (enc_head (Bulk w)) as (c & r & EE & ->). rewrite EE in *. repeat ff. rewrite E. cbn [bind negb]. destruct s; reflexivity.
  - cbn [wellFormed] in W. change (enc (Error w)) with (45 :: w ++ crlf). repeat ff. rewrite (error_at p s 45 w t attrs W T). cbn [bind negb]. destruct s; reflexivity.
Qed.
Lemma request_frame e p s attrs a : isRequestElement e -> wellFormed e -> plainNames attrs -> after attrs e a ->
  parseOneFrame redisRequestParser (at_ (p ++ enc e ++ s) (zlen p) attrs) = Ok (progress s, at_ (p ++ enc e ++ s) (zlen (p ++ enc e)) a).
Proof.
  intros RE W P A. unfold redisRequestParser. cbn [parseOneFrame]. unfold parseRedisRoot.
  destruct A as [e K|w|w t T].
  - destruct e; try contradiction; cbn [wellFormed] in W.
    + change (enc (Array n)) with (42 :: formatInt n ++ crlf). repeat ff. rewrite number_at by exact W. cbn [bind negb]. destruct s; reflexivity.
    + change (enc Nil) with (36 :: 45 :: 49 :: crlf). repeat ff. pose proof (nil_at p s attrs) as E. change (enc Nil) with (36 :: 45 :: 49 :: crlf) in E. rewrite E. cbn [bind negb]. destruct s; reflexivity.
    + change (enc (Int n)) with (58 :: formatInt n ++ crlf). repeat ff. rewrite number_at by exact W. cbn [bind negb]. destruct s; reflexivity.
  - destruct W as [N F]. pose proof (bulk_at p s w attrs N F P) as E. destruct (enc_head (Bulk w)) as (c & r & EE & ->). rewrite EE in *. repeat ff. rewrite E. cbn [bind negb]. destruct s; reflexivity.
  - contradiction.
Qed.
