(** C22: Redis requests and replies. *)
From Verif Require Import Base Decimal DetectProofs AttrModel LabelNames MsgModel ReaderSpec ReaderProofs ReaderProps TextModel TextSpec TextProofs TextProps HttpSpec HttpProofs HttpProps RedisModel RedisSpec RedisProofs.
Open Scope string_scope. Open Scope list_scope. Open Scope Z_scope.

(** ** Every payload gets a verdict. *)
Definition totalParse (f : msg -> res ((bool * bool) * msg)) : Prop := forall m, 0 <= m_off m < zlen (m_data m) ->
  exists ok c m', f m = Ok ((ok, c), m') /\ m_data m' = m_data m /\ (ok = false -> m' = m) /\ (ok = true -> c = isComplete m' /\ m_off m < m_off m').
Lemma number_total : totalParse parseRedisNumber.
Proof.
  intros m B. unfold parseRedisNumber. destruct (readUntilCRLF_total (m_data m) (m_off m + 1)) as [E|(v & o & E & O)]; [lia| |]; rewrite E; cbn [bind].
  - exists false, true, m. split; [reflexivity|]. split; [reflexivity|]. split; [reflexivity|discriminate].
  - destruct (parseInt 64 v) as [n ok]. destruct ok; cbn [negb].
    + exists true, (isComplete (setOff m o)), (setOff m o). split; [reflexivity|]. split; [reflexivity|]. split; [discriminate|]. intros _. split; [reflexivity|]. cbn [setOff m_off]. lia.
    + exists false, true, m. split; [reflexivity|]. split; [reflexivity|]. split; [reflexivity|discriminate].
Qed.
Lemma simple_total : totalParse parseRedisSimpleString.
Proof.
  intros m B. unfold parseRedisSimpleString. destruct (readUntilCRLF_total (m_data m) (m_off m + 1)) as [E|(v & o & E & O)]; [lia| |]; rewrite E; cbn [bind].
  - exists false, true, m. split; [reflexivity|]. split; [reflexivity|]. split; [reflexivity|discriminate].
  - exists true, (isComplete (setOff m o)), (setOff m o). split; [reflexivity|]. split; [reflexivity|]. split; [discriminate|]. intros _. split; [reflexivity|]. cbn [setOff m_off]. lia.
Qed.
Lemma error_total : totalParse parseRedisError.
Proof.
  intros m B. unfold parseRedisError. destruct (readUntilCRLF_total (m_data m) (m_off m + 1)) as [E|(v & o & E & O)]; [lia| |]; rewrite E; cbn [bind].
  - exists false, true, m. split; [reflexivity|]. split; [reflexivity|]. split; [reflexivity|discriminate].
  - cbn zeta. destruct (formatUtf8_prefix v) as (t & r & T & _). rewrite T. cbn [bind].
    destruct ((0 <? zlen v) && negb (hasAttr (setOff m o) LRedisErrMsg)); cbn [bind]; eexists; eexists; eexists; (split; [reflexivity|]); (split; [reflexivity|]); (split; [discriminate|]); intros _; (split; [reflexivity|]); cbn [setOff addAttr m_off]; lia.
Qed.
Lemma bulk_total : totalParse parseRedisBulkString.
Proof.
  intros m B. unfold parseRedisBulkString. destruct (readUntilCRLF_total (m_data m) (m_off m + 1)) as [E|(v & o & E & O)]; [lia| |]; rewrite E; cbn [bind].
  { exists false, true, m. split; [reflexivity|]. split; [reflexivity|]. split; [reflexivity|discriminate]. }
  destruct (parseInt 64 v) as [n ok]. destruct ok; cbn [negb].
  2: { exists false, true, m. split; [reflexivity|]. split; [reflexivity|]. split; [reflexivity|discriminate]. }
  destruct (n =? -1).
  { exists true, (isComplete (setOff m o)), (setOff m o). split; [reflexivity|]. split; [reflexivity|]. split; [discriminate|]. intros _. split; [reflexivity|]. cbn [setOff m_off]. lia. }
  destruct (readUntilCRLF_total (m_data m) o) as [E2|(v2 & o2 & E2 & O2)]; [lia| |]; rewrite E2; cbn [bind].
  { exists false, true, m. split; [reflexivity|]. split; [reflexivity|]. split; [reflexivity|discriminate]. }
  destruct (zlen v2 =? n); cbn [negb].
  2: { exists false, true, m. split; [reflexivity|]. split; [reflexivity|]. split; [reflexivity|discriminate]. }
  destruct (formatUtf8_prefix v2) as (t & r & T & _). rewrite T. cbn [bind].
  destruct (negb (hasAttrNamed m v2) && isRedisCommand v2); cbn [bind]; eexists; eexists; eexists; (split; [reflexivity|]); (split; [reflexivity|]); (split; [discriminate|]); intros _; (split; [reflexivity|]); cbn [setOff addAttr m_off]; lia.
Qed.

(** A Redis parser is a root that only looks at the keyword, over children that each look at one keyword. *)
Definition child (p : pkg) : Prop := exists c f, p = Pkg (fastfailByte c) f [] /\ totalParse f.
Definition outcome (m : msg) (r : res (status * msg)) : Prop :=
  exists st m', r = Ok (st, m') /\ m_data m' = m_data m /\ (st = PFail -> m' = m) /\ (st = POk -> m_off m < m_off m' < zlen (m_data m)).
Lemma child_outcome p m : child p -> 0 <= m_off m < zlen (m_data m) -> outcome m (parseOneFrame p m).
Proof.
  intros (c & f & -> & T) B. cbn [parseOneFrame]. unfold fastfailByte. destruct (gindex_in (m_data m) (m_off m) B) as (b & G). rewrite G. cbn [bind].
  destruct (negb (existsb (Z.eqb b) c)).
  { exists PFail, m. split; [reflexivity|]. split; [reflexivity|]. split; [reflexivity|discriminate]. }
  destruct (T m B) as (ok & cm & m' & E & D & F & O). rewrite E. cbn [bind]. destruct ok; cbn [negb].
  2: { rewrite (F eq_refl). exists PFail, m. split; [reflexivity|]. split; [reflexivity|]. split; [reflexivity|discriminate]. }
  destruct (O eq_refl) as [-> O2]. destruct (isComplete m') eqn:Q.
  - exists PComplete, m'. split; [reflexivity|]. split; [exact D|]. split; discriminate.
  - exists POk, m'. split; [reflexivity|]. split; [exact D|]. split; [discriminate|]. intros _. unfold isComplete in Q. rewrite D in Q. lia.
Qed.
Lemma root_outcome c ps m : ps <> [] -> (forall p, In p ps -> child p) -> 0 <= m_off m < zlen (m_data m) -> outcome m (parseOneFrame (Pkg (fastfailByte c) parseRedisRoot ps) m).
Proof.
  intros NE CH B. cbn [parseOneFrame]. unfold fastfailByte. destruct (gindex_in (m_data m) (m_off m) B) as (b & G). rewrite G. cbn [bind].
  destruct (negb (existsb (Z.eqb b) c)).
  { exists PFail, m. split; [reflexivity|]. split; [reflexivity|]. split; [reflexivity|discriminate]. }
  unfold parseRedisRoot. cbn [bind negb]. destruct ps as [|p0 ps0]; [congruence|]. clear NE G b.
  assert (GO : forall l, (forall p, In p l -> child p) -> outcome m ((fix each (cs : list pkg) (m : msg) : res (status * msg) :=
                      match cs with
                      | [] => Ok (PFail, m)
                      | c :: cs' => bind (parseOneFrame c m) (fun '(s, m2) => match s with PFail => each cs' m2 | _ => Ok (s, m2) end)
                      end) l m)); [|exact (GO _ CH)].
  clear CH. induction l as [|p ps IH]; intros CH.
  - exists PFail, m. split; [reflexivity|]. split; [reflexivity|]. split; [reflexivity|discriminate].
  - destruct (child_outcome p m (CH p (or_introl eq_refl)) B) as (st & m' & E & D & F & O). rewrite E. cbn [bind]. destruct st.
    + rewrite (F eq_refl). apply IH. intros q I. apply CH. right. exact I.
    + exists POk, m'. split; [reflexivity|]. split; [exact D|]. split; [discriminate|exact O].
    + exists PComplete, m'. split; [reflexivity|]. split; [exact D|]. split; discriminate.
Qed.
Lemma frames_total P : (forall m, 0 <= m_off m < zlen (m_data m) -> outcome m (parseOneFrame P m)) -> forall f m, 0 <= m_off m < zlen (m_data m) ->
  zlen (m_data m) - m_off m < Z.of_nat f -> exists ok m', framesLoop f P m = Ok (ok, m').
Proof.
  intros H. induction f as [|f IH]; intros m B L; [lia|]. cbn [framesLoop]. destruct (H m B) as (st & m' & E & D & F & O). rewrite E. cbn [bind].
  destruct st; [exists false, m'; reflexivity| |exists true, m'; reflexivity]. specialize (O eq_refl). apply IH; rewrite D; lia.
Qed.
Lemma request_root m : 0 <= m_off m < zlen (m_data m) -> outcome m (parseOneFrame redisRequestParser m).
Proof.
  apply root_outcome; [discriminate|]. intros p I. cbn [In] in I.
  destruct I as [<-|[<-|[<-|[]]]]; (eexists; eexists; split; [reflexivity|]); [apply number_total|apply bulk_total|apply number_total].
Qed.
Lemma response_root m : 0 <= m_off m < zlen (m_data m) -> outcome m (parseOneFrame redisResponseParser m).
Proof.
  apply root_outcome; [discriminate|]. intros p I. cbn [In] in I.
  destruct I as [<-|[<-|[<-|[<-|[<-|[]]]]]]; (eexists; eexists; split; [reflexivity|]); [apply number_total|apply bulk_total|apply number_total|apply simple_total|apply error_total].
Qed.

(** No payload with at least one byte (C71: an empty one, which a sendmmsg can bring, does) crashes the parsers or keeps them busy for ever. *)
Theorem C22_total d attrs : d <> [] -> (exists ok m, redisRequest d = Ok (ok, m)) /\ (exists ok m, redisResponse d attrs = Ok (ok, m)).
Proof.
  intros NE. assert (L : 0 < zlen d) by (destruct d; [congruence|rewrite zlen_cons; pose proof (zlen_nonneg d); lia]).
  assert (LF : zlen d - 0 < Z.of_nat (S (S (List.length d)))) by (unfold zlen; lia).
  split; unfold redisRequest, redisResponse, parsePayload; cbn [newRequest newResponse m_data].
  - apply frames_total; [exact request_root|cbn [newRequest m_data m_off]; lia|cbn [newRequest m_data m_off]; exact LF].
  - apply frames_total; [exact response_root|cbn [newResponse m_data m_off]; lia|cbn [newResponse m_data m_off]; exact LF].
Qed.
Print Assumptions C22_total.

(** ** Sequences of elements. *)
Inductive afterAll (attrs : list (string * aval)) : list resp -> list (string * aval) -> Prop :=
| afterAll_nil : afterAll attrs [] attrs
| afterAll_cons e es a b : after attrs e a -> afterAll a es b -> afterAll attrs (e :: es) b.
Lemma afterAll_ex es : forall attrs, exists b, afterAll attrs es b.
Proof.
  induction es as [|e es IH]; intros attrs; [exists attrs; constructor|]. destruct (after_ex attrs e) as (a & A). destruct (IH a) as (b & B). exists b. econstructor; eassumption.
Qed.
Lemma enc_nonempty e : enc e <> [].
Proof. destruct (enc_head e) as (c & w & -> & _). discriminate. Qed.
Lemma encAll_nil es : encAll es = [] -> es = [].
Proof. destruct es as [|e es]; [reflexivity|]. unfold encAll. cbn [map List.concat]. intros E. apply app_eq_nil in E. destruct (enc_nonempty e (proj1 E)). Qed.
Lemma frames_all P (okElem : resp -> Prop) :
  (forall e p s attrs a, okElem e -> wellFormed e -> plainNames attrs -> after attrs e a ->
     parseOneFrame P (at_ (p ++ enc e ++ s) (zlen p) attrs) = Ok (progress s, at_ (p ++ enc e ++ s) (zlen (p ++ enc e)) a)) ->
  forall es p attrs b f, es <> [] -> Forall okElem es -> Forall wellFormed es -> plainNames attrs -> afterAll attrs es b -> (List.length es <= f)%nat ->
    framesLoop f P (at_ (p ++ encAll es) (zlen p) attrs) = Ok (true, at_ (p ++ encAll es) (zlen (p ++ encAll es)) b).
Proof.
  intros H. induction es as [|e es IH]; intros p attrs b f NE OK W PN A F; [congruence|]. destruct f as [|f]; [cbn in F; lia|]. cbn [framesLoop].
  inversion OK; subst. inversion W; subst. inversion A as [|? ? a ? A1 A2]; subst.
  change (encAll (e :: es)) with (enc e ++ encAll es). rewrite (H e p (encAll es) attrs a) by assumption. cbn [bind].
  destruct es as [|e2 es].
  - cbn [encAll map List.concat progress]. inversion A2; subst. rewrite app_nil_r. reflexivity.
  - assert (PR : progress (encAll (e2 :: es)) = POk) by (destruct (encAll (e2 :: es)) eqn:Q; [apply encAll_nil in Q; discriminate|reflexivity]).
    rewrite PR. rewrite (app_assoc p). rewrite (IH (p ++ enc e) a b f); [reflexivity|discriminate|assumption|assumption|eapply after_plainNames; eassumption|exact A2|cbn in F |- *; lia].
Qed.
Lemma enc_len es : (List.length es <= List.length (encAll es))%nat.
Proof.
  induction es as [|e es IH]; [apply Nat.le_0_l|]. change (encAll (e :: es)) with (enc e ++ encAll es). rewrite app_length. pose proof (enc_nonempty e). destruct (enc e); [congruence|]. cbn [List.length]. lia.
Qed.
Lemma plain_nil : plainNames [].
Proof. intros k []. Qed.
Lemma request_all es b : es <> [] -> Forall isRequestElement es -> Forall wellFormed es -> afterAll [] es b ->
  redisRequest (encAll es) = Ok (true, at_ (encAll es) (zlen (encAll es)) b).
Proof.
  intros NE R W A. unfold redisRequest, parsePayload. cbn [newRequest m_data].
  pose proof (frames_all redisRequestParser isRequestElement request_frame es [] [] b (S (S (List.length (encAll es)))) NE R W plain_nil A) as X.
  cbn [app] in X. change (zlen (@nil Z)) with 0 in X. apply X. apply (Nat.le_trans _ _ _ (enc_len es)). repeat constructor.
Qed.
Lemma response_all es attrs b : es <> [] -> Forall wellFormed es -> plainNames attrs -> afterAll attrs es b ->
  redisResponse (encAll es) attrs = Ok (true, at_ (encAll es) (zlen (encAll es)) b).
Proof.
  intros NE W P A. unfold redisResponse, parsePayload. cbn [newResponse m_data].
  pose proof (frames_all redisResponseParser (fun _ => True) (fun e p s at0 a _ => response_frame e p s at0 a) es [] attrs b (S (S (List.length (encAll es)))) NE) as X.
  cbn [app] in X. change (zlen (@nil Z)) with 0 in X. apply X; [apply Forall_forall; trivial|exact W|exact P|exact A|apply (Nat.le_trans _ _ _ (enc_len es)); repeat constructor].
Qed.

(** The labels at the end. *)
Definition lastCommand (ss : list bytes) : option bytes := find isRedisCommand (rev ss).
Lemma lastCommand_cons s ss : lastCommand (s :: ss) = match lastCommand ss with Some c => Some c | None => if isRedisCommand s then Some s else None end.
Proof.
  unfold lastCommand. cbn [rev]. induction (rev ss) as [|x l IH]; cbn [app find]; [reflexivity|]. destruct (isRedisCommand x); [reflexivity|exact IH].
Qed.
Lemma aget_after_other attrs e a k : after attrs e a -> k <> LContentKey -> k <> LRedisCommand -> k <> LRedisErrMsg -> k <> LIsError -> k <> LErrorType -> aget a k = aget attrs k.
Proof.
  intros A N1 N2 N3 N4 N5. destruct A as [e K|s|s t T]; [reflexivity| |].
  - unfold recordCommand. destruct (isRedisCommand s); [|reflexivity]. rewrite !aget_aset_other by assumption. reflexivity.
  - unfold recordError. destruct s; [reflexivity|]. destruct (ahas attrs LRedisErrMsg); [reflexivity|]. rewrite !aget_aset_other by assumption. reflexivity.
Qed.
Lemma command_labels es : forall attrs b, afterAll attrs es b ->
  (forall k, k = LContentKey \/ k = LRedisCommand -> aget b k = match lastCommand (bulks es) with Some c => Some (SV c) | None => aget attrs k end).
Proof.
  induction es as [|e es IH]; intros attrs b A k K; [inversion A; subst; reflexivity|]. inversion A as [|? ? a ? A1 A2]; subst.
  rewrite (IH a b A2 k K). destruct A1 as [e KE|s|s t T].
  - destruct e; try contradiction; reflexivity.
  - change (bulks (Bulk s :: es)) with (s :: bulks es). rewrite lastCommand_cons. destruct (lastCommand (bulks es)); [reflexivity|].
    unfold recordCommand. destruct (isRedisCommand s); [|reflexivity]. destruct K as [-> | ->]; labels; reflexivity.
  - change (bulks (Error s :: es)) with (bulks es). destruct (lastCommand (bulks es)); [reflexivity|]. unfold recordError. destruct s; [reflexivity|].
    destruct (ahas attrs LRedisErrMsg); [reflexivity|]. destruct K as [-> | ->]; labels; reflexivity.
Qed.
Lemma error_labels es : forall attrs b, afterAll attrs es b -> 
  match (if ahas attrs LRedisErrMsg then [] else errors es) with
  | [] => aget b LRedisErrMsg = aget attrs LRedisErrMsg /\ aget b LIsError = aget attrs LIsError /\ aget b LErrorType = aget attrs LErrorType
  | s :: _ => exists t, formatUtf8 s = Ok t /\ aget b LRedisErrMsg = Some (SV t) /\ aget b LIsError = Some (BV true) /\ aget b LErrorType = Some (IV ProtocolError)
  end.
Proof.
  induction es as [|e es IH]; intros attrs b A.
  - inversion A; subst. match goal with |- context [ahas ?x LRedisErrMsg] => destruct (ahas x LRedisErrMsg) end; (split; [|split]; reflexivity).
  - inversion A as [|? ? a ? A1 A2]; subst. specialize (IH a b A2). destruct A1 as [e KE|s|s t T].
    + replace (errors (e :: es)) with (errors es) by (destruct e; try contradiction; reflexivity). exact IH.
    + change (errors (Bulk s :: es)) with (errors es). unfold recordCommand in IH. destruct (isRedisCommand s); [|exact IH].
      replace (ahas (aset (aset attrs LContentKey (SV s)) LRedisCommand (SV s)) LRedisErrMsg) with (ahas attrs LRedisErrMsg) in IH by (unfold ahas; labels; reflexivity).
      destruct (if ahas attrs LRedisErrMsg then [] else errors es); [|exact IH]. destruct IH as (I1 & I2 & I3). rewrite I1, I2, I3. labels. split; [|split]; reflexivity.
    + destruct s as [|c s]; [exact IH|]. change (errors (Error (c :: s) :: es)) with ((c :: s) :: errors es). unfold recordError in IH.
      destruct (ahas attrs LRedisErrMsg) eqn:Q; [rewrite Q in IH; exact IH|].
      replace (ahas (aset (aset (aset attrs LRedisErrMsg (SV t)) LIsError (BV true)) LErrorType (IV ProtocolError)) LRedisErrMsg) with true in IH by (unfold ahas; labels; reflexivity).
      exists t. split; [exact T|]. destruct IH as (I1 & I2 & I3). rewrite I1, I2, I3. labels. split; [|split]; reflexivity.
Qed.

(** The recorded command of a request is its last bulk string that names a command, exactly as sent; without any, none is recorded. *)
Theorem C22_request es : es <> [] -> Forall isRequestElement es -> Forall wellFormed es ->
  exists m, redisRequest (encAll es) = Ok (true, m) /\
    ((forall s, In s (bulks es) -> ~ commandOf redisCommands s) -> label (m_attrs m) LRedisCommand = None /\ label (m_attrs m) LContentKey = None) /\
    (forall before c behind, bulks es = before ++ c :: behind -> commandOf redisCommands c -> (forall s, In s behind -> ~ commandOf redisCommands s) ->
       label (m_attrs m) LRedisCommand = Some (SV c) /\ label (m_attrs m) LContentKey = Some (SV c)) /\
    label (m_attrs m) LIsError = None.
Proof.
  intros NE R W. destruct (afterAll_ex es []) as (b & A). eexists. split; [apply request_all; eassumption|].
  cbn [at_ m_attrs]. unfold label. pose proof (command_labels es [] b A) as C.
  assert (NOERR : errors es = []).
  { clear -R. induction R as [|e es RE R IH]; [reflexivity|]. destruct e; try contradiction; exact IH. }
  split; [|split].
  - intros NC. rewrite !C by tauto. assert (X : lastCommand (bulks es) = None); [|rewrite X; split; reflexivity].
    unfold lastCommand. destruct (find isRedisCommand (rev (bulks es))) as [c|] eqn:E; [|reflexivity]. apply find_some in E. destruct E as [I E].
    exfalso. apply (NC c); [apply in_rev; exact I|apply isRedisCommand_spec; exact E].
  - intros before c behind E CC NB. rewrite !C by tauto. assert (X : lastCommand (bulks es) = Some c); [|rewrite X; split; reflexivity].
    rewrite E. clear -CC NB. unfold lastCommand. rewrite rev_app_distr. cbn [rev]. rewrite <- app_assoc. 
    assert (Y : forall l, (forall s, In s l -> isRedisCommand s = false) -> forall r, find isRedisCommand (l ++ r) = find isRedisCommand r).
    { induction l as [|x l IH]; intros H r; [reflexivity|]. cbn [app find]. rewrite (H x (or_introl eq_refl)). apply IH. intros s I. apply H. right. exact I. }
    rewrite Y. 
    + cbn [app find]. rewrite (proj2 (isRedisCommand_spec c) CC). reflexivity.
    + intros s I. apply in_rev in I. destruct (isRedisCommand s) eqn:Q; [|reflexivity]. exfalso. apply (NB s I). apply isRedisCommand_spec. exact Q.
  - pose proof (error_labels es [] b A) as X. rewrite NOERR in X. cbn [ahas aget] in X. destruct X as (_ & X & _). exact X.
Qed.
Print Assumptions C22_request.

(** A command (an array of bulk strings) none of whose arguments is the name of a command is recorded as sent. *)
Theorem C22_command_sent name args : commandOf redisCommands name -> (forall a, In a args -> ~ commandOf redisCommands a) ->
  (forall s, In s (name :: args) -> noCR s /\ fits (zlen s)) -> fits (1 + zlen args) ->
  exists m, redisRequest (encAll (command name args)) = Ok (true, m) /\ label (m_attrs m) LRedisCommand = Some (SV name) /\ label (m_attrs m) LContentKey = Some (SV name).
Proof.
  intros C NA W F. destruct (C22_request (command name args)) as (m & E & _ & H & _).
  - discriminate.
  - unfold command. constructor; [exact I|]. constructor; [exact I|]. apply Forall_forall. intros e Ie. apply in_map_iff in Ie. destruct Ie as (a & <- & _). exact I.
  - unfold command. constructor; [exact F|]. constructor; [apply W; left; reflexivity|]. apply Forall_forall. intros e Ie. apply in_map_iff in Ie. destruct Ie as (a & <- & Ia). apply W. right. exact Ia.
  - exists m. split; [exact E|]. apply (H [] name args); [|exact C|exact NA]. cbn [command bulks flat_map app]. f_equal. clear. induction args as [|a args IH]; [reflexivity|]. cbn [map flat_map app]. f_equal. exact IH.
Qed.
Print Assumptions C22_command_sent.
Example C22_command_ex : exists m, redisRequest (encAll (command (bs "get") [bs "user:1"])) = Ok (true, m) /\ label (m_attrs m) LRedisCommand = Some (SV (bs "get")).
Proof.
  destruct (C22_command_sent (bs "get") [bs "user:1"]) as (m & E & L & _).
  - apply isRedisCommand_spec. vm_compute. reflexivity.
  - intros a [<-|[]]. apply notCommand. vm_compute. reflexivity.
  - intros s [<-|[<-|[]]]; (split; [unfold noCR; vm_compute; intuition discriminate|unfold fits; vm_compute; intuition discriminate]).
  - unfold fits. vm_compute. intuition discriminate.
  - exists m. split; [exact E|exact L].
Qed.

(** Every sequence of replies is recognised; the error labels are set exactly when it holds a non-empty error, with the first one's text. *)
Theorem C22_response es attrs : es <> [] -> Forall wellFormed es -> plainNames attrs -> label attrs LRedisErrMsg = None ->
  exists m, redisResponse (encAll es) attrs = Ok (true, m) /\
    (errors es = [] -> label (m_attrs m) LIsError = label attrs LIsError /\ label (m_attrs m) LErrorType = label attrs LErrorType /\ label (m_attrs m) LRedisErrMsg = None) /\
    (forall s more, errors es = s :: more -> exists t cut, s = t ++ cut /\ (asciiText s -> t = s) /\
       label (m_attrs m) LRedisErrMsg = Some (SV t) /\ label (m_attrs m) LIsError = Some (BV true) /\ label (m_attrs m) LErrorType = Some (IV ProtocolError)) /\
    ((forall s, In s (bulks es) -> ~ commandOf redisCommands s) ->
       label (m_attrs m) LRedisCommand = label attrs LRedisCommand /\ label (m_attrs m) LContentKey = label attrs LContentKey).
Proof.
  intros NE W P NM. destruct (afterAll_ex es attrs) as (b & A). eexists. split; [apply response_all; eassumption|].
  cbn [at_ m_attrs]. unfold label in *. pose proof (error_labels es attrs b A) as X. replace (ahas attrs LRedisErrMsg) with false in X by (unfold ahas; rewrite NM; reflexivity).
  split; [|split].
  - intros E. rewrite E in X. destruct X as (X1 & X2 & X3). split; [exact X2|]. split; [exact X3|]. rewrite X1. exact NM.
  - intros s more E. rewrite E in X. destruct X as (t & T & X). destruct (formatUtf8_prefix s) as (q & r & Q & D). rewrite T in Q. injection Q as <-.
    exists t, r. split; [exact D|]. split; [|exact X]. intros AS. rewrite (formatUtf8_ascii _ AS) in T. congruence.
  - intros NC. pose proof (command_labels es attrs b A) as C. rewrite !C by tauto.
    assert (X2 : lastCommand (bulks es) = None); [|rewrite X2; split; reflexivity].
    unfold lastCommand. destruct (find isRedisCommand (rev (bulks es))) as [c|] eqn:E; [|reflexivity]. apply find_some in E. destruct E as [I E].
    exfalso. apply (NC c); [apply in_rev; exact I|apply isRedisCommand_spec; exact E].
Qed.
Print Assumptions C22_response.
Example C22_response_ex : exists m, redisResponse (encAll [Error (bs "ERR unknown command")]) [(LContentKey, SV (bs "get"))] = Ok (true, m) /\
  label (m_attrs m) LIsError = Some (BV true) /\ label (m_attrs m) LRedisErrMsg = Some (SV (bs "ERR unknown command")) /\ label (m_attrs m) LContentKey = Some (SV (bs "get")).
Proof. eexists. split; [vm_compute; reflexivity|]. split; [reflexivity|]. split; reflexivity. Qed.

(** A bulk string whose announced length is not its length is not recognised, neither is an unknown keyword. *)
Theorem C22_malformed es n s more attrs : Forall wellFormed es -> plainNames attrs ->
  (noCR s -> fits n -> n <> zlen s -> n <> -1 -> exists m, redisResponse (encAll es ++ bs "$" ++ formatInt n ++ crlf ++ s ++ crlf ++ more) attrs = Ok (false, m)) /\
  (forall b, ~ In b [43; 45; 42; 36; 58] -> exists m, redisResponse (encAll es ++ b :: more) attrs = Ok (false, m)).
Proof.
  intros W P.
  assert (GO : forall tail, tail <> [] -> (forall pre a, exists m, parseOneFrame redisResponseParser (at_ (pre ++ tail) (zlen pre) a) = Ok (PFail, m)) ->
                 exists m, redisResponse (encAll es ++ tail) attrs = Ok (false, m)).
  { intros tail TN H. unfold redisResponse, parsePayload. cbn [newResponse m_data].
    assert (L : forall es pre at0 f, Forall wellFormed es -> plainNames at0 -> (List.length es < f)%nat ->
       exists m, framesLoop f redisResponseParser (at_ (pre ++ encAll es ++ tail) (zlen pre) at0) = Ok (false, m)).
    { clear es W. induction es as [|e es IH]; intros pre at0 f W PN F; (destruct f as [|f]; [lia|]); cbn [framesLoop].
      - cbn [encAll map List.concat app]. destruct (H pre at0) as (m & E). rewrite E. cbn [bind]. exists m. reflexivity.
      - inversion W; subst. destruct (after_ex at0 e) as (a & A). change (encAll (e :: es)) with (enc e ++ encAll es). rewrite <- app_assoc.
        rewrite (response_frame e pre (encAll es ++ tail) at0 a) by assumption. cbn [bind].
        assert (PR : progress (encAll es ++ tail) = POk) by (destruct (encAll es ++ tail) eqn:Q; [apply app_eq_nil in Q; destruct Q; congruence|reflexivity]). rewrite PR.
        rewrite (app_assoc pre). apply IH; [assumption|eapply after_plainNames; eassumption|cbn in F; lia]. }
    specialize (L es [] attrs (S (S (List.length (encAll es ++ tail)))) W P). cbn [app] in L. change (zlen (@nil Z)) with 0 in L. apply L.
    rewrite app_length. pose proof (enc_len es). lia. }
  split.
  - intros N F D D1. apply GO; [discriminate|]. intros pre a. set (hd := 36 :: formatInt n ++ crlf).
    assert (EE : pre ++ bs "$" ++ formatInt n ++ crlf ++ s ++ crlf ++ more = pre ++ hd ++ s ++ 13 :: 10 :: more) by (unfold hd; cbn [bs list_ascii_of_string map app]; rewrite <- !app_assoc; reflexivity).
    match goal with |- context [at_ ?x _ _] => replace x with (pre ++ hd ++ s ++ 13 :: 10 :: more) by (symmetry; exact EE) end.
    assert (BK : parseRedisBulkString (at_ (pre ++ hd ++ s ++ 13 :: 10 :: more) (zlen pre) a) = Ok ((false, true), at_ (pre ++ hd ++ s ++ 13 :: 10 :: more) (zlen pre) a)).
    { unfold parseRedisBulkString. cbn [at_ m_data m_off m_attrs]. unfold hd at 1. rewrite line_at by apply formatInt_noCR. cbn [bind]. rewrite (parse_fits _ F). cbn [negb].
      replace (n =? -1) with false by lia. fold hd. 
      replace (readUntilCRLF (pre ++ hd ++ s ++ 13 :: 10 :: more) (zlen (pre ++ hd))) with (Ok (Some (s, zlen (pre ++ hd) + zlen s + 2))).
      2: { symmetry. destruct (C20_until_crlf (pre ++ hd) s more N) as (E & _). rewrite (app_assoc pre). exact E. }
      cbn [bind]. replace (zlen s =? n) with false by lia. reflexivity. }
    unfold redisResponseParser. cbn [parseOneFrame]. unfold parseRedisRoot. unfold hd in *. repeat ff. rewrite BK. cbn [bind negb]. repeat ff. eexists. reflexivity.
  - intros b NB. apply GO; [discriminate|]. intros pre a. unfold redisResponseParser. cbn [parseOneFrame]. unfold fastfailByte at 1.
    change (pre ++ b :: more) with (pre ++ [b] ++ more). rewrite first_at. cbn [bind].
    replace (negb (existsb (Z.eqb b) [43; 45; 42; 36; 58])) with true; [eexists; reflexivity|].
    symmetry. apply negb_true_iff. destruct (existsb _ _) eqn:Q; [|reflexivity]. apply existsb_exists in Q. destruct Q as (x & I & Q). apply Z.eqb_eq in Q. subst x. contradiction.
Qed.
Print Assumptions C22_malformed.

(** Findings. An argument that is the name of a command is recorded instead of the command sent: "SET key get". *)
Theorem C22_argument_wins_refuted : exists m, redisRequest (encAll (command (bs "SET") [bs "key"; bs "get"])) = Ok (true, m) /\
  label (m_attrs m) LRedisCommand = Some (SV (bs "get")) /\ label (m_attrs m) LContentKey = Some (SV (bs "get")).
Proof. eexists. split; [vm_compute; reflexivity|]. split; reflexivity. Qed.
Print Assumptions C22_argument_wins_refuted.
(** The reply's value overwrites the request's command: "GET key" answered with "time". *)
Theorem C22_reply_overwrites_refuted : exists m1 m2, redisRequest (encAll (command (bs "GET") [bs "key"])) = Ok (true, m1) /\
  label (m_attrs m1) LContentKey = Some (SV (bs "GET")) /\
  redisResponse (encAll [Bulk (bs "time")]) (m_attrs m1) = Ok (true, m2) /\ label (m_attrs m2) LContentKey = Some (SV (bs "time")).
Proof. eexists. eexists. split; [vm_compute; reflexivity|]. split; [reflexivity|]. split; [vm_compute; reflexivity|reflexivity]. Qed.
Print Assumptions C22_reply_overwrites_refuted.
(** A binary value that holds a carriage return makes a well-formed request unrecognised. *)
Theorem C22_binary_value_refuted : exists m, redisRequest (encAll (command (bs "SET") [bs "key"; [1; 13; 2]])) = Ok (false, m).
Proof. eexists. vm_compute. reflexivity. Qed.
Print Assumptions C22_binary_value_refuted.

(** The words that count as a command are exactly the known ones, in any letter case. *)
Theorem C22_commands s : commandOf redisCommands s <-> commandOf knownCommands s.
Proof.
  unfold commandOf.
  assert (A : forallb (fun c => existsb (eqb c) knownCommands) redisCommands = true) by (vm_compute; reflexivity).
  assert (B : forallb (fun c => existsb (eqb c) redisCommands) knownCommands = true) by (vm_compute; reflexivity).
  rewrite forallb_forall in A, B. rewrite !in_map_iff. split; intros (c & E & I); exists c; (split; [exact E|]).
  - specialize (A c I). apply existsb_exists in A. destruct A as (x & Ix & X). apply eqb_true in X. rewrite X. exact Ix.
  - specialize (B c I). apply existsb_exists in B. destruct B as (x & Ix & X). apply eqb_true in X. rewrite X. exact Ix.
Qed.
Print Assumptions C22_commands.
Example exCommands : commandOf knownCommands (bs "xPending") /\ ~ commandOf knownCommands (bs "pending").
Proof. split; [|rewrite <- C22_commands; intros C; apply isRedisCommand_spec in C; vm_compute in C; discriminate]. apply C22_commands, isRedisCommand_spec. vm_compute. reflexivity. Qed.
