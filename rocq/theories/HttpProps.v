(** C21: HTTP request and status lines. C28: APM trace headers. *)
From Verif Require Import Base Decimal DetectProofs AttrModel LabelNames MsgModel ReaderSpec ReaderProofs ReaderProps TextModel TextSpec TextProofs TextProps HttpModel HttpSpec HttpProofs.
Open Scope string_scope. Open Scope list_scope. Open Scope Z_scope.

(** The words read by the parsers. *)
Lemma split3 {A} (d : list A) i j : 0 <= i -> i <= j -> j <= zlen d -> exists p s, d = p ++ slice d i j ++ s /\ zlen p = i /\ zlen (slice d i j) = j - i.
Proof.
  intros I J L. exists (firstn (Z.to_nat i) d), (skipn (Z.to_nat (j - i)) (skipn (Z.to_nat i) d)). split; [|split].
  - unfold slice. rewrite firstn_skipn, firstn_skipn. reflexivity.
  - unfold zlen in *. rewrite firstn_length. lia.
  - apply slice_length; assumption.
Qed.
Lemma no_blank (p v s : bytes) c : (forall k, zlen p <= k < zlen p + zlen v -> gindex (p ++ v ++ s) k <> Ok c) -> ~ In c v.
Proof.
  intros H I. apply in_split in I. destruct I as (a & b & ->). pose proof (zlen_nonneg a). pose proof (zlen_nonneg b).
  apply (H (zlen p + zlen a)); [rewrite zlen_app, zlen_cons; lia|]. rewrite gindex_app_r by lia. rewrite <- app_assoc.
  replace (zlen a) with (zlen a + 0) by lia. rewrite gindex_app_r by lia. reflexivity.
Qed.
Lemma blank_at (p v s : bytes) c : gindex (p ++ v ++ s) (zlen p + zlen v) = Ok c -> exists s', s = c :: s'.
Proof.
  pose proof (zlen_nonneg v). rewrite gindex_app_r by lia. replace (zlen v) with (zlen v + 0) by lia. rewrite gindex_app_r by lia.
  destruct s as [|x s]; [discriminate|]. rewrite gindex_0. intros E. injection E as ->. exists s. reflexivity.
Qed.
Lemma blank_word d from n : 0 <= from -> 0 < n -> from + n < zlen d -> exists v o pre s, readUntilBlankWithLength d from n = Ok (v, o) /\
  ~ In 32 v /\ d = pre ++ v ++ s /\ zlen pre = from /\
  ((o = from + zlen v + 1 /\ zlen v < n /\ exists s', s = 32 :: s') \/ (o = from + n /\ zlen v = n)).
Proof.
  intros F N L. unfold readUntilBlankWithLength. replace (n + from <? zlen d) with true by lia.
  destruct (scan_spec 32 (Z.to_nat (from + n - from)) d from) as [(j & E & J & G & M)|[E M]]; [lia|lia| |]; rewrite E; cbn [bind]; rewrite gslice_ok by lia; cbn [bind].
  - destruct (split3 d from j) as (p & s & D & P & SL); [lia|lia|lia|]. exists (slice d from j), (j + 1), p, s.
    split; [reflexivity|]. split; [|split; [exact D|split; [exact P|left; split; [lia|split; [lia|]]]]].
    + rewrite D in M. apply (no_blank p _ s). intros k K. apply M. lia.
    + apply (blank_at p (slice d from j)). rewrite <- D. rewrite P, SL. replace (from + (j - from)) with j by lia. exact G.
  - destruct (split3 d from (from + n)) as (p & s & D & P & SL); [lia|lia|lia|]. exists (slice d from (from + n)), (from + n), p, s.
    split; [reflexivity|]. split; [|split; [exact D|split; [exact P|right; split; [lia|lia]]]].
    rewrite D in M. apply (no_blank p _ s). intros k K. apply M. lia.
Qed.
Lemma blank_rest d from : 0 <= from <= zlen d -> exists v o pre s, readUntilBlank d from = Ok (v, o) /\
  ~ In 32 v /\ d = pre ++ v ++ s /\ zlen pre = from /\ (s = [] \/ exists s', s = 32 :: s').
Proof.
  intros F. unfold readUntilBlank.
  destruct (scan_spec 32 (Z.to_nat (zlen d - from)) d from) as [(j & E & J & G & M)|[E M]]; [lia|lia| |]; rewrite E; cbn [bind]; rewrite gslice_ok by lia; cbn [bind].
  - destruct (split3 d from j) as (p & s & D & P & SL); [lia|lia|lia|]. exists (slice d from j), (j + 1), p, s.
    split; [reflexivity|]. split; [|split; [exact D|split; [exact P|right]]].
    + rewrite D in M. apply (no_blank p _ s). intros k K. apply M. lia.
    + apply (blank_at p (slice d from j)). rewrite <- D. rewrite P, SL. replace (from + (j - from)) with j by lia. exact G.
  - destruct (split3 d from (zlen d)) as (p & s & D & P & SL); [lia|lia|lia|]. exists (slice d from (zlen d)), (zlen d), p, s.
    split; [reflexivity|]. split; [|split; [exact D|split; [exact P|left]]].
    + rewrite D in M. apply (no_blank p _ s). intros k K. apply M. rewrite <- D. lia.
    + pose proof (zlen_nonneg s). assert (LD : zlen d = zlen p + zlen (slice d from (zlen d)) + zlen s) by (rewrite D at 1; rewrite !zlen_app; lia).
      destruct s; [reflexivity|]. rewrite zlen_cons in LD. pose proof (zlen_nonneg s). lia.
Qed.

Lemma app_eq_len {A} (p q r s : list A) : p ++ r = q ++ s -> List.length p = List.length q -> p = q /\ s = r.
Proof.
  revert q. induction p as [|a p IH]; intros [|b q] E L; cbn in L; try discriminate; cbn [app] in E.
  - split; [reflexivity|symmetry; exact E].
  - injection E as -> E. destruct (IH q E) as [-> ->]; [lia|]. split; reflexivity.
Qed.

(** the first word of a payload is determined by it *)
Lemma word_unique (a b r s : bytes) c : ~ In c a -> ~ In c b -> a ++ c :: r = b ++ c :: s -> a = b /\ r = s.
Proof.
  revert b. induction a as [|x a IH]; intros [|y b] NA NB E; cbn [app] in E.
  - injection E as ->. split; reflexivity.
  - injection E as -> E. exfalso. apply NB. left. reflexivity.
  - injection E as -> E. exfalso. apply NA. left. reflexivity.
  - injection E as -> E. destruct (IH b) as [-> ->]; [intros I; apply NA; right; exact I|intros I; apply NB; right; exact I|exact E|]. split; reflexivity.
Qed.
Lemma word_long (a b r s : bytes) c : ~ In c a -> ~ In c b -> a ++ r = b ++ c :: s -> (List.length a <= List.length b)%nat.
Proof.
  revert b. induction a as [|x a IH]; intros [|y b] NA NB E; cbn [app List.length] in *; try lia.
  - injection E as -> E. exfalso. apply NA. left. reflexivity.
  - injection E as -> E. specialize (IH b). assert (H : (List.length a <= List.length b)%nat); [|lia]. apply IH; [intros I; apply NA; right; exact I|intros I; apply NB; right; exact I|exact E].
Qed.

Section Http.
  Context (b64 : bytes -> option bytes) (clustering : bytes -> bytes).

  (** What the request parser does once the method is known. *)
  Lemma request_tail m offset meth : 0 <= offset <= zlen (m_data m) -> exists url pre s u key t,
    bind (readUntilBlank (m_data m) offset) (fun '(url, _) =>
                bind (addTrace b64 m) (fun m1 =>
                  bind (formatUtf8 url) (fun u =>
                    let key0 := clustering url in
                    bind (formatUtf8 (if zlen key0 =? 0 then bs "*" else key0)) (fun key =>
                      Ok ((true, true),
                          addAttr (addAttr (addAttr m1 LHttpMethod (SV meth)) LHttpUrl (SV u)) LContentKey (SV key)))))) =
    Ok ((true, true), addAttr (addAttr (addAttr (withTrace m t) LHttpMethod (SV meth)) LHttpUrl (SV u)) LContentKey (SV key)) /\
    ~ In 32 url /\ m_data m = pre ++ url ++ s /\ zlen pre = offset /\ (s = [] \/ exists s', s = 32 :: s') /\
    formatUtf8 url = Ok u /\ formatUtf8 (match clustering url with [] => bs "*" | k => k end) = Ok key /\ addTrace b64 m = Ok (withTrace m t).
  Proof.
    intros B. destruct (blank_rest _ _ B) as (v & o & pre & s & E & N & D & P & R). rewrite E. cbn [bind].
    destruct (addTrace_total b64 m) as (t & T). rewrite T. cbn [bind].
    destruct (formatUtf8_prefix v) as (u & ur & U & _). rewrite U. cbn [bind]. cbn zeta.
    destruct (formatUtf8_prefix (if zlen (clustering v) =? 0 then bs "*" else clustering v)) as (k & kr & K & _). rewrite K. cbn [bind].
    exists v, pre, s, u, k, t. split; [reflexivity|]. split; [exact N|]. split; [exact D|]. split; [exact P|]. split; [exact R|]. split; [exact U|]. split; [|reflexivity].
    destruct (clustering v) as [|x l]; [exact K|]. replace (zlen (x :: l) =? 0) with false in K by (rewrite zlen_cons; pose proof (zlen_nonneg l); lia). exact K.
  Qed.

  (** the method a request line announces *)
  Definition announces (method : string) (url : bytes) (meth : string) : Prop :=
    (In method methods /\ meth = method) \/ (method = "ET" /\ starts_with (bs "/") url = true /\ meth = "GET").

  Lemma isMethod_in v : isMethod v = true -> exists m, In m methods /\ v = bs m.
  Proof.
    unfold isMethod, httpMethods. intros E. apply existsb_exists in E. destruct E as (x & I & Q). apply eqb_true in Q. subst x.
    apply in_map_iff in I. destruct I as (m & <- & I). exists m. split; [exact I|reflexivity].
  Qed.
  Lemma isMethod_of m : In m methods -> isMethod (bs m) = true.
  Proof. intros I. unfold isMethod, httpMethods. apply existsb_exists. exists (bs m). split; [apply in_map; exact I|apply eqb_refl]. Qed.
  Lemma method_len m : In m methods -> zlen (bs m) <= 7 /\ ~ In 32 (bs m) /\ 3 <= zlen (bs m).
  Proof. cbn [methods In]. intros [<-|[<-|[<-|[<-|[<-|[<-|[<-|[<-|[]]]]]]]]]; (split; [vm_compute; discriminate|split; [vm_compute; intuition discriminate|vm_compute; discriminate]]). Qed.

  Lemma request_cases d : ((exists m, httpRequest b64 clustering d = Ok (false, m)) /\ (zlen d < 14 \/ forall method url meth, requestLine d method url -> ~ announces method url meth)) \/
    exists method meth url u key t, 14 <= zlen d /\ requestLine d method url /\ announces method url meth /\
      httpRequest b64 clustering d = Ok (true, addAttr (addAttr (addAttr (withTrace (newRequest d) t) LHttpMethod (SV (bs meth))) LHttpUrl (SV u)) LContentKey (SV key)) /\
      formatUtf8 url = Ok u /\ formatUtf8 (match clustering url with [] => bs "*" | k => k end) = Ok key /\ addTrace b64 (newRequest d) = Ok (withTrace (newRequest d) t).
  Proof.
    pose proof (zlen_nonneg d). unfold httpRequest, parsePayload, httpRequestParser. cbn [parseOneFrame]. unfold fastfailHttpRequest.
    cbn [newRequest m_data m_off]. rewrite gslice_ok by lia. rewrite slice_all. cbn [bind].
    destruct (zlen d <? 14) eqn:Q; [left; split; [eexists; reflexivity|left; lia]|]. unfold parseHttpRequest. cbn [newRequest m_data m_off].
    destruct (blank_word d 0 8) as (v & o & pre & s & E & N & D & P & C); [lia|lia|lia|]. rewrite E. cbn [bind].
    destruct pre; [|rewrite zlen_cons in P; pose proof (zlen_nonneg pre); lia]. cbn [app] in D. clear P. pose proof (zlen_nonneg v) as VL.
    assert (LD : zlen d = zlen v + zlen s) by (rewrite D, zlen_app; reflexivity). pose proof (zlen_nonneg s) as SLn.
    assert (W : forall method url meth, requestLine d method url -> announces method url meth -> v = bs method /\ o = zlen v + 1 /\ exists r, d = bs method ++ 32 :: url ++ r).
    { intros method url meth (_ & r & DR & _) AN.
      assert (MB : ~ In 32 (bs method) /\ zlen (bs method) <= 7).
      { destruct AN as [[I _]|(-> & _)]; [destruct (method_len _ I) as (? & ? & _); split; assumption|]. split; [vm_compute; intuition discriminate|vm_compute; discriminate]. }
      destruct MB as [MB ML]. assert (EQ : v ++ s = bs method ++ 32 :: url ++ r) by (rewrite <- DR; symmetry; exact D).
      destruct C as [(O & _ & s' & ->)|[_ C]].
      - apply word_unique in EQ; [|exact N|exact MB]. destruct EQ as [-> _]. split; [reflexivity|]. split; [lia|]. exists r. exact DR.
      - apply word_long in EQ; [|exact N|exact MB]. unfold zlen in *. lia. }
    destruct (isMethod v) eqn:IM; cbn [bind].
    - apply isMethod_in in IM. destruct IM as (me & I & ->). pose proof (method_len me I) as (ML & _).
      destruct C as [(O & _ & s' & ->)|[_ C]]; [|lia].
      destruct (request_tail (newRequest d) o (bs me)) as (url & pre & r & u & key & t & R & NU & DU & PU & RR & U & K & T); [cbn [newRequest m_data]; rewrite zlen_cons in LD; pose proof (zlen_nonneg s'); lia|].
      cbn [newRequest m_data] in R, DU. right. exists me, me, url, u, key, t. split; [lia|]. split.
      { split; [exact NU|]. exists r. split; [|exact RR].
        assert (PE : pre = bs me ++ [32] /\ s' = url ++ r).
        { apply (app_eq_len pre (bs me ++ [32])).
          - rewrite <- DU. rewrite D at 1. rewrite <- app_assoc. reflexivity.
          - unfold zlen in *. rewrite app_length. cbn [List.length]. lia. }
        destruct PE as [_ ->]. exact D. }
      split; [left; split; [exact I|reflexivity]|]. split; [|split; [exact U|split; [exact K|exact T]]].
      unfold newRequest in *. cbn [m_data] in R. rewrite R. reflexivity.
    - assert (O1 : 1 <= o) by (destruct C as [(O & _)|[O _]]; lia). assert (O8 : o <= 8) by (destruct C as [(O & ? & _)|[O _]]; lia).
      assert (W2 : forall method url meth, requestLine d method url -> announces method url meth -> v = bs "ET" /\ gindex d (o - 1) = Ok 32 /\ gindex d o = Ok 47).
      { intros method url meth RL AN. destruct (W _ _ _ RL AN) as (-> & Oo & r & DR). destruct AN as [[I _]|(-> & SW & _)]; [rewrite (isMethod_of _ I) in IM; discriminate|].
        split; [reflexivity|]. destruct url as [|c url]; [discriminate|]. cbn [bs list_ascii_of_string map starts_with] in SW. rewrite andb_true_r in SW. apply Z.eqb_eq in SW.
        rewrite Oo, DR. change (zlen (bs "ET") + 1 - 1) with 2. change (zlen (bs "ET") + 1) with 3. split; [reflexivity|]. rewrite <- SW. reflexivity. }
      destruct (gindex_in d (o - 1)) as (a & A); [lia|]. rewrite A. cbn [bind].
      destruct (a =? 32) eqn:QA; cbn [negb]; [|left; split; [eexists; reflexivity|right; intros method url meth RL AN; destruct (W2 _ _ _ RL AN) as (_ & G & _); rewrite A in G; injection G as ->; discriminate]].
      apply Z.eqb_eq in QA. subst a.
      destruct (gindex_in d o) as (b & B); [lia|]. rewrite B. cbn [bind].
      destruct (b =? 47) eqn:QB; cbn [negb]; [|left; split; [eexists; reflexivity|right; intros method url meth RL AN; destruct (W2 _ _ _ RL AN) as (_ & _ & G); rewrite B in G; injection G as ->; discriminate]].
      apply Z.eqb_eq in QB. subst b.
      destruct (eqb v (bs "ET")) eqn:ET; cbn [bind]; [|left; split; [eexists; reflexivity|right; intros method url meth RL AN; destruct (W2 _ _ _ RL AN) as (G & _); rewrite G, eqb_refl in ET; discriminate]]. apply eqb_true in ET. subst v. change (zlen (bs "ET")) with 2 in *.
      destruct C as [(O & _ & s' & ->)|[_ C]]; [|lia].
      destruct (request_tail (newRequest d) o (bs "GET")) as (url & pre & r & u & key & t & R & NU & DU & PU & RR & U & K & T); [cbn [newRequest m_data]; lia|].
      cbn [newRequest m_data] in R, DU. right. exists "ET", "GET", url, u, key, t.
      assert (PE : pre = bs "ET" ++ [32] /\ s' = url ++ r).
      { apply (app_eq_len pre (bs "ET" ++ [32])).
        - rewrite <- DU. rewrite D at 1. rewrite <- app_assoc. reflexivity.
        - unfold zlen in *. rewrite app_length. cbn [List.length bs list_ascii_of_string map]. lia. }
      destruct PE as [-> ->]. split; [lia|]. split; [split; [exact NU|]; exists r; split; [exact D|exact RR]|].
      split.
      { right. split; [reflexivity|]. split; [|reflexivity]. rewrite D in B. replace o with (zlen (bs "ET" ++ [32]) + 0) in B by (rewrite PU; lia).
        change (bs "ET" ++ 32 :: url ++ r) with ((bs "ET" ++ [32]) ++ (url ++ r)) in B. rewrite gindex_app_r in B by lia.
        destruct url as [|c url]; cbn [app] in B.
        - destruct RR as [->|(r' & ->)]; [discriminate|]. rewrite gindex_0 in B. discriminate.
        - rewrite gindex_0 in B. injection B as ->. reflexivity. }
      split; [|split; [exact U|split; [exact K|exact T]]].
      unfold newRequest in *. cbn [m_data] in R. rewrite R. reflexivity.
  Qed.

End Http.
  Lemma requestLine_unique d m1 u1 m2 u2 : ~ In 32 (bs m1) -> ~ In 32 (bs m2) -> requestLine d m1 u1 -> requestLine d m2 u2 -> bs m1 = bs m2 /\ u1 = u2.
  Proof.
    intros N1 N2 (NU1 & r1 & D1 & R1) (NU2 & r2 & D2 & R2). rewrite D1 in D2. apply word_unique in D2; [|exact N1|exact N2]. destruct D2 as [EM D2]. split; [exact EM|].
    destruct R1 as [->|(s1 & ->)], R2 as [->|(s2 & ->)].
    - rewrite !app_nil_r in D2. exact D2.
    - exfalso. apply NU1. rewrite app_nil_r in D2. rewrite D2. apply in_or_app. right. left. reflexivity.
    - exfalso. apply NU2. rewrite app_nil_r in D2. rewrite <- D2. apply in_or_app. right. left. reflexivity.
    - apply word_unique in D2; [tauto|exact NU1|exact NU2].
  Qed.
  Lemma announces_noblank method url meth : announces method url meth -> ~ In 32 (bs method).
  Proof. intros [[I _]|(-> & _)]; [apply method_len; exact I|vm_compute; intuition discriminate]. Qed.

(** A request line with a known method is recorded with exactly that method and url; the content key is the clustered url. *)
Theorem C21_request b64 clustering d method url : 14 <= zlen d -> In method methods -> requestLine d method url ->
  exists m u, httpRequest b64 clustering d = Ok (true, m) /\
    label (m_attrs m) LHttpMethod = Some (SV (bs method)) /\
    label (m_attrs m) LHttpUrl = Some (SV u) /\ (exists cut, url = u ++ cut) /\ (asciiText url -> u = url) /\
    exists key, label (m_attrs m) LContentKey = Some (SV key) /\ (clustering url <> [] -> asciiText (clustering url) -> key = clustering url) /\ (clustering url = [] -> key = bs "*").
Proof.
  intros L I RL. destruct (request_cases b64 clustering d) as [[_ [C|C]]|(me & meth & url' & u & key & t & _ & RL' & AN & E & U & K & _)]; [lia| |].
  - exfalso. apply (C method url method RL). left. split; [exact I|reflexivity].
  - destruct (requestLine_unique d method url me url') as [EM ->]; [apply method_len; exact I|eapply announces_noblank; exact AN|exact RL|exact RL'|].
    assert (MM : meth = method).
    { destruct AN as [[I' ->]|(-> & _)].
      - clear -EM I I'. cbn [methods In] in I, I'. repeat match goal with H : _ \/ _ |- _ => destruct H as [<-|H] end; try contradiction; try reflexivity; vm_compute in EM; discriminate.
      - exfalso. clear -EM I. cbn [methods In] in I. repeat match goal with H : _ \/ _ |- _ => destruct H as [<-|H] end; try contradiction; vm_compute in EM; discriminate. }
    subst meth. eexists. exists u. split; [exact E|]. split; [labels; reflexivity|]. split; [labels; reflexivity|]. split.
    { destruct (formatUtf8_prefix url') as (q & r & Q & D). rewrite U in Q. injection Q as ->. exists r. exact D. }
    split; [intros A; rewrite (formatUtf8_ascii _ A) in U; congruence|].
    exists key. split; [labels; reflexivity|]. split.
    + intros NE A. destruct (clustering url') as [|c l]; [congruence|]. rewrite (formatUtf8_ascii _ A) in K. congruence.
    + intros EE. rewrite EE in K. vm_compute in K. injection K as <-. reflexivity.
Qed.
Print Assumptions C21_request.
Example C21_request_ex : exists m u, httpRequest (fun _ => None) (fun u => u) (bs "GET /a/b HTTP/1.1") = Ok (true, m) /\
  label (m_attrs m) LHttpMethod = Some (SV (bs "GET")) /\ label (m_attrs m) LHttpUrl = Some (SV u) /\ u = bs "/a/b".
Proof.
  destruct (C21_request (fun _ => None) (fun u => u) (bs "GET /a/b HTTP/1.1") "GET" (bs "/a/b")) as (m & u & E & M & U & _ & A & _).
  - vm_compute. discriminate.
  - left. reflexivity.
  - split; [vm_compute; intuition discriminate|]. exists (bs " HTTP/1.1"). split; [reflexivity|right; exists (bs "HTTP/1.1"); reflexivity].
  - exists m, u. split; [exact E|]. split; [exact M|]. split; [exact U|]. apply A. unfold asciiText. repeat constructor; vm_compute; congruence.
Qed.

(** Only request lines are recognised: a known method, or "ET /..." (a GET that lost its first byte), followed by a blank and
    the url that is recorded. *)
Theorem C21_request_only b64 clustering d m : httpRequest b64 clustering d = Ok (true, m) ->
  14 <= zlen d /\ exists method url u, requestLine d method url /\ formatUtf8 url = Ok u /\ label (m_attrs m) LHttpUrl = Some (SV u) /\
    ((In method methods /\ label (m_attrs m) LHttpMethod = Some (SV (bs method))) \/
     (method = "ET" /\ starts_with (bs "/") url = true /\ label (m_attrs m) LHttpMethod = Some (SV (bs "GET")))).
Proof.
  intros H. destruct (request_cases b64 clustering d) as [[(m' & E) _]|(me & meth & url & u & key & t & L & RL & AN & E & U & _)]; rewrite E in H; [discriminate|].
  injection H as <-. split; [exact L|]. exists me, url, u. split; [exact RL|]. split; [exact U|]. split; [labels; reflexivity|].
  destruct AN as [[I ->]|(-> & SW & ->)].
  - left. split; [exact I|]. labels. reflexivity.
  - right. split; [reflexivity|]. split; [exact SW|]. labels. reflexivity.
Qed.
Print Assumptions C21_request_only.

(** No payload makes the parsers index outside it or fail to return a verdict. *)
Lemma blank_word_any d from n : 0 <= from <= zlen d -> 0 < n -> exists v o pre s, readUntilBlankWithLength d from n = Ok (v, o) /\
  ~ In 32 v /\ d = pre ++ v ++ s /\ zlen pre = from /\
  ((o = from + zlen v + 1 /\ zlen v < n /\ exists s', s = 32 :: s') \/ (o = from + zlen v /\ (zlen v = n \/ (zlen v <= n /\ s = [])))).
Proof.
  intros F N. destruct (Z.lt_ge_cases (from + n) (zlen d)) as [L|L].
  - destruct (blank_word d from n) as (v & o & pre & s & E & NB & D & P & C); [lia|lia|lia|]. exists v, o, pre, s.
    split; [exact E|]. split; [exact NB|]. split; [exact D|]. split; [exact P|]. destruct C as [C|[C1 C2]]; [left; exact C|right; split; [lia|left; exact C2]].
  - destruct (blank_rest d from F) as (v & o & pre & s & E & NB & D & P & C).
    assert (LD : zlen d = zlen pre + zlen v + zlen s) by (rewrite D, !zlen_app; lia). pose proof (zlen_nonneg s).
    assert (X : readUntilBlankWithLength d from n = readUntilBlank d from) by (unfold readUntilBlankWithLength, readUntilBlank; replace (n + from <? zlen d) with false by lia; reflexivity).
    exists v, o, pre, s. split; [rewrite X; exact E|]. split; [exact NB|]. split; [exact D|]. split; [exact P|].
    destruct (C20_until_blank pre v (match s with [] => [] | _ :: s' => s' end) NB) as (A & B & _).
    destruct C as [->|(s' & ->)].
    + right. rewrite app_nil_r in D. rewrite <- D, P, E in B. injection B as B. split; [rewrite B, LD; change (zlen (@nil Z)) with 0; lia|]. right. split; [change (zlen (@nil Z)) with 0 in LD; lia|reflexivity].
    + left. rewrite <- D, P, E in A. injection A as A. split; [lia|]. rewrite zlen_cons in LD. pose proof (zlen_nonneg s'). split; [lia|]. exists s'. reflexivity.
Qed.

Definition withStatus (m : msg) (n : Z) : msg :=
  if 400 <=? n then addAttr (addAttr (addAttr m LHttpStatusCode (IV n)) LIsError (BV true)) LErrorType (IV ProtocolError) else addAttr m LHttpStatusCode (IV n).
Definition withContinue (m : msg) (n : Z) : msg := if n =? 100 then addAttr m LHttpContinue (BV true) else m.
Lemma isVersion_in v : isVersion v = true -> exists s, In s versions /\ v = bs s.
Proof. unfold isVersion. intros E. apply orb_prop in E. destruct E as [E|E]; apply eqb_true in E; subst v; [exists "HTTP/1.0"|exists "HTTP/1.1"]; (split; [cbn; tauto|reflexivity]). Qed.
Lemma version_facts s : In s versions -> isVersion (bs s) = true /\ zlen (bs s) = 8 /\ ~ In 32 (bs s).
Proof. cbn [versions In]. intros [<-|[<-|[]]]; (split; [reflexivity|split; [reflexivity|vm_compute; intuition discriminate]]). Qed.
Lemma addTrace_response b64 m : exists m2, (if hasAttr m LHttpApmTraceType then Ok m else addTrace b64 m) = Ok m2 /\
  (hasAttr m LHttpApmTraceType = true -> m2 = m) /\ (hasAttr m LHttpApmTraceType = false -> addTrace b64 m = Ok m2) /\
  forall k, k <> LHttpApmTraceType -> k <> LHttpApmTraceId -> aget (m_attrs m2) k = aget (m_attrs m) k.
Proof.
  destruct (hasAttr m LHttpApmTraceType).
  - exists m. split; [reflexivity|]. split; [reflexivity|]. split; [discriminate|]. reflexivity.
  - destruct (addTrace_total b64 m) as (t & T). exists (withTrace m t). split; [exact T|]. split; [discriminate|]. split; [intros _; exact T|].
    intros k A B. apply withTrace_other; assumption.
Qed.
Lemma clamp_recorded n : (if (999 <? n) || (n <? 99) then 0 else n) = recordedStatus n.
Proof. unfold recordedStatus. destruct (999 <? n) eqn:A, (n <? 99) eqn:B, (99 <=? n) eqn:C, (n <=? 999) eqn:D; cbn [orb andb]; try reflexivity; lia. Qed.

Lemma err_recorded n : (400 <=? recordedStatus n) = (400 <=? n) && (n <=? 999).
Proof. unfold recordedStatus. destruct (99 <=? n) eqn:Q1, (n <=? 999) eqn:Q2, (400 <=? n) eqn:Q3; cbn [andb]; try reflexivity; lia. Qed.
Lemma response_cases b64 d attrs : 
  ((exists m, httpResponse b64 d attrs = Ok (false, m)) /\
     (zlen d < 14 \/ forall version code n, statusLine d version code -> zlen code <= 5 -> parseInt 64 code <> (n, true))) \/
  exists version code rest n m2, 14 <= zlen d /\ In version versions /\ d = bs version ++ 32 :: code ++ rest /\ ~ In 32 code /\ parseInt 64 code = (n, true) /\
    (zlen code = 6 \/ rest = [] \/ exists more, rest = 32 :: more) /\
    httpResponse b64 d attrs = Ok (true, withStatus m2 (recordedStatus n)) /\
    (let m := withContinue (setOff (newResponse d attrs) 9) (recordedStatus n) in
     (hasAttr m LHttpApmTraceType = true -> m2 = m) /\ (hasAttr m LHttpApmTraceType = false -> addTrace b64 m = Ok m2) /\
     forall k, k <> LHttpApmTraceType -> k <> LHttpApmTraceId -> aget (m_attrs m2) k = aget (m_attrs m) k).
Proof.
  pose proof (zlen_nonneg d). unfold httpResponse, parsePayload, httpResponseParser. cbn [parseOneFrame]. unfold fastfailHttpResponse.
  cbn [newResponse m_data m_off]. rewrite gslice_ok by lia. rewrite slice_all. cbn [bind].
  destruct (zlen d <? 14) eqn:Q; [left; split; [eexists; reflexivity|left; lia]|].
  destruct (blank_word d 0 9) as (v & o & pre & s & E & N & D & P & C); [lia|lia|lia|]. rewrite E. cbn [bind].
  destruct pre; [|rewrite zlen_cons in P; pose proof (zlen_nonneg pre); lia]. cbn [app] in D. clear P. pose proof (zlen_nonneg v) as VL.
  assert (LD : zlen d = zlen v + zlen s) by (rewrite D, zlen_app; reflexivity). pose proof (zlen_nonneg s) as SLn.
  assert (W : forall version code, statusLine d version code -> v = bs version /\ exists r, s = 32 :: code ++ 32 :: r).
  { intros version code (I & NC & r & DR). destruct (version_facts _ I) as (_ & L8 & NB).
    assert (EQ : v ++ s = bs version ++ 32 :: code ++ 32 :: r) by (rewrite <- DR; symmetry; exact D).
    destruct C as [(_ & _ & s' & ->)|[_ C]].
    - apply word_unique in EQ; [|exact N|exact NB]. destruct EQ as [-> ->]. split; [reflexivity|]. exists r. reflexivity.
    - apply word_long in EQ; [|exact N|exact NB]. unfold zlen in *. lia. }
  destruct (isVersion v) eqn:IV; cbn [negb].
  2: { left. split; [eexists; reflexivity|]. right. intros version code n SL. destruct (W _ _ SL) as [-> _]. destruct SL as (I & _). rewrite (proj1 (version_facts _ I)) in IV. discriminate. }
  apply isVersion_in in IV. destruct IV as (version & I & ->). destruct (version_facts _ I) as (_ & L8 & NB).
  destruct C as [(O & _ & s' & ->)|[_ C]]; [|lia]. replace o with 9 in * by lia. clear O.
  assert (GB : gindex d (9 - 1) = Ok 32).
  { rewrite D. replace (9 - 1) with (zlen (bs version) + 0) by lia. rewrite gindex_app_r by lia. reflexivity. }
  rewrite GB. cbn [bind]. change (negb (32 =? 32)) with false. cbn iota. cbn [bind]. unfold parseHttpResponse, setOff, newResponse. cbn [m_data m_off m_attrs].
  rewrite zlen_cons in LD. pose proof (zlen_nonneg s').
  destruct (blank_word_any d 9 6) as (code & oc & pc & sc & EC & NC & DC & PC & CC); [lia|lia|]. rewrite EC. cbn [bind].
  assert (SC : s' = code ++ sc).
  { rewrite D in DC. change (bs version ++ 32 :: s') with (bs version ++ [32] ++ s') in DC. rewrite app_assoc in DC. apply app_eq_len in DC; [destruct DC as [_ DC]; symmetry; exact DC|].
    rewrite app_length. unfold zlen in *. cbn [List.length]. lia. }
  destruct (parseInt 64 code) as [n ok] eqn:PI. destruct ok; cbn [negb].
  2: { left. split; [eexists; reflexivity|]. right. intros ver code' n' SL LC PI'. destruct (W _ _ SL) as [_ (r & RR)]. injection RR as RR. destruct SL as (_ & NC' & _).
       assert (EQ : code ++ sc = code' ++ 32 :: r) by (rewrite <- SC; exact RR).
       destruct CC as [(_ & _ & s2 & ->)|(_ & [CC|[_ ->]])].
       - apply word_unique in EQ; [|exact NC|exact NC']. destruct EQ as [-> _]. rewrite PI in PI'. discriminate.
       - apply word_long in EQ; [|exact NC|exact NC']. unfold zlen in *. lia.
       - rewrite app_nil_r in EQ. apply NC. rewrite EQ. apply in_or_app. right. left. reflexivity. }
  rewrite clamp_recorded.
  set (mm := {| m_data := d; m_off := 9; m_attrs := attrs |}).
  replace (if recordedStatus n =? 100 then addAttr mm LHttpContinue (BV true) else mm) with (withContinue mm (recordedStatus n)) by reflexivity.
  destruct (addTrace_response b64 (withContinue mm (recordedStatus n))) as (m2 & E2 & A & B & K). rewrite E2. cbn [bind].
  right. exists version, code, sc, n, m2. split; [lia|]. split; [exact I|]. split; [rewrite D at 1; rewrite SC; reflexivity|]. split; [exact NC|]. split; [exact PI|].
  split; [destruct CC as [(_ & _ & X)|(_ & [X|[_ X]])]; tauto|]. split; [reflexivity|]. cbn zeta.
  split; [exact A|split; [exact B|exact K]].
Qed.

(** A status line with a decimal code of at most five digits: the number is recorded (0 when it has not three digits, except 99),
    the error flag is set exactly when it is at least 400, and otherwise left as it was; 100 is marked as a continuation. *)
Theorem C21_response b64 attrs d version n : 14 <= zlen d -> 0 <= n <= 99999 -> statusLine d version (digits n) ->
  exists m, httpResponse b64 d attrs = Ok (true, m) /\
    label (m_attrs m) LHttpStatusCode = Some (IV (recordedStatus n)) /\
    label (m_attrs m) LIsError = (if (400 <=? n) && (n <=? 999) then Some (BV true) else label attrs LIsError) /\
    label (m_attrs m) LErrorType = (if (400 <=? n) && (n <=? 999) then Some (IV ProtocolError) else label attrs LErrorType) /\
    label (m_attrs m) LHttpContinue = (if n =? 100 then Some (BV true) else label attrs LHttpContinue).
Proof.
  intros L R SL. assert (DL : zlen (digits n) <= 5).
  { pose proof (digits_length_mono_bound n 5 ltac:(lia)) as B. change (10 ^ Z.of_nat 5) with 100000 in B. specialize (B ltac:(lia) ltac:(lia)). unfold zlen. lia. }
  assert (PI : parseInt 64 (digits n) = (n, true)).
  { pose proof (parseInt_format 64 n ltac:(lia)) as B. unfold formatInt in B. replace (n <? 0) with false in B by lia. apply B.
    change (2 ^ (64 - 1)) with 9223372036854775808. lia. }
  destruct (response_cases b64 d attrs) as [[_ [C|C]]|(ver & code & rest & n' & m2 & _ & I & D & NC & PI' & CR & E & HM)]; [lia| |].
  - exfalso. apply (C _ _ n SL DL PI).
  - destruct SL as (I' & ND & r & DR).
    assert (X : code = digits n).
    { rewrite D in DR. apply word_unique in DR; [|apply version_facts; exact I|apply version_facts; exact I']. destruct DR as [_ DR].
      destruct CR as [CR|[->|(more & ->)]].
      - apply word_long in DR; [|exact NC|exact ND]. unfold zlen in *. lia.
      - exfalso. rewrite app_nil_r in DR. apply NC. rewrite DR. apply in_or_app. right. left. reflexivity.
      - apply word_unique in DR; [tauto|exact NC|exact ND]. }
    subst code. rewrite PI in PI'. injection PI' as <-. cbn zeta in HM. destruct HM as (_ & _ & HK).
    eexists. split; [exact E|].
    assert (KE : aget (m_attrs m2) LIsError = aget attrs LIsError /\ aget (m_attrs m2) LErrorType = aget attrs LErrorType /\
                 aget (m_attrs m2) LHttpContinue = if n =? 100 then Some (BV true) else aget attrs LHttpContinue).
    { rewrite !HK by discriminate. unfold withContinue, recordedStatus.
      destruct (n =? 100) eqn:Q.
      - replace ((99 <=? n) && (n <=? 999)) with true by lia. rewrite Q. labels. split; [|split]; reflexivity.
      - destruct ((99 <=? n) && (n <=? 999)); [rewrite Q|change (0 =? 100) with false; cbn iota]; (split; [|split]; reflexivity). }
    destruct KE as (K1 & K2 & K3). unfold withStatus. rewrite err_recorded.
    destruct ((400 <=? n) && (n <=? 999)); labels; (split; [reflexivity|]); rewrite ?K1, ?K2, ?K3; (split; [reflexivity|]); (split; reflexivity).
Qed.
Print Assumptions C21_response.
Example C21_response_ex : exists m, httpResponse (fun _ => None) (bs "HTTP/1.1 404 Not Found") [] = Ok (true, m) /\
  label (m_attrs m) LHttpStatusCode = Some (IV 404) /\ label (m_attrs m) LIsError = Some (BV true).
Proof.
  destruct (C21_response (fun _ => None) [] (bs "HTTP/1.1 404 Not Found") "HTTP/1.1" 404) as (m & E & A & B & _).
  - vm_compute. discriminate.
  - lia.
  - split; [right; left; reflexivity|]. split; [vm_compute; intuition discriminate|]. exists (bs "Not Found"). reflexivity.
  - exists m. split; [exact E|]. split; [exact A|exact B].
Qed.

(** Only status lines are recognised, and the recorded status and error flag are those of the number behind the version. *)
Theorem C21_response_only b64 attrs d m : httpResponse b64 d attrs = Ok (true, m) ->
  14 <= zlen d /\ exists version code rest n, In version versions /\ d = bs version ++ 32 :: code ++ rest /\ ~ In 32 code /\
    (zlen code = 6 \/ rest = [] \/ exists more, rest = 32 :: more) /\
    parseInt 64 code = (n, true) /\ label (m_attrs m) LHttpStatusCode = Some (IV (recordedStatus n)) /\
    label (m_attrs m) LIsError = (if (400 <=? n) && (n <=? 999) then Some (BV true) else label attrs LIsError).
Proof.
  intros H. destruct (response_cases b64 d attrs) as [[(m' & E) _]|(ver & code & rest & n & m2 & L & I & D & NC & PI & CR & E & HM)]; rewrite E in H; [discriminate|].
  injection H as <-. split; [exact L|]. exists ver, code, rest, n. split; [exact I|]. split; [exact D|]. split; [exact NC|]. split; [exact CR|]. split; [exact PI|].
  cbn zeta in HM. destruct HM as (_ & _ & HK).
  assert (K1 : aget (m_attrs m2) LIsError = aget attrs LIsError).
  { rewrite HK by discriminate. unfold withContinue. destruct (recordedStatus n =? 100); labels; reflexivity. }
  unfold withStatus. rewrite err_recorded.
  destruct ((400 <=? n) && (n <=? 999)); labels; rewrite ?K1; split; reflexivity.
Qed.
Print Assumptions C21_response_only.

(** No payload, whatever its bytes, crashes the parsers or leaves them without a verdict. *)
Theorem C21_total b64 clustering d attrs : (exists ok m, httpRequest b64 clustering d = Ok (ok, m)) /\ (exists ok m, httpResponse b64 d attrs = Ok (ok, m)).
Proof.
  split.
  - destruct (request_cases b64 clustering d) as [[(m & E) _]|(me & meth & url & u & key & t & L & RL & AN & E & _)]; eauto.
  - destruct (response_cases b64 d attrs) as [[(m & E) _]|(ver & code & rest & n & m2 & _ & _ & _ & _ & _ & _ & E & _)]; eauto.
Qed.
Print Assumptions C21_total.

(** C28. *)
Definition traceLabels (attrs : list (string * aval)) (t : option (bytes * bytes)) : Prop :=
  match t with
  | Some (ty, id) => label attrs LHttpApmTraceType = Some (SV ty) /\ label attrs LHttpApmTraceId = Some (SV id)
  | None => label attrs LHttpApmTraceType = None /\ label attrs LHttpApmTraceId = None
  end.
Lemma withTrace_labels m t : label (m_attrs m) LHttpApmTraceType = None -> label (m_attrs m) LHttpApmTraceId = None -> traceLabels (m_attrs (withTrace m t)) t.
Proof. intros A B. destruct t as [[ty id]|]; cbn [traceLabels withTrace]; [split; labels; reflexivity|split; assumption]. Qed.

(** A recognised request whose headers are "Name: value" lines carries the trace of the first recognised header in priority
    order, and no trace labels when there is none. *)
Theorem C28_request b64 clustering first hs rest m : ~ In 13 first -> Forall goodHeader hs -> endOfHeaders rest ->
  httpRequest b64 clustering (message first hs rest) = Ok (true, m) -> traceLabels (m_attrs m) (traceOf b64 hs).
Proof.
  intros N G R H. destruct (request_cases b64 clustering (message first hs rest)) as [[(m' & E) _]|(me & meth & url & u & key & t & L & RL & AN & E & U & _ & T)]; rewrite E in H; [discriminate|].
  injection H as <-. rewrite (addTrace_message b64 (newRequest (message first hs rest)) first hs rest eq_refl N G R) in T. injection T as T.
  rewrite <- T. pose proof (withTrace_labels (newRequest (message first hs rest)) (traceOf b64 hs) eq_refl eq_refl) as W.
  destruct (traceOf b64 hs) as [[ty id]|]; cbn [traceLabels] in *; destruct W as [W1 W2]; unfold label in W1, W2; labels; split; assumption.
Qed.
Print Assumptions C28_request.

(** A recognised response adds its own trace only when the request had none. *)
Theorem C28_response b64 first hs rest attrs m : ~ In 13 first -> Forall goodHeader hs -> endOfHeaders rest ->
  httpResponse b64 (message first hs rest) attrs = Ok (true, m) ->
  (label attrs LHttpApmTraceType = None -> label attrs LHttpApmTraceId = None -> traceLabels (m_attrs m) (traceOf b64 hs)) /\
  (label attrs LHttpApmTraceType <> None -> label (m_attrs m) LHttpApmTraceType = label attrs LHttpApmTraceType /\ label (m_attrs m) LHttpApmTraceId = label attrs LHttpApmTraceId).
Proof.
  intros N G R H. destruct (response_cases b64 (message first hs rest) attrs) as [[(m' & E) _]|(ver & code & rs & n & m2 & L & I & D & NC & PI & CR & E & HM)]; rewrite E in H; [discriminate|].
  injection H as <-. cbn zeta in HM. set (m0 := withContinue (setOff (newResponse (message first hs rest) attrs) 9) (recordedStatus n)) in *.
  assert (K0 : m_data m0 = message first hs rest /\ aget (m_attrs m0) LHttpApmTraceType = aget attrs LHttpApmTraceType /\ aget (m_attrs m0) LHttpApmTraceId = aget attrs LHttpApmTraceId).
  { unfold m0, withContinue. destruct (recordedStatus n =? 100); (split; [reflexivity|]); labels; split; reflexivity. }
  destruct K0 as (KD & KT & KI). destruct HM as (HT & HF & _).
  assert (W : label (m_attrs (withStatus m2 (recordedStatus n))) LHttpApmTraceType = aget (m_attrs m2) LHttpApmTraceType /\
              label (m_attrs (withStatus m2 (recordedStatus n))) LHttpApmTraceId = aget (m_attrs m2) LHttpApmTraceId).
  { unfold withStatus. destruct (400 <=? recordedStatus n); labels; split; reflexivity. }
  destruct W as [W1 W2]. split.
  - intros A B. assert (HH : hasAttr m0 LHttpApmTraceType = false) by (unfold hasAttr, ahas; rewrite KT; unfold label in A; rewrite A; reflexivity).
    specialize (HF HH). rewrite (addTrace_message b64 m0 first hs rest KD N G R) in HF. injection HF as <-.
    pose proof (withTrace_labels m0 (traceOf b64 hs)) as X. unfold label in X at 1 2. rewrite KT, KI in X. specialize (X A B).
    unfold traceLabels in *. destruct (traceOf b64 hs) as [[ty id]|]; rewrite W1, W2; exact X.
  - intros A. assert (HH : hasAttr m0 LHttpApmTraceType = true).
    { unfold hasAttr, ahas. rewrite KT. unfold label in A. destruct (aget attrs LHttpApmTraceType); [reflexivity|congruence]. }
    rewrite (HT HH) in *. rewrite W1, W2, KT, KI. split; reflexivity.
Qed.
Print Assumptions C28_response.

(** What the schemes read: in a request with one such header, the identifier transmitted. [hdr] is written in any case. *)
Definition requestWith (hs : list header) : bytes := message (bs "GET / HTTP/1.1") hs CRLF.
Lemma one_header b64 clustering hdr v : goodHeader (hdr, v) -> exists m, httpRequest b64 clustering (requestWith [(hdr, v)]) = Ok (true, m) /\ traceLabels (m_attrs m) (traceOf b64 [(hdr, v)]).
Proof.
  intros G. destruct (C21_request b64 clustering (requestWith [(hdr, v)]) "GET" (bs "/")) as (m & u & E & _).
  - unfold requestWith, message. rewrite !zlen_app. change (zlen (bs "GET / HTTP/1.1")) with 14. pose proof (zlen_nonneg CRLF). pose proof (zlen_nonneg (headerBlock [(hdr, v)])). lia.
  - left. reflexivity.
  - split; [vm_compute; intuition discriminate|]. eexists. split; [|right; eexists; reflexivity]. reflexivity.
  - exists m. split; [exact E|]. eapply C28_request; [| | |exact E]; [vm_compute; intuition discriminate|constructor; [exact G|constructor]|right; exists []; reflexivity].
Qed.
Lemma upTo_at c a r : ~ In c a -> upTo c (a ++ c :: r) = a.
Proof.
  induction a as [|x a IH]; intros N; cbn [upTo app]; [rewrite Z.eqb_refl; reflexivity|].
  destruct (x =? c) eqn:Q; [exfalso; apply N; left; lia|]. rewrite IH; [reflexivity|]. intros I. apply N. right. exact I.
Qed.
Lemma good_of hdr v : hdr <> [] -> ~ In 58 hdr -> ~ In 13 hdr -> v <> [] -> ~ In 13 v -> goodHeader (hdr, v).
Proof. intros. unfold goodHeader. cbn [fst snd]. tauto. Qed.
Lemma value_of hdr v name : lower hdr = name -> forall n, headerValue [(hdr, v)] n = if eqb name n then Some v else None.
Proof. intros <- n. unfold headerValue. cbn [rev app find fst]. destruct (eqb (lower hdr) n); reflexivity. Qed.
Theorem C28_formats b64 clustering hdr v : ~ In 13 hdr -> ~ In 13 v ->
  (* SkyWalking: "1-<base64 of the trace id>-..." *)
  (forall enc r id, lower hdr = bs "sw8" -> ~ In 45 enc -> enc <> [] -> b64 enc = Some id -> id <> [] -> v = bs "1-" ++ enc ++ 45 :: r ->
     exists m, httpRequest b64 clustering (requestWith [(hdr, v)]) = Ok (true, m) /\ traceLabels (m_attrs m) (Some (bs "skywalking", id))) /\
  (* Zipkin B3 and HarmonyCloud: the value itself *)
  (lower hdr = bs "x-b3-traceid" -> v <> [] -> exists m, httpRequest b64 clustering (requestWith [(hdr, v)]) = Ok (true, m) /\ traceLabels (m_attrs m) (Some (bs "zipkin", v))) /\
  (lower hdr = bs "apm-transactionid" -> v <> [] -> exists m, httpRequest b64 clustering (requestWith [(hdr, v)]) = Ok (true, m) /\ traceLabels (m_attrs m) (Some (bs "harmonycloud", v))) /\
  (* Jaeger: "<trace id>:<span id>:..." *)
  (forall id r, lower hdr = bs "uber-trace-id" -> ~ In 58 id -> id <> [] -> v = id ++ 58 :: r ->
     exists m, httpRequest b64 clustering (requestWith [(hdr, v)]) = Ok (true, m) /\ traceLabels (m_attrs m) (Some (bs "jaeger", id))) /\
  (* W3C: "<2 digits>-<32 digits>-..." *)
  (forall ver id r, lower hdr = bs "traceparent" -> zlen ver = 2 -> zlen id = 32 -> v = ver ++ 45 :: id ++ 45 :: r ->
     exists m, httpRequest b64 clustering (requestWith [(hdr, v)]) = Ok (true, m) /\ traceLabels (m_attrs m) (Some (bs "w3c", id))) /\
  (* any other header *)
  ((forall s, In s (schemes b64) -> lower hdr <> bs (fst (fst s))) -> hdr <> [] -> ~ In 58 hdr -> v <> [] ->
     exists m, httpRequest b64 clustering (requestWith [(hdr, v)]) = Ok (true, m) /\ traceLabels (m_attrs m) None).
Proof.
  intros NH NV.
  assert (HN : forall name, lower hdr = bs name -> name <> "" -> ~ In 58 (bs name) -> hdr <> [] /\ ~ In 58 hdr).
  { intros name E NE N58. split.
    - intros ->. cbn in E. destruct name; [congruence|discriminate].
    - intros I. apply N58. rewrite <- E. unfold lower. apply in_map_iff. exists 58. split; [reflexivity|exact I]. }
  assert (F : forall name ty id, lower hdr = bs name -> name <> "" -> ~ In 58 (bs name) -> v <> [] ->
     (forall f, (forall n, f n = if eqb (bs name) n then Some v else None) -> firstScheme (schemes b64) f = Some (ty, id)) -> id <> [] ->
     exists m, httpRequest b64 clustering (requestWith [(hdr, v)]) = Ok (true, m) /\ traceLabels (m_attrs m) (Some (ty, id))).
  { intros name ty id E NE N58 V FS IDN. destruct (HN _ E NE N58) as [A B]. destruct (one_header b64 clustering hdr v (good_of hdr v A B NH V NV)) as (m & R & T).
    exists m. split; [exact R|]. unfold traceOf in T. match type of T with context [firstScheme ?a ?b] => replace (firstScheme a b) with (Some (ty, id)) in T by (symmetry; exact (FS (headerValue [(hdr, v)]) (value_of hdr v _ E))) end. destruct id; [congruence|exact T]. }
  assert (FX : forall (f : bytes -> option bytes) name, (forall n, f n = if eqb (bs name) n then Some v else None) -> f (bs name) = Some v /\ forall n, bs name <> n -> f n = None).
  { intros f name H. split; [rewrite H, eqb_refl; reflexivity|]. intros n D. rewrite H, (proj2 (eqb_neq _ _) D). reflexivity. }
  split; [|split; [|split; [|split; [|split]]]].
  - intros enc r id E N45 EN B IDN ->. apply (F "sw8" (bs "skywalking") id E); [discriminate|vm_compute; intuition discriminate|discriminate| |exact IDN].
    intros f H. destruct (FX f _ H) as [H1 _]. unfold schemes. cbn [firstScheme]. rewrite H1. unfold skywalkingId.
    replace (zlen (bs "1-" ++ enc ++ 45 :: r) <? 3) with false.
    2: { rewrite !zlen_app, zlen_cons. change (zlen (bs "1-")) with 2. pose proof (zlen_nonneg enc). pose proof (zlen_nonneg r). lia. }
    change (skipn 2 (bs "1-" ++ enc ++ 45 :: r)) with (enc ++ 45 :: r). rewrite (upTo_at 45 enc r N45), B. reflexivity.
  - intros E V. apply (F "x-b3-traceid" (bs "zipkin") v E); [discriminate|vm_compute; intuition discriminate|exact V| |exact V].
    intros f H. destruct (FX f _ H) as [H1 H2]. unfold schemes. cbn [firstScheme]. rewrite !H2 by discriminate. rewrite H1. reflexivity.
  - intros E V. apply (F "apm-transactionid" (bs "harmonycloud") v E); [discriminate|vm_compute; intuition discriminate|exact V| |exact V].
    intros f H. destruct (FX f _ H) as [H1 H2]. unfold schemes. cbn [firstScheme]. rewrite !H2 by discriminate. rewrite H1. reflexivity.
  - intros id r E N58 IDN ->. apply (F "uber-trace-id" (bs "jaeger") id E); [discriminate|vm_compute; intuition discriminate|destruct id; discriminate| |exact IDN].
    intros f H. destruct (FX f _ H) as [H1 H2]. unfold schemes. cbn [firstScheme]. rewrite !H2 by discriminate. rewrite H1. unfold jaegerId.
    rewrite (upTo_at 58 id r N58). destruct id as [|c id]; [congruence|]. cbn [app starts_with]. replace (58 =? c) with false by (symmetry; apply Z.eqb_neq; intros <-; apply N58; left; reflexivity). reflexivity.
  - intros ver id r E LV LI ->.
    assert (VS : exists a b, ver = [a; b]) by (destruct ver as [|a [|b [|c ver]]]; unfold zlen in LV; cbn [List.length] in LV; try lia; exists a, b; reflexivity).
    destruct VS as (a & b & ->).
    apply (F "traceparent" (bs "w3c") id E); [discriminate|vm_compute; intuition discriminate|discriminate| |intros ->; unfold zlen in LI; cbn in LI; lia].
    intros f H. destruct (FX f _ H) as [H1 H2]. unfold schemes. cbn [firstScheme]. rewrite !H2 by discriminate. rewrite H1. unfold w3cId.
    replace (zlen ([a; b] ++ 45 :: id ++ 45 :: r) <? 35) with false.
    2: { cbn [app]. rewrite !zlen_cons, zlen_app, zlen_cons. pose proof (zlen_nonneg r). lia. }
    change (skipn 3 ([a; b] ++ 45 :: id ++ 45 :: r)) with (id ++ 45 :: r). rewrite firstn_app. unfold zlen in LI.
    replace (32 - List.length id)%nat with 0%nat by lia. rewrite firstn_all2 by lia. cbn [firstn]. rewrite app_nil_r. reflexivity.
  - intros NS HE HC V. destruct (one_header b64 clustering hdr v (good_of hdr v HE HC NH V NV)) as (m & R & T). exists m. split; [exact R|].
    match type of T with traceLabels _ ?x => assert (X : x = None); [|rewrite X in T; exact T] end.
    unfold traceOf, schemes. cbn [firstScheme]. rewrite !(value_of hdr v _ eq_refl). unfold schemes in NS. cbn [In fst snd] in NS.
    assert (Q : forall n, (exists ty ex, In (n, ty, ex) (schemes b64)) -> eqb (lower hdr) (bs n) = false).
    { intros n (ty & ex & I). apply eqb_neq. apply (NS (n, ty, ex)). exact I. }
    rewrite !Q; [reflexivity|unfold schemes; cbn [In]; eauto 10..].
Qed.
Print Assumptions C28_formats.
Example C28_formats_ex : exists m, httpRequest (fun _ => None) (fun u => u) (requestWith [(bs "Uber-Trace-Id", bs "abc:1:0:1")]) = Ok (true, m) /\
  label (m_attrs m) LHttpApmTraceType = Some (SV (bs "jaeger")) /\ label (m_attrs m) LHttpApmTraceId = Some (SV (bs "abc")).
Proof. eexists. split; [vm_compute; reflexivity|split; reflexivity]. Qed.
(** Priority: Zipkin before W3C. *)
Example C28_priority_ex : exists m, httpRequest (fun _ => None) (fun u => u) (requestWith [(bs "traceparent", bs "00-4bf92f3577b34da6a3ce929d0e0e4736-00f067aa0ba902b7-01"); (bs "X-B3-TraceId", bs "7b")]) = Ok (true, m) /\
  label (m_attrs m) LHttpApmTraceType = Some (SV (bs "zipkin")) /\ label (m_attrs m) LHttpApmTraceId = Some (SV (bs "7b")).
Proof. eexists. split; [vm_compute; reflexivity|split; reflexivity]. Qed.

(** Findings. An empty-valued header hides every header behind it. *)
Theorem C28_empty_header_hides_refuted : exists d m, d = message (bs "GET / HTTP/1.1") [(bs "X-Empty", []); (bs "X-B3-TraceId", bs "7b")] CRLF /\
  httpRequest (fun _ => None) (fun u => u) d = Ok (true, m) /\ label (m_attrs m) LHttpApmTraceType = None.
Proof. eexists. eexists. split; [reflexivity|]. split; [vm_compute; reflexivity|reflexivity]. Qed.
Print Assumptions C28_empty_header_hides_refuted.
(** The blank behind the colon is optional in HTTP; without it the first byte of the value is lost. *)
Theorem C28_no_blank_refuted : exists d m, d = bs "GET / HTTP/1.1" ++ CRLF ++ bs "X-B3-TraceId:7b" ++ CRLF ++ CRLF /\
  httpRequest (fun _ => None) (fun u => u) d = Ok (true, m) /\ label (m_attrs m) LHttpApmTraceId = Some (SV (bs "b")).
Proof. eexists. eexists. split; [reflexivity|]. split; [vm_compute; reflexivity|reflexivity]. Qed.
Print Assumptions C28_no_blank_refuted.
(** A SkyWalking header that cannot be decoded hides the trace of every other scheme. *)
Theorem C28_bad_skywalking_hides_refuted : exists m,
  httpRequest (fun _ => None) (fun u => u) (requestWith [(bs "sw8", bs "0"); (bs "X-B3-TraceId", bs "7b")]) = Ok (true, m) /\ label (m_attrs m) LHttpApmTraceType = None.
Proof. eexists. split; [vm_compute; reflexivity|reflexivity]. Qed.
Print Assumptions C28_bad_skywalking_hides_refuted.
