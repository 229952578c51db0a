(** C27: the text form of payloads. *)
From Verif Require Import Base DetectProofs ReaderProofs TextModel TextSpec TextProofs.
Open Scope string_scope. Open Scope list_scope. Open Scope Z_scope.

(** For every protocol shown as ASCII: every character is printable, there are at most as many as configured, and the text is the
    payload (from byte 16 for Dubbo) with each unprintable byte replaced by a dot. *)
Theorem C27_ascii_payload (conf : list (string * Z)) (d : bytes) (proto : string) (t : bytes) :
  proto <> "http" -> proto <> "redis" -> getPayloadString conf d proto = Ok t ->
  Forall printable t /\ zlen t <= payloadLength conf proto /\
  let from := if eqb proto "dubbo" then 16 else 0 in
  forall i b, nth_error t i = Some b ->
    exists c, nth_error d (Z.to_nat from + i) = Some c /\ (printable c -> b = c) /\ (~ printable c -> b = 46).
Proof.
  intros N1 N2. unfold getPayloadString. rewrite (proj2 (eqb_neq _ _) N1), (proj2 (eqb_neq _ _) N2). cbn [orb].
  assert (PL : 0 < payloadLength conf proto) by (unfold payloadLength; destruct (aget conf proto) as [n|]; [destruct (0 <? n) eqn:Q|]; lia).
  set (from := if eqb proto "dubbo" then 16 else 0).
  intros E. assert (G : bind (getSubstrBytes conf d proto from) (fun s => Ok (getAsciiString s)) = Ok t) by (unfold from; destruct (eqb proto "dubbo"); exact E).
  clear E. assert (F0 : 0 <= from) by (unfold from; destruct (eqb proto "dubbo"); lia). clearbody from. unfold getSubstrBytes in G.
  assert (X : exists e, from <= e <= from + payloadLength conf proto /\ t = getAsciiString (slice d from e) \/ t = []).
  { destruct (payloadLength conf proto <=? from) eqn:Q.
    - rewrite gslice_ok in G by (try lia; apply zlen_nonneg). cbn in G. inversion G. exists 0. right. reflexivity.
    - destruct (zlen d <? from + payloadLength conf proto) eqn:Q2.
      + destruct (gslice d from (zlen d)) as [s| |] eqn:GS; cbn [bind] in G; try discriminate. apply gslice_inv in GS. destruct GS as (A & B & C & ->).
        inversion G. exists (zlen d). left. split; [lia|reflexivity].
      + rewrite gslice_ok in G by lia. cbn [bind] in G. inversion G. exists (from + payloadLength conf proto). left. split; [lia|reflexivity]. }
  destruct X as (e & [[B ->]| ->]).
  - split; [|split].
    + unfold getAsciiString. apply Forall_forall. intros x I. apply in_map_iff in I. destruct I as (c & <- & _). unfold asciiByte, printable.
      destruct ((126 <? c) || (c <? 32)) eqn:Q; lia.
    + unfold getAsciiString, zlen. rewrite map_length. unfold slice. rewrite firstn_length. lia.
    + intros i b H. unfold getAsciiString, slice in H. rewrite nth_error_map in H. 
      assert (H2 : exists c, nth_error (firstn (Z.to_nat (e - from)) (skipn (Z.to_nat from) d)) i = Some c /\ b = asciiByte c).
      { destruct (nth_error _ i) as [c|]; [|discriminate]. exists c. split; [reflexivity|]. cbn in H. congruence. }
      destruct H2 as (c & H2 & ->). exists c. split.
      * assert (IL : (i < Z.to_nat (e - from))%nat).
        { apply Nat.lt_nge. intros L. assert (nth_error (firstn (Z.to_nat (e - from)) (skipn (Z.to_nat from) d)) i = None); [|congruence].
          apply nth_error_None. rewrite firstn_length. lia. }
        assert (FN : forall (l : bytes) n k, (k < n)%nat -> nth_error (firstn n l) k = nth_error l k).
        { clear. induction l as [|a l IH]; intros [|n] [|k] K; try lia; cbn; try reflexivity. apply IH. lia. }
        rewrite FN in H2 by assumption.
        assert (SN : forall (l : bytes) n k, nth_error (skipn n l) k = nth_error l (n + k)).
        { clear. induction l as [|a l IH]; intros [|n] k; cbn; try reflexivity; [destruct k; reflexivity|apply IH]. }
        rewrite SN in H2. exact H2.
      * unfold asciiByte, printable. destruct ((126 <? c) || (c <? 32)) eqn:Q; split; intros; lia.
  - split; [constructor|]. split; [change (zlen (@nil Z)) with 0; lia|]. intros i b H. destruct i; discriminate.
Qed.
Print Assumptions C27_ascii_payload.
Example C27_ascii_payload_example : getPayloadString [] ([0; 72; 105; 255] ++ bs "!") "mysql" = Ok (bs ".Hi.!").
Proof. reflexivity. Qed.

Lemma payloadLength_pos conf proto : 0 < payloadLength conf proto.
Proof. unfold payloadLength. destruct (aget conf proto) as [n|]; [destruct (0 <? n) eqn:Q|]; lia. Qed.
Lemma substr0 conf d proto : getSubstrBytes conf d proto 0 = Ok (firstn (Z.to_nat (payloadLength conf proto)) d).
Proof.
  pose proof (payloadLength_pos conf proto). unfold getSubstrBytes. replace (_ <=? 0) with false by lia. pose proof (zlen_nonneg d).
  destruct (zlen d <? 0 + payloadLength conf proto) eqn:Q; rewrite gslice_ok by lia; f_equal; unfold slice; cbn [Z.to_nat skipn]; rewrite ?Z.sub_0_r.
  - rewrite !firstn_all2; [reflexivity|unfold zlen in *; lia|unfold zlen in *; lia].
  - reflexivity.
Qed.

(** The text exists for every payload of every protocol other than Dubbo, and is the configured number of leading bytes. *)
Theorem C27_text_total (conf : list (string * Z)) (d : bytes) (proto : string) : proto <> "dubbo" ->
  exists t, getPayloadString conf d proto = Ok t /\ zlen t <= payloadLength conf proto /\ zlen t <= zlen d /\
    (proto <> "http" -> proto <> "redis" -> zlen t = Z.min (payloadLength conf proto) (zlen d)) /\
    (proto = "http" \/ proto = "redis" -> exists r, d = t ++ r).
Proof.
  intros N. pose proof (payloadLength_pos conf proto). unfold getPayloadString. rewrite substr0. cbn [bind].
  destruct (eqb proto "http" || eqb proto "redis") eqn:HR.
  - destruct (formatUtf8_prefix (firstn (Z.to_nat (payloadLength conf proto)) d)) as (q & r & E & P). exists q.
    assert (L : zlen q <= zlen (firstn (Z.to_nat (payloadLength conf proto)) d)) by (rewrite P, zlen_app; pose proof (zlen_nonneg r); lia).
    unfold zlen in L at 2. rewrite firstn_length in L. split; [exact E|]. split; [lia|]. split; [unfold zlen in *; lia|]. split.
    + intros A B. rewrite (proj2 (eqb_neq _ _) A), (proj2 (eqb_neq _ _) B) in HR. discriminate.
    + intros _. exists (r ++ skipn (Z.to_nat (payloadLength conf proto)) d). rewrite app_assoc, <- P. symmetry. apply firstn_skipn.
  - rewrite (proj2 (eqb_neq _ _) N). exists (getAsciiString (firstn (Z.to_nat (payloadLength conf proto)) d)).
    assert (L : zlen (getAsciiString (firstn (Z.to_nat (payloadLength conf proto)) d)) = Z.min (payloadLength conf proto) (zlen d)).
    { unfold getAsciiString, zlen. rewrite map_length, firstn_length. lia. }
    split; [reflexivity|]. split; [lia|]. split; [lia|]. split; [intros; exact L|].
    intros [->| ->]; cbn in HR; discriminate.
Qed.
Print Assumptions C27_text_total.

Lemma ascii_utf8 t : asciiText t -> asciiOrThree (map (fun c => [c]) t) /\ List.concat (map (fun c => [c]) t) = t.
Proof.
  induction 1 as [|c t C F [A B]]; [split; [constructor|reflexivity]|]. cbn [map List.concat app]. split.
  - constructor; [|exact A]. split; [constructor; lia|left; reflexivity].
  - rewrite B. reflexivity.
Qed.
Lemma formatUtf8_three cs tl : asciiOrThree cs -> (tl = [] \/ cutChar tl) -> formatUtf8 (List.concat cs ++ tl) = Ok (List.concat cs).
Proof.
  intros U T. apply formatUtf8_at. unfold runeIndex. pose proof (runeLoop_three cs [] tl 0 _ U (or_introl eq_refl) T (Nat.le_refl _)) as R. exact R.
Qed.
Lemma formatUtf8_ascii t : asciiText t -> formatUtf8 t = Ok t.
Proof. intros A. destruct (ascii_utf8 t A) as [U E]. pose proof (formatUtf8_three _ [] U (or_introl eq_refl)) as R. rewrite app_nil_r, E in R. exact R. Qed.

(** Printable text that fits is shown as it is. *)
Theorem C27_printable_unchanged (conf : list (string * Z)) (d : bytes) (proto : string) :
  Forall printable d -> zlen d <= payloadLength conf proto -> proto <> "dubbo" -> getPayloadString conf d proto = Ok d.
Proof.
  intros P L N. unfold getPayloadString. rewrite substr0. cbn [bind]. rewrite firstn_all2 by (unfold zlen in *; lia).
  destruct (eqb proto "http" || eqb proto "redis").
  - apply formatUtf8_ascii. eapply Forall_impl; [|exact P]. unfold printable. intros; lia.
  - rewrite (proj2 (eqb_neq _ _) N). f_equal. unfold getAsciiString. rewrite <- (map_id d) at 2. apply map_ext_in. intros c I.
    rewrite Forall_forall in P. specialize (P c I). unfold printable in P. unfold asciiByte. replace ((126 <? c) || (c <? 32)) with false by lia. reflexivity.
Qed.
Print Assumptions C27_printable_unchanged.
Example C27_printable_unchanged_example : Forall printable (bs "GET /a HTTP/1.1") /\ getPayloadString [("http", 300)] (bs "GET /a HTTP/1.1") "http" = Ok (bs "GET /a HTTP/1.1").
Proof. split; [|reflexivity]. vm_compute. repeat (constructor; [split; discriminate|]). constructor. Qed.

(** Dubbo skips the 16-byte header. *)
Theorem C27_dubbo_payload (conf : list (string * Z)) (h d : bytes) : zlen h = 16 -> Forall printable d ->
  zlen d <= payloadLength conf "dubbo" -> 16 < payloadLength conf "dubbo" -> getPayloadString conf (h ++ d) "dubbo" = Ok d.
Proof.
  intros H P L N. unfold getPayloadString. change (eqb "dubbo" "http" || eqb "dubbo" "redis") with false. change (eqb "dubbo" "dubbo") with true. cbn iota.
  unfold getSubstrBytes. replace (payloadLength conf "dubbo" <=? 16) with false by lia.
  assert (G : (if zlen (h ++ d) <? 16 + payloadLength conf "dubbo" then gslice (h ++ d) 16 (zlen (h ++ d)) else gslice (h ++ d) 16 (16 + payloadLength conf "dubbo")) = Ok d).
  { destruct (zlen (h ++ d) <? 16 + payloadLength conf "dubbo") eqn:Q; [apply gslice_suf; [lia|reflexivity]|].
    rewrite zlen_app in Q. apply gslice_suf; [lia|rewrite zlen_app; lia]. }
  match goal with |- bind ?x _ = _ => replace x with (@Ok bytes d) by (symmetry; exact G) end. cbn [bind]. f_equal. unfold getAsciiString. rewrite <- (map_id d) at 2. apply map_ext_in. intros c I.
  rewrite Forall_forall in P. specialize (P c I). unfold printable in P. unfold asciiByte. replace ((126 <? c) || (c <? 32)) with false by lia. reflexivity.
Qed.
Print Assumptions C27_dubbo_payload.

(** The UTF-8 text of well-formed text cut anywhere is well-formed; text of ASCII and three-byte characters
    loses nothing but a character that was cut. *)
Theorem C27_utf8_cut_anywhere (t : bytes) (k : nat) : utf8Text t -> exists q, formatUtf8 (firstn k t) = Ok q /\ utf8Text q.
Proof.
  intros (cs & U & ->). destruct (firstn_text cs k U) as (q & tl & E & F & T). rewrite E.
  destruct (runeLoop_text q [] tl 0 _ F (or_introl eq_refl) T (Nat.le_refl _)) as (q1 & r1 & E1 & R). cbn [List.concat app] in R, E1.
  change (zlen (@nil Z)) with 0 in R. subst q. rewrite concat_app, <- app_assoc in *. exists (List.concat q1). split.
  - apply formatUtf8_at. exact R.
  - exists q1. split; [|reflexivity]. apply Forall_app in F. apply F.
Qed.
Print Assumptions C27_utf8_cut_anywhere.
Theorem C27_utf8_three_byte_text (cs : list bytes) (tl : bytes) : asciiOrThree cs ->
  tl = [] \/ (tl <> [] /\ exists r, r <> [] /\ utf8Char (tl ++ r)) -> formatUtf8 (List.concat cs ++ tl) = Ok (List.concat cs).
Proof. apply formatUtf8_three. Qed.
Print Assumptions C27_utf8_three_byte_text.
(** "a中" with a third character cut after two bytes *)
Example C27_utf8_example : formatUtf8 [97; 228; 184; 173; 230; 150] = Ok [97; 228; 184; 173].
Proof. reflexivity. Qed.

(** What is false.
    A Dubbo payload shorter than its 16-byte header crashes the text conversion (this is reached when a port is configured as
    Dubbo and carries something else, see C55). *)
Theorem C27_dubbo_short_payload_panics_refuted (conf : list (string * Z)) (d : bytes) :
  zlen d < 16 -> 16 < payloadLength conf "dubbo" -> getPayloadString conf d "dubbo" = Panic.
Proof.
  intros L N. unfold getPayloadString. change (eqb "dubbo" "http" || eqb "dubbo" "redis") with false. change (eqb "dubbo" "dubbo") with true. cbn iota.
  unfold getSubstrBytes. replace (payloadLength conf "dubbo" <=? 16) with false by lia. replace (zlen d <? _) with true by lia.
  unfold gslice. replace (16 <=? zlen d) with false by lia. reflexivity.
Qed.
Print Assumptions C27_dubbo_short_payload_panics_refuted.
(** HTTP and Redis text keeps control characters. *)
Theorem C27_http_text_printable_refuted : exists t, getPayloadString [] [71; 13; 10; 0; 7] "http" = Ok t /\ ~ Forall printable t.
Proof. eexists. split; [reflexivity|]. intros F. inversion F as [|? ? _ F2]; subst. inversion F2 as [|? ? P _]; subst. unfold printable in P. lia. Qed.
Print Assumptions C27_http_text_printable_refuted.
(** The UTF-8 text need not be well-formed UTF-8, *)
Theorem C27_utf8_wellformed_refuted : exists p t, formatUtf8 p = Ok t /\ ~ utf8Text t.
Proof.
  exists [228; 228; 184; 173], [228; 228; 184; 173]. split; [reflexivity|]. intros (cs & U & E).
  destruct cs as [|c cs]; [discriminate|]. inversion U as [|? ? UC U2]; subst. unfold cont in *.
  destruct UC as [a A|a b A B|a b c A B C H1 H2|a b c d A B C D H1 H2]; cbn in E; injection E; intros; subst; unfold cont in *; lia.
Qed.
Print Assumptions C27_utf8_wellformed_refuted.
(** and a two-byte character such as "é" before an ASCII character cuts the text off. *)
Theorem C27_utf8_two_byte_kept_refuted : exists p t, utf8Text p /\ formatUtf8 p = Ok t /\ t <> p /\ t = bs "caf".
Proof.
  exists (bs "caf" ++ [195; 169] ++ bs " au lait"), (bs "caf"). split; [|split; [reflexivity|split; [discriminate|reflexivity]]].
  exists (map (fun c => [c]) (bs "caf") ++ [[195; 169]] ++ map (fun c => [c]) (bs " au lait")). split; [|reflexivity].
  repeat (apply Forall_cons; [first [apply U1; vm_compute; split; [discriminate|reflexivity]|apply U2; unfold cont; lia]|]). constructor.
Qed.
Print Assumptions C27_utf8_two_byte_kept_refuted.
(** The limit is the configured length when that is positive, else 200. *)
Theorem C27_limit conf proto : (forall n, aget conf proto = Some n -> 0 < n -> payloadLength conf proto = n) /\
  (forall n, aget conf proto = Some n -> n <= 0 -> payloadLength conf proto = 200) /\ (aget conf proto = None -> payloadLength conf proto = 200).
Proof.
  unfold payloadLength. split; [|split].
  - intros n -> H. destruct (Z.ltb_spec 0 n); [reflexivity|lia].
  - intros n -> H. destruct (Z.ltb_spec 0 n); [lia|reflexivity].
  - intros ->. reflexivity.
Qed.
Print Assumptions C27_limit.
Example exLimit : payloadLength [("mysql", 64); ("dns", 0)] "mysql" = 64 /\ payloadLength [("mysql", 64); ("dns", 0)] "dns" = 200 /\ payloadLength [] "kafka" = 200.
Proof. repeat split. Qed.
