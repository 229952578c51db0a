(** C91: the events in a stored CPU segment read back. *)
From Coq Require Import Permutation.
From Verif Require Import Base Decimal EventModel AttrModel PoolModel LabelNames EnrichModel RecordModel CpuModel TriggerModel CpuDecodeModel FileModel EsModel
  EvtTextModel EvtTextProps JsonModel JsonSpec JsonProps SegJsonModel.
Open Scope string_scope. Open Scope list_scope. Open Scope Z_scope.

(** ** Specification *)
Definition saysInt (k : string) (n : Z) (j : json) : Prop := member k j = Some (JInt n).
(** U+FFFD stands for each byte that is no UTF-8 *)
Definition saysText (k : string) (s : bytes) (j : json) : Prop := member k j = Some (JStr (repair s)).
Definition saysInts (k : string) (l : list Z) (j : json) : Prop := items (member k j) = Some (map JInt l).
(** What the JSON of an event says: all that the event has.  The trace of an inner call is what the stored trace itself reads as (C89). *)
Definition saysEvent (nilSlices : bool) (t : timed) (j : json) : Prop :=
  match t with
  | SCpu c => saysInt "startTime" (ce_start c) j /\ saysInt "endTime" (ce_end c) j /\ saysInts "typeSpecs" (ce_specs c) j /\ saysInts "runqLatency" (ce_runq c) j /\ saysInts "timeType" (ce_types c) j /\
      saysText "onInfo" (ce_on c) j /\ saysText "offInfo" (ce_off c) j /\ saysText "log" (ce_log c) j /\ saysText "stack" (ce_stack c) j
  | SFutex f => saysInt "startTime" (te_start f) j /\ saysInt "endTime" (te_end f) j /\ saysText "dataValue" (te_name f) j
  | SSpan f => saysInt "startTime" (te_start f) j /\ saysInt "endTime" (te_end f) j /\ saysText "traceId" (te_id f) j /\ saysText "name" (te_name f) j
  | STransaction v => saysInt "timestamp" (j_ts v) j /\ saysText "traceId" (j_tid v) j /\ saysInt "isEntry" (j_entry v) j /\ saysText "protocol" (j_proto v) j /\ saysText "url" (j_url v) j /\
      saysText "pidString" (formatInt (j_pid v)) j /\ saysText "containerId" (j_cid v) j
  | SInner s e g => saysInt "startTime" s j /\ saysInt "endTime" e j /\ member "trace" j = read (encode (jsonGroup nilSlices g))
  end.
(** The texts of an event are made of bytes *)
Definition eventTexts (t : timed) : list bytes :=
  match t with
  | SCpu c => [ce_on c; ce_off c; ce_log c; ce_stack c]
  | SFutex f => [te_name f]
  | SSpan f => [te_id f; te_name f]
  | STransaction v => [j_tid v; j_proto v; j_url v; j_cid v]
  | SInner _ _ g => groupTexts g
  end.
Definition madeOfBytes (t : timed) : Prop := Forall (Forall is_byte) (eventTexts t) /\ match t with STransaction v => 0 <= j_pid v | _ => True end.
(** A label is a text that is JSON itself, a list of these events, in order *)
Definition listsEvents (nilSlices : bool) (label : string) (evs : list timed) (ls : json) : Prop :=
  exists s l, member label ls = Some (JStr s) /\ read s = Some (JArr l) /\ Forall2 (saysEvent nilSlices) evs l.

(** ** What is written is UTF-8 *)
Lemma text_app a b : isText a -> isText b -> isText (a ++ b).
Proof. intros (c & C & ->) (d & D & ->). exists (c ++ d). split; [apply Forall_app; split; assumption|]. rewrite flat_map_app. reflexivity. Qed.
Lemma text_cons x b : 0 <= x < 128 -> isText b -> isText (x :: b).
Proof. intros X B. apply (text_app [x]); [apply ascii_text; constructor; [exact X|constructor]|exact B]. Qed.
Lemma text_nil : isText [].
Proof. exists []. split; [constructor|reflexivity]. Qed.
Lemma text_rune x r : 128 <= x -> runeSize (x :: r) <> 1%nat -> isText (firstn (runeSize (x :: r)) (x :: r)).
Proof.
  intros L. cbn [runeSize]. unfold inRange. intros N.
  destruct ((194 <=? x) && (x <=? 223)) eqn:A.
  - destruct r as [|y r]; [congruence|]. destruct ((128 <=? y) && (y <=? 191)) eqn:B; [|congruence]. cbn [firstn]. exists [(x - 192) * 64 + (y - 128)].
    split; [constructor; [left; lia|constructor]|]. cbn [flat_map]. rewrite app_nil_r. unfold utf8. replace ((x - 192) * 64 + (y - 128) <? 128) with false by lia. replace ((x - 192) * 64 + (y - 128) <? 2048) with true by lia.
    rewrite (Z.add_comm ((x - 192) * 64)), Z.div_add, Z.mod_add by lia. rewrite Z.div_small, Z.mod_small by lia. f_equal; [lia|]. f_equal. lia.
  - destruct ((224 <=? x) && (x <=? 239)) eqn:B.
    + destruct r as [|y [|z r]]; try congruence.
      destruct (((if x =? 224 then 160 else 128) <=? y) && (y <=? (if x =? 237 then 159 else 191)) && ((128 <=? z) && (z <=? 191))) eqn:C; [|congruence]. cbn [firstn].
      set (c := (x - 224) * 4096 + (y - 128) * 64 + (z - 128)).
      assert (Y : 128 <= y <= 191) by (destruct (x =? 224), (x =? 237); lia). assert (Z0 : 128 <= z <= 191) by lia.
      assert (D1 : c / 64 = (x - 224) * 64 + (y - 128)). { unfold c. replace ((x - 224) * 4096 + (y - 128) * 64 + (z - 128)) with ((z - 128) + ((x - 224) * 64 + (y - 128)) * 64) by lia. rewrite Z.div_add, Z.div_small by lia. lia. }
      assert (D2 : c / 4096 = x - 224). { unfold c. replace ((x - 224) * 4096 + (y - 128) * 64 + (z - 128)) with (((y - 128) * 64 + (z - 128)) + (x - 224) * 4096) by lia. rewrite Z.div_add, Z.div_small by lia. lia. }
      assert (M0 : c mod 64 = z - 128). { unfold c. replace ((x - 224) * 4096 + (y - 128) * 64 + (z - 128)) with ((z - 128) + ((x - 224) * 64 + (y - 128)) * 64) by lia. rewrite Z.mod_add, Z.mod_small by lia. reflexivity. }
      assert (M1 : c / 64 mod 64 = y - 128). { rewrite D1. rewrite Z.add_comm, Z.mod_add, Z.mod_small by lia. reflexivity. }
      assert (R : 2048 <= c < 65536 /\ scalar c). { unfold scalar, c. destruct (x =? 224) eqn:E1; destruct (x =? 237) eqn:E2; lia. }
      exists [c]. split; [constructor; [exact (proj2 R)|constructor]|]. cbn [flat_map]. rewrite app_nil_r. unfold utf8. replace (c <? 128) with false by lia. replace (c <? 2048) with false by lia. replace (c <? 65536) with true by lia.
      rewrite D2, M1, M0. f_equal; [lia|]. f_equal; [lia|]. f_equal. lia.
    + destruct ((240 <=? x) && (x <=? 244)) eqn:C; [|congruence]. destruct r as [|y [|z [|w r]]]; try congruence.
      destruct (((if x =? 240 then 144 else 128) <=? y) && (y <=? (if x =? 244 then 143 else 191)) && ((128 <=? z) && (z <=? 191)) && ((128 <=? w) && (w <=? 191))) eqn:D; [|congruence]. cbn [firstn].
      set (c := (x - 240) * 262144 + (y - 128) * 4096 + (z - 128) * 64 + (w - 128)).
      assert (Y : 128 <= y <= 191) by (destruct (x =? 240), (x =? 244); lia). assert (Z0 : 128 <= z <= 191) by lia. assert (W0 : 128 <= w <= 191) by lia.
      assert (D1 : c / 64 = ((x - 240) * 64 + (y - 128)) * 64 + (z - 128)). { unfold c. replace ((x - 240) * 262144 + (y - 128) * 4096 + (z - 128) * 64 + (w - 128)) with ((w - 128) + (((x - 240) * 64 + (y - 128)) * 64 + (z - 128)) * 64) by lia. rewrite Z.div_add, Z.div_small by lia. lia. }
      assert (D2 : c / 4096 = (x - 240) * 64 + (y - 128)). { unfold c. replace ((x - 240) * 262144 + (y - 128) * 4096 + (z - 128) * 64 + (w - 128)) with (((z - 128) * 64 + (w - 128)) + ((x - 240) * 64 + (y - 128)) * 4096) by lia. rewrite Z.div_add, Z.div_small by lia. lia. }
      assert (D3 : c / 262144 = x - 240). { unfold c. replace ((x - 240) * 262144 + (y - 128) * 4096 + (z - 128) * 64 + (w - 128)) with (((y - 128) * 4096 + (z - 128) * 64 + (w - 128)) + (x - 240) * 262144) by lia. rewrite Z.div_add, Z.div_small by lia. lia. }
      assert (M0 : c mod 64 = w - 128). { unfold c. replace ((x - 240) * 262144 + (y - 128) * 4096 + (z - 128) * 64 + (w - 128)) with ((w - 128) + (((x - 240) * 64 + (y - 128)) * 64 + (z - 128)) * 64) by lia. rewrite Z.mod_add, Z.mod_small by lia. reflexivity. }
      assert (M1 : c / 64 mod 64 = z - 128). { rewrite D1. rewrite Z.add_comm, Z.mod_add, Z.mod_small by lia. reflexivity. }
      assert (M2 : c / 4096 mod 64 = y - 128). { rewrite D2. rewrite Z.add_comm, Z.mod_add, Z.mod_small by lia. reflexivity. }
      assert (R : 65536 <= c <= 1114111). { unfold c. destruct (x =? 240) eqn:E1; destruct (x =? 244) eqn:E2; lia. }
      exists [c]. split; [constructor; [right; lia|constructor]|]. cbn [flat_map]. rewrite app_nil_r. unfold utf8. replace (c <? 128) with false by lia. replace (c <? 2048) with false by lia. replace (c <? 65536) with false by lia.
      rewrite D3, M2, M1, M0. f_equal; [lia|]. f_equal; [lia|]. f_equal; [lia|]. f_equal. lia.
Qed.
Lemma text_bs s : forallb (fun x => (0 <=? x) && (x <? 128)) (bs s) = true -> isText (bs s).
Proof. exact (field_text s). Qed.
Lemma text_ascii7 x : 0 <= x < 128 -> isText (ascii7 x).
Proof.
  intros X. unfold ascii7. destruct (htmlSafe x); [apply text_cons; [exact X|exact text_nil]|]. destruct ((x =? 92) || (x =? 34)); [apply text_cons; [lia|]; apply text_cons; [exact X|exact text_nil]|].
  destruct (x =? 10); [apply ascii_text; repeat (apply Forall_cons; [lia|]); apply Forall_nil|]. destruct (x =? 13); [apply ascii_text; repeat (apply Forall_cons; [lia|]); apply Forall_nil|].
  destruct (x =? 9); [apply ascii_text; repeat (apply Forall_cons; [lia|]); apply Forall_nil|]. apply text_cons; [lia|]. apply text_app; [apply text_bs; reflexivity|].
  assert (0 <= x / 16 < 8) by (split; [apply Z.div_pos; lia|apply Z.div_lt_upper_bound; lia]). pose proof (Z.mod_pos_bound x 16 ltac:(lia)).
  apply ascii_text. unfold hexDigit. apply Forall_cons; [destruct (x / 16 <? 10); lia|]. apply Forall_cons; [destruct (x mod 16 <? 10); lia|]. apply Forall_nil.
Qed.
Lemma text_quoteF : forall f b, Forall is_byte b -> isText (quoteF f b).
Proof.
  induction f as [|f IH]; intros b F; [exact text_nil|]. destruct b as [|x r]; [exact text_nil|]. cbn [quoteF]. apply text_app; [|apply IH; apply forall_skipn; exact F].
  inversion F as [|? ? X ?]; subst. unfold is_byte in X. unfold piece. destruct (x <? 128) eqn:A; [apply text_ascii7; lia|]. destruct (runeSize (x :: r) =? 1)%nat eqn:N; [apply text_cons; [lia|apply text_bs; reflexivity]|].
  destruct (eqb (firstn (runeSize (x :: r)) (x :: r)) [226; 128; 168]); [apply text_cons; [lia|apply text_bs; reflexivity]|].
  destruct (eqb (firstn (runeSize (x :: r)) (x :: r)) [226; 128; 169]); [apply text_cons; [lia|apply text_bs; reflexivity]|]. apply text_rune; [lia|]. apply Nat.eqb_neq. exact N.
Qed.
Lemma text_quote s : Forall is_byte s -> isText (quote s).
Proof. intros F. unfold quote. apply text_cons; [lia|]. apply text_app; [apply text_quoteF; exact F|]. apply text_cons; [lia|exact text_nil]. Qed.
Lemma text_commas l : Forall isText l -> isText (commas l).
Proof.
  induction 1 as [|x l X F IH]; [exact text_nil|]. destruct l as [|y l]; [exact X|]. rewrite commas_cons by discriminate. apply text_app; [exact X|]. apply text_cons; [lia|exact IH].
Qed.
Lemma text_encode : forall n j, (size j <= n)%nat -> Forall (Forall is_byte) (textsOf j) -> isText (encode j).
Proof.
  induction n as [|n IH]; intros j L G; [pose proof (size_pos j); lia|]. rewrite Forall_forall in G. destruct j as [|b|k|s|l|m]; cbn [encode].
  - apply text_bs. reflexivity.
  - destruct b; apply text_bs; reflexivity.
  - apply ascii_text. apply Forall_forall. intros c I. destruct (formatInt_in _ _ I); lia.
  - apply text_quote. apply G. left. reflexivity.
  - apply text_cons; [lia|]. apply text_app; [|apply text_cons; [lia|exact text_nil]]. apply text_commas. apply Forall_forall. intros t I. apply in_map_iff in I. destruct I as (x & <- & I).
    apply IH; [pose proof (in_sum (fun v => S (size v)) l x I); cbn [size] in L; cbn beta in *; lia|]. apply Forall_forall. intros u U. apply G. cbn [textsOf]. apply in_flat_map. exists x. split; assumption.
  - apply text_cons; [lia|]. apply text_app; [|apply text_cons; [lia|exact text_nil]]. apply text_commas. apply Forall_forall. intros t I. apply in_map_iff in I. destruct I as ([k x] & <- & I). cbn [fst snd].
    apply text_app; [apply text_quote; apply G; cbn [textsOf]; apply in_flat_map; exists (k, x); split; [exact I|left; reflexivity]|]. apply text_cons; [lia|].
    apply IH; [pose proof (in_sum (fun p => S (size (snd p))) m (k, x) I) as H; cbn beta in H; cbn [snd] in H; pose proof (le_S_n _ _ L) as L'; change (list_sum (map (fun p : bytes * json => S (size (snd p))) m) <= n)%nat in L'; lia|].
    apply Forall_forall. intros u U. apply G. cbn [textsOf]. apply in_flat_map. exists (k, x). split; [exact I|right; exact U].
Qed.
(** Everything written is UTF-8, whatever bytes were given. *)
Theorem C91_utf8 : forall j, Forall (Forall is_byte) (textsOf j) -> isText (encode j).
Proof. intros j G. exact (text_encode (size j) j (le_n _) G). Qed.

(** ** Events *)
Lemma group_bytes nil g : Forall (Forall is_byte) (groupTexts g) -> Forall (Forall is_byte) (textsOf (jsonGroup nil g)).
Proof.
  assert (FB : forall s, forallb (fun x => (0 <=? x) && (x <? 128)) (bs s) = true -> Forall is_byte (bs s)) by (intros s F; apply text_bytes; apply field_text; exact F).
  intros T. rewrite Forall_forall in T. apply Forall_forall. intros t I. unfold jsonGroup in I. cbn [textsOf flat_map fst snd app] in I. unfold groupTexts in T.
  destruct I as [<-|I]; [apply FB; reflexivity|]. destruct I as [<-|I]; [apply T; left; reflexivity|]. destruct I as [<-|I]; [apply FB; reflexivity|].
  apply in_app_iff in I. destruct I as [I|I].
  - apply slice_texts in I. destruct I as (x & I & U). apply in_map_iff in I. destruct I as ([n d] & <- & I). unfold jsonMetric in U. cbn [textsOf flat_map fst snd app] in U.
    destruct U as [<-|U]; [apply FB; reflexivity|]. destruct U as [<-|U]; [apply T; right; apply in_app_iff; left; apply in_map_iff; exists (n, d); split; [reflexivity|exact I]|].
    destruct U as [<-|U]; [apply FB; reflexivity|]. rewrite app_nil_r in U. destruct d as [v|s c bo bu]; cbn [jsonData textsOf flat_map fst snd app] in U.
    + destruct U as [<-|[]]. apply FB. reflexivity.
    + destruct U as [<-|U]; [apply FB; reflexivity|]. destruct U as [<-|U]; [apply FB; reflexivity|]. destruct U as [<-|U]; [apply FB; reflexivity|].
      apply in_app_iff in U. destruct U as [U|U]; [destruct (numbers_texts _ _ _ U)|]. destruct U as [<-|U]; [apply FB; reflexivity|]. rewrite app_nil_r in U. destruct (numbers_texts _ _ _ U).
  - destruct I as [<-|I]; [apply FB; reflexivity|]. apply in_app_iff in I. destruct I as [I|I].
    + apply T. right. apply in_app_iff. right. apply labels_texts. exact I.
    + destruct I as [<-|[]]. apply FB. reflexivity.
Qed.
Lemma digits_bytes n : 0 <= n -> Forall is_byte (digits n) /\ digits n = formatInt n.
Proof.
  intros N. assert (E : formatInt n = digits n). { unfold formatInt. replace (n <? 0) with false by lia. reflexivity. } split; [|symmetry; exact E].
  rewrite <- E. apply Forall_forall. intros c I. unfold is_byte. destruct (formatInt_in _ _ I); lia.
Qed.
Lemma field_bytes s : forallb (fun x => (0 <=? x) && (x <? 128)) (bs s) = true -> Forall is_byte (bs s).
Proof. intros F. apply text_bytes. apply field_text. exact F. Qed.
Lemma ints_texts nil l : textsOf (numbers nil l) = [].
Proof. destruct (textsOf (numbers nil l)) as [|t r] eqn:E; [reflexivity|]. destruct (numbers_texts nil l t). unfold numbers in E. rewrite E. left. reflexivity. Qed.
Lemma timed_bytes nil t : madeOfBytes t -> Forall (Forall is_byte) (textsOf (jsonTimed nil t)).
Proof.
  intros (F & P). destruct t as [c|f|f|v|s e g]; cbn [eventTexts] in F; cbn [jsonTimed textsOf flat_map fst snd app]; rewrite ?ints_texts; cbn [app].
  - rewrite Forall_forall in F. repeat (apply Forall_cons; [first [apply field_bytes; reflexivity|apply F; cbn; tauto]|]). apply Forall_nil.
  - rewrite Forall_forall in F. repeat (apply Forall_cons; [first [apply field_bytes; reflexivity|apply F; cbn; tauto]|]). apply Forall_nil.
  - rewrite Forall_forall in F. repeat (apply Forall_cons; [first [apply field_bytes; reflexivity|apply F; cbn; tauto]|]). apply Forall_nil.
  - rewrite Forall_forall in F. repeat (apply Forall_cons; [first [apply field_bytes; reflexivity|apply F; cbn; tauto|exact (proj1 (digits_bytes _ P))]|]). apply Forall_nil.
  - do 3 (apply Forall_cons; [apply field_bytes; reflexivity|]). rewrite app_nil_r. apply group_bytes. exact F.
Qed.
Lemma numbers_repaired nil l : repaired (numbers nil l) = numbers nil l.
Proof. apply (repaired_same (size (numbers nil l))); [apply le_n|]. rewrite ints_texts. constructor. Qed.
Lemma repair_field s : forallb (fun x => (0 <=? x) && (x <? 128)) (bs s) = true -> repair (bs s) = bs s.
Proof. intros F. apply repair_text. apply field_text. exact F. Qed.
Lemma timed_says nil t : madeOfBytes t -> saysEvent nil t (repaired (jsonTimed nil t)).
Proof.
  intros (F & P). destruct t as [c|f|f|v|s e g]; cbn [jsonTimed saysEvent]; unfold saysInt, saysText, saysInts; cbn [repaired map fst snd]; rewrite ?numbers_repaired; rewrite !repair_field by reflexivity.
  - repeat split; first [reflexivity|cbn [member]; exact (slice_items nil _)].
  - repeat split.
  - repeat split.
  - rewrite <- (proj2 (digits_bytes _ P)). repeat split.
  - split; [reflexivity|]. split; [reflexivity|]. cbn [eventTexts] in F. rewrite C89_read; [reflexivity|]. apply group_bytes. exact F.
Qed.
Lemma list_text nil evs : listText (map (timedEvent (ser nil)) evs) = encode (JArr (map (jsonTimed nil) evs)).
Proof.
  unfold listText. cbn [encode]. do 2 f_equal. rewrite !map_map. f_equal. apply map_ext. intros t. unfold timedEvent. destruct t; reflexivity.
Qed.
Lemma arr_bytes nil evs : Forall madeOfBytes evs -> Forall (Forall is_byte) (textsOf (JArr (map (jsonTimed nil) evs))).
Proof. intros F. cbn [textsOf]. rewrite flat_map_concat_map, map_map. induction F as [|t evs T F IH]; [constructor|]. cbn [map concat]. apply Forall_app. split; [exact (timed_bytes nil t T)|exact IH]. Qed.
Lemma arr_says nil evs : Forall madeOfBytes evs -> exists l, read (encode (JArr (map (jsonTimed nil) evs))) = Some (JArr l) /\ Forall2 (saysEvent nil) evs l.
Proof.
  intros F. rewrite (C89_read _ (arr_bytes nil evs F)). cbn [repaired]. eexists. split; [reflexivity|]. induction F as [|t evs T F IH]; [constructor|]. cbn [map]. constructor; [exact (timed_says nil t T)|exact IH].
Qed.
(** Every list of events, as text, reads back: each event with all it has, in order. *)
Theorem C91_list : forall nilSlices evs, Forall madeOfBytes evs ->
  isText (listText (map (timedEvent (ser nilSlices)) evs)) /\ exists l, read (listText (map (timedEvent (ser nilSlices)) evs)) = Some (JArr l) /\ Forall2 (saysEvent nilSlices) evs l.
Proof. intros nil evs F. rewrite list_text. split; [apply C91_utf8; exact (arr_bytes nil evs F)|exact (arr_says nil evs F)]. Qed.

(** ** The stored segment *)
Lemma aget_repaired (m : list (bytes * json)) k : Forall isText (keys m) -> aget (map (fun p => (repair (fst p), repaired (snd p))) m) k = option_map repaired (aget m k).
Proof.
  induction m as [|[k' v] m IH]; intros F; [reflexivity|]. inversion F; subst. cbn [map fst snd aget]. rewrite repair_text by assumption. destruct (eqb k k'); [reflexivity|]. apply IH. assumption.
Qed.
Lemma label_read (m : list (string * aval)) k v : NoDup (keys m) -> Forall (fun k => isText (bs k)) (keys m) -> aget m k = Some v -> member k (repaired (jsonLabels m)) = Some (repaired (jsonValue v)).
Proof.
  intros ND T G. unfold jsonLabels. cbn [repaired member]. rewrite aget_repaired.
  - destruct (labels_shown m ND) as (A & _). destruct (A k v G) as (x & X & Y). unfold jsonLabels in X. cbn [member] in X. rewrite X. cbn [option_map]. destruct v; cbn [tells] in Y; rewrite Y; reflexivity.
  - apply Forall_forall. intros t I. assert (I' : In t (map bs (keys m))). { rewrite <- keys_map_bs. unfold keys in *. eapply Permutation_in; [|exact I]. apply Permutation_map. apply sort_perm. }
    apply in_map_iff in I'. destruct I' as (k' & <- & I'). rewrite Forall_forall in T. exact (T k' I').
Qed.
Lemma sent_labels tr x : let L := glabels (cpuGroup tr x) in
  aget L "cpuEvents" = Some (SV (listText (x_cpu x))) /\ aget L "javaFutexEvents" = Some (SV (listText (x_futex x))) /\ aget L "transactionIds" = Some (SV (listText (x_trans x))) /\
  aget L "spans" = Some (SV (listText (x_spans x))) /\ aget L "innerCalls" = Some (SV (listText (x_inner x))) /\ aget L "tid" = Some (IV (x_tid x)) /\ aget L "threadName" = Some (SV (x_name x)) /\
  aget L "startTime" = Some (IV (s64 (x_start x))) /\ aget L "endTime" = Some (IV (s64 (x_end x))).
Proof.
  cbn [cpuGroup segGroup glabels]. unfold cpuGroup, segGroup, cpuGroupLabels, toAttributes. cbn [glabels]. generalize (getElements (fst tr) (snd tr)). intros f.
  generalize (listText (x_cpu x)) (listText (x_futex x)) (listText (x_trans x)) (listText (x_spans x)) (listText (x_inner x)). intros t1 t2 t3 t4 t5. destruct (f_srv f); repeat split; reflexivity.
Qed.
Lemma sent_keys tr x : keys (glabels (cpuGroup tr x)) =
  ["pid"; "tid"; "isSent"; "threadName"; "startTime"; "endTime"; "cpuEvents"; "javaFutexEvents"; "transactionIds"; "spans"; "innerCalls"; "is_server"] ++
  (if f_srv (getElements (fst tr) (snd tr)) then ["dst_workload_name"; "dst_pod"; "dst_container"] else ["src_workload_name"; "src_pod"; "src_container"]) ++ ["protocol"; "content_key"; "timestamp"].
Proof.
  unfold cpuGroup, segGroup, cpuGroupLabels, toAttributes. cbn [glabels]. generalize (getElements (fst tr) (snd tr)). intros f.
  generalize (listText (x_cpu x)) (listText (x_futex x)) (listText (x_trans x)) (listText (x_spans x)) (listText (x_inner x)). intros t1 t2 t3 t4 t5. destruct (f_srv f); reflexivity.
Qed.
Lemma sent_keys_ok tr x : NoDup (keys (glabels (cpuGroup tr x))) /\ Forall (fun k => isText (bs k)) (keys (glabels (cpuGroup tr x))).
Proof.
  rewrite sent_keys. destruct (f_srv _); cbn [app]; (split; [repeat (apply NoDup_cons; [cbn [In]; intuition discriminate|]); apply NoDup_nil|repeat (apply Forall_cons; [apply field_text; reflexivity|]); apply Forall_nil]).
Qed.
Lemma group_labels nil g : member "labels" (repaired (jsonGroup nil g)) = Some (repaired (jsonLabels (glabels g))) /\ saysInt "timestamp" (gts g) (repaired (jsonGroup nil g)).
Proof. unfold saysInt, jsonGroup. cbn [repaired map fst snd]. rewrite !repair_field by reflexivity. split; reflexivity. Qed.
(** A segment sent for a trace, as it is stored: its five lists of events read back, each from the text in its label, with all that each event has and in order; and the thread, its
    name and the times of the segment. *)
Theorem C91_sent : forall nilSlices tr x cpus futexes transactions spans inners,
  x_cpu x = map (timedEvent (ser nilSlices)) cpus -> x_futex x = map (timedEvent (ser nilSlices)) futexes -> x_trans x = map (timedEvent (ser nilSlices)) transactions ->
  x_spans x = map (timedEvent (ser nilSlices)) spans -> x_inner x = map (timedEvent (ser nilSlices)) inners ->
  Forall madeOfBytes (cpus ++ futexes ++ transactions ++ spans ++ inners) -> Forall (Forall is_byte) (groupTexts (cpuGroup tr x)) ->
  exists j ls, read (encode (jsonGroup nilSlices (cpuGroup tr x))) = Some j /\ member "labels" j = Some ls /\
    listsEvents nilSlices "cpuEvents" cpus ls /\ listsEvents nilSlices "javaFutexEvents" futexes ls /\ listsEvents nilSlices "transactionIds" transactions ls /\
    listsEvents nilSlices "spans" spans ls /\ listsEvents nilSlices "innerCalls" inners ls /\
    saysInt "tid" (x_tid x) ls /\ saysText "threadName" (x_name x) ls /\ saysInt "startTime" (s64 (x_start x)) ls /\ saysInt "endTime" (s64 (x_end x)) ls /\ saysInt "timestamp" (x_start x) j.
Proof.
  intros nil tr x cpus futexes transactions spans inners E1 E2 E3 E4 E5 M G. rewrite (C89_read _ (group_bytes nil _ G)).
  exists (repaired (jsonGroup nil (cpuGroup tr x))), (repaired (jsonLabels (glabels (cpuGroup tr x)))). split; [reflexivity|].
  destruct (sent_labels tr x) as (K1 & K2 & K3 & K4 & K5 & K6 & K7 & K8 & K9). destruct (sent_keys_ok tr x) as (ND & T). destruct (group_labels nil (cpuGroup tr x)) as (GL & GT).
  revert K1 K2 K3 K4 K5 K6 K7 K8 K9 ND T GL GT. generalize (glabels (cpuGroup tr x)). intros L K1 K2 K3 K4 K5 K6 K7 K8 K9 ND T GL GT.
  assert (EV : forall label evs l, aget L label = Some (SV (listText l)) -> l = map (timedEvent (ser nil)) evs -> Forall madeOfBytes evs -> listsEvents nil label evs (repaired (jsonLabels L))).
  { intros label evs l A E B. destruct (C91_list nil evs B) as (TX & l' & R & F2). rewrite <- E in *. exists (listText l), l'. split; [|split; [exact R|exact F2]].
    rewrite (label_read L label _ ND T A). cbn [jsonValue repaired]. rewrite (repair_text _ TX). reflexivity. }
  apply Forall_app in M. destruct M as (M1 & M). apply Forall_app in M. destruct M as (M2 & M). apply Forall_app in M. destruct M as (M3 & M). apply Forall_app in M. destruct M as (M4 & M5).
  split; [exact GL|].
  split; [exact (EV _ _ _ K1 E1 M1)|]. split; [exact (EV _ _ _ K2 E2 M2)|]. split; [exact (EV _ _ _ K3 E3 M3)|]. split; [exact (EV _ _ _ K4 E4 M4)|]. split; [exact (EV _ _ _ K5 E5 M5)|].
  unfold saysInt, saysText. rewrite (label_read L _ _ ND T K6), (label_read L _ _ ND T K7), (label_read L _ _ ND T K8), (label_read L _ _ ND T K9). repeat split; first [exact GT|reflexivity].
Qed.

(** ** Reading a segment *)
Definition u64s (l : list Z) : Prop := Forall (fun n => 0 <= n < 2 ^ 64) l.
Definition sizes (s : segment) : Prop :=
  u64s [s_start s; s_end s] /\ Forall (fun c => u64s [ce_start c; ce_end c] /\ u64s (ce_specs c) /\ u64s (ce_runq c) /\ Forall is_byte (ce_types c)) (s_cpu s) /\ Forall (fun f => u64s [te_start f; te_end f] /\ te_id f = []) (s_futex s).
Lemma uint_ok w n : 0 <= n < 2 ^ w -> uintOf w (Some (JInt n)) = Ok n.
Proof. intros H. unfold uintOf. replace ((0 <=? n) && (n <? 2 ^ w)) with true by lia. reflexivity. Qed.
Lemma all_ok {A B} (f : A -> res B) (g : A -> B) l : (forall x, In x l -> f x = Ok (g x)) -> allOk (map f l) = Ok (map g l).
Proof. induction l as [|x l IH]; intros H; [reflexivity|]. cbn [map allOk]. rewrite (H x (or_introl eq_refl)). cbn [bind]. rewrite IH; [reflexivity|]. intros y I. apply H. right. exact I. Qed.
Lemma numbers_ok nil f l : (forall n, In n l -> f (JInt n) = Ok n) -> listOf f (Some (numbers nil l)) = Ok l.
Proof.
  intros H. unfold numbers, jsonSlice. destruct l as [|n l]; [destruct nil; reflexivity|]. change (map JInt (n :: l)) with (JInt n :: map JInt l). cbn [listOf].
  change (JInt n :: map JInt l) with (map JInt (n :: l)). rewrite map_map. rewrite (all_ok (fun x => f (JInt x)) (fun x => x)); [rewrite map_id; reflexivity|]. exact H.
Qed.
Lemma read_cpu nil c : u64s [ce_start c; ce_end c] -> u64s (ce_specs c) -> u64s (ce_runq c) -> Forall is_byte (ce_types c) -> readCpu (jsonTimed nil (SCpu c)) = Ok c.
Proof.
  intros A B C D. inversion A as [|? ? A1 A']; subst. inversion A' as [|? ? A2 _]; subst. unfold u64s in *. rewrite Forall_forall in B, C, D. unfold readCpu. cbn [jsonTimed isObject].
  set (j := JObj _). change (field "startTime" j) with (Some (JInt (ce_start c))). rewrite uint_ok by exact A1. cbn [bind]. change (field "endTime" j) with (Some (JInt (ce_end c))). rewrite uint_ok by exact A2. cbn [bind].
  change (field "typeSpecs" j) with (Some (numbers nil (ce_specs c))). rewrite numbers_ok; [|intros n I; apply uint_ok; exact (B n I)]. cbn [bind].
  change (field "runqLatency" j) with (Some (numbers nil (ce_runq c))). rewrite numbers_ok; [|intros n I; apply uint_ok; exact (C n I)]. cbn [bind].
  change (field "timeType" j) with (Some (numbers nil (ce_types c))). rewrite numbers_ok.
  - cbn [bind]. destruct c; reflexivity.
  - intros n I. specialize (D n I). unfold is_byte in D. unfold typeOf. rewrite uint_ok by lia. cbn [bind]. rewrite Z.mod_small by lia. reflexivity.
Qed.
Lemma read_futex nil f : u64s [te_start f; te_end f] -> te_id f = [] -> readFutex (jsonTimed nil (SFutex f)) = Ok f.
Proof.
  intros A E. inversion A as [|? ? A1 A']; subst. inversion A' as [|? ? A2 _]; subst. unfold readFutex. cbn [jsonTimed isObject].
  set (j := JObj _). change (field "startTime" j) with (Some (JInt (te_start f))). rewrite uint_ok by exact A1. cbn [bind]. change (field "endTime" j) with (Some (JInt (te_end f))). rewrite uint_ok by exact A2. cbn [bind].
  destruct f as [a b i n]. cbn in E. subst i. reflexivity.
Qed.
Lemma read_segment nil s : sizes s -> readSegment (jsonSegment nil s) =
  Ok {| s_start := s_start s; s_end := s_end s; s_cpu := s_cpu s; s_futex := aliased (s_futex s); s_trans := []; s_spans := []; s_inner := []; s_sent := 0; s_index := [] |}.
Proof.
  intros (A & B & C). inversion A as [|? ? A1 A']; subst. inversion A' as [|? ? A2 _]; subst. rewrite Forall_forall in B, C. unfold readSegment.
  set (j := jsonSegment nil s). change (isObject j) with true. cbv iota. change (field "startTime" j) with (Some (JInt (s_start s))). rewrite uint_ok by exact A1. cbn [bind]. change (field "endTime" j) with (Some (JInt (s_end s))). rewrite uint_ok by exact A2. cbn [bind].
  change (field "cpuEvents" j) with (Some (JArr (map (fun c => jsonTimed nil (SCpu c)) (s_cpu s)))). cbn [listOf]. rewrite map_map.
  rewrite (all_ok (fun c => readCpu (jsonTimed nil (SCpu c))) (fun c => c)); [|intros c I; destruct (B c I) as (B1 & B2 & B3 & B4); apply read_cpu; assumption]. rewrite map_id. cbn [bind].
  change (field "javaFutexEvents" j) with (Some (JArr (map (fun c => jsonTimed nil (SFutex c)) (s_futex s)))). cbn [listOf]. rewrite map_map.
  rewrite (all_ok (fun c => readFutex (jsonTimed nil (SFutex c))) (fun c => c)); [|intros c I; destruct (C c I) as (C1 & C2); apply read_futex; assumption]. rewrite map_id. reflexivity.
Qed.
(** A segment written as JSON and read by the code's own reader has the same times and the same CPU events. *)
Theorem C91_segment : forall nilSlices s, sizes s -> Forall isText (textsOf (jsonSegment nilSlices s)) ->
  exists j s', read (encode (jsonSegment nilSlices s)) = Some j /\ readSegment j = Ok s' /\ s_start s' = s_start s /\ s_end s' = s_end s /\ s_cpu s' = s_cpu s /\
    List.length (s_futex s') = List.length (s_futex s).
Proof.
  intros nil s Z T. eexists. eexists. split; [exact (C89_same _ T)|]. split; [exact (read_segment nil s Z)|]. repeat split; try reflexivity. cbn [s_futex]. unfold aliased.
  destruct (rev (s_futex s)) as [|z r] eqn:E; [|apply repeat_length]. apply (f_equal (@rev _)) in E. rewrite rev_involutive in E. rewrite E. reflexivity.
Qed.
(** False: its lock events are read too: each of them becomes the last one; and spans, transactions and inner calls are dropped. *)
Theorem C91_segment_refuted : forall nilSlices s f, sizes s ->
  exists s', readSegment (jsonSegment nilSlices s) = Ok s' /\ s_trans s' = [] /\ s_spans s' = [] /\ s_inner s' = [] /\
    forall l, s_futex s = l ++ [f] -> s_futex s' = repeat f (S (List.length l)).
Proof.
  intros nil s f Z. eexists. split; [exact (read_segment nil s Z)|]. repeat split; try reflexivity. intros l E. cbn [s_futex]. unfold aliased. rewrite E, rev_app_distr. cbn [rev app]. rewrite app_length. cbn [List.length]. rewrite Nat.add_1_r. reflexivity.
Qed.
Print Assumptions C91_utf8.
Print Assumptions C91_list.
Print Assumptions C91_sent.
Print Assumptions C91_segment.
Print Assumptions C91_segment_refuted.

(** ** Cases *)
Definition exCpu : cpuEv := {| ce_start := 5; ce_end := 18446744073709551615; ce_specs := [3; 4]; ce_runq := []; ce_types := [0; 255]; ce_on := bs "a""b"; ce_off := [255; 10]; ce_log := [226; 130; 172]; ce_stack := [] |}.
Definition exFutex (n : Z) : textEv := {| te_start := n; te_end := n + 1; te_id := []; te_name := bs "lock" |}.
Definition exInner : group := {| gname := "net"; gmetrics := [("latency", MInt 5)]; glabels := [("url", SV (bs "/x"))]; gts := 9 |}.
Definition exTransaction : jev := {| j_ts := 7; j_tid := bs "t1"; j_entry := 1; j_proto := bs "http"; j_url := bs "/y"; j_pid := 12; j_cid := bs "c" |}.
Definition exSent : sent := {| x_pid := 12; x_tid := 13; x_sent := 0; x_name := bs "main"; x_start := 1000; x_end := 2000;
  x_cpu := map (timedEvent (ser true)) [SCpu exCpu]; x_futex := map (timedEvent (ser true)) [SFutex (exFutex 1); SFutex (exFutex 2)]; x_trans := map (timedEvent (ser true)) [STransaction exTransaction];
  x_spans := []; x_inner := map (timedEvent (ser true)) [SInner 1 2 exInner] |}.
Example C91_sent_example : forallb (fun b => forallb (fun x => (0 <=? x) && (x <? 256)) b) (groupTexts (cpuGroup ([("is_server", BV true); ("content_key", SV (bs "/z"))], 77) exSent)) = true /\
  Forall madeOfBytes [SCpu exCpu; SFutex (exFutex 1); STransaction exTransaction; SInner 1 2 exInner] /\
  match read (encode (jsonGroup true (cpuGroup ([("is_server", BV true); ("content_key", SV (bs "/z"))], 77) exSent))) with
  | Some j => match member "labels" j with
    | Some ls => match member "cpuEvents" ls with
      | Some (JStr s) => read s
      | _ => None end
    | None => None end
  | None => None end =
  Some (JArr [JObj [(bs "startTime", JInt 5); (bs "endTime", JInt 18446744073709551615); (bs "typeSpecs", JArr [JInt 3; JInt 4]); (bs "runqLatency", JNull); (bs "timeType", JArr [JInt 0; JInt 255]);
    (bs "onInfo", JStr (bs "a""b")); (bs "offInfo", JStr [239; 191; 189; 10]); (bs "log", JStr [226; 130; 172]); (bs "stack", JStr [])]]).
Proof.
  split; [vm_compute; reflexivity|]. split; [|vm_compute; reflexivity].
  repeat (apply Forall_cons; [split; [|first [exact Logic.I|cbn; lia]]; cbn [eventTexts]; apply Forall_forall; intros b I; apply Forall_forall; intros x X; revert x X; apply Forall_forall;
    (cbn in I; repeat (destruct I as [<-|I]; [repeat (apply Forall_cons; [unfold is_byte; lia|]); apply Forall_nil|]); destruct I)|]). apply Forall_nil.
Qed.
Definition exSegment : segment := {| s_start := 1; s_end := 2; s_cpu := [exCpu]; s_futex := [exFutex 1; exFutex 2]; s_trans := []; s_spans := [exFutex 3]; s_inner := []; s_sent := 1; s_index := [] |}.
Example C91_segment_example : sizes exSegment /\
  option_map readSegment (read (encode (jsonSegment true exSegment))) = Some (Ok {| s_start := 1; s_end := 2;
    s_cpu := [{| ce_start := 5; ce_end := 18446744073709551615; ce_specs := [3; 4]; ce_runq := []; ce_types := [0; 255]; ce_on := bs "a""b"; ce_off := [239; 191; 189; 10]; ce_log := [226; 130; 172]; ce_stack := [] |}];
    s_futex := [exFutex 2; exFutex 2]; s_trans := []; s_spans := []; s_inner := []; s_sent := 0; s_index := [] |}).
Proof.
  assert (B : forall l, forallb (fun n => (0 <=? n) && (n <? 2 ^ 64)) l = true -> u64s l). { intros l H. apply Forall_forall. intros n I. rewrite forallb_forall in H. specialize (H n I). cbn beta in H. lia. }
  split; [|vm_compute; reflexivity]. split; [apply B; reflexivity|]. split.
  - apply Forall_cons; [|apply Forall_nil]. split; [apply B; reflexivity|]. split; [apply B; reflexivity|]. split; [apply B; reflexivity|]. repeat (apply Forall_cons; [unfold is_byte; lia|]). apply Forall_nil.
  - repeat (apply Forall_cons; [split; [apply B; reflexivity|reflexivity]|]). apply Forall_nil.
Qed.
