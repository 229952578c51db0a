(** Decoding domain names. *)
From Verif Require Import Base Decimal DetectProofs AttrModel LabelNames MsgModel ReaderSpec ReaderProofs ReaderProps TextProofs DnsModel DnsSpec.
Open Scope string_scope. Open Scope list_scope. Open Scope Z_scope.

(** A claim about bytes is checked on all 256. *)
Definition allBytes : list Z := map Z.of_nat (seq 0 256).
Lemma byte_check (f : Z -> bool) : forallb f allBytes = true -> forall b, 0 <= b < 256 -> f b = true.
Proof.
  intros F b B. rewrite forallb_forall in F. apply F. unfold allBytes. apply in_map_iff. exists (Z.to_nat b). split; [lia|]. apply in_seq. lia.
Qed.
Lemma byte_class c : 0 <= c < 256 -> (Z.land c 192 =? 0) = (c <? 64) /\ (Z.land c 192 =? 192) = (192 <=? c) /\ (192 <= c -> Z.lxor c 192 = c - 192).
Proof.
  intros B. pose proof (byte_check (fun c => Bool.eqb (Z.land c 192 =? 0) (c <? 64) && Bool.eqb (Z.land c 192 =? 192) (192 <=? c) && ((c <? 192) || (Z.lxor c 192 =? c - 192))) eq_refl c B) as F.
  cbn beta in F. apply andb_prop in F. destruct F as [F F3]. apply andb_prop in F. destruct F as [F1 F2]. apply Bool.eqb_prop in F1, F2.
  split; [exact F1|]. split; [exact F2|]. intros G. lia.
Qed.
Lemma char_text b : 0 <= b < 256 -> (if isDomainNameLabelSpecial b then Ok [92; b] else if (b <? 32) || (126 <? b) then escapeByte b else Ok [b]) = Ok (charText b).
Proof.
  intros B. pose proof (byte_check (fun b => match (if isDomainNameLabelSpecial b then Ok [92; b] else if (b <? 32) || (126 <? b) then escapeByte b else Ok [b]) with Ok t => eqb t (charText b) | _ => false end) eq_refl b B) as F.
  cbn beta in F. destruct (if isDomainNameLabelSpecial b then Ok [92; b] else if (b <? 32) || (126 <? b) then escapeByte b else Ok [b]) as [t| |]; try discriminate. apply eqb_true in F. rewrite F. reflexivity.
Qed.
Lemma labelText_ok l : byteList l -> labelText l = Ok (List.concat (map charText l)).
Proof.
  induction 1 as [|b l B L IH]; [reflexivity|]. cbn [labelText map List.concat]. rewrite (char_text b B), IH. reflexivity.
Qed.
Definition texts (ls : list bytes) : bytes := List.concat (map (fun l => List.concat (map charText l) ++ bs ".") ls).
Definition finish (s : bytes) : bytes := if zlen s =? 0 then bs "." else s.
Lemma texts_nonempty l ls : zlen (texts (l :: ls)) =? 0 = false.
Proof.
  unfold texts. cbn [map List.concat]. rewrite !zlen_app. change (zlen (bs ".")) with 1. pose proof (zlen_nonneg (List.concat (map charText l))). pose proof (zlen_nonneg (List.concat (map (fun l0 => List.concat (map charText l0) ++ bs ".") ls))). lia.
Qed.
Lemma finish_dotted ls : finish (texts ls) = dotted ls.
Proof. destruct ls as [|l ls]; [reflexivity|]. unfold finish. rewrite texts_nonempty. reflexivity. Qed.
Lemma dotted_nonempty ls : zlen (dotted ls) =? 0 = false.
Proof. destruct ls as [|l ls]; [reflexivity|]. apply (texts_nonempty l ls). Qed.
Lemma octets_nonneg ls : 0 <= octets ls.
Proof. induction ls as [|l ls IH]; cbn [octets fold_right]; [lia|]. pose proof (zlen_nonneg l). unfold octets in IH. lia. Qed.
Lemma octets_cons l ls : octets (l :: ls) = zlen l + 1 + octets ls.
Proof. reflexivity. Qed.

Lemma unpack_forward d off ls e p : nameAt d off ls e p -> forall f budget ptr off1 s, octets ls < budget -> 0 <= ptr -> ptr + Z.of_nat p <= 126 ->
  octets ls + Z.of_nat p < Z.of_nat f ->
  unpackLoop f d off budget ptr off1 s = Ok (finish (s ++ texts ls), if ptr =? 0 then e else off1).
Proof.
  induction 1 as [pre s E|pre l s ls e p E LB NA IH|pre hi lo s ls e p E HI LO NA IH]; intros f budget ptr off1 t B P0 P F.
  - destruct f as [|f]; [cbn in F; lia|]. cbn [unpackLoop]. subst d.
    replace (zlen (pre ++ [0] ++ s) <=? zlen pre) with false by (rewrite zlen_app; cbn [app]; rewrite zlen_cons; pose proof (zlen_nonneg s); lia).
    cbn [app]. rewrite g0. cbn [bind]. change (Z.land 0 192 =? 0) with true. change (0 =? 0) with true. cbn iota. rewrite app_nil_r. reflexivity.
  - rewrite octets_cons in B, F. pose proof (octets_nonneg ls) as ON. destruct LB as [LB BL].
    destruct f as [|f]; [lia|]. cbn [unpackLoop]. pose proof (zlen_nonneg s) as NS.
    assert (LD : zlen d = zlen pre + 1 + zlen l + zlen s) by (rewrite E, !zlen_app; change (zlen [zlen l]) with 1; lia).
    replace (zlen d <=? zlen pre) with false by lia.
    assert (G : gindex d (zlen pre) = Ok (zlen l)) by (rewrite E; cbn [app]; apply g0). rewrite G. cbn [bind].
    destruct (byte_class (zlen l) ltac:(lia)) as (C1 & _). rewrite C1. replace (zlen l <? 64) with true by lia. replace (zlen l =? 0) with false by lia.
    replace (zlen d <? zlen pre + 1 + zlen l) with false by lia. replace (budget - (zlen l + 1) <=? 0) with false by lia.
    assert (G2 : gslice d (zlen pre + 1) (zlen pre + 1 + zlen l) = Ok l).
    { rewrite E, app_assoc. apply gslice_mid; rewrite zlen_app; reflexivity. }
    rewrite G2. cbn [bind]. rewrite (labelText_ok l BL). cbn [bind]. rewrite IH by lia. do 3 f_equal. unfold texts at 2. cbn [map List.concat]. rewrite <- !app_assoc. reflexivity.
  - destruct f as [|f]; [pose proof (octets_nonneg ls); lia|]. cbn [unpackLoop]. pose proof (zlen_nonneg s) as NS.
    assert (LD : zlen d = zlen pre + 2 + zlen s) by (rewrite E, !zlen_app; change (zlen [192 + hi; lo]) with 2; lia).
    replace (zlen d <=? zlen pre) with false by lia.
    assert (G : gindex d (zlen pre) = Ok (192 + hi)) by (rewrite E; cbn [app]; apply g0). rewrite G. cbn [bind].
    destruct (byte_class (192 + hi) ltac:(lia)) as (C1 & C2 & C3). rewrite C1, C2. replace (192 + hi <? 64) with false by lia. replace (192 <=? 192 + hi) with true by lia.
    replace (zlen d <=? zlen pre + 1) with false by lia.
    assert (G2 : gindex d (zlen pre + 1) = Ok lo) by (rewrite E; cbn [app]; apply g1). rewrite G2. cbn [bind].
    change maxCompressionPointers with 126. replace (126 <? ptr + 1) with false by lia. rewrite C3 by lia.
    replace (Z.lor (Z.shiftl (192 + hi - 192) 8) lo) with (hi * 256 + lo) by (rewrite (lor_disjoint (192 + hi - 192) lo 8) by lia; change (2 ^ 8) with 256; lia).
    rewrite IH by lia. replace (ptr + 1 =? 0) with false by lia. destruct (ptr =? 0); [|reflexivity]. do 2 f_equal. lia.
Qed.
Lemma split_index (d : bytes) off c : gindex d off = Ok c -> exists pre s, d = pre ++ c :: s /\ zlen pre = off.
Proof.
  intros G. apply gindex_inv in G. destruct G as [B N]. apply nth_error_split in N. destruct N as (pre & s & E & L). exists pre, s. split; [exact E|]. unfold zlen. lia.
Qed.
Lemma byte_of d off c : byteList d -> gindex d off = Ok c -> 0 <= c < 256.
Proof.
  intros B G. destruct (split_index d off c G) as (pre & s & -> & _). unfold byteList in B. rewrite Forall_forall in B. apply B. apply in_or_app. right. left. reflexivity.
Qed.
(** What the loop accepts is a name, and it never goes wrong. *)
Lemma unpack_backward d : byteList d -> forall f off budget ptr off1 s t e', 0 < budget -> 0 <= ptr -> ptr <= 126 -> 0 <= off ->
  unpackLoop f d off budget ptr off1 s = Ok (t, e') ->
  exists ls e p, nameAt d off ls e p /\ octets ls < budget /\ ptr + Z.of_nat p <= 126 /\ t = finish (s ++ texts ls) /\ e' = (if ptr =? 0 then e else off1) /\ off < e <= zlen d.
Proof.
  intros BD. induction f as [|f IH]; intros off budget ptr off1 s t e' B P P2 O U; [discriminate|]. cbn [unpackLoop] in U.
  destruct (zlen d <=? off) eqn:Q; [discriminate|]. destruct (gindex d off) as [c| |] eqn:G; try discriminate. cbn [bind] in U.
  pose proof (byte_of d off c BD G) as BC. destruct (split_index d off c G) as (pre & r & ED & EL). destruct (byte_class c BC) as (C1 & C2 & C3). rewrite C1, C2 in U.
  assert (LD : zlen d = off + 1 + zlen r) by (rewrite ED, zlen_app, zlen_cons; lia). pose proof (zlen_nonneg r) as NR.
  destruct (c <? 64) eqn:K.
  - destruct (c =? 0) eqn:Z0.
    + injection U as <- <-. assert (c = 0) as -> by lia. exists [], (off + 1), 0%nat. split; [rewrite <- EL; apply (At_end d pre r); exact ED|].
      cbn [octets fold_right]. rewrite app_nil_r. split; [lia|]. split; [lia|]. split; [reflexivity|]. split; [reflexivity|lia].
    + destruct (zlen d <? off + 1 + c) eqn:Q2; [discriminate|]. destruct (budget - (c + 1) <=? 0) eqn:Q3; [discriminate|].
      destruct (gslice d (off + 1) (off + 1 + c)) as [l| |] eqn:S; try discriminate. cbn [bind] in U.
      assert (SP : exists r', r = l ++ r' /\ zlen l = c).
      { rewrite gslice_ok in S by lia. injection S as S. exists (skipn (Z.to_nat c) r). split.
        - rewrite <- S, ED. unfold slice. replace (pre ++ c :: r) with ((pre ++ [c]) ++ r) by (rewrite <- app_assoc; reflexivity).
          replace (Z.to_nat (off + 1)) with (List.length (pre ++ [c])) by (rewrite app_length; cbn [List.length]; unfold zlen in EL; lia).
          rewrite skipn_app_exact by reflexivity. replace (Z.to_nat (off + 1 + c - (off + 1))) with (Z.to_nat c) by lia. symmetry. apply firstn_skipn.
        - rewrite <- S. rewrite slice_length by lia. lia. }
      destruct SP as (r' & ER & LL).
      assert (BL : byteList l). { unfold byteList in *. rewrite ED, ER in BD. apply Forall_app in BD. destruct BD as [_ BD]. apply Forall_inv_tail in BD. apply Forall_app in BD. exact (proj1 BD). }
      rewrite (labelText_ok l BL) in U. cbn [bind] in U. apply IH in U; try lia. destruct U as (ls & e & p & NA & OC & PP & ET & EE & RR).
      exists (l :: ls), e, p. split.
      { rewrite <- EL. apply (At_label d pre l r' ls e p).
        - rewrite ED, ER, LL. reflexivity.
        - split; [lia|exact BL].
        - rewrite EL, LL. exact NA. }
      rewrite octets_cons. split; [lia|]. split; [exact PP|]. split; [|split; [exact EE|lia]]. rewrite ET. f_equal. unfold texts at 2. cbn [map List.concat]. rewrite <- !app_assoc. reflexivity.
  - destruct (192 <=? c) eqn:K2; [|discriminate]. destruct (zlen d <=? off + 1) eqn:Q2; [discriminate|].
    destruct (gindex d (off + 1)) as [lo| |] eqn:G2; try discriminate. cbn [bind] in U. pose proof (byte_of d (off + 1) lo BD G2) as BLo.
    change maxCompressionPointers with 126 in U. destruct (126 <? ptr + 1) eqn:Q3; [discriminate|]. rewrite C3 in U by lia.
    replace (Z.lor (Z.shiftl (c - 192) 8) lo) with ((c - 192) * 256 + lo) in U by (rewrite (lor_disjoint (c - 192) lo 8) by lia; reflexivity).
    apply IH in U; try lia. destruct U as (ls & e & p & NA & OC & PP & ET & EE & RR).
    replace (ptr + 1 =? 0) with false in EE by lia.
    exists ls, (off + 2), (S p). split.
    { destruct r as [|x r]; [change (zlen (@nil Z)) with 0 in LD; lia|]. assert (x = lo) as ->.
      { rewrite ED, <- EL in G2. rewrite g1 in G2. congruence. }
      rewrite <- EL. apply (At_pointer d pre (c - 192) lo r ls e p); try lia; [|exact NA]. rewrite ED. replace (192 + (c - 192)) with c by lia. reflexivity. }
    split; [exact OC|]. split; [lia|]. split; [exact ET|]. split; [|lia]. rewrite EE. destruct (ptr =? 0); lia.
Qed.
Lemma unpack_total d : byteList d -> forall f off budget ptr off1 s, 0 < budget -> 0 <= ptr -> ptr <= 126 -> 0 <= off -> budget + (126 - ptr) < Z.of_nat f ->
  unpackLoop f d off budget ptr off1 s <> Panic.
Proof.
  intros BD. induction f as [|f IH]; intros off budget ptr off1 s B P P2 O F; [lia|]. cbn [unpackLoop].
  destruct (zlen d <=? off) eqn:Q; [discriminate|]. destruct (gindex_in d off ltac:(lia)) as (c & G). rewrite G. cbn [bind].
  pose proof (byte_of d off c BD G) as BC. destruct (byte_class c BC) as (C1 & C2 & C3). rewrite C1, C2. destruct (c <? 64) eqn:K.
  - destruct (c =? 0) eqn:Z0; [discriminate|]. destruct (zlen d <? off + 1 + c) eqn:Q2; [discriminate|]. destruct (budget - (c + 1) <=? 0) eqn:Q3; [discriminate|].
    rewrite gslice_ok by lia. cbn [bind]. rewrite labelText_ok.
    + cbn [bind]. apply IH; lia.
    + unfold byteList in *. rewrite Forall_forall in *. intros x I. apply BD. unfold slice in I. rewrite <- (firstn_skipn (Z.to_nat off + 1) d). apply in_or_app. right.
      replace (Z.to_nat off + 1)%nat with (Z.to_nat (off + 1)) by lia. rewrite <- (firstn_skipn (Z.to_nat (off + 1 + c - (off + 1)))). apply in_or_app. left. exact I.
  - destruct (192 <=? c) eqn:K2; [|discriminate]. destruct (zlen d <=? off + 1) eqn:Q2; [discriminate|]. destruct (gindex_in d (off + 1) ltac:(lia)) as (lo & G2). rewrite G2. cbn [bind].
    pose proof (byte_of d (off + 1) lo BD G2) as BLo. change maxCompressionPointers with 126. destruct (126 <? ptr + 1) eqn:Q3; [discriminate|]. rewrite C3 by lia.
    rewrite (lor_disjoint (c - 192) lo 8) by lia. apply IH; lia.
Qed.
