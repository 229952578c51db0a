(** C10 the same address in all its forms (with EventProps.v and ConntrackProps.v). *)
From Verif Require Import Base Decimal EventModel EventProps ConntrackModel ConntrackSpec ConntrackProofs SocketModel SocketProps TcpModel TcpSpec AddrModel.
From Coq Require Import ZifyBool.
Open Scope list_scope. Open Scope Z_scope.

Lemma dtoi_digits : forall ds acc k r, forallb isDigit ds = true -> (k <> O \/ ds <> []) -> 0 <= acc -> fold_left digitVal ds acc < 16777215 ->
  match r with c :: _ => isDigit c = false | [] => True end -> dtoi acc k (ds ++ r) = Some (fold_left digitVal ds acc, (k + List.length ds)%nat, r).
Proof.
  induction ds as [|c ds IH]; intros acc k r D K A L R; cbn [app dtoi fold_left List.length].
  - destruct K as [K|K]; [|contradiction]. rewrite Nat.add_0_r. destruct r as [|c r]; cbn [dtoi]; [|rewrite R]; destruct k; try contradiction; reflexivity.
  - cbn [forallb] in D. apply andb_true_iff in D. destruct D as [D1 D2]. rewrite D1. unfold isDigit in D1. cbn [fold_left] in L.
    assert (M : forall l a, 0 <= a -> forallb isDigit l = true -> a <= fold_left digitVal l a).
    { clear. induction l as [|x l IH]; intros a A F; cbn [fold_left]; [lia|]. cbn [forallb] in F. apply andb_true_iff in F. destruct F as [F1 F2]. unfold isDigit in F1.
      specialize (IH (digitVal a x)). unfold digitVal in *. specialize (IH ltac:(lia) F2). lia. }
    pose proof (M ds (digitVal acc c) ltac:(unfold digitVal; lia) D2) as B. unfold digitVal in B at 1. replace (16777215 <=? acc * 10 + (c - 48)) with false by lia.
    fold (digitVal acc c). rewrite (IH (digitVal acc c) (S k) r D2); [f_equal; f_equal; [f_equal; lia]|left; discriminate|unfold digitVal; lia|exact L|exact R].
Qed.
Lemma digits_lead n : 0 <= n -> (1 < List.length (digits n))%nat -> hd 0 (digits n) <> 48.
Proof.
  revert n. apply (digits_ind (fun n => (1 < List.length (digits n))%nat -> hd 0 (digits n) <> 48)).
  - intros n R L. rewrite digits_eq in L by lia. replace (n <? 10) with true in L by lia. cbn [List.length] in L. lia.
  - intros n G IH L. rewrite digits_eq by lia. replace (n <? 10) with false by lia. destruct (digits_first (n / 10) ltac:(lia)) as (c & r & E & D).
    destruct (Nat.lt_ge_cases 1 (List.length (digits (n / 10)))) as [X|X].
    + specialize (IH X). rewrite E in *. cbn [app hd] in *. exact IH.
    + assert (n / 10 < 10).
      { rewrite digits_eq in X by (apply Z.div_pos; lia). destruct (n / 10 <? 10) eqn:Q; [lia|]. exfalso. rewrite app_length in X.
        destruct (digits_first (n / 10 / 10) ltac:(apply Z.div_pos; [apply Z.div_pos; lia|lia])) as (c' & r' & E' & _). rewrite E' in X. cbn [List.length] in X. lia. }
      rewrite digits_eq by (apply Z.div_pos; lia). replace (n / 10 <? 10) with true by lia. cbn [app hd].
      assert (1 <= n / 10) by (apply Z.div_le_lower_bound; lia). lia.
Qed.
Lemma octet_digits n r : 0 <= n <= 255 -> match r with c :: _ => isDigit c = false | [] => True end -> octet (digits n ++ r) = Some (n, r).
Proof.
  intros N R. unfold octet. pose proof (digits_value n ltac:(lia)) as V. unfold digitsValue in V.
  rewrite (dtoi_digits (digits n) 0 0 r); [|apply digits_all; lia|right; apply digits_nonempty; lia|lia|rewrite V; lia|exact R]. rewrite V. replace (255 <? n) with false by lia.
  cbn [Nat.add]. destruct (Nat.ltb 1 (List.length (digits n))) eqn:L; [|reflexivity]. apply Nat.ltb_lt in L. pose proof (digits_lead n ltac:(lia) L) as H.
  destruct (digits n) as [|c d]; [cbn in L; lia|]. cbn [hd app] in *. destruct c as [|p|p]; [reflexivity| |reflexivity].
  assert (Z.pos p <> 48) by exact H. repeat (destruct p as [p|p|]; try reflexivity); exfalso; apply H; reflexivity.
Qed.
Lemma parse4_text a b c d : 0 <= a <= 255 -> 0 <= b <= 255 -> 0 <= c <= 255 -> 0 <= d <= 255 ->
  parseIPv4 (digits a ++ DOT :: digits b ++ DOT :: digits c ++ DOT :: digits d) = Some (v4InV6Prefix ++ [a; b; c; d]).
Proof.
  intros A B C D. unfold parseIPv4. rewrite octet_digits by (assumption || reflexivity). cbn [dotOctet DOT]. rewrite octet_digits by (assumption || reflexivity). cbn [dotOctet DOT].
  rewrite octet_digits by (assumption || reflexivity). cbn [dotOctet DOT]. rewrite <- (app_nil_r (digits d)). rewrite octet_digits by (assumption || exact Logic.I). reflexivity.
Qed.
Lemma find_dot : forall ds r, forallb isDigit ds = true -> find (fun c => (c =? DOT) || (c =? 58)) (ds ++ DOT :: r) = Some DOT.
Proof.
  induction ds as [|c ds IH]; intros r F; cbn [app find]; [reflexivity|]. cbn [forallb] in F. apply andb_true_iff in F. destruct F as [F1 F2]. unfold isDigit in F1. unfold DOT at 1.
  replace ((c =? 46) || (c =? 58)) with false by lia. apply IH. exact F2.
Qed.
Lemma byte_mod x : 0 <= x mod 256 <= 255. Proof. pose proof (Z.mod_pos_bound x 256). lia. Qed.

(** The text of an address is read back as that address, in the form with 16 bytes (what TcpModel.v uses). *)
Theorem C10_parse_text v6 i : 0 <= i < 2 ^ 32 -> parseIP v6 (ipLong2String i) = parseDotted i.
Proof.
  intros R. unfold parseIP, ipLong2String. rewrite find_dot by (apply digits_all; apply byte_mod). replace (DOT =? DOT) with true by reflexivity.
  rewrite parse4_text by apply byte_mod. reflexivity.
Qed.
Print Assumptions C10_parse_text.

Lemma digits_of_value s : forallb isDigit s = true -> s <> [] -> (List.length s = 1%nat \/ hd 0 s <> 48) -> digits (digitsValue s) = s.
Proof.
  induction s as [|c s IH] using rev_ind; intros F N H; [contradiction|]. rewrite forallb_app in F. apply andb_true_iff in F. destruct F as [F1 F2]. cbn [forallb] in F2.
  assert (Dc : 48 <= c <= 57) by (unfold isDigit in F2; lia). rewrite digitsValue_snoc. destruct s as [|x s].
  - cbn [app]. unfold digitsValue. cbn [fold_left]. rewrite digits_eq by lia. replace (0 * 10 + (c - 48) <? 10) with true by lia. f_equal. lia.
  - assert (Hx : x <> 48) by (destruct H as [H|H]; [rewrite app_length in H; cbn [List.length] in H; lia|exact H]).
    assert (IH' : digits (digitsValue (x :: s)) = x :: s) by (apply IH; [exact F1|discriminate|right; exact Hx]).
    assert (P : 1 <= digitsValue (x :: s)).
    { clear - F1 Hx. cbn [forallb] in F1. apply andb_true_iff in F1. destruct F1 as [A B]. unfold isDigit in A. unfold digitsValue. cbn [fold_left]. unfold digitVal at 2.
      assert (M : forall l a, 1 <= a -> forallb isDigit l = true -> 1 <= fold_left digitVal l a).
      { clear. induction l as [|y l IH]; intros a A F; cbn [fold_left]; [exact A|]. cbn [forallb] in F. apply andb_true_iff in F. destruct F as [F1 F2]. unfold isDigit in F1.
        apply IH; [unfold digitVal; lia|exact F2]. }
      apply M; [lia|exact B]. }
    set (v := digitsValue (x :: s)) in *. rewrite digits_eq by lia. replace (v * 10 + (c - 48) <? 10) with false by lia.
    replace ((v * 10 + (c - 48)) / 10) with v by (apply Z.div_unique with (c - 48); lia). replace ((v * 10 + (c - 48)) mod 10) with (c - 48) by (apply Z.mod_unique with v; lia).
    rewrite IH'. f_equal. f_equal. lia.
Qed.
Lemma dtoi_back : forall s acc k n j r, dtoi acc k s = Some (n, j, r) -> exists ds, s = ds ++ r /\ forallb isDigit ds = true /\ n = fold_left digitVal ds acc /\ j = (k + List.length ds)%nat /\
  (k <> O \/ ds <> []).
Proof.
  induction s as [|c s IH]; intros acc k n j r E; cbn [dtoi] in E.
  - destruct k; [discriminate E|]. inversion E; subst. exists []. split; [reflexivity|]. split; [reflexivity|]. split; [reflexivity|]. split; [cbn [List.length]; lia|left; discriminate].
  - destruct (isDigit c) eqn:D.
    + destruct (16777215 <=? acc * 10 + (c - 48)); [discriminate E|]. destruct (IH _ _ _ _ _ E) as (ds & A & B & C & F & G). exists (c :: ds). cbn [app forallb fold_left List.length]. rewrite D, B.
      split; [congruence|]. split; [reflexivity|]. split; [exact C|]. split; [lia|right; discriminate].
    + destruct k; [discriminate E|]. inversion E; subst. exists []. split; [reflexivity|]. split; [reflexivity|]. split; [reflexivity|]. split; [cbn [List.length]; lia|left; discriminate].
Qed.
Lemma octet_back s n r : octet s = Some (n, r) -> 0 <= n <= 255 /\ s = digits n ++ r.
Proof.
  unfold octet. destruct (dtoi 0 0 s) as [[[m k] r']|] eqn:E; [|discriminate]. destruct (255 <? m) eqn:B; [discriminate|].
  destruct (Nat.ltb 1 k && match s with 48 :: _ => true | _ => false end) eqn:L; [discriminate|]. intros H. inversion H; subst. clear H.
  destruct (dtoi_back _ _ _ _ _ _ E) as (ds & -> & D & -> & -> & [K|K]); [contradiction|]. fold (digitsValue ds) in *.
  assert (0 <= digitsValue ds).
  { clear - D. unfold digitsValue. assert (M : forall l a, 0 <= a -> forallb isDigit l = true -> 0 <= fold_left digitVal l a).
    { clear. induction l as [|y l IH]; intros a A F; cbn [fold_left]; [exact A|]. cbn [forallb] in F. apply andb_true_iff in F. destruct F as [F1 F2]. unfold isDigit in F1.
      apply IH; [unfold digitVal; lia|exact F2]. }
    apply M; [lia|exact D]. }
  split; [lia|]. rewrite digits_of_value; [reflexivity|exact D|exact K|]. cbn [Nat.add] in L. apply andb_false_iff in L. destruct L as [L|L].
  - left. apply Nat.ltb_ge in L. destruct ds as [|x [|y ds]]; [contradiction|reflexivity|cbn [List.length] in L; lia].
  - right. destruct ds as [|x ds]; [contradiction|]. cbn [app hd] in *. intros ->. discriminate L.
Qed.
Lemma dotOctet_back s n r : dotOctet s = Some (n, r) -> 0 <= n <= 255 /\ s = DOT :: digits n ++ r.
Proof.
  unfold dotOctet. destruct s as [|c s]; [discriminate|]. intros H.
  assert (Q : c = 46 /\ octet s = Some (n, r)).
  { destruct c as [|p|p]; try discriminate H. repeat (destruct p as [p|p|]; try discriminate H). split; [reflexivity|exact H]. }
  destruct Q as [-> Q]. destruct (octet_back _ _ _ Q) as [B ->]. split; [exact B|reflexivity].
Qed.

(** And no other text with a dot before any colon is read as an address: each IPv4 address has exactly one text. *)
Theorem C10_parse_only s ip : parseIPv4 s = Some ip -> exists i, 0 <= i < 2 ^ 32 /\ s = ipLong2String i /\ ip = parseDotted i.
Proof.
  unfold parseIPv4. destruct (octet s) as [[a s1]|] eqn:E1; [|discriminate]. destruct (dotOctet s1) as [[b s2]|] eqn:E2; [|discriminate].
  destruct (dotOctet s2) as [[c s3]|] eqn:E3; [|discriminate]. destruct (dotOctet s3) as [[d [|x s4]]|] eqn:E4; try discriminate. intros H. inversion H; subst. clear H.
  apply octet_back in E1. apply dotOctet_back in E2, E3, E4. destruct E1 as [A ->]. destruct E2 as [B ->]. destruct E3 as [C ->]. destruct E4 as [D ->]. rewrite app_nil_r.
  exists (a + 2 ^ 8 * b + 2 ^ 16 * c + 2 ^ 24 * d). split; [lia|].
  assert (M0 : (a + 2 ^ 8 * b + 2 ^ 16 * c + 2 ^ 24 * d) mod 256 = a) by (symmetry; apply Z.mod_unique with (b + 2 ^ 8 * c + 2 ^ 16 * d); lia).
  assert (M1 : (a + 2 ^ 8 * b + 2 ^ 16 * c + 2 ^ 24 * d) / 2 ^ 8 = b + 2 ^ 8 * c + 2 ^ 16 * d) by (symmetry; apply Z.div_unique with a; lia).
  assert (M2 : (a + 2 ^ 8 * b + 2 ^ 16 * c + 2 ^ 24 * d) / 2 ^ 16 = c + 2 ^ 8 * d) by (symmetry; apply Z.div_unique with (a + 2 ^ 8 * b); lia).
  assert (M3 : (a + 2 ^ 8 * b + 2 ^ 16 * c + 2 ^ 24 * d) / 2 ^ 24 = d) by (symmetry; apply Z.div_unique with (a + 2 ^ 8 * b + 2 ^ 16 * c); lia).
  assert (N1 : (b + 2 ^ 8 * c + 2 ^ 16 * d) mod 256 = b) by (symmetry; apply Z.mod_unique with (c + 2 ^ 8 * d); lia).
  assert (N2 : (c + 2 ^ 8 * d) mod 256 = c) by (symmetry; apply Z.mod_unique with d; lia). assert (N3 : d mod 256 = d) by (apply Z.mod_small; lia).
  unfold ipLong2String, parseDotted, int32ToIp. rewrite M0, M1, M2, M3, N1, N2, N3. split; reflexivity.
Qed.
Print Assumptions C10_parse_only.

(** Asking by text and asking by number is asking the same. *)
Theorem C10_lookup_forms v6 c s d sp dp ty : 0 <= s < 2 ^ 32 -> 0 <= d < 2 ^ 32 ->
  getDNATTuple c (connOfText v6 (ipLong2String s) (ipLong2String d) sp dp ty) = getDNATTuple c (connOfInt s d sp dp ty).
Proof.
  intros S D. unfold getDNATTuple, GetTranslationForConn, connOfText, connOfInt. rewrite !C10_parse_text by assumption.
  assert (K : forall i, AddressFromNetIP (parseDotted i) = AddressFromNetIP (int32ToIp i)) by (intros i; reflexivity).
  unfold keyOfStats. cbn [csource cdest csport cdport ctype]. rewrite !K. destruct (cGet c _) as [c' [t|]]; [|reflexivity].
  assert (Q : ipEqual (parseDotted d) (replSrcIP t) = ipEqual (int32ToIp d) (replSrcIP t)).
  { unfold ipEqual, parseDotted, int32ToIp. set (q := [d mod 256; _; _; _]). change (zlen (v4InV6Prefix ++ q)) with 16. change (zlen q) with 4.
    change (skipn 12 (v4InV6Prefix ++ q)) with q. change (starts_with v4InV6Prefix (v4InV6Prefix ++ q)) with true. cbn [andb].
    change (16 =? 4) with false. change (16 =? 16) with true. change (4 =? 4) with true. change (4 =? 16) with false. cbn [andb].
    destruct (16 =? zlen (replSrcIP t)) eqn:E1.
    - replace (4 =? zlen (replSrcIP t)) with false by lia. replace (zlen (replSrcIP t) =? 16) with true by lia.
      match goal with |- ?x = ?y => destruct x eqn:E2; destruct y eqn:E3; try reflexivity; exfalso end.
      + apply eqb_true in E2. apply andb_false_iff in E3. rewrite <- E2 in E3. destruct E3 as [E3|E3]; [discriminate E3|]. change (skipn 12 (v4InV6Prefix ++ q)) with q in E3.
        rewrite eqb_refl in E3. discriminate E3.
      + apply andb_true_iff in E3. destruct E3 as [E3 E4]. apply eqb_true in E4. apply starts_with_iff in E3. destruct E3 as (r & E3). rewrite E3 in E4.
        change (skipn 12 (v4InV6Prefix ++ r)) with r in E4. rewrite E3, E4 in E2. rewrite eqb_refl in E2. discriminate.
    - replace (zlen (replSrcIP t) =? 16) with false by lia. replace (zlen (replSrcIP t) =? 4) with (4 =? zlen (replSrcIP t)) by lia. destruct (4 =? zlen (replSrcIP t)); reflexivity. }
  rewrite Q. reflexivity.
Qed.
Print Assumptions C10_lookup_forms.

Lemma lor_bytes a b c d : 0 <= a < 256 -> 0 <= b < 256 -> 0 <= c < 256 -> 0 <= d < 256 ->
  Z.lor (Z.lor (Z.lor a (w32 (Z.shiftl b 8))) (w32 (Z.shiftl c 16))) (w32 (Z.shiftl d 24)) = IPToUInt32 [a; b; c; d].
Proof.
  intros A B C D. unfold IPToUInt32, to4. change (zlen [a; b; c; d] =? 4) with true. cbn iota. unfold w32.
  rewrite !Z.shiftl_mul_pow2 by lia. rewrite !Z.mod_small by lia. reflexivity.
Qed.
(** The other reading of a text gives the number back. *)
Theorem C10_text_number i : 0 <= i < 2 ^ 32 -> stringToUint32 (ipLong2String i) = i.
Proof.
  intros R. unfold stringToUint32, ipLong2String.
  assert (ND : forall x, forallb (fun c => negb (DOT =? c)) (digits (x mod 256)) = true).
  { intros x. apply forallb_forall. intros c I. pose proof (digits_all (x mod 256) ltac:(apply byte_mod)) as D. rewrite forallb_forall in D. specialize (D _ I). unfold isDigit in D. unfold DOT. lia. }
  rewrite !split_at by (apply ND || reflexivity). rewrite split_none by apply ND. cbv zeta.
  assert (PU : forall x, fst (parseUint 32 (digits (x mod 256))) = x mod 256) by (intros x; rewrite parseUint_digits; [reflexivity|pose proof (byte_mod x); lia]).
  rewrite !PU, lor_bytes by (pose proof byte_mod; apply Z.mod_pos_bound; lia). exact (int32ToIp_back i R).
Qed.
Print Assumptions C10_text_number.

(** It also gives numbers to texts that are no addresses, such as one with a part above 255. *)
Theorem C10_text_number_refuted : ~ forall s, parseIPv4 s = None -> stringToUint32 s = 0.
Proof. intros H. specialize (H (bs "300.0.0.1") eq_refl). vm_compute in H. discriminate. Qed.
Print Assumptions C10_text_number_refuted.

Lemma leNum_bytes : forall n v, 0 <= v < 256 ^ Z.of_nat n -> leNum (leBytes n v) = v.
Proof.
  induction n as [|n IH]; intros v R; cbn [leBytes leNum fold_right]; [cbn in R; lia|]. fold (leNum (leBytes n (v / 256))). rewrite IH.
  - pose proof (Z.div_mod v 256). lia.
  - rewrite Nat2Z.inj_succ, Z.pow_succ_r in R by lia. split; [apply Z.div_pos; lia|apply Z.div_lt_upper_bound; lia].
Qed.
Lemma leBytes_length n v : List.length (leBytes n v) = n.
Proof. revert v. induction n as [|n IH]; intros v; cbn [leBytes List.length]; [reflexivity|]. rewrite IH. reflexivity. Qed.
Lemma leBytes_num : forall b, Forall is_byte b -> leBytes (List.length b) (leNum b) = b.
Proof.
  induction b as [|x b IH]; intros F; [reflexivity|]. inversion F as [|? ? X F']; subst. unfold is_byte in X. cbn [List.length leBytes leNum fold_right]. fold (leNum b).
  replace ((x + 256 * leNum b) mod 256) with x by (apply Z.mod_unique with (leNum b); lia). replace ((x + 256 * leNum b) / 256) with (leNum b) by (apply Z.div_unique with x; lia).
  rewrite IH by exact F'. reflexivity.
Qed.

(** The two words of an address give it back: of a number, of two words, and of the address made from any slice. *)
Theorem C10_words : (forall i, 0 <= i < 2 ^ 32 -> toLowHigh (v4Address i) = (i, 0) /\ v4Address i = AddressFromNetIP (int32ToIp i)) /\
  (forall l h, 0 <= l < 2 ^ 64 -> 0 <= h < 2 ^ 64 -> toLowHigh (v6Address l h) = (l, h)) /\
  (forall ip l h, List.length ip = 16%nat -> to4 ip = None -> Forall is_byte ip -> toLowHigh (AddressFromNetIP ip) = (l, h) -> netIPFromAddress (v6Address l h) = ip).
Proof.
  split; [|split].
  - intros i R. split; [|reflexivity]. unfold toLowHigh, v4Address, addrBytes. change (zlen [_; _; _; _]) with 4. change (4 =? 4) with true. cbn iota. f_equal.
    cbn [firstn leNum fold_right]. pose proof (int32ToIp_back i R) as B. unfold int32ToIp in B. rewrite <- B at 5. rewrite <- lor_bytes by (apply Z.mod_pos_bound; lia).
    rewrite lor_bytes by (apply Z.mod_pos_bound; lia). unfold int32ToIp in B. rewrite B.
    pose proof (Z.div_mod i 256 ltac:(lia)). change (2 ^ 8) with 256. change (2 ^ 16) with (256 * 256). change (2 ^ 24) with (256 * (256 * 256)).
    rewrite <- !Z.div_div by lia. pose proof (Z.div_mod (i / 256) 256 ltac:(lia)). pose proof (Z.div_mod (i / 256 / 256) 256 ltac:(lia)).
    replace (i / 256 / (256 * 256)) with (i / 256 / 256 / 256) by (rewrite !Z.div_div by lia; reflexivity).
    assert (i / 256 / 256 / 256 < 256) by (rewrite !Z.div_div by lia; apply Z.div_lt_upper_bound; lia). assert (0 <= i / 256 / 256 / 256) by (rewrite !Z.div_div by lia; apply Z.div_pos; lia).
    rewrite (Z.mod_small (i / 256 / 256 / 256) 256) by lia. lia.
  - intros l h L H. unfold toLowHigh, v6Address, addrBytes. assert (Z16 : zlen (leBytes 8 h ++ leBytes 8 l) = 16) by (unfold zlen; rewrite app_length, !leBytes_length; reflexivity).
    rewrite Z16. change (16 =? 4) with false. change (16 =? 16) with true. cbn iota.
    rewrite (skipn_app 8), (firstn_app 8), leBytes_length. change (8 - 8)%nat with O.
    rewrite (skipn_all2 (leBytes 8 h)) by (rewrite leBytes_length; lia). rewrite (firstn_all2 (leBytes 8 h)) by (rewrite leBytes_length; lia).
    change (skipn 0 (leBytes 8 l)) with (leBytes 8 l). change (firstn 0 (leBytes 8 l)) with (@nil Z). rewrite app_nil_r. cbn [app].
    change (2 ^ 64) with (256 ^ Z.of_nat 8) in L, H. rewrite !leNum_bytes by assumption. reflexivity.
  - intros ip l h L T F E. unfold AddressFromNetIP in E. rewrite T in E. assert (FI : firstn 16 (ip ++ repeat 0 16) = ip).
    { rewrite firstn_app, L. change (16 - 16)%nat with O. rewrite firstn_all2 by lia. cbn [firstn]. apply app_nil_r. }
    rewrite FI in E. unfold toLowHigh, addrBytes in E. replace (zlen ip) with 16 in E by (unfold zlen; rewrite L; reflexivity). change (16 =? 4) with false in E. change (16 =? 16) with true in E. cbn iota in E.
    assert (El : leNum (skipn 8 ip) = l) by exact (f_equal fst E). assert (Eh : leNum (firstn 8 ip) = h) by exact (f_equal snd E). unfold netIPFromAddress, v6Address, addrBytes. rewrite <- Eh, <- El.
    pose proof (firstn_skipn 8 ip) as FS.
    assert (LF : List.length (firstn 8 ip) = 8%nat) by (rewrite firstn_length; lia). assert (LS : List.length (skipn 8 ip) = 8%nat) by (rewrite skipn_length; lia).
    assert (BF : Forall is_byte (firstn 8 ip) /\ Forall is_byte (skipn 8 ip)) by (rewrite <- FS in F; apply Forall_app; exact F). destruct BF as [BF BS].
    pose proof (leBytes_num _ BF) as X. rewrite LF in X. pose proof (leBytes_num _ BS) as Y. rewrite LS in Y. rewrite X, Y. exact FS.
Qed.
Print Assumptions C10_words.

(** The two words do not tell the families apart: an IPv4 address and an IPv6 address can have the same. *)
Theorem C10_words_refuted : ~ forall a b, toLowHigh a = toLowHigh b -> a = b.
Proof. intros H. specialize (H (v4Address 5) (v6Address 5 0) eq_refl). discriminate H. Qed.
Print Assumptions C10_words_refuted.

(** ** Examples *)
Example C10_parse_example : parseIP (fun _ => []) (bs "10.0.2.15") = [0; 0; 0; 0; 0; 0; 0; 0; 0; 0; 255; 255; 10; 0; 2; 15] /\ parseIP (fun _ => []) (bs "10.0.02.15") = [] /\
  parseIP (fun _ => []) (bs "10.0.256.15") = [] /\ parseIP (fun _ => []) (bs "10.0.2") = [] /\ parseIP (fun _ => []) (bs "10.0.2.15 ") = [].
Proof. vm_compute. auto. Qed.
Example C10_number_example : stringToUint32 (bs "10.0.2.15") = 10 + 2 ^ 16 * 2 + 2 ^ 24 * 15.
Proof. vm_compute. reflexivity. Qed.
