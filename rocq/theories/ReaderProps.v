(** C20: the readers of the protocol layer return what is encoded, or an error, and stay inside the payload. *)
From Verif Require Import Base DetectProofs MsgModel ReaderSpec ReaderProofs.
Open Scope string_scope. Open Scope list_scope. Open Scope Z_scope.

(** The fixed-width integers and byte strings, at any offset of any payload. *)
Theorem C20_integers (p s : bytes) :
  (forall v, 0 <= v < 2 ^ 16 -> readUInt16 (p ++ be16 v ++ s) (zlen p) = Ok v) /\
  (forall v, - 2 ^ 15 <= v < 2 ^ 15 -> readInt16 (p ++ be16 v ++ s) (zlen p) = Ok (v, zlen p + 2)) /\
  (forall v, - 2 ^ 31 <= v < 2 ^ 31 -> readInt32 (p ++ be32 v ++ s) (zlen p) = Ok (v, zlen p + 4)) /\
  (forall v, readBytes (p ++ v ++ s) (zlen p) (zlen v) = Ok (v, zlen p + zlen v)).
Proof.
  split; [|split; [|split]]; intros; [apply readUInt16_at|apply readInt16_at|apply readInt32_at|apply readBytes_at]; assumption.
Qed.
Print Assumptions C20_integers.
Example C20_integers_example :
  readInt32 (bs "ab" ++ be32 (-5) ++ bs "c") 2 = Ok (-5, 6) /\ be32 (-5) = [255; 255; 255; 251] /\ readInt16 [1; 2; 3] 2 = Err.
Proof. repeat split. Qed.

(** Variable-length integers: encode then read; and the value of any encoding of up to five bytes, canonical or not. *)
Theorem C20_varints (p s : bytes) :
  (forall n, 0 <= n < 2 ^ 35 -> readUnsignedVarInt (p ++ leb n ++ s) (zlen p) = Ok (n, zlen p + zlen (leb n))) /\
  (forall z, - 2 ^ 34 <= z < 2 ^ 34 -> readVarInt (p ++ leb (zigzag z) ++ s) (zlen p) = Ok (z, zlen p + zlen (leb (zigzag z)))).
Proof. split; intros; [apply readUnsignedVarInt_at|apply readVarInt_at]; assumption. Qed.
Print Assumptions C20_varints.
Example C20_varints_example : leb 300 = [172; 2] /\ readVarInt (bs "x" ++ leb (zigzag (-150)) ++ bs "y") 1 = Ok (-150, 3).
Proof. split; reflexivity. Qed.

Lemma digits128_bound l : 0 <= digits128 l < 2 ^ (7 * Z.of_nat (List.length l)).
Proof.
  induction l as [|a l IH]; [cbn; lia|]. cbn [digits128 fold_right List.length]. fold (digits128 l).
  assert (0 <= a mod 128 < 128) by (apply Z.mod_pos_bound; lia).
  replace (7 * Z.of_nat (S (List.length l))) with (7 * Z.of_nat (List.length l) + 7) by lia. rewrite pow_split by lia. lia.
Qed.
Lemma uvarLoop_digits : forall l last t p i pre x k, (List.length l < t)%nat -> Forall (fun b => 128 <= b < 256) l -> 0 <= last < 128 ->
  0 <= x < 2 ^ k -> 0 <= k -> k + 7 * Z.of_nat (List.length l + 1) <= 64 -> zlen pre = p + i -> forall s,
  uvarLoop t (pre ++ l ++ last :: s) p i x k = Ok (x + digits128 (l ++ [last]) * 2 ^ k, zlen pre + zlen l + 1).
Proof.
  induction l as [|a l IH]; intros last t p i pre x k T F L X K B P s; (destruct t as [|t]; [lia|]); cbn [uvarLoop app].
  - replace (zlen (pre ++ last :: s) <=? p + i) with false by (rewrite zlen_app, zlen_cons; pose proof (zlen_nonneg s); lia).
    replace (p + i) with (zlen pre + 0) by lia. rewrite gindex_app_r by lia. rewrite gindex_0. cbn [bind].
    replace (last <? 128) with true by lia. rewrite lor_shift by lia.
    assert (E : 2 ^ (k + 7) <= 2 ^ 64) by (apply Z.pow_le_mono_r; cbn [List.length] in B; lia). rewrite pow_split in E by lia.
    assert (last * 2 ^ k <= 127 * 2 ^ k) by (apply Z.mul_le_mono_nonneg_r; lia).
    assert (0 <= last * 2 ^ k) by (apply Z.mul_nonneg_nonneg; lia).
    unfold w64. rewrite (Z.mod_small (x + _) (2 ^ 64)) by lia. unfold digits128. cbn [fold_right]. rewrite Z.mod_small by lia.
    f_equal. f_equal. ring.
  - inversion F as [|? ? A F2]; subst. cbn [List.length] in *.
    replace (zlen (pre ++ a :: l ++ last :: s) <=? p + i) with false by (rewrite zlen_app, zlen_cons; pose proof (zlen_nonneg (l ++ last :: s)); lia).
    replace (gindex (pre ++ a :: l ++ last :: s) (p + i)) with (Ok a).
    2: { replace (p + i) with (zlen pre + 0) by lia. rewrite gindex_app_r by lia. reflexivity. }
    cbn [bind]. replace (a <? 128) with false by lia. rewrite land127, lor_shift by lia.
    assert (AM : 0 <= a mod 128 < 128) by (apply Z.mod_pos_bound; lia).
    assert (E : 2 ^ (k + 7) <= 2 ^ 64) by (apply Z.pow_le_mono_r; lia). rewrite pow_split in E by lia.
    assert (E2 : a mod 128 * 2 ^ k <= 127 * 2 ^ k) by (apply Z.mul_le_mono_nonneg_r; lia).
    assert (E3 : 0 <= a mod 128 * 2 ^ k) by (apply Z.mul_nonneg_nonneg; lia).
    unfold w64. rewrite (Z.mod_small (x + _) (2 ^ 64)) by lia.
    change (pre ++ a :: l ++ last :: s) with (pre ++ [a] ++ (l ++ last :: s)). rewrite app_assoc, IH.
    + rewrite zlen_app, zlen_one, zlen_cons. f_equal. f_equal; [|lia].
      change (digits128 (a :: l ++ [last])) with (a mod 128 + 128 * digits128 (l ++ [last])). rewrite pow_split by lia. ring.
    + lia.
    + exact F2.
    + exact L.
    + rewrite pow_split by lia. lia.
    + lia.
    + lia.
    + rewrite zlen_app, zlen_one. lia.
Qed.
Theorem C20_varint_any_encoding (p s l : bytes) (last : Z) :
  Forall (fun b => 128 <= b < 256) l -> 0 <= last < 128 ->
  readUnsignedVarInt (p ++ l ++ last :: s) (zlen p) =
    if (List.length l <=? 4)%nat then Ok (digits128 (l ++ [last]), zlen p + zlen l + 1) else Err.
Proof.
  intros F L. unfold readUnsignedVarInt, readUnsignedVarIntCore. pose proof (zlen_nonneg p). replace (zlen p <? 0) with false by lia.
  destruct (List.length l <=? 4)%nat eqn:Q.
  - apply Nat.leb_le in Q. rewrite uvarLoop_digits; try lia; [|assumption]. f_equal. f_equal. change (2 ^ 0) with 1. lia.
  - apply Nat.leb_gt in Q.
    assert (G : forall t l pre i x k s, (t <= List.length l)%nat -> Forall (fun b => 128 <= b < 256) l -> zlen pre = zlen p + i ->
                uvarLoop t (pre ++ l ++ s) (zlen p) i x k = Err).
    { clear. induction t as [|t IH]; intros l pre i x k s T F P; [reflexivity|]. cbn [uvarLoop].
      destruct l as [|a l]; [cbn in T; lia|]. inversion F as [|? ? A F2]; subst. cbn [app].
      destruct (zlen (pre ++ a :: l ++ s) <=? zlen p + i); [reflexivity|].
      replace (gindex (pre ++ a :: l ++ s) (zlen p + i)) with (Ok a).
      2: { replace (zlen p + i) with (zlen pre + 0) by lia. rewrite gindex_app_r by lia. reflexivity. }
      cbn [bind]. replace (a <? 128) with false by lia.
      change (pre ++ a :: l ++ s) with (pre ++ [a] ++ (l ++ s)). rewrite app_assoc. apply IH; [cbn in T; lia|exact F2|].
      rewrite zlen_app, zlen_one. lia. }
    change (p ++ l ++ last :: s) with (p ++ l ++ (last :: s)). apply G; [lia|assumption|lia].
Qed.
Print Assumptions C20_varint_any_encoding.
Example C20_varint_any_encoding_example : readUnsignedVarInt [129; 128; 0; 7] 0 = Ok (1, 3) /\ readUnsignedVarInt [255; 255; 255; 255; 255; 1] 0 = Err.
Proof. split; reflexivity. Qed.

(** Strings: a string encoded in the payload is read back with the offset behind it.
    The compact readers do so unless exactly one byte follows (refuted below). *)
Lemma leb_len n : 0 < zlen (leb n) <= 5.
Proof. split; [apply lebF_pos; lia|]. pose proof (lebF_len 5 n). unfold leb. lia. Qed.

Lemma layout (p h v s : bytes) : forall d, d = p ++ (h ++ v) ++ s ->
  d = p ++ h ++ (v ++ s) /\ zlen d = zlen p + zlen h + zlen v + zlen s /\
  gslice d (zlen p + zlen h) (zlen p + zlen h + zlen v) = Ok v /\ gslice d (zlen p + zlen h) (zlen d) = Ok (v ++ s).
Proof.
  intros d ->. replace (p ++ (h ++ v) ++ s) with ((p ++ h) ++ v ++ s) by (rewrite <- !app_assoc; reflexivity).
  split; [rewrite <- !app_assoc; reflexivity|split; [rewrite !zlen_app; lia|split]].
  - apply gslice_mid; rewrite zlen_app; reflexivity.
  - apply gslice_suf; [rewrite zlen_app; reflexivity|reflexivity].
Qed.
Lemma be16_len z : zlen (be16 z) = 2.
Proof. reflexivity. Qed.
(** the common tail of the string readers *)
Lemma tail_plain (B : Type) (f : bytes -> B) p h v s d : d = p ++ (h ++ v) ++ s ->
  (if zlen d <=? zlen p + zlen h + zlen v then bind (gslice d (zlen p + zlen h) (zlen d)) (fun w => Ok (f w, zlen d))
   else bind (gslice d (zlen p + zlen h) (zlen p + zlen h + zlen v)) (fun w => Ok (f w, zlen p + zlen h + zlen v)))
  = Ok (f v, zlen p + zlen h + zlen v).
Proof.
  intros D. destruct (layout p h v s d D) as (_ & L & G1 & G2). rewrite G1, G2. cbn [bind].
  destruct (zlen d <=? zlen p + zlen h + zlen v) eqn:Q; [|reflexivity].
  pose proof (zlen_nonneg s). assert (Z0 : zlen s = 0) by lia. destruct s; [|unfold zlen in Z0; cbn in Z0; lia].
  rewrite app_nil_r. f_equal. f_equal. lia.
Qed.
Lemma tail_compact (B : Type) (f : bytes -> B) p h v s d : d = p ++ (h ++ v) ++ s -> zlen s <> 1 ->
  (if zlen d <=? zlen p + zlen h + (zlen v + 1) then bind (gslice d (zlen p + zlen h) (zlen d)) (fun w => Ok (f w, zlen d))
   else bind (gslice d (zlen p + zlen h) (zlen p + zlen h + zlen v)) (fun w => Ok (f w, zlen p + zlen h + zlen v)))
  = Ok (f v, zlen p + zlen h + zlen v).
Proof.
  intros D N. destruct (layout p h v s d D) as (_ & L & G1 & G2). rewrite G1, G2. cbn [bind].
  destruct (zlen d <=? zlen p + zlen h + (zlen v + 1)) eqn:Q; [|reflexivity].
  pose proof (zlen_nonneg s). assert (Z0 : zlen s = 0) by lia. destruct s; [|unfold zlen in Z0; cbn in Z0; lia].
  rewrite app_nil_r. f_equal. f_equal. lia.
Qed.

Theorem C20_strings (p s : bytes) :
  (forall v, zlen v < 2 ^ 15 -> readString (p ++ encStr v ++ s) (zlen p) false = Ok (v, zlen p + zlen (encStr v))) /\
  (forall o, (forall v, o = Some v -> zlen v < 2 ^ 15) ->
     readNullableString (p ++ encNullStr o ++ s) (zlen p) false = Ok (o, zlen p + zlen (encNullStr o))) /\
  (zlen s <> 1 ->
   (forall v, zlen v < 2 ^ 35 - 1 -> readString (p ++ encCompactStr v ++ s) (zlen p) true = Ok (v, zlen p + zlen (encCompactStr v))) /\
   (forall o, (forall v, o = Some v -> zlen v < 2 ^ 35 - 1) ->
     readNullableString (p ++ encNullCompactStr o ++ s) (zlen p) true = Ok (o, zlen p + zlen (encNullCompactStr o)))).
Proof.
  pose proof (zlen_nonneg p) as HP. pose proof (zlen_nonneg s) as HS.
  split; [|split; [|intros S1; split]].
  - intros v V. pose proof (zlen_nonneg v) as HV. unfold readString, readStr, encStr. rewrite (zlen_app (be16 _)), be16_len, Z.add_assoc.
    remember (p ++ (be16 (zlen v) ++ v) ++ s) as d eqn:D. destruct (layout p (be16 (zlen v)) v s d D) as (D1 & _).
    replace (readInt16 d (zlen p)) with (Ok (zlen v, zlen p + 2)) by (rewrite D1; symmetry; apply readInt16_at; lia). cbn [bind].
    replace (zlen v <? 0) with false by lia. exact (tail_plain _ (fun w => w) p _ v s d D).
  - intros [v|] V.
    + specialize (V v eq_refl). pose proof (zlen_nonneg v) as HV. unfold readNullableString, readNullableStr, encNullStr. rewrite (zlen_app (be16 _)), be16_len, Z.add_assoc.
      remember (p ++ (be16 (zlen v) ++ v) ++ s) as d eqn:D. destruct (layout p (be16 (zlen v)) v s d D) as (D1 & _).
      replace (readInt16 d (zlen p)) with (Ok (zlen v, zlen p + 2)) by (rewrite D1; symmetry; apply readInt16_at; lia). cbn [bind].
      replace (zlen v <? -1) with false by lia. replace (zlen v =? -1) with false by lia. exact (tail_plain _ (fun w => Some w) p _ v s d D).
    + unfold readNullableString, readNullableStr, encNullStr. rewrite readInt16_at by lia. reflexivity.
  - intros v V. pose proof (zlen_nonneg v) as HV. unfold readString, readCompactStr, encCompactStr. rewrite (zlen_app (leb _)), Z.add_assoc.
    remember (p ++ (leb (zlen v + 1) ++ v) ++ s) as d eqn:D. destruct (layout p (leb (zlen v + 1)) v s d D) as (D1 & _).
    replace (readUnsignedVarInt d (zlen p)) with (Ok (zlen v + 1, zlen p + zlen (leb (zlen v + 1)))) by (rewrite D1; symmetry; apply readUnsignedVarInt_at; lia). cbn [bind].
    rewrite s64_small by lia. replace (zlen v + 1 - 1) with (zlen v) by lia. replace (zlen v <? 0) with false by lia.
    exact (tail_compact _ (fun w => w) p _ v s d D S1).
  - intros [v|] V.
    + specialize (V v eq_refl). pose proof (zlen_nonneg v) as HV. unfold readNullableString, readCompactNullableStr, encNullCompactStr. rewrite (zlen_app (leb _)), Z.add_assoc.
      remember (p ++ (leb (zlen v + 1) ++ v) ++ s) as d eqn:D. destruct (layout p (leb (zlen v + 1)) v s d D) as (D1 & _).
      replace (readUnsignedVarInt d (zlen p)) with (Ok (zlen v + 1, zlen p + zlen (leb (zlen v + 1)))) by (rewrite D1; symmetry; apply readUnsignedVarInt_at; lia). cbn [bind].
      rewrite s64_small by lia. replace (zlen v + 1 - 1) with (zlen v) by lia. replace (zlen v <? -1) with false by lia. replace (zlen v =? -1) with false by lia.
      exact (tail_compact _ (fun w => Some w) p _ v s d D S1).
    + unfold readNullableString, readCompactNullableStr, encNullCompactStr. change [0] with (leb 0). rewrite readUnsignedVarInt_at by lia. reflexivity.
Qed.
Print Assumptions C20_strings.
Example C20_strings_example :
  readString (bs "k" ++ encStr (bs "topic") ++ bs "zz") 1 false = Ok (bs "topic", 8) /\
  readString (bs "k" ++ encCompactStr (bs "topic") ++ bs "zz") 1 true = Ok (bs "topic", 7) /\
  readNullableString (bs "k" ++ encNullStr None ++ bs "zz") 1 false = Ok (None, 3).
Proof. repeat split. Qed.

(** A compact string followed by exactly one more byte is read together with that byte. *)
Theorem C20_compact_string_takes_next_byte_refuted (p v : bytes) (b : Z) : zlen v < 2 ^ 35 - 1 ->
  readString (p ++ encCompactStr v ++ [b]) (zlen p) true = Ok (v ++ [b], zlen p + zlen (encCompactStr v) + 1) /\
  readNullableString (p ++ encNullCompactStr (Some v) ++ [b]) (zlen p) true = Ok (Some (v ++ [b]), zlen p + zlen (encCompactStr v) + 1).
Proof.
  intros V. pose proof (zlen_nonneg v) as HV. pose proof (zlen_nonneg p) as HP.
  unfold readString, readCompactStr, readNullableString, readCompactNullableStr, encCompactStr, encNullCompactStr. rewrite (zlen_app (leb _)).
  remember (p ++ (leb (zlen v + 1) ++ v) ++ [b]) as d eqn:D. destruct (layout p (leb (zlen v + 1)) v [b] d D) as (D1 & L & G1 & G2). rewrite zlen_one in L.
  replace (readUnsignedVarInt d (zlen p)) with (Ok (zlen v + 1, zlen p + zlen (leb (zlen v + 1)))) by (rewrite D1; symmetry; apply readUnsignedVarInt_at; lia). cbn [bind].
  rewrite s64_small by lia. replace (zlen v + 1 - 1) with (zlen v) by lia. rewrite G2. cbn [bind].
  replace (zlen d <=? zlen p + zlen (leb (zlen v + 1)) + (zlen v + 1)) with true by lia.
  split.
  - replace (zlen v <? 0) with false by lia. f_equal. f_equal. lia.
  - replace (zlen v <? -1) with false by lia. replace (zlen v =? -1) with false by lia. f_equal. f_equal. lia.
Qed.
Print Assumptions C20_compact_string_takes_next_byte_refuted.

(** A string whose declared length runs past the captured payload yields the captured rest of it. *)
Theorem C20_cut_strings (p v : bytes) (n : Z) : zlen v <= n ->
  (n < 2 ^ 15 -> readString (p ++ be16 n ++ v) (zlen p) false = Ok (v, zlen (p ++ be16 n ++ v))) /\
  (n < 2 ^ 35 - 1 -> readString (p ++ leb (n + 1) ++ v) (zlen p) true = Ok (v, zlen (p ++ leb (n + 1) ++ v))).
Proof.
  intros N. pose proof (zlen_nonneg v) as HV. split; intros B.
  - unfold readString, readStr. rewrite readInt16_at by lia. cbn [bind]. replace (n <? 0) with false by lia.
    replace (zlen (p ++ be16 n ++ v) <=? zlen p + 2 + n) with true by (rewrite !zlen_app; change (zlen (be16 n)) with 2; lia).
    rewrite app_assoc. rewrite gslice_suf; [reflexivity|rewrite zlen_app; reflexivity|reflexivity].
  - unfold readString, readCompactStr. rewrite readUnsignedVarInt_at by lia. cbn [bind]. rewrite s64_small by lia.
    replace (n + 1 - 1 <? 0) with false by lia.
    replace (zlen (p ++ leb (n + 1) ++ v) <=? zlen p + zlen (leb (n + 1)) + (n + 1)) with true by (rewrite !zlen_app; lia).
    rewrite app_assoc. rewrite gslice_suf; [reflexivity|rewrite zlen_app; reflexivity|reflexivity].
Qed.
Print Assumptions C20_cut_strings.

(** Array sizes: -1 (or 0 in the compact form) is the null array, read as size 0; other negative sizes are errors. *)
Theorem C20_array_sizes (p s : bytes) :
  (forall n, - 2 ^ 31 <= n < 2 ^ 31 -> readArraySize (p ++ be32 n ++ s) (zlen p) false =
     if n <? -1 then Err else Ok (Z.max n 0, zlen p + 4)) /\
  (forall n, 0 <= n < 2 ^ 31 -> readArraySize (p ++ leb n ++ s) (zlen p) true = Ok (Z.max (n - 1) 0, zlen p + zlen (leb n))).
Proof.
  split; intros n N.
  - unfold readArraySize, readPlainArraySize. rewrite readInt32_at by lia. cbn [bind]. destruct (n <? -1) eqn:Q; [reflexivity|].
    destruct (n =? -1) eqn:Q2; [apply Z.eqb_eq in Q2; subst; reflexivity|]. rewrite Z.max_l by lia. reflexivity.
  - unfold readArraySize, readCompactArraySize. rewrite readUnsignedVarInt_at by lia. cbn [bind]. rewrite s32_small by lia.
    replace (n <? 0) with false by lia. destruct (n =? 0) eqn:Q; [apply Z.eqb_eq in Q; subst; reflexivity|]. rewrite Z.max_l by lia. reflexivity.
Qed.
Print Assumptions C20_array_sizes.

(** No reader panics on any payload at any offset, and a successful one moves forward and stays inside. *)
Definition safe {A} (d : bytes) (off : Z) (r : res (A * Z)) : Prop := r <> Panic /\ forall v o, r = Ok (v, o) -> advanced d off o.

Theorem C20_in_bounds (d : bytes) (off : Z) :
  readUInt16 d off <> Panic /\ safe d off (readInt16 d off) /\ safe d off (readInt32 d off) /\
  safe d off (readUnsignedVarInt d off) /\ safe d off (readVarInt d off) /\
  (forall compact, safe d off (readArraySize d off compact) /\ safe d off (readString d off compact) /\ safe d off (readNullableString d off compact)) /\
  (forall n, readBytes d off n <> Panic /\ forall v o, readBytes d off n = Ok (v, o) -> part d off o v /\ o = off + n).
Proof.
  assert (I16 : safe d off (readInt16 d off)).
  { unfold readInt16. destruct (off <? 0) eqn:Q; [split; [discriminate|intros; discriminate]|].
    destruct (zlen d <? off + 2) eqn:Q2; [split; [discriminate|intros; discriminate]|]. split_bind.
    split; [discriminate|]. intros v o E. inversion E. unfold advanced. lia. }
  assert (I32 : safe d off (readInt32 d off)).
  { unfold readInt32. destruct (off <? 0) eqn:Q; [split; [discriminate|intros; discriminate]|].
    destruct (zlen d <? off + 4) eqn:Q2; [split; [discriminate|intros; discriminate]|]. split_bind.
    split; [discriminate|]. intros v o E. inversion E. unfold advanced. lia. }
  assert (UV : safe d off (readUnsignedVarInt d off)).
  { destruct (readUnsignedVarInt_within d off) as [A B]. split; [exact A|]. intros v o E. apply (B v o E). }
  assert (ST : forall (B : Type) (f : bytes -> B) to n, advanced d off to -> 0 <= n -> forall m, safe d off
     (if zlen d <=? to + m then bind (gslice d to (zlen d)) (fun v => Ok (f v, zlen d)) else if zlen d <? to + n then Err else bind (gslice d to (to + n)) (fun v => Ok (f v, to + n)))).
  { intros B f to n (A1 & A2 & A3) N m. destruct (zlen d <=? to + m).
    - rewrite gslice_ok by lia. cbn [bind]. split; [discriminate|]. intros v o E. inversion E. unfold advanced. lia.
    - destruct (zlen d <? to + n) eqn:Q; [split; [discriminate|intros; discriminate]|].
      rewrite gslice_ok by lia. cbn [bind]. split; [discriminate|]. intros v o E. inversion E. unfold advanced. lia. }
  split; [|split; [exact I16|split; [exact I32|split; [exact UV|split; [|split]]]]].
  - unfold readUInt16. destruct (off <? 0) eqn:Q; [discriminate|]. destruct (zlen d <? off + 2) eqn:Q2; [discriminate|]. split_bind. discriminate.
  - unfold readVarInt. fold (readUnsignedVarInt d off). destruct UV as [A B]. destruct (readUnsignedVarInt d off) as [[v o]| |]; cbn [bind].
    + split; [discriminate|]. intros v' o' E. inversion E; subst. apply (B v o'). reflexivity.
    + split; [discriminate|intros; discriminate].
    + congruence.
  - intros compact. split; [|split].
    + destruct compact; cbn [readArraySize].
      * unfold readCompactArraySize. destruct UV as [A B]. destruct (readUnsignedVarInt d off) as [[v o]| |]; cbn [bind]; [|split; [discriminate|intros; discriminate]|congruence].
        specialize (B v o eq_refl). destruct (s32 v <? 0); [split; [discriminate|intros; discriminate]|].
        destruct (s32 v =? 0); (split; [discriminate|]; intros v' o' E; inversion E; subst; exact B).
      * unfold readPlainArraySize. destruct I32 as [A B]. destruct (readInt32 d off) as [[v o]| |]; cbn [bind]; [|split; [discriminate|intros; discriminate]|congruence].
        specialize (B v o eq_refl). destruct (v <? -1); [split; [discriminate|intros; discriminate]|].
        destruct (v =? -1); (split; [discriminate|]; intros v' o' E; inversion E; subst; exact B).
    + destruct compact; cbn [readString].
      * unfold readCompactStr. destruct UV as [A B]. destruct (readUnsignedVarInt d off) as [[v o]| |]; cbn [bind]; [|split; [discriminate|intros; discriminate]|congruence].
        specialize (B v o eq_refl). destruct (s64 v - 1 <? 0) eqn:Q; [split; [discriminate|intros; discriminate]|].
        pose proof (ST bytes (fun x => x) o (s64 v - 1) B ltac:(lia) (s64 v)) as H.
        destruct (zlen d <=? o + s64 v) eqn:Q2; [exact H|]. replace (zlen d <? o + (s64 v - 1)) with false in H by lia. exact H.
      * unfold readStr. destruct I16 as [A B]. destruct (readInt16 d off) as [[v o]| |]; cbn [bind]; [|split; [discriminate|intros; discriminate]|congruence].
        specialize (B v o eq_refl). destruct (v <? 0) eqn:Q; [split; [discriminate|intros; discriminate]|].
        pose proof (ST bytes (fun x => x) o v B ltac:(lia) v) as H.
        destruct (zlen d <=? o + v) eqn:Q2; [exact H|]. replace (zlen d <? o + v) with false in H by lia. exact H.
    + destruct compact; cbn [readNullableString].
      * unfold readCompactNullableStr. destruct UV as [A B]. destruct (readUnsignedVarInt d off) as [[v o]| |]; cbn [bind]; [|split; [discriminate|intros; discriminate]|congruence].
        specialize (B v o eq_refl). destruct (s64 v - 1 <? -1) eqn:Q; [split; [discriminate|intros; discriminate]|].
        destruct (s64 v - 1 =? -1) eqn:Q1; [split; [discriminate|]; intros v' o' E; inversion E; subst; exact B|].
        pose proof (ST (option bytes) (fun x => Some x) o (s64 v - 1) B ltac:(lia) (s64 v)) as H.
        destruct (zlen d <=? o + s64 v) eqn:Q2; [exact H|]. replace (zlen d <? o + (s64 v - 1)) with false in H by lia. exact H.
      * unfold readNullableStr. destruct I16 as [A B]. destruct (readInt16 d off) as [[v o]| |]; cbn [bind]; [|split; [discriminate|intros; discriminate]|congruence].
        specialize (B v o eq_refl). destruct (v <? -1) eqn:Q; [split; [discriminate|intros; discriminate]|].
        destruct (v =? -1) eqn:Q1; [split; [discriminate|]; intros v' o' E; inversion E; subst; exact B|].
        pose proof (ST (option bytes) (fun x => Some x) o v B ltac:(lia) v) as H.
        destruct (zlen d <=? o + v) eqn:Q2; [exact H|]. replace (zlen d <? o + v) with false in H by lia. exact H.
  - intros n. unfold readBytes. destruct ((off <? 0) || (n <? 0)) eqn:Q; [split; [discriminate|intros; discriminate]|].
    destruct (zlen d <? off + n) eqn:Q2; [split; [discriminate|intros; discriminate]|].
    rewrite gslice_ok by lia. cbn [bind]. split; [discriminate|]. intros v o E. inversion E; subst. split; [|reflexivity].
    unfold part. split; [lia|split; [lia|split; [lia|reflexivity]]].
Qed.
Print Assumptions C20_in_bounds.

(** Reading up to the next blank, within the whole payload or within a window. *)
Theorem C20_until_blank (p w s : bytes) : ~ In 32 w ->
  readUntilBlank (p ++ w ++ 32 :: s) (zlen p) = Ok (w, zlen p + zlen w + 1) /\
  readUntilBlank (p ++ w) (zlen p) = Ok (w, zlen (p ++ w)) /\
  (forall n, zlen w < n -> readUntilBlankWithLength (p ++ w ++ 32 :: s) (zlen p) n = Ok (w, zlen p + zlen w + 1)) /\
  (forall n, zlen w <= n -> readUntilBlankWithLength (p ++ w) (zlen p) n = Ok (w, zlen (p ++ w))) /\
  readUntilBlankWithLength (p ++ w ++ s) (zlen p) (zlen w) = Ok (w, zlen p + zlen w).
Proof.
  intros N. pose proof (zlen_nonneg p). pose proof (zlen_nonneg w). pose proof (zlen_nonneg s).
  assert (L : zlen (p ++ w ++ 32 :: s) = zlen p + zlen w + 1 + zlen s) by (rewrite !zlen_app, zlen_cons; lia).
  assert (Lw : Z.of_nat (List.length w) = zlen w) by reflexivity.
  split; [|split; [|split; [|split]]].
  - unfold readUntilBlank. rewrite (scan_found p _ 32 w) with (s := s); [|exact N|lia|reflexivity]. cbn [bind].
    rewrite gslice_mid by reflexivity. reflexivity.
  - unfold readUntilBlank. rewrite (scan_absent p _ 32 w) with (s := []); [|exact N|rewrite zlen_app; lia|rewrite app_nil_r; reflexivity].
    cbn [bind]. rewrite gslice_suf by reflexivity. reflexivity.
  - intros n W. unfold readUntilBlankWithLength. rewrite (scan_found p _ 32 w) with (s := s); [|exact N| |reflexivity].
    + cbn [bind]. rewrite gslice_mid by reflexivity. reflexivity.
    + destruct (n + zlen p <? zlen (p ++ w ++ 32 :: s)); lia.
  - intros n W. unfold readUntilBlankWithLength. rewrite zlen_app. replace (n + zlen p <? zlen p + zlen w) with false by lia.
    rewrite (scan_absent p _ 32 w) with (s := []); [|exact N|lia|rewrite app_nil_r; reflexivity].
    cbn [bind]. rewrite gslice_suf by (rewrite ?zlen_app; reflexivity). reflexivity.
  - unfold readUntilBlankWithLength.
    replace (if zlen w + zlen p <? zlen (p ++ w ++ s) then zlen p + zlen w else zlen (p ++ w ++ s)) with (zlen p + zlen w)
      by (rewrite !zlen_app; destruct (zlen w + zlen p <? zlen p + (zlen w + zlen s)) eqn:Q; lia).
    rewrite (scan_absent p _ 32 w) with (s := s); [|exact N|lia|reflexivity]. cbn [bind]. rewrite gslice_mid by reflexivity. reflexivity.
Qed.
Print Assumptions C20_until_blank.
Example C20_until_blank_example : readUntilBlankWithLength (bs "GET /a") 0 8 = Ok (bs "GET", 4) /\ readUntilBlank (bs "GET /a") 4 = Ok (bs "/a", 6).
Proof. split; reflexivity. Qed.

(** Reading a line: the text up to CR LF, or up to the end of the payload (an unfinished line, with or without its CR).
    A CR that is followed by something else than LF gives no line, nor does an empty rest. *)
Theorem C20_until_crlf (p w s : bytes) : ~ In 13 w ->
  readUntilCRLF (p ++ w ++ 13 :: 10 :: s) (zlen p) = Ok (Some (w, zlen p + zlen w + 2)) /\
  (w <> [] -> readUntilCRLF (p ++ w) (zlen p) = Ok (Some (w, zlen (p ++ w)))) /\
  readUntilCRLF (p ++ w ++ [13]) (zlen p) = Ok (Some (w, zlen (p ++ w ++ [13]))) /\
  (forall b, b <> 10 -> readUntilCRLF (p ++ w ++ 13 :: b :: s) (zlen p) = Ok None) /\
  (forall from, zlen p <= from -> readUntilCRLF p from = Ok None).
Proof.
  intros N. pose proof (zlen_nonneg p). pose proof (zlen_nonneg w). pose proof (zlen_nonneg s).
  assert (Lw : Z.of_nat (List.length w) = zlen w) by reflexivity.
  assert (GN : forall b, gindex (p ++ w ++ 13 :: b :: s) (zlen p + zlen w + 1) = Ok b).
  { intros b. replace (zlen p + zlen w + 1) with (zlen p + (zlen w + 1)) by lia. rewrite !gindex_app_r by lia. reflexivity. }
  split; [|split; [|split; [|split]]].
  - unfold readUntilCRLF. assert (L : zlen (p ++ w ++ 13 :: 10 :: s) = zlen p + zlen w + 2 + zlen s) by (rewrite !zlen_app, !zlen_cons; lia).
    rewrite L. replace (_ <=? zlen p) with false by lia.
    rewrite (scan_found p _ 13 w) with (s := 10 :: s); [|exact N|lia|reflexivity]. cbn [bind].
    replace (_ =? _) with false by lia. rewrite GN. cbn [bind]. rewrite gslice_mid by reflexivity. reflexivity.
  - intros W. unfold readUntilCRLF. rewrite zlen_app. assert (0 < zlen w) by (destruct w; [congruence|rewrite zlen_cons; pose proof (zlen_nonneg w); lia]).
    replace (_ <=? zlen p) with false by lia.
    rewrite (scan_absent p _ 13 w) with (s := []); [|exact N|lia|rewrite app_nil_r; reflexivity]. cbn [bind].
    rewrite gslice_suf by (rewrite ?zlen_app; reflexivity). reflexivity.
  - unfold readUntilCRLF. assert (L : zlen (p ++ w ++ [13]) = zlen p + zlen w + 1) by (rewrite !zlen_app, zlen_one; lia).
    rewrite L. replace (_ <=? zlen p) with false by lia.
    rewrite (scan_found p _ 13 w) with (s := []); [|exact N|lia|reflexivity]. cbn [bind].
    replace (_ =? _) with true by lia. rewrite gslice_mid by lia. reflexivity.
  - intros b B. unfold readUntilCRLF. assert (L : zlen (p ++ w ++ 13 :: b :: s) = zlen p + zlen w + 2 + zlen s) by (rewrite !zlen_app, !zlen_cons; lia).
    rewrite L. replace (_ <=? zlen p) with false by lia.
    rewrite (scan_found p _ 13 w) with (s := b :: s); [|exact N|lia|reflexivity]. cbn [bind].
    replace (_ =? _) with false by lia. rewrite GN. cbn [bind]. replace (b =? 10) with false by lia. reflexivity.
  - intros from F. unfold readUntilCRLF. replace (zlen p <=? from) with true by lia. reflexivity.
Qed.
Print Assumptions C20_until_crlf.
Example C20_until_crlf_example : readUntilCRLF (bs "+OK" ++ [13; 10] ++ bs "x") 1 = Ok (Some (bs "OK", 5)).
Proof. reflexivity. Qed.

(** The text readers stay inside the payload from any offset in it. *)
Theorem C20_text_in_bounds (d : bytes) (from : Z) : 0 <= from <= zlen d ->
  (exists v o, readUntilBlank d from = Ok (v, o) /\ from <= o <= zlen d /\ exists e, part d from e v /\ e <= o) /\
  (forall n, 0 <= n -> exists v o, readUntilBlankWithLength d from n = Ok (v, o) /\ from <= o <= zlen d /\ o <= from + n /\ exists e, part d from e v /\ e <= o) /\
  (readUntilCRLF d from = Ok None \/ exists v o, readUntilCRLF d from = Ok (Some (v, o)) /\ from < o <= zlen d /\ exists e, part d from e v /\ e <= o).
Proof.
  intros F. split; [|split].
  - unfold readUntilBlank. destruct (scan_spec 32 (Z.to_nat (zlen d - from)) d from) as [(j & E & J & _)|[E _]]; [lia|lia| |]; rewrite E; cbn [bind]; rewrite gslice_ok by lia; cbn [bind].
    + exists (slice d from j), (j + 1). split; [reflexivity|]. split; [lia|]. exists j. unfold part. split; [|lia]. split; [lia|split; [lia|split; [lia|reflexivity]]].
    + exists (slice d from (zlen d)), (zlen d). split; [reflexivity|]. split; [lia|]. exists (zlen d). unfold part. split; [|lia]. split; [lia|split; [lia|split; [lia|reflexivity]]].
  - intros n N. unfold readUntilBlankWithLength.
    set (len := if n + from <? zlen d then from + n else zlen d). assert (HL : from <= len <= zlen d /\ len <= from + n) by (unfold len; destruct (n + from <? zlen d) eqn:Q; lia).
    destruct (scan_spec 32 (Z.to_nat (len - from)) d from) as [(j & E & J & _)|[E _]]; [lia|lia| |]; rewrite E; cbn [bind]; rewrite gslice_ok by lia; cbn [bind].
    + exists (slice d from j), (j + 1). split; [reflexivity|]. split; [lia|]. split; [lia|]. exists j. unfold part. split; [|lia]. split; [lia|split; [lia|split; [lia|reflexivity]]].
    + exists (slice d from len), len. split; [reflexivity|]. split; [lia|]. split; [lia|]. exists len. unfold part. split; [|lia]. split; [lia|split; [lia|split; [lia|reflexivity]]].
  - unfold readUntilCRLF. destruct (zlen d <=? from) eqn:Q; [left; reflexivity|].
    destruct (scan_spec 13 (Z.to_nat (zlen d - from)) d from) as [(j & E & J & _)|[E _]]; [lia|lia| |]; rewrite E; cbn [bind].
    + destruct (j =? zlen d - 1) eqn:Q2.
      * right. rewrite gslice_ok by lia. cbn [bind]. exists (slice d from (zlen d - 1)), (zlen d). split; [reflexivity|]. split; [lia|].
        exists (zlen d - 1). unfold part. split; [|lia]. split; [lia|split; [lia|split; [lia|reflexivity]]].
      * destruct (gindex_in d (j + 1)) as (b & G); [lia|]. rewrite G. cbn [bind]. destruct (b =? 10); [|left; reflexivity].
        right. rewrite gslice_ok by lia. cbn [bind]. exists (slice d from j), (j + 2). split; [reflexivity|]. split; [lia|].
        exists j. unfold part. split; [|lia]. split; [lia|split; [lia|split; [lia|reflexivity]]].
    + right. rewrite gslice_ok by lia. cbn [bind]. exists (slice d from (zlen d)), (zlen d). split; [reflexivity|]. split; [lia|].
      exists (zlen d). unfold part. split; [|lia]. split; [lia|split; [lia|split; [lia|reflexivity]]].
Qed.
Print Assumptions C20_text_in_bounds.
