(** Facts about the payload readers. *)
From Verif Require Import Base DetectProofs MsgModel ReaderSpec.
Open Scope string_scope. Open Scope list_scope. Open Scope Z_scope.

Lemma zlen_nonneg {A} (l : list A) : 0 <= zlen l.
Proof. unfold zlen. lia. Qed.
Lemma zlen_one {A} (a : A) : zlen [a] = 1.
Proof. reflexivity. Qed.
Lemma zlen_nil {A} : zlen (@nil A) = 0.
Proof. reflexivity. Qed.

Lemma gindex_in {A} (d : list A) i : 0 <= i < zlen d -> exists b, gindex d i = Ok b.
Proof.
  intros H. unfold gindex, znth, zlen in *. replace (i <? 0) with false by lia.
  destruct (nth_error d (Z.to_nat i)) as [b|] eqn:E; [exists b; reflexivity|].
  apply nth_error_None in E. lia.
Qed.
Lemma gindex_out {A} (d : list A) i : i < 0 \/ zlen d <= i -> gindex d i = Panic.
Proof.
  intros H. unfold gindex, znth, zlen in *. destruct (i <? 0) eqn:Q; [reflexivity|].
  destruct (nth_error d (Z.to_nat i)) as [b|] eqn:E; [|reflexivity].
  assert (nth_error d (Z.to_nat i) <> None) by congruence. apply nth_error_Some in H0. lia.
Qed.
Lemma gindex_inv {A} (d : list A) i b : gindex d i = Ok b -> 0 <= i < zlen d /\ nth_error d (Z.to_nat i) = Some b.
Proof.
  intros H. unfold gindex, znth, zlen in *. destruct (i <? 0) eqn:Q; [discriminate|].
  destruct (nth_error d (Z.to_nat i)) as [c|] eqn:E; [|discriminate]. inversion H; subst.
  split; [|reflexivity]. assert (nth_error d (Z.to_nat i) <> None) by congruence. apply nth_error_Some in H0. lia.
Qed.
Lemma gindex_app_r {A} (p d : list A) i : 0 <= i -> gindex (p ++ d) (zlen p + i) = gindex d i.
Proof.
  intros H. unfold gindex, znth, zlen. replace (Z.of_nat (List.length p) + i <? 0) with false by lia. replace (i <? 0) with false by lia.
  rewrite nth_error_app2 by lia. replace (Z.to_nat (Z.of_nat (List.length p) + i) - List.length p)%nat with (Z.to_nat i) by lia. reflexivity.
Qed.
Lemma gindex_app_l {A} (p d : list A) i : i < zlen p -> gindex (p ++ d) i = gindex p i.
Proof.
  intros H. unfold gindex, znth, zlen in *. destruct (i <? 0) eqn:Q; [reflexivity|]. rewrite nth_error_app1 by lia. reflexivity.
Qed.
Lemma gindex_0 {A} (a : A) l : gindex (a :: l) 0 = Ok a.
Proof. reflexivity. Qed.
Lemma gindex_S {A} (a : A) l i : 0 <= i -> gindex (a :: l) (i + 1) = gindex l i.
Proof.
  intros H. unfold gindex, znth. replace (i + 1 <? 0) with false by lia. replace (i <? 0) with false by lia.
  replace (Z.to_nat (i + 1)) with (S (Z.to_nat i)) by lia. reflexivity.
Qed.
Lemma gindex_1 {A} (a b : A) l : gindex (a :: b :: l) 1 = Ok b.
Proof. reflexivity. Qed.
Lemma gindex_2 {A} (a b c : A) l : gindex (a :: b :: c :: l) 2 = Ok c.
Proof. reflexivity. Qed.
Lemma gindex_3 {A} (a b c e : A) l : gindex (a :: b :: c :: e :: l) 3 = Ok e.
Proof. reflexivity. Qed.
Lemma slice_mid {A} (p v s : list A) : slice (p ++ v ++ s) (zlen p) (zlen p + zlen v) = v.
Proof.
  unfold slice, zlen. rewrite Nat2Z.id, skipn_app_exact by reflexivity.
  replace (Z.to_nat _) with (List.length v) by lia. apply firstn_app_exact. reflexivity.
Qed.
Lemma gslice_mid {A} (p v s : list A) a b : a = zlen p -> b = zlen p + zlen v -> gslice (p ++ v ++ s) a b = Ok v.
Proof.
  intros -> ->. rewrite gslice_ok.
  - f_equal. apply slice_mid.
  - apply zlen_nonneg.
  - pose proof (zlen_nonneg v). lia.
  - rewrite !zlen_app. pose proof (zlen_nonneg s). lia.
Qed.
Lemma gslice_suf {A} (p v : list A) a b : a = zlen p -> b = zlen (p ++ v) -> gslice (p ++ v) a b = Ok v.
Proof.
  intros -> ->. rewrite <- (app_nil_r v) at 1. apply gslice_mid; [reflexivity|]. apply zlen_app.
Qed.

(** Big-endian integers. *)
Lemma lor_disjoint a b n : 0 <= n -> 0 <= b < 2 ^ n -> Z.lor (Z.shiftl a n) b = a * 2 ^ n + b.
Proof. intros N B. rewrite Z.lor_comm, lor_shift by assumption. lia. Qed.

Lemma be16_val z : Z.lor (Z.shiftl (z / 2 ^ 8 mod 2 ^ 8) 8) (z mod 2 ^ 8) = z mod 2 ^ 16.
Proof.
  rewrite lor_disjoint by (try apply Z.mod_pos_bound; lia).
  change (2 ^ 16) with (2 ^ 8 * 2 ^ 8). rewrite (Z.rem_mul_r z (2 ^ 8) (2 ^ 8)) by lia. lia.
Qed.
Lemma be32_val z :
  Z.lor (Z.lor (Z.lor (Z.shiftl (z / 2 ^ 24 mod 2 ^ 8) 24) (Z.shiftl (z / 2 ^ 16 mod 2 ^ 8) 16)) (Z.shiftl (z / 2 ^ 8 mod 2 ^ 8) 8)) (z mod 2 ^ 8)
  = z mod 2 ^ 32.
Proof.
  assert (B : forall x, 0 <= x mod 2 ^ 8 < 2 ^ 8) by (intros; apply Z.mod_pos_bound; lia).
  pose proof (B (z / 2 ^ 24)) as B1. pose proof (B (z / 2 ^ 16)) as B2. pose proof (B (z / 2 ^ 8)) as B3. pose proof (B z) as B4.
  rewrite !Z.shiftl_mul_pow2 by lia.
  set (a := z / 2 ^ 24 mod 2 ^ 8) in *. set (b := z / 2 ^ 16 mod 2 ^ 8) in *. set (c := z / 2 ^ 8 mod 2 ^ 8) in *. set (e := z mod 2 ^ 8) in *.
  assert (D : forall x n y, 0 <= n -> 0 <= y < 2 ^ n -> Z.lor (x * 2 ^ n) y = x * 2 ^ n + y).
  { intros x n y N Y. rewrite <- Z.shiftl_mul_pow2 by assumption. rewrite lor_disjoint by assumption. rewrite Z.shiftl_mul_pow2 by assumption. reflexivity. }
  rewrite (D a 24 (b * 2 ^ 16)) by lia.
  replace (a * 2 ^ 24 + b * 2 ^ 16) with ((a * 2 ^ 8 + b) * 2 ^ 16) by lia. rewrite (D _ 16 (c * 2 ^ 8)) by lia.
  replace ((a * 2 ^ 8 + b) * 2 ^ 16 + c * 2 ^ 8) with ((a * 2 ^ 16 + b * 2 ^ 8 + c) * 2 ^ 8) by lia. rewrite (D _ 8 e) by lia.
  assert (Q1 : z = 2 ^ 8 * (z / 2 ^ 8) + e) by (apply Z.div_mod; lia).
  assert (Q2 : z / 2 ^ 8 = 2 ^ 8 * (z / 2 ^ 16) + c).
  { change (2 ^ 16) with (2 ^ 8 * 2 ^ 8). rewrite <- Z.div_div by lia. apply Z.div_mod. lia. }
  assert (Q3 : z / 2 ^ 16 = 2 ^ 8 * (z / 2 ^ 24) + b).
  { change (2 ^ 24) with (2 ^ 16 * 2 ^ 8). rewrite <- Z.div_div by lia. apply Z.div_mod. lia. }
  assert (Q4 : z / 2 ^ 24 = 2 ^ 8 * (z / 2 ^ 24 / 2 ^ 8) + a) by (apply Z.div_mod; lia).
  apply Z.mod_unique with (q := z / 2 ^ 24 / 2 ^ 8); lia.
Qed.
Lemma s16_id z : - 2 ^ 15 <= z < 2 ^ 15 -> s16 (z mod 2 ^ 16) = z.
Proof. intros H. unfold s16. rewrite Z.add_mod_idemp_l by lia. rewrite Z.mod_small by lia. lia. Qed.
Lemma s32_id z : - 2 ^ 31 <= z < 2 ^ 31 -> s32 (z mod 2 ^ 32) = z.
Proof. intros H. unfold s32. rewrite Z.add_mod_idemp_l by lia. rewrite Z.mod_small by lia. lia. Qed.
Lemma s64_small z : - 2 ^ 63 <= z < 2 ^ 63 -> s64 z = z.
Proof. intros H. unfold s64. rewrite Z.mod_small by lia. lia. Qed.
Lemma s32_small z : - 2 ^ 31 <= z < 2 ^ 31 -> s32 z = z.
Proof. intros H. unfold s32. rewrite Z.mod_small by lia. lia. Qed.

Lemma readUInt16_at p v s : 0 <= v < 2 ^ 16 -> readUInt16 (p ++ be16 v ++ s) (zlen p) = Ok v.
Proof.
  intros V. unfold readUInt16. pose proof (zlen_nonneg p). pose proof (zlen_nonneg s).
  replace (zlen p <? 0) with false by lia.
  replace (zlen (p ++ be16 v ++ s) <? zlen p + 2) with false by (rewrite !zlen_app; unfold be16; rewrite !zlen_cons, zlen_nil; lia).
  replace (zlen p) with (zlen p + 0) at 1 by lia. rewrite gindex_app_r by lia. rewrite gindex_app_r by lia.
  unfold be16, be32; cbn [app]; rewrite ?gindex_0, ?gindex_1, ?gindex_2, ?gindex_3; cbn [bind]. rewrite be16_val, Z.mod_small by lia. reflexivity.
Qed.
Lemma readInt16_at p v s : - 2 ^ 15 <= v < 2 ^ 15 -> readInt16 (p ++ be16 v ++ s) (zlen p) = Ok (v, zlen p + 2).
Proof.
  intros V. unfold readInt16. pose proof (zlen_nonneg p). pose proof (zlen_nonneg s).
  replace (zlen p <? 0) with false by lia.
  replace (zlen (p ++ be16 v ++ s) <? zlen p + 2) with false by (rewrite !zlen_app; unfold be16; rewrite !zlen_cons, zlen_nil; lia).
  replace (zlen p) with (zlen p + 0) at 1 by lia. rewrite gindex_app_r by lia. rewrite gindex_app_r by lia.
  unfold be16, be32; cbn [app]; rewrite ?gindex_0, ?gindex_1, ?gindex_2, ?gindex_3; cbn [bind]. rewrite be16_val, s16_id by lia. reflexivity.
Qed.
Lemma readInt32_at p v s : - 2 ^ 31 <= v < 2 ^ 31 -> readInt32 (p ++ be32 v ++ s) (zlen p) = Ok (v, zlen p + 4).
Proof.
  intros V. unfold readInt32. pose proof (zlen_nonneg p). pose proof (zlen_nonneg s).
  replace (zlen p <? 0) with false by lia.
  replace (zlen (p ++ be32 v ++ s) <? zlen p + 4) with false by (rewrite !zlen_app; unfold be32; rewrite !zlen_cons, zlen_nil; lia).
  replace (zlen p) with (zlen p + 0) at 1 by lia. rewrite !gindex_app_r by lia.
  unfold be16, be32; cbn [app]; rewrite ?gindex_0, ?gindex_1, ?gindex_2, ?gindex_3; cbn [bind]. rewrite be32_val, s32_id by lia. reflexivity.
Qed.
Lemma readBytes_at p v s : readBytes (p ++ v ++ s) (zlen p) (zlen v) = Ok (v, zlen p + zlen v).
Proof.
  unfold readBytes. pose proof (zlen_nonneg p). pose proof (zlen_nonneg s). pose proof (zlen_nonneg v).
  replace ((zlen p <? 0) || (zlen v <? 0)) with false by lia.
  replace (zlen (p ++ v ++ s) <? zlen p + zlen v) with false by (rewrite !zlen_app; lia).
  rewrite gslice_mid by reflexivity. reflexivity.
Qed.

(** Variable-length integers. *)
Lemma land127 b : Z.land b 127 = b mod 128.
Proof. change 127 with (Z.ones 7). rewrite Z.land_ones by lia. reflexivity. Qed.
Lemma lebF_len : forall f n, zlen (lebF f n) <= Z.of_nat f.
Proof.
  induction f as [|f IH]; intros n; [unfold zlen; cbn; lia|]. cbn [lebF].
  destruct (n <? 128); rewrite zlen_cons; [rewrite zlen_nil; lia|]. specialize (IH (n / 128)). lia.
Qed.
Lemma lebF_pos : forall f n, (0 < f)%nat -> 0 < zlen (lebF f n).
Proof.
  intros [|f] n H; [lia|]. cbn [lebF]. destruct (n <? 128); unfold zlen; cbn [List.length]; lia.
Qed.
Lemma pow_split k : 0 <= k -> 2 ^ (k + 7) = 128 * 2 ^ k.
Proof. intros. rewrite Z.pow_add_r by lia. change (2 ^ 7) with 128. lia. Qed.
Lemma uvarLoop_at : forall f n p i pre x k, (0 < f)%nat ->
  0 <= n < 2 ^ (7 * Z.of_nat f) -> 0 <= x < 2 ^ k -> 0 <= k -> k + 7 * Z.of_nat f <= 64 ->
  zlen pre = p + i -> forall s,
  uvarLoop f (pre ++ lebF f n ++ s) p i x k = Ok (x + n * 2 ^ k, zlen pre + zlen (lebF f n)).
Proof.
  induction f as [|f IH]; intros n p i pre x k F N X K B P s; [lia|].
  cbn [uvarLoop lebF]. pose proof (zlen_nonneg pre). pose proof (zlen_nonneg s).
  assert (P64 : forall j, 0 <= j <= 64 -> 2 ^ j <= 2 ^ 64) by (intros; apply Z.pow_le_mono_r; lia).
  destruct (n <? 128) eqn:Q.
  - replace (zlen (pre ++ [n] ++ s) <=? p + i) with false by (rewrite !zlen_app, zlen_cons, zlen_nil; lia).
    replace (p + i) with (zlen pre + 0) by lia. rewrite gindex_app_r by lia. cbn [app]. rewrite gindex_0. cbn [bind]. rewrite Q.
    rewrite lor_shift by lia. rewrite zlen_one. f_equal. f_equal; [|lia].
    unfold w64. apply Z.mod_small.
    assert (E : 2 ^ (k + 7) <= 2 ^ 64) by (apply P64; lia). rewrite pow_split in E by lia.
    assert (n * 2 ^ k <= 127 * 2 ^ k) by (apply Z.mul_le_mono_nonneg_r; lia). lia.
  - destruct f as [|f]; [change (2 ^ (7 * Z.of_nat 1)) with 128 in N; lia|].
    set (g := S f) in *. assert (G : (0 < g)%nat) by lia.
    assert (NM : 0 <= n mod 128 < 128) by (apply Z.mod_pos_bound; lia).
    replace (zlen (pre ++ ((128 + n mod 128) :: lebF g (n / 128)) ++ s) <=? p + i) with false
      by (rewrite !zlen_app, zlen_cons; pose proof (zlen_nonneg (lebF g (n / 128))); lia).
    replace (gindex (pre ++ ((128 + n mod 128) :: lebF g (n / 128)) ++ s) (p + i)) with (Ok (128 + n mod 128)).
    2: { replace (p + i) with (zlen pre + 0) by lia. rewrite gindex_app_r by lia. reflexivity. }
    cbn [bind]. replace (128 + n mod 128 <? 128) with false by lia.
    rewrite land127. replace ((128 + n mod 128) mod 128) with (n mod 128).
    2: { replace (128 + n mod 128) with (n mod 128 + 1 * 128) by lia. rewrite Z.mod_add, Z.mod_mod by lia. reflexivity. }
    rewrite lor_shift by lia.
    assert (E : 2 ^ (k + 7) <= 2 ^ 64) by (apply P64; lia). rewrite pow_split in E by lia.
    assert (E2 : n mod 128 * 2 ^ k <= 127 * 2 ^ k) by (apply Z.mul_le_mono_nonneg_r; lia).
    assert (E3 : 0 <= n mod 128 * 2 ^ k) by (apply Z.mul_nonneg_nonneg; lia).
    unfold w64. rewrite (Z.mod_small (x + _) (2 ^ 64)) by lia.
    change (pre ++ ((128 + n mod 128) :: lebF g (n / 128)) ++ s) with (pre ++ [128 + n mod 128] ++ (lebF g (n / 128) ++ s)).
    rewrite app_assoc. rewrite IH.
    + rewrite zlen_app, zlen_one, zlen_cons. f_equal. f_equal; [|lia].
      rewrite pow_split by lia. replace (n * 2 ^ k) with ((128 * (n / 128) + n mod 128) * 2 ^ k) by (rewrite <- Z.div_mod by lia; reflexivity). ring.
    + exact G.
    + split; [apply Z.div_pos; lia|]. apply Z.div_lt_upper_bound; [lia|].
      replace (7 * Z.of_nat (S g)) with (7 * Z.of_nat g + 7) in N by lia. rewrite pow_split in N by lia. lia.
    + rewrite pow_split by lia. lia.
    + lia.
    + lia.
    + rewrite zlen_app, zlen_one. lia.
Qed.
Lemma readUnsignedVarInt_at p n s : 0 <= n < 2 ^ 35 -> readUnsignedVarInt (p ++ leb n ++ s) (zlen p) = Ok (n, zlen p + zlen (leb n)).
Proof.
  intros N. unfold readUnsignedVarInt, readUnsignedVarIntCore. pose proof (zlen_nonneg p). replace (zlen p <? 0) with false by lia.
  unfold leb. rewrite uvarLoop_at; try lia.
  f_equal. f_equal. change (2 ^ 0) with 1. lia.
Qed.
Lemma unzigzag_zigzag z : - 2 ^ 62 <= z < 2 ^ 62 -> unzigzag (zigzag z) = z.
Proof.
  intros H. unfold unzigzag, zigzag. destruct (z <? 0) eqn:Q.
  - rewrite Z.shiftr_div_pow2 by lia. change (2 ^ 1) with 2.
    replace ((-2 * z - 1) / 2) with (- z - 1) by (replace (-2 * z - 1) with ((- z - 1) * 2 + 1) by lia; rewrite Z.div_add_l by lia; change (1 / 2) with 0; lia).
    rewrite !s64_small by lia.
    change 1 with (Z.ones 1) at 3. rewrite Z.land_ones by lia. change (2 ^ 1) with 2.
    replace ((-2 * z - 1) mod 2) with 1 by (replace (-2 * z - 1) with (1 + (- z - 1) * 2) by lia; rewrite Z.mod_add by lia; reflexivity).
    change (- (1)) with (-1). rewrite Z.lxor_m1_r. unfold Z.lnot. lia.
  - rewrite Z.shiftr_div_pow2 by lia. change (2 ^ 1) with 2. replace (2 * z / 2) with z by (rewrite Z.mul_comm, Z.div_mul by lia; reflexivity).
    rewrite !s64_small by lia.
    change 1 with (Z.ones 1). rewrite Z.land_ones by lia. change (2 ^ 1) with 2.
    rewrite Z.mul_comm, Z.mod_mul by lia. apply Z.lxor_0_r.
Qed.
Lemma readVarInt_at p z s : - 2 ^ 34 <= z < 2 ^ 34 -> readVarInt (p ++ leb (zigzag z) ++ s) (zlen p) = Ok (z, zlen p + zlen (leb (zigzag z))).
Proof.
  intros N. unfold readVarInt. pose proof (readUnsignedVarInt_at p (zigzag z) s) as R. unfold readUnsignedVarInt in R. rewrite R.
  - cbn [bind]. rewrite unzigzag_zigzag by lia. reflexivity.
  - unfold zigzag. destruct (z <? 0) eqn:Q; lia.
Qed.

(** Where any successful read ends. *)
Ltac split_bind :=
  repeat match goal with
  | |- context [bind (gindex ?d ?i) _] =>
      let b := fresh "b" in let G := fresh "G" in
      destruct (gindex_in d i) as (b & G); [lia|]; rewrite G; cbn [bind]
  end.
Lemma uvarLoop_within : forall t d off i x s, 0 <= off + i -> uvarLoop t d off i x s <> Panic /\
  (forall v o, uvarLoop t d off i x s = Ok (v, o) -> off + i < o /\ o <= zlen d /\ o <= off + i + Z.of_nat t /\ 0 <= v < 2 ^ 64).
Proof.
  induction t as [|t IH]; intros d off i x s H; cbn [uvarLoop]; [split; [discriminate|intros; discriminate]|].
  destruct (zlen d <=? off + i) eqn:L; [split; [discriminate|intros; discriminate]|].
  destruct (gindex_in d (off + i)) as (b & G); [lia|]. rewrite G. cbn [bind].
  destruct (b <? 128).
  - split; [discriminate|]. intros v o E. inversion E; subst. split; [lia|split; [lia|split; [lia|]]]. apply Z.mod_pos_bound. lia.
  - destruct (IH d off (i + 1) (w64 (Z.lor x (Z.shiftl (Z.land b 127) s))) (s + 7)) as [A B]; [lia|].
    split; [exact A|]. intros v o E. specialize (B v o E). lia.
Qed.
Lemma readUnsignedVarInt_within d off : readUnsignedVarInt d off <> Panic /\
  (forall v o, readUnsignedVarInt d off = Ok (v, o) -> advanced d off o /\ o <= off + 5 /\ 0 <= v < 2 ^ 64).
Proof.
  unfold readUnsignedVarInt, readUnsignedVarIntCore. destruct (off <? 0) eqn:Q; [split; [discriminate|intros; discriminate]|].
  destruct (uvarLoop_within 5 d off 0 0 0) as [A B]; [lia|]. split; [exact A|]. intros v o E. specialize (B v o E). unfold advanced. lia.
Qed.
(** a varint below 2^35 *)
Lemma lor_bound a b n : 0 <= n -> 0 <= a < 2 ^ n -> 0 <= b < 2 ^ n -> 0 <= Z.lor a b < 2 ^ n.
Proof.
  intros N A B. split; [apply Z.lor_nonneg; lia|].
  destruct (Z.eq_dec a 0) as [->|NA]; [rewrite Z.lor_0_l; lia|].
  destruct (Z.eq_dec b 0) as [->|NB]; [rewrite Z.lor_0_r; lia|].
  assert (P : 0 <= Z.lor a b) by (apply Z.lor_nonneg; lia).
  assert (Z.lor a b <> 0) by (intros E; apply Z.lor_eq_0_iff in E; lia).
  apply Z.log2_lt_pow2; [lia|]. rewrite Z.log2_lor by lia.
  assert (Z.log2 a < n) by (apply Z.log2_lt_pow2; lia). assert (Z.log2 b < n) by (apply Z.log2_lt_pow2; lia). lia.
Qed.
Lemma uvarLoop_bound : forall t d off i x s, 0 <= s -> 0 <= x < 2 ^ s -> s + 7 * Z.of_nat t <= 64 ->
  (forall b, In b d -> is_byte b) ->
  forall v o, uvarLoop t d off i x s = Ok (v, o) -> 0 <= v < 2 ^ (s + 7 * Z.of_nat t).
Proof.
  induction t as [|t IH]; intros d off i x s S0 X B BY v o; cbn [uvarLoop]; [discriminate|].
  destruct (zlen d <=? off + i) eqn:L; [discriminate|].
  destruct (gindex d (off + i)) as [b| |] eqn:G; cbn [bind]; try discriminate.
  assert (BB : is_byte b) by (apply BY; apply gindex_inv in G; destruct G as [_ G]; eapply nth_error_In; eauto). unfold is_byte in BB.
  assert (P : 2 ^ s <= 2 ^ (s + 7)) by (apply Z.pow_le_mono_r; lia).
  assert (P2 : 2 ^ (s + 7) <= 2 ^ (s + 7 * Z.of_nat (S t))) by (apply Z.pow_le_mono_r; lia).
  assert (P3 : 2 ^ (s + 7) <= 2 ^ 64) by (apply Z.pow_le_mono_r; lia).
  assert (SH : forall c, 0 <= c < 128 -> 0 <= Z.shiftl c s < 2 ^ (s + 7)).
  { intros c C. rewrite Z.shiftl_mul_pow2, pow_split by lia. split; [apply Z.mul_nonneg_nonneg; lia|]. apply Z.mul_lt_mono_pos_r; lia. }
  assert (LB : forall c, 0 <= c < 128 -> 0 <= Z.lor x (Z.shiftl c s) < 2 ^ (s + 7)).
  { intros c C. apply lor_bound; [lia|lia|]. apply SH. lia. }
  destruct (b <? 128) eqn:Q.
  - intros E. inversion E; subst. specialize (LB b ltac:(lia)). unfold w64. rewrite Z.mod_small by lia. lia.
  - rewrite land127. specialize (LB (b mod 128) ltac:(apply Z.mod_pos_bound; lia)). unfold w64. rewrite (Z.mod_small (Z.lor _ _) (2 ^ 64)) by lia. intros E.
    replace (s + 7 * Z.of_nat (S t)) with ((s + 7) + 7 * Z.of_nat t) by lia.
    eapply IH with (s := s + 7); [lia|exact LB|lia|exact BY|exact E].
Qed.
Lemma readUnsignedVarInt_bound d off v o : Forall is_byte d -> readUnsignedVarInt d off = Ok (v, o) -> 0 <= v < 2 ^ 35.
Proof.
  intros F. unfold readUnsignedVarInt, readUnsignedVarIntCore. destruct (off <? 0); [discriminate|]. intros E.
  change (2 ^ 35) with (2 ^ (0 + 7 * Z.of_nat 5)). apply (uvarLoop_bound 5 d off 0 0 0) with (o := o); [lia|lia|lia| |exact E].
  apply Forall_forall. exact F.
Qed.

(** The scans. *)
Lemma scan_spec c : forall n d i, 0 <= i -> i + Z.of_nat n <= zlen d ->
  (exists j, scan n d i c = Ok (Some j) /\ i <= j < i + Z.of_nat n /\ gindex d j = Ok c /\ forall k, i <= k < j -> gindex d k <> Ok c)
  \/ (scan n d i c = Ok None /\ forall k, i <= k < i + Z.of_nat n -> gindex d k <> Ok c).
Proof.
  induction n as [|n IH]; intros d i I B; cbn [scan].
  - right. split; [reflexivity|]. intros; lia.
  - destruct (gindex_in d i) as (b & G); [lia|]. rewrite G. cbn [bind]. destruct (b =? c) eqn:Q.
    + left. exists i. apply Z.eqb_eq in Q. subst. split; [reflexivity|]. split; [lia|]. split; [exact G|]. intros; lia.
    + apply Z.eqb_neq in Q. destruct (IH d (i + 1)) as [(j & E & J & GJ & M)|[E M]]; [lia|lia| |].
      * left. exists j. split; [exact E|]. split; [lia|]. split; [exact GJ|]. intros k K.
        destruct (Z.eq_dec k i) as [->|]; [congruence|]. apply M. lia.
      * right. split; [exact E|]. intros k K. destruct (Z.eq_dec k i) as [->|]; [congruence|]. apply M. lia.
Qed.
Lemma scan_found : forall pre d c l, ~ In c l -> forall s n, (List.length l < n)%nat ->
  d = pre ++ l ++ c :: s -> scan n d (zlen pre) c = Ok (Some (zlen pre + zlen l)).
Proof.
  intros pre d c l. revert pre. induction l as [|a l IH]; intros pre N s n Hn E; subst; (destruct n as [|n]; [cbn in Hn; lia|]); cbn [scan app].
  - replace (zlen pre) with (zlen pre + 0) at 1 by lia. rewrite gindex_app_r by lia. rewrite gindex_0. cbn [bind]. rewrite Z.eqb_refl. f_equal. f_equal. unfold zlen; cbn [List.length]; lia.
  - replace (gindex (pre ++ a :: l ++ c :: s) (zlen pre)) with (Ok a).
    2: { replace (zlen pre) with (zlen pre + 0) by lia. rewrite gindex_app_r by lia. reflexivity. }
    cbn [bind]. destruct (a =? c) eqn:Q; [apply Z.eqb_eq in Q; subst; exfalso; apply N; left; reflexivity|].
    replace (zlen pre + 1) with (zlen (pre ++ [a])) by (rewrite zlen_app; reflexivity).
    rewrite (IH (pre ++ [a])) with (s := s).
    + f_equal. f_equal. rewrite zlen_app, zlen_one, zlen_cons. lia.
    + intros I. apply N. right. exact I.
    + cbn in Hn. lia.
    + rewrite <- app_assoc. reflexivity.
Qed.
Lemma scan_absent : forall pre d c l, ~ In c l -> forall n s, n = List.length l ->
  d = pre ++ l ++ s -> scan n d (zlen pre) c = Ok None.
Proof.
  intros pre d c l. revert pre. induction l as [|a l IH]; intros pre N n s Hn E; subst; cbn [List.length scan app]; [reflexivity|].
  replace (gindex (pre ++ a :: l ++ s) (zlen pre)) with (Ok a).
  2: { replace (zlen pre) with (zlen pre + 0) by lia. rewrite gindex_app_r by lia. reflexivity. }
  cbn [bind]. destruct (a =? c) eqn:Q; [apply Z.eqb_eq in Q; subst; exfalso; apply N; left; reflexivity|].
  replace (zlen pre + 1) with (zlen (pre ++ [a])) by (rewrite zlen_app; reflexivity).
  rewrite (IH (pre ++ [a])) with (s := s); [reflexivity| |reflexivity|].
  + intros I. apply N. right. exact I.
  + rewrite <- app_assoc. reflexivity.
Qed.
