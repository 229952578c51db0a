From Verif Require Import Base EventModel RouteModel RecvModel RecvSpec.
Open Scope string_scope. Open Scope list_scope. Open Scope Z_scope.

Lemma untilNul_ok mem s : untilNul mem = Ok s <-> exists rest, mem = s ++ 0 :: rest /\ ~ In 0 s.
Proof.
  revert s. induction mem as [|x mem IH]; intros s; cbn [untilNul].
  - split; [discriminate|]. intros (rest & E & _). destruct s; discriminate.
  - destruct (Z.eqb_spec x 0) as [->|N].
    + split.
      * intros E. injection E as <-. exists mem. split; [reflexivity|intros []].
      * intros (rest & E & NI). destruct s as [|y s]; [reflexivity|]. cbn in E. injection E as <- _. exfalso. apply NI. left. reflexivity.
    + split.
      * destruct (untilNul mem) as [t| |] eqn:U; cbn [bind]; [|discriminate|discriminate]. intros E. injection E as <-.
        destruct (proj1 (IH t) eq_refl) as (rest & -> & NI). exists rest. split; [reflexivity|]. intros [X|X]; [apply N; congruence|exact (NI X)].
      * intros (rest & E & NI). destruct s as [|y s]; cbn in E; injection E as -> E; [congruence|].
        assert (U : untilNul mem = Ok s). { apply IH. exists rest. split; [exact E|]. intros X. apply NI. right. exact X. }
        rewrite U. reflexivity.
Qed.

Lemma untilNul_res mem : (exists s, untilNul mem = Ok s) \/ untilNul mem = Panic.
Proof. induction mem as [|x mem IH]; cbn [untilNul]; [right; reflexivity|]. destruct (x =? 0); [left; eexists; reflexivity|].
  destruct IH as [(s & ->)| ->]; [left; eexists; reflexivity|right; reflexivity]. Qed.

Lemma untilNul_in mem : (exists s, untilNul mem = Ok s) <-> In 0 mem.
Proof. induction mem as [|x mem IH]; cbn [untilNul In].
  - split; [intros (s & E); discriminate|intros []].
  - destruct (Z.eqb_spec x 0) as [->|N]; [split; [left; reflexivity|eexists; reflexivity]|].
    split.
    + intros (s & E). right. apply IH. destruct (untilNul mem); [eexists; reflexivity|discriminate|discriminate].
    + intros [X|X]; [congruence|]. destruct (proj2 IH X) as (s & ->). eexists. reflexivity.
Qed.

Lemma goString_ok p s : goString p = Ok s <-> stringAt p s.
Proof. destruct p as [mem|]; cbn [goString stringAt]; [apply untilNul_ok|]. split; [intros E; injection E; congruence|intros ->; reflexivity]. Qed.
Lemma goString_res p : (exists s, goString p = Ok s) \/ goString p = Panic.
Proof. destruct p as [mem|]; cbn [goString]; [apply untilNul_res|left; eexists; reflexivity]. Qed.
Lemma goString_in p : (exists s, goString p = Ok s) <-> terminated p.
Proof. destruct p as [mem|]; cbn [goString terminated]; [apply untilNul_in|]. split; [exact (fun _ => Logic.I)|eexists; reflexivity]. Qed.

Lemma s32_small n : 0 <= n < 2 ^ 31 -> s32 n = n.
Proof. intros H. unfold s32. rewrite Z.mod_small by lia. lia. Qed.
Lemma s32_big n : 2 ^ 31 <= n < 2 ^ 32 -> s32 n < 0.
Proof. intros H. unfold s32. replace (n + 2 ^ 31) with ((n - 2 ^ 31) + 1 * 2 ^ 32) by lia. rewrite Z.mod_add by lia. rewrite Z.mod_small by lia. lia. Qed.

Lemma zlen_firstn {A} (n : Z) (l : list A) : 0 <= n <= zlen l -> zlen (firstn (Z.to_nat n) l) = n.
Proof. unfold zlen. intros H. rewrite firstn_length. lia. Qed.

Lemma goBytes_ok p n v : 0 <= n < 2 ^ 32 -> (goBytes p n = Ok v <-> n < 2 ^ 31 /\ bytesAt p n v).
Proof.
  intros R. unfold goBytes, bytesAt. cbv zeta. destruct (Z_lt_ge_dec n (2 ^ 31)) as [L|L].
  2:{ pose proof (s32_big n ltac:(lia)) as B. destruct (Z.ltb_spec (s32 n) 0); [|lia]. split; [discriminate|]. lia. }
  rewrite (s32_small n) by lia. destruct (Z.ltb_spec n 0); [lia|]. destruct (Z.eqb_spec n 0) as [->|N].
  - split; [intros E; injection E as <-; split; [lia|split; [reflexivity|left; reflexivity]]|]. intros (_ & E & _). destruct v; [reflexivity|unfold zlen in E; cbn in E; lia].
  - destruct p as [mem|]; [|split; [discriminate|intros (_ & _ & [X|(r & X)]); [lia|discriminate]]].
    destruct (Z.leb_spec n (zlen mem)) as [LE|LE].
    + split.
      * intros E. injection E as <-. split; [lia|]. split; [apply zlen_firstn; lia|]. right. exists (skipn (Z.to_nat n) mem). rewrite firstn_skipn. reflexivity.
      * intros (_ & E & [X|(r & X)]); [lia|]. injection X as ->. f_equal. replace (Z.to_nat n) with (List.length v) by (unfold zlen in E; lia).
        rewrite firstn_app, Nat.sub_diag, firstn_all. cbn [firstn]. apply app_nil_r.
    + split; [discriminate|]. intros (_ & E & [X|(r & X)]); [lia|]. injection X as ->. unfold zlen in *. rewrite app_length in LE. lia.
Qed.
Lemma goBytes_res p n : (exists s, goBytes p n = Ok s) \/ goBytes p n = Panic.
Proof. unfold goBytes. cbv zeta. destruct (s32 n <? 0); [right; reflexivity|]. destruct (s32 n =? 0); [left; eexists; reflexivity|].
  destruct p as [m|]; [|right; reflexivity]. destruct (_ <=? _); [left; eexists; reflexivity|right; reflexivity]. Qed.
Lemma goBytes_in p n : 0 <= n < 2 ^ 32 -> ((exists s, goBytes p n = Ok s) <-> n < 2 ^ 31 /\ present p n).
Proof.
  intros R. split.
  - intros (v & E). apply (goBytes_ok p n v R) in E. destruct E as (L & Z & [X|(r & ->)]); (split; [exact L|]); [left; exact X|].
    right. eexists. split; [reflexivity|]. unfold zlen in *. rewrite app_length. lia.
  - intros (L & P). unfold goBytes. cbv zeta. rewrite (s32_small n) by lia. destruct (Z.ltb_spec n 0); [lia|]. destruct (Z.eqb_spec n 0); [eexists; reflexivity|].
    destruct P as [X|(mem & -> & X)]; [lia|]. destruct (Z.leb_spec n (zlen mem)); [eexists; reflexivity|lia].
Qed.

(** Attributes. *)
Definition slotOk (n : nat) (i : nat) (a : cattr) (k : kattr) : Prop := if (i <? n)%nat then sameAttr a k /\ ca_len a < 2 ^ 31 else k = blank.
Lemma convertAttrs_ok n l l' : Forall (fun a => 0 <= ca_len a < 2 ^ 32 /\ enum (ca_type a)) l ->
  (convertAttrs n l = Ok l' <-> (n <= List.length l)%nat /\ List.length l' = List.length l /\
     forall i a k, nth_error l i = Some a -> nth_error l' i = Some k -> slotOk n i a k).
Proof.
  intros F. revert n l'. induction F as [|a l (RL & RT) F IH]; intros n l'.
  - destruct n; cbn [convertAttrs map List.length].
    + split; [intros E; injection E as <-; split; [lia|split; [reflexivity|intros i ? ? X; destruct i; discriminate]]|].
      intros (_ & E & _). destruct l'; [reflexivity|discriminate].
    + split; [discriminate|]. lia.
  - destruct n as [|n]; cbn [convertAttrs].
    + specialize (IH O). split.
      * intros E. injection E as <-. split; [lia|]. split; [cbn [List.length map]; rewrite map_length; reflexivity|].
        intros i b k E1 E2. unfold slotOk. cbn [Nat.ltb Nat.leb]. destruct i as [|i]; cbn [nth_error map] in *; [congruence|].
        rewrite nth_error_map in E2. destruct (nth_error l i); [cbn in E2; congruence|discriminate].
      * intros (_ & E & S). f_equal. destruct l' as [|k l']; [discriminate|]. cbn [List.length] in E.
        pose proof (S O a k eq_refl eq_refl) as K. unfold slotOk in K. cbn [Nat.ltb Nat.leb] in K. subst k. cbn [map]. f_equal.
        assert (G : convertAttrs 0 l = Ok l'). { apply (IH l'). split; [lia|]. split; [lia|]. intros i b k E1 E2. exact (S (Datatypes.S i) b k E1 E2). }
        destruct l; cbn [convertAttrs] in G; injection G as <-; reflexivity.
    + destruct (goString_res (ca_key a)) as [(key & EK)|EK].
      2:{ rewrite EK. cbn [bind]. split; [discriminate|]. intros (LE & E & S). destruct l' as [|k l']; [discriminate|].
          pose proof (S O a k eq_refl eq_refl) as K. unfold slotOk in K. cbn [Nat.ltb Nat.leb] in K. destruct K as ((K & _) & _).
          apply goString_ok in K. congruence. }
      rewrite EK. cbn [bind]. destruct (goBytes_res (ca_val a) (ca_len a)) as [(v & EV)|EV].
      2:{ rewrite EV. cbn [bind]. split; [discriminate|]. intros (LE & E & S). destruct l' as [|k l']; [discriminate|].
          pose proof (S O a k eq_refl eq_refl) as K. unfold slotOk in K. cbn [Nat.ltb Nat.leb] in K. destruct K as ((_ & K & _) & L31).
          pose proof (proj2 (goBytes_ok _ _ _ RL) (conj L31 K)). congruence. }
      rewrite EV. cbn [bind]. specialize (IH n). split.
      * destruct (convertAttrs n l) as [r| |] eqn:C; cbn [bind]; [|discriminate|discriminate]. intros E. injection E as <-.
        destruct (proj1 (IH r) eq_refl) as (LE & LEN & S). split; [cbn [List.length]; lia|]. split; [cbn [List.length]; lia|].
        intros i b k E1 E2. destruct i as [|i]; cbn [nth_error] in *.
        -- injection E1 as <-. injection E2 as <-. unfold slotOk. cbn [Nat.ltb Nat.leb]. apply (goBytes_ok _ _ _ RL) in EV. destruct EV as (L31 & EV).
           split; [|exact L31]. split; [apply goString_ok; exact EK|]. split; [exact EV|]. cbn [ka_type]. apply s32_small. exact RT.
        -- specialize (S i b k E1 E2). unfold slotOk in *. change (Datatypes.S i <? Datatypes.S n)%nat with (i <? n)%nat. exact S.
      * intros (LE & E & S). destruct l' as [|k l']; [discriminate|]. cbn [List.length] in *.
        assert (C : convertAttrs n l = Ok l').
        { apply IH. split; [lia|]. split; [lia|]. intros i b k' E1 E2. pose proof (S (Datatypes.S i) b k' E1 E2) as X. unfold slotOk in *.
          change (Datatypes.S i <? Datatypes.S n)%nat with (i <? n)%nat in X. exact X. }
        rewrite C. cbn [bind]. f_equal. f_equal. pose proof (S O a k eq_refl eq_refl) as K. unfold slotOk in K. cbn [Nat.ltb Nat.leb] in K.
        destruct K as ((K1 & K2 & K3) & L31). apply goString_ok in K1. pose proof (proj2 (goBytes_ok _ _ _ RL) (conj L31 K2)) as K4.
        destruct k as [kk kv kt]; cbn [ka_key ka_val ka_type] in *. rewrite s32_small by exact RT. congruence.
Qed.

Lemma convertAttrs_res n l : (exists r, convertAttrs n l = Ok r) \/ convertAttrs n l = Panic.
Proof.
  revert n. induction l as [|a l IH]; intros n; destruct n; cbn [convertAttrs]; [left; eexists; reflexivity|right; reflexivity|left; eexists; reflexivity|].
  destruct (goString_res (ca_key a)) as [(k & ->)| ->]; [cbn [bind]|right; reflexivity].
  destruct (goBytes_res (ca_val a) (ca_len a)) as [(v & ->)| ->]; [cbn [bind]|right; reflexivity].
  destruct (IH n) as [(r & ->)| ->]; [left; eexists; reflexivity|right; reflexivity].
Qed.
Lemma convertAttrs_in n l : Forall (fun a => 0 <= ca_len a < 2 ^ 32 /\ enum (ca_type a)) l ->
  ((exists r, convertAttrs n l = Ok r) <-> (n <= List.length l)%nat /\
     forall i a, (i < n)%nat -> nth_error l i = Some a -> terminated (ca_key a) /\ ca_len a < 2 ^ 31 /\ present (ca_val a) (ca_len a)).
Proof.
  intros F. revert n. induction F as [|a l (RL & RT) F IH]; intros n.
  - destruct n; cbn [convertAttrs List.length]; [split; [intros _; split; [lia|intros; lia]|intros _; eexists; reflexivity]|].
    split; [intros (r & E); discriminate|]. lia.
  - destruct n as [|n]; cbn [convertAttrs List.length]; [split; [intros _; split; [lia|intros; lia]|intros _; eexists; reflexivity]|].
    specialize (IH n). split.
    + intros (r & E). destruct (goString (ca_key a)) as [k| |] eqn:EK; cbn [bind] in E; [|discriminate|discriminate].
      destruct (goBytes (ca_val a) (ca_len a)) as [v| |] eqn:EV; cbn [bind] in E; [|discriminate|discriminate].
      destruct (convertAttrs n l) as [r'| |] eqn:C; cbn [bind] in E; [|discriminate|discriminate].
      destruct (proj1 IH (ex_intro _ r' eq_refl)) as (LE & S). split; [lia|]. intros i b Hi E1. destruct i as [|i]; cbn [nth_error] in E1.
      * injection E1 as <-. split; [apply goString_in; eexists; exact EK|]. apply (goBytes_in _ _ RL). eexists. exact EV.
      * apply (S i); [lia|exact E1].
    + intros (LE & S). destruct (S O a ltac:(lia) eq_refl) as (T & P).
      destruct (proj2 (goString_in _) T) as (k & ->). cbn [bind]. destruct (proj2 (goBytes_in _ _ RL) P) as (v & ->). cbn [bind].
      destruct (proj2 IH) as (r & ->); [|eexists; reflexivity]. split; [lia|]. intros i b Hi E1. apply (S (Datatypes.S i)); [lia|exact E1].
Qed.

Lemma convertEvent_inv c k : convertEvent c = Ok k ->
  exists name comm cid file dir attrs,
    goString (c_name c) = Ok name /\ goString (c_comm c) = Ok comm /\ goString (c_cid c) = Ok cid /\ goString (c_file c) = Ok file /\
    goString (c_dir c) = Ok dir /\ convertAttrs (Z.to_nat (c_params c)) (c_attrs c) = Ok attrs /\
    k = {| k_ts := c_ts c; k_name := name; k_cat := s32 (c_cat c); k_params := c_params c; k_lat := c_lat c; k_attrs := attrs;
        k_pid := c_pid c; k_tid := c_tid c; k_uid := c_uid c; k_gid := c_gid c; k_comm := comm; k_cid := cid;
        k_fd := c_fd c; k_fdtype := s32 (c_fdtype c); k_file := file; k_dir := dir; k_proto := s32 (c_proto c);
        k_role := negb (c_role c =? 0); k_sip := firstn 4 (c_sip c); k_dip := firstn 4 (c_dip c);
        k_sport := c_sport c; k_dport := c_dport c; k_src := c_src c; k_dst := c_dst c |}.
Proof.
  unfold convertEvent.
  destruct (goString (c_name c)) as [name| |]; cbn [bind]; [|discriminate|discriminate].
  destruct (goString (c_comm c)) as [comm| |]; cbn [bind]; [|discriminate|discriminate].
  destruct (goString (c_cid c)) as [cid| |]; cbn [bind]; [|discriminate|discriminate].
  destruct (goString (c_file c)) as [file| |]; cbn [bind]; [|discriminate|discriminate].
  destruct (goString (c_dir c)) as [dir| |]; cbn [bind]; [|discriminate|discriminate].
  destruct (convertAttrs (Z.to_nat (c_params c)) (c_attrs c)) as [attrs| |]; cbn [bind]; [|discriminate|discriminate].
  intros E. injection E as <-. repeat eexists.
Qed.

Lemma convertEvent_same c k : cstruct c -> convertEvent c = Ok k -> same c k.
Proof.
  intros (RP & LA & LS & LD & EC & EF & EP & FA) E. apply convertEvent_inv in E.
  destruct E as (name & comm & cid & file & dir & attrs & E1 & E2 & E3 & E4 & E5 & E6 & ->).
  apply goString_ok in E1, E2, E3, E4, E5. apply (convertAttrs_ok _ _ _ FA) in E6. destruct E6 as (LE & LEN & S).
  unfold same. cbn [k_ts k_name k_cat k_params k_lat k_attrs k_pid k_tid k_uid k_gid k_comm k_cid k_fd k_fdtype k_file k_dir k_proto k_role k_sip k_dip k_sport k_dport k_src k_dst].
  repeat match goal with |- _ /\ _ => split end.
  all: try solve [first [reflexivity|assumption|apply s32_small; assumption]].
  - unfold sameAttrs. split; [lia|]. split; [lia|]. intros i a k' N1 N2. specialize (S i a k' N1 N2). unfold slotOk in S.
    destruct (Nat.ltb_spec i (Z.to_nat (c_params c))); split; intros; try lia; [exact (proj1 S)|exact S].
  - destruct (Z.eqb_spec (c_role c) 0); cbn [negb]; split; congruence.
  - apply firstn_all2. lia.
  - apply firstn_all2. lia.
Qed.

Lemma convertEvent_res c : (exists k, convertEvent c = Ok k) \/ convertEvent c = Panic.
Proof.
  unfold convertEvent.
  destruct (goString_res (c_name c)) as [(? & ->)| ->]; cbn [bind]; [|right; reflexivity].
  destruct (goString_res (c_comm c)) as [(? & ->)| ->]; cbn [bind]; [|right; reflexivity].
  destruct (goString_res (c_cid c)) as [(? & ->)| ->]; cbn [bind]; [|right; reflexivity].
  destruct (goString_res (c_file c)) as [(? & ->)| ->]; cbn [bind]; [|right; reflexivity].
  destruct (goString_res (c_dir c)) as [(? & ->)| ->]; cbn [bind]; [|right; reflexivity].
  destruct (convertAttrs_res (Z.to_nat (c_params c)) (c_attrs c)) as [(? & ->)| ->]; cbn [bind]; [|right; reflexivity].
  left. eexists. reflexivity.
Qed.

Lemma convertEvent_readable c : cstruct c -> ((exists k, convertEvent c = Ok k) <-> readable c).
Proof.
  intros (RP & LA & LS & LD & EC & EF & EP & FA). unfold readable. rewrite <- !goString_in. split.
  - intros (k & E). apply convertEvent_inv in E. destruct E as (name & comm & cid & file & dir & attrs & E1 & E2 & E3 & E4 & E5 & E6 & _).
    destruct (proj1 (convertAttrs_in _ _ FA) (ex_intro _ attrs E6)) as (LE & S).
    repeat (split; [first [eexists; eassumption|lia]|]). intros i a Hi. apply S. lia.
  - intros ((? & E1) & (? & E2) & (? & E3) & (? & E4) & (? & E5) & LE & S).
    destruct (proj2 (convertAttrs_in (Z.to_nat (c_params c)) _ FA)) as (? & E6). { split; [lia|]. intros i a Hi. apply S. lia. }
    unfold convertEvent. rewrite E1, E2, E3, E4, E5, E6. cbn [bind]. eexists. reflexivity.
Qed.

Lemma stringAt_fun p s t : stringAt p s -> stringAt p t -> s = t.
Proof. intros A B. apply goString_ok in A, B. congruence. Qed.
Lemma bytesAt_fun p n v w : bytesAt p n v -> bytesAt p n w -> v = w.
Proof.
  intros (L1 & A) (L2 & B). unfold zlen in *.
  assert (L : List.length v = List.length w) by lia. destruct A as [A|(r & A)]; [destruct v, w; cbn in *; try lia; reflexivity|].
  destruct B as [B|(r' & B)]; [destruct v, w; cbn in *; try lia; reflexivity|]. rewrite A in B. injection B as B. clear A L1 L2.
  revert w L B. induction v as [|x v IH]; intros [|y w] L B; cbn in *; try lia; [reflexivity|]. injection B as -> B. f_equal. apply IH; [lia|exact B].
Qed.
Lemma sameAttrs_fun n l k1 k2 : List.length l = 16%nat -> sameAttrs n l k1 -> sameAttrs n l k2 -> k1 = k2.
Proof.
  intros LL (_ & L1 & A) (_ & L2 & B). apply nth_ext with (d := blank) (d' := blank); [lia|]. intros i Hi.
  destruct (nth_error l i) as [a|] eqn:Ea; [|apply nth_error_None in Ea; lia].
  destruct (nth_error k1 i) as [x|] eqn:Ex; [|apply nth_error_None in Ex; lia].
  destruct (nth_error k2 i) as [y|] eqn:Ey; [|apply nth_error_None in Ey; lia].
  rewrite (nth_error_nth k1 i blank Ex), (nth_error_nth k2 i blank Ey). specialize (A i a x Ea Ex). specialize (B i a y Ea Ey).
  destruct (Z_lt_ge_dec (Z.of_nat i) n) as [L|L].
  - destruct (proj1 A L) as (A1 & A2 & A3). destruct (proj1 B L) as (B1 & B2 & B3). destruct x as [x1 x2 x3], y as [y1 y2 y3]; cbn [ka_key ka_val ka_type] in *.
    f_equal; [exact (stringAt_fun _ _ _ A1 B1)|exact (bytesAt_fun _ _ _ _ A2 B2)|congruence].
  - rewrite (proj2 A ltac:(lia)), (proj2 B ltac:(lia)). reflexivity.
Qed.
Lemma same_fun c k1 k2 : cstruct c -> same c k1 -> same c k2 -> k1 = k2.
Proof.
  intros (_ & LA & _) A B. unfold same in A, B.
  destruct A as (A1 & A2 & A3 & A4 & A5 & A6 & A7 & A8 & A9 & A10 & A11 & A12 & A13 & A14 & A15 & A16 & A17 & A18 & A19 & A20 & A21 & A22 & A23 & A24).
  destruct B as (B1 & B2 & B3 & B4 & B5 & B6 & B7 & B8 & B9 & B10 & B11 & B12 & B13 & B14 & B15 & B16 & B17 & B18 & B19 & B20 & B21 & B22 & B23 & B24).
  pose proof (stringAt_fun _ _ _ A3 B3). pose proof (stringAt_fun _ _ _ A11 B11). pose proof (stringAt_fun _ _ _ A12 B12).
  pose proof (stringAt_fun _ _ _ A15 B15). pose proof (stringAt_fun _ _ _ A16 B16). pose proof (sameAttrs_fun _ _ _ _ LA A6 B6).
  assert (k_role k1 = k_role k2). { destruct (k_role k1), (k_role k2); try reflexivity; exfalso; intuition congruence. }
  destruct k1 as [a0 a1 a2 a3 a4 a5 a6 a7 a8 a9 a10 a11 a12 a13 a14 a15 a16 a17 a18 a19 a20 a21 a22 a23], k2 as [b0 b1 b2 b3 b4 b5 b6 b7 b8 b9 b10 b11 b12 b13 b14 b15 b16 b17 b18 b19 b20 b21 b22 b23]; cbn [k_ts k_name k_cat k_params k_lat k_attrs k_pid k_tid k_uid k_gid k_comm k_cid k_fd k_fdtype k_file k_dir k_proto k_role k_sip k_dip k_sport k_dport k_src k_dst] in *.
  clear A3 A6 A11 A12 A15 A16 A18 B3 B6 B11 B12 B15 B16 B18. subst. reflexivity.
Qed.

(** ** The loops *)
Lemma rrun_app cap l1 l2 s : rrun cap (l1 ++ l2) s = match rrun cap l1 s with Some s' => rrun cap l2 s' | None => None end.
Proof. revert s. induction l1 as [|l l1 IH]; intros s; cbn [rrun app]; [reflexivity|]. destruct (rdo cap l s); [apply IH|reflexivity]. Qed.
Lemma probed_app l1 l2 : probed (l1 ++ l2) = probed l1 ++ probed l2.
Proof. induction l1 as [|l l1 IH]; [reflexivity|]. destruct l; cbn [probed app]; rewrite IH; try reflexivity. apply app_assoc. Qed.
Lemma rrun_snoc_ind cap (P : list rlabel -> rst -> Prop) s0 :
  P [] s0 -> (forall ls l s s', rrun cap ls s0 = Some s -> P ls s -> rdo cap l s = Some s' -> P (ls ++ [l]) s') ->
  forall ls s, rrun cap ls s0 = Some s -> P ls s.
Proof.
  intros B ST ls. induction ls as [|l ls IH] using rev_ind; intros s R; [cbn in R; injection R as <-; exact B|].
  rewrite rrun_app in R. destruct (rrun cap ls s0) as [s1|] eqn:R1; [|discriminate]. cbn [rrun] in R.
  destruct (rdo cap l s1) as [s2|] eqn:D; [|discriminate]. injection R as <-. exact (ST ls l s1 s2 R1 (IH s1 eq_refl) D).
Qed.

Ltac rcases D :=
  unfold rdo in D; cbn iota in D;
  repeat (match type of D with
          | context [match ?x with _ => _ end] => let E := fresh "E" in destruct x eqn:E
          end; try discriminate);
  try (injection D as <-).

Definition counting (s : rst) : list bytes := match r_prod s with PCount e _ => [k_name e] | _ => [] end.
Definition orderInv (ls : list rlabel) (s : rst) : Prop :=
  exists sent, probed ls = sent ++ unsent s /\ Forall2 (fun c e => convertEvent c = Ok e) sent (r_out s ++ inHand s ++ r_chan s) /\
    r_counted s ++ counting s = map k_name (r_out s ++ inHand s ++ r_chan s).

Lemma order_inv cap ls s : rrun cap ls rinit = Some s -> orderInv ls s.
Proof.
  revert ls s. apply rrun_snoc_ind; [exists []; repeat split; constructor|].
  intros ls l s s' _ (sent & P & F & C) D. unfold orderInv. rewrite probed_app. rewrite P. clear P.
  unfold unsent, inHand, counting in *.
  destruct l; unfold rdo in D; destruct (r_crash s); try discriminate.
  - (* LProdStart *) destruct (r_prod s); try discriminate. injection D as <-. exists sent. cbn. rewrite ?app_nil_r in *. auto.
  - destruct (r_prod s); try discriminate. injection D as <-. exists sent. destruct (r_stop s); cbn; rewrite ?app_nil_r in *; auto.
  - destruct (r_prod s); try discriminate. destruct (_ <=? _); [|discriminate]. injection D as <-. exists sent. cbn. rewrite ?app_nil_r in *. auto.
  - destruct (r_prod s) as [| | |[|c rest]| |] eqn:EP; try discriminate.
    + injection D as <-. exists sent. cbn. rewrite ?app_nil_r in *. auto.
    + destruct (convertEvent c) as [e| |] eqn:EC.
      * destruct (_ <? _); [|discriminate]. injection D as <-. exists (sent ++ [c]). cbn. rewrite ?app_nil_r in *.
        split; [rewrite <- app_assoc; reflexivity|]. split.
        -- rewrite !app_assoc. apply Forall2_app; [rewrite <- app_assoc; exact F|]. constructor; [exact EC|constructor].
        -- rewrite !app_assoc, map_app. cbn [map]. f_equal. rewrite <- app_assoc. exact C.
      * injection D as <-. exists sent. cbn. rewrite EP. cbn. rewrite ?app_nil_r in *. auto.
      * injection D as <-. exists sent. cbn. rewrite EP. cbn. rewrite ?app_nil_r in *. auto.
  - destruct (r_prod s); try discriminate. injection D as <-. exists sent. cbn. rewrite ?app_nil_r in *. auto.
  - destruct (r_cons s); try discriminate. injection D as <-. exists sent. cbn. rewrite ?app_nil_r in *. auto.
  - destruct (r_cons s); try discriminate. destruct (r_chan s); try discriminate. injection D as <-. exists sent. cbn. cbn in F, C. rewrite ?app_nil_r in *. auto.
  - destruct (r_cons s); try discriminate. injection D as <-. exists sent. cbn. cbn in F, C. rewrite ?app_nil_r, <- ?app_assoc in *. auto.
  - destruct (r_cons s); try discriminate. destruct (r_stop s); [|discriminate]. injection D as <-. exists sent. cbn. rewrite ?app_nil_r in *. auto.
  - destruct (r_shut s); try discriminate. injection D as <-. exists sent. cbn. rewrite ?app_nil_r in *. auto.
  - destruct (r_shut s); try discriminate. destruct (_ =? _); [|discriminate]. injection D as <-. exists sent. cbn. rewrite ?app_nil_r in *. auto.
Qed.

(** ** Shutdown *)
Definition runP (p : ppc) : Z := match p with PNew | PEnd => 0 | _ => 1 end.
Definition runC (c : cpc) : Z := match c with CNew | CEnd => 0 | _ => 1 end.
Definition ctlInv (cap : Z) (s : rst) : Prop :=
  r_wg s = runP (r_prod s) + runC (r_cons s) /\ (r_shut s = SNo -> r_stop s = false) /\ (r_shut s <> SNo -> r_stop s = true) /\
  zlen (r_chan s) <= cap /\ zlen (unsent s) <= 1000.

Ltac rstep D s :=
  unfold rdo in D; destruct (r_crash s) eqn:ECR; [discriminate D|].

Lemma ctl_init cap : 0 <= cap -> ctlInv cap rinit.
Proof. intros H. unfold ctlInv, rinit, unsent, zlen. cbn. repeat split; intros; try congruence; lia. Qed.

Ltac zl := unfold zlen in *; cbn [runP runC] in *; cbn [List.length] in *; lia.
Lemma ctl_step cap l s s' : 0 <= cap -> ctlInv cap s -> rdo cap l s = Some s' -> ctlInv cap s'.
Proof.
  intros HC (W & N1 & N2 & B & U) D. unfold ctlInv, unsent in *. unfold rdo in D. destruct (r_crash s); [discriminate|]. destruct l.
  - destruct (r_prod s); try discriminate. injection D as <-. cbn -[Z.add Z.mul] in *. repeat split; auto; zl.
  - destruct (r_prod s); try discriminate. injection D as <-. destruct (r_stop s) eqn:ES; cbn -[Z.add Z.mul] in *; rewrite ?ES in *; repeat split; auto; zl.
  - destruct (r_prod s); try discriminate. destruct (Z.leb_spec (zlen batch) 1000); [|discriminate]. injection D as <-. cbn -[Z.add Z.mul] in *. repeat split; auto; zl.
  - destruct (r_prod s) as [| | |[|c rest]| |] eqn:EP; try discriminate.
    + injection D as <-. cbn -[Z.add Z.mul] in *. repeat split; auto; zl.
    + destruct (convertEvent c) as [e| |].
      * destruct (Z.ltb_spec (zlen (r_chan s)) cap); [|discriminate]. injection D as <-. cbn -[Z.add Z.mul] in *. unfold zlen in *. rewrite app_length. cbn [List.length] in *. repeat split; auto; zl.
      * injection D as <-. cbn -[Z.add Z.mul] in *. rewrite EP. cbn -[Z.add Z.mul] in *. repeat split; auto; zl.
      * injection D as <-. cbn -[Z.add Z.mul] in *. rewrite EP. cbn -[Z.add Z.mul] in *. repeat split; auto; zl.
  - destruct (r_prod s); try discriminate. injection D as <-. cbn -[Z.add Z.mul] in *. repeat split; auto; zl.
  - destruct (r_cons s); try discriminate. injection D as <-. cbn -[Z.add Z.mul] in *. repeat split; auto; zl.
  - destruct (r_cons s); try discriminate. destruct (r_chan s); try discriminate. injection D as <-. cbn -[Z.add Z.mul] in *. unfold zlen in *. cbn [List.length] in *. repeat split; auto; zl.
  - destruct (r_cons s); try discriminate. injection D as <-. cbn -[Z.add Z.mul] in *. repeat split; auto; zl.
  - destruct (r_cons s); try discriminate. destruct (r_stop s) eqn:ES; [|discriminate]. injection D as <-. cbn -[Z.add Z.mul] in *. rewrite ?ES in *. repeat split; auto; zl.
  - destruct (r_shut s); try discriminate. injection D as <-. cbn -[Z.add Z.mul] in *. repeat split; auto; try congruence; zl.
  - destruct (r_shut s); try discriminate. destruct (_ =? _); [|discriminate]. injection D as <-. cbn -[Z.add Z.mul] in *. repeat split; auto; try congruence; try zl. intros _. apply N2. discriminate.
Qed.

Lemma rrun_inv cap (P : rst -> Prop) : (forall l s s', P s -> rdo cap l s = Some s' -> P s') ->
  forall ls s s', P s -> rrun cap ls s = Some s' -> P s'.
Proof.
  intros ST ls. induction ls as [|l ls IH]; intros s s' H R; cbn [rrun] in R; [injection R as <-; exact H|].
  destruct (rdo cap l s) as [s1|] eqn:D; [|discriminate]. exact (IH s1 s' (ST l s s1 H D) R).
Qed.
Lemma ctl_run cap ls s : 0 <= cap -> rrun cap ls rinit = Some s -> ctlInv cap s.
Proof. intros H. apply (rrun_inv cap (ctlInv cap)); [intros l a b; apply ctl_step; exact H|apply ctl_init; exact H]. Qed.

Lemma started_step cap l s s' : started s -> rdo cap l s = Some s' -> started s'.
Proof.
  intros (P & C) D. unfold started in *. unfold rdo in D. destruct (r_crash s); [discriminate|]. destruct l;
    repeat match type of D with context [match ?x with _ => _ end] => destruct x eqn:?; try discriminate end; try discriminate; injection D as <-; cbn -[Z.add Z.mul] in *; split; congruence.
Qed.

(** Once Shutdown has returned while both loops were started before it was called, nothing moves. *)
Definition retInv (cap : Z) (s : rst) : Prop := ctlInv cap s /\ started s /\ (r_shut s = SRet -> r_prod s = PEnd /\ r_cons s = CEnd).
Lemma ret_step cap l s s' : 0 <= cap -> retInv cap s -> rdo cap l s = Some s' -> retInv cap s'.
Proof.
  intros HC (CI & ST & R) D. pose proof (ctl_step _ _ _ _ HC CI D) as CI'. pose proof (started_step _ _ _ _ ST D) as ST'.
  split; [exact CI'|]. split; [exact ST'|]. intros E. destruct CI' as (W & _). destruct ST' as (SP & SC).
  destruct (r_shut s) eqn:ES.
  - exfalso. unfold rdo in D. destruct (r_crash s); [discriminate|]. rewrite ES in D. destruct l;
    repeat match type of D with context [match ?x with _ => _ end] => destruct x eqn:?; try discriminate end; try discriminate; injection D as <-; cbn -[Z.add Z.mul] in *; congruence.
  - unfold rdo in D. destruct (r_crash s); [discriminate|]. rewrite ES in D. destruct l;
    try (exfalso; repeat match type of D with context [match ?x with _ => _ end] => destruct x eqn:?; try discriminate end; try discriminate; injection D as <-; cbn -[Z.add Z.mul] in *; congruence).
    destruct (Z.eqb_spec (r_wg s) 0) as [Z0|Z0]; [|discriminate]. injection D as <-. cbn -[Z.add Z.mul] in *. rewrite Z0 in W.
    destruct (r_prod s), (r_cons s); cbn -[Z.add] in W; try lia; try congruence; split; reflexivity.
  - destruct (R eq_refl) as (EP & EC). exfalso. unfold rdo in D. destruct (r_crash s); [discriminate|]. rewrite ES, EP, EC in D.
    destruct l; discriminate.
Qed.
Lemma ret_still cap l s : retInv cap s -> r_shut s = SRet -> rdo cap l s = None.
Proof.
  intros (_ & _ & R) E. destruct (R E) as (EP & EC). unfold rdo. rewrite E, EP, EC. destruct (r_crash s); [reflexivity|]. destruct l; reflexivity.
Qed.

(** Steps left. *)
Definition muP (p : ppc) : Z :=
  match p with PNew => 2 | PTop => 1 | PPoll => 4003 | PLoop rest => 4 * zlen rest + 2 | PCount _ rest => 4 * zlen rest + 3 | PEnd => 0 end.
Definition muC (c : cpc) : Z := match c with CNew => 2 | CTop => 1 | CHand _ => 2 | CEnd => 0 end.
Definition mu (s : rst) : Z :=
  muP (r_prod s) + muC (r_cons s) + 2 * zlen (r_chan s) + (match r_shut s with SNo => 2 | SWait => 1 | SRet => 0 end) + (if r_crash s then 0 else 1).
Lemma zlen_pos {A} (l : list A) : 0 <= zlen l.
Proof. unfold zlen. lia. Qed.
Lemma mu_pos s : 0 <= mu s.
Proof. unfold mu, muP, muC. pose proof (zlen_pos (r_chan s)). destruct (r_prod s) as [| | |r|e r|], (r_cons s), (r_shut s), (r_crash s); try pose proof (zlen_pos r); lia. Qed.
Lemma mu_step cap l s s' : r_stop s = true -> rdo cap l s = Some s' -> r_stop s' = true /\ mu s' < mu s.
Proof.
  intros ES D. unfold mu. unfold rdo in D. destruct (r_crash s) eqn:ECR; [discriminate|]. destruct l.
  - destruct (r_prod s); try discriminate. injection D as <-. cbn -[Z.mul Z.add]. rewrite ?ECR. split; [exact ES|]. lia.
  - destruct (r_prod s); try discriminate. rewrite ES in D. injection D as <-. cbn -[Z.mul Z.add]. rewrite ?ECR. split; [exact ES|]. lia.
  - destruct (r_prod s); try discriminate. destruct (Z.leb_spec (zlen batch) 1000); [|discriminate]. injection D as <-. cbn -[Z.mul Z.add]. rewrite ?ECR. split; [exact ES|]. lia.
  - destruct (r_prod s) as [| | |[|c rest]| |] eqn:EP; try discriminate.
    + injection D as <-. cbn -[Z.mul Z.add]. rewrite ?ECR. split; [exact ES|]. unfold zlen. cbn [List.length]. lia.
    + destruct (convertEvent c) as [e| |].
      * destruct (_ <? _); [|discriminate]. injection D as <-. cbn -[Z.mul Z.add]. rewrite ?ECR. split; [exact ES|]. unfold zlen. rewrite app_length. cbn [List.length]. lia.
      * injection D as <-. cbn -[Z.mul Z.add]. rewrite EP. cbn -[Z.mul Z.add]. split; [exact ES|]. lia.
      * injection D as <-. cbn -[Z.mul Z.add]. rewrite EP. cbn -[Z.mul Z.add]. split; [exact ES|]. lia.
  - destruct (r_prod s); try discriminate. injection D as <-. cbn -[Z.mul Z.add]. rewrite ?ECR. split; [exact ES|]. lia.
  - destruct (r_cons s); try discriminate. injection D as <-. cbn -[Z.mul Z.add]. rewrite ?ECR. split; [exact ES|]. lia.
  - destruct (r_cons s); try discriminate. destruct (r_chan s); try discriminate. injection D as <-. cbn -[Z.mul Z.add]. rewrite ?ECR. split; [exact ES|]. unfold zlen. cbn [List.length]. lia.
  - destruct (r_cons s); try discriminate. injection D as <-. cbn -[Z.mul Z.add]. rewrite ?ECR. split; [exact ES|]. lia.
  - destruct (r_cons s); try discriminate. rewrite ES in D. injection D as <-. cbn -[Z.mul Z.add]. rewrite ?ECR. split; [exact ES|]. lia.
  - destruct (r_shut s); try discriminate. injection D as <-. cbn -[Z.mul Z.add]. rewrite ?ECR. split; [reflexivity|]. lia.
  - destruct (r_shut s); try discriminate. destruct (_ =? _); [|discriminate]. injection D as <-. cbn -[Z.mul Z.add]. rewrite ?ECR. split; [exact ES|]. lia.
Qed.
Lemma mu_run cap ls s s' : r_stop s = true -> rrun cap ls s = Some s' -> zlen ls + mu s' <= mu s.
Proof.
  revert s. induction ls as [|l ls IH]; intros s ES R; cbn [rrun] in R; [injection R as <-; unfold zlen; cbn [List.length]; lia|].
  destruct (rdo cap l s) as [s1|] eqn:D; [|discriminate]. destruct (mu_step _ _ _ _ ES D) as (ES1 & L). specialize (IH s1 ES1 R).
  unfold zlen in *. cbn [List.length]. lia.
Qed.
Lemma mu_bound cap s : ctlInv cap s -> r_shut s <> SNo -> mu s <= 4010 + 2 * cap.
Proof.
  intros (W & _ & _ & B & U) N. unfold mu, muP, muC, unsent in *. destruct (r_prod s) as [| | |r|e r|], (r_cons s), (r_shut s), (r_crash s); try lia; congruence.
Qed.

(** Where the goroutines come to rest after Shutdown was called. *)
Lemma rest_cases cap s : ctlInv cap s -> started s -> r_shut s <> SNo -> stuck cap s ->
  r_crash s = true \/ r_shut s = SRet \/
  (r_cons s = CEnd /\ exists c rest, r_prod s = PLoop (c :: rest) /\ cap <= zlen (r_chan s)).
Proof.
  intros (W & N1 & N2 & B & U) (SP & SC) NS K. specialize (N2 NS). destruct (r_crash s) eqn:ECR; [left; reflexivity|]. right.
  destruct (r_shut s) eqn:ESH; [congruence| |left; reflexivity].
  assert (EC : r_cons s = CEnd).
  { destruct (r_cons s) as [| |e|] eqn:EC; [congruence| | |reflexivity].
    - specialize (K LConsStop). unfold rdo in K. rewrite ECR, EC, N2 in K. discriminate.
    - specialize (K LDeliver). unfold rdo in K. rewrite ECR, EC in K. discriminate. }
  destruct (r_prod s) as [| | |[|c rest]|e rest|] eqn:EP.
  - congruence.
  - specialize (K LProdTop). unfold rdo in K. rewrite ECR, EP in K. discriminate.
  - specialize (K (LPoll [])). unfold rdo in K. rewrite ECR, EP in K. discriminate.
  - specialize (K LSend). unfold rdo in K. rewrite ECR, EP in K. discriminate.
  - right. split; [exact EC|]. exists c, rest. split; [reflexivity|]. specialize (K LSend). unfold rdo in K. rewrite ECR, EP in K.
    destruct (convertEvent c); try discriminate. destruct (Z.ltb_spec (zlen (r_chan s)) cap); [discriminate|]. lia.
  - specialize (K LCount). unfold rdo in K. rewrite ECR, EP in K. discriminate.
  - exfalso. specialize (K LReturn). unfold rdo in K. rewrite ECR, ESH in K. rewrite EC in W. cbn in W. rewrite W in K. discriminate.
Qed.

(** Room in the channel for a whole batch. *)
Definition room (cap : Z) (s : rst) : Prop := r_stop s = true /\ zlen (r_chan s) + (match r_prod s with PPoll => 1000 | PLoop r | PCount _ r => zlen r | _ => 0 end) <= cap.
Lemma room_step cap l s s' : room cap s -> rdo cap l s = Some s' -> room cap s'.
Proof.
  intros (ES & R) D. unfold room. unfold rdo in D. destruct (r_crash s) eqn:ECR; [discriminate|]. destruct l.
  - destruct (r_prod s); try discriminate. injection D as <-. cbn -[Z.add Z.mul] in *. split; [exact ES|]. lia.
  - destruct (r_prod s); try discriminate. rewrite ES in D. injection D as <-. cbn -[Z.add Z.mul] in *. split; [exact ES|]. lia.
  - destruct (r_prod s); try discriminate. destruct (Z.leb_spec (zlen batch) 1000); [|discriminate]. injection D as <-. cbn -[Z.add Z.mul] in *. split; [exact ES|]. lia.
  - destruct (r_prod s) as [| | |[|c rest]| |] eqn:EP; try discriminate.
    + injection D as <-. cbn -[Z.add Z.mul] in *. split; [exact ES|]. unfold zlen in *. cbn [List.length] in *. lia.
    + destruct (convertEvent c) as [e| |].
      * destruct (_ <? _); [|discriminate]. injection D as <-. cbn -[Z.add Z.mul] in *. split; [exact ES|]. unfold zlen in *. rewrite app_length. cbn [List.length] in *. lia.
      * injection D as <-. split; [exact ES|]. cbn [crash r_chan r_prod]. rewrite EP. exact R.
      * injection D as <-. split; [exact ES|]. cbn [crash r_chan r_prod]. rewrite EP. exact R.
  - destruct (r_prod s); try discriminate. injection D as <-. cbn -[Z.add Z.mul] in *. split; [exact ES|]. lia.
  - destruct (r_cons s); try discriminate. injection D as <-. cbn -[Z.add Z.mul] in *. split; [exact ES|]. lia.
  - destruct (r_cons s); try discriminate. destruct (r_chan s); try discriminate. injection D as <-. cbn -[Z.add Z.mul] in *. split; [exact ES|]. unfold zlen in *. cbn [List.length] in *. lia.
  - destruct (r_cons s); try discriminate. injection D as <-. cbn -[Z.add Z.mul] in *. split; [exact ES|]. lia.
  - destruct (r_cons s); try discriminate. rewrite ES in D. injection D as <-. cbn -[Z.add Z.mul] in *. split; [exact ES|]. lia.
  - destruct (r_shut s); try discriminate. injection D as <-. cbn -[Z.add Z.mul] in *. split; [reflexivity|]. lia.
  - destruct (r_shut s); try discriminate. destruct (_ =? _); [|discriminate]. injection D as <-. cbn -[Z.add Z.mul] in *. split; [exact ES|]. lia.
Qed.

(** Filling the channel. *)
Definition fillOne (c : cevent) : list rlabel := [LProdTop; LPoll [c]; LSend; LCount; LSend].
Definition filled (e : kevent) (n : nat) : rst :=
  {| r_prod := PTop; r_cons := CTop; r_shut := SNo; r_chan := repeat e n; r_stop := false; r_wg := 2; r_out := []; r_counted := repeat (k_name e) n; r_crash := false |}.
Lemma repeat_snoc {A} (x : A) n : repeat x n ++ [x] = repeat x (Datatypes.S n).
Proof. induction n as [|n IH]; [reflexivity|]. cbn [repeat app]. rewrite IH. reflexivity. Qed.
Lemma fill cap c e n : convertEvent c = Ok e -> Z.of_nat n <= cap ->
  rrun cap ([LProdStart; LConsStart] ++ List.concat (repeat (fillOne c) n)) rinit = Some (filled e n).
Proof.
  intros EC. induction n as [|n IH]; intros H; [reflexivity|].
  rewrite <- (repeat_snoc (fillOne c) n), concat_app, app_assoc, rrun_app. rewrite IH by lia.
  unfold fillOne. cbn [List.concat app]. unfold filled.
  cbn [rrun rdo r_crash r_prod r_stop setProd].
  change (zlen [c] <=? 1000) with true. cbn iota. cbn [rrun rdo r_crash r_prod r_stop setProd r_chan]. rewrite EC.
  replace (zlen (repeat e n) <? cap) with true by (symmetry; apply Z.ltb_lt; unfold zlen; rewrite repeat_length; lia).
  cbn [rrun rdo r_crash r_prod r_stop setProd setChan r_chan count r_cons r_shut r_wg r_out r_counted].
  unfold setProd, count, setChan. cbn [r_prod r_cons r_shut r_chan r_stop r_wg r_out r_counted r_crash]. rewrite !repeat_snoc. reflexivity.
Qed.
