(** C09 (user attributes), C10 (dotted addresses), C11 (sendmmsg), C54 (request or response). *)
From Verif Require Import Base Decimal EventModel.
Open Scope string_scope. Open Scope list_scope. Open Scope Z_scope.

(** ** C09: user attributes *)
(** The attributes in use: the first ParamsNumber of the slots. *)
Definition inUse (e : event) : list keyvalue := firstn (Z.to_nat (e_params e)) (e_attrs e).
Definition isFirst (l : list keyvalue) (key : string) (kv : keyvalue) : Prop :=
  exists a b, l = a ++ kv :: b /\ kv_key kv = key /\ forall x, In x a -> kv_key x <> key.

Lemma findAttr_firstn n : forall l k, findAttr n l k = findAttr (List.length (firstn n l)) (firstn n l) k.
Proof. induction n as [|n IH]; intros [|kv l] k; cbn [firstn List.length findAttr]; try reflexivity. destruct (eqb (kv_key kv) k); [reflexivity|apply IH]. Qed.
Lemma find_all_some l k kv : findAttr (List.length l) l k = Some kv <-> isFirst l k kv.
Proof.
  unfold isFirst. induction l as [|x l IH]; cbn [List.length findAttr].
  - split; [discriminate|]. intros ([|y a] & b & E & _); discriminate.
  - case_eqb (kv_key x) k.
    + split.
      * intros X; inversion X; subst. exists [], l. split; [reflexivity|]. split; [reflexivity|]. intros y [].
      * intros ([|y a] & b & Q & K & N); inversion Q; subst; [reflexivity|]. exfalso. apply (N y (or_introl eq_refl)). reflexivity.
    + rewrite IH. split.
      * intros (a & b & -> & K & N). exists (x :: a), b. split; [reflexivity|]. split; [exact K|]. intros y [<-|I]; [exact E|apply N; exact I].
      * intros ([|y a] & b & Q & K & N); inversion Q; subst; [congruence|]. exists a, b. split; [reflexivity|]. split; [reflexivity|].
        intros z I. apply N. right. exact I.
Qed.
Lemma find_all_none l k : findAttr (List.length l) l k = None <-> forall x, In x l -> kv_key x <> k.
Proof.
  induction l as [|x l IH]; cbn [List.length findAttr].
  - split; [intros _ x []|reflexivity].
  - case_eqb (kv_key x) k.
    + split; [discriminate|]. intros N. exfalso. apply (N x (or_introl eq_refl)). exact E.
    + rewrite IH. split; [intros N y [<-|I]; [exact E|apply N; exact I]|]. intros N y I. apply N. right. exact I.
Qed.
Lemma get_inUse e k : 0 <= e_params e -> getUserAttribute e k = findAttr (List.length (inUse e)) (inUse e) k.
Proof.
  intros P. unfold getUserAttribute, inUse. destruct (Z.eqb_spec (e_params e) 0) as [E|E].
  - rewrite E. reflexivity.
  - rewrite <- findAttr_firstn. reflexivity.
Qed.

(** Looking up an attribute finds the first one in use with that name, and nothing when there is none. *)
Theorem C09_lookup_is_first : forall e k, 0 <= e_params e ->
  (forall kv, getUserAttribute e k = Some kv <-> isFirst (inUse e) k kv) /\
  (getUserAttribute e k = None <-> forall kv, In kv (inUse e) -> kv_key kv <> k).
Proof. intros e k P. rewrite (get_inUse e k P). split; [intros kv; apply find_all_some|apply find_all_none]. Qed.
Print Assumptions C09_lookup_is_first.

Lemma setAttr_cons n kv l k v : setAttr (S n) (kv :: l) k v =
  if eqb (kv_key kv) k then {| kv_key := kv_key kv; kv_type := kv_type kv; kv_val := v |} :: l else kv :: setAttr n l k v.
Proof. reflexivity. Qed.
Lemma setAttr_get n : forall l k v k', findAttr n (setAttr n l k v) k' =
  if eqb k' k then option_map (fun kv => {| kv_key := kv_key kv; kv_type := kv_type kv; kv_val := v |}) (findAttr n l k')
  else findAttr n l k'.
Proof.
  induction n as [|n IH]; intros [|kv l] k v k'; try (cbn [setAttr findAttr option_map]; destruct (eqb k' k); reflexivity).
  rewrite setAttr_cons. case_eqb (kv_key kv) k.
  - cbn [findAttr kv_key]. rewrite <- E. case_eqb (kv_key kv) k'; [rewrite <- E0, eqb_refl; reflexivity|].
    rewrite (proj2 (eqb_neq k' (kv_key kv))) by congruence. reflexivity.
  - cbn [findAttr]. rewrite IH. case_eqb (kv_key kv) k'; [|reflexivity]. rewrite <- E0.
    rewrite (proj2 (eqb_neq (kv_key kv) k)) by congruence. reflexivity.
Qed.
Lemma setAttr_rest n : forall l k v, List.length (setAttr n l k v) = List.length l /\ skipn n (setAttr n l k v) = skipn n l /\
  map kv_key (setAttr n l k v) = map kv_key l /\ map kv_type (setAttr n l k v) = map kv_type l.
Proof.
  induction n as [|n IH]; intros [|kv l] k v; cbn [setAttr]; try (repeat split; reflexivity).
  destruct (eqb (kv_key kv) k); cbn [List.length skipn map kv_key kv_type]; [repeat split; reflexivity|].
  destruct (IH l k v) as (A & B & C & D). rewrite A, B, C, D. repeat split; reflexivity.
Qed.

(** Setting an attribute gives it the new value, keeps its type, and changes no other attribute; an attribute the event
    does not have is not added, and slots not in use are untouched. *)
Theorem C09_set_then_get : forall e k v,
  (forall k', getUserAttribute (setUserAttribute e k v) k' =
     if eqb k' k then option_map (fun kv => {| kv_key := kv_key kv; kv_type := kv_type kv; kv_val := v |}) (getUserAttribute e k')
     else getUserAttribute e k') /\
  (exists l, setUserAttribute e k v = withAttrs e l /\ List.length l = List.length (e_attrs e) /\
     map kv_key l = map kv_key (e_attrs e) /\ map kv_type l = map kv_type (e_attrs e) /\
     skipn (Z.to_nat (e_params e)) l = skipn (Z.to_nat (e_params e)) (e_attrs e)).
Proof.
  intros e k v. split.
  - intros k'. unfold getUserAttribute, setUserAttribute.
    destruct (e_params e =? 0) eqn:E; [rewrite E; destruct (eqb k' k); reflexivity|].
    cbn [withAttrs e_params e_attrs]. rewrite E. apply setAttr_get.
  - unfold setUserAttribute. destruct (e_params e =? 0) eqn:E.
    + exists (e_attrs e). split; [destruct e; reflexivity|]. repeat split; reflexivity.
    + eexists. split; [reflexivity|]. destruct (setAttr_rest (Z.to_nat (e_params e)) (e_attrs e) k v) as (A & B & C & D). auto.
Qed.
Print Assumptions C09_set_then_get.

Lemma le_roundtrip n : forall v rest, 0 <= v < 256 ^ Z.of_nat n -> leValue n (leBytes n v ++ rest) = Ok v.
Proof.
  induction n as [|n IH]; intros v rest V.
  - cbn in *. f_equal. lia.
  - cbn [leBytes app leValue]. rewrite IH.
    + cbn [bind]. f_equal. pose proof (Z.div_mod v 256). lia.
    + rewrite Nat2Z.inj_succ, Z.pow_succ_r in V by lia. split; [apply Z.div_pos; lia|]. apply Z.div_lt_upper_bound; lia.
Qed.
Definition width (t : vtype) : nat :=
  match t with TInt8 | TUint8 => 1 | TInt16 | TUint16 => 2 | TInt32 | TUint32 => 4 | TInt64 | TUint64 => 8 | _ => 0 end%nat.
Definition unsigned (t : vtype) : Prop := In t [TUint8; TUint16; TUint32; TUint64].
Definition signed (t : vtype) : Prop := In t [TInt8; TInt16; TInt32; TInt64].

Lemma leBytes_mod n : forall v, leBytes n (v mod 256 ^ Z.of_nat n) = leBytes n v.
Proof.
  induction n as [|n IH]; intros v; [reflexivity|]. cbn [leBytes].
  rewrite Nat2Z.inj_succ, Z.pow_succ_r by lia. set (B := 256 ^ Z.of_nat n).
  assert (0 < B) by (apply Z.pow_pos_nonneg; lia).
  rewrite Z.rem_mul_r by lia. pose proof (Z.mod_pos_bound v 256).
  replace ((v mod 256 + 256 * ((v / 256) mod B)) / 256) with ((v / 256) mod B) by (apply (Z.div_unique _ _ _ (v mod 256)); lia).
  replace ((v mod 256 + 256 * ((v / 256) mod B)) mod 256) with (v mod 256) by (apply (Z.mod_unique _ _ ((v / 256) mod B)); lia).
  rewrite IH. reflexivity.
Qed.

(** An integer attribute reads as the number it was encoded from, for every width and sign, and whatever follows. *)
Theorem C09_integers_decode : forall t v rest,
  (unsigned t -> 0 <= v < 256 ^ Z.of_nat (width t) ->
     getUintValue {| kv_key := ""; kv_type := t; kv_val := leBytes (width t) v ++ rest |} = Ok v) /\
  (signed t -> - (256 ^ Z.of_nat (width t)) <= 2 * v < 256 ^ Z.of_nat (width t) ->
     getIntValue {| kv_key := ""; kv_type := t; kv_val := leBytes (width t) v ++ rest |} = Ok v).
Proof.
  intros t v rest. split.
  - intros U V. unfold unsigned in U. cbn in U.
    destruct U as [<-|[<-|[<-|[<-|[]]]]]; unfold getUintValue; cbn [kv_type kv_val width] in *; rewrite le_roundtrip by exact V; reflexivity.
  - intros U V. unfold signed in U. cbn in U.
    destruct U as [<-|[<-|[<-|[<-|[]]]]]; unfold getIntValue; cbn [kv_type kv_val width] in *; rewrite <- leBytes_mod;
      rewrite le_roundtrip by (apply Z.mod_pos_bound; reflexivity); cbn [bind]; f_equal;
      unfold s8, s16, s32, s64; change (256 ^ Z.of_nat _) with (2 ^ 8) in * || change (256 ^ Z.of_nat _) with (2 ^ 16) in *
        || change (256 ^ Z.of_nat _) with (2 ^ 32) in * || change (256 ^ Z.of_nat _) with (2 ^ 64) in *;
      rewrite Zplus_mod_idemp_l; rewrite Z.mod_small; lia.
Qed.
Print Assumptions C09_integers_decode.

Lemma leValue_short n : forall b, (List.length b < n)%nat -> leValue n b = Panic.
Proof. induction n as [|n IH]; intros [|x b] L; cbn in *; try lia; [reflexivity|]. rewrite IH by lia. reflexivity. Qed.
Lemma leValue_long n : forall b, (n <= List.length b)%nat -> exists v, leValue n b = Ok v.
Proof. induction n as [|n IH]; intros [|x b] L; cbn in *; try lia; [eauto|eauto|]. destruct (IH b) as (v & ->); [lia|]. cbn. eauto. Qed.

(** Finding: a value with fewer bytes than its declared type makes the reader panic; that is the only way it can. *)
Theorem C09_short_value_panics_refuted : 
  (forall kv, (getUintValue kv = Panic <-> unsigned (kv_type kv) /\ (List.length (kv_val kv) < width (kv_type kv))%nat) /\
              (getIntValue kv = Panic <-> signed (kv_type kv) /\ (List.length (kv_val kv) < width (kv_type kv))%nat)) /\
  exists e k, getUintUserAttribute e k = Panic.
Proof.
  split.
  - intros [k t b]. unfold getUintValue, getIntValue, unsigned, signed. cbn [kv_type kv_val].
    destruct t; cbn [width]; (split; split; [intros P|intros [U L]|intros P|intros [U L]]);
      try discriminate P;
      try (exfalso; cbn in U; intuition discriminate);
      try (rewrite leValue_short by exact L; reflexivity);
      (split; [cbn; tauto|]);
      match goal with |- (_ < ?n)%nat => destruct (Nat.lt_ge_cases (List.length b) n) as [L|L]; [exact L|] end;
      apply leValue_long in L; destruct L as (v & L); rewrite L in P; discriminate P.
  - exists {| e_name := "x"; e_ts := 0; e_lat := 0; e_net := true; e_params := 1; e_attrs := [{| kv_key := "rtt"; kv_type := TUint32; kv_val := [1; 2] |}];
      e_pid := 0; e_tid := 0; e_comm := ""; e_cid := ""; e_fd := 0; e_proto := L4Tcp; e_role := true; e_sip := []; e_dip := []; e_sport := 0; e_dport := 0 |}, "rtt".
    reflexivity.
Qed.
Print Assumptions C09_short_value_panics_refuted.

(** ** C10 *)
Lemma digits_no_dot n : 0 <= n -> ~ In DOT (digits n).
Proof. intros N I. pose proof (digits_all n N) as D. rewrite forallb_forall in D. specialize (D _ I). vm_compute in D. discriminate. Qed.
Lemma split_dot a b r s : ~ In DOT a -> ~ In DOT b -> a ++ DOT :: r = b ++ DOT :: s -> a = b /\ r = s.
Proof.
  revert b. induction a as [|x a IH]; intros [|y b] A B E; cbn in *.
  - inversion E. auto.
  - inversion E; subst. exfalso. apply B. left. reflexivity.
  - inversion E; subst. exfalso. apply A. left. reflexivity.
  - inversion E; subst. destruct (IH b) as [-> ->]; auto.
Qed.

(** The text of an address is its four bytes in decimal, lowest byte first (the kernel hands over network order). *)
Theorem C10_text_of_bytes : forall a b c d, is_byte a -> is_byte b -> is_byte c -> is_byte d ->
  ipLong2String (a + 2 ^ 8 * b + 2 ^ 16 * c + 2 ^ 24 * d) =
    formatInt a ++ bs "." ++ formatInt b ++ bs "." ++ formatInt c ++ bs "." ++ formatInt d.
Proof.
  intros a b c d A B C D. unfold is_byte in *. unfold ipLong2String, formatInt.
  replace ((a + 2 ^ 8 * b + 2 ^ 16 * c + 2 ^ 24 * d) mod 256) with a
    by (replace (a + 2 ^ 8 * b + 2 ^ 16 * c + 2 ^ 24 * d) with (a + (b + 2 ^ 8 * c + 2 ^ 16 * d) * 256) by lia; rewrite Z.mod_add, Z.mod_small; lia).
  replace ((a + 2 ^ 8 * b + 2 ^ 16 * c + 2 ^ 24 * d) / 2 ^ 8) with (b + (c + 2 ^ 8 * d) * 256)
    by (apply Z.div_unique with a; lia).
  replace ((a + 2 ^ 8 * b + 2 ^ 16 * c + 2 ^ 24 * d) / 2 ^ 16) with (c + d * 256)
    by (apply Z.div_unique with (a + 2 ^ 8 * b); lia).
  replace ((a + 2 ^ 8 * b + 2 ^ 16 * c + 2 ^ 24 * d) / 2 ^ 24) with d
    by (apply Z.div_unique with (a + 2 ^ 8 * b + 2 ^ 16 * c); lia).
  rewrite !Z.mod_add by lia. rewrite !Z.mod_small by lia.
  replace (a <? 0) with false by lia. replace (b <? 0) with false by lia. replace (c <? 0) with false by lia. replace (d <? 0) with false by lia.
  reflexivity.
Qed.
Print Assumptions C10_text_of_bytes.

(** Different 32-bit addresses have different texts. *)
Theorem C10_text_determines_address : forall i j, 0 <= i < 2 ^ 32 -> 0 <= j < 2 ^ 32 -> ipLong2String i = ipLong2String j -> i = j.
Proof.
  intros i j I J E. unfold ipLong2String in E.
  apply split_dot in E; try (apply digits_no_dot; apply Z.mod_pos_bound; lia). destruct E as [E1 E].
  apply split_dot in E; try (apply digits_no_dot; apply Z.mod_pos_bound; lia). destruct E as [E2 E].
  apply split_dot in E; try (apply digits_no_dot; apply Z.mod_pos_bound; lia). destruct E as [E3 E4].
  apply digits_inj in E1, E2, E3, E4; try (apply Z.mod_pos_bound; lia).
  assert (D : forall x, 0 <= x < 2 ^ 32 -> x = x mod 256 + 2 ^ 8 * (x / 2 ^ 8 mod 256) + 2 ^ 16 * (x / 2 ^ 16 mod 256) + 2 ^ 24 * (x / 2 ^ 24 mod 256)).
  { intros x X. assert (H1 : x / 2 ^ 16 = x / 2 ^ 8 / 256) by (rewrite Z.div_div by lia; reflexivity).
    assert (H2 : x / 2 ^ 24 = x / 2 ^ 16 / 256) by (rewrite Z.div_div by lia; reflexivity).
    assert (H3 : x / 2 ^ 24 mod 256 = x / 2 ^ 24) by (apply Z.mod_small; split; [apply Z.div_pos; lia|apply Z.div_lt_upper_bound; lia]).
    pose proof (Z.div_mod x 256). pose proof (Z.div_mod (x / 2 ^ 8) 256). pose proof (Z.div_mod (x / 2 ^ 16) 256).
    change (2 ^ 8) with 256 in *. lia. }
  rewrite (D i I), (D j J), E1, E2, E3, E4. reflexivity.
Qed.
Print Assumptions C10_text_determines_address.
Example C10_text_example : ipLong2String 16777343 = bs "127.0.0.1".
Proof. vm_compute. reflexivity. Qed.

(** ** C11: sendmmsg *)
(** The packed data the kernel probe delivers: each message after its length (32 bits). *)
Definition pack (msgs : list bytes) : bytes := flat_map (fun m => leBytes 4 (zlen m) ++ m) msgs.
(** The messages that can be recovered from packed data cut short: whole messages, then a non-empty part of the next. *)
Inductive truncated : list bytes -> list bytes -> Prop :=
| trunc_end : forall l, truncated [] l
| trunc_cut : forall p m l, p <> [] -> is_prefix p m -> truncated [p] (m :: l)
| trunc_whole : forall m f l, truncated f l -> truncated (m :: f) (m :: l).

Lemma leBytes_length n v : List.length (leBytes n v) = n.
Proof. revert v. induction n as [|n IH]; intros v; cbn; [reflexivity|]. rewrite IH. reflexivity. Qed.

Lemma split_step f d size : 4 < zlen d -> leValue 4 d = Ok size -> 0 <= size ->
  splitLoop f d = match f with
                  | O => None
                  | S f' => match splitLoop f' (skipn (Z.to_nat (4 + size)) d) with
                            | Some (Ok r) => Some (Ok (firstn (Z.to_nat size) (skipn 4 d) :: r))
                            | x => x
                            end
                  end.
Proof.
  intros L V P. destruct d as [|d0 d']; [cbn in L; lia|]. set (d := d0 :: d') in *. 
  assert (U : splitLoop f d = if zlen d <=? 4 then Some (Ok []) else
        match bind (gslice d 0 4) (leValue 4) with
        | Panic => Some Panic
        | Err => Some Err
        | Ok size =>
            match (if 4 + size <? zlen d then gslice d 4 (4 + size) else gslice d 4 (zlen d)) with
            | Panic => Some Panic
            | Err => Some Err
            | Ok c =>
                match f with
                | O => None
                | S f => match splitLoop f (skipn (Z.to_nat (4 + size)) d) with
                         | Some (Ok r) => Some (Ok (c :: r))
                         | x => x
                         end
                end
            end
        end) by (destruct f; reflexivity).
  rewrite U; clear U. replace (zlen d <=? 4) with false by lia.
  rewrite gslice_ok by lia. cbn [bind].
  assert (V4 : leValue 4 (slice d 0 4) = Ok size).
  { rewrite <- V. unfold slice. cbn [Z.to_nat skipn Z.sub]. change (Z.to_nat (4 - 0)) with 4%nat.
    unfold zlen in L. destruct d as [|x0 [|x1 [|x2 [|x3 d2]]]]; cbn [List.length] in L; try lia. reflexivity. }
  rewrite V4. unfold slice.
  assert (S4 : forall n, slice d 4 n = firstn (Z.to_nat (n - 4)) (skipn 4 d)) by reflexivity.
  destruct (Z.ltb_spec (4 + size) (zlen d)).
  - rewrite gslice_ok by lia. rewrite S4. replace (4 + size - 4) with size by lia. reflexivity.
  - rewrite gslice_ok by lia. rewrite S4.
    rewrite (firstn_all2 (n := Z.to_nat size)) by (rewrite skipn_length; unfold zlen in *; lia).
    rewrite firstn_all2 by (rewrite skipn_length; unfold zlen in *; lia). reflexivity.
Qed.

Lemma leValue_nonneg n : forall b v, Forall is_byte b -> leValue n b = Ok v -> 0 <= v.
Proof.
  induction n as [|n IH]; intros [|x b] v F E; cbn [leValue bind] in E; try discriminate; try (inversion E; lia).
  destruct (leValue n b) as [w| |] eqn:W; try discriminate. cbn [bind] in E. assert (V : x + 256 * w = v) by congruence. inversion F; subst. apply IH in W; [|assumption]. unfold is_byte in *. lia.
Qed.
Lemma Forall_skipn {A} (P : A -> Prop) n : forall l, Forall P l -> Forall P (skipn n l).
Proof. induction n as [|n IH]; intros [|x l] F; cbn; auto. apply IH. inversion F; assumption. Qed.

Lemma split_total : forall f d, Forall is_byte d -> (List.length d <= f)%nat -> exists l, splitLoop f d = Some (Ok l).
Proof.
  induction f as [|f IH]; intros d F L.
  - destruct d; [exists []; reflexivity|cbn in L; lia].
  - destruct (Z.le_gt_cases (zlen d) 4) as [S|S].
    + exists []. destruct d; [reflexivity|]. cbn [splitLoop]. replace (zlen (z :: d) <=? 4) with true by lia. reflexivity.
    + destruct (leValue_long 4 d) as (v & V); [unfold zlen in S; lia|].
      rewrite (split_step (Datatypes.S f) d v S V (leValue_nonneg _ _ _ F V)).
      destruct (IH (skipn (Z.to_nat (4 + v)) d)) as (r & R).
      * apply Forall_skipn. exact F.
      * rewrite skipn_length. pose proof (leValue_nonneg _ _ _ F V). unfold zlen in S. lia.
      * rewrite R. eauto.
Qed.

(** Any buffer, however malformed, is split without reading outside it, and the loop ends. *)
Theorem C11_split_total : forall d, Forall is_byte d -> exists l, splitDataBytes d = Some (Ok l).
Proof. intros d F. apply split_total; [exact F|lia]. Qed.
Print Assumptions C11_split_total.

Lemma split_fuel : forall f1 f2 d l, splitLoop f1 d = Some (Ok l) -> (f1 <= f2)%nat -> splitLoop f2 d = Some (Ok l).
Proof.
  induction f1 as [|f1 IH]; intros f2 d l E L.
  - destruct d as [|x d]; [destruct f2; exact E|]. destruct f2; cbn [splitLoop] in *;
    (destruct (zlen (x :: d) <=? 4); [exact E|]);
    (destruct (bind _ _); try discriminate E);
    (destruct (if 4 + a <? zlen (x :: d) then _ else _); discriminate E).
  - destruct f2 as [|f2]; [lia|]. destruct d as [|x d]; [exact E|]. cbn [splitLoop] in *.
    destruct (zlen (x :: d) <=? 4); [exact E|].
    destruct (bind (gslice (x :: d) 0 4) (leValue 4)); try discriminate E.
    destruct (if 4 + a <? zlen (x :: d) then gslice (x :: d) 4 (4 + a) else gslice (x :: d) 4 (zlen (x :: d))); try discriminate E.
    destruct (splitLoop f1 (skipn (Z.to_nat (4 + a)) (x :: d))) as [[r| |]|] eqn:R; try discriminate E.
    rewrite (IH f2 _ _ R); [exact E|lia].
Qed.

Lemma pack_cons m msgs : pack (m :: msgs) = leBytes 4 (zlen m) ++ m ++ pack msgs.
Proof. unfold pack. cbn [flat_map]. rewrite app_assoc. reflexivity. Qed.

Lemma prefix_app_cases {A} (d p q : list A) : is_prefix d (p ++ q) -> (is_prefix d p) \/ (exists r, d = p ++ r /\ is_prefix r q).
Proof.
  revert d. induction p as [|x p IH]; intros d (s & E); cbn in E.
  - right. exists d. split; [reflexivity|]. exists s. exact E.
  - destruct d as [|y d]; [left; exists (x :: p); reflexivity|]. cbn in E. inversion E; subst.
    destruct (IH d) as [(t & ->)|(r & -> & P)]; [exists s; assumption| |].
    + left. exists t. reflexivity.
    + right. exists r. split; [reflexivity|exact P].
Qed.
Lemma prefix_len {A} (d p : list A) : is_prefix d p -> (List.length d <= List.length p)%nat.
Proof. intros (r & ->). rewrite app_length. lia. Qed.

Lemma split_prefix : forall msgs d, (forall m, In m msgs -> zlen m < 2 ^ 32) -> is_prefix d (pack msgs) ->
  exists f l, splitLoop f d = Some (Ok l) /\ (f <= List.length d)%nat /\ truncated l msgs /\
    (d = pack msgs -> last msgs [0] <> [] -> l = msgs).
Proof.
  induction msgs as [|m msgs IH]; intros d B P.
  - destruct P as (r & P). destruct d; [|discriminate]. exists 0%nat, []. split; [reflexivity|]. split; [cbn; lia|]. split; [constructor|]. intros _ _; reflexivity.
  - assert (MB : zlen m < 2 ^ 32) by (apply B; left; reflexivity).
    rewrite pack_cons in *. destruct (Z.le_gt_cases (zlen d) 4) as [S|S].
    + exists 0%nat, []. split; [destruct d; [reflexivity|]; cbn [splitLoop]; replace (zlen (z :: d) <=? 4) with true by lia; reflexivity|].
      split; [lia|]. split; [constructor|]. intros -> N. exfalso.
      unfold zlen in S. rewrite !app_length, leBytes_length in S.
      destruct m; [|cbn in S; lia]. destruct msgs as [|m2 msgs]; [cbn in N; congruence|].
      rewrite pack_cons, app_length, leBytes_length in S. lia.
    + apply prefix_app_cases in P. destruct P as [P|(r & -> & P)].
      { apply prefix_len in P. rewrite leBytes_length in P. unfold zlen in S. lia. }
      pose proof (le_roundtrip 4 (zlen m) r) as V. change (256 ^ Z.of_nat 4) with (2 ^ 32) in V.
      specialize (V (conj (Zle_0_nat _) MB)).
      destruct (IH (skipn (Z.to_nat (zlen m)) r)) as (f & l & SL & FL & T & EX).
      { intros x I. apply B. right. exact I. }
      { apply prefix_app_cases in P. destruct P as [P|(q & -> & P)].
        - apply prefix_len in P. rewrite skipn_all2 by (unfold zlen; lia). exists (pack msgs). reflexivity.
        - rewrite skipn_app_exact by (unfold zlen; lia). exact P. }
      assert (RL : (0 < List.length r)%nat) by (unfold zlen in S; rewrite app_length, leBytes_length in S; lia).
      exists (Datatypes.S f), (firstn (Z.to_nat (zlen m)) r :: l). split; [|split; [|split]].
      * rewrite (split_step _ _ _ S V) by (unfold zlen; lia).
        replace (skipn (Z.to_nat (4 + zlen m)) (leBytes 4 (zlen m) ++ r)) with (skipn (Z.to_nat (zlen m)) r).
        2:{ replace (Z.to_nat (4 + zlen m)) with (4 + Z.to_nat (zlen m))%nat by (unfold zlen; lia).
            rewrite (skipn_app (4 + Z.to_nat (zlen m))). rewrite leBytes_length. rewrite (skipn_all2 (leBytes 4 (zlen m))) by (rewrite leBytes_length; lia).
            replace (4 + Z.to_nat (zlen m) - 4)%nat with (Z.to_nat (zlen m)) by lia. reflexivity. }
        rewrite SL. rewrite (skipn_app_exact (leBytes 4 (zlen m)) r 4) by (rewrite leBytes_length; reflexivity). reflexivity.
      * rewrite app_length, leBytes_length. rewrite skipn_length in FL. lia.
      * apply prefix_app_cases in P. destruct P as [P|(q & -> & P)].
        -- rewrite firstn_all2 by (apply prefix_len in P; unfold zlen; lia).
           rewrite skipn_all2 in SL by (apply prefix_len in P; unfold zlen; lia).
           assert (l = []) by (destruct f; inversion SL; reflexivity). subst l.
           apply trunc_cut; [intros ->; cbn in RL; lia|exact P].
        -- rewrite firstn_app_exact by (unfold zlen; lia). apply trunc_whole. exact T.
      * intros E N. apply app_inv_head in E. subst r.
        rewrite firstn_app_exact by (unfold zlen; lia). rewrite skipn_app_exact in EX by (unfold zlen; lia). f_equal.
        destruct msgs as [|m2 msgs].
        -- rewrite skipn_all2 in SL by (rewrite app_length; cbn; unfold zlen; lia).
           destruct f; inversion SL; reflexivity.
        -- apply EX; [reflexivity|exact N].
Qed.

(** Splitting packed messages gives them back, in order (the last one not empty). *)
Theorem C11_split_of_packed : forall msgs,
  (forall m, In m msgs -> zlen m < 2 ^ 32) -> last msgs [0] <> [] -> splitDataBytes (pack msgs) = Some (Ok msgs).
Proof.
  intros msgs B N. destruct (split_prefix msgs (pack msgs) B) as (f & l & S & L & _ & E); [exists []; rewrite app_nil_r; reflexivity|].
  rewrite (E eq_refl N) in S. apply (split_fuel f); [exact S|exact L].
Qed.
Print Assumptions C11_split_of_packed.

(** When the buffer was cut short anywhere, the whole messages before the cut come back unchanged, followed by at most a
    part of the message that was cut. *)
Theorem C11_split_of_truncated : forall msgs d, (forall m, In m msgs -> zlen m < 2 ^ 32) -> is_prefix d (pack msgs) ->
  exists l, splitDataBytes d = Some (Ok l) /\ truncated l msgs.
Proof.
  intros msgs d B P. destruct (split_prefix msgs d B P) as (f & l & S & L & T & _).
  exists l. split; [apply (split_fuel f); [exact S|exact L]|exact T].
Qed.
Print Assumptions C11_split_of_truncated.

(** Finding: an empty message at the end is lost. *)
Theorem C11_trailing_empty_message_refuted : exists msgs, splitDataBytes (pack msgs) <> Some (Ok msgs).
Proof. exists [[1; 2]; []]. vm_compute. discriminate. Qed.
Print Assumptions C11_trailing_empty_message_refuted.

Lemma get_set_other e k v k' : k' <> k -> getUserAttribute (setUserAttribute e k v) k' = getUserAttribute e k'.
Proof. intros N. destruct (C09_set_then_get e k v) as [G _]. rewrite G. rewrite (proj2 (eqb_neq k' k) N). reflexivity. Qed.

(** One event per message: its data is the message, its result the length, everything else that of the original. *)
Theorem C11_one_event_per_message : forall e l,
  e_name e = "sendmmsg" -> getUserAttribute e "data" <> None -> getUserAttribute e "res" <> None ->
  (forall m, In m l -> zlen m < 2 ^ 63) ->
  splitDataBytes (getData e) = Some (Ok l) ->
  exists evs, convertSendmmsg e = Some (Ok evs) /\ map getData evs = l /\ map getResVal evs = map (fun m => Ok (zlen m)) l /\
    Forall (fun x => exists a, x = withAttrs e a /\
                     forall k, k <> "data" -> k <> "res" -> getUserAttribute x k = getUserAttribute e k) evs.
Proof.
  intros e l N D R B S. unfold convertSendmmsg. rewrite N, eqb_refl. cbn [negb]. rewrite S. eexists. split; [reflexivity|].
  set (f := fun b => setUserAttribute (setUserAttribute e "res" (leBytes 8 (zlen b))) "data" b).
  assert (FD : forall b, getData (f b) = b).
  { intros b. unfold getData, getStringUserAttribute, f. rewrite (proj1 (C09_set_then_get _ _ _)), eqb_refl.
    rewrite get_set_other by discriminate. destruct (getUserAttribute e "data"); [reflexivity|congruence]. }
  split; [rewrite map_map; rewrite <- (map_id l) at 2; apply map_ext; exact FD|]. split.
  - rewrite map_map. apply map_ext_in. intros b I. unfold getResVal, f. rewrite get_set_other by discriminate.
    rewrite (proj1 (C09_set_then_get _ _ _)), eqb_refl. destruct (getUserAttribute e "res") as [kv|]; [|congruence].
    cbn [option_map kv_val]. rewrite <- (app_nil_r (leBytes 8 (zlen b))). specialize (B b I).
    rewrite le_roundtrip by (change (256 ^ Z.of_nat 8) with (2 ^ 64); unfold zlen in *; lia). cbn [bind]. f_equal.
    unfold s64. rewrite Z.mod_small; unfold zlen in *; lia.
  - apply Forall_forall. intros x I. apply in_map_iff in I. destruct I as (b & <- & _). unfold f. cbv beta.
    destruct (proj2 (C09_set_then_get e "res" (leBytes 8 (zlen b)))) as (a1 & E1 & _). 
    destruct (proj2 (C09_set_then_get (setUserAttribute e "res" (leBytes 8 (zlen b))) "data" b)) as (a2 & E2 & _).
    exists a2. split; [rewrite E2, E1; reflexivity|]. intros k K1 K2. rewrite !get_set_other by assumption. reflexivity.
Qed.
Print Assumptions C11_one_event_per_message.

Definition ev0 (name : string) (role : bool) (attrs : list keyvalue) : event :=
  {| e_name := name; e_ts := 9; e_lat := 2; e_net := true; e_params := zlen attrs;
     e_attrs := attrs ++ repeat {| kv_key := ""; kv_type := TNone; kv_val := [] |} (16 - List.length attrs);
     e_pid := 3; e_tid := 4; e_comm := "c"; e_cid := ""; e_fd := 5; e_proto := L4Udp; e_role := role;
     e_sip := [1]; e_dip := [2]; e_sport := 7; e_dport := 53 |}.
Example C11_example :
  let e := ev0 "sendmmsg" false [{| kv_key := "res"; kv_type := TInt64; kv_val := [2;0;0;0;0;0;0;0] |};
                                 {| kv_key := "data"; kv_type := TBytebuf; kv_val := pack [[1; 2; 3]; []; [4]] |}] in
  e_name e = "sendmmsg" /\ getUserAttribute e "data" <> None /\ getUserAttribute e "res" <> None /\
  splitDataBytes (getData e) = Some (Ok [[1; 2; 3]; []; [4]]).
Proof. cbn -[splitDataBytes]. split; [reflexivity|]. split; [discriminate|]. split; [discriminate|]. vm_compute. reflexivity. Qed.

(** ** C54: requests and responses *)
(** A network event is a request when the server receives or the client sends; a response the other way round; anything
    else is neither. *)
Theorem C54_direction : forall e,
  (isRequest e = Ok true <-> e_net e = true /\
     ((e_role e = true /\ In (e_name e) ["read"; "readv"; "recvfrom"; "recvmsg"; "pread"; "preadv"]) \/
      (e_role e = false /\ In (e_name e) ["write"; "writev"; "sendto"; "sendmsg"; "sendmmsg"; "pwrite"; "pwritev"]))) /\
  (isRequest e = Ok false <-> e_net e = true /\
     ((e_role e = false /\ In (e_name e) ["read"; "readv"; "recvfrom"; "recvmsg"; "pread"; "preadv"]) \/
      (e_role e = true /\ In (e_name e) ["write"; "writev"; "sendto"; "sendmsg"; "sendmmsg"; "pwrite"; "pwritev"]))) /\
  isRequest e <> Panic.
Proof.
  intros e.
  assert (M : forall x l, memS x l = true <-> In x l).
  { intros x l. unfold memS. rewrite existsb_exists. split; [intros (y & I & E); apply eqb_true in E; subst; exact I|]. intros I. exists x. split; [exact I|apply eqb_refl]. }
  assert (I1 : memS (e_name e) inEvents = true <-> In (e_name e) ["read"; "readv"; "recvfrom"; "recvmsg"; "pread"; "preadv"]) by (rewrite M; cbn; tauto).
  assert (I2 : memS (e_name e) outEvents = true <-> In (e_name e) ["write"; "writev"; "sendto"; "sendmsg"; "sendmmsg"; "pwrite"; "pwritev"]) by (rewrite M; cbn; tauto).
  assert (X : memS (e_name e) inEvents = true -> memS (e_name e) outEvents = true -> False).
  { rewrite !M. cbn. intros A B.
    repeat match goal with H : _ \/ _ |- _ => destruct H as [H|H]; try (rewrite <- H in *) end; try contradiction;
    try (cbn in *; repeat match goal with H : _ \/ _ |- _ => destruct H as [H|H] end; congruence). }
  rewrite <- I1, <- I2. clear I1 I2 M. unfold isRequest.
  destruct (e_net e), (memS (e_name e) inEvents), (memS (e_name e) outEvents), (e_role e); cbn [Bool.eqb];
    try (exfalso; apply X; reflexivity);
    repeat split; try discriminate; intros; try congruence; auto; intuition congruence.
Qed.
Print Assumptions C54_direction.
Example C54_example : isRequest (ev0 "recvfrom" true []) = Ok true /\ isRequest (ev0 "sendto" true []) = Ok false /\ isRequest (ev0 "connect" true []) = Err.
Proof. repeat split. Qed.

(** The combined key of process and descriptor tells any two of them apart. *)
Theorem C54_socket_key_injective : forall e1 e2,
  0 <= e_pid e1 < 2 ^ 32 -> 0 <= e_pid e2 < 2 ^ 32 -> - 2 ^ 31 <= e_fd e1 < 2 ^ 31 -> - 2 ^ 31 <= e_fd e2 < 2 ^ 31 ->
  getSocketKey e1 = getSocketKey e2 -> e_pid e1 = e_pid e2 /\ e_fd e1 = e_fd e2.
Proof.
  assert (V : forall e, 0 <= e_pid e < 2 ^ 32 -> getSocketKey e = e_fd e mod 2 ^ 32 + e_pid e * 2 ^ 32).
  { intros e H. unfold getSocketKey. change (2 ^ 32 - 1) with (Z.ones 32). rewrite Z.land_ones by lia.
    assert (M : w64 (e_fd e) mod 2 ^ 32 = e_fd e mod 2 ^ 32).
    { unfold w64. symmetry. apply Znumtheory.Zmod_div_mod; [lia|lia|]. exists (2 ^ 32). reflexivity. }
    rewrite M. assert (W : w64 (Z.shiftl (e_pid e) 32) = Z.shiftl (e_pid e) 32).
    { unfold w64. apply Z.mod_small. rewrite Z.shiftl_mul_pow2 by lia. lia. }
    rewrite W, Z.lor_comm. apply lor_shift; [lia|]. apply Z.mod_pos_bound. lia. }
  intros e1 e2 P1 P2 F1 F2. rewrite (V e1 P1), (V e2 P2). intros H.
  pose proof (Z.mod_pos_bound (e_fd e1) (2 ^ 32) ltac:(lia)). pose proof (Z.mod_pos_bound (e_fd e2) (2 ^ 32) ltac:(lia)).
  assert (E1 : e_pid e1 = e_pid e2) by lia. split; [exact E1|]. rewrite E1 in H.
  assert (E2 : e_fd e1 mod 2 ^ 32 = e_fd e2 mod 2 ^ 32) by lia.
  pose proof (Z.div_mod (e_fd e1) (2 ^ 32) ltac:(lia)). pose proof (Z.div_mod (e_fd e2) (2 ^ 32) ltac:(lia)). lia.
Qed.
Print Assumptions C54_socket_key_injective.

(** The return value of a system call: the signed 64-bit number in "res", -1 when there is none. *)
Theorem C09_return_value : forall e, 0 <= e_params e ->
  (getUserAttribute e "res" = None -> getResVal e = Ok (-1)) /\
  (forall kv v rest, getUserAttribute e "res" = Some kv -> - 2 ^ 63 <= v < 2 ^ 63 -> kv_val kv = leBytes 8 (w64 v) ++ rest -> getResVal e = Ok v).
Proof.
  intros e P. unfold getResVal. split.
  - intros ->. reflexivity.
  - intros kv v rest -> B ->.
    assert (L : forall n x r, 0 <= x -> leValue n (leBytes n x ++ r) = Ok (x mod 256 ^ Z.of_nat n)).
    { induction n as [|n IH]; intros x r X.
      - cbn [leValue leBytes]. change (256 ^ Z.of_nat 0) with 1. rewrite Z.mod_1_r. reflexivity.
      - cbn [leValue leBytes app]. rewrite IH by (apply Z.div_pos; lia). cbn [bind]. f_equal.
        rewrite Nat2Z.inj_succ, Z.pow_succ_r by lia. rewrite Z.rem_mul_r by lia. lia. }
    rewrite L by (unfold w64; apply Z.mod_pos_bound; lia). cbn [bind]. f_equal. change (256 ^ Z.of_nat 8) with (2 ^ 64).
    unfold w64, s64. rewrite Z.mod_mod by lia. rewrite Zplus_mod_idemp_l. rewrite Z.mod_small by lia. lia.
Qed.
Print Assumptions C09_return_value.
