(** Go's decimal formatting and parsing of integers (strconv.FormatInt, ParseInt, ParseUint, Itoa with base 10). *)
From Verif Require Import Base.

Definition isDigit (c : Z) : bool := (48 <=? c) && (c <=? 57).

(** decimal digits of a non-negative number *)
Fixpoint digitsF (fuel : nat) (n : Z) : bytes :=
  match fuel with
  | O => []
  | S f => if n <? 10 then [48 + n] else digitsF f (n / 10) ++ [48 + n mod 10]
  end.
Definition digits (n : Z) : bytes := digitsF (S (Z.to_nat (Z.log2 n))) n.

(** strconv.FormatInt(n, 10), strconv.Itoa *)
Definition formatInt (n : Z) : bytes := if n <? 0 then 45 :: digits (- n) else digits n.

Definition digitVal (acc c : Z) : Z := acc * 10 + (c - 48).
Definition digitsValue (s : bytes) : Z := fold_left digitVal s 0.

(** strconv.ParseUint(s, 10, bits) as (value, ok): the value on a syntax error is 0, on overflow the maximum *)
Definition parseUint (bits : Z) (s : bytes) : Z * bool :=
  match s with
  | [] => (0, false)
  | _ => if forallb isDigit s then
           if digitsValue s <? 2 ^ bits then (digitsValue s, true) else (2 ^ bits - 1, false)
         else (0, false)
  end.
(** strconv.ParseInt(s, 10, bits) *)
Definition parseInt (bits : Z) (s : bytes) : Z * bool :=
  let '(neg, d) := match s with
                   | c :: r => if c =? 45 then (true, r) else if c =? 43 then (false, r) else (false, s)
                   | [] => (false, s)
                   end in
  match d with
  | [] => (0, false)
  | _ =>
      if forallb isDigit d then
        let v := digitsValue d in
        let cut := 2 ^ (bits - 1) in
        if neg then (if cut <? v then (- cut, false) else (- v, true))
        else (if cut <=? v then (cut - 1, false) else (v, true))
      else (0, false)
  end.

(** strconv.FormatBool and ParseBool *)
Definition formatBool (b : bool) : bytes := if b then bs "true" else bs "false".
Definition parseBool (s : bytes) : bool * bool :=
  if existsb (eqb s) [bs "1"; bs "t"; bs "T"; bs "true"; bs "TRUE"; bs "True"] then (true, true)
  else if existsb (eqb s) [bs "0"; bs "f"; bs "F"; bs "false"; bs "FALSE"; bs "False"] then (false, true)
  else (false, false).

Lemma log2_div10 n : 10 <= n -> Z.log2 (n / 10) < Z.log2 n.
Proof.
  intros N. assert (P : 0 < n / 10) by (apply Z.div_str_pos; lia).
  apply Z.log2_lt_pow2; [assumption|].
  assert (Z.log2 n >= 3) by (pose proof (Z.log2_le_mono 8 n); change (Z.log2 8) with 3 in *; lia).
  pose proof (Z.log2_spec n ltac:(lia)) as [_ U]. rewrite Z.pow_succ_r in U by lia.
  apply Z.div_lt_upper_bound; lia.
Qed.

Lemma digitsF_enough : forall fuel n, 0 <= n -> (Z.to_nat (Z.log2 n) < fuel)%nat -> digitsF fuel n = digits n.
Proof.
  assert (X : forall f1 f2 n, 0 <= n -> (Z.to_nat (Z.log2 n) < f1)%nat -> (Z.to_nat (Z.log2 n) < f2)%nat -> digitsF f1 n = digitsF f2 n).
  { induction f1 as [|f1 IH]; intros [|f2] n N A B; try lia. cbn [digitsF].
    destruct (n <? 10) eqn:E; [reflexivity|]. apply Z.ltb_ge in E. f_equal.
    pose proof (log2_div10 n E). pose proof (Z.log2_nonneg (n / 10)).
    apply IH; [apply Z.div_pos; lia|lia|lia]. }
  intros fuel n N A. apply X; [assumption|assumption|lia].
Qed.

Lemma digits_eq n : 0 <= n -> digits n = if n <? 10 then [48 + n] else digits (n / 10) ++ [48 + n mod 10].
Proof.
  intros N. unfold digits at 1. cbn [digitsF]. destruct (n <? 10) eqn:E; [reflexivity|]. apply Z.ltb_ge in E. f_equal.
  apply digitsF_enough; [apply Z.div_pos; lia|]. pose proof (log2_div10 n E). pose proof (Z.log2_nonneg (n / 10)). lia.
Qed.

Lemma digits_ind (P : Z -> Prop) : (forall n, 0 <= n < 10 -> P n) -> (forall n, 10 <= n -> P (n / 10) -> P n) -> forall n, 0 <= n -> P n.
Proof.
  intros B S n N. revert n N. apply (Zlt_0_ind P). intros n IH N.
  destruct (Z.lt_ge_cases n 10); [apply B; lia|]. apply S; [assumption|].
  apply IH. split; [apply Z.div_pos; lia|apply Z.div_lt; lia].
Qed.

Lemma digits_all n : 0 <= n -> forallb isDigit (digits n) = true.
Proof.
  apply (digits_ind (fun n => forallb isDigit (digits n) = true)).
  - intros m M. rewrite digits_eq by lia. replace (m <? 10) with true by lia. cbn [forallb]. unfold isDigit. lia.
  - intros m M IH. rewrite digits_eq by lia. replace (m <? 10) with false by lia.
    rewrite forallb_app, IH. cbn [forallb andb]. unfold isDigit. pose proof (Z.mod_pos_bound m 10). lia.
Qed.

Lemma digitsValue_snoc s c : digitsValue (s ++ [c]) = digitsValue s * 10 + (c - 48).
Proof. unfold digitsValue. rewrite fold_left_app. reflexivity. Qed.

Lemma digits_value n : 0 <= n -> digitsValue (digits n) = n.
Proof.
  apply (digits_ind (fun n => digitsValue (digits n) = n)).
  - intros m M. rewrite digits_eq by lia. replace (m <? 10) with true by lia. unfold digitsValue. cbn [fold_left]. unfold digitVal. lia.
  - intros m M IH. rewrite digits_eq by lia. replace (m <? 10) with false by lia.
    rewrite digitsValue_snoc, IH. pose proof (Z.div_mod m 10). lia.
Qed.

Lemma digits_nonempty n : 0 <= n -> digits n <> [].
Proof.
  intros N. rewrite digits_eq by assumption. destruct (n <? 10); [discriminate|]. destruct (digits _); discriminate.
Qed.

Lemma digits_first n : 0 <= n -> exists c r, digits n = c :: r /\ isDigit c = true.
Proof.
  intros N. pose proof (digits_all n N) as A. destruct (digits n) as [|c r] eqn:E.
  - exfalso. exact (digits_nonempty n N E).
  - exists c, r. cbn [forallb] in A. apply andb_prop in A. split; [reflexivity|tauto].
Qed.

Lemma digits_inj n m : 0 <= n -> 0 <= m -> digits n = digits m -> n = m.
Proof. intros N M E. rewrite <- (digits_value n N), <- (digits_value m M), E. reflexivity. Qed.

Lemma formatInt_inj n m : formatInt n = formatInt m -> n = m.
Proof.
  unfold formatInt. destruct (n <? 0) eqn:A, (m <? 0) eqn:B; intros E.
  - inversion E as [E']. apply Z.ltb_lt in A, B. apply digits_inj in E'; lia.
  - apply Z.ltb_ge in B. destruct (digits_first m B) as (c & r & E2 & D). rewrite E2 in E. inversion E; subst. discriminate.
  - apply Z.ltb_ge in A. destruct (digits_first n A) as (c & r & E2 & D). rewrite E2 in E. inversion E; subst. discriminate.
  - apply Z.ltb_ge in A, B. apply digits_inj in E; lia.
Qed.

Lemma parseInt_format bits n : 1 <= bits -> - 2 ^ (bits - 1) <= n < 2 ^ (bits - 1) -> parseInt bits (formatInt n) = (n, true).
Proof.
  intros BP R. unfold formatInt. destruct (n <? 0) eqn:A.
  - apply Z.ltb_lt in A. unfold parseInt. cbn [Z.eqb Pos.eqb].
    destruct (digits (- n)) as [|c r] eqn:E; [exfalso; apply (digits_nonempty (- n)); [lia|assumption]|].
    rewrite <- E. rewrite digits_all by lia. rewrite digits_value by lia.
    replace (2 ^ (bits - 1) <? - n) with false by lia. f_equal. lia.
  - apply Z.ltb_ge in A. unfold parseInt. destruct (digits_first n A) as (c & r & E & D). rewrite E. unfold isDigit in D.
    replace (c =? 45) with false by lia. replace (c =? 43) with false by lia. rewrite <- E.
    rewrite digits_all by lia. rewrite digits_value by lia.
    replace (2 ^ (bits - 1) <=? n) with false by lia. reflexivity.
Qed.

Lemma parseUint_digits bits n : 0 <= n < 2 ^ bits -> parseUint bits (digits n) = (n, true).
Proof.
  intros R. unfold parseUint. destruct (digits_first n ltac:(lia)) as (c & r & E & D). rewrite E, <- E.
  rewrite digits_all by lia. rewrite digits_value by lia. replace (n <? 2 ^ bits) with true by lia. reflexivity.
Qed.

Lemma formatBool_inj a b : formatBool a = formatBool b -> a = b.
Proof. destruct a, b; try reflexivity; discriminate. Qed.
Lemma parseBool_format b : parseBool (formatBool b) = (b, true).
Proof. destruct b; reflexivity. Qed.

Lemma digits_length_mono_bound n k : 0 <= n -> n < 10 ^ Z.of_nat k -> (1 <= k)%nat -> (List.length (digits n) <= k)%nat.
Proof.
  intros N. revert k. pattern n. apply digits_ind; [| |exact N].
  - intros m M k _ K. rewrite digits_eq by lia. replace (m <? 10) with true by lia. cbn. lia.
  - intros m M IH k L K. rewrite digits_eq by lia. replace (m <? 10) with false by lia. rewrite app_length. cbn [List.length].
    destruct k as [|[|k]]; [lia| |].
    + change (10 ^ Z.of_nat 1) with 10 in L. lia.
    + assert (List.length (digits (m / 10)) <= S k)%nat; [|lia]. apply IH; [|lia].
      apply Z.div_lt_upper_bound; [lia|]. rewrite <- Z.pow_succ_r by lia. replace (Z.succ (Z.of_nat (S k))) with (Z.of_nat (S (S k))) by lia. assumption.
Qed.
