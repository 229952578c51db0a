(** Dates, base64 and the separators of names. *)
From Verif Require Import Base Decimal AttrModel FileModel FileSpec.
From Coq Require Import ZifyBool.
Open Scope string_scope. Open Scope list_scope. Open Scope Z_scope.

(** * Calendar *)
Definition ydayOk (leap : bool) (yday : Z) : bool :=
  let '(m, d) := monthDay leap yday in (1 <=? m) && (m <=? 12) && (1 <=? d) && (d <=? monthLength leap m) && (daysBeforeMonth leap m + (d - 1) =? yday).
Lemma yday_all (leap : bool) yday : 0 <= yday < (if leap then 366 else 365) -> ydayOk leap yday = true.
Proof.
  intros R. assert (F : forallb (fun n => ydayOk leap (Z.of_nat n)) (seq 0 (if leap then 366 else 365)) = true) by (destruct leap; vm_compute; reflexivity).
  rewrite forallb_forall in F. specialize (F (Z.to_nat yday)). rewrite Z2Nat.id in F by lia. apply F. apply in_seq. destruct leap; lia.
Qed.
Lemma isLeap_spec y : isLeap y = true <-> leapYear y.
Proof. unfold isLeap, leapYear. lia. Qed.
Lemma absDate_spec d0 y m d : absDate d0 = (y, m, d) -> 1 <= m <= 12 /\ 1 <= d <= monthLength (isLeap y) m /\ dayNumber (isLeap y) y m d = d0 /\
  0 <= daysBeforeMonth (isLeap y) m + (d - 1) <= 365.
Proof.
  unfold absDate. intros E.
  remember (d0 / 146097) as a eqn:Ha. remember ((d0 - 146097 * a) / 36524) as q eqn:Hq. remember (q - q / 4) as b eqn:Hb.
  remember ((d0 - 146097 * a - 36524 * b) / 1461) as c eqn:Hc. remember ((d0 - 146097 * a - 36524 * b - 1461 * c) / 365) as p eqn:Hp. remember (p - p / 4) as e eqn:He.
  assert (A : 0 <= d0 - 146097 * a < 146097) by (pose proof (Z.div_mod d0 146097); pose proof (Z.mod_pos_bound d0 146097); lia).
  remember (d0 - 146097 * a) as d1. assert (Q : 0 <= q <= 4 /\ 36524 * q <= d1 < 36524 * (q + 1)) by (pose proof (Z.div_mod d1 36524); pose proof (Z.mod_pos_bound d1 36524); lia).
  assert (B : 0 <= b <= 3 /\ 0 <= d1 - 36524 * b <= 36524 /\ (d1 - 36524 * b = 36524 -> b = 3)) by lia.
  remember (d1 - 36524 * b) as d2. assert (C : 0 <= c <= 24 /\ 0 <= d2 - 1461 * c <= 1460 /\ (c = 24 -> d2 - 1461 * c = 1460 -> b = 3)) by (pose proof (Z.div_mod d2 1461); pose proof (Z.mod_pos_bound d2 1461); lia).
  remember (d2 - 1461 * c) as d3. assert (P : 0 <= p <= 4 /\ 365 * p <= d3 < 365 * (p + 1)) by (pose proof (Z.div_mod d3 365); pose proof (Z.mod_pos_bound d3 365); lia).
  assert (F : 0 <= e <= 3 /\ 0 <= d3 - 365 * e <= 365 /\ (d3 - 365 * e = 365 -> e = 3 /\ d3 = 1460)) by lia.
  remember (d3 - 365 * e) as yd. remember (400 * a + 100 * b + 4 * c + e + 1) as yy eqn:Hy.
  assert (L : yd = 365 -> isLeap yy = true) by (intros X; unfold isLeap; lia).
  assert (R : 0 <= yd < (if isLeap yy then 366 else 365)) by (destruct (isLeap yy); [lia|]; destruct (Z.eq_dec yd 365) as [X|X]; [discriminate (L X)|lia]).
  pose proof (yday_all (isLeap yy) yd R) as O. unfold ydayOk in O. destruct (monthDay (isLeap yy) yd) as [m' d'] eqn:M. inversion E; subst y m' d'. clear E.
  assert (D4 : (yy - 1) / 4 = 100 * a + 25 * b + c) by lia. assert (D100 : (yy - 1) / 100 = 4 * a + b) by lia. assert (D400 : (yy - 1) / 400 = a) by lia.
  unfold dayNumber. rewrite D4, D100, D400. lia.
Qed.

(** * Numbers in names *)
Lemma digits_in n c : 0 <= n -> In c (digits n) -> 48 <= c <= 57.
Proof. intros N I. pose proof (digits_all n N) as A. rewrite forallb_forall in A. specialize (A c I). unfold isDigit in A. lia. Qed.
Lemma formatInt_in n c : In c (formatInt n) -> c = 45 \/ 48 <= c <= 57.
Proof. unfold formatInt. destruct (n <? 0) eqn:E; intros I; [destruct I as [<-|I]; [left; reflexivity|]|]; right; eapply digits_in; try eassumption; lia. Qed.
Lemma dts_in n c : In c (dateToString n) -> c = 45 \/ 48 <= c <= 57.
Proof. unfold dateToString. destruct ((0 <=? n) && (n <=? 9)); intros I; [destruct I as [<-|I]; [right; lia|]|]; eapply formatInt_in; eassumption. Qed.
Lemma dts_value n : 0 <= n -> digitsValue (dateToString n) = n /\ forallb isDigit (dateToString n) = true.
Proof.
  intros N. unfold dateToString, formatInt. replace (n <? 0) with false by lia. destruct ((0 <=? n) && (n <=? 9)); [|split; [apply digits_value|apply digits_all]; exact N].
  split; [|cbn [forallb]; rewrite digits_all by exact N; reflexivity]. pose proof (digits_value n N). unfold digitsValue in *. cbn [fold_left]. unfold digitVal at 2. exact H.
Qed.
Lemma dts_neg n : n < 0 -> exists r, dateToString n = 45 :: r.
Proof. intros N. unfold dateToString, formatInt. replace ((0 <=? n) && (n <=? 9)) with false by lia. replace (n <? 0) with true by lia. eexists. reflexivity. Qed.
Lemma dts_inj n m : dateToString n = dateToString m -> n = m.
Proof.
  intros E. destruct (Z.lt_ge_cases n 0) as [N|N], (Z.lt_ge_cases m 0) as [M|M].
  - unfold dateToString in E. replace ((0 <=? n) && (n <=? 9)) with false in E by lia. replace ((0 <=? m) && (m <=? 9)) with false in E by lia. apply formatInt_inj. exact E.
  - exfalso. destruct (dts_neg n N) as (r & X). destruct (dts_value m M) as [_ F]. rewrite <- E, X in F. discriminate F.
  - exfalso. destruct (dts_neg m M) as (r & X). destruct (dts_value n N) as [_ F]. rewrite E, X in F. discriminate F.
  - destruct (dts_value n N) as [A _], (dts_value m M) as [B _]. congruence.
Qed.
Lemma dts_len2 n : 0 <= n <= 99 -> List.length (dateToString n) = 2%nat.
Proof.
  intros R. assert (F : forallb (fun k => Nat.eqb (List.length (dateToString (Z.of_nat k))) 2) (seq 0 100) = true) by (vm_compute; reflexivity).
  rewrite forallb_forall in F. specialize (F (Z.to_nat n)). rewrite Z2Nat.id in F by lia. apply Nat.eqb_eq, F, in_seq. lia.
Qed.
Lemma dts_len4 n : 1000 <= n <= 9999 -> List.length (dateToString n) = 4%nat.
Proof.
  intros R. assert (F : forallb (fun k => Nat.eqb (List.length (dateToString (Z.of_nat k + 1000))) 4) (seq 0 (90 * 100)) = true) by (vm_compute; reflexivity).
  rewrite forallb_forall in F. specialize (F (Z.to_nat (n - 1000))). rewrite Z2Nat.id in F by lia. replace (n - 1000 + 1000) with n in F by lia. apply Nat.eqb_eq, F, in_seq. lia.
Qed.

(** * Separators *)
Lemma app_same_len {A} : forall (a a' b b' : list A), List.length a = List.length a' -> a ++ b = a' ++ b' -> a = a' /\ b = b'.
Proof. induction a as [|x a IH]; intros [|y a'] b b' L E; try discriminate L; [split; [reflexivity|exact E]|]. cbn in L, E. inversion E. destruct (IH a' b b') as [-> ->]; [lia|assumption|]. split; reflexivity. Qed.
Lemma split_first (s : Z) : forall a a' b b', ~ In s a -> ~ In s a' -> a ++ s :: b = a' ++ s :: b' -> a = a' /\ b = b'.
Proof.
  induction a as [|x a IH]; intros [|y a'] b b' N N' E; cbn in E; inversion E; subst.
  - split; reflexivity.
  - exfalso. apply N'. left. reflexivity.
  - exfalso. apply N. left. reflexivity.
  - destruct (IH a' b b') as [-> ->]; [intros I; apply N; right; exact I|intros I; apply N'; right; exact I|assumption|]. split; reflexivity.
Qed.
Lemma split_last (s : Z) a a' b b' : ~ In s b -> ~ In s b' -> a ++ s :: b = a' ++ s :: b' -> a = a' /\ b = b'.
Proof.
  intros N N' E. apply (f_equal (@rev Z)) in E. rewrite !rev_app_distr in E. cbn [rev] in E. rewrite <- !app_assoc in E. cbn [app] in E.
  destruct (split_first s (rev b) (rev b') (rev a) (rev a')) as [X Y]; [intros I; apply N, in_rev; exact I|intros I; apply N', in_rev; exact I|exact E|].
  apply (f_equal (@rev Z)) in X, Y. rewrite !rev_involutive in X, Y. split; assumption.
Qed.

(** * Base64 *)
Lemma b64c_inj v w : 0 <= v < 64 -> 0 <= w < 64 -> b64c v = b64c w -> v = w.
Proof. intros V W. unfold b64c. repeat match goal with |- context [if ?c then _ else _] => destruct c eqn:? end; lia. Qed.
Lemma b64c_pad v : 0 <= v < 64 -> b64c v <> 61.
Proof. intros V. unfold b64c. repeat match goal with |- context [if ?c then _ else _] => destruct c eqn:? end; lia. Qed.
Lemma list3_ind (P : bytes -> Prop) : P [] -> (forall a, P [a]) -> (forall a b, P [a; b]) -> (forall a b c r, P r -> P (a :: b :: c :: r)) -> forall l, P l.
Proof.
  intros P0 P1 P2 P3. assert (H : forall l, P l /\ (forall a, P (a :: l)) /\ (forall a b, P (a :: b :: l))).
  { induction l as [|x l (I0 & I1 & I2)]; [repeat split; auto|]. split; [apply I1|]. split; [intros a; apply I2|]. intros a b. apply P3. exact I0. }
  intros l. apply H.
Qed.
Lemma b64_inj : forall l l', (forall c, In c l -> 0 <= c < 256) -> (forall c, In c l' -> 0 <= c < 256) -> b64 l = b64 l' -> l = l'.
Proof.
  apply (list3_ind (fun l => forall l', (forall c, In c l -> 0 <= c < 256) -> (forall c, In c l' -> 0 <= c < 256) -> b64 l = b64 l' -> l = l')).
  - intros [|a [|b [|c r]]] _ _ E; cbn in E; congruence.
  - intros a l' Ha Hl E. specialize (Ha a (or_introl eq_refl)). destruct l' as [|a' [|b' [|c' r']]]; cbn [b64] in E.
    + discriminate E.
    + assert (A' : 0 <= a' < 256) by (apply Hl; left; reflexivity). inversion E as [[E1 E2]]. apply b64c_inj in E1; [|lia|lia]. apply b64c_inj in E2; [|lia|lia]. f_equal. lia.
    + exfalso. inversion E as [[E1 E2 E3]]. assert (B' : 0 <= b' < 256) by (apply Hl; right; left; reflexivity). symmetry in E3. revert E3. apply b64c_pad. lia.
    + exfalso. inversion E as [[E1 E2 E3 E4 E5]]. symmetry in E4. revert E4. apply b64c_pad. assert (C' : 0 <= c' < 256) by (apply Hl; right; right; left; reflexivity). lia.
  - intros a b l' Ha Hl E. assert (A : 0 <= a < 256) by (apply Ha; left; reflexivity). assert (B : 0 <= b < 256) by (apply Ha; right; left; reflexivity).
    destruct l' as [|a' [|b' [|c' r']]]; cbn [b64] in E.
    + discriminate E.
    + exfalso. inversion E as [[E1 E2 E3]]. revert E3. apply b64c_pad. lia.
    + assert (A' : 0 <= a' < 256) by (apply Hl; left; reflexivity). assert (B' : 0 <= b' < 256) by (apply Hl; right; left; reflexivity).
      inversion E as [[E1 E2 E3]]. apply b64c_inj in E1; [|lia|lia]. apply b64c_inj in E2; [|lia|lia]. apply b64c_inj in E3; [|lia|lia]. assert (a = a') by lia. assert (b = b') by lia. congruence.
    + exfalso. inversion E as [[E1 E2 E3 E4 E5]]. symmetry in E4. revert E4. apply b64c_pad. assert (C' : 0 <= c' < 256) by (apply Hl; right; right; left; reflexivity). lia.
  - intros a b c r IH l' Ha Hl E. assert (A : 0 <= a < 256) by (apply Ha; left; reflexivity). assert (B : 0 <= b < 256) by (apply Ha; right; left; reflexivity). assert (C : 0 <= c < 256) by (apply Ha; right; right; left; reflexivity).
    destruct l' as [|a' [|b' [|c' r']]]; cbn [b64] in E.
    + discriminate E.
    + exfalso. inversion E as [[E1 E2 E3 E4 E5]]. revert E3. apply b64c_pad. lia.
    + exfalso. inversion E as [[E1 E2 E3 E4 E5]]. revert E4. apply b64c_pad. lia.
    + assert (A' : 0 <= a' < 256) by (apply Hl; left; reflexivity). assert (B' : 0 <= b' < 256) by (apply Hl; right; left; reflexivity). assert (C' : 0 <= c' < 256) by (apply Hl; right; right; left; reflexivity).
      inversion E as [[E1 E2 E3 E4 E5]]. apply b64c_inj in E1; [|lia|lia]. apply b64c_inj in E2; [|lia|lia]. apply b64c_inj in E3; [|lia|lia]. apply b64c_inj in E4; [|lia|lia].
      assert (a = a') by lia. assert (b = b') by lia. assert (c = c') by lia. subst. do 3 f_equal. apply IH; [intros x I; apply Ha; do 3 right; exact I|intros x I; apply Hl; do 3 right; exact I|assumption].
Qed.

(** * The date in a name *)
Lemma s64_range x : -2 ^ 63 <= s64 x < 2 ^ 63.
Proof. unfold s64. pose proof (Z.mod_pos_bound (x + 2 ^ 63) (2 ^ 64)). lia. Qed.
Lemma w64_s64 x : 0 <= x < 2 ^ 64 -> w64 (s64 x) = x.
Proof.
  intros X. unfold s64, w64. rewrite Zminus_mod_idemp_l. replace (x + 2 ^ 63 - 2 ^ 63) with x by lia. apply Z.mod_small. exact X.
Qed.
Lemma year_range d0 y m d : absDate d0 = (y, m, d) -> 400000 <= d0 <= 3000000 -> 1000 <= y <= 9999 /\ 1 <= m <= 12 /\ 1 <= d <= 31.
Proof.
  intros D R. destruct (absDate_spec _ _ _ _ D) as (M1 & M2 & M3 & M4). unfold dayNumber in M3. remember (daysBeforeMonth (isLeap y) m) as x eqn:X. clear X D.
  split; [lia|]. split; [exact M1|]. unfold monthLength in M2. destruct (m =? 2), (isLeap y), ((m =? 4) || (m =? 6) || (m =? 9) || (m =? 11)); lia.
Qed.
Lemma date_of d0 d1 y m d : absDate d0 = (y, m, d) -> absDate d1 = (y, m, d) -> d0 = d1.
Proof. intros A B. destruct (absDate_spec _ _ _ _ A) as (_ & _ & M & _). destruct (absDate_spec _ _ _ _ B) as (_ & _ & M' & _). congruence. Qed.
Lemma local_parts off t : -86400 < off < 86400 -> -2 ^ 63 <= t < 2 ^ 63 -> 400000 <= (t / 1000000000 + off) / 86400 + dayOffset <= 3000000.
Proof. unfold dayOffset. intros O T. change (2 ^ 63) with 9223372036854775808 in T. lia. Qed.
Lemma local_inj off t t' : (t / 1000000000 + off) / 86400 = (t' / 1000000000 + off) / 86400 -> (t / 1000000000 + off) mod 86400 = (t' / 1000000000 + off) mod 86400 -> Z.rem t 1000000000 = Z.rem t' 1000000000 -> t = t'.
Proof.
  intros A B C. assert (t / 1000000000 = t' / 1000000000) by (pose proof (Z.div_mod (t / 1000000000 + off) 86400); pose proof (Z.div_mod (t' / 1000000000 + off) 86400); lia).
  pose proof (Z.quot_rem' t 1000000000). pose proof (Z.quot_rem' t' 1000000000). lia.
Qed.
Lemma clock_inj r r' : r / 3600 = r' / 3600 -> r mod 3600 / 60 = r' mod 3600 / 60 -> r mod 60 = r' mod 60 -> r = r'.
Proof. lia. Qed.
Lemma clock_range r : 0 <= r < 86400 -> 0 <= r / 3600 <= 99 /\ 0 <= r mod 3600 / 60 <= 99 /\ 0 <= r mod 60 <= 99.
Proof. lia. Qed.
Definition stamp (y m d h mi se n : Z) : bytes := dateToString y ++ dateToString m ++ dateToString d ++ dateToString h ++ dateToString mi ++ dateToString se ++ 46 :: dateToString n.
Lemma stamp_inj y m d h mi se n y' m' d' h' mi' se' n' :
  1000 <= y <= 9999 -> 0 <= m <= 99 -> 0 <= d <= 99 -> 0 <= h <= 99 -> 0 <= mi <= 99 -> 0 <= se <= 99 ->
  1000 <= y' <= 9999 -> 0 <= m' <= 99 -> 0 <= d' <= 99 -> 0 <= h' <= 99 -> 0 <= mi' <= 99 -> 0 <= se' <= 99 ->
  stamp y m d h mi se n = stamp y' m' d' h' mi' se' n' -> (y = y' /\ m = m' /\ d = d') /\ (h = h' /\ mi = mi' /\ se = se') /\ n = n'.
Proof.
  intros. unfold stamp in *. match goal with H : _ ++ _ = _ ++ _ |- _ => rename H into E end.
  apply app_same_len in E; [destruct E as [E1 E]|rewrite !dts_len4 by assumption; reflexivity].
  apply app_same_len in E; [destruct E as [E2 E]|rewrite !dts_len2 by assumption; reflexivity].
  apply app_same_len in E; [destruct E as [E3 E]|rewrite !dts_len2 by assumption; reflexivity].
  apply app_same_len in E; [destruct E as [E4 E]|rewrite !dts_len2 by assumption; reflexivity].
  apply app_same_len in E; [destruct E as [E5 E]|rewrite !dts_len2 by assumption; reflexivity].
  apply app_same_len in E; [destruct E as [E6 E]|rewrite !dts_len2 by assumption; reflexivity].
  apply (f_equal (@tl Z)) in E. cbn [tl] in E. apply dts_inj in E, E1, E2, E3, E4, E5, E6. auto.
Qed.
Lemma getDate_eq zone off ts y m d : (forall s, zone s = off) -> absDate ((s64 ts / 1000000000 + off) / 86400 + dayOffset) = (y, m, d) ->
  getDateString zone ts = stamp y m d ((s64 ts / 1000000000 + off) mod 86400 / 3600) ((s64 ts / 1000000000 + off) mod 86400 mod 3600 / 60) ((s64 ts / 1000000000 + off) mod 86400 mod 60) (Z.rem (s64 ts) 1000000000).
Proof. intros Z0 D. unfold getDateString. cbv zeta. rewrite Z0, D. reflexivity. Qed.
Lemma date_inj zone ts ts' : fixedZone zone -> 0 <= ts < 2 ^ 64 -> 0 <= ts' < 2 ^ 64 -> getDateString zone ts = getDateString zone ts' -> ts = ts'.
Proof.
  intros (off & O & Z0) R R' E. rewrite <- (w64_s64 ts R), <- (w64_s64 ts' R'). f_equal.
  pose proof (local_parts off _ O (s64_range ts)) as L. pose proof (local_parts off _ O (s64_range ts')) as L'.
  destruct (absDate ((s64 ts / 1000000000 + off) / 86400 + dayOffset)) as [[y m] d] eqn:D. destruct (absDate ((s64 ts' / 1000000000 + off) / 86400 + dayOffset)) as [[y' m'] d'] eqn:D'.
  rewrite (getDate_eq zone off ts y m d Z0 D), (getDate_eq zone off ts' y' m' d' Z0 D') in E.
  destruct (year_range _ _ _ _ D L) as (Y1 & Y2 & Y3). destruct (year_range _ _ _ _ D' L') as (Y1' & Y2' & Y3').
  pose proof (clock_range _ (Z.mod_pos_bound (s64 ts / 1000000000 + off) 86400 ltac:(lia))) as (B1 & B2 & B3). pose proof (clock_range _ (Z.mod_pos_bound (s64 ts' / 1000000000 + off) 86400 ltac:(lia))) as (B1' & B2' & B3').
  apply stamp_inj in E; try assumption; try lia. destruct E as ((-> & -> & ->) & (E1 & E2 & E3) & E4).
  pose proof (date_of _ _ _ _ _ D D') as X. apply (local_inj off); [lia|apply clock_inj; assumption|exact E4].
Qed.
Lemma date_plain zone ts : ~ In 95 (getDateString zone ts).
Proof.
  unfold getDateString. destruct (absDate _) as [[y m] d]. intros I.
  assert (X : forall n, ~ In 95 (dateToString n)) by (intros n J; apply dts_in in J; lia).
  repeat (apply in_app_iff in I; destruct I as [I|I]; [exact (X _ I)|]). destruct I as [I|I]; [discriminate I|exact (X _ I)].
Qed.
Lemma bool_plain b : ~ In 95 (formatBool b).
Proof. destruct b; intros I; vm_compute in I; repeat (destruct I as [I|I]; [discriminate I|]); destruct I. Qed.
