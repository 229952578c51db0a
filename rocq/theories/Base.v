(** Shared vocabulary of the models: byte strings, outcomes of Go code,
    association lists for Go maps, and small list facts.
    Nothing here models a Kindling function; it models Go itself. *)
From Coq Require Export List ZArith Lia Bool String Ascii.
From Coq Require Export ZifyBool ZifyNat.
Export ListNotations.
#[export] Set Default Goal Selector "!".
Open Scope Z_scope.
Open Scope list_scope.

(** Go [string] and [[]byte]: a list of bytes, each 0..255. *)
Definition bytes := list Z.
Definition is_byte (b : Z) : Prop := 0 <= b < 256.

(** The bytes of a string literal. *)
Definition bs (s : string) : bytes :=
  map (fun c => Z.of_nat (nat_of_ascii c)) (list_ascii_of_string s).

(** Outcome of a Go function: a value, an [error] result, or a run-time panic. *)
Inductive res (A : Type) : Type :=
| Ok (a : A)
| Err
| Panic.
Arguments Ok {A} a.
Arguments Err {A}.
Arguments Panic {A}.

Definition bind {A B} (r : res A) (f : A -> res B) : res B :=
  match r with Ok a => f a | Err => Err | Panic => Panic end.

(** Machine integers. *)
Definition w64 (x : Z) : Z := x mod 2 ^ 64.
Definition w32 (x : Z) : Z := x mod 2 ^ 32.
(** signed wrap-around, as Go's int64/int32 arithmetic does *)
Definition s64 (x : Z) : Z := (x + 2 ^ 63) mod 2 ^ 64 - 2 ^ 63.
Definition s32 (x : Z) : Z := (x + 2 ^ 31) mod 2 ^ 32 - 2 ^ 31.
Definition s16 (x : Z) : Z := (x + 2 ^ 15) mod 2 ^ 16 - 2 ^ 15.

(** Decidable equality as a boolean. *)
Class Eqb (K : Type) := { eqb : K -> K -> bool; eqb_eq : forall a b, eqb a b = true <-> a = b }.

#[export] Instance Eqb_Z : Eqb Z := {| eqb := Z.eqb; eqb_eq := Z.eqb_eq |}.
#[export] Instance Eqb_nat : Eqb nat := {| eqb := Nat.eqb; eqb_eq := Nat.eqb_eq |}.
#[export] Instance Eqb_string : Eqb string := {| eqb := String.eqb; eqb_eq := String.eqb_eq |}.
#[export] Instance Eqb_bool : Eqb bool := {| eqb := Bool.eqb; eqb_eq := Bool.eqb_true_iff |}.

Definition prod_eqb {A B} `{Eqb A} `{Eqb B} (x y : A * B) : bool :=
  eqb (fst x) (fst y) && eqb (snd x) (snd y).
Lemma prod_eqb_eq {A B} `{Eqb A} `{Eqb B} : forall x y : A * B, prod_eqb x y = true <-> x = y.
Proof.
  intros [a b] [c d]. unfold prod_eqb. cbn [fst snd].
  rewrite andb_true_iff, !eqb_eq. split.
  - intros [-> ->]; reflexivity.
  - intros E; inversion E; auto.
Qed.
#[export] Instance Eqb_prod {A B} `{Eqb A} `{Eqb B} : Eqb (A * B) :=
  {| eqb := prod_eqb; eqb_eq := prod_eqb_eq |}.

Fixpoint list_eqb {A} `{Eqb A} (x y : list A) : bool :=
  match x, y with
  | [], [] => true
  | a :: x', b :: y' => eqb a b && list_eqb x' y'
  | _, _ => false
  end.
Lemma list_eqb_eq {A} `{Eqb A} : forall x y : list A, list_eqb x y = true <-> x = y.
Proof.
  induction x as [|a x IH]; intros [|b y]; cbn [list_eqb].
  - tauto.
  - split; discriminate.
  - split; discriminate.
  - rewrite andb_true_iff, eqb_eq, IH. split.
    + intros [-> ->]; reflexivity.
    + intros E; inversion E; auto.
Qed.
#[export] Instance Eqb_list {A} `{Eqb A} : Eqb (list A) := {| eqb := list_eqb; eqb_eq := list_eqb_eq |}.

Definition option_eqb {A} `{Eqb A} (x y : option A) : bool :=
  match x, y with None, None => true | Some a, Some b => eqb a b | _, _ => false end.
Lemma option_eqb_eq {A} `{Eqb A} : forall x y : option A, option_eqb x y = true <-> x = y.
Proof.
  intros [a|] [b|]; cbn [option_eqb]; try (split; congruence).
  rewrite eqb_eq. split; [intros ->|intros E; inversion E]; reflexivity.
Qed.
#[export] Instance Eqb_option {A} `{Eqb A} : Eqb (option A) :=
  {| eqb := option_eqb; eqb_eq := option_eqb_eq |}.

Lemma eqb_true {K} `{Eqb K} (a b : K) : eqb a b = true -> a = b.
Proof. intros E. exact (proj1 (eqb_eq a b) E). Qed.
Lemma eqb_refl {K} `{Eqb K} (a : K) : eqb a a = true.
Proof. apply eqb_eq; reflexivity. Qed.
Lemma eqb_neq {K} `{Eqb K} (a b : K) : eqb a b = false <-> a <> b.
Proof.
  split.
  - intros E F. apply eqb_eq in F. congruence.
  - intros N. destruct (eqb a b) eqn:E; [|reflexivity]. apply eqb_true in E. congruence.
Qed.
Lemma eqb_sym {K} `{Eqb K} (a b : K) : eqb a b = eqb b a.
Proof.
  destruct (eqb a b) eqn:E; symmetry.
  - apply eqb_true in E. subst. apply eqb_refl.
  - apply eqb_neq. apply eqb_neq in E. congruence.
Qed.
Lemma eqb_spec {K} `{Eqb K} (a b : K) : reflect (a = b) (eqb a b).
Proof. apply iff_reflect. symmetry. apply eqb_eq. Qed.
Lemma Eqb_dec {K} `{Eqb K} (a b : K) : {a = b} + {a <> b}.
Proof. destruct (eqb_spec a b); auto. Qed.

Ltac case_eqb a b :=
  let E := fresh "E" in
  destruct (eqb a b) eqn:E;
  [apply eqb_true in E|apply (proj1 (eqb_neq _ _)) in E].

(** Go maps: association lists; [aset] replaces in place or appends, so keys stay distinct. *)
Section Assoc.
  Context {K V : Type} `{Eqb K}.

  Fixpoint aget (m : list (K * V)) (k : K) : option V :=
    match m with
    | [] => None
    | (k', v) :: m' => if eqb k k' then Some v else aget m' k
    end.

  Fixpoint aset (m : list (K * V)) (k : K) (v : V) : list (K * V) :=
    match m with
    | [] => [(k, v)]
    | (k', v') :: m' => if eqb k k' then (k, v) :: m' else (k', v') :: aset m' k v
    end.

  Definition adel (m : list (K * V)) (k : K) : list (K * V) :=
    filter (fun p => negb (eqb k (fst p))) m.

  Definition ahas (m : list (K * V)) (k : K) : bool :=
    match aget m k with Some _ => true | None => false end.

  Definition keys (m : list (K * V)) : list K := map fst m.

  Lemma aget_aset_same m k v : aget (aset m k v) k = Some v.
  Proof.
    induction m as [|[k' v'] m IH]; cbn [aset aget].
    - rewrite eqb_refl. reflexivity.
    - destruct (eqb k k') eqn:E; cbn [aget].
      + rewrite eqb_refl. reflexivity.
      + rewrite E. exact IH.
  Qed.

  Lemma aget_aset_other m k v k0 : k0 <> k -> aget (aset m k v) k0 = aget m k0.
  Proof.
    intros N. induction m as [|[k' v'] m IH]; cbn [aset aget].
    - apply eqb_neq in N. rewrite N. reflexivity.
    - case_eqb k k'; cbn [aget].
      + subst k'. apply eqb_neq in N. rewrite N. reflexivity.
      + rewrite IH. reflexivity.
  Qed.

  Lemma aget_aset m k v k0 :
    aget (aset m k v) k0 = if eqb k0 k then Some v else aget m k0.
  Proof.
    case_eqb k0 k.
    - subst. apply aget_aset_same.
    - apply aget_aset_other; assumption.
  Qed.

  Lemma aget_adel_same m k : aget (adel m k) k = None.
  Proof.
    induction m as [|[k' v'] m IH]; cbn [adel filter aget fst]; [reflexivity|].
    destruct (eqb k k') eqn:E; cbn [negb]; [exact IH|].
    cbn [aget]. rewrite E. exact IH.
  Qed.

  Lemma aget_adel_other m k k0 : k0 <> k -> aget (adel m k) k0 = aget m k0.
  Proof.
    intros N. induction m as [|[k' v'] m IH]; [reflexivity|].
    cbn [adel filter fst]. case_eqb k k'; cbn [negb aget].
    - subst k'. apply eqb_neq in N. rewrite N. exact IH.
    - destruct (eqb k0 k'); [reflexivity|exact IH].
  Qed.

  Lemma aget_adel m k k0 :
    aget (adel m k) k0 = if eqb k0 k then None else aget m k0.
  Proof.
    case_eqb k0 k.
    - subst. apply aget_adel_same.
    - apply aget_adel_other; assumption.
  Qed.

  Lemma aget_in m k v : aget m k = Some v -> In (k, v) m.
  Proof.
    induction m as [|[k' v'] m IH]; cbn [aget]; [discriminate|].
    case_eqb k k'.
    - intros E2; inversion E2; subst. left. reflexivity.
    - intros G. right. auto.
  Qed.

  Lemma aget_none_notin m k : aget m k = None <-> ~ In k (keys m).
  Proof.
    induction m as [|[k' v'] m IH]; cbn [aget keys map fst].
    - split; auto.
    - case_eqb k k'.
      + subst. split; [discriminate|]. intros N. exfalso. apply N. left. reflexivity.
      + unfold keys in IH. rewrite IH. split.
        * intros N [F|F]; [congruence|contradiction].
        * intros N F. apply N. right. assumption.
  Qed.

  Lemma aget_some_in_keys m k v : aget m k = Some v -> In k (keys m).
  Proof. intros G. apply aget_in in G. apply in_map with (f := fst) in G. exact G. Qed.

  Lemma in_keys_aget m k : In k (keys m) -> exists v, aget m k = Some v.
  Proof.
    intros I. destruct (aget m k) as [v|] eqn:G; [eauto|].
    apply aget_none_notin in G. contradiction.
  Qed.

  Lemma in_aget m k v : NoDup (keys m) -> In (k, v) m -> aget m k = Some v.
  Proof.
    induction m as [|[k' v'] m IH]; cbn [keys map fst aget]; intros ND I; [destruct I|].
    inversion ND as [|? ? NI ND']; subst.
    destruct I as [I|I].
    - inversion I; subst. rewrite eqb_refl. reflexivity.
    - case_eqb k k'.
      + subst k'. exfalso. apply NI. apply in_map with (f := fst) in I. exact I.
      + apply IH; assumption.
  Qed.

  Lemma keys_aset m k v :
    keys (aset m k v) = if ahas m k then keys m else keys m ++ [k].
  Proof.
    induction m as [|[k' v'] m IH]; [reflexivity|].
    cbn [aset]. unfold ahas in *. cbn [aget]. case_eqb k k'.
    - subst. reflexivity.
    - cbn [keys map fst]. unfold keys in IH. rewrite IH.
      destruct (aget m k); reflexivity.
  Qed.

  Lemma NoDup_snoc {A} (l : list A) x : NoDup l -> ~ In x l -> NoDup (l ++ [x]).
  Proof.
    induction l as [|a l IH]; cbn [app]; intros ND NI.
    - constructor; [auto|constructor].
    - inversion ND; subst. constructor.
      + intros I. apply in_app_or in I. destruct I as [I|[I|[]]]; [contradiction|].
        subst. apply NI. left. reflexivity.
      + apply IH; [assumption|]. intros I. apply NI. right. assumption.
  Qed.

  Lemma NoDup_keys_aset m k v : NoDup (keys m) -> NoDup (keys (aset m k v)).
  Proof.
    intros ND. rewrite keys_aset. unfold ahas. destruct (aget m k) eqn:G; [assumption|].
    apply NoDup_snoc; [assumption|]. apply aget_none_notin. assumption.
  Qed.

  Lemma keys_adel m k : keys (adel m k) = filter (fun x => negb (eqb k x)) (keys m).
  Proof.
    induction m as [|[k' v'] m IH]; [reflexivity|].
    cbn [adel filter keys map fst]. destruct (eqb k k'); cbn [negb]; [exact IH|].
    cbn [map fst]. f_equal. exact IH.
  Qed.

  Lemma NoDup_keys_adel m k : NoDup (keys m) -> NoDup (keys (adel m k)).
  Proof. intros ND. rewrite keys_adel. apply NoDup_filter. assumption. Qed.

  Lemma in_keys_aset m k v x : In x (keys (aset m k v)) <-> x = k \/ In x (keys m).
  Proof.
    rewrite keys_aset. unfold ahas. destruct (aget m k) eqn:G.
    - split; [auto|]. intros [->|I]; [|assumption]. eapply aget_some_in_keys; eauto.
    - rewrite in_app_iff. cbn [In]. intuition congruence.
  Qed.

  Lemma in_keys_adel m k x : In x (keys (adel m k)) <-> x <> k /\ In x (keys m).
  Proof.
    rewrite keys_adel, filter_In, negb_true_iff, eqb_neq. intuition congruence.
  Qed.
End Assoc.

(** Slicing [l[i:j]] of an in-range Go slice expression. *)
Definition slice {A} (l : list A) (i j : Z) : list A :=
  firstn (Z.to_nat (j - i)) (skipn (Z.to_nat i) l).

(** [len(l)] *)
Definition zlen {A} (l : list A) : Z := Z.of_nat (List.length l).

(** [l[i]], panicking outside the bounds. *)
Definition znth {A} (l : list A) (i : Z) : option A :=
  if i <? 0 then None else nth_error l (Z.to_nat i).

Definition is_prefix {A} (p l : list A) : Prop := exists r, l = p ++ r.

(** Go strings.HasPrefix / bytes.HasPrefix *)
Fixpoint starts_with (p l : bytes) : bool :=
  match p, l with
  | [], _ => true
  | a :: p', b :: l' => (a =? b) && starts_with p' l'
  | _ :: _, [] => false
  end.

Lemma starts_with_iff p : forall l, starts_with p l = true <-> exists r, l = p ++ r.
Proof.
  induction p as [|a p IH]; intros l; cbn [starts_with].
  - split; [intros _; exists l; reflexivity|reflexivity].
  - destruct l as [|b l].
    + split; [discriminate|]. intros (r & E). discriminate.
    + rewrite andb_true_iff, Z.eqb_eq, IH. split.
      * intros (-> & r & ->). exists r. reflexivity.
      * intros (r & E). inversion E; subst. split; [reflexivity|]. exists r. reflexivity.
Qed.

Lemma starts_with_app p r : starts_with p (p ++ r) = true.
Proof. apply starts_with_iff. exists r. reflexivity. Qed.

Lemma skipn_app_exact {A} (p r : list A) n : n = List.length p -> skipn n (p ++ r) = r.
Proof. intros ->. rewrite skipn_app, skipn_all, Nat.sub_diag. reflexivity. Qed.
Lemma firstn_app_exact {A} (p r : list A) n : n = List.length p -> firstn n (p ++ r) = p.
Proof. intros ->. rewrite firstn_app, firstn_all, Nat.sub_diag, firstn_O, app_nil_r. reflexivity. Qed.

(** Assembling bytes with shifts and ors. *)
Lemma lor_shift a b n : 0 <= n -> 0 <= a < 2 ^ n -> Z.lor a (Z.shiftl b n) = a + b * 2 ^ n.
Proof.
  intros N A. rewrite Z.shiftl_mul_pow2 by lia.
  assert (L : Z.land a (b * 2 ^ n) = 0).
  { apply Z.bits_inj'. intros m M. rewrite Z.land_spec, Z.bits_0.
    destruct (Z.lt_ge_cases m n) as [Lt|Ge].
    - rewrite Z.mul_pow2_bits_low by assumption. apply andb_false_r.
    - assert (E : Z.testbit a m = false); [|rewrite E; reflexivity].
      destruct (Z.eq_dec a 0) as [->|NZ]; [apply Z.bits_0|].
      apply Z.bits_above_log2; [lia|]. apply Z.log2_lt_pow2; [lia|].
      apply Z.lt_le_trans with (2 ^ n); [lia|]. apply Z.pow_le_mono_r; lia. }
  rewrite <- Z.lxor_lor by assumption. symmetry. apply Z.add_nocarry_lxor. assumption.
Qed.

(** A Go slice expression [l[i:j]]; out of range is a run-time panic. *)
Definition gslice {A} (l : list A) (i j : Z) : res (list A) :=
  if (0 <=? i) && (i <=? j) && (j <=? zlen l) then Ok (slice l i j) else Panic.
(** A Go index expression. *)
Definition gindex {A} (l : list A) (i : Z) : res A :=
  match znth l i with Some x => Ok x | None => Panic end.

Lemma gslice_ok {A} (l : list A) i j : 0 <= i -> i <= j -> j <= zlen l -> gslice l i j = Ok (slice l i j).
Proof.
  intros. unfold gslice. rewrite (proj2 (Z.leb_le 0 i)), (proj2 (Z.leb_le i j)), (proj2 (Z.leb_le j (zlen l))) by assumption.
  reflexivity.
Qed.
Lemma gslice_inv {A} (l : list A) i j x : gslice l i j = Ok x -> 0 <= i /\ i <= j /\ j <= zlen l /\ x = slice l i j.
Proof.
  unfold gslice. destruct ((0 <=? i) && (i <=? j) && (j <=? zlen l)) eqn:E; [|discriminate].
  intros X; inversion X. apply andb_prop in E. destruct E as [E E3]. apply andb_prop in E. destruct E as [E1 E2].
  apply Z.leb_le in E1, E2, E3. auto.
Qed.
Lemma slice_length {A} (l : list A) i j : 0 <= i -> i <= j -> j <= zlen l -> zlen (slice l i j) = j - i.
Proof. intros. unfold slice, zlen in *. rewrite firstn_length, skipn_length. lia. Qed.
