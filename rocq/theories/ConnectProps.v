(** C33: TCP connection attempts. *)
From Verif Require Import Base Decimal EventModel AttrModel PoolModel LabelNames RecordModel ConnectModel ConnectSpec.
From Coq Require Import ZifyBool.
Open Scope string_scope. Open Scope list_scope. Open Scope Z_scope.

(** * Proofs *)
Definition inProg (m : cmap) : Prop := NoDup (keys m) /\ forall k c, aget m k = Some c -> c_state c = Inprogress /\ c_code c = 0 /\ 0 <= c_init c < 2 ^ 63.
Definition view (c : cstats) : pend := {| p_start := c_init c; p_last := c_end c; p_pid := c_pid c; p_comm := c_comm c; p_cid := c_cid c |}.
Definition unview (p : pend) : cstats := {| c_pid := p_pid p; c_comm := p_comm p; c_cid := p_cid p; c_state := Inprogress; c_init := p_start p; c_end := p_last p; c_code := 0 |}.
Lemma unview_view c : c_state c = Inprogress -> c_code c = 0 -> unview (view c) = c.
Proof. destruct c; cbn. intros -> ->. reflexivity. Qed.

(** One event on the whole map, in the words of the specification. *)
Definition hearMap (e : event) (m : cmap) : option (ckey * cstats) * cmap :=
  match says e with
  | None => (None, m)
  | Some (k, w) =>
      match hearing (option_map view (aget m k)) e w with
      | None => (None, m)
      | Some p => match decided (option_map view (aget m k)) w with
                  | None => (None, aset m k (unview p))
                  | Some (ok, code) => (if kSport k =? 0 then None else Some (k, statsOf p ok code), adel m k)
                  end
      end
  end.
Lemma le_not_err j : forall b, leValue j b <> Err.
Proof. induction j as [|j IHj]; intros [|x b]; cbn [leValue]; try discriminate. specialize (IHj b). destruct (leValue j b); cbn [bind]; congruence. Qed.
Lemma uint_at e n : (exists v, uintAt e n = Some v /\ match getUserAttribute e n with Some kv => bind (getUintValue kv) (fun v => Ok (Some v)) | None => Ok None end = Ok (Some v)) \/
  uintAt e n = None /\ (getUserAttribute e n = None /\ match getUserAttribute e n with Some kv => bind (getUintValue kv) (fun v => Ok (Some v)) | None => Ok None end = Ok None
    \/ match getUserAttribute e n with Some kv => bind (getUintValue kv) (fun v => Ok (Some v)) | None => Ok None end = Panic).
Proof.
  unfold uintAt. destruct (getUserAttribute e n) as [kv|]; [|right; split; [reflexivity|left; split; reflexivity]].
  destruct (getUintValue kv) as [v| |] eqn:E; cbn [bind].
  - left. exists v. split; reflexivity.
  - exfalso. unfold getUintValue in E. destruct (kv_type kv); try discriminate E;
      apply (le_not_err _ _ E).
  - right. split; [reflexivity|right; reflexivity].
Qed.
Lemma attr_key e : (exists k, kernelKey e = Some k /\ attrKey e = Ok k) \/ kernelKey e = None /\ (attrKey e = Err \/ attrKey e = Panic).
Proof.
  unfold kernelKey, attrKey. cbv zeta.
  destruct (uint_at e "sip") as [(v1 & E1 & F1)|[E1 [[_ F1]|F1]]]; destruct (uint_at e "sport") as [(v2 & E2 & F2)|[E2 [[_ F2]|F2]]];
  destruct (uint_at e "dip") as [(v3 & E3 & F3)|[E3 [[_ F3]|F3]]]; destruct (uint_at e "dport") as [(v4 & E4 & F4)|[E4 [[_ F4]|F4]]];
  rewrite E1, F1; rewrite ?E2; rewrite ?E3; rewrite ?E4; cbn [bind]; rewrite ?F2; cbn [bind]; rewrite ?F3; cbn [bind]; rewrite ?F4; cbn [bind];
  first [left; eexists; split; reflexivity|right; split; [reflexivity|auto]].
Qed.
Lemma int_not_err kv : getIntValue kv <> Err.
Proof.
  pose proof le_not_err as X.
  unfold getIntValue. destruct (kv_type kv); try discriminate; (match goal with |- bind (leValue ?n ?b) _ <> Err => specialize (X n b); destruct (leValue n b); cbn [bind]; congruence end).
Qed.
Lemma sys_key e : match socketKey e with Some k => syscallKey e = Ok k | None => syscallKey e = Panic end.
Proof.
  unfold socketKey, syscallKey, getSip, getDip. destruct (e_sip e) as [|s ?]; [reflexivity|]. destruct (e_dip e) as [|d ?]; reflexivity.
Qed.
Lemma receive_inprog k c ev m : c_state c = Inprogress ->
  receive k c ev m = match ev with
    | TcpConnectNoError | ExitNotConcern => (Ok None, aset m k c)
    | ToEstablished | SendRequest | FromEstablished | ExitSuccess => (Ok (Some (setState c Success)), adel m k)
    | TcpConnectError | ExitFailure | Expired => (Ok (Some (setState c Failure)), adel m k)
    end.
Proof. intros E. unfold receive. rewrite E. destruct ev; cbn; try reflexivity; (replace (setState c Inprogress) with c; [reflexivity|destruct c; cbn in *; subst; reflexivity]). Qed.

Lemma not_error r : isNotErrorReturnCode r = existsb (Z.eqb r) inProgressCodes.
Proof. unfold isNotErrorReturnCode, inProgressCodes. cbn [existsb]. destruct (r =? -115), (r =? -114), (r =? -106), (r =? -4); reflexivity. Qed.
Lemma s64_0 : s64 0 = 0. Proof. reflexivity. Qed.

Definition post (r : res (option (ckey * cstats) * cmap)) (m : cmap) : res (option (ckey * cstats) * cmap) :=
  match r with
  | Ok (Some (k, c), m') => Ok (if kSport k =? 0 then None else Some (k, c), m')
  | Ok (None, m') => Ok (None, m')
  | Err => Ok (None, m)
  | Panic => Panic
  end.
Definition hearKW (k : ckey) (w : word) (e : event) (m : cmap) : option (ckey * cstats) * cmap :=
  match hearing (option_map view (aget m k)) e w with
  | None => (None, m)
  | Some p => match decided (option_map view (aget m k)) w with
              | None => (None, aset m k (unview p))
              | Some (ok, code) => (if kSport k =? 0 then None else Some (k, statsOf p ok code), adel m k)
              end
  end.
Definition said (k : option ckey) (w : option word) (e : event) (m : cmap) : option (ckey * cstats) * cmap :=
  match k, w with Some k, Some w => hearKW k w e m | _, _ => (None, m) end.
Lemma read_exit e m p : inProg m -> post (readConnectExit e m) m = Ok p -> p = said (socketKey e) (option_map Returned (intAt e "res")) e m.
Proof.
  intros [_ I] H. unfold readConnectExit in H. unfold intAt. pose proof (sys_key e) as K. destruct (getUserAttribute e "res") as [kv|]; [|cbn in H; inversion H; destruct (socketKey e); reflexivity].
  pose proof (int_not_err kv) as NE. destruct (getIntValue kv) as [r| |]; cbn [bind] in H; [|congruence|discriminate H].
  destruct (socketKey e) as [k|]; rewrite K in H; cbn [bind] in H; [|discriminate H]. cbn [option_map said]. unfold hearKW.
  destruct (aget m k) as [c|] eqn:G; cbn [option_map hearing]; [|cbn in H; inversion H; reflexivity]. destruct (I k c G) as (S & C & _).
  rewrite not_error in H. cbn [decided]. destruct (r =? 0).
  - rewrite receive_inprog in H by exact S. cbn in H. inversion H. rewrite C. reflexivity.
  - destruct (existsb (Z.eqb r) inProgressCodes); rewrite receive_inprog in H by exact S; cbn in H; inversion H; [|reflexivity].
    unfold withProc, unview, view. cbn. rewrite S, C. reflexivity.
Qed.
Lemma read_send e m p : inProg m -> post (readSend e m) m = Ok p -> p = said (socketKey e) (Some Wrote) e m.
Proof.
  intros [_ I] H. unfold readSend in H. pose proof (sys_key e) as K.
  destruct (socketKey e) as [k|]; rewrite K in H; cbn [bind] in H; [|discriminate H]. cbn [said]. unfold hearKW.
  destruct (aget m k) as [c|] eqn:G; cbn [option_map hearing]; [|cbn in H; inversion H; reflexivity]. destruct (I k c G) as (S & C & _).
  rewrite receive_inprog in H by exact S. cbn in H. inversion H. rewrite C. reflexivity.
Qed.
Lemma read_connect e m p : inProg m -> post (readTcpConnect e m) m = Ok p -> p = said (kernelKey e) (option_map Began (uintAt e "retval")) e m.
Proof.
  intros [_ I] H. unfold readTcpConnect in H. destruct (attr_key e) as [(k & -> & K)|(-> & [K|K])]; rewrite K in H; cbn [bind] in H; [|cbn in H; inversion H; reflexivity|discriminate H].
  destruct (uint_at e "retval") as [(r & -> & A)|(-> & [[A _]|A])]; cbn [option_map said].
  - destruct (getUserAttribute e "retval") as [kv|]; [|discriminate A]. destruct (getUintValue kv) as [v| |]; cbn [bind] in *; try discriminate A. inversion A; subst v; clear A.
    unfold hearKW. cbn [decided]. destruct (aget m k) as [c|] eqn:G; cbn [option_map hearing].
    + destruct (I k c G) as (S & C & _). rewrite receive_inprog in H by exact S. destruct (r =? 0) eqn:R; cbn in H; inversion H; [|reflexivity].
      apply Z.eqb_eq in R. subst r. unfold withEnd, unview. cbn. rewrite S. reflexivity.
    + rewrite receive_inprog in H by reflexivity. destruct (r =? 0) eqn:R; cbn in H; inversion H; [|reflexivity]. apply Z.eqb_eq in R. subst r. reflexivity.
  - rewrite A in H. cbn in H. inversion H. reflexivity.
  - destruct (getUserAttribute e "retval") as [kv|]; [|discriminate A]. destruct (getUintValue kv) as [v| |]; cbn [bind] in *; discriminate.
Qed.
Definition stateWord (o n : option Z) : option word := match o, n with Some o, Some n => if o =? 1 then Some Left else if n =? 1 then Some Became else None | _, _ => None end.
Lemma read_state e m p : inProg m -> post (readSetState e m) m = Ok p -> p = said (kernelKey e) (stateWord (intAt e "old_state") (intAt e "new_state")) e m.
Proof.
  intros [_ I] H. unfold readSetState in H. destruct (attr_key e) as [(k & -> & K)|(-> & [K|K])]; rewrite K in H; cbn [bind] in H; [|cbn in H; inversion H; reflexivity|discriminate H].
  unfold intAt. destruct (getUserAttribute e "old_state") as [o|]; [|cbn in H; inversion H; reflexivity].
  destruct (getUserAttribute e "new_state") as [n|]; [|cbn in H; inversion H; destruct (getIntValue o); reflexivity].
  pose proof (int_not_err o) as No. pose proof (int_not_err n) as Nn.
  destruct (getIntValue o) as [ov| |]; cbn [bind] in H; [|congruence|discriminate H]. destruct (getIntValue n) as [nv| |]; cbn [bind] in H; [|congruence|discriminate H].
  cbn [stateWord]. destruct (ov =? 1); [|destruct (nv =? 1); [|cbn in H; inversion H; reflexivity]]; cbn [said]; unfold hearKW;
    (destruct (aget m k) as [c|] eqn:G; cbn [option_map hearing]; [|cbn in H; inversion H; reflexivity]); destruct (I k c G) as (S & C & _);
    rewrite receive_inprog in H by exact S; cbn in H; inversion H; rewrite C; reflexivity.
Qed.
Lemma consume_hear e m p : inProg m -> consumeConnectEvent e m = Ok p -> p = hearMap e m.
Proof.
  intros I H. unfold consumeConnectEvent in H. cbv zeta in H. fold (post (if eqb (e_name e) "connect" then if isTcp e then readConnectExit e m else Ok (None, m)
           else if eqb (e_name e) "tcp_connect" then readTcpConnect e m
           else if eqb (e_name e) "tcp_set_state" then readSetState e m
           else if memS (e_name e) ["write"; "writev"; "sendto"; "sendmsg"] then if filterRequestEvent e then Ok (None, m) else readSend e m
           else Ok (None, m)) m) in H.
  assert (F : forall k w, said k w e m = match (match k, w with Some k, Some w => Some (k, w) | _, _ => None end) with None => (None, m) | Some (k, w) => hearKW k w e m end)
    by (intros [k|] [w|]; reflexivity).
  unfold hearMap, says.
  destruct (eqb (e_name e) "connect") eqn:N1.
  { apply eqb_true in N1. rewrite N1. cbn [eqb Eqb_string String.eqb Ascii.eqb Bool.eqb]. destruct (isTcp e); [|inversion H; reflexivity].
    rewrite (read_exit e m p I H), F. destruct (socketKey e), (intAt e "res"); reflexivity. }
  destruct (eqb (e_name e) "tcp_connect") eqn:N2.
  { rewrite (read_connect e m p I H), F. destruct (kernelKey e), (uintAt e "retval"); reflexivity. }
  destruct (eqb (e_name e) "tcp_set_state") eqn:N3.
  { rewrite (read_state e m p I H), F. destruct (kernelKey e), (intAt e "old_state"), (intAt e "new_state"); try reflexivity. cbn [stateWord]. destruct (z =? 1); [reflexivity|]. destruct (z0 =? 1); reflexivity. }
  destruct (memS (e_name e) _) eqn:N4; [|inversion H; reflexivity].
  unfold filterRequestEvent in H. destruct (e_net e); cbn [negb orb andb] in *; [|inversion H; reflexivity].
  destruct (isTcp e); cbn [negb orb andb] in *; [|inversion H; reflexivity].
  unfold socketKey. pose proof (read_send e m p I) as X. unfold socketKey in X.
  destruct (e_sip e); cbn [orb] in *; [inversion H; reflexivity|]. destruct (e_dip e); cbn [orb] in *; [inversion H; reflexivity|]. rewrite (X H). reflexivity.
Qed.

Lemma hearing_start e w p p' : hearing p e w = Some p' -> p_start p' = match p with Some q => p_start q | None => e_ts e end.
Proof. destruct p, w; cbn; intros H; inversion H; reflexivity. Qed.
Lemma hear_inprog e m : 0 <= e_ts e < 2 ^ 63 -> inProg m -> inProg (snd (hearMap e m)).
Proof.
  intros T [N I]. unfold hearMap. destruct (says e) as [[k w]|]; [|split; assumption]. destruct (hearing _ e w) as [p|] eqn:H; [|split; assumption].
  destruct (decided _ w) as [[ok code]|]; cbn [snd].
  - split; [apply NoDup_keys_adel; exact N|]. intros k' c. rewrite aget_adel. case_eqb k' k; [discriminate|apply I].
  - split; [apply NoDup_keys_aset; exact N|]. intros k' c. rewrite aget_aset. case_eqb k' k; [|apply I].
    intros E'. inversion E'; subst c; clear E'. cbn [unview c_state c_code c_init]. split; [reflexivity|]. split; [reflexivity|]. apply hearing_start in H.
    destruct (aget m k) as [c|] eqn:G; cbn [option_map] in H; rewrite H; [apply (I k c G)|exact T].
Qed.
(** * A scan *)
Definition scanned (waitSec : Z) (o : kop) (k : ckey) (c : cstats) : option (bool * Z) := decision waitSec k (Some (view c)) o.
Lemma scan_event now waitSec look k c : 0 <= now < 2 ^ 63 -> 0 <= c_init c < 2 ^ 63 -> 0 <= waitSec * 1000000000 < 2 ^ 63 ->
  match scanEvent now waitSec look k c with
  | None => scanned waitSec (KScan now look) k c = None
  | Some Expired => scanned waitSec (KScan now look) k c = Some (false, 0)
  | Some ToEstablished | Some FromEstablished => scanned waitSec (KScan now look) k c = Some (true, 0)
  | _ => False
  end.
Proof.
  intros Rn Ri Rw. unfold scanEvent, scanned, decision. cbn [view p_pid p_start]. destruct (c_pid c =? 0); cbn [orb]; [reflexivity|].
  assert (S : forall x, - 2 ^ 63 <= x < 2 ^ 63 -> s64 x = x) by (intros x B; unfold s64; rewrite Z.mod_small by lia; lia).
  rewrite (S (c_init c)) by lia. rewrite (S (now - c_init c)) by lia. rewrite (S (waitSec * 1000000000)) by lia.
  destruct (now - c_init c <? waitSec * 1000000000); [reflexivity|]. destruct (look (c_pid c) k) as [| |st]; try reflexivity.
  case_eqb st (bs "01"); [subst; reflexivity|]. destruct (eqb st (bs "02") || eqb st (bs "03")); reflexivity.
Qed.
Lemma scan_spec now waitSec look : 0 <= now < 2 ^ 63 -> 0 <= waitSec * 1000000000 < 2 ^ 63 -> forall l m,
  NoDup (map fst l) -> (forall k c, In (k, c) l -> c_state c = Inprogress /\ c_code c = 0 /\ 0 <= c_init c < 2 ^ 63) ->
  let r := scan now waitSec look l m in
  (forall k c', In (k, c') (fst r) <-> exists c ok code, In (k, c) l /\ scanned waitSec (KScan now look) k c = Some (ok, code) /\ c' = statsOf (view c) ok code) /\
  NoDup (map fst (fst r)) /\
  (NoDup (keys m) -> NoDup (keys (snd r))) /\
  forall k, aget (snd r) k = if existsb (fun x => eqb (fst x) k && match scanned waitSec (KScan now look) (fst x) (snd x) with Some _ => true | None => false end) l then None else aget m k.
Proof.
  intros Rn Rw. induction l as [|[k c] l IH]; intros m N I; cbn zeta.
  - cbn. split; [|split; [constructor|split; [auto|reflexivity]]]. intros k c'. split; [intros []|intros (c & ok & code & [] & _)].
  - cbn [map fst] in N. inversion N as [|? ? NI N']; subst. destruct (I k c (or_introl eq_refl)) as (S & C & R).
    assert (I' : forall k0 c0, In (k0, c0) l -> c_state c0 = Inprogress /\ c_code c0 = 0 /\ 0 <= c_init c0 < 2 ^ 63) by (intros k0 c0 J; exact (I k0 c0 (or_intror J))).
    cbn [scan]. pose proof (scan_event now waitSec look k c Rn R Rw) as E. destruct (scanEvent now waitSec look k c) as [ev|].
    2:{ specialize (IH m N' I'). cbn zeta in IH. destruct IH as (A & B & B' & D). split; [|split; [exact B|split; [exact B'|]]].
        - intros k' c'. rewrite A. split; [intros (c0 & ok & code & J & X); exists c0, ok, code; split; [right; exact J|exact X]|].
          intros (c0 & ok & code & [J|J] & X & Y); [inversion J; subst; congruence|exists c0, ok, code; auto].
        - intros k'. rewrite D. cbn [existsb fst snd]. rewrite E, andb_false_r. reflexivity. }
    assert (W : exists ok, scanned waitSec (KScan now look) k c = Some (ok, 0) /\ receive k c ev m = (Ok (Some (statsOf (view c) ok 0)), adel m k)).
    { rewrite receive_inprog by exact S. destruct ev; try contradiction; eexists; (split; [exact E|]); unfold setState, statsOf, view; cbn; rewrite C; reflexivity. }
    destruct W as (ok & W1 & W2). rewrite W2. specialize (IH (adel m k) N' I'). cbn zeta in IH. destruct (scan now waitSec look l (adel m k)) as [rs m2]. cbn [fst snd] in *.
    destruct IH as (A & B & B' & D). split; [|split; [|split]].
    + intros k' c'. cbn [In]. rewrite A. split.
      * intros [J|(c0 & ok0 & code & J & X)]; [inversion J; subst; exists c, ok, 0; split; [left; reflexivity|split; [exact W1|reflexivity]]|exists c0, ok0, code; split; [right; exact J|exact X]].
      * intros (c0 & ok0 & code & [J|J] & X & Y); [inversion J; subst; left; assert (ok0 = ok /\ code = 0) as [-> ->] by (split; congruence); reflexivity|right; exists c0, ok0, code; auto].
    + cbn [map fst]. constructor; [|exact B]. intros J. apply in_map_iff in J. destruct J as ([k0 c0] & Ek & J). cbn in Ek. subst k0. apply A in J. destruct J as (c1 & ok1 & code1 & J & _).
      apply NI. apply (in_map fst) in J. exact J.
    + intros Nm. apply B'. apply NoDup_keys_adel. exact Nm.
    + intros k'. rewrite D, aget_adel. cbn [existsb fst snd]. rewrite W1, andb_true_r, (eqb_sym k' k). destruct (eqb k k'); cbn [orb]; [destruct (existsb _ l); reflexivity|reflexivity].
Qed.

(** * Histories *)
Definition waitOk (w : Z) : Prop := 0 <= w * 1000000000 < 2 ^ 63.
Lemma krun_snoc w : forall h m o, krun w m (h ++ [o]) = bind (krun w m h) (fun p => bind (kstep w (snd p) o) (fun q => Ok (fst p ++ [fst q], snd q))).
Proof.
  induction h as [|a h IH]; intros m o; cbn [app krun].
  - cbn [bind fst snd app]. destruct (kstep w m o); reflexivity.
  - destruct (kstep w m a) as [p| |]; cbn [bind]; try reflexivity. rewrite IH. destruct (krun w (snd p) h) as [q| |]; cbn [bind fst snd]; try reflexivity.
    destruct (kstep w (snd q) o); reflexivity.
Qed.
Definition tr (h : list kop) (outs : list (list (ckey * cstats))) : trace := rev (combine h outs).
Lemma tr_snoc h outs o out : List.length outs = List.length h -> tr (h ++ [o]) (outs ++ [out]) = (o, out) :: tr h outs.
Proof.
  intros L. unfold tr. assert (E : combine (h ++ [o]) (outs ++ [out]) = combine h outs ++ [(o, out)]).
  { revert outs L. induction h as [|a h IH]; intros [|b outs] L; try discriminate L; [reflexivity|]. cbn [app combine]. rewrite IH by (cbn in L; lia). reflexivity. }
  rewrite E, rev_app_distr. reflexivity.
Qed.
Lemma underway_snoc k ops o : underway k (ops ++ [o]) = hear k (underway k ops) o.
Proof. unfold underway. rewrite fold_left_app. reflexivity. Qed.

(** One step: the attempts afterwards and the reports. *)
Lemma kstep_full w m o out m' : waitOk w -> inProg m -> saneOp o -> kstep w m o = Ok (out, m') ->
  inProg m' /\ NoDup (map fst out) /\
  (forall k c, match o with KEvent _ => kSport k <> 0 | _ => True end -> (In (k, c) out <-> exists ok code p', decision w k (option_map view (aget m k)) o = Some (ok, code) /\ hear k (option_map view (aget m k)) o = Some p' /\ c = statsOf p' ok code)) /\
  (forall x, In x out -> match o with KEvent _ => kSport (fst x) <> 0 | _ => True end) /\
  (forall k, option_map view (aget m' k) = match decision w k (option_map view (aget m k)) o with Some _ => None | None => hear k (option_map view (aget m k)) o end).
Proof.
  intros W P S H. destruct o as [e|now look]; cbn [kstep saneOp] in *.
  - destruct (consumeConnectEvent e m) as [p| |] eqn:C; cbn [bind] in H; inversion H; subst; clear H. apply consume_hear in C; [|exact P]. subst p.
    split; [apply hear_inprog; assumption|]. unfold hearMap. cbn [decision hear].
    destruct (says e) as [[k0 w0]|]; cbn [fst snd].
    2:{ split; [constructor|]. split; [|split; [intros ? []|reflexivity]]. intros k c _. split; [intros []|intros (ok & code & p' & X & _); discriminate X]. }
    destruct (hearing (option_map view (aget m k0)) e w0) as [p|] eqn:Hh; cbn [fst snd].
    2:{ assert (D : decided (option_map view (aget m k0)) w0 = None) by (destruct (aget m k0), w0; cbn in *; try discriminate Hh; reflexivity).
        split; [constructor|]. split; [|split; [intros ? []|]].
        - intros k c _. split; [intros []|]. intros (ok & code & p' & X & _). case_eqb k0 k; [subst; congruence|discriminate X].
        - intros k. case_eqb k0 k; [subst; rewrite D, Hh; destruct (aget m k) as [c|]; [destruct w0; discriminate Hh|reflexivity]|reflexivity]. }
    destruct (decided (option_map view (aget m k0)) w0) as [[ok code]|] eqn:D; cbn [fst snd].
    + split; [destruct (kSport k0 =? 0); constructor; [intros []|constructor]|]. split; [|split].
      * intros k c Sp. split.
        -- intros J. destruct (kSport k0 =? 0); [destruct J|]. destruct J as [J|[]]. inversion J; subst. exists ok, code, p. rewrite eqb_refl, D, Hh. auto.
        -- intros (ok' & code' & p' & X & Y & ->). case_eqb k0 k; [|discriminate X]. subst k. rewrite D in X. rewrite Hh in Y. inversion X; inversion Y; subst.
           replace (kSport k0 =? 0) with false by lia. left. reflexivity.
      * intros x J. destruct (kSport k0 =? 0) eqn:Z0; [destruct J|]. destruct J as [<-|[]]. cbn [fst]. lia.
      * intros k. rewrite aget_adel, (eqb_sym k k0). case_eqb k0 k; [subst; rewrite D; reflexivity|reflexivity].
    + split; [constructor|]. split; [|split; [intros ? []|]].
      * intros k c _. split; [intros []|]. intros (ok & code & p' & X & _). case_eqb k0 k; [subst; congruence|discriminate X].
      * intros k. rewrite aget_aset, (eqb_sym k k0). case_eqb k0 k; [subst; rewrite D, Hh; destruct p; reflexivity|reflexivity].
  - inversion H as [H']; clear H. destruct P as [N I].
    assert (I' : forall k c, In (k, c) m -> c_state c = Inprogress /\ c_code c = 0 /\ 0 <= c_init c < 2 ^ 63) by (intros k c J; apply (I k c); apply in_aget; assumption).
    pose proof (scan_spec now w look S W m m N I') as X. cbn zeta in X. rewrite H' in X. cbn [fst snd] in X. destruct X as (A & B & B' & D).
    assert (E : forall k c, aget m k = Some c -> existsb (fun x => eqb (fst x) k && match scanned w (KScan now look) (fst x) (snd x) with Some _ => true | None => false end) m =
      match scanned w (KScan now look) k c with Some _ => true | None => false end).
    { intros k c G. destruct (scanned w (KScan now look) k c) eqn:Z.
      - apply existsb_exists. exists (k, c). split; [apply aget_in; exact G|]. cbn [fst snd]. rewrite eqb_refl, Z. reflexivity.
      - destruct (existsb _ m) eqn:F; [|reflexivity]. apply existsb_exists in F. destruct F as ([k' c'] & J & F). cbn [fst snd] in F. apply andb_true_iff in F. destruct F as [F1 F2]. apply eqb_true in F1. subst k'.
        apply in_aget in J; [|exact N]. assert (c' = c) by congruence. subst. rewrite Z in F2. discriminate F2. }
    split; [|split; [exact B|split; [|split; [intros; exact Logic.I|]]]].
    + split; [apply B'; exact N|]. intros k c G. rewrite D in G. destruct (existsb _ m); [discriminate G|]. exact (I k c G).
    + intros k c Sp. rewrite A. split.
      * intros (c0 & ok & code & J & X & ->). apply in_aget in J; [|exact N]. rewrite J. exists ok, code, (view c0). split; [exact X|]. split; reflexivity.
      * intros (ok & code & p' & X & Y & ->). cbn [hear] in Y. destruct (aget m k) as [c0|] eqn:G; cbn [option_map] in *; [|discriminate Y]. inversion Y; subst. exists c0, ok, code.
        split; [apply aget_in; exact G|]. split; [exact X|reflexivity].
    + intros k. rewrite D. cbn [hear]. destruct (aget m k) as [c|] eqn:G; [|destruct (existsb _ m); reflexivity]. rewrite (E k c G). cbn [option_map]. unfold scanned.
      destruct (decision w k (Some (view c)) (KScan now look)); [reflexivity|reflexivity].
Qed.
Lemma kstep_spec w m o out m' : waitOk w -> inProg m -> saneOp o -> kstep w m o = Ok (out, m') ->
  inProg m' /\ NoDup (map fst out) /\
  (forall k c, kSport k <> 0 -> (In (k, c) out <-> exists ok code p', decision w k (option_map view (aget m k)) o = Some (ok, code) /\ hear k (option_map view (aget m k)) o = Some p' /\ c = statsOf p' ok code)) /\
  (forall k, kSport k <> 0 -> option_map view (aget m' k) = match decision w k (option_map view (aget m k)) o with Some _ => None | None => hear k (option_map view (aget m k)) o end).
Proof.
  intros W P S H. destruct (kstep_full w m o out m' W P S H) as (A & B & C & _ & D). split; [exact A|]. split; [exact B|]. split; [|auto].
  intros k c Sp. apply C. destruct o; [exact Sp|exact Logic.I].
Qed.

Record world (w : Z) (h : list kop) (outs : list (list (ckey * cstats))) (m : cmap) : Prop := {
  kw_prog : inProg m;
  kw_len : List.length outs = List.length h;
  kw_pend : forall k, kSport k <> 0 -> option_map view (aget m k) = underway k (since k (tr h outs)) }.
Lemma krun_world w : waitOk w -> forall h outs m, Forall saneOp h -> krun w [] h = Ok (outs, m) -> world w h outs m.
Proof.
  intros W. induction h as [|o h IH] using rev_ind; intros outs m F H.
  - inversion H; subst. split; [split; [constructor|discriminate]|reflexivity|reflexivity].
  - apply Forall_app in F. destruct F as [F1 F2]. inversion F2 as [|? ? S _]; subst. rewrite krun_snoc in H.
    destruct (krun w [] h) as [[outs1 m1]| |] eqn:R; cbn [bind fst snd] in H; try discriminate H. destruct (kstep w m1 o) as [[out m2]| |] eqn:K; cbn [bind fst snd] in H; try discriminate H.
    inversion H; subst; clear H. destruct (IH outs1 m1 F1 eq_refl) as [P L Q]. destruct (kstep_spec w m1 o out m W P S K) as (P' & N & A & B).
    split; [exact P'|rewrite !app_length, L; reflexivity|]. intros k Sp. rewrite tr_snoc by exact L. cbn [since]. rewrite (B k Sp).
    destruct (decision w k (option_map view (aget m1 k)) o) as [[ok code]|] eqn:D.
    + assert (X : exists p', hear k (option_map view (aget m1 k)) o = Some p').
      { destruct o as [e|now look]; cbn [decision hear] in *; [destruct (says e) as [[k' w']|]; [|discriminate D]; destruct (eqb k' k); [|discriminate D]; destruct (aget m1 k), w'; cbn in *; try discriminate D; eexists; reflexivity|].
        destruct (aget m1 k); cbn in *; [eexists; reflexivity|discriminate D]. }
      destruct X as [p' X]. assert (Y : In (k, statsOf p' ok code) out) by (apply A; [exact Sp|]; exists ok, code, p'; auto).
      assert (Z : reportedIn k out = true) by (apply existsb_exists; eexists; split; [exact Y|]; apply eqb_refl). rewrite Z. reflexivity.
    + assert (Z : reportedIn k out = false).
      { destruct (reportedIn k out) eqn:Z; [|reflexivity]. apply existsb_exists in Z. destruct Z as ([k' c'] & J & E). cbn [fst] in E. apply eqb_true in E. subst k'. apply A in J; [|exact Sp].
        destruct J as (ok & code & p' & X & _). rewrite D in X. discriminate X. }
      rewrite Z, underway_snoc, <- (Q k Sp). reflexivity.
Qed.

(** After any history, what is kept about a connection is exactly the attempt under way: the events about it since its last report. *)
Theorem C33_pending w h outs m k : waitOk w -> Forall saneOp h -> krun w [] h = Ok (outs, m) -> kSport k <> 0 ->
  aget m k = option_map unview (underway k (since k (tr h outs))).
Proof.
  intros W F H Sp. destruct (krun_world w W h outs m F H) as [[_ I] _ Q]. rewrite <- (Q k Sp). destruct (aget m k) as [c|] eqn:G; [|reflexivity]. cbn [option_map].
  destruct (I k c G) as (S & C & _). rewrite unview_view by assumption. reflexivity.
Qed.
Print Assumptions C33_pending.
(** An operation reports a connection exactly if it decides the attempt under way, with that attempt's process and times; it reports no
    connection twice. *)
Theorem C33_report w h o outs out m : waitOk w -> Forall saneOp (h ++ [o]) -> krun w [] (h ++ [o]) = Ok (outs ++ [out], m) ->
  NoDup (map fst out) /\
  forall k c, kSport k <> 0 -> let p := underway k (since k (tr h outs)) in
    (In (k, c) out <-> exists ok code p', decision w k p o = Some (ok, code) /\ hear k p o = Some p' /\ c = statsOf p' ok code).
Proof.
  intros W F H. apply Forall_app in F. destruct F as [F1 F2]. inversion F2 as [|? ? S _]; subst. rewrite krun_snoc in H.
  destruct (krun w [] h) as [[outs1 m1]| |] eqn:R; cbn [bind fst snd] in H; try discriminate H. destruct (kstep w m1 o) as [[out1 m2]| |] eqn:K; cbn [bind fst snd] in H; try discriminate H.
  inversion H as [[E1 E2]]. apply app_inj_tail in E1. destruct E1 as [-> ->]. subst m2. destruct (krun_world w W h outs m1 F1 R) as [P L Q].
  destruct (kstep_spec w m1 o out m W P S K) as (_ & N & A & _). split; [exact N|]. intros k c Sp. cbv zeta. rewrite <- (Q k Sp). apply A. exact Sp.
Qed.
Print Assumptions C33_report.

Lemma reported_at w k : kSport k <> 0 -> waitOk w -> forall h o outs out m, Forall saneOp (h ++ [o]) -> krun w [] (h ++ [o]) = Ok (outs ++ [out], m) -> reportedIn k out = true ->
  exists ok code p', decision w k (underway k (since k (tr h outs))) o = Some (ok, code) /\ hear k (underway k (since k (tr h outs))) o = Some p' /\ In (k, statsOf p' ok code) out.
Proof.
  intros Sp W h o outs out m F H R. apply existsb_exists in R. destruct R as ([k' c] & J & E). cbn [fst] in E. apply eqb_true in E. subst k'.
  destruct (C33_report w h o outs out m W F H) as [_ A]. pose proof (proj1 (A k c Sp) J) as (ok & code & p' & X & Y & ->). exists ok, code, p'. auto.
Qed.
(** The kinds of operations that settle an attempt. *)
Definition saysOf (o : kop) : option (ckey * word) := match o with KEvent e => says e | _ => None end.
Definition begins (k : ckey) (o : kop) : Prop := exists r, saysOf o = Some (k, Began r).
(** Success is reported only when the connect call returned 0, data was sent, the socket became or left established, or a scan found it past
    the handshake; failure only when the kernel or the connect call gave an error, or when a scan after the waiting time found the process
    or the socket gone. *)
Theorem C33_outcome w h o outs out m k c : waitOk w -> Forall saneOp (h ++ [o]) -> krun w [] (h ++ [o]) = Ok (outs ++ [out], m) -> kSport k <> 0 -> In (k, c) out ->
  match c_state c with
  | Success => c_code c = 0 /\ (saysOf o = Some (k, Returned 0) \/ saysOf o = Some (k, Wrote) \/ saysOf o = Some (k, Became) \/ saysOf o = Some (k, Left) \/
      exists now look st, o = KScan now look /\ look (c_pid c) k = SocketState st /\ st <> bs "02" /\ st <> bs "03" /\ c_pid c <> 0 /\ c_init c + w * 1000000000 <= now)
  | Failure => (exists r, saysOf o = Some (k, Began r) /\ r <> 0 /\ c_code c = s64 r) \/
      (exists r, saysOf o = Some (k, Returned r) /\ r <> 0 /\ ~ In r inProgressCodes /\ c_code c = r) \/
      (exists now look, o = KScan now look /\ (look (c_pid c) k = NoProcess \/ look (c_pid c) k = NoSocket) /\ c_pid c <> 0 /\ c_init c + w * 1000000000 <= now /\ c_code c = 0)
  | Inprogress => False
  end.
Proof.
  intros W F H Sp J. destruct (C33_report w h o outs out m W F H) as [_ A]. pose proof (proj1 (A k c Sp) J) as (ok & code & p' & D & E & ->). cbv zeta in *. set (p := underway k _) in *. clearbody p.
  destruct o as [e|now look]; cbn [decision hear saysOf] in *.
  - destruct (says e) as [[k' v]|]; [|discriminate D]. case_eqb k' k; [|discriminate D]. subst k'. cbn [statsOf c_state c_code].
    destruct v; cbn [decided] in D.
    + destruct (ret =? 0) eqn:R; inversion D; subst. left. exists ret. split; [reflexivity|]. split; [lia|reflexivity].
    + destruct p as [q|]; [|discriminate D]. destruct (ret =? 0) eqn:R; [inversion D; subst; split; [reflexivity|]; left; do 3 f_equal; lia|].
      destruct (existsb (Z.eqb ret) inProgressCodes) eqn:X; inversion D; subst. right. left. exists code. split; [reflexivity|]. split; [lia|]. split; [|reflexivity].
      intros I. assert (existsb (Z.eqb code) inProgressCodes = true) by (apply existsb_exists; exists code; split; [exact I|lia]). congruence.
    + destruct p; inversion D; subst. split; [reflexivity|]. tauto.
    + destruct p; inversion D; subst. split; [reflexivity|]. tauto.
    + destruct p; inversion D; subst. split; [reflexivity|]. tauto.
  - destruct p as [q|]; [|discriminate D]. inversion E; subst q. destruct (p_pid p' =? 0) eqn:Z0; cbn [orb] in D; [discriminate D|]. destruct (now - p_start p' <? w * 1000000000) eqn:T; [discriminate D|].
    cbn [statsOf c_state c_code c_pid c_init]. destruct (look (p_pid p') k) as [| |st] eqn:L.
    + inversion D; subst. right. right. exists now, look. split; [reflexivity|]. split; [auto|]. split; [lia|]. split; [lia|reflexivity].
    + inversion D; subst. right. right. exists now, look. split; [reflexivity|]. split; [auto|]. split; [lia|]. split; [lia|reflexivity].
    + destruct (eqb st (bs "02")) eqn:E2; cbn [orb] in D; [discriminate D|]. destruct (eqb st (bs "03")) eqn:E3; inversion D; subst. split; [reflexivity|]. do 4 right. exists now, look, st.
      apply eqb_neq in E2. apply eqb_neq in E3. split; [reflexivity|]. split; [exact L|]. split; [exact E2|]. split; [exact E3|]. split; lia.
Qed.
Print Assumptions C33_outcome.

Lemma underway_none k ops : (forall o, In o ops -> ~ begins k o) -> underway k ops = None.
Proof.
  induction ops as [|o ops IH] using rev_ind; intros N; [reflexivity|]. rewrite underway_snoc, IH by (intros o' J; apply N; apply in_or_app; left; exact J).
  specialize (N o ltac:(apply in_or_app; right; left; reflexivity)). destruct o as [e|]; cbn [hear]; [|reflexivity]. unfold begins in N. cbn [saysOf] in N. destruct (says e) as [[k' v]|]; [|reflexivity].
  case_eqb k' k; [|reflexivity]. subst k'. destruct v; cbn [hearing]; try reflexivity. exfalso. apply N. eexists. reflexivity.
Qed.
Lemma since_app k o out rt1 rt2 : reportedIn k out = true -> forall x, In x (since k (rt1 ++ (o, out) :: rt2)) -> In x (map fst rt1).
Proof.
  intros R. induction rt1 as [|[o1 out1] rt1 IH]; intros x J; cbn [app since map fst] in *; [rewrite R in J; destruct J|].
  destruct (reportedIn k out1); [destruct J|]. apply in_app_iff in J. destruct J as [J|[<-|[]]]; [right; apply IH; exact J|left; reflexivity].
Qed.
(** Two reports about a connection are separated by a new attempt. *)
Theorem C33_once w h1 o1 h2 o2 outs1 out1 outs2 out2 m k : waitOk w -> Forall saneOp (h1 ++ o1 :: h2 ++ [o2]) ->
  krun w [] (h1 ++ o1 :: h2 ++ [o2]) = Ok (outs1 ++ out1 :: outs2 ++ [out2], m) -> List.length outs1 = List.length h1 -> List.length outs2 = List.length h2 ->
  kSport k <> 0 -> reportedIn k out1 = true -> reportedIn k out2 = true -> exists o, In o (h2 ++ [o2]) /\ begins k o.
Proof.
  intros W F H L1 L2 Sp R1 R2.
  replace (h1 ++ o1 :: h2 ++ [o2]) with ((h1 ++ o1 :: h2) ++ [o2]) in F, H by (rewrite <- app_assoc; reflexivity).
  replace (outs1 ++ out1 :: outs2 ++ [out2]) with ((outs1 ++ out1 :: outs2) ++ [out2]) in H by (rewrite <- app_assoc; reflexivity).
  destruct (reported_at w k Sp W _ _ _ _ _ F H R2) as (ok & code & p' & D & E & J).
  assert (T : tr (h1 ++ o1 :: h2) (outs1 ++ out1 :: outs2) = tr h2 outs2 ++ (o1, out1) :: tr h1 outs1).
  { unfold tr. assert (C : combine (h1 ++ o1 :: h2) (outs1 ++ out1 :: outs2) = combine h1 outs1 ++ (o1, out1) :: combine h2 outs2).
    { clear -L1. revert outs1 L1. induction h1 as [|a h1 IH]; intros [|b outs1] L1; try discriminate L1; [reflexivity|]. cbn [app combine]. rewrite IH by (cbn in L1; lia). reflexivity. }
    rewrite C, rev_app_distr. cbn [rev]. rewrite <- app_assoc. reflexivity. }
  rewrite T in *. destruct (underway k (since k (tr h2 outs2 ++ (o1, out1) :: tr h1 outs1))) as [p|] eqn:U.
  - assert (X : exists o, In o h2 /\ begins k o).
    { assert (Dec : forall ops, (exists o, In o ops /\ begins k o) \/ forall o, In o ops -> ~ begins k o).
      { clear. induction ops as [|o ops IH]; [right; intros o []|]. assert (B : begins k o \/ ~ begins k o).
        { unfold begins. destruct (saysOf o) as [[k' [r| | | | ]]|]; try (right; intros [r0 X]; discriminate X). case_eqb k' k; [left; exists r; subst; reflexivity|right; intros [r0 X]; congruence]. }
        destruct B as [B|B]; [left; exists o; split; [left; reflexivity|exact B]|]. destruct IH as [(o' & I & X)|N]; [left; exists o'; split; [right; exact I|exact X]|right; intros o' [<-|I]; auto]. }
      destruct (Dec (since k (tr h2 outs2 ++ (o1, out1) :: tr h1 outs1))) as [(o & I & B)|N].
      - exists o. split; [|exact B]. apply since_app in I; [|exact R1]. unfold tr in I. rewrite map_rev in I. apply in_rev in I. apply in_map_iff in I. destruct I as ([x y] & <- & I). apply in_combine_l in I. exact I.
      - exfalso. rewrite (underway_none k _ N) in U. discriminate U. }
    destruct X as (o & I & B). exists o. split; [apply in_or_app; left; exact I|exact B].
  - exists o2. split; [apply in_or_app; right; left; reflexivity|]. destruct o2 as [e|now look]; cbn [hear] in E; [|discriminate E]. unfold begins. cbn [saysOf].
    destruct (says e) as [[k' v]|]; [|discriminate E]. case_eqb k' k; [|discriminate E]. subst k'. destruct v; try discriminate E. exists ret. reflexivity.
Qed.
Print Assumptions C33_once.
(** The reported attempt started at its first connect event, and its times and process are those of the events about it. *)
Theorem C33_duration w h1 e0 r0 h2 o outs1 outs2 out m k c : waitOk w -> Forall saneOp ((h1 ++ KEvent e0 :: h2) ++ [o]) ->
  krun w [] ((h1 ++ KEvent e0 :: h2) ++ [o]) = Ok ((outs1 ++ outs2) ++ [out], m) -> List.length outs1 = List.length h1 -> kSport k <> 0 ->
  underway k (since k (tr h1 outs1)) = None -> says e0 = Some (k, Began r0) -> (forall x, In x outs2 -> reportedIn k x = false) -> In (k, c) out -> c_init c = e_ts e0.
Proof.
  intros W F H L1 Sp U B NR J. destruct (C33_report w _ o _ out m W F H) as [_ A]. pose proof (proj1 (A k c Sp) J) as (ok & code & p' & D & E & ->). cbv zeta in *. clear J A. cbn [statsOf c_init].
  assert (F' := F). apply Forall_app in F'. destruct F' as [F1 _].
  rewrite krun_snoc in H. destruct (krun w [] (h1 ++ KEvent e0 :: h2)) as [[outsX mX]| |] eqn:R; cbn [bind fst snd] in H; try discriminate H.
  destruct (kstep w mX o) as [q| |]; cbn [bind fst snd] in H; try discriminate H. inversion H as [[E1 E2]]. apply app_inj_tail in E1. destruct E1 as [-> _].
  destruct (krun_world w W _ _ _ F1 R) as [_ Len _]. rewrite !app_length in Len. cbn [List.length] in Len. clear H R.
  assert (X : forall h2' outs2', List.length outs2' = S (List.length h2') -> (forall x, In x outs2' -> reportedIn k x = false) ->
    exists p, underway k (since k (tr (h1 ++ KEvent e0 :: h2') (outs1 ++ outs2'))) = Some p /\ p_start p = e_ts e0).
  { induction h2' as [|a h2' IH] using rev_ind; intros outs2' L N.
    - destruct outs2' as [|x [|? ?]]; try discriminate L. rewrite tr_snoc by exact L1. cbn [since]. rewrite (N x (or_introl eq_refl)), underway_snoc, U. cbn [hear]. rewrite B, eqb_refl. cbn [hearing].
      eexists. split; reflexivity.
    - destruct outs2' as [|x xs] using rev_ind; [discriminate L|]. clear IHxs. rewrite !app_length in L. cbn [List.length] in L.
      destruct (IH xs ltac:(lia) ltac:(intros y I; apply N; apply in_or_app; left; exact I)) as (p & Up & Sp').
      replace (h1 ++ KEvent e0 :: h2' ++ [a]) with ((h1 ++ KEvent e0 :: h2') ++ [a]) by (rewrite <- app_assoc; reflexivity). rewrite (app_assoc outs1 xs [x]).
      rewrite tr_snoc by (rewrite !app_length; cbn [List.length]; lia). cbn [since]. rewrite (N x) by (apply in_or_app; right; left; reflexivity). rewrite underway_snoc, Up.
      destruct a as [e|]; cbn [hear]; [|exists p; auto]. destruct (says e) as [[k' v]|]; [|exists p; auto]. case_eqb k' k; [|exists p; auto]. destruct v; cbn [hearing]; eexists; (split; [reflexivity|exact Sp']). }
  destruct (X h2 outs2 ltac:(lia) NR) as (p & Up & Ps). rewrite Up in E. destruct o as [e|]; cbn [hear] in E; [|inversion E; subst; exact Ps].
  destruct (says e) as [[k' v]|]; [|inversion E; subst; exact Ps]. destruct (eqb k' k); [|inversion E; subst; exact Ps]. destruct v; cbn [hearing] in E; inversion E; subst; exact Ps.
Qed.
Print Assumptions C33_duration.
(** A reported connection is gone. *)
Theorem C33_gone w h o outs out m k : waitOk w -> Forall saneOp (h ++ [o]) -> krun w [] (h ++ [o]) = Ok (outs ++ [out], m) -> kSport k <> 0 -> reportedIn k out = true -> aget m k = None.
Proof.
  intros W F H Sp R. rewrite (C33_pending w _ _ _ k W F H Sp).
  destruct (krun_world w W _ _ _ F H) as [_ Len _]. rewrite !app_length in Len. cbn in Len. rewrite tr_snoc by lia. cbn [since]. rewrite R. reflexivity.
Qed.
Print Assumptions C33_gone.

(** The report: one attempt counted, the duration of a successful one, addresses, outcome and error number; the process only if asked for. *)
Definition lget (g : group) (k : string) : option aval := aget (glabels g) k.
Theorem C33_group dnat needProc p ok code k : 0 <= p_start p -> p_start p <= p_last p -> p_last p < 2 ^ 63 ->
  let g := connectGroup dnat needProc k (statsOf p ok code) in
  getMetric g TcpConnectTotal = Some (MInt 1) /\ getMetric g TcpConnectDuration = (if ok then Some (MInt (p_last p - p_start p)) else None) /\ gts g = p_last p /\
  lget g "success" = Some (BV ok) /\ lget g "errno" = Some (IV code) /\ lget g "is_server" = Some (BV false) /\ lget g "container_id" = Some (SV (p_cid p)) /\
  lget g "src_ip" = Some (SV (kSip k)) /\ lget g "src_port" = Some (IV (kSport k)) /\ lget g "dst_ip" = Some (SV (kDip k)) /\ lget g "dst_port" = Some (IV (kDport k)) /\
  lget g "pid" = (if needProc then Some (IV (p_pid p)) else None) /\ lget g "comm" = (if needProc then Some (SV (p_comm p)) else None) /\
  match dnat (kSip k) (kSport k) (kDip k) (kDport k) with
  | Some (ip, port) => lget g "dnat_ip" = Some (SV ip) /\ lget g "dnat_port" = Some (IV port)
  | None => lget g "dnat_ip" = Some (SV []) /\ lget g "dnat_port" = Some (IV (-1))
  end.
Proof.
  intros A B C. assert (D : s64 (w64 (p_last p - p_start p)) = p_last p - p_start p) by (unfold s64, w64; rewrite !Z.mod_small by (rewrite ?Z.mod_small by lia; lia); lia).
  unfold connectGroup. destruct (dnat (kSip k) (kSport k) (kDip k) (kDport k)) as [[ip port]|]; destruct ok, needProc; cbn [statsOf c_state c_end c_init]; rewrite ?D; repeat split.
Qed.
Print Assumptions C33_group.

(** * Examples and refutations *)
Definition u32kv (k : string) (v : Z) : keyvalue := {| kv_key := k; kv_type := TUint32; kv_val := leBytes 4 v |}.
Definition i64kv (k : string) (v : Z) : keyvalue := {| kv_key := k; kv_type := TInt64; kv_val := leBytes 8 v |}.
Definition kev (nm : string) (ts sport : Z) (l : list keyvalue) : event :=
  {| e_name := nm; e_ts := ts; e_lat := 0; e_net := true; e_params := Z.of_nat (List.length l); e_attrs := l; e_pid := 77; e_tid := 77; e_comm := "curl"; e_cid := "c1";
     e_fd := 3; e_proto := L4Tcp; e_role := false; e_sip := [16777343]; e_dip := [134744072]; e_sport := sport; e_dport := 443 |}.
Definition addr (sport : Z) : list keyvalue := [u32kv "sip" 16777343; u32kv "sport" sport; u32kv "dip" 134744072; u32kv "dport" 443].
Definition began (ts sport ret : Z) : kop := KEvent (kev "tcp_connect" ts sport (addr sport ++ [u32kv "retval" ret])).
Definition becameE (ts sport : Z) : kop := KEvent (kev "tcp_set_state" ts sport (addr sport ++ [i64kv "old_state" 2; i64kv "new_state" 1])).
Definition exitE (ts sport ret : Z) : kop := KEvent (kev "connect" ts sport [i64kv "res" ret]).
Definition key1 (sport : Z) : ckey := (bs "127.0.0.1", sport, bs "8.8.8.8", 443).
Example C33_example : exists m, krun 10 [] [began 100 5000 0; exitE 150 5000 (-115); becameE 400 5000; exitE 450 5000 0; began 500 5001 0; exitE 600 5001 (-111);
    began 700 5002 0; exitE 800 5002 (-115); KScan 900 (fun _ _ => NoSocket); KScan 10000000700 (fun _ _ => NoSocket)] =
  Ok ([[]; []; [(key1 5000, statsOf {| p_start := 100; p_last := 400; p_pid := 77; p_comm := bs "curl"; p_cid := bs "c1" |} true 0)]; []; [];
       [(key1 5001, statsOf {| p_start := 500; p_last := 600; p_pid := 77; p_comm := bs "curl"; p_cid := bs "c1" |} false (-111))]; []; []; [];
       [(key1 5002, statsOf {| p_start := 700; p_last := 800; p_pid := 77; p_comm := bs "curl"; p_cid := bs "c1" |} false 0)]], m).
Proof. eexists. vm_compute. reflexivity. Qed.
(** An attempt of which no system call of the process was seen is never given up: every scan keeps it, however long ago it began. *)
Theorem C33_every_attempt_ends_refuted w scans : waitOk w -> Forall saneOp scans -> (forall o, In o scans -> exists now look, o = KScan now look) ->
  exists outs m, krun w [] (began 100 5000 0 :: scans) = Ok (outs, m) /\ (forall out, In out outs -> out = []) /\ aget m (key1 5000) <> None.
Proof.
  intros W F N. set (c := {| c_pid := 0; c_comm := []; c_cid := []; c_state := Inprogress; c_init := 100; c_end := 100; c_code := 0 |}).
  assert (B : kstep w [] (began 100 5000 0) = Ok ([], [(key1 5000, c)])) by (vm_compute; reflexivity).
  assert (K : forall scans, Forall saneOp scans -> (forall o, In o scans -> exists now look, o = KScan now look) ->
    exists outs, krun w [(key1 5000, c)] scans = Ok (outs, [(key1 5000, c)]) /\ forall out, In out outs -> out = []).
  { clear F N scans. induction scans as [|o scans IH]; intros F N; [exists []; split; [reflexivity|intros ? []]|]. destruct (N o (or_introl eq_refl)) as (now & look & ->).
    inversion F; subst. destruct IH as (outs & R & A); [assumption|intros o I; apply N; right; exact I|]. exists ([] :: outs). split; [|intros out [<-|I]; auto].
    cbn [krun kstep]. assert (S : scan now w look [(key1 5000, c)] [(key1 5000, c)] = ([], [(key1 5000, c)])) by reflexivity. rewrite S. cbn [bind fst snd]. rewrite R. reflexivity. }
  destruct (K scans F N) as (outs & R & A). exists ([] :: outs), [(key1 5000, c)]. cbn [krun]. rewrite B. cbn [bind fst snd]. rewrite R. split; [reflexivity|]. split; [intros out [<-|I]; auto|].
  vm_compute. discriminate.
Qed.
Print Assumptions C33_every_attempt_ends_refuted.
(** A later attempt from the same port is then reported as if it had begun with the first one. *)
Theorem C33_own_start_refuted : ~ forall w h e0 r0 o outs outs2 out m k c, waitOk w -> Forall saneOp (h ++ [KEvent e0; o]) -> krun w [] (h ++ [KEvent e0; o]) = Ok (outs ++ [outs2; out], m) ->
  says e0 = Some (k, Began r0) -> outs2 = [] -> In (k, c) out -> c_init c = e_ts e0.
Proof.
  intros F. specialize (F 10 [began 100 5000 0] (kev "tcp_connect" 90000000000 5000 (addr 5000 ++ [u32kv "retval" 0])) 0 (becameE 90000000400 5000)
    [[]] [] [(key1 5000, statsOf {| p_start := 100; p_last := 90000000400; p_pid := 0; p_comm := []; p_cid := [] |} true 0)] []).
  specialize (F (key1 5000) (statsOf {| p_start := 100; p_last := 90000000400; p_pid := 0; p_comm := []; p_cid := [] |} true 0)).
  assert (X : (100 : Z) = 90000000000); [|discriminate X]. apply F.
  - unfold waitOk. lia.
  - repeat (constructor; [unfold saneOp, began, becameE, kev; cbn; lia|]). constructor.
  - vm_compute. reflexivity.
  - vm_compute. reflexivity.
  - reflexivity.
  - left. reflexivity.
Qed.
Print Assumptions C33_own_start_refuted.
