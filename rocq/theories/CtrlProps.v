(** Property C93: requests to the control API. *)
From Verif Require Import Base Decimal JsonModel JsonSpec JsonProps ModuleModel ModuleProps CtrlModel CtrlSpec.
Open Scope string_scope. Open Scope list_scope. Open Scope Z_scope.

(** ** Names *)
Lemma named_one a b key : named a key = true -> named b key = true -> canon (bs a) = canon (bs b).
Proof. unfold named. rewrite (eqb_eq (canon (bs a)) (canon key)), (eqb_eq (canon (bs b)) (canon key)). intros -> ->. reflexivity. Qed.
Lemma named_not a b key : named a key = true -> eqb (canon (bs a)) (canon (bs b)) = false -> named b key = false.
Proof. intros A N. destruct (named b key) eqn:B; [|reflexivity]. rewrite (named_one a b key A B), eqb_refl in N. discriminate. Qed.

Lemma canon_ascii b : Forall (fun x => 0 <= x < 128) b -> canon b = lower b.
Proof.
  induction b as [|x b IH]; intros F; [reflexivity|]. inversion F as [|? ? X F']; subst. specialize (IH F'). cbn [lower map] in *. fold (lower b).
  assert (G : canon (x :: b) = (if (65 <=? x) && (x <=? 90) then x + 32 else x) :: canon b).
  { cbn [canon]. destruct x as [|x|x]; try reflexivity. repeat (destruct x as [x|x|]; try reflexivity); lia. }
  rewrite G, IH. reflexivity.
Qed.
Lemma canon_cases x r : (exists r', x = 197 /\ r = 191 :: r') \/ (exists r', x = 226 /\ r = 132 :: 170 :: r') \/ canon (x :: r) = (if (65 <=? x) && (x <=? 90) then x + 32 else x) :: canon r.
Proof.
  destruct (Z.eq_dec x 197) as [->|N1].
  { destruct r as [|y r]; [right; right; reflexivity|]. destruct (Z.eq_dec y 191) as [->|M]; [left; eauto|]. right. right.
    destruct y as [|y|y]; try reflexivity. repeat (destruct y as [y|y|]; try reflexivity); congruence. }
  destruct (Z.eq_dec x 226) as [->|N2].
  { destruct r as [|y r]; [right; right; reflexivity|]. destruct (Z.eq_dec y 132) as [->|M].
    - destruct r as [|z r]; [right; right; reflexivity|]. destruct (Z.eq_dec z 170) as [->|M]; [right; left; eauto|]. right. right.
      destruct z as [|z|z]; try reflexivity. repeat (destruct z as [z|z|]; try reflexivity); congruence.
    - right. right. destruct y as [|y|y]; try reflexivity. repeat (destruct y as [y|y|]; try reflexivity); congruence. }
  right. right. destruct x as [|x|x]; try reflexivity. repeat (destruct x as [x|x|]; try reflexivity); congruence.
Qed.
Lemma canon_folds n : Forall (fun x => 0 <= x < 128) n -> forall key, canon key = n -> folds key n.
Proof.
  induction 1 as [|x n X F IH]; intros key E.
  - destruct key as [|y r]; [apply FNil|]. exfalso. destruct (canon_cases y r) as [(r' & -> & ->)|[(r' & -> & ->)|C]]; [discriminate E|discriminate E|rewrite C in E; discriminate E].
  - destruct key as [|y r]; [discriminate E|]. destruct (canon_cases y r) as [(r' & -> & ->)|[(r' & -> & ->)|C]].
    + change (115 :: canon r' = x :: n) in E. injection E as <- E. apply FLongS. apply IH. exact E.
    + change (107 :: canon r' = x :: n) in E. injection E as <- E. apply FKelvin. apply IH. exact E.
    + rewrite C in E. injection E as E1 E. rewrite <- E1. apply FAscii; [|apply IH; exact E].
      destruct ((65 <=? y) && (y <=? 90)) eqn:L; lia.
Qed.
Lemma folds_canon key n : folds key n -> canon key = n.
Proof.
  induction 1 as [|x key n X F IH|key n F IH|key n F IH]; [reflexivity| | |].
  - destruct (canon_cases x key) as [(r' & -> & ->)|[(r' & -> & ->)|C]]; [lia|lia|]. rewrite C, IH. reflexivity.
  - change (115 :: canon key = 115 :: n). rewrite IH. reflexivity.
  - change (107 :: canon key = 107 :: n). rewrite IH. reflexivity.
Qed.
Lemma lower_ascii b : Forall (fun x => 0 <= x < 128) b -> Forall (fun x => 0 <= x < 128) (lower b).
Proof. induction 1 as [|x b X F IH]; [apply Forall_nil|]. apply Forall_cons; [destruct ((65 <=? x) && (x <=? 90)) eqn:L; lia|exact IH]. Qed.
(** C93: members are found whatever the case of their names, and only these; any bytes may stand for a name. *)
Theorem C93_names : forall (field : string) (key : bytes), Forall (fun x => 0 <= x < 128) (bs field) ->
  (named field key = true <-> folds key (lower (bs field))) /\
  (Forall (fun x => 0 <= x < 128) key -> named field key = true <-> lower key = lower (bs field)).
Proof.
  intros f key F. unfold named. rewrite (canon_ascii _ F). rewrite (eqb_eq (lower (bs f)) (canon key)). split.
  - split; intros E; [apply canon_folds; [apply lower_ascii; exact F|symmetry; exact E]|symmetry; apply folds_canon; exact E].
  - intros K. rewrite (canon_ascii _ K). split; intros E; symmetry; exact E.
Qed.
Print Assumptions C93_names.

(** ** Decoding *)
Lemma lastGiven_snoc f m key v : lastGiven f (m ++ [(key, v)]) =
  if named f key then match v with JNull => lastGiven f m | _ => Some v end else lastGiven f m.
Proof.
  induction m as [|[k w] m IH]; cbn [app lastGiven].
  - destruct (named f key), v; reflexivity.
  - rewrite IH. destruct (named f key); [|reflexivity]. destruct v; reflexivity.
Qed.
Lemma lastMember_snoc f m key v : lastMember f (m ++ [(key, v)]) = if named f key then Some v else lastMember f m.
Proof.
  induction m as [|[k w] m IH]; cbn [app lastMember].
  - reflexivity.
  - rewrite IH. destruct (named f key); reflexivity.
Qed.
Lemma understood_snoc m key v : understood (m ++ [(key, v)]) <-> understood m /\ understood [(key, v)].
Proof.
  unfold understood. split.
  - intros U. split; intros k w I; apply U; apply in_or_app; [left|right]; exact I.
  - intros [U V] k w I. apply in_app_or in I. destruct I as [I|I]; [apply U|apply V]; exact I.
Qed.

Lemma decode_exact m :
  match fold_left decodeMember m (Some creq0) with
  | Some q => understood m /\ q_op q = operation m /\ q_pid q = number "Pid" m /\ q_tid q = number "Tid" m /\ q_opts q = options m
  | None => ~ understood m
  end.
Proof.
  induction m as [|[key v] m IH] using rev_ind.
  - cbn [fold_left]. split; [intros k w []|]. repeat split.
  - rewrite fold_left_app. cbn [fold_left].
    assert (US : understood [(key, v)] <-> (named "Operation" key = true -> v = JNull \/ exists s, v = JStr s) /\
       (named "Pid" key = true \/ named "Tid" key = true -> v = JNull \/ exists n, v = JInt n /\ - 2 ^ 63 <= n < 2 ^ 63)).
    { split; [intros X; apply X; left; reflexivity|]. intros X k w [I|[]]. inversion I; subst. exact X. }
    pose proof (understood_snoc m key v) as SN. rewrite US in SN. clear US.
    destruct (fold_left decodeMember m (Some creq0)) as [q|]; cbn [decodeMember fst snd]; [|intros X; apply IH; apply SN; exact X].
    destruct IH as (U & A1 & A2 & A3 & A4). unfold operation, number, options in *. rewrite !lastGiven_snoc, lastMember_snoc.
    destruct (named "Operation" key) eqn:N1.
    { rewrite (named_not "Operation" "Pid" key N1 eq_refl), (named_not "Operation" "Tid" key N1 eq_refl), (named_not "Operation" "Options" key N1 eq_refl) in *.
      assert (NX : understood (m ++ [(key, v)]) <-> (v = JNull \/ exists s, v = JStr s)).
      { rewrite SN. split; [intros (_ & X & _); apply X; reflexivity|]. intros X. split; [exact U|]. split; [auto|]. intros [Y|Y]; discriminate Y. }
      destruct v; try (rewrite NX; intros [X|(s0 & X)]; discriminate X); (split; [apply NX; eauto|]); repeat split; assumption. }
    destruct (named "Pid" key) eqn:N2.
    { rewrite (named_not "Pid" "Tid" key N2 eq_refl), (named_not "Pid" "Options" key N2 eq_refl) in *.
      assert (NX : understood (m ++ [(key, v)]) <-> (v = JNull \/ exists n, v = JInt n /\ - 2 ^ 63 <= n < 2 ^ 63)).
      { rewrite SN. split; [intros (_ & _ & X); apply X; auto|]. intros X. split; [exact U|]. split; [intros Y; discriminate Y|auto]. }
      destruct v as [|b|n|s|l|o]; try (rewrite NX; intros [X|(s0 & X & _)]; discriminate X); [split; [apply NX; auto|]; repeat split; assumption|].
      destruct (int64 n) eqn:I; unfold int64 in I.
      - split; [apply NX; right; exists n; split; [reflexivity|lia]|]. repeat split; assumption.
      - rewrite NX. intros [X|(n' & X & L)]; [discriminate X|]. inversion X. subst. lia. }
    destruct (named "Tid" key) eqn:N3.
    { rewrite (named_not "Tid" "Options" key N3 eq_refl) in *.
      assert (NX : understood (m ++ [(key, v)]) <-> (v = JNull \/ exists n, v = JInt n /\ - 2 ^ 63 <= n < 2 ^ 63)).
      { rewrite SN. split; [intros (_ & _ & X); apply X; auto|]. intros X. split; [exact U|]. split; [intros Y; discriminate Y|auto]. }
      destruct v as [|b|n|s|l|o]; try (rewrite NX; intros [X|(s0 & X & _)]; discriminate X); [split; [apply NX; auto|]; repeat split; assumption|].
      destruct (int64 n) eqn:I; unfold int64 in I.
      - split; [apply NX; right; exists n; split; [reflexivity|lia]|]. repeat split; assumption.
      - rewrite NX. intros [X|(n' & X & L)]; [discriminate X|]. inversion X. subst. lia. }
    assert (NX : understood (m ++ [(key, v)])).
    { apply SN. split; [exact U|]. split; [intros Y; discriminate Y|intros [Y|Y]; discriminate Y]. }
    destruct (named "Options" key); (split; [exact NX|]); repeat split; assumption.
Qed.

(** C93: a body is refused with status 500, changing nothing, exactly when it is not JSON, no object (or null), or one of its known members has another type;
    other paths are not found.  Every other request that is answered has status 200. *)
Theorem C93_refused : forall f64 pd e k path body k' a, serve f64 pd e k path body = Ok (k', a) ->
  (path <> "/profile" -> a_status a = 404 /\ k' = k) /\
  (path = "/profile" ->
     ((body = Some JNull \/ exists m, body = Some (JObj m) /\ understood m) -> a_status a = 200) /\
     (~ (body = Some JNull \/ exists m, body = Some (JObj m) /\ understood m) -> a_status a = 500 /\ a_body a = bs "parse request failed" /\ k' = k)).
Proof.
  intros f64 pd e k path body k' a. unfold serve. case_eqb path "/profile"; cbn [negb].
  2:{ intros S. inversion S; subst. split; [intros _; split; reflexivity|]. intros X. congruence. }
  intros S. split; [congruence|]. intros _.
  assert (P : match parseRequest body with
              | Some _ => body = Some JNull \/ exists m, body = Some (JObj m) /\ understood m
              | None => ~ (body = Some JNull \/ exists m, body = Some (JObj m) /\ understood m)
              end).
  { unfold parseRequest. destruct body as [[|b|n|s|l|m]|]; try (intros [X|(m & X & _)]; discriminate X); [left; reflexivity|].
    pose proof (decode_exact m) as D. destruct (fold_left decodeMember m (Some creq0)) as [q|].
    - right. exists m. split; [reflexivity|apply D].
    - intros [X|(m' & X & U)]; [discriminate X|]. inversion X; subst. exact (D U). }
  destruct (parseRequest body) as [q|].
  - split; [|intros X; contradiction]. intros _. destruct (handle f64 pd e k q) as [[k1 [code msg]]| |]; cbn [bind] in S; inversion S; subst. reflexivity.
  - split; [intros X; contradiction|]. intros _. inversion S; subst. repeat split.
Qed.
Print Assumptions C93_refused.

(** ** Answers *)
Lemma keep_same k : keepModule k (k_mod k) [] = k.
Proof. unfold keepModule. rewrite app_nil_r. destruct k; reflexivity. Qed.

Lemma cint_low n : low32 (cint n) n.
Proof.
  unfold low32, cint. pose proof (Z.mod_pos_bound (n + 2 ^ 31) (2 ^ 32) ltac:(lia)) as B. split; [lia|].
  exists ((n + 2 ^ 31) / 2 ^ 32). pose proof (Z.div_mod (n + 2 ^ 31) (2 ^ 32) ltac:(lia)) as D. lia.
Qed.
Lemma low32_same p n : - 2 ^ 31 <= n < 2 ^ 31 -> low32 p n -> p = n.
Proof. intros B (C & (z & D)). assert (z = 0) by lia. lia. Qed.
(** The operations the API knows *)
Definition known : list bytes := map bs ["start"; "stop"; "start_attach_agent"; "stop_attach_agent"; "status"; "start_debug"; "stop_debug"].

(** C93: process and thread numbers of 32 bits reach the native library as they are ([low32] leaves no other choice). *)
Theorem C93_numbers : forall p n, low32 p n -> (- 2 ^ 31 <= n < 2 ^ 31 -> p = n) /\ forall p', low32 p' n -> p' = p.
Proof.
  intros p n L. split; [intros B; exact (low32_same p n B L)|]. intros p' L'. destruct L as (B & z & D), L' as (B' & z' & D').
  assert (z = z') by lia. lia.
Qed.
Print Assumptions C93_numbers.

(** C93: an answer is JSON that any reader understands, with a code and a message, and they tell what was done. *)
Theorem C93_answers : forall f64 pd e k m k' a,
  understood m -> Forall is_byte (operation m) -> Forall is_byte (e_text e) -> Forall is_byte (e_attach e) ->
  serve f64 pd e k "/profile" (Some (JObj m)) = Ok (k', a) ->
  exists code msg,
    a_status a = 200 /\ read (a_body a) = Some (JObj [(bs "Code", JInt code); (bs "Msg", JStr (repair msg))]) /\
    (operation m = bs "start" -> k_native k' = k_native k /\
       (m_running (k_mod k) = true -> k' = k /\ code = 2 /\ msg = bs "module is running now") /\
       (m_running (k_mod k) = false -> m_running (k_mod k') = true /\ (exists ws, m_log (k_mod k') = m_log (k_mod k) ++ [Began (e_order e) ws]) /\
          (exists ds, getOptions (option_map (decodeOptions f64 pd) (options m)) = Ok ds /\ k_timers k' = k_timers k ++ ds) /\
          (existsb (e_fails e) (e_order e) = false -> code = 1 /\ msg = bs "start success") /\
          (existsb (e_fails e) (e_order e) = true -> code = 2 /\ msg = e_text e))) /\
    (operation m = bs "stop" -> k_native k' = k_native k /\ k_timers k' = k_timers k /\
       (m_running (k_mod k) = false -> k' = k /\ code = 3 /\ msg = bs "module is stopped now") /\
       (m_running (k_mod k) = true -> m_running (k_mod k') = false /\ m_log (k_mod k') = m_log (k_mod k) ++ [Ended (e_order e) None] /\
          (existsb (e_fails e) (e_order e) = false -> code = 1 /\ msg = bs "stop success") /\
          (existsb (e_fails e) (e_order e) = true -> code = 3 /\ msg = e_text e))) /\
    (operation m = bs "status" -> k' = k /\ code = 1 /\ msg = bs (if m_running (k_mod k) then "running" else "stopped")) /\
    (operation m = bs "start_attach_agent" -> k_mod k' = k_mod k /\ (exists p, k_native k' = k_native k ++ [NAttach p] /\ low32 p (number "Pid" m)) /\
       (e_attach e = [] -> code = 1) /\ (e_attach e <> [] -> code = 2 /\ msg = e_attach e)) /\
    (operation m = bs "stop_attach_agent" -> k_mod k' = k_mod k /\ (exists p, k_native k' = k_native k ++ [NDetach p] /\ low32 p (number "Pid" m)) /\
       (e_attach e = [] -> code = 1) /\ (e_attach e <> [] -> code = 3 /\ msg = e_attach e)) /\
    (operation m = bs "start_debug" -> k_mod k' = k_mod k /\ (exists p t, k_native k' = k_native k ++ [NDebug p t] /\ low32 p (number "Pid" m) /\ low32 t (number "Tid" m)) /\ code = 1) /\
    (operation m = bs "stop_debug" -> k_mod k' = k_mod k /\ k_native k' = k_native k ++ [NNoDebug] /\ code = 1) /\
    (~ In (operation m) known -> k' = k /\ code = 4 /\ msg = bs "unexpected operation:" ++ operation m).
Proof.
  intros f64 pd e k m k' a U BO BT BA. unfold serve. change (negb (eqb "/profile" "/profile")) with false. cbv iota. cbn [parseRequest].
  pose proof (decode_exact m) as D. destruct (fold_left decodeMember m (Some creq0)) as [q|]; [|contradiction]. destruct D as (_ & D1 & D2 & D3 & D4).
  assert (ASC : forall s, forallb (fun x => (0 <=? x) && (x <? 256)) (bs s) = true -> Forall is_byte (bs s)).
  { intros s B. apply Forall_forall. intros x I. rewrite forallb_forall in B. specialize (B x I). cbn beta in B. unfold is_byte. lia. }
  destruct (handle f64 pd e k q) as [[k1 [code msg]]| |] eqn:H; cbn [bind]; intros S; [|discriminate S|discriminate S]. inversion S; subst k1 a. clear S.
  exists code, msg. split; [reflexivity|]. unfold handle in H. rewrite D1, D2, D3, D4 in H.
  assert (G : Forall is_byte msg -> read (encode (JObj [(bs "Code", JInt code); (bs "Msg", JStr msg)])) = Some (JObj [(bs "Code", JInt code); (bs "Msg", JStr (repair msg))])).
  { intros B. rewrite C89_read; [reflexivity|]. cbn [textsOf flat_map fst snd app]. repeat (apply Forall_cons; [first [exact B|apply ASC; reflexivity]|]). apply Forall_nil. }
  assert (DIFF : forall x y : string, eqb (bs x) (bs y) = false -> operation m = bs x -> operation m = bs y -> False).
  { intros x y E A B. rewrite <- A, <- B, eqb_refl in E. discriminate. }
  cbn [sent write setType writeHeader writer0 w_status w_type w_body a_body app].
  case_eqb (operation m) (bs "start").
  { destruct (getOptions (option_map (decodeOptions f64 pd) (options m))) as [ds| |] eqn:O; cbn [bind] in H; [|discriminate H|discriminate H].
    assert (X : forall y, operation m = bs y -> eqb (bs "start") (bs y) = false -> False) by (intros y Y2 Y1; exact (DIFF "start" y Y1 E Y2)).
    assert (K : ~ In (operation m) known -> False) by (intros Y; apply Y; rewrite E; left; reflexivity).
    unfold doStart in H. destruct (m_running (k_mod k)) eqn:R.
    - inversion H; subst k' code msg. split; [apply G; apply ASC; reflexivity|]. rewrite keep_same.
      split; [intros _; split; [reflexivity|]; split; [auto|intros Y; discriminate Y]|].
      repeat (split; [intros Y; exfalso; exact (X _ Y eq_refl)|]); intros Y; exfalso; exact (K Y).
    - destruct (existsb (e_fails e) (e_order e)) eqn:F; inversion H; subst k' code msg;
        (split; [apply G; first [exact BT|apply ASC; reflexivity]|]);
        (split; [intros _; cbn [keepModule k_native k_mod k_timers m_running m_log]; split; [reflexivity|]; split; [intros Y; discriminate Y|]; intros _; split; [reflexivity|];
          split; [eexists; reflexivity|]; split; [exists ds; split; reflexivity|]; split; [intros Y; try discriminate Y; auto|intros Y; try discriminate Y; auto]|]);
        repeat (split; [intros Y; exfalso; exact (X _ Y eq_refl)|]); intros Y; exfalso; exact (K Y). }
  case_eqb (operation m) (bs "stop").
  { assert (X : forall y, operation m = bs y -> eqb (bs "stop") (bs y) = false -> False) by (intros y Y2 Y1; exact (DIFF "stop" y Y1 E0 Y2)).
    assert (K : ~ In (operation m) known -> False) by (intros Y; apply Y; rewrite E0; right; left; reflexivity).
    unfold doStop in H. destruct (m_running (k_mod k)) eqn:R.
    - destruct (closeChan (m_closed (k_mod k)) (m_chan (k_mod k))) as [cl| |]; cbn [bind] in H; [|discriminate H|discriminate H].
      destruct (existsb (e_fails e) (e_order e)) eqn:F; inversion H; subst k' code msg;
        (split; [apply G; first [exact BT|apply ASC; reflexivity]|]); (split; [intros Y; exfalso; exact (X _ Y eq_refl)|]);
        (split; [intros _; cbn [keepModule k_native k_mod k_timers m_running m_log]; split; [reflexivity|]; split; [apply app_nil_r|]; split; [intros Y; discriminate Y|]; intros _; split; [reflexivity|];
          split; [reflexivity|]; split; [intros Y; try discriminate Y; auto|intros Y; try discriminate Y; auto]|]);
        repeat (split; [intros Y; exfalso; exact (X _ Y eq_refl)|]); intros Y; exfalso; exact (K Y).
    - cbn [bind] in H. inversion H; subst k' code msg. split; [apply G; apply ASC; reflexivity|]. rewrite keep_same. split; [intros Y; exfalso; exact (X _ Y eq_refl)|].
      split; [intros _; split; [reflexivity|]; split; [reflexivity|]; split; [auto|intros Y; discriminate Y]|].
      repeat (split; [intros Y; exfalso; exact (X _ Y eq_refl)|]); intros Y; exfalso; exact (K Y). }
  case_eqb (operation m) (bs "start_attach_agent").
  { assert (X : forall y, operation m = bs y -> eqb (bs "start_attach_agent") (bs y) = false -> False) by (intros y Y2 Y1; exact (DIFF "start_attach_agent" y Y1 E1 Y2)).
    assert (K : ~ In (operation m) known -> False) by (intros Y; apply Y; rewrite E1; do 2 right; left; reflexivity).
    case_eqb (e_attach e) (@nil Z); inversion H; subst k' code msg;
      (split; [apply G; first [exact BA|apply ASC; reflexivity]|]); do 3 (split; [intros Y; exfalso; exact (X _ Y eq_refl)|]);
      (split; [intros _; split; [reflexivity|]; split; [eexists; split; [reflexivity|apply cint_low]|]; split; [intros Y; first [reflexivity|contradiction]|]; intros Y; first [contradiction|exfalso; apply Y; assumption|auto]|]);
      repeat (split; [intros Y; exfalso; exact (X _ Y eq_refl)|]); intros Y; exfalso; exact (K Y). }
  case_eqb (operation m) (bs "stop_attach_agent").
  { assert (X : forall y, operation m = bs y -> eqb (bs "stop_attach_agent") (bs y) = false -> False) by (intros y Y2 Y1; exact (DIFF "stop_attach_agent" y Y1 E2 Y2)).
    assert (K : ~ In (operation m) known -> False) by (intros Y; apply Y; rewrite E2; do 3 right; left; reflexivity).
    case_eqb (e_attach e) (@nil Z); inversion H; subst k' code msg;
      (split; [apply G; first [exact BA|apply ASC; reflexivity]|]); do 4 (split; [intros Y; exfalso; exact (X _ Y eq_refl)|]);
      (split; [intros _; split; [reflexivity|]; split; [eexists; split; [reflexivity|apply cint_low]|]; split; [intros Y; first [reflexivity|contradiction]|]; intros Y; first [contradiction|exfalso; apply Y; assumption|auto]|]);
      repeat (split; [intros Y; exfalso; exact (X _ Y eq_refl)|]); intros Y; exfalso; exact (K Y). }
  case_eqb (operation m) (bs "status").
  { assert (X : forall y, operation m = bs y -> eqb (bs "status") (bs y) = false -> False) by (intros y Y2 Y1; exact (DIFF "status" y Y1 E3 Y2)).
    assert (K : ~ In (operation m) known -> False) by (intros Y; apply Y; rewrite E3; do 4 right; left; reflexivity).
    inversion H; subst k' code msg. split; [apply G; apply ASC; destruct (m_running (k_mod k)); reflexivity|].
    do 2 (split; [intros Y; exfalso; exact (X _ Y eq_refl)|]). split; [auto|].
    repeat (split; [intros Y; exfalso; exact (X _ Y eq_refl)|]); intros Y; exfalso; exact (K Y). }
  case_eqb (operation m) (bs "start_debug").
  { assert (X : forall y, operation m = bs y -> eqb (bs "start_debug") (bs y) = false -> False) by (intros y Y2 Y1; exact (DIFF "start_debug" y Y1 E4 Y2)).
    assert (K : ~ In (operation m) known -> False) by (intros Y; apply Y; rewrite E4; do 5 right; left; reflexivity).
    inversion H; subst k' code msg. split; [apply G; apply ASC; reflexivity|].
    do 5 (split; [intros Y; exfalso; exact (X _ Y eq_refl)|]). split; [intros _; split; [reflexivity|]; split; [do 2 eexists; split; [reflexivity|split; apply cint_low]|reflexivity]|].
    repeat (split; [intros Y; exfalso; exact (X _ Y eq_refl)|]); intros Y; exfalso; exact (K Y). }
  case_eqb (operation m) (bs "stop_debug").
  { assert (X : forall y, operation m = bs y -> eqb (bs "stop_debug") (bs y) = false -> False) by (intros y Y2 Y1; exact (DIFF "stop_debug" y Y1 E5 Y2)).
    assert (K : ~ In (operation m) known -> False) by (intros Y; apply Y; rewrite E5; do 6 right; left; reflexivity).
    inversion H; subst k' code msg. split; [apply G; apply ASC; reflexivity|].
    do 6 (split; [intros Y; exfalso; exact (X _ Y eq_refl)|]). split; [auto|].
    intros Y; exfalso; exact (K Y). }
  assert (M : k = k' /\ NoOperation = code /\ bs "unexpected operation:" ++ operation m = msg) by (unfold reply in H; injection H; auto). clear H. destruct M as (<- & <- & <-).
  split; [apply G; apply Forall_app; split; [apply ASC; reflexivity|exact BO]|].
  do 7 (split; [intros Y; contradiction|]). auto.
Qed.
Print Assumptions C93_answers.

(** ** Options *)
(** What the options say when nothing asks for a file watch: the last duration *)
Definition noWatch (m : list (bytes * json)) : Prop := forall key v, In (key, v) m -> named "FileWatch" key = false.
Definition durMember (f64 : Z -> Z) (pd : bytes -> option Z) (v : json) : jdur := match v with JInt n => DNum (f64 n) | JStr s => DText (pd s) | _ => DOther end.
Lemma optMember_step f64 pd o key v : named "FileWatch" key = false ->
  optMember f64 pd (Some o) (key, v) = Some (if named "Duration" key then {| o_dur := durMember f64 pd v; o_fileWatch := o_fileWatch o |} else o).
Proof. intros N. unfold optMember. cbn [fst snd]. rewrite N. generalize (named "Duration" key). intros []; reflexivity. Qed.
Lemma fold_left_cons {A B} (f : A -> B -> A) x l a : fold_left f (x :: l) a = fold_left f l (f a x).
Proof. reflexivity. Qed.
Lemma lastMember_cons field key v m : lastMember field ((key, v) :: m) = match lastMember field m with Some w => Some w | None => if named field key then Some v else None end.
Proof. reflexivity. Qed.
Lemma dur_step f64 pd (x : option json) (b : bool) v o :
  {| o_dur := match x with Some v => durMember f64 pd v | None => o_dur (if b then {| o_dur := durMember f64 pd v; o_fileWatch := o_fileWatch o |} else o) end;
     o_fileWatch := o_fileWatch (if b then {| o_dur := durMember f64 pd v; o_fileWatch := o_fileWatch o |} else o) |} =
  {| o_dur := match match x with Some w => Some w | None => if b then Some v else None end with Some v => durMember f64 pd v | None => o_dur o end; o_fileWatch := o_fileWatch o |}.
Proof. destruct x, b; reflexivity. Qed.
Lemma optMember_dur f64 pd m : noWatch m -> forall o,
  fold_left (optMember f64 pd) m (Some o) = Some {| o_dur := match lastMember "Duration" m with Some v => durMember f64 pd v | None => o_dur o end; o_fileWatch := o_fileWatch o |}.
Proof.
  induction m as [|(key & v) m IH]; intros N o; [destruct o; reflexivity|].
  rewrite fold_left_cons, lastMember_cons, optMember_step by exact (N key v (or_introl eq_refl)).
  rewrite IH by (intros a b I; apply (N a b); right; exact I). exact (f_equal Some (dur_step f64 pd _ _ v o)).
Qed.
Lemma serve_handle f64 pd e k body q k' a : parseRequest body = Some q -> serve f64 pd e k "/profile" body = Ok (k', a) -> exists r, handle f64 pd e k q = Ok (k', r).
Proof.
  intros P. unfold serve. change (negb (eqb "/profile" "/profile")) with false. cbv iota. rewrite P. generalize (handle f64 pd e k q).
  intros [(k1 & (code & msg))| |]; cbn [bind]; intros S; [|discriminate S|discriminate S]. inversion S; subst. eexists. reflexivity.
Qed.
Lemma start_timers f64 pd e k q k' r ds : q_op q = bs "start" -> getOptions (option_map (decodeOptions f64 pd) (q_opts q)) = Ok ds -> m_running (k_mod k) = false ->
  handle f64 pd e k q = Ok (k', r) -> k_timers k' = k_timers k ++ ds.
Proof.
  intros OP O R. unfold handle. rewrite OP, O, R, eqb_refl. cbn [bind]. generalize (doStart (k_mod k) (e_order e) (e_fails e) (List.length ds)). intros (m1 & err) S.
  inversion S; subst. reflexivity.
Qed.
Lemma options_dur f64 pd o : noWatch o ->
  let d := match lastMember "Duration" o with Some (JInt n) => f64 n | Some (JStr s) => match pd s with Some d => d | None => 0 end | _ => 0 end in
  getOptions (option_map (decodeOptions f64 pd) (Some (JObj o))) = Ok (if 0 <? d then [d] else []).
Proof.
  intros NW. cbn [option_map decodeOptions]. rewrite optMember_dur by exact NW. cbn [getOptions o_fileWatch o_dur jopts0].
  generalize (lastMember "Duration" o). intros [[]|]; cbn [durMember durationOf]; reflexivity.
Qed.
(** C93: a start of a stopped module whose options ask for no file watch arms one timer, of exactly the duration given last (a number is a count of nanoseconds,
    a text is read by time.ParseDuration), when that is positive; otherwise none. *)
Theorem C93_duration : forall f64 pd e k m o k' a,
  understood m -> operation m = bs "start" -> options m = Some (JObj o) -> noWatch o -> m_running (k_mod k) = false ->
  serve f64 pd e k "/profile" (Some (JObj m)) = Ok (k', a) ->
  let d := match lastMember "Duration" o with Some (JInt n) => f64 n | Some (JStr s) => match pd s with Some d => d | None => 0 end | _ => 0 end in
  k_timers k' = k_timers k ++ (if 0 <? d then [d] else []).
Proof.
  intros f64 pd e k m o k' a U OP OO NW R S.
  pose proof (decode_exact m) as D. destruct (fold_left decodeMember m (Some creq0)) as [q|] eqn:Q; [|contradiction]. destruct D as (_ & D1 & _ & _ & D4).
  destruct (serve_handle f64 pd e k (Some (JObj m)) q k' a Q S) as (r & H).
  rewrite OP in D1. rewrite OO in D4. apply (start_timers f64 pd e k q k' r _ D1); [|exact R|exact H]. rewrite D4. apply options_dur. exact NW.
Qed.
Print Assumptions C93_duration.

(** ** Every request is answered *)
(** A request whose options ask for a file watch: the last member of that name is an object *)
Definition asksWatch (body : option json) : Prop := exists m o fw, body = Some (JObj m) /\ options m = Some (JObj o) /\ lastMember "FileWatch" o = Some (JObj fw).
Definition watchIn (m : list (bytes * json)) : bool := match lastMember "FileWatch" m with Some (JObj _) => true | _ => false end.
Lemma optMember_none f64 pd m : fold_left (optMember f64 pd) m None = None.
Proof. induction m as [|p m IH]; [reflexivity|]. rewrite fold_left_cons. exact IH. Qed.
Lemma optMember_watch f64 pd o key v o1 : optMember f64 pd (Some o) (key, v) = Some o1 ->
  o_fileWatch o1 = if named "FileWatch" key then match v with JObj _ => true | _ => false end else o_fileWatch o.
Proof.
  unfold optMember. cbn [fst snd]. generalize (named "FileWatch" key), (named "Duration" key). intros [] d.
  - destruct v; try discriminate; [intros X; inversion X; reflexivity|]. destruct (fileWatchOk m); [intros X; inversion X; reflexivity|discriminate].
  - destruct d; intros X; inversion X; reflexivity.
Qed.
Lemma optMember_watches f64 pd m : forall o o1, fold_left (optMember f64 pd) m (Some o) = Some o1 ->
  o_fileWatch o1 = match lastMember "FileWatch" m with Some (JObj _) => true | Some _ => false | None => o_fileWatch o end.
Proof.
  induction m as [|(key & v) m IH]; intros o o1; [intros X; inversion X; reflexivity|]. rewrite fold_left_cons, lastMember_cons.
  destruct (optMember f64 pd (Some o) (key, v)) as [o2|] eqn:S; [|rewrite optMember_none; discriminate]. intros X. rewrite (IH _ _ X), (optMember_watch _ _ _ _ _ _ S).
  generalize (lastMember "FileWatch" m), (named "FileWatch" key). intros [w|] []; destruct v; reflexivity.
Qed.
Lemma getOptions_ok f64 pd o : (forall m, o = Some (JObj m) -> watchIn m = false) -> exists ds, getOptions (option_map (decodeOptions f64 pd) o) = Ok ds.
Proof.
  intros N. destruct o as [[| | | | |m]|]; cbn [option_map decodeOptions getOptions jopts0 o_fileWatch]; try (eexists; reflexivity).
  destruct (fold_left (optMember f64 pd) m (Some jopts0)) as [o1|] eqn:F; [|eexists; reflexivity].
  pose proof (optMember_watches f64 pd m _ _ F) as W. specialize (N m eq_refl). unfold watchIn in N.
  replace (o_fileWatch o1) with false; [eexists; reflexivity|]. rewrite W. revert N. generalize (lastMember "FileWatch" m). intros [[]|]; try reflexivity; discriminate.
Qed.
Lemma chans_handle f64 pd e k q k' r : chansOk (k_mod k) -> handle f64 pd e k q = Ok (k', r) -> chansOk (k_mod k').
Proof.
  intros C. unfold handle. destruct (eqb (q_op q) (bs "start")).
  { destruct (getOptions _) as [ds| |] eqn:O; cbn [bind]; [|discriminate|discriminate].
    assert (C' : chansOk (fst (doStart (k_mod k) (e_order e) (e_fails e) (List.length ds)))).
    { unfold doStart. destruct (m_running (k_mod k)) eqn:R; [exact C|]. destruct C as (C & _). split; cbn.
      + intros j I. specialize (C j I). lia.
      + intros _. exists (m_chans (k_mod k)). split; [reflexivity|]. split; [lia|]. intros I. specialize (C _ I). lia. }
    revert C'. generalize (doStart (k_mod k) (e_order e) (e_fails e) (List.length ds)). intros (m1 & er) C' S. inversion S; subst. exact C'. }
  destruct (eqb (q_op q) (bs "stop")).
  { destruct (doStop_ok (k_mod k) (e_order e) (e_fails e) None C) as (s' & er & -> & C'). cbn [bind]. intros S; inversion S; subst; exact C'. }
  repeat (destruct (eqb (q_op q) _); [intros S; inversion S; subst; exact C|]). generalize (bs "unexpected operation:"). intros t S; inversion S; subst; exact C.
Qed.
Lemma chans_kept f64 pd e k path body k' a : chansOk (k_mod k) -> serve f64 pd e k path body = Ok (k', a) -> chansOk (k_mod k').
Proof.
  intros C. unfold serve. destruct (negb (eqb path "/profile")); [intros S; inversion S; subst; exact C|].
  destruct (parseRequest body) as [q|]; [|intros S; inversion S; subst; exact C].
  destruct (handle f64 pd e k q) as [(k1 & (code & msg))| |] eqn:H; cbn [bind]; intros S; [|discriminate S|discriminate S]. inversion S; subst. exact (chans_handle _ _ _ _ _ _ _ C H).
Qed.
Lemma handle_ok f64 pd e k q : chansOk (k_mod k) -> (forall o, q_op q = bs "start" -> q_opts q = Some (JObj o) -> watchIn o = false) -> exists k' r, handle f64 pd e k q = Ok (k', r).
Proof.
  intros C W. unfold handle. case_eqb (q_op q) (bs "start").
  { destruct (getOptions_ok f64 pd (q_opts q)) as (ds & ->); [intros o X; exact (W o E X)|]. cbn [bind].
    generalize (doStart (k_mod k) (e_order e) (e_fails e) (List.length ds)). intros (m1 & er). do 2 eexists. reflexivity. }
  case_eqb (q_op q) (bs "stop").
  { destruct (doStop_ok (k_mod k) (e_order e) (e_fails e) None C) as (s' & er & -> & _). cbn [bind]. do 2 eexists. reflexivity. }
  repeat (destruct (eqb (q_op q) _); [do 2 eexists; reflexivity|]). do 2 eexists. reflexivity.
Qed.
Lemma after_chans f64 pd h : Forall (fun x => match x with EGoroutine o => isRequest o = false | _ => True end) h -> chansOk (k_mod (after f64 pd h)).
Proof.
  unfold after. assert (C : chansOk (k_mod ctl0)) by (split; cbn; [intros ? []|discriminate]). revert C. generalize ctl0.
  induction h as [|x h IH]; intros k C F; [exact C|]. inversion F as [|? ? F1 F2]; subst. cbn [fold_left]. apply IH; [|exact F2].
  destruct x as [e path body|o]; cbn [happens].
  - destruct (serve f64 pd e k path body) as [(k' & a)| |] eqn:S; [exact (chans_kept _ _ _ _ _ _ _ _ C S)|exact C|exact C].
  - assert (NF : noFileWatch o) by (destruct o; [discriminate F1|exact Logic.I..]).
    destruct (mstep_ok _ _ C NF) as (s' & a & -> & C'). exact C'.
Qed.
(** C93: after any history of requests and of the goroutines that stop the module by themselves, every request is answered, unless it starts the module asking for a file watch. *)
Theorem C93_served : forall f64 pd h e path body,
  Forall (fun x => match x with EGoroutine o => isRequest o = false | _ => True end) h ->
  (exists m, body = Some (JObj m) /\ operation m = bs "start") /\ asksWatch body \/ exists k' a, serve f64 pd e (after f64 pd h) path body = Ok (k', a).
Proof.
  intros f64 pd h e path body F. pose proof (after_chans f64 pd h F) as C. revert C. generalize (after f64 pd h). intros k C.
  unfold serve. destruct (negb (eqb path "/profile")); [right; do 2 eexists; reflexivity|].
  assert (P : match parseRequest body with
              | Some q => q_op q = bs "start" -> (exists m, body = Some (JObj m) /\ operation m = bs "start" /\ q_opts q = options m)
              | None => True end).
  { unfold parseRequest. destruct body as [[|b|n|s|l|m]|]; try exact Logic.I; [intros X; discriminate X|].
    pose proof (decode_exact m) as D. destruct (fold_left decodeMember m (Some creq0)) as [q|]; [|exact Logic.I]. destruct D as (_ & D1 & _ & _ & D4).
    intros X. exists m. rewrite <- D1. auto. }
  destruct (parseRequest body) as [q|]; [|right; do 2 eexists; reflexivity].
  assert (G : (forall o, q_op q = bs "start" -> q_opts q = Some (JObj o) -> watchIn o = false) -> exists k' r, handle f64 pd e k q = Ok (k', r)) by (intros X; apply handle_ok; [exact C|exact X]).
  assert (W : (forall o, q_op q = bs "start" -> q_opts q = Some (JObj o) -> watchIn o = false) \/ (exists m, body = Some (JObj m) /\ operation m = bs "start") /\ asksWatch body).
  { case_eqb (q_op q) (bs "start"); [|left; intros o X; contradiction]. destruct (P E) as (m & B & OP & OO).
    destruct (q_opts q) as [[| | | | |o]|] eqn:Q; try (left; intros o' _ X; discriminate X).
    destruct (watchIn o) eqn:N; [|left; intros o' _ X; inversion X; subst; exact N]. right. split; [exists m; auto|].
    unfold watchIn in N. destruct (lastMember "FileWatch" o) as [w|] eqn:L; [|discriminate N]. destruct w; try discriminate N. exists m, o, m0. auto. }
  destruct W as [W|W]; [right|left; exact W]. destruct (G W) as (k' & (code & msg) & ->). cbn [bind]. do 2 eexists. reflexivity.
Qed.
Print Assumptions C93_served.

(** ** Exactly which requests are not answered *)
Lemma fileWatchOk_exact m : fileWatchOk m = true <-> watchable (JObj m).
Proof.
  unfold fileWatchOk. rewrite forallb_forall. split.
  - intros H. right. exists m. split; [reflexivity|]. intros key w I. specialize (H _ I). cbn [fst snd] in H. split; intros N.
    + rewrite N in H. destruct w; try discriminate H; eauto.
    + destruct (named "File" key) eqn:N1; [rewrite (named_not "File" "DataSize" key N1 eq_refl) in N; discriminate N|]. rewrite N in H.
      destruct w; try discriminate H; [left; reflexivity|]. right. unfold int64 in H. eexists. split; [reflexivity|lia].
  - intros [X|(fw & X & H)]; [discriminate X|]. inversion X; subst fw. intros (key & w) I. destruct (H _ _ I) as (H1 & H2). cbn [fst snd].
    destruct (named "File" key); [destruct (H1 eq_refl) as [->|(s & ->)]; reflexivity|].
    destruct (named "DataSize" key); [|reflexivity]. destruct (H2 eq_refl) as [->|(n & -> & B)]; [reflexivity|]. unfold int64. lia.
Qed.
Lemma optMember_good f64 pd o key v : (named "FileWatch" key = true -> watchable v) <-> optMember f64 pd (Some o) (key, v) <> None.
Proof.
  unfold optMember. cbn [fst snd]. generalize (named "Duration" key). intros d. destruct (named "FileWatch" key).
  2:{ split; [intros _; destruct d; discriminate|intros _ X; discriminate X]. }
  destruct v; try (split; [intros H; destruct (H eq_refl) as [X|(fw & X & _)]; discriminate X|intros H; exfalso; apply H; reflexivity]).
  - split; [discriminate|intros _ _; left; reflexivity].
  - pose proof (fileWatchOk_exact m) as (F1 & F2). destruct (fileWatchOk m).
    + split; [discriminate|intros _ _; apply F1; reflexivity].
    + split; [intros H; specialize (F2 (H eq_refl)); discriminate F2|intros H; exfalso; apply H; reflexivity].
Qed.
Lemma optMember_all f64 pd m : forall o, (forall key v, In (key, v) m -> named "FileWatch" key = true -> watchable v) <-> fold_left (optMember f64 pd) m (Some o) <> None.
Proof.
  induction m as [|(key & v) m IH]; intros o; [split; [discriminate|intros _ ? ? []]|]. rewrite fold_left_cons.
  pose proof (optMember_good f64 pd o key v) as (G1 & G2). destruct (optMember f64 pd (Some o) (key, v)) as [o1|].
  - rewrite <- (IH o1). split.
    + intros H a b I. apply H. right. exact I.
    + intros H a b [X|I]; [inversion X; subst; apply G2; discriminate|apply H; exact I].
  - rewrite optMember_none. split; [|intros H; exfalso; apply H; reflexivity]. intros H. exfalso. apply G1; [|reflexivity]. apply H. left. reflexivity.
Qed.
Lemma getOptions_watch f64 pd o : getOptions (option_map (decodeOptions f64 pd) o) = Panic <-> exists m, o = Some (JObj m) /\ watches m.
Proof.
  destruct o as [[| | | | |m]|]; cbn [option_map decodeOptions getOptions jopts0 o_fileWatch]; try (split; [discriminate|intros (m' & X & _); discriminate X]).
  pose proof (optMember_all f64 pd m jopts0) as (A1 & A2). pose proof (optMember_watches f64 pd m jopts0) as W.
  destruct (fold_left (optMember f64 pd) m (Some jopts0)) as [o1|].
  - specialize (W o1 eq_refl). cbn [jopts0 o_fileWatch] in W. split.
    + intros P. exists m. split; [reflexivity|]. split; [apply A2; discriminate|]. destruct (o_fileWatch o1); [|discriminate P].
      destruct (lastMember "FileWatch" m) as [w|]; [|discriminate W]. destruct w; try discriminate W. eexists. reflexivity.
    + intros (m' & X & (_ & fw & L)). inversion X; subst m'. rewrite L in W. rewrite W. reflexivity.
  - cbn [o_fileWatch]. split; [discriminate|]. intros (m' & X & (G & _)). inversion X; subst m'. exfalso. exact (A1 G eq_refl).
Qed.
(** C93: after any history, the requests that get no answer are exactly the understood starts whose options ask for a file watch, whether the module runs or not. *)
Theorem C93_unanswered : forall f64 pd h e path body,
  Forall (fun x => match x with EGoroutine o => isRequest o = false | _ => True end) h ->
  (exists k' a, serve f64 pd e (after f64 pd h) path body = Ok (k', a)) <->
  ~ (path = "/profile" /\ exists m o, body = Some (JObj m) /\ understood m /\ operation m = bs "start" /\ options m = Some (JObj o) /\ watches o).
Proof.
  intros f64 pd h e path body F. split.
  - intros (k' & a & S) (-> & m & o & -> & U & OP & OO & W). revert S. generalize (after f64 pd h). intros k S.
    pose proof (decode_exact m) as D. destruct (fold_left decodeMember m (Some creq0)) as [q|] eqn:Q; [|contradiction]. destruct D as (_ & D1 & _ & _ & D4).
    destruct (serve_handle f64 pd e k (Some (JObj m)) q k' a Q S) as (r & H). rewrite OP in D1. rewrite OO in D4.
    unfold handle in H. rewrite D1, eqb_refl, D4 in H. rewrite (proj2 (getOptions_watch f64 pd (Some (JObj o)))) in H by (exists o; split; [reflexivity|exact W]). discriminate H.
  - intros N. pose proof (after_chans f64 pd h F) as C. revert C. generalize (after f64 pd h). intros k C.
    unfold serve. case_eqb path "/profile"; cbn [negb]; [|do 2 eexists; reflexivity].
    destruct (parseRequest body) as [q|] eqn:PQ; [|do 2 eexists; reflexivity].
    assert (G : exists k' r, handle f64 pd e k q = Ok (k', r)).
    { unfold handle. case_eqb (q_op q) (bs "start").
      - assert (NP : getOptions (option_map (decodeOptions f64 pd) (q_opts q)) <> Panic).
        { intros X. apply getOptions_watch in X. destruct X as (o & X & W). apply N. split; [exact E|]. unfold parseRequest in PQ.
          destruct body as [[| | | | |m]|]; try discriminate PQ; [inversion PQ; subst q; discriminate E0|].
          pose proof (decode_exact m) as D. rewrite PQ in D. destruct D as (U & D1 & _ & _ & D4). exists m, o. rewrite <- D1, <- D4. auto. }
        destruct (q_opts q) as [j|]; cbn [option_map getOptions] in *.
        + destruct (o_fileWatch (decodeOptions f64 pd j)); [exfalso; apply NP; reflexivity|]. cbn [bind].
          match goal with |- context [doStart ?a ?b ?c ?d] => generalize (doStart a b c d) end. intros (m1 & er). do 2 eexists. reflexivity.
        + cbn [bind]. match goal with |- context [doStart ?a ?b ?c ?d] => generalize (doStart a b c d) end. intros (m1 & er). do 2 eexists. reflexivity.
      - case_eqb (q_op q) (bs "stop").
        { destruct (doStop_ok (k_mod k) (e_order e) (e_fails e) None C) as (s' & er & -> & _). cbn [bind]. do 2 eexists. reflexivity. }
        repeat (destruct (eqb (q_op q) _); [do 2 eexists; reflexivity|]). do 2 eexists. reflexivity. }
    destruct G as (k' & (code & msg) & ->). cbn [bind]. do 2 eexists. reflexivity.
Qed.
Print Assumptions C93_unanswered.

(** ** What does not hold *)
Definition calm : world93 := {| e_order := []; e_fails := fun _ => false; e_text := []; e_attach := [] |}.
Definition startFor (d : json) : option json := Some (JObj [(bs "operation", JStr (bs "start")); (bs "options", JObj [(bs "duration", d)])]).

(** False: a number given as the duration counts seconds, as the comment beside the field says: asking for 60 stops the module after 60 nanoseconds. *)
Theorem C93_seconds_refuted : ~ (forall n k' a, 0 < n < 1000000 ->
  serve (fun n => n) (fun _ => None) calm ctl0 "/profile" (startFor (JInt n)) = Ok (k', a) -> k_timers k' = [n * 1000000000]).
Proof.
  intros H. destruct (serve (fun n => n) (fun _ => None) calm ctl0 "/profile" (startFor (JInt 60))) as [(k' & a)| |] eqn:S; [|vm_compute in S; discriminate S|vm_compute in S; discriminate S].
  pose proof (H 60 k' a ltac:(lia) S) as T. vm_compute in S. inversion S; subst k' a. vm_compute in T. discriminate T.
Qed.
Print Assumptions C93_seconds_refuted.

(** False: a duration that cannot be read is refused: the module is started, with code 1, and never stops by itself. *)
Theorem C93_bad_duration_refuted : ~ (forall pd d k' a, pd d = None ->
  serve (fun n => n) pd calm ctl0 "/profile" (startFor (JStr d)) = Ok (k', a) -> m_running (k_mod k') = false \/ k_timers k' <> []).
Proof.
  intros H. destruct (serve (fun n => n) (fun _ => None) calm ctl0 "/profile" (startFor (JStr (bs "1 minute")))) as [(k' & a)| |] eqn:S; [|vm_compute in S; discriminate S|vm_compute in S; discriminate S].
  pose proof (H (fun _ => None) (bs "1 minute") k' a eq_refl S) as T. vm_compute in S. inversion S; subst k' a. destruct T as [T|T]; [discriminate T|apply T; reflexivity].
Qed.
Print Assumptions C93_bad_duration_refuted.

(** False: the answers say that they are JSON: the type is set after the status has been sent, and no answer of status 200 carries it. *)
Theorem C93_type_refuted :
  ~ (forall f64 pd e k path body k' a, serve f64 pd e k path body = Ok (k', a) -> a_status a = 200 -> a_type a = Some "application/json"%string) /\
  (forall f64 pd e k path body k' a, serve f64 pd e k path body = Ok (k', a) -> a_status a = 200 -> a_type a = None).
Proof.
  assert (N : forall f64 pd e k path body k' a, serve f64 pd e k path body = Ok (k', a) -> a_status a = 200 -> a_type a = None).
  { intros f64 pd e k path body k' a. unfold serve. destruct (negb (eqb path "/profile")); [intros X; inversion X; subst; discriminate|].
    destruct (parseRequest body) as [q|]; [|intros X; inversion X; subst; discriminate].
    destruct (handle f64 pd e k q) as [(k1 & (code & msg))| |]; cbn [bind]; intros X; [|discriminate X|discriminate X]. inversion X; subst. reflexivity. }
  split; [|exact N]. intros H.
  destruct (serve (fun n => n) (fun _ => None) calm ctl0 "/profile" (Some JNull)) as [(k' & a)| |] eqn:S; [|vm_compute in S; discriminate S|vm_compute in S; discriminate S].
  assert (T : a_status a = 200) by (vm_compute in S; inversion S; reflexivity).
  pose proof (H _ _ _ _ _ _ _ _ S T) as T1. rewrite (N _ _ _ _ _ _ _ _ S T) in T1. discriminate T1.
Qed.
Print Assumptions C93_type_refuted.

(** False: every request is answered: a start that asks for a file watch gets no answer at all. *)
Theorem C93_served_refuted : ~ (forall f64 pd h e path body,
  Forall (fun x => match x with EGoroutine o => isRequest o = false | _ => True end) h -> exists k' a, serve f64 pd e (after f64 pd h) path body = Ok (k', a)).
Proof.
  intros H. destruct (H (fun n => n) (fun _ => None) [] calm "/profile"%string
    (Some (JObj [(bs "Operation", JStr (bs "start")); (bs "Options", JObj [(bs "FileWatch", JObj [(bs "File", JStr (bs "/tmp/x"))])])])) (Forall_nil _)) as (k' & a & S).
  vm_compute in S. discriminate S.
Qed.
Print Assumptions C93_served_refuted.

(** False: the process attached is the one given: only the low 32 bits of its number are passed on, so asking for 4294967303 attaches to process 7. *)
Theorem C93_process_refuted : ~ (forall n k' a,
  serve (fun n => n) (fun _ => None) calm ctl0 "/profile" (Some (JObj [(bs "Operation", JStr (bs "start_attach_agent")); (bs "Pid", JInt n)])) = Ok (k', a) ->
  a_status a = 200 -> k_native k' = [NAttach n]).
Proof.
  intros H. destruct (serve (fun n => n) (fun _ => None) calm ctl0 "/profile" (Some (JObj [(bs "Operation", JStr (bs "start_attach_agent")); (bs "Pid", JInt 4294967303)]))) as [(k' & a)| |] eqn:S; [|vm_compute in S; discriminate S|vm_compute in S; discriminate S].
  pose proof (H _ k' a S) as T. vm_compute in S. inversion S; subst k' a. specialize (T eq_refl). discriminate T.
Qed.
Print Assumptions C93_process_refuted.

(** A start for a minute in nanoseconds, the timer's goroutine stopping the module, then the status and an unknown operation *)
Example C93_example :
  let h := [ERequest calm "/profile" (startFor (JInt 60000000000)); EGoroutine (MEnter 0); EGoroutine (MFire 0); EGoroutine (MAutoStop 0 [] (fun _ => false))] in
  let ask op := serve (fun n => n) (fun _ => None) calm (after (fun n => n) (fun _ => None) h) "/profile" (Some (JObj [(bs "OPERATION", JStr (bs op)); (bs "pid", JInt 7)])) in
  let text r := match r with Ok (_, a) => Some (a_status a, read (a_body a)) | _ => None end in
  k_timers (after (fun n => n) (fun _ => None) h) = [60000000000] /\
  text (ask "status"%string) = Some (200, Some (JObj [(bs "Code", JInt 1); (bs "Msg", JStr (bs "stopped"))])) /\
  text (ask "restart"%string) = Some (200, Some (JObj [(bs "Code", JInt 4); (bs "Msg", JStr (bs "unexpected operation:restart"))])) /\
  understood [(bs "OPERATION", JStr (bs "status")); (bs "pid", JInt 7)].
Proof.
  split; [vm_compute; reflexivity|]. split; [vm_compute; reflexivity|]. split; [vm_compute; reflexivity|].
  intros key v [X|[X|[]]]; inversion X; subst; (split; intros Y; [try (vm_compute in Y; discriminate Y)|destruct Y as [Y|Y]; try (vm_compute in Y; discriminate Y)]); right; eexists; [reflexivity|split; [reflexivity|lia]].
Qed.
