(** C60: the socket table of a process. *)
From Verif Require Import Base Decimal EventModel EventProps ConnectModel ConnectSpec SocketModel.
From Coq Require Import ZifyBool.
Open Scope string_scope. Open Scope list_scope. Open Scope Z_scope.

(** * Specification: the file as the kernel writes it (net/ipv4/tcp_ipv4.c, get_tcp4_sock) *)
Definition hexDigit (v : Z) : Z := if v <? 10 then 48 + v else 55 + v.
Fixpoint hexN (n : nat) (v : Z) : bytes := match n with O => [] | S n' => hexN n' (v / 16) ++ [hexDigit (v mod 16)] end.
(** Local and remote address (as the numbers of the kernel's events) and port, state, and the rest of the line. *)
Record sock := { s_sip : Z; s_sport : Z; s_dip : Z; s_dport : Z; s_state : Z; s_rest : bytes }.
Definition SP : Z := 32.
Definition sockLine (index : bytes) (s : sock) : bytes :=
  index ++ SP :: hexN 8 (s_sip s) ++ 58 :: hexN 4 (s_sport s) ++ SP :: hexN 8 (s_dip s) ++ 58 :: hexN 4 (s_dport s) ++ SP :: hexN 2 (s_state s) ++ SP :: s_rest s.
Definition plainText (l : bytes) : Prop := forall c, In c l -> c <> 10 /\ c <> 13.
Definition wf (x : bytes * sock) : Prop :=
  let '(index, s) := x in
  0 <= s_sip s < 2 ^ 32 /\ 0 <= s_dip s < 2 ^ 32 /\ 0 <= s_sport s < 2 ^ 16 /\ 0 <= s_dport s < 2 ^ 16 /\ 0 <= s_state s < 256 /\
  plainText index /\ plainText (s_rest s) /\ List.length (fields index) = 1%nat /\ 6 <= zlen (fields (s_rest s)).
Definition fileOf (header : bytes) (l : list (bytes * sock)) : bytes := header ++ 10 :: flat_map (fun x => sockLine (fst x) (snd x) ++ [10]) l.
Definition keyOf (s : sock) : ckey := (ipLong2String (s_sip s), s_sport s, ipLong2String (s_dip s), s_dport s).
(** The state of the last socket listed with this address. *)
Fixpoint lastState (k : ckey) (l : list sock) : option bytes :=
  match l with [] => None | s :: r => match lastState k r with Some x => Some x | None => if eqb (keyOf s) k then Some (hexN 2 (s_state s)) else None end end.

(** The same by the four numbers. *)
Fixpoint stateOf (sip sport dip dport : Z) (l : list sock) : option Z :=
  match l with
  | [] => None
  | s :: r => match stateOf sip sport dip dport r with Some x => Some x | None => if (s_sip s =? sip) && (s_sport s =? sport) && (s_dip s =? dip) && (s_dport s =? dport) then Some (s_state s) else None end
  end.

(** * Proofs *)
Lemma split_none p l : forallb (fun c => negb (p c)) l = true -> splitOn p l = [l].
Proof. induction l as [|c l IH]; intros H; [reflexivity|]. cbn [forallb splitOn] in *. apply andb_true_iff in H. destruct H as [H1 H2]. destruct (p c); [discriminate H1|]. rewrite IH by exact H2. reflexivity. Qed.
Lemma split_at p a c r : forallb (fun c => negb (p c)) a = true -> p c = true -> splitOn p (a ++ c :: r) = a :: splitOn p r.
Proof.
  intros H P. induction a as [|x a IH]; cbn [app splitOn]; [rewrite P; reflexivity|]. cbn [forallb] in H. apply andb_true_iff in H. destruct H as [H1 H2]. destruct (p x); [discriminate H1|]. rewrite IH by exact H2. reflexivity.
Qed.
Lemma split_app_sp p : forall a c r, p c = true -> splitOn p (a ++ c :: r) = splitOn p a ++ splitOn p r.
Proof.
  induction a as [|x a IH]; intros c r P; cbn [app splitOn]; [rewrite P; reflexivity|]. rewrite IH by exact P. destruct (p x); [reflexivity|].
  destruct (splitOn p a) as [|h t] eqn:E; [destruct a; cbn in E; [discriminate E|destruct (p z); [discriminate E|destruct (splitOn p a); discriminate E]]|]. reflexivity.
Qed.
Lemma fields_app a r : fields (a ++ SP :: r) = fields a ++ fields r.
Proof. unfold fields. rewrite split_app_sp by reflexivity. apply filter_app. Qed.
Lemma fields_word a : a <> [] -> forallb (fun c => negb (isSpaceB c)) a = true -> fields a = [a].
Proof. intros N H. unfold fields. rewrite split_none by exact H. destruct a; [congruence|reflexivity]. Qed.
Lemma hexDigit_range v : 0 <= v < 16 -> (48 <= hexDigit v <= 57 \/ 65 <= hexDigit v <= 70) /\ hexVal (hexDigit v) = Some v.
Proof.
  intros R. unfold hexDigit. destruct (v <? 10) eqn:E.
  - split; [left; lia|]. unfold hexVal. replace ((48 <=? 48 + v) && (48 + v <=? 57)) with true by lia. f_equal. lia.
  - split; [right; lia|]. unfold hexVal. replace ((48 <=? 55 + v) && (55 + v <=? 57)) with false by lia. replace ((65 <=? 55 + v) && (55 + v <=? 70)) with true by lia. f_equal. lia.
Qed.
Lemma hexN_all n : forall v c, In c (hexN n v) -> 48 <= c <= 57 \/ 65 <= c <= 70.
Proof.
  induction n as [|n IH]; intros v c I; cbn [hexN] in I; [destruct I|]. apply in_app_iff in I. destruct I as [I|[<-|[]]]; [apply (IH _ _ I)|]. apply hexDigit_range. apply Z.mod_pos_bound. lia.
Qed.
Lemma hexN_free n v (p : Z -> bool) : (forall c, 48 <= c <= 57 \/ 65 <= c <= 70 -> p c = false) -> forallb (fun c => negb (p c)) (hexN n v) = true.
Proof. intros H. apply forallb_forall. intros c I. rewrite (H c (hexN_all n v c I)). reflexivity. Qed.
Lemma hexNum_app : forall a b acc x, hexNum acc a = Ok x -> hexNum acc (a ++ b) = hexNum x b.
Proof. induction a as [|c a IH]; intros b acc x H; cbn [hexNum app] in *; [inversion H; reflexivity|]. destruct (hexVal c); [apply IH; exact H|discriminate H]. Qed.
Lemma hexNum_hexN n : forall v, 0 <= v < 16 ^ Z.of_nat n -> hexNum 0 (hexN n v) = Ok v.
Proof.
  induction n as [|n IH]; intros v R; cbn [hexN]; [cbn in R; assert (v = 0) by lia; subst; reflexivity|].
  rewrite Nat2Z.inj_succ, Z.pow_succ_r in R by lia. assert (D : 0 <= v / 16 < 16 ^ Z.of_nat n) by (split; [apply Z.div_pos; lia|apply Z.div_lt_upper_bound; lia]).
  rewrite (hexNum_app _ _ 0 (v / 16)) by (apply IH; exact D). cbn [hexNum]. destruct (hexDigit_range (v mod 16)) as [_ ->]; [apply Z.mod_pos_bound; lia|]. f_equal. pose proof (Z.div_mod v 16). lia.
Qed.
Lemma parse_port v : 0 <= v < 2 ^ 16 -> parseHex (hexN 4 v) = Ok v.
Proof.
  intros R. unfold parseHex. pose proof (hexNum_hexN 4 v) as H. change (16 ^ Z.of_nat 4) with (2 ^ 16) in H. rewrite H by exact R.
  destruct (hexN 4 v) eqn:E; [cbn [hexN] in E; apply (f_equal (@List.length Z)) in E; rewrite !app_length in E; cbn in E; lia|]. cbn [bind]. replace (v <? 2 ^ 64) with true by lia. reflexivity.
Qed.
Lemma hexDecode_pair v r : 0 <= v < 256 -> hexDecode (hexDigit (v / 16) :: hexDigit (v mod 16) :: r) = bind (hexDecode r) (fun t => Ok (v :: t)).
Proof.
  intros R. cbn [hexDecode]. destruct (hexDigit_range (v / 16)) as [_ ->]; [split; [apply Z.div_pos; lia|apply Z.div_lt_upper_bound; lia]|].
  destruct (hexDigit_range (v mod 16)) as [_ ->]; [apply Z.mod_pos_bound; lia|]. replace (v / 16 * 16 + v mod 16) with v by (pose proof (Z.div_mod v 16); lia). reflexivity.
Qed.
Lemma mod16 a : a mod 16 = a mod 256 mod 16.
Proof. apply Znumtheory.Zmod_div_mod; try lia. exists 16. reflexivity. Qed.
Lemma div16 a : a / 16 mod 16 = a mod 256 / 16.
Proof. change 256 with (16 * 16). rewrite (Z.rem_mul_r a 16 16) by lia. rewrite (Z.mul_comm 16), Z.div_add by lia. rewrite (Z.div_small (a mod 16)) by (apply Z.mod_pos_bound; lia). reflexivity. Qed.
Lemma decode_word v : 0 <= v < 2 ^ 32 -> hexDecode (hexN 8 v) = Ok [v / 2 ^ 24 mod 256; v / 2 ^ 16 mod 256; v / 2 ^ 8 mod 256; v mod 256].
Proof.
  intros R. cbn [hexN app]. rewrite !Z.div_div by lia.
    replace (v / (16 * (16 * (16 * (16 * (16 * (16 * 16)))))) mod 16) with ((v / 2 ^ 24) mod 256 / 16) by (rewrite <- div16, Z.div_div by lia; reflexivity).
    replace (v / (16 * (16 * (16 * (16 * (16 * 16))))) mod 16) with ((v / 2 ^ 24) mod 256 mod 16) by (rewrite <- mod16; reflexivity).
    replace (v / (16 * (16 * (16 * (16 * 16)))) mod 16) with ((v / 2 ^ 16) mod 256 / 16) by (rewrite <- div16, Z.div_div by lia; reflexivity).
    replace (v / (16 * (16 * (16 * 16))) mod 16) with ((v / 2 ^ 16) mod 256 mod 16) by (rewrite <- mod16; reflexivity).
    replace (v / (16 * (16 * 16)) mod 16) with ((v / 2 ^ 8) mod 256 / 16) by (rewrite <- div16, Z.div_div by lia; reflexivity).
    replace (v / (16 * 16) mod 16) with ((v / 2 ^ 8) mod 256 mod 16) by (rewrite <- mod16; reflexivity).
    replace (v / 16 mod 16) with (v mod 256 / 16) by (rewrite <- div16; reflexivity). rewrite (mod16 v).
    rewrite !hexDecode_pair by (apply Z.mod_pos_bound; lia). reflexivity.
Qed.
Lemma parse_ip ip6 v : 0 <= v < 2 ^ 32 -> parseIP ip6 (hexN 8 v) = Ok (ipLong2String v).
Proof. intros R. unfold parseIP. rewrite (decode_word v R). reflexivity. Qed.
Lemma parse_addr ip6 v p : 0 <= v < 2 ^ 32 -> 0 <= p < 2 ^ 16 -> parseAddr ip6 (hexN 8 v ++ 58 :: hexN 4 p) = Ok (ipLong2String v, p).
Proof.
  intros V P. unfold parseAddr. assert (F : forall n x, forallb (fun c => negb (58 =? c)) (hexN n x) = true) by (intros n x; apply hexN_free; intros c [C|C]; lia).
  rewrite split_at by (apply F || reflexivity). rewrite split_none by apply F. rewrite parse_ip by exact V. cbn [bind]. rewrite parse_port by exact P. reflexivity.
Qed.
Lemma hex_field n v : fields (hexN (S n) v) = [hexN (S n) v].
Proof. apply fields_word; [cbn [hexN]; intros E; destruct (hexN n (v / 16)); discriminate E|]. apply hexN_free. intros c [C|C]; unfold isSpaceB; lia. Qed.
Lemma parse_line ip6 x : wf x -> parseLine ip6 (fields (sockLine (fst x) (snd x))) = Ok (keyOf (snd x), hexN 2 (s_state (snd x))).
Proof.
  destruct x as [index s]. intros (A & B & C & D & E & _ & _ & F1 & F2). cbn [fst snd]. unfold sockLine.
  destruct (fields index) as [|i [|? ?]] eqn:Fi; try discriminate F1.
  set (adr v p := hexN 8 v ++ 58 :: hexN 4 p).
  assert (W : forall v p, fields (adr v p) = [adr v p]).
  { intros v p. apply fields_word; [unfold adr; cbn [hexN]; intros X; apply (f_equal (@List.length Z)) in X; rewrite !app_length in X; cbn in X; lia|].
    unfold adr. rewrite forallb_app. cbn [forallb]. rewrite !hexN_free by (intros c [H|H]; unfold isSpaceB; lia). reflexivity. }
  assert (Eq : index ++ SP :: hexN 8 (s_sip s) ++ 58 :: hexN 4 (s_sport s) ++ SP :: hexN 8 (s_dip s) ++ 58 :: hexN 4 (s_dport s) ++ SP :: hexN 2 (s_state s) ++ SP :: s_rest s =
    index ++ SP :: adr (s_sip s) (s_sport s) ++ SP :: adr (s_dip s) (s_dport s) ++ SP :: hexN 2 (s_state s) ++ SP :: s_rest s).
  { unfold adr. rewrite <- !app_assoc. cbn [app]. reflexivity. }
  rewrite Eq, !fields_app, Fi, !W, hex_field. cbn [app]. unfold parseLine.
  replace (zlen _ <? 10) with false by (unfold zlen in *; cbn [List.length]; lia).
  unfold adr. rewrite !parse_addr by assumption. reflexivity.
Qed.
Lemma plain_line x : wf x -> forallb (fun c => negb (10 =? c)) (sockLine (fst x) (snd x)) = true /\ dropCR (sockLine (fst x) (snd x)) = sockLine (fst x) (snd x).
Proof.
  destruct x as [index s]. intros (A & B & C & D & E & P1 & P2 & F1 & F2). cbn [fst snd].
  assert (P : forall c, In c (sockLine index s) -> c <> 10 /\ c <> 13).
  { intros c I. unfold sockLine in I.
    repeat first [apply in_app_iff in I; destruct I as [I|I]; [first [exact (P1 _ I)|pose proof (hexN_all _ _ _ I); lia]|] | destruct I as [<-|I]; [split; discriminate|]].
    exact (P2 _ I). }
  split; [apply forallb_forall; intros c I; destruct (P c I); lia|]. unfold dropCR. destruct (rev (sockLine index s)) as [|z r] eqn:R; [reflexivity|].
  assert (I : In z (sockLine index s)) by (apply in_rev; rewrite R; left; reflexivity). destruct (P z I) as [_ N].
  repeat match goal with |- context [match ?v with _ => _ end] => is_var v; destruct v; try reflexivity; try congruence end.
Qed.
Lemma lines_of l : Forall wf l -> dropLastEmpty (splitOn (Z.eqb 10) (flat_map (fun x => sockLine (fst x) (snd x) ++ [10]) l)) = map (fun x => sockLine (fst x) (snd x)) l.
Proof.
  induction l as [|x l IH]; intros W; [reflexivity|]. inversion W; subst. cbn [flat_map map]. rewrite <- app_assoc. cbn [app]. rewrite split_at by (apply plain_line; assumption) || reflexivity.
  specialize (IH ltac:(assumption)).
  destruct (splitOn (Z.eqb 10) (flat_map _ l)) as [|h t] eqn:E.
  - exfalso. destruct (flat_map _ l); cbn [splitOn] in E; [discriminate E|]. destruct (10 =? z); [discriminate E|]. destruct (splitOn (Z.eqb 10) l0); discriminate E.
  - cbn [dropLastEmpty]. cbn [dropLastEmpty] in IH. rewrite IH. reflexivity.
Qed.
Lemma parse_lines ip6 l : Forall wf l -> forall m, exists m', parseLines ip6 (map (fun x => sockLine (fst x) (snd x)) l) m = Ok m' /\
  forall k, aget m' k = match lastState k (map snd l) with Some x => Some x | None => aget m k end.
Proof.
  induction l as [|x l IH]; intros W m; [exists m; split; reflexivity|]. inversion W; subst. cbn [map parseLines]. rewrite parse_line by assumption. cbn [bind fst snd].
  destruct (IH ltac:(assumption) (aset m (keyOf (snd x)) (hexN 2 (s_state (snd x))))) as (m' & E & A). exists m'. split; [exact E|]. intros k. rewrite A. cbn [lastState].
  destruct (lastState k (map snd l)); [reflexivity|]. rewrite aget_aset, (eqb_sym k). destruct (eqb (keyOf (snd x)) k); reflexivity.
Qed.

(** The table read from the kernel's file gives every listed socket its state, and no other. *)
Theorem C60_table ip6 header l : plainText header -> Forall wf l ->
  exists m, parseTable ip6 (fileOf header l) = Ok m /\ forall k, aget m k = lastState k (map snd l).
Proof.
  intros P W. unfold parseTable.
  assert (X : skipn 1 (scanLines (fileOf header l)) = map (fun x => sockLine (fst x) (snd x)) l).
  { unfold scanLines, fileOf. rewrite split_at; [|apply forallb_forall; intros c I; destruct (P c I); lia|reflexivity].
    pose proof (lines_of l W) as L. destruct (splitOn (Z.eqb 10) (flat_map _ l)) as [|h t] eqn:E.
    - exfalso. destruct (flat_map _ l); cbn [splitOn] in E; [discriminate E|]. destruct (10 =? z); [discriminate E|]. destruct (splitOn (Z.eqb 10) l0); discriminate E.
    - change (dropLastEmpty (header :: h :: t)) with (header :: dropLastEmpty (h :: t)). rewrite L. cbn [map skipn]. rewrite map_map. apply map_ext_in. intros x I. rewrite Forall_forall in W. apply plain_line. apply W. exact I. }
  rewrite X. destruct (parse_lines ip6 l W []) as (m & E & A). exists m. split; [exact E|]. intros k. rewrite A. destruct (lastState k (map snd l)); reflexivity.
Qed.
Print Assumptions C60_table.
Lemma key_numbers s sip sport dip dport : 0 <= s_sip s < 2 ^ 32 -> 0 <= s_dip s < 2 ^ 32 -> 0 <= sip < 2 ^ 32 -> 0 <= dip < 2 ^ 32 ->
  eqb (keyOf s) (ipLong2String sip, sport, ipLong2String dip, dport) = ((s_sip s =? sip) && (s_sport s =? sport) && (s_dip s =? dip) && (s_dport s =? dport)).
Proof.
  intros A B C D. case_eqb (keyOf s) (ipLong2String sip, sport, ipLong2String dip, dport).
  - unfold keyOf in E. inversion E as [[E1 E2 E3 E4]]. apply C10_text_determines_address in E1; try assumption. apply C10_text_determines_address in E3; try assumption. lia.
  - destruct ((s_sip s =? sip) && (s_sport s =? sport) && (s_dip s =? dip) && (s_dport s =? dport)) eqn:X; [|reflexivity]. exfalso. apply E. unfold keyOf.
    replace (s_sip s) with sip by lia. replace (s_sport s) with sport by lia. replace (s_dip s) with dip by lia. replace (s_dport s) with dport by lia. reflexivity.
Qed.
(** A scan for the connection with these numbers, as a kernel event names them, finds the state of the last socket listed with the same four numbers. *)
Theorem C60_scan ip6 proc pid header l sip sport dip dport : plainText header -> Forall wf l -> proc pid = Some (fileOf header l) -> 0 <= sip < 2 ^ 32 -> 0 <= dip < 2 ^ 32 ->
  lookIn ip6 proc pid (ipLong2String sip, sport, ipLong2String dip, dport) =
  match stateOf sip sport dip dport (map snd l) with Some st => SocketState (hexN 2 st) | None => NoSocket end.
Proof.
  intros P W F A B. unfold lookIn. rewrite F. destruct (C60_table ip6 header l P W) as (m & E & G). rewrite E, G. clear - W A B.
  induction l as [|[i s] l IH]; [reflexivity|]. inversion W as [|? ? W1 W2]; subst. specialize (IH W2). cbn [map lastState stateOf snd].
  destruct W1 as (X1 & X2 & _). rewrite key_numbers by assumption.
  destruct (lastState _ (map snd l)); destruct (stateOf sip sport dip dport (map snd l)); try discriminate IH; [exact IH|].
  destruct ((s_sip s =? sip) && _ && _ && _); reflexivity.
Qed.
Print Assumptions C60_scan.
(** One line that cannot be read makes the whole table unreadable, whatever the other lines say: every connection of the process is taken as given up. *)
Theorem C60_bad_line ip6 proc pid f a bad b k : proc pid = Some f -> skipn 1 (scanLines f) = a ++ bad :: b -> (forall p, parseLine ip6 (fields bad) <> Ok p) -> lookIn ip6 proc pid k = NoProcess.
Proof.
  intros F E B. unfold lookIn, parseTable. rewrite F, E. assert (N : forall m x, parseLines ip6 (a ++ bad :: b) m <> Ok x).
  { clear E. induction a as [|y a IH]; intros m x; cbn [app parseLines].
    - destruct (parseLine ip6 (fields bad)) as [p| |]; cbn [bind]; try discriminate. destruct (B p eq_refl).
    - destruct (parseLine ip6 (fields y)); cbn [bind]; try discriminate. apply IH. }
  specialize (N []). destruct (parseLines ip6 (a ++ bad :: b) []); [destruct (N a0 eq_refl)|reflexivity|reflexivity].
Qed.
Print Assumptions C60_bad_line.

(** A process whose file cannot be opened is taken to be gone. *)
Theorem C60_gone ip6 proc pid k : proc pid = None -> lookIn ip6 proc pid k = NoProcess.
Proof. intros E. unfold lookIn. rewrite E. reflexivity. Qed.
Print Assumptions C60_gone.

(** An IPv6 address, written as four words in the byte order of the machine, is read as its sixteen bytes in the order of the network. *)
Definition memoryBytes (w : Z) : bytes := [w mod 256; w / 2 ^ 8 mod 256; w / 2 ^ 16 mod 256; w / 2 ^ 24 mod 256].
Lemma hexDecode_app : forall n a b x, (List.length a <= n)%nat -> hexDecode a = Ok x -> hexDecode (a ++ b) = bind (hexDecode b) (fun y => Ok (x ++ y)).
Proof.
  induction n as [|n IH]; intros a b x L H.
  - destruct a; [|cbn in L; lia]. cbn in *. injection H as <-. destruct (hexDecode b); reflexivity.
  - destruct a as [|c [|d a]]; cbn [hexDecode app] in *; [injection H as <-; destruct (hexDecode b); reflexivity|discriminate H|].
    destruct (hexVal c) as [u|]; [|discriminate H]. destruct (hexVal d) as [v|]; [|discriminate H].
    destruct (hexDecode a) as [t| |] eqn:T; cbn [bind] in H; try discriminate H. injection H as <-.
    rewrite (IH a b t) by (first [exact T|cbn in L; lia]). destruct (hexDecode b); reflexivity.
Qed.
Theorem C60_address6 ip6 w0 w1 w2 w3 : 0 <= w0 < 2 ^ 32 -> 0 <= w1 < 2 ^ 32 -> 0 <= w2 < 2 ^ 32 -> 0 <= w3 < 2 ^ 32 ->
  parseIP ip6 (hexN 8 w0 ++ hexN 8 w1 ++ hexN 8 w2 ++ hexN 8 w3) = Ok (ip6 (memoryBytes w0 ++ memoryBytes w1 ++ memoryBytes w2 ++ memoryBytes w3)).
Proof.
  intros A B C D. unfold parseIP. rewrite (hexDecode_app _ _ _ _ (le_n _) (decode_word w0 A)), (hexDecode_app _ _ _ _ (le_n _) (decode_word w1 B)),
    (hexDecode_app _ _ _ _ (le_n _) (decode_word w2 C)), (decode_word w3 D). reflexivity.
Qed.
Print Assumptions C60_address6.

(** Small and capital hexadecimal digits are read alike. *)
Definition capital (c : Z) : Z := if (97 <=? c) && (c <=? 102) then c - 32 else c.
Lemma hexVal_capital c : hexVal (capital c) = hexVal c.
Proof.
  unfold capital. destruct ((97 <=? c) && (c <=? 102)) eqn:E; [|reflexivity]. unfold hexVal. rewrite E.
  replace ((48 <=? c - 32) && (c - 32 <=? 57)) with false by lia. replace ((65 <=? c - 32) && (c - 32 <=? 70)) with true by lia.
  replace ((48 <=? c) && (c <=? 57)) with false by lia. replace ((65 <=? c) && (c <=? 70)) with false by lia. f_equal. lia.
Qed.
Theorem C60_digits_of_either_case ip6 a p : ~ In 58 a -> ~ In 58 p ->
  parseAddr ip6 (map capital a ++ 58 :: map capital p) = parseAddr ip6 (a ++ 58 :: p).
Proof.
  intros A P.
  assert (F : forall l, ~ In 58 l -> forallb (fun c => negb (58 =? c)) l = true) by (intros l N; apply forallb_forall; intros c I; destruct (58 =? c) eqn:E; [apply Z.eqb_eq in E; subst; contradiction|reflexivity]).
  assert (N : forall l, ~ In 58 l -> ~ In 58 (map capital l)).
  { intros l N I. apply in_map_iff in I. destruct I as (c & E & I). unfold capital in E. destruct ((97 <=? c) && (c <=? 102)) eqn:X; [lia|subst; contradiction]. }
  assert (D : forall n l, (List.length l <= n)%nat -> hexDecode (map capital l) = hexDecode l).
  { induction n as [|n IH]; intros l L; [destruct l; [reflexivity|cbn in L; lia]|]. destruct l as [|c [|d l]]; [reflexivity|reflexivity|]. cbn [map hexDecode].
    rewrite !hexVal_capital, IH by (cbn in L; lia). reflexivity. }
  assert (U : forall l acc, hexNum acc (map capital l) = hexNum acc l). { induction l as [|c l IH]; intros acc; [reflexivity|]. cbn [map hexNum]. rewrite hexVal_capital. destruct (hexVal c); [apply IH|reflexivity]. }
  assert (H : parseHex (map capital p) = parseHex p) by (unfold parseHex; rewrite U; destruct p; reflexivity).
  unfold parseAddr. rewrite !split_at by (first [reflexivity|apply F; auto]). rewrite !split_none by (apply F; auto). rewrite H. unfold parseIP. rewrite (D _ a (le_n _)). reflexivity.
Qed.
Print Assumptions C60_digits_of_either_case.
Example C60_either_case_example : parseAddr (fun b => b) (bs "0100007f:1f90") = Ok (bs "127.0.0.1", 8080) /\ map capital (bs "0100007f") = bs "0100007F" /\
  parseIP (fun b => b) (bs "B80D0120000000000000000001000000") = Ok [32; 1; 13; 184; 0; 0; 0; 0; 0; 0; 0; 0; 0; 0; 0; 1].
Proof. vm_compute. auto. Qed.

Definition ex1 : sock := {| s_sip := 16777343; s_sport := 5000; s_dip := 134744072; s_dport := 443; s_state := 1; s_rest := bs "00000000:00000000 00:00000000 00000000  1000        0 12345 1" |}.
Example C60_example : wf (bs "   0:", ex1) /\ lastState (keyOf ex1) [ex1] = Some (bs "01") /\
  sockLine (bs "   0:") ex1 = bs "   0: 0100007F:1388 08080808:01BB 01 00000000:00000000 00:00000000 00000000  1000        0 12345 1".
Proof.
  split; [|split; vm_compute; reflexivity]. unfold wf. cbn [ex1 s_sip s_dip s_sport s_dport s_state s_rest]. repeat (split; [lia|]).
  split; [intros c I; vm_compute in I; repeat (destruct I as [<-|I]; [split; discriminate|]); destruct I|].
  split; [intros c I; vm_compute in I; repeat (destruct I as [<-|I]; [split; discriminate|]); destruct I|]. split; [vm_compute; reflexivity|]. vm_compute. discriminate.
Qed.
