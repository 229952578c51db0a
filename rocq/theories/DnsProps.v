(** C25: DNS messages. *)
From Verif Require Import Base Decimal DetectProofs AttrModel LabelNames MsgModel ReaderSpec ReaderProofs ReaderProps TextProofs HttpProofs DnsModel DnsSpec DnsProofs.
Open Scope string_scope. Open Scope list_scope. Open Scope Z_scope.

(** ** Names *)
Lemma unpack_def d off : unpackDomainName d off = unpackLoop 400 d off 255 0 0 [].
Proof. reflexivity. Qed.
(** A name of at most 254 octets that needs at most 126 pointers decodes to its dotted text and the offset behind it. *)
Theorem C25_name d off ls e p : nameAt d off ls e p -> octets ls < 255 -> (p <= 126)%nat -> unpackDomainName d off = Ok (dotted ls, e).
Proof.
  intros NA OC P. rewrite unpack_def, (unpack_forward d off ls e p NA) by lia. cbn [app]. rewrite finish_dotted. reflexivity.
Qed.
Print Assumptions C25_name.
(** Nothing else decodes. *)
Theorem C25_name_only d off t e : byteList d -> 0 <= off -> unpackDomainName d off = Ok (t, e) ->
  exists ls p, nameAt d off ls e p /\ octets ls < 255 /\ (p <= 126)%nat /\ t = dotted ls /\ off < e <= zlen d.
Proof.
  intros B O U. rewrite unpack_def in U. apply unpack_backward in U; try lia; [|exact B]. destruct U as (ls & e0 & p & NA & OC & PP & ET & EE & RR).
  change (0 =? 0) with true in EE. cbn iota in EE. subst e0. exists ls, p. split; [exact NA|]. split; [exact OC|]. split; [lia|]. split; [|exact RR]. rewrite ET. apply finish_dotted.
Qed.
Print Assumptions C25_name_only.
(** The decoder always ends, and reads nothing outside the payload. *)
Theorem C25_name_total d off : byteList d -> 0 <= off -> unpackDomainName d off <> Panic.
Proof. intros B O. rewrite unpack_def. apply unpack_total; try lia. exact B. Qed.
Print Assumptions C25_name_total.
Lemma wire_at ls : Forall label ls -> forall pre s, nameAt (pre ++ wire ls ++ s) (zlen pre) ls (zlen pre + zlen (wire ls)) 0.
Proof.
  induction 1 as [|l ls L LS IH]; intros pre s.
  - change (wire []) with [0]. apply (At_end _ pre s). reflexivity.
  - assert (W : wire (l :: ls) = zlen l :: l ++ wire ls) by (unfold wire; cbn [map List.concat]; rewrite <- app_assoc; reflexivity). rewrite W. apply (At_label _ pre l (wire ls ++ s)).
    + cbn [app]. rewrite <- app_assoc. reflexivity.
    + exact L.
    + specialize (IH (pre ++ zlen l :: l) s). rewrite zlen_app, zlen_cons in IH. replace ((pre ++ zlen l :: l) ++ wire ls ++ s) with (pre ++ (zlen l :: l ++ wire ls) ++ s) in IH by (cbn [app]; rewrite <- !app_assoc; reflexivity).
      rewrite zlen_cons, zlen_app. match goal with |- nameAt _ ?a _ ?b _ => match type of IH with nameAt _ ?a' _ ?b' _ => replace a with a' by lia; replace b with b' by lia end end. exact IH.
Qed.
(** Every encoded name, wherever it stands, is decoded. *)
Theorem C25_name_round_trip pre ls s : Forall label ls -> octets ls < 255 -> unpackDomainName (pre ++ wire ls ++ s) (zlen pre) = Ok (dotted ls, zlen pre + zlen (wire ls)).
Proof. intros L O. apply (C25_name _ _ _ _ 0); [apply wire_at; exact L|exact O|lia]. Qed.
Print Assumptions C25_name_round_trip.
Example C25_name_ex : unpackDomainName ([9; 9] ++ wire [bs "www"; bs "a.b"; bs "org"] ++ [0; 1]) 2 = Ok (bs "www.a\.b.org.", 15).
Proof. vm_compute. reflexivity. Qed.
Example C25_pointer_ex : unpackDomainName ([3] ++ bs "org" ++ [0; 3] ++ bs "www" ++ [192; 0; 7]) 5 = Ok (bs "www.org.", 11).
Proof. vm_compute. reflexivity. Qed.

(** Different names have different texts. *)
Lemma char_prefix_free : forallb (fun a => forallb (fun b => (a =? b) || negb (starts_with (charText a) (charText b))) allBytes) allBytes = true.
Proof. vm_compute. reflexivity. Qed.
Lemma char_not_dot : forallb (fun a => negb (starts_with [46] (charText a)) && negb (eqb (charText a) [])) allBytes = true.
Proof. vm_compute. reflexivity. Qed.
Lemma in_allBytes b : 0 <= b < 256 -> In b allBytes.
Proof. intros B. unfold allBytes. apply in_map_iff. exists (Z.to_nat b). split; [lia|]. apply in_seq. lia. Qed.
Lemma starts_app (a b : bytes) : starts_with a (a ++ b) = true.
Proof. induction a as [|x a IH]; [reflexivity|]. cbn [app starts_with]. rewrite Z.eqb_refl. exact IH. Qed.
Lemma app_comparable {A} (a b c d : list A) : a ++ b = c ++ d -> (exists e, c = a ++ e) \/ (exists e, a = c ++ e).
Proof.
  revert c. induction a as [|x a IH]; intros c E; [left; exists c; reflexivity|]. destruct c as [|y c]; [right; exists (x :: a); reflexivity|].
  cbn [app] in E. injection E as -> E. destruct (IH c E) as [(e & ->)|(e & ->)]; [left|right]; exists e; reflexivity.
Qed.
Lemma char_injective a b x y : 0 <= a < 256 -> 0 <= b < 256 -> charText a ++ x = charText b ++ y -> a = b.
Proof.
  intros A B E. pose proof char_prefix_free as F. rewrite forallb_forall in F. destruct (app_comparable _ _ _ _ E) as [(e & P)|(e & P)].
  - specialize (F a (in_allBytes a A)). rewrite forallb_forall in F. specialize (F b (in_allBytes b B)). rewrite P, starts_app, orb_false_r in F. lia.
  - specialize (F b (in_allBytes b B)). rewrite forallb_forall in F. specialize (F a (in_allBytes a A)). rewrite P, starts_app, orb_false_r in F. lia.
Qed.
Lemma char_head a x y : 0 <= a < 256 -> charText a ++ x <> 46 :: y.
Proof.
  intros A E. pose proof char_not_dot as F. rewrite forallb_forall in F. specialize (F a (in_allBytes a A)). destruct (charText a) as [|c t].
  - cbn in F. discriminate.
  - cbn [app] in E. injection E as -> E. cbn in F. discriminate.
Qed.
Lemma label_injective l : byteList l -> forall l' x x', byteList l' -> List.concat (map charText l) ++ 46 :: x = List.concat (map charText l') ++ 46 :: x' -> l = l' /\ x = x'.
Proof.
  induction 1 as [|a l A L IH]; intros [|b l'] x x' B E; cbn [map List.concat app] in E.
  - split; [reflexivity|congruence].
  - exfalso. inversion B; subst. rewrite <- app_assoc in E. symmetry in E. apply char_head in E; assumption.
  - exfalso. rewrite <- app_assoc in E. apply char_head in E; assumption.
  - inversion B; subst. rewrite <- !app_assoc in E. assert (a = b) as <- by (eapply char_injective; eassumption). apply app_inv_head in E.
    destruct (IH l' x x') as [-> ->]; [assumption|exact E|]. split; reflexivity.
Qed.
Theorem C25_text_injective ls ls' : Forall label ls -> Forall label ls' -> dotted ls = dotted ls' -> ls = ls'.
Proof.
  intros L L' E. assert (T : texts ls = texts ls').
  { destruct ls as [|l ls], ls' as [|l' ls']; try exact E; [reflexivity| |]; exfalso.
    - inversion L' as [|? ? [B BL] ?]; subst. destruct l' as [|c l']; [change (zlen (@nil Z)) with 0 in B; lia|]. inversion BL; subst.
      unfold dotted in E. cbn [map List.concat] in E. rewrite <- !app_assoc in E. symmetry in E. apply char_head in E; assumption.
    - inversion L as [|? ? [B BL] ?]; subst. destruct l as [|c l]; [change (zlen (@nil Z)) with 0 in B; lia|]. inversion BL; subst.
      unfold dotted in E. cbn [map List.concat] in E. rewrite <- !app_assoc in E. apply char_head in E; assumption. }
  clear E. revert ls' L' T. induction L as [|l ls [B BL] LS IH]; intros [|l' ls'] L' T; [reflexivity| | |].
  - exfalso. pose proof (texts_nonempty l' ls') as X. rewrite <- T in X. discriminate.
  - exfalso. pose proof (texts_nonempty l ls) as X. rewrite T in X. discriminate.
  - inversion L' as [|? ? [B' BL'] LS']; subst. unfold texts in T. cbn [map List.concat] in T. rewrite <- !app_assoc in T. cbn [bs app] in T.
    apply label_injective in T; [|exact BL|exact BL']. destruct T as [-> T]. f_equal. apply IH; [exact LS'|exact T].
Qed.
Print Assumptions C25_text_injective.

(** ** Messages *)
Definition dnsRequest (tcp : bool) (d : bytes) : res (bool * msg) := if tcp then tcpDnsRequest d else udpDnsRequest d.
Definition dnsResponse (ipOther : bytes -> bytes) (tcp ignore3 : bool) (d : bytes) (attrs : list (string * aval)) : res (bool * msg) :=
  if tcp then tcpDnsResponse ipOther ignore3 d attrs else udpDnsResponse ipOther ignore3 d attrs.
(** a TCP message has two bytes of length in front *)
Definition start (tcp : bool) : Z := if tcp then 2 else 0.
Definition fin (r : res ((bool * bool) * msg)) : res (bool * msg) := bind r (fun '((ok, _), m) => Ok (ok, m)).
Lemma one_leaf ff ps m : (forall r, ps m = Ok r -> snd (fst r) = true) -> ff m = Ok (false, m) -> parsePayload false (Pkg ff ps []) m = fin (ps m).
Proof.
  intros C F. unfold parsePayload. cbn [parseOneFrame]. rewrite F. cbn [bind]. destruct (ps m) as [[[ok c] m1]| |] eqn:P; [|reflexivity|reflexivity]. cbn [bind].
  specialize (C _ eq_refl). cbn [fst snd] in C. subst c. destruct ok; reflexivity.
Qed.
Lemma request_complete m r : parseDnsRequest m = Ok r -> snd (fst r) = true.
Proof.
  unfold parseDnsRequest. destruct (u16or0 m (m_off m)); try discriminate. cbn [bind]. destruct (u16or0 m (m_off m + 4)) as [n| |]; try discriminate. cbn [bind]. destruct (n =? 0); [intros E; injection E as <-; reflexivity|].
  destruct (readQuery m n) as [[[dm m1]|]| |]; try discriminate; cbn [bind]; intros E; injection E as <-; reflexivity.
Qed.
Lemma response_complete ipOther ig m r : parseDnsResponse ipOther ig m = Ok r -> snd (fst r) = true.
Proof.
  unfold parseDnsResponse. destruct (u16or0 m (m_off m)); try discriminate. cbn [bind]. destruct (u16or0 m (m_off m + 2)); try discriminate. cbn [bind]. destruct (u16or0 m (m_off m + 4)) as [n| |]; try discriminate. cbn [bind].
  destruct (u16or0 m (m_off m + 6)) as [na| |]; try discriminate. cbn [bind]. destruct (n =? 0); [intros E; injection E as <-; reflexivity|].
  destruct (readQuery m n) as [[[dm m1]|]| |]; try discriminate; cbn [bind]; [|intros E; injection E as <-; reflexivity].
  destruct (readIpV4Answer ipOther m1 na) as [[ip m2]| |]; try discriminate. cbn [bind]. intros E. injection E as <-. reflexivity.
Qed.
Definition begin (tcp : bool) (d : bytes) attrs : msg := {| m_data := d; m_off := start tcp; m_attrs := attrs |}.
Lemma request_eval tcp d : dnsRequest tcp d = if zlen d <=? 12 then Ok (false, newRequest d) else fin (parseDnsRequest (begin tcp d [])).
Proof.
  unfold dnsRequest, tcpDnsRequest, udpDnsRequest. destruct (zlen d <=? 12) eqn:Q.
  - destruct tcp; unfold parsePayload; cbn [parseOneFrame]; unfold fastfailDns; cbn [newRequest m_data bind]; change DNSHeaderSize with 12; rewrite Q; reflexivity.
  - destruct tcp.
    + rewrite one_leaf; [reflexivity|intros r; apply request_complete|unfold fastfailDns; cbn [newRequest m_data]; change DNSHeaderSize with 12; rewrite Q; reflexivity].
    + rewrite one_leaf; [reflexivity|intros r; apply request_complete|unfold fastfailDns; cbn [newRequest m_data]; change DNSHeaderSize with 12; rewrite Q; reflexivity].
Qed.
Lemma response_eval ipOther tcp ig d attrs : dnsResponse ipOther tcp ig d attrs = if zlen d <=? 12 then Ok (false, newResponse d attrs) else fin (parseDnsResponse ipOther ig (begin tcp d attrs)).
Proof.
  unfold dnsResponse, tcpDnsResponse, udpDnsResponse. destruct (zlen d <=? 12) eqn:Q.
  - destruct tcp; unfold parsePayload; cbn [parseOneFrame]; unfold fastfailDns; cbn [newResponse m_data bind]; change DNSHeaderSize with 12; rewrite Q; reflexivity.
  - destruct tcp; (rewrite one_leaf; [reflexivity|intros r; apply response_complete|unfold fastfailDns; cbn [newResponse m_data]; change DNSHeaderSize with 12; rewrite Q; reflexivity]).
Qed.
Lemma query_forward m off qs e : questions (m_data m) off qs e -> isComplete m = false -> forall dom,
  readQueryLoop (List.length qs) m off dom = Ok (Some (if zlen dom =? 0 then match qs with q :: _ => dotted q | [] => [] end else dom, e)).
Proof.
  intros Q C. induction Q as [off|off ls e p qs e' NA OC P LT Q IH]; intros dom; cbn [List.length readQueryLoop].
  - destruct dom as [|x dom]; [reflexivity|]. rewrite zlen_cons. pose proof (zlen_nonneg dom). match goal with |- context [?a =? 0] => replace (a =? 0) with false by lia end. reflexivity.
  - rewrite C, (C25_name _ _ _ _ _ NA OC P). replace (zlen (m_data m) <=? e) with false by lia. rewrite IH. destruct (zlen dom =? 0) eqn:Z0.
    + rewrite dotted_nonempty. reflexivity.
    + rewrite Z0. reflexivity.
Qed.
Lemma query_backward m : byteList (m_data m) -> forall n off dom t e, 0 <= off -> readQueryLoop n m off dom = Ok (Some (t, e)) ->
  exists qs, List.length qs = n /\ questions (m_data m) off qs e /\ t = (if zlen dom =? 0 then match qs with q :: _ => dotted q | [] => [] end else dom) /\ off <= e.
Proof.
  intros B. induction n as [|n IH]; intros off dom t e O E; cbn [readQueryLoop] in E.
  - injection E as <- <-. exists []. split; [reflexivity|]. split; [constructor|]. split; [|lia]. destruct dom as [|x dom]; [reflexivity|]. rewrite zlen_cons. pose proof (zlen_nonneg dom). match goal with |- context [?a =? 0] => replace (a =? 0) with false by lia end. reflexivity.
  - destruct (isComplete m); [discriminate|]. destruct (unpackDomainName (m_data m) off) as [[name o]| |] eqn:U; try discriminate.
    destruct (zlen (m_data m) <=? o) eqn:Q; [discriminate|]. destruct (C25_name_only _ _ _ _ B O U) as (ls & p & NA & OC & P & ET & RR).
    apply IH in E; [|lia]. destruct E as (qs & LQ & QS & TT & LE). exists (ls :: qs). split; [cbn [List.length]; lia|]. split; [econstructor; try eassumption; lia|]. split; [|lia].
    rewrite TT, ET. destruct (zlen dom =? 0) eqn:Z0; [rewrite dotted_nonempty; reflexivity|rewrite Z0; reflexivity].
Qed.
Lemma query_total m : byteList (m_data m) -> forall n off dom, 0 <= off -> readQueryLoop n m off dom <> Panic /\ readQueryLoop n m off dom <> Err.
Proof.
  intros B. induction n as [|n IH]; intros off dom O; cbn [readQueryLoop]; [split; discriminate|]. destruct (isComplete m); [split; discriminate|].
  pose proof (C25_name_total (m_data m) off B O) as NP. destruct (unpackDomainName (m_data m) off) as [[name o]| |] eqn:U; [|split; discriminate|congruence].
  destruct (zlen (m_data m) <=? o) eqn:Q; [split; discriminate|]. destruct (C25_name_only _ _ _ _ B O U) as (ls & p & _ & _ & _ & _ & RR). apply IH. lia.
Qed.
Lemma field_read m off v : field (m_data m) off v -> u16or0 m off = Ok v.
Proof.
  intros (pre & s & E & L & B). unfold u16or0. rewrite E, <- L, readUInt16_at; [reflexivity|]. change (2 ^ 16) with 65536. exact B.
Qed.
Lemma read_field m off : byteList (m_data m) -> 0 <= off -> off + 2 <= zlen (m_data m) -> exists v, u16or0 m off = Ok v /\ field (m_data m) off v.
Proof.
  intros B O L. destruct (gindex_in (m_data m) off ltac:(lia)) as (a & GA). destruct (gindex_in (m_data m) (off + 1) ltac:(lia)) as (b & GB).
  pose proof (byte_of _ _ _ B GA) as BA. pose proof (byte_of _ _ _ B GB) as BB. destruct (split_index _ _ _ GA) as (pre & s & E & EL).
  assert (S : exists s', s = b :: s').
  { rewrite E, <- EL in GB. destruct s as [|x s]; [|rewrite g1 in GB; injection GB as ->; exists s; reflexivity]. exfalso. rewrite E in L. rewrite zlen_app in L. change (zlen [a]) with 1 in L. lia. }
  destruct S as (s' & ->). assert (F : field (m_data m) off (a * 256 + b)).
  { exists pre, s'. split; [|split; [exact EL|lia]]. rewrite E. unfold be16. change (2 ^ 8) with 256. cbn [app]. do 2 f_equal; [|f_equal].
    - rewrite Z.div_add_l by lia. rewrite (Z.div_small b) by lia. rewrite Z.add_0_r, Z.mod_small by lia. reflexivity.
    - rewrite Z.add_comm, Z.mod_add by lia. rewrite Z.mod_small by lia. reflexivity. }
  exists (a * 256 + b). split; [apply field_read; exact F|exact F].
Qed.
Lemma begin_open tcp d attrs : 12 < zlen d -> isComplete (begin tcp d attrs) = false.
Proof. intros L. unfold isComplete, begin. cbn [m_data m_off]. destruct tcp; cbn [start]; lia. Qed.

(** A request with at least one question is recorded with its id and the first name asked for. *)
Theorem C25_request tcp d id q qs e : 12 < zlen d -> field d (start tcp) id -> field d (start tcp + 4) (zlen (q :: qs)) -> questions d (start tcp + 12) (q :: qs) e ->
  exists m, dnsRequest tcp d = Ok (true, m) /\ m_attrs m = [(LDnsId, IV id); (LDnsDomain, SV (dotted q))].
Proof.
  intros L FI FN Q. rewrite request_eval. replace (zlen d <=? 12) with false by lia. unfold parseDnsRequest. change (m_off (begin tcp d [])) with (start tcp).
  rewrite (field_read (begin tcp d []) _ _ FI). cbn [bind]. rewrite (field_read (begin tcp d []) _ _ FN). cbn [bind].
  replace (zlen (q :: qs) =? 0) with false by (rewrite zlen_cons; pose proof (zlen_nonneg qs); lia). unfold readQuery. change (m_off (begin tcp d [])) with (start tcp).
  replace (Z.to_nat (zlen (q :: qs))) with (List.length (q :: qs)) by (unfold zlen; lia).
  rewrite (query_forward (begin tcp d []) _ _ _ Q (begin_open tcp d [] L)). eexists. split; reflexivity.
Qed.
Print Assumptions C25_request.
(** Nothing else is taken for a request, and no payload crashes the parser or keeps it busy. *)
Theorem C25_request_only tcp d : byteList d -> exists ok m, dnsRequest tcp d = Ok (ok, m) /\
  (ok = true -> exists id q qs e, 12 < zlen d /\ field d (start tcp) id /\ field d (start tcp + 4) (zlen (q :: qs)) /\ questions d (start tcp + 12) (q :: qs) e) /\
  (ok = false -> m_attrs m = []).
Proof.
  intros B. rewrite request_eval. destruct (zlen d <=? 12) eqn:L; [eexists; eexists; split; [reflexivity|]; split; [discriminate|reflexivity]|].
  set (m := begin tcp d []). assert (S2 : 0 <= start tcp <= 2) by (destruct tcp; cbn [start]; lia).
  destruct (read_field m (start tcp) B ltac:(lia)) as (id & RI & FI); [cbn [m begin m_data]; lia|].
  destruct (read_field m (start tcp + 4) B ltac:(lia)) as (n & RN & FN); [cbn [m begin m_data]; lia|].
  unfold parseDnsRequest. change (m_off m) with (start tcp). rewrite RI. cbn [bind]. rewrite RN. cbn [bind]. destruct (n =? 0) eqn:N0.
  { eexists. eexists. split; [reflexivity|]. split; [discriminate|reflexivity]. }
  unfold readQuery. change (m_off m) with (start tcp). destruct (query_total m B (Z.to_nat n) (start tcp + 12) [] ltac:(lia)) as [NP NE].
  destruct (readQueryLoop (Z.to_nat n) m (start tcp + 12) []) as [[[t e]|]| |] eqn:R; try congruence; cbn [bind].
  - eexists. eexists. split; [reflexivity|]. split; [|discriminate]. intros _. apply query_backward in R; [|exact B|lia]. destruct R as (qs & LQ & QS & _ & _).
    destruct FN as (pre & s & E & EL & BN). destruct qs as [|q qs]; [cbn in LQ; lia|]. exists id, q, qs, e. split; [lia|]. split; [exact FI|]. split; [|exact QS].
    exists pre, s. replace (zlen (q :: qs)) with n by (unfold zlen; lia). split; [exact E|]. split; [exact EL|exact BN].
  - eexists. eexists. split; [reflexivity|]. split; [discriminate|reflexivity].
Qed.
Print Assumptions C25_request_only.
Example C25_request_ex : exists m, dnsRequest false ([18; 52; 1; 0; 0; 1; 0; 0; 0; 0; 0; 0] ++ wire [bs "kube-dns"; bs "svc"] ++ [0; 1; 0; 1]) = Ok (true, m) /\
  m_attrs m = [(LDnsId, IV 4660); (LDnsDomain, SV (bs "kube-dns.svc."))].
Proof. eexists. split; vm_compute; reflexivity. Qed.

(** ** Answers *)
Lemma encode_len a : wellFormed a -> zlen (encodeAnswer a) = 12 + zlen (a_data a).
Proof.
  intros (L1 & _ & L2 & L3 & _). unfold encodeAnswer. rewrite !zlen_app, L1, L2, L3. change (zlen (be16 (a_type a))) with 2. change (zlen (be16 (zlen (a_data a)))) with 2. lia.
Qed.
Lemma answer_reads pre a s : wellFormed a -> let d := pre ++ encodeAnswer a ++ s in
  readUInt16 d (zlen pre + 2) = Ok (a_type a) /\ readUInt16 d (zlen pre + 2 + 8) = Ok (zlen (a_data a)) /\
  readBytes d (zlen pre + 2 + 8 + 2) (zlen (a_data a)) = Ok (a_data a, zlen pre + 2 + 8 + 2 + zlen (a_data a)).
Proof.
  intros (L1 & BT & L2 & L3 & LD) d. pose proof (zlen_nonneg (a_data a)) as ND. pose proof (zlen_nonneg pre) as NP. pose proof (zlen_nonneg s) as NS.
  assert (D1 : d = (pre ++ a_name a) ++ be16 (a_type a) ++ (a_class a ++ a_ttl a ++ be16 (zlen (a_data a)) ++ a_data a ++ s)) by (unfold d, encodeAnswer; rewrite <- !app_assoc; reflexivity).
  assert (D2 : d = (pre ++ a_name a ++ be16 (a_type a) ++ a_class a ++ a_ttl a) ++ be16 (zlen (a_data a)) ++ (a_data a ++ s)) by (unfold d, encodeAnswer; rewrite <- !app_assoc; reflexivity).
  assert (D3 : d = (pre ++ a_name a ++ be16 (a_type a) ++ a_class a ++ a_ttl a ++ be16 (zlen (a_data a))) ++ a_data a ++ s) by (unfold d, encodeAnswer; rewrite <- !app_assoc; reflexivity).
  split; [|split].
  - rewrite D1. replace (zlen pre + 2) with (zlen (pre ++ a_name a)) by (rewrite zlen_app, L1; lia). apply readUInt16_at. change (2 ^ 16) with 65536. exact BT.
  - rewrite D2. replace (zlen pre + 2 + 8) with (zlen (pre ++ a_name a ++ be16 (a_type a) ++ a_class a ++ a_ttl a)) by (rewrite !zlen_app, L1, L2, L3; change (zlen (be16 (a_type a))) with 2; lia).
    apply readUInt16_at. change (2 ^ 16) with 65536. lia.
  - assert (E : zlen (pre ++ a_name a ++ be16 (a_type a) ++ a_class a ++ a_ttl a ++ be16 (zlen (a_data a))) = zlen pre + 2 + 8 + 2) by (rewrite !zlen_app, L1, L2, L3; change (zlen (be16 (a_type a))) with 2; change (zlen (be16 (zlen (a_data a)))) with 2; lia).
    rewrite D3, <- E. unfold readBytes. rewrite E. replace ((zlen pre + 2 + 8 + 2 <? 0) || (zlen (a_data a) <? 0)) with false by lia.
    match goal with |- context [zlen ?x <? _] => assert (LX : zlen x = zlen pre + 12 + zlen (a_data a) + zlen s) by (rewrite zlen_app, E, zlen_app; lia) end.
    rewrite LX. match goal with |- context [?a <? ?b] => replace (a <? b) with false by lia end. rewrite gslice_mid; [reflexivity|symmetry; exact E|rewrite E; reflexivity].
Qed.
Definition others (rs : list answer) : Prop := Forall (fun a => wellFormed a /\ a_type a <> 1) rs.
Lemma skip_others ipOther rs : others rs -> forall pre s ips k,
  answerLoop ipOther (List.length rs + k) (pre ++ List.concat (map encodeAnswer rs) ++ s) (zlen pre) ips =
  answerLoop ipOther k (pre ++ List.concat (map encodeAnswer rs) ++ s) (zlen pre + zlen (List.concat (map encodeAnswer rs))) ips.
Proof.
  induction 1 as [|a rs [W T] R IH]; intros pre s ips k.
  - cbn [List.length Nat.add map List.concat]. change (zlen (@nil Z)) with 0. rewrite Z.add_0_r. reflexivity.
  - cbn [List.length Nat.add map List.concat answerLoop]. rewrite <- app_assoc.
    destruct (answer_reads pre a (List.concat (map encodeAnswer rs) ++ s) W) as (R1 & R2 & _). rewrite R1, R2. replace (a_type a =? 1) with false by lia.
    specialize (IH (pre ++ encodeAnswer a) s ips k). rewrite <- app_assoc in IH. rewrite zlen_app, (encode_len a W) in IH.
    replace (zlen pre + 2 + 8 + 2 + zlen (a_data a)) with (zlen pre + (12 + zlen (a_data a))) by lia. rewrite IH. rewrite zlen_app, (encode_len a W). f_equal. lia.
Qed.
Definition addressRecord (a : answer) (w x y z : Z) : Prop := wellFormed a /\ a_type a = 1 /\ a_data a = [w; x; y; z].
Lemma answers_none ipOther rs pre s : others rs -> exists o, answerLoop ipOther (List.length rs) (pre ++ List.concat (map encodeAnswer rs) ++ s) (zlen pre) [] = Ok ([], o).
Proof. intros R. pose proof (skip_others ipOther rs R pre s [] 0) as K. rewrite Nat.add_0_r in K. rewrite K. eexists. reflexivity. Qed.
Lemma answers_one ipOther rs a w x y z pre s : others rs -> addressRecord a w x y z ->
  exists o, answerLoop ipOther (List.length rs + 1) (pre ++ List.concat (map encodeAnswer rs) ++ encodeAnswer a ++ s) (zlen pre) [] = Ok ([dottedQuad w x y z], o).
Proof.
  intros R (W & T & D). rewrite (skip_others ipOther rs R pre (encodeAnswer a ++ s) [] 1). cbn [answerLoop].
  destruct (answer_reads (pre ++ List.concat (map encodeAnswer rs)) a s W) as (R1 & R2 & R3). rewrite <- app_assoc, zlen_app in R1, R2, R3. rewrite R1, R2, R3, T, D. eexists. reflexivity.
Qed.

(** What a response records. *)
Definition dnsError (ignore3 : bool) (rcode : Z) : Prop := rcode <> 0 /\ ~ (rcode = 3 /\ ignore3 = true).
Lemma rcode_of flags : 0 <= flags -> Z.land flags 15 = flags mod 16.
Proof. intros F. change 15 with (Z.ones 4). rewrite Z.land_ones by lia. reflexivity. Qed.
Lemma response_core ipOther tcp ig d attrs id flags na q qs e ips o : 12 < zlen d -> field d (start tcp) id -> field d (start tcp + 2) flags ->
  field d (start tcp + 4) (zlen (q :: qs)) -> field d (start tcp + 6) na -> questions d (start tcp + 12) (q :: qs) e ->
  answerLoop ipOther (Z.to_nat na) d e [] = Ok (ips, o) ->
  exists m, dnsResponse ipOther tcp ig d attrs = Ok (true, m) /\
    aget (m_attrs m) LDnsDomain = Some (SV (dotted q)) /\ aget (m_attrs m) LDnsId = Some (IV id) /\ aget (m_attrs m) LDnsRcode = Some (IV (flags mod 16)) /\
    aget (m_attrs m) LDnsIp = (if zlen (joinComma ips) =? 0 then aget attrs LDnsIp else Some (SV (joinComma ips))) /\
    (dnsError ig (flags mod 16) -> aget (m_attrs m) LIsError = Some (BV true) /\ aget (m_attrs m) LErrorType = Some (IV ProtocolError)) /\
    (~ dnsError ig (flags mod 16) -> aget (m_attrs m) LIsError = aget attrs LIsError /\ aget (m_attrs m) LErrorType = aget attrs LErrorType) /\
    (forall k, ~ In k [LDnsDomain; LDnsId; LDnsRcode; LDnsIp; LIsError; LErrorType] -> aget (m_attrs m) k = aget attrs k).
Proof.
  intros L FI FF FN FA Q AL. rewrite response_eval. replace (zlen d <=? 12) with false by lia. unfold parseDnsResponse. change (m_off (begin tcp d attrs)) with (start tcp).
  rewrite (field_read (begin tcp d attrs) _ _ FI). cbn [bind]. rewrite (field_read (begin tcp d attrs) _ _ FF). cbn [bind]. rewrite (field_read (begin tcp d attrs) _ _ FN). cbn [bind]. rewrite (field_read (begin tcp d attrs) _ _ FA). cbn [bind].
  replace (zlen (q :: qs) =? 0) with false by (rewrite zlen_cons; pose proof (zlen_nonneg qs); lia). unfold readQuery. change (m_off (begin tcp d attrs)) with (start tcp).
  replace (Z.to_nat (zlen (q :: qs))) with (List.length (q :: qs)) by (unfold zlen; lia).
  rewrite (query_forward (begin tcp d attrs) _ _ _ Q (begin_open tcp d attrs L)). cbn [bind]. change (zlen (@nil Z) =? 0) with true. cbn iota.
  unfold readIpV4Answer. unfold setOff, begin. cbn [m_data m_off m_attrs]. rewrite AL. cbn [bind].
  assert (FB : 0 <= flags) by (destruct FF as (? & ? & _ & _ & ?); lia). rewrite (rcode_of flags FB). cbn [fin bind]. unfold addAttr. cbn [m_data m_off m_attrs].
  pose proof (zlen_nonneg (joinComma ips)) as NJ.
  pose proof (Z.mod_pos_bound flags 16 ltac:(lia)) as RB. remember (flags mod 16) as rc eqn:RC. clear RC.
  eexists. split; [reflexivity|].
  assert (DE : (((0 <? rc) && negb (rc =? 3)) || ((rc =? 3) && negb ig)) = true <-> dnsError ig rc).
  { unfold dnsError. destruct ig; cbn [negb]; split; intros H; lia. }
  destruct (0 <? zlen (joinComma ips)) eqn:J; [replace (zlen (joinComma ips) =? 0) with false by lia|replace (zlen (joinComma ips) =? 0) with true by lia];
  destruct (((0 <? rc) && negb (rc =? 3)) || ((rc =? 3) && negb ig)) eqn:X; cbn [m_attrs];
  (split; [labels; reflexivity|]); (split; [labels; reflexivity|]); (split; [labels; reflexivity|]); (split; [labels; reflexivity|]);
  (split; [intros H; try (apply DE in H; discriminate); split; labels; reflexivity|]);
  (split; [intros H; try (exfalso; apply H; apply DE; reflexivity); split; labels; reflexivity|]);
  intros k N; cbn [In] in N; rewrite !aget_aset_other by (intros ->; apply N; tauto); reflexivity.
Qed.
(** A response is recorded with its id, name, response code and error state; when its only address record comes last, with that address. *)
Theorem C25_response ipOther tcp ig d attrs id flags q qs e pre rs a w x y z s :
  12 < zlen d -> field d (start tcp) id -> field d (start tcp + 2) flags -> field d (start tcp + 4) (zlen (q :: qs)) -> field d (start tcp + 6) (zlen rs + 1) ->
  questions d (start tcp + 12) (q :: qs) e -> d = pre ++ List.concat (map encodeAnswer rs) ++ encodeAnswer a ++ s -> zlen pre = e ->
  others rs -> addressRecord a w x y z -> 0 <= w -> 0 <= x -> 0 <= y -> 0 <= z ->
  exists m, dnsResponse ipOther tcp ig d attrs = Ok (true, m) /\
    aget (m_attrs m) LDnsDomain = Some (SV (dotted q)) /\ aget (m_attrs m) LDnsId = Some (IV id) /\ aget (m_attrs m) LDnsRcode = Some (IV (flags mod 16)) /\
    aget (m_attrs m) LDnsIp = Some (SV (dottedQuad w x y z)) /\
    (dnsError ig (flags mod 16) -> aget (m_attrs m) LIsError = Some (BV true) /\ aget (m_attrs m) LErrorType = Some (IV ProtocolError)) /\
    (~ dnsError ig (flags mod 16) -> aget (m_attrs m) LIsError = aget attrs LIsError /\ aget (m_attrs m) LErrorType = aget attrs LErrorType).
Proof.
  intros L FI FF FN FA Q D E R A W0 X0 Y0 Z0. destruct (answers_one ipOther rs a w x y z pre s R A) as (o & AL). rewrite <- D, E in AL.
  replace (List.length rs + 1)%nat with (Z.to_nat (zlen rs + 1)) in AL by (unfold zlen; lia).
  destruct (response_core ipOther tcp ig d attrs id flags (zlen rs + 1) q qs e _ o L FI FF FN FA Q AL) as (m & RE & H1 & H2 & H3 & H4 & H5 & H6 & _).
  exists m. split; [exact RE|]. split; [exact H1|]. split; [exact H2|]. split; [exact H3|]. split; [|split; [exact H5|exact H6]]. rewrite H4.
  change (joinComma [dottedQuad w x y z]) with (dottedQuad w x y z ++ []). rewrite app_nil_r. replace (zlen (dottedQuad w x y z) =? 0) with false; [reflexivity|].
  symmetry. apply Z.eqb_neq. unfold dottedQuad. rewrite !zlen_app. change (zlen (bs ".")) with 1. pose proof (zlen_nonneg (digits w)). pose proof (zlen_nonneg (digits x)). pose proof (zlen_nonneg (digits y)). pose proof (zlen_nonneg (digits z)). lia.
Qed.
Print Assumptions C25_response.
(** Without address records no address is recorded. *)
Theorem C25_response_no_address ipOther tcp ig d attrs id flags q qs e pre rs s :
  12 < zlen d -> field d (start tcp) id -> field d (start tcp + 2) flags -> field d (start tcp + 4) (zlen (q :: qs)) -> field d (start tcp + 6) (zlen rs) ->
  questions d (start tcp + 12) (q :: qs) e -> d = pre ++ List.concat (map encodeAnswer rs) ++ s -> zlen pre = e -> others rs ->
  exists m, dnsResponse ipOther tcp ig d attrs = Ok (true, m) /\ aget (m_attrs m) LDnsDomain = Some (SV (dotted q)) /\ aget (m_attrs m) LDnsIp = aget attrs LDnsIp /\
    (dnsError ig (flags mod 16) -> aget (m_attrs m) LIsError = Some (BV true) /\ aget (m_attrs m) LErrorType = Some (IV ProtocolError)) /\
    (~ dnsError ig (flags mod 16) -> aget (m_attrs m) LIsError = aget attrs LIsError /\ aget (m_attrs m) LErrorType = aget attrs LErrorType).
Proof.
  intros L FI FF FN FA Q D E R. destruct (answers_none ipOther rs pre s R) as (o & AL). rewrite <- D, E in AL.
  replace (List.length rs) with (Z.to_nat (zlen rs)) in AL by (unfold zlen; lia).
  destruct (response_core ipOther tcp ig d attrs id flags (zlen rs) q qs e _ o L FI FF FN FA Q AL) as (m & RE & H1 & H2 & H3 & H4 & H5 & H6 & _).
  exists m. split; [exact RE|]. split; [exact H1|]. split; [exact H4|]. split; [exact H5|exact H6].
Qed.
Print Assumptions C25_response_no_address.
Definition exHeader : bytes := [18; 52; 129; 128; 0; 1; 0; 2; 0; 0; 0; 0].
Definition exCname : answer := {| a_name := [192; 12]; a_type := 5; a_class := [0; 1]; a_ttl := [0; 0; 0; 60]; a_data := [1; 98; 0] |}.
Definition exA (i : Z) : answer := {| a_name := [192; 12]; a_type := 1; a_class := [0; 1]; a_ttl := [0; 0; 0; 60]; a_data := [10; 0; 0; i] |}.
Example C25_response_ex : exists m, dnsResponse (fun _ => []) false false (exHeader ++ (wire [bs "a"] ++ [0; 1; 0; 1]) ++ encodeAnswer exCname ++ encodeAnswer (exA 7)) [] = Ok (true, m) /\
  aget (m_attrs m) LDnsIp = Some (SV (bs "10.0.0.7")) /\ aget (m_attrs m) LIsError = None.
Proof. eexists. split; [|split]; vm_compute; reflexivity. Qed.
(** Two address records: the loop moves over the first address twice, and the second one is lost. *)
Theorem C25_second_address_refuted : exists m, dnsResponse (fun _ => []) false false (exHeader ++ (wire [bs "a"] ++ [0; 1; 0; 1]) ++ encodeAnswer (exA 7) ++ encodeAnswer (exA 8)) [] = Ok (true, m) /\
  aget (m_attrs m) LDnsIp = Some (SV (bs "10.0.0.7")).
Proof. eexists. split; vm_compute; reflexivity. Qed.
Print Assumptions C25_second_address_refuted.
(** The bytes behind an address record can be taken for another address record. *)
Theorem C25_invented_address_refuted : exists m, dnsResponse (fun _ => []) false false (exHeader ++ (wire [bs "a"] ++ [0; 1; 0; 1]) ++ encodeAnswer (exA 7) ++
    encodeAnswer {| a_name := [192; 12]; a_type := 16; a_class := [0; 1]; a_ttl := [0; 1; 0; 60]; a_data := [3; 9; 0; 4; 6; 6; 6; 6] |}) [] = Ok (true, m) /\
  aget (m_attrs m) LDnsIp = Some (SV (bs "10.0.0.7,6.6.6.6")).
Proof. eexists. split; vm_compute; reflexivity. Qed.
Print Assumptions C25_invented_address_refuted.

(** No response crashes the parser or keeps it busy. *)
Lemma answer_total ipOther d : forall n off ips, exists l o, answerLoop ipOther n d off ips = Ok (l, o).
Proof.
  assert (U : forall o, readUInt16 d o = Err \/ exists v, readUInt16 d o = Ok v).
  { intros o. unfold readUInt16. destruct (o <? 0) eqn:Q; [left; reflexivity|]. destruct (zlen d <? o + 2) eqn:Q2; [left; reflexivity|].
    destruct (gindex_in d o ltac:(lia)) as (a & ->). destruct (gindex_in d (o + 1) ltac:(lia)) as (b & ->). right. eexists. reflexivity. }
  assert (V : forall o n, readBytes d o n = Err \/ exists v o', readBytes d o n = Ok (v, o')).
  { intros o n. unfold readBytes. destruct ((o <? 0) || (n <? 0)) eqn:Q; [left; reflexivity|]. destruct (zlen d <? o + n) eqn:Q2; [left; reflexivity|].
    rewrite gslice_ok by lia. right. eexists. eexists. reflexivity. }
  induction n as [|n IH]; intros off ips; cbn [answerLoop]; [eexists; eexists; reflexivity|].
  destruct (U (off + 2)) as [-> | (ty & ->)]; [eexists; eexists; reflexivity|]. destruct (U (off + 2 + 8)) as [-> | (ln & ->)]; [eexists; eexists; reflexivity|].
  destruct (ty =? 1); [|apply IH]. destruct (V (off + 2 + 8 + 2) ln) as [-> | (v & o' & ->)]; [eexists; eexists; reflexivity|apply IH].
Qed.
Theorem C25_response_total ipOther tcp ig d attrs : byteList d -> exists ok m, dnsResponse ipOther tcp ig d attrs = Ok (ok, m) /\ (ok = false -> m_attrs m = attrs).
Proof.
  intros B. rewrite response_eval. destruct (zlen d <=? 12) eqn:L; [eexists; eexists; split; [reflexivity|reflexivity]|].
  set (m := begin tcp d attrs). assert (S2 : 0 <= start tcp <= 2) by (destruct tcp; cbn [start]; lia).
  assert (R : forall o, 0 <= o <= 10 -> exists v, u16or0 m o = Ok v) by (intros o O; destruct (read_field m o B) as (v & E & _); [lia|cbn [m begin m_data]; lia|exists v; exact E]).
  unfold parseDnsResponse. change (m_off m) with (start tcp).
  destruct (R (start tcp) ltac:(lia)) as (id & ->). cbn [bind]. destruct (R (start tcp + 2) ltac:(lia)) as (fl & ->). cbn [bind]. destruct (R (start tcp + 4) ltac:(lia)) as (n & ->). cbn [bind]. destruct (R (start tcp + 6) ltac:(lia)) as (na & ->). cbn [bind].
  destruct (n =? 0); [eexists; eexists; split; [reflexivity|reflexivity]|]. unfold readQuery. change (m_off m) with (start tcp).
  destruct (query_total m B (Z.to_nat n) (start tcp + 12) [] ltac:(lia)) as [NP NE].
  destruct (readQueryLoop (Z.to_nat n) m (start tcp + 12) []) as [[[t e]|]| |] eqn:RQ; try congruence; cbn [bind].
  - unfold readIpV4Answer. destruct (answer_total ipOther (m_data (setOff m e)) (Z.to_nat na) (m_off (setOff m e)) []) as (l & o & ->). cbn [bind].
    eexists. eexists. split; [reflexivity|discriminate].
  - eexists. eexists. split; [reflexivity|reflexivity].
Qed.
Print Assumptions C25_response_total.

(** ** Matching over TCP: the first request with the same id and name. *)
Lemma pair_from i rs r : 0 <= i -> let k := dnsPairFrom i rs r in
  (k = -1 /\ forall q, In q rs -> ~ (attrInt q LDnsId = attrInt r LDnsId /\ attrStr q LDnsDomain = attrStr r LDnsDomain)) \/
  (exists q pre s, rs = pre ++ q :: s /\ k = i + zlen pre /\ attrInt q LDnsId = attrInt r LDnsId /\ attrStr q LDnsDomain = attrStr r LDnsDomain /\
     forall q', In q' pre -> ~ (attrInt q' LDnsId = attrInt r LDnsId /\ attrStr q' LDnsDomain = attrStr r LDnsDomain)).
Proof.
  revert i. induction rs as [|q rs IH]; intros i I; cbn [dnsPairFrom].
  - left. split; [reflexivity|contradiction].
  - destruct ((attrInt q LDnsId =? attrInt r LDnsId) && eqb (attrStr q LDnsDomain) (attrStr r LDnsDomain)) eqn:Q.
    + right. apply andb_prop in Q. destruct Q as [Q1 Q2]. apply eqb_true in Q2. exists q, [], rs. split; [reflexivity|]. split; [change (zlen (@nil msg)) with 0; lia|]. split; [lia|]. split; [exact Q2|contradiction].
    + assert (N : ~ (attrInt q LDnsId = attrInt r LDnsId /\ attrStr q LDnsDomain = attrStr r LDnsDomain)).
      { intros [E1 E2]. rewrite E1, E2, Z.eqb_refl, eqb_refl in Q. discriminate. }
      destruct (IH (i + 1) ltac:(lia)) as [[K F]|(q0 & pre & s & E & K & H1 & H2 & F)].
      * left. split; [exact K|]. intros q1 [<- | I1]; [exact N|apply F; exact I1].
      * right. exists q0, (q :: pre), s. split; [rewrite E; reflexivity|]. split; [rewrite zlen_cons; lia|]. split; [exact H1|]. split; [exact H2|]. intros q1 [<- | I1]; [exact N|apply F; exact I1].
Qed.
Theorem C25_pair requests response :
  (dnsPair requests response = -1 /\ forall q, In q requests -> ~ (attrInt q LDnsId = attrInt response LDnsId /\ attrStr q LDnsDomain = attrStr response LDnsDomain)) \/
  (exists q pre s, requests = pre ++ q :: s /\ dnsPair requests response = zlen pre /\ attrInt q LDnsId = attrInt response LDnsId /\ attrStr q LDnsDomain = attrStr response LDnsDomain /\
     forall q', In q' pre -> ~ (attrInt q' LDnsId = attrInt response LDnsId /\ attrStr q' LDnsDomain = attrStr response LDnsDomain)).
Proof. apply (pair_from 0 requests response). lia. Qed.
Print Assumptions C25_pair.
(** Over TCP the pointers of a name count from the two bytes of length, not from the message: a name that uses one is misread. *)
Definition exTwo : bytes := [0; 1; 1; 0; 0; 2; 0; 0; 0; 0; 0; 0] ++ wire [bs "a"; bs "b"] ++ [0; 1; 0; 1] ++ [1; 99; 192; 12] ++ [0; 28; 0; 1].
Theorem C25_tcp_pointer_refuted : nameAt exTwo 21 [bs "c"; bs "a"; bs "b"] 25 1 /\
  unpackDomainName exTwo 21 = Ok (bs "c.a.b.", 25) /\ unpackDomainName ([0; 29] ++ exTwo) 23 = Ok (bs "c.", 27).
Proof.
  split; [|split; vm_compute; reflexivity].
  apply (At_label exTwo (firstn 21 exTwo) (bs "c") (skipn 23 exTwo)); [reflexivity|split; [cbn; lia|repeat constructor; lia]|].
  apply (At_pointer exTwo (firstn 23 exTwo) 0 12 (skipn 25 exTwo) _ 17 0); [reflexivity|lia|lia|].
  apply (wire_at [bs "a"; bs "b"]) with (pre := firstn 12 exTwo) (s := skipn 17 exTwo). repeat constructor; cbn; lia.
Qed.
Print Assumptions C25_tcp_pointer_refuted.
