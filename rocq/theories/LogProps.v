(** C84: the collector's log. *)
From Verif Require Import Base LifeModel ConfModel ConfSpec ConfProps LogModel.
Open Scope string_scope. Open Scope list_scope. Open Scope Z_scope.

(** ** Specification *)
(** How loud an output is, by its documented setting: debug < info < warn < error < none; panics are louder than all of them. *)
Definition rank (s : string) (least : Z) : Prop :=
  (s = "debug" /\ least = -1) \/ (s = "warn" /\ least = 1) \/ (s = "error" /\ least = 2) \/ (~ In s ["debug"; "warn"; "error"; "none"] /\ least = 0).
(** A component's debugging messages are wanted: nothing is selected, or it is. *)
Definition wanted (selector : list string) (who : option string) : Prop := selector = [] \/ match who with Some c => In c selector | None => True end.
(** A message that belongs on an output with the setting [s]. *)
Definition belongs (selector : list string) (s : string) (c : call) : Prop :=
  (exists least, rank s least /\ least <= w_level c) /\ (w_level c = -1 -> wanted selector (w_who c)).
Definition quiet (c : call) : Prop := w_level c < PanicLevel.
(** The configuration of the log *)
Definition consoleLevel (v : val) : string := text (field "console_level" v).
Definition fileLevel (v : val) : string := text (field "file_level" v).
Definition selected (v : val) : list string := texts (field "debug_selector" v).
(** What an output shows: the messages that belong there, in order. *)
Inductive shows (P : call -> Prop) : list call -> list Z -> Prop :=
| shows_nil : shows P [] []
| shows_in c cs ms : P c -> shows P cs ms -> shows P (c :: cs) (w_msg c :: ms)
| shows_out c cs ms : ~ P c -> shows P cs ms -> shows P (c :: cs) ms.

(** ** Proofs *)
Lemma enable_wanted g who : enableDebug g who = true <-> wanted (g_selector g) who.
Proof.
  unfold enableDebug, wanted. destruct who as [c|]; [|split; [right; exact Logic.I|reflexivity]]. destruct (g_selector g) as [|x l]; [split; [left; reflexivity|reflexivity]|].
  rewrite existsb_exists. split.
  - intros (s & I & E). apply eqb_true in E. subst s. right. exact I.
  - intros [E|I]; [discriminate E|]. exists c. split; [exact I|apply eqb_refl].
Qed.
Lemma level_rank s : s <> "none" -> rank s (toLogLevel s).
Proof.
  intros N. unfold rank, toLogLevel. case_eqb s "debug"; [left; auto|]. case_eqb s "info".
  - subst s. right; right; right. split; [|reflexivity]. cbn. intuition discriminate.
  - case_eqb s "warn"; [right; left; auto|]. case_eqb s "error"; [right; right; left; auto|]. right; right; right. split; [|reflexivity]. cbn. intuition congruence.
Qed.
Lemma rank_fun s a b : rank s a -> rank s b -> a = b.
Proof. unfold rank. cbn. intuition (subst; try discriminate; try reflexivity; exfalso; tauto). Qed.
Lemma takes_rank s lvl : s <> "none" -> (takes (Some (toLogLevel s)) lvl = true <-> exists least, rank s least /\ least <= lvl).
Proof.
  intros N. cbn [takes]. rewrite Z.leb_le. split.
  - intros H. exists (toLogLevel s). split; [exact (level_rank s N)|exact H].
  - intros (a & R & L). rewrite (rank_fun s _ _ (level_rank s N) R). exact L.
Qed.
Lemma none_rank a : ~ rank "none" a.
Proof. unfold rank. cbn. intuition discriminate. Qed.

(** ** Theorems *)
(** Every message at or above an output's level is shown there, once and in order, and no other: the console first. Debugging messages are shown only for the
    selected components.  (At least one output is on, and no message is a panic; a message that asks Check first is a debugging message.) *)
Theorem C84_lines : forall v g cs, managerOf v = Ok g -> consoleLevel v <> "none" \/ fileLevel v <> "none" ->
  Forall quiet cs -> Forall (fun c => w_checked c = true -> w_level c = -1) cs ->
  shows (belongs (selected v) (consoleLevel v)) cs (fst (fst (log g cs))) /\ shows (belongs (selected v) (fileLevel v)) cs (snd (fst (log g cs))) /\ snd (log g cs) = false.
Proof.
  intros v g cs M ON Q K. unfold managerOf in M. destruct (initLogger v) as [[]| |]; try discriminate M. cbn [bind] in M. injection M as <-.
  fold (consoleLevel v) (fileLevel v) (selected v). set (g := {| g_logger := cores (consoleLevel v) (fileLevel v); g_selector := selected v |}).
  assert (C : forall lvl, takes (l_console (g_logger g)) lvl = true <-> exists least, rank (consoleLevel v) least /\ least <= lvl).
  { intros lvl. unfold g, cores. cbn [g_logger]. case_eqb (consoleLevel v) "none"; case_eqb (fileLevel v) "none"; cbn [negb andb l_console].
    - destruct ON; contradiction.
    - rewrite E. split; [discriminate|]. intros (a & R & _). destruct (none_rank a R).
    - exact (takes_rank _ lvl E).
    - exact (takes_rank _ lvl E). }
  assert (F : forall lvl, takes (l_file (g_logger g)) lvl = true <-> exists least, rank (fileLevel v) least /\ least <= lvl).
  { intros lvl. unfold g, cores. cbn [g_logger]. case_eqb (consoleLevel v) "none"; case_eqb (fileLevel v) "none"; cbn [negb andb l_file].
    - destruct ON; contradiction.
    - exact (takes_rank _ lvl E0).
    - rewrite E0. split; [discriminate|]. intros (a & R & _). destruct (none_rank a R).
    - exact (takes_rank _ lvl E0). }
  induction cs as [|c cs IH]; [split; [constructor|]; split; [constructor|reflexivity]|].
  inversion Q as [|? ? Qc Q']; subst. inversion K as [|? ? Kc K']; subst. destruct (IH Q' K') as (I1 & I2 & I3). cbn [log].
  replace (PanicLevel <=? w_level c) with false by (unfold quiet, PanicLevel in *; lia). cbn [andb].
  assert (W : wanted (selected v) (w_who c) <-> enableDebug g (w_who c) = true). { rewrite enable_wanted. reflexivity. }
  assert (S : forall core s lvlP (o : list Z), o = (if (w_checked c && negb (check g c)) || ((w_level c =? Debug) && negb (enableDebug g (w_who c))) then [] else if takes core (w_level c) then [w_msg c] else []) ->
     (core = l_console (g_logger g) \/ core = l_file (g_logger g)) ->
     (forall lvl, takes core lvl = true <-> exists least, rank s least /\ least <= lvl) -> shows (belongs (selected v) s) cs lvlP -> shows (belongs (selected v) s) (c :: cs) (o ++ lvlP)).
  { intros core s ms o -> CO T SH. specialize (T (w_level c)).
    destruct ((w_checked c && negb (check g c)) || ((w_level c =? Debug) && negb (enableDebug g (w_who c)))) eqn:G.
    - apply shows_out; [|exact SH]. intros ((a & R & L) & D). apply orb_true_iff in G. destruct G as [G|G].
      + apply andb_true_iff in G. destruct G as (G1 & G2). specialize (D (Kc G1)). apply W in D. unfold check in G2. rewrite D in G2. cbn [andb] in G2.
        assert (X : takes core (w_level c) = true) by (apply T; eauto). destruct CO; subst core; rewrite X in G2; rewrite ?orb_true_r in G2; discriminate G2.
      + apply andb_true_iff in G. destruct G as (G1 & G2). assert (G1' : w_level c = -1) by (unfold Debug in G1; lia). specialize (D G1'). apply W in D. rewrite D in G2. discriminate G2.
    - destruct (takes core (w_level c)) eqn:X.
      + apply shows_in; [|exact SH]. split; [apply T; reflexivity|]. intros D. apply W. apply orb_false_iff in G. destruct G as (_ & G). rewrite D in G.
        destruct (enableDebug g (w_who c)); [reflexivity|discriminate G].
      + apply shows_out; [|exact SH]. intros (B & _). apply T in B. discriminate B. }
  cbn [fst snd]. split; [|split; [|exact I3]].
  - apply (S (l_console (g_logger g))); [|left; reflexivity|exact C|exact I1]. unfold write. destruct (_ || _); reflexivity.
  - apply (S (l_file (g_logger g))); [|right; reflexivity|exact F|exact I2]. unfold write. destruct (_ || _); reflexivity.
Qed.
Print Assumptions C84_lines.

(** With both outputs off, only a panic is shown, on the console. *)
Theorem C84_off : forall v g cs, managerOf v = Ok g -> consoleLevel v = "none" -> fileLevel v = "none" -> Forall (fun c => w_level c < DPanic) cs -> fst (log g cs) = ([], []).
Proof.
  intros v g cs M C F Q. unfold managerOf in M. destruct (initLogger v) as [[]| |]; try discriminate M. cbn [bind] in M. injection M as <-.
  fold (consoleLevel v) (fileLevel v). rewrite C, F. change (cores "none" "none") with {| l_console := Some DPanic; l_file := None |}.
  induction cs as [|c cs IH]; [reflexivity|]. inversion Q as [|? ? Qc Q']; subst. cbn [log].
  replace (PanicLevel <=? w_level c) with false by (unfold PanicLevel, DPanic in *; lia). cbn [andb fst snd]. rewrite (IH Q'). unfold write. cbn [g_logger l_console l_file takes fst snd].
  replace (DPanic <=? w_level c) with false by lia. destruct (_ || _); reflexivity.
Qed.
Print Assumptions C84_off.

(** A panic is written wherever there is an output, and ends the process. *)
Theorem C84_panic : forall v g a c b, managerOf v = Ok g -> w_level c = PanicLevel -> w_checked c = false -> snd (log g a) = false ->
  snd (log g (a ++ c :: b)) = true /\ fst (fst (log g (a ++ c :: b))) = fst (fst (log g a)) ++ (if eqb (consoleLevel v) "none" && negb (eqb (fileLevel v) "none") then [] else [w_msg c]) /\
  snd (fst (log g (a ++ c :: b))) = snd (fst (log g a)) ++ (if eqb (fileLevel v) "none" then [] else [w_msg c]).
Proof.
  intros v g a c b M L K. unfold managerOf in M. destruct (initLogger v) as [[]| |]; try discriminate M. cbn [bind] in M. injection M as <-.
  fold (consoleLevel v) (fileLevel v). set (g := {| g_logger := cores (consoleLevel v) (fileLevel v); g_selector := texts (field "debug_selector" v) |}).
  assert (H : forall s, (toLogLevel s <=? PanicLevel) = true). { intros s. unfold toLogLevel. repeat (destruct (eqb s _); [reflexivity|]). reflexivity. }
  induction a as [|x a IH]; intros N.
  - cbn [app log]. rewrite K, L. change (PanicLevel <=? PanicLevel) with true. cbn [andb negb fst snd app]. unfold write. rewrite K, L.
    change (PanicLevel =? Debug) with false. cbn [andb orb fst snd]. unfold g, cores. cbn [g_logger].
    case_eqb (consoleLevel v) "none"; case_eqb (fileLevel v) "none"; cbn [negb andb l_console l_file takes]; rewrite ?H; repeat split.
  - cbn [app log] in *. destruct ((PanicLevel <=? w_level x) && negb (w_checked x && negb (check g x))); [discriminate N|]. cbn [fst snd] in *.
    destruct (IH N) as (I1 & I2 & I3). rewrite I2, I3. split; [exact I1|]. split; apply app_assoc.
Qed.
Print Assumptions C84_panic.

(** The name by which a component is selected is the name of its section, so a selector of section names means what it says. *)
Theorem C84_names : forall k n, In (k, n) toolNames -> n = k_name k /\ In k registered.
Proof. intros k n I. unfold toolNames in I. repeat (destruct I as [I|I]; [injection I as <- <-; split; [reflexivity|cbn; tauto]|]). destruct I. Qed.
Print Assumptions C84_names.

(** A message above the debugging level that asks Check first is lost with the debugging messages of a component that is not selected. *)
Theorem C84_checked_refuted : exists v g c, managerOf v = Ok g /\ consoleLevel v = "info" /\ w_level c = Error /\ log g [c] = (([], []), false) /\
  log g [{| w_who := w_who c; w_level := w_level c; w_checked := false; w_msg := w_msg c |}] = (([w_msg c], []), false).
Proof.
  exists (VStruct [("console_level", VStr "info"); ("file_level", VStr "none"); ("debug_selector", VList [VStr "cgoreceiver"]); ("file_rotation", VNil)]).
  eexists. exists {| w_who := Some "otelexporter"; w_level := Error; w_checked := true; w_msg := 7 |}. split; [reflexivity|]. repeat split.
Qed.
Print Assumptions C84_checked_refuted.

(** A level in capital letters is not the level it names: it is read as info, and the log is louder than asked. *)
Theorem C84_capitals_refuted : exists v g c, managerOf v = Ok g /\ consoleLevel v = "ERROR" /\ w_level c = Info /\ fst (fst (log g [c])) = [w_msg c].
Proof.
  exists (VStruct [("console_level", VStr "ERROR"); ("file_level", VStr "none"); ("debug_selector", VNil); ("file_rotation", VNil)]).
  eexists. exists {| w_who := Some "otelexporter"; w_level := Info; w_checked := false; w_msg := 7 |}. split; [reflexivity|]. repeat split.
Qed.
Print Assumptions C84_capitals_refuted.

(** A file that asks for a log on the console only (no file_level, no file_rotation), or that has no section for the log, stops the collector at its start. *)
Theorem C84_console_only_refuted : forall odd level, managerOf (loggerOf odd (DMap [("observability", DMap [("logger", DMap [("console_level", DStr level)])])])) = Panic /\
  managerOf (loggerOf odd (DMap [])) = Panic /\
  exists g, managerOf (loggerOf odd (DMap [("observability", DMap [("logger", DMap [("console_level", DStr level); ("file_level", DStr "none")])])])) = Ok g.
Proof. intros odd level. repeat split. eexists. reflexivity. Qed.
Print Assumptions C84_console_only_refuted.

(** ** A case *)
Definition exLog := loggerOf exOdd (lowerKeys (DMap [("observability", DMap [("logger", DMap [("console_level", DStr "warn"); ("file_level", DStr "debug");
  ("debug_selector", DList [DStr "cgoreceiver"]); ("file_rotation", DMap [("filename", DStr "agent.log")])])])])).
Definition exCalls := [{| w_who := Some "cgoreceiver"; w_level := Debug; w_checked := true; w_msg := 1 |}; {| w_who := Some "networkanalyzer"; w_level := Debug; w_checked := true; w_msg := 2 |};
  {| w_who := None; w_level := Debug; w_checked := false; w_msg := 3 |}; {| w_who := Some "networkanalyzer"; w_level := Info; w_checked := false; w_msg := 4 |};
  {| w_who := Some "networkanalyzer"; w_level := Warn; w_checked := false; w_msg := 5 |}].
Example C84_example : exists g, managerOf exLog = Ok g /\ Forall quiet exCalls /\ Forall (fun c => w_checked c = true -> w_level c = -1) exCalls /\
  consoleLevel exLog <> "none" /\ log g exCalls = (([5], [1; 3; 4; 5]), false).
Proof.
  eexists. split; [reflexivity|]. split; [repeat constructor|]. split; [repeat (constructor; [first [discriminate|reflexivity]|]); constructor|].
  split; [discriminate|reflexivity].
Qed.
