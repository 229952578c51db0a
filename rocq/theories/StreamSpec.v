(** Specification for C64: which batches of messages reach the tracker, and which cache operations a history of the
    tracker stands for. *)
From Verif Require Import Base EventModel ConntrackModel ConntrackSpec NetlinkModel StreamModel.
Open Scope list_scope. Open Scope Z_scope.

(** The message reports an error: its type says so, and its code is not zero (or missing). *)
Definition error_message (m : nlmsg) : Prop :=
  mtype m = 2 /\ (forall b0 b1 b2 b3 r, mdata m = b0 :: b1 :: b2 :: b3 :: r ->
                    s32 (b0 + 256 * b1 + 65536 * b2 + 16777216 * b3) <> 0).
Definition clean (ms : list nlmsg) : Prop := forall m, In m ms -> ~ error_message m.
(** The batch without the "done" message that may end it. *)
Definition body (ms b : list nlmsg) : Prop :=
  (exists m, mtype m = 3 /\ ms = b ++ [m]) \/ (ms = b /\ forall c m, ms = c ++ [m] -> mtype m <> 3).

(** The batches a list of reads amounts to: those of the reads whose messages are all clean, in order; a failed read
    counts as an empty batch. *)
Definition messages_of (r : read) : list nlmsg := match r with RMsgs ms => ms | _ => [] end.
Inductive batches : list (read * bool) -> list (list nlmsg) -> Prop :=
| B_nil : batches [] []
| B_clean r thr rest b bs : clean (messages_of r) -> body (messages_of r) b -> batches rest bs ->
    batches ((r, thr) :: rest) (b :: bs)
| B_error r thr rest bs : ~ clean (messages_of r) -> batches rest bs -> batches ((r, thr) :: rest) bs.

(** Cache operations a decoded connection stands for: each direction of a translated TCP or UDP connection is
    registered with the addresses of the other one. *)
Definition direction (k v : option ipTuple) (orph : bool) (now : Z) : list op :=
  match k, v with
  | Some k, Some v =>
      match formatKey k, formatIPTranslation v with
      | Some (Some key), Some t => [Reg key t orph now]
      | _, _ => []
      end
  | _, _ => []
  end.
Definition con_ops (orph : bool) (x : con) (n1 n2 : Z) : list op :=
  match IsNAT x with
  | Some true => direction (origin x) (reply x) orph n1 ++ direction (reply x) (origin x) orph n2
  | _ => []
  end.
Fixpoint cons_ops (orph : bool) (xs : list con) (clock : nat -> Z * Z) (i : nat) : list op :=
  match xs with
  | [] => []
  | x :: r => con_ops orph x (fst (clock i)) (snd (clock i)) ++ cons_ops orph r clock (S i)
  end.
(** The connections a batch announces: those of its messages that decode. *)
Definition announced (ms : list nlmsg) : list con :=
  flat_map (fun m => match decodeMessage (mdata m) with Some (Ok c) => [c] | _ => [] end) ms.
Definition step_ops (s : tstep) : list op :=
  match s with
  | TLoad ms clock => cons_ops false (announced ms) clock O
  | TEvent ms clock => cons_ops true (announced ms) clock O
  | TLookup s => [Get (keyOfStats s)]
  | TDelete s => [Rem (keyOfStats s)]
  | TCompact now => [Compact now]
  end.
Definition history_ops (h : list tstep) : list op := flat_map step_ops h.
(** The batches of the stream that the tracker has processed. *)
Definition processed (h : list tstep) : list (list nlmsg) :=
  flat_map (fun s => match s with TEvent ms _ => [ms] | _ => [] end) h.
(** ... and those of the initial table. *)
Definition loaded (h : list tstep) : list (list nlmsg) :=
  flat_map (fun s => match s with TLoad ms _ => [ms] | _ => [] end) h.
