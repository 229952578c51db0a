(** What a user of CPU profiling relies on: a slow request that was sampled is stored once, and the events around it are sent for as
    many seconds as configured. *)
From Verif Require Import Base ProfModel.
Open Scope list_scope. Open Scope Z_scope.

(** the traces that arrived, in order *)
Fixpoint arrived (h : list pop_) : list nat := match h with [] => [] | PSignal _ id :: h' => id :: arrived h' | _ :: h' => arrived h' end.

Definition overS (x : spc) : Prop := x = SEnd.
Definition overR (x : rpc) : Prop := x = REnd.
(** every goroutine of the earlier sessions has returned *)
Definition quiet (s : pst) : Prop := Forall overS (p_sam s) /\ Forall overR (p_rd s).
(** a history in which profiling is only switched on once the goroutines of the earlier sessions have returned *)
Definition clean (h : list pop_) : Prop := forall h1 h2 s, h = h1 ++ PStart :: h2 -> prun h1 p0 = Some s -> quiet s.

(** where a sampled trace can be: waiting for the sampling interval to end, waiting to be stored, being stored, stored *)
Definition held (s : pst) (id : nat) : Prop := In id (map snd (p_map s)) \/ In id (p_queue s) \/ In (RWork id) (p_rd s) \/ In id (p_out s).

(** the routine of a trace is prompt: it is waiting whenever the clock fires, so it acts on each tick, and on the timer, at once *)
Fixpoint prompt (h : list kop) : Prop :=
  match h with
  | KTick :: KRun :: h' => prompt h'
  | [KTimer; KExpire] => True
  | _ => False
  end.
(** the ticks of the clock in a history *)
Fixpoint ticks (h : list kop) : nat := match h with [] => 0 | KTick :: h' => S (ticks h') | _ :: h' => ticks h' end.
