(** Specification for C65: what may be seen of a rate limiter that measures messages per second. *)
From Verif Require Import Base BreakModel.
Open Scope list_scope. Open Scope Z_scope.

Inductive phase := Closed | Tripped | Restarting.
(** What an observer remembers: messages since the last measurement or restart, the average rate so far, the time it was last
    brought up to date, a measurement whose verdict is due (messages, nanoseconds, time), whether the limit is exceeded,
    and the share of messages let through, as a fraction. *)
Record view := { pending : Z; average : Z; since : Z; due : option (Z * Z * Z); ph : phase; num : Z; den : Z }.
Definition first_view (t0 : Z) : view :=
  {| pending := 0; average := 0; since := t0; due := None; ph := Closed; num := 1; den := 1 |}.

(** [new] is the whole part of the average of [count] messages in [d] nanoseconds (weight 0.2) and [prev] (weight 0.8); of the
    former alone when there is no average yet. *)
Definition weighted (prev count d new : Z) : Prop :=
  if prev =? 0 then new * d <= count * 10 ^ 9 < (new + 1) * d
  else 10 * d * new <= 2 * (count * 10 ^ 9) + 8 * prev * d < 10 * d * (new + 1).

Inductive sees (limit : Z) : view -> obs -> view -> Prop :=
| S_read q n :
    sees limit q (ORead n)
      {| pending := pending q + n; average := average q; since := since q; due := due q; ph := ph q; num := num q; den := den q |}
| S_measure q now :
    (* only while the limit is not exceeded; all messages since, over at least one second *)
    ph q = Closed -> due q = None ->
    sees limit q (OMeasure (pending q) now)
      {| pending := 0; average := average q; since := since q; due := Some (pending q, Z.max (10 ^ 9) (now - since q), now);
         ph := ph q; num := num q; den := den q |}
| S_verdict q c d now new :
    due q = Some (c, d, now) -> weighted (average q) c d new ->
    sees limit q (OVerdict new (limit <? new))
      {| pending := pending q; average := new; since := now; due := None; ph := if limit <? new then Tripped else Closed;
         num := num q; den := den q |}
| S_throttle q n d :
    (* the share let through shrinks in the ratio of the limit to the average, and by 5 per cent more *)
    ph q = Tripped -> 0 < d -> n * (average q * den q * 100) = limit * num q * 95 * d ->
    sees limit q (OThrottle (average q) n d)
      {| pending := pending q; average := average q; since := since q; due := due q; ph := Restarting; num := n; den := d |}
| S_ignored q :
    ph q = Tripped ->
    sees limit q OIgnored
      {| pending := pending q; average := average q; since := since q; due := due q; ph := Restarting; num := num q; den := den q |}
| S_clear q :
    ph q = Restarting ->
    sees limit q OClear
      {| pending := 0; average := average q; since := since q; due := due q; ph := Restarting; num := num q; den := den q |}
| S_reset q now :
    ph q = Restarting -> due q = None ->
    sees limit q (OReset now)
      {| pending := pending q; average := 0; since := now; due := due q; ph := Closed; num := num q; den := den q |}.

Inductive sees_all (limit : Z) : view -> list obs -> view -> Prop :=
| SA_nil q : sees_all limit q [] q
| SA_cons q o q1 os q2 : sees limit q o q1 -> sees_all limit q1 os q2 -> sees_all limit q (o :: os) q2.
