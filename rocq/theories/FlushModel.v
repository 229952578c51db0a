(** The stream to one client of the metadata provider, used by several goroutines: the one that watches writes to it, the one that broadcasts closes it.
    collector/pkg/metadata/metaprovider/ioutil/writeflusher.go.
    A step is one access to what the goroutines share: a channel, the lock, the writer below.  Simplifications: sync.Once with what it runs is one step (what it
    runs does not block); a message is a number, and the writer below takes it whole or not, as [takes] says; reading the code, Flush of the writer below has no result. *)
From Verif Require Import Base.
Open Scope list_scope. Open Scope Z_scope.

(** The four methods *)
Inductive op := OWrite (m : Z) | OFlush | OFlushed | OClose.
(** What they return: Write's and Close's error is nil, or not; Flushed's answer *)
Inductive ret := RWrite (ok : bool) | RFlush | RFlushed (b : bool) | RClose (ok : bool).
(** Where a goroutine is: nowhere, or before the step named.  In [FCheck], [FOnce], [FFlush] the result to return afterwards *)
Inductive place := Idle | WCheck (m : Z) | WWrite (m : Z) | FCheck (r : ret) | FOnce (r : ret) | FFlush (r : ret) | FRead | CLock | CCheck | CClose | CUnlock (r : ret) | Ret (r : ret).
(** What happens, as seen from outside *)
Inductive event := EBegin (t : nat) (o : op) | EWritten (t : nat) (m : Z) | EFlushed (t : nat) | EReturn (t : nat) (r : ret).
(** writeflusher.go:11-18; the two channels carry nothing and are open or closed; [f_lock]: who holds closeLock *)
Record flusher := { f_closed : bool; f_flushed : bool; f_once : bool; f_lock : option nat; f_at : nat -> place }.
Definition goto (s : flusher) (t : nat) (p : place) : flusher :=
  {| f_closed := f_closed s; f_flushed := f_flushed s; f_once := f_once s; f_lock := f_lock s; f_at := fun u => if Nat.eqb u t then p else f_at s u |}.
(** The scheduler lets an idle goroutine call a method, or one that is in a method go on *)
Inductive action := ABegin (t : nat) (o : op) | AStep (t : nat).
(** The first step of a method *)
Definition entry (o : op) : place := match o with OWrite m => WCheck m | OFlush => FCheck RFlush | OFlushed => FRead | OClose => CLock end.

Section Writer.
(** io.Writer.Write of the response: whether it takes the message *)
Variable takes : Z -> bool.
Definition step (s : flusher) (a : action) : res (flusher * list event) :=
  match a with
  | ABegin t o => match f_at s t with Idle => Ok (goto s t (entry o), [EBegin t o]) | _ => Ok (s, []) end
  | AStep t =>
      match f_at s t with
      | Idle => Ok (s, [])
      (* :26-32 Write *)
      | WCheck m => Ok (goto s t (if f_closed s then Ret (RWrite false) else WWrite m), [])
      (* :34-36 *)
      | WWrite m => Ok (goto s t (FCheck (RWrite (takes m))), if takes m then [EWritten t m] else [])
      (* :39-44 Flush *)
      | FCheck r => Ok (goto s t (if f_closed s then Ret r else FOnce r), [])
      (* :46-48: closing a closed channel panics *)
      | FOnce r =>
          if f_once s then Ok (goto s t (FFlush r), [])
          else if f_flushed s then Panic
          else Ok (goto {| f_closed := f_closed s; f_flushed := true; f_once := true; f_lock := f_lock s; f_at := f_at s |} t (FFlush r), [])
      (* :49 *)
      | FFlush r => Ok (goto s t (Ret r), [EFlushed t])
      (* :54-65 Flushed *)
      | FRead => Ok (goto s t (Ret (RFlushed (f_flushed s))), [])
      (* :71: a goroutine that does not get the lock waits *)
      | CLock =>
          match f_lock s with
          | Some _ => Ok (s, [])
          | None => Ok (goto {| f_closed := f_closed s; f_flushed := f_flushed s; f_once := f_once s; f_lock := Some t; f_at := f_at s |} t CCheck, [])
          end
      (* :74-76 *)
      | CCheck => Ok (goto s t (if f_closed s then CUnlock (RClose false) else CClose), [])
      (* :77-78: closing a closed channel panics *)
      | CClose =>
          if f_closed s then Panic
          else Ok (goto {| f_closed := true; f_flushed := f_flushed s; f_once := f_once s; f_lock := f_lock s; f_at := f_at s |} t (CUnlock (RClose true)), [])
      (* :72 *)
      | CUnlock r => Ok (goto {| f_closed := f_closed s; f_flushed := f_flushed s; f_once := f_once s; f_lock := None; f_at := f_at s |} t (Ret r), [])
      | Ret r => Ok (goto s t Idle, [EReturn t r])
      end
  end.
Fixpoint run (s : flusher) (l : list action) : res (flusher * list event) :=
  match l with [] => Ok (s, []) | a :: r => bind (step s a) (fun x => bind (run (fst x) r) (fun y => Ok (fst y, snd x ++ snd y))) end.
(** :84-92 NewWriteFlusher *)
Definition new : flusher := {| f_closed := false; f_flushed := false; f_once := false; f_lock := None; f_at := fun _ => Idle |}.
End Writer.
