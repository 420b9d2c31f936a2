(** * Lazy: threads sharing [once_cell::sync::Lazy] statics

    /repo/src/consts.rs:53-393 and /repo/src/metadata/database.rs:31-32 declare
    the library's only shared mutable state: statics of type
    [once_cell::sync::Lazy], filled by the first thread that dereferences them.
    This file models that primitive and any number of threads using it; the
    statics themselves are in Shared.v.

    Simplifications: an access to a static is one atomic step (once_cell
    publishes a value with release/acquire ordering, which is trusted); threads
    are scheduled arbitrarily, one step at a time; a thread that dereferences a
    static which is being filled, by another thread or by itself, waits. *)
From Verif Require Import Base.
From Coq Require Import Eqdep_dec.

Section Machine.
  (** The statics, and the type of each one's contents. *)
  Variable cell : Type.
  Variable cell_dec : forall a b : cell, {a = b} + {a <> b}.
  Variable val : cell -> Type.

  (** Code that reads statics: it returns, or dereferences one and goes on. *)
  Inductive prog (A : Type) : Type :=
  | Ret (a : A)
  | Force (k : cell) (f : val k -> prog A).
  Arguments Ret {A} _.
  Arguments Force {A} _ _.

  Fixpoint pbind {A B} (p : prog A) (g : A -> prog B) : prog B :=
    match p with
    | Ret a => g a
    | Force k f => Force k (fun v => pbind (f v) g)
    end.

  (** The closure given to [Lazy::new]; [None] stands for a panic in it. *)
  Variable init : forall k, prog (option (val k)).

  (** A static: not filled yet, being filled, filled, or left behind by a
      closure that panicked. *)
  Inductive cstate (k : cell) : Type :=
  | Empty
  | Busy
  | Ready (v : val k)
  | Poisoned.
  Arguments Empty {k}.
  Arguments Busy {k}.
  Arguments Ready {k} _.
  Arguments Poisoned {k}.

  Definition store := forall k, cstate k.
  Definition set (s : store) (k : cell) (x : cstate k) : store :=
    fun k' => match cell_dec k k' with
              | left e => eq_rect k cstate x k' e
              | right _ => s k'
              end.

  (** A thread inside a call: running code, or running the closure of a static
      it found empty (and then going on), or unwinding after a panic. *)
  Inductive thread (A : Type) : Type :=
  | Run (p : prog A)
  | Filling (k : cell) (inner : thread (option (val k))) (f : val k -> prog A)
  | Dead.
  Arguments Run {A} _.
  Arguments Filling {A} _ _ _.
  Arguments Dead {A}.

  (** The static whose closure a step starts to run, if any. *)
  Definition event := option cell.

  (** One step of a thread; [None]: it has finished, or has to wait. *)
  Fixpoint step {A} (s : store) (t : thread A) : option (event * store * thread A) :=
    match t with
    | Dead => None
    | Run (Ret _) => None
    | Run (Force k f) =>
        match s k with
        | Ready v => Some (None, s, Run (f v))
        | Empty => Some (Some k, set s k Busy, Filling k (Run (init k)) f)
        | Busy => None
        | Poisoned => Some (None, s, Dead)
        end
    | Filling k inner f =>
        match inner with
        | Run (Ret (Some v)) => Some (None, set s k (Ready v), Run (f v))
        | Run (Ret None) | Dead => Some (None, set s k Poisoned, Dead)
        | _ => match step s inner with
               | Some (e, s', inner') => Some (e, s', Filling k inner' f)
               | None => None
               end
        end
    end.

  (** The calls threads make, what a call runs, and what is seen of a call
      that panics. *)
  Variable call : Type.
  Variable result : call -> Type.
  Variable body : forall c, prog (result c).
  Variable crash : forall c, result c.

  Definition finished {c} (t : thread (result c)) : option (result c) :=
    match t with
    | Run (Ret r) => Some r
    | Dead => Some (crash c)
    | _ => None
    end.

  (** A thread is outside the library, or inside one call. *)
  Inductive worker := Away | Inside (c : call) (t : thread (result c)).

  Definition pool : Type := store * list worker.

  Inductive label :=
  | Spawned
  | Began (i : nat) (c : call)
  | Stepped (i : nat) (e : event)
  | Returned (i : nat) (c : call) (r : result c).

  Definition upd (ws : list worker) (i : nat) (w : worker) : list worker :=
    firstn i ws ++ w :: skipn (S i) ws.

  (** What may happen next: a new thread appears; a thread outside the library
      makes any call; a thread inside a call makes a step or returns. *)
  Inductive pstep : pool -> label -> pool -> Prop :=
  | ps_spawn s ws : pstep (s, ws) Spawned (s, ws ++ [Away])
  | ps_begin s ws i c :
      nth_error ws i = Some Away ->
      pstep (s, ws) (Began i c) (s, upd ws i (Inside c (Run (body c))))
  | ps_step s ws i c t e s' t' :
      nth_error ws i = Some (Inside c t) -> step s t = Some (e, s', t') ->
      pstep (s, ws) (Stepped i e) (s', upd ws i (Inside c t'))
  | ps_return s ws i c t r :
      nth_error ws i = Some (Inside c t) -> finished t = Some r ->
      pstep (s, ws) (Returned i c r) (s, upd ws i Away).

  Inductive run : pool -> list label -> pool -> Prop :=
  | run_nil p : run p [] p
  | run_cons p l p1 ls p2 : pstep p l p1 -> run p1 ls p2 -> run p (l :: ls) p2.

  (** The program starts with every static empty and no thread in the library. *)
  Definition start : pool := (fun _ => Empty, []).
End Machine.

Arguments Ret {cell val A} _.
Arguments Force {cell val A} _ _.
Arguments pbind {cell val A B} _ _.
Arguments Empty {cell val k}.
Arguments Busy {cell val k}.
Arguments Ready {cell val k} _.
Arguments Poisoned {cell val k}.
Arguments set {cell} _ {val} _ _ _ _.
Arguments Run {cell val A} _.
Arguments Filling {cell val A} _ _ _.
Arguments Dead {cell val A}.
Arguments Away {cell val call result}.
Arguments Inside {cell val call result} _ _.
Arguments Spawned {cell call result}.
Arguments Began {cell call result} _ _.
Arguments Stepped {cell call result} _ _.
Arguments Returned {cell call result} _ _ _.
Arguments upd {cell val call result} _ _ _.
Arguments finished {cell val call result} _ {c} _.
