(** C107: what C++ asks of threads. *)
From Verif Require Import Base CurlModel RaceModel.

(** [intro.races]: two accesses to a variable, at least one a write, that could be made at the
    same time *)
Definition race (m : member) (s : state) : Prop :=
  exists w w', In (m, w) (prod_access s) /\ In (m, w') (work_access s) /\ (w = true \/ w' = true).

(** [thread.mutex.class]: who holds what; a thread locks what nobody holds, and unlocks what it
    holds itself *)
Definition owners : Type := mutex -> option thread.
Definition mutex_eqb (a b : mutex) : bool := match a, b with CanWrite, CanWrite | CanRead, CanRead => true | _, _ => false end.
Definition update (o : owners) (m : mutex) (x : option thread) : owners := fun k => if mutex_eqb k m then x else o k.
Definition thread_eqb (a b : thread) : bool := match a, b with Producer, Producer | Worker, Worker => true | _, _ => false end.
Fixpoint lawful (o : owners) (l : list mop) : bool :=
  match l with
  | [] => true
  | Locks t m :: r => match o m with None => lawful (update o m (Some t)) r | Some _ => false end
  | Unlocks t m :: r => match o m with Some t' => thread_eqb t t' && lawful (update o m None) r | None => false end
  end.
(** a new mutex is held by nobody *)
Definition fresh : owners := fun _ => None.
(** what the constructor is meant to arrive at *)
Definition meant : owners := update fresh CanRead (Some Producer).
