(** std::map<std::string, T>: an association list sorted by key (std::string's operator<
    compares unsigned bytes lexicographically, as [String.compare] does). *)
From Verif Require Import Base.

Section Map.
Context {A : Type}.
Definition smap := list (string * A).

(** find(key) != end(), at(key) *)
Fixpoint map_get (k : string) (m : smap) : option A :=
  match m with
  | [] => None
  | (k', v) :: m' => if String.eqb k k' then Some v else map_get k m'
  end.
Definition map_has (k : string) (m : smap) : bool := match map_get k m with Some _ => true | None => false end.

(** insert({key, value}): no effect if the key exists *)
Fixpoint map_insert (k : string) (v : A) (m : smap) : smap :=
  match m with
  | [] => [(k, v)]
  | (k', v') :: m' =>
      match String.compare k k' with
      | Lt => (k, v) :: m
      | Eq => m
      | Gt => (k', v') :: map_insert k v m'
      end
  end.
(** insert_or_assign, operator[] = *)
Fixpoint map_set (k : string) (v : A) (m : smap) : smap :=
  match m with
  | [] => [(k, v)]
  | (k', v') :: m' =>
      match String.compare k k' with
      | Lt => (k, v) :: m
      | Eq => (k, v) :: m'
      | Gt => (k', v') :: map_set k v m'
      end
  end.
(** erase(key) *)
Fixpoint map_erase (k : string) (m : smap) : smap :=
  match m with
  | [] => []
  | (k', v') :: m' => if String.eqb k k' then m' else (k', v') :: map_erase k m'
  end.

(** the invariant of std::map: strictly increasing keys *)
Fixpoint sorted_keys (m : smap) : Prop :=
  match m with
  | [] => True
  | (k, _) :: m' => Forall (fun e => String.compare k (fst e) = Lt) m' /\ sorted_keys m'
  end.
End Map.
Arguments smap A : clear implicits.
