(** lib/curlrequester.{h,cpp}, lib/lthread.h: which members the steps of CurlModel read and
    write, and what they do to the two mutexes. *)
From Verif Require Import Base CurlModel.

(** The members both threads can reach: curlrequester.h:67-75,99-102, lthread.h:41 *)
Inductive member := MData | MCompression | MNextCompression | MStream | MReading | MDone | MComplete.
(** an access: the member, and is it written *)
Definition access : Type := member * bool.

(** The next step of the producer: curlrequester.cpp:71-82 (write), 136-157 (setCompression),
    177-184 (await), lthread.h:25-28.  Joining the thread (AJoin) reads no member that the
    worker writes. *)
Definition prod_access (s : state) : list access :=
  match s_prod s with
  | Ready =>
      match s_prog s with
      | SetCompression _ :: _ => (MNextCompression, false) :: if is_none (s_next s) then [(MNextCompression, true); (MStream, true)] else []
      | _ => []
      end
  | WCheck _ | ACheck => [(MComplete, false)]
  | WStore _ | AClear => [(MData, true)]
  | WComp => [(MNextCompression, false); (MCompression, true)]
  | ADone => [(MDone, true)]
  | WTry _ | WUnlock | ATry | AUnlock | AJoin => []
  end.
(** The next step of the worker: curlrequester.cpp:88-131, lthread.h:22 *)
Definition work_access (s : state) : list access :=
  match s_work s with
  | Enter _ => [(MReading, false)]
  | Take _ => [(MReading, true)]
  | Produce _ => [(MData, false); (MData, true); (MCompression, false)] ++ if is_none (s_comp s) then [] else [(MStream, true); (MDone, false)]
  | Check _ _ => (MDone, false) :: if s_done s then [] else [(MData, false); (MReading, true)]
  | Returned => [(MComplete, true)]
  | Idle | Lock _ | Release _ _ | Decide _ _ | Return _ | Dead => []
  end.

(** ** Mutexes *)
Inductive thread := Producer | Worker.
Inductive mutex := CanWrite | CanRead.
(** locking (a try_lock that succeeds, too) and unlocking *)
Inductive mop := Locks (t : thread) (m : mutex) | Unlocks (t : thread) (m : mutex).
(** curlrequester.cpp:162-163 *)
Definition constructor : list mop := [Unlocks Producer CanWrite; Locks Producer CanRead].
(** the step of thread [l] in state [s] *)
Definition mutex_ops (l : label) (s : state) : list mop :=
  match l with
  | Spin => []
  | Prod => match s_prod s with
            | WTry _ | ATry => [Locks Producer CanWrite]      (* :71, 177 *)
            | WUnlock | AUnlock => [Unlocks Producer CanRead] (* :82, 184 *)
            | _ => []
            end
  | Work => match s_work s with
            | Lock _ => [Locks Worker CanRead]                (* :90 *)
            | Release _ _ => [Unlocks Worker CanWrite]        (* :121 *)
            | _ => []
            end
  end.
(** Executions with what was done to the mutexes *)
Inductive traced (z : zlib) (prog : list op) : list mop -> state -> Prop :=
| traced_init : traced z prog [] (init prog)
| traced_step ops l s s' : traced z prog ops s -> step z l s s' -> traced z prog (ops ++ mutex_ops l s) s'.
