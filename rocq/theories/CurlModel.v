(** The streamed upload: lib/curlrequester.cpp, lib/curlrequester.h, lib/lthread.h.

    Two threads share the members of CurlIppPosterBase: the producer (the thread calling
    write, setCompression, await and finally the destructor) and the worker (LThread),
    which runs curl_easy_perform and, from inside it, the read callback requestWrite.
    The model is a transition system; each step is one access to a shared member (or to
    several that belong to one thread alone at that time, see C47_exclusive), so
    every interleaving of the steps is an execution.

    Simplified or assumed:
    - std::mutex is a binary semaphore: unlock makes it available whoever took it.  In the
      C++ standard unlocking a mutex the thread does not hold is undefined; the code does so
      in the constructor (curlrequester.cpp:162) and all through its protocol.
    - memory is sequentially consistent (_complete, _done are plain bool members).
    - curl: calls the callback with a size of at least 1, one call at a time, never again
      after it returned 0, and may return from curl_easy_perform between any two calls.
    - zlib: deflate is any function of the history of calls made so far (see [zlib]). *)
From Verif Require Import Base.

(** curlrequester.h:16-21 *)
Inductive compression := NoCompression | Deflate | Gzip.
Definition is_none (c : compression) : bool := match c with NoCompression => true | _ => false end.

(** What the producer does.  The destructor of CurlIppPosterBase (curlrequester.cpp:64-67)
    is another [Await].  In CurlIppPoster (curlrequester.cpp:188-194) the first [Write] comes before doRun
    starts the worker: an execution in which the worker idles meanwhile. *)
Inductive op :=
| Write (d : list byte)               (* write(std::move(data)) *)
| SetCompression (c : compression)
| Await.

(** Program counter of the producer *)
Inductive prod_pc :=
| Ready                               (* between calls *)
| WTry (d : list byte)                (* curlrequester.cpp:71 _canWrite.try_lock() *)
| WCheck (d : list byte)              (* :73 _worker.isRunning() *)
| WStore (d : list byte)              (* :80 _data = *)
| WComp                               (* :81 _compression = *)
| WUnlock                             (* :82 _canRead.unlock() *)
| ACheck                              (* :177 _worker.isRunning() *)
| ATry                                (* :177 _canWrite.try_lock() *)
| ADone                               (* :182 _done = true *)
| AClear                              (* :183 _data = Bytestream() *)
| AUnlock                             (* :184 _canRead.unlock() *)
| AJoin.                              (* :185, lthread.h:30-36 _thread.join() *)

(** Program counter of the worker.  [n] is the size curl asks for, [out] what the call of
    requestWrite has put into curl's buffer. *)
Inductive work_pc :=
| Idle                                (* in curl_easy_perform, between calls *)
| Enter (n : nat)                     (* curlrequester.cpp:88 if(!_reading) *)
| Lock (n : nat)                      (* :90 _canRead.lock() *)
| Take (n : nat)                      (* :91 _reading = true *)
| Produce (n : nat)                   (* :94-114 *)
| Check (n : nat) (out : list byte)   (* :116-120 if(!_done) if(_data.atEnd()) _reading = false *)
| Release (n : nat) (out : list byte) (* :121 _canWrite.unlock() *)
| Decide (n : nat) (out : list byte)  (* :123 if(bytesWritten == 0) *)
| Return (out : list byte)            (* :131 *)
| Returned                            (* curl_easy_perform has returned *)
| Dead.                               (* lthread.h:22 _complete = true *)

(** A call of deflate: what was offered (next_in, avail_in), avail_out, whether flush is
    Z_FINISH.  The answer: how much was consumed and what was put out. *)
Definition call : Type := list byte * nat * bool.
Definition zlib : Type := list call -> call -> nat * list byte.

(** History variables: what was done so far, oldest first *)
Inductive act :=
| Accepted (d : list byte)            (* a write got the lock; it returns true *)
| Refused (d : list byte)             (* a write returned false *)
| Compressing (c : compression)       (* setCompression *)
| Awaited.                            (* await has set _done *)
(** what one pass through requestWrite did *)
Inductive sent :=
| Raw (out : list byte)
| Deflated (consumed : list byte) (finish : bool) (out : list byte).

Record state := mkState {
  (* CurlRequester and CurlIppPosterBase, curlrequester.h:67-75,99-102 *)
  s_data : list byte;                 (* what remains of _data *)
  s_comp : compression;               (* _compression *)
  s_next : compression;               (* _nextCompression *)
  s_canWrite : bool;                  (* available *)
  s_canRead : bool;
  s_reading : bool;
  s_done : bool;
  s_complete : bool;                  (* lthread.h:41 _complete *)
  s_calls : list call;                (* _zstrm *)
  (* the threads *)
  s_prod : prod_pc;
  s_prog : list op;                   (* the calls still to be made *)
  s_work : work_pc;
  s_eof : bool;                       (* requestWrite has returned 0 *)
  (* history variables *)
  s_log : list act;
  s_sent : list sent
}.

(** curlrequester.cpp:162-163 (_canWrite available, _canRead not), curlrequester.h:73-74,101-102,
    lthread.h:41 *)
Definition init (prog : list op) : state :=
  mkState [] NoCompression NoCompression true false false false false [] Ready prog Idle false [] [].

Definition set_prod (s : state) (pc : prod_pc) : state :=
  mkState (s_data s) (s_comp s) (s_next s) (s_canWrite s) (s_canRead s) (s_reading s) (s_done s) (s_complete s) (s_calls s) pc (s_prog s) (s_work s) (s_eof s) (s_log s) (s_sent s).
Definition set_prog (s : state) (pc : prod_pc) (r : list op) : state :=
  mkState (s_data s) (s_comp s) (s_next s) (s_canWrite s) (s_canRead s) (s_reading s) (s_done s) (s_complete s) (s_calls s) pc r (s_work s) (s_eof s) (s_log s) (s_sent s).
Definition log (s : state) (a : act) : state :=
  mkState (s_data s) (s_comp s) (s_next s) (s_canWrite s) (s_canRead s) (s_reading s) (s_done s) (s_complete s) (s_calls s) (s_prod s) (s_prog s) (s_work s) (s_eof s) (s_log s ++ [a]) (s_sent s).
Definition set_next (s : state) (c : compression) : state :=
  mkState (s_data s) (s_comp s) c (s_canWrite s) (s_canRead s) (s_reading s) (s_done s) (s_complete s) (s_calls s) (s_prod s) (s_prog s) (s_work s) (s_eof s) (s_log s) (s_sent s).
Definition set_canWrite (s : state) (b : bool) : state :=
  mkState (s_data s) (s_comp s) (s_next s) b (s_canRead s) (s_reading s) (s_done s) (s_complete s) (s_calls s) (s_prod s) (s_prog s) (s_work s) (s_eof s) (s_log s) (s_sent s).
Definition set_canRead (s : state) (b : bool) : state :=
  mkState (s_data s) (s_comp s) (s_next s) (s_canWrite s) b (s_reading s) (s_done s) (s_complete s) (s_calls s) (s_prod s) (s_prog s) (s_work s) (s_eof s) (s_log s) (s_sent s).
Definition set_data (s : state) (d : list byte) : state :=
  mkState d (s_comp s) (s_next s) (s_canWrite s) (s_canRead s) (s_reading s) (s_done s) (s_complete s) (s_calls s) (s_prod s) (s_prog s) (s_work s) (s_eof s) (s_log s) (s_sent s).
Definition set_comp (s : state) (c : compression) : state :=
  mkState (s_data s) c (s_next s) (s_canWrite s) (s_canRead s) (s_reading s) (s_done s) (s_complete s) (s_calls s) (s_prod s) (s_prog s) (s_work s) (s_eof s) (s_log s) (s_sent s).
Definition set_done (s : state) : state :=
  mkState (s_data s) (s_comp s) (s_next s) (s_canWrite s) (s_canRead s) (s_reading s) true (s_complete s) (s_calls s) (s_prod s) (s_prog s) (s_work s) (s_eof s) (s_log s) (s_sent s).
Definition set_work (s : state) (pc : work_pc) : state :=
  mkState (s_data s) (s_comp s) (s_next s) (s_canWrite s) (s_canRead s) (s_reading s) (s_done s) (s_complete s) (s_calls s) (s_prod s) (s_prog s) pc (s_eof s) (s_log s) (s_sent s).
Definition set_reading (s : state) (b : bool) : state :=
  mkState (s_data s) (s_comp s) (s_next s) (s_canWrite s) (s_canRead s) b (s_done s) (s_complete s) (s_calls s) (s_prod s) (s_prog s) (s_work s) (s_eof s) (s_log s) (s_sent s).
Definition set_complete (s : state) : state :=
  mkState (s_data s) (s_comp s) (s_next s) (s_canWrite s) (s_canRead s) (s_reading s) (s_done s) true (s_calls s) (s_prod s) (s_prog s) (s_work s) (s_eof s) (s_log s) (s_sent s).
Definition set_eof (s : state) : state :=
  mkState (s_data s) (s_comp s) (s_next s) (s_canWrite s) (s_canRead s) (s_reading s) (s_done s) (s_complete s) (s_calls s) (s_prod s) (s_prog s) (s_work s) true (s_log s) (s_sent s).
Definition send (s : state) (x : sent) : state :=
  mkState (s_data s) (s_comp s) (s_next s) (s_canWrite s) (s_canRead s) (s_reading s) (s_done s) (s_complete s) (s_calls s) (s_prod s) (s_prog s) (s_work s) (s_eof s) (s_log s) (s_sent s ++ [x]).
Definition set_calls (s : state) (l : list call) : state :=
  mkState (s_data s) (s_comp s) (s_next s) (s_canWrite s) (s_canRead s) (s_reading s) (s_done s) (s_complete s) l (s_prod s) (s_prog s) (s_work s) (s_eof s) (s_log s) (s_sent s).

(** curlrequester.cpp:94-114: fill at most [n] bytes of curl's buffer *)
Definition produce (z : zlib) (s : state) (n : nat) : state * list byte :=
  if is_none (s_comp s) then
    let out := firstn n (s_data s) in
    (send (set_data s (skipn n (s_data s))) (Raw out), out)
  else
    let c := (s_data s, n, s_done s) in
    let (k, out) := z (s_calls s) c in
    (send (set_calls (set_data s (skipn k (s_data s))) (s_calls s ++ [c])) (Deflated (firstn k (s_data s)) (s_done s) out), out).

(** [Spin]: a round of a waiting loop (curlrequester.cpp:71-78,177-180) that found the lock taken and
    the worker running; [Prod], [Work]: any other step of the producer or the worker. *)
Inductive label := Spin | Prod | Work.

Inductive step (z : zlib) : label -> state -> state -> Prop :=
(* the producer's next call *)
| step_write s d r : s_prod s = Ready -> s_prog s = Write d :: r -> step z Prod s (set_prog s (WTry d) r)
| step_await s r : s_prod s = Ready -> s_prog s = Await :: r -> step z Prod s (set_prog s ACheck r)
(* curlrequester.cpp:134-157 *)
| step_compression s c r : s_prod s = Ready -> s_prog s = SetCompression c :: r -> s_next s = NoCompression ->
    step z Prod s (log (set_next (set_prog s Ready r) c) (Compressing c))
(* std::logic_error: only the destructor is left to run *)
| step_logic_error s c r : s_prod s = Ready -> s_prog s = SetCompression c :: r -> s_next s <> NoCompression ->
    step z Prod s (set_prog s Ready [Await])
(* write, curlrequester.cpp:69-84 *)
| step_wtry s d : s_prod s = WTry d -> s_canWrite s = true -> step z Prod s (set_canWrite (set_prod s (WStore d)) false)
| step_wtry_fail s d : s_prod s = WTry d -> s_canWrite s = false -> step z Spin s (set_prod s (WCheck d))
| step_wcheck s d : s_prod s = WCheck d -> s_complete s = false -> step z Spin s (set_prod s (WTry d))
| step_wfalse s d : s_prod s = WCheck d -> s_complete s = true -> step z Prod s (log (set_prod s Ready) (Refused d))
(* the caller may give up after false *)
| step_wabandon s d : s_prod s = WCheck d -> s_complete s = true -> step z Prod s (log (set_prog s Ready [Await]) (Refused d))
| step_wstore s d : s_prod s = WStore d -> step z Prod s (log (set_data (set_prod s WComp) d) (Accepted d))
| step_wcomp s : s_prod s = WComp -> step z Prod s (set_comp (set_prod s WUnlock) (s_next s))
| step_wunlock s : s_prod s = WUnlock -> step z Prod s (set_canRead (set_prod s Ready) true)
(* await, curlrequester.cpp:175-186 *)
| step_acheck s : s_prod s = ACheck -> s_complete s = true -> step z Prod s (set_prod s ADone)
| step_acheck_fail s : s_prod s = ACheck -> s_complete s = false -> step z Spin s (set_prod s ATry)
| step_atry s : s_prod s = ATry -> s_canWrite s = true -> step z Prod s (set_canWrite (set_prod s ADone) false)
| step_atry_fail s : s_prod s = ATry -> s_canWrite s = false -> step z Spin s (set_prod s ACheck)
| step_adone s : s_prod s = ADone -> step z Prod s (log (set_done (set_prod s AClear)) Awaited)
| step_aclear s : s_prod s = AClear -> step z Prod s (set_data (set_prod s AUnlock) [])
| step_aunlock s : s_prod s = AUnlock -> step z Prod s (set_canRead (set_prod s AJoin) true)
| step_ajoin s : s_prod s = AJoin -> s_complete s = true -> step z Prod s (set_prod s Ready)
(* the worker: lthread.h:22, curlrequester.cpp:42-50 *)
| step_callback s n : s_work s = Idle -> s_eof s = false -> (0 < n)%nat -> step z Work s (set_work s (Enter n))
| step_return s : s_work s = Idle -> step z Work s (set_work s Returned)
| step_complete s : s_work s = Returned -> step z Work s (set_complete (set_work s Dead))
(* requestWrite, curlrequester.cpp:86-132 *)
| step_enter_reading s n : s_work s = Enter n -> s_reading s = true -> step z Work s (set_work s (Produce n))
| step_enter s n : s_work s = Enter n -> s_reading s = false -> step z Work s (set_work s (Lock n))
| step_lock s n : s_work s = Lock n -> s_canRead s = true -> step z Work s (set_canRead (set_work s (Take n)) false)
| step_take s n : s_work s = Take n -> step z Work s (set_reading (set_work s (Produce n)) true)
| step_produce s n s' out : s_work s = Produce n -> produce z s n = (s', out) -> step z Work s (set_work s' (Check n out))
| step_check_done s n out : s_work s = Check n out -> s_done s = true -> step z Work s (set_work s (Return out))
| step_check_end s n out : s_work s = Check n out -> s_done s = false -> s_data s = [] -> step z Work s (set_reading (set_work s (Release n out)) false)
| step_check s n out : s_work s = Check n out -> s_done s = false -> s_data s <> [] -> step z Work s (set_work s (Decide n out))
| step_release s n out : s_work s = Release n out -> step z Work s (set_canWrite (set_work s (Decide n out)) true)
| step_again s n : s_work s = Decide n [] -> step z Work s (set_work s (Enter n))
| step_decide s n out : s_work s = Decide n out -> out <> [] -> step z Work s (set_work s (Return out))
| step_returns s out : s_work s = Return out -> out <> [] -> step z Work s (set_work s Idle)
| step_returns_0 s : s_work s = Return [] -> step z Work s (set_eof (set_work s Idle)).

(** Executions of a program *)
Inductive reachable (z : zlib) (prog : list op) : state -> Prop :=
| reach_init : reachable z prog (init prog)
| reach_step s l s' : reachable z prog s -> step z l s s' -> reachable z prog s'.
