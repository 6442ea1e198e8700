(** What C47-C50 talk about: the history of an upload. *)
From Verif Require Import Base CurlModel.

(** The chunks the producer wrote successfully, in order *)
Definition accepted (l : list act) : list (list byte) := flat_map (fun a => match a with Accepted d => [d] | _ => [] end) l.
(** ... before and after compression was requested *)
Fixpoint header (l : list act) : list byte :=
  match l with
  | [] => []
  | Accepted d :: r => d ++ header r
  | Compressing (Deflate | Gzip) :: _ => []
  | _ :: r => header r
  end.
Fixpoint document (l : list act) : list byte :=
  match l with
  | [] => []
  | Compressing (Deflate | Gzip) :: r => concat (accepted r)
  | _ :: r => document r
  end.
Definition compressing (l : list act) : bool := existsb (fun a => match a with Compressing (Deflate | Gzip) => true | _ => false end) l.

(** What the transfer got into its buffers, in order *)
Definition bytes_out (x : sent) : list byte := match x with Raw o => o | Deflated _ _ o => o end.
Definition delivered (l : list sent) : list byte := flat_map bytes_out l.
(** What went into the compressor, in order *)
Definition bytes_in (x : sent) : list byte := match x with Raw o => o | Deflated c _ _ => c end.
Definition is_raw (x : sent) : Prop := match x with Raw _ => True | _ => False end.
Definition is_deflate (finish : bool) (x : sent) : Prop := match x with Deflated _ f _ => f = finish | _ => False end.
Definition prefix (a b : list byte) : Prop := exists rest, b = a ++ rest.

(** The transfer got all there is: requestWrite has returned 0 *)
Definition complete (s : state) : Prop := s_eof s = true.
(** Both threads have come to their end *)
Definition finished (s : state) : Prop := s_prod s = Ready /\ s_prog s = [] /\ s_work s = Dead.

(** The same about programs *)
Definition writes (p : list op) : list (list byte) := flat_map (fun o => match o with Write d => [d] | _ => [] end) p.
Fixpoint plain (p : list op) : list byte :=
  match p with
  | [] => []
  | Write d :: r => d ++ plain r
  | SetCompression (Deflate | Gzip) :: _ => []
  | _ :: r => plain r
  end.
Fixpoint coded (p : list op) : list byte :=
  match p with
  | [] => []
  | SetCompression (Deflate | Gzip) :: r => concat (writes r)
  | _ :: r => coded r
  end.
Definition compresses (p : list op) : bool := existsb (fun o => match o with SetCompression (Deflate | Gzip) => true | _ => false end) p.
(** [prog] is [ops], up to the first await or an exception, and something that comes after *)
Definition up_to_await (prog ops : list op) : Prop :=
  ~ In Await ops /\ exists rest, prog = ops ++ rest /\ match rest with Await :: _ => True | SetCompression _ :: _ => compresses ops = true | _ => False end.

(** ** What is asked of zlib *)
(** calls in the order the protocol allows: input first, then Z_FINISH without input *)
Definition proper (h : list call) : Prop :=
  exists F T, h = F ++ T /\ Forall (fun c => snd c = false) F /\ Forall (fun c => snd c = true /\ fst (fst c) = []) T.
(** bytes consumed and produced by the calls [h], made after [pre] *)
Fixpoint total_in (z : zlib) (pre h : list call) : nat :=
  match h with [] => 0 | c :: r => fst (z pre c) + total_in z (pre ++ [c]) r end.
Fixpoint total_out (z : zlib) (pre h : list call) : nat :=
  match h with [] => 0 | c :: r => length (snd (z pre c)) + total_out z (pre ++ [c]) r end.
(** deflate takes no more than offered and gives no more than there is room for, takes all
    unless the room is used up, and gives at most [B n] bytes for [n] (deflateBound). *)
Definition zlib_ok (z : zlib) (B : nat -> nat) : Prop :=
  (forall a b, a <= b -> B a <= B b) /\
  (forall h inp n fin, proper (h ++ [(inp, n, fin)]) -> 0 < n -> let (k, out) := z h (inp, n, fin) in k <= length inp /\ length out <= n /\ (length out < n -> k = length inp)) /\
  (forall h, proper h -> total_out z [] h <= B (total_in z [] h)).

(** ** Executions *)
Inductive run (z : zlib) (s : state) : list label -> state -> Prop :=
| run_nil : run z s [] s
| run_snoc ls l s1 s2 : run z s ls s1 -> step z l s1 s2 -> run z s (ls ++ [l]) s2.
(** the steps that are not waiting *)
Definition working (ls : list label) : nat := length (filter (fun l => match l with Spin => false | _ => true end) ls).

(** ** The calls made by IppPrinter::doPrint (lib/ippprinter.cpp:136-188) *)
(** [chunks] is what the conversion passes to writeFun before it ends, empty chunks are
    dropped (lines 153-154); after an error only the destructor calls await. *)
Definition do_print (hdr : list byte) (c : compression) (chunks : list (list byte)) (failed : bool) : list op :=
  Write hdr :: (if is_none c then [] else [SetCompression c]) ++ map Write (filter (fun d => match d with [] => false | _ => true end) chunks) ++
  (if failed then [] else [Await]) ++ [Await].
