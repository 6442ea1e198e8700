(** DNS-SD discovery of printers: lib/ippdiscovery.cpp, lib/ippdiscovery.h.

    A datagram is the list [d] of its bytes; a Bytestream reading it is the list of bytes
    that remain, so resp.pos() is the difference of the lengths.

    Simplified: DBG output and the message on std::cerr are left out; the socket is the list
    of datagrams received until receive(2) times out, and the list of datagrams sent; the
    clock is a function giving the time, in seconds, at each call of sendQuery. *)
From Verif Require Import Base StringModel MapModel.
Local Open Scope Z_scope.

(** ** Names *)
Definition position (d s : list byte) : Z := Z.of_nat (length d) - Z.of_nat (length s).
(** Bytestream::setPos: outside the data, this or the next read throws (assumed) *)
Definition set_pos (d : list byte) (p : Z) : outcome (list byte) :=
  if p <=? Z.of_nat (length d) then Ok (skipn (Z.to_nat p) d) else Throw OutOfRange.

(** ippdiscovery.cpp:69-90, the loop of get_addr; [jump] is lines 75-82. *)
Fixpoint labels (jump : Z -> outcome (list string)) (fuel : nat) (s : list byte) : outcome (list string * list byte) :=
  match fuel with
  | O => NoFuel
  | S fuel' =>
      match s with
      | [] => Throw OutOfRange
      | b :: r =>
          if Zb b =? 0 then Ok ([], r)
          else if Z.land (Zb b) 192 =? 192 then
            let! (v, r2) := get_u16 s in
            let! names := jump (Z.land v 4095) in
            Ok (names, r2)
          else
            let! (txt, r2) := get_bytes (Zb b) r in
            let! (names, r3) := labels jump fuel' r2 in
            Ok (string_of_bytes txt :: names, r3)
      end
  end.
(** ippdiscovery.cpp:67-91, get_addr; [depth] bounds the recursion *)
Fixpoint get_addr (depth : nat) (d : list byte) (seen : list Z) (s : list byte) : outcome (list string * list byte) :=
  match depth with
  | O => NoFuel
  | S depth' =>
      labels (fun ref =>
        if existsb (Z.eqb ref) seen then Throw LogicError
        else
          let! tmp := set_pos d ref in
          let! (names, _) := get_addr depth' d (ref :: seen) tmp in
          Ok names) (S (length s)) s
  end.
(** references have 12 bits: no more than 4096 can be followed *)
Definition max_depth : nat := Z.to_nat 4097.
(** ippdiscovery.cpp:93-96 *)
Definition get_addr_str (d s : list byte) : outcome (string * list byte) :=
  let! (names, r) := get_addr max_depth d [] s in Ok (join_string names ".", r).

(** ** Queries *)
(** ippdiscovery.cpp:145-167: one question name, [q] the query so far *)
Fixpoint put_name (q : list byte) (suffixes : smap Z) (parts : list string) : list byte * smap Z :=
  match parts with
  | [] => (q ++ [bZ 0], suffixes)
  | part :: rest =>
      let restAddr := join_string parts "." in
      match map_get restAddr suffixes with
      | Some p => (q ++ be16 (Z.lor 49152 (Z.land 4095 p)), suffixes)
      | None => put_name (q ++ bZ (Z.of_nat (String.length part)) :: bytes_of_string part) (map_insert restAddr (Z.of_nat (length q) mod two16) suffixes) rest
      end
  end.
(** ippdiscovery.cpp:141-171 *)
Fixpoint put_questions (qtype : Z) (q : list byte) (suffixes : smap Z) (addrs : list string) : list byte :=
  match addrs with
  | [] => q
  | addr :: rest =>
      let (q', suffixes') := put_name q suffixes (split_string addr ".") in
      put_questions qtype (q' ++ be16 qtype ++ be16 1) suffixes' rest
  end.
(** ippdiscovery.cpp:133-171 *)
Definition make_query (tid qtype : Z) (addrs : list string) : list byte :=
  put_questions qtype (be16 tid ++ be16 0 ++ be16 (Z.of_nat (length addrs) mod two16) ++ be16 0 ++ be16 0 ++ be16 0) [] addrs.

(** ** Responses *)
(** what a record contributes *)
Inductive event :=
| EPtr (owner name : string)
| ETxt (owner key value : string)
| ESrv (owner : string) (port : Z) (target : string)
| EA (owner ip : string).

(** ippdiscovery.cpp:42-48 *)
Definition ip4str (ip : Z) : string :=
  (dec_string (Z.land (Z.shiftr ip 24) 255) ++ "." ++ dec_string (Z.land (Z.shiftr ip 16) 255) ++ "." ++
   dec_string (Z.land (Z.shiftr ip 8) 255) ++ "." ++ dec_string (Z.land ip 255))%string.
(** ippdiscovery.cpp:316-318; substr(npos + 1) is substr(0) *)
Definition txt_entry (txt : string) : string * string :=
  match find_str "=" txt with
  | Some n => (take n txt, drop (S n) txt)
  | None => (txt, txt)
  end.
(** ippdiscovery.cpp:313-320.  Entries stored before an exception stay stored, so the
    events come with the outcome. *)
Fixpoint txt_loop (fuel : nat) (d : list byte) (stop : Z) (owner : string) (s : list byte) : list event * outcome (list byte) :=
  match fuel with
  | O => ([], NoFuel)
  | S fuel' =>
      if position d s <? stop then
        match (let! (n, r) := get_u8 s in get_bytes n r) with
        | Ok (txt, r) =>
            let (k, v) := txt_entry (string_of_bytes txt) in
            let (ev, o) := txt_loop fuel' d stop owner r in
            (ETxt owner k v :: ev, o)
        | Throw e => ([], Throw e)
        | _ => ([], NoFuel)
        end
      else ([], Ok s)
  end.
(** ippdiscovery.cpp:292-293: owner, type, length and what follows *)
Definition rr_header (d s : list byte) : outcome (string * Z * Z * list byte) :=
  let! (owner, s) := get_addr_str d s in
  let! (atype, s) := get_u16 s in
  let! (_, s) := get_u16 s in
  let! (_, s) := get_u32 s in
  let! (len, s) := get_u16 s in
  Ok (owner, atype, len, s).
Definition out {A B} (f : A -> list event * outcome B) (x : outcome A) : list event * outcome B :=
  match x with
  | Ok a => f a
  | Throw e => ([], Throw e)
  | UB => ([], UB)
  | Hang => ([], Hang)
  | NoFuel => ([], NoFuel)
  end.
(** ippdiscovery.cpp:295-352, the switch.  The check at lines 348-351 follows the last break
    and is never reached. *)
Definition rr_data (d : list byte) (owner : string) (atype len : Z) (s : list byte) : list event * outcome (list byte) :=
  let pos_before := position d s mod two16 in
  if atype =? 12 then out (fun '(name, r) => ([EPtr owner name], Ok r)) (get_addr_str d s)
  else if atype =? 16 then txt_loop (S (length s)) d (pos_before + len) owner s
  else if atype =? 33 then
    out (fun '(port, target, r) => ([ESrv owner port target], Ok r))
      (let! (_, s) := get_u16 s in let! (_, s) := get_u16 s in let! (port, s) := get_u16 s in
       let! (target, r) := get_addr_str d s in Ok (port, target, r))
  else if atype =? 1 then out (fun '(ip, r) => ([EA owner (ip4str ip)], Ok r)) (get_u32 s)
  else out (fun '(_, r) => ([], Ok r)) (get_bytes len s).
Definition rr (d s : list byte) : list event * outcome (list byte) :=
  out (fun '(owner, atype, len, r) => rr_data d owner atype len r) (rr_header d s).
(** ippdiscovery.cpp:287-353 *)
Fixpoint rrs (n : nat) (d s : list byte) : list event * outcome (list byte) :=
  match n with
  | O => ([], Ok s)
  | S n' =>
      let (ev, o) := rr d s in
      match o with
      | Ok r => let (ev', o') := rrs n' d r in (ev ++ ev', o')
      | _ => (ev, o)
      end
  end.
(** ippdiscovery.cpp:280-285 *)
Fixpoint questions (n : nat) (d s : list byte) : outcome (list byte) :=
  match n with
  | O => Ok s
  | S n' =>
      let! (_, s) := get_addr_str d s in
      let! (_, s) := get_u16 s in
      let! (_, s) := get_u16 s in
      questions n' d s
  end.
(** ippdiscovery.cpp:275-358, the try block *)
Definition parse (d : list byte) : list event * outcome (list byte) :=
  out (fun '(total, s) => rrs (Z.to_nat total) d s)
    (let! (_, s) := get_u16 d in let! (_, s) := get_u16 s in
     let! (qs, s) := get_u16 s in let! (ans, s) := get_u16 s in let! (auth, s) := get_u16 s in let! (add, s) := get_u16 s in
     let! s := questions (Z.to_nat qs) d s in
     Ok (ans + auth + add, s)).

(** ** State *)
(** ippdiscovery.h:33-45 *)
Record disc := mkDisc {
  tid : Z;
  ippPtrs : list string;
  ippsPtrs : list string;
  txts : smap (smap string);
  ports : smap Z;
  targets : smap string;
  addrs : smap (list string);            (* _As *)
  outstanding : list (Z * string * Z);   (* _outstandingQueries; its order does not matter *)
  found : list string;
  clock_calls : nat                      (* how often the clock was read *)
}.
Definition start : disc := mkDisc 0 [] [] [] [] [] [] [] [] 0.
Inductive action := Sent (query : list byte) | Reported (addr : string).

Definition mem (x : string) (l : list string) : bool := existsb (String.eqb x) l.

(** What one record does to the members, ippdiscovery.cpp:319,328-329,339 *)
Definition store (st : disc) (e : event) : disc :=
  match e with
  | EPtr _ _ => st
  | ETxt owner k v =>
      let old := match map_get owner (txts st) with Some m => m | None => [] end in
      mkDisc (tid st) (ippPtrs st) (ippsPtrs st) (map_set owner (map_set k v old) (txts st)) (ports st) (targets st) (addrs st) (outstanding st) (found st) (clock_calls st)
  | ESrv owner port target =>
      mkDisc (tid st) (ippPtrs st) (ippsPtrs st) (txts st) (map_set owner port (ports st)) (map_set owner target (targets st)) (addrs st) (outstanding st) (found st) (clock_calls st)
  | EA owner ip =>
      let old := match map_get owner (addrs st) with Some l => l | None => [] end in
      mkDisc (tid st) (ippPtrs st) (ippsPtrs st) (txts st) (ports st) (targets st) (map_set owner (old ++ [ip]) (addrs st)) (outstanding st) (found st) (clock_calls st)
  end.
(** newIppPtrs, newIppsPtrs, ippdiscovery.cpp:301-308 *)
Definition is_ipp (owner : string) : bool := string_ends_with owner "_ipp._tcp.local".
Definition is_ipps (owner : string) : bool := negb (is_ipp owner) && string_ends_with owner "_ipps._tcp.local".
Definition new_ptrs (service : string -> bool) (ev : list event) : list string :=
  flat_map (fun e => match e with EPtr owner name => if service owner then [name] else [] | _ => [] end) ev.
(** newTargets, ippdiscovery.cpp:330-333 *)
Fixpoint new_targets (acc : list string) (ev : list event) : list string :=
  match ev with
  | [] => acc
  | ESrv _ _ t :: r => new_targets (if mem t acc then acc else acc ++ [t]) r
  | _ :: r => new_targets acc r
  end.

(** ippdiscovery.cpp:107-175.  The loop over _outstandingQueries erases the element its
    iterator points to (line 118) and then advances that iterator: undefined behaviour. *)
Definition expired (now : Z) (q : Z * string * Z) : bool := snd q <? now - 2.
Definition same_query (qtype : Z) (addr : string) (q : Z * string * Z) : bool := (fst (fst q) =? qtype) && String.eqb (snd (fst q)) addr.
Definition send_query (clock : nat -> Z) (st : disc) (qtype : Z) (names : list string) : outcome (disc * list action) :=
  let now := clock (clock_calls st) in
  if existsb (expired now) (outstanding st) then UB
  else
    let names := filter (fun a => negb (existsb (same_query qtype a) (outstanding st))) names in
    match names with
    | [] => Ok (mkDisc (tid st) (ippPtrs st) (ippsPtrs st) (txts st) (ports st) (targets st) (addrs st) (outstanding st) (found st) (S (clock_calls st)), [])
    | _ =>
        let asked := fold_left (fun q a => if existsb (same_query qtype a) q then q else q ++ [(qtype, a, now)]) names (outstanding st) in
        Ok (mkDisc ((tid st + 1) mod two16) (ippPtrs st) (ippsPtrs st) (txts st) (ports st) (targets st) (addrs st) asked (found st) (S (clock_calls st)),
            [Sent (make_query (tid st) qtype names)])
    end.

(** ippdiscovery.cpp:50-65 *)
Definition make_addr (proto : string) (defaultPort port : Z) (ip rp : string) : string :=
  let maybePort := if port =? defaultPort then ""%string else (":" ++ dec_string port)%string in
  (proto ++ "://" ++ ip ++ maybePort ++ "/" ++ rp)%string.
Definition make_ipp_addr (port : Z) (ip rp : string) : string := make_addr "ipp" 631 port ip rp.
Definition make_ipps_addr (port : Z) (ip rp : string) : string := make_addr "ipps" 443 port ip rp.

(** What is known about a pointer, ippdiscovery.cpp:184-195: port, addresses, resource path *)
Definition resolve (st : disc) (it : string) : option (Z * list string * string) :=
  match map_get it (targets st), map_get it (ports st), map_get it (txts st) with
  | Some target, Some port, Some txt =>
      match map_get "rp" txt with
      | Some rp => match map_get target (addrs st) with Some ips => Some (port, ips, rp) | None => None end
      | None => None
      end
  | _, _, _ => None
  end.
(** ippdiscovery.cpp:195-204; [fnd] is _found, [fresh] what was pushed to ippsIpRps and reported *)
Fixpoint ipps_ips (port : Z) (rp : string) (ips : list string) (fnd : list string) (pairs : list (string * string)) : list string * list (string * string) :=
  match ips with
  | [] => (fnd, pairs)
  | ip :: r =>
      let addr := make_ipps_addr port ip rp in
      if mem addr fnd then ipps_ips port rp r fnd pairs else ipps_ips port rp r (fnd ++ [addr]) (pairs ++ [(ip, rp)])
  end.
(** ippdiscovery.cpp:182-206 *)
Fixpoint ipps_loop (st : disc) (ptrs : list string) (fnd : list string) (pairs : list (string * string)) : list string * list (string * string) :=
  match ptrs with
  | [] => (fnd, pairs)
  | it :: r =>
      match resolve st it with
      | Some (port, ips, rp) => let (fnd', pairs') := ipps_ips port rp ips fnd pairs in ipps_loop st r fnd' pairs'
      | None => ipps_loop st r fnd pairs
      end
  end.
(** ippdiscovery.cpp:221-229 *)
Definition pair_mem (ip rp : string) (pairs : list (string * string)) : bool := existsb (fun p => String.eqb ip (fst p) && String.eqb rp (snd p)) pairs.
Fixpoint ipp_ips (port : Z) (rp : string) (ips : list string) (fnd : list string) (pairs : list (string * string)) : list string :=
  match ips with
  | [] => fnd
  | ip :: r =>
      let addr := make_ipp_addr port ip rp in
      if negb (mem addr fnd) && negb (pair_mem ip rp pairs) then ipp_ips port rp r (fnd ++ [addr]) pairs else ipp_ips port rp r fnd pairs
  end.
(** ippdiscovery.cpp:208-231 *)
Fixpoint ipp_loop (st : disc) (ptrs : list string) (fnd : list string) (pairs : list (string * string)) : list string :=
  match ptrs with
  | [] => fnd
  | it :: r =>
      match resolve st it with
      | Some (port, ips, rp) => ipp_loop st r (ipp_ips port rp ips fnd pairs) pairs
      | None => ipp_loop st r fnd pairs
      end
  end.
(** ippdiscovery.cpp:177-232; every address added to _found is reported *)
Definition update (st : disc) : disc * list action :=
  let (fnd, pairs) := ipps_loop st (ippsPtrs st) (found st) [] in
  let fnd' := ipp_loop st (ippPtrs st) fnd pairs in
  (mkDisc (tid st) (ippPtrs st) (ippsPtrs st) (txts st) (ports st) (targets st) (addrs st) (outstanding st) fnd' (clock_calls st),
   map Reported (skipn (length (found st)) fnd')).

(** ippdiscovery.cpp:234-257, for _ippsPtrs ([secure]) or _ippPtrs *)
Definition ptrs_of (secure : bool) (st : disc) : list string := if secure then ippsPtrs st else ippPtrs st.
Definition add_ptr (secure : bool) (st : disc) (p : string) : disc :=
  mkDisc (tid st) (if secure then ippPtrs st else ippPtrs st ++ [p]) (if secure then ippsPtrs st ++ [p] else ippsPtrs st) (txts st) (ports st) (targets st) (addrs st) (outstanding st) (found st) (clock_calls st).
Fixpoint update_and_query (clock : nat -> Z) (secure : bool) (st : disc) (news : list string) : outcome (disc * list action) :=
  match news with
  | [] => Ok (st, [])
  | p :: r =>
      if mem p (ptrs_of secure st) then update_and_query clock secure st r
      else
        let st := add_ptr secure st p in
        let! (st, a1) := if map_has p (txts st) then Ok (st, []) else send_query clock st 16 [p] in
        let! (st, a2) := if map_has p (targets st) && map_has p (ports st) then Ok (st, []) else send_query clock st 33 [p] in
        let! (st, a3) := update_and_query clock secure st r in
        Ok (st, a1 ++ a2 ++ a3)
  end.
(** ippdiscovery.cpp:267-392, one datagram *)
Definition receive (clock : nat -> Z) (st : disc) (d : list byte) : outcome (disc * list action) :=
  let (ev, o) := parse d in
  match o with
  | Ok _ | Throw _ =>
      let st := fold_left store ev st in
      let! (st, a1) := update_and_query clock true st (new_ptrs is_ipps ev) in
      let! (st, a2) := update_and_query clock false st (new_ptrs is_ipp ev) in
      let unresolved := filter (fun t => negb (map_has t (addrs st))) (new_targets [] ev) in
      let! (st, a3) := match unresolved with [] => Ok (st, []) | _ => send_query clock st 1 unresolved end in
      let (st, a4) := update st in
      Ok (st, a1 ++ a2 ++ a3 ++ a4)
  | UB => UB
  | Hang => Hang
  | NoFuel => NoFuel
  end.
Fixpoint receive_all (clock : nat -> Z) (st : disc) (ds : list (list byte)) : outcome (disc * list action) :=
  match ds with
  | [] => Ok (st, [])
  | d :: r =>
      let! (st, a1) := receive clock st d in
      let! (st, a2) := receive_all clock st r in
      Ok (st, a1 ++ a2)
  end.
(** ippdiscovery.cpp:259-395 *)
Definition discover (clock : nat -> Z) (ds : list (list byte)) : outcome (disc * list action) :=
  let! (st, a1) := send_query clock start 12 ["_ipp._tcp.local"; "_ipps._tcp.local"]%string in
  let! (st, a2) := receive_all clock st ds in
  Ok (st, a1 ++ a2).
