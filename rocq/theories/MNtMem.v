(* nontransparent/parser.go in memory: the candidate is an array that append fills and replaces, the windows Exec is given are slices of
   arrays of the reading library, which it may write over for the next window, lastChunk is such a slice, messages are reached through
   pointers, and the listener may do after each result whatever a program can do with the messages it was given and with its own machines
   and buffers. *)
From Verif Require Import Bytes GotoLang GoMap GoTime Common M5424Def M5424 NonTransparentBaseDef GenNT ANT MNT Heap HBuilder HParse5424 SpecHeap SpecWorld MWorld HBufio MOctet SpecDeliver MOctetMem.
Local Open Scope nat_scope.

(* nontransparent/parser.go:16-25 machine (the nil slices of a new machine are empty arrays of their own: only len and append look at
   them); the slice data of the running Exec; the world of the listener; what the listener will do after the next results; how much more
   than needed append will allocate; the results the listener saw *)
Record nmem := NMem { q_typ : Z; q_trailer : byte; q_cand : slice; q_best : bool; q_internal : hmachine; q_rderr : option rderr; q_last : slice;
  q_win : slice; q_w : world; q_sc : list (list op); q_caps : list nat; q_out : list nresult }.
Definition set_q_cand (d : slice) (q : nmem) := NMem (q_typ q) (q_trailer q) d (q_best q) (q_internal q) (q_rderr q) (q_last q) (q_win q) (q_w q) (q_sc q) (q_caps q) (q_out q).
Definition set_q_err (d : slice) (e : option rderr) (q : nmem) := NMem (q_typ q) (q_trailer q) (q_cand q) (q_best q) (q_internal q) e d (q_win q) (q_w q) (q_sc q) (q_caps q) (q_out q).
Definition set_q_win (d : slice) (q : nmem) := NMem (q_typ q) (q_trailer q) (q_cand q) (q_best q) (q_internal q) (q_rderr q) (q_last q) d (q_w q) (q_sc q) (q_caps q) (q_out q).
Definition set_q_heap (h : heap) (q : nmem) := NMem (q_typ q) (q_trailer q) (q_cand q) (q_best q) (q_internal q) (q_rderr q) (q_last q) (q_win q) (with_heap h (q_w q)) (q_sc q) (q_caps q) (q_out q).
Definition set_q_caps (c : list nat) (q : nmem) := NMem (q_typ q) (q_trailer q) (q_cand q) (q_best q) (q_internal q) (q_rderr q) (q_last q) (q_win q) (q_w q) (q_sc q) c (q_out q).
Definition q_heap (q : nmem) : heap := w_heap (q_w q).

(* m.emit(&syslog.Result{Message: a, Error: e}): as MOctetMem.m_emit *)
Definition nlook (a : option addr) (e : option nerr) (h : heap) : option nresult :=
  match a with None => Some (NResult None e) | Some a => match read5 h a with Some m => Some (NResult (Some m) e) | None => None end end.
(* m.internal.Parse(d) and m.emit, nontransparent/parser.go:267-271 and 186-193 (err replaces a nil error) *)
Definition m_parse_emit (d : slice) (err : option rderr) (q : nmem) : option nmem :=
  match h_parse (q_internal q) (q_heap q) d with
  | (m, h, HRet a e) =>
      match nlook a (match e with Some e => Some (NMachine e) | None => option_map NRead err end) h, w_ops (keep a (with_heap h (q_w q))) (script_now (q_sc q)) with
      | Some r, Some w => Some (NMem (q_typ q) (q_trailer q) (q_cand q) (q_best q) m (q_rderr q) (q_last q) (q_win q) w (script_next (q_sc q)) (q_caps q) (q_out q ++ [r]))
      | _, _ => None end
  | _ => None
  end.
(* nontransparent/parser.go:262-272 process *)
Definition m_process (q : nmem) : option nmem :=
  let d := q_cand q in
  match slice_read (q_heap q) d with
  | Some c => match rev c with
              | [] => None
              | b :: _ => let d' := if beqb b (q_trailer q) then Slice (s_arr d) (s_off d) (s_len d - 1) (s_cap d) else d in
                          m_parse_emit d' None (set_q_cand d' q)
              end
  | None => None
  end.
(* m.candidate = make([]byte, 0) *)
Definition m_reset (q : nmem) : nmem := let (h, a) := alloc (q_heap q) (KArr []) in set_q_cand (Slice a 0 0 0) (set_q_heap h q).
(* m.candidate = append(m.candidate, data...): in place if there is room, else into a new array *)
Definition m_append (q : nmem) : option nmem :=
  let d := q_cand q in
  match slice_read (q_heap q) (q_win q), slice_read (q_heap q) d, hget (q_heap q) (s_arr d) with
  | Some t, Some old, Some (KArr b) =>
      if s_len d + length t <=? s_cap d
      then Some (set_q_cand (Slice (s_arr d) (s_off d) (s_len d + length t) (s_cap d)) (set_q_heap (hput (q_heap q) (s_arr d) (KArr (blit b (s_off d + s_len d) t))) q))
      else let more := match q_caps q with [] => 0 | c :: _ => c end in
           let n := length (old ++ t) in
           let (h, a) := alloc (q_heap q) (KArr (old ++ t ++ repeat x00 more)) in
           Some (set_q_cand (Slice a 0 n (n + more)) (set_q_heap h (set_q_caps (tl (q_caps q)) q)))
  | _, _, _ => None
  end.

(* The leaf statements of Exec (GenNT.v).  The control flow reads the bytes the window had when Exec was called; a statement that finds
   other bytes there is made a panic, so that an execution without panic is one in which the window did not change. *)
Definition m_act (a : act) (data : bytes) (p : Z) (q : nmem) : option nmem :=
  match slice_read (q_heap q) (q_win q) with
  | Some now => if bseqb now data then match a with NProcess => m_process q | NCandReset => Some (m_reset q) | NCandAppend => m_append q end else None
  | None => None
  end.
Definition m_cnd (c : cnd) (q : nmem) : bool :=
  match c with CIsLF => (q_typ q =? 0)%Z | CIsNUL => (q_typ q =? 1)%Z | CHasCandidate => 0 <? s_len (q_cand q) end.
(* parser.go:28-169 Exec on the window; None: panic *)
Definition m_exec (cs : N) (q : nmem) : option (N * nmem) :=
  match slice_read (q_heap q) (q_win q) with
  | Some data => match exec m_act m_cnd codeN data (exec_fuel data) LEntry (G 0%Z cs 0%N q) with Out cs' q' => Some (cs', q') | _ => None end
  | None => None
  end.
(* parser.go:171-175 OnErr with the window as the chunk *)
Definition m_on_err (e : rderr) (q : nmem) : nmem := set_q_err (q_win q) (Some e) q.
(* parser.go:180-195 OnCompletion *)
Definition m_on_completion (q : nmem) : option nmem :=
  match (if 0 <? s_len (q_cand q) then m_process q else Some q) with
  | None => None
  | Some q => match q_rderr q with
              | Some e => if 0 <? s_len (q_last q) then m_parse_emit (q_last q) (Some e) q else Some q
              | None => Some q end
  end.

(* ---- the driver (see MNT.v), which puts each window somewhere in an array: a new one, or, if the length fits, the one of the window
   before, whose bytes are then gone.  Each stream has arrays of its own; the chunk given to OnErr is not written again. *)
Record place := Place { pl_new : bool; pl_pre : bytes; pl_post : bytes }.
Definition place_now (pl : list place) : place := match pl with [] => Place true [] [] | x :: _ => x end.
Definition m_present (pl : place) (w : bytes) (lib : slice) (q : nmem) : slice * nmem :=
  let a := pl_pre pl ++ w ++ pl_post pl in
  let here (lib : slice) := Slice (s_arr lib) (length (pl_pre pl)) (length w) (length (w ++ pl_post pl)) in
  if pl_new pl || negb (length a =? s_len lib)
  then let (h, x) := alloc (q_heap q) (KArr a) in let lib := Slice x 0 (length a) (length a) in (lib, set_q_win (here lib) (set_q_heap h q))
  else (lib, set_q_win (here lib) (set_q_heap (hput (q_heap q) (s_arr lib) (KArr a)) q)).
Fixpoint m_exec_windows (d : driver) (cs : N) (ws : list bytes) (pls : list place) (lib : slice) (q : nmem) : option (N * bool * list place * slice * nmem) :=
  match ws with
  | [] => Some (cs, false, pls, lib, q)
  | w :: r =>
      let (lib, q) := m_present (place_now pls) w lib q in
      match m_exec cs q with
      | None => None
      | Some (cs', q') =>
        if (cs' =? 0)%N then match d_fsm_error d with
                         | Continue => m_exec_windows d cs' r (tl pls) lib q'
                         | Stop => Some (cs', true, tl pls, lib, q')
                         | StopErr => Some (cs', true, tl pls, lib, m_on_err RdFsm q') end
        else m_exec_windows d cs' r (tl pls) lib q'
      end
  end.
Definition m_exec_rest (d : driver) (cs : N) (rest : bytes) (q : nmem) : option nmem :=
  match rest with [] => Some q | _ :: _ => if d_exec_tail d then match m_exec cs q with Some (_, q) => Some q | None => None end else Some q end.
Definition m_end_of_stream (d : driver) (rest : bytes) (e : ending) (q : nmem) : nmem :=
  match rest with
  | _ :: _ => m_on_err (reading_error e) q
  | [] => match e with AtEOF => if d_clean_end_is_error d then m_on_err (reading_error e) q else q
                     | Failed _ => m_on_err (reading_error e) q end
  end.
Definition m_drive (d : driver) (q : nmem) (data : bytes) (e : ending) (pls : list place) : option nmem :=
  let '(ws, rest) := windows (q_trailer q) data in
  let (h, a) := alloc (q_heap q) (KArr []) in
  match m_exec_windows d 1 ws pls (Slice a 0 0 0) (set_q_heap h q) with
  | None => None
  | Some (_, true, _, _, q) => m_on_completion q
  | Some (cs, false, pls, lib, q) =>
      let (_, q) := m_present (place_now pls) rest lib q in
      match m_exec_rest d cs rest q with None => None | Some q => m_on_completion (m_end_of_stream d rest e q) end
  end.

(* a stream: its bytes, how it ends, what the listener does after each result, what append allocates, where the windows are put *)
Record mstream := MStream { i_data : bytes; i_end : ending; i_sc : list (list op); i_caps : list nat; i_places : list place }.
(* parser.go:257-260 Parse *)
Definition m_nparse (d : driver) (q : nmem) (i : mstream) : option nmem :=
  m_drive d (NMem (q_typ q) (q_trailer q) (q_cand q) (q_best q) (q_internal q) (q_rderr q) (q_last q) (q_win q) (q_w q) (i_sc i) (i_caps i) []) (i_data i) (i_end i) (i_places i).
(* several streams, one after the other, with one parser: what the listener saw, and the world afterwards *)
Fixpoint m_nstreams (d : driver) (q : nmem) (l : list mstream) : option (list (list nresult) * world) :=
  match l with
  | [] => Some ([], q_w q)
  | i :: r => match m_nparse d q i with
              | Some q' => match m_nstreams d q' r with Some (rss, w) => Some (q_out q' :: rss, w) | None => None end
              | None => None end
  end.
(* parser.go:198-219 NewParser, in the world s *)
Definition m_nnew_parser (s : world) (opts : list nopt) : nmem :=
  let x := nnew_parser opts in
  let (h1, a1) := alloc (w_heap s) (KArr []) in
  let (h2, a2) := alloc h1 (KArr []) in
  NMem (n_typ x) (n_trailer x) (Slice a2 0 0 0) (n_best x) (h_new_machine (n_best x) false) None (Slice a1 0 0 0) (Slice a1 0 0 0) (with_heap h2 s) [] [] [].
