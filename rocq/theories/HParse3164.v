(* rfc3164 Parse on the heap: the goto program of Gen3164.v, its leaf statements act on memory. *)
From Verif Require Import Bytes GoMap GoTime Cal Common GotoLang Heap HBuilder M3164Def Gen3164 A3164 M3164.
Local Open Scope Z_scope.

(* output := &syslogMessage{} (rfc3164/machine.go:104): one object; export takes the addresses of some of its fields, so each of
   these has an address of its own: o (the other fields), o+1 timestamp, o+2 hostname, o+3 tag, o+4 content, o+5 message *)
Definition h_new_out3 (h : heap) : heap * addr :=
  (h ++ [KOut3 false false 0; KTime time_zero; KStr []; KStr []; KStr []; KStr []], length h).

(* hp3_x: the fields of the machine and the locals of the actions that hold values (its m_out is not used: output is in memory) *)
Record hp3 := HP3 { hp3_heap : heap; hp3_x : vars }.
Definition on_x3 (f : vars -> vars) (y : hp3) : option hp3 := Some (HP3 (hp3_heap y) (f (hp3_x y))).
Definition set_cell3 (a : addr) (c : cell) (y : hp3) : option hp3 := Some (HP3 (hput (hp3_heap y) a c) (hp3_x y)).
(* string(m.text()): m.data[m.pb:m.p] read from memory now *)
Definition h_text3 (d : slice) (p : Z) (y : hp3) (f : bytes -> option hp3) : option hp3 :=
  match subslice d (m_pb (hp3_x y)) p with
  | Some u => match slice_read (hp3_heap y) u with Some t => f t | None => None end
  | None => None end.
Definition h_out3 (o : addr) (f : bool -> bool -> Z -> cell) (y : hp3) : option hp3 :=
  match hget (hp3_heap y) o with Some (KOut3 ps ts pr) => set_cell3 o (f ps ts pr) y | _ => None end.

(* o: output; d: m.data.  As in M3164Def.v; the Go text of each statement is in tools/ragel2coq.py (D3164). *)
Definition hsem3 (o : addr) (d : slice) (a : act) (data : bytes) (p : Z) (y : hp3) : option hp3 :=
  let h := hp3_heap y in let x := hp3_x y in
  match a with
  | APb => on_x3 (set_m_pb p) y
  | AErrTime => on_x3 (set_m_err (Some (PTime (m_tval x) p))) y
  | AErr k => on_x3 (set_m_err (Some (PErr k p))) y
  | APriority => h_text3 d p y (fun t => h_out3 o (fun ps ts pr => KOut3 ps ts (to_u8 (dec_to_int t))) y)
  | APrioritySet => h_out3 o (fun ps ts pr => KOut3 true ts pr) y
  | ATimeStamp => h_text3 d p y (fun t => on_x3 (fun x => set_m_tval t (set_m_t (option_map (stamp_in utc) (parse_stamp t)) x)) y)
  | ATimeRfc3339 => h_text3 d p y (fun t => on_x3 (fun x => set_m_tval t (set_m_t (parse_rfc3339 t) x)) y)
  | ATimeInLoc =>
      h_text3 d p y (fun t => on_x3 (fun x => set_m_t (Some (or_zero (option_map (stamp_in (the_loc (timezone (m_cfg x)))) (parse_stamp t)))) x) y)
  | ATimestamp => set_cell3 (o + 1)%nat (KTime (or_zero (m_t x))) y
  | ATimestampYear => set_cell3 (o + 1)%nat (KTime (add_years (the_loc (timezone (m_cfg x))) (yyyy (m_cfg x)) (or_zero (m_t x)))) y
  | ATimestampIn =>
      match hget h (o + 1)%nat with Some (KTime t) => set_cell3 (o + 1)%nat (KTime (in_loc (the_loc (loc (m_cfg x))) t)) y | _ => None end
  | ATimestampSet => h_out3 o (fun ps ts pr => KOut3 ps true pr) y
  | AHostname => h_text3 d p y (fun t => set_cell3 (o + 2)%nat (KStr t) y)
  | ATag => h_text3 d p y (fun t => set_cell3 (o + 3)%nat (KStr t) y)
  | AContent => h_text3 d p y (fun t => set_cell3 (o + 4)%nat (KStr t) y)
  | AMessage => h_text3 d p y (fun t => set_cell3 (o + 5)%nat (KStr t) y)
  end.
Definition hcnd3 (c : cnd) (y : hp3) : bool := sem_cnd c (hp3_x y).

(* rfc3164/syslog_message.go:21-23 minimal *)
Definition h_minimal3 (h : heap) (o : addr) : bool :=
  match hget h o with Some (KOut3 ps _ pr) => ps && valid_priority pr | _ => false end.
(* syslog.go:91-97 ComputeFromPriority on a message of rfc3164 *)
Definition h_compute3 (v : Z) (h : heap) (sm : addr) : option heap :=
  match hget h sm with
  | Some (KMsg3 b) =>
      let (h1, p) := alloc h (KU8 v) in let (h2, f) := alloc h1 (KU8 (v / 8)) in let (h3, s) := alloc h2 (KU8 (v mod 8)) in
      Some (hput h3 sm (KMsg3 (set_p_severity (Some s) (set_p_facility (Some f) (set_p_priority (Some p) b)))))
  | _ => None end.
Definition h_assign3 (h : heap) (a : addr) (fb : base -> base) : option heap :=
  match hget h a with Some (KMsg3 b) => Some (hput h a (KMsg3 (fb b))) | _ => None end.
(* if s != "-" && s != "" { out.F = &s }, s being the variable at x *)
Definition h_point_str3 (h : heap) (a x : addr) (f : option addr -> base -> base) : option heap :=
  match hget h x with
  | Some (KStr s) => if bseqb s (lit "-") || bseqb s [] then Some h else h_assign3 h a (f (Some x))
  | _ => None end.
Definition obind3 {X Y} (x : option X) (f : X -> option Y) : option Y := match x with Some v => f v | None => None end.
(* rfc3164/syslog_message.go:27-49 export *)
Definition h_export3 (h : heap) (o : addr) : option (heap * addr) :=
  match hget h o with
  | Some (KOut3 _ ts pr) =>
    let (h0, a) := alloc h (KMsg3 base_nil) in
    obind3 (h_compute3 pr h0 a) (fun h =>
    obind3 (if ts then h_assign3 h a (set_p_timestamp (Some (o + 1)%nat)) else Some h) (fun h =>
    obind3 (h_point_str3 h a (o + 2)%nat set_p_hostname) (fun h =>
    obind3 (h_point_str3 h a (o + 3)%nat set_p_appname) (fun h =>
    obind3 (h_point_str3 h a (o + 4)%nat set_p_procID) (fun h =>
    obind3 (match hget h (o + 5)%nat with
            | Some (KStr []) => Some h
            | Some (KStr _) => h_assign3 h a (set_p_message (Some (o + 5)%nat))
            | _ => None end) (fun h => Some (h, a)))))))
  | _ => None end.

(* a machine: the variables as the previous calls left them (m.data as in HParse5424.v) *)
Record hmachine3 := HMachine3 { hm3_x : vars; hm3_best : bool }.
Definition h_new_machine3 (best : bool) (c : config) : hmachine3 := HMachine3 (mv (new_machine best c)) best.
Inductive hret3 := HRet3 (m : option addr) (e : option perr) | HPanic3 | HDiverge3.
Definition h_finish3 (r : option (heap * addr)) (e : option perr) (h : heap) : heap * hret3 :=
  match r with Some (h', a) => (h', HRet3 (Some a) e) | None => (h, HPanic3) end.
(* rfc3164/machine.go:100-7263 Parse on the slice d *)
Definition h_parse3 (m : hmachine3) (h : heap) (d : slice) : hmachine3 * heap * hret3 :=
  match slice_read h d with
  | None => (m, h, HPanic3)
  | Some input =>
    let (h1, o) := h_new_out3 h in
    match exec (hsem3 o d) hcnd3 code3164 input (exec_fuel input) LEntry (G 0 1 0 (HP3 h1 (prepare (hm3_x m)))) with
    | Out cs y =>
        let m' := HMachine3 (hp3_x y) (hm3_best m) in
        let (h', r) :=
          if ((cs <? 333) || (cs =? 373))%N then
            (if hm3_best m && h_minimal3 (hp3_heap y) o then h_finish3 (h_export3 (hp3_heap y) o) (m_err (hp3_x y)) (hp3_heap y)
             else (hp3_heap y, HRet3 None (m_err (hp3_x y))))
          else h_finish3 (h_export3 (hp3_heap y) o) None (hp3_heap y) in
        (m', h', r)
    | Panic => (m, h, HPanic3)
    | NoFuel => (m, h, HDiverge3)
    end
  end.
