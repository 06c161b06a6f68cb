(* rfc5424 Parse on the heap: the same goto program (Gen5424.v), its leaf statements now act on memory. *)
From Verif Require Import Bytes GoMap GoTime Common GotoLang Heap HBuilder M5424Def Gen5424 A5424 M5424.
Local Open Scope Z_scope.

(* output := &syslogMessage{} (rfc5424/machine.go:122): one object; export takes the addresses of some of its fields, so each of
   these has an address of its own: o (the other fields), o+1 timestamp, o+2 hostname, o+3 appname, o+4 procID, o+5 msgID,
   o+6 structuredData, o+7 message *)
Definition h_new_out5 (h : heap) : heap * addr :=
  (h ++ [KOut5 false false false 0 0; KTime time_zero; KStr []; KStr []; KStr []; KStr []; KRef None; KStr []], length h).

(* hp_x: the fields of the machine and the locals of the actions that hold values (its m_out and m_text are not used: output is
   in memory and text is a slice) *)
Record hp := HP { hp_heap : heap; hp_x : vars; hp_text : option slice }.
Definition on_x (f : vars -> vars) (y : hp) : option hp := Some (HP (hp_heap y) (f (hp_x y)) (hp_text y)).
Definition set_cell (a : addr) (c : cell) (y : hp) : option hp := Some (HP (hput (hp_heap y) a c) (hp_x y) (hp_text y)).
(* string(m.text()): m.data[m.pb:m.p] read from memory now *)
Definition h_text (d : slice) (p : Z) (y : hp) (f : bytes -> option hp) : option hp :=
  match subslice d (m_pb (hp_x y)) p with
  | Some u => match slice_read (hp_heap y) u with Some t => f t | None => None end
  | None => None end.
(* output.prioritySet = ... and the other fields without an address of their own *)
Definition h_out5 (o : addr) (f : bool -> bool -> bool -> Z -> Z -> cell) (y : hp) : option hp :=
  match hget (hp_heap y) o with Some (KOut5 ps ts he pr ve) => set_cell o (f ps ts he pr ve) y | _ => None end.
(* output.structuredData, a map, that is a reference *)
Definition h_sd (h : heap) (o : addr) : option addr := match hget h (o + 6)%nat with Some (KRef r) => r | _ => None end.
Definition h_outer (h : heap) (r : option addr) : option (gmap addr) :=
  match r with Some q => match hget h q with Some (KOuter m) => Some m | _ => None end | None => None end.

(* o: output; d: m.data.  None: the statement panics.  As in M5424Def.v; the Go text of each statement is in tools/ragel2coq.py.
   The bytes tested by the control flow are those at the time of the call (data); no statement changes them (HRef5424.v). *)
Definition hsem5 (o : addr) (d : slice) (a : act) (data : bytes) (p : Z) (y : hp) : option hp :=
  let h := hp_heap y in let x := hp_x y in
  match a with
  | APb => on_x (set_m_pb p) y
  | AMsgat => on_x (set_m_msgat p) y
  | ABackReset => on_x (set_m_backslashat []) y
  | ABackAppend => on_x (set_m_backslashat (m_backslashat x ++ [p])) y
  | ACurParam => h_text d p y (fun t => on_x (set_m_currentparam t) y)
  | ACurElem => on_x (set_m_currentelem (m_id x)) y
  | AErrTime => on_x (set_m_err (Some (PTime (m_tval x) p))) y
  | AErr k => on_x (set_m_err (Some (PErr k p))) y
  | APriority => h_text d p y (fun t => h_out5 o (fun ps ts he pr ve => KOut5 ps ts he (to_u8 (dec_to_int t)) ve) y)
  | APrioritySet => h_out5 o (fun ps ts he pr ve => KOut5 true ts he pr ve) y
  | AVersion => h_text d p y (fun t => h_out5 o (fun ps ts he pr ve => KOut5 ps ts he pr (to_u16 (dec_to_int t))) y)
  | ATimeParse => h_text d p y (fun t => on_x (fun x => set_m_tval t (set_m_t (parse_rfc3339 t) x)) y)
  | ATimestamp => set_cell (o + 1)%nat (KTime (match m_t x with Some t => t | None => time_zero end)) y
  | ATimestampSet => h_out5 o (fun ps ts he pr ve => KOut5 ps true he pr ve) y
  | AHostname => h_text d p y (fun t => set_cell (o + 2)%nat (KStr t) y)
  | AAppname => h_text d p y (fun t => set_cell (o + 3)%nat (KStr t) y)
  | AProcID => h_text d p y (fun t => set_cell (o + 4)%nat (KStr t) y)
  | AMsgID => h_text d p y (fun t => set_cell (o + 5)%nat (KStr t) y)
  | ASdInit =>                                        (* output.structuredData = map[string]map[string]string{} *)
      let (h', q) := alloc h (KOuter []) in Some (HP (hput h' (o + 6)%nat (KRef (Some q))) x (hp_text y))
  | AIdLookup => h_text d p y (fun t => on_x (set_m_ok (match h_elem h (h_sd h o) t with Some _ => true | None => false end)) y)
  | AIdLocal => h_text d p y (fun t => on_x (set_m_id t) y)
  | ASdNewElem =>                                     (* output.structuredData[id] = map[string]string{} *)
      match h_sd h o with
      | Some q => match hget h q with
                  | Some (KOuter m) => let (h', e) := alloc h (KInner []) in Some (HP (hput h' q (KOuter (mset m (m_id x) e))) x (hp_text y))
                  | _ => None end
      | None => None end
  | AHasElements b => h_out5 o (fun ps ts he pr ve => KOut5 ps ts b pr ve) y
  | ASdDelElem =>                                     (* delete(output.structuredData, m.currentelem): nothing on a nil map *)
      match h_sd h o with
      | Some q => match hget h q with Some (KOuter m) => set_cell q (KOuter (mdel m (m_currentelem x))) y | _ => None end
      | None => Some y end
  | ASdDelParam =>                                    (* delete(output.structuredData[m.currentelem], m.currentparam) *)
      match h_elem h (h_sd h o) (m_currentelem x) with
      | Some q => match hget h q with Some (KInner e) => set_cell q (KInner (mdel e (m_currentparam x))) y | _ => None end
      | None => Some y end
  | ATextLocal => match subslice d (m_pb x) p with Some u => Some (HP h x (Some u)) | None => None end
  | ATextStrip => match h_remove_bytes h (hp_text y) (m_backslashat x) (m_pb x) with
                  | Some (h', s) => Some (HP h' x s) | None => None end
  | ASdSetParam =>
      match oslice_read h (hp_text y) with
      | Some t => match h_put_param h (h_sd h o) (m_currentelem x) (m_currentparam x) t with Some h' => Some (HP h' x (hp_text y)) | None => None end
      | None => None end
  | AMessage => h_text d p y (fun t => set_cell (o + 7)%nat (KStr t) y)
  | AMessagePartial =>                                (* output.message = string(m.data[m.msgat:m.p]) *)
      match subslice d (m_msgat x) p with
      | Some u => match slice_read h u with Some t => set_cell (o + 7)%nat (KStr t) y | None => None end
      | None => None end
  end.
Definition hcnd5 (o : addr) (c : cnd) (y : hp) : bool :=
  match c with
  | CCompliant => m_compliantMsg (hp_x y)
  | CMsgat => 0 <? m_msgat (hp_x y)
  | CTimeErr => match m_t (hp_x y) with None => true | Some _ => false end
  | CIdExists => m_ok (hp_x y)
  | CSdEmpty => match h_outer (hp_heap y) (h_sd (hp_heap y) o) with Some (_ :: _) => false | _ => true end      (* len(...) == 0 *)
  | CSdNonEmpty => match h_outer (hp_heap y) (h_sd (hp_heap y) o) with Some (_ :: _) => true | _ => false end   (* len(...) > 0 *)
  | CHasElements => match hget (hp_heap y) o with Some (KOut5 _ _ he _ _) => he | _ => false end
  | CHasBackslash => match m_backslashat (hp_x y) with [] => false | _ => true end
  end.

(* rfc5424/syslog_message.go:25-27 minimal *)
Definition h_minimal5 (h : heap) (o : addr) : bool :=
  match hget h o with Some (KOut5 ps _ _ pr ve) => ps && valid_priority pr && valid_version ve | _ => false end.
(* an assignment to pointers of the message at a *)
Definition h_assign (h : heap) (a : addr) (fb : base -> base) (fsd : option addr -> option addr) : option heap :=
  match hget h a with Some (KMsg5 b v sd) => Some (hput h a (KMsg5 (fb b) v (fsd sd))) | _ => None end.
Definition same_sd (s : option addr) := s.
(* if s != "-" && s != "" { out.F = &s }, s being the variable at x *)
Definition h_point_str (h : heap) (a x : addr) (f : option addr -> base -> base) : option heap :=
  match hget h x with
  | Some (KStr s) => if bseqb s (lit "-") || bseqb s [] then Some h else h_assign h a (f (Some x)) same_sd
  | _ => None end.
Definition obind {X Y} (x : option X) (f : X -> option Y) : option Y := match x with Some v => f v | None => None end.
(* rfc5424/syslog_message.go:31-59 export *)
Definition h_export5 (h : heap) (o : addr) : option (heap * addr) :=
  match hget h o with
  | Some (KOut5 _ ts he pr ve) =>
    let (h0, a) := h_new_message h in
    obind (h_compute_from_priority pr h0 a) (fun h =>
    obind (h_set_version ve h a) (fun h =>
    obind (if ts then h_assign h a (set_p_timestamp (Some (o + 1)%nat)) same_sd else Some h) (fun h =>
    obind (h_point_str h a (o + 2)%nat set_p_hostname) (fun h =>
    obind (h_point_str h a (o + 3)%nat set_p_appname) (fun h =>
    obind (h_point_str h a (o + 4)%nat set_p_procID) (fun h =>
    obind (h_point_str h a (o + 5)%nat set_p_msgID) (fun h =>
    obind (if he then h_assign h a (fun b => b) (fun _ => Some (o + 6)%nat) else Some h) (fun h =>
    obind (match hget h (o + 7)%nat with
           | Some (KStr []) => Some h
           | Some (KStr _) => h_assign h a (set_p_message (Some (o + 7)%nat)) same_sd
           | _ => None end) (fun h => Some (h, a))))))))))
  | _ => None end.

(* a machine: the variables as the previous calls left them.  m.data, a slice kept until the next call but never read before it is
   assigned again, is not modelled. *)
Record hmachine := HMachine { hm_x : vars; hm_best : bool }.
Definition h_new_machine (best compliant : bool) : hmachine := HMachine (mv (new_machine best compliant)) best.
Inductive hret := HRet (m : option addr) (e : option perr) | HPanic | HDiverge.
Definition h_finish (r : option (heap * addr)) (e : option perr) (h : heap) : heap * hret :=
  match r with Some (h', a) => (h', HRet (Some a) e) | None => (h, HPanic) end.
(* rfc5424/machine.go:110-12046 Parse on the slice d *)
Definition h_parse (m : hmachine) (h : heap) (d : slice) : hmachine * heap * hret :=
  match slice_read h d with
  | None => (m, h, HPanic)
  | Some input =>
    let (h1, o) := h_new_out5 h in
    match exec (hsem5 o d) (hcnd5 o) code5424 input (exec_fuel input) LEntry (G 0 1 0 (HP h1 (prepare (hm_x m)) None)) with
    | Out cs y =>
        let m' := HMachine (hp_x y) (hm_best m) in
        let (h', r) :=
          if ((cs <? 603) || (cs =? 614))%N then
            (if hm_best m && h_minimal5 (hp_heap y) o then h_finish (h_export5 (hp_heap y) o) (m_err (hp_x y)) (hp_heap y)
             else (hp_heap y, HRet None (m_err (hp_x y))))
          else h_finish (h_export5 (hp_heap y) o) None (hp_heap y) in
        (m', h', r)
    | Panic => (m, h, HPanic)
    | NoFuel => (m, h, HDiverge)
    end
  end.
