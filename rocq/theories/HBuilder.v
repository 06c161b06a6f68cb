(* rfc5424/builder.go on the heap: the same goto program (GenBuilder.v), its leaf statements now act on memory. *)
From Verif Require Import Bytes GoMap GoTime Common GotoLang M5424Def M5424 BuilderBaseDef GenBuilder ABuilder MBuilder Heap.
Local Open Scope Z_scope.

(* the local variables of set (builder.go:67-75 and the actions); elements: a map, that is a reference (None: nil) *)
Record hb := HB { hb_heap : heap; hb_pb : Z; hb_back : list Z; hb_t : option time; hb_s : bytes; hb_id : bytes; hb_ok : bool;
  hb_elements : option addr; hb_text : option slice }.
Definition set_hb_heap v y := HB v (hb_pb y) (hb_back y) (hb_t y) (hb_s y) (hb_id y) (hb_ok y) (hb_elements y) (hb_text y).
Definition set_hb_pb v y := HB (hb_heap y) v (hb_back y) (hb_t y) (hb_s y) (hb_id y) (hb_ok y) (hb_elements y) (hb_text y).
Definition set_hb_back v y := HB (hb_heap y) (hb_pb y) v (hb_t y) (hb_s y) (hb_id y) (hb_ok y) (hb_elements y) (hb_text y).
Definition set_hb_t v y := HB (hb_heap y) (hb_pb y) (hb_back y) v (hb_s y) (hb_id y) (hb_ok y) (hb_elements y) (hb_text y).
Definition set_hb_s v y := HB (hb_heap y) (hb_pb y) (hb_back y) (hb_t y) v (hb_id y) (hb_ok y) (hb_elements y) (hb_text y).
Definition set_hb_id v y := HB (hb_heap y) (hb_pb y) (hb_back y) (hb_t y) (hb_s y) v (hb_ok y) (hb_elements y) (hb_text y).
Definition set_hb_ok v y := HB (hb_heap y) (hb_pb y) (hb_back y) (hb_t y) (hb_s y) (hb_id y) v (hb_elements y) (hb_text y).
Definition set_hb_elements v y := HB (hb_heap y) (hb_pb y) (hb_back y) (hb_t y) (hb_s y) (hb_id y) (hb_ok y) v (hb_text y).
Definition set_hb_text v y := HB (hb_heap y) (hb_pb y) (hb_back y) (hb_t y) (hb_s y) (hb_id y) (hb_ok y) (hb_elements y) v.

(* assignments to the pointers of syslog.go:67-77 Base *)
Definition set_p_facility v b := Base v (p_severity b) (p_priority b) (p_timestamp b) (p_hostname b) (p_appname b) (p_procID b) (p_msgID b) (p_message b).
Definition set_p_severity v b := Base (p_facility b) v (p_priority b) (p_timestamp b) (p_hostname b) (p_appname b) (p_procID b) (p_msgID b) (p_message b).
Definition set_p_priority v b := Base (p_facility b) (p_severity b) v (p_timestamp b) (p_hostname b) (p_appname b) (p_procID b) (p_msgID b) (p_message b).
Definition set_p_timestamp v b := Base (p_facility b) (p_severity b) (p_priority b) v (p_hostname b) (p_appname b) (p_procID b) (p_msgID b) (p_message b).
Definition set_p_hostname v b := Base (p_facility b) (p_severity b) (p_priority b) (p_timestamp b) v (p_appname b) (p_procID b) (p_msgID b) (p_message b).
Definition set_p_appname v b := Base (p_facility b) (p_severity b) (p_priority b) (p_timestamp b) (p_hostname b) v (p_procID b) (p_msgID b) (p_message b).
Definition set_p_procID v b := Base (p_facility b) (p_severity b) (p_priority b) (p_timestamp b) (p_hostname b) (p_appname b) v (p_msgID b) (p_message b).
Definition set_p_msgID v b := Base (p_facility b) (p_severity b) (p_priority b) (p_timestamp b) (p_hostname b) (p_appname b) (p_procID b) v (p_message b).
Definition set_p_message v b := Base (p_facility b) (p_severity b) (p_priority b) (p_timestamp b) (p_hostname b) (p_appname b) (p_procID b) (p_msgID b) v.
Definition base_nil : base := Base None None None None None None None None None.

(* sm.F = &v: v is a new variable, so its address is fresh *)
Definition h_point (h : heap) (sm : addr) (c : cell) (f : option addr -> base -> base) : option heap :=
  match hget h sm with
  | Some (KMsg5 b v sd) => let (h', a) := alloc h c in Some (hput h' sm (KMsg5 (f (Some a) b) v sd))
  | _ => None end.
(* *sm.StructuredData; None: nil dereference *)
Definition h_elements (h : heap) (sm : addr) : option (option addr) :=
  match hget h sm with
  | Some (KMsg5 _ _ (Some p)) => match hget h p with Some (KRef m) => Some m | _ => None end
  | _ => None end.
(* elements[id] for reading; None: no such element *)
Definition h_elem (h : heap) (elements : option addr) (id : bytes) : option addr :=
  match elements with
  | Some o => match hget h o with Some (KOuter m) => mget m id | _ => None end
  | None => None end.
(* elements[id][name] = v: panics when elements[id] is missing (nil inner map) *)
Definition h_put_param (h : heap) (elements : option addr) (id name v : bytes) : option heap :=
  match h_elem h elements id with
  | Some q => match hget h q with Some (KInner e) => Some (hput h q (KInner (mset e name v))) | _ => None end
  | None => None end.
Definition on_heap (y : hb) (r : option heap) : option hb := match r with Some h => Some (set_hb_heap h y) | None => None end.
(* string(data[pb:p]) *)
Definition h_string (d : slice) (p : Z) (y : hb) (f : bytes -> option hb) : option hb :=
  match subslice d (hb_pb y) p with
  | Some u => match slice_read (hb_heap y) u with Some t => f t | None => None end
  | None => None end.

(* sm: the receiver; d: the slice data; cid, cpn: currentid, currentparamname.  None: the statement panics.
   As in BuilderBaseDef.v; the Go text of each statement is in tools/ragel2coq.py. *)
Definition hsem (sm : addr) (d : slice) (cid cpn : bytes) (a : act) (data : bytes) (p : Z) (y : hb) : option hb :=
  let h := hb_heap y in
  match a with
  | BPb => Some (set_hb_pb p y)
  | BBackAppend => Some (set_hb_back (hb_back y ++ [p]) y)
  | BTimeParse => h_string d p y (fun t => Some (set_hb_t (parse_rfc3339 t) y))
  | BTimestamp => on_heap y (h_point h sm (KTime (match hb_t y with Some t => t | None => time_zero end)) set_p_timestamp)
  | BSLocal => h_string d p y (fun t => Some (set_hb_s t y))
  | BHostname => on_heap y (h_point h sm (KStr (hb_s y)) set_p_hostname)
  | BAppname => on_heap y (h_point h sm (KStr (hb_s y)) set_p_appname)
  | BProcID => on_heap y (h_point h sm (KStr (hb_s y)) set_p_procID)
  | BMsgID => on_heap y (h_point h sm (KStr (hb_s y)) set_p_msgID)
  | BMessage => on_heap y (h_point h sm (KStr (hb_s y)) set_p_message)
  | BSdInit =>                                        (* sm.StructuredData = &(map[string]map[string]string{}) *)
      match hget h sm with
      | Some (KMsg5 b v _) =>
          let (h1, o) := alloc h (KOuter []) in let (h2, r) := alloc h1 (KRef (Some o)) in
          Some (set_hb_heap (hput h2 sm (KMsg5 b v (Some r))) y)
      | _ => None end
  | BIdLocal => h_string d p y (fun t => Some (set_hb_id t y))
  | BElements => match h_elements h sm with Some m => Some (set_hb_elements m y) | None => None end
  | BIdLookup => Some (set_hb_ok (match h_elem h (hb_elements y) (hb_id y) with Some _ => true | None => false end) y)
  | BSdNewElem =>                                     (* elements[id] = map[string]string{}: panics when elements is nil *)
      match hb_elements y with
      | Some o => match hget h o with
                  | Some (KOuter m) => let (h', q) := alloc h (KInner []) in Some (set_hb_heap (hput h' o (KOuter (mset m (hb_id y) q))) y)
                  | _ => None end
      | None => None end
  | BSdNewParam => h_string d p y (fun t => on_heap y (h_put_param h (hb_elements y) cid t []))
  | BTextLocal => match subslice d (hb_pb y) p with Some u => Some (set_hb_text (Some u) y) | None => None end
  | BTextStrip => match h_remove_bytes h (hb_text y) (hb_back y) (hb_pb y) with
                  | Some (h', s) => Some (set_hb_text s (set_hb_heap h' y)) | None => None end
  | BSdSetParam => match oslice_read h (hb_text y) with
                   | Some t => on_heap y (h_put_param h (hb_elements y) cid cpn t) | None => None end
  end.
Definition hcnd (sm : addr) (c : cnd) (y : hb) : bool :=
  match c with
  | CTimeOk => match hb_t y with Some _ => true | None => false end
  | CSNonEmpty => negb (bseqb (hb_s y) [])
  | CSNotDash => negb (bseqb (hb_s y) (lit "-"))
  | CSdNil => match hget (hb_heap y) sm with Some (KMsg5 _ _ None) => true | _ => false end
  | CIdMissing => negb (hb_ok y)
  | CHasBackslash => match hb_back y with [] => false | _ => true end
  end.

(* rfc5424/builder.go:67-9265 set; None: panic.  data := []byte(value) is a new array. *)
Definition h_bset (from : entrypoint) (g : globals) (h : heap) (sm : addr) (value : bytes) : option heap :=
  let (h1, a) := alloc h (KArr value) in
  let d := Slice a 0 (length value) (length value) in
  match exec (hsem sm d (currentid g) (currentparamname g)) (hcnd sm) codeB value (exec_fuel value) LEntry
          (G 0 (translate from) 0 (HB h1 0 [] None [] [] false None None)) with
  | Out _ y => Some (hb_heap y)
  | _ => None
  end.

(* syslog.go:91-97 ComputeFromPriority: the parameter and the two locals are new variables *)
Definition h_compute_from_priority (v : Z) (h : heap) (sm : addr) : option heap :=
  match hget h sm with
  | Some (KMsg5 b ver sd) =>
      let (h1, p) := alloc h (KU8 v) in let (h2, f) := alloc h1 (KU8 (v / 8)) in let (h3, s) := alloc h2 (KU8 (v mod 8)) in
      Some (hput h3 sm (KMsg5 (set_p_severity (Some s) (set_p_facility (Some f) (set_p_priority (Some p) b))) ver sd))
  | _ => None end.
(* sm.Version = v *)
Definition h_set_version (v : Z) (h : heap) (sm : addr) : option heap :=
  match hget h sm with Some (KMsg5 b _ sd) => Some (hput h sm (KMsg5 b v sd)) | _ => None end.

(* rfc5424/builder.go:9321-9344 SetParameter; elements is read once and stays a reference to the same map *)
Definition h_set_parameter (g : globals) (h : heap) (sm : addr) (id name v : bytes) : option (globals * heap) :=
  match h_bset EpSdid g h sm id with
  | None => None
  | Some h1 =>
    match hget h1 sm with
    | Some (KMsg5 _ _ None) => Some (g, h1)
    | Some (KMsg5 _ _ (Some r)) =>
      match hget h1 r with
      | Some (KRef elements) =>
        match h_elem h1 elements id with
        | None => Some (g, h1)
        | Some _ =>
          let g1 := Globals id (currentparamname g) in
          match h_bset EpSdpn g1 h1 sm name with
          | None => None
          | Some h2 =>
            match match h_elem h2 elements id with Some q => match hget h2 q with Some (KInner e) => mget e name | _ => None end | None => None end with
            | None => Some (g1, h2)
            | Some _ =>
              let g2 := Globals id name in
              match h_bset EpSdpv g2 h2 sm v with None => None | Some h3 => Some (g2, h3) end
            end
          end
        end
      | _ => None
      end
    | _ => None
    end
  end.

(* one call of the builder on the message at sm, rfc5424/builder.go:9266-9349 *)
Definition h_with_g (g : globals) (r : option heap) : option (globals * heap) := match r with Some h => Some (g, h) | None => None end.
Definition h_step (g : globals) (h : heap) (sm : addr) (c : call) : option (globals * heap) :=
  match c with
  | SetPriority v => h_with_g g (if valid_priority v then h_compute_from_priority v h sm else Some h)
  | SetVersion v => h_with_g g (if valid_version v then h_set_version v h sm else Some h)
  | SetTimestamp v => h_with_g g (h_bset EpTimestamp g h sm v)
  | SetHostname v => h_with_g g (h_bset EpHostname g h sm v)
  | SetAppname v => h_with_g g (h_bset EpAppname g h sm v)
  | SetProcID v => h_with_g g (h_bset EpProcid g h sm v)
  | SetMsgID v => h_with_g g (h_bset EpMsgid g h sm v)
  | SetElementID v => h_with_g g (h_bset EpSdid g h sm v)
  | SetParameter id name v => h_set_parameter g h sm id name v
  | SetMessage v => h_with_g g (h_bset EpMsg g h sm v)
  end.
(* &SyslogMessage{} *)
Definition h_new_message (h : heap) : heap * addr := alloc h (KMsg5 base_nil 0 None).
(* c := *m; &c *)
Definition h_copy (h : heap) (m : addr) : option (heap * addr) :=
  match hget h m with Some (KMsg5 b v sd) => Some (alloc h (KMsg5 b v sd)) | _ => None end.
