(* rfc5424/builder.go: the variables of SyslogMessage.set and the meaning of its leaf statements.
   The control flow is in GenBuilder.v. *)
From Verif Require Import Bytes GoMap GoTime Common GotoLang M5424Def M5424.
Local Open Scope Z_scope.

(* assignments to the fields of rfc5424/syslog_message.go:78-83 SyslogMessage (syslog.go:67-77 Base) *)
Definition set_facility (v : option Z) (x : message) : message := Message v (severity x) (priority x) (timestamp x) (hostname x) (appname x) (procID x) (msgID x) (msg x) (version x) (structuredData x).
Definition set_severity (v : option Z) (x : message) : message := Message (facility x) v (priority x) (timestamp x) (hostname x) (appname x) (procID x) (msgID x) (msg x) (version x) (structuredData x).
Definition set_priority (v : option Z) (x : message) : message := Message (facility x) (severity x) v (timestamp x) (hostname x) (appname x) (procID x) (msgID x) (msg x) (version x) (structuredData x).
Definition set_timestamp (v : option time) (x : message) : message := Message (facility x) (severity x) (priority x) v (hostname x) (appname x) (procID x) (msgID x) (msg x) (version x) (structuredData x).
Definition set_hostname (v : option bytes) (x : message) : message := Message (facility x) (severity x) (priority x) (timestamp x) v (appname x) (procID x) (msgID x) (msg x) (version x) (structuredData x).
Definition set_appname (v : option bytes) (x : message) : message := Message (facility x) (severity x) (priority x) (timestamp x) (hostname x) v (procID x) (msgID x) (msg x) (version x) (structuredData x).
Definition set_procID (v : option bytes) (x : message) : message := Message (facility x) (severity x) (priority x) (timestamp x) (hostname x) (appname x) v (msgID x) (msg x) (version x) (structuredData x).
Definition set_msgID (v : option bytes) (x : message) : message := Message (facility x) (severity x) (priority x) (timestamp x) (hostname x) (appname x) (procID x) v (msg x) (version x) (structuredData x).
Definition set_msg (v : option bytes) (x : message) : message := Message (facility x) (severity x) (priority x) (timestamp x) (hostname x) (appname x) (procID x) (msgID x) v (version x) (structuredData x).
Definition set_version (v : Z) (x : message) : message := Message (facility x) (severity x) (priority x) (timestamp x) (hostname x) (appname x) (procID x) (msgID x) (msg x) v (structuredData x).
Definition set_structuredData (v : option sdmap) (x : message) : message := Message (facility x) (severity x) (priority x) (timestamp x) (hostname x) (appname x) (procID x) (msgID x) (msg x) (version x) v.

(* rfc5424/builder.go:67-75: pb, backslashes, the receiver sm, the package variables currentid and currentparamname
   (builder.go:64-65), and the local variables of the actions: t (None: e != nil), s, id, ok, text *)
Record bvars := BVars {
  b_pb : Z;
  b_back : list Z;
  b_sm : message;
  b_cid : bytes;
  b_cpn : bytes;
  b_t : option time;
  b_s : bytes;
  b_id : bytes;
  b_ok : bool;
  b_text : bytes }.
Definition set_b_pb (v : Z) (x : bvars) : bvars := BVars v (b_back x) (b_sm x) (b_cid x) (b_cpn x) (b_t x) (b_s x) (b_id x) (b_ok x) (b_text x).
Definition set_b_back (v : list Z) (x : bvars) : bvars := BVars (b_pb x) v (b_sm x) (b_cid x) (b_cpn x) (b_t x) (b_s x) (b_id x) (b_ok x) (b_text x).
Definition set_b_sm (v : message) (x : bvars) : bvars := BVars (b_pb x) (b_back x) v (b_cid x) (b_cpn x) (b_t x) (b_s x) (b_id x) (b_ok x) (b_text x).
Definition set_b_cid (v : bytes) (x : bvars) : bvars := BVars (b_pb x) (b_back x) (b_sm x) v (b_cpn x) (b_t x) (b_s x) (b_id x) (b_ok x) (b_text x).
Definition set_b_cpn (v : bytes) (x : bvars) : bvars := BVars (b_pb x) (b_back x) (b_sm x) (b_cid x) v (b_t x) (b_s x) (b_id x) (b_ok x) (b_text x).
Definition set_b_t (v : option time) (x : bvars) : bvars := BVars (b_pb x) (b_back x) (b_sm x) (b_cid x) (b_cpn x) v (b_s x) (b_id x) (b_ok x) (b_text x).
Definition set_b_s (v : bytes) (x : bvars) : bvars := BVars (b_pb x) (b_back x) (b_sm x) (b_cid x) (b_cpn x) (b_t x) v (b_id x) (b_ok x) (b_text x).
Definition set_b_id (v : bytes) (x : bvars) : bvars := BVars (b_pb x) (b_back x) (b_sm x) (b_cid x) (b_cpn x) (b_t x) (b_s x) v (b_ok x) (b_text x).
Definition set_b_ok (v : bool) (x : bvars) : bvars := BVars (b_pb x) (b_back x) (b_sm x) (b_cid x) (b_cpn x) (b_t x) (b_s x) (b_id x) v (b_text x).
Definition set_b_text (v : bytes) (x : bvars) : bvars := BVars (b_pb x) (b_back x) (b_sm x) (b_cid x) (b_cpn x) (b_t x) (b_s x) (b_id x) (b_ok x) v.

(* leaf statements; the Go text of each is in tools/ragel2coq.py *)
Inductive act := BPb | BBackAppend | BTimeParse | BTimestamp | BSLocal | BHostname | BAppname | BProcID | BMsgID | BMessage
  | BSdInit | BIdLocal | BElements | BIdLookup | BSdNewElem | BSdNewParam | BTextLocal | BTextStrip | BSdSetParam.
Inductive cnd := CTimeOk | CSNonEmpty | CSNotDash | CSdNil | CIdMissing | CHasBackslash.

Definition bupd (f : message -> message) (x : bvars) : bvars := set_b_sm (f (b_sm x)) x.
Definition with_btext (data : bytes) (p : Z) (x : bvars) (f : bytes -> bvars) : option bvars :=
  match zslice data (b_pb x) p with Some t => Some (f t) | None => None end.
(* elements[currentid][name] = v: panics when elements[currentid] is missing (nil inner map) *)
Definition put_elem (id name v : bytes) (x : bvars) : option bvars :=
  match structuredData (b_sm x) with
  | Some m => match mget m id with
              | Some e => Some (bupd (set_structuredData (Some (mset m id (mset e name v)))) x)
              | None => None end
  | None => None end.

(* None: the statement panics *)
Definition sem_act (a : act) (data : bytes) (p : Z) (x : bvars) : option bvars :=
  match a with
  | BPb => Some (set_b_pb p x)                                          (* pb = p *)
  | BBackAppend => Some (set_b_back (b_back x ++ [p]) x)                (* backslashes = append(backslashes, p) *)
  | BTimeParse => with_btext data p x (fun t => set_b_t (parse_rfc3339 t) x)
  | BTimestamp => match b_t x with Some t => Some (bupd (set_timestamp (Some t)) x) | None => Some (bupd (set_timestamp (Some time_zero)) x) end
  | BSLocal => with_btext data p x (fun t => set_b_s t x)               (* s := string(data[pb:p]) *)
  | BHostname => Some (bupd (set_hostname (Some (b_s x))) x)
  | BAppname => Some (bupd (set_appname (Some (b_s x))) x)
  | BProcID => Some (bupd (set_procID (Some (b_s x))) x)
  | BMsgID => Some (bupd (set_msgID (Some (b_s x))) x)
  | BMessage => Some (bupd (set_msg (Some (b_s x))) x)
  | BSdInit => Some (bupd (set_structuredData (Some [])) x)
  | BIdLocal => with_btext data p x (fun t => set_b_id t x)
  | BElements => match structuredData (b_sm x) with Some _ => Some x | None => None end   (* nil dereference panics; the map is a reference *)
  | BIdLookup => Some (set_b_ok (match mget (sd_read (structuredData (b_sm x))) (b_id x) with Some _ => true | None => false end) x)
  | BSdNewElem => match structuredData (b_sm x) with
                  | Some m => Some (bupd (set_structuredData (Some (mset m (b_id x) []))) x) | None => None end
  | BSdNewParam => match zslice data (b_pb x) p with Some t => put_elem (b_cid x) t [] x | None => None end
  | BTextLocal => with_btext data p x (fun t => set_b_text t x)
  | BTextStrip => match remove_bytes (b_text x) (b_back x) (b_pb x) with Some t => Some (set_b_text t x) | None => None end
  | BSdSetParam => put_elem (b_cid x) (b_cpn x) (b_text x) x
  end.

Definition sem_cnd (c : cnd) (x : bvars) : bool :=
  match c with
  | CTimeOk => match b_t x with Some _ => true | None => false end
  | CSNonEmpty => negb (bseqb (b_s x) [])
  | CSNotDash => negb (bseqb (b_s x) (lit "-"))
  | CSdNil => match structuredData (b_sm x) with None => true | Some _ => false end
  | CIdMissing => negb (b_ok x)
  | CHasBackslash => match b_back x with [] => false | _ => true end
  end.

Scheme Equality for act.
Scheme Equality for cnd.
Lemma act_eqb_ok a b : act_beq a b = true -> a = b.
Proof. destruct a; destruct b; cbn; congruence. Qed.
Lemma cnd_eqb_ok a b : cnd_beq a b = true -> a = b.
Proof. destruct a; destruct b; cbn; congruence. Qed.
