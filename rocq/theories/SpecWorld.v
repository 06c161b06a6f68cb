(* A program that parses, builds and edits messages, and what it should see: every message and every buffer is a value of its own. *)
From Verif Require Import Bytes GoMap GoTime Common M5424Def M5424 BuilderBaseDef MBuilder.

(* a write through a pointer of a message:  if m.F != nil { *m.F = v },  and writes to the maps of its structured data *)
Inductive write := WFacility (v : Z) | WSeverity (v : Z) | WPriority (v : Z) | WTimestamp (v : time) | WHostname (v : bytes) | WAppname (v : bytes)
  | WProcID (v : bytes) | WMsgID (v : bytes) | WMessage (v : bytes)
  | WParam (id name v : bytes)          (* if the element exists: ( *m.StructuredData)[id][name] = v *)
  | WDelElem (id : bytes).              (* if m.StructuredData != nil { delete( *m.StructuredData, id) } *)
Inductive op :=
| ONewMachine (best compliant : bool)   (* rfc5424.NewMachine with or without WithBestEffort and WithCompliantMsg *)
| ONewBuf (b : bytes)                   (* buf := []byte(b) *)
| OWriteBuf (k i : nat) (x : byte)      (* the k-th buffer: buf[i] = x *)
| OParse (k b : nat) (i j : Z)          (* the k-th machine on the b-th buffer: m, err := machine.Parse(buf[i:j]) *)
| ONewMsg                               (* m := &rfc5424.SyslogMessage{} *)
| OSet (k : nat) (c : call)             (* the k-th message: a call of the Builder interface *)
| OCompute (k : nat) (v : Z)            (* m.ComputeFromPriority(v) *)
| OWrite (k : nat) (u : write).
(* An operation on a machine, buffer or message that does not exist, or out of the bounds of a buffer, is skipped. *)

Definition over {A} (p : option A) (v : A) : option A := match p with Some _ => Some v | None => None end.
Definition write_value (u : write) (m : message) : message :=
  match u with
  | WFacility v => set_facility (over (facility m) v) m
  | WSeverity v => set_severity (over (severity m) v) m
  | WPriority v => set_priority (over (priority m) v) m
  | WTimestamp v => set_timestamp (over (timestamp m) v) m
  | WHostname v => set_hostname (over (hostname m) v) m
  | WAppname v => set_appname (over (appname m) v) m
  | WProcID v => set_procID (over (procID m) v) m
  | WMsgID v => set_msgID (over (msgID m) v) m
  | WMessage v => set_msg (over (msg m) v) m
  | WParam id name v =>
      match structuredData m with
      | Some s => match mget s id with Some e => set_structuredData (Some (mset s id (mset e name v))) m | None => m end
      | None => m end
  | WDelElem id => match structuredData m with Some s => set_structuredData (Some (mdel s id)) m | None => m end
  end.
Fixpoint replace {A} (l : list A) (k : nat) (v : A) : list A :=
  match l, k with [] , _ => [] | _ :: r, O => v :: r | x :: r, S k => x :: replace r k v end.

(* v_trace: for every Parse, whether a message was returned, and the error *)
Record values := Values { v_mach : list (bool * bool); v_buf : list bytes; v_msgs : list message; v_g : globals; v_trace : list (bool * option perr) }.
Definition values0 (g : globals) : values := Values [] [] [] g [].
Definition v_op (s : values) (o : op) : option values :=
  let '(Values ma bu ms g tr) := s in
  match o with
  | ONewMachine best compliant => Some (Values (ma ++ [(best, compliant)]) bu ms g tr)
  | ONewBuf b => Some (Values ma (bu ++ [b]) ms g tr)
  | OWriteBuf k i x =>
      match nth_error bu k with
      | Some b => if (i <? length b)%nat then Some (Values ma (replace bu k (replace b i x)) ms g tr) else Some s
      | None => Some s end
  | OParse k b i j =>
      match nth_error ma k, nth_error bu b with
      | Some (best, compliant), Some buf =>
          match zslice buf i j with
          | Some input =>
              match snd (parse (new_machine best compliant) input) with
              | Ret (Some m) e => Some (Values ma bu (ms ++ [m]) g (tr ++ [(true, e)]))
              | Ret None e => Some (Values ma bu ms g (tr ++ [(false, e)]))
              | _ => None end
          | None => Some s end
      | _, _ => Some s end
  | ONewMsg => Some (Values ma bu (ms ++ [empty_message]) g tr)
  | OSet k c =>
      match nth_error ms k with
      | Some m => match step g m c with Some (g', m') => Some (Values ma bu (replace ms k m') g' tr) | None => None end
      | None => Some s end
  | OCompute k v =>
      match nth_error ms k with Some m => Some (Values ma bu (replace ms k (compute_from_priority v m)) g tr) | None => Some s end
  | OWrite k u =>
      match nth_error ms k with Some m => Some (Values ma bu (replace ms k (write_value u m)) g tr) | None => Some s end
  end.
Fixpoint v_ops (s : values) (l : list op) : option values :=
  match l with [] => Some s | o :: r => match v_op s o with Some s' => v_ops s' r | None => None end end.
