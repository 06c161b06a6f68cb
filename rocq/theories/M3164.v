(* rfc3164: Parse at the level of the goto program, export and the parser wrapper. *)
From Verif Require Import Bytes GoTime Cal Common GotoLang M3164Def Gen3164 A3164.
Local Open Scope Z_scope.

(* rfc3164/syslog_message.go:21-23 minimal *)
Definition minimal (o : msg3164) : bool := o_prioritySet o && valid_priority (o_priority o).

(* syslog.go:67-77 Base (its MsgID is never set here) and rfc3164/syslog_message.go:52-54 SyslogMessage; None is a nil pointer *)
Record message := Message {
  facility : option Z; severity : option Z; priority : option Z; timestamp : option time;
  hostname : option bytes; appname : option bytes; procID : option bytes; msg : option bytes }.

(* the test  s != "-" && s != ""  followed by taking the address *)
Definition opt_str (s : bytes) : option bytes := if bseqb s (lit "-") || bseqb s [] then None else Some s.

(* rfc3164/syslog_message.go:27-49 export, with syslog.go:91-97 ComputeFromPriority *)
Definition export (o : msg3164) : message := {|
  facility := Some (o_priority o / 8); severity := Some (o_priority o mod 8); priority := Some (o_priority o);
  timestamp := if o_timestampSet o then Some (o_timestamp o) else None;
  hostname := opt_str (o_hostname o); appname := opt_str (o_tag o); procID := opt_str (o_content o);
  msg := (match o_message o with [] => None | m => Some m end) |}.

(* a machine: its variables as the previous calls left them, and the best effort flag *)
Record machine := Machine { mv : vars; bestEffort : bool }.
Definition config_of (m : machine) : config := m_cfg (mv m).

(* rfc3164/machine.go:43-51 NewMachine with the options of options.go; year: the result of the YearOperator *)
Definition new_machine (best : bool) (c : config) : machine := Machine (Vars 0 None c msg_zero None []) best.

(* rfc3164/machine.go:100-107: the assignments at the beginning of Parse *)
Definition prepare (x : vars) : vars := set_m_out msg_zero (set_m_err None (set_m_pb 0 x)).

(* what Parse returns *)
Inductive ret := Ret (m : option message) (e : option perr) | RPanic | RDiverge.

(* rfc3164/machine.go:100-7263 Parse *)
Definition parse (m : machine) (input : bytes) : machine * ret :=
  match exec sem_act sem_cnd code3164 input (exec_fuel input) LEntry (G 0 1 0 (prepare (mv m))) with
  | Out cs x =>
      (Machine x (bestEffort m),
       if ((cs <? 333) || (cs =? 373))%N then
         (if bestEffort m && minimal (m_out x) then Ret (Some (export (m_out x))) (m_err x) else Ret None (m_err x))
       else Ret (Some (export (m_out x))) None)
  | Panic => (m, RPanic)
  | NoFuel => (m, RDiverge)
  end.

(* rfc3164/parser.go:30-44 parser.Parse (the lock is modelled separately) *)
Definition parser_parse (m : machine) (input : bytes) : machine * ret :=
  match parse m input with
  | (m', Ret r (Some e)) => (m', if bestEffort m then Ret r (Some e) else Ret None (Some e))
  | (m', Ret r None) => (m', Ret r None)
  | r => r
  end.

(* a machine after any sequence of calls *)
Fixpoint after (m : machine) (inputs : list bytes) : machine :=
  match inputs with [] => m | i :: r => after (fst (parse m i)) r end.

Definition plain : config := Config 0 false None None.
Example parse_ex1 : snd (parse (new_machine false (Config 2003 false None None)) (lit "<34>Oct 11 22:14:15 mymachine su[77]: 'su root' failed for lonvick on /dev/pts/8")) =
  Ret (Some (Message (Some 4) (Some 2) (Some 34) (Some (Time 2003 10 11 22 14 15 0 0)) (Some (lit "mymachine")) (Some (lit "su")) (Some (lit "77"))
    (Some (lit "'su root' failed for lonvick on /dev/pts/8")))) None.
Proof. vm_compute. reflexivity. Qed.
