(* rfc5424: Parse at the level of the goto program, export and the parser wrapper. *)
From Verif Require Import Bytes GoMap GoTime Common GotoLang M5424Def Gen5424 A5424.
Local Open Scope Z_scope.

(* rfc5424/syslog_message.go:25-27 minimal *)
Definition minimal (o : msg5424) : bool := o_prioritySet o && valid_priority (o_priority o) && valid_version (o_version o).

(* syslog.go:67-77 Base and rfc5424/syslog_message.go:78-83 SyslogMessage; None is a nil pointer *)
Record message := Message {
  facility : option Z; severity : option Z; priority : option Z; timestamp : option time;
  hostname : option bytes; appname : option bytes; procID : option bytes; msgID : option bytes; msg : option bytes;
  version : Z; structuredData : option sdmap }.

(* the test  s != "-" && s != ""  followed by taking the address *)
Definition opt_str (s : bytes) : option bytes := if bseqb s (lit "-") || bseqb s [] then None else Some s.

(* rfc5424/syslog_message.go:31-59 export, with syslog.go:91-97 ComputeFromPriority *)
Definition export (o : msg5424) : message := {|
  facility := Some (o_priority o / 8); severity := Some (o_priority o mod 8); priority := Some (o_priority o);
  timestamp := if o_timestampSet o then Some (o_timestamp o) else None;
  hostname := opt_str (o_hostname o); appname := opt_str (o_appname o);
  procID := opt_str (o_procID o); msgID := opt_str (o_msgID o);
  msg := (match o_message o with [] => None | m => Some m end);
  version := o_version o;
  structuredData := if o_hasElements o then Some (sd_read (o_sd o)) else None |}.

(* a machine: its variables as the previous calls left them, and the best effort flag *)
Record machine := Machine { mv : vars; bestEffort : bool }.

(* rfc5424/machine.go:72-80 NewMachine, options.go: WithBestEffort, WithCompliantMsg *)
Definition new_machine (best compliant : bool) : machine :=
  Machine (Vars 0 None [] [] 0 [] compliant msg_zero None [] false [] []) best.

(* rfc5424/machine.go:110-124: the assignments at the beginning of Parse *)
Definition prepare (x : vars) : vars :=
  set_m_out msg_zero (set_m_err None (set_m_backslashat [] (set_m_msgat 0 (set_m_pb 0 x)))).

(* what Parse returns *)
Inductive ret := Ret (m : option message) (e : option perr) | RPanic | RDiverge.

(* rfc5424/machine.go:110-12046 Parse *)
Definition parse (m : machine) (input : bytes) : machine * ret :=
  match exec sem_act sem_cnd code5424 input (exec_fuel input) LEntry (G 0 1 0 (prepare (mv m))) with
  | Out cs x =>
      (Machine x (bestEffort m),
       if ((cs <? 603) || (cs =? 614))%N then
         (if bestEffort m && minimal (m_out x) then Ret (Some (export (m_out x))) (m_err x) else Ret None (m_err x))
       else Ret (Some (export (m_out x))) None)
  | Panic => (m, RPanic)
  | NoFuel => (m, RDiverge)
  end.

(* rfc5424/parser.go:32-45 parser.Parse (the lock is modelled separately) *)
Definition parser_parse (m : machine) (input : bytes) : machine * ret :=
  match parse m input with
  | (m', Ret r (Some e)) => (m', if bestEffort m then Ret r (Some e) else Ret None (Some e))
  | (m', Ret r None) => (m', Ret r None)
  | r => r
  end.

(* a machine after any sequence of calls *)
Fixpoint after (m : machine) (inputs : list bytes) : machine :=
  match inputs with [] => m | i :: r => after (fst (parse m i)) r end.

Example parse_ex1 : snd (parse (new_machine false false)
   (lit "<165>4 2018-10-11T22:14:15.003Z mymach.it e - 1 [ex@32473 iut=""3""] An application event log entry...")) =
  Ret (Some (Message (Some 20) (Some 5) (Some 165) (Some (Time 2018 10 11 22 14 15 3000000 0))
      (Some (lit "mymach.it")) (Some (lit "e")) None (Some (lit "1")) (Some (lit "An application event log entry..."))
      4 (Some [(lit "ex@32473", [(lit "iut", lit "3")])]))) None.
Proof. vm_compute. reflexivity. Qed.
