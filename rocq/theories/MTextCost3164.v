(* rfc3164: what Parse copies.  The same program as M3164 with two counters (copy3164_results in ThmTextCost3164.v: forgetting them
   gives M3164.parse): the bytes of the input taken as the text of the content, and the bytes taken as any other text. *)
From Verif Require Import Bytes GoTime Cal Common GotoLang M3164Def A3164 M3164.
Local Open Scope Z_scope.

(* rfc3164/machine.go: the bytes a statement takes from the input by string(m.text()) or int(m.text()): machine.go.rl:35-38
   set_prival, 40-55 set_timestamp (the text again for ParseInLocation), 57-66 set_rfc3339, 68-70 set_hostname, 72-74 set_tag, 80-82 set_message.
   AContent is counted apart.  Every other statement takes none. *)
Definition taken (a : act) (p : Z) (x : vars) : Z :=
  match a with
  | APriority | ATimeStamp | ATimeRfc3339 | ATimeInLoc | AHostname | ATag | AMessage => p - m_pb x
  | AContent | APb | AErrTime | AErr _ | APrioritySet | ATimestamp | ATimestampYear | ATimestampIn | ATimestampSet => 0
  end.
(* rfc3164/machine.go.rl:76-78 set_content: output.content = string(m.text()) *)
Definition content_taken (a : act) (p : Z) (x : vars) : Z := match a with AContent => p - m_pb x | _ => 0 end.
Definition Y : Type := (vars * (Z * Z))%type.
Definition w_act (a : act) (data : bytes) (p : Z) (y : Y) : option Y :=
  match sem_act a data p (fst y) with Some x' => Some (x', (fst (snd y) + taken a p (fst y), snd (snd y) + content_taken a p (fst y))) | None => None end.
Definition w_cnd (c : cnd) (y : Y) : bool := sem_cnd c (fst y).
(* rfc3164/machine.go:100-7263 Parse *)
Definition w_parse (m : machine) (input : bytes) : outcome Y :=
  exec w_act w_cnd code3164 input (exec_fuel input) LEntry (G 0 1 0 (prepare (mv m), (0, 0))).
(* the two counters at the end of Parse; None: it does not end *)
Definition copies3164 (m : machine) (input : bytes) : option (Z * Z) := match w_parse m input with Out _ (_, c) => Some c | _ => None end.

(* the content a] is taken twice, as a and as a] *)
Example copies3164_ex : copies3164 (new_machine false (Config 0 false None None)) (lit "<1>Oct 11 22:14:15 h t[a]]: m") = Some (19, 3).
Proof. vm_compute. reflexivity. Qed.
