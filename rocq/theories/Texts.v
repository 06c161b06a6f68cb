(* syslog.go, the methods of Base giving texts for the facility and the severity, with the tables of common/facility.go and
   common/severity.go. *)
From Verif Require Import Bytes GoTime.
Local Open Scope Z_scope.

(* ---------- the model ---------- *)
(* a Go map literal with uint8 keys *)
Definition table := list (Z * bytes).
(* v, ok := m[k] *)
Fixpoint find (t : table) (k : Z) : option bytes := match t with [] => None | (k', v) :: r => if k' =? k then Some v else find r k end.
(* m[k]: the zero value for a missing key *)
Definition index (t : table) (k : Z) : bytes := match find t k with Some v => v | None => [] end.

(* common/facility.go:5-30 Facility *)
Definition Facility : table := [
  (0, lit "kernel messages"); (1, lit "user-level messages"); (2, lit "mail system messages"); (3, lit "system daemons messages");
  (4, lit "authorization messages"); (5, lit "messages generated internally by syslogd"); (6, lit "line printer subsystem messages");
  (7, lit "network news subsystem messages"); (8, lit "UUCP subsystem messages"); (9, lit "clock daemon messages");
  (10, lit "security/authorization messages"); (11, lit "ftp daemon messages"); (12, lit "NTP subsystem messages"); (13, lit "audit messages");
  (14, lit "console messages"); (15, lit "clock daemon messages"); (16, lit "local use 0 (local0)"); (17, lit "local use 1 (local1)");
  (18, lit "local use 2 (local2)"); (19, lit "local use 3 (local3)"); (20, lit "local use 4 (local4)"); (21, lit "local use 5 (local5)");
  (22, lit "local use 6 (local6)"); (23, lit "local use 7 (local7)")].
(* common/facility.go:34-59 FacilityKeywords *)
Definition FacilityKeywords : table := [
  (0, lit "kern"); (1, lit "user"); (2, lit "mail"); (3, lit "daemon"); (4, lit "auth"); (5, lit "syslog"); (6, lit "lpr"); (7, lit "news");
  (8, lit "uucp"); (9, lit "cron"); (10, lit "authpriv"); (11, lit "ftp"); (12, lit "ntp"); (13, lit "security"); (14, lit "console");
  (15, lit "cron2"); (16, lit "local0"); (17, lit "local1"); (18, lit "local2"); (19, lit "local3"); (20, lit "local4"); (21, lit "local5");
  (22, lit "local6"); (23, lit "local7")].
(* common/severity.go:4-13 SeverityMessages *)
Definition SeverityMessages : table := [
  (0, lit "system is unusable"); (1, lit "action must be taken immediately"); (2, lit "critical conditions"); (3, lit "error conditions");
  (4, lit "warning conditions"); (5, lit "normal but significant condition"); (6, lit "informational messages"); (7, lit "debug-level messages")].
(* common/severity.go:16-25 SeverityLevels *)
Definition SeverityLevels : table := [
  (0, lit "emergency"); (1, lit "alert"); (2, lit "critical"); (3, lit "error"); (4, lit "warning"); (5, lit "notice"); (6, lit "informational"); (7, lit "debug")].
(* common/severity.go:29-38 SeverityLevelsShort *)
Definition SeverityLevelsShort : table := [
  (0, lit "emerg"); (1, lit "alert"); (2, lit "crit"); (3, lit "err"); (4, lit "warning"); (5, lit "notice"); (6, lit "info"); (7, lit "debug")].

(* syslog.go:67-77 Base: the fields used here (rfc5424.SyslogMessage and rfc3164.SyslogMessage embed it) *)
Record base := Base { f_facility : option Z; f_severity : option Z; f_priority : option Z }.
(* syslog.go:91-97 ComputeFromPriority *)
Definition ComputeFromPriority (value : Z) (m : base) : base := Base (Some (value / 8)) (Some (value mod 8)) (Some value).
(* syslog.go:100-107 FacilityMessage; None: nil *)
Definition FacilityMessage (m : base) : option bytes := match f_facility m with Some f => Some (index Facility f) | None => None end.
(* syslog.go:110-122 FacilityLevel *)
Definition FacilityLevel (m : base) : option bytes :=
  match f_facility m with
  | Some f => match find FacilityKeywords f with Some msg => Some msg | None => Some (index Facility f) end
  | None => None
  end.
(* syslog.go:125-132 SeverityMessage *)
Definition SeverityMessage (m : base) : option bytes := match f_severity m with Some s => Some (index SeverityMessages s) | None => None end.
(* syslog.go:135-142 SeverityLevel *)
Definition SeverityLevel (m : base) : option bytes := match f_severity m with Some s => Some (index SeverityLevels s) | None => None end.
(* syslog.go:145-152 SeverityShortLevel *)
Definition SeverityShortLevel (m : base) : option bytes := match f_severity m with Some s => Some (index SeverityLevelsShort s) | None => None end.
