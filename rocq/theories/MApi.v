(* syslog.Machine as its users see it: creation with options, and any sequence of calls. *)
From Verif Require Import Bytes GoTime Cal Common.
From Verif Require M5424Def M5424 M3164Def M3164.
Local Open Scope Z_scope.

(* the values of the interface syslog.Machine (syslog.go:11-14): the machines and the parsers of the two packages.
   A parser embeds a machine (rfc5424/parser.go:10-13, rfc3164/parser.go:10-13); its lock is modelled in Conc.v. *)
Inductive smachine := M5 (m : M5424.machine) | P5 (m : M5424.machine) | M3 (m : M3164.machine) | P3 (m : M3164.machine).

(* rfc3164/year.go: the year operators.  CurrentYear reads the clock; YOther: an operator of the user, whose Apply gives some
   year; WithYear(nil) calls Apply on a nil interface. *)
Inductive year_op := Year (y : Z) | CurrentYear | YOther (r : Z) | YNil.
(* year.go:18-20,26-28,36-38: Operate, Apply; now: the year the clock shows; None: panic *)
Definition operate (now : Z) (o : year_op) : option Z :=
  match o with Year y => Some y | CurrentYear => Some now | YOther r => Some r | YNil => None end.

(* the options: rfc5424/options.go:8-29, rfc3164/options.go:10-70.  A nil *time.Location is None. *)
Inductive mopt := WithBestEffort5424 | WithCompliantMsg | WithBestEffort3164 | WithYear (o : year_op)
  | WithTimezone (l : option location) | WithLocaleTimezone (l : option location) | WithRFC3339.

(* rfc5424/machine.go:86-88, rfc3164/machine.go:54-56 WithBestEffort; the parsers have it by embedding *)
Definition best5 (m : M5424.machine) : M5424.machine := M5424.Machine (M5424.mv m) true.
Definition best3 (m : M3164.machine) : M3164.machine := M3164.Machine (M3164.mv m) true.
Definition with_best (s : smachine) : smachine :=
  match s with M5 m => M5 (best5 m) | P5 m => P5 (best5 m) | M3 m => M3 (best3 m) | P3 m => P3 (best3 m) end.
(* rfc3164/machine.go:64-83 WithYear, WithTimezone, WithLocaleTimezone, WithRFC3339 *)
Definition set_cfg (f : M3164Def.config -> M3164Def.config) (m : M3164.machine) : M3164.machine :=
  M3164.Machine (M3164Def.set_m_cfg (f (M3164Def.m_cfg (M3164.mv m))) (M3164.mv m)) (M3164.bestEffort m).
Definition set_yyyy (y : Z) (c : M3164Def.config) := M3164Def.Config y (M3164Def.rfc3339 c) (M3164Def.loc c) (M3164Def.timezone c).
Definition set_rfc3339 (c : M3164Def.config) := M3164Def.Config (M3164Def.yyyy c) true (M3164Def.loc c) (M3164Def.timezone c).
Definition set_loc (l : option location) (c : M3164Def.config) := M3164Def.Config (M3164Def.yyyy c) (M3164Def.rfc3339 c) l (M3164Def.timezone c).
Definition set_timezone (l : option location) (c : M3164Def.config) := M3164Def.Config (M3164Def.yyyy c) (M3164Def.rfc3339 c) (M3164Def.loc c) l.

(* the function an option is: None: it panics.  The type assertion (to the type machine) panics unless m is the machine of the same package. *)
Definition apply_opt (now : Z) (o : mopt) (s : smachine) : option smachine :=
  match o with
  | WithBestEffort5424 | WithBestEffort3164 => Some (with_best s)
  | WithCompliantMsg =>
      match s with
      | M5 m => Some (M5 (M5424.Machine (M5424Def.set_m_compliantMsg true (M5424.mv m)) (M5424.bestEffort m)))
      | _ => None
      end
  | WithYear op => match s with M3 m => match operate now op with Some y => Some (M3 (set_cfg (set_yyyy y) m)) | None => None end | _ => None end
  | WithTimezone l => match s with M3 m => Some (M3 (set_cfg (set_loc l) m)) | _ => None end
  | WithLocaleTimezone l => match s with M3 m => Some (M3 (set_cfg (set_timezone l) m)) | _ => None end
  | WithRFC3339 => match s with M3 m => Some (M3 (set_cfg set_rfc3339 m)) | _ => None end
  end.
(* the loop of NewMachine, rfc5424/machine.go:78-80 and rfc3164/machine.go:46-48; each option with the year the clock shows then *)
Fixpoint apply_opts (opts : list (Z * mopt)) (s : smachine) : option smachine :=
  match opts with [] => Some s | (now, o) :: r => match apply_opt now o s with Some s' => apply_opts r s' | None => None end end.

(* rfc5424/machine.go:75-83, rfc5424/parser.go:16-22, rfc3164/machine.go:43-51, rfc3164/parser.go:16-22: NewMachine, NewParser *)
Inductive kind := KMachine5424 | KParser5424 | KMachine3164 | KParser3164.
Definition new (k : kind) (opts : list (Z * mopt)) : option smachine :=
  match k with
  | KMachine5424 => apply_opts opts (M5 (M5424.new_machine false false))
  | KParser5424 => match apply_opts opts (M5 (M5424.new_machine false false)) with Some (M5 m) => Some (P5 m) | _ => None end
  | KMachine3164 => apply_opts opts (M3 (M3164.new_machine false M3164.plain))
  | KParser3164 => match apply_opts opts (M3 (M3164.new_machine false M3164.plain)) with Some (M3 m) => Some (P3 m) | _ => None end
  end.

(* the calls: Parse, HasBestEffort (machine.go:91-93, parser.go:25-27), Err (machine.go:98-100, by embedding for the parsers),
   the method WithBestEffort (machine.go:86-88), and an option applied later *)
Inductive call := Parse (data : bytes) | HasBestEffort | Err | TurnOnBestEffort | Apply (now : Z) (o : mopt).
Inductive answer := Ret5 (r : M5424.ret) | Ret3 (r : M3164.ret) | Flag (b : bool) | Err5 (e : option M5424Def.perr) | Err3 (e : option M3164Def.perr) | Done | Panicked.
Definition do_call (s : smachine) (c : call) : smachine * answer :=
  match c with
  | Parse data =>
      match s with
      | M5 m => let r := M5424.parse m data in (M5 (fst r), Ret5 (snd r))
      | P5 m => let r := M5424.parser_parse m data in (P5 (fst r), Ret5 (snd r))
      | M3 m => let r := M3164.parse m data in (M3 (fst r), Ret3 (snd r))
      | P3 m => let r := M3164.parser_parse m data in (P3 (fst r), Ret3 (snd r))
      end
  | HasBestEffort => (s, Flag (match s with M5 m | P5 m => M5424.bestEffort m | M3 m | P3 m => M3164.bestEffort m end))
  | Err => (s, match s with M5 m | P5 m => Err5 (M5424Def.m_err (M5424.mv m)) | M3 m | P3 m => Err3 (M3164Def.m_err (M3164.mv m)) end)
  | TurnOnBestEffort => (with_best s, Done)
  | Apply now o => match apply_opt now o s with Some s' => (s', Done) | None => (s, Panicked) end
  end.
(* any sequence of calls; a caller may recover from the panic of an option, which happens before anything is changed *)
Fixpoint calls (s : smachine) (h : list call) : smachine * list answer :=
  match h with [] => (s, []) | c :: h => let (s1, a) := do_call s c in let (s2, r) := calls s1 h in (s2, a :: r) end.
