(* What a syslog.Machine is supposed to answer: the options in force, and nothing else, decide. *)
From Verif Require Import Bytes GoTime Cal Common MApi.
From Verif Require M5424Def M5424 M3164Def M3164.
Local Open Scope Z_scope.

(* which options may be applied to what; NewParser applies its options to a machine *)
Definition applies (k : kind) (o : mopt) : bool :=
  match o, k with
  | (WithBestEffort5424 | WithBestEffort3164), _ => true
  | WithCompliantMsg, KMachine5424 => true
  | WithYear YNil, _ => false
  | (WithYear _ | WithTimezone _ | WithLocaleTimezone _ | WithRFC3339), KMachine3164 => true
  | _, _ => false
  end.
Definition machine_of (k : kind) : kind := match k with KMachine5424 | KParser5424 => KMachine5424 | KMachine3164 | KParser3164 => KMachine3164 end.

(* the options that took effect in the calls h *)
Definition in_force (k : kind) (h : list call) : list (Z * mopt) :=
  flat_map (fun c => match c with Apply now o => if applies k o then [(now, o)] else [] | TurnOnBestEffort => [(0, WithBestEffort5424)] | _ => [] end) h.

(* what options ask for *)
Definition wants_best (os : list (Z * mopt)) : bool := existsb (fun x => match snd x with WithBestEffort5424 | WithBestEffort3164 => true | _ => false end) os.
Definition wants_compliant (os : list (Z * mopt)) : bool := existsb (fun x => match snd x with WithCompliantMsg => true | _ => false end) os.
Definition wants_rfc3339 (os : list (Z * mopt)) : bool := existsb (fun x => match snd x with WithRFC3339 => true | _ => false end) os.
(* the last option of a sort decides; f x: what the option x asks for, if it is of that sort *)
Fixpoint last_of {A} (f : Z * mopt -> option A) (os : list (Z * mopt)) (d : A) : A :=
  match os with [] => d | x :: r => last_of f r (match f x with Some a => a | None => d end) end.
(* the year: that of the clock when the option was applied, for CurrentYear *)
Definition year_asked (x : Z * mopt) : option Z :=
  match snd x with WithYear (Year y) => Some y | WithYear CurrentYear => Some (fst x) | WithYear (YOther y) => Some y | _ => None end.
Definition zone_asked (x : Z * mopt) : option (option location) := match snd x with WithTimezone l => Some l | _ => None end.
Definition locale_asked (x : Z * mopt) : option (option location) := match snd x with WithLocaleTimezone l => Some l | _ => None end.
Definition wants_config (os : list (Z * mopt)) : M3164Def.config :=
  M3164Def.Config (last_of year_asked os 0) (wants_rfc3339 os) (last_of zone_asked os None) (last_of locale_asked os None).

(* Parse answers like a machine just made with the options in force *)
Definition parse_answer (k : kind) (os : list (Z * mopt)) (data : bytes) : answer :=
  match k with
  | KMachine5424 => Ret5 (snd (M5424.parse (M5424.new_machine (wants_best os) (wants_compliant os)) data))
  | KParser5424 => Ret5 (snd (M5424.parser_parse (M5424.new_machine (wants_best os) (wants_compliant os)) data))
  | KMachine3164 => Ret3 (snd (M3164.parse (M3164.new_machine (wants_best os) (wants_config os)) data))
  | KParser3164 => Ret3 (snd (M3164.parser_parse (M3164.new_machine (wants_best os) (wants_config os)) data))
  end.
(* the error in an answer of Parse, as Err returns it *)
Definition error_of (a : answer) : answer := match a with Ret5 (M5424.Ret _ e) => Err5 e | Ret3 (M3164.Ret _ e) => Err3 e | _ => Panicked end.
Definition no_error (k : kind) : answer := match k with KMachine5424 | KParser5424 => Err5 None | _ => Err3 None end.
Definition is_parse (c : call) : bool := match c with Parse _ => true | _ => false end.
(* the answer to the call c after the calls h *)
Definition answer_after (s : smachine) (h : list call) (c : call) : answer := snd (do_call (fst (calls s h)) c).
