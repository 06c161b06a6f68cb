(* The RFC 5424 grammar, as a declarative relation between a text and the message it denotes.
   Written from the RFC (and the deviations documented by the project), without the automaton, the
   actions or the specification functions of the other files.
   Only the types of the API result (M5424.message, GoTime.time, GoMap) are shared. *)
From Verif Require Import Bytes GoMap GoTime CommonFacts M5424Def M5424.
Local Open Scope Z_scope.

(* ---- characters and numbers ---- *)
Definition printable (b : byte) : Prop := (33 <= bN b <= 126)%N.
Definition sdname_char (b : byte) : Prop := printable b /\ b <> """"%byte /\ b <> "="%byte /\ b <> "]"%byte.
(* n decimal digits writing the value v, which lies in lo..hi *)
Definition num (n : nat) (ds : bytes) (lo hi v : Z) : Prop :=
  length ds = n /\ Forall digit ds /\ dec ds = v /\ lo <= v <= hi.
(* a decimal number without leading zeros *)
Definition plain_number (ds : bytes) (lo hi v : Z) : Prop :=
  Forall digit ds /\ dec ds = v /\ lo <= v <= hi /\ (ds = lit "0" \/ exists d r, ds = d :: r /\ d <> "0"%byte).

(* ---- UTF-8 (RFC 3629): concatenations of encodings of Unicode scalar values ---- *)
Definition scalar (c : N) : Prop := (c < 1114112 /\ ~ (55296 <= c <= 57343))%N.
Definition byte_of (n : N) : byte := match Byte.of_N n with Some b => b | None => x00 end.
Definition encode (c : N) : bytes :=
  (if c <? 128 then [byte_of c]
   else if c <? 2048 then [byte_of (192 + c / 64); byte_of (128 + c mod 64)]
   else if c <? 65536 then [byte_of (224 + c / 4096); byte_of (128 + (c / 64) mod 64); byte_of (128 + c mod 64)]
   else [byte_of (240 + c / 262144); byte_of (128 + (c / 4096) mod 64); byte_of (128 + (c / 64) mod 64); byte_of (128 + c mod 64)])%N.
Inductive utf8 : bytes -> Prop :=
| u_nil : utf8 []
| u_cons c l : scalar c -> utf8 l -> utf8 (encode c ++ l).

(* ---- PRI, VERSION ---- *)
Definition pri_text (s : bytes) (v : Z) : Prop := plain_number s 0 191 v.
Definition version_text (s : bytes) (v : Z) : Prop := plain_number s 1 999 v.

(* ---- TIMESTAMP ---- *)
(* the Gregorian calendar: leap years, and the days of the months *)
Definition leap_year (y : Z) : bool := if y mod 400 =? 0 then true else if y mod 100 =? 0 then false else y mod 4 =? 0.
Definition month_length (mo y : Z) : Z := nth (Z.to_nat (mo - 1)) [31; if leap_year y then 29 else 28; 31; 30; 31; 30; 31; 31; 30; 31; 30; 31] 31.
Inductive frac_text : bytes -> Z -> Prop :=
| f_none : frac_text [] 0
| f_some ds : (1 <= length ds <= 6)%nat -> Forall digit ds -> frac_text ("."%byte :: ds) (dec ds * 10 ^ (9 - Z.of_nat (length ds))).
Inductive zone_text : bytes -> Z -> Prop :=
| z_utc : zone_text (lit "Z") 0
| z_plus hh mm h m : num 2 hh 0 23 h -> num 2 mm 0 59 m -> zone_text (lit "+" ++ hh ++ lit ":" ++ mm) (h * 3600 + m * 60)
| z_minus hh mm h m : num 2 hh 0 23 h -> num 2 mm 0 59 m -> zone_text (lit "-" ++ hh ++ lit ":" ++ mm) (- (h * 3600 + m * 60)).
Definition ts_text (s : bytes) (t : time) : Prop :=
  exists yyyy mo dd hh mi ss fr zo,
    s = yyyy ++ lit "-" ++ mo ++ lit "-" ++ dd ++ lit "T" ++ hh ++ lit ":" ++ mi ++ lit ":" ++ ss ++ fr ++ zo
    /\ num 4 yyyy 0 9999 (t_year t) /\ num 2 mo 1 12 (t_month t)
    /\ num 2 dd 1 (month_length (t_month t) (t_year t)) (t_day t)
    /\ num 2 hh 0 23 (t_hour t) /\ num 2 mi 0 59 (t_min t) /\ num 2 ss 0 59 (t_sec t)
    /\ frac_text fr (t_nsec t) /\ zone_text zo (t_off t).
Definition ts_field (s : bytes) (t : option time) : Prop :=
  (s = lit "-" /\ t = None) \/ exists t', t = Some t' /\ ts_text s t'.

(* ---- HOSTNAME, APP-NAME, PROCID, MSGID ---- *)
Definition word (max : nat) (w : bytes) : Prop := (1 <= length w <= max)%nat /\ Forall printable w.
(* the value of a word: the NILVALUE denotes absence *)
Definition word_value (w : bytes) : option bytes := if bseqb w (lit "-") then None else Some w.

(* ---- STRUCTURED-DATA ---- *)
Definition sdname (w : bytes) : Prop := (1 <= length w <= 32)%nat /\ Forall sdname_char w.
Definition special (c : N) : Prop := (c = 34 \/ c = 92 \/ c = 93)%N.   (* quote, backslash, closing bracket *)
(* raw text and value of a parameter *)
Inductive pval : bytes -> bytes -> Prop :=
| pv_nil : pval [] []
| pv_esc b raw v : special (bN b) -> pval raw v -> pval ("\"%byte :: b :: raw) (b :: v)
| pv_chr c raw v : scalar c -> ~ special c -> pval raw v -> pval (encode c ++ raw) (encode c ++ v).

Record param := Param { p_name : bytes; p_raw : bytes; p_value : bytes }.
Record elem := Elem { e_id : bytes; e_params : list param }.
Definition param_text (p : param) : bytes := lit " " ++ p_name p ++ lit "=""" ++ p_raw p ++ lit """".
Definition elem_text (e : elem) : bytes := lit "[" ++ e_id e ++ concat (map param_text (e_params e)) ++ lit "]".
Definition param_ok (p : param) : Prop := sdname (p_name p) /\ pval (p_raw p) (p_value p).
Definition elem_ok (e : elem) : Prop := sdname (e_id e) /\ Forall param_ok (e_params e).
(* a repeated parameter name keeps its last value *)
Definition params_map (m : gmap bytes) (ps : list param) : gmap bytes := fold_left (fun m p => mset m (p_name p) (p_value p)) ps m.
Definition elems_map (m : sdmap) (es : list elem) : sdmap := fold_left (fun m e => mset m (e_id e) (params_map [] (e_params e))) es m.
Inductive sd_field : bytes -> option sdmap -> Prop :=
| sd_none : sd_field (lit "-") None
| sd_some es : es <> [] -> Forall elem_ok es -> NoDup (map e_id es) ->
    sd_field (concat (map elem_text es)) (Some (elems_map [] es)).

(* ---- MSG ---- *)
Definition BOM : bytes := encode 65279.   (* U+FEFF *)
Definition compliant_msg (m : bytes) : Prop := forall r, m = BOM ++ r -> utf8 r.
Definition nonempty (m : bytes) : option bytes := match m with [] => None | _ => Some m end.
Inductive msg_field (cm : bool) : bytes -> option bytes -> Prop :=
| m_none : msg_field cm [] None
| m_some m : (cm = true -> compliant_msg m) -> msg_field cm (lit " " ++ m) (nonempty m).

(* ---- the whole message; cm: WithCompliantMsg ---- *)
Definition syslog_text (pri ver ts host app proc mid sd tail : bytes) : bytes :=
  lit "<" ++ pri ++ lit ">" ++ ver ++ lit " " ++ ts ++ lit " " ++ host ++ lit " " ++ app ++ lit " " ++ proc ++ lit " " ++ mid ++ lit " " ++ sd ++ tail.

Definition grammar (cm : bool) (data : bytes) (m : message) : Prop :=
  exists pri ver ts host app proc mid sd tail p v t s g,
    data = syslog_text pri ver ts host app proc mid sd tail
    /\ pri_text pri p /\ version_text ver v /\ ts_field ts t
    /\ word 255 host /\ word 48 app /\ word 128 proc /\ word 32 mid
    /\ sd_field sd s /\ msg_field cm tail g
    /\ m = Message (Some (p / 8)) (Some (p mod 8)) (Some p) t (word_value host) (word_value app) (word_value proc) (word_value mid) g v s.
