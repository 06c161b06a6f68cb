(* The grammar of the RFC 3164 parser, as a declarative relation between a text and the message it denotes,
   without the automaton, the actions or the specification functions of the other files.
   Shared: the types of the API result and options (M3164.message, M3164Def.config), time.Date and Time.In (Cal: date_in,
   in_loc) and the character, number, calendar and RFC3339 notions of Grammar5424. *)
From Verif Require Import Bytes GoTime Cal CommonFacts M3164Def M3164.
From Verif Require Grammar5424.
Local Open Scope Z_scope.
Notation printable := Grammar5424.printable.
Notation num := Grammar5424.num.
Notation pri_text := Grammar5424.pri_text.
Notation word := Grammar5424.word.
Notation month_length := Grammar5424.month_length.
Notation leap_year := Grammar5424.leap_year.

(* ---- TIMESTAMP ---- *)
Definition month_names : list (bytes * Z) :=
  [(lit "Jan", 1); (lit "Feb", 2); (lit "Mar", 3); (lit "Apr", 4); (lit "May", 5); (lit "Jun", 6);
   (lit "Jul", 7); (lit "Aug", 8); (lit "Sep", 9); (lit "Oct", 10); (lit "Nov", 11); (lit "Dec", 12)].
(* a day of the month: two digits without leading zero, or a space and one digit *)
Definition day_text (s : bytes) (hi v : Z) : Prop := num 2 s 10 hi v \/ exists d, s = lit " " ++ d /\ num 1 d 1 9 v.
(* "Mmm dd hh:mm:ss"; a day is accepted if it exists in that month of a leap year *)
Definition stamp_text (s : bytes) (p : stamp) : Prop :=
  exists mon dd hh mi ss,
    s = mon ++ lit " " ++ dd ++ lit " " ++ hh ++ lit ":" ++ mi ++ lit ":" ++ ss
    /\ In (mon, sp_month p) month_names /\ day_text dd (month_length (sp_month p) 0) (sp_day p)
    /\ num 2 hh 0 23 (sp_hour p) /\ num 2 mi 0 59 (sp_min p) /\ num 2 ss 0 59 (sp_sec p).
(* RFC3339 without a fraction of seconds *)
Definition rfc3339_text (s : bytes) (t : time) : Prop := Grammar5424.ts_text s t /\ ~ In "."%byte s.
(* the value of a stamp under the options: the wall clock time of year 0 in the zone of WithLocaleTimezone (UTC by
   default), moved by the years of WithYear, shown in the zone of WithTimezone if there is one *)
Definition stamp_value (c : config) (p : stamp) : time :=
  let zone := match timezone c with Some l => l | None => utc end in
  let t0 := date_in zone 0 (sp_month p) (sp_day p) (sp_hour p) (sp_min p) (sp_sec p) 0 in
  let t := date_in zone (t_year t0 + yyyy c) (t_month t0) (t_day t0) (t_hour t0) (t_min t0) (t_sec t0) (t_nsec t0) in
  match loc c with Some l => in_loc l t | None => t end.
Definition ts_field (c : config) (s : bytes) (t : time) : Prop :=
  (exists p, stamp_text s p /\ t = stamp_value c p) \/ (rfc3339 c = true /\ rfc3339_text s t).

(* ---- the message part ---- *)
Definition control (b : byte) : Prop := (bN b <= 31 \/ bN b = 127)%N.
Definition no_control (s : bytes) : Prop := Forall (fun b => ~ control b) s.
Definition tag_char (b : byte) : Prop := printable b /\ b <> ":"%byte /\ b <> "["%byte.
Definition tag_text (s : bytes) : Prop := (1 <= length s <= 32)%nat /\ Forall tag_char s.
(* m is a rest of l preceded by "]: " and starting with a character that is not a control character *)
Definition text_rest (l m : bytes) : Prop := exists a c m', l = a ++ lit "]: " ++ m /\ m = c :: m' /\ ~ control c.
(* the shortest such rest, or the whole of l *)
Definition last_text (l m : bytes) : Prop :=
  (text_rest l m /\ forall m2, text_rest l m2 -> (length m <= length m2)%nat) \/ ((forall m2, ~ text_rest l m2) /\ m = l).
(* what precedes the last closing bracket *)
Definition bracketed (r pid : bytes) : Prop :=
  (~ In "]"%byte r /\ pid = []) \/ exists u v, r = u ++ lit "]" ++ v /\ ~ In "]"%byte v /\ last_text u pid.
(* text, tag, process id, message; [] stands for an absent tag or process id *)
Inductive msg_part : bytes -> bytes -> bytes -> bytes -> Prop :=
| mp_plain s : s <> [] -> no_control s -> (forall tag r, tag_text tag -> s <> tag ++ lit ":" ++ r /\ s <> tag ++ lit "[" ++ r) -> msg_part s [] [] s
| mp_colon tag m : tag_text tag -> m <> [] -> no_control m -> msg_part (tag ++ lit ": " ++ m) tag [] m
| mp_colon_other tag r : tag_text tag -> no_control r -> (forall m, m <> [] -> r <> lit " " ++ m) -> msg_part (tag ++ lit ":" ++ r) tag [] (tag ++ lit ":" ++ r)
| mp_open tag : tag_text tag -> msg_part (tag ++ lit "[") tag [] (tag ++ lit "[")
| mp_bracket tag r pid m : tag_text tag -> r <> [] -> last_text r m -> no_control m -> bracketed r pid -> msg_part (tag ++ lit "[" ++ r) tag pid m.

(* ---- the whole message ---- *)
Definition text_value (s : bytes) : option bytes := if bseqb s (lit "-") || bseqb s [] then None else Some s.
Definition grammar (c : config) (data : bytes) (m : message) : Prop :=
  exists pri ts host tail p t tag pid text,
    data = lit "<" ++ pri ++ lit ">" ++ ts ++ lit " " ++ host ++ lit " " ++ tail
    /\ pri_text pri p /\ ts_field c ts t /\ word 255 host /\ msg_part tail tag pid text
    /\ m = Message (Some (p / 8)) (Some (p mod 8)) (Some p) (Some t) (text_value host) (text_value tag) (text_value pid) (Some text).

(* ---- rejected without an error (neither message nor error is returned) ---- *)
(* texts shaped like the timestamps, the day being any number up to 31 *)
Definition stamp_like (s : bytes) : Prop :=
  exists mon dd hh mi ss mo d h m sec,
    s = mon ++ lit " " ++ dd ++ lit " " ++ hh ++ lit ":" ++ mi ++ lit ":" ++ ss
    /\ In (mon, mo) month_names /\ day_text dd 31 d /\ num 2 hh 0 23 h /\ num 2 mi 0 59 m /\ num 2 ss 0 59 sec.
Definition rfc3339_like (s : bytes) : Prop :=
  exists yyyy mm dd hh mi ss zo y mo d h m sec off,
    s = yyyy ++ lit "-" ++ mm ++ lit "-" ++ dd ++ lit "T" ++ hh ++ lit ":" ++ mi ++ lit ":" ++ ss ++ zo
    /\ num 4 yyyy 0 9999 y /\ num 2 mm 1 12 mo /\ num 2 dd 1 31 d /\ num 2 hh 0 23 h /\ num 2 mi 0 59 m /\ num 2 ss 0 59 sec
    /\ Grammar5424.zone_text zo off.
(* a timestamp (right shape) that no space follows; with WithRFC3339, a text starting with a digit that differs from every
   RFC3339 timestamp in its first 19 characters (date and time of day); a good header and then a message part that does
   not start with a control character but is not a message part of the grammar *)
Definition silently_rejected (c : config) (data : bytes) : Prop :=
  exists pri p r, data = lit "<" ++ pri ++ lit ">" ++ r /\ pri_text pri p /\
   ((exists s r', r = s ++ r' /\ (stamp_like s \/ rfc3339 c = true /\ rfc3339_like s) /\ forall x, r' <> lit " " ++ x)
    \/ (rfc3339 c = true /\ (exists d r', r = d :: r' /\ digit d) /\ forall s, rfc3339_like s -> firstn 19 s <> firstn 19 r)
    \/ (exists ts t host b tail, r = ts ++ lit " " ++ host ++ lit " " ++ b :: tail /\ ts_field c ts t /\ word 255 host /\ ~ control b
         /\ forall tag pid text, ~ msg_part (b :: tail) tag pid text)).
