(* Every way in which an RFC 3164 text can be rejected, as a declarative relation: the error (None: none is reported) with
   its column, and the message best effort mode returns.
   Written, like Grammar3164, without the automaton, its actions or the specification functions. *)
From Verif Require Import Bytes GoTime Cal CommonFacts M3164Def M3164 Grammar3164.
From Verif Require Fail5424.
Local Open Scope Z_scope.
Notation col := Fail5424.col.
Notation next_not := Fail5424.next_not.
Notation longest := Fail5424.longest.

(* part is a proper beginning (possibly empty) of a text satisfying P, but no such text begins with part and the next byte *)
Definition stuck (P : bytes -> Prop) (part rest : bytes) : Prop :=
  (exists x, x <> [] /\ P (part ++ x)) /\ forall b r y, rest = b :: r -> ~ P (part ++ b :: y).
(* a message with a priority only *)
Definition start (p : Z) : message := Message (Some (p / 8)) (Some (p mod 8)) (Some p) None None None None None.
Definition with_ts (t : time) (m : message) : message := Message (facility m) (severity m) (priority m) (Some t) (hostname m) (appname m) (procID m) (msg m).
Definition with_host (h : bytes) (m : message) : message := Message (facility m) (severity m) (priority m) (timestamp m) (text_value h) (appname m) (procID m) (msg m).
Definition with_tag (tag pid : bytes) (m : message) : message := Message (facility m) (severity m) (priority m) (timestamp m) (hostname m) (text_value tag) (text_value pid) (msg m).

(* the timestamp: good was read, bad is the rest; the column is that of the end of good *)
Inductive ts_fails (c : config) : bytes -> bytes -> option ekind -> Prop :=
(* a stamp that is broken off *)
| tf_stamp part bad : stuck stamp_like part bad -> ~ (rfc3339 c = true /\ part = [] /\ exists d r, bad = d :: r /\ digit d) -> ts_fails c part bad (Some ETimestamp)
(* WithRFC3339: an RFC3339 timestamp that is broken off.  An error is reported only after the time of day (19 characters) *)
| tf_rfc3339 part bad : rfc3339 c = true -> part <> [] -> stuck rfc3339_like part bad -> ts_fails c part bad (if (19 <=? length part)%nat then Some ERFC3339 else None)
(* no space after the timestamp: no error is reported *)
| tf_end s bad : stamp_like s \/ rfc3339 c = true /\ rfc3339_like s -> next_not (eq " "%byte) bad -> ts_fails c s bad None.

(* the message part; tag and pid are what is kept of it ([]: nothing).  No error is reported *)
Inductive msg_fails : bytes -> bytes -> bytes -> Prop :=
(* a control character, and no tag *)
| mf_plain b s : ~ control b -> ~ no_control s -> (forall tag r, tag_text tag -> b :: s <> tag ++ lit ":" ++ r /\ b :: s <> tag ++ lit "[" ++ r) -> msg_fails (b :: s) [] []
(* a control character after "tag:" *)
| mf_colon tag r : tag_text tag -> ~ no_control r -> msg_fails (tag ++ lit ":" ++ r) tag []
(* a control character in what would be the message after "tag[" *)
| mf_bracket tag r pid m : tag_text tag -> last_text r m -> ~ no_control m -> bracketed r pid -> msg_fails (tag ++ lit "[" ++ r) tag pid.

(* fails c data x e: data is rejected; e is the error, if one is reported, and x the message of best effort mode, if there is one *)
Inductive fails (c : config) : bytes -> option message -> option perr -> Prop :=
(* no '<' *)
| fl_pri bad : next_not (eq "<"%byte) bad -> fails c bad None (Some (PErr EPri 0))
(* no PRIVAL *)
| fl_no_prival bad : next_not (fun b => exists v, pri_text [b] v) bad -> fails c (lit "<" ++ bad) None (Some (PErr EPrival 1))
(* the longest PRIVAL is not followed by '>'.  At the end of the input its last digit is not yet recorded *)
| fl_prival w v bad : pri_text w v -> next_not (fun b => exists v', pri_text (w ++ [b]) v') bad -> next_not (eq ">"%byte) bad ->
    fails c (lit "<" ++ w ++ bad) (match bad, w with [], [_] => None | [], _ => Some (start (v / 10)) | _, _ => Some (start v) end) (Some (PErr EPrival (1 + col w)))
| fl_ts pri p good bad k : pri_text pri p -> ts_fails c good bad k ->
    fails c (lit "<" ++ pri ++ lit ">" ++ good ++ bad) (Some (start p)) (option_map (fun k => PErr k (col (lit "<" ++ pri ++ lit ">" ++ good))) k)
(* a timestamp, followed by a space, that denotes no day of the calendar *)
| fl_date pri p s bad : pri_text pri p -> stamp_like s \/ rfc3339 c = true /\ rfc3339_like s -> (forall t, ~ ts_field c s t) ->
    fails c (lit "<" ++ pri ++ lit ">" ++ s ++ lit " " ++ bad) (Some (start p)) (Some (PTime s (col (lit "<" ++ pri ++ lit ">" ++ s))))
(* HOSTNAME is empty or not followed by ' ' *)
| fl_host pri p ts t w bad : pri_text pri p -> ts_field c ts t -> longest printable 255 w bad -> w = [] \/ next_not (eq " "%byte) bad ->
    fails c (lit "<" ++ pri ++ lit ">" ++ ts ++ lit " " ++ w ++ bad) (Some (with_ts t (start p)))
      (Some (PErr EHostname (col (lit "<" ++ pri ++ lit ">" ++ ts ++ lit " " ++ w))))
(* the message part is empty or starts with a control character *)
| fl_tag pri p ts t host bad : pri_text pri p -> ts_field c ts t -> word 255 host -> next_not (fun b => ~ control b) bad ->
    fails c (lit "<" ++ pri ++ lit ">" ++ ts ++ lit " " ++ host ++ lit " " ++ bad) (Some (with_host host (with_ts t (start p))))
      (Some (PErr ETag (col (lit "<" ++ pri ++ lit ">" ++ ts ++ lit " " ++ host ++ lit " "))))
| fl_msg pri p ts t host tail tag pid : pri_text pri p -> ts_field c ts t -> word 255 host -> msg_fails tail tag pid ->
    fails c (lit "<" ++ pri ++ lit ">" ++ ts ++ lit " " ++ host ++ lit " " ++ tail) (Some (with_tag tag pid (with_host host (with_ts t (start p))))) None.
