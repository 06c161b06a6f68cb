(* Every way in which an RFC 5424 text can be rejected, as a declarative relation: which byte is the offending one,
   which error is reported there, and which message best effort mode returns next to it.
   Written, like Grammar5424, without the automaton, its actions or the specification functions. *)
From Verif Require Import Bytes GoMap GoTime CommonFacts M5424Def M5424 BuilderBaseDef Grammar5424.
Local Open Scope Z_scope.

Definition col (l : bytes) : Z := Z.of_nat (length l).
(* the next byte, if there is one, is not among those satisfying P *)
Definition next_not (P : byte -> Prop) (rest : bytes) : Prop := forall b r, rest = b :: r -> ~ P b.
(* w is the longest prefix of w ++ rest of at most max bytes satisfying P *)
Definition longest (P : byte -> Prop) (max : nat) (w rest : bytes) : Prop :=
  Forall P w /\ (length w <= max)%nat /\ (length w = max \/ next_not P rest).

(* ---- texts that cannot be continued ---- *)
(* part is a proper beginning (possibly empty) of the encoding of a character, but no character begins with part and the next byte *)
Definition stuck_char (part rest : bytes) : Prop :=
  (exists c x, scalar c /\ x <> [] /\ encode c = part ++ x) /\ part ++ rest <> []
  /\ forall b r c y, rest = b :: r -> scalar c -> encode c <> part ++ b :: y.
(* the form of a timestamp; the day may be too large for its month *)
Definition ts_form (s : bytes) : Prop :=
  exists yyyy mo dd hh mi ss fr zo vy vmo vd vh vmi vs ns off,
    s = yyyy ++ lit "-" ++ mo ++ lit "-" ++ dd ++ lit "T" ++ hh ++ lit ":" ++ mi ++ lit ":" ++ ss ++ fr ++ zo
    /\ num 4 yyyy 0 9999 vy /\ num 2 mo 1 12 vmo /\ num 2 dd 1 31 vd
    /\ num 2 hh 0 23 vh /\ num 2 mi 0 59 vmi /\ num 2 ss 0 59 vs /\ frac_text fr ns /\ zone_text zo off.
(* part is a proper beginning (possibly empty) of a timestamp, but no timestamp begins with part and the next byte *)
Definition stuck_ts (part rest : bytes) : Prop :=
  (exists x, x <> [] /\ ts_form (part ++ x)) /\ forall b r y, rest = b :: r -> ~ ts_form (part ++ b :: y).

(* ---- the fields before STRUCTURED-DATA that were read, and the message so far ---- *)
Definition start (p v : Z) : message := Message (Some (p / 8)) (Some (p mod 8)) (Some p) None None None None None None v None.
(* HOSTNAME, APP-NAME, PROCID, MSGID: 0 .. 3 *)
Definition word_max (i : nat) : nat := nth i [255; 48; 128; 32]%nat 0%nat.
Definition word_error (i : nat) : ekind := nth i [EHostname; EAppname; EProcID; EMsgID] EParse.
Definition set_field (i : nat) (v : option bytes) : message -> message := nth i [set_hostname v; set_appname v; set_procID v; set_msgID v] (fun m => m).
(* header pre m n: pre is everything up to and including the space after VERSION (n = 0), TIMESTAMP (n = 1), HOSTNAME (n = 2) ... MSGID (n = 5) *)
Inductive header : bytes -> message -> nat -> Prop :=
| h_version pri p ver v : pri_text pri p -> version_text ver v -> header (lit "<" ++ pri ++ lit ">" ++ ver ++ lit " ") (start p v) 0
| h_ts pre m ts t : header pre m 0 -> ts_field ts t -> header (pre ++ ts ++ lit " ") (set_timestamp t m) 1
| h_word i pre m w : (i < 4)%nat -> header pre m (1 + i) -> word (word_max i) w -> header (pre ++ w ++ lit " ") (set_field i (word_value w) m) (2 + i).

(* ---- inside STRUCTURED-DATA ---- *)
Definition elems_text (es : list elem) : bytes := concat (map elem_text es).
Definition params_text (ps : list param) : bytes := concat (map param_text ps).
Definition elems_ok (es : list elem) : Prop := Forall elem_ok es /\ NoDup (map e_id es).
Definition sd_value (es : list elem) : option sdmap := match es with [] => None | _ => Some (elems_map [] es) end.
(* the parameters without the name of the last one *)
Definition drop_last_name (ps : list param) (m : gmap bytes) : gmap bytes :=
  match rev ps with [] => m | p :: _ => mdel m (p_name p) end.

(* after "[", an SD-ID, the parameters ps and a space: good was read, bad is the rest; map: the parameters kept *)
Inductive param_fails (ps : list param) : bytes -> bytes -> gmap bytes -> ekind -> Prop :=
(* no name, or no '=' after it: the previous parameter is lost as well *)
| pf_name nm bad : longest sdname_char 32 nm bad -> nm = [] \/ next_not (eq "="%byte) bad ->
    param_fails ps nm bad (drop_last_name ps (params_map [] ps)) ESdParam
(* no quote after '=': an earlier value of that name is lost *)
| pf_quote nm bad : sdname nm -> next_not (eq """"%byte) bad ->
    param_fails ps (nm ++ lit "=") bad (mdel (params_map [] ps) nm) ESdParam
(* in the value: a ']' that is not escaped, or the end of the input, or a byte that begins no character *)
| pf_value nm raw v bad : sdname nm -> pval raw v -> (bad = [] \/ (exists r, bad = "]"%byte :: r) \/ stuck_char [] bad) ->
    param_fails ps (nm ++ lit "=""" ++ raw) bad (params_map [] ps) EEscape
(* a backslash before a byte that needs none *)
| pf_escape nm raw v bad : sdname nm -> pval raw v -> next_not (fun b => special (bN b)) bad ->
    param_fails ps (nm ++ lit "=""" ++ raw ++ lit "\") bad (params_map [] ps) EEscape
(* a character that is broken off: an earlier value of that name is lost *)
| pf_utf8 nm raw v part bad : sdname nm -> pval raw v -> part <> [] -> stuck_char part bad ->
    param_fails ps (nm ++ lit "=""" ++ raw ++ part) bad (mdel (params_map [] ps) nm) ESdParam
(* the value is closed, but neither ' ' nor ']' follows: the value is lost *)
| pf_end nm raw v bad : sdname nm -> pval raw v -> next_not (fun b => b = " "%byte \/ b = "]"%byte) bad ->
    param_fails ps (nm ++ lit "=""" ++ raw ++ lit """") bad (mdel (params_map [] ps) nm) ESdParam.

Inductive sd_fails : bytes -> bytes -> option sdmap -> ekind -> Prop :=
(* neither '-' nor '[' *)
| sf_start bad : next_not (fun b => b = "-"%byte \/ b = "["%byte) bad -> sd_fails [] bad None EStructuredData
(* '-' is followed by something else than ' ' *)
| sf_nil b r : b <> " "%byte -> sd_fails (lit "-") (b :: r) None EParse
(* after an element there is neither ' ' nor '[' *)
| sf_after es b r : es <> [] -> elems_ok es -> b <> " "%byte -> b <> "["%byte ->
    sd_fails (elems_text es) (b :: r) (sd_value es) EStructuredData
(* "[" without an SD-ID: the previous element is lost *)
| sf_no_id es bad : elems_ok es -> next_not sdname_char bad ->
    sd_fails (elems_text es ++ lit "[") bad (sd_value (removelast es)) ESdID
(* an SD-ID that occurred before *)
| sf_dup es id bad : elems_ok es -> longest sdname_char 32 id bad -> In id (map e_id es) ->
    sd_fails (elems_text es ++ lit "[" ++ id) bad (sd_value es) ESdIDDuplicated
(* an SD-ID followed by neither ' ' nor ']' *)
| sf_id es id bad : elems_ok es -> sdname id -> longest sdname_char 32 id bad -> ~ In id (map e_id es) -> next_not (fun b => b = " "%byte \/ b = "]"%byte) bad ->
    sd_fails (elems_text es ++ lit "[" ++ id) bad (sd_value es) ESdID
(* in the parameters of an element *)
| sf_param es id ps good bad map k : elems_ok es -> sdname id -> ~ In id (List.map e_id es) -> Forall param_ok ps -> param_fails ps good bad map k ->
    sd_fails (elems_text es ++ lit "[" ++ id ++ params_text ps ++ lit " " ++ good) bad (Some (mset (elems_map [] es) id map)) k.

(* ---- the whole text ---- *)
(* fails cm data x e: data is rejected with the error e; x is the message of best effort mode, if there is one *)
Inductive fails (cm : bool) : bytes -> option message -> perr -> Prop :=
(* no '<' *)
| fl_pri bad : next_not (eq "<"%byte) bad -> fails cm bad None (PErr EPri 0)
(* the longest PRIVAL is empty or not followed by '>' *)
| fl_prival w bad : (w = [] \/ ((exists v, pri_text w v) /\ next_not (eq ">"%byte) bad)) -> next_not (fun b => exists v, pri_text (w ++ [b]) v) bad ->
    fails cm (lit "<" ++ w ++ bad) None (PErr EPrival (1 + col w))
(* no version *)
| fl_no_version pri p bad : pri_text pri p -> next_not (fun b => digit b /\ b <> "0"%byte) bad ->
    fails cm (lit "<" ++ pri ++ lit ">" ++ bad) None (PErr EVersion (col (lit "<" ++ pri ++ lit ">")))
(* no ' ' after the version.  At the end of the input the last digit of a version of two or three digits is not yet recorded *)
| fl_version pri p ver v bad : pri_text pri p -> version_text ver v -> longest digit 3 ver bad -> next_not (eq " "%byte) bad ->
    fails cm (lit "<" ++ pri ++ lit ">" ++ ver ++ bad)
      (Some (start p (match bad, ver with [], _ :: _ :: _ => v / 10 | _, _ => v end)))
      (PErr (match ver with _ :: _ :: _ => EVersion | _ => EParse end) (col (lit "<" ++ pri ++ lit ">" ++ ver)))
(* a timestamp that is broken off *)
| fl_ts pre m part bad : header pre m 0 -> stuck_ts part bad -> part <> [] \/ next_not (eq "-"%byte) bad ->
    fails cm (pre ++ part ++ bad) (Some m) (PErr ETimestamp (col (pre ++ part)))
(* a timestamp that denotes no day of the calendar *)
| fl_date pre m s bad : header pre m 0 -> ts_form s -> (forall t, ~ ts_text s t) ->
    fails cm (pre ++ s ++ bad) (Some m) (PTime s (col (pre ++ s)))
(* no ' ' after the timestamp *)
| fl_ts_end pre m s t bad : header pre m 0 -> ts_field s t -> next_not (eq " "%byte) bad ->
    fails cm (pre ++ s ++ bad) (Some (set_timestamp t m)) (PErr EParse (col (pre ++ s)))
(* HOSTNAME ... MSGID: empty, or not followed by ' ' *)
| fl_word i pre m w bad : (i < 4)%nat -> header pre m (1 + i) -> longest printable (word_max i) w bad -> w = [] \/ next_not (eq " "%byte) bad ->
    fails cm (pre ++ w ++ bad) (Some m) (PErr (word_error i) (col (pre ++ w)))
| fl_sd pre m good bad sd k : header pre m 5 -> sd_fails good bad sd k ->
    fails cm (pre ++ good ++ bad) (Some (set_structuredData sd m)) (PErr k (col (pre ++ good)))
(* WithCompliantMsg: after a byte order mark, u is UTF-8, and then a character is broken off *)
| fl_msg pre m sd s u part bad : cm = true -> header pre m 5 -> sd_field sd s -> utf8 u -> stuck_char part bad ->
    fails cm (pre ++ sd ++ lit " " ++ BOM ++ u ++ part ++ bad) (Some (set_msg (Some (BOM ++ u ++ part)) (set_structuredData s m)))
      (PErr EMsgNotCompliant (col (pre ++ sd ++ lit " " ++ BOM ++ u ++ part))).
