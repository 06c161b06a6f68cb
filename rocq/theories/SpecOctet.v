(* What an octet counted stream is, independently of the parser.  A stream is what its reader delivers: bytes, and
   points where reading failed (Bufio.item); after its end reading fails for ever. *)
From Verif Require Import Bytes CommonFacts M5424Def M5424 Bufio MOctet.
Local Open Scope Z_scope.

(* the answer of a fresh RFC 5424 machine, created with or without the best effort option, for one message *)
Definition answer (best : bool) (data : bytes) : option message * option perr :=
  match snd (parse (new_machine best false) data) with Ret r e => (r, e) | _ => (None, None) end.
Definition answer_result (best : bool) (data : bytes) : result :=
  Result (fst (answer best data)) (option_map EMachine (snd (answer best data))).

(* a frame: the length in decimal, a space, that many bytes starting with '<'.  RFC 5425 has nothing between the length and
   the space; the code tolerates one NUL byte or one read error there (f_gap). *)
Record frame := Frame { f_len : bytes; f_gap : list item; f_msg : bytes }.
Definition frame_items (f : frame) : list item := map IByte (f_len f) ++ f_gap f ++ IByte " " :: map IByte (f_msg f).
Definition frame_ok (max : Z) (f : frame) : Prop :=
  f_len f <> [] /\ Forall digit (f_len f) /\ dec (f_len f) = Z.of_nat (length (f_msg f)) /\ dec (f_len f) <= max
  /\ (exists t, f_msg f = "<"%byte :: t) /\ (f_gap f = [] \/ f_gap f = [IByte x00] \/ f_gap f = [IErr]).
Definition frames_items (fs : list frame) : list item := concat (map frame_items fs).

(* LEN SP MSG as in RFC 5425, no gap *)
Definition frame_text (f : frame) : bytes := f_len f ++ " "%byte :: f_msg f.

(* the end of the stream, a read error or a NUL byte *)
Definition at_end (l : list item) : Prop := l = [] \/ exists r, l = IErr :: r \/ l = IByte x00 :: r.

(* a message cut short by the end of the stream or a read error: ds announces more bytes than the bytes t that are left *)
Definition truncated (max : Z) (l : list item) (ds t : bytes) : Prop :=
  ds <> [] /\ Forall digit ds /\ Z.of_nat (length t) < dec ds <= max /\ (exists t', t = "<"%byte :: t')
  /\ exists gap rest, l = map IByte ds ++ gap ++ IByte " " :: map IByte t ++ rest
       /\ (gap = [] \/ gap = [IByte x00] \/ gap = [IErr]) /\ (rest = [] \/ exists r, rest = IErr :: r).
(* best effort parses the bytes there are, strict mode does not *)
Definition truncated_result (best : bool) (ds t : bytes) : result :=
  let e := EAfter (Token EOF t) (dec ds) in
  if best then Result (fst (answer true t)) (Some (match snd (answer true t) with Some x => EMachine x | None => e end)) else Result None (Some e).

(* ---- streams that are no frame and no truncated frame ---- *)
(* the bytes that continue a length field: the code takes '/' for a digit there *)
Definition len_char (b : byte) : Prop := digit b \/ b = "/"%byte.
(* l starts with the length field w, as long as possible, and rest is where the parser goes on: one NUL byte or one
   read error after the field is skipped *)
Definition length_field (l : list item) (w : bytes) (rest : list item) : Prop :=
  (exists d w', w = d :: w' /\ digit d /\ Forall len_char w') /\
  (l = map IByte w ++ rest /\ (rest = [] \/ exists b r, rest = IByte b :: r /\ ~ len_char b /\ b <> x00)
   \/ l = map IByte w ++ IByte x00 :: rest \/ l = map IByte w ++ IErr :: rest).
(* the uint64 a length field stands for: its decimal value, at most 2^64 - 1; 0 if there is a '/' in it, unless the digits
   before the '/' are already too large *)
Definition announces (w : bytes) (n : Z) : Prop :=
  (Forall digit w /\ n = Z.min (dec w) (2 ^ 64 - 1))
  \/ exists d r, w = d ++ "/"%byte :: r /\ Forall digit d /\ n = (if dec d <? 2 ^ 64 then 0 else 2 ^ 64 - 1).
(* the same number as a Go int *)
Definition int_of (n : Z) : Z := if n <? 2 ^ 63 then n else n - 2 ^ 64.
(* the token at the start of l, where no message may start *)
Inductive found : list item -> token -> Prop :=
| fd_end l : at_end l -> found l (Token EOF [])
| fd_space r : found (IByte " " :: r) (Token WS [" "%byte])
| fd_length l w rest : length_field l w rest -> found l (Token MSGLEN w)
| fd_other b r : b <> x00 -> b <> " "%byte -> ~ digit b -> found (IByte b :: r) (Token ILLEGAL [b]).
(* after the space the token must be a message of n bytes: here it is not.  n' is the length mentioned in the error *)
Inductive no_message (n : Z) : list item -> token -> Z -> Prop :=
| nm_zero r : n = 0 -> no_message n (IByte "<" :: r) (Token ILLEGAL ["<"%byte]) n
| nm_huge r : 2 ^ 63 <= n -> no_message n (IByte "<" :: r) (Token EOF []) n
| nm_length l w rest n' : length_field l w rest -> announces w n' -> no_message n l (Token MSGLEN w) n'
| nm_other l t : found l t -> typ t <> MSGLEN -> (forall r, l <> IByte "<" :: r) -> no_message n l t n.
(* best effort tries to parse a token shorter than announced; it does not start with '<', so that fails *)
Definition no_message_error (best : bool) (t : token) (n : Z) : oerr :=
  if best && (Z.of_nat (length (tlit t)) <? int_of n) then EMachine (PErr EPri 0) else EAfter t n.
(* malformed max best l e: l is neither a frame nor a truncated frame, and e is the error *)
Inductive malformed (max : Z) (best : bool) : list item -> oerr -> Prop :=
| ml_no_length l t : found l t -> typ t <> MSGLEN -> malformed max best l (EFound t MSGLEN)
| ml_too_long l w rest n : length_field l w rest -> announces w n -> max < int_of n -> malformed max best l (ETooLong n max)
| ml_no_space l w rest n t : length_field l w rest -> announces w n -> int_of n <= max -> found rest t -> typ t <> WS -> malformed max best l (EFound t WS)
| ml_no_message l w rest n t n' : length_field l w (IByte " " :: rest) -> announces w n -> int_of n <= max -> no_message n rest t n' ->
    malformed max best l (no_message_error best t n').

(* what is emitted for the frames, and for what follows the last of them *)
Inductive outcome (max : Z) (best : bool) : bool -> list item -> list result -> Prop :=
| out_frame first f rest rs : frame_ok max f -> (best = true \/ snd (answer best (f_msg f)) = None) ->
    outcome max best false rest rs -> outcome max best first (frame_items f ++ rest) (answer_result best (f_msg f) :: rs)
| out_bad_message first f rest e : frame_ok max f -> best = false -> snd (answer best (f_msg f)) = Some e ->
    outcome max best first (frame_items f ++ rest) [Result None (Some (EMachine e))]
| out_end l : at_end l -> outcome max best false l []
| out_truncated first l ds t : truncated max l ds t -> outcome max best first l [truncated_result best ds t]
| out_malformed first l e : malformed max best l e -> (first = true \/ ~ at_end l) -> outcome max best first l [Result None (Some e)].

(* readers: no error before the last read, fewer than a hundred empty reads in a row *)
Definition well_behaved (rd : reader) : Prop :=
  (forall pre c e post, rd = pre ++ (c, Some e) :: post -> post = [])
  /\ (forall pre mid post, rd = pre ++ mid ++ post -> Forall (fun x => x = ([], None)) mid -> (length mid < 100)%nat).
Definition content (rd : reader) : bytes := concat (map fst rd).

(* a parser after any streams *)
Fixpoint after_streams (p : oparser) (rds : list reader) : oparser :=
  match rds with [] => p | rd :: r => match parse_stream p rd with Some (_, p') => after_streams p' r | None => p end end.
(* the options given to NewParser *)
Definition opts_best (opts : list popt) : bool := existsb (fun o => match o with OBestEffort => true | _ => false end) opts.
Definition opts_max (opts : list popt) : Z := fold_left (fun m o => match o with OMaxLength n => n | _ => m end) opts 8192.
(* the results emitted for a stream by a parser that was used for other streams before *)
Definition emitted (opts : list popt) (before : list reader) (rd : reader) : option (list result) :=
  results (parse_stream (after_streams (new_parser opts) before) rd).
