(* nontransparent/parser.go and nontransparent/trailer_type.go: the non-transparent framing transport (RFC 6587). *)
From Verif Require Import Bytes GotoLang Common M5424Def M5424 NonTransparentBaseDef GenNT ANT.
Local Open Scope Z_scope.

(* ---- trailer_type.go.  TrailerType is an int; LF = 0, NUL = 1 (lines 11-19) *)
Definition LF : Z := 0.
Definition NUL : Z := 1.
(* trailer_type.go:21-27 String *)
Definition tt_string (t : Z) : bytes := if (t <? LF) || (NUL <? t) then [] else if t =? LF then lit "LF" else lit "NUL".
(* trailer_type.go:30-36 Value; None: the error, with the value -1 *)
Definition tt_value (t : Z) : option Z := if (t <? LF) || (NUL <? t) then None else if t =? LF then Some 10 else Some 0.
(* byte(n) of an int 0 <= n < 256 *)
Definition mk_byte (n : N) : byte := match Byte.of_N n with Some b => b | None => x00 end.
(* strings.ToUpper.  Bytes from 128 up are left alone here; Go maps whole runes.  No rune outside ASCII has one of L, F, N, U as its
   upper case (the only ones with an ASCII upper case are U+0131, I, and U+017F, S), so the comparisons below are unaffected. *)
Definition upper (b : byte) : byte := if ((97 <=? bN b) && (bN b <=? 122))%N then mk_byte (bN b - 32)%N else b.
Definition to_upper (s : bytes) : bytes := map upper s.
(* trailer_type.go:39-56 TrailerTypeFromString; None: the error, with the value -1 *)
Definition tt_from_string (s : bytes) : option Z :=
  let u := to_upper s in
  if bseqb u (lit """LF""") then Some LF else if bseqb u (lit "'LF'") then Some LF else if bseqb u (lit "LF") then Some LF
  else if bseqb u (lit """NUL""") then Some NUL else if bseqb u (lit "'NUL'") then Some NUL else if bseqb u (lit "NUL") then Some NUL
  else None.
(* trailer_type.go:64-67 UnmarshalText, 59-61 UnmarshalTOML: the receiver afterwards, and whether there is no error *)
Definition tt_unmarshal_text (data : bytes) : Z * bool := match tt_from_string data with Some t => (t, true) | None => (-1, false) end.
Definition tt_unmarshal_toml (data : bytes) : Z * bool := tt_unmarshal_text data.
(* trailer_type.go:70-76 MarshalText; None: error *)
Definition tt_marshal_text (t : Z) : option bytes := if bseqb (tt_string t) [] then None else Some (tt_string t).

(* ---- parser.go *)
(* the generic options (/repo/options.go:4-28) and WithTrailer (parser.go:230-238).  The listener is not represented: what it
   receives is the list of results.  parser.go:222: WithMaxMessageLength does nothing. *)
Inductive nopt := NOListener | NOBestEffort | NOMaxLength (n : Z) | NOTrailer (t : Z).
Definition napply_opt (x : nvars) (o : nopt) : nvars :=
  match o with
  | NOListener | NOMaxLength _ => x
  | NOBestEffort => NVars (n_typ x) (n_trailer x) (n_cand x) true (n_internal x) (n_rderr x) (n_last x) (n_out x)
  | NOTrailer t => match tt_value t with
                   | Some v => NVars t (mk_byte (Z.to_N v)) (n_cand x) (n_best x) (n_internal x) (n_rderr x) (n_last x) (n_out x)
                   | None => x end
  end.
(* parser.go:198-219 NewParser *)
Definition nnew_parser (opts : list nopt) : nvars :=
  let x := fold_left napply_opt opts (NVars 0 x00 [] false (new_machine false false) None [] []) in
  NVars (n_typ x) (mk_byte (match tt_value (n_typ x) with Some v => Z.to_N v | None => 255%N end)) (n_cand x) (n_best x)
        (new_machine (n_best x) false) (n_rderr x) (n_last x) (n_out x).
(* parser.go:225-227 HasBestEffort *)
Definition nhas_best_effort (x : nvars) : bool := n_best x.

(* parser.go:28-169 Exec on one window, from the state cs and with p = 0; None: panic *)
Definition nexec (cs : N) (w : bytes) (x : nvars) : option (N * nvars) :=
  match exec sem_act sem_cnd codeN w (exec_fuel w) LEntry (G 0 cs 0 x) with Out cs' x' => Some (cs', x') | _ => None end.
(* parser.go:171-175 OnErr *)
Definition on_err (chunk : bytes) (e : rderr) (x : nvars) : nvars := set_n_err chunk (Some e) x.
(* parser.go:177-178 OnEOF *)
Definition on_eof (x : nvars) : nvars := x.
(* parser.go:180-195 OnCompletion *)
Definition on_completion (x : nvars) : option nvars :=
  match (if 0 <? Z.of_nat (length (n_cand x)) then process x else Some x) with
  | None => None
  | Some x => match n_rderr x with
              | Some e => if 0 <? Z.of_nat (length (n_last x)) then parse_emit (n_last x) (Some e) x else Some x
              | None => Some x end
  end.

(* ---- The driver: parser.ArbitraryReader(reader, trailer) and parser.New(r, m, parser.WithStart(1)).Parse() of
   github.com/leodido/ragel-machinery, called at parser.go:257-260.  That library is not in /repo.  Modelled: it cuts the stream after
   each trailer byte, calls Exec for each window with p = 0 and the state kept in cs (initially 1), hands the bytes after the last
   trailer to OnErr together with the reading error, and ends with OnCompletion.  What we are not sure of is a parameter of every
   theorem (driver): what happens when Exec reports an error (cs = 0), whether a stream ending right after a trailer is OnEOF or
   OnErr with no bytes, and whether Exec also runs on the bytes after the last trailer before OnErr. *)
Inductive fsm_error := Continue | Stop | StopErr.
Record driver := Driver { d_fsm_error : fsm_error; d_clean_end_is_error : bool; d_exec_tail : bool }.
(* how the reader ends: at the end of the file, or with an error *)
Inductive ending := AtEOF | Failed (code : N).
Definition reading_error (e : ending) : rderr := match e with AtEOF => RdUnexpectedEOF | Failed c => RdOther c end.

(* the windows, each ending with the trailer t, and the bytes after the last trailer *)
Fixpoint windows (t : byte) (data : bytes) : list bytes * bytes :=
  match data with
  | [] => ([], [])
  | b :: r => let '(ws, rest) := windows t r in
              if beqb b t then ([b] :: ws, rest)
              else match ws with [] => ([], b :: rest) | w :: ws' => ((b :: w) :: ws', rest) end
  end.
(* Exec for each window; the boolean: the driver stopped *)
Fixpoint exec_windows (d : driver) (cs : N) (ws : list bytes) (x : nvars) : option (N * bool * nvars) :=
  match ws with
  | [] => Some (cs, false, x)
  | w :: r => match nexec cs w x with
              | None => None
              | Some (cs', x') =>
                if (cs' =? 0)%N then match d_fsm_error d with
                                 | Continue => exec_windows d cs' r x'
                                 | Stop => Some (cs', true, x')
                                 | StopErr => Some (cs', true, on_err w RdFsm x') end
                else exec_windows d cs' r x'
              end
  end.
(* the bytes after the last trailer: Exec, if the driver does that; then OnErr or OnEOF *)
Definition exec_rest (d : driver) (cs : N) (rest : bytes) (x : nvars) : option (N * nvars) :=
  match rest with [] => Some (cs, x) | _ :: _ => if d_exec_tail d then nexec cs rest x else Some (cs, x) end.
Definition end_of_stream (d : driver) (rest : bytes) (e : ending) (x : nvars) : nvars :=
  match rest with
  | _ :: _ => on_err rest (reading_error e) x
  | [] => match e with AtEOF => if d_clean_end_is_error d then on_err [] (reading_error e) x else on_eof x
                     | Failed _ => on_err [] (reading_error e) x end
  end.
Definition drive (d : driver) (x : nvars) (data : bytes) (e : ending) : option nvars :=
  let '(ws, rest) := windows (n_trailer x) data in
  match exec_windows d 1 ws x with
  | None => None
  | Some (_, true, x) => on_completion x
  | Some (cs, false, x) => match exec_rest d cs rest x with None => None | Some (_, x) => on_completion (end_of_stream d rest e x) end
  end.
(* parser.go:257-260 Parse: the results emitted for this stream, and the parser afterwards; None: panic *)
Definition nparse_stream (d : driver) (x : nvars) (data : bytes) (e : ending) : option (list nresult * nvars) :=
  match drive d (set_n_out [] x) data e with Some y => Some (n_out y, y) | None => None end.
Definition nresults (r : option (list nresult * nvars)) : option (list nresult) := match r with Some (rs, _) => Some rs | None => None end.

Example nt_ex d : nresults (nparse_stream d (nnew_parser [NOTrailer NUL]) (lit "<1>1 - - - - - -" ++ [x00] ++ lit "<2>1 - - - - - - a" ++ ["010"%byte] ++ lit "b" ++ [x00] ++ lit "<3>1 - - - - - -") AtEOF)
  = Some [NResult (Some (Message (Some 0) (Some 1) (Some 1) None None None None None None 1 None)) None;
          NResult (Some (Message (Some 0) (Some 2) (Some 2) None None None None None (Some (lit "a" ++ ["010"%byte] ++ lit "b")) 1 None)) None;
          NResult (Some (Message (Some 0) (Some 3) (Some 3) None None None None None None 1 None)) (Some (NRead RdUnexpectedEOF))].
Proof. destruct d as [[| |] [|] [|]]; vm_compute; reflexivity. Qed.
