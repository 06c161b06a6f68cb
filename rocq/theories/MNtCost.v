(* nontransparent: the same program as MNT, counting the work (nt_work_results in ThmNtCost.v: forgetting the count gives
   MNT.nparse_stream).  Counted: one for every call of process, OnErr, OnEOF, OnCompletion and for every byte the driver cuts,
   one for every byte appended to the candidate (the occasional growth of its array by append is not).  Recorded: the calls of
   Exec and of Parse of the RFC 5424 machine; what these cost is counted in Steps.v. *)
From Verif Require Import Bytes GotoLang Common M5424Def M5424 NonTransparentBaseDef GenNT ANT MNT.
Local Open Scope Z_scope.

Inductive call := CExec (cs : N) (w : bytes) (x : nvars) | CParse (m : machine) (text : bytes).
Definition size (l : bytes) : Z := Z.of_nat (length l).
(* the variables of the parser, the cost and the calls so far *)
Definition Y : Type := (nvars * (Z * list call))%type.
Definition spend (n : Z) (l : list call) (y : Y) : Z * list call := (fst (snd y) + n, snd (snd y) ++ l).

(* nontransparent/parser.go:267-271, 186-193 (NonTransparentBaseDef.parse_emit) *)
Definition w_parse_emit (text : bytes) (err : option rderr) (y : Y) : option Y :=
  match parse_emit text err (fst y) with Some x' => Some (x', spend 1 [CParse (n_internal (fst y)) text] y) | None => None end.
(* nontransparent/parser.go:262-272 process *)
Definition w_process (y : Y) : option Y :=
  match strip1 (n_trailer (fst y)) (n_cand (fst y)) with Some c => w_parse_emit c None (set_n_cand c (fst y), spend 1 [] y) | None => None end.
Definition w_act (a : act) (data : bytes) (p : Z) (y : Y) : option Y :=
  match a with
  | NProcess => w_process y
  | NCandReset => Some (set_n_cand [] (fst y), snd y)
  | NCandAppend => Some (set_n_cand (n_cand (fst y) ++ data) (fst y), spend (size data) [] y)
  end.
Definition w_cnd (c : cnd) (y : Y) : bool := sem_cnd c (fst y).
(* parser.go:28-169 Exec *)
Definition w_nexec (cs : N) (w : bytes) (y : Y) : option (N * Y) :=
  match exec w_act w_cnd codeN w (exec_fuel w) LEntry (G 0 cs 0 (fst y, spend 1 [CExec cs w (fst y)] y)) with Out cs' y' => Some (cs', y') | _ => None end.
(* parser.go:171-195 OnErr, OnEOF, OnCompletion *)
Definition w_on_err (chunk : bytes) (e : rderr) (y : Y) : Y := (on_err chunk e (fst y), spend 1 [] y).
Definition w_on_eof (y : Y) : Y := (on_eof (fst y), spend 1 [] y).
Definition w_on_completion (y : Y) : option Y :=
  let y := (fst y, spend 1 [] y) in
  match (if 0 <? Z.of_nat (length (n_cand (fst y))) then w_process y else Some y) with
  | None => None
  | Some y => match n_rderr (fst y) with
              | Some e => if 0 <? Z.of_nat (length (n_last (fst y))) then w_parse_emit (n_last (fst y)) (Some e) y else Some y
              | None => Some y end
  end.
(* the driver (MNT.v) *)
Fixpoint w_exec_windows (d : driver) (cs : N) (ws : list bytes) (y : Y) : option (N * bool * Y) :=
  match ws with
  | [] => Some (cs, false, y)
  | w :: r => match w_nexec cs w y with
              | None => None
              | Some (cs', y') =>
                if (cs' =? 0)%N then match d_fsm_error d with
                                 | Continue => w_exec_windows d cs' r y'
                                 | Stop => Some (cs', true, y')
                                 | StopErr => Some (cs', true, w_on_err w RdFsm y') end
                else w_exec_windows d cs' r y'
              end
  end.
Definition w_exec_rest (d : driver) (cs : N) (rest : bytes) (y : Y) : option (N * Y) :=
  match rest with [] => Some (cs, y) | _ :: _ => if d_exec_tail d then w_nexec cs rest y else Some (cs, y) end.
Definition w_end_of_stream (d : driver) (rest : bytes) (e : ending) (y : Y) : Y :=
  match rest with
  | _ :: _ => w_on_err rest (reading_error e) y
  | [] => match e with AtEOF => if d_clean_end_is_error d then w_on_err [] (reading_error e) y else w_on_eof y
                     | Failed _ => w_on_err [] (reading_error e) y end
  end.
Definition w_drive (d : driver) (y : Y) (data : bytes) (e : ending) : option Y :=
  let '(ws, rest) := windows (n_trailer (fst y)) data in
  match w_exec_windows d 1 ws (fst y, spend (size data) [] y) with
  | None => None
  | Some (_, true, y) => w_on_completion y
  | Some (cs, false, y) => match w_exec_rest d cs rest y with None => None | Some (_, y) => w_on_completion (w_end_of_stream d rest e y) end
  end.
(* parser.go:257-260 Parse: the results, the parser afterwards, the cost and the calls *)
Definition w_nparse_stream (d : driver) (x : nvars) (data : bytes) (e : ending) : option (list nresult * nvars * Z * list call) :=
  match w_drive d (set_n_out [] x, (0, [])) data e with Some (y, (c, l)) => Some (n_out y, y, c, l) | None => None end.
