(* nontransparent: a listener that uses the parser that is calling it.  The listener runs inside Parse (parser.go:268-271 and 189-192 call
   m.emit); it may apply options to the parser and call Parse on it with another reader.  MNT.v with the listener's doings at each call.
   Simplification: what the listener does is fixed in advance for each of its calls (the theorems range over all such scripts). *)
From Verif Require Import Bytes GotoLang Common M5424Def M5424 MNT MLater NonTransparentBaseDef GenNT ANT.
Local Open Scope Z_scope.

(* the n-th element: what the listener does in its n-th call, counted over all streams in the order of the calls; afterwards it only listens *)
Definition nscript := list (list nevent).
Definition rx := (nvars * nscript)%type.
Section Listener.
Variable stream : rx -> bytes -> ending -> option rx.   (* Parse called by the listener *)
Fixpoint nre_events (evs : list nevent) (xs : rx) : option rx :=
  match evs with
  | [] => Some xs
  | NApply o :: evs' => nre_events evs' (napply_opt (fst xs) o, snd xs)
  | NStream data e :: evs' => match stream xs data e with Some ys => nre_events evs' ys | None => None end
  end.
(* the listener is handed a result (already in n_out) *)
Definition nre_called (xs : rx) : option rx := match snd xs with [] => Some xs | evs :: sc => nre_events evs (fst xs, sc) end.
(* nontransparent/parser.go:262-272 process ends with a call of the listener *)
Definition nre_process (xs : rx) : option rx := match process (fst xs) with Some y => nre_called (y, snd xs) | None => None end.
Definition nre_act (a : act) (data : bytes) (p : Z) (xs : rx) : option rx :=
  match a with
  | NProcess => nre_process xs
  | _ => match sem_act a data p (fst xs) with Some y => Some (y, snd xs) | None => None end end.
Definition nre_cnd (c : cnd) (xs : rx) : bool := sem_cnd c (fst xs).
(* parser.go:28-169 Exec *)
Definition nre_exec (cs : N) (w : bytes) (xs : rx) : option (N * rx) :=
  match exec nre_act nre_cnd codeN w (exec_fuel w) LEntry (G 0 cs 0 xs) with Out cs' ys => Some (cs', ys) | _ => None end.
(* parser.go:180-195 OnCompletion *)
Definition nre_completion (xs : rx) : option rx :=
  match (if 0 <? Z.of_nat (length (n_cand (fst xs))) then nre_process xs else Some xs) with
  | None => None
  | Some (x, sc) => match n_rderr x with
                    | Some e => if 0 <? Z.of_nat (length (n_last x)) then match parse_emit (n_last x) (Some e) x with Some y => nre_called (y, sc) | None => None end
                                else Some (x, sc)
                    | None => Some (x, sc) end
  end.
(* the driver, as in MNT.v *)
Fixpoint nre_windows (d : driver) (cs : N) (ws : list bytes) (xs : rx) : option (N * bool * rx) :=
  match ws with
  | [] => Some (cs, false, xs)
  | w :: r => match nre_exec cs w xs with
              | None => None
              | Some (cs', ys) =>
                if (cs' =? 0)%N then match d_fsm_error d with
                                 | Continue => nre_windows d cs' r ys
                                 | Stop => Some (cs', true, ys)
                                 | StopErr => Some (cs', true, (on_err w RdFsm (fst ys), snd ys)) end
                else nre_windows d cs' r ys
              end
  end.
Definition nre_rest (d : driver) (cs : N) (rest : bytes) (xs : rx) : option (N * rx) :=
  match rest with [] => Some (cs, xs) | _ :: _ => if d_exec_tail d then nre_exec cs rest xs else Some (cs, xs) end.
Definition nre_drive (d : driver) (xs : rx) (data : bytes) (e : ending) : option rx :=
  let '(ws, rest) := windows (n_trailer (fst xs)) data in
  match nre_windows d 1 ws xs with
  | None => None
  | Some (_, true, ys) => nre_completion ys
  | Some (cs, false, ys) => match nre_rest d cs rest ys with None => None | Some (_, zs) => nre_completion (end_of_stream d rest e (fst zs), snd zs) end
  end.
End Listener.
(* parser.go:257-260 Parse; the fuel bounds the depth of the calls *)
Fixpoint nre_stream (fuel : nat) (d : driver) (xs : rx) (data : bytes) (e : ending) : option rx :=
  match fuel with O => None | S f => nre_drive (nre_stream f d) d xs data e end.
(* the results the listener is handed while Parse runs, in order; and the parser afterwards *)
Definition nre_parse (d : driver) (sc : nscript) (x : nvars) (data : bytes) (e : ending) : option (list nresult * nvars) :=
  match nre_stream (S (length sc)) d (set_n_out [] x, sc) data e with Some (y, _) => Some (n_out y, y) | None => None end.
