(* nontransparent: panics of foreign code.  The listener and the reader are the user's; either may panic (or call runtime.Goexit) when it
   is called.  Parse then ends, and the parser keeps the fields it had at that moment.  MNT.v with a record of the parser at each call of
   the listener (the result it is handed is already in n_out). *)
From Verif Require Import Bytes GotoLang Common M5424Def M5424 MNT NonTransparentBaseDef GenNT ANT.
Local Open Scope Z_scope.

(* nontransparent/parser.go:262-272 process calls the listener once *)
Definition lsem_act (a : act) (data : bytes) (p : Z) (xl : nvars * list nvars) : option (nvars * list nvars) :=
  match sem_act a data p (fst xl) with
  | None => None
  | Some y => Some (y, match a with NProcess => snd xl ++ [y] | _ => snd xl end) end.
Definition lsem_cnd (c : cnd) (xl : nvars * list nvars) : bool := sem_cnd c (fst xl).
(* parser.go:28-169 Exec on one window: MNT.nexec, and the parser at each call of the listener *)
Definition lexec (cs : N) (w : bytes) (x : nvars) : option (N * nvars * list nvars) :=
  match exec lsem_act lsem_cnd codeN w (exec_fuel w) LEntry (G 0 cs 0 (x, [])) with Out cs' (x', l) => Some (cs', x', l) | _ => None end.
(* parser.go:180-195 OnCompletion *)
Definition lon_completion (x : nvars) : option (nvars * list nvars) :=
  match (if 0 <? Z.of_nat (length (n_cand x)) then match process x with Some y => Some (y, [y]) | None => None end else Some (x, [])) with
  | None => None
  | Some (x, l) => match n_rderr x with
              | Some e => if 0 <? Z.of_nat (length (n_last x)) then match parse_emit (n_last x) (Some e) x with Some y => Some (y, l ++ [y]) | None => None end
                          else Some (x, l)
              | None => Some (x, l) end
  end.
(* the driver, as in MNT.v *)
Fixpoint lexec_windows (d : driver) (cs : N) (ws : list bytes) (x : nvars) : option (N * bool * nvars * list nvars) :=
  match ws with
  | [] => Some (cs, false, x, [])
  | w :: r => match lexec cs w x with
              | None => None
              | Some (cs', x', l) =>
                let go := match lexec_windows d cs' r x' with Some (c, s, y, l') => Some (c, s, y, l ++ l') | None => None end in
                if (cs' =? 0)%N then match d_fsm_error d with
                                 | Continue => go
                                 | Stop => Some (cs', true, x', l)
                                 | StopErr => Some (cs', true, on_err w RdFsm x', l) end
                else go
              end
  end.
Definition lexec_rest (d : driver) (cs : N) (rest : bytes) (x : nvars) : option (N * nvars * list nvars) :=
  match rest with [] => Some (cs, x, []) | _ :: _ => if d_exec_tail d then lexec cs rest x else Some (cs, x, []) end.
Definition lcomplete (l : list nvars) (x : nvars) : option (nvars * list nvars) :=
  match lon_completion x with Some (y, l') => Some (y, l ++ l') | None => None end.
Definition ldrive (d : driver) (x : nvars) (data : bytes) (e : ending) : option (nvars * list nvars) :=
  let '(ws, rest) := windows (n_trailer x) data in
  match lexec_windows d 1 ws x with
  | None => None
  | Some (_, true, x, l) => lcomplete l x
  | Some (cs, false, x, l) => match lexec_rest d cs rest x with None => None | Some (_, x, l') => lcomplete (l ++ l') (end_of_stream d rest e x) end
  end.
(* parser.go:257-260 Parse: the parser at each call of the listener, in order, and afterwards *)
Definition lparse_stream (d : driver) (x : nvars) (data : bytes) (e : ending) : option (nvars * list nvars) := ldrive d (set_n_out [] x) data e.
(* the parser when the listener panics at its k-th call (from 0) during Parse *)
Definition listener_panics (d : driver) (x : nvars) (data : bytes) (e : ending) (k : nat) : option nvars :=
  match lparse_stream d x data e with Some (_, l) => nth_error l k | None => None end.
(* the parser when the reader panics after it has given the bytes data: Exec has run on each window that ends with a trailer, the bytes
   after the last trailer are in the buffer of the driver, and neither OnErr, OnEOF nor OnCompletion has been called *)
Definition reader_panics (d : driver) (x : nvars) (data : bytes) : option nvars :=
  match exec_windows d 1 (fst (windows (n_trailer x) data)) (set_n_out [] x) with Some (_, _, y) => Some y | None => None end.

(* what becomes of a stream; the parser afterwards (x itself if Parse does not get that far) *)
Inductive nfate := NFinished | NListenerPanics (k : nat) | NReaderPanics.
Definition nsurvive (d : driver) (x : nvars) (data : bytes) (e : ending) (f : nfate) : nvars :=
  match (match f with
         | NFinished => match nparse_stream d x data e with Some (_, y) => Some y | None => None end
         | NListenerPanics k => listener_panics d x data e k
         | NReaderPanics => reader_panics d x data end) with Some y => y | None => x end.
Fixpoint nlives (d : driver) (x : nvars) (h : list (bytes * ending * nfate)) : nvars :=
  match h with [] => x | (data, e, f) :: h => nlives d (nsurvive d x data e f) h end.

(* forgetting the record gives the program of MNT *)
Lemma texec_fst {L} data (t : tree act cnd L) : forall p x l (nx : L -> nvars -> outcome nvars) (lnx : L -> nvars * list nvars -> outcome (nvars * list nvars)),
  (forall s x l, match lnx s (x, l) with Out c (y, _) => nx s x = Out c y | Panic => nx s x = Panic | NoFuel => nx s x = NoFuel end) ->
  match texec lsem_act lsem_cnd data t p (x, l) lnx with
  | Out c (y, _) => texec sem_act sem_cnd data t p x nx = Out c y
  | Panic => texec sem_act sem_cnd data t p x nx = Panic
  | NoFuel => texec sem_act sem_cnd data t p x nx = NoFuel end.
Proof.
  induction t as [s|c|a t IH|c t IHt e IHe|]; intros p x l nx lnx H; cbn [texec].
  - apply H.
  - reflexivity.
  - unfold lsem_act. cbn [fst snd]. destruct (sem_act a data p x) as [y|]; [|reflexivity]. apply IH. exact H.
  - unfold lsem_cnd. cbn [fst]. destruct (sem_cnd c x); [apply IHt|apply IHe]; exact H.
  - reflexivity.
Qed.
Lemma arun_fst data w : forall s p x l,
  match arun lsem_act lsem_cnd ndelta nedelta data s p w (x, l) with
  | Out c (y, _) => arun sem_act sem_cnd ndelta nedelta data s p w x = Out c y
  | Panic => arun sem_act sem_cnd ndelta nedelta data s p w x = Panic
  | NoFuel => arun sem_act sem_cnd ndelta nedelta data s p w x = NoFuel end.
Proof.
  induction w as [|b w IH]; intros s p x l; cbn [arun]; apply texec_fst; [reflexivity|]. intros s' x' l'. apply IH.
Qed.
Lemma lexec_run s w x : lexec (nnum s) w x = match arun lsem_act lsem_cnd ndelta nedelta w s 0 w (x, []) with Out cs (y, l) => Some (cs, y, l) | _ => None end.
Proof. unfold lexec. rewrite (exec_arun lsem_act lsem_cnd codeN nnum nok ndelta nedelta simN w s (x, []) 0 (entryN s)). reflexivity. Qed.
Lemma lexec_fst s w x : nexec (nnum s) w x = match lexec (nnum s) w x with Some (c, y, _) => Some (c, y) | None => None end.
Proof.
  rewrite lexec_run. unfold nexec. rewrite exec_runN. pose proof (arun_fst w w s 0 x []) as H.
  destruct (arun lsem_act lsem_cnd ndelta nedelta w s 0 w (x, [])) as [c [y l]| |]; rewrite H; reflexivity.
Qed.
Lemma arun_state data w : forall s p x c y, arun sem_act sem_cnd ndelta nedelta data s p w x = Out c y -> exists s', c = nnum s'.
Proof.
  assert (T : forall (t : tree act cnd nst) p x (nx : nst -> nvars -> outcome nvars) c y, (forall s x, nx s x = Out c y -> exists s', c = nnum s') ->
            (fix outs (t : tree act cnd nst) : Prop := match t with TOut n => exists s', n = nnum s' | TAct _ t => outs t | TIf _ a b => outs a /\ outs b | _ => True end) t ->
            texec sem_act sem_cnd data t p x nx = Out c y -> exists s', c = nnum s').
  { induction t as [s|n|a t IH|q t IHt e IHe|]; intros p x nx c y Hn Ho; cbn [texec].
    - apply Hn.
    - intros E. injection E as <- _. exact Ho.
    - destruct (sem_act a data p x); [|discriminate]. apply IH; assumption.
    - destruct Ho as [H1 H2]. destruct (sem_cnd q x); [apply IHt|apply IHe]; assumption.
    - discriminate. }
  induction w as [|b w IH]; intros s p x c y; cbn [arun]; apply T.
  - discriminate.
  - cbn. exists s. reflexivity.
  - intros s' x'. apply IH.
  - assert (I : forall n, (fix outs (t : tree act cnd nst) : Prop := match t with TOut n => exists s', n = nnum s' | TAct _ t => outs t | TIf _ a b => outs a /\ outs b | _ => True end) (ninside n)).
    { intros n. unfold ninside. destruct (n =? 10)%N; [cbn; auto|]. destruct (n =? 0)%N; cbn; auto. }
    destruct s; cbn [ndelta]; [exists N0; reflexivity| |apply I|]; destruct (bN b =? 60)%N; [cbn; auto|exists N0; reflexivity|cbn; auto|apply I].
Qed.
Lemma nexec_state s w x c y : nexec (nnum s) w x = Some (c, y) -> exists s', c = nnum s'.
Proof.
  unfold nexec. rewrite exec_runN. destruct (arun sem_act sem_cnd ndelta nedelta w s 0 w x) as [c' y'| |] eqn:E; try discriminate.
  intros H. injection H as <- <-. eapply arun_state. exact E.
Qed.
Lemma lexec_windows_fst d ws : forall s x, exec_windows d (nnum s) ws x = match lexec_windows d (nnum s) ws x with Some (c, b, y, _) => Some (c, b, y) | None => None end
  /\ forall c b y, exec_windows d (nnum s) ws x = Some (c, b, y) -> exists s', c = nnum s'.
Proof.
  induction ws as [|w ws IH]; intros s x; cbn [exec_windows lexec_windows].
  - split; [reflexivity|]. intros c b y E. injection E as <- _ _. exists s. reflexivity.
  - pose proof (lexec_fst s w x) as E. destruct (lexec (nnum s) w x) as [[[c y] l]|]; rewrite E; [|split; [reflexivity|discriminate]]. cbv zeta.
    destruct (nexec_state s w x c y E) as [s' ->]. destruct (IH s' y) as [I1 I2].
    assert (R : exec_windows d (nnum s') ws y = match (match lexec_windows d (nnum s') ws y with Some (c, b, z, l') => Some (c, b, z, l ++ l') | None => None end) with Some (c, b, z, _) => Some (c, b, z) | None => None end).
    { rewrite I1. destruct (lexec_windows d (nnum s') ws y) as [[[[? ?] ?] ?]|]; reflexivity. }
    destruct (nnum s' =? 0)%N; [|split; [exact R|exact I2]].
    destruct (d_fsm_error d); [split; [exact R|exact I2]| |]; (split; [reflexivity|]); intros c b z Ez; injection Ez as <- _ _; exists s'; reflexivity.
Qed.
Lemma lon_completion_fst x : on_completion x = match lon_completion x with Some (y, _) => Some y | None => None end.
Proof.
  unfold on_completion, lon_completion.
  assert (G : forall z l, match n_rderr z with Some e => if 0 <? Z.of_nat (length (n_last z)) then parse_emit (n_last z) (Some e) z else Some z | None => Some z end
    = match (match n_rderr z with Some e => if 0 <? Z.of_nat (length (n_last z)) then match parse_emit (n_last z) (Some e) z with Some y => Some (y, l ++ [y]) | None => None end else Some (z, l) | None => Some (z, l) end) with Some (y, _) => Some y | None => None end).
  { intros z l. destruct (n_rderr z); [|reflexivity]. destruct (0 <? Z.of_nat (length (n_last z))); [|reflexivity]. destruct (parse_emit _ _ z); reflexivity. }
  destruct (0 <? Z.of_nat (length (n_cand x))); [destruct (process x) as [y|]; [|reflexivity]|]; apply G.
Qed.
Theorem lparse_stream_results d x data e :
  nparse_stream d x data e = match lparse_stream d x data e with Some (y, _) => Some (n_out y, y) | None => None end.
Proof.
  unfold nparse_stream, lparse_stream, drive, ldrive. destruct (windows (n_trailer (set_n_out [] x)) data) as [ws rest].
  change 1%N with (nnum N1). destruct (lexec_windows_fst d ws N1 (set_n_out [] x)) as [I1 I2].
  destruct (lexec_windows d (nnum N1) ws (set_n_out [] x)) as [[[[c b] y] l]|]; rewrite I1; [|reflexivity]. destruct (I2 _ _ _ I1) as [s ->].
  assert (C : forall z l, match on_completion z with Some y => Some (n_out y, y) | None => None end = match lcomplete l z with Some (y, _) => Some (n_out y, y) | None => None end).
  { intros z l0. unfold lcomplete. rewrite lon_completion_fst. destruct (lon_completion z) as [[? ?]|]; reflexivity. }
  destruct b; [apply C|].
  assert (R : exec_rest d (nnum s) rest y = match lexec_rest d (nnum s) rest y with Some (c, z, _) => Some (c, z) | None => None end).
  { unfold exec_rest, lexec_rest. destruct rest; [reflexivity|]. destruct (d_exec_tail d); [apply lexec_fst|reflexivity]. }
  rewrite R. destruct (lexec_rest d (nnum s) rest y) as [[[c z] l']|]; [|reflexivity]. apply C.
Qed.
