(* rfc5424/builder.go: builders used by several goroutines, one statement at a time.  BConc.v takes a call of set as one step; here each
   leaf statement, test or jump of set (the goto program of GenBuilder.v) is a step of its own, and reads the package variables currentid
   and currentparamname (builder.go:64-65) as they are at that moment. *)
From Coq Require Import FMapPositive.
From Verif Require Import Bytes GoMap Common GotoLang M5424Def M5424 BuilderBaseDef ABuilder MBuilder.
Local Open Scope Z_scope.

Notation bcode := (code act cnd).
Notation bgst := (@gst bvars).
(* what is done when set returns: nothing more, or the next statement of SetParameter (rfc5424/builder.go:9321-9344) *)
Inductive after := APlain | AId (id name v : bytes) | AName (id name v : bytes) | AVal.
(* where a goroutine is; it has one message of its own *)
Inductive spc :=
| SIdle (m : message)                                                              (* before the next call *)
| SSet (a : after) (data : bytes) (s : bgst) (ks : list bcode) (nx : option label)  (* inside set; ks, nx: the statements left; the message is b_sm (g_x s) *)
| SCid (id name v : bytes) (m : message)                                           (* about to execute currentid = id *)
| SPname (id name v : bytes) (m : message)                                         (* about to execute currentparamname = name *)
| SPanic.
Record sthread := SThread { st_pc : spc; st_todo : list call }.

(* rfc5424/builder.go:67-75 set: the locals at the beginning (data, p, pb, cs, ... are variables of the call) *)
Definition enter (a : after) (e : entrypoint) (m : message) (value : bytes) : spc :=
  SSet a value (G 0 (translate e) 0 (BVars 0 [] m [] [] None [] [] false [])) [] (Some LEntry).
(* the variables a statement sees: its locals, and the package variables as they are now *)
Definition seen (g : globals) (s : bgst) : bgst :=
  G (g_p s) (g_cs s) (g_w s) (set_b_cid (currentid g) (set_b_cpn (currentparamname g) (g_x s))).
(* one statement, as Conc.stmt; None: panic *)
Definition sstmt (data : bytes) (s : bgst) (k : bcode) (ks : list bcode) (nx : option label) : option (bgst * list bcode * option label) :=
  match k with
  | KNil => Some (s, ks, nx)
  | KAct a k => match sem_act a data (g_p s) (g_x s) with Some x => Some (G (g_p s) (g_cs s) (g_w s) x, k :: ks, nx) | None => None end
  | KIf q th el k => match eval sem_cnd data q s with None => None | Some b => Some (s, (if b then th else el) :: k :: ks, nx) end
  | KBlk b k => Some (s, b :: k :: ks, nx)
  | KGoto l _ => Some (s, [], Some l)
  | KInc k => Some (G (g_p s + 1) (g_cs s) (g_w s) (g_x s), k :: ks, nx)
  | KDec k => Some (G (g_p s - 1) (g_cs s) (g_w s) (g_x s), k :: ks, nx)
  | KCs n k => Some (G (g_p s) n (g_w s) (g_x s), k :: ks, nx)
  | KWide n k => match znth data (g_p s) with Some b => Some (G (g_p s) (g_cs s) (n + bN b) (g_x s), k :: ks, nx) | None => None end
  | KWideAdd n k => Some (G (g_p s) (g_cs s) (g_w s + n) (g_x s), k :: ks, nx)
  end.
(* set returns; then the tests of SetParameter on the own message *)
Definition sreturn (a : after) (m : message) : spc :=
  match a with
  | APlain | AVal => SIdle m
  | AId id name v => match mget (sd_read (structuredData m)) id with None => SIdle m | Some _ => SCid id name v m end
  | AName id name v => match mget (match mget (sd_read (structuredData m)) id with Some e => e | None => [] end) name with
                       | None => SIdle m
                       | Some _ => SPname id name v m end
  end.
(* rfc5424/builder.go:9266-9349: the beginning of a call.  SetPriority and SetVersion only touch the own message. *)
Definition sbegin (c : call) (m : message) : spc :=
  match c with
  | SetPriority v => SIdle (if valid_priority v then compute_from_priority v m else m)
  | SetVersion v => SIdle (if valid_version v then set_version v m else m)
  | SetTimestamp v => enter APlain EpTimestamp m v
  | SetHostname v => enter APlain EpHostname m v
  | SetAppname v => enter APlain EpAppname m v
  | SetProcID v => enter APlain EpProcid m v
  | SetMsgID v => enter APlain EpMsgid m v
  | SetElementID v => enter APlain EpSdid m v
  | SetParameter id name v => enter (AId id name v) EpSdid m id
  | SetMessage v => enter APlain EpMsg m v
  end.
(* a step of a goroutine; None: it is finished, or has panicked *)
Definition sstep (g : globals) (t : sthread) : option (globals * sthread) :=
  match st_pc t with
  | SIdle m => match st_todo t with [] => None | c :: r => Some (g, SThread (sbegin c m) r) end
  | SSet a data s [] None => Some (g, SThread (sreturn a (b_sm (g_x s))) (st_todo t))
  | SSet a data s [] (Some l) => Some (g, SThread (match PositiveMap.find (key l) codeB with
                                                   | Some (k, nx) => SSet a data s [k] nx
                                                   | None => SPanic end) (st_todo t))
  | SSet a data s (k :: ks) nx => Some (g, SThread (match sstmt data (seen g s) k ks nx with
                                                    | Some (s', ks', nx') => SSet a data s' ks' nx'
                                                    | None => SPanic end) (st_todo t))
  | SCid id name v m => Some (Globals id (currentparamname g), SThread (enter (AName id name v) EpSdpn m name) (st_todo t))
  | SPname id name v m => Some (Globals (currentid g) name, SThread (enter AVal EpSdpv m v) (st_todo t))
  | SPanic => None
  end.
(* the package variables and all goroutines *)
Definition sconfig := (globals * (nat -> sthread))%type.
Definition sput (f : nat -> sthread) (i : nat) (t : sthread) : nat -> sthread := fun j => if Nat.eqb j i then t else f j.
Definition cfg_step (i : nat) (c : sconfig) : option sconfig :=
  match sstep (fst c) (snd c i) with Some (g', t') => Some (g', sput (snd c) i t') | None => None end.
(* a schedule: which goroutine makes the next step *)
Fixpoint srun (sched : list nat) (c : sconfig) : option sconfig :=
  match sched with [] => Some c | i :: r => match cfg_step i c with Some c' => srun r c' | None => None end end.
(* goroutine i makes the calls css i on the message ms i *)
Definition sstart (g : globals) (ms : nat -> message) (css : nat -> list call) : sconfig := (g, fun i => SThread (SIdle (ms i)) (css i)).

(* between the write of currentid and the end of SetParameter *)
Definition in_param (t : sthread) : bool :=
  match st_pc t with SCid _ _ _ _ | SPname _ _ _ _ | SSet (AName _ _ _) _ _ _ _ | SSet AVal _ _ _ _ => true | _ => false end.
(* at every point of the run at most one goroutine is there *)
Fixpoint one_at_a_time (sched : list nat) (c : sconfig) : Prop :=
  (forall i j, in_param (snd c i) = true -> in_param (snd c j) = true -> i = j)
  /\ match sched with [] => True | i :: r => match cfg_step i c with Some c' => one_at_a_time r c' | None => True end end.
