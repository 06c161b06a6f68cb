(* C16: an RFC 5424 parser shared by several goroutines. *)
From Verif Require Import Bytes GotoLang Common M5424Def Gen5424 A5424 M5424 Ref5424c Props5424 Thm5424 Conc.
Local Open Scope Z_scope.

(* rfc5424/machine.go:57-69: pb, err, currentelem, currentparam, msgat, backslashat, compliantMsg are fields of the machine; output, t, e, ok, id,
   text are local variables of the call *)
Definition merge5424 (sh lo : vars) : vars :=
  Vars (m_pb sh) (m_err sh) (m_currentelem sh) (m_currentparam sh) (m_msgat sh) (m_backslashat sh) (m_compliantMsg sh) (m_out lo) (m_t lo) (m_tval lo) (m_ok lo) (m_id lo) (m_text lo).
(* rfc5424/machine.go:12037-12045 and parser.go:36-44: what parser.Parse returns *)
Definition finish5424 (best : bool) (cs : N) (x : vars) : ret :=
  let r := if ((cs <? 603) || (cs =? 614))%N then (if best && minimal (m_out x) then Ret (Some (export (m_out x))) (m_err x) else Ret None (m_err x))
           else Ret (Some (export (m_out x))) None in
  match r with Ret m (Some e) => if best then Ret m (Some e) else Ret None (Some e) | r => r end.

Definition config5424 := config (A := act) (C := cnd) (X := vars) (R := ret).
(* goroutines using the machine m, goroutine i for the inputs work i *)
Definition goroutines (m : machine) (work : nat -> list bytes) : config5424 := start_config [] 0 0 (mv m) work.
Definition run5424 (m : machine) (locking : bool) (sched : list nat) (c : config5424) : option config5424 :=
  crun sem_act sem_cnd code5424 merge5424 prepare (finish5424 (bestEffort m)) locking sched c.
(* what goroutine i's finished calls returned *)
Definition returned (c : config5424) (i : nat) : list ret := t_done (c_th c i).
Definition panicked (c : config5424) (i : nat) : Prop := t_pc (c_th c i) = PPanic.

Lemma sequential5424 m x input : m_compliantMsg x = compliant m ->
  exists f cs y, exec sem_act sem_cnd code5424 input f LEntry (G 0 1 0 (prepare x)) = Out cs y /\ m_compliantMsg y = compliant m
    /\ finish5424 (bestEffort m) cs y = snd (parser_parse m input).
Proof.
  intros Hx. set (m' := Machine x (bestEffort m)).
  assert (E : snd (parser_parse m input) = snd (parser_parse m' input)).
  { unfold parser_parse. pose proof (parse_independent m m' input eq_refl (eq_sym Hx)) as H. cbn [bestEffort m'].
    destruct (parse m input) as [a r], (parse m' input) as [b r']. cbn [snd] in H. subst r'. destruct r as [r [e|]| |]; reflexivity. }
  rewrite E. destruct (parser_parse_total m' input) as [r [e Ht]]. pose proof (proj2 (proj2 (parse_spec m' input))) as Hc.
  revert Ht Hc. unfold parser_parse, parse. change (mv m') with x. change (bestEffort m') with (bestEffort m).
  destruct (exec sem_act sem_cnd code5424 input (exec_fuel input) LEntry (G 0 1 0 (prepare x))) as [cs y| |] eqn:Ex; cbn [fst snd]; try discriminate.
  intros _ Hc. exists (exec_fuel input), cs, y. split; [exact Ex|]. split; [rewrite <- Hx; exact Hc|]. unfold finish5424.
  destruct ((cs <? 603) || (cs =? 614))%N; [|reflexivity].
  destruct (bestEffort m); cbn [andb]; [destruct (minimal (m_out y))|]; destruct (m_err y); reflexivity.
Qed.

(* C16: under every schedule, every call returns what a private parser would return, and none panics *)
Theorem shared5424 m work sched c : run5424 m true sched (goroutines m work) = Some c ->
  forall i, returned c i = map (fun input => snd (parser_parse m input)) (firstn (length (returned c i)) (work i)) /\ ~ panicked c i.
Proof.
  intros H i.
  refine (shared_results sem_act sem_cnd code5424 merge5424 prepare (finish5424 (bestEffort m)) (fun x => m_compliantMsg x = compliant m)
    (fun input => snd (parser_parse m input)) _ _ _ _ _ _ _ _ _ _ H i).
  - intros x. destruct x. reflexivity.
  - intros x input. apply sequential5424.
  - reflexivity.
Qed.
(* and from every point all calls of a goroutine can still be completed: no deadlock *)
Theorem shared5424_completes m work sched c : run5424 m true sched (goroutines m work) = Some c ->
  forall i, exists sched' c', run5424 m true (sched ++ sched') (goroutines m work) = Some c' /\ returned c' i = map (fun input => snd (parser_parse m input)) (work i).
Proof.
  intros H i.
  refine (shared_completes sem_act sem_cnd code5424 merge5424 prepare (finish5424 (bestEffort m)) (fun x => m_compliantMsg x = compliant m)
    (fun input => snd (parser_parse m input)) _ _ _ _ _ _ _ _ _ _ H i).
  - intros x. destruct x. reflexivity.
  - intros x input. apply sequential5424.
  - reflexivity.
Qed.

Definition in_a : bytes := lit "<1>1 - - - - - - a".
Definition in_b : bytes := lit "<2>1 - h - - - - b".
Definition work_ab (i : nat) : list bytes := match i with 0%nat => [in_a] | 1%nat => [in_b] | _ => [] end.
(* the hypotheses are met: a goroutine makes its call while the other waits for the mutex, then the other makes its own *)
Definition returns (m : machine) (locking : bool) (sched : list nat) (i : nat) : option (list ret) :=
  option_map (fun c => returned c i) (run5424 m locking sched (goroutines m work_ab)).
Example shared5424_ex : let m := new_machine false false in
  returns m true ([0; 0; 0] ++ [1])%nat 1 = None
  /\ returns m true (repeat 0 221 ++ repeat 1 223)%nat 0 = Some [Ret (Some (Message (Some 0) (Some 1) (Some 1) None None None None None (Some (lit "a")) 1 None)) None]
  /\ returns m true (repeat 0 221 ++ repeat 1 223)%nat 1 = Some [Ret (Some (Message (Some 0) (Some 2) (Some 2) None (Some (lit "h")) None None None (Some (lit "b")) 1 None)) None].
Proof. cbv zeta. split; [|split]; vm_compute; reflexivity. Qed.
(* without the mutex (a machine from NewMachine shared by goroutines) a call can return the other goroutine's message *)
Theorem machine5424_not_shareable_refuted : let m := new_machine false false in
  returns m false ([0; 0; 1; 1] ++ repeat 0 221)%nat 0 = Some [snd (parser_parse m in_b)] /\ snd (parser_parse m in_b) <> snd (parser_parse m in_a).
Proof. cbv zeta. split; vm_compute; [reflexivity|discriminate]. Qed.
