(* C16: an RFC 3164 parser shared by several goroutines. *)
From Verif Require Import Bytes GotoLang Common M3164Def Gen3164 A3164 M3164 Ref3164 Thm3164 Conc.
Local Open Scope Z_scope.

(* rfc3164/machine.go:29-41: pb, err and the options are fields of the machine; output, t, e are local variables of the call *)
Definition merge3164 (sh lo : vars) : vars := Vars (m_pb sh) (m_err sh) (m_cfg sh) (m_out lo) (m_t lo) (m_tval lo).
(* rfc3164/machine.go:7254-7262 and parser.go:36-44: what parser.Parse returns *)
Definition finish3164 (best : bool) (cs : N) (x : vars) : ret :=
  let r := if ((cs <? 333) || (cs =? 373))%N then (if best && minimal (m_out x) then Ret (Some (export (m_out x))) (m_err x) else Ret None (m_err x))
           else Ret (Some (export (m_out x))) None in
  match r with Ret m (Some e) => if best then Ret m (Some e) else Ret None (Some e) | r => r end.

Definition config3164 := config (A := act) (C := cnd) (X := vars) (R := ret).
(* goroutines using the machine m, goroutine i for the inputs work i *)
Definition goroutines (m : machine) (work : nat -> list bytes) : config3164 := start_config [] 0 0 (mv m) work.
Definition run3164 (m : machine) (locking : bool) (sched : list nat) (c : config3164) : option config3164 :=
  crun sem_act sem_cnd code3164 merge3164 prepare (finish3164 (bestEffort m)) locking sched c.
(* what goroutine i's finished calls returned *)
Definition returned (c : config3164) (i : nat) : list ret := t_done (c_th c i).
Definition panicked (c : config3164) (i : nat) : Prop := t_pc (c_th c i) = PPanic.

Lemma sequential3164 m x input : m_cfg x = config_of m ->
  exists f cs y, exec sem_act sem_cnd code3164 input f LEntry (G 0 1 0 (prepare x)) = Out cs y /\ m_cfg y = config_of m
    /\ finish3164 (bestEffort m) cs y = snd (parser_parse m input).
Proof.
  intros Hx. set (m' := Machine x (bestEffort m)).
  assert (E : snd (parser_parse m input) = snd (parser_parse m' input)).
  { unfold parser_parse. pose proof (parse3164_independent m m' input eq_refl (eq_sym Hx)) as H. cbn [bestEffort m'].
    destruct (parse m input) as [a r], (parse m' input) as [b r']. cbn [snd] in H. subst r'. destruct r as [r [e|]| |]; reflexivity. }
  rewrite E. destruct (parser3164_total m' input) as [r [e Ht]]. pose proof (proj2 (proj2 (parse_spec m' input))) as Hc.
  revert Ht Hc. unfold parser_parse, parse. change (mv m') with x. change (bestEffort m') with (bestEffort m).
  destruct (exec sem_act sem_cnd code3164 input (exec_fuel input) LEntry (G 0 1 0 (prepare x))) as [cs y| |] eqn:Ex; cbn [fst snd]; try discriminate.
  intros _ Hc. exists (exec_fuel input), cs, y. split; [exact Ex|]. split; [rewrite <- Hx; exact Hc|]. unfold finish3164.
  destruct ((cs <? 333) || (cs =? 373))%N; [|reflexivity].
  destruct (bestEffort m); cbn [andb]; [destruct (minimal (m_out y))|]; destruct (m_err y); reflexivity.
Qed.

(* C16: under every schedule, every call returns what a private parser would return, and none panics *)
Theorem shared3164 m work sched c : run3164 m true sched (goroutines m work) = Some c ->
  forall i, returned c i = map (fun input => snd (parser_parse m input)) (firstn (length (returned c i)) (work i)) /\ ~ panicked c i.
Proof.
  intros H i.
  refine (shared_results sem_act sem_cnd code3164 merge3164 prepare (finish3164 (bestEffort m)) (fun x => m_cfg x = config_of m)
    (fun input => snd (parser_parse m input)) _ _ _ _ _ _ _ _ _ _ H i).
  - intros x. destruct x. reflexivity.
  - intros x input. apply sequential3164.
  - reflexivity.
Qed.
(* and from every point all calls of a goroutine can still be completed: no deadlock *)
Theorem shared3164_completes m work sched c : run3164 m true sched (goroutines m work) = Some c ->
  forall i, exists sched' c', run3164 m true (sched ++ sched') (goroutines m work) = Some c' /\ returned c' i = map (fun input => snd (parser_parse m input)) (work i).
Proof.
  intros H i.
  refine (shared_completes sem_act sem_cnd code3164 merge3164 prepare (finish3164 (bestEffort m)) (fun x => m_cfg x = config_of m)
    (fun input => snd (parser_parse m input)) _ _ _ _ _ _ _ _ _ _ H i).
  - intros x. destruct x. reflexivity.
  - intros x input. apply sequential3164.
  - reflexivity.
Qed.

Definition in_a : bytes := lit "<1>Oct 11 22:14:15 h a: x".
Definition in_b : bytes := lit "<2>Oct 12 22:14:15 h b: y".
Definition work_ab (i : nat) : list bytes := match i with 0%nat => [in_a] | 1%nat => [in_b] | _ => [] end.
Definition returns (m : machine) (locking : bool) (sched : list nat) (i : nat) : option (list ret) :=
  option_map (fun c => returned c i) (run3164 m locking sched (goroutines m work_ab)).
(* the hypotheses are met: a goroutine makes its call while the other waits for the mutex, then the other makes its own *)
Example shared3164_ex : let m := new_machine false plain in
  returns m true ([0; 0; 0] ++ [1])%nat 1 = None
  /\ returns m true (repeat 0 289 ++ repeat 1 291)%nat 0 = Some [snd (parser_parse m in_a)]
  /\ returns m true (repeat 0 289 ++ repeat 1 291)%nat 1 = Some [snd (parser_parse m in_b)].
Proof. cbv zeta. split; [|split]; vm_compute; reflexivity. Qed.
(* without the mutex (a machine from NewMachine shared by goroutines) a call can return the other goroutine's message *)
Theorem machine3164_not_shareable_refuted : let m := new_machine false plain in
  returns m false ([0; 0; 1; 1] ++ repeat 0 289)%nat 0 = Some [snd (parser_parse m in_b)] /\ snd (parser_parse m in_b) <> snd (parser_parse m in_a).
Proof. cbv zeta. split; vm_compute; [reflexivity|discriminate]. Qed.
