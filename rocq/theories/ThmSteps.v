(* C71: a Parse, a setter of the builder, and the handling of one block of a stream by the non-transparent machine execute a
   number of statements that is at most proportional to the number of bytes.  "executes P n R": the program P, started where
   the Go function starts it, ends with R after n statements, tests and jumps (Steps.v: no fuel, no bound in that relation). *)
From Coq Require Import FMapPositive.
From Verif Require Import Bytes GotoLang Common.
From Verif Require Import Steps.
From Verif Require M5424Def Gen5424 A5424 M5424 Thm5424 M3164Def Gen3164 A3164 M3164 Thm3164 BuilderBaseDef GenBuilder ABuilder MBuilder RefBuilder ThmBuilder
  NonTransparentBaseDef GenNT ANT MNT SpecNT.

Lemma deep5424 : deepest A5424.code5424 619.
Proof. apply deepest_check. vm_compute. reflexivity. Qed.
Lemma deep3164 : deepest A3164.code3164 378.
Proof. apply deepest_check. vm_compute. reflexivity. Qed.
Lemma deepB : deepest ABuilder.codeB 588.
Proof. apply deepest_check. vm_compute. reflexivity. Qed.
Lemma deepN : deepest ANT.codeN 16.
Proof. apply deepest_check. vm_compute. reflexivity. Qed.

(* rfc5424/machine.go:110-12046 Parse *)
Definition executes5424 (m : M5424.machine) (data : bytes) (n : nat) (R : outcome M5424Def.vars) : Prop :=
  steps M5424Def.sem_act M5424Def.sem_cnd A5424.code5424 data n LEntry (G 0 1 0 (M5424.prepare (M5424.mv m))) R.
(* rfc3164/machine.go:100-7263 Parse *)
Definition executes3164 (m : M3164.machine) (data : bytes) (n : nat) (R : outcome M3164Def.vars) : Prop :=
  steps M3164Def.sem_act M3164Def.sem_cnd A3164.code3164 data n LEntry (G 0 1 0 (M3164.prepare (M3164.mv m))) R.
(* rfc5424/builder.go:67-9265 set *)
Definition executesB (from : MBuilder.entrypoint) (g : MBuilder.globals) (sm : M5424.message) (data : bytes) (n : nat) (R : outcome BuilderBaseDef.bvars) : Prop :=
  steps BuilderBaseDef.sem_act BuilderBaseDef.sem_cnd ABuilder.codeB data n LEntry
    (G 0 (MBuilder.translate from) 0 (BuilderBaseDef.BVars 0 [] sm (MBuilder.currentid g) (MBuilder.currentparamname g) None [] [] false [])) R.
(* nontransparent/parser.go:28-169 Exec *)
Definition executesN (s : ANT.nst) (x : NonTransparentBaseDef.nvars) (data : bytes) (n : nat) (R : outcome NonTransparentBaseDef.nvars) : Prop :=
  steps NonTransparentBaseDef.sem_act NonTransparentBaseDef.sem_cnd ANT.codeN data n LEntry (G 0 (ANT.nnum s) 0 x) R.

(* statements, tests and jumps allowed per byte; "+ 1" for the empty input *)
Definition linear (k : Z) (data : bytes) (n : nat) : Prop := (Z.of_nat n <= k * (Z.of_nat (length data) + 1))%Z.

Section Any.
Context {A C X : Type}.
Variable sem_act : A -> bytes -> Z -> X -> option X.
Variable sem_cond : C -> X -> bool.
Variable prog : PositiveMap.t (code A C * option label).
Lemma linear_steps data D l s R : deepest prog D -> exec sem_act sem_cond prog data (exec_fuel data) l s = R -> R <> NoFuel ->
  (exists n, steps sem_act sem_cond prog data n l s R) /\
  (forall n R', steps sem_act sem_cond prog data n l s R' -> R' = R /\ linear (Z.of_nat (S D) * 14) data n).
Proof.
  intros HD H HR. destruct (exec_steps sem_act sem_cond prog data D HD _ _ _ _ H HR) as [n [S1 S2]]. split; [eauto|].
  intros n' R' H'. destruct (steps_fun _ _ _ _ _ _ _ _ S1 _ _ H') as [-> ->]. split; [reflexivity|]. unfold linear. unfold exec_fuel, step_fuel in S2. nia.
Qed.
End Any.

(* C71 *)
Theorem parse5424_linear m data :
  (exists n cs x, executes5424 m data n (Out cs x)) /\
  (forall n R, executes5424 m data n R -> linear 8680 data n /\ exists r e cs x, R = Out cs x /\ snd (M5424.parse m data) = M5424.Ret r e).
Proof.
  destruct (Thm5424.parse_total m data) as [r [e H]]. unfold M5424.parse in *.
  destruct (exec _ _ _ _ _ _ _) as [cs x| |] eqn:E; [|discriminate H|discriminate H].
  assert (HR : Out cs x <> NoFuel) by discriminate. destruct (linear_steps _ _ _ data 619 _ _ _ deep5424 E HR) as [[n Hn] Hall]. split.
  - exists n, cs, x. exact Hn.
  - intros n' R' H'. destruct (Hall _ _ H') as [-> Hl]. split; [exact Hl|]. exists r, e, cs, x. split; [reflexivity|exact H].
Qed.
Theorem parse3164_linear m data :
  (exists n cs x, executes3164 m data n (Out cs x)) /\
  (forall n R, executes3164 m data n R -> linear 5306 data n /\ exists r e cs x, R = Out cs x /\ snd (M3164.parse m data) = M3164.Ret r e).
Proof.
  destruct (Thm3164.parse3164_total m data) as [r [e H]]. unfold M3164.parse in *.
  destruct (exec _ _ _ _ _ _ _) as [cs x| |] eqn:E; [|discriminate H|discriminate H].
  assert (HR : Out cs x <> NoFuel) by discriminate. destruct (linear_steps _ _ _ data 378 _ _ _ deep3164 E HR) as [[n Hn] Hall]. split.
  - exists n, cs, x. exact Hn.
  - intros n' R' H'. destruct (Hall _ _ H') as [-> Hl]. split; [exact Hl|]. exists r, e, cs, x. split; [reflexivity|exact H].
Qed.
(* the outcome is the one MBuilder.bset uses; C18 excludes the panics *)
Theorem set_linear from g sm data :
  (exists n R, executesB from g sm data n R) /\
  (forall n R, executesB from g sm data n R -> linear 8246 data n /\
     MBuilder.bset from g sm data = match R with Out _ x => Some (BuilderBaseDef.b_sm x) | _ => None end).
Proof.
  unfold MBuilder.bset. destruct (exec _ _ _ _ _ _ _) as [cs x| |] eqn:E.
  1,2: (match type of E with _ = ?R => assert (HR : R <> NoFuel) by discriminate end; destruct (linear_steps _ _ _ data 588 _ _ _ deepB E HR) as [[n Hn] Hall]; split;
        [exists n; eexists; exact Hn|intros n' R' H'; destruct (Hall _ _ H') as [-> Hl]; split; [exact Hl|reflexivity]]).
  exfalso. replace (MBuilder.translate from) with (ABuilder.bnum (RefBuilder.entry_state from)) in E by (destruct from; reflexivity).
  rewrite ABuilder.exec_runB in E by (destruct from; cbn; tauto). revert E.
  assert (HE : entry_ok ABuilder.codeB ABuilder.bnum ABuilder.bok ABuilder.bdelta ABuilder.bedelta (RefBuilder.entry_state from)).
  { apply ABuilder.entryB. destruct from; cbn; tauto. }
  destruct HE as [He0 [He1 Hen]]. destruct data as [|b r]; cbn [arun].
  - eapply texec_fuel; [exact Hen|discriminate].
  - eapply texec_fuel; [apply He0|]. intros s' x' Hs'. cbv beta. eapply arun_fuel; [apply ABuilder.simB|exact Hs'].
Qed.
Theorem nexec_linear s x data :
  (exists n R, executesN s x data n R) /\
  (forall n R, executesN s x data n R -> linear 238 data n /\
     MNT.nexec (ANT.nnum s) data x = match R with Out cs' x' => Some (cs', x') | _ => None end).
Proof.
  unfold MNT.nexec. destruct (exec _ _ _ _ _ _ _) as [cs y| |] eqn:E.
  1,2: (match type of E with _ = ?R => assert (HR : R <> NoFuel) by discriminate end; destruct (linear_steps _ _ _ data 16 _ _ _ deepN E HR) as [[n Hn] Hall]; split;
        [exists n; eexists; exact Hn|intros n' R' H'; destruct (Hall _ _ H') as [-> Hl]; split; [exact Hl|reflexivity]]).
  exfalso. rewrite ANT.exec_runN in E. revert E.
  destruct (ANT.entryN s) as [He0 [He1 Hen]]. destruct data as [|b r]; cbn [arun].
  - eapply texec_fuel; [exact Hen|discriminate].
  - eapply texec_fuel; [apply He0|]. intros s' x' Hs'. cbv beta. eapply arun_fuel; [apply ANT.simN|exact Hs'].
Qed.

(* a concrete case: the counts are not zero and grow with the input *)
Example steps_some : exists n cs x, executes5424 (M5424.new_machine false false) (lit "<1>1 - - - - - -") n (Out cs x).
Proof. destruct (parse5424_linear (M5424.new_machine false false) (lit "<1>1 - - - - - -")) as [H _]. exact H. Qed.
