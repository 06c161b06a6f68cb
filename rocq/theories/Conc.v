(* One parser value shared by several goroutines (rfc5424/parser.go:32-45, rfc3164/parser.go:32-45): small steps and interleavings.
   The steps are those of the goto program itself: one leaf statement, test or jump at a time, on the memory shared by the goroutines. *)
From Coq Require Import FMapPositive.
From Verif Require Import Bytes GotoLang.
Local Open Scope Z_scope.

Section Generic.
Context {A C X R : Type}.
Variable sem_act : A -> bytes -> Z -> X -> option X.
Variable sem_cond : C -> X -> bool.
Variable prog : PositiveMap.t (code A C * option label).
(* the fields of the machine taken from the first argument (they are shared), the local variables of the call from the second *)
Variable merge : X -> X -> X.
Variable prepare : X -> X.              (* the assignments at the beginning of machine.Parse *)
Variable finish : N -> X -> R.          (* what parser.Parse returns for the final state *)

Notation gst := (@gst X).
Notation run := (run sem_act sem_cond).
Notation eval := (@eval C X sem_cond).
Notation exec := (exec sem_act sem_cond prog).
Notation outcome := (@outcome X).

(* where a goroutine is.  todo: the inputs of its remaining calls; done: what its finished calls returned *)
Inductive pc :=
| PIdle                                                    (* before the next call *)
| PInit (input : bytes)                                    (* the lock is held *)
| PRun (w : N) (lo : X) (ks : list (code A C)) (nx : option label)   (* statements to execute, then the label to fall to; w, lo: its local variables *)
| PDone (r : R)                                            (* the result is computed, the lock still held (defer p.Unlock()) *)
| PPanic.
Record thread := Thread { t_pc : pc; t_todo : list bytes; t_done : list R }.
(* the machine: data (pe and eof are its length), p, cs, the other fields; and the mutex *)
Record config := Config { c_data : bytes; c_p : Z; c_cs : N; c_x : X; c_lock : option nat; c_th : nat -> thread }.
Definition upd (f : nat -> thread) (i : nat) (t : thread) : nat -> thread := fun j => if Nat.eqb j i then t else f j.

(* what a goroutine sees *)
Definition view (c : config) (w : N) (lo : X) : gst := G (c_p c) (c_cs c) w (merge (c_x c) lo).
Definition store (c : config) (i : nat) (s : gst) (ks : list (code A C)) (nx : option label) (t : thread) : config :=
  Config (c_data c) (g_p s) (g_cs s) (g_x s) (c_lock c) (upd (c_th c) i (Thread (PRun (g_w s) (g_x s) ks nx) (t_todo t) (t_done t))).
Definition panic (c : config) (i : nat) (t : thread) : config := Config (c_data c) (c_p c) (c_cs c) (c_x c) (c_lock c) (upd (c_th c) i (Thread PPanic (t_todo t) (t_done t))).

(* one statement of the goto program *)
Definition stmt (c : config) (i : nat) (t : thread) (s : gst) (k : code A C) (ks : list (code A C)) (nx : option label) : config :=
  match k with
  | KNil => store c i s ks nx t
  | KAct a k => match sem_act a (c_data c) (g_p s) (g_x s) with Some x => store c i (G (g_p s) (g_cs s) (g_w s) x) (k :: ks) nx t | None => panic c i t end
  | KIf q th el k => match eval (c_data c) q s with None => panic c i t | Some b => store c i s ((if b then th else el) :: k :: ks) nx t end
  | KBlk b k => store c i s (b :: k :: ks) nx t
  | KGoto l _ => store c i s [] (Some l) t
  | KInc k => store c i (G (g_p s + 1) (g_cs s) (g_w s) (g_x s)) (k :: ks) nx t
  | KDec k => store c i (G (g_p s - 1) (g_cs s) (g_w s) (g_x s)) (k :: ks) nx t
  | KCs n k => store c i (G (g_p s) n (g_w s) (g_x s)) (k :: ks) nx t
  | KWide n k => match znth (c_data c) (g_p s) with Some b => store c i (G (g_p s) (g_cs s) (n + bN b) (g_x s)) (k :: ks) nx t | None => panic c i t end
  | KWideAdd n k => store c i (G (g_p s) (g_cs s) (g_w s + n) (g_x s)) (k :: ks) nx t
  end.

(* a step of goroutine i; None: it cannot move (blocked on the mutex, or it has no more calls to make).
   locking = false: the same machine used without the mutex (NewMachine instead of NewParser). *)
Definition cstep (locking : bool) (i : nat) (c : config) : option config :=
  let t := c_th c i in
  match t_pc t with
  | PIdle => match t_todo t with
             | [] => None
             | input :: r => if locking then match c_lock c with
                                             | Some _ => None
                                             | None => Some (Config (c_data c) (c_p c) (c_cs c) (c_x c) (Some i) (upd (c_th c) i (Thread (PInit input) r (t_done t)))) end
                             else Some (Config (c_data c) (c_p c) (c_cs c) (c_x c) None (upd (c_th c) i (Thread (PInit input) r (t_done t)))) end
  | PInit input => let x := prepare (c_x c) in Some (Config input 0 1 x (c_lock c) (upd (c_th c) i (Thread (PRun 0 x [] (Some LEntry)) (t_todo t) (t_done t))))
  | PRun w lo [] (Some l) => Some (match PositiveMap.find (key l) prog with
                                   | Some (k, nx) => store c i (view c w lo) [k] nx t
                                   | None => panic c i t end)
  | PRun w lo [] None => let s := view c w lo in
      Some (Config (c_data c) (c_p c) (c_cs c) (c_x c) (c_lock c) (upd (c_th c) i (Thread (PDone (finish (g_cs s) (g_x s))) (t_todo t) (t_done t))))
  | PRun w lo (k :: ks) nx => Some (stmt c i t (view c w lo) k ks nx)
  | PDone r => Some (Config (c_data c) (c_p c) (c_cs c) (c_x c) None (upd (c_th c) i (Thread PIdle (t_todo t) (t_done t ++ [r]))))
  | PPanic => None
  end.
(* a schedule: which goroutine moves next *)
Fixpoint crun (locking : bool) (sched : list nat) (c : config) : option config :=
  match sched with [] => Some c | i :: r => match cstep locking i c with Some c' => crun locking r c' | None => None end end.
(* goroutine i is going to call Parse on the inputs work i, one after the other; x: the fields of the machine *)
Definition start_config (data : bytes) (p : Z) (cs : N) (x : X) (work : nat -> list bytes) : config :=
  Config data p cs x None (fun i => Thread PIdle (work i) []).

(* ---- proofs *)
Variable good : X -> Prop.
Variable ans : bytes -> R.
Hypothesis merge_same : forall x, merge x x = x.
Hypothesis sequential : forall x input, good x -> exists f cs y, exec input f LEntry (G 0 1 0 (prepare x)) = Out cs y /\ good y /\ finish cs y = ans input.

Fixpoint run_stack (data : bytes) (ks : list (code A C)) (s : gst) : @res X :=
  match ks with [] => Fell s | k :: r => match run data k s with Fell s' => run_stack data r s' | o => o end end.
(* what is left to do *)
Definition remaining (data : bytes) (f : nat) (ks : list (code A C)) (nx : option label) (s : gst) : outcome :=
  match run_stack data ks s with
  | Panicked => Panic
  | Jump l s' => exec data f l s'
  | Fell s' => match nx with Some l => exec data f l s' | None => Out (g_cs s') (g_x s') end
  end.
Definition ends_well (data : bytes) (f : nat) (ks : list (code A C)) (nx : option label) (s : gst) (input : bytes) : Prop :=
  exists cs y, remaining data f ks nx s = Out cs y /\ good y /\ finish cs y = ans input.

(* the invariant; work: the inputs given at the start *)
Definition outside (t : thread) : Prop := match t_pc t with PIdle => True | _ => False end.
Definition tinv (work : list bytes) (c : config) (t : thread) : Prop :=
  match t_pc t with
  | PIdle => work = firstn (length (t_done t)) work ++ t_todo t /\ t_done t = map ans (firstn (length (t_done t)) work)
  | PInit input => good (c_x c) /\ exists pre, work = pre ++ input :: t_todo t /\ t_done t = map ans pre
  | PRun w lo ks nx => c_x c = lo /\ exists pre input f, work = pre ++ input :: t_todo t /\ t_done t = map ans pre /\ ends_well (c_data c) f ks nx (G (c_p c) (c_cs c) w lo) input
  | PDone r => good (c_x c) /\ exists pre input, work = pre ++ input :: t_todo t /\ t_done t = map ans pre /\ r = ans input
  | PPanic => False
  end.
Definition cinv (work : nat -> list bytes) (c : config) : Prop :=
  (forall i, tinv (work i) c (c_th c i))
  /\ match c_lock c with None => good (c_x c) /\ forall i, outside (c_th c i) | Some o => ~ outside (c_th c o) /\ forall i, i <> o -> outside (c_th c i) end.

Lemma upd_same f i t : upd f i t i = t.
Proof. unfold upd. rewrite Nat.eqb_refl. reflexivity. Qed.
Lemma upd_other f i j t : j <> i -> upd f i t j = f j.
Proof. intros H. unfold upd. destruct (Nat.eqb_spec j i); congruence. Qed.
Lemma tinv_outside work c c' t : outside t -> tinv work c t -> tinv work c' t.
Proof. unfold outside, tinv. destruct (t_pc t); tauto. Qed.

(* a step of the owner that keeps the lock *)
Lemma keep_inv work c i d p cs x t' : cinv work c -> c_lock c = Some i ->
  ~ outside t' -> tinv (work i) (Config d p cs x (Some i) (upd (c_th c) i t')) t' -> cinv work (Config d p cs x (Some i) (upd (c_th c) i t')).
Proof.
  intros [H1 H2] Hl Ho Ht. rewrite Hl in H2. destruct H2 as [_ H2]. split.
  - intros j. cbn [c_th]. destruct (Nat.eq_dec j i) as [-> |Hj]; [rewrite upd_same; exact Ht|]. rewrite upd_other by exact Hj.
    eapply tinv_outside; [apply H2; exact Hj|apply H1].
  - cbn [c_lock c_th]. rewrite upd_same. split; [exact Ho|]. intros j Hj. rewrite upd_other by exact Hj. apply H2. exact Hj.
Qed.

Lemma ends_stmt c f i t s k ks nx input : ends_well (c_data c) f (k :: ks) nx s input ->
  exists s' ks' nx', stmt c i t s k ks nx = store c i s' ks' nx' t /\ ends_well (c_data c) f ks' nx' s' input.
Proof.
  intros [cs [y [H R0]]]. unfold remaining in H. cbn [run_stack] in H.
  assert (W : forall s' ks' nx', remaining (c_data c) f ks' nx' s' = Out cs y -> ends_well (c_data c) f ks' nx' s' input) by (intros s' ks' nx' E; exists cs, y; auto).
  destruct k as [|a k|q th el k|b k|l k|k|k|n k|n k|n k]; cbn [GotoLang.run stmt] in *.
  - eexists _, _, _. split; [reflexivity|]. apply W. exact H.
  - destruct (sem_act a (c_data c) (g_p s) (g_x s)) as [x|]; [|discriminate]. eexists _, _, _. split; [reflexivity|]. apply W. exact H.
  - destruct (GotoLang.eval sem_cond (c_data c) q s) as [b|]; [|discriminate]. eexists _, _, _. split; [reflexivity|]. apply W.
    unfold remaining. cbn [run_stack]. destruct b; (destruct (run (c_data c) _ s) as [s'|l s'|]; [|exact H|exact H]); exact H.
  - eexists _, _, _. split; [reflexivity|]. apply W. unfold remaining. cbn [run_stack]. destruct (run (c_data c) b s) as [s'|l s'|]; exact H.
  - eexists _, _, _. split; [reflexivity|]. apply W. exact H.
  - eexists _, _, _. split; [reflexivity|]. apply W. exact H.
  - eexists _, _, _. split; [reflexivity|]. apply W. exact H.
  - eexists _, _, _. split; [reflexivity|]. apply W. exact H.
  - destruct (znth (c_data c) (g_p s)) as [b|]; [|discriminate]. eexists _, _, _. split; [reflexivity|]. apply W. exact H.
  - eexists _, _, _. split; [reflexivity|]. apply W. exact H.
Qed.

Lemma step_inv work c i c' : cinv work c -> cstep true i c = Some c' -> cinv work c'.
Proof.
  intros HI Hs. pose proof (proj1 HI i) as Ht. unfold cstep in Hs. unfold tinv in Ht.
  assert (Hlock : ~ outside (c_th c i) -> c_lock c = Some i).
  { intros Ho. destruct (c_lock c) as [o|] eqn:El; destruct HI as [_ H2]; rewrite El in H2.
    - destruct (Nat.eq_dec i o) as [-> |Hne]; [reflexivity|]. exfalso. apply Ho. apply H2. exact Hne.
    - exfalso. apply Ho. apply H2. }
  unfold outside in Hlock at 1. set (t := c_th c i) in *. destruct (t_pc t) as [|input|w lo ks nx|r|] eqn:Ep.
  - destruct (t_todo t) as [|input r] eqn:Et; [discriminate|]. destruct (c_lock c) as [o|] eqn:El; [discriminate|]. injection Hs as <-.
    destruct HI as [H1 H2]. rewrite El in H2. destruct H2 as [Hg H2]. split.
    + intros j. cbn [c_th]. destruct (Nat.eq_dec j i) as [-> |Hj]; [rewrite upd_same|rewrite upd_other by exact Hj; eapply tinv_outside; [apply H2|apply H1]].
      unfold tinv. cbn [t_pc t_todo t_done]. split; [exact Hg|]. destruct Ht as [T1 T2]. eexists. split; [exact T1|exact T2].
    + cbn [c_lock c_th]. rewrite upd_same. split; [unfold outside; cbn; tauto|]. intros j Hj. rewrite upd_other by exact Hj. apply H2.
  - injection Hs as <-. rewrite (Hlock (fun H => H)). apply keep_inv; [exact HI|apply Hlock; tauto|unfold outside; cbn; tauto|].
    unfold tinv. cbn [t_pc t_todo t_done c_x c_data c_p c_cs]. split; [reflexivity|]. destruct Ht as [Hg [pre [T1 T2]]].
    destruct (sequential (c_x c) input Hg) as [f [cs [y [E R0]]]]. exists pre, input, f. repeat split; [exact T1|exact T2|]. exists cs, y. split; [exact E|exact R0].
  - destruct Ht as [Hx [pre [input [f [T1 [T2 T3]]]]]].
    assert (Hv : view c w lo = G (c_p c) (c_cs c) w lo) by (unfold view; rewrite Hx, merge_same; reflexivity).
    assert (St : forall s' ks' nx' f', ends_well (c_data c) f' ks' nx' s' input -> cinv work (store c i s' ks' nx' t)).
    { intros s' ks' nx' f' E. unfold store. rewrite (Hlock (fun H => H)). apply keep_inv; [exact HI|apply Hlock; tauto|unfold outside; cbn; tauto|].
      unfold tinv. cbn [t_pc t_todo t_done c_x c_data c_p c_cs]. split; [reflexivity|]. exists pre, input, f'. repeat split; [exact T1|exact T2|]. destruct s'; exact E. }
    rewrite Hv in Hs. destruct ks as [|k ks].
    + destruct nx as [l|].
      * injection Hs as <-. destruct T3 as [cs [y [E R0]]]. unfold remaining in E. cbn [run_stack] in E.
        destruct f as [|f]; [discriminate|]. cbn [GotoLang.exec] in E. destruct (PositiveMap.find (key l) prog) as [[k nx]|]; [|discriminate].
        apply (St _ _ _ f). exists cs, y. split; [|exact R0]. unfold remaining. cbn [run_stack].
        destruct (run (c_data c) k _) as [s'|l' s'|]; exact E.
      * injection Hs as <-. rewrite (Hlock (fun H => H)). apply keep_inv; [exact HI|apply Hlock; tauto|unfold outside; cbn; tauto|].
        unfold tinv. cbn [t_pc t_todo t_done c_x]. destruct T3 as [cs [y [E [R1 R2]]]]. unfold remaining in E. cbn in E. injection E as <- <-.
        split; [rewrite Hx; exact R1|]. exists pre, input. cbn. repeat split; assumption.
    + injection Hs as <-. destruct (ends_stmt c f i t _ _ _ _ _ T3) as [s' [ks' [nx' [-> E]]]]. apply (St _ _ _ f). exact E.
  - injection Hs as <-. specialize (Hlock (fun H => H)). destruct HI as [H1 H2]. rewrite Hlock in H2. destruct H2 as [_ H2]. destruct Ht as [Hg [pre [input [T1 [T2 T3]]]]]. split.
    + intros j. cbn [c_th]. destruct (Nat.eq_dec j i) as [-> |Hj]; [rewrite upd_same|rewrite upd_other by exact Hj; eapply tinv_outside; [apply H2; exact Hj|apply H1]].
      unfold tinv. cbn [t_pc t_todo t_done]. rewrite T1, T2, T3. rewrite app_length, map_length. cbn [length].
      replace (length pre + 1)%nat with (length (pre ++ [input])) by (rewrite app_length; reflexivity).
      replace (pre ++ input :: t_todo t) with ((pre ++ [input]) ++ t_todo t) by (rewrite <- app_assoc; reflexivity).
      rewrite firstn_app, Nat.sub_diag, firstn_all, firstn_O, app_nil_r. split; [reflexivity|]. rewrite map_app. reflexivity.
    + cbn [c_lock c_th c_x]. split; [exact Hg|]. intros j. destruct (Nat.eq_dec j i) as [-> |Hj]; [rewrite upd_same; exact I|rewrite upd_other by exact Hj; apply H2; exact Hj].
  - destruct Ht.
Qed.
Lemma start_inv data p cs x work : good x -> cinv work (start_config data p cs x work).
Proof. intros Hg. split; [intros i; unfold tinv; cbn; auto|]. cbn. split; [exact Hg|]. intros i. exact I. Qed.
Lemma run_inv work sched : forall c c', cinv work c -> crun true sched c = Some c' -> cinv work c'.
Proof.
  induction sched as [|i r IH]; intros c c' HI H; cbn [crun] in H; [injection H as <-; exact HI|].
  destruct (cstep true i c) as [c1|] eqn:E; [|discriminate]. eapply IH; [|exact H]. eapply step_inv; eassumption.
Qed.

(* every finished call returned what it would have returned alone *)
Theorem shared_results data p cs x work sched c : good x -> crun true sched (start_config data p cs x work) = Some c ->
  forall i, t_done (c_th c i) = map ans (firstn (length (t_done (c_th c i))) (work i)) /\ t_pc (c_th c i) <> PPanic.
Proof.
  intros Hg H i. pose proof (proj1 (run_inv work sched _ _ (start_inv data p cs x work Hg) H) i) as Ht. unfold tinv in Ht.
  set (t := c_th c i) in *. destruct (t_pc t) as [|input|w lo ks nx|r|]; (split; [|try discriminate; try destruct Ht]).
  - apply Ht.
  - destruct Ht as [_ [pre [T1 T2]]]. rewrite T1, T2, map_length. rewrite firstn_app, Nat.sub_diag, firstn_all, firstn_O, app_nil_r. reflexivity.
  - destruct Ht as [_ [pre [input [f [T1 [T2 _]]]]]]. rewrite T1, T2, map_length. rewrite firstn_app, Nat.sub_diag, firstn_all, firstn_O, app_nil_r. reflexivity.
  - destruct Ht as [_ [pre [input [T1 [T2 _]]]]]. rewrite T1, T2, map_length. rewrite firstn_app, Nat.sub_diag, firstn_all, firstn_O, app_nil_r. reflexivity.
  - destruct Ht.
Qed.

(* ---- no deadlock, every call can finish *)
Fixpoint csize (k : code A C) : nat :=
  match k with
  | KNil => 1 | KAct _ k | KInc k | KDec k | KCs _ k | KWide _ k | KWideAdd _ k => S (csize k)
  | KIf _ t e k => S (csize t + csize e + csize k) | KBlk b k => S (csize b + csize k) | KGoto _ _ => 1
  end.
Definition ssize (ks : list (code A C)) : nat := fold_right (fun k n => (csize k + n)%nat) 0%nat ks.
Lemma csize_pos k : (1 <= csize k)%nat.
Proof. destruct k; cbn; lia. Qed.
Lemma crun_app l s1 s2 c c1 : crun l s1 c = Some c1 -> crun l (s1 ++ s2) c = crun l s2 c1.
Proof.
  revert c. induction s1 as [|i r IH]; intros c H; cbn [app crun] in *; [injection H as <-; reflexivity|].
  destruct (cstep l i c); [apply IH; exact H|discriminate].
Qed.
Lemma stmt_smaller c i t s k ks nx s' ks' nx' : stmt c i t s k ks nx = store c i s' ks' nx' t -> (ssize ks' < ssize (k :: ks))%nat.
Proof.
  intros H. apply (f_equal (fun c0 => t_pc (c_th c0 i))) in H. unfold store in H at 1. cbn [c_th] in H.
  assert (E : forall c0 s0 ks0 nx0, t_pc (c_th (store c0 i s0 ks0 nx0 t) i) = PRun (g_w s0) (g_x s0) ks0 nx0) by (intros; unfold store; cbn [c_th]; rewrite upd_same; reflexivity).
  assert (P : t_pc (c_th (panic c i t) i) = PPanic) by (unfold panic; cbn [c_th]; rewrite upd_same; reflexivity).
  rewrite upd_same in H. cbn [t_pc] in H.
  destruct k as [|a k|q th el k|b k|l k|k|k|n k|n k|n k]; cbn [stmt] in H;
    try (destruct (sem_act a (c_data c) (g_p s) (g_x s))); try (destruct (GotoLang.eval sem_cond (c_data c) q s) as [b|]); try (destruct (znth (c_data c) (g_p s)));
    rewrite ?E, ?P in H; try discriminate H; injection H as _ _ H3 _; rewrite <- H3; unfold ssize; cbn [fold_right csize]; fold (ssize ks); try lia.
  all: pose proof (csize_pos th); pose proof (csize_pos el); destruct b; lia.
Qed.
Lemma finish_call work i f : forall n c w lo ks nx input, cinv work c -> t_pc (c_th c i) = PRun w lo ks nx -> (ssize ks <= n)%nat -> c_x c = lo ->
  ends_well (c_data c) f ks nx (G (c_p c) (c_cs c) w lo) input ->
  exists m c' r, crun true (repeat i m) c = Some c' /\ t_pc (c_th c' i) = PDone r /\ t_todo (c_th c' i) = t_todo (c_th c i).
Proof.
  induction f as [f IHf] using lt_wf_ind. induction n as [n IHn] using lt_wf_ind. intros c w lo ks nx input HI Hp Hn Hx HE.
  assert (Hv : view c w lo = G (c_p c) (c_cs c) w lo) by (unfold view; rewrite Hx, merge_same; reflexivity).
  assert (Hstep : exists c1, cstep true i c = Some c1) by (unfold cstep; rewrite Hp; destruct ks as [|k ks]; [destruct nx|]; eauto).
  destruct Hstep as [c1 Hs]. pose proof (step_inv work c i c1 HI Hs) as HI1. pose proof Hs as Hs'. unfold cstep in Hs. rewrite Hp, Hv in Hs.
  assert (Cont : forall f' ks' nx' s', c1 = store c i s' ks' nx' (c_th c i) -> ends_well (c_data c) f' ks' nx' s' input -> ((f' < f)%nat \/ f' = f /\ (ssize ks' < n)%nat) ->
     exists m c' r, crun true (repeat i m) c = Some c' /\ t_pc (c_th c' i) = PDone r /\ t_todo (c_th c' i) = t_todo (c_th c i)).
  { intros f' ks' nx' s' -> E Hlt.
    assert (Hpc : t_pc (c_th (store c i s' ks' nx' (c_th c i)) i) = PRun (g_w s') (g_x s') ks' nx') by (unfold store; cbn [c_th]; rewrite upd_same; reflexivity).
    assert (Hgo : exists m c' r, crun true (repeat i m) (store c i s' ks' nx' (c_th c i)) = Some c' /\ t_pc (c_th c' i) = PDone r /\ t_todo (c_th c' i) = t_todo (c_th (store c i s' ks' nx' (c_th c i)) i)).
    { destruct Hlt as [Hlt|[-> Hlt]].
      - eapply (IHf f' Hlt (ssize ks')); [exact HI1|exact Hpc|apply Nat.le_refl|reflexivity|destruct s'; exact E].
      - eapply (IHn (ssize ks') Hlt); [exact HI1|exact Hpc|apply Nat.le_refl|reflexivity|destruct s'; exact E]. }
    destruct Hgo as [m [c' [r [G1 [G2 G3]]]]]. exists (S m), c', r. cbn [repeat crun]. rewrite Hs'. split; [exact G1|]. split; [exact G2|].
    rewrite G3. unfold store. cbn [c_th]. rewrite upd_same. reflexivity. }
  destruct ks as [|k ks].
  - destruct nx as [l|].
    + destruct HE as [cs [y [E R0]]]. unfold remaining in E. cbn [run_stack] in E. destruct f as [|f]; [discriminate|]. cbn [GotoLang.exec] in E.
      injection Hs as Hs. destruct (PositiveMap.find (key l) prog) as [[k nx]|]; [|discriminate].
      apply (Cont f [k] nx (G (c_p c) (c_cs c) w lo)); [symmetry; exact Hs| |left; lia].
      exists cs, y. split; [|exact R0]. unfold remaining. cbn [run_stack]. destruct (run (c_data c) k _) as [s'|l' s'|]; exact E.
    + injection Hs as <-. eexists 1%nat, _, _. cbn [repeat crun]. rewrite Hs'. split; [reflexivity|]. cbn [c_th]. rewrite upd_same. split; reflexivity.
  - injection Hs as Hs. destruct (ends_stmt c f i (c_th c i) _ _ _ _ _ HE) as [s' [ks' [nx' [E1 E2]]]].
    apply (Cont f ks' nx' s'); [congruence|exact E2|right; split; [reflexivity|]]. apply stmt_smaller in E1. lia.
Qed.
Lemma release work c o : cinv work c -> c_lock c = Some o ->
  exists m c', crun true (repeat o m) c = Some c' /\ t_pc (c_th c' o) = PIdle /\ c_lock c' = None /\ t_todo (c_th c' o) = t_todo (c_th c o).
Proof.
  intros HI Hl.
  assert (Unl : forall c r, t_pc (c_th c o) = PDone r -> exists c', crun true [o] c = Some c' /\ t_pc (c_th c' o) = PIdle /\ c_lock c' = None /\ t_todo (c_th c' o) = t_todo (c_th c o)).
  { intros c0 r Hp. eexists. cbn [crun]. unfold cstep. rewrite Hp. split; [reflexivity|]. cbn [c_th c_lock]. rewrite upd_same. repeat split; reflexivity. }
  assert (Run : forall c, cinv work c -> (exists w lo ks nx, t_pc (c_th c o) = PRun w lo ks nx) ->
    exists m c', crun true (repeat o m) c = Some c' /\ t_pc (c_th c' o) = PIdle /\ c_lock c' = None /\ t_todo (c_th c' o) = t_todo (c_th c o)).
  { intros c0 HI0 [w [lo [ks [nx Hp]]]]. pose proof (proj1 HI0 o) as Ht. unfold tinv in Ht. rewrite Hp in Ht. destruct Ht as [Hx [pre [input [f [_ [_ HE]]]]]].
    destruct (finish_call work o f (ssize ks) c0 w lo ks nx input HI0 Hp (Nat.le_refl _) Hx HE) as [m [c1 [r [E1 [E2 E3]]]]].
    destruct (Unl c1 r E2) as [c2 [E4 [E5 [E6 E7]]]]. exists (m + 1)%nat, c2. rewrite repeat_app. rewrite (crun_app _ _ _ _ _ E1).
    split; [exact E4|]. split; [exact E5|]. split; [exact E6|]. congruence. }
  destruct (t_pc (c_th c o)) as [|input|w lo ks nx|r|] eqn:Hp.
  - destruct HI as [_ H2]. rewrite Hl in H2. exfalso. apply H2. unfold outside. rewrite Hp. exact I.
  - assert (exists c1, cstep true o c = Some c1 /\ (exists w lo ks nx, t_pc (c_th c1 o) = PRun w lo ks nx) /\ t_todo (c_th c1 o) = t_todo (c_th c o)) as [c1 [E1 [E2 E3]]].
    { unfold cstep. rewrite Hp. eexists. split; [reflexivity|]. cbn [c_th]. rewrite upd_same. split; [do 4 eexists; reflexivity|reflexivity]. }
    destruct (Run c1 (step_inv _ _ _ _ HI E1) E2) as [m [c' [E4 [E5 [E6 E7]]]]]. exists (S m), c'. cbn [repeat crun]. rewrite E1. repeat split; try assumption. congruence.
  - apply Run; [exact HI|]. rewrite Hp. eauto.
  - destruct (Unl c r Hp) as [c' E]. exists 1%nat, c'. exact E.
  - pose proof (proj1 HI o) as Ht. unfold tinv in Ht. rewrite Hp in Ht. destruct Ht.
Qed.
Lemma complete_free work i : forall n c, cinv work c -> c_lock c = None -> length (t_todo (c_th c i)) = n ->
  exists sched c', crun true sched c = Some c' /\ t_pc (c_th c' i) = PIdle /\ t_todo (c_th c' i) = [].
Proof.
  induction n as [|n IH]; intros c HI Hl Hn.
  - exists [], c. split; [reflexivity|]. destruct HI as [_ H2]. rewrite Hl in H2. destruct H2 as [_ H2]. specialize (H2 i). unfold outside in H2.
    destruct (t_pc (c_th c i)); try destruct H2. split; [reflexivity|]. destruct (t_todo (c_th c i)); [reflexivity|discriminate].
  - pose proof HI as [_ H2]. rewrite Hl in H2. destruct H2 as [_ H2]. specialize (H2 i). unfold outside in H2.
    destruct (t_pc (c_th c i)) eqn:Hp; try destruct H2. destruct (t_todo (c_th c i)) as [|input r] eqn:Et; [discriminate|].
    assert (exists c1, cstep true i c = Some c1 /\ c_lock c1 = Some i /\ t_todo (c_th c1 i) = r) as [c1 [E1 [E2 E3]]].
    { unfold cstep. rewrite Hp, Et, Hl. eexists. split; [reflexivity|]. cbn [c_lock c_th]. rewrite upd_same. split; reflexivity. }
    pose proof (step_inv _ _ _ _ HI E1) as HI1. destruct (release work c1 i HI1 E2) as [m [c2 [E4 [E5 [E6 E7]]]]].
    destruct (IH c2) as [sched [c3 [E8 E9]]]; [eapply run_inv; eassumption|exact E6|rewrite E7, E3; cbn in Hn; lia|].
    exists (i :: repeat i m ++ sched), c3. cbn [crun]. rewrite E1. rewrite (crun_app _ _ _ _ _ E4). split; [exact E8|exact E9].
Qed.
(* from every reachable point, every goroutine's calls can all be completed, with the right results: no deadlock, no call that cannot return *)
Theorem shared_completes data p cs x work sched c : good x -> crun true sched (start_config data p cs x work) = Some c ->
  forall i, exists sched' c', crun true (sched ++ sched') (start_config data p cs x work) = Some c' /\ t_done (c_th c' i) = map ans (work i).
Proof.
  intros Hg H i. pose proof (run_inv work sched _ _ (start_inv data p cs x work Hg) H) as HI.
  assert (exists s1 c1, crun true s1 c = Some c1 /\ cinv work c1 /\ c_lock c1 = None) as [s1 [c1 [E1 [HI1 Hl1]]]].
  { destruct (c_lock c) as [o|] eqn:El; [|exists [], c; cbn; auto]. destruct (release work c o HI El) as [m [c1 [E1 [_ [E3 _]]]]].
    exists (repeat o m), c1. split; [exact E1|]. split; [eapply run_inv; eassumption|exact E3]. }
  destruct (complete_free work i _ c1 HI1 Hl1 eq_refl) as [s2 [c2 [E2 [E3 E4]]]].
  exists (s1 ++ s2), c2. rewrite (crun_app _ _ _ _ _ H), (crun_app _ _ _ _ _ E1). split; [exact E2|].
  pose proof (proj1 (run_inv work s2 _ _ HI1 E2) i) as Ht. unfold tinv in Ht. rewrite E3 in Ht. destruct Ht as [T1 T2]. rewrite E4, app_nil_r in T1. rewrite T2, <- T1. reflexivity.
Qed.
End Generic.
