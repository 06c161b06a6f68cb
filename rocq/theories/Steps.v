(* How many statements a goto program executes. *)
From Coq Require Import FMapPositive.
From Verif Require Import Bytes GotoLang.

Section Steps.
Context {A C X : Type}.
Variable sem_act : A -> bytes -> Z -> X -> option X.
Variable sem_cond : C -> X -> bool.
Variable prog : PositiveMap.t (code A C * option label).
Variable data : bytes.

(* the same execution of a statement list as GotoLang.run, counting statements, tests and jumps.
   (GotoLang.v: the Go fragment of rfc5424/machine.go, rfc3164/machine.go, rfc5424/builder.go, nontransparent/parser.go) *)
Fixpoint crun (k : code A C) (s : gst X) : nat * res :=
  match k with
  | KNil => (0%nat, Fell s)
  | KAct a k => match sem_act a data (g_p s) (g_x s) with
                | Some x => let (n, r) := crun k (G (g_p s) (g_cs s) (g_w s) x) in (S n, r)
                | None => (1%nat, Panicked) end
  | KIf c t e k =>
      match eval sem_cond data c s with
      | None => (1%nat, Panicked)
      | Some b => let (n, r) := (if b then crun t s else crun e s) in
                  match r with Fell s' => let (m, r') := crun k s' in (S (n + m), r') | _ => (S n, r) end
      end
  | KBlk b k => let (n, r) := crun b s in match r with Fell s' => let (m, r') := crun k s' in ((n + m)%nat, r') | _ => (n, r) end
  | KGoto l _ => (1%nat, Jump l s)
  | KInc k => let (n, r) := crun k (G (g_p s + 1) (g_cs s) (g_w s) (g_x s)) in (S n, r)
  | KDec k => let (n, r) := crun k (G (g_p s - 1) (g_cs s) (g_w s) (g_x s)) in (S n, r)
  | KCs c k => let (n, r) := crun k (G (g_p s) c (g_w s) (g_x s)) in (S n, r)
  | KWide c k => match znth data (g_p s) with
                 | Some b => let (n, r) := crun k (G (g_p s) (g_cs s) (c + bN b) (g_x s)) in (S n, r)
                 | None => (1%nat, Panicked) end
  | KWideAdd c k => let (n, r) := crun k (G (g_p s) (g_cs s) (g_w s + c) (g_x s)) in (S n, r)
  end.
Lemma crun_run k : forall s, snd (crun k s) = run sem_act sem_cond data k s.
Proof.
  induction k as [|a k IH|c t IHt e IHe k IH|b IHb k IH|l k IH|k IH|k IH|n k IH|n k IH|n k IH]; intros s; cbn [crun run]; try reflexivity.
  - destruct (sem_act _ _ _ _) as [x|]; [|reflexivity]. rewrite <- IH. destruct (crun k _). reflexivity.
  - destruct (eval _ _ c s) as [[|]|]; [| |reflexivity].
    + rewrite <- IHt. destruct (crun t s) as [n [s'|l s'|]]; cbn [snd]; try reflexivity. rewrite <- IH. destruct (crun k s'). reflexivity.
    + rewrite <- IHe. destruct (crun e s) as [n [s'|l s'|]]; cbn [snd]; try reflexivity. rewrite <- IH. destruct (crun k s'). reflexivity.
  - rewrite <- IHb. destruct (crun b s) as [n [s'|l s'|]]; cbn [snd]; try reflexivity. rewrite <- IH. destruct (crun k s'). reflexivity.
  - rewrite <- IH. destruct (crun k _). reflexivity.
  - rewrite <- IH. destruct (crun k _). reflexivity.
  - rewrite <- IH. destruct (crun k _). reflexivity.
  - destruct (znth _ _) as [b|]; [|reflexivity]. rewrite <- IH. destruct (crun k _). reflexivity.
  - rewrite <- IH. destruct (crun k _). reflexivity.
Qed.

(* the program, started at a label, ends with an outcome after n statements, tests, jumps and entries of a label *)
Inductive steps : nat -> label -> gst X -> outcome X -> Prop :=
| steps_missing l s : PositiveMap.find (key l) prog = None -> steps 1 l s Panic
| steps_panic l s k nx n : PositiveMap.find (key l) prog = Some (k, nx) -> crun k s = (n, Panicked) -> steps (S n) l s Panic
| steps_jump l s k nx n l' s' m R : PositiveMap.find (key l) prog = Some (k, nx) -> crun k s = (n, Jump l' s') -> steps m l' s' R -> steps (S (n + m)) l s R
| steps_fall l s k n l' s' m R : PositiveMap.find (key l) prog = Some (k, Some l') -> crun k s = (n, Fell s') -> steps m l' s' R -> steps (S (n + m)) l s R
| steps_end l s k n s' : PositiveMap.find (key l) prog = Some (k, None) -> crun k s = (n, Fell s') -> steps (S n) l s (Out (g_cs s') (g_x s')).

(* the longest path through a block *)
Fixpoint depth (k : code A C) : nat :=
  match k with
  | KNil => 0
  | KAct _ k | KInc k | KDec k | KCs _ k | KWide _ k | KWideAdd _ k => S (depth k)
  | KIf _ t e k => S (Nat.max (depth t) (depth e) + depth k)
  | KBlk b k => depth b + depth k
  | KGoto _ _ => 1 end.
Lemma crun_depth k : forall s, (fst (crun k s) <= depth k)%nat.
Proof.
  induction k as [|a k IH|c t IHt e IHe k IH|b IHb k IH|l k IH|k IH|k IH|n k IH|n k IH|n k IH]; intros s; cbn [crun depth]; try (cbn; lia).
  - destruct (sem_act _ _ _ _) as [x|]; [|cbn; lia]. specialize (IH (G (g_p s) (g_cs s) (g_w s) x)). destruct (crun k _). cbn [fst] in *. lia.
  - destruct (eval _ _ c s) as [[|]|]; [| |cbn; lia].
    + specialize (IHt s). destruct (crun t s) as [n [s'|l s'|]]; cbn [fst] in *; try lia. specialize (IH s'). destruct (crun k s'). cbn [fst] in *. lia.
    + specialize (IHe s). destruct (crun e s) as [n [s'|l s'|]]; cbn [fst] in *; try lia. specialize (IH s'). destruct (crun k s'). cbn [fst] in *. lia.
  - specialize (IHb s). destruct (crun b s) as [n [s'|l s'|]]; cbn [fst] in *; try lia. specialize (IH s'). destruct (crun k s'). cbn [fst] in *. lia.
  - match goal with |- context[crun k ?g] => specialize (IH g); destruct (crun k g) end. cbn [fst] in *. lia.
  - match goal with |- context[crun k ?g] => specialize (IH g); destruct (crun k g) end. cbn [fst] in *. lia.
  - match goal with |- context[crun k ?g] => specialize (IH g); destruct (crun k g) end. cbn [fst] in *. lia.
  - destruct (znth _ _) as [b|]; [|cbn; lia]. match goal with |- context[crun k ?g] => specialize (IH g); destruct (crun k g) end. cbn [fst] in *. lia.
  - match goal with |- context[crun k ?g] => specialize (IH g); destruct (crun k g) end. cbn [fst] in *. lia.
Qed.

Definition deepest (D : nat) : Prop := forall l k nx, PositiveMap.find (key l) prog = Some (k, nx) -> (depth k <= D)%nat.
Lemma deepest_check D : forallb (fun x => Nat.leb (depth (fst (snd x))) D) (PositiveMap.elements prog) = true -> deepest D.
Proof.
  intros H l k nx E. apply PositiveMap.elements_correct in E. rewrite forallb_forall in H. specialize (H _ E). apply Nat.leb_le in H. exact H.
Qed.
Lemma exec_steps D : deepest D -> forall f l s R, exec sem_act sem_cond prog data f l s = R -> R <> NoFuel -> exists n, steps n l s R /\ (n <= S D * f)%nat.
Proof.
  intros HD. induction f as [|f IH]; intros l s R H HR; cbn [exec] in H; [congruence|].
  destruct (PositiveMap.find (key l) prog) as [[k nx]|] eqn:E.
  2:{ subst R. exists 1%nat. split; [constructor; exact E|lia]. }
  pose proof (HD _ _ _ E) as Hd. pose proof (crun_depth k s) as Hc. rewrite <- crun_run in H. destruct (crun k s) as [n [s'|l' s'|]] eqn:Ec; cbn [snd fst] in *.
  - destruct nx as [l'|].
    + destruct (IH _ _ _ H HR) as [m [S1 S2]]. exists (S (n + m)). split; [eapply steps_fall; eauto|lia].
    + subst R. exists (S n). split; [eapply steps_end; eauto|lia].
  - destruct (IH _ _ _ H HR) as [m [S1 S2]]. exists (S (n + m)). split; [eapply steps_jump; eauto|lia].
  - subst R. exists (S n). split; [eapply steps_panic; eauto|lia].
Qed.
Lemma steps_exec n l s R : steps n l s R -> forall f, (n <= f)%nat -> exec sem_act sem_cond prog data f l s = R.
Proof.
  induction 1 as [l s E|l s k nx n E Ec|l s k nx n l' s' m R E Ec H IH|l s k n l' s' m R E Ec H IH|l s k n s' E Ec]; intros f Hf; (destruct f as [|f]; [lia|]); cbn [exec]; rewrite E; try reflexivity;
    rewrite <- crun_run, Ec; cbn [snd]; try reflexivity; apply IH; lia.
Qed.
(* one outcome, one count *)
Lemma steps_fun n l s R : steps n l s R -> forall n' R', steps n' l s R' -> n' = n /\ R' = R.
Proof.
  induction 1 as [l s E|l s k nx n E Ec|l s k nx n l' s' m R E Ec H IH|l s k n l' s' m R E Ec H IH|l s k n s' E Ec]; intros n' R' H'; inversion H'; subst; try congruence;
    match goal with E1 : PositiveMap.find _ _ = Some ?a, E2 : PositiveMap.find _ _ = Some ?b |- _ => assert (Some a = Some b) as Eab by congruence; injection Eab; intros; subst | _ => idtac end;
    try (match goal with E1 : crun ?k ?s = ?a, E2 : crun ?k ?s = ?b |- _ => assert (a = b) as Ecd by congruence; try discriminate Ecd; injection Ecd; intros; subst end);
    try (match goal with H : steps _ _ _ ?R0 |- _ = _ /\ ?R0 = _ => destruct (IH _ _ H); subst end); split; try reflexivity; congruence.
Qed.
End Steps.
