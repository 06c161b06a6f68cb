(* Two interpretations of one goto program, related leaf statement by leaf statement. *)
From Coq Require Import FMapPositive.
From Verif Require Import Bytes GotoLang.
Local Open Scope N_scope.

Definition orel {X Y} (R : X -> Y -> Prop) (u : option X) (v : option Y) : Prop :=
  match u, v with Some x, Some y => R x y | None, None => True | _, _ => False end.
Lemma find_link {A C} (bl : list (label * code A C)) : forall k b nx, PositiveMap.find k (link bl) = Some (b, nx) -> exists l, In (l, b) bl.
Proof.
  induction bl as [|[l c] r IH]; intros k b nx H; cbn [link] in H.
  - rewrite PositiveMap.gempty in H. discriminate.
  - destruct (Pos.eq_dec k (key l)) as [->|E].
    + rewrite PositiveMap.gss in H. injection H as -> _. exists l. left. reflexivity.
    + rewrite PositiveMap.gso in H by congruence. destruct (IH _ _ _ H) as [l' Hl]. exists l'. right. exact Hl.
Qed.

Section S.
Context {A C X Y : Type}.
Variables (sa1 : A -> bytes -> Z -> X -> option X) (sc1 : C -> X -> bool) (sa2 : A -> bytes -> Z -> Y -> option Y) (sc2 : C -> Y -> bool).
Variables (bl : list (label * code A C)) (data : bytes).
(* a fact that is established by some statements and needed by others, within a block *)
Variables (need : A -> bool -> bool) (post : A -> bool -> bool).
Fixpoint flow (n : bool) (k : code A C) : bool :=
  match k with
  | KNil => true
  | KAct a k => need a n && flow (post a n) k
  | KIf _ t e k => flow n t && flow n e && flow false k
  | KBlk b k => flow n b && flow false k
  | KGoto _ _ => true
  | KInc k | KDec k | KCs _ k | KWide _ k | KWideAdd _ k => flow n k
  end.
Variable R : bool -> X -> Y -> Prop.
Hypothesis R_weak : forall x y, R true x y -> R false x y.
Hypothesis R_act : forall n a p x y, need a n = true -> R n x y -> orel (R (post a n)) (sa1 a data p x) (sa2 a data p y).
Hypothesis R_cnd : forall n c x y, R n x y -> sc1 c x = sc2 c y.
Hypothesis flow_ok : forallb (fun lb => flow false (snd lb)) bl = true.

Definition grel (n : bool) (s : @gst X) (t : @gst Y) : Prop := g_p s = g_p t /\ g_cs s = g_cs t /\ g_w s = g_w t /\ R n (g_x s) (g_x t).
Definition rrel (u : @res X) (v : @res Y) : Prop :=
  match u, v with
  | Fell s, Fell t => grel false s t
  | Jump l s, Jump l' t => l = l' /\ grel false s t
  | Panicked, Panicked => True
  | _, _ => False end.
Definition outrel (u : @outcome X) (v : @outcome Y) : Prop :=
  match u, v with
  | Out c x, Out c' y => c = c' /\ R false x y
  | Panic, Panic => True
  | NoFuel, NoFuel => True
  | _, _ => False end.
Lemma R_to_false n x y : R n x y -> R false x y. Proof. destruct n; auto. Qed.
Lemma eval_rel n c s t : grel n s t -> eval sc1 data c s = eval sc2 data c t.
Proof.
  intros [H1 [H2 [H3 H4]]]. induction c; cbn [eval]; rewrite ?H1, ?H2, ?H3; try reflexivity.
  - rewrite IHc1, IHc2. reflexivity.
  - rewrite (R_cnd _ _ _ _ H4). reflexivity.
Qed.
Lemma run_rel k : forall n s t, flow n k = true -> grel n s t -> rrel (run sa1 sc1 data k s) (run sa2 sc2 data k t).
Proof.
  induction k as [|a k IH|c t IHt e IHe k IH|b IHb k IH|l k IH|k IH|k IH|m k IH|m k IH|m k IH]; intros n s u F G; cbn [flow run] in *.
  - destruct G as [H1 [H2 [H3 H4]]]. cbn. repeat split; auto. eapply R_to_false; eauto.
  - apply andb_true_iff in F as [F1 F2]. destruct G as [H1 [H2 [H3 H4]]]. rewrite H1. pose proof (R_act n a (g_p u) _ _ F1 H4) as HR.
    destruct (sa1 a data (g_p u) (g_x s)) as [x|], (sa2 a data (g_p u) (g_x u)) as [y|]; cbn in HR; try tauto.
    eapply IH; [exact F2|]. repeat split; auto.
  - apply andb_true_iff in F as [F F3]. apply andb_true_iff in F as [F1 F2]. rewrite <- (eval_rel n c s u G).
    destruct (eval sc1 data c s) as [b|]; [|exact I].
    assert (Hb : rrel (if b then run sa1 sc1 data t s else run sa1 sc1 data e s) (if b then run sa2 sc2 data t u else run sa2 sc2 data e u)) by (destruct b; eauto).
    destruct (if b then run sa1 sc1 data t s else run sa1 sc1 data e s) as [s'|l' s'|], (if b then run sa2 sc2 data t u else run sa2 sc2 data e u) as [u'|l2 u'|]; cbn in Hb; try tauto; cbn [rrel]; try exact Hb.
    eapply IH; eauto.
  - apply andb_true_iff in F as [F1 F2]. specialize (IHb _ _ _ F1 G).
    destruct (run sa1 sc1 data b s) as [s'|l' s'|], (run sa2 sc2 data b u) as [u'|l2 u'|]; cbn in IHb; try tauto; try exact IHb. eapply IH; eauto.
  - destruct G as [H1 [H2 [H3 H4]]]. cbn. repeat split; auto. eapply R_to_false; eauto.
  - destruct G as [H1 [H2 [H3 H4]]]. eapply IH; [exact F|]. repeat split; cbn; congruence || assumption.
  - destruct G as [H1 [H2 [H3 H4]]]. eapply IH; [exact F|]. repeat split; cbn; congruence || assumption.
  - destruct G as [H1 [H2 [H3 H4]]]. eapply IH; [exact F|]. repeat split; cbn; congruence || assumption.
  - destruct G as [H1 [H2 [H3 H4]]]. rewrite H1. destruct (znth data (g_p u)); [|exact I]. eapply IH; [exact F|]. repeat split; cbn; congruence || assumption.
  - destruct G as [H1 [H2 [H3 H4]]]. eapply IH; [exact F|]. repeat split; cbn; congruence || assumption.
Qed.
Lemma exec_rel f : forall l s t, grel false s t -> outrel (exec sa1 sc1 (link bl) data f l s) (exec sa2 sc2 (link bl) data f l t).
Proof.
  induction f as [|f IH]; intros l s t G; cbn [exec]; [exact I|].
  destruct (PositiveMap.find (key l) (link bl)) as [[k nx]|] eqn:E; [|exact I].
  assert (F : flow false k = true).
  { destruct (find_link _ _ _ _ E) as [l' Hl]. rewrite forallb_forall in flow_ok. apply (flow_ok _ Hl). }
  pose proof (run_rel k false s t F G) as H.
  destruct (run sa1 sc1 data k s) as [s'|l' s'|], (run sa2 sc2 data k t) as [t'|l2 t'|]; cbn in H; try tauto.
  - destruct nx; [apply IH; exact H|]. destruct H as [H1 [H2 [H3 H4]]]. cbn. auto.
  - destruct H as [<- H]. apply IH. exact H.
Qed.
End S.
