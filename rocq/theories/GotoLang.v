(* L0: a deep embedding of the Go fragment produced by Ragel's -G2 back end
   (labels, goto, if, switch, p++, p--, cs = n, _widec) and its interpreter; then a partial
   evaluator that tabulates, for one state and one byte, the sequence of leaf statements executed,
   with its soundness proof.
   Models the control structure shared by rfc5424/machine.go, rfc3164/machine.go,
   rfc5424/builder.go and nontransparent/parser.go. *)
From Coq Require Import FMapPositive.
From Verif Require Import Bytes.
Local Open Scope N_scope.

(* Go labels: st7:, stCase7:, tr7:, _testEof7:, _testEof:, stOut:, _out:.  LEntry is the code before the first label. *)
Inductive label := LEntry | LSt (n : N) | LCase (n : N) | LTr (n : N) | LEofN (n : N) | LEof | LStOut | LOut.

Inductive cmp := OEq | OLt | OLe | OGt | OGe.

(* conditions; CByte tests data[p], CWide tests _widec, CPe is p == pe (or p == eof: both are len(data)),
   CCs ns is the case list of "switch cs", CExt a condition on the variables of the actions *)
Inductive gcond (C : Type) := CByte (o : cmp) (n : N) | CWide (o : cmp) (n : N) | CPe | CCs (ns : list N)
  | CAnd (a b : gcond C) | CExt (c : C).
Arguments CByte {C}. Arguments CWide {C}. Arguments CPe {C}. Arguments CCs {C}. Arguments CAnd {C}. Arguments CExt {C}.

(* statement lists *)
Inductive code (A C : Type) :=
| KNil                                   (* end of the list: fall through *)
| KAct (a : A) (k : code A C)            (* leaf statement *)
| KIf (c : gcond C) (t e k : code A C)   (* if c { t } else { e }; k *)
| KBlk (b k : code A C)                  (* { b }; k *)
| KGoto (l : label) (k : code A C)       (* goto l; k (k is dead code) *)
| KInc (k : code A C)                    (* p++ *)
| KDec (k : code A C)                    (* p-- *)
| KCs (n : N) (k : code A C)             (* cs = n *)
| KWide (n : N) (k : code A C)           (* _widec = n + int16(data[p]) *)
| KWideAdd (n : N) (k : code A C).       (* _widec += n *)
Arguments KNil {A C}. Arguments KAct {A C}. Arguments KIf {A C}. Arguments KBlk {A C}. Arguments KGoto {A C}.
Arguments KInc {A C}. Arguments KDec {A C}. Arguments KCs {A C}. Arguments KWide {A C}. Arguments KWideAdd {A C}.

Definition cmpN (o : cmp) (x n : N) : bool :=
  match o with OEq => x =? n | OLt => x <? n | OLe => x <=? n | OGt => n <? x | OGe => n <=? x end.

Definition key (l : label) : positive :=
  N.succ_pos (match l with
  | LSt n => 8 * n | LCase n => 8 * n + 1 | LTr n => 8 * n + 2 | LEofN n => 8 * n + 3
  | LEntry => 4 | LEof => 5 | LStOut => 6 | LOut => 7 end).

(* blocks with the label that follows them in the source (fall through) *)
Fixpoint link {A C} (bl : list (label * code A C)) : PositiveMap.t (code A C * option label) :=
  match bl with
  | [] => PositiveMap.empty _
  | (l, k) :: r => PositiveMap.add (key l) (k, match r with (l', _) :: _ => Some l' | [] => None end) (link r)
  end.

Section Sem.
Context {A C X : Type}.
Variable sem_act : A -> bytes -> Z -> X -> option X.         (* None: the statement panics *)
Variable sem_cond : C -> X -> bool.
Variable prog : PositiveMap.t (code A C * option label).

Record gst := G { g_p : Z; g_cs : N; g_w : N; g_x : X }.

Inductive res := Fell (s : gst) | Jump (l : label) (s : gst) | Panicked.
(* outcome of a complete run: final cs and the variables of the actions *)
Inductive outcome := Out (cs : N) (x : X) | Panic | NoFuel.

Section Data.
Variable data : bytes.   (* data; pe = eof = len(data) *)

Fixpoint eval (c : gcond C) (s : gst) : option bool :=
  match c with
  | CByte o n => match znth data (g_p s) with Some b => Some (cmpN o (bN b) n) | None => None end
  | CWide o n => Some (cmpN o (g_w s) n)
  | CPe => Some (g_p s =? Z.of_nat (length data))%Z
  | CCs ns => Some (existsb (N.eqb (g_cs s)) ns)
  | CAnd a b => match eval a s with Some true => eval b s | r => r end
  | CExt c => Some (sem_cond c (g_x s))
  end.

Fixpoint run (k : code A C) (s : gst) : res :=
  match k with
  | KNil => Fell s
  | KAct a k => match sem_act a data (g_p s) (g_x s) with Some x => run k (G (g_p s) (g_cs s) (g_w s) x) | None => Panicked end
  | KIf c t e k =>
      match eval c s with
      | None => Panicked
      | Some b => match (if b then run t s else run e s) with Fell s' => run k s' | r => r end
      end
  | KBlk b k => match run b s with Fell s' => run k s' | r => r end
  | KGoto l _ => Jump l s
  | KInc k => run k (G (g_p s + 1) (g_cs s) (g_w s) (g_x s))
  | KDec k => run k (G (g_p s - 1) (g_cs s) (g_w s) (g_x s))
  | KCs n k => run k (G (g_p s) n (g_w s) (g_x s))
  | KWide n k => match znth data (g_p s) with Some b => run k (G (g_p s) (g_cs s) (n + bN b) (g_x s)) | None => Panicked end
  | KWideAdd n k => run k (G (g_p s) (g_cs s) (g_w s + n) (g_x s))
  end.

(* fuel counts label entries *)
Fixpoint exec (f : nat) (l : label) (s : gst) : outcome :=
  match f with
  | O => NoFuel
  | S f =>
    match PositiveMap.find (key l) prog with
    | None => Panic
    | Some (k, nx) =>
      match run k s with
      | Panicked => Panic
      | Jump l' s' => exec f l' s'
      | Fell s' => match nx with Some l' => exec f l' s' | None => Out (g_cs s') (g_x s') end
      end
    end
  end.

Lemma exec_mono f : forall g l s R, exec f l s = R -> R <> NoFuel -> (f <= g)%nat -> exec g l s = R.
Proof.
  induction f as [|f IH]; intros g l s R H HR Hg; cbn [exec] in H; [congruence|].
  destruct g as [|g]; [lia|]. cbn [exec].
  destruct (PositiveMap.find (key l) prog) as [[k nx]|]; [|exact H].
  destruct (run k s) as [s'|l' s'|]; [destruct nx|..]; try exact H; apply IH; auto; lia.
Qed.
End Data.

(* ---------- partial evaluation ---------- *)
(* what is executed for one byte (or at the end of the input) *)
Inductive tree (L : Type) := TNext (n : L) | TOut (cs : N) | TAct (a : A) (t : tree L) | TIf (c : C) (t e : tree L) | TBad.
Arguments TNext {L}. Arguments TOut {L}. Arguments TAct {L}. Arguments TIf {L}. Arguments TBad {L}.

Inductive kpos := KAt (b : byte) | KBef (b : byte) | KEnd | KBefEnd.
Record known := Kn { k_pos : kpos; k_cs : option N; k_w : option N }.

Definition here (k : kpos) : bool := match k with KAt _ | KEnd => true | _ => false end.

(* Some (inl b): known; Some (inr c): unknown condition c; None: give up *)
Fixpoint kcond (c : gcond C) (k : known) : option (bool + C) :=
  match c with
  | CByte o n => match k_pos k with KAt b => Some (inl (cmpN o (bN b) n)) | _ => None end
  | CWide o n => match k_w k with Some w => Some (inl (cmpN o w n)) | None => None end
  | CPe => match k_pos k with KAt _ => Some (inl false) | KEnd => Some (inl true) | _ => None end
  | CCs ns => match k_cs k with Some c => Some (inl (existsb (N.eqb c) ns)) | None => None end
  | CAnd a b => match kcond a k with Some (inl true) => kcond b k | Some (inl false) => Some (inl false) | _ => None end
  | CExt c => Some (inr c)
  end.

Fixpoint pevc (k : code A C) (kn : known) (fall : known -> tree N) (jump : label -> known -> tree N) : tree N :=
  match k with
  | KNil => fall kn
  | KAct a k => if here (k_pos kn) then TAct a (pevc k kn fall jump) else TBad
  | KIf c t e k =>
      let fall' := fun kn' => pevc k kn' fall jump in
      match kcond c kn with
      | None => TBad
      | Some (inl b) => if b then pevc t kn fall' jump else pevc e kn fall' jump
      | Some (inr c) => TIf c (pevc t kn fall' jump) (pevc e kn fall' jump)
      end
  | KBlk b k => pevc b kn (fun kn' => pevc k kn' fall jump) jump
  | KGoto l _ => jump l kn
  | KInc k => match k_pos kn with
              | KBef b => pevc k (Kn (KAt b) (k_cs kn) (k_w kn)) fall jump
              | KBefEnd => pevc k (Kn KEnd (k_cs kn) (k_w kn)) fall jump
              | _ => TBad end
  | KDec k => match k_pos kn with
              | KAt b => pevc k (Kn (KBef b) (k_cs kn) (k_w kn)) fall jump
              | KEnd => pevc k (Kn KBefEnd (k_cs kn) (k_w kn)) fall jump
              | _ => TBad end
  | KCs n k => pevc k (Kn (k_pos kn) (Some n) (k_w kn)) fall jump
  | KWide n k => match k_pos kn with KAt b => pevc k (Kn (k_pos kn) (k_cs kn) (Some (n + bN b))) fall jump | _ => TBad end
  | KWideAdd n k => match k_w kn with Some w => pevc k (Kn (k_pos kn) (k_cs kn) (Some (w + n))) fall jump | None => TBad end
  end.

(* stop at "goto st_n" (n <> 0) when the current byte is the one being processed *)
Definition stop (l : label) (kn : known) : option N :=
  match l, k_pos kn with
  | LSt 0, _ => None
  | LSt n, KAt _ => Some n
  | _, _ => None
  end.

Fixpoint pevl (f : nat) (l : label) (kn : known) : tree N :=
  match f with
  | O => TBad
  | S f =>
    match stop l kn with
    | Some n => TNext n
    | None =>
      match PositiveMap.find (key l) prog with
      | None => TBad
      | Some (k, nx) =>
        pevc k kn (fun kn' => match nx with Some l' => pevl f l' kn' | None => match k_cs kn' with Some c => TOut c | None => TBad end end)
             (fun l' kn' => pevl f l' kn')
      end
    end
  end.

Definition pev_fuel : nat := 12.
Definition tab (n : N) (b : byte) : tree N := pevl pev_fuel (LCase n) (Kn (KAt b) None None).
Definition etab (n : N) : tree N := pevl pev_fuel (LEofN n) (Kn KEnd None None).

Section TreeSem.
Variable data : bytes.
Fixpoint texec {L} (t : tree L) (p : Z) (x : X) (next : L -> X -> outcome) : outcome :=
  match t with
  | TNext n => next n x
  | TOut c => Out c x
  | TAct a t => match sem_act a data p x with Some x' => texec t p x' next | None => Panic end
  | TIf c t e => if sem_cond c x then texec t p x next else texec e p x next
  | TBad => NoFuel
  end.

(* logical position: the index of the byte being processed *)
Definition lpos (k : kpos) (p : Z) : Z := match k with KAt _ | KEnd => p | _ => p + 1 end.
Definition knows (kn : known) (s : gst) : Prop :=
  match k_pos kn with
  | KAt b => znth data (g_p s) = Some b
  | KBef b => znth data (g_p s + 1) = Some b
  | KEnd => g_p s = Z.of_nat (length data)
  | KBefEnd => (g_p s + 1)%Z = Z.of_nat (length data)
  end /\ (forall c, k_cs kn = Some c -> g_cs s = c) /\ (forall w, k_w kn = Some w -> g_w s = w).

Lemma znth_ltlen p b : znth data p = Some b -> (0 <= p < Z.of_nat (length data))%Z.
Proof.
  unfold znth. destruct (Z.ltb_spec p 0); [discriminate|]. intros E.
  assert (nth_error data (Z.to_nat p) <> None) as Hn by congruence.
  apply nth_error_Some in Hn. lia.
Qed.

Lemma kcond_sound c kn s : knows kn s ->
  match kcond c kn with
  | None => True
  | Some (inl b) => eval data c s = Some b
  | Some (inr c') => eval data c s = Some (sem_cond c' (g_x s))
  end.
Proof.
  intros Hk. induction c as [o n|o n| |ns|a IHa b IHb|c']; cbn [kcond eval].
  - destruct Hk as [Hp _]. destruct (k_pos kn); try exact I. rewrite Hp. reflexivity.
  - destruct Hk as [_ [_ Hw]]. destruct (k_w kn); [|exact I]. rewrite (Hw _ eq_refl). reflexivity.
  - destruct Hk as [Hp _]. destruct (k_pos kn); try exact I.
    + apply znth_ltlen in Hp. f_equal. apply Z.eqb_neq. lia.
    + f_equal. apply Z.eqb_eq. exact Hp.
  - destruct Hk as [_ [Hc _]]. destruct (k_cs kn); [|exact I]. rewrite (Hc _ eq_refl). reflexivity.
  - destruct (kcond a kn) as [[[]|]|]; try exact I.
    + destruct (kcond b kn) as [[|]|]; try exact I; rewrite IHa.
      * exact IHb.
      * exact IHb.
    + rewrite IHa. reflexivity.
  - reflexivity.
Qed.

Definition P (kn : known) (s : gst) : Z := lpos (k_pos kn) (g_p s).

(* R is the outcome prescribed by tree t, Q telling the outcome from the next state *)
Fixpoint twp {L} (t : tree L) (p : Z) (x : X) (Q : L -> X -> Prop) (R : outcome) : Prop :=
  match t with
  | TNext n => Q n x
  | TOut c => R = Out c x
  | TAct a t => match sem_act a data p x with Some x' => twp t p x' Q R | None => R = Panic end
  | TIf c t e => if sem_cond c x then twp t p x Q R else twp e p x Q R
  | TBad => False
  end.

Lemma pevc_sound k : forall kn s (fall : known -> tree N) (jump : label -> known -> tree N) (Q : N -> X -> Prop) R
   (Kf : gst -> outcome) (Kj : label -> gst -> outcome),
  knows kn s ->
  (forall kn' s', knows kn' s' -> P kn' s' = P kn s -> twp (fall kn') (P kn s) (g_x s') Q R -> Kf s' = R) ->
  (forall l kn' s', knows kn' s' -> P kn' s' = P kn s -> twp (jump l kn') (P kn s) (g_x s') Q R -> Kj l s' = R) ->
  twp (pevc k kn fall jump) (P kn s) (g_x s) Q R ->
  match run data k s with Fell s' => Kf s' | Jump l s' => Kj l s' | Panicked => Panic end = R.
Proof.
  induction k as [|a k IH|c t IHt e IHe k IH|b IHb k IH|l k IH|k IH|k IH|n k IH|n k IH|n k IH];
    intros kn s fall jump Q R Kf Kj Hk Hf Hj; cbn [pevc run].
  - intros H. eapply Hf; eauto.
  - destruct (here (k_pos kn)) eqn:Eh; [|cbn; tauto]. cbn [twp].
    assert (EP : P kn s = g_p s) by (unfold P, lpos; destruct (k_pos kn); cbn in Eh; congruence).
    intros H. rewrite EP in H.
    destruct (sem_act a data (g_p s) (g_x s)) as [x'|]; [|symmetry; exact H].
    eapply (IH kn (G (g_p s) (g_cs s) (g_w s) x') fall jump Q R Kf Kj); auto.
    unfold P in *. cbn [g_p g_x] in *. rewrite EP in *. exact H.
  - pose proof (kcond_sound c kn s Hk) as Hc.
    assert (Hcont : forall kn' s', knows kn' s' -> P kn' s' = P kn s ->
        twp (pevc k kn' fall jump) (P kn s) (g_x s') Q R ->
        match run data k s' with Fell s'' => Kf s'' | Jump l s'' => Kj l s'' | Panicked => Panic end = R).
    { intros kn' s' Hk' HP' H'. eapply (IH kn' s' fall jump Q R Kf Kj); auto; rewrite HP'; [exact Hf|exact Hj|exact H']. }
    destruct (kcond c kn) as [[bb|c']|]; [| |cbn; tauto].
    + rewrite Hc. intros H. destruct bb.
      * specialize (IHt kn s _ jump Q R _ Kj Hk Hcont Hj H). destruct (run data t s); exact IHt.
      * specialize (IHe kn s _ jump Q R _ Kj Hk Hcont Hj H). destruct (run data e s); exact IHe.
    + rewrite Hc. cbn [twp].
      destruct (sem_cond c' (g_x s)); intros H.
      * specialize (IHt kn s _ jump Q R _ Kj Hk Hcont Hj H). destruct (run data t s); exact IHt.
      * specialize (IHe kn s _ jump Q R _ Kj Hk Hcont Hj H). destruct (run data e s); exact IHe.
  - intros H.
    assert (Hcont : forall kn' s', knows kn' s' -> P kn' s' = P kn s ->
        twp (pevc k kn' fall jump) (P kn s) (g_x s') Q R ->
        match run data k s' with Fell s'' => Kf s'' | Jump l s'' => Kj l s'' | Panicked => Panic end = R).
    { intros kn' s' Hk' HP' H'. eapply (IH kn' s' fall jump Q R Kf Kj); auto; rewrite HP'; [exact Hf|exact Hj|exact H']. }
    specialize (IHb kn s _ jump Q R _ Kj Hk Hcont Hj H). destruct (run data b s); exact IHb.
  - intros H. eapply Hj; eauto.
  - destruct Hk as [Hp [Hc Hw]]. unfold P, lpos in *. destruct (k_pos kn) eqn:Ek; try (cbn; tauto).
    + eapply (IH (Kn (KAt b) (k_cs kn) (k_w kn)) (G (g_p s + 1) (g_cs s) (g_w s) (g_x s)) fall jump Q R Kf Kj);
        [split; [exact Hp|split; assumption]|exact Hf|exact Hj].
    + eapply (IH (Kn KEnd (k_cs kn) (k_w kn)) (G (g_p s + 1) (g_cs s) (g_w s) (g_x s)) fall jump Q R Kf Kj);
        [split; [exact Hp|split; assumption]|exact Hf|exact Hj].
  - destruct Hk as [Hp [Hc Hw]]. unfold P, lpos in *. destruct (k_pos kn) eqn:Ek; try (cbn; tauto).
    + specialize (IH (Kn (KBef b) (k_cs kn) (k_w kn)) (G (g_p s - 1) (g_cs s) (g_w s) (g_x s)) fall jump Q R Kf Kj).
      unfold knows in IH; cbn [g_p k_pos g_x g_w g_cs k_cs k_w] in IH. replace (g_p s - 1 + 1)%Z with (g_p s) in IH by lia.
      apply IH; auto.
    + specialize (IH (Kn KBefEnd (k_cs kn) (k_w kn)) (G (g_p s - 1) (g_cs s) (g_w s) (g_x s)) fall jump Q R Kf Kj).
      unfold knows in IH; cbn [g_p k_pos g_x g_w g_cs k_cs k_w] in IH. replace (g_p s - 1 + 1)%Z with (g_p s) in IH by lia.
      apply IH; auto.
  - destruct Hk as [Hp [Hc Hw]].
    eapply (IH (Kn (k_pos kn) (Some n) (k_w kn)) (G (g_p s) n (g_w s) (g_x s)) fall jump Q R Kf Kj);
       [split; [exact Hp|split; [cbn; congruence|assumption]]|exact Hf|exact Hj].
  - destruct Hk as [Hp [Hc Hw]]. unfold P, lpos in *. destruct (k_pos kn) eqn:Ek; try (cbn; tauto).
    rewrite Hp.
    eapply (IH (Kn (KAt b) (k_cs kn) (Some (n + bN b))) (G (g_p s) (g_cs s) (n + bN b) (g_x s)) fall jump Q R Kf Kj);
       [split; [exact Hp|split; [assumption|cbn; congruence]]|exact Hf|exact Hj].
  - destruct Hk as [Hp [Hc Hw]]. destruct (k_w kn) as [w|]; [|cbn; tauto].
    rewrite (Hw _ eq_refl).
    eapply (IH (Kn (k_pos kn) (k_cs kn) (Some (w + n))) (G (g_p s) (g_cs s) (w + n) (g_x s)) fall jump Q R Kf Kj);
       [split; [exact Hp|split; [assumption|cbn; congruence]]|exact Hf|exact Hj].
Qed.

(* one transition: from label l, the interpreter does what the tree says, in at most f label entries *)
Lemma pevl_sound f : forall l kn s g R,
  knows kn s -> R <> NoFuel ->
  twp (pevl f l kn) (P kn s) (g_x s)
     (fun n x => forall s', g_p s' = P kn s -> g_x s' = x -> exec data g (LSt n) s' = R) R ->
  exec data (f + g) l s = R.
Proof.
  induction f as [|f IH]; intros l kn s g R Hk HR H; cbn [pevl] in H; [destruct H|].
  destruct (stop l kn) as [n|] eqn:Es.
  - assert (l = LSt n /\ exists b, k_pos kn = KAt b) as [-> [b Eb]].
    { unfold stop in Es. destruct l as [|[|q]| | | | | |]; try discriminate; destruct (k_pos kn); try discriminate;
      injection Es as <-; eauto. }
    cbn [twp] in H.
    apply (exec_mono data g); [|exact HR|lia].
    apply H; [|reflexivity]. unfold P. rewrite Eb. reflexivity.
  - cbn [exec plus]. destruct (PositiveMap.find (key l) prog) as [[k nx]|]; [|destruct H].
    match type of H with twp (pevc _ _ ?fall ?jump) _ _ ?Q _ =>
      rewrite <- (pevc_sound k kn s fall jump Q R
        (fun s' => match nx with Some l' => exec data (f + g) l' s' | None => Out (g_cs s') (g_x s') end)
        (fun l' s' => exec data (f + g) l' s') Hk) end.
    + destruct (run data k s); reflexivity.
    + intros kn' s' Hk' HP' H'. destruct nx as [l'|].
      * apply (IH l' kn' s' g R Hk' HR). rewrite HP'. exact H'.
      * destruct (k_cs kn') as [c|] eqn:Ec; cbn in H'; [|destruct H'].
        destruct Hk' as [_ [Hc _]]. rewrite (Hc c Ec). symmetry. exact H'.
    + intros l' kn' s' Hk' HP' H'. apply (IH l' kn' s' g R Hk' HR). rewrite HP'. exact H'.
    + exact H.
Qed.
End TreeSem.

(* ---------- simulation by a structured automaton ---------- *)
(* st_n blocks have the Ragel shape:  st_n: if p++; p == pe { goto _testEof_n };  stCase_n: ... *)
Definition st_shape (n : N) : Prop :=
  PositiveMap.find (key (LSt n)) prog = Some (KInc (KIf CPe (KGoto (LEofN n) KNil) KNil KNil), Some (LCase n)).

Section Auto.
Context {S : Type}.
Variable num : S -> N.
Variable ok : S -> bool.
Variable delta : S -> byte -> tree S.
Variable edelta : S -> tree S.

Fixpoint tmap {L M} (f : L -> M) (t : tree L) : tree M :=
  match t with
  | TNext n => TNext (f n) | TOut c => TOut c | TAct a t => TAct a (tmap f t)
  | TIf c t e => TIf c (tmap f t) (tmap f e) | TBad => TBad end.
(* every leaf is a next state that is ok, or an exit *)
Fixpoint tok {L} (okl : L -> bool) (t : tree L) : bool :=
  match t with
  | TNext n => okl n | TOut _ => true | TAct _ t => tok okl t | TIf _ t e => tok okl t && tok okl e | TBad => false end.

Definition sim_ok : Prop := forall s, ok s = true ->
  st_shape (num s) /\
  (forall b, tab (num s) b = tmap num (delta s b) /\ tok ok (delta s b) = true) /\
  etab (num s) = tmap num (edelta s) /\ tok (fun _ => false) (edelta s) = true.

(* s can be the start state (it need not be the target of a transition, so it need not be ok) *)
Definition entry_ok (s : S) : Prop :=
  (forall b, pevl pev_fuel LEntry (Kn (KAt b) (Some (num s)) None) = tmap num (delta s b) /\ tok ok (delta s b) = true) /\
  pevl pev_fuel LEntry (Kn KEnd (Some (num s)) None) = tmap num (edelta s) /\ tok (fun _ => false) (edelta s) = true.

(* the automaton as a function of the remaining input; p is the index of its first byte *)
Fixpoint arun (data : bytes) (s : S) (p : Z) (rest : bytes) (x : X) : outcome :=
  match rest with
  | [] => texec data (edelta s) p x (fun _ _ => NoFuel)
  | b :: r => texec data (delta s b) p x (fun s' x' => arun data s' (p + 1) r x')
  end.

Lemma texec_fuel {L} data okl (t : tree L) p : forall x next,
  tok okl t = true -> (forall s x, okl s = true -> next s x <> NoFuel) -> texec data t p x next <> NoFuel.
Proof.
  induction t as [n|c|a t IH|c t IHt e IHe|]; intros x next Hok Hn; cbn in *; auto; try congruence.
  - destruct (sem_act a data p x); [auto|congruence].
  - apply andb_true_iff in Hok as [H1 H2]. destruct (sem_cond c x); auto.
Qed.

Lemma twp_tmap {L M} data okl (f : L -> M) (t : tree L) p (next : L -> X -> outcome) (Q : M -> X -> Prop) R : forall x,
  tok okl t = true -> (forall l x, okl l = true -> next l x = R -> Q (f l) x) ->
  texec data t p x next = R -> twp data (tmap f t) p x Q R.
Proof.
  induction t as [n|c|a t IH|c t IHt e IHe|]; intros x Hok Hn H; cbn in *; auto.
  - destruct (sem_act a data p x); auto.
  - apply andb_true_iff in Hok as [H1 H2]. destruct (sem_cond c x); auto.
  - congruence.
Qed.

Hypothesis Hsim : sim_ok.

Lemma arun_fuel data rest : forall s p x, ok s = true -> arun data s p rest x <> NoFuel.
Proof.
  induction rest as [|b r IH]; intros s p x Hs; cbn [arun]; destruct (Hsim s Hs) as [_ [Hd [_ He]]].
  - apply (texec_fuel data (fun _ => false)); [exact He|discriminate].
  - apply (texec_fuel data ok); [apply Hd|]. intros s' x' Hs'. apply IH. exact Hs'.
Qed.

Definition step_fuel : nat := 14.

Lemma exec_from_st data rest : forall s pre gs,
  ok s = true -> data = pre ++ rest -> (g_p gs + 1)%Z = Z.of_nat (length pre) ->
  exec data (step_fuel * (length rest + 1)) (LSt (num s)) gs = arun data s (Z.of_nat (length pre)) rest (g_x gs).
Proof.
  induction rest as [|b r IH]; intros s pre gs Hs Hd Hp; destruct (Hsim s Hs) as [Hsh [Hde [Het Hen]]].
  - apply (exec_mono data (Datatypes.S (pev_fuel + 1))); [|apply arun_fuel; exact Hs|cbn; lia].
    cbn [exec]. rewrite Hsh. cbn [run eval g_p].
    rewrite Hp. rewrite Hd, app_nil_r, Z.eqb_refl. cbn [run]. rewrite <- (app_nil_r pre), <- Hd.
    eapply (pevl_sound data pev_fuel (LEofN (num s)) (Kn KEnd None None)).
    + split; [|split; discriminate]. reflexivity.
    + apply arun_fuel. exact Hs.
    + fold (etab (num s)). rewrite Het. eapply twp_tmap; [exact Hen| |reflexivity]. discriminate.
  - replace (step_fuel * (length (b :: r) + 1))%nat with (Datatypes.S (pev_fuel + (1 + step_fuel * (length r + 1))))%nat
      by (cbn [length]; unfold step_fuel, pev_fuel; lia).
    cbn [exec]. rewrite Hsh. cbn [run eval g_p]. rewrite Hp.
    assert (E : (Z.of_nat (length pre) =? Z.of_nat (length data))%Z = false)
      by (apply Z.eqb_neq; rewrite Hd, app_length; cbn; lia).
    rewrite E. cbn [run].
    eapply (pevl_sound data pev_fuel (LCase (num s)) (Kn (KAt b) None None)).
    + split; [|split; discriminate]. cbn. rewrite Hd. apply znth_app.
    + apply arun_fuel. exact Hs.
    + fold (tab (num s) b). destruct (Hde b) as [-> Hok].
      eapply twp_tmap; [exact Hok| |reflexivity].
      intros s' x' Hs' HR s'' Hp' Hx'. cbn in Hp'. subst x'.
      rewrite <- HR. apply (exec_mono data (step_fuel * (length r + 1))); [|apply arun_fuel; exact Hs'|lia].
      rewrite (IH s' (pre ++ [b]) s'' Hs').
      * rewrite app_length. cbn [length]. unfold P; cbn [k_pos g_p lpos]. 
        replace (Z.of_nat (length pre + 1)) with (Z.of_nat (length pre) + 1)%Z by lia. reflexivity.
      * rewrite Hd, <- app_assoc. reflexivity.
      * rewrite Hp', app_length. cbn [length]. unfold P; cbn. lia.
Qed.

Definition exec_fuel (data : bytes) : nat := step_fuel * (length data + 1).

(* A complete run of the goto program from p = 0, cs = num s is the run of the automaton. *)
Theorem exec_arun data s x w : entry_ok s ->
  exec data (exec_fuel data) LEntry (G 0 (num s) w x) = arun data s 0 data x.
Proof.
  intros [He0 [He1 Hen]].
  assert (HF : arun data s 0 data x <> NoFuel).
  { destruct data as [|b r]; cbn [arun].
    - apply (texec_fuel [] (fun _ => false)); [exact Hen|discriminate].
    - apply (texec_fuel (b :: r) ok); [apply He0|]. intros s' x' Hs'. apply arun_fuel. exact Hs'. }
  destruct data as [|b r].
  - apply (exec_mono [] (pev_fuel + 1)); [|exact HF|cbn; lia].
    eapply (pevl_sound [] pev_fuel LEntry (Kn KEnd (Some (num s)) None)).
    + split; [reflexivity|split; cbn; congruence].
    + exact HF.
    + rewrite He1. eapply twp_tmap; [exact Hen| |reflexivity]. discriminate.
  - unfold exec_fuel.
    replace (step_fuel * (length (b :: r) + 1))%nat with (pev_fuel + (2 + step_fuel * (length r + 1)))%nat
      by (cbn [length]; unfold step_fuel, pev_fuel; lia).
    eapply (pevl_sound (b :: r) pev_fuel LEntry (Kn (KAt b) (Some (num s)) None)).
    + split; [reflexivity|split; cbn; congruence].
    + exact HF.
    + destruct (He0 b) as [-> Hok]. eapply twp_tmap; [exact Hok| |reflexivity].
      intros s' x' Hs' HR s'' Hp' Hx'. cbn in Hp'. subst x'.
      change (P _ _) with 0%Z in *.
      apply (exec_mono (b :: r) (step_fuel * (length r + 1))); [|exact HF|lia].
      rewrite (exec_from_st (b :: r) r s' [b] s'' Hs'); [exact HR|reflexivity|rewrite Hp'; reflexivity].
Qed.

(* leaf states of delta satisfy ok; used by inductive proofs over arun *)
Lemma sim_delta_ok s b : ok s = true -> tok ok (delta s b) = true.
Proof. intros Hs. apply (Hsim s Hs). Qed.
End Auto.

Section TreeEq.
Variable aeq : A -> A -> bool.
Variable ceq : C -> C -> bool.
Fixpoint tree_eqb (t u : tree N) : bool :=
  match t, u with
  | TNext n, TNext m => n =? m
  | TOut n, TOut m => n =? m
  | TAct a t, TAct b u => aeq a b && tree_eqb t u
  | TIf c t e, TIf d u v => ceq c d && tree_eqb t u && tree_eqb e v
  | TBad, TBad => true
  | _, _ => false
  end.
Hypothesis aeq_ok : forall a b, aeq a b = true -> a = b.
Hypothesis ceq_ok : forall a b, ceq a b = true -> a = b.
Lemma tree_eqb_ok t : forall u, tree_eqb t u = true -> t = u.
Proof.
  induction t as [n|c|a t IH|c t IHt e IHe|]; intros [m|d|b u|d u v|]; cbn; try discriminate; auto.
  - intros H. apply N.eqb_eq in H. congruence.
  - intros H. apply N.eqb_eq in H. congruence.
  - intros H. apply andb_true_iff in H as [H1 H2]. f_equal; auto.
  - intros H. apply andb_true_iff in H as [H H3]. apply andb_true_iff in H as [H1 H2]. f_equal; auto.
Qed.
End TreeEq.

(* boolean form of st_shape *)
Definition st_shapeb (n : N) : bool :=
  match PositiveMap.find (key (LSt n)) prog with
  | Some (KInc (KIf CPe (KGoto (LEofN m) KNil) KNil KNil), Some (LCase k)) => (n =? m) && (n =? k)
  | _ => false
  end.
Lemma st_shapeb_ok n : st_shapeb n = true -> st_shape n.
Proof.
  unfold st_shapeb, st_shape. destruct (PositiveMap.find (key (LSt n)) prog) as [[k nx]|]; [|discriminate].
  destruct k as [| | | | |k| | | |]; try discriminate.
  destruct k as [| |c t e k| | | | | | |]; try discriminate. destruct c; try discriminate.
  destruct t as [| | | |l t| | | | |]; try discriminate. destruct l; try discriminate.
  destruct t; try discriminate. destruct e; try discriminate. destruct k; try discriminate.
  destruct nx as [l|]; [|discriminate]. destruct l; try discriminate.
  rewrite andb_true_iff, !N.eqb_eq. intros [-> <-]. reflexivity.
Qed.
End Sem.
Arguments TNext {A C L}. Arguments TOut {A C L}. Arguments TAct {A C L}. Arguments TIf {A C L}. Arguments TBad {A C L}.
Arguments Out {X}. Arguments Panic {X}. Arguments NoFuel {X}.
Arguments G {X}. Arguments tree : clear implicits. Arguments outcome : clear implicits. Arguments gst : clear implicits.
