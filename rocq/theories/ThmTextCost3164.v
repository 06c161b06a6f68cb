(* C88: what Parse of rfc3164 copies: linear, except for the content, which is quadratic. *)
From Coq Require Import FMapPositive.
From Verif Require Import Bytes GoTime Cal Common GotoLang M3164Def Gen3164 A3164 M3164 Thm3164 MTextCost3164.
Local Open Scope Z_scope.

(* ---- forgetting the counters ---- *)
Definition pr (s : gst Y) : gst vars := G (g_p s) (g_cs s) (g_w s) (fst (g_x s)).
Definition pr_res (r : @GotoLang.res Y) : @GotoLang.res vars := match r with Fell s => Fell (pr s) | Jump l s => Jump l (pr s) | Panicked => Panicked end.
Definition pr_out (o : GotoLang.outcome Y) : GotoLang.outcome vars := match o with Out cs y => Out cs (fst y) | Panic => Panic | NoFuel => NoFuel end.
Lemma e_act a data p y : option_map fst (w_act a data p y) = sem_act a data p (fst y).
Proof. unfold w_act. destruct (sem_act a data p (fst y)); reflexivity. Qed.
Lemma e_eval data c s : eval w_cnd data c s = eval sem_cnd data c (pr s).
Proof. induction c as [| | | |a IHa b IHb|]; cbn [eval]; try reflexivity. rewrite IHa, IHb. reflexivity. Qed.
Lemma e_run data k : forall s, pr_res (run w_act w_cnd data k s) = run sem_act sem_cnd data k (pr s).
Proof.
  induction k as [|a k IH|c t IHt e IHe k IH|b IHb k IH|l k IH|k IH|k IH|n k IH|n k IH|n k IH]; intros s; cbn [run]; try reflexivity; try apply IH.
  - change (g_x (pr s)) with (fst (g_x s)). change (g_p (pr s)) with (g_p s). rewrite <- e_act. destruct (w_act a data (g_p s) (g_x s)) as [y|]; [apply IH|reflexivity].
  - rewrite e_eval. destruct (eval sem_cnd data c (pr s)) as [[|]|]; [| |reflexivity].
    + rewrite <- IHt. destruct (run w_act w_cnd data t s); [apply IH|reflexivity|reflexivity].
    + rewrite <- IHe. destruct (run w_act w_cnd data e s); [apply IH|reflexivity|reflexivity].
  - rewrite <- IHb. destruct (run w_act w_cnd data b s); [apply IH|reflexivity|reflexivity].
  - change (g_p (pr s)) with (g_p s). destruct (znth data (g_p s)); [apply IH|reflexivity].
Qed.
Lemma e_exec data f : forall l s, pr_out (exec w_act w_cnd code3164 data f l s) = exec sem_act sem_cnd code3164 data f l (pr s).
Proof.
  induction f as [|f IH]; intros l s; [reflexivity|]. cbn [exec]. destruct (PositiveMap.find (key l) code3164) as [[k nx]|]; [|reflexivity].
  rewrite <- e_run. destruct (run w_act w_cnd data k s) as [s'|l' s'|]; cbn [pr_res]; [|apply IH|reflexivity]. destruct nx; [apply IH|reflexivity].
Qed.
(* what Parse answers is what it answers without the counters *)
Definition answered (m : machine) (o : GotoLang.outcome Y) : ret := match o with
  | Out cs (x, _) => if ((cs <? 333) || (cs =? 373))%N then (if bestEffort m && minimal (m_out x) then Ret (Some (export (m_out x))) (m_err x) else Ret None (m_err x)) else Ret (Some (export (m_out x))) None
  | Panic => RPanic | NoFuel => RDiverge end.
Theorem copy3164_results m input : snd (parse m input) = answered m (w_parse m input).
Proof.
  unfold parse, w_parse. pose proof (e_exec input (exec_fuel input) LEntry (G 0 1 0 (prepare (mv m), (0, 0)))) as E.
  change (pr (G 0 1 0 (prepare (mv m), (0, 0)))) with (G 0 1%N 0%N (prepare (mv m))) in E. rewrite <- E.
  destruct (exec w_act w_cnd code3164 input (exec_fuel input) LEntry _) as [cs [x c]| |]; reflexivity.
Qed.

(* ---- how each statement changes what the counters depend on ---- *)
Inductive kind := KMark | KCut | KContent | KOther.
Definition kind_of (a : act) : kind := match a with
  | APb => KMark | APriority | ATimeStamp | ATimeRfc3339 | ATimeInLoc | AHostname | ATag | AMessage => KCut | AContent => KContent | _ => KOther end.
(* how often text was taken since the mark; whether the content was taken at this byte *)
Record know := Know { ku : nat; kw : bool }.
Definition K : nat := 3.
Definition after (k : kind) (q : know) : option know := match q with Know u w => match k with
  | KMark => Some (Know 0 w)
  | KCut => if Nat.ltb u K then Some (Know (S u) w) else None
  | KContent => if w then None else Some (Know u true)
  | KOther => Some q end end.
(* what is known in each state before its byte is read *)
Definition know_at (s : st) : nat := match s with
  | S330 | STs _ | S19 | SR _ | S324 | SCont _ _ | S1 | S2 => 0
  | S331 | S332 => 1
  | S3 => 2
  | S4 => 3
  | SHost k => if (k =? 0)%N then 2 else 0
  | S22 => 1
  | STag _ => 0
  | S366 | S367 | S368 | S333 => 1
  | SFail => 3
  end%nat.
Fixpoint chk (t : tr) (q : know) : bool := match t with
  | TNext s => ok s && Nat.leb (ku q) (know_at s)
  | TOut _ => true
  | TAct a t => match after (kind_of a) q with Some q' => chk t q' | None => false end
  | TIf _ a b => chk a q && chk b q
  | TBad => true
  end.
Lemma check : forallb (fun s => forallb (fun b => chk (delta s b) (Know (know_at s) false)) all_bytes && chk (edelta s) (Know (know_at s) false)) (S1 :: all_states) = true.
Proof. vm_compute. reflexivity. Qed.
Lemma check_at s : s = S1 \/ ok s = true -> (forall b, chk (delta s b) (Know (know_at s) false) = true) /\ chk (edelta s) (Know (know_at s) false) = true.
Proof.
  intros H. pose proof check as C. rewrite forallb_forall in C. specialize (C s). cbv beta in C. rewrite andb_true_iff in C.
  destruct C as [C1 C2]; [destruct H as [->|H]; [left; reflexivity|right; apply all_states_complete, H]|]. split; [|exact C2]. intros b. exact (forall_bytes _ C1 b).
Qed.
Lemma know_small s : (know_at s <= K)%nat.
Proof. unfold K. destruct s; cbn [know_at]; try lia. destruct (k =? 0)%N; lia. Qed.

(* ---- the invariant ---- *)
(* n: the length of the input; p: where the machine is *)
Record inv (n : Z) (q : know) (p : Z) (y : Y) : Prop := Inv {
  i_pb : 0 <= m_pb (fst y) <= p; i_p : p <= n;
  i_u : (ku q <= K)%nat;
  i_c : 0 <= fst (snd y) <= Z.of_nat K * m_pb (fst y) + Z.of_nat (ku q) * (p - m_pb (fst y));
  i_r : 0 <= 2 * snd (snd y) <= p * (p - 1) + (if kw q then 2 * p else 0) }.
Lemma zslice_le d i j t : zslice d i j = Some t -> 0 <= i <= j.
Proof.
  unfold zslice. destruct (_ && _) eqn:E; [|discriminate]. apply andb_true_iff in E as [E E3]. apply andb_true_iff in E as [E1 E2]. apply Z.leb_le in E1, E2. lia.
Qed.
Lemma act_other a data p x x' : sem_act a data p x = Some x' -> kind_of a <> KMark -> m_pb x' = m_pb x.
Proof.
  intros H Hk. destruct a; cbn [kind_of] in Hk; try (exfalso; apply Hk; reflexivity); cbn [sem_act] in H; unfold with_text, text_of in H;
    repeat match type of H with context [match ?c with _ => _ end] => destruct c eqn:? end; try discriminate H; injection H as <-; reflexivity.
Qed.
Lemma cut_size a data p x x' : sem_act a data p x = Some x' ->
  match kind_of a with KCut => taken a p x = p - m_pb x /\ content_taken a p x = 0 | KContent => taken a p x = 0 /\ content_taken a p x = p - m_pb x | _ => taken a p x = 0 /\ content_taken a p x = 0 end.
Proof. destruct a; cbn [kind_of]; intros _; split; reflexivity. Qed.
Lemma act_inv n a data p y y' q q' : w_act a data p y = Some y' -> after (kind_of a) q = Some q' -> inv n q p y -> inv n q' p y'.
Proof.
  destruct y as [x [c r]]. unfold w_act. cbn [fst snd]. destruct (sem_act a data p x) as [x'|] eqn:E; [|discriminate]. intros H Ha [P1 P2 P3 P4 P5]. injection H as <-. cbn [fst snd] in *.
  pose proof (cut_size _ _ _ _ _ E) as T. destruct q as [u w]. cbn [ku kw] in *. unfold K in *.
  assert (Pu : 0 <= Z.of_nat u * (p - m_pb x) <= 3 * (p - m_pb x)) by (split; [nia|apply Z.mul_le_mono_nonneg_r; lia]).
  destruct (kind_of a) eqn:Ek; cbn [after] in Ha; destruct T as [T M].
  - injection Ha as <-. destruct a; try discriminate Ek. injection E as <-. constructor; cbn [fst snd ku kw m_pb set_m_pb]; rewrite ?T, ?M; unfold K; lia.
  - unfold K in Ha. destruct (Nat.ltb_spec u 3); [|discriminate]. injection Ha as <-. rewrite <- (act_other _ _ _ _ _ E) in * by (rewrite Ek; discriminate).
    constructor; cbn [fst snd ku kw]; rewrite ?T, ?M; unfold K; lia.
  - destruct w; [discriminate|]. injection Ha as <-. rewrite <- (act_other _ _ _ _ _ E) in * by (rewrite Ek; discriminate).
    constructor; cbn [fst snd ku kw]; rewrite ?T, ?M; unfold K; lia.
  - injection Ha as <-. rewrite <- (act_other _ _ _ _ _ E) in * by (rewrite Ek; discriminate).
    constructor; cbn [fst snd ku kw]; rewrite ?T, ?M; unfold K; lia.
Qed.
Lemma le_inv n q k p y : Nat.leb (ku q) k = true -> (k <= K)%nat -> p < n -> inv n q p y -> inv n (Know k false) (p + 1) y.
Proof.
  intros H Hk Hp [P1 P2 P3 P4 P5]. apply Nat.leb_le in H. unfold K in *. constructor; cbn [ku kw]; unfold K; try lia.
  - assert (Z.of_nat (ku q) * (p - m_pb (fst y)) <= Z.of_nat k * (p + 1 - m_pb (fst y))) by (apply Z.mul_le_mono_nonneg; lia). lia.
  - destruct (kw q); lia.
Qed.
(* what is promised at the end *)
Definition good (n : Z) (o : GotoLang.outcome Y) : Prop := match o with Out _ (_, (c, r)) => 0 <= c <= 3 * n /\ 0 <= 2 * r <= n * (n + 1) | _ => True end.
Lemma inv_good n q p x c r : inv n q p (x, (c, r)) -> 0 <= c <= 3 * n /\ 0 <= 2 * r <= n * (n + 1).
Proof.
  intros [P1 P2 P3 P4 P5]. cbn [fst snd] in *. unfold K in *.
  assert (Z.of_nat (ku q) * (p - m_pb x) <= 3 * (p - m_pb x)) by (apply Z.mul_le_mono_nonneg_r; lia). split; [lia|]. assert (p * (p + 1) <= n * (n + 1)) by nia. destruct (kw q); lia.
Qed.
Lemma texec_good n data p next (t : tr) : forall q y, chk t q = true -> inv n q p y ->
  (forall s q' y', ok s = true -> Nat.leb (ku q') (know_at s) = true -> inv n q' p y' -> good n (next s y')) -> good n (texec w_act w_cnd data t p y next).
Proof.
  induction t as [s|cs|a t IH|c t IHt e IHe|]; intros q y Hc Hi Hn; cbn [texec chk] in *.
  - apply andb_true_iff in Hc as [H1 H2]. eapply Hn; eassumption.
  - destruct y as [x [c r]]. exact (inv_good _ _ _ _ _ _ Hi).
  - destruct (after (kind_of a) q) as [q'|] eqn:Ea; [|discriminate]. destruct (w_act a data p y) as [y'|] eqn:Ew; [|exact I]. eapply IH; [exact Hc|eapply act_inv; eassumption|exact Hn].
  - apply andb_true_iff in Hc as [H1 H2]. destruct (w_cnd c y); [eapply IHt|eapply IHe]; eassumption.
  - exact I.
Qed.
Notation wrun := (arun w_act w_cnd delta edelta).
Lemma arun_good data w : forall s p y, s = S1 \/ ok s = true -> p + Z.of_nat (length w) = Z.of_nat (length data) -> inv (Z.of_nat (length data)) (Know (know_at s) false) p y -> good (Z.of_nat (length data)) (wrun data s p w y).
Proof.
  induction w as [|b w IH]; intros s p y Hs Hp Hi; cbn [arun].
  - eapply texec_good; [apply check_at, Hs|exact Hi|]. intros. exact I.
  - eapply texec_good; [apply check_at, Hs|exact Hi|]. intros s' q' y' Ho Hl Hi'. cbn [length] in Hp. apply IH; [auto|lia|]. eapply le_inv; try eassumption; [apply know_small|lia].
Qed.
Lemma w_parse_run m data : w_parse m data = wrun data S1 0 data (prepare (mv m), (0, 0)).
Proof. unfold w_parse. pose proof (exec_arun w_act w_cnd code3164 num ok delta edelta sim3164 data S1 (prepare (mv m), (0, 0)) 0%N entry3164) as E. unfold Y in *. exact E. Qed.
Lemma w_parse_good m data : good (Z.of_nat (length data)) (w_parse m data).
Proof. rewrite w_parse_run. apply arun_good; [auto|lia|]. constructor; cbn; unfold K; lia. Qed.

(* ---- without a ] in the input no content is taken ---- *)
Fixpoint chk2 (t : tr) : bool := match t with
  | TNext s => ok s
  | TAct AContent _ => false
  | TAct _ t => chk2 t
  | TIf _ a b => chk2 a && chk2 b
  | TOut _ | TBad => true
  end.
Lemma check2 : forallb (fun s => forallb (fun b => beqb b "]" || chk2 (delta s b)) all_bytes && chk2 (edelta s)) (S1 :: all_states) = true.
Proof. vm_compute. reflexivity. Qed.
Lemma check2_at s : s = S1 \/ ok s = true -> (forall b, b <> "]"%byte -> chk2 (delta s b) = true) /\ chk2 (edelta s) = true.
Proof.
  intros H. pose proof check2 as C. rewrite forallb_forall in C. specialize (C s). cbv beta in C. rewrite andb_true_iff in C.
  destruct C as [C1 C2]; [destruct H as [->|H]; [left; reflexivity|right; apply all_states_complete, H]|]. split; [|exact C2]. intros b Hb. pose proof (forall_bytes _ C1 b) as D. cbv beta in D.
  apply orb_true_iff in D as [D|D]; [|exact D]. exfalso. apply Hb. apply beqb_eq. exact D.
Qed.
Definition plain_out (o : GotoLang.outcome Y) : Prop := match o with Out _ y => snd (snd y) = 0 | _ => True end.
Lemma texec_plain data p next (t : tr) : forall y, chk2 t = true -> snd (snd y) = 0 -> (forall s y', ok s = true -> snd (snd y') = 0 -> plain_out (next s y')) -> plain_out (texec w_act w_cnd data t p y next).
Proof.
  induction t as [s|cs|a t IH|c t IHt e IHe|]; intros y Hc Hi Hn; cbn [texec chk2] in *.
  - apply Hn; assumption.
  - exact Hi.
  - destruct (w_act a data p y) as [y'|] eqn:Ew; [|exact I]. assert (a <> AContent /\ chk2 t = true) as [N1 N2] by (destruct a; try discriminate Hc; (split; [discriminate|exact Hc])).
    apply IH; [exact N2| |exact Hn]. unfold w_act in Ew. destruct (sem_act a data p (fst y)); [|discriminate Ew]. injection Ew as <-. cbn [snd]. rewrite Hi. destruct a; try reflexivity. congruence.
  - apply andb_true_iff in Hc as [H1 H2]. destruct (w_cnd _ y); [apply IHt|apply IHe]; assumption.
  - exact I.
Qed.
Lemma arun_plain data w : forall s p y, s = S1 \/ ok s = true -> ~ In "]"%byte w -> snd (snd y) = 0 -> plain_out (wrun data s p w y).
Proof.
  induction w as [|b w IH]; intros s p y Hs Hw Hi; cbn [arun].
  - apply texec_plain; [apply check2_at, Hs|exact Hi|]. intros. exact I.
  - apply texec_plain; [apply check2_at; [exact Hs|intros ->; apply Hw; left; reflexivity]|exact Hi|]. intros s' y' Ho Hi'. apply IH; [auto|intros H; apply Hw; right; exact H|exact Hi'].
Qed.

(* ---- C88 ---- *)
Lemma w_parse_ends m data : exists cs x c, w_parse m data = Out cs (x, c).
Proof.
  pose proof (copy3164_results m data) as R. destruct (parse3164_total m data) as [r [e E]]. rewrite E in R. destruct (w_parse m data) as [cs [x c]| |]; [eauto|discriminate R|discriminate R].
Qed.
(* the text taken from the input, the content apart, is at most three times the input, and the content at most n * (n + 1) / 2 bytes *)
Theorem copies3164_bounded m data : exists c r, copies3164 m data = Some (c, r) /\ 0 <= c <= 3 * Z.of_nat (length data) /\ 0 <= 2 * r <= Z.of_nat (length data) * (Z.of_nat (length data) + 1).
Proof.
  destruct (w_parse_ends m data) as [cs [x [[c r] E]]]. exists c, r. unfold copies3164. pose proof (w_parse_good m data) as G. rewrite E in *. split; [reflexivity|exact G].
Qed.
(* without a ] in the input no content is taken *)
Theorem copies3164_plain m data : ~ In "]"%byte data -> exists c, copies3164 m data = Some (c, 0) /\ 0 <= c <= 3 * Z.of_nat (length data).
Proof.
  intros H. destruct (copies3164_bounded m data) as [c [r [E [B _]]]]. exists c. unfold copies3164 in *. rewrite w_parse_run in *.
  pose proof (arun_plain data data S1 0 (prepare (mv m), (0, 0)) (or_introl eq_refl) H eq_refl) as P. destruct (wrun data S1 0 data _) as [cs [x [c' r']]| |]; try discriminate E.
  injection E as <- <-. cbn [plain_out snd] in P. rewrite P. auto.
Qed.

(* ---- a message whose content is n brackets ---- *)
(* running a part of the input that is known *)
Fixpoint ptree (d : bytes) (t : tr) (p : Z) (y : Y) : option (st * Y) := match t with
  | TNext s => Some (s, y)
  | TAct a t => match w_act a d p y with Some y' => ptree d t p y' | None => None end
  | TIf c a b => if w_cnd c y then ptree d a p y else ptree d b p y
  | TOut _ | TBad => None
  end.
Fixpoint prun (d : bytes) (s : st) (p : Z) (w : bytes) (y : Y) : option (st * Y) :=
  match w with [] => Some (s, y) | b :: r => match ptree d (delta s b) p y with Some (s', y') => prun d s' (p + 1) r y' | None => None end end.
Lemma zslice_more d e i j t : zslice d i j = Some t -> zslice (d ++ e) i j = Some t.
Proof.
  unfold zslice. rewrite app_length. destruct (_ && _) eqn:E; [|discriminate]. apply andb_true_iff in E as [E E3]. apply andb_true_iff in E as [E1 E2]. apply Z.leb_le in E1, E2, E3.
  intros H. injection H as <-. replace (0 <=? i) with true by (symmetry; apply Z.leb_le; lia). replace (i <=? j) with true by (symmetry; apply Z.leb_le; lia).
  replace (j <=? _) with true by (symmetry; apply Z.leb_le; lia). cbn [andb]. f_equal. rewrite skipn_app, firstn_app, skipn_length.
  replace (Z.to_nat (j - i) - (length d - Z.to_nat i))%nat with 0%nat by lia. cbn [firstn]. apply app_nil_r.
Qed.
Lemma act_more a d e p y y' : w_act a d p y = Some y' -> w_act a (d ++ e) p y = Some y'.
Proof.
  unfold w_act. destruct (sem_act a d p (fst y)) as [x'|] eqn:E; [|discriminate]. intros H. injection H as <-.
  assert (sem_act a (d ++ e) p (fst y) = Some x') as ->; [|reflexivity].
  destruct a; cbn [sem_act] in *; unfold with_text, text_of in *; try exact E;
    (destruct (zslice d _ _) as [t|] eqn:Es; [|discriminate E]); rewrite (zslice_more _ e _ _ _ Es); exact E.
Qed.
Lemma ptree_more d e p next (t : tr) : forall y s y', ptree d t p y = Some (s, y') -> texec w_act w_cnd (d ++ e) t p y next = next s y'.
Proof.
  induction t as [s0|cs|a t IH|c t IHt e' IHe|]; intros y s y' H; cbn [ptree texec] in *; try discriminate H.
  - injection H as <- <-. reflexivity.
  - destruct (w_act a d p y) as [y1|] eqn:E; [|discriminate H]. rewrite (act_more _ _ e _ _ _ E). apply IH, H.
  - destruct (w_cnd c y); [apply IHt|apply IHe]; exact H.
Qed.
Lemma prun_more d e v w : forall s p y s' y', prun d s p w y = Some (s', y') -> wrun (d ++ e) s p (w ++ v) y = wrun (d ++ e) s' (p + Z.of_nat (length w)) v y'.
Proof.
  induction w as [|b w IH]; intros s p y s' y' H; cbn [prun app length arun] in *.
  - injection H as <- <-. f_equal. lia.
  - destruct (ptree d (delta s b) p y) as [[s1 y1]|] eqn:E; [|discriminate H]. rewrite (ptree_more _ e _ _ _ _ _ _ E). rewrite (IH _ _ _ _ _ H). f_equal. lia.
Qed.
Definition head3164 : bytes := lit "<1>Oct 11 22:14:15 h a[".
Definition brackets_message (n : nat) : bytes := head3164 ++ repeat "]"%byte n.
Lemma head_run m : exists x c, prun head3164 S1 0 head3164 (prepare (mv m), (0, 0)) = Some (S368, (x, (c, 0))).
Proof.
  destruct m as [[m1 m2 [yy rf [l|] [tz|]] m4 m5 m6] b]; do 2 eexists; (lazy -[add_years in_loc stamp_in to_u8]; reflexivity).
Qed.
Lemma zslice_some d i j : 0 <= i <= j -> j <= Z.of_nat (length d) -> exists t, zslice d i j = Some t.
Proof.
  intros A B. unfold zslice. replace (0 <=? i) with true by (symmetry; apply Z.leb_le; lia). replace (i <=? j) with true by (symmetry; apply Z.leb_le; lia).
  replace (j <=? _) with true by (symmetry; apply Z.leb_le; lia). eexists. reflexivity.
Qed.
Lemma brackets_run data n : forall p x c r, 0 <= m_pb x <= p -> p + Z.of_nat n = Z.of_nat (length data) ->
  exists x' c' r', wrun data (SCont false 1) p (repeat "]"%byte n) (x, (c, r)) = Out 370%N (x', (c', r')) /\ 2 * r' = 2 * r + 2 * Z.of_nat n * (p - m_pb x) + Z.of_nat n * (Z.of_nat n - 1).
Proof.
  induction n as [|n IH]; intros p x c r Hp Hn; cbn [repeat arun].
  - change (edelta (SCont false 1)) with (TAct AMessage (TOut 370) : tr). cbn [texec]. unfold w_act. cbn [sem_act fst snd taken content_taken]. unfold with_text, text_of.
    destruct (zslice_some data (m_pb x) p) as [t ->]; [lia|lia|]. do 3 eexists. split; [reflexivity|lia].
  - change (delta (SCont false 1) "]"%byte) with (TAct AContent (TNext (SCont false 1)) : tr). cbn [texec]. unfold w_act at 1. cbn [sem_act fst snd taken content_taken]. unfold with_text, text_of.
    destruct (zslice_some data (m_pb x) p) as [t ->]; [lia|lia|]. destruct (IH (p + 1) (upd (set_o_content t) x) (c + 0) (r + (p - m_pb x))) as [x' [c' [r' [E R]]]]; [cbn [m_pb upd set_m_out]; lia|lia|].
    exists x', c', r'. split; [exact E|]. rewrite R. cbn [m_pb upd set_m_out]. nia.
Qed.
(* a message of 24 + n bytes, which is accepted, of whose content n * (n + 1) / 2 bytes are taken *)
Theorem copies3164_brackets m n : exists c r msg, copies3164 m (brackets_message (S n)) = Some (c, r) /\ 2 * r = Z.of_nat n * (Z.of_nat n + 1)
  /\ snd (parse m (brackets_message (S n))) = Ret (Some msg) None.
Proof.
  destruct (head_run m) as [x [c H]]. set (data := brackets_message (S n)).
  assert (R : w_parse m data = wrun data S368 23 (repeat "]"%byte (S n)) (x, (c, 0))).
  { rewrite w_parse_run. unfold data at 2. unfold brackets_message. unfold data, brackets_message. rewrite (prun_more _ _ _ _ _ _ _ _ _ H). reflexivity. }
  cbn [repeat arun] in R. change (delta S368 "]"%byte) with (acts [APb; AContent] (TNext (SCont false 1))) in R. cbn [acts texec] in R. unfold w_act at 1 in R. cbn [sem_act fst snd taken content_taken] in R.
  unfold w_act at 1 in R. cbn [sem_act fst snd taken content_taken] in R. unfold with_text, text_of in R. cbn [m_pb set_m_pb] in R.
  assert (L : Z.of_nat (length data) = 24 + Z.of_nat n) by (unfold data, brackets_message; rewrite app_length, repeat_length; change (length head3164) with 23%nat; lia).
  destruct (zslice_some data 23 23) as [t Ht]; [lia|lia|]. rewrite Ht in R.
  destruct (brackets_run data n (23 + 1) (upd (set_o_content t) (set_m_pb 23 x)) (c + 0 + 0) (0 + 0 + (23 - 23))) as [x' [c' [r' [E Q]]]]; [cbn [m_pb upd set_m_out set_m_pb]; lia|lia|].
  assert (W : w_parse m data = Out 370%N (x', (c', r'))) by (unfold Y in *; rewrite R; exact E). exists c', r', (export (m_out x')). unfold copies3164. rewrite copy3164_results, W.
  split; [reflexivity|]. split; [|reflexivity]. cbn [m_pb upd set_m_out set_m_pb] in Q. nia.
Qed.
Lemma brackets_message_length n : length (brackets_message n) = (23 + n)%nat.
Proof. unfold brackets_message. rewrite app_length, repeat_length. reflexivity. Qed.
(* so no constant bounds the bytes taken by a multiple of the length of the message *)
Theorem copies3164_not_linear m k : exists data c r msg, copies3164 m data = Some (c, r) /\ snd (parse m data) = Ret (Some msg) None /\ k * (Z.of_nat (length data) + 1) < r.
Proof.
  set (n := Z.to_nat (30 + 30 * Z.abs k)). destruct (copies3164_brackets m n) as [c [r [msg [E [Q R]]]]]. exists (brackets_message (S n)), c, r, msg. split; [exact E|]. split; [exact R|].
  rewrite brackets_message_length. assert (N : Z.of_nat n = 30 + 30 * Z.abs k) by (unfold n; lia). pose proof (Z.abs_spec k). nia.
Qed.
(* <1>Oct 11 22:14:15 h a[]]]: the content is taken three times, as the empty text, as ] and as ]] *)
Example copies3164_brackets_ex : option_map snd (copies3164 (new_machine true plain) (brackets_message 3)) = Some 3
  /\ option_map snd (copies3164 (new_machine true plain) (brackets_message 80)) = Some 3160 /\ length (brackets_message 80) = 103%nat.
Proof. vm_compute. repeat split. Qed.
