(* C90: what the setters copy: linear in the arguments, except for un-escaping a parameter value, which is quadratic. *)
From Coq Require Import FMapPositive.
From Verif Require Import Bytes GoMap GoTime Common GotoLang M5424Def A5424 M5424 BuilderBaseDef GenBuilder ABuilder MBuilder MSetCost.
From Verif Require MTextCost ThmTextCost ThmBuilder.
Local Open Scope Z_scope.

(* ---- forgetting the counters ---- *)
Definition pr (s : gst Y) : gst bvars := G (g_p s) (g_cs s) (g_w s) (fst (g_x s)).
Definition pr_res (r : @GotoLang.res Y) : @GotoLang.res bvars := match r with Fell s => Fell (pr s) | Jump l s => Jump l (pr s) | Panicked => Panicked end.
Definition pr_out (o : GotoLang.outcome Y) : GotoLang.outcome bvars := match o with Out cs y => Out cs (fst y) | Panic => Panic | NoFuel => NoFuel end.
Lemma e_act a data p y : option_map fst (w_act a data p y) = sem_act a data p (fst y).
Proof. unfold w_act. destruct (sem_act a data p (fst y)); reflexivity. Qed.
Lemma e_eval data c s : eval w_cnd data c s = eval sem_cnd data c (pr s).
Proof. induction c as [| | | |a IHa b IHb|]; cbn [eval]; try reflexivity. rewrite IHa, IHb. reflexivity. Qed.
Lemma e_run data k : forall s, pr_res (run w_act w_cnd data k s) = run sem_act sem_cnd data k (pr s).
Proof.
  induction k as [|a k IH|c t IHt e IHe k IH|b IHb k IH|l k IH|k IH|k IH|n k IH|n k IH|n k IH]; intros s; cbn [run]; try reflexivity; try apply IH.
  - change (g_x (pr s)) with (fst (g_x s)). change (g_p (pr s)) with (g_p s). rewrite <- e_act. destruct (w_act a data (g_p s) (g_x s)) as [y|]; [apply IH|reflexivity].
  - rewrite e_eval. destruct (eval sem_cnd data c (pr s)) as [[|]|]; [| |reflexivity].
    + rewrite <- IHt. destruct (run w_act w_cnd data t s); [apply IH|reflexivity|reflexivity].
    + rewrite <- IHe. destruct (run w_act w_cnd data e s); [apply IH|reflexivity|reflexivity].
  - rewrite <- IHb. destruct (run w_act w_cnd data b s); [apply IH|reflexivity|reflexivity].
  - change (g_p (pr s)) with (g_p s). destruct (znth data (g_p s)); [apply IH|reflexivity].
Qed.
Lemma e_exec data f : forall l s, pr_out (exec w_act w_cnd codeB data f l s) = exec sem_act sem_cnd codeB data f l (pr s).
Proof.
  induction f as [|f IH]; intros l s; [reflexivity|]. cbn [exec]. destruct (PositiveMap.find (key l) codeB) as [[k nx]|]; [|reflexivity].
  rewrite <- e_run. destruct (run w_act w_cnd data k s) as [s'|l' s'|]; cbn [pr_res]; [|apply IH|reflexivity]. destruct nx; [apply IH|reflexivity].
Qed.
Lemma e_bset from g sm v : option_map fst (w_bset from g sm v) = bset from g sm v.
Proof.
  unfold bset, w_bset. set (x0 := BVars 0 [] sm (currentid g) (currentparamname g) None [] [] false []).
  pose proof (e_exec v (exec_fuel v) LEntry (G 0 (translate from) 0 (x0, (size v, 0)))) as E.
  change (pr (G 0 (translate from) 0 (x0, (size v, 0)))) with (G 0 (translate from) 0%N x0) in E. rewrite <- E.
  destruct (exec w_act w_cnd codeB v (exec_fuel v) LEntry _) as [cs [x c]| |]; reflexivity.
Qed.
(* a call does what it does without the counters *)
Theorem set_results g sm c : option_map fst (w_step g sm c) = step g sm c.
Proof.
  assert (B : forall from v, option_map fst (w_with_g g (w_bset from g sm v)) = with_g g (bset from g sm v)) by (intros from v; rewrite <- e_bset; destruct (w_bset from g sm v) as [[m k]|]; reflexivity).
  destruct c as [v|v|v|v|v|v|v|v|id name v|v]; cbn [w_step step]; try apply B; try reflexivity.
  unfold w_set_parameter, set_parameter. rewrite <- e_bset. destruct (w_bset EpSdid g sm id) as [[sm1 c1]|]; [|reflexivity]. cbn [option_map fst].
  destruct (structuredData sm1) as [m|]; [|reflexivity]. destruct (mget m id); [|reflexivity]. cbv zeta. rewrite <- e_bset.
  destruct (w_bset EpSdpn _ sm1 name) as [[sm2 c2]|]; [|reflexivity]. cbn [option_map fst]. destruct (mget _ name); [|reflexivity]. rewrite <- e_bset.
  destruct (w_bset EpSdpv _ sm2 v) as [[sm3 c3]|]; reflexivity.
Qed.

(* ---- the invariant ---- *)
(* how often text was taken, the backslashes recorded at this byte, whether b_text was just taken, whether it was stripped *)
Record know := Know { ku : nat; kg : nat; kf : bool; kw : bool }.
Definition after (a : act) (q : know) : option know := match q with Know u g f w => match a with
  | BPb => if f then None else Some q
  | BBackAppend => if Nat.ltb g 1 then Some (Know u (S g) f w) else None
  | BTimeParse | BSLocal | BIdLocal | BSdNewParam => if Nat.ltb u 2 then Some (Know (S u) g f w) else None
  | BTextLocal => if Nat.ltb u 2 then Some (Know (S u) g true w) else None
  | BTextStrip => if f && negb w && Nat.eqb g 0 then Some (Know u g f true) else None
  | BSdSetParam => if f && Nat.ltb u 2 then Some (Know (S u) g f w) else None
  | _ => Some q end end.
Definition q0 : know := Know 0 0 false false.
Fixpoint chk (t : btr) (q : know) : bool := match t with
  | TNext s => bok s && Nat.eqb (ku q) 0 && negb (kw q)
  | TOut _ => true
  | TAct a t => match after a q with Some q' => chk t q' | None => false end
  | TIf _ a b => chk a q && chk b q
  | TBad => true
  end.
Lemma check : forallb (fun s => forallb (fun b => chk (bdelta s b) q0) all_bytes && chk (bedelta s) q0) (entries ++ ball_states) = true.
Proof. vm_compute. reflexivity. Qed.
Definition known (s : bst) : Prop := In s entries \/ bok s = true.
Lemma check_at s : known s -> (forall b, chk (bdelta s b) q0 = true) /\ chk (bedelta s) q0 = true.
Proof.
  intros H. pose proof check as C. rewrite forallb_forall in C. specialize (C s). cbv beta in C. rewrite andb_true_iff in C.
  destruct C as [C1 C2]; [apply in_app_iff; destruct H as [H|H]; [left; exact H|right; apply ball_states_complete, H]|]. split; [|exact C2]. intros b. exact (forall_bytes _ C1 b).
Qed.
(* n: the length of the argument; p: where the automaton is *)
Record inv (n : Z) (q : know) (p : Z) (y : Y) : Prop := Inv {
  i_pb : 0 <= b_pb (fst y) <= p; i_p : p <= n; i_u : (ku q <= 2)%nat; i_g : (kg q <= 1)%nat;
  i_c : n <= fst (snd y) <= n + Z.of_nat (ku q) * n;
  i_r : 0 <= snd (snd y) <= (if kw q then n * (n + 1) else 0);
  i_f : kf q = true -> size (b_text (fst y)) <= n;
  i_b : Z.of_nat (length (b_back (fst y))) <= p + Z.of_nat (kg q) }.
Lemma act_inv n a data p y y' q q' : w_act a data p y = Some y' -> after a q = Some q' -> inv n q p y -> inv n q' p y'.
Proof.
  destruct y as [x [c r]]. unfold w_act. cbn [fst snd]. destruct (sem_act a data p x) as [x'|] eqn:E; [|discriminate]. intros H Ha [P1 P2 P3 P4 P5 P6 P7 P8]. injection H as <-. cbn [fst snd] in *.
  destruct q as [u g f w]. cbn [ku kg kf kw] in *. assert (Hn : 0 <= n) by lia. pose proof (ThmTextCost.size_pos (b_text x)) as Hs.
  destruct a; cbn [after] in Ha; cbn [sem_act] in E; cbn [taken moved];
    try (match type of Ha with (if Nat.ltb u 2 then _ else _) = _ => destruct (Nat.ltb_spec u 2); [|discriminate Ha] end; injection Ha as <-;
      unfold with_btext in E; (destruct (zslice data (b_pb x) p) as [t|] eqn:ZS; [|discriminate E]); apply ThmTextCost.zslice_size in ZS;
      try injection E as <-; constructor; cbn [fst snd ku kg kf kw b_pb b_back b_text set_b_s set_b_t set_b_id set_b_text bupd set_b_sm]; try lia; try assumption; fail);
    try (injection Ha as <-; first [injection E as <-|idtac];
      repeat match type of E with context [match ?d with _ => _ end] => destruct d eqn:?; try discriminate E end; try injection E as <-;
      constructor; cbn [fst snd ku kg kf kw b_pb b_back b_text set_b_ok bupd set_b_sm]; try lia; try assumption; fail).
  - destruct f; [discriminate|]. injection Ha as <-. injection E as <-. constructor; cbn [fst snd ku kg kf kw b_pb b_back b_text set_b_pb]; try lia; try discriminate.
  - destruct (Nat.ltb_spec g 1); [|discriminate]. injection Ha as <-. injection E as <-. constructor; cbn [fst snd ku kg kf kw b_pb b_back b_text set_b_back]; try lia; try assumption. rewrite app_length. cbn [length]. lia.
  - (* new parameter *) destruct (Nat.ltb_spec u 2); [|discriminate]. injection Ha as <-. destruct (zslice data (b_pb x) p) as [t|] eqn:ZS; [|discriminate E]. apply ThmTextCost.zslice_size in ZS.
    unfold put_elem in E. repeat match type of E with context [match ?d with _ => _ end] => destruct d eqn:?; try discriminate E end. injection E as <-.
    constructor; cbn [fst snd ku kg kf kw b_pb b_back b_text bupd set_b_sm]; try lia; try assumption.
  - (* strip *) destruct (_ && _) eqn:F; [|discriminate]. apply andb_true_iff in F as [F G]. apply andb_true_iff in F as [-> F]. destruct w; [discriminate|]. apply Nat.eqb_eq in G. subst g. injection Ha as <-. specialize (P7 eq_refl).
    destruct (remove_bytes (b_text x) (b_back x) (b_pb x)) as [t|] eqn:R; [|discriminate E]. injection E as <-.
    assert (St : size t <= size (b_text x)).
    { clear - R. unfold remove_bytes in R. revert R. generalize 0 at 1. generalize (b_back x) (b_pb x) (b_text x). intros l o. induction l as [|h l IH]; intros cp i H; cbn [remove_loop] in H; [injection H as <-; lia|].
      destruct (_ && _) eqn:E; [|discriminate]. apply IH in H. unfold size in *. rewrite app_length, firstn_length, skipn_length in H. apply andb_true_iff in E as [E1 E2]. apply Z.leb_le in E1, E2. lia. }
    pose proof (ThmTextCost.moves_bound (b_back x) (b_text x) 0 (b_pb x)) as M.
    constructor; cbn [fst snd ku kg kf kw b_pb b_back b_text set_b_text]; try lia. unfold MTextCost.remove_cost. nia.
  - (* the value *) destruct (f && _) eqn:F; [|discriminate]. apply andb_true_iff in F as [-> F]. apply Nat.ltb_lt in F. injection Ha as <-. specialize (P7 eq_refl).
    unfold put_elem in E. repeat match type of E with context [match ?d with _ => _ end] => destruct d eqn:?; try discriminate E end. injection E as <-.
    constructor; cbn [fst snd ku kg kf kw b_pb b_back b_text bupd set_b_sm]; try lia; try (intros _; assumption).
Qed.
Definition good (n : Z) (o : GotoLang.outcome Y) : Prop := match o with Out _ (_, (c, r)) => n <= c <= 3 * n /\ 0 <= r <= n * (n + 1) | _ => True end.
Lemma inv_good n q p x c r : inv n q p (x, (c, r)) -> n <= c <= 3 * n /\ 0 <= r <= n * (n + 1).
Proof.
  intros [P1 P2 P3 P4 P5 P6 P7 P8]. cbn [fst snd] in *. assert (Z.of_nat (ku q) * n <= 2 * n) by (apply Z.mul_le_mono_nonneg_r; lia). split; [lia|]. destruct (kw q); nia.
Qed.
Lemma texec_good n data p next (t : btr) : forall q y, chk t q = true -> inv n q p y ->
  (forall s q' y', bok s = true -> ku q' = 0%nat -> kw q' = false -> inv n q' p y' -> good n (next s y')) -> good n (texec w_act w_cnd data t p y next).
Proof.
  induction t as [s|cs|a t IH|c t IHt e IHe|]; intros q y Hc Hi Hn; cbn [texec chk] in *.
  - apply andb_true_iff in Hc as [H H2]. apply andb_true_iff in H as [H H1]. apply Nat.eqb_eq in H1. apply negb_true_iff in H2. eapply Hn; eassumption.
  - destruct y as [x [c r]]. exact (inv_good _ _ _ _ _ _ Hi).
  - destruct (after a q) as [q'|] eqn:Ea; [|discriminate]. destruct (w_act a data p y) as [y'|] eqn:Ew; [|exact I]. eapply IH; [exact Hc|eapply act_inv; eassumption|exact Hn].
  - apply andb_true_iff in Hc as [H1 H2]. destruct (w_cnd c y); [eapply IHt|eapply IHe]; eassumption.
  - exact I.
Qed.
Lemma next_inv n q p y : ku q = 0%nat -> kw q = false -> p < n -> inv n q p y -> inv n q0 (p + 1) y.
Proof. intros H1 H2 Hp [P1 P2 P3 P4 P5 P6 P7 P8]. rewrite H1 in *. rewrite H2 in *. constructor; cbn [ku kg kf kw q0]; try lia; try discriminate. Qed.
Notation wrun := (arun w_act w_cnd bdelta bedelta).
Lemma arun_good data w : forall s p y, known s -> p + Z.of_nat (length w) = size data -> inv (size data) q0 p y -> good (size data) (wrun data s p w y).
Proof.
  unfold size in *. induction w as [|b w IH]; intros s p y Hs Hp Hi; cbn [arun].
  - eapply texec_good; [apply check_at, Hs|exact Hi|]. intros. exact I.
  - eapply texec_good; [apply check_at, Hs|exact Hi|]. intros s' q' y' Ho Hu Hw Hi'. cbn [length] in Hp. apply IH; [right; exact Ho|lia|]. eapply next_inv; try eassumption. lia.
Qed.
Definition entry_of (from : entrypoint) : bst := match from with EpTimestamp => BTs0 | EpHostname => BW WHost 0 | EpAppname => BW WApp 0 | EpProcid => BW WProc 0
  | EpMsgid => BW WMsgid 0 | EpSdid => BW WId 0 | EpSdpn => BW WPn 0 | EpSdpv => BV0 | EpMsg => BM0 end.
Lemma entry_in from : In (entry_of from) entries. Proof. destruct from; cbn; tauto. Qed.
Lemma entry_num from : translate from = bnum (entry_of from). Proof. destruct from; reflexivity. Qed.
Definition start (g : globals) (sm : message) : bvars := BVars 0 [] sm (currentid g) (currentparamname g) None [] [] false [].
Lemma w_bset_run from g sm v : w_bset from g sm v = match wrun v (entry_of from) 0 v (start g sm, (size v, 0)) with Out _ (x, c) => Some (b_sm x, c) | _ => None end.
Proof.
  unfold w_bset. rewrite entry_num. fold (start g sm).
  pose proof (exec_arun w_act w_cnd codeB bnum bok bdelta bedelta simB v (entry_of from) (start g sm, (size v, 0)) 0%N (entryB _ (entry_in from))) as E.
  unfold Y in *. rewrite E. reflexivity.
Qed.
Lemma w_bset_bound from g sm v sm' c r : w_bset from g sm v = Some (sm', (c, r)) -> size v <= c <= 3 * size v /\ 0 <= r <= size v * (size v + 1).
Proof.
  rewrite w_bset_run. intros H. pose proof (arun_good v v (entry_of from) 0 (start g sm, (size v, 0)) (or_introl (entry_in from))) as G.
  destruct (wrun v (entry_of from) 0 v _) as [cs [x [c' r']]| |]; try discriminate H. injection H as <- <- <-. cbn [good] in G. apply G; [unfold size; lia|].
  pose proof (ThmTextCost.size_pos v). constructor; cbn [fst snd ku kg kf kw q0 start b_pb b_back b_text length]; try lia; try discriminate.
Qed.

(* ---- without a backslash nothing is moved ---- *)
Fixpoint chk2 (t : btr) : bool := match t with
  | TNext s => bok s
  | TAct (BTextStrip | BBackAppend) _ => false
  | TAct _ t => chk2 t
  | TIf CHasBackslash _ b => chk2 b
  | TIf _ a b => chk2 a && chk2 b
  | TOut _ | TBad => true
  end.
Lemma check2 : forallb (fun s => forallb (fun b => beqb b "\" || chk2 (bdelta s b)) all_bytes && chk2 (bedelta s)) (entries ++ ball_states) = true.
Proof. vm_compute. reflexivity. Qed.
Lemma check2_at s : known s -> (forall b, b <> "\"%byte -> chk2 (bdelta s b) = true) /\ chk2 (bedelta s) = true.
Proof.
  intros H. pose proof check2 as C. rewrite forallb_forall in C. specialize (C s). cbv beta in C. rewrite andb_true_iff in C.
  destruct C as [C1 C2]; [apply in_app_iff; destruct H as [H|H]; [left; exact H|right; apply ball_states_complete, H]|]. split; [|exact C2]. intros b Hb. pose proof (forall_bytes _ C1 b) as D. cbv beta in D.
  apply orb_true_iff in D as [D|D]; [|exact D]. exfalso. apply Hb. apply beqb_eq. exact D.
Qed.
Definition plain (y : Y) : Prop := b_back (fst y) = [] /\ snd (snd y) = 0.
Definition plain_out (o : GotoLang.outcome Y) : Prop := match o with Out _ y => snd (snd y) = 0 | _ => True end.
Lemma act_plain a data p y y' : w_act a data p y = Some y' -> a <> BTextStrip -> a <> BBackAppend -> plain y -> plain y'.
Proof.
  destruct y as [x [c r]]. unfold w_act, plain. cbn [fst snd]. destruct (sem_act a data p x) as [x'|] eqn:E; [|discriminate]. intros H N1 N2 [P1 P2]. injection H as <-. cbn [fst snd].
  assert (moved a x = 0) as -> by (destruct a; try reflexivity; congruence). split; [|lia].
  destruct a; try congruence; cbn [sem_act] in E; unfold with_btext, put_elem in E;
    repeat match type of E with context [match ?c with _ => _ end] => destruct c eqn:? end; try discriminate E; injection E as <-; exact P1.
Qed.
Lemma texec_plain data p next (t : btr) : forall y, chk2 t = true -> plain y -> (forall s y', bok s = true -> plain y' -> plain_out (next s y')) -> plain_out (texec w_act w_cnd data t p y next).
Proof.
  induction t as [s|cs|a t IH|c t IHt e IHe|]; intros y Hc Hi Hn; cbn [texec chk2] in *.
  - apply Hn; assumption.
  - apply Hi.
  - destruct (w_act a data p y) as [y'|] eqn:Ew; [|exact I]. assert (a <> BTextStrip /\ a <> BBackAppend /\ chk2 t = true) as [N1 [N2 N3]] by (destruct a; try discriminate Hc; (split; [discriminate|split; [discriminate|exact Hc]])).
    apply IH; [exact N3|eapply act_plain; eassumption|exact Hn].
  - destruct c; try (apply andb_true_iff in Hc as [H1 H2]; destruct (w_cnd _ y); [apply IHt|apply IHe]; assumption).
    unfold w_cnd. cbn [sem_cnd]. destruct Hi as [Hb Hr]. rewrite Hb. apply IHe; [exact Hc|split; assumption|exact Hn].
  - exact I.
Qed.
Lemma arun_plain data w : forall s p y, known s -> ~ In "\"%byte w -> plain y -> plain_out (wrun data s p w y).
Proof.
  induction w as [|b w IH]; intros s p y Hs Hw Hi; cbn [arun].
  - apply texec_plain; [apply check2_at, Hs|exact Hi|]. intros. exact I.
  - apply texec_plain; [apply check2_at; [exact Hs|intros ->; apply Hw; left; reflexivity]|exact Hi|]. intros s' y' Ho Hi'. apply IH; [right; exact Ho|intros H; apply Hw; right; exact H|exact Hi'].
Qed.
Lemma w_bset_plain from g sm v sm' c r : ~ In "\"%byte v -> w_bset from g sm v = Some (sm', (c, r)) -> r = 0.
Proof.
  intros Hv. rewrite w_bset_run. intros H. pose proof (arun_plain v v (entry_of from) 0 (start g sm, (size v, 0)) (or_introl (entry_in from)) Hv) as G.
  destruct (wrun v (entry_of from) 0 v _) as [cs [x [c' r']]| |]; try discriminate H. injection H as <- <- <-. apply G. split; reflexivity.
Qed.
(* only the automaton of parameter values moves anything *)
Lemma w_bset_word from g sm v sm' c r : from <> EpSdpv -> w_bset from g sm v = Some (sm', (c, r)) -> r = 0.
Proof.
  intros Hf. rewrite w_bset_run.
  assert (K : forall w s p y, In s (map entry_of [EpTimestamp; EpHostname; EpAppname; EpProcid; EpMsgid; EpSdid; EpSdpn; EpMsg]) \/ match s with BTs _ | BW _ _ | BM => True | _ => False end -> plain y -> plain_out (wrun v s p w y)).
  { assert (C1 : forall s b t, s = BTs0 \/ s = BM0 \/ match s with BTs _ | BW _ _ | BM => True | _ => False end -> bdelta s b = t -> match t with TOut _ => True | TNext s' => match s' with BTs _ | BW _ _ | BM => True | _ => False end | TAct BPb (TNext s') => match s' with BTs _ | BW _ _ | BM => True | _ => False end | _ => False end).
    { intros s b t Hs <-. destruct s; cbn [bdelta]; try (destruct Hs as [Hs|[Hs|Hs]]; try discriminate Hs; try destruct Hs; fail); repeat match goal with |- context [if ?c then _ else _] => destruct c end; try exact I; try (destruct (ts_next _ _); exact I). }
    assert (C2 : forall s, s = BTs0 \/ s = BM0 \/ match s with BTs _ | BW _ _ | BM => True | _ => False end -> chk2 (bedelta s) = true).
    { intros s Hs. destruct s; cbn [bedelta]; try (destruct Hs as [Hs|[Hs|Hs]]; try discriminate Hs; try destruct Hs; fail); try reflexivity; [destruct (n =? 578)%N; reflexivity|]. destruct (k =? 0)%N; [reflexivity|]. destruct w; reflexivity. }
    assert (K : forall w s p y, s = BTs0 \/ s = BM0 \/ match s with BTs _ | BW _ _ | BM => True | _ => False end -> plain y -> plain_out (wrun v s p w y)).
    { induction w as [|b w IH]; intros s p y Hs Hy; cbn [arun].
      - apply texec_plain; [apply C2, Hs|exact Hy|]. intros. exact I.
      - pose proof (C1 s b _ Hs eq_refl) as D. destruct (bdelta s b) as [s'|cs|a t|cc t e|]; cbn [texec]; try contradiction.
        + apply IH; [auto|exact Hy].
        + exact (proj2 Hy).
        + destruct a; try contradiction. destruct t; try contradiction. destruct (w_act BPb v p y) as [y'|] eqn:E; [|exact I]. cbn [texec]. apply IH; [auto|]. eapply act_plain; [exact E|discriminate|discriminate|exact Hy]. }
    intros w s p y Hs Hy. apply K; [|exact Hy]. destruct Hs as [Hs|Hs]; [|auto]. cbn in Hs. repeat (destruct Hs as [<-|Hs]; [auto|]). destruct Hs. }
  intros H. specialize (K v (entry_of from) 0 (start g sm, (size v, 0))). destruct (wrun v (entry_of from) 0 v _) as [cs [x [c' r']]| |]; try discriminate H. injection H as <- <- <-.
  apply K; [left; destruct from; cbn; try tauto|split; reflexivity].
Qed.

(* ---- C90 ---- *)
(* the bytes of the arguments of a call *)
Definition given (c : call) : Z := match c with
  | SetPriority _ | SetVersion _ => 0
  | SetTimestamp v | SetHostname v | SetAppname v | SetProcID v | SetMsgID v | SetElementID v | SetMessage v => Z.of_nat (length v)
  | SetParameter id name v => Z.of_nat (length id) + Z.of_nat (length name) + Z.of_nat (length v) end.
Definition value_of (c : call) : bytes := match c with SetParameter _ _ v => v | _ => [] end.
Lemma w_step_bound g sm c g' sm' k r : w_step g sm c = Some (g', sm', (k, r)) ->
  0 <= k <= 3 * given c /\ 0 <= r <= Z.of_nat (length (value_of c)) * (Z.of_nat (length (value_of c)) + 1).
Proof.
  assert (B : forall from v, from <> EpSdpv -> w_with_g g (w_bset from g sm v) = Some (g', sm', (k, r)) -> 0 <= k <= 3 * Z.of_nat (length v) /\ 0 <= r <= 0).
  { intros from v Hf H. destruct (w_bset from g sm v) as [[m [k1 r1]]|] eqn:E; [|discriminate H]. injection H as <- <- <- <-. pose proof (w_bset_bound _ _ _ _ _ _ _ E) as [B _]. rewrite (w_bset_word _ _ _ _ _ _ _ Hf E). unfold size in B. lia. }
  destruct c as [v|v|v|v|v|v|v|v|id name v|v]; cbn [w_step given value_of length]; try (apply B; discriminate).
  - intros H. injection H as <- <- <- <-. lia.
  - intros H. injection H as <- <- <- <-. lia.
  - unfold w_set_parameter. destruct (w_bset EpSdid g sm id) as [[sm1 [k1 r1]]|] eqn:E1; [|discriminate]. pose proof (w_bset_bound _ _ _ _ _ _ _ E1) as [B1 _]. pose proof (w_bset_word EpSdid _ _ _ _ _ _ ltac:(discriminate) E1) as R1.
    unfold size in B1. assert (0 <= Z.of_nat (length v) * (Z.of_nat (length v) + 1)) by nia.
    destruct (structuredData sm1) as [m|]; [|intros H1; injection H1 as <- <- <- <-; lia]. destruct (mget m id); [|intros H1; injection H1 as <- <- <- <-; lia]. cbv zeta.
    destruct (w_bset EpSdpn _ sm1 name) as [[sm2 [k2 r2]]|] eqn:E2; [|discriminate]. pose proof (w_bset_bound _ _ _ _ _ _ _ E2) as [B2 _]. pose proof (w_bset_word EpSdpn _ _ _ _ _ _ ltac:(discriminate) E2) as R2. unfold size in B2.
    destruct (mget _ name); [|intros H1; unfold plus in H1; cbn [fst snd] in H1; injection H1 as <- <- <- <-; lia].
    destruct (w_bset EpSdpv _ sm2 v) as [[sm3 [k3 r3]]|] eqn:E3; [|discriminate]. pose proof (w_bset_bound _ _ _ _ _ _ _ E3) as [B3 R3]. unfold size in B3, R3.
    intros H1. unfold plus in H1. cbn [fst snd] in H1. injection H1 as <- <- <- <-. lia.
Qed.
(* a call copies at most three times its arguments, and RemoveBytes moves at most n * (n + 1) bytes for a parameter value of n bytes,
   and nothing in any other call *)
Theorem set_copies_bounded g sm c : exists g' sm' k r, w_step g sm c = Some (g', sm', (k, r)) /\ step g sm c = Some (g', sm') /\
  0 <= k <= 3 * given c /\ 0 <= r <= Z.of_nat (length (value_of c)) * (Z.of_nat (length (value_of c)) + 1).
Proof.
  pose proof (ThmBuilder.set_never_panics g sm c) as N. rewrite <- set_results in *. destruct (w_step g sm c) as [[[g' sm'] [k r]]|] eqn:E; [|exfalso; apply N; reflexivity].
  exists g', sm', k, r. split; [reflexivity|]. split; [reflexivity|]. exact (w_step_bound _ _ _ _ _ _ _ E).
Qed.
(* without a backslash in the value nothing is moved *)
Theorem set_copies_plain g sm c g' sm' k r : ~ In "\"%byte (value_of c) -> w_step g sm c = Some (g', sm', (k, r)) -> r = 0.
Proof.
  intros Hv H. destruct c as [v|v|v|v|v|v|v|v|id name v|v]; try (destruct (w_step_bound _ _ _ _ _ _ _ H) as [_ B]; cbn [value_of length] in B; lia).
  cbn [w_step value_of] in *. unfold w_set_parameter in H. destruct (w_bset EpSdid g sm id) as [[sm1 [k1 r1]]|] eqn:E1; [|discriminate H]. pose proof (w_bset_word EpSdid _ _ _ _ _ _ ltac:(discriminate) E1) as R1.
  destruct (structuredData sm1) as [m|]; [|injection H as <- <- <- <-; lia]. destruct (mget m id); [|injection H as <- <- <- <-; lia]. cbv zeta in H.
  destruct (w_bset EpSdpn _ sm1 name) as [[sm2 [k2 r2]]|] eqn:E2; [|discriminate H]. pose proof (w_bset_word EpSdpn _ _ _ _ _ _ ltac:(discriminate) E2) as R2.
  destruct (mget _ name); [|unfold plus in H; cbn [fst snd] in H; injection H as <- <- <- <-; lia].
  destruct (w_bset EpSdpv _ sm2 v) as [[sm3 [k3 r3]]|] eqn:E3; [|discriminate H]. pose proof (w_bset_plain _ _ _ _ _ _ _ Hv E3) as R3. unfold plus in H. cbn [fst snd] in H. injection H as <- <- <- <-. lia.
Qed.

(* ---- n escaped quotes ---- *)
Notation escapes := ThmTextCost.escapes.
Notation every2 := ThmTextCost.every2.
Lemma escapes_run data n : forall p x c r, exists c', wrun data BV p (escapes n) (x, (c, r)) = wrun data BV (p + 2 * Z.of_nat n) [] (set_b_back (b_back x ++ every2 p n) x, (c', r)).
Proof.
  induction n as [|n IH]; intros p x c r.
  - exists c. cbn [ThmTextCost.escapes ThmTextCost.every2]. rewrite app_nil_r. replace (p + 2 * Z.of_nat 0) with p by lia. destruct x; reflexivity.
  - cbn [ThmTextCost.escapes]. cbn [arun]. change (bdelta BV "\"%byte) with (TAct BBackAppend (TNext BEsc) : btr). change (bdelta BEsc """"%byte) with (TNext BV : btr). cbn [texec].
    unfold w_act at 1. cbn [sem_act fst snd taken moved]. destruct (IH (p + 1 + 1) (set_b_back (b_back x ++ [p]) x) (c + 0) (r + 0)) as [c' E]. exists c'. etransitivity; [exact E|].
    cbn [b_back set_b_back ThmTextCost.every2]. rewrite <- app_assoc. cbn [app]. replace (p + 1 + 1) with (p + 2) by lia. replace (p + 2 * Z.of_nat (S n)) with (p + 2 + 2 * Z.of_nat n) by lia. rewrite Z.add_0_r. reflexivity.
Qed.
Lemma escapes_strip n : forall i off, exists t, remove_loop (repeat """"%byte i ++ escapes n) (every2 (off + 2 * Z.of_nat i) n) (Z.of_nat i) off = Some t.
Proof.
  induction n as [|n IH]; intros i off; [eexists; reflexivity|]. cbn [ThmTextCost.every2 remove_loop ThmTextCost.escapes]. 
  replace (off + 2 * Z.of_nat i - Z.of_nat i - off) with (Z.of_nat i) by lia.
  replace (Z.to_nat (Z.of_nat i + 1)) with (S i) by lia. rewrite Nat2Z.id.
  assert (L : length (repeat """"%byte i) = i) by apply repeat_length.
  replace (_ && _) with true; [|symmetry; apply andb_true_iff; split; apply Z.leb_le; [lia|rewrite app_length, L; cbn [length]; lia]].
  assert (SK : forall a l, skipn (S i) (repeat """"%byte i ++ a :: l) = l) by (intros a l; rewrite skipn_app, L, skipn_all2 by lia; replace (S i - i)%nat with 1%nat by lia; reflexivity).
  assert (FI : forall l, firstn i (repeat """"%byte i ++ l) = repeat """"%byte i) by (intros l; rewrite firstn_app, L, Nat.sub_diag, firstn_O, app_nil_r; apply firstn_all2; lia).
  rewrite SK, FI. replace (repeat """"%byte i ++ """"%byte :: escapes n) with (repeat """"%byte (S i) ++ escapes n).
  - replace (off + 2 * Z.of_nat i + 2) with (off + 2 * Z.of_nat (S i)) by lia. replace (Z.of_nat i + 1) with (Z.of_nat (S i)) by lia. apply IH.
  - change (repeat """"%byte (S i)) with (""""%byte :: repeat """"%byte i). rewrite repeat_cons. rewrite <- app_assoc. reflexivity.
Qed.
(* setting a new parameter whose value is n escaped quotes, 2 n bytes, moves n * n + 2 * n bytes *)
Theorem set_copies_escaped g n : exists g' sm' k, w_step g empty_message (SetParameter (lit "a") (lit "b") (escapes (S n))) = Some (g', sm', (k, Z.of_nat (S n) * Z.of_nat (S n) + 2 * Z.of_nat (S n))).
Proof.
  destruct g as [ci cp]. set (M1 := set_structuredData (Some [(lit "a", [])]) empty_message). set (M2 := set_structuredData (Some [(lit "a", [(lit "b", [])])]) empty_message).
  assert (E1 : w_bset EpSdid (Globals ci cp) empty_message (lit "a") = Some (M1, (2, 0))) by (vm_compute; reflexivity).
  assert (E2 : w_bset EpSdpn (Globals (lit "a") cp) M1 (lit "b") = Some (M2, (2, 0))) by (vm_compute; reflexivity).
  cbn [w_step]. unfold w_set_parameter. rewrite E1. change (structuredData M1) with (Some [(lit "a", @nil (bytes * bytes))]). cbv iota.
  change (mget [(lit "a", @nil (bytes * bytes))] (lit "a")) with (Some (@nil (bytes * bytes))). cbv iota zeta. cbn [currentparamname]. rewrite E2.
  change (mget (match mget (sd_read (structuredData M2)) (lit "a") with Some e => e | None => [] end) (lit "b")) with (Some (@nil byte)). cbv iota.
  assert (V : exists sm3 k3, w_bset EpSdpv (Globals (lit "a") (lit "b")) M2 (escapes (S n)) = Some (sm3, (k3, Z.of_nat (S n) * Z.of_nat (S n) + 2 * Z.of_nat (S n)))).
  { rewrite w_bset_run. set (data := escapes (S n)). unfold data at 2. cbn [ThmTextCost.escapes entry_of arun].
    change (bdelta BV0 "\"%byte) with (TAct BPb (TAct BBackAppend (TNext BEsc)) : btr). change (bdelta BEsc """"%byte) with (TNext BV : btr). cbn [texec].
    unfold w_act at 1. cbn [sem_act fst snd taken moved]. unfold w_act at 1. cbn [sem_act fst snd taken moved].
    set (x0 := set_b_back _ _). set (c0 := (_ + 0 + 0)). set (r0 := 0 + 0 + 0). destruct (escapes_run data n (0 + 1 + 1) x0 c0 r0) as [c1 E]. change (bdelta BEsc """"%byte) with (TNext BV : btr). cbn [texec]. unfold Y in *. rewrite E. clear E. cbn [arun].
    change (bedelta BV) with (bsetval (TOut 583)). unfold bsetval. cbn [bacts texec]. unfold w_act at 1. cbn [sem_act fst snd]. unfold with_btext.
    assert (L : length data = (2 * S n)%nat) by apply ThmTextCost.escapes_length.
    assert (Z1 : zslice data (b_pb (set_b_back (b_back x0 ++ every2 (0 + 1 + 1) n) x0)) (0 + 1 + 1 + 2 * Z.of_nat n) = Some data).
    { change (b_pb (set_b_back (b_back x0 ++ every2 (0 + 1 + 1) n) x0)) with 0. pose proof (zslice_mid [] data []) as Z1. rewrite app_nil_r in Z1. cbn [app length] in Z1. rewrite L in Z1.
      replace (0 + 1 + 1 + 2 * Z.of_nat n) with (Z.of_nat (0 + 2 * S n)) by lia. exact Z1. }
    rewrite Z1. set (x1 := set_b_back (b_back x0 ++ every2 (0 + 1 + 1) n) x0).
    assert (Hb1 : forall a, w_cnd CHasBackslash (set_b_text data x1, a) = true) by reflexivity. rewrite Hb1. unfold w_act at 1. cbn [sem_act fst snd].
    change (b_text (set_b_text data x1)) with data. change (b_back (set_b_text data x1)) with (every2 0 (S n)). change (b_pb (set_b_text data x1)) with 0.
    assert (M : moved BTextStrip (set_b_text data x1) = Z.of_nat (S n) * Z.of_nat (S n) + 2 * Z.of_nat (S n)).
    { unfold moved, MTextCost.remove_cost. change (b_text (set_b_text data x1)) with data. change (b_back (set_b_text data x1)) with (every2 (0 + 2 * Z.of_nat 0) (S n)). change (b_pb (set_b_text data x1)) with 0.
      pose proof (ThmTextCost.escapes_moves (S n) 0 0) as Q. cbn [repeat app] in Q. change (Z.of_nat 0) with 0 in Q at 2. fold data in Q. rewrite Q. unfold size. rewrite L. lia. }
    rewrite M. destruct (remove_bytes data (every2 0 (S n)) 0) as [t|] eqn:R; [|exfalso].
    - unfold w_act at 1. cbn [sem_act fst snd]. change (structuredData (b_sm (set_b_text t (set_b_text data x1)))) with (Some [(lit "a", [(lit "b", @nil byte)])]). cbv iota.
      unfold w_act at 1. cbn [sem_act fst snd moved]. unfold put_elem. change (structuredData (b_sm (set_b_text t (set_b_text data x1)))) with (Some [(lit "a", [(lit "b", @nil byte)])]). cbv iota.
      change (b_cid (set_b_text t (set_b_text data x1))) with (lit "a"). change (mget [(lit "a", [(lit "b", @nil byte)])] (lit "a")) with (Some [(lit "b", @nil byte)]). cbv iota.
      do 2 eexists. unfold moved, r0. rewrite !Z.add_0_r. reflexivity.
    - pose proof (escapes_strip (S n) 0 0) as Q. cbn [repeat app] in Q. unfold remove_bytes in R. fold data in Q. change (Z.of_nat 0) with 0 in Q. change (0 + 2 * 0) with 0 in Q. destruct Q as [t Q]. congruence. }
  destruct V as [sm3 [k3 ->]]. do 3 eexists. unfold plus. cbn [fst snd]. rewrite !Z.add_0_l. reflexivity.
Qed.
(* so no constant bounds what RemoveBytes moves by a multiple of the length of the arguments *)
Theorem set_copies_not_linear g K : exists c g' sm' k r, w_step g empty_message c = Some (g', sm', (k, r)) /\ step g empty_message c = Some (g', sm') /\ K * (given c + 1) < r.
Proof.
  set (n := Z.to_nat (10 + 10 * Z.abs K)). destruct (set_copies_escaped g n) as [g' [sm' [k E]]]. do 5 eexists. split; [exact E|]. split; [rewrite <- set_results, E; reflexivity|].
  cbn [given]. rewrite ThmTextCost.escapes_length. change (Z.of_nat (length (lit "a"))) with 1. change (Z.of_nat (length (lit "b"))) with 1.
  assert (N : Z.of_nat n = 10 + 10 * Z.abs K) by (unfold n; lia). pose proof (Z.abs_spec K). nia.
Qed.
Example set_copies_ex : option_map snd (w_step (Globals [] []) empty_message (SetParameter (lit "a") (lit "b") (escapes 40))) = Some (204, 1680)
  /\ option_map snd (w_step (Globals [] []) empty_message (SetMessage (repeat "\"%byte 80))) = Some (160, 0)
  /\ option_map snd (w_step (Globals [] []) empty_message (SetHostname (repeat "a"%byte 256))) = Some (256, 0).
Proof. vm_compute. repeat split. Qed.
