(* C87: what Parse of rfc5424 copies: linear, except for un-escaping parameter values, which is quadratic. *)
From Coq Require Import FMapPositive.
From Verif Require Import Bytes GoMap GoTime Common GotoLang M5424Def Gen5424 A5424 M5424 Thm5424 MTextCost.
Local Open Scope Z_scope.

(* ---- forgetting the counters ---- *)
Definition pr (s : gst Y) : gst vars := G (g_p s) (g_cs s) (g_w s) (fst (g_x s)).
Definition pr_res (r : @GotoLang.res Y) : @GotoLang.res vars := match r with Fell s => Fell (pr s) | Jump l s => Jump l (pr s) | Panicked => Panicked end.
Definition pr_out (o : GotoLang.outcome Y) : GotoLang.outcome vars := match o with Out cs y => Out cs (fst y) | Panic => Panic | NoFuel => NoFuel end.
Lemma e_act a data p y : option_map fst (w_act a data p y) = sem_act a data p (fst y).
Proof. unfold w_act. destruct (sem_act a data p (fst y)); reflexivity. Qed.
Lemma e_eval data c s : eval w_cnd data c s = eval sem_cnd data c (pr s).
Proof. induction c as [| | | |a IHa b IHb|]; cbn [eval]; try reflexivity. rewrite IHa, IHb. reflexivity. Qed.
Lemma e_run data k : forall s, pr_res (run w_act w_cnd data k s) = run sem_act sem_cnd data k (pr s).
Proof.
  induction k as [|a k IH|c t IHt e IHe k IH|b IHb k IH|l k IH|k IH|k IH|n k IH|n k IH|n k IH]; intros s; cbn [run]; try reflexivity; try apply IH.
  - change (g_x (pr s)) with (fst (g_x s)). change (g_p (pr s)) with (g_p s). rewrite <- e_act. destruct (w_act a data (g_p s) (g_x s)) as [y|]; [apply IH|reflexivity].
  - rewrite e_eval. destruct (eval sem_cnd data c (pr s)) as [[|]|]; [| |reflexivity].
    + rewrite <- IHt. destruct (run w_act w_cnd data t s); [apply IH|reflexivity|reflexivity].
    + rewrite <- IHe. destruct (run w_act w_cnd data e s); [apply IH|reflexivity|reflexivity].
  - rewrite <- IHb. destruct (run w_act w_cnd data b s); [apply IH|reflexivity|reflexivity].
  - change (g_p (pr s)) with (g_p s). destruct (znth data (g_p s)); [apply IH|reflexivity].
Qed.
Lemma e_exec data f : forall l s, pr_out (exec w_act w_cnd code5424 data f l s) = exec sem_act sem_cnd code5424 data f l (pr s).
Proof.
  induction f as [|f IH]; intros l s; [reflexivity|]. cbn [exec]. destruct (PositiveMap.find (key l) code5424) as [[k nx]|]; [|reflexivity].
  rewrite <- e_run. destruct (run w_act w_cnd data k s) as [s'|l' s'|]; cbn [pr_res]; [|apply IH|reflexivity]. destruct nx; [apply IH|reflexivity].
Qed.
(* what Parse answers is what it answers without the counters *)
Definition answered (m : machine) (o : GotoLang.outcome Y) : ret := match o with
  | Out cs (x, _) => if ((cs <? 603) || (cs =? 614))%N then (if bestEffort m && minimal (m_out x) then Ret (Some (export (m_out x))) (m_err x) else Ret None (m_err x)) else Ret (Some (export (m_out x))) None
  | Panic => RPanic | NoFuel => RDiverge end.
Theorem copy_results m input : snd (parse m input) = answered m (w_parse m input).
Proof.
  unfold parse, w_parse. pose proof (e_exec input (exec_fuel input) LEntry (G 0 1 0 (prepare (mv m), (0, 0)))) as E.
  change (pr (G 0 1 0 (prepare (mv m), (0, 0)))) with (G 0 1%N 0%N (prepare (mv m))) in E. rewrite <- E.
  destruct (exec w_act w_cnd code5424 input (exec_fuel input) LEntry _) as [cs [x c]| |]; reflexivity.
Qed.

(* ---- RemoveBytes ---- *)
Lemma size_pos l : 0 <= size l. Proof. unfold size. lia. Qed.
Lemma moves_bound positions : forall cp i offset, 0 <= remove_moves cp positions i offset <= size cp * Z.of_nat (length positions).
Proof.
  induction positions as [|q r IH]; intros cp i offset; cbn [remove_moves]; [cbn [length]; lia|]. pose proof (size_pos cp). cbn [length].
  destruct (_ && _) eqn:E; [|nia]. apply andb_true_iff in E as [E1 E2]. apply Z.leb_le in E1, E2. set (a := q - i - offset) in *.
  specialize (IH (firstn (Z.to_nat a) cp ++ skipn (Z.to_nat (a + 1)) cp) (i + 1) offset).
  assert (size (firstn (Z.to_nat a) cp ++ skipn (Z.to_nat (a + 1)) cp) <= size cp) by (unfold size; rewrite app_length, firstn_length, skipn_length; lia).
  assert (0 <= size (skipn (Z.to_nat (a + 1)) cp) <= size cp) by (unfold size; rewrite skipn_length; lia). nia.
Qed.

(* ---- how each statement changes what the counters depend on ---- *)
Inductive kind := KMark | KCut | KText | KStrip | KSet | KPart | KReset | KPush | KMsgat | KOther.
Definition kind_of (a : act) : kind := match a with
  | APb => KMark | AMsgat => KMsgat | ABackReset => KReset | ABackAppend => KPush
  | ACurParam | APriority | AVersion | ATimeParse | AHostname | AAppname | AProcID | AMsgID | AIdLookup | AIdLocal | AMessage => KCut
  | ATextLocal => KText | ATextStrip => KStrip | ASdSetParam => KSet | AMessagePartial => KPart
  | _ => KOther end.
(* what is known of the escapes: anything, none yet, at most g more than the bytes since the mark *)
Inductive esc := Any | Zero | Seg (g : nat).
(* how often text was taken since the mark, whether a message was cut short and a value un-escaped, whether m_text was just taken *)
Record know := Know { ku : nat; kv : nat; kw : bool; kf : bool; ke : esc }.
Definition K : nat := 3.
Definition after (k : kind) (q : know) : option know :=
  match q with Know u v w f e =>
  match k with
  | KMark => Some (Know 0 v false false (match e with Zero => Zero | _ => Any end))
  | KCut => if Nat.ltb u K then Some (Know (S u) v w f e) else None
  | KText => if Nat.ltb u K then Some (Know (S u) v w true e) else None
  | KStrip => if f && negb w then match e with Zero | Seg O => Some (Know u v true f e) | _ => None end else None
  | KSet => if f && Nat.ltb u K then Some (Know (S u) v w f e) else None
  | KPart => if Nat.ltb v 1 then Some (Know u (S v) w f e) else None
  | KReset => Some (Know u v w f Zero)
  | KPush => match e with Seg O => Some (Know u v w f (Seg 1)) | Zero => Some (Know u v w f (Seg 1)) | _ => Some (Know u v w f Any) end
  | KMsgat | KOther => Some q
  end end.
(* what is known in each state before its byte is read *)
Definition know_at (s : st) : know := match s with
  | S2 | S593 | S5 | STs _ | S607 | S608 | S609 | S610 | S611 | S612 | S613 | SMu _ | S1 => Know 0 0 false false Any
  | S594 | S595 | S591 | S16 | S603 => Know 1 0 false false Any
  | S3 | S592 => Know 2 0 false false Any
  | S4 | S6 | S7 => Know 3 0 false false Any
  | SWord f k => Know (if (k =? 0)%N then match f with FHost => 3 | _ => 1 end else 0) 0 false false Any
  | SId k => if (k =? 0)%N then Know 2 0 true false Any else Know 0 0 false false Any
  | SPn k => if (k =? 0)%N then Know 2 0 true false Any else Know 0 0 false false Zero
  | S52 | S53 => Know 1 0 false false Zero
  | S54 | S56 | SUtf _ => Know 0 0 false false (Seg 0)
  | S55 | S606 | S604 => Know 2 0 true false Any
  | SFail => Know 3 1 true false Any
  end.
Definition esc_le (e e' : esc) : bool := match e', e with Any, _ => true | Zero, Zero => true | Seg O, Zero => true | Seg O, Seg (O | S O) => true | _, _ => false end.
Definition know_le (q q' : know) : bool :=
  Nat.leb (ku q) (ku q') && Nat.leb (kv q) (kv q') && implb (kw q) (kw q') && negb (kf q') && esc_le (ke q) (ke q').
Fixpoint chk (t : tr) (q : know) : bool := match t with
  | TNext s => ok s && know_le q (know_at s)
  | TOut _ => true
  | TAct a t => match after (kind_of a) q with Some q' => chk t q' | None => false end
  | TIf _ a b => chk a q && chk b q
  | TBad => true
  end.
Lemma check : forallb (fun s => forallb (fun b => chk (delta s b) (know_at s)) all_bytes && chk (edelta s) (know_at s)) (S1 :: all_states) = true.
Proof. vm_compute. reflexivity. Qed.
Lemma check_at s : s = S1 \/ ok s = true -> (forall b, chk (delta s b) (know_at s) = true) /\ chk (edelta s) (know_at s) = true.
Proof.
  intros H. pose proof check as C. rewrite forallb_forall in C. specialize (C s). cbv beta in C. rewrite andb_true_iff in C.
  destruct C as [C1 C2]; [destruct H as [->|H]; [left; reflexivity|right; apply all_states_complete, H]|]. split; [|exact C2]. intros b. exact (forall_bytes _ C1 b).
Qed.
(* ---- the invariant ---- *)
Definition esc_ok (e : esc) (p : Z) (x : vars) : Prop := match e with
  | Any => True | Zero => m_backslashat x = [] | Seg g => Z.of_nat (length (m_backslashat x)) <= p - m_pb x + Z.of_nat g end.
(* n: the length of the input; p: where the machine is *)
Record inv (n : Z) (q : know) (p : Z) (y : Y) : Prop := Inv {
  i_pb : 0 <= m_pb (fst y) <= p; i_p : p <= n; i_at : 0 <= m_msgat (fst y);
  i_u : (ku q <= K)%nat; i_v : (kv q <= 1)%nat;
  i_c : 0 <= fst (snd y) <= Z.of_nat K * m_pb (fst y) + Z.of_nat (ku q) * (p - m_pb (fst y)) + Z.of_nat (kv q) * n;
  i_r : 0 <= snd (snd y) <= (1 + n) * (if kw q then p else m_pb (fst y));
  i_f : kf q = true -> size (m_text (fst y)) <= p - m_pb (fst y);
  i_e : esc_ok (ke q) p (fst y) }.
Lemma zslice_size d i j t : zslice d i j = Some t -> size t = j - i /\ 0 <= i <= j.
Proof.
  unfold zslice. destruct (_ && _) eqn:E; [|discriminate]. apply andb_true_iff in E as [E E3]. apply andb_true_iff in E as [E1 E2]. apply Z.leb_le in E1, E2, E3.
  intros H. injection H as <-. unfold size. rewrite firstn_length, skipn_length. lia.
Qed.
(* what a statement changes *)
Lemma act_other a data p x x' : sem_act a data p x = Some x' -> kind_of a = KCut \/ kind_of a = KOther \/ kind_of a = KSet \/ kind_of a = KPart ->
  m_pb x' = m_pb x /\ m_msgat x' = m_msgat x /\ m_backslashat x' = m_backslashat x /\ m_text x' = m_text x.
Proof.
  intros H Hk. destruct a; cbn [kind_of] in Hk; try (destruct Hk as [Hk|[Hk|[Hk|Hk]]]; discriminate Hk); cbn [sem_act] in H; unfold with_text, text_of in H;
    repeat match type of H with context [match ?c with _ => _ end] => destruct c eqn:? end; try discriminate H; injection H as <-; repeat split; reflexivity.
Qed.
Lemma cut_size a data p x x' : sem_act a data p x = Some x' -> kind_of a = KCut \/ kind_of a = KText -> taken a p x = p - m_pb x /\ moved a x = 0 /\ m_pb x <= p.
Proof.
  intros H Hk. destruct a; cbn [kind_of] in Hk; try (destruct Hk as [Hk|Hk]; discriminate Hk); cbn [sem_act] in H; unfold with_text, text_of in H;
    (destruct (zslice data (m_pb x) p) as [t|] eqn:E; [|discriminate H]); apply zslice_size in E; cbn [taken moved]; repeat split; lia.
Qed.
Lemma kw_le (w : bool) (n pb p : Z) : pb <= p -> 0 <= n -> (1 + n) * (if w then p else pb) <= (1 + n) * p.
Proof. destruct w; nia. Qed.
Lemma act_inv n a data p y y' q q' : w_act a data p y = Some y' -> after (kind_of a) q = Some q' -> inv n q p y -> inv n q' p y'.
Proof.
  destruct y as [x [c r]]. unfold w_act. cbn [fst snd]. destruct (sem_act a data p x) as [x'|] eqn:E; [|discriminate]. intros H Ha [P1 P2 P3 P4 P5 P6 P7 P8 P9]. injection H as <-. cbn [fst snd] in *.
  destruct q as [u v w f e]. cbn [ku kv kw kf ke] in *. unfold K in *.
  assert (Hn : 0 <= n) by lia. pose proof (kw_le w n _ _ (proj2 P1) Hn) as P7'.
  assert (Pu : Z.of_nat u * (p - m_pb x) <= 3 * (p - m_pb x)) by (apply Z.mul_le_mono_nonneg_r; lia).
  destruct (kind_of a) eqn:Ek; cbn [after] in Ha; unfold K in Ha.
  - (* mark *) destruct a; try discriminate Ek. injection E as <-. injection Ha as <-. constructor; cbn [fst snd ku kv kw kf ke taken moved m_pb m_msgat m_text m_backslashat set_m_pb]; unfold K in *; try discriminate; try lia.
    destruct e; cbn [esc_ok] in *; auto.
  - (* cut *) destruct (Nat.ltb_spec u 3); [|discriminate]. injection Ha as <-. destruct (act_other _ _ _ _ _ E) as [A [B [C D]]]; [auto|]. destruct (cut_size _ _ _ _ _ E) as [T [M _]]; [auto|].
    constructor; cbn [fst snd ku kv kw kf ke]; rewrite ?A, ?B, ?C, ?D, ?T, ?M; unfold K in *; try lia; try assumption. unfold esc_ok in *. rewrite A, C. exact P9.
  - (* text *) destruct (Nat.ltb_spec u 3); [|discriminate]. injection Ha as <-. destruct (cut_size _ _ _ _ _ E) as [T [M L]]; [auto|]. destruct a; try discriminate Ek. cbn [sem_act] in E. unfold with_text, text_of in E.
    destruct (zslice data (m_pb x) p) as [t|] eqn:ZS; [|discriminate E]. apply zslice_size in ZS. injection E as <-.
    constructor; cbn [fst snd ku kv kw kf ke m_pb m_msgat m_text m_backslashat set_m_text]; rewrite ?T, ?M; unfold K in *; try lia. exact P9.
  - (* strip *) destruct (f && negb w) eqn:F; [|discriminate]. apply andb_true_iff in F as [-> F]. destruct w; [discriminate|]. specialize (P8 eq_refl).
    destruct a; try discriminate Ek. cbn [sem_act] in E. destruct (remove_bytes (m_text x) (m_backslashat x) (m_pb x)) as [t|] eqn:R; [|discriminate E]. injection E as <-.
    assert (Le : Z.of_nat (length (m_backslashat x)) <= p - m_pb x) by (destruct e as [| |[|g]]; try discriminate Ha; cbn [esc_ok] in P9; [rewrite P9; cbn [length]; lia|lia]).
    assert (St : size t <= size (m_text x)).
    { clear - R. unfold remove_bytes in R. revert R. generalize 0 at 1. generalize (m_backslashat x) (m_pb x) (m_text x). intros l o. induction l as [|h l IH]; intros cp i H; cbn [remove_loop] in H; [injection H as <-; lia|].
      destruct (_ && _) eqn:E; [|discriminate]. apply IH in H. unfold size in *. rewrite app_length, firstn_length, skipn_length in H. apply andb_true_iff in E as [E1 E2]. apply Z.leb_le in E1, E2. lia. }
    assert (Q : q' = Know u v true true e) by (destruct e as [| |[|g]]; try discriminate Ha; injection Ha as <-; reflexivity). subst q'.
    pose proof (moves_bound (m_backslashat x) (m_text x) 0 (m_pb x)) as M. pose proof (size_pos (m_text x)).
    constructor; cbn [fst snd ku kv kw kf ke taken moved m_pb m_msgat m_text m_backslashat set_m_text]; unfold K in *; try lia; [|exact P9]. unfold remove_cost. nia.
  - (* set *) destruct (f && _) eqn:F; [|discriminate]. apply andb_true_iff in F as [-> F]. apply Nat.ltb_lt in F. injection Ha as <-. specialize (P8 eq_refl).
    destruct (act_other _ _ _ _ _ E) as [A [B [C D]]]; [auto|]. destruct a; try discriminate Ek. pose proof (size_pos (m_text x)).
    constructor; cbn [fst snd ku kv kw kf ke taken moved]; rewrite ?A, ?B, ?C, ?D; unfold K in *; try lia. unfold esc_ok in *. rewrite A, C. exact P9.
  - (* part *) destruct (Nat.ltb_spec v 1); [|discriminate]. injection Ha as <-. destruct (act_other _ _ _ _ _ E) as [A [B [C D]]]; [auto|]. destruct a; try discriminate Ek. cbn [sem_act] in E.
    destruct (zslice data (m_msgat x) p) as [t|] eqn:ZS; [|discriminate E]. apply zslice_size in ZS.
    constructor; cbn [fst snd ku kv kw kf ke taken moved]; rewrite ?A, ?B, ?C, ?D; unfold K in *; try lia; try assumption. unfold esc_ok in *. rewrite A, C. exact P9.
  - (* reset *) destruct a; try discriminate Ek. injection E as <-. injection Ha as <-. constructor; cbn [fst snd ku kv kw kf ke taken moved m_pb m_msgat m_text m_backslashat set_m_backslashat]; unfold K in *; try lia; try assumption. reflexivity.
  - (* push *) destruct a; try discriminate Ek. injection E as <-.
    assert (Q : exists e', q' = Know u v w f e' /\ esc_ok e' p (set_m_backslashat (m_backslashat x ++ [p]) x)).
    { destruct e as [| |[|g]]; injection Ha as <-; eexists; (split; [reflexivity|]); cbn [esc_ok m_pb m_backslashat set_m_backslashat] in *; auto; rewrite app_length; cbn [length]; [rewrite P9; cbn [length]; lia|lia]. }
    destruct Q as [e' [-> Q]]. constructor; cbn [fst snd ku kv kw kf ke taken moved m_pb m_msgat m_text set_m_backslashat]; unfold K in *; try lia; try assumption.
  - (* the start of the message *) injection Ha as <-. destruct a; try discriminate Ek. injection E as <-. constructor; cbn [fst snd ku kv kw kf ke taken moved m_pb m_msgat m_text set_m_msgat]; unfold K in *; try lia; try assumption.
  - (* other *) injection Ha as <-. destruct (act_other _ _ _ _ _ E) as [A [B [C D]]]; [auto|].
    assert (T : taken a p x = 0 /\ moved a x = 0) by (destruct a; try discriminate Ek; split; reflexivity). destruct T as [T M].
    constructor; cbn [fst snd ku kv kw kf ke]; rewrite ?A, ?B, ?C, ?D, ?T, ?M; unfold K in *; try lia; try assumption. unfold esc_ok in *. rewrite A, C. exact P9.
Qed.
Lemma le_inv n q q' p y : know_le q q' = true -> (ku q' <= K)%nat -> (kv q' <= 1)%nat -> p < n -> inv n q p y -> inv n q' (p + 1) y.
Proof.
  unfold know_le. intros H Hu Hv Hp [P1 P2 P3 P4 P5 P6 P7 P8 P9]. repeat (apply andb_true_iff in H as [H ?]). rename H0 into He, H1 into Hf, H2 into Hw, H3 into Hv'. apply Nat.leb_le in H, Hv'. unfold K in *.
  constructor; try (unfold K in *; lia).
  - unfold K in *. assert (Z.of_nat (ku q) * (p - m_pb (fst y)) <= Z.of_nat (ku q') * (p + 1 - m_pb (fst y))) by (apply Z.mul_le_mono_nonneg; lia). assert (Z.of_nat (kv q) * n <= Z.of_nat (kv q') * n) by (apply Z.mul_le_mono_nonneg_r; lia). lia.
  - split; [lia|]. destruct (kw q), (kw q'); cbn [implb] in Hw; try discriminate; nia.
  - destruct (kf q'); [discriminate|]. intros F. discriminate F.
  - unfold esc_le in He. destruct (ke q') as [| |[|g']]; [exact I| |destruct (ke q) as [| |[|[|g]]]|]; cbn [esc_ok] in *; try discriminate He.
    + destruct (ke q) as [| |g]; try discriminate He. exact P9.
    + rewrite P9. cbn [length]. lia.
    + lia.
    + lia.
Qed.
Lemma know_small s : (ku (know_at s) <= K)%nat /\ (kv (know_at s) <= 1)%nat.
Proof. unfold K. destruct s as [| | | | | | | | | | | |n|f k| | | |k|k| | | | | |n| | | | | | | | |n|]; cbn; try lia; destruct (k =? 0)%N; cbn; try lia. destruct f; lia. Qed.
(* what is promised at the end *)
Definition good (n : Z) (o : GotoLang.outcome Y) : Prop := match o with Out _ (_, (c, r)) => 0 <= c <= 4 * n /\ 0 <= r <= n * (n + 1) | _ => True end.
Lemma inv_good n q p x c r : inv n q p (x, (c, r)) -> 0 <= c <= 4 * n /\ 0 <= r <= n * (n + 1).
Proof.
  intros [P1 P2 P3 P4 P5 P6 P7 P8 P9]. cbn [fst snd] in *. unfold K in *.
  assert (Z.of_nat (ku q) * (p - m_pb x) <= 3 * (p - m_pb x)) by (apply Z.mul_le_mono_nonneg_r; lia). assert (Z.of_nat (kv q) * n <= 1 * n) by (apply Z.mul_le_mono_nonneg_r; lia).
  pose proof (kw_le (kw q) n _ _ (proj2 P1) ltac:(lia)). split; [lia|]. split; [lia|]. nia.
Qed.
Lemma texec_good n data p next (t : tr) : forall q y, chk t q = true -> inv n q p y ->
  (forall s q' y', ok s = true -> know_le q' (know_at s) = true -> inv n q' p y' -> good n (next s y')) -> good n (texec w_act w_cnd data t p y next).
Proof.
  induction t as [s|cs|a t IH|c t IHt e IHe|]; intros q y Hc Hi Hn; cbn [texec chk] in *.
  - apply andb_true_iff in Hc as [H1 H2]. eapply Hn; eassumption.
  - destruct y as [x [c r]]. exact (inv_good _ _ _ _ _ _ Hi).
  - destruct (after (kind_of a) q) as [q'|] eqn:Ea; [|discriminate]. destruct (w_act a data p y) as [y'|] eqn:Ew; [|exact I]. eapply IH; [exact Hc|eapply act_inv; eassumption|exact Hn].
  - apply andb_true_iff in Hc as [H1 H2]. destruct (w_cnd c y); [eapply IHt|eapply IHe]; eassumption.
  - exact I.
Qed.
Notation wrun := (arun w_act w_cnd delta edelta).
Lemma arun_good data w : forall s p y, s = S1 \/ ok s = true -> p + Z.of_nat (length w) = Z.of_nat (length data) -> inv (Z.of_nat (length data)) (know_at s) p y -> good (Z.of_nat (length data)) (wrun data s p w y).
Proof.
  induction w as [|b w IH]; intros s p y Hs Hp Hi; cbn [arun].
  - eapply texec_good; [apply check_at, Hs|exact Hi|]. intros. exact I.
  - eapply texec_good; [apply check_at, Hs|exact Hi|]. intros s' q' y' Ho Hl Hi'. cbn [length] in Hp. apply IH; [auto|lia|]. destruct (know_small s'). eapply le_inv; try eassumption. lia.
Qed.
Lemma w_parse_run m data : w_parse m data = wrun data S1 0 data (prepare (mv m), (0, 0)).
Proof. unfold w_parse. pose proof (exec_arun w_act w_cnd code5424 num ok delta edelta sim5424 data S1 (prepare (mv m), (0, 0)) 0%N entry5424) as E. unfold Y in *. exact E. Qed.
Lemma w_parse_good m data : good (Z.of_nat (length data)) (w_parse m data).
Proof.
  rewrite w_parse_run. apply arun_good; [auto|lia|]. constructor; cbn; try lia; discriminate.
Qed.

(* ---- without a backslash in the input nothing is un-escaped ---- *)
Fixpoint chk2 (t : tr) : bool := match t with
  | TNext s => ok s
  | TAct (ATextStrip | ABackAppend) _ => false
  | TAct _ t => chk2 t
  | TIf CHasBackslash _ b => chk2 b
  | TIf _ a b => chk2 a && chk2 b
  | TOut _ | TBad => true
  end.
Lemma check2 : forallb (fun s => forallb (fun b => beqb b "\" || chk2 (delta s b)) all_bytes && chk2 (edelta s)) (S1 :: all_states) = true.
Proof. vm_compute. reflexivity. Qed.
Lemma check2_at s : s = S1 \/ ok s = true -> (forall b, b <> "\"%byte -> chk2 (delta s b) = true) /\ chk2 (edelta s) = true.
Proof.
  intros H. pose proof check2 as C. rewrite forallb_forall in C. specialize (C s). cbv beta in C. rewrite andb_true_iff in C.
  destruct C as [C1 C2]; [destruct H as [->|H]; [left; reflexivity|right; apply all_states_complete, H]|]. split; [|exact C2]. intros b Hb. pose proof (forall_bytes _ C1 b) as D. cbv beta in D.
  apply orb_true_iff in D as [D|D]; [|exact D]. exfalso. apply Hb. apply beqb_eq. exact D.
Qed.
Definition plain (y : Y) : Prop := m_backslashat (fst y) = [] /\ snd (snd y) = 0.
Definition plain_out (o : GotoLang.outcome Y) : Prop := match o with Out _ y => snd (snd y) = 0 | _ => True end.
Lemma act_plain a data p y y' : w_act a data p y = Some y' -> a <> ATextStrip -> a <> ABackAppend -> plain y -> plain y'.
Proof.
  destruct y as [x [c r]]. unfold w_act, plain. cbn [fst snd]. destruct (sem_act a data p x) as [x'|] eqn:E; [|discriminate]. intros H N1 N2 [P1 P2]. injection H as <-. cbn [fst snd].
  assert (moved a x = 0) as -> by (destruct a; try reflexivity; congruence). split; [|lia].
  destruct a; try congruence; cbn [sem_act] in E; unfold with_text, text_of in E;
    repeat match type of E with context [match ?c with _ => _ end] => destruct c eqn:? end; try discriminate E; injection E as <-; try reflexivity; exact P1.
Qed.
Lemma texec_plain data p next (t : tr) : forall y, chk2 t = true -> plain y -> (forall s y', ok s = true -> plain y' -> plain_out (next s y')) -> plain_out (texec w_act w_cnd data t p y next).
Proof.
  induction t as [s|cs|a t IH|c t IHt e IHe|]; intros y Hc Hi Hn; cbn [texec chk2] in *.
  - apply Hn; assumption.
  - apply Hi.
  - destruct (w_act a data p y) as [y'|] eqn:Ew; [|exact I]. assert (a <> ATextStrip /\ a <> ABackAppend /\ chk2 t = true) as [N1 [N2 N3]] by (destruct a; try discriminate Hc; (split; [discriminate|split; [discriminate|exact Hc]])).
    apply IH; [exact N3|eapply act_plain; eassumption|exact Hn].
  - destruct c; try (apply andb_true_iff in Hc as [H1 H2]; destruct (w_cnd _ y); [apply IHt|apply IHe]; assumption).
    unfold w_cnd. cbn [sem_cnd]. destruct Hi as [Hb Hr]. rewrite Hb. apply IHe; [exact Hc|split; assumption|exact Hn].
  - exact I.
Qed.
Lemma arun_plain data w : forall s p y, s = S1 \/ ok s = true -> ~ In "\"%byte w -> plain y -> plain_out (wrun data s p w y).
Proof.
  induction w as [|b w IH]; intros s p y Hs Hw Hi; cbn [arun].
  - apply texec_plain; [apply check2_at, Hs|exact Hi|]. intros. exact I.
  - apply texec_plain; [apply check2_at; [exact Hs|intros ->; apply Hw; left; reflexivity]|exact Hi|]. intros s' y' Ho Hi'. apply IH; [auto|intros H; apply Hw; right; exact H|exact Hi'].
Qed.

(* ---- C87 ---- *)
Lemma w_parse_ends m data : exists cs x c, w_parse m data = Out cs (x, c).
Proof.
  pose proof (copy_results m data) as R. destruct (parse_total m data) as [r [e E]]. rewrite E in R. destruct (w_parse m data) as [cs [x c]| |]; [eauto|discriminate R|discriminate R].
Qed.
(* the text taken from the input is at most four times the input, and RemoveBytes moves at most n * (n + 1) bytes *)
Theorem copies_bounded m data : exists c r, copies m data = Some (c, r) /\ 0 <= c <= 4 * Z.of_nat (length data) /\ 0 <= r <= Z.of_nat (length data) * (Z.of_nat (length data) + 1).
Proof.
  destruct (w_parse_ends m data) as [cs [x [[c r] E]]]. exists c, r. unfold copies. pose proof (w_parse_good m data) as G. rewrite E in *. split; [reflexivity|exact G].
Qed.
(* without a backslash in the input RemoveBytes is not called *)
Theorem copies_plain m data : ~ In "\"%byte data -> exists c, copies m data = Some (c, 0) /\ 0 <= c <= 4 * Z.of_nat (length data).
Proof.
  intros H. destruct (copies_bounded m data) as [c [r [E [B _]]]]. exists c. unfold copies in *. rewrite w_parse_run in *.
  pose proof (arun_plain data data S1 0 (prepare (mv m), (0, 0)) (or_introl eq_refl) H) as P. destruct (wrun data S1 0 data _) as [cs [x [c' r']]| |]; try discriminate E.
  injection E as <- <-. cbn [plain_out snd] in P. rewrite P; [auto|]. split; reflexivity.
Qed.

(* ---- a message whose parameter value is n escaped quotes ---- *)
(* running a part of the input that is known *)
Fixpoint ptree (d : bytes) (t : tr) (p : Z) (y : Y) : option (st * Y) := match t with
  | TNext s => Some (s, y)
  | TAct a t => match w_act a d p y with Some y' => ptree d t p y' | None => None end
  | TIf c a b => if w_cnd c y then ptree d a p y else ptree d b p y
  | TOut _ | TBad => None
  end.
Fixpoint prun (d : bytes) (s : st) (p : Z) (w : bytes) (y : Y) : option (st * Y) :=
  match w with [] => Some (s, y) | b :: r => match ptree d (delta s b) p y with Some (s', y') => prun d s' (p + 1) r y' | None => None end end.
Lemma zslice_more d e i j t : zslice d i j = Some t -> zslice (d ++ e) i j = Some t.
Proof.
  unfold zslice. rewrite app_length. destruct (_ && _) eqn:E; [|discriminate]. apply andb_true_iff in E as [E E3]. apply andb_true_iff in E as [E1 E2]. apply Z.leb_le in E1, E2, E3.
  intros H. injection H as <-. replace (0 <=? i) with true by (symmetry; apply Z.leb_le; lia). replace (i <=? j) with true by (symmetry; apply Z.leb_le; lia).
  replace (j <=? _) with true by (symmetry; apply Z.leb_le; lia). cbn [andb]. f_equal. rewrite skipn_app, firstn_app, skipn_length.
  replace (Z.to_nat (j - i) - (length d - Z.to_nat i))%nat with 0%nat by lia. cbn [firstn]. apply app_nil_r.
Qed.
Lemma act_more a d e p y y' : w_act a d p y = Some y' -> w_act a (d ++ e) p y = Some y'.
Proof.
  unfold w_act. destruct (sem_act a d p (fst y)) as [x'|] eqn:E; [|discriminate]. intros H. injection H as <-.
  assert (sem_act a (d ++ e) p (fst y) = Some x') as ->; [|reflexivity].
  destruct a; cbn [sem_act] in *; unfold with_text, text_of in *; try exact E;
    (destruct (zslice d _ _) as [t|] eqn:Es; [|discriminate E]); rewrite (zslice_more _ e _ _ _ Es); exact E.
Qed.
Lemma ptree_more d e p next (t : tr) : forall y s y', ptree d t p y = Some (s, y') -> texec w_act w_cnd (d ++ e) t p y next = next s y'.
Proof.
  induction t as [s0|cs|a t IH|c t IHt e' IHe|]; intros y s y' H; cbn [ptree texec] in *; try discriminate H.
  - injection H as <- <-. reflexivity.
  - destruct (w_act a d p y) as [y1|] eqn:E; [|discriminate H]. rewrite (act_more _ _ e _ _ _ E). apply IH, H.
  - destruct (w_cnd c y); [apply IHt|apply IHe]; exact H.
Qed.
Lemma prun_more d e v w : forall s p y s' y', prun d s p w y = Some (s', y') -> wrun (d ++ e) s p (w ++ v) y = wrun (d ++ e) s' (p + Z.of_nat (length w)) v y'.
Proof.
  induction w as [|b w IH]; intros s p y s' y' H; cbn [prun app length arun] in *.
  - injection H as <- <-. f_equal. lia.
  - destruct (ptree d (delta s b) p y) as [[s1 y1]|] eqn:E; [|discriminate H]. rewrite (ptree_more _ e _ _ _ _ _ _ E). rewrite (IH _ _ _ _ _ H). f_equal. lia.
Qed.
Fixpoint escapes (n : nat) : bytes := match n with O => [] | S n => "\"%byte :: """"%byte :: escapes n end.
Fixpoint every2 (p : Z) (n : nat) : list Z := match n with O => [] | S n => p :: every2 (p + 2) n end.
Lemma escapes_length n : length (escapes n) = (2 * n)%nat.
Proof. induction n as [|n IH]; [reflexivity|]. cbn [escapes length]. lia. Qed.
Lemma escapes_run data v n : forall p x c r, exists c', wrun data S54 p (escapes n ++ v) (x, (c, r)) = wrun data S54 (p + 2 * Z.of_nat n) v (set_m_backslashat (m_backslashat x ++ every2 p n) x, (c', r)).
Proof.
  induction n as [|n IH]; intros p x c r.
  - exists c. cbn [escapes every2 app]. rewrite app_nil_r. replace (p + 2 * Z.of_nat 0) with p by lia. destruct x; reflexivity.
  - cbn [escapes app arun]. change (delta S54 "\"%byte) with (TAct ABackAppend (TNext S56) : tr). change (delta S56 """"%byte) with (TNext S54 : tr). cbn [texec].
    unfold w_act at 1. cbn [sem_act fst snd taken moved]. destruct (IH (p + 1 + 1) (set_m_backslashat (m_backslashat x ++ [p]) x) (c + 0) (r + 0)) as [c' E]. exists c'. etransitivity; [exact E|].
    cbn [m_backslashat set_m_backslashat every2]. rewrite <- app_assoc. cbn [app]. replace (p + 1 + 1) with (p + 2) by lia. replace (p + 2 * Z.of_nat (S n)) with (p + 2 + 2 * Z.of_nat n) by lia. rewrite Z.add_0_r. reflexivity.
Qed.
Lemma escapes_moves n : forall i off, remove_moves (repeat """"%byte i ++ escapes n) (every2 (off + 2 * Z.of_nat i) n) (Z.of_nat i) off = Z.of_nat n * Z.of_nat n.
Proof.
  induction n as [|n IH]; intros i off; [reflexivity|]. cbn [every2 remove_moves escapes].
  replace (off + 2 * Z.of_nat i - Z.of_nat i - off) with (Z.of_nat i) by lia.
  replace (Z.to_nat (Z.of_nat i + 1)) with (S i) by lia. rewrite Nat2Z.id.
  assert (L : length (repeat """"%byte i) = i) by apply repeat_length.
  replace (_ && _) with true; [|symmetry; apply andb_true_iff; split; apply Z.leb_le; [lia|rewrite app_length, L; cbn [length]; lia]].
  assert (SK : forall a l, skipn (S i) (repeat """"%byte i ++ a :: l) = l) by (intros a l; rewrite skipn_app, L, skipn_all2 by lia; replace (S i - i)%nat with 1%nat by lia; reflexivity).
  assert (FI : forall l, firstn i (repeat """"%byte i ++ l) = repeat """"%byte i) by (intros l; rewrite firstn_app, L, Nat.sub_diag, firstn_O, app_nil_r; apply firstn_all2; lia).
  rewrite SK, FI.
  replace (repeat """"%byte i ++ """"%byte :: escapes n) with (repeat """"%byte (S i) ++ escapes n).
  - replace (off + 2 * Z.of_nat i + 2) with (off + 2 * Z.of_nat (S i)) by lia. replace (Z.of_nat i + 1) with (Z.of_nat (S i)) by lia. rewrite IH. unfold size. cbn [length]. rewrite escapes_length. nia.
  - change (repeat """"%byte (S i)) with (""""%byte :: repeat """"%byte i). rewrite repeat_cons. rewrite <- app_assoc. reflexivity.
Qed.
Definition head5424 : bytes := lit "<1>1 - - - - - [a b=""".
Definition escaped_message (n : nat) : bytes := head5424 ++ escapes n ++ lit """]".
Lemma head_run m : exists x c, prun (head5424 ++ lit "\""") S1 0 (head5424 ++ lit "\""") (prepare (mv m), (0, 0)) = Some (S54, (x, (c, 0)))
  /\ m_pb x = 21 /\ m_backslashat x = [21] /\ sem_cnd CHasElements x = true.
Proof.
  destruct m as [[m1 m2 m3 m4 m5 m6 m7 m8 m9 m10 m11 m12 m13] b]. do 2 eexists. split; [vm_compute; reflexivity|]. repeat split; reflexivity.
Qed.
(* a message of 23 + 2 n bytes, which is accepted, for which RemoveBytes moves n * n + 2 * n bytes *)
Theorem copies_escaped m n : exists c msg, copies m (escaped_message (S n)) = Some (c, Z.of_nat (S n) * Z.of_nat (S n) + 2 * Z.of_nat (S n))
  /\ snd (parse m (escaped_message (S n))) = Ret (Some msg) None.
Proof.
  destruct (head_run m) as [x [c [H [Hp [Hb He]]]]]. destruct (w_parse_ends m (escaped_message (S n))) as [cs [x' [[c' r'] E]]]. exists c', (export (m_out x')). unfold copies. rewrite copy_results, E.
  assert (Q : cs = 606%N /\ r' = Z.of_nat (S n) * Z.of_nat (S n) + 2 * Z.of_nat (S n)); [|destruct Q as [-> ->]; split; reflexivity]. revert E. rewrite w_parse_run.
  assert (D : escaped_message (S n) = (head5424 ++ lit "\""") ++ (escapes n ++ lit """]")) by reflexivity.
  set (data := escaped_message (S n)) in *.
  assert (R : wrun data S1 0 data (prepare (mv m), (0, 0)) = wrun data S54 23 (escapes n ++ lit """]") (x, (c, 0))).
  { rewrite D at 2. rewrite D at 1. rewrite (prun_more _ _ _ _ _ _ _ _ _ H). rewrite <- D. reflexivity. }
  rewrite R. destruct (escapes_run data (lit """]") n 23 x c 0) as [c1 ->]. rewrite Hb.
  change (lit """]") with [""""%byte; "]"%byte]. cbn [arun]. change (delta S54 """"%byte) with (setval_t (TNext S55)). unfold setval_t, acts. cbn [texec]. 
  assert (He' : w_cnd CHasElements (set_m_backslashat ([21] ++ every2 23 n) x, (c1, 0)) = true) by exact He. rewrite He'. unfold w_act at 1. cbn [sem_act fst snd]. unfold with_text, text_of. cbn [m_pb set_m_backslashat]. rewrite Hp.
  assert (Z1 : zslice data 21 (23 + 2 * Z.of_nat n) = Some (escapes (S n))).
  { pose proof (zslice_mid head5424 (escapes (S n)) (lit """]")) as Z1. change (Z.of_nat (length head5424)) with 21 in Z1. rewrite escapes_length in Z1. replace (23 + 2 * Z.of_nat n) with (Z.of_nat (length head5424 + 2 * S n)) by (change (length head5424) with 21%nat; lia). exact Z1. }
  rewrite Z1. set (x1 := set_m_backslashat ([21] ++ every2 23 n) x).
  assert (Hb1 : forall a, w_cnd CHasBackslash (set_m_text (escapes (S n)) x1, a) = true) by reflexivity. rewrite Hb1. unfold w_act at 1. cbn [sem_act fst snd].
  change (m_text (set_m_text (escapes (S n)) x1)) with (escapes (S n)). change (m_backslashat (set_m_text (escapes (S n)) x1)) with (every2 21 (S n)). change (m_pb (set_m_text (escapes (S n)) x1)) with (m_pb x). rewrite Hp.
  assert (M : moved ATextStrip (set_m_text (escapes (S n)) x1) = Z.of_nat (S n) * Z.of_nat (S n) + 2 * Z.of_nat (S n)).
  { unfold moved, remove_cost. change (m_text (set_m_text (escapes (S n)) x1)) with (escapes (S n)). change (m_backslashat (set_m_text (escapes (S n)) x1)) with (every2 (21 + 2 * Z.of_nat 0) (S n)).
    change (m_pb (set_m_text (escapes (S n)) x1)) with (m_pb x). rewrite Hp. pose proof (escapes_moves (S n) 0 21) as Q. cbn [repeat app] in Q. change (Z.of_nat 0) with 0 in Q at 2. rewrite Q. unfold size. rewrite escapes_length. lia. }
  rewrite M. destruct (remove_bytes (escapes (S n)) (every2 21 (S n)) 21) as [t|]; [|discriminate]. unfold w_act at 1. destruct (sem_act ASdSetParam data _ _) as [x2|]; [|discriminate].
  cbn [fst snd moved]. change (delta S55 "]"%byte) with (TNext S606 : tr). change (edelta S606) with (TOut 606 : tr). cbn [texec]. intros Q. injection Q as Q1 _ _ Q2. split; [congruence|lia].
Qed.
Lemma escaped_message_length n : length (escaped_message n) = (23 + 2 * n)%nat.
Proof. unfold escaped_message. rewrite !app_length, escapes_length. change (length head5424) with 21%nat. cbn [length lit]. change (length (lit """]")) with 2%nat. lia. Qed.
(* so no constant bounds what RemoveBytes moves by a multiple of the length of the message *)
Theorem copies_not_linear m k : exists data c r msg, copies m data = Some (c, r) /\ snd (parse m data) = Ret (Some msg) None /\ k * (Z.of_nat (length data) + 1) < r.
Proof.
  set (n := Z.to_nat (26 + 26 * Z.abs k)). destruct (copies_escaped m n) as [c [msg [E R]]]. do 4 eexists. split; [exact E|]. split; [exact R|].
  rewrite escaped_message_length. assert (N : Z.of_nat n = 26 + 26 * Z.abs k) by (unfold n; lia). pose proof (Z.abs_spec k). nia.
Qed.
(* the two escaped quotes of <1>1 - - - - - [a b="\"\""]: RemoveBytes copies four bytes and moves three and one *)
Example copies_escaped_ex : option_map snd (copies (new_machine true false) (escaped_message 2)) = Some 8
  /\ option_map snd (copies (new_machine true false) (escaped_message 40)) = Some 1680 /\ length (escaped_message 40) = 103%nat.
Proof. vm_compute. repeat split. Qed.
