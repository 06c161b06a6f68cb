(* C86: the work the non-transparent parser does for a stream is at most proportional to its length. *)
From Coq Require Import FMapPositive.
From Verif Require Import Bytes GotoLang Common CommonFacts M5424Def M5424 Steps ThmSteps NonTransparentBaseDef GenNT ANT MNT SpecNT ThmNT MNtCost.
Local Open Scope Z_scope.

(* ---- forgetting the costs ---- *)
Definition pr (s : gst Y) : gst nvars := G (g_p s) (g_cs s) (g_w s) (fst (g_x s)).
Definition pr_res (r : @GotoLang.res Y) : @GotoLang.res nvars := match r with Fell s => Fell (pr s) | Jump l s => Jump l (pr s) | Panicked => Panicked end.
Definition pr_out (o : GotoLang.outcome Y) : GotoLang.outcome nvars := match o with Out cs y => Out cs (fst y) | Panic => Panic | NoFuel => NoFuel end.
Lemma e_parse_emit text err y : option_map fst (w_parse_emit text err y) = parse_emit text err (fst y).
Proof. unfold w_parse_emit. destruct (parse_emit _ _ _); reflexivity. Qed.
Lemma e_process y : option_map fst (w_process y) = process (fst y).
Proof. unfold w_process, process. destruct (strip1 _ _); [|reflexivity]. rewrite e_parse_emit. reflexivity. Qed.
Lemma e_act a data p y : option_map fst (w_act a data p y) = sem_act a data p (fst y).
Proof. destruct a; [apply e_process|reflexivity|reflexivity]. Qed.
Lemma e_eval data c s : eval w_cnd data c s = eval sem_cnd data c (pr s).
Proof. induction c as [| | | |a IHa b IHb|]; cbn [eval]; try reflexivity. rewrite IHa, IHb. reflexivity. Qed.
Lemma e_run data k : forall s, pr_res (run w_act w_cnd data k s) = run sem_act sem_cnd data k (pr s).
Proof.
  induction k as [|a k IH|c t IHt e IHe k IH|b IHb k IH|l k IH|k IH|k IH|n k IH|n k IH|n k IH]; intros s; cbn [run]; try reflexivity; try apply IH.
  - change (g_x (pr s)) with (fst (g_x s)). change (g_p (pr s)) with (g_p s). rewrite <- e_act. destruct (w_act a data (g_p s) (g_x s)) as [y|]; [apply IH|reflexivity].
  - rewrite e_eval. destruct (eval sem_cnd data c (pr s)) as [[|]|]; [| |reflexivity].
    + rewrite <- IHt. destruct (run w_act w_cnd data t s); [apply IH|reflexivity|reflexivity].
    + rewrite <- IHe. destruct (run w_act w_cnd data e s); [apply IH|reflexivity|reflexivity].
  - rewrite <- IHb. destruct (run w_act w_cnd data b s); [apply IH|reflexivity|reflexivity].
  - change (g_p (pr s)) with (g_p s). destruct (znth data (g_p s)); [apply IH|reflexivity].
Qed.
Lemma e_exec data f : forall l s, pr_out (exec w_act w_cnd codeN data f l s) = exec sem_act sem_cnd codeN data f l (pr s).
Proof.
  induction f as [|f IH]; intros l s; [reflexivity|]. cbn [exec]. destruct (PositiveMap.find (key l) codeN) as [[k nx]|]; [|reflexivity].
  rewrite <- e_run. destruct (run w_act w_cnd data k s) as [s'|l' s'|]; cbn [pr_res]; [|apply IH|reflexivity]. destruct nx; [apply IH|reflexivity].
Qed.
Definition p1 {T} (r : T * Y) : T * nvars := (fst r, fst (snd r)).
Lemma e_nexec cs w y : option_map p1 (w_nexec cs w y) = nexec cs w (fst y).
Proof.
  unfold w_nexec, nexec. match goal with |- context [exec w_act w_cnd codeN w ?f ?l ?s] => pose proof (e_exec w f l s) as E; change (pr s) with (G 0 cs 0 (fst y)) in E; rewrite <- E; destruct (exec w_act w_cnd codeN w f l s) end; reflexivity.
Qed.
Lemma e_completion y : option_map fst (w_on_completion y) = on_completion (fst y).
Proof.
  unfold w_on_completion, on_completion. cbn [fst]. set (y1 := (fst y, spend 1 [] y)). change (fst y) with (fst y1). destruct (0 <? Z.of_nat (length (n_cand (fst y1)))).
  - rewrite <- e_process. destruct (w_process y1) as [y2|]; [|reflexivity]. cbn [option_map]. destruct (n_rderr (fst y2)); [|reflexivity]. destruct (0 <? _); [apply e_parse_emit|reflexivity].
  - destruct (n_rderr (fst y1)); [|reflexivity]. destruct (0 <? _); [apply e_parse_emit|reflexivity].
Qed.
Lemma e_windows d ws : forall cs y, option_map p1 (w_exec_windows d cs ws y) = exec_windows d cs ws (fst y).
Proof.
  induction ws as [|w ws IH]; intros cs y; [reflexivity|]. cbn [w_exec_windows exec_windows]. rewrite <- e_nexec. destruct (w_nexec cs w y) as [[cs' y']|]; [|reflexivity]. cbn [option_map p1 fst snd].
  destruct (cs' =? 0)%N; [|apply IH]. destruct (d_fsm_error d); [apply IH|reflexivity|reflexivity].
Qed.
Lemma e_drive d y data e : option_map fst (w_drive d y data e) = drive d (fst y) data e.
Proof.
  unfold w_drive, drive. destruct (windows _ _) as [ws rest]. pose proof (e_windows d ws 1%N (fst y, spend (size data) [] y)) as E. cbn [fst] in E. rewrite <- E.
  destruct (w_exec_windows d 1 ws _) as [[[cs [|]] y1]|]; cbn [option_map p1 fst snd]; [apply e_completion| |reflexivity].
  assert (R : option_map p1 (w_exec_rest d cs rest y1) = exec_rest d cs rest (fst y1)).
  { unfold w_exec_rest, exec_rest. destruct rest; [reflexivity|]. destruct (d_exec_tail d); [apply e_nexec|reflexivity]. }
  rewrite <- R. destruct (w_exec_rest d cs rest y1) as [[cs2 y2]|]; [|reflexivity]. cbn [option_map p1 fst snd]. rewrite e_completion. f_equal.
  unfold w_end_of_stream, end_of_stream. destruct rest; [|reflexivity]. destruct e; [|reflexivity]. destruct (d_clean_end_is_error d); reflexivity.
Qed.
Theorem nt_work_results d x data e : option_map (fun '(rs, y, _, _) => (rs, y)) (w_nparse_stream d x data e) = nparse_stream d x data e.
Proof.
  unfold w_nparse_stream, nparse_stream. pose proof (e_drive d (set_n_out [] x, (0, [])) data e) as E. cbn [fst] in E. rewrite <- E. destruct (w_drive _ _ _ _) as [[y [c l]]|]; reflexivity.
Qed.

(* ---- the potential ---- *)
Definition cw (c : call) : Z := match c with CExec _ w _ => 238 * (size w + 1) | CParse _ t => 8680 * (size t + 1) end.
Definition wt (l : list call) : Z := fold_right (fun c n => cw c + n) 0 l.
Lemma wt_app a b : wt (a ++ b) = wt a + wt b.
Proof. induction a as [|x a IH]; cbn [wt fold_right app]; [reflexivity|]. fold (wt a). fold (wt (a ++ b)). lia. Qed.
Definition paidY (y : Y) : Z := fst (snd y) + wt (snd (snd y)).
Definition U : Z := 17400.
Definition meas (y : Y) : Z := paidY y + U * size (n_cand (fst y)).
Lemma size_pos l : 0 <= size l. Proof. unfold size. lia. Qed.
Lemma size_app a b : size (a ++ b) = size a + size b. Proof. unfold size. rewrite app_length. lia. Qed.
Lemma size_cons (a : byte) b : size (a :: b) = 1 + size b. Proof. unfold size. cbn [length]. lia. Qed.
Lemma paid_spend x n l y : paidY (x, spend n l y) = paidY y + n + wt l.
Proof. unfold paidY, spend. cbn [fst snd]. rewrite wt_app. lia. Qed.
Lemma chop_size t c : size (chop t c) <= size c.
Proof.
  unfold chop. destruct (strip1 t c) as [c'|] eqn:E; [|apply size_pos]. unfold strip1 in E. destruct (rev c) as [|b r] eqn:R; [discriminate|]. destruct (beqb b t); injection E as <-; [|lia].
  apply (f_equal (@length byte)) in R. rewrite rev_length in R. cbn [length] in R. unfold size. rewrite rev_length. lia.
Qed.
(* every call of Exec starts in a state of the machine *)
Definition okcall (c : call) : Prop := match c with CExec cs _ _ => exists s, nnum s = cs | CParse _ _ => True end.
Definition okc (y : Y) : Prop := Forall okcall (snd (snd y)).
Lemma okc_parse x n m t y : okc y -> okc (x, spend n [CParse m t] y).
Proof. intros H. apply Forall_app. split; [exact H|]. constructor; [exact I|constructor]. Qed.
Lemma okc_spend x n y : okc y -> okc (x, spend n [] y).
Proof. intros H. apply Forall_app. split; [exact H|constructor]. Qed.
(* process: parsing the candidate *)
Lemma process_paid y : nvok (fst y) -> n_cand (fst y) <> [] -> exists y', w_process y = Some y' /\ kept (fst y) (fst y')
  /\ n_cand (fst y') = chop (n_trailer (fst y)) (n_cand (fst y)) /\ n_rderr (fst y') = n_rderr (fst y) /\ n_last (fst y') = n_last (fst y)
  /\ (okc y -> okc y') /\ paidY y' <= meas y.
Proof.
  intros Hx Hc. destruct (process_spec (fst y) Hx Hc) as [x' [E [K [A [B [C _]]]]]]. unfold process in E. unfold w_process. rewrite (strip1_chop _ _ Hc) in *.
  unfold w_parse_emit. cbn [fst]. rewrite E. eexists. split; [reflexivity|]. cbn [fst]. split; [exact K|]. split; [exact A|]. split; [exact B|]. split; [exact C|].
  split; [intros O; apply okc_parse, okc_spend, O|]. rewrite !paid_spend. cbn [wt fold_right cw]. pose proof (chop_size (n_trailer (fst y)) (n_cand (fst y))). unfold meas, U. assert (1 <= size (n_cand (fst y))) by (destruct (n_cand (fst y)); [congruence|unfold size; cbn [length]; lia]). lia.
Qed.
Notation wrun := (arun w_act w_cnd ndelta nedelta).
(* the end of a run of Exec: what is left *)
Definition fine (y : Y) (C B : Z) (o : GotoLang.outcome Y) : Prop := exists s y', o = Out (nnum s) y' /\ kept (fst y) (fst y') /\ n_rderr (fst y') = n_rderr (fst y) /\ n_last (fst y') = n_last (fst y) /\ size (n_cand (fst y')) <= size (n_cand (fst y)) + C /\ (okc y -> okc y') /\ meas y' <= B.
Lemma w_other data y b p next : nvok (fst y) -> b <> n_trailer (fst y) -> texec w_act w_cnd data (ninside (bN b)) p y next = next N2 y.
Proof.
  intros Hx Hb. unfold ninside. destruct (N.eqb_spec (bN b) 10) as [E|E].
  - cbn [texec]. unfold w_cnd, sem_cnd. destruct (ok_tr _ Hx) as [[T1 T2] | [T1 T2]]; rewrite T1; [|reflexivity]. exfalso. apply Hb. rewrite T2. apply bN_inj. exact E.
  - destruct (N.eqb_spec (bN b) 0) as [E'|E']; [|reflexivity]. cbn [texec]. unfold w_cnd, sem_cnd. destruct (ok_tr _ Hx) as [[T1 T2] | [T1 T2]]; rewrite T1; [reflexivity|]. exfalso. apply Hb. rewrite T2. apply bN_inj. exact E'.
Qed.
Definition appended (data : bytes) (y : Y) : Y := (set_n_cand (n_cand (fst y) ++ data) (fst y), spend (size data) [] y).
Lemma w_trailer data y p next : nvok (fst y) -> texec w_act w_cnd data (ninside (bN (n_trailer (fst y)))) p y next = next N3 (appended data y).
Proof. intros Hx. unfold appended. destruct (ok_tr _ Hx) as [[T1 T2] | [T1 T2]]; rewrite T2; unfold ninside; cbn [bN Byte.to_N N.eqb Pos.eqb texec]; unfold w_cnd, sem_cnd; rewrite T1; reflexivity. Qed.
Lemma appended_fine data y : nvok (fst y) -> fine y (size data) (meas y + (U + 1) * size data) (Out 3 (appended data y)).
Proof.
  intros Hx. exists N3, (appended data y). split; [reflexivity|]. unfold appended. cbn [fst]. split; [apply kept_cand, Hx|]. split; [reflexivity|]. split; [reflexivity|]. split; [cbn [n_cand set_n_cand]; rewrite size_app; lia|].
  split; [apply okc_spend|]. unfold meas. rewrite paid_spend. cbn [fst]. cbn [n_cand set_n_cand wt fold_right]. rewrite size_app. unfold U. lia.
Qed.
(* a part of the stream in which the trailer is at most the last byte *)
Definition part (t : byte) (w : bytes) : Prop := exists u, (w = u ++ [t] \/ w = u) /\ ~ In t u.
Lemma part_tail t b w : part t (b :: w) -> w <> [] -> b <> t /\ part t w.
Proof.
  intros [u [[E|E] H]] Hw.
  - destruct u as [|a u]; [injection E as _ ->; congruence|]. injection E as <- ->. split; [intros ->; apply H; left; reflexivity|]. exists u. split; [auto|]. intros I. apply H. right. exact I.
  - subst u. split; [intros ->; apply H; left; reflexivity|]. exists w. split; [auto|]. intros I. apply H. right. exact I.
Qed.
Lemma run_inside_fine data w : forall p y, nvok (fst y) -> part (n_trailer (fst y)) w -> fine y (size data) (meas y + (U + 1) * size data) (wrun data N2 p w y).
Proof.
  pose proof (size_pos data) as Sd. induction w as [|b w IH]; intros p y Hx Hw; cbn [arun ndelta].
  - exists N2, y. split; [reflexivity|]. split; [apply kept_refl, Hx|]. split; [reflexivity|]. split; [reflexivity|]. split; [lia|]. split; [auto|]. unfold U. lia.
  - destruct w as [|b2 w].
    + destruct (byte_eq_dec b (n_trailer (fst y))) as [->|N].
      * rewrite (w_trailer data y p _ Hx). cbn [arun nedelta texec]. apply appended_fine, Hx.
      * rewrite (w_other data y b p _ Hx N). apply IH; [exact Hx|]. exists []. split; [auto|intros []].
    + apply part_tail in Hw as [N Hw]; [|discriminate]. rewrite (w_other data y b p _ Hx N). apply IH; assumption.
Qed.
Lemma begin_fine data p y next : nvok (fst y) -> exists y', texec w_act w_cnd data nbegin p y next = next N2 y' /\ kept (fst y) (fst y') /\ n_rderr (fst y') = n_rderr (fst y) /\ n_last (fst y') = n_last (fst y) /\ size (n_cand (fst y')) <= size (n_cand (fst y)) /\ (okc y -> okc y') /\ meas y' <= meas y.
Proof.
  intros Hx. unfold nbegin. cbn [texec w_act]. unfold w_cnd, sem_cnd. destruct (n_cand (fst y)) as [|c0 c] eqn:Ec.
  - cbn [length Z.of_nat Z.ltb Z.compare]. eexists. split; [reflexivity|]. cbn [fst]. split; [apply kept_cand, Hx|]. split; [reflexivity|]. split; [reflexivity|].
    cbn [n_cand set_n_cand]. split; [lia|]. split; [auto|]. unfold meas, paidY. cbn [fst snd n_cand set_n_cand]. rewrite ?Ec. lia.
  - replace (0 <? Z.of_nat (length (c0 :: c))) with true by (symmetry; apply Z.ltb_lt; cbn [length]; lia).
    destruct (process_paid y Hx ltac:(congruence)) as [y1 [E [K [_ [B [C [O D]]]]]]]. rewrite E. eexists. split; [reflexivity|]. cbn [fst].
    split; [eapply kept_trans; [exact K|apply kept_cand, K]|]. split; [exact B|]. split; [exact C|]. cbn [n_cand set_n_cand]. change (size []) with 0. split; [apply size_pos|]. split; [exact O|]. unfold meas at 1. unfold paidY in *. cbn [fst snd n_cand set_n_cand]. change (size []) with 0. lia.
Qed.
Lemma fine_more y y' C B B' o : kept (fst y) (fst y') -> n_rderr (fst y') = n_rderr (fst y) -> n_last (fst y') = n_last (fst y) -> size (n_cand (fst y')) <= size (n_cand (fst y)) -> (okc y -> okc y') -> fine y' C B o -> B <= B' -> fine y C B' o.
Proof. intros K R L Q O [s [z [-> [K' [R' [L' [Q' [O' M]]]]]]]] H. exists s, z. split; [reflexivity|]. split; [eapply kept_trans; eassumption|]. split; [congruence|]. split; [congruence|]. split; [lia|]. split; [auto|lia]. Qed.
Lemma run_fine data s w p y : nvok (fst y) -> part (n_trailer (fst y)) w -> fine y (size data) (meas y + (U + 1) * size data) (wrun data s p w y).
Proof.
  intros Hx Hw. pose proof (size_pos data) as Sd.
  assert (Stay : forall s', fine y (size data) (meas y + (U + 1) * size data) (Out (nnum s') y)) by (intros s'; exists s', y; split; [reflexivity|]; split; [apply kept_refl, Hx|]; split; [reflexivity|]; split; [reflexivity|]; split; [lia|]; split; [auto|]; unfold U; lia).
  destruct w as [|b w]; [cbn [arun nedelta texec]; apply Stay|]. cbn [arun].
  assert (Tail : part (n_trailer (fst y)) (b :: w) -> b <> n_trailer (fst y) -> part (n_trailer (fst y)) w).
  { intros P N. destruct w as [|b2 w]; [exists []; split; [auto|intros []]|]. apply part_tail in P as [_ P]; [exact P|discriminate]. }
  assert (Begin : b = "<"%byte -> forall q, fine y (size data) (meas y + (U + 1) * size data) (texec w_act w_cnd data nbegin q y (fun s' x' => wrun data s' (p + 1) w x'))).
  { intros -> q. destruct (begin_fine data q y (fun s' x' => wrun data s' (p + 1) w x') Hx) as [y1 [-> [K [R [L [Q [O M]]]]]]].
    apply (fine_more y y1 _ (meas y1 + (U + 1) * size data)); [assumption..| |lia]. apply run_inside_fine; [apply K|]. rewrite (kept_tr _ _ K). apply Tail; [exact Hw|]. intros E. exact (trailer_not_lt _ Hx (eq_sym E)). }
  assert (Inside : forall q, fine y (size data) (meas y + (U + 1) * size data) (texec w_act w_cnd data (ninside (bN b)) q y (fun s' x' => wrun data s' (p + 1) w x'))).
  { intros q. destruct (byte_eq_dec b (n_trailer (fst y))) as [->|N].
    - rewrite (w_trailer data y q _ Hx). destruct w as [|b2 w]; [cbn [arun nedelta texec]; apply appended_fine, Hx|]. apply part_tail in Hw as [N _]; [congruence|discriminate].
    - rewrite (w_other data y b q _ Hx N). apply run_inside_fine; [exact Hx|]. apply Tail; assumption. }
  destruct s; cbn [ndelta].
  - apply (Stay N0).
  - destruct (bN b =? 60)%N eqn:E; [apply Begin, bN_inj; apply N.eqb_eq in E; exact E|apply (Stay N0)].
  - apply Inside.
  - destruct (bN b =? 60)%N eqn:E; [apply Begin, bN_inj; apply N.eqb_eq in E; exact E|apply Inside].
Qed.

(* ---- the calls of the driver ---- *)
(* y' is what y has become after reading n bytes *)
Definition step (n : Z) (y y' : Y) : Prop := kept (fst y) (fst y') /\ (okc y -> okc y') /\ size (n_cand (fst y')) <= size (n_cand (fst y)) + n
  /\ size (n_last (fst y')) <= size (n_last (fst y)) + n /\ meas y' <= meas y + 17900 * n.
Lemma step_refl y : nvok (fst y) -> step 0 y y.
Proof. intros H. split; [apply kept_refl, H|]. split; [auto|]. split; [lia|]. split; lia. Qed.
Lemma step_trans n m y y' y'' : step n y y' -> step m y' y'' -> step (n + m) y y''.
Proof. intros [K [O [C [L M]]]] [K' [O' [C' [L' M']]]]. split; [eapply kept_trans; eassumption|]. split; [auto|]. split; [lia|]. split; lia. Qed.
Lemma w_nexec_run s w y : w_nexec (nnum s) w y = match wrun w s 0 w (fst y, spend 1 [CExec (nnum s) w (fst y)] y) with Out cs' y' => Some (cs', y') | _ => None end.
Proof. unfold w_nexec. pose proof (exec_arun w_act w_cnd codeN nnum nok ndelta nedelta simN w s (fst y, spend 1 [CExec (nnum s) w (fst y)] y) 0%N (entryN s)) as E. unfold Y in *. rewrite E. reflexivity. Qed.
Lemma exec_step s w y : nvok (fst y) -> part (n_trailer (fst y)) w -> w <> [] -> exists s' y', w_nexec (nnum s) w y = Some (nnum s', y') /\ step (size w) y y' /\ n_last (fst y') = n_last (fst y) /\ meas y' + 1 <= meas y + 17900 * size w.
Proof.
  intros Hx Hw Hn. rewrite w_nexec_run. set (y1 := (fst y, spend 1 [CExec (nnum s) w (fst y)] y)). destruct (run_fine w s w 0 y1 Hx Hw) as [s' [y' [-> [K [R [L [C [O M]]]]]]]].
  exists s', y'. split; [reflexivity|]. assert (E : meas y1 = meas y + 1 + 238 * (size w + 1)) by (unfold meas, y1; rewrite paid_spend; cbn [wt fold_right cw fst]; lia).
  rewrite E in M. assert (1 <= size w) by (destruct w; [congruence|unfold size; cbn [length]; lia]). unfold U in M.
  split; [|split; [assumption|lia]]. split; [exact K|]. split.
  { intros Ho. apply O. apply Forall_app. split; [exact Ho|]. constructor; [exists s; reflexivity|constructor]. }
  split; [exact C|]. split; [rewrite L; unfold y1; cbn [fst]; lia|lia].
Qed.
Lemma err_step w e y : nvok (fst y) -> kept (fst y) (fst (w_on_err w e y)) /\ (okc y -> okc (w_on_err w e y)) /\ n_cand (fst (w_on_err w e y)) = n_cand (fst y)
  /\ n_last (fst (w_on_err w e y)) = w /\ meas (w_on_err w e y) = meas y + 1.
Proof.
  intros Hx. unfold w_on_err. cbn [fst]. split; [apply kept_err, Hx|]. split; [apply okc_spend|]. split; [reflexivity|]. split; [reflexivity|].
  unfold meas. rewrite paid_spend. cbn [wt fold_right fst]. change (n_cand (on_err w e (fst y))) with (n_cand (fst y)). lia.
Qed.
Lemma windows_step d ws : forall s y, nvok (fst y) -> Forall (window_ok (n_trailer (fst y))) ws ->
  exists s' stop y', w_exec_windows d (nnum s) ws y = Some (nnum s', stop, y') /\ step (size (concat ws)) y y' /\ (stop = false -> n_last (fst y') = n_last (fst y)).
Proof.
  induction ws as [|w ws IH]; intros s y Hx Hw; cbn [w_exec_windows concat].
  - exists s, false, y. split; [reflexivity|]. split; [apply step_refl, Hx|reflexivity].
  - inversion Hw as [|? ? [u [Eu Nu]] Hr]; subst w. set (w := u ++ [n_trailer (fst y)]) in *.
    assert (Wn : w <> []) by (unfold w; destruct u; discriminate). assert (W1 : 1 <= size w) by (destruct w; [congruence|unfold size; cbn [length]; lia]).
    destruct (exec_step s w y Hx) as [s1 [y1 [E [S1 [L1 R1]]]]]; [exists u; auto|exact Wn|]. rewrite E. rewrite size_app.
    assert (Go : exists s' stop y', w_exec_windows d (nnum s1) ws y1 = Some (nnum s', stop, y') /\ step (size w + size (concat ws)) y y' /\ (stop = false -> n_last (fst y') = n_last (fst y))).
    { destruct (IH s1 y1) as [s2 [stop [y2 [E2 [S2 L2]]]]]; [apply S1|rewrite (kept_tr _ _ (proj1 S1)); exact Hr|].
      exists s2, stop, y2. split; [exact E2|]. split; [eapply step_trans; eassumption|]. intros Hs. rewrite (L2 Hs). exact L1. }
    destruct (nnum s1 =? 0)%N; [|exact Go]. destruct (d_fsm_error d); [exact Go| |].
    + exists s1, true, y1. split; [reflexivity|]. split; [|discriminate]. destruct S1 as [K [O [C [L M]]]]. pose proof (size_pos (concat ws)). split; [exact K|]. split; [exact O|]. split; [lia|]. split; lia.
    + exists s1, true, (w_on_err w RdFsm y1). split; [reflexivity|]. split; [|discriminate]. destruct S1 as [K [O [C [L M]]]]. pose proof (size_pos (concat ws)).
      destruct (err_step w RdFsm y1 (proj1 K)) as [K2 [O2 [C2 [L2 M2]]]]. split; [eapply kept_trans; eassumption|]. split; [auto|]. rewrite C2, L2. split; [lia|]. split; [pose proof (size_pos (n_last (fst y))); lia|].
      rewrite M2. lia.
Qed.
Lemma part_rest t w : ~ In t w -> part t w.
Proof. intros H. exists w. auto. Qed.
Lemma rest_step d s rest y : nvok (fst y) -> ~ In (n_trailer (fst y)) rest ->
  exists s' y', w_exec_rest d (nnum s) rest y = Some (nnum s', y') /\ step (size rest) y y' /\ n_last (fst y') = n_last (fst y).
Proof.
  intros Hx Hr. destruct rest as [|b r]; [exists s, y; split; [reflexivity|]; split; [apply step_refl, Hx|reflexivity]|]. unfold w_exec_rest. destruct (d_exec_tail d).
  - destruct (exec_step s (b :: r) y Hx (part_rest _ _ Hr) ltac:(discriminate)) as [s' [y' [E [S [L _]]]]]. exists s', y'. auto.
  - exists s, y. split; [reflexivity|]. split; [|reflexivity]. pose proof (size_pos (b :: r)). split; [apply kept_refl, Hx|]. split; [auto|]. split; [lia|]. split; lia.
Qed.
(* the end of the stream is reported to the parser *)
Lemma end_step d rest e y : nvok (fst y) -> let z := w_end_of_stream d rest e y in kept (fst y) (fst z) /\ (okc y -> okc z) /\ n_cand (fst z) = n_cand (fst y)
  /\ size (n_last (fst z)) <= size (n_last (fst y)) + size rest /\ meas z = meas y + 1.
Proof.
  intros Hx z. pose proof (size_pos (n_last (fst y))) as Sl0. pose proof (size_pos rest) as Sr0. pose proof (size_pos []) as Se0.
  assert (Er : forall e', let z' := w_on_err rest e' y in kept (fst y) (fst z') /\ (okc y -> okc z') /\ n_cand (fst z') = n_cand (fst y) /\ size (n_last (fst z')) <= size (n_last (fst y)) + size rest /\ meas z' = meas y + 1).
  { intros e' z'. destruct (err_step rest e' y Hx) as [A [B [C [D E]]]]. unfold z'. rewrite D. split; [exact A|]. split; [exact B|]. split; [exact C|]. split; [lia|exact E]. }
  unfold z, w_end_of_stream. destruct rest as [|b r]; [|apply Er]. destruct e as [|]; [|apply Er]. destruct (d_clean_end_is_error d); [apply Er|].
  cbv zeta. change (w_on_eof y) with ((fst y, spend 1 [] y) : Y). assert (M : meas ((fst y, spend 1 [] y) : Y) = meas y + 1) by (unfold meas; rewrite paid_spend; cbn [wt fold_right fst]; lia).
  split; [apply kept_refl, Hx|]. split; [apply okc_spend|]. split; [reflexivity|]. split; [cbn [fst]; lia|exact M].
Qed.
Lemma completion_step y : nvok (fst y) -> exists y', w_on_completion y = Some y' /\ kept (fst y) (fst y') /\ (okc y -> okc y')
  /\ size (n_cand (fst y')) <= size (n_cand (fst y)) /\ n_last (fst y') = n_last (fst y) /\ paidY y' <= meas y + 2 + 8680 * (size (n_last (fst y)) + 1).
Proof.
  intros Hx. unfold w_on_completion. set (y1 := (fst y, spend 1 [] y)).
  assert (M1 : meas y1 = meas y + 1) by (unfold meas, y1; rewrite paid_spend; cbn [wt fold_right fst]; lia).
  assert (F : exists y2, (if 0 <? Z.of_nat (length (n_cand (fst y1))) then w_process y1 else Some y1) = Some y2 /\ kept (fst y1) (fst y2) /\ (okc y1 -> okc y2)
    /\ size (n_cand (fst y2)) <= size (n_cand (fst y1)) /\ n_last (fst y2) = n_last (fst y1) /\ paidY y2 <= meas y1).
  { destruct (0 <? _) eqn:Ec.
    - apply Z.ltb_lt in Ec. destruct (process_paid y1 Hx) as [y2 [E [K [A [B [C [O D]]]]]]]; [intros E; rewrite E in Ec; cbn in Ec; lia|].
      exists y2. split; [exact E|]. split; [exact K|]. split; [exact O|]. split; [rewrite A; apply chop_size|]. split; [exact C|exact D].
    - exists y1. split; [reflexivity|]. split; [apply kept_refl, Hx|]. split; [auto|]. split; [lia|]. split; [reflexivity|]. unfold meas, U. pose proof (size_pos (n_cand (fst y1))). lia. }
  destruct F as [y2 [E2 [K2 [O2 [C2 [L2 P2]]]]]]. rewrite E2. assert (O1 : okc y -> okc y1) by (apply okc_spend). pose proof (size_pos (n_last (fst y))) as Sl.
  assert (Q : exists y', Some y2 = Some y' /\ kept (fst y) (fst y') /\ (okc y -> okc y') /\ size (n_cand (fst y')) <= size (n_cand (fst y)) /\ n_last (fst y') = n_last (fst y) /\ paidY y' <= meas y + 2 + 8680 * (size (n_last (fst y)) + 1)).
  { exists y2. split; [reflexivity|]. split; [exact K2|]. split; [auto|]. split; [exact C2|]. split; [exact L2|lia]. }
  clear E2. destruct (n_rderr (fst y2)) as [e|]; [|exact Q]. destruct (0 <? Z.of_nat (length (n_last (fst y2)))); [|exact Q].
  unfold w_parse_emit. destruct (parse_emit_spec (n_last (fst y2)) (Some e) (fst y2) (proj1 K2)) as [x' [E [K [A [B [C _]]]]]]. rewrite E. eexists. split; [reflexivity|]. cbn [fst].
  split; [eapply kept_trans; [exact K2|exact K]|]. split; [intros Ho; apply okc_parse; auto|]. split; [rewrite A; exact C2|]. split; [rewrite C; exact L2|].
  rewrite paid_spend. cbn [wt fold_right cw]. rewrite L2. change (fst y1) with (fst y). lia.
Qed.
(* a stream *)
Lemma drive_step d y data e : nvok (fst y) -> exists y', w_drive d y data e = Some y' /\ kept (fst y) (fst y') /\ (okc y -> okc y')
  /\ size (n_cand (fst y')) <= size (n_cand (fst y)) + size data /\ size (n_last (fst y')) <= size (n_last (fst y)) + size data
  /\ paidY y' <= meas y + 26581 * size data + 8680 * size (n_last (fst y)) + 8683.
Proof.
  intros Hx. unfold w_drive. destruct (windows_spec (n_trailer (fst y)) data) as [W1 [W2 W3]]. destruct (windows _ _) as [ws rest]. cbn [fst snd] in W1, W2, W3.
  pose proof (size_pos (concat ws)) as Sw. pose proof (size_pos rest) as Sr. apply (f_equal size) in W1. rewrite size_app in W1.
  set (y1 := (fst y, spend (size data) [] y)). assert (M1 : meas y1 = meas y + size data) by (unfold meas, y1; rewrite paid_spend; cbn [wt fold_right fst]; lia).
  assert (O1 : okc y -> okc y1) by apply okc_spend.
  destruct (windows_step d ws N1 y1 Hx W2) as [s2 [stop [y2 [E2 [[K2 [O2 [C2 [L2 M2]]]] S2]]]]]. change (nnum N1) with 1%N in E2. rewrite E2. change (fst y1) with (fst y) in *.
  destruct stop.
  - destruct (completion_step y2 (proj1 K2)) as [y' [E [K [O [C [L P]]]]]]. exists y'. split; [exact E|]. split; [eapply kept_trans; eassumption|]. split; [auto|]. split; [lia|]. rewrite L. split; lia.
  - specialize (S2 eq_refl). destruct (rest_step d s2 rest y2 (proj1 K2)) as [s3 [y3 [E3 [[K3 [O3 [C3 [L3 M3]]]] S3]]]]; [rewrite (kept_tr _ _ K2); exact W3|]. rewrite E3.
    destruct (end_step d rest e y3 (proj1 K3)) as [K4 [O4 [C4 [L4 M4]]]]. set (y4 := w_end_of_stream d rest e y3) in *.
    destruct (completion_step y4 (proj1 K4)) as [y' [E [K [O [C [L P]]]]]]. exists y'. split; [exact E|].
    split; [eapply kept_trans; [eapply kept_trans; [exact K2|exact K3]|eapply kept_trans; [exact K4|exact K]]|]. split; [intros Ho; apply O, O4, O3, O2, O1, Ho|]. rewrite C4 in C. split; [lia|]. rewrite S3, S2 in L4. rewrite L. split; lia.
Qed.

(* ---- C86 ---- *)
(* the call c of Exec, or of Parse of the RFC 5424 machine, executes n statements, tests and jumps *)
Definition takes (c : call) (n : nat) : Prop := match c with
  | CExec cs w x => exists s R, nnum s = cs /\ executesN s x w n R
  | CParse m t => exists R, executes5424 m t n R
  end.
Lemma takes_some l : Forall okcall l -> exists ns, Forall2 takes l ns.
Proof.
  induction 1 as [|c l Hc _ [ns H]]; [exists []; constructor|]. destruct c as [cs w x|m t].
  - destruct Hc as [s Hs]. destruct (nexec_linear s x w) as [[n [R E]] _]. exists (n :: ns). constructor; [exists s, R; split; [exact Hs|exact E]|exact H].
  - destruct (parse5424_linear m t) as [[n [cs [x E]]] _]. exists (n :: ns). constructor; [exists (Out cs x); exact E|exact H].
Qed.
Lemma takes_wt l ns : Forall2 takes l ns -> Z.of_nat (fold_right Nat.add 0%nat ns) <= wt l.
Proof.
  induction 1 as [|c n l ns E _ IH]; [cbn; lia|]. cbn [wt fold_right]. fold (wt l).
  assert (Z.of_nat n <= cw c); [|lia]. destruct c as [cs w x|m t]; cbn [cw].
  - destruct E as [s [R [_ E]]]. destruct (nexec_linear s x w) as [_ L]. destruct (L n R E) as [L1 _]. unfold linear in L1. unfold size. lia.
  - destruct E as [R E]. destruct (parse5424_linear m t) as [_ L]. destruct (L n R E) as [L1 _]. unfold linear in L1. unfold size. lia.
Qed.
(* the bytes of the streams read before *)
Definition read_before (before : list (bytes * ending)) : Z := fold_right (fun st n => Z.of_nat (length (fst st)) + n) 0 before.
Lemma stream_step d x data e : nvok x -> exists rs y cost calls, w_nparse_stream d x data e = Some (rs, y, cost, calls) /\ nparse_stream d x data e = Some (rs, y)
  /\ nvok y /\ Forall okcall calls /\ size (n_cand y) <= size (n_cand x) + size data /\ size (n_last y) <= size (n_last x) + size data
  /\ cost + wt calls <= 17400 * size (n_cand x) + 26581 * size data + 8680 * size (n_last x) + 8683.
Proof.
  intros Hx. destruct (drive_step d (set_n_out [] x, (0, [])) data e (proj1 (kept_out x [] Hx))) as [[y [cost calls]] [E [K [O [C [L P]]]]]].
  exists (n_out y), y, cost, calls. pose proof (nt_work_results d x data e) as F. unfold w_nparse_stream in F |- *. rewrite E in F |- *. split; [reflexivity|]. split; [symmetry; exact F|].
  split; [apply K|]. split; [apply O; constructor|]. cbn [fst set_n_out n_cand n_last] in C, L. split; [exact C|]. split; [exact L|].
  unfold paidY, meas, paidY, U in P. cbn [fst snd set_n_out n_cand n_last wt fold_right] in P. fold (wt calls) in P. lia.
Qed.
Lemma nafter_size d before : forall x, nvok x -> let y := nafter d x before in nvok y /\ size (n_cand y) <= size (n_cand x) + read_before before /\ size (n_last y) <= size (n_last x) + read_before before.
Proof.
  induction before as [|[data e] r IH]; intros x Hx; cbn [nafter read_before fold_right fst].
  - split; [exact Hx|]. lia.
  - fold (read_before r). destruct (stream_step d x data e Hx) as [rs [y [c [l [_ [-> [K [_ [C [L _]]]]]]]]]]. destruct (IH y K) as [K2 [C2 L2]]. fold (size data). split; [exact K2|]. lia.
Qed.
(* the number of steps of the parser and of the driver, of Exec in all its calls and of the RFC 5424 machine in all its calls
   is at most a constant times the number of bytes read; what the parser keeps of earlier streams counts as read again *)
Theorem nt_work_linear d opts before data e : exists rs y cost calls,
  w_nparse_stream d (nafter d (nnew_parser opts) before) data e = Some (rs, y, cost, calls) /\ nemitted d opts before data e = Some rs
  /\ (exists ns, Forall2 takes calls ns)
  /\ forall ns, Forall2 takes calls ns -> cost + Z.of_nat (fold_right Nat.add 0%nat ns) <= 26581 * (read_before before + Z.of_nat (length data) + 1).
Proof.
  destruct (nafter_size d before (nnew_parser opts) (proj1 (nnew_opts opts))) as [K [C L]]. set (x := nafter d (nnew_parser opts) before) in *.
  destruct (stream_step d x data e K) as [rs [y [cost [calls [E [F [_ [O [_ [_ P]]]]]]]]]]. exists rs, y, cost, calls. split; [exact E|].
  split; [unfold nemitted; fold x; rewrite F; reflexivity|]. split; [apply takes_some, O|]. intros ns H. apply takes_wt in H.
  assert (n_cand (nnew_parser opts) = [] /\ n_last (nnew_parser opts) = []) as [C0 L0] by (split; apply nnew_opts).
  rewrite C0 in C. rewrite L0 in L. change (size []) with 0 in *. unfold size in *. lia.
Qed.
(* two messages, the second without its trailer: 57 steps, two calls of Exec and two of Parse; and what is left of an earlier
   stream is parsed again by the next one, even when that is empty *)
Example nt_work_ex : (exists rs y calls, w_nparse_stream (Driver Continue false true) (nnew_parser []) (lit "<1>1 - - - - - -" ++ ["010"%byte] ++ lit "<2>1 - - - - - -") AtEOF
    = Some (rs, y, 57, calls) /\ length rs = 2%nat /\ length calls = 4%nat)
  /\ (exists rs y cost m, w_nparse_stream (Driver Continue false true) (nafter (Driver Continue false true) (nnew_parser []) [(lit "<1>1 - - - - - -" ++ ["010"%byte], AtEOF)]) [] AtEOF
    = Some (rs, y, cost, [CParse m (lit "<1>1 - - - - - -")]) /\ length rs = 1%nat).
Proof. split; [do 3 eexists; split; [vm_compute; reflexivity|split; reflexivity]|do 4 eexists; split; [vm_compute; reflexivity|reflexivity]]. Qed.
