(* C92: what is copied for a whole non-transparent stream: the calls of Parse are those recorded by the counting model of C86,
   what each of them copies is counted by the model of C87. *)
From Coq Require Import FMapPositive.
From Verif Require Import Bytes GotoLang Common CommonFacts M5424Def M5424 Steps ThmSteps NonTransparentBaseDef GenNT ANT MNT SpecNT ThmNT MNtCost ThmNtCost.
From Verif Require MTextCost ThmTextCost ThmStreamCopy.
Local Open Scope Z_scope.

(* ---- the calls of Parse ---- *)
Definition parses (l : list call) : list (machine * bytes) := flat_map (fun c => match c with CParse m t => [(m, t)] | CExec _ _ _ => [] end) l.
(* the result is what the call answered, with its error *)
Definition tells (r : nresult) (md : machine * bytes) : Prop :=
  exists m' e, parse (fst md) (snd md) = (m', Ret (nr_msg r) e) /\ (forall x, e = Some x -> nr_err r = Some (NMachine x)) /\ (e = None -> forall x, nr_err r <> Some (NMachine x)).
Lemma chain_snoc m l m' d : ThmStreamCopy.chain m l m' -> ThmStreamCopy.chain m (l ++ [(m', d)]) (fst (parse m' d)).
Proof. revert m. induction l as [|[a t] l IH]; intros m; cbn [ThmStreamCopy.chain app]; [intros ->; split; reflexivity|]. intros [E H]. split; [exact E|apply IH, H]. Qed.
Lemma parses_app a b : parses (a ++ b) = parses a ++ parses b.
Proof. apply flat_map_app. Qed.

(* ---- no cost is negative; every result comes from a recorded call ---- *)
Section Made.
(* the machine before the stream *)
Variable m0 : machine.
Definition nn (y : Y) : Prop := 0 <= fst (snd y) /\ Forall2 tells (n_out (fst y)) (parses (snd (snd y))) /\ ThmStreamCopy.chain m0 (parses (snd (snd y))) (n_internal (fst y)).
Lemma nn_keep x n l y : 0 <= n -> n_out x = n_out (fst y) -> n_internal x = n_internal (fst y) -> parses l = [] -> nn y -> nn (x, spend n l y).
Proof. intros H1 H2 H3 H4 [A [B C]]. unfold nn, spend. cbn [fst snd]. rewrite parses_app, H4, app_nil_r, H2, H3. split; [lia|split; assumption]. Qed.
Lemma nn_parse t e y y' : nn y -> w_parse_emit t e y = Some y' -> nn y'.
Proof.
  unfold w_parse_emit, parse_emit. intros [A [B C]]. destruct (parse (n_internal (fst y)) t) as [m [r x| |]] eqn:E; try discriminate. intros K. injection K as <-. unfold nn, spend. cbn [fst snd n_out set_n_out n_internal set_n_internal].
  rewrite parses_app. cbn [parses flat_map app]. split; [lia|]. split.
  - apply Forall2_app; [exact B|]. constructor; [|constructor]. exists m, x. cbn [fst snd nr_msg nr_err]. split; [exact E|]. split; [intros z ->; reflexivity|intros -> z; destruct e; discriminate].
  - pose proof (chain_snoc m0 _ _ t C) as S. rewrite E in S. exact S.
Qed.
Lemma nn_process y y' : nn y -> w_process y = Some y' -> nn y'.
Proof. unfold w_process. intros H. destruct (strip1 _ _); [|discriminate]. apply nn_parse, nn_keep; [lia|reflexivity|reflexivity|reflexivity|exact H]. Qed.
Lemma nn_act a data p y y' : nn y -> w_act a data p y = Some y' -> nn y'.
Proof.
  intros H. destruct a; cbn [w_act]; [apply nn_process, H|intros E; injection E as <-; exact H|intros E; injection E as <-; apply nn_keep; [pose proof (size_pos data); lia|reflexivity|reflexivity|apply eq_refl|exact H]].
Qed.
Lemma nn_runs data k : forall s, nn (g_x s) -> match run w_act w_cnd data k s with Fell s' => nn (g_x s') | Jump _ s' => nn (g_x s') | Panicked => True end.
Proof.
  induction k as [|a k IH|c t IHt e IHe k IH|b IHb k IH|l k IH|k IH|k IH|n k IH|n k IH|n k IH]; intros s H; cbn [run]; try exact H; try (apply IH, H).
  - destruct (w_act a data (g_p s) (g_x s)) as [y|] eqn:E; [|exact I]. apply IH. exact (nn_act _ _ _ _ _ H E).
  - destruct (eval w_cnd data c s) as [[|]|]; [| |exact I].
    + specialize (IHt s H). destruct (run w_act w_cnd data t s); [apply IH, IHt|exact IHt|exact I].
    + specialize (IHe s H). destruct (run w_act w_cnd data e s); [apply IH, IHe|exact IHe|exact I].
  - specialize (IHb s H). destruct (run w_act w_cnd data b s); [apply IH, IHb|exact IHb|exact I].
  - destruct (znth data (g_p s)); [apply IH, H|exact I].
Qed.
Lemma nn_exec data f : forall l s, nn (g_x s) -> match exec w_act w_cnd codeN data f l s with Out _ y => nn y | _ => True end.
Proof.
  induction f as [|f IH]; intros l s H; [exact I|]. cbn [exec]. destruct (PositiveMap.find (key l) codeN) as [[k nx]|]; [|exact I].
  pose proof (nn_runs data k s H) as R. destruct (run w_act w_cnd data k s) as [s'|l' s'|]; [|apply IH, R|exact I]. destruct nx; [apply IH, R|exact R].
Qed.
Lemma nn_nexec cs w y cs' y' : nn y -> w_nexec cs w y = Some (cs', y') -> nn y'.
Proof.
  unfold w_nexec. intros H. pose proof (nn_exec w (exec_fuel w) LEntry (G 0 cs 0%N (fst y, spend 1 [CExec cs w (fst y)] y))) as N. cbn [g_x] in N.
  specialize (N ltac:(apply nn_keep; [lia|reflexivity|reflexivity|reflexivity|exact H])). destruct (exec _ _ _ _ _ _ _) as [c z| |]; [|discriminate|discriminate]. intros E. injection E as _ <-. exact N.
Qed.
Lemma nn_err w e y : nn y -> nn (w_on_err w e y). Proof. apply nn_keep; [lia|reflexivity|reflexivity|reflexivity]. Qed.
Lemma nn_completion y y' : nn y -> w_on_completion y = Some y' -> nn y'.
Proof.
  unfold w_on_completion. intros H. set (y1 := (fst y, spend 1 [] y)). assert (H1 : nn y1) by (apply nn_keep; [lia|reflexivity|reflexivity|reflexivity|exact H]).
  destruct (0 <? Z.of_nat (length (n_cand (fst y1)))).
  - destruct (w_process y1) as [y2|] eqn:E; [|discriminate]. apply (nn_process _ _ H1) in E. destruct (n_rderr (fst y2)); [|intros K; injection K as <-; exact E].
    destruct (_ <? _); [apply nn_parse, E|intros K; injection K as <-; exact E].
  - destruct (n_rderr (fst y1)); [|intros K; injection K as <-; exact H1]. destruct (_ <? _); [apply nn_parse, H1|intros K; injection K as <-; exact H1].
Qed.
Lemma nn_windows d ws : forall cs y cs' stop y', nn y -> w_exec_windows d cs ws y = Some (cs', stop, y') -> nn y'.
Proof.
  induction ws as [|w r IH]; intros cs y cs' stop y' H; cbn [w_exec_windows]; [intros E; injection E as _ _ <-; exact H|].
  destruct (w_nexec cs w y) as [[c1 y1]|] eqn:E1; [|discriminate]. apply (nn_nexec _ _ _ _ _ H) in E1. destruct (_ =? 0)%N; [|apply IH, E1].
  destruct (d_fsm_error d); [apply IH, E1|intros E; injection E as _ _ <-; exact E1|intros E; injection E as _ _ <-; apply nn_err, E1].
Qed.
Lemma nn_end d rest e y : nn y -> nn (w_end_of_stream d rest e y).
Proof.
  intros H. unfold w_end_of_stream. destruct rest; [|apply nn_err, H]. destruct e; [|apply nn_err, H]. destruct (d_clean_end_is_error d); [apply nn_err, H|apply nn_keep; [lia|reflexivity|reflexivity|reflexivity|exact H]].
Qed.
Lemma nn_stream d x data e rs y cost calls : n_internal x = m0 -> w_nparse_stream d x data e = Some (rs, y, cost, calls) ->
  0 <= cost /\ Forall2 tells rs (parses calls) /\ ThmStreamCopy.chain m0 (parses calls) (n_internal y).
Proof.
  intros Hx. unfold w_nparse_stream. destruct (w_drive d (set_n_out [] x, (0, [])) data e) as [[z [c l]]|] eqn:E; [|discriminate]. intros K. injection K as <- <- <- <-. change (nn (z, (c, l))). revert E.
  unfold w_drive. cbn [fst]. destruct (windows _ _) as [ws rest].
  assert (H0 : nn (set_n_out [] x, spend (size data) [] (set_n_out [] x, (0, [])))).
  { apply nn_keep; [apply size_pos|reflexivity|reflexivity|reflexivity|]. split; [cbn; lia|]. split; [constructor|symmetry; exact Hx]. }
  destruct (w_exec_windows d 1 ws _) as [[[cs stop] y1]|] eqn:E1; [|discriminate]. apply (nn_windows _ _ _ _ _ _ _ H0) in E1. destruct stop; [apply nn_completion, E1|].
  unfold w_exec_rest. destruct rest as [|b r]; [apply nn_completion, nn_end, E1|]. destruct (d_exec_tail d); [|apply nn_completion, nn_end, E1].
  destruct (w_nexec cs (b :: r) y1) as [[c2 y2]|] eqn:E2; [|discriminate]. apply (nn_nexec _ _ _ _ _ E1) in E2. apply nn_completion, nn_end, E2.
Qed.
End Made.

Lemma wt_parses l : 8680 * ThmStreamCopy.wn (parses l) <= wt l.
Proof.
  induction l as [|c l IH]; [cbn; lia|]. cbn [wt fold_right]. fold (wt l). destruct c as [cs w x|m t]; cbn [cw parses flat_map app]; fold (parses l).
  - pose proof (size_pos w). lia.
  - cbn [ThmStreamCopy.wn fold_right snd]. fold (ThmStreamCopy.wn (parses l)). unfold size. lia.
Qed.

(* ---- C92 ---- *)
(* the results of a stream are what the recorded calls answered, in order, on the machine of the parser *)
Theorem nt_calls_made d x data e rs y cost calls : w_nparse_stream d x data e = Some (rs, y, cost, calls) ->
  Forall2 tells rs (parses calls) /\ ThmStreamCopy.chain (n_internal x) (parses calls) (n_internal y).
Proof. intros E. exact (proj2 (nn_stream _ _ _ _ _ _ _ _ _ eq_refl E)). Qed.
(* every stream, however the driver treats errors and the end, after any options and any streams before it *)
Theorem nt_copies_bounded d opts before data e : exists rs y cost calls cs,
  w_nparse_stream d (nafter d (nnew_parser opts) before) data e = Some (rs, y, cost, calls) /\ nemitted d opts before data e = Some rs
  /\ Forall2 ThmStreamCopy.copied (parses calls) cs
  /\ 0 <= ThmStreamCopy.texts cs <= 13 * (read_before before + Z.of_nat (length data) + 1)
  /\ 0 <= ThmStreamCopy.moves cs <= 10 * (read_before before + Z.of_nat (length data) + 1) ^ 2.
Proof.
  destruct (nt_work_linear d opts before data e) as [rs [y [cost [calls [E [F _]]]]]]. destruct (ThmStreamCopy.copied_some (parses calls)) as [cs C].
  exists rs, y, cost, calls, cs. split; [exact E|]. split; [exact F|]. split; [exact C|].
  assert (P : cost + wt calls <= 26581 * (read_before before + Z.of_nat (length data) + 1)).
  { destruct (nafter_size d before (nnew_parser opts) (proj1 (nnew_opts opts))) as [K [Cn L]]. set (x := nafter d (nnew_parser opts) before) in *.
    destruct (stream_step d x data e K) as [rs' [y' [cost' [calls' [E' [_ [_ [_ [_ [_ P]]]]]]]]]]. rewrite E in E'. injection E' as <- <- <- <-.
    assert (n_cand (nnew_parser opts) = [] /\ n_last (nnew_parser opts) = []) as [C0 L0] by (split; apply nnew_opts).
    rewrite C0 in Cn. rewrite L0 in L. change (size []) with 0 in *. unfold size in *. lia. }
  apply (nn_stream _ _ _ _ _ _ _ _ _ eq_refl) in E as [E _]. pose proof (wt_parses calls) as W. set (n := read_before before + Z.of_nat (length data) + 1) in *. clearbody n.
  pose proof (ThmStreamCopy.wn_pos (parses calls)) as P0. set (k := ThmStreamCopy.wn (parses calls)) in *. assert (Kn : 8680 * k <= 26581 * n) by lia. split.
  - pose proof (ThmStreamCopy.texts_bound _ _ C) as B. fold k in B. lia.
  - pose proof (ThmStreamCopy.moves_bound_by _ _ _ C (ThmStreamCopy.in_wn (parses calls))) as B. fold k in B. split; [lia|]. apply (Z.le_trans _ (k * k)); [lia|].
    assert (8680 * k * (8680 * k) <= 26581 * n * (26581 * n)) by (apply Z.mul_le_mono_nonneg; lia). rewrite Z.pow_2_r. nia.
Qed.
(* two messages, the second with an escaped parameter value and without its trailer *)
Example nt_copies_ex : exists rs y cost calls, w_nparse_stream (Driver Continue false true) (nnew_parser []) (lit "<1>1 - - - - - -" ++ ["010"%byte] ++ lit "<2>1 - - - - - [a b=""x\""y\]""] m") AtEOF
    = Some (rs, y, cost, calls) /\ map snd (parses calls) = [lit "<1>1 - - - - - -"; lit "<2>1 - - - - - [a b=""x\""y\]""] m"] /\ Forall2 ThmStreamCopy.copied (parses calls) [(6, 0); (20, 11)].
Proof. do 4 eexists. split; [vm_compute; reflexivity|]. split; [reflexivity|]. constructor; [vm_compute; reflexivity|constructor; [vm_compute; reflexivity|constructor]]. Qed.
