(* C82: a listener that uses the non-transparent parser that is calling it. *)
From Verif Require Import Bytes CommonFacts GotoLang Common M5424Def M5424 Ref5424c Props5424 Thm5424 SpecOctet NonTransparentBaseDef GenNT ANT MNT SpecNT ThmNT MLater ThmNtLater MNtReenter.
Local Open Scope Z_scope.

(* ---- whatever the listener does, Parse ends and does not panic ---- *)
Lemma parse_emit_some text err x : exists y, parse_emit text err x = Some y.
Proof. unfold parse_emit. destruct (parse_total (n_internal x) text) as [r [e E]]. destruct (parse (n_internal x) text) as [m o]. cbn [snd] in E. subst o. eauto. Qed.
Lemma process_some x : n_cand x <> [] -> exists y, process x = Some y.
Proof. intros H. unfold process. rewrite (strip1_chop _ _ H). apply parse_emit_some. Qed.
Lemma nre_exec_run st s w xs : nre_exec st (nnum s) w xs = match arun (nre_act st) nre_cnd ndelta nedelta w s 0 w xs with Out cs y => Some (cs, y) | _ => None end.
Proof. unfold nre_exec. rewrite (exec_arun (nre_act st) nre_cnd codeN nnum nok ndelta nedelta simN w s xs 0 (entryN s)). reflexivity. Qed.
(* a nested stream ends for every script with less than f entries *)
Definition serves (f : nat) (st : rx -> bytes -> ending -> option rx) : Prop :=
  forall xs data e, (length (snd xs) < f)%nat -> exists ys, st xs data e = Some ys /\ (length (snd ys) <= length (snd xs))%nat.
Definition fine (f : nat) (xs : rx) (r : option rx) : Prop := exists ys : rx, r = Some ys /\ (length (snd ys) <= length (snd xs))%nat.
Ltac sl := unfold rx, nscript in *; lia.
Lemma events_fine f st evs : serves f st -> forall xs : rx, (length (snd xs) < f)%nat -> fine f xs (nre_events st evs xs).
Proof.
  intros V. induction evs as [|[o|data e] evs IH]; intros xs L; cbn [nre_events].
  - exists xs. auto.
  - destruct (IH (napply_opt (fst xs) o, snd xs) L) as [ys [E H]]. exists ys. auto.
  - destruct (V xs data e L) as [ys [-> H]]. change (list (list nevent)) with nscript in *. assert (Ly : (length (snd ys) < f)%nat) by (revert H L; generalize (length (snd ys)), (length (snd xs)); sl). destruct (IH ys Ly) as [zs [E H']]. exists zs. split; [exact E|sl].
Qed.
Lemma called_fine f st (xs : rx) : serves f st -> (length (snd xs) <= f)%nat -> fine f xs (nre_called st xs).
Proof.
  intros V L. unfold nre_called. destruct xs as [x [|evs sc]]; cbn [snd fst length] in *; [exists (x, []); auto|].
  destruct (events_fine f st evs V (x, sc)) as [ys [E H]]; [cbn; sl|]. exists ys. split; [exact E|cbn in *; sl].
Qed.
Lemma process_fine f st (xs : rx) : serves f st -> (length (snd xs) <= f)%nat -> n_cand (fst xs) <> [] -> fine f xs (nre_process st xs).
Proof. intros V L H. unfold nre_process. destruct (process_some _ H) as [y ->]. apply (called_fine f st (y, snd xs) V L). Qed.
Lemma inside_next {A} (sa : act -> bytes -> Z -> A -> option A) sc data c p x next :
  (forall y, exists z, sa NCandAppend data p y = Some z) ->
  exists s y, texec sa sc data (ninside c) p x next = next s y /\ (s = N2 \/ s = N3) /\ (y = x \/ sa NCandAppend data p x = Some y).
Proof.
  intros H. unfold ninside. destruct (H x) as [z Hz]. destruct (c =? 10)%N; [|destruct (c =? 0)%N]; cbn [texec].
  - destruct (sc CIsLF x); [rewrite Hz; exists N3, z; auto|exists N2, x; auto].
  - destruct (sc CIsNUL x); [rewrite Hz; exists N3, z; auto|exists N2, x; auto].
  - exists N2, x. auto.
Qed.
Lemma begin_next f st data p (xs : rx) next : serves f st -> (length (snd xs) <= f)%nat ->
  exists ys : rx, texec (nre_act st) nre_cnd data nbegin p xs next = next N2 ys /\ (length (snd ys) <= length (snd xs))%nat.
Proof.
  intros V L. unfold nbegin. cbn [texec nre_act]. unfold nre_cnd, sem_cnd. destruct (n_cand (fst xs)) as [|c0 c] eqn:Ec.
  - cbn [length Z.of_nat Z.ltb Z.compare]. cbn [sem_act]. eexists. split; [reflexivity|]. cbn. sl.
  - replace (0 <? Z.of_nat (length (c0 :: c))) with true by (symmetry; apply Z.ltb_lt; cbn [length]; sl).
    destruct (process_fine f st xs V L ltac:(congruence)) as [ys [-> H]]. cbn [sem_act]. eexists. split; [reflexivity|]. exact H.
Qed.
Lemma arun_fine f st data : serves f st -> forall rest s p (xs : rx), (length (snd xs) <= f)%nat ->
  exists cs (ys : rx), arun (nre_act st) nre_cnd ndelta nedelta data s p rest xs = Out cs ys /\ (length (snd ys) <= length (snd xs))%nat.
Proof.
  intros V. assert (A : forall (p : Z) (y : rx), exists z, nre_act st NCandAppend data p y = Some z) by (intros p y; eexists; reflexivity).
  induction rest as [|b r IH]; intros s p xs L; cbn [arun]; [eexists _, _; split; [reflexivity|sl]|].
  assert (I : forall next : nst -> rx -> GotoLang.outcome rx, (forall s' ys, (length (snd ys) <= f)%nat -> exists cs zs, next s' ys = Out cs zs /\ (length (snd zs) <= length (snd ys))%nat) ->
     (exists cs (ys : rx), texec (nre_act st) nre_cnd data (ninside (bN b)) p xs next = Out cs ys /\ (length (snd ys) <= length (snd xs))%nat)
     /\ (exists cs (ys : rx), texec (nre_act st) nre_cnd data nbegin p xs next = Out cs ys /\ (length (snd ys) <= length (snd xs))%nat)).
  { intros next Hn. split.
    - destruct (inside_next (nre_act st) nre_cnd data (bN b) p xs next (A p)) as [s' [y [E [_ Hy]]]]. rewrite E.
      assert (Ly : length (snd y) = length (snd xs)) by (destruct Hy as [-> |Hy]; [reflexivity|cbn in Hy; injection Hy as <-; reflexivity]).
      destruct (Hn s' y ltac:(sl)) as [cs [zs [E' H]]]. exists cs, zs. split; [exact E'|sl].
    - destruct (begin_next f st data p xs next V L) as [y [E H]]. rewrite E. destruct (Hn N2 y ltac:(sl)) as [cs [zs [E' H']]]. exists cs, zs. split; [exact E'|sl]. }
  destruct (I (fun s' x' => arun (nre_act st) nre_cnd ndelta nedelta data s' (p + 1) r x') (fun s' ys H => IH s' (p + 1) ys H)) as [I1 I2].
  unfold ndelta at 1. destruct s; [eexists _, _; split; [reflexivity|sl]| |exact I1|]; destruct (bN b =? 60)%N; try assumption. eexists _, _. split; [reflexivity|sl].
Qed.
Lemma exec_fine f st s w xs : serves f st -> (length (snd xs) <= f)%nat -> exists cs (ys : rx), nre_exec st (nnum s) w xs = Some (cs, ys) /\ (length (snd ys) <= length (snd xs))%nat.
Proof. intros V L. rewrite nre_exec_run. destruct (arun_fine f st w V w s 0 xs L) as [cs [ys [-> H]]]. eauto. Qed.
Lemma codes s : exists k, nnum s = k /\ (k < 4)%N.
Proof. destruct s; eexists; (split; [reflexivity|cbn; lia]). Qed.
Lemma code_state cs : (cs < 4)%N -> exists s, cs = nnum s.
Proof. intros H. destruct cs as [|[[?|?|]|[?|?|]|]]; try lia; [exists N0|exists N3|exists N2|exists N1]; reflexivity. Qed.
Lemma inside_code {A} (sa : act -> bytes -> Z -> A -> option A) sc data st1 p x r cs (y : A) :
  arun sa sc ndelta nedelta data st1 p r x = Out cs y -> (cs < 4)%N.
Proof.
  revert st1 p x. induction r as [|b r IH]; intros s p x; cbn [arun]; [unfold nedelta; cbn [texec]; destruct s; intros [= <- <-]; cbn; lia|].
  unfold ndelta at 1. destruct s; [intros [= <- <-]; cbn; lia| | |]; destruct (bN b =? 60)%N; try (intros [= <- <-]; cbn; lia);
    unfold nbegin, ninside; repeat (destruct (bN b =? _)%N); cbn [texec];
    repeat (match goal with |- context [match sa ?a ?d ?p ?x with _ => _ end] => destruct (sa a d p x) | |- context [if sc ?c ?x then _ else _] => destruct (sc c x) end; cbn [texec]);
    try discriminate; apply IH.
Qed.
Lemma exec_code st s w xs cs ys : nre_exec st (nnum s) w xs = Some (cs, ys) -> exists s', cs = nnum s'.
Proof.
  rewrite nre_exec_run. destruct (arun _ _ _ _ _ _ _ _ _) as [k y| |] eqn:E; try discriminate. intros [= <- <-]. apply code_state. exact (inside_code _ _ _ _ _ _ _ _ _ E).
Qed.
Lemma windows_fine f st d ws : serves f st -> forall s xs, (length (snd xs) <= f)%nat ->
  exists s' stop (ys : rx), nre_windows st d (nnum s) ws xs = Some (nnum s', stop, ys) /\ (length (snd ys) <= length (snd xs))%nat.
Proof.
  intros V. induction ws as [|w r IH]; intros s xs L; cbn [nre_windows]; [exists s, false, xs; auto|].
  destruct (exec_fine f st s w xs V L) as [cs [ys [E H]]]. destruct (exec_code _ _ _ _ _ _ E) as [s' ->]. rewrite E.
  destruct (IH s' ys ltac:(sl)) as [s2 [b [zs [E2 H2]]]].
  destruct (nnum s' =? 0)%N; [destruct (d_fsm_error d)|]; try (exists s2, b, zs; split; [exact E2|sl]); eexists s', true, _; (split; [reflexivity|cbn; sl]).
Qed.
Lemma completion_fine f st (xs : rx) : serves f st -> (length (snd xs) <= f)%nat -> fine f xs (nre_completion st xs).
Proof.
  intros V L. unfold nre_completion.
  assert (T : forall x sc, (length sc <= length (snd xs))%nat -> fine f xs (match n_rderr x with
      | Some e => if 0 <? Z.of_nat (length (n_last x)) then match parse_emit (n_last x) (Some e) x with Some y => nre_called st (y, sc) | None => None end else Some (x, sc)
      | None => Some (x, sc) end)).
  { intros x sc H. destruct (n_rderr x) as [e|]; [|exists (x, sc); auto]. destruct (0 <? _); [|exists (x, sc); auto].
    destruct (parse_emit_some (n_last x) (Some e) x) as [y ->]. destruct (called_fine f st (y, sc) V ltac:(cbn; sl)) as [ys [E H']]. exists ys. split; [exact E|cbn in H'; sl]. }
  destruct (0 <? Z.of_nat (length (n_cand (fst xs)))) eqn:Ec.
  - destruct (process_fine f st xs V L ltac:(intros Z; rewrite Z in Ec; discriminate)) as [[y sc] [-> H]]. exact (T y sc H).
  - destruct xs as [x sc]. exact (T x sc (le_n _)).
Qed.
Lemma drive_fine f st d (xs : rx) data e : serves f st -> (length (snd xs) <= f)%nat -> fine f xs (nre_drive st d xs data e).
Proof.
  intros V L. unfold nre_drive. destruct (windows _ _) as [ws rest]. destruct (windows_fine f st d ws V N1 xs L) as [s [stop [ys [E H]]]]. change (nnum N1) with 1%N in E. rewrite E.
  destruct stop.
  - destruct (completion_fine f st ys V ltac:(sl)) as [zs [-> H']]. exists zs. split; [reflexivity|sl].
  - assert (R : exists cs (zs : rx), nre_rest st d (nnum s) rest ys = Some (cs, zs) /\ (length (snd zs) <= length (snd ys))%nat).
    { unfold nre_rest. destruct rest as [|b r]; [eauto|]. destruct (d_exec_tail d); [|eauto]. apply exec_fine with f; [exact V|sl]. }
    destruct R as [cs [zs [-> H']]]. destruct (completion_fine f st (end_of_stream d rest e (fst zs), snd zs) V ltac:(cbn; sl)) as [us [-> H'']]. exists us. split; [reflexivity|cbn in H''; sl].
Qed.
Lemma serves_all d f : serves f (nre_stream f d).
Proof.
  induction f as [|f IH]; intros xs data e L; [sl|]. cbn [nre_stream]. apply (drive_fine f _ d xs data e IH). sl.
Qed.
(* whatever the listener does while it is called — options, Parse with any data, from within any of those calls again — Parse ends without a panic *)
Theorem nt_reentrant_total d sc x data e : exists rs y, nre_parse d sc x data e = Some (rs, y).
Proof. unfold nre_parse. destruct (serves_all d (S (length sc)) (set_n_out [] x, sc) data e) as [[y sc'] [-> _]]; [cbn; sl|]. eauto. Qed.

(* ---- a listener that calls Parse once: what it is handed, exactly ---- *)
Lemma skipn_add {A} a b (l : list A) : skipn b (skipn a l) = skipn (a + b) l.
Proof. revert l. induction a as [|a IH]; intros [|x l]; cbn; auto. destruct b; reflexivity. Qed.
Section One.
Variable st : rx -> bytes -> ending -> option rx.
Notation rrun := (arun (nre_act st) nre_cnd ndelta nedelta).
Lemma re_other data (x : nvars) (sc : nscript) b p next : nvok x -> b <> n_trailer x -> texec (nre_act st) nre_cnd data (ninside (bN b)) p (x, sc) next = next N2 (x, sc).
Proof.
  intros Hx Hb. unfold ninside. destruct (N.eqb_spec (bN b) 10) as [E|E].
  - cbn [texec]. unfold nre_cnd, sem_cnd. cbn [fst]. destruct (ok_tr x Hx) as [[T1 T2] | [T1 T2]]; rewrite T1; [|reflexivity].
    exfalso. apply Hb. rewrite T2. apply bN_inj. exact E.
  - destruct (N.eqb_spec (bN b) 0) as [E'|E']; [|reflexivity].
    cbn [texec]. unfold nre_cnd, sem_cnd. cbn [fst]. destruct (ok_tr x Hx) as [[T1 T2] | [T1 T2]]; rewrite T1; [reflexivity|].
    exfalso. apply Hb. rewrite T2. apply bN_inj. exact E'.
Qed.
Lemma re_trailer data (x : nvars) (sc : nscript) p next : nvok x ->
  texec (nre_act st) nre_cnd data (ninside (bN (n_trailer x))) p (x, sc) next = next N3 (set_n_cand (n_cand x ++ data) x, sc).
Proof. intros Hx. destruct (ok_tr x Hx) as [[T1 T2] | [T1 T2]]; rewrite T2; unfold ninside; cbn; unfold nre_cnd, sem_cnd; cbn [fst]; rewrite T1; reflexivity. Qed.
Lemma re_inside data (x : nvars) (sc : nscript) u : nvok x -> ~ In (n_trailer x) u -> forall p, rrun data N2 p (u ++ [n_trailer x]) (x, sc) = Out 3 (set_n_cand (n_cand x ++ data) x, sc).
Proof.
  intros Hx. induction u as [|b u IH]; intros Hu p; cbn [app arun ndelta].
  - rewrite (re_trailer data x sc p _ Hx). reflexivity.
  - rewrite (re_other data x sc b p _ Hx); [|intros E; apply Hu; left; exact E]. apply IH. intros H. apply Hu. right. exact H.
Qed.
(* what happens before a message is begun: the pending one is processed *)
Definition pending (xs : rx) : option rx := match n_cand (fst xs) with [] => Some xs | _ => nre_process st xs end.
Lemma pending_if xs : (if 0 <? Z.of_nat (length (n_cand (fst xs))) then nre_process st xs else Some xs) = pending xs.
Proof. unfold pending. destruct (n_cand (fst xs)); [reflexivity|]. replace (0 <? _) with true by (symmetry; apply Z.ltb_lt; cbn [length]; lia). reflexivity. Qed.
Lemma re_begin data p (xs ys : rx) next : pending xs = Some ys -> texec (nre_act st) nre_cnd data nbegin p xs next = next N2 (set_n_cand [] (fst ys), snd ys).
Proof.
  intros H. rewrite <- pending_if in H. unfold nbegin. cbn [texec nre_act]. unfold nre_cnd, sem_cnd. destruct (0 <? _); [rewrite H|injection H as <-]; reflexivity.
Qed.
Lemma re_first cs w u (x y : nvars) (sc sc' : nscript) : kept x y -> pending (x, sc) = Some (y, sc') -> cs = 1%N \/ cs = 3%N -> w = "<"%byte :: u ++ [n_trailer x] -> ~ In (n_trailer x) u ->
  nre_exec st cs w (x, sc) = Some (3%N, (set_n_cand w y, sc')).
Proof.
  intros K P Hcs Ew Hu.
  assert (G : forall s, s = N1 \/ s = N3 -> nre_exec st (nnum s) w (x, sc) = Some (3%N, (set_n_cand w y, sc'))).
  { intros s Hs. rewrite nre_exec_run.
    transitivity (match texec (nre_act st) nre_cnd w nbegin 0 (x, sc) (fun s' x' => rrun w s' (0 + 1) (u ++ [n_trailer x]) x') with Out cs y => Some (cs, y) | _ => None end).
    { rewrite Ew at 2. destruct Hs; subst s; reflexivity. }
    rewrite (re_begin _ _ _ _ _ P). cbn [fst snd]. rewrite <- (kept_tr _ _ K) in *.
    change (n_trailer y) with (n_trailer (set_n_cand [] y)) in *.
    rewrite (re_inside w (set_n_cand [] y) sc' u (proj1 (kept_cand y [] (proj1 K))) Hu). reflexivity. }
  destruct Hcs as [-> | ->]; [apply (G N1); left; reflexivity|apply (G N3); right; reflexivity].
Qed.
Lemma re_next w u (x : nvars) (sc : nscript) : nvok x -> w = u ++ [n_trailer x] -> ~ In (n_trailer x) u -> (forall v, u <> "<"%byte :: v) ->
  nre_exec st 3 w (x, sc) = Some (3%N, (set_n_cand (n_cand x ++ w) x, sc)).
Proof.
  intros Hx Ew Hu Hlt. change 3%N with (nnum N3) at 1. rewrite nre_exec_run.
  destruct u as [|b u].
  - cbn [app] in Ew. rewrite Ew at 2. cbn [arun ndelta].
    destruct (N.eqb_spec (bN (n_trailer x)) 60) as [E|E]; [exfalso; apply (trailer_not_lt x Hx); apply bN_inj; exact E|].
    rewrite (re_trailer w x sc 0 _ Hx). reflexivity.
  - cbn [app] in Ew. rewrite Ew at 2. cbn [arun ndelta].
    destruct (N.eqb_spec (bN b) 60) as [E|E]; [exfalso; apply (Hlt u); f_equal; apply bN_inj; exact E|].
    rewrite (re_other w x sc b 0 _ Hx); [|intros E'; apply Hu; left; exact E'].
    rewrite (re_inside w x sc u Hx); [reflexivity|]. intros H. apply Hu. right. exact H.
Qed.
Lemma re_nexts d r sc : forall x, nvok x -> Forall (fun w => exists u, w = u ++ [n_trailer x] /\ ~ In (n_trailer x) u /\ forall v, u <> "<"%byte :: v) r ->
  nre_windows st d 3 r (x, sc) = Some (3%N, false, (set_n_cand (n_cand x ++ concat r) x, sc)).
Proof.
  induction r as [|w r IH]; intros x Hx HF; cbn [nre_windows concat].
  - rewrite app_nil_r. destruct x; reflexivity.
  - inversion HF as [|? ? [u [Ew [Hu Hlt]]] HF']; subst. rewrite (re_next (u ++ [n_trailer x]) u x sc Hx eq_refl Hu Hlt). cbn [N.eqb].
    rewrite (IH (set_n_cand (n_cand x ++ u ++ [n_trailer x]) x)); [|apply kept_cand; exact Hx|exact HF'].
    cbn. rewrite <- !app_assoc. reflexivity.
Qed.
Lemma re_message d cs m (x y : nvars) (sc sc' : nscript) : nvok x -> kept x y -> pending (x, sc) = Some (y, sc') -> cs = 1%N \/ cs = 3%N -> one_message (n_trailer x) m ->
  nre_windows st d cs (fst (windows (n_trailer x) (m ++ [n_trailer x]))) (x, sc) = Some (3%N, false, (set_n_cand (m ++ [n_trailer x]) y, sc')).
Proof.
  intros Hx K P Hcs Hm. destruct (windows_spec (n_trailer x) (m ++ [n_trailer x])) as [W1 [W2 _]].
  rewrite windows_last, app_nil_r in W1.
  destruct (infix_no_lt _ _ _ (trailer_not_lt x Hx) Hm W1 W2) as [w [r [Ews [[u [Ew Hu]] HF]]]]. rewrite Ews in *.
  cbn [nre_windows]. rewrite (re_first cs w u x y sc sc' K P Hcs Ew Hu). cbn [N.eqb].
  rewrite (re_nexts d r sc' (set_n_cand w y)); [|apply kept_cand; apply K|cbn; rewrite (kept_tr _ _ K); exact HF].
  cbn [concat] in W1. rewrite <- W1. destruct y; reflexivity.
Qed.
Lemma re_windows_app d ws : forall cs xs cs' ys ws', nre_windows st d cs ws xs = Some (cs', false, ys) ->
  nre_windows st d cs (ws ++ ws') xs = nre_windows st d cs' ws' ys.
Proof.
  induction ws as [|w ws IH]; intros cs x cs' y ws' H; cbn [app nre_windows] in *.
  - injection H as <- <-. reflexivity.
  - destruct (nre_exec st cs w x) as [[cs1 x1]|]; [|discriminate]. destruct (cs1 =? 0)%N; [destruct (d_fsm_error d); try discriminate|]; apply IH; exact H.
Qed.
(* the listener does nothing in its next n calls *)
Definition idle (n : nat) (sc : nscript) : Prop := Forall (eq []) (firstn n sc).
Lemma pending_idle (x : nvars) (sc : nscript) : nvok x -> idle (match n_cand x with [] => 0 | _ => 1 end) sc -> exists y, pending (x, sc) = Some (y, skipn (match n_cand x with [] => 0 | _ => 1 end) sc)
  /\ kept x y /\ n_cand y = chop (n_trailer x) (n_cand x) /\ n_rderr y = n_rderr x /\ n_last y = n_last x /\ n_out y = n_out x ++ pend (n_trailer x) (n_best x) (n_cand x).
Proof.
  intros Hx I. unfold pending. cbn [fst]. destruct (n_cand x) as [|c0 c] eqn:Ec.
  - exists x. rewrite Ec. cbn. rewrite app_nil_r. repeat split; auto; apply Hx.
  - assert (Hc : n_cand x <> []) by congruence. destruct (process_spec x Hx Hc) as [y [E R]]. rewrite Ec in R. exists y. split; [|exact R].
    unfold nre_process. cbn [fst snd]. rewrite E. unfold nre_called. cbn [fst snd]. destruct sc as [|evs sc]; [reflexivity|]. inversion I as [|? ? <- _]; subst. reflexivity.
Qed.
Lemma idle_app a b sc : idle (a + b) sc -> idle a sc /\ idle b (skipn a sc).
Proof.
  unfold idle. revert sc. induction a as [|a IH]; intros sc H; [split; [constructor|exact H]|].
  destruct sc as [|e sc]; [split; [constructor|cbn; destruct b; constructor]|]. cbn in *. inversion H; subst. destruct (IH sc H3). split; [constructor; auto|assumption].
Qed.
Definition calls (c : bytes) (ms : list bytes) : nat := match ms with [] => 0 | _ => (match c with [] => 0 | _ => 1 end) + (length ms - 1) end.
Lemma re_messages d ms : forall cs x sc, nvok x -> cs = 1%N \/ cs = 3%N -> Forall (one_message (n_trailer x)) ms -> idle (calls (n_cand x) ms) sc ->
  exists cs' y, nre_windows st d cs (fst (windows (n_trailer x) (framed (n_trailer x) ms))) (x, sc) = Some (cs', false, (y, skipn (calls (n_cand x) ms) sc)) /\ kept x y
    /\ cs' = match ms with [] => cs | _ => 3%N end
    /\ n_cand y = (match ms with [] => n_cand x | _ => last ms [] ++ [n_trailer x] end) /\ n_rderr y = n_rderr x /\ n_last y = n_last x
    /\ n_out y ++ pend (n_trailer x) (n_best x) (n_cand y)
       = n_out x ++ pend (n_trailer x) (n_best x) (n_cand x) ++ map (nanswer (n_best x)) ms.
Proof.
  induction ms as [|m ms IH]; intros cs x sc Hx Hcs HF I.
  - exists cs, x. cbn. rewrite app_nil_r. repeat split; auto; try apply kept_refl; auto; apply Hx.
  - inversion HF as [|? ? Hm HF']; subst.
    assert (Ej : calls (n_cand x) (m :: ms) = ((match n_cand x with [] => 0 | _ => 1 end) + calls (m ++ [n_trailer x]) ms)%nat).
    { unfold calls. destruct ms; cbn [length]; [lia|]. destruct (m ++ [n_trailer x]) eqn:Em; [destruct m; discriminate|]. lia. }
    rewrite Ej in *. apply idle_app in I. destruct I as [I1 I2].
    destruct (pending_idle x sc Hx I1) as [z [P [K [A [B [C D]]]]]].
    set (sc1 := skipn _ sc) in *.
    pose proof (re_message d cs m x z sc sc1 Hx K P Hcs Hm) as E. set (z' := set_n_cand (m ++ [n_trailer x]) z) in *.
    assert (K0 : kept x z') by (eapply kept_trans; [exact K|apply kept_cand; apply K]).
    rewrite <- (kept_tr _ _ K0) in HF'. destruct (IH 3%N z' sc1 (proj1 K0) (or_intror eq_refl) HF' I2) as [cs' [y [E' [K' [Ecs [A' [B' [C' D']]]]]]]].
    rewrite (kept_tr _ _ K0) in *. rewrite (kept_bs _ _ K0) in *.
    exists cs', y. split; [|split; [eapply kept_trans; eassumption|]].
    + unfold framed. cbn [map concat]. rewrite <- app_assoc. cbn [app]. rewrite windows_app. cbn [fst].
      rewrite (re_windows_app d _ _ _ _ _ _ E). unfold framed in E'. rewrite E'. do 3 f_equal. unfold sc1. apply skipn_add.
    + split; [destruct ms; exact Ecs|]. split; [destruct ms; [rewrite A'; reflexivity|exact A']|]. split; [rewrite B'; exact B|]. split; [rewrite C'; exact C|].
      rewrite D'. change (n_out z') with (n_out z). rewrite D. rewrite <- app_assoc. f_equal. cbn [map]. change (n_cand z') with (m ++ [n_trailer x]). f_equal. unfold pend.
      rewrite chop_trailer. destruct (m ++ [n_trailer x]) eqn:Em; [destruct m; discriminate|reflexivity].
Qed.
(* the end, when no chunk is kept *)
Lemma re_completion (xs ys : rx) : pending xs = Some ys -> n_last (fst ys) = [] -> nre_completion st xs = Some ys.
Proof. intros P L. unfold nre_completion. rewrite pending_if, P. destruct ys as [y sc]. cbn [fst] in L. rewrite L. destruct (n_rderr y); reflexivity. Qed.
Lemma windows_framed t ms : snd (windows t (framed t ms)) = [].
Proof.
  induction ms as [|m ms IH]; [reflexivity|]. unfold framed. cbn [map concat]. rewrite <- app_assoc. cbn [app]. rewrite windows_app. cbn [snd]. exact IH.
Qed.
Definition ended (d : driver) (e : ending) (x : nvars) : nvars := end_of_stream d [] e x.
Lemma ended_spec d e x : nvok x -> n_last x = [] -> kept x (ended d e x) /\ n_cand (ended d e x) = n_cand x /\ n_last (ended d e x) = [] /\ n_out (ended d e x) = n_out x.
Proof.
  intros Hx L. unfold ended, end_of_stream, on_err, on_eof. destruct e; [destruct (d_clean_end_is_error d)|]; (split; [try apply kept_err; try apply kept_refl; exact Hx|cbn; auto]).
Qed.
Lemma re_drive d ms e (x y : nvars) (sc sc' : nscript) cs (zs : rx) : nre_windows st d 1 (fst (windows (n_trailer x) (framed (n_trailer x) ms))) (x, sc) = Some (cs, false, (y, sc')) ->
  pending (ended d e y, sc') = Some zs -> n_last (fst zs) = [] -> nre_drive st d (x, sc) (framed (n_trailer x) ms) e = Some zs.
Proof.
  intros E P L. unfold nre_drive. cbn [fst]. pose proof (windows_framed (n_trailer x) ms) as W. destruct (windows _ _) as [ws rest]. cbn [fst snd] in *. subst rest. rewrite E. cbn [nre_rest fst snd].
  apply re_completion; [exact P|exact L].
Qed.
(* a whole stream of messages during which the listener does nothing *)
Lemma re_stream_idle d ms e (x : nvars) : nvok x -> n_last x = [] -> Forall (one_message (n_trailer x)) ms ->
  exists y, nre_drive st d (x, []) (framed (n_trailer x) ms) e = Some (y, []) /\ kept x y /\ n_last y = []
    /\ n_out y = n_out x ++ pend (n_trailer x) (n_best x) (n_cand x) ++ map (nanswer (n_best x)) ms.
Proof.
  intros Hx L HF. assert (I : forall n, idle n []) by (intros [|n]; constructor).
  destruct (re_messages d ms 1 x [] Hx (or_introl eq_refl) HF (I _)) as [cs [z [E [K [_ [_ [_ [C D]]]]]]]]. rewrite skipn_nil in E.
  destruct (ended_spec d e z (proj1 K) ltac:(congruence)) as [K1 [A1 [B1 C1]]].
  destruct (pending_idle (ended d e z) [] (proj1 K1) (I _)) as [y [P [K2 [_ [_ [L2 D2]]]]]]. rewrite skipn_nil in P.
  exists y. split; [apply (re_drive d ms e x z [] [] cs (y, []) E P); cbn; congruence|]. split; [eapply kept_trans; [exact K|eapply kept_trans; eassumption]|]. split; [congruence|].
  rewrite D2, C1, A1, (kept_tr _ _ K1), (kept_bs _ _ K1), (kept_tr _ _ K), (kept_bs _ _ K). exact D.
Qed.
End One.
(* the call in which the listener calls Parse: the pending message again, without a trailer at its end, then the nested messages *)
Lemma nested_pending f d (x : nvars) m ms' e' : nvok x -> n_last x = [] -> (exists u, m = "<"%byte :: u) -> n_cand x = m ++ [n_trailer x] -> Forall (one_message (n_trailer x)) ms' ->
  exists y, pending (nre_stream (S f) d) (x, [[NStream (framed (n_trailer x) ms') e']]) = Some (y, []) /\ kept x y /\ n_last y = []
    /\ n_out y = n_out x ++ [nanswer (n_best x) m] ++ [nanswer (n_best x) (chop (n_trailer x) m)] ++ map (nanswer (n_best x)) ms'.
Proof.
  intros Hx L [u Em] Ec HF. unfold pending. cbn [fst]. assert (Hc : n_cand x <> []) by (rewrite Ec; destruct m; discriminate).
  destruct (process_spec x Hx Hc) as [z [E [K [A [B [C D]]]]]]. rewrite Ec in A, D. rewrite chop_trailer in A.
  assert (Dz : n_out z = n_out x ++ [nanswer (n_best x) m]) by (rewrite D; unfold pend; rewrite chop_trailer; destruct (m ++ [n_trailer x]) eqn:Z; [destruct m; discriminate|reflexivity]).
  destruct (n_cand x) eqn:Ex; [congruence|]. rewrite <- Ex in *. unfold nre_process. cbn [fst snd]. rewrite E. unfold nre_called. cbn [fst snd nre_events nre_stream].
  rewrite <- (kept_tr _ _ K) in *. destruct (re_stream_idle (nre_stream f d) d ms' e' z (proj1 K) ltac:(congruence) HF) as [y [Ey [Ky [Ly Dy]]]]. rewrite Ey.
  exists y. split; [reflexivity|]. split; [eapply kept_trans; eassumption|]. split; [exact Ly|]. rewrite Dy, Dz, A, (kept_bs _ _ K), <- app_assoc. do 3 f_equal. rewrite Em. reflexivity.
Qed.
Definition scripted (n : nat) (evs : list nevent) : nscript := repeat [] n ++ [evs].
Lemma idle_scripted n evs : idle n (scripted n evs).
Proof. induction n; constructor; auto. Qed.
Lemma skip_scripted n evs : skipn n (scripted n evs) = [evs].
Proof. induction n; auto. Qed.
Lemma re_one f d (x : nvars) ms1 m ms2 ms' e e' : nvok x -> n_last x = [] -> n_cand x = [] -> Forall (one_message (n_trailer x)) (ms1 ++ m :: ms2) -> Forall (one_message (n_trailer x)) ms' ->
  let t := n_trailer x in let A := map (nanswer (n_best x)) in
  exists y, nre_drive (nre_stream (S f) d) d (x, scripted (length ms1) [NStream (framed t ms') e']) (framed t (ms1 ++ m :: ms2)) e = Some (y, [])
    /\ kept x y /\ n_out y = n_out x ++ A ms1 ++ A [m] ++ A [chop t m] ++ A ms' ++ A ms2.
Proof.
  intros Hx L Ec HF HF' t A. set (st := nre_stream (S f) d). set (sc := scripted _ _).
  assert (F1 : Forall (one_message (n_trailer x)) (ms1 ++ [m])) by (apply Forall_app in HF as [H1 H2]; apply Forall_app; split; [exact H1|]; inversion H2; auto).
  assert (F2 : Forall (one_message (n_trailer x)) ms2) by (apply Forall_app in HF as [H1 H2]; inversion H2; auto).
  assert (Fm : exists u, m = "<"%byte :: u) by (apply Forall_app in F1 as [_ H2]; inversion H2 as [|? ? [H3 _] _]; exact H3).
  assert (Ej : calls (n_cand x) (ms1 ++ [m]) = length ms1) by (rewrite Ec; unfold calls; destruct (ms1 ++ [m]) eqn:Z; [destruct ms1; discriminate|rewrite <- Z, app_length; cbn; lia]).
  destruct (re_messages st d (ms1 ++ [m]) 1 x sc Hx (or_introl eq_refl) F1 ltac:(rewrite Ej; apply idle_scripted)) as [cs [z [E [K [Ecs [Ac [Br [Cl D]]]]]]]].
  rewrite Ej in E. unfold sc in E at 2. rewrite skip_scripted in E. rewrite Ec in D. cbn [pend app] in D.
  assert (Ecs3 : cs = 3%N) by (rewrite Ecs; destruct ms1; reflexivity). clear Ecs. subst cs.
  assert (Acz : n_cand z = m ++ [n_trailer x]) by (rewrite Ac; destruct (ms1 ++ [m]) eqn:Z; [destruct ms1; discriminate|rewrite <- Z, last_last; reflexivity]).
  assert (Dz : n_out z = n_out x ++ A ms1).
  { unfold A. rewrite Acz in D. unfold pend in D. rewrite chop_trailer in D. destruct (m ++ [n_trailer x]) eqn:Z; [destruct m; discriminate|]. rewrite map_app in D. cbn [map] in D. rewrite app_assoc in D. apply app_inj_tail in D. apply D. }
  destruct ms2 as [|m2 ms2].
  - destruct (ended_spec d e z (proj1 K) ltac:(congruence)) as [K1 [A1 [B1 C1]]].
    assert (Tr : n_trailer (ended d e z) = n_trailer x) by (rewrite (kept_tr _ _ K1), (kept_tr _ _ K); reflexivity).
    destruct (nested_pending f d (ended d e z) m ms' e' (proj1 K1) B1 Fm ltac:(congruence) ltac:(rewrite Tr; exact HF')) as [y [P [Ky [Ly Dy]]]]. rewrite Tr in P, Dy.
    exists y. split; [apply (re_drive st d (ms1 ++ [m]) e x z sc [[NStream (framed (n_trailer x) ms') e']] 3 (y, []) E P Ly)|].
    split; [eapply kept_trans; [exact K|eapply kept_trans; eassumption]|]. rewrite Dy, C1, Dz, (kept_bs _ _ K1), (kept_bs _ _ K), <- app_assoc. unfold A, t. cbn [map app]. rewrite app_nil_r. reflexivity.
  - destruct (nested_pending f d z m ms' e' (proj1 K) ltac:(congruence) Fm ltac:(rewrite (kept_tr _ _ K); exact Acz) ltac:(rewrite (kept_tr _ _ K); exact HF')) as [y [P [Ky [Ly Dy]]]].
    rewrite (kept_tr _ _ K), (kept_bs _ _ K) in *. inversion F2 as [|? ? Hm2 F2']; subst.
    pose proof (re_message st d 3%N m2 z y _ [] (proj1 K) Ky P (or_intror eq_refl) ltac:(rewrite (kept_tr _ _ K); exact Hm2)) as E2. rewrite (kept_tr _ _ K) in E2.
    set (y2 := set_n_cand (m2 ++ [n_trailer x]) y) in *.
    assert (K2 : kept x y2) by (eapply kept_trans; [exact K|]; eapply kept_trans; [exact Ky|]; apply kept_cand; apply Ky).
    assert (I : forall n, idle n []) by (intros [|n]; constructor).
    destruct (re_messages st d ms2 3 y2 [] (proj1 K2) (or_intror eq_refl) ltac:(rewrite (kept_tr _ _ K2); exact F2') (I _)) as [cs' [z3 [E3 [K3 [_ [Ac3 [_ [Cl3 D3]]]]]]]].
    rewrite skipn_nil in E3. rewrite (kept_tr _ _ K2), (kept_bs _ _ K2) in *. change (n_cand y2) with (m2 ++ [n_trailer x]) in *. change (n_out y2) with (n_out y) in *. change (n_last y2) with (n_last y) in *.
    assert (W : nre_windows st d 1 (fst (windows (n_trailer x) (framed (n_trailer x) (ms1 ++ m :: m2 :: ms2)))) (x, sc) = Some (cs', false, (z3, []))).
    { assert (G : forall a b, b <> [] -> fst (windows (n_trailer x) (framed (n_trailer x) (a ++ b))) = fst (windows (n_trailer x) (framed (n_trailer x) a)) ++ fst (windows (n_trailer x) (framed (n_trailer x) b))).
      { intros a b _. induction a as [|q a IH]; [reflexivity|]. unfold framed in *. cbn [app map concat]. rewrite <- !app_assoc. cbn [app]. rewrite (windows_app _ q (concat (map (fun m => m ++ [n_trailer x]) (a ++ b)))), (windows_app _ q (concat (map (fun m => m ++ [n_trailer x]) a))). cbn [fst]. rewrite IH, app_assoc. reflexivity. }
      replace (ms1 ++ m :: m2 :: ms2) with ((ms1 ++ [m]) ++ m2 :: ms2) by (rewrite <- app_assoc; reflexivity). rewrite G by discriminate.
      rewrite (re_windows_app st d _ _ _ _ _ _ E). unfold framed at 1. cbn [map concat]. rewrite <- app_assoc. cbn [app]. rewrite windows_app. cbn [fst].
      rewrite (re_windows_app st d _ _ _ _ _ _ E2). exact E3. }
    destruct (ended_spec d e z3 (proj1 K3) ltac:(congruence)) as [K4 [A4 [B4 C4]]].
    destruct (pending_idle st (ended d e z3) [] (proj1 K4) (I _)) as [w [Pw [Kw [_ [_ [Lw Dw]]]]]]. rewrite skipn_nil in Pw.
    exists w. split; [apply (re_drive st d _ e x z3 sc [] cs' (w, []) W Pw); cbn; congruence|].
    split; [eapply kept_trans; [exact K2|]; eapply kept_trans; [exact K3|]; eapply kept_trans; eassumption|].
    rewrite Dw, C4, A4, (kept_tr _ _ K4), (kept_bs _ _ K4), (kept_tr _ _ K3), (kept_bs _ _ K3), (kept_tr _ _ K2), (kept_bs _ _ K2), D3, Dy, Dz.
    unfold pend, A, t. rewrite chop_trailer. destruct (m2 ++ [n_trailer x]) eqn:Z; [destruct m2; discriminate|]. rewrite <- !app_assoc. reflexivity.
Qed.
(* C82: the listener calls Parse on the parser while it is handed the result of the message m: it is handed the results of the messages
   before m, that of m, that of m once more (parsed again, without a trailer at its end), those of the nested stream, those after m. *)
Theorem nt_reentrant_once d opts ms1 m ms2 ms' e e' : let t := nopts_trailer opts in let best := nopts_best opts in
  Forall (one_message t) (ms1 ++ m :: ms2) -> Forall (one_message t) ms' ->
  option_map fst (nre_parse d (repeat [] (length ms1) ++ [[NStream (framed t ms') e']]) (nnew_parser opts) (framed t (ms1 ++ m :: ms2)) e)
  = Some (map (nanswer best) ms1 ++ [nanswer best m; nanswer best (chop t m)] ++ map (nanswer best) ms' ++ map (nanswer best) ms2).
Proof.
  cbn zeta. intros HF HF'. destruct (nnew_opts opts) as [Hx [Ht [Hb [Hc [Hl Hr]]]]]. rewrite <- Ht, <- Hb in *.
  set (x := set_n_out [] (nnew_parser opts)). assert (Hx0 : nvok x) by (apply kept_out; exact Hx).
  destruct (re_one (length ms1) d x ms1 m ms2 ms' e e' Hx0 Hl Hc HF HF') as [y [E [_ D]]].
  unfold nre_parse. rewrite app_length, repeat_length. cbn [length]. replace (length ms1 + 1)%nat with (S (length ms1)) by lia.
  change (n_trailer (nnew_parser opts)) with (n_trailer x). change (nnew_parser opts) with (nnew_parser opts) in *. fold x. unfold scripted in E.
  change (nre_stream (S (S (length ms1))) d (x, repeat [] (length ms1) ++ [[NStream (framed (n_trailer x) ms') e']]) (framed (n_trailer x) (ms1 ++ m :: ms2)) e)
    with (nre_drive (nre_stream (S (length ms1)) d) d (x, repeat [] (length ms1) ++ [[NStream (framed (n_trailer x) ms') e']]) (framed (n_trailer x) (ms1 ++ m :: ms2)) e).
  unfold nscript in *. rewrite E. cbn [option_map fst]. f_equal. rewrite D. reflexivity.
Qed.
(* a message that does not end with the trailer is answered twice alike *)
Theorem nt_reentrant_repeated d opts ms1 m b ms2 ms' e e' : let t := nopts_trailer opts in let best := nopts_best opts in
  b <> t -> Forall (one_message t) (ms1 ++ (m ++ [b]) :: ms2) -> Forall (one_message t) ms' ->
  option_map fst (nre_parse d (repeat [] (length ms1) ++ [[NStream (framed t ms') e']]) (nnew_parser opts) (framed t (ms1 ++ (m ++ [b]) :: ms2)) e)
  = Some (map (nanswer best) (ms1 ++ [m ++ [b]; m ++ [b]] ++ ms' ++ ms2)).
Proof. cbn zeta. intros Hb HF HF'. rewrite nt_reentrant_once by assumption. rewrite (chop_other _ _ _ Hb). rewrite !map_app. reflexivity. Qed.
Example nt_reentrant_ex d : option_map fst (nre_parse d [[]; [NStream (framed "010"%byte [msg_with_lf]) AtEOF]] (nnew_parser []) (framed "010"%byte [msg1; msg2; msg1]) AtEOF)
  = Some (map (nanswer false) [msg1; msg2; msg2; msg_with_lf; msg1]).
Proof.
  pose proof one_message_ex as H. inversion H as [|? ? H1 H']; subst. inversion H' as [|? ? H2 H'']; subst. inversion H'' as [|? ? H3 _]; subst.
  apply (nt_reentrant_repeated d [] [msg1] (removelast msg2) "-"%byte [msg1] [msg_with_lf] AtEOF AtEOF); [discriminate| |]; repeat (constructor; [assumption|]); constructor.
Qed.
(* not true: the nested call hands over the results of its own stream only, as a new parser would, and the outer results are those without it *)
Theorem nt_reentrant_refuted : exists opts ms m ms', let t := nopts_trailer opts in let best := nopts_best opts in
  Forall (one_message t) (m :: ms) /\ Forall (one_message t) ms' /\ forall d,
  option_map fst (nre_parse d [[NStream (framed t ms') AtEOF]] (nnew_parser opts) (framed t (m :: ms)) AtEOF) <> Some (nanswer best m :: map (nanswer best) ms' ++ map (nanswer best) ms).
Proof.
  pose proof one_message_ex as H. inversion H as [|? ? H1 H']; subst. inversion H' as [|? ? H2 H'']; subst. inversion H'' as [|? ? H3 _]; subst.
  exists [], [msg2], msg1, [msg2]. cbn zeta. split; [repeat (constructor; [assumption|]); constructor|]. split; [repeat (constructor; [assumption|]); constructor|].
  intros d E. assert (F : forall l : list bytes, Forall (one_message "010"%byte) l -> Forall (one_message (nopts_trailer [])) l) by (intros l Hl; exact Hl).
  pose proof (nt_reentrant_once d [] [] msg1 [msg2] [msg2] AtEOF AtEOF) as Q. cbn zeta in Q.
  assert (F1 : Forall (one_message (nopts_trailer [])) [msg1; msg2]) by (apply F; repeat (constructor; [assumption|]); constructor).
  assert (F2 : Forall (one_message (nopts_trailer [])) [msg2]) by (apply F; repeat (constructor; [assumption|]); constructor).
  specialize (Q F1 F2).
  pose proof (eq_trans (eq_sym E) Q) as W. apply (f_equal (option_map (@length nresult))) in W. cbn [option_map length app map] in W. discriminate W.
Qed.
