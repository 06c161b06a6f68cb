(* C83: options that a listener applies to the non-transparent parser that is calling it. *)
From Verif Require Import Bytes CommonFacts GotoLang Common M5424Def M5424 Ref5424c Props5424 Thm5424 SpecOctet NonTransparentBaseDef GenNT ANT MNT SpecNT ThmNT MLater ThmNtLater MNtReenter ThmNtReenter.
Local Open Scope Z_scope.

(* ---- options other than WithTrailer ---- *)
Definition no_trailer (v : nevent) : Prop := match v with NApply (NOTrailer _) => False | NApply _ => True | NStream _ _ => False end.
Definition same (xs : rx) (y : nvars) : Prop := (exists b, fst xs = set_n_best b y) /\ Forall (Forall no_trailer) (snd xs).
Section Harmless.
Variable st : rx -> bytes -> ending -> option rx.
Lemma set_best_twice a b x : set_n_best a (set_n_best b x) = set_n_best a x. Proof. destruct x; reflexivity. Qed.
Lemma events_same evs : forall xs y, Forall no_trailer evs -> same xs y -> exists ys, nre_events st evs xs = Some ys /\ same ys y.
Proof.
  induction evs as [|[o|data e] evs IH]; intros xs y H S; cbn [nre_events]; [eauto| |inversion H as [|? ? Hf _]; destruct Hf].
  inversion H as [|? ? Ho H']; subst. apply IH; [exact H'|]. destruct S as [[b S] F]. split; [|exact F]. cbn [fst]. rewrite S. destruct o; cbn [napply_opt]; [eauto| |eauto|destruct Ho].
  exists true. destruct y; reflexivity.
Qed.
Lemma called_same xs y : same xs y -> exists ys, nre_called st xs = Some ys /\ same ys y.
Proof.
  intros [[b S] F]. unfold nre_called. destruct xs as [x [|evs sc]]; cbn [fst snd] in *; [eexists; split; [reflexivity|]; split; [exists b; exact S|constructor]|].
  inversion F; subst. apply events_same; [assumption|]. split; [exists b; reflexivity|assumption].
Qed.
Lemma process_same xs y : same xs y -> match process y with Some y' => exists ys, nre_process st xs = Some ys /\ same ys y' | None => nre_process st xs = None end.
Proof.
  intros [[b S] F]. unfold nre_process. rewrite S, process_best. destruct (process y) as [y'|]; [|reflexivity]. cbn [option_map]. apply called_same. split; [exists b; reflexivity|exact F].
Qed.
Lemma act_same a data p xs y : same xs y -> match sem_act a data p y with Some y' => exists ys, nre_act st a data p xs = Some ys /\ same ys y' | None => nre_act st a data p xs = None end.
Proof.
  intros S. destruct a; try (cbn [sem_act nre_act]; destruct S as [[b S] F]; rewrite S; eexists; split; [reflexivity|]; split; [exists b; destruct y; reflexivity|exact F]).
  apply process_same. exact S.
Qed.
Lemma cnd_same c xs y : same xs y -> nre_cnd c xs = sem_cnd c y.
Proof. intros [[b S] F]. unfold nre_cnd. rewrite S. destruct c, y; reflexivity. Qed.
Lemma texec_same data t p : forall xs y (nx : nst -> rx -> GotoLang.outcome rx) (ny : nst -> nvars -> GotoLang.outcome nvars),
  same xs y -> (forall s xs y, same xs y -> match ny s y with Out c y' => exists xs', nx s xs = Out c xs' /\ same xs' y' | Panic => nx s xs = Panic | NoFuel => nx s xs = NoFuel end) ->
  match texec sem_act sem_cnd data t p y ny with Out c y' => exists xs', texec (nre_act st) nre_cnd data t p xs nx = Out c xs' /\ same xs' y' | Panic => texec (nre_act st) nre_cnd data t p xs nx = Panic | NoFuel => texec (nre_act st) nre_cnd data t p xs nx = NoFuel end.
Proof.
  induction t as [n|c|a t IH|c t1 IH1 t2 IH2|]; intros xs y nx ny S H; cbn [texec].
  - apply H. exact S.
  - exists xs. split; [reflexivity|exact S].
  - pose proof (act_same a data p xs y S) as A. destruct (sem_act a data p y) as [y'|]; [destruct A as [ys [-> A]]; apply IH; assumption|rewrite A; reflexivity].
  - rewrite (cnd_same _ _ _ S). destruct (sem_cnd c y); [apply IH1|apply IH2]; assumption.
  - reflexivity.
Qed.
Lemma arun_same data r : forall s p xs y, same xs y ->
  match arun sem_act sem_cnd ndelta nedelta data s p r y with Out c y' => exists xs', arun (nre_act st) nre_cnd ndelta nedelta data s p r xs = Out c xs' /\ same xs' y'
  | Panic => arun (nre_act st) nre_cnd ndelta nedelta data s p r xs = Panic | NoFuel => arun (nre_act st) nre_cnd ndelta nedelta data s p r xs = NoFuel end.
Proof.
  induction r as [|b r IH]; intros s p xs y S; cbn [arun]; apply texec_same; try exact S; intros s' xs' y' S'; [reflexivity|apply IH; exact S'].
Qed.
Lemma exec_same s w xs y : same xs y -> match nexec (nnum s) w y with Some (c, y') => exists xs', nre_exec st (nnum s) w xs = Some (c, xs') /\ same xs' y' | None => nre_exec st (nnum s) w xs = None end.
Proof.
  intros S. rewrite nexec_run, nre_exec_run. pose proof (arun_same w w s 0 xs y S) as A. destruct (arun sem_act sem_cnd ndelta nedelta w s 0 w y); [destruct A as [xs' [-> A]]; eauto|rewrite A; reflexivity|rewrite A; reflexivity].
Qed.
Lemma nexec_state s w y c y' : nexec (nnum s) w y = Some (c, y') -> exists s', c = nnum s'.
Proof. rewrite nexec_run. destruct (arun _ _ _ _ _ _ _ _ _) as [k z| |] eqn:E; try discriminate. intros [= <- <-]. apply code_state. exact (inside_code _ _ _ _ _ _ _ _ _ E). Qed.
Lemma err_same l e xs y : same xs y -> same (set_n_err l e (fst xs), snd xs) (set_n_err l e y).
Proof. intros [[b S] F]. split; [|exact F]. exists b. cbn [fst]. rewrite S. destruct y; reflexivity. Qed.
Lemma windows_same d ws : forall s xs y, same xs y -> match exec_windows d (nnum s) ws y with
  Some (c, b, y') => exists xs', nre_windows st d (nnum s) ws xs = Some (c, b, xs') /\ same xs' y' /\ exists s', c = nnum s' | None => nre_windows st d (nnum s) ws xs = None end.
Proof.
  induction ws as [|w r IH]; intros s xs y S; cbn [exec_windows nre_windows]; [eauto 6|].
  pose proof (exec_same s w xs y S) as A. destruct (nexec (nnum s) w y) as [[c y']|] eqn:E; [|rewrite A; reflexivity]. destruct A as [xs' [-> A]]. destruct (nexec_state _ _ _ _ _ E) as [s' ->].
  destruct (nnum s' =? 0)%N; [destruct (d_fsm_error d)|]; try (apply IH; exact A); eexists; (split; [reflexivity|]); split; eauto. apply (err_same w (Some RdFsm)). exact A.
Qed.
Lemma emit_same text e xs y : same xs y -> match parse_emit text e y with Some y' => exists x', parse_emit text e (fst xs) = Some x' /\ same (x', snd xs) y' | None => parse_emit text e (fst xs) = None end.
Proof. intros [[b S] F]. rewrite S, parse_emit_best. destruct (parse_emit text e y); [|reflexivity]. eexists. split; [reflexivity|]. split; [exists b; reflexivity|exact F]. Qed.
Lemma completion_same xs y : same xs y -> match on_completion y with Some y' => exists ys, nre_completion st xs = Some ys /\ same ys y' | None => nre_completion st xs = None end.
Proof.
  intros S. unfold on_completion, nre_completion. assert (Ec : n_cand (fst xs) = n_cand y) by (destruct S as [[b S] _]; rewrite S; destruct y; reflexivity). rewrite Ec.
  assert (T : forall xs y, same xs y -> match (match n_rderr y with Some e => if 0 <? Z.of_nat (length (n_last y)) then parse_emit (n_last y) (Some e) y else Some y | None => Some y end) with
     Some y' => exists ys, (let (x, sc) := xs in match n_rderr x with Some e => if 0 <? Z.of_nat (length (n_last x)) then match parse_emit (n_last x) (Some e) x with Some y => nre_called st (y, sc) | None => None end else Some (x, sc) | None => Some (x, sc) end) = Some ys /\ same ys y'
     | None => (let (x, sc) := xs in match n_rderr x with Some e => if 0 <? Z.of_nat (length (n_last x)) then match parse_emit (n_last x) (Some e) x with Some y => nre_called st (y, sc) | None => None end else Some (x, sc) | None => Some (x, sc) end) = None end).
  { clear. intros [x sc] y S. assert (E : n_rderr x = n_rderr y /\ n_last x = n_last y) by (destruct S as [[b S] _]; cbn [fst] in S; rewrite S; destruct y; auto). destruct E as [-> ->].
    destruct (n_rderr y) as [e|]; [|eauto]. destruct (0 <? _); [|eauto]. pose proof (emit_same (n_last y) (Some e) (x, sc) y S) as A. cbn [fst snd] in A.
    destruct (parse_emit (n_last y) (Some e) y) as [y'|]; [|rewrite A; reflexivity]. destruct A as [x' [-> A]]. apply called_same. exact A. }
  destruct (0 <? Z.of_nat (length (n_cand y))).
  - pose proof (process_same xs y S) as A. destruct (process y) as [y'|]; [|rewrite A; reflexivity]. destruct A as [ys [-> A]]. exact (T ys y' A).
  - exact (T xs y S).
Qed.
Lemma rest_same d s rest xs y : same xs y -> match exec_rest d (nnum s) rest y with Some (c, y') => exists xs', nre_rest st d (nnum s) rest xs = Some (c, xs') /\ same xs' y' | None => nre_rest st d (nnum s) rest xs = None end.
Proof. intros S. unfold exec_rest, nre_rest. destruct rest; [eauto|]. destruct (d_exec_tail d); [|eauto]. apply exec_same. exact S. Qed.
Lemma eos_same d rest e xs y : same xs y -> same (end_of_stream d rest e (fst xs), snd xs) (end_of_stream d rest e y).
Proof.
  intros S. unfold end_of_stream, on_err, on_eof. destruct rest; [destruct e; [destruct (d_clean_end_is_error d)|]|]; try (apply err_same; exact S). destruct xs; exact S.
Qed.
Lemma drive_same d xs y data e : same xs y -> match drive d y data e with Some y' => exists ys, nre_drive st d xs data e = Some ys /\ same ys y' | None => nre_drive st d xs data e = None end.
Proof.
  intros S. unfold drive, nre_drive. assert (Et : n_trailer (fst xs) = n_trailer y) by (destruct S as [[b S] _]; rewrite S; destruct y; reflexivity). rewrite Et.
  destruct (windows (n_trailer y) data) as [ws rest]. pose proof (windows_same d ws N1 xs y S) as A. change (nnum N1) with 1%N in A.
  destruct (exec_windows d 1 ws y) as [[[c b] y']|]; [|rewrite A; reflexivity]. destruct A as [xs' [-> [A [s' ->]]]].
  destruct b; [apply completion_same; exact A|]. pose proof (rest_same d s' rest xs' y' A) as B. destruct (exec_rest d (nnum s') rest y') as [[c y2]|]; [|rewrite B; reflexivity]. destruct B as [x2 [-> B]].
  apply completion_same. apply eos_same. exact B.
Qed.
End Harmless.
Lemma same_results xs y : same xs y -> n_out (fst xs) = n_out y.
Proof. intros [[b S] _]. rewrite S. destruct y; reflexivity. Qed.
(* C83, non-transparent: a listener that applies any options but WithTrailer changes no result, whatever the parser was used for *)
Theorem nt_listener_options d (sc : nscript) x data e : Forall (Forall no_trailer) sc ->
  option_map fst (nre_parse d sc x data e) = nresults (nparse_stream d x data e).
Proof.
  intros H. unfold nre_parse, nparse_stream.
  assert (S0 : same (set_n_out [] x, sc) (set_n_out [] x)) by (split; [exists (n_best x); destruct x; reflexivity|exact H]).
  pose proof (drive_same (nre_stream (length sc) d) d _ _ data e S0) as A.
  destruct (drive d (set_n_out [] x) data e) as [y|].
  - destruct A as [[z sc'] [E A]].
    assert (E' : nre_stream (S (length sc)) d (set_n_out [] x, sc) data e = Some (z, sc')) by exact E. rewrite E'. cbn. f_equal. apply (same_results _ _ A).
  - assert (E' : nre_stream (S (length sc)) d (set_n_out [] x, sc) data e = None) by exact A. rewrite E'. reflexivity.
Qed.

(* ---- another trailer in the middle of a stream ---- *)
Definition trailer_of (k : Z) : byte := if k =? 0 then "010"%byte else x00.
Lemma apply_trailer x k : nvok x -> k = 0 \/ k = 1 -> nvok (napply_opt x (NOTrailer k)) /\ n_trailer (napply_opt x (NOTrailer k)) = trailer_of k
  /\ n_cand (napply_opt x (NOTrailer k)) = n_cand x /\ n_out (napply_opt x (NOTrailer k)) = n_out x /\ n_last (napply_opt x (NOTrailer k)) = n_last x.
Proof. intros [A B C] [-> | ->]; (split; [constructor; cbn; auto|cbn; auto]). Qed.
Section Trailer.
Variable st : rx -> bytes -> ending -> option rx.
Lemma re_tail data (x : nvars) (sc : nscript) u : nvok x -> ~ In (n_trailer x) u -> forall p, arun (nre_act st) nre_cnd ndelta nedelta data N2 p u (x, sc) = Out 2 (x, sc).
Proof.
  intros Hx. induction u as [|b u IH]; intros Hu p; cbn [arun ndelta]; [reflexivity|].
  rewrite (re_other st data x sc b p _ Hx); [|intros E; apply Hu; left; exact E]. apply IH. intros H. apply Hu. right. exact H.
Qed.
Lemma windows_lost d (x : nvars) (sc : nscript) ws : nvok x -> ~ In (n_trailer x) (concat ws) -> nre_windows st d 2 ws (x, sc) = Some (2%N, false, (x, sc)).
Proof.
  intros Hx. induction ws as [|w ws IH]; intros H; cbn [nre_windows]; [reflexivity|]. cbn [concat] in H.
  change 2%N with (nnum N2) at 1. rewrite nre_exec_run, re_tail; [|exact Hx|intros I; apply H, in_or_app; auto]. cbn [N.eqb]. apply IH. intros I. apply H, in_or_app. auto.
Qed.
(* the message begun when the trailer is changed, and all that follow, are lost *)
Lemma message_lost d m2 ms2 (x y : nvars) (sc sc' : nscript) : nvok x -> nvok y -> pending st (x, sc) = Some (y, sc') -> one_message (n_trailer x) m2 -> n_trailer y <> n_trailer x -> ~ In (n_trailer y) (m2 ++ concat ms2) ->
  nre_windows st d 3 (fst (windows (n_trailer x) (framed (n_trailer x) (m2 :: ms2)))) (x, sc) = Some (2%N, false, (set_n_cand [] y, sc')).
Proof.
  intros Hx Hy P [[u Eu] _] Ht Hn. destruct (windows_spec (n_trailer x) (framed (n_trailer x) (m2 :: ms2))) as [W1 _]. rewrite windows_framed, app_nil_r in W1.
  assert (NI : ~ In (n_trailer y) (framed (n_trailer x) (m2 :: ms2))).
  { assert (G : forall l, ~ In (n_trailer y) (concat l) -> ~ In (n_trailer y) (framed (n_trailer x) l)).
    { induction l as [|q l IH]; intros Hq; [exact Hq|]. unfold framed. cbn [map concat] in *. intros I. apply in_app_or in I as [I|I]; [apply in_app_or in I as [I|[I|[]]]; [apply Hq, in_or_app; auto|congruence]|].
      apply IH; [intros I2; apply Hq, in_or_app; auto|exact I]. }
    apply G. exact Hn. }
  destruct (fst (windows _ _)) as [|w ws] eqn:Ew; [cbn in W1; unfold framed in W1; cbn [map concat] in W1; destruct m2; discriminate|].
  cbn [concat] in W1. rewrite <- W1 in NI.
  assert (Hw : exists v, w = "<"%byte :: v).
  { destruct (windows_spec (n_trailer x) (framed (n_trailer x) (m2 :: ms2))) as [_ [W2 _]]. rewrite Ew in W2. inversion W2 as [|? ? [v [Ev _]] _]; subst w. rewrite <- !app_assoc in W1. cbn [app] in W1.
    unfold framed in W1. cbn [map concat] in W1. rewrite Eu in W1. destruct v as [|c v]; cbn [app] in *; [|injection W1 as -> _; eauto]. injection W1 as W1 _. exfalso. apply (trailer_not_lt x Hx). exact W1. }
  destruct Hw as [v ->]. cbn [nre_windows]. change 3%N with (nnum N3) at 1. rewrite nre_exec_run.
  assert (E : arun (nre_act st) nre_cnd ndelta nedelta ("<"%byte :: v) N3 0 ("<"%byte :: v) (x, sc) = Out 2 (set_n_cand [] y, sc')).
  { transitivity (texec (nre_act st) nre_cnd ("<"%byte :: v) nbegin 0 (x, sc) (fun s' x' => arun (nre_act st) nre_cnd ndelta nedelta ("<"%byte :: v) s' (0 + 1) v x')); [reflexivity|].
    rewrite (re_begin st _ _ _ _ _ P). cbn [fst snd]. apply re_tail; [apply kept_cand; exact Hy|]. intros I. apply NI. cbn. right. apply in_or_app. auto. }
  rewrite E. cbn [N.eqb]. apply windows_lost; [apply kept_cand; exact Hy|]. intros I. apply NI. apply in_or_app. auto.
Qed.
End Trailer.
(* C83: a listener, handed the result of the message m, changes the trailer: no later message of the stream is reported (unless it contains the new trailer) *)
Theorem nt_listener_trailer d opts ms1 m m2 ms2 k e : let t := nopts_trailer opts in
  k = 0 \/ k = 1 -> trailer_of k <> t -> Forall (one_message t) (ms1 ++ m :: m2 :: ms2) -> ~ In (trailer_of k) (m2 ++ concat ms2) ->
  option_map fst (nre_parse d (repeat [] (length ms1) ++ [[NApply (NOTrailer k)]]) (nnew_parser opts) (framed t (ms1 ++ m :: m2 :: ms2)) e)
  = Some (map (nanswer (nopts_best opts)) (ms1 ++ [m])).
Proof.
  cbn zeta. intros Hk Hd HF Hn. destruct (nnew_opts opts) as [Hx [Ht [Hb [Hc [Hl Hr]]]]]. rewrite <- Ht, <- Hb in *.
  set (x := set_n_out [] (nnew_parser opts)). assert (Hx0 : nvok x) by (apply kept_out; exact Hx).
  change (n_trailer (nnew_parser opts)) with (n_trailer x) in *. change (n_best (nnew_parser opts)) with (n_best x) in *. change (n_cand (nnew_parser opts)) with (n_cand x) in *. change (n_last (nnew_parser opts)) with (n_last x) in *.
  set (evs := [NApply (NOTrailer k)]). set (st := nre_stream (length (scripted (length ms1) evs)) d). set (sc := scripted (length ms1) evs) in *.
  assert (F1 : Forall (one_message (n_trailer x)) (ms1 ++ [m])) by (apply Forall_app in HF as [H1 H2]; apply Forall_app; split; [exact H1|]; inversion H2; auto).
  assert (F2 : one_message (n_trailer x) m2) by (apply Forall_app in HF as [_ H2]; inversion H2 as [|? ? _ H3]; inversion H3; assumption).
  assert (Ej : calls (n_cand x) (ms1 ++ [m]) = length ms1) by (rewrite Hc; unfold calls; destruct (ms1 ++ [m]) eqn:Z; [destruct ms1; discriminate|rewrite <- Z, app_length; cbn; lia]).
  destruct (re_messages st d (ms1 ++ [m]) 1 x sc Hx0 (or_introl eq_refl) F1 ltac:(rewrite Ej; apply idle_scripted)) as [cs [z [E [K [Ecs [Ac [Br [Cl D]]]]]]]].
  rewrite Ej in E. unfold sc in E at 2. rewrite skip_scripted in E. rewrite Hc in D. cbn [pend app] in D.
  assert (Ecs3 : cs = 3%N) by (rewrite Ecs; destruct ms1; reflexivity). clear Ecs. subst cs.
  assert (Acz : n_cand z = m ++ [n_trailer x]) by (rewrite Ac; destruct (ms1 ++ [m]) eqn:Z; [destruct ms1; discriminate|rewrite <- Z, last_last; reflexivity]).
  assert (Hcz : n_cand z <> []) by (rewrite Acz; destruct m; discriminate).
  destruct (process_spec z (proj1 K) Hcz) as [w [Ew [Kw [Aw [Bw [Cw Dw]]]]]]. rewrite (kept_tr _ _ K), (kept_bs _ _ K) in Dw.
  assert (Dw' : n_out w = map (nanswer (n_best x)) (ms1 ++ [m])) by (rewrite Dw; exact D).
  destruct (apply_trailer w k (proj1 Kw) Hk) as [Y1 [Y2 [Y3 [Y4 Y5]]]]. set (y := napply_opt w (NOTrailer k)) in *.
  assert (P : pending st (z, [evs]) = Some (y, [])).
  { unfold pending. cbn [fst]. destruct (n_cand z) eqn:Z; [congruence|]. unfold nre_process. cbn [fst snd]. rewrite Ew. reflexivity. }
  assert (Lost : nre_windows st d 3 (fst (windows (n_trailer z) (framed (n_trailer z) (m2 :: ms2)))) (z, [evs]) = Some (2%N, false, (set_n_cand [] y, []))).
  { apply (message_lost st d m2 ms2 z y [evs] []); [apply K|exact Y1|exact P|rewrite (kept_tr _ _ K); exact F2|rewrite Y2, (kept_tr _ _ K); exact Hd|rewrite Y2; exact Hn]. }
  rewrite (kept_tr _ _ K) in Lost.
  assert (W : nre_windows st d 1 (fst (windows (n_trailer x) (framed (n_trailer x) (ms1 ++ m :: m2 :: ms2)))) (x, sc) = Some (2%N, false, (set_n_cand [] y, []))).
  { assert (G : forall a b, fst (windows (n_trailer x) (framed (n_trailer x) (a ++ b))) = fst (windows (n_trailer x) (framed (n_trailer x) a)) ++ fst (windows (n_trailer x) (framed (n_trailer x) b))).
    { intros a b. induction a as [|q a IH]; [reflexivity|]. unfold framed in *. cbn [app map concat]. rewrite <- !app_assoc. cbn [app].
      rewrite (windows_app _ q (concat (map (fun m => m ++ [n_trailer x]) (a ++ b)))), (windows_app _ q (concat (map (fun m => m ++ [n_trailer x]) a))). cbn [fst]. rewrite IH, app_assoc. reflexivity. }
    replace (ms1 ++ m :: m2 :: ms2) with ((ms1 ++ [m]) ++ m2 :: ms2) by (rewrite <- app_assoc; reflexivity). rewrite G.
    rewrite (re_windows_app st d _ _ _ _ _ _ E). exact Lost. }
  set (y0 := set_n_cand [] y) in *. assert (Hy0 : nvok y0) by (apply kept_cand; exact Y1).
  assert (Ly : n_last y0 = []) by (change (n_last y0) with (n_last y); congruence).
  destruct (ended_spec d e y0 Hy0 Ly) as [K4 [A4 [B4 C4]]].
  assert (Pe : pending st (ended d e y0, []) = Some (ended d e y0, [])) by (unfold pending; cbn [fst]; rewrite A4; reflexivity).
  pose proof (re_drive st d (ms1 ++ m :: m2 :: ms2) e x y0 sc [] 2 (ended d e y0, []) W Pe B4) as R.
  unfold nre_parse. change (repeat [] (length ms1) ++ [evs]) with sc. fold x.
  assert (R' : nre_stream (S (length sc)) d (x, sc) (framed (n_trailer x) (ms1 ++ m :: m2 :: ms2)) e = Some (ended d e y0, [])) by exact R. rewrite R'. cbn [option_map fst]. f_equal.
  rewrite C4. change (n_out y0) with (n_out y). congruence.
Qed.
Example nt_listener_trailer_ex d : option_map fst (nre_parse d [[NApply (NOTrailer NUL)]] (nnew_parser []) (framed "010"%byte [msg1; msg2; msg1]) AtEOF) = Some [nanswer false msg1].
Proof.
  pose proof one_message_ex as H. inversion H as [|? ? H1 H']; subst. inversion H' as [|? ? H2 H'']; subst. inversion H'' as [|? ? H3 _]; subst.
  apply (nt_listener_trailer d [] [] msg1 msg2 [msg1] 1 AtEOF); [right; reflexivity|discriminate|repeat (constructor; [assumption|]); constructor|].
  intros I. assert (B : existsb (fun b => beqb b x00) (msg2 ++ concat [msg1]) = true); [|vm_compute in B; discriminate]. apply existsb_exists. exists x00. split; [exact I|reflexivity].
Qed.
(* not true: the trailer given by the listener counts from the next stream on only *)
Lemma three_messages : Forall (one_message (nopts_trailer [])) [msg1; msg2; msg1].
Proof.
  change (nopts_trailer []) with "010"%byte. pose proof one_message_ex as H. inversion H as [|? ? H1 H']; subst. inversion H' as [|? ? H2 H'']; subst. inversion H'' as [|? ? H3 _]; subst.
  repeat (constructor; [assumption|]). constructor.
Qed.
Theorem nt_listener_trailer_refuted : exists sc data, sc = [[NApply (NOTrailer NUL)]] /\ forall d,
  option_map fst (nre_parse d sc (nnew_parser []) data AtEOF) <> nfresh d [] data AtEOF.
Proof.
  exists [[NApply (NOTrailer NUL)]], (framed (nopts_trailer []) [msg1; msg2; msg1]). split; [reflexivity|]. intros d E.
  rewrite (nt_messages d [] _ AtEOF three_messages) in E. change (nopts_trailer []) with "010"%byte in E. rewrite nt_listener_trailer_ex in E.
  apply (f_equal (option_map (@length nresult))) in E. cbn [option_map length map] in E. discriminate E.
Qed.
Example nt_listener_options_ex d : option_map fst (nre_parse d [[NApply NOBestEffort; NApply (NOMaxLength 3)]; [NApply NOListener]] (nnew_parser []) (framed "010"%byte [msg1; msg2; msg1]) AtEOF)
  = nresults (nparse_stream d (nnew_parser []) (framed "010"%byte [msg1; msg2; msg1]) AtEOF).
Proof. apply nt_listener_options. repeat constructor. Qed.
