(* C81 for the non-transparent framing parser: options applied after its creation. *)
From Coq Require Import FMapPositive.
From Verif Require Import Bytes CommonFacts GotoLang Common M5424Def M5424 Ref5424c Props5424 Thm5424 Bufio MOctet SpecOctet MLater NonTransparentBaseDef GenNT ANT MNT SpecNT ThmNT ThmNtCrash.
Local Open Scope Z_scope.

(* ---- a change of the variables that no statement or test sees *)
Section Map.
Context {A C X : Type}.
Variable sem_act : A -> bytes -> Z -> X -> option X.
Variable sem_cond : C -> X -> bool.
Variable prog : PositiveMap.t (code A C * option label).
Variable h : X -> X.
Hypothesis act_h : forall a d p x, sem_act a d p (h x) = option_map h (sem_act a d p x).
Hypothesis cnd_h : forall c x, sem_cond c (h x) = sem_cond c x.
Definition gmap_h (s : @gst X) : @gst X := G (g_p s) (g_cs s) (g_w s) (h (g_x s)).
Lemma eval_h data c s : eval sem_cond data c (gmap_h s) = eval sem_cond data c s.
Proof. induction c as [o n|o n| |ns|a IHa b IHb|c]; cbn [eval]; try reflexivity; [rewrite IHa, IHb; reflexivity|cbn; rewrite cnd_h; reflexivity]. Qed.
Lemma run_h data k : forall s, GotoLang.run sem_act sem_cond data k (gmap_h s) = match GotoLang.run sem_act sem_cond data k s with Fell s => Fell (gmap_h s) | Jump l s => Jump l (gmap_h s) | Panicked => Panicked end.
Proof.
  induction k as [|a k IH|c t IHt e IHe k IH|b IHb k IH|l i|k IH|k IH|n k IH|n k IH|n k IH]; intros s; cbn [GotoLang.run].
  - reflexivity.
  - cbn [gmap_h g_p g_cs g_w g_x]. rewrite act_h. destruct (sem_act a data (g_p s) (g_x s)) as [y|]; [|reflexivity]. apply (IH (G (g_p s) (g_cs s) (g_w s) y)).
  - rewrite eval_h. destruct (eval sem_cond data c s) as [[|]|]; [|  |reflexivity].
    + rewrite IHt. destruct (GotoLang.run sem_act sem_cond data t s); try reflexivity. apply IH.
    + rewrite IHe. destruct (GotoLang.run sem_act sem_cond data e s); try reflexivity. apply IH.
  - rewrite IHb. destruct (GotoLang.run sem_act sem_cond data b s); try reflexivity. apply IH.
  - reflexivity.
  - apply (IH (G (g_p s + 1) (g_cs s) (g_w s) (g_x s))).
  - apply (IH (G (g_p s - 1) (g_cs s) (g_w s) (g_x s))).
  - apply (IH (G (g_p s) n (g_w s) (g_x s))).
  - cbn [gmap_h g_p]. destruct (znth data (g_p s)) as [b|]; [|reflexivity]. apply (IH (G (g_p s) (g_cs s) (n + bN b) (g_x s))).
  - apply (IH (G (g_p s) (g_cs s) (g_w s + n) (g_x s))).
Qed.
Lemma exec_h data f : forall l s, exec sem_act sem_cond prog data f l (gmap_h s) = match exec sem_act sem_cond prog data f l s with Out c x => Out c (h x) | Panic => Panic | NoFuel => NoFuel end.
Proof.
  induction f as [|f IH]; intros l s; [reflexivity|]. cbn [exec]. destruct (PositiveMap.find (key l) prog) as [[k nx]|]; [|reflexivity].
  rewrite run_h. destruct (GotoLang.run sem_act sem_cond data k s) as [s'|l' s'|]; [|apply IH|reflexivity]. destruct nx as [l'|]; [apply IH|reflexivity].
Qed.
End Map.

(* ---- the field bestEffort, read by HasBestEffort only once the parser exists *)
Definition set_n_best (b : bool) (x : nvars) : nvars := NVars (n_typ x) (n_trailer x) (n_cand x) b (n_internal x) (n_rderr x) (n_last x) (n_out x).
Lemma parse_emit_best b text e x : parse_emit text e (set_n_best b x) = option_map (set_n_best b) (parse_emit text e x).
Proof. unfold parse_emit. cbn [set_n_best n_internal]. destruct (parse (n_internal x) text) as [m [r e'| |]]; reflexivity. Qed.
Lemma process_best b x : process (set_n_best b x) = option_map (set_n_best b) (process x).
Proof. unfold process. cbn [set_n_best n_trailer n_cand]. destruct (strip1 (n_trailer x) (n_cand x)) as [c|]; [|reflexivity]. apply (parse_emit_best b c None (set_n_cand c x)). Qed.
Lemma nexec_best b cs w x : nexec cs w (set_n_best b x) = option_map (fun r => (fst r, set_n_best b (snd r))) (nexec cs w x).
Proof.
  unfold nexec. change (G 0 cs 0 (set_n_best b x)) with (gmap_h (set_n_best b) (G 0 cs 0 x)). rewrite (exec_h sem_act sem_cnd codeN (set_n_best b)).
  - destruct (exec sem_act sem_cnd codeN w (exec_fuel w) LEntry (G 0 cs 0 x)); reflexivity.
  - intros a d p y. destruct a; [apply process_best|reflexivity|reflexivity].
  - intros [] y; reflexivity.
Qed.
Lemma exec_windows_best b d ws : forall cs x, exec_windows d cs ws (set_n_best b x) = option_map (fun r => (fst r, set_n_best b (snd r))) (exec_windows d cs ws x).
Proof.
  induction ws as [|w ws IH]; intros cs x; [reflexivity|]. cbn [exec_windows]. rewrite nexec_best. destruct (nexec cs w x) as [[c y]|]; [|reflexivity]. cbn [option_map fst snd].
  destruct (c =? 0)%N; [destruct (d_fsm_error d)|]; try apply IH; reflexivity.
Qed.
Lemma completion_best b x : on_completion (set_n_best b x) = option_map (set_n_best b) (on_completion x).
Proof.
  unfold on_completion. rewrite process_best. cbn [set_n_best n_cand].
  assert (G : forall z, match n_rderr (set_n_best b z) with Some e => if 0 <? Z.of_nat (length (n_last (set_n_best b z))) then parse_emit (n_last (set_n_best b z)) (Some e) (set_n_best b z) else Some (set_n_best b z) | None => Some (set_n_best b z) end
    = option_map (set_n_best b) match n_rderr z with Some e => if 0 <? Z.of_nat (length (n_last z)) then parse_emit (n_last z) (Some e) z else Some z | None => Some z end).
  { intros z. cbn [set_n_best n_rderr n_last]. destruct (n_rderr z); [|reflexivity]. destruct (0 <? _); [|reflexivity]. apply parse_emit_best. }
  destruct (0 <? Z.of_nat (length (n_cand x))); [destruct (process x) as [y|]; [|reflexivity]; apply (G y)|apply (G x)].
Qed.
Lemma stream_best b d x data e : nparse_stream d (set_n_best b x) data e = option_map (fun r => (fst r, set_n_best b (snd r))) (nparse_stream d x data e).
Proof.
  unfold nparse_stream. change (set_n_out [] (set_n_best b x)) with (set_n_best b (set_n_out [] x)).
  assert (D : drive d (set_n_best b (set_n_out [] x)) data e = option_map (set_n_best b) (drive d (set_n_out [] x) data e)).
  { unfold drive. cbn [set_n_best n_trailer set_n_out]. destruct (windows (n_trailer x) data) as [ws rest].
    change (NVars _ _ _ b _ _ _ _) with (set_n_best b (set_n_out [] x)). rewrite exec_windows_best. destruct (exec_windows d 1 ws (set_n_out [] x)) as [[[cs st] y]|]; [|reflexivity]. cbn [option_map fst snd].
    destruct st; [apply completion_best|].
    assert (R : exec_rest d cs rest (set_n_best b y) = option_map (fun r => (fst r, set_n_best b (snd r))) (exec_rest d cs rest y)).
    { unfold exec_rest. destruct rest; [reflexivity|]. destruct (d_exec_tail d); [apply nexec_best|reflexivity]. }
    rewrite R. destruct (exec_rest d cs rest y) as [[c z]|]; [|reflexivity]. cbn [option_map fst snd].
    replace (end_of_stream d rest e (set_n_best b z)) with (set_n_best b (end_of_stream d rest e z)); [apply completion_best|].
    unfold end_of_stream. destruct rest; [destruct e; [destruct (d_clean_end_is_error d)|]|]; reflexivity. }
  rewrite D. destruct (drive d (set_n_out [] x) data e); reflexivity.
Qed.

(* ---- the life of a parser *)
Definition trailers (opts : list nopt) : list nopt := filter (fun o => match o with NOTrailer _ => true | _ => false end) opts.
Definition tr_step (b : byte) (o : nopt) : byte := match o with NOTrailer 0 => "010"%byte | NOTrailer 1 => x00 | _ => b end.
Record nt_in_use (b0 b : bool) (t : byte) (x : nvars) : Prop := NInUse { nu_ok : nvok (set_n_best b0 x); nu_best : n_best x = b; nu_tr : n_trailer x = t }.
Lemma stream_nt_in_use d b0 b t x data e : nt_in_use b0 b t x -> exists rs y, nparse_stream d x data e = Some (rs, y) /\ nt_in_use b0 b t y.
Proof.
  intros [U1 U2 U3]. destruct (nt_step d (set_n_best b0 x) data e U1) as [rs [y [E [K1 K2]]]]. rewrite stream_best in E.
  assert (B : nparse_stream d (set_n_best b x) data e = option_map (fun r => (fst r, set_n_best b (snd r))) (nparse_stream d x data e)) by apply stream_best.
  replace (set_n_best b x) with x in B by (destruct x; cbn in *; subst; reflexivity).
  destruct (nparse_stream d x data e) as [[rs' y']|]; [|discriminate]. cbn [option_map fst snd] in *. injection E as <- <-. injection B as B. exists rs', y'. split; [reflexivity|].
  constructor; [exact K1|rewrite B; reflexivity|]. unfold conf in K2. cbn in K2. congruence.
Qed.
Lemma apply_nt_in_use b0 b t x o : nt_in_use b0 b t x -> nt_in_use b0 (b || match o with NOBestEffort => true | _ => false end) (tr_step t o) (napply_opt x o).
Proof.
  intros [[[T|T] U2 U3] U4 U5]; cbn in T, U2, U3; (destruct o as [| |n|v]; cbn [napply_opt tr_step]; rewrite ?orb_false_r, ?orb_true_r;
    [constructor; [constructor; cbn; auto|assumption|assumption]|constructor; [constructor; cbn; auto|reflexivity|assumption]|constructor; [constructor; cbn; auto|assumption|assumption]|]);
  unfold tt_value, LF, NUL; destruct v as [|[p|p|]|p]; cbn; (constructor; [constructor; cbn; auto|try assumption; reflexivity|try assumption; reflexivity]).
Qed.
Lemma nevents_in_use d b0 vs : forall b t x, nt_in_use b0 b t x -> nt_in_use b0 (b || nopts_best (napplied vs)) (fold_left tr_step (napplied vs) t) (nevents d x vs).
Proof.
  induction vs as [|v vs IH]; intros b t x U.
  - unfold nopts_best. cbn. rewrite orb_false_r. exact U.
  - destruct v as [o|data e].
    + change (nevents d x (NApply o :: vs)) with (nevents d (napply_opt x o) vs). change (napplied (NApply o :: vs)) with (o :: napplied vs). unfold nopts_best. cbn [existsb fold_left].
      rewrite orb_assoc. apply IH. apply apply_nt_in_use. exact U.
    + change (napplied (NStream data e :: vs)) with (napplied vs). unfold nevents. cbn [fold_left nevents1]. destruct (stream_nt_in_use d _ _ _ _ data e U) as [rs [y [E U']]]. rewrite E. apply IH. exact U'.
Qed.
Lemma new_in_use opts : nt_in_use (nopts_best opts) (nopts_best opts) (nopts_trailer opts) (nnew_parser opts).
Proof.
  destruct (nnew_opts opts) as [H1 [H2 [H3 _]]]. constructor; [|exact H3|exact H2]. rewrite <- H3. replace (set_n_best _ _) with (nnew_parser opts); [exact H1|]. destruct (nnew_parser opts). reflexivity.
Qed.
Lemma trailers_same l : forall t, fold_left tr_step (trailers l) t = fold_left tr_step l t.
Proof. induction l as [|o l IH]; intros t; [reflexivity|]. destruct o; cbn; apply IH. Qed.
Lemma trailers_best l : nopts_best (trailers l) = false.
Proof. unfold nopts_best. induction l as [|[] l IH]; cbn; auto. Qed.

(* C81, non-transparent framing: a trailer chosen later holds for the later streams as if it had been given to NewParser; WithBestEffort
   applied later changes nothing but the answer of HasBestEffort; the maximum length never matters.  Before the first stream this is all,
   for every stream ... *)
Theorem nt_later_before_streams d opts later data e :
  nresults (nparse_stream d (nevents d (nnew_parser opts) (map NApply later)) data e) = nfresh d (opts ++ trailers later) data e.
Proof.
  assert (G : forall l x o1, set_n_best (n_best (nnew_parser o1)) x = nnew_parser o1 -> n_best (nnew_parser o1) = nopts_best opts ->
    set_n_best (nopts_best opts) (nevents d x (map NApply l)) = nnew_parser (o1 ++ trailers l)).
  { induction l as [|o l IH]; intros x o1 E Hb; [cbn; rewrite app_nil_r, <- Hb; exact E|].
    change (nevents d x (map NApply (o :: l))) with (nevents d (napply_opt x o) (map NApply l)). destruct o as [| |n|v]; cbn [trailers filter]; fold (trailers l).
    1-3: apply IH; assumption.
    replace (o1 ++ NOTrailer v :: trailers l) with ((o1 ++ [NOTrailer v]) ++ trailers l) by (rewrite <- app_assoc; reflexivity).
    assert (B : n_best (nnew_parser (o1 ++ [NOTrailer v])) = nopts_best opts).
    { rewrite <- Hb. destruct (nnew_opts (o1 ++ [NOTrailer v])) as [_ [_ [-> _]]]. destruct (nnew_opts o1) as [_ [_ [-> _]]]. unfold nopts_best. rewrite existsb_app. cbn. apply orb_false_r. }
    apply IH; [|exact B]. rewrite B, <- Hb. unfold nnew_parser at 2. rewrite fold_left_app. cbn [fold_left].
    unfold nnew_parser in E |- *. set (y := fold_left napply_opt o1 _) in *. cbn [n_best] in *. unfold napply_opt. destruct (tt_value v) as [w|] eqn:Ev.
    - unfold set_n_best in E. injection E as E1 E2 E3 E4 E5 E6 E7. unfold set_n_best. cbn. rewrite Ev. congruence.
    - exact E. }
  destruct (nnew_opts opts) as [_ [_ [H3 _]]].
  specialize (G later (nnew_parser opts) opts ltac:(destruct (nnew_parser opts); reflexivity) H3). unfold nfresh. rewrite <- G, stream_best.
  destruct (nparse_stream d (nevents d (nnew_parser opts) (map NApply later)) data e) as [[rs y]|]; reflexivity.
Qed.
(* ... and after any streams and options: the results of a new parser with that trailer, with at most one result before and at most one
   after them, as when a parser is used again (C46) *)
Theorem nt_later_options d opts vs data e : (exists u, data = "<"%byte :: u) ->
  exists rs pre post, nfresh d (opts ++ trailers (napplied vs)) data e = Some rs
    /\ nresults (nparse_stream d (nevents d (nnew_parser opts) vs) data e) = Some (pre ++ rs ++ post)
    /\ (length pre <= 1)%nat /\ (length post <= 1)%nat.
Proof.
  intros Hd. destruct (nnew_opts (opts ++ trailers (napplied vs))) as [Hx [Ht [Hb [Hc [Hl0 Hr0]]]]]. set (x := nnew_parser (opts ++ trailers (napplied vs))) in *.
  destruct (nevents_in_use d _ vs _ _ _ (new_in_use opts)) as [Oy By Ty]. set (y0 := nevents d (nnew_parser opts) vs) in *.
  assert (Tr : n_trailer (set_n_best (nopts_best opts) y0) = n_trailer x).
  { cbn [set_n_best n_trailer]. rewrite Ty, Ht. unfold nopts_trailer. rewrite fold_left_app. symmetry. apply trailers_same. }
  assert (Be : n_best (set_n_best (nopts_best opts) y0) = n_best x).
  { cbn [set_n_best n_best]. rewrite Hb. unfold nopts_best at 2. rewrite existsb_app. fold (nopts_best opts). fold (nopts_best (trailers (napplied vs))). rewrite trailers_best, orb_false_r. reflexivity. }
  assert (S0 : nresults (nparse_stream d y0 data e) = nresults (nparse_stream d (set_n_best (nopts_best opts) y0) data e)).
  { rewrite stream_best. destruct (nparse_stream d y0 data e) as [[rs z]|]; reflexivity. }
  rewrite S0. clear S0. set (y := set_n_best (nopts_best opts) y0) in *.
  destruct (nt_decompose (n_trailer x) data (nvok_trailer x Hx) Hd) as [ms [rest [E [HF Hr]]]]. subst data.
  destruct (nt_stream d x ms rest e Hx HF Hr) as [xf [Ex _]].
  rewrite <- Tr in HF, Hr. destruct (nt_stream d y ms rest e Oy HF Hr) as [yf [Ey _]].
  rewrite Tr, Be in *. unfold nfresh. fold x. rewrite Ex, Ey. cbn [nresults]. rewrite Hc. cbn [pend app].
  assert (P : (length (pend (n_trailer x) (n_best x) (n_cand y)) <= 1)%nat) by (unfold pend; destruct (n_cand y); cbn; lia).
  assert (S : exists post, chunk_result (n_best x) (fst (stored d rest e y)) (snd (stored d rest e y)) = chunk_result (n_best x) (fst (stored d rest e x)) (snd (stored d rest e x)) ++ post
     /\ (length post <= 1)%nat).
  { unfold stored. destruct rest; [destruct e; [destruct (d_clean_end_is_error d)|]|]; try (exists []; rewrite app_nil_r; split; [reflexivity|cbn; lia]).
    cbn [fst snd]. rewrite Hl0. exists (chunk_result (n_best x) (n_last y) (n_rderr y)). unfold chunk_result. destruct (n_rderr x), (n_rderr y), (n_last y); cbn; split; try reflexivity; lia. }
  destruct S as [post [Sp Lp]]. eexists _, (pend (n_trailer x) (n_best x) (n_cand y)), post. split; [reflexivity|]. rewrite Sp, <- !app_assoc. auto.
Qed.
Theorem nt_later_has_best_effort d opts vs : nhas_best_effort (nevents d (nnew_parser opts) vs) = nopts_best (opts ++ napplied vs).
Proof. destruct (nevents_in_use d _ vs _ _ _ (new_in_use opts)) as [_ B _]. unfold nhas_best_effort. rewrite B. unfold nopts_best. rewrite existsb_app. reflexivity. Qed.
(* so WithBestEffort applied later does not recover anything, although HasBestEffort says yes *)
Theorem nt_later_best_effort_refuted d : exists data,
  nhas_best_effort (nevents d (nnew_parser []) [NApply NOBestEffort]) = true
  /\ nresults (nparse_stream d (nevents d (nnew_parser []) [NApply NOBestEffort]) data AtEOF) <> nfresh d [NOBestEffort] data AtEOF.
Proof.
  exists (lit "<1>1 - - - - - x" ++ ["010"%byte]). split; [reflexivity|]. change [NApply NOBestEffort] with (map NApply [NOBestEffort]). rewrite nt_later_before_streams. cbn [trailers filter app].
  assert (M : Forall (one_message "010"%byte) [lit "<1>1 - - - - - x"]).
  { constructor; [|constructor]. split; [eexists; reflexivity|]. intros a b E. assert (I : In "010"%byte (lit "<1>1 - - - - - x")) by (rewrite E; apply in_or_app; right; left; reflexivity). vm_compute in I. intuition discriminate. }
  change (lit "<1>1 - - - - - x" ++ ["010"%byte]) with (framed "010"%byte [lit "<1>1 - - - - - x"]).
  pose proof (nt_messages d [] _ AtEOF M) as E1. pose proof (nt_messages d [NOBestEffort] _ AtEOF M) as E2. cbv zeta in E1, E2. change (nopts_trailer []) with "010"%byte in E1. change (nopts_trailer [NOBestEffort]) with "010"%byte in E2. rewrite E1, E2. clear E1 E2. intros E.
  apply (f_equal (fun o => match o with Some (NResult (Some _) _ :: _) => true | _ => false end)) in E. vm_compute in E. discriminate E.
Qed.
(* the trailer changed between two streams *)
Example nt_later_ex d : nresults (nparse_stream d (nevents d (nnew_parser [NOTrailer NUL]) [NStream (lit "<1>1 - - - - - -") AtEOF; NApply (NOTrailer LF); NApply (NOMaxLength 1)])
    (lit "<2>1 - - - - - -" ++ ["010"%byte] ++ lit "<3>1 - - - - - - a" ++ [x00] ++ lit "b" ++ ["010"%byte]) (Failed 7))
  = Some [nanswer false (lit "<2>1 - - - - - -"); nanswer false (lit "<3>1 - - - - - - a" ++ [x00] ++ lit "b")].
Proof. destruct d as [[| |] [|] [|]]; vm_compute; reflexivity. Qed.
