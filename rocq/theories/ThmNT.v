(* Theorems about the non-transparent framing transport: C44-C48, C52, C53. *)
From Verif Require Import Bytes CommonFacts GotoLang Common M5424Def M5424 Ref5424c Props5424 Thm5424 SpecOctet NonTransparentBaseDef GenNT ANT MNT SpecNT.
Local Open Scope Z_scope.

(* ---- the state of a parser *)
Record nvok (x : nvars) : Prop := NVok {
  ok_tr : n_typ x = 0 /\ n_trailer x = "010"%byte \/ n_typ x = 1 /\ n_trailer x = x00;
  ok_best : bestEffort (n_internal x) = n_best x;
  ok_comp : compliant (n_internal x) = false }.
Definition conf (x : nvars) := (n_typ x, n_trailer x, n_best x).
Definition kept (x y : nvars) : Prop := nvok y /\ conf y = conf x.
Lemma kept_refl x : nvok x -> kept x x.
Proof. intros H. split; [exact H|reflexivity]. Qed.
Lemma kept_trans x y z : kept x y -> kept y z -> kept x z.
Proof. intros [A B] [C D]. split; [exact C|congruence]. Qed.
Lemma kept_tr x y : kept x y -> n_trailer y = n_trailer x.
Proof. intros [_ H]. unfold conf in H. congruence. Qed.
Lemma kept_bs x y : kept x y -> n_best y = n_best x.
Proof. intros [_ H]. unfold conf in H. congruence. Qed.
Lemma kept_cand x v : nvok x -> kept x (set_n_cand v x).
Proof. intros [A B C]. split; [constructor; assumption|reflexivity]. Qed.
Lemma kept_err x l v : nvok x -> kept x (set_n_err l v x).
Proof. intros [A B C]. split; [constructor; assumption|reflexivity]. Qed.
Lemma kept_out x v : nvok x -> kept x (set_n_out v x).
Proof. intros [A B C]. split; [constructor; assumption|reflexivity]. Qed.

Lemma trailer_not_lt x : nvok x -> n_trailer x <> "<"%byte.
Proof. intros [[[_ ->] | [_ ->]] _ _]; discriminate. Qed.

(* ---- internal.Parse, process *)
Lemma parse_emit_spec text err x : nvok x -> exists y, parse_emit text err x = Some y /\ kept x y
  /\ n_cand y = n_cand x /\ n_rderr y = n_rderr x /\ n_last y = n_last x
  /\ n_out y = n_out x ++ [NResult (fst (answer (n_best x) text))
                             (match snd (answer (n_best x) text) with Some e => Some (NMachine e) | None => option_map NRead err end)].
Proof.
  intros [H0 H1 H2]. unfold parse_emit, answer. destruct (parse_total (n_internal x) text) as [r [e E]].
  rewrite (parse_independent (new_machine (n_best x) false) (n_internal x)); [|rewrite H1; destruct (n_best x); reflexivity|rewrite H2; reflexivity].
  destruct (parse_spec (n_internal x) text) as [_ [F1 F2]]. destruct (parse (n_internal x) text) as [m o]. cbn [fst snd] in *. subst o. cbn [fst snd].
  eexists. split; [reflexivity|]. split; [split; [constructor; cbn; congruence|reflexivity]|]. cbn. repeat split; reflexivity.
Qed.

(* the candidate without its final trailer, if it has one *)
Definition chop (t : byte) (c : bytes) : bytes := match strip1 t c with Some c' => c' | None => [] end.
Lemma chop_trailer t m : chop t (m ++ [t]) = m.
Proof. unfold chop, strip1. rewrite rev_unit. destruct (beqb t t) eqn:E; [apply rev_involutive|]. exfalso. unfold beqb in E. rewrite N.eqb_refl in E. discriminate. Qed.
Lemma chop_other t m b : b <> t -> chop t (m ++ [b]) = m ++ [b].
Proof. intros H. unfold chop, strip1. rewrite rev_unit. destruct (beqb b t) eqn:E; [|reflexivity]. apply beqb_eq in E. congruence. Qed.
Lemma strip1_chop t c : c <> [] -> strip1 t c = Some (chop t c).
Proof. intros H. unfold chop, strip1. destruct (rev c) eqn:E; [|reflexivity]. exfalso. apply H. rewrite <- (rev_involutive c), E. reflexivity. Qed.

(* what a pending candidate gives *)
Definition pend (t : byte) (best : bool) (c : bytes) : list nresult := match c with [] => [] | _ => [nanswer best (chop t c)] end.
Lemma process_spec x : nvok x -> n_cand x <> [] -> exists y, process x = Some y /\ kept x y
  /\ n_cand y = chop (n_trailer x) (n_cand x) /\ n_rderr y = n_rderr x /\ n_last y = n_last x
  /\ n_out y = n_out x ++ pend (n_trailer x) (n_best x) (n_cand x).
Proof.
  intros Hx Hc. unfold process. rewrite (strip1_chop _ _ Hc).
  destruct (parse_emit_spec (chop (n_trailer x) (n_cand x)) None _ (proj1 (kept_cand x (chop (n_trailer x) (n_cand x)) Hx))) as [y [E [K [A [B [C D]]]]]].
  exists y. split; [exact E|]. split; [eapply kept_trans; [|exact K]; apply kept_cand; exact Hx|].
  cbn in A, B, C, D. repeat split; try assumption. rewrite D. unfold pend, nanswer. destruct (n_cand x); [congruence|].
  destruct (snd (answer (n_best x) _)); reflexivity.
Qed.

(* ---- the automaton on a window *)
Notation narun := (arun sem_act sem_cnd ndelta nedelta).
Lemma bN_inj b c : bN b = bN c -> b = c.
Proof. intros H. apply beqb_eq. unfold beqb. rewrite H. apply N.eqb_refl. Qed.
Lemma inside_other data x b p next : nvok x -> b <> n_trailer x -> texec sem_act sem_cnd data (ninside (bN b)) p x next = next N2 x.
Proof.
  intros Hx Hb. unfold ninside. destruct (N.eqb_spec (bN b) 10) as [E|E].
  - cbn [texec sem_cnd]. destruct (ok_tr x Hx) as [[T1 T2] | [T1 T2]]; rewrite T1; [|reflexivity].
    exfalso. apply Hb. rewrite T2. apply bN_inj. exact E.
  - destruct (N.eqb_spec (bN b) 0) as [E'|E']; [|reflexivity].
    cbn [texec sem_cnd]. destruct (ok_tr x Hx) as [[T1 T2] | [T1 T2]]; rewrite T1; [reflexivity|].
    exfalso. apply Hb. rewrite T2. apply bN_inj. exact E'.
Qed.
Lemma inside_trailer data x p next : nvok x ->
  texec sem_act sem_cnd data (ninside (bN (n_trailer x))) p x next = next N3 (set_n_cand (n_cand x ++ data) x).
Proof. intros Hx. destruct (ok_tr x Hx) as [[T1 T2] | [T1 T2]]; rewrite T2; unfold ninside; cbn; rewrite T1; reflexivity. Qed.
Lemma run_inside data x u : nvok x -> ~ In (n_trailer x) u -> forall p, narun data N2 p (u ++ [n_trailer x]) x = Out 3 (set_n_cand (n_cand x ++ data) x).
Proof.
  intros Hx. induction u as [|b u IH]; intros Hu p; cbn [app arun ndelta].
  - rewrite (inside_trailer data x p _ Hx). reflexivity.
  - rewrite (inside_other data x b p _ Hx); [|intros E; apply Hu; left; exact E]. apply IH. intros H. apply Hu. right. exact H.
Qed.
Lemma run_tail data x u : nvok x -> ~ In (n_trailer x) u -> forall p, narun data N2 p u x = Out 2 x.
Proof.
  intros Hx. induction u as [|b u IH]; intros Hu p; cbn [arun ndelta]; [reflexivity|].
  rewrite (inside_other data x b p _ Hx); [|intros E; apply Hu; left; exact E]. apply IH. intros H. apply Hu. right. exact H.
Qed.
(* '<' after a trailer or at the start: the pending candidate is processed *)
Lemma begin_spec data x p next : nvok x -> exists y, kept x y /\ n_cand y = [] /\ n_rderr y = n_rderr x /\ n_last y = n_last x
  /\ n_out y = n_out x ++ pend (n_trailer x) (n_best x) (n_cand x) /\ texec sem_act sem_cnd data nbegin p x next = next N2 y.
Proof.
  intros Hx. unfold nbegin. cbn [texec sem_cnd sem_act].
  destruct (n_cand x) as [|c0 c] eqn:Ec.
  - cbn [length Z.of_nat Z.ltb Z.compare]. exists (set_n_cand [] x). split; [apply kept_cand; exact Hx|]. cbn [pend]. rewrite app_nil_r. repeat split; reflexivity.
  - assert (Hc : n_cand x <> []) by congruence. destruct (process_spec x Hx Hc) as [y [E [K [A [B [C D]]]]]]. rewrite E.
    exists (set_n_cand [] y). split; [eapply kept_trans; [exact K|apply kept_cand; apply K]|].
    split; [reflexivity|]. split; [exact B|]. split; [exact C|]. split; [cbn; rewrite D, Ec; reflexivity|].
    replace (0 <? Z.of_nat (length (c0 :: c))) with true by (symmetry; apply Z.ltb_lt; cbn [length]; lia). reflexivity.
Qed.

Lemma nexec_run s w x : nexec (nnum s) w x = match narun w s 0 w x with Out cs y => Some (cs, y) | _ => None end.
Proof. unfold nexec. rewrite exec_runN. reflexivity. Qed.

(* a window starting with '<' *)
Lemma window_first cs w u x : nvok x -> cs = 1%N \/ cs = 3%N -> w = "<"%byte :: u ++ [n_trailer x] -> ~ In (n_trailer x) u ->
  exists y, nexec cs w x = Some (3%N, y) /\ kept x y /\ n_cand y = w /\ n_rderr y = n_rderr x /\ n_last y = n_last x
  /\ n_out y = n_out x ++ pend (n_trailer x) (n_best x) (n_cand x).
Proof.
  intros Hx Hcs Ew Hu.
  assert (G : forall s, s = N1 \/ s = N3 -> exists y, narun w s 0 w x = Out 3 y /\ kept x y /\ n_cand y = w /\ n_rderr y = n_rderr x /\ n_last y = n_last x
     /\ n_out y = n_out x ++ pend (n_trailer x) (n_best x) (n_cand x)).
  { intros s Hs.
    destruct (begin_spec w x 0 (fun s' x' => narun w s' (0 + 1) (u ++ [n_trailer x]) x') Hx) as [z [K [A [B [C [D E]]]]]].
    exists (set_n_cand w z). split; [|split; [eapply kept_trans; [exact K|apply kept_cand; apply K]|repeat split; assumption]].
    transitivity (texec sem_act sem_cnd w nbegin 0 x (fun s' x' => narun w s' (0 + 1) (u ++ [n_trailer x]) x')).
    { rewrite Ew at 2. destruct Hs; subst s; reflexivity. }
    rewrite E, <- (kept_tr _ _ K).
    rewrite (run_inside w z u (proj1 K)); [|rewrite (kept_tr _ _ K); exact Hu]. rewrite A. reflexivity. }
  destruct Hcs as [-> | ->].
  - destruct (G N1 (or_introl eq_refl)) as [y [E R]]. exists y. split; [|exact R]. change 1%N with (nnum N1). rewrite nexec_run, E. reflexivity.
  - destruct (G N3 (or_intror eq_refl)) as [y [E R]]. exists y. split; [|exact R]. change 3%N with (nnum N3) at 1. rewrite nexec_run, E. reflexivity.
Qed.
(* a window that continues a message *)
Lemma window_next w u x : nvok x -> w = u ++ [n_trailer x] -> ~ In (n_trailer x) u -> (forall v, u <> "<"%byte :: v) ->
  nexec 3 w x = Some (3%N, set_n_cand (n_cand x ++ w) x).
Proof.
  intros Hx Ew Hu Hlt. change 3%N with (nnum N3) at 1. rewrite nexec_run.
  destruct u as [|b u].
  - cbn [app] in Ew. rewrite Ew at 2. cbn [arun ndelta].
    destruct (N.eqb_spec (bN (n_trailer x)) 60) as [E|E]; [exfalso; apply (trailer_not_lt x Hx); apply bN_inj; exact E|].
    rewrite (inside_trailer w x 0 _ Hx). reflexivity.
  - cbn [app] in Ew. rewrite Ew at 2. cbn [arun ndelta].
    destruct (N.eqb_spec (bN b) 60) as [E|E]; [exfalso; apply (Hlt u); f_equal; apply bN_inj; exact E|].
    rewrite (inside_other w x b 0 _ Hx); [|intros E'; apply Hu; left; exact E'].
    rewrite (run_inside w x u Hx); [reflexivity|]. intros H. apply Hu. right. exact H.
Qed.

(* ---- the windows of a stream *)
Lemma beqb_refl t : beqb t t = true.
Proof. unfold beqb. apply N.eqb_refl. Qed.
Lemma windows_app t a b : windows t (a ++ t :: b) = (fst (windows t (a ++ [t])) ++ fst (windows t b), snd (windows t b)).
Proof.
  induction a as [|c a IH]; cbn [app windows].
  - rewrite beqb_refl. destruct (windows t b); reflexivity.
  - rewrite IH. destruct (windows t (a ++ [t])) as [ws r] eqn:E. cbn [fst snd]. destruct (beqb c t); [reflexivity|].
    destruct ws as [|w ws].
    + exfalso. clear -E. revert r E. induction a as [|c a IH]; intros r E; cbn [app windows] in E.
      * rewrite beqb_refl in E. discriminate.
      * destruct (windows t (a ++ [t])) as [ws r']. destruct (beqb c t); [discriminate|]. destruct ws; [eapply IH; reflexivity|discriminate].
    + reflexivity.
Qed.
Lemma windows_none t a : ~ In t a -> windows t a = ([], a).
Proof.
  induction a as [|c a IH]; intros H; cbn [windows]; [reflexivity|]. rewrite IH; [|intros H'; apply H; right; exact H'].
  destruct (beqb c t) eqn:E; [|reflexivity]. apply beqb_eq in E. exfalso. apply H. left. exact E.
Qed.
Definition window_ok (t : byte) (w : bytes) : Prop := exists u, w = u ++ [t] /\ ~ In t u.
Lemma windows_spec t data : concat (fst (windows t data)) ++ snd (windows t data) = data
  /\ Forall (window_ok t) (fst (windows t data)) /\ ~ In t (snd (windows t data)).
Proof.
  induction data as [|c a [IH1 [IH2 IH3]]]; cbn [windows].
  - cbn. repeat split; [constructor|tauto].
  - destruct (windows t a) as [ws r]. cbn [fst snd] in *. destruct (beqb c t) eqn:E.
    + apply beqb_eq in E. subst c. cbn [fst snd concat app]. repeat split; [f_equal; exact IH1| |exact IH3].
      apply Forall_cons; [|exact IH2]. exists []. split; [reflexivity|cbn; tauto].
    + assert (Hc : c <> t) by (intros ->; rewrite beqb_refl in E; discriminate).
      destruct ws as [|w ws]; cbn [fst snd concat app] in *.
      * repeat split; [f_equal; exact IH1|constructor|]. intros [H|H]; [congruence|tauto].
      * repeat split; [f_equal; exact IH1| |exact IH3]. inversion IH2 as [|? ? [u [-> Hu]] HF]; subst.
        apply Forall_cons; [|exact HF]. exists (c :: u). split; [reflexivity|]. intros [H|H]; [congruence|tauto].
Qed.
Lemma windows_last t a : snd (windows t (a ++ [t])) = [].
Proof. rewrite windows_app. reflexivity. Qed.

(* the windows of one message *)
Lemma infix_no_lt t m (ws : list bytes) : t <> "<"%byte -> one_message t m -> concat ws = m ++ [t] -> Forall (window_ok t) ws ->
  exists w r, ws = w :: r /\ (exists u, w = "<"%byte :: u ++ [t] /\ ~ In t u)
    /\ Forall (fun w => exists u, w = u ++ [t] /\ ~ In t u /\ forall v, u <> "<"%byte :: v) r.
Proof.
  intros Ht [[u Em] Hm] Hc HF. destruct ws as [|w r].
  { cbn in Hc. rewrite Em in Hc. discriminate. }
  exists w, r. split; [reflexivity|]. destruct (Forall_inv HF) as [v [Ew Hv]]. pose proof (Forall_inv_tail HF) as HF'. subst w. cbn [concat] in Hc. split.
  - destruct v as [|b v].
    + exfalso. rewrite Em in Hc. cbn in Hc. injection Hc as Hc _. congruence.
    + exists v. rewrite Em in Hc. cbn [app] in Hc. injection Hc as Hb Hc. subst b. split; [reflexivity|]. intros Hin. apply Hv. right. exact Hin.
  - clear HF. assert (G : forall pre, pre <> [] -> (exists q, pre = q ++ [t]) -> pre ++ concat r = m ++ [t] ->
       Forall (fun w => exists u, w = u ++ [t] /\ ~ In t u /\ forall v, u <> "<"%byte :: v) r).
    { clear Hc. induction HF' as [|w0 r [v0 [-> Hv0]] HF IH]; intros pre Hp [q Eq] Hc; [constructor|]. apply Forall_cons.
      - exists v0. repeat split; [exact Hv0|]. intros z Ez. subst v0. cbn [concat] in Hc. subst pre.
        assert (Hc' : (q ++ t :: "<"%byte :: nil) ++ (z ++ [t] ++ concat r) = m ++ [t]).
        { rewrite <- Hc. rewrite <- !app_assoc. cbn [app]. rewrite <- ?app_assoc. cbn [app]. rewrite <- ?app_assoc. reflexivity. }
        destruct (@exists_last _ (z ++ [t] ++ concat r)) as [z' [c Ez']]; [destruct z; discriminate|].
        rewrite Ez', app_assoc in Hc'. apply app_inj_tail in Hc' as [Hc' _]. apply (Hm q z'). rewrite <- Hc', <- app_assoc. reflexivity.
      - apply (IH (pre ++ v0 ++ [t])).
        + rewrite Eq; destruct q; discriminate.
        + exists (pre ++ v0). rewrite app_assoc. reflexivity.
        + cbn [concat] in Hc. rewrite <- Hc, <- !app_assoc. reflexivity. }
    apply (G (v ++ [t])); [destruct v; discriminate|exists v; reflexivity|exact Hc].
Qed.

Lemma exec_windows_app d ws : forall cs x cs' y ws', exec_windows d cs ws x = Some (cs', false, y) ->
  exec_windows d cs (ws ++ ws') x = exec_windows d cs' ws' y.
Proof.
  induction ws as [|w ws IH]; intros cs x cs' y ws' H; cbn [app exec_windows] in *.
  - injection H as <- <-. reflexivity.
  - destruct (nexec cs w x) as [[cs1 x1]|]; [|discriminate]. destruct (cs1 =? 0)%N; [destruct (d_fsm_error d); try discriminate|]; apply IH; exact H.
Qed.
Lemma exec_nexts d r : forall x, nvok x -> Forall (fun w => exists u, w = u ++ [n_trailer x] /\ ~ In (n_trailer x) u /\ forall v, u <> "<"%byte :: v) r ->
  exec_windows d 3 r x = Some (3%N, false, set_n_cand (n_cand x ++ concat r) x).
Proof.
  induction r as [|w r IH]; intros x Hx HF; cbn [exec_windows concat].
  - rewrite app_nil_r. destruct x; reflexivity.
  - inversion HF as [|? ? [u [Ew [Hu Hlt]]] HF']; subst. rewrite (window_next (u ++ [n_trailer x]) u x Hx eq_refl Hu Hlt). cbn [N.eqb].
    rewrite (IH (set_n_cand (n_cand x ++ u ++ [n_trailer x]) x)); [|apply kept_cand; exact Hx|exact HF'].
    cbn. rewrite <- !app_assoc. reflexivity.
Qed.
Lemma exec_message d cs m x : nvok x -> cs = 1%N \/ cs = 3%N -> one_message (n_trailer x) m ->
  exists y, exec_windows d cs (fst (windows (n_trailer x) (m ++ [n_trailer x]))) x = Some (3%N, false, y) /\ kept x y
    /\ n_cand y = m ++ [n_trailer x] /\ n_rderr y = n_rderr x /\ n_last y = n_last x
    /\ n_out y = n_out x ++ pend (n_trailer x) (n_best x) (n_cand x).
Proof.
  intros Hx Hcs Hm. destruct (windows_spec (n_trailer x) (m ++ [n_trailer x])) as [W1 [W2 _]].
  rewrite windows_last, app_nil_r in W1.
  destruct (infix_no_lt _ _ _ (trailer_not_lt x Hx) Hm W1 W2) as [w [r [Ews [[u [Ew Hu]] HF]]]]. rewrite Ews in *.
  destruct (window_first cs w u x Hx Hcs Ew Hu) as [z [E [K [A [B [C D]]]]]].
  exists (set_n_cand (n_cand z ++ concat r) z). cbn [exec_windows]. rewrite E. cbn [N.eqb].
  rewrite (exec_nexts d r z (proj1 K)).
  - split; [reflexivity|]. split; [eapply kept_trans; [exact K|apply kept_cand; apply K]|]. cbn. rewrite A.
    cbn [concat] in W1. repeat split; assumption.
  - rewrite (kept_tr _ _ K). exact HF.
Qed.
Lemma exec_messages d ms : forall cs x, nvok x -> cs = 1%N \/ cs = 3%N -> Forall (one_message (n_trailer x)) ms ->
  exists cs' y, exec_windows d cs (fst (windows (n_trailer x) (framed (n_trailer x) ms))) x = Some (cs', false, y) /\ kept x y
    /\ cs' = match ms with [] => cs | _ => 3%N end
    /\ n_cand y = (match ms with [] => n_cand x | _ => last ms [] ++ [n_trailer x] end) /\ n_rderr y = n_rderr x /\ n_last y = n_last x
    /\ n_out y ++ pend (n_trailer x) (n_best x) (n_cand y)
       = n_out x ++ pend (n_trailer x) (n_best x) (n_cand x) ++ map (nanswer (n_best x)) ms.
Proof.
  induction ms as [|m ms IH]; intros cs x Hx Hcs HF.
  - exists cs, x. cbn. rewrite app_nil_r. repeat split; auto; try apply kept_refl; auto; apply Hx.
  - inversion HF as [|? ? Hm HF']; subst.
    destruct (exec_message d cs m x Hx Hcs Hm) as [z [E [K [A [B [C D]]]]]].
    rewrite <- (kept_tr _ _ K) in HF'. destruct (IH 3%N z (proj1 K) (or_intror eq_refl) HF') as [cs' [y [E' [K' [Ecs [A' [B' [C' D']]]]]]]].
    rewrite (kept_tr _ _ K) in *. rewrite (kept_bs _ _ K) in *.
    exists cs', y. split; [|split; [eapply kept_trans; eassumption|]].
    + unfold framed. cbn [map concat]. rewrite <- app_assoc. cbn [app]. rewrite windows_app. cbn [fst].
      rewrite (exec_windows_app d _ _ _ _ _ _ E). exact E'.
    + split; [destruct ms; exact Ecs|]. split; [destruct ms; [rewrite A', A; reflexivity|exact A']|]. split; [congruence|]. split; [congruence|].
      rewrite D', D. rewrite <- app_assoc. f_equal. cbn [map]. rewrite A. f_equal. unfold pend.
      rewrite chop_trailer. destruct (m ++ [n_trailer x]) eqn:Em; [destruct m; discriminate|reflexivity].
Qed.

(* every stream that starts with '<' is a list of messages and some bytes without a trailer *)
Lemma group t ws : t <> "<"%byte -> Forall (window_ok t) ws -> forall c v, concat ws = c :: v -> c = "<"%byte ->
  exists ms, concat ws = framed t ms /\ Forall (one_message t) ms /\ ms <> [].
Proof.
  intros Ht. induction ws as [|w ws IH] using rev_ind; intros HF c v Ec Hc; [discriminate|].
  apply Forall_app in HF as [HF Hw]. inversion Hw as [|? ? [u [Ew Hu]] _]; subst w c. rewrite concat_app in *. cbn [concat] in *. rewrite app_nil_r in *.
  destruct ws as [|w0 ws0].
  - cbn [concat app] in *. exists [u]. unfold framed. cbn. rewrite app_nil_r. split; [reflexivity|]. split; [|discriminate].
    apply Forall_cons; [|constructor]. split.
    + destruct u as [|b u]; [cbn in Ec; injection Ec as Ec _; congruence|]. cbn in Ec. injection Ec as -> _. exists u. reflexivity.
    + intros a b E. apply Hu. rewrite E. apply in_or_app. right. left. reflexivity.
  - set (ws := w0 :: ws0) in *.
    assert (Hws : exists v', concat ws = "<"%byte :: v').
    { inversion HF as [|? ? [u0 [Eu _]] _]; subst. unfold ws in *. cbn [concat] in *. destruct u0 as [|b u0]; cbn in *; injection Ec as Eb _; [congruence|].
      eexists. rewrite Eb. reflexivity. }
    destruct Hws as [v' Ev']. destruct (IH HF _ _ Ev' eq_refl) as [ms [E [HM Hne]]].
    assert (D : (exists u', u = "<"%byte :: u') \/ forall u', u <> "<"%byte :: u').
    { destruct u as [|b u']; [right; discriminate|]. destruct (beqb b "<") eqn:Eb; [apply beqb_eq in Eb; subst b; left; exists u'; reflexivity|].
      right. intros u1 E1. injection E1 as -> _. discriminate Eb. }
    destruct D as [[u' Eu]|D].
    + exists (ms ++ [u]). rewrite E. unfold framed. rewrite map_app, concat_app. cbn. rewrite app_nil_r. split; [reflexivity|]. split; [|destruct ms; discriminate].
      apply Forall_app. split; [exact HM|]. apply Forall_cons; [|constructor]. split; [exists u'; exact Eu|].
      intros a b E1. apply Hu. rewrite E1. apply in_or_app. right. left. reflexivity.
    + destruct (exists_last Hne) as [ms0 [m Em]]. subst ms. apply Forall_app in HM as [HM Hm]. inversion Hm as [|? ? [[um Eum] Hm'] _]; subst.
      exists (ms0 ++ [("<"%byte :: um) ++ t :: u]). rewrite E. unfold framed. rewrite !map_app, !concat_app. cbn [map concat]. rewrite !app_nil_r.
      split; [rewrite <- !app_assoc; cbn [app]; repeat f_equal; rewrite <- app_assoc; reflexivity|]. split; [|destruct ms0; discriminate].
      apply Forall_app. split; [exact HM|]. apply Forall_cons; [|constructor]. split; [eexists; reflexivity|].
      intros a b E1. apply app_eq_app in E1 as [l [[E1 E2] | [E1 E2]]].
      * destruct l as [|c1 l].
        { cbn in E2. injection E2 as E2. apply (D b). symmetry. exact E2. }
        cbn in E2. injection E2 as <- E2. destruct l as [|c2 l].
        { cbn in E2. injection E2 as E2 _. congruence. }
        cbn in E2. injection E2 as <- E2. apply (Hm' a l). exact E1.
      * destruct l as [|c1 l]; cbn in E2.
        { injection E2 as E2. apply (D b). exact E2. }
        injection E2 as _ E2. apply Hu. rewrite E2. apply in_or_app. right. left. reflexivity.
Qed.

(* C44: the streams covered by the theorems below are all the streams starting with '<' *)
Theorem nt_decompose t data : t = "010"%byte \/ t = x00 -> (exists u, data = "<"%byte :: u) ->
  exists ms rest, data = framed t ms ++ rest /\ Forall (one_message t) ms /\ ~ In t rest.
Proof.
  intros Ht [u Eu]. assert (Ht' : t <> "<"%byte) by (destruct Ht as [-> | ->]; discriminate).
  destruct (windows_spec t data) as [W1 [W2 W3]]. destruct (windows t data) as [ws rest]. cbn [fst snd] in *.
  destruct ws as [|w ws].
  - exists [], rest. cbn in *. repeat split; [congruence|constructor|exact W3].
  - assert (exists v, concat (w :: ws) = "<"%byte :: v) as [v Ev].
    { cbn [concat] in *. inversion W2 as [|? ? [u0 [Ew _]] _]; subst w. rewrite <- W1 in Eu. destruct u0 as [|b u0]; cbn in *; injection Eu as Eb _; [congruence|subst b; eexists; reflexivity]. }
    destruct (group t (w :: ws) Ht' W2 _ _ Ev eq_refl) as [ms [E [HM _]]]. exists ms, rest. rewrite <- E. repeat split; [congruence|exact HM|exact W3].
Qed.

(* ---- the end of a stream *)
(* what the stored last chunk gives *)
Definition chunk_result (best : bool) (l : bytes) (e : option rderr) : list nresult :=
  match e, l with Some e, _ :: _ => [nanswer_tail best l e] | _, _ => [] end.
Lemma completion_spec x : nvok x -> exists y, on_completion x = Some y /\ kept x y
  /\ n_cand y = chop (n_trailer x) (n_cand x) /\ n_rderr y = n_rderr x /\ n_last y = n_last x
  /\ n_out y = n_out x ++ pend (n_trailer x) (n_best x) (n_cand x) ++ chunk_result (n_best x) (n_last x) (n_rderr x).
Proof.
  intros Hx. unfold on_completion.
  assert (G : exists z, (if 0 <? Z.of_nat (length (n_cand x)) then process x else Some x) = Some z /\ kept x z
     /\ n_cand z = chop (n_trailer x) (n_cand x) /\ n_rderr z = n_rderr x /\ n_last z = n_last x /\ n_out z = n_out x ++ pend (n_trailer x) (n_best x) (n_cand x)).
  { destruct (n_cand x) as [|c0 c] eqn:Ec.
    - exists x. cbn. rewrite app_nil_r, Ec. repeat split; auto; apply Hx.
    - assert (Hc : n_cand x <> []) by congruence. destruct (process_spec x Hx Hc) as [z [E R]]. exists z.
      replace (0 <? Z.of_nat (length (c0 :: c))) with true by (symmetry; apply Z.ltb_lt; cbn [length]; lia). rewrite Ec in R. split; assumption. }
  destruct G as [z [-> [K [A [B [C D]]]]]].
  destruct (n_rderr z) as [e|] eqn:Er.
  - destruct (n_last z) as [|l0 l] eqn:El.
    + cbn [length Z.of_nat Z.ltb Z.compare]. exists z. rewrite <- B, <- C. cbn. rewrite app_nil_r. repeat split; try assumption; apply K.
    + replace (0 <? Z.of_nat (length (l0 :: l))) with true by (symmetry; apply Z.ltb_lt; cbn [length]; lia).
      destruct (parse_emit_spec (l0 :: l) (Some e) z (proj1 K)) as [y [E [K' [A' [B' [C' D']]]]]]. exists y. split; [exact E|].
      split; [eapply kept_trans; eassumption|]. split; [congruence|]. split; [congruence|]. split; [congruence|].
      rewrite D', D, <- app_assoc, <- B, <- C, (kept_bs _ _ K). do 2 f_equal. cbn [chunk_result]. unfold nanswer_tail.
      destruct (snd (answer (n_best x) (l0 :: l))); reflexivity.
  - exists z. rewrite <- B. cbn. rewrite app_nil_r. repeat split; try assumption; apply K.
Qed.

(* the last chunk and reading error stored when a stream with the bytes rest after its last trailer ends *)
Definition stored (d : driver) (rest : bytes) (e : ending) (x : nvars) : bytes * option rderr :=
  match rest, e with
  | [], AtEOF => if d_clean_end_is_error d then ([], Some (reading_error e)) else (n_last x, n_rderr x)
  | _, _ => (rest, Some (reading_error e))
  end.
Lemma finish_spec d z rest e (x : nvars) : nvok z -> n_last z = n_last x -> n_rderr z = n_rderr x ->
  exists y, on_completion (end_of_stream d rest e z) = Some y /\ kept z y
  /\ n_cand y = chop (n_trailer z) (n_cand z) /\ (n_last y, n_rderr y) = stored d rest e x
  /\ n_out y = n_out z ++ pend (n_trailer z) (n_best z) (n_cand z) ++ chunk_result (n_best z) (fst (stored d rest e x)) (snd (stored d rest e x)).
Proof.
  intros Hz El Er. set (w := end_of_stream d rest e z).
  assert (Hw : kept z w /\ n_cand w = n_cand z /\ n_out w = n_out z /\ (n_last w, n_rderr w) = stored d rest e x).
  { unfold w, end_of_stream, stored, on_err, on_eof. destruct rest; [destruct e; [destruct (d_clean_end_is_error d)|]|];
      (split; [try apply kept_err; try apply kept_refl; exact Hz|]); cbn; repeat split; congruence. }
  destruct Hw as [K [A [B C]]]. destruct (completion_spec w (proj1 K)) as [y [E [K' [A' [B' [C' D']]]]]].
  exists y. split; [exact E|]. split; [eapply kept_trans; eassumption|]. rewrite (kept_tr _ _ K), (kept_bs _ _ K) in *. rewrite A, B in *.
  split; [congruence|]. rewrite <- C. cbn [fst snd]. split; [congruence|]. exact D'.
Qed.

Definition starts_lt (l : bytes) : bool := match l with b :: _ => beqb b "<" | [] => false end.
(* Exec on the bytes after the last trailer *)
Lemma tail_spec cs rest z : nvok z -> ~ In (n_trailer z) rest -> rest <> [] -> (cs = 3%N \/ cs = 1%N) ->
  exists cs' y, nexec cs rest z = Some (cs', y) /\ kept z y /\ n_rderr y = n_rderr z /\ n_last y = n_last z
    /\ n_cand y = (if starts_lt rest then [] else n_cand z)
    /\ n_out y ++ pend (n_trailer z) (n_best z) (n_cand y) = n_out z ++ pend (n_trailer z) (n_best z) (n_cand z).
Proof.
  intros Hz Hr Hne Hcs. destruct rest as [|b u]; [congruence|]. cbn [starts_lt].
  assert (Hu : ~ In (n_trailer z) u) by (intros H; apply Hr; right; exact H).
  destruct (beqb b "<") eqn:Eb.
  - apply beqb_eq in Eb. subst b.
    destruct (begin_spec ("<"%byte :: u) z 0 (fun s' x' => narun ("<"%byte :: u) s' (0 + 1) u x') Hz) as [y [K [A [B [C [D E]]]]]].
    exists 2%N, y. split.
    + assert (G : forall s, s = N1 \/ s = N3 -> nexec (nnum s) ("<"%byte :: u) z = Some (2%N, y)).
      { intros s Hs. rewrite nexec_run.
        transitivity (match texec sem_act sem_cnd ("<"%byte :: u) nbegin 0 z (fun s' x' => narun ("<"%byte :: u) s' (0 + 1) u x') with Out cs y => Some (cs, y) | _ => None end).
        { destruct Hs; subst s; reflexivity. }
        rewrite E, run_tail; [reflexivity|apply K|]. rewrite (kept_tr _ _ K). exact Hu. }
      destruct Hcs as [-> | ->]; [apply (G N3); right; reflexivity|apply (G N1); left; reflexivity].
    + rewrite A, D. cbn [pend]. rewrite app_nil_r. repeat split; try assumption; apply K.
  - assert (Hb : (bN b =? 60)%N = false). { destruct (N.eqb_spec (bN b) 60) as [H|H]; [|reflexivity]. rewrite <- Eb. symmetry. unfold beqb. rewrite H. reflexivity. }
    destruct Hcs as [-> | ->].
    + exists 2%N, z. split; [|repeat split; auto; apply Hz]. change 3%N with (nnum N3). rewrite nexec_run. cbn [arun ndelta]. rewrite Hb.
      rewrite (inside_other _ z b 0 _ Hz); [|intros H; apply Hr; left; exact H]. rewrite run_tail; [reflexivity|exact Hz|exact Hu].
    + exists 0%N, z. split; [|repeat split; auto; apply Hz]. change 1%N with (nnum N1). rewrite nexec_run. cbn [arun ndelta]. rewrite Hb. reflexivity.
Qed.

(* the driver after the windows *)
Lemma drive_end d x data e cs z : nvok z -> kept x z ->
  exec_windows d 1 (fst (windows (n_trailer x) data)) x = Some (cs, false, z) -> (cs = 3%N \/ cs = 1%N) ->
  n_last z = n_last x -> n_rderr z = n_rderr x ->
  let rest := snd (windows (n_trailer x) data) in
  exists y, drive d x data e = Some y /\ kept x y
    /\ n_cand y = (if d_exec_tail d && starts_lt rest then [] else chop (n_trailer x) (n_cand z))
    /\ (n_last y, n_rderr y) = stored d rest e x
    /\ n_out y = n_out z ++ pend (n_trailer x) (n_best x) (n_cand z) ++ chunk_result (n_best x) (fst (stored d rest e x)) (snd (stored d rest e x)).
Proof.
  intros Hz K E Hcs El Er rest. unfold drive. pose proof (proj2 (proj2 (windows_spec (n_trailer x) data))) as Hr.
  unfold rest. clear rest. destruct (windows (n_trailer x) data) as [ws rest]. cbn [fst snd] in *. rewrite E.
  assert (G : exists cs' w, exec_rest d cs rest z = Some (cs', w) /\ kept z w
     /\ n_rderr w = n_rderr z /\ n_last w = n_last z /\ n_cand w = (if d_exec_tail d && starts_lt rest then [] else n_cand z)
     /\ n_out w ++ pend (n_trailer z) (n_best z) (n_cand w) = n_out z ++ pend (n_trailer z) (n_best z) (n_cand z)).
  { unfold exec_rest. destruct rest as [|b u]; [exists cs, z; rewrite andb_false_r; repeat split; auto; apply Hz|].
    destruct (d_exec_tail d); [|exists cs, z; repeat split; auto; apply Hz].
    apply tail_spec; [exact Hz|rewrite (kept_tr _ _ K); exact Hr|discriminate|exact Hcs]. }
  destruct G as [cs' [w [Ew [K' [A [B [C D]]]]]]]. rewrite Ew.
  destruct (finish_spec d w rest e x (proj1 K')) as [y [Ey [K'' [A' [B' C']]]]]; [congruence|congruence|].
  exists y. split; [exact Ey|]. split; [eapply kept_trans; [exact K|eapply kept_trans; eassumption]|].
  rewrite (kept_tr _ _ K'), (kept_bs _ _ K') in *. rewrite (kept_tr _ _ K), (kept_bs _ _ K) in *.
  split; [rewrite A', C; destruct (d_exec_tail d && starts_lt rest); reflexivity|]. split; [exact B'|].
  rewrite C', app_assoc, D, <- app_assoc. reflexivity.
Qed.

(* The general statement, for a parser in any state: a candidate left by an earlier stream is emitted first, then one result per message,
   then the bytes after the last trailer, or the last chunk kept from an earlier stream. *)
Theorem nt_stream d x ms rest e : nvok x -> Forall (one_message (n_trailer x)) ms -> ~ In (n_trailer x) rest ->
  exists y, nparse_stream d x (framed (n_trailer x) ms ++ rest) e
      = Some (pend (n_trailer x) (n_best x) (n_cand x) ++ map (nanswer (n_best x)) ms
              ++ chunk_result (n_best x) (fst (stored d rest e x)) (snd (stored d rest e x)), y)
    /\ kept x y
    /\ n_cand y = (if d_exec_tail d && starts_lt rest then [] else match ms with [] => chop (n_trailer x) (n_cand x) | _ => last ms [] end)
    /\ (n_last y, n_rderr y) = stored d rest e x.
Proof.
  intros Hx HF Hr. unfold nparse_stream. set (x0 := set_n_out [] x).
  assert (Hx0 : nvok x0) by (apply kept_out; exact Hx).
  assert (Ew : windows (n_trailer x0) (framed (n_trailer x) ms ++ rest) = (fst (windows (n_trailer x) (framed (n_trailer x) ms)), rest)).
  { change (n_trailer x0) with (n_trailer x). clear HF. induction ms as [|m ms IH]; [apply windows_none; exact Hr|].
    unfold framed. cbn [map concat]. rewrite <- !app_assoc. cbn [app]. fold (framed (n_trailer x) ms). rewrite (windows_app _ m (framed (n_trailer x) ms ++ rest)), (windows_app _ m (framed (n_trailer x) ms)), IH. reflexivity. }
  destruct (exec_messages d ms 1 x0 Hx0 (or_introl eq_refl) HF) as [cs [z [E [K [Ecs [A [B [C D]]]]]]]].
  destruct (drive_end d x0 (framed (n_trailer x) ms ++ rest) e cs z (proj1 K) K) as [y [Ey [K' [A' [B' C']]]]].
  - rewrite Ew. exact E.
  - rewrite Ecs. destruct ms; [right|left]; reflexivity.
  - exact C.
  - exact B.
  - rewrite Ey. exists y. split; [|split; [eapply kept_trans; [apply kept_out; exact Hx|exact K']|]].
    + rewrite Ew in C'. cbn [snd] in C'. rewrite C', app_assoc. change (n_trailer x0) with (n_trailer x) in *. change (n_best x0) with (n_best x) in *.
      rewrite D. change (n_out x0) with (@nil nresult). cbn [app]. rewrite <- app_assoc. reflexivity.
    + rewrite Ew in A', B'. cbn [snd] in A', B'. split; [|exact B']. rewrite A', A. destruct ms; [reflexivity|].
      change (n_trailer x0) with (n_trailer x). rewrite chop_trailer. reflexivity.
Qed.

(* ---- streams that contain a trailer and do not start with '<' *)
Lemma nexec_dead w x : nexec 0 w x = Some (0%N, x).
Proof. change 0%N with (nnum N0). rewrite nexec_run. destruct w; reflexivity. Qed.
Lemma nexec_refused w x : w <> [] -> starts_lt w = false -> nexec 1 w x = Some (0%N, x).
Proof.
  intros Hw Hs. change 1%N with (nnum N1). rewrite nexec_run. destruct w as [|b w]; [congruence|]. cbn [arun ndelta].
  destruct (N.eqb_spec (bN b) 60) as [E|E]; [|reflexivity]. exfalso. cbn in Hs. unfold beqb in Hs. rewrite E in Hs. discriminate.
Qed.
Lemma exec_dead d ws x : d_fsm_error d = Continue -> exec_windows d 0 ws x = Some (0%N, false, x).
Proof. intros Hd. induction ws as [|w ws IH]; cbn [exec_windows]; [reflexivity|]. rewrite nexec_dead. cbn [N.eqb]. rewrite Hd. exact IH. Qed.

(* a ++ [t] is the first window, rest what follows the last trailer *)
Theorem nt_refused d x a b rest e : nvok x -> ~ In (n_trailer x) a -> starts_lt a = false -> snd (windows (n_trailer x) b) = rest ->
  exists y, nparse_stream d x (a ++ n_trailer x :: b) e
      = Some (pend (n_trailer x) (n_best x) (n_cand x) ++
              match d_fsm_error d with
              | Continue => chunk_result (n_best x) (fst (stored d rest e x)) (snd (stored d rest e x))
              | Stop => chunk_result (n_best x) (n_last x) (n_rderr x)
              | StopErr => [nanswer_tail (n_best x) (a ++ [n_trailer x]) RdFsm] end, y)
    /\ kept x y.
Proof.
  intros Hx Ha Hlt Hrest. unfold nparse_stream. set (x0 := set_n_out [] x).
  assert (Hx0 : nvok x0) by (apply kept_out; exact Hx).
  unfold drive. change (n_trailer x0) with (n_trailer x). rewrite windows_app, Hrest.
  assert (Ew : fst (windows (n_trailer x) (a ++ [n_trailer x])) = [a ++ [n_trailer x]]).
  { clear Hlt Hrest. induction a as [|c a IH]; cbn [app windows]; [rewrite beqb_refl; reflexivity|].
    assert (H1 : ~ In (n_trailer x) a) by (intros H; apply Ha; right; exact H). specialize (IH H1).
    pose proof (windows_last (n_trailer x) a) as Hl. destruct (windows (n_trailer x) (a ++ [n_trailer x])) as [ws r]. cbn [fst snd] in *. subst ws r.
    destruct (beqb c (n_trailer x)) eqn:E; [apply beqb_eq in E; exfalso; apply Ha; left; exact E|reflexivity]. }
  rewrite Ew. cbn [app exec_windows].
  rewrite (nexec_refused (a ++ [n_trailer x]) x0); [|destruct a; discriminate|].
  2: { destruct a as [|c a]; cbn; [|exact Hlt]. destruct (beqb (n_trailer x) "<") eqn:E; [|reflexivity]. apply beqb_eq in E. exfalso. apply (trailer_not_lt x Hx). exact E. }
  cbn [N.eqb]. destruct (d_fsm_error d) eqn:Hd.
  - rewrite (exec_dead d _ _ Hd).
    assert (Er : exec_rest d 0 rest x0 = Some (0%N, x0)) by (unfold exec_rest; destruct rest; [|rewrite nexec_dead; destruct (d_exec_tail d)]; reflexivity).
    rewrite Er. destruct (finish_spec d x0 rest e x Hx0 eq_refl eq_refl) as [y [-> [K [_ [_ D]]]]]. exists y.
    split; [rewrite D; reflexivity|]. eapply kept_trans; [apply kept_out; exact Hx|exact K].
  - destruct (completion_spec x0 Hx0) as [y [-> [K [_ [_ [_ D]]]]]]. exists y. split; [rewrite D; reflexivity|]. eapply kept_trans; [apply kept_out; exact Hx|exact K].
  - destruct (completion_spec (on_err (a ++ [n_trailer x]) RdFsm x0)) as [y [-> [K [_ [_ [_ D]]]]]]; [apply kept_err; exact Hx0|]. exists y.
    split; [rewrite D; cbn; destruct a; reflexivity|]. eapply kept_trans; [|exact K]. eapply kept_trans; [apply kept_out; exact Hx|apply kept_err; exact Hx0].
Qed.

(* ---- every stream *)
Lemma nt_cases t data : t = "010"%byte \/ t = x00 ->
  (exists ms rest, data = framed t ms ++ rest /\ Forall (one_message t) ms /\ ~ In t rest)
  \/ (exists a b, data = a ++ t :: b /\ ~ In t a /\ starts_lt a = false).
Proof.
  intros Ht. destruct (starts_lt data) eqn:Hlt.
  - left. apply nt_decompose; [exact Ht|]. destruct data as [|b u]; [discriminate|]. cbn in Hlt. apply beqb_eq in Hlt. subst b. exists u. reflexivity.
  - destruct (windows_spec t data) as [W1 [W2 W3]]. destruct (windows t data) as [[|w ws] rest]; cbn [fst snd concat app] in *.
    + left. exists [], rest. cbn. split; [congruence|]. split; [constructor|exact W3].
    + right. destruct (Forall_inv W2) as [a [Ea Ha]]. subst w. exists a, (concat ws ++ rest). rewrite <- W1, <- !app_assoc. cbn [app].
      split; [reflexivity|]. split; [exact Ha|]. rewrite <- W1 in Hlt. destruct a; [reflexivity|exact Hlt].
Qed.
Lemma nvok_trailer x : nvok x -> n_trailer x = "010"%byte \/ n_trailer x = x00.
Proof. intros [[[_ H] | [_ H]] _ _]; [left|right]; exact H. Qed.
Lemma nt_step d x data e : nvok x -> exists rs y, nparse_stream d x data e = Some (rs, y) /\ kept x y.
Proof.
  intros Hx. destruct (nt_cases (n_trailer x) data (nvok_trailer x Hx)) as [[ms [rest [-> [H1 H2]]]] | [a [b [-> [H1 H2]]]]].
  - destruct (nt_stream d x ms rest e Hx H1 H2) as [y [E [K _]]]. eauto.
  - destruct (nt_refused d x a b _ e Hx H1 H2 eq_refl) as [y [E K]]. eauto.
Qed.

(* ---- the options *)
Lemma nnew_opts opts : nvok (nnew_parser opts) /\ n_trailer (nnew_parser opts) = nopts_trailer opts /\ n_best (nnew_parser opts) = nopts_best opts
  /\ n_cand (nnew_parser opts) = [] /\ n_last (nnew_parser opts) = [] /\ n_rderr (nnew_parser opts) = None.
Proof.
  unfold nnew_parser, nopts_trailer, nopts_best. set (x0 := NVars 0 x00 [] false (new_machine false false) None [] []).
  assert (G : forall x tb, (n_typ x = 0 /\ tb = "010"%byte \/ n_typ x = 1 /\ tb = x00) -> n_cand x = [] -> n_last x = [] -> n_rderr x = None ->
     let y := fold_left napply_opt opts x in
     let tb' := fold_left (fun b o => match o with NOTrailer 0 => "010"%byte | NOTrailer 1 => x00 | _ => b end) opts tb in
     (n_typ y = 0 /\ tb' = "010"%byte \/ n_typ y = 1 /\ tb' = x00) /\ n_cand y = [] /\ n_last y = [] /\ n_rderr y = None
     /\ n_best y = n_best x || existsb (fun o => match o with NOBestEffort => true | _ => false end) opts).
  { induction opts as [|o opts IH]; intros x tb H1 H2 H3 H4; cbn [fold_left existsb]; [cbn zeta; rewrite orb_false_r; auto|].
    assert (H : (n_typ (napply_opt x o) = 0 /\ match o with NOTrailer 0 => "010"%byte | NOTrailer 1 => x00 | _ => tb end = "010"%byte
                 \/ n_typ (napply_opt x o) = 1 /\ match o with NOTrailer 0 => "010"%byte | NOTrailer 1 => x00 | _ => tb end = x00)
                /\ n_cand (napply_opt x o) = [] /\ n_last (napply_opt x o) = [] /\ n_rderr (napply_opt x o) = None
                /\ n_best (napply_opt x o) = n_best x || match o with NOBestEffort => true | _ => false end).
    { destruct o as [| |n|t]; cbn; rewrite ?orb_false_r, ?orb_true_r; auto.
      unfold tt_value, LF, NUL. destruct t as [|[p|p|]|p]; cbn; auto. }
    destruct H as [A [B [C [D F]]]]. specialize (IH _ _ A B C D). cbn zeta in *. destruct IH as [I1 [I2 [I3 [I4 I5]]]].
    repeat split; try assumption. rewrite I5, F, orb_assoc. reflexivity. }
  specialize (G x0 "010"%byte (or_introl (conj eq_refl eq_refl)) eq_refl eq_refl eq_refl). cbn zeta in G. destruct G as [A [B [C [D F]]]].
  set (y := fold_left napply_opt opts x0) in *. cbn [n_typ n_trailer n_cand n_best n_last n_rderr n_internal].
  assert (T : forall tb, (n_typ y = 0 /\ tb = "010"%byte \/ n_typ y = 1 /\ tb = x00) -> mk_byte (match tt_value (n_typ y) with Some v => Z.to_N v | None => 255%N end) = tb).
  { intros tb [[E1 E2] | [E1 E2]]; rewrite E1, E2; reflexivity. }
  rewrite (T _ A). repeat split; auto; try (destruct (n_best y); reflexivity).
Qed.
(* C52 for this transport: the options in any order; WithMaxMessageLength and an unknown trailer change nothing *)
Theorem nt_options opts : nhas_best_effort (nnew_parser opts) = nopts_best opts /\ n_trailer (nnew_parser opts) = nopts_trailer opts.
Proof. destruct (nnew_opts opts) as [_ [H1 [H2 _]]]. split; assumption. Qed.
Theorem nt_options_ignored pre post n t : (t < 0 \/ 1 < t) ->
  nnew_parser (pre ++ NOMaxLength n :: post) = nnew_parser (pre ++ post) /\ nnew_parser (pre ++ NOTrailer t :: post) = nnew_parser (pre ++ post)
  /\ nnew_parser (pre ++ NOListener :: post) = nnew_parser (pre ++ post).
Proof.
  intros Ht. unfold nnew_parser. rewrite !fold_left_app. cbn [fold_left napply_opt].
  assert (E : tt_value t = None). { unfold tt_value, LF, NUL. destruct (t <? 0) eqn:E1; [reflexivity|]. apply Z.ltb_ge in E1. destruct (1 <? t) eqn:E2; [reflexivity|]. apply Z.ltb_ge in E2. lia. }
  rewrite E. repeat split; reflexivity.
Qed.

Lemma nafter_kept d x streams : nvok x -> kept x (nafter d x streams).
Proof.
  revert x. induction streams as [|[data e] r IH]; intros x Hx; cbn [nafter]; [apply kept_refl; exact Hx|].
  destruct (nt_step d x data e Hx) as [rs [y [-> K]]]. eapply kept_trans; [exact K|]. apply IH. apply K.
Qed.

(* C47 and totality: a stream never panics, whatever was parsed before *)
Theorem nt_total d opts before data e : exists rs, nemitted d opts before data e = Some rs.
Proof.
  unfold nemitted. destruct (nt_step d (nafter d (nnew_parser opts) before) data e) as [rs [y [-> _]]]; [apply nafter_kept; apply nnew_opts|].
  exists rs. reflexivity.
Qed.

(* C44: one result per message, in order *)
Theorem nt_messages d opts ms e : let t := nopts_trailer opts in
  Forall (one_message t) ms -> nfresh d opts (framed t ms) e = Some (map (nanswer (nopts_best opts)) ms).
Proof.
  cbn zeta. intros HF. destruct (nnew_opts opts) as [Hx [Ht [Hb [Hc [Hl Hr]]]]]. rewrite <- Ht in *.
  destruct (nt_stream d (nnew_parser opts) ms [] e Hx HF (fun H => H)) as [y [E _]]. unfold nfresh.
  rewrite app_nil_r in E. rewrite E. cbn [nresults]. rewrite Hc, Hb. cbn [pend app]. f_equal.
  transitivity (map (nanswer (nopts_best opts)) ms ++ []); [f_equal|apply app_nil_r].
  unfold stored. destruct e; [destruct (d_clean_end_is_error d)|]; cbn [fst snd]; rewrite ?Hl, ?Hr; reflexivity.
Qed.
(* C45: the bytes after the last trailer are parsed and emitted once, with the reading error when they parsed well *)
Theorem nt_unterminated d opts ms rest e : let t := nopts_trailer opts in
  Forall (one_message t) ms -> ~ In t rest -> rest <> [] ->
  nfresh d opts (framed t ms ++ rest) e = Some (map (nanswer (nopts_best opts)) ms ++ [nanswer_tail (nopts_best opts) rest (reading_error e)]).
Proof.
  cbn zeta. intros HF Hn Hne. destruct (nnew_opts opts) as [Hx [Ht [Hb [Hc [Hl Hr]]]]]. rewrite <- Ht in *.
  destruct (nt_stream d (nnew_parser opts) ms rest e Hx HF Hn) as [y [E _]]. unfold nfresh. rewrite E. cbn [nresults].
  rewrite Hc, Hb. cbn [pend app]. destruct rest; [congruence|]. reflexivity.
Qed.
(* C44, C45: every stream that starts with '<' is of this form *)
Theorem nt_all_streams opts data : (exists u, data = "<"%byte :: u) ->
  exists ms rest, data = framed (nopts_trailer opts) ms ++ rest /\ Forall (one_message (nopts_trailer opts)) ms /\ ~ In (nopts_trailer opts) rest.
Proof. intros H. apply nt_decompose; [|exact H]. destruct (nnew_opts opts) as [Hx [<- _]]. apply nvok_trailer. exact Hx. Qed.

(* C53: a stream that does not start with '<' loses everything up to its last trailer *)
Theorem nt_bad_start d opts a b rest e : let t := nopts_trailer opts in
  ~ In t a -> (forall u, a <> "<"%byte :: u) -> ~ In t rest -> (b = [] \/ exists b', b = b' ++ [t]) ->
  nfresh d opts (a ++ t :: b ++ rest) e = Some
    (match d_fsm_error d with
     | Continue => match rest with [] => [] | _ => [nanswer_tail (nopts_best opts) rest (reading_error e)] end
     | Stop => []
     | StopErr => [nanswer_tail (nopts_best opts) (a ++ [t]) RdFsm] end).
Proof.
  cbn zeta. intros Ha Hlt Hr Hb'. destruct (nnew_opts opts) as [Hx [Ht [Hb [Hc [Hl Hre]]]]]. rewrite <- Ht in *. unfold nfresh.
  assert (Hs : starts_lt a = false). { destruct a as [|c a]; [reflexivity|]. cbn. destruct (beqb c "<") eqn:E; [|reflexivity]. apply beqb_eq in E. subst c. exfalso. apply (Hlt a). reflexivity. }
  assert (Ew : snd (windows (n_trailer (nnew_parser opts)) (b ++ rest)) = rest).
  { destruct Hb' as [-> | [b' ->]]; [cbn [app]; rewrite windows_none; [reflexivity|exact Hr]|].
    rewrite <- app_assoc. cbn [app]. rewrite windows_app. cbn [snd]. rewrite windows_none; [reflexivity|exact Hr]. }
  destruct (nt_refused d (nnew_parser opts) a (b ++ rest) rest e Hx Ha Hs Ew) as [y [E _]]. rewrite E. cbn [nresults]. rewrite Hc, Hb, Hl, Hre. cbn [pend app].
  do 2 f_equal. destruct (d_fsm_error d); [|reflexivity|reflexivity]. unfold stored. destruct rest; [|reflexivity].
  destruct e; [destruct (d_clean_end_is_error d)|]; cbn [fst snd]; rewrite ?Hl, ?Hre; reflexivity.
Qed.

(* C46: what a used parser emits.  Its own results are there, in order; at most one result of an earlier stream comes before them and at
   most one after them, the latter only if the stream ends right after a trailer. *)
Theorem nt_reuse d opts before ms rest e : let t := nopts_trailer opts in
  Forall (one_message t) ms -> ~ In t rest ->
  exists stale1 stale2 own, nfresh d opts (framed t ms ++ rest) e = Some own
    /\ nemitted d opts before (framed t ms ++ rest) e = Some (stale1 ++ own ++ stale2)
    /\ (length stale1 <= 1)%nat /\ (length stale2 <= 1)%nat /\ (rest <> [] -> stale2 = []).
Proof.
  cbn zeta. intros HF Hn. destruct (nnew_opts opts) as [Hx [Ht [Hb [Hc [Hl Hr]]]]]. rewrite <- Ht in *.
  pose proof (nafter_kept d _ before Hx) as K. set (x := nafter d (nnew_parser opts) before) in *.
  destruct (nt_stream d (nnew_parser opts) ms rest e Hx HF Hn) as [y [E _]]. unfold nfresh, nemitted. rewrite E.
  rewrite <- (kept_tr _ _ K) in *. destruct (nt_stream d x ms rest e (proj1 K) HF Hn) as [y' [E' _]]. fold x. rewrite E'. rewrite (kept_bs _ _ K).
  exists (pend (n_trailer x) (n_best (nnew_parser opts)) (n_cand x)).
  exists (match rest with [] => chunk_result (n_best (nnew_parser opts)) (fst (stored d rest e x)) (snd (stored d rest e x)) | _ => [] end).
  eexists. split; [reflexivity|]. cbn [nresults]. rewrite Hc. cbn [pend app]. repeat split.
  - f_equal. f_equal. rewrite <- app_assoc. f_equal. destruct rest; [|rewrite app_nil_r; reflexivity].
    unfold stored. destruct e; [destruct (d_clean_end_is_error d)|]; cbn [fst snd]; rewrite ?Hl, ?Hr; reflexivity.
  - destruct (n_cand x); cbn; lia.
  - destruct rest as [|b0 rest]; [|cbn; lia]. unfold chunk_result. destruct (snd (stored d [] e x)); [destruct (fst (stored d [] e x))|]; cbn [length]; lia.
  - intros H. destruct rest; [congruence|reflexivity].
Qed.
(* exactly which, for a second stream *)
Theorem nt_second_stream d opts ms1 rest1 e1 ms2 rest2 e2 : let t := nopts_trailer opts in let best := nopts_best opts in
  Forall (one_message t) ms1 -> ~ In t rest1 -> Forall (one_message t) ms2 -> ~ In t rest2 ->
  nemitted d opts [(framed t ms1 ++ rest1, e1)] (framed t ms2 ++ rest2) e2 = Some
    ((if d_exec_tail d && starts_lt rest1 then [] else match ms1 with [] => [] | _ => [nanswer best (chop t (last ms1 []))] end)
     ++ map (nanswer best) ms2
     ++ match rest2, e2 with
        | _ :: _, _ => [nanswer_tail best rest2 (reading_error e2)]
        | [], AtEOF => if d_clean_end_is_error d then [] else match rest1 with [] => [] | _ => [nanswer_tail best rest1 (reading_error e1)] end
        | [], Failed _ => [] end).
Proof.
  cbn zeta. intros HF1 Hn1 HF2 Hn2. destruct (nnew_opts opts) as [Hx [Ht [Hb [Hc [Hl Hr]]]]]. rewrite <- Ht in *.
  destruct (nt_stream d (nnew_parser opts) ms1 rest1 e1 Hx HF1 Hn1) as [y [E [K [A B]]]]. unfold nemitted. cbn [nafter]. rewrite E.
  rewrite <- (kept_tr _ _ K) in *. destruct (nt_stream d y ms2 rest2 e2 (proj1 K) HF2 Hn2) as [y' [E' _]]. rewrite E'. cbn [nresults].
  rewrite (kept_bs _ _ K), Hb. f_equal. f_equal; [|f_equal].
  - rewrite A. destruct (d_exec_tail d && starts_lt rest1); [reflexivity|]. destruct ms1 as [|m ms]; [rewrite Hc; reflexivity|].
    assert (Hm : last (m :: ms) [] <> []).
    { assert (HI : In (last (m :: ms) []) (m :: ms)). { destruct (@exists_last _ (m :: ms)) as [l [z Ez]]; [discriminate|]. rewrite Ez, last_last. apply in_or_app. right. left. reflexivity. }
      apply (proj1 (Forall_forall _ _) HF1) in HI. destruct HI as [[u ->] _]. discriminate. }
    destruct (last (m :: ms) []); [congruence|reflexivity].
  - destruct rest2 as [|r0 r2]; [|destruct e2; reflexivity]. destruct e2; cbn [stored]; [|reflexivity].
    destruct (d_clean_end_is_error d); [reflexivity|]. cbn [fst snd]. unfold stored in B. rewrite Hl, Hr in B. destruct rest1 as [|q1 r1].
    + destruct e1; [destruct (d_clean_end_is_error d)|]; injection B as -> ->; reflexivity.
    + destruct e1; injection B as -> ->; reflexivity.
Qed.
(* C46 as stated in the README's spirit is false: the last message of a stream is emitted again by the next stream, whatever the driver *)
Definition msg1 : bytes := lit "<1>1 - - - - - -".
Definition msg2 : bytes := lit "<2>1 - - - - - -".
Theorem nt_reuse_refuted : forall d, exists opts before data e, nemitted d opts before data e <> nfresh d opts data e.
Proof.
  intros d. exists [], [(msg1 ++ ["010"%byte], AtEOF)], (msg2 ++ ["010"%byte]), AtEOF. destruct d as [[| |] [|] [|]]; vm_compute; discriminate.
Qed.

(* C47: from a stream that starts with '<' on, every further byte is accepted, for windows of any form *)
Lemma runs_on data rest : forall s x p, nvok x -> s = N2 \/ s = N3 -> exists cs y, narun data s p rest x = Out cs y /\ kept x y /\ (cs = 2%N \/ cs = 3%N).
Proof.
  induction rest as [|b r IH]; intros s x p Hx Hs.
  - destruct Hs; subst s; cbn; [exists 2%N|exists 3%N]; exists x; split; try reflexivity; split; [apply kept_refl; exact Hx|tauto|apply kept_refl; exact Hx|tauto].
  - assert (I : exists cs y, texec sem_act sem_cnd data (ninside (bN b)) p x (fun s' x' => narun data s' (p + 1) r x') = Out cs y /\ kept x y /\ (cs = 2%N \/ cs = 3%N)).
    { destruct (beqb b (n_trailer x)) eqn:Eb.
      - apply beqb_eq in Eb. subst b. rewrite (inside_trailer data x p _ Hx).
        destruct (IH N3 (set_n_cand (n_cand x ++ data) x) (p + 1) (proj1 (kept_cand x _ Hx)) (or_intror eq_refl)) as [cs [y [E [K H]]]].
        exists cs, y. split; [exact E|]. split; [eapply kept_trans; [apply kept_cand; exact Hx|exact K]|exact H].
      - rewrite (inside_other data x b p _ Hx); [apply IH; [exact Hx|left; reflexivity]|]. intros ->. rewrite beqb_refl in Eb. discriminate. }
    destruct Hs; subst s; cbn [arun ndelta]; [exact I|]. destruct (bN b =? 60)%N; [|exact I].
    destruct (begin_spec data x p (fun s' x' => narun data s' (p + 1) r x') Hx) as [y [K [_ [_ [_ [_ E]]]]]]. rewrite E.
    destruct (IH N2 y (p + 1) (proj1 K) (or_introl eq_refl)) as [cs [z [E' [K' H]]]]. exists cs, z. split; [exact E'|]. split; [eapply kept_trans; eassumption|exact H].
Qed.
Lemma windows_run d ws : forall cs x, nvok x -> cs = 2%N \/ cs = 3%N -> exists cs' y, exec_windows d cs ws x = Some (cs', false, y) /\ (cs' = 2%N \/ cs' = 3%N).
Proof.
  induction ws as [|w ws IH]; intros cs x Hx Hcs; cbn [exec_windows]; [eauto|].
  assert (G : exists cs1 y, nexec cs w x = Some (cs1, y) /\ kept x y /\ (cs1 = 2%N \/ cs1 = 3%N)).
  { assert (exists s, cs = nnum s /\ (s = N2 \/ s = N3)) as [s [-> Hs]] by (destruct Hcs; [exists N2|exists N3]; auto).
    rewrite nexec_run. destruct (runs_on w w s x 0 Hx Hs) as [cs1 [y [-> R]]]. exists cs1, y. split; [reflexivity|exact R]. }
  destruct G as [cs1 [y [-> [K H]]]]. assert (E0 : (cs1 =? 0)%N = false) by (destruct H; subst; reflexivity). rewrite E0. apply IH; [apply K|exact H].
Qed.
Theorem nt_never_sticks d opts before u ws :
  exists cs y, exec_windows d 1 (("<"%byte :: u) :: ws) (nafter d (nnew_parser opts) before) = Some (cs, false, y) /\ (cs = 2%N \/ cs = 3%N).
Proof.
  assert (Hx : nvok (nafter d (nnew_parser opts) before)) by (apply nafter_kept; apply nnew_opts).
  set (x := nafter d (nnew_parser opts) before) in *. cbn [exec_windows].
  change 1%N with (nnum N1). rewrite nexec_run. cbn [arun ndelta]. change (bN "<" =? 60)%N with true. cbv iota.
  destruct (begin_spec ("<"%byte :: u) x 0 (fun s' x' => narun ("<"%byte :: u) s' (0 + 1) u x') Hx) as [y [K [_ [_ [_ [_ E]]]]]]. rewrite E.
  destruct (runs_on ("<"%byte :: u) u N2 y (0 + 1) (proj1 K) (or_introl eq_refl)) as [cs [z [-> [K' H]]]].
  assert (E0 : (cs =? 0)%N = false) by (destruct H; subst; reflexivity). rewrite E0. apply windows_run; [apply K'|exact H].
Qed.

(* examples: the hypotheses are met by streams with several messages, messages containing the trailer, an unterminated tail *)
Definition msg_with_lf : bytes := lit "<3>1 - - - - - - two" ++ ["010"%byte] ++ lit "lines".
Lemma one_message_ex : Forall (one_message "010"%byte) [msg1; msg_with_lf; msg2].
Proof.
  assert (G : forall m, starts_lt m = true -> (fix no (l : bytes) : bool := match l with a :: (b :: _) as r => negb (beqb a "010" && beqb b "<") && no r | _ => true end) m = true -> one_message "010"%byte m).
  { intros m H1 H2. split.
    - destruct m as [|b u]; [discriminate|]. cbn in H1. apply beqb_eq in H1. subst b. exists u. reflexivity.
    - intros a b ->. clear H1. induction a as [|c a IH]; [discriminate H2|]. apply IH. destruct a as [|c' a]; cbn [app] in H2 |- *; apply andb_true_iff in H2 as [_ H2]; exact H2. }
  repeat (apply Forall_cons; [apply G; vm_compute; reflexivity|]). constructor.
Qed.
Example nt_messages_ex d : nfresh d [] (framed "010"%byte [msg1; msg_with_lf; msg2]) AtEOF = Some (map (nanswer false) [msg1; msg_with_lf; msg2]).
Proof. apply (nt_messages d [] _ AtEOF). exact one_message_ex. Qed.
Example nt_unterminated_ex d : nfresh d [NOBestEffort] (framed "010"%byte [msg1; msg_with_lf] ++ msg2) (Failed 7)
  = Some (map (nanswer true) [msg1; msg_with_lf] ++ [NResult (fst (answer true msg2)) (Some (NRead (RdOther 7)))]).
Proof.
  change "010"%byte with (nopts_trailer [NOBestEffort]). rewrite (nt_unterminated d [NOBestEffort] [msg1; msg_with_lf] msg2 (Failed 7)); [|exact (proj1 (proj1 (Forall_app _ [msg1; msg_with_lf] [msg2]) one_message_ex))| |discriminate].
  - vm_compute. reflexivity.
  - vm_compute. repeat (intros [H|H]; [discriminate H|revert H]); tauto.
Qed.
Example nt_bad_start_ex : exists d, nfresh d [] (lit " " ++ msg1 ++ "010"%byte :: msg2 ++ ["010"%byte]) AtEOF = Some [].
Proof. exists (Driver Continue false false). vm_compute. reflexivity. Qed.

(* ---- C48: trailer_type.go *)
Theorem trailer_round_trip t s : tt_marshal_text t = Some s -> tt_unmarshal_text s = (t, true) /\ tt_unmarshal_toml s = (t, true).
Proof.
  unfold tt_marshal_text, tt_string, LF, NUL. destruct (t <? 0) eqn:E1; [discriminate|]. destruct (1 <? t) eqn:E2; [discriminate|]. cbn [orb].
  apply Z.ltb_ge in E1, E2. destruct (Z.eqb_spec t 0) as [-> |E]; intros H.
  - injection H as <-. split; vm_compute; reflexivity.
  - assert (t = 1) as -> by lia. injection H as <-. split; vm_compute; reflexivity.
Qed.
Theorem trailer_marshal_total t : (exists s, tt_marshal_text t = Some s) <-> t = LF \/ t = NUL.
Proof.
  unfold tt_marshal_text, tt_string, LF, NUL. split.
  - intros [s H]. destruct (t <? 0) eqn:E1; [discriminate|]. destruct (1 <? t) eqn:E2; [discriminate|]. apply Z.ltb_ge in E1, E2. lia.
  - intros [-> | ->]; eexists; vm_compute; reflexivity.
Qed.
Theorem trailer_value t : tt_value t = (if t =? 0 then Some 10 else if t =? 1 then Some 0 else None).
Proof.
  unfold tt_value, LF, NUL. destruct (Z.eqb_spec t 0) as [-> |]; [reflexivity|]. destruct (Z.eqb_spec t 1) as [-> |]; [reflexivity|].
  destruct (t <? 0) eqn:E1; [reflexivity|]. destruct (1 <? t) eqn:E2; [reflexivity|]. apply Z.ltb_ge in E1, E2. lia.
Qed.
(* the accepted texts: LF or NUL in any case, bare or between two double or two single quotes; anything else is an error and sets -1 *)
Definition same_letters (a b : bytes) : Prop := to_upper a = to_upper b.
Lemma upper_quote b q : q = """"%byte \/ q = "'"%byte -> upper b = q -> b = q.
Proof.
  intros Hq. assert (G : forallb (fun b => implb (beqb (upper b) """") (beqb b """") && implb (beqb (upper b) "'") (beqb b "'")) all_bytes = true) by (vm_compute; reflexivity).
  pose proof (forall_bytes _ G b) as H. apply andb_true_iff in H as [H1 H2]. intros E. rewrite E in *. destruct Hq as [-> | ->]; cbn in *; apply beqb_eq; assumption.
Qed.
Lemma upper_quoted q s u : q = """"%byte \/ q = "'"%byte -> to_upper s = q :: u ++ [q] -> exists name, s = q :: name ++ [q] /\ to_upper name = u.
Proof.
  unfold to_upper. intros Hq H. apply map_eq_cons in H as [a [r [-> [Ha H]]]]. apply map_eq_app in H as [n [l [-> [Hn H]]]].
  apply map_eq_cons in H as [c [l' [-> [Hc H]]]]. apply map_eq_nil in H. subst l'. apply (upper_quote _ _ Hq) in Ha. apply (upper_quote _ _ Hq) in Hc. subst. eauto.
Qed.
Lemma tt_from_string_spec s t : tt_from_string s = Some t <->
  exists name, (t = LF /\ same_letters name (lit "lf") \/ t = NUL /\ same_letters name (lit "nul"))
    /\ (s = name \/ s = lit """" ++ name ++ lit """" \/ s = lit "'" ++ name ++ lit "'").
Proof.
  unfold same_letters. change (to_upper (lit "lf")) with (lit "LF"). change (to_upper (lit "nul")) with (lit "NUL"). split.
  - unfold tt_from_string.
    destruct (bseqb (to_upper s) (lit """LF""")) eqn:E1; [|destruct (bseqb (to_upper s) (lit "'LF'")) eqn:E2; [|destruct (bseqb (to_upper s) (lit "LF")) eqn:E3;
      [|destruct (bseqb (to_upper s) (lit """NUL""")) eqn:E4; [|destruct (bseqb (to_upper s) (lit "'NUL'")) eqn:E5; [|destruct (bseqb (to_upper s) (lit "NUL")) eqn:E6; [|discriminate]]]]]];
      intros H; injection H as <-.
    + apply bseqb_eq in E1. destruct (upper_quoted """"%byte s (lit "LF") (or_introl eq_refl) E1) as [n [-> Hn]]. exists n. split; [left; split; [reflexivity|exact Hn]|right; left; reflexivity].
    + apply bseqb_eq in E2. destruct (upper_quoted "'"%byte s (lit "LF") (or_intror eq_refl) E2) as [n [-> Hn]]. exists n. split; [left; split; [reflexivity|exact Hn]|right; right; reflexivity].
    + apply bseqb_eq in E3. exists s. auto.
    + apply bseqb_eq in E4. destruct (upper_quoted """"%byte s (lit "NUL") (or_introl eq_refl) E4) as [n [-> Hn]]. exists n. split; [right; split; [reflexivity|exact Hn]|right; left; reflexivity].
    + apply bseqb_eq in E5. destruct (upper_quoted "'"%byte s (lit "NUL") (or_intror eq_refl) E5) as [n [-> Hn]]. exists n. split; [right; split; [reflexivity|exact Hn]|right; right; reflexivity].
    + apply bseqb_eq in E6. exists s. auto.
  - intros [name [Hn Hs]]. unfold tt_from_string.
    assert (U : to_upper s = to_upper name \/ to_upper s = lit """" ++ to_upper name ++ lit """" \/ to_upper s = lit "'" ++ to_upper name ++ lit "'").
    { destruct Hs as [-> | [-> | ->]]; [left; reflexivity|right; left|right; right]; unfold to_upper; rewrite !map_app; reflexivity. }
    destruct Hn as [[-> Hn] | [-> Hn]]; rewrite Hn in U; destruct U as [-> | [-> | ->]]; vm_compute; reflexivity.
Qed.
Theorem trailer_texts s t : tt_unmarshal_text s = (t, true) <->
  exists name, (t = LF /\ same_letters name (lit "lf") \/ t = NUL /\ same_letters name (lit "nul"))
    /\ (s = name \/ s = lit """" ++ name ++ lit """" \/ s = lit "'" ++ name ++ lit "'").
Proof.
  rewrite <- tt_from_string_spec. unfold tt_unmarshal_text. destruct (tt_from_string s); split; intros H; try discriminate; congruence.
Qed.
Theorem trailer_unknown s : tt_unmarshal_toml s = tt_unmarshal_text s /\ (snd (tt_unmarshal_text s) = false -> tt_unmarshal_text s = (-1, false) /\ tt_from_string s = None).
Proof. unfold tt_unmarshal_toml, tt_unmarshal_text. split; [reflexivity|]. destruct (tt_from_string s); [discriminate|auto]. Qed.
