(* C78, non-transparent framing: after a panic of the listener or of the reader. *)
From Verif Require Import Bytes CommonFacts GotoLang Common M5424Def M5424 SpecOctet NonTransparentBaseDef GenNT ANT MNT SpecNT ThmNT MNtCrash.
Local Open Scope Z_scope.

Notation larun := (arun lsem_act lsem_cnd ndelta nedelta).
Lemma linside_other data x l b p next : nvok x -> b <> n_trailer x -> texec lsem_act lsem_cnd data (ninside (bN b)) p (x, l) next = next N2 (x, l).
Proof.
  intros Hx Hb. unfold ninside. destruct (N.eqb_spec (bN b) 10) as [E|E].
  - cbn [texec lsem_cnd sem_cnd fst]. destruct (ok_tr x Hx) as [[T1 T2] | [T1 T2]]; rewrite T1; [|reflexivity].
    exfalso. apply Hb. rewrite T2. apply bN_inj. exact E.
  - destruct (N.eqb_spec (bN b) 0) as [E'|E']; [|reflexivity].
    cbn [texec lsem_cnd sem_cnd fst]. destruct (ok_tr x Hx) as [[T1 T2] | [T1 T2]]; rewrite T1; [reflexivity|].
    exfalso. apply Hb. rewrite T2. apply bN_inj. exact E'.
Qed.
Lemma linside_trailer data x l p next : nvok x ->
  texec lsem_act lsem_cnd data (ninside (bN (n_trailer x))) p (x, l) next = next N3 (set_n_cand (n_cand x ++ data) x, l).
Proof. intros Hx. destruct (ok_tr x Hx) as [[T1 T2] | [T1 T2]]; rewrite T2; unfold ninside; cbn; rewrite T1; reflexivity. Qed.
Lemma lrun_inside data x l u : nvok x -> ~ In (n_trailer x) u -> forall p, larun data N2 p (u ++ [n_trailer x]) (x, l) = Out 3 (set_n_cand (n_cand x ++ data) x, l).
Proof.
  intros Hx. induction u as [|b u IH]; intros Hu p; cbn [app arun ndelta].
  - rewrite (linside_trailer data x l p _ Hx). reflexivity.
  - rewrite (linside_other data x l b p _ Hx); [|intros E; apply Hu; left; exact E]. apply IH. intros H. apply Hu. right. exact H.
Qed.

(* the calls of the listener: with which candidate and which results so far *)
Inductive calls (x : nvars) : list nresult -> list bytes -> list nvars -> Prop :=
| calls_nil o : calls x o [] []
| calls_cons o m ms z zs : kept x z -> n_cand z = m -> n_last z = n_last x -> n_rderr z = n_rderr x -> n_out z = o ++ [nanswer (n_best x) m] ->
    calls x (n_out z) ms zs -> calls x o (m :: ms) (z :: zs).
Definition pending (x : nvars) : list bytes := match n_cand x with [] => [] | _ => [chop (n_trailer x) (n_cand x)] end.
Lemma lprocess_spec x : nvok x -> n_cand x <> [] -> exists z, process x = Some z /\ calls x (n_out x) (pending x) [z] /\ n_cand z = chop (n_trailer x) (n_cand x)
  /\ n_out z = n_out x ++ map (nanswer (n_best x)) (pending x) /\ kept x z /\ n_last z = n_last x /\ n_rderr z = n_rderr x.
Proof.
  intros Hx Hc. destruct (process_spec x Hx Hc) as [z [E [K [A [B [C D]]]]]]. exists z. split; [exact E|].
  unfold pend in D. unfold pending. destruct (n_cand x) as [|c0 c] eqn:Ec; [congruence|].
  split; [apply calls_cons; try assumption; constructor|]. split; [exact A|]. split; [exact D|]. auto.
Qed.
Lemma lbegin_spec data x p next : nvok x -> exists y zs, kept x y /\ n_cand y = [] /\ n_rderr y = n_rderr x /\ n_last y = n_last x
  /\ calls x (n_out x) (pending x) zs /\ n_out y = n_out x ++ map (nanswer (n_best x)) (pending x)
  /\ texec lsem_act lsem_cnd data nbegin p (x, []) next = next N2 (y, zs).
Proof.
  intros Hx. unfold nbegin. cbn [texec lsem_cnd sem_cnd fst]. destruct (n_cand x) as [|c0 c] eqn:Ec.
  - cbn [length Z.of_nat Z.ltb Z.compare]. exists (set_n_cand [] x), []. split; [apply kept_cand; exact Hx|]. split; [reflexivity|]. split; [reflexivity|]. split; [reflexivity|].
    unfold pending. rewrite Ec. split; [constructor|]. split; [cbn; rewrite app_nil_r; reflexivity|]. reflexivity.
  - assert (Hc : n_cand x <> []) by congruence. destruct (lprocess_spec x Hx Hc) as [z [E [C [A [O [K [L R]]]]]]].
    exists (set_n_cand [] z), [z]. split; [eapply kept_trans; [exact K|apply kept_cand; apply K]|]. split; [reflexivity|]. split; [exact R|]. split; [exact L|].
    split; [exact C|]. split; [exact O|].
    replace (0 <? Z.of_nat (length (c0 :: c))) with true by (symmetry; apply Z.ltb_lt; cbn [length]; lia).
    unfold lsem_act at 1. cbn [fst snd sem_act]. rewrite E. cbn [app]. reflexivity.
Qed.
Lemma lwindow_first cs w u x : nvok x -> cs = 1%N \/ cs = 3%N -> w = "<"%byte :: u ++ [n_trailer x] -> ~ In (n_trailer x) u ->
  exists y zs, lexec cs w x = Some (3%N, y, zs) /\ kept x y /\ n_cand y = w /\ n_rderr y = n_rderr x /\ n_last y = n_last x
  /\ calls x (n_out x) (pending x) zs /\ n_out y = n_out x ++ map (nanswer (n_best x)) (pending x).
Proof.
  intros Hx Hcs Ew Hu.
  assert (G : forall s, s = N1 \/ s = N3 -> exists y zs, larun w s 0 w (x, []) = Out 3 (y, zs) /\ kept x y /\ n_cand y = w /\ n_rderr y = n_rderr x /\ n_last y = n_last x
     /\ calls x (n_out x) (pending x) zs /\ n_out y = n_out x ++ map (nanswer (n_best x)) (pending x)).
  { intros s Hs.
    destruct (lbegin_spec w x 0 (fun s' x' => larun w s' (0 + 1) (u ++ [n_trailer x]) x') Hx) as [z [zs [K [A [B [C [D [O E]]]]]]]].
    exists (set_n_cand w z), zs. split; [|split; [eapply kept_trans; [exact K|apply kept_cand; apply K]|repeat split; assumption]].
    transitivity (texec lsem_act lsem_cnd w nbegin 0 (x, []) (fun s' x' => larun w s' (0 + 1) (u ++ [n_trailer x]) x')).
    { rewrite Ew at 2. destruct Hs; subst s; reflexivity. }
    rewrite E, <- (kept_tr _ _ K).
    rewrite (lrun_inside w z zs u (proj1 K)); [|rewrite (kept_tr _ _ K); exact Hu]. rewrite A. reflexivity. }
  destruct Hcs as [-> | ->].
  - destruct (G N1 (or_introl eq_refl)) as [y [zs [E R]]]. exists y, zs. split; [|exact R]. change 1%N with (nnum N1). rewrite lexec_run, E. reflexivity.
  - destruct (G N3 (or_intror eq_refl)) as [y [zs [E R]]]. exists y, zs. split; [|exact R]. change 3%N with (nnum N3) at 1. rewrite lexec_run, E. reflexivity.
Qed.
Lemma lwindow_next w u x : nvok x -> w = u ++ [n_trailer x] -> ~ In (n_trailer x) u -> (forall v, u <> "<"%byte :: v) ->
  lexec 3 w x = Some (3%N, set_n_cand (n_cand x ++ w) x, []).
Proof.
  intros Hx Ew Hu Hlt. change 3%N with (nnum N3) at 1. rewrite lexec_run.
  destruct u as [|b u].
  - cbn [app] in Ew. rewrite Ew at 2. cbn [arun ndelta].
    destruct (N.eqb_spec (bN (n_trailer x)) 60) as [E|E]; [exfalso; apply (trailer_not_lt x Hx); apply bN_inj; exact E|].
    rewrite (linside_trailer w x [] 0 _ Hx). reflexivity.
  - cbn [app] in Ew. rewrite Ew at 2. cbn [arun ndelta].
    destruct (N.eqb_spec (bN b) 60) as [E|E]; [exfalso; apply (Hlt u); f_equal; apply bN_inj; exact E|].
    rewrite (linside_other w x [] b 0 _ Hx); [|intros E'; apply Hu; left; exact E'].
    rewrite (lrun_inside w x [] u Hx); [reflexivity|]. intros H. apply Hu. right. exact H.
Qed.
Lemma lexec_windows_app d ws : forall cs x cs' y l ws', lexec_windows d cs ws x = Some (cs', false, y, l) ->
  lexec_windows d cs (ws ++ ws') x = match lexec_windows d cs' ws' y with Some (c, b, z, l') => Some (c, b, z, l ++ l') | None => None end.
Proof.
  induction ws as [|w ws IH]; intros cs x cs' y l ws' H; cbn [app lexec_windows] in *.
  - injection H as <- <- <-. destruct (lexec_windows d cs ws' x) as [[[[? ?] ?] ?]|]; reflexivity.
  - destruct (lexec cs w x) as [[[cs1 x1] l1]|]; [|discriminate]. cbv zeta in *.
    assert (G : match lexec_windows d cs1 ws x1 with Some (c, s, y0, l') => Some (c, s, y0, l1 ++ l') | None => None end = Some (cs', false, y, l) ->
      match lexec_windows d cs1 (ws ++ ws') x1 with Some (c, s, y0, l') => Some (c, s, y0, l1 ++ l') | None => None end
      = match lexec_windows d cs' ws' y with Some (c, b, z, l') => Some (c, b, z, l ++ l') | None => None end).
    { destruct (lexec_windows d cs1 ws x1) as [[[[c b] z] l2]|] eqn:E; [|discriminate]. intros F. injection F as -> -> -> <-. rewrite (IH _ _ _ _ _ ws' E).
      destruct (lexec_windows d cs' ws' y) as [[[[? ?] ?] ?]|]; [rewrite app_assoc|]; reflexivity. }
    destruct (cs1 =? 0)%N; [destruct (d_fsm_error d); try discriminate|]; apply G; exact H.
Qed.
Lemma lexec_nexts d r : forall x, nvok x -> Forall (fun w => exists u, w = u ++ [n_trailer x] /\ ~ In (n_trailer x) u /\ forall v, u <> "<"%byte :: v) r ->
  lexec_windows d 3 r x = Some (3%N, false, set_n_cand (n_cand x ++ concat r) x, []).
Proof.
  induction r as [|w r IH]; intros x Hx HF; cbn [lexec_windows concat].
  - rewrite app_nil_r. destruct x; reflexivity.
  - inversion HF as [|? ? [u [Ew [Hu Hlt]]] HF']; subst. rewrite (lwindow_next (u ++ [n_trailer x]) u x Hx eq_refl Hu Hlt). cbn [N.eqb].
    rewrite (IH (set_n_cand (n_cand x ++ u ++ [n_trailer x]) x)); [|apply kept_cand; exact Hx|exact HF'].
    cbn. rewrite <- !app_assoc. reflexivity.
Qed.
Lemma lexec_message d cs m x : nvok x -> cs = 1%N \/ cs = 3%N -> one_message (n_trailer x) m ->
  exists y zs, lexec_windows d cs (fst (windows (n_trailer x) (m ++ [n_trailer x]))) x = Some (3%N, false, y, zs) /\ kept x y
    /\ n_cand y = m ++ [n_trailer x] /\ n_rderr y = n_rderr x /\ n_last y = n_last x
    /\ calls x (n_out x) (pending x) zs /\ n_out y = n_out x ++ map (nanswer (n_best x)) (pending x).
Proof.
  intros Hx Hcs Hm. destruct (windows_spec (n_trailer x) (m ++ [n_trailer x])) as [W1 [W2 _]].
  rewrite windows_last, app_nil_r in W1.
  destruct (infix_no_lt _ _ _ (trailer_not_lt x Hx) Hm W1 W2) as [w [r [Ews [[u [Ew Hu]] HF]]]]. rewrite Ews in *.
  destruct (lwindow_first cs w u x Hx Hcs Ew Hu) as [z [zs [E [K [A [B [C [D O]]]]]]]].
  exists (set_n_cand (n_cand z ++ concat r) z), zs. cbn [lexec_windows]. rewrite E. cbn [N.eqb].
  rewrite (lexec_nexts d r z (proj1 K)).
  - rewrite app_nil_r. split; [reflexivity|]. split; [eapply kept_trans; [exact K|apply kept_cand; apply K]|]. cbn. rewrite A.
    cbn [concat] in W1. repeat split; assumption.
  - rewrite (kept_tr _ _ K). exact HF.
Qed.
Lemma calls_kept x y o ms zs : kept x y -> n_last y = n_last x -> n_rderr y = n_rderr x -> calls y o ms zs -> calls x o ms zs.
Proof.
  intros K L R H. induction H as [|o m ms z zs K' A L' R' O _ IH]; [constructor|].
  apply calls_cons; try congruence; [eapply kept_trans; eassumption|]. rewrite <- (kept_bs _ _ K). exact O.
Qed.
Lemma calls_app x a za b zb : forall o, calls x o a za -> calls x (o ++ map (nanswer (n_best x)) a) b zb -> calls x o (a ++ b) (za ++ zb).
Proof.
  revert za. induction a as [|m a IH]; intros za o H Hb; inversion H; subst; cbn [app map] in *; [rewrite app_nil_r in Hb; exact Hb|].
  apply calls_cons; try assumption; [reflexivity|]. apply IH; [assumption|]. match goal with E : n_out _ = _ |- _ => rewrite E end. rewrite <- app_assoc. exact Hb.
Qed.
Lemma pending_m x y m : kept x y -> n_cand y = m ++ [n_trailer x] -> pending y = [m].
Proof. intros K A. unfold pending. rewrite A, (kept_tr _ _ K), chop_trailer. destruct m; reflexivity. Qed.
Lemma lexec_messages d ms : forall cs x, nvok x -> cs = 1%N \/ cs = 3%N -> Forall (one_message (n_trailer x)) ms -> ms <> [] ->
  exists y zs, lexec_windows d cs (fst (windows (n_trailer x) (framed (n_trailer x) ms))) x = Some (3%N, false, y, zs) /\ kept x y
    /\ n_cand y = last ms [] ++ [n_trailer x] /\ n_rderr y = n_rderr x /\ n_last y = n_last x
    /\ calls x (n_out x) (pending x ++ removelast ms) zs
    /\ n_out y = n_out x ++ map (nanswer (n_best x)) (pending x ++ removelast ms).
Proof.
  induction ms as [|m ms IH]; intros cs x Hx Hcs HF Hne; [congruence|]. inversion HF as [|? ? Hm HF']; subst.
  destruct (lexec_message d cs m x Hx Hcs Hm) as [z [zs [E [K [A [B [C [D O]]]]]]]].
  destruct ms as [|m' ms].
  - exists z, zs. unfold framed. cbn [map concat removelast]. rewrite !app_nil_r. auto 10.
  - rewrite <- (kept_tr _ _ K) in HF'. destruct (IH 3%N z (proj1 K) (or_intror eq_refl) HF' ltac:(discriminate)) as [y [zs' [E' [K' [A' [B' [C' [D' O']]]]]]]].
    rewrite (pending_m _ _ _ K A) in *. rewrite (kept_tr _ _ K) in *. rewrite (kept_bs _ _ K) in *.
    exists y, (zs ++ zs'). split; [|split; [eapply kept_trans; eassumption|]].
    + unfold framed in *. cbn [map concat]. rewrite <- app_assoc. cbn [app]. rewrite windows_app. cbn [fst].
      rewrite (lexec_windows_app d _ _ _ _ _ _ _ E). cbn [map concat] in E'. rewrite E'. reflexivity.
    + split; [exact A'|]. split; [congruence|]. split; [congruence|].
      change (removelast (m :: m' :: ms)) with (m :: removelast (m' :: ms)).
      split; [apply calls_app; [exact D|]; apply (calls_kept x z _ _ _ K C B); rewrite <- O; exact D'|].
      rewrite O', O, !map_app, <- !app_assoc. reflexivity.
Qed.
Lemma calls_length x o ms zs : calls x o ms zs -> length zs = length ms.
Proof. induction 1; cbn [length]; [reflexivity|]. congruence. Qed.
Lemma calls_nth x ms : forall o zs k m, calls x o ms zs -> nth_error ms k = Some m ->
  exists z, nth_error zs k = Some z /\ kept x z /\ n_cand z = m /\ n_last z = n_last x /\ n_rderr z = n_rderr x /\ n_out z = o ++ map (nanswer (n_best x)) (firstn (S k) ms).
Proof.
  induction ms as [|m0 ms IH]; intros o zs k m H Hm; [destruct k; discriminate|]. inversion H; subst.
  destruct k as [|k].
  - cbn in Hm. injection Hm as <-. eexists. split; [reflexivity|]. cbn [firstn map]. auto.
  - cbn [nth_error] in *. destruct (IH _ _ _ _ ltac:(eassumption) Hm) as [w [W1 [W2 [W3 [W4 [W5 W6]]]]]]. exists w. repeat (split; [assumption|]).
    rewrite W6. match goal with E : n_out _ = _ |- _ => rewrite E end. rewrite <- app_assoc. reflexivity.
Qed.
Lemma nth_removelast {A} (l : list A) k m : (S k < length l)%nat -> nth_error l k = Some m -> nth_error (removelast l) k = Some m.
Proof.
  intros H E. destruct (exists_last (l := l)) as [l' [a ->]]; [destruct l; [cbn in H; lia|discriminate]|]. rewrite removelast_last.
  rewrite app_length in H. cbn in H. rewrite nth_error_app1 in E by lia. exact E.
Qed.
Lemma windows_framed t ms rest : ~ In t rest -> windows t (framed t ms ++ rest) = (fst (windows t (framed t ms)), rest).
Proof.
  intros Hr. induction ms as [|m ms IH]; [apply windows_none; exact Hr|].
  unfold framed. cbn [map concat]. rewrite <- !app_assoc. cbn [app]. fold (framed t ms). rewrite (windows_app _ m (framed t ms ++ rest)), (windows_app _ m (framed t ms)), IH. reflexivity.
Qed.

(* the parser after the panic of the listener on the result for m *)
Lemma listener_state d x ms rest e k m : nvok x -> n_cand x = [] -> n_last x = [] ->
  Forall (one_message (n_trailer x)) ms -> ~ In (n_trailer x) rest -> nth_error ms k = Some m -> (S k < length ms)%nat \/ rest = [] ->
  exists y, listener_panics d x (framed (n_trailer x) ms ++ rest) e k = Some y /\ kept x y /\ n_cand y = m /\ n_last y = []
    /\ n_out y = map (nanswer (n_best x)) (firstn (S k) ms).
Proof.
  intros Hx Hc Hl HF Hr Hm Hk. assert (Hne : ms <> []) by (intros ->; destruct k; discriminate).
  unfold listener_panics. pose proof (lparse_stream_results d x (framed (n_trailer x) ms ++ rest) e) as P.
  destruct (nt_stream d x ms rest e Hx HF Hr) as [yf [Ef _]]. rewrite Ef in P.
  unfold lparse_stream in *. destruct (ldrive d (set_n_out [] x) (framed (n_trailer x) ms ++ rest) e) as [[yf' l]|] eqn:E; [|discriminate]. clear P Ef.
  unfold ldrive in E. set (x0 := set_n_out [] x) in *. assert (Hx0 : kept x x0) by (apply kept_out; exact Hx).
  change (n_trailer x0) with (n_trailer x) in E. rewrite (windows_framed _ _ _ Hr) in E.
  destruct (lexec_messages d ms 1%N x0 (proj1 Hx0) (or_introl eq_refl) HF Hne) as [y [zs [E' [K [A [B [C [D O]]]]]]]].
  change (n_trailer x0) with (n_trailer x) in *. rewrite E' in E. clear E'. unfold pending in D, O. change (n_cand x0) with (n_cand x) in *. rewrite Hc in *. cbn [app] in D, O.
  pose proof (calls_length _ _ _ _ D) as Lz.
  assert (Lr : S (length (removelast ms)) = length ms).
  { destruct (exists_last Hne) as [l' [a ->]]. rewrite removelast_last, app_length. cbn. lia. }
  assert (Pr : (S k < length ms)%nat -> exists w, nth_error zs k = Some w /\ kept x w /\ n_cand w = m /\ n_last w = [] /\ n_out w = map (nanswer (n_best x)) (firstn (S k) ms)).
  { intros Hk'. destruct (calls_nth _ _ _ _ _ _ D (nth_removelast ms k m Hk' Hm)) as [w [W1 [W2 [W3 [W4 [W5 W6]]]]]]. exists w. split; [exact W1|].
    split; [exact (kept_trans _ _ _ Hx0 W2)|]. split; [exact W3|]. split; [rewrite W4; exact Hl|]. rewrite W6. change (n_out x0) with (@nil nresult). change (n_best x0) with (n_best x). cbn [app].
    rewrite List.firstn_removelast by exact Hk'. reflexivity. }
  assert (Pz : forall l', (S k < length ms)%nat -> exists y0, nth_error (zs ++ l') k = Some y0 /\ kept x y0 /\ n_cand y0 = m /\ n_last y0 = [] /\ n_out y0 = map (nanswer (n_best x)) (firstn (S k) ms)).
  { intros l' Hk'. destruct (Pr Hk') as [w W]. exists w. rewrite nth_error_app1 by lia. exact W. }
  assert (Pl : exists l', l = zs ++ l' /\ (rest = [] -> lon_completion (end_of_stream d [] e y) = Some (yf', l'))).
  { destruct (lexec_rest d 3 rest y) as [[[cs z] l1]|] eqn:Er; [|discriminate]. unfold lcomplete in E.
    destruct (lon_completion (end_of_stream d rest e z)) as [[w l2]|] eqn:Ec; [|discriminate]. injection E as <- <-. exists (l1 ++ l2). split; [rewrite app_assoc; reflexivity|].
    intros ->. cbn in Er. injection Er as _ <- <-. exact Ec. }
  destruct Pl as [l' [-> Pl]].
  destruct (Nat.lt_ge_cases (S k) (length ms)) as [Hk'|Hk']; [apply Pz; exact Hk'|]. destruct Hk as [Hk|Hk]; [lia|]. specialize (Pl Hk). subst rest.
  assert (Hkl : k = length zs). { assert (k < length ms)%nat by (apply nth_error_Some; congruence). lia. }
  assert (El : last ms [] = m).
  { destruct (exists_last Hne) as [ms' [a ->]]. rewrite last_last. rewrite removelast_last in Lz. rewrite nth_error_app2 in Hm by lia. replace (k - length ms')%nat with 0%nat in Hm by lia. cbn in Hm. congruence. }
  rewrite El in A. set (w := end_of_stream d [] e y) in *.
  assert (Hw : kept y w /\ n_cand w = n_cand y /\ n_out w = n_out y /\ n_last w = []).
  { change (n_last x0) with (n_last x) in C. rewrite Hl in C. unfold w, end_of_stream, on_err, on_eof. destruct e; [destruct (d_clean_end_is_error d)|];
      (split; [try apply kept_err; try apply kept_refl; apply K|]); cbn; auto. }
  destruct Hw as [Kw [Cw [Ow Lw]]]. assert (Kxw : kept x w) by (eapply kept_trans; [exact Hx0|eapply kept_trans; eassumption]).
  assert (Hcw : n_cand w <> []) by (rewrite Cw, A; destruct m; discriminate).
  destruct (lprocess_spec w (proj1 Kxw) Hcw) as [v [Ev [_ [Cv [Ov [Kv [Lv Rv]]]]]]].
  unfold lon_completion in Pl. destruct (n_cand w) as [|c0 c] eqn:Ecw; [congruence|].
  replace (0 <? Z.of_nat (length (c0 :: c))) with true in Pl by (symmetry; apply Z.ltb_lt; cbn [length]; lia). rewrite Ev in Pl. rewrite Lv, Lw in Pl. cbn [length Z.of_nat Z.ltb Z.compare] in Pl.
  assert (Pl' : Some (v, [v]) = Some (yf', l')) by (destruct (n_rderr v); exact Pl). injection Pl' as <- <-.
  exists v. rewrite nth_error_app2 by lia. rewrite Hkl, Nat.sub_diag. split; [reflexivity|]. split; [eapply kept_trans; eassumption|].
  split; [rewrite Cv, (kept_tr _ _ Kxw), Cw, A; apply chop_trailer|]. split; [congruence|].
  rewrite Ov, Ow, O. unfold pending. rewrite Ecw. rewrite Cw, A, (kept_tr _ _ Kxw), chop_trailer, (kept_bs _ _ Kxw). change (n_best x0) with (n_best x). cbn [app n_out x0 set_n_out map].
  change [nanswer (n_best x) m] with (map (nanswer (n_best x)) [m]). rewrite <- map_app. f_equal.
  rewrite <- Hkl, <- El, <- app_removelast_last by exact Hne. rewrite firstn_all2 by lia. reflexivity.
Qed.

(* ---- the next stream *)
Lemma next_stream d opts y data e : (exists u, data = "<"%byte :: u) -> kept (nnew_parser opts) y -> n_last y = [] ->
  exists rs, nfresh d opts data e = Some rs
    /\ nresults (nparse_stream d y data e) = Some (pend (nopts_trailer opts) (nopts_best opts) (n_cand y) ++ rs).
Proof.
  intros Hd K Hl. destruct (nnew_opts opts) as [Hx [Ht [Hb [Hc [Hl0 Hr0]]]]]. set (x := nnew_parser opts) in *.
  destruct (nt_decompose (n_trailer x) data (nvok_trailer x Hx) Hd) as [ms [rest [E [HF Hr]]]]. subst data.
  destruct (nt_stream d x ms rest e Hx HF Hr) as [xf [Ex _]].
  rewrite <- (kept_tr _ _ K) in HF, Hr. destruct (nt_stream d y ms rest e (proj1 K) HF Hr) as [yf [Ey _]].
  rewrite (kept_tr _ _ K), (kept_bs _ _ K) in *. unfold nfresh. fold x. rewrite Ex, Ey. cbn [nresults]. rewrite Ht, Hb, Hc. cbn [pend app].
  eexists. split; [reflexivity|].
  assert (S : chunk_result (nopts_best opts) (fst (stored d rest e y)) (snd (stored d rest e y)) = chunk_result (nopts_best opts) (fst (stored d rest e x)) (snd (stored d rest e x))).
  { unfold stored. destruct rest; [destruct e; [destruct (d_clean_end_is_error d)|]|]; try reflexivity. cbn [fst snd]. rewrite Hl, Hl0.
    unfold chunk_result. destruct (n_rderr y), (n_rderr x); reflexivity. }
  rewrite S. reflexivity.
Qed.
Lemma chop_cases t m c : m = c ++ [t] \/ m = c /\ (forall u, c <> u ++ [t]) -> chop t m = c.
Proof.
  intros [-> | [-> H]]; [apply chop_trailer|]. destruct (list_eq_dec Byte.byte_eq_dec c []) as [->|N]; [reflexivity|].
  destruct (exists_last N) as [l [b ->]]. apply chop_other. intros ->. apply (H l). reflexivity.
Qed.

(* C78: the listener of a new parser panics when it is handed the result for the message m.  It has been handed the results of the
   messages up to m.  The next stream gives the result for m once more (c: without one more trailer, if m ends with one), then what a
   new parser gives.  (If m is the last message, nothing may follow it in the stream: see nt_reuse for what the bytes after it do.) *)
Theorem nt_listener_panics d opts ms rest e k m c data' e' : let t := nopts_trailer opts in
  Forall (one_message t) ms -> ~ In t rest -> nth_error ms k = Some m -> (S k < length ms)%nat \/ rest = [] ->
  m = c ++ [t] \/ m = c /\ (forall u, c <> u ++ [t]) -> (exists u, data' = "<"%byte :: u) ->
  exists y rs, listener_panics d (nnew_parser opts) (framed t ms ++ rest) e k = Some y
    /\ n_out y = map (nanswer (nopts_best opts)) (firstn (S k) ms)
    /\ nfresh d opts data' e' = Some rs
    /\ nresults (nparse_stream d y data' e') = Some (nanswer (nopts_best opts) c :: rs).
Proof.
  cbn zeta. intros HF Hr Hm Hk Hc Hd. destruct (nnew_opts opts) as [Hx [Ht [Hb [Hc0 [Hl0 Hr0]]]]].
  assert (Hm1 : exists u, m = "<"%byte :: u) by (apply nth_error_In in Hm; rewrite Forall_forall in HF; apply (HF m Hm)).
  rewrite <- Ht in HF, Hr. destruct (listener_state d _ ms rest e k m Hx Hc0 Hl0 HF Hr Hm Hk) as [y [E [K [A [L O]]]]].
  destruct (next_stream d opts y data' e' Hd K L) as [rs [F1 F2]]. exists y, rs. rewrite Ht in E. rewrite Hb in O. split; [exact E|]. split; [exact O|]. split; [exact F1|].
  rewrite F2, A. unfold pend. rewrite (chop_cases _ _ _ Hc). destruct Hm1 as [u ->]. reflexivity.
Qed.
(* The reader panics after the messages ms and the bytes rest.  The listener has been handed the results of all but the last message; the
   next stream gives the result of that one, then what a new parser gives: no message is lost, none is given twice. *)
Theorem nt_reader_panics d opts ms m rest data' e' : let t := nopts_trailer opts in
  Forall (one_message t) (ms ++ [m]) -> ~ In t rest -> (exists u, data' = "<"%byte :: u) ->
  exists y rs, reader_panics d (nnew_parser opts) (framed t (ms ++ [m]) ++ rest) = Some y
    /\ n_out y = map (nanswer (nopts_best opts)) ms
    /\ nfresh d opts data' e' = Some rs
    /\ nresults (nparse_stream d y data' e') = Some (nanswer (nopts_best opts) m :: rs).
Proof.
  cbn zeta. intros HF Hr Hd. destruct (nnew_opts opts) as [Hx [Ht [Hb [Hc0 [Hl0 Hr0]]]]]. rewrite <- Ht, <- Hb in *. set (x := nnew_parser opts) in *.
  unfold reader_panics. rewrite (windows_framed _ _ _ Hr). cbn [fst]. set (x0 := set_n_out [] x). assert (K0 : kept x x0) by (apply kept_out; exact Hx).
  destruct (lexec_messages d (ms ++ [m]) 1%N x0 (proj1 K0) (or_introl eq_refl) HF ltac:(destruct ms; discriminate)) as [y [zs [E [K [A [B [C [D O]]]]]]]].
  change 1%N with (nnum N1) in *. rewrite (proj1 (lexec_windows_fst d _ N1 x0)). change (n_trailer x0) with (n_trailer x) in *. rewrite E. cbn [nnum] in *.
  rewrite last_last in A. rewrite removelast_last in O. unfold pending in O. change (n_cand x0) with (n_cand x) in O. rewrite Hc0 in O. cbn [app] in O.
  assert (Kx : kept x y) by exact (kept_trans _ _ _ K0 K).
  destruct (next_stream d opts y data' e' Hd Kx) as [rs [F1 F2]]; [rewrite C; exact Hl0|]. exists y, rs. split; [reflexivity|]. split; [exact O|]. split; [exact F1|].
  rewrite F2, A, <- Ht, <- Hb. unfold pend. fold x. rewrite chop_trailer. destruct (m ++ [n_trailer x]) eqn:Em; [destruct m; discriminate|reflexivity].
Qed.

(* the hypotheses are met: two messages, the listener panics on the first; then one message *)
Example nt_listener_panics_ex d : exists y, listener_panics d (nnew_parser []) (framed "010"%byte [msg1; msg_with_lf] ++ lit "<1>1 - -") AtEOF 0 = Some y
  /\ nresults (nparse_stream d y (msg_with_lf ++ ["010"%byte]) AtEOF) = Some [nanswer false msg1; nanswer false msg_with_lf].
Proof.
  pose proof one_message_ex as H. inversion H as [|? ? H1 H']; subst. inversion H' as [|? ? H2 _]; subst.
  destruct (nt_listener_panics d [] [msg1; msg_with_lf] (lit "<1>1 - -") AtEOF 0 msg1 msg1 (msg_with_lf ++ ["010"%byte]) AtEOF) as [y [rs [E [_ [F G]]]]].
  - exact (Forall_cons _ H1 (Forall_cons _ H2 (Forall_nil _))).
  - vm_compute. intuition discriminate.
  - reflexivity.
  - left. cbn. lia.
  - right. split; [reflexivity|]. intros u Eu. apply (f_equal (fun l => rev l)) in Eu. rewrite rev_unit in Eu. vm_compute in Eu. discriminate.
  - eexists. vm_compute. reflexivity.
  - exists y. split; [exact E|]. rewrite G. pose proof (nt_messages d [] [msg_with_lf] AtEOF (Forall_cons _ H2 (Forall_nil _))) as P.
    unfold framed in P. cbn [map concat] in P. rewrite app_nil_r in P. change (nopts_trailer []) with "010"%byte in P. rewrite F in P. injection P as ->. reflexivity.
Qed.

(* ---- any history of streams *)
Lemma process_kept x y : nvok x -> process x = Some y -> kept x y.
Proof.
  intros Hx E. destruct (n_cand x) as [|c0 c] eqn:Ec; [unfold process in E; rewrite Ec in E; discriminate|].
  destruct (process_spec x Hx ltac:(congruence)) as [z [E' [K _]]]. congruence.
Qed.
Definition allkept (x0 : nvars) (xl : nvars * list nvars) : Prop := kept x0 (fst xl) /\ Forall (kept x0) (snd xl).
Lemma act_kept a data p x0 xl xl' : allkept x0 xl -> lsem_act a data p xl = Some xl' -> allkept x0 xl'.
Proof.
  intros [K F] E. unfold lsem_act in E. destruct (sem_act a data p (fst xl)) as [y|] eqn:Ea; [|discriminate]. injection E as <-.
  assert (Ky : kept x0 y).
  { destruct a; cbn in Ea; [exact (kept_trans _ _ _ K (process_kept _ _ (proj1 K) Ea))| |]; injection Ea as <-; exact (kept_trans _ _ _ K (kept_cand _ _ (proj1 K))). }
  split; [exact Ky|]. destruct a; try exact F. apply Forall_app. split; [exact F|]. constructor; [exact Ky|constructor].
Qed.
Lemma texec_kept data (t : tree act cnd nst) : forall p x0 xl nx c yl, allkept x0 xl -> (forall s xl, allkept x0 xl -> nx s xl = Out c yl -> allkept x0 yl) ->
  texec lsem_act lsem_cnd data t p xl nx = Out c yl -> allkept x0 yl.
Proof.
  induction t as [s|n|a t IH|q t IHt e IHe|]; intros p x0 xl nx c yl H Hn; cbn [texec].
  - apply Hn. exact H.
  - intros E. injection E as _ <-. exact H.
  - destruct (lsem_act a data p xl) as [xl'|] eqn:Ea; [|discriminate]. apply IH; [eapply act_kept; eassumption|exact Hn].
  - destruct (lsem_cnd q xl); [apply IHt|apply IHe]; assumption.
  - discriminate.
Qed.
Lemma arun_kept data w x0 : forall s p xl c yl, allkept x0 xl -> larun data s p w xl = Out c yl -> allkept x0 yl.
Proof.
  induction w as [|b w IH]; intros s p xl c yl H; cbn [arun]; apply texec_kept; try exact H; [discriminate|]. intros s' xl' H'. apply IH. exact H'.
Qed.
Lemma lexec_kept s w x c y l : nvok x -> lexec (nnum s) w x = Some (c, y, l) -> kept x y /\ Forall (kept x) l /\ exists s', c = nnum s'.
Proof.
  intros Hx E. pose proof (lexec_fst s w x) as F. rewrite E in F. destruct (nexec_state _ _ _ _ _ F) as [s' Es].
  rewrite lexec_run in E. destruct (larun w s 0 w (x, [])) as [c' [y' l']| |] eqn:Ea; try discriminate. injection E as -> -> ->.
  destruct (arun_kept w w x s 0 (x, []) c (y, l) (conj (kept_refl _ Hx) (Forall_nil _)) Ea) as [A B]. split; [exact A|]. split; [exact B|]. eauto.
Qed.
Lemma kept_all x y l : kept x y -> Forall (kept y) l -> Forall (kept x) l.
Proof. intros K. apply Forall_impl. intros z. exact (kept_trans _ _ _ K). Qed.
Lemma lwindows_kept d ws : forall s x c b y l, nvok x -> lexec_windows d (nnum s) ws x = Some (c, b, y, l) -> kept x y /\ Forall (kept x) l /\ exists s', c = nnum s'.
Proof.
  induction ws as [|w ws IH]; intros s x c b y l Hx; cbn [lexec_windows].
  - intros E. injection E as <- _ <- <-. split; [apply kept_refl; exact Hx|]. split; [constructor|eauto].
  - destruct (lexec (nnum s) w x) as [[[c1 y1] l1]|] eqn:E; [|discriminate]. cbv zeta. destruct (lexec_kept _ _ _ _ _ _ Hx E) as [K [F [s' ->]]].
    assert (G : match lexec_windows d (nnum s') ws y1 with Some (c, s, y, l') => Some (c, s, y, l1 ++ l') | None => None end = Some (c, b, y, l) -> kept x y /\ Forall (kept x) l /\ exists s', c = nnum s').
    { destruct (lexec_windows d (nnum s') ws y1) as [[[[c2 b2] y2] l2]|] eqn:E2; [|discriminate]. intros Q. injection Q as -> -> -> <-.
      destruct (IH _ _ _ _ _ _ (proj1 K) E2) as [K2 [F2 S2]]. split; [exact (kept_trans _ _ _ K K2)|]. split; [|exact S2].
      apply Forall_app. split; [exact F|exact (kept_all _ _ _ K F2)]. }
    destruct (nnum s' =? 0)%N; [|exact G]. destruct (d_fsm_error d); [exact G| |]; intros Q; injection Q as <- _ <- <-; (split; [|split; [exact F|eauto]]).
    + exact K.
    + exact (kept_trans _ _ _ K (kept_err _ _ _ (proj1 K))).
Qed.
Lemma emit_kept text err x y : nvok x -> parse_emit text err x = Some y -> kept x y.
Proof. intros Hx E. destruct (parse_emit_spec text err x Hx) as [z [E' [K _]]]. congruence. Qed.
Lemma lcompletion_kept x y l : nvok x -> lon_completion x = Some (y, l) -> kept x y /\ Forall (kept x) l.
Proof.
  intros Hx. unfold lon_completion.
  assert (G : forall z l0, kept x z -> Forall (kept x) l0 ->
     match n_rderr z with Some e => if 0 <? Z.of_nat (length (n_last z)) then match parse_emit (n_last z) (Some e) z with Some y => Some (y, l0 ++ [y]) | None => None end else Some (z, l0) | None => Some (z, l0) end = Some (y, l)
     -> kept x y /\ Forall (kept x) l).
  { intros z l0 K F. destruct (n_rderr z) as [e|]; [|intros Q; injection Q as <- <-; auto]. destruct (0 <? Z.of_nat (length (n_last z))); [|intros Q; injection Q as <- <-; auto].
    destruct (parse_emit (n_last z) (Some e) z) as [w|] eqn:E; [|discriminate]. intros Q. injection Q as <- <-.
    pose proof (kept_trans _ _ _ K (emit_kept _ _ _ _ (proj1 K) E)) as K2. split; [exact K2|]. apply Forall_app. split; [exact F|]. constructor; [exact K2|constructor]. }
  destruct (0 <? Z.of_nat (length (n_cand x))).
  - destruct (process x) as [z|] eqn:E; [|discriminate]. pose proof (process_kept _ _ Hx E) as K. apply G; [exact K|]. constructor; [exact K|constructor].
  - apply G; [apply kept_refl; exact Hx|constructor].
Qed.
Lemma end_kept d rest e z : nvok z -> kept z (end_of_stream d rest e z).
Proof. intros Hz. unfold end_of_stream, on_err, on_eof. destruct rest; [destruct e; [destruct (d_clean_end_is_error d)|]|]; try apply kept_err; try apply kept_refl; exact Hz. Qed.
Lemma lstream_kept d x data e y l : nvok x -> lparse_stream d x data e = Some (y, l) -> kept x y /\ Forall (kept x) l.
Proof.
  intros Hx. unfold lparse_stream, ldrive. destruct (windows (n_trailer (set_n_out [] x)) data) as [ws rest]. set (x0 := set_n_out [] x).
  assert (K0 : kept x x0) by (apply kept_out; exact Hx). change 1%N with (nnum N1).
  destruct (lexec_windows d (nnum N1) ws x0) as [[[[c b] z] l1]|] eqn:E; [|discriminate]. destruct (lwindows_kept _ _ _ _ _ _ _ _ (proj1 K0) E) as [K1 [F1 [s ->]]].
  pose proof (kept_trans _ _ _ K0 K1) as Kz. pose proof (kept_all _ _ _ K0 F1) as Fz.
  assert (C : forall w l2, kept x w -> Forall (kept x) l2 -> lcomplete l2 w = Some (y, l) -> kept x y /\ Forall (kept x) l).
  { intros w l2 K F. unfold lcomplete. destruct (lon_completion w) as [[v l3]|] eqn:Ec; [|discriminate]. intros Q. injection Q as <- <-.
    destruct (lcompletion_kept _ _ _ (proj1 K) Ec) as [K3 F3]. split; [exact (kept_trans _ _ _ K K3)|]. apply Forall_app. split; [exact F|exact (kept_all _ _ _ K F3)]. }
  destruct b; [apply C; assumption|].
  destruct (lexec_rest d (nnum s) rest z) as [[[c2 w] l2]|] eqn:Er; [|discriminate].
  assert (Kw : kept z w /\ Forall (kept z) l2).
  { unfold lexec_rest in Er. destruct rest; [injection Er as _ <- <-; split; [apply kept_refl; apply Kz|constructor]|].
    destruct (d_exec_tail d); [destruct (lexec_kept _ _ _ _ _ _ (proj1 Kz) Er) as [A [B _]]; auto|]. injection Er as _ <- <-. split; [apply kept_refl; apply Kz|constructor]. }
  destruct Kw as [Kw Fw]. pose proof (kept_trans _ _ _ Kz Kw) as Kxw. apply C; [exact (kept_trans _ _ _ Kxw (end_kept _ _ _ _ (proj1 Kxw)))|].
  apply Forall_app. split; [exact Fz|exact (kept_all _ _ _ Kz Fw)].
Qed.
Lemma nsurvive_kept d x data e f : nvok x -> kept x (nsurvive d x data e f).
Proof.
  intros Hx. unfold nsurvive. destruct f as [|k|].
  - rewrite lparse_stream_results. destruct (lparse_stream d x data e) as [[y l]|] eqn:E; [exact (proj1 (lstream_kept _ _ _ _ _ _ Hx E))|apply kept_refl; exact Hx].
  - unfold listener_panics. destruct (lparse_stream d x data e) as [[y l]|] eqn:E; [|apply kept_refl; exact Hx]. destruct (lstream_kept _ _ _ _ _ _ Hx E) as [_ F].
    destruct (nth_error l k) as [z|] eqn:En; [|apply kept_refl; exact Hx]. apply nth_error_In in En. rewrite Forall_forall in F. exact (F z En).
  - unfold reader_panics. change 1%N with (nnum N1). rewrite (proj1 (lexec_windows_fst d _ N1 (set_n_out [] x))).
    destruct (lexec_windows d (nnum N1) _ (set_n_out [] x)) as [[[[c b] y] l]|] eqn:E; [|apply kept_refl; exact Hx].
    pose proof (kept_out x [] Hx) as K0. exact (kept_trans _ _ _ K0 (proj1 (lwindows_kept _ _ _ _ _ _ _ _ (proj1 K0) E))).
Qed.
Lemma nlives_kept d h : forall x, nvok x -> kept x (nlives d x h).
Proof.
  induction h as [|[[data e] f] h IH]; intros x Hx; cbn [nlives]; [apply kept_refl; exact Hx|].
  pose proof (nsurvive_kept d x data e f Hx) as K. exact (kept_trans _ _ _ K (IH _ (proj1 K))).
Qed.
(* C78: after any history of streams, of any bytes, parsed to the end or interrupted by a panic of the listener at any call or of the
   reader after any bytes, the next stream gives what a new parser gives, preceded by at most one result (of the pending candidate) and
   followed by at most one (of the last chunk of an earlier stream); the parser does not panic by itself. *)
Theorem nt_survives_panics d opts h data e : (exists u, data = "<"%byte :: u) ->
  exists rs pre post, nfresh d opts data e = Some rs
    /\ nresults (nparse_stream d (nlives d (nnew_parser opts) h) data e) = Some (pre ++ rs ++ post)
    /\ (length pre <= 1)%nat /\ (length post <= 1)%nat.
Proof.
  intros Hd. destruct (nnew_opts opts) as [Hx [Ht [Hb [Hc [Hl0 Hr0]]]]]. set (x := nnew_parser opts) in *. pose proof (nlives_kept d h x Hx) as K. set (y := nlives d x h) in *.
  destruct (nt_decompose (n_trailer x) data (nvok_trailer x Hx) Hd) as [ms [rest [E [HF Hr]]]]. subst data.
  destruct (nt_stream d x ms rest e Hx HF Hr) as [xf [Ex _]].
  rewrite <- (kept_tr _ _ K) in HF, Hr. destruct (nt_stream d y ms rest e (proj1 K) HF Hr) as [yf [Ey _]].
  rewrite (kept_tr _ _ K), (kept_bs _ _ K) in *. unfold nfresh. fold x. rewrite Ex, Ey. cbn [nresults]. rewrite Hc. cbn [pend app].
  assert (P : (length (pend (n_trailer x) (n_best x) (n_cand y)) <= 1)%nat) by (unfold pend; destruct (n_cand y); cbn; lia).
  assert (S : exists post, chunk_result (n_best x) (fst (stored d rest e y)) (snd (stored d rest e y)) = chunk_result (n_best x) (fst (stored d rest e x)) (snd (stored d rest e x)) ++ post
     /\ (length post <= 1)%nat).
  { unfold stored. destruct rest; [destruct e; [destruct (d_clean_end_is_error d)|]|]; try (exists []; rewrite app_nil_r; split; [reflexivity|cbn; lia]).
    cbn [fst snd]. rewrite Hl0. exists (chunk_result (n_best x) (n_last y) (n_rderr y)). unfold chunk_result. destruct (n_rderr x), (n_rderr y), (n_last y); cbn; split; try reflexivity; lia. }
  destruct S as [post [Sp Lp]]. eexists _, (pend (n_trailer x) (n_best x) (n_cand y)), post. split; [reflexivity|]. rewrite Sp, <- !app_assoc. auto.
Qed.
