(* Parse on the heap: export and the result. *)
From Verif Require Import Bytes GoMap GoTime Common GotoLang Heap HBuilder SpecHeap HOwn HRefB HExec BuilderBaseDef MBuilder M5424Def Gen5424 A5424 M5424 Spec5424 Ref5424c HParse5424 HRef5424 HRef5424b.
Local Open Scope nat_scope.

Section S.
Variable n : nat.
Notation mrel := (msg_rel n n n).
Definition ok3 (w : owner) (h : heap) (o a : addr) (x : msg5424) (m : message) : Prop := own_ok w h /\ out_rel n w h o x /\ mrel w h a m.

(* an assignment to pointers of the message, after which the pointers are those of m' *)
Lemma fld w h o a x m m' fb fsd : ok3 w h o a x m -> version m' = version m ->
  (forall h' b sd, out_rel n w h' o x -> base_rel w n h' b m -> sd_rel w n h' sd (structuredData m) -> base_rel w n h' (fb b) m' /\ sd_rel w n h' (fsd sd) (structuredData m')) ->
  exists h', h_assign h a fb fsd = Some h' /\ step_ok n n n w h w h' /\ ok3 w h' o a x m'.
Proof.
  intros [Ho [HO [b [sd [H1 [H2 [H3 H4]]]]]]] Hv H. unfold h_assign. rewrite H2. eexists; split; [reflexivity|].
  set (h' := hput h a (KMsg5 (fb b) (version m) (fsd sd))).
  assert (S : step_ok n n n w h w h') by (eapply step_put; eauto). split; [exact S|].
  assert (K : keeps (fun l => snd l <> RStruct) w h w h').
  { eapply keeps_weaken; [|apply keeps_put; exact H1]. intros [l1 l2]; cbn. congruence. }
  assert (HO' : out_rel n w h' o x) by (eapply out_keeps; [exact K|cbn; auto|exact HO]).
  split; [apply S|]. split; [exact HO'|].
  destruct (H h' b sd HO') as [A B].
  - eapply base_keeps; [exact K| |exact H3]. intros q Hq; cbn; intros ->; exact Hq.
  - eapply sd_keeps; [exact K| |exact H4]. intros q Hq; cbn; intros ->; exact Hq.
  - exists (fb b), (fsd sd). split; [exact H1|]. split; [|auto]. unfold h'. rewrite hget_put_same by (eapply hget_lt; eauto). rewrite Hv. reflexivity.
Qed.
Definition nextp (w : owner) (h : heap) (o a : addr) (x : msg5424) (m' : message) (r : option heap) : Prop :=
  exists h', r = Some h' /\ step_ok n n n w h w h' /\ ok3 w h' o a x m'.
Lemma nextp_same w h o a x m : ok3 w h o a x m -> nextp w h o a x m (Some h).
Proof. intros H. exists h. split; [reflexivity|]. split; [apply step_refl; apply H|exact H]. Qed.
Ltac base9 := let B := fresh in intros ? ? ? [?X1 [?X2 [?X3 [?X4 [?X5 [?X6 [?X7 ?X8]]]]]]] B ?SD; split; [|assumption];
  destruct B as [?B1 [?B2 [?B3 [?B4 [?B5 [?B6 [?B7 [?B8 ?B9]]]]]]]]; unfold base_rel; cbn; repeat match goal with |- _ /\ _ => split end; try assumption;
  match goal with H : at_ _ _ _ _ _ _ |- _ => solve [exact (proj1 H) | exact (proj2 H)] end.
Lemma fld_ts w h o a x m : ok3 w h o a x m -> timestamp m = None ->
  nextp w h o a x (set_timestamp (if o_timestampSet x then Some (o_timestamp x) else None) m) (if o_timestampSet x then h_assign h a (set_p_timestamp (Some (o + 1))) same_sd else Some h).
Proof.
  intros H E. destruct (o_timestampSet x).
  - apply (fld w h o a x m); [exact H|reflexivity|]. base9.
  - replace (set_timestamp None m) with m by (clear -E; destruct m; cbn in E; subst; reflexivity). apply nextp_same. exact H.
Qed.
Lemma bseqb_dec s t : {bseqb s t = true} + {bseqb s t = false}. Proof. destruct (bseqb s t); auto. Qed.
Lemma fld_str w h o a x m (f : option addr -> base -> base) (sf : option bytes -> message -> message) k s r : ok3 w h o a x m ->
  (forall w h, out_rel n w h o x -> at_ n w h (o + k) r (KStr s)) -> sf None m = m -> (forall v, version (sf v m) = version m) -> (forall v, structuredData (sf v m) = structuredData m) ->
  (forall h' b, base_rel w n h' b m -> at_ n w h' (o + k) r (KStr s) -> base_rel w n h' (f (Some (o + k)) b) (sf (Some s) m)) ->
  nextp w h o a x (sf (opt_str s) m) (h_point_str h a (o + k) f).
Proof.
  intros H Hat E Ev Es HB. unfold h_point_str, opt_str. rewrite (proj2 (Hat w h (proj1 (proj2 H)))).
  destruct (bseqb s (lit "-") || bseqb s []); [rewrite E; apply nextp_same; exact H|].
  apply (fld w h o a x m); [exact H|apply Ev|]. intros h' b sd O B S. split; [apply HB; [exact B|apply Hat; exact O]|]. rewrite Es. exact S.
Qed.
Ltac strs := let B := fresh in intros ? ? B ?A; destruct B as [?B1 [?B2 [?B3 [?B4 [?B5 [?B6 [?B7 [?B8 ?B9]]]]]]]]; unfold base_rel; cbn; repeat match goal with |- _ /\ _ => split end; try assumption;
  match goal with H : at_ _ _ _ _ _ _ |- _ => solve [exact (proj1 H) | exact (proj2 H)] end.
Ltac str1 H E := apply (fld_str _ _ _ _ _ _ _ _ _ _ _ H); [unfold out_rel; intros; intuition eassumption| |reflexivity|reflexivity|strs];
  match goal with |- _ ?m = _ => destruct m; cbn in *; congruence end.
Lemma fld_host w h o a x m : ok3 w h o a x m -> hostname m = None -> nextp w h o a x (set_hostname (opt_str (o_hostname x)) m) (h_point_str h a (o + 2) set_p_hostname).
Proof. intros H E. apply (fld_str w h o a x m set_p_hostname set_hostname 2 _ RHost H); [intros w1 h1 O; apply O|clear -E; destruct m; cbn in E; subst; reflexivity|reflexivity|reflexivity|strs]. Qed.
Lemma fld_app w h o a x m : ok3 w h o a x m -> appname m = None -> nextp w h o a x (set_appname (opt_str (o_appname x)) m) (h_point_str h a (o + 3) set_p_appname).
Proof. intros H E. apply (fld_str w h o a x m set_p_appname set_appname 3 _ RApp H); [intros w1 h1 O; apply O|clear -E; destruct m; cbn in E; subst; reflexivity|reflexivity|reflexivity|strs]. Qed.
Lemma fld_proc w h o a x m : ok3 w h o a x m -> procID m = None -> nextp w h o a x (set_procID (opt_str (o_procID x)) m) (h_point_str h a (o + 4) set_p_procID).
Proof. intros H E. apply (fld_str w h o a x m set_p_procID set_procID 4 _ RProc H); [intros w1 h1 O; apply O|clear -E; destruct m; cbn in E; subst; reflexivity|reflexivity|reflexivity|strs]. Qed.
Lemma fld_mid w h o a x m : ok3 w h o a x m -> msgID m = None -> nextp w h o a x (set_msgID (opt_str (o_msgID x)) m) (h_point_str h a (o + 5) set_p_msgID).
Proof. intros H E. apply (fld_str w h o a x m set_p_msgID set_msgID 5 _ RMid H); [intros w1 h1 O; apply O|clear -E; destruct m; cbn in E; subst; reflexivity|reflexivity|reflexivity|strs]. Qed.
Lemma fld_msg w h o a x m : ok3 w h o a x m -> msg m = None ->
  nextp w h o a x (set_msg (match o_message x with [] => None | s => Some s end) m)
    (match hget h (o + 7) with Some (KStr []) => Some h | Some (KStr _) => h_assign h a (set_p_message (Some (o + 7))) same_sd | _ => None end).
Proof.
  intros H E. assert (A : at_ n w h (o + 7) RMsg (KStr (o_message x))) by apply H. rewrite (proj2 A). destruct (o_message x) as [|c s] eqn:Em.
  - replace (set_msg None m) with m by (clear -E; destruct m; cbn in E; subst; reflexivity). apply nextp_same. exact H.
  - apply (fld w h o a x m); [exact H|reflexivity|]. rewrite <- Em. base9.
Qed.
Lemma fld_sd w h o a x m : ok3 w h o a x m -> structuredData m = None -> (o_hasElements x = true -> o_sd x <> None) ->
  nextp w h o a x (set_structuredData (if o_hasElements x then Some (sd_read (o_sd x)) else None) m)
    (if o_hasElements x then h_assign h a (fun b => b) (fun _ => Some (o + 6)) else Some h).
Proof.
  intros H E I1. destruct (o_hasElements x).
  - specialize (I1 eq_refl). apply (fld w h o a x m); [exact H|reflexivity|]. intros h' b sd O B _. split; [exact B|].
    assert (A : sd_part n w h' (o + 6) (o_sd x)) by apply O. destruct (o_sd x) as [s|]; [|congruence]. cbn in *. destruct A as [q [[A1 A2] M]]. exists q. auto.
  - replace (set_structuredData None m) with m by (clear -E; destruct m; cbn in E; subst; reflexivity). apply nextp_same. exact H.
Qed.

Lemma export_ok w h o x : own_ok w h -> out_rel n w h o x -> (o_hasElements x = true -> o_sd x <> None) ->
  exists h' a w', h_export5 h o = Some (h', a) /\ step_ok n n n w h w' h' /\ mrel w' h' a (export x).
Proof.
  intros Ho O I1. unfold h_export5. rewrite (proj2 (proj1 O)). unfold h_new_message, alloc. set (a := length h). set (h0 := h ++ [KMsg5 base_nil 0 None]).
  set (w0 := own_new w a n RStruct).
  assert (S0 : step_ok n n n w h w0 h0) by (apply step_alloc; auto).
  assert (O0 : out_rel n w0 h0 o x) by (eapply (out_keeps n (fun _ => True)); [apply keeps_new; exact Ho|intros; exact I|exact O]).
  assert (M0 : mrel w0 h0 a (Message None None None None None None None None None 0 None)).
  { exists base_nil, None. split; [unfold w0, own_new; rewrite Nat.eqb_refl; reflexivity|]. split; [apply hget_new|]. split; [|exact I]. unfold base_rel. cbn. tauto. }
  destruct (compute_ok n n n w0 h0 a _ (o_priority x) (st_ok _ _ _ _ _ _ _ S0) M0) as [h1 [E1 [w1 [S1 [M1 _]]]]].
  assert (O1 : out_rel n w1 h1 o x).
  { assert (F : forall b, b < length h0 -> b <> a -> hget h1 b = hget h0 b).
    { unfold h_compute_from_priority in E1. assert (G : hget h0 a = Some (KMsg5 base_nil 0 None)) by apply hget_new. rewrite G in E1. unfold alloc in E1. injection E1 as <-.
      intros b Lb Nb. rewrite hget_put_other by congruence. rewrite !hget_old; rewrite ?app_length; cbn [length]; try lia. reflexivity. }
    eapply (out_keeps n (fun l => snd l <> RStruct)); [|cbn; auto|exact O0].
    intros b l Hb Hl. assert (Lb : b < length h0) by (apply (st_ok _ _ _ _ _ _ _ S0); congruence). split; [rewrite (st_old _ _ _ _ _ _ _ S1) by exact Lb; exact Hb|].
    apply F; [exact Lb|]. intros ->. unfold w0, own_new in Hb. rewrite Nat.eqb_refl in Hb. injection Hb as <-. apply Hl. reflexivity. }
  rewrite E1. cbn [obind].
  assert (V : exists h2, h_set_version (o_version x) h1 a = Some h2 /\ step_ok n n n w1 h1 w1 h2 /\ ok3 w1 h2 o a x (set_version (o_version x) (compute_from_priority (o_priority x) (Message None None None None None None None None None 0 None)))).
  { destruct M1 as [b [sd [A1 [A2 [A3 A4]]]]]. unfold h_set_version. rewrite A2. eexists; split; [reflexivity|].
    assert (S : step_ok n n n w1 h1 w1 (hput h1 a (KMsg5 b (o_version x) sd))) by (eapply step_put; [apply S1|exact A1|auto]). split; [exact S|].
    assert (K : keeps (fun l => snd l <> RStruct) w1 h1 w1 (hput h1 a (KMsg5 b (o_version x) sd))).
    { eapply keeps_weaken; [|apply keeps_put; exact A1]. intros [l1 l2]; cbn. congruence. }
    split; [apply S|]. split; [eapply out_keeps; [exact K|cbn; auto|exact O1]|]. exists b, sd. split; [exact A1|]. split; [apply hget_put_same; eapply hget_lt; eauto|].
    split; [eapply base_keeps; [exact K| |exact A3]|eapply sd_keeps; [exact K| |exact A4]]; intros q Hq; cbn; intros ->; exact Hq. }
  destruct V as [h2 [-> [S2 X2]]]. cbn [obind].
  destruct (fld_ts _ _ _ _ _ _ X2 eq_refl) as [h3 [-> [S3 X3]]]. cbn [obind].
  destruct (fld_host _ _ _ _ _ _ X3 eq_refl) as [h4 [-> [S4 X4]]]. cbn [obind].
  destruct (fld_app _ _ _ _ _ _ X4 eq_refl) as [h5 [-> [S5 X5]]]. cbn [obind].
  destruct (fld_proc _ _ _ _ _ _ X5 eq_refl) as [h6 [-> [S6 X6]]]. cbn [obind].
  destruct (fld_mid _ _ _ _ _ _ X6 eq_refl) as [h7 [-> [S7 X7]]]. cbn [obind].
  destruct (fld_sd _ _ _ _ _ _ X7 eq_refl I1) as [h8 [-> [S8 X8]]]. cbn [obind].
  destruct (fld_msg _ _ _ _ _ _ X8 eq_refl) as [h9 [-> [S9 X9]]]. cbn [obind].
  exists h9, a, w1. split; [reflexivity|]. split.
  - repeat (eapply step_trans; [eassumption|]). apply step_refl. apply X9.
  - destruct X9 as [_ [_ X9]]. exact X9.
Qed.
End S.

(* what Parse returns: a pointer to a message, and the message it points to *)
Definition ret_rel (n : nat) (w : owner) (h : heap) (r : hret) (v : ret) : Prop :=
  match r, v with
  | HRet a e, Ret m e' => e = e' /\ match a, m with Some a, Some m => msg_rel n n n w h a m | None, None => True | _, _ => False end
  | HPanic, RPanic => True
  | HDiverge, RDiverge => True
  | _, _ => False
  end.
Definition clean (m : hmachine) : Prop := hm_x m = erase (hm_x m).
Theorem h_parse_ok n w h d data hm : own_ok w h -> (forall a r, w a <> Some (n, r)) -> slice_read h d = Some data -> clean hm ->
  exists hm' h' r w', h_parse hm h d = (hm', h', r) /\ clean hm' /\ hm_best hm' = hm_best hm /\ m_compliantMsg (hm_x hm') = m_compliantMsg (hm_x hm) /\
    step_ok n n n w h w' h' /\ ret_rel n w' h' r (snd (parse (new_machine (hm_best hm) (m_compliantMsg (hm_x hm))) data)).
Proof.
  intros Ho Hn Hd Hc. unfold h_parse. rewrite Hd. unfold h_new_out5. set (o := length h). set (h1 := h ++ _).
  set (cell8 := [KOut5 false false false 0 0; KTime time_zero; KStr []; KStr []; KStr []; KStr []; KRef None; KStr []]).
  set (w1 := fun b => if b <? o then w b else match nth_error [ROut; RTs; RHost; RApp; RProc; RMid; RSd; RMsg] (b - o) with Some r => Some (n, r) | None => None end).
  assert (L1 : length h1 = o + 8) by (unfold h1; rewrite app_length; reflexivity).
  assert (Wn : forall b r, o <= b -> w b = Some r -> False) by (intros b r Hb Hw; assert (b < length h) by (apply Ho; congruence); unfold o in Hb; lia).
  assert (S1 : step_ok n n n w h w1 h1).
  { constructor.
    - intros b. rewrite L1. unfold w1. destruct (Nat.ltb_spec b o); [lia|]. intros Hb. destruct (nth_error _ (b - o)) eqn:E; [|congruence]. assert (b - o < length [ROut; RTs; RHost; RApp; RProc; RMid; RSd; RMsg]) by (apply nth_error_Some; congruence). cbn [length] in *. lia.
    - rewrite L1. unfold o. lia.
    - intros b Hb. unfold w1. destruct (Nat.ltb_spec b o); [reflexivity|unfold o in *; lia].
    - intros b o' r Hb. unfold w1. destruct (Nat.ltb_spec b o); [unfold o in *; lia|]. destruct (nth_error _ (b - o)); [|discriminate]. intros E; injection E as <- _. auto.
    - intros b Hb _ _. apply hget_old. exact Hb. }
  assert (A : forall k r c, nth_error [ROut; RTs; RHost; RApp; RProc; RMid; RSd; RMsg] k = Some r -> nth_error cell8 k = Some c -> at_ n w1 h1 (o + k) r c).
  { intros k r c Hr Hk. split.
    - unfold w1. destruct (Nat.ltb_spec (o + k) o); [lia|]. replace (o + k - o) with k by lia. rewrite Hr. reflexivity.
    - unfold h1, hget. rewrite nth_error_app2 by (unfold o; lia). replace (o + k - length h) with k by (unfold o; lia). exact Hk. }
  assert (O1 : out_rel n w1 h1 o msg_zero).
  { unfold out_rel. replace o with (o + 0) at 1 by lia. repeat match goal with |- _ /\ _ => split end; apply A; reflexivity. }
  set (x0 := prepare (hm_x hm)).
  assert (Hd1 : slice_read h1 d = Some data) by (apply slice_read_app; exact Hd).
  assert (Ld : s_arr d < length h) by (eapply slice_lt; eauto).
  assert (Hw1 : forall r, w1 (s_arr d) <> Some (n, r)).
  { intros r. unfold w1. destruct (Nat.ltb_spec (s_arr d) o); [apply Hn|unfold o in *; lia]. }
  assert (Ex0 : x0 = erase x0).
  { unfold x0. unfold clean in Hc. rewrite Hc. reflexivity. }
  assert (R0 : prel n w1 h1 o false x0 (HP h1 x0 None)).
  { constructor; try discriminate; cbn [hp_x hp_heap hp_text].
    - exact Ex0.
    - exists w1. split; [apply step_refl; apply S1|]. split; [exact O1|]. split; [|exact I]. rewrite Ex0. reflexivity. }
  pose proof (exec_rel sem_act sem_cnd (hsem5 o d) (hcnd5 o) prog5424 data pneed ppost (prel n w1 h1 o)
    (fun x y => prel_false n w1 h1 o true x y) (fun b a p x y => act_sim n w1 h1 o d data Hd1 Hw1 b a p x y) (fun b c x y => cnd_sim n w1 h1 o b c x y)
    flow5424 (exec_fuel data) LEntry (G 0 1 0 x0) (G 0 1 0 (HP h1 x0 None))) as X.
  rewrite <- link5424 in X. specialize (X (conj eq_refl (conj eq_refl (conj eq_refl R0)))).
  pose proof (parse_spec (Machine (hm_x hm) (hm_best hm)) data) as [P1 [P2 P3]].
  assert (PE : snd (parse (new_machine (hm_best hm) (m_compliantMsg (hm_x hm))) data) = snd (parse (Machine (hm_x hm) (hm_best hm)) data)).
  { rewrite P1. destruct (parse_spec (new_machine (hm_best hm) (m_compliantMsg (hm_x hm))) data) as [-> _]. reflexivity. }
  rewrite PE. clear P1 PE. unfold parse in *. cbn [mv bestEffort] in *. fold x0 in P2, P3 |- *.
  destruct (exec sem_act sem_cnd code5424 data (exec_fuel data) LEntry (G 0 1 0 x0)) as [cs x| |],
    (exec (hsem5 o d) (hcnd5 o) code5424 data (exec_fuel data) LEntry (G 0 1 0 (HP h1 x0 None))) as [cs' y| |]; cbn in X; try tauto.
  - destruct X as [<- X]. pose proof X as [Xx Xh _ [w2 [S2 [O2 T2]]]].
    assert (Em : m_err (hp_x y) = m_err x) by (rewrite Xx; reflexivity).
    assert (Emin : h_minimal5 (hp_heap y) o = minimal (m_out x)) by (unfold h_minimal5; rewrite (proj2 (proj1 O2)); reflexivity).
    assert (Ecl : clean (HMachine (hp_x y) (hm_best hm))) by (unfold clean; cbn; rewrite Xx; reflexivity).
    assert (Eco : m_compliantMsg (hp_x y) = m_compliantMsg (hm_x hm)) by (rewrite Xx; cbn [fst] in P3; unfold compliant in P3; cbn in P3; exact P3).
    assert (S12 : step_ok n n n w h w2 (hp_heap y)) by (eapply step_trans; eauto).
    destruct (export_ok n w2 (hp_heap y) o (m_out x) (st_ok _ _ _ _ _ _ _ S2) O2 Xh) as [h3 [a [w3 [E3 [S3 M3]]]]].
    rewrite Em, Emin, E3. cbn [h_finish].
    assert (S13 : step_ok n n n w h w3 h3) by (eapply step_trans; eauto).
    destruct ((cs <? 603) || (cs =? 614))%N; [destruct (hm_best hm && minimal (m_out x)) eqn:Eb|].
    + exists (HMachine (hp_x y) (hm_best hm)), h3, (HRet (Some a) (m_err x)), w3. cbn [snd ret_rel]. auto 10.
    + exists (HMachine (hp_x y) (hm_best hm)), (hp_heap y), (HRet None (m_err x)), w2. cbn [snd ret_rel]. auto 10.
    + exists (HMachine (hp_x y) (hm_best hm)), h3, (HRet (Some a) None), w3. cbn [snd ret_rel]. auto 10.
  - exists hm, h, HPanic, w. cbn. split; [reflexivity|]. split; [exact Hc|]. repeat (split; [reflexivity|]). split; [apply step_refl; exact Ho|exact I].
  - exists hm, h, HDiverge, w. cbn. split; [reflexivity|]. split; [exact Hc|]. repeat (split; [reflexivity|]). split; [apply step_refl; exact Ho|exact I].
Qed.
