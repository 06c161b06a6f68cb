(* The builder (rfc5424/builder.go): setters, Valid, String, and the round trips through the parser. *)
From Coq Require Import Permutation.
From Verif Require Import Bytes GoMap GoTime Common CommonFacts GotoLang M5424Def A5424 M5424 Spec5424 Ref5424b Grammar5424 Utf8 Ts5424 Gram5424 Thm5424
  Ref5424c Props5424 Thm5424 BuilderBaseDef ABuilder MBuilder RefBuilder BFmt BWf.
Local Open Scope Z_scope.

(* ---------- C17: what each call does, in terms of the grammar ---------- *)
Definition sd_contents (m : message) : sdmap := match structuredData m with Some s => s | None => [] end.
Definition elem_contents (m : message) (id : bytes) : gmap bytes := match mget (sd_contents m) id with Some e => e | None => [] end.
Definition has_elem (m : message) (id : bytes) : Prop := exists e, mget (sd_contents m) id = Some e.
Definition has_param (m : message) (id name : bytes) : Prop := exists v, mget (elem_contents m id) name = Some v.
(* store one element *)
Definition put_sd (m : message) (id : bytes) (e : gmap bytes) : message := set_structuredData (Some (mset (sd_contents m) id e)) m.

(* a header word: stored when in the grammar and not the NILVALUE, otherwise ignored *)
Definition word_effect (max : nat) (store : option bytes -> message -> message) (v : bytes) (m m' : message) : Prop :=
  (word max v /\ v <> lit "-" -> m' = store (Some v) m) /\ (~ (word max v /\ v <> lit "-") -> m' = m).

Definition effect (m : message) (c : call) (m' : message) : Prop :=
  match c with
  | SetPriority p => (0 <= p <= 191 -> m' = set_facility (Some (p / 8)) (set_severity (Some (p mod 8)) (set_priority (Some p) m)))
                     /\ (~ 0 <= p <= 191 -> m' = m)
  | SetVersion v => (1 <= v <= 999 -> m' = set_version v m) /\ (~ 1 <= v <= 999 -> m' = m)
  | SetTimestamp v => (forall t, ts_text v t -> m' = set_timestamp (Some t) m) /\ ((forall t, ~ ts_text v t) -> m' = m)
  | SetHostname v => word_effect 255 set_hostname v m m'
  | SetAppname v => word_effect 48 set_appname v m m'
  | SetProcID v => word_effect 128 set_procID v m m'
  | SetMsgID v => word_effect 32 set_msgID v m m'
  | SetMessage v => (v <> [] -> m' = set_msg (Some v) m) /\ (v = [] -> m' = m)
  | SetElementID id =>
      (sdname id -> has_elem m id -> m' = m) /\ (sdname id -> ~ has_elem m id -> m' = put_sd m id []) /\ (~ sdname id -> m' = m)
  | SetParameter id name v =>
      (sdname id -> sdname name -> forall val, pval v val -> m' = put_sd m id (mset (elem_contents m id) name val))
      /\ (sdname id -> sdname name -> (forall val, ~ pval v val) -> m' = put_sd m id (mset (elem_contents m id) name []))
      /\ (sdname id -> ~ sdname name -> has_elem m id -> m' = m) /\ (sdname id -> ~ sdname name -> ~ has_elem m id -> m' = put_sd m id [])
      /\ (~ sdname id -> m' = m)
  end.

Lemma word_bset w max store g sm v : match w with WId | WPn => False | _ => True end -> N.to_nat (wmax w) = max ->
  (forall g v sm, wstore w g v sm = Some (if bseqb v (lit "-") then sm else store (Some v) sm)) ->
  exists m', bset (word_ep w) g sm v = Some m' /\ word_effect max store v sm m'.
Proof.
  intros Hw Hm Hs. rewrite bset_word, Hs. pose proof (wgood_word w v Hw) as Hg. rewrite Hm in Hg.
  destruct (wgood w v && negb (bseqb v [])).
  - destruct (bseqb v (lit "-")) eqn:E; eexists; (split; [reflexivity|]); split; auto.
    + apply bseqb_eq in E. tauto.
    + apply bseqb_neq in E. tauto.
  - eexists. split; [reflexivity|]. split; auto. intros [H _]. apply Hg in H. discriminate.
Qed.

Lemma sdname_dec v : {sdname v} + {~ sdname v}.
Proof.
  destruct (wgood WId v && negb (bseqb v [])) eqn:E; [left|right].
  - apply (wgood_sdname WId v I). exact E.
  - intros H. apply (wgood_sdname WId v I) in H. congruence.
Qed.
Lemma sd_bset w g sm v : match w with WId | WPn => True | _ => False end ->
  bset (word_ep w) g sm v = if sdname_dec v then wstore w g v sm else Some sm.
Proof.
  intros Hw. rewrite bset_word. pose proof (wgood_sdname w v Hw) as H. destruct (wgood w v && negb (bseqb v [])), (sdname_dec v); auto.
  - tauto.
  - apply H in s. discriminate.
Qed.

Lemma mset_same {V} (m : gmap V) k v : mget m k = Some v -> mset m k v = m.
Proof.
  induction m as [|[k' v'] r IH]; cbn; [discriminate|]. destruct (bcmp k k') eqn:E; intros H; try discriminate.
  - injection H as ->. apply bcmp_eq in E. subst. reflexivity.
  - rewrite IH by exact H. reflexivity.
Qed.
Lemma wid_store g id sm : wstore WId g id sm =
  Some (match mget (sd_contents sm) id with Some _ => sm | None => put_sd sm id [] end).
Proof.
  unfold wstore, put_sd, sd_contents, sd_read. destruct (structuredData sm) as [s|] eqn:E; [|reflexivity].
  destruct (mget s id); [|reflexivity]. f_equal. apply set_sd_eta. exact E.
Qed.
Lemma wid_contents id sm : let sm1 := match mget (sd_contents sm) id with Some _ => sm | None => put_sd sm id [] end in
  structuredData sm1 = Some (mset (sd_contents sm) id (elem_contents sm id))
  /\ mget (sd_contents sm1) id = Some (elem_contents sm id)
  /\ forall e, put_sd sm1 id e = put_sd sm id e.
Proof.
  cbv zeta. unfold elem_contents. destruct (mget (sd_contents sm) id) as [e|] eqn:E.
  - unfold sd_contents in *. destruct (structuredData sm) as [s|] eqn:Es; [|discriminate].
    rewrite mset_same by exact E. repeat split. exact E.
  - repeat split.
    + unfold put_sd, sd_contents. cbn. apply mget_mset_same.
    + intros e. unfold put_sd, sd_contents. cbn. rewrite mset_mset. reflexivity.
Qed.
Lemma pval_dec v : {exists val, pval v val} + {forall val, ~ pval v val}.
Proof.
  destruct (vok VPlain v) eqn:E; [left; exists (unesc v); apply vok_pval; exact E|right].
  intros val H. pose proof (pval_unesc v val H) as ->. apply vok_pval in H. congruence.
Qed.
Lemma ts_dec v : (exists t, ts_text v t) \/ (forall t, ~ ts_text v t).
Proof.
  destruct v as [|a w]; [right; intros t H; apply ts_text_head in H as [a [w [H _]]]; discriminate|].
  destruct (is_dig (bN a)) eqn:Ea.
  - destruct (ts_run 554 w) as [n|] eqn:Er.
    + destruct (N.eqb_spec n 578) as [->|Hx].
      * destruct (run_shape a w (proj2 (digit_dig a) Ea) Er) as [t Ht].
        destruct (Z.leb_spec (t_day t) (days_in (t_month t) (t_year t))) as [Hd|Hd].
        -- left. exists t. apply text_shape. auto.
        -- right. intros t' H. apply text_shape in H as [H Hd']. pose proof (Ts5424.rfc3339_parse_shape _ _ H) as P1. pose proof (Ts5424.rfc3339_parse_shape _ _ Ht) as P2.
           rewrite P1 in P2. destruct (Z.leb_spec (t_day t') (days_in (t_month t') (t_year t'))); [|lia].
           destruct (Z.leb_spec (t_day t) (days_in (t_month t) (t_year t))); [lia|discriminate].
      * right. intros t H. apply text_shape in H as [H _]. destruct (shape_run _ _ H) as [a' [w' [E [_ [Hr _]]]]]. injection E as -> ->. congruence.
    + right. intros t H. apply text_shape in H as [H _]. destruct (shape_run _ _ H) as [a' [w' [E [_ [Hr _]]]]]. injection E as -> ->. congruence.
  - right. intros t H. apply ts_text_head in H as [a' [w' [E H]]]. injection E as -> ->. congruence.
Qed.

(* an element or parameter already present was stored under a grammatical name *)
Definition names_ok (m : message) : Prop :=
  (forall id, has_elem m id -> sdname id) /\ (forall id name, has_param m id name -> sdname name).

(* C17, C18: every call returns, on every message and whatever the package variables hold, with exactly the stated effect *)
Theorem set_exact_gen g m c : exists g' m', step g m c = Some (g', m') /\ (names_ok m -> effect m c m').
Proof.
  assert (W : forall r, (exists m', r = Some m' /\ effect m c m') -> exists g' m', with_g g r = Some (g', m') /\ (names_ok m -> effect m c m')).
  { intros r [m' [-> H]]. exists g, m'. split; auto. }
  destruct c as [p|v|v|v|v|v|v|id|id name v|v]; cbn [step].
  - eexists _, _. split; [reflexivity|]. intros _. cbn [effect]. unfold valid_priority, in_between, compute_from_priority.
    destruct (Z.leb_spec 0 p), (Z.leb_spec p 191); cbn [andb]; split; intros; try reflexivity; lia.
  - eexists _, _. split; [reflexivity|]. intros _. cbn [effect]. unfold valid_version, in_between.
    destruct (Z.leb_spec 1 v), (Z.leb_spec v 999); cbn [andb]; split; intros; try reflexivity; lia.
  - apply W. cbn [effect]. destruct (set_ts_iff g m v) as [H1 H2]. destruct (ts_dec v) as [[t Ht]|Hn].
    + eexists. split; [apply (H1 t Ht)|]. split; [|intros H; destruct (H t Ht)].
      intros t' Ht'. apply H1 in Ht. apply H1 in Ht'. congruence.
    + eexists. split; [apply (H2 Hn)|]. split; [intros t H; destruct (Hn t H)|reflexivity].
  - apply W. apply (word_bset WHost); auto.
  - apply W. apply (word_bset WApp); auto.
  - apply W. apply (word_bset WProc); auto.
  - apply W. apply (word_bset WMsgid); auto.
  - apply W. change EpSdid with (word_ep WId). rewrite (sd_bset WId g m id I), wid_store. cbn [effect]. unfold has_elem.
    destruct (sdname_dec id) as [Hid|Hid]; eexists; (split; [reflexivity|]).
    + destruct (mget (sd_contents m) id) as [e|] eqn:E; (split; [|split]); intros; try reflexivity; try tauto.
      * destruct H0. eauto.
      * destruct H0. discriminate.
    + split; [|split]; intros; tauto.
  - unfold set_parameter. change EpSdid with (word_ep WId). rewrite (sd_bset WId g m id I), wid_store. cbn [effect].
    destruct (sdname_dec id) as [Hid|Hid].
    2:{ destruct (structuredData m) as [s|] eqn:Es.
        2:{ eexists _, _. split; [reflexivity|]. intros _. do 4 (split; [intros; tauto|]). auto. }
        destruct (mget s id) as [e|] eqn:Ee.
        2:{ eexists _, _. split; [reflexivity|]. intros _. do 4 (split; [intros; tauto|]). auto. }
        (* only when the message has an element with an ungrammatical id *)
        assert (Hbad : ~ names_ok m). { intros [H _]. apply Hid, H. exists e. unfold sd_contents. rewrite Es. exact Ee. }
        change EpSdpn with (word_ep WPn). rewrite (sd_bset WPn _ m name I).
        assert (Hv : forall m2 g2, currentid g2 = id -> (exists e2, mget (sd_contents m2) id = Some e2) -> exists m3, bset EpSdpv g2 m2 v = Some m3).
        { intros m2 g2 E [e2 He]. rewrite bset_val. destruct (vok VPlain v); [|eauto]. unfold vstore. rewrite E. unfold sd_contents in He.
          destruct (structuredData m2); [rewrite He; eauto|discriminate]. }
        destruct (sdname_dec name) as [Hn|Hn].
        - unfold wstore. rewrite Es. cbn [currentid]. rewrite Ee. cbn [structuredData set_structuredData sd_read]. rewrite !mget_mset_same.
          destruct (Hv (set_structuredData (Some (mset s id (mset e name []))) m) (Globals id name) eq_refl) as [m3 ->].
          { eexists. apply mget_mset_same. }
          eexists _, _. split; [reflexivity|tauto].
        - rewrite Es. cbn [sd_read]. rewrite Ee. destruct (mget e name) as [w|]; [|eexists _, _; split; [reflexivity|tauto]].
          destruct (Hv m (Globals id name) eq_refl) as [m3 ->].
          { exists e. unfold sd_contents. rewrite Es. exact Ee. }
          eexists _, _. split; [reflexivity|tauto]. }
    remember (match mget (sd_contents m) id with Some _ => m | None => put_sd m id [] end) as sm1 eqn:E1.
    pose proof (wid_contents id m) as [H1 [H2 H3]]. cbv zeta in H1, H2, H3. rewrite <- E1 in H1, H2, H3.
    rewrite H1, mget_mset_same. change EpSdpn with (word_ep WPn). rewrite (sd_bset WPn _ sm1 name I).
    destruct (sdname_dec name) as [Hn|Hn].
    + unfold wstore. rewrite H1. cbn [currentid]. rewrite mget_mset_same, mset_mset. cbn [structuredData set_structuredData sd_read].
      rewrite !mget_mset_same. rewrite bset_val. unfold vstore. cbn [structuredData set_structuredData currentid currentparamname].
      rewrite mget_mset_same, !mset_mset. fold (put_sd m id (mset (elem_contents m id) name [])).
      destruct (vok VPlain v) eqn:Ev.
      * eexists _, _. split; [reflexivity|]. intros _. apply vok_pval in Ev. split; [|split; [|split; [|split]]]; intros; try tauto.
        -- pose proof (pval_unesc _ _ H4) as ->. rewrite E1. destruct (mget (sd_contents m) id); reflexivity.
        -- destruct (H4 _ Ev).
      * eexists _, _. split; [reflexivity|]. intros _. split; [|split; [|split; [|split]]]; intros; try tauto.
        -- pose proof (pval_unesc _ _ H4) as ->. apply vok_pval in H4. congruence.
        -- rewrite E1. destruct (mget (sd_contents m) id); reflexivity.
    + rewrite H1. cbn [sd_read]. rewrite mget_mset_same. destruct (mget (elem_contents m id) name) as [w|] eqn:Ew.
      * assert (Hbad : ~ names_ok m). { intros [_ H]. apply Hn, (H id). exists w. exact Ew. }
        rewrite bset_val. unfold vstore. rewrite H1. cbn [currentid]. rewrite mget_mset_same.
        destruct (vok VPlain v); eexists _, _; (split; [reflexivity|tauto]).
      * eexists _, _. split; [reflexivity|]. intros _. unfold has_elem. rewrite E1. destruct (mget (sd_contents m) id) as [e|];
          (split; [|split; [|split; [|split]]]); intros; try tauto; try reflexivity.
        -- destruct H4. eauto.
        -- destruct H4. discriminate.
  - apply W. rewrite bset_msg. eexists. split; [reflexivity|]. cbn [effect]. destruct v; split; intros; congruence.
Qed.

(* ---------- messages made by the builder or by the parser are well formed ---------- *)
Lemma wf_names m : wf m -> names_ok m.
Proof.
  intros H. split.
  - intros id [e He]. unfold sd_contents in He. destruct (structuredData m) as [s|] eqn:Es; [|discriminate].
    destruct (wf_sd m H s Es) as [_ [_ Hg]]. apply mget_In in He. apply (Hg id e He).
  - intros id name [v Hv]. unfold elem_contents, sd_contents in Hv. destruct (structuredData m) as [s|] eqn:Es; [|discriminate].
    destruct (mget s id) as [e|] eqn:Ee; [|discriminate]. destruct (wf_sd m H s Es) as [_ [_ Hg]]. apply mget_In in Ee.
    apply (proj2 (Hg id e Ee)) with v. apply mget_In. exact Hv.
Qed.
Lemma wf_put_sd m id e : wf m -> sdname id -> good_elem e -> wf (put_sd m id e).
Proof.
  intros [Hp Hv Ht H4 H5 H6 H7 Hsd Hg] Hid He. constructor; auto. intros s Hs. cbn in Hs. injection Hs as <-.
  assert (Hm : msorted (sd_contents m) /\ forall id e, In (id, e) (sd_contents m) -> sdname id /\ good_elem e).
  { unfold sd_contents. destruct (structuredData m) as [s|]; [|cbn; tauto]. destruct (Hsd s eq_refl) as [_ H]. exact H. }
  destruct Hm as [Hm1 Hm2]. split; [apply mset_nonempty|]. split; [apply mset_sorted; exact Hm1|].
  intros id' e' Hin. apply mset_In in Hin as [[-> ->]|Hin]; auto.
Qed.
Lemma wf_elem m id : wf m -> good_elem (elem_contents m id).
Proof.
  intros H. unfold elem_contents, sd_contents. destruct (structuredData m) as [s|] eqn:Es; [|split; cbn; tauto].
  destruct (mget s id) as [e|] eqn:Ee; [|split; cbn; tauto]. apply mget_In in Ee. apply (proj2 (proj2 (wf_sd m H s Es)) id e Ee).
Qed.
Lemma good_elem_set e n v : good_elem e -> sdname n -> good_elem (mset e n v).
Proof.
  intros [H1 H2] Hn. split; [apply mset_sorted; exact H1|]. intros n' v' H. apply mset_In in H as [[-> ->]|H]; eauto.
Qed.
Lemma word_dec max v : (word max v /\ v <> lit "-") \/ ~ (word max v /\ v <> lit "-").
Proof.
  assert (Hp : forall l, Forall printable l \/ ~ Forall printable l).
  { induction l as [|b l [IH|IH]]; [left; constructor| |right; intros H; inversion H; auto].
    destruct (is_graph (bN b)) eqn:E; [left; constructor; [apply printable_graph; exact E|exact IH]|].
    right. intros H. inversion H as [|? ? Hb]. apply printable_graph in Hb. congruence. }
  destruct (Hp v) as [Hv|Hv]; [|unfold word; tauto].
  destruct (bseqb v (lit "-")) eqn:E; [apply bseqb_eq in E; tauto|apply bseqb_neq in E].
  destruct (le_lt_dec 1 (length v)) as [H1|H1]; [|right; intros [[H _] _]; lia].
  destruct (le_lt_dec (length v) max) as [H2|H2]; [|right; intros [[H _] _]; lia].
  left. split; [split; [lia|exact Hv]|exact E].
Qed.
Lemma wf_effect m c m' : wf m -> effect m c m' -> wf m'.
Proof.
  intros Hw He. pose proof Hw as Hw'. destruct Hw' as [Hp Hv Ht H4 H5 H6 H7 Hsd Hg].
  assert (W : forall max store v, word_effect max store v m m' -> (word max v /\ v <> lit "-" -> wf (store (Some v) m)) -> wf m').
  { intros max store v [E1 E2] HW. destruct (word_dec max v) as [H|H]; [rewrite (E1 H); apply HW; exact H|rewrite (E2 H); exact Hw]. }
  destruct c as [p|v|v|v|v|v|v|id|id name v|v]; cbn [effect] in He.
  - destruct He as [E1 E2]. destruct (Z_le_dec 0 p) as [H0|H0]; [|rewrite E2 by lia; exact Hw].
    destruct (Z_le_dec p 191) as [H1|H1]; [|rewrite E2 by lia; exact Hw]. rewrite E1 by lia. constructor; auto.
    unfold good_pri. cbn. auto.
  - destruct He as [E1 E2]. destruct (Z_le_dec 1 v) as [H0|H0]; [|rewrite E2 by lia; exact Hw].
    destruct (Z_le_dec v 999) as [H1|H1]; [|rewrite E2 by lia; exact Hw]. rewrite E1 by lia. constructor; auto. cbn. lia.
  - destruct He as [E1 E2]. destruct (ts_dec v) as [[t Hv']|Hn]; [|rewrite E2 by exact Hn; exact Hw].
    rewrite (E1 t Hv'). constructor; auto. intros t' E. cbn in E. injection E as <-. eauto.
  - apply (W _ _ _ He). intros H. constructor; auto.
  - apply (W _ _ _ He). intros H. constructor; auto.
  - apply (W _ _ _ He). intros H. constructor; auto.
  - apply (W _ _ _ He). intros H. constructor; auto.
  - destruct He as [E1 [E2 E3]]. destruct (sdname_dec id) as [Hid|Hid]; [|rewrite (E3 Hid); exact Hw].
    unfold has_elem in *. destruct (mget (sd_contents m) id) as [e|]; [rewrite E1; eauto|].
    rewrite E2; [|exact Hid|intros [e E]; discriminate]. apply wf_put_sd; auto. split; cbn; tauto.
  - destruct He as [E1 [E2 [E3 [E4 E5]]]]. destruct (sdname_dec id) as [Hid|Hid]; [|rewrite (E5 Hid); exact Hw].
    destruct (sdname_dec name) as [Hn|Hn].
    + destruct (pval_dec v) as [[val Hpv]|Hpv]; [rewrite (E1 Hid Hn val Hpv)|rewrite (E2 Hid Hn Hpv)];
        apply wf_put_sd; auto; apply good_elem_set; auto; apply wf_elem; exact Hw.
    + unfold has_elem in *. destruct (mget (sd_contents m) id) as [e|]; [rewrite E3; eauto|].
      rewrite E4; [|exact Hid|exact Hn|intros [e E]; discriminate]. apply wf_put_sd; auto. split; cbn; tauto.
  - destruct He as [E1 E2]. destruct v as [|b r]; [rewrite E2 by reflexivity; exact Hw|]. rewrite E1 by discriminate.
    constructor; auto. intros g E. cbn in E. injection E as <-. discriminate.
Qed.
Lemma wf_empty : wf empty_message.
Proof. constructor; cbn; try discriminate; auto. lia. Qed.

Lemma wf_steps cs : forall g m, wf m -> exists g' m', steps g m cs = Some (g', m') /\ wf m'.
Proof.
  induction cs as [|c r IH]; intros g m Hm; [eexists _, _; split; [reflexivity|exact Hm]|]. cbn [steps].
  destruct (set_exact_gen g m c) as [g1 [m1 [-> He]]]. apply IH. eapply wf_effect; [exact Hm|apply He, wf_names, Hm].
Qed.

(* m is a message obtained from &SyslogMessage{} by calls of the builder *)
Definition built (m : message) : Prop := exists cs g g', steps g empty_message cs = Some (g', m).
Lemma built_wf m : built m -> wf m.
Proof. intros [cs [g [g' H]]]. destruct (wf_steps cs g empty_message wf_empty) as [g2 [m2 [E Hw]]]. congruence. Qed.

(* C17 *)
Theorem set_exact g m c : built m -> exists g' m', step g m c = Some (g', m') /\ effect m c m'.
Proof.
  intros H. destruct (set_exact_gen g m c) as [g' [m' [E He]]]. exists g', m'. split; [exact E|]. apply He, wf_names, built_wf, H.
Qed.
(* C18: no call panics, on any message (nil maps included), with any values of the package variables; so no sequence does *)
Theorem set_never_panics g m c : step g m c <> None.
Proof. destruct (set_exact_gen g m c) as [g' [m' [E _]]]. congruence. Qed.
Theorem history_never_panics cs : forall g m, steps g m cs <> None.
Proof.
  induction cs as [|c r IH]; intros g m; cbn [steps]; [discriminate|]. pose proof (set_never_panics g m c).
  destruct (step g m c) as [[g' m']|]; [apply IH|congruence].
Qed.

(* ---------- C19 ---------- *)
Theorem string_iff_valid it m : (exists s, to_string it m = Some s) <-> msg_valid m = true.
Proof. unfold to_string. destruct (msg_valid m); split; intros H; eauto; try discriminate. destruct H; discriminate. Qed.

Lemma effect_pri m c m' : effect m c m' ->
  ((exists p, c = SetPriority p /\ 0 <= p <= 191 /\ priority m' = Some p) \/ ((forall p, c = SetPriority p -> ~ 0 <= p <= 191) /\ priority m' = priority m))
  /\ ((exists v, c = SetVersion v /\ 1 <= v <= 999 /\ version m' = v) \/ ((forall v, c = SetVersion v -> ~ 1 <= v <= 999) /\ version m' = version m)).
Proof.
  intros He.
  assert (W : forall max store v, word_effect max store v m m' -> (forall v, priority (store v m) = priority m /\ version (store v m) = version m) ->
    priority m' = priority m /\ version m' = version m).
  { intros max store v [E1 E2] HW. destruct (word_dec max v) as [H|H]; [rewrite (E1 H); apply HW|rewrite (E2 H); auto]. }
  assert (R : priority m' = priority m /\ version m' = version m -> (forall p, c <> SetPriority p) -> (forall v, c <> SetVersion v) ->
    ((exists p, c = SetPriority p /\ 0 <= p <= 191 /\ priority m' = Some p) \/ ((forall p, c = SetPriority p -> ~ 0 <= p <= 191) /\ priority m' = priority m))
  /\ ((exists v, c = SetVersion v /\ 1 <= v <= 999 /\ version m' = v) \/ ((forall v, c = SetVersion v -> ~ 1 <= v <= 999) /\ version m' = version m))).
  { intros [H1 H2] N1 N2. split; right; split; auto; intros p E; [destruct (N1 p E)|destruct (N2 p E)]. }
  destruct c as [p|v|v|v|v|v|v|id|id name v|v]; cbn [effect] in He.
  - destruct He as [E1 E2]. destruct (Z_le_dec 0 p) as [H0|H0]; [destruct (Z_le_dec p 191) as [H1|H1]|].
    + rewrite E1 by lia. split; [left; exists p; cbn; auto|right; cbn; split; [discriminate|reflexivity]].
    + rewrite E2 by lia. split; right; (split; [|reflexivity]); [intros q Eq; injection Eq as <-; lia|discriminate].
    + rewrite E2 by lia. split; right; (split; [|reflexivity]); [intros q Eq; injection Eq as <-; lia|discriminate].
  - destruct He as [E1 E2]. destruct (Z_le_dec 1 v) as [H0|H0]; [destruct (Z_le_dec v 999) as [H1|H1]|].
    + rewrite E1 by lia. split; [right; cbn; split; [discriminate|reflexivity]|left; exists v; cbn; auto].
    + rewrite E2 by lia. split; right; (split; [|reflexivity]); [discriminate|intros q Eq; injection Eq as <-; lia].
    + rewrite E2 by lia. split; right; (split; [|reflexivity]); [discriminate|intros q Eq; injection Eq as <-; lia].
  - apply R; try discriminate. destruct He as [E1 E2]. destruct (ts_dec v) as [[t Hv']|Hn]; [rewrite (E1 t Hv'); auto|rewrite E2 by exact Hn; auto].
  - apply R; try discriminate. apply (W _ _ _ He); auto.
  - apply R; try discriminate. apply (W _ _ _ He); auto.
  - apply R; try discriminate. apply (W _ _ _ He); auto.
  - apply R; try discriminate. apply (W _ _ _ He); auto.
  - apply R; try discriminate. destruct He as [E1 [E2 E3]]. destruct (sdname_dec id) as [Hid|Hid]; [|rewrite (E3 Hid); auto].
    unfold has_elem in *. destruct (mget (sd_contents m) id) as [e|]; [rewrite E1; eauto|].
    rewrite E2; [auto|exact Hid|intros [e E]; discriminate].
  - apply R; try discriminate. destruct He as [E1 [E2 [E3 [E4 E5]]]]. destruct (sdname_dec id) as [Hid|Hid]; [|rewrite (E5 Hid); auto].
    destruct (sdname_dec name) as [Hn|Hn].
    + destruct (pval_dec v) as [[val Hpv]|Hpv]; [rewrite (E1 Hid Hn val Hpv)|rewrite (E2 Hid Hn Hpv)]; auto.
    + unfold has_elem in *. destruct (mget (sd_contents m) id) as [e|]; [rewrite E3; eauto|].
      rewrite E4; [auto|exact Hid|exact Hn|intros [e E]; discriminate].
  - apply R; try discriminate. destruct He as [E1 E2]. destruct v as [|b r]; [rewrite E2 by reflexivity; auto|]. rewrite E1 by discriminate. auto.
Qed.

Definition set_good_priority (cs : list call) : Prop := exists p, In (SetPriority p) cs /\ 0 <= p <= 191.
Definition set_good_version (cs : list call) : Prop := exists v, In (SetVersion v) cs /\ 1 <= v <= 999.
Lemma steps_valid cs : forall g m g' m', wf m -> steps g m cs = Some (g', m') ->
  ((exists p, priority m' = Some p) <-> (exists p, priority m = Some p) \/ set_good_priority cs)
  /\ (1 <= version m' <-> 1 <= version m \/ set_good_version cs).
Proof.
  unfold set_good_priority, set_good_version. induction cs as [|c r IH]; intros g m g' m' Hw H; cbn [steps] in H.
  - injection H as <- <-. split; split; auto; intros [H|[p [[] _]]]; auto.
  - destruct (set_exact_gen g m c) as [g1 [m1 [E He]]]. rewrite E in H. specialize (He (wf_names m Hw)).
    destruct (IH g1 m1 g' m' (wf_effect _ _ _ Hw He) H) as [I1 I2]. rewrite I1, I2. clear I1 I2 IH H. apply effect_pri in He as [Hp Hv]. split.
    + clear Hv. destruct Hp as [[p [-> [Hr Hp]]]|[Hp1 Hp2]].
      * split; [intros _; right; exists p; split; [left; reflexivity|exact Hr]|intros _; left; exists p; exact Hp].
      * rewrite Hp2. split; (intros [HH|[q [Hin Hq]]]; [left; exact HH|]); [right; exists q; split; [right; exact Hin|exact Hq]|].
        destruct Hin as [->|Hin]; [destruct (Hp1 q eq_refl Hq)|right; exists q; auto].
    + clear Hp. destruct Hv as [[v [-> [Hr Hp]]]|[Hp1 Hp2]].
      * split; [intros _; right; exists v; split; [left; reflexivity|exact Hr]|intros _; left; lia].
      * rewrite Hp2. split; (intros [HH|[q [Hin Hq]]]; [left; exact HH|]); [right; exists q; split; [right; exact Hin|exact Hq]|].
        destruct Hin as [->|Hin]; [destruct (Hp1 q eq_refl Hq)|right; exists q; auto].
Qed.
(* Valid() after any builder calls: some call set a priority in 0..191 and some call set a version in 1..999 *)
Theorem valid_iff_history g cs g' m : steps g empty_message cs = Some (g', m) ->
  msg_valid m = true <-> set_good_priority cs /\ set_good_version cs.
Proof.
  intros H. destruct (steps_valid cs g _ _ _ wf_empty H) as [H1 H2]. assert (Hw : wf m) by (apply built_wf; exists cs, g, g'; exact H).
  destruct Hw as [Hp Hv _ _ _ _ _ _ _]. unfold msg_valid, valid_version, in_between. cbn [priority version empty_message] in *.
  unfold good_pri in Hp. split.
  - intros E. apply andb_true_iff in E as [E1 E2]. apply andb_true_iff in E2 as [E2 _]. apply Z.leb_le in E2.
    destruct (priority m) as [p|]; [|discriminate]. split.
    + destruct (proj1 H1) as [[q Hq]|Hx]; [eauto|discriminate|exact Hx].
    + destruct (proj1 H2) as [Hx|Hx]; [lia|cbn in Hx; lia|exact Hx].
  - intros [Hx1 Hx2]. destruct (proj2 H1 (or_intror Hx1)) as [p Ep]. rewrite Ep in *. destruct Hp as [Hp _].
    pose proof (proj2 H2 (or_intror Hx2)) as Hy. unfold valid_priority, in_between. rewrite !andb_true_iff, !Z.leb_le. lia.
Qed.

(* ---------- round trips ---------- *)
Lemma params_map_good ps : forall e, good_elem e -> Forall param_ok ps -> good_elem (params_map e ps).
Proof.
  induction ps as [|p ps IH]; intros e He H; [exact He|]. rewrite params_map_cons. inversion H as [|? ? Hp Hps]; subst.
  apply IH; [|exact Hps]. apply good_elem_set; [exact He|apply Hp].
Qed.
Lemma elems_map_good es : forall m, (msorted m /\ forall id e, In (id, e) m -> sdname id /\ good_elem e) -> Forall elem_ok es ->
  (msorted (elems_map m es) /\ forall id e, In (id, e) (elems_map m es) -> sdname id /\ good_elem e).
Proof.
  induction es as [|e es IH]; intros m [Hm1 Hm2] H; [split; auto|]. inversion H as [|? ? He Hes]; subst.
  change (elems_map m (e :: es)) with (elems_map (mset m (e_id e) (params_map [] (e_params e))) es). apply IH; [|exact Hes]. split; [apply mset_sorted; exact Hm1|].
  intros id e' Hin. apply mset_In in Hin as [[-> ->]|Hin]; [|auto]. split; [apply He|]. apply params_map_good; [split; cbn; tauto|apply He].
Qed.
Lemma elems_map_ne es : forall m, (m <> [] \/ es <> []) -> elems_map m es <> [].
Proof.
  induction es as [|e es IH]; intros m H; [destruct H; [exact H|congruence]|]. 
  change (elems_map m (e :: es)) with (elems_map (mset m (e_id e) (params_map [] (e_params e))) es). apply IH. left. apply mset_nonempty.
Qed.
Lemma word_value_good max w : word max w -> good_word max (word_value w).
Proof.
  intros H. unfold word_value. destruct (bseqb w (lit "-")) eqn:E; [exact I|]. apply bseqb_neq in E. split; assumption.
Qed.
(* a message denoted by a text of the grammar is well formed and valid *)
Lemma grammar_wf cm data m : grammar cm data m -> wf m /\ msg_valid m = true /\ (cm = true -> forall g, msg m = Some g -> compliant_msg g).
Proof.
  intros (pri & ver & ts & host & app & proc & mid & sd & tail & p & v & t & s & g & E & Hp & Hv & Ht & H4 & H5 & H6 & H7 & Hsd & Hm & ->).
  destruct Hp as [_ [_ [Hp _]]]. destruct Hv as [_ [_ [Hv _]]]. split; [|split].
  - constructor; cbn [priority facility severity version timestamp hostname appname procID msgID structuredData msg]; try (apply word_value_good; assumption).
    + unfold good_pri. cbn. auto.
    + lia.
    + intros t' ->. destruct Ht as [[_ Ht]|[t2 [Ht H]]]; [discriminate|]. injection Ht as <-. eauto.
    + intros s' ->. inversion Hsd as [|es Hne Hes Hnd]; subst. split; [apply elems_map_ne; auto|]. apply elems_map_good; [cbn; tauto|exact Hes].
    + intros g' ->. inversion Hm as [|g2 Hc E1 E2]; subst. destruct g2; [discriminate|]. cbn in E2. injection E2 as <-. discriminate.
  - unfold msg_valid. cbn [priority version]. unfold valid_priority, valid_version, in_between. rewrite !andb_true_iff, !Z.leb_le. lia.
  - intros Hc g' Eg. cbn [msg] in Eg. subst g. inversion Hm as [|g2 Hc2 E1 E2]; subst. destruct g2; [discriminate|]. cbn in E2. injection E2 as <-. auto.
Qed.

(* all parameter values *)
Definition all_values (P : bytes -> Prop) (m : message) : Prop :=
  forall s id e n v, structuredData m = Some s -> In (id, e) s -> In (n, v) e -> P v.
Lemma mvals_id {V} (f : V -> V) (m : gmap V) : (forall k v, In (k, v) m -> f v = v) <-> mvals f m = m.
Proof.
  induction m as [|[k v] r IH]; cbn; [tauto|]. split.
  - intros H. rewrite (H k v) by auto. f_equal. apply IH. intros k' v' Hin. apply (H k' v'). auto.
  - intros H. injection H as H1 H2. intros k' v' [E|Hin]; [injection E as <- <-; exact H1|]. apply (proj2 IH H2) with k'. exact Hin.
Qed.
Lemma mangle_msg_id m : mangle_msg m = m <-> all_values (fun v => mangle v = v) m.
Proof.
  unfold mangle_msg, all_values. split.
  - intros H s id e n v Es Hin Hv. rewrite Es in H. cbn [option_map] in H. apply (f_equal structuredData) in H. cbn in H. rewrite Es in H.
    injection H as H. unfold mangle_sd in H. apply mvals_id with (k := id) (v := e) in H; [|exact Hin]. apply mvals_id with (k := n) (v := v) in H; assumption.
  - intros H. apply set_sd_eta. destruct (structuredData m) as [s|]; [|reflexivity]. cbn. f_equal. symmetry. unfold mangle_sd. apply mvals_id.
    intros id e Hin. apply mvals_id. intros n v Hv. apply (H s id e n v); auto.
Qed.

Lemma wf_print_parse it m pm : is_order it -> wf m -> msg_valid m = true ->
  (compliant pm = true -> forall g, msg m = Some g -> compliant_msg g) ->
  exists s, to_string it m = Some s /\ snd (parse pm s) = Ret (Some (mangle_msg m)) None.
Proof.
  intros Hit Hw Hv Hc. destruct (string_grammar it m (compliant pm) Hit Hw Hv Hc) as [s [E G]].
  exists s. split; [exact E|]. apply parse_accepts_grammar. exact G.
Qed.

(* C20: the text printed for a valid built message parses without error; the message read back differs at most in the
   parameter values, and is the same when these are ASCII *)
Theorem build_print_parse it m pm : is_order it -> built m -> msg_valid m = true -> all_values ascii_only m ->
  (compliant pm = true -> forall g, msg m = Some g -> compliant_msg g) ->
  exists s, to_string it m = Some s /\ snd (parse pm s) = Ret (Some m) None.
Proof.
  intros Hit Hb Hv Ha Hc. destruct (wf_print_parse it m pm Hit (built_wf m Hb) Hv Hc) as [s [E P]].
  exists s. split; [exact E|]. rewrite P. f_equal. f_equal. apply mangle_msg_id. intros s' id e n v H1 H2 H3. apply mangle_ascii. eapply Ha; eauto.
Qed.
(* without the restriction to ASCII: accepted, and every other field is read back unchanged *)
Theorem build_print_accepted it m pm : is_order it -> built m -> msg_valid m = true ->
  (compliant pm = true -> forall g, msg m = Some g -> compliant_msg g) ->
  exists s m', to_string it m = Some s /\ snd (parse pm s) = Ret (Some m') None
    /\ set_structuredData None m' = set_structuredData None m
    /\ map fst (sd_contents m') = map fst (sd_contents m)
    /\ forall id, map fst (elem_contents m' id) = map fst (elem_contents m id).
Proof.
  intros Hit Hb Hv Hc. destruct (wf_print_parse it m pm Hit (built_wf m Hb) Hv Hc) as [s [E P]].
  exists s, (mangle_msg m). split; [exact E|]. split; [exact P|]. split; [reflexivity|].
  assert (K : forall V W (f : V -> W) (g : gmap V), map fst (mvals f g) = map fst g) by (intros; unfold mvals; rewrite map_map; reflexivity).
  assert (G : forall V W (f : V -> W) (g : gmap V) k, mget (mvals f g) k = option_map f (mget g k)).
  { intros V W f g k. induction g as [|[k' v'] r IH]; [reflexivity|]. cbn. destruct (bcmp k k'); auto. }
  unfold elem_contents, sd_contents, mangle_msg. cbn [structuredData set_structuredData]. destruct (structuredData m) as [sd|]; cbn [option_map]; [|auto].
  split; [apply K|]. intros id. unfold mangle_sd. rewrite G. destruct (mget sd id); cbn; auto.
Qed.

(* C21 *)
Theorem parse_print_parse it pm data m : is_order it -> snd (parse pm data) = Ret (Some m) None -> all_values ascii_only m ->
  exists s, to_string it m = Some s /\ snd (parse pm s) = Ret (Some m) None.
Proof.
  intros Hit Hp Ha. apply parse_accepts_grammar in Hp. destruct (grammar_wf _ _ _ Hp) as [Hw [Hv Hc]].
  destruct (wf_print_parse it m pm Hit Hw Hv Hc) as [s [E P]]. exists s. split; [exact E|]. rewrite P. f_equal. f_equal.
  apply mangle_msg_id. intros s' id e n v H1 H2 H3. apply mangle_ascii. eapply Ha; eauto.
Qed.

(* ---------- C22 ---------- *)
Definition survives (c : N) : Prop := (c < 128 \/ c = 195)%N.
Lemma first_byte_high c : scalar c -> (128 <= c)%N -> (194 <= bN (first_byte c) < 245)%N.
Proof.
  intros Hc H. destruct (encode_cases c Hc) as [[H1 _]|[_ [b [t [i [E [Hb [Hi Ht]]]]]]]]; [lia|]. unfold first_byte. rewrite E. cbn [List.hd].
  unfold utf_start in Hi.
  destruct (btw 194 223 (bN b)) eqn:E1; [apply btw_prop in E1; lia|]. destruct (N.eqb_spec (bN b) 224); [lia|]. destruct (N.eqb_spec (bN b) 237); [lia|].
  destruct (btw 225 239 (bN b)) eqn:E2; [apply btw_prop in E2; lia|]. destruct (N.eqb_spec (bN b) 240); [lia|].
  destruct (btw 241 243 (bN b)) eqn:E3; [apply btw_prop in E3; lia|]. destruct (N.eqb_spec (bN b) 244); [lia|discriminate].
Qed.
Lemma bN_byte_of n : (n < 256)%N -> bN (byte_of n) = n.
Proof. intros H. unfold byte_of. destruct (Byte.of_N n) as [b|] eqn:E; [apply Byte.to_of_N in E; exact E|apply Byte.of_N_None_iff in E; lia]. Qed.
Lemma cons_hd {A} (a b : A) l r : a :: l = b :: r -> a = b. Proof. congruence. Qed.
Lemma cons_tl {A} (a b : A) l r : a :: l = b :: r -> l = r. Proof. congruence. Qed.
Lemma byte_of_inj a b : (a < 256)%N -> (b < 256)%N -> byte_of a = byte_of b -> a = b.
Proof.
  intros Ha Hb. unfold byte_of. destruct (Byte.of_N a) as [x|] eqn:E1; [|apply Byte.of_N_None_iff in E1; lia].
  destruct (Byte.of_N b) as [y|] eqn:E2; [|apply Byte.of_N_None_iff in E2; lia]. intros ->. apply Byte.to_of_N in E1, E2. congruence.
Qed.
Lemma encode2 c : (128 <= c)%N -> (c < 2048)%N -> encode c = [byte_of (192 + c / 64); byte_of (128 + c mod 64)].
Proof.
  intros H1 H2. unfold encode. replace (c <? 128)%N with false by (symmetry; apply N.ltb_ge; exact H1).
  apply N.ltb_lt in H2. rewrite H2. reflexivity.
Qed.
Lemma div195 f : (194 <= f < 245)%N -> (f / 64 = 3)%N.
Proof. intros H. symmetry. apply N.div_unique with (f - 192)%N; lia. Qed.
Lemma mangle_chars cs : Forall scalar cs -> mangle (concat (map encode cs)) = concat (map (fun c => encode (bN (first_byte c))) cs).
Proof. induction 1 as [|c cs Hc H IH]; [reflexivity|]. cbn [map concat]. rewrite mangle_encode by exact Hc. rewrite IH. reflexivity. Qed.
Lemma survives_fix c : survives c -> encode (bN (first_byte c)) = encode c.
Proof.
  intros [H| ->]; [|reflexivity]. unfold first_byte, encode at 2. assert (Hc := H). apply N.ltb_lt in H. rewrite H. cbn [List.hd].
  f_equal. unfold byte_of. destruct (Byte.of_N c) as [b|] eqn:E; [apply Byte.to_of_N in E; exact E|apply Byte.of_N_None_iff in E; lia].
Qed.
Lemma mangle_fix_iff cs : Forall scalar cs -> (mangle (concat (map encode cs)) = concat (map encode cs) <-> Forall survives cs).
Proof.
  intros Hs. rewrite mangle_chars by exact Hs. induction Hs as [|c cs Hc H IH]; [split; [constructor|reflexivity]|]. cbn [map concat]. split.
  - intros E.
    assert (Hv : survives c).
    { destruct (N.ltb_spec c 128) as [Hl|Hl]; [left; exact Hl|]. right.
      pose proof (first_byte_high c Hc Hl) as Hf.
      destruct (encode_cases c Hc) as [[H1 _]|[_ [b [t [i [Ee [Hb [Hi Ht]]]]]]]]; [lia|].
      assert (Ef : first_byte c = b) by (unfold first_byte; rewrite Ee; reflexivity). 
      rewrite encode2 in E by lia. rewrite (div195 _ Hf) in E. rewrite Ee in E. cbn [app] in E. assert (E1 := cons_hd _ _ _ _ E). assert (E2 := cons_tl _ _ _ _ E).
      assert (Hb195 : bN b = 195%N) by (rewrite <- E1; reflexivity).
      assert (Hc2 : (c < 2048)%N).
      { destruct (N.ltb_spec c 2048) as [Hx|Hx]; [exact Hx|]. exfalso. unfold encode in Ee.
        replace (c <? 128)%N with false in Ee by (symmetry; apply N.ltb_ge; exact Hl). replace (c <? 2048)%N with false in Ee by (symmetry; apply N.ltb_ge; exact Hx).
        destruct (N.ltb_spec c 65536) as [Hy|Hy]; apply cons_hd in Ee; assert (Hbb := f_equal bN Ee); rewrite Hb195 in Hbb.
        - assert (c / 4096 < 16)%N by (apply N.div_lt_upper_bound; lia). rewrite bN_byte_of in Hbb by lia. lia.
        - destruct Hc as [Hc _]. assert (c / 262144 < 5)%N by (apply N.div_lt_upper_bound; lia). rewrite bN_byte_of in Hbb by lia. lia. }
      rewrite (encode2 c Hl Hc2) in Ee. assert (Eb := cons_hd _ _ _ _ Ee). apply cons_tl in Ee. subst t. cbn [app] in E2. apply cons_hd in E2.
      rewrite Ef, Hb195 in E2. change (byte_of (128 + 195 mod 64)) with (byte_of 131) in E2.
      pose proof (N.mod_lt c 64 ltac:(lia)) as Hm. apply byte_of_inj in E2; [|lia|lia].
      assert (Hq : (192 + c / 64 = 195)%N).
      { apply byte_of_inj; [|lia|rewrite Eb, <- E1; reflexivity]. assert (c / 64 < 32)%N by (apply N.div_lt_upper_bound; lia). lia. }
      rewrite (N.div_mod c 64) by lia. lia. }
    constructor; [exact Hv|]. apply IH. rewrite (survives_fix c Hv) in E. apply app_inv_head in E. exact E.
  - intros HH. inversion HH as [|? ? Hv Hvs]; subst. rewrite (survives_fix c Hv). f_equal. apply IH. exact Hvs.
Qed.

Lemma chars_utf8 cs : Forall scalar cs -> utf8 (concat (map encode cs)).
Proof. induction 1; cbn; constructor; auto. Qed.
Lemma escape_inj v w : utf8 v -> utf8 w -> escape v = escape w -> v = w.
Proof.
  intros Hv Hw E. rewrite (pval_unesc _ _ (escape_pval v Hv)), (pval_unesc _ _ (escape_pval w Hw)), E. reflexivity.
Qed.
(* C22: EscapeBytes only escapes iff all characters are ASCII or U+00C3; every other character is replaced (below) *)
Theorem escape_bytes_exact cs : Forall scalar cs -> (escape_bytes (concat (map encode cs)) = escape (concat (map encode cs)) <-> Forall survives cs).
Proof.
  intros H. rewrite escape_bytes_mangle. rewrite <- (mangle_fix_iff cs H). split.
  - intros E. apply escape_inj in E; [exact E|apply mangle_utf8|apply chars_utf8; exact H].
  - intros ->. reflexivity.
Qed.
(* what is printed instead: each character becomes the character numbered by the first byte of its encoding *)
Theorem escape_bytes_chars cs : Forall scalar cs ->
  escape_bytes (concat (map encode cs)) = escape (concat (map (fun c => encode (bN (first_byte c))) cs)).
Proof. intros H. rewrite escape_bytes_mangle, mangle_chars by exact H. reflexivity. Qed.
(* C22, any byte string.  A string is a sequence of encoded characters and of bytes that begin no encoded character;
   firsts v fs: fs are the first bytes of these pieces *)
Inductive firsts : bytes -> bytes -> Prop :=
| fs_nil : firsts [] []
| fs_char c r fs : scalar c -> firsts r fs -> firsts (encode c ++ r) (List.hd x00 (encode c) :: fs)
| fs_bad b r fs : (forall c r', scalar c -> b :: r <> encode c ++ r') -> firsts r fs -> firsts (b :: r) (b :: fs).
Lemma tail_len_some i l n : tail_len i l = S n -> exists t r, l = t ++ r /\ utail i t /\ length t = S n.
Proof.
  revert i n. induction l as [|b l IH]; intros i n H; cbn [tail_len] in H; [discriminate|].
  destruct (utf_tail i (bN b)) as [[j|]|] eqn:E; [| |discriminate].
  - destruct (tail_len j l) as [|k] eqn:Ej; [discriminate|]. destruct (IH j k Ej) as [t [r [-> [Ht Hl]]]]. exists (b :: t), r. split; [reflexivity|]. cbn [utail length]. rewrite E, Hl. split; [exact Ht|congruence].
  - injection H as <-. exists [b], l. split; [reflexivity|]. cbn [utail length]. rewrite E. auto.
Qed.
Lemma rune_rest_bad b r : (forall c r', scalar c -> b :: r <> encode c ++ r') -> rune_rest b r = 0%nat.
Proof.
  intros H. unfold rune_rest. destruct (utf_start (bN b)) as [i|] eqn:Ei; [|reflexivity]. destruct (tail_len i r) as [|n] eqn:E; [reflexivity|].
  destruct (tail_len_some i r n E) as [t [r' [-> [Ht _]]]]. destruct (utail_encode b i t Ei Ht) as [c [Hc [_ Ec]]]. destruct (H c r' Hc). rewrite Ec. reflexivity.
Qed.
Lemma firsts_exists v : exists fs, firsts v fs.
Proof.
  enough (H : forall n v, (length v <= n)%nat -> exists fs, firsts v fs) by (apply (H (length v)); lia).
  clear v. induction n as [|n IH]; intros [|b r] Hl; try (exists []; constructor); [cbn in Hl; lia|]. cbn [length] in Hl.
  assert (D : (exists c r', scalar c /\ b :: r = encode c ++ r') \/ (forall c r', scalar c -> b :: r <> encode c ++ r')).
  { destruct (N.ltb_spec (bN b) 128) as [Hb|Hb].
    - left. exists (bN b), r. split; [apply scalar_small, bN_lt|]. unfold encode. apply N.ltb_lt in Hb. rewrite Hb, byte_of_bN. reflexivity.
    - destruct (utf_start (bN b)) as [i|] eqn:Ei; [destruct (tail_len i r) as [|k] eqn:E|].
      + right. intros c r' Hc Er. destruct (encode_cases c Hc) as [[H [Ec E0]]|[H [b' [t [i' [Ec [Hb' [Hi Ht]]]]]]]]; rewrite Ec in Er; cbn [app] in Er; injection Er as E1 E2.
        * rewrite E1, E0 in Hb. lia.
        * subst b' r. rewrite Ei in Hi. injection Hi as <-. rewrite (tail_len_utail t i r' Ht) in E. destruct t; [destruct Ht|discriminate].
      + left. destruct (tail_len_some i r k E) as [t [r' [-> [Ht _]]]]. destruct (utail_encode b i t Ei Ht) as [c [Hc [_ Ec]]]. exists c, r'. split; [exact Hc|]. rewrite Ec. reflexivity.
      + right. intros c r' Hc Er. destruct (encode_cases c Hc) as [[H [Ec E0]]|[H [b' [t [i' [Ec [Hb' [Hi Ht]]]]]]]]; rewrite Ec in Er; cbn [app] in Er; injection Er as E1 E2.
        * rewrite E1, E0 in Hb. lia.
        * subst b'. congruence. }
  destruct D as [[c [r' [Hc E]]]|D].
  - assert (Hr : (length r' <= n)%nat). { apply (f_equal (@length byte)) in E. cbn [length] in E. rewrite app_length in E. destruct (encode_cases c Hc) as [[_ [Ec _]]|[_ [b' [t [i' [Ec _]]]]]]; rewrite Ec in E; cbn [length] in E; lia. }
    destruct (IH r' Hr) as [fs Hf]. exists (List.hd x00 (encode c) :: fs). rewrite E. constructor; assumption.
  - destruct (IH r ltac:(lia)) as [fs Hf]. exists (b :: fs). constructor; assumption.
Qed.
(* each piece is printed as the character numbered by its first byte, escaped if that is one of the three *)
Theorem escape_bytes_any v : exists fs, firsts v fs /\ escape_bytes v = escape (concat (map (fun b => encode (bN b)) fs)).
Proof.
  destruct (firsts_exists v) as [fs H]. exists fs. split; [exact H|]. rewrite escape_bytes_mangle. f_equal.
  induction H as [|c r fs Hc H IH|b r fs Hb H IH]; [reflexivity|rewrite mangle_encode by exact Hc; cbn [map concat]; rewrite IH; reflexivity|].
  unfold mangle in *. cbn [mangle_loop map concat]. rewrite (rune_rest_bad b r Hb), IH. reflexivity.
Qed.
Lemma encode_inj_app c c' r r' : scalar c -> scalar c' -> encode c ++ r = encode c' ++ r' -> encode c = encode c' /\ r = r'.
Proof.
  intros Hc Hc' E. destruct (encode_cases c Hc) as [[H [Ec E0]]|[H [b [t [i [Ec [Hb [Hi Ht]]]]]]]], (encode_cases c' Hc') as [[H' [Ec' E0']]|[H' [b' [t' [i' [Ec' [Hb' [Hi' Ht']]]]]]]];
    rewrite Ec, Ec' in *; cbn [app] in E; injection E as E1 E2.
  - rewrite E1. auto.
  - rewrite <- E1, E0 in Hb'. lia.
  - rewrite E1, E0' in Hb. lia.
  - subst b'. rewrite Hi in Hi'. injection Hi' as <-. assert (Hl : length t = length t') by (rewrite <- (tail_len_utail t i r Ht), <- (tail_len_utail t' i r' Ht'), E2; reflexivity).
    clear - E2 Hl. assert (t = t' /\ r = r') as [-> ->]; [|auto]. revert t' E2 Hl. induction t as [|x t IH]; intros [|y t'] E Hl; try discriminate; [auto|]. cbn [app] in E. injection E as -> E. destruct (IH t' E) as [-> ->]; [cbn in Hl; lia|auto].
Qed.
(* the pieces are unique *)
Theorem firsts_unique v fs fs' : firsts v fs -> firsts v fs' -> fs = fs'.
Proof.
  intros H. revert fs'. induction H as [|c r fs Hc H IH|b r fs Hb H IH]; intros fs' H'.
  - inversion H' as [|c r fs0 Hc H0 E|]; [reflexivity|]. apply app_eq_nil in E as [E _]. destruct (encode_cases c Hc) as [[_ [Ec _]]|[_ [b [t [i [Ec _]]]]]]; rewrite Ec in E; discriminate.
  - remember (encode c ++ r) as v eqn:Ev. destruct H' as [|c' r' fs' Hc' H'|b r' fs' Hb H'].
    + exfalso. symmetry in Ev. apply app_eq_nil in Ev as [E _]. destruct (encode_cases c Hc) as [[_ [Ec _]]|[_ [b [t [i [Ec _]]]]]]; rewrite Ec in E; discriminate.
    + destruct (encode_inj_app c' c r' r Hc' Hc Ev) as [-> ->]. f_equal. apply IH, H'.
    + exfalso. exact (Hb c r Hc Ev).
  - remember (b :: r) as v eqn:Ev. destruct H' as [|c' r' fs' Hc' H'|b' r' fs' Hb' H']; [discriminate| |].
    + exfalso. exact (Hb c' r' Hc' eq_refl).
    + injection Ev as -> ->. f_equal. apply IH, H'.
Qed.
(* a lone byte 0xE2, a quote, and U+00E9 *)
Example escape_bytes_any_ex : firsts ["226"%byte; """"%byte; "195"%byte; "169"%byte] ["226"%byte; """"%byte; "195"%byte]
  /\ escape_bytes ["226"%byte; """"%byte; "195"%byte; "169"%byte] = ["195"%byte; "162"%byte; "\"%byte; """"%byte; "195"%byte; "131"%byte].
Proof.
  split; [|vm_compute; reflexivity]. apply fs_bad.
  - intros c r' Hc E. assert (H := rune_rest_bad). clear H. destruct (encode_cases c Hc) as [[H [Ec E0]]|[H [b [t [i [Ec [Hb [Hi Ht]]]]]]]]; rewrite Ec in E; cbn [app] in E; injection E as E1 E2.
    + rewrite <- E1 in E0. change (bN "226") with 226%N in E0. lia.
    + subst b. change (utf_start (bN "226")) with (Some 2%N) in Hi. injection Hi as <-. destruct t as [|x t]; [destruct Ht|]. cbn [app] in E2. injection E2 as <- _. destruct Ht.
  - apply (fs_char 34 _ _ ltac:(unfold scalar; lia)). apply (fs_char 233 [] [] ltac:(unfold scalar; lia)). constructor.
Qed.

(* the claim of C22 is false: U+00E9 is printed as U+00C3 *)
Theorem escape_bytes_refuted : exists c, scalar c /\ ~ special c /\ escape_bytes (encode c) <> encode c.
Proof. exists 233%N. split; [unfold scalar; lia|]. split; [unfold special; lia|]. vm_compute. discriminate. Qed.

(* parameter values stored by the builder or the parser are always UTF-8 *)
Definition chars (v : bytes) (cs : list N) : Prop := Forall scalar cs /\ v = concat (map encode cs).
Lemma utf8_chars v : utf8 v -> exists cs, chars v cs.
Proof.
  induction 1 as [|c l Hc H [cs [H1 H2]]]; [exists []; split; [constructor|reflexivity]|]. exists (c :: cs). subst l. split; [constructor; assumption|reflexivity].
Qed.
Lemma pval_utf8 raw v : pval raw v -> utf8 v.
Proof.
  induction 1 as [|b raw v Hb H IH|c raw v Hc Hn H IH]; [constructor| |constructor; assumption].
  replace (b :: v) with (encode (bN b) ++ v); [constructor; [apply scalar_small, bN_lt|exact IH]|].
  unfold encode. replace (bN b <? 128)%N with true; [rewrite byte_of_bN; reflexivity|]. symmetry. apply N.ltb_lt. unfold special in Hb. lia.
Qed.
Lemma values_put P m id e : all_values P m -> (forall n v, In (n, v) e -> P v) -> all_values P (put_sd m id e).
Proof.
  intros H He s id' e' n v Es Hin Hv. cbn in Es. injection Es as <-. apply mset_In in Hin as [[-> ->]|Hin]; [eauto|].
  unfold sd_contents in Hin. destruct (structuredData m) as [s|] eqn:Es; [eapply H; eauto|destruct Hin].
Qed.
Lemma values_elem P m id n v : all_values P m -> In (n, v) (elem_contents m id) -> P v.
Proof.
  intros H Hin. unfold elem_contents, sd_contents in Hin. destruct (structuredData m) as [s|] eqn:Es; [|destruct Hin].
  destruct (mget s id) as [e|] eqn:Ee; [|destruct Hin]. apply mget_In in Ee. eapply H; eauto.
Qed.
Lemma values_effect m c m' : all_values utf8 m -> effect m c m' -> all_values utf8 m'.
Proof.
  intros Hw He.
  assert (R : structuredData m' = structuredData m -> all_values utf8 m') by (intros E s id e n v Es; rewrite E in Es; eauto).
  assert (W : forall max store v, word_effect max store v m m' -> (structuredData (store (Some v) m) = structuredData m) -> all_values utf8 m').
  { intros max store v [E1 E2] HW. destruct (word_dec max v) as [H|H]; [rewrite (E1 H) in *; auto|rewrite (E2 H); exact Hw]. }
  assert (N0 : forall n v : bytes, In (n, v) (@nil (bytes * bytes)) -> utf8 v) by (intros n v []).
  destruct c as [p|v|v|v|v|v|v|id|id name v|v]; cbn [effect] in He.
  - destruct He as [E1 E2]. apply R. destruct (Z_le_dec 0 p) as [H0|H0]; [|rewrite E2 by lia; reflexivity].
    destruct (Z_le_dec p 191) as [H1|H1]; [rewrite E1 by lia; reflexivity|rewrite E2 by lia; reflexivity].
  - destruct He as [E1 E2]. apply R. destruct (Z_le_dec 1 v) as [H0|H0]; [|rewrite E2 by lia; reflexivity].
    destruct (Z_le_dec v 999) as [H1|H1]; [rewrite E1 by lia; reflexivity|rewrite E2 by lia; reflexivity].
  - destruct He as [E1 E2]. apply R. destruct (ts_dec v) as [[t Hv']|Hn]; [rewrite (E1 t Hv')|rewrite E2 by exact Hn]; reflexivity.
  - apply (W _ _ _ He). reflexivity.
  - apply (W _ _ _ He). reflexivity.
  - apply (W _ _ _ He). reflexivity.
  - apply (W _ _ _ He). reflexivity.
  - destruct He as [E1 [E2 E3]]. destruct (sdname_dec id) as [Hid|Hid]; [|rewrite (E3 Hid); exact Hw].
    unfold has_elem in *. destruct (mget (sd_contents m) id) as [e|]; [rewrite E1; eauto|].
    rewrite E2; [|exact Hid|intros [e E]; discriminate]. apply values_put; auto.
  - destruct He as [E1 [E2 [E3 [E4 E5]]]]. destruct (sdname_dec id) as [Hid|Hid]; [|rewrite (E5 Hid); exact Hw].
    destruct (sdname_dec name) as [Hn|Hn].
    + assert (Hm : forall val, utf8 val -> all_values utf8 (put_sd m id (mset (elem_contents m id) name val))).
      { intros val Hval. apply values_put; auto. intros n w Hin. apply mset_In in Hin as [[-> ->]|Hin]; [exact Hval|eapply values_elem; eauto]. }
      destruct (pval_dec v) as [[val Hpv]|Hpv]; [rewrite (E1 Hid Hn val Hpv)|rewrite (E2 Hid Hn Hpv)]; apply Hm; [eapply pval_utf8; eauto|constructor].
    + unfold has_elem in *. destruct (mget (sd_contents m) id) as [e|]; [rewrite E3; eauto|].
      rewrite E4; [|exact Hid|exact Hn|intros [e E]; discriminate]. apply values_put; auto.
  - destruct He as [E1 E2]. apply R. destruct v as [|b r]; [rewrite E2 by reflexivity|rewrite E1 by discriminate]; reflexivity.
Qed.
Lemma values_steps cs : forall g m g' m', wf m -> all_values utf8 m -> steps g m cs = Some (g', m') -> all_values utf8 m'.
Proof.
  induction cs as [|c r IH]; intros g m g' m' Hm Ha H; cbn [steps] in H; [injection H as <- <-; exact Ha|].
  destruct (set_exact_gen g m c) as [g1 [m1 [E He]]]. rewrite E in H. specialize (He (wf_names m Hm)).
  eapply IH; [eapply wf_effect; eauto|eapply values_effect; eauto|exact H].
Qed.
Theorem built_values_utf8 m : built m -> all_values utf8 m.
Proof. intros [cs [g [g' H]]]. eapply values_steps; [apply wf_empty| |exact H]. intros s id e n v E. discriminate. Qed.
Lemma grammar_values cm data m : grammar cm data m -> all_values utf8 m.
Proof.
  intros (pri & ver & ts & host & app & proc & mid & sd & tail & p & v & t & s & g & E & Hp & Hv & Ht & H4 & H5 & H6 & H7 & Hsd & Hm & ->).
  intros s' id e n w Es Hin Hw. cbn in Es. subst s. inversion Hsd as [|es Hne Hes Hnd E1 E2]; subst.
  assert (G1 : forall ps a, (forall n v, In (n, v) a -> utf8 v) -> Forall param_ok ps -> forall n v, In (n, v) (params_map a ps) -> utf8 v).
  { induction ps as [|q ps IH]; intros a Ha Hps n' v' Hin'; [eapply Ha; exact Hin'|]. rewrite params_map_cons in Hin'. inversion Hps as [|? ? Hq Hps']; subst.
    eapply IH; [| |exact Hin']; [|exact Hps']. intros n2 v2 Hin2. apply mset_In in Hin2 as [[-> ->]|Hin2]; [eapply pval_utf8; apply Hq|eauto]. }
  assert (G2 : forall es a, (forall id e n v, In (id, e) a -> In (n, v) e -> utf8 v) -> Forall elem_ok es -> forall id e n v, In (id, e) (elems_map a es) -> In (n, v) e -> utf8 v).
  { clear - G1. induction es as [|q ps IH]; intros a Ha Hps id' e' n' v' Hin'; [eapply Ha; exact Hin'|].
    change (elems_map a (q :: ps)) with (elems_map (mset a (e_id q) (params_map [] (e_params q))) ps) in Hin'. inversion Hps as [|? ? Hq Hps']; subst.
    eapply IH; [| |exact Hin']; [|exact Hps']. intros id2 e2 n2 v2 Hin2. apply mset_In in Hin2 as [[-> ->]|Hin2]; [|eauto]. apply G1; [intros ? ? []|apply Hq]. }
  eapply (G2 es []); eauto. intros ? ? ? ? [].
Qed.

(* every value consists of characters that survive printing *)
Definition all_survive (m : message) : Prop := all_values (fun v => exists cs, chars v cs /\ Forall survives cs) m.
Lemma mangle_survive m : all_values utf8 m -> (mangle_msg m = m <-> all_survive m).
Proof.
  intros Hu. rewrite mangle_msg_id. unfold all_survive, all_values. split; intros H sd id e n v H1 H2 H3.
  - specialize (H sd id e n v H1 H2 H3). destruct (utf8_chars v (Hu sd id e n v H1 H2 H3)) as [cs [Hc E]]. exists cs. split; [split; assumption|].
    apply mangle_fix_iff; [exact Hc|]. rewrite <- E. exact H.
  - destruct (H sd id e n v H1 H2 H3) as [cs [[Hc E] Hs]]. subst v. apply mangle_fix_iff; assumption.
Qed.
(* so the round trips are exact exactly for messages whose values consist of surviving characters *)
Theorem build_print_parse_iff it m pm : is_order it -> built m -> msg_valid m = true ->
  (compliant pm = true -> forall g, msg m = Some g -> compliant_msg g) ->
  ((exists s, to_string it m = Some s /\ snd (parse pm s) = Ret (Some m) None) <-> all_survive m).
Proof.
  intros Hit Hb Hv Hc. destruct (wf_print_parse it m pm Hit (built_wf m Hb) Hv Hc) as [s [E P]].
  rewrite <- (mangle_survive m (built_values_utf8 m Hb)). split.
  - intros [s' [E' P']]. rewrite E in E'. injection E' as <-. rewrite P in P'. injection P' as P'. exact P'.
  - intros H. exists s. rewrite H in P. auto.
Qed.
Theorem parse_print_parse_iff it pm data m : is_order it -> snd (parse pm data) = Ret (Some m) None ->
  ((exists s, to_string it m = Some s /\ snd (parse pm s) = Ret (Some m) None) <-> all_survive m).
Proof.
  intros Hit Hp. apply parse_accepts_grammar in Hp. destruct (grammar_wf _ _ _ Hp) as [Hw [Hv Hc]].
  destruct (wf_print_parse it m pm Hit Hw Hv Hc) as [s [E P]].
  rewrite <- (mangle_survive m (grammar_values _ _ _ Hp)). split.
  - intros [s' [E' P']]. rewrite E in E'. injection E' as <-. rewrite P in P'. injection P' as P'. exact P'.
  - intros H. exists s. rewrite H in P. auto.
Qed.
(* the unrestricted round trip is false *)
Theorem build_print_parse_refuted : exists m s m', built m /\ msg_valid m = true /\ to_string any_order m = Some s
  /\ snd (parse (new_machine false false) s) = Ret (Some m') None /\ m' <> m.
Proof.
  destruct (steps (Globals [] []) empty_message [SetPriority 14; SetVersion 1; SetParameter (lit "a") (lit "k") (encode 233)]) as [[g m]|] eqn:E; [|vm_compute in E; discriminate].
  exists m. pose proof E as E'. vm_compute in E'. injection E' as _ Em. eexists _, _. split; [eexists; exists (Globals [] []), g; exact E|].
  rewrite <- Em. split; [vm_compute; reflexivity|]. split; [vm_compute; reflexivity|]. split; [vm_compute; reflexivity|]. discriminate.
Qed.

(* ---------- C23 ---------- *)
(* SetParameter on an existing name replaces its value; the documented "discarded" is false *)
Theorem set_parameter_overwrites g m id name old v val : built m -> mget (elem_contents m id) name = Some old -> pval v val ->
  exists g' m', step g m (SetParameter id name v) = Some (g', m') /\ mget (elem_contents m' id) name = Some val
    /\ (forall id' name', (id', name') <> (id, name) -> mget (elem_contents m' id') name' = mget (elem_contents m id') name').
Proof.
  intros Hb Ho Hp. destruct (set_exact g m (SetParameter id name v) Hb) as [g' [m' [E He]]]. exists g', m'. split; [exact E|].
  destruct (wf_names m (built_wf m Hb)) as [N1 N2].
  assert (Hid : sdname id). { apply N1. unfold has_elem. unfold elem_contents in Ho. destruct (mget (sd_contents m) id); [eauto|discriminate]. }
  assert (Hn : sdname name) by (apply (N2 id); exists old; exact Ho).
  destruct He as [E1 _]. rewrite (E1 Hid Hn val Hp). unfold elem_contents at 1 3, sd_contents at 1, put_sd. cbn [structuredData set_structuredData sd_contents].
  split; [rewrite !mget_mset_same; reflexivity|]. intros id' name' Hne. unfold sd_contents at 1. cbn [structuredData set_structuredData].
  destruct (bseqb id' id) eqn:Ei.
  - apply bseqb_eq in Ei. subst id'. rewrite mget_mset_same. apply mget_mset_other. congruence.
  - apply bseqb_neq in Ei. rewrite mget_mset_other by exact Ei. reflexivity.
Qed.
(* and an ungrammatical value erases the old one *)
Theorem set_parameter_bad_value_erases g m id name old v : built m -> mget (elem_contents m id) name = Some old -> (forall val, ~ pval v val) ->
  exists g' m', step g m (SetParameter id name v) = Some (g', m') /\ mget (elem_contents m' id) name = Some [].
Proof.
  intros Hb Ho Hp. destruct (set_exact g m (SetParameter id name v) Hb) as [g' [m' [E He]]]. exists g', m'. split; [exact E|].
  destruct (wf_names m (built_wf m Hb)) as [N1 N2].
  assert (Hid : sdname id). { apply N1. unfold has_elem. unfold elem_contents in Ho. destruct (mget (sd_contents m) id); [eauto|discriminate]. }
  assert (Hn : sdname name) by (apply (N2 id); exists old; exact Ho).
  destruct He as [_ [E2 _]]. rewrite (E2 Hid Hn Hp). unfold elem_contents at 1, sd_contents, put_sd. cbn [structuredData set_structuredData].
  rewrite !mget_mset_same. reflexivity.
Qed.
Theorem set_parameter_discarded_refuted : exists g m id name old v g' m', built m /\ mget (elem_contents m id) name = Some old
  /\ step g m (SetParameter id name v) = Some (g', m') /\ m' <> m.
Proof.
  destruct (steps (Globals [] []) empty_message [SetParameter (lit "a") (lit "k") (lit "1")]) as [[g m]|] eqn:E; [|vm_compute in E; discriminate].
  exists g, m, (lit "a"), (lit "k"), (lit "1"), (lit "2"). pose proof E as E'. vm_compute in E'. injection E' as Eg Em.
  eexists _, _. split; [exists [SetParameter (lit "a") (lit "k") (lit "1")], (Globals [] []), g; exact E|].
  rewrite <- Em, <- Eg. split; [vm_compute; reflexivity|]. split; [vm_compute; reflexivity|]. discriminate.
Qed.

(* ---------- C25 ---------- *)
(* equal contents, by lookup *)
Definition same_contents (m1 m2 : message) : Prop :=
  set_structuredData None m1 = set_structuredData None m2
  /\ (structuredData m1 = None <-> structuredData m2 = None)
  /\ (forall id, has_elem m1 id <-> has_elem m2 id)
  /\ (forall id name, mget (elem_contents m1 id) name = mget (elem_contents m2 id) name).
Lemma same_contents_eq m1 m2 : wf m1 -> wf m2 -> same_contents m1 m2 -> m1 = m2.
Proof.
  intros W1 W2 [H1 [H2 [H3 H4]]].
  assert (E : structuredData m1 = structuredData m2).
  { unfold has_elem, elem_contents, sd_contents in *. destruct (structuredData m1) as [s1|] eqn:E1, (structuredData m2) as [s2|] eqn:E2.
    - f_equal. pose proof (wf_sd m1 W1 s1 E1) as [_ [S1 G1]]. pose proof (wf_sd m2 W2 s2 E2) as [_ [S2 G2]]. apply msorted_ext; auto.
      intros id. specialize (H3 id). specialize (H4 id). destruct (mget s1 id) as [e1|] eqn:L1, (mget s2 id) as [e2|] eqn:L2; auto.
      + f_equal. apply msorted_ext; [apply (G1 id e1), mget_In, L1|apply (G2 id e2), mget_In, L2|exact H4].
      + destruct (proj1 H3) as [e He]; [eauto|discriminate].
      + destruct (proj2 H3) as [e He]; [eauto|discriminate].
    - pose proof (proj2 H2 eq_refl). discriminate.
    - symmetry. apply H2. reflexivity.
    - reflexivity. }
  rewrite <- (set_sd_eta m1 _ eq_refl), <- (set_sd_eta m2 _ eq_refl), <- E.
  change (set_structuredData (structuredData m1) (set_structuredData None m1) = set_structuredData (structuredData m1) (set_structuredData None m2)).
  rewrite H1. reflexivity.
Qed.
Theorem string_canonical it1 it2 m1 m2 : is_order it1 -> is_order it2 -> built m1 -> built m2 -> same_contents m1 m2 -> to_string it1 m1 = to_string it2 m2.
Proof.
  intros I1 I2 B1 B2 H. apply built_wf in B1, B2. apply same_contents_eq in H; auto. subst m2. unfold to_string. destruct (msg_valid m1); [|reflexivity].
  destruct (structuredData m1) as [s|] eqn:Es; [|reflexivity].
  rewrite (sd_string_text it1 s I1 (wf_sd m1 B1 s Es)), (sd_string_text it2 s I2 (wf_sd m1 B1 s Es)). reflexivity.
Qed.
(* elements and, within each, parameters are printed with strictly increasing names *)
Fixpoint increasing (l : list bytes) : Prop := match l with a :: ((b :: _) as r) => bcmp a b = Lt /\ increasing r | _ => True end.
Lemma sorted_increasing {V} (m : gmap V) : msorted m -> increasing (map fst m).
Proof.
  induction m as [|[k v] [|[k' v'] r] IH]; intros H; cbn; auto. destruct H as [H1 H2]. split; [apply (H1 k' v'); left; reflexivity|apply IH; exact H2].
Qed.
Theorem string_sorted it m s sd : is_order it -> built m -> to_string it m = Some s -> structuredData m = Some sd ->
  exists pre es post, s = pre ++ concat (map elem_text es) ++ post /\ increasing (map e_id es) /\ Forall (fun e => increasing (map p_name (e_params e))) es
    /\ (forall id, has_elem m id <-> In id (map e_id es))
    /\ (forall e name, In e es -> (has_param m (e_id e) name <-> In name (map p_name (e_params e)))).
Proof.
  intros Hit Hb Hs Es. apply built_wf in Hb. unfold to_string in Hs. destruct (msg_valid m); [|discriminate]. rewrite Es in Hs.
  pose proof (wf_sd m Hb sd Es) as Hg. rewrite (sd_string_text it sd Hit Hg) in Hs. destruct Hg as [_ [S G]].
  injection Hs as <-. exists (lit "<" ++ to_dec (match priority m with Some p => p | None => 0 end) ++ lit ">" ++ to_dec (version m) ++ lit " "
      ++ or_dash (match timestamp m with Some t => Some (format_micro t) | None => None end) ++ lit " "
      ++ or_dash (hostname m) ++ lit " " ++ or_dash (appname m) ++ lit " " ++ or_dash (procID m) ++ lit " " ++ or_dash (msgID m) ++ lit " "),
      (elems_of_map sd), (match msg m with Some s => lit " " ++ s | None => [] end).
  split; [rewrite <- !app_assoc; reflexivity|].
  assert (Eid : map e_id (elems_of_map sd) = map fst sd) by (unfold elems_of_map; rewrite map_map; reflexivity).
  assert (Ein : forall V (mm : gmap V) k, msorted mm -> ((exists v, mget mm k = Some v) <-> In k (map fst mm))).
  { intros V mm k Hs. split.
    - intros [v Hv]. apply mget_In in Hv. apply in_map_iff. exists (k, v). auto.
    - intros Hin. apply in_map_iff in Hin as [[k' v] [E Hin]]. cbn in E. subst k'. exists v. apply In_mget; assumption. }
  split; [rewrite Eid; apply sorted_increasing; exact S|]. split; [|split].
  - apply Forall_forall. intros e He. apply in_map_iff in He as [[id em] [<- Hin]]. cbn [elem_of_map e_params fst snd]. rewrite map_map. cbn [p_name].
    apply sorted_increasing. apply (G id em Hin).
  - intros id. rewrite Eid. unfold has_elem, sd_contents. rewrite Es. apply Ein. exact S.
  - intros e name He. apply in_map_iff in He as [[id em] [<- Hin]]. cbn [elem_of_map e_id e_params fst snd]. rewrite map_map. cbn [p_name].
    unfold has_param, elem_contents, sd_contents. rewrite Es, (In_mget sd id em S Hin). apply Ein. apply (G id em Hin).
Qed.

(* ---------- a concrete history meeting the hypotheses above ---------- *)
Definition demo : list call := [SetPriority 191; SetVersion 1; SetTimestamp (lit "2003-10-11T22:14:15.003Z"); SetHostname (lit "h"); SetParameter (lit "b") (lit "k2") (lit "v\]");
  SetParameter (lit "b") (lit "k1") (lit "x"); SetElementID (lit "a"); SetMessage (lit "hello")].
Example demo_ok : match steps (Globals [] []) empty_message demo with
  | Some (_, m) => msg_valid m = true /\ to_string any_order m = Some (lit "<191>1 2003-10-11T22:14:15.003Z h - - - [a][b k1=""x"" k2=""v\]""] hello")
                   /\ mget (elem_contents m (lit "b")) (lit "k2") = Some (lit "v]")
  | None => False end.
Proof. vm_compute. auto. Qed.
Example any_order_ok : is_order any_order. Proof. intros w l. apply Permutation_refl. Qed.
