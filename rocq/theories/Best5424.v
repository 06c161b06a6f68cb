(* C07: what best effort keeps of the header. *)
From Verif Require Import Bytes GoMap GoTime Common CommonFacts M5424Def A5424 M5424 Spec5424 Ref5424a Ref5424b Ref5424c Grammar5424 Utf8 Ts5424 Gram5424 Loc5424 Props5424 Thm5424.
Local Open Scope Z_scope.

(* maximum lengths of HOSTNAME, APP-NAME, PROCID, MSGID; their values in a message *)
Definition word_max : list nat := [255; 48; 128; 32]%nat.
Definition words_of (m : message) : list (option bytes) := [hostname m; appname m; procID m; msgID m].
(* complete words: each within its limit and followed by a space *)
Definition words_text (ws : list bytes) : bytes := concat (map (fun w => w ++ lit " ") ws).
Definition words_ok (ws : list bytes) : Prop := (length ws <= 4)%nat /\ forall i w n, nth_error ws i = Some w -> nth_error word_max i = Some n -> word n w.

(* ---- proofs ---- *)
Definition flds : list fld := [FHost; FApp; FProc; FMsgid].
Definition chain (cm : bool) (fs : list fld) : stage := fold_right p_word (p_sd cm) fs.
Definition get (f : fld) (o : msg5424) : bytes := match f with FHost => o_hostname o | FApp => o_appname o | FProc => o_procID o | FMsgid => o_msgID o end.
Lemma word_max_fmax i f : nth_error flds i = Some f -> nth_error word_max i = Some (N.to_nat (fmax f)).
Proof. destruct i as [|[|[|[|i]]]]; cbn; intros H; try (injection H as <-; reflexivity). destruct i; discriminate. Qed.

(* the partial or final internal message *)
Definition out_of (r : pres) : option msg5424 := match r with PGood o => Some o | PBad x _ => x end.
Lemma sd_get cm o p rest o' : out_of (p_sd cm o p rest) = Some o' -> hd9 o' = hd9 o.
Proof. pose proof (hd_sd cm (hd9 o) o p rest eq_refl) as H. unfold hd in H. destruct (p_sd cm o p rest) as [x|[x|] e]; cbn; intros E; [injection E as <-; exact H|injection E as <-; exact H|discriminate]. Qed.
(* fields that the chain does not set are kept *)
Definition core (o : msg5424) := (o_prioritySet o, o_priority o, o_version o, o_timestampSet o, o_timestamp o).
Lemma chain_get cm fs : forall o p rest o', out_of (chain cm fs o p rest) = Some o' -> core o' = core o /\ forall f, ~ In f fs -> get f o' = get f o.
Proof.
  induction fs as [|f fs IH]; intros o p rest o' H; cbn [chain fold_right] in H.
  - apply sd_get in H. unfold hd9 in H. injection H as E1 E2 E3 E4 E5 E6 E7 E8 E9. unfold core. split; [congruence|]. intros []; cbn; auto.
  - unfold p_word in H. fold (chain cm fs) in H. destruct (span_max is_graph (N.to_nat (fmax f)) rest) as [w r].
    assert (Hsame : Some o = Some o' -> core o' = core o /\ forall g, ~ In g (f :: fs) -> get g o' = get g o) by (intros E; injection E as <-; auto).
    destruct w as [|a w]; [apply Hsame; exact H|]. destruct r as [|b r]; [apply Hsame; exact H|]. destruct (is 32 b); [|apply Hsame; exact H].
    apply IH in H as [H1 H2]. split; [rewrite H1; destruct f; reflexivity|]. intros g Hg. rewrite H2 by (intros Hi; apply Hg; right; exact Hi).
    destruct f, g; try reflexivity; exfalso; apply Hg; left; reflexivity.
Qed.
Lemma chain_words cm ws : forall fs o p rest, (length ws <= length fs)%nat -> (forall i w f, nth_error ws i = Some w -> nth_error fs i = Some f -> word (N.to_nat (fmax f)) w) ->
  exists o1 p1, chain cm fs o p (words_text ws ++ rest) = chain cm (skipn (length ws) fs) o1 p1 rest /\ core o1 = core o
    /\ (NoDup fs -> (forall i w f, nth_error ws i = Some w -> nth_error fs i = Some f -> get f o1 = w) /\ (forall f, ~ In f (firstn (length ws) fs) -> get f o1 = get f o))
    /\ o_hasElements o1 = o_hasElements o /\ o_message o1 = o_message o /\ o_sd o1 = o_sd o.
Proof.
  induction ws as [|w ws IH]; intros fs o p rest Hl Hok.
  - exists o, p. cbn [words_text map concat app length skipn]. repeat split; auto. intros [|i] w f; discriminate.
  - destruct fs as [|f fs]; [cbn [length] in Hl; lia|]. cbn [length] in Hl.
    destruct (IH fs (set_word f w o) (p + len w + 1) rest) as [o1 [p1 [H1 [H2 [H3 [H4 [H5 H6]]]]]]]; [lia|intros i w' f' A B; apply (Hok (S i) w' f' A B)|].
    exists o1, p1. split.
    { unfold words_text. cbn [map concat length skipn]. fold (words_text ws). change (lit " ") with [" "%byte]. rewrite <- !app_assoc. cbn [app chain fold_right]. fold (chain cm fs).
      rewrite p_word_cont by (apply (Hok 0%nat w f eq_refl eq_refl)). exact H1. }
    split; [rewrite H2; destruct f; reflexivity|]. split; [|destruct f; auto]. intros Hnd. inversion Hnd as [|? ? Hn1 Hn2]; subst. destruct (H3 Hn2) as [A B]. split.
    + intros [|i] w' f' E1 E2; cbn [nth_error] in *; [|eapply A; eauto]. injection E1 as <-. injection E2 as <-.
      rewrite B; [destruct f; reflexivity|]. intros Hi. apply Hn1. clear - Hi. revert Hi. generalize (length ws). intros n. revert fs. induction n as [|n IHn]; intros [|g fs]; cbn; [tauto|tauto|tauto|]. intros [H|H]; auto.
    + intros g Hg. cbn [length firstn] in Hg. rewrite B; [|intros Hi; apply Hg; right; exact Hi]. destruct f, g; try reflexivity; exfalso; apply Hg; left; reflexivity.
Qed.

Lemma opt_get o : words_of (export o) = map (fun f => opt_str (get f o)) flds. Proof. reflexivity. Qed.
Lemma nth_map {A B} (f : A -> B) l i : nth_error (map f l) i = option_map f (nth_error l i).
Proof. revert i; induction l; intros [|i]; cbn; auto. Qed.

Lemma parse_out m data o : bestEffort m = true -> out_of (spec5424 (compliant m) data) = Some o -> exists e, snd (parse m data) = Ret (Some (export o)) e.
Proof.
  intros Hb H. rewrite (proj1 (parse_spec m data)), Hb. destruct (spec5424 (compliant m) data) as [o'|[o'|] e]; cbn in *; [injection H as <-|injection H as <-|discriminate]; eauto.
Qed.

(* the part of spec5424 after PRI VERSION TIMESTAMP *)
Lemma spec_chain cm pri ver ts p v t ws rest : pri_text pri p -> version_text ver v -> ts_field ts t -> words_ok ws ->
  exists o1 p1, spec5424 cm (lit "<" ++ pri ++ lit ">" ++ ver ++ lit " " ++ ts ++ lit " " ++ words_text ws ++ rest) = chain cm (skipn (length ws) flds) o1 p1 rest
    /\ core o1 = core (put_ts t (set_ver v (pri_msg p)))
    /\ (forall i w f, nth_error ws i = Some w -> nth_error flds i = Some f -> get f o1 = w) /\ (forall f, ~ In f (firstn (length ws) flds) -> get f o1 = [])
    /\ o_hasElements o1 = false /\ o_message o1 = [] /\ o_sd o1 = None.
Proof.
  intros H1 H2 H3 [H4 H5]. unfold spec5424.
  change (lit "<") with ["<"%byte]. change (lit ">") with [">"%byte]. change (lit " ") with [" "%byte]. cbn [app].
  destruct (p_pri_cont (p_header cm) (p_header cm) _ pri p (ver ++ " "%byte :: ts ++ " "%byte :: words_text ws ++ rest) eq_refl H1) as [-> _].
  unfold p_header. rewrite (p_version_cont _ _ _ _ v) by assumption. rewrite (p_ts_cont _ _ _ _ t) by assumption.
  change (p_word FHost (p_word FApp (p_word FProc (p_word FMsgid (p_sd cm))))) with (chain cm flds).
  destruct (chain_words cm ws flds (put_ts t (set_ver v (pri_msg p))) (len pri + 2 + len ver + 1 + len ts + 1) rest) as [o1 [p1 [A1 [A2 [A3 [A4 [A5 A6]]]]]]].
  - exact H4.
  - intros i w f E1 E2. apply (H5 i w _ E1). apply word_max_fmax. exact E2.
  - exists o1, p1. split; [exact A1|]. split; [exact A2|]. destruct A3 as [B1 B2]; [repeat constructor; cbn; intuition discriminate|].
    split; [exact B1|]. split; [|rewrite A4, A5, A6; destruct t; auto]. intros f Hf. rewrite B2 by exact Hf. destruct t, f; reflexivity.
Qed.
Lemma core_export o o1 p v t : core o = core o1 -> core o1 = core (put_ts t (set_ver v (pri_msg p))) ->
  priority (export o) = Some p /\ version (export o) = v /\ timestamp (export o) = t.
Proof.
  intros E1 E2. rewrite E2 in E1. unfold core in E1. unfold export. cbn [priority version timestamp]. destruct t; injection E1 as _ -> -> -> E; [rewrite E|]; auto.
Qed.

(* every header field that is complete in the input is in the returned message, whatever comes after *)
Theorem best_effort_keeps_header m pri ver ts p v t ws rest : bestEffort m = true ->
  pri_text pri p -> version_text ver v -> ts_field ts t -> words_ok ws ->
  exists msg e, snd (parse m (lit "<" ++ pri ++ lit ">" ++ ver ++ lit " " ++ ts ++ lit " " ++ words_text ws ++ rest)) = Ret (Some msg) e
    /\ priority msg = Some p /\ version msg = v /\ timestamp msg = t
    /\ forall i w, nth_error ws i = Some w -> nth_error (words_of msg) i = Some (word_value w).
Proof.
  intros Hb H1 H2 H3 H4. destruct (spec_chain (compliant m) pri ver ts p v t ws rest H1 H2 H3 H4) as [o1 [p1 [Hs [Hc [Hw [Hn [_ _]]]]]]].
  set (data := lit "<" ++ _) in *.
  assert (exists o, out_of (spec5424 (compliant m) data) = Some o) as [o Ho].
  { pose proof (spec_minimal (compliant m) data) as Hm. destruct (spec5424 (compliant m) data) as [o|[o|] e]; cbn; eauto. exfalso.
    destruct (proj1 (version_cases ver v) H2) as [[a [Ev [Ha _]]]|[[a [b [Ev [Ha _]]]]|[a [b [c [Ev [Ha _]]]]]]];
      (apply (Hm p); unfold minimally_valid; exists pri, a; eexists; split; [unfold data; rewrite Ev; reflexivity|split; [exact H1|]]; apply btw_prop in Ha; split; [unfold digit; lia|intros ->; change (bN "0") with 48%N in Ha; lia]). }
  destruct (parse_out m data o Hb Ho) as [e He]. exists (export o), e. split; [exact He|]. rewrite Hs in Ho. apply chain_get in Ho as [Hco Hg].
  destruct (core_export o o1 p v t Hco Hc) as [-> [-> ->]]. repeat split. intros i w Hi. rewrite opt_get, nth_map.
  assert (Hlt : (i < length ws)%nat) by (apply nth_error_Some; congruence). destruct H4 as [Hl4 Hok].
  destruct (nth_error flds i) as [f|] eqn:Ef; [|apply nth_error_None in Ef; change (length flds) with 4%nat in Ef; lia]. cbn [option_map]. f_equal.
  rewrite Hg; [rewrite (Hw i w f Hi Ef); apply (opt_word (N.to_nat (fmax f))); apply (Hok i w _ Hi (word_max_fmax _ _ Ef))|].
  (* f is not among the fields after ws *)
  revert Hlt Hl4 Ef. clear. generalize (length ws). intros n Hlt Hl4 Ef.
  destruct n as [|[|[|[|[|n]]]]]; try lia; destruct i as [|[|[|[|i]]]]; try lia; cbn in Ef; injection Ef as <-; cbn; intuition discriminate.
Qed.

(* and when the next field is not complete, nothing later is invented *)
Theorem best_effort_nothing_later m pri ver ts p v t ws rest msg e n :
  pri_text pri p -> version_text ver v -> ts_field ts t -> words_ok ws -> nth_error word_max (length ws) = Some n ->
  (forall w r, rest = w ++ lit " " ++ r -> ~ word n w) ->
  snd (parse m (lit "<" ++ pri ++ lit ">" ++ ver ++ lit " " ++ ts ++ lit " " ++ words_text ws ++ rest)) = Ret (Some msg) e ->
  (forall i, (length ws <= i)%nat -> nth_error (words_of msg) i = Some None \/ (4 <= i)%nat) /\ structuredData msg = None /\ M5424.msg msg = None.
Proof.
  intros H1 H2 H3 H4 Hn Hno. destruct (spec_chain (compliant m) pri ver ts p v t ws rest H1 H2 H3 H4) as [o1 [p1 [Hs [Hc [Hw [Hnn [He [Hm Hsd]]]]]]]].
  set (data := lit "<" ++ _) in *. rewrite (proj1 (parse_spec m data)), Hs. intros Hr.
  assert (Hlen : (length ws < 4)%nat). { apply (proj1 (nth_error_Some word_max _)). congruence. }
  assert (exists f fs, skipn (length ws) flds = f :: fs /\ nth_error flds (length ws) = Some f) as [f [fs [Hsk Hf]]].
  { revert Hlen. clear. generalize (length ws). intros k Hk. destruct k as [|[|[|[|k]]]]; try lia; cbn; do 2 eexists; split; reflexivity. }
  rewrite Hsk in Hr. cbn [chain fold_right] in Hr. fold (chain (compliant m) fs) in Hr.
  rewrite (word_max_fmax _ _ Hf) in Hn. injection Hn as <-.
  assert (Hbad : exists e', p_word f (chain (compliant m) fs) o1 p1 rest = PBad (Some o1) e').
  { unfold p_word. destruct (span_max is_graph (N.to_nat (fmax f)) rest) as [w r] eqn:E. apply span_parts in E as [Er [Ew [El _]]].
    destruct w as [|a w]; [eauto|]. destruct r as [|b r]; [eauto|]. destruct (is 32 b) eqn:Eb; [|eauto]. exfalso.
    rewrite (is_lit 32 b " "%byte Eb eq_refl) in Er. apply (Hno (a :: w) r Er). split; [cbn [length] in *; lia|]. eapply Forall_impl; [|exact Ew]. intros c. apply printable_graph. }
  destruct Hbad as [e' Hbad]. rewrite Hbad in Hr. cbn [ret_of] in Hr. destruct (bestEffort m); [|discriminate]. injection Hr as <- _. split.
  - intros i Hi. destruct (Nat.le_gt_cases 4 i) as [Hge|Hlt]; [right; exact Hge|left]. rewrite opt_get, nth_map.
    destruct (nth_error flds i) as [g|] eqn:Eg; [|apply nth_error_None in Eg; change (length flds) with 4%nat in Eg; lia]. cbn [option_map]. f_equal.
    rewrite Hnn; [reflexivity|]. revert Hi Hlt Eg. clear. generalize (length ws). intros k Hi Hlt Eg.
    destruct i as [|[|[|[|i]]]]; try lia; cbn in Eg; injection Eg as <-; destruct k as [|[|[|[|k]]]]; try lia; cbn; intuition discriminate.
  - unfold export. cbn [structuredData M5424.msg]. rewrite He, Hm. auto.
Qed.

(* the same for an incomplete timestamp: it is the timestamp text, if complete up to its last byte, and no later field *)
Theorem best_effort_timestamp m pri ver p v rest msg e :
  pri_text pri p -> version_text ver v -> (forall ts t r, rest = ts ++ lit " " ++ r -> ~ ts_field ts t) ->
  snd (parse m (lit "<" ++ pri ++ lit ">" ++ ver ++ lit " " ++ rest)) = Ret (Some msg) e ->
  priority msg = Some p /\ version msg = v /\ words_of msg = [None; None; None; None] /\ structuredData msg = None /\ M5424.msg msg = None
  /\ (timestamp msg = None \/ exists ts t r, rest = ts ++ r /\ ts_text ts t /\ timestamp msg = Some t).
Proof.
  intros H1 H2 Hno. set (data := lit "<" ++ _). rewrite (proj1 (parse_spec m data)).
  assert (Hs : spec5424 (compliant m) data = p_ts (chain (compliant m) flds) (set_ver v (pri_msg p)) (len pri + 2 + len ver + 1) rest).
  { unfold spec5424. destruct (p_pri_cont (p_header (compliant m)) (p_header (compliant m)) data pri p (ver ++ " "%byte :: rest) eq_refl H1) as [-> _].
    unfold p_header. rewrite (p_version_cont _ _ _ _ v) by assumption. reflexivity. }
  rewrite Hs. intros Hr.
  assert (Hbad : exists e', p_ts (chain (compliant m) flds) (set_ver v (pri_msg p)) (len pri + 2 + len ver + 1) rest = PBad (Some (set_ver v (pri_msg p))) e'
     \/ exists ts t r, rest = ts ++ r /\ ts_text ts t /\ p_ts (chain (compliant m) flds) (set_ver v (pri_msg p)) (len pri + 2 + len ver + 1) rest = PBad (Some (set_ts t (set_ver v (pri_msg p)))) e').
  { unfold p_ts. destruct rest as [|b r]; [eauto|]. destruct (is 45 b) eqn:E1.
    - destruct r as [|c r]; [eauto|]. destruct (is 32 c) eqn:E2; [|eauto]. exfalso. apply (Hno (lit "-") None r); [|left; auto].
      rewrite (is_lit 45 b "-"%byte E1 eq_refl), (is_lit 32 c " "%byte E2 eq_refl). reflexivity.
    - destruct (is_dig (bN b)) eqn:E3; [|eauto]. destruct (ts_scan 554 r) as [w [r'|]] eqn:Es; [|eauto].
      destruct (parse_rfc3339 (b :: w)) as [t|] eqn:Et; [|eauto].
      destruct (proj1 (ts_accept b r r' t)) as [s [Er Hst]]; [eauto|].
      pose proof Es as Es'. apply ts_scan_run in Es' as [Er' _]. assert (s = b :: w) by (rewrite Er' in Er; apply app_inv_tail with (l := r'); exact (eq_sym Er)). subst s.
      destruct r' as [|c r2]; [eexists; right; exists (b :: w), t, []; auto|]. destruct (is 32 c) eqn:E4; [|eexists; right; exists (b :: w), t, (c :: r2); auto].
      exfalso. apply (Hno (b :: w) (Some t) r2); [|right; eauto]. rewrite (is_lit 32 c " "%byte E4 eq_refl) in Er. exact Er. }
  destruct Hbad as [e' [Hbad|[ts [t [r [Er [Hts Hbad]]]]]]]; rewrite Hbad in Hr; cbn [ret_of] in Hr; (destruct (bestEffort m); [|discriminate]); injection Hr as <- _;
    (split; [reflexivity|]; split; [reflexivity|]; split; [reflexivity|]; split; [reflexivity|]; split; [reflexivity|]).
  - left. reflexivity.
  - right. exists ts, t, r. auto.
Qed.
Example best_effort_header_ex : words_ok [lit "host"; lit "-"] /\ snd (parse best (lit "<3>1 2020-02-29T00:00:00Z host - " ++ lit "tab" ++ ["009"%byte])) =
  Ret (Some (Message (Some 0) (Some 3) (Some 3) (Some (Time 2020 2 29 0 0 0 0 0)) (Some (lit "host")) None None None None 1 None)) (Some (PErr EProcID 36)).
Proof.
  split; [|vm_compute; reflexivity]. split; [cbn; lia|]. intros [|[|i]] w n E1 E2; cbn in E1, E2.
  - injection E1 as <-. injection E2 as <-. split; [split; apply Nat.leb_le; reflexivity|]. repeat (apply Forall_cons; [split; vm_compute; discriminate|]). apply Forall_nil.
  - injection E1 as <-. injection E2 as <-. split; [split; apply Nat.leb_le; reflexivity|]. repeat (apply Forall_cons; [split; vm_compute; discriminate|]). apply Forall_nil.
  - destruct i; discriminate.
Qed.
