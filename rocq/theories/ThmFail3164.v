(* Parse rejects an RFC 3164 input exactly as the relation of Fail3164 says (property C56). *)
From Verif Require A5424 Spec5424 Ref5424a Gram5424 ThmFail5424.
From Verif Require Import Bytes GoTime Cal Common CommonFacts GotoLang M3164Def A3164 M3164 Spec3164 Ref3164 Grammar3164 Gram3164 Thm3164 Fail3164.
Local Open Scope Z_scope.
Notation nn_nil := ThmFail5424.nn_nil.
Notation nn_cons := ThmFail5424.nn_cons.
Notation nn_is := ThmFail5424.nn_is.

(* ---- texts that are broken off ---- *)
Section Stuck.
Variable next : N -> N -> option N.
Variable fin n0 : N.
Variable P : bytes -> Prop.
Hypothesis Hn0 : n0 <> fin.
Hypothesis HP : forall w, P w <-> srun next n0 w = Some fin.
Hypothesis Hfin : forall b, next fin (bN b) = None.
Hypothesis Hgo : forall w m, srun next n0 w = Some m -> exists y, srun next m y = Some fin.
Lemma scan_at w : forall n m bad, n <> fin -> srun next n w = Some m -> m <> fin -> (forall b r, bad = b :: r -> next m (bN b) = None) -> scan next fin n (w ++ bad) = SStop w m.
Proof.
  induction w as [|b w IH]; intros n m bad Hn H Hm Hb; cbn [srun app] in *.
  - injection H as <-. destruct bad as [|b r]; [reflexivity|]. cbn [scan]. rewrite (Hb b r eq_refl). reflexivity.
  - cbn [scan]. destruct (next n (bN b)) as [k|] eqn:E; [|discriminate]. destruct (k =? fin)%N eqn:Ek.
    + apply N.eqb_eq in Ek. subst k. exfalso. destruct w as [|c w]; cbn [srun] in H; [congruence|]. rewrite Hfin in H. discriminate.
    + apply N.eqb_neq in Ek. rewrite (IH k m bad Ek H Hm Hb). reflexivity.
Qed.
Lemma scan_stuck l w n : scan next fin n0 l = SStop w n -> exists bad, l = w ++ bad /\ stuck P w bad /\ srun next n0 w = Some n.
Proof.
  intros H. apply scan_stop in H as [bad [-> [Hr [Hb Hf]]]]; [|exact Hn0]. exists bad. split; [reflexivity|]. split; [|exact Hr]. split.
  - destruct (Hgo w n Hr) as [y Hy]. exists y. split; [intros ->; cbn in Hy; congruence|]. apply HP. rewrite srun_app, Hr. exact Hy.
  - intros b r y -> Hp. apply HP in Hp. rewrite srun_app, Hr in Hp. cbn [srun] in Hp. destruct Hb as [Hb|[b' [r' [E Hb]]]]; [discriminate|]. injection E as <- <-. rewrite Hb in Hp. discriminate.
Qed.
Lemma stuck_scan w bad : stuck P w bad -> exists n, scan next fin n0 (w ++ bad) = SStop w n /\ srun next n0 w = Some n.
Proof.
  intros [[x [Hx Hp]] Hb]. apply HP in Hp. rewrite srun_app in Hp. destruct (srun next n0 w) as [m|] eqn:E; [|discriminate]. exists m. split; [|reflexivity].
  apply scan_at; [exact Hn0|exact E| |].
  - intros ->. destruct x as [|c x]; [congruence|]. cbn [srun] in Hp. rewrite Hfin in Hp. discriminate.
  - intros b r Er. destruct (next m (bN b)) as [k|] eqn:Ek; [|reflexivity]. exfalso.
    assert (Ew : srun next n0 (w ++ [b]) = Some k) by (rewrite srun_app, E; cbn [srun]; rewrite Ek; reflexivity). destruct (Hgo _ _ Ew) as [y Hy].
    apply (Hb b r y Er). apply HP. rewrite srun_app, E. cbn [srun]. rewrite Ek. exact Hy.
Qed.
End Stuck.

(* from every state the automata of the timestamps can reach the end *)
Fixpoint compl (next : N -> N -> option N) (fin : N) (fuel : nat) (n : N) : option bytes :=
  if (n =? fin)%N then Some [] else
  match fuel with
  | O => None
  | S f => match List.find (fun b => match next n (bN b) with Some _ => true | None => false end) all_bytes with
           | Some b => match next n (bN b) with Some m => option_map (cons b) (compl next fin f m) | None => None end
           | None => None end
  end.
Lemma compl_ok next fin f : forall n y, compl next fin f n = Some y -> srun next n y = Some fin.
Proof.
  induction f as [|f IH]; intros n y; cbn [compl].
  - destruct (n =? fin)%N eqn:E; [|discriminate]. intros H. injection H as <-. apply N.eqb_eq in E. subst n. reflexivity.
  - destruct (n =? fin)%N eqn:E; [intros H; injection H as <-; apply N.eqb_eq in E; subst n; reflexivity|].
    destruct (List.find _ all_bytes) as [b|]; [|discriminate]. destruct (next n (bN b)) as [m|] eqn:Em; [|discriminate].
    destruct (compl next fin f m) as [y'|] eqn:Ec; [|discriminate]. intros H. injection H as <-. cbn [srun]. rewrite Em. apply IH. exact Ec.
Qed.
Definition closed_check (next : N -> N -> option N) (fin : N) (ss : list N) : bool :=
  forallb (fun n => (match compl next fin 30 n with Some _ => true | None => false end)
     && forallb (fun b => match next n (bN b) with Some m => existsb (N.eqb m) ss | None => true end) all_bytes) ss.
Lemma closed_run next fin ss : closed_check next fin ss = true -> forall w n m, In n ss -> srun next n w = Some m -> In m ss.
Proof.
  intros H w. induction w as [|b w IH]; intros n m Hn Hr; cbn [srun] in Hr; [injection Hr as <-; exact Hn|].
  destruct (next n (bN b)) as [k|] eqn:E; [|discriminate]. apply (IH k m); [|exact Hr]. unfold closed_check in H. eapply forallb_forall in H; [|exact Hn]. apply andb_true_iff in H as [_ H].
  pose proof (forall_bytes _ H b) as Hb. cbn beta in Hb. rewrite E in Hb. apply existsb_exists in Hb as [x [Hx Ex]]. apply N.eqb_eq in Ex. subst x. exact Hx.
Qed.
Lemma closed_go next fin ss n0 : closed_check next fin ss = true -> In n0 ss -> forall w m, srun next n0 w = Some m -> exists y, srun next m y = Some fin.
Proof.
  intros H Hn w m Hr. pose proof (closed_run next fin ss H w n0 m Hn Hr) as Hm. unfold closed_check in H. eapply forallb_forall in H; [|exact Hm]. apply andb_true_iff in H as [H _].
  destruct (compl next fin 30 m) as [y|] eqn:E; [|discriminate]. exists y. exact (compl_ok next fin 30 m y E).
Qed.
Fixpoint reach (next : N -> N -> option N) (fuel : nat) (acc : list N) : list N :=
  match fuel with
  | O => acc
  | S f => reach next f (nodup N.eq_dec (acc ++ flat_map (fun n => flat_map (fun b => match next n (bN b) with Some m => [m] | None => [] end) all_bytes) acc))
  end.
Definition st_states : list N := Eval vm_compute in reach st_next 16 [4%N].
Lemma st_go w m : srun st_next 4 w = Some m -> exists y, srun st_next m y = Some 19%N.
Proof. apply (closed_go st_next 19 st_states 4); [vm_compute; reflexivity|]. unfold st_states. repeat (try (left; reflexivity); right). Qed.
Lemma r3_go w m : srun r3_next 300 w = Some m -> exists y, srun r3_next m y = Some 324%N.
Proof. apply (closed_go r3_next 324 r3_states 300); [vm_compute; reflexivity|exact H300]. Qed.
Lemma st_run s : stamp_like s <-> srun st_next 4 s = Some 19%N.
Proof.
  rewrite stamp_like_shape. split; [intros [p Hp]; exact (proj2 (shape_srun s p Hp))|apply run_stamp].
Qed.
Lemma st_scan l w n : scan st_next 19 4 l = SStop w n -> exists bad, l = w ++ bad /\ stuck stamp_like w bad.
Proof.
  intros H. destruct (scan_stuck st_next 19 4 stamp_like ltac:(discriminate) st_run st_go l w n H) as [bad [E [Hs _]]]. eauto.
Qed.
Lemma st_stuck w bad : stuck stamp_like w bad -> exists n, scan st_next 19 4 (w ++ bad) = SStop w n.
Proof. intros H. destruct (stuck_scan st_next 19 4 stamp_like ltac:(discriminate) st_run ltac:(reflexivity) st_go w bad H) as [n [E _]]. eauto. Qed.
Lemma r3_loud_len w n : srun r3_next 300 w = Some n -> n <> 324%N -> r3_loud n = (18 <=? length w)%nat.
Proof.
  intros H Hf. destruct (level_run w 300 n H300 H) as [Hn Hl]. change (level 300) with 0%nat in Hl. rewrite (loud_level n Hn Hf).
  destruct (Nat.leb_spec 18 (level n)), (Nat.leb_spec 18 (length w)); try reflexivity; lia.
Qed.
Lemma r3_scan d l w n : digit d -> scan r3_next 324 300 l = SStop w n -> exists bad, l = w ++ bad /\ stuck rfc3339_like (d :: w) bad /\ r3_loud n = (19 <=? length (d :: w))%nat.
Proof.
  intros Hd H. destruct (scan_stuck r3_next 324 300 (fun w => rfc3339_like (d :: w)) ltac:(discriminate) (fun w => r3_like_run d w Hd) r3_go l w n H) as [bad [E [Hs Hr]]].
  exists bad. split; [exact E|]. split; [exact Hs|]. apply (r3_loud_len w n Hr). apply scan_stop in H as [_ [_ [_ [_ Hf]]]]; [exact Hf|discriminate].
Qed.
Lemma r3_stuck part bad : part <> [] -> stuck rfc3339_like part bad -> exists d w n, part = d :: w /\ digit d /\ scan r3_next 324 300 (w ++ bad) = SStop w n /\ r3_loud n = (19 <=? length part)%nat.
Proof.
  intros Hp Hs. destruct part as [|d w]; [congruence|]. pose proof Hs as [[x [_ Hx]] _]. destruct (r3_like_head _ Hx) as [a [w' [E [Hd _]]]]. cbn [app] in E. injection E as <- _.
  destruct (stuck_scan r3_next 324 300 (fun w => rfc3339_like (d :: w)) ltac:(discriminate) (fun w => r3_like_run d w Hd) ltac:(reflexivity) r3_go w bad Hs) as [n [E Hr]].
  exists d, w, n. split; [reflexivity|]. split; [exact Hd|]. split; [exact E|]. apply (r3_loud_len w n Hr). apply scan_stop in E as [_ [_ [_ [_ Hf]]]]; [exact Hf|discriminate].
Qed.

(* ---- TIMESTAMP ---- *)
Notation like c s := (stamp_like s \/ rfc3339 c = true /\ rfc3339_like s).
Lemma like_scan c s : like c s -> (exists a w, s = a :: w /\ is_dig (bN a) = false /\ forall r, scan st_next 19 4 (s ++ r) = SDone s r)
  \/ (rfc3339 c = true /\ exists a w, s = a :: w /\ digit a /\ forall r, scan r3_next 324 300 (w ++ r) = SDone w r).
Proof.
  intros [H|[Er H]].
  - left. destruct (stamp_like_head s H) as [a [w [E Hd]]]. exists a, w. split; [exact E|]. split; [exact Hd|]. intros r. apply (scan_run st_next 19 ltac:(reflexivity)). split; [reflexivity|]. split; [rewrite E; discriminate|]. apply st_run. exact H.
  - right. split; [exact Er|]. destruct (r3_like_head s H) as [a [w [-> [Ha Hw]]]]. exists a, w. split; [reflexivity|]. split; [exact Ha|]. intros r. apply (scan_run r3_next 324 ltac:(reflexivity)). split; [reflexivity|]. split; [exact Hw|]. apply (r3_like_run a w Ha). exact H.
Qed.
Lemma p_ts_all c k o p rest :
  (exists s t r, rest = s ++ " "%byte :: r /\ ts_field c s t)
  \/ (exists good bad kd, rest = good ++ bad /\ ts_fails c good bad kd /\ p_ts c k o p rest = PBad (Some o) (option_map (fun q => PErr q (p + len good)) kd))
  \/ (exists s bad, rest = s ++ " "%byte :: bad /\ like c s /\ (forall t, ~ ts_field c s t) /\ p_ts c k o p rest = PBad (Some o) (Some (PTime s (p + len s)))).
Proof.
  set (sb := match scan st_next 19 4 rest with
    | SStop w _ => PBad (Some o) (Some (PErr ETimestamp (p + len w)))
    | SDone w r => match r with
        | b :: r' => if is 32 b then match parse_stamp w with Some s => k (set_ts (stamp_time c s) o) (p + len w + 1) r' | None => PBad (Some o) (Some (PTime w (p + len w))) end else PBad (Some o) None
        | [] => PBad (Some o) None end end).
  assert (Hst : (forall d r, rest = d :: r -> is_dig (bN d) && rfc3339 c = false) -> p_ts c k o p rest = sb ->
    (exists s t r, rest = s ++ " "%byte :: r /\ ts_field c s t)
    \/ (exists good bad kd, rest = good ++ bad /\ ts_fails c good bad kd /\ sb = PBad (Some o) (option_map (fun q => PErr q (p + len good)) kd))
    \/ (exists s bad, rest = s ++ " "%byte :: bad /\ like c s /\ (forall t, ~ ts_field c s t) /\ sb = PBad (Some o) (Some (PTime s (p + len s))))).
  { intros Hd _. unfold sb. destruct (scan st_next 19 4 rest) as [w r|w n] eqn:Es.
    - pose proof Es as Es'. apply (scan_run st_next 19 ltac:(reflexivity)) in Es' as [E [Hw Hr]]. apply st_run in Hr. destruct r as [|b r].
      + right. left. exists w, [], None. split; [exact E|]. split; [|reflexivity]. apply tf_end; [left; exact Hr|apply nn_nil].
      + destruct (is 32 b) eqn:Eb.
        2: { right. left. exists w, (b :: r), None. split; [exact E|]. split; [|reflexivity]. apply tf_end; [left; exact Hr|]. apply (nn_is 32 " "%byte _ eq_refl). intros b' r' Ex. injection Ex as <- <-. exact Eb. }
        apply (is_at 32 b " "%byte eq_refl) in Eb. subst b. destruct (parse_stamp w) as [q|] eqn:Ep.
        * left. destruct (proj1 (stamp_accept rest (" "%byte :: r) q)) as [s [El Hs]]; [eauto|]. exists s, (stamp_value c q), r. split; [exact El|]. left. eauto.
        * right. right. exists w, r. split; [exact E|]. split; [left; exact Hr|]. split; [|reflexivity]. intros t [[q [Hq _]]|[_ Hq]].
          -- destruct (proj2 (stamp_accept (w ++ []) [] q)) as [w' [Es' Ep']]; [eauto|]. rewrite app_nil_r in Es'. apply (scan_run st_next 19 ltac:(reflexivity)) in Es' as [E' _]. rewrite app_nil_r in E'. subst w'. congruence.
          -- destruct (r3_text_head w t Hq) as [a [w' [E' Ha]]]. destruct (stamp_like_head w Hr) as [a' [w'' [E'' Ha']]]. rewrite E' in E''. injection E'' as <- _. congruence.
    - destruct (st_scan rest w n Es) as [bad [E Hs]]. right. left. exists w, bad, (Some ETimestamp). split; [exact E|]. split; [|reflexivity]. apply tf_stamp; [exact Hs|].
      intros Hx. destruct Hx as (Er & Ew & d & r & Eb & Hdd). subst w bad. specialize (Hd d r E). apply digit_dig in Hdd. rewrite Hdd, Er in Hd. discriminate. }
  destruct rest as [|d r0]; [change (p_ts c k o p []) with sb; apply Hst; [intros d r E; discriminate|reflexivity]|].
  destruct (is_dig (bN d) && rfc3339 c) eqn:Ed.
  2: { assert (Ep : p_ts c k o p (d :: r0) = sb) by (unfold p_ts; rewrite Ed; reflexivity). rewrite Ep. apply Hst; [|exact Ep]. intros d' r' E. injection E as <- <-. exact Ed. }
  clear Hst sb. unfold p_ts. rewrite Ed. apply andb_true_iff in Ed as [Ed Er]. apply digit_dig in Ed. destruct (scan r3_next 324 300 r0) as [w r|w n] eqn:Es.
  - pose proof Es as Es'. apply (scan_run r3_next 324 ltac:(reflexivity)) in Es' as [E [Hw Hr]]. apply (r3_like_run d w Ed) in Hr. destruct r as [|b r].
    + right. left. exists (d :: w), [], None. split; [cbn [app]; congruence|]. split; [|reflexivity]. apply tf_end; [right; auto|apply nn_nil].
    + destruct (is 32 b) eqn:Eb.
      2: { right. left. exists (d :: w), (b :: r), None. split; [cbn [app]; congruence|]. split; [|reflexivity]. apply tf_end; [right; auto|]. apply (nn_is 32 " "%byte _ eq_refl). intros b' r' Ex. injection Ex as <- <-. exact Eb. }
      apply (is_at 32 b " "%byte eq_refl) in Eb. subst b. destruct (parse_rfc3339 (d :: w)) as [t|] eqn:Ep.
      * left. destruct (proj1 (r3_accept d r0 (" "%byte :: r) t)) as [s [El Hs]]; [exists w; split; [apply digit_dig; exact Ed|auto]|]. exists s, t, r. split; [exact El|]. right. auto.
      * right. right. exists (d :: w), r. split; [cbn [app]; congruence|]. split; [right; auto|]. split; [|reflexivity]. intros t [[q [Hq _]]|[_ Hq]].
        -- destruct (stamp_text_head _ q Hq) as [a [w' [E' Ha]]]. injection E' as <- _. apply digit_dig in Ed. congruence.
        -- destruct (proj2 (r3_accept d w [] t)) as [w' [_ [Es' Ep']]]; [exists (d :: w); rewrite app_nil_r; auto|]. apply (scan_run r3_next 324 ltac:(reflexivity)) in Es' as [E' _]. rewrite app_nil_r in E'. subst w'. congruence.
  - destruct (r3_scan d r0 w n Ed Es) as [bad [E [Hs Hl]]]. right. left. exists (d :: w), bad, (if (19 <=? length (d :: w))%nat then Some ERFC3339 else None). split; [cbn [app]; congruence|]. split.
    + apply tf_rfc3339; [exact Er|discriminate|exact Hs].
    + rewrite Hl. destruct (19 <=? length (d :: w))%nat; reflexivity.
Qed.
Lemma p_ts_fails c k o p good bad kd : ts_fails c good bad kd -> p_ts c k o p (good ++ bad) = PBad (Some o) (option_map (fun q => PErr q (p + len good)) kd).
Proof.
  intros H. destruct H as [part bad Hs Hn|part bad Er Hp Hs|s bad Hl Hn].
  - destruct (st_stuck part bad Hs) as [n Es]. unfold p_ts. rewrite Es. cbn [option_map]. destruct (part ++ bad) as [|d r] eqn:E; [reflexivity|].
    destruct (is_dig (bN d) && rfc3339 c) eqn:Ed; [|reflexivity]. exfalso. apply andb_true_iff in Ed as [Ed Er]. destruct part as [|a part].
    + cbn [app] in E. apply Hn. split; [exact Er|]. split; [reflexivity|]. exists d, r. split; [exact E|apply digit_dig; exact Ed].
    + cbn [app] in E. injection E as -> _. destruct Hs as [[x [_ Hx]] _]. destruct (stamp_like_head _ Hx) as [a [w [E Ha]]]. cbn [app] in E. injection E as <- _. congruence.
  - destruct (r3_stuck part bad Hp Hs) as [d [w [n [-> [Hd [Es Hl]]]]]]. unfold p_ts. cbn [app]. rewrite (proj1 (digit_dig d) Hd), Er. cbn [andb]. rewrite Es, Hl. destruct (19 <=? length (d :: w))%nat; reflexivity.
  - rewrite (p_ts_nospace c k o p s bad Hl); [reflexivity|]. intros x ->. exact (Hn " "%byte x eq_refl eq_refl).
Qed.
Lemma p_ts_date c k o p s bad : like c s -> (forall t, ~ ts_field c s t) -> p_ts c k o p (s ++ " "%byte :: bad) = PBad (Some o) (Some (PTime s (p + len s))).
Proof.
  intros Hl Hn. destruct (like_scan c s Hl) as [[a [w [E [Ha Es]]]]|[Er [a [w [-> [Ha Es]]]]]].
  - specialize (Es (" "%byte :: bad)). unfold p_ts. rewrite Es, E. cbn [app]. rewrite Ha. cbn [andb]. change (is 32 " ") with true. cbv iota. rewrite <- E. destruct (parse_stamp s) as [q|] eqn:Ep; [|reflexivity]. exfalso.
    destruct (proj1 (stamp_accept (s ++ " "%byte :: bad) (" "%byte :: bad) q)) as [s' [El Hs]]; [eauto|]. apply app_inv_tail in El. subst s'. apply (Hn (stamp_value c q)). left. eauto.
  - specialize (Es (" "%byte :: bad)). unfold p_ts. cbn [app]. apply digit_dig in Ha. rewrite Ha, Er. cbn [andb]. rewrite Es. change (is 32 " ") with true. cbv iota. destruct (parse_rfc3339 (a :: w)) as [t|] eqn:Ep; [|reflexivity]. exfalso.
    destruct (proj1 (r3_accept a (w ++ " "%byte :: bad) (" "%byte :: bad) t)) as [s' [El Hs]]; [eauto|]. change (a :: w ++ " "%byte :: bad) with ((a :: w) ++ " "%byte :: bad) in El. apply app_inv_tail in El. subst s'. apply (Hn t). right. auto.
Qed.

(* ---- HOSTNAME ---- *)
Lemma p_host_all k o p r : (exists w r', r = w ++ " "%byte :: r' /\ word 255 w)
  \/ (exists w bad, r = w ++ bad /\ longest printable 255 w bad /\ (w = [] \/ next_not (eq " "%byte) bad) /\ p_host k o p r = PBad (Some o) (Some (PErr EHostname (p + len w)))).
Proof.
  unfold p_host. destruct (span_max is_graph 255 r) as [w r'] eqn:E. apply ThmFail5424.span_graph in E as [-> Hl]. destruct w as [|a w].
  - right. exists [], r'. split; [reflexivity|]. split; [exact Hl|]. split; [left; reflexivity|reflexivity].
  - destruct r' as [|b r']; [right; exists (a :: w), []; split; [reflexivity|]; split; [exact Hl|]; split; [right; apply nn_nil|reflexivity]|].
    destruct (is 32 b) eqn:Eb.
    + left. apply (is_at 32 b " "%byte eq_refl) in Eb. subst b. exists (a :: w), r'. split; [reflexivity|]. destruct Hl as [H1 [H2 _]]. split; [cbn [length] in *; lia|exact H1].
    + right. exists (a :: w), (b :: r'). split; [reflexivity|]. split; [exact Hl|]. split; [right|reflexivity]. apply (nn_is 32 " "%byte _ eq_refl). intros b' r2 Ex. injection Ex as <- <-. exact Eb.
Qed.
Lemma p_host_fails k o p w bad : longest printable 255 w bad -> w = [] \/ next_not (eq " "%byte) bad -> p_host k o p (w ++ bad) = PBad (Some o) (Some (PErr EHostname (p + len w))).
Proof.
  intros Hl Hn. unfold p_host. rewrite (proj2 (ThmFail5424.span_graph 255 (w ++ bad) w bad)) by auto. destruct w as [|a w]; [reflexivity|]. destruct bad as [|b r]; [reflexivity|].
  destruct Hn as [Hn|Hn]; [discriminate|]. rewrite (proj1 (nn_is 32 " "%byte _ eq_refl) Hn b r eq_refl). reflexivity.
Qed.

(* ---- the message part ---- *)
Lemma p_text_cases o full r : (no_control r /\ p_text o full r = PGood (set_o_message full o)) \/ (~ no_control r /\ p_text o full r = PBad (Some o) None).
Proof.
  unfold p_text. destruct (has_ctl r) eqn:E; [right|left; apply has_ctl_false in E; auto]. split; [|reflexivity]. intros H. apply has_ctl_false in H. congruence.
Qed.
Lemma set_nil o : o_tag o = [] -> o_content o = [] -> set_o_content [] (set_o_tag [] o) = o.
Proof. destruct o; cbn. intros -> ->. reflexivity. Qed.
Lemma set_nil1 o t : o_content o = [] -> set_o_content [] (set_o_tag t o) = set_o_tag t o.
Proof. destruct o; cbn. intros ->. reflexivity. Qed.
Lemma plain_no_tag s w r : span_max is_tagc 32 s = (w, r) -> s = w ++ r -> (w = [] \/ r = [] \/ exists c r', r = c :: r' /\ is 58 c = false /\ is 91 c = false) ->
  forall tag r0, tag_text tag -> s <> tag ++ lit ":" ++ r0 /\ s <> tag ++ lit "[" ++ r0.
Proof.
  intros Hsp Hs Hor tag r0 Htag.
  assert (forall x, x = ":"%byte \/ x = "["%byte -> s <> tag ++ x :: r0); [|split; apply H; auto].
  intros x Hx E. rewrite E in Hsp. rewrite (tag_span tag x r0 Htag Hx) in Hsp. injection Hsp as <- <-. destruct Hor as [->|[Hr|[c [r' [Hr [A B]]]]]].
  - destruct Htag as [Hl _]. cbn in Hl. lia.
  - discriminate.
  - injection Hr as <- <-. destruct Hx as [-> | ->]; discriminate.
Qed.
Lemma p_msg_fwd o p b s : o_tag o = [] -> o_content o = [] -> ~ control b ->
  (exists o', p_msg o p (b :: s) = PGood o') \/ exists tag pid, msg_fails (b :: s) tag pid /\ p_msg o p (b :: s) = PBad (Some (set_o_content pid (set_o_tag tag o))) None.
Proof.
  intros Ht Hc Hb. unfold p_msg. rewrite (proj2 (ctl_false b) Hb).
  pose proof (Ref5424a.span_app is_tagc 32 (b :: s)) as Ha. pose proof (Ref5424a.span_all is_tagc 32 (b :: s)) as H1. pose proof (Ref5424a.span_len is_tagc 32 (b :: s)) as H2.
  destruct (span_max is_tagc 32 (b :: s)) as [w r] eqn:Esp. cbn [fst snd] in *.
  assert (Hplain : (w = [] \/ r = [] \/ exists c r', r = c :: r' /\ is 58 c = false /\ is 91 c = false) ->
    (exists o', p_text o (b :: s) r = PGood o') \/ exists tag pid, msg_fails (b :: s) tag pid /\ p_text o (b :: s) r = PBad (Some (set_o_content pid (set_o_tag tag o))) None).
  { intros Hor. destruct (p_text_cases o (b :: s) r) as [[_ ->]|[Hr ->]]; [left; eauto|]. right. exists [], []. rewrite set_nil by assumption. split; [|reflexivity].
    apply mf_plain; [exact Hb| |exact (plain_no_tag _ w r Esp Ha Hor)]. intros Hs. apply Hr. assert (Hx : no_control (b :: s)) by (constructor; assumption). rewrite Ha in Hx. apply no_control_app in Hx. tauto. }
  destruct w as [|a w]; [apply Hplain; left; reflexivity|].
  assert (Htag : tag_text (a :: w)). { split; [cbn [length] in *; lia|]. eapply Forall_impl; [|exact H1]. intros x. apply tag_char_tagc. }
  destruct r as [|c r']; [apply Hplain; auto|]. destruct (is 58 c) eqn:E58.
  { apply (is_at 58 c ":"%byte eq_refl) in E58. subst c.
    assert (Hx : forall full r2, (no_control r2 <-> no_control r') -> (exists o', p_text (set_o_tag (a :: w) o) full r2 = PGood o') \/ exists tag pid, msg_fails (b :: s) tag pid /\ p_text (set_o_tag (a :: w) o) full r2 = PBad (Some (set_o_content pid (set_o_tag tag o))) None).
    { intros full r2 Hiff. destruct (p_text_cases (set_o_tag (a :: w) o) full r2) as [[_ ->]|[Hr ->]]; [left; eauto|]. right. exists (a :: w), []. rewrite set_nil1 by assumption. split; [|reflexivity]. rewrite Ha. apply (mf_colon (a :: w) r' Htag). tauto. }
    destruct r' as [|x [|y r']]; [apply Hx; tauto|apply Hx; tauto|]. destruct (is 32 x) eqn:E32; [|apply Hx; tauto]. apply (is_at 32 x " "%byte eq_refl) in E32. subst x.
    apply Hx. split; [intros H; constructor; [unfold control; cbn; lia|exact H]|intros H; inversion H; assumption]. }
  destruct (is 91 c) eqn:E91; [|apply Hplain; right; right; eauto].
  apply (is_at 91 c "["%byte eq_refl) in E91. subst c. destruct r' as [|x r']; [left; eauto|].
  destruct (p_cont_spec (x :: r') [] [] (set_o_tag (a :: w) o)) as [m [pid [A [B C]]]]; [apply last_text_nil_self|left; split; [intros []|]; destruct o; exact Hc|].
  cbn [has_ctl existsb mlen fold_left app] in A, B, C. rewrite C. destruct (has_ctl m) eqn:Em; [|left; eauto]. right. exists (a :: w), pid. split; [|reflexivity]. rewrite Ha. refine (mf_bracket (a :: w) (x :: r') pid m Htag A _ B).
  intros H. apply has_ctl_false in H. congruence.
Qed.
Lemma p_msg_fails o p s tag pid : o_tag o = [] -> o_content o = [] -> msg_fails s tag pid -> p_msg o p s = PBad (Some (set_o_content pid (set_o_tag tag o))) None.
Proof.
  intros Ht Hc H. destruct H as [b s Hb Hn Hp|tag r Htag Hn|tag r pid m Htag Hl Hn Hb].
  - destruct (p_msg_fwd o p b s Ht Hc Hb) as [[o' E]|[tag [pid [H E]]]].
    + exfalso. apply p_msg_good in E as [tag [pid [m [E _]]]]; [|assumption..]. remember (b :: s) as l eqn:El. destruct E as [s' _ Hs _|tag m Htag _ _|tag r Htag _ _|tag Htag|tag r pid m Htag _ _ _ _].
      * subst s'. inversion Hs. contradiction.
      * destruct (Hp tag (" "%byte :: m) Htag) as [P1 _]. apply P1. symmetry. exact (eq_sym eq_refl).
      * destruct (Hp tag r Htag) as [P1 _]. apply P1. reflexivity.
      * destruct (Hp tag [] Htag) as [_ P1]. apply P1. reflexivity.
      * destruct (Hp tag r Htag) as [_ P1]. apply P1. reflexivity.
    + rewrite E. remember (b :: s) as l eqn:El. destruct H as [b' s' _ _ _|tag r Htag _|tag r pid m Htag _ _ _].
      * reflexivity.
      * exfalso. destruct (Hp tag r Htag) as [P1 _]. apply P1. reflexivity.
      * exfalso. destruct (Hp tag r Htag) as [_ P1]. apply P1. reflexivity.
  - rewrite set_nil1 by assumption. unfold p_msg. change (tag ++ lit ":" ++ r) with (tag ++ ":"%byte :: r).
    rewrite (tag_span tag ":"%byte r Htag) by auto. destruct tag as [|a w]; [destruct Htag as [Hl _]; cbn in Hl; lia|]. cbn [app].
    rewrite (tag_no_ctl w a Htag). change (is 58 ":") with true. cbv iota.
    assert (Hg : forall full r2, ~ no_control r2 -> p_text (set_o_tag (a :: w) o) full r2 = PBad (Some (set_o_tag (a :: w) o)) None) by (intros full r2 Hx; destruct (p_text_cases (set_o_tag (a :: w) o) full r2) as [[Hr _]|[_ E]]; [contradiction|exact E]).
    destruct r as [|x [|y r]]; [apply Hg; exact Hn|apply Hg; exact Hn|]. destruct (is 32 x) eqn:E32; [|apply Hg; exact Hn].
    apply Hg. intros H. apply Hn. constructor; [|exact H]. apply (is_at 32 x " "%byte eq_refl) in E32. subst x. unfold control; cbn; lia.
  - unfold p_msg. change (tag ++ lit "[" ++ r) with (tag ++ "["%byte :: r).
    rewrite (tag_span tag "["%byte r Htag) by auto. destruct tag as [|a w]; [destruct Htag as [Hlen _]; cbn in Hlen; lia|]. cbn [app].
    rewrite (tag_no_ctl w a Htag). change (is 58 "[") with false. change (is 91 "[") with true. cbv iota.
    destruct r as [|b r].
    + exfalso. apply Hn. destruct Hl as [[[x [c [m' [E _]]]] _]|[_ ->]]; [|constructor]. destruct x; discriminate.
    + destruct (p_cont_spec (b :: r) [] [] (set_o_tag (a :: w) o)) as [m' [pid' [A [B C]]]]; [apply last_text_nil_self|left; split; [intros []|]; destruct o; exact Hc|].
      cbn [has_ctl existsb mlen fold_left app] in *. rewrite C. rewrite (last_text_unique _ _ _ A Hl), (bracketed_unique _ _ _ B Hb).
      destruct (has_ctl m) eqn:Em; [reflexivity|]. exfalso. apply Hn, has_ctl_false, Em.
Qed.

(* ---- the whole text ---- *)
Lemma exp_pri v : export (pri_msg v) = start v. Proof. reflexivity. Qed.
Lemma exp_ts t v : export (set_ts t (pri_msg v)) = with_ts t (start v). Proof. reflexivity. Qed.
Lemma exp_host h t v : export (set_o_hostname h (set_ts t (pri_msg v))) = with_host h (with_ts t (start v)). Proof. reflexivity. Qed.
Lemma exp_tag tag pid h t v : export (set_o_content pid (set_o_tag tag (set_o_hostname h (set_ts t (pri_msg v))))) = with_tag tag pid (with_host h (with_ts t (start v))). Proof. reflexivity. Qed.
Lemma len_cons (a : byte) l : len (a :: l) = 1 + len l. Proof. unfold len. cbn [length]. lia. Qed.
Lemma len_app (a b : bytes) : len (a ++ b) = len a + len b. Proof. unfold len. rewrite app_length. lia. Qed.
Lemma col0 w : 1 + len w = len w + 1. Proof. lia. Qed.
Lemma col1 pri : col (lit "<" ++ pri ++ lit ">") = len pri + 2.
Proof. change col with len. change (lit "<" ++ pri ++ lit ">") with ("<"%byte :: pri ++ [">"%byte]). rewrite len_cons, len_app. change (len [">"%byte]) with 1. lia. Qed.
Lemma col2 pri g : col (lit "<" ++ pri ++ lit ">" ++ g) = len pri + 2 + len g.
Proof. change col with len. change (lit "<" ++ pri ++ lit ">" ++ g) with ("<"%byte :: pri ++ ">"%byte :: g). rewrite len_cons, len_app, len_cons. lia. Qed.
Lemma col3 pri ts w : col (lit "<" ++ pri ++ lit ">" ++ ts ++ lit " " ++ w) = len pri + 2 + len ts + 1 + len w.
Proof. rewrite col2, len_app. change (lit " " ++ w) with (" "%byte :: w). rewrite len_cons. lia. Qed.
Lemma col4 pri ts h : col (lit "<" ++ pri ++ lit ">" ++ ts ++ lit " " ++ h ++ lit " ") = len pri + 2 + len ts + 1 + len h + 1.
Proof. rewrite col3, len_app. change (len (lit " ")) with 1. lia. Qed.

Lemma pri_nonempty w v : pri_text w v -> w <> [].
Proof. intros H ->. apply pri_cases in H as [_ [[a [H _]]|[[a [b [H _]]]|[a [b [c [H _]]]]]]]; discriminate. Qed.
Lemma len_one (w : bytes) : (len w =? 1) = match w with [_] => true | _ => false end.
Proof. destruct w as [|a [|b w]]; [reflexivity..|]. rewrite !len_cons. apply Z.eqb_neq. unfold len. lia. Qed.
Definition pri_part (bad w : bytes) (v : Z) : option msg3164 := match bad, w with [], [_] => None | [], _ => Some (pri_msg (v / 10)) | _, _ => Some (pri_msg v) end.
Lemma pri_part_exp bad w v : option_map export (pri_part bad w v) = match bad, w with [], [_] => None | [], _ => Some (start (v / 10)) | _, _ => Some (start v) end.
Proof. destruct bad; [destruct w as [|a [|b w]]|]; reflexivity. Qed.
Lemma p_pri_fails k w v bad : pri_text w v -> next_not (fun b => exists v', pri_text (w ++ [b]) v') bad -> next_not (eq ">"%byte) bad ->
  p_pri k ("<"%byte :: w ++ bad) = PBad (pri_part bad w v) (Some (PErr EPrival (1 + len w))).
Proof.
  intros Hw Hn Hg. unfold p_pri. change (is 60 "<") with true. cbv iota. rewrite (proj2 (ThmFail5424.prival_some (w ++ bad) v (len w) bad)) by eauto. rewrite col0. destruct bad as [|b r].
  - rewrite len_one. unfold pri_part. destruct w as [|a [|b w]]; reflexivity.
  - rewrite (proj1 (nn_is 62 ">"%byte _ eq_refl) Hg b r eq_refl). reflexivity.
Qed.
Theorem fails_complete c data x e : spec3164 c data = PBad x e -> fails c data (option_map export x) e.
Proof.
  unfold spec3164. intros H.
  assert (Hcase : (next_not (eq "<"%byte) data) \/ exists r, data = "<"%byte :: r).
  { destruct data as [|b r]; [left; apply nn_nil|]. destruct (is 60 b) eqn:E; [right; exists r; apply (is_at 60 b "<"%byte eq_refl) in E; congruence|left].
    apply (nn_is 60 "<"%byte _ eq_refl). intros b' r' Ex. injection Ex as <- <-. exact E. }
  destruct Hcase as [Hn|[r ->]].
  { assert (Ex : x = None /\ e = Some (PErr EPri 0)).
    { unfold p_pri in H. destruct data as [|b r]; [injection H as <- <-; auto|]. rewrite (proj1 (nn_is 60 "<"%byte _ eq_refl) Hn b r eq_refl) in H. injection H as <- <-. auto. }
    destruct Ex as [-> ->]. apply fl_pri. exact Hn. }
  destruct (prival r) as [[[v n] r']|] eqn:Ep.
  2: { unfold p_pri in H. change (is 60 "<") with true in H. cbv iota in H. rewrite Ep in H. injection H as <- <-. apply (fl_no_prival c r). exact (proj1 (ThmFail5424.prival_none r) Ep). }
  apply ThmFail5424.prival_some in Ep as [w [-> [Hw [-> Hn]]]].
  assert (Hg : next_not (eq ">"%byte) r' \/ exists r, r' = ">"%byte :: r).
  { destruct r' as [|b r]; [left; apply nn_nil|]. destruct (is 62 b) eqn:E; [right; exists r; apply (is_at 62 b ">"%byte eq_refl) in E; congruence|left].
    apply (nn_is 62 ">"%byte _ eq_refl). intros b' r1 Ex. injection Ex as <- <-. exact E. }
  destruct Hg as [Hg|[rest ->]].
  { rewrite (p_pri_fails _ w v r' Hw Hn Hg) in H. injection H as <- <-. rewrite pri_part_exp. exact (fl_prival c w v r' Hw Hn Hg). }
  rewrite (p_pri_at _ w v rest Hw) in H. destruct (p_ts_all c (p_host p_msg) (pri_msg v) (len w + 2) rest) as [[s [t [r [-> Ht]]]]|[[good [bad [kd [-> [Hf E]]]]]|[s [bad [-> [Hl [Hd E]]]]]]].
  2: { rewrite E in H. injection H as <- <-. change (option_map export (Some (pri_msg v))) with (Some (start v)). pose proof (fl_ts c w v good bad kd Hw Hf) as R. rewrite col2 in R. exact R. }
  2: { rewrite E in H. injection H as <- <-. change (option_map export (Some (pri_msg v))) with (Some (start v)). pose proof (fl_date c w v s bad Hw Hl Hd) as R. rewrite col2 in R. exact R. }
  rewrite (p_ts_at c (p_host p_msg) _ _ s t r Ht) in H.
  destruct (p_host_all p_msg (set_ts t (pri_msg v)) (len w + 2 + len s + 1) r) as [[h [tail [-> Hh]]]|[h [bad [-> [Hl [Hd E]]]]]].
  2: { rewrite E in H. injection H as <- <-. cbn [option_map]. rewrite exp_ts. pose proof (fl_host c w v s t h bad Hw Ht Hl Hd) as R. rewrite col3 in R. exact R. }
  rewrite (p_host_at p_msg _ _ h tail Hh) in H. destruct tail as [|b tail].
  - rewrite p_msg_loud in H by auto. injection H as <- <-. cbn [option_map]. rewrite exp_host. pose proof (fl_tag c w v s t h [] Hw Ht Hh (nn_nil _)) as R. rewrite col4 in R. exact R.
  - destruct (control_dec b) as [Hb|Hb].
    + rewrite p_msg_loud in H by eauto. injection H as <- <-. cbn [option_map]. rewrite exp_host. pose proof (fl_tag c w v s t h (b :: tail) Hw Ht Hh) as R. rewrite col4 in R. apply R. apply nn_cons. tauto.
    + destruct (p_msg_fwd (set_o_hostname h (set_ts t (pri_msg v))) (len w + 2 + len s + 1 + len h + 1) b tail eq_refl eq_refl Hb) as [[o' E]|[tag [pid [Hf E]]]]; rewrite E in H; [discriminate|].
      injection H as <- <-. cbn [option_map]. rewrite exp_tag. exact (fl_msg c w v s t h (b :: tail) tag pid Hw Ht Hh Hf).
Qed.
Theorem fails_sound c data x e : fails c data x e -> exists z, spec3164 c data = PBad z e /\ option_map export z = x.
Proof.
  unfold spec3164. intros H. destruct H as [bad Hn|bad Hn|w v bad Hw Hn Hg|pri p good bad k Hp Hf|pri p s bad Hp Hl Hd|pri p ts t w bad Hp Ht Hl Hn|pri p ts t host bad Hp Ht Hh Hn|pri p ts t host tail tag pid Hp Ht Hh Hf].
  - exists None. split; [|reflexivity]. unfold p_pri. destruct bad as [|b r]; [reflexivity|]. rewrite (proj1 (nn_is 60 "<"%byte _ eq_refl) Hn b r eq_refl). reflexivity.
  - exists None. split; [|reflexivity]. change (lit "<" ++ bad) with ("<"%byte :: bad). unfold p_pri. change (is 60 "<") with true. cbv iota. rewrite (proj2 (ThmFail5424.prival_none bad) Hn). reflexivity.
  - exists (pri_part bad w v). rewrite pri_part_exp. split; [|reflexivity]. change (lit "<" ++ w ++ bad) with ("<"%byte :: w ++ bad). rewrite (p_pri_fails _ w v bad Hw Hn Hg). reflexivity.
  - exists (Some (pri_msg p)). split; [|reflexivity]. change (lit "<" ++ pri ++ lit ">" ++ good ++ bad) with ("<"%byte :: pri ++ ">"%byte :: good ++ bad). rewrite (p_pri_at _ pri p _ Hp), (p_ts_fails c _ _ _ good bad k Hf), col2. reflexivity.
  - exists (Some (pri_msg p)). split; [|reflexivity]. change (lit "<" ++ pri ++ lit ">" ++ s ++ lit " " ++ bad) with ("<"%byte :: pri ++ ">"%byte :: s ++ " "%byte :: bad). rewrite (p_pri_at _ pri p _ Hp), (p_ts_date c _ _ _ s bad Hl Hd), col2. reflexivity.
  - exists (Some (set_ts t (pri_msg p))). split; [|reflexivity]. change (lit "<" ++ pri ++ lit ">" ++ ts ++ lit " " ++ w ++ bad) with ("<"%byte :: pri ++ ">"%byte :: ts ++ " "%byte :: w ++ bad). rewrite (p_pri_at _ pri p _ Hp), (p_ts_at c _ _ _ ts t _ Ht), (p_host_fails p_msg _ _ w bad Hl Hn), col3. reflexivity.
  - exists (Some (set_o_hostname host (set_ts t (pri_msg p)))). split; [|reflexivity]. change (lit "<" ++ pri ++ lit ">" ++ ts ++ lit " " ++ host ++ lit " " ++ bad) with ("<"%byte :: pri ++ ">"%byte :: ts ++ " "%byte :: host ++ " "%byte :: bad).
    rewrite (p_pri_at _ pri p _ Hp), (p_ts_at c _ _ _ ts t _ Ht), (p_host_at p_msg _ _ host bad Hh), col4. apply p_msg_loud. destruct bad as [|b r]; [left; reflexivity|right]. exists b, r. split; [reflexivity|]. apply nn_cons in Hn. destruct (control_dec b); tauto.
  - exists (Some (set_o_content pid (set_o_tag tag (set_o_hostname host (set_ts t (pri_msg p)))))). split; [|reflexivity]. change (lit "<" ++ pri ++ lit ">" ++ ts ++ lit " " ++ host ++ lit " " ++ tail) with ("<"%byte :: pri ++ ">"%byte :: ts ++ " "%byte :: host ++ " "%byte :: tail).
    rewrite (p_pri_at _ pri p _ Hp), (p_ts_at c _ _ _ ts t _ Ht), (p_host_at p_msg _ _ host tail Hh). apply p_msg_fails; [reflexivity..|exact Hf].
Qed.

(* C56: an input that is not in the grammar: strict mode returns no message, best effort the message x, both the error e,
   exactly when the input fails as Fail3164 says *)
Theorem parse3164_fails m data x e :
  (snd (parse m data) = Ret x e /\ ~ exists msg, grammar (config_of m) data msg) <-> exists y, fails (config_of m) data y e /\ x = (if bestEffort m then y else None).
Proof.
  rewrite (proj1 (parse_spec m data)). split.
  - intros [H Hn]. destruct (spec3164 (config_of m) data) as [o|y e'] eqn:E; [exfalso; apply Hn; exists (export o); apply spec_grammar; eauto|]. exists (option_map export y).
    assert (Hx : x = (if bestEffort m then option_map export y else None) /\ e' = e) by (destruct y; cbn [ret_of option_map] in *; destruct (bestEffort m); injection H as <- <-; auto).
    destruct Hx as [-> ->]. split; [apply fails_complete, E|reflexivity].
  - intros [y [H ->]]. apply fails_sound in H as [z [E <-]]. split; [rewrite E; destruct z as [o|]; cbn [ret_of option_map]; destruct (bestEffort m); reflexivity|].
    intros [msg H]. apply spec_grammar in H as [o [H _]]. congruence.
Qed.
Theorem fails3164_or_accepted c data : (exists m, grammar c data m) <-> ~ exists x e, fails c data x e.
Proof.
  split.
  - intros [m H] [x [e H']]. apply spec_grammar in H as [o [E _]]. apply fails_sound in H' as [z [H' _]]. congruence.
  - intros H. destruct (spec3164 c data) as [o|x e] eqn:E; [exists (export o); apply spec_grammar; eauto|]. exfalso. apply H. do 2 eexists. apply fails_complete, E.
Qed.
Theorem fails3164_unique c data x e x' e' : fails c data x e -> fails c data x' e' -> x = x' /\ e = e'.
Proof. intros H H'. apply fails_sound in H as [z [H <-]]. apply fails_sound in H' as [z' [H' <-]]. rewrite H in H'. injection H' as <- <-. auto. Qed.

(* every case of the relation occurs *)
Ltac by_spec := match goal with |- fails ?c ?d _ _ => let z := eval vm_compute in (spec3164 c d) in
  match z with PBad ?x ?e => exact (fails_complete c d x e ltac:(vm_compute; reflexivity)) end end.
Definition opts : config := Config 2003 true None None.
Definition t0 : time := Time 2003 10 11 22 14 15 0 0.
Example f_pri : fails opts (lit "34>Oct") None (Some (PErr EPri 0)). Proof. by_spec. Qed.
Example f_no_prival : fails opts (lit "<>Oct") None (Some (PErr EPrival 1)). Proof. by_spec. Qed.
Example f_prival : fails opts (lit "<192>") (Some (start 19)) (Some (PErr EPrival 3)) /\ fails opts (lit "<19") (Some (start 1)) (Some (PErr EPrival 3)) /\ fails opts (lit "<1") None (Some (PErr EPrival 2)).
Proof. split; [by_spec|split; by_spec]. Qed.
Example f_stamp : fails opts (lit "<34>Oct 32") (Some (start 34)) (Some (PErr ETimestamp 9)) /\ fails plain (lit "<34>2003-") (Some (start 34)) (Some (PErr ETimestamp 4)). Proof. split; by_spec. Qed.
Example f_rfc3339 : fails opts (lit "<34>2003-10-11T22:14:15x") (Some (start 34)) (Some (PErr ERFC3339 23)) /\ fails opts (lit "<34>2003-13") (Some (start 34)) None. Proof. split; by_spec. Qed.
Example f_nospace : fails opts (lit "<34>Oct 11 22:14:15") (Some (start 34)) None. Proof. by_spec. Qed.
Example f_date : fails opts (lit "<34>Feb 30 22:14:15 h x") (Some (start 34)) (Some (PTime (lit "Feb 30 22:14:15") 19)). Proof. by_spec. Qed.
Example f_host : fails opts (lit "<34>Oct 11 22:14:15 host") (Some (with_ts t0 (start 34))) (Some (PErr EHostname 24)). Proof. by_spec. Qed.
Example f_tag : fails opts (lit "<34>Oct 11 22:14:15 host ") (Some (with_host (lit "host") (with_ts t0 (start 34)))) (Some (PErr ETag 25)). Proof. by_spec. Qed.
Example f_msg : fails opts (lit "<34>Oct 11 22:14:15 host su[77]: a" ++ ["009"%byte]) (Some (with_tag (lit "su") (lit "77") (with_host (lit "host") (with_ts t0 (start 34))))) None. Proof. by_spec. Qed.
