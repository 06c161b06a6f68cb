(* C82: a listener that uses the octet counting parser that is calling it. *)
From Verif Require Import Bytes CommonFacts Common M5424Def M5424 MBuilder Ref5424c Props5424 Thm5424 Bufio MOctet SpecOctet ROctet ThmOctet ThmResume MLater ThmLater MReenter.
Local Open Scope Z_scope.

(* ---- every scan leaves a scanner that can go on ---- *)
Lemma peek_keeps n b : ok b -> forall l k b', peek n b = Some (l, k, b') -> ok b' /\ f_size b' = f_size b /\ (left b' <= left b)%nat.
Proof.
  intros Hok l k b' E. unfold peek in E. destruct (n <? 0); [injection E as _ _ <-; auto|].
  destruct (peek_loop_spec (S (S (rd_size (f_rd b)))) n (set_last None b)) as [b1 [P1 [P2 [P3 [P4 [P5 [P6 P7]]]]]]].
  { exact Hok. }
  { unfold left, set_last. cbn [f_un f_rd f_err]. destruct (f_err b); lia. }
  rewrite P1 in E. change (f_size (set_last None b)) with (f_size b) in P4. change (left (set_last None b)) with (left b) in P6.
  destruct (f_size b1 <? n); [injection E as _ _ <-; auto|]. destruct (f_buffered b1 <? n); injection E as _ _ <-; auto.
Qed.
Lemma scan_keeps s : ok (s_r s) -> 0 <= s_msglen s < 2 ^ 64 -> exists tok s', scan s = Some (tok, s') /\ ok (s_r s') /\ 0 <= s_msglen s' < 2 ^ 64
  /\ (left (s_r s') <= left (s_r s))%nat /\ (is_typ EOF tok = false -> left (s_r s') < left (s_r s))%nat.
Proof.
  intros H Hm. destruct (scan_spec (f_size (s_r s)) s H eq_refl ltac:(lia)) as [tok [ml [rdy [r [s' [E1 [E2 [E3 [E4 E5]]]]]]]]].
  exists tok, s'. split; [exact E2|]. assert (R : 0 <= s_msglen s' < 2 ^ 64) by (rewrite E3; eapply cscan_range; [exact Hm|exact E1]).
  destruct (is_typ EOF tok) eqn:Et; [|destruct (E5 eq_refl) as [_ [? [_ ?]]]; split; [assumption|]; split; [exact R|]; split; [lia|auto]].
  assert (G : ok (s_r s') /\ (left (s_r s') <= left (s_r s))%nat); [|destruct G as [G1 G2]; split; [exact G1|]; split; [exact R|]; split; [exact G2|discriminate]].
  unfold scan in E2. destruct (sread_spec (s_r s) H) as [b [S1 [_ [S3 [S4 [S5 S6]]]]]]. rewrite S1 in E2. set (c := fst (aread (abs (s_r s)))) in *.
  destruct (is_nonzero_digit c).
  { unfold scan_msg_len in E2. destruct (sread _) as [[c' b']|]; [|discriminate]. destruct (digits_loop _ _ _) as [[buf b'']|]; [|discriminate]. injection E2 as <- _. discriminate Et. }
  destruct (beqb c x00) eqn:E0; [injection E2 as _ <-; auto|].
  destruct (sread_unread (s_r s) H E0) as [b2 [U0 [_ [U2 [_ [U4 _]]]]]]. rewrite S1 in U0. injection U0 as <-.
  destruct (beqb c " "); [injection E2 as <- _; discriminate Et|].
  destruct (_ && _); [|injection E2 as <- _; discriminate Et].
  unfold scan_syslog_msg in E2. cbn [s_r s_msglen] in E2. destruct (peek _ _) as [[[l k] b3]|] eqn:Ep; [|discriminate].
  destruct (peek_keeps _ _ U2 _ _ _ Ep) as [K1 [_ K3]]. destruct k; [destruct (discard _ _); [injection E2 as <- _; discriminate Et|discriminate]|].
  injection E2 as _ <-. cbn [s_r]. split; [exact K1|lia].
Qed.
(* a parser that is calling its listener *)
Record calm (p : oparser) : Prop := Calm { c_sb : p_stepback p = false; c_cm : compliant (p_internal p) = false; c_ok : ok (s_r (p_s p)); c_ml : 0 <= s_msglen (p_s p) < 2 ^ 64 }.
Definition room (p : oparser) : nat := left (s_r (p_s p)).
Lemma pscan_keeps p : calm p -> exists tok q, pscan p = Some (tok, q) /\ calm q /\ p_last q = tok /\ (room q <= room p)%nat /\ (is_typ EOF tok = false -> room q < room p)%nat
  /\ p_internal q = p_internal p /\ p_best q = p_best p /\ p_max q = p_max p.
Proof.
  intros [H1 H2 H3 H4]. destruct (scan_keeps (p_s p) H3 H4) as [tok [s' [E [K1 [K2 [K3 K4]]]]]]. unfold pscan. rewrite H1, E. eexists _, _. split; [reflexivity|].
  split; [constructor; cbn; assumption|]. cbn. unfold room. cbn. auto 10.
Qed.
Lemma pparse_keeps p data : calm p -> exists r q, pparse p data = Some (r, q) /\ calm q /\ room q = room p /\ p_best q = p_best p.
Proof.
  intros [H1 H2 H3 H4]. unfold pparse. destruct (parse_total (p_internal p) data) as [r [e E]]. destruct (parse_spec (p_internal p) data) as [_ [F1 F2]].
  destruct (parse (p_internal p) data) as [m x]. cbn [fst snd] in *. subst x. eexists _, _. split; [reflexivity|]. split; [constructor; cbn; try assumption; congruence|]. cbn. auto.
Qed.
Lemma restart_calm p rd : p_stepback p = false -> compliant (p_internal p) = false -> calm (restart p rd) /\ room (restart p rd) = rd_size rd.
Proof. intros H1 H2. split; [|reflexivity]. constructor; cbn; try assumption; [unfold ok, f_buffered; cbn; lia|lia]. Qed.
Lemma apply_calm p o : calm p -> calm (apply_opt p o) /\ room (apply_opt p o) = room p.
Proof. intros [H1 H2 H3 H4]. destruct o; (split; [constructor; cbn; assumption|reflexivity]). Qed.

(* ---- whatever the listener does, Parse ends and does not panic ---- *)
Definition good (n : nat) (r : rres) : Prop := exists rs sc q, r = Some (rs, sc, q) /\ calm q /\ (room q + script_size sc <= n)%nat.
Definition served (f : nat) (rec : script -> oparser -> rres) : Prop :=
  (forall sc p, calm p -> (S (room p + script_size sc) < f)%nat -> good (room p + script_size sc) (rec sc p))
  /\ (forall sc p, calm p -> is_typ EOF (p_last p) = false -> (room p + script_size sc < f)%nat -> good (room p + script_size sc) (rec sc (set_p_stepback true p))).
Lemma events_good f rec evs : served f rec -> forall sc p, calm p -> (room p + evs_size evs + script_size sc <= f)%nat -> good (room p + evs_size evs + script_size sc) (re_events rec evs sc p).
Proof.
  intros [V _]. induction evs as [|[o|rd] evs IH]; intros sc p C L; cbn [re_events].
  - exists [], sc, p. cbn [evs_size fold_right]. split; [reflexivity|]. split; [exact C|lia].
  - destruct (apply_calm p o C) as [C' R']. change (evs_size (OApply o :: evs)) with (evs_size evs) in *. destruct (IH sc _ C') as [rs [sc' [q [E [K1 K2]]]]]; [lia|]. exists rs, sc', q. split; [exact E|]. split; [exact K1|lia].
  - change (evs_size (OStream rd :: evs)) with (S (S (rd_size rd)) + evs_size evs)%nat in *. destruct (restart_calm p rd (c_sb _ C) (c_cm _ C)) as [C' R'].
    destruct (V sc (restart p rd) C') as [rs [sc' [q [E [K1 K2]]]]]; [lia|]. rewrite E.
    destruct (IH sc' q K1) as [rs' [sc'' [q' [E' [K1' K2']]]]]; [lia|]. rewrite E'. eexists _, _, _. split; [reflexivity|]. split; [exact K1'|lia].
Qed.
Lemma emit_good f rec r sc p : served f rec -> calm p -> (room p + script_size sc <= f)%nat -> good (room p + script_size sc) (re_emit rec r sc p).
Proof.
  intros V C L. destruct sc as [|evs sc]; cbn [re_emit]; [exists [r], [], p; split; [reflexivity|]; split; [exact C|lia]|].
  change (script_size (evs :: sc)) with (evs_size evs + script_size sc)%nat in *. destruct (events_good f rec evs V sc p C) as [rs [sc' [q [E [K1 K2]]]]]; [lia|].
  rewrite E. eexists _, _, _. split; [reflexivity|]. split; [exact K1|lia].
Qed.
Lemma body_good f rec tok sc p : served f rec -> calm p -> (room p + script_size sc <= f)%nat -> good (room p + script_size sc) (re_body rec tok sc p).
Proof.
  intros V C L. unfold re_body. destruct (negb (is_typ MSGLEN tok)); [apply (emit_good f); assumption|]. destruct (p_max p <? _); [apply (emit_good f); assumption|].
  destruct (pscan_keeps p C) as [t2 [p2 [-> [C2 [_ [L2 [_ _]]]]]]]. assert (W : forall n m r, (n <= m)%nat -> good n r -> good m r) by (intros n m r Hn [rs [s [q [E [K1 K2]]]]]; exists rs, s, q; split; [exact E|]; split; [exact K1|lia]).
  destruct (negb (is_typ WS t2)); [apply (W (room p2 + script_size sc)%nat); [lia|apply (emit_good f); [exact V|exact C2|lia]]|].
  destruct (pscan_keeps p2 C2) as [t3 [p3 [-> [C3 [_ [L3 [M3 _]]]]]]].
  destruct (pparse_keeps p3 (tlit t3) C3) as [[m re] [p4 [-> [C4 [L4 B4]]]]].
  destruct (is_typ SYSLOGMSG t3) eqn:Et; cbn [negb].
  2:{ cbv zeta. destruct (_ && _); [apply (W (room p4 + script_size sc)%nat)|apply (W (room p3 + script_size sc)%nat)]; try lia; apply (emit_good f); assumption || lia. }
  assert (L5 : (room p3 < room p2)%nat) by (apply M3; eapply typ_excl; [exact Et|discriminate]).
  destruct (_ && _); [apply (W (room p4 + script_size sc)%nat); [lia|apply (emit_good f); assumption || lia]|].
  destruct (emit_good f rec (Result m re) sc p4 V C4 ltac:(lia)) as [rs [sc5 [p5 [-> [C5 L6]]]]].
  destruct (pscan_keeps p5 C5) as [t6 [p6 [-> [C6 [A6 [L7 [M6 _]]]]]]].
  destruct (is_typ EOF t6) eqn:E6; [exists rs, sc5, p6; split; [reflexivity|]; split; [exact C6|lia]|]. specialize (M6 eq_refl).
  destruct (proj2 V sc5 p6 C6) as [rs7 [sc7 [p7 [-> [C7 L8]]]]]; [rewrite A6; exact E6|lia|]. eexists _, _, _. split; [reflexivity|]. split; [exact C7|lia].
Qed.
Lemma run_good f : served f (re_run f).
Proof.
  induction f as [|f IH]; [split; intros; lia|]. split; intros sc p C.
  - intros L. cbn [re_run]. destruct (pscan_keeps p C) as [t [q [-> [C1 [_ [L1 _]]]]]]. 
    destruct (body_good f (re_run f) t sc q IH C1) as [rs [sc' [q' [E [K1 K2]]]]]; [lia|]. exists rs, sc', q'. split; [exact E|]. split; [exact K1|lia].
  - intros Hl L. cbn [re_run]. unfold pscan at 1. cbn [set_p_stepback p_stepback p_last].
    replace (set_p_stepback false (set_p_stepback true p)) with p by (destruct C as [C _ _ _]; destruct p; cbn in *; unfold set_p_stepback; cbn; congruence).
    apply (body_good f); [exact IH|exact C|lia].
Qed.
(* C82: whatever the listener does with the parser in its calls, Parse ends and does not panic *)
Theorem octet_reentrant_total opts vs sc rd : exists rs sc' q, re_stream sc (olives (new_parser opts) vs) rd = Some (rs, sc', q).
Proof.
  destruct (new_parser_ok opts) as [N1 [N2 [N3 [N4 N5]]]].
  assert (U : in_use (opts_best opts) (opts_best opts) (opts_max opts) (new_parser opts)) by (constructor; congruence).
  destruct (lives_in_use vs _ _ _ _ U) as [_ V2 _ _ V5 _]. destruct (restart_calm _ rd V5 V2) as [C R].
  destruct (proj1 (run_good (S (S (rd_size rd + script_size sc)))) sc _ C) as [rs [sc' [q [E _]]]]; [rewrite R; lia|].
  exists rs, sc', q. exact E.
Qed.

(* ---- a listener that does nothing ---- *)
Lemma re_nil f : forall p, re_run f [] p = match run f p with Some (rs, q) => Some (rs, [], q) | None => None end.
Proof.
  induction f as [|f IH]; intros p; [reflexivity|]. cbn [re_run run]. destruct (pscan p) as [[t p1]|]; [|reflexivity]. unfold re_body, run_body. cbn [re_emit].
  destruct (negb (is_typ MSGLEN t)); [reflexivity|]. destruct (p_max p1 <? _); [reflexivity|]. destruct (pscan p1) as [[t2 p2]|]; [|reflexivity].
  destruct (negb (is_typ WS t2)); [reflexivity|]. destruct (pscan p2) as [[t3 p3]|]; [|reflexivity]. destruct (pparse p3 (tlit t3)) as [[[m re] p4]|].
  - destruct (negb (is_typ SYSLOGMSG t3)); [cbv zeta; destruct (_ && _); reflexivity|]. destruct (_ && _); [reflexivity|].
    destruct (pscan p4) as [[t5 p5]|]; [|reflexivity]. destruct (is_typ EOF t5); [reflexivity|]. rewrite IH. destruct (run f _) as [[rs q]|]; reflexivity.
  - destruct (negb (is_typ SYSLOGMSG t3)); [cbv zeta; destruct (_ && _); reflexivity|reflexivity].
Qed.
Lemma emit_idle rec r n rest p : re_emit rec r (repeat [] (S n) ++ rest) p = Some ([r], repeat [] n ++ rest, p). Proof. reflexivity. Qed.
Lemma re_plain f : forall p rs q, run f p = Some (rs, q) -> forall f' n rest, (f <= f')%nat -> (length rs <= n)%nat ->
  re_run f' (repeat [] n ++ rest) p = Some (rs, repeat [] (n - length rs) ++ rest, q).
Proof.
  induction f as [|f IH]; intros p rs q E f' n rest Hf Hn; [discriminate|]. destruct f' as [|f']; [lia|]. cbn [re_run run] in *.
  destruct (pscan p) as [[t p1]|]; [|discriminate]. unfold re_body, run_body in *.
  assert (One : forall r p0, Some ([r], p0) = Some (rs, q) -> re_emit (re_run f') r (repeat [] n ++ rest) p0 = Some (rs, repeat [] (n - length rs) ++ rest, q)).
  { intros r p0 X. injection X as <- <-. cbn [length] in *. destruct n as [|n]; [lia|]. rewrite emit_idle. rewrite Nat.sub_succ, Nat.sub_0_r. reflexivity. }
  destruct (negb (is_typ MSGLEN t)); [apply One; exact E|]. destruct (p_max p1 <? _); [apply One; exact E|]. destruct (pscan p1) as [[t2 p2]|]; [|discriminate].
  destruct (negb (is_typ WS t2)); [apply One; exact E|]. destruct (pscan p2) as [[t3 p3]|]; [|discriminate]. destruct (negb (is_typ SYSLOGMSG t3)).
  - cbv zeta in *. destruct (_ && _); [|apply One; exact E]. destruct (pparse p3 (tlit t3)) as [[[m re] p4]|]; [|discriminate]. apply One. exact E.
  - destruct (pparse p3 (tlit t3)) as [[[m re] p4]|]; [|discriminate]. destruct (_ && _); [apply One; exact E|].
    destruct (pscan p4) as [[t5 p5]|] eqn:E5; [|discriminate]. destruct (is_typ EOF t5) eqn:Et5.
    + injection E as <- <-. cbn [length] in *. destruct n as [|n]; [lia|]. rewrite emit_idle, E5, Et5, Nat.sub_succ, Nat.sub_0_r. reflexivity.
    + destruct (run f _) as [[rs5 q5]|] eqn:E6; [|discriminate]. injection E as <- <-. cbn [length] in *. destruct n as [|n]; [lia|]. rewrite emit_idle, E5, Et5.
      rewrite (IH _ _ _ E6) by lia. rewrite Nat.sub_succ. reflexivity.
Qed.
Lemma run_more f : forall p rs q f', run f p = Some (rs, q) -> (f <= f')%nat -> run f' p = Some (rs, q).
Proof.
  induction f as [|f IH]; intros p rs q f' E L; [discriminate|]. destruct f' as [|f']; [lia|]. cbn [run] in *.
  destruct (pscan p) as [[t p1]|]; [|discriminate]. unfold run_body in *. destruct (negb (is_typ MSGLEN t)); [exact E|]. destruct (p_max p1 <? _); [exact E|].
  destruct (pscan p1) as [[t2 p2]|]; [|discriminate]. destruct (negb (is_typ WS t2)); [exact E|]. destruct (pscan p2) as [[t3 p3]|]; [|discriminate].
  destruct (negb (is_typ SYSLOGMSG t3)); [exact E|]. destruct (pparse p3 (tlit t3)) as [[[m re] p4]|]; [|discriminate]. destruct (_ && _); [exact E|].
  destruct (pscan p4) as [[t5 p5]|]; [|discriminate]. destruct (is_typ EOF t5); [exact E|]. destruct (run f _) as [[rs5 q5]|] eqn:E6; [|discriminate].
  rewrite (IH _ _ _ f' E6) by lia. exact E.
Qed.

(* ---- one nested stream ---- *)
Definition like (p q : oparser) : Prop :=
  p_max q = p_max p /\ p_best q = p_best p /\ bestEffort (p_internal q) = bestEffort (p_internal p) /\ compliant (p_internal q) = compliant (p_internal p).
Lemma like_trans p q r : like p q -> like q r -> like p r.
Proof. unfold like. intros [? [? [? ?]]] [? [? [? ?]]]. repeat split; congruence. Qed.
Lemma scan_like p t q : pscan p = Some (t, q) -> like p q /\ p_stepback q = false.
Proof.
  unfold pscan. destruct (p_stepback p) eqn:Es; intros E.
  - injection E as _ <-. unfold like. cbn. auto.
  - destruct (scan (p_s p)) as [[tk s]|]; [|discriminate]. injection E as _ <-. unfold like. cbn. auto.
Qed.
Lemma parse_like p data r q : pparse p data = Some (r, q) -> like p q /\ p_stepback q = p_stepback p.
Proof.
  unfold pparse. pose proof (parse_spec (p_internal p) data) as [_ [F1 F2]]. destruct (parse (p_internal p) data) as [m [x e| |]]; intros E; try discriminate.
  injection E as _ <-. unfold like. cbn in *. auto.
Qed.
Lemma like_in_use b0 b max p q : in_use b0 b max p -> like p q -> p_stepback q = false -> in_use b0 b max q.
Proof. intros [U1 U2 U3 U4 U5 U6] [L1 [L2 [L3 L4]]] S. constructor; congruence || assumption. Qed.
Lemma nested_stream b0 b max q rd2 f : in_use b0 b max q -> (S (rd_size rd2) <= f)%nat ->
  exists rs2 q2, parse_stream q rd2 = Some (rs2, q2) /\ re_run f [] (restart q rd2) = Some (rs2, [], q2) /\ in_use b0 b max q2 /\ calm q2 /\ (room q2 <= rd_size rd2)%nat.
Proof.
  intros U L. destruct (stream_in_use _ _ _ _ rd2 U) as [rs [q2 [E [U2 _]]]]. eexists _, q2. split; [exact E|].
  pose proof (run_more _ _ _ _ f E L) as R. split; [rewrite re_nil; unfold restart; rewrite R; reflexivity|]. split; [exact U2|].
  destruct (restart_calm q rd2 (u_sb _ _ _ _ U) (u_cm _ _ _ _ U)) as [C K].
  destruct (proj1 (run_good (S (S (rd_size rd2)))) [] _ C) as [rs' [sc' [q' [E' [C' K']]]]]; [rewrite K; cbn; lia|].
  rewrite re_nil in E'. unfold restart in E'. unfold parse_stream in E. rewrite (run_more _ _ _ _ (S (S (rd_size rd2))) E) in E' by lia. injection E' as _ _ <-. split; [exact C'|]. rewrite K in K'. cbn [script_size fold_right] in K'. lia.
Qed.
Lemma continued_run q f : calm q -> (S (room q) < f)%nat -> exists rs, continued q = Some rs /\ forall rec : script -> oparser -> rres, (forall p, rec [] p = re_run f [] p) ->
  exists q', match pscan q with None => None | Some (tok, p) => if is_typ EOF tok then Some (@nil result, @nil (list oevent), p) else rec [] (set_p_stepback true p) end = Some (rs, [], q').
Proof.
  intros C L. destruct (pscan_keeps q C) as [t [q1 [E [C1 [A1 [L1 [M1 _]]]]]]]. unfold continued. rewrite E. destruct (is_typ EOF t) eqn:Et.
  { exists []. split; [reflexivity|]. intros rec _. eexists. reflexivity. }
  set (F := S (S (left (s_r (p_s q1))))). assert (HF : (room q1 < F)%nat) by (unfold F, room; lia).
  destruct (proj2 (run_good F) [] q1 C1) as [rs [sc' [q' [E' _]]]]; [rewrite A1; exact Et|cbn; lia|].
  rewrite re_nil in E'. destruct (run F _) as [[rs0 q0]|] eqn:ER; [|discriminate]. injection E' as <- <- <-. exists rs0. split; [reflexivity|].
  intros rec Hrec. exists q0. rewrite Hrec, re_nil, (run_more _ _ _ _ f ER); [reflexivity|]. unfold F. fold (room q1). lia.
Qed.
(* what the other stream adds *)
Definition adds (b0 b : bool) (max : Z) (p : oparser) (rd2 : reader) (last : bool) (more : list result) : Prop :=
  exists q rs2 q2 tail, in_use b0 b max q /\ like p q /\ parse_stream q rd2 = Some (rs2, q2) /\ more = rs2 ++ tail /\ (continued q2 = Some tail \/ (last = true /\ tail = [])).
Lemma adds_like b0 b max p p1 rd2 l more : like p p1 -> adds b0 b max p1 rd2 l more -> adds b0 b max p rd2 l more.
Proof. intros L [q [rs2 [q2 [tail [U [L1 [E [X Y]]]]]]]]. exists q, rs2, q2, tail. split; [exact U|]. split; [eapply like_trans; eauto|]. auto. Qed.
Lemma re_nested b0 b max rd2 f : forall p rs p', bestEffort (p_internal p) = b0 -> compliant (p_internal p) = false -> p_best p = b -> p_max p = max -> (b0 = true -> b = true) ->
  run f p = Some (rs, p') -> forall n f', (n < length rs)%nat -> (f + rd_size rd2 + 3 <= f')%nat ->
  exists more fin, re_run f' (repeat [] n ++ [[OStream rd2]]) p = Some (firstn (S n) rs ++ more, [], fin) /\ adds b0 b max p rd2 (n =? (length rs - 1))%nat more.
Proof.
  induction f as [|f IH]; intros p rs p' H1 H2 H3 H4 H5 E n f' Hn Hf; [discriminate|]. destruct f' as [|f']; [lia|]. cbn [re_run run] in *.
  assert (In : forall q, like p q -> p_stepback q = false -> in_use b0 b max q) by (intros q [L1 [L2 [L3 L4]]] S; constructor; congruence || assumption).
  destruct (pscan p) as [[t p1]|] eqn:S1; [|discriminate]. destruct (scan_like _ _ _ S1) as [K1 B1]. unfold re_body, run_body in *.
  assert (One : forall r q, like p q -> p_stepback q = false -> Some ([r], q) = Some (rs, p') ->
    exists more fin, re_emit (re_run f') r (repeat [] n ++ [[OStream rd2]]) q = Some (firstn (S n) rs ++ more, [], fin) /\ adds b0 b max p rd2 (n =? (length rs - 1))%nat more).
  { intros r q L S X. injection X as <- <-. cbn [length] in *. assert (n = 0%nat) as -> by lia. cbn [repeat app re_emit re_events].
    destruct (nested_stream _ _ _ q rd2 f' (In q L S)) as [rs2 [q2 [N1 [N2 [N3 _]]]]]; [lia|]. rewrite N2, app_nil_r. exists rs2, q2. split; [reflexivity|].
    exists q, rs2, q2, []. split; [exact (In q L S)|]. split; [exact L|]. split; [exact N1|]. split; [rewrite app_nil_r; reflexivity|]. right. auto. }
  destruct (negb (is_typ MSGLEN t)); [apply One; assumption|]. destruct (p_max p1 <? _); [apply One; assumption|].
  destruct (pscan p1) as [[t2 p2]|] eqn:S2; [|discriminate]. destruct (scan_like _ _ _ S2) as [K2 B2]. pose proof (like_trans _ _ _ K1 K2) as L2.
  destruct (negb (is_typ WS t2)); [apply One; assumption|].
  destruct (pscan p2) as [[t3 p3]|] eqn:S3; [|discriminate]. destruct (scan_like _ _ _ S3) as [K3 B3]. pose proof (like_trans _ _ _ L2 K3) as L3.
  destruct (negb (is_typ SYSLOGMSG t3)).
  { cbv zeta in *. destruct (_ && _); [|apply One; assumption]. destruct (pparse p3 (tlit t3)) as [[[m re] p4]|] eqn:P4; [|discriminate].
    destruct (parse_like _ _ _ _ P4) as [K4 B4]. apply One; [exact (like_trans _ _ _ L3 K4)|congruence|exact E]. }
  destruct (pparse p3 (tlit t3)) as [[[m re] p4]|] eqn:P4; [|discriminate]. destruct (parse_like _ _ _ _ P4) as [K4 B4]. pose proof (like_trans _ _ _ L3 K4) as L4.
  assert (B4' : p_stepback p4 = false) by congruence. destruct (_ && _); [apply One; assumption|].
  destruct n as [|n].
  - cbn [repeat app re_emit re_events]. destruct (nested_stream _ _ _ p4 rd2 f' (In p4 L4 B4')) as [rs2 [q2 [N1 [N2 [N3 [N4 N5]]]]]]; [lia|]. rewrite N2, app_nil_r.
    destruct (continued_run q2 f' N4 ltac:(lia)) as [tail [T1 T2]]. destruct (T2 (re_run f') (fun _ => eq_refl)) as [q' T3].
    destruct (pscan q2) as [[t6 p6]|]; [|discriminate].
    assert (Hr : exists rest, rs = Result m re :: rest).
    { destruct (pscan p4) as [[t5 p5]|]; [|discriminate]. destruct (is_typ EOF t5); [injection E as <- _; eauto|]. destruct (run f _) as [[rs5 q5]|]; [|discriminate]. injection E as <- _. eauto. }
    destruct Hr as [rest ->]. cbn [firstn].
    destruct (is_typ EOF t6); [injection T3 as <- <-|rewrite T3].
    + exists rs2, p6. split; [reflexivity|]. exists p4, rs2, q2, []. split; [exact (In p4 L4 B4')|]. split; [exact L4|]. split; [exact N1|]. split; [rewrite app_nil_r; reflexivity|]. left. exact T1.
    + exists (rs2 ++ tail), q'. split; [reflexivity|]. exists p4, rs2, q2, tail. split; [exact (In p4 L4 B4')|]. split; [exact L4|]. split; [exact N1|]. split; [reflexivity|]. left. exact T1.
  - rewrite emit_idle. destruct (pscan p4) as [[t5 p5]|] eqn:S5; [|discriminate]. destruct (scan_like _ _ _ S5) as [K5 B5].
    destruct (is_typ EOF t5); [injection E as <- _; cbn [length] in Hn; lia|]. destruct (run f _) as [[rs5 q5]|] eqn:E6; [|discriminate]. injection E as <- <-. cbn [length] in *.
    assert (L6 : like p (set_p_stepback true p5)) by (apply (like_trans p p5); [exact (like_trans _ _ _ L4 K5)|unfold like; cbn; auto]). pose proof L6 as [M1 [M2 [M3 M4]]].
    destruct (IH (set_p_stepback true p5) rs5 q5 ltac:(congruence) ltac:(congruence) ltac:(congruence) ltac:(congruence) H5 E6 n f' ltac:(lia) ltac:(lia)) as [more [fin [R1 R2]]].
    rewrite R1. exists more, fin. split; [reflexivity|]. replace (S n =? S (length rs5) - 1)%nat with (n =? length rs5 - 1)%nat by (destruct (Nat.eqb_spec n (length rs5 - 1)), (Nat.eqb_spec (S n) (S (length rs5) - 1)); lia || reflexivity).
    exact (adds_like _ _ _ _ _ _ _ _ L6 R2).
Qed.

(* ---- what a parser has parsed before does not matter to a stream, nor to what follows it ---- *)
Definition alike (p q : oparser) : Prop := like p q /\ p_s q = p_s p /\ p_stepback q = p_stepback p /\ (p_stepback p = true -> p_last q = p_last p).
Lemma alike_scan p q : alike p q -> match pscan p with Some (t, p') => exists q', pscan q = Some (t, q') /\ alike p' q' /\ p_last q' = p_last p' | None => pscan q = None end.
Proof.
  intros [[L1 [L2 [L3 L4]]] [S [B H]]]. unfold pscan. rewrite B, S. destruct (p_stepback p) eqn:E.
  - rewrite (H eq_refl). eexists. split; [reflexivity|]. unfold alike, like. cbn. repeat split; try discriminate; try congruence; exact (H eq_refl).
  - destruct (scan (p_s p)) as [[t s]|]; [|reflexivity]. eexists. split; [reflexivity|]. unfold alike, like. cbn. repeat split; congruence.
Qed.
Lemma alike_parse p q data : alike p q -> match pparse p data with Some (r, p') => exists q', pparse q data = Some (r, q') /\ alike p' q' | None => pparse q data = None end.
Proof.
  intros [[L1 [L2 [L3 L4]]] [S [B H]]]. unfold pparse. pose proof (parse_independent (p_internal q) (p_internal p) data L3 L4) as I.
  pose proof (parse_spec (p_internal p) data) as [_ [F1 F2]]. pose proof (parse_spec (p_internal q) data) as [_ [G1 G2]].
  destruct (parse (p_internal p) data) as [m1 o1], (parse (p_internal q) data) as [m2 o2]. cbn [fst snd] in *. subst o2.
  destruct o1; try reflexivity. eexists. split; [reflexivity|]. unfold alike, like. cbn. repeat split; congruence || exact H.
Qed.
Lemma alike_run f : forall p q, alike p q -> match run f p with Some (rs, p') => exists q', run f q = Some (rs, q') /\ alike p' q' | None => run f q = None end.
Proof.
  induction f as [|f IH]; intros p q L; [reflexivity|]. cbn [run].
  pose proof (alike_scan p q L) as S1. destruct (pscan p) as [[t1 p1]|]; [|rewrite S1; reflexivity]. destruct S1 as [q1 [-> [L1 _]]]. clear p q L.
  pose proof L1 as [[F1 [F2 _]] [F3 _]]. unfold run_body. rewrite F1, F3.
  destruct (negb (is_typ MSGLEN t1)); [eexists; split; [reflexivity|exact L1]|]. destruct (p_max p1 <? to_int (s_msglen (p_s p1))); [eexists; split; [reflexivity|exact L1]|].
  pose proof (alike_scan p1 q1 L1) as S2. destruct (pscan p1) as [[t2 p2]|]; [|rewrite S2; reflexivity]. destruct S2 as [q2 [-> [L2 _]]]. clear p1 q1 L1 F1 F2 F3.
  destruct (negb (is_typ WS t2)); [eexists; split; [reflexivity|exact L2]|].
  pose proof (alike_scan p2 q2 L2) as S3. destruct (pscan p2) as [[t3 p3]|]; [|rewrite S3; reflexivity]. destruct S3 as [q3 [-> [L3 _]]]. clear p2 q2 L2.
  pose proof L3 as [[F1 [F2 _]] [F3 _]]. rewrite F2, F3. cbv zeta. pose proof (alike_parse p3 q3 (tlit t3) L3) as P3.
  destruct (negb (is_typ SYSLOGMSG t3)).
  - destruct (_ && _); [|eexists; split; [reflexivity|exact L3]]. destruct (pparse p3 (tlit t3)) as [[[m re] p4]|]; [|rewrite P3; reflexivity]. destruct P3 as [q4 [-> L4]].
    eexists. split; [reflexivity|exact L4].
  - destruct (pparse p3 (tlit t3)) as [[[m re] p4]|]; [|rewrite P3; reflexivity]. destruct P3 as [q4 [-> L4]]. pose proof L4 as [[G1 [G2 _]] [G3 _]]. rewrite G2.
    destruct (_ && _); [eexists; split; [reflexivity|exact L4]|].
    pose proof (alike_scan p4 q4 L4) as S5. destruct (pscan p4) as [[t5 p5]|]; [|rewrite S5; reflexivity]. destruct S5 as [q5 [-> [L5 H5]]].
    destruct (is_typ EOF t5); [eexists; split; [reflexivity|exact L5]|].
    assert (L6 : alike (set_p_stepback true p5) (set_p_stepback true q5)) by (destruct L5 as [X [Y [_ _]]]; split; [exact X|]; split; [exact Y|]; split; [reflexivity|intros _; exact H5]).
    specialize (IH _ _ L6). destruct (run f (set_p_stepback true p5)) as [[rs p6]|]; [|rewrite IH; reflexivity]. destruct IH as [q6 [-> L7]]. eexists. split; [reflexivity|exact L7].
Qed.
Lemma alike_continued p q : alike p q -> continued q = continued p.
Proof.
  intros L. unfold continued. pose proof (alike_scan p q L) as S. destruct (pscan p) as [[t p1]|]; [|rewrite S; reflexivity]. destruct S as [q1 [-> [L1 H1]]].
  destruct (is_typ EOF t); [reflexivity|]. pose proof L1 as [X [Y [_ _]]]. rewrite Y.
  assert (L6 : alike (set_p_stepback true p1) (set_p_stepback true q1)) by (split; [exact X|]; split; [exact Y|]; split; [reflexivity|intros _; exact H1]).
  pose proof (alike_run (S (S (left (s_r (p_s p1))))) _ _ L6) as H. destruct (run _ (set_p_stepback true p1)) as [[rs p6]|]; [destruct H as [q6 [-> _]]; reflexivity|rewrite H; reflexivity].
Qed.

(* what is reported behind the results of a stream that a listener had parsed: what the loop still finds in the scanner of that stream *)
Definition after_nested (opts : list popt) (rd2 : reader) : option (list result) :=
  match parse_stream (new_parser opts) rd2 with Some (_, q) => continued q | None => None end.
(* C82: the listener, handed the n-th result of the outer stream, parses rd2 with the same parser.  The results are those of the outer stream up to this
   one, then all those of rd2; the rest of the outer stream is never reported: what follows depends on the options and rd2 only. *)
Theorem octet_reentrant_stream opts before rd rd2 n outer : emitted opts before rd = Some outer -> (n < length outer)%nat ->
  exists inner tail, emitted opts [] rd2 = Some inner
    /\ re_results (re_stream (repeat [] n ++ [[OStream rd2]]) (after_streams (new_parser opts) before) rd) = Some (firstn (S n) outer ++ inner ++ tail)
    /\ (after_nested opts rd2 = Some tail \/ (tail = [] /\ S n = length outer)).
Proof.
  intros E Hn. destruct (used_ok opts before) as [U1 [U2 [U3 [U4 U5]]]]. unfold used in *. set (p0 := after_streams (new_parser opts) before) in *.
  unfold emitted in E. fold p0 in E. destruct (parse_stream p0 rd) as [[rs p']|] eqn:EP; [|discriminate]. cbn [results] in E. injection E as ->.
  unfold parse_stream in EP. fold (restart p0 rd) in EP.
  assert (Hs : script_size (repeat [] n ++ [[OStream rd2]]) = S (S (rd_size rd2))) by (induction n; [cbn; lia|cbn [repeat app script_size fold_right evs_size]; apply IHn; lia]).
  destruct (re_nested (opts_best opts) (opts_best opts) (opts_max opts) rd2 _ (restart p0 rd) outer p' ltac:(cbn; congruence) U5 U1 U2 (fun H => H) EP n (S (S (rd_size rd + script_size (repeat [] n ++ [[OStream rd2]])))) Hn) as [more [fin [R [q [rs2 [q2 [tail [V1 [V2 [V3 [V4 V5]]]]]]]]]]]; [rewrite Hs; lia|].
  pose proof (emitted_in_use _ _ _ q rd2 opts V1 eq_refl eq_refl) as EI. rewrite V3, andb_negb_r in EI. cbn [results] in EI.
  destruct (emitted opts [] rd2) as [inner|] eqn:E2; [|discriminate]. cbn in EI. injection EI as ->.
  exists inner, tail. split; [reflexivity|]. split; [unfold re_stream; rewrite R, V4; reflexivity|].
  destruct V5 as [V5|[V5 V6]]; [left|right; split; [exact V6|apply Nat.eqb_eq in V5; lia]].
  unfold after_nested. destruct (new_parser_ok opts) as [N1 [N2 [N3 [N4 N5]]]]. destruct V1 as [W1 W2 W3 W4 W5 _].
  assert (L : alike (restart q rd2) (restart (new_parser opts) rd2)).
  { unfold alike, like, restart. cbn [p_max p_s p_internal p_last p_stepback p_best]. rewrite W3, W4, W5, N1, N2, N3. repeat split; congruence || discriminate. }
  pose proof (alike_run (S (rd_size rd2)) _ _ L) as H. unfold parse_stream in *. fold (restart q rd2) in V3. fold (restart (new_parser opts) rd2). rewrite V3 in H.
  destruct H as [q' [H1 H2]]. rewrite H1. rewrite (alike_continued _ _ H2). exact V5.
Qed.


(* ---- behind a stream of well-formed frames nothing follows ---- *)
Lemma end_scan cap max best q : at_start cap max best q [] -> exists p1, pscan q = Some (Token EOF [], p1) /\ at_start cap max best p1 [].
Proof.
  intros [S1 S2 S3 S4 S5 S6 S7 S8]. destruct (sread_spec (s_r (p_s q)) S5) as [b [E [A [B [C [D _]]]]]]. destruct (aread_eqv _ _ S8) as [A1 A2]. cbn in A1, A2.
  unfold pscan. rewrite S1. unfold scan. rewrite E, A1. change (is_nonzero_digit x00) with false. change (beqb x00 x00) with true. cbv iota. eexists. split; [reflexivity|].
  constructor; cbn; try assumption; [congruence|]. eapply eqv_trans; eauto.
Qed.
Lemma clean_run cap max best : max < 2 ^ 63 - 20 -> 0 <= cap -> max <= cap -> forall fs f p,
  at_start cap max best p (frames_items fs) -> Forall (frame_ok max) fs -> (best = true \/ Forall (fun g => snd (answer best (f_msg g)) = None) fs) ->
  (left (s_r (p_s p)) <= f)%nat -> fs <> [] ->
  exists tok p1 p', pscan p = Some (tok, p1) /\ p_last p1 = tok /\ p_stepback p1 = false /\ is_typ EOF tok = false
    /\ run_body (run f) tok p1 = Some (map (fun g => answer_result best (f_msg g)) fs, p') /\ at_start cap max best p' [].
Proof.
  intros Hm H0 Hcap. induction fs as [|g fs IH]; intros f p Hst HF Ha Hl Hne; [congruence|].
  inversion HF as [|? ? Hg HF']; subst. unfold frames_items in Hst. cbn [map concat] in Hst. fold (frames_items fs) in Hst.
  destruct (start_token cap max best p g _ Hm H0 Hst Hg) as [p1 [A1 [A2 [A3 [A4 [A5 [A6 [A7 [A8 [A9 [A10 [A11 A12]]]]]]]]]]]].
  destruct (frame_tokens cap max best p1 g _ Hm Hcap Hg A3 A4 A5 A6 A7 A8 A9 A11) as [q [B1 [B2 [B3 B4]]]].
  assert (Hc : negb best && match snd (answer best (f_msg g)) with Some _ => true | None => false end = false).
  { destruct Ha as [-> |Ha]; [reflexivity|]. inversion Ha as [|? ? Hga _]; subst. rewrite Hga. apply andb_false_r. }
  assert (Ha' : best = true \/ Forall (fun g => snd (answer best (f_msg g)) = None) fs) by (destruct Ha as [-> |Ha]; [auto|inversion Ha; auto]).
  destruct fs as [|g2 fs].
  - destruct (end_scan cap max best q B1) as [p' [C1 C2]]. exists (Token MSGLEN (f_len g)), p1, p'. split; [exact A1|]. split; [exact A2|]. split; [exact A3|]. split; [reflexivity|].
    split; [rewrite B4, Hc, C1; reflexivity|exact C2].
  - destruct f as [|f]; [lia|]. destruct (IH f q B1 HF' Ha' ltac:(lia) ltac:(discriminate)) as [tok [q1 [p' [C1 [C2 [C3 [C4 [C5 C6]]]]]]]].
    exists (Token MSGLEN (f_len g)), p1, p'. split; [exact A1|]. split; [exact A2|]. split; [exact A3|]. split; [reflexivity|]. split; [|exact C6].
    rewrite B4, Hc, C1, C4. cbn [run]. unfold pscan at 1. cbn [set_p_stepback p_stepback p_last]. rewrite C2.
    replace (set_p_stepback false (set_p_stepback true q1)) with q1 by (destruct q1; cbn in *; unfold set_p_stepback; cbn; congruence). rewrite C5. reflexivity.
Qed.
Theorem octet_nested_clean opts rd2 fs : - 2 ^ 63 <= opts_max opts < 2 ^ 63 - 20 -> eqv (delivered rd2) (frames_items fs) -> Forall (frame_ok (opts_max opts)) fs -> fs <> [] ->
  (opts_best opts = true \/ Forall (fun g => snd (answer false (f_msg g)) = None) fs) -> after_nested opts rd2 = Some [].
Proof.
  intros Hm Hd HF Hne Ha. destruct (new_parser_ok opts) as [N1 [N2 [N3 N4]]]. unfold after_nested, parse_stream. fold (restart (new_parser opts) rd2).
  set (p0 := restart (new_parser opts) rd2). cbn [run]. 
  assert (Hcap : opts_max opts <= f_size (s_r (p_s p0)) /\ 0 <= f_size (s_r (p_s p0))).
  { unfold p0, restart. cbn [p_s]. rewrite N2. split; [apply buffer_size; lia|cbn; lia]. }
  assert (St : at_start (f_size (s_r (p_s p0))) (opts_max opts) (opts_best opts) p0 (frames_items fs)).
  { constructor; [exact N3|exact N4|exact N1|exact N2|unfold ok, f_buffered; cbn; lia|reflexivity|reflexivity|exact Hd]. }
  assert (Ha' : opts_best opts = true \/ Forall (fun g => snd (answer (opts_best opts) (f_msg g)) = None) fs) by (destruct (opts_best opts); auto).
  destruct (clean_run _ _ _ (proj2 Hm) (proj2 Hcap) (proj1 Hcap) fs (rd_size rd2) p0 St HF Ha' ltac:(unfold p0, restart, left; cbn [p_s s_r new_scanner new_reader_size f_un f_rd length]; lia) Hne) as [tok [p1 [p' [C1 [_ [_ [_ [C5 C6]]]]]]]].
  rewrite C1, C5. destruct (end_scan _ _ _ _ C6) as [p2 [E _]]. unfold continued. rewrite E. reflexivity.
Qed.
(* so the natural reading (both streams are reported completely) is false: the second outer message is lost *)
Theorem octet_reentrant_refuted : exists rd rd2 outer inner, emitted [] [] rd = Some outer /\ emitted [] [] rd2 = Some inner
  /\ length outer = 2%nat /\ length inner = 1%nat
  /\ re_results (re_stream [[OStream rd2]] (new_parser []) rd) = Some (firstn 1 outer ++ inner).
Proof.
  exists [(lit "16 <1>1 - - - - - -16 <2>1 - - - - - -", None)], [(lit "16 <3>1 - - - - - -", None)]. eexists _, _. split; [vm_compute; reflexivity|]. split; [vm_compute; reflexivity|].
  split; [reflexivity|]. split; [reflexivity|]. vm_compute. reflexivity.
Qed.
(* the stream of the listener ends at a message that is too long: the outer loop goes on behind its length; and a listener that nests twice, asking for best effort *)
Example octet_reentrant_ex1 : re_results (re_stream [[OStream [(lit "99999 <3>1 - - - - - -", None)]]] (new_parser []) [(lit "16 <1>1 - - - - - -16 <2>1 - - - - - -", None)])
  = Some [answer_result false (lit "<1>1 - - - - - -"); Result None (Some (ETooLong 99999 8192)); Result None (Some (EFound (Token WS (lit " ")) MSGLEN))].
Proof. vm_compute. reflexivity. Qed.
Example octet_reentrant_ex2 : re_results (re_stream [[OApply OBestEffort; OStream [(lit "5 <3>1x5 <4>1y", None)]]; []; [OStream [(lit "16 <5>1 - - - - - -", None)]]] (new_parser []) [(lit "16 <1>1 - - - - - -16 <2>1 - - - - - -", None)])
  = Some [answer_result false (lit "<1>1 - - - - - -"); Result None (Some (EMachine (PErr EParse 4))); Result None (Some (EMachine (PErr EParse 4))); answer_result false (lit "<5>1 - - - - - -")].
Proof. vm_compute. reflexivity. Qed.
