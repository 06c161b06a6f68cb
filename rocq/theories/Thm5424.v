(* The theorems about the RFC 5424 parser (properties C01-C15). *)
From Verif Require Import Bytes GoMap GoTime Common CommonFacts M5424Def A5424 M5424 Spec5424 Ref5424a Ref5424b Ref5424c Grammar5424 Utf8 Ts5424 Gram5424 Loc5424 Props5424.
Local Open Scope Z_scope.

Ltac lens := repeat (rewrite len_app || rewrite len_cons || rewrite len_nil); lia.

(* C01: Parse returns, on every machine (whatever it parsed before) and every input *)
Theorem parse_total m data : exists r e, snd (parse m data) = Ret r e.
Proof. rewrite (proj1 (parse_spec m data)). destruct (spec5424 (compliant m) data) as [o|[o|] e]; cbn [ret_of]; eauto. Qed.
Theorem parser_parse_total m data : exists r e, snd (parser_parse m data) = Ret r e.
Proof.
  unfold parser_parse. destruct (parse_total m data) as [r [e H]]. destruct (parse m data) as [m' x]. cbn [snd] in H. subst x. destruct e; [destruct (bestEffort m)|]; cbn [snd]; eauto.
Qed.

(* C02, C03: no error iff the input is in the grammar, and then the message is the one it denotes *)
Theorem parse_accepts_grammar m data msg : snd (parse m data) = Ret (Some msg) None <-> grammar (compliant m) data msg.
Proof.
  rewrite (proj1 (parse_spec m data)), <- spec_grammar. destruct (spec5424 (compliant m) data) as [o|[o|] e]; cbn [ret_of]; split.
  - intros H. injection H as <-. eauto.
  - intros [o' [H <-]]. injection H as <-. reflexivity.
  - destruct (bestEffort m); discriminate.
  - intros [o' [H _]]. discriminate.
  - discriminate.
  - intros [o' [H _]]. discriminate.
Qed.
Theorem parse_no_error_iff_grammar m data : (exists r, snd (parse m data) = Ret r None) <-> exists msg, grammar (compliant m) data msg.
Proof.
  split.
  - intros [r H]. rewrite (proj1 (parse_spec m data)) in H. destruct (spec5424 (compliant m) data) as [o|[o|] e] eqn:E; cbn [ret_of] in H; try discriminate.
    exists (export o). apply spec_grammar. eauto.
  - intros [msg H]. apply parse_accepts_grammar in H. eauto.
Qed.
(* the grammar gives every text at most one meaning *)
Theorem grammar_unambiguous cm data m1 m2 : grammar cm data m1 -> grammar cm data m2 -> m1 = m2.
Proof. rewrite <- !spec_grammar. intros [o1 [H1 <-]] [o2 [H2 <-]]. congruence. Qed.

Definition good_result : message :=
  Message (Some 20) (Some 5) (Some 165) (Some (Time 2018 10 11 22 14 15 3000000 0))
      (Some (lit "mymach.it")) (Some (lit "e")) None (Some (lit "1")) (Some (lit "An application event log entry..."))
      4 (Some [(lit "ex@32473", [(lit "iut", lit "3")])]).
Example good_in_grammar : grammar false good_msg good_result.
Proof. apply (parse_accepts_grammar strict). vm_compute. reflexivity. Qed.
Example bad_not_in_grammar : ~ exists msg, grammar false (lit "<192>1 - - - - - -") msg.
Proof. intros [msg H]. apply (parse_accepts_grammar strict) in H. vm_compute in H. discriminate. Qed.

(* C04: shape of the result *)
Theorem parse_shape m data :
  (exists msg, snd (parse m data) = Ret (Some msg) None /\ valid msg = true)
  \/ (exists e, snd (parse m data) = Ret None (Some e))
  \/ (exists msg e, snd (parse m data) = Ret (Some msg) (Some e) /\ bestEffort m = true /\ valid msg = true).
Proof.
  rewrite (proj1 (parse_spec m data)). pose proof (spec_minimal (compliant m) data) as H. destruct (spec5424 (compliant m) data) as [o|[o|] e]; cbn [ret_of].
  - left. exists (export o). split; [reflexivity|]. destruct H as [p [ver [H1 [H2 H3]]]]. apply (valid_hdr p ver); auto. apply (minimally_valid_range data). exact H1.
  - destruct (bestEffort m); [|eauto]. right. right. exists (export o), e. split; [reflexivity|]. split; [reflexivity|]. destruct H as [p [ver [H1 [H2 H3]]]].
    apply (valid_hdr p ver); auto. apply (minimally_valid_range data). exact H1.
  - eauto.
Qed.

(* C05: best effort only adds a message next to an error *)
Theorem best_effort_conservative m m' data : bestEffort m = false -> bestEffort m' = true -> compliant m = compliant m' ->
  (forall msg, snd (parse m data) = Ret (Some msg) None <-> snd (parse m' data) = Ret (Some msg) None)
  /\ (forall e, snd (parse m data) = Ret None (Some e) <-> exists r, snd (parse m' data) = Ret r (Some e)).
Proof.
  intros H1 H2 H3. rewrite !(proj1 (parse_spec _ data)), H1, H2, H3. destruct (spec5424 (compliant m') data) as [o|[o|] e]; cbn [ret_of]; split; intros; split; intros H; try discriminate; try tauto.
  - destruct H; discriminate.
  - injection H as <-. eauto.
  - destruct H as [r H]. injection H as _ <-. reflexivity.
  - injection H as <-. eauto.
  - destruct H as [r H]. injection H as _ <-. reflexivity.
Qed.

(* C06: in best effort mode there is a message iff the PRI part is well formed and followed by a version digit *)
Theorem best_effort_minimal m data : bestEffort m = true ->
  (exists msg e, snd (parse m data) = Ret (Some msg) e) <-> exists p, minimally_valid data p.
Proof.
  intros Hb. rewrite (proj1 (parse_spec m data)), Hb. pose proof (spec_minimal (compliant m) data) as H. destruct (spec5424 (compliant m) data) as [o|[o|] e]; cbn [ret_of].
  - destruct H as [p [ver [H _]]]. split; eauto.
  - destruct H as [p [ver [H _]]]. split; eauto.
  - split; [intros [msg [e' H']]; discriminate|]. intros [p Hp]. destruct (H p Hp).
Qed.
(* and its priority is the one written *)
Theorem best_effort_priority m data msg e p : snd (parse m data) = Ret (Some msg) e -> minimally_valid data p ->
  priority msg = Some p /\ facility msg = Some (p / 8) /\ severity msg = Some (p mod 8).
Proof.
  rewrite (proj1 (parse_spec m data)). pose proof (spec_minimal (compliant m) data) as H. intros Hr Hp.
  assert (Hx : forall o, (exists p ver, minimally_valid data p /\ hdr p ver o /\ 1 <= ver <= 999) -> priority (export o) = Some p /\ facility (export o) = Some (p / 8) /\ severity (export o) = Some (p mod 8)).
  { intros o [q [ver [H1 [[_ [H2 _]] _]]]]. rewrite (minimally_valid_unique _ _ _ Hp H1). cbn. rewrite H2. auto. }
  destruct (spec5424 (compliant m) data) as [o|[o|] e0]; cbn [ret_of] in Hr; [|destruct (bestEffort m); [|discriminate]|discriminate]; injection Hr as <- _; apply Hx; exact H.
Qed.
Example best_effort_ex : snd (parse best (lit "<3>1 - h%")) = Ret (Some (Message (Some 0) (Some 3) (Some 3) None None None None None None 1 None)) (Some (PErr EHostname 9))
  /\ minimally_valid (lit "<3>1 - h%") 3.
Proof.
  split; [vm_compute; reflexivity|]. exists (lit "3"), "1"%byte, (lit " - h%"). split; [reflexivity|]. split; [|split; [unfold digit; change (bN "1") with 49%N; lia|discriminate]].
  apply (plain_cases (lit "3") 3 191); [lia|]. split; [lia|]. left. exists "3"%byte. split; [reflexivity|]. split; [unfold digit; change (bN "3") with 51%N; lia|reflexivity].
Qed.

(* C08: reuse *)
Theorem parse_reuse m inputs data : snd (parse (after m inputs) data) = snd (parse m data).
Proof.
  destruct (after_flags inputs m) as [H1 H2]. rewrite !(proj1 (parse_spec _ data)), H1, H2. reflexivity.
Qed.
Theorem parse_independent m m' data : bestEffort m = bestEffort m' -> compliant m = compliant m' -> snd (parse m data) = snd (parse m' data).
Proof. intros H1 H2. rewrite !(proj1 (parse_spec _ data)), H1, H2. reflexivity. Qed.
(* after an input that leaves an element and a parameter behind *)
Example parse_reuse_ex : snd (parse (after best [lit "<3>1 - - - - - [a b=""c"" d=""\x"; good_msg]) good_msg) = snd (parse best good_msg)
  /\ mv (after best [lit "<3>1 - - - - - [a b=""c"" d=""\x"]) <> mv best.
Proof. split; [apply parse_reuse|]. vm_compute. discriminate. Qed.

(* C09: error column and locality *)
Theorem parse_error_position m data r e : snd (parse m data) = Ret r (Some e) -> 0 <= perr_col e <= Z.of_nat (length data).
Proof.
  rewrite (proj1 (parse_spec m data)). pose proof (spec_local (compliant m) data) as H. intros Hr.
  destruct (spec5424 (compliant m) data) as [o|x e']; [discriminate|]. destruct (H x e' eq_refl) as [H1 _].
  destruct x as [o|]; cbn [ret_of] in Hr; injection Hr as _ <-; exact H1.
Qed.
Theorem parse_error_local m w b r r' res e : snd (parse m (w ++ b :: r)) = Ret res (Some e) -> perr_col e = Z.of_nat (length w) ->
  snd (parse m (w ++ b :: r')) = Ret res (Some e).
Proof.
  rewrite !(proj1 (parse_spec m _)). pose proof (spec_local (compliant m) (w ++ b :: r)) as H. intros Hr Hc.
  destruct (spec5424 (compliant m) (w ++ b :: r)) as [o|x e']; [discriminate|]. destruct (H x e' eq_refl) as [_ H2].
  assert (e' = e) by (destruct x as [o|]; cbn [ret_of] in Hr; injection Hr as _ <-; reflexivity). subst e'. rewrite (H2 w b r r' eq_refl Hc). exact Hr.
Qed.
Example parse_error_local_ex : exists res, snd (parse best (lit "<3>1 - h%" ++ "010"%byte :: lit "anything")) = Ret res (Some (PErr EHostname 9)).
Proof. eexists. vm_compute. reflexivity. Qed.

(* C10: PRI *)
Theorem accepted_priority m data msg : snd (parse m data) = Ret (Some msg) None ->
  exists pri p rest, data = lit "<" ++ pri ++ lit ">" ++ rest /\ plain_number pri 0 191 p
    /\ priority msg = Some p /\ facility msg = Some (p / 8) /\ severity msg = Some (p mod 8).
Proof.
  intros H. apply parse_accepts_grammar in H as [pri [ver [ts [host [app [proc [mid [sd [tail [p [v [t [s [g [-> [H1 [H2 [H3 [H4 [H5 [H6 [H7 [H8 [Hg ->]]]]]]]]]]]]]]]]]]]]]]]].
  unfold syslog_text. exists pri, p. eexists. split; [reflexivity|]. split; [exact H1|]. repeat split; reflexivity.
Qed.
Theorem every_priority_accepted m pri p : plain_number pri 0 191 p ->
  snd (parse m (lit "<" ++ pri ++ lit ">1 - - - - - -")) =
  Ret (Some (Message (Some (p / 8)) (Some (p mod 8)) (Some p) None None None None None None 1 None)) None.
Proof.
  intros Hp. apply parse_accepts_grammar. exists pri, (lit "1"), (lit "-"), (lit "-"), (lit "-"), (lit "-"), (lit "-"), (lit "-"), [], p, 1, None, None, None.
  split; [reflexivity|]. split; [exact Hp|].
  assert (Hw : forall n, (1 <= n)%nat -> word n (lit "-")). { intros n Hn. change (lit "-") with ["-"%byte]. split; [change (length ["-"%byte]) with 1%nat; lia|]. apply Forall_cons; [unfold printable; change (bN "-") with 45%N; lia|apply Forall_nil]. }
  split; [apply version_cases; left; exists "1"%byte; repeat split; reflexivity|]. split; [left; auto|]. do 4 (split; [apply Hw; lia|]).
  split; [constructor|]. split; [constructor|]. reflexivity.
Qed.
Example leading_zero_rejected : exists e, snd (parse strict (lit "<01>1 - - - - - -")) = Ret None (Some e).
Proof. eexists. vm_compute. reflexivity. Qed.

Lemma msg_none cm tail : msg_field cm tail None -> tail = [] \/ tail = lit " ".
Proof.
  intros H. remember None as g eqn:E. destruct H as [|m _]; [auto|]. destruct m; [right; reflexivity|discriminate].
Qed.
(* C11: the message of the default mode is any byte sequence *)
Theorem default_message_opaque m data msg g : compliant m = false -> snd (parse m data) = Ret (Some msg) None -> M5424.msg msg = None ->
  (forall d, data <> d ++ lit " ") ->
  snd (parse m (data ++ lit " " ++ g)) = Ret (Some (Message (facility msg) (severity msg) (priority msg) (timestamp msg) (hostname msg) (appname msg) (procID msg) (msgID msg) (nonempty g) (version msg) (structuredData msg))) None.
Proof.
  intros Hc H Hn Hsp. apply parse_accepts_grammar. apply parse_accepts_grammar in H as [pri [ver [ts [host [app [proc [mid [sd [tail [p [v [t [s [g' [Hd [H1 [H2 [H3 [H4 [H5 [H6 [H7 [H8 [Hg Hm]]]]]]]]]]]]]]]]]]]]]]]].
  rewrite Hm in *. clear Hm. cbn [M5424.msg] in Hn. subst g'. destruct (msg_none _ _ Hg) as [->| ->].
  - exists pri, ver, ts, host, app, proc, mid, sd, (lit " " ++ g), p, v, t, s, (nonempty g). split.
    { rewrite Hd. unfold syslog_text. rewrite <- !app_assoc. reflexivity. }
    repeat (split; [assumption|]). split; [constructor; rewrite Hc; discriminate|]. reflexivity.
  - exfalso. apply (Hsp (syslog_text pri ver ts host app proc mid sd [])). rewrite Hd. unfold syslog_text. rewrite <- !app_assoc. reflexivity.
Qed.
(* the same, with the header written out *)
Theorem default_message_any_bytes m pri ver ts host app proc mid sd p v t s g : compliant m = false ->
  pri_text pri p -> version_text ver v -> ts_field ts t -> word 255 host -> word 48 app -> word 128 proc -> word 32 mid -> sd_field sd s ->
  snd (parse m (syslog_text pri ver ts host app proc mid sd (lit " " ++ g))) =
  Ret (Some (Message (Some (p / 8)) (Some (p mod 8)) (Some p) t (word_value host) (word_value app) (word_value proc) (word_value mid) (nonempty g) v s)) None.
Proof.
  intros Hc H1 H2 H3 H4 H5 H6 H7 H8. apply parse_accepts_grammar. exists pri, ver, ts, host, app, proc, mid, sd, (lit " " ++ g), p, v, t, s, (nonempty g).
  split; [reflexivity|]. repeat (split; [assumption|]). split; [|reflexivity]. apply m_some. rewrite Hc. discriminate.
Qed.
Example default_message_ex : snd (parse strict (lit "<3>1 - - - - - - " ++ ["000"; "010"; "255"; "239"; "187"; "191"; "128"]%byte)) =
  Ret (Some (Message (Some 0) (Some 3) (Some 3) None None None None None (Some ["000"; "010"; "255"; "239"; "187"; "191"; "128"]%byte) 1 None)) None.
Proof. vm_compute. reflexivity. Qed.

(* C12: the message of the compliant mode *)
Theorem compliant_message m pri ver ts host app proc mid sd p v t s g : compliant m = true ->
  pri_text pri p -> version_text ver v -> ts_field ts t -> word 255 host -> word 48 app -> word 128 proc -> word 32 mid -> sd_field sd s ->
  ((exists r, snd (parse m (syslog_text pri ver ts host app proc mid sd (lit " " ++ g))) = Ret r None) <-> (forall r, g = BOM ++ r -> utf8 r))
  /\ ((forall r, g = BOM ++ r -> utf8 r) -> snd (parse m (syslog_text pri ver ts host app proc mid sd (lit " " ++ g))) =
  Ret (Some (Message (Some (p / 8)) (Some (p mod 8)) (Some p) t (word_value host) (word_value app) (word_value proc) (word_value mid) (nonempty g) v s)) None).
Proof.
  intros Hc H1 H2 H3 H4 H5 H6 H7 H8.
  assert (Hsuf : (forall r, g = BOM ++ r -> utf8 r) -> snd (parse m (syslog_text pri ver ts host app proc mid sd (lit " " ++ g))) =
    Ret (Some (Message (Some (p / 8)) (Some (p mod 8)) (Some p) t (word_value host) (word_value app) (word_value proc) (word_value mid) (nonempty g) v s)) None).
  { intros Hg. apply parse_accepts_grammar. exists pri, ver, ts, host, app, proc, mid, sd, (lit " " ++ g), p, v, t, s, (nonempty g).
    split; [reflexivity|]. repeat (split; [assumption|]). split; [|reflexivity]. apply m_some. intros _. exact Hg. }
  split; [|exact Hsuf]. split; [|intros Hg; eexists; apply Hsuf; exact Hg].
  intros [res Hr]. rewrite (proj1 (parse_spec m _)), Hc in Hr.
  (* the same text is accepted in default mode with message g; both modes split it alike *)
  destruct (spec5424 true (syslog_text pri ver ts host app proc mid sd (lit " " ++ g))) as [o|[o|] e] eqn:E; cbn [ret_of] in Hr; try discriminate.
  assert (Hg : grammar true (syslog_text pri ver ts host app proc mid sd (lit " " ++ g)) (export o)) by (apply spec_grammar; eauto).
  destruct Hg as [pri' [ver' [ts' [host' [app' [proc' [mid' [sd' [tail' [p' [v' [t' [s' [g' [Hd [A1 [A2 [A3 [A4 [A5 [A6 [A7 [A8 [Hg' Hm]]]]]]]]]]]]]]]]]]]]]]]].
  intros r Er. inversion Hg' as [Et Eg|g0 Hcm Et Eg].
  - (* no tail: then the default mode would give no message, but it gives g *)
    assert (G1 : grammar false (syslog_text pri ver ts host app proc mid sd (lit " " ++ g)) (Message (Some (p' / 8)) (Some (p' mod 8)) (Some p') t' (word_value host') (word_value app') (word_value proc') (word_value mid') None v' s')).
    { rewrite Hd, <- Et. exists pri', ver', ts', host', app', proc', mid', sd', [], p', v', t', s', None. repeat (split; [assumption || reflexivity|]). split; [constructor|reflexivity]. }
    assert (G2 : grammar false (syslog_text pri ver ts host app proc mid sd (lit " " ++ g)) (Message (Some (p / 8)) (Some (p mod 8)) (Some p) t (word_value host) (word_value app) (word_value proc) (word_value mid) (nonempty g) v s)).
    { exists pri, ver, ts, host, app, proc, mid, sd, (lit " " ++ g), p, v, t, s, (nonempty g). repeat (split; [assumption || reflexivity|]). split; [apply m_some; discriminate|reflexivity]. }
    pose proof (f_equal M5424.msg (grammar_unambiguous _ _ _ _ G1 G2)) as G. cbn [M5424.msg] in G. rewrite Er in G. discriminate.
  - assert (G1 : grammar false (syslog_text pri ver ts host app proc mid sd (lit " " ++ g)) (Message (Some (p' / 8)) (Some (p' mod 8)) (Some p') t' (word_value host') (word_value app') (word_value proc') (word_value mid') (nonempty g0) v' s')).
    { rewrite Hd, <- Et. exists pri', ver', ts', host', app', proc', mid', sd', (lit " " ++ g0), p', v', t', s', (nonempty g0). repeat (split; [assumption || reflexivity|]). split; [apply m_some; discriminate|reflexivity]. }
    assert (G2 : grammar false (syslog_text pri ver ts host app proc mid sd (lit " " ++ g)) (Message (Some (p / 8)) (Some (p mod 8)) (Some p) t (word_value host) (word_value app) (word_value proc) (word_value mid) (nonempty g) v s)).
    { exists pri, ver, ts, host, app, proc, mid, sd, (lit " " ++ g), p, v, t, s, (nonempty g). repeat (split; [assumption || reflexivity|]). split; [apply m_some; discriminate|reflexivity]. }
    pose proof (f_equal M5424.msg (grammar_unambiguous _ _ _ _ G1 G2)) as G. cbn [M5424.msg] in G.
    assert (g0 = g). { destruct g0, g; cbn in G; congruence. } subst g0. apply (Hcm eq_refl). exact Er.
Qed.
Example compliant_ex : (exists e, snd (parse (new_machine false true) (lit "<3>1 - - - - - - " ++ ["239"; "187"; "191"; "255"]%byte)) = Ret None (Some e))
  /\ (exists msg, snd (parse (new_machine false true) (lit "<3>1 - - - - - - " ++ ["239"; "187"; "191"; "195"; "169"]%byte)) = Ret (Some msg) None)
  /\ (exists msg, snd (parse (new_machine false true) (lit "<3>1 - - - - - - " ++ ["255"]%byte)) = Ret (Some msg) None).
Proof. repeat split; eexists; vm_compute; reflexivity. Qed.

(* C13: compliant mode is a restriction *)
Theorem compliant_restricts m m' data msg : compliant m = true -> compliant m' = false -> snd (parse m data) = Ret (Some msg) None -> snd (parse m' data) = Ret (Some msg) None.
Proof.
  intros Hc Hc' H. apply parse_accepts_grammar in H. apply parse_accepts_grammar. rewrite Hc in H. rewrite Hc'.
  destruct H as [pri [ver [ts [host [app [proc [mid [sd [tail [p [v [t [s [g [-> [H1 [H2 [H3 [H4 [H5 [H6 [H7 [H8 [Hg ->]]]]]]]]]]]]]]]]]]]]]]]].
  exists pri, ver, ts, host, app, proc, mid, sd, tail, p, v, t, s, g. repeat (split; [assumption || reflexivity|]). split; [|reflexivity]. destruct Hg; constructor. discriminate.
Qed.
(* where nothing follows a BOM badly, both modes agree: same acceptance *)
Theorem compliant_same m m' data msg : compliant m = true -> compliant m' = false -> snd (parse m' data) = Ret (Some msg) None ->
  (forall g, M5424.msg msg = Some g -> forall r, g <> BOM ++ r) -> snd (parse m data) = Ret (Some msg) None.
Proof.
  intros Hc Hc' H Hb. apply parse_accepts_grammar in H. apply parse_accepts_grammar. rewrite Hc' in H. rewrite Hc.
  destruct H as [pri [ver [ts [host [app [proc [mid [sd [tail [p [v [t [s [g [-> [H1 [H2 [H3 [H4 [H5 [H6 [H7 [H8 [Hg ->]]]]]]]]]]]]]]]]]]]]]]]].
  exists pri, ver, ts, host, app, proc, mid, sd, tail, p, v, t, s, g. repeat (split; [assumption || reflexivity|]). split; [|reflexivity]. destruct Hg as [|g Hg]; constructor.
  intros _ r Er. exfalso. destruct g as [|a g]; [discriminate|]. apply (Hb (a :: g) eq_refl r). exact Er.
Qed.

(* C14: unescaping is the inverse of escaping *)
Fixpoint escape (v : bytes) : bytes :=
  match v with
  | [] => []
  | b :: r => if beqb b """" || beqb b "\" || beqb b "]" then "\"%byte :: b :: escape r else b :: escape r
  end.
Lemma escape_app a b : escape (a ++ b) = escape a ++ escape b.
Proof. induction a as [|c a IH]; [reflexivity|]. cbn [app escape]. destruct (beqb c """" || beqb c "\" || beqb c "]"); rewrite IH; reflexivity. Qed.
Lemma escape_plain l : Forall (fun b => (128 <= bN b)%N) l -> escape l = l.
Proof.
  induction 1 as [|b l Hb H IH]; [reflexivity|]. cbn [escape]. rewrite IH. unfold beqb.
  replace (bN b =? bN """")%N with false by (symmetry; apply N.eqb_neq; change (bN """") with 34%N; lia).
  replace (bN b =? bN "\")%N with false by (symmetry; apply N.eqb_neq; change (bN "\") with 92%N; lia).
  replace (bN b =? bN "]")%N with false by (symmetry; apply N.eqb_neq; change (bN "]") with 93%N; lia). reflexivity.
Qed.
Lemma utail_high t : forall i, utail i t -> Forall (fun b => (128 <= bN b)%N) t.
Proof.
  induction t as [|b t IH]; intros i H; [constructor|]. cbn [utail] in H. destruct (utf_tail i (bN b)) as [[j|]|] eqn:E.
  - constructor; [eapply utf_tail_ge; exact E|eauto].
  - subst t. constructor; [eapply utf_tail_ge; exact E|constructor].
  - contradiction.
Qed.
Lemma escape_pval v : utf8 v -> pval (escape v) v.
Proof.
  induction 1 as [|c l Hc Hl IH]; [constructor|]. rewrite escape_app. destruct (encode_cases c Hc) as [[H1 [H2 H3]]|[H1 [b [t [i [H2 [H3 [H4 H5]]]]]]]].
  - rewrite H2. cbn [escape app]. destruct (beqb (byte_of c) """" || beqb (byte_of c) "\" || beqb (byte_of c) "]") eqn:E.
    + cbn [app]. apply pv_esc; [|exact IH]. unfold beqb in E. rewrite !orb_true_iff, !N.eqb_eq in E. unfold special. change (bN """") with 34%N in E. change (bN "\") with 92%N in E. change (bN "]") with 93%N in E. tauto.
    + cbn [app]. change (byte_of c :: escape l) with ([byte_of c] ++ escape l). change (byte_of c :: l) with ([byte_of c] ++ l). rewrite <- H2. apply pv_chr; [exact Hc| |exact IH].
      intros Hs. unfold beqb in E. rewrite !orb_false_iff, !N.eqb_neq in E. change (bN """") with 34%N in E. change (bN "\") with 92%N in E. change (bN "]") with 93%N in E. rewrite H3 in E. unfold special in Hs. tauto.
  - rewrite escape_plain. { apply pv_chr; [exact Hc|unfold special; lia|exact IH]. }
    rewrite H2. constructor; [exact H3|]. eapply utail_high. exact H5.
Qed.
Theorem escape_then_parse m id nm v : sdname id -> sdname nm -> utf8 v ->
  snd (parse m (lit "<1>1 - - - - - [" ++ id ++ lit " " ++ nm ++ lit "=""" ++ escape v ++ lit """]")) =
  Ret (Some (Message (Some 0) (Some 1) (Some 1) None None None None None None 1 (Some [(id, [(nm, v)])]))) None.
Proof.
  intros Hid Hnm Hv. apply parse_accepts_grammar.
  exists (lit "1"), (lit "1"), (lit "-"), (lit "-"), (lit "-"), (lit "-"), (lit "-"), (concat (map elem_text [Elem id [Param nm (escape v) v]])), [], 1, 1, None, (Some (elems_map [] [Elem id [Param nm (escape v) v]])), None.
  split. { unfold syslog_text. cbn [map concat]. unfold elem_text. cbn [e_id e_params map concat]. unfold param_text. cbn [p_name p_raw]. rewrite !app_nil_r, <- !app_assoc. reflexivity. }
  assert (Hw : forall n, (1 <= n)%nat -> word n (lit "-")). { intros n Hn. change (lit "-") with ["-"%byte]. split; [change (length ["-"%byte]) with 1%nat; lia|]. apply Forall_cons; [unfold printable; change (bN "-") with 45%N; lia|apply Forall_nil]. }
  split. { apply (plain_cases (lit "1") 1 191); [lia|]. split; [lia|]. left. exists "1"%byte. split; [reflexivity|]. split; [unfold digit; change (bN "1") with 49%N; lia|reflexivity]. }
  split; [apply version_cases; left; exists "1"%byte; repeat split; reflexivity|]. split; [left; auto|]. do 4 (split; [apply Hw; lia|]).
  split. { constructor; [discriminate| |repeat constructor; intros []]. apply Forall_cons; [|apply Forall_nil]. split; [exact Hid|]. apply Forall_cons; [|apply Forall_nil]. split; [exact Hnm|]. apply escape_pval. exact Hv. }
  split; [constructor|]. reflexivity.
Qed.
Example escape_ex : escape (lit "a""b\c]d") = lit "a\""b\\c\]d" /\ utf8 (lit "a""b\c]d").
Proof.
  split; [reflexivity|]. apply utf_scan_utf8. vm_compute. reflexivity.
Qed.

(* C15: repeated SD-IDs.  es: the well-formed elements before the repeated one; after its id the text goes on in any way *)
Lemma len_text_cons e es tl : concat (map elem_text (e :: es)) ++ tl = "["%byte :: e_id e ++ ps_text (e_params e) ++ "]"%byte :: concat (map elem_text es) ++ tl.
Proof. cbn [map concat]. unfold elem_text at 1. change (lit "[") with ["["%byte]. change (lit "]") with ["]"%byte]. unfold ps_text. rewrite <- !app_assoc. reflexivity. Qed.

Lemma put_param_with id nm v o : o_hasElements o = true -> put_param id nm v o = with_sd (mset (sd_of o) id (mset (elem_of o id) nm v)) o.
Proof. intros Hhe. unfold put_param, with_sd. destruct o; cbn in *. rewrite Hhe. reflexivity. Qed.
(* reading well-formed parameters and elements goes on at the text after them *)
Lemma el_params cm id ps : forall cp o p r pp, Forall param_ok (pp :: ps) -> o_hasElements o = true -> mget (sd_of o) id <> None ->
  el cm (MParam id cp) o p (pbody pp ++ ps_text ps ++ "]"%byte :: r) =
  cl cm id (with_sd (mset (sd_of o) id (params_map (elem_of o id) (pp :: ps))) o) (p + len (pbody pp ++ ps_text ps) + 1) r.
Proof.
  induction ps as [|p2 ps IH]; intros cp o p r pp Hok Hhe Hid; inversion Hok as [|? ? [Hnm Hpv] Hok']; subst; destruct pp as [nm raw v]; cbn [p_name p_raw p_value] in *;
    apply sdname_span in Hnm as [Hl Hall]; destruct (pval_scan raw v Hpv) as [Hun Hsc];
    pose proof (put_param_with id nm v o Hhe) as Hput.
  - unfold pbody. cbn [p_name p_raw]. change (ps_text []) with (@nil byte).
    replace ((nm ++ "="%byte :: """"%byte :: raw ++ [""""%byte]) ++ [] ++ "]"%byte :: r) with (nm ++ "="%byte :: """"%byte :: raw ++ """"%byte :: "]"%byte :: r) by (rewrite <- !app_assoc; cbn [app]; rewrite <- app_assoc; reflexivity).
    rewrite el_param, span_exact by (assumption || lia || reflexivity). destruct nm as [|a nm]; [cbn in Hl; lia|]. set (NM := a :: nm) in *. unfold pv.
    change (is 61 "=") with true. change (is 34 """") with true. cbv iota. rewrite Hsc, Hun. cbv zeta iota beta. change (is 32 "]") with false. change (is 93 "]") with true. cbv iota.
    rewrite Hput. cbn [params_map fold_left p_name p_value]. f_equal. rewrite app_nil_r. lens.
  - unfold pbody at 1. cbn [p_name p_raw]. rewrite ps_text_cons.
    replace ((nm ++ "="%byte :: """"%byte :: raw ++ [""""%byte]) ++ (" "%byte :: pbody p2 ++ ps_text ps) ++ "]"%byte :: r) with (nm ++ "="%byte :: """"%byte :: raw ++ """"%byte :: " "%byte :: pbody p2 ++ ps_text ps ++ "]"%byte :: r)
      by (rewrite <- !app_assoc; cbn [app]; rewrite <- !app_assoc; reflexivity).
    rewrite el_param, span_exact by (assumption || lia || reflexivity). destruct nm as [|a nm]; [cbn in Hl; lia|]. set (NM := a :: nm) in *. unfold pv.
    change (is 61 "=") with true. change (is 34 """") with true. cbv iota. rewrite Hsc, Hun. cbv zeta iota beta. change (is 32 " ") with true. cbv iota.
    rewrite IH; [|exact Hok'|exact Hhe|rewrite Hput, sd_with, mget_mset_same; discriminate].
    rewrite Hput. unfold elem_of. rewrite sd_with, with_with, mget_mset_same, mset_mset. rewrite (params_map_cons _ (Param NM raw v)). cbn [p_name p_value].
    f_equal. unfold pbody. cbn [p_name p_raw]. lens.
Qed.
Lemma el_one cm cur o p e r : elem_ok e -> mget (sd_of o) (e_id e) = None ->
  el cm (MElem cur) o p (e_id e ++ ps_text (e_params e) ++ "]"%byte :: r) =
  cl cm (e_id e) (with_sd (mset (sd_of o) (e_id e) (params_map [] (e_params e))) o) (p + len (e_id e ++ ps_text (e_params e)) + 1) r.
Proof.
  intros [Hid Hps] Hm. destruct e as [id ps]. cbn [e_id e_params] in *. apply sdname_span in Hid as [Hl Hall]. destruct ps as [|pp ps].
  - change (ps_text []) with (@nil byte). cbn [app]. rewrite el_elem, span_exact by (assumption || lia || reflexivity). destruct id as [|a id]; [cbn in Hl; lia|]. rewrite Hm.
    change (is 32 "]") with false. change (is 93 "]") with true. cbv iota. rewrite app_nil_r. reflexivity.
  - rewrite ps_text_cons. cbn [app]. rewrite el_elem, span_exact by (assumption || lia || reflexivity). destruct id as [|a id]; [cbn in Hl; lia|]. set (ID := a :: id) in *. rewrite Hm.
    change (is 32 " ") with true. cbv iota. rewrite <- app_assoc. change (add_elem ID o) with (with_sd (mset (sd_of o) ID []) o).
    rewrite el_params; [|exact Hps|reflexivity|rewrite sd_with, mget_mset_same; discriminate]. unfold elem_of. rewrite sd_with, with_with, mget_mset_same, mset_mset.
    f_equal. lens.
Qed.
Lemma cl_elems cm es : forall idp o p r, Forall elem_ok es -> NoDup (map e_id es) -> Forall (fun e => mget (sd_of o) (e_id e) = None) es -> o_hasElements o = true -> o_sd o <> None ->
  exists id, cl cm idp o p (concat (map elem_text es) ++ r) = cl cm id (with_sd (elems_map (sd_of o) es) o) (p + len (concat (map elem_text es))) r.
Proof.
  induction es as [|e es IH]; intros idp o p r Hok Hnd Hfr Hhe Hsd.
  - exists idp. cbn [map concat app elems_map fold_left]. rewrite with_same by assumption. rewrite len_nil, Z.add_0_r. reflexivity.
  - inversion Hok; subst. inversion Hnd; subst. inversion Hfr; subst. rewrite len_text_cons. unfold cl at 1. fold cl. change (is 32 "[") with false. change (is 91 "[") with true. cbv iota.
    rewrite el_one by assumption.
    destruct (IH (e_id e) (with_sd (mset (sd_of o) (e_id e) (params_map [] (e_params e))) o) (p + 1 + len (e_id e ++ ps_text (e_params e)) + 1) r) as [id Hid]; [assumption|assumption| |reflexivity|discriminate|].
    + rewrite Forall_forall in *. intros e' He'. rewrite sd_with, mget_mset_other; [auto|]. intros E. apply H3. rewrite <- E. apply in_map. exact He'.
    + exists id. rewrite Hid, sd_with, with_with. cbn [elems_map fold_left]. f_equal.
      rewrite <- (app_nil_r (concat (map elem_text (e :: es)))), len_text_cons. lens.
Qed.
(* a field read whatever follows its separator *)
Lemma p_word_cont f k o p w r : word (N.to_nat (fmax f)) w -> p_word f k o p (w ++ " "%byte :: r) = k (set_word f w o) (p + len w + 1) r.
Proof.
  intros [Hl Hw]. unfold p_word. rewrite span_exact; [|eapply Forall_impl; [|exact Hw]; intros c; apply printable_graph|lia|reflexivity].
  destruct w as [|a w]; [cbn in Hl; lia|]. reflexivity.
Qed.
Lemma p_version_cont k o p s v r : version_text s v -> p_version k o p (s ++ " "%byte :: r) = k (set_ver v o) (p + len s + 1) r.
Proof.
  intros Hv. apply version_cases in Hv.
  assert (Hd : forall b, digit b -> is 32 b = false /\ is_dig (bN b) = true).
  { intros b Hb. split; [|apply digit_dig; exact Hb]. unfold is. apply N.eqb_neq. unfold digit in Hb. lia. }
  destruct Hv as [[a [-> [Ha ->]]]|[[a [b [-> [Ha [Hb ->]]]]]|[a [b [c [-> [Ha [Hb [Hc ->]]]]]]]]]; unfold p_version; cbn [app]; rewrite Ha.
  - change (is 32 " ") with true. cbv iota. change (len [a]) with 1. replace (p + 1 + 1) with (p + 2) by lia. reflexivity.
  - destruct (Hd b Hb) as [-> ->]. change (is 32 " ") with true. cbv iota. change (len [a; b]) with 2. replace (p + 2 + 1) with (p + 3) by lia. reflexivity.
  - destruct (Hd b Hb) as [-> ->]. destruct (Hd c Hc) as [-> ->]. change (is 32 " ") with true. cbv iota. change (len [a; b; c]) with 3. replace (p + 3 + 1) with (p + 4) by lia. reflexivity.
Qed.
Lemma p_ts_cont k o p s t r : ts_field s t -> p_ts k o p (s ++ " "%byte :: r) = k (put_ts t o) (p + len s + 1) r.
Proof.
  intros [[-> ->]|[t' [-> Hs]]].
  - unfold p_ts. change (lit "-") with ["-"%byte]. cbn [app]. change (is 45 "-") with true. change (is 32 " ") with true. cbv iota.
    change (len ["-"%byte]) with 1. replace (p + 1 + 1) with (p + 2) by lia. reflexivity.
  - destruct (ts_text_head s t' Hs) as [a [w [-> Ha]]].
    destruct (proj2 (ts_accept a (w ++ " "%byte :: r) (" "%byte :: r) t')) as [w' [_ [Es Et]]]; [exists (a :: w); auto|].
    pose proof Es as Es'. apply ts_scan_run in Es' as [Er _]. apply app_inv_tail in Er. subst w'.
    unfold p_ts. cbn [app]. replace (is 45 a) with false by (symmetry; unfold is; apply N.eqb_neq; apply btw_prop in Ha; lia).
    rewrite Ha, Es, Et. reflexivity.
Qed.
Lemma header_sd cm pri ver ts host app proc mid p v t rest :
  pri_text pri p -> version_text ver v -> ts_field ts t -> word 255 host -> word 48 app -> word 128 proc -> word 32 mid ->
  spec5424 cm (syslog_text pri ver ts host app proc mid rest []) = p_sd cm (build p v t host app proc mid None) (len (syslog_text pri ver ts host app proc mid [] [])) rest.
Proof.
  intros H1 H2 H3 H4 H5 H6 H7. unfold spec5424.
  destruct (p_pri_cont (p_header cm) (p_header cm) (syslog_text pri ver ts host app proc mid rest []) pri p
    (ver ++ " "%byte :: ts ++ " "%byte :: host ++ " "%byte :: app ++ " "%byte :: proc ++ " "%byte :: mid ++ " "%byte :: rest)) as [-> _]; [unfold syslog_text; rewrite app_nil_r; reflexivity|exact H1|].
  unfold p_header. rewrite (p_version_cont _ _ _ _ v) by assumption. rewrite (p_ts_cont _ _ _ _ t) by assumption. rewrite !p_word_cont by assumption.
  unfold build. cbn [put_sd]. f_equal. unfold syslog_text.
  change (lit "<") with ["<"%byte]. change (lit ">") with [">"%byte]. change (lit " ") with [" "%byte]. lens.
Qed.

Theorem duplicate_id_rejected m pri ver ts host app proc mid p v t es id rest :
  pri_text pri p -> version_text ver v -> ts_field ts t -> word 255 host -> word 48 app -> word 128 proc -> word 32 mid ->
  es <> [] -> Forall elem_ok es -> NoDup (map e_id es) ->
  sdname id -> In id (map e_id es) -> (length id = 32%nat \/ forall b r, rest = b :: r -> ~ sdname_char b) ->
  exists r, snd (parse m (syslog_text pri ver ts host app proc mid (concat (map elem_text es)) (lit "[" ++ id ++ rest))) =
    Ret r (Some (PErr ESdIDDuplicated (len (syslog_text pri ver ts host app proc mid (concat (map elem_text es)) (lit "[" ++ id))))).
Proof.
  intros H1 H2 H3 H4 H5 H6 H7 Hne Hok Hnd Hid Hin Hstop. rewrite (proj1 (parse_spec m _)).
  replace (syslog_text pri ver ts host app proc mid (concat (map elem_text es)) (lit "[" ++ id ++ rest)) with
    (syslog_text pri ver ts host app proc mid (concat (map elem_text es) ++ lit "[" ++ id ++ rest) []) by (unfold syslog_text; rewrite app_nil_r; reflexivity).
  rewrite (header_sd _ _ _ _ _ _ _ _ p v t) by assumption. set (o := build p v t host app proc mid None). set (P := len (syslog_text pri ver ts host app proc mid [] [])).
  assert (HP : len (syslog_text pri ver ts host app proc mid (concat (map elem_text es)) (lit "[" ++ id)) = P + len (concat (map elem_text es)) + 1 + len id).
  { unfold P, syslog_text. rewrite !len_app. change (len (lit "[")) with 1. rewrite len_nil. lia. }
  rewrite HP. clear HP. destruct es as [|e es]; [congruence|]. inversion Hok; subst. inversion Hnd; subst. rewrite len_text_cons.
  unfold p_sd. change (is 45 "[") with false. change (is 91 "[") with true. cbv iota. rewrite el_fold, el_one by (auto; reflexivity).
  change (sd_of (set_o_sd (Some []) o)) with (@nil (bytes * gmap bytes)). cbn [mset].
  set (o1 := with_sd [(e_id e, params_map [] (e_params e))] (set_o_sd (Some []) o)).
  destruct (cl_elems (compliant m) es (e_id e) o1 (P + 1 + len (e_id e ++ ps_text (e_params e)) + 1) (lit "[" ++ id ++ rest)) as [idp Hc]; [assumption|assumption| |reflexivity|discriminate|].
  { rewrite Forall_forall in *. intros e' He'. unfold o1. rewrite sd_with. change [(e_id e, params_map [] (e_params e))] with (mset (@nil (bytes * gmap bytes)) (e_id e) (params_map [] (e_params e))).
    rewrite mget_mset_other; [reflexivity|]. intros E. match goal with H : ~ In (e_id e) _ |- _ => apply H end. rewrite <- E. apply in_map. exact He'. }
  rewrite Hc. clear Hc. change (lit "[") with ["["%byte]. cbn [Datatypes.app]. unfold cl. change (is 32 "[") with false. change (is 91 "[") with true. cbv iota.
  rewrite el_elem. set (o2 := with_sd (elems_map (sd_of o1) es) o1).
  assert (Hspan : span_max is_sdc 32 (id ++ rest) = (id, rest)).
  { apply sdname_span in Hid as [Hl Hall]. destruct rest as [|b r].
    - rewrite app_nil_r. clear - Hl Hall. assert (Hx : forall n, (length id <= n)%nat -> span_max is_sdc n id = (id, [])).
      { induction Hall as [|a l Ha H IH]; intros n Hn; [destruct n; reflexivity|]. cbn [length] in *. destruct n as [|n]; [lia|]. cbn [span_max]. rewrite Ha.
        destruct l as [|b l]; [destruct n; reflexivity|]. rewrite IH by (cbn [length] in *; lia). reflexivity. }
      apply Hx. lia.
    - destruct (is_sdc (bN b)) eqn:Eb; [|apply span_exact; [assumption|lia|exact Eb]]. destruct Hstop as [H32|Hs]; [|exfalso; apply (Hs b r eq_refl), sdc_char; exact Eb].
      clear - Hall H32. assert (Hx : forall n, n = length id -> span_max is_sdc n (id ++ b :: r) = (id, b :: r)).
      { clear H32. induction Hall as [|a l Ha H IH]; intros n ->; [reflexivity|]. cbn [length span_max app]. rewrite Ha, IH; reflexivity. }
      apply Hx. symmetry. exact H32. }
  rewrite Hspan. destruct id as [|a id]; [destruct Hid as [Hl _]; cbn in Hl; lia|]. set (ID := a :: id) in *.
  assert (Hget : mget (sd_of o2) ID <> None).
  { unfold o2. rewrite sd_with. unfold o1. rewrite sd_with.
    assert (Hmono : forall es m0, (In ID (map e_id es) \/ mget m0 ID <> None) -> mget (elems_map m0 es) ID <> None).
    { clear. induction es as [|e es IH]; intros m0 [Hin|Hm]; [destruct Hin|exact Hm| |]; cbn [elems_map fold_left]; apply IH.
      - cbn [map] in Hin. destruct Hin as [E|Hin]; [right; rewrite <- E, mget_mset_same; discriminate|left; exact Hin].
      - right. destruct (bseqb (e_id e) ID) eqn:E; [apply bseqb_eq in E; rewrite E, mget_mset_same; discriminate|]. apply bseqb_neq in E. rewrite mget_mset_other by congruence. exact Hm. }
    apply Hmono. cbn [map] in Hin. destruct Hin as [E|Hin]; [right; cbn [mget]; rewrite E, bcmp_refl; discriminate|left; exact Hin]. }
  destruct (mget (sd_of o2) ID); [|congruence].
  eexists. cbn [ret_of]. f_equal. f_equal. f_equal.
  rewrite <- (app_nil_r (concat (map elem_text (e :: es)))), len_text_cons. lens.
Qed.
Example duplicate_ex : snd (parse strict (lit "<3>1 - - - - - [a x=""1""][b][a]")) = Ret None (Some (PErr ESdIDDuplicated (len (lit "<3>1 - - - - - [a x=""1""][b][a")))).
Proof. vm_compute. reflexivity. Qed.
