(* Properties of the RFC 5424 parser, stated on the model of Parse (M5424.parse: the goto program of
   rfc5424/machine.go run on any machine) and on the declarative grammar (Grammar5424). *)
From Verif Require Import Bytes GoMap GoTime Common CommonFacts M5424Def A5424 M5424 Spec5424 Ref5424a Ref5424b Ref5424c Grammar5424 Utf8 Ts5424 Gram5424 Loc5424.
Local Open Scope Z_scope.

(* rfc5424/syslog_message.go:88-91 Valid, with syslog.go:83-86 *)
Definition valid (m : message) : bool :=
  match priority m with Some p => valid_priority p | None => false end && valid_version (version m).

Definition good_msg : bytes := lit "<165>4 2018-10-11T22:14:15.003Z mymach.it e - 1 [ex@32473 iut=""3""] An application event log entry...".
Definition strict := new_machine false false.
Definition best := new_machine true false.

(* ---------- facts about the specification function ---------- *)
Definition someful (k : stage) : Prop := forall o p rest x e, k o p rest = PBad x e -> x <> None.
Definition keeps (P : msg5424 -> Prop) (k : stage) : Prop := forall o p rest, P o ->
  match k o p rest with PGood o' => P o' | PBad (Some o') _ => P o' | PBad None _ => True end.
(* priority and version are left alone *)
Definition hdr (v : Z) (ver : Z) (o : msg5424) : Prop := o_prioritySet o = true /\ o_priority o = v /\ o_version o = ver.

Lemma someful_msg cm : someful (p_msg cm).
Proof.
  intros o p [|a rest] x e H; [discriminate|]. unfold p_msg in H. destruct cm; [|discriminate]. destruct (strip_bom (a :: rest)) as [r|]; [|discriminate].
  destruct (utf_scan None r); [|discriminate]. injection H as <- <-. discriminate.
Qed.
(* the header fields *)
Definition hd9 (o : msg5424) := (o_prioritySet o, o_priority o, o_version o, o_timestampSet o, o_timestamp o, o_hostname o, o_appname o, o_procID o, o_msgID o).
Definition hd (h : bool * Z * Z * bool * time * bytes * bytes * bytes * bytes) (o : msg5424) : Prop := hd9 o = h.
Lemma hd_msg cm h : keeps (hd h) (p_msg cm).
Proof.
  intros o p [|a rest] Ho; [exact Ho|]. unfold p_msg. destruct cm; [|exact Ho]. destruct (strip_bom (a :: rest)) as [r|]; [|exact Ho]. destruct (utf_scan None r); exact Ho.
Qed.
Lemma hd_del_elem h cur o : hd h o -> hd h (del_elem cur o). Proof. destruct cur; auto. Qed.
Lemma hd_del_param h id cp o : hd h o -> hd h (del_param id cp o). Proof. destruct cp; auto. Qed.

Lemma el_facts cm n : (forall md rest, (length rest <= n)%nat -> (forall o p x e, el cm md o p rest = PBad x e -> x <> None)
     /\ forall h o p, hd h o -> match el cm md o p rest with PGood o' => hd h o' | PBad (Some o') _ => hd h o' | PBad None _ => True end)
  /\ (forall id rest, (length rest <= n)%nat -> (forall o p x e, cl cm id o p rest = PBad x e -> x <> None)
     /\ forall h o p, hd h o -> match cl cm id o p rest with PGood o' => hd h o' | PBad (Some o') _ => hd h o' | PBad None _ => True end).
Proof.
  induction n as [|n [IHe IHc]].
  - split; intros ? rest Hl; destruct rest; cbn [length] in Hl; try lia.
    + destruct md; split; intros; try rewrite el_elem in *; try rewrite el_param in *; cbn [span_max] in *;
        [injection H as <- <-; discriminate|apply hd_del_elem; assumption|injection H as <- <-; discriminate|apply hd_del_param; assumption].
    + split; [discriminate|auto].
  - split.
    + intros md rest Hl. destruct md as [cur|id cp].
      * pose proof (el_elem cm cur) as Eq. destruct (span_max is_sdc 32 rest) as [id r] eqn:E. pose proof (span_parts _ _ _ _ _ E) as [Er _]. subst rest. rewrite app_length in Hl.
        assert (Hr : forall a id', id = a :: id' -> forall b r', r = b :: r' -> (length r' <= n)%nat) by (intros a id' -> b r' ->; cbn [length] in Hl; lia).
        split.
        -- intros o p x e H. rewrite Eq, E in H. destruct id as [|a id]; [injection H as <- <-; discriminate|]. destruct (mget (sd_of o) (a :: id)); [injection H as <- <-; discriminate|].
           destruct r as [|b r]; [injection H as <- <-; discriminate|]. specialize (Hr a id eq_refl b r eq_refl). destruct (is 32 b); [apply (proj1 (IHe _ _ Hr)) in H; exact H|].
           destruct (is 93 b); [apply (proj1 (IHc _ _ Hr)) in H; exact H|injection H as <- <-; discriminate].
        -- intros h o p Ho. rewrite Eq, E. destruct id as [|a id]; [apply hd_del_elem; exact Ho|]. destruct (mget (sd_of o) (a :: id)); [exact Ho|].
           destruct r as [|b r]; [exact Ho|]. specialize (Hr a id eq_refl b r eq_refl). destruct (is 32 b); [apply (proj2 (IHe _ _ Hr)); exact Ho|].
           destruct (is 93 b); [apply (proj2 (IHc _ _ Hr)); exact Ho|exact Ho].
      * pose proof (el_param cm id cp) as Eq. destruct (span_max is_sdc 32 rest) as [nm r] eqn:E. pose proof (span_parts _ _ _ _ _ E) as [Er _].
        assert (Hr : forall raw q b r', r = "="%byte :: q :: raw ++ """"%byte :: b :: r' -> (length r' <= n)%nat).
        { intros raw q b r' ->. rewrite Er in Hl. rewrite app_length in Hl. cbn [length] in Hl. rewrite app_length in Hl. cbn [length] in Hl. lia. }
        split.
        -- intros o p x e H. rewrite Eq, E in H. destruct nm as [|a nm]; [injection H as <- <-; discriminate|]. unfold pv in H.
           destruct r as [|c r]; [injection H as <- <-; discriminate|]. destruct (is 61 c) eqn:E1; [|injection H as <- <-; discriminate]. rewrite (is_lit 61 c "="%byte E1 eq_refl) in *.
           destruct r as [|q r]; [injection H as <- <-; discriminate|]. destruct (is 34 q); [|injection H as <- <-; discriminate].
           destruct (p_val VPlain r) as [raw ve] eqn:Ev. destruct ve as [r3|k]; [|destruct k; injection H as <- <-; discriminate].
           apply scan_pval in Ev as [-> _]. destruct r3 as [|b r4]; [injection H as <- <-; discriminate|]. specialize (Hr raw q b r4 eq_refl).
           destruct (is 32 b); [apply (proj1 (IHe _ _ Hr)) in H; exact H|].
           destruct (is 93 b); [apply (proj1 (IHc _ _ Hr)) in H; exact H|injection H as <- <-; discriminate].
        -- intros h o p Ho. rewrite Eq, E. destruct nm as [|a nm]; [apply hd_del_param; exact Ho|]. unfold pv.
           destruct r as [|c r]; [apply hd_del_param; exact Ho|]. destruct (is 61 c) eqn:E1; [|apply hd_del_param; exact Ho]. rewrite (is_lit 61 c "="%byte E1 eq_refl) in *.
           destruct r as [|q r]; [apply hd_del_param; exact Ho|]. destruct (is 34 q); [|apply hd_del_param; exact Ho].
           destruct (p_val VPlain r) as [raw ve] eqn:Ev. destruct ve as [r3|k]; [|destruct k; try exact Ho; apply hd_del_param; exact Ho].
           apply scan_pval in Ev as [-> _]. destruct r3 as [|b r4]; [apply hd_del_param; exact Ho|]. specialize (Hr raw q b r4 eq_refl).
           destruct (is 32 b); [apply (proj2 (IHe _ _ Hr)); exact Ho|].
           destruct (is 93 b); [apply (proj2 (IHc _ _ Hr)); exact Ho|apply hd_del_param; exact Ho].
    + intros id rest Hl. destruct rest as [|b r]; [split; [discriminate|auto]|]. cbn [length cl] in *. split.
      * intros o p x e H. destruct (is 32 b); [apply (someful_msg cm) in H; exact H|]. destruct (is 91 b); [apply (proj1 (IHe _ r ltac:(lia))) in H; exact H|injection H as <- <-; discriminate].
      * intros h o p Ho. destruct (is 32 b); [apply (hd_msg cm h); exact Ho|]. destruct (is 91 b); [apply (proj2 (IHe _ r ltac:(lia))); exact Ho|exact Ho].
Qed.

Lemma el_fold cm md o p r : p_elems (S (length r)) cm md o p r = el cm md o p r.
Proof. unfold el. reflexivity. Qed.
Lemma someful_sd cm : someful (p_sd cm).
Proof.
  intros o p [|b r] x e H; [injection H as <- <-; discriminate|]. unfold p_sd in H. destruct (is 45 b).
  - destruct r as [|c r]; [discriminate|]. destruct (is 32 c); [apply (someful_msg cm) in H; exact H|injection H as <- <-; discriminate].
  - destruct (is 91 b); [|injection H as <- <-; discriminate]. rewrite el_fold in H. apply (proj1 (proj1 (el_facts cm (length r)) (MElem None) r ltac:(lia)) _ _ _ _ H).
Qed.
Lemma hd_sd cm h : keeps (hd h) (p_sd cm).
Proof.
  intros o p [|b r] Ho; [exact Ho|]. unfold p_sd. destruct (is 45 b).
  - destruct r as [|c r]; [exact Ho|]. destruct (is 32 c); [apply (hd_msg cm h); exact Ho|exact Ho].
  - destruct (is 91 b); [|exact Ho]. rewrite el_fold. apply (proj2 (proj1 (el_facts cm (length r)) (MElem None) r ltac:(lia)) h). exact Ho.
Qed.
Lemma hdr_sd cm v w : keeps (hdr v w) (p_sd cm).
Proof.
  intros o p rest [H1 [H2 H3]]. pose proof (hd_sd cm (hd9 o) o p rest eq_refl) as H. unfold hd, hd9 in H.
  destruct (p_sd cm o p rest) as [o'|[o'|] e]; [| |exact I]; injection H as E1 E2 E3 _; unfold hdr; rewrite E1, E2, E3; auto.
Qed.
Lemma someful_word f k : someful k -> someful (p_word f k).
Proof.
  intros Hk o p rest x e H. unfold p_word in H. destruct (span_max is_graph (N.to_nat (fmax f)) rest) as [[|a w] [|b r]]; try (injection H as <- <-; discriminate).
  destruct (is 32 b); [exact (Hk _ _ _ _ _ H)|injection H as <- <-; discriminate].
Qed.
Lemma hdr_word f k v w : keeps (hdr v w) k -> keeps (hdr v w) (p_word f k).
Proof.
  intros Hk o p rest Ho. unfold p_word. destruct (span_max is_graph (N.to_nat (fmax f)) rest) as [[|a w0] [|b r]]; try exact Ho.
  destruct (is 32 b); [|exact Ho]. apply Hk. destruct f; exact Ho.
Qed.
Lemma someful_ts k : someful k -> someful (p_ts k).
Proof.
  intros Hk o p [|b r] x e H; [injection H as <- <-; discriminate|]. unfold p_ts in H. destruct (is 45 b).
  - destruct r as [|c r]; [injection H as <- <-; discriminate|]. destruct (is 32 c); [exact (Hk _ _ _ _ _ H)|injection H as <- <-; discriminate].
  - destruct (is_dig (bN b)); [|injection H as <- <-; discriminate]. destruct (ts_scan 554 r) as [w [r'|]]; [|injection H as <- <-; discriminate].
    destruct (parse_rfc3339 (b :: w)); [|injection H as <- <-; discriminate]. destruct r' as [|c r2]; [injection H as <- <-; discriminate|].
    destruct (is 32 c); [exact (Hk _ _ _ _ _ H)|injection H as <- <-; discriminate].
Qed.
Lemma hdr_ts k v w : keeps (hdr v w) k -> keeps (hdr v w) (p_ts k).
Proof.
  intros Hk o p [|b r] Ho; [exact Ho|]. unfold p_ts. destruct (is 45 b).
  - destruct r as [|c r]; [exact Ho|]. destruct (is 32 c); [apply Hk; exact Ho|exact Ho].
  - destruct (is_dig (bN b)); [|exact Ho]. destruct (ts_scan 554 r) as [w0 [r'|]]; [|exact Ho].
    destruct (parse_rfc3339 (b :: w0)); [|exact Ho]. destruct r' as [|c r2]; [exact Ho|]. destruct (is 32 c); [apply Hk; exact Ho|exact Ho].
Qed.
(* after VERSION *)
Definition rest_of (cm : bool) : stage := p_ts (p_word FHost (p_word FApp (p_word FProc (p_word FMsgid (p_sd cm))))).
Lemma someful_rest cm : someful (rest_of cm).
Proof. apply someful_ts, someful_word, someful_word, someful_word, someful_word, someful_sd. Qed.
Lemma hdr_rest cm v w : keeps (hdr v w) (rest_of cm).
Proof. apply hdr_ts, hdr_word, hdr_word, hdr_word, hdr_word, hdr_sd. Qed.

Definition res_valid (v : Z) (r : pres) : Prop :=
  match r with PGood o | PBad (Some o) _ => exists ver, hdr v ver o /\ 1 <= ver <= 999 | PBad None _ => False end.
Lemma version_some k o p rest v : o_prioritySet o = true -> o_priority o = v -> someful k -> (forall w, keeps (hdr v w) k) ->
  match rest with
  | d :: _ => if btw 49 57 (bN d) then res_valid v (p_version k o p rest) else exists e, p_version k o p rest = PBad None e
  | [] => exists e, p_version k o p rest = PBad None e
  end.
Proof.
  intros Hp Hv Hs Hk. destruct rest as [|d1 r1]; [eexists; reflexivity|]. unfold p_version. destruct (btw 49 57 (bN d1)) eqn:E1; [|eexists; reflexivity].
  assert (Hc : forall w o' p' r', 1 <= w <= 999 -> hdr v w o' -> res_valid v (k o' p' r')).
  { intros w o' p' r' Hw Ho. specialize (Hk w o' p' r' Ho). specialize (Hs o' p' r'). destruct (k o' p' r') as [o2|[o2|] e]; cbn; [eauto|eauto|exact (Hs None e eq_refl eq_refl)]. }
  assert (Hs0 : forall w e, 1 <= w <= 999 -> res_valid v (PBad (Some (set_ver w o)) e)) by (intros w e Hw; cbn; exists w; repeat split; auto; lia).
  rewrite btw_prop in E1. assert (1 <= dv d1 <= 9) by (unfold dv; lia).
  destruct r1 as [|d2 r2]; [apply Hs0; lia|]. destruct (is 32 d2); [apply (Hc (dv d1)); [lia|repeat split; auto]|].
  destruct (is_dig (bN d2)) eqn:E2; [|apply Hs0; lia]. pose proof (dv_range d2 E2).
  destruct r2 as [|d3 r3]; [apply Hs0; lia|]. destruct (is 32 d3); [apply (Hc (10 * dv d1 + dv d2)); [lia|repeat split; auto]|].
  destruct (is_dig (bN d3)) eqn:E3; [|apply Hs0; lia]. pose proof (dv_range d3 E3).
  destruct r3 as [|d4 r4]; [apply Hs0; lia|]. destruct (is 32 d4); [apply (Hc (100 * dv d1 + 10 * dv d2 + dv d3)); [lia|repeat split; auto]|apply Hs0; lia].
Qed.

(* the PRI part, followed by a version digit, decides whether there is a message *)
Definition minimally_valid (data : bytes) (p : Z) : Prop :=
  exists pri d r, data = lit "<" ++ pri ++ lit ">" ++ d :: r /\ pri_text pri p /\ digit d /\ d <> "0"%byte.

Lemma p_pri_cont k k' data pri v r : data = "<"%byte :: pri ++ ">"%byte :: r -> pri_text pri v -> p_pri k data = k (pri_msg v) (len pri + 2) r /\ p_pri k' data = k' (pri_msg v) (len pri + 2) r.
Proof.
  intros -> Hp. assert (H : forall k, p_pri k ("<"%byte :: pri ++ ">"%byte :: r) = k (pri_msg v) (len pri + 2) r); [|auto].
  clear k k'. intros k. destruct (k (pri_msg v) (len pri + 2) r) as [o|x e] eqn:E.
  - apply p_pri_good. eauto 7.
  - pose proof (proj2 (p_pri_good (fun o p r' => PGood o) ("<"%byte :: pri ++ ">"%byte :: r) (pri_msg v))) as H.
    assert (H' : p_pri (fun o p r' => PGood o) ("<"%byte :: pri ++ ">"%byte :: r) = PGood (pri_msg v)) by (apply H; exists pri, v, r; auto). clear H.
    pose proof (proj2 (p_pri_good (fun o p r' => if (p =? len pri + 2) && bseqb r r' then PGood o else PBad None (PErr EPri 0)) ("<"%byte :: pri ++ ">"%byte :: r) (pri_msg v))) as H2.
    assert (H2' : p_pri (fun o p r' => if (p =? len pri + 2) && bseqb r r' then PGood o else PBad None (PErr EPri 0)) ("<"%byte :: pri ++ ">"%byte :: r) = PGood (pri_msg v)).
    { apply H2. exists pri, v, r. split; [reflexivity|]. split; [exact Hp|]. rewrite Z.eqb_refl, bseqb_refl. reflexivity. } clear H2.
    unfold p_pri in *. change (is 60 "<") with true in *. cbv iota in *. destruct (prival (pri ++ ">"%byte :: r)) as [[[v' n] r']|]; [|discriminate].
    destruct r' as [|c r2]; [discriminate|]. destruct (is 62 c); [|discriminate]. injection H' as H'. destruct ((n + 2 =? len pri + 2) && bseqb r r2) eqn:Eb; [|discriminate].
    apply andb_true_iff in Eb as [Eb1 Eb2]. apply Z.eqb_eq in Eb1. apply bseqb_eq in Eb2. subst r2. rewrite Eb1, H'. exact E.
Qed.
Lemma p_pri_inv k data r : p_pri k data = r -> (exists e, r = PBad None e /\ forall k', p_pri k' data = r) \/ exists pri v r', data = "<"%byte :: pri ++ ">"%byte :: r' /\ pri_text pri v /\ k (pri_msg v) (len pri + 2) r' = r.
Proof.
  intros H. destruct (p_pri (fun o p _ => PGood o) data) as [o|x e] eqn:E.
  - right. apply p_pri_good in E as [pri [v [r' [Hd [Hp _]]]]]. exists pri, v, r'. split; [exact Hd|]. split; [exact Hp|].
    rewrite <- H. symmetry. apply (p_pri_cont k k data pri v r' Hd Hp).
  - left. unfold p_pri in *. destruct data as [|b d]; [exists (PErr EPri 0); auto|]. destruct (is 60 b); [|exists (PErr EPri 0); auto].
    destruct (prival d) as [[[v n] r']|]; [|exists (PErr EPrival 1); auto]. destruct r' as [|c r2]; [exists (PErr EPrival (n + 1)); auto|]. destruct (is 62 c); [discriminate|exists (PErr EPrival (n + 1)); auto].
Qed.
Lemma pri_unique pri v r pri' v' r' : pri_text pri v -> pri_text pri' v' -> "<"%byte :: pri ++ ">"%byte :: r = "<"%byte :: pri' ++ ">"%byte :: r' -> v = v' /\ r = r'.
Proof.
  intros H H' E. destruct (p_pri_cont (fun o p r0 => PBad (Some (set_o_message r0 o)) (PErr EPri 0)) (fun o p r0 => PGood o) _ pri v r eq_refl H) as [E1 _].
  destruct (p_pri_cont (fun o p r0 => PBad (Some (set_o_message r0 o)) (PErr EPri 0)) (fun o p r0 => PGood o) _ pri' v' r' eq_refl H') as [E2 _].
  rewrite E, E2 in E1. injection E1 as -> ->. auto.
Qed.

Theorem spec_minimal cm data :
  match spec5424 cm data with
  | PGood o | PBad (Some o) _ => exists p ver, minimally_valid data p /\ hdr p ver o /\ 1 <= ver <= 999
  | PBad None _ => forall p, ~ minimally_valid data p
  end.
Proof.
  unfold spec5424. destruct (p_pri_inv (p_header cm) data _ eq_refl) as [[e [H Hk]]|[pri [v [r [Hd [Hp H]]]]]].
  - rewrite H. intros p [pri [d [r [Hd [Hp _]]]]]. destruct (p_pri_cont (fun o p r0 => PGood o) (p_header cm) data pri p (d :: r) Hd Hp) as [E _]. rewrite Hk, H in E. discriminate.
  - rewrite <- H. pose proof (version_some (rest_of cm) (pri_msg v) (len pri + 2) r v eq_refl eq_refl (someful_rest cm) (hdr_rest cm v)) as Hv.
    change (p_version (rest_of cm)) with (p_header cm) in Hv.
    assert (Hno : (forall d r1, r = d :: r1 -> btw 49 57 (bN d) = false) -> forall p, ~ minimally_valid data p).
    { intros Hn p [pri' [d' [r' [Hd' [Hp' [Hd1 Hd2]]]]]]. rewrite Hd in Hd'. change (lit "<") with ["<"%byte] in Hd'. change (lit ">") with [">"%byte] in Hd'. cbn [app] in Hd'.
      destruct (pri_unique _ _ _ _ _ _ Hp Hp' Hd') as [_ ->]. specialize (Hn d' r' eq_refl). assert (Hb : btw 49 57 (bN d') = true); [|congruence].
      apply btw_prop. unfold digit in Hd1. assert (bN d' <> 48%N) by (intros E; apply Hd2, bN_inj; exact E). lia. }
    destruct r as [|d r1]; [destruct Hv as [e He]; rewrite He; apply Hno; discriminate|]. destruct (btw 49 57 (bN d)) eqn:Eb.
    + unfold res_valid in Hv.
      assert (Hm : minimally_valid data v).
      { exists pri, d, r1. split; [exact Hd|]. split; [exact Hp|]. rewrite btw_prop in Eb. split; [unfold digit; lia|]. intros ->. change (bN "0") with 48%N in Eb. lia. }
      destruct (p_header cm (pri_msg v) (len pri + 2) (d :: r1)) as [o|[o|] e]; [destruct Hv as [ver Hv]; exists v, ver; auto|destruct Hv as [ver Hv]; exists v, ver; auto|contradiction].
    + destruct Hv as [e He]. rewrite He. apply Hno. intros d' r' E. injection E as <- _. exact Eb.
Qed.
Lemma minimally_valid_range data p : minimally_valid data p -> 0 <= p <= 191.
Proof. intros [pri [d [r [_ [[_ [_ [H _]]] _]]]]]. exact H. Qed.
Lemma minimally_valid_unique data p q : minimally_valid data p -> minimally_valid data q -> p = q.
Proof.
  intros [pri [d [r [H1 [H2 _]]]]] [pri' [d' [r' [H1' [H2' _]]]]]. rewrite H1 in H1'. apply (pri_unique _ _ _ _ _ _ H2 H2') in H1'. tauto.
Qed.
Lemma valid_hdr p ver o : hdr p ver o -> 0 <= p <= 191 -> 1 <= ver <= 999 -> valid (export o) = true.
Proof.
  intros [_ [H1 H2]] Hp Hv. unfold valid, export, valid_priority, valid_version. cbn [priority version]. rewrite H1, H2.
  unfold in_between. rewrite !andb_true_iff, !Z.leb_le. lia.
Qed.
