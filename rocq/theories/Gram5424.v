(* The specification function accepts exactly the declarative grammar, with the same fields. *)
From Verif Require Import Bytes GoMap GoTime CommonFacts M5424Def A5424 M5424 Spec5424 Ref5424a Ref5424b Ref5424c Grammar5424 Utf8 Ts5424.
Local Open Scope Z_scope.

Lemma is_lit n b c : is n b = true -> bN c = n -> b = c.
Proof. unfold is. rewrite N.eqb_eq. intros H1 H2. apply bN_inj. congruence. Qed.
Lemma span_exact P max w b r : Forall (fun b => P (bN b) = true) w -> (length w <= max)%nat -> P (bN b) = false ->
  span_max P max (w ++ b :: r) = (w, b :: r).
Proof.
  intros H. revert max. induction H as [|c w Hc H IH]; intros max Hl Hb.
  - destruct max; cbn [app span_max]; [reflexivity|]. rewrite Hb. reflexivity.
  - destruct max as [|max]; [cbn in Hl; lia|]. cbn [app span_max length] in *. rewrite Hc, IH by (try assumption; lia). reflexivity.
Qed.
Lemma printable_graph b : is_graph (bN b) = true <-> printable b.
Proof. unfold is_graph, btw, printable. rewrite andb_true_iff, !N.leb_le. tauto. Qed.
Lemma sdc_char b : is_sdc (bN b) = true <-> sdname_char b.
Proof.
  unfold is_sdc, sdname_char. rewrite !andb_true_iff, printable_graph, !negb_true_iff, !N.eqb_neq. split.
  - intros [[[H1 H2] H3] H4]. split; [exact H1|]. split; [|split]; intros ->; [apply H2|apply H3|apply H4]; reflexivity.
  - intros [H1 [H2 [H3 H4]]]. split; [split; [split; [exact H1|]|]|]; intros E; [apply H2|apply H3|apply H4]; apply bN_inj; exact E.
Qed.

(* ---- words ---- *)
Lemma p_word_good f k o p rest o' : p_word f k o p rest = PGood o' <->
  exists w r, rest = w ++ " "%byte :: r /\ word (N.to_nat (fmax f)) w /\ k (set_word f w o) (p + len w + 1) r = PGood o'.
Proof.
  unfold p_word. split.
  - destruct (span_max is_graph (N.to_nat (fmax f)) rest) as [w r] eqn:E. apply span_parts in E as [-> [H1 [H2 _]]].
    destruct w as [|a w]; [discriminate|]. destruct r as [|b r]; [discriminate|]. destruct (is 32 b) eqn:Eb; [|discriminate].
    rewrite (is_lit 32 b " "%byte Eb eq_refl). intros H. exists (a :: w), r. split; [reflexivity|]. split; [|exact H].
    split; [cbn [length] in *; lia|]. eapply Forall_impl; [|exact H1]. intros c. apply printable_graph.
  - intros [w [r [-> [[Hl Hw] H]]]]. rewrite span_exact; [|eapply Forall_impl; [|exact Hw]; intros c; apply printable_graph|lia|reflexivity].
    destruct w as [|a w]; [cbn in Hl; lia|]. exact H.
Qed.

(* ---- numbers ---- *)
Lemma digit_dig b : digit b <-> is_dig (bN b) = true.
Proof. split; [|apply dig_digit]. unfold digit, is_dig, btw. rewrite andb_true_iff, !N.leb_le. tauto. Qed.
Lemma ldec_nonneg l : Forall digit l -> 0 <= ldec l.
Proof. induction 1 as [|b l Hb H IH]; cbn [ldec]; [lia|]. unfold digit, dig in *. lia. Qed.
Lemma dec_acc_ge l acc : Forall digit l -> acc * 10 ^ Z.of_nat (length l) <= dec_acc acc l.
Proof. intros H. rewrite dec_acc_spec. apply Forall_rev in H. apply ldec_nonneg in H. lia. Qed.
Lemma plain_cases ds v hi : hi <= 999 -> (Forall digit ds /\ dec ds = v /\ 0 <= v <= hi /\ (ds = lit "0" \/ exists d r, ds = d :: r /\ d <> "0"%byte)) <->
  v <= hi /\ ((exists a, ds = [a] /\ digit a /\ v = dv a) \/
  (exists a b, ds = [a; b] /\ btw 49 57 (bN a) = true /\ digit b /\ v = 10 * dv a + dv b) \/
  (exists a b c, ds = [a; b; c] /\ btw 49 57 (bN a) = true /\ digit b /\ digit c /\ v = 100 * dv a + 10 * dv b + dv c)).
Proof.
  intros Hhi. split.
  - intros [H1 [H2 [H3 H4]]]. split; [lia|]. destruct ds as [|a r]; [destruct H4 as [H4|[d [r [H4 _]]]]; discriminate|].
    pose proof (Forall_inv H1) as Ha. pose proof (Forall_inv_tail H1) as Hr.
    destruct r as [|b r]. { left. exists a. split; [reflexivity|]. split; [exact Ha|]. rewrite <- H2. unfold dec. cbn [dec_acc]. unfold dig, dv. lia. }
    assert (Hna : btw 49 57 (bN a) = true).
    { destruct H4 as [H4|[d [r' [H4 Hd]]]]; [discriminate|]. injection H4 as <- <-. unfold digit in Ha. unfold btw. rewrite andb_true_iff, !N.leb_le.
      assert (bN a <> 48%N) by (intros E; apply Hd; apply bN_inj; exact E). lia. }
    pose proof (Forall_inv Hr) as Hb. pose proof (Forall_inv_tail Hr) as Hr2. right.
    destruct r as [|c r]. { left. exists a, b. repeat (split; [assumption || reflexivity|]). rewrite <- H2. unfold dec. cbn [dec_acc]. unfold dig, dv. lia. }
    pose proof (Forall_inv Hr2) as Hc. pose proof (Forall_inv_tail Hr2) as Hr3. right.
    destruct r as [|d r]. { exists a, b, c. repeat (split; [assumption || reflexivity|]). rewrite <- H2. unfold dec. cbn [dec_acc]. unfold dig, dv. lia. }
    exfalso. unfold dec in H2. cbn [dec_acc] in H2. pose proof (Forall_inv Hr3) as Hd. pose proof (dec_acc_ge r (10 * (10 * (10 * (10 * 0 + dig a) + dig b) + dig c) + dig d) (Forall_inv_tail Hr3)) as Hge.
    assert (1 <= 10 ^ Z.of_nat (length r)) by (change 1 with (10 ^ 0); apply Z.pow_le_mono_r; lia).
    unfold digit in *. unfold btw in Hna. rewrite andb_true_iff, !N.leb_le in Hna. rewrite H2 in Hge.
    assert (1000 <= 10 * (10 * (10 * (10 * 0 + dig a) + dig b) + dig c) + dig d) by (unfold dig; lia). nia.
  - intros [Hv H]. assert (Hdv : forall x, digit x -> 0 <= dv x) by (unfold digit, dv; intros; lia).
    assert (Hnz : forall a : byte, btw 49 57 (bN a) = true -> digit a /\ a <> "0"%byte).
    { intros a. unfold btw. rewrite andb_true_iff, !N.leb_le. unfold digit. intros Ha. split; [lia|]. intros ->. change (bN "0") with 48%N in Ha. lia. }
    destruct H as [[a [-> [Ha ->]]]|[[a [b [-> [Ha [Hb ->]]]]]|[a [b [c [-> [Ha [Hb [Hc ->]]]]]]]]].
    + pose proof (Hdv a Ha). split; [apply Forall_cons; [exact Ha|apply Forall_nil]|]. split; [unfold dec; cbn [dec_acc]; unfold dig, dv; lia|]. split; [lia|].
      destruct (N.eq_dec (bN a) 48) as [E|E]; [left; rewrite (bN_inj a "0"%byte E); reflexivity|right]. exists a, []. split; [reflexivity|]. intros ->. apply E. reflexivity.
    + destruct (Hnz a Ha) as [Ha' Hz]. pose proof (Hdv a Ha'). pose proof (Hdv b Hb). split; [repeat apply Forall_cons; auto|]. split; [unfold dec; cbn [dec_acc]; unfold dig, dv; lia|]. split; [lia|]. right. eauto.
    + destruct (Hnz a Ha) as [Ha' Hz]. pose proof (Hdv a Ha'). pose proof (Hdv b Hb). pose proof (Hdv c Hc). split; [repeat apply Forall_cons; auto|]. split; [unfold dec; cbn [dec_acc]; unfold dig, dv; lia|]. split; [lia|]. right. eauto.
Qed.
Lemma btw_prop lo hi c : btw lo hi c = true <-> (lo <= c <= hi)%N.
Proof. unfold btw. rewrite andb_true_iff, !N.leb_le. tauto. Qed.

Lemma version_cases s v : version_text s v <->
  (exists a, s = [a] /\ btw 49 57 (bN a) = true /\ v = dv a) \/
  (exists a b, s = [a; b] /\ btw 49 57 (bN a) = true /\ digit b /\ v = 10 * dv a + dv b) \/
  (exists a b c, s = [a; b; c] /\ btw 49 57 (bN a) = true /\ digit b /\ digit c /\ v = 100 * dv a + 10 * dv b + dv c).
Proof.
  unfold version_text, plain_number. split.
  - intros [H1 [H2 [H3 H4]]]. destruct (proj1 (plain_cases s v 999 ltac:(lia))) as [_ H]; [repeat split; auto; lia|].
    destruct H as [[a [-> [Ha ->]]]|H]; [left|right; exact H]. exists a. split; [reflexivity|]. split; [|reflexivity].
    apply btw_prop. unfold digit, dv in *. lia.
  - intros H. assert (Hv : 1 <= v <= 999).
    { destruct H as [[a [-> [Ha ->]]]|[[a [b [-> [Ha [Hb ->]]]]]|[a [b [c [-> [Ha [Hb [Hc ->]]]]]]]]]; rewrite btw_prop in Ha; unfold digit, dv in *; lia. }
    destruct (proj2 (plain_cases s v 999 ltac:(lia))) as [H1 [H2 [H3 H4]]]; [|repeat split; auto; lia].
    split; [lia|]. destruct H as [[a [-> [Ha ->]]]|H]; [left|right; exact H]. exists a. repeat split; auto; rewrite btw_prop in Ha; unfold digit; lia.
Qed.

Lemma p_version_good k o p rest o' : p_version k o p rest = PGood o' <->
  exists s v r, rest = s ++ " "%byte :: r /\ version_text s v /\ k (set_ver v o) (p + len s + 1) r = PGood o'.
Proof.
  split.
  - unfold p_version. destruct rest as [|d1 r1]; [discriminate|]. destruct (btw 49 57 (bN d1)) eqn:E1; [|discriminate].
    destruct r1 as [|d2 r2]; [discriminate|]. destruct (is 32 d2) eqn:E2.
    { rewrite (is_lit 32 d2 " "%byte E2 eq_refl). intros H. exists [d1], (dv d1), r2. split; [reflexivity|]. split; [apply version_cases; left; eauto|].
      change (len [d1]) with 1. replace (p + 1 + 1) with (p + 2) by lia. exact H. }
    destruct (is_dig (bN d2)) eqn:E3; [|discriminate]. apply dig_digit in E3. destruct r2 as [|d3 r3]; [discriminate|]. destruct (is 32 d3) eqn:E4.
    { rewrite (is_lit 32 d3 " "%byte E4 eq_refl). intros H. exists [d1; d2], (10 * dv d1 + dv d2), r3. split; [reflexivity|].
      split; [apply version_cases; right; left; exists d1, d2; auto|]. change (len [d1; d2]) with 2. replace (p + 2 + 1) with (p + 3) by lia. exact H. }
    destruct (is_dig (bN d3)) eqn:E5; [|discriminate]. apply dig_digit in E5. destruct r3 as [|d4 r4]; [discriminate|]. destruct (is 32 d4) eqn:E6; [|discriminate].
    rewrite (is_lit 32 d4 " "%byte E6 eq_refl). intros H. exists [d1; d2; d3], (100 * dv d1 + 10 * dv d2 + dv d3), r4. split; [reflexivity|].
    split; [apply version_cases; right; right; exists d1, d2, d3; auto|]. change (len [d1; d2; d3]) with 3. replace (p + 3 + 1) with (p + 4) by lia. exact H.
  - intros [s [v [r [-> [Hv H]]]]]. apply version_cases in Hv.
    assert (Hd : forall b, digit b -> is 32 b = false /\ is_dig (bN b) = true).
    { intros b Hb. split; [|apply digit_dig; exact Hb]. unfold is. apply N.eqb_neq. unfold digit in Hb. lia. }
    destruct Hv as [[a [-> [Ha ->]]]|[[a [b [-> [Ha [Hb ->]]]]]|[a [b [c [-> [Ha [Hb [Hc ->]]]]]]]]]; unfold p_version; cbn [app]; rewrite Ha.
    + change (is 32 " ") with true. cbv iota. change (len [a]) with 1 in H. replace (p + 1 + 1) with (p + 2) in H by lia. exact H.
    + destruct (Hd b Hb) as [-> ->]. change (is 32 " ") with true. cbv iota. change (len [a; b]) with 2 in H. replace (p + 2 + 1) with (p + 3) in H by lia. exact H.
    + destruct (Hd b Hb) as [-> ->]. destruct (Hd c Hc) as [-> ->]. change (is 32 " ") with true. cbv iota. change (len [a; b; c]) with 3 in H. replace (p + 3 + 1) with (p + 4) in H by lia. exact H.
Qed.

Lemma p_pri_good k data o' : p_pri k data = PGood o' <->
  exists s v r, data = "<"%byte :: s ++ ">"%byte :: r /\ pri_text s v /\ k (pri_msg v) (len s + 2) r = PGood o'.
Proof.
  split.
  - unfold p_pri. destruct data as [|b r]; [discriminate|]. destruct (is 60 b) eqn:Eb; [|discriminate]. rewrite (is_lit 60 b "<"%byte Eb eq_refl).
    destruct (prival r) as [[[v n] r']|] eqn:Ep; [|discriminate]. destruct r' as [|c r2]; [discriminate|]. destruct (is 62 c) eqn:Ec; [|discriminate].
    rewrite (is_lit 62 c ">"%byte Ec eq_refl) in *. clear c Ec b Eb. intros H.
    assert (exists s, r = s ++ ">"%byte :: r2 /\ pri_text s v /\ n = len s) as [s [-> [Hs ->]]]; [|eauto 7].
    assert (Hp : forall s, v <= 191 -> (exists a, s = [a] /\ digit a /\ v = dv a) \/
      (exists a b, s = [a; b] /\ btw 49 57 (bN a) = true /\ digit b /\ v = 10 * dv a + dv b) \/
      (exists a b c, s = [a; b; c] /\ btw 49 57 (bN a) = true /\ digit b /\ digit c /\ v = 100 * dv a + 10 * dv b + dv c) -> pri_text s v).
    { intros s Hv Hs. apply (plain_cases s v 191); auto; lia. }
    unfold prival in Ep. destruct r as [|d1 r1]; [discriminate|]. destruct (is 48 d1) eqn:E1.
    { injection Ep as <- <- ->. exists [d1]. rewrite (is_lit 48 d1 "0"%byte E1 eq_refl). split; [reflexivity|]. split; [|reflexivity]. apply Hp; [lia|]. left. exists "0"%byte. split; [reflexivity|]. split; [unfold digit; change (bN "0") with 48%N; lia|reflexivity]. }
    destruct (btw 49 57 (bN d1)) eqn:E2; [|discriminate]. assert (D1 : digit d1) by (rewrite btw_prop in E2; unfold digit; lia).
    destruct r1 as [|d2 r2']; [discriminate|]. destruct (is_dig (bN d2)) eqn:E3.
    2: { injection Ep as <- <- <- ->. exists [d1]. split; [reflexivity|]. split; [|reflexivity]. apply Hp; [unfold digit, dv in *; lia|]. left. eauto. }
    apply dig_digit in E3. destruct r2' as [|d3 r3]; [discriminate|]. destruct (is_dig (bN d3) && (100 * dv d1 + 10 * dv d2 + dv d3 <=? 191)) eqn:E4.
    + rewrite andb_true_iff, Z.leb_le in E4. destruct E4 as [E4 E5]. apply dig_digit in E4. injection Ep as <- <- ->.
      exists [d1; d2; d3]. split; [reflexivity|]. split; [|reflexivity]. apply Hp; [exact E5|]. right. right. exists d1, d2, d3. auto.
    + injection Ep as <- <- <- ->. exists [d1; d2]. split; [reflexivity|]. split; [|reflexivity]. apply Hp; [change (10 * dv d1 + dv d2 <= 191); unfold digit, dv in *; lia|]. right. left. exists d1, d2. auto.
  - intros [s [v [r [-> [Hs H]]]]]. unfold pri_text, plain_number in Hs. pose proof (proj1 (plain_cases s v 191 ltac:(lia)) Hs) as [Hv Hc].
    unfold p_pri. change (is 60 "<") with true. cbv iota.
    assert (Ep : prival (s ++ ">"%byte :: r) = Some (v, len s, ">"%byte :: r)); [|rewrite Ep; exact H].
    assert (Hnd : is_dig (bN ">") = false) by reflexivity.
    assert (Hn48 : forall a, btw 49 57 (bN a) = true -> is 48 a = false) by (intros a Ha; rewrite btw_prop in Ha; unfold is; apply N.eqb_neq; lia).
    destruct Hc as [[a [-> [Ha ->]]]|[[a [b [-> [Ha [Hb ->]]]]]|[a [b [c [-> [Ha [Hb [Hc ->]]]]]]]]]; unfold prival; cbn [app].
    + destruct (is 48 a) eqn:Ea; [rewrite (is_lit 48 a "0"%byte Ea eq_refl); reflexivity|]. replace (btw 49 57 (bN a)) with true; [rewrite Hnd; reflexivity|].
      symmetry. apply btw_prop. unfold is in Ea. apply N.eqb_neq in Ea. unfold digit in Ha. lia.
    + rewrite (Hn48 a Ha), Ha. rewrite (proj1 (digit_dig b) Hb), Hnd. reflexivity.
    + rewrite (Hn48 a Ha), Ha. rewrite (proj1 (digit_dig b) Hb), (proj1 (digit_dig c) Hc). apply Z.leb_le in Hv. rewrite Hv. reflexivity.
Qed.

(* ---- timestamp ---- *)
Definition put_ts (t : option time) (o : msg5424) : msg5424 := match t with Some t => set_ts t o | None => o end.
Lemma ts_text_head s t : ts_text s t -> exists a w, s = a :: w /\ is_dig (bN a) = true.
Proof.
  intros H. apply text_shape in H as [H _]. destruct (shape_run s t H) as [a [w [-> [Ha _]]]]. exists a, w. split; [reflexivity|]. apply digit_dig. exact Ha.
Qed.
Lemma p_ts_good k o p rest o' : p_ts k o p rest = PGood o' <->
  exists s t r, rest = s ++ " "%byte :: r /\ ts_field s t /\ k (put_ts t o) (p + len s + 1) r = PGood o'.
Proof.
  split.
  - unfold p_ts. destruct rest as [|b r]; [discriminate|]. destruct (is 45 b) eqn:Eb.
    { rewrite (is_lit 45 b "-"%byte Eb eq_refl). destruct r as [|c r]; [discriminate|]. destruct (is 32 c) eqn:Ec; [|discriminate].
      rewrite (is_lit 32 c " "%byte Ec eq_refl). intros H. exists (lit "-"), None, r. split; [reflexivity|]. split; [left; auto|].
      change (len (lit "-")) with 1. replace (p + 1 + 1) with (p + 2) by lia. exact H. }
    destruct (is_dig (bN b)) eqn:Ed; [|discriminate]. destruct (ts_scan 554 r) as [w e] eqn:Es. destruct e as [r'|]; [|discriminate].
    destruct (parse_rfc3339 (b :: w)) as [t|] eqn:Et; [|discriminate]. destruct r' as [|c r2]; [discriminate|]. destruct (is 32 c) eqn:Ec; [|discriminate].
    rewrite (is_lit 32 c " "%byte Ec eq_refl) in *. intros H.
    destruct (proj1 (ts_accept b r (" "%byte :: r2) t)) as [s [E Hs]]; [eauto|].
    pose proof Es as Es'. apply ts_scan_run in Es' as [Er _].
    assert (s = b :: w). { rewrite Er in E. apply app_inv_tail with (l := " "%byte :: r2). exact (eq_sym E). } subst s.
    exists (b :: w), (Some t), r2. split; [exact E|]. split; [right; eauto|]. exact H.
  - intros [s [t [r [-> [Hs H]]]]]. destruct Hs as [[-> ->]|[t' [-> Hs]]].
    + unfold p_ts. change (lit "-") with ["-"%byte] in *. cbn [app]. change (is 45 "-") with true. change (is 32 " ") with true. cbv iota.
      change (len ["-"%byte]) with 1 in H. replace (p + 1 + 1) with (p + 2) in H by lia. exact H.
    + destruct (ts_text_head s t' Hs) as [a [w [-> Ha]]].
      destruct (proj2 (ts_accept a (w ++ " "%byte :: r) (" "%byte :: r) t')) as [w' [_ [Es Et]]]; [exists (a :: w); auto|].
      pose proof Es as Es'. apply ts_scan_run in Es' as [Er _]. apply app_inv_tail in Er. subst w'.
      unfold p_ts. cbn [app]. replace (is 45 a) with false by (symmetry; unfold is; apply N.eqb_neq; apply btw_prop in Ha; lia).
      rewrite Ha, Es, Et. exact H.
Qed.

(* ---- message ---- *)
Lemma strip_bom_iff l r : strip_bom l = Some r <-> l = BOM ++ r.
Proof.
  change BOM with bom. split.
  - unfold strip_bom. destruct l as [|a [|b [|c l]]]; try discriminate. destruct (is 239 a && is 187 b && is 191 c) eqn:E; [|discriminate].
    rewrite !andb_true_iff in E. destruct E as [[E1 E2] E3]. intros H. injection H as ->.
    unfold bom. cbn [app]. repeat f_equal; apply bN_inj; unfold is in *; rewrite N.eqb_eq in *; assumption.
  - intros ->. reflexivity.
Qed.
Definition put_msg (m : bytes) (o : msg5424) : msg5424 := match m with [] => o | _ => set_o_message m o end.
Lemma p_msg_good cm o p m o' : p_msg cm o p m = PGood o' <-> (cm = true -> compliant_msg m) /\ o' = put_msg m o.
Proof.
  destruct m as [|a m].
  { cbn. split; [intros H; injection H as <-; split; [intros _ r; discriminate|reflexivity]|intros [_ ->]; reflexivity]. }
  unfold p_msg, put_msg. destruct cm.
  2: { split; [intros H; injection H as <-; split; [discriminate|reflexivity]|intros [_ ->]; reflexivity]. }
  destruct (strip_bom (a :: m)) as [r|] eqn:E.
  - apply strip_bom_iff in E. destruct (utf_scan None r) as [n|] eqn:Eu.
    + split; [discriminate|]. intros [H _]. apply (fun H => H eq_refl r E) in H. apply utf_scan_utf8 in H. congruence.
    + split; [|intros [_ ->]; reflexivity]. intros H. injection H as <-. split; [|reflexivity]. intros _ r' E'. rewrite E in E'. apply app_inv_head in E' as <-. apply utf_scan_utf8. exact Eu.
  - split; [|intros [_ ->]; reflexivity]. intros H. injection H as <-. split; [|reflexivity]. intros _ r E'. apply strip_bom_iff in E'. congruence.
Qed.

(* ---- structured data ---- *)
Definition with_sd (m : sdmap) (o : msg5424) : msg5424 := set_o_hasElements true (set_o_sd (Some m) o).
Definition pbody (p : param) : bytes := p_name p ++ "="%byte :: """"%byte :: p_raw p ++ [""""%byte].
Lemma param_text_body p : param_text p = " "%byte :: pbody p. Proof. reflexivity. Qed.
Definition ps_text (ps : list param) : bytes := concat (map param_text ps).
Definition tail_ok (cm : bool) (tail : bytes) (o o' : msg5424) : Prop :=
  (tail = [] /\ o' = o) \/ exists m, tail = " "%byte :: m /\ (cm = true -> compliant_msg m) /\ o' = put_msg m o.
Definition Close (cm : bool) (o : msg5424) (r : bytes) (o' : msg5424) : Prop :=
  exists es tail, r = concat (map elem_text es) ++ tail /\ Forall elem_ok es /\ NoDup (map e_id es)
    /\ Forall (fun e => mget (sd_of o) (e_id e) = None) es /\ tail_ok cm tail (with_sd (elems_map (sd_of o) es) o) o'.
Definition Acc (cm : bool) (md : sdmode) (o : msg5424) (rest : bytes) (o' : msg5424) : Prop :=
  match md with
  | MElem _ => exists id ps r, rest = id ++ ps_text ps ++ "]"%byte :: r /\ sdname id /\ Forall param_ok ps /\ mget (sd_of o) id = None
      /\ Close cm (with_sd (mset (sd_of o) id (params_map [] ps)) o) r o'
  | MParam id _ => exists p ps r, rest = pbody p ++ ps_text ps ++ "]"%byte :: r /\ param_ok p /\ Forall param_ok ps
      /\ Close cm (with_sd (mset (sd_of o) id (params_map (elem_of o id) (p :: ps))) o) r o'
  end.

Lemma sd_with m o : sd_of (with_sd m o) = m. Proof. reflexivity. Qed.
Lemma with_with m m' o : with_sd m (with_sd m' o) = with_sd m o. Proof. reflexivity. Qed.
Lemma with_same o : o_hasElements o = true -> o_sd o <> None -> with_sd (sd_of o) o = o.
Proof. unfold with_sd, sd_of. destruct o; cbn. destruct o_sd as [s|]; [|congruence]. intros ->. reflexivity. Qed.

(* after ']': end of input, a space and the message, or another element *)
Lemma close_iff cm o r o' : o_hasElements o = true -> o_sd o <> None -> forall id,
  Close cm o r o' <-> (r = [] /\ o' = o) \/ (exists m, r = " "%byte :: m /\ (cm = true -> compliant_msg m) /\ o' = put_msg m o)
    \/ (exists r', r = "["%byte :: r' /\ Acc cm (MElem id) o r' o').
Proof.
  intros Ho Hs id0. split.
  - intros [es [tail [-> [Hok [Hnd [Hfr Ht]]]]]]. destruct es as [|e es].
    + cbn [map concat app elems_map fold_left] in *. rewrite with_same in Ht by assumption. destruct Ht as [Ht|Ht]; auto.
    + right. right. exists (e_id e ++ ps_text (e_params e) ++ "]"%byte :: concat (map elem_text es) ++ tail). split.
      { cbn [map concat]. unfold elem_text at 1. change (lit "[") with ["["%byte]. change (lit "]") with ["]"%byte]. unfold ps_text. rewrite <- !app_assoc. reflexivity. }
      exists (e_id e), (e_params e), (concat (map elem_text es) ++ tail). split; [reflexivity|]. inversion Hok as [|? ? [H1 H2] H3]; subst. inversion Hfr as [|? ? H4 H5]; subst.
      inversion Hnd as [|? ? H6 H7]; subst. split; [exact H1|]. split; [exact H2|]. split; [exact H4|].
      exists es, tail. split; [reflexivity|]. split; [exact H3|]. split; [exact H7|]. split; [|rewrite sd_with, with_with; exact Ht].
      rewrite sd_with. rewrite Forall_forall in *. intros e' He'. rewrite mget_mset_other; [apply H5; exact He'|]. intros E. apply H6. rewrite <- E. apply in_map. exact He'.
  - intros [[-> ->]|[[m [-> [Hm ->]]]|[r' [-> H]]]].
    + exists [], []. split; [reflexivity|]. split; [constructor|]. split; [constructor|]. split; [constructor|]. left. split; [reflexivity|]. symmetry. apply with_same; assumption.
    + exists [], (" "%byte :: m). split; [reflexivity|]. split; [constructor|]. split; [constructor|]. split; [constructor|]. right. exists m.
      cbn [elems_map fold_left]. rewrite with_same by assumption. auto.
    + destruct H as [id [ps [r [-> [H1 [H2 [H3 [es [tail [-> [Hok [Hnd [Hfr Ht]]]]]]]]]]]]].
      rewrite sd_with in *. exists (Elem id ps :: es), tail. split.
      { cbn [map concat]. unfold elem_text at 2. cbn [e_id e_params]. change (lit "[") with ["["%byte]. change (lit "]") with ["]"%byte]. unfold ps_text. rewrite <- !app_assoc. reflexivity. }
      split; [constructor; [split; assumption|exact Hok]|].
      assert (Hne : forall e, In e es -> e_id e <> id). { intros e He E. rewrite Forall_forall in Hfr. specialize (Hfr e He). cbn beta in Hfr. rewrite E, mget_mset_same in Hfr. discriminate. }
      split. { cbn [map e_id]. constructor; [|exact Hnd]. intros Hin. apply in_map_iff in Hin as [e [E He]]. exact (Hne e He E). }
      split. { constructor; [exact H3|]. rewrite Forall_forall in *. intros e He. specialize (Hfr e He). cbn beta in Hfr. rewrite mget_mset_other in Hfr by (apply Hne; exact He). exact Hfr. }
      rewrite with_with in Ht. exact Ht.
Qed.

Lemma sdname_span id : sdname id <-> (1 <= length id <= 32)%nat /\ Forall (fun b => is_sdc (bN b) = true) id.
Proof. unfold sdname. split; intros [H1 H2]; (split; [exact H1|]); (eapply Forall_impl; [|exact H2]); intros b; apply sdc_char. Qed.
Lemma ps_text_cons p ps : ps_text (p :: ps) = " "%byte :: pbody p ++ ps_text ps.
Proof. unfold ps_text. cbn [map concat]. rewrite param_text_body. reflexivity. Qed.
Lemma params_map_cons m p ps : params_map m (p :: ps) = params_map (mset m (p_name p) (p_value p)) ps. Proof. reflexivity. Qed.
Lemma mset_mset {V} (m : gmap V) k v w : mset (mset m k v) k w = mset m k w.
Proof.
  induction m as [|[k' v'] r IH]; cbn [mset]; [rewrite bcmp_refl; reflexivity|].
  destruct (bcmp k k') eqn:E; cbn [mset]; rewrite ?bcmp_refl, ?E; [reflexivity|reflexivity|]. rewrite IH. reflexivity.
Qed.

Lemma elems_good cm fuel : forall md o p rest o', (length rest < fuel)%nat ->
  (match md with MElem _ => True | MParam id _ => o_hasElements o = true /\ mget (sd_of o) id <> None end) ->
  p_elems fuel cm md o p rest = PGood o' <-> Acc cm md o rest o'.
Proof.
  induction fuel as [|fuel IH]; intros md o p rest o' Hf Hmd; [lia|].
  (* the part after ']' *)
  assert (HC : forall id o p r, (length r <= fuel)%nat -> o_hasElements o = true -> o_sd o <> None ->
     match r with
      | [] => PGood o
      | b :: r' => if is 32 b then p_msg cm o (p + 1) r'
                   else if is 91 b then p_elems fuel cm (MElem (Some id)) o (p + 1) r'
                   else PBad (Some o) (PErr EStructuredData p)
      end = PGood o' <-> Close cm o r o').
  { intros id o1 p1 r Hr Ho Hs. rewrite (close_iff cm o1 r o' Ho Hs (Some id)). destruct r as [|b r].
    - split; [intros H; injection H as <-; auto|]. intros [[_ ->]|[[m [H _]]|[r' [H _]]]]; [reflexivity|discriminate|discriminate].
    - destruct (is 32 b) eqn:E1.
      + rewrite (is_lit 32 b " "%byte E1 eq_refl). rewrite p_msg_good. split; [intros [H1 H2]; right; left; eauto|].
        intros [[H _]|[[m [H1 [H2 H3]]]|[r' [H _]]]]; [discriminate| |discriminate]. injection H1 as <-. auto.
      + destruct (is 91 b) eqn:E2.
        * rewrite (is_lit 91 b "["%byte E2 eq_refl). rewrite IH by (cbn [length] in Hr; auto; lia). split; [intros H; right; right; eauto|].
          intros [[H _]|[[m [H1 [H2 H3]]]|[r' [H1 H2]]]]; [discriminate|discriminate|]. injection H1 as <-. exact H2.
        * split; [discriminate|]. intros [[H _]|[[m [H1 [H2 H3]]]|[r' [H1 H2]]]]; [discriminate| |]; injection H1 as -> _; discriminate. }
  cbn [p_elems]. destruct md as [cur|id cp].
  - split.
    + destruct (span_max is_sdc 32 rest) as [id r] eqn:E. apply span_parts in E as [-> [H1 [H2 _]]]. destruct id as [|a id]; [discriminate|].
      set (ID := a :: id) in *. destruct (mget (sd_of o) ID) eqn:Em; [discriminate|].
      assert (Hid : sdname ID). { apply sdname_span. split; [cbn [length ID] in *; lia|exact H1]. }
      assert (Hl : (1 <= length ID)%nat) by (destruct Hid as [Hl _]; lia).
      rewrite app_length in Hf. destruct r as [|b r]; [discriminate|]. cbn [length] in Hf. destruct (is 32 b) eqn:E1.
      * rewrite (is_lit 32 b " "%byte E1 eq_refl). rewrite IH; [|lia|].
        2: { split; [reflexivity|]. change (add_elem ID o) with (with_sd (mset (sd_of o) ID []) o). rewrite sd_with. rewrite mget_mset_same. discriminate. }
        intros [pp [ps [r' [-> [P1 [P2 P3]]]]]]. exists ID, (pp :: ps), r'. split; [rewrite ps_text_cons; cbn [app]; rewrite <- app_assoc; reflexivity|].
        split; [exact Hid|]. split; [constructor; assumption|]. split; [exact Em|].
        change (add_elem ID o) with (with_sd (mset (sd_of o) ID []) o) in P3. unfold elem_of in P3. rewrite sd_with, with_with, mget_mset_same, mset_mset in P3. exact P3.
      * destruct (is 93 b) eqn:E2; [|discriminate]. rewrite (is_lit 93 b "]"%byte E2 eq_refl). rewrite HC; [|lia|reflexivity|discriminate].
        intros H. exists ID, [], r. split; [reflexivity|]. split; [exact Hid|]. split; [constructor|]. split; [exact Em|]. exact H.
    + intros [id [ps [r [-> [Hid [Hps [Em H]]]]]]]. pose proof Hid as Hid'. apply sdname_span in Hid' as [Hl Hall].
      assert (exists b r', ps_text ps ++ "]"%byte :: r = b :: r' /\ is_sdc (bN b) = false) as [b [r' [Eb Hb]]].
      { destruct ps as [|pp ps]; [exists "]"%byte, r; split; reflexivity|]. rewrite ps_text_cons. eexists _, _. split; [reflexivity|reflexivity]. }
      rewrite Eb. rewrite span_exact by (assumption || lia). destruct id as [|a id]; [cbn in Hl; lia|]. set (ID := a :: id) in *. rewrite Em.
      rewrite app_length in Hf. rewrite Eb in Hf. cbn [length] in Hf.
      destruct ps as [|pp ps].
      * injection Eb as <- <-. change (is 32 "]") with false. change (is 93 "]") with true. cbv iota. rewrite HC; [|lia|reflexivity|discriminate]. exact H.
      * rewrite ps_text_cons in Eb. cbn [app] in Eb. injection Eb as <- <-. change (is 32 " ") with true. cbv iota. rewrite IH; [|lia|].
        2: { split; [reflexivity|]. change (add_elem ID o) with (with_sd (mset (sd_of o) ID []) o). rewrite sd_with. rewrite mget_mset_same. discriminate. }
        exists pp, ps, r. split; [rewrite <- app_assoc; reflexivity|]. inversion Hps; subst. split; [assumption|]. split; [assumption|].
        change (add_elem ID o) with (with_sd (mset (sd_of o) ID []) o). unfold elem_of. rewrite sd_with, with_with, mget_mset_same, mset_mset. exact H.
  - destruct Hmd as [Hhe Hid]. destruct (mget (sd_of o) id) as [e|] eqn:Ee; [clear Hid|congruence].
    assert (Hput : forall nm v, put_param id nm v o = with_sd (mset (sd_of o) id (mset e nm v)) o).
    { intros nm v. unfold put_param, with_sd, elem_of. rewrite Ee. destruct o; cbn in *. rewrite Hhe. reflexivity. }
    assert (Hnext : forall nm v ps, with_sd (mset (sd_of (put_param id nm v o)) id (params_map (elem_of (put_param id nm v o) id) ps)) (put_param id nm v o)
        = with_sd (mset (sd_of o) id (params_map (mset e nm v) ps)) o).
    { intros nm v ps. rewrite Hput. unfold elem_of. rewrite sd_with, with_with, mget_mset_same, mset_mset. reflexivity. }
    split.
    + destruct (span_max is_sdc 32 rest) as [nm r] eqn:E. apply span_parts in E as [-> [H1 [H2 _]]]. destruct nm as [|a nm]; [discriminate|]. set (NM := a :: nm) in *.
      destruct r as [|c r]; [discriminate|]. destruct (is 61 c) eqn:E1; [|discriminate]. rewrite (is_lit 61 c "="%byte E1 eq_refl).
      destruct r as [|q r]; [discriminate|]. destruct (is 34 q) eqn:E2; [|discriminate]. rewrite (is_lit 34 q """"%byte E2 eq_refl).
      destruct (p_val VPlain r) as [raw ve] eqn:Ev. destruct ve as [r3|k]; [|destruct k; discriminate].
      apply scan_pval in Ev as [Er Hpv].
      assert (Hp : param_ok (Param NM raw (unesc raw))). { split; [|exact Hpv]. apply sdname_span. split; [split; [cbn [length NM]; apply le_n_S, Nat.le_0_l|exact H2]|exact H1]. }
      assert (Et : NM ++ "="%byte :: """"%byte :: r = pbody (Param NM raw (unesc raw)) ++ r3). { unfold pbody. cbn [p_name p_raw]. rewrite Er. rewrite <- !app_assoc. cbn [app]. rewrite <- app_assoc. reflexivity. }
      assert (Hr3 : (S (length r3) <= fuel)%nat). { rewrite app_length in Hf. cbn [length] in Hf. rewrite Er, app_length in Hf. cbn [length] in Hf. lia. }
      destruct r3 as [|b r4]; [discriminate|]. cbn [length] in Hr3. destruct (is 32 b) eqn:E3.
      * rewrite (is_lit 32 b " "%byte E3 eq_refl) in *. rewrite IH; [|lia|].
        2: { rewrite Hput. split; [reflexivity|]. rewrite sd_with, mget_mset_same. discriminate. }
        intros [pp [ps [r' [-> [P1 [P2 P3]]]]]]. rewrite Hnext in P3. cbn [Acc]. rewrite Et.
        exists (Param NM raw (unesc raw)), (pp :: ps), r'. split; [rewrite ps_text_cons; cbn [app]; rewrite <- !app_assoc; reflexivity|].
        split; [exact Hp|]. split; [constructor; assumption|]. unfold elem_of. rewrite Ee. exact P3.
      * destruct (is 93 b) eqn:E4; [|discriminate]. rewrite (is_lit 93 b "]"%byte E4 eq_refl) in *. rewrite HC; [|lia|exact Hhe|discriminate].
        intros H. rewrite Hput in H. cbn [Acc]. rewrite Et. exists (Param NM raw (unesc raw)), [], r4. split; [reflexivity|].
        split; [exact Hp|]. split; [constructor|]. unfold elem_of. rewrite Ee. exact H.
    + intros [pp [ps [r [-> [[Hnm Hpv] [Hps H]]]]]]. destruct pp as [nm raw v]. cbn [p_name p_raw p_value] in *.
      pose proof Hnm as Hnm'. apply sdname_span in Hnm' as [Hl Hall]. destruct (pval_scan raw v Hpv) as [Hun Hsc].
      unfold pbody. cbn [p_name p_raw].
      assert (Et : (nm ++ "="%byte :: """"%byte :: raw ++ [""""%byte]) ++ ps_text ps ++ "]"%byte :: r = nm ++ "="%byte :: """"%byte :: raw ++ """"%byte :: ps_text ps ++ "]"%byte :: r).
      { rewrite <- !app_assoc. cbn [app]. rewrite <- app_assoc. reflexivity. }
      unfold pbody in Hf. cbn [p_name p_raw] in Hf. rewrite Et in *.
      rewrite app_length in Hf. cbn [length] in Hf. rewrite app_length in Hf. cbn [length] in Hf.
      assert (Hlr : (length (ps_text ps ++ "]"%byte :: r) < fuel)%nat) by (clear - Hf; lia). clear Hf.
      rewrite span_exact by (assumption || lia || reflexivity). destruct nm as [|a nm]; [cbn in Hl; lia|]. set (NM := a :: nm) in *.
      change (is 61 "=") with true. change (is 34 """") with true. cbv iota. rewrite Hsc, Hun. unfold elem_of in H. rewrite Ee in H. cbn [params_map fold_left p_name p_value] in H. fold (params_map (mset e NM v) ps) in H.
      destruct ps as [|pp ps].
      * change (ps_text [] ++ "]"%byte :: r) with ("]"%byte :: r) in *. cbn [length] in Hlr. cbv iota beta. change (is 32 "]") with false. change (is 93 "]") with true. cbv iota. rewrite HC; [|lia|exact Hhe|discriminate].
        rewrite Hput. exact H.
      * rewrite ps_text_cons in *. cbn [app length] in *. cbv iota beta. change (is 32 " ") with true. cbv iota. rewrite <- app_assoc in *. rewrite IH; [|lia|].
        2: { rewrite Hput. split; [reflexivity|]. rewrite sd_with, mget_mset_same. discriminate. }
        exists pp, ps, r. split; [reflexivity|]. inversion Hps; subst. split; [assumption|]. split; [assumption|]. rewrite Hnext. exact H.
Qed.

Definition put_sd (s : option sdmap) (o : msg5424) : msg5424 := match s with Some m => with_sd m o | None => o end.
Lemma p_sd_good cm o p rest o' : p_sd cm o p rest = PGood o' <->
  exists sd s tail, rest = sd ++ tail /\ sd_field sd s /\ tail_ok cm tail (put_sd s o) o'.
Proof.
  split.
  - unfold p_sd. destruct rest as [|b r]; [discriminate|]. destruct (is 45 b) eqn:Eb.
    { rewrite (is_lit 45 b "-"%byte Eb eq_refl). destruct r as [|c r].
      - intros H. injection H as <-. exists (lit "-"), None, []. split; [reflexivity|]. split; [constructor|]. left. auto.
      - destruct (is 32 c) eqn:Ec; [|discriminate]. rewrite (is_lit 32 c " "%byte Ec eq_refl). intros H. apply p_msg_good in H as [H1 H2].
        exists (lit "-"), None, (" "%byte :: r). split; [reflexivity|]. split; [constructor|]. right. eauto. }
    destruct (is 91 b) eqn:Ec; [|discriminate]. rewrite (is_lit 91 b "["%byte Ec eq_refl). rewrite elems_good by (auto; lia).
    intros [id [ps [r' [-> [H1 [H2 [H3 [es [tail [-> [Hok [Hnd [Hfr Ht]]]]]]]]]]]]].
    rewrite sd_with in *. rewrite with_with in Ht. change (sd_of (set_o_sd (Some []) o)) with (@nil (bytes * gmap bytes)) in *. cbn [mset] in *.
    exists (concat (map elem_text (Elem id ps :: es))), (Some (elems_map [] (Elem id ps :: es))), tail. split.
    { cbn [map concat]. unfold elem_text at 2. cbn [e_id e_params]. change (lit "[") with ["["%byte]. change (lit "]") with ["]"%byte]. unfold ps_text. rewrite <- !app_assoc. reflexivity. }
    assert (Hne : forall e, In e es -> e_id e <> id). { intros e He E. rewrite Forall_forall in Hfr. specialize (Hfr e He). cbn in Hfr. rewrite E, bcmp_refl in Hfr. discriminate. }
    split; [|exact Ht]. constructor; [discriminate|constructor; [split; assumption|exact Hok]|]. cbn [map e_id]. constructor; [|exact Hnd].
    intros Hin. apply in_map_iff in Hin as [e [E He]]. exact (Hne e He E).
  - intros [sd [s [tail [-> [Hsd Ht]]]]]. destruct Hsd as [|es Hne Hok Hnd].
    + unfold p_sd. change (lit "-") with ["-"%byte]. cbn [app]. change (is 45 "-") with true. cbv iota. cbn [put_sd] in Ht.
      destruct Ht as [[-> ->]|[m [-> [H1 H2]]]]; [reflexivity|]. change (is 32 " ") with true. cbv iota. apply p_msg_good. auto.
    + destruct es as [|e es]; [congruence|].
      assert (E : concat (map elem_text (e :: es)) ++ tail = "["%byte :: e_id e ++ ps_text (e_params e) ++ "]"%byte :: concat (map elem_text es) ++ tail).
      { cbn [map concat]. unfold elem_text at 1. change (lit "[") with ["["%byte]. change (lit "]") with ["]"%byte]. unfold ps_text. rewrite <- !app_assoc. reflexivity. }
      rewrite E. unfold p_sd. change (is 45 "[") with false. change (is 91 "[") with true. cbv iota. apply elems_good; [lia|exact I|].
      inversion Hok as [|? ? [H1 H2] H3]; subst. inversion Hnd as [|? ? H6 H7]; subst.
      exists (e_id e), (e_params e), (concat (map elem_text es) ++ tail). split; [reflexivity|]. split; [exact H1|]. split; [exact H2|]. split; [reflexivity|].
      exists es, tail. split; [reflexivity|]. split; [exact H3|]. split; [exact H7|]. split; [|exact Ht].
      rewrite Forall_forall. intros e' He'. rewrite sd_with, mget_mset_other; [reflexivity|]. intros E'. apply H6. rewrite <- E'. apply in_map. exact He'.
Qed.

(* ---- everything ---- *)
Definition build (v ver : Z) (t : option time) (host app proc mid : bytes) (s : option sdmap) : msg5424 :=
  put_sd s (set_word FMsgid mid (set_word FProc proc (set_word FApp app (set_word FHost host (put_ts t (set_ver ver (pri_msg v))))))).
Lemma spec_good cm data o : spec5424 cm data = PGood o <->
  exists pri ver ts host app proc mid sd tail p v t s,
    data = syslog_text pri ver ts host app proc mid sd tail
    /\ pri_text pri p /\ version_text ver v /\ ts_field ts t
    /\ word 255 host /\ word 48 app /\ word 128 proc /\ word 32 mid
    /\ sd_field sd s /\ tail_ok cm tail (build p v t host app proc mid s) o.
Proof.
  unfold spec5424, p_header. rewrite p_pri_good. split.
  - intros [pri [p [r [-> [H1 H]]]]]. apply p_version_good in H as [ver [v [r1 [-> [H2 H]]]]].
    apply p_ts_good in H as [ts [t [r2 [-> [H3 H]]]]].
    apply p_word_good in H as [host [r3 [-> [H4 H]]]]. apply p_word_good in H as [app [r4 [-> [H5 H]]]].
    apply p_word_good in H as [proc [r5 [-> [H6 H]]]]. apply p_word_good in H as [mid [r6 [-> [H7 H]]]].
    apply p_sd_good in H as [sd [s [tail [-> [H8 H9]]]]].
    exists pri, ver, ts, host, app, proc, mid, sd, tail, p, v, t, s. repeat (split; [assumption || reflexivity|]). exact H9.
  - intros [pri [ver [ts [host [app [proc [mid [sd [tail [p [v [t [s [-> [H1 [H2 [H3 [H4 [H5 [H6 [H7 [H8 H9]]]]]]]]]]]]]]]]]]]]]].
    exists pri, p, (ver ++ " "%byte :: ts ++ " "%byte :: host ++ " "%byte :: app ++ " "%byte :: proc ++ " "%byte :: mid ++ " "%byte :: sd ++ tail).
    split; [reflexivity|]. split; [exact H1|].
    apply p_version_good. eexists ver, v, _. split; [reflexivity|]. split; [exact H2|].
    apply p_ts_good. eexists ts, t, _. split; [reflexivity|]. split; [exact H3|].
    apply p_word_good. eexists host, _. split; [reflexivity|]. split; [exact H4|].
    apply p_word_good. eexists app, _. split; [reflexivity|]. split; [exact H5|].
    apply p_word_good. eexists proc, _. split; [reflexivity|]. split; [exact H6|].
    apply p_word_good. eexists mid, _. split; [reflexivity|]. split; [exact H7|].
    apply p_sd_good. exists sd, s, tail. auto.
Qed.

Lemma opt_word n w : word n w -> opt_str w = word_value w.
Proof. intros [H _]. unfold opt_str, word_value. destruct w; [cbn in H; lia|]. cbn [bseqb]. rewrite orb_false_r. reflexivity. Qed.

Lemma export_build p v t host app proc mid s m (H4 : word 255 host) (H5 : word 48 app) (H6 : word 128 proc) (H7 : word 32 mid) :
  export (put_msg m (build p v t host app proc mid s)) =
  Message (Some (p / 8)) (Some (p mod 8)) (Some p) t (word_value host) (word_value app) (word_value proc) (word_value mid) (nonempty m) v s.
Proof.
  rewrite <- (opt_word _ _ H4), <- (opt_word _ _ H5), <- (opt_word _ _ H6), <- (opt_word _ _ H7).
  destruct m, t, s; reflexivity.
Qed.

Theorem spec_grammar cm data m : (exists o, spec5424 cm data = PGood o /\ export o = m) <-> grammar cm data m.
Proof.
  split.
  - intros [o [H <-]]. apply spec_good in H as [pri [ver [ts [host [app [proc [mid [sd [tail [p [v [t [s [-> [H1 [H2 [H3 [H4 [H5 [H6 [H7 [H8 H9]]]]]]]]]]]]]]]]]]]]]].
    destruct H9 as [[-> ->]|[g [-> [Hg ->]]]].
    + exists pri, ver, ts, host, app, proc, mid, sd, [], p, v, t, s, None. repeat (split; [assumption || reflexivity|]). split; [constructor|].
      apply (export_build p v t host app proc mid s []); assumption.
    + exists pri, ver, ts, host, app, proc, mid, sd, (" "%byte :: g), p, v, t, s, (nonempty g). repeat (split; [assumption || reflexivity|]). split; [apply (m_some cm g); exact Hg|].
      apply export_build; assumption.
  - intros [pri [ver [ts [host [app [proc [mid [sd [tail [p [v [t [s [g [-> [H1 [H2 [H3 [H4 [H5 [H6 [H7 [H8 [Hg ->]]]]]]]]]]]]]]]]]]]]]]]].
    destruct Hg as [|g Hg].
    + exists (build p v t host app proc mid s). split; [|apply (export_build p v t host app proc mid s []); assumption].
      apply spec_good. exists pri, ver, ts, host, app, proc, mid, sd, [], p, v, t, s. repeat (split; [assumption || reflexivity|]). left. auto.
    + exists (put_msg g (build p v t host app proc mid s)). split; [|apply export_build; assumption].
      apply spec_good. exists pri, ver, ts, host, app, proc, mid, sd, (" "%byte :: g), p, v, t, s. repeat (split; [assumption || reflexivity|]). right. exists g. auto.
Qed.
