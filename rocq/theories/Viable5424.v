(* C55: where Parse stops.  The bytes before the error column can be completed to an accepted input, and one byte more cannot. *)
From Verif Require Import Bytes GoMap GoTime Common CommonFacts M5424Def A5424 M5424 BuilderBaseDef Spec5424 Ref5424a Ref5424b Ref5424c Grammar5424 Utf8 Ts5424 Gram5424 Loc5424 Props5424 Thm5424 Best5424 Fail5424 FailUtf8 ThmFail5424.
Local Open Scope Z_scope.
Ltac Zify.zify_post_hook ::= idtac.

(* some accepted input begins with pre *)
Definition viable (cm : bool) (pre : bytes) : Prop := exists ext m, grammar cm (pre ++ ext) m.

(* ---- a name that does not occur in a list ---- *)
Definition tails (c : byte) (L : list bytes) : list bytes := flat_map (fun x => match x with b :: r => if beqb b c then [r] else [] | [] => [] end) L.
Lemma in_tails c w L : In (c :: w) L -> In w (tails c L).
Proof. intros H. apply in_flat_map. exists (c :: w). split; [exact H|]. rewrite (proj2 (beqb_eq c c) eq_refl). left. reflexivity. Qed.
Lemma tails_sum L : (length (tails "a" L) + length (tails "b" L) + length (tails "c" L) + length (tails "d" L) <= length L)%nat.
Proof.
  induction L as [|x L IH]; [apply le_n|]. unfold tails in *. cbn [flat_map length]. rewrite !app_length. destruct x as [|b r]; [cbn [length]; lia|].
  destruct (beqb b "a") eqn:E1; [apply beqb_eq in E1 as ->; cbn; lia|]. destruct (beqb b "b") eqn:E2; [apply beqb_eq in E2 as ->; cbn; lia|].
  destruct (beqb b "c") eqn:E3; [apply beqb_eq in E3 as ->; cbn; lia|]. destruct (beqb b "d") eqn:E4; cbn [length]; lia.
Qed.
Lemma fresh k : forall L : list bytes, Z.of_nat (length L) < 4 ^ Z.of_nat k -> exists w, length w = k /\ Forall sdname_char w /\ ~ In w L.
Proof.
  induction k as [|k IH]; intros L H.
  - destruct L; [|cbn [length] in H; change (4 ^ Z.of_nat 0) with 1 in H; lia]. exists []. split; [reflexivity|]. split; [constructor|]. intros [].
  - rewrite Nat2Z.inj_succ, Z.pow_succ_r in H by lia. pose proof (tails_sum L) as Hs. set (q := 4 ^ Z.of_nat k) in *.
    assert (Hc : exists c, In c ["a"; "b"; "c"; "d"]%byte /\ Z.of_nat (length (tails c L)) < q).
    { destruct (Z_lt_le_dec (Z.of_nat (length (tails "a" L))) q); [exists "a"%byte; cbn; auto|].
      destruct (Z_lt_le_dec (Z.of_nat (length (tails "b" L))) q); [exists "b"%byte; cbn; auto|].
      destruct (Z_lt_le_dec (Z.of_nat (length (tails "c" L))) q); [exists "c"%byte; cbn; auto|].
      destruct (Z_lt_le_dec (Z.of_nat (length (tails "d" L))) q); [exists "d"%byte; cbn; auto 7|]. exfalso. clear -H Hs l l0 l1 l2. apply inj_le in Hs. rewrite !Nat2Z.inj_add in Hs. lia. }
    destruct Hc as [c [Hc Hl]]. destruct (IH _ Hl) as [w [H1 [H2 H3]]]. exists (c :: w). split; [cbn; congruence|]. split; [|intros Hin; apply H3, in_tails, Hin].
    constructor; [|exact H2]. apply sdc_char. destruct Hc as [<-|[<-|[<-|[<-|[]]]]]; reflexivity.
Qed.
Lemma elems_length es : (length es <= length (elems_text es))%nat.
Proof. induction es as [|e es IH]; [apply le_n|]. unfold elems_text in *. cbn [map concat]. rewrite app_length. unfold elem_text at 1. change (lit "[") with ["["%byte]. cbn [app length]. lia. Qed.
Lemma fresh_id es : Z.of_nat (length (elems_text es)) < 2 ^ 63 -> exists id, sdname id /\ ~ In id (map e_id es).
Proof.
  intros H. destruct (fresh 32 (map e_id es)) as [w [H1 [H2 H3]]].
  { rewrite map_length. pose proof (elems_length es). change (4 ^ Z.of_nat 32) with (2 ^ 64). assert (2 ^ 63 < 2 ^ 64) by reflexivity. lia. }
  exists w. split; [split; [lia|exact H2]|exact H3].
Qed.

(* ---- completing a text ---- *)
Lemma header_end pre m n : header pre m n -> (n <= 5)%nat -> exists ext m', header (pre ++ ext) m' 5.
Proof.
  intros H Hn. assert (Hd : forall i, word (word_max (i)) (lit "-") \/ (4 <= i)%nat).
  { intros [|[|[|[|i]]]]; [left..|right; lia]; (split; [cbn; lia|]; constructor; [|constructor]; apply printable_graph; reflexivity). }
  assert (Hs : forall k n pre m, header pre m n -> (n + k = 5)%nat -> exists ext m', header (pre ++ ext) m' 5).
  { clear - Hd. induction k as [|k IH]; intros n pre m H Hk; [exists [], m; rewrite app_nil_r; replace n with 5%nat in H by lia; exact H|].
    assert (Hnext : exists e m', header (pre ++ e) m' (S n)).
    { destruct n as [|i].
      - eexists (lit "-" ++ lit " "), _. apply h_ts; [exact H|left; auto].
      - destruct (Hd i) as [Hw|Hw]; [|lia]. eexists (lit "-" ++ lit " "), _. apply h_word; [lia|exact H|exact Hw]. }
    destruct Hnext as [e [m' Hnext]]. destruct (IH (S n) _ _ Hnext) as [ext [m'' Hx]]; [lia|]. exists (e ++ ext), m''. rewrite app_assoc. exact Hx. }
  apply (Hs (5 - n)%nat n pre m H). lia.
Qed.
Lemma header_parts pre m n : header pre m n -> forall rest,
  match n with
  | O => exists pri p ver v, pri_text pri p /\ version_text ver v /\ pre ++ rest = lit "<" ++ pri ++ lit ">" ++ ver ++ lit " " ++ rest
  | S i => exists pre0 m0 ts t ws, header pre0 m0 0 /\ ts_field ts t /\ length ws = i /\ (forall j w, nth_error ws j = Some w -> word (word_max j) w) /\ pre ++ rest = pre0 ++ ts ++ lit " " ++ concat (map (fun w => w ++ lit " ") ws) ++ rest
  end.
Proof.
  induction 1 as [pri p ver v H1 H2|pre m ts t H IH Ht|i pre m w Hi H IH Hw]; intros rest.
  - exists pri, p, ver, v. split; [exact H1|]. split; [exact H2|]. rewrite <- !app_assoc. reflexivity.
  - exists pre, m, ts, t, []. split; [exact H|]. split; [exact Ht|]. split; [reflexivity|]. split; [intros [|j] w; discriminate|]. cbn [map concat app]. rewrite <- !app_assoc. reflexivity.
  - destruct (IH (w ++ lit " " ++ rest)) as [pre0 [m0 [ts [t [ws [G1 [G2 [G3 [G4 G5]]]]]]]]]. exists pre0, m0, ts, t, (ws ++ [w]). split; [exact G1|]. split; [exact G2|]. split; [rewrite app_length, G3; cbn; lia|]. split.
    + intros j w' E. destruct (Nat.lt_ge_cases j (length ws)) as [Hj|Hj]; [rewrite nth_error_app1 in E by exact Hj; apply G4, E|]. rewrite nth_error_app2 in E by exact Hj.
      destruct (j - length ws)%nat as [|k] eqn:Ej; [|destruct k; discriminate]. injection E as <-. replace j with i by lia. exact Hw.
    + rewrite map_app, concat_app. cbn [map concat]. rewrite app_nil_r, <- !app_assoc. exact G5.
Qed.
Lemma header_grammar cm pre m sd s tail g : header pre m 5 -> sd_field sd s -> msg_field cm tail g -> exists m', grammar cm (pre ++ sd ++ tail) m'.
Proof.
  intros H Hs Hg. destruct (header_parts pre m 5 H (sd ++ tail)) as [pre0 [m0 [ts [t [ws [G1 [G2 [G3 [G4 G5]]]]]]]]]. destruct (header_parts pre0 m0 0 G1 (ts ++ lit " " ++ concat (map (fun w => w ++ lit " ") ws) ++ sd ++ tail)) as [pri [p [ver [v [F1 [F2 F3]]]]]].
  rewrite G5, F3. destruct ws as [|w0 [|w1 [|w2 [|w3 [|? ?]]]]]; try discriminate. cbn [map concat]. rewrite app_nil_r, <- !app_assoc.
  eexists. exists pri, ver, ts, w0, w1, w2, w3, sd, tail, p, v, t, s, g. split; [reflexivity|]. split; [exact F1|]. split; [exact F2|]. split; [exact G2|].
  split; [exact (G4 0%nat w0 eq_refl)|]. split; [exact (G4 1%nat w1 eq_refl)|]. split; [exact (G4 2%nat w2 eq_refl)|]. split; [exact (G4 3%nat w3 eq_refl)|]. split; [exact Hs|]. split; [exact Hg|]. reflexivity.
Qed.
Lemma viable_header cm pre m n : header pre m n -> (n <= 5)%nat -> viable cm pre.
Proof.
  intros H Hn. destruct (header_end pre m n H Hn) as [ext [m' H']]. destruct (header_grammar cm _ m' (lit "-") None [] None H') as [m'' Hg]; [constructor|constructor|].
  exists (ext ++ lit "-" ++ []), m''. rewrite app_assoc. exact Hg.
Qed.
Lemma viable_app cm pre ext : viable cm (pre ++ ext) -> viable cm pre.
Proof. intros [e [m H]]. exists (ext ++ e), m. rewrite app_assoc. exact H. Qed.
Lemma viable_sd cm pre m good : header pre m 5 -> (exists y s, sd_field (good ++ y) s) -> viable cm (pre ++ good).
Proof. intros H [y [s Hs]]. destruct (header_grammar cm pre m _ s [] None H Hs ltac:(constructor)) as [m' Hg]. exists (y ++ []), m'. rewrite <- app_assoc. rewrite <- app_assoc in Hg. exact Hg. Qed.
Lemma viable_elems es : elems_ok es -> es <> [] -> exists y s, sd_field (elems_text es ++ y) s.
Proof. intros [H1 H2] H3. exists [], (Some (elems_map [] es)). rewrite app_nil_r. apply sd_some; assumption. Qed.
Lemma viable_elem es id ps : elems_ok es -> sdname id -> ~ In id (map e_id es) -> Forall param_ok ps -> exists s, sd_field (elems_text es ++ lit "[" ++ id ++ params_text ps ++ lit "]") s.
Proof.
  intros H1 H2 H3 H4. eexists. change (lit "[" ++ id ++ params_text ps ++ lit "]") with (elem_text (Elem id ps)). rewrite <- elems_text_snoc. destruct (proj2 (elems_ok_snoc es (Elem id ps))) as [G1 G2].
  { split; [exact H1|]. split; [split; assumption|exact H3]. }
  apply sd_some; [destruct es; discriminate|exact G1|exact G2].
Qed.
Lemma viable_param es id ps p : elems_ok es -> sdname id -> ~ In id (map e_id es) -> Forall param_ok ps -> param_ok p ->
  exists s, sd_field (elems_text es ++ lit "[" ++ id ++ params_text ps ++ param_text p ++ lit "]") s.
Proof.
  intros H1 H2 H3 H4 H5. destruct (viable_elem es id (ps ++ [p]) H1 H2 H3) as [s Hs]; [apply Forall_app; auto|]. exists s. rewrite params_text_snoc, <- app_assoc in Hs. exact Hs.
Qed.
Lemma pval_trans r1 v1 r2 v2 : pval r1 v1 -> pval r2 v2 -> pval (r1 ++ r2) (v1 ++ v2).
Proof. intros H1 H2. induction H1; [exact H2|cbn [app]; constructor; assumption|rewrite <- !app_assoc; constructor; assumption]. Qed.
Lemma name_a : sdname (lit "a").
Proof. split; [cbn; lia|]. constructor; [apply sdc_char; reflexivity|constructor]. Qed.
Lemma char_pval c : scalar c -> (128 <= c)%N -> pval (encode c) (encode c).
Proof. intros H1 H2. rewrite <- (app_nil_r (encode c)). apply pv_char || constructor; [exact H1|unfold special; lia|constructor]. Qed.
Lemma viable_sd_fails cm pre m good bad sd k : header pre m 5 -> sd_fails good bad sd k -> k <> ESdIDDuplicated -> Z.of_nat (length good) < 2 ^ 63 -> viable cm (pre ++ good).
Proof.
  intros Hh Hf Hk Hl. eapply viable_sd; [exact Hh|].
  destruct Hf as [bad' Hc|b r Hc|es b r Hne Hok H1 H2|es bad' Hok Hc|es id bad' Hok Hlg Hin|es id bad' Hok Hid Hlg Hin Hc|es id ps good' bad' map k' Hok Hid Hin Hps Hf].
  - exists (lit "-"), None. apply sd_none.
  - exists [], None. apply sd_none.
  - apply viable_elems; auto.
  - destruct (fresh_id es) as [id [H1 H2]]; [rewrite app_length in Hl; lia|]. destruct (viable_elem es id [] Hok H1 H2) as [s Hs]; [constructor|]. exists (id ++ params_text [] ++ lit "]"), s. rewrite <- app_assoc. exact Hs.
  - congruence.
  - destruct (viable_elem es id [] Hok Hid Hin) as [s Hs]; [constructor|]. exists (params_text [] ++ lit "]"), s. rewrite <- !app_assoc. exact Hs.
  - assert (Hex : exists y p, param_ok p /\ lit " " ++ good' ++ y = param_text p).
    { destruct Hf as [nm bad Hlg Hc|nm bad Hs Hc|nm raw v bad Hs Hv Hc|nm raw v bad Hs Hv Hc|nm raw v part bad Hs Hv Hne Hc|nm raw v bad Hs Hv Hc].
      - destruct nm as [|a nm]; [exists (lit "a=""""" ), (Param (lit "a") [] []); split; [split; [apply name_a|constructor]|reflexivity]|].
        exists (lit "=""" ++ lit """"), (Param (a :: nm) [] []). split; [split; [apply (longest_sdname _ _ Hlg); discriminate|constructor]|reflexivity].
      - exists (lit """" ++ lit """"), (Param nm [] []). split; [split; [exact Hs|constructor]|]. rewrite <- !app_assoc. reflexivity.
      - exists (lit """"), (Param nm raw v). split; [split; assumption|]. rewrite <- !app_assoc. reflexivity.
      - exists (lit "]" ++ lit """"), (Param nm (raw ++ lit "\]") (v ++ lit "]")). split; [split; [exact Hs|apply pval_trans; [exact Hv|constructor; [vm_compute; auto|constructor]]]|]. unfold param_text. cbn [p_name p_raw]. rewrite <- !app_assoc. reflexivity.
      - destruct Hc as [[c [x [Hc [Hx E]]]] _]. exists (x ++ lit """"), (Param nm (raw ++ encode c) (v ++ encode c)). split.
        + split; [exact Hs|]. apply pval_trans; [exact Hv|]. apply char_pval; [exact Hc|]. destruct (N.lt_ge_cases c 128) as [Hlt|Hge]; [|exact Hge]. exfalso. destruct part as [|a part]; [congruence|]. assert (Hlen : length (encode c) = 1%nat) by (destruct (encode_cases c Hc) as [[_ [-> _]]|[Hb _]]; [reflexivity|lia]).
          rewrite E in Hlen. cbn [app length] in Hlen. destruct x; [congruence|]. rewrite app_length in Hlen. cbn [length] in Hlen. lia.
        + unfold param_text. cbn [p_name p_raw]. rewrite E, <- !app_assoc. reflexivity.
      - exists [], (Param nm raw v). split; [split; assumption|]. rewrite <- !app_assoc. reflexivity. }
    destruct Hex as [y [p [Hp E]]]. destruct (viable_param es id ps p Hok Hid Hin Hps Hp) as [s Hs]. exists (y ++ lit "]"), s. rewrite <- E in Hs. rewrite <- !app_assoc. rewrite <- !app_assoc in Hs. exact Hs.
Qed.
Lemma ver1 : version_text (lit "1") 1.
Proof. apply version_cases. left. exists "1"%byte. split; [reflexivity|]. split; reflexivity. Qed.
Lemma viable_version cm pri p ver v : pri_text pri p -> version_text ver v -> viable cm (lit "<" ++ pri ++ lit ">" ++ ver).
Proof. intros H1 H2. apply (viable_app cm _ (lit " ")). rewrite <- !app_assoc. eapply viable_header; [apply h_version; eassumption|lia]. Qed.
Lemma viable_pri cm pri p : pri_text pri p -> viable cm (lit "<" ++ pri).
Proof. intros H. apply (viable_app cm _ (lit ">" ++ lit "1")). rewrite <- !app_assoc. eapply viable_version; [eassumption|apply ver1]. Qed.
Lemma pri0 : pri_text (lit "0") 0. Proof. apply (pri1 "0"%byte). unfold digit. change (bN "0") with 48%N. lia. Qed.
Lemma utf8_app u v : utf8 u -> utf8 v -> utf8 (u ++ v).
Proof. intros H1 H2. induction H1; [exact H2|rewrite <- app_assoc; constructor; assumption]. Qed.
Lemma fails_viable cm data x k c : fails cm data x (PErr k c) -> k <> ESdIDDuplicated -> k <> ETimestamp -> Z.of_nat (length data) < 2 ^ 63 ->
  exists good bad, data = good ++ bad /\ c = col good /\ viable cm good.
Proof.
  intros H Hk1 Hk2 Hl. remember (PErr k c) as e eqn:Ee.
  destruct H as [bad H|w bad Hw Hn|pri p bad Hp Hn|pri p ver v bad Hp Hv Hlg Hn|pre m part bad Hh Hs Hn|pre m s bad Hh Hf Hn|pre m s t bad Hh Hs Hn|i pre m w bad Hi Hh Hlg Hn|pre m good bad sd k' Hh Hf|pre m sd s u part bad E Hh Hs Hu Hc]; try discriminate Ee; injection Ee as <- <-.
  - exists [], bad. split; [reflexivity|]. split; [reflexivity|]. apply (viable_app cm [] (lit "<" ++ lit "0")). exact (viable_pri cm (lit "0") 0 pri0).
  - exists (lit "<" ++ w), bad. split; [rewrite <- app_assoc; reflexivity|]. split; [change (1 + len w = len (["<"%byte] ++ w)); lens|].
    destruct Hw as [->|[[v Hw] _]]; [apply (viable_app cm _ (lit "0")); rewrite app_nil_r; exact (viable_pri cm (lit "0") 0 pri0)|eapply viable_pri; exact Hw].
  - exists (lit "<" ++ pri ++ lit ">"), bad. split; [rewrite <- !app_assoc; reflexivity|]. split; [reflexivity|]. apply (viable_app cm _ (lit "1")). rewrite <- !app_assoc. eapply viable_version; [eassumption|apply ver1].
  - exists (lit "<" ++ pri ++ lit ">" ++ ver), bad. split; [rewrite <- !app_assoc; reflexivity|]. split; [reflexivity|]. eapply viable_version; eassumption.
  - congruence.
  - exists (pre ++ s), bad. split; [rewrite <- app_assoc; reflexivity|]. split; [reflexivity|]. apply (viable_app cm _ (lit " ")). rewrite <- app_assoc. eapply viable_header; [apply h_ts; eassumption|lia].
  - exists (pre ++ w), bad. split; [rewrite <- app_assoc; reflexivity|]. split; [reflexivity|]. destruct w as [|a w]; [rewrite app_nil_r; eapply viable_header; [exact Hh|lia]|].
    apply (viable_app cm _ (lit " ")). rewrite <- app_assoc. eapply viable_header; [apply h_word; [exact Hi|exact Hh|]|lia]. destruct Hlg as [L1 [L2 _]]. split; [cbn [length] in *; lia|exact L1].
  - exists (pre ++ good), bad. split; [rewrite <- app_assoc; reflexivity|]. split; [reflexivity|]. eapply viable_sd_fails; try eassumption. rewrite !app_length in Hl. lia.
  - exists (pre ++ sd ++ lit " " ++ BOM ++ u ++ part), bad. split; [rewrite <- !app_assoc; reflexivity|]. split; [reflexivity|]. destruct Hc as [[c [y [Hc [Hy Ec]]]] _].
    destruct (header_grammar cm pre m sd s (lit " " ++ BOM ++ u ++ encode c) (nonempty (BOM ++ u ++ encode c)) Hh Hs) as [m' Hg].
    { apply m_some. intros _ r Er. apply app_inv_head in Er as <-. apply utf8_app; [exact Hu|]. rewrite <- (app_nil_r (encode c)). constructor; [exact Hc|constructor]. }
    exists y, m'. rewrite Ec in Hg. rewrite <- !app_assoc. exact Hg.
Qed.
Lemma firstn_col good bad : firstn (Z.to_nat (col good)) (good ++ bad) = good.
Proof. unfold col. rewrite Nat2Z.id, firstn_app, Nat.sub_diag, firstn_O, app_nil_r. apply firstn_all. Qed.

(* C55: an error other than a duplicated SD-ID or one about the timestamp is reported where the input stops being the beginning of an accepted input:
   what precedes the error column can be completed (inputs shorter than 2^63 bytes, as all Go slices are) ... *)
Theorem parse_error_viable m data x k c : snd (parse m data) = Ret x (Some (PErr k c)) -> k <> ESdIDDuplicated -> k <> ETimestamp -> Z.of_nat (length data) < 2 ^ 63 ->
  exists ext msg, snd (parse m (firstn (Z.to_nat c) data ++ ext)) = Ret (Some msg) None.
Proof.
  intros H H1 H2 H3. apply parse_fails in H as [y [H _]]. destruct (fails_viable _ _ _ _ _ H H1 H2 H3) as [good [bad [-> [-> [ext [msg Hg]]]]]]. exists ext, msg. rewrite firstn_col. apply parse_accepts_grammar. exact Hg.
Qed.
(* ... and, for every error, no longer part can be *)
Theorem parse_error_farthest m data x e n ext : snd (parse m data) = Ret x (Some e) -> perr_col e < Z.of_nat n -> (n <= length data)%nat ->
  snd (parse m (firstn n data ++ ext)) = Ret x (Some e).
Proof.
  intros H Hn Hl. pose proof (parse_error_position m data x e H) as Hp. set (w := firstn (Z.to_nat (perr_col e)) data).
  assert (Hw : Z.of_nat (length w) = perr_col e) by (unfold w; rewrite firstn_length; lia).
  destruct (skipn (Z.to_nat (perr_col e)) data) as [|b r] eqn:Es.
  { apply (f_equal (@length byte)) in Es. rewrite skipn_length in Es. cbn [length] in Es. lia. }
  assert (Ed : data = w ++ b :: r) by (unfold w; rewrite <- Es; symmetry; apply firstn_skipn).
  assert (En : firstn n data = w ++ b :: firstn (n - S (length w)) r).
  { rewrite Ed, firstn_app, firstn_all2 by lia. f_equal. replace (n - length w)%nat with (S (n - S (length w))) by lia. reflexivity. }
  rewrite En, <- app_assoc. cbn [app]. rewrite Ed in H. eapply parse_error_local; [exact H|symmetry; exact Hw].
Qed.
(* an error about the timestamp: what precedes can be completed when some date of the calendar begins as the timestamp does *)
Theorem timestamp_error_viable m pre h part bad : header pre h 0 -> stuck_ts part bad -> part <> [] \/ next_not (eq "-"%byte) bad ->
  (exists x, snd (parse m (pre ++ part ++ bad)) = Ret x (Some (PErr ETimestamp (col (pre ++ part)))))
  /\ ((exists ext msg, snd (parse m (pre ++ part ++ ext)) = Ret (Some msg) None) <-> part = [] \/ exists y t, ts_text (part ++ y) t).
Proof.
  intros Hh Hs Hn. split; [eexists; apply parse_fails; eexists; split; [apply fl_ts; eassumption|reflexivity]|]. split.
  - intros [ext [msg H]]. destruct part as [|a part]; [left; reflexivity|right]. destruct (header_fwd pre h 0 Hh) as [o [_ E]].
    rewrite (proj1 (parse_spec m _)), E in H. destruct (stagen (compliant m) 0 o (col pre) ((a :: part) ++ ext)) as [o'|x e] eqn:Eo; [|destruct x; cbn [ret_of] in H; destruct (bestEffort m); discriminate].
    cbn [stagen] in Eo. apply p_ts_good in Eo as [s [t [r [Er [Ht _]]]]]. apply stuck_ts_cons in Hs as [Ha [ms [Hm [Hr _]]]]. destruct Ht as [[-> _]|[t' [-> Ht]]]; [injection Er as -> _; unfold digit in Ha; change (bN "-") with 45%N in Ha; lia|].
    destruct (ts_text_head s t' Ht) as [a' [w [-> Ha']]]. cbn [app] in Er. injection Er as <- Er. pose proof Ht as Ht2. apply text_shape in Ht2 as [Ht2 _]. destruct (shape_run _ _ Ht2) as [a2 [w2 [E2 [_ [Hrun _]]]]]. injection E2 as <- <-.
    destruct (Nat.le_gt_cases (length part) (length w)) as [Hle|Hgt].
    + exists (skipn (length part) w), t'. replace ((a :: part) ++ skipn (length part) w) with (a :: w); [exact Ht|]. cbn [app]. f_equal. rewrite <- (firstn_skipn (length part) w) at 1. f_equal.
      apply (f_equal (firstn (length part))) in Er. rewrite firstn_app, Nat.sub_diag, firstn_O, app_nil_r, firstn_all, firstn_app in Er. replace (length part - length w)%nat with 0%nat in Er by lia. rewrite firstn_O, app_nil_r in Er. symmetry. exact Er.
    + exfalso. assert (Ep : exists c q, part = w ++ c :: q).
      { exists (nth (length w) part "0"%byte), (skipn (S (length w)) part). apply (f_equal (firstn (length w))) in Er. rewrite !firstn_app, Nat.sub_diag, firstn_O, app_nil_r, firstn_all in Er. replace (length w - length part)%nat with 0%nat in Er by lia. rewrite firstn_O, app_nil_r in Er.
        rewrite <- (firstn_skipn (length w) part) at 1. rewrite Er. f_equal. clear - Hgt. revert Hgt. generalize (length w). induction part as [|p part IH]; intros [|n] Hgt; cbn [length] in Hgt; try lia; [reflexivity|]. cbn [skipn nth]. apply IH. lia. }
      destruct Ep as [c [q ->]]. rewrite ts_run_app, Hrun in Hr. exact (run_not_578 _ _ _ Hr).
  - intros Hy. assert (Hv : viable (compliant m) (pre ++ part)).
    { destruct Hy as [->|[y [t Ht]]]; [rewrite app_nil_r; eapply viable_header; [exact Hh|lia]|]. apply (viable_app _ _ (y ++ lit " ")). rewrite <- app_assoc. rewrite (app_assoc part). eapply viable_header; [apply h_ts; [exact Hh|right; eauto]|lia]. }
    destruct Hv as [ext [msg Hg]]. exists ext, msg. rewrite app_assoc. apply parse_accepts_grammar. exact Hg.
Qed.
(* the hypotheses are met: a broken escape, and the end of the input inside a parameter *)
Example parse_error_viable_ex :
  snd (parse best (lit "<3>1 - - - - - [a b=""\n""]")) = Ret (Some (set_structuredData (Some [(lit "a", [])]) (start 3 1))) (Some (PErr EEscape 22))
  /\ (exists ext msg, snd (parse best (lit "<3>1 - - - - - [a b=""\" ++ ext)) = Ret (Some msg) None)
  /\ (forall ext, exists r, snd (parse best (lit "<3>1 - - - - - [a b=""\n" ++ ext)) = Ret r (Some (PErr EEscape 22)))
  /\ exists ext msg, snd (parse best (lit "<3>1 - - - - - [a b" ++ ext)) = Ret (Some msg) None.
Proof.
  assert (H : snd (parse best (lit "<3>1 - - - - - [a b=""\n""]")) = Ret (Some (set_structuredData (Some [(lit "a", [])]) (start 3 1))) (Some (PErr EEscape 22))) by (vm_compute; reflexivity).
  split; [exact H|]. split; [|split].
  - exact (parse_error_viable best _ _ EEscape 22 H ltac:(discriminate) ltac:(discriminate) ltac:(reflexivity)).
  - intros ext. eexists. exact (parse_error_farthest best _ _ _ 23 ext H ltac:(reflexivity) ltac:(vm_compute; lia)).
  - exact (parse_error_viable best (lit "<3>1 - - - - - [a b") _ ESdParam 19 ltac:(vm_compute; reflexivity) ltac:(discriminate) ltac:(discriminate) ltac:(reflexivity)).
Qed.
(* why the timestamp is excepted: 2003-02-3 begins no date of the calendar, but the error comes at the byte after it *)
Example timestamp_not_viable : snd (parse strict (lit "<3>1 2003-02-3x")) = Ret None (Some (PErr ETimestamp 14)) /\ ~ exists y t, ts_text (lit "2003-02-3" ++ y) t.
Proof.
  split; [vm_compute; reflexivity|]. intros [y [t H]]. apply text_shape in H as [H Hd]. destruct H as [yyyy [mo [dd [hh [mi [ss [fr [zo [E [H1 [H2 [H3 _]]]]]]]]]]]].
  apply num4 in H1 as [a [b [c [d [-> [_ [_ [_ [_ [Hv _]]]]]]]]]]. apply num2 in H2 as [e [f [-> [_ [_ [Hm _]]]]]]. apply num2 in H3 as [g [h [-> [_ [Hh [Hday _]]]]]].
  change (lit "2003-02-3") with ["2"; "0"; "0"; "3"; "-"; "0"; "2"; "-"; "3"]%byte in E. change (lit "-") with ["-"%byte] in E. cbn [app] in E. injection E as <- <- <- <- <- <- <- _.
  rewrite Hday, Hm, Hv in Hd. change (days_in (10 * dv "0" + dv "2") _) with 28 in Hd. change (dv "3") with 3 in Hd. unfold digit, dv in *. lia.
Qed.
