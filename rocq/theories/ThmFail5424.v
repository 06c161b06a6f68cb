(* Parse rejects an input exactly as the relation of Fail5424 says (property C54). *)
From Coq Require Import Permutation.
From Verif Require Import Bytes GoMap GoTime Common CommonFacts M5424Def A5424 M5424 BuilderBaseDef Spec5424 Ref5424a Ref5424b Ref5424c Grammar5424 Utf8 Ts5424 Gram5424 Loc5424 Props5424 Thm5424 Best5424 Fail5424 FailUtf8.
Local Open Scope Z_scope.
Ltac Zify.zify_post_hook ::= idtac.

Lemma col_len l : col l = len l. Proof. reflexivity. Qed.
Lemma nn_is n c rest : bN c = n -> (next_not (eq c) rest <-> forall b r, rest = b :: r -> is n b = false).
Proof.
  intros Hc. split.
  - intros H b r E. apply N.eqb_neq. intros En. apply (H b r E). apply bN_inj. congruence.
  - intros H b r E <-. specialize (H c r E). unfold is in H. apply N.eqb_neq in H. congruence.
Qed.
Lemma nn_nil P : next_not P []. Proof. intros b r H. discriminate. Qed.
Lemma nn_cons P b r : next_not P (b :: r) <-> ~ P b.
Proof. split; [intros H; exact (H b r eq_refl)|intros H b' r' E; injection E as <- <-; exact H]. Qed.
Lemma is_neq n c b : bN c = n -> (is n b = false <-> b <> c).
Proof. intros Hc. unfold is. rewrite N.eqb_neq. split; [intros H ->; congruence|intros H E; apply H, bN_inj; congruence]. Qed.
Lemma nn_two m n c d rest : bN c = m -> bN d = n -> (next_not (fun b => b = c \/ b = d) rest <-> forall b r, rest = b :: r -> is m b = false /\ is n b = false).
Proof.
  intros Hc Hd. split.
  - intros H b r E. rewrite (is_neq m c b Hc), (is_neq n d b Hd). specialize (H b r E). cbn beta in H. tauto.
  - intros H b r E Hx. specialize (H b r E). rewrite (is_neq m c b Hc), (is_neq n d b Hd) in H. tauto.
Qed.

Lemma span_longest (P : N -> bool) (Q : byte -> Prop) (HPQ : forall b, P (bN b) = true <-> Q b) max : forall l w r,
  span_max P max l = (w, r) <-> l = w ++ r /\ longest Q max w r.
Proof.
  induction max as [|max IH]; intros l w r; cbn [span_max].
  - split.
    + intros H. injection H as <- <-. split; [reflexivity|]. split; [constructor|]. split; [apply le_n|left; reflexivity].
    + intros [-> [_ [Hl _]]]. destruct w; [reflexivity|cbn in Hl; lia].
  - destruct l as [|b l].
    + split; [intros H; injection H as <- <-; split; [reflexivity|]; split; [constructor|]; split; [cbn; lia|]; right; apply nn_nil|].
      intros [H _]. symmetry in H. apply app_eq_nil in H as [-> ->]. reflexivity.
    + destruct (P (bN b)) eqn:E.
      * specialize (IH l). destruct (span_max P max l) as [w' r'] eqn:Es. cbn [fst snd]. destruct (proj1 (IH w' r') eq_refl) as [El [H1 [H2 H3]]]. split.
        -- intros H. injection H as <- <-. split; [cbn [app]; congruence|]. split; [constructor; [apply HPQ; exact E|exact H1]|]. split; [cbn [length]; lia|]. destruct H3 as [H3|H3]; [left; cbn [length]; congruence|right; exact H3].
        -- intros [El' [G1 [G2 G3]]]. destruct w as [|a w].
           { exfalso. cbn [app] in El'. subst r. destruct G3 as [G3|G3]; [cbn in G3; lia|]. apply (G3 b l eq_refl), HPQ. exact E. }
           cbn [app] in El'. injection El' as <- El'. assert (Hx : (w', r') = (w, r)); [apply IH; split; [exact El'|]; split; [exact (Forall_inv_tail G1)|]; split; [cbn [length] in G2; lia|]; destruct G3 as [G3|G3]; [left; cbn [length] in G3; lia|right; exact G3]|]. injection Hx as -> ->. reflexivity.
      * split.
        -- intros H. injection H as <- <-. split; [reflexivity|]. split; [constructor|]. split; [cbn; lia|]. right. apply nn_cons. rewrite <- HPQ, E. discriminate.
        -- intros [El [G1 _]]. destruct w as [|a w]; [cbn [app] in El; congruence|]. cbn [app] in El. injection El as <- El. pose proof (Forall_inv G1) as G. apply HPQ in G. congruence.
Qed.
Lemma span_graph max l w r : span_max is_graph max l = (w, r) <-> l = w ++ r /\ longest printable max w r.
Proof. apply span_longest. apply printable_graph. Qed.
Lemma span_sdc l w r : span_max is_sdc 32 l = (w, r) <-> l = w ++ r /\ longest sdname_char 32 w r.
Proof. apply span_longest. apply sdc_char. Qed.
Lemma sdname_longest w r : sdname w -> next_not sdname_char r -> longest sdname_char 32 w r.
Proof. intros [H1 H2] H. split; [exact H2|]. split; [lia|]. right. exact H. Qed.
Lemma longest_sdname w r : longest sdname_char 32 w r -> w <> [] -> sdname w.
Proof. intros [H1 [H2 _]] Hn. split; [destruct w; [congruence|cbn [length] in *; lia]|exact H1]. Qed.
Lemma not_sdname c rest : is_sdc (bN c) = false -> next_not sdname_char (c :: rest).
Proof. intros H. apply nn_cons. rewrite <- sdc_char, H. discriminate. Qed.

(* ---- MSG ---- *)
Lemma firstn_bom u part bad : firstn (3 + length (u ++ part)) (BOM ++ u ++ part ++ bad) = BOM ++ u ++ part.
Proof.
  change (3 + length (u ++ part))%nat with (length BOM + length (u ++ part))%nat. rewrite (app_assoc u part bad), firstn_app_2. f_equal.
  rewrite firstn_app, Nat.sub_diag, firstn_O, app_nil_r. apply firstn_all.
Qed.
Lemma msg_bad cm o P r x e : p_msg cm o P r = PBad x e <->
  cm = true /\ exists u part bad, r = BOM ++ u ++ part ++ bad /\ utf8 u /\ stuck_char part bad /\ x = Some (set_o_message (BOM ++ u ++ part) o) /\ e = PErr EMsgNotCompliant (P + len (BOM ++ u ++ part)).
Proof.
  split.
  - intros H. destruct r as [|a r]; [discriminate|]. unfold p_msg in H. destruct cm; [|discriminate]. split; [reflexivity|].
    destruct (strip_bom (a :: r)) as [r'|] eqn:E; [|discriminate]. apply strip_bom_iff in E. destruct (utf_scan None r') as [n|] eqn:Eu; [|discriminate].
    apply scan_bad in Eu as [u [part [bad [-> [Hu [Hs ->]]]]]]. rewrite E in *. exists u, part, bad. split; [reflexivity|]. split; [exact Hu|]. split; [exact Hs|].
    injection H as <- <-. split.
    + do 2 f_equal. apply firstn_bom.
    + f_equal. rewrite len_app. change (len BOM) with 3. unfold len. lia.
  - intros [-> [u [part [bad [-> [Hu [Hs [-> ->]]]]]]]]. unfold p_msg. rewrite (proj2 (strip_bom_iff (BOM ++ u ++ part ++ bad) (u ++ part ++ bad)) eq_refl), (scan_utf8_stuck u part bad Hu Hs).
    change (BOM ++ u ++ part ++ bad) with ("239"%byte :: "187"%byte :: "191"%byte :: u ++ part ++ bad) at 1. cbv iota. f_equal.
    + do 2 f_equal. apply firstn_bom.
    + f_equal. rewrite len_app. change (len BOM) with 3. unfold len. lia.
Qed.

(* ---- STRUCTURED-DATA ---- *)
Definition lastopt {A} (l : list A) : option A := match rev l with [] => None | x :: _ => Some x end.
Lemma lastopt_snoc {A} (l : list A) x : lastopt (l ++ [x]) = Some x.
Proof. unfold lastopt. rewrite rev_unit. reflexivity. Qed.
Lemma elems_map_snoc m es e : elems_map m (es ++ [e]) = mset (elems_map m es) (e_id e) (params_map [] (e_params e)).
Proof. unfold elems_map. rewrite fold_left_app. reflexivity. Qed.
Lemma params_map_snoc m ps p : params_map m (ps ++ [p]) = mset (params_map m ps) (p_name p) (p_value p).
Proof. unfold params_map. rewrite fold_left_app. reflexivity. Qed.
Lemma elems_text_snoc es e : elems_text (es ++ [e]) = elems_text es ++ elem_text e.
Proof. unfold elems_text. rewrite map_app, concat_app. cbn [map concat]. rewrite app_nil_r. reflexivity. Qed.
Lemma params_text_snoc ps p : params_text (ps ++ [p]) = params_text ps ++ param_text p.
Proof. unfold params_text. rewrite map_app, concat_app. cbn [map concat]. rewrite app_nil_r. reflexivity. Qed.
Lemma mget_elems es : forall m id, mget (elems_map m es) id = None <-> ~ In id (map e_id es) /\ mget m id = None.
Proof.
  induction es as [|e es IH]; intros m id; cbn [elems_map fold_left map In]; [tauto|]. fold (elems_map (mset m (e_id e) (params_map [] (e_params e))) es). rewrite IH.
  destruct (bseqb (e_id e) id) eqn:E.
  - apply bseqb_eq in E. rewrite E, mget_mset_same. split; [intros [_ H]; discriminate|intros [H _]; tauto].
  - apply bseqb_neq in E. rewrite mget_mset_other by congruence. tauto.
Qed.
Lemma mget_elems_nil es id : mget (elems_map [] es) id = None <-> ~ In id (map e_id es).
Proof. rewrite mget_elems. cbn [mget]. tauto. Qed.
Lemma elems_ok_snoc es e : elems_ok (es ++ [e]) <-> elems_ok es /\ elem_ok e /\ ~ In (e_id e) (map e_id es).
Proof.
  unfold elems_ok. rewrite map_app, Forall_app. cbn [map]. split.
  - intros [[H1 H2] H3]. split; [split; [exact H1|]|split; [exact (Forall_inv H2)|]].
    + apply NoDup_remove_1 in H3. rewrite app_nil_r in H3. exact H3.
    + apply NoDup_remove_2 in H3. rewrite app_nil_r in H3. exact H3.
  - intros [[H1 H2] [H3 H4]]. split; [split; [exact H1|constructor; [exact H3|constructor]]|]. apply (Permutation_NoDup (l := e_id e :: map e_id es)); [apply Permutation_cons_append|constructor; assumption].
Qed.

(* the variables after the elements es *)
Definition oes (es : list elem) (o : msg5424) : msg5424 := match es with [] => set_o_sd (Some []) o | _ => with_sd (elems_map [] es) o end.
Lemma sd_oes es o : sd_of (oes es o) = elems_map [] es. Proof. destruct es; reflexivity. Qed.
Lemma with_oes m es o : with_sd m (oes es o) = with_sd m o. Proof. destruct es; reflexivity. Qed.
Lemma elem_text_eq e : elem_text e = "["%byte :: e_id e ++ params_text (e_params e) ++ ["]"%byte]. Proof. reflexivity. Qed.
Definition lastid (es : list elem) : option bytes := option_map e_id (lastopt es).
Definition lastname (ps : list param) : option bytes := option_map p_name (lastopt ps).
Definition cl' cm es : stage := match lastid es with Some id => cl cm id | None => fun o p r => PBad None (PErr EParse 0) end.

(* reading elements *)
Lemma fwd_open cm o P es r : (es <> [] -> forall r, p_sd cm o P (elems_text es ++ r) = cl' cm es (oes es o) (P + len (elems_text es)) r) ->
  p_sd cm o P (elems_text es ++ "["%byte :: r) = el cm (MElem (lastid es)) (oes es o) (P + len (elems_text es) + 1) r.
Proof.
  intros H. destruct es as [|e es'] using rev_ind.
  - cbn [elems_text map concat app]. unfold p_sd. change (is 45 "[") with false. change (is 91 "[") with true. cbv iota. rewrite el_fold. rewrite len_nil, Z.add_0_r. reflexivity.
  - clear IHes'. rewrite H by (destruct es'; discriminate). unfold cl', lastid. rewrite lastopt_snoc. cbn [option_map]. unfold cl. change (is 32 "[") with false. change (is 91 "[") with true. reflexivity.
Qed.
Lemma oes_snoc es e o : oes (es ++ [e]) o = with_sd (elems_map [] (es ++ [e])) o.
Proof. destruct es; reflexivity. Qed.
Lemma fwd_elems cm o P es : elems_ok es -> es <> [] -> forall r, p_sd cm o P (elems_text es ++ r) = cl' cm es (oes es o) (P + len (elems_text es)) r.
Proof.
  induction es as [|e es IH] using rev_ind; intros Hok Hne r; [congruence|]. apply elems_ok_snoc in Hok as [Hok [He Hin]].
  rewrite elems_text_snoc, <- app_assoc, elem_text_eq. cbn [app]. rewrite <- !app_assoc. cbn [app]. rewrite fwd_open by (intros Hn; apply IH; assumption).
  change (params_text (e_params e)) with (ps_text (e_params e)). rewrite el_one; [|exact He|rewrite sd_oes; apply mget_elems_nil; exact Hin].
  unfold cl', lastid. rewrite lastopt_snoc. cbn [option_map]. rewrite sd_oes, with_oes, <- elems_map_snoc, oes_snoc. f_equal. lens.
Qed.
Lemma fwd_open' cm o P es r : elems_ok es -> p_sd cm o P (elems_text es ++ "["%byte :: r) = el cm (MElem (lastid es)) (oes es o) (P + len (elems_text es) + 1) r.
Proof. intros Hok. apply fwd_open. intros Hn. apply fwd_elems; assumption. Qed.
Definition ops (es : list elem) (id : bytes) (ps : list param) (o : msg5424) : msg5424 := with_sd (mset (elems_map [] es) id (params_map [] ps)) o.
Lemma put_ops es id ps nm v raw o : put_param id nm v (ops es id ps o) = ops es id (ps ++ [Param nm raw v]) o.
Proof.
  rewrite put_param_with by reflexivity. unfold ops, elem_of. rewrite sd_with, with_with, mget_mset_same, mset_mset, params_map_snoc. reflexivity.
Qed.
Lemma del_ops es id ps nm o : del_param id (Some nm) (ops es id ps o) = with_sd (mset (elems_map [] es) id (mdel (params_map [] ps) nm)) o.
Proof.
  unfold del_param. unfold ops at 3, with_sd. unfold ops, elem_of. rewrite sd_with, mget_mset_same, mset_mset. reflexivity.
Qed.
Lemma fwd_params cm o P es id ps : elems_ok es -> sdname id -> ~ In id (map e_id es) -> Forall param_ok ps -> forall r,
  p_sd cm o P (elems_text es ++ "["%byte :: id ++ params_text ps ++ " "%byte :: r) =
  el cm (MParam id (lastname ps)) (ops es id ps o) (P + len (elems_text es ++ "["%byte :: id ++ params_text ps) + 1) r.
Proof.
  intros Hok Hid Hin. induction ps as [|p ps IH] using rev_ind; intros Hps r.
  - cbn [params_text map concat app]. rewrite fwd_open' by exact Hok. pose proof Hid as Hid'. apply sdname_span in Hid' as [Hl Hall].
    rewrite el_elem, span_exact by (assumption || lia || reflexivity). destruct id as [|a id]; [cbn in Hl; lia|]. set (ID := a :: id) in *.
    rewrite sd_oes, (proj2 (mget_elems_nil es ID) Hin). change (is 32 " ") with true. cbv iota. change (add_elem ID (oes es o)) with (with_sd (mset (sd_of (oes es o)) ID []) (oes es o)).
    rewrite sd_oes, with_oes. f_equal. rewrite app_nil_r. lens.
  - apply Forall_app in Hps as [Hps Hp]. apply Forall_inv in Hp as [Hnm Hpv]. rewrite params_text_snoc, <- app_assoc. destruct p as [nm raw v]. cbn [p_name p_value p_raw] in *.
    unfold param_text at 1. cbn [p_name p_raw]. change (lit " ") with [" "%byte]. change (lit "=""") with ["="%byte; """"%byte]. change (lit """") with [""""%byte]. rewrite <- !app_assoc. cbn [app].
    rewrite IH by exact Hps. apply sdname_span in Hnm as [Hl Hall]. rewrite el_param, span_exact by (assumption || lia || reflexivity). destruct nm as [|a nm]; [cbn in Hl; lia|]. set (NM := a :: nm) in *.
    unfold pv. change (is 61 "=") with true. change (is 34 """") with true. cbv iota. destruct (pval_scan raw v Hpv) as [Hun Hsc]. rewrite Hsc, Hun. cbv zeta iota beta. change (is 32 " ") with true. cbv iota.
    rewrite (put_ops es id ps NM v raw o). unfold lastname. rewrite lastopt_snoc. cbn [option_map p_name]. f_equal.
    unfold param_text. cbn [p_name p_raw]. change (lit " ") with [" "%byte]. change (lit "=""") with ["="%byte; """"%byte]. change (lit """") with [""""%byte]. lens.
Qed.

(* ---- soundness of sd_fails ---- *)
Lemma export_with m o : export (with_sd m o) = set_structuredData (Some m) (export o). Proof. reflexivity. Qed.
Lemma export_none o : o_hasElements o = false -> set_structuredData None (export o) = export o.
Proof. intros H. unfold export. rewrite H. reflexivity. Qed.
Lemma export_oes es o : o_hasElements o = false -> export (oes es o) = set_structuredData (sd_value es) (export o).
Proof. intros H. destruct es; [|reflexivity]. cbn [oes sd_value]. rewrite export_none by exact H. destruct o. cbn in H. subst. reflexivity. Qed.
Lemma params_sorted ps : forall m, msorted m -> msorted (params_map m ps).
Proof. induction ps as [|p ps IH]; intros m H; [exact H|]. rewrite params_map_cons. apply IH, mset_sorted, H. Qed.
Lemma mdel_mset {V} (m : gmap V) k v : msorted m -> mdel (mset m k v) k = mdel m k.
Proof.
  intros H. apply msorted_ext; [apply mdel_sorted, mset_sorted, H|apply mdel_sorted, H|]. intros k'. destruct (bseqb k' k) eqn:E.
  - apply bseqb_eq in E as ->. rewrite !mget_mdel_same; auto using mset_sorted.
  - apply bseqb_neq in E. rewrite !mget_mdel_other by auto using mset_sorted. apply mget_mset_other, E.
Qed.
Lemma export_del es o : o_hasElements o = false -> elems_ok es -> export (del_elem (lastid es) (oes es o)) = set_structuredData (sd_value (removelast es)) (export o).
Proof.
  intros Ho Hok. destruct es as [|e es _] using rev_ind; [exact (export_oes [] o Ho)|]. apply elems_ok_snoc in Hok as [_ [_ Hin]].
  unfold lastid. rewrite lastopt_snoc, removelast_last. cbn [option_map del_elem]. rewrite sd_oes, elems_map_snoc, mdel_mset_absent by (apply mget_elems_nil, Hin).
  rewrite oes_snoc. destruct es as [|e' es]; [rewrite <- (export_oes [] o Ho); destruct o; cbn in Ho; subst; reflexivity|].
  cbn [sd_value]. destruct (elems_map [] (e' :: es)) eqn:E; [|reflexivity].
  exfalso. assert (Hx : mget (elems_map [] (e' :: es)) (e_id e') = None) by (rewrite E; reflexivity). apply mget_elems_nil in Hx. apply Hx. left. reflexivity.
Qed.
Lemma del_last es id ps o : del_param id (lastname ps) (ops es id ps o) = with_sd (mset (elems_map [] es) id (drop_last_name ps (params_map [] ps))) o.
Proof. unfold lastname, lastopt, drop_last_name. destruct (rev ps) as [|p r]; [reflexivity|]. cbn [option_map]. apply del_ops. Qed.

Lemma name_then cm o P es id ps nm c r : sdname nm -> is_sdc (bN c) = false ->
  el cm (MParam id (lastname ps)) (ops es id ps o) P (nm ++ c :: r) = pv cm id (lastname ps) nm (ops es id ps o) (P + len nm) (c :: r).
Proof.
  intros Hs Hc. rewrite el_param, (proj2 (span_sdc (nm ++ c :: r) nm (c :: r))) by (split; [reflexivity|apply sdname_longest; [exact Hs|apply not_sdname, Hc]]).
  destruct Hs as [Hl _]. destruct nm as [|a nm]; [cbn in Hl; lia|]. reflexivity.
Qed.
Lemma sound_val cm o P es id ps nm g bad k : sdname nm -> val_fails g bad k -> el cm (MParam id (lastname ps)) (ops es id ps o) P ((nm ++ lit "=""" ++ g) ++ bad) =
    PBad (Some (with_sd (mset (elems_map [] es) id (match k with EEscape => params_map [] ps | _ => mdel (params_map [] ps) nm end)) o)) (PErr k (P + len (nm ++ lit "=""" ++ g))).
Proof.
  intros Hs Hv. change (lit "=""") with ["="%byte; """"%byte]. rewrite <- !app_assoc. cbn [app]. rewrite name_then by (exact Hs || reflexivity).
  unfold pv. change (is 61 "=") with true. change (is 34 """") with true. cbv iota. rewrite (val_fails_scan g bad k Hv). cbv zeta iota beta.
  destruct Hv as [raw v bad' _ _|raw v bad' _ _|raw v part bad' _ _ _]; [| |rewrite del_ops]; f_equal; f_equal; lens.
Qed.
Lemma sound_params cm o P es id ps good bad map k : elems_ok es -> sdname id -> ~ In id (List.map e_id es) -> Forall param_ok ps -> param_fails ps good bad map k ->
  el cm (MParam id (lastname ps)) (ops es id ps o) P (good ++ bad) = PBad (Some (with_sd (mset (elems_map [] es) id map) o)) (PErr k (P + len good)).
Proof.
  intros Hok Hid Hin Hps H.
  destruct H as [nm bad Hl Hc|nm bad Hs Hc|nm raw v bad Hs Hv Hc|nm raw v bad Hs Hv Hc|nm raw v part bad Hs Hv Hne Hc|nm raw v bad Hs Hv Hc].
  - rewrite el_param, (proj2 (span_sdc (nm ++ bad) nm bad)) by (split; [reflexivity|exact Hl]). destruct nm as [|a nm]; [rewrite del_last; reflexivity|].
    destruct Hc as [Hc|Hc]; [discriminate|]. rewrite (nn_is 61 "="%byte bad eq_refl) in Hc. unfold pv. destruct bad as [|b r]; [rewrite del_last; reflexivity|]. rewrite (Hc b r eq_refl), del_last. reflexivity.
  - change (lit "=") with ["="%byte]. rewrite <- app_assoc. cbn [app]. rewrite name_then by (exact Hs || reflexivity).
    unfold pv. change (is 61 "=") with true. cbv iota. rewrite (nn_is 34 """"%byte bad eq_refl) in Hc. rewrite del_ops.
    destruct bad as [|b r]; [|rewrite (Hc b r eq_refl)]; f_equal; f_equal; lens.
  - exact (sound_val cm o P es id ps nm raw bad EEscape Hs (vf_value raw v bad Hv Hc)).
  - exact (sound_val cm o P es id ps nm (raw ++ lit "\") bad EEscape Hs (vf_escape raw v bad Hv Hc)).
  - exact (sound_val cm o P es id ps nm (raw ++ part) bad ESdParam Hs (vf_utf8 raw v part bad Hv Hne Hc)).
  - change (lit "=""") with ["="%byte; """"%byte]. change (lit """") with [""""%byte]. rewrite <- !app_assoc. cbn [app]. rewrite name_then by (exact Hs || reflexivity).
    unfold pv. change (is 61 "=") with true. change (is 34 """") with true. cbv iota. destruct (pval_scan raw v Hv) as [Hun Hsc]. rewrite Hsc. cbv zeta iota beta.
    rewrite Hun, (put_ops es id ps nm v raw o), del_ops, params_map_snoc. cbn [p_name p_value]. rewrite mdel_mset by (apply params_sorted; exact I).
    rewrite (nn_two 32 93 " "%byte "]"%byte bad eq_refl eq_refl) in Hc.
    destruct bad as [|b r]; [|destruct (Hc b r eq_refl) as [-> ->]]; f_equal; f_equal; lens.
Qed.

Lemma sound_sd cm o P good bad sd k : o_hasElements o = false -> sd_fails good bad sd k ->
  exists y, p_sd cm o P (good ++ bad) = PBad (Some y) (PErr k (P + len good)) /\ export y = set_structuredData sd (export o).
Proof.
  intros Ho [bad' Hc|b r Hc|es b r Hne Hok H1 H2|es bad' Hok Hc|es id bad' Hok Hl Hin|es id bad' Hok Hid Hl Hin Hc|es id ps good' bad' map k' Hok Hid Hin Hps Hf].
  - exists o. split; [|symmetry; apply export_none, Ho]. rewrite (nn_two 45 91 "-"%byte "["%byte bad' eq_refl eq_refl) in Hc. cbn [app]. unfold p_sd. rewrite len_nil, Z.add_0_r.
    destruct bad' as [|b r]; [reflexivity|]. destruct (Hc b r eq_refl) as [-> ->]. reflexivity.
  - exists o. split; [|symmetry; apply export_none, Ho]. change (lit "-") with ["-"%byte]. cbn [app]. unfold p_sd. change (is 45 "-") with true. cbv iota. rewrite (proj2 (is_neq 32 " "%byte b eq_refl) Hc). reflexivity.
  - exists (oes es o). split; [|apply export_oes, Ho]. rewrite fwd_elems by assumption. destruct es as [|e es _] using rev_ind; [congruence|]. unfold cl', lastid. rewrite lastopt_snoc. cbn [option_map]. unfold cl.
    rewrite (proj2 (is_neq 32 " "%byte b eq_refl) H1), (proj2 (is_neq 91 "["%byte b eq_refl) H2). reflexivity.
  - exists (del_elem (lastid es) (oes es o)). split; [|apply export_del; assumption]. rewrite <- app_assoc. change (lit "[" ++ bad') with ("["%byte :: bad'). rewrite fwd_open', el_elem by exact Hok.
    rewrite (proj2 (span_sdc bad' [] bad')) by (split; [reflexivity|]; split; [constructor|]; split; [cbn; lia|right; exact Hc]). f_equal. f_equal. change (lit "[") with ["["%byte]. lens.
  - exists (oes es o). split; [|apply export_oes, Ho]. rewrite <- !app_assoc. change (lit "[" ++ id ++ bad') with ("["%byte :: id ++ bad'). rewrite fwd_open', el_elem by exact Hok.
    rewrite (proj2 (span_sdc (id ++ bad') id bad')) by (split; [reflexivity|exact Hl]). destruct id as [|a id].
    { exfalso. apply in_map_iff in Hin as [e [E Hin]]. destruct Hok as [Hok _]. rewrite Forall_forall in Hok. destruct (Hok e Hin) as [[Hx _] _]. rewrite E in Hx. cbn in Hx. lia. }
    set (ID := a :: id) in *. rewrite sd_oes. destruct (mget (elems_map [] es) ID) eqn:Em; [|apply mget_elems_nil in Em; contradiction]. f_equal. f_equal. change (lit "[") with ["["%byte]. lens.
  - exists (oes es o). split; [|apply export_oes, Ho]. rewrite <- !app_assoc. change (lit "[" ++ id ++ bad') with ("["%byte :: id ++ bad'). rewrite fwd_open', el_elem by exact Hok.
    rewrite (proj2 (span_sdc (id ++ bad') id bad')) by (split; [reflexivity|exact Hl]). destruct Hid as [Hx _]. destruct id as [|a id]; [cbn in Hx; lia|].
    set (ID := a :: id) in *. rewrite sd_oes, (proj2 (mget_elems_nil es ID) Hin). rewrite (nn_two 32 93 " "%byte "]"%byte bad' eq_refl eq_refl) in Hc.
    destruct bad' as [|b r]; [|destruct (Hc b r eq_refl) as [-> ->]]; f_equal; f_equal; change (lit "[") with ["["%byte]; lens.
  - exists (with_sd (mset (elems_map [] es) id map) o). split; [|reflexivity]. rewrite <- !app_assoc. change (lit "[") with ["["%byte]. change (lit " ") with [" "%byte]. cbn [app]. rewrite fwd_params by assumption.
    rewrite (sound_params cm o _ es id ps good' bad' map k') by assumption. f_equal. f_equal. lens.
Qed.

(* ---- completeness of sd_fails ---- *)
Definition SDF (cm : bool) (o : msg5424) (P : Z) (rest : bytes) (x : option msg5424) (e : perr) : Prop := exists y, x = Some y /\
  ((exists good bad sd k, rest = good ++ bad /\ sd_fails good bad sd k /\ e = PErr k (P + len good) /\ export y = set_structuredData sd (export o))
   \/ (cm = true /\ exists sd s u part bad, rest = sd ++ lit " " ++ BOM ++ u ++ part ++ bad /\ sd_field sd s /\ utf8 u /\ stuck_char part bad
       /\ e = PErr EMsgNotCompliant (P + len (sd ++ lit " " ++ BOM ++ u ++ part)) /\ export y = set_msg (Some (BOM ++ u ++ part)) (set_structuredData s (export o)))).
Lemma sdf_here cm o P good bad sd k y p : sd_fails good bad sd k -> p = P + len good -> export y = set_structuredData sd (export o) -> SDF cm o P (good ++ bad) (Some y) (PErr k p).
Proof. intros H -> Hy. exists y. split; [reflexivity|]. left. exists good, bad, sd, k. auto. Qed.
Lemma export_msg m o : m <> [] -> export (set_o_message m o) = set_msg (Some m) (export o).
Proof. destruct m; [congruence|]. reflexivity. Qed.
Lemma sdf_msg cm o o' P sd s r p x e : p_msg cm o' p r = PBad x e -> sd_field sd s -> export o' = set_structuredData s (export o) -> p = P + len sd + 1 -> SDF cm o P (sd ++ " "%byte :: r) x e.
Proof.
  intros H Hsd Ho' ->. apply msg_bad in H as [-> [u [part [bad [-> [Hu [Hs [-> ->]]]]]]]]. eexists. split; [reflexivity|]. right. split; [reflexivity|].
  exists sd, s, u, part, bad. change (lit " ") with [" "%byte]. split; [reflexivity|]. split; [exact Hsd|]. split; [exact Hu|]. split; [exact Hs|]. split; [f_equal; lens|].
  rewrite export_msg, Ho' by discriminate. reflexivity.
Qed.
Lemma nn_two_cons (c d b : byte) r : b <> c -> b <> d -> next_not (fun b => b = c \/ b = d) (b :: r).
Proof. intros H1 H2. apply nn_cons. tauto. Qed.

Lemma complete_elems cm o P (Ho : o_hasElements o = false) n :
  (forall es r x e, (length r <= n)%nat -> elems_ok es -> el cm (MElem (lastid es)) (oes es o) (P + len (elems_text es) + 1) r = PBad x e -> SDF cm o P (elems_text es ++ "["%byte :: r) x e)
  /\ (forall es id ps r x e, (length r <= n)%nat -> elems_ok es -> sdname id -> ~ In id (map e_id es) -> Forall param_ok ps ->
        el cm (MParam id (lastname ps)) (ops es id ps o) (P + len (elems_text es ++ "["%byte :: id ++ params_text ps) + 1) r = PBad x e ->
        SDF cm o P (elems_text es ++ "["%byte :: id ++ params_text ps ++ " "%byte :: r) x e)
  /\ (forall es r x e, (length r <= n)%nat -> elems_ok es -> es <> [] -> cl' cm es (oes es o) (P + len (elems_text es)) r = PBad x e -> SDF cm o P (elems_text es ++ r) x e).
Proof.
  induction n as [n IH] using (well_founded_induction Wf_nat.lt_wf).
  assert (IHA : forall es r x e, (length r < n)%nat -> elems_ok es -> el cm (MElem (lastid es)) (oes es o) (P + len (elems_text es) + 1) r = PBad x e -> SDF cm o P (elems_text es ++ "["%byte :: r) x e)
    by (intros es r x e Hl; apply (IH (length r) Hl); apply le_n).
  assert (IHB : forall es id ps r x e, (length r < n)%nat -> elems_ok es -> sdname id -> ~ In id (map e_id es) -> Forall param_ok ps ->
        el cm (MParam id (lastname ps)) (ops es id ps o) (P + len (elems_text es ++ "["%byte :: id ++ params_text ps) + 1) r = PBad x e ->
        SDF cm o P (elems_text es ++ "["%byte :: id ++ params_text ps ++ " "%byte :: r) x e)
    by (intros es id ps r x e Hl; apply (IH (length r) Hl); apply le_n).
  assert (IHC : forall es r x e, (length r < n)%nat -> elems_ok es -> es <> [] -> cl' cm es (oes es o) (P + len (elems_text es)) r = PBad x e -> SDF cm o P (elems_text es ++ r) x e)
    by (intros es r x e Hl; apply (IH (length r) Hl); apply le_n).
  assert (Hclose : forall es id ps r x e, (length r < n)%nat -> elems_ok es -> sdname id -> ~ In id (map e_id es) -> Forall param_ok ps ->
        cl cm id (ops es id ps o) (P + len (elems_text es ++ "["%byte :: id ++ params_text ps) + 1) r = PBad x e ->
        SDF cm o P (elems_text es ++ "["%byte :: id ++ params_text ps ++ "]"%byte :: r) x e).
  { intros es id ps r x e Hl Hok Hid Hin Hps H. assert (Et : elems_text es ++ "["%byte :: id ++ params_text ps ++ "]"%byte :: r = elems_text (es ++ [Elem id ps]) ++ r).
    { rewrite elems_text_snoc, elem_text_eq. cbn [e_id e_params]. rewrite <- !app_assoc. cbn [app]. rewrite <- !app_assoc. reflexivity. }
    rewrite Et. apply IHC; [exact Hl|apply elems_ok_snoc; split; [exact Hok|]; split; [split; assumption|exact Hin]|destruct es; discriminate|].
    unfold cl', lastid. rewrite lastopt_snoc. cbn [option_map e_id]. rewrite oes_snoc, elems_map_snoc. cbn [e_id e_params]. rewrite <- H. unfold ops. f_equal. rewrite elems_text_snoc, elem_text_eq. cbn [e_id e_params]. lens. }
  clear IH. split; [|split].
  - intros es r x e Hl Hok H. rewrite el_elem in H. destruct (span_max is_sdc 32 r) as [id r'] eqn:Es. apply span_sdc in Es as [-> Hs]. destruct id as [|a id].
    { injection H as <- <-. change (elems_text es ++ "["%byte :: [] ++ r') with (elems_text es ++ lit "[" ++ r'). rewrite app_assoc. apply sdf_here with (sd := sd_value (removelast es)).
      - apply sf_no_id; [exact Hok|]. destruct Hs as [_ [_ [Hs|Hs]]]; [discriminate|exact Hs].
      - change (lit "[") with ["["%byte]. lens.
      - apply export_del; assumption. }
    set (ID := a :: id) in *. assert (Hid : sdname ID) by (apply (longest_sdname ID r' Hs); discriminate). rewrite sd_oes in H. assert (Et : elems_text es ++ "["%byte :: ID ++ r' = (elems_text es ++ lit "[" ++ ID) ++ r') by (rewrite <- !app_assoc; reflexivity).
    assert (Ep : P + len (elems_text es) + 1 + len ID = P + len (elems_text es ++ lit "[" ++ ID)) by (change (lit "[") with ["["%byte]; lens).
    destruct (mget (elems_map [] es) ID) eqn:Em.
    { injection H as <- <-. rewrite Et, Ep. apply sdf_here with (sd := sd_value es); [|reflexivity|apply export_oes, Ho]. apply sf_dup; [exact Hok|exact Hs|].
      destruct (in_dec (list_eq_dec Byte.byte_eq_dec) ID (map e_id es)) as [Hd|Hd]; [exact Hd|]. apply mget_elems_nil in Hd. congruence. }
    apply mget_elems_nil in Em.
    assert (Hbad : next_not (fun b => b = " "%byte \/ b = "]"%byte) r' -> SDF cm o P (elems_text es ++ "["%byte :: ID ++ r') (Some (oes es o)) (PErr ESdID (P + len (elems_text es) + 1 + len ID))).
    { intros Hn. rewrite Et, Ep. apply sdf_here with (sd := sd_value es); [|reflexivity|apply export_oes, Ho]. apply sf_id; assumption. }
    destruct r' as [|b r']; [injection H as <- <-; apply Hbad, nn_nil|]. rewrite app_length in Hl. cbn [length] in Hl. assert (Eo : add_elem ID (oes es o) = ops es ID [] o) by (change (add_elem ID (oes es o)) with (with_sd (mset (sd_of (oes es o)) ID []) (oes es o)); rewrite sd_oes, with_oes; reflexivity).
    destruct (is 32 b) eqn:E1.
    + apply (is_lit 32 b " "%byte) in E1 as ->; [|reflexivity]. change (elems_text es ++ "["%byte :: ID ++ " "%byte :: r') with (elems_text es ++ "["%byte :: ID ++ params_text [] ++ " "%byte :: r'). apply IHB; try assumption; [lia|constructor|]. rewrite <- H, Eo. f_equal. change (params_text []) with (@nil byte). lens.
    + destruct (is 93 b) eqn:E2.
      * apply (is_lit 93 b "]"%byte) in E2 as ->; [|reflexivity]. change (elems_text es ++ "["%byte :: ID ++ "]"%byte :: r') with (elems_text es ++ "["%byte :: ID ++ params_text [] ++ "]"%byte :: r'). apply Hclose; try assumption; [lia|constructor|]. rewrite <- H, Eo. f_equal. change (params_text []) with (@nil byte). lens.
      * injection H as <- <-. apply Hbad. apply nn_two_cons; [apply (is_neq 32); [reflexivity|exact E1]|apply (is_neq 93); [reflexivity|exact E2]].
  - intros es id ps r x e Hl Hok Hid Hin Hps H. set (pre := elems_text es ++ lit "[" ++ id ++ params_text ps ++ lit " ").
    assert (Et : elems_text es ++ "["%byte :: id ++ params_text ps ++ " "%byte :: r = pre ++ r) by (unfold pre; rewrite <- !app_assoc; reflexivity).
    assert (Ep : P + len (elems_text es ++ "["%byte :: id ++ params_text ps) + 1 = P + len pre) by (unfold pre; change (lit "[") with ["["%byte]; change (lit " ") with [" "%byte]; lens).
    assert (Hhere : forall good bad map k, param_fails ps good bad map k -> r = good ++ bad -> SDF cm o P (pre ++ r) (Some (with_sd (mset (elems_map [] es) id map) o)) (PErr k (P + len pre + len good))).
    { intros good bad map k Hf ->. rewrite app_assoc. apply sdf_here with (sd := Some (mset (elems_map [] es) id map)); [|rewrite len_app; lia|reflexivity].
      unfold pre. rewrite <- !app_assoc. apply sf_param with (k := k) (map := map); assumption. }
    rewrite Et. rewrite Ep in H. rewrite el_param in H. destruct (span_max is_sdc 32 r) as [nm r'] eqn:Es. apply span_sdc in Es as [-> Hs].
    destruct nm as [|a nm]; [injection H as <- <-; rewrite del_last; apply (Hhere [] r'); [apply pf_name; [exact Hs|left; reflexivity]|reflexivity]|].
    set (NM := a :: nm) in *. assert (Hnm : sdname NM) by (apply (longest_sdname NM r' Hs); discriminate). unfold pv in H.
    assert (B1 : next_not (eq "="%byte) r' -> SDF cm o P (pre ++ NM ++ r') (Some (del_param id (lastname ps) (ops es id ps o))) (PErr ESdParam (P + len pre + len NM))).
    { intros Hn. rewrite del_last. apply (Hhere NM r'); [|reflexivity]. apply pf_name; [exact Hs|right; exact Hn]. }
    destruct r' as [|c r1]; [injection H as <- <-; apply B1, nn_nil|]. destruct (is 61 c) eqn:E1; [|injection H as <- <-; apply B1, (nn_is 61); [reflexivity|intros b0 r0 Hx; injection Hx as <- <-; exact E1]].
    apply (is_lit 61 c "="%byte) in E1 as ->; [|reflexivity]. clear B1.
    assert (B2 : next_not (eq """"%byte) r1 -> SDF cm o P (pre ++ NM ++ "="%byte :: r1) (Some (del_param id (Some NM) (ops es id ps o))) (PErr ESdParam (P + len pre + len NM + 1))).
    { intros Hn. rewrite del_ops. replace (P + len pre + len NM + 1) with (P + len pre + len (NM ++ lit "=")) by (change (lit "=") with ["="%byte]; lens). apply (Hhere (NM ++ lit "=") r1); [|rewrite <- app_assoc; reflexivity]. apply pf_quote; assumption. }
    destruct r1 as [|q r2]; [injection H as <- <-; apply B2, nn_nil|]. destruct (is 34 q) eqn:E2; [|injection H as <- <-; apply B2, (nn_is 34); [reflexivity|intros b0 r0 Hx; injection Hx as <- <-; exact E2]].
    apply (is_lit 34 q """"%byte) in E2 as ->; [|reflexivity]. clear B2. destruct (p_val VPlain r2) as [raw ve] eqn:Ev. cbv zeta in H. destruct ve as [r3|kk].
    + apply scan_pval in Ev as [-> Hpv].
      assert (B3 : next_not (fun b => b = " "%byte \/ b = "]"%byte) r3 -> SDF cm o P (pre ++ NM ++ "="%byte :: """"%byte :: raw ++ """"%byte :: r3) (Some (del_param id (Some NM) (put_param id NM (unesc raw) (ops es id ps o)))) (PErr ESdParam (P + len pre + len NM + 2 + len raw + 1))).
      { intros Hn. rewrite (put_ops es id ps NM (unesc raw) raw o), del_ops, params_map_snoc. cbn [p_name p_value]. rewrite mdel_mset by (apply params_sorted; exact I).
        replace (P + len pre + len NM + 2 + len raw + 1) with (P + len pre + len (NM ++ lit "=""" ++ raw ++ lit """")) by (change (lit "=""") with ["="%byte; """"%byte]; change (lit """") with [""""%byte]; lens).
        apply (Hhere (NM ++ lit "=""" ++ raw ++ lit """") r3); [|rewrite <- !app_assoc; reflexivity]. eapply pf_end; eassumption. }
      destruct r3 as [|b r4]; [injection H as <- <-; apply B3, nn_nil|]. rewrite (put_ops es id ps NM (unesc raw) raw o) in H. set (pm := Param NM raw (unesc raw)) in *.
      assert (Hpm : Forall param_ok (ps ++ [pm])) by (apply Forall_app; split; [exact Hps|constructor; [split; [exact Hnm|exact Hpv]|constructor]]).
      assert (Etx : forall c, pre ++ NM ++ "="%byte :: """"%byte :: raw ++ """"%byte :: c :: r4 = elems_text es ++ "["%byte :: id ++ params_text (ps ++ [pm]) ++ c :: r4).
      { intros c. unfold pre. rewrite params_text_snoc, <- !app_assoc. unfold param_text. cbn [p_name p_raw pm]. rewrite <- !app_assoc. reflexivity. }
      assert (Epx : P + len (elems_text es ++ "["%byte :: id ++ params_text (ps ++ [pm])) + 1 = P + len pre + len NM + 2 + len raw + 2).
      { unfold pre. rewrite params_text_snoc. unfold param_text. cbn [p_name p_raw pm]. change (lit "=""") with ["="%byte; """"%byte]. change (lit """") with [""""%byte]. change (lit "[") with ["["%byte]. change (lit " ") with [" "%byte]. lens. }
      assert (Hl4 : (length r4 < n)%nat). { rewrite app_length in Hl. cbn [length] in Hl. rewrite app_length in Hl. cbn [length] in Hl. lia. }
      assert (Eln : lastname (ps ++ [pm]) = Some NM) by (unfold lastname; rewrite lastopt_snoc; reflexivity).
      destruct (is 32 b) eqn:E3.
      * apply (is_lit 32 b " "%byte) in E3 as ->; [|reflexivity]. rewrite Etx. apply IHB; try assumption. rewrite Eln, Epx. exact H.
      * destruct (is 93 b) eqn:E4.
        -- apply (is_lit 93 b "]"%byte) in E4 as ->; [|reflexivity]. rewrite Etx. apply Hclose; try assumption. rewrite Epx. exact H.
        -- injection H as <- <-. change (ops es id (ps ++ [pm]) o) with (ops es id (ps ++ [Param NM raw (unesc raw)]) o). rewrite <- put_ops. apply B3, nn_two_cons; [apply (is_neq 32); [reflexivity|exact E3]|apply (is_neq 93); [reflexivity|exact E4]].
    + apply scan_val_fails in Ev as [bad [-> Hv]]. assert (Hx : exists map, param_fails ps (NM ++ lit "=""" ++ raw) bad map kk /\ PBad x e = PBad (Some (with_sd (mset (elems_map [] es) id map) o)) (PErr kk (P + len pre + len NM + 2 + len raw))).
      { destruct Hv as [raw' v bad' Hv Hc|raw' v bad' Hv Hc|raw' v part bad' Hv Hne Hc]; rewrite <- H; eexists.
        - split; [eapply pf_value; eassumption|]. reflexivity.
        - split; [eapply pf_escape; eassumption|]. reflexivity.
        - split; [eapply pf_utf8; eassumption|]. rewrite del_ops. reflexivity. }
      destruct Hx as [map [Hf Hx]]. injection Hx as -> ->. replace (P + len pre + len NM + 2 + len raw) with (P + len pre + len (NM ++ lit "=""" ++ raw)) by (change (lit "=""") with ["="%byte; """"%byte]; lens).
      change (NM ++ "="%byte :: """"%byte :: raw ++ bad) with (NM ++ lit "=""" ++ raw ++ bad) in *. apply (Hhere (NM ++ lit "=""" ++ raw) bad map kk Hf). rewrite <- !app_assoc. reflexivity.
  - intros es r x e Hl Hok Hne H. destruct r as [|b r]; [unfold cl', lastid in H; destruct es as [|e0 es _] using rev_ind; [congruence|]; rewrite lastopt_snoc in H; discriminate|]. cbn [length] in Hl.
    assert (Hcl : (if is 32 b then p_msg cm (oes es o) (P + len (elems_text es) + 1) r else if is 91 b then el cm (MElem (lastid es)) (oes es o) (P + len (elems_text es) + 1) r else PBad (Some (oes es o)) (PErr EStructuredData (P + len (elems_text es)))) = PBad x e).
    { rewrite <- H. unfold cl', lastid. destruct es as [|e0 es _] using rev_ind; [congruence|]. rewrite lastopt_snoc. reflexivity. }
    clear H. destruct (is 32 b) eqn:E1.
    + apply (is_lit 32 b " "%byte) in E1 as ->; [|reflexivity]. destruct Hok as [H1 H2]. eapply sdf_msg; [exact Hcl|apply sd_some; assumption| |unfold elems_text; lia].
      rewrite export_oes by exact Ho. destruct es; [congruence|]. reflexivity.
    + destruct (is 91 b) eqn:E2.
      * apply (is_lit 91 b "["%byte) in E2 as ->; [|reflexivity]. apply IHA; [lia|exact Hok|exact Hcl].
      * injection Hcl as <- <-. apply sdf_here with (sd := sd_value es); [|reflexivity|apply export_oes, Ho]. apply sf_after; [exact Hne|exact Hok|apply (is_neq 32); [reflexivity|exact E1]|apply (is_neq 91); [reflexivity|exact E2]].
Qed.

Lemma complete_sd cm o P rest x e : o_hasElements o = false -> p_sd cm o P rest = PBad x e -> SDF cm o P rest x e.
Proof.
  intros Ho H. unfold p_sd in H. destruct rest as [|b r]; [injection H as <- <-; apply (sdf_here cm o P [] [] None); [apply sf_start, nn_nil|rewrite len_nil; lia|symmetry; apply export_none, Ho]|].
  destruct (is 45 b) eqn:E1.
  - apply (is_lit 45 b "-"%byte) in E1 as ->; [|reflexivity]. destruct r as [|c r]; [discriminate|]. destruct (is 32 c) eqn:E2.
    + apply (is_lit 32 c " "%byte) in E2 as ->; [|reflexivity]. change ("-"%byte :: " "%byte :: r) with (lit "-" ++ " "%byte :: r). eapply sdf_msg; [exact H|apply sd_none|symmetry; apply export_none, Ho|]. change (lit "-") with ["-"%byte]. lens.
    + injection H as <- <-. change ("-"%byte :: c :: r) with (lit "-" ++ c :: r). apply sdf_here with (sd := None); [apply sf_nil, (is_neq 32); [reflexivity|exact E2]|change (lit "-") with ["-"%byte]; lens|symmetry; apply export_none, Ho].
  - destruct (is 91 b) eqn:E2.
    + apply (is_lit 91 b "["%byte) in E2 as ->; [|reflexivity]. rewrite el_fold in H. apply (proj1 (complete_elems cm o P Ho (length r)) [] r x e); [apply le_n|split; [constructor|constructor]|]. rewrite <- H. unfold lastid, lastopt. cbn [rev option_map oes]. f_equal. change (elems_text []) with (@nil byte). lens.
    + injection H as <- <-. apply (sdf_here cm o P [] (b :: r) None); [apply sf_start, nn_two_cons; [apply (is_neq 45); [reflexivity|exact E1]|apply (is_neq 91); [reflexivity|exact E2]]|rewrite len_nil; lia|symmetry; apply export_none, Ho].
Qed.

(* ---- PRI ---- *)
Lemma pri_cases s v : pri_text s v <-> v <= 191 /\ ((exists a, s = [a] /\ digit a /\ v = dv a) \/
  (exists a b, s = [a; b] /\ btw 49 57 (bN a) = true /\ digit b /\ v = 10 * dv a + dv b) \/
  (exists a b c, s = [a; b; c] /\ btw 49 57 (bN a) = true /\ digit b /\ digit c /\ v = 100 * dv a + 10 * dv b + dv c)).
Proof. apply plain_cases. lia. Qed.
Lemma digit_191 a : digit a -> dv a <= 191. Proof. unfold digit, dv. lia. Qed.
Lemma digit2_191 a b : digit a -> digit b -> 10 * dv a + dv b <= 191. Proof. unfold digit, dv. lia. Qed.
Lemma pri1 a : digit a -> pri_text [a] (dv a).
Proof. intros H. apply pri_cases. split; [apply digit_191, H|]. left. eauto. Qed.
Lemma btw_digit a : btw 49 57 (bN a) = true -> digit a. Proof. rewrite btw_prop. unfold digit. lia. Qed.
Lemma btw_48 a : btw 49 57 (bN a) = true -> is 48 a = false. Proof. rewrite btw_prop. unfold is. rewrite N.eqb_neq. lia. Qed.
Lemma digit_btw a : digit a -> is 48 a = false -> btw 49 57 (bN a) = true. Proof. rewrite btw_prop. unfold is, digit. rewrite N.eqb_neq. lia. Qed.
Lemma pri2 a b : btw 49 57 (bN a) = true -> digit b -> pri_text [a; b] (10 * dv a + dv b).
Proof. intros H1 H2. apply pri_cases. split; [apply digit2_191; [apply btw_digit, H1|exact H2]|]. right. left. exists a, b. auto. Qed.
Lemma prival_some l v n r : prival l = Some (v, n, r) <-> exists s, l = s ++ r /\ pri_text s v /\ n = len s /\ next_not (fun b => exists v', pri_text (s ++ [b]) v') r.
Proof.
  split.
  - intros H. unfold prival in H. destruct l as [|d1 r1]; [discriminate|]. destruct (is 48 d1) eqn:E1.
    { injection H as <- <- <-. apply (is_lit 48 d1 "0"%byte) in E1 as ->; [|reflexivity]. exists ["0"%byte]. split; [reflexivity|]. split; [apply (pri1 "0"%byte); unfold digit; change (bN "0") with 48%N; lia|]. split; [reflexivity|].
      intros b r E [v' Hv]. apply pri_cases in Hv as [_ [[a [Hx _]]|[[a [b' [Hx [Hy _]]]]|[a [b' [c [Hx _]]]]]]]; try discriminate. injection Hx as <- <-. discriminate. }
    destruct (btw 49 57 (bN d1)) eqn:E2; [|discriminate]. pose proof (btw_digit d1 E2) as D1. destruct r1 as [|d2 r2].
    { injection H as <- <- <-. exists [d1]. split; [reflexivity|]. split; [apply pri1, D1|]. split; [reflexivity|apply nn_nil]. }
    destruct (is_dig (bN d2)) eqn:E3.
    2: { injection H as <- <- <-. exists [d1]. split; [reflexivity|]. split; [apply pri1, D1|]. split; [reflexivity|]. apply nn_cons. intros [v' Hv].
         apply pri_cases in Hv as [_ [[a [Hx _]]|[[a [b' [Hx [_ [Hy _]]]]]|[a [b' [c [Hx _]]]]]]]; try discriminate. injection Hx as <- <-. apply digit_dig in Hy. congruence. }
    apply dig_digit in E3. pose proof (pri2 d1 d2 E2 E3) as H2. destruct r2 as [|d3 r3].
    { injection H as <- <- <-. exists [d1; d2]. split; [reflexivity|]. split; [exact H2|]. split; [reflexivity|apply nn_nil]. }
    destruct (is_dig (bN d3) && (100 * dv d1 + 10 * dv d2 + dv d3 <=? 191)) eqn:E4.
    + rewrite andb_true_iff, Z.leb_le in E4. destruct E4 as [E4 E5]. apply dig_digit in E4. injection H as <- <- <-. exists [d1; d2; d3]. split; [reflexivity|].
      split; [apply pri_cases; split; [exact E5|]; right; right; exists d1, d2, d3; auto|]. split; [reflexivity|].
      intros b r E [v' Hv]. apply pri_cases in Hv as [_ [[a [Hx _]]|[[a [b' [Hx _]]]|[a [b' [c [Hx _]]]]]]]; discriminate.
    + injection H as <- <- <-. exists [d1; d2]. split; [reflexivity|]. split; [exact H2|]. split; [reflexivity|]. apply nn_cons. intros [v' Hv].
      apply pri_cases in Hv as [Hv [[a [Hx _]]|[[a [b' [Hx _]]]|[a [b' [c [Hx [_ [_ [Hy Hz]]]]]]]]]]; try discriminate. injection Hx as <- <- <-. apply digit_dig in Hy. rewrite Hy in E4. cbn [andb] in E4. rewrite Z.leb_gt in E4. lia.
  - intros [s [-> [Hs [-> Hn]]]]. apply pri_cases in Hs as [Hv [[a [-> [Ha ->]]]|[[a [b [-> [Ha [Hb ->]]]]]|[a [b [c [-> [Ha [Hb [Hc ->]]]]]]]]]]; unfold prival; cbn [app].
    + destruct (is 48 a) eqn:E1; [apply (is_lit 48 a "0"%byte) in E1 as ->; reflexivity|]. pose proof (digit_btw a Ha E1) as E2. rewrite E2. destruct r as [|b r]; [reflexivity|].
      destruct (is_dig (bN b)) eqn:E3; [|reflexivity]. exfalso. apply (Hn b r eq_refl). eexists. apply pri2; [exact E2|apply dig_digit, E3].
    + rewrite (btw_48 a Ha), Ha, (proj1 (digit_dig b) Hb). destruct r as [|c r]; [reflexivity|]. destruct (is_dig (bN c) && (100 * dv a + 10 * dv b + dv c <=? 191)) eqn:E4; [|reflexivity].
      rewrite andb_true_iff, Z.leb_le in E4. destruct E4 as [E4 E5]. apply dig_digit in E4. exfalso. apply (Hn c r eq_refl). eexists. apply pri_cases. split; [exact E5|]. right. right. exists a, b, c. auto.
    + rewrite (btw_48 a Ha), Ha, (proj1 (digit_dig b) Hb), (proj1 (digit_dig c) Hc). apply Z.leb_le in Hv. rewrite Hv. reflexivity.
Qed.
Lemma prival_none l : prival l = None <-> next_not (fun b => exists v, pri_text ([] ++ [b]) v) l.
Proof.
  cbn [app]. destruct l as [|a l]; [split; [intros _; apply nn_nil|reflexivity]|]. rewrite nn_cons. unfold prival. destruct (is 48 a) eqn:E1.
  - split; [discriminate|]. intros H. exfalso. apply H. apply (is_lit 48 a "0"%byte) in E1 as ->; [|reflexivity]. eexists. apply pri1. unfold digit; change (bN "0") with 48%N; lia.
  - destruct (btw 49 57 (bN a)) eqn:E2.
    + split; [destruct l as [|b [|c l]]; try destruct (is_dig (bN b)); try destruct (is_dig (bN c) && _); discriminate|]. intros H. exfalso. apply H. eexists. apply pri1, btw_digit, E2.
    + split; [intros _ [v Hv]|reflexivity]. apply pri_cases in Hv as [_ [[a' [Hx [Hy _]]]|[[a' [b' [Hx _]]]|[a' [b' [c [Hx _]]]]]]]; try discriminate. injection Hx as <-. rewrite (digit_btw a Hy E1) in E2. discriminate.
Qed.

(* ---- the stages after PRI VERSION ---- *)
Definition fld_of (i : nat) : fld := nth i flds FHost.
Definition stagen (cm : bool) (n : nat) : stage := match n with O => p_ts (chain cm flds) | S i => chain cm (skipn i flds) end.
Lemma stagen_word cm i : (i < 4)%nat -> stagen cm (1 + i) = p_word (fld_of i) (stagen cm (2 + i)).
Proof. intros H. unfold stagen, chain, flds, fld_of. destruct i as [|[|[|[|i]]]]; [cbn [Nat.add skipn nth flds fold_right]; exact eq_refl..|lia]. Qed.
Lemma fld_max i : (i < 4)%nat -> N.to_nat (fmax (fld_of i)) = word_max i /\ ferr (fld_of i) = word_error i.
Proof. intros H. destruct i as [|[|[|[|i]]]]; [split; reflexivity..|lia]. Qed.
Lemma export_word i w o : (i < 4)%nat -> word (word_max i) w -> export (set_word (fld_of i) w o) = set_field i (word_value w) (export o).
Proof. intros H Hw. rewrite <- (opt_word _ w Hw). destruct i as [|[|[|[|i]]]]; [reflexivity..|lia]. Qed.
Definition okst (n : nat) (o : msg5424) (m : message) : Prop := o_hasElements o = false /\ (n = 0%nat -> o_timestampSet o = false) /\ export o = m.
Lemma okst_ts o m t : okst 0 o m -> okst 1 (put_ts t o) (set_timestamp t m).
Proof. intros [H1 [H2 <-]]. specialize (H2 eq_refl). destruct o. cbn in *. subst. destruct t; split; try reflexivity; (split; [discriminate|reflexivity]). Qed.
Lemma okst_word i o m w : (i < 4)%nat -> word (word_max i) w -> okst (1 + i) o m -> okst (2 + i) (set_word (fld_of i) w o) (set_field i (word_value w) m).
Proof. intros Hi Hw [H1 [H2 <-]]. split; [destruct i as [|[|[|[|i]]]]; [exact H1..|lia]|]. split; [discriminate|]. apply export_word; assumption. Qed.
Lemma okst_start p v : okst 0 (set_ver v (pri_msg p)) (start p v). Proof. split; [reflexivity|]. split; reflexivity. Qed.
Lemma header_fwd pre m n : header pre m n -> exists o, okst n o m /\ forall cm rest, spec5424 cm (pre ++ rest) = stagen cm n o (col pre) rest.
Proof.
  induction 1 as [pri p ver v H1 H2|pre m ts t H IH Ht|i pre m w Hi H IH Hw].
  - exists (set_ver v (pri_msg p)). split; [apply okst_start|]. intros cm rest. change (lit "<") with ["<"%byte]. change (lit ">") with [">"%byte]. change (lit " ") with [" "%byte]. cbn [app]. rewrite <- !app_assoc. cbn [app]. rewrite <- app_assoc. cbn [app].
    unfold spec5424. destruct (p_pri_cont (p_header cm) (p_header cm) _ pri p (ver ++ " "%byte :: rest) eq_refl H1) as [-> _].
    unfold p_header. rewrite (p_version_cont _ _ _ _ v) by assumption. unfold stagen. f_equal. change col with len. lens.
  - destruct IH as [o [Hok IH]]. exists (put_ts t o). split; [apply okst_ts, Hok|]. intros cm rest. change (lit " ") with [" "%byte]. rewrite <- !app_assoc. cbn [app]. rewrite IH. cbn [stagen]. rewrite (p_ts_cont _ _ _ _ t) by assumption. cbn [skipn]. f_equal. change col with len. lens.
  - destruct IH as [o [Hok IH]]. exists (set_word (fld_of i) w o). split; [apply okst_word; assumption|]. intros cm rest. change (lit " ") with [" "%byte]. rewrite <- !app_assoc. cbn [app]. rewrite IH, (stagen_word cm i Hi).
    rewrite p_word_cont by (rewrite (proj1 (fld_max i Hi)); exact Hw). f_equal. change col with len. lens.
Qed.

(* ---- completeness ---- *)
Definition Cmp (cm : bool) (n : nat) : Prop := forall pre m o rest x e, header pre m n -> okst n o m -> stagen cm n o (col pre) rest = PBad x e ->
  exists y, x = Some y /\ fails cm (pre ++ rest) (Some (export y)) e.
Lemma cmp_sd cm : Cmp cm 5.
Proof.
  intros pre m o rest x e Hh [H1 [_ <-]] H. change (stagen cm 5) with (p_sd cm) in H. apply complete_sd in H; [|exact H1]. destruct H as [y [-> H]]. exists y. split; [reflexivity|].
  destruct H as [[good [bad [sd [k [-> [Hf [-> ->]]]]]]]|[-> [sd [s [u [part [bad [-> [Hs [Hu [Hc [-> ->]]]]]]]]]]]].
  - replace (col pre + len good) with (col (pre ++ good)) by (change col with len; lens). apply fl_sd; assumption.
  - replace (col pre + len (sd ++ lit " " ++ BOM ++ u ++ part)) with (col (pre ++ sd ++ lit " " ++ BOM ++ u ++ part)) by (change col with len; rewrite (len_app pre); reflexivity). eapply fl_msg; try assumption. reflexivity.
Qed.
Lemma cmp_word cm i : (i < 4)%nat -> Cmp cm (2 + i) -> Cmp cm (1 + i).
Proof.
  intros Hi IH pre m o rest x e Hh Hok H. rewrite (stagen_word cm i Hi) in H. unfold p_word in H. destruct (fld_max i Hi) as [E1 E2]. rewrite E1, E2 in H.
  destruct (span_max is_graph (word_max i) rest) as [w r] eqn:Es. apply span_graph in Es as [-> Hl].
  assert (B : w = [] \/ next_not (eq " "%byte) r -> exists y, Some o = Some y /\ fails cm (pre ++ w ++ r) (Some (export y)) (PErr (word_error i) (col pre + len w))).
  { intros Hn. exists o. split; [reflexivity|]. destruct Hok as [_ [_ ->]]. replace (col pre + len w) with (col (pre ++ w)) by (change col with len; lens). apply fl_word; assumption. }
  destruct w as [|a w]; [injection H as <- <-; apply B; left; reflexivity|]. set (W := a :: w) in *.
  destruct r as [|b r]; [injection H as <- <-; apply B; right; apply nn_nil|]. destruct (is 32 b) eqn:E3.
  - apply (is_lit 32 b " "%byte) in E3 as ->; [|reflexivity]. assert (Hw : word (word_max i) W) by (destruct Hl as [L1 [L2 _]]; split; [split; [cbn; lia|exact L2]|exact L1]).
    assert (Ep : col pre + len W + 1 = col (pre ++ W ++ lit " ")) by (change col with len; change (lit " ") with [" "%byte]; lens). rewrite Ep in H.
    replace (pre ++ W ++ " "%byte :: r) with ((pre ++ W ++ lit " ") ++ r) by (rewrite <- !app_assoc; reflexivity).
    eapply IH; [apply h_word; eassumption|apply okst_word; eassumption|exact H].
  - injection H as <- <-. apply B. right. apply (nn_is 32); [reflexivity|]. intros b0 r0 Hx. injection Hx as <- <-. exact E3.
Qed.
Lemma digit_nn b r : is_dig (bN b) = false -> next_not digit (b :: r).
Proof. intros H. apply nn_cons. intros Hd. apply digit_dig in Hd. congruence. Qed.
Lemma cmp_ts cm : Cmp cm 1 -> Cmp cm 0.
Proof.
  intros IH pre m o rest x e Hh Hok H. cbn [stagen] in H. unfold p_ts in H.
  assert (Hend : forall s t r, ts_field s t -> next_not (eq " "%byte) r -> exists y, Some (put_ts t o) = Some y /\ fails cm (pre ++ s ++ r) (Some (export y)) (PErr EParse (col pre + len s))).
  { intros s t r Hs Hn. eexists. split; [reflexivity|]. destruct (okst_ts o m t Hok) as [_ [_ ->]]. replace (col pre + len s) with (col (pre ++ s)) by (change col with len; lens). apply fl_ts_end; assumption. }
  assert (Hgo : forall s t r, ts_field s t -> chain cm flds (put_ts t o) (col pre + len s + 1) r = PBad x e -> exists y, x = Some y /\ fails cm (pre ++ s ++ " "%byte :: r) (Some (export y)) e).
  { intros s t r Hs Hx. replace (pre ++ s ++ " "%byte :: r) with ((pre ++ s ++ lit " ") ++ r) by (rewrite <- !app_assoc; reflexivity).
    replace (col pre + len s + 1) with (col (pre ++ s ++ lit " ")) in Hx by (change col with len; change (lit " ") with [" "%byte]; lens).
    eapply IH; [apply h_ts; eassumption|apply okst_ts; eassumption|exact Hx]. }
  assert (Hstuck : forall part bad, stuck_ts part bad -> part <> [] \/ next_not (eq "-"%byte) bad -> exists y, Some o = Some y /\ fails cm (pre ++ part ++ bad) (Some (export y)) (PErr ETimestamp (col pre + len part))).
  { intros part bad Hs Hn. eexists. split; [reflexivity|]. destruct Hok as [_ [_ ->]]. replace (col pre + len part) with (col (pre ++ part)) by (change col with len; lens). apply fl_ts; assumption. }
  destruct rest as [|b r]; [injection H as <- <-; replace (col pre) with (col pre + len []) by (rewrite len_nil; lia); apply (Hstuck [] []); [apply stuck_ts_nil, nn_nil|right; apply nn_nil]|].
  destruct (is 45 b) eqn:E1.
  - apply (is_lit 45 b "-"%byte) in E1 as ->; [|reflexivity]. assert (Hf : ts_field (lit "-") None) by (left; auto).
    destruct r as [|c r]; [injection H as <- <-; exact (Hend (lit "-") None [] Hf (nn_nil _))|]. destruct (is 32 c) eqn:E2.
    + apply (is_lit 32 c " "%byte) in E2 as ->; [|reflexivity]. apply (Hgo (lit "-") None r Hf). rewrite <- H. cbn [put_ts]. f_equal. change (len (lit "-")) with 1. lia.
    + injection H as <- <-. apply (Hend (lit "-") None (c :: r) Hf). apply (nn_is 32); [reflexivity|]. intros b0 r0 Hx. injection Hx as <- <-. exact E2.
  - destruct (is_dig (bN b)) eqn:E2.
    2: { injection H as <- <-. replace (col pre) with (col pre + len []) by (rewrite len_nil; lia). apply (Hstuck [] (b :: r)); [apply stuck_ts_nil, digit_nn, E2|right]. apply (nn_is 45); [reflexivity|]. intros b0 r0 Hx. injection Hx as <- <-. exact E1. }
    apply dig_digit in E2. destruct (ts_scan 554 r) as [w te] eqn:Es. cbv zeta in H. destruct te as [r'|].
    + pose proof Es as Es'. apply ts_scan_run in Es' as [-> [Hw Hr]]. assert (Hform : ts_form (b :: w)) by (apply form_run; auto).
      destruct (parse_rfc3339 (b :: w)) as [t|] eqn:Et.
      * assert (Hts : ts_text (b :: w) t). { destruct (proj1 (ts_accept b (w ++ r') r' t)) as [s [E Hs]]; [exists w; split; [apply digit_dig, E2|auto]|]. change (b :: w ++ r') with ((b :: w) ++ r') in E. apply app_inv_tail in E as <-. exact Hs. }
        assert (Hf : ts_field (b :: w) (Some t)) by (right; eauto). destruct r' as [|c r2]; [injection H as <- <-; exact (Hend (b :: w) (Some t) [] Hf (nn_nil _))|]. destruct (is 32 c) eqn:E3.
        -- apply (is_lit 32 c " "%byte) in E3 as ->; [|reflexivity]. exact (Hgo (b :: w) (Some t) r2 Hf H).
        -- injection H as <- <-. apply (Hend (b :: w) (Some t) (c :: r2) Hf). apply (nn_is 32); [reflexivity|]. intros b0 r0 Hx. injection Hx as <- <-. exact E3.
      * injection H as <- <-. eexists. split; [reflexivity|]. destruct Hok as [_ [_ ->]]. replace (col pre + len (b :: w)) with (col (pre ++ b :: w)) by (change col with len; lens). apply (fl_date cm pre m (b :: w) r' Hh Hform).
        intros t Ht. destruct (proj2 (ts_accept b (w ++ r') r' t)) as [w' [_ [Es' Et']]]; [exists (b :: w); auto|]. rewrite Es in Es'. injection Es' as <-. congruence.
    + apply scan_ts_bad in Es as [bad [ms [-> [Hm [Hr Hn]]]]]; [|left; reflexivity]. injection H as <- <-. apply (Hstuck (b :: w) bad); [|left; discriminate]. apply stuck_ts_cons. split; [exact E2|]. exists ms. auto.
Qed.
Lemma cmp_all cm : Cmp cm 0.
Proof. apply cmp_ts, (cmp_word cm 0), (cmp_word cm 1), (cmp_word cm 2), (cmp_word cm 3), cmp_sd; lia. Qed.

(* ---- PRI VERSION ---- *)
Lemma dv_pos a : digit a -> 0 <= dv a <= 9. Proof. unfold digit, dv. lia. Qed.
Lemma div_10 x d : 0 <= d <= 9 -> (10 * x + d) / 10 = x.
Proof. intros H. replace (10 * x + d) with (d + x * 10) by lia. rewrite Z.div_add by lia. rewrite Z.div_small by lia. lia. Qed.
Lemma div_100 a b c : digit c -> (100 * dv a + 10 * dv b + dv c) / 10 = 10 * dv a + dv b.
Proof. intros H. replace (100 * dv a + 10 * dv b + dv c) with (10 * (10 * dv a + dv b) + dv c) by lia. apply div_10, dv_pos, H. Qed.
Lemma digit_not32 b : digit b -> is 32 b = false. Proof. unfold digit, is. rewrite N.eqb_neq. lia. Qed.
Lemma nodig_longest ver bad : Forall digit ver -> (length ver <= 3)%nat -> (length ver = 3%nat \/ next_not digit bad) -> longest digit 3 ver bad.
Proof. intros H1 H2 H3. split; [exact H1|]. split; assumption. Qed.
Lemma cmp_version cm pri p rest x e : pri_text pri p -> p_version (stagen cm 0) (pri_msg p) (len pri + 2) rest = PBad x e ->
  fails cm (lit "<" ++ pri ++ lit ">" ++ rest) (option_map export x) e.
Proof.
  intros Hp H. assert (Hpre : forall s, col (lit "<" ++ pri ++ lit ">" ++ s) = len pri + 2 + len s) by (intros s; change col with len; change (lit "<") with ["<"%byte]; change (lit ">") with [">"%byte]; lens).
  assert (Hnone : next_not (fun b => digit b /\ b <> "0"%byte) rest -> fails cm (lit "<" ++ pri ++ lit ">" ++ rest) None (PErr EVersion (len pri + 2))).
  { intros Hn. specialize (Hpre []). rewrite app_nil_r, len_nil, Z.add_0_r in Hpre. rewrite <- Hpre. eapply fl_no_version; eassumption. }
  assert (Hver : forall ver v bad, version_text ver v -> longest digit 3 ver bad -> next_not (eq " "%byte) bad -> rest = ver ++ bad ->
    fails cm (lit "<" ++ pri ++ lit ">" ++ rest) (Some (start p (match bad, ver with [], _ :: _ :: _ => v / 10 | _, _ => v end))) (PErr (match ver with _ :: _ :: _ => EVersion | _ => EParse end) (len pri + 2 + len ver))).
  { intros ver v bad H1 H2 H3 ->. rewrite <- (Hpre ver). apply fl_version; assumption. }
  assert (Hgo : forall ver v r, version_text ver v -> rest = ver ++ " "%byte :: r -> stagen cm 0 (set_ver v (pri_msg p)) (len pri + 2 + len ver + 1) r = PBad x e -> fails cm (lit "<" ++ pri ++ lit ">" ++ rest) (option_map export x) e).
  { intros ver v r H1 -> H2. replace (lit "<" ++ pri ++ lit ">" ++ ver ++ " "%byte :: r) with ((lit "<" ++ pri ++ lit ">" ++ ver ++ lit " ") ++ r) by (rewrite <- !app_assoc; reflexivity).
    replace (len pri + 2 + len ver + 1) with (col (lit "<" ++ pri ++ lit ">" ++ ver ++ lit " ")) in H2 by (rewrite Hpre; change (lit " ") with [" "%byte]; lens).
    destruct (cmp_all cm _ _ _ r x e (h_version pri p ver v Hp H1) (okst_start p v) H2) as [y [-> Hy]]. exact Hy. }
  assert (Hn32 : forall b r, is 32 b = false -> next_not (eq " "%byte) (b :: r)) by (intros b r Hb; apply (nn_is 32); [reflexivity|]; intros b0 r0 Hx; injection Hx as <- <-; exact Hb).
  unfold p_version in H. destruct rest as [|d1 r1]; [injection H as <- <-; apply Hnone, nn_nil|]. destruct (btw 49 57 (bN d1)) eqn:E1.
  2: { injection H as <- <-. apply Hnone, nn_cons. intros [Hd Hz]. rewrite (digit_btw d1 Hd) in E1; [discriminate|]. apply (is_neq 48 "0"%byte); [reflexivity|exact Hz]. }
  pose proof (btw_digit d1 E1) as D1. assert (V1 : version_text [d1] (dv d1)) by (apply version_cases; left; eauto).
  destruct r1 as [|d2 r2]; [injection H as <- <-; apply (Hver [d1] (dv d1) [] V1); [apply nodig_longest; [auto|cbn; lia|right; apply nn_nil]|apply nn_nil|reflexivity]|].
  destruct (is 32 d2) eqn:E2; [apply (is_lit 32 d2 " "%byte) in E2 as ->; [|reflexivity]; apply (Hgo [d1] (dv d1) r2 V1 eq_refl); rewrite <- H; f_equal; change (len [d1]) with 1; lia|].
  destruct (is_dig (bN d2)) eqn:E3; [|injection H as <- <-; apply (Hver [d1] (dv d1) (d2 :: r2) V1); [apply nodig_longest; [auto|cbn; lia|right; apply digit_nn, E3]|apply Hn32, E2|reflexivity]].
  apply dig_digit in E3. assert (V2 : version_text [d1; d2] (10 * dv d1 + dv d2)) by (apply version_cases; right; left; exists d1, d2; auto). pose proof (div_10 (dv d1) (dv d2) (dv_pos d2 E3)) as Q2.
  destruct r2 as [|d3 r3].
  { injection H as <- <-. pose proof (Hver [d1; d2] (10 * dv d1 + dv d2) [] V2) as Hx. rewrite Q2 in Hx. apply Hx; [apply nodig_longest; [auto|cbn; lia|right; apply nn_nil]|apply nn_nil|reflexivity]. }
  destruct (is 32 d3) eqn:E4; [apply (is_lit 32 d3 " "%byte) in E4 as ->; [|reflexivity]; apply (Hgo [d1; d2] (10 * dv d1 + dv d2) r3 V2 eq_refl); rewrite <- H; f_equal; change (len [d1; d2]) with 2; lia|].
  destruct (is_dig (bN d3)) eqn:E5; [|injection H as <- <-; apply (Hver [d1; d2] (10 * dv d1 + dv d2) (d3 :: r3) V2); [apply nodig_longest; [auto|cbn; lia|right; apply digit_nn, E5]|apply Hn32, E4|reflexivity]].
  apply dig_digit in E5. assert (V3 : version_text [d1; d2; d3] (100 * dv d1 + 10 * dv d2 + dv d3)) by (apply version_cases; right; right; exists d1, d2, d3; auto). pose proof (div_100 d1 d2 d3 E5) as Q3.
  destruct r3 as [|c r4].
  { injection H as <- <-. pose proof (Hver [d1; d2; d3] (100 * dv d1 + 10 * dv d2 + dv d3) [] V3) as Hx. rewrite Q3 in Hx. apply Hx; [apply nodig_longest; [auto|cbn; lia|left; reflexivity]|apply nn_nil|reflexivity]. }
  destruct (is 32 c) eqn:E6; [apply (is_lit 32 c " "%byte) in E6 as ->; [|reflexivity]; apply (Hgo [d1; d2; d3] (100 * dv d1 + 10 * dv d2 + dv d3) r4 V3 eq_refl); rewrite <- H; f_equal; change (len [d1; d2; d3]) with 3; lia|].
  injection H as <- <-. apply (Hver [d1; d2; d3] (100 * dv d1 + 10 * dv d2 + dv d3) (c :: r4) V3); [apply nodig_longest; [auto|cbn; lia|left; reflexivity]|apply Hn32, E6|reflexivity].
Qed.
Lemma fails_complete cm data x e : spec5424 cm data = PBad x e -> fails cm data (option_map export x) e.
Proof.
  unfold spec5424, p_pri. intros H. destruct data as [|b r]; [injection H as <- <-; apply fl_pri, nn_nil|]. destruct (is 60 b) eqn:E1.
  2: { injection H as <- <-. apply fl_pri. apply (nn_is 60); [reflexivity|]. intros b0 r0 Hx. injection Hx as <- <-. exact E1. }
  apply (is_lit 60 b "<"%byte) in E1 as ->; [|reflexivity]. destruct (prival r) as [[[v n] r']|] eqn:Ep.
  2: { injection H as <- <-. apply prival_none in Ep. apply (fl_prival cm [] r); [left; reflexivity|exact Ep]. }
  apply prival_some in Ep as [s [-> [Hs [-> Hn]]]].
  assert (B : next_not (eq ">"%byte) r' -> fails cm (lit "<" ++ s ++ r') None (PErr EPrival (len s + 1))).
  { intros Hx. rewrite Z.add_comm. apply (fl_prival cm s r'); [right; split; [eauto|exact Hx]|exact Hn]. }
  destruct r' as [|c r2]; [injection H as <- <-; apply B, nn_nil|]. destruct (is 62 c) eqn:E2.
  - apply (is_lit 62 c ">"%byte) in E2 as ->; [|reflexivity]. apply (cmp_version cm s v r2 x e Hs H).
  - injection H as <- <-. apply B. apply (nn_is 62); [reflexivity|]. intros b0 r0 Hx. injection Hx as <- <-. exact E2.
Qed.

(* ---- soundness ---- *)
Lemma header_sound cm pre m n rest x e : header pre m n -> (forall o, okst n o m -> exists y, stagen cm n o (col pre) rest = PBad (Some y) e /\ export y = x) ->
  exists z, spec5424 cm (pre ++ rest) = PBad z e /\ option_map export z = Some x.
Proof. intros H Hs. destruct (header_fwd pre m n H) as [o [Ho E]]. rewrite E. destruct (Hs o Ho) as [y [-> <-]]. exists (Some y). auto. Qed.
Lemma version_sound cm pri p ver v bad : pri_text pri p -> version_text ver v -> longest digit 3 ver bad -> next_not (eq " "%byte) bad ->
  exists y, p_version (stagen cm 0) (pri_msg p) (len pri + 2) (ver ++ bad) = PBad (Some y) (PErr (match ver with _ :: _ :: _ => EVersion | _ => EParse end) (len pri + 2 + len ver))
   /\ export y = start p (match bad, ver with [], _ :: _ :: _ => v / 10 | _, _ => v end).
Proof.
  intros Hp Hv [_ [_ Hl]] Hn. rewrite (nn_is 32 " "%byte bad eq_refl) in Hn. apply version_cases in Hv.
  destruct Hv as [[a [-> [Ha ->]]]|[[a [b [-> [Ha [Hb ->]]]]]|[a [b [c [-> [Ha [Hb [Hc ->]]]]]]]]]; unfold p_version; cbn [app]; rewrite Ha.
  - destruct Hl as [Hl|Hl]; [discriminate|]. exists (set_ver (dv a) (pri_msg p)). destruct bad as [|b r]; [split; reflexivity|]. rewrite (Hn b r eq_refl).
    destruct (is_dig (bN b)) eqn:E; [exfalso; apply (Hl b r eq_refl), dig_digit, E|]. split; reflexivity.
  - destruct Hl as [Hl|Hl]; [discriminate|]. rewrite (digit_not32 b Hb), (proj1 (digit_dig b) Hb). destruct bad as [|c r]; [exists (set_ver (dv a) (pri_msg p)); rewrite (div_10 _ _ (dv_pos b Hb)); split; reflexivity|]. rewrite (Hn c r eq_refl).
    destruct (is_dig (bN c)) eqn:E; [exfalso; apply (Hl c r eq_refl), dig_digit, E|]. eexists. split; reflexivity.
  - rewrite (digit_not32 b Hb), (proj1 (digit_dig b) Hb), (digit_not32 c Hc), (proj1 (digit_dig c) Hc).
    destruct bad as [|d r]; [exists (set_ver (10 * dv a + dv b) (pri_msg p)); rewrite (div_100 a b c Hc); split; reflexivity|]. rewrite (Hn d r eq_refl). eexists. split; reflexivity.
Qed.
Lemma fails_sound cm data x e : fails cm data x e -> exists z, spec5424 cm data = PBad z e /\ option_map export z = x.
Proof.
  intros [bad H|w bad Hw Hn|pri p bad Hp Hn|pri p ver v bad Hp Hv Hl Hn|pre m part bad Hh Hs Hn|pre m s bad Hh Hf Hn|pre m s t bad Hh Hs Hn|i pre m w bad Hi Hh Hl Hn|pre m good bad sd k Hh Hf|pre m sd s u part bad -> Hh Hs Hu Hc].
  - exists None. split; [|reflexivity]. rewrite (nn_is 60 "<"%byte bad eq_refl) in H. unfold spec5424, p_pri. destruct bad as [|b r]; [reflexivity|]. rewrite (H b r eq_refl). reflexivity.
  - exists None. split; [|reflexivity]. change (lit "<") with ["<"%byte]. cbn [app]. unfold spec5424, p_pri. change (is 60 "<") with true. cbv iota. destruct w as [|a w].
    + cbn [app] in *. rewrite (proj2 (prival_none bad) Hn). reflexivity.
    + set (W := a :: w) in *. destruct Hw as [Hw|[[v Hw] Hg]]; [discriminate|]. rewrite (proj2 (prival_some (W ++ bad) v (len W) bad)) by (exists W; auto). rewrite (nn_is 62 ">"%byte bad eq_refl) in Hg.
      change (col W) with (len W). destruct bad as [|c r]; [|rewrite (Hg c r eq_refl)]; f_equal; f_equal; lia.
  - exists None. split; [|reflexivity]. change (lit "<") with ["<"%byte]. change (lit ">") with [">"%byte]. cbn [app]. unfold spec5424. destruct (p_pri_cont (p_header cm) (p_header cm) _ pri p bad eq_refl Hp) as [-> _]. unfold p_header, p_version.
    assert (Ec : col ("<"%byte :: pri ++ [">"%byte]) = len pri + 2) by (change col with len; lens). rewrite Ec. destruct bad as [|d r]; [reflexivity|]. apply nn_cons in Hn. destruct (btw 49 57 (bN d)) eqn:E; [|reflexivity].
    exfalso. apply Hn. split; [apply btw_digit, E|]. apply (is_neq 48 "0"%byte d eq_refl), btw_48, E.
  - change (lit "<") with ["<"%byte]. change (lit ">") with [">"%byte]. cbn [app]. unfold spec5424. destruct (p_pri_cont (p_header cm) (p_header cm) _ pri p (ver ++ bad) eq_refl Hp) as [-> _]. unfold p_header. change (p_ts _) with (stagen cm 0).
    destruct (version_sound cm pri p ver v bad Hp Hv Hl Hn) as [y [Ey <-]]. exists (Some y). split; [|reflexivity]. rewrite Ey. f_equal. f_equal. change col with len. lens.
  - eapply header_sound; [exact Hh|]. intros o [H1 [H2 <-]]. exists o. split; [|reflexivity]. cbn [stagen]. unfold p_ts. destruct part as [|a part].
    + destruct Hn as [Hn|Hn]; [congruence|]. cbn [app]. rewrite app_nil_r. apply stuck_ts_nil in Hs. rewrite (nn_is 45 "-"%byte bad eq_refl) in Hn. destruct bad as [|b r]; [reflexivity|]. rewrite (Hn b r eq_refl).
      apply nn_cons in Hs. destruct (is_dig (bN b)) eqn:E; [exfalso; apply Hs, dig_digit, E|]. reflexivity.
    + apply stuck_ts_cons in Hs as [Ha [ms [Hm [Hr Hx]]]]. cbn [app]. replace (is 45 a) with false by (symmetry; unfold is; apply N.eqb_neq; unfold digit in Ha; lia). rewrite (proj1 (digit_dig a) Ha).
      rewrite (scan_ts_stuck part bad 554 ms) by (assumption || (left; reflexivity)). cbv zeta iota beta. f_equal. f_equal. change col with len. lens.
  - eapply header_sound; [exact Hh|]. intros o [H1 [H2 <-]]. exists o. split; [|reflexivity]. cbn [stagen]. unfold p_ts. destruct s as [|a w]; [apply form_shape in Hf as [t Hf]; destruct (shape_run _ _ Hf) as [a [w [Hx _]]]; discriminate|].
    apply form_run in Hf as [Ha [Hw Hr]]. cbn [app]. replace (is 45 a) with false by (symmetry; unfold is; apply N.eqb_neq; unfold digit in Ha; lia). rewrite (proj1 (digit_dig a) Ha).
    assert (Es : ts_scan 554 (w ++ bad) = (w, TSDone bad)) by (apply ts_scan_run; auto). rewrite Es. cbv zeta iota beta. destruct (parse_rfc3339 (a :: w)) as [t|] eqn:Et.
    { exfalso. destruct (proj1 (ts_accept a (w ++ bad) bad t)) as [s [E Hs]]; [exists w; split; [apply digit_dig, Ha|auto]|]. change (a :: w ++ bad) with ((a :: w) ++ bad) in E. apply app_inv_tail in E as <-. exact (Hn t Hs). }
    f_equal. f_equal. change col with len. lens.
  - eapply header_sound; [exact Hh|]. intros o Hok. exists (put_ts t o). split; [|apply (okst_ts o m t Hok)]. cbn [stagen]. rewrite (nn_is 32 " "%byte bad eq_refl) in Hn. unfold p_ts. destruct Hs as [[-> ->]|[t' [-> Hs]]].
    + change (lit "-") with ["-"%byte]. cbn [app]. change (is 45 "-") with true. cbv iota. assert (Ec : col (pre ++ ["-"%byte]) = col pre + 1) by (change col with len; lens). rewrite Ec. destruct bad as [|c r]; [reflexivity|]. rewrite (Hn c r eq_refl). reflexivity.
    + destruct (ts_text_head s t' Hs) as [a [w [-> Ha]]]. destruct (proj2 (ts_accept a (w ++ bad) bad t')) as [w' [_ [Es Et]]]; [exists (a :: w); auto|].
      pose proof Es as Es'. apply ts_scan_run in Es' as [Er _]. apply app_inv_tail in Er. subst w'. cbn [app]. replace (is 45 a) with false by (symmetry; unfold is; apply N.eqb_neq; apply btw_prop in Ha; lia).
      rewrite Ha, Es. cbv zeta iota beta. rewrite Et. assert (Ec : col (pre ++ a :: w) = col pre + len (a :: w)) by (change col with len; lens). rewrite Ec. destruct bad as [|c r]; [reflexivity|]. rewrite (Hn c r eq_refl). reflexivity.
  - eapply header_sound; [exact Hh|]. intros o [_ [_ <-]]. exists o. split; [|reflexivity]. rewrite (stagen_word cm i Hi). unfold p_word. destruct (fld_max i Hi) as [-> ->]. rewrite (proj2 (span_graph (word_max i) (w ++ bad) w bad)) by auto.
    assert (Ec : col (pre ++ w) = col pre + len w) by (change col with len; lens). rewrite Ec. destruct w as [|a w]; [reflexivity|]. destruct Hn as [Hn|Hn]; [discriminate|]. rewrite (nn_is 32 " "%byte bad eq_refl) in Hn. destruct bad as [|c r]; [reflexivity|]. rewrite (Hn c r eq_refl). reflexivity.
  - eapply header_sound; [exact Hh|]. intros o [Ho [_ <-]]. change (stagen cm 5) with (p_sd cm). assert (Ec : col (pre ++ good) = col pre + len good) by (change col with len; lens). rewrite Ec. apply sound_sd; assumption.
  - eapply header_sound; [exact Hh|]. intros o [Ho [_ <-]]. change (stagen true 5) with (p_sd true).
    assert (Hm : forall o' P, p_msg true o' P (BOM ++ u ++ part ++ bad) = PBad (Some (set_o_message (BOM ++ u ++ part) o')) (PErr EMsgNotCompliant (P + len (BOM ++ u ++ part)))) by (intros o' P; apply msg_bad; split; [reflexivity|]; exists u, part, bad; auto 7).
    assert (Ec : col (pre ++ sd ++ lit " " ++ BOM ++ u ++ part) = col pre + len sd + 1 + len (BOM ++ u ++ part)) by (change col with len; change (lit " ") with [" "%byte]; lens). rewrite Ec.
    destruct Hs as [|es Hne Hok Hnd].
    + exists (set_o_message (BOM ++ u ++ part) o). rewrite export_msg, export_none by (discriminate || exact Ho). split; [|reflexivity]. change (lit "-" ++ lit " " ++ BOM ++ u ++ part ++ bad) with ("-"%byte :: " "%byte :: BOM ++ u ++ part ++ bad). unfold p_sd. change (is 45 "-") with true. change (is 32 " ") with true. cbv iota.
      rewrite Hm. f_equal. f_equal. change (len (lit "-")) with 1. lia.
    + exists (set_o_message (BOM ++ u ++ part) (oes es o)). rewrite export_msg, export_oes by (discriminate || exact Ho). split; [|destruct es; [congruence|reflexivity]].
      change (lit " " ++ BOM ++ u ++ part ++ bad) with (" "%byte :: BOM ++ u ++ part ++ bad). change (concat (map elem_text es)) with (elems_text es). rewrite fwd_elems by (assumption || (split; assumption)). destruct es as [|e0 es _] using rev_ind; [congruence|]. unfold cl', lastid. rewrite lastopt_snoc. cbn [option_map]. unfold cl. change (is 32 " ") with true. cbv iota.
      rewrite Hm. reflexivity.
Qed.

(* C54: Parse rejects data with the error e, next to the message x, exactly when data fails as Fail5424 says *)
Theorem parse_fails m data x e : snd (parse m data) = Ret x (Some e) <-> exists y, fails (compliant m) data y e /\ x = (if bestEffort m then y else None).
Proof.
  rewrite (proj1 (parse_spec m data)). split.
  - intros H. destruct (spec5424 (compliant m) data) as [o|y e'] eqn:E; [discriminate|]. exists (option_map export y).
    assert (Hx : x = (if bestEffort m then option_map export y else None) /\ e' = e) by (destruct y; cbn [ret_of option_map] in *; destruct (bestEffort m); injection H as <- <-; auto).
    destruct Hx as [-> ->]. split; [apply fails_complete, E|reflexivity].
  - intros [y [H ->]]. apply fails_sound in H as [z [-> <-]]. destruct z as [o|]; cbn [ret_of option_map]; destruct (bestEffort m); reflexivity.
Qed.

Lemma exists_spec_grammar cm data : (exists o, spec5424 cm data = PGood o) <-> exists m, grammar cm data m.
Proof. split; [intros [o H]; exists (export o); apply spec_grammar; eauto|intros [m H]; apply spec_grammar in H as [o [H _]]; eauto]. Qed.
(* an input is either in the grammar or fails, and it fails in one way only *)
Theorem fails_or_accepted cm data : (exists m, grammar cm data m) <-> ~ exists x e, fails cm data x e.
Proof.
  rewrite <- (exists_spec_grammar cm data). split.
  - intros [o E] [x [e H]]. apply fails_sound in H as [z [H _]]. congruence.
  - intros H. destruct (spec5424 cm data) as [o|x e] eqn:E; [eauto|]. exfalso. apply H. do 2 eexists. apply fails_complete, E.
Qed.
Theorem fails_unique cm data x e x' e' : fails cm data x e -> fails cm data x' e' -> x = x' /\ e = e'.
Proof. intros H H'. apply fails_sound in H as [z [H <-]]. apply fails_sound in H' as [z' [H' <-]]. rewrite H in H'. injection H' as <- <-. auto. Qed.

(* every case of the relation occurs *)
Definition ex_hdr : bytes := lit "<34>1 2003-10-11T22:14:15Z host - 77 - ".
Definition ex_m (sd : option sdmap) (g : option bytes) : message :=
  Message (Some 4) (Some 2) (Some 34) (Some (Time 2003 10 11 22 14 15 0 0)) (Some (lit "host")) None (Some (lit "77")) None g 1 sd.
Ltac by_spec := match goal with |- fails ?cm ?d _ _ => let z := eval vm_compute in (spec5424 cm d) in
  match z with PBad ?x ?e => exact (fails_complete cm d x e ltac:(vm_compute; reflexivity)) end end.
Example fails_pri : fails false (lit "34>1") None (PErr EPri 0). Proof. by_spec. Qed.
Example fails_prival : fails false (lit "<192>1 - - - - - -") None (PErr EPrival 3). Proof. by_spec. Qed.
Example fails_version : fails false (lit "<3>12") (Some (start 3 1)) (PErr EVersion 5) /\ fails false (lit "<3>12x") (Some (start 3 12)) (PErr EVersion 5) /\ fails false (lit "<3>1x") (Some (start 3 1)) (PErr EParse 4).
Proof. split; [by_spec|split; by_spec]. Qed.
Example fails_ts : fails false (lit "<3>1 2003-13-01") (Some (start 3 1)) (PErr ETimestamp 11) /\ fails false (lit "<3>1 2003-02-30T00:00:00Z - - - - -") (Some (start 3 1)) (PTime (lit "2003-02-30T00:00:00Z") 25).
Proof. split; by_spec. Qed.
Example fails_word : fails false (lit "<3>1 - h" ++ ["009"%byte]) (Some (start 3 1)) (PErr EHostname 8). Proof. by_spec. Qed.
(* the error drops the value read before, and an element closed before *)
Example fails_name : fails false (ex_hdr ++ lit "[a x=""1"" y=""2"" ]") (Some (ex_m (Some [(lit "a", [(lit "x", lit "1")])]) None)) (PErr ESdParam 54). Proof. by_spec. Qed.
Example fails_no_id : fails false (ex_hdr ++ lit "[a x=""1""][b][ ") (Some (ex_m (Some [(lit "a", [(lit "x", lit "1")])]) None)) (PErr ESdID 52). Proof. by_spec. Qed.
Example fails_dup : fails false (ex_hdr ++ lit "[a x=""1""][a]") (Some (ex_m (Some [(lit "a", [(lit "x", lit "1")])]) None)) (PErr ESdIDDuplicated 50). Proof. by_spec. Qed.
Example fails_escape : fails false (ex_hdr ++ lit "[a x=""1"" x=""\n""]") (Some (ex_m (Some [(lit "a", [(lit "x", lit "1")])]) None)) (PErr EEscape 52). Proof. by_spec. Qed.
Example fails_utf8 : fails false (ex_hdr ++ lit "[a x=""1"" x=""" ++ ["195"; "040"]%byte) (Some (ex_m (Some [(lit "a", [])]) None)) (PErr ESdParam 52). Proof. by_spec. Qed.
Example fails_msg : fails true (ex_hdr ++ lit "- " ++ BOM ++ ["195"; "040"]%byte) (Some (ex_m None (Some (BOM ++ ["195"%byte])))) (PErr EMsgNotCompliant 45). Proof. by_spec. Qed.
