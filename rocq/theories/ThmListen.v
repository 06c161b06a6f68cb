(* C83: options that a listener applies to the octet counting parser that is calling it. *)
From Verif Require Import Bytes CommonFacts Common M5424Def M5424 MBuilder Ref5424c Props5424 Thm5424 Bufio MOctet SpecOctet ROctet ThmOctet ThmResume MLater ThmLater MReenter ThmReenter.
Local Open Scope Z_scope.

(* What is reported for the frames fs.  b0: the parser was created with best effort; max and best: the maximum and the best effort flag in use now;
   sc: the options the listener applies when it is handed the next result, the one after it, and so on.  Messages are parsed as b0 says, whatever is
   applied later; a maximum and the best effort flag are in use from the next frame on. *)
Fixpoint listened (b0 : bool) (max : Z) (best : bool) (sc : list (list popt)) (fs : list frame) : list result :=
  match fs with
  | [] => []
  | f :: fs' =>
    let n := Z.of_nat (length (f_msg f)) in
    let os := List.hd [] sc in
    let next := listened b0 (fold_left (fun m o => match o with OMaxLength k => k | _ => m end) os max) (best || opts_best os) (List.tl sc) fs' in
    if max <? n then [Result None (Some (ETooLong n max))]
    else match snd (answer b0 (f_msg f)) with
         | Some e => if best then answer_result b0 (f_msg f) :: next else [Result None (Some (EMachine e))]
         | None => answer_result b0 (f_msg f) :: next end
  end.

Record lat (cap : Z) (b0 : bool) (max : Z) (best : bool) (p : oparser) (l : list item) : Prop := Lat {
  l_back : p_stepback p = false; l_b0 : bestEffort (p_internal p) = b0; l_cm : compliant (p_internal p) = false; l_best : p_best p = best; l_max : p_max p = max;
  l_ok : ok (s_r (p_s p)); l_size : f_size (s_r (p_s p)) = cap; l_len : s_msglen (p_s p) = 0; l_abs : eqv (abs (s_r (p_s p))) l }.
Lemma pparse_any p data : compliant (p_internal p) = false -> let b0 := bestEffort (p_internal p) in
  exists p', pparse p data = Some (Result (fst (answer b0 data)) (option_map EMachine (snd (answer b0 data))), p')
  /\ p_max p' = p_max p /\ p_best p' = p_best p /\ p_stepback p' = p_stepback p /\ p_s p' = p_s p /\ bestEffort (p_internal p') = b0 /\ compliant (p_internal p') = false.
Proof.
  intros H2 b0. unfold pparse, answer. destruct (parse_total (p_internal p) data) as [r [e E]].
  rewrite (parse_independent (new_machine b0 false) (p_internal p)); [|unfold b0; destruct (bestEffort (p_internal p)); reflexivity|rewrite H2; reflexivity].
  destruct (parse_spec (p_internal p) data) as [_ [F1 F2]]. destruct (parse (p_internal p) data) as [m x]. cbn [fst snd] in *. subst x. cbn [fst snd].
  eexists. split; [reflexivity|]. subst b0. cbn. repeat split; congruence.
Qed.
Lemma lat_start cap b0 max best p fr rest : 0 <= cap < 2 ^ 63 -> lat cap b0 max best p (frame_items fr ++ rest) -> frame_ok cap fr ->
  exists p1, pscan p = Some (Token MSGLEN (f_len fr), p1) /\ p_last p1 = Token MSGLEN (f_len fr) /\ p_stepback p1 = false /\ p_internal p1 = p_internal p /\ p_best p1 = best /\ p_max p1 = max
    /\ ok (s_r (p_s p1)) /\ f_size (s_r (p_s p1)) = cap /\ s_msglen (p_s p1) = dec (f_len fr) /\ s_ready (p_s p1) = false /\ eqv (abs (s_r (p_s p1))) (IByte " " :: map IByte (f_msg fr) ++ rest)
    /\ (left (s_r (p_s p1)) < left (s_r (p_s p)))%nat.
Proof.
  intros Hcap [S1 S2 S2' S3 S4 S5 S6 S7 S8] [H1 [H2 [H3 [H4 [[t H5] H6]]]]].
  destruct (pscan_spec cap p S1 S5 S6 ltac:(rewrite S7; lia)) as [tok [ml [rdy [r [p1 [A1 [A2 [A3 [A4 [A5 [A6 [A7 [A8 [A9 A10]]]]]]]]]]]]]].
  rewrite S7 in A1. destruct (cscan_eqv cap 0 (s_ready (p_s p)) _ _ S8) as [Q1 Q2]. rewrite A1 in Q1, Q2. rewrite cscan_id in Q1, Q2 by (unfold to_int; cbn; lia).
  unfold frame_items in Q1, Q2. rewrite <- !app_assoc in Q1, Q2. cbn [app] in Q1, Q2. rewrite (ascan_len 0 _ (f_len fr) (f_gap fr) _ H1 H2 H6) in Q1, Q2. cbn [fst snd] in Q1, Q2.
  assert (Q3 : tok = Token MSGLEN (f_len fr)) by congruence. assert (Q4 : ml = parse_uint (f_len fr)) by congruence. assert (Q5 : rdy = false) by congruence. clear Q1. rewrite Q3 in *. rewrite Q4 in *. rewrite Q5 in *.
  destruct (A10 eq_refl) as [B1 [B2 [B3 B4]]]. exists p1. split; [exact A2|]. split; [exact A5|]. split; [exact A6|]. split; [exact A9|].
  split; [congruence|]. split; [congruence|]. split; [exact B2|]. split; [congruence|]. split; [rewrite A3, parse_uint_dec, Z.min_l by (exact H2 || lia); reflexivity|].
  split; [exact A4|]. split; [eapply eqv_trans; eauto|exact B4].
Qed.
Lemma lat_body cap b0 max best p1 fr rest : 0 <= cap < 2 ^ 63 -> frame_ok cap fr -> dec (f_len fr) <= max ->
  p_stepback p1 = false -> bestEffort (p_internal p1) = b0 -> compliant (p_internal p1) = false -> p_best p1 = best -> p_max p1 = max -> ok (s_r (p_s p1)) -> f_size (s_r (p_s p1)) = cap ->
  s_msglen (p_s p1) = dec (f_len fr) -> eqv (abs (s_r (p_s p1))) (IByte " " :: map IByte (f_msg fr) ++ rest) ->
  exists q, lat cap b0 max best q rest /\ (left (s_r (p_s q)) < left (s_r (p_s p1)))%nat /\ forall rec sc,
    re_body rec (Token MSGLEN (f_len fr)) sc p1 =
      if negb best && match snd (answer b0 (f_msg fr)) with Some _ => true | None => false end
      then re_emit rec (Result None (option_map EMachine (snd (answer b0 (f_msg fr))))) sc q
      else match re_emit rec (answer_result b0 (f_msg fr)) sc q with
           | None => None
           | Some (rs, sc, p) => match pscan p with
             | None => None
             | Some (tok, p) => if is_typ EOF tok then Some (rs, sc, p)
               else match rec sc (set_p_stepback true p) with Some (rs', sc', p') => Some (rs ++ rs', sc', p') | None => None end
             end
           end.
Proof.
  intros Hcap [H1 [H2 [H3 [H4 [[t H5] H6]]]]] Hmax S1 S2 S2' S3 S4 S5 S6 S7 S8. assert (Hp : 0 < dec (f_len fr)) by (rewrite H3, H5; cbn [length]; lia).
  destruct (pscan_spec cap p1 S1 S5 S6 ltac:(rewrite S7; lia)) as [tok [ml [rdy [r [p2 [A1 [A2 [A3 [A4 [A5 [A6 [A7 [A8 [A9 A10]]]]]]]]]]]]]].
  destruct (cscan_eqv cap (s_msglen (p_s p1)) (s_ready (p_s p1)) _ _ S8) as [Q1 Q2]. rewrite A1 in Q1, Q2. rewrite S7 in Q1, Q2. rewrite cscan_id in Q1, Q2 by (rewrite to_int_id by lia; lia).
  rewrite ascan_space in Q1, Q2. cbn [fst snd] in Q1, Q2.
  assert (Q3 : tok = Token WS [" "%byte]) by congruence. assert (Q4 : ml = dec (f_len fr)) by congruence. assert (Q5 : rdy = true) by congruence. clear Q1. rewrite Q3 in *. rewrite Q4 in *. rewrite Q5 in *.
  destruct (A10 eq_refl) as [B1 [B2 [B3 B4]]]. pose proof (eqv_trans _ _ _ B1 Q2) as B5.
  destruct (pscan_spec cap p2 A6 B2 ltac:(congruence) ltac:(rewrite A3; lia)) as [tok3 [ml3 [rdy3 [r3 [p3 [C1 [C2 [C3 [C4 [C5 [C6 [C7 [C8 [C9 C10]]]]]]]]]]]]]].
  clear Q3 Q4 Q5. destruct (cscan_eqv cap (s_msglen (p_s p2)) (s_ready (p_s p2)) _ _ B5) as [Q1 Q3]. rewrite C1 in Q1, Q3. rewrite A3, A4 in Q1, Q3.
  rewrite cscan_id in Q1, Q3 by (rewrite to_int_id by lia; lia). rewrite H5 in Q1, Q3. cbn [map app] in Q1, Q3. rewrite ascan_lt in Q1, Q3 by (lia || reflexivity).
  change (IByte "<" :: map IByte t ++ rest) with (map IByte ("<"%byte :: t) ++ rest) in Q1, Q3. rewrite <- H5 in Q1, Q3. rewrite take_map in Q1, Q3 by lia.
  rewrite H3, Nat2Z.id, firstn_all, skipn_all in Q1, Q3. cbn [fst snd map app] in Q1, Q3.
  assert (Q4 : tok3 = Token SYSLOGMSG (f_msg fr)) by congruence. assert (Q5 : ml3 = 0) by congruence. assert (Q6 : rdy3 = false) by congruence. clear Q1. rewrite Q4 in *. rewrite Q5 in *. rewrite Q6 in *.
  destruct (C10 eq_refl) as [D1 [D2 [D3 D4]]].
  destruct (pparse_any p3 (f_msg fr) ltac:(congruence)) as [q [E1 [E2 [E3 [E4 [E5 [E6 E7]]]]]]].
  assert (Eb : bestEffort (p_internal p3) = b0) by congruence. rewrite Eb in *.
  assert (Ep : p_best p3 = best) by congruence.
  exists q. split; [|split].
  - constructor; try rewrite E5; try congruence; try exact D2; try (eapply eqv_trans; eassumption).
  - rewrite E5. lia.
  - intros rec sc. unfold re_body. rewrite typ_self'. cbn [negb]. rewrite S7, S4, to_int_id by lia. destruct (Z.ltb_spec max (dec (f_len fr))); [lia|].
    rewrite A2, typ_self'. cbn [negb]. rewrite C2, typ_self'. cbn [negb tlit]. rewrite E1. cbn [r_err]. rewrite E3, Ep. unfold answer_result.
    destruct (snd (answer b0 (f_msg fr))) as [e|] eqn:Ea; cbn [option_map]; reflexivity.
Qed.
Definition opts_only (sc : list (list popt)) : script := map (map OApply) sc.
Lemma events_only rec os sc : forall p, re_events rec (map OApply os) sc p = Some ([], sc, fold_left apply_opt os p).
Proof. induction os as [|o os IH]; intros p; cbn [map re_events fold_left]; auto. Qed.
Lemma emit_only rec r sc p : re_emit rec r (opts_only sc) p = Some ([r], opts_only (List.tl sc), fold_left apply_opt (List.hd [] sc) p).
Proof. destruct sc as [|os sc]; [reflexivity|]. cbn [opts_only map re_emit List.tl List.hd]. rewrite events_only. reflexivity. Qed.
Lemma lat_options cap b0 l os : forall max best p, lat cap b0 max best p l ->
  lat cap b0 (fold_left (fun m o => match o with OMaxLength k => k | _ => m end) os max) (best || opts_best os) (fold_left apply_opt os p) l
  /\ left (s_r (p_s (fold_left apply_opt os p))) = left (s_r (p_s p)).
Proof.
  induction os as [|o os IH]; intros max best p S; cbn [fold_left]; unfold opts_best; cbn [existsb]; [rewrite orb_false_r; auto|].
  destruct S as [S1 S2 S2' S3 S4 S5 S6 S7 S8]. rewrite orb_assoc.
  destruct o; cbn [apply_opt]; rewrite ?orb_false_r, ?orb_true_r;
    [destruct (IH max best p) as [I1 I2]|destruct (IH max true (OParser (p_max p) (p_s p) (p_internal p) (p_last p) (p_stepback p) true)) as [I1 I2]|destruct (IH n best (OParser n (p_s p) (p_internal p) (p_last p) (p_stepback p) (p_best p))) as [I1 I2]];
    try (constructor; cbn; assumption || reflexivity); split; assumption.
Qed.
Lemma lat_end cap b0 max best q : lat cap b0 max best q [] -> exists p1, pscan q = Some (Token EOF [], p1).
Proof.
  intros [S1 S2 S2' S3 S4 S5 S6 S7 S8]. destruct (sread_spec (s_r (p_s q)) S5) as [b [E [A [B [C [D _]]]]]]. destruct (aread_eqv _ _ S8) as [A1 A2]. cbn in A1, A2.
  unfold pscan. rewrite S1. unfold scan. rewrite E, A1. change (is_nonzero_digit x00) with false. change (beqb x00 x00) with true. cbv iota. eexists. reflexivity.
Qed.
Lemma lat_run cap b0 : 0 <= cap < 2 ^ 63 -> forall fs f p sc max best, lat cap b0 max best p (frames_items fs) -> Forall (frame_ok cap) fs -> (left (s_r (p_s p)) <= f)%nat -> fs <> [] ->
  exists tok p1, pscan p = Some (tok, p1) /\ p_last p1 = tok /\ p_stepback p1 = false /\ is_typ EOF tok = false
    /\ exists sc' p', re_body (re_run f) tok (opts_only sc) p1 = Some (listened b0 max best sc fs, sc', p').
Proof.
  intros Hcap. induction fs as [|g fs IH]; intros f p sc max best Hst HF Hl Hne; [congruence|].
  inversion HF as [|? ? Hg HF']; subst. unfold frames_items in Hst. cbn [map concat] in Hst. fold (frames_items fs) in Hst.
  pose proof Hg as [G1 [G2 [G3 [G4 [[gt G5] G6]]]]].
  destruct (lat_start cap b0 max best p g _ Hcap Hst Hg) as [p1 [A1 [A2 [A3 [A4 [A5 [A6 [A7 [A8 [A9 [A10 [A11 A12]]]]]]]]]]]].
  exists (Token MSGLEN (f_len g)), p1. split; [exact A1|]. split; [exact A2|]. split; [exact A3|]. split; [reflexivity|].
  cbn [listened]. rewrite <- G3. destruct (Z.ltb_spec max (dec (f_len g))) as [Hmax|Hmax].
  { assert (Gp : 0 < dec (f_len g)) by (rewrite G3, G5; cbn [length]; lia). unfold re_body. rewrite typ_self'. cbn [negb]. rewrite A9, A6, to_int_id by lia. destruct (Z.ltb_spec max (dec (f_len g))); [|lia]. rewrite emit_only. eauto. }
  destruct Hst as [_ T2 T3 _ _ _ _ _ _].
  destruct (lat_body cap b0 max best p1 g _ Hcap Hg Hmax A3 ltac:(congruence) ltac:(congruence) A5 A6 A7 A8 A9 A11) as [q [B1 [B3 B4]]].
  rewrite B4. clear B4. destruct (negb best && _) eqn:Hc.
  { apply andb_true_iff in Hc as [Hb Hc]. apply negb_true_iff in Hb as ->. destruct (snd (answer b0 (f_msg g))) as [e|]; [|discriminate]. rewrite emit_only. eauto. }
  rewrite emit_only. destruct (lat_options cap b0 _ (List.hd [] sc) max best q B1) as [O1 O2].
  set (m' := fold_left _ (List.hd [] sc) max) in *. set (q' := fold_left apply_opt (List.hd [] sc) q) in *. set (best' := best || opts_best (List.hd [] sc)) in *.
  assert (R : forall next, match snd (answer b0 (f_msg g)) with Some e => if best then answer_result b0 (f_msg g) :: next else [Result None (Some (EMachine e))] | None => answer_result b0 (f_msg g) :: next end
      = answer_result b0 (f_msg g) :: next).
  { intros next. destruct (snd (answer b0 (f_msg g))); [|reflexivity]. destruct best; [reflexivity|discriminate]. }
  rewrite R. clear R Hc. destruct fs as [|g2 fs].
  - destruct (lat_end _ _ _ _ _ O1) as [p' C1]. rewrite C1. cbn [is_typ typ listened]. change (is_typ EOF (Token EOF [])) with true. cbv iota. eauto.
  - destruct f as [|f]; [lia|]. destruct (IH f q' (List.tl sc) m' best' O1 HF' ltac:(lia) ltac:(discriminate)) as [tok [q1 [C1 [C2 [C3 [C4 [sc' [p' C5]]]]]]]].
    rewrite C1, C4. cbn [re_run]. unfold pscan at 1. cbn [set_p_stepback p_stepback p_last]. rewrite C2.
    replace (set_p_stepback false (set_p_stepback true q1)) with q1 by (destruct q1; cbn in *; unfold set_p_stepback; cbn; congruence). rewrite C5. cbn [app]. eauto.
Qed.
Lemma only_size sc : script_size (opts_only sc) = 0%nat.
Proof.
  induction sc as [|os sc IH]; [reflexivity|]. change (script_size (opts_only (os :: sc))) with (evs_size (map OApply os) + script_size (opts_only sc))%nat. rewrite IH, Nat.add_0_r.
  induction os; [reflexivity|]. exact IHos.
Qed.
(* C83: a stream of frames, each of which the buffer allocated at the beginning can hold: whatever options the listener applies in its calls, to a
   parser with any history of options and streams, the results are as listened says *)
Theorem octet_listener_options opts vs sc rd fs : let now := opts ++ oapplied vs in let room := Z.max (opts_max now + 20) 16 in
  - 2 ^ 63 <= opts_max now < 2 ^ 63 - 20 -> eqv (delivered rd) (frames_items fs) -> fs <> [] -> Forall (frame_ok room) fs ->
  re_results (re_stream (opts_only sc) (olives (new_parser opts) vs) rd) = Some (listened (opts_best opts) (opts_max now) (opts_best now) sc fs).
Proof.
  cbn zeta. intros Hm Hd Hne HF. destruct (new_parser_ok opts) as [N1 [N2 [N3 [N4 N5]]]].
  assert (U : in_use (opts_best opts) (opts_best opts) (opts_max opts) (new_parser opts)) by (constructor; congruence).
  pose proof (lives_in_use vs _ _ _ _ U) as V. rewrite <- opts_best_app in V.
  replace (fold_left _ (oapplied vs) (opts_max opts)) with (opts_max (opts ++ oapplied vs)) in V by (unfold opts_max; rewrite fold_left_app; reflexivity).
  set (p := olives (new_parser opts) vs) in *. set (max := opts_max (opts ++ oapplied vs)) in *. set (best := opts_best (opts ++ oapplied vs)) in *.
  destruct V as [V1 V2 V3 V4 V5 _].
  assert (Hr : add_int max 20 = max + 20).
  { unfold add_int, to_int. destruct (Z.le_gt_cases 0 (max + 20)).
    - rewrite Z.mod_small by lia. destruct (Z.ltb_spec (max + 20) (2 ^ 63)); lia.
    - rewrite <- (Z.mod_unique (max + 20) (2 ^ 64) (-1) (max + 20 + 2 ^ 64)) by lia. destruct (Z.ltb_spec (max + 20 + 2 ^ 64) (2 ^ 63)); lia. }
  unfold re_stream. rewrite only_size, Nat.add_0_r.
  assert (St : lat (Z.max (max + 20) 16) (opts_best opts) max best (restart p rd) (frames_items fs)).
  { constructor; [exact V5|exact V1|exact V2|exact V3|exact V4|unfold ok, f_buffered; cbn; lia|unfold restart; cbn; rewrite V4, Hr; reflexivity|reflexivity|exact Hd]. }
  destruct (lat_run (Z.max (max + 20) 16) (opts_best opts) ltac:(lia) fs (S (rd_size rd)) (restart p rd) sc max best St HF ltac:(unfold restart, left; cbn [p_s s_r new_scanner new_reader_size f_un f_rd f_err length]; lia) Hne) as [tok [p1 [C1 [_ [_ [_ [sc' [p' C5]]]]]]]].
  set (k := S (rd_size rd)) in *. cbn [re_run]. rewrite C1, C5. reflexivity.
Qed.
(* ---- cases ---- *)
Definition good16 : frame := Frame (lit "16") [] (lit "<1>1 - - - - - -").
Definition bad16 : frame := Frame (lit "16") [] (lit "<1>1 - - - - - x").
Definition good32 : frame := Frame (lit "32") [] (lit "<1>1 - - - - - - 0123456789abcde").
Definition good60 : frame := Frame (lit "60") [] (lit "<1>1 - - - - - - 0123456789abcdefghijklmnopqrstuvwxyzABCDEFG").
Lemma digits_of s : forallb is_nonzero_digit s = true -> Forall digit s.
Proof. intros H. apply Forall_forall. intros b Hb. apply nonzero_digit. rewrite forallb_forall in H. apply H. exact Hb. Qed.
Lemma good16_ok max : 16 <= max -> frame_ok max good16 /\ frame_ok max bad16.
Proof.
  intros H. split; (split; [discriminate|]; split; [apply digits_of; reflexivity|]; split; [reflexivity|]; split; [exact H|]; split; [eexists; reflexivity|left; reflexivity]).
Qed.
Lemma good32_ok max : 32 <= max -> frame_ok max good32.
Proof.
  intros H. split; [discriminate|]; split; [apply digits_of; reflexivity|]; split; [reflexivity|]; split; [exact H|]; split; [eexists; reflexivity|left; reflexivity].
Qed.
Lemma good60_ok max : 60 <= max -> frame_ok max good60.
Proof.
  intros H. split; [discriminate|]; split; [apply digits_of; reflexivity|]; split; [reflexivity|]; split; [exact H|]; split; [eexists; reflexivity|left; reflexivity].
Qed.
(* a strict parser with the maximum 16: the listener raises the maximum to 36 and asks for best effort when it is handed the first result *)
Example octet_listener_options_ex : re_results (re_stream [[OApply (OMaxLength 36); OApply OBestEffort]] (new_parser [OMaxLength 16])
    [(lit "16 <1>1 - - - - - -16 <1>1 - - - - - x32 <1>1 - - - - - - 0123456789abcde", None)])
  = Some [answer_result false (f_msg good16); Result None (Some (EMachine (PErr EStructuredData 15))); answer_result false (f_msg good32)].
Proof.
  pose proof (octet_listener_options [OMaxLength 16] [] [[OMaxLength 36; OBestEffort]] [(lit "16 <1>1 - - - - - -16 <1>1 - - - - - x32 <1>1 - - - - - - 0123456789abcde", None)] [good16; bad16; good32]) as H.
  cbn zeta in H. destruct (good16_ok (Z.max (opts_max ([OMaxLength 16] ++ oapplied []) + 20) 16)) as [G1 G2]; [vm_compute; congruence|].
  specialize (H ltac:(split; vm_compute; congruence) ltac:(apply eqv_refl) ltac:(discriminate) (Forall_cons _ G1 (Forall_cons _ G2 (Forall_cons _ (good32_ok (Z.max (opts_max ([OMaxLength 16] ++ oapplied []) + 20) 16) ltac:(vm_compute; congruence)) (Forall_nil _))))).
  refine (eq_trans H _). vm_compute. reflexivity.
Qed.
(* not true without the bound on the frames: a maximum raised by the listener does not enlarge the buffer of the stream *)
Theorem octet_listener_options_refuted : exists opts sc rd fs, eqv (delivered rd) (frames_items fs) /\ Forall (frame_ok 100) fs /\ sc = [[OMaxLength 100]]
  /\ re_results (re_stream (opts_only sc) (new_parser opts) rd) <> Some (listened (opts_best opts) (opts_max opts) (opts_best opts) sc fs).
Proof.
  exists [OMaxLength 20], [[OMaxLength 100]], [(lit "16 <1>1 - - - - - -60 <1>1 - - - - - - 0123456789abcdefghijklmnopqrstuvwxyzABCDEFG", None)], [good16; good60].
  split; [apply eqv_refl|]. split; [constructor; [apply (good16_ok 100 ltac:(lia))|constructor; [apply (good60_ok 100 ltac:(lia))|constructor]]|]. split; [reflexivity|]. vm_compute. discriminate.
Qed.
(* not true: best effort asked for by the listener works like best effort given to NewParser for the messages that follow *)
Theorem octet_listener_best_effort_refuted : exists sc rd fs, eqv (delivered rd) (frames_items fs) /\ Forall (frame_ok 100) fs /\ sc = [[OBestEffort]]
  /\ has_best_effort (olives (new_parser []) [OApply OBestEffort]) = true
  /\ re_results (re_stream (opts_only sc) (new_parser []) rd) <> emitted [OBestEffort] [] rd.
Proof.
  exists [[OBestEffort]], [(lit "16 <1>1 - - - - - -16 <1>1 - - - - - x", None)], [good16; bad16].
  split; [apply eqv_refl|]. split; [constructor; [apply (good16_ok 100 ltac:(lia))|constructor; [apply (good16_ok 100 ltac:(lia))|constructor]]|]. split; [reflexivity|]. split; [reflexivity|]. vm_compute. discriminate.
Qed.
