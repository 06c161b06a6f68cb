(* C81: options applied to a stream parser after its creation. *)
From Verif Require Import Bytes CommonFacts Common M5424Def M5424 MBuilder Ref5424c Props5424 Thm5424 Bufio MOctet SpecOctet ROctet ThmOctet MLater.
Local Open Scope Z_scope.

(* a bad message without what could be recovered of it *)
Definition unrecovered (r : result) : result := match r_err r with Some (EMachine _) => Result None (r_err r) | _ => r end.

Lemma answer_modes data : snd (answer true data) = snd (answer false data)
  /\ fst (answer false data) = match snd (answer false data) with Some _ => None | None => fst (answer true data) end.
Proof.
  destruct (best_effort_conservative (new_machine false false) (new_machine true false) data eq_refl eq_refl eq_refl) as [H1 H2].
  unfold answer. destruct (parse_shape (new_machine false false) data) as [[msg [E _]]|[[e E]|[msg [e [E [H _]]]]]]; [| |discriminate]; rewrite E.
  - rewrite (proj1 (H1 msg) E). auto.
  - destruct (proj1 (H2 e) E) as [r ->]. auto.
Qed.

(* ---- best effort asked for after creation: the parser goes on like a best effort parser, the machine is not one *)
Definition lagging (p q : oparser) : Prop :=
  exists mi, q = set_p_internal mi p /\ bestEffort mi = false /\ compliant mi = false /\ p_best p = true /\ bestEffort (p_internal p) = true /\ compliant (p_internal p) = false.
Lemma lag_fields p q : lagging p q -> p_max q = p_max p /\ p_s q = p_s p /\ p_last q = p_last p /\ p_stepback q = p_stepback p /\ p_best q = true /\ p_best p = true.
Proof. intros [mi [-> [_ [_ [H _]]]]]. cbn. auto 10. Qed.
Lemma lag_scan p q : lagging p q -> match pscan p with Some (t, p') => exists q', pscan q = Some (t, q') /\ lagging p' q' | None => pscan q = None end.
Proof.
  intros [mi [-> [H1 [H2 [H3 [H4 H5]]]]]]. unfold pscan. cbn [set_p_internal p_stepback p_last p_s].
  destruct (p_stepback p); [eexists; split; [reflexivity|]; exists mi; auto 10|]. destruct (scan (p_s p)) as [[t s]|]; [|reflexivity]. eexists. split; [reflexivity|]. exists mi. auto 10.
Qed.
Lemma lag_parse p q data : lagging p q -> match pparse p data with Some (r, p') => exists q', pparse q data = Some (unrecovered r, q') /\ lagging p' q' | None => False end.
Proof.
  intros [mi [-> [H1 [H2 [H3 [H4 H5]]]]]].
  destruct (pparse_spec p data (conj (eq_trans H4 (eq_sym H3)) H5)) as [p' [E [A1 [A2 [A3 [A4 [A5 [A6 A7]]]]]]]]. rewrite E.
  set (q := OParser (p_max p) (p_s p) mi (p_last p) (p_stepback p) false).
  destruct (pparse_spec q data (conj H1 H2)) as [q' [E' _]].
  unfold pparse in *. cbn [p_internal set_p_internal] in *. rewrite H3 in *. cbn [q p_best p_internal] in E'.
  destruct (parse (p_internal p) data) as [m1 [r1 e1| |]]; try discriminate. destruct (parse mi data) as [m2 [r2 e2| |]] eqn:Em; try discriminate.
  injection E as -> E <-. injection E' as -> E' _. eexists. split.
  - f_equal. f_equal. rewrite E'. destruct (answer_modes data) as [M1 M2]. unfold unrecovered. cbn [r_err]. rewrite M1, M2. destruct (snd (answer false data)); reflexivity.
  - exists m2. pose proof (parse_spec mi data) as [_ [F1 F2]]. rewrite Em in F1, F2. cbn [fst] in F1, F2. split; [reflexivity|]. cbn in *. repeat split; congruence.
Qed.
Lemma lag_run f : forall p q, lagging p q -> match run f p with Some (rs, p') => exists q', run f q = Some (map unrecovered rs, q') /\ lagging p' q' | None => run f q = None end.
Proof.
  induction f as [|f IH]; intros p q L; [reflexivity|]. cbn [run].
  pose proof (lag_scan p q L) as S1. destruct (pscan p) as [[t1 p1]|]; [|rewrite S1; reflexivity]. destruct S1 as [q1 [-> L1]]. clear p q L.
  destruct (lag_fields _ _ L1) as [F1 [F2 [F3 [F4 [F5 F6]]]]]. unfold run_body. rewrite F1, F2.
  destruct (negb (is_typ MSGLEN t1)); [eexists; split; [reflexivity|exact L1]|]. destruct (p_max p1 <? to_int (s_msglen (p_s p1))); [eexists; split; [reflexivity|exact L1]|].
  pose proof (lag_scan p1 q1 L1) as S2. destruct (pscan p1) as [[t2 p2]|]; [|rewrite S2; reflexivity]. destruct S2 as [q2 [-> L2]]. clear p1 q1 L1 F1 F2 F3 F4 F5 F6.
  destruct (negb (is_typ WS t2)); [eexists; split; [reflexivity|exact L2]|].
  pose proof (lag_scan p2 q2 L2) as S3. destruct (pscan p2) as [[t3 p3]|]; [|rewrite S3; reflexivity]. destruct S3 as [q3 [-> L3]]. clear p2 q2 L2.
  destruct (lag_fields _ _ L3) as [F1 [F2 [F3 [F4 [F5 F6]]]]]. rewrite F2, F5, F6. cbv zeta. pose proof (lag_parse p3 q3 (tlit t3) L3) as P3.
  destruct (pparse p3 (tlit t3)) as [[[m re] p4]|] eqn:Ep; [|contradiction]. destruct P3 as [q4 [-> L4]].
  destruct (negb (is_typ SYSLOGMSG t3)).
  - destruct (_ && true); [|eexists; split; [reflexivity|exact L3]]. unfold unrecovered at 1. cbn [r_err].
    assert (R : re = None \/ exists e, re = Some (EMachine e)). { unfold pparse in Ep. destruct (parse (p_internal p3) (tlit t3)) as [? [r e| |]]; try discriminate. injection Ep as _ <- _. destruct e; cbn; eauto. }
    destruct R as [-> | [e ->]]; (eexists; split; [reflexivity|exact L4]).
  - destruct (lag_fields _ _ L4) as [G1 [G2 [G3 [G4 [G5 G6]]]]]. rewrite G5, G6. cbn [negb andb].
    pose proof (lag_scan p4 q4 L4) as S5. destruct (pscan p4) as [[t5 p5]|]; [|rewrite S5; reflexivity]. destruct S5 as [q5 [-> L5]].
    destruct (is_typ EOF t5); [eexists; split; [reflexivity|exact L5]|].
    assert (L6 : lagging (set_p_stepback true p5) (set_p_stepback true q5)) by (destruct L5 as [mi [-> [? [? [? [? ?]]]]]]; exists mi; auto 10).
    specialize (IH _ _ L6). destruct (run f (set_p_stepback true p5)) as [[rs p6]|]; [|rewrite IH; reflexivity]. destruct IH as [q6 [-> L7]]. eexists. split; [reflexivity|exact L7].
Qed.

(* a parser made with or without best effort (b0), in which best effort was asked for or not by now (b) *)
Record in_use (b0 b : bool) (max : Z) (p : oparser) : Prop := InUse {
  u_b0 : bestEffort (p_internal p) = b0; u_cm : compliant (p_internal p) = false; u_best : p_best p = b; u_max : p_max p = max; u_sb : p_stepback p = false; u_le : b0 = true -> b = true }.
Lemma stream_in_use b0 b max p rd : in_use b0 b max p -> exists rs p', parse_stream p rd = Some ((if b && negb b0 then map unrecovered rs else rs), p')
  /\ in_use b0 b max p' /\ crun (cap_of max) (S (rd_size rd)) max b true (delivered rd) = Some rs.
Proof.
  intros [U1 U2 U3 U4 U5 U6]. destruct (b && negb b0) eqn:Eb.
  - apply andb_true_iff in Eb as [-> Eb]. apply negb_true_iff in Eb as ->.
    set (p1 := set_p_internal (new_machine true false) p).
    assert (K : pok p1) by (split; cbn; congruence).
    destruct (stream_spec_c p1 rd U5 K) as [rs [p' [E [C [S1 [S2 [S3 [S4 S5]]]]]]]]. unfold parse_stream in *.
    set (a := OParser _ _ _ _ _ _) in E. set (c := OParser _ _ _ _ _ _).
    assert (L : lagging a c) by (exists (p_internal p); repeat split; cbn; congruence).
    pose proof (lag_run (S (rd_size rd)) a c L) as H. rewrite E in H. destruct H as [q' [E' L']]. exists rs, q'. split; [exact E'|].
    destruct L' as [mi [-> [L1 [L2 [L3 [L4 L5]]]]]]. change (p_max p1) with (p_max p) in *. change (p_best p1) with (p_best p) in *. rewrite U4 in *. rewrite U3 in *. split.
    + constructor; cbn; auto.
    + exact C.
  - assert (E0 : b = b0) by (destruct b, b0; try reflexivity; [discriminate|specialize (U6 eq_refl); discriminate]). rewrite <- E0 in U1 |- *. clear Eb E0 U6.
    destruct (stream_spec_c p rd U5 (conj (eq_trans U1 (eq_sym U3)) U2)) as [rs [p' [E [C [S1 [S2 [S3 [S4 S5]]]]]]]]. exists rs, p'. split; [exact E|].
    rewrite U4, U3 in *. split; [constructor; congruence|exact C].
Qed.
Lemma emitted_in_use b0 b max p rd opts : in_use b0 b max p -> opts_best opts = b -> opts_max opts = max ->
  results (parse_stream p rd) = option_map (if b && negb b0 then map unrecovered else fun rs => rs) (emitted opts [] rd).
Proof.
  intros U <- <-. destruct (stream_in_use _ _ _ _ rd U) as [rs [p' [E [_ C]]]]. rewrite E. destruct (emitted_spec_c opts [] rd) as [rs' [-> C']].
  assert (rs' = rs) by congruence. subst rs'. cbn. destruct (opts_best opts && negb b0); reflexivity.
Qed.
Lemma lives_in_use vs : forall b0 b max p, in_use b0 b max p ->
  in_use b0 (b || opts_best (oapplied vs)) (fold_left (fun m o => match o with OMaxLength n => n | _ => m end) (oapplied vs) max) (olives p vs).
Proof.
  induction vs as [|v vs IH]; intros b0 b max p U.
  - unfold opts_best. cbn. rewrite orb_false_r. exact U.
  - destruct v as [o|rd].
    + change (olives p (OApply o :: vs)) with (olives (apply_opt p o) vs). change (oapplied (OApply o :: vs)) with (o :: oapplied vs). unfold opts_best. cbn [existsb fold_left].
      rewrite orb_assoc. apply IH. destruct U as [U1 U2 U3 U4 U5 U6]. destruct o; cbn [apply_opt]; rewrite ?orb_false_r, ?orb_true_r; constructor; cbn; auto.
    + change (oapplied (OStream rd :: vs)) with (oapplied vs). unfold olives. cbn [fold_left olives1]. destruct (stream_in_use _ _ _ _ rd U) as [rs [p' [E [U' _]]]]. rewrite E. apply IH. exact U'.
Qed.
Lemma opts_best_app a b : opts_best (a ++ b) = opts_best a || opts_best b. Proof. apply existsb_app. Qed.

(* C81, octet counting: options applied to a parser between its streams work like those given to NewParser, on every later stream and
   whatever was parsed before, with one exception: when best effort is asked for only later, the parser goes on after bad messages like a
   best effort parser, but recovers nothing of them. *)
Theorem octet_later_options opts vs rd : 
  results (parse_stream (olives (new_parser opts) vs) rd) =
  option_map (if negb (opts_best opts) && opts_best (oapplied vs) then map unrecovered else fun rs => rs) (emitted (opts ++ oapplied vs) [] rd).
Proof.
  destruct (new_parser_ok opts) as [N1 [N2 [N3 [N4 N5]]]].
  assert (U : in_use (opts_best opts) (opts_best opts) (opts_max opts) (new_parser opts)) by (constructor; congruence).
  pose proof (lives_in_use vs _ _ _ _ U) as V. rewrite (emitted_in_use _ _ _ _ rd (opts ++ oapplied vs) V).
  - destruct (opts_best opts), (opts_best (oapplied vs)); reflexivity.
  - apply opts_best_app.
  - unfold opts_max. rewrite fold_left_app. reflexivity.
Qed.
Theorem octet_later_has_best_effort opts vs : has_best_effort (olives (new_parser opts) vs) = opts_best (opts ++ oapplied vs).
Proof.
  destruct (new_parser_ok opts) as [N1 [N2 [N3 [N4 N5]]]].
  assert (U : in_use (opts_best opts) (opts_best opts) (opts_max opts) (new_parser opts)) by (constructor; congruence).
  destruct (lives_in_use vs _ _ _ _ U) as [_ _ V _ _ _]. unfold has_best_effort. rewrite V, opts_best_app. reflexivity.
Qed.
(* so WithBestEffort applied later is not WithBestEffort given to NewParser, although HasBestEffort answers the same *)
Theorem octet_later_best_effort_refuted : exists rd,
  has_best_effort (olives (new_parser []) [OApply OBestEffort]) = has_best_effort (new_parser [OBestEffort])
  /\ results (parse_stream (olives (new_parser []) [OApply OBestEffort]) rd) <> emitted [OBestEffort] [] rd.
Proof.
  exists [(lit "16 <1>1 - - - - - x", None)]. split; [reflexivity|]. rewrite octet_later_options. cbn [oapplied flat_map app].
  assert (E : exists m e, emitted [OBestEffort] [] [(lit "16 <1>1 - - - - - x", None)] = Some [Result (Some m) (Some (EMachine e))]) by (eexists _, _; vm_compute; reflexivity).
  destruct E as [m [e E]]. rewrite E. cbn. discriminate.
Qed.
(* a bad message, then a good one; the best effort asked for between two streams, together with a smaller maximum *)
Example octet_later_ex : results (parse_stream (olives (new_parser []) [OStream [(lit "16 <1>", None)]; OApply OBestEffort; OApply (OMaxLength 20)]) [(lit "16 <1>1 - - - - - x16 <1>1 - - - - - -21 <", None)])
  = Some [Result None (Some (EMachine (PErr EStructuredData 15))); answer_result true (lit "<1>1 - - - - - -"); Result None (Some (ETooLong 21 20))].
Proof. vm_compute. reflexivity. Qed.
