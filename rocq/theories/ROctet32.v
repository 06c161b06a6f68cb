(* The octet counting parser where int has 32 bits, over what its reader delivers: refinement of MOctet32 (the proofs of ROctet.v, with
   the conversion to 32 bits: a message may then be empty). *)
From Verif Require Import Bytes CommonFacts Common M5424Def M5424 MBuilder Ref5424c Props5424 Thm5424 Bufio MOctet SpecOctet ROctet MOctet32.
Local Open Scope Z_scope.

(* the size of the buffer, then msglen, ready, what remains *)
Definition cscan32 (cap : Z) (ml : Z) (rdy : bool) (l : list item) : token * Z * bool * list item :=
  let (c, r) := aread l in
  if is_nonzero_digit c then (Token MSGLEN (c :: fst (adigits r)), parse_uint (c :: fst (adigits r)), false, snd (adigits r))
  else if beqb c x00 then (Token EOF [], ml, false, r)
  else if beqb c " " then (Token WS [" "%byte], ml, true, r)
  else if beqb c "<" && (0 <? ml) && rdy then
    if to_int32 ml <? 0 then (Token EOF [], ml, rdy, l)
    else match take_bytes (Z.to_nat (Z.min (to_int32 ml) cap)) l with
         | (t, k, r') => if k && (to_int32 ml <=? cap) then (Token SYSLOGMSG t, 0, false, r') else (Token EOF t, ml, rdy, r') end
  else (Token ILLEGAL [c], ml, rdy, r).

(* after the first token of a frame *)
Definition cbody32 (cap : Z) (rec : list item -> option (list result)) (max : Z) (best : bool) (tok : token) (ml : Z) (rdy : bool) (r : list item) : option (list result) :=
  if negb (is_typ MSGLEN tok) then Some [Result None (Some (EFound tok MSGLEN))]
  else if max <? to_int32 ml then Some [Result None (Some (ETooLong ml max))]
  else
    match cscan32 cap ml rdy r with
    | (tok, ml, rdy, r) =>
      if negb (is_typ WS tok) then Some [Result None (Some (EFound tok WS))]
      else
        match cscan32 cap ml rdy r with
        | (tok, ml, rdy, r) =>
          if negb (is_typ SYSLOGMSG tok) then
            let e := EAfter tok ml in
            if (Z.of_nat (length (tlit tok)) <? to_int32 ml) && best then
              match answer best (tlit tok) with
              | (m, re) => Some [Result m (match re with None => Some e | Some x => Some (EMachine x) end)] end
            else Some [Result None (Some e)]
          else
            match answer best (tlit tok) with
            | (m, e) =>
              match best, e with
              | false, Some x => Some [Result None (Some (EMachine x))]
              | _, _ => match rec r with
                        | Some rs => Some (Result m (option_map EMachine e) :: rs)
                        | None => None end
              end
            end
        end
    end.
Fixpoint crun32 (cap : Z) (fuel : nat) (max : Z) (best first : bool) (l : list item) : option (list result) :=
  match fuel with
  | O => None
  | S f =>
    match cscan32 cap 0 false l with
    | (tok, ml, rdy, r) =>
      if negb first && is_typ EOF tok then Some [] else cbody32 cap (crun32 cap f max best false) max best tok ml rdy r
    end
  end.

Lemma cscan_eqv32 cap ml rdy l1 l2 : eqv l1 l2 -> fst (cscan32 cap ml rdy l1) = fst (cscan32 cap ml rdy l2) /\ eqv (snd (cscan32 cap ml rdy l1)) (snd (cscan32 cap ml rdy l2)).
Proof.
  intros H. destruct (aread_eqv _ _ H) as [A1 A2]. unfold cscan32. destruct (aread l1) as [c r1], (aread l2) as [c2 r2]. cbn [fst snd] in A1, A2. subst c2.
  destruct (adigits_eqv _ _ A2) as [D1 D2]. destruct (is_nonzero_digit c); [cbn [fst snd]; rewrite D1; auto|].
  destruct (beqb c x00); [auto|]. destruct (beqb c " "); [auto|]. destruct (beqb c "<" && (0 <? ml) && rdy); [|auto].
  destruct (to_int32 ml <? 0); [auto|]. destruct (take_eqv (Z.to_nat (Z.min (to_int32 ml) cap)) _ _ H) as [T1 T2].
  destruct (take_bytes _ l1) as [[t1 k1] q1], (take_bytes _ l2) as [[t2 k2] q2]. cbn [fst snd] in *. injection T1 as -> ->. destruct (k2 && _); auto.
Qed.
Lemma crun_eqv32 cap fuel max best : forall first l1 l2, eqv l1 l2 -> crun32 cap fuel max best first l1 = crun32 cap fuel max best first l2.
Proof.
  induction fuel as [|f IH]; intros first l1 l2 H; [reflexivity|]. cbn [crun32]; unfold cbody32.
  destruct (cscan_eqv32 cap 0 false _ _ H) as [S1 S2]. destruct (cscan32 cap 0 false l1) as [[[t m] d] r1], (cscan32 cap 0 false l2) as [[[t2 m2] d2] r2]. cbn [fst snd] in S1, S2.
  injection S1 as -> -> ->. destruct (negb first && is_typ EOF t2); [reflexivity|]. destruct (negb (is_typ MSGLEN t2)); [reflexivity|]. destruct (max <? to_int32 m2); [reflexivity|].
  clear H. destruct (cscan_eqv32 cap m2 d2 _ _ S2) as [S1 S3]. clear S2. destruct (cscan32 cap m2 d2 r1) as [[[t m] d] r1'], (cscan32 cap m2 d2 r2) as [[[t3 m3] d3] r2']. cbn [fst snd] in S1, S3.
  injection S1 as -> -> ->. destruct (negb (is_typ WS t3)); [reflexivity|].
  destruct (cscan_eqv32 cap m3 d3 _ _ S3) as [S1 S4]. clear S3. destruct (cscan32 cap m3 d3 r1') as [[[t m] d] r1''], (cscan32 cap m3 d3 r2') as [[[t4 m4] d4] r2'']. cbn [fst snd] in S1, S4.
  injection S1 as -> -> ->. destruct (negb (is_typ SYSLOGMSG t4)); [reflexivity|]. destruct (answer best (tlit t4)) as [mm e].
  rewrite (IH false _ _ S4). reflexivity.
Qed.
Lemma crun_more32 cap f max best : forall first l rs, crun32 cap f max best first l = Some rs -> forall k, (f <= k)%nat -> crun32 cap k max best first l = Some rs.
Proof.
  induction f as [|f IH]; intros first l rs H k Hk; [discriminate|]. destruct k as [|k]; [lia|]. cbn [crun32] in *; unfold cbody32 in *.
  destruct (cscan32 cap 0 false l) as [[[t m] d] r]. destruct (negb first && is_typ EOF t); [exact H|]. destruct (negb (is_typ MSGLEN t)); [exact H|]. destruct (max <? to_int32 m); [exact H|].
  destruct (cscan32 cap m d r) as [[[t2 m2] d2] r2]. destruct (negb (is_typ WS t2)); [exact H|].
  destruct (cscan32 cap m2 d2 r2) as [[[t3 m3] d3] r3]. destruct (negb (is_typ SYSLOGMSG t3)); [exact H|]. destruct (answer best (tlit t3)) as [mm e].
  assert (Hr : forall q, match crun32 cap f max best false r3 with Some rs => Some (q :: rs) | None => None end = Some rs -> match crun32 cap k max best false r3 with Some rs => Some (q :: rs) | None => None end = Some rs).
  { intros q Hq. destruct (crun32 cap f max best false r3) as [rs'|] eqn:E; [|discriminate]. rewrite (IH _ _ _ E k) by lia. exact Hq. }
  destruct best; [apply Hr; exact H|]. destruct e; [exact H|apply Hr; exact H].
Qed.

(* ---- the scanner ---- *)
Lemma cscan_range32 cap ml rdy l tok ml' rdy' r : 0 <= ml < 2 ^ 64 -> cscan32 cap ml rdy l = (tok, ml', rdy', r) -> 0 <= ml' < 2 ^ 64.
Proof.
  intros H. unfold cscan32. destruct (aread l) as [c q]. pose proof (parse_uint_range (c :: fst (adigits q))) as Hp.
  destruct (is_nonzero_digit c); [intros E; injection E as <- <- <- <-; exact Hp|].
  destruct (beqb c x00); [intros E; injection E as <- <- <- <-; lia|].
  destruct (beqb c " "); [intros E; injection E as <- <- <- <-; lia|].
  destruct (beqb c "<" && (0 <? ml) && rdy); [|intros E; injection E as <- <- <- <-; lia].
  destruct (to_int32 ml <? 0); [intros E; injection E as <- <- <- <-; lia|].
  destruct (take_bytes _ l) as [[t k] q']. destruct (k && _); intros E; injection E as <- <- <- <-; lia.
Qed.

(* one Scan *)
Lemma scan_spec32 cap s : ok (s_r s) -> f_size (s_r s) = cap -> s_msglen s < 2 ^ 64 ->
  exists tok ml rdy r s', cscan32 cap (s_msglen s) (s_ready s) (abs (s_r s)) = (tok, ml, rdy, r) /\ scan32 s = Some (tok, s')
    /\ s_msglen s' = ml /\ s_ready s' = rdy
    /\ (is_typ EOF tok = false -> eqv (abs (s_r s')) r /\ ok (s_r s') /\ f_size (s_r s') = f_size (s_r s) /\ (left (s_r s') <= left (s_r s))%nat /\ (is_typ SYSLOGMSG tok = false -> (left (s_r s') < left (s_r s))%nat)).
Proof.
  intros H Hm Hm64. unfold cscan32, scan32. destruct (aread (abs (s_r s))) as [c r] eqn:Ea. assert (Ec : fst (aread (abs (s_r s))) = c) by (rewrite Ea; reflexivity).
  assert (Er : snd (aread (abs (s_r s))) = r) by (rewrite Ea; reflexivity).
  destruct (is_nonzero_digit c) eqn:En.
  - assert (E0 : beqb (fst (aread (abs (s_r s)))) x00 = false).
    { rewrite Ec. apply not_true_iff_false. intros E. apply beqb_eq in E. rewrite E in En. vm_compute in En. discriminate En. }
    destruct (sread_unread (s_r s) H E0) as [b' [S1 [U1 [U2 [U3 [U4 _]]]]]]. rewrite S1, Ec, En. unfold scan_msg_len. cbn [s_r s_msglen s_ready].
    destruct (aread_eqv _ _ U1) as [A1 A2]. rewrite Ec in A1. rewrite Er in A2.
    assert (E0' : beqb (fst (aread (abs (unread_byte b')))) x00 = false) by (rewrite A1, <- Ec; exact E0).
    destruct (sread_unread (unread_byte b') U2 E0') as [b2 [S2 [_ [_ [_ [_ [V2 [V3 [V4 V5]]]]]]]]]. rewrite S2, A1.
    destruct (digits_loop_spec (S (left b2)) b2 [c] V3 ltac:(lia)) as [b3 [L1 [L2 [L3 [L4 L5]]]]]. rewrite L1. cbn [app].
    assert (Eq : eqv (abs b2) r) by (eapply eqv_trans; [exact V2|exact A2]). destruct (adigits_eqv _ _ Eq) as [Q1 Q2]. rewrite Q1.
    eexists _, _, _, _, _. split; [reflexivity|]. split; [reflexivity|]. split; [reflexivity|]. split; [reflexivity|]. intros _. cbn [s_r].
    split; [eapply eqv_trans; [exact L2|exact Q2]|]. split; [exact L3|]. split; [congruence|]. split; [lia|intros _; lia].
  - destruct (beqb c x00) eqn:E0.
    { destruct (sread_spec (s_r s) H) as [b' [S1 _]]. rewrite S1, Ec, En, E0. eexists _, _, _, _, _. do 4 (split; [reflexivity|]). discriminate. }
    destruct (sread_unread (s_r s) H ltac:(rewrite Ec; exact E0)) as [b' [S1 [U1 [U2 [U3 [U4 [S2 [S3 [S4 S5]]]]]]]]]. rewrite S1, Ec, En, E0. rewrite Er in S2.
    destruct (beqb c " ").
    { eexists _, _, _, _, _. do 4 (split; [reflexivity|]). intros _. cbn [s_r]. split; [assumption|]. split; [assumption|]. split; [assumption|]. split; [lia|intros _; lia]. }
    destruct (beqb c "<" && (0 <? s_msglen s) && s_ready s) eqn:El.
    + unfold scan_syslog_msg32. cbn [s_msglen s_r s_ready]. destruct (Z.ltb_spec (to_int32 (s_msglen s)) 0) as [Hneg|Hpos].
      { unfold peek. replace (to_int32 (s_msglen s) <? 0) with true by (symmetry; apply Z.ltb_lt; exact Hneg). eexists _, _, _, _, _. do 4 (split; [reflexivity|]). discriminate. }
      destruct (take_eqv (Z.to_nat (Z.min (to_int32 (s_msglen s)) cap)) _ _ U1) as [T1 T2]. rewrite Hm in *. destruct (Z.leb_spec (to_int32 (s_msglen s)) cap) as [Hc|Hc].
      2:{ destruct (peek_over (to_int32 (s_msglen s)) (unread_byte b') U2) as [b2 P]; [lia|]. rewrite P, U3. rewrite Z.min_r in * by lia. rewrite T1.
          destruct (take_bytes _ (abs (s_r s))) as [[t2 k2] q2]. cbn [fst]. rewrite andb_false_r. eexists _, _, _, _, _. do 4 (split; [reflexivity|]). discriminate. }
      rewrite Z.min_l in * by lia.
      destruct (peek_spec (to_int32 (s_msglen s)) (unread_byte b') U2) as [b2 [P1 P2]]; [lia|]. rewrite P1.
      destruct (take_bytes _ (abs (unread_byte b'))) as [[t1 k1] q1], (take_bytes _ (abs (s_r s))) as [[t2 k2] q2]. cbn [fst snd] in *. injection T1 as -> ->. rewrite andb_true_r.
      destruct k2.
      * destruct (P2 eq_refl) as [b3 [D1 [D2 [D3 [D4 D5]]]]]. rewrite D1. eexists _, _, _, _, _. do 4 (split; [reflexivity|]). intros _. cbn [s_r].
        split; [eapply eqv_trans; eauto|]. split; [exact D3|]. split; [congruence|]. 
        split; [lia|discriminate].
      * eexists _, _, _, _, _. do 4 (split; [reflexivity|]). discriminate.
    + eexists _, _, _, _, _. do 4 (split; [reflexivity|]). intros _. cbn [s_r]. split; [assumption|]. split; [assumption|]. split; [assumption|]. split; [lia|intros _; lia].
Qed.

(* ---- the parser ---- *)
Lemma cscan_ws32 cap ml rdy l tok ml' rdy' r : cscan32 cap ml rdy l = (tok, ml', rdy', r) -> is_typ WS tok = true -> ml' = ml.
Proof.
  unfold cscan32. destruct (aread l) as [c q].
  destruct (is_nonzero_digit c); [intros E; injection E as <- <- <- <-; discriminate|].
  destruct (beqb c x00); [intros E; injection E as <- <- <- <-; discriminate|].
  destruct (beqb c " "); [intros E; injection E as <- <- <- <-; reflexivity|].
  destruct (beqb c "<" && (0 <? ml) && rdy); [|intros E; injection E as <- <- <- <-; discriminate].
  destruct (to_int32 ml <? 0); [intros E; injection E as <- <- <- <-; discriminate|].
  destruct (take_bytes _ l) as [[t k] q']. destruct (k && _); intros E; injection E as <- <- <- <-; discriminate.
Qed.
Lemma cscan_msg32 cap ml rdy l tok ml' rdy' r : cscan32 cap ml rdy l = (tok, ml', rdy', r) -> is_typ SYSLOGMSG tok = true -> ml' = 0 /\ rdy' = false.
Proof.
  unfold cscan32. destruct (aread l) as [c q].
  destruct (is_nonzero_digit c); [intros E; injection E as <- <- <- <-; discriminate|].
  destruct (beqb c x00); [intros E; injection E as <- <- <- <-; discriminate|].
  destruct (beqb c " "); [intros E; injection E as <- <- <- <-; discriminate|].
  destruct (beqb c "<" && (0 <? ml) && rdy); [|intros E; injection E as <- <- <- <-; discriminate].
  destruct (to_int32 ml <? 0); [intros E; injection E as <- <- <- <-; discriminate|].
  destruct (take_bytes _ l) as [[t k] q']. destruct (k && _); intros E; injection E as <- <- <- <-; [auto|discriminate].
Qed.

(* what a parser keeps between its calls *)
Lemma pscan_spec32 cap p : p_stepback p = false -> ok (s_r (p_s p)) -> f_size (s_r (p_s p)) = cap -> s_msglen (p_s p) < 2 ^ 64 ->
  exists tok ml rdy r p', cscan32 cap (s_msglen (p_s p)) (s_ready (p_s p)) (abs (s_r (p_s p))) = (tok, ml, rdy, r) /\ pscan32 p = Some (tok, p')
    /\ s_msglen (p_s p') = ml /\ s_ready (p_s p') = rdy /\ p_last p' = tok /\ p_stepback p' = false /\ p_max p' = p_max p /\ p_best p' = p_best p /\ p_internal p' = p_internal p
    /\ (is_typ EOF tok = false -> eqv (abs (s_r (p_s p'))) r /\ ok (s_r (p_s p')) /\ f_size (s_r (p_s p')) = f_size (s_r (p_s p)) /\ (left (s_r (p_s p')) <= left (s_r (p_s p)))%nat /\ (is_typ SYSLOGMSG tok = false -> (left (s_r (p_s p')) < left (s_r (p_s p)))%nat)).
Proof.
  intros Hs H1 H2 H3. destruct (scan_spec32 cap (p_s p) H1 H2 H3) as [tok [ml [rdy [r [s' [E1 [E2 [E3 [E4 E5]]]]]]]]].
  unfold pscan32. rewrite Hs, E2. exists tok, ml, rdy, r, (set_p_s s' tok p). cbn. repeat split; auto; apply E5; assumption.
Qed.
Lemma body_spec32 cap f : forall p tok r, p_stepback p = false -> ok (s_r (p_s p)) -> f_size (s_r (p_s p)) = cap -> pok p ->
  0 <= s_msglen (p_s p) < 2 ^ 64 -> eqv (abs (s_r (p_s p))) r -> (left (s_r (p_s p)) < f)%nat ->
  exists rs p', run_body32 (run32 f) tok p = Some (rs, p') /\ cbody32 cap (crun32 cap f (p_max p) (p_best p) false) (p_max p) (p_best p) tok (s_msglen (p_s p)) (s_ready (p_s p)) r = Some rs
    /\ same_options p p'.
Proof.
  induction f as [f IH] using lt_wf_ind. intros p tok r Hsb Hok Hsz Hp Hml Heq Hf. unfold run_body32, cbody32.
  assert (Hso : same_options p p) by (unfold same_options; auto).
  destruct (is_typ MSGLEN tok) eqn:Et; cbn [negb]; [|eexists _, _; split; [reflexivity|]; split; [reflexivity|exact Hso]].
  destruct (Z.ltb_spec (p_max p) (to_int32 (s_msglen (p_s p)))) as [Hl|Hl]; [eexists _, _; split; [reflexivity|]; split; [reflexivity|exact Hso]|].
  (* second token *)
  destruct (pscan_spec32 cap p Hsb Hok Hsz ltac:(lia)) as [tok2 [ml2 [rdy2 [r2 [p2 [A1 [A2 [A3 [A4 [A5 [A6 [A7 [A8 [A9 A10]]]]]]]]]]]]]].
  destruct (cscan_eqv32 cap (s_msglen (p_s p)) (s_ready (p_s p)) _ _ Heq) as [Q1 Q2]. rewrite A1 in Q1, Q2. cbn [fst snd] in Q1, Q2.
  destruct (cscan32 cap _ _ r) as [[[tk ml] rdy] r'] eqn:EA. cbn [fst snd] in Q1, Q2. injection Q1 as <- <- <-. rewrite A2.
  assert (Hso2 : same_options p p2) by (unfold same_options; rewrite A9; auto).
  destruct (is_typ WS tok2) eqn:Et2; cbn [negb]; [|eexists _, _; split; [reflexivity|]; split; [reflexivity|exact Hso2]].
  assert (Em : ml2 = s_msglen (p_s p)) by (eapply cscan_ws32; eauto).
  destruct A10 as [B1 [B2 [B3 [_ B4]]]]; [eapply typ_excl; [exact Et2|discriminate]|]. specialize (B4 (typ_excl _ SYSLOGMSG _ Et2 ltac:(discriminate))).
  (* third token *)
  destruct (pscan_spec32 cap p2 A6 B2) as [tok3 [ml3 [rdy3 [r3 [p3 [C1 [C2 [C3 [C4 [C5 [C6 [C7 [C8 [C9 C10]]]]]]]]]]]]]]; [congruence|rewrite A3, Em; lia|].
  assert (Heq2 : eqv (abs (s_r (p_s p2))) r') by (eapply eqv_trans; eauto).
  destruct (cscan_eqv32 cap (s_msglen (p_s p2)) (s_ready (p_s p2)) _ _ Heq2) as [Q1 Q3]. rewrite C1 in Q1, Q3. cbn [fst snd] in Q1, Q3. rewrite A3, A4 in Q1, Q3.
  destruct (cscan32 cap ml2 rdy2 r') as [[[tk ml] rdy] r''] eqn:EB. cbn [fst snd] in Q1, Q3. injection Q1 as <- <- <-. rewrite C2.
  assert (Hso3 : same_options p p3) by (unfold same_options; rewrite C9, A9; repeat split; congruence).
  assert (Hp3 : pok p3) by (unfold pok in *; rewrite C9, A9; destruct Hp; split; congruence).
  destruct (pparse_spec p3 (tlit tok3) Hp3) as [p4 [D1 [D2 [D3 [D4 [D5 [D6 [D7 D8]]]]]]]].
  assert (Eb : p_best p3 = p_best p) by congruence. assert (Em3 : p_max p3 = p_max p) by congruence.
  assert (Hso4 : same_options p p4). { unfold same_options. rewrite D2, D3, D4, D7, D8, C9, A9. repeat split; congruence. }
  destruct (is_typ SYSLOGMSG tok3) eqn:Et3; cbn [negb].
  2:{ rewrite C3, Eb. destruct (_ && _); [|eexists _, _; split; [reflexivity|]; split; [reflexivity|exact Hso3]].
      rewrite D1, Eb. destruct (answer (p_best p) (tlit tok3)) as [mm e]. cbn [fst snd]. exists [Result mm (match e with None => Some (EAfter tok3 ml3) | Some x => Some (EMachine x) end)], p4.
      split; [destruct e; reflexivity|]. split; [reflexivity|exact Hso4]. }
  destruct (C10 ltac:(eapply typ_excl; [exact Et3|discriminate])) as [F1 [F2 [F3 [F4 _]]]].
  destruct (cscan_msg32 _ _ _ _ _ _ _ _ C1 Et3) as [Ez Ez'].
  rewrite D1, Eb. destruct (answer (p_best p) (tlit tok3)) as [mm e] eqn:Epf. cbn [fst snd r_err]. rewrite D3, Eb.
  destruct (negb (p_best p) && match option_map EMachine e with Some _ => true | None => false end) eqn:Ee.
  { apply andb_true_iff in Ee as [Ee1 Ee2]. destruct (p_best p); [discriminate|]. destruct e; [|discriminate]. cbn [option_map]. eexists _, _. split; [reflexivity|]. split; [reflexivity|exact Hso4]. }
  (* fourth token *)
  destruct (pscan_spec32 cap p4) as [tok5 [ml5 [rdy5 [r5 [p5 [G1 [G2 [G3 [G4 [G5 [G6 [G7 [G8 [G9 G10]]]]]]]]]]]]]];
    [congruence|rewrite D5; exact F2|rewrite D5; congruence|rewrite D5, C3, Ez; lia|]. rewrite G2.
  rewrite D5, C3, C4, Ez, Ez' in G1.
  assert (Heq4 : eqv (abs (s_r (p_s p3))) r'') by (eapply eqv_trans; eauto).
  destruct (cscan_eqv32 cap 0 false _ _ Heq4) as [Q1 Q4]. rewrite G1 in Q1, Q4. cbn [fst snd] in Q1, Q4.
  assert (Hso5 : same_options p p5). { unfold same_options in *. rewrite G7, G8, G9, G6. destruct Hso4 as [? [? [? [? ?]]]]. auto. }
  assert (Hfin : forall rs p', (if is_typ EOF tok5 then Some ([Result mm (option_map EMachine e)], p5) else match run32 f (set_p_stepback true p5) with Some (rs, p') => Some (Result mm (option_map EMachine e) :: rs, p') | None => None end) = Some (rs, p') ->
     same_options p p' -> (match crun32 cap f (p_max p) (p_best p) false r'' with Some rs => Some (Result mm (option_map EMachine e) :: rs) | None => None end) = Some rs ->
     exists rs0 p'0, (if is_typ EOF tok5 then Some ([Result mm (option_map EMachine e)], p5) else match run32 f (set_p_stepback true p5) with Some (rs, p') => Some (Result mm (option_map EMachine e) :: rs, p') | None => None end) = Some (rs0, p'0)
       /\ (match p_best p with true => match crun32 cap f (p_max p) (p_best p) false r'' with Some rs => Some (Result mm (option_map EMachine e) :: rs) | None => None end
           | false => match e with Some x => Some [Result None (Some (EMachine x))] | None => match crun32 cap f (p_max p) (p_best p) false r'' with Some rs => Some (Result mm (option_map EMachine e) :: rs) | None => None end end end) = Some rs0
       /\ same_options p p'0).
  { intros rs p' X1 X2 X3. exists rs, p'. split; [exact X1|]. split; [|exact X2]. destruct (p_best p); [exact X3|]. destruct e; [discriminate|exact X3]. }
  destruct f as [|f]; [lia|]. 
  assert (Har : crun32 cap (S f) (p_max p) (p_best p) false r'' = if is_typ EOF tok5 then Some [] else cbody32 cap (crun32 cap f (p_max p) (p_best p) false) (p_max p) (p_best p) tok5 ml5 rdy5 (snd (cscan32 cap 0 false r''))).
  { cbn [crun32]. destruct (cscan32 cap 0 false r'') as [[[tk ml] rdy] rr]. cbn [fst snd] in *. injection Q1 as <- <- <-. reflexivity. }
  destruct (is_typ EOF tok5) eqn:Et5.
  { eapply Hfin; [reflexivity|exact Hso5|]. rewrite Har. reflexivity. }
  destruct (G10 eq_refl) as [I1 [I2 [I3 [I4 _]]]]. rewrite D5 in I3, I4.
  destruct (IH f ltac:(lia) p5 tok5 (snd (cscan32 cap 0 false r''))) as [rs [p' [J1 [J2 J3]]]]; auto.
  - congruence.
  - unfold pok in *. rewrite G9, G8. exact D6.
  - rewrite G3. eapply cscan_range32; [|exact G1]. lia.
  - eapply eqv_trans; eauto.
  - lia.
  - eapply Hfin.
    + cbn [run32]. unfold pscan32 at 1. cbn [set_p_stepback p_stepback p_last]. rewrite G5.
      replace (set_p_stepback false (set_p_stepback true p5)) with p5 by (destruct p5; cbn in *; unfold set_p_stepback; cbn; congruence). rewrite J1. reflexivity.
    + unfold same_options in *. destruct J3 as [? [? [? [? ?]]]], Hso5 as [? [? [? [? ?]]]]. repeat split; congruence.
    + rewrite Har, <- G3, <- G4. rewrite G7, D2, Em3, G8, D3, Eb in J2. rewrite J2. reflexivity.
Qed.

(* ---- Parse ---- *)
Lemma cscan_not_ready32 cap ml l tok ml' rdy' r : cscan32 cap ml false l = (tok, ml', rdy', r) -> is_typ SYSLOGMSG tok = false.
Proof.
  unfold cscan32. destruct (aread l) as [c q]. rewrite andb_false_r.
  destruct (is_nonzero_digit c); [intros E; injection E as <- <- <- <-; reflexivity|].
  destruct (beqb c x00); [intros E; injection E as <- <- <- <-; reflexivity|].
  destruct (beqb c " "); intros E; injection E as <- <- <- <-; reflexivity.
Qed.
Lemma stream_spec_c32 p rd : p_stepback p = false -> pok p ->
  exists rs p', parse_stream32 p rd = Some (rs, p') /\ crun32 (f_size (s_r (new_scanner32 rd (p_max p)))) (S (rd_size rd)) (p_max p) (p_best p) true (delivered rd) = Some rs /\ same_options p p'.
Proof.
  intros Hsb Hp. unfold parse_stream32. set (p0 := OParser _ _ _ _ _ _). cbn [run32 crun32].
  assert (Hl : left (s_r (p_s p0)) = rd_size rd) by reflexivity.
  destruct (pscan_spec32 (f_size (s_r (new_scanner32 rd (p_max p)))) p0) as [tok [ml [rdy [r [p1 [A1 [A2 [A3 [A4 [A5 [A6 [A7 [A8 [A9 A10]]]]]]]]]]]]]].
  - exact Hsb.
  - unfold ok, f_buffered. cbn. lia.
  - reflexivity.
  - cbn. lia.
  - rewrite A2. assert (Ea : abs (s_r (p_s p0)) = delivered rd) by reflexivity. rewrite Ea in A1. cbn [p0 p_s new_scanner32 s_msglen s_ready] in A1. rewrite A1. cbn [negb andb].
    destruct (is_typ EOF tok) eqn:Et.
    + unfold run_body32, cbody32. rewrite (typ_excl EOF MSGLEN tok Et) by discriminate. cbn [negb]. eexists _, _. split; [reflexivity|]. split; [reflexivity|].
      unfold same_options. rewrite A6, A7, A8, A9. auto.
    + destruct (A10 eq_refl) as [B1 [B2 [B3 [_ B4]]]]. specialize (B4 (cscan_not_ready32 _ _ _ _ _ _ _ A1)).
      destruct (body_spec32 (f_size (s_r (new_scanner32 rd (p_max p)))) (rd_size rd) p1 tok r A6 B2) as [rs [p' [C1 [C2 C3]]]]; auto.
      * unfold pok in *. rewrite A9, A8. exact Hp.
      * rewrite A3. eapply cscan_range32; [|exact A1]. lia.
      * exists rs, p'. split; [exact C1|]. rewrite A3, A4, A7, A8 in C2. split; [exact C2|]. unfold same_options in *. rewrite A7, A8, A9 in C3. exact C3.
Qed.

Lemma after_ok32 rds : forall p, p_stepback p = false -> pok p ->
  p_best (after_streams32 p rds) = p_best p /\ p_max (after_streams32 p rds) = p_max p /\ p_stepback (after_streams32 p rds) = false /\ pok (after_streams32 p rds).
Proof.
  induction rds as [|rd rds IH]; intros p H1 H2; cbn [after_streams32]; [auto|].
  destruct (stream_spec_c32 p rd H1 H2) as [rs [p' [E [_ [S1 [S2 [S3 [S4 S5]]]]]]]]. rewrite E. destruct (IH p' S3) as [I1 [I2 [I3 I4]]].
  - destruct H2. unfold pok. split; congruence.
  - rewrite I1, I2. auto.
Qed.
