(* C70: Parse given a *bufio.Reader: the same results, and nothing is read beyond a message with an error. *)
From Verif Require Import Bytes CommonFacts Common M5424Def M5424 MBuilder Bufio MOctet SpecOctet ROctet ThmOctet MOctetLog MOctetBuf.
Local Open Scope Z_scope.

(* a parser made with opts, used before for the streams before *)
Definition used (opts : list popt) (before : list reader) : oparser := after_streams (new_parser opts) before.
Lemma used_ok opts before : p_best (used opts before) = opts_best opts /\ p_max (used opts before) = opts_max opts /\ p_stepback (used opts before) = false /\ pok (used opts before).
Proof.
  destruct (new_parser_ok opts) as [N1 [N2 [N3 N4]]]. destruct (after_ok before (new_parser opts) N3 N4) as [A1 [A2 [A3 A4]]]. unfold used. rewrite A1, A2, N1, N2. auto.
Qed.
Lemma size_enough b max : max < 2 ^ 63 - 20 -> 0 < f_size b -> add_int max 20 <= f_size b -> max <= f_size b.
Proof.
  intros H H0. unfold add_int, to_int. destruct (Z.le_gt_cases max 0); [lia|]. rewrite Z.mod_small by lia. destruct (Z.ltb_spec (max + 20) (2 ^ 63)); lia.
Qed.

(* Parse over a *bufio.Reader: only what it delivers counts *)
Lemma buf_spec p b : p_stepback p = false -> pok p -> ok b -> add_int (p_max p) 20 <= f_size b ->
  exists rs p', parse_buf p b = Some (rs, p') /\ crun (f_size b) (S (left b)) (p_max p) (p_best p) true (abs b) = Some rs /\ same_options p p'.
Proof.
  intros Hsb Hp Hb Hsz. unfold parse_buf, new_scanner_buf. destruct (Z.leb_spec (add_int (p_max p) 20) (f_size b)); [|lia]. set (p0 := OParser _ _ _ _ _ _). cbn [run crun].
  destruct (pscan_spec (f_size b) p0) as [tok [ml [rdy [r [p1 [A1 [A2 [A3 [A4 [A5 [A6 [A7 [A8 [A9 A10]]]]]]]]]]]]]].
  - exact Hsb.
  - exact Hb.
  - reflexivity.
  - cbn. lia.
  - rewrite A2. cbn [p0 p_s s_msglen s_ready s_r] in A1. rewrite A1. cbn [negb andb].
    destruct (is_typ EOF tok) eqn:Et.
    + unfold run_body, cbody. rewrite (typ_excl EOF MSGLEN tok Et) by discriminate. cbn [negb]. eexists _, _. split; [reflexivity|]. split; [reflexivity|].
      unfold same_options. rewrite A6, A7, A8, A9. auto.
    + destruct (A10 eq_refl) as [B1 [B2 [B3 B4]]].
      destruct (body_spec (f_size b) (left b) p1 tok r A6 B2) as [rs [p' [C1 [C2 C3]]]]; auto.
      * unfold pok in *. rewrite A9, A8. exact Hp.
      * rewrite A3. eapply cscan_range; [|exact A1]. lia.
      * exists rs, p'. split; [exact C1|]. rewrite A3, A4, A7, A8 in C2. split; [exact C2|]. unfold same_options in *. rewrite A7, A8, A9 in C3. exact C3.
Qed.
Lemma add_id max n : - 2 ^ 63 <= max < 2 ^ 63 - 20 -> max + 20 <= n -> 0 < n -> add_int max 20 <= n.
Proof.
  intros H H1 H2. unfold add_int, to_int. destruct (Z.le_gt_cases 0 (max + 20)) as [H0|H0].
  - rewrite Z.mod_small by lia. destruct (Z.ltb_spec (max + 20) (2 ^ 63)); lia.
  - replace (max + 20) with (max + 20 + 2 ^ 64 + (-1) * 2 ^ 64) by lia. rewrite Z_mod_plus_full, Z.mod_small by lia. destruct (Z.ltb_spec (max + 20 + 2 ^ 64) (2 ^ 63)); lia.
Qed.
Theorem bufio_same_results opts before b rd : - 2 ^ 63 <= opts_max opts < 2 ^ 63 - 20 -> ok b -> opts_max opts + 20 <= f_size b -> eqv (abs b) (delivered rd) ->
  results (parse_buf (used opts before) b) = emitted opts before rd.
Proof.
  intros Hm Hb Hsz Hd. destruct (used_ok opts before) as [U1 [U2 [U3 U4]]]. assert (B0 : 0 < f_size b) by apply Hb.
  assert (Hs : add_int (p_max (used opts before)) 20 <= f_size b) by (rewrite U2; apply add_id; assumption).
  destruct (buf_spec (used opts before) b U3 U4 Hb Hs) as [rs [p' [E1 [E2 _]]]]. rewrite E1. cbn [results]. rewrite U1, U2 in E2.
  rewrite crun_id in E2; [|lia|lia]. destruct (emitted_spec opts before rd (proj2 Hm)) as [rs' [F1 F2]]. rewrite F1. f_equal.
  rewrite (arun_eqv _ _ _ true _ _ Hd) in E2.
  pose proof (arun_more _ _ _ _ _ _ E2 (S (left b) + S (rd_size rd))%nat ltac:(lia)) as R1.
  pose proof (arun_more _ _ _ _ _ _ F2 (S (left b) + S (rd_size rd))%nat ltac:(lia)) as R2. congruence.
Qed.

Lemma typ_self' t l : is_typ t (Token t l) = true. Proof. destruct t; reflexivity. Qed.
(* ---------- where the reader stands ---------- *)
Record at_start (cap max : Z) (best : bool) (p : oparser) (l : list item) : Prop := {
  as_back : p_stepback p = false; as_pok : pok p; as_best : p_best p = best; as_max : p_max p = max;
  as_ok : ok (s_r (p_s p)); as_size : f_size (s_r (p_s p)) = cap; as_len : s_msglen (p_s p) = 0; as_abs : eqv (abs (s_r (p_s p))) l }.
(* the first token of a frame *)
Lemma start_token cap max best p fr rest : max < 2 ^ 63 - 20 -> 0 <= cap -> at_start cap max best p (frame_items fr ++ rest) -> frame_ok max fr ->
  exists p1, pscan p = Some (Token MSGLEN (f_len fr), p1) /\ p_last p1 = Token MSGLEN (f_len fr) /\ p_stepback p1 = false /\ pok p1 /\ p_best p1 = best /\ p_max p1 = max
    /\ ok (s_r (p_s p1)) /\ f_size (s_r (p_s p1)) = cap /\ s_msglen (p_s p1) = dec (f_len fr) /\ s_ready (p_s p1) = false /\ eqv (abs (s_r (p_s p1))) (IByte " " :: map IByte (f_msg fr) ++ rest)
    /\ (left (s_r (p_s p1)) < left (s_r (p_s p)))%nat.
Proof.
  intros Hm Hcap [S1 S2 S3 S4 S5 S6 S7 S8] [H1 [H2 [H3 [H4 [[t H5] H6]]]]].
  destruct (pscan_spec cap p S1 S5 S6 ltac:(rewrite S7; lia)) as [tok [ml [rdy [r [p1 [A1 [A2 [A3 [A4 [A5 [A6 [A7 [A8 [A9 A10]]]]]]]]]]]]]].
  rewrite S7 in A1. destruct (cscan_eqv cap 0 (s_ready (p_s p)) _ _ S8) as [Q1 Q2]. rewrite A1 in Q1, Q2. rewrite cscan_id in Q1, Q2 by (unfold to_int; cbn; lia).
  unfold frame_items in Q1, Q2. rewrite <- !app_assoc in Q1, Q2. cbn [app] in Q1, Q2. rewrite (ascan_len 0 _ (f_len fr) (f_gap fr) _ H1 H2 H6) in Q1, Q2. cbn [fst snd] in Q1, Q2.
  assert (Q3 : tok = Token MSGLEN (f_len fr)) by congruence. assert (Q4 : ml = parse_uint (f_len fr)) by congruence. assert (Q5 : rdy = false) by congruence. clear Q1. rewrite Q3 in *. rewrite Q4 in *. rewrite Q5 in *.
  destruct (A10 eq_refl) as [B1 [B2 [B3 B4]]]. exists p1. split; [exact A2|]. split; [exact A5|]. split; [exact A6|]. split; [unfold pok in *; rewrite A9, A8; exact S2|].
  split; [congruence|]. split; [congruence|]. split; [exact B2|]. split; [congruence|]. split; [rewrite A3, parse_uint_dec, Z.min_l by (exact H2 || lia); reflexivity|].
  split; [exact A4|]. split; [eapply eqv_trans; eauto|exact B4].
Qed.
(* the rest of a frame *)
Lemma frame_tokens cap max best p1 fr rest : max < 2 ^ 63 - 20 -> max <= cap -> frame_ok max fr ->
  p_stepback p1 = false -> pok p1 -> p_best p1 = best -> p_max p1 = max -> ok (s_r (p_s p1)) -> f_size (s_r (p_s p1)) = cap -> s_msglen (p_s p1) = dec (f_len fr) ->
  eqv (abs (s_r (p_s p1))) (IByte " " :: map IByte (f_msg fr) ++ rest) ->
  exists q, at_start cap max best q rest /\ (left (s_r (p_s q)) < left (s_r (p_s p1)))%nat /\ same_options p1 q /\ forall rec,
    run_body rec (Token MSGLEN (f_len fr)) p1 =
      if negb best && match snd (answer best (f_msg fr)) with Some _ => true | None => false end
      then Some ([Result None (option_map EMachine (snd (answer best (f_msg fr))))], q)
      else match pscan q with
           | None => None
           | Some (tok, p) => if is_typ EOF tok then Some ([answer_result best (f_msg fr)], p)
               else match rec (set_p_stepback true p) with Some (rs, p') => Some (answer_result best (f_msg fr) :: rs, p') | None => None end
           end.
Proof.
  intros Hm Hcap [H1 [H2 [H3 [H4 [[t H5] H6]]]]] S1 S2 S3 S4 S5 S6 S7 S8. assert (Hp : 0 < dec (f_len fr)) by (rewrite H3, H5; cbn [length]; lia).
  destruct (pscan_spec cap p1 S1 S5 S6 ltac:(rewrite S7; lia)) as [tok [ml [rdy [r [p2 [A1 [A2 [A3 [A4 [A5 [A6 [A7 [A8 [A9 A10]]]]]]]]]]]]]].
  destruct (cscan_eqv cap (s_msglen (p_s p1)) (s_ready (p_s p1)) _ _ S8) as [Q1 Q2]. rewrite A1 in Q1, Q2. rewrite S7 in Q1, Q2. rewrite cscan_id in Q1, Q2 by (rewrite to_int_id by lia; lia).
  rewrite ascan_space in Q1, Q2. cbn [fst snd] in Q1, Q2.
  assert (Q3 : tok = Token WS [" "%byte]) by congruence. assert (Q4 : ml = dec (f_len fr)) by congruence. assert (Q5 : rdy = true) by congruence. clear Q1. rewrite Q3 in *. rewrite Q4 in *. rewrite Q5 in *.
  destruct (A10 eq_refl) as [B1 [B2 [B3 B4]]]. pose proof (eqv_trans _ _ _ B1 Q2) as B5.
  destruct (pscan_spec cap p2 A6 B2 ltac:(congruence) ltac:(rewrite A3; lia)) as [tok3 [ml3 [rdy3 [r3 [p3 [C1 [C2 [C3 [C4 [C5 [C6 [C7 [C8 [C9 C10]]]]]]]]]]]]]].
  clear Q3 Q4 Q5. destruct (cscan_eqv cap (s_msglen (p_s p2)) (s_ready (p_s p2)) _ _ B5) as [Q1 Q3]. rewrite C1 in Q1, Q3. rewrite A3, A4 in Q1, Q3.
  rewrite cscan_id in Q1, Q3 by (rewrite to_int_id by lia; lia). rewrite H5 in Q1, Q3. cbn [map app] in Q1, Q3. rewrite ascan_lt in Q1, Q3 by (lia || reflexivity).
  change (IByte "<" :: map IByte t ++ rest) with (map IByte ("<"%byte :: t) ++ rest) in Q1, Q3. rewrite <- H5 in Q1, Q3. rewrite take_map in Q1, Q3 by lia.
  rewrite H3, Nat2Z.id, firstn_all, skipn_all in Q1, Q3. cbn [fst snd map app] in Q1, Q3.
  assert (Q4 : tok3 = Token SYSLOGMSG (f_msg fr)) by congruence. assert (Q5 : ml3 = 0) by congruence. assert (Q6 : rdy3 = false) by congruence. clear Q1. rewrite Q4 in *. rewrite Q5 in *. rewrite Q6 in *.
  destruct (C10 eq_refl) as [D1 [D2 [D3 D4]]].
  assert (P3 : pok p3) by (unfold pok in *; rewrite C9, A9, C8, A8; exact S2).
  destruct (pparse_spec p3 (f_msg fr) P3) as [q [E1 [E2 [E3 [E4 [E5 [E6 [E7 E8]]]]]]]].
  assert (Eb : p_best p3 = best) by congruence. rewrite Eb in *.
  exists q. split; [|split; [|split]].
  - constructor; try rewrite E5; try congruence; try exact E6; try exact D2; try (eapply eqv_trans; eassumption).
  - rewrite E5. lia.
  - unfold same_options. rewrite E2, E3, E4, E7, E8, C9, A9. repeat split; congruence.
  - intros rec. unfold run_body. rewrite typ_self'. cbn [negb]. rewrite S7, S4, to_int_id by lia. destruct (Z.ltb_spec max (dec (f_len fr))); [lia|].
    rewrite A2, typ_self'. cbn [negb]. rewrite C2, typ_self'. cbn [negb tlit]. rewrite E1. cbn [r_err]. rewrite E3. unfold answer_result.
    destruct (snd (answer best (f_msg fr))) as [e|] eqn:Ea; cbn [option_map]; [|reflexivity]. destruct best; cbn [negb andb]; [|reflexivity]. reflexivity.
Qed.

(* a strict parser: the messages before the first one with an error, the error, and the reader right behind that message *)
Lemma resume_run cap max : max < 2 ^ 63 - 20 -> 0 <= cap -> max <= cap -> forall fs f p fr rest e,
  at_start cap max false p (frames_items fs ++ frame_items fr ++ rest) -> Forall (frame_ok max) fs -> frame_ok max fr ->
  Forall (fun g => snd (answer false (f_msg g)) = None) fs -> snd (answer false (f_msg fr)) = Some e -> (left (s_r (p_s p)) <= f)%nat ->
  exists tok p1 p', pscan p = Some (tok, p1) /\ p_last p1 = tok /\ p_stepback p1 = false /\ is_typ EOF tok = false
    /\ run_body (run f) tok p1 = Some (map (fun g => answer_result false (f_msg g)) fs ++ [Result None (Some (EMachine e))], p')
    /\ at_start cap max false p' rest /\ same_options p p'.
Proof.
  intros Hm H0 Hcap. induction fs as [|g fs IH]; intros f p fr rest e Hst HF Hfr Ha He Hl.
  - destruct (start_token cap max false p fr rest Hm H0 Hst Hfr) as [p1 [A1 [A2 [A3 [A4 [A5 [A6 [A7 [A8 [A9 [A10 [A11 A12]]]]]]]]]]]].
    destruct (frame_tokens cap max false p1 fr rest Hm Hcap Hfr A3 A4 A5 A6 A7 A8 A9 A11) as [q [B1 [B2 [B3 B4]]]].
    exists (Token MSGLEN (f_len fr)), p1, q. split; [exact A1|]. split; [exact A2|]. split; [exact A3|]. split; [reflexivity|].
    split; [rewrite B4, He; reflexivity|]. split; [exact B1|].
    unfold pscan in A1. rewrite (as_back _ _ _ _ _ Hst) in A1. destruct (scan (p_s p)) as [[tk s]|]; [|discriminate]. assert (E : p1 = set_p_s s tk p) by congruence. rewrite E in B3. exact B3.
  - inversion HF as [|? ? Hg HF']; subst. inversion Ha as [|? ? Hga Ha']; subst. unfold frames_items in Hst. cbn [map concat] in Hst. rewrite <- app_assoc in Hst. fold (frames_items fs) in Hst.
    destruct (start_token cap max false p g _ Hm H0 Hst Hg) as [p1 [A1 [A2 [A3 [A4 [A5 [A6 [A7 [A8 [A9 [A10 [A11 A12]]]]]]]]]]]].
    destruct (frame_tokens cap max false p1 g _ Hm Hcap Hg A3 A4 A5 A6 A7 A8 A9 A11) as [q [B1 [B2 [B3 B4]]]].
    destruct f as [|f]; [lia|]. destruct (IH f q fr rest e B1 HF' Hfr Ha' He ltac:(lia)) as [tok [q1 [p' [C1 [C2 [C3 [C4 [C5 [C6 C7]]]]]]]]].
    exists (Token MSGLEN (f_len g)), p1, p'. split; [exact A1|]. split; [exact A2|]. split; [exact A3|]. split; [reflexivity|]. split; [|split; [exact C6|]].
    + rewrite B4, Hga. cbn [negb andb]. rewrite C1, C4. cbn [run]. unfold pscan at 1. cbn [set_p_stepback p_stepback p_last]. rewrite C2.
      replace (set_p_stepback false (set_p_stepback true q1)) with q1 by (destruct q1; cbn in *; unfold set_p_stepback; cbn; congruence). rewrite C5. reflexivity.
    + unfold pscan in A1. rewrite (as_back _ _ _ _ _ Hst) in A1. destruct (scan (p_s p)) as [[tk s]|]; [|discriminate]. assert (E : p1 = set_p_s s tk p) by congruence. rewrite E in B3.
      unfold same_options in *. cbn [set_p_s p_max p_best p_internal] in B3. destruct B3 as [X1 [X2 [X3 [X4 X5]]]], C7 as [Y1 [Y2 [Y3 [Y4 Y5]]]]. repeat split; congruence.
Qed.

Theorem bufio_resume opts before b fs fr rest e : - 2 ^ 63 <= opts_max opts < 2 ^ 63 - 20 -> opts_best opts = false -> ok b -> opts_max opts + 20 <= f_size b ->
  eqv (abs b) (frames_items fs ++ frame_items fr ++ rest) -> Forall (frame_ok (opts_max opts)) fs -> frame_ok (opts_max opts) fr ->
  Forall (fun g => snd (answer false (f_msg g)) = None) fs -> snd (answer false (f_msg fr)) = Some e ->
  exists p', parse_buf (used opts before) b = Some (map (fun g => answer_result false (f_msg g)) fs ++ [Result None (Some (EMachine e))], p')
    /\ ok (buf_after p') /\ f_size (buf_after p') = f_size b /\ eqv (abs (buf_after p')) rest
    /\ forall rd, eqv (delivered rd) rest -> results (parse_buf p' (buf_after p')) = emitted opts before rd.
Proof.
  intros Hm Hbest Hb Hsz Hd HF Hfr Ha He. destruct (used_ok opts before) as [U1 [U2 [U3 U4]]]. assert (B0 : 0 < f_size b) by apply Hb.
  assert (Hs : add_int (p_max (used opts before)) 20 <= f_size b) by (rewrite U2; apply add_id; assumption).
  assert (R : exists p', parse_buf (used opts before) b = Some (map (fun g => answer_result false (f_msg g)) fs ++ [Result None (Some (EMachine e))], p')
    /\ at_start (f_size b) (opts_max opts) false p' rest /\ same_options (used opts before) p').
  { unfold parse_buf, new_scanner_buf. destruct (Z.leb_spec (add_int (p_max (used opts before)) 20) (f_size b)); [|lia]. set (p0 := OParser _ _ _ _ _ _). cbn [run].
    assert (St : at_start (f_size b) (opts_max opts) false p0 (frames_items fs ++ frame_items fr ++ rest)).
    { constructor; [exact U3|exact U4|exact (eq_trans U1 Hbest)|exact U2|exact Hb|reflexivity|reflexivity|exact Hd]. }
    destruct (resume_run (f_size b) (opts_max opts) (proj2 Hm) ltac:(lia) ltac:(lia) fs (left b) p0 fr rest e St HF Hfr Ha He (le_n _)) as [tok [p1 [p' [C1 [C2 [C3 [C4 [C5 [C6 C7]]]]]]]]].
    rewrite C1, C5. exists p'. split; [reflexivity|]. split; [exact C6|exact C7]. }
  destruct R as [p' [R1 [[T1 T2 T3 T4 T5 T6 T7 T8] R3]]]. exists p'. split; [exact R1|]. split; [exact T5|]. split; [exact T6|]. split; [exact T8|].
  intros rd Hr. assert (Hs' : add_int (p_max p') 20 <= f_size (buf_after p')) by (unfold buf_after; rewrite T4, T6, <- U2; exact Hs).
  destruct (buf_spec p' (buf_after p') T1 T2 T5 Hs') as [rs [p2 [E1 [E2 _]]]]. rewrite E1. cbn [results]. rewrite T3, T4 in E2. unfold buf_after in E2 at 1. rewrite T6 in E2.
  rewrite crun_id in E2; [|lia|lia]. destruct (emitted_spec opts before rd (proj2 Hm)) as [rs' [F1 F2]]. rewrite F1. f_equal. rewrite Hbest in F2.
  rewrite (arun_eqv _ _ _ true _ _ T8) in E2. rewrite (arun_eqv _ _ _ true _ _ Hr) in F2.
  pose proof (arun_more _ _ _ _ _ _ E2 (S (left (buf_after p')) + S (rd_size rd))%nat ltac:(lia)) as G1.
  pose proof (arun_more _ _ _ _ _ _ F2 (S (left (buf_after p')) + S (rd_size rd))%nat ltac:(lia)) as G2. congruence.
Qed.

(* With another reader the parser makes a buffer of its own for each Parse: what it has read ahead is lost to the caller.  Two frames arrive in one
   read, the first message has an error: the second frame is neither parsed nor left in the reader. *)
Theorem plain_resume_refuted : exists rd fr1 fr2 p' e, opts_best [] = false /\ eqv (delivered rd) (frame_items fr1 ++ frame_items fr2)
  /\ plain_frame (opts_max []) fr1 /\ plain_frame (opts_max []) fr2 /\ snd (answer false (f_msg fr2)) = None
  /\ parse_stream (used [] []) rd = Some ([Result None (Some (EMachine e))], p') /\ to_read p' = []
  /\ results (parse_stream p' (to_read p')) = Some [Result None (Some (EFound (Token EOF []) MSGLEN))].
Proof.
  exists [(lit "3 <x>16 <2>1 - - - - - -", None)], (Frame (lit "3") [] (lit "<x>")), (Frame (lit "16") [] (lit "<2>1 - - - - - -")).
  eexists _, _. split; [reflexivity|]. split; [apply eqv_refl|].
  split; [split; [|reflexivity]; split; [discriminate|]; split; [repeat constructor; vm_compute; congruence|]; split; [reflexivity|]; split; [vm_compute; congruence|]; split; [eexists; reflexivity|left; reflexivity]|].
  split; [split; [|reflexivity]; split; [discriminate|]; split; [repeat constructor; vm_compute; congruence|]; split; [reflexivity|]; split; [vm_compute; congruence|]; split; [eexists; reflexivity|left; reflexivity]|].
  split; [vm_compute; reflexivity|]. split; [vm_compute; reflexivity|]. split; vm_compute; reflexivity.
Qed.
(* the same stream through a *bufio.Reader of 8212 bytes or more: the hypotheses of bufio_resume are met, and the second frame is there for the next Parse *)
Example bufio_resume_ex : let b := Bufio [] 0 None None 8212 [(lit "3 <x>16 <2>1 - - -", None); (lit " - - -", None)] in
  ok b /\ opts_max [] + 20 <= f_size b
  /\ eqv (abs b) (frames_items [] ++ frame_items (Frame (lit "3") [] (lit "<x>")) ++ frame_items (Frame (lit "16") [] (lit "<2>1 - - - - - -")))
  /\ match parse_buf (used [] []) b with
     | Some (rs, p') => length rs = 1%nat /\ results (parse_buf p' (buf_after p')) = Some [answer_result false (lit "<2>1 - - - - - -")]
     | None => False end.
Proof.
  cbv zeta. split; [split; [cbn; lia|split; cbn; lia]|]. split; [vm_compute; congruence|]. split; [apply eqv_refl|]. vm_compute. split; reflexivity.
Qed.
