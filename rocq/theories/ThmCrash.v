(* C78: panics of the listener or the reader. *)
From Verif Require Import Bytes CommonFacts Common M5424Def M5424 MBuilder Bufio MOctet SpecOctet ROctet ThmOctet MOctetCrash.
Local Open Scope Z_scope.

(* what every moment has in common with the beginning *)
Definition same (p q : oparser) : Prop := p_max q = p_max p /\ p_best q = p_best p /\ pok q.
Definition calm (p : oparser) (x : point) : Prop := same p (point_parser x) /\ p_stepback (point_parser x) = false.
Lemma pscan_same p tok q : pok p -> pscan p = Some (tok, q) -> same p q /\ p_stepback q = false.
Proof.
  unfold pscan, same, pok. intros Hp E. destruct (p_stepback p) eqn:Es; [injection E as <- <-; cbn; auto|].
  destruct (MOctet.scan (p_s p)) as [[t s]|]; [|discriminate]. injection E as <- <-. cbn. auto.
Qed.
Lemma scan_calm p0 p : same p0 p -> Forall (calm p0) (scan_point p).
Proof. intros H. unfold scan_point. destruct (p_stepback p) eqn:E; constructor; [split; assumption|constructor]. Qed.
Lemma same_trans p q r : same p q -> same q r -> same p r.
Proof. unfold same. intros [A [B _]] [C [D F]]. repeat split; congruence || apply F. Qed.
Lemma pparse_same p0 p data res q : same p0 p -> p_stepback p = false -> pparse p data = Some (res, q) -> same p0 q /\ p_stepback q = false.
Proof.
  intros H Hs E. destruct H as [A [B C]]. destruct (pparse_spec p data C) as [p' [P1 [P2 [P3 [P4 [P5 [P6 _]]]]]]]. rewrite P1 in E. injection E as _ <-.
  split; [split; [congruence|split; [congruence|exact P6]]|congruence].
Qed.
Lemma pt_run_calm f : forall p l q, pok p -> pt_run f p = Some (l, q) -> Forall (calm p) l /\ same p q /\ p_stepback q = false.
Proof.
  induction f as [|f IH]; intros p l q Hp E; [discriminate|]. cbn [pt_run] in E. assert (S0 : same p p) by (unfold same; auto).
  destruct (pscan p) as [[tok p1]|] eqn:E1; [|discriminate]. destruct (pscan_same _ _ _ Hp E1) as [S1 B1].
  destruct (pt_body (pt_run f) tok p1) as [[l1 q1]|] eqn:Eb; [|discriminate]. injection E as <- <-.
  enough (G : Forall (calm p) l1 /\ same p q1 /\ p_stepback q1 = false) by (destruct G as [G1 G2]; split; [apply Forall_app; split; [apply scan_calm; exact S0|exact G1]|exact G2]).
  unfold pt_body in Eb.
  assert (One : forall r x, same p x -> p_stepback x = false -> Forall (calm p) [AtListener r x]) by (intros r x Hx Hb; constructor; [split; assumption|constructor]).
  destruct (negb (is_typ MSGLEN tok)); [injection Eb as <- <-; auto|]. destruct (p_max p1 <? to_int (s_msglen (p_s p1))); [injection Eb as <- <-; auto|]. cbv zeta in Eb.
  destruct (pscan p1) as [[tok2 p2]|] eqn:E2; [|discriminate]. destruct (pscan_same _ _ _ (proj2 (proj2 S1)) E2) as [S2 B2]. apply (same_trans p) in S2; [|exact S1].
  pose proof (scan_calm p p1 S1) as C1.
  destruct (negb (is_typ WS tok2)); [injection Eb as <- <-; split; [apply Forall_app; auto|auto]|].
  destruct (pscan p2) as [[tok3 p3]|] eqn:E3; [|discriminate]. destruct (pscan_same _ _ _ (proj2 (proj2 S2)) E3) as [S3 B3]. apply (same_trans p) in S3; [|exact S2].
  pose proof (scan_calm p p2 S2) as C2.
  destruct (negb (is_typ SYSLOGMSG tok3)).
  - destruct (_ && _); [|injection Eb as <- <-; split; [rewrite !Forall_app; auto|auto]].
    destruct (pparse p3 (tlit tok3)) as [[[m re] p4]|] eqn:E4; [|discriminate]. destruct (pparse_same p _ _ _ _ S3 B3 E4) as [S4 B4]. injection Eb as <- <-. split; [rewrite !Forall_app; auto|auto].
  - destruct (pparse p3 (tlit tok3)) as [[res p4]|] eqn:E4; [|discriminate]. destruct (pparse_same p _ _ _ _ S3 B3 E4) as [S4 B4].
    destruct (_ && _); [injection Eb as <- <-; split; [rewrite !Forall_app; auto|auto]|].
    assert (Ch : Forall (calm p) (scan_point p1 ++ scan_point p2 ++ AtListener res p4 :: scan_point p4)).
    { rewrite !Forall_app. split; [exact C1|]. split; [exact C2|]. constructor; [split; assumption|apply scan_calm; exact S4]. }
    destruct (pscan p4) as [[tok5 p5]|] eqn:E5; [|discriminate]. destruct (pscan_same _ _ _ (proj2 (proj2 S4)) E5) as [S5 B5]. apply (same_trans p) in S5; [|exact S4].
    destruct (is_typ EOF tok5); [injection Eb as <- <-; auto|].
    destruct (pt_run f (set_p_stepback true p5)) as [[l6 p6]|] eqn:E6; [|discriminate]. injection Eb as <- <-.
    assert (S5' : same p (set_p_stepback true p5)) by exact S5.
    destruct (IH _ _ _ (proj2 (proj2 S5')) E6) as [I1 [I2 I3]]. split; [|split; [exact (same_trans _ _ _ S5' I2)|exact I3]].
    apply Forall_app. split; [exact Ch|]. revert I1. apply Forall_impl. intros x [X1 X2]. split; [exact (same_trans _ _ _ S5' X1)|exact X2].
Qed.
Lemma survive_ok p rd f : pok p -> p_stepback p = false -> same p (survive p rd f) /\ p_stepback (survive p rd f) = false.
Proof.
  intros Hp Hs. unfold survive. destruct (pt_stream p rd) as [[l q]|] eqn:E; [|split; [unfold same; auto|exact Hs]].
  unfold pt_stream in E. match type of E with pt_run _ ?pp = _ => assert (Hp' : pok pp) by exact Hp end. destruct (pt_run_calm _ _ _ _ Hp' E) as [G1 [G2 G3]]. destruct f as [|k s]; [split; [exact G2|exact G3]|].
  destruct (nth_error l k) as [x|] eqn:Ek; [|split; [exact G2|exact G3]]. rewrite Forall_forall in G1. apply nth_error_In, G1 in Ek as [X1 X2]. cbn. split; [exact X1|exact X2].
Qed.
Lemma lives_ok h : forall p, pok p -> p_stepback p = false -> same p (lives p h) /\ p_stepback (lives p h) = false.
Proof.
  induction h as [|[rd f] h IH]; intros p Hp Hs; cbn [lives]; [split; [unfold same; auto|exact Hs]|].
  destruct (survive_ok p rd f Hp Hs) as [A B]. destruct (IH _ (proj2 (proj2 A)) B) as [C D]. split; [exact (same_trans _ _ _ A C)|exact D].
Qed.

(* C78: whatever streams a parser has read or been interrupted in by a panic of the listener or the reader, the next stream gives the
   results a new parser gives *)
Theorem octet_survives_panics opts h rd : opts_max opts < 2 ^ 63 - 20 ->
  results (parse_stream (lives (new_parser opts) h) rd) = emitted opts [] rd.
Proof.
  intros Hm. destruct (new_parser_ok opts) as [N1 [N2 [N3 N4]]]. destruct (lives_ok h (new_parser opts) N4 N3) as [[L1 [L2 L3]] L4].
  unfold emitted. cbn [after_streams]. set (p := lives (new_parser opts) h) in *.
  destruct (stream_spec_c p rd L4 L3) as [rs [p' [E1 [E2 _]]]]. destruct (stream_spec_c (new_parser opts) rd N3 N4) as [rs0 [p0 [F1 [F2 _]]]].
  rewrite E1, F1. cbn [results]. rewrite L1, L2 in E2. congruence.
Qed.
(* ... and what the listener was handed before the panic is what it is handed without one, in the same order *)
Theorem octet_panic_prefix opts h rd l q k : pt_stream (lives (new_parser opts) h) rd = Some (l, q) ->
  exists rest, results (parse_stream (lives (new_parser opts) h) rd) = Some (handed (firstn k l) ++ rest).
Proof.
  intros E. rewrite pt_stream_results, E. cbn [results]. exists (handed (skipn k l)). rewrite <- handed_app, firstn_skipn. reflexivity.
Qed.
Theorem octet_points_total opts h rd : exists l q, pt_stream (lives (new_parser opts) h) rd = Some (l, q).
Proof.
  destruct (new_parser_ok opts) as [N1 [N2 [N3 N4]]]. destruct (lives_ok h (new_parser opts) N4 N3) as [[_ [_ L3]] L4].
  destruct (stream_spec_c _ rd L4 L3) as [rs [p' [E _]]]. rewrite pt_stream_results in E. destruct (pt_stream (lives (new_parser opts) h) rd) as [[l q]|]; [eauto|discriminate].
Qed.
(* the listener panics when it is handed the first of two results (the fourth point: three calls of the scanner before it), then the
   reader panics at its first call, then a stream is read *)
Example octet_survives_ex : exists l q, pt_stream (new_parser []) [(lit "16 <1>1 - - - - - -16 <2>1 - - - - - -", None)] = Some (l, q)
  /\ map (fun x => match x with AtListener _ _ => true | AtReader _ => false end) l = [false; false; false; true; false; false; false; true; false]
  /\ results (parse_stream (lives (new_parser []) [([(lit "16 <1>1 - - - - - -16 <2>1 - - - - - -", None)], Panicked 3 (new_scanner [] 5)); ([(lit "16 ", None)], Panicked 0 (new_scanner [] 7))])
       [(lit "16 <3>1 - - - - - -", None)]) = Some [answer_result false (lit "<3>1 - - - - - -")].
Proof. eexists _, _. split; [vm_compute; reflexivity|]. split; vm_compute; reflexivity. Qed.
