(* C79: the octet counting parser where int has 32 bits. *)
From Verif Require Import Bytes CommonFacts Common M5424Def M5424 MBuilder Bufio MOctet SpecOctet ROctet ThmOctet MOctet32 ROctet32.
Local Open Scope Z_scope.

Lemma to_int32_small n : 0 <= n < 2 ^ 31 -> to_int32 n = n.
Proof. intros H. unfold to_int32. rewrite Z.mod_small by lia. cbv zeta. destruct (Z.ltb_spec n (2 ^ 31)); lia. Qed.
Lemma to_int_small n : 0 <= n < 2 ^ 31 -> to_int n = n.
Proof. intros H. unfold to_int. destruct (Z.ltb_spec n (2 ^ 63)); lia. Qed.
Lemma to_int32_same n : 0 <= n < 2 ^ 31 -> to_int32 n = to_int n.
Proof. intros H. rewrite to_int32_small, to_int_small by exact H. reflexivity. Qed.
(* two's complement of the low 32 bits *)
Lemma to_int32_spec n : exists k, to_int32 n = n + k * 2 ^ 32 /\ - 2 ^ 31 <= to_int32 n < 2 ^ 31.
Proof.
  unfold to_int32. cbv zeta. pose proof (Z.mod_pos_bound n (2 ^ 32) ltac:(lia)). pose proof (Z.div_mod n (2 ^ 32) ltac:(lia)).
  destruct (Z.ltb_spec (n mod 2 ^ 32) (2 ^ 31)); [exists (- (n / 2 ^ 32))|exists (- (n / 2 ^ 32) - 1)]; lia.
Qed.
Lemma add_int32_same max : - 2 ^ 31 <= max -> max < 2 ^ 31 - 20 -> add_int32 max 20 = add_int max 20.
Proof.
  intros H1 H2. unfold add_int32, add_int. destruct (Z.leb_spec 0 (max + 20)).
  - rewrite Z.mod_small by lia. apply to_int32_same. lia.
  - assert (E : (max + 20) mod 2 ^ 64 = max + 20 + 2 ^ 64) by (rewrite <- (Z_mod_plus_full _ 1), Z.mod_small; lia). rewrite E.
    unfold to_int32, to_int. assert (E2 : (max + 20) mod 2 ^ 32 = max + 20 + 2 ^ 32) by (rewrite <- (Z_mod_plus_full _ 1), Z.mod_small; lia). rewrite E2. cbv zeta.
    destruct (Z.ltb_spec (max + 20 + 2 ^ 32) (2 ^ 31)); destruct (Z.ltb_spec (max + 20 + 2 ^ 64) (2 ^ 63)); lia.
Qed.

Definition mlen (p : oparser) : Z := s_msglen (p_s p).
Lemma scan_same s : 0 <= s_msglen s < 2 ^ 31 -> scan32 s = scan s.
Proof. intros H. unfold scan32, scan, scan_syslog_msg32, scan_syslog_msg. cbn [s_msglen s_r s_ready]. rewrite (to_int32_same _ H). reflexivity. Qed.
Lemma pscan_same32 p : p_stepback p = true \/ 0 <= mlen p < 2 ^ 31 -> pscan32 p = pscan p.
Proof. intros H. unfold pscan32, pscan. destruct (p_stepback p); [reflexivity|]. rewrite scan_same; [reflexivity|]. destruct H as [H|H]; [discriminate|exact H]. Qed.
Lemma nonzero_not_lt c : is_nonzero_digit c = true -> c <> "<"%byte.
Proof. intros H ->. discriminate H. Qed.
Record kept_scan (p : oparser) (t : token) (q : oparser) : Prop := KS {
  ks_sb : p_stepback q = false; ks_max : p_max q = p_max p; ks_best : p_best q = p_best p; ks_int : p_internal q = p_internal p; ks_last : p_last q = t;
  ks_range : 0 <= mlen q < 2 ^ 64;
  ks_ok : typ t <> EOF -> ok (s_r (p_s q));
  ks_lit : typ t = MSGLEN -> forall r, tlit t <> "<"%byte :: r;
  ks_len : typ t <> MSGLEN -> mlen q = mlen p \/ typ t = SYSLOGMSG /\ mlen q = 0;
  ks_msg : typ t = SYSLOGMSG -> 0 <= to_int (mlen p) }.
Lemma pscan_kept p t q : pscan p = Some (t, q) -> p_stepback p = false -> ok (s_r (p_s p)) -> 0 <= mlen p < 2 ^ 64 -> kept_scan p t q.
Proof.
  unfold mlen. intros E Hs Ho Hm. destruct (pscan_spec _ p Hs Ho eq_refl (proj2 Hm)) as [tok [ml [rdy [r [p' [C [E' [A1 [A2 [A3 [A4 [A5 [A6 [A7 A8]]]]]]]]]]]]]].
  rewrite E in E'. injection E' as <- <-.
  assert (Ok : typ t <> EOF -> ok (s_r (p_s q))) by (intros N; apply A8; destruct t as [[] ?]; cbn in *; congruence).
  unfold cscan in C. destruct (aread (abs (s_r (p_s p)))) as [c r0]. destruct (is_nonzero_digit c) eqn:Ed.
  { injection C as <- <- _ _. constructor; try assumption; unfold mlen; rewrite ?A1; try apply parse_uint_range; cbn [typ tlit]; try congruence.
    - apply (parse_uint_range (c :: fst (adigits r0))).
    - intros _ r' F. injection F as F _. exact (nonzero_not_lt c Ed F). }
  assert (G : forall tk, (tk, s_msglen (p_s p)) = (t, ml) -> typ tk <> MSGLEN -> typ tk <> SYSLOGMSG -> kept_scan p t q).
  { intros tk F N1 N2. injection F as <- F. constructor; try assumption; unfold mlen; rewrite ?A1, <- ?F; try assumption; try congruence. left. reflexivity. }
  destruct (beqb c x00); [injection C as C1 C2 _ _; apply (G (Token EOF [])); congruence || discriminate|].
  destruct (beqb c " "); [injection C as C1 C2 _ _; apply (G (Token WS [" "%byte])); congruence || discriminate|].
  destruct (_ && s_ready (p_s p)); [|injection C as C1 C2 _ _; apply (G (Token ILLEGAL [c])); congruence || discriminate].
  destruct (Z.ltb_spec (to_int (s_msglen (p_s p))) 0) as [Hn|Hn]; [injection C as C1 C2 _ _; apply (G (Token EOF [])); congruence || discriminate|].
  destruct (take_bytes _ _) as [[tb k] r']. destruct (k && _); [|injection C as C1 C2 _ _; apply (G (Token EOF tb)); congruence || discriminate].
  injection C as <- <- _ _. constructor; try assumption; unfold mlen; rewrite ?A1; cbn [typ]; try congruence; try lia; auto.
Qed.

(* the results after which the two widths cannot differ: see agrees *)
Definition harmless (best : bool) (r : result) : Prop :=
  match r_err r with
  | None => True
  | Some (EMachine _) => best = false \/ r_msg r <> None
  | Some (EAfter t n) => typ t = EOF /\ n < 2 ^ 31
  | Some (ETooLong n _) => n < 2 ^ 31
  | Some (EFound _ k) => k = MSGLEN
  end.

Lemma pparse_kept p data res q : pparse p data = Some (res, q) -> p_s q = p_s p /\ p_stepback q = p_stepback p /\ p_max q = p_max p /\ p_best q = p_best p /\ p_last q = p_last p.
Proof. unfold pparse. destruct (parse (p_internal p) data) as [m o]. destruct o; try discriminate. intros E. injection E as _ <-. auto 10. Qed.
Lemma run_agrees f : forall p rs q, pok p -> p_max p < 2 ^ 31 -> 0 <= mlen p < 2 ^ 64 -> (p_stepback p = true \/ mlen p < 2 ^ 31) ->
  (p_stepback p = true -> typ (p_last p) = EOF \/ ok (s_r (p_s p))) -> (p_stepback p = false -> ok (s_r (p_s p))) ->
  run f p = Some (rs, q) -> harmless (p_best p) (last rs (Result None None)) -> run32 f p = Some (rs, q).
Proof.
  induction f as [|f IH]; intros p rs q Hp Hmax Hr Hfit Ho1 Ho2 E HL; [discriminate|]. cbn [run run32] in *.
  rewrite pscan_same32 by (destruct Hfit as [H|H]; [left; exact H|right; lia]).
  destruct (pscan p) as [[tok p1]|] eqn:E1; [|discriminate].
  (* the parser after the first token *)
  assert (S1 : p_stepback p1 = false /\ p_max p1 = p_max p /\ p_best p1 = p_best p /\ pok p1 /\ 0 <= mlen p1 < 2 ^ 64 /\ (typ tok <> EOF -> ok (s_r (p_s p1)))).
  { destruct (p_stepback p) eqn:Hs.
    - unfold pscan in E1. rewrite Hs in E1. injection E1 as <- <-. split; [reflexivity|]. split; [reflexivity|]. split; [reflexivity|]. split; [exact Hp|]. split; [exact Hr|].
      intros N. destruct (Ho1 eq_refl) as [H|H]; [congruence|exact H].
    - destruct (pscan_kept _ _ _ E1 Hs (Ho2 eq_refl) Hr) as [K1 K2 K3 K4 K5 K6 K7 K8 K9 K10]. split; [exact K1|]. split; [exact K2|]. split; [exact K3|].
      split; [unfold pok in *; rewrite K4, K3; exact Hp|]. split; [exact K6|exact K7]. }
  destruct S1 as [B1 [M1 [T1 [P1 [R1 O1]]]]]. unfold run_body in E. unfold run_body32.
  destruct (negb (is_typ MSGLEN tok)) eqn:Et; [exact E|]. assert (Ty : typ tok = MSGLEN) by (destruct tok as [[] ?]; cbn in *; congruence). specialize (O1 ltac:(congruence)).
  fold (mlen p1) in *. destruct (Z.ltb_spec (mlen p1) (2 ^ 31)) as [Hn|Hn].
  - (* the length fits *)
    rewrite (to_int32_same (mlen p1)) by lia. destruct (p_max p1 <? to_int (mlen p1)); [exact E|].
    rewrite pscan_same32 by (right; lia). destruct (pscan p1) as [[tok2 p2]|] eqn:E2; [|discriminate].
    destruct (pscan_kept _ _ _ E2 B1 O1 R1) as [B2 M2 T2 I2 L2 R2 O2 Q2 N2 G2]. destruct (negb (is_typ WS tok2)) eqn:Et2; [exact E|].
    assert (Ty2 : typ tok2 = WS) by (destruct tok2 as [[] ?]; cbn in *; congruence). specialize (O2 ltac:(congruence)).
    assert (F2 : mlen p2 = mlen p1) by (destruct (N2 ltac:(congruence)) as [H|[H _]]; congruence).
    rewrite pscan_same32 by (right; lia). destruct (pscan p2) as [[tok3 p3]|] eqn:E3; [|discriminate].
    destruct (pscan_kept _ _ _ E3 B2 O2 R2) as [B3 M3 T3 I3 L3 R3 O3 Q3 N3 G3].
    assert (P3 : pok p3) by (unfold pok in *; rewrite I3, I2, T3, T2; exact P1). cbv zeta in *. fold (mlen p3) in *.
    destruct (negb (is_typ SYSLOGMSG tok3)) eqn:Et3.
    + destruct (is_typ MSGLEN tok3) eqn:Et3m.
      * (* a length instead of a message: such a result is not harmless *)
        exfalso. assert (Ty3 : typ tok3 = MSGLEN) by (destruct tok3 as [[] ?]; cbn in *; congruence).
        destruct ((Z.of_nat (length (tlit tok3)) <? to_int (mlen p3)) && p_best p3) eqn:Eb.
        -- destruct (pparse_spec p3 (tlit tok3) P3) as [p4 [X _]]. rewrite X in E. rewrite (answer_no_lt _ _ (Q3 Ty3)) in E. cbn [fst snd option_map] in E. injection E as <- _.
           cbn in HL. apply andb_true_iff in Eb as [_ Eb]. destruct HL as [HL|HL]; [rewrite T3, T2, T1 in Eb; congruence|congruence].
        -- injection E as <- _. cbn in HL. destruct HL as [HL _]. congruence.
      * assert (F3 : mlen p3 = mlen p1). { destruct (N3) as [H|[H _]]; [destruct tok3 as [[] ?]; cbn in *; congruence|congruence|destruct tok3 as [[] ?]; cbn in *; congruence]. }
        rewrite (to_int32_same (mlen p3)) by lia. exact E.
    + assert (Ty3 : typ tok3 = SYSLOGMSG) by (destruct tok3 as [[] ?]; cbn in *; congruence). specialize (O3 ltac:(congruence)).
      destruct (pparse p3 (tlit tok3)) as [[res p4]|] eqn:E4; [|discriminate]. destruct (pparse_kept _ _ _ _ E4) as [S4 [B4 [M4 [T4 L4]]]].
      assert (P4 : pok p4). { destruct (pparse_spec p3 (tlit tok3) P3) as [p4' [X [_ [_ [_ [_ [Y _]]]]]]]. rewrite X in E4. injection E4 as _ <-. exact Y. }
      destruct (negb (p_best p4) && _); [exact E|].
      assert (R4 : 0 <= mlen p4 < 2 ^ 31). { unfold mlen in *. rewrite S4. destruct (N3 ltac:(congruence)) as [H|[_ H]]; lia. }
      rewrite pscan_same32 by (right; exact R4). destruct (pscan p4) as [[tok5 p5]|] eqn:E5; [|discriminate].
      destruct (pscan_kept _ _ _ E5 ltac:(congruence) ltac:(rewrite S4; exact O3) ltac:(lia)) as [B5 M5 T5 I5 L5 R5 O5 Q5 N5 G5].
      destruct (is_typ EOF tok5) eqn:Et5; [exact E|]. destruct (run f (set_p_stepback true p5)) as [[rs' q']|] eqn:E6; [|discriminate]. injection E as <- <-.
      rewrite (IH (set_p_stepback true p5) rs' q'); [reflexivity| | | | | | |exact E6|].
      * unfold pok in *. cbn. rewrite I5, T5. exact P4.
      * cbn. lia.
      * exact R5.
      * left. reflexivity.
      * intros _. right. apply O5. destruct tok5 as [[] ?]; cbn in *; congruence.
      * discriminate.
      * cbn [p_best set_p_stepback]. rewrite T5, T4, T3, T2, T1. destruct rs' as [|r0 rs']; [exact I|exact HL].
  - (* it does not: the 64-bit parser reports that in a way that is not harmless *)
    exfalso. destruct (Z.ltb_spec (p_max p1) (to_int (mlen p1))) as [Hl|Hl]; [injection E as <- _; cbn in HL; lia|].
    assert (Hneg : 2 ^ 63 <= mlen p1 /\ to_int (mlen p1) < 0) by (unfold to_int in *; destruct (Z.ltb_spec (mlen p1) (2 ^ 63)); lia). destruct Hneg as [Hb Hneg].
    destruct (pscan p1) as [[tok2 p2]|] eqn:E2; [|discriminate].
    destruct (pscan_kept _ _ _ E2 B1 O1 R1) as [B2 M2 T2 I2 L2 R2 O2 Q2 N2 G2]. destruct (negb (is_typ WS tok2)) eqn:Et2; [injection E as <- _; cbn in HL; discriminate|].
    assert (Ty2 : typ tok2 = WS) by (destruct tok2 as [[] ?]; cbn in *; congruence). specialize (O2 ltac:(congruence)).
    assert (F2 : mlen p2 = mlen p1) by (destruct (N2 ltac:(congruence)) as [H|[H _]]; congruence).
    destruct (pscan p2) as [[tok3 p3]|] eqn:E3; [|discriminate].
    destruct (pscan_kept _ _ _ E3 B2 O2 R2) as [B3 M3 T3 I3 L3 R3 O3 Q3 N3 G3].
    assert (P3 : pok p3) by (unfold pok in *; rewrite I3, I2, T3, T2; exact P1). cbv zeta in *. fold (mlen p3) in *.
    destruct (negb (is_typ SYSLOGMSG tok3)) eqn:Et3; [|assert (Ty3 : typ tok3 = SYSLOGMSG) by (destruct tok3 as [[] ?]; cbn in *; congruence); specialize (G3 Ty3); rewrite F2 in G3; lia].
    destruct (is_typ MSGLEN tok3) eqn:Et3m.
    + assert (Ty3 : typ tok3 = MSGLEN) by (destruct tok3 as [[] ?]; cbn in *; congruence).
      destruct ((Z.of_nat (length (tlit tok3)) <? to_int (mlen p3)) && p_best p3) eqn:Eb.
      -- destruct (pparse_spec p3 (tlit tok3) P3) as [p4 [X _]]. rewrite X in E. rewrite (answer_no_lt _ _ (Q3 Ty3)) in E. cbn [fst snd option_map] in E. injection E as <- _.
         cbn in HL. apply andb_true_iff in Eb as [_ Eb]. destruct HL as [HL|HL]; [rewrite T3, T2, T1 in Eb; congruence|congruence].
      -- injection E as <- _. cbn in HL. destruct HL as [HL _]. congruence.
    + assert (F3 : mlen p3 = mlen p1). { destruct (N3) as [H|[H _]]; [destruct tok3 as [[] ?]; cbn in *; congruence|congruence|destruct tok3 as [[] ?]; cbn in *; congruence]. }
      rewrite F3 in E. destruct (Z.ltb_spec (Z.of_nat (length (tlit tok3))) (to_int (mlen p1))) as [Hc|_]; [lia|]. cbn [andb] in E. injection E as <- _. cbn in HL. destruct HL as [_ HL]. lia.
Qed.

(* C79: where int has 32 bits, too, Parse returns and never panics, whatever the reader delivers and whatever was parsed before (also
   for lengths that the conversion makes negative or zero) ... *)
Theorem total_32_bits opts before rd : exists rs p, parse_stream32 (after_streams32 (new_parser opts) before) rd = Some (rs, p).
Proof.
  destruct (new_parser_ok opts) as [N1 [N2 [N3 N4]]]. destruct (after_ok32 before (new_parser opts) N3 N4) as [A1 [A2 [A3 A4]]].
  destruct (stream_spec_c32 _ rd A3 A4) as [rs [p' [E1 _]]]. eauto.
Qed.
Lemma emitted_spec32 opts before rd : exists rs, emitted32 opts before rd = Some rs
  /\ crun32 (f_size (s_r (new_scanner32 [] (opts_max opts)))) (S (rd_size rd)) (opts_max opts) (opts_best opts) true (delivered rd) = Some rs.
Proof.
  destruct (new_parser_ok opts) as [N1 [N2 [N3 N4]]]. destruct (after_ok32 before (new_parser opts) N3 N4) as [A1 [A2 [A3 A4]]].
  destruct (stream_spec_c32 _ rd A3 A4) as [rs [p' [E1 [E2 _]]]]. exists rs. unfold emitted32. rewrite E1. rewrite A1, A2, N1, N2 in E2. auto.
Qed.
(* the conversion makes 4294967296 zero: an empty message; it makes 2147483649 negative: no message *)
Example total_32_bits_ex : emitted32 [OBestEffort] [] [(lit "4294967296 <1>1 - - - - - -", None)] = Some [Result None (Some (EMachine (PErr EPri 0))); Result None (Some (EFound (Token ILLEGAL (lit "<")) MSGLEN))]
  /\ emitted32 [OBestEffort] [] [(lit "2147483649 <1>1 - - - - - -", None)] = Some [Result None (Some (EAfter (Token EOF []) 2147483649))].
Proof. split; vm_compute; reflexivity. Qed.
(* ... the results do not depend on earlier streams ... *)
Theorem reuse_32_bits opts before rd : emitted32 opts before rd = emitted32 opts [] rd.
Proof. destruct (emitted_spec32 opts before rd) as [rs [E1 E2]], (emitted_spec32 opts [] rd) as [rs' [E1' E2']]. congruence. Qed.
Example reuse_32_bits_ex : emitted32 [] [[(lit "4294967312 <1>1 - - -", None)]] [(lit "16 <1>1 - - - - - -", None)] = Some [answer_result false (lit "<1>1 - - - - - -")].
Proof. vm_compute. reflexivity. Qed.
(* ... nor on how the stream is cut into reads *)
Theorem reads_32_bits opts before rd rd' : eqv (delivered rd) (delivered rd') -> emitted32 opts before rd = emitted32 opts before rd'.
Proof.
  intros H. destruct (emitted_spec32 opts before rd) as [rs [E1 E2]], (emitted_spec32 opts before rd') as [rs' [E1' E2']]. rewrite E1, E1'.
  rewrite (crun_eqv32 _ _ _ _ _ _ _ H) in E2. pose proof (crun_more32 _ _ _ _ _ _ _ E2 (S (rd_size rd) + S (rd_size rd'))%nat ltac:(lia)).
  pose proof (crun_more32 _ _ _ _ _ _ _ E2' (S (rd_size rd) + S (rd_size rd'))%nat ltac:(lia)). congruence.
Qed.

(* ... and where the maximum length is below 2^31 - 20, a stream gives the same results as where int has 64 bits, if
   the last of these is a message without an error; or a bad message (with best effort: one that is not lost completely); or the report of a
   length that is too long, or of a message cut short, and the announced length is below 2^31; or the report that there is no length. *)
Theorem same_with_32_bits opts before before' rd rs : - 2 ^ 31 <= opts_max opts -> opts_max opts < 2 ^ 31 - 20 ->
  emitted opts before rd = Some rs -> harmless (opts_best opts) (last rs (Result None None)) -> emitted32 opts before' rd = Some rs.
Proof.
  intros H1 H2 E HL. rewrite stream_reuse in E. rewrite reuse_32_bits.
  destruct (new_parser_ok opts) as [N1 [N2 [N3 N4]]]. unfold emitted in E. cbn [after_streams] in E. unfold emitted32, parse_stream32. cbn [after_streams32].
  unfold parse_stream in E. unfold new_scanner32. rewrite N2, add_int32_same by assumption. rewrite N2 in E. unfold new_scanner in E.
  set (p := OParser _ _ _ _ _ _) in *. destruct (run (S (rd_size rd)) p) as [[rs' q]|] eqn:Er; [|discriminate]. cbn [results] in E. injection E as ->.
  rewrite (run_agrees (S (rd_size rd)) p rs q); [reflexivity| | | | | | |exact Er|].
  - exact N4.
  - cbn. lia.
  - cbn. lia.
  - right. cbn. lia.
  - intros F. change (p_stepback p) with (p_stepback (new_parser opts)) in F. congruence.
  - intros _. unfold ok, f_buffered. cbn. lia.
  - change (p_best p) with (p_best (new_parser opts)). rewrite N1. exact HL.
Qed.
(* in particular a stream of frames, whatever follows the last one short of the end, all of them with good messages *)
Corollary well_formed_32_bits opts before before' rd fs : - 2 ^ 31 <= opts_max opts -> opts_max opts < 2 ^ 31 - 20 ->
  emitted opts before rd = Some (map (fun f => answer_result (opts_best opts) (f_msg f)) fs) -> Forall (fun f => snd (answer (opts_best opts) (f_msg f)) = None) fs ->
  emitted32 opts before' rd = Some (map (fun f => answer_result (opts_best opts) (f_msg f)) fs).
Proof.
  intros H1 H2 E HF. apply (same_with_32_bits opts before); try assumption. destruct fs as [|f0 fs0]; [exact I|].
  destruct (exists_last (l := f0 :: fs0) ltac:(discriminate)) as [l [f El]]. rewrite El in *. rewrite map_app. cbn [map]. rewrite last_last.
  apply Forall_app in HF as [_ HF]. inversion HF as [|? ? H _]; subst. unfold harmless, answer_result. cbn [r_err]. rewrite H. exact I.
Qed.
(* the hypotheses are met: a message, then one that is cut short *)
Example same_with_32_bits_ex : let rd := [(lit "16 <1>1 - - - ", None); (lit "- - -20 <2>1 - - -", None)] in exists rs,
  emitted [] [] rd = Some rs /\ length rs = 2%nat /\ harmless false (last rs (Result None None)) /\ emitted32 [] [] rd = Some rs.
Proof.
  cbv zeta. eexists. assert (E : emitted [] [] [(lit "16 <1>1 - - - ", None); (lit "- - -20 <2>1 - - -", None)] = Some [answer_result false (lit "<1>1 - - - - - -"); Result None (Some (EAfter (Token EOF (lit "<2>1 - - -")) 20))]) by (vm_compute; reflexivity).
  split; [exact E|]. split; [reflexivity|]. assert (H : harmless false (last [answer_result false (lit "<1>1 - - - - - -"); Result None (Some (EAfter (Token EOF (lit "<2>1 - - -")) 20))] (Result None None))) by (cbn [last harmless r_err typ]; split; [reflexivity|lia]).
  split; [exact H|]. apply (same_with_32_bits [] []); [| |exact E|exact H]; cbn; lia.
Qed.

(* Without the condition on the lengths: 4294967312 = 2^32 + 16 is far above the maximum, and refused with 64 bits.  With 32 bits it is
   taken for 16, and a message is accepted. *)
Theorem too_long_32_bits_refuted : exists rd n, 2 ^ 31 <= n
  /\ emitted [] [] rd = Some [Result None (Some (ETooLong n 8192))]
  /\ emitted32 [] [] rd = Some [answer_result false (lit "<1>1 - - - - - -")] /\ snd (answer false (lit "<1>1 - - - - - -")) = None.
Proof. exists [(lit "4294967312 <1>1 - - - - - -", None)], 4294967312. split; [lia|]. split; [apply wraps32|]. split; [apply wraps32|vm_compute; reflexivity]. Qed.

(* ---- the decimal conversion of package common *)
Lemma wrap32_id z : - 2 ^ 31 <= z < 2 ^ 31 -> wrap32 z = z.
Proof. intros H. unfold wrap32. rewrite Z.mod_small by lia. lia. Qed.
Lemma wrap32_mod z : wrap32 z mod 2 ^ 32 = z mod 2 ^ 32.
Proof. unfold wrap32. rewrite Zminus_mod_idemp_l. f_equal. lia. Qed.
Lemma wrap32_cong a b : a mod 2 ^ 32 = b mod 2 ^ 32 -> wrap32 a = wrap32 b.
Proof. intros H. unfold wrap32. f_equal. rewrite <- (Zplus_mod_idemp_l a), <- (Zplus_mod_idemp_l b), H. reflexivity. Qed.
Lemma dec_loop32_spec l : forall out ord, dec_loop32 l out ord = match l with [] => out | _ => wrap32 (out + ord * ldec l) end.
Proof.
  induction l as [|b r IH]; intros out ord; [reflexivity|].
  cbn [dec_loop32]. rewrite IH. fold (dig b).
  destruct r as [|c r'].
  - cbn [ldec]. apply wrap32_cong. rewrite <- Zplus_mod_idemp_r, wrap32_mod, Zplus_mod_idemp_r. f_equal. lia.
  - set (r := c :: r'). cbn [ldec]. apply wrap32_cong.
    rewrite <- Zplus_mod_idemp_l, wrap32_mod, Zplus_mod_idemp_l.
    replace (out + wrap32 (dig b * ord) + wrap32 (ord * 10) * ldec r) with (wrap32 (dig b * ord) + (out + wrap32 (ord * 10) * ldec r)) by lia.
    rewrite <- Zplus_mod_idemp_l, wrap32_mod, Zplus_mod_idemp_l.
    replace (dig b * ord + (out + wrap32 (ord * 10) * ldec r)) with (wrap32 (ord * 10) * ldec r + (dig b * ord + out)) by lia.
    rewrite <- Zplus_mod_idemp_l, <- Zmult_mod_idemp_l, wrap32_mod, Zmult_mod_idemp_l, Zplus_mod_idemp_l.
    f_equal. lia.
Qed.
(* C79: whatever the bytes, the result is the decimal value reduced to 32 bits; below 2^31 (nine digits, say) it is that of 64 bits: the
   priorities and versions of the machines (at most three digits) do not depend on the width *)
Theorem decimal_32_bits l : dec_to_int32 l = wrap32 (dec l).
Proof. unfold dec_to_int32. rewrite dec_loop32_spec, dec_ldec. destruct (rev l) eqn:E; [reflexivity|]. f_equal. lia. Qed.
Theorem decimal_same_32_bits l : Forall digit l -> dec l < 2 ^ 31 \/ (length l <= 9)%nat -> dec_to_int32 l = dec_to_int l.
Proof.
  intros Hd H. pose proof (dec_bound l Hd) as B. assert (L : dec l < 2 ^ 31).
  { destruct H as [H|H]; [exact H|]. assert (10 ^ Z.of_nat (length l) <= 10 ^ 9) by (apply Z.pow_le_mono_r; lia). lia. }
  rewrite decimal_32_bits, dec_to_int_wrap, wrap32_id, wrap64_id; lia.
Qed.
Example decimal_32_bits_ex : dec_to_int32 (lit "4294967312") = 16 /\ dec_to_int32 (lit "191") = dec_to_int (lit "191"). Proof. split; reflexivity. Qed.
