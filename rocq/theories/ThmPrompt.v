(* C67: the octet counting parser emits a result as soon as its frame has been read. *)
From Verif Require Import Bytes CommonFacts Common M5424Def M5424 MBuilder Bufio MOctet SpecOctet ROctet ThmOctet MOctetLog.
Local Open Scope Z_scope.

(* reads without errors, fewer than a hundred empty ones in a row *)
Definition quiet (rd : reader) : Prop :=
  Forall (fun x => snd x = None) rd
  /\ (forall pre mid post, rd = pre ++ mid ++ post -> Forall (fun x => x = ([], None)) mid -> (length mid < 100)%nat).
(* the results emitted for a stream, each with the reads not made yet when it was emitted *)
Definition emissions (opts : list popt) (before : list reader) (rd : reader) : option (list (result * reader)) :=
  match log_stream (after_streams (new_parser opts) before) rd with Some (l, _) => Some l | None => None end.
Theorem emissions_results opts before rd : emitted opts before rd = option_map (map fst) (emissions opts before rd).
Proof. unfold emitted, emissions. rewrite log_stream_results. destruct (log_stream _ rd) as [[l q]|]; reflexivity. Qed.

(* ---------- bufio ---------- *)
Lemma quiet_tail x r : quiet (x :: r) -> quiet r.
Proof. intros [H1 H2]. inversion H1; subst. split; [assumption|]. intros pre mid post ->. apply (H2 (x :: pre) mid post). reflexivity. Qed.
Lemma quiet_head c c' r : c' <> [] -> quiet ((c, None) :: r) -> quiet ((c', None) :: r).
Proof.
  intros Hc H. destruct (quiet_tail _ _ H) as [T1 T2]. split; [constructor; [reflexivity|exact T1]|].
  intros pre mid post E F. destruct pre as [|x pre]; cbn [app] in E.
  - destruct mid as [|x mid]; [cbn; lia|]. injection E as E1 E2. inversion F; subst. congruence.
  - injection E as E1 E2. exact (T2 pre mid post E2 F).
Qed.
Lemma quiet_lead rd : quiet rd -> content rd <> [] -> exists j c r, rd = repeat ([], None) j ++ (c, None) :: r /\ c <> [] /\ (j < 100)%nat.
Proof.
  intros Hq Hc. assert (G : exists j c r, rd = repeat ([], None) j ++ (c, None) :: r /\ c <> []).
  { induction rd as [|[c e] r IH]; [destruct (Hc eq_refl)|]. pose proof Hq as [Q1 _]. inversion Q1 as [|? ? E _]; subst. cbn in E. subst e. destruct c as [|b c].
    - destruct (IH (quiet_tail _ _ Hq) Hc) as [j [c [r' [-> H]]]]. exists (S j), c, r'. auto.
    - exists 0%nat, (b :: c), r. split; [reflexivity|discriminate]. }
  destruct G as [j [c [r [-> H]]]]. exists j, c, r. split; [reflexivity|]. split; [exact H|]. destruct Hq as [_ Hq].
  specialize (Hq [] (repeat ([], None) j) ((c, None) :: r) eq_refl). rewrite repeat_length in Hq. apply Hq. clear. induction j; constructor; auto.
Qed.
Lemma quiet_drop j x r : quiet (repeat x j ++ r) -> quiet r.
Proof. induction j; intros H; [exact H|]. apply IHj. eapply quiet_tail. exact H. Qed.
Lemma content_lead j r : content (repeat ([], None) j ++ r) = content r.
Proof. induction j as [|j IH]; [reflexivity|]. exact IH. Qed.
Lemma fill_loop_quiet len more c r : 0 < len -> c <> [] -> forall j k, (j < k)%nat ->
  exists c1 r1, fill_loop k len ((repeat ([], None) j ++ (c, None) :: r) ++ more) = (c1, None, r1 ++ more) /\ c1 <> []
    /\ c ++ content r = c1 ++ content r1 /\ (r1 = r \/ exists c', c' <> [] /\ r1 = (c', None) :: r) /\ Z.of_nat (length c1) <= len.
Proof.
  intros Hl Hc. induction j as [|j IH]; intros k Hk; (destruct k as [|k]; [lia|]).
  - cbn [repeat app fill_loop rd_read]. destruct (Z.leb_spec (Z.of_nat (length c)) len) as [H|H].
    + exists c, r. destruct c as [|b c]; [congruence|]. repeat split; auto; discriminate.
    + assert (F : firstn (Z.to_nat len) c <> []) by (intros E; apply (f_equal (@length byte)) in E; rewrite firstn_length in E; cbn in E; lia).
      assert (G : skipn (Z.to_nat len) c <> []) by (intros E; apply (f_equal (@length byte)) in E; rewrite skipn_length in E; cbn in E; lia).
      exists (firstn (Z.to_nat len) c), ((skipn (Z.to_nat len) c, None) :: r). destruct (firstn (Z.to_nat len) c) as [|b u] eqn:Ef; [congruence|]. rewrite <- Ef in *.
      split; [reflexivity|]. split; [exact F|]. split; [unfold content; cbn [map concat fst]; rewrite app_assoc, firstn_skipn; reflexivity|].
      split; [right; eauto|]. rewrite firstn_length. lia.
  - destruct (IH k) as [c1 [r1 H]]; [lia|]. exists c1, r1. cbn [repeat app fill_loop rd_read]. change (Z.of_nat (length (@nil byte))) with 0. destruct (Z.leb_spec 0 len); [|lia]. exact H.
Qed.

Section Prompt.
Variable more : reader.
(* no error is pending, and the buffer and the reads before more hold exactly A *)
Definition avail (b : bufio) (A : bytes) : Prop :=
  ok b /\ f_err b = None /\ exists rd, f_rd b = rd ++ more /\ quiet rd /\ f_un b ++ content rd = A.

Lemma fill_avail b A : avail b A -> f_buffered b < f_size b -> (length (f_un b) < length A)%nat ->
  exists b', fill b = Some b' /\ avail b' A /\ f_size b' = f_size b /\ f_last b' = f_last b /\ (length (f_un b) < length (f_un b'))%nat
    /\ (exists c, f_un b' = f_un b ++ c) /\ f_r b' = 0.
Proof.
  intros [[O1 [O2 O3]] [He [rd [Er [Hq Ea]]]]] Hs Hl. unfold fill. destruct (Z.leb_spec (f_size b) (f_buffered b)); [lia|].
  assert (Hc : content rd <> []) by (intros E; rewrite E, app_nil_r in Ea; rewrite Ea in Hl; lia).
  destruct (quiet_lead rd Hq Hc) as [j [c [r [-> [Hne Hj]]]]].
  destruct (fill_loop_quiet (f_size b - f_buffered b) more c r ltac:(lia) Hne j 100 Hj) as [c1 [r1 [F1 [F2 [F3 [F4 F5]]]]]].
  rewrite Er, F1. eexists. split; [reflexivity|]. unfold avail, ok, f_buffered in *. cbn [f_un f_r f_last f_err f_size f_rd]. rewrite app_length.
  assert (L : (0 < length c1)%nat) by (destruct c1; [congruence|cbn; lia]).
  split; [split; [lia|]|].
  - split; [exact He|]. exists r1. split; [reflexivity|]. split.
    + apply quiet_drop in Hq. destruct F4 as [-> |[c' [H1 ->]]]; [eapply quiet_tail; exact Hq|eapply quiet_head; eassumption].
    + rewrite content_lead in Ea. rewrite <- app_assoc, <- F3. exact Ea.
  - repeat split; try lia. eauto.
Qed.
Lemma read_avail b c A : avail b (c :: A) -> exists b', read_byte b = Some (Some c, b') /\ avail b' A /\ f_size b' = f_size b
  /\ f_last b' = Some c /\ 0 < f_r b' /\ f_buffered b' < f_size b' /\ (left b' < left b)%nat.
Proof.
  assert (G : forall f b0 A0 u, avail b0 (c :: A0) -> f_un b0 = c :: u -> exists b', read_byte_loop (S f) b0 = Some (Some c, b') /\ avail b' A0 /\ f_size b' = f_size b0
    /\ f_last b' = Some c /\ 0 < f_r b' /\ f_buffered b' < f_size b').
  { intros f b0 A0 u [[O1 [O2 O3]] [He [rd [Er [Hq Ea]]]]] E. cbn [read_byte_loop]. rewrite E. eexists. split; [reflexivity|].
    unfold avail, ok, f_buffered in *. cbn [f_un f_r f_last f_err f_size f_rd]. rewrite E in *. cbn [length app] in *. injection Ea as Ea.
    split; [split; [lia|split; [exact He|exists rd; auto]]|]. repeat split; lia. }
  intros Hb. assert (Hx : exists b', read_byte b = Some (Some c, b') /\ avail b' A /\ f_size b' = f_size b /\ f_last b' = Some c /\ 0 < f_r b' /\ f_buffered b' < f_size b').
  { unfold read_byte. pose proof Hb as [[O1 [O2 O3]] [He [rd [Er [Hq Ea]]]]]. destruct (f_un b) as [|c0 u] eqn:Eu.
    - destruct (fill_avail b (c :: A) Hb) as [b1 [F1 [F2 [F3 [F4 [F5 [[c1 F6] F7]]]]]]]; [unfold f_buffered; rewrite Eu; cbn; lia|rewrite Eu; cbn; lia|].
      assert (E2 : read_byte_loop 3 b = read_byte_loop 2 b1) by (cbn [read_byte_loop]; rewrite Eu, He, F1; reflexivity). rewrite E2.
      rewrite Eu in F6. cbn [app] in F6. pose proof F2 as [_ [_ [rd1 [_ [_ Ea1]]]]]. destruct (f_un b1) as [|x u] eqn:Eu1; [rewrite Eu in F5; cbn in F5; lia|].
      injection Ea1 as -> _. destruct (G 1%nat b1 A u F2 Eu1) as [b' [G1 [G2 [G3 G4]]]]. exists b'. rewrite <- F3. auto.
    - injection Ea as -> Ea. eapply G; eassumption. }
  destruct Hx as [b' [X1 [X2 [X3 [X4 [X5 X6]]]]]]. exists b'. split; [exact X1|]. split; [exact X2|]. repeat split; try assumption.
  pose proof Hb as [Hok _]. destruct (read_byte_spec b Hok) as [b2 [Y1 [_ [_ [_ [_ Y6]]]]]]. rewrite X1 in Y1. injection Y1 as Y1 <-. apply (Y6 c). symmetry. exact Y1.
Qed.
Lemma unread_avail b c A : avail b A -> f_last b = Some c -> 0 < f_r b -> f_buffered b < f_size b ->
  avail (unread_byte b) (c :: A) /\ f_size (unread_byte b) = f_size b.
Proof.
  intros [Hok [He [rd [Er [Hq Ea]]]]] Hl Hr Hs. destruct (unread_spec b c Hok Hl Hr Hs) as [_ [K1 [K2 _]]]. split; [|exact K2]. split; [exact K1|].
  unfold unread_byte. rewrite Hl. destruct (Z.eqb_spec (f_r b) 0); [lia|]. cbn [andb]. destruct (Z.ltb_spec 0 (f_r b)); [|lia]. cbn [f_err f_rd f_un].
  split; [exact He|]. exists rd. split; [exact Er|]. split; [exact Hq|]. cbn [app]. rewrite Ea. reflexivity.
Qed.
Lemma peek_loop_avail fuel : forall n b A, avail b A -> (Z.to_nat n <= length A)%nat -> n <= f_size b -> (length A <= fuel + length (f_un b))%nat ->
  exists b', peek_loop fuel n b = Some b' /\ avail b' A /\ f_size b' = f_size b /\ n <= f_buffered b'.
Proof.
  induction fuel as [|f IH]; intros n b A Hb Hn Hs Hf; cbn [peek_loop]; pose proof Hb as [[O1 [O2 O3]] [He [rd [Er [Hq Ea]]]]];
    rewrite He, andb_true_r; unfold f_buffered at 1 2; destruct (Z.ltb_spec (Z.of_nat (length (f_un b))) n) as [H|H]; cbn [andb].
  - lia.
  - exists b. auto.
  - destruct (Z.ltb_spec (Z.of_nat (length (f_un b))) (f_size b)); [|lia].
    destruct (fill_avail b A Hb) as [b1 [F1 [F2 [F3 [F4 [F5 _]]]]]]; [unfold f_buffered; lia|lia|]. rewrite F1.
    destruct (IH n b1 A F2 Hn) as [b' [P1 [P2 [P3 P4]]]]; [lia|lia|]. exists b'. split; [exact P1|]. split; [exact P2|]. split; [congruence|exact P4].
  - exists b. auto.
Qed.
Lemma peek_avail b s A : avail b (s ++ A) -> s <> [] -> Z.of_nat (length s) <= f_size b ->
  exists b1 b2, peek (Z.of_nat (length s)) b = Some (s, true, b1) /\ discard (Z.of_nat (length s)) b1 = Some b2 /\ avail b2 A /\ f_size b2 = f_size b.
Proof.
  intros Hb Hne Hs. set (n := Z.of_nat (length s)). assert (Hn : 0 < n) by (destruct s; [congruence|cbn; lia]).
  assert (Hb0 : avail (set_last None b) (s ++ A)) by exact Hb. unfold peek. destruct (Z.ltb_spec n 0); [lia|].
  destruct (peek_loop_avail (S (S (rd_size (f_rd b)))) n (set_last None b) (s ++ A) Hb0) as [b1 [P1 [P2 [P3 P4]]]].
  { unfold n. rewrite Nat2Z.id, app_length. lia. }
  { exact Hs. }
  { destruct Hb as [_ [_ [rd [Er [_ Ea]]]]]. rewrite <- Ea, app_length. cbn [set_last f_un]. rewrite Er.
    assert (L : (length (content rd) <= rd_size (rd ++ more))%nat).
    { clear. induction rd as [|[c e] r IH]; [cbn; lia|]. cbn [app]. rewrite rd_size_cons. unfold content in *. cbn [map concat fst]. rewrite app_length. lia. }
    lia. }
  rewrite P1. change (f_size (set_last None b)) with (f_size b) in P3. destruct (Z.ltb_spec (f_size b1) n); [unfold n in *; lia|].
  destruct (Z.ltb_spec (f_buffered b1) n); [lia|]. pose proof P2 as [[O1 [O2 O3]] [He [rd [Er [Hq Ea]]]]].
  assert (Es : firstn (Z.to_nat n) (f_un b1) = s /\ skipn (Z.to_nat n) (f_un b1) ++ content rd = A).
  { unfold n, f_buffered in *. rewrite Nat2Z.id. assert (Hl : (length s <= length (f_un b1))%nat) by lia.
    rewrite <- (firstn_skipn (length s) (f_un b1)) in Ea. rewrite <- app_assoc in Ea.
    assert (X : length (firstn (length s) (f_un b1)) = length s) by (rewrite firstn_length; lia).
    apply (f_equal (firstn (length s))) in Ea as Ea1. rewrite !firstn_app, X, Nat.sub_diag, !firstn_O, !app_nil_r, (firstn_all2 (firstn _ _)), firstn_all in Ea1 by lia.
    split; [exact Ea1|]. rewrite Ea1 in Ea. apply app_inv_head in Ea. exact Ea. }
  destruct Es as [Es1 Es2]. rewrite Es1. exists b1. eexists. split; [reflexivity|]. unfold discard. destruct (Z.leb_spec n 0); [lia|].
  cbn [discard_loop]. change (f_buffered (set_last None b1)) with (f_buffered b1). destruct (Z.eqb_spec (f_buffered b1) 0); [lia|].
  change (f_buffered (set_last None b1)) with (f_buffered b1). rewrite Z.min_r by lia. rewrite Z.sub_diag. cbn [Z.eqb]. split; [reflexivity|].
  unfold avail, ok, f_buffered, set_last in *. cbn [f_un f_r f_last f_err f_size f_rd]. split; [|exact P3].
  split; [rewrite skipn_length; lia|]. split; [exact He|]. exists rd. auto.
Qed.

(* ---------- scanner ---------- *)
Lemma sread_avail b c A : avail b (c :: A) -> exists b', sread b = Some (c, b') /\ avail b' A /\ f_size b' = f_size b
  /\ f_last b' = Some c /\ 0 < f_r b' /\ f_buffered b' < f_size b' /\ (left b' < left b)%nat.
Proof. intros H. destruct (read_avail b c A H) as [b' [E R]]. exists b'. unfold sread. rewrite E. auto. Qed.
Lemma digits_avail x A : ~ len_char x -> x <> x00 -> forall ds fuel b buf, avail b (ds ++ x :: A) -> Forall digit ds -> (left b < fuel)%nat ->
  exists b', digits_loop fuel b buf = Some (buf ++ ds, b') /\ avail b' (x :: A) /\ f_size b' = f_size b.
Proof.
  intros Hx Hx0. induction ds as [|d ds IH]; intros fuel b buf Hb Hd Hf; (destruct fuel as [|fuel]; [lia|]); cbn [digits_loop].
  - destruct (sread_avail b x A Hb) as [b' [E [R1 [R2 [R3 [R4 [R5 R6]]]]]]]. rewrite E. replace (beqb x x00) with false by (symmetry; apply beqb_neq; exact Hx0).
    rewrite (len_char_false x Hx). cbn [negb]. destruct (unread_avail b' x A R1 R3 R4 R5) as [U1 U2]. exists (unread_byte b'). rewrite app_nil_r. repeat split; try assumption; try (apply U1); congruence.
  - cbn [app] in Hb. destruct (sread_avail b d _ Hb) as [b' [E [R1 [R2 [R3 [R4 [R5 R6]]]]]]]. inversion Hd as [|? ? D1 D2]; subst.
    rewrite E, (digit_not_nul d D1), (digit_is_digit d D1). cbn [negb]. destruct (IH fuel b' (buf ++ [d]) R1 D2) as [b2 [E2 [S1 S2]]]; [lia|].
    exists b2. rewrite E2, <- app_assoc. split; [reflexivity|]. split; [exact S1|congruence].
Qed.
Lemma sp_not_len : ~ len_char " ". Proof. intros [H|H]; [destruct H as [H _]; vm_compute in H; apply H; reflexivity|discriminate]. Qed.
Lemma scan_len_avail s ds A : avail (s_r s) (ds ++ " "%byte :: A) -> ds <> [] -> Forall digit ds ->
  exists b', scan s = Some (Token MSGLEN ds, Scanner b' (parse_uint ds) false) /\ avail b' (" "%byte :: A) /\ f_size b' = f_size (s_r s).
Proof.
  intros Hb Hne Hd. destruct ds as [|d ds]; [congruence|]. inversion Hd as [|? ? D1 D2]; subst. cbn [app] in Hb. unfold scan.
  destruct (sread_avail _ d _ Hb) as [b1 [E1 [R1 [R2 [R3 [R4 [R5 R6]]]]]]]. rewrite E1. rewrite (proj2 (nonzero_digit d) D1).
  destruct (unread_avail b1 d _ R1 R3 R4 R5) as [U1 U2]. unfold scan_msg_len. cbn [s_r s_ready].
  destruct (sread_avail _ d _ U1) as [b2 [E2 [T1 [T2 [T3 [T4 [T5 T6]]]]]]]. rewrite E2.
  destruct (digits_avail " " A sp_not_len ltac:(discriminate) ds (S (left b2)) b2 [d] T1 D2) as [b3 [E3 [V1 V2]]]; [lia|]. rewrite E3. cbn [app].
  exists b3. split; [reflexivity|]. split; [exact V1|congruence].
Qed.
Lemma scan_space_avail s A : avail (s_r s) (" "%byte :: A) ->
  exists b', scan s = Some (Token WS [" "%byte], Scanner b' (s_msglen s) true) /\ avail b' A /\ f_size b' = f_size (s_r s).
Proof.
  intros Hb. unfold scan. destruct (sread_avail _ " "%byte A Hb) as [b1 [E1 [R1 [R2 _]]]]. rewrite E1. exists b1. auto.
Qed.
Lemma scan_msg_avail s m A : avail (s_r s) (m ++ A) -> (exists u, m = "<"%byte :: u) -> s_msglen s = Z.of_nat (length m) -> s_msglen s < 2 ^ 63 -> s_ready s = true ->
  Z.of_nat (length m) <= f_size (s_r s) ->
  exists b', scan s = Some (Token SYSLOGMSG m, Scanner b' 0 false) /\ avail b' A /\ f_size b' = f_size (s_r s).
Proof.
  intros Hb [u Eu] Hm H63 Hr Hs. assert (Hl : 0 < s_msglen s) by (rewrite Hm, Eu; cbn [length]; lia). unfold scan.
  pose proof Hb as Hb'. rewrite Eu in Hb'. cbn [app] in Hb'. destruct (sread_avail _ _ _ Hb') as [b1 [E1 [R1 [R2 [R3 [R4 [R5 R6]]]]]]]. rewrite E1.
  change (is_nonzero_digit "<") with false. change (beqb "<" x00) with false. change (beqb "<" " ") with false. change (beqb "<" "<") with true. cbv iota.
  destruct (Z.ltb_spec 0 (s_msglen s)); [|lia]. rewrite Hr. cbn [andb]. destruct (unread_avail b1 _ _ R1 R3 R4 R5) as [U1 U2].
  change ("<"%byte :: u ++ A) with (("<"%byte :: u) ++ A) in U1. rewrite <- Eu in U1. unfold scan_syslog_msg. cbn [s_r s_msglen s_ready]. cbv zeta. rewrite to_int_id by lia.
  destruct (peek_avail _ m A U1) as [b2 [b3 [P1 [P2 [P3 P4]]]]]; [rewrite Eu; discriminate|lia|]. rewrite Hm, P1, P2. exists b3. split; [reflexivity|]. split; [exact P3|congruence].
Qed.

(* ---------- parser ---------- *)
Lemma pscan_fresh p tok s : p_stepback p = false -> scan (p_s p) = Some (tok, s) -> pscan p = Some (tok, set_p_s s tok p).
Proof. intros H E. unfold pscan. rewrite H, E. reflexivity. Qed.
Lemma typ_self t l : is_typ t (Token t l) = true. Proof. destruct t; reflexivity. Qed.
Lemma frame_dec max f : max < 2 ^ 63 - 20 -> frame_ok max f -> parse_uint (f_len f) = Z.of_nat (length (f_msg f)) /\ Z.of_nat (length (f_msg f)) < 2 ^ 63 /\ Z.of_nat (length (f_msg f)) <= max.
Proof. intros Hm (H1 & H2 & H3 & H4 & _). rewrite parse_uint_dec by exact H2. lia. Qed.

(* the emission of the i-th frame: the reads not made yet hold all but size bytes of what follows the frame *)
Definition read_ahead (size : Z) (fs : list frame) (A : bytes) (l1 : list (result * reader)) : Prop := forall i e, nth_error l1 i = Some e ->
  exists rd', snd e = rd' ++ more /\ Z.of_nat (length (concat (map frame_text (skipn (S i) fs)) ++ A)) <= Z.of_nat (length (content rd')) + size.
Lemma log_frames max best : max < 2 ^ 63 - 20 -> forall fs fr p A f l q,
  Forall (plain_frame max) (fr :: fs) -> (best = true \/ Forall (fun fr => snd (answer best (f_msg fr)) = None) (fr :: fs)) ->
  p_stepback p = false -> pok p -> p_best p = best -> p_max p = max -> max <= f_size (s_r (p_s p)) ->
  s_msglen (p_s p) = parse_uint (f_len fr) ->
  avail (s_r (p_s p)) (" "%byte :: f_msg fr ++ concat (map frame_text fs) ++ A) ->
  log_body (log_run f) (Token MSGLEN (f_len fr)) p = Some (l, q) ->
  exists l1 l2, l = l1 ++ l2 /\ map fst l1 = map (fun fr => answer_result best (f_msg fr)) (fr :: fs) /\ read_ahead (f_size (s_r (p_s p))) (fr :: fs) A l1.
Proof.
  intros Hmax. induction fs as [|fr2 fs IH]; intros fr p A f l q HF Hans Hsb Hok Hbest Hpm Hsize Hml Hav E;
    inversion HF as [|? ? [Hfo Hgap] HF']; subst; destruct (frame_dec _ _ Hmax Hfo) as [D1 [D2 D3]]; pose proof Hfo as (_ & _ & _ & _ & Hlt & _);
    unfold log_body in E; rewrite typ_self in E; cbn [negb] in E; rewrite Hml, D1, to_int_id in E by lia;
    (destruct (Z.ltb_spec (p_max p) (Z.of_nat (length (f_msg fr)))) as [Hx|_]; [lia|]);
    destruct (scan_space_avail (p_s p) _ Hav) as [b1 [S1 [S2 S3]]]; rewrite (pscan_fresh p _ _ Hsb S1), typ_self in E; cbn [negb] in E;
    match type of E with context[pscan ?pp] => set (p1 := pp) in E end;
    (match type of S2 with avail _ (_ ++ ?T) => destruct (scan_msg_avail (p_s p1) (f_msg fr) T) as [b2 [T1 [T2 T3]]] end;
      [exact S2|exact Hlt|cbn; rewrite Hml, D1; reflexivity|cbn; rewrite Hml, D1; lia|reflexivity|cbn; lia|]);
    rewrite (pscan_fresh p1 _ _ Hsb T1), typ_self in E; cbn [negb] in E;
    match type of E with context[pparse ?pp _] => set (p2 := pp) in E end;
    (destruct (pparse_spec p2 (f_msg fr) Hok) as [p3 [P1 [P2 [P3 [P4 [P5 [P6 _]]]]]]]; cbn [tlit] in E; rewrite P1 in E; cbn [r_err] in E);
    assert (Hgo : negb (p_best p3) && match option_map EMachine (snd (answer (p_best p2) (f_msg fr))) with Some _ => true | None => false end = false)
      by (rewrite P3; change (p_best p2) with (p_best p); destruct Hans as [-> |Hans]; [reflexivity|inversion Hans as [|? ? Ha _]; subst; rewrite Ha; cbn; apply andb_false_r]);
    rewrite Hgo in E; cbv zeta in E; change (p_best p2) with (p_best p) in E;
    assert (Hsz : f_size b2 = f_size (s_r (p_s p))) by (rewrite T3; change (f_size (s_r (p_s p1))) with (f_size b1); exact S3);
    match type of T2 with avail _ ?T =>
      assert (Hhere : exists rd', to_read p3 = rd' ++ more /\ Z.of_nat (length T) <= Z.of_nat (length (content rd')) + f_size (s_r (p_s p)))
        by (unfold to_read; rewrite P5; destruct T2 as [To [_ [rd' [R' [_ R2]]]]]; exists rd'; split; [exact R'|];
            rewrite <- R2, app_length; destruct To as [_ [To _]]; cbn [f_buffered] in *; unfold f_buffered in *; lia) end.
  - destruct (pscan p3) as [[tok4 p4]|]; [|discriminate]. destruct (is_typ EOF tok4).
    + injection E as <- <-. eexists [_], []. split; [reflexivity|]. split; [reflexivity|]. intros [|[|i]] e0 Ei; cbn in Ei; try discriminate. injection Ei as <-. exact Hhere.
    + destruct (log_run f (set_p_stepback true p4)) as [[rs p']|]; [|discriminate]. injection E as <- <-. eexists [_], rs. split; [reflexivity|]. split; [reflexivity|]. intros [|[|i]] e0 Ei; cbn in Ei; try discriminate. injection Ei as <-. exact Hhere.
  - pose proof HF' as HF2. inversion HF2 as [|? ? [Hfo2 Hgap2] _]; subst. pose proof Hfo2 as (L1 & L2 & _).
    assert (Hav3 : avail (s_r (p_s p3)) (f_len fr2 ++ " "%byte :: f_msg fr2 ++ concat (map frame_text fs) ++ A)).
    { rewrite P5. cbn [p2 p1 p_s set_p_s s_r]. match goal with |- avail _ ?X => match type of T2 with avail _ ?Y => replace X with Y; [exact T2|] end end.
      cbn [map concat]. unfold frame_text at 1. rewrite <- !app_assoc. reflexivity. }
    destruct (scan_len_avail (p_s p3) (f_len fr2) _ Hav3 L1 L2) as [b4 [V1 [V2 V3]]].
    assert (Hsb3 : p_stepback p3 = false) by (rewrite P4; exact Hsb). rewrite (pscan_fresh p3 _ _ Hsb3 V1) in E. cbn [is_typ typ] in E.
    destruct f as [|f]; [discriminate|]. cbn [log_run] in E. unfold pscan at 1 in E. cbn [set_p_stepback set_p_s p_stepback p_last p_max p_s p_internal p_best] in E.
    match type of E with context[log_body (log_run f) _ ?pp] => set (p5 := pp) in E end.
    destruct (log_body (log_run f) (Token MSGLEN (f_len fr2)) p5) as [[rs p']|] eqn:E5; [|discriminate]. injection E as <- <-.
    destruct (IH fr2 p5 A f rs p' HF') as [l1 [l2 [-> [Q1 Q2]]]]; try exact E5; try reflexivity.
    + destruct Hans as [H|H]; [left; exact H|right; inversion H; assumption].
    + exact P6.
    + cbn. rewrite P3. reflexivity.
    + cbn. rewrite P2. reflexivity.
    + change (f_size (s_r (p_s p5))) with (f_size b4). rewrite V3, P5. change (f_size (s_r (p_s p2))) with (f_size b2). rewrite T3. change (f_size (s_r (p_s p1))) with (f_size b1). rewrite S3. exact Hsize.
    + exact V2.
    + eexists (_ :: l1), l2. split; [reflexivity|]. split; [cbn [map fst]; rewrite Q1; reflexivity|]. intros [|i] e0 Ei; cbn [nth_error] in Ei; [injection Ei as <-; exact Hhere|].
      destruct (Q2 i e0 Ei) as [rd' [R1 R2]]. exists rd'. split; [exact R1|]. change (f_size (s_r (p_s p5))) with (f_size b4) in R2. rewrite V3, P5 in R2. change (f_size (s_r (p_s p2))) with (f_size b2) in R2. rewrite Hsz in R2. exact R2.
Qed.
End Prompt.

(* C67, C77: the results of the frames in rd are out before any read of more, and when the i-th is out at most the buffer of the parser has been read beyond its frame *)
Theorem octet_read_ahead opts before rd more fs rest : opts_max opts < 2 ^ 63 - 20 -> quiet rd -> content rd = concat (map frame_text fs) ++ rest ->
  Forall (plain_frame (opts_max opts)) fs -> (opts_best opts = true \/ Forall (fun fr => snd (answer (opts_best opts) (f_msg fr)) = None) fs) ->
  exists l1 l2, emissions opts before (rd ++ more) = Some (l1 ++ l2)
    /\ map fst l1 = map (fun fr => answer_result (opts_best opts) (f_msg fr)) fs
    /\ forall i e, nth_error l1 i = Some e -> exists rd', snd e = rd' ++ more
       /\ Z.of_nat (length (content rd)) - Z.of_nat (length (content rd')) <= Z.of_nat (length (concat (map frame_text (firstn (S i) fs)))) + Z.max (opts_max opts + 20) 16.
Proof.
  intros Hm Hq Hc HF Ha. destruct (new_parser_ok opts) as [N1 [N2 [N3 N4]]]. destruct (after_ok before (new_parser opts) N3 N4) as [A1 [A2 [A3 A4]]].
  set (p := after_streams (new_parser opts) before) in *. rewrite N1 in A1. rewrite N2 in A2.
  destruct (stream_spec_c p (rd ++ more) A3 A4) as [rs [p' [E1 _]]]. unfold emissions. fold p. rewrite log_stream_results in E1.
  destruct (log_stream p (rd ++ more)) as [[l q]|] eqn:El; [|discriminate].
  destruct fs as [|fr fs]; [exists [], l; split; [reflexivity|split; [reflexivity|intros [|i] e Ei; discriminate]]|].
  unfold log_stream in El. cbn [log_run] in El. match type of El with context[pscan ?pp] => set (p0 := pp) in El end.
  inversion HF as [|? ? [Hfo Hgap] HF']; subst. pose proof Hfo as (L1 & L2 & _).
  assert (Hav : avail more (s_r (p_s p0)) (f_len fr ++ " "%byte :: f_msg fr ++ concat (map frame_text fs) ++ rest)).
  { cbn. split; [split; [cbn; lia|cbn; lia]|]. split; [reflexivity|]. exists rd. split; [reflexivity|]. split; [exact Hq|]. cbn [app]. rewrite Hc. cbn [map concat].
    unfold frame_text at 1. rewrite <- !app_assoc. reflexivity. }
  destruct (scan_len_avail more (p_s p0) _ _ Hav L1 L2) as [b' [S1 [S2 S3]]]. rewrite (pscan_fresh p0 _ _ A3 S1) in El.
  destruct (log_frames more (opts_max opts) (opts_best opts) Hm fs fr (set_p_s (Scanner b' (parse_uint (f_len fr)) false) (Token MSGLEN (f_len fr)) p0) rest (rd_size (rd ++ more)) l q HF Ha) as [l1 [l2 [-> Q]]]; try exact El.
  - exact A3.
  - exact A4.
  - exact A1.
  - exact A2.
  - cbn [set_p_s p_s s_r]. rewrite S3. rewrite <- A2. apply buffer_size. rewrite A2. exact Hm.
  - reflexivity.
  - exact S2.
  - exists l1, l2. split; [reflexivity|]. destruct Q as [Q1 Q2]. split; [exact Q1|]. intros i e Ei. destruct (Q2 i e Ei) as [rd' [R1 R2]]. exists rd'. split; [exact R1|].
    change (f_size (s_r (p_s (set_p_s (Scanner b' (parse_uint (f_len fr)) false) (Token MSGLEN (f_len fr)) p0)))) with (f_size b') in R2. rewrite S3 in R2.
    change (f_size (s_r (p_s p0))) with (Z.max (add_int (p_max p) 20) 16) in R2. rewrite A2 in R2. destruct Hfo as (_ & _ & F1 & F2 & _). unfold add_int, to_int in R2.
    rewrite Z.mod_small in R2 by lia. destruct (Z.ltb_spec (opts_max opts + 20) (2 ^ 63)); [|lia].
    rewrite Hc, <- (firstn_skipn (S i) (fr :: fs)) at 1. rewrite map_app, concat_app, <- app_assoc, app_length. lia.
Qed.

(* C67 *)
Theorem octet_prompt opts before rd more fs rest : opts_max opts < 2 ^ 63 - 20 -> quiet rd -> content rd = concat (map frame_text fs) ++ rest ->
  Forall (plain_frame (opts_max opts)) fs -> (opts_best opts = true \/ Forall (fun fr => snd (answer (opts_best opts) (f_msg fr)) = None) fs) ->
  exists l1 l2, emissions opts before (rd ++ more) = Some (l1 ++ l2)
    /\ map fst l1 = map (fun fr => answer_result (opts_best opts) (f_msg fr)) fs
    /\ Forall (fun e => exists rd', snd e = rd' ++ more) l1.
Proof.
  intros Hm Hq Hc HF Ha. destruct (octet_read_ahead opts before rd more fs rest Hm Hq Hc HF Ha) as [l1 [l2 [E [M R]]]]. exists l1, l2. split; [exact E|]. split; [exact M|].
  apply Forall_forall. intros e He. apply In_nth_error in He as [i Ei]. destruct (R i e Ei) as [rd' [H _]]. eauto.
Qed.

(* the hypotheses are met: two frames and the start of a third, delivered in three reads, one of them empty and one ending inside a
   message; both results are out before the next read, whose content is not even looked at *)
Definition prompt_frames : list frame := [Frame (lit "16") [] (lit "<1>1 - - - - - -"); Frame (lit "8") [] (lit "<2>xxxxx")].
Definition prompt_reads : reader := [(lit "16 <1>1 - - -", None); ([], None); (lit " - - -8 <2>xxxxx16 <3>", None)].
Example octet_prompt_ex : opts_max [OBestEffort] < 2 ^ 63 /\ quiet prompt_reads /\ content prompt_reads = concat (map frame_text prompt_frames) ++ lit "16 <3>"
  /\ Forall (plain_frame (opts_max [OBestEffort])) prompt_frames /\ opts_best [OBestEffort] = true
  /\ (exists l1 l2, emissions [OBestEffort] [] (prompt_reads ++ [(lit "1 - - -", None)]) = Some (l1 ++ l2) /\ length l1 = 2%nat /\ length l2 = 1%nat
      /\ map snd l1 = [[(lit "1 - - -", None)]; [(lit "1 - - -", None)]]).
Proof.
  split; [reflexivity|]. split; [|split; [reflexivity|split]].
  - split; [repeat constructor|]. intros pre mid post E F. apply (f_equal (@length (bytes * option rerr))) in E. rewrite !app_length in E. cbn in E. lia.
  - constructor; [|constructor; [|constructor]].
    + split; [|reflexivity]. split; [discriminate|]. split; [repeat constructor; vm_compute; congruence|]. split; [reflexivity|]. split; [vm_compute; congruence|]. split; [eexists; reflexivity|left; reflexivity].
    + split; [|reflexivity]. split; [discriminate|]. split; [repeat constructor; vm_compute; congruence|]. split; [reflexivity|]. split; [vm_compute; congruence|]. split; [eexists; reflexivity|left; reflexivity].
  - split; [reflexivity|]. eexists [_; _], [_]. vm_compute. repeat split.
Qed.
(* one read offers four frames of 19 bytes to a parser with a buffer of 36 bytes: when the first result is out, 40 bytes are still unread *)
Example octet_read_ahead_ex : exists l, emissions [OMaxLength 16] [] [(lit "16 <1>1 - - - - - -16 <1>1 - - - - - -16 <1>1 - - - - - -16 <1>1 - - - - - -", None)] = Some l
  /\ map (fun e => length (content (snd e))) l = [40; 18; 18; 0]%nat.
Proof. eexists. split; vm_compute; reflexivity. Qed.
