(* C85: the work the octet counting parser does for a stream is at most proportional to what the reader delivers. *)
From Verif Require Import Bytes GotoLang Common CommonFacts M5424Def M5424 MBuilder Bufio MOctet SpecOctet ROctet ThmOctet Steps ThmSteps MOctetCost.
Local Open Scope Z_scope.

(* ---- forgetting the costs ---- *)
Lemma s_bind {X Y} (m : W X) (f : X -> W Y) : snd (bind m f) = match snd m with Some x => snd (f x) | None => None end.
Proof. destruct m as [[c l] [x|]]; cbn; [|reflexivity]. destruct (f x) as [[c' l'] y]. reflexivity. Qed.
Lemma s_tick {X} n (m : W X) : snd (tick n m) = snd m.
Proof. destruct m as [[c l] x]. reflexivity. Qed.
Lemma s_fill_loop k : forall len rd, snd (w_fill_loop k len rd) = Some (fill_loop k len rd).
Proof.
  induction k as [|k IH]; intros len rd; [reflexivity|]. cbn [w_fill_loop fill_loop]. destruct (rd_read len rd) as [[c e] rd']. rewrite s_tick.
  destruct e; [reflexivity|]. destruct c; [apply IH|reflexivity].
Qed.
Lemma s_fill b : snd (w_fill b) = fill b.
Proof.
  unfold w_fill, fill. destruct (f_size b <=? f_buffered b); [reflexivity|]. rewrite s_tick, s_bind, s_fill_loop. destruct (fill_loop _ _ _) as [[c e] rd']. reflexivity.
Qed.
Lemma s_read_byte_loop f : forall b, snd (w_read_byte_loop f b) = read_byte_loop f b.
Proof.
  induction f as [|f IH]; intros b; [reflexivity|]. cbn [w_read_byte_loop read_byte_loop]. rewrite s_tick. destruct (f_un b); [|reflexivity]. destruct (f_err b); [reflexivity|].
  rewrite s_bind, s_fill. destruct (fill b); [apply IH|reflexivity].
Qed.
Lemma s_peek_loop f n : forall b, snd (w_peek_loop f n b) = peek_loop f n b.
Proof.
  induction f as [|f IH]; intros b; cbn [w_peek_loop peek_loop]; destruct (_ && _ && _); try rewrite s_tick; try reflexivity.
  rewrite s_bind, s_fill. destruct (fill b); [apply IH|reflexivity].
Qed.
Lemma s_peek n b : snd (w_peek n b) = peek n b.
Proof.
  unfold w_peek, peek. destruct (n <? 0); [reflexivity|]. rewrite s_bind, s_peek_loop. destruct (peek_loop _ _ _) as [b'|]; [|reflexivity].
  destruct (f_size b' <? n); [reflexivity|]. destruct (f_buffered b' <? n); reflexivity.
Qed.
Lemma s_discard_loop f : forall n b, snd (w_discard_loop f n b) = discard_loop f n b.
Proof.
  induction f as [|f IH]; intros n b; [reflexivity|]. cbn [w_discard_loop discard_loop]. rewrite s_tick, s_bind.
  destruct (f_buffered b =? 0); [rewrite s_fill; destruct (fill b) as [b'|]; [|reflexivity]|cbn [wret snd]; rename b into b'].
  all: cbn zeta; destruct (n - Z.min (f_buffered b') n =? 0); [reflexivity|]; match goal with |- context [match ?e with Some _ => wret _ | None => _ end] => destruct e end; [reflexivity|apply IH].
Qed.
Lemma s_discard n b : snd (w_discard n b) = discard n b.
Proof. unfold w_discard, discard. destruct (n <=? 0); [reflexivity|apply s_discard_loop]. Qed.
Lemma s_sread b : snd (w_sread b) = sread b.
Proof.
  unfold w_sread, sread. rewrite s_tick, s_bind. unfold w_read_byte, read_byte. rewrite s_read_byte_loop. destruct (read_byte_loop 3 b) as [[[c|] b']|]; reflexivity.
Qed.
Lemma s_digits_loop f : forall b buf, snd (w_digits_loop f b buf) = digits_loop f b buf.
Proof.
  induction f as [|f IH]; intros b buf; [reflexivity|]. cbn [w_digits_loop digits_loop]. rewrite s_tick, s_bind, s_sread. destruct (sread b) as [[c b']|]; [|reflexivity].
  destruct (beqb c x00); [reflexivity|]. destruct (negb (is_digit c)); [reflexivity|]. rewrite s_tick. apply IH.
Qed.
Lemma s_scan_msg_len s : snd (w_scan_msg_len s) = scan_msg_len s.
Proof.
  unfold w_scan_msg_len, scan_msg_len. rewrite s_tick, s_bind, s_sread. destruct (sread (s_r s)) as [[c b]|]; [|reflexivity].
  rewrite s_bind, s_tick, s_digits_loop. destruct (digits_loop _ _ _) as [[buf b']|]; reflexivity.
Qed.
Lemma s_scan_syslog_msg s : snd (w_scan_syslog_msg s) = scan_syslog_msg s.
Proof.
  unfold w_scan_syslog_msg, scan_syslog_msg. cbn zeta. rewrite s_tick, s_bind, s_peek. destruct (peek _ _) as [[[l [|]] b]|]; [|reflexivity|reflexivity].
  rewrite s_bind, s_discard. destruct (discard _ _); reflexivity.
Qed.
Lemma s_scan s : snd (w_scan s) = scan s.
Proof.
  unfold w_scan, scan. rewrite s_tick, s_bind, s_sread. destruct (sread (s_r s)) as [[c b]|]; [|reflexivity].
  destruct (is_nonzero_digit c); [rewrite s_bind; apply s_scan_msg_len|]. destruct (beqb c x00); [reflexivity|]. destruct (beqb c " "); [reflexivity|].
  destruct (beqb c "<" && (0 <? s_msglen s) && s_ready s); [rewrite s_bind; apply s_scan_syslog_msg|reflexivity].
Qed.
Lemma s_pscan p : snd (w_pscan p) = pscan p.
Proof. unfold w_pscan, pscan. rewrite s_tick. destruct (p_stepback p); [reflexivity|]. rewrite s_bind, s_scan. destruct (scan (p_s p)) as [[t s]|]; reflexivity. Qed.
Lemma s_run_body r r' tok p : (forall q, snd (r q) = r' q) -> snd (w_run_body r tok p) = run_body r' tok p.
Proof.
  intros H. unfold w_run_body, run_body. destruct (negb (is_typ MSGLEN tok)); [reflexivity|]. destruct (_ <? _); [reflexivity|].
  rewrite s_bind, s_pscan. destruct (pscan p) as [[tok1 p1]|]; [|reflexivity]. destruct (negb (is_typ WS tok1)); [reflexivity|].
  rewrite s_bind, s_pscan. destruct (pscan p1) as [[tok2 p2]|]; [|reflexivity]. destruct (negb (is_typ SYSLOGMSG tok2)).
  - cbn zeta. destruct (_ && _); [|reflexivity]. rewrite s_bind. cbn [w_pparse snd]. destruct (pparse p2 (tlit tok2)) as [[[m re] p3]|]; reflexivity.
  - rewrite s_bind. cbn [w_pparse snd]. destruct (pparse p2 (tlit tok2)) as [[res p3]|]; [|reflexivity]. destruct (_ && _); [reflexivity|].
    rewrite s_bind, s_pscan. destruct (pscan p3) as [[tok4 p4]|]; [|reflexivity]. destruct (is_typ EOF tok4); [reflexivity|].
    rewrite s_bind, H. destruct (r' _) as [[rs q]|]; reflexivity.
Qed.
Lemma s_run f : forall p, snd (w_run f p) = run f p.
Proof.
  induction f as [|f IH]; intros p; [reflexivity|]. cbn [w_run run]. rewrite s_tick, s_bind, s_pscan. destruct (pscan p) as [[tok q]|]; [|reflexivity]. apply s_run_body, IH.
Qed.
Theorem octet_work_results p rd : snd (w_stream p rd) = parse_stream p rd.
Proof. apply s_run. Qed.

(* ---- the potential ---- *)
(* what the calls of the machine may cost: ThmSteps.parse5424_linear *)
Definition wt (l : list (machine * bytes)) : Z := fold_right (fun md n => 8680 * (size (snd md) + 1) + n) 0 l.
Definition total {X} (m : W X) : Z := fst (fst m) + wt (snd (fst m)).
Definition paid {X} (m : W X) (B : Z) (F : X -> Z) : Prop := forall x, snd m = Some x -> total m + F x <= B.
Lemma wt_app a b : wt (a ++ b) = wt a + wt b.
Proof. induction a as [|x a IH]; cbn [wt fold_right app]; [reflexivity|]. fold (wt a). fold (wt (a ++ b)). lia. Qed.
Lemma paid_ret {X} (x : X) B F : F x <= B -> paid (wret x) B F.
Proof. intros H y E. injection E as <-. cbn. lia. Qed.
Lemma paid_fail {X} B (F : X -> Z) : paid wfail B F. Proof. intros x E. discriminate. Qed.
Lemma paid_tick {X} n (m : W X) B F : paid m (B - n) F -> paid (tick n m) B F.
Proof. intros H x E. destruct m as [[c l] y]. specialize (H x E). unfold total in *. cbn in *. lia. Qed.
Lemma paid_bind {X Y} (m : W X) (f : X -> W Y) B F G : paid m B F -> (forall x, snd m = Some x -> paid (f x) (F x) G) -> paid (bind m f) B G.
Proof.
  intros H K y E. destruct m as [[c l] [x|]]; [|discriminate]. specialize (H x eq_refl). specialize (K x eq_refl). cbn [bind] in *. destruct (f x) as [[c' l'] z].
  specialize (K y E). unfold total in *. cbn [fst snd] in *. rewrite wt_app. lia.
Qed.
Lemma paid_shift {X} (m : W X) B F k B' F' : paid m B F -> B + k <= B' -> (forall x, snd m = Some x -> F' x <= F x + k) -> paid m B' F'.
Proof. intros H H1 H2 x E. specialize (H x E). specialize (H2 x E). lia. Qed.

Definition U : Z := 18000.
Definition un (b : bufio) : Z := Z.of_nat (length (f_un b)).
Definition rds (rd : reader) : Z := Z.of_nat (rd_size rd).
Definition pot (b : bufio) : Z := (U + 10) * rds (f_rd b) + U * un b.
Definition slide (b : bufio) : Z := if f_r b =? 0 then 0 else f_buffered b.
Lemma un_pos b : 0 <= un b. Proof. unfold un. lia. Qed.
Lemma pot_un b : U * un b <= pot b. Proof. unfold pot, U, rds. lia. Qed.
Lemma pot_pos b : 0 <= pot b. Proof. pose proof (pot_un b). pose proof (un_pos b). unfold U in *. lia. Qed.

Lemma rds_cons c e r : rds ((c, e) :: r) = 1 + size c + rds r. Proof. unfold rds, size. change (rd_size ((c, e) :: r)) with (S (length c) + rd_size r)%nat. lia. Qed.
Lemma rds_pos r : 0 <= rds r. Proof. unfold rds. lia. Qed.
Lemma rd_read_size len rd : 0 < len -> match rd_read len rd with (c, e, rd') =>
  match rd with [] => c = [] /\ e = Some REOF /\ rd' = [] | _ => rds rd' + size c <= rds rd /\ 1 + rds rd' <= rds rd end end.
Proof.
  intros H. destruct rd as [|[c e] r]; [cbn; auto|]. unfold rd_read. destruct (Z.of_nat (length c) <=? len) eqn:E; rewrite !rds_cons; unfold size; [lia|].
  apply Z.leb_gt in E. rewrite firstn_length, skipn_length. lia.
Qed.
Lemma fill_loop_paid k : forall len rd, 0 < len -> paid (w_fill_loop k len rd) (2 * rds rd + 1) (fun '(c, e, rd') => 2 * rds rd').
Proof.
  induction k as [|k IH]; intros len rd H; [apply paid_ret; lia|]. cbn [w_fill_loop]. pose proof (rd_read_size len rd H) as R. destruct (rd_read len rd) as [[c e] rd']. apply paid_tick.
  destruct rd as [|x rd].
  - destruct R as [-> [-> ->]]. apply paid_ret. cbn. lia.
  - destruct R as [R1 R2]. destruct e as [e|]; [apply paid_ret; lia|]. destruct c as [|a c]; [|apply paid_ret; lia].
    apply (paid_shift _ _ _ 0 _ _ (IH len rd' H)); [unfold size in *; cbn [length] in *; lia|]. intros [[c e] r]; lia.
Qed.
Lemma fill_loop_size k : forall len rd, 0 < len -> match fill_loop k len rd with (c, e, rd') => rds rd' + size c <= rds rd /\ (e = None -> c <> []) end.
Proof.
  induction k as [|k IH]; intros len rd H; cbn [fill_loop]; [split; [unfold size; cbn; lia|discriminate]|]. pose proof (rd_read_size len rd H) as R. destruct (rd_read len rd) as [[c e] rd'].
  destruct rd as [|x rd].
  - destruct R as [-> [-> ->]]. split; [cbn; lia|discriminate].
  - destruct R as [R1 R2]. destruct e as [e|]; [split; [lia|discriminate]|]. destruct c as [|a c]; [|split; [lia|discriminate]].
    specialize (IH len rd' H). destruct (fill_loop k len rd') as [[c e] r]. split; [lia|apply IH].
Qed.
Definition go (b : bufio) : Z := match f_err b with None => 8 | Some _ => 0 end.
Lemma fill_paid b : f_err b = None -> paid (w_fill b) (pot b + slide b + 1) (fun b' => pot b' + go b').
Proof.
  intros Hn. unfold w_fill. destruct (f_size b <=? f_buffered b) eqn:E; [apply paid_fail|]. apply Z.leb_gt in E. apply paid_tick. fold (slide b).
  generalize 100%nat as K. intros K. set (len := f_size b - f_buffered b). assert (Hl : 0 < len) by lia. clearbody len.
  eapply paid_bind; [apply (paid_shift _ _ _ (pot b - 2 * rds (f_rd b)) _ (fun '(c, e, rd') => pot b - 2 * rds (f_rd b) + 2 * rds rd') (fill_loop_paid K len (f_rd b) Hl)); [lia|intros [[c e] r]; lia]|].
  intros [[c e] r] Hx. rewrite s_fill_loop in Hx. injection Hx as Hx. pose proof (fill_loop_size K len (f_rd b) Hl) as S. rewrite Hx in S. destruct S as [S1 S2].
  apply paid_ret. unfold pot, un, go, U. cbn [f_rd f_un f_err]. rewrite app_length. unfold size in *. rewrite Hn. destruct e; [lia|]. specialize (S2 eq_refl). destruct c; [congruence|]. cbn [length] in *. lia.
Qed.
Lemma fill_facts b b' : fill b = Some b' -> slide b' = 0 /\ un b <= un b' /\ f_size b' = f_size b.
Proof.
  unfold fill. destruct (_ <=? _); [discriminate|]. destruct (fill_loop _ _ _) as [[c e] r]. intros E. injection E as <-. unfold slide, un. cbn. rewrite app_length. lia.
Qed.

(* ---- ReadByte ---- *)
Definition got (x : option byte * bufio) : Z := pot (snd x) + match fst x with Some _ => U | None => 0 end.
Lemma read_byte_err f b e : f_err b = Some e -> paid (w_read_byte_loop f b) (pot b + 1) got.
Proof.
  intros H. destruct f as [|f]; [apply paid_fail|]. cbn [w_read_byte_loop]. apply paid_tick. unfold got. destruct (f_un b) as [|c u] eqn:Eu.
  - rewrite H. apply paid_ret. unfold pot, un, U; cbn [snd fst clear_err f_un f_rd]; rewrite ?Eu; cbn [length]; lia.
  - apply paid_ret. unfold pot, un, U; cbn [snd fst clear_err f_un f_rd]; rewrite ?Eu; cbn [length]; lia.
Qed.
Lemma read_byte_paid f : forall b, paid (w_read_byte_loop f b) (pot b + 4) got.
Proof.
  induction f as [|f IH]; intros b; [apply paid_fail|]. destruct (f_err b) as [e|] eqn:He.
  { apply (paid_shift _ _ _ 3 _ _ (read_byte_err (S f) b e He)); [lia|]. intros x _. lia. }
  cbn [w_read_byte_loop]. apply paid_tick. destruct (f_un b) as [|c u] eqn:Eu.
  - rewrite He. eapply paid_bind; [apply (paid_shift _ _ _ 2 _ (fun b' => pot b' + go b' + 2) (fill_paid b He)); [unfold slide, f_buffered; rewrite Eu; destruct (_ =? _); cbn; lia|lia]|].
    intros b' _. unfold go. destruct (f_err b') as [e|] eqn:E'.
    + apply (paid_shift _ _ _ 1 _ _ (read_byte_err f b' e E')); [lia|]. intros x _. lia.
    + apply (paid_shift _ _ _ 6 _ _ (IH b')); [lia|]. intros x _. lia.
  - apply paid_ret. unfold got, pot, un, U; cbn [snd fst clear_err f_un f_rd]; rewrite ?Eu; cbn [length]; lia.
Qed.
Definition got1 (x : byte * bufio) : Z := pot (snd x) + (if beqb (fst x) x00 then 0 else U).
Lemma sread_paid b : paid (w_sread b) (pot b + 5) got1.
Proof.
  unfold w_sread. apply paid_tick. eapply paid_bind; [apply (paid_shift _ _ _ 0 _ got (read_byte_paid 3 b)); [lia|intros x _; lia]|].
  intros [c b'] _. apply paid_ret. unfold got, got1. cbn [fst snd]. destruct c as [c|]; [destruct (beqb c x00); unfold U; lia|change (beqb x00 x00) with true; cbv iota; lia].
Qed.
Lemma unread_pot b : pot (unread_byte b) <= pot b + U.
Proof.
  unfold unread_byte. destruct (f_last b); [|unfold U; lia]. destruct (_ && _); [unfold U; lia|]. destruct (0 <? f_r b); unfold pot, un, U; cbn [f_un f_rd length]; lia.
Qed.
(* ---- Peek and Discard ---- *)
Lemma peek_loop_err f n b e : f_err b = Some e -> paid (w_peek_loop f n b) (pot b + 1) pot.
Proof.
  intros H. destruct f; cbn [w_peek_loop]; rewrite H; replace ((f_buffered b <? n) && (f_buffered b <? f_size b) && false) with false by (destruct (f_buffered b <? n), (f_buffered b <? f_size b); reflexivity).
  all: apply paid_tick, paid_ret; lia.
Qed.
Lemma peek_loop_paid f n : forall b, paid (w_peek_loop f n b) (pot b + (if f_buffered b <? n then slide b else 0) + 4) pot.
Proof.
  assert (Hs : forall b, 0 <= slide b) by (intros b; unfold slide, f_buffered; destruct (_ =? _); lia).
  induction f as [|f IH]; intros b; specialize (Hs b) as Hb; cbn [w_peek_loop]; destruct (f_buffered b <? n) eqn:En, (f_buffered b <? f_size b), (f_err b) as [e|] eqn:He; cbn [andb].
  all: try (apply paid_fail); try (apply paid_tick, paid_ret; lia).
  apply paid_tick. eapply paid_bind; [apply (paid_shift _ _ _ 2 _ (fun b' => pot b' + go b' + 2) (fill_paid b He)); [lia|lia]|].
  intros b' Hx. rewrite s_fill in Hx. apply fill_facts in Hx as [Hx _]. unfold go. destruct (f_err b') as [e|] eqn:E'.
  - apply (paid_shift _ _ _ 1 _ _ (peek_loop_err f n b' e E')); [lia|]. intros x _. lia.
  - apply (paid_shift _ _ _ 6 _ _ (IH b')); [rewrite Hx; destruct (f_buffered b' <? n); lia|]. intros x _. lia.
Qed.
Lemma peek_loop_un f n : forall b b', peek_loop f n b = Some b' -> un b <= un b'.
Proof.
  induction f as [|f IH]; intros b b'; cbn [peek_loop]; destruct (_ && _ && _); try discriminate; try (intros E; injection E as <-; lia).
  destruct (fill b) as [b1|] eqn:E1; [|discriminate]. intros E. apply IH in E. apply fill_facts in E1 as [_ [E1 _]]. lia.
Qed.
(* a successful Peek has n bytes in the buffer; otherwise what it returns is there *)
Definition peeked (n : Z) (x : bytes * bool * bufio) : Z := match x with (l, ok, b') => if ok : bool then pot b' - size l else pot b' - un b' end.
Lemma peek_facts n b l ok b' : peek n b = Some (l, ok, b') -> size l <= un b' /\ (ok = true -> size l = n /\ 0 <= n).
Proof.
  unfold peek. destruct (n <? 0) eqn:E0; [intros E; injection E as <- <- <-; split; [apply un_pos|discriminate]|]. apply Z.ltb_ge in E0. destruct (peek_loop _ _ _) as [b1|]; [|discriminate].
  destruct (f_size b1 <? n); [intros E; injection E as <- <- <-; split; [unfold un, size; lia|discriminate]|]. destruct (f_buffered b1 <? n) eqn:E1; intros E; injection E as <- <- <-.
  - split; [unfold un, size; cbn; lia|discriminate].
  - apply Z.ltb_ge in E1. unfold f_buffered, size, un in *. rewrite firstn_length. lia.
Qed.
Lemma peek_paid n b : paid (w_peek n b) (pot b + 5) (peeked n).
Proof.
  unfold w_peek. destruct (n <? 0) eqn:E0; [apply paid_tick, paid_ret; cbn [peeked]; pose proof (un_pos b); lia|]. apply Z.ltb_ge in E0.
  set (sl := if f_buffered b <? n then un b else 0).
  eapply paid_bind; [apply (paid_shift _ _ _ (- sl) _ (fun b' => pot b' - sl) (peek_loop_paid (S (S (rd_size (f_rd b)))) n (set_last None b)))|].
  - assert (Hs : (if f_buffered (set_last None b) <? n then slide (set_last None b) else 0) <= sl).
    { unfold sl, slide. change (f_buffered (set_last None b)) with (f_buffered b). change (f_r (set_last None b)) with (f_r b). change (f_buffered b) with (un b). pose proof (un_pos b). destruct (un b <? n); [|lia]. destruct (f_r b =? 0); lia. }
    change (pot (set_last None b)) with (pot b) in *. lia.
  - intros x _. lia.
  - intros b1 Hx. rewrite s_peek_loop in Hx. apply peek_loop_un in Hx. change (un (set_last None b)) with (un b) in Hx. pose proof (un_pos b).
    assert (Hs : sl <= un b1 /\ (f_buffered b1 >= n -> sl <= n)) by (unfold sl, f_buffered, un in *; destruct (_ <? n) eqn:E; [apply Z.ltb_lt in E|]; lia).
    destruct (f_size b1 <? n); [apply paid_ret; cbn [peeked]; lia|]. destruct (f_buffered b1 <? n) eqn:E1; apply paid_ret; cbn [peeked].
    + change (pot (clear_err b1)) with (pot b1). change (un (clear_err b1)) with (un b1). lia.
    + apply Z.ltb_ge in E1. unfold size. rewrite firstn_length. unfold f_buffered, un in *. lia.
Qed.
Lemma discard_paid n b : 0 <= n <= un b -> paid (w_discard n b) (pot b + 1) (fun b' => pot b' + U * n).
Proof.
  intros H. unfold w_discard. destruct (n <=? 0) eqn:E; [apply Z.leb_le in E; apply paid_tick, paid_ret; unfold U; lia|]. apply Z.leb_gt in E. cbn [w_discard_loop]. apply paid_tick.
  change (f_buffered (set_last None b)) with (un b). replace (un b =? 0) with false by (symmetry; apply Z.eqb_neq; lia).
  apply (paid_bind _ _ _ (fun b' => if Z.eqb (un b') (un b) then pot b' else pot b)); [apply paid_ret; change (un (set_last None b)) with (un b); rewrite Z.eqb_refl; change (pot (set_last None b)) with (pot b); lia|].
  intros x Hx. injection Hx as <-. cbn zeta. change (un (set_last None b)) with (un b). rewrite Z.eqb_refl. change (f_buffered (set_last None b)) with (un b). rewrite Z.min_r by lia. replace (n - n =? 0) with true by (symmetry; apply Z.eqb_eq; lia).
  apply paid_ret. unfold pot, un, U in *. cbn [f_un f_rd set_last]. rewrite skipn_length. lia.
Qed.

(* ---- the scanner ---- *)
Lemma digits_paid f : forall b buf, paid (w_digits_loop f b buf) (pot b + 10) (fun '(buf', b') => pot b' + 9001 * (size buf' - size buf)).
Proof.
  induction f as [|f IH]; intros b buf; [apply paid_fail|]. cbn [w_digits_loop]. apply paid_tick.
  eapply paid_bind; [apply (paid_shift _ _ _ 4 _ (fun x => got1 x + 4) (sread_paid b)); [lia|intros x _; lia]|].
  intros [c b'] _. unfold got1. cbn [fst snd]. destruct (beqb c x00); [apply paid_ret; lia|]. destruct (negb (is_digit c)).
  - unfold w_unread_byte. eapply paid_bind; [apply paid_tick, (paid_ret _ _ (fun b2 => pot b' + U + 4 - 1)); lia|]. intros b2 Hb. injection Hb as <-. pose proof (unread_pot b'). apply paid_ret. lia.
  - apply paid_tick. apply (paid_shift _ _ _ 9001 _ _ (IH b' (buf ++ [c]))); [unfold U; lia|]. intros [buf' b2] _. unfold size. rewrite app_length. cbn [length]. lia.
Qed.
Lemma digits_len f : forall b buf buf' b', digits_loop f b buf = Some (buf', b') -> size buf <= size buf'.
Proof.
  induction f as [|f IH]; intros b buf buf' b'; cbn [digits_loop]; [discriminate|]. destruct (sread b) as [[c b1]|]; [|discriminate].
  destruct (beqb c x00); [intros E; injection E as <- _; lia|]. destruct (negb (is_digit c)); [intros E; injection E as <- _; lia|].
  intros E. apply IH in E. unfold size in *. rewrite app_length in E. cbn [length] in E. lia.
Qed.
Definition spot (s : scanner) : Z := pot (s_r s).
(* what is left after a token: the message has been discarded, and after the end of the data nothing else is read *)
Definition after (x : token * scanner) : Z :=
  match typ (fst x) with
  | WS => spot (snd x) + U + 9000 * Z.max 0 (size (tlit (fst x)) - 1)
  | SYSLOGMSG => spot (snd x) + (U - 1) * size (tlit (fst x))
  | EOF => (U - 1) * size (tlit (fst x))
  | _ => spot (snd x) + 9000 * Z.max 0 (size (tlit (fst x)) - 1)
  end.
Lemma msg_len_paid s : paid (w_scan_msg_len s) (spot s + 20) after.
Proof.
  unfold w_scan_msg_len, spot. apply paid_tick. eapply paid_bind; [apply (paid_shift _ _ _ 14 _ (fun x => pot (snd x) + 14) (sread_paid (s_r s))); [lia|]|].
  { intros x _. unfold got1. destruct (beqb _ _); unfold U; lia. }
  intros [c b] _. cbn [snd]. eapply paid_bind; [apply paid_tick, (paid_shift _ _ _ 3 _ (fun '(buf, b') => pot b' + 9001 * (size buf - 1) + 3) (digits_paid (S (left b)) b [c])); [lia|]|].
  { intros [buf b'] _. unfold size. cbn [length]. lia. }
  intros [buf b'] Hd. rewrite s_tick, s_digits_loop in Hd. apply digits_len in Hd. unfold size in Hd. cbn [length] in Hd. apply paid_tick, paid_ret. unfold after, spot. cbn [typ tlit fst snd s_r]. unfold size in *. lia.
Qed.
Lemma syslog_msg_paid s : paid (w_scan_syslog_msg s) (spot s + 10) after.
Proof.
  unfold w_scan_syslog_msg, spot. cbn zeta. set (n := to_int (s_msglen s)). apply paid_tick.
  eapply paid_bind; [apply (paid_shift _ _ _ 4 _ (fun x => peeked n x + 4) (peek_paid n (s_r s))); [lia|intros x _; lia]|].
  intros [[l ok] b] Hx. rewrite s_peek in Hx. apply peek_facts in Hx as [H1 H2]. cbn [peeked]. pose proof (pot_un b). destruct ok.
  - destruct (H2 eq_refl) as [H3 H4]. eapply paid_bind; [apply (paid_shift _ _ _ (3 - size l) _ (fun b' => pot b' + U * n + 3 - size l) (discard_paid n b ltac:(lia))); [lia|intros x _; lia]|].
    intros b' _. apply paid_ret. unfold after, spot. cbn [typ tlit fst snd s_r]. unfold U. lia.
  - apply paid_ret. unfold after, spot. cbn [typ tlit fst snd s_r]. unfold U in *. lia.
Qed.
Lemma scan_paid s : paid (w_scan s) (spot s + 60) after.
Proof.
  unfold w_scan, spot. apply paid_tick. eapply paid_bind; [apply (paid_shift _ _ _ 50 _ (fun x => got1 x + 50) (sread_paid (s_r s))); [lia|intros x _; lia]|].
  intros [c b] _. unfold got1. cbn [fst snd]. pose proof (unread_pot b) as Hu. pose proof (pot_pos b) as Hp.
  assert (Un : paid (w_unread_byte b) (pot b + U + 50) (fun b' => pot b' + 49)).
  { apply paid_tick, paid_ret. lia. }
  destruct (is_nonzero_digit c) eqn:Ed.
  - assert (beqb c x00 = false) as -> by (destruct (beqb c x00) eqn:E; [apply beqb_eq in E; subst c; discriminate|reflexivity]).
    eapply paid_bind; [exact Un|]. intros b' _. apply (paid_shift _ _ _ 29 _ _ (msg_len_paid (Scanner b' (s_msglen s) false))); [unfold spot; cbn [s_r]; lia|intros x _; lia].
  - destruct (beqb c x00); [apply paid_ret; unfold after, size; cbn [typ tlit fst length]; unfold U; lia|]. destruct (beqb c " "); [apply paid_ret; unfold after, spot, size; cbn [typ tlit fst snd s_r length]; lia|].
    destruct (beqb c "<" && (0 <? s_msglen s) && s_ready s).
    + eapply paid_bind; [exact Un|]. intros b' _. apply (paid_shift _ _ _ 39 _ _ (syslog_msg_paid (Scanner b' (s_msglen s) (s_ready s)))); [unfold spot; cbn [s_r]; lia|intros x _; lia].
    + apply paid_ret. unfold after, spot, size. cbn [typ tlit fst snd s_r length]. unfold U. lia.
Qed.
(* ---- the parser ---- *)
Definition ppot (p : oparser) : Z := spot (p_s p).
Lemma ppot_pos p : 0 <= ppot p. Proof. apply pot_pos. Qed.
Definition pafter (x : token * oparser) : Z := after (fst x, p_s (snd x)).
Lemma pscan_paid p : p_stepback p = false -> paid (w_pscan p) (ppot p + 61) pafter.
Proof.
  intros H. unfold w_pscan. rewrite H. apply paid_tick. eapply paid_bind; [apply (paid_shift _ _ _ 0 _ after (scan_paid (p_s p))); [unfold ppot; lia|intros x _; lia]|].
  intros [t s] _. apply paid_ret. unfold pafter. cbn [fst snd set_p_s p_s]. lia.
Qed.
Lemma after_pos x : 0 <= after x.
Proof. unfold after, spot. pose proof (pot_pos (s_r (snd x))). unfold size, U. destruct (typ _); lia. Qed.
Lemma pscan_any p : paid (w_pscan p) (ppot p + 61) (fun x => if is_typ EOF (fst x) then 0 else ppot (snd x)).
Proof.
  destruct (p_stepback p) eqn:E.
  - unfold w_pscan. rewrite E. apply paid_tick, paid_ret. cbn [fst snd]. unfold ppot. cbn [set_p_stepback p_s]. pose proof (pot_pos (s_r (p_s p))). unfold spot. destruct (is_typ _ _); lia.
  - apply (paid_shift _ _ _ 0 _ _ (pscan_paid p E)); [lia|]. intros [t q] _. pose proof (after_pos (t, p_s q)) as A. unfold pafter, after, ppot, is_typ in *. cbn [fst snd] in *. unfold size, U in *. destruct (typ t); lia.
Qed.
Lemma pscan_stepback p t q : pscan p = Some (t, q) -> p_stepback q = false.
Proof. unfold pscan. destruct (p_stepback p) eqn:E; [intros H; injection H as _ <-; reflexivity|]. destruct (scan (p_s p)) as [[t' s]|]; [|discriminate]. intros H. injection H as _ <-. exact E. Qed.
Lemma pparse_keeps p d r q : pparse p d = Some (r, q) -> p_s q = p_s p /\ p_stepback q = p_stepback p.
Proof. unfold pparse. destruct (parse (p_internal p) d) as [m x]; destruct x; try discriminate. intros H. injection H as _ <-. auto. Qed.
Lemma pparse_paid p d k : paid (w_pparse p d) (k + 8681 + 8680 * size d) (fun _ => k).
Proof. intros x _. unfold total. unfold w_pparse, wt. cbn [fst snd fold_right]. lia. Qed.
Lemma is_typ_eq t k : is_typ t k = true -> typ k = t.
Proof. unfold is_typ. destruct t, (typ k); congruence. Qed.
Lemma run_body_paid rec tok p : p_stepback p = false -> (forall q, paid (rec q) (ppot q + 200) (fun _ => 0)) -> paid (w_run_body rec tok p) (ppot p + 100) (fun _ => 0).
Proof.
  intros H0 IH. unfold w_run_body. pose proof (ppot_pos p). destruct (negb (is_typ MSGLEN tok)); [apply paid_ret; lia|]. destruct (_ <? _); [apply paid_ret; lia|].
  eapply paid_bind; [apply (paid_shift _ _ _ 39 _ (fun x => pafter x + 39) (pscan_paid p H0)); [lia|intros x _; lia]|].
  intros [t1 p1] B1. rewrite s_pscan in B1. apply pscan_stepback in B1. unfold pafter. cbn [fst snd]. pose proof (after_pos (t1, p_s p1)). destruct (is_typ WS t1) eqn:E1; cbn [negb]; [|apply paid_ret; lia].
  apply is_typ_eq in E1. unfold after. cbn [fst snd]. rewrite E1. fold (ppot p1). pose proof (ppot_pos p1).
  eapply paid_bind; [apply (paid_shift _ _ _ (U - 22) _ (fun x => pafter x + (U - 22)) (pscan_paid p1 B1)); [unfold U; lia|intros x _; lia]|].
  intros [t2 p2] B2. rewrite s_pscan in B2. apply pscan_stepback in B2. unfold pafter. cbn [fst snd]. pose proof (after_pos (t2, p_s p2)). pose proof (ppot_pos p2).
  destruct (is_typ SYSLOGMSG t2) eqn:E2; cbn [negb].
  - apply is_typ_eq in E2. unfold after in *. cbn [fst snd] in *. rewrite E2 in *. fold (ppot p2) in *.
    eapply paid_bind; [apply (paid_shift _ _ _ 0 _ (fun _ => ppot p2 + 290) (pparse_paid p2 (tlit t2) (ppot p2 + 290))); [unfold U, size; lia|intros x _; lia]|].
    intros [res p3] B3. cbn [w_pparse snd] in B3. apply pparse_keeps in B3 as [B3 B3']. destruct (_ && _); [apply paid_ret; lia|].
    eapply paid_bind; [apply (paid_shift _ _ _ 229 _ (fun x => (if is_typ EOF (fst x) then 0 else ppot (snd x)) + 229) (pscan_any p3)); [unfold ppot in *; rewrite B3; lia|intros x _; lia]|].
    intros [t4 p4] _. cbn [fst snd]. destruct (is_typ EOF t4); [apply paid_ret; lia|].
    eapply paid_bind; [apply (paid_shift _ _ _ 0 _ (fun _ => 0) (IH (set_p_stepback true p4))); [unfold ppot; cbn [set_p_stepback p_s]; lia|intros x _; lia]|].
    intros [rs q] _. apply paid_ret. lia.
  - cbn zeta. destruct (_ && _) eqn:E; [|apply paid_ret; unfold U in *; lia].
    eapply paid_bind; [apply (paid_shift _ _ _ 0 _ (fun _ => 0) (pparse_paid p2 (tlit t2) 0)); [|intros x _; lia]|].
    + unfold after in *. cbn [fst snd] in *. unfold ppot, spot in *. pose proof (pot_pos (s_r (p_s p2))). unfold size, U in *. destruct (typ t2); lia.
    + intros [[mm re] p3] _. apply paid_ret. lia.
Qed.
Lemma run_paid f : forall p, paid (w_run f p) (ppot p + 200) (fun _ => 0).
Proof.
  induction f as [|f IH]; intros p; [apply paid_fail|]. cbn [w_run]. apply paid_tick.
  eapply paid_bind; [apply (paid_shift _ _ _ 138 _ (fun x => (if is_typ EOF (fst x) then 0 else ppot (snd x)) + 138) (pscan_any p)); [lia|intros x _; lia]|].
  intros [t q] H. rewrite s_pscan in H. apply pscan_stepback in H. cbn [fst snd]. destruct (is_typ EOF t) eqn:E.
  - apply is_typ_eq in E. unfold w_run_body, is_typ at 1. rewrite E. cbn [negb]. apply paid_ret. lia.
  - apply (paid_shift _ _ _ 38 _ _ (run_body_paid _ t q H IH)); [lia|]. intros x _. lia.
Qed.
Lemma stream_paid p rd : paid (w_stream p rd) (18010 * (rds rd + 1)) (fun _ => 0).
Proof.
  unfold w_stream. apply (paid_shift _ _ _ 0 _ _ (run_paid _ _)); [|intros x _; lia]. unfold ppot, spot, pot, un. cbn [p_s new_scanner new_reader_size s_r f_un f_rd length]. unfold U. pose proof (rds_pos rd). lia.
Qed.

(* ---- C85 ---- *)
(* the call md of Parse of the RFC 5424 machine executes n statements, tests and jumps *)
Definition takes (md : machine * bytes) (n : nat) : Prop := exists R, executes5424 (fst md) (snd md) n R.
Lemma takes_some l : exists ns, Forall2 takes l ns.
Proof.
  induction l as [|[m d] l [ns H]]; [exists []; constructor|]. destruct (parse5424_linear m d) as [[n [cs [x E]]] _]. exists (n :: ns). constructor; [exists (Out cs x); exact E|exact H].
Qed.
Lemma takes_wt l ns : Forall2 takes l ns -> Z.of_nat (fold_right Nat.add 0%nat ns) <= wt l.
Proof.
  induction 1 as [|[m d] n l ns [R E] _ IH]; [cbn; lia|]. destruct (parse5424_linear m d) as [_ L]. destruct (L n R E) as [L1 _]. unfold linear in L1. cbn [wt fold_right snd]. fold (wt l). unfold size. lia.
Qed.
(* the numbers of bytes and of calls of Read until the reader has nothing more to give *)
Lemma rds_content rd : rds rd = Z.of_nat (length (content rd)) + Z.of_nat (length rd).
Proof. unfold rds, content. induction rd as [|[c e] r IH]; [reflexivity|]. cbn [rd_size fold_right fst map concat length]. rewrite app_length. fold (rd_size r). unfold rd_size in *. lia. Qed.

(* the number of steps of the parser, the scanner and bufio, and of the RFC 5424 machine in all the calls made, is at most
   a constant times the number of bytes and of answers of the reader *)
Theorem octet_work_linear opts before rd : exists cost calls rs q,
  w_stream (after_streams (new_parser opts) before) rd = (cost, calls, Some (rs, q)) /\ emitted opts before rd = Some rs
  /\ (exists ns, Forall2 takes calls ns)
  /\ forall ns, Forall2 takes calls ns -> cost + Z.of_nat (fold_right Nat.add 0%nat ns) <= 18010 * (Z.of_nat (length (content rd)) + Z.of_nat (length rd) + 1).
Proof.
  destruct (stream_total opts before rd) as [rs [q E]]. pose proof (octet_work_results (after_streams (new_parser opts) before) rd) as F. rewrite E in F.
  pose proof (stream_paid (after_streams (new_parser opts) before) rd) as B. rewrite rds_content in B. destruct (w_stream (after_streams (new_parser opts) before) rd) as [[cost calls] y]. cbn [snd] in F. subst y.
  exists cost, calls, rs, q. split; [reflexivity|]. split; [unfold emitted; rewrite E; reflexivity|]. split; [apply takes_some|].
  intros ns H. apply takes_wt in H. specialize (B _ eq_refl). unfold total in B. cbn [fst snd] in B. lia.
Qed.
(* the same for a parser in any state, so also when the listener uses or changes it: if the run ends, this is what it cost *)
Theorem octet_work_any p rd cost calls x ns : w_stream p rd = (cost, calls, Some x) -> Forall2 takes calls ns ->
  cost + Z.of_nat (fold_right Nat.add 0%nat ns) <= 18010 * (Z.of_nat (length (content rd)) + Z.of_nat (length rd) + 1).
Proof.
  intros E H. apply takes_wt in H. pose proof (stream_paid p rd x) as B. rewrite E in B. specialize (B eq_refl). rewrite rds_content in B. unfold total in B. cbn [fst snd] in B. lia.
Qed.
(* a stream of two frames: 126 steps and two calls of the machine; a bad frame in a stream cut into single bytes *)
Example octet_work_ex : (exists calls x, w_stream (new_parser []) [(lit "16 <1>1 - - - ", None); (lit "- - -16 <2>1 - - - - - -", None)] = (126, calls, Some x) /\ length calls = 2%nat)
  /\ (exists cost calls x, w_stream (new_parser [OBestEffort]) (map (fun b => ([b], None)) (lit "9 <1>")) = (cost, calls, Some x) /\ map snd calls = [lit "<1>"] /\ 5 < cost < 100).
Proof. split; [do 2 eexists; split; [vm_compute; reflexivity|reflexivity]|do 3 eexists; split; [vm_compute; reflexivity|split; [reflexivity|lia]]]. Qed.
