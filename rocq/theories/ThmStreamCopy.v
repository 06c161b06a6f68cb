(* C91: what is copied for a whole octet counting stream: the calls of the RFC 5424 machine are those recorded by the counting
   model of C85, what each call copies is counted by the model of C87. *)
From Verif Require Import Bytes GotoLang Common CommonFacts M5424Def M5424 MBuilder Bufio MOctet SpecOctet ROctet ThmOctet Steps ThmSteps MOctetCost ThmOctetCost ThmResume MTextCost ThmTextCost.
Local Open Scope Z_scope.

(* ---- no cost is negative; the scanner does not call the machine ---- *)
Definition nn {X} (m : W X) : Prop := 0 <= fst (fst m) /\ snd (fst m) = [].
Lemma nn_ret {X} (x : X) : nn (wret x). Proof. unfold nn. cbn. split; [lia|reflexivity]. Qed.
Lemma nn_fail {X} : nn (@wfail X). Proof. unfold nn. cbn. split; [lia|reflexivity]. Qed.
Lemma nn_tick {X} n (m : W X) : 0 <= n -> nn m -> nn (tick n m).
Proof. intros H. destruct m as [[c l] x]. unfold nn. cbn. intros [? ?]. split; [lia|assumption]. Qed.
Lemma nn_bind {X Y} (m : W X) (f : X -> W Y) : nn m -> (forall x, nn (f x)) -> nn (bind m f).
Proof. intros H K. destruct m as [[c l] [x|]]; cbn [bind]; [|exact H]. specialize (K x). destruct (f x) as [[c' l'] y]. unfold nn in *. cbn in *. destruct H as [? ->], K as [? ->]. split; [lia|reflexivity]. Qed.
Lemma nn_size l : 0 <= MOctetCost.size l. Proof. unfold MOctetCost.size. lia. Qed.
#[local] Hint Resolve nn_ret nn_fail nn_size : nn.
Ltac nn_go := repeat first
  [ apply nn_ret | apply nn_fail | assumption
  | apply nn_tick; [solve [lia | apply nn_size | pose proof nn_size; lia] |]
  | apply nn_bind; [|let x := fresh "x" in intros x]
  | match goal with
    | |- nn (match ?e with _ => _ end) => destruct e
    | |- nn (if ?e then _ else _) => destruct e
    end ].
Lemma nn_fill_loop k : forall len rd, nn (w_fill_loop k len rd).
Proof.
  induction k as [|k IH]; intros len rd; [apply nn_ret|]. cbn [w_fill_loop]. destruct (rd_read len rd) as [[c e] rd']. apply nn_tick; [pose proof (nn_size c); lia|].
  destruct e; [apply nn_ret|]. destruct c; [apply IH|apply nn_ret].
Qed.
Lemma nn_fill b : nn (w_fill b).
Proof.
  unfold w_fill. destruct (_ <=? _); [apply nn_fail|]. apply nn_tick; [unfold f_buffered; destruct (_ =? _); lia|]. apply nn_bind; [apply nn_fill_loop|].
  intros [[c e] r]. apply nn_ret.
Qed.
Lemma nn_read_byte f : forall b, nn (w_read_byte_loop f b).
Proof. induction f as [|f IH]; intros b; [apply nn_fail|]. cbn [w_read_byte_loop]. apply nn_tick; [lia|]. destruct (f_un b); [|apply nn_ret]. destruct (f_err b); [apply nn_ret|]. apply nn_bind; [apply nn_fill|apply IH]. Qed.
Lemma nn_unread b : nn (w_unread_byte b). Proof. apply nn_tick; [lia|apply nn_ret]. Qed.
Lemma nn_peek_loop f n : forall b, nn (w_peek_loop f n b).
Proof.
  induction f as [|f IH]; intros b; cbn [w_peek_loop]; destruct (_ && _ && _); try apply nn_fail; (apply nn_tick; [lia|]); try apply nn_ret. apply nn_bind; [apply nn_fill|apply IH].
Qed.
Lemma nn_peek n b : nn (w_peek n b).
Proof. unfold w_peek. destruct (n <? 0); [apply nn_tick; [lia|apply nn_ret]|]. apply nn_bind; [apply nn_peek_loop|]. intros b'. nn_go. Qed.
Lemma nn_discard_loop f : forall n b, nn (w_discard_loop f n b).
Proof.
  induction f as [|f IH]; intros n b; [apply nn_fail|]. cbn [w_discard_loop]. apply nn_tick; [lia|]. apply nn_bind; [destruct (_ =? _); [apply nn_fill|apply nn_ret]|].
  intros b'. cbv zeta. destruct (_ =? 0); [apply nn_ret|]. match goal with |- nn (match ?e with _ => _ end) => destruct e end; [apply nn_ret|apply IH].
Qed.
Lemma nn_discard n b : nn (w_discard n b).
Proof. unfold w_discard. destruct (_ <=? _); [apply nn_tick; [lia|apply nn_ret]|apply nn_discard_loop]. Qed.
Lemma nn_sread b : nn (w_sread b).
Proof. unfold w_sread. apply nn_tick; [lia|]. apply nn_bind; [apply nn_read_byte|]. intros [c b']. apply nn_ret. Qed.
Lemma nn_digits f : forall b buf, nn (w_digits_loop f b buf).
Proof.
  induction f as [|f IH]; intros b buf; [apply nn_fail|]. cbn [w_digits_loop]. apply nn_tick; [lia|]. apply nn_bind; [apply nn_sread|]. intros [c b'].
  destruct (beqb c x00); [apply nn_ret|]. destruct (negb _); [apply nn_bind; [apply nn_unread|intros; apply nn_ret]|]. apply nn_tick; [lia|apply IH].
Qed.
Lemma nn_msg_len s : nn (w_scan_msg_len s).
Proof.
  unfold w_scan_msg_len. apply nn_tick; [lia|]. apply nn_bind; [apply nn_sread|]. intros [c b]. apply nn_bind; [apply nn_tick; [lia|apply nn_digits]|].
  intros [buf b']. apply nn_tick; [apply nn_size|apply nn_ret].
Qed.
Lemma nn_syslog_msg s : nn (w_scan_syslog_msg s).
Proof.
  unfold w_scan_syslog_msg. cbv zeta. apply nn_tick; [lia|]. apply nn_bind; [apply nn_peek|]. intros [[l ok] b]. destruct ok; [apply nn_bind; [apply nn_discard|intros; apply nn_ret]|apply nn_ret].
Qed.
Lemma nn_scan s : nn (w_scan s).
Proof.
  unfold w_scan. apply nn_tick; [lia|]. apply nn_bind; [apply nn_sread|]. intros [c b]. destruct (is_nonzero_digit c); [apply nn_bind; [apply nn_unread|intros; apply nn_msg_len]|].
  destruct (beqb c x00); [apply nn_ret|]. destruct (beqb c " "); [apply nn_ret|]. destruct (_ && _ && _); [apply nn_bind; [apply nn_unread|intros; apply nn_syslog_msg]|apply nn_ret].
Qed.
Lemma nn_pscan p : nn (w_pscan p).
Proof. unfold w_pscan. apply nn_tick; [lia|]. destruct (p_stepback p); [apply nn_ret|]. apply nn_bind; [apply nn_scan|]. intros [t s]. apply nn_ret. Qed.

(* ---- what the machine is called on ---- *)
(* no cost is negative, every input has P *)
Definition good (P : bytes -> Prop) {X} (m : W X) : Prop := 0 <= fst (fst m) /\ Forall (fun md => P (snd md)) (snd (fst m)).
Lemma good_nn P {X} (m : W X) : nn m -> good P m. Proof. intros [H1 H2]. split; [exact H1|]. rewrite H2. constructor. Qed.
Lemma good_ret P {X} (x : X) : good P (wret x). Proof. apply good_nn, nn_ret. Qed.
Lemma good_tick P {X} (m : W X) : good P m -> good P (tick 1 m).
Proof. destruct m as [[c l] x]. intros [H1 H2]. cbn [tick fst snd] in *. split; cbn [tick fst snd]; [lia|exact H2]. Qed.
Lemma good_bind P {X Y} (m : W X) (f : X -> W Y) : good P m -> (forall x, snd m = Some x -> good P (f x)) -> good P (bind m f).
Proof.
  intros H K. destruct m as [[c l] [x|]]; cbn [bind]; [|exact H]. specialize (K x eq_refl). destruct (f x) as [[c' l'] y]. destruct H as [H1 H2], K as [K1 K2]. cbn in *.
  split; cbn; [lia|]. apply Forall_app. split; assumption.
Qed.
Lemma good_pparse (P : bytes -> Prop) p d : P d -> good P (w_pparse p d).
Proof. intros H. split; cbn; [lia|]. repeat constructor. exact H. Qed.
Definition ml (p : oparser) : Z := s_msglen (p_s p).
Lemma peek_length n b l b' : peek n b = Some (l, true, b') -> Z.of_nat (length l) <= Z.max n 0.
Proof.
  unfold peek. destruct (n <? 0); [discriminate|]. destruct (peek_loop _ _ _) as [b1|]; [|discriminate]. destruct (_ <? _); [discriminate|]. destruct (_ <? _); [discriminate|].
  intros E. injection E as <- _. rewrite firstn_length. lia.
Qed.
Lemma scan_facts s t s' : scan s = Some (t, s') ->
  (is_typ WS t = true -> s_msglen s' = s_msglen s) /\ (is_typ SYSLOGMSG t = true -> Z.of_nat (length (tlit t)) <= Z.max (to_int (s_msglen s)) 0).
Proof.
  unfold scan. destruct (sread (s_r s)) as [[c b]|]; [|discriminate]. destruct (is_nonzero_digit c).
  { unfold scan_msg_len. destruct (sread _) as [[c' b']|]; [|discriminate]. destruct (digits_loop _ _ _) as [[buf b2]|]; [|discriminate]. intros E. injection E as <- <-. split; intros K; discriminate K. }
  destruct (beqb c x00); [intros E; injection E as <- <-; split; intros K; discriminate K|].
  destruct (beqb c " "); [intros E; injection E as <- <-; split; intros K; [reflexivity|discriminate K]|].
  destruct (_ && _ && _); [|intros E; injection E as <- <-; split; intros K; discriminate K].
  unfold scan_syslog_msg. cbn zeta. cbn [s_msglen s_r]. destruct (peek _ _) as [[[l [|]] b1]|] eqn:Ep; [|intros E; injection E as <- <-; split; intros K; discriminate K|discriminate].
  apply peek_length in Ep. destruct (discard _ _); [|discriminate]. intros E. injection E as <- <-. split; intros K; [discriminate K|exact Ep].
Qed.
Lemma pscan_facts p t q : pscan p = Some (t, q) -> p_max q = p_max p /\ p_best q = p_best p /\ p_stepback q = false
  /\ (p_stepback p = false -> (is_typ WS t = true -> ml q = ml p) /\ (is_typ SYSLOGMSG t = true -> Z.of_nat (length (tlit t)) <= Z.max (to_int (ml p)) 0)).
Proof.
  unfold pscan. destruct (p_stepback p) eqn:E.
  - intros H. injection H as <- <-. cbn. repeat split; congruence.
  - destruct (scan (p_s p)) as [[t' s]|] eqn:Es; [|discriminate]. intros H. injection H as <- <-. apply scan_facts in Es. cbn. auto.
Qed.
Lemma pparse_facts p d r q : pparse p d = Some (r, q) -> p_max q = p_max p /\ p_best q = p_best p.
Proof. unfold pparse. destruct (parse (p_internal p) d) as [m [x e| |]]; try discriminate. intros H. injection H as _ <-. auto. Qed.
Lemma run_good (P : bytes -> Prop) f : forall p, (p_best p = true -> forall d, P d) -> (forall d, Z.of_nat (length d) <= Z.max (p_max p) 0 -> P d) -> good P (w_run f p).
Proof.
  induction f as [|f IH]; intros p HB HM; [apply good_nn, nn_fail|]. cbn [w_run]. apply good_tick. apply good_bind; [apply good_nn, nn_pscan|]. intros [tok q] E0. rewrite s_pscan in E0.
  apply pscan_facts in E0 as [M0 [B0 [S0 _]]]. unfold w_run_body.
  destruct (negb _); [apply good_ret|]. destruct (_ <? _) eqn:El; [apply good_ret|]. apply Z.ltb_ge in El. fold (ml q) in El. apply good_bind; [apply good_nn, nn_pscan|]. intros [t1 p1] E1. rewrite s_pscan in E1.
  apply pscan_facts in E1 as [M1 [B1 [S1 F1]]]. specialize (F1 S0) as [F1 _]. destruct (is_typ WS t1); cbn [negb]; [|apply good_ret]. specialize (F1 eq_refl).
  apply good_bind; [apply good_nn, nn_pscan|]. intros [t2 p2] E2. rewrite s_pscan in E2. apply pscan_facts in E2 as [M2 [B2 [_ F2]]]. specialize (F2 S1) as [_ F2].
  destruct (is_typ SYSLOGMSG t2); cbn [negb].
  - specialize (F2 eq_refl). apply good_bind; [apply good_pparse, HM; rewrite F1 in F2; lia|]. intros [res p3] E3. cbn [w_pparse snd] in E3. apply pparse_facts in E3 as [M3 B3].
    destruct (_ && _); [apply good_ret|]. apply good_bind; [apply good_nn, nn_pscan|]. intros [t4 p4] E4. rewrite s_pscan in E4. apply pscan_facts in E4 as [M4 [B4 _]]. destruct (is_typ EOF t4); [apply good_ret|].
    apply good_bind; [|intros [rs p5] _; apply good_ret]. apply IH; cbn [p_best p_max set_p_stepback]; [intros K; apply HB; congruence|]. intros d K. apply HM. congruence.
  - cbv zeta. destruct (_ && _) eqn:E; [|apply good_ret]. apply andb_true_iff in E as [_ E]. apply good_bind; [apply good_pparse, HB; congruence|]. intros [[m re] p3] _. apply good_ret.
Qed.

(* ---- the calls that are recorded are the calls that are made ---- *)
(* calls one after the other on the same machine, which is m before and m' afterwards *)
Fixpoint chain (m : machine) (l : list (machine * bytes)) (m' : machine) : Prop := match l with
  | [] => m = m'
  | (a, d) :: r => a = m /\ chain (fst (parse a d)) r m' end.
(* the message of a result is what the call answered, or there is none although there was an error *)
Definition answers (msg : option message) (md : machine * bytes) : Prop :=
  exists m' x e, parse (fst md) (snd md) = (m', Ret x e) /\ (msg = x \/ msg = None /\ e <> None).
(* one result for each call, and at most one more at the end, without a message *)
Definition made (rs : list result) (l : list (machine * bytes)) : Prop :=
  exists a b, rs = a ++ b /\ Forall2 (fun r => answers (r_msg r)) a l /\ (length b <= 1)%nat /\ Forall (fun r => r_msg r = None) b.
Definition tells (m0 : machine) (m : W (list result * oparser)) : Prop :=
  forall rs q, snd m = Some (rs, q) -> made rs (snd (fst m)) /\ chain m0 (snd (fst m)) (p_internal q).
Lemma made_none : made [] []. Proof. exists [], []. repeat constructor. Qed.
Lemma made_error e : made [Result None e] []. Proof. exists [], [Result None e]. repeat constructor. Qed.
Lemma made_cons r md rs l : answers (r_msg r) md -> made rs l -> made (r :: rs) (md :: l).
Proof. intros H [a [b [-> [A B]]]]. exists (r :: a), b. split; [reflexivity|]. split; [constructor; assumption|exact B]. Qed.
Lemma tells_fail m0 : tells m0 wfail. Proof. intros rs q E. discriminate E. Qed.
Lemma tells_error m0 e p : m0 = p_internal p -> tells m0 (wret ([Result None e], p)).
Proof. intros H rs q E. injection E as <- <-. split; [apply made_error|exact H]. Qed.
Lemma tells_tick m0 n m : tells m0 m -> tells m0 (tick n m).
Proof. destruct m as [[c l] x]. exact (fun H => H). Qed.
Lemma tells_quiet {X} m0 (m : W X) f : nn m -> (forall x, snd m = Some x -> tells m0 (f x)) -> tells m0 (bind m f).
Proof.
  intros [_ N] H rs q. destruct m as [[c l] [x|]]; cbn [bind]; [|intros E; discriminate E]. cbn [fst snd] in N. subst l. specialize (H x eq_refl rs q). destruct (f x) as [[c' l'] y]. exact H.
Qed.
Lemma pparse_answers p d res p3 : pparse p d = Some (res, p3) -> p_internal p3 = fst (parse (p_internal p) d)
  /\ exists m' x e, parse (p_internal p) d = (m', Ret x e) /\ r_msg res = x /\ r_err res = option_map EMachine e.
Proof. unfold pparse. destruct (parse (p_internal p) d) as [m [x e| |]] eqn:E; try discriminate. intros H. injection H as <- <-. split; [reflexivity|]. exists m, x, e. auto. Qed.
Lemma tells_parse m0 p d f : m0 = p_internal p ->
  (forall res p3, pparse p d = Some (res, p3) -> forall rs q, snd (f (res, p3)) = Some (rs, q) ->
     exists r rs', rs = r :: rs' /\ answers (r_msg r) (p_internal p, d) /\ made rs' (snd (fst (f (res, p3)))) /\ chain (p_internal p3) (snd (fst (f (res, p3)))) (p_internal q)) ->
  tells m0 (bind (w_pparse p d) f).
Proof.
  intros -> H rs q. unfold w_pparse. cbn [bind]. destruct (pparse p d) as [[res p3]|] eqn:E; [|intros K; discriminate K]. specialize (H res p3 eq_refl rs q). apply pparse_answers in E as [E _].
  destruct (f (res, p3)) as [[c l] y]. cbn [fst snd] in *. intros K. destruct (H K) as [r [rs' [-> [A [M C]]]]]. cbn [app]. split; [apply made_cons; assumption|].
  cbn [chain]. split; [reflexivity|]. rewrite <- E. exact C.
Qed.
Lemma pscan_internal p t q : pscan p = Some (t, q) -> p_internal q = p_internal p.
Proof.
  unfold pscan. destruct (p_stepback p); [intros H; injection H as _ <-; reflexivity|]. destruct (scan (p_s p)) as [[t' s]|]; [|discriminate]. intros H. injection H as _ <-. reflexivity.
Qed.
Lemma run_tells f : forall p, tells (p_internal p) (w_run f p).
Proof.
  induction f as [|f IH]; intros p; [apply tells_fail|]. cbn [w_run]. apply tells_tick, tells_quiet; [apply nn_pscan|]. intros [tok q] E0. rewrite s_pscan in E0. apply pscan_internal in E0. rewrite <- E0.
  unfold w_run_body. destruct (negb _); [apply tells_error; reflexivity|]. destruct (_ <? _); [apply tells_error; reflexivity|].
  apply tells_quiet; [apply nn_pscan|]. intros [t1 p1] E1. rewrite s_pscan in E1. apply pscan_internal in E1. rewrite <- E1. destruct (negb _); [apply tells_error; reflexivity|].
  apply tells_quiet; [apply nn_pscan|]. intros [t2 p2] E2. rewrite s_pscan in E2. apply pscan_internal in E2. rewrite <- E2. destruct (negb _).
  - cbv zeta. destruct (_ && _); [|apply tells_error; reflexivity]. apply tells_parse; [reflexivity|]. intros [m re] p3 E3 rs q3 K. injection K as <- <-. apply pparse_answers in E3 as [_ [m' [x [e [E3 [R1 _]]]]]].
    do 2 eexists. split; [reflexivity|]. split; [exists m', x, e; split; [exact E3|left; exact R1]|]. split; [apply made_none|reflexivity].
  - apply tells_parse; [reflexivity|]. intros res p3 E3 rs q3. apply pparse_answers in E3 as [_ [m' [x [e [E3 [R1 R2]]]]]]. cbv beta iota.
    destruct (_ && _) eqn:Ee.
    + apply andb_true_iff in Ee as [_ Ee]. intros K. injection K as <- <-. do 2 eexists. split; [reflexivity|]. split; [exists m', x, e; split; [exact E3|right; split; [reflexivity|]]|split; [apply made_none|reflexivity]].
      rewrite R2 in Ee. destruct e; [discriminate|discriminate Ee].
    + assert (T : tells (p_internal p3) (let! (tok, p) := w_pscan p3 in if is_typ EOF tok then wret ([], p) else let! (rs, p') := w_run f (set_p_stepback true p) in wret (rs, p'))).
      { apply tells_quiet; [apply nn_pscan|]. intros [t4 p4] E4. rewrite s_pscan in E4. apply pscan_internal in E4. rewrite <- E4. destruct (is_typ EOF t4).
        - intros rs' q' K. injection K as <- <-. split; [apply made_none|reflexivity].
        - specialize (IH (set_p_stepback true p4)). unfold tells in *. intros rs' q'. destruct (w_run f (set_p_stepback true p4)) as [[c l] [[r5 p5]|]]; cbn [bind wret]; [|intros K; discriminate K].
          rewrite app_nil_r. cbn [fst snd]. intros K. injection K as <- <-. apply (IH r5 p5). reflexivity. }
      unfold tells in T. destruct (w_pscan p3) as [[c4 l4] [[t4 p4]|]]; cbn [bind] in *; [|intros K; discriminate K].
      destruct (is_typ EOF t4).
      * cbn [wret] in *. intros K. injection K as <- <-. destruct (T [] p4 eq_refl) as [T1 T2]. exists res, []. split; [reflexivity|]. split; [exists m', x, e; auto|]. split; [exact T1|exact T2].
      * destruct (w_run f (set_p_stepback true p4)) as [[c l] [[r5 p5]|]]; cbn [bind wret] in *; [|intros K; discriminate K]. intros K. injection K as <- <-.
        destruct (T r5 p5 eq_refl) as [T1 T2]. exists res, r5. split; [reflexivity|]. split; [exists m', x, e; auto|]. split; [exact T1|exact T2].
Qed.
(* the calls recorded for a stream are the calls its results come from, on the machine of the parser *)
Theorem stream_calls_made p rd cost calls rs q : w_stream p rd = (cost, calls, Some (rs, q)) -> made rs calls /\ chain (p_internal p) calls (p_internal q).
Proof.
  intros E. unfold w_stream in E. pose proof (run_tells (S (rd_size rd)) (OParser (p_max p) (new_scanner rd (p_max p)) (p_internal p) (p_last p) (p_stepback p) (p_best p)) rs q) as T. rewrite E in T. exact (T eq_refl).
Qed.

(* ---- the sum over the calls ---- *)
(* the call md of Parse copies the texts and moves the bytes of c (MTextCost.v) *)
Definition copied (md : machine * bytes) (c : Z * Z) : Prop := copies (fst md) (snd md) = Some c.
Definition texts (cs : list (Z * Z)) : Z := fold_right (fun c n => fst c + n) 0 cs.
Definition moves (cs : list (Z * Z)) : Z := fold_right (fun c n => snd c + n) 0 cs.
(* one for each call and for each byte it is given *)
Definition wn (l : list (machine * bytes)) : Z := fold_right (fun md n => (Z.of_nat (length (snd md)) + 1) + n) 0 l.
Lemma wt_wn l : wt l = 8680 * wn l.
Proof. induction l as [|md l IH]; [reflexivity|]. cbn [wt wn fold_right]. fold (wt l). fold (wn l). rewrite IH. unfold MOctetCost.size. lia. Qed.
Lemma wn_pos l : 0 <= wn l.
Proof. induction l as [|md l IH]; [cbn; lia|]. cbn [wn fold_right]. fold (wn l). lia. Qed.
Lemma copied_some l : exists cs, Forall2 copied l cs.
Proof. induction l as [|[m d] l [cs H]]; [exists []; constructor|]. destruct (copies_bounded m d) as [c [r [E _]]]. exists ((c, r) :: cs). constructor; [exact E|exact H]. Qed.
Lemma copied_one md c : copied md c -> 0 <= fst c <= 4 * Z.of_nat (length (snd md)) /\ 0 <= snd c <= Z.of_nat (length (snd md)) * (Z.of_nat (length (snd md)) + 1).
Proof. intros H. destruct md as [m d]. unfold copied in H. cbn [fst snd] in *. destruct (copies_bounded m d) as [x [r [E B]]]. rewrite E in H. injection H as <-. exact B. Qed.
Lemma texts_bound l cs : Forall2 copied l cs -> 0 <= texts cs <= 4 * wn l.
Proof.
  induction 1 as [|md c l cs H _ IH]; [cbn; lia|]. apply copied_one in H as [H _]. cbn [texts wn fold_right]. fold (texts cs). fold (wn l). lia.
Qed.
Lemma moves_bound_by L l cs : Forall2 copied l cs -> (forall md, In md l -> Z.of_nat (length (snd md)) <= L) -> 0 <= moves cs <= L * wn l.
Proof.
  induction 1 as [|md c l cs H _ IH]; intros K; [cbn; lia|]. apply copied_one in H as [_ H]. cbn [moves wn fold_right]. fold (moves cs). fold (wn l).
  assert (IH' := IH (fun x I => K x (or_intror I))). specialize (K md (or_introl eq_refl)). nia.
Qed.
Lemma in_wn l md : In md l -> Z.of_nat (length (snd md)) <= wn l.
Proof.
  induction l as [|x l IH]; [contradiction|]. cbn [In wn fold_right]. fold (wn l). pose proof (wn_pos l). intros [->|I]; [lia|specialize (IH I); lia].
Qed.
(* the number of bytes given to the machine, and of calls *)
Lemma stream_wn p rd cost calls x : w_stream p rd = (cost, calls, Some x) -> 8680 * wn calls <= 18010 * (Z.of_nat (length (content rd)) + Z.of_nat (length rd) + 1).
Proof.
  intros E. pose proof (stream_paid p rd x) as B. rewrite E in B. specialize (B eq_refl). rewrite rds_content in B. unfold total in B. cbn [fst snd] in B. rewrite wt_wn in B.
  assert (N : good (fun _ => True) (w_stream p rd)) by (apply run_good; intros; exact I). rewrite E in N. destruct N as [N _]. cbn [fst] in N. lia.
Qed.

(* without best effort the machine gets nothing longer than the maximum length of the parser *)
Lemma stream_inputs p rd cost calls x : p_best p = false -> w_stream p rd = (cost, calls, Some x) -> forall md, In md calls -> Z.of_nat (length (snd md)) <= Z.max (p_max p) 0.
Proof.
  intros Hb E. assert (N : good (fun d => Z.of_nat (length d) <= Z.max (p_max p) 0) (w_stream p rd)) by (apply run_good; cbn [p_best p_max]; [congruence|auto]).
  rewrite E in N. destruct N as [_ N]. cbn [fst snd] in N. rewrite Forall_forall in N. exact N.
Qed.

(* ---- C91 ---- *)
(* for a parser in any state: if the run ends, what its calls of Parse copy together *)
Theorem stream_copies_any p rd cost calls x cs : w_stream p rd = (cost, calls, Some x) -> Forall2 copied calls cs ->
  let n := Z.of_nat (length (content rd)) + Z.of_nat (length rd) + 1 in
  0 <= texts cs <= 9 * n /\ 0 <= moves cs <= 5 * n ^ 2 /\ (p_best p = false -> moves cs <= 3 * Z.max (p_max p) 0 * n).
Proof.
  intros E H n. pose proof (stream_wn p rd cost calls x E) as S. fold n in S. pose proof (wn_pos calls) as P. assert (0 < n) by (unfold n; lia). clearbody n.
  split; [|split].
  - pose proof (texts_bound _ _ H). lia.
  - pose proof (moves_bound_by _ _ _ H (in_wn calls)) as B. split; [lia|]. apply (Z.le_trans _ (wn calls * wn calls)); [lia|].
    assert (8680 * wn calls * (8680 * wn calls) <= 18010 * n * (18010 * n)) by (apply Z.mul_le_mono_nonneg; lia). rewrite Z.pow_2_r. nia.
  - intros Hb. pose proof (moves_bound_by _ _ _ H (stream_inputs p rd cost calls x Hb E)) as B. assert (wn calls <= 3 * n) by lia. assert (0 <= Z.max (p_max p) 0) by lia. nia.
Qed.
(* every stream, after any options and any streams before it *)
Theorem stream_copies_bounded opts before rd : exists cost calls rs q cs,
  w_stream (after_streams (new_parser opts) before) rd = (cost, calls, Some (rs, q)) /\ emitted opts before rd = Some rs /\ Forall2 copied calls cs
  /\ 0 <= texts cs <= 9 * (Z.of_nat (length (content rd)) + Z.of_nat (length rd) + 1)
  /\ 0 <= moves cs <= 5 * (Z.of_nat (length (content rd)) + Z.of_nat (length rd) + 1) ^ 2
  /\ (opts_best opts = false -> moves cs <= 3 * Z.max (opts_max opts) 0 * (Z.of_nat (length (content rd)) + Z.of_nat (length rd) + 1)).
Proof.
  destruct (octet_work_linear opts before rd) as [cost [calls [rs [q [E [M _]]]]]]. destruct (copied_some calls) as [cs C].
  exists cost, calls, rs, q, cs. split; [exact E|]. split; [exact M|]. split; [exact C|].
  destruct (new_parser_ok opts) as [N1 [N2 [N3 N4]]]. destruct (used_ok opts before) as [U1 [U2 _]]. unfold used in *. pose proof (stream_copies_any _ _ _ _ _ _ E C) as R. cbv zeta in R. rewrite U1, U2 in R. exact R.
Qed.
(* a stream of two frames, the second with an escaped parameter value *)
Example stream_copies_ex : exists cost calls x, w_stream (new_parser []) [(lit "16 <1>1 - - - - - -31 <2>1 - - - - - [a b=""", None); (lit "x\""y\]""] m", None)] = (cost, calls, Some x)
  /\ map snd calls = [lit "<1>1 - - - - - -"; lit "<2>1 - - - - - [a b=""x\""y\]""] m"] /\ Forall2 copied calls [(6, 0); (20, 11)].
Proof. do 3 eexists. split; [vm_compute; reflexivity|]. split; [reflexivity|]. constructor; [vm_compute; reflexivity|constructor; [vm_compute; reflexivity|constructor]]. Qed.
