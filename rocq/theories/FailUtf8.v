(* Where reading UTF-8 text, a parameter value or a timestamp stops. *)
From Verif Require Import Bytes GoMap GoTime CommonFacts M5424Def A5424 M5424 Spec5424 Ref5424b Grammar5424 Utf8 Ts5424 Fail5424.
Local Open Scope Z_scope.

(* tail state after reading t from tail state i, the character not being complete *)
Fixpoint urun (i : N) (t : bytes) : option N :=
  match t with [] => Some i | b :: t' => match utf_tail i (bN b) with Some (Some j) => urun j t' | _ => None end end.
Lemma urun_utail t x : forall i j, urun i t = Some j -> (utail j x <-> utail i (t ++ x)).
Proof.
  induction t as [|b t IH]; intros i j H; cbn [urun app utail] in *; [injection H as ->; tauto|].
  destruct (utf_tail i (bN b)) as [[k|]|]; [|discriminate|discriminate]. apply IH. exact H.
Qed.
Lemma utail_urun t x : forall i, utail i (t ++ x) -> x <> [] -> exists j, urun i t = Some j.
Proof.
  induction t as [|b t IH]; intros i H Hx; cbn [urun app utail] in *; [eauto|].
  destruct (utf_tail i (bN b)) as [[k|]|]; [apply IH; assumption| |contradiction]. destruct t; [destruct x; [congruence|discriminate]|discriminate].
Qed.
Definition finish (i : N) : bytes :=
  match i with 0 => ["128"] | 1 => ["160"; "128"] | 2 => ["128"; "128"] | 3 => ["128"; "128"] | 4 => ["144"; "128"; "128"] | 5 => ["128"; "128"; "128"] | _ => ["128"; "128"; "128"] end%byte%N.
Lemma finish_ok i : utail i (finish i) /\ finish i <> [].
Proof.
  assert (H : i = 0%N \/ i = 1%N \/ i = 2%N \/ i = 3%N \/ i = 4%N \/ i = 5%N \/ (6 <= i)%N) by lia.
  destruct H as [->|[->|[->|[->|[->|[->|H]]]]]]; try (split; [reflexivity|discriminate]).
  assert (E : finish i = ["128"; "128"; "128"]%byte /\ forall c, utf_tail i c = if btw 128 143 c then Some (Some 2%N) else None).
  { destruct i as [|[[[p|p|]|[p|p|]|]|[[p|p|]|[p|p|]|]|]]; try lia; split; reflexivity. }
  destruct E as [-> E]. split; [|discriminate]. cbn [utail]. rewrite E. reflexivity.
Qed.
Lemma urun_char b t i j : utf_start (bN b) = Some i -> urun i t = Some j -> exists c x, scalar c /\ x <> [] /\ encode c = (b :: t) ++ x.
Proof.
  intros Hs Hr. destruct (finish_ok j) as [Hf Hn]. apply (urun_utail t (finish j) i j Hr) in Hf.
  destruct (utail_encode b i _ Hs Hf) as [c [Hc [_ E]]]. exists c, (finish j). auto.
Qed.
Lemma char_urun b t c x : scalar c -> x <> [] -> encode c = (b :: t) ++ x -> exists i j, (128 <= bN b)%N /\ utf_start (bN b) = Some i /\ urun i t = Some j /\ utail j x.
Proof.
  intros Hc Hx E. destruct (encode_cases c Hc) as [[_ [H _]]|[_ [b' [t' [i [H [Hb [Hi Ht]]]]]]]].
  - rewrite E in H. destruct t; [|discriminate]. destruct x; [congruence|discriminate].
  - rewrite E in H. cbn [app] in H. injection H as <- <-. destruct (utail_urun t x i Ht Hx) as [j Hj]. exists i, j. split; [exact Hb|]. split; [exact Hi|]. split; [exact Hj|]. apply (urun_utail t x i j Hj). exact Ht.
Qed.
Lemma encode_ascii b : (bN b < 128)%N -> scalar (bN b) /\ encode (bN b) = [b].
Proof.
  intros H. split; [split; lia|]. unfold encode. replace (bN b <? 128)%N with true by (symmetry; apply N.ltb_lt; exact H). rewrite byte_of_bN. reflexivity.
Qed.

(* a character cannot begin here *)
Lemma stuck_nil rest : stuck_char [] rest <-> exists b r, rest = b :: r /\ (128 <= bN b)%N /\ utf_start (bN b) = None.
Proof.
  split.
  - intros [_ [Hn Hs]]. destruct rest as [|b r]; [destruct (Hn eq_refl)|]. exists b, r. split; [reflexivity|].
    destruct (N.ltb_spec (bN b) 128) as [Hb|Hb]; [destruct (encode_ascii b Hb) as [H1 H2]; destruct (Hs b r (bN b) [] eq_refl H1 H2)|]. split; [exact Hb|].
    destruct (utf_start (bN b)) as [i|] eqn:E; [|reflexivity]. destruct (urun_char b [] i i E eq_refl) as [c [x [H1 [H2 H3]]]]. destruct (Hs b r c x eq_refl H1 H3).
  - intros [b [r [-> [Hb Hu]]]]. split; [exists 0%N, [byte_of 0]; split; [split; lia|]; split; [discriminate|reflexivity]|]. split; [discriminate|].
    intros b' r' c y E Hc He. injection E as <- <-. cbn [app] in He. destruct (encode_cases c Hc) as [[H [H1 H2]]|[H [b' [t' [i [H1 [H2 [Hi Ht]]]]]]]].
    + rewrite He in H1. injection H1 as -> _. lia.
    + rewrite He in H1. injection H1 as <- _. congruence.
Qed.
(* a character that was begun cannot go on *)
Lemma stuck_cons b t rest : stuck_char (b :: t) rest <->
  exists i j, (128 <= bN b)%N /\ utf_start (bN b) = Some i /\ urun i t = Some j /\ forall c r, rest = c :: r -> utf_tail j (bN c) = None.
Proof.
  split.
  - intros [[c [x [Hc [Hx He]]]] [_ Hs]]. destruct (char_urun b t c x Hc Hx He) as [i [j [Hb [Hi [Hj Ht]]]]]. exists i, j. split; [exact Hb|]. split; [exact Hi|]. split; [exact Hj|].
    intros d r ->. destruct (utf_tail j (bN d)) as [[k|]|] eqn:E; [| |reflexivity].
    + assert (Hr : urun i (t ++ [d]) = Some k). { clear - Hj E. revert i Hj. induction t as [|a t IH]; intros i Hj; cbn [urun app] in *; [injection Hj as ->; rewrite E; reflexivity|]. destruct (utf_tail i (bN a)) as [[k'|]|]; [apply IH; exact Hj|discriminate|discriminate]. }
      destruct (urun_char b (t ++ [d]) i k Hi Hr) as [c' [x' [H1 [H2 H3]]]]. destruct (Hs d r c' x' eq_refl H1). rewrite H3. cbn [app]. rewrite <- app_assoc. reflexivity.
    + assert (Hu : utail i (t ++ [d])). { apply (urun_utail t [d] i j Hj). cbn [utail]. rewrite E. reflexivity. }
      destruct (utail_encode b i (t ++ [d]) Hi Hu) as [c' [H1 [_ H3]]]. destruct (Hs d r c' [] eq_refl H1). exact H3.
  - intros [i [j [Hb [Hi [Hj Hn]]]]]. split; [apply (urun_char b t i j); assumption|]. split; [discriminate|].
    intros d r c y -> Hc He. destruct (char_urun b t c (d :: y) Hc ltac:(discriminate) He) as [i' [j' [_ [Hi' [Hj' Ht]]]]].
    rewrite Hi in Hi'. injection Hi' as <-. rewrite Hj in Hj'. injection Hj' as <-. cbn [utail] in Ht. rewrite (Hn d r eq_refl) in Ht. exact Ht.
Qed.
(* every text begins with a character, or is stuck *)
Lemma char_or_stuck l : l <> [] -> (exists c l', scalar c /\ l = encode c ++ l') \/ exists part rest, l = part ++ rest /\ stuck_char part rest.
Proof.
  intros Hl. destruct l as [|b l]; [congruence|]. clear Hl. destruct (N.ltb_spec (bN b) 128) as [Hb|Hb].
  { left. destruct (encode_ascii b Hb) as [H1 H2]. exists (bN b), l. split; [exact H1|]. rewrite H2. reflexivity. }
  destruct (utf_start (bN b)) as [i|] eqn:Hi; [|right; exists [], (b :: l); split; [reflexivity|apply stuck_nil; eauto]].
  assert (H : forall l i, (exists t l', l = t ++ l' /\ utail i t) \/ exists t rest j, l = t ++ rest /\ urun i t = Some j /\ forall c r, rest = c :: r -> utf_tail j (bN c) = None).
  { clear. induction l as [|a l IH]; intros i; [right; exists [], [], i; split; [reflexivity|]; split; [reflexivity|discriminate]|].
    destruct (utf_tail i (bN a)) as [[k|]|] eqn:E.
    - destruct (IH k) as [[t [l' [-> H]]]|[t [rest [j [-> [H1 H2]]]]]].
      + left. exists (a :: t), l'. split; [reflexivity|]. cbn [utail]. rewrite E. exact H.
      + right. exists (a :: t), rest, j. split; [reflexivity|]. split; [cbn [urun]; rewrite E; exact H1|exact H2].
    - left. exists [a], l. split; [reflexivity|]. cbn [utail]. rewrite E. reflexivity.
    - right. exists [], (a :: l), i. split; [reflexivity|]. split; [reflexivity|]. intros c r H. injection H as <- <-. exact E. }
  destruct (H l i) as [[t [l' [-> Ht]]]|[t [rest [j [-> [H1 H2]]]]]].
  - left. destruct (utail_encode b i t Hi Ht) as [c [Hc [_ E]]]. exists c, l'. split; [exact Hc|]. rewrite E. reflexivity.
  - right. exists (b :: t), rest. split; [reflexivity|]. apply stuck_cons. exists i, j. auto.
Qed.

(* ---- utf_scan ---- *)
Lemma scan_urun t rest : forall i j, urun i t = Some j -> (forall c r, rest = c :: r -> utf_tail j (bN c) = None) -> utf_scan (Some i) (t ++ rest) = Some (length t).
Proof.
  induction t as [|b t IH]; intros i j H Hn; cbn [urun app] in *.
  - injection H as ->. destruct rest as [|c r]; [reflexivity|]. cbn [utf_scan]. rewrite (Hn c r eq_refl). reflexivity.
  - cbn [utf_scan]. destruct (utf_tail i (bN b)) as [[k|]|]; [|discriminate|discriminate]. rewrite (IH k j H Hn). reflexivity.
Qed.
Lemma scan_stuck part rest : stuck_char part rest -> utf_scan None (part ++ rest) = Some (length part).
Proof.
  destruct part as [|b t].
  - intros H. apply stuck_nil in H as [b [r [-> [Hb Hu]]]]. cbn [app utf_scan]. replace (bN b <? 128)%N with false by (symmetry; apply N.ltb_ge; exact Hb). rewrite Hu. reflexivity.
  - intros H. apply stuck_cons in H as [i [j [Hb [Hi [Hj Hn]]]]]. cbn [app utf_scan]. replace (bN b <? 128)%N with false by (symmetry; apply N.ltb_ge; exact Hb). rewrite Hi.
    rewrite (scan_urun t rest i j Hj Hn). reflexivity.
Qed.
Lemma scan_utf8_stuck u part rest : utf8 u -> stuck_char part rest -> utf_scan None (u ++ part ++ rest) = Some (length (u ++ part)).
Proof.
  intros Hu Hs. induction Hu as [|c l Hc Hl IH]; [exact (scan_stuck _ _ Hs)|]. rewrite <- app_assoc, utf_scan_encode, IH by exact Hc. rewrite !app_length. f_equal. lia.
Qed.
Lemma scan_bad l n : utf_scan None l = Some n -> exists u part rest, l = u ++ part ++ rest /\ utf8 u /\ stuck_char part rest /\ n = length (u ++ part).
Proof.
  enough (H : forall k l n, (length l <= k)%nat -> utf_scan None l = Some n -> exists u part rest, l = u ++ part ++ rest /\ utf8 u /\ stuck_char part rest /\ n = length (u ++ part)) by (apply (H (length l)); lia).
  clear l n. induction k as [|k IH]; intros l n Hl H.
  { destruct l; [discriminate|cbn in Hl; lia]. }
  destruct l as [|b l]; [discriminate|]. destruct (char_or_stuck (b :: l) ltac:(discriminate)) as [[c [l' [Hc E]]]|[part [rest [E Hs]]]]; rewrite E in *.
  - rewrite utf_scan_encode in H by exact Hc. destruct (utf_scan None l') as [n'|] eqn:E'; [|discriminate]. injection H as <-.
    assert (Hne : (1 <= length (encode c))%nat). { destruct (encode_cases c Hc) as [[_ [-> _]]|[_ [b' [t' [i [-> _]]]]]]; cbn [length]; lia. }
    rewrite app_length in Hl. destruct (IH l' n' ltac:(lia) E') as [u [part [rest [-> [Hu [Hs ->]]]]]].
    exists (encode c ++ u), part, rest. split; [rewrite <- app_assoc; reflexivity|]. split; [constructor; assumption|]. split; [exact Hs|]. rewrite !app_length. lia.
  - rewrite (scan_stuck _ _ Hs) in H. injection H as <-. exists [], part, rest. split; [reflexivity|]. split; [constructor|]. split; [exact Hs|reflexivity].
Qed.

(* ---- parameter values ---- *)
Lemma pval_app raw v l : pval raw v -> p_val VPlain (raw ++ l) = (raw ++ fst (p_val VPlain l), snd (p_val VPlain l)).
Proof.
  induction 1 as [|b raw v Hb Hp IH|c raw v Hc Hs Hp IH]; [apply surjective_pairing| |].
  - cbn [app p_val]. change (is 34 "\") with false. change (is 92 "\") with true. cbv iota. rewrite (special_is b Hb), IH. reflexivity.
  - rewrite <- app_assoc, p_val_encode, IH by assumption. cbn [fst snd]. rewrite app_assoc. reflexivity.
Qed.
Lemma pval_urun t rest : forall i j, urun i t = Some j -> (forall c r, rest = c :: r -> utf_tail j (bN c) = None) -> p_val (VUtf i) (t ++ rest) = (t, VBad ESdParam).
Proof.
  induction t as [|b t IH]; intros i j H Hn; cbn [urun app] in *.
  - injection H as ->. destruct rest as [|c r]; [reflexivity|]. cbn [p_val]. rewrite (Hn c r eq_refl). reflexivity.
  - cbn [p_val]. destruct (utf_tail i (bN b)) as [[k|]|]; [|discriminate|discriminate]. rewrite (IH k j H Hn). reflexivity.
Qed.
Lemma is_high n b : (128 <= bN b)%N -> (n < 128)%N -> is n b = false.
Proof. intros H1 H2. apply N.eqb_neq. lia. Qed.
Lemma pval_stuck part rest : stuck_char part rest -> p_val VPlain (part ++ rest) = (part, VBad (match part with [] => EEscape | _ => ESdParam end)).
Proof.
  destruct part as [|b t].
  - intros H. apply stuck_nil in H as [b [r [-> [Hb Hu]]]]. cbn [app p_val]. rewrite !(is_high _ b Hb) by lia.
    replace (bN b <? 128)%N with false by (symmetry; apply N.ltb_ge; exact Hb). rewrite Hu. reflexivity.
  - intros H. apply stuck_cons in H as [i [j [Hb [Hi [Hj Hn]]]]]. cbn [app p_val]. rewrite !(is_high _ b Hb) by lia.
    replace (bN b <? 128)%N with false by (symmetry; apply N.ltb_ge; exact Hb). rewrite Hi, (pval_urun t rest i j Hj Hn). reflexivity.
Qed.
(* how reading a value fails *)
Inductive val_fails : bytes -> bytes -> ekind -> Prop :=
| vf_value raw v bad : pval raw v -> (bad = [] \/ (exists r, bad = "]"%byte :: r) \/ stuck_char [] bad) -> val_fails raw bad EEscape
| vf_escape raw v bad : pval raw v -> next_not (fun b => special (bN b)) bad -> val_fails (raw ++ lit "\") bad EEscape
| vf_utf8 raw v part bad : pval raw v -> part <> [] -> stuck_char part bad -> val_fails (raw ++ part) bad ESdParam.
Lemma val_fails_app raw v g bad k : pval raw v -> val_fails g bad k -> val_fails (raw ++ g) bad k.
Proof.
  assert (Ha : forall r1 v1 r2 v2, pval r1 v1 -> pval r2 v2 -> pval (r1 ++ r2) (v1 ++ v2)).
  { intros r1 v1 r2 v2 H1 H2. induction H1; [exact H2|cbn [app]; constructor; assumption|rewrite <- !app_assoc; constructor; assumption]. }
  intros Hp [raw' v' bad' H1 H2|raw' v' bad' H1 H2|raw' v' part bad' H1 H2 H3].
  - eapply vf_value; eauto.
  - rewrite app_assoc. eapply vf_escape; eauto.
  - rewrite app_assoc. eapply vf_utf8; eauto.
Qed.
Lemma val_fails_scan g bad k : val_fails g bad k -> p_val VPlain (g ++ bad) = (g, VBad k).
Proof.
  intros [raw v bad' H1 H2|raw v bad' H1 H2|raw v part bad' H1 H2 H3].
  - rewrite (pval_app raw v) by exact H1. destruct H2 as [->|[[r ->]|H2]]; [cbn [p_val fst snd]; rewrite app_nil_r; reflexivity|cbn [p_val]; change (is 34 "]") with false; change (is 92 "]") with false; change (is 93 "]") with true; cbn [fst snd]; rewrite app_nil_r; reflexivity|].
    pose proof (pval_stuck [] bad' H2) as E. cbn [app] in E. rewrite E. cbn [fst snd]. rewrite app_nil_r. reflexivity.
  - rewrite <- app_assoc, (pval_app raw v) by exact H1. change (lit "\") with ["\"%byte]. cbn [app p_val]. change (is 34 "\") with false. change (is 92 "\") with true. cbv iota.
    destruct bad' as [|b r]; [reflexivity|]. cbn [p_val]. destruct (is 34 b || is 92 b || is 93 b) eqn:E; [exfalso|reflexivity]. apply (H2 b r eq_refl).
    unfold special, is in *. rewrite !orb_true_iff, !N.eqb_eq in E. tauto.
  - rewrite <- app_assoc, (pval_app raw v), pval_stuck by assumption. destruct part; [congruence|]. reflexivity.
Qed.
Lemma scan_val_fails l raw k : p_val VPlain l = (raw, VBad k) -> exists bad, l = raw ++ bad /\ val_fails raw bad k.
Proof.
  enough (H : forall n l raw k, (length l <= n)%nat -> p_val VPlain l = (raw, VBad k) -> exists bad, l = raw ++ bad /\ val_fails raw bad k) by (apply (H (length l)); lia).
  clear l raw k. induction n as [|n IH]; intros l raw k Hl H.
  { destruct l; [|cbn in Hl; lia]. cbn in H. injection H as <- <-. exists []. split; [reflexivity|]. apply (vf_value [] []); [constructor|auto]. }
  destruct l as [|b l]; [cbn in H; injection H as <- <-; exists []; split; [reflexivity|]; apply (vf_value [] []); [constructor|auto]|].
  destruct (char_or_stuck (b :: l) ltac:(discriminate)) as [[c [l' [Hc E]]]|[part [rest [E Hs]]]].
  2: { rewrite E in *. rewrite (pval_stuck _ _ Hs) in H. injection H as <- <-. exists rest. split; [reflexivity|]. destruct part as [|a part]; [apply (vf_value [] []); [constructor|auto]|].
       apply (vf_utf8 [] []); [constructor|discriminate|exact Hs]. }
  assert (Hne : (1 <= length (encode c))%nat). { destruct (encode_cases c Hc) as [[_ [-> _]]|[_ [b' [t' [i [-> _]]]]]]; cbn [length]; lia. }
  destruct (N.eq_dec c 34) as [->|H34]; [rewrite E in H; cbn in H; discriminate|].
  destruct (N.eq_dec c 93) as [->|H93]; [rewrite E in *; cbn in H; injection H as <- <-; exists (encode 93 ++ l'); split; [reflexivity|]; apply (vf_value [] []); [constructor|]; right; left; exists l'; reflexivity|].
  destruct (N.eq_dec c 92) as [->|H92].
  - rewrite E in *. change (encode 92) with ["\"%byte] in *. cbn [app p_val] in H. change (is 34 "\") with false in H. change (is 92 "\") with true in H. cbv iota in H.
    cbn [app length] in Hl. destruct l' as [|d l']; [injection H as <- <-; exists []; split; [reflexivity|]; apply (vf_escape [] []); [constructor|intros ? ? ?; discriminate]|].
    cbn [p_val] in H. destruct (is 34 d || is 92 d || is 93 d) eqn:Ed.
    + injection H as <- H. cbn [fst snd] in *. destruct (IH l' (fst (p_val VPlain l')) k) as [bad [Eb Hv]]; [cbn [length] in Hl; lia|rewrite <- H; apply surjective_pairing|].
      exists bad. split; [cbn [app]; rewrite Eb at 1; reflexivity|]. apply (val_fails_app ["\"%byte; d] [d]); [|exact Hv]. constructor; [|constructor].
      unfold special, is in *. rewrite !orb_true_iff, !N.eqb_eq in Ed. tauto.
    + injection H as <- <-. exists (d :: l'). split; [reflexivity|]. apply (vf_escape [] []); [constructor|]. intros d' r' E'. injection E' as <- <-. intros Hsp.
      unfold special, is in *. rewrite !orb_false_iff, !N.eqb_neq in Ed. tauto.
  - assert (Hsp : ~ special c) by (unfold special; tauto). rewrite E in *. rewrite p_val_encode in H by assumption. injection H as <- H.
    rewrite app_length in Hl. destruct (IH l' (fst (p_val VPlain l')) k) as [bad [Eb Hv]]; [lia|rewrite <- H; apply surjective_pairing|].
    exists bad. split; [rewrite Eb at 1; rewrite app_assoc; reflexivity|]. apply (val_fails_app (encode c) (encode c)); [|exact Hv].
    rewrite <- (app_nil_r (encode c)). constructor; [exact Hc|exact Hsp|constructor].
Qed.

(* ---- timestamps ---- *)
Lemma form_shape s : ts_form s <-> exists t, ts_shape s t.
Proof.
  split.
  - intros [yyyy [mo [dd [hh [mi [ss [fr [zo [vy [vmo [vd [vh [vmi [vs [ns [off [H1 [H2 [H3 [H4 [H5 [H6 [H7 [H8 H9]]]]]]]]]]]]]]]]]]]]]]]].
    exists (Time vy vmo vd vh vmi vs ns off), yyyy, mo, dd, hh, mi, ss, fr, zo. cbn. auto 12.
  - intros [t [yyyy [mo [dd [hh [mi [ss [fr [zo [H1 [H2 [H3 [H4 [H5 [H6 [H7 [H8 H9]]]]]]]]]]]]]]]]].
    exists yyyy, mo, dd, hh, mi, ss, fr, zo. do 8 eexists. split; [exact H1|]. repeat (split; [eassumption|]). eassumption.
Qed.
Lemma form_run a w : ts_form (a :: w) <-> digit a /\ w <> [] /\ ts_run 554 w = Some 578%N.
Proof.
  rewrite form_shape. split.
  - intros [t H]. destruct (shape_run _ _ H) as [a' [w' [E [H1 [H2 H3]]]]]. injection E as <- <-. auto.
  - intros [H1 [_ H2]]. apply run_shape; assumption.
Qed.
Definition ts_states : list N := [554; 555; 556; 557; 558; 559; 560; 561; 562; 563; 564; 565; 566; 567; 568; 569; 570; 571; 572; 573; 574; 575; 576; 577; 579; 580; 581; 582; 583; 584; 585; 586; 587; 588; 589; 590]%N.
Definition ts_finish (n : N) : bytes :=
  match n with
  | 554 => lit "000-01-01T00:00:00Z" | 555 => lit "00-01-01T00:00:00Z" | 556 => lit "0-01-01T00:00:00Z" | 557 => lit "-01-01T00:00:00Z"
  | 558 => lit "01-01T00:00:00Z" | 559 => lit "1-01T00:00:00Z" | 590 => lit "1-01T00:00:00Z" | 560 => lit "-01T00:00:00Z" | 561 => lit "01T00:00:00Z"
  | 562 => lit "1T00:00:00Z" | 588 => lit "1T00:00:00Z" | 589 => lit "1T00:00:00Z" | 563 => lit "T00:00:00Z" | 564 => lit "00:00:00Z"
  | 565 => lit "0:00:00Z" | 587 => lit "0:00:00Z" | 566 => lit ":00:00Z" | 567 => lit "00:00Z" | 568 => lit "0:00Z" | 569 => lit ":00Z" | 570 => lit "00Z" | 571 => lit "0Z"
  | 573 => lit "00:00" | 574 => lit "0:00" | 579 => lit "0:00" | 575 => lit ":00" | 576 => lit "00" | 577 => lit "0" | 580 => lit "0Z"
  | _ => lit "Z"
  end%N.
Lemma ts_finish_ok n : In n ts_states -> ts_run n (ts_finish n) = Some 578%N /\ ts_finish n <> [].
Proof.
  intros H.
  assert (Hc : forallb (fun n => match ts_run n (ts_finish n) with Some m => (m =? 578)%N | None => false end && negb (match ts_finish n with [] => true | _ => false end)) ts_states = true) by (vm_compute; reflexivity).
  rewrite forallb_forall in Hc. specialize (Hc n H). apply andb_true_iff in Hc as [H1 H2]. split.
  - destruct (ts_run n (ts_finish n)) as [m|]; [|discriminate]. apply N.eqb_eq in H1. congruence.
  - destruct (ts_finish n); discriminate.
Qed.
Lemma ts_next_states n b m : In n ts_states -> ts_next n (bN b) = Some m -> m <> 578%N -> In m ts_states.
Proof.
  intros Hn Hm H578.
  assert (Hc : forallb (fun n => forallb (fun b => match ts_next n (bN b) with Some m => (m =? 578)%N || existsb (N.eqb m) ts_states | None => true end) all_bytes) ts_states = true) by (vm_compute; reflexivity).
  rewrite forallb_forall in Hc. specialize (Hc n Hn). rewrite forallb_forall in Hc. specialize (Hc b (all_bytes_complete b)). rewrite Hm in Hc.
  apply orb_true_iff in Hc as [Hc|Hc]; [apply N.eqb_eq in Hc; contradiction|]. apply existsb_exists in Hc as [k [Hk E]]. apply N.eqb_eq in E. subst k. exact Hk.
Qed.

Lemma run_states w : forall n m, In n ts_states -> ts_run n w = Some m -> m = 578%N \/ In m ts_states.
Proof.
  induction w as [|b w IH]; intros n m Hn H; cbn [ts_run] in H; [injection H as <-; auto|].
  destruct (ts_next n (bN b)) as [k|] eqn:E; [|discriminate]. destruct (N.eq_dec k 578) as [->|Hk].
  - destruct w as [|c w]; [injection H as <-; auto|discriminate].
  - apply (IH k); [|exact H]. apply (ts_next_states n b); assumption.
Qed.
Lemma stuck_ts_nil rest : stuck_ts [] rest <-> next_not digit rest.
Proof.
  split.
  - intros [_ H] b r -> Hd. apply (H b r (ts_finish 554) eq_refl). cbn [app]. apply form_run. split; [exact Hd|]. split; [discriminate|reflexivity].
  - intros H. split.
    + exists ("0"%byte :: ts_finish 554). split; [discriminate|]. cbn [app]. apply form_run. split; [unfold digit; change (bN "0") with 48%N; lia|]. split; [discriminate|reflexivity].
    + intros b r y -> Hf. cbn [app] in Hf. apply form_run in Hf as [Hf _]. exact (H b r eq_refl Hf).
Qed.
Lemma stuck_ts_cons a w rest : stuck_ts (a :: w) rest <-> digit a /\ exists m, In m ts_states /\ ts_run 554 w = Some m /\ forall c r, rest = c :: r -> ts_next m (bN c) = None.
Proof.
  assert (H554 : In 554%N ts_states) by (left; reflexivity).
  split.
  - intros [[x [Hx Hf]] Hs]. cbn [app] in Hf. apply form_run in Hf as [Ha [_ Hr]]. split; [exact Ha|]. rewrite ts_run_app in Hr. destruct (ts_run 554 w) as [m|] eqn:Em; [|discriminate].
    assert (Hm : In m ts_states). { destruct (run_states w 554 m H554 Em) as [->|H]; [|exact H]. destruct x; [congruence|discriminate]. }
    exists m. split; [exact Hm|]. split; [reflexivity|]. intros c r ->. destruct (ts_next m (bN c)) as [k|] eqn:E; [exfalso|reflexivity].
    destruct (N.eq_dec k 578) as [->|Hk].
    + apply (Hs c r [] eq_refl). cbn [app]. apply form_run. split; [exact Ha|]. split; [destruct w; discriminate|]. rewrite ts_run_app, Em. cbn [ts_run]. rewrite E. reflexivity.
    + destruct (ts_finish_ok k (ts_next_states m c k Hm E Hk)) as [H1 _]. apply (Hs c r (ts_finish k) eq_refl). cbn [app]. apply form_run. split; [exact Ha|]. split; [destruct w; discriminate|].
      rewrite ts_run_app, Em. cbn [ts_run]. rewrite E. exact H1.
  - intros [Ha [m [Hm [Em Hn]]]]. split.
    + destruct (ts_finish_ok m Hm) as [H1 H2]. exists (ts_finish m). split; [exact H2|]. cbn [app]. apply form_run. split; [exact Ha|].
      split; [destruct w; [exact H2|discriminate]|]. rewrite ts_run_app, Em. exact H1.
    + intros c r y -> Hf. cbn [app] in Hf. apply form_run in Hf as [_ [_ Hr]]. rewrite ts_run_app, Em in Hr. cbn [ts_run] in Hr. rewrite (Hn c r eq_refl) in Hr. discriminate.
Qed.
Lemma run_not_578 m c r : ts_run 578 (c :: r) = Some m -> False.
Proof. discriminate. Qed.
Lemma scan_ts_stuck w rest : forall n m, In n ts_states -> In m ts_states -> ts_run n w = Some m -> (forall c r, rest = c :: r -> ts_next m (bN c) = None) -> ts_scan n (w ++ rest) = (w, TSBad).
Proof.
  assert (H578 : ~ In 578%N ts_states). { intros H. cbn in H. repeat (destruct H as [H|H]; [discriminate|]). exact H. }
  induction w as [|b w IH]; intros n m Hn Hm Hr Hs; cbn [ts_run app] in *.
  - injection Hr as ->. destruct rest as [|c r]; [reflexivity|]. cbn [ts_scan]. rewrite (Hs c r eq_refl). reflexivity.
  - cbn [ts_scan]. destruct (ts_next n (bN b)) as [k|] eqn:E; [|discriminate]. destruct (N.eqb_spec k 578) as [->|Hk].
    + exfalso. destruct w as [|c w]; [injection Hr as <-; contradiction|]. apply (run_not_578 _ _ _ Hr).
    + rewrite (IH k m); [reflexivity|apply (ts_next_states n b); assumption|exact Hm|exact Hr|exact Hs].
Qed.
Lemma scan_ts_bad l : forall n w, In n ts_states -> ts_scan n l = (w, TSBad) -> exists rest m, l = w ++ rest /\ In m ts_states /\ ts_run n w = Some m /\ forall c r, rest = c :: r -> ts_next m (bN c) = None.
Proof.
  induction l as [|b l IH]; intros n w Hn H; cbn [ts_scan] in H.
  - injection H as <-. exists [], n. split; [reflexivity|]. split; [exact Hn|]. split; [reflexivity|]. intros; discriminate.
  - destruct (ts_next n (bN b)) as [k|] eqn:E.
    + destruct (N.eqb_spec k 578) as [->|Hk]; [discriminate|]. injection H as <- H. destruct (IH k (fst (ts_scan k l))) as [rest [m [E1 [H1 [H2 H3]]]]]; [apply (ts_next_states n b); assumption|rewrite <- H; apply surjective_pairing|].
      exists rest, m. split; [cbn [app]; f_equal; exact E1|]. split; [exact H1|]. split; [|exact H3]. cbn [ts_run]. rewrite E. exact H2.
    + injection H as <-. exists (b :: l), n. split; [reflexivity|]. split; [exact Hn|]. split; [reflexivity|]. intros c r Ec. injection Ec as <- <-. exact E.
Qed.
