(* The timestamp automaton and the model of time.Parse accept exactly the timestamp grammar. *)
From Verif Require Import Bytes GoMap GoTime CommonFacts M5424Def A5424 M5424 Spec5424 Ref5424c Grammar5424 Utf8.
Local Open Scope Z_scope.

(* ts_next along a text *)
Fixpoint ts_run (n : N) (w : bytes) : option N :=
  match w with [] => Some n | b :: r => match ts_next n (bN b) with Some m => ts_run m r | None => None end end.
Lemma ts_run_app a : forall n b, ts_run n (a ++ b) = match ts_run n a with Some m => ts_run m b | None => None end.
Proof. induction a as [|c a IH]; intros n b; [reflexivity|]. cbn [app ts_run]. destruct (ts_next n (bN c)); [apply IH|reflexivity]. Qed.

Lemma ts_scan_run l : forall n w r, ts_scan n l = (w, TSDone r) <-> l = w ++ r /\ w <> [] /\ ts_run n w = Some 578%N.
Proof.
  induction l as [|b l IH]; intros n w r; cbn [ts_scan].
  - split; [discriminate|]. intros [H [Hn _]]. destruct w; [congruence|discriminate].
  - destruct (ts_next n (bN b)) as [m|] eqn:E.
    + destruct (m =? 578)%N eqn:Em.
      * apply N.eqb_eq in Em. subst m. split.
        -- intros H. injection H as <- <-. split; [reflexivity|]. split; [discriminate|]. cbn. rewrite E. reflexivity.
        -- intros [H [Hn Hr]]. destruct w as [|c w]; [congruence|]. cbn [app] in H. injection H as <- ->. cbn [ts_run] in Hr. rewrite E in Hr.
           destruct w as [|d w]; [reflexivity|]. cbn [ts_run] in Hr. change (ts_next 578 (bN d)) with (@None N) in Hr. discriminate.
      * split.
        -- intros H. injection H as <- H. destruct (IH m (fst (ts_scan m l)) r) as [IH1 _].
           destruct IH1 as [H1 [H2 H3]]; [rewrite <- H; destruct (ts_scan m l); reflexivity|].
           split; [cbn [app]; f_equal; exact H1|]. split; [discriminate|]. cbn [ts_run]. rewrite E. exact H3.
        -- intros [H [Hn Hr]]. destruct w as [|c w]; [congruence|]. cbn [app] in H. injection H as <- ->. cbn [ts_run] in Hr. rewrite E in Hr.
           assert (Hw : w <> []). { intros ->. cbn in Hr. injection Hr as ->. discriminate. }
           destruct (IH m w r) as [_ IH2]. rewrite IH2; auto.
    + split; [discriminate|]. intros [H [Hn Hr]]. destruct w as [|c w]; [congruence|]. cbn [app] in H. injection H as <- ->. cbn [ts_run] in Hr. rewrite E in Hr. discriminate.
Qed.

Lemma num_len n ds lo hi v : num n ds lo hi v -> length ds = n. Proof. intros [H _]. exact H. Qed.
Lemma num2 ds lo hi v : num 2 ds lo hi v <-> exists a b, ds = [a; b] /\ digit a /\ digit b /\ v = 10 * dv a + dv b /\ lo <= v <= hi.
Proof.
  split.
  - intros [H1 [H2 [H3 H4]]]. destruct ds as [|a [|b [|c ds]]]; try discriminate. exists a, b.
    pose proof (Forall_inv H2). pose proof (Forall_inv (Forall_inv_tail H2)). split; [reflexivity|]. split; [assumption|]. split; [assumption|]. split; [|exact H4].
    rewrite <- H3. unfold dec. cbn [dec_acc]. change CommonFacts.dig with dv. lia.
  - intros [a [b [-> [H1 [H2 [H3 H4]]]]]]. split; [reflexivity|]. split; [repeat (apply Forall_cons; [assumption|]); apply Forall_nil|]. split; [|exact H4].
    rewrite H3. unfold dec. cbn [dec_acc]. change CommonFacts.dig with dv. lia.
Qed.
Lemma num4 ds lo hi v : num 4 ds lo hi v <-> exists a b c d, ds = [a; b; c; d] /\ digit a /\ digit b /\ digit c /\ digit d /\
   v = 1000 * dv a + 100 * dv b + 10 * dv c + dv d /\ lo <= v <= hi.
Proof.
  split.
  - intros [H1 [H2 [H3 H4]]]. destruct ds as [|a [|b [|c [|d [|e ds]]]]]; try discriminate. exists a, b, c, d.
    inversion H2 as [|? ? A1 A2]. inversion A2 as [|? ? A3 A4]. inversion A4 as [|? ? A5 A6]. inversion A6 as [|? ? A7 A8].
    repeat (split; [reflexivity || assumption|]). split; [|exact H4].
    rewrite <- H3. unfold dec. cbn [dec_acc]. change CommonFacts.dig with dv. lia.
  - intros [a [b [c [d [-> [H1 [H2 [H2' [H2'' [H3 H4]]]]]]]]]]. split; [reflexivity|]. split; [repeat (apply Forall_cons; [assumption|]); apply Forall_nil|]. split; [|exact H4].
    rewrite H3. unfold dec. cbn [dec_acc]. change CommonFacts.dig with dv. lia.
Qed.

(* inversion of one step *)
Lemma run_cons n w : ts_run n w = Some 578%N -> n <> 578%N -> exists b r m, w = b :: r /\ ts_next n (bN b) = Some m /\ ts_run m r = Some 578%N.
Proof.
  intros H Hn. destruct w as [|b r]; [cbn in H; congruence|]. cbn [ts_run] in H.
  destruct (ts_next n (bN b)) as [m|] eqn:E; [|discriminate]. eauto 6.
Qed.
Lemma bN_lit b n : bN b = n -> (n < 256)%N -> b = byte_of n.
Proof. intros H _. rewrite <- H. symmetry. apply byte_of_bN. Qed.

Ltac step H b w :=
  let m := fresh "m" in let E := fresh "E" in let H' := fresh "H" in
  apply run_cons in H; [|discriminate]; destruct H as [b [w [m [-> [E H']]]]]; cbn [ts_next] in E;
  repeat match type of E with (if ?c then _ else _) = _ => let C := fresh "C" in destruct c eqn:C; [|try discriminate E] end;
  try discriminate E; try (injection E as <-); rename H' into H.
Ltac bools := repeat match goal with
  | H : btw _ _ _ = true |- _ => apply btw_spec in H
  | H : is_dig _ = true |- _ => apply btw_spec in H
  | H : btw _ _ _ = false |- _ => clear H
  | H : (_ =? _)%N = true |- _ => apply N.eqb_eq in H
  | H : (_ =? _)%N = false |- _ => apply N.eqb_neq in H
  | H : _ || _ = true |- _ => apply orb_true_iff in H
  end.

(* four digits are read by 553..: the first is read by state 6 *)
Lemma inv_year w : ts_run 554 w = Some 578%N -> exists b c d w', w = b :: c :: d :: "-"%byte :: w' /\ digit b /\ digit c /\ digit d /\ ts_run 558 w' = Some 578%N.
Proof.
  intros H. step H b w1. step H c w2. step H d w3. step H e w4. bools.
  assert (e = "-"%byte) as -> by (apply (bN_lit e 45); lia).
  exists b, c, d, w4. unfold digit. repeat split; auto; lia.
Qed.
Lemma inv_month w : ts_run 558 w = Some 578%N -> exists mo v w', w = mo ++ "-"%byte :: w' /\ num 2 mo 1 12 v /\ ts_run 561 w' = Some 578%N.
Proof.
  intros H. apply run_cons in H; [|discriminate]. destruct H as [a [w1 [m [-> [E H]]]]]. cbn [ts_next] in E.
  assert (exists b w2, w1 = b :: w2 /\ digit b /\ digit a /\ 1 <= 10 * dv a + dv b <= 12 /\ ts_run 560 w2 = Some 578%N) as [b [w2 [-> [Hb [Ha [Hr H2]]]]]].
  { destruct (bN a =? 48)%N eqn:C; [|destruct (bN a =? 49)%N eqn:C2; [|discriminate]]; injection E as <-.
    - step H b w2. bools. exists b, w2. unfold digit, dv. repeat split; auto; lia.
    - step H b w2. bools. exists b, w2. unfold digit, dv. repeat split; auto; lia. }
  step H2 e w3. bools. assert (e = "-"%byte) as -> by (apply (bN_lit e 45); lia).
  exists [a; b], (10 * dv a + dv b), w3. split; [reflexivity|]. split; [|exact H2]. apply num2. exists a, b. auto.
Qed.
Lemma inv_day w : ts_run 561 w = Some 578%N -> exists dd v w', w = dd ++ "T"%byte :: w' /\ num 2 dd 1 31 v /\ ts_run 564 w' = Some 578%N.
Proof.
  intros H. apply run_cons in H; [|discriminate]. destruct H as [a [w1 [m [-> [E H]]]]]. cbn [ts_next] in E.
  assert (exists b w2, w1 = b :: w2 /\ digit b /\ digit a /\ 1 <= 10 * dv a + dv b <= 31 /\ ts_run 563 w2 = Some 578%N) as [b [w2 [-> [Hb [Ha [Hr H2]]]]]].
  { destruct (bN a =? 48)%N eqn:C; [|destruct (bN a =? 51)%N eqn:C2; [|destruct (btw 49 50 (bN a)) eqn:C3; [|discriminate]]]; injection E as <-;
    step H b w2; bools; exists b, w2; unfold digit, dv; repeat split; auto; lia. }
  step H2 e w3. bools. assert (e = "T"%byte) as -> by (apply (bN_lit e 84); lia).
  exists [a; b], (10 * dv a + dv b), w3. split; [reflexivity|]. split; [|exact H2]. apply num2. exists a, b. auto.
Qed.
Lemma inv_hour w : ts_run 564 w = Some 578%N -> exists dd v w', w = dd ++ ":"%byte :: w' /\ num 2 dd 0 23 v /\ ts_run 567 w' = Some 578%N.
Proof.
  intros H. apply run_cons in H; [|discriminate]. destruct H as [a [w1 [m [-> [E H]]]]]. cbn [ts_next] in E.
  assert (exists b w2, w1 = b :: w2 /\ digit b /\ digit a /\ 0 <= 10 * dv a + dv b <= 23 /\ ts_run 566 w2 = Some 578%N) as [b [w2 [-> [Hb [Ha [Hr H2]]]]]].
  { destruct (bN a =? 50)%N eqn:C; [|destruct (btw 48 49 (bN a)) eqn:C2; [|discriminate]]; injection E as <-;
    step H b w2; bools; exists b, w2; unfold digit, dv; repeat split; auto; lia. }
  step H2 e w3. bools. assert (e = ":"%byte) as -> by (apply (bN_lit e 58); lia).
  exists [a; b], (10 * dv a + dv b), w3. split; [reflexivity|]. split; [|exact H2]. apply num2. exists a, b. auto.
Qed.
Lemma inv_min w : ts_run 567 w = Some 578%N -> exists dd v w', w = dd ++ ":"%byte :: w' /\ num 2 dd 0 59 v /\ ts_run 570 w' = Some 578%N.
Proof.
  intros H. step H a w1. step H b w2. step H e w3. bools. assert (e = ":"%byte) as -> by (apply (bN_lit e 58); lia).
  exists [a; b], (10 * dv a + dv b), w3. split; [reflexivity|]. split; [|exact H]. apply num2. exists a, b. unfold digit, dv. repeat split; auto; lia.
Qed.
Lemma inv_sec w : ts_run 570 w = Some 578%N -> exists dd v w', w = dd ++ w' /\ num 2 dd 0 59 v /\ ts_run 572 w' = Some 578%N.
Proof.
  intros H. step H a w1. step H b w2. bools.
  exists [a; b], (10 * dv a + dv b), w2. split; [reflexivity|]. split; [|exact H]. apply num2. exists a, b. unfold digit, dv. repeat split; auto; lia.
Qed.
(* zone: after the sign, state 573 *)
Lemma inv_573 w : ts_run 573 w = Some 578%N -> exists hh mm h m, w = hh ++ ":"%byte :: mm /\ num 2 hh 0 23 h /\ num 2 mm 0 59 m.
Proof.
  intros H. apply run_cons in H; [|discriminate]. destruct H as [a [w1 [m [-> [E H]]]]]. cbn [ts_next] in E.
  assert (exists b w2, w1 = b :: w2 /\ digit b /\ digit a /\ 0 <= 10 * dv a + dv b <= 23 /\ ts_run 575 w2 = Some 578%N) as [b [w2 [-> [Hb [Ha [Hr H2]]]]]].
  { destruct (bN a =? 50)%N eqn:C; [|destruct (btw 48 49 (bN a)) eqn:C2; [|discriminate]]; injection E as <-;
    step H b w2; bools; exists b, w2; unfold digit, dv; repeat split; auto; lia. }
  step H2 e w3. step H2 c w4. step H2 d w5. bools. assert (e = ":"%byte) as -> by (apply (bN_lit e 58); lia).
  destruct w5 as [|x w5]; [|cbn [ts_run] in H2; change (ts_next 578 (bN x)) with (@None N) in H2; discriminate].
  exists [a; b], [c; d], (10 * dv a + dv b), (10 * dv c + dv d). split; [reflexivity|]. split; apply num2.
  - exists a, b. auto.
  - exists c, d. unfold digit, dv. repeat split; auto; lia.
Qed.
(* the zone alternatives *)
Definition z4 (c : N) : option N := (if (c =? 43) || (c =? 45) then Some 573 else if c =? 90 then Some 578 else None)%N.
Lemma inv_zone b w m : z4 (bN b) = Some m -> ts_run m w = Some 578%N -> exists off, zone_text (b :: w) off.
Proof.
  unfold z4. destruct ((bN b =? 43) || (bN b =? 45))%N eqn:E.
  - intros H Hr. injection H as <-. apply inv_573 in Hr as [hh [mm [h [m' [-> [H1 H2]]]]]].
    apply orb_true_iff in E as [E|E]; apply N.eqb_eq in E.
    + assert (b = "+"%byte) as -> by (apply (bN_lit b 43); lia). eexists. apply (z_plus hh mm h m'); assumption.
    + assert (b = "-"%byte) as -> by (apply (bN_lit b 45); lia). eexists. apply (z_minus hh mm h m'); assumption.
  - destruct (bN b =? 90)%N eqn:E2; [|discriminate]. intros H Hr. injection H as <-. apply N.eqb_eq in E2.
    assert (b = "Z"%byte) as -> by (apply (bN_lit b 90); lia).
    destruct w as [|c w]; [|cbn [ts_run] in Hr; change (ts_next 578 (bN c)) with (@None N) in Hr; discriminate].
    exists 0. constructor.
Qed.

(* fraction states: 580 + k has read k digits *)
Lemma inv_frac_states (k : nat) n w : In (k, n) [(1%nat, 581%N); (2%nat, 582%N); (3%nat, 583%N); (4%nat, 584%N); (5%nat, 585%N); (6%nat, 586%N)] ->
  ts_run n w = Some 578%N -> exists ds zo off, w = ds ++ zo /\ (length ds + k <= 6)%nat /\ Forall digit ds /\ zone_text zo off.
Proof.
  assert (Hz : forall b w m, z4 (bN b) = Some m -> ts_run m w = Some 578%N -> forall k, (k <= 6)%nat ->
     exists ds zo off, b :: w = ds ++ zo /\ (length ds + k <= 6)%nat /\ Forall digit ds /\ zone_text zo off).
  { intros b w0 m H1 H2 k0 Hk. destruct (inv_zone b w0 m H1 H2) as [off Ho]. exists [], (b :: w0), off. repeat split; auto. }
  assert (Hd : forall b w k, (exists ds zo off, w = ds ++ zo /\ (length ds + S k <= 6)%nat /\ Forall digit ds /\ zone_text zo off) ->
     is_dig (bN b) = true -> exists ds zo off, b :: w = ds ++ zo /\ (length ds + k <= 6)%nat /\ Forall digit ds /\ zone_text zo off).
  { intros b w0 k0 [ds [zo [off [-> [H1 [H2 H3]]]]]] Hb. exists (b :: ds), zo, off. cbn [length]. repeat split; auto; [lia|].
    constructor; [apply dig_digit; exact Hb|exact H2]. }
  assert (H586 : forall w, ts_run 586 w = Some 578%N -> exists ds zo off, w = ds ++ zo /\ (length ds + 6 <= 6)%nat /\ Forall digit ds /\ zone_text zo off).
  { intros w0 H. apply run_cons in H; [|discriminate]. destruct H as [b [w1 [m [-> [E H]]]]]. cbn [ts_next] in E. exact (Hz b w1 m E H 6%nat ltac:(lia)). }
  assert (Hstep : forall n n' k, (k < 6)%nat -> (forall c, ts_next n c = if is_dig c then Some n' else z4 c) -> n <> 578%N ->
     (forall w, ts_run n' w = Some 578%N -> exists ds zo off, w = ds ++ zo /\ (length ds + S k <= 6)%nat /\ Forall digit ds /\ zone_text zo off) ->
     forall w, ts_run n w = Some 578%N -> exists ds zo off, w = ds ++ zo /\ (length ds + k <= 6)%nat /\ Forall digit ds /\ zone_text zo off).
  { intros n0 n' k0 Hk Hn Hne IH w0 H. apply run_cons in H; [|exact Hne]. destruct H as [b [w1 [m [-> [E H]]]]]. rewrite Hn in E.
    destruct (is_dig (bN b)) eqn:Eb; [injection E as <-; apply Hd; [apply IH; exact H|exact Eb]|]. apply (Hz b w1 m E H). lia. }
  pose proof (Hstep 585%N 586%N 5%nat ltac:(lia) ltac:(reflexivity) ltac:(discriminate) H586) as H585.
  pose proof (Hstep 584%N 585%N 4%nat ltac:(lia) ltac:(reflexivity) ltac:(discriminate) H585) as H584.
  pose proof (Hstep 583%N 584%N 3%nat ltac:(lia) ltac:(reflexivity) ltac:(discriminate) H584) as H583.
  pose proof (Hstep 582%N 583%N 2%nat ltac:(lia) ltac:(reflexivity) ltac:(discriminate) H583) as H582.
  pose proof (Hstep 581%N 582%N 1%nat ltac:(lia) ltac:(reflexivity) ltac:(discriminate) H582) as H581.
  intros Hin. repeat (destruct Hin as [Hin|Hin]; [injection Hin as <- <-; auto|]). destruct Hin.
Qed.
Lemma inv_572 w : ts_run 572 w = Some 578%N -> exists fr zo ns off, w = fr ++ zo /\ frac_text fr ns /\ zone_text zo off.
Proof.
  intros H. apply run_cons in H; [|discriminate]. destruct H as [b [w1 [m [-> [E H]]]]]. cbn [ts_next] in E.
  destruct (bN b =? 46)%N eqn:Eb.
  - injection E as <-. apply N.eqb_eq in Eb. assert (b = "."%byte) as -> by (apply (bN_lit b 46); lia).
    step H c w2. bools.
    destruct (inv_frac_states 1 581 w2) as [ds [zo [off [-> [H1 [H2 H3]]]]]]; [left; reflexivity|exact H|].
    exists ("."%byte :: c :: ds), zo. eexists _, off. split; [reflexivity|]. split; [|exact H3].
    constructor; [cbn; lia|]. constructor; [unfold digit; lia|exact H2].
  - destruct (inv_zone b w1 m E H) as [off Ho]. exists [], (b :: w1), 0, off. repeat split; auto. constructor.
Qed.

(* the shape of a timestamp text; the day may be too large for its month *)
Definition ts_shape (s : bytes) (t : time) : Prop :=
  exists yyyy mo dd hh mi ss fr zo,
    s = yyyy ++ lit "-" ++ mo ++ lit "-" ++ dd ++ lit "T" ++ hh ++ lit ":" ++ mi ++ lit ":" ++ ss ++ fr ++ zo
    /\ num 4 yyyy 0 9999 (t_year t) /\ num 2 mo 1 12 (t_month t)
    /\ num 2 dd 1 31 (t_day t)
    /\ num 2 hh 0 23 (t_hour t) /\ num 2 mi 0 59 (t_min t) /\ num 2 ss 0 59 (t_sec t)
    /\ frac_text fr (t_nsec t) /\ zone_text zo (t_off t).

Lemma run_shape a w : digit a -> ts_run 554 w = Some 578%N -> exists t, ts_shape (a :: w) t.
Proof.
  intros Ha H. apply inv_year in H as [b [c [d [w1 [-> [Hb [Hc [Hd H]]]]]]]].
  apply inv_month in H as [mo [vmo [w2 [-> [Hmo H]]]]]. apply inv_day in H as [dd [vdd [w3 [-> [Hdd H]]]]].
  apply inv_hour in H as [hh [vhh [w4 [-> [Hhh H]]]]]. apply inv_min in H as [mi [vmi [w5 [-> [Hmi H]]]]].
  apply inv_sec in H as [ss [vss [w6 [-> [Hss H]]]]]. apply inv_572 in H as [fr [zo [ns [off [-> [Hfr Hzo]]]]]].
  exists (Time (1000 * dv a + 100 * dv b + 10 * dv c + dv d) vmo vdd vhh vmi vss ns off).
  exists [a; b; c; d], mo, dd, hh, mi, ss, fr, zo. split; [reflexivity|]. cbn [t_year t_month t_day t_hour t_min t_sec t_nsec t_off].
  split; [|repeat (split; [assumption|]); assumption].
  apply num4. exists a, b, c, d. unfold digit, dv in *. repeat split; auto; lia.
Qed.

(* ---- the other direction ---- *)
Lemma dig_true a : digit a -> is_dig (bN a) = true.
Proof. intros H. apply btw_spec. exact H. Qed.
Lemma zone_run zo off : zone_text zo off -> exists b w m, zo = b :: w /\ z4 (bN b) = Some m /\ ts_run m w = Some 578%N /\ is_dig (bN b) = false /\ bN b <> 46%N.
Proof.
  assert (H573 : forall hh mm h m, num 2 hh 0 23 h -> num 2 mm 0 59 m -> ts_run 573 (hh ++ lit ":" ++ mm) = Some 578%N).
  { intros hh mm h m H1 H2. apply num2 in H1 as [a [b [-> [A1 [A2 [A3 A4]]]]]]. apply num2 in H2 as [c [d [-> [B1 [B2 [B3 B4]]]]]].
    unfold digit, dv in *. cbn [app lit list_byte_of_string ts_run ts_next].
    destruct (N.eqb_spec (bN a) 50).
    - cbn [ts_next]. rewrite btw_true by lia. cbn. rewrite (btw_true 48 53) by lia. cbn. rewrite btw_true by lia. reflexivity.
    - rewrite btw_true by lia. cbn [ts_next]. rewrite btw_true by lia. cbn. rewrite (btw_true 48 53) by lia. cbn. rewrite btw_true by lia. reflexivity. }
  intros [|hh mm h m H1 H2|hh mm h m H1 H2].
  - exists "Z"%byte, [], 578%N. repeat split; discriminate.
  - exists "+"%byte, (hh ++ lit ":" ++ mm), 573%N. split; [reflexivity|]. split; [reflexivity|]. split; [eapply H573; eauto|]. split; [reflexivity|discriminate].
  - exists "-"%byte, (hh ++ lit ":" ++ mm), 573%N. split; [reflexivity|]. split; [reflexivity|]. split; [eapply H573; eauto|]. split; [reflexivity|discriminate].
Qed.
Lemma digs_run ds : forall n k zo off, In (k, n) [(1%nat, 581%N); (2%nat, 582%N); (3%nat, 583%N); (4%nat, 584%N); (5%nat, 585%N); (6%nat, 586%N)] ->
  (length ds + k <= 6)%nat -> Forall digit ds -> zone_text zo off -> ts_run n (ds ++ zo) = Some 578%N.
Proof.
  induction ds as [|d ds IH]; intros n k zo off Hin Hk Hd Hz.
  - destruct (zone_run zo off Hz) as [b [w [m [-> [E [H [Hnd _]]]]]]]. cbn [app ts_run].
    assert (Hn : ts_next n (bN b) = z4 (bN b)).
    { repeat (destruct Hin as [Hin|Hin]; [injection Hin as <- <-; cbn [ts_next]; rewrite ?Hnd; reflexivity|]). destruct Hin. }
    rewrite Hn, E. exact H.
  - inversion Hd as [|? ? H1 H2]; subst. cbn [app ts_run length] in *. apply dig_true in H1.
    cbn [In] in Hin. destruct Hin as [Hin|[Hin|[Hin|[Hin|[Hin|[Hin|[]]]]]]]; injection Hin as <- <-; cbn [ts_next]; rewrite ?H1;
      [apply (IH 582%N 2%nat zo off)|apply (IH 583%N 3%nat zo off)|apply (IH 584%N 4%nat zo off)|apply (IH 585%N 5%nat zo off)|apply (IH 586%N 6%nat zo off)|lia];
      try assumption; try lia; cbn; tauto.
Qed.
Lemma frac_run fr ns zo off : frac_text fr ns -> zone_text zo off -> ts_run 572 (fr ++ zo) = Some 578%N.
Proof.
  intros [|ds Hl Hd] Hz.
  - destruct (zone_run zo off Hz) as [b [w [m [-> [E [H [Hnd H46]]]]]]]. cbn [app ts_run ts_next].
    apply N.eqb_neq in H46. rewrite H46. fold (z4 (bN b)). rewrite E. exact H.
  - destruct ds as [|d ds]; [cbn in Hl; lia|]. inversion Hd as [|? ? H1 H2]; subst. cbn [length] in Hl.
    cbn [app ts_run]. change (ts_next 572 (bN ".")) with (Some 580%N). cbn [ts_next]. rewrite btw_true by exact H1.
    apply (digs_run ds 581 1 zo off); [left; reflexivity|lia|exact H2|exact Hz].
Qed.

Lemma ts_step n b m r : ts_next n (bN b) = Some m -> ts_run n (b :: r) = ts_run m r.
Proof. intros H. cbn [ts_run]. rewrite H. reflexivity. Qed.

Lemma shape_run s t : ts_shape s t -> exists a w, s = a :: w /\ digit a /\ ts_run 554 w = Some 578%N /\ w <> [].
Proof.
  intros [yyyy [mo [dd [hh [mi [ss [fr [zo [-> [Hy [Hmo [Hdd [Hhh [Hmi [Hss [Hfr Hzo]]]]]]]]]]]]]]]].
  apply num4 in Hy as [a [b [c [d [-> [A1 [A2 [A3 [A4 _]]]]]]]]].
  apply num2 in Hmo as [mo1 [mo2 [-> [M1 [M2 [M3 M4]]]]]]. apply num2 in Hdd as [dd1 [dd2 [-> [D1 [D2 [D3 D4]]]]]].
  apply num2 in Hhh as [hh1 [hh2 [-> [H1 [H2 [H3 H4]]]]]]. apply num2 in Hmi as [mi1 [mi2 [-> [I1 [I2 [I3 I4]]]]]].
  apply num2 in Hss as [ss1 [ss2 [-> [S1 [S2 [S3 S4]]]]]].
  exists a. eexists. split; [reflexivity|]. split; [exact A1|]. split; [|discriminate].
  pose proof (frac_run fr _ zo _ Hfr Hzo) as Hrun.
  unfold digit, dv in *. change (lit "-") with ["-"%byte]. change (lit "T") with ["T"%byte]. change (lit ":") with [":"%byte]. cbn [app].
  assert (Emo : forall r, ts_run 558 (mo1 :: mo2 :: r) = ts_run 560 r).
  { intros r. cbn [ts_run]. cbn [ts_next]. destruct (N.eqb_spec (bN mo1) 48); [|destruct (N.eqb_spec (bN mo1) 49); [|lia]]; cbn [ts_next]; rewrite btw_true by lia; reflexivity. }
  assert (Edd : forall r, ts_run 561 (dd1 :: dd2 :: r) = ts_run 563 r).
  { intros r. cbn [ts_run]. cbn [ts_next]. destruct (N.eqb_spec (bN dd1) 48); [|destruct (N.eqb_spec (bN dd1) 51); [|rewrite btw_true by lia]]; cbn [ts_next]; rewrite btw_true by lia; reflexivity. }
  assert (Ehh : forall r, ts_run 564 (hh1 :: hh2 :: r) = ts_run 566 r).
  { intros r. cbn [ts_run]. cbn [ts_next]. destruct (N.eqb_spec (bN hh1) 50); [|rewrite btw_true by lia]; cbn [ts_next]; rewrite btw_true by lia; reflexivity. }
  rewrite (ts_step 554 b 555), (ts_step 555 c 556), (ts_step 556 d 557) by (cbn [ts_next]; rewrite btw_true by lia; reflexivity).
  rewrite (ts_step 557 "-"%byte 558) by reflexivity. rewrite Emo.
  rewrite (ts_step 560 "-"%byte 561) by reflexivity. rewrite Edd.
  rewrite (ts_step 563 "T"%byte 564) by reflexivity. rewrite Ehh.
  rewrite (ts_step 566 ":"%byte 567) by reflexivity.
  rewrite (ts_step 567 mi1 568), (ts_step 568 mi2 569) by (cbn [ts_next]; rewrite btw_true by lia; reflexivity).
  rewrite (ts_step 569 ":"%byte 570) by reflexivity.
  rewrite (ts_step 570 ss1 571), (ts_step 571 ss2 572) by (cbn [ts_next]; rewrite btw_true by lia; reflexivity).
  exact Hrun.
Qed.

(* ---- time.Parse on a text of that shape ---- *)
Lemma is_digit_true a : digit a -> is_digit a = true.
Proof. unfold digit, is_digit, zb. rewrite andb_true_iff, !Z.leb_le. lia. Qed.
Lemma is_digit_dig b : is_digit b = is_dig (bN b).
Proof. unfold is_digit, zb, is_dig, btw. f_equal; [destruct (Z.leb_spec 48 (Z.of_N (bN b))); destruct (N.leb_spec 48 (bN b)); lia|destruct (Z.leb_spec (Z.of_N (bN b)) 57); destruct (N.leb_spec (bN b) 57); lia]. Qed.

Lemma span_digits_app ds b r : Forall digit ds -> is_digit b = false -> span_digits (ds ++ b :: r) = (ds, b :: r).
Proof.
  intros H Hb. induction H as [|d ds Hd H IH]; cbn [app span_digits]; [rewrite Hb; reflexivity|].
  rewrite (is_digit_true d Hd), IH. reflexivity.
Qed.

Lemma frac_ns_dec ds : forall k acc, (length ds <= k)%nat -> frac_ns ds (10 ^ (Z.of_nat k - 1)) + acc * 10 ^ Z.of_nat k = dec_acc acc ds * 10 ^ (Z.of_nat k - Z.of_nat (length ds)).
Proof.
  induction ds as [|d ds IH]; intros k acc Hk.
  - cbn [frac_ns dec_acc length]. rewrite Z.sub_0_r. lia.
  - destruct k as [|k]; [cbn in Hk; lia|]. cbn [frac_ns dec_acc length] in *.
    change (GoTime.dig d) with (CommonFacts.dig d).
    replace (Z.of_nat (S k) - 1) with (Z.of_nat k) by lia.
    replace (Z.of_nat (S k) - Z.of_nat (S (length ds))) with (Z.of_nat k - Z.of_nat (length ds)) by lia.
    rewrite <- (IH k (10 * acc + CommonFacts.dig d)) by lia.
    rewrite (Nat2Z.inj_succ k), Z.pow_succ_r by lia.
    destruct k as [|k'].
    + destruct ds; [|cbn in Hk; lia]. cbn [frac_ns]. change (Z.of_nat 0) with 0. rewrite Z.pow_0_r. lia.
    + replace (10 ^ Z.of_nat (S k') / 10) with (10 ^ (Z.of_nat (S k') - 1)).
      * lia.
      * replace (Z.of_nat (S k')) with (Z.succ (Z.of_nat k')) by lia. rewrite Z.pow_succ_r by lia.
        rewrite (Z.mul_comm 10), Z.div_mul by lia. f_equal. lia.
Qed.

Lemma zone_parse zo off : zone_text zo off -> parse_zone zo = Some off /\ exists b w, zo = b :: w /\ is_digit b = false /\ beqb b "." = false.
Proof.
  intros [|hh mm h m H1 H2|hh mm h m H1 H2].
  - split; [reflexivity|]. exists "Z"%byte, []. repeat split; reflexivity.
  - apply num2 in H1 as [a [b [-> [A1 [A2 [A3 A4]]]]]]. apply num2 in H2 as [c [d [-> [B1 [B2 [B3 B4]]]]]]. split.
    + change (lit "+") with ["+"%byte]; change (lit "-") with ["-"%byte]; change (lit ":") with [":"%byte]. cbn [app parse_zone forallb]. rewrite !is_digit_true by assumption. cbn. subst h m. unfold GoTime.dig, zb, dv. reflexivity.
    + exists "+"%byte. eexists. split; [reflexivity|]. split; reflexivity.
  - apply num2 in H1 as [a [b [-> [A1 [A2 [A3 A4]]]]]]. apply num2 in H2 as [c [d [-> [B1 [B2 [B3 B4]]]]]]. split.
    + change (lit "+") with ["+"%byte]; change (lit "-") with ["-"%byte]; change (lit ":") with [":"%byte]. cbn [app parse_zone forallb]. rewrite !is_digit_true by assumption. cbn. subst h m. unfold GoTime.dig, zb, dv. reflexivity.
    + exists "-"%byte. eexists. split; [reflexivity|]. split; reflexivity.
Qed.

Lemma frac_parse fr ns zo off : frac_text fr ns -> zone_text zo off -> parse_frac (fr ++ zo) = (ns, zo).
Proof.
  intros Hf Hz. destruct (zone_parse zo off Hz) as [_ [b [w [-> [Hnd Hdot]]]]]. destruct Hf as [|ds Hl Hd].
  - cbn [app parse_frac]. rewrite Hdot. reflexivity.
  - cbn [app parse_frac]. change (beqb "." ".") with true. cbn iota. rewrite span_digits_app by assumption.
    destruct ds as [|d ds]; [cbn in Hl; lia|]. f_equal.
    pose proof (frac_ns_dec (d :: ds) 9 0 ltac:(lia)) as E.
    change (Z.of_nat 9) with 9 in E. change (10 ^ (9 - 1)) with 100000000 in E. fold (dec (d :: ds)) in E. lia.
Qed.

Lemma rfc3339_parse_shape s t : ts_shape s t ->
  parse_rfc3339 s = if t_day t <=? days_in (t_month t) (t_year t) then Some t else None.
Proof.
  intros [yyyy [mo [dd [hh [mi [ss [fr [zo [-> [Hy [Hmo [Hdd [Hhh [Hmi [Hss [Hfr Hzo]]]]]]]]]]]]]]]].
  pose proof (frac_parse fr _ zo _ Hfr Hzo) as Efr. pose proof (zone_parse zo _ Hzo) as [Ezo _].
  apply num4 in Hy as [a [b [c [d [-> [A1 [A2 [A3 [A4 [A5 _]]]]]]]]]].
  apply num2 in Hmo as [mo1 [mo2 [-> [M1 [M2 [M3 M4]]]]]]. apply num2 in Hdd as [dd1 [dd2 [-> [D1 [D2 [D3 D4]]]]]].
  apply num2 in Hhh as [hh1 [hh2 [-> [H1 [H2 [H3 H4]]]]]]. apply num2 in Hmi as [mi1 [mi2 [-> [I1 [I2 [I3 I4]]]]]].
  apply num2 in Hss as [ss1 [ss2 [-> [S1 [S2 [S3 S4]]]]]].
  change (lit "-") with ["-"%byte]. change (lit "T") with ["T"%byte]. change (lit ":") with [":"%byte]. cbn [app parse_rfc3339 forallb].
  rewrite !is_digit_true by assumption.
  change (beqb "-" "-") with true. change (beqb "T" "T") with true. change (beqb ":" ":") with true. cbn [andb].
  rewrite Efr, Ezo.
  change (GoTime.dig a) with (dv a). change (GoTime.dig b) with (dv b). change (GoTime.dig c) with (dv c). change (GoTime.dig d) with (dv d).
  change (GoTime.dig mo1) with (dv mo1). change (GoTime.dig mo2) with (dv mo2). change (GoTime.dig dd1) with (dv dd1). change (GoTime.dig dd2) with (dv dd2).
  change (GoTime.dig hh1) with (dv hh1). change (GoTime.dig hh2) with (dv hh2). change (GoTime.dig mi1) with (dv mi1). change (GoTime.dig mi2) with (dv mi2).
  change (GoTime.dig ss1) with (dv ss1). change (GoTime.dig ss2) with (dv ss2).
  rewrite <- A5, <- M3, <- D3, <- H3, <- I3, <- S3.
  replace (1 <=? t_month t) with true by (symmetry; apply Z.leb_le; lia). replace (t_month t <=? 12) with true by (symmetry; apply Z.leb_le; lia).
  replace (1 <=? t_day t) with true by (symmetry; apply Z.leb_le; lia).
  replace (t_hour t <? 24) with true by (symmetry; apply Z.ltb_lt; lia). replace (t_min t <? 60) with true by (symmetry; apply Z.ltb_lt; lia).
  replace (t_sec t <? 60) with true by (symmetry; apply Z.ltb_lt; lia). cbn [andb]. rewrite !andb_true_r.
  destruct (t_day t <=? days_in (t_month t) (t_year t)); [|reflexivity]. destruct t; reflexivity.
Qed.

Lemma days_in_31 m y : days_in m y <= 31.
Proof. unfold days_in. destruct (m =? 2); [destruct (is_leap y); lia|]. destruct ((m =? 4) || (m =? 6) || (m =? 9) || (m =? 11)); lia. Qed.

Lemma leap_year_eq y : leap_year y = is_leap y.
Proof.
  unfold leap_year, is_leap. destruct (Z.eqb_spec (y mod 400) 0) as [H|H].
  - assert (y mod 4 = 0) by (apply Z.mod_divide; [lia|]; apply Z.mod_divide in H; [|lia]; destruct H as [k ->]; exists (100 * k); lia).
    rewrite (proj2 (Z.eqb_eq _ _)) by assumption. rewrite orb_true_r. reflexivity.
  - rewrite orb_false_r. destruct (Z.eqb_spec (y mod 100) 0); [rewrite andb_false_r; reflexivity|rewrite andb_true_r; reflexivity].
Qed.
Lemma month_length_eq m y : month_length m y = days_in m y.
Proof.
  unfold month_length, days_in. rewrite leap_year_eq.
  assert (H : m - 1 <= 0 \/ 11 < m - 1 \/ In (m - 1) [1; 2; 3; 4; 5; 6; 7; 8; 9; 10; 11]) by (cbn; lia).
  destruct H as [H|[H|H]].
  - replace (Z.to_nat (m - 1)) with 0%nat by lia. cbn [nth].
    rewrite !(proj2 (Z.eqb_neq m _)) by lia. reflexivity.
  - rewrite nth_overflow by (cbn [length]; lia). rewrite !(proj2 (Z.eqb_neq m _)) by lia. reflexivity.
  - cbn [In] in H. repeat (destruct H as [H|H]; [replace m with (1 + (m - 1)) by lia; rewrite <- H; reflexivity|]). destruct H.
Qed.

Lemma text_shape s t : ts_text s t <-> ts_shape s t /\ t_day t <= days_in (t_month t) (t_year t).
Proof.
  pose proof (days_in_31 (t_month t) (t_year t)). unfold ts_text. rewrite month_length_eq. split.
  - intros [yyyy [mo [dd [hh [mi [ss [fr [zo [E [Hy [Hmo [Hdd Hr]]]]]]]]]]]]. destruct Hdd as [H1 [H2 [H3 H4]]]. split; [|lia].
    exists yyyy, mo, dd, hh, mi, ss, fr, zo. repeat split; try apply Hr; try apply Hy; try apply Hmo; auto; lia.
  - intros [[yyyy [mo [dd [hh [mi [ss [fr [zo [E [Hy [Hmo [Hdd Hr]]]]]]]]]]]] Hle]. destruct Hdd as [H1 [H2 [H3 H4]]].
    exists yyyy, mo, dd, hh, mi, ss, fr, zo. repeat split; try apply Hr; try apply Hy; try apply Hmo; auto; lia.
Qed.

(* the timestamp scanner followed by time.Parse accepts exactly the timestamps *)
Theorem ts_accept a l r t : (exists w, is_dig (bN a) = true /\ ts_scan 554 l = (w, TSDone r) /\ parse_rfc3339 (a :: w) = Some t)
   <-> exists s, a :: l = s ++ r /\ ts_text s t.
Proof.
  split.
  - intros [w [Ha [Hs Hp]]]. apply ts_scan_run in Hs as [-> [_ Hr]]. destruct (run_shape a w (dig_digit a Ha) Hr) as [t' Ht'].
    pose proof (rfc3339_parse_shape _ _ Ht') as E. rewrite Hp in E. destruct (Z.leb_spec (t_day t') (days_in (t_month t') (t_year t'))); [|discriminate].
    injection E as <-. exists (a :: w). split; [reflexivity|]. apply text_shape. auto.
  - intros [s [E Hs]]. apply text_shape in Hs as [Hs Hle]. destruct (shape_run s t Hs) as [a' [w [-> [Ha [Hr Hw]]]]]. cbn [app] in E. injection E as -> ->.
    exists w. split; [apply dig_true; exact Ha|]. split; [apply ts_scan_run; auto|].
    rewrite (rfc3339_parse_shape _ _ Hs). apply Z.leb_le in Hle. rewrite Hle. reflexivity.
Qed.
