(* The rfc3164 specification function accepts exactly the declarative grammar, with the same fields. *)
From Verif Require A5424 Spec5424 Ref5424a Ref5424c Grammar5424 Utf8 Ts5424 Gram5424 Props5424.
From Verif Require Import Bytes GoTime Cal Common CommonFacts GotoLang M3164Def A3164 M3164 Spec3164 Ref3164 Grammar3164.
Local Open Scope Z_scope.
Import Utf8.

(* ---- scanning ---- *)
Section Scan.
Variable next : N -> N -> option N.
Variable fin : N.
Variable Hfin : forall c, next fin c = None.
Fixpoint srun (n : N) (w : bytes) : option N :=
  match w with [] => Some n | b :: r => match next n (bN b) with Some m => srun m r | None => None end end.
Lemma scan_run l : forall n w r, scan next fin n l = SDone w r <-> l = w ++ r /\ w <> [] /\ srun n w = Some fin.
Proof.
  induction l as [|b l IH]; intros n w r; cbn [scan].
  - split; [discriminate|]. intros [H [Hn _]]. destruct w; [congruence|discriminate].
  - destruct (next n (bN b)) as [m|] eqn:E.
    + destruct (m =? fin)%N eqn:Em.
      * apply N.eqb_eq in Em. subst m. split.
        -- intros H. injection H as <- <-. split; [reflexivity|]. split; [discriminate|]. cbn. rewrite E. reflexivity.
        -- intros [H [Hn Hr]]. destruct w as [|c w]; [congruence|]. cbn [app] in H. injection H as <- ->. cbn [srun] in Hr. rewrite E in Hr.
           destruct w as [|d w]; [reflexivity|]. cbn [srun] in Hr. rewrite Hfin in Hr. discriminate.
      * split.
        -- destruct (scan next fin m l) as [w0 r0|] eqn:Es; cbn [scons]; [|discriminate]. intros H. injection H as <- <-.
           destruct (IH m w0 r0) as [IH1 _]. destruct (IH1 Es) as [H1 [H2 H3]].
           split; [cbn [app]; f_equal; exact H1|]. split; [discriminate|]. cbn [srun]. rewrite E. exact H3.
        -- intros [H [Hn Hr]]. destruct w as [|c w]; [congruence|]. cbn [app] in H. injection H as <- ->. cbn [srun] in Hr. rewrite E in Hr.
           assert (Hw : w <> []). { intros ->. cbn in Hr. injection Hr as ->. rewrite N.eqb_refl in Em. discriminate. }
           destruct (IH m w r) as [_ IH2]. rewrite IH2; auto.
    + split; [discriminate|]. intros [H [Hn Hr]]. destruct w as [|c w]; [congruence|]. cbn [app] in H. injection H as <- ->. cbn [srun] in Hr. rewrite E in Hr. discriminate.
Qed.
Lemma srun_cons n w : srun n w = Some fin -> n <> fin -> exists b r m, w = b :: r /\ next n (bN b) = Some m /\ srun m r = Some fin.
Proof.
  intros H Hn. destruct w as [|b r]; [cbn in H; congruence|]. cbn [srun] in H.
  destruct (next n (bN b)) as [m|] eqn:E; [|discriminate]. eauto 6.
Qed.
Lemma srun_step n b m r : next n (bN b) = Some m -> srun n (b :: r) = srun m r.
Proof. intros H. cbn [srun]. rewrite H. reflexivity. Qed.
End Scan.

(* ---- RFC3339: the automaton is the one of rfc5424 without the fraction ---- *)
Definition ren (n : N) : N := if (n <=? 325)%N then (n + 254)%N else (n + 261)%N.
Definition r3_states : list N := A5424.range 300 30.
Definition ren_check : bool :=
  forallb (fun n => forallb (fun b => match A5424.ts_next (ren n) (bN b), r3_next n (bN b) with
      | Some m', Some m => (m' =? ren m)%N && existsb (N.eqb m) r3_states && negb (bN b =? 46)%N
      | None, None => true
      | Some _, None => (bN b =? 46)%N
      | None, Some _ => false end) all_bytes) r3_states.
Lemma ren_check_ok : ren_check = true. Proof. vm_compute. reflexivity. Qed.
Lemma ren_step n b : In n r3_states ->
  (bN b = 46%N -> r3_next n (bN b) = None) /\
  (bN b <> 46%N -> match r3_next n (bN b) with Some m => A5424.ts_next (ren n) (bN b) = Some (ren m) /\ In m r3_states | None => A5424.ts_next (ren n) (bN b) = None end).
Proof.
  intros Hn. pose proof ren_check_ok as H. unfold ren_check in H. eapply forallb_forall in H; [|exact Hn].
  pose proof (forall_bytes _ H b) as Hb. cbn beta in Hb.
  destruct (A5424.ts_next (ren n) (bN b)) as [m'|] eqn:E1; destruct (r3_next n (bN b)) as [m|] eqn:E2; try discriminate.
  - apply andb_true_iff in Hb as [Hb H3]. apply andb_true_iff in Hb as [H1 H2]. apply N.eqb_eq in H1. subst m'.
    apply existsb_exists in H2 as [x [H2 Hx]]. apply N.eqb_eq in Hx. subst x. apply negb_true_iff, N.eqb_neq in H3.
    split; [intros; congruence|]. intros _. auto.
  - apply N.eqb_eq in Hb. split; [reflexivity|intros; congruence].
  - split; reflexivity.
Qed.
Lemma ren_inj n : In n r3_states -> ren n = 578%N -> n = 324%N.
Proof. intros H. unfold r3_states in H. apply A5424.in_range in H || idtac. unfold ren. destruct (N.leb_spec n 325); lia. Qed.
Lemma r3_ts w : forall n, In n r3_states -> (srun r3_next n w = Some 324%N <-> Ts5424.ts_run (ren n) w = Some 578%N /\ ~ In "."%byte w).
Proof.
  induction w as [|b w IH]; intros n Hn; cbn [srun Ts5424.ts_run].
  - split; [intros H; injection H as ->; split; [reflexivity|intros []]|]. intros [H _]. injection H as H. f_equal. apply ren_inj; assumption.
  - destruct (ren_step n b Hn) as [H1 H2]. destruct (N.eq_dec (bN b) 46) as [E|E].
    + rewrite (H1 E). split; [discriminate|]. intros [_ H]. exfalso. apply H. left. apply bN_inj. exact E.
    + specialize (H2 E). destruct (r3_next n (bN b)) as [m|].
      * destruct H2 as [-> Hm]. rewrite (IH m Hm). split; intros [A B]; split; auto; [intros [H|H]; [apply E; rewrite H; reflexivity|apply B, H]|intros H; apply B; right; exact H].
      * rewrite H2. split; [discriminate|]. intros [A _]. discriminate.
Qed.
Theorem r3_accept a l r t : (exists w, is_dig (bN a) = true /\ scan r3_next 324 300 l = SDone w r /\ parse_rfc3339 (a :: w) = Some t)
   <-> exists s, a :: l = s ++ r /\ rfc3339_text s t.
Proof.
  assert (Hf : forall c, r3_next 324 c = None) by reflexivity.
  assert (H300 : In 300%N r3_states) by (left; reflexivity).
  split.
  - intros [w [Ha [Hs Hp]]]. apply (scan_run r3_next 324 Hf) in Hs as [-> [Hw Hr]]. apply (r3_ts w 300 H300) in Hr as [Hr Hd]. change (ren 300) with 554%N in Hr.
    destruct (proj1 (Ts5424.ts_accept a (w ++ r) r t)) as [s [Es Ht]].
    { exists w. split; [exact Ha|]. split; [|exact Hp]. apply Ts5424.ts_scan_run. auto. }
    assert (s = a :: w) by (apply app_inv_tail with (l := r); symmetry; exact Es). subst s.
    exists (a :: w). split; [reflexivity|]. split; [exact Ht|]. intros [E|E]; [subst a; discriminate Ha|exact (Hd E)].
  - intros [s [Es [Ht Hd]]]. destruct (proj2 (Ts5424.ts_accept a l r t)) as [w [Ha [Hs Hp]]]; [eauto|].
    apply Ts5424.ts_scan_run in Hs as [-> [Hw Hr]]. assert (s = a :: w) by (apply app_inv_tail with (l := r); symmetry; exact Es). subst s.
    exists w. split; [exact Ha|]. split; [|exact Hp]. apply (scan_run r3_next 324 Hf). split; [reflexivity|]. split; [exact Hw|].
    apply (r3_ts w 300 H300). split; [exact Hr|]. intros E. apply Hd. right. exact E.
Qed.

(* ---- Stamp ---- *)
Notation strun := (srun st_next).
Ltac brk E := match type of E with
  | (if ?c then _ else _) = _ => let C := fresh "C" in destruct c eqn:C; [injection E as <-|brk E]
  | None = Some _ => discriminate E
  | Some _ = Some _ => injection E as <-
  end.
Ltac step H b w :=
  let m := fresh "m" in let E := fresh "E" in let H' := fresh "H" in
  apply (srun_cons st_next 19) in H; [|discriminate]; destruct H as [b [w [m [-> [E H']]]]]; cbn [st_next] in E; brk E; rename H' into H.
Ltac lits := repeat match goal with
  | H : (bN ?b =? ?n)%N = true |- _ => apply N.eqb_eq in H; apply (Ts5424.bN_lit b) in H; [|lia]; subst b
  | H : (bN ?b =? ?n)%N = false |- _ => clear H
  end.
Ltac bools := repeat match goal with
  | H : A5424.btw _ _ _ = true |- _ => apply btw_spec in H
  | H : A5424.is_dig _ = true |- _ => apply btw_spec in H
  | H : A5424.btw _ _ _ = false |- _ => clear H
  | H : (_ =? _)%N = true |- _ => apply N.eqb_eq in H
  | H : (_ =? _)%N = false |- _ => apply N.eqb_neq in H
  end.
Lemma inv_mon w : strun 4 w = Some 19%N -> exists mon v w', w = mon ++ w' /\ In (mon, v) month_names /\ strun 7 w' = Some 19%N.
Proof.
  intros H. step H a w1; step H b w2; step H c w3; lits;
    (match type of H with strun _ ?w = _ => match goal with |- exists mon v w', ?x :: ?y :: ?z :: w = _ /\ _ /\ _ =>
       exists [x; y; z]; eexists; exists w; split; [reflexivity|]; split; [|exact H]; cbn; tauto end end).
Qed.
Notation dv := Spec5424.dv.
Lemma num1 ds lo hi v : num 1 ds lo hi v <-> exists a, ds = [a] /\ digit a /\ v = dv a /\ lo <= v <= hi.
Proof.
  split.
  - intros [H1 [H2 [H3 H4]]]. destruct ds as [|a [|b ds]]; try discriminate. exists a. pose proof (Forall_inv H2).
    split; [reflexivity|]. split; [assumption|]. split; [|exact H4]. rewrite <- H3. unfold dec. cbn [dec_acc]. change CommonFacts.dig with dv. lia.
  - intros [a [-> [H1 [H3 H4]]]]. split; [reflexivity|]. split; [repeat (apply Forall_cons; [assumption|]); apply Forall_nil|]. split; [|exact H4].
    rewrite H3. unfold dec. cbn [dec_acc]. change CommonFacts.dig with dv. lia.
Qed.
Lemma inv_sday w : strun 7 w = Some 19%N -> exists dd v w', w = " "%byte :: dd ++ " "%byte :: w' /\ day_text dd 31 v /\ strun 11 w' = Some 19%N.
Proof.
  intros H. step H s w1. bools. assert (s = " "%byte) as -> by (apply (Ts5424.bN_lit s 32); lia).
  assert (exists dd v w2, w1 = dd ++ w2 /\ day_text dd 31 v /\ strun 10 w2 = Some 19%N) as [dd [v [w2 [-> [Hd H2]]]]].
  { step H a w2; step H b w3; bools; exists [a; b]; eexists; exists w3; (split; [reflexivity|]; split; [|exact H]).
    - right. exists [b]. split; [|apply num1; exists b; unfold digit, Spec5424.dv; repeat split; eauto; lia].
      assert (a = " "%byte) as -> by (apply (Ts5424.bN_lit a 32); lia). reflexivity.
    - left. apply Ts5424.num2. exists a, b. unfold digit, Spec5424.dv. repeat split; eauto; lia.
    - left. apply Ts5424.num2. exists a, b. unfold digit, Spec5424.dv. repeat split; eauto; lia. }
  step H2 e w3. bools. assert (e = " "%byte) as -> by (apply (Ts5424.bN_lit e 32); lia).
  exists dd, v, w3. auto.
Qed.
Lemma inv_shour w : strun 11 w = Some 19%N -> exists dd v w', w = dd ++ ":"%byte :: w' /\ num 2 dd 0 23 v /\ strun 14 w' = Some 19%N.
Proof.
  intros H. step H a w1; step H b w2; step H e w3; bools; (assert (e = ":"%byte) as -> by (apply (Ts5424.bN_lit e 58); lia));
    exists [a; b]; eexists; exists w3; (split; [reflexivity|]; split; [|exact H]); apply Ts5424.num2; exists a, b; unfold digit, Spec5424.dv; repeat split; eauto; lia.
Qed.
Lemma inv_smin w : strun 14 w = Some 19%N -> exists dd v w', w = dd ++ ":"%byte :: w' /\ num 2 dd 0 59 v /\ strun 17 w' = Some 19%N.
Proof.
  intros H. step H a w1; step H b w2; step H e w3; bools; (assert (e = ":"%byte) as -> by (apply (Ts5424.bN_lit e 58); lia));
    exists [a; b]; eexists; exists w3; (split; [reflexivity|]; split; [|exact H]); apply Ts5424.num2; exists a, b; unfold digit, Spec5424.dv; repeat split; eauto; lia.
Qed.
Lemma inv_ssec w : strun 17 w = Some 19%N -> exists v, num 2 w 0 59 v.
Proof.
  intros H. step H a w1; step H b w2; bools. destruct w2 as [|c w2]; [|discriminate H].
  eexists; apply Ts5424.num2; exists a, b; unfold digit, Spec5424.dv; repeat split; eauto; lia.
Qed.
(* the shape; the day may be too large for its month *)
Definition stamp_shape (s : bytes) (p : stamp) : Prop :=
  exists mon dd hh mi ss,
    s = mon ++ lit " " ++ dd ++ lit " " ++ hh ++ lit ":" ++ mi ++ lit ":" ++ ss
    /\ In (mon, sp_month p) month_names /\ day_text dd 31 (sp_day p)
    /\ num 2 hh 0 23 (sp_hour p) /\ num 2 mi 0 59 (sp_min p) /\ num 2 ss 0 59 (sp_sec p).
Lemma run_stamp w : strun 4 w = Some 19%N -> exists p, stamp_shape w p.
Proof.
  intros H. apply inv_mon in H as [mon [vm [w1 [-> [Hm H]]]]]. apply inv_sday in H as [dd [vd [w2 [-> [Hd H]]]]].
  apply inv_shour in H as [hh [vh [w3 [-> [Hh H]]]]]. apply inv_smin in H as [mi [vi [w4 [-> [Hi H]]]]]. apply inv_ssec in H as [vs Hs].
  exists (Stamp vm vd vh vi vs), mon, dd, hh, mi, w4. split; [reflexivity|]. auto.
Qed.
Lemma mon_cases mon v : In (mon, v) month_names -> exists a b c, mon = [a; b; c] /\ month_of mon = Some v /\ 1 <= v <= 12 /\ forall r, strun 4 (mon ++ r) = strun 7 r.
Proof.
  cbn [In month_names]. intros H. repeat (destruct H as [H|H]; [injection H as <- <-; eexists _, _, _; split; [reflexivity|]; split; [reflexivity|]; split; [lia|reflexivity]|]). destruct H.
Qed.
Lemma day_cases dd v hi : day_text dd hi v -> exists a b, dd = [a; b] /\ digit b /\ 1 <= v /\ ((a = " "%byte /\ v = dv b) \/ (digit a /\ 10 <= v <= hi /\ v = 10 * dv a + dv b)).
Proof.
  intros [H|[d [-> H]]].
  - apply Ts5424.num2 in H as [a [b [-> [H1 [H2 [H3 H4]]]]]]. exists a, b. split; [reflexivity|]. split; [exact H2|]. split; [lia|right; split; [exact H1|split; [exact H4|exact H3]]].
  - apply num1 in H as [b [-> [H1 [H2 H3]]]]. exists " "%byte, b. split; [reflexivity|]. split; [exact H1|]. split; [lia|left; auto].
Qed.
Lemma shape_srun s p : stamp_shape s p -> s <> [] /\ strun 4 s = Some 19%N.
Proof.
  intros [mon [dd [hh [mi [ss [-> [Hm [Hd [Hh [Hi Hs]]]]]]]]]]. destruct (mon_cases _ _ Hm) as [m1 [m2 [m3 [-> [_ [_ Em]]]]]].
  split; [discriminate|]. rewrite Em. apply day_cases in Hd as [d1 [d2 [-> [Hd2 [Hge Hd]]]]].
  apply Ts5424.num2 in Hh as [hh1 [hh2 [-> [H1 [H2 [H3 H4]]]]]]. apply Ts5424.num2 in Hi as [mi1 [mi2 [-> [I1 [I2 [I3 I4]]]]]].
  apply Ts5424.num2 in Hs as [ss1 [ss2 [-> [S1 [S2 [S3 S4]]]]]].
  change (lit " ") with [" "%byte]. change (lit ":") with [":"%byte]. cbn [app].
  rewrite (srun_step st_next 7 " "%byte 8) by reflexivity. unfold digit, Spec5424.dv in *.
  assert (Ed : forall r, strun 8 (d1 :: d2 :: r) = strun 10 r).
  { intros r. destruct Hd as [[-> Ev]|[Hd1 [Hr Ev]]].
    - rewrite (srun_step st_next 8 " "%byte 9) by reflexivity. apply srun_step. cbn [st_next]. rewrite btw_true by lia. reflexivity.
    - cbn [srun]. cbn [st_next]. replace (bN d1 =? 32)%N with false by (symmetry; apply N.eqb_neq; lia).
      destruct (N.eqb_spec (bN d1) 51); [|rewrite btw_true by lia]; cbn [st_next]; rewrite btw_true by lia; reflexivity. }
  rewrite Ed, (srun_step st_next 10 " "%byte 11) by reflexivity.
  assert (Eh : forall r, strun 11 (hh1 :: hh2 :: r) = strun 13 r).
  { intros r. cbn [srun]. cbn [st_next]. destruct (N.eqb_spec (bN hh1) 50); [|rewrite btw_true by lia]; cbn [st_next]; rewrite btw_true by lia; reflexivity. }
  rewrite Eh, (srun_step st_next 13 ":"%byte 14) by reflexivity.
  rewrite (srun_step st_next 14 mi1 15), (srun_step st_next 15 mi2 16) by (cbn [st_next]; rewrite btw_true by lia; reflexivity).
  rewrite (srun_step st_next 16 ":"%byte 17) by reflexivity.
  rewrite (srun_step st_next 17 ss1 18), (srun_step st_next 18 ss2 19) by (cbn [st_next]; rewrite btw_true by lia; reflexivity).
  reflexivity.
Qed.
Lemma shape_parse s p : stamp_shape s p -> parse_stamp s = if sp_day p <=? days_in (sp_month p) 0 then Some p else None.
Proof.
  intros [mon [dd [hh [mi [ss [-> [Hm [Hd [Hh [Hi Hs]]]]]]]]]]. destruct (mon_cases _ _ Hm) as [m1 [m2 [m3 [-> [Em _]]]]].
  apply day_cases in Hd as [d1 [d2 [-> [Hd2 [Hge Hd]]]]].
  apply Ts5424.num2 in Hh as [hh1 [hh2 [-> [H1 [H2 [H3 H4]]]]]]. apply Ts5424.num2 in Hi as [mi1 [mi2 [-> [I1 [I2 [I3 I4]]]]]].
  apply Ts5424.num2 in Hs as [ss1 [ss2 [-> [S1 [S2 [S3 S4]]]]]].
  change (lit " ") with [" "%byte]. change (lit ":") with [":"%byte]. cbn [app parse_stamp]. rewrite Em. cbn [forallb].
  rewrite !Ts5424.is_digit_true by assumption. change (beqb " " " ") with true. change (beqb ":" ":") with true. cbn [andb].
  assert (Ed1 : is_digit d1 || beqb d1 " " = true) by (destruct Hd as [[-> _]|[Hd _]]; [reflexivity|rewrite (Ts5424.is_digit_true d1 Hd); reflexivity]).
  rewrite Ed1. cbn [andb].
  assert (Ev : (if beqb d1 " " then 0 else 10 * GoTime.dig d1) + GoTime.dig d2 = sp_day p).
  { destruct Hd as [[-> ->]|[Hd [_ ->]]]; [reflexivity|]. replace (beqb d1 " ") with false; [reflexivity|]. symmetry. apply beqb_neq. intros ->. unfold digit in Hd. cbn in Hd. lia. }
  rewrite Ev. change GoTime.dig with dv. rewrite <- H3, <- I3, <- S3.
  replace (1 <=? sp_day p) with true by (symmetry; apply Z.leb_le; lia).
  replace (sp_hour p <? 24) with true by (symmetry; apply Z.ltb_lt; lia). replace (sp_min p <? 60) with true by (symmetry; apply Z.ltb_lt; lia).
  replace (sp_sec p <? 60) with true by (symmetry; apply Z.ltb_lt; lia). cbn [andb]. rewrite !andb_true_r.
  destruct (sp_day p <=? days_in (sp_month p) 0); [|reflexivity]. destruct p; reflexivity.
Qed.
Lemma days_in_28 m y : 28 <= days_in m y.
Proof. unfold days_in. destruct (m =? 2); [destruct (is_leap y); lia|]. destruct ((m =? 4) || (m =? 6) || (m =? 9) || (m =? 11)); lia. Qed.
Lemma stamp_text_shape s p : stamp_text s p <-> stamp_shape s p /\ sp_day p <= days_in (sp_month p) 0.
Proof.
  pose proof (Ts5424.days_in_31 (sp_month p) 0). pose proof (days_in_28 (sp_month p) 0). unfold stamp_text. rewrite Ts5424.month_length_eq. split.
  - intros [mon [dd [hh [mi [ss [-> [Hm [Hd Hr]]]]]]]]. split.
    + exists mon, dd, hh, mi, ss. split; [reflexivity|]. split; [exact Hm|]. split; [|exact Hr].
      destruct Hd as [[A [B [C D]]]|Hd]; [left|right; exact Hd]. repeat split; auto; lia.
    + destruct Hd as [[A [B [C D]]]|[d [_ [A [B [C D]]]]]]; lia.
  - intros [[mon [dd [hh [mi [ss [-> [Hm [Hd Hr]]]]]]]] Hle]. exists mon, dd, hh, mi, ss. split; [reflexivity|]. split; [exact Hm|]. split; [|exact Hr].
    destruct Hd as [[A [B [C D]]]|Hd]; [left|right; exact Hd]. repeat split; auto; lia.
Qed.
Theorem stamp_accept l r p : (exists w, scan st_next 19 4 l = SDone w r /\ parse_stamp w = Some p) <-> exists s, l = s ++ r /\ stamp_text s p.
Proof.
  assert (Hf : forall c, st_next 19 c = None) by reflexivity. split.
  - intros [w [Hs Hp]]. apply (scan_run st_next 19 Hf) in Hs as [-> [Hw Hr]]. destruct (run_stamp w Hr) as [p' Hp'].
    pose proof (shape_parse _ _ Hp') as E. rewrite Hp in E. destruct (Z.leb_spec (sp_day p') (days_in (sp_month p') 0)); [|discriminate].
    injection E as <-. exists w. split; [reflexivity|]. apply stamp_text_shape. auto.
  - intros [s [-> Hs]]. apply stamp_text_shape in Hs as [Hs Hle]. destruct (shape_srun s p Hs) as [Hw Hr].
    exists s. split; [apply (scan_run st_next 19 Hf); auto|]. rewrite (shape_parse _ _ Hs). apply Z.leb_le in Hle. rewrite Hle. reflexivity.
Qed.

(* ---- PRI ---- *)
Lemma prival_text d v n r2 : prival d = Some (v, n, ">"%byte :: r2) <-> exists s, d = s ++ ">"%byte :: r2 /\ pri_text s v /\ n = len s.
Proof.
  split.
  - intros H.
    set (k := fun o (p : Z) r => if (p =? n + 2) && bseqb r r2 then Spec5424.PGood o else Spec5424.PBad None (M5424Def.PErr M5424Def.EPri 0)).
    assert (E : Spec5424.p_pri k ("<"%byte :: d) = Spec5424.PGood (Spec5424.pri_msg v)).
    { unfold Spec5424.p_pri. change (is 60 "<") with true. cbv iota. rewrite H. change (is 62 ">") with true. cbv iota. unfold k. rewrite Z.eqb_refl, bseqb_refl. reflexivity. }
    apply Gram5424.p_pri_good in E as [s [v' [r [Hd [Hp E]]]]]. unfold k in E. destruct ((len s + 2 =? n + 2) && bseqb r r2) eqn:Eb; [|discriminate].
    apply andb_true_iff in Eb as [Eb1 Eb2]. apply Z.eqb_eq in Eb1. apply bseqb_eq in Eb2. subst r. injection E as ->. injection Hd as ->.
    exists s. split; [reflexivity|]. split; [exact Hp|lia].
  - intros [s [-> [Hp ->]]].
    set (k := fun o (p : Z) r => if (p =? len s + 2) && bseqb r r2 then Spec5424.PGood o else Spec5424.PBad None (M5424Def.PErr M5424Def.EPri 0)).
    assert (E : Spec5424.p_pri k ("<"%byte :: s ++ ">"%byte :: r2) = Spec5424.PGood (Spec5424.pri_msg v)).
    { apply Gram5424.p_pri_good. exists s, v, r2. split; [reflexivity|]. split; [exact Hp|]. unfold k. rewrite Z.eqb_refl, bseqb_refl. reflexivity. }
    unfold Spec5424.p_pri in E. change (is 60 "<") with true in E. cbv iota in E. destruct (prival (s ++ ">"%byte :: r2)) as [[[v' n] r']|]; [|discriminate].
    destruct r' as [|c r']; [discriminate|]. destruct (is 62 c) eqn:Ec; [|discriminate]. unfold k in E. destruct ((n + 2 =? len s + 2) && bseqb r' r2) eqn:Eb; [|discriminate].
    apply andb_true_iff in Eb as [Eb1 Eb2]. apply Z.eqb_eq in Eb1. apply bseqb_eq in Eb2. subst r'. injection E as ->.
    rewrite (Gram5424.is_lit 62 c ">"%byte Ec eq_refl). do 3 f_equal. lia.
Qed.
Lemma p_pri_at k s v r : pri_text s v -> p_pri k ("<"%byte :: s ++ ">"%byte :: r) = k (pri_msg v) (len s + 2) r.
Proof.
  intros H. unfold p_pri. change (is 60 "<") with true. cbv iota.
  rewrite (proj2 (prival_text (s ++ ">"%byte :: r) v (len s) r)) by eauto. change (is 62 ">") with true. reflexivity.
Qed.
Lemma p_pri_inv k data : (exists s v r, data = "<"%byte :: s ++ ">"%byte :: r /\ pri_text s v /\ p_pri k data = k (pri_msg v) (len s + 2) r)
   \/ (exists x e, p_pri k data = PBad x (Some e) /\ forall k', p_pri k' data = PBad x (Some e)).
Proof.
  unfold p_pri. destruct data as [|b d]; [right; eexists _, _; split; [reflexivity|]; intros; reflexivity|].
  destruct (is 60 b) eqn:Eb; [|right; eexists _, _; split; [reflexivity|]; intros; reflexivity].
  destruct (prival d) as [[[v n] r']|] eqn:Ep; [|right; eexists _, _; split; [reflexivity|]; intros; reflexivity].
  destruct r' as [|c r2]; [right; eexists _, _; split; [reflexivity|]; intros; reflexivity|].
  destruct (is 62 c) eqn:Ec; [|right; eexists _, _; split; [reflexivity|]; intros; reflexivity].
  rewrite (Gram5424.is_lit 62 c ">"%byte Ec eq_refl) in *. apply prival_text in Ep as [s [-> [Hp ->]]].
  left. exists s, v, r2. rewrite (Gram5424.is_lit 60 b "<"%byte Eb eq_refl). auto.
Qed.
Lemma p_pri_good k data o' : p_pri k data = PGood o' <->
  exists s v r, data = "<"%byte :: s ++ ">"%byte :: r /\ pri_text s v /\ k (pri_msg v) (len s + 2) r = PGood o'.
Proof.
  split.
  - intros H. destruct (p_pri_inv k data) as [[s [v [r [Hd [Hp E]]]]]|[x [e [E _]]]]; rewrite H in E; [|discriminate]. exists s, v, r. auto.
  - intros [s [v [r [-> [Hp E]]]]]. rewrite (p_pri_at k s v r Hp). exact E.
Qed.

(* ---- TIMESTAMP ---- *)
Lemma stamp_time_value c p : stamp_time c p = stamp_value c p. Proof. reflexivity. Qed.
Lemma stamp_text_head s p : stamp_text s p -> exists a w, s = a :: w /\ is_dig (bN a) = false.
Proof.
  intros [mon [dd [hh [mi [ss [-> [Hm _]]]]]]]. cbn [In month_names] in Hm.
  repeat (destruct Hm as [Hm|Hm]; [injection Hm as <- _; eexists _, _; split; reflexivity|]). destruct Hm.
Qed.
Lemma r3_text_head s t : rfc3339_text s t -> exists a w, s = a :: w /\ is_dig (bN a) = true.
Proof. intros [H _]. apply (Gram5424.ts_text_head s t H). Qed.
Lemma p_ts_good c k o p rest o' : p_ts c k o p rest = PGood o' <->
  exists s t r, rest = s ++ " "%byte :: r /\ ts_field c s t /\ k (set_ts t o) (p + len s + 1) r = PGood o'.
Proof.
  split.
  - unfold p_ts. intros H.
    assert (Hst : forall l, match scan st_next 19 4 l with
       | SDone w (b :: r') => if is 32 b then match parse_stamp w with Some s => k (set_ts (stamp_time c s) o) (p + len w + 1) r' | None => PBad (Some o) (Some (PTime w (p + len w))) end else PBad (Some o) None
       | SDone w [] => PBad (Some o) None
       | SStop w _ => PBad (Some o) (Some (PErr ETimestamp (p + len w))) end = PGood o' ->
       exists s t r, l = s ++ " "%byte :: r /\ ts_field c s t /\ k (set_ts t o) (p + len s + 1) r = PGood o').
    { intros l Hl. destruct (scan st_next 19 4 l) as [w r|w n] eqn:Es; [|discriminate]. destruct r as [|b r]; [discriminate|].
      destruct (is 32 b) eqn:Eb; [|discriminate]. destruct (parse_stamp w) as [sp|] eqn:Ep; [|discriminate].
      rewrite (Gram5424.is_lit 32 b " "%byte Eb eq_refl) in *.
      destruct (proj1 (stamp_accept l (" "%byte :: r) sp)) as [s [El Hs]]; [eauto|].
      pose proof Es as Es'. apply (scan_run st_next 19 ltac:(reflexivity)) in Es' as [El' _].
      assert (s = w) by (apply app_inv_tail with (l := " "%byte :: r); congruence). subst s.
      exists w, (stamp_value c sp), r. split; [exact El|]. split; [left; exists sp; split; [exact Hs|reflexivity]|]. rewrite stamp_time_value in Hl. exact Hl. }
    destruct rest as [|d r0]; [apply (Hst []); destruct (scan st_next 19 4 []) as [w [|? ?]|]; exact H|].
    destruct (is_dig (bN d) && rfc3339 c) eqn:Ed.
    2: { apply Hst. destruct (scan st_next 19 4 (d :: r0)) as [w [|? ?]|]; exact H. }
    apply andb_true_iff in Ed as [Ed Er]. destruct (scan r3_next 324 300 r0) as [w r|w n] eqn:Es; [|discriminate].
    destruct r as [|b r]; [discriminate|]. destruct (is 32 b) eqn:Eb; [|discriminate]. destruct (parse_rfc3339 (d :: w)) as [t|] eqn:Ep; [|discriminate].
    rewrite (Gram5424.is_lit 32 b " "%byte Eb eq_refl) in *.
    destruct (proj1 (r3_accept d r0 (" "%byte :: r) t)) as [s [El Hs]]; [eauto|].
    pose proof Es as Es'. apply (scan_run r3_next 324 ltac:(reflexivity)) in Es' as [El' _].
    assert (s = d :: w). { apply app_inv_tail with (l := " "%byte :: r). rewrite <- El, El'. reflexivity. } subst s.
    exists (d :: w), t, r. split; [exact El|]. split; [right; auto|exact H].
  - intros [s [t [r [-> [Ht H]]]]]. destruct Ht as [[sp [Hs ->]]|[Er Hs]].
    + destruct (proj2 (stamp_accept (s ++ " "%byte :: r) (" "%byte :: r) sp)) as [w [Es Ep]]; [eauto|].
      pose proof Es as Es'. apply (scan_run st_next 19 ltac:(reflexivity)) in Es' as [El' _]. apply app_inv_tail in El'. subst w.
      destruct (stamp_text_head s sp Hs) as [a [w [-> Ha]]]. unfold p_ts. cbn [app] in *. rewrite Ha. cbn [andb]. rewrite Es. change (is 32 " ") with true. cbv iota. rewrite Ep, stamp_time_value. exact H.
    + destruct (r3_text_head s t Hs) as [a [w [-> Ha]]].
      destruct (proj2 (r3_accept a (w ++ " "%byte :: r) (" "%byte :: r) t)) as [w' [_ [Es Ep]]]; [exists (a :: w); auto|].
      pose proof Es as Es'. apply (scan_run r3_next 324 ltac:(reflexivity)) in Es' as [El' _]. apply app_inv_tail in El'. subst w'.
      unfold p_ts. cbn [app]. rewrite Ha, Er. cbn [andb]. rewrite Es. change (is 32 " ") with true. cbv iota. rewrite Ep. exact H.
Qed.

(* ---- HOSTNAME ---- *)
Lemma p_host_good k o p rest o' : p_host k o p rest = PGood o' <->
  exists w r, rest = w ++ " "%byte :: r /\ word 255 w /\ k (set_o_hostname w o) (p + len w + 1) r = PGood o'.
Proof.
  unfold p_host. split.
  - pose proof (Ref5424a.span_app is_graph 255 rest) as Ha. pose proof (Ref5424a.span_all is_graph 255 rest) as H1. pose proof (Ref5424a.span_len is_graph 255 rest) as H2.
    destruct (span_max is_graph 255 rest) as [w r]. cbn [fst snd] in *. subst rest.
    destruct w as [|a w]; [discriminate|]. destruct r as [|b r]; [discriminate|]. destruct (is 32 b) eqn:Eb; [|discriminate].
    rewrite (Gram5424.is_lit 32 b " "%byte Eb eq_refl). intros H. exists (a :: w), r. split; [reflexivity|]. split; [|exact H].
    split; [cbn [length] in *; lia|]. eapply Forall_impl; [|exact H1]. intros c. apply Gram5424.printable_graph.
  - intros [w [r [-> [[Hl Hw] H]]]]. rewrite Gram5424.span_exact; [|eapply Forall_impl; [|exact Hw]; intros c; apply Gram5424.printable_graph|lia|reflexivity].
    destruct w as [|a w]; [cbn in Hl; lia|]. exact H.
Qed.

(* ---- the message part ---- *)
Lemma ctl_control b : is_ctl (bN b) = true <-> control b.
Proof. unfold is_ctl, control. rewrite orb_true_iff, N.leb_le, N.eqb_eq. tauto. Qed.
Lemma ctl_false b : is_ctl (bN b) = false <-> ~ control b.
Proof. rewrite <- ctl_control. destruct (is_ctl (bN b)); split; congruence. Qed.
Lemma has_ctl_false l : has_ctl l = false <-> no_control l.
Proof.
  unfold no_control. induction l as [|b l IH]; cbn [has_ctl existsb]; [split; auto|].
  rewrite orb_false_iff. fold (has_ctl l). rewrite IH, ctl_false. split; [intros [A B]; constructor; auto|intros H; inversion H; auto].
Qed.
Lemma has_ctl_app a b : has_ctl (a ++ b) = has_ctl a || has_ctl b.
Proof. unfold has_ctl. apply existsb_app. Qed.

Definition ends3 (u : bytes) : Prop := exists a, u = a ++ lit "]: ".
Lemma text_rest_snoc u b m : text_rest (u ++ [b]) m <-> (m = [b] /\ ~ control b /\ ends3 u) \/ (exists m3, m = m3 ++ [b] /\ text_rest u m3).
Proof.
  split.
  - intros [a [c [m' [E [-> Hc]]]]]. destruct (list_eq_dec Byte.byte_eq_dec m' []) as [->|Hn].
    + left. replace (a ++ lit "]: " ++ [c]) with ((a ++ lit "]: ") ++ [c]) in E by (rewrite <- app_assoc; reflexivity).
      apply app_inj_tail in E as [-> ->]. split; [reflexivity|]. split; [exact Hc|]. exists a. reflexivity.
    + right. destruct (exists_last Hn) as [m2 [d ->]]. replace (a ++ lit "]: " ++ c :: m2 ++ [d]) with ((a ++ lit "]: " ++ c :: m2) ++ [d]) in E by (rewrite <- !app_assoc; reflexivity).
      apply app_inj_tail in E as [-> ->]. exists (c :: m2). split; [reflexivity|]. exists a, c, m2. auto.
  - intros [[-> [Hc [a ->]]]|[m3 [-> [a [c [m' [-> [-> Hc]]]]]]]].
    + exists a, b, []. rewrite <- app_assoc. auto.
    + exists a, c, (m' ++ [b]). rewrite <- !app_assoc. auto.
Qed.
Lemma last_mark u w b : last_text u w -> ends3 u -> ~ control b -> last_text (u ++ [b]) [b].
Proof.
  intros _ He Hb. left. split; [apply text_rest_snoc; left; auto|]. intros m2 H. destruct H as [a [c [m' [_ [-> _]]]]]. cbn. lia.
Qed.
Lemma last_keep u w b : last_text u w -> ~ (ends3 u /\ ~ control b) -> last_text (u ++ [b]) (w ++ [b]).
Proof.
  intros [[H1 H2]|[H1 ->]] Hn.
  - left. split; [apply text_rest_snoc; right; eauto|]. intros m2 H. apply text_rest_snoc in H as [[_ [A B]]|[m3 [-> H]]]; [exfalso; apply Hn; auto|].
    rewrite !app_length. cbn. specialize (H2 m3 H). lia.
  - right. split; [|reflexivity]. intros m2 H. apply text_rest_snoc in H as [[_ [A B]]|[m3 [-> H]]]; [apply Hn; auto|exact (H1 m3 H)].
Qed.
Lemma last_text_unique l m m' : last_text l m -> last_text l m' -> m = m'.
Proof.
  intros [[H1 H2]|[H1 ->]] [[H3 H4]|[H3 ->]].
  - assert (Hlen : length m = length m') by (pose proof (H2 m' H3); pose proof (H4 m H1); lia).
    destruct H1 as [a [c [r [E [_ _]]]]]. destruct H3 as [a' [c' [r' [E' [_ _]]]]]. rewrite E in E'. rewrite !app_assoc in E'.
    assert (length (a ++ lit "]: ") = length (a' ++ lit "]: ")) by (apply (f_equal (@length byte)) in E'; rewrite !app_length in *; lia).
    apply Loc5424.app_eq_len in E' as [_ E']; [exact E'|unfold len; lia].
  - exfalso. exact (H3 m H1).
  - exfalso. exact (H1 m' H3).
  - reflexivity.
Qed.

(* how much of "]: " a text ends with *)
Definition mstep (k : nat) (b : byte) : nat :=
  if is 93 b then 1%nat else match k with 1%nat => if is 58 b then 2%nat else 0%nat | 2%nat => if is 32 b then 3%nat else 0%nat | _ => 0%nat end.
Definition mlen (u : bytes) : nat := fold_left mstep u 0%nat.
Lemma mlen_snoc u b : mlen (u ++ [b]) = mstep (mlen u) b.
Proof. unfold mlen. rewrite fold_left_app. reflexivity. Qed.
Lemma is_at c b d : bN d = c -> is c b = true <-> b = d.
Proof. intros <-. split; [intros H; exact (Gram5424.is_lit _ b d H eq_refl)|intros ->; unfold Spec5424.is; apply N.eqb_refl]. Qed.
Lemma is_no c b d : bN d = c -> is c b = false <-> b <> d.
Proof. intros H. rewrite <- (is_at c b d H). destruct (is c b); split; congruence. Qed.
Lemma mlen_facts u : (mlen u = 1%nat <-> exists a, u = a ++ ["]"%byte]) /\ (mlen u = 2%nat <-> exists a, u = a ++ ["]"%byte; ":"%byte]) /\ (mlen u = 3%nat <-> ends3 u).
Proof.
  unfold ends3. change (lit "]: ") with ["]"%byte; ":"%byte; " "%byte].
  induction u as [|b u [I1 [I2 I3]]] using rev_ind.
  - cbn. repeat split; try discriminate; intros [a E]; apply (f_equal (@length byte)) in E; rewrite app_length in E; cbn in E; lia.
  - rewrite mlen_snoc. unfold mstep.
    assert (S1 : (exists a, u ++ [b] = a ++ ["]"%byte]) <-> b = "]"%byte).
    { split; [intros [a E]; apply app_inj_tail in E; tauto|intros ->; eauto]. }
    assert (S2 : (exists a, u ++ [b] = a ++ ["]"%byte; ":"%byte]) <-> b = ":"%byte /\ mlen u = 1%nat).
    { rewrite I1. split; [intros [a E]; change ["]"%byte; ":"%byte] with (["]"%byte] ++ [":"%byte]) in E; rewrite app_assoc in E; apply app_inj_tail in E as [-> ->]; eauto|intros [-> [a ->]]; exists a; rewrite <- app_assoc; reflexivity]. }
    assert (S3 : (exists a, u ++ [b] = a ++ ["]"%byte; ":"%byte; " "%byte]) <-> b = " "%byte /\ mlen u = 2%nat).
    { rewrite I2. split; [intros [a E]; change ["]"%byte; ":"%byte; " "%byte] with (["]"%byte; ":"%byte] ++ [" "%byte]) in E; rewrite app_assoc in E; apply app_inj_tail in E as [-> ->]; eauto|intros [-> [a ->]]; exists a; rewrite <- app_assoc; reflexivity]. }
    rewrite S1, S2, S3. clear.
    destruct (is 93 b) eqn:E93.
    { apply (is_at 93 b "]"%byte eq_refl) in E93. subst b. repeat split; try discriminate; intros [E _]; discriminate. }
    apply (is_no 93 b "]"%byte eq_refl) in E93.
    destruct (mlen u) as [|[|[|n]]].
    + repeat split; try discriminate; try (intros [_ E]; discriminate); intros E; congruence.
    + destruct (is 58 b) eqn:E58; [apply (is_at 58 b ":"%byte eq_refl) in E58|apply (is_no 58 b ":"%byte eq_refl) in E58];
        repeat split; try discriminate; try tauto; try (intros [_ E]; discriminate); intros E; try congruence; destruct E; congruence.
    + destruct (is 32 b) eqn:E32; [apply (is_at 32 b " "%byte eq_refl) in E32|apply (is_no 32 b " "%byte eq_refl) in E32];
        repeat split; try discriminate; try tauto; try (intros [_ E]; discriminate); intros E; try congruence; destruct E; congruence.
    + repeat split; try discriminate; try (intros [_ E]; discriminate); intros E; try congruence; destruct E; congruence.
Qed.
Lemma mlen3 u : mlen u = 3%nat <-> ends3 u. Proof. apply (mlen_facts u). Qed.
Lemma bracketed_close u w : last_text u w -> bracketed (u ++ ["]"%byte]) w.
Proof. intros H. right. exists u, []. auto. Qed.
Lemma bracketed_other u b c : b <> "]"%byte -> bracketed u c -> bracketed (u ++ [b]) c.
Proof.
  intros Hb [[Hn ->]|[a [v [-> [Hv H]]]]].
  - left. split; [|reflexivity]. rewrite in_app_iff. cbn. intuition congruence.
  - right. exists a, (v ++ [b]). rewrite <- !app_assoc. split; [reflexivity|]. split; [|exact H]. rewrite in_app_iff. cbn. intuition congruence.
Qed.
Lemma last_split (b : byte) a v a' v' : a ++ b :: v = a' ++ b :: v' -> ~ In b v -> ~ In b v' -> a = a' /\ v = v'.
Proof.
  revert a'. induction a as [|x a IH]; intros [|y a'] E Hv Hv'; cbn in E.
  - injection E as ->. auto.
  - injection E as -> ->. exfalso. apply Hv. apply in_app_iff. right. left. reflexivity.
  - injection E as -> <-. exfalso. apply Hv'. apply in_app_iff. right. left. reflexivity.
  - injection E as -> E. destruct (IH a' E Hv Hv') as [-> ->]. auto.
Qed.
Lemma bracketed_unique l p p' : bracketed l p -> bracketed l p' -> p = p'.
Proof.
  intros [[Hn ->]|[a [v [-> [Hv H]]]]] [[Hn' ->]|[a' [v' [E [Hv' H']]]]].
  - reflexivity.
  - exfalso. apply Hn. rewrite E. apply in_app_iff. right. left. reflexivity.
  - exfalso. apply Hn'. apply in_app_iff. right. left. reflexivity.
  - apply last_split in E as [-> ->]; [exact (last_text_unique _ _ _ H H')|exact Hv|exact Hv'].
Qed.
Lemma set_content_twice a b o : set_o_content a (set_o_content b o) = set_o_content a o.
Proof. destruct o; reflexivity. Qed.
Lemma set_content_same o : set_o_content (o_content o) o = o.
Proof. destruct o; reflexivity. Qed.
Lemma p_cont_spec r : forall u w o, last_text u w -> bracketed u (o_content o) ->
  exists m pid, last_text (u ++ r) m /\ bracketed (u ++ r) pid /\
    p_cont (has_ctl w) (mlen u) o w r = if has_ctl m then PBad (Some (set_o_content pid o)) None else PGood (set_o_message m (set_o_content pid o)).
Proof.
  induction r as [|b r IH]; intros u w o Hl Hb.
  - exists w, (o_content o). rewrite app_nil_r, set_content_same. auto.
  - assert (Ea : u ++ b :: r = (u ++ [b]) ++ r) by (rewrite <- app_assoc; reflexivity). rewrite Ea. cbn [p_cont].
    destruct (is 93 b) eqn:E93.
    { pose proof E93 as E93'. apply (is_at 93 b "]"%byte eq_refl) in E93. subst b.
      assert (Hk : mlen (u ++ ["]"%byte]) = 1%nat) by (rewrite mlen_snoc; reflexivity).
      assert (Hc : ~ control "]"%byte) by (unfold control; cbn; lia).
      assert (Ho : o_content (set_o_content w o) = w) by (destruct o; reflexivity).
      destruct (Nat.eq_dec (mlen u) 3) as [E3|E3].
      - rewrite E3. destruct (IH (u ++ ["]"%byte]) ["]"%byte] (set_o_content w o)) as [m [pid [A [B C]]]].
        + apply last_mark with w; [exact Hl|apply mlen3; exact E3|exact Hc].
        + rewrite Ho. apply bracketed_close. exact Hl.
        + exists m, pid. rewrite Hk in C. rewrite set_content_twice in C. auto.
      - destruct (IH (u ++ ["]"%byte]) (w ++ ["]"%byte]) (set_o_content w o)) as [m [pid [A [B C]]]].
        + apply last_keep; [exact Hl|]. rewrite <- mlen3. tauto.
        + rewrite Ho. apply bracketed_close. exact Hl.
        + exists m, pid. rewrite Hk, set_content_twice, has_ctl_app, orb_false_r in C. split; [exact A|]. split; [exact B|].
          destruct (mlen u) as [|[|[|[|n]]]]; try exact C. congruence. }
    pose proof E93 as E93'. apply (is_no 93 b "]"%byte eq_refl) in E93.
    assert (Hb' : bracketed (u ++ [b]) (o_content o)) by (apply bracketed_other; assumption).
    destruct (is_ctl (bN b)) eqn:Ec.
    { destruct (IH (u ++ [b]) (w ++ [b]) o) as [m [pid [A [B C]]]].
      - apply last_keep; [exact Hl|]. apply ctl_control in Ec. tauto.
      - exact Hb'.
      - exists m, pid. split; [exact A|]. split; [exact B|]. rewrite <- C. rewrite has_ctl_app, mlen_snoc. unfold mstep. rewrite E93'.
        assert (has_ctl [b] = true) as -> by (cbn; rewrite Ec; reflexivity). rewrite orb_true_r.
        assert (Hz : match mlen u with 1%nat => if is 58 b then 2%nat else 0%nat | 2%nat => if is 32 b then 3%nat else 0%nat | _ => 0%nat end = 0%nat); [|rewrite Hz; reflexivity].
        destruct (mlen u) as [|[|[|n]]]; try reflexivity.
        + destruct (is 58 b) eqn:E; [|reflexivity]. apply (is_at 58 b ":"%byte eq_refl) in E. subst b. discriminate Ec.
        + destruct (is 32 b) eqn:E; [|reflexivity]. apply (is_at 32 b " "%byte eq_refl) in E. subst b. discriminate Ec. }
    destruct (Nat.eq_dec (mlen u) 3) as [E3|E3].
    + destruct (IH (u ++ [b]) [b] o) as [m [pid [A [B C]]]].
      * apply last_mark with w; [exact Hl|apply mlen3; exact E3|apply ctl_false; exact Ec].
      * exact Hb'.
      * exists m, pid. split; [exact A|]. split; [exact B|]. rewrite <- C. rewrite mlen_snoc. unfold mstep. rewrite E93', E3. cbn [has_ctl existsb]. rewrite Ec. reflexivity.
    + destruct (IH (u ++ [b]) (w ++ [b]) o) as [m [pid [A [B C]]]].
      * apply last_keep; [exact Hl|]. rewrite <- mlen3. tauto.
      * exact Hb'.
      * exists m, pid. split; [exact A|]. split; [exact B|]. rewrite <- C. rewrite mlen_snoc, has_ctl_app. unfold mstep. rewrite E93'. cbn [has_ctl existsb]. rewrite Ec, !orb_false_r.
        destruct (mlen u) as [|[|[|[|n]]]]; try reflexivity. congruence.
Qed.

Lemma tag_char_tagc b : tag_char b <-> is_tagc (bN b) = true.
Proof.
  unfold tag_char, is_tagc. rewrite !andb_true_iff, !negb_true_iff, <- Gram5424.printable_graph.
  change ((bN b =? 58)%N) with (is 58 b). change ((bN b =? 91)%N) with (is 91 b).
  rewrite (is_no 58 b ":"%byte eq_refl), (is_no 91 b "["%byte eq_refl). tauto.
Qed.
Lemma tag_span w b r : tag_text w -> b = ":"%byte \/ b = "["%byte -> span_max is_tagc 32 (w ++ b :: r) = (w, b :: r).
Proof.
  intros [Hl Hw] Hb. apply Gram5424.span_exact; [|lia|destruct Hb as [-> | ->]; reflexivity].
  eapply Forall_impl; [|exact Hw]. intros c. apply tag_char_tagc.
Qed.
Lemma tag_no_ctl w a : tag_text (a :: w) -> is_ctl (bN a) = false.
Proof. intros [_ H]. inversion H as [|? ? [Hp _] _]. apply ctl_false. unfold control. unfold printable in Hp. unfold Grammar5424.printable in Hp. lia. Qed.
Lemma p_text_good o full r o' : p_text o full r = PGood o' <-> no_control r /\ o' = set_o_message full o.
Proof. unfold p_text. rewrite <- has_ctl_false. destruct (has_ctl r); split; try discriminate; [intros [E _]; discriminate|intros E; injection E as <-; auto|intros [_ ->]; reflexivity]. Qed.
Lemma no_control_app a b : no_control (a ++ b) <-> no_control a /\ no_control b.
Proof. unfold no_control. apply Forall_app. Qed.
Lemma tag_no_control w : tag_text w -> no_control w.
Proof. intros [_ H]. eapply Forall_impl; [|exact H]. intros b [Hp _]. unfold control, Grammar5424.printable in *. lia. Qed.
Lemma tagc_no_control w : Forall (fun b => is_tagc (bN b) = true) w -> no_control w.
Proof. intros H. eapply Forall_impl; [|exact H]. intros b Hb. apply tag_char_tagc in Hb as [Hp _]. unfold control, Grammar5424.printable in *. lia. Qed.
Lemma last_text_nil_self : last_text [] [].
Proof. right. split; [|reflexivity]. intros m [a [c [m' [E [-> _]]]]]. apply (f_equal (@length byte)) in E. rewrite !app_length in E. cbn in E. lia. Qed.
Lemma set_fields_nil o : o_tag o = [] -> o_content o = [] -> forall m, set_o_message m (set_o_content [] (set_o_tag [] o)) = set_o_message m o.
Proof. destruct o; cbn. intros -> -> m. reflexivity. Qed.
Lemma set_content_nil o t : o_content o = [] -> forall m, set_o_message m (set_o_content [] (set_o_tag t o)) = set_o_message m (set_o_tag t o).
Proof. destruct o; cbn. intros -> m. reflexivity. Qed.
Lemma p_msg_good o p s o' : o_tag o = [] -> o_content o = [] ->
  (p_msg o p s = PGood o' <-> exists tag pid m, msg_part s tag pid m /\ o' = set_o_message m (set_o_content pid (set_o_tag tag o))).
Proof.
  intros Ht Hc. split.
  - unfold p_msg. destruct s as [|b0 s0]; [discriminate|]. remember (b0 :: s0) as s eqn:Es. destruct (is_ctl (bN b0)) eqn:Eb0; [discriminate|].
    pose proof (Ref5424a.span_app is_tagc 32 s) as Ha. pose proof (Ref5424a.span_all is_tagc 32 s) as H1. pose proof (Ref5424a.span_len is_tagc 32 s) as H2.
    assert (Hp : forall w r, span_max is_tagc 32 s = (w, r) -> s = w ++ r -> (w = [] \/ r = [] \/ exists c r', r = c :: r' /\ is 58 c = false /\ is 91 c = false) ->
       forall tag r0, tag_text tag -> s <> tag ++ lit ":" ++ r0 /\ s <> tag ++ lit "[" ++ r0).
    { intros w r Hsp Hs Hor tag r0 Htag.
      assert (forall x, x = ":"%byte \/ x = "["%byte -> s <> tag ++ x :: r0); [|split; apply H; auto].
      intros x Hx E. rewrite E in Hsp. rewrite (tag_span tag x r0 Htag Hx) in Hsp. injection Hsp as <- <-. destruct Hor as [->|[Hr|[c [r' [Hr [A B]]]]]].
      - destruct Htag as [Hl _]. cbn in Hl. lia.
      - discriminate.
      - injection Hr as <- <-. destruct Hx as [-> | ->]; discriminate. }
    destruct (span_max is_tagc 32 s) as [w r] eqn:Esp. cbn [fst snd] in *.
    destruct w as [|a w].
    { intros H. assert (E : p_text o s r = PGood o') by (destruct r; exact H). clear H. apply p_text_good in E as [Hr ->]. exists [], [], s. rewrite set_fields_nil by assumption. split; [|reflexivity].
      apply mp_plain; [rewrite Es; discriminate|cbn in Ha; rewrite Ha; exact Hr|]. apply (Hp [] r eq_refl); auto. }
    assert (Htag : tag_text (a :: w)).
    { split; [cbn [length] in *; lia|]. eapply Forall_impl; [|exact H1]. intros b. apply tag_char_tagc. }
    destruct r as [|c r'].
    { intros H. apply p_text_good in H as [Hr ->]. exists [], [], s. rewrite set_fields_nil by assumption. split; [|reflexivity].
      apply mp_plain; [rewrite Es; discriminate|rewrite Ha, app_nil_r; apply tag_no_control; exact Htag|]. apply (Hp _ _ eq_refl); auto. }
    destruct (is 58 c) eqn:E58.
    { apply (is_at 58 c ":"%byte eq_refl) in E58. subst c.
      assert (Hdef : (forall m, m <> [] -> r' <> lit " " ++ m) -> p_text (set_o_tag (a :: w) o) s r' = PGood o' ->
         exists tag pid m, msg_part s tag pid m /\ o' = set_o_message m (set_o_content pid (set_o_tag tag o))).
      { intros Hn H. apply p_text_good in H as [Hr ->]. exists (a :: w), [], s. rewrite set_content_nil by assumption. split; [|reflexivity].
        rewrite Ha. exact (mp_colon_other (a :: w) r' Htag Hr Hn). }
      destruct r' as [|b r']; [apply Hdef; intros m Hm E; discriminate|].
      destruct r' as [|d r']; [apply Hdef; intros m Hm E; injection E as _ E; congruence|].
      destruct (is 32 b) eqn:E32.
      - apply (is_at 32 b " "%byte eq_refl) in E32. subst b. intros H. apply p_text_good in H as [Hr ->]. exists (a :: w), [], (d :: r'). rewrite set_content_nil by assumption. split; [|reflexivity].
        rewrite Ha. refine (mp_colon (a :: w) (d :: r') Htag _ Hr). discriminate.
      - apply Hdef. intros m Hm E. injection E as -> _. discriminate. }
    destruct (is 91 c) eqn:E91.
    { apply (is_at 91 c "["%byte eq_refl) in E91. subst c.
      destruct r' as [|b r'].
      - intros H. injection H as <-. exists (a :: w), [], s. rewrite set_content_nil by assumption. split; [|reflexivity].
        rewrite Ha. exact (mp_open (a :: w) Htag).
      - intros H. destruct (p_cont_spec (b :: r') [] [] (set_o_tag (a :: w) o)) as [m [pid [A [B C]]]].
        + apply last_text_nil_self.
        + left. split; [intros []|]. destruct o; exact Hc.
        + cbn [has_ctl existsb mlen fold_left] in C. rewrite H in C. destruct (has_ctl m) eqn:Em; [discriminate|]. injection C as ->.
          exists (a :: w), pid, m. split; [|reflexivity]. rewrite Ha. refine (mp_bracket (a :: w) (b :: r') pid m Htag _ A _ B); [discriminate|apply has_ctl_false; exact Em]. }
    intros H. apply p_text_good in H as [Hr ->]. exists [], [], s. rewrite set_fields_nil by assumption. split; [|reflexivity].
    apply mp_plain; [rewrite Es; discriminate|rewrite Ha; apply no_control_app; split; [apply tag_no_control; exact Htag|exact Hr]|]. apply (Hp _ _ eq_refl Ha). right. right. exists c, r'. auto.
  - intros [tag [pid [m [H ->]]]]. destruct H as [s Hs Hn Hp|tag m Htag Hm Hn|tag r Htag Hn Hr|tag Htag|tag r pid m Htag Hr Hl Hn Hb].
    + rewrite set_fields_nil by assumption. unfold p_msg. destruct s as [|b0 s0]; [congruence|]. remember (b0 :: s0) as s eqn:Es.
      assert (is_ctl (bN b0) = false) as -> by (apply ctl_false; rewrite Es in Hn; inversion Hn; assumption).
      pose proof (Ref5424a.span_app is_tagc 32 s) as Ha. pose proof (Ref5424a.span_all is_tagc 32 s) as H1. pose proof (Ref5424a.span_len is_tagc 32 s) as H2.
      destruct (span_max is_tagc 32 s) as [w r]. cbn [fst snd] in *. assert (Hnr : no_control r) by (rewrite Ha in Hn; apply no_control_app in Hn; tauto).
      assert (Hg : p_text o s r = PGood (set_o_message s o)) by (apply p_text_good; auto).
      destruct w as [|a w]; [destruct r; exact Hg|]. destruct r as [|c r']; [exact Hg|].
      assert (Htag : tag_text (a :: w)). { split; [cbn [length] in *; lia|]. eapply Forall_impl; [|exact H1]. intros b. apply tag_char_tagc. }
      destruct (Hp (a :: w) r' Htag) as [P1 P2].
      destruct (is 58 c) eqn:E58; [apply (is_at 58 c ":"%byte eq_refl) in E58; subst c; exfalso; apply P1; exact Ha|].
      destruct (is 91 c) eqn:E91; [apply (is_at 91 c "["%byte eq_refl) in E91; subst c; exfalso; apply P2; exact Ha|]. exact Hg.
    + rewrite set_content_nil by assumption. unfold p_msg. change (tag ++ lit ": " ++ m) with (tag ++ ":"%byte :: " "%byte :: m).
      rewrite (tag_span tag ":"%byte (" "%byte :: m) Htag) by auto. destruct tag as [|a w]; [destruct Htag as [Hl _]; cbn in Hl; lia|]. cbn [app].
      rewrite (tag_no_ctl w a Htag). change (is 58 ":") with true. change (is 32 " ") with true. cbv iota. destruct m as [|d m]; [congruence|]. apply p_text_good. auto.
    + rewrite set_content_nil by assumption. unfold p_msg. change (tag ++ lit ":" ++ r) with (tag ++ ":"%byte :: r).
      rewrite (tag_span tag ":"%byte r Htag) by auto. destruct tag as [|a w]; [destruct Htag as [Hl _]; cbn in Hl; lia|]. cbn [app].
      rewrite (tag_no_ctl w a Htag). change (is 58 ":") with true. cbv iota.
      assert (Hg : p_text (set_o_tag (a :: w) o) (a :: w ++ ":"%byte :: r) r = PGood (set_o_message (a :: w ++ ":"%byte :: r) (set_o_tag (a :: w) o))) by (apply p_text_good; auto).
      destruct r as [|b r]; [exact Hg|]. destruct r as [|d r]; [exact Hg|]. destruct (is 32 b) eqn:E32; [|exact Hg].
      apply (is_at 32 b " "%byte eq_refl) in E32. subst b. exfalso. apply (Hr (d :: r)); [discriminate|reflexivity].
    + rewrite set_content_nil by assumption. unfold p_msg. change (tag ++ lit "[") with (tag ++ "["%byte :: []).
      rewrite (tag_span tag "["%byte [] Htag) by auto. destruct tag as [|a w]; [destruct Htag as [Hl _]; cbn in Hl; lia|]. cbn [app].
      rewrite (tag_no_ctl w a Htag). reflexivity.
    + unfold p_msg. change (tag ++ lit "[" ++ r) with (tag ++ "["%byte :: r).
      rewrite (tag_span tag "["%byte r Htag) by auto. destruct tag as [|a w]; [destruct Htag as [Hlen _]; cbn in Hlen; lia|]. cbn [app].
      rewrite (tag_no_ctl w a Htag). change (is 58 "[") with false. change (is 91 "[") with true. cbv iota.
      destruct r as [|b r]; [congruence|].
      destruct (p_cont_spec (b :: r) [] [] (set_o_tag (a :: w) o)) as [m' [pid' [A [B C]]]].
      * apply last_text_nil_self.
      * left. split; [intros []|]. destruct o; exact Hc.
      * cbn [has_ctl existsb mlen fold_left app] in *. rewrite C. rewrite (last_text_unique _ _ _ A Hl), (bracketed_unique _ _ _ B Hb).
        apply has_ctl_false in Hn. rewrite Hn. reflexivity.
Qed.

(* ---- the whole message ---- *)
Lemma msg_part_nonempty s tag pid m : msg_part s tag pid m -> m <> [].
Proof.
  destruct 1 as [s Hs _ _|tag m _ Hm _|tag r [Hl _] _ _|tag [Hl _]|tag r pid m _ Hr Hl _ _]; auto.
  - destruct tag; [cbn in Hl; lia|discriminate].
  - destruct tag; [cbn in Hl; lia|discriminate].
  - destruct Hl as [[[a [c [m' [_ [-> _]]]]] _]|[_ ->]]; [discriminate|exact Hr].
Qed.
Lemma export_fields v t host tag pid text : text <> [] ->
  export (set_o_message text (set_o_content pid (set_o_tag tag (set_o_hostname host (set_ts t (pri_msg v))))))
  = Message (Some (v / 8)) (Some (v mod 8)) (Some v) (Some t) (text_value host) (text_value tag) (text_value pid) (Some text).
Proof. intros H. destruct text as [|b text]; [congruence|]. reflexivity. Qed.
Theorem spec_grammar c data m : (exists o, spec3164 c data = PGood o /\ export o = m) <-> grammar c data m.
Proof.
  unfold spec3164. split.
  - intros [o [H <-]]. apply p_pri_good in H as [pri [v [r1 [-> [Hp H]]]]]. apply p_ts_good in H as [ts [t [r2 [-> [Ht H]]]]].
    apply p_host_good in H as [host [tail [-> [Hh H]]]]. apply p_msg_good in H as [tag [pid [text [Hm ->]]]]; [|reflexivity..].
    exists pri, ts, host, tail, v, t, tag, pid, text. split; [reflexivity|]. do 4 (split; [assumption|]).
    apply export_fields. exact (msg_part_nonempty _ _ _ _ Hm).
  - intros [pri [ts [host [tail [v [t [tag [pid [text [-> [Hp [Ht [Hh [Hm ->]]]]]]]]]]]]]].
    eexists. split.
    + apply p_pri_good. exists pri, v, (ts ++ lit " " ++ host ++ lit " " ++ tail). split; [reflexivity|]. split; [exact Hp|].
      apply p_ts_good. exists ts, t, (host ++ lit " " ++ tail). split; [reflexivity|]. split; [exact Ht|].
      apply p_host_good. exists host, tail. split; [reflexivity|]. split; [exact Hh|].
      apply p_msg_good; [reflexivity..|]. exists tag, pid, text. split; [exact Hm|reflexivity].
    + apply export_fields. exact (msg_part_nonempty _ _ _ _ Hm).
Qed.
