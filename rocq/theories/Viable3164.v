(* The column of an RFC 3164 error is where the input stops being the beginning of an accepted input (property C57). *)
From Verif Require Import Bytes GoTime Cal Common CommonFacts M3164Def A3164 M3164 Spec3164 Grammar3164 Gram3164 Thm3164 Fail3164 ThmFail3164.
From Verif Require ThmFail5424 Ts5424.
Local Open Scope Z_scope.

Lemma nn_first P b r r' : next_not P (b :: r) -> next_not P (b :: r').
Proof. intros H. apply nn_cons. exact (proj1 (nn_cons P b r) H). Qed.
Lemma longest_first P n w b r r' : longest P n w (b :: r) -> longest P n w (b :: r').
Proof. intros [H1 [H2 [H3|H3]]]; (split; [exact H1|]); (split; [exact H2|]); [left; exact H3|right; eapply nn_first; exact H3]. Qed.
Lemma stuck_first P part b r r' : stuck P part (b :: r) -> stuck P part (b :: r').
Proof. intros [H1 H2]. split; [exact H1|]. intros b' r0 y E. injection E as <- <-. exact (H2 b r y eq_refl). Qed.
Lemma ts_fails_first c good b r r' k : ts_fails c good (b :: r) k -> ts_fails c good (b :: r') k.
Proof.
  intros H. inversion H as [part bad Hs Hn E1 E2 E3|part bad Er Hp Hs E1 E2 E3|s bad Hl Hn E1 E2 E3]; subst.
  - apply tf_stamp; [eapply stuck_first; exact Hs|]. intros [Er [Ep [d [q [E Hd]]]]]. injection E as <- <-. apply Hn. split; [exact Er|]. split; [exact Ep|]. eauto.
  - apply tf_rfc3339; [exact Er|exact Hp|eapply stuck_first; exact Hs].
  - apply tf_end; [exact Hl|eapply nn_first; exact Hn].
Qed.
Lemma some_inj {A} (x y : A) : Some x = Some y -> x = y.
Proof. congruence. Qed.
Lemma perr_inj k n k' n' : Some (PErr k n) = Some (PErr k' n') -> k = k' /\ n = n'.
Proof. intros E. split; congruence. Qed.
Lemma ts_fails_kind c good bad k : ts_fails c good bad (Some k) ->
  k = ETimestamp /\ stuck stamp_like good bad \/ k = ERFC3339 /\ rfc3339 c = true /\ (19 <= length good)%nat /\ stuck rfc3339_like good bad.
Proof.
  intros H. remember (Some k) as ok eqn:Ek. destruct H as [part bad Hs Hn|part bad Er Hp Hs|s bad Hl Hn]; [|destruct (19 <=? length part)%nat eqn:E|]; try discriminate; apply some_inj in Ek; subst k; [left; auto|right].
  apply Nat.leb_le in E. auto.
Qed.
(* the place where a given decomposition meets the column *)
Lemma at_col (good bad w : bytes) b r : good ++ bad = w ++ b :: r -> col good = Z.of_nat (length w) -> good = w /\ bad = b :: r.
Proof.
  intros E Hc. unfold Fail5424.col in Hc. assert (Hl : length good = length w) by lia.
  clear Hc. revert w E Hl. induction good as [|a good IH]; intros [|a' w]; cbn [app length]; intros E Hl; try discriminate; [auto|]. injection E as <- E. destruct (IH w E) as [-> ->]; [lia|auto].
Qed.
Theorem fails_local c w b r r' x e : fails c (w ++ b :: r) x (Some e) -> perr_col e = Z.of_nat (length w) -> fails c (w ++ b :: r') x (Some e).
Proof.
  intros H Hc. remember (w ++ b :: r) as data eqn:Ed. remember (Some e) as oe eqn:Eo.
  destruct H as [bad Hn|bad Hn|w0 v bad Hw Hn Hg|pri p good bad k Hp Hf|pri p s bad Hp Hl Hd|pri p ts t w0 bad Hp Ht Hl Hn|pri p ts t host bad Hp Ht Hh Hn|pri p ts t host tail tag pid Hp Ht Hh Hf].
  - apply some_inj in Eo; subst e. cbn [perr_col] in Hc. destruct (at_col [] bad w b r Ed Hc) as [<- ->]. apply fl_pri. eapply nn_first; exact Hn.
  - apply some_inj in Eo; subst e. cbn [perr_col] in Hc. destruct (at_col (lit "<") bad w b r Ed Hc) as [<- ->]. apply fl_no_prival. eapply nn_first; exact Hn.
  - apply some_inj in Eo. subst e. cbn [perr_col] in Hc. assert (Hc' : col (lit "<" ++ w0) = Z.of_nat (length w)) by (unfold Fail5424.col in *; rewrite app_length; change (length (lit "<")) with 1%nat; lia).
    rewrite app_assoc in Ed. destruct (at_col (lit "<" ++ w0) bad w b r Ed Hc') as [<- ->]. rewrite <- app_assoc. refine (fl_prival c w0 v (b :: r') Hw _ _); eapply nn_first; eassumption.
  - destruct k as [k|]; [|discriminate]. cbn [option_map] in *. apply some_inj in Eo; subst e. cbn [perr_col] in Hc. rewrite !app_assoc in Ed. rewrite !app_assoc in Hc. destruct (at_col _ bad w b r Ed Hc) as [<- ->]. rewrite <- !app_assoc.
    exact (fl_ts c pri p good (b :: r') (Some k) Hp (ts_fails_first c good b r r' (Some k) Hf)).
  - apply some_inj in Eo; subst e. cbn [perr_col] in Hc. assert (Ed' : (lit "<" ++ pri ++ lit ">" ++ s) ++ lit " " ++ bad = w ++ b :: r) by (rewrite <- Ed, <- !app_assoc; reflexivity).
    destruct (at_col _ _ w b r Ed' Hc) as [<- E]. injection E as <- <-. rewrite <- !app_assoc. exact (fl_date c pri p s r' Hp Hl Hd).
  - apply some_inj in Eo; subst e. cbn [perr_col] in Hc. assert (Ed' : (lit "<" ++ pri ++ lit ">" ++ ts ++ lit " " ++ w0) ++ bad = w ++ b :: r) by (rewrite <- Ed, <- !app_assoc; reflexivity).
    destruct (at_col _ _ w b r Ed' Hc) as [<- ->]. rewrite <- !app_assoc. refine (fl_host c pri p ts t w0 (b :: r') Hp Ht _ _); [eapply longest_first; exact Hl|]. destruct Hn as [Hn|Hn]; [left; exact Hn|right; eapply nn_first; exact Hn].
  - apply some_inj in Eo; subst e. cbn [perr_col] in Hc. assert (Ed' : (lit "<" ++ pri ++ lit ">" ++ ts ++ lit " " ++ host ++ lit " ") ++ bad = w ++ b :: r) by (rewrite <- Ed, <- !app_assoc; reflexivity).
    destruct (at_col _ _ w b r Ed' Hc) as [<- ->]. rewrite <- !app_assoc. refine (fl_tag c pri p ts t host (b :: r') Hp Ht Hh _). eapply nn_first; exact Hn.
  - discriminate.
Qed.

(* ---- completions ---- *)
Definition viable (c : config) (w : bytes) : Prop := exists ext m, grammar c (w ++ ext) m.
Lemma stamp_ex c : exists t, ts_field c (lit "Oct 11 22:14:15") t.
Proof.
  eexists. left. exists (Stamp 10 11 22 14 15). split; [|reflexivity]. exists (lit "Oct"), (lit "11"), (lit "22"), (lit "14"), (lit "15").
  assert (Hn : forall s lo hi v, length s = 2%nat -> Forall digit s -> v = dec s -> lo <= v <= hi -> num 2 s lo hi v) by (intros s lo hi v A B C D; repeat split; auto; lia).
  assert (Hd : forall a b, (48 <= bN a <= 57)%N -> (48 <= bN b <= 57)%N -> Forall digit [a; b]) by (intros a b A B; repeat constructor; apply A || apply B).
  cbn [sp_month sp_day sp_hour sp_min sp_sec].
  split; [reflexivity|]. split; [vm_compute; tauto|]. split; [left|]; repeat split; try (vm_compute; congruence); apply Hd; vm_compute; split; congruence.
Qed.
Lemma viable_tail c pri p ts t host : pri_text pri p -> ts_field c ts t -> word 255 host -> viable c (lit "<" ++ pri ++ lit ">" ++ ts ++ lit " " ++ host ++ lit " ").
Proof.
  intros Hp Ht Hh. exists (lit "x"). eexists. exists pri, ts, host, (lit "x"), p, t, [], [], (lit "x"). split; [rewrite <- !app_assoc; reflexivity|]. do 3 (split; [assumption|]). split; [|reflexivity].
  apply mp_plain; [discriminate|constructor; [intros [H|H]; revert H; vm_compute; congruence|constructor]|]. intros tag r [Hl _]. destruct tag as [|a [|b tag]]; [cbn [length] in Hl; lia|split; intros E; discriminate E|split; intros E; discriminate E].
Qed.
Lemma viable_app c w ext : viable c (w ++ ext) -> viable c w.
Proof. intros [y [m H]]. exists (ext ++ y), m. rewrite app_assoc. exact H. Qed.
Lemma viable_host c pri p ts t w : pri_text pri p -> ts_field c ts t -> Forall printable w -> (length w <= 255)%nat -> viable c (lit "<" ++ pri ++ lit ">" ++ ts ++ lit " " ++ w).
Proof.
  intros Hp Ht Hw Hl. destruct w as [|a w].
  - apply (viable_app c _ (lit "h ")). rewrite app_nil_r. replace ((lit "<" ++ pri ++ lit ">" ++ ts ++ lit " ") ++ lit "h ") with (lit "<" ++ pri ++ lit ">" ++ ts ++ lit " " ++ lit "h" ++ lit " ") by (rewrite <- !app_assoc; reflexivity).
    apply (viable_tail c pri p ts t (lit "h") Hp Ht). split; [cbn; lia|]. constructor; [|constructor]. split; vm_compute; congruence.
  - apply (viable_app c _ (lit " ")). rewrite <- !app_assoc. apply (viable_tail c pri p ts t (a :: w) Hp Ht). split; [cbn [length] in *; lia|exact Hw].
Qed.
Lemma viable_pri c w p : pri_text w p -> viable c (lit "<" ++ w).
Proof.
  intros Hp. destruct (stamp_ex c) as [t Ht]. apply (viable_app c _ (lit ">" ++ lit "Oct 11 22:14:15" ++ lit " ")). pose proof (viable_host c w p _ t [] Hp Ht (Forall_nil _) ltac:(cbn; lia)) as H. rewrite <- !app_assoc. rewrite app_nil_r in H. exact H.
Qed.
Lemma pri_one : pri_text (lit "1") 1.
Proof. apply pri_cases. split; [lia|]. left. exists "1"%byte. split; [reflexivity|]. split; [split; vm_compute; congruence|reflexivity]. Qed.
(* a timestamp error is reported in the middle of what looks like a timestamp *)
Definition ts_error (k : ekind) : bool := match k with ETimestamp | ERFC3339 => true | _ => false end.
Lemma fails_viable c data x k n : fails c data x (Some (PErr k n)) -> ts_error k = false -> exists good bad, data = good ++ bad /\ n = col good /\ viable c good.
Proof.
  intros H Hk. remember (Some (PErr k n)) as oe eqn:Eo.
  destruct H as [bad Hn|bad Hn|w0 v bad Hw Hn Hg|pri p good bad k' Hp Hf|pri p s bad Hp Hl Hd|pri p ts t w0 bad Hp Ht Hl Hn|pri p ts t host bad Hp Ht Hh Hn|pri p ts t host tail tag pid Hp Ht Hh Hf].
  - apply perr_inj in Eo as [<- <-]. exists [], bad. split; [reflexivity|]. split; [reflexivity|]. exact (viable_app c [] _ (viable_pri c _ _ pri_one)).
  - apply perr_inj in Eo as [<- <-]. exists (lit "<"), bad. split; [reflexivity|]. split; [reflexivity|]. exact (viable_app c (lit "<") _ (viable_pri c _ _ pri_one)).
  - apply perr_inj in Eo as [<- <-]. exists (lit "<" ++ w0), bad. split; [rewrite <- app_assoc; reflexivity|]. split; [unfold Fail5424.col; rewrite app_length; change (length (lit "<")) with 1%nat; lia|]. exact (viable_pri c w0 v Hw).
  - destruct k' as [k'|]; [|discriminate]. cbn [option_map] in Eo. apply perr_inj in Eo as [<- <-]. exfalso. destruct (ts_fails_kind c good bad k' Hf) as [[-> _]|[-> _]]; discriminate.
  - discriminate.
  - apply perr_inj in Eo as [<- <-]. exists (lit "<" ++ pri ++ lit ">" ++ ts ++ lit " " ++ w0), bad. split; [rewrite <- !app_assoc; reflexivity|]. split; [reflexivity|]. destruct Hl as [H1 [H2 _]]. exact (viable_host c pri p ts t w0 Hp Ht H1 H2).
  - apply perr_inj in Eo as [<- <-]. exists (lit "<" ++ pri ++ lit ">" ++ ts ++ lit " " ++ host ++ lit " "), bad. split; [rewrite <- !app_assoc; reflexivity|]. split; [reflexivity|]. exact (viable_tail c pri p ts t host Hp Ht Hh).
  - discriminate.
Qed.

Lemma rejected_fails m data x e : snd (parse m data) = Ret x (Some e) -> exists y, fails (config_of m) data y (Some e) /\ x = (if bestEffort m then y else None).
Proof. intros H. apply parse3164_fails. split; [exact H|]. intros [msg Hg]. pose proof (parse3164_grammar_accepted m data msg Hg). congruence. Qed.
(* C57: what precedes the column of an error that does not concern the timestamp can be completed to an accepted input ... *)
Theorem parse3164_error_viable m data x k n : snd (parse m data) = Ret x (Some (PErr k n)) -> ts_error k = false ->
  exists ext msg, grammar (config_of m) (firstn (Z.to_nat n) data ++ ext) msg.
Proof.
  intros H Hk. destruct (rejected_fails m data x _ H) as [y [Hf _]]. destruct (fails_viable _ _ _ _ _ Hf Hk) as [good [bad [-> [-> [ext [msg Hg]]]]]]. exists ext, msg.
  unfold Fail5424.col. rewrite Nat2Z.id, firstn_app, Nat.sub_diag, firstn_O, app_nil_r, firstn_all. exact Hg.
Qed.
(* ... and, for every error, no longer part can be: every continuation gets the same error and the same partial message *)
Theorem parse3164_error_farthest m data x e n ext : snd (parse m data) = Ret x (Some e) -> perr_col e < Z.of_nat n -> (n <= length data)%nat ->
  snd (parse m (firstn n data ++ ext)) = Ret x (Some e).
Proof.
  intros H Hn Hl. destruct (rejected_fails m data x _ H) as [y [Hf ->]].
  assert (Hp : 0 <= perr_col e).
  { remember (Some e) as oe eqn:Eo. destruct Hf as [| | |? ? ? ? k| | | |]; try discriminate; try (apply some_inj in Eo; subst e; cbn [perr_col]; unfold Fail5424.col; lia). destruct k; [|discriminate]. apply some_inj in Eo; subst e. cbn [perr_col]. unfold Fail5424.col. lia. }
  set (w := firstn (Z.to_nat (perr_col e)) data). assert (Hw : Z.of_nat (length w) = perr_col e) by (unfold w; rewrite firstn_length; lia).
  destruct (skipn (Z.to_nat (perr_col e)) data) as [|b r] eqn:Es.
  { apply (f_equal (@length byte)) in Es. rewrite skipn_length in Es. cbn [length] in Es. lia. }
  assert (Ed : data = w ++ b :: r) by (unfold w; rewrite <- Es; symmetry; apply firstn_skipn).
  assert (En : firstn n data = w ++ b :: firstn (n - S (length w)) r).
  { rewrite Ed, firstn_app, firstn_all2 by lia. f_equal. replace (n - length w)%nat with (S (n - S (length w))) by lia. reflexivity. }
  rewrite En, <- app_assoc. cbn [app]. rewrite Ed in Hf. pose proof (fails_local _ w b r (firstn (n - S (length w)) r ++ ext) y e Hf (eq_sym Hw)) as Hf'.
  apply parse3164_fails. eauto.
Qed.
Lemma field_like c s t : ts_field c s t -> stamp_like s \/ rfc3339 c = true /\ rfc3339_like s.
Proof.
  intros [[p [H _]]|[Er [H Hd]]].
  - left. apply stamp_text_shape in H as [H _]. apply stamp_like_shape. eauto.
  - right. split; [exact Er|]. apply r3_like_shape. split; [|exact Hd]. exists t. exact (proj1 (proj1 (Ts5424.text_shape s t) H)).
Qed.
(* no text of the form of a timestamp begins with another one *)
Lemma like_prefix c s s' r : stamp_like s \/ rfc3339 c = true /\ rfc3339_like s -> stamp_like s' \/ rfc3339 c = true /\ rfc3339_like s' -> s' = s ++ r -> r = [].
Proof.
  intros H H' E. destruct (like_scan c s H) as [[a [w [E1 [Ha Hs]]]]|[_ [a [w [E1 [Ha Hs]]]]]]; destruct (like_scan c s' H') as [[a' [w' [E2 [Ha' Hs']]]]|[_ [a' [w' [E2 [Ha' Hs']]]]]].
  - specialize (Hs r). specialize (Hs' []). rewrite app_nil_r in Hs'. rewrite E, Hs in Hs'. injection Hs' as _ ->. reflexivity.
  - rewrite E1 in E. rewrite E2 in E. cbn [app] in E. injection E as -> _. apply digit_dig in Ha'. congruence.
  - rewrite E1 in E. rewrite E2 in E. cbn [app] in E. injection E as -> _. apply digit_dig in Ha. congruence.
  - subst s. rewrite E2 in E. cbn [app] in E. injection E as -> E. specialize (Hs r). specialize (Hs' []). rewrite app_nil_r in Hs'. rewrite E, Hs in Hs'. injection Hs' as _ ->. reflexivity.
Qed.
Lemma split_le (a b x y : bytes) : a ++ x = b ++ y -> (length a <= length b)%nat -> exists z, b = a ++ z /\ x = z ++ y.
Proof.
  revert b. induction a as [|u a IH]; intros b E Hl; [exists b; auto|]. destruct b as [|v b]; [cbn in Hl; lia|]. cbn [app] in E. injection E as <- E. destruct (IH b E) as [z [-> ->]]; [cbn [length] in Hl; lia|]. exists z. auto.
Qed.
(* an error about the timestamp: what was read of it can be completed to a text of the form of a timestamp; the input can be
   completed to an accepted one exactly when some date of the calendar begins in this way *)
Theorem timestamp3164_error_viable m data x k n : snd (parse m data) = Ret x (Some (PErr k n)) -> ts_error k = true ->
  exists pri p part bad ext, data = lit "<" ++ pri ++ lit ">" ++ part ++ bad /\ pri_text pri p /\ n = col (lit "<" ++ pri ++ lit ">" ++ part)
    /\ (k = ETimestamp /\ stamp_like (part ++ ext) \/ k = ERFC3339 /\ rfc3339 (config_of m) = true /\ rfc3339_like (part ++ ext) /\ (19 <= length part)%nat)
    /\ ((exists y msg, grammar (config_of m) (lit "<" ++ pri ++ lit ">" ++ part ++ y) msg) <-> exists y t, ts_field (config_of m) (part ++ y) t).
Proof.
  intros H Hk. destruct (rejected_fails m data x _ H) as [y [Hf _]]. clear H x. set (c := config_of m) in *. remember (Some (PErr k n)) as oe eqn:Eo.
  destruct Hf as [bad Hn|bad Hn|w0 v bad Hw Hn Hg|pri p good bad k' Hp Hf|pri p s bad Hp Hl Hd|pri p ts t w0 bad Hp Ht Hl Hn|pri p ts t host bad Hp Ht Hh Hn|pri p ts t host tail tag pid Hp Ht Hh Hf]; try discriminate; try (apply perr_inj in Eo as [<- <-]; discriminate).
  destruct k' as [k'|]; [|discriminate]. cbn [option_map] in Eo. apply perr_inj in Eo as [<- <-].
  assert (Hs : exists ext, ext <> [] /\ (k' = ETimestamp /\ stamp_like (good ++ ext) \/ k' = ERFC3339 /\ rfc3339 c = true /\ rfc3339_like (good ++ ext) /\ (19 <= length good)%nat)).
  { destruct (ts_fails_kind c good bad k' Hf) as [[-> [[ext [He Hs]] _]]|[-> [Er [Hl [[ext [He Hs]] _]]]]]; exists ext; auto 7. }
  destruct Hs as [ext [He Hs]]. exists pri, p, good, bad, ext. split; [reflexivity|]. split; [exact Hp|]. split; [reflexivity|]. split; [exact Hs|].
  assert (Hlike : stamp_like (good ++ ext) \/ rfc3339 c = true /\ rfc3339_like (good ++ ext)) by tauto.
  split.
  - intros [yy [msg Hg]]. apply spec_grammar in Hg as [o [E _]]. unfold spec3164 in E. change (lit "<" ++ pri ++ lit ">" ++ good ++ yy) with ("<"%byte :: pri ++ ">"%byte :: good ++ yy) in E. rewrite (p_pri_at _ pri p _ Hp) in E.
    apply p_ts_good in E as [ts [t [r [Er [Ht _]]]]]. destruct (Nat.le_gt_cases (length good) (length ts)) as [Hle|Hgt].
    + destruct (split_le _ _ _ _ Er Hle) as [z [-> _]]. eauto.
    + exfalso. symmetry in Er. destruct (split_le _ _ _ _ Er ltac:(lia)) as [z [-> _]]. rewrite <- app_assoc in Hlike. pose proof (like_prefix c ts _ (z ++ ext) (field_like c ts t Ht) Hlike eq_refl) as E. apply app_eq_nil in E as [_ E]. congruence.
  - intros [yy [t Ht]]. destruct (viable_host c pri p (good ++ yy) t [] Hp Ht (Forall_nil _) ltac:(cbn; lia)) as [e2 [msg Hg]]. exists (yy ++ lit " " ++ [] ++ e2), msg. rewrite <- !app_assoc in Hg. exact Hg.
Qed.
Definition best3164 : machine := new_machine true opts.
Example viable3164_ex : snd (parse best3164 (lit "<34>Oct 11 22:14:15 h" ++ ["009"%byte] ++ lit "x")) = Ret (Some (with_ts t0 (start 34))) (Some (PErr EHostname 21))
  /\ (exists ext msg, grammar opts (lit "<34>Oct 11 22:14:15 h" ++ ext) msg)
  /\ forall ext, snd (parse best3164 (lit "<34>Oct 11 22:14:15 h" ++ ["009"%byte] ++ ext)) = Ret (Some (with_ts t0 (start 34))) (Some (PErr EHostname 21)).
Proof.
  assert (H : snd (parse best3164 (lit "<34>Oct 11 22:14:15 h" ++ ["009"%byte] ++ lit "x")) = Ret (Some (with_ts t0 (start 34))) (Some (PErr EHostname 21))) by (vm_compute; reflexivity).
  split; [exact H|]. split; [exact (parse3164_error_viable best3164 _ _ _ _ H eq_refl)|]. intros ext. exact (parse3164_error_farthest best3164 _ _ _ 22 ext H ltac:(reflexivity) ltac:(vm_compute; lia)).
Qed.
(* why timestamps are excepted: no date begins with "Feb 3", but the error comes at the byte after it *)
Example timestamp3164_not_viable : snd (parse best3164 (lit "<34>Feb 3x")) = Ret (Some (start 34)) (Some (PErr ETimestamp 9)) /\ ~ exists y t, ts_field opts (lit "Feb 3" ++ y) t.
Proof.
  split; [vm_compute; reflexivity|]. intros [y [t [[p [[mon [dd [hh [mi [ss [E [Hm [Hd _]]]]]]]] _]]|[_ Hr]]]].
  - change (lit "Feb 3" ++ y) with ("F" :: "e" :: "b" :: " " :: "3" :: y)%byte in E. destruct (mon_cases _ _ Hm) as [a [b [c [-> _]]]]. change (lit " ") with [" "%byte] in E. cbn [app] in E. injection E as <- <- <- E.
    assert (Hs : sp_month p = 2) by (cbn [In month_names] in Hm; repeat (destruct Hm as [Hm|Hm]; [first [discriminate Hm|injection Hm as <-; reflexivity]|]); destruct Hm). rewrite Hs in Hd. change (month_length 2 0) with 29 in Hd.
    destruct (day_cases _ _ _ Hd) as [a [b [-> [Hb [_ [[-> _]|[_ [Hx Hv]]]]]]]]; cbn [app] in E; [discriminate|]. injection E as <- _. change (dv "3") with 3 in Hv. pose proof (digit_dv b Hb). lia.
  - destruct (r3_text_head _ t Hr) as [a [w [E Ha]]]. change (lit "Feb 3" ++ y) with ("F" :: "e" :: "b" :: " " :: "3" :: y)%byte in E. injection E as <- _. discriminate Ha.
Qed.
