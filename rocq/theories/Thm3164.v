(* The theorems about the RFC 3164 parser (properties C26-C35). *)
From Verif Require A5424 Spec5424 Ref5424a Utf8 Ts5424 Gram5424 Loc5424 Props5424.
From Verif Require Import Bytes GoTime Cal Common CommonFacts GotoLang M3164Def A3164 M3164 Spec3164 Ref3164 Grammar3164 Gram3164.
Local Open Scope Z_scope.

(* C26: Parse returns, on every machine (whatever it parsed before, whatever its options) and every input *)
Theorem parse3164_total m data : exists r e, snd (parse m data) = Ret r e.
Proof. rewrite (proj1 (parse_spec m data)). destruct (spec3164 (config_of m) data) as [o|[o|] e]; cbn [ret_of]; eauto. Qed.
Theorem parser3164_total m data : exists r e, snd (parser_parse m data) = Ret r e.
Proof.
  unfold parser_parse. destruct (parse3164_total m data) as [r [e H]]. destruct (parse m data) as [m' x]. cbn [snd] in H. subst x. destruct e; [destruct (bestEffort m)|]; cbn [snd]; eauto.
Qed.

(* C27, C29: a message without error iff the input is in the grammar, and then it is the message the grammar gives *)
Theorem parse3164_accepts_grammar m data msg :
  bestEffort m = false -> snd (parse m data) = Ret (Some msg) None <-> grammar (config_of m) data msg.
Proof.
  intros Hb. rewrite (proj1 (parse_spec m data)), Hb, <- spec_grammar. destruct (spec3164 (config_of m) data) as [o|[o|] e]; cbn [ret_of]; split.
  - intros H. injection H as <-. eauto.
  - intros [o' [H <-]]. injection H as <-. reflexivity.
  - discriminate.
  - intros [o' [H _]]. discriminate.
  - discriminate.
  - intros [o' [H _]]. discriminate.
Qed.
Theorem parse3164_grammar_accepted m data msg : grammar (config_of m) data msg -> snd (parse m data) = Ret (Some msg) None.
Proof. intros H. rewrite (proj1 (parse_spec m data)). apply spec_grammar in H as [o [-> <-]]. reflexivity. Qed.
Theorem grammar3164_unambiguous c data m1 m2 : grammar c data m1 -> grammar c data m2 -> m1 = m2.
Proof. rewrite <- !spec_grammar. intros [o1 [H1 <-]] [o2 [H2 <-]]. congruence. Qed.

(* ---- scans ---- *)
Section Scan2.
Variable next : N -> N -> option N.
Variable fin : N.
Lemma scan_stop l : forall n w m, n <> fin -> scan next fin n l = SStop w m ->
  exists r, l = w ++ r /\ srun next n w = Some m /\ (r = [] \/ exists b r', r = b :: r' /\ next m (bN b) = None) /\ m <> fin.
Proof.
  induction l as [|b l IH]; intros n w m Hn; cbn [scan].
  - intros H. injection H as <- <-. exists []. auto.
  - destruct (next n (bN b)) as [k|] eqn:E.
    + destruct (k =? fin)%N eqn:Ek; [discriminate|]. apply N.eqb_neq in Ek. destruct (scan next fin k l) as [|w0 m0] eqn:Es; cbn [scons]; [discriminate|].
      intros H. injection H as <- <-. destruct (IH k w0 m0 Ek Es) as [r [-> [H1 H2]]]. exists r. split; [reflexivity|]. split; [|exact H2]. cbn [srun]. rewrite E. exact H1.
    + intros H. injection H as <- <-. exists (b :: l). split; [reflexivity|]. split; [reflexivity|]. split; [|exact Hn]. right. eauto.
Qed.
Lemma srun_app n a b : srun next n (a ++ b) = match srun next n a with Some m => srun next m b | None => None end.
Proof. revert n. induction a as [|x a IH]; intros n; [reflexivity|]. cbn [app srun]. destruct (next n (bN x)); [apply IH|reflexivity]. Qed.
End Scan2.
Definition level (n : N) : nat :=
  if (n <=? 318)%N then N.to_nat (n - 300) else if (n =? 329)%N then 5%nat else if ((n =? 327) || (n =? 328))%N then 8%nat else if (n =? 326)%N then 11%nat else 18%nat.
Definition level_check : bool := forallb (fun n => (Bool.eqb (r3_loud n) ((18 <=? level n)%nat && negb (n =? 324)%N)) && forallb (fun b => match r3_next n (bN b) with Some m => Nat.leb (Nat.min 18 (S (level n))) (level m) && (Nat.leb (level m) (S (level n))) && existsb (N.eqb m) r3_states | None => true end) all_bytes) r3_states.
Lemma level_check_ok : level_check = true. Proof. vm_compute. reflexivity. Qed.
Lemma level_step n b m : In n r3_states -> r3_next n (bN b) = Some m -> In m r3_states /\ (Nat.min 18 (S (level n)) <= level m <= S (level n))%nat.
Proof.
  intros Hn E. pose proof level_check_ok as H. unfold level_check in H. eapply forallb_forall in H; [|exact Hn]. apply andb_true_iff in H as [_ H].
  pose proof (forall_bytes _ H b) as Hb. cbn beta in Hb. rewrite E in Hb. apply andb_true_iff in Hb as [Hb H3]. apply andb_true_iff in Hb as [H1 H2].
  apply Nat.leb_le in H1, H2. apply existsb_exists in H3 as [x [H3 Hx]]. apply N.eqb_eq in Hx. subst x. split; [exact H3|lia].
Qed.
Lemma loud_level n : In n r3_states -> n <> 324%N -> r3_loud n = (18 <=? level n)%nat.
Proof.
  intros Hn Hf. pose proof level_check_ok as H. unfold level_check in H. eapply forallb_forall in H; [|exact Hn]. apply andb_true_iff in H as [H _].
  apply Bool.eqb_prop in H. rewrite H. replace (n =? 324)%N with false by (symmetry; apply N.eqb_neq; exact Hf). rewrite andb_true_r. reflexivity.
Qed.
Lemma level_run w : forall n m, In n r3_states -> srun r3_next n w = Some m -> In m r3_states /\ (Nat.min 18 (length w + level n) <= level m <= length w + level n)%nat.
Proof.
  induction w as [|b w IH]; intros n m Hn H; cbn [srun] in H.
  - injection H as <-. split; [exact Hn|]. cbn [length]. lia.
  - destruct (r3_next n (bN b)) as [k|] eqn:E; [|discriminate]. destruct (level_step n b k Hn E) as [Hk Hl]. destruct (IH k m Hk H) as [A B]. split; [exact A|]. cbn [length]. lia.
Qed.
(* every state can reach the end *)
Definition finish (n : N) : bytes :=
  (if n =? 318 then lit "Z" else if (n =? 319) then lit "00:00" else if (n =? 320) || (n =? 325) then lit "0:00" else if n =? 321 then lit ":00" else if n =? 322 then lit "00" else lit "0")%N.
Definition finish_check : bool := forallb (fun n => if r3_loud n then match srun r3_next n (finish n) with Some k => (k =? 324)%N | _ => false end else true) r3_states.
Lemma finish_ok n : In n r3_states -> r3_loud n = true -> srun r3_next n (finish n) = Some 324%N.
Proof.
  intros Hn Hl. assert (H : finish_check = true) by (vm_compute; reflexivity). unfold finish_check in H. eapply forallb_forall in H; [|exact Hn]. cbn beta in H. rewrite Hl in H.
  destruct (srun r3_next n (finish n)) as [k|]; [|discriminate]. apply N.eqb_eq in H. rewrite H. reflexivity.
Qed.

(* ---- shapes ---- *)
Lemma stamp_like_shape s : stamp_like s <-> exists p, stamp_shape s p.
Proof.
  split.
  - intros [mon [dd [hh [mi [ss [mo [d [h [m [sec H]]]]]]]]]]. exists (Stamp mo d h m sec), mon, dd, hh, mi, ss. exact H.
  - intros [p [mon [dd [hh [mi [ss H]]]]]]. exists mon, dd, hh, mi, ss, (sp_month p), (sp_day p), (sp_hour p), (sp_min p), (sp_sec p). exact H.
Qed.
Lemma digits_no_dot n s lo hi v : num n s lo hi v -> ~ In "."%byte s.
Proof. intros [_ [H _]] Hin. rewrite Forall_forall in H. specialize (H _ Hin). unfold digit in H. cbn in H. lia. Qed.
Lemma zone_no_dot zo off : Grammar5424.zone_text zo off -> ~ In "."%byte zo.
Proof.
  destruct 1 as [|hh mm h m H1 H2|hh mm h m H1 H2]; [cbn; intuition discriminate|..]; apply digits_no_dot in H1, H2;
    rewrite !in_app_iff; cbn; intuition discriminate.
Qed.
Lemma r3_like_shape s : rfc3339_like s <-> (exists t, Ts5424.ts_shape s t) /\ ~ In "."%byte s.
Proof.
  split.
  - intros [yyyy [mm [dd [hh [mi [ss [zo [y [mo [d [h [m [sec [off [-> [H1 [H2 [H3 [H4 [H5 [H6 H7]]]]]]]]]]]]]]]]]]]]]. split.
    + exists (Time y mo d h m sec 0 off), yyyy, mm, dd, hh, mi, ss, [], zo. repeat (split; [reflexivity || assumption|]). split; [constructor|exact H7].
    + apply digits_no_dot in H1, H2, H3, H4, H5, H6. apply zone_no_dot in H7. rewrite !in_app_iff. cbn. intuition discriminate.
  - intros [[t [yyyy [mm [dd [hh [mi [ss [fr [zo [-> [H1 [H2 [H3 [H4 [H5 [H6 [Hf H7]]]]]]]]]]]]]]]]] Hd].
    destruct Hf as [|ds Hl Hds]; [|exfalso; apply Hd; rewrite !in_app_iff; cbn; tauto].
    exists yyyy, mm, dd, hh, mi, ss, zo, (t_year t), (t_month t), (t_day t), (t_hour t), (t_min t), (t_sec t), (t_off t). auto 10.
Qed.
Lemma r3_like_run a w : digit a -> (rfc3339_like (a :: w) <-> srun r3_next 300 w = Some 324%N).
Proof.
  assert (H300 : In 300%N r3_states) by (left; reflexivity).
  intros Ha. rewrite r3_like_shape, (r3_ts w 300 H300). change (ren 300) with 554%N. split.
  - intros [[t Ht] Hd]. destruct (Ts5424.shape_run _ t Ht) as [a' [w' [E [_ [Hr _]]]]]. injection E as <- <-. split; [exact Hr|]. intros E. apply Hd. right. exact E.
  - intros [Hr Hd]. split; [apply Ts5424.run_shape; assumption|]. intros [E|E]; [subst a; unfold digit in Ha; cbn in Ha; lia|exact (Hd E)].
Qed.
Lemma r3_like_head s : rfc3339_like s -> exists a w, s = a :: w /\ digit a /\ w <> [].
Proof. intros H. apply r3_like_shape in H as [[t Ht] _]. destruct (Ts5424.shape_run _ t Ht) as [a [w [-> [Ha [_ Hw]]]]]. eauto. Qed.

(* ---- the stages on given texts ---- *)
Lemma no_space (r' : bytes) : (forall x, r' <> lit " " ++ x) -> r' = [] \/ exists b r, r' = b :: r /\ is 32 b = false.
Proof.
  destruct r' as [|b r]; [auto|]. intros H. right. exists b, r. split; [reflexivity|]. destruct (is 32 b) eqn:E; [|reflexivity].
  apply (is_at 32 b " "%byte eq_refl) in E. subst b. destruct (H r eq_refl).
Qed.
Lemma p_ts_at c k o p s t r : ts_field c s t -> p_ts c k o p (s ++ " "%byte :: r) = k (set_ts t o) (p + len s + 1) r.
Proof.
  intros [[sp [Hs ->]]|[Er Hs]].
  - destruct (proj2 (stamp_accept (s ++ " "%byte :: r) (" "%byte :: r) sp)) as [w [Es Ep]]; [eauto|].
    pose proof Es as Es'. apply (scan_run st_next 19 ltac:(reflexivity)) in Es' as [El' _]. apply app_inv_tail in El'. subst w.
    destruct (stamp_text_head s sp Hs) as [a [w [-> Ha]]]. unfold p_ts. cbn [app] in *. rewrite Ha. cbn [andb]. rewrite Es. change (is 32 " ") with true. cbv iota. rewrite Ep, stamp_time_value. reflexivity.
  - destruct (r3_text_head s t Hs) as [a [w [-> Ha]]].
    destruct (proj2 (r3_accept a (w ++ " "%byte :: r) (" "%byte :: r) t)) as [w' [_ [Es Ep]]]; [exists (a :: w); auto|].
    pose proof Es as Es'. apply (scan_run r3_next 324 ltac:(reflexivity)) in Es' as [El' _]. apply app_inv_tail in El'. subst w'.
    unfold p_ts. cbn [app]. rewrite Ha, Er. cbn [andb]. rewrite Es. change (is 32 " ") with true. cbv iota. rewrite Ep. reflexivity.
Qed.
Lemma stamp_like_head s : stamp_like s -> exists a w, s = a :: w /\ is_dig (bN a) = false.
Proof.
  intros [mon [dd [hh [mi [ss [mo [d [h [m [sec [-> [Hm _]]]]]]]]]]]]. cbn [In month_names] in Hm.
  repeat (destruct Hm as [Hm|Hm]; [injection Hm as <- _; eexists _, _; split; reflexivity|]). destruct Hm.
Qed.
Lemma digit_dig a : digit a <-> is_dig (bN a) = true.
Proof. unfold digit, is_dig, A5424.is_dig, A5424.btw. rewrite andb_true_iff, !N.leb_le. tauto. Qed.
Lemma p_ts_nospace c k o p s r' : stamp_like s \/ rfc3339 c = true /\ rfc3339_like s -> (forall x, r' <> lit " " ++ x) ->
  p_ts c k o p (s ++ r') = PBad (Some o) None.
Proof.
  intros Hs Hn. apply no_space in Hn. destruct Hs as [Hs|[Er Hs]].
  - destruct (stamp_like_head s Hs) as [a [w [Ea Hd]]]. apply stamp_like_shape in Hs as [sp Hs]. destruct (shape_srun s sp Hs) as [Hw Hr].
    assert (Es : scan st_next 19 4 (s ++ r') = SDone s r') by (apply (scan_run st_next 19 ltac:(reflexivity)); auto).
    unfold p_ts. rewrite Es, Ea. cbn [app]. rewrite Hd. cbn [andb]. destruct Hn as [->|[b [r [-> Hb]]]]; [reflexivity|]. rewrite Hb. reflexivity.
  - destruct (r3_like_head s Hs) as [a [w [-> [Ha Hw]]]]. apply (r3_like_run a w Ha) in Hs.
    assert (Es : scan r3_next 324 300 (w ++ r') = SDone w r') by (apply (scan_run r3_next 324 ltac:(reflexivity)); auto).
    unfold p_ts. cbn [app]. apply digit_dig in Ha. rewrite Ha, Er, Es. cbn [andb]. destruct Hn as [->|[b [r [-> Hb]]]]; [reflexivity|]. rewrite Hb. reflexivity.
Qed.
Lemma firstn_cons_inv n (a b : byte) l l' : firstn (S n) (a :: l) = firstn (S n) (b :: l') -> a = b /\ firstn n l = firstn n l'.
Proof. cbn [firstn]. intros H. injection H as -> H. auto. Qed.
Lemma H300 : In 300%N r3_states. Proof. left. reflexivity. Qed.
Lemma quiet_stop d r0 w n : digit d -> scan r3_next 324 300 r0 = SStop w n ->
  (r3_loud n = false <-> forall s, rfc3339_like s -> firstn 19 s <> firstn 19 (d :: r0)).
Proof.
  intros Hd Es. apply scan_stop in Es as [r [-> [Hr [Hor Hf]]]]; [|discriminate]. destruct (level_run w 300 n H300 Hr) as [Hn Hl]. change (level 300) with 0%nat in Hl.
  rewrite (loud_level n Hn Hf), Nat.leb_gt. split.
  - intros Hlt s Hs E. destruct (r3_like_head s Hs) as [a [w' [-> [Ha _]]]]. apply firstn_cons_inv in E as [-> E]. apply (r3_like_run d w' Hd) in Hs.
    destruct (level_run w' 300 324 H300 Hs) as [_ Hl']. change (level 324) with 18%nat in Hl'. change (level 300) with 0%nat in Hl'.
    assert (Hw : w' = w ++ skipn (length w) w').
    { assert (E2 : firstn (length w) w' = w); [|rewrite <- E2 at 1; symmetry; apply firstn_skipn].
      apply (f_equal (firstn (length w))) in E. rewrite !firstn_firstn in E. rewrite !Nat.min_l in E by lia. rewrite E, firstn_app, Nat.sub_diag, firstn_all, app_nil_r. reflexivity. }
    destruct Hor as [->|[b [r' [-> Hb]]]].
    + apply (f_equal (@length byte)) in E. rewrite !firstn_length, app_nil_r in E. lia.
    + rewrite Hw in Hs, E. rewrite (srun_app r3_next) in Hs. rewrite Hr in Hs. destruct (skipn (length w) w') as [|c v]; [cbn in Hs; congruence|].
      replace 18%nat with (length w + S (17 - length w))%nat in E by lia. rewrite !firstn_app_2 in E. apply app_inv_head in E. apply firstn_cons_inv in E as [-> _].
      cbn [srun] in Hs. rewrite Hb in Hs. discriminate.
  - intros H. destruct (Nat.lt_ge_cases (level n) 18) as [Hlt|Hge]; [exact Hlt|]. exfalso.
    assert (Hloud : r3_loud n = true) by (rewrite (loud_level n Hn Hf); apply Nat.leb_le; exact Hge).
    apply (H (d :: w ++ finish n)).
    + apply (r3_like_run d _ Hd). rewrite (srun_app r3_next). rewrite Hr. exact (finish_ok n Hn Hloud).
    + change 19%nat with (S 18). rewrite !firstn_cons. f_equal. rewrite !firstn_app. replace (18 - length w)%nat with 0%nat by lia. reflexivity.
Qed.
Definition quiet_digits (c : config) (r : bytes) : Prop :=
  rfc3339 c = true /\ (exists d r', r = d :: r' /\ digit d) /\ forall s, rfc3339_like s -> firstn 19 s <> firstn 19 r.
Definition no_space_after (c : config) (r : bytes) : Prop :=
  exists s r', r = s ++ r' /\ (stamp_like s \/ rfc3339 c = true /\ rfc3339_like s) /\ forall x, r' <> lit " " ++ x.
Lemma p_ts_quiet c k o p r : quiet_digits c r -> p_ts c k o p r = PBad (Some o) None.
Proof.
  intros [Er [[d [r0 [-> Hd]]] H]]. unfold p_ts. rewrite Er, (proj1 (digit_dig d) Hd). cbn [andb].
  destruct (scan r3_next 324 300 r0) as [w r|w n] eqn:Es.
  - exfalso. pose proof Es as Es'. apply (scan_run r3_next 324 ltac:(reflexivity)) in Es' as [-> [_ Hw]].
    apply (H (d :: w)); [apply (r3_like_run d w Hd); exact Hw|]. destruct (level_run w 300 324 H300 Hw) as [_ Hl]. change (level 324) with 18%nat in Hl. change (level 300) with 0%nat in Hl.
    change 19%nat with (S 18). rewrite !firstn_cons. f_equal. rewrite firstn_app. replace (18 - length w)%nat with 0%nat by lia. cbn [firstn]. rewrite app_nil_r. reflexivity.
  - rewrite (proj2 (quiet_stop d r0 w n Hd Es) H). reflexivity.
Qed.
Lemma p_ts_cases c o p r :
  (exists s t r', r = s ++ " "%byte :: r' /\ ts_field c s t) \/ no_space_after c r \/ quiet_digits c r \/ exists e, forall k', p_ts c k' o p r = PBad (Some o) (Some e).
Proof.
  assert (Hst : forall l, (exists s t r', l = s ++ " "%byte :: r' /\ ts_field c s t) \/ no_space_after c l \/ exists e, forall k', match scan st_next 19 4 l with
       | SDone w (b :: r') => if is 32 b then match parse_stamp w with Some s => k' (set_ts (stamp_time c s) o) (p + len w + 1) r' | None => PBad (Some o) (Some (PTime w (p + len w))) end else PBad (Some o) None
       | SDone w [] => PBad (Some o) None
       | SStop w _ => PBad (Some o) (Some (PErr ETimestamp (p + len w))) end = PBad (Some o) (Some e)).
  { intros l. destruct (scan st_next 19 4 l) as [w r'|w n] eqn:Es; [|right; right; eauto].
    pose proof Es as Es'. apply (scan_run st_next 19 ltac:(reflexivity)) in Es' as [-> [_ Hw]]. destruct (run_stamp w Hw) as [sp Hsp].
    destruct r' as [|b r'].
    - right. left. exists w, []. split; [reflexivity|]. split; [left; apply stamp_like_shape; eauto|]. intros x. discriminate.
    - destruct (is 32 b) eqn:Eb.
      + destruct (parse_stamp w) as [q|] eqn:Ep; [|right; right; eauto]. left. apply (is_at 32 b " "%byte eq_refl) in Eb. subst b.
        destruct (proj1 (stamp_accept (w ++ " "%byte :: r') (" "%byte :: r') q)) as [s [El Hs]]; [eauto|]. apply app_inv_tail in El. subst s.
        exists w, (stamp_value c q), r'. split; [reflexivity|]. left. eauto.
      + right. left. exists w, (b :: r'). split; [reflexivity|]. split; [left; apply stamp_like_shape; eauto|]. intros x E. injection E as -> _. discriminate. }
  destruct r as [|d r0].
  - destruct (Hst []) as [H|[H|[e H]]]; [auto|auto|]. right. right. right. exists e. intros k'. specialize (H k'). unfold p_ts. destruct (scan st_next 19 4 []) as [w [|? ?]|]; exact H.
  - destruct (is_dig (bN d) && rfc3339 c) eqn:Ed.
    2: { destruct (Hst (d :: r0)) as [H|[H|[e H]]]; [auto|auto|]. right. right. right. exists e. intros k'. specialize (H k'). unfold p_ts. rewrite Ed. destruct (scan st_next 19 4 (d :: r0)) as [w [|? ?]|]; exact H. }
    pose proof Ed as Ed'. apply andb_true_iff in Ed as [Ed Er]. apply digit_dig in Ed.
    destruct (scan r3_next 324 300 r0) as [w r'|w n] eqn:Es.
    + pose proof Es as Es'. apply (scan_run r3_next 324 ltac:(reflexivity)) in Es' as [-> [_ Hw]].
      assert (Hlike : rfc3339_like (d :: w)) by (apply (r3_like_run d w Ed); exact Hw).
      destruct r' as [|b r'].
      * right. left. exists (d :: w), []. split; [reflexivity|]. split; [right; auto|]. intros x. discriminate.
      * destruct (is 32 b) eqn:Eb.
        -- destruct (parse_rfc3339 (d :: w)) as [t|] eqn:Ep.
           ++ left. apply (is_at 32 b " "%byte eq_refl) in Eb. subst b.
              destruct (proj1 (r3_accept d (w ++ " "%byte :: r') (" "%byte :: r') t)) as [s [El Hs]]; [exists w; split; [apply digit_dig; exact Ed|auto]|].
              change (d :: w ++ " "%byte :: r') with ((d :: w) ++ " "%byte :: r') in El. apply app_inv_tail in El. subst s.
              exists (d :: w), t, r'. split; [reflexivity|]. right. auto.
           ++ right. right. right. eexists. intros k'. unfold p_ts. rewrite Ed', Es, Eb, Ep. reflexivity.
        -- right. left. exists (d :: w), (b :: r'). split; [reflexivity|]. split; [right; auto|]. intros x E. injection E as -> _. discriminate.
    + destruct (r3_loud n) eqn:El.
      * right. right. right. eexists. intros k'. unfold p_ts. rewrite Ed', Es, El. reflexivity.
      * right. right. left. split; [exact Er|]. split; [eauto|]. apply (quiet_stop d r0 w n Ed Es). exact El.
Qed.
Lemma p_host_at k o p w r : word 255 w -> p_host k o p (w ++ " "%byte :: r) = k (set_o_hostname w o) (p + len w + 1) r.
Proof.
  intros [Hl Hw]. unfold p_host. rewrite Gram5424.span_exact; [|eapply Forall_impl; [|exact Hw]; intros c; apply Gram5424.printable_graph|lia|reflexivity].
  destruct w as [|a w]; [cbn in Hl; lia|]. reflexivity.
Qed.
Lemma p_host_cases o p r : (exists w r', r = w ++ " "%byte :: r' /\ word 255 w) \/ exists e, forall k', p_host k' o p r = PBad (Some o) (Some e).
Proof.
  unfold p_host. pose proof (Ref5424a.span_app is_graph 255 r) as Ha. pose proof (Ref5424a.span_all is_graph 255 r) as H1. pose proof (Ref5424a.span_len is_graph 255 r) as H2.
  destruct (span_max is_graph 255 r) as [w r']. cbn [fst snd] in *. destruct w as [|a w]; [right; eauto|]. destruct r' as [|b r']; [right; eauto|]. destruct (is 32 b) eqn:Eb; [|right; eauto].
  left. apply (is_at 32 b " "%byte eq_refl) in Eb. subst b. exists (a :: w), r'. split; [exact Ha|]. split; [cbn [length] in *; lia|]. eapply Forall_impl; [|exact H1]. intros c. apply Gram5424.printable_graph.
Qed.
Lemma p_cont_bad r : forall bad k o w x e, p_cont bad k o w r = PBad x e -> e = None /\ exists o', x = Some o'.
Proof.
  induction r as [|b r IH]; intros bad k o w x e; cbn [p_cont].
  - destruct bad; [|discriminate]. intros H. injection H as <- <-. eauto.
  - destruct (is 93 b); [destruct k as [|[|[|[|?]]]]; apply IH|]. destruct (is_ctl (bN b)); [apply IH|]. destruct k as [|[|[|[|?]]]]; apply IH.
Qed.
Lemma p_text_bad o f r x e : p_text o f r = PBad x e -> e = None /\ exists o', x = Some o'.
Proof. unfold p_text. destruct (has_ctl r); [|discriminate]. intros H. injection H as <- <-. eauto. Qed.
Lemma p_msg_bad o p b s : ~ control b -> forall x e, p_msg o p (b :: s) = PBad x e -> e = None /\ exists o', x = Some o'.
Proof.
  intros Hb x e. unfold p_msg. apply ctl_false in Hb. rewrite Hb. destruct (span_max is_tagc 32 (b :: s)) as [w r]. destruct w as [|a w]; [destruct r; apply p_text_bad|].
  destruct r as [|c r]; [apply p_text_bad|]. destruct (is 58 c).
  { destruct r as [|d r]; [apply p_text_bad|]. destruct r as [|f r]; [apply p_text_bad|]. destruct (is 32 d); apply p_text_bad. }
  destruct (is 91 c); [|apply p_text_bad]. destruct r as [|d r]; [discriminate|]. apply p_cont_bad.
Qed.
Lemma p_msg_loud o p s : s = [] \/ (exists b s', s = b :: s' /\ control b) -> p_msg o p s = PBad (Some o) (Some (PErr ETag p)).
Proof. intros [->|[b [s' [-> Hb]]]]; [reflexivity|]. unfold p_msg. apply ctl_control in Hb. rewrite Hb. reflexivity. Qed.
Lemma control_dec b : control b \/ ~ control b.
Proof. destruct (is_ctl (bN b)) eqn:E; [left; apply ctl_control|right; apply ctl_false]; exact E. Qed.

Theorem spec_silent c data : (exists x, spec3164 c data = PBad x None) <-> silently_rejected c data.
Proof.
  split.
  - intros [x H]. unfold spec3164 in H. destruct (p_pri_inv (p_ts c (p_host p_msg)) data) as [[pri [v [r [-> [Hp E]]]]]|[y [e [E _]]]]; rewrite E in H; [clear E|discriminate].
    exists pri, v, r. split; [reflexivity|]. split; [exact Hp|].
    destruct (p_ts_cases c (pri_msg v) (len pri + 2) r) as [[s [t [r' [-> Ht]]]]|[Hn|[Hq|[e He]]]]; [|left; exact Hn|right; left; exact Hq|rewrite He in H; discriminate].
    right. right. rewrite (p_ts_at c _ _ _ s t r' Ht) in H.
    match type of H with p_host _ ?o ?p _ = _ => destruct (p_host_cases o p r') as [[w [tail [-> Hw]]]|[e He]]; [|rewrite He in H; discriminate] end.
    rewrite (p_host_at _ _ _ w tail Hw) in H. destruct tail as [|b tail]; [discriminate|].
    assert (Hb : ~ control b). { intros Hb. rewrite p_msg_loud in H by eauto. discriminate. }
    exists s, t, w, b, tail. split; [reflexivity|]. split; [exact Ht|]. split; [exact Hw|]. split; [exact Hb|].
    intros tag pid text Hm. match type of H with p_msg ?o ?p ?s = _ => assert (G : exists o', p_msg o p s = PGood o') by (eexists; apply p_msg_good; [reflexivity|reflexivity|]; exists tag, pid, text; split; [exact Hm|reflexivity]) end.
    destruct G as [o' G]. rewrite G in H. discriminate.
  - intros [pri [v [r [-> [Hp Hor]]]]]. unfold spec3164.
    assert (E := p_pri_at (p_ts c (p_host p_msg)) pri v r Hp). change (lit "<" ++ pri ++ lit ">" ++ r) with ("<"%byte :: pri ++ ">"%byte :: r). rewrite E. clear E.
    destruct Hor as [[s [r' [-> [Hs Hn]]]]|[Hq|[ts [t [host [b [tail [-> [Ht [Hw [Hb Hm]]]]]]]]]]].
    + exists (Some (pri_msg v)). apply p_ts_nospace; assumption.
    + exists (Some (pri_msg v)). apply p_ts_quiet. exact Hq.
    + change (ts ++ lit " " ++ host ++ lit " " ++ b :: tail) with (ts ++ " "%byte :: host ++ " "%byte :: b :: tail).
      rewrite (p_ts_at c _ _ _ ts t _ Ht), (p_host_at _ _ _ host _ Hw).
      match goal with |- exists x, p_msg ?o ?p ?s = _ => destruct (p_msg o p s) as [o'|x e] eqn:E end.
      * apply p_msg_good in E as [tag [pid [text [E _]]]]; [|reflexivity..]. destruct (Hm _ _ _ E).
      * destruct (p_msg_bad _ _ b tail Hb x e E) as [-> _]. eauto.
Qed.

(* C28: the inputs for which neither a message nor an error is returned *)
Theorem parse3164_silent_iff m data : bestEffort m = false ->
  snd (parse m data) = Ret None None <-> silently_rejected (config_of m) data.
Proof.
  intros Hb. rewrite (proj1 (parse_spec m data)), Hb, <- spec_silent. destruct (spec3164 (config_of m) data) as [o|[o|] e]; cbn [ret_of]; split.
  - discriminate.
  - intros [x H]. discriminate.
  - intros H. injection H as ->. eauto.
  - intros [x H]. injection H as _ ->. reflexivity.
  - intros H. injection H as ->. eauto.
  - intros [x H]. injection H as _ ->. reflexivity.
Qed.
(* best effort: then a message without an error comes back although the input is not in the grammar *)
Theorem parse3164_best_no_error_iff m data : bestEffort m = true ->
  (exists r, snd (parse m data) = Ret r None) <-> (exists msg, grammar (config_of m) data msg) \/ silently_rejected (config_of m) data.
Proof.
  intros Hb. rewrite (proj1 (parse_spec m data)), Hb, <- spec_silent.
  assert (G : (exists msg, grammar (config_of m) data msg) <-> exists o, spec3164 (config_of m) data = PGood o).
  { split; [intros [msg H]; apply spec_grammar in H as [o [H _]]; eauto|intros [o H]; exists (export o); apply spec_grammar; eauto]. }
  rewrite G. destruct (spec3164 (config_of m) data) as [o|[o|] e]; cbn [ret_of]; split; try (intros _; eauto; fail).
  - intros [r H]. injection H as _ ->. eauto.
  - intros [[o' H]|[x H]]; [discriminate|]. injection H as _ ->. eauto.
  - intros [r H]. injection H as _ ->. eauto.
  - intros [[o' H]|[x H]]; [discriminate|]. injection H as _ ->. eauto.
Qed.
Definition strict3164 : machine := new_machine false plain.
(* the full claim of C28, "no message means an error", fails *)
Theorem parse3164_no_error_no_message_refuted :
  snd (parse strict3164 (lit "<34>Oct 11 22:14:15")) = Ret None None
  /\ snd (parse strict3164 (lit "<34>Oct 11 22:14:15Z h su: x")) = Ret None None
  /\ snd (parse strict3164 (lit "<34>Oct 11 22:14:15 h su: x" ++ ["010"%byte])) = Ret None None
  /\ snd (parse (new_machine false (Config 0 true None None)) (lit "<34>2003-13-01T00:00:00Z h su: x")) = Ret None None.
Proof. vm_compute. auto. Qed.

(* ---- C29: header fields ---- *)
Definition hdr_text (c : config) (pri ts host tail : bytes) (p : Z) (t : time) (data : bytes) : Prop :=
  data = lit "<" ++ pri ++ lit ">" ++ ts ++ lit " " ++ host ++ lit " " ++ tail /\ pri_text pri p /\ ts_field c ts t /\ word 255 host.
Lemma spec_hdr c pri ts host tail p t data : hdr_text c pri ts host tail p t data ->
  spec3164 c data = p_msg (set_o_hostname host (set_ts t (pri_msg p))) (len pri + 2 + len ts + 1 + len host + 1) tail.
Proof.
  intros [-> [Hp [Ht Hw]]]. unfold spec3164. change (lit "<" ++ pri ++ lit ">" ++ ts ++ lit " " ++ host ++ lit " " ++ tail) with ("<"%byte :: pri ++ ">"%byte :: ts ++ " "%byte :: host ++ " "%byte :: tail).
  rewrite (p_pri_at _ pri p _ Hp), (p_ts_at c _ _ _ ts t _ Ht), (p_host_at _ _ _ host _ Hw). reflexivity.
Qed.
(* the result, also when it is a partial message, has the header fields o has *)
Definition keeps (o o' : msg3164) : Prop :=
  o_prioritySet o' = o_prioritySet o /\ o_priority o' = o_priority o /\ o_timestampSet o' = o_timestampSet o /\ o_timestamp o' = o_timestamp o /\ o_hostname o' = o_hostname o.
Definition kept (o : msg3164) (r : pres) : Prop := match r with PGood o' | PBad (Some o') _ => keeps o o' | PBad None _ => False end.
Lemma keeps_refl o : keeps o o. Proof. repeat split. Qed.
Lemma kept_tag w o r : kept (set_o_tag w o) r -> kept o r.
Proof. destruct o; exact (fun H => H). Qed.
Lemma kept_content w o r : kept (set_o_content w o) r -> kept o r.
Proof. destruct o; exact (fun H => H). Qed.
Lemma p_text_kept o f r : kept o (p_text o f r).
Proof. unfold p_text. destruct (has_ctl r); destruct o; repeat split. Qed.
Lemma p_cont_kept r : forall bad k o w, kept o (p_cont bad k o w r).
Proof.
  induction r as [|b r IH]; intros bad k o w; cbn [p_cont].
  - destruct bad; destruct o; repeat split.
  - destruct (is 93 b); [destruct k as [|[|[|[|?]]]]; apply (kept_content w); apply IH|]. destruct (is_ctl (bN b)); [apply IH|]. destruct k as [|[|[|[|?]]]]; apply IH.
Qed.
Lemma p_msg_kept o p s : kept o (p_msg o p s).
Proof.
  unfold p_msg. destruct s as [|b s]; [apply keeps_refl|]. destruct (is_ctl (bN b)); [apply keeps_refl|]. destruct (span_max is_tagc 32 (b :: s)) as [w r]. destruct w as [|a w]; [destruct r; apply p_text_kept|].
  destruct r as [|c r]; [apply p_text_kept|]. destruct (is 58 c).
  { apply (kept_tag (a :: w)). destruct r as [|d r]; [apply p_text_kept|]. destruct r as [|f r]; [apply p_text_kept|]. destruct (is 32 d); apply p_text_kept. }
  destruct (is 91 c); [|apply p_text_kept]. apply (kept_tag (a :: w)). destruct r as [|d r]; [destruct o; repeat split|]. apply p_cont_kept.
Qed.
Theorem header3164_fields m pri ts host tail p t data msg e : hdr_text (config_of m) pri ts host tail p t data ->
  snd (parse m data) = Ret (Some msg) e ->
  priority msg = Some p /\ facility msg = Some (p / 8) /\ severity msg = Some (p mod 8) /\ 0 <= p <= 191 /\ timestamp msg = Some t /\ hostname msg = text_value host.
Proof.
  intros Hh Hr. pose proof (spec_hdr _ _ _ _ _ _ _ _ Hh) as E. set (q := len pri + 2 + len ts + 1 + len host + 1) in *. rewrite (proj1 (parse_spec m data)), E in Hr.
  pose proof (p_msg_kept (set_o_hostname host (set_ts t (pri_msg p))) q tail) as K.
  assert (Hx : forall o, keeps (set_o_hostname host (set_ts t (pri_msg p))) o -> export o = msg ->
     priority msg = Some p /\ facility msg = Some (p / 8) /\ severity msg = Some (p mod 8) /\ 0 <= p <= 191 /\ timestamp msg = Some t /\ hostname msg = text_value host).
  { intros o [K1 [K2 [K3 [K4 K5]]]] <-. unfold export. cbn [priority facility severity timestamp hostname]. rewrite K2, K3, K4, K5. cbn.
    destruct Hh as [_ [[_ [_ [Hp _]]] _]]. auto 10. }
  destruct (p_msg _ q tail) as [o|[o|] e']; cbn [ret_of kept] in *; [|destruct (bestEffort m); [|discriminate]|discriminate]; injection Hr as Hr _; apply (Hx o); assumption.
Qed.

(* ---- C30: TAG[PID]: TEXT ---- *)
Lemma text_rest_in l m : text_rest l m -> In "]"%byte l.
Proof. intros [a [c [m' [-> _]]]]. apply in_app_iff. right. left. reflexivity. Qed.
Lemma last_text_plain l : ~ In "]"%byte l -> last_text l l.
Proof. intros H. right. split; [|reflexivity]. intros m Hm. apply H. exact (text_rest_in l m Hm). Qed.
Lemma text_rest_tail pid text m : ~ In "]"%byte text -> text_rest (pid ++ lit "]: " ++ text) m -> (length text <= length m)%nat.
Proof.
  intros Ht [a [c [m' [E [-> Hc]]]]]. destruct (Nat.le_gt_cases (length text) (length (c :: m'))) as [H|H]; [exact H|exfalso].
  apply Ht. apply (f_equal (@rev byte)) in E. rewrite !rev_app_distr in E.
  assert (Hin : In "]"%byte (rev text)); [|apply in_rev in Hin; exact Hin].
  assert (Hl : length (rev (c :: m')) = length (c :: m')) by apply rev_length.
  remember (rev (c :: m')) as x eqn:Ex. rewrite <- Hl in H. clear - E H. rewrite <- (rev_length text) in H. remember (rev text) as y eqn:Ey. clear Ey.
  revert y E H. induction x as [|b x IH]; intros y E H.
  - cbn [app rev lit] in E. destruct y as [|b1 y]; [cbn in H; lia|]. destruct y as [|b2 y]; cbn in E; [injection E as -> E; discriminate|].
    destruct y as [|b3 y]; [injection E as -> -> E; discriminate|]. injection E as -> -> -> E. cbn. auto.
  - destruct y as [|d y]; [cbn in H; lia|]. cbn [app] in E. injection E as -> E. right. apply (IH y); [exact E|cbn in H; lia].
Qed.
Theorem tag_pid_text m pri ts host tag pid text p t :
  let data := lit "<" ++ pri ++ lit ">" ++ ts ++ lit " " ++ host ++ lit " " ++ tag ++ lit "[" ++ pid ++ lit "]: " ++ text in
  pri_text pri p -> ts_field (config_of m) ts t -> word 255 host ->
  tag_text tag -> ~ In "]"%byte pid -> text <> [] -> no_control text -> ~ In "]"%byte text ->
  snd (parse m data) = Ret (Some (Message (Some (p / 8)) (Some (p mod 8)) (Some p) (Some t) (text_value host) (text_value tag) (text_value pid) (Some text))) None.
Proof.
  intros data Hp Ht Hw Htag Hpid Hne Hnc Htx. apply parse3164_grammar_accepted.
  exists pri, ts, host, (tag ++ lit "[" ++ pid ++ lit "]: " ++ text), p, t, tag, pid, text. do 4 (split; [reflexivity || assumption|]). split; [|reflexivity].
  apply mp_bracket; [exact Htag|destruct pid; discriminate| |exact Hnc|].
  - left. split; [|intros m2; apply text_rest_tail; exact Htx]. destruct text as [|c text]; [congruence|]. exists pid, c, text. split; [reflexivity|]. split; [reflexivity|]. inversion Hnc; assumption.
  - right. exists pid, (lit ": " ++ text). split; [reflexivity|]. split; [|apply last_text_plain; exact Hpid]. cbn. intuition discriminate.
Qed.
Theorem tag_text_only m pri ts host tag text p t :
  let data := lit "<" ++ pri ++ lit ">" ++ ts ++ lit " " ++ host ++ lit " " ++ tag ++ lit ": " ++ text in
  pri_text pri p -> ts_field (config_of m) ts t -> word 255 host -> tag_text tag -> text <> [] -> no_control text ->
  snd (parse m data) = Ret (Some (Message (Some (p / 8)) (Some (p mod 8)) (Some p) (Some t) (text_value host) (text_value tag) None (Some text))) None.
Proof.
  intros data Hp Ht Hw Htag Hne Hnc. apply parse3164_grammar_accepted.
  exists pri, ts, host, (tag ++ lit ": " ++ text), p, t, tag, [], text. do 4 (split; [reflexivity || assumption|]). split; [|reflexivity]. apply mp_colon; assumption.
Qed.
(* TEXT with a closing bracket: the process id is wrong, or most of the text is lost *)
Theorem tag_pid_text_refuted :
  (exists msg, snd (parse strict3164 (lit "<1>Oct 11 22:14:15 h a[1]: x]")) = Ret (Some msg) None /\ procID msg = Some (lit "x"))
  /\ (exists msg, snd (parse strict3164 (lit "<1>Oct 11 22:14:15 h a[1]: job [2]: done")) = Ret (Some msg) None /\ procID msg = Some (lit "job [2") /\ M3164.msg msg = Some (lit "done")).
Proof. split; eexists; vm_compute; auto. Qed.

(* ---- C31, C32: the value of a stamp ---- *)
Lemma num_val n ds lo hi v : num n ds lo hi v -> lo <= v <= hi. Proof. intros [_ [_ [_ H]]]. exact H. Qed.
Lemma stamp_ranges s p : stamp_text s p -> valid_date 0 (sp_month p) (sp_day p) /\ valid_clock (sp_hour p) (sp_min p) (sp_sec p).
Proof.
  intros [mon [dd [hh [mi [ss [_ [Hm [Hd [Hh [Hi Hs]]]]]]]]]]. rewrite Ts5424.month_length_eq in Hd. apply num_val in Hh, Hi, Hs. unfold valid_date, valid_clock.
  assert (1 <= sp_month p <= 12). { cbn [In month_names] in Hm. repeat (destruct Hm as [Hm|Hm]; [injection Hm as _ <-; lia|]). destruct Hm. }
  pose proof (days_in_28 (sp_month p) 0). assert (1 <= sp_day p <= days_in (sp_month p) 0) by (destruct Hd as [Hd|[d [_ Hd]]]; apply num_val in Hd; lia). lia.
Qed.
Lemma date_in_fixed off y mo d h mi s ns : valid_date y mo d -> valid_clock h mi s -> date_in (fixed_zone off) y mo d h mi s ns = Time y mo d h mi s ns off.
Proof. intros H1 H2. unfold date_in, fixed_zone. cbn [l_unix l_offset]. apply time_at_civil; assumption. Qed.
Lemma date_in_utc y mo d h mi s ns : valid_date y mo d -> valid_clock h mi s -> date_in utc y mo d h mi s ns = Time y mo d h mi s ns 0.
Proof. intros H1 H2. unfold date_in, utc. cbn [l_unix l_offset]. rewrite <- (Z.sub_0_r (secs_of y mo d h mi s)). apply time_at_civil; assumption. Qed.
(* the zone the wall clock of the input is read in: UTC or the fixed zone given by WithLocaleTimezone *)
Definition reads_in (c : config) (off : Z) : Prop := (timezone c = None /\ off = 0) \/ timezone c = Some (fixed_zone off).
Lemma is_leap_0 : is_leap 0 = true. Proof. reflexivity. Qed.
Lemma stamp_value_fixed c off s p : stamp_text s p -> reads_in c off -> loc c = None ->
  stamp_value c p = date_in (fixed_zone off) (yyyy c) (sp_month p) (sp_day p) (sp_hour p) (sp_min p) (sp_sec p) 0.
Proof.
  intros Hs Hz Hl. destruct (stamp_ranges s p Hs) as [Hd Hc]. unfold stamp_value. rewrite Hl. destruct Hz as [[-> ->]| ->].
  - rewrite (date_in_utc 0) by assumption. cbn [t_year t_month t_day t_hour t_min t_sec t_nsec]. unfold date_in, utc, fixed_zone. cbn [l_unix l_offset]. rewrite Z.add_0_l, Z.sub_0_r. reflexivity.
  - rewrite (date_in_fixed off 0) by assumption. cbn [t_year t_month t_day t_hour t_min t_sec t_nsec]. rewrite Z.add_0_l. reflexivity.
Qed.
Theorem year_option m s p off pri v host tail data msg e :
  stamp_text s p -> data = lit "<" ++ pri ++ lit ">" ++ s ++ lit " " ++ host ++ lit " " ++ tail -> pri_text pri v -> word 255 host ->
  reads_in (config_of m) off -> loc (config_of m) = None -> snd (parse m data) = Ret (Some msg) e ->
  let y := yyyy (config_of m) in
  (sp_day p <= month_length (sp_month p) y -> timestamp msg = Some (Time y (sp_month p) (sp_day p) (sp_hour p) (sp_min p) (sp_sec p) 0 off))
  /\ (month_length (sp_month p) y < sp_day p -> sp_month p = 2 /\ sp_day p = 29 /\ leap_year y = false /\ timestamp msg = Some (Time y 3 1 (sp_hour p) (sp_min p) (sp_sec p) 0 off)).
Proof.
  intros Hs Hd Hp Hw Hz Hl Hr y. rewrite Ts5424.month_length_eq, Ts5424.leap_year_eq. destruct (stamp_ranges s p Hs) as [[Hm Hday] Hc].
  assert (Hh : hdr_text (config_of m) pri s host tail v (stamp_value (config_of m) p) data).
  { split; [exact Hd|]. split; [exact Hp|]. split; [left; eauto|exact Hw]. }
  destruct (header3164_fields _ _ _ _ _ _ _ _ _ _ Hh Hr) as [_ [_ [_ [_ [Ht _]]]]]. rewrite (stamp_value_fixed _ off s p Hs Hz Hl) in Ht. fold y in Ht. split.
  - intros Hle. rewrite date_in_fixed in Ht; [exact Ht|split; [exact Hm|lia]|exact Hc].
  - intros Hgt. assert (E : sp_month p = 2 /\ sp_day p = 29 /\ is_leap y = false).
    { unfold days_in in Hgt, Hday. rewrite is_leap_0 in Hday. destruct (Z.eqb_spec (sp_month p) 2) as [E2|E2].
      - destruct (is_leap y); [lia|]. split; [exact E2|]. split; [lia|reflexivity].
      - destruct ((sp_month p =? 4) || (sp_month p =? 6) || (sp_month p =? 9) || (sp_month p =? 11)); lia. }
    destruct E as [E1 [E2 E3]]. split; [exact E1|]. split; [exact E2|]. split; [exact E3|]. rewrite Ht. f_equal. rewrite E1, E2.
    unfold date_in. cbn [l_unix l_offset fixed_zone]. unfold secs_of. rewrite (days_of_feb29 y E3). fold (secs_of y 3 1 (sp_hour p) (sp_min p) (sp_sec p)).
    apply time_at_civil; [split; [lia|unfold days_in; cbn; lia]|exact Hc].
Qed.
(* the full claim of C31 (the date is always the one written) fails on 29 February of a common year *)
Theorem year_option_feb29_refuted : exists msg, snd (parse (new_machine false (Config 2019 false None None)) (lit "<1>Feb 29 00:00:00 h x")) = Ret (Some msg) None
  /\ timestamp msg = Some (Time 2019 3 1 0 0 0 0 0).
Proof. eexists. vm_compute. auto. Qed.

(* the message part does not look at the timestamp *)
Definition pmap (f : msg3164 -> msg3164) (r : pres) : pres := match r with PGood o => PGood (f o) | PBad o e => PBad (option_map f o) e end.
Lemma p_text_time t o f r : p_text (set_o_timestamp t o) f r = pmap (set_o_timestamp t) (p_text o f r).
Proof. unfold p_text. destruct (has_ctl r); destruct o; reflexivity. Qed.
Lemma p_cont_time t r : forall bad k o w, p_cont bad k (set_o_timestamp t o) w r = pmap (set_o_timestamp t) (p_cont bad k o w r).
Proof.
  induction r as [|b r IH]; intros bad k o w; cbn [p_cont].
  - destruct bad; destruct o; reflexivity.
  - assert (E : set_o_content w (set_o_timestamp t o) = set_o_timestamp t (set_o_content w o)) by (destruct o; reflexivity). rewrite E.
    destruct (is 93 b); [destruct k as [|[|[|[|?]]]]; apply IH|]. destruct (is_ctl (bN b)); [apply IH|]. destruct k as [|[|[|[|?]]]]; apply IH.
Qed.
Lemma p_msg_time t o q s : p_msg (set_o_timestamp t o) q s = pmap (set_o_timestamp t) (p_msg o q s).
Proof.
  unfold p_msg. destruct s as [|b s]; [reflexivity|]. destruct (is_ctl (bN b)); [reflexivity|].
  assert (E : forall w, set_o_tag w (set_o_timestamp t o) = set_o_timestamp t (set_o_tag w o)) by (intros w; destruct o; reflexivity).
  destruct (span_max is_tagc 32 (b :: s)) as [w r]. destruct w as [|a w]; [destruct r; apply p_text_time|].
  destruct r as [|c r]; [apply p_text_time|]. rewrite E. destruct (is 58 c).
  { destruct r as [|d r]; [apply p_text_time|]. destruct r as [|f r]; [apply p_text_time|]. destruct (is 32 d); apply p_text_time. }
  destruct (is 91 c); [|apply p_text_time]. destruct r as [|d r]; [destruct o; reflexivity|]. apply p_cont_time.
Qed.
Definition with_zone (l : option location) (c : config) : config := Config (yyyy c) (rfc3339 c) l (timezone c).
Definition shown_in (l : location) (t : time) : Prop := t_off t = l_offset l (unix_of t).
(* C32: WithTimezone changes nothing but the zone in which the timestamp is shown *)
Theorem timezone_option m m' l s p data pri v host tail :
  stamp_text s p -> data = lit "<" ++ pri ++ lit ">" ++ s ++ lit " " ++ host ++ lit " " ++ tail -> pri_text pri v -> word 255 host ->
  bestEffort m = bestEffort m' -> loc (config_of m) = None -> config_of m' = with_zone (Some l) (config_of m) ->
  match snd (parse m data), snd (parse m' data) with
  | Ret (Some a) e, Ret (Some b) e' => e' = e /\ facility b = facility a /\ severity b = severity a /\ priority b = priority a /\ hostname b = hostname a
      /\ appname b = appname a /\ procID b = procID a /\ M3164.msg b = M3164.msg a
      /\ exists t t', timestamp a = Some t /\ timestamp b = Some t' /\ unix_of t' = unix_of t /\ t_nsec t' = t_nsec t /\ shown_in l t'
  | Ret None e, Ret None e' => e' = e
  | _, _ => False
  end.
Proof.
  intros Hs Hd Hp Hw Hb Hl Hc. set (t := stamp_value (config_of m) p). set (t' := stamp_value (config_of m') p).
  assert (H1 : hdr_text (config_of m) pri s host tail v t data) by (split; [exact Hd|]; split; [exact Hp|]; split; [left; exists p; auto|exact Hw]).
  assert (H2 : hdr_text (config_of m') pri s host tail v t' data) by (split; [exact Hd|]; split; [exact Hp|]; split; [left; exists p; auto|exact Hw]).
  pose proof (spec_hdr _ _ _ _ _ _ _ _ H1) as E1. pose proof (spec_hdr _ _ _ _ _ _ _ _ H2) as E2. set (q := len pri + 2 + len s + 1 + len host + 1) in *.
  assert (Et : t' = in_loc l t). { unfold t', t, stamp_value. rewrite Hc, Hl. reflexivity. }
  rewrite !(proj1 (parse_spec _ data)), E1, E2, <- Hb. clearbody t t'. clear E1 E2 Hs Hd.
  set (o := set_o_hostname host (set_ts t (pri_msg v))).
  assert (Eo : set_o_hostname host (set_ts t' (pri_msg v)) = set_o_timestamp t' o) by reflexivity. rewrite Eo. rewrite p_msg_time.
  pose proof (p_msg_kept o q tail) as K. destruct (p_msg o q tail) as [o1|[o1|] e]; cbn [pmap option_map ret_of kept] in *; [| |contradiction].
  all: destruct K as [_ [_ [K3 [K4 _]]]]; cbn in K3, K4.
  2: destruct (bestEffort m); [|reflexivity].
  all: split; [reflexivity|]; do 7 (split; [destruct o1; reflexivity|]).
  all: exists t, t'; unfold export; cbn [timestamp]; rewrite K3, K4; split; [reflexivity|]; split; [destruct o1; cbn in K3 |- *; rewrite K3; reflexivity|].
  all: rewrite Et; split; [apply in_loc_same_instant|]; unfold in_loc, shown_in; destruct (unix_time_at (unix_of t) (t_nsec t) (l_offset l (unix_of t))) as [A [B C]]; split; [exact C|]; rewrite A; exact B.
Qed.
Example timezone_ex : exists a b, snd (parse strict3164 (lit "<1>Oct 11 22:14:15 h x")) = Ret (Some a) None
  /\ snd (parse (new_machine false (with_zone (Some (fixed_zone 7200)) plain)) (lit "<1>Oct 11 22:14:15 h x")) = Ret (Some b) None
  /\ timestamp a = Some (Time 0 10 11 22 14 15 0 0) /\ timestamp b = Some (Time 0 10 12 0 14 15 0 7200).
Proof. do 2 eexists. vm_compute. auto. Qed.
(* an RFC3339 timestamp is taken as written, whatever the year and zone options *)
Theorem rfc3339_as_written m s t data pri v host tail msg e :
  rfc3339_text s t -> rfc3339 (config_of m) = true -> data = lit "<" ++ pri ++ lit ">" ++ s ++ lit " " ++ host ++ lit " " ++ tail -> pri_text pri v -> word 255 host ->
  snd (parse m data) = Ret (Some msg) e -> timestamp msg = Some t.
Proof.
  intros Hs Hc Hd Hp Hw Hr. assert (Hh : hdr_text (config_of m) pri s host tail v t data) by (split; [exact Hd|]; split; [exact Hp|]; split; [right; auto|exact Hw]).
  apply (header3164_fields _ _ _ _ _ _ _ _ _ _ Hh Hr).
Qed.

(* C33 *)
Definition with_rfc3339 (c : config) : config := Config (yyyy c) true (loc c) (timezone c).
Theorem rfc3339_conservative m m' data msg : config_of m' = with_rfc3339 (config_of m) -> bestEffort m = false ->
  snd (parse m data) = Ret (Some msg) None -> snd (parse m' data) = Ret (Some msg) None.
Proof.
  intros Hc Hb H. apply (parse3164_accepts_grammar m data msg Hb) in H. apply parse3164_grammar_accepted. rewrite Hc.
  destruct H as [pri [ts [host [tail [p [t [tag [pid [text [Hd [Hp [Ht H]]]]]]]]]]]]. exists pri, ts, host, tail, p, t, tag, pid, text. split; [exact Hd|]. split; [exact Hp|]. split; [|exact H].
  destruct Ht as [[sp [Hs ->]]|[Er Hs]]; [left; exists sp; auto|right; auto].
Qed.
(* ... and what it adds are RFC3339 timestamps *)
Theorem rfc3339_adds m m' data msg : rfc3339 (config_of m) = false -> config_of m' = with_rfc3339 (config_of m) -> bestEffort m = false -> bestEffort m' = false ->
  snd (parse m' data) = Ret (Some msg) None ->
  snd (parse m data) = Ret (Some msg) None
  \/ exists pri ts rest p t, data = lit "<" ++ pri ++ lit ">" ++ ts ++ lit " " ++ rest /\ pri_text pri p /\ rfc3339_text ts t /\ timestamp msg = Some t.
Proof.
  intros Hr Hc Hb Hb' H. apply (parse3164_accepts_grammar m' data msg Hb') in H. rewrite Hc in H.
  destruct H as [pri [ts [host [tail [p [t [tag [pid [text [Hd [Hp [Ht [Hw [Hm ->]]]]]]]]]]]]]]. destruct Ht as [[sp [Hs ->]]|[Er Hs]].
  - left. apply parse3164_grammar_accepted. exists pri, ts, host, tail, p, (stamp_value (config_of m) sp), tag, pid, text. split; [exact Hd|]. split; [exact Hp|]. split; [left; exists sp; auto|].
    split; [exact Hw|]. split; [exact Hm|]. f_equal.
  - right. exists pri, ts, (host ++ lit " " ++ tail), p, t. auto.
Qed.
Example rfc3339_ex : (exists msg, snd (parse (new_machine false (with_rfc3339 plain)) (lit "<1>2003-10-11T22:14:15Z h x")) = Ret (Some msg) None)
  /\ exists e, snd (parse strict3164 (lit "<1>2003-10-11T22:14:15Z h x")) = Ret None (Some e).
Proof. split; eexists; vm_compute; reflexivity. Qed.

(* C35 *)
Theorem parse3164_reuse m inputs data : snd (parse (after m inputs) data) = snd (parse m data).
Proof. destruct (after_flags inputs m) as [H1 H2]. rewrite !(proj1 (parse_spec _ data)), H1, H2. reflexivity. Qed.
Theorem parse3164_independent m m' data : bestEffort m = bestEffort m' -> config_of m = config_of m' -> snd (parse m data) = snd (parse m' data).
Proof. intros H1 H2. rewrite !(proj1 (parse_spec _ data)), H1, H2. reflexivity. Qed.
Example reuse3164_ex : mv (after strict3164 [lit "<34>Oct 11 22:14:15 h su["]) <> mv strict3164
  /\ snd (parse (after strict3164 [lit "<34>Oct 11 22:14:15 h su["]) (lit "<1>Oct 11 22:14:15 h x")) = snd (parse strict3164 (lit "<1>Oct 11 22:14:15 h x")).
Proof. split; [vm_compute; discriminate|apply parse3164_reuse]. Qed.

(* C34: best effort *)
Theorem best3164_conservative m m' data : bestEffort m = false -> bestEffort m' = true -> config_of m = config_of m' ->
  (forall msg, snd (parse m data) = Ret (Some msg) None -> snd (parse m' data) = Ret (Some msg) None)
  /\ (forall e, snd (parse m data) = Ret None e <-> (exists r, snd (parse m' data) = Ret r e) /\ forall msg, snd (parse m data) <> Ret (Some msg) None).
Proof.
  intros H1 H2 H3. rewrite !(proj1 (parse_spec _ data)), H1, H2, H3. destruct (spec3164 (config_of m') data) as [o|[o|] e]; cbn [ret_of]; split; intros; try discriminate; try assumption.
  - split; [discriminate|]. intros [_ H]. destruct (H _ eq_refl).
  - split; [intros H; injection H as <-; split; [eauto|discriminate]|]. intros [[r H] _]. injection H as _ ->. reflexivity.
  - split; [intros H; injection H as <-; split; [eauto|discriminate]|]. intros [[r H] _]. injection H as _ ->. reflexivity.
Qed.
(* the priority read: the longest priority text after '<' that is not the last thing in the input *)
Definition pri_prefix (data pri : bytes) (p : Z) : Prop := exists b r, data = lit "<" ++ pri ++ b :: r /\ pri_text pri p.
Definition read_pri (data : bytes) (p : Z) : Prop :=
  exists pri, pri_prefix data pri p /\ forall pri' p', pri_prefix data pri' p' -> (length pri' <= length pri)%nat.
Lemma pri_cases s v : pri_text s v <-> v <= 191 /\ ((exists a, s = [a] /\ digit a /\ v = dv a) \/
  (exists a b, s = [a; b] /\ A5424.btw 49 57 (bN a) = true /\ digit b /\ v = 10 * dv a + dv b) \/
  (exists a b c, s = [a; b; c] /\ A5424.btw 49 57 (bN a) = true /\ digit b /\ digit c /\ v = 100 * dv a + 10 * dv b + dv c)).
Proof. unfold Grammar5424.pri_text, Grammar5424.plain_number. apply Gram5424.plain_cases. lia. Qed.
Lemma pri_value_unique s v v' : pri_text s v -> pri_text s v' -> v = v'.
Proof. intros [_ [<- _]] [_ [<- _]]. reflexivity. Qed.
Definition prival_result (data : bytes) : option (Z * bytes) :=
  match data with
  | b :: r => if is 60 b then match prival r with
      | Some (v, n, c :: r2) => Some (v, c :: r2)
      | Some (v, n, []) => if n =? 1 then None else Some (v / 10, [])
      | None => None end else None
  | [] => None
  end.
Lemma pri_prefix_cases r pri p : pri_prefix ("<"%byte :: r) pri p <-> p <= 191 /\
  ((exists a x t, pri = [a] /\ r = a :: x :: t /\ digit a /\ p = dv a)
   \/ (exists a b x t, pri = [a; b] /\ r = a :: b :: x :: t /\ A5424.btw 49 57 (bN a) = true /\ digit b /\ p = 10 * dv a + dv b)
   \/ (exists a b c x t, pri = [a; b; c] /\ r = a :: b :: c :: x :: t /\ A5424.btw 49 57 (bN a) = true /\ digit b /\ digit c /\ p = 100 * dv a + 10 * dv b + dv c)).
Proof.
  unfold pri_prefix. split.
  - intros [x [t [E H]]]. apply pri_cases in H as [Hv H]. split; [exact Hv|]. cbn [app lit] in E. injection E as E.
    destruct H as [[a [-> [Ha ->]]]|[[a [b [-> [Ha [Hb ->]]]]]|[a [b [c [-> [Ha [Hb [Hc ->]]]]]]]]]; cbn [app] in E; [left|right; left|right; right].
    + exists a, x, t. auto.
    + exists a, b, x, t. auto.
    + exists a, b, c, x, t. auto 8.
  - intros [Hv [[a [x [t [-> [-> [Ha ->]]]]]]|[[a [b [x [t [-> [-> [Ha [Hb ->]]]]]]]]|[a [b [c [x [t [-> [-> [Ha [Hb [Hc ->]]]]]]]]]]]]]; exists x, t; (split; [reflexivity|]); apply pri_cases; (split; [exact Hv|]).
    + left. eauto.
    + right. left. exists a, b. auto.
    + right. right. exists a, b, c. auto.
Qed.
Lemma btw19 a : A5424.btw 49 57 (bN a) = true -> digit a /\ 1 <= dv a <= 9.
Proof. rewrite Gram5424.btw_prop. unfold digit, dv. lia. Qed.
Lemma digit_dv a : digit a -> 0 <= dv a <= 9. Proof. unfold digit, dv. lia. Qed.
Ltac pcases H := apply pri_prefix_cases in H; destruct H as [Hv [[a [px [pt [-> [E [Ha ->]]]]]]|[[a [pb [px [pt [-> [E [Ha [Hb ->]]]]]]]]|[a [pb [c [px [pt [-> [E [Ha [Hb [Hc ->]]]]]]]]]]]]].
Lemma read_pri_prival data : match prival_result data with Some (v, _) => read_pri data v | None => forall pri p, ~ pri_prefix data pri p end.
Proof.
  unfold prival_result. destruct data as [|b r]; [intros pri p [x [t [E _]]]; discriminate|].
  destruct (is 60 b) eqn:Eb; [|intros pri p [x [t [E _]]]; injection E as -> _; discriminate].
  apply (is_at 60 b "<"%byte eq_refl) in Eb. subst b.
  unfold prival. destruct r as [|d1 r1]; [intros pri p H; pcases H; discriminate|].
  destruct (is 48 d1) eqn:E0.
  { apply (is_at 48 d1 "0"%byte eq_refl) in E0. subst d1. destruct r1 as [|x t].
    - cbn. intros pri p H. pcases H; discriminate.
    - exists ["0"%byte]. split.
      + apply pri_prefix_cases. split; [lia|]. left. exists "0"%byte, x, t. split; [reflexivity|]. split; [reflexivity|]. split; [unfold digit; cbn; lia|reflexivity].
      + intros pri p H. pcases H; [cbn; lia|injection E as <- _; discriminate..]. }
  destruct (A5424.btw 49 57 (bN d1)) eqn:E1.
  2: { intros pri p H. assert (Hd : ~ digit d1). { intros Hd. unfold digit in Hd. apply Bool.not_true_iff_false in E1. rewrite Gram5424.btw_prop in E1. apply (is_no 48 d1 "0"%byte eq_refl) in E0. apply E0. apply bN_inj. cbn. lia. }
       pcases H; injection E as <- _; [exact (Hd Ha)|congruence..]. }
  destruct (btw19 d1 E1) as [D1 B1]. destruct r1 as [|d2 r2]; [intros pri p H; pcases H; discriminate|].
  destruct (is_dig (bN d2)) eqn:E2.
  2: { exists [d1]. split.
       - apply pri_prefix_cases. split; [lia|]. left. exists d1, d2, r2. auto.
       - intros pri p H. pcases H; [cbn; lia|injection E as <- <- _; apply digit_dig in Hb; congruence..]. }
  apply digit_dig in E2. pose proof (digit_dv d2 E2) as B2. destruct r2 as [|d3 r3].
  { replace ((2 =? 1)) with false by reflexivity. replace ((10 * dv d1 + dv d2) / 10) with (dv d1) by (apply (Z.div_unique_pos _ 10 _ (dv d2)); lia).
    exists [d1]. split.
    - apply pri_prefix_cases. split; [lia|]. left. exists d1, d2, []. auto.
    - intros pri p H. pcases H; [cbn; lia|discriminate..]. }
  destruct (is_dig (bN d3) && (100 * dv d1 + 10 * dv d2 + dv d3 <=? 191)) eqn:E3.
  - apply andb_true_iff in E3 as [E3 E4]. apply digit_dig in E3. apply Z.leb_le in E4. pose proof (digit_dv d3 E3) as B3. destruct r3 as [|x t].
    + replace ((3 =? 1)) with false by reflexivity. replace ((100 * dv d1 + 10 * dv d2 + dv d3) / 10) with (10 * dv d1 + dv d2) by (apply (Z.div_unique_pos _ 10 _ (dv d3)); lia).
      exists [d1; d2]. split.
      * apply pri_prefix_cases. split; [lia|]. right. left. exists d1, d2, d3, []. auto 8.
      * intros pri p H. pcases H; [cbn; lia..|discriminate].
    + exists [d1; d2; d3]. split.
      * apply pri_prefix_cases. split; [lia|]. right. right. exists d1, d2, d3, x, t. auto 8.
      * intros pri p H. pcases H; cbn; lia.
  - exists [d1; d2]. split.
    + apply pri_prefix_cases. split; [lia|]. right. left. exists d1, d2, d3, r3. auto 8.
    + intros pri p H. pcases H; [cbn; lia..|]. injection E as <- <- <- _. apply digit_dig in Hc. rewrite Hc in E3. cbn [andb] in E3. apply Z.leb_gt in E3. lia.
Qed.
Lemma p_host_kept_pri k o p r : (forall o' p' r', o_priority o' = o_priority o -> o_timestampSet o' = o_timestampSet o -> o_timestamp o' = o_timestamp o -> exists o2, (k o' p' r' = PGood o2 \/ exists e, k o' p' r' = PBad (Some o2) e) /\ o_priority o2 = o_priority o) ->
  exists o2, (p_host k o p r = PGood o2 \/ exists e, p_host k o p r = PBad (Some o2) e) /\ o_priority o2 = o_priority o.
Proof.
  intros H. unfold p_host. destruct (span_max is_graph 255 r) as [w r']. destruct w as [|a w]; [exists o; eauto|]. destruct r' as [|b r']; [exists o; eauto|]. destruct (is 32 b); [|exists o; eauto].
  apply H; destruct o; reflexivity.
Qed.
Lemma p_msg_pri o p r : exists o2, (p_msg o p r = PGood o2 \/ exists e, p_msg o p r = PBad (Some o2) e) /\ o_priority o2 = o_priority o.
Proof. pose proof (p_msg_kept o p r) as K. destruct (p_msg o p r) as [o2|[o2|] e]; [exists o2; split; [auto|apply K]|exists o2; split; [eauto|apply K]|destruct K]. Qed.
Lemma p_rest_pri c o p r : exists o2, (p_ts c (p_host p_msg) o p r = PGood o2 \/ exists e, p_ts c (p_host p_msg) o p r = PBad (Some o2) e) /\ o_priority o2 = o_priority o.
Proof.
  destruct (p_ts_cases c o p r) as [[s [t [r' [-> Ht]]]]|[[s [r' [-> [Hs Hn]]]]|[Hq|[e He]]]].
  - rewrite (p_ts_at c _ _ _ s t r' Ht). destruct (p_host_kept_pri p_msg (set_ts t o) (p + len s + 1) r') as [o2 [A B]].
    + intros o' p' r2 H1 _ _. destruct (p_msg_pri o' p' r2) as [o2 [A B]]. exists o2. split; [exact A|congruence].
    + exists o2. split; [exact A|]. rewrite B. destruct o; reflexivity.
  - rewrite (p_ts_nospace c _ _ _ s r' Hs Hn). exists o. eauto.
  - rewrite (p_ts_quiet c _ _ _ r Hq). exists o. eauto.
  - rewrite He. exists o. eauto.
Qed.
(* a best effort parse returns a message iff some priority could be read, and it has that priority *)
Theorem best3164_message_iff m data : bestEffort m = true ->
  ((exists msg e, snd (parse m data) = Ret (Some msg) e) <-> exists p, read_pri data p)
  /\ (forall msg e p, snd (parse m data) = Ret (Some msg) e -> read_pri data p -> priority msg = Some p /\ facility msg = Some (p / 8) /\ severity msg = Some (p mod 8)).
Proof.
  intros Hb. rewrite (proj1 (parse_spec m data)), Hb.
  assert (G : match prival_result data with
      | Some (v, _) => exists o2, (spec3164 (config_of m) data = PGood o2 \/ exists e, spec3164 (config_of m) data = PBad (Some o2) e) /\ o_priority o2 = v
      | None => exists e, spec3164 (config_of m) data = PBad None e end).
  { unfold spec3164, p_pri, prival_result. destruct data as [|b r]; [eauto|]. destruct (is 60 b); [|eauto]. destruct (prival r) as [[[v n] r']|]; [|eauto].
    destruct r' as [|c r2]; [destruct (n =? 1); [eauto|exists (pri_msg (v / 10)); eauto]|]. destruct (is 62 c); [|exists (pri_msg v); eauto].
    destruct (p_rest_pri (config_of m) (pri_msg v) (n + 2) r2) as [o2 [A B]]. exists o2. auto. }
  pose proof (read_pri_prival data) as R. destruct (prival_result data) as [[v r]|].
  - destruct G as [o2 [A B]]. split; [|].
    + split; [eauto|]. intros _. destruct A as [->|[e ->]]; cbn [ret_of]; eauto.
    + intros msg e p H Hp. assert (E : msg = export o2) by (destruct A as [A|[e' A]]; rewrite A in H; cbn [ret_of] in H; injection H as <- _; reflexivity). subst msg.
      assert (p = v). { destruct R as [pri [P1 P2]], Hp as [pri' [Q1 Q2]]. pose proof (P2 _ _ Q1). pose proof (Q2 _ _ P1). destruct P1 as [x [t [E1 P1]]], Q1 as [x' [t' [E2 Q1]]].
        rewrite E1 in E2. apply app_inv_head in E2. apply Loc5424.app_eq_len in E2 as [E2 _]; [|unfold Spec5424.len; lia]. subst pri'. exact (pri_value_unique _ _ _ Q1 P1). }
      subst v p. cbn. auto.
  - destruct G as [e G]. rewrite G. cbn [ret_of]. split; [|intros msg e' p H; discriminate]. split; [intros [msg [e' H]]; discriminate|]. intros [p [pri [H _]]]. destruct (R pri p H).
Qed.
Example best3164_ex : (exists e, snd (parse (new_machine true plain) (lit "<19")) = Ret (Some (Message (Some 0) (Some 1) (Some 1) None None None None None)) (Some e))
  /\ (exists e, snd (parse (new_machine true plain) (lit "<1")) = Ret None (Some e))
  /\ (exists msg e, snd (parse (new_machine true plain) (lit "<13>Oct 11 22:14:15 h" ++ lit " ")) = Ret (Some msg) (Some e) /\ hostname msg = Some (lit "h")).
Proof. vm_compute. eauto 10. Qed.
(* best effort keeps the header fields read so far *)
Theorem best3164_timestamp m pri ts rest p t data : bestEffort m = true ->
  data = lit "<" ++ pri ++ lit ">" ++ ts ++ lit " " ++ rest -> pri_text pri p -> ts_field (config_of m) ts t ->
  exists msg e, snd (parse m data) = Ret (Some msg) e /\ priority msg = Some p /\ timestamp msg = Some t.
Proof.
  intros Hb -> Hp Ht. rewrite (proj1 (parse_spec m _)), Hb. unfold spec3164.
  change (lit "<" ++ pri ++ lit ">" ++ ts ++ lit " " ++ rest) with ("<"%byte :: pri ++ ">"%byte :: ts ++ " "%byte :: rest).
  rewrite (p_pri_at _ pri p _ Hp), (p_ts_at _ _ _ _ ts t _ Ht). set (o := set_ts t (pri_msg p)).
  match goal with |- context [p_host p_msg ?o ?q ?r] => destruct (p_host_cases o q r) as [[w [tail [-> Hw]]]|[e He]] end.
  - rewrite (p_host_at _ _ _ w tail Hw). match goal with |- context [p_msg ?o ?q ?r] => pose proof (p_msg_kept o q r) as K; destruct (p_msg o q r) as [o2|[o2|] e] end; cbn [kept ret_of] in *; [| |destruct K].
    all: destruct K as [_ [K2 [K3 [K4 _]]]]; cbn in K2, K3, K4; do 2 eexists; split; [reflexivity|]; unfold export; cbn [priority timestamp]; rewrite K2, K3, K4; auto.
  - rewrite He. cbn [ret_of]. do 2 eexists. split; [reflexivity|]. cbn. auto.
Qed.
