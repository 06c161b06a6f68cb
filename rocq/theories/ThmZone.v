(* C75: WithLocaleTimezone with a location that has transitions. *)
From Verif Require Import Bytes GoTime Cal Zone.
From Verif Require Import Grammar5424 Gram5424 M3164Def M3164 Grammar3164 Thm3164.
From Verif Require Ts5424.
Local Open Scope Z_scope.

Lemma inside_iff p u : inside p u <-> match z_start p with Some s => s <= u | None => True end /\ match z_end p with Some e => u < e | None => True end.
Proof.
  unfold inside, before_start, past_end. destruct (z_start p), (z_end p); rewrite ?Z.ltb_ge, ?Z.leb_gt; tauto.
Qed.

(* sorted tables are consistent *)
Lemma table_from_ok b tx : forall off start, 0 <= b -> Z.abs off <= b -> spaced b start tx ->
  forall u, match start with Some s => s <= u | None => True end ->
  let p := table_from off start tx u in
  inside p u /\ (forall v, inside p v -> match start with Some s => s <= v | None => True end -> table_from off start tx v = p)
  /\ Z.abs (z_off p) <= b /\ match z_start p, z_end p with Some s, Some e => s + 2 * b <= e | _, _ => True end
  /\ match start with Some s => exists s', z_start p = Some s' /\ s <= s' | None => True end.
Proof.
  induction tx as [|[w o] r IH]; intros off start Hb Ho Hs u Hu; cbn [table_from spaced] in *.
  - cbn zeta. cbn [z_off z_start z_end]. split; [apply inside_iff; cbn; auto|]. split; [reflexivity|]. split; [exact Ho|]. destruct start; [|auto]. split; [exact I|]. eexists. split; [reflexivity|lia].
  - destruct Hs as [Ho' [Hw Hr]]. destruct (u <? w) eqn:E; cbn zeta.
    + apply Z.ltb_lt in E. cbn [z_off z_start z_end]. split; [apply inside_iff; cbn; auto|]. split; [|split; [exact Ho|]].
      * intros v Hv _. apply inside_iff in Hv. cbn in Hv. rewrite (proj2 (Z.ltb_lt v w)) by lia. reflexivity.
      * destruct start; [|auto]. split; [lia|]. eexists. split; [reflexivity|lia].
    + apply Z.ltb_ge in E. destruct (IH o (Some w) Hb Ho' Hr u E) as [I1 [I2 [I3 [I4 [s' [I5 I6]]]]]]. split; [exact I1|]. split; [|split; [exact I3|split; [exact I4|]]].
      * intros v Hv _. pose proof Hv as Hv'. apply inside_iff in Hv'. rewrite I5 in Hv'. rewrite (proj2 (Z.ltb_ge v w)) by lia. apply I2; [exact Hv|lia].
      * destruct start; [|auto]. exists s'. split; [exact I5|lia].
Qed.
Theorem table_ok b off tx : 0 <= b -> Z.abs off <= b -> spaced b None tx -> zone_ok b (table off tx).
Proof.
  intros Hb Ho Hs u. destruct (table_from_ok b tx off None Hb Ho Hs u I) as [I1 [I2 [I3 [I4 _]]]]. split; [exact I1|]. split; [intros v Hv; apply I2; auto|]. auto.
Qed.

(* ---- the instant chosen for a wall clock reading ---- *)
Definition reading (z : zone) (u : Z) : Z := u + z_off (z u).
(* the reading n is skipped by the transition at w *)
Definition skipped (z : zone) (n w : Z) : Prop := z_start (z w) = Some w /\ w + z_off (z (w - 1)) <= n < w + z_off (z w).

Lemma resolve_both b z n : zone_ok b z -> exists v, (forall v', v' = unix_old z n \/ v' = unix_new z n -> v' = v) /\
  (reading z v = n \/ (exists w, skipped z n w /\ (v = n - z_off (z (w - 1)) \/ v = n - z_off (z w)))).
Proof.
  intros Hz. destruct (Hz n) as [In0 [Cn [Bn Ln]]]. apply inside_iff in In0.
  assert (Hin : forall u, inside (z n) u -> z_off (z u) = z_off (z n)) by (intros u Hu; rewrite (Cn u Hu); reflexivity).
  unfold reading. set (o := z_off (z n)) in *.
  assert (Case : inside (z n) (n - o) \/ (exists s, z_start (z n) = Some s /\ n - o < s /\ s <= n) \/ (exists e, z_end (z n) = Some e /\ e <= n - o /\ n < e)).
  { rewrite inside_iff. destruct (z_start (z n)) as [s|] eqn:Es, (z_end (z n)) as [e|] eqn:Ee.
    - destruct (Z.lt_ge_cases (n - o) s); [right; left; eexists; split; [reflexivity|lia]|]. destruct (Z.lt_ge_cases (n - o) e); [left; lia|right; right; eexists; split; [reflexivity|lia]].
    - destruct (Z.lt_ge_cases (n - o) s); [right; left; eexists; split; [reflexivity|lia]|left; lia].
    - destruct (Z.lt_ge_cases (n - o) e); [left; lia|right; right; eexists; split; [reflexivity|lia]].
    - left. auto. }
  destruct Case as [Hi|[[s [Es [H1 H2]]]|[e [Ee [H1 H2]]]]].
  - exists (n - o). split.
    { intros v Hv. destruct Hi as [A B]. unfold unix_old, unix_new in Hv. fold o in Hv. destruct (o =? 0) eqn:E0; [apply Z.eqb_eq in E0; destruct Hv; lia|]. rewrite A, B in Hv. cbn [orb] in Hv. destruct Hv; assumption. }
    left. rewrite (Hin _ Hi). lia.
  - (* o > 0 and n is just after the transition at s *)
    destruct (Hz (s - 1)) as [Ip [Cp [Bp Lp]]]. pose proof Ip as Ip'. apply inside_iff in Ip'. set (o1 := z_off (z (s - 1))) in *.
    assert (Ep : z_end (z (s - 1)) = Some s).
    { destruct (z_end (z (s - 1))) as [e|] eqn:Ee.
      - destruct (Z.lt_ge_cases s e) as [Hlt|Hge]; [|f_equal; lia]. exfalso. assert (Hs : inside (z (s - 1)) s) by (apply inside_iff; rewrite Ee; destruct (z_start (z (s - 1))); lia).
        apply Cp in Hs. assert (Hs' : inside (z n) s) by (apply inside_iff; rewrite Es; split; [lia|]; destruct (z_end (z n)); [lia|exact I]). apply Cn in Hs'.
        rewrite Hs' in Hs. rewrite <- Hs, Es in Ip'. lia.
      - exfalso. assert (Hs : inside (z (s - 1)) s) by (apply inside_iff; rewrite Ee; destruct (z_start (z (s - 1))); lia).
        apply Cp in Hs. assert (Hs' : inside (z n) s) by (apply inside_iff; rewrite Es; split; [lia|]; destruct (z_end (z n)); [lia|exact I]). apply Cn in Hs'.
        rewrite Hs' in Hs. rewrite <- Hs, Es in Ip'. lia. }
    rewrite Ep in Lp, Ip'.
    assert (Hprev : forall u, s - b <= u < s -> z u = z (s - 1)).
    { intros u Hu. apply Cp. apply inside_iff. rewrite Ep. split; [|lia]. destruct (z_start (z (s - 1))); [lia|exact I]. }
    exists (n - o1). split.
    { intros v Hv. unfold unix_old, unix_new in Hv. fold o in Hv. rewrite (proj2 (Z.eqb_neq o 0)) in Hv by lia.
      assert (Hb : before_start (z n) (n - o) = true) by (unfold before_start; rewrite Es; apply Z.ltb_lt; lia). rewrite Hb, Es in Hv. cbn [orb] in Hv. fold o1 in Hv.
      rewrite (Hprev (n - o)) in Hv by lia. destruct Hv; assumption. }
    destruct (Z.lt_ge_cases (n - o1) s) as [Hlt|Hge].
    + left. rewrite (Hprev (n - o1)) by lia. fold o1. lia.
    + right. exists s. assert (Hs : z s = z n) by (apply Cn, inside_iff; rewrite Es; split; [lia|]; destruct (z_end (z n)); [lia|exact I]).
      unfold skipped. rewrite Hs, Es. fold o o1. split; [split; [reflexivity|lia]|]. left. reflexivity.
  - (* o < 0 and n is just before the transition at e *)
    destruct (Hz e) as [Ip [Cp [Bp Lp]]]. pose proof Ip as Ip'. apply inside_iff in Ip'. set (o2 := z_off (z e)) in *.
    assert (Ei : inside (z n) (e - 1)) by (apply inside_iff; rewrite Ee; split; [destruct (z_start (z n)); [lia|exact I]|lia]).
    assert (Ep : z_start (z e) = Some e).
    { destruct (z_start (z e)) as [s|] eqn:Es.
      - destruct (Z.lt_ge_cases s e) as [Hlt|Hge]; [|f_equal; lia]. exfalso. assert (Hs : inside (z e) (e - 1)) by (apply inside_iff; rewrite Es; split; [lia|]; destruct (z_end (z e)); [lia|exact I]).
        apply Cp in Hs. rewrite (Cn _ Ei) in Hs. rewrite <- Hs, Ee in Ip'. lia.
      - exfalso. assert (Hs : inside (z e) (e - 1)) by (apply inside_iff; rewrite Es; split; [exact I|]; destruct (z_end (z e)); [lia|exact I]).
        apply Cp in Hs. rewrite (Cn _ Ei) in Hs. rewrite <- Hs, Ee in Ip'. lia. }
    rewrite Ep in Lp, Ip'.
    assert (Hnext : forall u, e <= u < e + b + b -> z u = z e).
    { intros u Hu. apply Cp. apply inside_iff. rewrite Ep. split; [lia|]. destruct (z_end (z e)); [lia|exact I]. }
    exists (n - o2). split.
    { intros v Hv. unfold unix_old, unix_new in Hv. fold o in Hv. rewrite (proj2 (Z.eqb_neq o 0)) in Hv by lia.
      assert (Hb : before_start (z n) (n - o) = false) by (unfold before_start; destruct (z_start (z n)); [apply Z.ltb_ge; lia|reflexivity]).
      assert (Hp : past_end (z n) (n - o) = true) by (unfold past_end; rewrite Ee; apply Z.leb_le; lia). rewrite Hb, Hp, Ee in Hv. cbn [orb] in Hv. fold o2 in Hv.
      rewrite (Hnext (n - o)) in Hv by lia. destruct Hv; assumption. }
    destruct (Z.lt_ge_cases (n - o2) e) as [Hlt|Hge].
    + right. exists e. unfold skipped. rewrite Ep, (Cn _ Ei). fold o o2. split; [split; [reflexivity|lia]|]. right. reflexivity.
    + left. rewrite (Hnext (n - o2)) by lia. fold o2. lia.
Qed.
(* both ways of resolving agree *)
Theorem releases_agree b z n : zone_ok b z -> unix_new z n = unix_old z n.
Proof. intros Hz. destruct (resolve_both b z n Hz) as [v [H _]]. rewrite (H (unix_new z n)), (H (unix_old z n)); auto. Qed.
Lemma resolve b z n : zone_ok b z -> forall v, v = unix_old z n \/ v = unix_new z n ->
  reading z v = n \/ (exists w, skipped z n w /\ (v = n - z_off (z (w - 1)) \/ v = n - z_off (z w))).
Proof. intros Hz v Hv. destruct (resolve_both b z n Hz) as [x [H1 H2]]. rewrite (H1 v Hv). exact H2. Qed.
Lemma prev_period b z w : zone_ok b z -> z_start (z w) = Some w -> z_end (z (w - 1)) = Some w.
Proof.
  intros Hz Es. destruct (Hz (w - 1)) as [Ip [Cp _]]. apply inside_iff in Ip.
  destruct (z_end (z (w - 1))) as [e|] eqn:Ee.
  - destruct (Z.lt_ge_cases w e) as [Hlt|Hge]; [|f_equal; lia]. exfalso.
    assert (Hs : inside (z (w - 1)) w) by (apply inside_iff; rewrite Ee; destruct (z_start (z (w - 1))); lia). apply Cp in Hs. rewrite <- Hs, Es in Ip. lia.
  - exfalso. assert (Hs : inside (z (w - 1)) w) by (apply inside_iff; rewrite Ee; destruct (z_start (z (w - 1))); lia). apply Cp in Hs. rewrite <- Hs, Es in Ip. lia.
Qed.
(* a skipped reading is one the clocks never show *)
Lemma skipped_never b z n w : zone_ok b z -> skipped z n w -> forall u, reading z u <> n.
Proof.
  intros Hz [Es Hn] u E. unfold reading in E. destruct (Hz u) as [_ [_ [Bu _]]]. destruct (Hz w) as [Iw [Cw [Bw Lw]]]. destruct (Hz (w - 1)) as [Ip [Cp [Bp Lp]]].
  pose proof (prev_period b z w Hz Es) as Ep. rewrite Es in Lw. rewrite Ep in Lp. apply inside_iff in Ip, Iw. rewrite Ep in Ip. rewrite Es in Iw.
  destruct (Z.lt_ge_cases u w) as [Hu|Hu].
  - destruct (z_start (z (w - 1))) as [s|] eqn:E1; [destruct (Z.lt_ge_cases u s); [lia|]|]; (rewrite (Cp u) in E by (apply inside_iff; rewrite E1, Ep; split; [lia || exact I|lia]); lia).
  - destruct (z_end (z w)) as [e|] eqn:E1; [destruct (Z.lt_ge_cases u e) as [H|H]; [|lia]|]; (rewrite (Cw u) in E by (apply inside_iff; rewrite E1, Es; split; [lia|lia || exact I]); lia).
Qed.

(* ---- the timestamp ---- *)
(* a location of old or new Go with the given lookup *)
Definition location_of (z : zone) (l : location) : Prop := l = old_go z \/ l = new_go z.
Lemma location_offset z l u : location_of z l -> l_offset l u = z_off (z u).
Proof. intros [-> | ->]; reflexivity. Qed.
Lemma location_unix z l n : location_of z l -> l_unix l n = unix_old z n \/ l_unix l n = unix_new z n.
Proof. intros [-> | ->]; auto. Qed.

Lemma secs_year0 mo d h mi s : valid_date 0 mo d -> valid_clock h mi s -> secs_of 0 mo d h mi s < secs_of 1 1 1 0 0 0.
Proof.
  intros [Hm Hd] [Hh [Hi Hs]]. unfold secs_of, days_of. change (is_leap 0) with true. change (is_leap 1) with false.
  change (365 * (1 - 1) + (1 - 1) / 4 - (1 - 1) / 100 + (1 - 1) / 400 + days_before false 1 + 1 - 1) with 0. change (365 * (0 - 1) + (0 - 1) / 4 - (0 - 1) / 100 + (0 - 1) / 400) with (-366).
  assert (H : days_before true mo + d <= 366); [|lia].
  assert (C : mo = 1 \/ mo = 2 \/ mo = 3 \/ mo = 4 \/ mo = 5 \/ mo = 6 \/ mo = 7 \/ mo = 8 \/ mo = 9 \/ mo = 10 \/ mo = 11 \/ mo = 12) by lia.
  unfold days_in in Hd. change (is_leap 0) with true in Hd. repeat (destruct C as [C|C]); subst mo; cbn in Hd; match goal with |- days_before true ?k + _ <= _ => let x := eval vm_compute in (days_before true k) in change (days_before true k) with x end; lia.
Qed.
(* the first reading of a Stamp is in the year 0, before any transition: the fields come back unchanged *)
Lemma year0 b z l mo d h mi s : zone_ok b z -> location_of z l -> first_transition_after z (secs_of 1 1 1 0 0 0 + b) -> valid_date 0 mo d -> valid_clock h mi s ->
  let t := date_in l 0 mo d h mi s 0 in t_year t = 0 /\ t_month t = mo /\ t_day t = d /\ t_hour t = h /\ t_min t = mi /\ t_sec t = s /\ t_nsec t = 0.
Proof.
  intros Hz Hl Hf Hd Hc. cbn zeta. set (n := secs_of 0 mo d h mi s). pose proof (secs_year0 mo d h mi s Hd Hc) as Hn. fold n in Hn.
  destruct (Hz (secs_of 1 1 1 0 0 0 + b)) as [Ia [Ca [Ba _]]]. unfold first_transition_after in Hf. apply inside_iff in Ia. rewrite Hf in Ia.
  set (o := z_off (z (secs_of 1 1 1 0 0 0 + b))) in *.
  assert (He : forall u, u < secs_of 1 1 1 0 0 0 + b -> z_off (z u) = o).
  { intros u Hu. rewrite (Ca u); [reflexivity|]. apply inside_iff. rewrite Hf. split; [exact I|]. destruct (z_end (z (secs_of 1 1 1 0 0 0 + b))); [lia|exact I]. }
  assert (Hr : reading z (l_unix l n) = n).
  { destruct (resolve b z n Hz (l_unix l n) (location_unix z l n Hl)) as [H|[w [Hw _]]]; [exact H|].
    destruct (skipped_never b z n w Hz Hw (n - o)). unfold reading. rewrite He by lia. lia. }
  unfold date_in. fold n. rewrite (location_offset z l _ Hl). unfold reading in Hr.
  assert (E : forall u o', u + o' = n -> time_at u 0 o' = Time 0 mo d h mi s 0 o').
  { intros u o' H. replace u with (secs_of 0 mo d h mi s - o') by (fold n; lia). apply time_at_civil; assumption. }
  rewrite (E _ _ Hr). cbn. auto 10.
Qed.

(* C75: the wall clock reading (in the year given by WithYear; 29 February of a common year is 1 March) is read in the location.  If the clocks of the
   location ever show it, the timestamp shows it, at the offset in effect; if a transition at w skips it, the timestamp is that reading
   taken at the offset in effect just before or just after w. *)
Theorem locale_timezone m s p z l b pri v host tail data msg e :
  stamp_text s p -> data = lit "<" ++ pri ++ lit ">" ++ s ++ lit " " ++ host ++ lit " " ++ tail -> pri_text pri v -> word 255 host ->
  timezone (config_of m) = Some l -> location_of z l -> zone_ok b z -> first_transition_after z (secs_of 1 1 1 0 0 0 + b) ->
  loc (config_of m) = None -> snd (parse m data) = Ret (Some msg) e ->
  let y := yyyy (config_of m) in
  let feb29 := month_length (sp_month p) y <? sp_day p in
  let mo := if feb29 then 3 else sp_month p in let d := if feb29 then 1 else sp_day p in
  let n := secs_of y mo d (sp_hour p) (sp_min p) (sp_sec p) in
  exists t, timestamp msg = Some t /\ t_nsec t = 0 /\ t_off t = z_off (z (unix_of t)) /\
  ((exists u, reading z u = n) -> t = Time y mo d (sp_hour p) (sp_min p) (sp_sec p) 0 (z_off (z (unix_of t)))) /\
  ((forall u, reading z u <> n) -> exists w, skipped z n w /\ (unix_of t = n - z_off (z (w - 1)) \/ unix_of t = n - z_off (z w))).
Proof.
  intros Hs Hd Hp Hw Htz Hloc Hz Hf Hl Hr y feb29 mo d n. destruct (stamp_ranges s p Hs) as [[Hm Hday] Hc].
  assert (Hh : hdr_text (config_of m) pri s host tail v (stamp_value (config_of m) p) data).
  { split; [exact Hd|]. split; [exact Hp|]. split; [left; eauto|exact Hw]. }
  destruct (header3164_fields _ _ _ _ _ _ _ _ _ _ Hh Hr) as [_ [_ [_ [_ [Ht _]]]]]. clear Hh Hr.
  destruct (year0 b z l (sp_month p) (sp_day p) (sp_hour p) (sp_min p) (sp_sec p) Hz Hloc Hf (conj Hm Hday) Hc) as [E1 [E2 [E3 [E4 [E5 [E6 E7]]]]]].
  unfold stamp_value in Ht. rewrite Hl, Htz in Ht. cbn zeta in Ht. rewrite E1, E2, E3, E4, E5, E6, E7, Z.add_0_l in Ht. fold y in Ht. clear E1 E2 E3 E4 E5 E6 E7.
  assert (Hn : secs_of y (sp_month p) (sp_day p) (sp_hour p) (sp_min p) (sp_sec p) = n /\ valid_date y mo d).
  { unfold n, mo, d. unfold feb29. rewrite Ts5424.month_length_eq. destruct (Z.ltb_spec (days_in (sp_month p) y) (sp_day p)) as [Hgt|Hle]; [|split; [reflexivity|split; lia]].
    assert (E : sp_month p = 2 /\ sp_day p = 29 /\ is_leap y = false).
    { unfold days_in in Hgt, Hday. rewrite is_leap_0 in Hday. destruct (Z.eqb_spec (sp_month p) 2) as [E2|E2].
      - destruct (is_leap y); [lia|]. split; [exact E2|]. split; [lia|reflexivity].
      - destruct ((sp_month p =? 4) || (sp_month p =? 6) || (sp_month p =? 9) || (sp_month p =? 11)); lia. }
    destruct E as [E1 [E2 E3]]. rewrite E1, E2. split; [unfold secs_of; rewrite (days_of_feb29 y E3); reflexivity|split; [lia|unfold days_in; cbn; lia]]. }
  destruct Hn as [Hn Hv]. unfold date_in in Ht. rewrite Hn, (location_offset z l _ Hloc) in Ht. set (x := l_unix l n) in *.
  eexists. split; [exact Ht|]. destruct (unix_time_at x 0 (z_off (z x))) as [A [B C]]. rewrite A, B, C. split; [reflexivity|]. split; [reflexivity|].
  destruct (resolve b z n Hz x (location_unix z l n Hloc)) as [H|[w [Hw' Hx]]].
  - split; [|intros Hno; destruct (Hno x H)]. intros _. unfold reading in H. assert (E : forall u o', u + o' = n -> time_at u 0 o' = Time y mo d (sp_hour p) (sp_min p) (sp_sec p) 0 o') by (intros u o' H'; replace u with (n - o') by lia; unfold n; apply time_at_civil; assumption).
    exact (E _ _ H).
  - split; [intros [u Hu]; destruct (skipped_never b z n w Hz Hw' u Hu)|]. intros _. exists w. auto.
Qed.

(* Berlin around 2020: local mean time, then CET with one summer of CEST *)
Definition berlin : zone := table 3208 [(-2422054408, 3600); (1585443600, 7200); (1603587600, 3600)].
Example berlin_ok : zone_ok 7200 berlin /\ first_transition_after berlin (secs_of 1 1 1 0 0 0 + 7200).
Proof.
  split; [apply table_ok; cbn; lia|vm_compute; reflexivity].
Qed.
Definition in_berlin (l : location) (text : bytes) : option time :=
  match snd (parse (new_machine false (Config 2020 false None (Some l))) text) with Ret (Some a) None => timestamp a | _ => None end.
Example berlin_summer l : location_of berlin l -> in_berlin l (lit "<1>Jul  4 12:00:00 h x") = Some (Time 2020 7 4 12 0 0 0 7200)
  /\ in_berlin l (lit "<1>Feb 29 12:00:00 h x") = Some (Time 2020 2 29 12 0 0 0 3600).
Proof. intros [-> | ->]; split; vm_compute; reflexivity. Qed.
(* 02:30 on the night the clocks go forward is skipped: taken at the offset before it is shown one hour later *)
Example berlin_skipped l : location_of berlin l -> in_berlin l (lit "<1>Mar 29 02:30:00 h x") = Some (Time 2020 3 29 3 30 0 0 7200)
  /\ skipped berlin (secs_of 2020 3 29 2 30 0) 1585443600.
Proof. intros [-> | ->]; (split; [vm_compute; reflexivity|split; [vm_compute; reflexivity|vm_compute; split; [discriminate|reflexivity]]]). Qed.
