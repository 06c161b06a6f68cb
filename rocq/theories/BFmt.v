(* Printing: decimal numbers, times, escaping; each printer is inverted by the grammar. *)
From Coq Require Import Permutation Sorted.
From Verif Require Import Bytes GoMap GoTime Common CommonFacts M5424Def A5424 M5424 Spec5424 Grammar5424 Utf8 Ts5424 Gram5424 Thm5424 BuilderBaseDef MBuilder.
Local Open Scope Z_scope.

(* ---- digits ---- *)
Lemma digit_byte_spec z : 0 <= z <= 9 -> digit (digit_byte z) /\ CommonFacts.dig (digit_byte z) = z.
Proof.
  intros H. assert (Hz : In z [0; 1; 2; 3; 4; 5; 6; 7; 8; 9]) by (cbn; lia).
  cbn in Hz. unfold digit. repeat (destruct Hz as [<-|Hz]; [vm_compute; split; [split; discriminate|reflexivity]|]). destruct Hz.
Qed.
Lemma mod10 z : 0 <= z mod 10 <= 9. Proof. pose proof (Z.mod_pos_bound z 10). lia. Qed.

Lemma num_d2 lo hi v : 0 <= v < 100 -> lo <= v <= hi -> num 2 (d2 v) lo hi v.
Proof.
  intros H Hr. destruct (digit_byte_spec _ (mod10 (v / 10))) as [A1 A2]. destruct (digit_byte_spec _ (mod10 v)) as [B1 B2].
  split; [reflexivity|]. split; [repeat (constructor; [assumption|]); constructor|]. split; [|exact Hr].
  unfold dec, d2. cbn [dec_acc]. rewrite A2, B2.
  rewrite (Z.mod_small (v / 10)); [|split; [apply Z.div_pos; lia|apply Z.div_lt_upper_bound; lia]].
  pose proof (Z.div_mod v 10). lia.
Qed.
Lemma dec_acc_app a : forall acc b, dec_acc acc (a ++ b) = dec_acc (dec_acc acc a) b.
Proof. induction a as [|x a IH]; intros acc b; [reflexivity|]. cbn [app dec_acc]. apply IH. Qed.
Lemma num_d4 lo hi v : 0 <= v < 10000 -> lo <= v <= hi -> num 4 (d4 v) lo hi v.
Proof.
  intros H Hr. unfold d4.
  destruct (digit_byte_spec _ (mod10 (v / 1000))) as [A1 A2]. destruct (digit_byte_spec _ (mod10 (v / 100))) as [B1 B2].
  destruct (digit_byte_spec _ (mod10 (v / 10))) as [C1 C2]. destruct (digit_byte_spec _ (mod10 v)) as [D1 D2].
  split; [reflexivity|]. split; [repeat (constructor; [assumption|]); constructor|]. split; [|exact Hr].
  unfold dec, d2. cbn [dec_acc app]. rewrite A2, B2, C2, D2.
  replace (v / 1000) with (v / 10 / 10 / 10) by (rewrite !Z.div_div by lia; reflexivity).
  replace (v / 100) with (v / 10 / 10) by (rewrite !Z.div_div by lia; reflexivity).
  set (x := v / 10). set (y := x / 10). set (w := y / 10).
  rewrite (Z.mod_small w); [|subst w y x; split; [repeat apply Z.div_pos; lia|rewrite !Z.div_div by lia; apply Z.div_lt_upper_bound; lia]].
  pose proof (Z.div_mod v 10). pose proof (Z.div_mod x 10). pose proof (Z.div_mod y 10). lia.
Qed.
Lemma dec_d6 v : 0 <= v < 1000000 -> Forall digit (d6 v) /\ dec (d6 v) = v.
Proof.
  intros H. unfold d6.
  destruct (digit_byte_spec _ (mod10 (v / 100000))) as [A1 A2]. destruct (digit_byte_spec _ (mod10 (v / 10000))) as [B1 B2].
  destruct (digit_byte_spec _ (mod10 (v / 1000))) as [C1 C2]. destruct (digit_byte_spec _ (mod10 (v / 100))) as [D1 D2].
  destruct (digit_byte_spec _ (mod10 (v / 10))) as [E1 E2]. destruct (digit_byte_spec _ (mod10 v)) as [F1 F2].
  split; [repeat (constructor; [assumption|]); constructor|].
  unfold dec. cbn [dec_acc]. rewrite A2, B2, C2, D2, E2, F2.
  replace (v / 100000) with (v / 10 / 10 / 10 / 10 / 10) by (rewrite !Z.div_div by lia; reflexivity).
  replace (v / 10000) with (v / 10 / 10 / 10 / 10) by (rewrite !Z.div_div by lia; reflexivity).
  replace (v / 1000) with (v / 10 / 10 / 10) by (rewrite !Z.div_div by lia; reflexivity).
  replace (v / 100) with (v / 10 / 10) by (rewrite !Z.div_div by lia; reflexivity).
  set (x := v / 10). set (y := x / 10). set (w := y / 10). set (u := w / 10). set (s := u / 10).
  rewrite (Z.mod_small s); [|subst s u w y x; split; [repeat apply Z.div_pos; lia|rewrite !Z.div_div by lia; apply Z.div_lt_upper_bound; lia]].
  pose proof (Z.div_mod v 10). pose proof (Z.div_mod x 10). pose proof (Z.div_mod y 10). pose proof (Z.div_mod w 10). pose proof (Z.div_mod u 10). lia.
Qed.

(* trailing zeros *)
Fixpoint zeros (k : nat) : bytes := match k with O => [] | S k => "0"%byte :: zeros k end.
Lemma zeros_len k : length (zeros k) = k. Proof. induction k; cbn; auto. Qed.
Lemma strip0_app l : exists k, l = strip0 l ++ zeros k.
Proof.
  induction l as [|d r [k IH]]; [exists O; reflexivity|]. cbn [strip0].
  destruct (strip0 r) as [|x y] eqn:E.
  - destruct (beqb d "0") eqn:Ed.
    + apply beqb_eq in Ed. subst d. exists (S k). cbn [zeros app]. cbn [app] in IH. rewrite <- IH. reflexivity.
    + exists k. cbn [app]. cbn [app] in IH. rewrite <- IH. reflexivity.
  - exists k. cbn [app]. cbn [app] in IH. rewrite <- IH. reflexivity.
Qed.
Lemma dec_acc_zeros k : forall acc, dec_acc acc (zeros k) = acc * 10 ^ Z.of_nat k.
Proof.
  induction k as [|k IH]; intros acc; [cbn [zeros dec_acc Z.of_nat]; rewrite Z.pow_0_r; lia|].
  cbn [zeros dec_acc]. rewrite IH, Nat2Z.inj_succ, Z.pow_succ_r by lia. change (CommonFacts.dig "0") with 0. lia.
Qed.
Lemma fmt_frac_text ns : 0 <= ns < 1000000000 -> ns mod 1000 = 0 -> frac_text (fmt_frac ns) ns.
Proof.
  intros H Hm. unfold fmt_frac. set (q := ns / 1000).
  assert (Hq : 0 <= q < 1000000) by (subst q; split; [apply Z.div_pos; lia|apply Z.div_lt_upper_bound; lia]).
  assert (Hns : ns = q * 1000) by (pose proof (Z.div_mod ns 1000); subst q; lia).
  destruct (dec_d6 q Hq) as [Hd Hv]. destruct (strip0_app (d6 q)) as [k Hk].
  assert (Hl : (length (strip0 (d6 q)) + k = 6)%nat).
  { pose proof (f_equal (@length byte) Hk) as Hlen. rewrite app_length, zeros_len in Hlen. cbn [d6 length] in Hlen. lia. }
  assert (Hdec : dec (strip0 (d6 q)) * 10 ^ Z.of_nat k = q).
  { rewrite <- Hv at 2. rewrite Hk at 2. unfold dec at 2. rewrite dec_acc_app. fold (dec (strip0 (d6 q))). rewrite dec_acc_zeros. reflexivity. }
  assert (Hdg : Forall digit (strip0 (d6 q))) by (rewrite Hk in Hd; apply Forall_app in Hd; apply Hd).
  clearbody q. clear Hk Hv Hd. destruct (strip0 (d6 q)) as [|x y].
  - cbn [dec dec_acc] in Hdec. unfold dec in Hdec. cbn in Hdec. replace ns with 0 by lia. constructor.
  - set (l := x :: y) in *. replace ns with (dec l * 10 ^ (9 - Z.of_nat (length l))).
    + constructor; [|exact Hdg]. unfold l in *. cbn [length] in *. lia.
    + rewrite Hns, <- Hdec. replace (9 - Z.of_nat (length l)) with (Z.of_nat k + 3) by lia. rewrite Z.pow_add_r by lia. lia.
Qed.

Lemma fmt_zone_text h m (neg : bool) : 0 <= h <= 23 -> 0 <= m <= 59 ->
  let off := if neg then - (h * 3600 + m * 60) else h * 3600 + m * 60 in zone_text (fmt_zone off) off.
Proof.
  intros Hh Hm off. unfold fmt_zone. destruct (Z.eqb_spec off 0) as [E|E]; [rewrite E; apply z_utc|].
  assert (Ha : Z.abs off / 60 = h * 60 + m).
  { replace (Z.abs off) with ((h * 60 + m) * 60) by (subst off; destruct neg; lia). apply Z.div_mul. lia. }
  rewrite Ha. replace ((h * 60 + m) / 60) with h by (rewrite Z.div_add_l by lia; rewrite (Z.div_small m) by lia; lia).
  replace ((h * 60 + m) mod 60) with m by (rewrite Z.add_comm, Z.mod_add by lia; rewrite Z.mod_small; lia).
  assert (H1 : num 2 (d2 h) 0 23 h) by (apply num_d2; lia). assert (H2 : num 2 (d2 m) 0 59 m) by (apply num_d2; lia).
  destruct neg; subst off.
  - replace (- (h * 3600 + m * 60) <? 0) with true by (symmetry; apply Z.ltb_lt; lia). apply (z_minus (d2 h) (d2 m) h m H1 H2).
  - replace (h * 3600 + m * 60 <? 0) with false by (symmetry; apply Z.ltb_ge; lia). apply (z_plus (d2 h) (d2 m) h m H1 H2).
Qed.
Lemma zone_text_form z off : zone_text z off -> exists h m neg, 0 <= h <= 23 /\ 0 <= m <= 59 /\ off = if (neg : bool) then - (h * 3600 + m * 60) else h * 3600 + m * 60.
Proof.
  intros H. destruct H as [|hh mm h m [_ [_ [_ H1]]] [_ [_ [_ H2]]]|hh mm h m [_ [_ [_ H1]]] [_ [_ [_ H2]]]].
  - exists 0, 0, false. repeat split; lia.
  - exists h, m, false. repeat split; lia.
  - exists h, m, true. repeat split; lia.
Qed.
Lemma frac_text_form f ns : frac_text f ns -> 0 <= ns < 1000000000 /\ ns mod 1000 = 0.
Proof.
  intros H. destruct H as [|ds Hl Hd]; [split; [lia|reflexivity]|].
  pose proof (dec_bound ds Hd) as Hb. set (n := Z.of_nat (length ds)) in *. assert (Hn : 1 <= n <= 6) by lia.
  split.
  - split; [apply Z.mul_nonneg_nonneg; [lia|apply Z.pow_nonneg; lia]|].
    apply Z.lt_le_trans with (10 ^ n * 10 ^ (9 - n)).
    + apply Z.mul_lt_mono_pos_r; [apply Z.pow_pos_nonneg; lia|lia].
    + rewrite <- Z.pow_add_r by lia. replace (n + (9 - n)) with 9 by lia. cbn. lia.
  - replace (9 - n) with ((6 - n) + 3) by lia. rewrite Z.pow_add_r by lia. rewrite Z.mul_assoc. change (10 ^ 3) with 1000. apply Z.mod_mul. lia.
Qed.

(* a time that has a textual form is printed in that form *)
Theorem format_micro_text s t : ts_text s t -> ts_text (format_micro t) t.
Proof.
  intros [yyyy [mo [dd [hh [mi [ss [fr [zo [_ [Hy [Hmo [Hdd [Hhh [Hmi [Hss [Hfr Hzo]]]]]]]]]]]]]]]].
  pose proof (days_in_31 (t_month t) (t_year t)) as H31. rewrite <- month_length_eq in H31.
  destruct Hy as [_ [_ [_ Hy]]]. destruct Hmo as [_ [_ [_ Hmo]]]. destruct Hdd as [_ [_ [_ Hdd]]]. destruct Hhh as [_ [_ [_ Hhh]]].
  destruct Hmi as [_ [_ [_ Hmi]]]. destruct Hss as [_ [_ [_ Hss]]]. apply frac_text_form in Hfr as [Hf1 Hf2].
  apply zone_text_form in Hzo as [h [m [neg [Hh [Hm Ho]]]]].
  exists (d4 (t_year t)), (d2 (t_month t)), (d2 (t_day t)), (d2 (t_hour t)), (d2 (t_min t)), (d2 (t_sec t)), (fmt_frac (t_nsec t)), (fmt_zone (t_off t)).
  split; [reflexivity|]. split; [apply num_d4; lia|]. split; [apply num_d2; lia|]. split; [apply num_d2; lia|].
  split; [apply num_d2; lia|]. split; [apply num_d2; lia|]. split; [apply num_d2; lia|]. split; [apply fmt_frac_text; assumption|].
  rewrite Ho. apply fmt_zone_text; assumption.
Qed.

(* ---- %d ---- *)
Lemma digit_head z : 0 < z <= 9 -> digit_byte z <> "0"%byte.
Proof. intros H E. assert (Hd : CommonFacts.dig (digit_byte z) = z) by (apply digit_byte_spec; lia). rewrite E in Hd. change (CommonFacts.dig "0") with 0 in Hd. lia. Qed.
Lemma to_dec_loop_spec f : forall z acc, 0 <= z < 10 ^ Z.of_nat f -> (0 < f)%nat ->
  exists ds, to_dec_loop f z acc = ds ++ acc /\ Forall digit ds /\ dec ds = z /\ (z = 0 /\ ds = lit "0" \/ exists d r, ds = d :: r /\ d <> "0"%byte).
Proof.
  induction f as [|f IH]; intros z acc Hz Hf; [lia|]. cbn [to_dec_loop].
  destruct (digit_byte_spec _ (mod10 z)) as [D1 D2]. destruct (Z.ltb_spec z 10) as [Hlt|Hge].
  - exists [digit_byte (z mod 10)]. rewrite Z.mod_small in * by lia. split; [reflexivity|]. split; [constructor; [exact D1|constructor]|].
    split; [unfold dec; cbn [dec_acc]; lia|]. destruct (Z.eq_dec z 0) as [->|Hn]; [left; split; reflexivity|].
    right. exists (digit_byte z), []. split; [reflexivity|]. apply digit_head. lia.
  - assert (Hf' : (0 < f)%nat). { destruct f; [cbn in Hz; lia|lia]. }
    destruct (IH (z / 10) (digit_byte (z mod 10) :: acc)) as [ds [E [Hd [Hv Hh]]]].
    + rewrite Nat2Z.inj_succ, Z.pow_succ_r in Hz by lia. split; [apply Z.div_pos; lia|apply Z.div_lt_upper_bound; lia].
    + exact Hf'.
    + exists (ds ++ [digit_byte (z mod 10)]). split; [rewrite E, <- app_assoc; reflexivity|].
      split; [apply Forall_app; split; [exact Hd|constructor; [exact D1|constructor]]|].
      split; [unfold dec in *; rewrite dec_acc_app, Hv; cbn [dec_acc]; rewrite D2; pose proof (Z.div_mod z 10); lia|].
      right. destruct Hh as [[H0 _]|[d [r [-> Hn]]]].
      * assert (z / 10 >= 1) by (apply Z.le_ge, Z.div_le_lower_bound; lia). lia.
      * exists d, (r ++ [digit_byte (z mod 10)]). split; [reflexivity|exact Hn].
Qed.
Lemma to_dec_plain z lo hi : 0 <= z < 10 ^ 20 -> lo <= z <= hi -> plain_number (to_dec z) lo hi z.
Proof.
  intros Hz Hr. unfold to_dec. destruct (to_dec_loop_spec 20 z [] Hz ltac:(lia)) as [ds [E [Hd [Hv Hh]]]]. rewrite app_nil_r in E. rewrite E.
  split; [exact Hd|]. split; [exact Hv|]. split; [exact Hr|]. destruct Hh as [[_ ->]|H]; auto.
Qed.
