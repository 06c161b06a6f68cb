(* C59: what the texts of the errors tell. *)
From Verif Require Import Bytes CommonFacts GoMap GoTime Common M5424Def M5424 MBuilder BFmt Fmt Thm5424 Fail5424 ThmFail5424.
From Verif Require Import Bufio MOctet SpecOctet ThmOctet ErrText.
From Verif Require Import Grammar5424.
From Verif Require M3164Def M3164 Grammar3164 Fail3164 ThmFail3164 Viable3164.
Local Open Scope Z_scope.

(* ---------- numerals ---------- *)
Lemma dec_text_nonneg z : 0 <= z -> dec_text z = to_dec z.
Proof. intros H. unfold dec_text. destruct (Z.ltb_spec z 0); [lia|reflexivity]. Qed.
Lemma dec_text_plain z hi : 0 <= z <= hi -> z < 10 ^ 20 -> plain_number (dec_text z) 0 hi z.
Proof. intros H H2. rewrite dec_text_nonneg by lia. apply to_dec_plain; lia. Qed.
Definition numchar (b : byte) : Prop := digit b \/ b = "-"%byte.
Lemma dec_text_numchar z : - 10 ^ 20 < z < 10 ^ 20 -> Forall numchar (dec_text z).
Proof.
  intros H. assert (Hd : forall y, 0 <= y < 10 ^ 20 -> Forall numchar (to_dec y)).
  { intros y Hy. destruct (to_dec_plain y 0 y Hy ltac:(lia)) as [Hf _]. eapply Forall_impl; [|exact Hf]. left. assumption. }
  unfold dec_text. destruct (Z.ltb_spec z 0); [|apply Hd; lia]. constructor; [right; reflexivity|apply Hd; lia].
Qed.
Lemma dec_text_inj a b : - 10 ^ 20 < a < 10 ^ 20 -> - 10 ^ 20 < b < 10 ^ 20 -> dec_text a = dec_text b -> a = b.
Proof.
  intros Ha Hb. assert (Hd : forall y, 0 <= y < 10 ^ 20 -> dec (to_dec y) = y /\ Forall digit (to_dec y)).
  { intros y Hy. destruct (to_dec_plain y 0 y Hy ltac:(lia)) as [Hf [E _]]. auto. }
  assert (Hn : forall y r, 0 <= y < 10 ^ 20 -> to_dec y <> "-"%byte :: r).
  { intros y r Hy E. destruct (Hd y Hy) as [_ Hf]. rewrite E in Hf. inversion Hf as [|? ? H _]; subst. unfold digit in H. change (bN "-") with 45%N in H. lia. }
  unfold dec_text. destruct (Z.ltb_spec a 0), (Z.ltb_spec b 0); intros E.
  - assert (E' : to_dec (- a) = to_dec (- b)) by (apply (app_inv_head (lit "-")); exact E).
    assert (- a = - b) by (rewrite <- (proj1 (Hd (- a) ltac:(lia))), E'; apply Hd; lia). lia.
  - symmetry in E. destruct (Hn b (to_dec (- a)) ltac:(lia) E).
  - destruct (Hn a (to_dec (- b)) ltac:(lia) E).
  - rewrite <- (proj1 (Hd a ltac:(lia))), E. apply Hd. lia.
Qed.

(* ---------- cutting texts ---------- *)
Lemma cut_first (P : byte -> Prop) u : forall u' c c' r r', Forall P u -> Forall P u' -> ~ P c -> ~ P c' -> u ++ c :: r = u' ++ c' :: r' -> u = u' /\ c = c' /\ r = r'.
Proof.
  induction u as [|x u IH]; intros [|y u'] c c' r r' H H' Hc Hc' E; cbn [app] in E.
  - injection E as -> ->. auto.
  - inversion H'; subst. injection E as -> _. contradiction.
  - inversion H; subst. injection E as <- _. contradiction.
  - inversion H; inversion H'; subst. injection E as -> E. destruct (IH _ _ _ _ _ H3 H7 Hc Hc' E) as [-> [-> ->]]. auto.
Qed.
Lemma cut_last (P : byte -> Prop) a a' c c' u u' : Forall P u -> Forall P u' -> ~ P c -> ~ P c' -> a ++ c :: u = a' ++ c' :: u' -> a = a' /\ c = c' /\ u = u'.
Proof.
  intros H H' Hc Hc' E. assert (E' : rev u ++ c :: rev a = rev u' ++ c' :: rev a').
  { apply (f_equal (@rev byte)) in E. rewrite !rev_app_distr in E. cbn [rev] in E. rewrite <- !app_assoc in E. exact E. }
  apply (cut_first P) in E' as [E1 [E2 E3]]; auto using Forall_rev.
  apply (f_equal (@rev byte)) in E1, E3. rewrite !rev_involutive in E1, E3. auto.
Qed.

(* ---------- what the texts are ---------- *)
Definition wording (e : perr) : bytes := match e with PErr k _ => kind_text k | PTime v _ => time_error_text v end.
Definition with_column (w n : bytes) : bytes := w ++ lit " [col " ++ n ++ lit "]".
Lemma perr_text_eq e : perr_text e = with_column (wording e) (dec_text (perr_col e)).
Proof.
  unfold with_column. destruct e as [k c|v c]; cbn [perr_text wording perr_col].
  - rewrite sprintf_copy by (apply no_verb_ok; destruct k; vm_compute; reflexivity). reflexivity.
  - change (sprintf (lit "%s [col %d]") _) with (time_error_text v ++ lit " [col " ++ dec_text c ++ lit "]"). reflexivity.
Qed.
Definition wording3164 (e : M3164Def.perr) : bytes :=
  match e with
  | M3164Def.PErr M3164Def.EPrival _ => lit "expecting a priority value in the range 1-191 or equal to 0"
  | M3164Def.PErr M3164Def.EPri _ => lit "expecting a priority value within angle brackets"
  | M3164Def.PErr M3164Def.ETimestamp _ => lit "expecting a Stamp timestamp"
  | M3164Def.PErr M3164Def.ERFC3339 _ => lit "expecting a Stamp or a RFC3339 timestamp"
  | M3164Def.PErr M3164Def.EHostname _ => lit "expecting an hostname (from 1 to max 255 US-ASCII characters)"
  | M3164Def.PErr M3164Def.ETag _ => lit "expecting an alphanumeric tag (max 32 characters)"
  | M3164Def.PTime v _ => time_error_text v
  end.
Lemma perr_text3164_eq e : perr_text3164 e = with_column (wording3164 e) (dec_text (M3164Def.perr_col e)).
Proof.
  unfold with_column. destruct e as [k c|v c]; cbn [M3164Def.perr_col].
  - assert (H : exists w, kind_text3164 k = w ++ column_template /\ wording3164 (M3164Def.PErr k c) = w /\ no_verb w = true).
    { exists (wording3164 (M3164Def.PErr k c)). destruct k; vm_compute; auto. }
    destruct H as [w [E1 [E2 E3]]]. unfold perr_text3164. rewrite E1, E2, sprintf_copy by (apply no_verb_ok; exact E3). reflexivity.
  - change (perr_text3164 _) with (time_error_text v ++ lit " [col " ++ dec_text c ++ lit "]"). reflexivity.
Qed.

(* C59: the text of the error of a rejected input is a fixed wording (or the error of time.Parse), and the column where the
   error occurred, in decimal *)
Theorem parse_error_text m data x e : snd (parse m data) = Ret x (Some e) -> Z.of_nat (length data) < 2 ^ 63 ->
  exists w n, perr_text e = w ++ lit " [col " ++ n ++ lit "]" /\ plain_number n 0 (Z.of_nat (length data)) (perr_col e)
    /\ match e with PErr k _ => w = kind_text k | PTime v _ => w = time_error_text v end.
Proof.
  intros H Hl. pose proof (parse_error_position _ _ _ _ H) as Hc. exists (wording e), (dec_text (perr_col e)).
  split; [apply perr_text_eq|]. split; [apply dec_text_plain; lia|]. destruct e; reflexivity.
Qed.
Lemma position3164 m data x e : snd (M3164.parse m data) = M3164.Ret x (Some e) -> 0 <= M3164Def.perr_col e <= Z.of_nat (length data).
Proof.
  intros H. destruct (Viable3164.rejected_fails m data x _ H) as [y [Hf _]]. revert Hf. generalize (M3164.config_of m) as c. clear.
  intros c Hf. remember (Some e) as oe eqn:Eo. revert Eo. destruct Hf; intros Eo;
   repeat match goal with k : option M3164Def.ekind |- _ => destruct k; [|discriminate Eo] end;
   try discriminate Eo; apply Viable3164.some_inj in Eo; subst e; cbn [M3164Def.perr_col]; unfold Fail5424.col; rewrite ?app_length, ?Nat2Z.inj_add; cbn [length]; change (length (lit "<")) with 1%nat; change (length (lit ">")) with 1%nat; try lia.
Qed.
Theorem parse3164_error_text m data x e : snd (M3164.parse m data) = M3164.Ret x (Some e) -> Z.of_nat (length data) < 2 ^ 63 ->
  exists w n, perr_text3164 e = w ++ lit " [col " ++ n ++ lit "]" /\ plain_number n 0 (Z.of_nat (length data)) (M3164Def.perr_col e)
    /\ match e with M3164Def.PErr k _ => w ++ lit " [col %d]" = kind_text3164 k | M3164Def.PTime v _ => w = time_error_text v end.
Proof.
  intros H Hl. pose proof (position3164 _ _ _ _ H) as Hc. exists (wording3164 e), (dec_text (M3164Def.perr_col e)).
  split; [apply perr_text3164_eq|]. split; [apply dec_text_plain; lia|]. destruct e as [[]|]; reflexivity.
Qed.
(* the column can be read back from the end of the text *)
Lemma digit_numchar n : Forall digit n -> Forall numchar n. Proof. apply Forall_impl. left. assumption. Qed.
Lemma not_numchar b : (bN b < 45 \/ 57 < bN b)%N -> ~ numchar b.
Proof. intros H [Hd | ->]; [unfold digit in Hd; lia|change (bN "-") with 45%N in H; lia]. Qed.
Lemma with_column_inj w n w' n' : Forall numchar n -> Forall numchar n' -> with_column w n = with_column w' n' -> w = w' /\ n = n'.
Proof.
  unfold with_column. intros H H' E. rewrite !app_assoc in E. apply app_inv_tail in E.
  change (lit " [col ") with (lit " [col" ++ [" "%byte]) in E. rewrite !app_assoc in E. rewrite <- !app_assoc in E. cbn [app] in E. rewrite !(app_assoc _ (lit " [col")) in E.
  apply (cut_last numchar) in E as [E [_ ->]]; try assumption; try (apply not_numchar; change (bN " ") with 32%N; lia).
  split; [eapply app_inv_tail; exact E|reflexivity].
Qed.
Theorem column_read_back w n w' n' : Forall digit n -> Forall digit n' ->
  w ++ lit " [col " ++ n ++ lit "]" = w' ++ lit " [col " ++ n' ++ lit "]" -> w = w' /\ n = n'.
Proof. intros H H' E. eapply with_column_inj; eauto using digit_numchar. Qed.

(* the wordings differ *)
Lemma time_error_text_inj v v' : time_error_text v = time_error_text v' -> v = v'.
Proof. unfold time_error_text. intros E. apply app_inv_head in E. eapply app_inv_tail; exact E. Qed.
Lemma kind_text_inj k k' : kind_text k = kind_text k' -> k = k'.
Proof. destruct k, k'; intros E; first [reflexivity|vm_compute in E; discriminate E]. Qed.
Lemma kind_not_time k v : kind_text k <> time_error_text v.
Proof. intros E. apply (f_equal (firstn 13)) in E. destruct k; vm_compute in E; discriminate E. Qed.
Lemma wording_inj e e' : wording e = wording e' -> perr_col e = perr_col e' -> e = e'.
Proof.
  destruct e as [k c|v c], e' as [k' c'|v' c']; cbn [wording perr_col]; intros E ->.
  - apply kind_text_inj in E as ->. reflexivity.
  - destruct (kind_not_time _ _ E).
  - symmetry in E. destruct (kind_not_time _ _ E).
  - apply time_error_text_inj in E as ->. reflexivity.
Qed.
Lemma wording3164_inj e e' : wording3164 e = wording3164 e' -> M3164Def.perr_col e = M3164Def.perr_col e' -> e = e'.
Proof.
  destruct e as [k c|v c], e' as [k' c'|v' c']; cbn [M3164Def.perr_col]; intros E ->.
  - destruct k, k'; first [reflexivity|vm_compute in E; discriminate E].
  - exfalso. apply (f_equal (firstn 13)) in E. destruct k; vm_compute in E; discriminate E.
  - exfalso. apply (f_equal (firstn 13)) in E. destruct k'; vm_compute in E; discriminate E.
  - apply time_error_text_inj in E as ->. reflexivity.
Qed.
Lemma perr_text_inj e e' : 0 <= perr_col e < 2 ^ 63 -> 0 <= perr_col e' < 2 ^ 63 -> perr_text e = perr_text e' -> e = e'.
Proof.
  intros H H' E. rewrite !perr_text_eq in E. apply with_column_inj in E as [E1 E2]; try (apply dec_text_numchar; lia).
  apply dec_text_inj in E2; [|lia..]. apply wording_inj; assumption.
Qed.
Lemma perr_text3164_inj e e' : 0 <= M3164Def.perr_col e < 2 ^ 63 -> 0 <= M3164Def.perr_col e' < 2 ^ 63 -> perr_text3164 e = perr_text3164 e' -> e = e'.
Proof.
  intros H H' E. rewrite !perr_text3164_eq in E. apply with_column_inj in E as [E1 E2]; try (apply dec_text_numchar; lia).
  apply dec_text_inj in E2; [|lia..]. apply wording3164_inj; assumption.
Qed.
(* C59: the text tells the kind of the error, the column and the timestamp concerned, if any *)
Theorem parse_error_text_tells m m' data data' x x' e e' : snd (parse m data) = Ret x (Some e) -> snd (parse m' data') = Ret x' (Some e') ->
  Z.of_nat (length data) < 2 ^ 63 -> Z.of_nat (length data') < 2 ^ 63 -> perr_text e = perr_text e' -> e = e'.
Proof. intros H H' L L'. pose proof (parse_error_position _ _ _ _ H). pose proof (parse_error_position _ _ _ _ H'). apply perr_text_inj; lia. Qed.
Theorem parse3164_error_text_tells m m' data data' x x' e e' : snd (M3164.parse m data) = M3164.Ret x (Some e) -> snd (M3164.parse m' data') = M3164.Ret x' (Some e') ->
  Z.of_nat (length data) < 2 ^ 63 -> Z.of_nat (length data') < 2 ^ 63 -> perr_text3164 e = perr_text3164 e' -> e = e'.
Proof. intros H H' L L'. pose proof (position3164 _ _ _ _ H). pose proof (position3164 _ _ _ _ H'). apply perr_text3164_inj; lia. Qed.

(* ---------- the errors of time.Parse ---------- *)
(* C59: the error of time.Parse occurs for texts of the form of a timestamp whose day exceeds the length of the month, so
   that its text is the one of time_error_text *)
Theorem parse_time_error m data x v c : snd (parse m data) = Ret x (Some (PTime v c)) ->
  exists yyyy mm dd hh mi ss fr zo y mo d h m s ns off,
    v = yyyy ++ lit "-" ++ mm ++ lit "-" ++ dd ++ lit "T" ++ hh ++ lit ":" ++ mi ++ lit ":" ++ ss ++ fr ++ zo
    /\ num 4 yyyy 0 9999 y /\ num 2 mm 1 12 mo /\ num 2 dd 1 31 d /\ num 2 hh 0 23 h /\ num 2 mi 0 59 m /\ num 2 ss 0 59 s
    /\ frac_text fr ns /\ zone_text zo off /\ month_length mo y < d.
Proof.
  intros H. apply parse_fails in H as [z [Hf _]]. remember (PTime v c) as e eqn:Ee. destruct Hf; try discriminate Ee. injection Ee as -> _.
  destruct H0 as [yyyy [mo [dd [hh [mi [ss [fr [zo [vy [vmo [vd [vh [vmi [vs [ns [off [-> [A1 [A2 [A3 [A4 [A5 [A6 [A7 A8]]]]]]]]]]]]]]]]]]]]]]]].
  exists yyyy, mo, dd, hh, mi, ss, fr, zo, vy, vmo, vd, vh, vmi, vs, ns, off. split; [reflexivity|]. do 8 (split; [assumption|]).
  apply Z.nle_gt. intros Hle. apply (H1 (Time vy vmo vd vh vmi vs ns off)). exists yyyy, mo, dd, hh, mi, ss, fr, zo. split; [reflexivity|].
  cbn [t_year t_month t_day t_hour t_min t_sec t_nsec t_off]. repeat (split; [assumption|]). split; [|repeat (split; [assumption|]); assumption].
  destruct A3 as [B1 [B2 [B3 B4]]]. repeat (split; [assumption|]). lia.
Qed.
Theorem parse3164_time_error m data x v c : snd (M3164.parse m data) = M3164.Ret x (Some (M3164Def.PTime v c)) ->
  (exists mon dd hh mi ss mo d h m s,
    v = mon ++ lit " " ++ dd ++ lit " " ++ hh ++ lit ":" ++ mi ++ lit ":" ++ ss
    /\ In (mon, mo) Grammar3164.month_names /\ Grammar3164.day_text dd 31 d /\ num 2 hh 0 23 h /\ num 2 mi 0 59 m /\ num 2 ss 0 59 s
    /\ month_length mo 0 < d)
  \/ exists yyyy mm dd hh mi ss zo y mo d h m s off,
    v = yyyy ++ lit "-" ++ mm ++ lit "-" ++ dd ++ lit "T" ++ hh ++ lit ":" ++ mi ++ lit ":" ++ ss ++ zo
    /\ num 4 yyyy 0 9999 y /\ num 2 mm 1 12 mo /\ num 2 dd 1 31 d /\ num 2 hh 0 23 h /\ num 2 mi 0 59 m /\ num 2 ss 0 59 s
    /\ zone_text zo off /\ month_length mo y < d.
Proof.
  intros H. destruct (Viable3164.rejected_fails m data x _ H) as [z [Hf _]]. revert Hf. generalize (M3164.config_of m) as cf. clear. intros cf Hf.
  remember (Some (M3164Def.PTime v c)) as e eqn:Ee. destruct Hf; try discriminate Ee; [destruct k; discriminate Ee|].
  apply Viable3164.some_inj in Ee. assert (s = v) as -> by congruence. clear Ee. destruct H0 as [H0|[Hr H0]].
  - destruct H0 as [mon [dd [hh [mi [ss [mo [d [h [mn [sec [E [A1 [A2 [A3 [A4 A5]]]]]]]]]]]]]]].
    left. exists mon, dd, hh, mi, ss, mo, d, h, mn, sec. split; [exact E|]. do 5 (split; [assumption|]).
    apply Z.nle_gt. intros Hle. set (st := Cal.Stamp mo d h mn sec). apply (H1 (Grammar3164.stamp_value cf st)). left. exists st. split; [|reflexivity].
    exists mon, dd, hh, mi, ss. split; [exact E|]. subst st. cbn [Cal.sp_month Cal.sp_day Cal.sp_hour Cal.sp_min Cal.sp_sec].
    split; [assumption|]. split; [|repeat (split; [assumption|]); assumption].
    destruct A2 as [[B1 [B2 [B3 B4]]]|B]; [left; repeat (split; [assumption|]); lia|right; exact B].
  - destruct H0 as [yyyy [mm [dd [hh [mi [ss [zo [y [mo [d [h [mn [sec [off [E [A1 [A2 [A3 [A4 [A5 [A6 A7]]]]]]]]]]]]]]]]]]]]].
    right. exists yyyy, mm, dd, hh, mi, ss, zo, y, mo, d, h, mn, sec, off. split; [exact E|]. do 7 (split; [assumption|]).
    apply Z.nle_gt. intros Hle. apply (H1 (Time y mo d h mn sec 0 off)). right. split; [exact Hr|]. split.
    + exists yyyy, mm, dd, hh, mi, ss, [], zo. split; [exact E|]. cbn [t_year t_month t_day t_hour t_min t_sec t_nsec t_off].
      do 2 (split; [assumption|]). split; [destruct A3 as [B1 [B2 [B3 B4]]]; repeat (split; [assumption|]); lia|]. do 3 (split; [assumption|]). split; [constructor|assumption].
    + rewrite E. assert (Hn : forall k w a b z, num k w a b z -> ~ In "."%byte w).
      { intros k w a b z [_ [Hd _]] Hi. apply (proj1 (Forall_forall _ _) Hd) in Hi. unfold digit in Hi. change (bN ".") with 46%N in Hi. lia. }
      rewrite !in_app_iff. change (lit "-") with ["-"%byte]. change (lit "T") with ["T"%byte]. change (lit ":") with [":"%byte].
      assert (Hz : ~ In "."%byte zo). { destruct A7; rewrite ?in_app_iff; cbn [In lit]; [intros [Hx|[]]; discriminate Hx|..]; change (lit "+") with ["+"%byte]; change (lit "-") with ["-"%byte]; change (lit ":") with [":"%byte]; cbn [In];
        intuition (eauto; congruence). }
      cbn [In]. intuition (eauto; congruence).
Qed.

(* ---------- one line of printable ASCII ---------- *)
Definition line_char (b : byte) : Prop := (32 <= bN b <= 126)%N.
Definition line_charb (b : byte) : bool := ((32 <=? bN b) && (bN b <=? 126))%N.
Lemma line_lit w : forallb line_charb w = true -> Forall line_char w.
Proof. intros H. apply Forall_forall. intros b Hb. apply (proj1 (forallb_forall _ _) H) in Hb. unfold line_charb in Hb. rewrite andb_true_iff, !N.leb_le in Hb. exact Hb. Qed.
(* neither changed by Go's quoting of time values nor by printing *)
Definition time_char (b : byte) : Prop := line_char b /\ b <> """"%byte /\ b <> "\"%byte.
Definition time_charb (b : byte) : bool := line_charb b && negb (beqb b """") && negb (beqb b "\").
Lemma time_lit w : forallb time_charb w = true -> Forall time_char w.
Proof.
  intros H. apply Forall_forall. intros b Hb. apply (proj1 (forallb_forall _ _) H) in Hb. unfold time_charb in Hb.
  apply andb_true_iff in Hb as [Hb H2]. apply andb_true_iff in Hb as [H1 H3]. unfold line_charb in H1. rewrite andb_true_iff, !N.leb_le in H1. apply negb_true_iff in H2, H3.
  split; [exact H1|]. split; intros ->; discriminate.
Qed.
Lemma time_digits w : Forall digit w -> Forall time_char w.
Proof. apply Forall_impl. intros b H. unfold digit in H. split; [unfold line_char; lia|]. split; intros ->; vm_compute in H; destruct H as [H1 H2]; try (apply H1; reflexivity); try (apply H2; reflexivity). Qed.
Lemma time_num k w a b z : num k w a b z -> Forall time_char w. Proof. intros [_ [H _]]. apply time_digits, H. Qed.
Lemma time_zone zo off : zone_text zo off -> Forall time_char zo.
Proof. destruct 1; rewrite ?Forall_app; repeat split; try (apply time_lit; reflexivity); eauto using time_num. Qed.
Lemma time_frac fr ns : frac_text fr ns -> Forall time_char fr.
Proof. destruct 1; [constructor|]. apply (proj2 (Forall_app _ ["."%byte] ds)). split; [apply time_lit; reflexivity|apply time_digits; assumption]. Qed.
Lemma time_line w : Forall time_char w -> Forall line_char w. Proof. apply Forall_impl. intros b [H _]. exact H. Qed.
Lemma line_dec z : - 10 ^ 20 < z < 10 ^ 20 -> Forall line_char (dec_text z).
Proof. intros H. eapply Forall_impl; [|apply dec_text_numchar, H]. intros b [Hd | ->]; unfold line_char; [unfold digit in Hd; lia|vm_compute; split; discriminate]. Qed.
Lemma line_column w z : 0 <= z < 2 ^ 63 -> Forall line_char w -> Forall line_char (with_column w (dec_text z)).
Proof. intros Hz Hw. unfold with_column. rewrite !Forall_app. split; [exact Hw|]. split; [apply line_lit; reflexivity|]. split; [apply line_dec; lia|apply line_lit; reflexivity]. Qed.
Lemma line_time v : Forall time_char v -> Forall line_char (time_error_text v).
Proof. intros H. unfold time_error_text. rewrite !Forall_app. split; [apply line_lit; reflexivity|]. split; [apply time_line, H|apply line_lit; reflexivity]. Qed.
Lemma time_value5424 m data x v c : snd (parse m data) = Ret x (Some (PTime v c)) -> Forall time_char v.
Proof.
  intros H. destruct (parse_time_error _ _ _ _ _ H) as [yyyy [mm [dd [hh [mi [ss [fr [zo [y [mo [d [h [mn [s [ns [off [-> [A1 [A2 [A3 [A4 [A5 [A6 [A7 [A8 _]]]]]]]]]]]]]]]]]]]]]]]]].
  rewrite !Forall_app. repeat split; try (apply time_lit; reflexivity); eauto using time_num, time_zone, time_frac.
Qed.
Lemma time_value3164 m data x v c : snd (M3164.parse m data) = M3164.Ret x (Some (M3164Def.PTime v c)) -> Forall time_char v.
Proof.
  intros H. destruct (parse3164_time_error _ _ _ _ _ H) as [[mon [dd [hh [mi [ss [mo [d [h [mn [s [-> [A1 [A2 [A3 [A4 [A5 _]]]]]]]]]]]]]]]]|[yyyy [mm [dd [hh [mi [ss [zo [y [mo [d [h [mn [s [off [-> [A1 [A2 [A3 [A4 [A5 [A6 [A8 _]]]]]]]]]]]]]]]]]]]]]]].
  - rewrite !Forall_app. repeat split; try (apply time_lit; reflexivity); eauto using time_num.
    + apply time_lit. cbn [In Grammar3164.month_names] in A1. repeat destruct A1 as [A1|A1]; try (injection A1 as <- <-; reflexivity); contradiction.
    + destruct A2 as [A2|[w [-> A2]]]; [eauto using time_num|]. rewrite Forall_app. split; [apply time_lit; reflexivity|eauto using time_num].
  - rewrite !Forall_app. repeat split; try (apply time_lit; reflexivity); eauto using time_num, time_zone.
Qed.
(* C59: the texts of the errors of the two parsers are one line of printable ASCII characters, whatever the input was *)
Theorem parse_error_printable m data x e : snd (parse m data) = Ret x (Some e) -> Z.of_nat (length data) < 2 ^ 63 ->
  Forall (fun b => (32 <= bN b <= 126)%N) (perr_text e).
Proof.
  intros H L. pose proof (parse_error_position _ _ _ _ H) as P. rewrite perr_text_eq. apply line_column; [lia|].
  destruct e as [k c|v c]; [apply line_lit; destruct k; vm_compute; reflexivity|apply line_time; eapply time_value5424; exact H].
Qed.
Theorem parse3164_error_printable m data x e : snd (M3164.parse m data) = M3164.Ret x (Some e) -> Z.of_nat (length data) < 2 ^ 63 ->
  Forall (fun b => (32 <= bN b <= 126)%N) (perr_text3164 e).
Proof.
  intros H L. pose proof (position3164 _ _ _ _ H) as P. rewrite perr_text3164_eq. apply line_column; [lia|].
  destruct e as [k c|v c]; [apply line_lit; destruct k; vm_compute; reflexivity|apply line_time; eapply time_value3164; exact H].
Qed.
Example text_ex : match snd (parse (new_machine false false) (lit "<3>1 2003-02-30T00:00:00Z - - - - -")) with Ret _ (Some e) => perr_text e | _ => [] end
  = lit "parsing time ""2003-02-30T00:00:00Z"": day out of range [col 25]". Proof. vm_compute. reflexivity. Qed.
Example text_ex2 : match snd (parse (new_machine false false) (lit "<3>1 2003-10-30 ")) with Ret _ (Some e) => perr_text e | _ => [] end
  = lit "expecting a RFC3339MICRO timestamp or a nil value [col 15]". Proof. vm_compute. reflexivity. Qed.
Example text_ex3 : match snd (M3164.parse (M3164.new_machine false M3164.plain) (lit "<34>Feb 30 22:14:15 h x")) with M3164.Ret _ (Some e) => perr_text3164 e | _ => [] end
  = lit "parsing time ""Feb 30 22:14:15"": day out of range [col 19]". Proof. vm_compute. reflexivity. Qed.

(* ---------- octet counting ---------- *)
Lemma found_text t k : oerr_text (EFound t k) = lit "found " ++ token_text t ++ lit ", expecting a " ++ typ_text k.
Proof. change (oerr_text (EFound t k)) with (lit "found " ++ token_text t ++ lit ", expecting a " ++ typ_text k ++ []). rewrite app_nil_r. reflexivity. Qed.
Lemma too_long_text n max : oerr_text (ETooLong n max) = lit "message too long to parse. was size " ++ dec_text n ++ lit ", max length " ++ dec_text max.
Proof. change (oerr_text (ETooLong n max)) with (lit "message too long to parse. was size " ++ dec_text n ++ lit ", max length " ++ dec_text max ++ []). rewrite app_nil_r. reflexivity. Qed.
Lemma after_text t n : oerr_text (EAfter t n) = lit "found " ++ token_text t ++ lit " after """ ++ tlit t ++ lit """, expecting a SYSLOGMSG containing " ++ dec_text n ++ lit " octets".
Proof. reflexivity. Qed.

(* the tokens named in the errors *)
Inductive plain_token : token -> Prop :=
| pt_end : plain_token (Token EOF [])
| pt_space : plain_token (Token WS [" "%byte])
| pt_length w : Forall len_char w -> plain_token (Token MSGLEN w)
| pt_other b : plain_token (Token ILLEGAL [b]).
Definition plain_error (e : oerr) : Prop :=
  match e with
  | EFound t k => plain_token t /\ (k = MSGLEN \/ k = WS)
  | ETooLong n max => 0 <= n < 2 ^ 64 /\ - 2 ^ 63 <= max < 2 ^ 63
  | EAfter t n => (plain_token t \/ typ t = EOF) /\ 0 <= n < 2 ^ 64
  | EMachine e => 0 <= perr_col e < 2 ^ 63
  end.
Lemma dec_nonneg w : Forall digit w -> 0 <= dec w.
Proof. intros H. unfold dec. apply (dec_acc_mono w 0 H). lia. Qed.
Lemma announces_bound w n : announces w n -> 0 <= n < 2 ^ 64.
Proof. intros [[H ->]|[d [r [_ [H ->]]]]]; [pose proof (dec_nonneg w H); lia|destruct (dec d <? 2 ^ 64); lia]. Qed.
Lemma length_field_chars l w rest : length_field l w rest -> Forall len_char w.
Proof. intros [[d [w' [-> [Hd Hw]]]] _]. constructor; [left; exact Hd|exact Hw]. Qed.
Lemma found_plain l t : found l t -> plain_token t.
Proof. destruct 1; constructor. eapply length_field_chars; eauto. Qed.
Lemma answer_bound best data e : Z.of_nat (length data) < 2 ^ 63 -> snd (answer best data) = Some e -> 0 <= perr_col e < 2 ^ 63.
Proof.
  intros L. unfold answer. destruct (snd (parse (new_machine best false) data)) as [r [e'|]| |] eqn:E; cbn [snd]; intros H; try discriminate. injection H as <-.
  pose proof (parse_error_position _ _ _ _ E). lia.
Qed.
Lemma outcome_plain max best first l rs : - 2 ^ 63 <= max < 2 ^ 63 -> outcome max best first l rs -> forall m e, In (Result m (Some e)) rs -> plain_error e.
Proof.
  intros Hm H. induction H as [first f rest rs Hf Hb H IH|first f rest e0 Hf Hb He|l Hl|first l ds t Ht|first l e0 Hl Hfst]; intros m e Hi.
  - destruct Hi as [Hi|Hi]; [|eapply IH; exact Hi]. unfold answer_result in Hi. destruct (snd (answer best (f_msg f))) as [x|] eqn:E; [|discriminate].
    cbn [option_map] in Hi. assert (EMachine x = e) as <- by congruence. apply answer_bound in E; [exact E|]. destruct Hf as [_ [_ [E1 [E2 _]]]]. lia.
  - destruct Hi as [Hi|[]]. assert (EMachine e0 = e) as <- by congruence. eapply answer_bound; [|exact He]. destruct Hf as [_ [_ [E1 [E2 _]]]]. lia.
  - destruct Hi.
  - destruct Hi as [Hi|[]]. destruct Ht as [_ [Hd [Hlen _]]]. assert (Ha : plain_error (EAfter (Token EOF t) (dec ds))) by (split; [right; reflexivity|lia]).
    unfold truncated_result in Hi. destruct best; [|assert (EAfter (Token EOF t) (dec ds) = e) as <- by congruence; exact Ha].
    destruct (snd (answer true t)) as [x|] eqn:E; [assert (EMachine x = e) as <- by congruence; eapply answer_bound; [|exact E]; lia|].
    assert (EAfter (Token EOF t) (dec ds) = e) as <- by congruence. exact Ha.
  - destruct Hi as [Hi|[]]. assert (e0 = e) as <- by congruence. destruct Hl as [l1 t Ht _|l1 w rest n _ Hn _|l1 w rest n t _ _ _ Ht _|l1 w rest n t n' _ Hn _ Ht].
    + split; [eapply found_plain; eauto|auto].
    + split; [eapply announces_bound; eauto|exact Hm].
    + split; [eapply found_plain; eauto|auto].
    + unfold no_message_error. destruct (best && _); [cbn [plain_error perr_col]; lia|]. apply announces_bound in Hn.
      destruct Ht as [r -> |r Hh|l2 w' rest' n' Hw Ha|l2 t Hf _ _].
      * split; [left; constructor|lia].
      * split; [left; constructor|lia].
      * split; [left; constructor; eapply length_field_chars; eauto|eapply announces_bound; eauto].
      * split; [left; eapply found_plain; eauto|lia].
Qed.
Lemma len_char_not b : b = ")"%byte -> ~ len_char b.
Proof. intros -> [H|H]; [unfold digit in H; change (bN ")") with 41%N in H; lia|discriminate]. Qed.
Lemma token_text_inj t t' u u' : plain_token t -> plain_token t' -> token_text t ++ u = token_text t' ++ u' -> t = t' /\ u = u'.
Proof.
  intros H H' E. destruct H as [| |w Hw|b], H' as [| |w' Hw'|b']; try (cbv [token_text typ typ_text typ_number typ_index typ_name] in E; cbn in E; discriminate E).
  - split; [reflexivity|]. eapply app_inv_head; exact E.
  - split; [reflexivity|]. eapply app_inv_head; exact E.
  - unfold token_text in E. cbn [typ tlit] in E. rewrite <- !app_assoc in E.
    assert (E' : lit "MSGLEN(" ++ w ++ ")"%byte :: u = lit "MSGLEN(" ++ w' ++ ")"%byte :: u') by exact E.
    apply app_inv_head in E'. apply (cut_first len_char) in E' as [-> [_ ->]]; auto using len_char_not.
  - assert (E' : lit "ILLEGAL(" ++ b :: ")"%byte :: u = lit "ILLEGAL(" ++ b' :: ")"%byte :: u') by exact E. apply app_inv_head in E'. injection E' as -> ->. auto.
Qed.
Lemma last_app (a : bytes) b c d : last (a ++ b :: c) d = last (b :: c) d.
Proof. induction a as [|x a IH]; [reflexivity|]. rewrite <- IH. cbn [app]. destruct (a ++ b :: c) eqn:E; [destruct a; discriminate E|reflexivity]. Qed.
Lemma dec_text_snoc z : - 10 ^ 20 < z < 10 ^ 20 -> exists a d, dec_text z = a ++ [d] /\ digit d.
Proof.
  intros H. assert (Hd : forall y, 0 <= y < 10 ^ 20 -> exists a d, to_dec y = a ++ [d] /\ digit d).
  { intros y Hy. destruct (to_dec_plain y 0 y Hy ltac:(lia)) as [Hf [_ [_ He]]]. assert (Hne : to_dec y <> []) by (destruct He as [-> |[d [r [-> _]]]]; discriminate).
    destruct (exists_last Hne) as [a [d E]]. exists a, d. split; [exact E|]. rewrite E in Hf. apply Forall_app in Hf as [_ Hf]. inversion Hf; assumption. }
  unfold dec_text. destruct (Z.ltb_spec z 0); [|apply Hd; lia]. destruct (Hd (- z) ltac:(lia)) as [a [d [-> Hd']]]. exists (lit "-" ++ a), d. split; [rewrite <- app_assoc; reflexivity|exact Hd'].
Qed.
(* the last character tells the form of the error *)
Definition form (e : oerr) (b : byte) : Prop :=
  match e with
  | EFound _ MSGLEN => b = "N"%byte | EFound _ _ => b = "S"%byte
  | ETooLong _ _ => digit b | EAfter _ _ => b = "s"%byte | EMachine _ => b = "]"%byte
  end.
Lemma text_form e : plain_error e -> form e (last (oerr_text e) x00).
Proof.
  destruct e as [t k|n max|t n|e]; intros H.
  - rewrite found_text. destruct H as [_ [-> | ->]]; cbn [form]; rewrite !app_assoc; [change (typ_text MSGLEN) with (lit "MSGLE" ++ ["N"%byte])|change (typ_text WS) with (lit "W" ++ ["S"%byte])]; rewrite !app_assoc, last_app; reflexivity.
  - rewrite too_long_text. destruct H as [_ H]. destruct (dec_text_snoc max ltac:(lia)) as [a [d [-> Hd]]]. rewrite !app_assoc, last_app. exact Hd.
  - rewrite after_text. change (lit " octets") with (lit " octet" ++ ["s"%byte]). rewrite !app_assoc, last_app. reflexivity.
  - cbn [oerr_text]. rewrite perr_text_eq. unfold with_column. change (lit "]") with ["]"%byte]. rewrite !app_assoc, last_app. reflexivity.
Qed.
Lemma oerr_text_inj e e' : plain_error e -> plain_error e' -> oerr_text e = oerr_text e' -> e = e'.
Proof.
  intros H H' E. pose proof (text_form e H) as F. pose proof (text_form e' H') as F'. rewrite E in F. revert F F'. generalize (last (oerr_text e') x00). intros b F F'.
  destruct e as [t k|n max|t n|e], e' as [t' k'|n' max'|t' n'|e']; cbn [form] in F, F'.
  - destruct H as [H Hk], H' as [H' Hk']. assert (k = k') as <-. { destruct Hk as [-> | ->], Hk' as [-> | ->]; congruence. }
    rewrite !found_text in E. apply app_inv_head in E. apply token_text_inj in E as [-> _]; auto.
  - exfalso. destruct H as [_ [-> | ->]]; subst b; unfold digit in F'; vm_compute in F'; destruct F' as [_ F']; apply F'; reflexivity.
  - exfalso. destruct H as [_ [-> | ->]]; congruence.
  - exfalso. destruct H as [_ [-> | ->]]; congruence.
  - exfalso. destruct H' as [_ [-> | ->]]; subst b; unfold digit in F; vm_compute in F; destruct F as [_ F]; apply F; reflexivity.
  - rewrite !too_long_text in E. apply app_inv_head in E. destruct H as [H1 H2], H' as [H1' H2'].
    change (lit ", max length ") with (lit ", max length" ++ [" "%byte]) in E. rewrite <- !app_assoc in E. cbn [app] in E. rewrite !app_assoc in E.
    assert (Hs : ~ numchar " ") by (apply not_numchar; change (bN " ") with 32%N; lia).
    apply (cut_last numchar) in E as [E [_ E2]]; try exact Hs; try (apply dec_text_numchar; lia). apply app_inv_tail in E.
    apply dec_text_inj in E, E2; try lia. subst. reflexivity.
  - exfalso. subst b. unfold digit in F; vm_compute in F; destruct F as [_ F]; apply F; reflexivity.
  - exfalso. subst b. unfold digit in F; vm_compute in F; destruct F as [_ F]; apply F; reflexivity.
  - exfalso. destruct H' as [_ [-> | ->]]; congruence.
  - exfalso. subst b. unfold digit in F'; vm_compute in F'; destruct F' as [_ F']; apply F'; reflexivity.
  - rewrite !after_text in E. apply app_inv_head in E. destruct H as [H1 H2], H' as [H1' H2'].
    rewrite !app_assoc in E. apply app_inv_tail in E.
    change (lit """, expecting a SYSLOGMSG containing ") with (lit """, expecting a SYSLOGMSG containing" ++ [" "%byte]) in E. rewrite !app_assoc in E. rewrite <- !(app_assoc _ [" "%byte]) in E. cbn [app] in E.
    assert (Hs : ~ numchar " ") by (apply not_numchar; change (bN " ") with 32%N; lia).
    apply (cut_last numchar) in E as [E [_ E2]]; try exact Hs; try (apply dec_text_numchar; lia). apply app_inv_tail in E. apply dec_text_inj in E2; try lia. subst n'.
    rewrite <- !app_assoc in E.
    assert (Hfirst : typ t = typ t').
    { assert (Hh : hd x00 (token_text t) = hd x00 (token_text t')).
      { assert (Hne : forall t, token_text t <> []) by (intros [[] ?]; discriminate). destruct (token_text t) eqn:E1; [destruct (Hne _ E1)|]. destruct (token_text t') eqn:E2; [destruct (Hne _ E2)|].
        cbn [app] in E. injection E as -> _. reflexivity. }
      destruct t as [[] ?], t' as [[] ?]; try reflexivity; vm_compute in Hh; try discriminate Hh; exfalso; destruct H1 as [H1|H1]; try discriminate H1; try (inversion H1; fail); destruct H1' as [H1'|H1']; try discriminate H1'; inversion H1'. }
    destruct H1 as [H1|H1], H1' as [H1'|H1'].
    + apply token_text_inj in E as [-> _]; auto.
    + rewrite H1' in Hfirst. destruct t as [ty l], t' as [ty' l']. cbn [typ] in *. subst. apply (app_inv_head (lit "EOF")) in E. apply app_inv_head in E. cbn [tlit] in E. subst. reflexivity.
    + rewrite H1 in Hfirst. destruct t as [ty l], t' as [ty' l']. cbn [typ] in *. subst. apply (app_inv_head (lit "EOF")) in E. apply app_inv_head in E. cbn [tlit] in E. subst. reflexivity.
    + destruct t as [ty l], t' as [ty' l']. cbn [typ] in *. subst. apply (app_inv_head (lit "EOF")) in E. apply app_inv_head in E. cbn [tlit] in E. subst. reflexivity.
  - exfalso. congruence.
  - exfalso. destruct H' as [_ [-> | ->]]; congruence.
  - exfalso. subst b. unfold digit in F'; vm_compute in F'; destruct F' as [_ F']; apply F'; reflexivity.
  - exfalso. congruence.
  - f_equal. apply perr_text_inj; assumption.
Qed.
(* C59: two errors of octet counting parsers with the same text are the same error: same form, same tokens, same numbers *)
Theorem octet_error_text_tells opts before rd rs opts' before' rd' rs' m m' e e' :
  - 2 ^ 63 <= opts_max opts < 2 ^ 63 - 20 -> - 2 ^ 63 <= opts_max opts' < 2 ^ 63 - 20 ->
  emitted opts before rd = Some rs -> emitted opts' before' rd' = Some rs' ->
  In (Result m (Some e)) rs -> In (Result m' (Some e')) rs' -> oerr_text e = oerr_text e' -> e = e'.
Proof.
  intros Hm Hm' H H' Hi Hi'. apply (proj1 (stream_outcome_iff _ _ _ _ (proj2 Hm))) in H. apply (proj1 (stream_outcome_iff _ _ _ _ (proj2 Hm'))) in H'.
  assert (W : - 2 ^ 63 <= opts_max opts < 2 ^ 63) by lia. assert (W' : - 2 ^ 63 <= opts_max opts' < 2 ^ 63) by lia.
  apply oerr_text_inj; [eapply (outcome_plain _ _ _ _ _ W H); eauto|eapply (outcome_plain _ _ _ _ _ W' H'); eauto].
Qed.
(* the texts of the octet counting errors repeat bytes of the stream as they are: they are not printable in general *)
Theorem octet_error_printable_refuted : exists rd m e, emitted [] [] rd = Some [Result m (Some e)] /\ In "010"%byte (oerr_text e).
Proof. exists [(["010"%byte], None)]. eexists _, _. split; [vm_compute; reflexivity|vm_compute; tauto]. Qed.
Example octet_text_ex : match emitted [] [] [(lit "16 <1>1", None)] with Some [Result _ (Some e)] => oerr_text e | _ => [] end
  = lit "found EOF after ""<1>1"", expecting a SYSLOGMSG containing 16 octets". Proof. vm_compute. reflexivity. Qed.
Example octet_text_ex2 : match emitted [] [] [(lit "9000 <1>1", None)] with Some [Result _ (Some e)] => oerr_text e | _ => [] end
  = lit "message too long to parse. was size 9000, max length 8192". Proof. vm_compute. reflexivity. Qed.
Example octet_text_ex3 : match emitted [] [] [(lit "16", None)] with Some [Result _ (Some e)] => oerr_text e | _ => [] end
  = lit "found EOF, expecting a WS". Proof. vm_compute. reflexivity. Qed.
