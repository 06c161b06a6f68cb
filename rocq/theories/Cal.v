(* Civil calendar and locations: the parts of package time behind time.Date, Time.AddDate and Time.In that
   rfc3164/machine.go:37-63 (set_timestamp) uses.  Years are unbounded integers (no int64 overflow). *)
From Verif Require Import Bytes GoTime.
Local Open Scope Z_scope.

(* ---- calendar ---- *)
Definition month_days (leap : bool) : list Z := [31; if leap then 29 else 28; 31; 30; 31; 30; 31; 31; 30; 31; 30; 31].
Definition days_before (leap : bool) (mo : Z) : Z := fold_right Z.add 0 (firstn (Z.to_nat (mo - 1)) (month_days leap)).
(* days from 0001-01-01 to the given date; a day beyond the end of the month counts on into the next one,
   as time.Date normalises *)
Definition days_of (y mo d : Z) : Z :=
  let a := y - 1 in 365 * a + a / 4 - a / 100 + a / 400 + days_before (is_leap y) mo + d - 1.

(* time.absDate: the date from the day count *)
Fixpoint find_month (ds : list Z) (mo r : Z) : Z * Z :=
  match ds with
  | [] => (mo, r + 1)
  | n :: l => if r <? n then (mo, r + 1) else find_month l (mo + 1) (r - n)
  end.
Definition civil (n : Z) : Z * Z * Z :=
  let e := n / 146097 in let r := n mod 146097 in
  let c := Z.min 3 (r / 36524) in let r := r - 36524 * c in
  let q := r / 1461 in let r := r - 1461 * q in
  let k := Z.min 3 (r / 365) in let r := r - 365 * k in
  let y := 400 * e + 100 * c + 4 * q + k + 1 in
  let '(mo, d) := find_month (month_days (is_leap y)) 1 r in (y, mo, d).

(* seconds since 1970-01-01 00:00:00, of a civil date and time read as UTC *)
Definition secs_of (y mo d h mi s : Z) : Z := 86400 * (days_of y mo d - 719162) + 3600 * h + 60 * mi + s.
Definition time_at (u ns off : Z) : time :=
  let n := u + off in
  let '(y, mo, d) := civil (n / 86400 + 719162) in
  let r := n mod 86400 in Time y mo d (r / 3600) (r / 60 mod 60) (r mod 60) ns off.
(* the instant *)
Definition unix_of (t : time) : Z := secs_of (t_year t) (t_month t) (t_day t) (t_hour t) (t_min t) (t_sec t) - t_off t.

(* ---- locations ---- *)
(* l_offset u: the zone offset in effect at the instant u; l_unix n: the instant time.Date chooses for the wall
   clock reading n (seconds as above).  Both are arbitrary functions: how time.Date resolves gaps and overlaps
   differs between Go versions and is not modelled. *)
Record location := Loc { l_offset : Z -> Z; l_unix : Z -> Z }.
Definition utc : location := Loc (fun _ => 0) (fun n => n).
Definition fixed_zone (off : Z) : location := Loc (fun _ => off) (fun n => n - off).
(* time.Date *)
Definition date_in (l : location) (y mo d h mi s ns : Z) : time :=
  let u := l_unix l (secs_of y mo d h mi s) in time_at u ns (l_offset l u).
(* Time.AddDate(years, 0, 0) of a time in location l *)
Definition add_years (l : location) (years : Z) (t : time) : time :=
  date_in l (t_year t + years) (t_month t) (t_day t) (t_hour t) (t_min t) (t_sec t) (t_nsec t).
(* Time.In *)
Definition in_loc (l : location) (t : time) : time := time_at (unix_of t) (t_nsec t) (l_offset l (unix_of t)).

(* ---- time.Parse(time.Stamp, _) on the texts the machine accepts: "Mmm dd hh:mm:ss", the day padded with a space;
   the year is 0; None is the "day out of range" error (or, never reached, a text of another shape) *)
Definition months : list (bytes * Z) :=
  [(lit "Jan", 1); (lit "Feb", 2); (lit "Mar", 3); (lit "Apr", 4); (lit "May", 5); (lit "Jun", 6);
   (lit "Jul", 7); (lit "Aug", 8); (lit "Sep", 9); (lit "Oct", 10); (lit "Nov", 11); (lit "Dec", 12)].
Definition month_of (w : bytes) : option Z :=
  match find (fun p => bseqb (fst p) w) months with Some (_, n) => Some n | None => None end.
Record stamp := Stamp { sp_month : Z; sp_day : Z; sp_hour : Z; sp_min : Z; sp_sec : Z }.
Definition parse_stamp (text : bytes) : option stamp :=
  match text with
  | [a1; a2; a3; s1; d1; d2; s2; h1; h2; c1; m1; m2; c2; e1; e2] =>
      match month_of [a1; a2; a3] with
      | Some mo =>
        if forallb is_digit [d2; h1; h2; m1; m2; e1; e2] && (is_digit d1 || beqb d1 " ") && beqb s1 " " && beqb s2 " " && beqb c1 ":" && beqb c2 ":" then
          let d := (if beqb d1 " " then 0 else 10 * dig d1) + dig d2 in
          let h := 10 * dig h1 + dig h2 in let mi := 10 * dig m1 + dig m2 in let s := 10 * dig e1 + dig e2 in
          if (1 <=? d) && (d <=? days_in mo 0) && (h <? 24) && (mi <? 60) && (s <? 60) then Some (Stamp mo d h mi s) else None
        else None
      | None => None
      end
  | _ => None
  end.
(* time.Parse / time.ParseInLocation of a stamp *)
Definition stamp_in (l : location) (p : stamp) : time := date_in l 0 (sp_month p) (sp_day p) (sp_hour p) (sp_min p) (sp_sec p) 0.

(* ---- facts ---- *)
Definition valid_date (y mo d : Z) : Prop := 1 <= mo <= 12 /\ 1 <= d <= days_in mo y.
Lemma leap_mod e y : is_leap (400 * e + y) = is_leap y.
Proof.
  unfold is_leap. assert (H1 : (400 * e + y) mod 4 = y mod 4) by (replace (400 * e + y) with (y + (100 * e) * 4) by lia; apply Z_mod_plus_full).
  assert (H2 : (400 * e + y) mod 100 = y mod 100) by (replace (400 * e + y) with (y + (4 * e) * 100) by lia; apply Z_mod_plus_full).
  assert (H3 : (400 * e + y) mod 400 = y mod 400) by (replace (400 * e + y) with (y + e * 400) by lia; apply Z_mod_plus_full).
  rewrite H1, H2, H3. reflexivity.
Qed.
Lemma days_of_era e y mo d : days_of (400 * e + y) mo d = 146097 * e + days_of y mo d.
Proof.
  unfold days_of. rewrite leap_mod.
  replace ((400 * e + y - 1) / 4) with ((y - 1) / 4 + 100 * e) by (replace (400 * e + y - 1) with (y - 1 + (100 * e) * 4) by lia; rewrite Z_div_plus_full; lia).
  replace ((400 * e + y - 1) / 100) with ((y - 1) / 100 + 4 * e) by (replace (400 * e + y - 1) with (y - 1 + (4 * e) * 100) by lia; rewrite Z_div_plus_full; lia).
  replace ((400 * e + y - 1) / 400) with ((y - 1) / 400 + e) by (replace (400 * e + y - 1) with (y - 1 + e * 400) by lia; rewrite Z_div_plus_full; lia).
  lia.
Qed.
Lemma civil_era e n : civil (146097 * e + n) = let '(y, mo, d) := civil n in (400 * e + y, mo, d).
Proof.
  unfold civil. replace (146097 * e + n) with (n + e * 146097) by lia. rewrite Z_div_plus_full, Z_mod_plus_full by lia.
  set (c := Z.min 3 _). set (q := _ / 1461). set (k := Z.min 3 _). set (rr := _ - 365 * k).
  replace (400 * (n / 146097 + e) + 100 * c + 4 * q + k + 1) with (400 * e + (400 * (n / 146097) + 100 * c + 4 * q + k + 1)) by lia.
  rewrite leap_mod. destruct (find_month _ 1 rr). reflexivity.
Qed.
(* one 400-year period, exhaustively *)
Definition date_eqb (a b : Z * Z * Z) : bool := let '(y, m, d) := a in let '(y', m', d') := b in (y =? y') && (m =? m') && (d =? d').
Fixpoint zall (k : nat) (lo : Z) (f : Z -> bool) : bool :=
  match k with O => f lo | S k => zall k lo f && zall k (lo + 2 ^ Z.of_nat k) f end.
Lemma zall_ok k f n : forall lo, zall k lo f = true -> lo <= n < lo + 2 ^ Z.of_nat k -> f n = true.
Proof.
  induction k as [|k IH]; intros lo H Hn.
  - cbn [zall] in H. change (2 ^ Z.of_nat 0) with 1 in Hn. replace n with lo by lia. exact H.
  - cbn [zall] in H. apply andb_true_iff in H as [H1 H2]. rewrite Nat2Z.inj_succ, Z.pow_succ_r in Hn by lia.
    destruct (Z.lt_ge_cases n (lo + 2 ^ Z.of_nat k)); [apply (IH lo)|apply (IH (lo + 2 ^ Z.of_nat k))]; auto; lia.
Qed.
Definition chk_day (y mo d : Z) : bool :=
  if (1 <=? mo) && (mo <=? 12) && (1 <=? d) && (d <=? days_in mo y) then date_eqb (civil (days_of y mo d)) (y, mo, d) else true.
Definition chk_month (y mo : Z) : bool := zall 5 0 (chk_day y mo).
Definition chk_year (y : Z) : bool := if (1 <=? y) && (y <=? 400) then zall 4 0 (chk_month y) else true.
Definition chk_period : bool := zall 9 0 chk_year.
Lemma civil_period : chk_period = true.
Proof. vm_compute. reflexivity. Qed.
Lemma days_in_le mo y : days_in mo y <= 31.
Proof. unfold days_in. destruct (mo =? 2); [destruct (is_leap y); lia|]. destruct ((mo =? 4) || (mo =? 6) || (mo =? 9) || (mo =? 11)); lia. Qed.
Lemma chk_elim y mo d : chk_period = true -> 1 <= y <= 400 -> 1 <= mo <= 12 -> 1 <= d <= days_in mo y -> date_eqb (civil (days_of y mo d)) (y, mo, d) = true.
Proof.
  unfold chk_period. intros H Hy Hm Hd. pose proof (days_in_le mo y).
  apply (zall_ok 9 _ y) in H; [|change (2 ^ Z.of_nat 9) with 512; lia]. unfold chk_year in H.
  replace ((1 <=? y) && (y <=? 400)) with true in H by (symmetry; rewrite andb_true_iff, !Z.leb_le; lia).
  apply (zall_ok 4 _ mo) in H; [|change (2 ^ Z.of_nat 4) with 16; lia]. unfold chk_month in H.
  apply (zall_ok 5 _ d) in H; [|change (2 ^ Z.of_nat 5) with 32; lia]. unfold chk_day in H.
  replace ((1 <=? mo) && (mo <=? 12) && (1 <=? d) && (d <=? days_in mo y)) with true in H by (symmetry; rewrite !andb_true_iff, !Z.leb_le; lia).
  exact H.
Qed.
Lemma days_in_era e mo y : days_in mo (400 * e + y) = days_in mo y.
Proof. unfold days_in. rewrite leap_mod. reflexivity. Qed.
Lemma era_split y : exists e y0, y = 400 * e + y0 /\ 1 <= y0 <= 400.
Proof.
  exists ((y - 1) / 400), (y - 400 * ((y - 1) / 400)). pose proof (Z_div_mod_eq_full (y - 1) 400). pose proof (Z.mod_pos_bound (y - 1) 400). lia.
Qed.
Lemma date_eqb_eq a b : date_eqb a b = true -> a = b.
Proof.
  destruct a as [[y m] d], b as [[y' m'] d']. cbn [date_eqb]. rewrite !andb_true_iff, !Z.eqb_eq. intros [[-> ->] ->]. reflexivity.
Qed.
Theorem civil_days y mo d : valid_date y mo d -> civil (days_of y mo d) = (y, mo, d).
Proof.
  intros [H1 H2]. destruct (era_split y) as [e [y0 [-> Hy]]]. rewrite days_in_era in H2. rewrite days_of_era, civil_era.
  rewrite (date_eqb_eq _ _ (chk_elim y0 mo d civil_period Hy H1 H2)). reflexivity.
Qed.

Definition valid_clock (h mi s : Z) : Prop := 0 <= h < 24 /\ 0 <= mi < 60 /\ 0 <= s < 60.
Theorem time_at_civil y mo d h mi s ns off : valid_date y mo d -> valid_clock h mi s ->
  time_at (secs_of y mo d h mi s - off) ns off = Time y mo d h mi s ns off.
Proof.
  intros Hd [Hh [Hm Hs]]. unfold time_at, secs_of. set (D := days_of y mo d).
  set (n := 86400 * (D - 719162) + 3600 * h + 60 * mi + s - off + off).
  assert (E1 : n / 86400 = D - 719162) by (symmetry; apply (Z.div_unique_pos n 86400 _ (3600 * h + 60 * mi + s)); lia).
  assert (E2 : n mod 86400 = 3600 * h + 60 * mi + s) by (symmetry; apply (Z.mod_unique_pos n 86400 (D - 719162)); lia).
  rewrite E1, E2. replace (D - 719162 + 719162) with D by lia. unfold D. rewrite civil_days by exact Hd.
  assert (E3 : (3600 * h + 60 * mi + s) / 3600 = h) by (symmetry; apply (Z.div_unique_pos _ 3600 _ (60 * mi + s)); lia).
  assert (E4 : (3600 * h + 60 * mi + s) / 60 = 60 * h + mi) by (symmetry; apply (Z.div_unique_pos _ 60 _ s); lia).
  assert (E5 : (60 * h + mi) mod 60 = mi) by (symmetry; apply (Z.mod_unique_pos _ 60 h); lia).
  assert (E6 : (3600 * h + 60 * mi + s) mod 60 = s) by (symmetry; apply (Z.mod_unique_pos _ 60 (60 * h + mi)); lia).
  rewrite E3, E4, E5, E6. reflexivity.
Qed.
(* 29 February of a common year is 1 March *)
Lemma days_of_feb29 y : is_leap y = false -> days_of y 2 29 = days_of y 3 1.
Proof. intros E. unfold days_of. rewrite E. change (days_before false 2) with 31. change (days_before false 3) with 59. lia. Qed.
(* a time displayed at a given offset is the same instant *)
Lemma civil_mod_eras n : civil n = let '(y, mo, d) := civil (n mod 146097) in (400 * (n / 146097) + y, mo, d).
Proof. rewrite <- civil_era. f_equal. apply Z_div_mod_eq_full. Qed.
Definition days_back (k : Z) : bool := let '(y, mo, d) := civil k in (days_of y mo d =? k) && (1 <=? mo) && (mo <=? 12) && (1 <=? d) && (d <=? days_in mo y).
Definition back_period : bool := zall 18 0 (fun n => if n <? 146097 then days_back n else true).
Lemma days_back_period : back_period = true.
Proof. vm_compute. reflexivity. Qed.
Lemma back_elim n : back_period = true -> 0 <= n < 146097 -> days_back n = true.
Proof.
  unfold back_period. intros H Hn. apply (zall_ok _ _ n) in H; [|change (2 ^ Z.of_nat 18) with 262144; lia].
  cbv beta in H. rewrite (proj2 (Z.ltb_lt n 146097)) in H by lia. exact H.
Qed.
Theorem days_civil n : let '(y, mo, d) := civil n in days_of y mo d = n /\ valid_date y mo d.
Proof.
  rewrite civil_mod_eras. pose proof (Z.mod_pos_bound n 146097 ltac:(lia)) as Hb. pose proof (back_elim (n mod 146097) days_back_period Hb) as H.
  unfold days_back in H. destruct (civil (n mod 146097)) as [[y mo] d].
  repeat (apply andb_true_iff in H as [H ?]). apply Z.eqb_eq in H. rewrite !Z.leb_le in *.
  rewrite days_of_era, H. unfold valid_date. rewrite days_in_era. split; [|lia]. symmetry. apply Z_div_mod_eq_full.
Qed.
Theorem unix_time_at u ns off : unix_of (time_at u ns off) = u /\ t_off (time_at u ns off) = off /\ t_nsec (time_at u ns off) = ns.
Proof.
  unfold time_at. pose proof (days_civil ((u + off) / 86400 + 719162)) as H. destruct (civil ((u + off) / 86400 + 719162)) as [[y mo] d].
  destruct H as [H _]. unfold unix_of, secs_of. cbn [t_year t_month t_day t_hour t_min t_sec t_off t_nsec]. rewrite H. split; [|auto].
  set (n := u + off) in *. set (r := n mod 86400).
  assert (0 <= r < 86400) by (apply Z.mod_pos_bound; lia).
  assert (n = 86400 * (n / 86400) + r) by apply Z_div_mod_eq_full.
  assert (r = 3600 * (r / 3600) + 60 * (r / 60 mod 60) + r mod 60).
  { pose proof (Z_div_mod_eq_full r 60). pose proof (Z_div_mod_eq_full (r / 60) 60). rewrite Z.div_div in H3 by lia. change (60 * 60) with 3600 in H3. lia. }
  lia.
Qed.
Theorem in_loc_same_instant l t : unix_of (in_loc l t) = unix_of t.
Proof. apply unix_time_at. Qed.

Example date_ex : date_in utc 2003 10 11 22 14 15 0 = Time 2003 10 11 22 14 15 0 0. Proof. vm_compute. reflexivity. Qed.
Example in_ex : in_loc (fixed_zone (-18000)) (Time 2003 1 1 2 14 15 7 0) = Time 2002 12 31 21 14 15 7 (-18000). Proof. vm_compute. reflexivity. Qed.
Example stamp_ex : parse_stamp (lit "Oct 11 22:14:15") = Some (Stamp 10 11 22 14 15) /\ parse_stamp (lit "Feb  5 17:32:18") = Some (Stamp 2 5 17 32 18)
  /\ parse_stamp (lit "Feb 30 17:32:18") = None /\ parse_stamp (lit "Feb 29 17:32:18") = Some (Stamp 2 29 17 32 18).
Proof. vm_compute. auto. Qed.
