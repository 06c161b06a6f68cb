(* L2 = L3 for rfc5424, part 3: structured data entry, version, priority; the final equation. *)
From Verif Require Import Bytes GoMap GoTime Common CommonFacts GotoLang M5424Def Gen5424 A5424 M5424 Spec5424 Ref5424a Ref5424b.
Local Open Scope Z_scope.

Lemma dv_range b : is_dig (bN b) = true -> 0 <= dv b <= 9.
Proof. unfold is_dig, btw, dv. rewrite andb_true_iff, !N.leb_le. lia. Qed.
Lemma dig_digit b : is_dig (bN b) = true -> digit b.
Proof. unfold is_dig, btw, digit. rewrite andb_true_iff, !N.leb_le. lia. Qed.
Lemma d19_dig b : btw 49 57 (bN b) = true -> is_dig (bN b) = true.
Proof. unfold is_dig, btw. rewrite !andb_true_iff, !N.leb_le. lia. Qed.
Lemma d19_range b : btw 49 57 (bN b) = true -> 1 <= dv b <= 9.
Proof. unfold btw, dv. rewrite andb_true_iff, !N.leb_le. lia. Qed.

Lemma dec1 a : is_dig (bN a) = true -> dec_to_int [a] = dv a.
Proof. intros H. pose proof (dv_range a H). rewrite dec_to_int_wrap. unfold dec. cbn [dec_acc]. change (dig a) with (dv a). rewrite wrap64_id; lia. Qed.
Lemma dec2 a b : is_dig (bN a) = true -> is_dig (bN b) = true -> dec_to_int [a; b] = 10 * dv a + dv b.
Proof. intros Ha Hb. pose proof (dv_range a Ha). pose proof (dv_range b Hb). rewrite dec_to_int_wrap. unfold dec. cbn [dec_acc]. change dig with dv. rewrite wrap64_id; lia. Qed.
Lemma dec3 a b c : is_dig (bN a) = true -> is_dig (bN b) = true -> is_dig (bN c) = true ->
  dec_to_int [a; b; c] = 100 * dv a + 10 * dv b + dv c.
Proof.
  intros Ha Hb Hc. pose proof (dv_range a Ha). pose proof (dv_range b Hb). pose proof (dv_range c Hc).
  rewrite dec_to_int_wrap. unfold dec. cbn [dec_acc]. change dig with dv. rewrite wrap64_id; lia.
Qed.

Section R.
Variable data : bytes.
Notation run := (run5424 data).
Notation next r p := (fun (s' : st) (x' : vars) => run s' (p + 1) r x').
Notation tx := (texec sem_act sem_cnd data).

Lemma sim_sd cm pre rest x : data = pre ++ rest -> 0 < len pre -> Ihdr cm x ->
  obs (run S16 (len pre) rest x) = inj (p_sd cm (m_out x) (len pre) rest).
Proof.
  intros Hd H0 [[Hc Hmin] Hh]. destruct rest as [|b r].
  { cbn [arun edelta p_sd]. rewrite obs_eerr, partial_min by exact Hmin. reflexivity. }
  cbn [arun delta p_sd]. change (bN b =? 45)%N with (is 45 b). change (bN b =? 91)%N with (is 91 b).
  destruct (is 45 b).
  - cbn [texec]. destruct r as [|c r]; [reflexivity|]. cbn [arun delta]. change (bN c =? 32)%N with (is 32 c).
    destruct (is 32 c).
    + cbn [texec]. replace (len pre + 1 + 1) with (len (pre ++ [b; c])) by lensolve.
      replace (len pre + 2) with (len (pre ++ [b; c])) by lensolve.
      apply sim604; [rewrite Hd, <- app_assoc; reflexivity|lensolve|split; assumption].
    + rewrite obs_errt, partial_min by exact Hmin. reflexivity.
  - destruct (is 91 b).
    + cbn [texec sem_act]. replace (len pre + 1) with (len (pre ++ [b])) by lensolve.
      rewrite (sim_elems data cm (S (length r)) (MElem None) (pre ++ [b]) r).
      * reflexivity.
      * rewrite Hd, <- app_assoc. reflexivity.
      * lensolve.
      * lia.
      * split; [split; [exact Hc|exact Hmin]|]. exists []. split; [reflexivity|]. split; [exact Hh|reflexivity].
    + rewrite obs_errt, partial_min by exact Hmin. reflexivity.
Qed.


Notation Sim := (Sim data).
Lemma sim_sd' cm : Sim (Ihdr cm) S16 (p_sd cm).
Proof. intros pre rest x. apply sim_sd. Qed.

(* after PRI: the version is still 0 *)
Definition Ipri (cm : bool) (x : vars) : Prop :=
  m_compliantMsg x = cm /\ o_prioritySet (m_out x) = true /\ valid_priority (o_priority (m_out x)) = true /\
  o_version (m_out x) = 0 /\ o_hasElements (m_out x) = false.

Lemma partial_none x : o_version (m_out x) = 0 -> partial_of x = None.
Proof. intros H. unfold partial_of, minimal. rewrite H, andb_false_r. reflexivity. Qed.

Lemma sem_version pre w rest p x v : data = pre ++ w ++ rest -> m_pb x = len pre -> p = len pre + len w ->
  dec_to_int w = v -> 0 <= v <= 999 ->
  sem_act AVersion data p x = Some (upd (set_o_version v) x).
Proof.
  intros Hd Hp -> Hv Hr. cbn [sem_act]. unfold with_text. rewrite (text_mid data pre w rest x Hd Hp), Hv.
  unfold to_u16. rewrite Z.mod_small by lia. reflexivity.
Qed.

Lemma Ihdr_ver cm v x : Ipri cm x -> 1 <= v <= 999 -> Ihdr cm (upd (set_o_version v) (set_m_pb (m_pb x) x)).
Proof.
  intros [H1 [H2 [H3 [H4 H5]]]] Hv. repeat split; try assumption. unfold minimal. cbn. rewrite H2, H3. cbn [andb].
  unfold valid_version, in_between. apply andb_true_iff. rewrite !Z.leb_le. lia.
Qed.

Lemma set_ver_set v v' o : set_o_version v (set_o_version v' o) = set_o_version v o.
Proof. destruct o; reflexivity. Qed.

Lemma sim_version K cm : Sim (Ihdr cm) S6 K -> Sim (Ipri cm) S4 (p_version K).
Proof.
  intros HK pre rest x Hd H0 HI. pose proof HI as [Hc [Hps [Hvp [Hv0 Hhe]]]]. destruct rest as [|d1 r1].
  { cbn [arun edelta p_version]. rewrite obs_eerr, partial_none by exact Hv0. reflexivity. }
  cbn [arun delta p_version]. destruct (btw 49 57 (bN d1)) eqn:E1.
  2:{ rewrite obs_errt, partial_none by exact Hv0. reflexivity. }
  pose proof (d19_dig d1 E1) as D1. pose proof (d19_range d1 E1) as R1.
  cbn [texec sem_act]. set (y := set_m_pb (len pre) x).
  assert (Hpb : forall v, m_pb (upd (set_o_version v) y) = len pre) by reflexivity.
  assert (Hmin : forall v, 1 <= v <= 999 -> minimal (m_out (upd (set_o_version v) y)) = true).
  { intros v Hv. unfold minimal, y. cbn. rewrite Hps, Hvp. cbn [andb].
    unfold valid_version, in_between. apply andb_true_iff. rewrite !Z.leb_le. lia. }
  assert (Hih : forall v z, 1 <= v <= 999 -> m_out z = set_o_version v (m_out x) -> m_compliantMsg z = cm -> Ihdr cm z).
  { intros v z Hv Hz Hzc. split; [split; [exact Hzc|]|]; rewrite Hz; [apply Hmin; exact Hv|exact Hhe]. }
  unfold set_ver.
  (* one digit *)
  assert (A1 : forall r, d1 :: r1 = [d1] ++ r -> sem_act AVersion data (len pre + 1) y = Some (upd (set_o_version (dv d1)) y)).
  { intros r Hr. apply (sem_version pre [d1] r); [rewrite Hd, Hr; reflexivity|reflexivity|lensolve|apply dec1; exact D1|lia]. }
  destruct r1 as [|d2 r2].
  { cbn [arun edelta texec]. rewrite (A1 [] eq_refl). rewrite obs_eerr, partial_min by (apply Hmin; lia). reflexivity. }
  cbn [arun delta texec]. rewrite (A1 (d2 :: r2) eq_refl). clear A1.
  set (y1 := upd (set_o_version (dv d1)) y).
  change (bN d2 =? 32)%N with (is 32 d2). destruct (is 32 d2).
  { cbn [texec]. replace (len pre + 1 + 1) with (len (pre ++ [d1; d2])) by lensolve. replace (len pre + 2) with (len (pre ++ [d1; d2])) by lensolve.
    rewrite (HK (pre ++ [d1; d2]) r2 y1); [reflexivity|rewrite Hd, <- app_assoc; reflexivity|lensolve|].
    apply (Hih (dv d1)); [lia|reflexivity|exact Hc]. }
  destruct (is_dig (bN d2)) eqn:D2.
  2:{ rewrite obs_errt, partial_min by (apply Hmin; lia). reflexivity. }
  pose proof (dv_range d2 D2) as R2. cbn [texec].
  assert (A2 : forall r, d1 :: d2 :: r2 = [d1; d2] ++ r ->
     sem_act AVersion data (len pre + 1 + 1) y1 = Some (upd (set_o_version (10 * dv d1 + dv d2)) y1)).
  { intros r Hr. apply (sem_version pre [d1; d2] r); [rewrite Hd, Hr; reflexivity|reflexivity|lensolve|apply dec2; assumption|lia]. }
  destruct r2 as [|d3 r3].
  { cbn [arun edelta]. rewrite obs_eerr, partial_min by (apply Hmin; lia).
    replace (len pre + 1 + 1) with (len pre + 2) by lia. reflexivity. }
  cbn [arun delta texec]. rewrite (A2 (d3 :: r3) eq_refl). clear A2.
  assert (Ey2 : upd (set_o_version (10 * dv d1 + dv d2)) y1 = upd (set_o_version (10 * dv d1 + dv d2)) y)
    by (unfold y1, upd; cbn; rewrite set_ver_set; reflexivity).
  rewrite Ey2. set (y2 := upd (set_o_version (10 * dv d1 + dv d2)) y).
  change (bN d3 =? 32)%N with (is 32 d3). destruct (is 32 d3).
  { cbn [texec]. replace (len pre + 1 + 1 + 1) with (len (pre ++ [d1; d2; d3])) by lensolve. replace (len pre + 3) with (len (pre ++ [d1; d2; d3])) by lensolve.
    rewrite (HK (pre ++ [d1; d2; d3]) r3 y2); [reflexivity|rewrite Hd, <- app_assoc; reflexivity|lensolve|].
    apply (Hih (10 * dv d1 + dv d2)); [lia|reflexivity|exact Hc]. }
  destruct (is_dig (bN d3)) eqn:D3.
  2:{ rewrite obs_errt, partial_min by (apply Hmin; lia). replace (len pre + 1 + 1) with (len pre + 2) by lia. reflexivity. }
  pose proof (dv_range d3 D3) as R3. cbn [texec].
  assert (A3 : forall r, d1 :: d2 :: d3 :: r3 = [d1; d2; d3] ++ r ->
     sem_act AVersion data (len pre + 1 + 1 + 1) y2 = Some (upd (set_o_version (100 * dv d1 + 10 * dv d2 + dv d3)) y2)).
  { intros r Hr. apply (sem_version pre [d1; d2; d3] r); [rewrite Hd, Hr; reflexivity|reflexivity|lensolve|apply dec3; assumption|lia]. }
  replace (len pre + 1 + 1 + 1) with (len pre + 3) in * by lia.
  destruct r3 as [|c r4].
  { cbn [arun edelta]. rewrite obs_eerr, partial_min by (apply Hmin; lia). reflexivity. }
  cbn [arun delta texec]. rewrite (A3 (c :: r4) eq_refl). clear A3.
  assert (Ey3 : upd (set_o_version (100 * dv d1 + 10 * dv d2 + dv d3)) y2 = upd (set_o_version (100 * dv d1 + 10 * dv d2 + dv d3)) y)
    by (unfold y2, upd; cbn; rewrite set_ver_set; reflexivity).
  rewrite Ey3. set (y3 := upd (set_o_version (100 * dv d1 + 10 * dv d2 + dv d3)) y).
  change (bN c =? 32)%N with (is 32 c). destruct (is 32 c).
  { cbn [texec]. replace (len pre + 3 + 1) with (len (pre ++ [d1; d2; d3; c])) by lensolve. replace (len pre + 4) with (len (pre ++ [d1; d2; d3; c])) by lensolve.
    rewrite (HK (pre ++ [d1; d2; d3; c]) r4 y3); [reflexivity|rewrite Hd, <- app_assoc; reflexivity|lensolve|].
    apply (Hih (100 * dv d1 + 10 * dv d2 + dv d3)); [lia|reflexivity|exact Hc]. }
  rewrite obs_errt, partial_min by (apply Hmin; lia). reflexivity.
Qed.

(* ---- PRI ---- *)
Lemma sem_pri a w rest x v p : data = a :: w ++ rest -> m_pb x = 1 -> p = 1 + len w -> dec_to_int w = v -> 0 <= v <= 191 ->
  sem_act APriority data p x = Some (upd (set_o_priority v) x).
Proof.
  intros Hd Hp -> Hv Hr. cbn [sem_act]. unfold with_text.
  replace (1 + len w) with (len [a] + len w) by lensolve. rewrite (text_mid data [a] w rest x Hd Hp), Hv. unfold to_u8. rewrite Z.mod_small by lia. reflexivity.
Qed.

Lemma sim_pri K cm x : Sim (Ipri cm) S4 K ->
  m_out x = msg_zero -> m_compliantMsg x = cm ->
  obs (run S1 0 data x) = inj (p_pri K data).
Proof.
  intros HK Hx Hc. destruct data as [|b r] eqn:Hd; rewrite <- Hd in *.
  { rewrite Hd. cbn [arun edelta p_pri]. rewrite obs_eerr, partial_none by (rewrite Hx; reflexivity). reflexivity. }
  rewrite Hd at 2 3. cbn [arun delta p_pri]. change (bN b =? 60)%N with (is 60 b). destruct (is 60 b).
  2:{ rewrite obs_errt, partial_none by (rewrite Hx; reflexivity). reflexivity. }
  cbn [texec Z.add].
  assert (Hno : forall z, o_version (m_out z) = 0 -> partial_of z = None) by (intros z Hz; apply partial_none; exact Hz).
  (* the end of PRI *)
  assert (Hend : forall v p pre rest z, data = pre ++ rest -> 0 < len pre -> p = len pre -> m_out z = pri_msg v -> m_compliantMsg z = cm -> 0 <= v <= 191 ->
     obs (run S4 p rest z) = inj (K (pri_msg v) p rest)).
  { intros v p pre rest z Hdd H0 -> Hz Hzc Hv. rewrite <- Hz. apply HK; auto. unfold Ipri. rewrite Hz. repeat split; auto.
    unfold pri_msg; cbn. unfold valid_priority, in_between. apply andb_true_iff. rewrite !Z.leb_le. lia. }
  assert (Hset : forall v z, m_out z = pri_msg v \/ m_out z = msg_zero -> forall v', m_out (upd (set_o_prioritySet true) (upd (set_o_priority v') z)) = pri_msg v').
  { intros v z [Hz|Hz] v'; unfold upd; cbn; rewrite Hz; reflexivity. }
  destruct r as [|d1 r1].
  { cbn [arun edelta prival]. rewrite obs_eerr, Hno by (rewrite Hx; reflexivity). reflexivity. }
  cbn [arun delta prival]. change (bN d1 =? 48)%N with (is 48 d1).
  set (y := set_m_pb 1 x).
  assert (Hy : m_out y = msg_zero) by exact Hx.
  destruct (is 48 d1) eqn:E48.
  - (* "0" *)
    cbn [texec sem_act]. fold y. change (1 + 1) with 2.
    destruct r1 as [|c r2].
    { cbn [arun edelta]. rewrite obs_eerr, Hno by (rewrite Hy; reflexivity). reflexivity. }
    cbn [arun delta acts texec].
    assert (D1 : is_dig (bN d1) = true) by (apply N.eqb_eq in E48; unfold is_dig, btw; rewrite E48; reflexivity).
    assert (V1 : dv d1 = 0) by (apply N.eqb_eq in E48; unfold dv; rewrite E48; reflexivity).
    rewrite (sem_pri b [d1] (c :: r2) y 0 2 Hd eq_refl eq_refl); [|rewrite dec1 by exact D1; exact V1|lia].
    cbn [texec sem_act]. change (bN c =? 62)%N with (is 62 c). destruct (is 62 c).
    + cbn [texec]. apply (Hend 0 _ [b; d1; c] r2); [exact Hd|lensolve|reflexivity|apply (Hset 0); right; exact Hy|exact Hc|lia].
    + rewrite obs_errt, Hno by (rewrite (Hset 0 y (or_intror Hy)); reflexivity). reflexivity.
  - destruct (btw 49 57 (bN d1)) eqn:E19.
    + pose proof (d19_dig d1 E19) as D1. pose proof (d19_range d1 E19) as R1.
      (* after one digit: state 593 or 594; both accept '>' ; next digit *)
      set (s1 := if (bN d1 =? 49)%N then S593 else S594).
      assert (Hstep : obs (tx (if (bN d1 =? 49)%N then TAct APb (TNext S593) else if btw 50 57 (bN d1) then TAct APb (TNext S594) else errt EPrival (fail d1)) 1 x (next r1 1)) = obs (run s1 2 r1 y)).
      { unfold s1. destruct (bN d1 =? 49)%N eqn:E; [reflexivity|].
        replace (btw 50 57 (bN d1)) with true; [reflexivity|]. symmetry. revert E19. unfold btw. rewrite !andb_true_iff, !N.leb_le. apply N.eqb_neq in E. lia. }
      rewrite Hstep. clear Hstep.
      destruct r1 as [|d2 r2].
      { replace (run s1 2 [] y) with (tx (errt EPrival efail) 2 y (fun _ _ => NoFuel)) by (unfold s1; destruct (bN d1 =? 49)%N; reflexivity).
        rewrite obs_eerr, Hno by (rewrite Hy; reflexivity). reflexivity. }
      set (y1 := upd (set_o_prioritySet true) (upd (set_o_priority (dv d1)) y)).
      assert (Hy1 : m_out y1 = pri_msg (dv d1)) by (apply (Hset 0); right; exact Hy).
      assert (Hc1 : m_compliantMsg y1 = cm) by exact Hc.
      assert (Hp1 : m_pb y1 = 1) by reflexivity.
      (* state after two digits *)
      set (s2 := if (bN d1 =? 49)%N then (if (bN d2 =? 57)%N then S595 else S594) else S3).
      assert (Hstep : run s1 2 (d2 :: r2) y =
          tx (if (bN d2 =? 62)%N then TNext S4 else if is_dig (bN d2) then TNext s2 else errt EPrival (fail d2)) 2 y1 (next r2 2)).
      { assert (Hsem : sem_act APriority data 2 y = Some (upd (set_o_priority (dv d1)) y)).
        { apply (sem_pri b [d1] (d2 :: r2)); [exact Hd|reflexivity|reflexivity|apply dec1; exact D1|lia]. }
        unfold s1, s2. destruct (bN d1 =? 49)%N; cbn [arun delta acts texec]; rewrite Hsem; cbn [texec sem_act]; fold y1.
        - destruct (bN d2 =? 62)%N; [reflexivity|]. unfold is_dig.
          destruct (btw 48 56 (bN d2)) eqn:Ea.
          + replace (btw 48 57 (bN d2)) with true; [|symmetry; revert Ea; unfold btw; rewrite !andb_true_iff, !N.leb_le; lia].
            replace (bN d2 =? 57)%N with false; [reflexivity|]. symmetry. apply N.eqb_neq. revert Ea. unfold btw. rewrite andb_true_iff, !N.leb_le. lia.
          + destruct (bN d2 =? 57)%N eqn:Eb.
            * apply N.eqb_eq in Eb. rewrite Eb. reflexivity.
            * replace (btw 48 57 (bN d2)) with false; [reflexivity|]. symmetry. apply N.eqb_neq in Eb. revert Ea. unfold btw. rewrite !andb_false_iff, !N.leb_gt. lia.
        - reflexivity. }
      rewrite Hstep. clear Hstep. change (bN d2 =? 62)%N with (is 62 d2).
      destruct (is 62 d2) eqn:E62.
      { replace (is_dig (bN d2)) with false by (apply N.eqb_eq in E62; rewrite E62; reflexivity). rewrite E62.
        cbn [texec]. apply (Hend (dv d1) _ [b; d1; d2] r2); [exact Hd|lensolve|reflexivity|exact Hy1|exact Hc|lia]. }
      destruct (is_dig (bN d2)) eqn:D2.
      2:{ rewrite E62. rewrite obs_errt, Hno by (rewrite Hy1; reflexivity). reflexivity. }
      pose proof (dv_range d2 D2) as R2. cbn [texec]. change (2 + 1) with 3.
      destruct r2 as [|d3 r3].
      { replace (run s2 3 [] y1) with (tx (errt EPrival efail) 3 y1 (fun _ _ => NoFuel)) by (unfold s2; destruct (bN d1 =? 49)%N; [destruct (bN d2 =? 57)%N|]; reflexivity).
        rewrite obs_eerr, Hno by (rewrite Hy1; reflexivity). reflexivity. }
      set (v2 := 10 * dv d1 + dv d2).
      set (y2 := upd (set_o_prioritySet true) (upd (set_o_priority v2) y1)).
      assert (Hy2 : m_out y2 = pri_msg v2) by (apply (Hset (dv d1)); left; exact Hy1).
      set (v3 := 100 * dv d1 + 10 * dv d2 + dv d3).
      assert (Hstep : run s2 3 (d3 :: r3) y1 =
          tx (if (bN d3 =? 62)%N then TNext S4 else if is_dig (bN d3) && (v3 <=? 191) then TNext S3 else errt EPrival (fail d3)) 3 y2 (next r3 3)).
      { assert (Hsem : sem_act APriority data 3 y1 = Some (upd (set_o_priority v2) y1)).
        { apply (sem_pri b [d1; d2] (d3 :: r3)); [exact Hd|reflexivity|reflexivity|apply dec2; assumption|unfold v2; lia]. }
        assert (F1 : (bN d1 =? 49)%N = (dv d1 =? 1)) by (unfold dv; destruct (N.eqb_spec (bN d1) 49); destruct (Z.eqb_spec (Z.of_N (bN d1) - 48) 1); lia).
        assert (F2 : (bN d2 =? 57)%N = (dv d2 =? 9)) by (unfold dv; destruct (N.eqb_spec (bN d2) 57); destruct (Z.eqb_spec (Z.of_N (bN d2) - 48) 9); lia).
        unfold s2. rewrite F1, F2. destruct (Z.eqb_spec (dv d1) 1) as [G1|G1].
        - destruct (Z.eqb_spec (dv d2) 9) as [G2|G2]; cbn [arun delta acts texec]; rewrite Hsem; cbn [texec sem_act]; fold y2;
            (destruct (bN d3 =? 62)%N; [reflexivity|]).
          + replace (btw 48 49 (bN d3)) with (is_dig (bN d3) && (v3 <=? 191)); [reflexivity|].
            unfold is_dig, btw, v3, dv in *.
            destruct (N.leb_spec 48 (bN d3)); destruct (N.leb_spec (bN d3) 57); destruct (N.leb_spec (bN d3) 49); cbn [andb]; try reflexivity; try lia.
            all: destruct (Z.leb_spec (100 * (Z.of_N (bN d1) - 48) + 10 * (Z.of_N (bN d2) - 48) + (Z.of_N (bN d3) - 48)) 191); try reflexivity; lia.
          + destruct (is_dig (bN d3)) eqn:D3; [|reflexivity]. pose proof (dv_range d3 D3).
            replace (v3 <=? 191) with true; [reflexivity|]. symmetry. apply Z.leb_le. unfold v3. lia.
        - cbn [arun delta acts texec]; rewrite Hsem; cbn [texec sem_act]; fold y2.
          destruct (bN d3 =? 62)%N; [reflexivity|].
          destruct (is_dig (bN d3)) eqn:D3; [|reflexivity]. pose proof (dv_range d3 D3).
          replace (v3 <=? 191) with false; [reflexivity|]. symmetry. apply Z.leb_gt. unfold v3. lia. }
      rewrite Hstep. clear Hstep. change (bN d3 =? 62)%N with (is 62 d3). fold v3.
      assert (Hc2 : m_compliantMsg y2 = cm) by exact Hc.
      destruct (is 62 d3) eqn:E63.
      { replace (is_dig (bN d3)) with false by (apply N.eqb_eq in E63; rewrite E63; reflexivity). cbn [andb]. rewrite E63.
        cbn [texec]. destruct (Z.leb_spec v2 191).
        - apply (Hend v2 _ [b; d1; d2; d3] r3); [exact Hd|lensolve|reflexivity|exact Hy2|exact Hc|unfold v2; lia].
        - unfold v2 in *. lia. }
      destruct (is_dig (bN d3) && (v3 <=? 191)) eqn:D3.
      2:{ rewrite E63. rewrite obs_errt, Hno by (rewrite Hy2; reflexivity). reflexivity. }
      apply andb_true_iff in D3 as [D3 Hv3]. pose proof (dv_range d3 D3) as R3. apply Z.leb_le in Hv3.
      cbn [texec]. change (3 + 1) with 4.
      destruct r3 as [|c r4].
      { cbn [arun edelta]. rewrite obs_eerr, Hno by (rewrite Hy2; reflexivity). reflexivity. }
      cbn [arun delta acts texec].
      rewrite (sem_pri b [d1; d2; d3] (c :: r4) y2 v3 4 Hd eq_refl eq_refl); [|apply dec3; assumption|unfold v3; lia].
      cbn [texec sem_act]. change (bN c =? 62)%N with (is 62 c).
      assert (Hy3 : m_out (upd (set_o_prioritySet true) (upd (set_o_priority v3) y2)) = pri_msg v3) by (apply (Hset v2); left; exact Hy2).
      destruct (is 62 c).
      * cbn [texec]. apply (Hend v3 _ [b; d1; d2; d3; c] r4); [exact Hd|lensolve|reflexivity|exact Hy3|exact Hc|unfold v3; lia].
      * rewrite obs_errt, Hno by (rewrite Hy3; reflexivity). reflexivity.
    + replace (bN d1 =? 49)%N with false by (symmetry; apply N.eqb_neq; intros E; rewrite E in E19; discriminate).
      replace (btw 50 57 (bN d1)) with false.
      2:{ symmetry. revert E19. unfold btw. rewrite !andb_false_iff, !N.leb_gt. lia. }
      rewrite obs_errt, Hno by (rewrite Hx; reflexivity). reflexivity.
Qed.

Theorem run_spec cm x : m_out x = msg_zero -> m_compliantMsg x = cm ->
  obs (run S1 0 data x) = inj (spec5424 cm data).
Proof.
  intros Hx Hc. unfold spec5424, p_header. apply (sim_pri _ cm); auto.
  apply sim_version, sim_ts, (sim_word data FHost), (sim_word data FApp), (sim_word data FProc), (sim_word data FMsgid), sim_sd'.
Qed.
End R.

(* compliantMsg is never written by the automaton; the machine keeps it from its creation *)
Lemma sem_act_compliant a data p x y : sem_act a data p x = Some y -> m_compliantMsg y = m_compliantMsg x.
Proof.
  unfold sem_act, with_text. destruct a; cbn;
  repeat match goal with |- context [match ?e with _ => _ end] => destruct e end; intros H; try discriminate; injection H as <-; reflexivity.
Qed.
Lemma texec_compliant {L} (t : tree act cnd L) data p : forall x nx cs y,
  (forall l x', m_compliantMsg x' = m_compliantMsg x -> nx l x' = Out cs y -> m_compliantMsg y = m_compliantMsg x) ->
  texec sem_act sem_cnd data t p x nx = Out cs y -> m_compliantMsg y = m_compliantMsg x.
Proof.
  induction t as [n|c|a t IH|c t IHt e IHe|]; intros x nx cs y Hn; cbn [texec].
  - apply Hn. reflexivity.
  - intros H. injection H as _ <-. reflexivity.
  - destruct (sem_act a data p x) as [x'|] eqn:E; [|discriminate]. apply sem_act_compliant in E.
    intros H. rewrite <- E. apply (IH x' nx cs y); [|exact H]. intros l x2 H2 H3. rewrite E. apply (Hn l x2); congruence.
  - destruct (sem_cnd c x); [apply IHt|apply IHe]; exact Hn.
  - discriminate.
Qed.
Lemma arun_compliant data rest : forall s p x cs y, run5424 data s p rest x = Out cs y -> m_compliantMsg y = m_compliantMsg x.
Proof.
  induction rest as [|b r IH]; intros s p x cs y; cbn [arun]; intros H.
  - apply (texec_compliant (edelta s) data p x (fun _ _ => NoFuel) cs y); [discriminate|exact H].
  - apply (texec_compliant (delta s b) data p x _ cs y) in H; [exact H|]. intros l x' Hx' H'. rewrite <- Hx'. exact (IH _ _ _ _ _ H').
Qed.

(* what Parse returns for the specification result *)
Definition ret_of (best : bool) (r : pres) : ret :=
  match r with
  | PGood o => Ret (Some (export o)) None
  | PBad (Some o) e => Ret (if best then Some (export o) else None) (Some e)
  | PBad None e => Ret None (Some e)
  end.

Definition compliant (m : machine) : bool := m_compliantMsg (mv m).

(* Parse, run as the goto program on any machine, whatever was parsed before *)
Theorem parse_spec m data :
  snd (parse m data) = ret_of (bestEffort m) (spec5424 (compliant m) data)
  /\ bestEffort (fst (parse m data)) = bestEffort m /\ compliant (fst (parse m data)) = compliant m.
Proof.
  unfold parse. rewrite exec_run5424.
  pose proof (run_spec data (compliant m) (prepare (mv m)) eq_refl eq_refl) as H.
  pose proof (fun cs y => arun_compliant data data S1 0 (prepare (mv m)) cs y) as Hcm.
  destruct (run5424 data S1 0 data (prepare (mv m))) as [cs x| |].
  - specialize (Hcm cs x eq_refl). cbn [fst snd bestEffort]. unfold compliant in *. cbn [mv]. split; [|split; [reflexivity|exact Hcm]].
    cbn [obs] in H. destruct ((cs <? 603) || (cs =? 614))%N.
    + unfold failobs, partial_of in H. destruct (spec5424 (m_compliantMsg (mv m)) data) as [o|[o|] e]; cbn [inj ret_of] in *; try discriminate.
      * destruct (minimal (m_out x)); [|discriminate]. injection H as <- ->. destruct (bestEffort m); reflexivity.
      * destruct (minimal (m_out x)); [discriminate|]. injection H as ->. rewrite andb_false_r. reflexivity.
    + destruct (spec5424 (m_compliantMsg (mv m)) data) as [o|[o|] e]; cbn [inj ret_of] in *; try discriminate. injection H as <-. reflexivity.
  - exfalso. destruct (spec5424 (compliant m) data) as [o|[o|] e]; discriminate.
  - exfalso. destruct (spec5424 (compliant m) data) as [o|[o|] e]; discriminate.
Qed.

Theorem after_flags inputs : forall m, bestEffort (after m inputs) = bestEffort m /\ compliant (after m inputs) = compliant m.
Proof.
  induction inputs as [|i r IH]; intros m; cbn [after]; [auto|].
  destruct (parse_spec m i) as [_ [H1 H2]]. destruct (IH (fst (parse m i))) as [H3 H4]. split; congruence.
Qed.
