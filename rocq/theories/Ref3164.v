(* rfc3164: the goto program computes spec3164, on every machine and every input. *)
From Verif Require A5424 Spec5424 Ref5424a Ref5424c.
From Verif Require Import Bytes GoTime Cal Common CommonFacts GotoLang M3164Def Gen3164 A3164 M3164 Spec3164.
Local Open Scope Z_scope.
Notation dv := Spec5424.dv.

Definition partial_of (x : vars) : option msg3164 := if minimal (m_out x) then Some (m_out x) else None.
Inductive ores := OGood (o : msg3164) | OBad (o : option msg3164) (e : option perr) | OCrash.
Definition failobs (x : vars) : ores := OBad (partial_of x) (m_err x).
Definition obs (r : outcome vars) : ores :=
  match r with
  | Out cs x => if ((cs <? 333) || (cs =? 373))%N then failobs x else OGood (m_out x)
  | _ => OCrash
  end.
Definition inj (r : pres) : ores := match r with PGood o => OGood o | PBad o e => OBad o e end.

Ltac lensolve := unfold Spec5424.len; rewrite ?app_length; cbn [length app]; rewrite ?app_length; cbn [length]; lia.
Lemma len_snoc pre (b : byte) : len (pre ++ [b]) = len pre + 1. Proof. lensolve. Qed.
Lemma len_app a b : len (a ++ b) = len a + len b. Proof. lensolve. Qed.
Lemma len_cons b a : len (b :: a) = len a + 1. Proof. lensolve. Qed.
Lemma len_nil : len [] = 0. Proof. reflexivity. Qed.

Section R.
Variable data : bytes.
Variable cfg : config.
Notation run := (run3164 data).
Notation next r p := (fun (s' : st) (x' : vars) => run s' (p + 1) r x').
Notation tx := (texec sem_act sem_cnd data).

Lemma obs_fail_run rest : forall p x, obs (run SFail p rest x) = failobs x.
Proof.
  induction rest as [|b r IH]; intros p x; cbn [arun delta edelta texec]; [reflexivity|].
  destruct ((bN b =? 10) || (bN b =? 13))%N; cbn [texec]; [reflexivity|apply IH].
Qed.
Lemma obs_fail b p r x : obs (tx (fail b) p x (next r p)) = failobs x.
Proof. unfold fail. destruct ((bN b =? 10) || (bN b =? 13))%N; cbn [texec]; [reflexivity|apply obs_fail_run]. Qed.
Lemma obs_errt b p r x k : obs (tx (errt k (fail b)) p x (next r p)) = OBad (partial_of x) (Some (PErr k p)).
Proof. unfold errt. cbn [texec sem_act]. rewrite obs_fail. reflexivity. Qed.
Lemma obs_eerr p x k nx : obs (tx (errt k efail) p x nx) = OBad (partial_of x) (Some (PErr k p)).
Proof. reflexivity. Qed.
Lemma obs_dead p x nx : obs (tx dead p x nx) = failobs x.
Proof. reflexivity. Qed.

Lemma text_mid pre w rest x : data = pre ++ w ++ rest -> m_pb x = len pre -> text_of data (len pre + len w) x = Some w.
Proof. intros Hd Hp. unfold text_of. rewrite Hp, Hd. unfold Spec5424.len. rewrite <- Nat2Z.inj_add. apply zslice_mid. Qed.

Definition I3 (x : vars) : Prop := m_err x = None /\ minimal (m_out x) = true /\ m_cfg x = cfg.
Definition Sim (s : st) (K : stage) : Prop :=
  forall pre rest x, data = pre ++ rest -> I3 x -> obs (run s (len pre) rest x) = inj (K (m_out x) (len pre) rest).

Lemma partial_min x : minimal (m_out x) = true -> partial_of x = Some (m_out x).
Proof. unfold partial_of. intros ->. reflexivity. Qed.
Lemma failobs_I x : I3 x -> failobs x = OBad (Some (m_out x)) None.
Proof. intros [H1 [H2 _]]. unfold failobs. rewrite partial_min, H1; auto. Qed.

(* ---- message ---- *)
Lemma run333 rest : forall pre w x, data = pre ++ w ++ rest -> m_pb x = len pre -> I3 x ->
  obs (run S333 (len pre + len w) rest x) = inj (p_text (m_out x) (w ++ rest) rest).
Proof.
  induction rest as [|b r IH]; intros pre w x Hd Hp HI; cbn [arun delta edelta].
  - cbn [texec sem_act]. unfold with_text. rewrite (text_mid pre w [] x Hd Hp), app_nil_r. reflexivity.
  - unfold p_text. cbn [has_ctl existsb]. destruct (is_ctl (bN b)).
    + rewrite obs_dead, failobs_I by exact HI. reflexivity.
    + cbn [texec orb]. replace (len pre + len w + 1) with (len pre + len (w ++ [b])) by (rewrite len_snoc; lia).
      rewrite IH; [|rewrite Hd, <- !app_assoc; reflexivity|exact Hp|exact HI]. rewrite <- app_assoc. reflexivity.
Qed.

Definition kk (k : nat) : N := N.of_nat k.
Definition ContOk (r : bytes) : Prop := forall bad k pre w x, data = pre ++ w ++ r -> m_pb x = len pre -> I3 x -> (k <= 3)%nat ->
  obs (run (SCont bad (kk k)) (len pre + len w) r x) = inj (p_cont bad k (m_out x) w r).
Lemma runContStep b r : ContOk r -> forall bad k pre w x, data = pre ++ w ++ b :: r -> m_pb x = len pre -> I3 x -> (k <= 3)%nat ->
  obs (tx (cont_t b bad (kk k)) (len pre + len w) x (next r (len pre + len w))) = inj (p_cont bad k (m_out x) w (b :: r)).
Proof.
  intros runCont.
intros bad k pre w x Hd Hp HI Hk. unfold cont_t. cbn [p_cont]. change (bN b =? 93)%N with (is 93 b).
    assert (Hd2 : data = pre ++ (w ++ [b]) ++ r) by (rewrite Hd, <- !app_assoc; reflexivity).
    assert (Hd3 : data = (pre ++ w) ++ [b] ++ r) by (rewrite Hd, <- !app_assoc; reflexivity).
    replace (len pre + len w + 1) with (len pre + len (w ++ [b])) by (rewrite len_snoc; lia).
    assert (Hpp : len pre + len (w ++ [b]) = len (pre ++ w) + len [b]) by lensolve.
    destruct (is 93 b).
    + destruct k as [|[|[|[|k]]]]; [| | | |lia]; cbn [kk N.of_nat N.eqb Pos.of_succ_nat Pos.succ Pos.eqb];
        cbn [texec acts sem_act]; unfold with_text; rewrite (text_mid pre w (b :: r) x Hd Hp); cbn [texec sem_act];
        change 1%N with (kk 1).
      1,2,3: rewrite (runCont bad 1%nat pre (w ++ [b])); [reflexivity|exact Hd2|exact Hp|exact HI|lia].
      rewrite Hpp. rewrite (runCont false 1%nat (pre ++ w) [b]); [reflexivity|exact Hd3|cbn; rewrite len_app; reflexivity|exact HI|lia].
    + destruct (is_ctl (bN b)).
      { cbn [texec]. change 0%N with (kk 0). apply runCont; [exact Hd2|exact Hp|exact HI|lia]. }
      change (bN b =? 58)%N with (is 58 b). change (bN b =? 32)%N with (is 32 b).
      destruct k as [|[|[|[|k]]]]; [| | | |lia]; cbn [kk N.of_nat N.eqb Pos.of_succ_nat Pos.succ Pos.eqb andb].
      * cbn [texec]. change 0%N with (kk 0). apply runCont; [exact Hd2|exact Hp|exact HI|lia].
      * destruct (is 58 b); cbn [texec]; [change 2%N with (kk 2)|change 0%N with (kk 0)]; (apply runCont; [exact Hd2|exact Hp|exact HI|lia]).
      * destruct (is 32 b); cbn [texec]; [change 3%N with (kk 3)|change 0%N with (kk 0)]; (apply runCont; [exact Hd2|exact Hp|exact HI|lia]).
      * cbn [texec sem_act]. change 0%N with (kk 0). rewrite Hpp.
        rewrite (runCont false 0%nat (pre ++ w) [b]); [reflexivity|exact Hd3|cbn; rewrite len_app; reflexivity|exact HI|lia].
Qed.

Lemma runCont rest : ContOk rest.
Proof.
  induction rest as [|b r IH]; intros bad k pre w x Hd Hp HI Hk.
  - cbn [arun edelta p_cont]. destruct bad.
    + cbn [texec obs]. replace (((23 + kk k <? 333) || (23 + kk k =? 373))%N) with true.
      2:{ symmetry. apply orb_true_iff. left. apply N.ltb_lt. unfold kk. lia. }
      rewrite failobs_I by exact HI. reflexivity.
    + cbn [texec sem_act]. unfold with_text. rewrite (text_mid pre w [] x Hd Hp). cbn [num obs].
      replace (((369 + kk k <? 333) || (369 + kk k =? 373))%N) with false; [reflexivity|].
      symmetry. apply orb_false_iff. unfold kk. split; [apply N.ltb_ge|apply N.eqb_neq]; lia.
  - cbn [arun delta]. exact (runContStep b r IH bad k pre w x Hd Hp HI Hk).
Qed.

Lemma tagc_not c : is_tagc c = true -> is_ctl c = false /\ (c =? 58)%N = false /\ (c =? 91)%N = false.
Proof.
  unfold is_tagc, is_ctl, A5424.is_graph, A5424.btw. rewrite !andb_true_iff, !negb_true_iff, !N.leb_le. intros [[H1 H2] H3].
  split; [|auto]. apply orb_false_iff. rewrite N.leb_gt, N.eqb_neq. lia.
Qed.
Lemma tag_loop w : forall k p r x,
  Forall (fun b => is_tagc (bN b) = true) w -> (k + N.of_nat (length w) <= 32)%N ->
  run (STag k) p (w ++ r) x = run (STag (k + N.of_nat (length w))) (p + len w) r x.
Proof.
  induction w as [|b w IH]; intros k p r x Hw Hm.
  - cbn [app length]. rewrite N.add_0_r, len_nil, Z.add_0_r. reflexivity.
  - inversion Hw as [|? ? Hb Hw']; subst. cbn [length] in Hm. cbn [app arun delta].
    destruct (tagc_not _ Hb) as [E1 [E2 E3]]. rewrite E1, E2, E3, Hb. cbn [andb].
    replace (k <? 32)%N with true by (symmetry; apply N.ltb_lt; lia). cbn [texec].
    rewrite IH; [|exact Hw'|lia]. cbn [length].
    replace (k + 1 + N.of_nat (length w))%N with (k + N.of_nat (S (length w)))%N by lia.
    rewrite len_cons. f_equal. lia.
Qed.

Lemma sim_msg : Sim S22 p_msg.
Proof.
  intros pre rest x Hd HI. pose proof HI as [He [Hmin Hc]]. destruct rest as [|b r].
  { cbn [arun edelta p_msg]. rewrite obs_eerr, partial_min by exact Hmin. reflexivity. }
  cbn [arun delta p_msg]. destruct (is_ctl (bN b)) eqn:Eb.
  { rewrite obs_errt, partial_min by exact Hmin. reflexivity. }
  cbn [texec sem_act]. set (y := set_m_pb (len pre) x).
  assert (Hy : I3 y) by exact HI. assert (Hpb : m_pb y = len pre) by reflexivity.
  pose proof (Ref5424a.span_app is_tagc 32 (b :: r)) as Ha.
  pose proof (Ref5424a.span_all is_tagc 32 (b :: r)) as Hall.
  pose proof (Ref5424a.span_len is_tagc 32 (b :: r)) as Hlen.
  pose proof (Ref5424a.span_stop is_tagc 32 (b :: r)) as Hst.
  replace (len pre + 1) with (len pre + len [b]) by reflexivity.
  destruct (is_tagc (bN b)) eqn:Et.
  - destruct (span_max is_tagc 32 (b :: r)) as [w0 r'] eqn:Es. cbn [fst snd] in *.
    destruct w0 as [|b0 w]; [cbn [app] in Ha; subst r'; specialize (Hst b r eq_refl Et); discriminate|].
    cbn [app] in Ha. injection Ha as <- Er. subst r.
    pose proof (Forall_inv_tail Hall) as Hw. cbn [length] in Hlen.
    rewrite tag_loop; [|exact Hw|lia].
    replace (1 + N.of_nat (length w))%N with (N.of_nat (length (b :: w))) by (cbn [length]; lia).
    replace (len pre + len [b] + len w) with (len pre + len (b :: w)) by lensolve.
    assert (Hdw : data = pre ++ (b :: w) ++ r') by exact Hd.
    destruct r' as [|c r'].
    { cbn [arun edelta texec sem_act]. unfold with_text. rewrite (text_mid pre (b :: w) [] y Hdw Hpb), app_nil_r. cbn [num obs].
      replace (((333 + N.of_nat (length (b :: w)) <? 333) || (333 + N.of_nat (length (b :: w)) =? 373))%N) with false; [reflexivity|].
      symmetry. cbn [length]. apply orb_false_iff. split; [apply N.ltb_ge|apply N.eqb_neq]; lia. }
    assert (Hd1 : data = pre ++ ((b :: w) ++ [c]) ++ r') by (rewrite Hdw, <- !app_assoc; reflexivity).
    assert (El1 : len pre + len (b :: w) + 1 = len pre + len ((b :: w) ++ [c])) by lensolve.
    cbn [arun delta]. change (bN c =? 58)%N with (is 58 c). change (bN c =? 91)%N with (is 91 c).
    destruct (is_ctl (bN c)) eqn:Ec.
    { rewrite obs_dead, failobs_I by exact Hy.
      assert (N58 : is 58 c = false) by (unfold Spec5424.is; apply N.eqb_neq; intros E; rewrite E in Ec; discriminate).
      assert (N91 : is 91 c = false) by (unfold Spec5424.is; apply N.eqb_neq; intros E; rewrite E in Ec; discriminate).
      rewrite N58, N91. unfold p_text. cbn [has_ctl existsb]. rewrite Ec. reflexivity. }
    destruct (is 58 c) eqn:E58.
    + cbn [texec sem_act]. unfold with_text. rewrite (text_mid pre (b :: w) (c :: r') y Hdw Hpb). cbn [texec].
      set (z := upd (set_o_tag (b :: w)) y). assert (Hz : I3 z) by exact HI. assert (Hpz : m_pb z = len pre) by reflexivity.
      change (set_o_tag (b :: w) (m_out x)) with (m_out z).
      rewrite El1. destruct r' as [|s m].
      { cbn [arun edelta texec sem_act]. unfold with_text. rewrite (text_mid pre _ [] z Hd1 Hpz). cbn [num obs N.ltb N.eqb orb].
        rewrite app_nil_r in Hd1. unfold p_text. cbn [has_ctl existsb inj]. reflexivity. }
      assert (Hd2 : data = pre ++ (((b :: w) ++ [c]) ++ [s]) ++ m) by (rewrite Hd1, <- !app_assoc; reflexivity).
      assert (El2 : len pre + len ((b :: w) ++ [c]) + 1 = len pre + len (((b :: w) ++ [c]) ++ [s])) by lensolve.
      assert (Etxt : forall m', data = pre ++ (((b :: w) ++ [c]) ++ [s]) ++ m' -> is_ctl (bN s) = false ->
         obs (run S333 (len pre + len (((b :: w) ++ [c]) ++ [s])) m' z) = inj (p_text (m_out z) ((b :: w) ++ c :: s :: m') (s :: m'))).
      { intros m' Hm' Hs. rewrite (run333 m' pre _ z Hm' Hpz Hz). unfold p_text. cbn [has_ctl existsb]. rewrite Hs. cbn [orb].
        rewrite <- !app_assoc. reflexivity. }
      cbn [arun delta]. destruct (is_ctl (bN s)) eqn:Es1.
      { rewrite obs_dead, failobs_I by exact Hz.
        assert (N32 : is 32 s = false) by (unfold Spec5424.is; apply N.eqb_neq; intros E; rewrite E in Es1; discriminate).
        rewrite N32. destruct m; unfold p_text; cbn [has_ctl existsb]; rewrite Es1; reflexivity. }
      cbn [texec]. rewrite El2. change (bN s =? 32)%N with (is 32 s). destruct (is 32 s) eqn:E32.
      * destruct m as [|c2 m].
        { cbn [arun edelta texec sem_act]. unfold with_text. rewrite (text_mid pre _ [] z Hd2 Hpz). cbn [num obs N.ltb N.eqb orb].
          unfold p_text. cbn [has_ctl existsb]. rewrite Es1. cbn [orb inj]. rewrite <- !app_assoc. reflexivity. }
        cbn [arun delta]. destruct (is_ctl (bN c2)) eqn:Ec2.
        { rewrite obs_dead, failobs_I by exact Hz. unfold p_text. cbn [has_ctl existsb]. rewrite Ec2. reflexivity. }
        cbn [texec sem_act]. set (pre' := pre ++ (((b :: w) ++ [c]) ++ [s])).
        replace (len pre + len (((b :: w) ++ [c]) ++ [s])) with (len pre') by (unfold pre'; rewrite len_app; reflexivity).
        change (len pre' + 1) with (len pre' + len [c2]).
        rewrite (run333 m pre' [c2]); [|unfold pre'; rewrite Hd2, <- !app_assoc; reflexivity|reflexivity|exact Hz].
        unfold p_text. cbn [has_ctl existsb]. rewrite Ec2. reflexivity.
      * rewrite (Etxt m Hd2 eq_refl). destruct m; reflexivity.
    + destruct (is 91 c) eqn:E91.
      * cbn [texec sem_act]. unfold with_text. rewrite (text_mid pre (b :: w) (c :: r') y Hdw Hpb). cbn [texec].
        set (z := upd (set_o_tag (b :: w)) y). assert (Hz : I3 z) by exact HI. assert (Hpz : m_pb z = len pre) by reflexivity.
        change (set_o_tag (b :: w) (m_out x)) with (m_out z).
        rewrite El1. destruct r' as [|s m].
        { cbn [arun edelta texec sem_act]. unfold with_text. rewrite (text_mid pre _ [] z Hd1 Hpz). cbn [num obs N.ltb N.eqb orb]. reflexivity. }
        cbn [arun delta texec sem_act]. set (pre' := pre ++ ((b :: w) ++ [c])).
        replace (len pre + len ((b :: w) ++ [c])) with (len pre' + len []) by (unfold pre'; rewrite len_app, len_nil; lia).
        change 0%N with (kk 0). rewrite (runContStep s m (runCont m) false 0%nat pre' []); [reflexivity|unfold pre'; rewrite Hd1, <- !app_assoc; reflexivity|cbn; lia|exact Hz|lia].
      * assert (Hng : (is_tagc (bN c) && (N.of_nat (length (b :: w)) <? 32))%N = false).
        { destruct (is_tagc (bN c)) eqn:Eg; [|reflexivity]. specialize (Hst c r' eq_refl Eg).
          cbn [andb]. apply N.ltb_ge. lia. }
        rewrite Hng. cbn [texec]. rewrite El1, (run333 r' pre _ y Hd1 Hpb Hy). unfold p_text. cbn [has_ctl existsb]. rewrite Ec. cbn [orb].
        rewrite <- app_assoc. reflexivity.
  - destruct (span_max is_tagc 32 (b :: r)) as [w0 r'] eqn:Es. cbn [fst snd] in *.
    destruct w0 as [|b0 w].
    2:{ pose proof (Forall_inv Hall) as H0. injection Ha as <- _. cbn beta in H0. congruence. }
    cbn [app] in Ha. subst r'. rewrite (run333 r pre [b] y); [|exact Hd|exact Hpb|exact Hy]. unfold p_text. cbn [has_ctl existsb]. rewrite Eb. reflexivity.
Qed.

(* ---- HOSTNAME ---- *)
Lemma graph_not_sp c : is_graph c = true -> (c =? 32)%N = false.
Proof. unfold A5424.is_graph, A5424.btw. rewrite andb_true_iff, !N.leb_le. intros H. apply N.eqb_neq. lia. Qed.
Lemma host_loop w : forall k p r x,
  Forall (fun b => is_graph (bN b) = true) w -> (0 < k)%N -> (k + N.of_nat (length w) <= 255)%N ->
  run (SHost k) p (w ++ r) x = run (SHost (k + N.of_nat (length w))) (p + len w) r x.
Proof.
  induction w as [|b w IH]; intros k p r x Hw Hk Hm.
  - cbn [app length]. rewrite N.add_0_r, len_nil, Z.add_0_r. reflexivity.
  - inversion Hw as [|? ? Hb Hw']; subst. cbn [length] in Hm. cbn [app arun delta].
    rewrite (graph_not_sp _ Hb), Hb. cbn [andb].
    replace (k <? 255)%N with true by (symmetry; apply N.ltb_lt; lia).
    replace (k =? 0)%N with false by (symmetry; apply N.eqb_neq; lia). cbn [texec].
    rewrite IH; [|exact Hw'|lia|lia]. cbn [length].
    replace (k + 1 + N.of_nat (length w))%N with (k + N.of_nat (S (length w)))%N by lia.
    rewrite len_cons. f_equal. lia.
Qed.

Lemma sim_host K : Sim S22 K -> Sim (SHost 0) (p_host K).
Proof.
  intros HK pre rest x Hd HI. pose proof HI as [He [Hmin Hc]]. unfold p_host.
  pose proof (Ref5424a.span_app is_graph 255 rest) as Ha.
  pose proof (Ref5424a.span_all is_graph 255 rest) as Hall.
  pose proof (Ref5424a.span_len is_graph 255 rest) as Hlen.
  pose proof (Ref5424a.span_stop is_graph 255 rest) as Hst.
  destruct (span_max is_graph 255 rest) as [w r]. cbn [fst snd] in *.
  destruct w as [|b w].
  - cbn [app] in Ha. subst r. rewrite len_nil, Z.add_0_r. destruct rest as [|b r].
    + cbn [arun edelta]. rewrite obs_eerr, partial_min by exact Hmin. reflexivity.
    + cbn [arun delta]. rewrite andb_false_r.
      destruct (is_graph (bN b)) eqn:Eg.
      { specialize (Hst b r eq_refl Eg). cbn [length] in Hst. lia. }
      cbn [andb]. rewrite obs_errt, partial_min by exact Hmin. reflexivity.
  - pose proof (Forall_inv Hall) as Hb. pose proof (Forall_inv_tail Hall) as Hw. cbn beta in Hb. subst rest. cbn [length] in *.
    cbn [app arun delta]. rewrite andb_false_r, Hb. cbn [andb].
    change (0 <? 255)%N with true. cbn [N.eqb texec sem_act].
    set (y := set_m_pb (len pre) x).
    assert (Hy : I3 y) by exact HI. assert (Hpb : m_pb y = len pre) by reflexivity.
    rewrite host_loop; [|exact Hw|lia|lia].
    replace (1 + N.of_nat (length w))%N with (N.of_nat (S (length w))) by lia.
    replace (len pre + 1 + len w) with (len pre + len (b :: w)) by (rewrite len_cons; lia).
    destruct r as [|c r].
    + cbn [arun edelta]. rewrite obs_eerr, partial_min by exact Hmin. reflexivity.
    + cbn [arun delta]. replace (0 <? N.of_nat (S (length w)))%N with true by (symmetry; apply N.ltb_lt; lia).
      rewrite andb_true_r. change (bN c =? 32)%N with (is 32 c). destruct (is 32 c) eqn:Ec.
      * cbn [texec sem_act]. unfold with_text. rewrite (text_mid pre (b :: w) (c :: r) y Hd Hpb). cbn [texec].
        replace (len pre + len (b :: w) + 1) with (len (pre ++ (b :: w) ++ [c])) by lensolve.
        rewrite (HK (pre ++ (b :: w) ++ [c]) r); [reflexivity|rewrite Hd, <- !app_assoc; reflexivity|exact HI].
      * assert (Hng : (is_graph (bN c) && (N.of_nat (S (length w)) <? 255))%N = false).
        { destruct (is_graph (bN c)) eqn:Eg; [|reflexivity]. specialize (Hst c r eq_refl Eg).
          cbn [andb]. apply N.ltb_ge. lia. }
        rewrite Hng, obs_errt, partial_min by exact Hmin. reflexivity.
Qed.

(* ---- TIMESTAMP ---- *)
Lemma st_loop l : forall n p x, obs (run (STs n) p l x) =
    match scan st_next 19 n l with
    | SStop v _ => OBad (partial_of x) (Some (PErr ETimestamp (p + len v)))
    | SDone v r => obs (run S19 (p + len v) r x)
    end /\ (forall v r, scan st_next 19 n l = SDone v r -> l = v ++ r).
Proof.
  induction l as [|b r IH]; intros n p x; cbn [scan].
  - cbn [arun edelta]. rewrite obs_eerr, len_nil, Z.add_0_r. split; [reflexivity|discriminate].
  - cbn [arun delta]. destruct (st_next n (bN b)) as [m|].
    + cbn [texec]. unfold to_ts. destruct (m =? 19)%N.
      * rewrite len_cons, len_nil. split; [reflexivity|]. intros v r' H. injection H as <- <-. reflexivity.
      * destruct (IH m (p + 1) x) as [IH1 IH2]. rewrite IH1. destruct (scan st_next 19 m r) as [v r'|v n'] eqn:E; cbn [scons].
        -- rewrite len_cons. split; [f_equal; f_equal; lia|]. intros v0 r0 H. injection H as <- <-. cbn [app]. f_equal. apply IH2; reflexivity.
        -- rewrite len_cons. split; [do 3 f_equal; lia|discriminate].
    + rewrite obs_errt, len_nil, Z.add_0_r. split; [reflexivity|discriminate].
Qed.
Lemma r3_loop l : forall n p x, rfc3339 cfg = true -> I3 x -> ok (SR n) = true -> obs (run (SR n) p l x) =
    match scan r3_next 324 n l with
    | SStop v n' => OBad (Some (m_out x)) (if r3_loud n' then Some (PErr ERFC3339 (p + len v)) else None)
    | SDone v r => obs (run S324 (p + len v) r x)
    end /\ (forall v r, scan r3_next 324 n l = SDone v r -> l = v ++ r).
Proof.
  induction l as [|b r IH]; intros n p x Hrf HI Hok; pose proof HI as [He [Hmin Hc]]; cbn [scan].
  - split; [|discriminate]. rewrite len_nil, Z.add_0_r. cbn [arun edelta]. destruct (r3_loud n) eqn:En.
    + rewrite obs_eerr, partial_min by exact Hmin. reflexivity.
    + cbn [texec obs]. replace ((n <? 333) || (n =? 373))%N with true; [apply failobs_I; exact HI|].
      symmetry. apply orb_true_iff. left. apply N.ltb_lt. cbn [ok] in Hok. unfold A5424.btw in Hok.
      rewrite orb_true_iff, !andb_true_iff, !N.leb_le in Hok. lia.
  - cbn [arun delta].
    assert (Hf : obs (tx (r3_fail n b) p x (next r p)) = OBad (Some (m_out x)) (if r3_loud n then Some (PErr ERFC3339 (p + len [])) else None)).
    { unfold r3_fail. rewrite len_nil, Z.add_0_r. destruct (r3_loud n); [rewrite obs_errt, partial_min by exact Hmin; reflexivity|rewrite obs_dead; apply failobs_I; exact HI]. }
    destruct (r3_next n (bN b)) as [m|] eqn:En.
    + cbn [texec sem_cnd]. rewrite Hc, Hrf. cbn [texec]. unfold to_r3. destruct (m =? 324)%N eqn:Em.
      * rewrite len_cons, len_nil. split; [reflexivity|]. intros v r' H. injection H as <- <-. reflexivity.
      * assert (Hok' : ok (SR m) = true).
        { destruct (sim3164 (SR n) Hok) as [_ [Hs _]]. destruct (Hs b) as [_ Ht]. cbn [delta] in Ht. rewrite En in Ht.
          cbn [tok] in Ht. apply andb_true_iff in Ht as [Ht _]. unfold to_r3 in Ht. rewrite Em in Ht. exact Ht. }
        destruct (IH m (p + 1) x Hrf HI Hok') as [IH1 IH2]. rewrite IH1. destruct (scan r3_next 324 m r) as [v r'|v n'] eqn:E; cbn [scons].
        -- rewrite len_cons. split; [f_equal; f_equal; lia|]. intros v0 r0 H. injection H as <- <-. cbn [app]. f_equal. apply IH2; reflexivity.
        -- rewrite len_cons. split; [|discriminate]. replace (p + 1 + len v) with (p + (len v + 1)) by lia. reflexivity.
    + split; [exact Hf|discriminate].
Qed.

Lemma st_next_4 c m : st_next 4 c = Some m -> (m =? 19)%N = false /\ is_dig c = false.
Proof.
  unfold st_next. intros H.
  repeat match goal with H : (if ?c =? ?k then _ else _)%N = _ |- _ => destruct (N.eqb_spec c k); [injection H as <-; subst c; split; reflexivity|] end.
  discriminate.
Qed.
Lemma st_next_4d c : is_dig c = true -> st_next 4 c = None.
Proof. intros H. destruct (st_next 4 c) as [m|] eqn:E; [|reflexivity]. apply st_next_4 in E as [_ E]. congruence. Qed.

Lemma set_ts_I t x : I3 x -> I3 (upd (set_o_timestampSet true) (upd (set_o_timestamp t) x)).
Proof. intros H. exact H. Qed.

(* the end of a Stamp *)
Lemma sim19 K pre w r x : Sim (SHost 0) K -> data = pre ++ w ++ r -> m_pb x = len pre -> I3 x ->
  obs (run S19 (len pre + len w) r x) = inj
    (match r with
     | b :: r' => if is 32 b then
                    match parse_stamp w with
                    | Some s => K (set_ts (stamp_time cfg s) (m_out x)) (len pre + len w + 1) r'
                    | None => PBad (Some (m_out x)) (Some (PTime w (len pre + len w)))
                    end
                  else PBad (Some (m_out x)) None
     | [] => PBad (Some (m_out x)) None
     end).
Proof.
  intros HK Hd Hpb HI. pose proof HI as [He [Hmin Hc]].
  destruct r as [|b r]; [cbn [arun edelta num texec obs N.ltb N.eqb orb]; change ((19 <? 333)%N) with true; cbn [orb]; apply failobs_I; exact HI|].
  cbn [arun delta]. change (bN b =? 32)%N with (is 32 b). destruct (is 32 b).
  2:{ rewrite obs_dead. apply failobs_I. exact HI. }
  unfold stamp_t. remember (TAct ATimestampYear (TIf CLoc (acts [ATimestampIn; ATimestampSet] (TNext (SHost 0))) (TAct ATimestampSet (TNext (SHost 0))))) as fin eqn:Efin.
  cbv zeta. cbn [texec sem_act]. unfold with_text at 1. rewrite (text_mid pre w (b :: r) x Hd Hpb).
  cbn [texec sem_cnd set_m_tval set_m_t m_t]. destruct (parse_stamp w) as [s|] eqn:Es; cbn [option_map].
  2:{ cbn [texec sem_act]. rewrite obs_fail. unfold failobs. rewrite partial_min by exact Hmin. reflexivity. }
  set (y := set_m_tval w (set_m_t (Some (stamp_in utc s)) x)).
  change (Vars (m_pb x) (m_err x) (m_cfg x) (m_out x) (Some (stamp_in utc s)) w) with y.
  assert (Hy : I3 y) by exact HI. assert (Hpy : m_pb y = len pre) by exact Hpb. assert (Hcy : m_cfg y = cfg) by exact Hc.
  cbn [texec sem_cnd]. rewrite Hcy.
  (* the continuation *)
  assert (Hfin : forall z t, I3 z -> m_out z = m_out x -> m_t z = Some t -> t = stamp_in (the_loc (timezone cfg)) s ->
     obs (tx fin (len pre + len w) z (next r (len pre + len w)))
     = inj (K (set_ts (stamp_time cfg s) (m_out x)) (len pre + len w + 1) r)).
  { intros z t Hz Hzo Hzt Ht. subst fin. pose proof Hz as [_ [_ Hzc]]. cbn [texec sem_act]. rewrite Hzt, Hzc. cbn [or_zero].
    cbn [texec sem_cnd upd set_m_out m_cfg]. rewrite Hzc.
    replace (len pre + len w + 1) with (len (pre ++ w ++ [b])) by lensolve.
    assert (Hd' : data = (pre ++ w ++ [b]) ++ r) by (rewrite Hd, <- !app_assoc; reflexivity).
    unfold stamp_time. rewrite <- Ht. destruct (loc cfg) as [l'|] eqn:El.
    - cbn [acts texec sem_act upd set_m_out m_cfg m_out]. rewrite Hzc, El. cbn [the_loc].
      rewrite (HK (pre ++ w ++ [b]) r); [|exact Hd'|].
      + cbn [upd set_m_out m_out]. rewrite Hzo. reflexivity.
      + destruct Hz as [A [B C]]. split; [exact A|split; [exact B|exact C]].
    - cbn [texec sem_act upd set_m_out m_cfg m_out].
      rewrite (HK (pre ++ w ++ [b]) r); [|exact Hd'|].
      + cbn [upd set_m_out m_out]. rewrite Hzo. reflexivity.
      + destruct Hz as [A [B C]]. split; [exact A|split; [exact B|exact C]]. }
  destruct (timezone cfg) as [l|] eqn:Etz.
  - cbn [texec]. change (sem_act ATimeInLoc data (len pre + len w) y) with
      (with_text data (len pre + len w) y (fun t => set_m_t (Some (or_zero (option_map (stamp_in (the_loc (timezone (m_cfg y)))) (parse_stamp t)))) y)).
    unfold with_text. rewrite (text_mid pre w (b :: r) y Hd Hpy), Es. cbn [option_map or_zero].
    apply (Hfin _ (stamp_in l s)); [exact HI|reflexivity|reflexivity|reflexivity].
  - cbv iota. apply (Hfin y (stamp_in utc s)); [exact HI|reflexivity|reflexivity|cbn [the_loc]; reflexivity].
Qed.

Lemma sim324 K pre w r x : Sim (SHost 0) K -> data = pre ++ w ++ r -> m_pb x = len pre -> I3 x ->
  obs (run S324 (len pre + len w) r x) = inj
    (match r with
     | b :: r' => if is 32 b then
                    match parse_rfc3339 w with
                    | Some t => K (set_ts t (m_out x)) (len pre + len w + 1) r'
                    | None => PBad (Some (m_out x)) (Some (PTime w (len pre + len w)))
                    end
                  else PBad (Some (m_out x)) None
     | [] => PBad (Some (m_out x)) None
     end).
Proof.
  intros HK Hd Hpb HI. pose proof HI as [He [Hmin Hc]].
  destruct r as [|b r]; [cbn [arun edelta num texec obs]; change ((324 <? 333)%N) with true; cbn [orb]; apply failobs_I; exact HI|].
  cbn [arun delta]. change (bN b =? 32)%N with (is 32 b). destruct (is 32 b).
  2:{ rewrite obs_dead. apply failobs_I. exact HI. }
  unfold rfc_t. cbn [texec sem_act]. unfold with_text. rewrite (text_mid pre w (b :: r) x Hd Hpb).
  cbn [texec sem_cnd set_m_tval set_m_t m_t]. destruct (parse_rfc3339 w) as [t|] eqn:Es.
  2:{ cbn [texec sem_act]. rewrite obs_fail. unfold failobs. rewrite partial_min by exact Hmin. reflexivity. }
  cbn [acts texec sem_act m_t or_zero].
  replace (len pre + len w + 1) with (len (pre ++ w ++ [b])) by lensolve.
  rewrite (HK (pre ++ w ++ [b]) r); [reflexivity|rewrite Hd, <- !app_assoc; reflexivity|exact HI].
Qed.

Lemma sim_ts K : Sim (SHost 0) K -> Sim S4 (p_ts cfg K).
Proof.
  intros HK pre rest x Hd HI. pose proof HI as [He [Hmin Hc]]. unfold p_ts. destruct rest as [|b r].
  { cbn [arun edelta scan]. rewrite obs_eerr, partial_min, len_nil, Z.add_0_r by exact Hmin. reflexivity. }
  cbn [arun delta]. set (y := set_m_pb (len pre) x).
  assert (Hy : I3 y) by exact HI. assert (Hpb : m_pb y = len pre) by reflexivity.
  destruct (is_dig (bN b)) eqn:Ed.
  - cbn [andb texec sem_cnd]. rewrite Hc. destruct (rfc3339 cfg) eqn:Erf.
    + cbn [texec sem_act]. fold y. destruct (r3_loop r 300 (len pre + 1) y Erf Hy eq_refl) as [E1 E2]. rewrite E1.
      destruct (scan r3_next 324 300 r) as [w r'|w n].
      * specialize (E2 w r' eq_refl). subst r. replace (len pre + 1 + len w) with (len pre + len (b :: w)) by lensolve.
        rewrite (sim324 K pre (b :: w) r' y HK Hd Hpb Hy). reflexivity.
      * replace (len pre + 1 + len w) with (len pre + len (b :: w)) by lensolve. reflexivity.
    + rewrite obs_errt, partial_min by exact Hmin. cbn [scan]. rewrite (st_next_4d _ Ed), len_nil, Z.add_0_r. reflexivity.
  - cbn [andb scan]. destruct (st_next 4 (bN b)) as [m|] eqn:Em.
    + destruct (st_next_4 _ _ Em) as [Hm _]. unfold to_ts. rewrite Hm. cbn [texec sem_act]. fold y.
      destruct (st_loop r m (len pre + 1) y) as [E1 E2]. rewrite E1. destruct (scan st_next 19 m r) as [w r'|w n]; cbn [scons].
      * specialize (E2 w r' eq_refl). subst r. replace (len pre + 1 + len w) with (len pre + len (b :: w)) by lensolve.
        rewrite (sim19 K pre (b :: w) r' y HK Hd Hpb Hy). reflexivity.
      * replace (len pre + 1 + len w) with (len pre + len (b :: w)) by lensolve. rewrite partial_min by exact Hmin. reflexivity.
    + rewrite obs_errt, partial_min, len_nil, Z.add_0_r by exact Hmin. reflexivity.
Qed.
(* ---- PRI ---- *)
Lemma sem_pri a w rest x v p : data = a :: w ++ rest -> m_pb x = 1 -> p = 1 + len w -> dec_to_int w = v -> 0 <= v <= 191 ->
  sem_act APriority data p x = Some (upd (set_o_priority v) x).
Proof.
  intros Hd Hp -> Hv Hr. cbn [sem_act]. unfold with_text.
  replace (1 + len w) with (len [a] + len w) by lensolve. rewrite (text_mid [a] w rest x Hd Hp), Hv. unfold to_u8. rewrite Z.mod_small by lia. reflexivity.
Qed.

Lemma sim_pri K x : Sim S4 K ->
  m_out x = msg_zero -> m_err x = None -> m_cfg x = cfg ->
  obs (run S1 0 data x) = inj (p_pri K data).
Proof.
  intros HK Hx He Hc.
  assert (pn : forall z, m_out z = msg_zero -> partial_of z = None) by (intros z Hz; unfold partial_of; rewrite Hz; reflexivity).
  destruct data as [|b r] eqn:Hd; rewrite <- Hd in *.
  { rewrite Hd. cbn [arun edelta p_pri]. change (OBad (partial_of x) (Some (PErr EPri 0)) = OBad None (Some (PErr EPri 0))). rewrite (pn x Hx). reflexivity. }
  rewrite Hd at 2 3. cbn [arun delta p_pri]. change (bN b =? 60)%N with (is 60 b). destruct (is 60 b).
  2:{ rewrite obs_errt, (pn x) by exact Hx. reflexivity. }
  cbn [texec Z.add].
  assert (Hno : forall z, m_out z = msg_zero -> partial_of z = None) by (intros z Hz; unfold partial_of; rewrite Hz; reflexivity).
  assert (Hpm : forall z v, m_out z = pri_msg v -> 0 <= v <= 191 -> partial_of z = Some (pri_msg v)).
  { intros z v Hz Hv. unfold partial_of. rewrite Hz. unfold minimal, pri_msg. cbn. unfold valid_priority, in_between.
    replace ((0 <=? v) && (v <=? 191)) with true; [reflexivity|]. symmetry. apply andb_true_iff. rewrite !Z.leb_le. lia. }
  (* the end of PRI *)
  assert (Hend : forall v p pre rest z, data = pre ++ rest -> p = len pre -> m_out z = pri_msg v -> m_err z = None -> m_cfg z = cfg -> 0 <= v <= 191 ->
     obs (run S4 p rest z) = inj (K (pri_msg v) p rest)).
  { intros v p pre rest z Hdd -> Hz Hze Hzc Hv. rewrite <- Hz. apply HK; auto. split; [exact Hze|split; [|exact Hzc]]. rewrite Hz.
    unfold minimal, pri_msg; cbn. unfold valid_priority, in_between. apply andb_true_iff. rewrite !Z.leb_le. lia. }
  assert (Hset : forall v z, m_out z = pri_msg v \/ m_out z = msg_zero -> forall v', m_out (upd (set_o_prioritySet true) (upd (set_o_priority v') z)) = pri_msg v').
  { intros v z [Hz|Hz] v'; unfold upd; cbn; rewrite Hz; reflexivity. }
  destruct r as [|d1 r1].
  { cbn [arun edelta Spec5424.prival]. rewrite obs_eerr, Hno by exact Hx. reflexivity. }
  cbn [arun delta Spec5424.prival]. change (bN d1 =? 48)%N with (is 48 d1).
  set (y := set_m_pb 1 x).
  assert (Hy : m_out y = msg_zero) by exact Hx.
  destruct (is 48 d1) eqn:E48.
  - (* "0" *)
    cbn [texec sem_act]. fold y. change (1 + 1) with 2.
    destruct r1 as [|c r2].
    { cbn [arun edelta]. rewrite obs_eerr, Hno by exact Hy. reflexivity. }
    cbn [arun delta acts texec].
    assert (D1 : is_dig (bN d1) = true) by (apply N.eqb_eq in E48; unfold A5424.is_dig, A5424.btw; rewrite E48; reflexivity).
    assert (V1 : dv d1 = 0) by (apply N.eqb_eq in E48; unfold Spec5424.dv; rewrite E48; reflexivity).
    rewrite (sem_pri b [d1] (c :: r2) y 0 2 Hd eq_refl eq_refl); [|rewrite Ref5424c.dec1 by exact D1; exact V1|lia].
    cbn [texec sem_act]. change (bN c =? 62)%N with (is 62 c). destruct (is 62 c).
    + cbn [texec]. apply (Hend 0 _ [b; d1; c] r2); [exact Hd|reflexivity|apply (Hset 0); right; exact Hy|exact He|exact Hc|lia].
    + rewrite obs_errt, (Hpm _ 0) by (first [apply (Hset 0); right; exact Hy|lia]). reflexivity.
  - destruct (btw 49 57 (bN d1)) eqn:E19.
    + pose proof (Ref5424c.d19_dig d1 E19) as D1. pose proof (Ref5424c.d19_range d1 E19) as R1.
      (* after one digit: state 593 or 594; both accept '>' ; next digit *)
      set (s1 := if (bN d1 =? 49)%N then S330 else S331).
      assert (Hstep : obs (tx (if (bN d1 =? 49)%N then TAct APb (TNext S330) else if btw 50 57 (bN d1) then TAct APb (TNext S331) else errt EPrival (fail d1)) 1 x (next r1 1)) = obs (run s1 2 r1 y)).
      { unfold s1. destruct (bN d1 =? 49)%N eqn:E; [reflexivity|].
        replace (btw 50 57 (bN d1)) with true; [reflexivity|]. symmetry. revert E19. unfold A5424.btw. rewrite !andb_true_iff, !N.leb_le. apply N.eqb_neq in E. lia. }
      rewrite Hstep. clear Hstep.
      destruct r1 as [|d2 r2].
      { replace (run s1 2 [] y) with (tx (errt EPrival efail) 2 y (fun _ _ => NoFuel)) by (unfold s1; destruct (bN d1 =? 49)%N; reflexivity).
        rewrite obs_eerr, Hno by exact Hy. reflexivity. }
      set (y1 := upd (set_o_prioritySet true) (upd (set_o_priority (dv d1)) y)).
      assert (Hy1 : m_out y1 = pri_msg (dv d1)) by (apply (Hset 0); right; exact Hy).
      assert (Hc1 : m_cfg y1 = cfg) by exact Hc.
      assert (Hp1 : m_pb y1 = 1) by reflexivity.
      (* state after two digits *)
      set (s2 := if (bN d1 =? 49)%N then (if (bN d2 =? 57)%N then S332 else S331) else S3).
      assert (Hstep : run s1 2 (d2 :: r2) y =
          tx (if (bN d2 =? 62)%N then TNext S4 else if is_dig (bN d2) then TNext s2 else errt EPrival (fail d2)) 2 y1 (next r2 2)).
      { assert (Hsem : sem_act APriority data 2 y = Some (upd (set_o_priority (dv d1)) y)).
        { apply (sem_pri b [d1] (d2 :: r2)); [exact Hd|reflexivity|reflexivity|apply Ref5424c.dec1; exact D1|lia]. }
        unfold s1, s2. destruct (bN d1 =? 49)%N; cbn [arun delta acts texec]; rewrite Hsem; cbn [texec sem_act]; fold y1.
        - destruct (bN d2 =? 62)%N; [reflexivity|]. unfold A5424.is_dig.
          destruct (btw 48 56 (bN d2)) eqn:Ea.
          + replace (btw 48 57 (bN d2)) with true; [|symmetry; revert Ea; unfold A5424.btw; rewrite !andb_true_iff, !N.leb_le; lia].
            replace (bN d2 =? 57)%N with false; [reflexivity|]. symmetry. apply N.eqb_neq. revert Ea. unfold A5424.btw. rewrite andb_true_iff, !N.leb_le. lia.
          + destruct (bN d2 =? 57)%N eqn:Eb.
            * apply N.eqb_eq in Eb. rewrite Eb. reflexivity.
            * replace (btw 48 57 (bN d2)) with false; [reflexivity|]. symmetry. apply N.eqb_neq in Eb. revert Ea. unfold A5424.btw. rewrite !andb_false_iff, !N.leb_gt. lia.
        - reflexivity. }
      rewrite Hstep. clear Hstep. change (bN d2 =? 62)%N with (is 62 d2).
      destruct (is 62 d2) eqn:E62.
      { replace (is_dig (bN d2)) with false by (apply N.eqb_eq in E62; rewrite E62; reflexivity). rewrite E62.
        cbn [texec]. apply (Hend (dv d1) _ [b; d1; d2] r2); [exact Hd|reflexivity|exact Hy1|exact He|exact Hc|lia]. }
      destruct (is_dig (bN d2)) eqn:D2.
      2:{ rewrite E62. rewrite obs_errt, (Hpm _ (dv d1)) by (first [exact Hy1|lia]). reflexivity. }
      pose proof (Ref5424c.dv_range d2 D2) as R2. cbn [texec]. change (2 + 1) with 3.
      destruct r2 as [|d3 r3].
      { replace (run s2 3 [] y1) with (tx (errt EPrival efail) 3 y1 (fun _ _ => NoFuel)) by (unfold s2; destruct (bN d1 =? 49)%N; [destruct (bN d2 =? 57)%N|]; reflexivity).
        rewrite obs_eerr, (Hpm _ (dv d1)) by (first [exact Hy1|lia]). change (2 =? 1) with false. cbv iota.
        replace ((10 * dv d1 + dv d2) / 10) with (dv d1); [reflexivity|]. apply (Z.div_unique _ 10 _ (dv d2)); lia. }
      set (v2 := 10 * dv d1 + dv d2).
      set (y2 := upd (set_o_prioritySet true) (upd (set_o_priority v2) y1)).
      assert (Hy2 : m_out y2 = pri_msg v2) by (apply (Hset (dv d1)); left; exact Hy1).
      set (v3 := 100 * dv d1 + 10 * dv d2 + dv d3).
      assert (Hstep : run s2 3 (d3 :: r3) y1 =
          tx (if (bN d3 =? 62)%N then TNext S4 else if is_dig (bN d3) && (v3 <=? 191) then TNext S3 else errt EPrival (fail d3)) 3 y2 (next r3 3)).
      { assert (Hsem : sem_act APriority data 3 y1 = Some (upd (set_o_priority v2) y1)).
        { apply (sem_pri b [d1; d2] (d3 :: r3)); [exact Hd|reflexivity|reflexivity|apply Ref5424c.dec2; assumption|unfold v2; lia]. }
        assert (F1 : (bN d1 =? 49)%N = (dv d1 =? 1)) by (unfold Spec5424.dv; destruct (N.eqb_spec (bN d1) 49); destruct (Z.eqb_spec (Z.of_N (bN d1) - 48) 1); lia).
        assert (F2 : (bN d2 =? 57)%N = (dv d2 =? 9)) by (unfold Spec5424.dv; destruct (N.eqb_spec (bN d2) 57); destruct (Z.eqb_spec (Z.of_N (bN d2) - 48) 9); lia).
        unfold s2. rewrite F1, F2. destruct (Z.eqb_spec (dv d1) 1) as [G1|G1].
        - destruct (Z.eqb_spec (dv d2) 9) as [G2|G2]; cbn [arun delta acts texec]; rewrite Hsem; cbn [texec sem_act]; fold y2;
            (destruct (bN d3 =? 62)%N; [reflexivity|]).
          + replace (btw 48 49 (bN d3)) with (is_dig (bN d3) && (v3 <=? 191)); [reflexivity|].
            unfold A5424.is_dig, A5424.btw, v3, Spec5424.dv in *.
            destruct (N.leb_spec 48 (bN d3)); destruct (N.leb_spec (bN d3) 57); destruct (N.leb_spec (bN d3) 49); cbn [andb]; try reflexivity; try lia.
            all: destruct (Z.leb_spec (100 * (Z.of_N (bN d1) - 48) + 10 * (Z.of_N (bN d2) - 48) + (Z.of_N (bN d3) - 48)) 191); try reflexivity; lia.
          + destruct (is_dig (bN d3)) eqn:D3; [|reflexivity]. pose proof (Ref5424c.dv_range d3 D3).
            replace (v3 <=? 191) with true; [reflexivity|]. symmetry. apply Z.leb_le. unfold v3. lia.
        - cbn [arun delta acts texec]; rewrite Hsem; cbn [texec sem_act]; fold y2.
          destruct (bN d3 =? 62)%N; [reflexivity|].
          destruct (is_dig (bN d3)) eqn:D3; [|reflexivity]. pose proof (Ref5424c.dv_range d3 D3).
          replace (v3 <=? 191) with false; [reflexivity|]. symmetry. apply Z.leb_gt. unfold v3. lia. }
      rewrite Hstep. clear Hstep. change (bN d3 =? 62)%N with (is 62 d3). fold v3.
      assert (Hc2 : m_cfg y2 = cfg) by exact Hc.
      destruct (is 62 d3) eqn:E63.
      { replace (is_dig (bN d3)) with false by (apply N.eqb_eq in E63; rewrite E63; reflexivity). cbn [andb]. rewrite E63.
        cbn [texec]. destruct (Z.leb_spec v2 191).
        - apply (Hend v2 _ [b; d1; d2; d3] r3); [exact Hd|reflexivity|exact Hy2|exact He|exact Hc|unfold v2; lia].
        - unfold v2 in *. lia. }
      destruct (is_dig (bN d3) && (v3 <=? 191)) eqn:D3.
      2:{ rewrite E63. rewrite obs_errt, (Hpm _ v2) by (first [exact Hy2|unfold v2; lia]). reflexivity. }
      apply andb_true_iff in D3 as [D3 Hv3]. pose proof (Ref5424c.dv_range d3 D3) as R3. apply Z.leb_le in Hv3.
      cbn [texec]. change (3 + 1) with 4.
      destruct r3 as [|c r4].
      { cbn [arun edelta]. rewrite obs_eerr, (Hpm _ v2) by (first [exact Hy2|unfold v2; lia]). change (3 =? 1) with false. cbv iota.
        replace (v3 / 10) with v2; [reflexivity|]. apply (Z.div_unique _ 10 _ (dv d3)); unfold v2, v3; lia. }
      cbn [arun delta acts texec].
      rewrite (sem_pri b [d1; d2; d3] (c :: r4) y2 v3 4 Hd eq_refl eq_refl); [|apply Ref5424c.dec3; assumption|unfold v3; lia].
      cbn [texec sem_act]. change (bN c =? 62)%N with (is 62 c).
      assert (Hy3 : m_out (upd (set_o_prioritySet true) (upd (set_o_priority v3) y2)) = pri_msg v3) by (apply (Hset v2); left; exact Hy2).
      destruct (is 62 c).
      * cbn [texec]. apply (Hend v3 _ [b; d1; d2; d3; c] r4); [exact Hd|reflexivity|exact Hy3|exact He|exact Hc|unfold v3; lia].
      * rewrite obs_errt, (Hpm _ v3) by (first [exact Hy3|unfold v3; lia]). reflexivity.
    + replace (bN d1 =? 49)%N with false by (symmetry; apply N.eqb_neq; intros E; rewrite E in E19; discriminate).
      replace (btw 50 57 (bN d1)) with false.
      2:{ symmetry. revert E19. unfold A5424.btw. rewrite !andb_false_iff, !N.leb_gt. lia. }
      rewrite obs_errt, Hno by exact Hx. reflexivity.
Qed.


Theorem run_spec x : m_out x = msg_zero -> m_err x = None -> m_cfg x = cfg ->
  obs (run S1 0 data x) = inj (spec3164 cfg data).
Proof. intros Hx He Hc. unfold spec3164. apply sim_pri; auto. apply sim_ts, sim_host, sim_msg. Qed.
End R.

(* the options are never written by the automaton *)
Lemma sem_act_cfg a data p x y : sem_act a data p x = Some y -> m_cfg y = m_cfg x.
Proof.
  unfold sem_act, with_text. destruct a; cbn;
  repeat match goal with |- context [match ?e with _ => _ end] => destruct e end; intros H; try discriminate; injection H as <-; reflexivity.
Qed.
Lemma texec_cfg {L} (t : tree act cnd L) data p : forall x nx cs y,
  (forall l x', m_cfg x' = m_cfg x -> nx l x' = Out cs y -> m_cfg y = m_cfg x) ->
  texec sem_act sem_cnd data t p x nx = Out cs y -> m_cfg y = m_cfg x.
Proof.
  induction t as [n|c|a t IH|c t IHt e IHe|]; intros x nx cs y Hn; cbn [texec].
  - apply Hn. reflexivity.
  - intros H. injection H as _ <-. reflexivity.
  - destruct (sem_act a data p x) as [x'|] eqn:E; [|discriminate]. apply sem_act_cfg in E.
    intros H. rewrite <- E. apply (IH x' nx cs y); [|exact H]. intros l x2 H2 H3. rewrite E. apply (Hn l x2); congruence.
  - destruct (sem_cnd c x); [apply IHt|apply IHe]; exact Hn.
  - discriminate.
Qed.
Lemma arun_cfg data rest : forall s p x cs y, run3164 data s p rest x = Out cs y -> m_cfg y = m_cfg x.
Proof.
  induction rest as [|b r IH]; intros s p x cs y; cbn [arun]; intros H.
  - apply (texec_cfg (edelta s) data p x (fun _ _ => NoFuel) cs y); [discriminate|exact H].
  - apply (texec_cfg (delta s b) data p x _ cs y) in H; [exact H|]. intros l x' Hx' H'. rewrite <- Hx'. exact (IH _ _ _ _ _ H').
Qed.

Definition ret_of (best : bool) (r : pres) : ret :=
  match r with
  | PGood o => Ret (Some (export o)) None
  | PBad (Some o) e => Ret (if best then Some (export o) else None) e
  | PBad None e => Ret None e
  end.

(* Parse, run as the goto program on any machine, whatever was parsed before *)
Theorem parse_spec m data :
  snd (parse m data) = ret_of (bestEffort m) (spec3164 (config_of m) data)
  /\ bestEffort (fst (parse m data)) = bestEffort m /\ config_of (fst (parse m data)) = config_of m.
Proof.
  unfold parse. rewrite exec_run3164.
  pose proof (run_spec data (config_of m) (prepare (mv m)) eq_refl eq_refl eq_refl) as H.
  pose proof (fun cs y => arun_cfg data data S1 0 (prepare (mv m)) cs y) as Hcm.
  destruct (run3164 data S1 0 data (prepare (mv m))) as [cs x| |].
  - specialize (Hcm cs x eq_refl). cbn [fst snd bestEffort]. unfold config_of in *. cbn [mv]. split; [|split; [reflexivity|exact Hcm]].
    cbn [obs] in H. destruct ((cs <? 333) || (cs =? 373))%N.
    + unfold failobs, partial_of in H. destruct (spec3164 (m_cfg (mv m)) data) as [o|[o|] e]; cbn [inj ret_of] in *; try discriminate.
      * destruct (minimal (m_out x)); [|discriminate]. injection H as <- ->. destruct (bestEffort m); reflexivity.
      * destruct (minimal (m_out x)); [discriminate|]. injection H as ->. rewrite andb_false_r. reflexivity.
    + destruct (spec3164 (m_cfg (mv m)) data) as [o|[o|] e]; cbn [inj ret_of] in *; try discriminate. injection H as <-. reflexivity.
  - exfalso. destruct (spec3164 (config_of m) data) as [o|[o|] e]; discriminate.
  - exfalso. destruct (spec3164 (config_of m) data) as [o|[o|] e]; discriminate.
Qed.

Theorem after_flags inputs : forall m, bestEffort (after m inputs) = bestEffort m /\ config_of (after m inputs) = config_of m.
Proof.
  induction inputs as [|i r IH]; intros m; cbn [after]; [auto|].
  destruct (parse_spec m i) as [_ [H1 H2]]. destruct (IH (fst (parse m i))) as [H3 H4]. split; congruence.
Qed.
