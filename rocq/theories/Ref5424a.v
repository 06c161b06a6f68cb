(* L2 = L3 for rfc5424, part 1: messages, words, timestamp, version, priority. *)
From Verif Require Import Bytes GoMap GoTime Common GotoLang M5424Def Gen5424 A5424 M5424 Spec5424.
Local Open Scope Z_scope.

(* what Parse returns, before the best effort flag is looked at *)
Definition partial_of (x : vars) : option msg5424 := if minimal (m_out x) then Some (m_out x) else None.
Inductive ores := OGood (o : msg5424) | OBad (o : option msg5424) (e : option perr) | OCrash.
Definition failobs (x : vars) : ores := OBad (partial_of x) (m_err x).
Definition obs (r : outcome vars) : ores :=
  match r with
  | Out cs x => if ((cs <? 603) || (cs =? 614))%N then failobs x else OGood (m_out x)
  | _ => OCrash
  end.
Definition inj (r : pres) : ores := match r with PGood o => OGood o | PBad o e => OBad o (Some e) end.

Lemma span_app P max l : l = fst (span_max P max l) ++ snd (span_max P max l).
Proof.
  revert max; induction l as [|b r IH]; intros [|m]; cbn; auto.
  destruct (P (bN b)); cbn; [f_equal; apply IH|reflexivity].
Qed.
Lemma span_all P max l : Forall (fun b => P (bN b) = true) (fst (span_max P max l)).
Proof.
  revert max; induction l as [|b r IH]; intros [|m]; cbn; auto.
  destruct (P (bN b)) eqn:E; cbn; auto.
Qed.
Lemma span_len P max l : (length (fst (span_max P max l)) <= max)%nat.
Proof.
  revert max; induction l as [|b r IH]; intros [|m]; cbn; try lia.
  destruct (P (bN b)); cbn; [specialize (IH m); lia|lia].
Qed.
Lemma span_stop P max l b r : snd (span_max P max l) = b :: r ->
  P (bN b) = true -> length (fst (span_max P max l)) = max.
Proof.
  revert max; induction l as [|c l IH]; intros [|m]; cbn; auto; try discriminate.
  destruct (P (bN c)) eqn:E; cbn.
  - intros H1 H2. f_equal. apply IH; auto.
  - intros H. injection H as -> ->. congruence.
Qed.

Ltac lensolve := unfold len; rewrite ?app_length; cbn [length app]; rewrite ?app_length; cbn [length]; lia.

Section R.
Variable data : bytes.
Notation run := (run5424 data).
Notation next r p := (fun (s' : st) (x' : vars) => run s' (p + 1) r x').

Lemma obs_fail_run rest : forall p x, obs (run SFail p rest x) = failobs x.
Proof.
  induction rest as [|b r IH]; intros p x; cbn [arun delta edelta texec]; [reflexivity|].
  destruct ((bN b =? 10) || (bN b =? 13))%N; cbn [texec]; [reflexivity|apply IH].
Qed.
Lemma obs_fail b p r x : obs (texec sem_act sem_cnd data (fail b) p x (next r p)) = failobs x.
Proof. unfold fail. destruct ((bN b =? 10) || (bN b =? 13))%N; cbn [texec]; [reflexivity|apply obs_fail_run]. Qed.
Lemma obs_errt b p r x k : obs (texec sem_act sem_cnd data (errt k (fail b)) p x (next r p)) = OBad (partial_of x) (Some (PErr k p)).
Proof. unfold errt. cbn [texec sem_act]. rewrite obs_fail. reflexivity. Qed.
Lemma obs_eerr p x k nx : obs (texec sem_act sem_cnd data (errt k efail) p x nx) = OBad (partial_of x) (Some (PErr k p)).
Proof. reflexivity. Qed.

Lemma text_mid pre w rest x : data = pre ++ w ++ rest -> m_pb x = len pre -> text_of data (len pre + len w) x = Some w.
Proof.
  intros Hd Hp. unfold text_of. rewrite Hp, Hd. unfold len. rewrite <- Nat2Z.inj_add. apply zslice_mid.
Qed.

(* state s, started on rest with variables satisfying I, computes K *)
Definition Sim (I : vars -> Prop) (s : st) (K : stage) : Prop :=
  forall pre rest x, data = pre ++ rest -> 0 < len pre -> I x -> obs (run s (len pre) rest x) = inj (K (m_out x) (len pre) rest).

Definition Imin (cm : bool) (x : vars) : Prop := m_compliantMsg x = cm /\ minimal (m_out x) = true.
Definition Ihdr (cm : bool) (x : vars) : Prop := Imin cm x /\ o_hasElements (m_out x) = false.

Lemma len_snoc pre (b : byte) : len (pre ++ [b]) = len pre + 1.
Proof. unfold len. rewrite app_length. cbn. lia. Qed.
Lemma len_app a b : len (a ++ b) = len a + len b.
Proof. unfold len. rewrite app_length. lia. Qed.
Lemma len_cons b a : len (b :: a) = len a + 1.
Proof. unfold len. cbn [length]. lia. Qed.
Lemma len_nil : len [] = 0. Proof. reflexivity. Qed.
Lemma len_nonneg a : 0 <= len a. Proof. unfold len. lia. Qed.


Lemma partial_min x : minimal (m_out x) = true -> partial_of x = Some (m_out x).
Proof. unfold partial_of. intros ->. reflexivity. Qed.

(* ---- MSG ---- *)
Lemma run608 rest : forall pre w x, data = pre ++ w ++ rest -> m_pb x = len pre ->
  obs (run S608 (len pre + len w) rest x) = OGood (set_o_message (w ++ rest) (m_out x)).
Proof.
  induction rest as [|b r IH]; intros pre w x Hd Hp; cbn [arun delta edelta texec sem_act].
  - unfold with_text. rewrite (text_mid pre w [] x Hd Hp). rewrite app_nil_r. reflexivity.
  - replace (len pre + len w + 1) with (len pre + len (w ++ [b])) by (rewrite len_snoc; lia).
    rewrite IH; [|rewrite Hd, <- !app_assoc; reflexivity|exact Hp]. rewrite <- app_assoc. reflexivity.
Qed.
Lemma run610 rest : forall pre w x, data = pre ++ w ++ rest -> m_pb x = len pre ->
  obs (run S610 (len pre + len w) rest x) = OGood (set_o_message (w ++ rest) (m_out x)).
Proof.
  induction rest as [|b r IH]; intros pre w x Hd Hp; cbn [arun delta edelta texec sem_act].
  - unfold with_text. rewrite (text_mid pre w [] x Hd Hp). rewrite app_nil_r. reflexivity.
  - replace (len pre + len w + 1) with (len pre + len (w ++ [b])) by (rewrite len_snoc; lia).
    rewrite IH; [|rewrite Hd, <- !app_assoc; reflexivity|exact Hp]. rewrite <- app_assoc. reflexivity.
Qed.

(* the compliant-message states after the BOM *)
Definition mstate (u : option N) : st := match u with None => S613 | Some i => SMu (596 + i) end.

Lemma zslice_mid' pre w rest : zslice (pre ++ w ++ rest) (len pre) (len pre + len w) = Some w.
Proof. unfold len. rewrite <- Nat2Z.inj_add. apply zslice_mid. Qed.

Lemma obs_msg_err_gen pre w rest x (f : tr) nx :
  data = pre ++ w ++ rest -> m_msgat x = len pre -> 0 < len pre -> Imin true x ->
  (forall y, obs (texec sem_act sem_cnd data f (len pre + len w) y nx) = failobs y) ->
  obs (texec sem_act sem_cnd data (msg_err f) (len pre + len w) x nx)
   = OBad (Some (set_o_message w (m_out x))) (Some (PErr EMsgNotCompliant (len pre + len w))).
Proof.
  intros Hd Hm H0 [Hc Hmin] Hf. unfold msg_err. cbn [texec sem_cnd]. rewrite Hm.
  replace (0 <? len pre) with true by (symmetry; apply Z.ltb_lt; lia).
  cbn [sem_act]. rewrite Hm.
  replace (zslice data (len pre) (len pre + len w)) with (Some w) by (rewrite Hd; symmetry; apply zslice_mid').
  cbn [texec sem_cnd upd set_m_out m_compliantMsg]. rewrite Hc. unfold errt. cbn [texec sem_act].
  rewrite Hf. unfold failobs, partial_of.
  change (minimal _) with (minimal (m_out x)). rewrite Hmin. reflexivity.
Qed.

Definition okmu (u : option N) : Prop := match u with None => True | Some i => (i < 7)%N end.
Lemma utf_start_lt c i : utf_start c = Some i -> (i < 7)%N.
Proof. unfold utf_start. repeat match goal with |- context [if ?c then _ else _] => destruct c end; intros H; try discriminate; injection H as <-; lia. Qed.
Lemma utf_tail_lt i c j : utf_tail i c = Some (Some j) -> (j < 7)%N.
Proof.
  unfold utf_tail. destruct i as [|[[[|[]|]|[[]| |]|]|[[|[]|]|[[]| |]|]|]];
  repeat match goal with |- context [if ?c then _ else _] => destruct c end; intros H; try discriminate; injection H as <-; lia.
Qed.

Lemma run613 rest : forall u pre w x, data = pre ++ w ++ rest -> m_pb x = len pre -> m_msgat x = len pre -> 0 < len pre ->
  Imin true x -> okmu u ->
  obs (run (mstate u) (len pre + len w) rest x) =
    match utf_scan u rest with
    | None => OGood (set_o_message (w ++ rest) (m_out x))
    | Some n => OBad (Some (set_o_message (w ++ firstn n rest) (m_out x))) (Some (PErr EMsgNotCompliant (len pre + len w + Z.of_nat n)))
    end.
Proof.
  induction rest as [|b r IH]; intros u pre w x Hd Hp Hm H0 HI Hu.
  - destruct u as [i|]; cbn [utf_scan mstate arun edelta].
    + rewrite (obs_msg_err_gen pre w [] x); auto. cbn [firstn]. rewrite app_nil_r, Z.add_0_r. reflexivity.
    + cbn [texec sem_act]. unfold with_text. rewrite (text_mid pre w [] x Hd Hp), app_nil_r. reflexivity.
  - cbn [utf_scan arun].
    assert (Hgo : forall u', okmu u' -> obs (run (mstate u') (len pre + len w + 1) r x) =
        match utf_scan u' r with
        | None => OGood (set_o_message (w ++ b :: r) (m_out x))
        | Some n => OBad (Some (set_o_message (w ++ firstn (S n) (b :: r)) (m_out x))) (Some (PErr EMsgNotCompliant (len pre + len w + Z.of_nat (S n))))
        end).
    { intros u' Hu'. replace (len pre + len w + 1) with (len pre + len (w ++ [b])) by (rewrite len_snoc; lia).
      rewrite IH; auto; [|rewrite Hd, <- !app_assoc; reflexivity].
      destruct (utf_scan u' r) as [n|]; rewrite <- app_assoc; cbn [app firstn]; [|reflexivity].
      rewrite len_snoc. do 3 f_equal. lia. }
    assert (Herr : obs (texec sem_act sem_cnd data (msg_err (fail b)) (len pre + len w) x (next r (len pre + len w))) =
       OBad (Some (set_o_message (w ++ firstn 0 (b :: r)) (m_out x))) (Some (PErr EMsgNotCompliant (len pre + len w + Z.of_nat 0)))).
    { rewrite (obs_msg_err_gen pre w (b :: r) x); auto.
      - cbn [firstn]. rewrite app_nil_r, Z.add_0_r. reflexivity.
      - intros y. apply obs_fail. }
    destruct u as [i|]; cbn [mstate delta].
    + replace (596 + i - 596)%N with i by lia.
      destruct (utf_tail i (bN b)) as [[j|]|] eqn:E.
      * cbn [texec]. apply utf_tail_lt in E. change (SMu (596 + j)) with (mstate (Some j)). rewrite (Hgo (Some j) E). destruct (utf_scan (Some j) r); reflexivity.
      * cbn [texec]. change S613 with (mstate None). rewrite (Hgo None I). destruct (utf_scan None r); reflexivity.
      * exact Herr.
    + destruct (bN b <? 128)%N.
      * cbn [texec]. change S613 with (mstate None). rewrite (Hgo None I). destruct (utf_scan None r); reflexivity.
      * destruct (utf_start (bN b)) as [i|] eqn:E.
        -- cbn [texec]. apply utf_start_lt in E. change (SMu (596 + i)) with (mstate (Some i)). rewrite (Hgo (Some i) E). destruct (utf_scan (Some i) r); reflexivity.
        -- exact Herr.
Qed.

Lemma len_pos_cons b (l : bytes) pre : 0 < len (pre ++ b :: l).
Proof. unfold len. rewrite app_length. cbn. lia. Qed.

Lemma sim604 cm pre rest x : data = pre ++ rest -> 0 < len pre -> Imin cm x ->
  obs (run S604 (len pre) rest x) = inj (p_msg cm (m_out x) (len pre) rest).
Proof.
  intros Hd H0 HI. pose proof HI as [Hc Hmin]. destruct rest as [|b r]; [reflexivity|].
  cbn [arun delta texec sem_cnd]. rewrite Hc. destruct cm.
  - cbn [acts texec sem_act].
    set (y := set_m_msgat (len pre) (set_m_pb (len pre) x)).
    assert (Hy : Imin true y) by exact HI.
    assert (Hpb : m_pb y = len pre) by reflexivity. assert (Hat : m_msgat y = len pre) by reflexivity.
    assert (E610 : forall w r', b :: r = w ++ r' -> obs (run S610 (len pre + len w) r' y) = OGood (set_o_message (b :: r) (m_out x))).
    { intros w r' E. rewrite (run610 r' pre w y); [rewrite <- E; reflexivity|rewrite Hd, E; reflexivity|exact Hpb]. }
    cbn [p_msg].
    destruct (bN b =? 239)%N eqn:Eb.
    + destruct r as [|c r].
      { cbn [arun edelta texec sem_act]. unfold with_text.
        replace (len pre + 1) with (len pre + len [b]) by reflexivity.
        rewrite (text_mid pre [b] [] y Hd Hpb). reflexivity. }
      cbn [arun delta texec]. destruct (bN c =? 187)%N eqn:Ec.
      * destruct r as [|d r].
        { cbn [arun edelta texec sem_act]. unfold with_text.
          replace (len pre + 1 + 1) with (len pre + len [b; c]) by (unfold len; cbn; lia).
          rewrite (text_mid pre [b; c] [] y Hd Hpb). reflexivity. }
        cbn [arun delta texec strip_bom]. unfold is. rewrite Eb, Ec. cbn [andb].
        destruct (bN d =? 191)%N eqn:Ed.
        -- replace (len pre + 1 + 1 + 1) with (len pre + len [b; c; d]) by (unfold len; cbn; lia).
           change S613 with (mstate None). rewrite (run613 r None pre [b; c; d] y); auto; [|exact I].
           destruct (utf_scan None r) as [n|]; [|reflexivity].
           cbn [inj app firstn plus]. replace (len pre + len [b; c; d] + Z.of_nat n) with (len pre + 3 + Z.of_nat n) by (unfold len; cbn; lia).
           reflexivity.
        -- replace (len pre + 1 + 1 + 1) with (len pre + len [b; c; d]) by (unfold len; cbn; lia).
           rewrite (E610 [b; c; d] r eq_refl). reflexivity.
      * replace (len pre + 1 + 1) with (len pre + len [b; c]) by (unfold len; cbn; lia).
        rewrite (E610 [b; c] r eq_refl). cbn [strip_bom]. unfold is. destruct r as [|d r]; [reflexivity|].
        rewrite Ec, andb_false_r. reflexivity.
    + replace (len pre + 1) with (len pre + len [b]) by reflexivity.
      rewrite (E610 [b] r eq_refl). unfold strip_bom, is. destruct r as [|c [|d r]]; try reflexivity. rewrite Eb. reflexivity.
  - cbn [acts texec sem_act]. replace (len pre + 1) with (len pre + len [b]) by reflexivity.
    rewrite (run608 r pre [b]); [reflexivity|exact Hd|reflexivity].
Qed.

(* ---- words ---- *)
Lemma graph_not_sp c : is_graph c = true -> (c =? 32)%N = false.
Proof. unfold is_graph, btw. rewrite andb_true_iff, !N.leb_le. intros H. apply N.eqb_neq. lia. Qed.

Lemma word_loop f w : forall k p r x,
  Forall (fun b => is_graph (bN b) = true) w -> (0 < k)%N -> (k + N.of_nat (length w) <= fmax f)%N ->
  run (SWord f k) p (w ++ r) x = run (SWord f (k + N.of_nat (length w))) (p + len w) r x.
Proof.
  induction w as [|b w IH]; intros k p r x Hw Hk Hm.
  - cbn [app length]. rewrite N.add_0_r, len_nil, Z.add_0_r. reflexivity.
  - inversion Hw as [|? ? Hb Hw']; subst. cbn [length] in Hm. cbn [app arun delta].
    rewrite (graph_not_sp _ Hb), Hb. cbn [andb].
    replace (k <? fmax f)%N with true by (symmetry; apply N.ltb_lt; lia).
    replace (k =? 0)%N with false by (symmetry; apply N.eqb_neq; lia). cbn [texec].
    rewrite IH; [|exact Hw'|lia|lia]. cbn [length].
    replace (k + 1 + N.of_nat (length w))%N with (k + N.of_nat (S (length w)))%N by lia.
    rewrite len_cons. f_equal. lia.
Qed.

Definition wnext (f : fld) : st := match f with FHost => SWord FApp 0 | FApp => SWord FProc 0 | FProc => SWord FMsgid 0 | FMsgid => S16 end.

Lemma sem_fact f pre w rest p x : data = pre ++ w ++ rest -> m_pb x = len pre -> p = len pre + len w ->
  sem_act (fact f) data p x = Some (upd (set_word f w) x).
Proof.
  intros Hd Hp ->. destruct f; cbn [fact sem_act]; unfold with_text; rewrite (text_mid pre w rest x Hd Hp); reflexivity.
Qed.

Lemma sim_word f K cm : Sim (Ihdr cm) (wnext f) K -> Sim (Ihdr cm) (SWord f 0) (p_word f K).
Proof.
  intros HK pre rest x Hd H0 HI. pose proof HI as [[Hc Hmin] Hh]. unfold p_word.
  pose proof (span_app is_graph (N.to_nat (fmax f)) rest) as Ha.
  pose proof (span_all is_graph (N.to_nat (fmax f)) rest) as Hall.
  pose proof (span_len is_graph (N.to_nat (fmax f)) rest) as Hlen.
  pose proof (span_stop is_graph (N.to_nat (fmax f)) rest) as Hst.
  destruct (span_max is_graph (N.to_nat (fmax f)) rest) as [w r]. cbn [fst snd] in *.
  assert (Hfm : (2 <= fmax f)%N) by (destruct f; cbn; lia).
  destruct w as [|b w].
  - cbn [app] in Ha. subst r. rewrite len_nil, Z.add_0_r. destruct rest as [|b r].
    + cbn [arun edelta]. rewrite obs_eerr, partial_min by exact Hmin. reflexivity.
    + cbn [arun delta]. rewrite andb_false_r.
      destruct (is_graph (bN b)) eqn:Eg.
      { specialize (Hst b r eq_refl Eg). cbn in Hst. lia. }
      cbn [andb]. rewrite obs_errt, partial_min by exact Hmin. reflexivity.
  - pose proof (Forall_inv Hall) as Hb. pose proof (Forall_inv_tail Hall) as Hw. cbn beta in Hb. subst rest. cbn [length] in *.
    cbn [app arun delta]. rewrite andb_false_r, Hb. cbn [andb].
    replace (0 <? fmax f)%N with true by (symmetry; apply N.ltb_lt; lia).
    cbn [N.eqb texec sem_act].
    set (y := set_m_pb (len pre) x).
    assert (Hy : Ihdr cm y) by exact HI. assert (Hpb : m_pb y = len pre) by reflexivity.
    rewrite word_loop; [|exact Hw|lia|lia].
    replace (1 + N.of_nat (length w))%N with (N.of_nat (S (length w))) by lia.
    replace (len pre + 1 + len w) with (len pre + len (b :: w)) by (rewrite len_cons; lia).
    destruct r as [|c r].
    + cbn [arun edelta]. rewrite obs_eerr, partial_min by exact Hmin. reflexivity.
    + cbn [arun delta]. unfold is. replace (0 <? N.of_nat (S (length w)))%N with true by (symmetry; apply N.ltb_lt; lia).
      rewrite andb_true_r. destruct (bN c =? 32)%N eqn:Ec.
      * cbn [texec]. rewrite (sem_fact f pre (b :: w) (c :: r) (len pre + len (b :: w)) y Hd Hpb eq_refl).
        fold (wnext f).
        replace (len pre + len (b :: w) + 1) with (len (pre ++ (b :: w) ++ [c]))
          by lensolve.
        rewrite (HK (pre ++ (b :: w) ++ [c]) r).
        -- cbn [upd set_m_out m_out]. reflexivity.
        -- rewrite Hd, <- !app_assoc. reflexivity.
        -- lensolve.
        -- destruct f; exact HI.
      * assert (Hng : (is_graph (bN c) && (N.of_nat (S (length w)) <? fmax f))%N = false).
        { destruct (is_graph (bN c)) eqn:Eg; [|reflexivity]. specialize (Hst c r eq_refl Eg).
          cbn [andb]. apply N.ltb_ge. lia. }
        rewrite Hng, obs_errt, partial_min by exact Hmin. reflexivity.
Qed.

(* ---- timestamp ---- *)
Lemma ts_next_578 n c m : ts_next n c = Some m -> (n =? 578)%N = false.
Proof. intros H. destruct (n =? 578)%N eqn:E; [|reflexivity]. apply N.eqb_eq in E. subst n. discriminate. Qed.

Lemma ts_loop l : forall n pre w x, data = pre ++ w ++ l -> (n =? 578)%N = false ->
  obs (run (STs n) (len pre + len w) l x) =
    match snd (ts_scan n l) with
    | TSBad => OBad (partial_of x) (Some (PErr ETimestamp (len pre + len w + len (fst (ts_scan n l)))))
    | TSDone r => obs (run (STs 578) (len pre + len w + len (fst (ts_scan n l))) r x)
    end /\ (forall r, snd (ts_scan n l) = TSDone r -> l = fst (ts_scan n l) ++ r).
Proof.
  induction l as [|b r IH]; intros n pre w x Hd Hn; cbn [ts_scan].
  - cbn [snd fst arun edelta]. rewrite Hn, obs_eerr, len_nil, Z.add_0_r. split; [reflexivity|discriminate].
  - cbn [arun delta]. rewrite Hn. destruct (ts_next n (bN b)) as [m|] eqn:E.
    + cbn [texec]. destruct (m =? 578)%N eqn:Em.
      * cbn [snd fst]. apply N.eqb_eq in Em. subst m. rewrite len_cons, len_nil. split; [reflexivity|].
        intros r' H. injection H as ->. reflexivity.
      * cbn [snd fst].
        replace (len pre + len w + 1) with (len pre + len (w ++ [b])) by (rewrite len_snoc; lia).
        destruct (IH m pre (w ++ [b]) x) as [IH1 IH2]; [rewrite Hd, <- !app_assoc; reflexivity|exact Em|].
        rewrite IH1. rewrite len_snoc, len_cons. split.
        -- replace (len pre + (len w + 1) + len (fst (ts_scan m r))) with (len pre + len w + (len (fst (ts_scan m r)) + 1)) by lia.
           reflexivity.
        -- intros r' H. cbn [app]. f_equal. auto.
    + cbn [snd fst]. rewrite obs_errt, len_nil, Z.add_0_r. split; [reflexivity|discriminate].
Qed.

Lemma sim_ts K cm : Sim (Ihdr cm) (SWord FHost 0) K -> Sim (Ihdr cm) S6 (p_ts K).
Proof.
  intros HK pre rest x Hd H0 HI. pose proof HI as [[Hc Hmin] Hh]. destruct rest as [|b r].
  { cbn [arun edelta p_ts]. rewrite obs_eerr, partial_min by exact Hmin. reflexivity. }
  cbn [arun delta p_ts]. unfold is. destruct (bN b =? 45)%N.
  - cbn [texec]. destruct r as [|c r]; cbn [arun edelta delta].
    + rewrite obs_eerr, partial_min by exact Hmin. reflexivity.
    + destruct (bN c =? 32)%N.
      * cbn [texec]. replace (len pre + 1 + 1) with (len (pre ++ [b; c])) by (rewrite len_app; unfold len; cbn; lia).
        rewrite (HK (pre ++ [b; c]) r); [|rewrite Hd, <- app_assoc; reflexivity|lensolve|exact HI].
        f_equal. f_equal. rewrite len_app. unfold len. cbn. lia.
      * rewrite obs_errt, partial_min by exact Hmin. reflexivity.
  - destruct (is_dig (bN b)) eqn:Ed.
    + cbn [texec sem_act]. set (y := set_m_pb (len pre) x).
      assert (Hy : Ihdr cm y) by exact HI. assert (Hpb : m_pb y = len pre) by reflexivity.
      replace (len pre + 1) with (len pre + len [b]) by reflexivity.
      destruct (ts_loop r 554 pre [b] y Hd eq_refl) as [E1 E2]. rewrite E1.
      destruct (ts_scan 554 r) as [w e]. cbn [fst snd] in *.
      replace (len pre + len [b] + len w) with (len pre + len (b :: w)) by lensolve.
      destruct e as [r'|].
      * specialize (E2 r' eq_refl). subst r.
        assert (Htx : text_of data (len pre + len (b :: w)) y = Some (b :: w)) by (apply (text_mid pre (b :: w) r'); auto).
        destruct r' as [|c r2].
        -- cbn [arun edelta]. cbn [N.eqb Pos.eqb]. unfold time_t. cbn [texec sem_act]. unfold with_text. rewrite Htx.
           cbn [texec sem_cnd set_m_tval set_m_t m_t].
           destruct (parse_rfc3339 (b :: w)) as [t|].
           ++ cbn [acts texec sem_act set_m_tval set_m_t m_t]. rewrite obs_eerr. rewrite partial_min by exact Hmin. reflexivity.
           ++ cbn [texec sem_act efail]. cbn [obs N.ltb N.eqb N.compare Pos.compare Pos.compare_cont Pos.eqb orb]. unfold failobs. rewrite partial_min by exact Hmin. reflexivity.
        -- cbn [arun delta]. cbn [N.eqb Pos.eqb]. unfold time_t. cbn [texec sem_act]. unfold with_text. rewrite Htx.
           cbn [texec sem_cnd set_m_tval set_m_t m_t].
           destruct (parse_rfc3339 (b :: w)) as [t|].
           ++ cbn [acts texec sem_act set_m_tval set_m_t m_t]. change (bN c =? 32)%N with (is 32 c). destruct (is 32 c).
              ** cbn [texec]. replace (len pre + len (b :: w) + 1) with (len (pre ++ (b :: w) ++ [c])) by lensolve.
                 rewrite (HK (pre ++ (b :: w) ++ [c]) r2); [reflexivity|rewrite Hd, <- !app_assoc; reflexivity|lensolve|exact HI].
              ** rewrite obs_errt. rewrite partial_min by exact Hmin. reflexivity.
           ++ cbn [texec sem_act]. rewrite obs_fail. unfold failobs. rewrite partial_min by exact Hmin. reflexivity.
      * rewrite partial_min by exact Hmin. reflexivity.
    + rewrite obs_errt, partial_min by exact Hmin. reflexivity.
Qed.
End R.
