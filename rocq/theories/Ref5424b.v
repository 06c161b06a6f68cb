(* L2 = L3 for rfc5424, part 2: structured data. *)
From Verif Require Import Bytes GoMap GoTime Common CommonFacts GotoLang M5424Def Gen5424 A5424 M5424 Spec5424 Ref5424a.
Local Open Scope Z_scope.

(* positions of the escaping backslashes, and unescaping with the state of the scanner *)
Fixpoint epos (esc : bool) (k : Z) (l : bytes) : list Z :=
  match l with
  | [] => []
  | b :: r => if esc then epos false (k + 1) r else if is 92 b then k :: epos true (k + 1) r else epos false (k + 1) r
  end.
Fixpoint unesc2 (esc : bool) (l : bytes) : bytes :=
  match l with
  | [] => []
  | b :: r => if esc then b :: unesc2 false r else if is 92 b then unesc2 true r else b :: unesc2 false r
  end.
Lemma unesc_unesc2 l : unesc l = unesc2 false l.
Proof.
  enough (H : forall n l, (length l <= n)%nat -> unesc l = unesc2 false l) by (apply (H (length l)); lia).
  clear l. induction n as [|n IH]; intros [|b r] Hl; cbn in Hl; try lia; try reflexivity.
  cbn [unesc unesc2]. destruct (is 92 b).
  - destruct r as [|c r']; [reflexivity|]. cbn [unesc2 length] in *. f_equal. apply IH. lia.
  - f_equal. apply IH. lia.
Qed.

Lemma remove_epos l : forall esc done i off k, k - i - off = Z.of_nat (length done) ->
  remove_loop (done ++ l) (epos esc k l) i off = Some (done ++ unesc2 esc l).
Proof.
  induction l as [|b r IH]; intros esc done i off k Hk; [reflexivity|].
  cbn [epos unesc2].
  assert (Hkeep : forall e, remove_loop (done ++ b :: r) (epos e (k + 1) r) i off = Some (done ++ b :: unesc2 e r)).
  { intros e. replace (done ++ b :: r) with ((done ++ [b]) ++ r) by (rewrite <- app_assoc; reflexivity).
    rewrite (IH e (done ++ [b]) i off (k + 1)); [rewrite <- app_assoc; reflexivity|].
    rewrite app_length. cbn. lia. }
  destruct esc; [apply Hkeep|]. destruct (is 92 b); [|apply Hkeep].
  cbn [remove_loop]. rewrite Hk.
  replace ((0 <=? Z.of_nat (length done)) && (Z.of_nat (length done) + 1 <=? Z.of_nat (length (done ++ b :: r)))) with true
    by (symmetry; rewrite andb_true_iff, !Z.leb_le, app_length; cbn; lia).
  rewrite Nat2Z.id, firstn_app, firstn_all, Nat.sub_diag. cbn [firstn]. rewrite app_nil_r.
  replace (Z.to_nat (Z.of_nat (length done) + 1)) with (length (done ++ [b])) by (rewrite app_length; cbn; lia).
  replace (done ++ b :: r) with ((done ++ [b]) ++ r) by (rewrite <- app_assoc; reflexivity).
  rewrite skipn_app, skipn_all, Nat.sub_diag. cbn [skipn app].
  apply IH. lia.
Qed.

Lemma mset_same {V} (m : gmap V) k v : mget m k = Some v -> mset m k v = m.
Proof.
  induction m as [|[k2 v2] r IH]; cbn; [discriminate|].
  destruct (bcmp k k2) eqn:E; try discriminate; intros H.
  - apply bcmp_eq in E. congruence.
  - rewrite IH; auto.
Qed.

Lemma set_sd_same o s : o_sd o = s -> set_o_sd s o = o.
Proof. intros <-. destruct o; reflexivity. Qed.
Lemma set_he_same o b : o_hasElements o = b -> set_o_hasElements b o = o.
Proof. intros <-. destruct o; reflexivity. Qed.

Section R.
Variable data : bytes.
Notation run := (run5424 data).
Notation next r p := (fun (s' : st) (x' : vars) => run s' (p + 1) r x').
Notation tx := (texec sem_act sem_cnd data).

(* a tree that only ends the parse *)
Definition fails (f : tr) (nx : st -> vars -> outcome vars) : Prop := forall p y, obs (tx f p y nx) = failobs y.
Lemma fails_fail b r p : forall q y, obs (tx (fail b) q y (next r p)) = failobs y.
Proof. intros q y. unfold fail. destruct ((bN b =? 10) || (bN b =? 13))%N; cbn [texec]; [reflexivity|apply obs_fail_run]. Qed.
Lemma fails_efail nx : fails efail nx.
Proof. intros q y. reflexivity. Qed.
Lemma obs_err f nx k p x : fails f nx -> obs (tx (errt k f) p x nx) = OBad (partial_of x) (Some (PErr k p)).
Proof. intros Hf. unfold errt. cbn [texec sem_act]. rewrite (Hf p). reflexivity. Qed.

(* inside element id with parameters e *)
Definition Isd (cm : bool) (id : bytes) (e : gmap bytes) (x : vars) : Prop :=
  Imin cm x /\ o_hasElements (m_out x) = true /\ m_currentelem x = id /\
  exists m, o_sd (m_out x) = Some m /\ mget m id = Some e.
(* cp: the last parameter name (None: none yet in this element) *)
Definition Icp (cp : option bytes) (e : gmap bytes) (x : vars) : Prop :=
  match cp with None => e = [] | Some nm => m_currentparam x = nm end.

Lemma minimal_sd o s : minimal (set_o_sd s o) = minimal o. Proof. reflexivity. Qed.

Lemma obs_param_err cm id e cp f nx p x : fails f nx -> Isd cm id e x -> Icp cp e x ->
  obs (tx (param_err f) p x nx) = OBad (Some (del_param id cp (m_out x))) (Some (PErr ESdParam p)).
Proof.
  intros Hf [[Hc Hmin] [Hhe [Hcur [m [Hm He]]]]] Hcp. unfold param_err. cbn [texec sem_cnd].
  rewrite Hm. cbn [sd_read]. destruct m as [|kv m']; [discriminate|].
  cbn [sem_act]. rewrite (obs_err f nx ESdParam p _ Hf). f_equal.
  unfold partial_of. set (m := kv :: m') in *.
  replace (m_out (upd _ x)) with (del_param id cp (m_out x)).
  - assert (E : minimal (del_param id cp (m_out x)) = minimal (m_out x)) by (destruct cp; reflexivity).
    rewrite E, Hmin. reflexivity.
  - cbn [upd set_m_out m_out]. rewrite Hm, Hcur, He.
    destruct cp as [nm|]; cbn [del_param Icp] in *.
    + unfold elem_of, sd_of. rewrite Hm. cbn [sd_read]. rewrite He, Hcp. reflexivity.
    + subst e. cbn [mdel]. rewrite (mset_same m id [] He). symmetry. apply set_sd_same. exact Hm.
Qed.

(* ---- PARAM-VALUE ---- *)
Definition vstate (m : vmode) : st := match m with VPlain => S54 | VEsc => S56 | VUtf i => SUtf (57 + i) end.
Definition vesc (m : vmode) : bool := match m with VEsc => true | _ => false end.

Lemma utf_tail_ge i c o : utf_tail i c = Some o -> (128 <= c)%N.
Proof.
  unfold utf_tail, btw. destruct i as [|[[[|[]|]|[[]| |]|]|[[|[]|]|[[]| |]|]|]];
  match goal with |- context [if ?a && ?b then _ else _] => destruct a eqn:E; cbn [andb]; [|discriminate] end;
  apply N.leb_le in E; intros; lia.
Qed.

Definition addback (l : list Z) (x : vars) : vars := set_m_backslashat (m_backslashat x ++ l) x.
Lemma addback_nil x : addback [] x = x.
Proof. unfold addback. rewrite app_nil_r. destruct x; reflexivity. Qed.
Lemma addback_app a b x : addback b (addback a x) = addback (a ++ b) x.
Proof. unfold addback. cbn. rewrite app_assoc. destruct x; reflexivity. Qed.

Lemma val_run cm id e cp l : forall m p x, Isd cm id e x -> Icp cp e x ->
  obs (run (vstate m) p l x) =
    match snd (p_val m l) with
    | VClose r => obs (tx (setval_t (TNext S55)) (p + len (fst (p_val m l))) (addback (epos (vesc m) p (fst (p_val m l))) x)
                        (next r (p + len (fst (p_val m l)))))
    | VBad EEscape => OBad (Some (m_out x)) (Some (PErr EEscape (p + len (fst (p_val m l)))))
    | VBad _ => OBad (Some (del_param id cp (m_out x))) (Some (PErr ESdParam (p + len (fst (p_val m l)))))
    end.
Proof.
  induction l as [|b r IH]; intros m p x HI Hcp.
  - cbn [p_val fst snd]. rewrite len_nil, Z.add_0_r. pose proof HI as [[Hc Hmin] _].
    destruct m; cbn [vstate arun edelta].
    + rewrite obs_eerr, partial_min by exact Hmin. reflexivity.
    + rewrite obs_eerr, partial_min by exact Hmin. reflexivity.
    + apply (obs_param_err cm id e cp); auto. apply fails_efail.
  - pose proof HI as [[Hc Hmin] _].
    assert (Hgo : forall m', vesc m = false -> vesc m' = false -> is 92 b = false ->
       obs (run (vstate m') (p + 1) r x) =
       match snd (p_val m' r) with
       | VClose r0 => obs (tx (setval_t (TNext S55)) (p + len (b :: fst (p_val m' r))) (addback (epos (vesc m) p (b :: fst (p_val m' r))) x)
                            (next r0 (p + len (b :: fst (p_val m' r)))))
       | VBad EEscape => OBad (Some (m_out x)) (Some (PErr EEscape (p + len (b :: fst (p_val m' r)))))
       | VBad _ => OBad (Some (del_param id cp (m_out x))) (Some (PErr ESdParam (p + len (b :: fst (p_val m' r)))))
       end).
    { intros m' Hm Hm' Hb. rewrite (IH m' (p + 1) x HI Hcp). rewrite Hm, Hm', len_cons. cbn [epos]. rewrite Hb.
      replace (p + 1 + len (fst (p_val m' r))) with (p + (len (fst (p_val m' r)) + 1)) by lia. reflexivity. }
    cbn [arun]. destruct m as [| |i]; cbn [vstate delta p_val].
    + unfold val_t. change (bN b =? 34)%N with (is 34 b). change (bN b =? 92)%N with (is 92 b). change (bN b =? 93)%N with (is 93 b).
      destruct (is 34 b) eqn:E34.
      { cbn [fst snd acts]. rewrite len_nil, Z.add_0_r. cbn [epos]. rewrite addback_nil. reflexivity. }
      destruct (is 92 b) eqn:E92.
      { cbn [fst snd acts texec sem_act]. change S56 with (vstate VEsc). rewrite (IH VEsc (p + 1)).
        - rewrite len_cons. cbn [vesc epos]. rewrite E92.
          change (set_m_backslashat (m_backslashat x ++ [p]) x) with (addback [p] x). rewrite addback_app. cbn [app].
          replace (p + 1 + len (fst (p_val VEsc r))) with (p + (len (fst (p_val VEsc r)) + 1)) by lia. reflexivity.
        - exact HI.
        - destruct cp; exact Hcp. }
      destruct (is 93 b).
      { cbn [fst snd]. rewrite obs_errt, partial_min, len_nil, Z.add_0_r by exact Hmin. reflexivity. }
      destruct (bN b <? 128)%N.
      { cbn [fst snd acts texec]. change S54 with (vstate VPlain). apply Hgo; auto. }
      destruct (utf_start (bN b)) as [i|].
      { cbn [fst snd acts texec]. change (SUtf (57 + i)) with (vstate (VUtf i)). apply (Hgo (VUtf i)); auto. }
      cbn [fst snd]. rewrite obs_errt, partial_min, len_nil, Z.add_0_r by exact Hmin. reflexivity.
    + change (bN b =? 34)%N with (is 34 b). change (bN b =? 92)%N with (is 92 b). change (bN b =? 93)%N with (is 93 b).
      destruct (is 34 b || is 92 b || is 93 b).
      * cbn [fst snd texec]. change S54 with (vstate VPlain). rewrite (IH VPlain (p + 1) x HI Hcp). rewrite len_cons. cbn [vesc epos].
        replace (p + 1 + len (fst (p_val VPlain r))) with (p + (len (fst (p_val VPlain r)) + 1)) by lia. reflexivity.
      * cbn [fst snd]. rewrite obs_errt, partial_min, len_nil, Z.add_0_r by exact Hmin. reflexivity.
    + replace (57 + i - 57)%N with i by lia.
      destruct (utf_tail i (bN b)) as [o|] eqn:E.
      * assert (H92 : is 92 b = false). { apply utf_tail_ge in E. apply N.eqb_neq. lia. }
        destruct o as [j|].
        -- cbn [fst snd texec]. change (SUtf (57 + j)) with (vstate (VUtf j)). apply (Hgo (VUtf j)); auto.
        -- cbn [fst snd texec]. change S54 with (vstate VPlain). apply Hgo; auto.
      * cbn [fst snd]. rewrite len_nil, Z.add_0_r.
        apply (obs_param_err cm id e cp); auto. intros q y. apply fails_fail.
Qed.

Lemma p_val_split l : forall m raw r, p_val m l = (raw, VClose r) -> exists q, is 34 q = true /\ l = raw ++ q :: r.
Proof.
  assert (H : forall m r, snd (p_val m l) = VClose r -> exists q, is 34 q = true /\ l = fst (p_val m l) ++ q :: r).
  2:{ intros m raw r E. specialize (H m r). rewrite E in H. cbn in H. auto. }
  induction l as [|b l IH]; intros m r; [destruct m; discriminate|].
  assert (Hgo : forall m', snd (p_val m' l) = VClose r -> exists q, is 34 q = true /\ b :: l = (b :: fst (p_val m' l)) ++ q :: r).
  { intros m' H. destruct (IH m' r H) as [q [Hq Eq]]. exists q. split; [exact Hq|]. cbn [app]. f_equal. exact Eq. }
  cbn [p_val]. destruct m as [| |i].
  - destruct (is 34 b) eqn:E; [cbn; intros H; injection H as ->; exists b; auto|].
    destruct (is 92 b); [apply Hgo|]. destruct (is 93 b); [discriminate|].
    destruct (bN b <? 128)%N; [apply Hgo|]. destruct (utf_start (bN b)); [apply Hgo|discriminate].
  - destruct (is 34 b || is 92 b || is 93 b); [apply Hgo|discriminate].
  - destruct (utf_tail i (bN b)) as [[j|]|]; [apply Hgo|apply Hgo|discriminate].
Qed.

(* S53 marks the beginning of the value *)
Lemma run_S53 l p x cm id e cp : Isd cm id e x -> Icp cp e x ->
  obs (run S53 p l x) = obs (run S54 p l (set_m_pb p x)).
Proof.
  intros HI Hcp. pose proof HI as [[Hc Hmin] _]. destruct l as [|b r].
  - cbn [arun edelta]. rewrite !obs_eerr. reflexivity.
  - cbn [arun delta]. unfold val_t.
    destruct (bN b =? 34)%N; [reflexivity|]. destruct (bN b =? 92)%N; [reflexivity|].
    destruct (bN b =? 93)%N; [rewrite !obs_errt; reflexivity|].
    destruct (bN b <? 128)%N; [reflexivity|]. destruct (utf_start (bN b)); [reflexivity|]. rewrite !obs_errt. reflexivity.
Qed.

(* the assignment of the parameter at the closing quote *)
Lemma setval_run pre raw rest x cm id e nm nx : data = pre ++ raw ++ rest -> m_pb x = len pre ->
  Isd cm id e x -> m_currentparam x = nm -> m_backslashat x = [] ->
  exists y, tx (setval_t (TNext S55)) (len pre + len raw) (addback (epos false (len pre) raw) x) nx = nx S55 y
    /\ m_out y = put_param id nm (unesc raw) (m_out x) /\ m_compliantMsg y = m_compliantMsg x
    /\ m_currentelem y = m_currentelem x /\ m_currentparam y = m_currentparam x.
Proof.
  intros Hd Hpb [[Hc Hmin] [Hhe [Hcur [m [Hm He]]]]] Hcp Hbs. unfold setval_t.
  set (x1 := addback (epos false (len pre) raw) x).
  assert (Hb1 : m_backslashat x1 = epos false (len pre) raw) by (unfold x1, addback; rewrite Hbs; reflexivity).
  assert (Hx1 : m_out x1 = m_out x /\ m_pb x1 = m_pb x /\ m_compliantMsg x1 = m_compliantMsg x /\ m_currentelem x1 = m_currentelem x /\ m_currentparam x1 = m_currentparam x)
    by (repeat split; reflexivity).
  clearbody x1. destruct Hx1 as [Ho1 [Hp1 [Hc1 [He1 Hcp1]]]].
  cbn [texec sem_cnd]. rewrite Ho1, Hhe. cbn [texec sem_act]. unfold with_text.
  rewrite (text_mid data pre raw rest x1 Hd) by (rewrite Hp1; exact Hpb).
  set (x2 := set_m_text raw x1).
  assert (Hrm : remove_bytes raw (epos false (len pre) raw) (len pre) = Some (unesc raw)).
  { rewrite unesc_unesc2. apply (remove_epos raw false [] 0 (len pre) (len pre)). cbn. lia. }
  assert (Hset : forall t x3, m_out x3 = m_out x -> m_compliantMsg x3 = m_compliantMsg x -> m_currentelem x3 = m_currentelem x ->
     m_currentparam x3 = m_currentparam x -> m_text x3 = unesc raw ->
     exists y, tx (TAct ASdSetParam (TNext t)) (len pre + len raw) x3 nx = nx t y
      /\ m_out y = put_param id nm (unesc raw) (m_out x) /\ m_compliantMsg y = m_compliantMsg x
      /\ m_currentelem y = m_currentelem x /\ m_currentparam y = m_currentparam x).
  { intros t x3 A1 A2 A3 A4 A5. cbn [texec sem_act]. rewrite A1, Hm. cbn [sd_read]. rewrite A3, Hcur, He.
    eexists. split; [reflexivity|]. cbn [upd set_m_out m_out m_compliantMsg m_currentelem m_currentparam].
    rewrite A1, A2, A3, A4, A5, Hcur, Hcp. repeat split.
    unfold put_param, elem_of, sd_of. rewrite Hm. cbn [sd_read]. rewrite He. reflexivity. }
  cbn [sem_cnd]. unfold x2 at 1. cbn [set_m_text m_backslashat]. rewrite Hb1.
  destruct (epos false (len pre) raw) as [|q qs] eqn:Eq.
  - cbn [remove_bytes remove_loop] in Hrm. injection Hrm as Hrm.
    apply Hset; auto.
  - cbn [acts]. cbn [texec]. cbn [sem_act]. unfold x2 at 1 2 3. cbn [set_m_text m_text m_backslashat m_pb].
    rewrite Hb1, Hp1, Hpb, Hrm. apply (Hset S55 (set_m_text (unesc raw) x2)); auto.
Qed.

(* ---- names ---- *)
Lemma sdc_not c : is_sdc c = true -> (c =? 32 = false /\ c =? 61 = false /\ c =? 93 = false)%N.
Proof.
  unfold is_sdc, is_graph, btw. rewrite !andb_true_iff, !negb_true_iff, !N.leb_le. intros [[[H1 H2] H3] H4].
  repeat split; auto. apply N.eqb_neq. lia.
Qed.

Lemma id_loop w : forall k p r x, Forall (fun b => is_sdc (bN b) = true) w -> (0 < k)%N -> (k + N.of_nat (length w) <= 32)%N ->
  run (SId k) p (w ++ r) x = run (SId (k + N.of_nat (length w))) (p + len w) r x.
Proof.
  induction w as [|b w IH]; intros k p r x Hw Hk Hm.
  - cbn [app length]. rewrite N.add_0_r, len_nil, Z.add_0_r. reflexivity.
  - pose proof (Forall_inv Hw) as Hb. pose proof (Forall_inv_tail Hw) as Hw'. cbn beta in Hb. cbn [length] in Hm. cbn [app arun delta].
    rewrite Hb. cbn [andb]. replace (k <? 32)%N with true by (symmetry; apply N.ltb_lt; lia).
    replace (k =? 0)%N with false by (symmetry; apply N.eqb_neq; lia). cbn [texec].
    rewrite IH; [|exact Hw'|lia|lia]. cbn [length].
    replace (k + 1 + N.of_nat (length w))%N with (k + N.of_nat (S (length w)))%N by lia.
    rewrite len_cons. f_equal. lia.
Qed.
Lemma pn_loop w : forall k p r x, Forall (fun b => is_sdc (bN b) = true) w -> (0 < k)%N -> (k + N.of_nat (length w) <= 32)%N ->
  run (SPn k) p (w ++ r) x = run (SPn (k + N.of_nat (length w))) (p + len w) r x.
Proof.
  induction w as [|b w IH]; intros k p r x Hw Hk Hm.
  - cbn [app length]. rewrite N.add_0_r, len_nil, Z.add_0_r. reflexivity.
  - pose proof (Forall_inv Hw) as Hb. pose proof (Forall_inv_tail Hw) as Hw'. cbn beta in Hb. cbn [length] in Hm. cbn [app arun delta].
    rewrite Hb. cbn [andb]. replace (k <? 32)%N with true by (symmetry; apply N.ltb_lt; lia).
    replace (k =? 0)%N with false by (symmetry; apply N.eqb_neq; lia). cbn [texec].
    rewrite IH; [|exact Hw'|lia|lia]. cbn [length].
    replace (k + 1 + N.of_nat (length w))%N with (k + N.of_nat (S (length w)))%N by lia.
    rewrite len_cons. f_equal. lia.
Qed.

(* after '[' *)
Definition Iel (cm : bool) (cur : option bytes) (x : vars) : Prop :=
  Imin cm x /\ exists m, o_sd (m_out x) = Some m /\
    o_hasElements (m_out x) = match m with [] => false | _ => true end /\
    match cur with None => m = [] | Some id => m_currentelem x = id end.

Lemma obs_sdid_err cm cur f nx p x : fails f nx -> Iel cm cur x ->
  obs (tx (sdid_err f) p x nx) = OBad (Some (del_elem cur (m_out x))) (Some (PErr ESdID p)).
Proof.
  intros Hf [[Hc Hmin] [m [Hm [Hhe Hcur]]]]. unfold sdid_err. cbn [texec sem_act sem_cnd].
  set (x1 := upd _ x).
  assert (Hx1 : m_out x1 = set_o_sd (Some (mdel m (m_currentelem x))) (m_out x)) by (unfold x1; cbn [upd set_m_out m_out]; rewrite Hm; reflexivity).
  rewrite Hx1. cbn [o_sd set_o_sd sd_read].
  assert (Hres : m_out (match mdel m (m_currentelem x) with [] => upd (set_o_hasElements false) x1 | _ => x1 end) = del_elem cur (m_out x)).
  { destruct cur as [id|]; cbn [del_elem].
    - unfold sd_of. rewrite Hm. cbn [sd_read]. rewrite <- Hcur.
      destruct (mdel m (m_currentelem x)) eqn:E; cbn [upd set_m_out m_out]; rewrite Hx1; [reflexivity|].
      symmetry. apply set_he_same. cbn [o_hasElements set_o_sd]. rewrite Hhe. destruct m; [discriminate|reflexivity].
    - subst m. cbn [mdel] in *. cbn [upd set_m_out m_out]. rewrite Hx1.
      transitivity (set_o_hasElements false (m_out x)); [f_equal; apply set_sd_same; exact Hm|]. apply set_he_same. exact Hhe. }
  assert (Hmin2 : minimal (del_elem cur (m_out x)) = true) by (destruct cur; exact Hmin).
  destruct (mdel m (m_currentelem x)).
  - cbn [texec sem_act]. rewrite (obs_err f nx ESdID p _ Hf). unfold partial_of. rewrite Hres, Hmin2. reflexivity.
  - rewrite (obs_err f nx ESdID p _ Hf). unfold partial_of. rewrite Hres, Hmin2. reflexivity.
Qed.

Lemma obs_setid cm cur f ok nx pre id rest x :
  data = pre ++ id ++ rest -> m_pb x = len pre -> fails f nx -> Iel cm cur x ->
  (mget (sd_of (m_out x)) id <> None -> obs (tx (setid_t ok f) (len pre + len id) x nx) = OBad (Some (m_out x)) (Some (PErr ESdIDDuplicated (len pre + len id)))) /\
  (mget (sd_of (m_out x)) id = None -> exists y, tx (setid_t ok f) (len pre + len id) x nx = tx ok (len pre + len id) y nx
      /\ m_out y = add_elem id (m_out x) /\ Isd cm id [] y /\ Iel cm (Some id) y).
Proof.
  intros Hd Hpb Hf HI. pose proof HI as [[Hc Hmin] [m [Hm [Hhe Hcur]]]]. unfold setid_t, sd_of. rewrite Hm. cbn [sd_read].
  cbn [texec sem_act]. unfold with_text. rewrite (text_mid data pre id rest x Hd Hpb). rewrite Hm. cbn [sd_read sem_cnd set_m_ok m_ok].
  split.
  - intros H. destruct (mget m id); [|congruence].
    rewrite (obs_err f nx ESdIDDuplicated _ _ Hf). unfold partial_of. cbn [set_m_ok m_out]. rewrite Hmin. reflexivity.
  - intros H. rewrite H. cbn [acts texec sem_act]. unfold with_text.
    rewrite (text_mid data pre id rest (set_m_ok false x) Hd Hpb).
    cbn [set_m_id set_m_ok m_out o_sd]. rewrite Hm. cbn [sem_act texec].
    eexists. split; [reflexivity|].
    assert (Ho : set_o_hasElements true (set_o_sd (Some (mset m id [])) (m_out x)) = add_elem id (m_out x))
      by (unfold add_elem, sd_of; rewrite Hm; reflexivity).
    cbn [upd set_m_out m_out set_m_currentelem m_id set_m_id].
    split; [exact Ho|]. split.
    + split; [split; [exact Hc|exact Hmin]|]. split; [reflexivity|]. split; [reflexivity|].
      exists (mset m id []). split; [reflexivity|apply mget_mset_same].
    + split; [split; [exact Hc|exact Hmin]|]. exists (mset m id []). split; [reflexivity|]. split; [|reflexivity].
      cbn. destruct (mset m id []) eqn:E; [|reflexivity]. exfalso. exact (mset_nonempty _ _ _ E).
Qed.

Lemma Isd_Iel cm id e x : Isd cm id e x -> Iel cm (Some id) x.
Proof.
  intros [HI [Hhe [Hcur [m [Hm He]]]]]. split; [exact HI|]. exists m. split; [exact Hm|]. split; [|exact Hcur].
  rewrite Hhe. destruct m; [discriminate|reflexivity].
Qed.

Definition Imode (cm : bool) (md : sdmode) (x : vars) : Prop :=
  match md with MElem cur => Iel cm cur x | MParam id cp => exists e, Isd cm id e x /\ Icp cp e x end.
Definition mdstate (md : sdmode) : st := match md with MElem _ => SId 0 | MParam _ _ => SPn 0 end.

Lemma span_parts P n l w r : span_max P n l = (w, r) ->
  l = w ++ r /\ Forall (fun b => P (bN b) = true) w /\ (length w <= n)%nat /\
  (forall b r', r = b :: r' -> P (bN b) = true -> length w = n).
Proof.
  intros E. pose proof (span_app P n l). pose proof (span_all P n l). pose proof (span_len P n l). pose proof (span_stop P n l).
  rewrite E in *. cbn in *. auto.
Qed.

Lemma sim_elems cm fuel : forall md pre rest x,
  data = pre ++ rest -> 0 < len pre -> (length rest < fuel)%nat -> Imode cm md x ->
  obs (run (mdstate md) (len pre) rest x) = inj (p_elems fuel cm md (m_out x) (len pre) rest).
Proof.
  induction fuel as [|fuel IH]; intros md pre rest x Hd H0 Hf HI; [lia|].
  (* after ']' *)
  assert (Hclose : forall id pre' r y, data = pre' ++ r -> 0 < len pre' -> (length r <= fuel)%nat -> Iel cm (Some id) y ->
    obs (run S606 (len pre') r y) =
    inj (match r with
         | [] => PGood (m_out y)
         | b :: r' => if is 32 b then p_msg cm (m_out y) (len pre' + 1) r'
                      else if is 91 b then p_elems fuel cm (MElem (Some id)) (m_out y) (len pre' + 1) r'
                      else PBad (Some (m_out y)) (PErr EStructuredData (len pre'))
         end)).
  { intros id pre' r y Hd' H0' Hl Hy. pose proof Hy as [[Hc Hmin] _]. destruct r as [|b r']; [reflexivity|].
    cbn [arun delta]. change (bN b =? 32)%N with (is 32 b). change (bN b =? 91)%N with (is 91 b).
    assert (E1 : len pre' + 1 = len (pre' ++ [b])) by lensolve.
    assert (E2 : data = (pre' ++ [b]) ++ r') by (rewrite Hd', <- app_assoc; reflexivity).
    destruct (is 32 b).
    - cbn [texec]. rewrite E1. apply sim604; auto; [rewrite len_snoc; lia|split; auto].
    - destruct (is 91 b).
      + cbn [texec]. rewrite E1. apply (IH (MElem (Some id)) (pre' ++ [b]) r' y E2); [rewrite len_snoc; lia|cbn in Hl; lia|exact Hy].
      + rewrite obs_errt, partial_min by exact Hmin. reflexivity. }
  destruct md as [cur|id cp]; cbn [mdstate p_elems Imode] in *.
  - (* SD-ID *)
    destruct (span_max is_sdc 32 rest) as [id r] eqn:Espan. apply span_parts in Espan as [Er [Hall [Hlen Hst]]].
    pose proof HI as [[Hc Hmin] _].
    destruct id as [|b w].
    + cbn [app] in Er. subst r. destruct rest as [|b r].
      * cbn [arun edelta N.eqb]. rewrite (obs_sdid_err cm cur); [reflexivity|apply fails_efail|exact HI].
      * cbn [arun delta]. assert (Hb : is_sdc (bN b) = false).
        { destruct (is_sdc (bN b)) eqn:E; [|reflexivity]. specialize (Hst b r eq_refl E). discriminate. }
        rewrite Hb. cbn [andb N.eqb]. rewrite (obs_sdid_err cm cur); [reflexivity|intros q y; apply fails_fail|exact HI].
    + pose proof (Forall_inv Hall) as Hb. pose proof (Forall_inv_tail Hall) as Hw. cbn beta in Hb. cbn [length] in Hlen.
      assert (Hrun : run (SId 0) (len pre) rest x = run (SId (N.of_nat (length (b :: w)))) (len pre + len (b :: w)) r (set_m_pb (len pre) x)).
      { rewrite Er. cbn [app arun delta]. rewrite Hb. cbn [andb N.ltb N.compare Pos.compare N.eqb texec sem_act].
        rewrite id_loop; [|exact Hw|lia|lia]. cbn [length].
        replace (1 + N.of_nat (length w))%N with (N.of_nat (S (length w))) by lia. rewrite len_cons. f_equal. lia. }
      rewrite Hrun. set (id := b :: w) in *. set (y := set_m_pb (len pre) x).
      assert (Hy : Iel cm cur y) by exact HI. assert (Hpb : m_pb y = len pre) by reflexivity.
      assert (Hd' : data = pre ++ id ++ r) by (rewrite Hd, Er; reflexivity).
      assert (Hk : (N.of_nat (length id) =? 0)%N = false) by (apply N.eqb_neq; cbn; lia).
      change (m_out x) with (m_out y).
      assert (Hdup : forall f nx ok, fails f nx -> mget (sd_of (m_out y)) id <> None ->
         obs (tx (setid_t ok f) (len pre + len id) y nx) = OBad (Some (m_out y)) (Some (PErr ESdIDDuplicated (len pre + len id)))).
      { intros f nx ok Hff. apply (obs_setid cm cur f ok nx pre id r y Hd' Hpb Hff Hy). }
      assert (Hnew : forall f nx ok, fails f nx -> mget (sd_of (m_out y)) id = None ->
         exists z, tx (setid_t ok f) (len pre + len id) y nx = tx ok (len pre + len id) z nx
         /\ m_out z = add_elem id (m_out y) /\ Isd cm id [] z /\ Iel cm (Some id) z).
      { intros f nx ok Hff. apply (obs_setid cm cur f ok nx pre id r y Hd' Hpb Hff Hy). }
      (* the element just added is removed again *)
      assert (Hundo : mget (sd_of (m_out y)) id = None -> del_elem (Some id) (add_elem id (m_out y)) = m_out y).
      { intros Hn. destruct Hy as [_ [m [Hm [Hhe _]]]]. unfold sd_of in Hn. rewrite Hm in Hn. cbn [sd_read] in Hn.
        unfold del_elem, add_elem, sd_of. cbn [o_sd set_o_hasElements set_o_sd sd_read]. rewrite Hm. cbn [sd_read].
        rewrite (mdel_mset_absent m id [] Hn). rewrite <- Hhe. generalize Hm. destruct (m_out y); cbn. intros ->. reflexivity. }
      unfold id at 1. fold id.
      destruct r as [|c r].
      * cbn [arun edelta]. rewrite Hk.
        destruct (mget (sd_of (m_out y)) id) eqn:Eg.
        -- rewrite (Hdup efail); [reflexivity|apply fails_efail|congruence].
        -- destruct (Hnew efail (fun _ _ => NoFuel) (sdid_err efail) (fails_efail _) eq_refl) as [z [-> [Hz [_ Hz2]]]].
           rewrite (obs_sdid_err cm (Some id)); [|apply fails_efail|exact Hz2]. rewrite Hz, Hundo by reflexivity. reflexivity.
      * cbn [arun delta]. rewrite Hk.
        assert (Hns : (is_sdc (bN c) && (N.of_nat (length id) <? 32))%N = false).
        { destruct (is_sdc (bN c)) eqn:E; [|reflexivity]. specialize (Hst c r eq_refl E). cbn [andb]. apply N.ltb_ge. lia. }
        rewrite Hns. change (bN c =? 32)%N with (is 32 c). change (bN c =? 93)%N with (is 93 c).
        assert (Hff : fails (fail c) (next r (len pre + len id))) by (intros q z; apply fails_fail).
        assert (E1 : len pre + len id + 1 = len (pre ++ id ++ [c])) by (unfold id; lensolve).
        assert (E2 : data = (pre ++ id ++ [c]) ++ r) by (rewrite Hd', <- !app_assoc; reflexivity).
        assert (E3 : (length r < fuel)%nat). { rewrite Er in Hf. unfold id in Hf. cbn in Hf. rewrite app_length in Hf. cbn in Hf. lia. }
        destruct (mget (sd_of (m_out y)) id) eqn:Eg.
        -- destruct (is 32 c); [|destruct (is 93 c)]; (rewrite (Hdup (fail c)); [reflexivity|exact Hff|congruence]).
        -- destruct (is 32 c).
           { destruct (Hnew _ _ (TNext (SPn 0)) Hff eq_refl) as [z [-> [Hz [Hz1 Hz2]]]]. cbn [texec].
             rewrite E1, <- Hz. apply (IH (MParam id None) _ r z E2); [rewrite len_app; pose proof (len_nonneg (id ++ [c])); lia|lia|].
             exists []. split; [exact Hz1|reflexivity]. }
           destruct (is 93 c).
           { destruct (Hnew _ _ (TNext S606) Hff eq_refl) as [z [-> [Hz [Hz1 Hz2]]]]. cbn [texec].
             rewrite E1, <- Hz. apply (Hclose id _ r z E2); [rewrite len_app; pose proof (len_nonneg (id ++ [c])); lia|lia|exact Hz2]. }
           destruct (Hnew _ _ (sdid_err (fail c)) Hff eq_refl) as [z [-> [Hz [Hz1 Hz2]]]].
           rewrite (obs_sdid_err cm (Some id)); [|exact Hff|exact Hz2]. rewrite Hz, Hundo by reflexivity. reflexivity.
  - (* PARAM-NAME *)
    destruct HI as [e [HI Hcp]]. pose proof HI as [[Hc Hmin] _].
    destruct (span_max is_sdc 32 rest) as [nm r] eqn:Espan. apply span_parts in Espan as [Er [Hall [Hlen Hst]]].
    destruct nm as [|b w].
    + cbn [app] in Er. subst r. rewrite len_nil, Z.add_0_r. destruct rest as [|b r].
      * cbn [arun edelta]. rewrite (obs_param_err cm id e cp); [reflexivity|apply fails_efail|exact HI|exact Hcp].
      * cbn [arun delta]. assert (Hb : is_sdc (bN b) = false).
        { destruct (is_sdc (bN b)) eqn:E; [|reflexivity]. specialize (Hst b r eq_refl E). discriminate. }
        rewrite Hb. cbn [andb N.ltb N.compare]. rewrite andb_false_r.
        rewrite (obs_param_err cm id e cp); [reflexivity|intros q y; apply fails_fail|exact HI|exact Hcp].
    + pose proof (Forall_inv Hall) as Hb. pose proof (Forall_inv_tail Hall) as Hw. cbn beta in Hb. cbn [length] in Hlen.
      set (y := set_m_pb (len pre) (set_m_backslashat [] x)).
      assert (Hrun : run (SPn 0) (len pre) rest x = run (SPn (N.of_nat (length (b :: w)))) (len pre + len (b :: w)) r y).
      { rewrite Er. cbn [app arun delta]. rewrite Hb. cbn [andb N.ltb N.compare Pos.compare N.eqb texec sem_act acts].
        rewrite pn_loop; [|exact Hw|lia|lia]. cbn [length].
        replace (1 + N.of_nat (length w))%N with (N.of_nat (S (length w))) by lia. rewrite len_cons. f_equal. lia. }
      rewrite Hrun. set (nm := b :: w) in *.
      assert (Hy : Isd cm id e y) by exact HI. assert (Hpb : m_pb y = len pre) by reflexivity.
      assert (Hycp : Icp cp e y) by (destruct cp; exact Hcp).
      assert (Hd' : data = pre ++ nm ++ r) by (rewrite Hd, Er; reflexivity).
      change (m_out x) with (m_out y). assert (Hyb : m_backslashat y = []) by reflexivity. clearbody y.
      unfold nm at 2. fold nm.
      destruct r as [|c r].
      { cbn [arun edelta]. rewrite (obs_param_err cm id e cp); [reflexivity|apply fails_efail|exact Hy|exact Hycp]. }
      cbn [arun delta].
      assert (Hns : (is_sdc (bN c) && (N.of_nat (length nm) <? 32))%N = false).
      { destruct (is_sdc (bN c)) eqn:E; [|reflexivity]. specialize (Hst c r eq_refl E). cbn [andb]. apply N.ltb_ge. lia. }
      rewrite Hns. change (bN c =? 61)%N with (is 61 c).
      replace (0 <? N.of_nat (length nm))%N with true by (symmetry; apply N.ltb_lt; cbn; lia). rewrite andb_true_r.
      destruct (is 61 c).
      2:{ rewrite (obs_param_err cm id e cp); [reflexivity|intros q z; apply fails_fail|exact Hy|exact Hycp]. }
      cbn [texec sem_act]. unfold with_text. rewrite (text_mid data pre nm (c :: r) y Hd' Hpb).
      set (z := set_m_currentparam nm y).
      assert (Hz : Isd cm id e z) by exact Hy. assert (Hzcp : Icp (Some nm) e z) by reflexivity.
      change (m_out y) with (m_out z). 
      destruct r as [|q r].
      { cbn [arun edelta]. rewrite (obs_param_err cm id e (Some nm)); [reflexivity|apply fails_efail|exact Hz|exact Hzcp]. }
      cbn [arun delta]. change (bN q =? 34)%N with (is 34 q).
      destruct (is 34 q) eqn:E34.
      2:{ rewrite (obs_param_err cm id e (Some nm)); [reflexivity|intros q0 z0; apply fails_fail|exact Hz|exact Hzcp]. }
      cbn [texec].
      replace (len pre + len nm + 1 + 1) with (len pre + len nm + 2) by lia.
      rewrite (run_S53 r _ z cm id e (Some nm) Hz Hzcp).
      set (pre2 := pre ++ nm ++ [c; q]).
      assert (Ep2 : len pre + len nm + 2 = len pre2) by (unfold pre2; lensolve).
      assert (Hd2 : data = pre2 ++ r) by (unfold pre2; rewrite Hd', <- !app_assoc; reflexivity).
      rewrite Ep2. set (u := set_m_pb (len pre2) z).
      assert (Hu : Isd cm id e u) by exact Hz. assert (Hucp : Icp (Some nm) e u) by reflexivity.
      assert (Hupb : m_pb u = len pre2) by reflexivity.
      change (m_out z) with (m_out u).
      assert (Hub : m_backslashat u = []) by exact Hyb.
      change S54 with (vstate VPlain).
      rewrite (val_run cm id e (Some nm) r VPlain (len pre2) u Hu Hucp).
      destruct (p_val VPlain r) as [raw en] eqn:Ev. cbn [fst snd vesc].
      destruct en as [r3|k]; [|destruct k; reflexivity].
      apply p_val_split in Ev as [q3 [_ Er3]].
      assert (Hd3 : data = pre2 ++ raw ++ q3 :: r3) by (rewrite Hd2, Er3; reflexivity).
      destruct (setval_run pre2 raw (q3 :: r3) u cm id e nm (next r3 (len pre2 + len raw)) Hd3 Hupb Hu eq_refl Hub)
        as [v [-> [Hvo [Hvc [Hve Hvp]]]]].
      assert (Hvi : exists e', Isd cm id e' v).
      { destruct Hu as [[Huc Humin] [Huhe [Hucur [m [Hm He]]]]]. exists (mset e nm (unesc raw)). split.
        - split; [rewrite Hvc; exact Huc|rewrite Hvo; exact Humin].
        - split; [rewrite Hvo; exact Huhe|]. split; [rewrite Hve; exact Hucur|].
          exists (mset m id (mset e nm (unesc raw))). split; [|apply mget_mset_same].
          rewrite Hvo. unfold put_param, elem_of, sd_of. rewrite Hm. cbn [sd_read o_sd set_o_sd]. rewrite He. reflexivity. }
      destruct Hvi as [e' Hv]. assert (Hvcp : Icp (Some nm) e' v) by (cbn [Icp]; rewrite Hvp; reflexivity).
      rewrite <- Hvo.
      destruct r3 as [|d r4].
      { cbn [arun edelta]. rewrite (obs_param_err cm id e' (Some nm)); [reflexivity|apply fails_efail|exact Hv|exact Hvcp]. }
      cbn [arun delta]. change (bN d =? 32)%N with (is 32 d). change (bN d =? 93)%N with (is 93 d).
      assert (E1 : len pre2 + len raw + 2 = len (pre2 ++ raw ++ [q3; d])) by lensolve.
      assert (E2 : data = (pre2 ++ raw ++ [q3; d]) ++ r4) by (rewrite Hd3, <- !app_assoc; reflexivity).
      assert (E3 : (length r4 < fuel)%nat). { rewrite Er, Er3 in Hf. rewrite !app_length in Hf. cbn in Hf. rewrite app_length in Hf. cbn in Hf. lia. }
      assert (E0 : 0 < len (pre2 ++ raw ++ [q3; d])) by lensolve.
      assert (E4 : len pre2 + len raw + 1 + 1 = len pre2 + len raw + 2) by lia.
      destruct (is 32 d).
      { cbn [texec]. rewrite E4, E1. apply (IH (MParam id (Some nm)) _ r4 v E2); [exact E0|exact E3|]. exists e'. split; assumption. }
      destruct (is 93 d).
      { cbn [texec]. rewrite E4, E1. apply (Hclose id _ r4 v E2); [exact E0|lia|]. apply (Isd_Iel cm id e'). exact Hv. }
      rewrite (obs_param_err cm id e' (Some nm)); [reflexivity|intros q0 z0; apply fails_fail|exact Hv|exact Hvcp].
Qed.
End R.
