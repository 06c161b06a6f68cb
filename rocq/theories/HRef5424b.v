(* Parse on the heap: the run of the goto program and export. *)
From Verif Require Import Bytes GoMap GoTime Common GotoLang Heap HBuilder SpecHeap HOwn HRefB HExec M5424Def Gen5424 A5424 M5424 Ref5424c HParse5424 HRef5424.
Local Open Scope nat_scope.

Definition erase (x : vars) : vars := set_m_out msg_zero (set_m_text [] x).
(* the program sets output.hasElements only where it has just made an element *)
Definition pneed (a : act) (n : bool) : bool := match a with AHasElements true => n | _ => true end.
Definition ppost (a : act) (n : bool) : bool := match a with ASdNewElem => true | _ => false end.
Lemma flow5424 : forallb (fun lb => flow pneed ppost false (snd lb)) prog5424 = true.
Proof. vm_compute. reflexivity. Qed.
Lemma link5424 : code5424 = link prog5424.
Proof. vm_cast_no_check (eq_refl code5424). Qed.

Section S.
Variables (n : nat) (w0 : owner) (h0 : heap) (o : addr) (d : slice) (data : bytes).
Hypothesis Hd : slice_read h0 d = Some data.
Hypothesis Hw : forall r, w0 (s_arr d) <> Some (n, r).

Definition text_rel (w : owner) (h : heap) (s : option slice) (t : bytes) : Prop :=
  oslice_read h s = Some t /\ match s with Some s => forall r, w (s_arr s) <> Some (n, r) | None => True end.
Record prel (b : bool) (x : vars) (y : hp) : Prop := PRel {
  pr_x : hp_x y = erase x;
  pr_he : o_hasElements (m_out x) = true -> o_sd (m_out x) <> None;
  pr_b : b = true -> o_sd (m_out x) <> None;
  pr_w : exists w, step_ok n n n w0 h0 w (hp_heap y) /\ out_rel n w (hp_heap y) o (m_out x) /\ text_rel w (hp_heap y) (hp_text y) (m_text x) }.

Lemma slice_lt h s t : slice_read h s = Some t -> s_arr s < length h.
Proof. unfold slice_read. destruct (hget h (s_arr s)) eqn:E; [|discriminate]. intros _. eapply hget_lt; eauto. Qed.
Lemma slice_frame w h w' h' s t : step_ok n n n w h w' h' -> (forall r, w (s_arr s) <> Some (n, r)) -> slice_read h s = Some t -> slice_read h' s = Some t.
Proof.
  intros S Hs H. pose proof (slice_lt _ _ _ H) as L. rewrite <- H. unfold slice_read. rewrite (st_frame _ _ _ _ _ _ _ S); auto.
Qed.
Lemma text_frame w h w' h' s t : step_ok n n n w h w' h' -> text_rel w h s t -> text_rel w' h' s t.
Proof.
  intros S [A B]. destruct s as [s|]; [|exact (conj A B)]. cbn [oslice_read] in *. split; [eapply slice_frame; eauto|].
  intros r. rewrite (st_old _ _ _ _ _ _ _ S) by (eapply slice_lt; eauto). apply B.
Qed.
Lemma d_read b x y : prel b x y -> slice_read (hp_heap y) d = Some data.
Proof. intros [_ _ _ [w [S _]]]. eapply slice_frame; eauto. Qed.

(* a statement that writes memory *)
Lemma mem_step b b' x y m' h' : prel b x y ->
  (o_hasElements m' = true -> o_sd m' <> None) -> (b' = true -> o_sd m' <> None) ->
  (forall w, own_ok w (hp_heap y) -> out_rel n w (hp_heap y) o (m_out x) -> exists w', step_ok n n n w (hp_heap y) w' h' /\ out_rel n w' h' o m') ->
  prel b' (set_m_out m' x) (HP h' (hp_x y) (hp_text y)).
Proof.
  intros [A1 A2 A3 [w [S [O T]]]] I1 I2 H. destruct (H w (st_ok _ _ _ _ _ _ _ S) O) as [w' [S' O']].
  constructor; cbn; auto. exists w'. split; [eapply step_trans; eauto|]. split; [exact O'|]. eapply text_frame; eauto.
Qed.
(* a statement that does not *)
Lemma loc_step b x y (f : vars -> vars) : prel b x y -> (forall x, erase (f x) = f (erase x)) -> (forall x, m_out (f x) = m_out x) -> (forall x, m_text (f x) = m_text x) ->
  orel (prel false) (Some (f x)) (on_x f y).
Proof.
  intros [A1 A2 A3 [w [S [O T]]]] E1 E2 E3. cbn. constructor; cbn; try discriminate.
  - rewrite A1, E1. reflexivity.
  - rewrite E2. exact A2.
  - exists w. rewrite E2, E3. auto.
Qed.
Lemma text_sim (R : vars -> hp -> Prop) b x y q (f : bytes -> vars) (k : bytes -> option hp) : prel b x y ->
  (forall t, orel R (Some (f t)) (k t)) -> orel R (with_text data q x f) (h_text d q y k).
Proof.
  intros B H. unfold with_text, text_of, h_text. rewrite (pr_x _ _ _ B). cbn [erase m_pb set_m_out set_m_text].
  pose proof (slice_read_sub _ _ _ (m_pb x) q (d_read _ _ _ B)) as S.
  destruct (zslice data (m_pb x) q) as [t|]; [|rewrite S; exact I]. destruct S as [u [-> ->]]. apply H.
Qed.
Ltac loc B := apply (loc_step _ _ _ _ B); intros []; reflexivity.

Lemma set_cell_sim b x y m' a r c : prel b x y -> o_hasElements m' = o_hasElements (m_out x) -> o_sd m' = o_sd (m_out x) ->
  (forall w, out_rel n w (hp_heap y) o (m_out x) -> chg n w (hp_heap y) o m' a r c) -> orel (prel false) (Some (set_m_out m' x)) (set_cell a c y).
Proof.
  intros B E1 E2 H. cbn. apply (mem_step b false x y); [exact B| |discriminate|].
  - rewrite E1, E2. apply B.
  - intros w Ho O. destruct (H w O Ho) as [S O']. exists w. auto.
Qed.
Lemma flags_sim b x y m' f : prel b x y -> o_timestamp m' = o_timestamp (m_out x) -> o_hostname m' = o_hostname (m_out x) -> o_appname m' = o_appname (m_out x) ->
  o_procID m' = o_procID (m_out x) -> o_msgID m' = o_msgID (m_out x) -> o_message m' = o_message (m_out x) -> o_sd m' = o_sd (m_out x) ->
  (o_hasElements m' = true -> o_sd m' <> None) ->
  f (o_prioritySet (m_out x)) (o_timestampSet (m_out x)) (o_hasElements (m_out x)) (o_priority (m_out x)) (o_version (m_out x)) =
    KOut5 (o_prioritySet m') (o_timestampSet m') (o_hasElements m') (o_priority m') (o_version m') ->
  orel (prel false) (Some (set_m_out m' x)) (h_out5 o f y).
Proof.
  intros B E1 E2 E3 E4 E5 E6 E7 I1 E8. unfold h_out5. destruct (pr_w _ _ _ B) as [w [S [O T]]]. rewrite (proj2 (proj1 O)), E8. cbn.
  apply (mem_step b false x y); [exact B|exact I1|discriminate|].
  intros w1 Ho O1. destruct (chg_flags n w1 (hp_heap y) o (m_out x) m' O1 E1 E2 E3 E4 E5 E6 E7 Ho) as [S1 O']. exists w1. auto.
Qed.
Ltac flags B := apply (flags_sim _ _ _ _ _ B); try reflexivity; cbn; apply B.
Lemma out_set_same x m : m = m_out x -> set_m_out m x = x. Proof. intros ->. destruct x; reflexivity. Qed.
Lemma prel_false b x y : prel b x y -> prel false x y.
Proof. intros []. constructor; auto. discriminate. Qed.

Lemma act_sim b a q x y : pneed a b = true -> prel b x y -> orel (prel (ppost a b)) (sem_act a data q x) (hsem5 o d a data q y).
Proof.
  intros Hn B. pose proof (pr_x _ _ _ B) as Ex.
  destruct a; cbn [ppost sem_act hsem5]; try (rewrite Ex; cbn [erase set_m_out set_m_text m_backslashat m_id m_tval m_t m_pb m_msgat m_currentelem m_currentparam]).
  - loc B.
  - loc B.
  - loc B.
  - loc B.
  - eapply text_sim; [exact B|]. intros t. loc B.
  - loc B.
  - loc B.
  - loc B.
  - eapply text_sim; [exact B|]. intros t. flags B.
  - flags B.
  - eapply text_sim; [exact B|]. intros t. flags B.
  - eapply text_sim; [exact B|]. intros t. apply (loc_step _ _ _ (fun x => set_m_tval t (set_m_t (parse_rfc3339 t) x)) B); intros []; reflexivity.
  - replace (match m_t x with Some t => Some (upd (set_o_timestamp t) x) | None => Some (upd (set_o_timestamp time_zero) x) end)
      with (Some (set_m_out (set_o_timestamp (match m_t x with Some t => t | None => time_zero end) (m_out x)) x)) by (destruct (m_t x); reflexivity).
    apply (set_cell_sim b x y _ _ RTs _ B); try reflexivity. intros w O. apply chg_ts. exact O.
  - flags B.
  - eapply text_sim; [exact B|]. intros t. apply (set_cell_sim b x y _ _ RHost _ B); try reflexivity. intros w O. apply chg_host. exact O.
  - eapply text_sim; [exact B|]. intros t. apply (set_cell_sim b x y _ _ RApp _ B); try reflexivity. intros w O. apply chg_app. exact O.
  - eapply text_sim; [exact B|]. intros t. apply (set_cell_sim b x y _ _ RProc _ B); try reflexivity. intros w O. apply chg_proc. exact O.
  - eapply text_sim; [exact B|]. intros t. apply (set_cell_sim b x y _ _ RMid _ B); try reflexivity. intros w O. apply chg_mid. exact O.
  - unfold alloc. cbn [orel]. rewrite <- Ex. apply (mem_step b false x y); [exact B|cbn; discriminate|discriminate|].
    intros w Ho O. eexists. apply sd_init; assumption.
  - eapply text_sim; [exact B|]. intros t.
    assert (E : match h_elem (hp_heap y) (h_sd (hp_heap y) o) t with Some _ => true | None => false end = match mget (sd_read (o_sd (m_out x))) t with Some _ => true | None => false end).
    { destruct (pr_w _ _ _ B) as [w [S [O T]]]. pose proof (sd_found n w _ o _ t O) as F. destruct (o_sd (m_out x)) as [s|]; cbn [sd_read].
      - destruct F as [q0 [om [-> [_ [_ [_ [-> F]]]]]]]. destruct (mget s t); [destruct F as [a [-> _]]; reflexivity|rewrite F; reflexivity].
      - rewrite F. reflexivity. }
    rewrite E. loc B.
  - eapply text_sim; [exact B|]. intros t. loc B.
  - destruct (pr_w _ _ _ B) as [w [S [O T]]]. pose proof (sd_found n w _ o _ (m_id x) O) as F. destruct (o_sd (m_out x)) as [s|] eqn:Es.
    + destruct F as [q0 [om [-> [F1 [F2 [F3 _]]]]]]. rewrite F2. unfold alloc. cbn [orel]. rewrite <- Ex.
      apply (mem_step b true x y); [exact B|cbn; discriminate|cbn; discriminate|].
      intros w1 Ho O1. assert (M1 : map_rel w1 n (hp_heap y) q0 s).
      { pose proof (sd_found n w1 _ o _ [] O1) as F'. rewrite Es in F'. destruct F' as [q1 [om1 [_ [G1 [_ [G2 _]]]]]]. rewrite F1 in G1. injection G1 as <-. exact G2. }
      destruct (map_newelem n w1 _ q0 s om (m_id x) Ho M1 F2) as [S1 [K1 M2]]. eexists. split; [exact S1|]. eapply sd_maps; eauto.
    + rewrite F. exact I.
  - apply (flags_sim _ _ _ _ _ B); try reflexivity. cbn. intros ->. apply (pr_b _ _ _ B). exact Hn.
  - destruct (pr_w _ _ _ B) as [w [S [O T]]]. pose proof (sd_found n w _ o _ (m_currentelem x) O) as F. destruct (o_sd (m_out x)) as [s|] eqn:Es.
    + destruct F as [q0 [om [-> [F1 [F2 [F3 _]]]]]]. rewrite F2. unfold upd. rewrite Es. cbn [orel set_cell].
      apply (mem_step b false x y); [exact B|cbn; discriminate|cbn; discriminate|].
      intros w1 Ho O1. assert (M1 : map_rel w1 n (hp_heap y) q0 s).
      { pose proof (sd_found n w1 _ o _ [] O1) as F'. rewrite Es in F'. destruct F' as [q1 [om1 [_ [G1 [_ [G2 _]]]]]]. rewrite F1 in G1. injection G1 as <-. exact G2. }
      destruct (map_delelem n w1 _ q0 s om (m_currentelem x) Ho M1 F2) as [S1 [K1 M2]]. eexists. split; [exact S1|]. eapply sd_maps; eauto.
    + rewrite F. cbn [orel]. unfold upd. rewrite Es, out_set_same by reflexivity. eapply prel_false; eauto.
  - destruct (pr_w _ _ _ B) as [w [S [O T]]]. pose proof (sd_found n w _ o _ (m_currentelem x) O) as F. destruct (o_sd (m_out x)) as [s|] eqn:Es.
    + destruct F as [q0 [om [-> [F1 [F2 [F3 [-> F4]]]]]]]. unfold upd. rewrite Es. destruct (mget s (m_currentelem x)) as [e|] eqn:Ee.
      * destruct F4 as [a [Fa Fb]]. rewrite Fa, Fb. cbn [orel set_cell].
        apply (mem_step b false x y); [exact B|cbn; discriminate|cbn; discriminate|].
        intros w1 Ho O1. assert (M1 : map_rel w1 n (hp_heap y) q0 s).
        { pose proof (sd_found n w1 _ o _ [] O1) as F'. rewrite Es in F'. destruct F' as [q1 [om1 [_ [G1 [_ [G2 _]]]]]]. rewrite F1 in G1. injection G1 as <-. exact G2. }
        destruct (map_inner n w1 _ q0 s om (m_currentelem x) a e (mdel e (m_currentparam x)) Ho M1 F2 Fa Ee) as [S1 [K1 M2]]. eexists. split; [exact S1|]. eapply sd_maps; eauto.
      * rewrite F4. cbn [orel]. rewrite out_set_same by reflexivity. eapply prel_false; eauto.
    + rewrite F. cbn [orel h_elem]. unfold upd. rewrite Es, out_set_same by reflexivity. eapply prel_false; eauto.
  - (* ATextLocal *)
    unfold with_text, text_of. pose proof (slice_read_sub _ _ _ (m_pb x) q (d_read _ _ _ B)) as S.
    destruct (zslice data (m_pb x) q) as [t|]; [|rewrite S; exact I]. destruct S as [u [Eu Hu]]. rewrite Eu. cbn [orel].
    destruct (pr_w _ _ _ B) as [w [S [O T]]]. constructor; cbn; try discriminate; [reflexivity|apply B|].
    exists w. split; [exact S|]. split; [exact O|]. split; [exact Hu|]. unfold subslice in Eu. destruct (_ && _); [|discriminate]. injection Eu as <-. cbn.
    intros r. rewrite (st_old _ _ _ _ _ _ _ S) by (eapply slice_lt; eauto). apply Hw.
  - (* ATextStrip *)
    destruct (pr_w _ _ _ B) as [w [S [O [T1 T2]]]]. pose proof (h_remove_bytes_fresh _ _ _ (m_backslashat x) (m_pb x) T1) as R.
    destruct (remove_bytes (m_text x) (m_backslashat x) (m_pb x)) as [t|]; [|rewrite R; exact I]. destruct R as [r [s [-> [Hr Hs]]]]. cbn [orel].
    assert (S' : step_ok n n n w (hp_heap y) w (hp_heap y ++ r)) by (apply step_grow; apply S).
    constructor; cbn; try discriminate; [reflexivity|apply B|]. exists w. split; [eapply step_trans; eauto|].
    split; [eapply (out_keeps n (fun _ => True)); [apply keeps_grow; apply S|intros; exact I|exact O]|]. split; [exact Hr|].
    destruct s as [s|]; [|exact I]. intros r0 E. assert (s_arr s < length (hp_heap y)) by (apply (st_ok _ _ _ _ _ _ _ S); congruence). lia.
  - (* ASdSetParam *)
    destruct (pr_w _ _ _ B) as [w [S [O T]]]. rewrite (proj1 T). unfold h_put_param.
    pose proof (sd_found n w _ o _ (m_currentelem x) O) as F. destruct (o_sd (m_out x)) as [s|] eqn:Es; cbn [sd_read].
    + destruct F as [q0 [om [-> [F1 [F2 [F3 [-> F4]]]]]]]. destruct (mget s (m_currentelem x)) as [e|] eqn:Ee.
      * destruct F4 as [a [Fa Fb]]. rewrite Fa, Fb. cbn [orel]. rewrite <- Ex.
        apply (mem_step b false x y); [exact B|cbn; discriminate|cbn; discriminate|].
        intros w1 Ho O1. assert (M1 : map_rel w1 n (hp_heap y) q0 s).
        { pose proof (sd_found n w1 _ o _ [] O1) as F'. rewrite Es in F'. destruct F' as [q1 [om1 [_ [G1 [_ [G2 _]]]]]]. rewrite F1 in G1. injection G1 as <-. exact G2. }
        destruct (map_inner n w1 _ q0 s om (m_currentelem x) a e (mset e (m_currentparam x) (m_text x)) Ho M1 F2 Fa Ee) as [S1 [K1 M2]]. eexists. split; [exact S1|]. eapply sd_maps; eauto.
      * rewrite F4. exact I.
    + rewrite F. exact I.
  - eapply text_sim; [exact B|]. intros t. apply (set_cell_sim b x y _ _ RMsg _ B); try reflexivity. intros w O. apply chg_msg. exact O.
  - pose proof (slice_read_sub _ _ _ (m_msgat x) q (d_read _ _ _ B)) as S.
    destruct (zslice data (m_msgat x) q) as [t|]; [|rewrite S; exact I]. destruct S as [u [-> Hu]]. rewrite Hu.
    apply (set_cell_sim b x y _ _ RMsg _ B); try reflexivity. intros w O. apply chg_msg. exact O.
Qed.
Lemma cnd_sim b c x y : prel b x y -> sem_cnd c x = hcnd5 o c y.
Proof.
  intros B. pose proof (pr_x _ _ _ B) as Ex. destruct (pr_w _ _ _ B) as [w [S [O T]]].
  assert (E : match h_outer (hp_heap y) (h_sd (hp_heap y) o) with Some (_ :: _) => true | _ => false end = match sd_read (o_sd (m_out x)) with [] => false | _ => true end).
  { pose proof (sd_found n w _ o _ [] O) as F. destruct (o_sd (m_out x)) as [s|]; cbn [sd_read].
    - destruct F as [q0 [om [-> [F1 [F2 [F3 _]]]]]]. cbn [h_outer]. rewrite F2. pose proof (map_empty n w _ q0 s om F3 F2) as [H1 H2].
      destruct om, s; try reflexivity; [specialize (H1 eq_refl); discriminate|specialize (H2 eq_refl); discriminate].
    - rewrite F. reflexivity. }
  destruct c; cbn [sem_cnd hcnd5]; try (rewrite Ex; reflexivity).
  - destruct (h_outer _ _) as [[|]|]; destruct (sd_read _); congruence || reflexivity.
  - symmetry. exact E.
  - rewrite (proj2 (proj1 O)). reflexivity.
Qed.
End S.
