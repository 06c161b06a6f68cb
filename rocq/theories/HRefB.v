(* The setters on the heap do to the message they are called on what the model on values says, and write nothing else. *)
From Verif Require Import Bytes GoMap GoTime Common GotoLang M5424Def M5424 BuilderBaseDef GenBuilder ABuilder MBuilder RefBuilder Heap HBuilder SpecHeap HOwn.
Local Open Scope nat_scope.

(* the pointer StructuredData of the message at a *)
Definition sdp (h : heap) (a : addr) : option addr := match hget h a with Some (KMsg5 _ _ s) => s | _ => None end.
Definition sstep (i p g : nat) (w : owner) (h : heap) (a : addr) (m' : message) (h' : heap) : Prop :=
  exists w', step_ok i p g w h w' h' /\ msg_rel i p g w' h' a m' /\ forall r, sdp h a = Some r -> sdp h' a = Some r /\ hget h' r = hget h r.
Lemma sstep_refl i p g w h a m : own_ok w h -> msg_rel i p g w h a m -> sstep i p g w h a m h.
Proof. intros Ho H. exists w. split; [apply step_refl; exact Ho|]. auto. Qed.
Lemma sstep_trans i p g w h a m1 h1 m2 h2 : sstep i p g w h a m1 h1 ->
  (forall w1, own_ok w1 h1 -> msg_rel i p g w1 h1 a m1 -> sstep i p g w1 h1 a m2 h2) -> sstep i p g w h a m2 h2.
Proof.
  intros [w1 [S1 [M1 P1]]] H. destruct (H w1 (st_ok _ _ _ _ _ _ _ S1) M1) as [w2 [S2 [M2 P2]]].
  exists w2. split; [eapply step_trans; eauto|]. split; [exact M2|].
  intros r Hr. destruct (P1 r Hr) as [Q1 Q2]. destruct (P2 r Q1) as [Q3 Q4]. split; [exact Q3|congruence].
Qed.
Lemma mrel_sdp i p g w h a m r : msg_rel i p g w h a m -> sdp h a = Some r -> w r = Some (g, RSd).
Proof.
  intros [b [sd [H1 [H2 [H3 H4]]]]]. unfold sdp. rewrite H2. intros ->. destruct (structuredData m); cbn in H4; [|tauto]. destruct H4 as [o [H _]]. exact H.
Qed.

Section S.
Variables (i p g : nat).
Notation mrel := (msg_rel i p g).

Lemma mrel_lt w h a m : mrel w h a m -> a < length h.
Proof. intros [b [sd [_ [H _]]]]. eapply hget_lt; eauto. Qed.
Lemma mrel_grow w h a m r : own_ok w h -> mrel w h a m -> sstep i p g w h a m (h ++ r).
Proof.
  intros Ho H. exists w. split; [apply step_grow; exact Ho|]. split.
  - eapply (msg_keeps (fun _ => True)); [apply keeps_grow; exact Ho|exact I|intros; exact I|intros; exact I|exact H].
  - intros q Hq. unfold sdp. rewrite !hget_old; [auto| |eapply mrel_lt; eauto]. apply Ho. rewrite (mrel_sdp _ _ _ _ _ _ _ _ H Hq). discriminate.
Qed.

(* sm.F = &v *)
Lemma point_ok {A} w h a m (v : A) (mk : A -> cell) r (f : option addr -> base -> base) (sf : option A -> message -> message) :
  own_ok w h -> mrel w h a m ->
  (forall w' h' b x, base_rel w' p h' b m -> w' x = Some (p, r) -> hget h' x = Some (mk v) -> base_rel w' p h' (f (Some x) b) (sf (Some v) m)) ->
  version (sf (Some v) m) = version m -> structuredData (sf (Some v) m) = structuredData m ->
  exists h', h_point h a (mk v) f = Some h' /\ sstep i p g w h a (sf (Some v) m) h'.
Proof.
  intros Ho H Hf Hv Hs. pose proof (mrel_lt _ _ _ _ H) as Hl. pose proof (mrel_sdp i p g w h a m) as Hsr. specialize (fun r => Hsr r H). destruct H as [b [sd [H1 [H2 [H3 H4]]]]].
  unfold h_point. rewrite H2. unfold alloc. eexists; split; [reflexivity|].
  set (x := length h). set (w1 := own_new w x p r). set (h1 := h ++ [mk v]).
  assert (S1 : step_ok i p g w h w1 h1) by (apply step_alloc; auto).
  assert (W1 : w1 a = Some (i, RStruct)) by (rewrite (st_old _ _ _ _ _ _ _ S1); auto).
  set (c := KMsg5 (f (Some x) b) (version m) sd). set (h2 := hput h1 a c).
  assert (S2 : step_ok i p g w1 h1 w1 h2) by (eapply step_put; [apply S1|exact W1|auto]).
  assert (Hal : a < length h1) by (unfold h1; rewrite app_length; lia).
  assert (K1 : keeps (fun _ => True) w h w1 h1) by (apply keeps_new; exact Ho).
  assert (K2 : keeps (fun l => snd l <> RStruct) w1 h1 w1 h2).
  { eapply keeps_weaken; [|apply keeps_put; exact W1]. intros [o q]; cbn. congruence. }
  assert (K : keeps (fun l => snd l <> RStruct) w h w1 h2).
  { eapply keeps_trans; [|exact K2]. eapply keeps_weaken; [|exact K1]. intros l _; exact I. }
  exists w1. split; [eapply step_trans; eauto|]. split.
  - exists (f (Some x) b), sd. split; [exact W1|]. split; [|split].
    + unfold h2. rewrite hget_put_same by exact Hal. rewrite Hv. reflexivity.
    + apply Hf.
      * eapply base_keeps; [exact K| |exact H3]. intros q Hq; cbn. intros ->. exact Hq.
      * unfold w1, own_new. rewrite Nat.eqb_refl. reflexivity.
      * unfold h2. rewrite hget_put_other by (unfold x; lia). apply hget_new.
    + rewrite Hs. eapply sd_keeps; [exact K| |exact H4]. intros q Hq; cbn. intros ->. exact Hq.
  - intros q Hq. split; [|apply (K q (g, RSd)); [apply Hsr; exact Hq|discriminate]].
    unfold sdp in *. rewrite H2 in Hq. unfold h2. rewrite hget_put_same by exact Hal. auto.
Qed.
Ltac point r := intros Ho H; eapply (point_ok _ _ _ _ _ _ r); [exact Ho|exact H| |reflexivity|reflexivity];
  intros w' h' b x [H1 [H2 [H3 [H4 [H5 [H6 [H7 [H8 H9]]]]]]]] Hw Hh; unfold base_rel, ptr_rel in *; cbn [p_facility p_severity p_priority p_timestamp p_hostname p_appname p_procID p_msgID p_message
    set_p_timestamp set_p_hostname set_p_appname set_p_procID set_p_msgID set_p_message facility severity priority timestamp hostname appname procID msgID msg
    set_timestamp set_hostname set_appname set_procID set_msgID set_msg];
  repeat (match goal with |- _ /\ _ => split end); assumption.
Lemma point_ts w h a m v : own_ok w h -> mrel w h a m -> exists h', h_point h a (KTime v) set_p_timestamp = Some h' /\ sstep i p g w h a (set_timestamp (Some v) m) h'.
Proof. point RTs. Qed.
Lemma point_host w h a m v : own_ok w h -> mrel w h a m -> exists h', h_point h a (KStr v) set_p_hostname = Some h' /\ sstep i p g w h a (set_hostname (Some v) m) h'.
Proof. point RHost. Qed.
Lemma point_app w h a m v : own_ok w h -> mrel w h a m -> exists h', h_point h a (KStr v) set_p_appname = Some h' /\ sstep i p g w h a (set_appname (Some v) m) h'.
Proof. point RApp. Qed.
Lemma point_proc w h a m v : own_ok w h -> mrel w h a m -> exists h', h_point h a (KStr v) set_p_procID = Some h' /\ sstep i p g w h a (set_procID (Some v) m) h'.
Proof. point RProc. Qed.
Lemma point_mid w h a m v : own_ok w h -> mrel w h a m -> exists h', h_point h a (KStr v) set_p_msgID = Some h' /\ sstep i p g w h a (set_msgID (Some v) m) h'.
Proof. point RMid. Qed.
Lemma point_msg w h a m v : own_ok w h -> mrel w h a m -> exists h', h_point h a (KStr v) set_p_message = Some h' /\ sstep i p g w h a (set_msg (Some v) m) h'.
Proof. point RMsg. Qed.

(* writes of the struct itself keep the rest *)
Lemma struct_put w h a m b' v' sd' m' : own_ok w h -> mrel w h a m ->
  (forall h', keeps (fun l => snd l <> RStruct) w h w h' -> base_rel w p h' b' m' /\ sd_rel w g h' sd' (structuredData m')) -> version m' = v' ->
  (forall r, sdp h a = Some r -> sd' = Some r) -> sstep i p g w h a m' (hput h a (KMsg5 b' v' sd')).
Proof.
  intros Ho H Hb Hv Hp. pose proof (mrel_lt _ _ _ _ H) as Hl. pose proof (mrel_sdp i p g w h a m) as Hsr. specialize (fun r => Hsr r H). destruct H as [b [sd [H1 [H2 [H3 H4]]]]].
  exists w. split; [eapply step_put; eauto|].
  assert (K : keeps (fun l => snd l <> RStruct) w h w (hput h a (KMsg5 b' v' sd'))).
  { eapply keeps_weaken; [|apply keeps_put; exact H1]. intros [o q]; cbn. congruence. }
  split.
  - destruct (Hb _ K) as [A B]. exists b', sd'. split; [exact H1|]. split; [|split; [exact A|exact B]]. rewrite hget_put_same by exact Hl. rewrite Hv. reflexivity.
  - intros r Hr. split; [|apply (K r (g, RSd)); [apply Hsr; exact Hr|discriminate]]. unfold sdp at 1. rewrite hget_put_same by exact Hl. auto.
Qed.
Lemma set_version_ok w h a m v : own_ok w h -> mrel w h a m -> exists h', h_set_version v h a = Some h' /\ sstep i p g w h a (set_version v m) h'.
Proof.
  intros Ho H. pose proof H as [b [sd [H1 [H2 [H3 H4]]]]]. unfold h_set_version. rewrite H2. eexists; split; [reflexivity|].
  eapply struct_put; [exact Ho|exact H| |reflexivity|].
  - intros h' K. split.
    + assert (B : base_rel w p h' b m) by (eapply base_keeps; [exact K| |exact H3]; intros q Hq; cbn; intros ->; exact Hq). exact B.
    + cbn. eapply sd_keeps; [exact K| |exact H4]. intros q Hq; cbn. intros ->. exact Hq.
  - intros r. unfold sdp. rewrite H2. auto.
Qed.
Lemma compute_ok w h a m v : own_ok w h -> mrel w h a m -> exists h', h_compute_from_priority v h a = Some h' /\ sstep i p g w h a (compute_from_priority v m) h'.
Proof.
  intros Ho H. pose proof H as [b [sd [H1 [H2 [H3 H4]]]]]. pose proof (mrel_lt _ _ _ _ H) as Hl. unfold h_compute_from_priority. rewrite H2. unfold alloc. eexists; split; [reflexivity|].
  set (h1 := h ++ [KU8 v]). set (h2 := h1 ++ [KU8 (v / 8)]). set (h3 := h2 ++ [KU8 (v mod 8)]).
  set (w1 := own_new w (length h) p RPri). set (w2 := own_new w1 (length h1) p RFac). set (w3 := own_new w2 (length h2) p RSev).
  assert (S1 : step_ok i p g w h w1 h1) by (apply step_alloc; auto).
  assert (S2 : step_ok i p g w1 h1 w2 h2) by (apply step_alloc; [apply S1|auto]).
  assert (S3 : step_ok i p g w2 h2 w3 h3) by (apply step_alloc; [apply S2|auto]).
  assert (K1 : keeps (fun _ => True) w h w1 h1) by (apply keeps_new; exact Ho).
  assert (K2 : keeps (fun _ => True) w1 h1 w2 h2) by (apply keeps_new; apply S1).
  assert (K3 : keeps (fun _ => True) w2 h2 w3 h3) by (apply keeps_new; apply S2).
  assert (A1 : w3 (length h) = Some (p, RPri) /\ hget h3 (length h) = Some (KU8 v)).
  { assert (X : w1 (length h) = Some (p, RPri)) by (unfold w1, own_new; rewrite Nat.eqb_refl; reflexivity).
    destruct (keeps_trans _ _ _ _ _ _ _ K2 K3 _ _ X I) as [-> ->]. split; [reflexivity|apply hget_new]. }
  assert (A2 : w3 (length h1) = Some (p, RFac) /\ hget h3 (length h1) = Some (KU8 (v / 8))).
  { assert (X : w2 (length h1) = Some (p, RFac)) by (unfold w2, own_new; rewrite Nat.eqb_refl; reflexivity).
    destruct (K3 _ _ X I) as [-> ->]. split; [reflexivity|apply hget_new]. }
  assert (A3 : w3 (length h2) = Some (p, RSev) /\ hget h3 (length h2) = Some (KU8 (v mod 8))).
  { split; [unfold w3, own_new; rewrite Nat.eqb_refl; reflexivity|apply hget_new]. }
  assert (K : keeps (fun _ => True) w h w3 h3) by (eapply keeps_trans; [exact K1|]; eapply keeps_trans; eauto).
  assert (S : step_ok i p g w h w3 h3) by (eapply step_trans; [exact S1|]; eapply step_trans; eauto).
  assert (M3 : mrel w3 h3 a m) by (eapply msg_keeps; [exact K|exact I|intros; exact I|intros; exact I|exact H]).
  assert (SS : sstep i p g w h a m h3).
  { exists w3. split; [exact S|]. split; [exact M3|]. intros r Hr. split; [unfold sdp; destruct (K _ _ H1 I) as [_ ->]; exact Hr|].
    destruct (K _ _ (mrel_sdp _ _ _ _ _ _ _ _ H Hr) I) as [_ ->]. reflexivity. }
  assert (P3' : forall r, sdp h a = Some r -> sdp h3 a = Some r /\ hget h3 r = hget h r).
  { intros r Hr. split; [unfold sdp; destruct (K _ _ H1 I) as [_ ->]; exact Hr|].
    destruct (K _ _ (mrel_sdp _ _ _ _ _ _ _ _ H Hr) I) as [_ ->]. reflexivity. }
  clear SS.
  destruct (struct_put w3 h3 a m (set_p_severity (Some (length h2)) (set_p_facility (Some (length h1)) (set_p_priority (Some (length h)) b))) (version m) sd (compute_from_priority v m)) as [w4 [S4 [M4 P4]]].
  - apply S3.
  - exact M3.
  - intros h' K'. assert (KK : keeps (fun l => snd l <> RStruct) w h w3 h') by (eapply keeps_trans; [eapply keeps_weaken; [|exact K]; intros l _; exact I|exact K']).
    split; [|cbn; eapply sd_keeps; [exact KK| |exact H4]; intros q Hq; cbn; intros ->; exact Hq].
    assert (B : base_rel w3 p h' b m) by (eapply base_keeps; [exact KK| |exact H3]; intros q Hq; cbn; intros ->; exact Hq).
    destruct B as [B1 [B2 [B3 [B4 [B5 [B6 [B7 [B8 B9]]]]]]]]. unfold base_rel. cbn.
    assert (Q : forall x r c, w3 x = Some (p, r) /\ hget h3 x = Some c -> ptr_role r -> w3 x = Some (p, r) /\ hget h' x = Some c).
    { intros x r c [X Y] Hr. assert (N : snd (p, r) <> RStruct) by (cbn; intros ->; exact Hr). destruct (K' x (p, r) X N) as [Z1 Z2]. split; [exact X|congruence]. }
    repeat match goal with |- _ /\ _ => split end; auto; try (apply Q; [assumption|exact I]);
      (apply (Q _ _ _ A1 I) || apply (Q _ _ _ A2 I) || apply (Q _ _ _ A3 I)).
  - reflexivity.
  - intros r. unfold sdp. destruct (K _ _ H1 I) as [_ ->]. rewrite H2. auto.
  - exists w4. split; [eapply step_trans; eauto|]. split; [exact M4|].
    intros r Hr. destruct (P3' r Hr) as [Q1 Q2]. destruct (P4 r Q1) as [Q3 Q4]. split; [exact Q3|etransitivity; [exact Q4|exact Q2]].
Qed.

(* sm.StructuredData = &(map[string]map[string]string{}) *)
Lemma sdinit_ok w h a m b v : own_ok w h -> mrel w h a m -> hget h a = Some (KMsg5 b v None) ->
  sstep i p g w h a (set_structuredData (Some []) m) (hput ((h ++ [KOuter []]) ++ [KRef (Some (length h))]) a (KMsg5 b v (Some (length (h ++ [KOuter []]))))).
Proof.
  intros Ho H Hg. pose proof H as [b0 [sd [H1 [H2 [H3 H4]]]]]. pose proof (mrel_lt _ _ _ _ H) as Hl.
  rewrite Hg in H2. injection H2 as E1 E2 E3. subst b0 v sd.
  set (h1 := h ++ [KOuter []]). set (h2 := h1 ++ [KRef (Some (length h))]).
  set (w1 := own_new w (length h) g ROuter). set (w2 := own_new w1 (length h1) g RSd).
  assert (S1 : step_ok i p g w h w1 h1) by (apply step_alloc; auto).
  assert (S2 : step_ok i p g w1 h1 w2 h2) by (apply step_alloc; [apply S1|auto]).
  assert (K1 : keeps (fun _ => True) w h w1 h1) by (apply keeps_new; exact Ho).
  assert (K2 : keeps (fun _ => True) w1 h1 w2 h2) by (apply keeps_new; apply S1).
  assert (K : keeps (fun _ => True) w h w2 h2) by (eapply keeps_trans; eauto).
  assert (M2 : mrel w2 h2 a m) by (eapply msg_keeps; [exact K|exact I|intros; exact I|intros; exact I|exact H]).
  assert (A1 : w2 (length h) = Some (g, ROuter) /\ hget h2 (length h) = Some (KOuter [])).
  { assert (X : w1 (length h) = Some (g, ROuter)) by (unfold w1, own_new; rewrite Nat.eqb_refl; reflexivity).
    destruct (K2 _ _ X I) as [-> ->]. split; [reflexivity|apply hget_new]. }
  assert (A2 : w2 (length h1) = Some (g, RSd) /\ hget h2 (length h1) = Some (KRef (Some (length h)))).
  { split; [unfold w2, own_new; rewrite Nat.eqb_refl; reflexivity|apply hget_new]. }
  destruct (struct_put w2 h2 a m b (version m) (Some (length h1)) (set_structuredData (Some []) m)) as [w4 [S4 [M4 P4]]].
  - apply S2.
  - exact M2.
  - intros h' K'. assert (KK : keeps (fun l => snd l <> RStruct) w h w2 h') by (eapply keeps_trans; [eapply keeps_weaken; [|exact K]; intros l _; exact I|exact K']).
    assert (Q : forall x r c, w2 x = Some (g, r) /\ hget h2 x = Some c -> sd_role r -> hget h' x = Some c).
    { intros x r c [X Y] Hr. assert (N : snd (g, r) <> RStruct) by (cbn; intros ->; exact Hr). destruct (K' x (g, r) X N) as [Z1 Z2]. congruence. }
    split.
    + assert (B : base_rel w2 p h' b m) by (eapply base_keeps; [exact KK| |exact H3]; intros q Hq; cbn; intros ->; exact Hq). exact B.
    + cbn. exists (length h). split; [apply A2|]. split; [apply (Q _ _ _ A2 I)|]. exists []. split; [apply A1|]. split; [apply (Q _ _ _ A1 I)|]. split; [exact I|]. split; [exact I|]. intros k. exact I.
  - reflexivity.
  - intros r. unfold sdp. destruct (K _ _ H1 I) as [_ ->]. rewrite Hg. discriminate.
  - exists w4. split; [eapply step_trans; [eapply step_trans; eauto|eauto]|]. split; [exact M4|]. intros r. unfold sdp at 1. rewrite Hg. discriminate.
Qed.

(* writes inside the maps *)
Lemma map_put w h a m r o sd h' w' sd' : mrel w h a m -> sdp h a = Some r -> hget h r = Some (KRef (Some o)) -> structuredData m = Some sd ->
  keeps (fun l => ~ inner_role (snd l) /\ snd l <> ROuter) w h w' h' -> map_rel w' g h' o sd' -> step_ok i p g w h w' h' ->
  sstep i p g w h a (set_structuredData (Some sd') m) h'.
Proof.
  intros [b [sd0 [H1 [H2 [H3 H4]]]]] Hp Hr Hsd K Hm S. exists w'. split; [exact S|].
  assert (Ha : w' a = Some (i, RStruct) /\ hget h' a = hget h a) by (apply K; [exact H1|cbn; split; [tauto|discriminate]]).
  unfold sdp in Hp. rewrite H2 in Hp. subst sd0. rewrite Hsd in H4. destruct H4 as [o' [W1 [W2 _]]]. rewrite Hr in W2. injection W2 as <-.
  assert (Hr' : w' r = Some (g, RSd) /\ hget h' r = hget h r) by (apply K; [exact W1|cbn; split; [tauto|discriminate]]).
  split.
  - exists b, (Some r). split; [apply Ha|]. split; [destruct Ha as [_ ->]; exact H2|]. split.
    + assert (B : base_rel w' p h' b m); [|exact B]. eapply base_keeps; [exact K| |exact H3]. intros q Hq; cbn. destruct q; cbn in *; split; try tauto; discriminate.
    + cbn. exists o. split; [apply Hr'|]. split; [destruct Hr' as [_ ->]; exact Hr|exact Hm].
  - intros q Hq. assert (q = r) by (unfold sdp in Hq; rewrite H2 in Hq; congruence). subst q.
    split; [unfold sdp; destruct Ha as [_ ->]; exact Hq|apply Hr'].
Qed.
(* elements[id] = map[string]string{} *)
Lemma newelem_ok w h a m r o sd om id : own_ok w h -> mrel w h a m -> sdp h a = Some r -> hget h r = Some (KRef (Some o)) -> structuredData m = Some sd ->
  hget h o = Some (KOuter om) -> sstep i p g w h a (set_structuredData (Some (mset sd id [])) m) (hput (h ++ [KInner []]) o (KOuter (mset om id (length h)))).
Proof.
  intros Ho H Hp Hr Hsd Hom. pose proof H as [b [sd0 [H1 [H2 [H3 H4]]]]]. unfold sdp in Hp. rewrite H2 in Hp. subst sd0. rewrite Hsd in H4.
  destruct H4 as [o' [W1 [W2 M]]]. rewrite Hr in W2. injection W2 as <-. destruct M as [om' [M1 [M2 [M3 [M4 M5]]]]]. rewrite Hom in M2. injection M2 as <-.
  set (w1 := own_new w (length h) g (RInner id)). set (h1 := h ++ [KInner []]).
  assert (S1 : step_ok i p g w h w1 h1) by (apply step_alloc; auto).
  assert (K1 : keeps (fun _ => True) w h w1 h1) by (apply keeps_new; exact Ho).
  assert (W : w1 o = Some (g, ROuter)) by (destruct (K1 _ _ M1 I); assumption).
  set (h2 := hput h1 o (KOuter (mset om id (length h)))).
  assert (S2 : step_ok i p g w1 h1 w1 h2) by (eapply step_put; [apply S1|exact W|auto]).
  assert (K2 : keeps (fun l => snd l <> ROuter) w1 h1 w1 h2).
  { eapply keeps_weaken; [|apply keeps_put; exact W]. intros [q1 q2]; cbn. congruence. }
  assert (K : keeps (fun l => snd l <> ROuter) w h w1 h2) by (eapply keeps_trans; [|exact K2]; eapply keeps_weaken; [|exact K1]; intros l _; exact I).
  eapply (map_put w h a m r o sd h2 w1); [exact H|unfold sdp; rewrite H2; reflexivity|exact Hr|exact Hsd| | |eapply step_trans; eauto].
  - eapply keeps_weaken; [|exact K]. cbn. tauto.
  - exists (mset om id (length h)). split; [exact W|]. split.
    { unfold h2. apply hget_put_same. unfold h1. rewrite app_length. assert (o < length h) by (eapply hget_lt; eauto). lia. }
    split; [apply mset_sorted; exact M3|]. split; [apply mset_sorted; exact M4|].
    intros k. destruct (list_eq_dec Byte.byte_eq_dec k id) as [->|Hk].
    + rewrite !mget_mset_same. cbn. split; [unfold w1, own_new; rewrite Nat.eqb_refl; reflexivity|].
      assert (X : w1 (length h) = Some (g, RInner id)) by (unfold w1, own_new; rewrite Nat.eqb_refl; reflexivity).
      destruct (K2 _ _ X) as [_ ->]; [discriminate|apply hget_new].
    + rewrite !mget_mset_other by exact Hk. eapply elem_keeps; [exact K|discriminate|apply M5].
Qed.
(* elements[id][name] = v, or any other change of the inner map *)
Lemma inner_ok w h a m r o sd om id q e e' : own_ok w h -> mrel w h a m -> sdp h a = Some r -> hget h r = Some (KRef (Some o)) -> structuredData m = Some sd ->
  hget h o = Some (KOuter om) -> mget om id = Some q -> mget sd id = Some e ->
  sstep i p g w h a (set_structuredData (Some (mset sd id e')) m) (hput h q (KInner e')).
Proof.
  intros Ho H Hp Hr Hsd Hom Hq He. pose proof H as [b [sd0 [H1 [H2 [H3 H4]]]]]. unfold sdp in Hp. rewrite H2 in Hp. subst sd0. rewrite Hsd in H4.
  destruct H4 as [o' [W1 [W2 M]]]. rewrite Hr in W2. injection W2 as <-. destruct M as [om' [M1 [M2 [M3 [M4 M5]]]]]. rewrite Hom in M2. injection M2 as <-.
  pose proof (M5 id) as Mi. rewrite Hq, He in Mi. destruct Mi as [Q1 Q2].
  assert (K : keeps (fun l => snd l <> RInner id) w h w (hput h q (KInner e'))).
  { eapply keeps_weaken; [|apply keeps_put; exact Q1]. intros [q1 q2]; cbn. congruence. }
  eapply (map_put w h a m r o sd _ w); [exact H|unfold sdp; rewrite H2; reflexivity|exact Hr|exact Hsd| | |eapply step_put; eauto].
  - eapply keeps_weaken; [|exact K]. cbn. intros [o0 []]; cbn; intuition congruence.
  - exists om. split; [exact M1|]. split; [destruct (K _ _ M1) as [_ ->]; [discriminate|exact Hom]|]. split; [exact M3|]. split; [apply mset_sorted; exact M4|].
    intros k. destruct (list_eq_dec Byte.byte_eq_dec k id) as [->|Hk].
    + rewrite Hq, mget_mset_same. cbn. split; [exact Q1|]. apply hget_put_same. eapply hget_lt; eauto.
    + rewrite mget_mset_other by exact Hk. eapply elem_keeps; [exact K|cbn; congruence|apply M5].
Qed.
(* the maps as elements sees them *)
Lemma elem_found w h a m r o sd id : mrel w h a m -> sdp h a = Some r -> hget h r = Some (KRef (Some o)) -> structuredData m = Some sd ->
  exists om, hget h o = Some (KOuter om) /\ h_elem h (Some o) id = mget om id /\
  match mget sd id with Some e => exists q, mget om id = Some q /\ hget h q = Some (KInner e) | None => mget om id = None end.
Proof.
  intros [b [sd0 [H1 [H2 [H3 H4]]]]] Hp Hr Hsd. unfold sdp in Hp. rewrite H2 in Hp. subst sd0. rewrite Hsd in H4.
  destruct H4 as [o' [W1 [W2 M]]]. rewrite Hr in W2. injection W2 as <-. destruct M as [om [M1 [M2 [M3 [M4 M5]]]]].
  exists om. split; [exact M2|]. split; [unfold h_elem; rewrite M2; reflexivity|]. specialize (M5 id).
  destruct (mget om id) as [q|], (mget sd id) as [e|]; cbn in M5; try tauto. exists q. split; [reflexivity|apply M5].
Qed.
Lemma sdp_some w h a m : mrel w h a m -> match structuredData m with
  | Some sd => exists r o, sdp h a = Some r /\ hget h r = Some (KRef (Some o)) | None => sdp h a = None end.
Proof.
  intros [b [sd [H1 [H2 [H3 H4]]]]]. unfold sdp. rewrite H2. destruct (structuredData m), sd; cbn in H4; try tauto.
  destruct H4 as [o [_ [H _]]]. exists a0, o. auto.
Qed.
End S.
