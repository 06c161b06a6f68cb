(* Parse on the heap gives what the model on values gives, and writes nothing that existed before. *)
From Verif Require Import Bytes GoMap GoTime Common GotoLang Heap HBuilder SpecHeap HOwn HRefB HExec M5424Def Gen5424 A5424 M5424 Ref5424c HParse5424.
Local Open Scope nat_scope.

Section S.
Variable n : nat.
Definition at_ (w : owner) (h : heap) (a : addr) (r : role) (c : cell) : Prop := w a = Some (n, r) /\ hget h a = Some c.
Definition sd_part (w : owner) (h : heap) (a : addr) (s : option sdmap) : Prop :=
  match s with
  | None => at_ w h a RSd (KRef None)
  | Some s => exists q, at_ w h a RSd (KRef (Some q)) /\ map_rel w n h q s
  end.
Definition out_rel (w : owner) (h : heap) (o : addr) (m : msg5424) : Prop :=
  at_ w h o ROut (KOut5 (o_prioritySet m) (o_timestampSet m) (o_hasElements m) (o_priority m) (o_version m)) /\
  at_ w h (o + 1) RTs (KTime (o_timestamp m)) /\ at_ w h (o + 2) RHost (KStr (o_hostname m)) /\ at_ w h (o + 3) RApp (KStr (o_appname m)) /\
  at_ w h (o + 4) RProc (KStr (o_procID m)) /\ at_ w h (o + 5) RMid (KStr (o_msgID m)) /\ at_ w h (o + 7) RMsg (KStr (o_message m)) /\
  sd_part w h (o + 6) (o_sd m).
Lemma at_keeps (P : nat * role -> Prop) w h w' h' a r c : keeps P w h w' h' -> P (n, r) -> at_ w h a r c -> at_ w' h' a r c.
Proof. intros K HP [H1 H2]. destruct (K _ _ H1 HP) as [E1 E2]. split; congruence. Qed.
Lemma sd_part_keeps (P : nat * role -> Prop) w h w' h' a s : keeps P w h w' h' -> P (n, RSd) -> P (n, ROuter) -> (forall k, P (n, RInner k)) -> sd_part w h a s -> sd_part w' h' a s.
Proof.
  intros K P1 P2 P3. destruct s as [s|]; cbn.
  - intros [q [A B]]. exists q. split; [eapply at_keeps; eauto|eapply map_keeps; eauto].
  - apply (at_keeps P); auto.
Qed.
Lemma out_keeps (P : nat * role -> Prop) w h w' h' o m : keeps P w h w' h' -> (forall r, r <> RStruct -> P (n, r)) -> out_rel w h o m -> out_rel w' h' o m.
Proof.
  intros K HP [H1 [H2 [H3 [H4 [H5 [H6 [H7 H8]]]]]]].
  repeat match goal with |- _ /\ _ => split | |- out_rel _ _ _ _ => unfold out_rel end; try (eapply at_keeps; [exact K|apply HP; discriminate|assumption]).
  eapply sd_part_keeps; [exact K|apply HP; discriminate|apply HP; discriminate|intros k; apply HP; discriminate|exact H8].
Qed.
Lemma at_put w h a r c c' : at_ w h a r c -> at_ w (hput h a c') a r c'.
Proof. intros [H1 H2]. split; [exact H1|]. apply hget_put_same. eapply hget_lt; eauto. Qed.
Ltac oth K := eapply at_keeps; [exact K|cbn; congruence|assumption].
Ltac sdk K := eapply sd_part_keeps; [exact K|cbn; congruence|cbn; congruence|intros k0; cbn; congruence|assumption].
(* one cell of the object *)
Definition chg (w : owner) (h : heap) (o : addr) (m' : msg5424) (a : addr) (r : role) (c : cell) : Prop :=
  own_ok w h -> step_ok n n n w h w (hput h a c) /\ out_rel w (hput h a c) o m'.
Lemma chg_flags w h o m m' : out_rel w h o m -> o_timestamp m' = o_timestamp m -> o_hostname m' = o_hostname m -> o_appname m' = o_appname m ->
  o_procID m' = o_procID m -> o_msgID m' = o_msgID m -> o_message m' = o_message m -> o_sd m' = o_sd m ->
  chg w h o m' o ROut (KOut5 (o_prioritySet m') (o_timestampSet m') (o_hasElements m') (o_priority m') (o_version m')).
Proof.
  intros [H1 [H2 [H3 [H4 [H5 [H6 [H7 H8]]]]]]] E1 E2 E3 E4 E5 E6 E7 Ho. split; [eapply step_put; [exact Ho|apply H1|auto]|].
  pose proof (keeps_put w h o (n, ROut) (KOut5 (o_prioritySet m') (o_timestampSet m') (o_hasElements m') (o_priority m') (o_version m')) (proj1 H1)) as K.
  unfold out_rel. rewrite E1, E2, E3, E4, E5, E6, E7. repeat match goal with |- _ /\ _ => split end; try (oth K); [eapply at_put; exact H1|sdk K].
Qed.
Ltac chg1 H := intros Ho; split; [eapply step_put; [exact Ho|apply H|auto]|];
  match goal with |- out_rel ?w (hput ?h ?a ?c) _ _ => let K := fresh "K" in pose proof (keeps_put w h a _ c (proj1 H)) as K;
  unfold out_rel; cbn; repeat match goal with |- _ /\ _ => split end; try (oth K); [eapply at_put; exact H|sdk K] end.
Lemma chg_ts w h o m t : out_rel w h o m -> chg w h o (set_o_timestamp t m) (o + 1) RTs (KTime t).
Proof. intros [H1 [H2 [H3 [H4 [H5 [H6 [H7 H8]]]]]]]. chg1 H2. Qed.
Lemma chg_host w h o m t : out_rel w h o m -> chg w h o (set_o_hostname t m) (o + 2) RHost (KStr t).
Proof. intros [H1 [H2 [H3 [H4 [H5 [H6 [H7 H8]]]]]]]. chg1 H3. Qed.
Lemma chg_app w h o m t : out_rel w h o m -> chg w h o (set_o_appname t m) (o + 3) RApp (KStr t).
Proof. intros [H1 [H2 [H3 [H4 [H5 [H6 [H7 H8]]]]]]]. chg1 H4. Qed.
Lemma chg_proc w h o m t : out_rel w h o m -> chg w h o (set_o_procID t m) (o + 4) RProc (KStr t).
Proof. intros [H1 [H2 [H3 [H4 [H5 [H6 [H7 H8]]]]]]]. chg1 H5. Qed.
Lemma chg_mid w h o m t : out_rel w h o m -> chg w h o (set_o_msgID t m) (o + 5) RMid (KStr t).
Proof. intros [H1 [H2 [H3 [H4 [H5 [H6 [H7 H8]]]]]]]. chg1 H6. Qed.
Lemma chg_msg w h o m t : out_rel w h o m -> chg w h o (set_o_message t m) (o + 7) RMsg (KStr t).
Proof. intros [H1 [H2 [H3 [H4 [H5 [H6 [H7 H8]]]]]]]. chg1 H7. Qed.

(* the maps *)
Lemma out_sd w h w' h' o m s : out_rel w h o m -> keeps (fun l => snd l <> RSd /\ snd l <> ROuter /\ ~ inner_role (snd l)) w h w' h' -> sd_part w' h' (o + 6) s ->
  out_rel w' h' o (set_o_sd s m).
Proof.
  intros [H1 [H2 [H3 [H4 [H5 [H6 [H7 H8]]]]]]] K S. unfold out_rel. cbn.
  repeat match goal with |- _ /\ _ => split end; try (eapply at_keeps; [exact K|cbn; repeat split; try discriminate; tauto|assumption]). exact S.
Qed.
Lemma sd_init w h o m : own_ok w h -> out_rel w h o m ->
  step_ok n n n w h (own_new w (length h) n ROuter) (hput (h ++ [KOuter []]) (o + 6) (KRef (Some (length h)))) /\
  out_rel (own_new w (length h) n ROuter) (hput (h ++ [KOuter []]) (o + 6) (KRef (Some (length h)))) o (set_o_sd (Some []) m).
Proof.
  intros Ho H. set (w1 := own_new w (length h) n ROuter). set (h1 := h ++ [KOuter []]).
  assert (S1 : step_ok n n n w h w1 h1) by (apply step_alloc; auto).
  assert (K1 : keeps (fun _ => True) w h w1 h1) by (apply keeps_new; exact Ho).
  assert (H1 : out_rel w1 h1 o m) by (eapply out_keeps; [exact K1|intros; exact I|exact H]).
  assert (W : at_ w1 h1 (length h) ROuter (KOuter [])) by (split; [unfold w1, own_new; rewrite Nat.eqb_refl; reflexivity|apply hget_new]).
  destruct H1 as [A1 [A2 [A3 [A4 [A5 [A6 [A7 A8]]]]]]].
  assert (A : exists c, at_ w1 h1 (o + 6) RSd c) by (destruct (o_sd m); cbn in A8; [destruct A8 as [q [A8 _]]|]; eexists; exact A8).
  destruct A as [c A]. split; [eapply step_trans; [exact S1|]; eapply step_put; [apply S1|apply A|auto]|].
  pose proof (keeps_put w1 h1 (o + 6) (n, RSd) (KRef (Some (length h))) (proj1 A)) as K.
  eapply (out_sd w1 h1); [repeat (split; [eassumption|]); exact A8| |].
  - eapply keeps_weaken; [|exact K]. intros [l1 l2]; cbn. intuition congruence.
  - exists (length h). split; [eapply at_put; exact A|]. exists [].
    assert (W' : at_ w1 (hput h1 (o + 6) (KRef (Some (length h)))) (length h) ROuter (KOuter [])) by (eapply at_keeps; [exact K|cbn; congruence|exact W]).
    split; [apply W'|]. split; [apply W'|]. repeat split.
Qed.
(* changing the maps behind a reference that stays *)
Lemma sd_maps w h w' h' o m q s s' : out_rel w h o m -> o_sd m = Some s -> hget h (o + 6) = Some (KRef (Some q)) ->
  keeps (fun l => snd l <> ROuter /\ ~ inner_role (snd l)) w h w' h' -> map_rel w' n h' q s' -> out_rel w' h' o (set_o_sd (Some s') m).
Proof.
  intros H Hs Hq K M. eapply out_sd; [exact H| |].
  - eapply keeps_weaken; [|exact K]. tauto.
  - destruct H as [H1 [H2 [H3 [H4 [H5 [H6 [H7 H8]]]]]]]. rewrite Hs in H8. destruct H8 as [q' [A B]].
    assert (q' = q) by (destruct A as [_ A]; congruence). subst q'. exists q. split; [|exact M].
    eapply at_keeps; [exact K|cbn; split; [discriminate|tauto]|exact A].
Qed.
Lemma map_newelem w h q sd om id : own_ok w h -> map_rel w n h q sd -> hget h q = Some (KOuter om) ->
  let w' := own_new w (length h) n (RInner id) in let h' := hput (h ++ [KInner []]) q (KOuter (mset om id (length h))) in
  step_ok n n n w h w' h' /\ keeps (fun l => snd l <> ROuter /\ ~ inner_role (snd l)) w h w' h' /\ map_rel w' n h' q (mset sd id []).
Proof.
  intros Ho [om' [M1 [M2 [M3 [M4 M5]]]]] Hom. rewrite Hom in M2. injection M2 as <-.
  set (w1 := own_new w (length h) n (RInner id)). set (h1 := h ++ [KInner []]). cbv zeta.
  assert (S1 : step_ok n n n w h w1 h1) by (apply step_alloc; auto).
  assert (K1 : keeps (fun _ => True) w h w1 h1) by (apply keeps_new; exact Ho).
  assert (W : w1 q = Some (n, ROuter)) by (destruct (K1 _ _ M1 I); assumption).
  set (h2 := hput h1 q (KOuter (mset om id (length h)))).
  assert (S2 : step_ok n n n w1 h1 w1 h2) by (eapply step_put; [apply S1|exact W|auto]).
  assert (K2 : keeps (fun l => snd l <> ROuter) w1 h1 w1 h2).
  { eapply keeps_weaken; [|apply keeps_put; exact W]. intros [q1 q2]; cbn. congruence. }
  assert (K : keeps (fun l => snd l <> ROuter) w h w1 h2) by (eapply keeps_trans; [|exact K2]; eapply keeps_weaken; [|exact K1]; intros l _; exact I).
  split; [eapply step_trans; eauto|]. split; [eapply keeps_weaken; [|exact K]; tauto|].
  exists (mset om id (length h)). split; [exact W|]. split.
  { unfold h2. apply hget_put_same. unfold h1. rewrite app_length. assert (q < length h) by (eapply hget_lt; eauto). lia. }
  split; [apply mset_sorted; exact M3|]. split; [apply mset_sorted; exact M4|].
  intros k. destruct (list_eq_dec Byte.byte_eq_dec k id) as [->|Hk].
  - rewrite !mget_mset_same. cbn. split; [unfold w1, own_new; rewrite Nat.eqb_refl; reflexivity|].
    assert (X : w1 (length h) = Some (n, RInner id)) by (unfold w1, own_new; rewrite Nat.eqb_refl; reflexivity).
    destruct (K2 _ _ X) as [_ ->]; [discriminate|apply hget_new].
  - rewrite !mget_mset_other by exact Hk. eapply elem_keeps; [exact K|discriminate|apply M5].
Qed.
Lemma map_delelem w h q sd om id : own_ok w h -> map_rel w n h q sd -> hget h q = Some (KOuter om) ->
  let h' := hput h q (KOuter (mdel om id)) in
  step_ok n n n w h w h' /\ keeps (fun l => snd l <> ROuter /\ ~ inner_role (snd l)) w h w h' /\ map_rel w n h' q (mdel sd id).
Proof.
  intros Ho [om' [M1 [M2 [M3 [M4 M5]]]]] Hom. rewrite Hom in M2. injection M2 as <-. cbv zeta.
  assert (K : keeps (fun l => snd l <> ROuter) w h w (hput h q (KOuter (mdel om id)))).
  { eapply keeps_weaken; [|apply keeps_put; exact M1]. intros [q1 q2]; cbn. congruence. }
  split; [eapply step_put; eauto|]. split; [eapply keeps_weaken; [|exact K]; tauto|].
  exists (mdel om id). split; [exact M1|]. split; [apply hget_put_same; eapply hget_lt; eauto|].
  split; [apply mdel_sorted; exact M3|]. split; [apply mdel_sorted; exact M4|].
  intros k. destruct (list_eq_dec Byte.byte_eq_dec k id) as [->|Hk].
  - rewrite !mget_mdel_same by assumption. exact I.
  - rewrite !mget_mdel_other by assumption. eapply elem_keeps; [exact K|discriminate|apply M5].
Qed.
Lemma map_inner w h q sd om id a e e' : own_ok w h -> map_rel w n h q sd -> hget h q = Some (KOuter om) -> mget om id = Some a -> mget sd id = Some e ->
  let h' := hput h a (KInner e') in
  step_ok n n n w h w h' /\ keeps (fun l => snd l <> ROuter /\ ~ inner_role (snd l)) w h w h' /\ map_rel w n h' q (mset sd id e').
Proof.
  intros Ho [om' [M1 [M2 [M3 [M4 M5]]]]] Hom Ha He. rewrite Hom in M2. injection M2 as <-. cbv zeta.
  pose proof (M5 id) as Mi. rewrite Ha, He in Mi. destruct Mi as [Q1 Q2].
  assert (K : keeps (fun l => snd l <> RInner id) w h w (hput h a (KInner e'))).
  { eapply keeps_weaken; [|apply keeps_put; exact Q1]. intros [q1 q2]; cbn. congruence. }
  split; [eapply step_put; eauto|]. split.
  - eapply keeps_weaken; [|exact K]. cbn. intros [o0 []]; cbn; intuition congruence.
  - exists om. split; [exact M1|]. split; [destruct (K _ _ M1) as [_ ->]; [discriminate|exact Hom]|]. split; [exact M3|]. split; [apply mset_sorted; exact M4|].
    intros k. destruct (list_eq_dec Byte.byte_eq_dec k id) as [->|Hk].
    + rewrite Ha, mget_mset_same. cbn. split; [exact Q1|]. apply hget_put_same. eapply hget_lt; eauto.
    + rewrite mget_mset_other by exact Hk. eapply elem_keeps; [exact K|cbn; congruence|apply M5].
Qed.
Lemma map_empty w h q sd om : map_rel w n h q sd -> hget h q = Some (KOuter om) -> (om = [] <-> sd = []).
Proof.
  intros [om' [M1 [M2 [M3 [M4 M5]]]]] Hom. rewrite Hom in M2. injection M2 as <-. split; intros ->.
  - destruct sd as [|[k e] sd]; [reflexivity|]. specialize (M5 k). cbn [mget] in M5. rewrite bcmp_refl in M5. destruct M5.
  - destruct om as [|[k e] om]; [reflexivity|]. specialize (M5 k). cbn [mget] in M5. rewrite bcmp_refl in M5. destruct M5.
Qed.
(* what the program finds behind output.structuredData *)
Lemma sd_found w h o m id : out_rel w h o m ->
  match o_sd m with
  | None => h_sd h o = None
  | Some s => exists q om, h_sd h o = Some q /\ hget h (o + 6) = Some (KRef (Some q)) /\ hget h q = Some (KOuter om) /\ map_rel w n h q s /\
      h_elem h (Some q) id = mget om id /\
      match mget s id with Some e => exists a, mget om id = Some a /\ hget h a = Some (KInner e) | None => mget om id = None end
  end.
Proof.
  intros [H1 [H2 [H3 [H4 [H5 [H6 [H7 H8]]]]]]]. unfold h_sd. destruct (o_sd m) as [s|]; cbn in H8.
  - destruct H8 as [q [[A1 A2] M]]. pose proof M as [om [M1 [M2 [M3 [M4 M5]]]]]. exists q, om. rewrite A2. split; [reflexivity|]. split; [reflexivity|]. split; [exact M2|]. split; [exact M|].
    unfold h_elem. rewrite M2. split; [reflexivity|]. specialize (M5 id). destruct (mget om id) as [a|], (mget s id) as [e|]; cbn in M5; try tauto. exists a. split; [reflexivity|apply M5].
  - destruct H8 as [_ ->]. reflexivity.
Qed.
End S.
