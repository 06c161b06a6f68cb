(* The goto program of builder.go run on the heap, against the same program run on values. *)
From Verif Require Import Bytes GoMap GoTime Common GotoLang M5424Def M5424 BuilderBaseDef GenBuilder ABuilder MBuilder RefBuilder Heap HBuilder SpecHeap HOwn HRefB.
Local Open Scope nat_scope.

(* definite assignment: e, tx tell whether the variables elements and text have been assigned since the last write;
   n: sm.StructuredData is known to be nil *)
Definition need (a : act) (e tx n : bool) : bool :=
  match a with BSdInit => n | BIdLookup | BSdNewElem | BSdNewParam => e | BTextStrip => tx | BSdSetParam => e && tx | _ => true end.
Definition post_e (a : act) (e : bool) : bool :=
  match a with
  | BElements => true
  | BPb | BBackAppend | BTimeParse | BSLocal | BIdLocal | BIdLookup | BTextLocal => e
  | _ => false end.
Definition post_t (a : act) (t : bool) : bool :=
  match a with
  | BTextLocal | BTextStrip => true
  | BPb | BBackAppend | BTimeParse | BSLocal | BIdLocal | BIdLookup | BElements => t
  | _ => false end.
Definition is_nil (c : cnd) : bool := match c with CSdNil => true | _ => false end.
Fixpoint flow (e tx n : bool) (t : btr) : bool :=
  match t with
  | TNext _ | TOut _ | TBad => true
  | TAct a t => need a e tx n && flow (post_e a e) (post_t a tx) false t
  | TIf c t u => flow e tx (is_nil c) t && flow e tx false u
  end.

Section S.
Variables (i p g : nat) (w : owner) (h : heap) (a : addr) (d : slice) (cid cpn : bytes) (data : bytes).
Hypothesis Hd : slice_read h d = Some data.
Hypothesis Hw : w (s_arr d) = None.

Record brel (e tx : bool) (x : bvars) (y : hb) : Prop := BRel {
  br_step : sstep i p g w h a (b_sm x) (hb_heap y);
  br_pb : hb_pb y = b_pb x; br_back : hb_back y = b_back x; br_t : hb_t y = b_t x; br_s : hb_s y = b_s x; br_id : hb_id y = b_id x; br_ok : hb_ok y = b_ok x;
  br_cid : b_cid x = cid; br_cpn : b_cpn x = cpn;
  br_e : e = true -> exists r o, sdp (hb_heap y) a = Some r /\ hget (hb_heap y) r = Some (KRef (Some o)) /\ hb_elements y = Some o;
  br_tx : tx = true -> oslice_read (hb_heap y) (hb_text y) = Some (b_text x) }.
Lemma brel_weaken e tx x y : brel e tx x y -> brel false false x y.
Proof. intros []. constructor; auto; discriminate. Qed.
Lemma d_read h' m' : sstep i p g w h a m' h' -> slice_read h' d = Some data.
Proof.
  intros [w' [S _]]. rewrite <- Hd. unfold slice_read. rewrite (st_frame _ _ _ _ _ _ _ S); [reflexivity| |rewrite Hw; discriminate|rewrite Hw; discriminate].
  unfold slice_read in Hd. destruct (hget h (s_arr d)) eqn:E; [|discriminate]. eapply hget_lt; eauto.
Qed.
Definition orel {X Y} (R : X -> Y -> Prop) (u : option X) (v : option Y) : Prop :=
  match u, v with Some x, Some y => R x y | None, None => True | _, _ => False end.

Lemma string_rel (R : bvars -> hb -> Prop) e tx x y q (f : bytes -> option bvars) (k : bytes -> option hb) : brel e tx x y ->
  (forall t, zslice data (b_pb x) q = Some t -> orel R (f t) (k t)) ->
  orel R (match zslice data (b_pb x) q with Some t => f t | None => None end) (h_string d q y k).
Proof.
  intros B H. unfold h_string. rewrite (br_pb _ _ _ _ B). pose proof (slice_read_sub _ _ _ (b_pb x) q (d_read _ _ (br_step _ _ _ _ B))) as S.
  destruct (zslice data (b_pb x) q) as [t|]; [|rewrite S; exact I]. destruct S as [u [-> ->]]. apply H. reflexivity.
Qed.
Lemma string_rel' (R : bvars -> hb -> Prop) e tx x y q (f : bytes -> bvars) (k : bytes -> hb) : brel e tx x y ->
  (forall t, R (f t) (k t)) ->
  orel R (with_btext data q x f) (h_string d q y (fun t => Some (k t))).
Proof. intros B H. unfold with_btext. apply (string_rel R e tx x y q (fun t => Some (f t)) (fun t => Some (k t)) B). intros t _. apply H. Qed.

Lemma heap_step (x : bvars) (y : hb) e tx m' (r : option heap) : brel e tx x y ->
  (forall w1, own_ok w1 (hb_heap y) -> msg_rel i p g w1 (hb_heap y) a (b_sm x) -> exists h', r = Some h' /\ sstep i p g w1 (hb_heap y) a m' h') ->
  exists h', r = Some h' /\ brel false false (set_b_sm m' x) (set_hb_heap h' y).
Proof.
  intros B H. destruct (br_step _ _ _ _ B) as [w1 [S1 [M1 P1]]]. destruct (H w1 (st_ok _ _ _ _ _ _ _ S1) M1) as [h' [-> S2]].
  exists h'. split; [reflexivity|]. destruct B. constructor; cbn; auto; try discriminate.
  destruct S2 as [w2 [S2 [M2 P2]]]. exists w2. split; [eapply step_trans; eauto|]. split; [exact M2|].
  intros r Hr. destruct (P1 r Hr) as [Q1 Q2]. destruct (P2 r Q1) as [Q3 Q4]. split; [exact Q3|congruence].
Qed.
Ltac upd B := let B' := fresh in pose proof B as B'; destruct B'; constructor; cbn; auto; try congruence; try discriminate.

Lemma put_param_sim e x y name v : e = true -> forall tx, brel e tx x y ->
  orel (brel false false) (put_elem cid name v x) (on_heap y (h_put_param (hb_heap y) (hb_elements y) cid name v)).
Proof.
  intros -> tx B. destruct (br_e _ _ _ _ B eq_refl) as [r [o [Hp [Hr He]]]]. destruct (br_step _ _ _ _ B) as [w1 [S1 [M1 P1]]].
  unfold put_elem, h_put_param. rewrite He. pose proof (sdp_some _ _ _ _ _ _ _ M1) as Hs.
  destruct (structuredData (b_sm x)) as [sd|] eqn:Es; [|congruence].
  destruct (elem_found _ _ _ _ _ _ _ _ _ _ cid M1 Hp Hr Es) as [om [Ho [Hel Hm]]]. rewrite Hel.
  destruct (mget sd cid) as [el|] eqn:Ec.
  - destruct Hm as [q [Hq Hi]]. rewrite Hq, Hi. cbn [on_heap orel].
    assert (E : exists h', Some (hput (hb_heap y) q (KInner (mset el name v))) = Some h' /\ brel false false (bupd (set_structuredData (Some (mset sd cid (mset el name v)))) x) (set_hb_heap h' y)).
    { apply (heap_step x y true tx _ _ B). intros w2 O2 M2. eexists; split; [reflexivity|]. eapply inner_ok; eauto. }
    destruct E as [h' [E1 E2]]. injection E1 as <-. exact E2.
  - rewrite Hm. exact I.
Qed.

Lemma act_sim c q x y e tx n : need c e tx n = true -> (n = true -> structuredData (b_sm x) = None) -> brel e tx x y ->
  orel (brel (post_e c e) (post_t c tx)) (BuilderBaseDef.sem_act c data q x) (hsem a d cid cpn c data q y).
Proof.
  intros Hn Hnil B. pose proof (br_t _ _ _ _ B) as Ht. pose proof (br_s _ _ _ _ B) as Hs. pose proof (br_id _ _ _ _ B) as Hid.
  destruct c; cbn [need post_e post_t BuilderBaseDef.sem_act hsem] in *.
  - upd B. 
  - upd B.
  - apply (string_rel' _ e tx x y q _ _ B). intros t. upd B.
  - assert (E : exists h', h_point (hb_heap y) a (KTime (match hb_t y with Some t => t | None => time_zero end)) set_p_timestamp = Some h' /\
       brel false false (bupd (set_timestamp (Some (match b_t x with Some t => t | None => time_zero end))) x) (set_hb_heap h' y)).
    { apply (heap_step x y e tx _ _ B). intros w1 O1 M1. rewrite Ht. apply point_ts; auto. }
    destruct E as [h' [-> E]]. destruct (b_t x); exact E.
  - apply (string_rel' _ e tx x y q _ _ B). intros t. upd B.
  - destruct (heap_step x y e tx (set_hostname (Some (b_s x)) (b_sm x)) (h_point (hb_heap y) a (KStr (hb_s y)) set_p_hostname) B) as [h' [-> E]]; [|exact E]. intros w1 O1 M1. rewrite Hs. apply point_host; auto.
  - destruct (heap_step x y e tx (set_appname (Some (b_s x)) (b_sm x)) (h_point (hb_heap y) a (KStr (hb_s y)) set_p_appname) B) as [h' [-> E]]; [|exact E]. intros w1 O1 M1. rewrite Hs. apply point_app; auto.
  - destruct (heap_step x y e tx (set_procID (Some (b_s x)) (b_sm x)) (h_point (hb_heap y) a (KStr (hb_s y)) set_p_procID) B) as [h' [-> E]]; [|exact E]. intros w1 O1 M1. rewrite Hs. apply point_proc; auto.
  - destruct (heap_step x y e tx (set_msgID (Some (b_s x)) (b_sm x)) (h_point (hb_heap y) a (KStr (hb_s y)) set_p_msgID) B) as [h' [-> E]]; [|exact E]. intros w1 O1 M1. rewrite Hs. apply point_mid; auto.
  - destruct (heap_step x y e tx (set_msg (Some (b_s x)) (b_sm x)) (h_point (hb_heap y) a (KStr (hb_s y)) set_p_message) B) as [h' [-> E]]; [|exact E]. intros w1 O1 M1. rewrite Hs. apply point_msg; auto.
  - (* BSdInit: only ever executed when it is nil *)
    specialize (Hnil Hn). destruct (br_step _ _ _ _ B) as [w1 [S1 [M1 P1]]]. pose proof (sdp_some _ _ _ _ _ _ _ M1) as Hsd. rewrite Hnil in Hsd. clear S1 P1.
    destruct M1 as [b [sd [W1 [W2 [W3 W4]]]]]. rewrite W2. unfold sdp in Hsd. rewrite W2 in Hsd. subst sd. unfold alloc. cbn [orel].
    destruct (heap_step x y e tx (set_structuredData (Some []) (b_sm x)) (Some (hput ((hb_heap y ++ [KOuter []]) ++ [KRef (Some (length (hb_heap y)))]) a (KMsg5 b (version (b_sm x)) (Some (length (hb_heap y ++ [KOuter []])))))) B) as [h' [E1 E2]].
    { intros w2 O2 M2. eexists; split; [reflexivity|]. eapply sdinit_ok; eauto. }
    injection E1 as <-. exact E2.
  - apply (string_rel' _ e tx x y q _ _ B). intros t. upd B.
  - destruct (br_step _ _ _ _ B) as [w1 [S1 [M1 P1]]]. pose proof (sdp_some _ _ _ _ _ _ _ M1) as Hsd.
    unfold h_elements. destruct M1 as [b [sd [W1 [W2 [W3 W4]]]]]. rewrite W2.
    destruct (structuredData (b_sm x)) as [m|] eqn:Es; destruct sd as [r|]; cbn in W4; try tauto.
    destruct W4 as [o [_ [Hr _]]]. rewrite Hr. cbn. upd B. intros _. exists r, o. unfold sdp. rewrite W2. auto.
  - destruct (br_e _ _ _ _ B Hn) as [r [o [Hp [Hr He]]]]. destruct (br_step _ _ _ _ B) as [w1 [S1 [M1 P1]]].
    pose proof (sdp_some _ _ _ _ _ _ _ M1) as Hsd. destruct (structuredData (b_sm x)) as [sd|] eqn:Es; [|congruence].
    destruct (elem_found _ _ _ _ _ _ _ _ _ _ (b_id x) M1 Hp Hr Es) as [om [Ho [Hel Hm]]].
    cbn. assert (Hok : match h_elem (hb_heap y) (hb_elements y) (hb_id y) with Some _ => true | None => false end = match mget sd (b_id x) with Some _ => true | None => false end).
    { rewrite He, Hid, Hel. destruct (mget sd (b_id x)); [destruct Hm as [q' [-> _]]; reflexivity|rewrite Hm; reflexivity]. }
    rewrite Hok. upd B.
  - destruct (br_e _ _ _ _ B Hn) as [r [o [Hp [Hr He]]]]. destruct (br_step _ _ _ _ B) as [w1 [S1 [M1 P1]]].
    pose proof (sdp_some _ _ _ _ _ _ _ M1) as Hsd. destruct (structuredData (b_sm x)) as [sd|] eqn:Es; [|congruence].
    destruct (elem_found _ _ _ _ _ _ _ _ _ _ (b_id x) M1 Hp Hr Es) as [om [Ho [Hel Hm]]]. rewrite He, Ho, Hid. unfold alloc. cbn [orel].
    destruct (heap_step x y e tx (set_structuredData (Some (mset sd (b_id x) [])) (b_sm x)) (Some (hput (hb_heap y ++ [KInner []]) o (KOuter (mset om (b_id x) (length (hb_heap y)))))) B) as [h' [E1 E2]].
    { intros w2 O2 M2. eexists; split; [reflexivity|]. eapply newelem_ok; eauto. }
    injection E1 as <-. exact E2.
  - rewrite (br_cid _ _ _ _ B). eapply string_rel; [exact B|]. intros t _. eapply put_param_sim; [exact Hn|exact B].
  - unfold with_btext. pose proof (slice_read_sub _ _ _ (b_pb x) q (d_read _ _ (br_step _ _ _ _ B))) as S. rewrite (br_pb _ _ _ _ B).
    destruct (zslice data (b_pb x) q) as [t|]; [|rewrite S; exact I]. destruct S as [u [-> Hu]]. upd B.
  - rewrite (br_back _ _ _ _ B), (br_pb _ _ _ _ B). pose proof (h_remove_bytes_ok _ _ _ (b_back x) (b_pb x) (br_tx _ _ _ _ B Hn)) as R.
    destruct (remove_bytes (b_text x) (b_back x) (b_pb x)) as [t|]; [|rewrite R; exact I]. destruct R as [r [s [-> Hr]]].
    destruct (br_step _ _ _ _ B) as [w1 [S1 [M1 P1]]]. cbn.
    destruct (mrel_grow i p g w1 (hb_heap y) a (b_sm x) r (st_ok _ _ _ _ _ _ _ S1) M1) as [w2 [S2 [M2 P2]]].
    upd B. exists w2. split; [eapply step_trans; eauto|]. split; [exact M2|].
    intros q0 Hq0. destruct (P1 q0 Hq0) as [Q1 Q2]. destruct (P2 q0 Q1) as [Q3 Q4]. split; [exact Q3|congruence].
  - apply andb_true_iff in Hn as [He Ht2]. rewrite (br_tx _ _ _ _ B Ht2), (br_cid _ _ _ _ B), (br_cpn _ _ _ _ B). eapply put_param_sim; [exact He|exact B].
Qed.

Lemma cnd_sim c x y e tx : brel e tx x y -> BuilderBaseDef.sem_cnd c x = hcnd a c y.
Proof.
  intros B. destruct c; cbn.
  - rewrite (br_t _ _ _ _ B). reflexivity.
  - rewrite (br_s _ _ _ _ B). reflexivity.
  - rewrite (br_s _ _ _ _ B). reflexivity.
  - destruct (br_step _ _ _ _ B) as [w1 [S1 [[b [sd [W1 [W2 [W3 W4]]]]] P1]]]. rewrite W2. destruct (structuredData (b_sm x)), sd; cbn in W4; tauto || reflexivity.
  - rewrite (br_ok _ _ _ _ B). reflexivity.
  - rewrite (br_back _ _ _ _ B). reflexivity.
Qed.
(* outcomes of the two runs *)
Definition outrel (u : outcome bvars) (v : outcome hb) : Prop :=
  match u, v with
  | Out c x, Out c' y => c = c' /\ brel false false x y
  | Panic, Panic => True
  | NoFuel, NoFuel => True
  | _, _ => False
  end.
Notation vtx := (texec BuilderBaseDef.sem_act BuilderBaseDef.sem_cnd data).
Notation htx := (texec (hsem a d cid cpn) (hcnd a) data).
Lemma tree_sim (t : btr) q (n1 : bst -> bvars -> outcome bvars) (n2 : bst -> hb -> outcome hb) :
  (forall s x y, brel false false x y -> outrel (n1 s x) (n2 s y)) ->
  forall e tx n x y, flow e tx n t = true -> (n = true -> structuredData (b_sm x) = None) -> brel e tx x y -> outrel (vtx t q x n1) (htx t q y n2).
Proof.
  intros Hn. induction t as [s|c|c t IH|c t IHt u IHu|]; intros e tx n x y Hf Hnil B; cbn [flow texec] in *.
  - apply Hn. eapply brel_weaken; eauto.
  - split; [reflexivity|]. eapply brel_weaken; eauto.
  - apply andb_true_iff in Hf as [H1 H2]. pose proof (act_sim c q x y e tx n H1 Hnil B) as A.
    destruct (BuilderBaseDef.sem_act c data q x) as [x'|], (hsem a d cid cpn c data q y) as [y'|]; cbn in A; try tauto.
    eapply IH; [exact H2|discriminate|exact A].
  - apply andb_true_iff in Hf as [H1 H2]. rewrite <- (cnd_sim c x y e tx B). destruct (BuilderBaseDef.sem_cnd c x) eqn:Ec.
    + eapply IHt; [exact H1| |exact B]. destruct c; cbn; try discriminate. intros _. cbn in Ec. destruct (structuredData (b_sm x)); [discriminate|reflexivity].
    + eapply IHu; [exact H2|discriminate|exact B].
  - exact I.
Qed.
Lemma flow_acts l : forall e tx t, (forall c, In c l -> c = BPb \/ c = BBackAppend) -> flow e tx false t = true -> flow e tx false (bacts l t) = true.
Proof.
  induction l as [|c l IH]; intros e tx t Hl Ht; [exact Ht|]. cbn [bacts flow]. destruct (Hl c (or_introl eq_refl)) as [-> | ->]; cbn [need post_e post_t andb]; (apply IH; [intros c' Hc; apply Hl; right; exact Hc|exact Ht]).
Qed.
Lemma flow_val c l : (forall c, In c l -> c = BPb \/ c = BBackAppend) -> flow false false false (bval_t c l) = true.
Proof.
  intros Hl. unfold bval_t. destruct ((c =? 34) || (c =? 93))%N; [reflexivity|]. destruct (c =? 92)%N; [apply flow_acts; auto|].
  destruct (c <? 128)%N; [apply flow_acts; auto|]. destruct (A5424.utf_start c); [apply flow_acts; auto|reflexivity].
Qed.
Lemma flow_delta s b : flow false false false (bdelta s b) = true.
Proof.
  destruct s as [|n|wd k| | | |j| |]; cbn [bdelta].
  - destruct (A5424.is_dig (bN b)); reflexivity.
  - destruct (A5424.ts_next n (bN b)); reflexivity.
  - destruct (wchar wd (bN b) && (k <? wmax wd)%N); [|reflexivity]. destruct (k =? 0)%N; reflexivity.
  - apply flow_val. intros c [<-|[]]. auto.
  - apply flow_val. intros c [].
  - destruct ((bN b =? 34) || (bN b =? 92) || (bN b =? 93))%N; reflexivity.
  - destruct (A5424.utf_tail j (bN b)) as [[]|]; reflexivity.
  - reflexivity.
  - reflexivity.
Qed.
Lemma flow_edelta s : flow false false false (bedelta s) = true.
Proof.
  destruct s as [|n|wd k| | | |j| |]; cbn [bedelta]; try reflexivity.
  - destruct (n =? 578)%N; reflexivity.
  - destruct (k =? 0)%N; [reflexivity|]. destruct wd; reflexivity.
Qed.
Lemma run_sim rest : forall s q x y, brel false false x y ->
  outrel (arun BuilderBaseDef.sem_act BuilderBaseDef.sem_cnd bdelta bedelta data s q rest x) (arun (hsem a d cid cpn) (hcnd a) bdelta bedelta data s q rest y).
Proof.
  induction rest as [|b r IH]; intros s q x y B; cbn [arun].
  - eapply tree_sim; [|apply flow_edelta|discriminate|exact B]. intros. exact I.
  - eapply tree_sim; [|apply flow_delta|discriminate|exact B]. intros s' x' y' B'. apply IH. exact B'.
Qed.
End S.

Theorem h_bset_ok i p g w h a m ep gl v : own_ok w h -> msg_rel i p g w h a m ->
  match bset ep gl m v with
  | Some m' => exists h', h_bset ep gl h a v = Some h' /\ sstep i p g w h a m' h'
  | None => h_bset ep gl h a v = None
  end.
Proof.
  intros Ho H. unfold h_bset, alloc. set (h1 := h ++ [KArr v]). set (d := Slice (length h) 0 (length v) (length v)).
  assert (S1 : sstep i p g w h a m h1) by (apply mrel_grow; assumption).
  assert (M1 : msg_rel i p g w h1 a m) by (eapply (msg_keeps (fun _ => True)); [apply keeps_grow; exact Ho|exact I|intros; exact I|intros; exact I|exact H]).
  assert (O1 : own_ok w h1) by (intros b Hb; apply Ho in Hb; unfold h1; rewrite app_length; lia).
  assert (Hd : slice_read h1 d = Some v).
  { unfold slice_read, d, h1. cbn [s_arr s_off s_len]. rewrite hget_new. rewrite Nat.add_0_l, Nat.leb_refl. cbn [skipn]. rewrite firstn_all. reflexivity. }
  assert (Hw : w (s_arr d) = None).
  { cbn. destruct (w (length h)) eqn:E; [|reflexivity]. exfalso. assert (length h < length h) by (apply Ho; congruence). lia. }
  pose proof (run_sim i p g w h1 a d (currentid gl) (currentparamname gl) v Hd Hw v (entry_state ep) 0%Z (bstart gl m)
    (HB h1 0 [] None [] [] false None None)) as R.
  assert (B : brel i p g w h1 a (currentid gl) (currentparamname gl) false false (bstart gl m) (HB h1 0 [] None [] [] false None None)).
  { constructor; try reflexivity; try discriminate. cbn. apply sstep_refl; assumption. }
  specialize (R B). rewrite bset_run. replace (translate ep) with (bnum (entry_state ep)) by (destruct ep; reflexivity).
  rewrite (exec_arun (hsem a d (currentid gl) (currentparamname gl)) (hcnd a) codeB bnum bok bdelta bedelta simB v (entry_state ep) _ 0%N);
    [|apply entryB; destruct ep; cbn; tauto].
  destruct (arun BuilderBaseDef.sem_act BuilderBaseDef.sem_cnd bdelta bedelta v (entry_state ep) 0 v (bstart gl m)) as [c x| |],
    (arun (hsem a d (currentid gl) (currentparamname gl)) (hcnd a) bdelta bedelta v (entry_state ep) 0 v (HB h1 0 [] None [] [] false None None)) as [c' y| |]; cbn in R; try tauto; try reflexivity.
  destruct R as [_ R]. cbn [fin]. exists (hb_heap y). split; [reflexivity|]. 
  destruct (br_step _ _ _ _ _ _ _ _ _ _ _ _ R) as [w2 [S2 [M2 P2]]]. exists w2.
  split; [eapply step_trans; [apply step_grow; exact Ho|exact S2]|]. split; [exact M2|].
  intros r Hr. assert (Hr1 : sdp h1 a = Some r) by (unfold sdp in *; unfold h1; rewrite hget_old; [exact Hr|eapply mrel_lt; eauto]).
  destruct (P2 r Hr1) as [Q1 Q2]. split; [exact Q1|]. rewrite Q2. unfold h1. apply hget_old. apply Ho. rewrite (mrel_sdp _ _ _ _ _ _ _ _ H Hr). discriminate.
Qed.

Theorem h_set_parameter_ok i p g w h a m gl id name v : own_ok w h -> msg_rel i p g w h a m ->
  match set_parameter gl m id name v with
  | Some (gl', m') => exists h', h_set_parameter gl h a id name v = Some (gl', h') /\ sstep i p g w h a m' h'
  | None => h_set_parameter gl h a id name v = None
  end.
Proof.
  intros Ho H. unfold set_parameter, h_set_parameter. pose proof (h_bset_ok i p g w h a m EpSdid gl id Ho H) as A.
  destruct (bset EpSdid gl m id) as [m1|]; [|rewrite A; reflexivity]. destruct A as [h1 [-> A]].
  destruct A as [w1 [S1 [M1 P1]]]. assert (A : sstep i p g w h a m1 h1) by (exists w1; auto). pose proof (st_ok _ _ _ _ _ _ _ S1) as O1.
  pose proof (sdp_some i p g w1 h1 a m1 M1) as Hs. pose proof M1 as M1'. destruct M1' as [b [sd [W1 [W2 _]]]].
  destruct (structuredData m1) as [sm|] eqn:Esd.
  2:{ unfold sdp in Hs. rewrite W2 in Hs. subst sd. rewrite W2. exists h1. auto. }
  destruct Hs as [r [o [Hp Hr]]]. assert (sd = Some r) by (unfold sdp in Hp; rewrite W2 in Hp; exact Hp). subst sd. rewrite W2, Hr.
  destruct (elem_found i p g w1 h1 a m1 r o sm id M1 Hp Hr Esd) as [om [Hom [-> Hm]]].
  destruct (mget sm id) as [e|]; [|rewrite Hm; exists h1; auto]. destruct Hm as [q [-> Hq]].
  set (g1 := Globals id (currentparamname gl)).
  pose proof (h_bset_ok i p g w1 h1 a m1 EpSdpn g1 name O1 M1) as B.
  destruct (bset EpSdpn g1 m1 name) as [m2|]; [|rewrite B; reflexivity]. destruct B as [h2 [-> B]].
  destruct B as [w2 [S2 [M2 P2]]]. pose proof (st_ok _ _ _ _ _ _ _ S2) as O2.
  assert (B : sstep i p g w h a m2 h2).
  { exists w2. split; [eapply step_trans; eauto|]. split; [exact M2|]. intros x Hx. destruct (P1 x Hx) as [Q1 Q2]. destruct (P2 x Q1) as [Q3 Q4]. split; [exact Q3|congruence]. }
  destruct (P2 r Hp) as [Hp2 Hr2]. rewrite Hr in Hr2.
  pose proof (sdp_some i p g w2 h2 a m2 M2) as Hs2. destruct (structuredData m2) as [sm2|] eqn:Es2; [|congruence]. clear Hs2. cbn [sd_read].
  destruct (elem_found i p g w2 h2 a m2 r o sm2 id M2 Hp2 Hr2 Es2) as [om2 [Hom2 [-> Hm2]]].
  set (X := mget (match mget sm2 id with Some e => e | None => [] end) name).
  assert (HX : match mget om2 id with Some q => match hget h2 q with Some (KInner e) => mget e name | _ => None end | None => None end = X).
  { unfold X. destruct (mget sm2 id) as [e2|]; [destruct Hm2 as [q2 [-> ->]]; reflexivity|rewrite Hm2; reflexivity]. }
  rewrite HX. destruct X; [|exists h2; auto].
  pose proof (h_bset_ok i p g w2 h2 a m2 EpSdpv (Globals id name) v O2 M2) as C.
  destruct (bset EpSdpv (Globals id name) m2 v) as [m3|]; [|rewrite C; reflexivity]. destruct C as [h3 [-> [w3 [S3 [M3 P3]]]]].
  exists h3. split; [reflexivity|]. exists w3. split; [eapply step_trans; [eapply step_trans; eauto|exact S3]|]. split; [exact M3|].
  intros x Hx. destruct (P1 x Hx) as [Q1 Q2]. destruct (P2 x Q1) as [Q3 Q4]. destruct (P3 x Q3) as [Q5 Q6]. split; [exact Q5|congruence].
Qed.

Theorem h_step_ok i p g w h a m gl c : own_ok w h -> msg_rel i p g w h a m ->
  match step gl m c with
  | Some (gl', m') => exists h', h_step gl h a c = Some (gl', h') /\ sstep i p g w h a m' h'
  | None => h_step gl h a c = None
  end.
Proof.
  intros Ho H.
  assert (W : forall ep v, match with_g gl (bset ep gl m v) with
    | Some (gl', m') => exists h', h_with_g gl (h_bset ep gl h a v) = Some (gl', h') /\ sstep i p g w h a m' h' | None => h_with_g gl (h_bset ep gl h a v) = None end).
  { intros ep v. pose proof (h_bset_ok i p g w h a m ep gl v Ho H) as B. unfold with_g, h_with_g. destruct (bset ep gl m v) as [m'|]; [|rewrite B; reflexivity].
    destruct B as [h' [-> B]]. exists h'. auto. }
  destruct c; cbn [step h_step]; try apply W.
  - destruct (valid_priority v); cbn [h_with_g]; [|exists h; split; [reflexivity|apply sstep_refl; assumption]].
    destruct (compute_ok i p g w h a m v Ho H) as [h' [-> S]]. exists h'. auto.
  - destruct (valid_version v); cbn [h_with_g]; [|exists h; split; [reflexivity|apply sstep_refl; assumption]].
    destruct (set_version_ok i p g w h a m v Ho H) as [h' [-> S]]. exists h'. auto.
  - apply (h_set_parameter_ok i p g w h a m gl id name v Ho H).
Qed.
