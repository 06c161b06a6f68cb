(* Messages do not share memory with each other, with the inputs or with the parser. *)
From Verif Require Import Bytes GoMap GoTime Common M5424Def M5424 Thm5424 BuilderBaseDef MBuilder ThmBuilder Heap HBuilder HParse5424 SpecHeap SpecWorld MWorld
  HOwn HRefB HRefB2 HRef5424 HRef5424b HRef5424c.
Local Open Scope nat_scope.

(* ---------- lists ---------- *)
Lemma replace_len {A} (l : list A) k v : length (replace l k v) = length l.
Proof. revert k; induction l as [|x r IH]; intros [|k]; cbn; auto. Qed.
Lemma replace_same {A} (l : list A) k v : k < length l -> nth_error (replace l k v) k = Some v.
Proof. revert k; induction l as [|x r IH]; intros [|k] H; cbn in *; try lia; auto. apply IH. lia. Qed.
Lemma replace_other {A} (l : list A) k j v : k <> j -> nth_error (replace l k v) j = nth_error l j.
Proof. revert k j; induction l as [|x r IH]; intros [|k] [|j] H; cbn; auto; try lia. Qed.
Lemma nth_lt {A} (l : list A) k v : nth_error l k = Some v -> k < length l.
Proof. intros H. apply nth_error_Some. congruence. Qed.

(* ---------- writes through pointers ---------- *)
Section W.
Variable n : nat.
Notation mrel := (msg_rel n n n).
Lemma poke_ok {A} w h a m (p : base -> option addr) (fm : message -> option A) (sf : option A -> message -> message) (mk : A -> cell) r v b vr sd :
  own_ok w h -> w a = Some (n, RStruct) -> hget h a = Some (KMsg5 b vr sd) -> vr = version m -> base_rel w n h b m -> sd_rel w n h sd (structuredData m) ->
  ptr_role r -> ptr_rel w n r mk h (p b) (fm m) -> sf None m = m \/ fm m <> None ->
  (forall h', keeps (fun l => l <> (n, r)) w h w h' -> ptr_rel w n r mk h' (p b) (Some v) -> base_rel w n h' b (sf (Some v) m)) ->
  version (sf (Some v) m) = version m -> structuredData (sf (Some v) m) = structuredData m ->
  exists w', step_ok n n n w h w' (poke h (p b) (mk v)) /\ mrel w' (poke h (p b) (mk v)) a (sf (over (fm m) v) m).
Proof.
  intros Ho W G Ev B S Hr P N HB E1 E2. exists w. destruct (p b) as [x|] eqn:Ep; destruct (fm m) as [u|] eqn:Ef; cbn in P; try tauto; cbn [poke over].
  - destruct P as [P1 P2]. split; [eapply step_put; eauto|].
    assert (K : keeps (fun l => l <> (n, r)) w h w (hput h x (mk v))) by (apply keeps_put; exact P1).
    exists b, sd. split; [exact W|]. split.
    + destruct (K _ _ W) as [_ ->]; [intros E; injection E as <-; exact Hr|]. rewrite G, Ev, E1. reflexivity.
    + split; [apply HB; [exact K|cbn; split; [exact P1|apply hget_put_same; eapply hget_lt; eauto]]|]. rewrite E2.
      eapply sd_keeps; [exact K| |exact S]. intros q Hq E. injection E as ->. destruct r; contradiction.
  - split; [apply step_refl; exact Ho|]. destruct N as [-> | N]; [|congruence]. exists b, sd. subst vr. auto.
Qed.
End W.
Ltac pk H := let K := fresh "K" in let P := fresh "P" in intros ? K P;
  destruct H as [?B1 [?B2 [?B3 [?B4 [?B5 [?B6 [?B7 [?B8 ?B9]]]]]]]]; unfold base_rel; cbn;
  repeat match goal with |- ptr_rel _ _ _ _ _ _ _ /\ _ => split end; try exact P; (eapply ptr_keeps; [exact K|cbn; congruence|assumption]).
Ltac none m := destruct m as [f0 s0 p0 t0 h0 a0 pi0 mi0 ms0 v0 d0]; cbn; match goal with |- _ \/ ?x <> None => destruct x; [right; discriminate|left; reflexivity] end.

Lemma write_ok n w h a m u : own_ok w h -> msg_rel n n n w h a m ->
  exists h' w', h_write u h a = Some h' /\ step_ok n n n w h w' h' /\ msg_rel n n n w' h' a (write_value u m).
Proof.
  intros Ho H. pose proof H as [b [sd [W [G [B S]]]]]. unfold h_write. rewrite G.
  assert (Q : forall h', (exists w', step_ok n n n w h w' h' /\ msg_rel n n n w' h' a (write_value u m)) ->
    exists h'' w', Some h' = Some h'' /\ step_ok n n n w h w' h'' /\ msg_rel n n n w' h'' a (write_value u m)).
  { intros h' [w' X]. exists h', w'. auto. }
  destruct u; cbn [write_value] in *.
  - apply Q. eapply (poke_ok n w h a m p_facility facility set_facility KU8 RFac); [exact Ho|exact W|exact G|reflexivity|exact B|exact S|exact I|apply B|none m|pk B|reflexivity|reflexivity].
  - apply Q. eapply (poke_ok n w h a m p_severity severity set_severity KU8 RSev); [exact Ho|exact W|exact G|reflexivity|exact B|exact S|exact I|apply B|none m|pk B|reflexivity|reflexivity].
  - apply Q. eapply (poke_ok n w h a m p_priority priority set_priority KU8 RPri); [exact Ho|exact W|exact G|reflexivity|exact B|exact S|exact I|apply B|none m|pk B|reflexivity|reflexivity].
  - apply Q. eapply (poke_ok n w h a m p_timestamp timestamp set_timestamp KTime RTs); [exact Ho|exact W|exact G|reflexivity|exact B|exact S|exact I|apply B|none m|pk B|reflexivity|reflexivity].
  - apply Q. eapply (poke_ok n w h a m p_hostname hostname set_hostname KStr RHost); [exact Ho|exact W|exact G|reflexivity|exact B|exact S|exact I|apply B|none m|pk B|reflexivity|reflexivity].
  - apply Q. eapply (poke_ok n w h a m p_appname appname set_appname KStr RApp); [exact Ho|exact W|exact G|reflexivity|exact B|exact S|exact I|apply B|none m|pk B|reflexivity|reflexivity].
  - apply Q. eapply (poke_ok n w h a m p_procID procID set_procID KStr RProc); [exact Ho|exact W|exact G|reflexivity|exact B|exact S|exact I|apply B|none m|pk B|reflexivity|reflexivity].
  - apply Q. eapply (poke_ok n w h a m p_msgID msgID set_msgID KStr RMid); [exact Ho|exact W|exact G|reflexivity|exact B|exact S|exact I|apply B|none m|pk B|reflexivity|reflexivity].
  - apply Q. eapply (poke_ok n w h a m p_message msg set_msg KStr RMsg); [exact Ho|exact W|exact G|reflexivity|exact B|exact S|exact I|apply B|none m|pk B|reflexivity|reflexivity].
  - destruct sd as [r|], (structuredData m) as [s|] eqn:Es; cbn in S; try tauto; [|apply Q; exists w; split; [apply step_refl; exact Ho|exact H]].
    destruct S as [q [S1 [S2 S3]]]. rewrite S2. pose proof S3 as [om [M1 [M2 [M3 [M4 M5]]]]]. unfold h_put_param, h_elem. rewrite M2. pose proof (M5 id) as Mi.
    destruct (mget om id) as [c|] eqn:Eo, (mget s id) as [e|] eqn:Ee; cbn in Mi; try tauto; [|apply Q; exists w; split; [apply step_refl; exact Ho|exact H]].
    destruct Mi as [Mi1 Mi2]. rewrite Mi2. apply Q.
    destruct (inner_ok n n n w h a m r q s om id c e (mset e name v) Ho H) as [w' [X1 [X2 _]]]; auto; [unfold sdp; rewrite G; reflexivity|]. exists w'. auto.
  - destruct sd as [r|], (structuredData m) as [s|] eqn:Es; cbn in S; try tauto; [|apply Q; exists w; split; [apply step_refl; exact Ho|exact H]].
    destruct S as [q [S1 [S2 S3]]]. rewrite S2. pose proof S3 as [om [M1 [M2 _]]]. rewrite M2. apply Q. exists w.
    destruct (map_delelem n w h q s om id Ho S3 M2) as [X1 [X2 X3]]. split; [exact X1|].
    destruct (map_put n n n w h a m r q s (hput h q (KOuter (mdel om id))) w (mdel s id)) as [w' X]; auto.
    + unfold sdp. rewrite G. reflexivity.
    + eapply keeps_weaken; [|exact X2]. tauto.
    + destruct (keeps_refl (fun _ => True) w h a _ W I) as [_ _].
      assert (KW : w a = Some (n, RStruct) /\ hget (hput h q (KOuter (mdel om id))) a = hget h a) by (apply X2; [exact W|cbn; split; [discriminate|tauto]]).
      assert (KR : w r = Some (n, RSd) /\ hget (hput h q (KOuter (mdel om id))) r = hget h r) by (apply X2; [exact S1|cbn; split; [discriminate|tauto]]).
      exists b, (Some r). split; [exact W|]. split; [destruct KW as [_ ->]; exact G|]. split.
      * assert (B' : base_rel w n (hput h q (KOuter (mdel om id))) b m); [|exact B']. eapply base_keeps; [exact X2| |exact B]. intros t Ht; cbn. destruct t; cbn in *; split; try tauto; discriminate.
      * cbn. exists q. split; [exact S1|]. split; [destruct KR as [_ ->]; exact S2|exact X3].
Qed.

(* ---------- the invariant ---------- *)
Definition buf_rel (w : owner) (h : heap) (d : slice) (b : bytes) : Prop :=
  w (s_arr d) = None /\ hget h (s_arr d) = Some (KArr b) /\ s_off d = 0 /\ s_len d = length b.
Record inv (s : world) (v : values) : Prop := Inv {
  in_g : w_g s = v_g v; in_tr : w_trace s = v_trace v;
  in_ma : Forall2 (fun hm bc => clean hm /\ hm_best hm = fst bc /\ m_compliantMsg (hm_x hm) = snd bc) (w_mach s) (v_mach v);
  in_len : length (w_msgs s) = length (v_msgs v);
  in_nodup : NoDup (map s_arr (w_buf s));
  in_w : exists w, own_ok w (w_heap s) /\ (forall b x r, w b = Some (x, r) -> x < length (w_msgs s)) /\
    Forall2 (buf_rel w (w_heap s)) (w_buf s) (v_buf v) /\
    forall k a m, nth_error (w_msgs s) k = Some a -> nth_error (v_msgs v) k = Some m -> msg_rel k k k w (w_heap s) a m }.
Lemma Forall2_imp {A B} (P Q : A -> B -> Prop) l l' : (forall x y, P x y -> Q x y) -> Forall2 P l l' -> Forall2 Q l l'.
Proof. intros H F. induction F; constructor; auto. Qed.
Lemma Forall2_nth {A B} (P : A -> B -> Prop) l l' : Forall2 P l l' -> forall k,
  match nth_error l k, nth_error l' k with Some x, Some y => P x y | None, None => True | _, _ => False end.
Proof. intros F. induction F as [|x y l l' H F IH]; intros [|k]; cbn; auto. apply IH. Qed.
Lemma Forall2_replace {A B} (P : A -> B -> Prop) l l' k x y : Forall2 P l l' -> P x y -> Forall2 P (replace l k x) (replace l' k y).
Proof. intros F H. revert k. induction F; intros [|k]; cbn; constructor; auto. Qed.
Lemma Forall2_snoc {A B} (P : A -> B -> Prop) l l' x y : Forall2 P l l' -> P x y -> Forall2 P (l ++ [x]) (l' ++ [y]).
Proof. intros F H. apply Forall2_app; auto. Qed.
Lemma nth_snoc {A} (l : list A) x k y : nth_error (l ++ [x]) k = Some y -> nth_error l k = Some y \/ k = length l /\ x = y.
Proof.
  intros H. destruct (Nat.lt_ge_cases k (length l)) as [L|L]; [rewrite nth_error_app1 in H by exact L; auto|].
  rewrite nth_error_app2 in H by exact L. right. destruct (k - length l) as [|j] eqn:E; cbn in H; [|destruct j; discriminate].
  injection H as <-. split; [lia|reflexivity].
Qed.
Lemma NoDup_snoc {A} (l : list A) x : NoDup l -> ~ In x l -> NoDup (l ++ [x]).
Proof.
  induction l as [|y r IH]; cbn; intros H N; [constructor; [intros []|constructor]|]. inversion H; subst.
  constructor; [|apply IH; tauto]. rewrite in_app_iff. cbn. intros [E|[E|[]]]; [contradiction|]. subst. tauto.
Qed.
(* memory that nobody owns, or that another message owns, is kept *)
Lemma buf_step n w h w' h' d b : own_ok w h -> step_ok n n n w h w' h' -> buf_rel w h d b -> buf_rel w' h' d b.
Proof.
  intros Ho S [B1 [B2 B3]]. assert (L : s_arr d < length h) by (eapply hget_lt; eauto). split; [rewrite (st_old _ _ _ _ _ _ _ S) by exact L; exact B1|].
  split; [|exact B3]. rewrite (st_frame _ _ _ _ _ _ _ S); [exact B2|exact L| |]; intros r; congruence.
Qed.
Lemma msg_step n k w h w' h' a m : own_ok w h -> step_ok n n n w h w' h' -> k <> n -> msg_rel k k k w h a m -> msg_rel k k k w' h' a m.
Proof. intros Ho S N H. eapply msg_keeps; [eapply step_keeps; eauto|cbn; auto..|exact H]. Qed.

(* an operation on message k *)
Lemma inv_msg s v k a m m' h' w w' g' : nth_error (w_msgs s) k = Some a -> nth_error (v_msgs v) k = Some m -> inv s v ->
  own_ok w (w_heap s) -> (forall b x r, w b = Some (x, r) -> x < length (w_msgs s)) -> Forall2 (buf_rel w (w_heap s)) (w_buf s) (v_buf v) ->
  (forall k a m, nth_error (w_msgs s) k = Some a -> nth_error (v_msgs v) k = Some m -> msg_rel k k k w (w_heap s) a m) ->
  step_ok k k k w (w_heap s) w' h' -> msg_rel k k k w' h' a m' ->
  inv (World h' (w_mach s) (w_buf s) (w_msgs s) g' (w_trace s)) (Values (v_mach v) (v_buf v) (replace (v_msgs v) k m') g' (v_trace v)).
Proof.
  intros Ha Hm I Ho Hx HB HM S M. destruct I. constructor; cbn; auto; [rewrite replace_len; assumption|].
  exists w'. split; [apply S|]. split; [|split].
  - intros b x r Hb. destruct (Nat.lt_ge_cases b (length (w_heap s))) as [L|L].
    + rewrite (st_old _ _ _ _ _ _ _ S) in Hb by exact L. eapply Hx; eauto.
    + destruct (st_new _ _ _ _ _ _ _ S b x r L Hb) as [-> | ->]; eapply nth_lt; eauto.
  - eapply Forall2_imp; [|exact HB]. intros d b. eapply buf_step; eauto.
  - intros j c mj Hc Hj. destruct (Nat.eq_dec k j) as [->|N].
    + rewrite replace_same in Hj by (eapply nth_lt; eauto). injection Hj as <-. rewrite Ha in Hc. injection Hc as <-. exact M.
    + rewrite replace_other in Hj by exact N. eapply msg_step; eauto.
Qed.
(* a new message *)
Lemma inv_new s v a m h' w w' ma mav tr : inv s v -> 
  Forall2 (fun hm bc => clean hm /\ hm_best hm = fst bc /\ m_compliantMsg (hm_x hm) = snd bc) ma mav ->
  own_ok w (w_heap s) -> (forall b x r, w b = Some (x, r) -> x < length (w_msgs s)) -> Forall2 (buf_rel w (w_heap s)) (w_buf s) (v_buf v) ->
  (forall k a m, nth_error (w_msgs s) k = Some a -> nth_error (v_msgs v) k = Some m -> msg_rel k k k w (w_heap s) a m) ->
  let n := length (w_msgs s) in step_ok n n n w (w_heap s) w' h' -> msg_rel n n n w' h' a m ->
  inv (World h' ma (w_buf s) (w_msgs s ++ [a]) (w_g s) tr) (Values mav (v_buf v) (v_msgs v ++ [m]) (v_g v) tr).
Proof.
  intros I Hma Ho Hx HB HM n S M. destruct I. constructor; cbn; auto; [rewrite !app_length; cbn; congruence|].
  exists w'. split; [apply S|]. rewrite app_length. cbn [length]. split; [|split].
  - intros b x r Hb. destruct (Nat.lt_ge_cases b (length (w_heap s))) as [L|L].
    + rewrite (st_old _ _ _ _ _ _ _ S) in Hb by exact L. apply Hx in Hb. lia.
    + destruct (st_new _ _ _ _ _ _ _ S b x r L Hb) as [-> | ->]; unfold n; lia.
  - eapply Forall2_imp; [|exact HB]. intros d b. eapply buf_step; eauto.
  - intros j c mj Hc Hj. apply nth_snoc in Hc as [Hc|[-> <-]].
    + assert (Lj : j < length (w_msgs s)) by (eapply nth_lt; eauto). apply nth_snoc in Hj as [Hj|[-> _]]; [|lia]. eapply msg_step; eauto. unfold n. lia.
    + apply nth_snoc in Hj as [Hj|[_ <-]]; [apply nth_lt in Hj; lia|exact M].
Qed.

Theorem op_ok s v o : inv s v -> exists s' v', w_op s o = Some s' /\ v_op v o = Some v' /\ inv s' v'.
Proof.
  intros I. destruct s as [h ma bu ms g tr]. destruct v as [vma vbu vms vg vtr]. pose proof I as [Eg Et Hma Hlen Hnd [w [Ho [Hx [HB HM]]]]].
  cbn [w_g v_g w_trace v_trace w_mach v_mach w_buf v_buf w_msgs v_msgs w_heap] in *. subst vg vtr.
  destruct o as [best compliant|b|k i x|k b i j| |k c|k z|k u]; cbn [w_op v_op].
  - eexists _, _. split; [reflexivity|]. split; [reflexivity|]. destruct I. constructor; cbn; auto. apply Forall2_snoc; [exact Hma|]. cbn. repeat split.
  - unfold alloc. eexists _, _. split; [reflexivity|]. split; [reflexivity|]. 
    assert (Hn : w (length h) = None) by (destruct (w (length h)) eqn:E; [|reflexivity]; exfalso; assert (length h < length h) by (apply Ho; congruence); lia).
    assert (S : forall n, step_ok n n n w h w (h ++ [KArr b])) by (intros n; apply step_grow; exact Ho).
    constructor; cbn; auto.
    + rewrite map_app. cbn. apply NoDup_snoc; [exact Hnd|]. intros Ha. apply in_map_iff in Ha as [d [E Hd]].
      apply In_nth_error in Hd as [j Hj]. pose proof (Forall2_nth _ _ _ HB j) as F. rewrite Hj in F. destruct (nth_error vbu j); [|tauto]. destruct F as [_ [F _]]. apply hget_lt in F. lia.
    + exists w. split; [apply (S 0)|]. split; [exact Hx|]. split.
      * apply Forall2_snoc; [eapply Forall2_imp; [|exact HB]; intros d b0; eapply (buf_step 0); eauto|]. split; [exact Hn|]. split; [apply hget_new|]. split; reflexivity.
      * intros k a m Ha Hm. eapply (msg_keeps (fun _ => True)); [apply keeps_grow; exact Ho|intros; exact Logic.I..|eapply HM; eauto].
  - pose proof (Forall2_nth _ _ _ HB k) as F. destruct (nth_error bu k) as [d|] eqn:Ed, (nth_error vbu k) as [b|] eqn:Eb; try tauto.
    2:{ eexists _, _. split; [reflexivity|]. split; [reflexivity|]. exact I. }
    destruct F as [F1 [F2 [F3 F4]]]. rewrite F4. destruct (i <? length b).
    2:{ eexists _, _. split; [reflexivity|]. split; [reflexivity|]. exact I. }
    rewrite F2, F3. cbn [Nat.add]. eexists _, _. split; [reflexivity|]. split; [reflexivity|]. constructor; cbn; auto.
    exists w. split; [intros a Ha; rewrite hput_len; apply Ho; exact Ha|]. split; [exact Hx|]. split.
    + assert (G : forall l vl, Forall2 (buf_rel w h) l vl -> forall j, (forall jj dd, nth_error l jj = Some dd -> jj <> j -> s_arr dd <> s_arr d) -> (forall dd, nth_error l j = Some dd -> dd = d) ->
        Forall2 (buf_rel w (hput h (s_arr d) (KArr (replace b i x)))) l (replace vl j (replace b i x))).
      { intros l vl F. induction F as [|dd bb l vl R F IH]; intros j Hj1 Hj2; [destruct j; constructor|]. destruct j as [|j]; cbn [replace]; constructor.
        - rewrite (Hj2 dd eq_refl). split; [exact F1|]. split; [apply hget_put_same; eapply hget_lt; eauto|]. split; [exact F3|]. rewrite replace_len. exact F4.
        - clear IH. assert (forall jj dd, nth_error l jj = Some dd -> s_arr dd <> s_arr d) by (intros jj d2 E; apply (Hj1 (S jj) d2 E); lia).
          clear -F H. induction F as [|d2 b2 l vl [R1 [R2 R3]] F IH]; constructor.
          + split; [exact R1|]. split; [|exact R3]. rewrite hget_put_other; [exact R2|]. intros E. apply (H 0 d2 eq_refl). congruence.
          + apply IH. intros jj d3 E. apply (H (S jj) d3 E).
        - destruct R as [R1 [R2 R3]]. split; [exact R1|]. split; [|exact R3]. rewrite hget_put_other; [exact R2|]. intros E. apply (Hj1 0 dd eq_refl); [lia|congruence].
        - apply IH; [intros jj d2 E N; apply (Hj1 (S jj) d2 E); lia|intros d2 E; apply Hj2; exact E]. }
      apply G; [exact HB| |intros dd E; congruence].
      intros jj dd E N EE. apply N. apply (proj1 (NoDup_nth_error (map s_arr bu)) Hnd).
      * rewrite map_length. eapply nth_lt; eauto.
      * rewrite !nth_error_map, E, Ed. cbn. congruence.
    + intros j a m Ha Hm. eapply (msg_keeps (fun _ => True)); [|intros; exact Logic.I..|eapply HM; eauto].
      intros q l Hq _. split; [exact Hq|]. apply hget_put_other. congruence.
  - pose proof (Forall2_nth _ _ _ Hma k) as F. pose proof (Forall2_nth _ _ _ HB b) as F'.
    destruct (nth_error ma k) as [hm|] eqn:Em, (nth_error vma k) as [[best compl]|] eqn:Ev; try tauto.
    2:{ eexists _, _. split; [reflexivity|]. split; [reflexivity|]. exact I. }
    destruct (nth_error bu b) as [d|] eqn:Ed, (nth_error vbu b) as [buf|] eqn:Eb; try tauto.
    2:{ eexists _, _. split; [reflexivity|]. split; [reflexivity|]. exact I. }
    destruct F as [C1 [C2 C3]]. cbn [fst snd] in C2, C3. destruct F' as [F1 [F2 [F3 F4]]].
    assert (Rd : slice_read h d = Some buf) by (unfold slice_read; rewrite F2, F3, F4; cbn [Nat.add skipn]; rewrite Nat.leb_refl, firstn_all; reflexivity).
    pose proof (slice_read_sub h d buf i j Rd) as Rs. destruct (zslice buf i j) as [input|].
    2:{ rewrite Rs. eexists _, _. split; [reflexivity|]. split; [reflexivity|]. exact I. }
    destruct Rs as [u [-> Ru]].
    destruct (h_parse_ok (length ms) w h u input hm Ho (fun a r E => Nat.lt_irrefl _ (Hx a _ r E)) Ru C1) as [hm' [h' [r [w' [-> [P1 [P2 [P3 [P4 P5]]]]]]]]].
    rewrite C2, C3 in P5. destruct (parse_total (new_machine best compl) input) as [vr [ve Ep]]. rewrite Ep in P5 |- *.
    destruct r as [ra re| |]; cbn in P5; try tauto. destruct P5 as [-> P5].
    assert (Hma' : Forall2 (fun hm bc => clean hm /\ hm_best hm = fst bc /\ m_compliantMsg (hm_x hm) = snd bc) (replace ma k hm') vma).
    { replace vma with (replace vma k (best, compl)).
      - apply Forall2_replace; [exact Hma|]. cbn [fst snd]. split; [exact P1|]. split; congruence.
      - clear -Ev. revert k Ev. induction vma as [|y l IH]; intros [|k] E; cbn in *; try discriminate; [congruence|]. rewrite IH; auto. }
    destruct ra as [a|], vr as [m|]; try tauto.
    + eexists _, _. split; [reflexivity|]. split; [reflexivity|].
      apply (inv_new (World h ma bu ms g tr) (Values vma vbu vms g tr) a m h' w w' (replace ma k hm') vma (tr ++ [(true, ve)])); auto.
    + eexists _, _. split; [reflexivity|]. split; [reflexivity|].
      assert (Fr : forall b, b < length h -> hget h' b = hget h b).
      { intros b0 L. apply (st_frame _ _ _ _ _ _ _ P4 b0 L); intros r0 E; exact (Nat.lt_irrefl _ (Hx _ _ _ E)). }
      constructor; cbn; auto. exists w. split; [intros a Ha; apply Ho in Ha; pose proof (st_len _ _ _ _ _ _ _ P4); lia|]. split; [exact Hx|]. split.
      * eapply Forall2_imp; [|exact HB]. intros dd bb [R1 [R2 R3]]. split; [exact R1|]. split; [|exact R3]. rewrite Fr; [exact R2|eapply hget_lt; eauto].
      * intros jj a m Ha Hm. eapply (msg_keeps (fun _ => True)); [|intros; exact Logic.I..|eapply HM; eauto].
        intros q l Hq _. split; [exact Hq|]. apply Fr. apply Ho. congruence.
  - unfold h_new_message, alloc. eexists _, _. split; [reflexivity|]. split; [reflexivity|].
    apply (inv_new (World h ma bu ms g tr) (Values vma vbu vms g tr) (length h) empty_message (h ++ [KMsg5 base_nil 0 None]) w (own_new w (length h) (length ms) RStruct) ma vma tr); auto.
    + cbn. apply step_alloc; auto.
    + cbn. exists base_nil, None. split; [unfold own_new; rewrite Nat.eqb_refl; reflexivity|]. split; [apply hget_new|]. split; [|exact Logic.I]. unfold base_rel. cbn. tauto.
  - destruct (nth_error ms k) as [a|] eqn:Ea, (nth_error vms k) as [m|] eqn:Em.
    + pose proof (h_step_ok k k k w h a m g c Ho (HM _ _ _ Ea Em)) as S. pose proof (set_never_panics g m c) as N. destruct (step g m c) as [[g' m']|]; [|congruence].
      destruct S as [h' [-> [w' [S1 [S2 _]]]]]. eexists _, _. split; [reflexivity|]. split; [reflexivity|].
      exact (inv_msg (World h ma bu ms g tr) (Values vma vbu vms g tr) k a m m' h' w w' g' Ea Em I Ho Hx HB HM S1 S2).
    + exfalso. apply nth_lt in Ea. apply nth_error_None in Em. lia.
    + exfalso. apply nth_lt in Em. apply nth_error_None in Ea. lia.
    + eexists _, _. split; [reflexivity|]. split; [reflexivity|]. exact I.
  - destruct (nth_error ms k) as [a|] eqn:Ea, (nth_error vms k) as [m|] eqn:Em.
    + destruct (compute_ok k k k w h a m z Ho (HM _ _ _ Ea Em)) as [h' [-> [w' [S1 [S2 _]]]]]. eexists _, _. split; [reflexivity|]. split; [reflexivity|].
      exact (inv_msg (World h ma bu ms g tr) (Values vma vbu vms g tr) k a m _ h' w w' g Ea Em I Ho Hx HB HM S1 S2).
    + exfalso. apply nth_lt in Ea. apply nth_error_None in Em. lia.
    + exfalso. apply nth_lt in Em. apply nth_error_None in Ea. lia.
    + eexists _, _. split; [reflexivity|]. split; [reflexivity|]. exact I.
  - destruct (nth_error ms k) as [a|] eqn:Ea, (nth_error vms k) as [m|] eqn:Em.
    + destruct (write_ok k w h a m u Ho (HM _ _ _ Ea Em)) as [h' [w' [-> [S1 S2]]]]. eexists _, _. split; [reflexivity|]. split; [reflexivity|].
      exact (inv_msg (World h ma bu ms g tr) (Values vma vbu vms g tr) k a m _ h' w w' g Ea Em I Ho Hx HB HM S1 S2).
    + exfalso. apply nth_lt in Ea. apply nth_error_None in Em. lia.
    + exfalso. apply nth_lt in Em. apply nth_error_None in Ea. lia.
    + eexists _, _. split; [reflexivity|]. split; [reflexivity|]. exact I.
Qed.
Lemma inv0 g : inv (world0 g) (values0 g).
Proof.
  constructor; cbn; auto; try constructor. exists (fun _ => None). split; [intros b H; congruence|]. split; [discriminate|]. split; [constructor|]. intros k a m H. destruct k; discriminate.
Qed.
Lemma inv_read s v : inv s v -> map (read5 (w_heap s)) (w_msgs s) = map Some (v_msgs v) /\ map (slice_read (w_heap s)) (w_buf s) = map Some (v_buf v) /\ w_trace s = v_trace v.
Proof.
  intros [Eg Et Hma Hlen Hnd [w [Ho [Hx [HB HM]]]]]. split; [|split; [|exact Et]].
  - revert HM Hlen. generalize (v_msgs v) as vm. assert (G : forall l vm d, (forall k a m, nth_error l k = Some a -> nth_error vm k = Some m -> msg_rel (d + k) (d + k) (d + k) w (w_heap s) a m) ->
      length l = length vm -> map (read5 (w_heap s)) l = map Some vm).
    { induction l as [|a l IH]; intros [|m vm] d H L; cbn in *; try discriminate; auto. f_equal.
      - eapply msg_read. apply (H 0 a m); reflexivity.
      - apply (IH vm (S d)); [|lia]. intros k b c H1 H2. specialize (H (S k) b c H1 H2). rewrite Nat.add_succ_r in H. exact H. }
    intros vm HM L. apply (G _ _ 0); [exact HM|exact L].
  - clear -HB. induction HB as [|d b l vl [F1 [F2 [F3 F4]]] F IH]; cbn; [reflexivity|]. f_equal; [|exact IH].
    unfold slice_read. rewrite F2, F3, F4. cbn [Nat.add skipn]. rewrite Nat.leb_refl, firstn_all. reflexivity.
Qed.
(* C62: whatever is parsed, built, written through the pointers of messages and written into the buffers, and in whatever order, each
   message and each buffer behaves as a value of its own: what is seen through the pointers is what the operations on that message
   alone give, every Parse gives what a new machine gives on the bytes then in its input, and nothing panics. *)
Theorem messages_are_values g l : exists s v, w_ops (world0 g) l = Some s /\ v_ops (values0 g) l = Some v /\
  map (read5 (w_heap s)) (w_msgs s) = map Some (v_msgs v) /\ map (slice_read (w_heap s)) (w_buf s) = map Some (v_buf v) /\ w_trace s = v_trace v.
Proof.
  assert (G : forall l s v, inv s v -> exists s' v', w_ops s l = Some s' /\ v_ops v l = Some v' /\ inv s' v').
  { clear. induction l as [|o l IH]; intros s v I; cbn [w_ops v_ops]; [exists s, v; auto|].
    destruct (op_ok s v o I) as [s' [v' [-> [-> I']]]]. apply IH. exact I'. }
  destruct (G l _ _ (inv0 g)) as [s [v [H1 [H2 H3]]]]. exists s, v. split; [exact H1|]. split; [exact H2|]. apply inv_read. exact H3.
Qed.

Lemma grown (h : heap) : forall h', (forall k, k < length h -> hget h' k = hget h k) -> exists new, h' = h ++ new.
Proof.
  induction h as [|c h IH]; intros h' H; [exists h'; reflexivity|]. destruct h' as [|c' h']; [specialize (H 0 ltac:(cbn; lia)); discriminate H|].
  destruct (IH h') as [new ->]; [intros k L; apply (H (S k)); cbn; lia|]. exists new. specialize (H 0 ltac:(cbn; lia)). cbn in H. injection H as ->. reflexivity.
Qed.
(* a machine as NewMachine and any calls of Parse leave it *)
Inductive reachable_machine (best compliant : bool) : hmachine -> Prop :=
| rm_new : reachable_machine best compliant (h_new_machine best compliant)
| rm_parse m h d data m' h' r : reachable_machine best compliant m -> slice_read h d = Some data -> h_parse m h d = (m', h', r) -> reachable_machine best compliant m'.
Lemma reachable_clean best c m : reachable_machine best c m -> clean m /\ hm_best m = best /\ m_compliantMsg (hm_x m) = c.
Proof.
  induction 1 as [|m h d data m' h' r H IH Hd E]; [repeat split|]. destruct IH as [I1 [I2 I3]].
  destruct (h_parse_ok 0 (fun _ => None) h d data m (fun b Hb => False_ind _ (Hb eq_refl)) (fun a r0 E0 => ltac:(discriminate)) Hd I1) as [m2 [h2 [r2 [w2 [E2 [J1 [J2 [J3 _]]]]]]]].
  rewrite E in E2. injection E2 as <- <- <-. split; [exact J1|]. split; congruence.
Qed.
(* C62: in any memory at all, Parse only adds to it, and all that can be reached from the message it returns is new *)
Theorem parse_only_adds best compliant m h d data : reachable_machine best compliant m -> slice_read h d = Some data ->
  exists m' new a e, h_parse m h d = (m', h ++ new, HRet a e) /\
    match a with
    | Some a => Ret (read5 (h ++ new) a) e = snd (parse (new_machine best compliant) data) /\ forall b, reach (h ++ new) a b -> length h <= b
    | None => Ret None e = snd (parse (new_machine best compliant) data)
    end.
Proof.
  intros R Hd. destruct (reachable_clean _ _ _ R) as [C1 [C2 C3]].
  assert (Ho : own_ok (fun _ => None) h) by (intros b Hb; congruence).
  destruct (h_parse_ok 0 (fun _ => None) h d data m Ho (fun a r0 E0 => ltac:(discriminate)) Hd C1) as [m' [h' [r [w' [E [_ [_ [_ [S X]]]]]]]]].
  assert (Ep : exists new, h' = h ++ new).
  { apply grown. intros k L. apply (st_frame _ _ _ _ _ _ _ S k L); discriminate. }
  destruct Ep as [new ->]. rewrite C2, C3 in X. destruct (parse_total (new_machine best compliant) data) as [vr [ve Ep]]. rewrite Ep in *.
  destruct r as [ra re| |]; cbn in X; try tauto. destruct X as [-> X].
  exists m', new, ra, ve. split; [exact E|]. destruct ra as [a|], vr as [v|]; try tauto.
  split; [rewrite (msg_read _ _ _ _ _ _ _ X); reflexivity|]. intros b Hb. pose proof (msg_reach _ _ _ _ _ _ _ _ X Hb) as W.
  destruct (Nat.lt_ge_cases b (length h)) as [L|L]; [|exact L]. exfalso. apply W. rewrite (st_old _ _ _ _ _ _ _ S) by exact L. reflexivity.
Qed.
(* a program that reuses a machine, overwrites the buffer after Parse, edits through pointers, and builds: four messages, all different *)
Definition demo_ops : list op :=
  [ ONewMachine true false; ONewBuf (lit "<165>4 - host app - id [x@1 k=""a\]b""][y z=""1""] hello");
    OParse 0 0 0 52; OWriteBuf 0 2 "5"%byte; OWriteBuf 0 9 "H"%byte; OParse 0 0 0 52; OParse 0 0 0 40; OParse 0 0 3 9;
    OSet 0 (SetParameter (lit "x@1") (lit "k") (lit "new")); OWrite 1 (WHostname (lit "other")); OWrite 1 (WDelElem (lit "x@1"));
    OWrite 2 (WParam (lit "x@1") (lit "k") (lit "w")); ONewMsg; OSet 3 (SetPriority 13); OSet 3 (SetHostname (lit "h")); OCompute 2 7; OWriteBuf 0 30 "0"%byte ].
Example demo_ops_seen : match w_ops (world0 (Globals [] [])) demo_ops with
  | Some s => (map (fun a => match read5 (w_heap s) a with Some m => (priority m, hostname m, structuredData m) | None => (None, None, None) end) (w_msgs s), w_trace s)
  | None => ([], []) end
  = ([(Some 165%Z, Some (lit "host"), Some [(lit "x@1", [(lit "k", lit "new")]); (lit "y", [(lit "z", lit "1")])]);
      (Some 155%Z, Some (lit "other"), Some [(lit "y", [(lit "z", lit "1")])]);
      (Some 7%Z, Some (lit "Host"), Some [(lit "x@1", [(lit "k", lit "w")]); (lit "y", [])]);
      (Some 13%Z, Some (lit "h"), None)],
     [(true, None); (true, None); (true, Some (PErr ESdParam 40)); (false, Some (PErr EPri 0))]).
Proof. vm_compute. reflexivity. Qed.
(* parse_only_adds on a machine and a memory that have been used *)
Example used_memory : exists m h d data, reachable_machine true false m /\ slice_read h d = Some data /\ length h = 16%nat /\
  match h_parse m h d with (_, h', HRet (Some a) None) => length h' = 31%nat /\ (16 <= a)%nat | _ => False end.
Proof.
  set (h0 := [KArr (lit "<165>4 - host app - id [x@1 k=""a\]b""] hello")]). set (d := Slice 0 0 43 43).
  destruct (h_parse (h_new_machine true false) h0 d) as [[m h] r] eqn:E.
  exists m, h, d, (lit "<165>4 - host app - id [x@1 k=""a\]b""] hello"). split; [eapply (rm_parse true false _ h0 d); [apply rm_new|reflexivity|exact E]|].
  vm_compute in E. injection E as <- <- _. split; [reflexivity|]. split; [reflexivity|]. vm_compute. repeat constructor.
Qed.
