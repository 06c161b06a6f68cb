(* Ownership: who may write which address.  Proof device for the theorems about sharing. *)
From Verif Require Import Bytes GoMap GoTime Common M5424Def M5424 BuilderBaseDef Heap HBuilder SpecHeap.
Local Open Scope nat_scope.

Inductive role := RStruct | RFac | RSev | RPri | RTs | RHost | RApp | RProc | RMid | RMsg | RSd | ROuter | RInner (k : bytes) | ROut.
Definition owner := addr -> option (nat * role).
Definition own_ok (w : owner) (h : heap) : Prop := forall b, w b <> None -> b < length h.
Definition own_new (w : owner) (a : addr) (o : nat) (r : role) : owner := fun b => if Nat.eqb b a then Some (o, r) else w b.

(* a step that may write the cells owned by i or g, and allocates for p and g *)
Record step_ok (i p g : nat) (w : owner) (h : heap) (w' : owner) (h' : heap) : Prop := StepOk {
  st_ok : own_ok w' h';
  st_len : length h <= length h';
  st_old : forall b, b < length h -> w' b = w b;
  st_new : forall b o r, length h <= b -> w' b = Some (o, r) -> o = p \/ o = g;
  st_frame : forall b, b < length h -> (forall r, w b <> Some (i, r)) -> (forall r, w b <> Some (g, r)) -> hget h' b = hget h b }.
Lemma step_refl i p g w h : own_ok w h -> step_ok i p g w h w h.
Proof. intros H. constructor; auto. intros b o r Hb Hw. exfalso. assert (b < length h) by (apply H; congruence). lia. Qed.
Lemma step_trans i p g w1 h1 w2 h2 w3 h3 : step_ok i p g w1 h1 w2 h2 -> step_ok i p g w2 h2 w3 h3 -> step_ok i p g w1 h1 w3 h3.
Proof.
  intros A B. pose proof (st_len _ _ _ _ _ _ _ A). pose proof (st_len _ _ _ _ _ _ _ B). constructor.
  - apply (st_ok _ _ _ _ _ _ _ B).
  - lia.
  - intros b Hb. rewrite (st_old _ _ _ _ _ _ _ B) by lia. apply (st_old _ _ _ _ _ _ _ A). exact Hb.
  - intros b o r Hb Hw. destruct (Nat.lt_ge_cases b (length h2)) as [Hl|Hl].
    + rewrite (st_old _ _ _ _ _ _ _ B) in Hw by lia. eapply (st_new _ _ _ _ _ _ _ A); eauto.
    + eapply (st_new _ _ _ _ _ _ _ B); eauto.
  - intros b Hb H1 H2. rewrite (st_frame _ _ _ _ _ _ _ B); [apply (st_frame _ _ _ _ _ _ _ A); auto|lia| |].
    + intros r. rewrite (st_old _ _ _ _ _ _ _ A) by lia. apply H1.
    + intros r. rewrite (st_old _ _ _ _ _ _ _ A) by lia. apply H2.
Qed.
(* allocation, owned or not *)
Lemma step_alloc i p g w h c o r : own_ok w h -> o = p \/ o = g -> step_ok i p g w h (own_new w (length h) o r) (h ++ [c]).
Proof.
  intros H Ho. unfold own_new. constructor.
  - intros b. rewrite app_length; cbn. destruct (Nat.eqb_spec b (length h)); [lia|]. intros Hb. apply H in Hb. lia.
  - rewrite app_length; lia.
  - intros b Hb. destruct (Nat.eqb_spec b (length h)); [lia|reflexivity].
  - intros b o' r' Hb Hw. destruct (Nat.eqb_spec b (length h)); [injection Hw as <- _; exact Ho|].
    assert (b < length h) by (apply H; congruence). lia.
  - intros b Hb _ _. apply hget_old. exact Hb.
Qed.
Lemma step_grow i p g w h r : own_ok w h -> step_ok i p g w h w (h ++ r).
Proof.
  intros H. constructor; auto.
  - intros b Hb. apply H in Hb. rewrite app_length. lia.
  - rewrite app_length; lia.
  - intros b o r' Hb Hw. assert (b < length h) by (apply H; congruence). lia.
  - intros b Hb _ _. apply hget_old. exact Hb.
Qed.
Lemma step_put i p g w h a c o r : own_ok w h -> w a = Some (o, r) -> o = i \/ o = g -> step_ok i p g w h w (hput h a c).
Proof.
  intros H Ha Ho. constructor; auto.
  - intros b Hb. rewrite hput_len. apply H. exact Hb.
  - rewrite hput_len; lia.
  - intros b o' r' Hb Hw. assert (b < length h) by (apply H; congruence). lia.
  - intros b Hb H1 H2. apply hget_put_other. intros ->. destruct Ho as [-> | ->]; [eapply H1|eapply H2]; eauto.
Qed.

(* a pointer and the value seen through it *)
Definition ptr_rel {A} (w : owner) (o : nat) (r : role) (mk : A -> cell) (h : heap) (p : option addr) (v : option A) : Prop :=
  match p, v with
  | None, None => True
  | Some a, Some v => w a = Some (o, r) /\ hget h a = Some (mk v)
  | _, _ => False
  end.
Definition elem_rel (w : owner) (g : nat) (h : heap) (k : bytes) (q : option addr) (e : option (gmap bytes)) : Prop :=
  match q, e with
  | None, None => True
  | Some a, Some e => w a = Some (g, RInner k) /\ hget h a = Some (KInner e)
  | _, _ => False
  end.
Definition map_rel (w : owner) (g : nat) (h : heap) (o : addr) (m : sdmap) : Prop :=
  exists om, w o = Some (g, ROuter) /\ hget h o = Some (KOuter om) /\ msorted om /\ msorted m /\ forall k, elem_rel w g h k (mget om k) (mget m k).
Definition sd_rel (w : owner) (g : nat) (h : heap) (p : option addr) (v : option sdmap) : Prop :=
  match p, v with
  | None, None => True
  | Some a, Some m => exists o, w a = Some (g, RSd) /\ hget h a = Some (KRef (Some o)) /\ map_rel w g h o m
  | _, _ => False
  end.
Definition base_rel (w : owner) (o : nat) (h : heap) (b : base) (m : message) : Prop :=
  ptr_rel w o RFac KU8 h (p_facility b) (facility m) /\ ptr_rel w o RSev KU8 h (p_severity b) (severity m) /\
  ptr_rel w o RPri KU8 h (p_priority b) (priority m) /\ ptr_rel w o RTs KTime h (p_timestamp b) (timestamp m) /\
  ptr_rel w o RHost KStr h (p_hostname b) (hostname m) /\ ptr_rel w o RApp KStr h (p_appname b) (appname m) /\
  ptr_rel w o RProc KStr h (p_procID b) (procID m) /\ ptr_rel w o RMid KStr h (p_msgID b) (msgID m) /\
  ptr_rel w o RMsg KStr h (p_message b) (msg m).
(* the message at a is m: its struct owned by i, the variables its pointers lead to by p, its structured data by g *)
Definition msg_rel (i p g : nat) (w : owner) (h : heap) (a : addr) (m : message) : Prop :=
  exists b sd, w a = Some (i, RStruct) /\ hget h a = Some (KMsg5 b (version m) sd) /\ base_rel w p h b m /\ sd_rel w g h sd (structuredData m).

(* relations survive when the cells concerned do *)
Definition keeps (P : nat * role -> Prop) (w : owner) (h : heap) (w' : owner) (h' : heap) : Prop :=
  forall a l, w a = Some l -> P l -> w' a = Some l /\ hget h' a = hget h a.
Definition ptr_role (r : role) : Prop := match r with RFac | RSev | RPri | RTs | RHost | RApp | RProc | RMid | RMsg => True | _ => False end.
Definition inner_role (r : role) : Prop := match r with RInner _ => True | _ => False end.
Definition sd_role (r : role) : Prop := match r with RSd | ROuter | RInner _ => True | _ => False end.
Lemma ptr_keeps {A} (P : nat * role -> Prop) w o r (mk : A -> cell) h p v w' h' : keeps P w h w' h' -> P (o, r) -> ptr_rel w o r mk h p v -> ptr_rel w' o r mk h' p v.
Proof. intros K HP. destruct p, v; cbn; auto. intros [H1 H2]. destruct (K _ _ H1 HP) as [-> ->]. auto. Qed.
Lemma base_keeps (P : nat * role -> Prop) w o h b m w' h' : keeps P w h w' h' -> (forall r, ptr_role r -> P (o, r)) -> base_rel w o h b m -> base_rel w' o h' b m.
Proof.
  intros K HP [H1 [H2 [H3 [H4 [H5 [H6 [H7 [H8 H9]]]]]]]].
  unfold base_rel. repeat match goal with |- _ /\ _ => split end; (eapply ptr_keeps; [exact K|apply HP; exact I|assumption]).
Qed.
Lemma elem_keeps (P : nat * role -> Prop) w g h k q e w' h' : keeps P w h w' h' -> P (g, RInner k) -> elem_rel w g h k q e -> elem_rel w' g h' k q e.
Proof. intros K HP. destruct q, e; cbn; auto. intros [H1 H2]. destruct (K _ _ H1 HP) as [-> ->]. auto. Qed.
Lemma map_keeps (P : nat * role -> Prop) w g h o m w' h' : keeps P w h w' h' -> P (g, ROuter) -> (forall k, P (g, RInner k)) -> map_rel w g h o m -> map_rel w' g h' o m.
Proof.
  intros K HP HQ [om [H1 [H2 [H3 [H4 H5]]]]]. exists om. destruct (K _ _ H1 HP) as [-> ->].
  split; [reflexivity|]. split; [exact H2|]. split; [exact H3|]. split; [exact H4|]. intros k. eapply elem_keeps; eauto.
Qed.
Lemma sd_keeps (P : nat * role -> Prop) w g h p v w' h' : keeps P w h w' h' -> (forall r, sd_role r -> P (g, r)) -> sd_rel w g h p v -> sd_rel w' g h' p v.
Proof.
  intros K HP. destruct p, v; cbn; auto. intros [o [H1 [H2 H3]]]. exists o. destruct (K _ _ H1 (HP RSd I)) as [-> ->].
  split; [reflexivity|]. split; [exact H2|]. eapply map_keeps; [exact K|apply HP; exact I|intros k; apply HP; exact I|exact H3].
Qed.
Lemma msg_keeps (P : nat * role -> Prop) i p g w h a m w' h' : keeps P w h w' h' -> P (i, RStruct) -> (forall r, P (p, r)) -> (forall r, P (g, r)) ->
  msg_rel i p g w h a m -> msg_rel i p g w' h' a m.
Proof.
  intros K P1 P2 P3 [b [sd [H1 [H2 [H3 H4]]]]]. exists b, sd. destruct (K _ _ H1 P1) as [-> ->].
  split; [reflexivity|]. split; [exact H2|]. split; [eapply base_keeps; eauto|eapply sd_keeps; eauto].
Qed.
Lemma keeps_weaken (P Q : nat * role -> Prop) w h w' h' : (forall l, Q l -> P l) -> keeps P w h w' h' -> keeps Q w h w' h'.
Proof. intros H K a l Ha Hq. apply K; auto. Qed.
Lemma keeps_refl P w h : keeps P w h w h. Proof. intros a l H _. auto. Qed.
(* what a step keeps *)
Lemma step_keeps i p g w h w' h' : own_ok w h -> step_ok i p g w h w' h' -> keeps (fun l => fst l <> i /\ fst l <> g) w h w' h'.
Proof.
  intros Ho S a [o r] Ha [Hi Hg]. cbn in *. assert (Hl : a < length h) by (apply Ho; congruence). split.
  - rewrite (st_old _ _ _ _ _ _ _ S) by exact Hl. exact Ha.
  - apply (st_frame _ _ _ _ _ _ _ S); [exact Hl| |]; intros r'; congruence.
Qed.
Lemma keeps_new P w h c o' r : own_ok w h -> keeps P w h (own_new w (length h) o' r) (h ++ [c]).
Proof.
  intros Ho a l Ha _. assert (Hl : a < length h) by (apply Ho; congruence). unfold own_new.
  destruct (Nat.eqb_spec a (length h)); [lia|]. split; [exact Ha|]. apply hget_old. exact Hl.
Qed.
Lemma keeps_grow P w h r : own_ok w h -> keeps P w h w (h ++ r).
Proof. intros Ho a l Ha _. assert (Hl : a < length h) by (apply Ho; congruence). split; [exact Ha|]. apply hget_old. exact Hl. Qed.
Lemma keeps_put w h a l0 c : w a = Some l0 -> keeps (fun l => l <> l0) w h w (hput h a c).
Proof. intros H b l Hb Hl. split; [exact Hb|]. apply hget_put_other. intros ->. congruence. Qed.
Lemma keeps_trans P w1 h1 w2 h2 w3 h3 : keeps P w1 h1 w2 h2 -> keeps P w2 h2 w3 h3 -> keeps P w1 h1 w3 h3.
Proof. intros A B a l H HP. destruct (A _ _ H HP) as [H1 H2]. destruct (B _ _ H1 HP) as [H3 H4]. split; congruence. Qed.

(* what the relation says is what is read *)
Lemma ptr_read {A} w o r (mk : A -> cell) (f : cell -> option A) h p v : (forall x, f (mk x) = Some x) -> ptr_rel w o r mk h p v -> deref h f p = Some v.
Proof. intros Hf. destruct p, v; cbn; try tauto. intros [_ ->]. rewrite Hf. reflexivity. Qed.
Lemma elems_read w g h : forall om m, msorted om -> msorted m -> (forall k, elem_rel w g h k (mget om k) (mget m k)) -> elems_in h om = Some m.
Proof.
  induction om as [|[k q] r IH]; intros m So Sm H.
  - destruct m as [|[k e] m]; [reflexivity|]. specialize (H k). cbn in H. rewrite bcmp_refl in H. destruct H.
  - destruct m as [|[k' e] m].
    { specialize (H k). cbn in H. rewrite bcmp_refl in H. destruct H. }
    destruct So as [A1 B1]. destruct Sm as [A2 B2].
    assert (k = k').
    { pose proof (H k) as Hk. pose proof (H k') as Hk'. cbn [mget] in Hk, Hk'. rewrite bcmp_refl in Hk, Hk'.
      destruct (bcmp k k') eqn:E; [apply bcmp_eq; exact E|destruct Hk|].
      apply bcmp_gt_lt in E. rewrite E in Hk'. destruct Hk'. }
    subst k'. pose proof (H k) as Hk. cbn [mget] in Hk. rewrite bcmp_refl in Hk. destruct Hk as [_ Hk].
    cbn [elems_in]. rewrite Hk. rewrite (IH m); auto. intros k2. specialize (H k2). cbn [mget] in H.
    destruct (bcmp k2 k) eqn:E; auto.
    + apply bcmp_eq in E. subst k2. rewrite !mget_below; auto. exact I.
    + rewrite !mget_below; [exact I| |]; intros; eapply bcmp_lt_trans; eauto.
Qed.
Lemma sd_read_ok w g h p v : sd_rel w g h p v -> deref h (sd_in h) p = Some v.
Proof.
  destruct p, v; cbn; try tauto. intros [o [_ [-> [om [_ [H2 [H3 [H4 H5]]]]]]]]. cbn. rewrite H2. rewrite (elems_read w g h om s); auto.
Qed.
Lemma msg_read i p g w h a m : msg_rel i p g w h a m -> read5 h a = Some m.
Proof.
  intros [b [sd [_ [H [[H1 [H2 [H3 [H4 [H5 [H6 [H7 [H8 H9]]]]]]]] Hs]]]]]. unfold read5. rewrite H.
  rewrite (ptr_read w p RFac KU8 u8_in _ _ _ (fun x => eq_refl) H1). cbn [bind]. rewrite (ptr_read w p RSev KU8 u8_in _ _ _ (fun x => eq_refl) H2). cbn [bind].
  rewrite (ptr_read w p RPri KU8 u8_in _ _ _ (fun x => eq_refl) H3). cbn [bind]. rewrite (ptr_read w p RTs KTime time_in _ _ _ (fun x => eq_refl) H4). cbn [bind].
  rewrite (ptr_read w p RHost KStr str_in _ _ _ (fun x => eq_refl) H5). cbn [bind]. rewrite (ptr_read w p RApp KStr str_in _ _ _ (fun x => eq_refl) H6). cbn [bind].
  rewrite (ptr_read w p RProc KStr str_in _ _ _ (fun x => eq_refl) H7). cbn [bind]. rewrite (ptr_read w p RMid KStr str_in _ _ _ (fun x => eq_refl) H8). cbn [bind].
  rewrite (ptr_read w p RMsg KStr str_in _ _ _ (fun x => eq_refl) H9). cbn [bind]. rewrite (sd_read_ok _ _ _ _ _ Hs). cbn [bind]. destruct m; reflexivity.
Qed.
(* what can be reached from a message is owned *)
Lemma ptr_owned {A} w o r (mk : A -> cell) h p v x : ptr_rel w o r mk h p v -> In x (opt_addr p) -> w x = Some (o, r) /\ exists u, hget h x = Some (mk u).
Proof. destruct p, v; cbn; try tauto. intros [H1 H2] [<-|[]]. eauto. Qed.
Definition leafish (w : owner) (h : heap) (x : addr) : Prop := w x <> None /\ exists c, hget h x = Some c /\ targets c = [].
Lemma base_owned w o h b m x : base_rel w o h b m -> In x (base_addrs b) -> leafish w h x.
Proof.
  intros [H1 [H2 [H3 [H4 [H5 [H6 [H7 [H8 H9]]]]]]]] Hx. unfold base_addrs in Hx.
  repeat (apply in_app_or in Hx as [Hx|Hx]);
    match goal with H : ptr_rel _ _ _ _ _ ?p _, Hx : In _ (opt_addr ?p) |- _ => destruct (ptr_owned _ _ _ _ _ _ _ _ H Hx) as [W [u G]] end;
    (split; [congruence|eexists; split; [exact G|reflexivity]]).
Qed.
Lemma mget_key {V} (m : gmap V) k v : msorted m -> In (k, v) m -> mget m k = Some v.
Proof.
  induction m as [|[k2 v2] r IH]; cbn; [tauto|]. intros [A B] [E|E].
  - injection E as -> ->. rewrite bcmp_refl. reflexivity.
  - destruct (bcmp k k2) eqn:C; auto.
    + apply bcmp_eq in C. subst k2. specialize (A _ _ E). rewrite bcmp_refl in A. discriminate.
    + specialize (A _ _ E). exfalso. assert (X : bcmp k k = Lt) by (eapply bcmp_lt_trans; eauto). rewrite bcmp_refl in X. discriminate.
Qed.
Lemma msg_reach i p g w h a m b : msg_rel i p g w h a m -> reach h a b -> w b <> None.
Proof.
  intros [bs [sd [H1 [H2 [H3 H4]]]]] R.
  assert (X : b = a \/ leafish w h b \/ exists r o om, sd = Some r /\ (b = r \/ b = o) /\ w r = Some (g, RSd) /\ hget h r = Some (KRef (Some o)) /\ w o = Some (g, ROuter) /\ hget h o = Some (KOuter om) /\
    forall k q, In (k, q) om -> leafish w h q).
  { induction R as [|b c x R IH Hc Hx]; [auto|]. right. destruct IH as [->|[[_ [c' [L1 L2]]]|[r [o [om [E1 [E2 [E3 [E4 [E5 [E6 E7]]]]]]]]]]].
    - rewrite H2 in Hc. injection Hc as <-. cbn in Hx. apply in_app_or in Hx as [Hx|Hx]; [left; eapply base_owned; eauto|].
      destruct sd as [r|]; [|destruct Hx]. destruct Hx as [<-|[]]. right. destruct (structuredData m) as [s|]; [|destruct H4]. destruct H4 as [o [W1 [W2 [om [W3 [W4 [W5 [W6 W7]]]]]]]].
      exists r, o, om. repeat split; auto; [specialize (W7 k); rewrite (mget_key _ _ _ W5 H) in W7; destruct (mget s k); [|destruct W7]; destruct W7 as [W7 _]; congruence|].
      specialize (W7 k). rewrite (mget_key _ _ _ W5 H) in W7. destruct (mget s k); [|destruct W7]. destruct W7 as [_ W7]. eexists; split; [exact W7|reflexivity].
    - rewrite L1 in Hc. injection Hc as <-. rewrite L2 in Hx. destruct Hx.
    - destruct E2 as [-> | ->].
      + rewrite E4 in Hc. injection Hc as <-. cbn in Hx. destruct Hx as [<-|[]]. right. exists r, o, om. auto 10.
      + rewrite E6 in Hc. injection Hc as <-. cbn in Hx. apply in_map_iff in Hx as [[k q] [<- Hq]]. left. eapply E7; eauto. }
  destruct X as [->|[[X _]|[r [o [om [E1 [[-> | ->] [E3 [E4 [E5 _]]]]]]]]]]; congruence.
Qed.
